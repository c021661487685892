(** Lemmas about nodes: reports, alarm windows, waiting, the node list. *)
From Verif Require Import ModelBase ModelReports ModelNodes ModelList SpecNodes ProofReports ProofCommands.
From Coq Require Import Floats.SpecFloat.
Local Open Scope string_scope.

(** ** Maps *)
Lemma alookup_aset {V} k k' (v : V) m :
  alookup k' (aset k v m) = if String.eqb k' k then Some v else alookup k' m.
Proof.
  induction m as [|[k0 w] r IH]; cbn; [reflexivity|].
  destruct (String.eqb k k0) eqn:E; cbn.
  - apply String.eqb_eq in E. subst k0. destruct (String.eqb k' k); reflexivity.
  - rewrite IH. destruct (String.eqb k' k0) eqn:E1, (String.eqb k' k) eqn:E2; try reflexivity.
    apply String.eqb_eq in E1, E2. subst. rewrite String.eqb_refl in E. discriminate.
Qed.
Lemma mset_ok {V} k (v : V) m : m <> None ->
  exists m', mset k v m = Ok m' /\ m' <> None /\ updated m m' k v.
Proof.
  destruct m as [l|]; [|congruence]. intros _. eexists. split; [reflexivity|].
  split; [discriminate|]. split; cbn.
  - rewrite alookup_aset, String.eqb_refl. reflexivity.
  - intros k' H. rewrite alookup_aset. apply String.eqb_neq in H. rewrite H. reflexivity.
Qed.
Lemma mset_get {V} k (v : V) m m' : mset k v m = Ok m' ->
  m <> None /\ m' <> None /\
  forall k', mget k' m' = if String.eqb k' k then Some v else mget k' m.
Proof.
  destruct m as [l|]; cbn; [|discriminate]. intros E. injection E as <-.
  repeat split; try discriminate. intros k'. cbn. apply alookup_aset.
Qed.

Lemma set_bool_ok n k v : n_bool n <> None ->
  exists b, set_bool n k v = Ok (with_states n b (n_float n)) /\ b <> None /\
    updated (n_bool n) b k v.
Proof.
  intros H. destruct (mset_ok k v (n_bool n) H) as (b & E & N & U).
  exists b. unfold set_bool. rewrite E. auto.
Qed.
Lemma set_float_ok n k v : n_float n <> None ->
  exists b, set_float n k v = Ok (with_states n (n_bool n) b) /\ b <> None /\
    updated (n_float n) b k v.
Proof.
  intros H. destruct (mset_ok k v (n_float n) H) as (b & E & N & U).
  exists b. unfold set_float. rewrite E. auto.
Qed.

Lemma unchanged_refl {V} (m : smap V) : unchanged m m.
Proof. intros k. reflexivity. Qed.
Lemma same_with_states n b f : same_but_state n (with_states n b f).
Proof. unfold same_but_state. cbn. repeat (split; [reflexivity|]); reflexivity. Qed.
Ltac samest := unfold same_but_state; cbn; repeat (split; [reflexivity|]); reflexivity.
Lemma same_refl n : same_but_state n n.
Proof. unfold same_but_state. repeat (split; [reflexivity|]); reflexivity. Qed.

(** ** Small integers as doubles *)
Definition is_integerb (v : spec_float) (z : Z) : bool :=
  match v with
  | S754_zero _ => (z =? 0)%Z
  | S754_finite s m e =>
      let sm := if s then Zneg m else Zpos m in
      if (0 <=? e)%Z then (z =? sm * 2 ^ e)%Z else (z * 2 ^ (- e) =? sm)%Z
  | _ => false
  end.
Lemma is_integerb_ok v z : is_integerb v z = true -> is_integer v z.
Proof.
  destruct v; cbn; try discriminate; [apply Z.eqb_eq|].
  destruct (0 <=? e)%Z; apply Z.eqb_eq.
Qed.
Lemma small_integer z : (0 <= z < 256)%Z -> is_integer (f64_of_Z z) z.
Proof.
  intros H. apply is_integerb_ok.
  assert (A : forallb (fun k => is_integerb (f64_of_Z (Z.of_nat k)) (Z.of_nat k)) (seq 0 256) = true)
    by (vm_compute; reflexivity).
  rewrite forallb_forall in A. specialize (A (Z.to_nat z)).
  rewrite Z2Nat.id in A by lia. apply A. apply in_seq. lia.
Qed.
Lemma b2N_lt b : (b2N b < 256)%N.
Proof. pose proof (Byte.to_N_bounded b). unfold b2N. lia. Qed.

(** ** Reports *)
Lemma state_report_effect_gen n r :
  has_maps n -> state_report r ->
  (match r with RSwitchMulti1 c _ | RSwitchMulti4 c _ _ _ _ => (c < 256)%N | _ => True end) ->
  exists n', process_event n r = Ok (n', [n_id n], false) /\
    report_effect n n' r /\ same_but_state n n' /\ has_maps n'.
Proof.
  intros [HB HF] S W.
  destruct r as [t l s st ev status raw|m t i|d i e|vt sz sc p v ts u|c va|c tg d|c va|c tg d va tv|];
    try destruct S; cbn [process_event].
  - destruct (set_float_ok n (sensor_key ts u) v HF) as (f & E & N & U). rewrite E. cbn [bind].
    eexists. split; [reflexivity|]. split; [|split; [samest|split; assumption]].
    apply eff_sensor; [apply unchanged_refl|exact U].
  - destruct (set_bool_ok n "on" c HB) as (b & E & N & U). rewrite E. cbn [bind].
    eexists. split; [reflexivity|]. split; [|split; [samest|split; assumption]].
    apply eff_switch1; [exact U|apply unchanged_refl].
  - destruct (set_bool_ok n "on" c HB) as (b & E & N & U). rewrite E. cbn [bind].
    eexists. split; [reflexivity|]. split; [|split; [samest|split; assumption]].
    apply eff_switch2; [exact U|apply unchanged_refl].
  - destruct (set_bool_ok n "on" (0 <? c)%N HB) as (b & E & N & U). rewrite E. cbn [bind].
    destruct (set_float_ok (with_states n b (n_float n)) "level" (f64_of_Z (Z.of_N c)) HF)
      as (f & E' & N' & U'). rewrite E'. cbn [bind].
    eexists. split; [reflexivity|]. split; [|split; [samest|split; assumption]].
    eapply eff_level1; [exact U| |exact U'|].
    + rewrite N.ltb_lt. lia.
    + apply small_integer. lia.
  - destruct (set_bool_ok n "on" (0 <? c)%N HB) as (b & E & N & U). rewrite E. cbn [bind].
    destruct (set_float_ok (with_states n b (n_float n)) "level" (f64_of_Z (Z.of_N c)) HF)
      as (f & E' & N' & U'). rewrite E'. cbn [bind].
    eexists. split; [reflexivity|]. split; [|split; [samest|split; assumption]].
    eapply eff_level4; [exact U| |exact U'|].
    + rewrite N.ltb_lt. lia.
    + apply small_integer. lia.
Qed.

Lemma min100_small b : (min100 b < 256)%N.
Proof. unfold min100. pose proof (b2N_lt b). lia. Qed.
Lemma decoded_levels c k d r : reports_new c k d = Ok r ->
  match r with RSwitchMulti1 c _ | RSwitchMulti4 c _ _ _ _ => (c < 256)%N | _ => True end.
Proof.
  intros H. pose proof (reports_new_sound _ _ _ _ H) as [D A].
  destruct r; try exact I; cbn in D, A; inversion D as [| | | | | |Hc Hk|Hc Hk|]; subst;
  destruct c; try discriminate Hc; destruct k; try discriminate Hk;
  destruct d as [|b0 [|b1 [|b2 [|b3 d]]]]; try discriminate A;
  injection H as <- <-; intros; try (subst; apply min100_small); apply min100_small.
Qed.

Lemma state_report_effect n c k d r :
  reports_new c k d = Ok r -> has_maps n -> state_report r ->
  exists n', process_event n r = Ok (n', [n_id n], false) /\
    report_effect n n' r /\ same_but_state n n' /\ has_maps n'.
Proof. intros H M S. apply state_report_effect_gen; auto. exact (decoded_levels _ _ _ _ H). Qed.

Lemma silent_report_effect n r : silent_report r -> process_event n r = Ok (n, [], false).
Proof.
  intros [S A]. destruct r; cbn in *; try tauto; try reflexivity.
  destruct (beq status xff) eqn:E; [|reflexivity]. exfalso.
  apply Byte.byte_dec_bl in E. subst. eapply (A typ). unfold raised. eauto 8.
Qed.

Lemma beq_true a b : beq a b = true <-> a = b.
Proof. split; [apply Byte.byte_dec_bl|apply Byte.byte_dec_lb]. Qed.

(** The value of an alarm type. *)
Definition ftype (t : byte) : spec_float := f64_of_Z (Z.of_N (b2N t)).

Lemma raised_effect n r t : raised r t -> has_maps n ->
  exists n', process_event n r = Ok (n', [n_id n], true) /\ same_but_state n n' /\ has_maps n' /\
    updated (n_bool n) (n_bool n') "alarm" true /\
    (t = x00 -> unchanged (n_float n) (n_float n')) /\
    (t <> x00 -> mget "alarm" (n_float n') = Some (ftype t) /\
    mget "alarmLastType" (n_float n') = Some (ftype t) /\
    forall k, k <> "alarm" -> k <> "alarmLastType" -> mget k (n_float n') = mget k (n_float n)).
Proof.
  intros (l & s & st & ev & raw & ->) [HB HF]. cbn [process_event].
  replace (beq xff xff) with true by reflexivity.
  destruct (set_bool_ok n "alarm" true HB) as (b & E & N & U). rewrite E. cbn [bind].
  destruct (beq t x00) eqn:T.
  - cbn [bind]. apply beq_true in T. subst t. eexists. split; [reflexivity|].
    split; [samest|]. split; [split; assumption|]. split; [exact U|].
    split; [intros _; apply unchanged_refl|congruence].
  - destruct (set_float_ok (with_states n b (n_float n)) "alarm" (f64_of_Z (Z.of_N (b2N t))) HF)
      as (f1 & E1 & N1 & U1). rewrite E1. cbn [bind].
    match goal with |- context [set_float ?x "alarmLastType" ?y] =>
      destruct (set_float_ok x "alarmLastType" y N1) as (f2 & E2 & N2 & U2) end.
    rewrite E2. cbn [bind]. eexists. split; [reflexivity|].
    split; [samest|]. split; [split; assumption|]. split; [exact U|].
    split; [intros ->; discriminate T|]. intros _. destruct U1 as [A1 B1], U2 as [A2 B2]. cbn in *.
    split; [rewrite B2 by discriminate; exact A1|]. split; [exact A2|].
    intros k K1 K2. rewrite B2, B1 by assumption. reflexivity.
Qed.

Lemma window_end_effect n : has_maps n ->
  exists n', alarm_window_end n = Ok (n', [n_id n]) /\ same_but_state n n' /\ has_maps n' /\
    updated (n_bool n) (n_bool n') "alarm" false /\
    updated (n_float n) (n_float n') "alarm" (S754_zero false).
Proof.
  intros [HB HF]. unfold alarm_window_end.
  destruct (set_bool_ok n "alarm" false HB) as (b & E & N & U). rewrite E. cbn [bind].
  destruct (set_float_ok (with_states n b (n_float n)) "alarm" (f64_of_Z 0) HF)
    as (f & E1 & N1 & U1). rewrite E1. cbn [bind].
  eexists. split; [reflexivity|]. split; [samest|]. split; [split; assumption|].
  split; [exact U|exact U1].
Qed.

(** Which of the three cases a report falls in. *)
Lemma raised_dec r : (exists t, raised r t) \/ forall t, ~ raised r t.
Proof.
  destruct r; try (right; intros ? (? & ? & ? & ? & ? & ?); discriminate).
  destruct (beq status xff) eqn:E.
  - apply beq_true in E. subst. left. eexists. unfold raised. eauto 8.
  - right. intros t (? & ? & ? & ? & ? & H). inversion H. subst. discriminate E.
Qed.

(** A report never panics on a node with maps. *)
Lemma process_event_total n r : has_maps n ->
  exists n' evs o, process_event n r = Ok (n', evs, o) /\ same_but_state n n' /\ has_maps n' /\
    (o = true <-> exists t, raised r t) /\
    ((forall t, ~ raised r t) ->
       mget "alarm" (n_bool n') = mget "alarm" (n_bool n) /\
    mget "alarm" (n_float n') = mget "alarm" (n_float n) /\
    mget "alarmLastType" (n_float n') = mget "alarmLastType" (n_float n)).
Proof.
  intros M. pose proof M as [HB HF]. destruct (raised_dec r) as [[t R]|R].
  - destruct (raised_effect n r t R M) as (n' & E & S & M' & _).
    do 3 eexists. split; [exact E|]. split; [exact S|]. split; [exact M'|].
    split; [split; intros _; [exists t; exact R|reflexivity]|]. intros Q. destruct (Q t R).
  - assert (O : forall n' evs, process_event n r = Ok (n', evs, false) -> same_but_state n n' ->
       has_maps n' -> mget "alarm" (n_bool n') = mget "alarm" (n_bool n) ->
       mget "alarm" (n_float n') = mget "alarm" (n_float n) ->
       mget "alarmLastType" (n_float n') = mget "alarmLastType" (n_float n) ->
       exists n' evs o, process_event n r = Ok (n', evs, o) /\ same_but_state n n' /\ has_maps n' /\
    (o = true <-> exists t, raised r t) /\
    ((forall t, ~ raised r t) ->
           mget "alarm" (n_bool n') = mget "alarm" (n_bool n) /\
    mget "alarm" (n_float n') = mget "alarm" (n_float n) /\
    mget "alarmLastType" (n_float n') = mget "alarmLastType" (n_float n))).
    { intros n' evs E S M' Q1 Q2 Q3. do 3 eexists. split; [exact E|]. split; [exact S|].
      split; [exact M'|]. split; [|auto]. split; [discriminate|]. intros [t T]. destruct (R t T). }
    destruct r as [t l s st ev status raw|m t i|d i e|vt sz sc p v ts u|c va|c tg d|c va|c tg d va tv|].
    + assert (E : beq status xff = false).
      { destruct (beq status xff) eqn:E; [|reflexivity]. apply beq_true in E. subst.
        exfalso. apply (R t). unfold raised. eauto 8. }
      apply (O n []); try reflexivity; [|apply same_refl|exact M]. cbn. rewrite E. reflexivity.
    + apply (O n []); try reflexivity; [apply same_refl|exact M].
    + apply (O n []); try reflexivity; [apply same_refl|exact M].
    + destruct (set_float_ok n (sensor_key ts u) v HF) as (f & E & N & [U1 U2]).
      eapply O; [cbn [process_event]; rewrite E; cbn [bind]; reflexivity|samest| | | |].
      * split; assumption.
      * reflexivity.
      * apply U2. intros Q. apply (sensor_keys_reserved ts u). rewrite <- Q. cbn. tauto.
      * apply U2. intros Q. apply (sensor_keys_reserved ts u). rewrite <- Q. cbn. tauto.
    + destruct (set_bool_ok n "on" c HB) as (b & E & N & [U1 U2]).
      eapply O; [cbn [process_event]; rewrite E; cbn [bind]; reflexivity|samest| | | |];
        try reflexivity; [split; assumption|]. apply U2. discriminate.
    + destruct (set_bool_ok n "on" c HB) as (b & E & N & [U1 U2]).
      eapply O; [cbn [process_event]; rewrite E; cbn [bind]; reflexivity|samest| | | |];
        try reflexivity; [split; assumption|]. apply U2. discriminate.
    + destruct (set_bool_ok n "on" (0 <? c)%N HB) as (b & E & N & [U1 U2]).
      destruct (set_float_ok (with_states n b (n_float n)) "level" (f64_of_Z (Z.of_N c)) HF)
        as (f & E' & N' & [U3 U4]).
      eapply O; [cbn [process_event]; rewrite E; cbn [bind]; rewrite E'; cbn [bind]; reflexivity|samest| | | |].
      * split; assumption.
      * apply U2. discriminate.
      * apply U4. discriminate.
      * apply U4. discriminate.
    + destruct (set_bool_ok n "on" (0 <? c)%N HB) as (b & E & N & [U1 U2]).
      destruct (set_float_ok (with_states n b (n_float n)) "level" (f64_of_Z (Z.of_N c)) HF)
        as (f & E' & N' & [U3 U4]).
      eapply O; [cbn [process_event]; rewrite E; cbn [bind]; rewrite E'; cbn [bind]; reflexivity|samest| | | |].
      * split; assumption.
      * apply U2. discriminate.
      * apply U4. discriminate.
      * apply U4. discriminate.
    + apply (O n []); try reflexivity; [apply same_refl|exact M].
Qed.
Close Scope string_scope.

(** ** Histories of one node *)
Lemma nrun_app m ls l : nrun m (ls ++ [l]) =
  match nrun m ls with
  | Some (Ok (m1, e1)) =>
      match nstep m1 l with
      | Some (Ok (m2, e2)) => Some (Ok (m2, e1 ++ e2))
      | Some (Fail e) => Some (Fail e)
      | Some Panic => Some Panic
      | None => None
      end
  | x => x
  end.
Proof.
  revert m. induction ls as [|a r IH]; intros m; cbn [nrun app].
  - destruct (nstep m l) as [[[m2 e2]| |]|]; cbn; try rewrite app_nil_r; reflexivity.
  - destruct (nstep m a) as [[[m1 e1]| |]|]; try reflexivity. rewrite IH.
    destruct (nrun m1 r) as [[[m2 e2]| |]|]; try reflexivity.
    destruct (nstep m2 l) as [[[m3 e3]| |]|]; try reflexivity. rewrite app_assoc. reflexivity.
Qed.

Definition count_reports (h : list nlabel) : nat :=
  List.length (filter (fun l => match l with NReport _ => true | _ => false end) h).
Lemma count_reports_app a b : count_reports (a ++ b) = count_reports a + count_reports b.
Proof. unfold count_reports. rewrite filter_app, app_length. reflexivity. Qed.
Lemma report_number_app a b i : report_number (a ++ b) i =
  match report_number a i with Some r => Some r | None => report_number b (i - count_reports a) end.
Proof.
  revert i. induction a as [|[r|k] a IH]; intros i.
  - cbn. rewrite Nat.sub_0_r. reflexivity.
  - destruct i as [|i]; [reflexivity|]. cbn [app report_number]. rewrite IH. reflexivity.
  - cbn [app report_number]. rewrite IH. reflexivity.
Qed.
Lemma report_number_lt a i r : report_number a i = Some r -> i < count_reports a.
Proof.
  revert i. induction a as [|[r0|k] a IH]; intros i; [discriminate| |].
  - destruct i as [|i]; cbn [report_number]; intros H; unfold count_reports; cbn; [lia|].
    apply IH in H. unfold count_reports in H. lia.
  - cbn [report_number]. intros H. apply IH in H. exact H.
Qed.

Definition last_alarm_label (h : list nlabel) (l : nlabel) : Prop :=
  exists p q, h = p ++ l :: q /\ alarm_label l /\ forall x, In x q -> ~ alarm_label x.

Lemma snoc_split {A} (h : list A) x p l q :
  h ++ [x] = p ++ l :: q -> (q = [] /\ x = l /\ h = p) \/ exists q', q = q' ++ [x] /\ h = p ++ l :: q'.
Proof.
  intros E. destruct (exists_last (l := l :: q) ltac:(discriminate)) as (z & y & Z).
  rewrite Z, app_assoc in E. apply app_inj_tail in E. destruct E as [E <-].
  destruct z as [|z0 z]; cbn in Z.
  - injection Z as <- <-. left. rewrite app_nil_r in E. auto.
  - injection Z as <- ->. right. exists z. auto.
Qed.

Lemma last_alarm_snoc h x l : last_alarm_label (h ++ [x]) l <->
  (alarm_label x /\ l = x) \/ (~ alarm_label x /\ last_alarm_label h l).
Proof.
  split.
  - intros (p & q & E & A & Q). apply snoc_split in E. destruct E as [(-> & -> & ->)|(q' & -> & ->)].
    + left. auto.
    + right. split; [apply Q, in_or_app; right; left; reflexivity|].
      exists p, q'. split; [reflexivity|]. split; [exact A|]. intros y Hy. apply Q, in_or_app. auto.
  - intros [[A ->]|[NA (p & q & -> & A & Q)]].
    + exists h, []. repeat split; auto; intros ? [].
    + exists p, (q ++ [x]). split; [rewrite <- app_assoc; reflexivity|]. split; [exact A|].
      intros y Hy. apply in_app_or in Hy. destruct Hy as [Hy|[<-|[]]]; auto.
Qed.
Lemma alarm_label_dec l : alarm_label l \/ ~ alarm_label l.
Proof.
  destruct l as [r|i]; [|left; exact I]. destruct (raised_dec r) as [H|H]; [left; exact H|].
  right. intros [t T]. exact (H t T).
Qed.
Lemma last_alarm_exists h : (exists l, last_alarm_label h l) \/ (forall l, In l h -> ~ alarm_label l).
Proof.
  induction h as [|x h IH] using rev_ind; [right; intros ? []|].
  destruct (alarm_label_dec x) as [A|A].
  - left. exists x. apply last_alarm_snoc. auto.
  - destruct IH as [[l L]|N].
    + left. exists l. apply last_alarm_snoc. auto.
    + right. intros l Hl. apply in_app_or in Hl. destruct Hl as [Hl|[<-|[]]]; auto.
Qed.

(** What is known of the machine after a history. *)
Record ninv (n0 : node) (h : list nlabel) (m : nmach) : Prop := {
  ni_same : same_but_state n0 (m_node m);
  ni_maps : has_maps (m_node m);
  ni_next : m_next m = count_reports h;
  ni_open : forall i, In i (m_open m) <-> window_open h i;
  ni_windows : forall i, In (NWindow i) h -> i < count_reports h;
  ni_none : (forall l, In l h -> ~ alarm_label l) ->
     mget "alarm" (n_bool (m_node m)) = mget "alarm" (n_bool n0);
  ni_raised : forall r, last_alarm_label h (NReport r) ->
     mget "alarm" (n_bool (m_node m)) = Some true;
  ni_ended : forall i, last_alarm_label h (NWindow i) ->
     mget "alarm" (n_bool (m_node m)) = Some false /\
     mget "alarm" (n_float (m_node m)) = Some (S754_zero false);
  ni_type : forall p r t q, h = p ++ NReport r :: q -> raised r t -> t <> x00 ->
     (forall r' t', In (NReport r') q -> raised r' t' -> t' = x00) ->
     mget "alarmLastType" (n_float (m_node m)) = Some (ftype t) }.

Lemma same_trans a b c : same_but_state a b -> same_but_state b c -> same_but_state a c.
Proof. unfold same_but_state. intuition congruence. Qed.

Lemma window_open_snoc_report h r i :
  (forall i, In (NWindow i) h -> i < count_reports h) ->
  window_open (h ++ [NReport r]) i <->
  window_open h i \/ (i = count_reports h /\ exists t, raised r t).
Proof.
  intros W. unfold window_open. rewrite report_number_app. split.
  - intros [(r' & t & E & R) N].
    assert (N' : ~ In (NWindow i) h) by (intros Q; apply N, in_or_app; auto).
    destruct (report_number h i) as [r0|] eqn:E0.
    + injection E as ->. left. split; [exists r', t; auto|exact N'].
    + destruct (i - count_reports h) as [|k] eqn:K; cbn in E; [|discriminate]. injection E as ->.
      right. split; [|exists t; exact R]. assert (i <= count_reports h) by lia.
      destruct (Nat.eq_dec i (count_reports h)); [assumption|]. exfalso.
      assert (L : i < count_reports h) by lia. clear - L E0. revert i L E0.
      induction h as [|[r0|k0] h IH]; intros i L E0; [cbn in L; lia| |].
      * destruct i as [|i]; [discriminate E0|]. cbn in E0. apply (IH i); [|exact E0].
        unfold count_reports in *. cbn in L. lia.
      * cbn in E0. apply (IH i); [exact L|exact E0].
  - intros [[(r' & t & E & R) N]|[-> [t R]]].
    + rewrite E. split; [exists r', t; auto|]. intros Q. apply in_app_or in Q.
      destruct Q as [Q|[Q|[]]]; [auto|discriminate].
    + destruct (report_number h (count_reports h)) as [r0|] eqn:E0.
      { apply report_number_lt in E0. lia. }
      rewrite Nat.sub_diag. cbn. split; [exists r, t; auto|].
      intros Q. apply in_app_or in Q. destruct Q as [Q|[Q|[]]]; [|discriminate].
      apply W in Q. lia.
Qed.
Lemma window_open_snoc_window h j i :
  window_open (h ++ [NWindow j]) i <-> window_open h i /\ i <> j.
Proof.
  unfold window_open. rewrite report_number_app.
  replace (report_number [NWindow j] (i - count_reports h)) with (@None report) by reflexivity.
  split.
  - intros [(r' & t & E & R) N]. destruct (report_number h i) as [r0|] eqn:E0; [|discriminate].
    injection E as ->. split; [split; [exists r', t; auto|]|].
    + intros Q. apply N, in_or_app. auto.
    + intros ->. apply N, in_or_app. right. left. reflexivity.
  - intros [[(r' & t & E & R) N] D]. rewrite E. split; [exists r', t; auto|].
    intros Q. apply in_app_or in Q. destruct Q as [Q|[Q|[]]]; [auto|]. congruence.
Qed.

Lemma ninv_init n : has_maps n -> ninv n [] (mkNM n 0 []).
Proof.
  intros M. constructor; cbn.
  - apply same_refl.
  - exact M.
  - reflexivity.
  - intros i. split; [intros []|]. intros [(r & t & E & _) _]. destruct i; discriminate E.
  - intros i [].
  - reflexivity.
  - intros r (p & q & E & _). destruct p; discriminate.
  - intros r (p & q & E & _). destruct p; discriminate.
  - intros p r t q E. destruct p; discriminate.
Qed.

Lemma in_remove_iff (l : list nat) j i : In i (remove Nat.eq_dec j l) <-> In i l /\ i <> j.
Proof. split; [apply in_remove|intros [A B]; apply in_in_remove; assumption]. Qed.

Lemma ninv_step n0 h m l : ninv n0 h m ->
  (nstep m l = None /\ exists i, l = NWindow i /\ ~ window_open h i) \/
  exists m' evs, nstep m l = Some (Ok (m', evs)) /\ ninv n0 (h ++ [l]) m' /\
    (forall i, l = NWindow i -> window_open h i).
Proof.
  intros I. destruct I as [IS IM IN IO IW I0 IR IE IT].
  destruct l as [r|j]; cbn [nstep].
  - right. destruct (process_event_total (m_node m) r IM) as (n' & evs & o & E & S & M' & O & K).
    rewrite E. cbn [bind]. do 2 eexists. split; [reflexivity|]. split; [|discriminate].
    constructor; cbn [m_node m_next m_open].
    + eapply same_trans; eassumption.
    + exact M'.
    + rewrite count_reports_app. cbn. lia.
    + intros i. rewrite window_open_snoc_report by exact IW. rewrite <- O, <- IO.
      destruct o; cbn [In].
      * rewrite IN. split; [intros [<-|Q]; auto|intros [Q|[-> _]]; auto].
      * split; [auto|intros [Q|[_ Q]]; [exact Q|discriminate Q]].
    + intros i Q. rewrite count_reports_app. cbn. apply in_app_or in Q.
      destruct Q as [Q|[Q|[]]]; [|discriminate]. apply IW in Q. lia.
    + intros Q. destruct K as (K1 & _ & _).
      { intros t T. apply (Q (NReport r)); [apply in_or_app; right; left; reflexivity|exists t; exact T]. }
      rewrite K1. apply I0. intros l Hl. apply Q, in_or_app. auto.
    + intros r' L. apply last_alarm_snoc in L. destruct L as [[[t T] L]|[NA L]].
      * destruct (raised_effect _ _ _ T IM) as (n2 & E2 & _ & _ & [U _] & _).
        rewrite E in E2. injection E2 as <- _ _. exact U.
      * destruct K as (K1 & _ & _); [intros t T; apply NA; exists t; exact T|].
        rewrite K1. apply (IR r'), L.
    + intros i L. apply last_alarm_snoc in L. destruct L as [[_ L]|[NA L]]; [discriminate L|].
      destruct K as (K1 & K2 & _); [intros t T; apply NA; exists t; exact T|].
      rewrite K1, K2. apply (IE i), L.
    + intros p r' t q EQ R T Q. apply snoc_split in EQ.
      destruct EQ as [(-> & H & ->)|(q' & -> & ->)].
      * injection H as ->. destruct (raised_effect _ _ _ R IM) as (n2 & E2 & _ & _ & _ & _ & F).
        rewrite E in E2. injection E2 as <- _ _. apply F, T.
      * destruct (raised_dec r) as [[t' R']|NR].
        -- destruct (raised_effect _ _ _ R' IM) as (n2 & E2 & _ & _ & _ & F & _).
           rewrite E in E2. injection E2 as <- _ _.
           rewrite F; [|apply (Q r); [apply in_or_app; right; left; reflexivity|exact R']].
           eapply IT; eauto. intros r2 t2 Q2. apply Q, in_or_app. auto.
        -- destruct (K NR) as (_ & _ & K3). rewrite K3.
           eapply IT; eauto. intros r2 t2 Q2. apply Q, in_or_app. auto.
  - destruct (in_dec Nat.eq_dec j (m_open m)) as [Hj|Hj]; [right|left].
    2:{ split; [reflexivity|]. exists j. split; [reflexivity|]. rewrite <- IO. exact Hj. }
    destruct (window_end_effect (m_node m) IM) as (n' & E & S & M' & [U1 U2] & [U3 U4]).
    rewrite E. cbn [bind]. do 2 eexists. split; [reflexivity|].
    split; [|intros i [= <-]; apply IO, Hj].
    assert (LW : j < count_reports h).
    { apply IO in Hj. destruct Hj as [(r & t & Er & _) _]. eapply report_number_lt, Er. }
    constructor; cbn [m_node m_next m_open].
    + eapply same_trans; eassumption.
    + exact M'.
    + rewrite count_reports_app. cbn. lia.
    + intros i. rewrite in_remove_iff, window_open_snoc_window, IO. reflexivity.
    + intros i Q. rewrite count_reports_app. cbn. apply in_app_or in Q.
      destruct Q as [Q|[Q|[]]]; [|injection Q as ->]; [apply IW in Q|]; lia.
    + intros Q. exfalso. apply (Q (NWindow j)); [apply in_or_app; right; left; reflexivity|exact I].
    + intros r L. apply last_alarm_snoc in L. destruct L as [[_ L]|[NA L]]; [discriminate L|].
      destruct NA. exact I.
    + intros i L. auto.
    + intros p r t q EQ R T Q. apply snoc_split in EQ.
      destruct EQ as [(-> & H & ->)|(q' & -> & ->)]; [discriminate H|].
      rewrite U4 by discriminate. eapply IT; eauto. intros r2 t2 Q2. apply Q, in_or_app. auto.
Qed.

Lemma nrun_inv n h : has_maps n ->
  nrun (mkNM n 0 []) h = None \/
  exists m evs, nrun (mkNM n 0 []) h = Some (Ok (m, evs)) /\ ninv n h m.
Proof.
  intros M. induction h as [|l h IH] using rev_ind.
  - right. do 2 eexists. split; [reflexivity|]. apply ninv_init, M.
  - rewrite nrun_app. destruct IH as [->|(m & evs & -> & I)]; [left; reflexivity|].
    destruct (ninv_step _ _ _ l I) as [[-> _]|(m' & ev & -> & I' & _)]; [left; reflexivity|].
    right. eauto.
Qed.

(** Every history in which only open windows end is possible, and no other. *)
Definition possible (h : list nlabel) : Prop :=
  forall p i q, h = p ++ NWindow i :: q -> window_open p i.
Lemma nrun_possible n h : has_maps n ->
  (exists m evs, nrun (mkNM n 0 []) h = Some (Ok (m, evs))) <-> possible h.
Proof.
  intros M. induction h as [|l h IH] using rev_ind.
  - split; [|intros _; do 2 eexists; reflexivity]. intros _ p i q E. destruct p; discriminate.
  - rewrite nrun_app. split.
    + intros (m & evs & E) p i q EQ. apply snoc_split in EQ.
      destruct (nrun_inv n h M) as [N|(m1 & e1 & R & I)]; [rewrite N in E; discriminate|].
      rewrite R in E. destruct EQ as [(-> & -> & ->)|(q' & -> & ->)].
      * destruct (ninv_step _ _ _ (NWindow i) I) as [[N _]|(m' & ev & S & _ & W)].
        -- rewrite N in E. discriminate.
        -- apply W. reflexivity.
      * assert (possible (p ++ NWindow i :: q')) as P by (apply IH; eauto). eapply P. reflexivity.
    + intros P. assert (possible h) as PH.
      { intros p i q ->. apply (P p i (q ++ [l])). rewrite <- app_assoc. reflexivity. }
      apply IH in PH. destruct PH as (m1 & e1 & R). rewrite R.
      destruct (nrun_inv n h M) as [N|(m2 & e2 & R2 & I)]; [congruence|].
      rewrite R in R2. injection R2 as <- <-.
      destruct (ninv_step _ _ _ l I) as [[N (i & -> & W)]|(m' & ev & S & _ & _)].
      * destruct W. apply (P h i []). reflexivity.
      * rewrite S. eauto.
Qed.

(** *** Corollaries used by the property theorems *)
Lemma alarm_no_crash n h : has_maps n -> possible h ->
  exists m evs, nrun (mkNM n 0 []) h = Some (Ok (m, evs)).
Proof. intros M P. apply nrun_possible; assumption. Qed.

Lemma last_report_open h r : possible h -> last_alarm_label h (NReport r) ->
  exists i, window_open h i.
Proof.
  intros P (p & q & E & [t R] & Q). exists (count_reports p). subst h.
  split.
  - exists r, t. split; [|exact R]. rewrite report_number_app.
    destruct (report_number p (count_reports p)) as [r0|] eqn:E0.
    + apply report_number_lt in E0. lia.
    + rewrite Nat.sub_diag. reflexivity.
  - intros W. apply in_app_or in W. destruct W as [W|[W|W]]; [|discriminate|].
    + apply in_split in W. destruct W as (a & b & W).
      assert (WO : window_open a (count_reports p)).
      { eapply (P a _ (b ++ NReport r :: q)). rewrite W at 1. rewrite <- app_assoc. reflexivity. }
      destruct WO as [(r' & t' & E & _) _]. apply report_number_lt in E.
      rewrite W in E at 1. rewrite count_reports_app in E. lia.
    + exact (Q _ W I).
Qed.

Lemma alarm_needs_window n h m evs : has_maps n -> mget "alarm" (n_bool n) <> Some true ->
  nrun (mkNM n 0 []) h = Some (Ok (m, evs)) ->
  mget "alarm" (n_bool (m_node m)) = Some true -> exists i, window_open h i.
Proof.
  intros M F R T. destruct (nrun_inv n h M) as [N|(m2 & e2 & R2 & I)]; [congruence|].
  rewrite R in R2. injection R2 as <- <-.
  destruct (last_alarm_exists h) as [[[r|i] L]|N].
  - eapply last_report_open; [|exact L]. apply (nrun_possible n); eauto.
  - destruct (ni_ended _ _ _ I _ L) as [E _]. congruence.
  - rewrite (ni_none _ _ _ I N) in T. contradiction.
Qed.

Lemma alarm_over n h m evs i r t : has_maps n ->
  nrun (mkNM n 0 []) h = Some (Ok (m, evs)) ->
  report_number h i = Some r -> raised r t -> (forall j, ~ window_open h j) ->
  mget "alarm" (n_bool (m_node m)) = Some false /\
  mget "alarm" (n_float (m_node m)) = Some (S754_zero false).
Proof.
  intros M R E T C. destruct (nrun_inv n h M) as [N|(m2 & e2 & R2 & I)]; [congruence|].
  rewrite R in R2. injection R2 as <- <-.
  destruct (last_alarm_exists h) as [[[r'|j] L]|N].
  - destruct (last_report_open h r') as [k K]; [apply (nrun_possible n); eauto|exact L|].
    destruct (C k K).
  - exact (ni_ended _ _ _ I _ L).
  - exfalso. apply (N (NReport r)); [|exists t; exact T]. clear - E. revert i E.
    induction h as [|[r0|k] h IH]; intros i E; [discriminate E| |].
    + destruct i; cbn in E; [injection E as ->; left; reflexivity|right; eapply IH, E].
    + right. eapply IH, E.
Qed.

Lemma ftype_integer t : is_integer (ftype t) (Z.of_N (Byte.to_N t)).
Proof. apply small_integer. pose proof (b2N_lt t). unfold b2N in *. lia. Qed.

Lemma alarm_last_type n p r t q m evs : has_maps n ->
  nrun (mkNM n 0 []) (p ++ NReport r :: q) = Some (Ok (m, evs)) ->
  raised r t -> t <> x00 -> (forall r' t', In (NReport r') q -> raised r' t' -> t' = x00) ->
  exists v, mget "alarmLastType" (n_float (m_node m)) = Some v /\ is_integer v (Z.of_N (Byte.to_N t)).
Proof.
  intros M R T NZ Q. destruct (nrun_inv n (p ++ NReport r :: q) M) as [N|(m2 & e2 & R2 & I)]; [rewrite R in N; discriminate|].
  rewrite R in R2. injection R2 as <- <-. exists (ftype t). split; [|apply ftype_integer].
  eapply (ni_type _ _ _ I); eauto.
Qed.

Lemma alarm_flag_exact n h m evs : has_maps n -> nrun (mkNM n 0 []) h = Some (Ok (m, evs)) ->
  ((forall l, In l h -> ~ alarm_label l) ->
     mget "alarm" (n_bool (m_node m)) = mget "alarm" (n_bool n)) /\
  (forall p r q, h = p ++ NReport r :: q -> alarm_label (NReport r) ->
     (forall x, In x q -> ~ alarm_label x) -> mget "alarm" (n_bool (m_node m)) = Some true) /\
  (forall p i q, h = p ++ NWindow i :: q ->
     (forall x, In x q -> ~ alarm_label x) -> mget "alarm" (n_bool (m_node m)) = Some false).
Proof.
  intros M R. destruct (nrun_inv n h M) as [N|(m2 & e2 & R2 & I)]; [rewrite R in N; discriminate|].
  rewrite R in R2. injection R2 as <- <-. split; [exact (ni_none _ _ _ I)|]. split.
  - intros p r q E A Q. apply (ni_raised _ _ _ I r). exists p, q. auto.
  - intros p i q E Q. apply (ni_ended _ _ _ I i). exists p, q. repeat split; auto.
Qed.

Lemma windows_can_end n h m evs i : has_maps n -> nrun (mkNM n 0 []) h = Some (Ok (m, evs)) ->
  window_open h i <->
  exists m' evs', nrun (mkNM n 0 []) (h ++ [NWindow i]) = Some (Ok (m', evs')).
Proof.
  intros M R. rewrite (nrun_possible n _ M). split.
  - intros W p j q E. apply snoc_split in E. destruct E as [(-> & [= ->] & ->)|(q' & -> & ->)]; [exact W|].
    assert (P : possible (p ++ NWindow j :: q')) by (apply (nrun_possible n); eauto).
    eapply P. reflexivity.
  - intros P. apply (P h i []). reflexivity.
Qed.

(** Events: exactly one NodeUpdated with the node's id per change. *)
Lemma reported_spec l : reported l = true <->
  match l with NWindow _ => True | NReport r => ~ silent_report r end.
Proof.
  destruct l as [r|i]; [|cbn; tauto].
  assert (X : forall r, (exists t, raised r t) -> ~ silent_report r) by (intros r0 [t T] [_ Q]; exact (Q t T)).
  assert (Y : forall r, state_report r -> ~ silent_report r) by (intros r0 S [Q _]; exact (Q S)).
  destruct r; cbn;
    try (split; [intros _; apply Y; exact I|reflexivity]);
    try (split; [discriminate|intros H; exfalso; apply H; split; [cbn; tauto|];
         intros t (?&?&?&?&?&?); discriminate]).
  rewrite beq_true. split.
  - intros ->. apply X. eexists. unfold raised. eauto 8.
  - intros H. destruct (beq status xff) eqn:E; [apply beq_true, E|]. exfalso. apply H.
    split; [cbn; tauto|]. intros t (?&?&?&?&?&Q). inversion Q. subst. discriminate E.
Qed.
Lemma set_bool_id n k v n' : set_bool n k v = Ok n' -> n_id n' = n_id n.
Proof. unfold set_bool. destruct (mset k v (n_bool n)); cbn [bind]; try discriminate. intros [= <-]. reflexivity. Qed.
Lemma set_float_id n k v n' : set_float n k v = Ok n' -> n_id n' = n_id n.
Proof. unfold set_float. destruct (mset k v (n_float n)); cbn [bind]; try discriminate. intros [= <-]. reflexivity. Qed.
Lemma process_event_events n r n' evs o : process_event n r = Ok (n', evs, o) ->
  evs = (if reported (NReport r) then [n_id n] else []) /\ n_id n' = n_id n.
Proof.
  intros E. destruct r; cbn [process_event reported] in *;
  repeat match goal with
    | H : (if beq ?a ?b then _ else _) = _ |- _ => destruct (beq a b)
    | H : bind ?x _ = _ |- _ =>
        let Q := fresh "Q" in destruct x eqn:Q; cbn [bind] in H; try discriminate H
    | H : set_bool _ _ _ = Ok _ |- _ => apply set_bool_id in H
    | H : set_float _ _ _ = Ok _ |- _ => apply set_float_id in H
    | H : Ok _ = Ok _ |- _ => injection H; clear H; intros; subst
    end; split; congruence.
Qed.
Lemma nstep_events m l m' evs : nstep m l = Some (Ok (m', evs)) ->
  evs = (if reported l then [n_id (m_node m)] else []) /\ n_id (m_node m') = n_id (m_node m).
Proof.
  destruct l as [r|i]; cbn [nstep].
  - destruct (process_event (m_node m) r) as [[[n' e] o]| |] eqn:E; cbn; try discriminate.
    intros [= <- <-]. eapply process_event_events in E. exact E.
  - destruct (in_dec Nat.eq_dec i (m_open m)); [|discriminate].
    unfold alarm_window_end.
    destruct (set_bool (m_node m) "alarm" false) as [n1| |] eqn:E1; cbn [bind]; try discriminate.
    destruct (set_float n1 "alarm" (f64_of_Z 0)) as [n2| |] eqn:E2; cbn [bind]; try discriminate.
    intros [= <- <-]. apply set_bool_id in E1. apply set_float_id in E2.
    split; [reflexivity|cbn [m_node]; congruence].
Qed.
Lemma nrun_events m h m' evs : nrun m h = Some (Ok (m', evs)) ->
  evs = repeat (n_id (m_node m)) (List.length (filter reported h)).
Proof.
  revert m m' evs. induction h as [|l h IH]; intros m m' evs; cbn [nrun].
  - intros [= <- <-]. reflexivity.
  - destruct (nstep m l) as [[[m1 e1]| |]|] eqn:E; try discriminate.
    destruct (nrun m1 h) as [[[m2 e2]| |]|] eqn:E2; try discriminate.
    intros [= <- <-]. apply nstep_events in E. destruct E as [-> EI].
    apply IH in E2. rewrite EI in E2. subst e2. cbn [filter].
    destruct (reported l); reflexivity.
Qed.

(** ** Waiting *)
Definition wflag_of (flag0 : bool) (h : list wlabel) : bool :=
  fold_left (fun b l => match l with WFlag c => c | _ => b end) h flag0.
Lemma listening_iff flag0 h : listening flag0 h <-> wflag_of flag0 h = true.
Proof.
  induction h as [|l h IH] using rev_ind.
  - cbn. split.
    + intros [(p & q & E & _)|[E _]]; [destruct p; discriminate|exact E].
    + intros ->. right. split; [reflexivity|intros b []].
  - unfold wflag_of in *. rewrite fold_left_app. cbn.
    assert (X : (forall b, l <> WFlag b) -> (listening flag0 (h ++ [l]) <-> listening flag0 h)).
    { intros NL. split; intros [(p & q & E & Q)|[E Q]].
      - apply snoc_split in E. destruct E as [(_ & -> & _)|(q' & -> & ->)]; [destruct (NL true); reflexivity|].
        left. exists p, q'. split; [reflexivity|]. intros b B. apply (Q b), in_or_app. auto.
      - right. split; [exact E|]. intros b B. apply (Q b), in_or_app. auto.
      - left. exists p, (q ++ [l]). split; [subst h; rewrite <- app_assoc; reflexivity|].
        intros b B. apply in_app_or in B. destruct B as [B|[B|[]]]; [eapply Q, B|eapply NL, B].
      - right. split; [exact E|]. intros b B. apply in_app_or in B.
        destruct B as [B|[B|[]]]; [eapply Q, B|eapply NL, B]. }
    destruct l as [g|g| |c]; try (rewrite X by discriminate; exact IH).
    split.
    + intros [(p & q & E & Q)|[E Q]].
      * apply snoc_split in E. destruct E as [(_ & [= ->] & _)|(q' & -> & ->)]; [reflexivity|].
        exfalso. apply (Q c), in_or_app. right. left. reflexivity.
      * exfalso. apply (Q c), in_or_app. right. left. reflexivity.
    + intros ->. left. exists h, []. split; [reflexivity|intros b []].
Qed.

Record winv (flag0 : bool) (h : list wlabel) (m : wmach) : Prop := {
  wi_flag : w_flag m = wflag_of flag0 h;
  wi_calls : forall g, In g (w_calls m) <-> in_call flag0 h g;
  wi_made : w_chan m <> None <-> channel_made flag0 h;
  wi_wait : forall g, (exists c, In (g, Some c) (w_waiting m)) <-> waiting flag0 h g;
  wi_chan : forall g c, In (g, Some c) (w_waiting m) -> w_chan m = Some c }.

Lemma in_call_snoc flag0 h l g : in_call flag0 (h ++ [l]) g <->
  (l = WEnter g /\ ~ listening flag0 h) \/ (l <> WFetch g /\ in_call flag0 h g).
Proof.
  split.
  - intros (p & q & E & L & Q). apply snoc_split in E.
    destruct E as [(-> & -> & ->)|(q' & -> & ->)]; [left; auto|right].
    split; [intros ->; apply Q, in_or_app; right; left; reflexivity|].
    exists p, q'. split; [reflexivity|]. split; [exact L|]. intros W. apply Q, in_or_app. auto.
  - intros [[-> L]|[NW (p & q & -> & L & Q)]].
    + exists h, []. repeat split; auto.
    + exists p, (q ++ [l]). split; [rewrite <- app_assoc; reflexivity|]. split; [exact L|].
      intros W. apply in_app_or in W. destruct W as [W|[W|[]]]; [auto|congruence].
Qed.
Lemma channel_made_snoc flag0 h l : channel_made flag0 (h ++ [l]) <->
  ((exists g, l = WEnter g) /\ ~ listening flag0 h) \/ (l <> WWakeUp /\ channel_made flag0 h).
Proof.
  split.
  - intros (g & p & q & E & L & Q). apply snoc_split in E.
    destruct E as [(-> & -> & ->)|(q' & -> & ->)]; [left; eauto|right].
    split; [intros ->; apply Q, in_or_app; right; left; reflexivity|].
    exists g, p, q'. split; [reflexivity|]. split; [exact L|]. intros W. apply Q, in_or_app. auto.
  - intros [[[g ->] L]|[NW (g & p & q & -> & L & Q)]].
    + exists g, h, []. repeat split; auto.
    + exists g, p, (q ++ [l]). split; [rewrite <- app_assoc; reflexivity|]. split; [exact L|].
      intros W. apply in_app_or in W. destruct W as [W|[W|[]]]; [auto|congruence].
Qed.
Lemma waiting_snoc flag0 h l g : waiting flag0 (h ++ [l]) g <->
  (l = WFetch g /\ in_call flag0 h g /\ channel_made flag0 h) \/ (l <> WWakeUp /\ waiting flag0 h g).
Proof.
  split.
  - intros (p & q & E & L & C & Q). apply snoc_split in E.
    destruct E as [(-> & -> & ->)|(q' & -> & ->)]; [left; auto|right].
    split; [intros ->; apply Q, in_or_app; right; left; reflexivity|].
    exists p, q'. split; [reflexivity|]. split; [exact L|]. split; [exact C|].
    intros W. apply Q, in_or_app. auto.
  - intros [(-> & L & C)|[NW (p & q & -> & L & C & Q)]].
    + exists h, []. repeat split; auto.
    + exists p, (q ++ [l]). split; [rewrite <- app_assoc; reflexivity|]. split; [exact L|].
      split; [exact C|].
      intros W. apply in_app_or in W. destruct W as [W|[W|[]]]; [auto|congruence].
Qed.

Lemma wake_after_app m a b : wake_after m (a ++ b) = wake_after (wake_after m a) b.
Proof. revert m. induction a as [|x a IH]; intros m; cbn; [reflexivity|apply IH]. Qed.

Lemma existsb_in g l : existsb (Nat.eqb g) l = true <-> In g l.
Proof.
  rewrite existsb_exists. split.
  - intros (x & Q & E). apply Nat.eqb_eq in E. subst. exact Q.
  - intros Q. exists g. split; [exact Q|apply Nat.eqb_refl].
Qed.

Lemma winv_step flag0 h m l : winv flag0 h m -> winv flag0 (h ++ [l]) (fst (wake_step m l)).
Proof.
  intros [F CA CM W C].
  assert (FL : listening flag0 h <-> w_flag m = true) by (rewrite F; apply listening_iff).
  assert (WF : wflag_of flag0 (h ++ [l]) =
               match l with WFlag c => c | _ => wflag_of flag0 h end).
  { unfold wflag_of. rewrite fold_left_app. destruct l; reflexivity. }
  destruct l as [g0|g0| |c0]; cbn [wake_step].
  - destruct (w_flag m) eqn:FM; cbn [fst].
    + assert (L : listening flag0 h) by tauto.
      constructor; [rewrite WF, FM; exact F| | | |exact C].
      * intros g. rewrite in_call_snoc, CA. split; [right; split; [discriminate|assumption]|].
        intros [[_ Q]|[_ Q]]; [contradiction|exact Q].
      * rewrite channel_made_snoc, CM. split; [right; split; [discriminate|assumption]|].
        intros [[_ Q]|[_ Q]]; [contradiction|exact Q].
      * intros g. rewrite waiting_snoc, W. split; [right; split; [discriminate|assumption]|].
        intros [[Q _]|[_ Q]]; [discriminate Q|exact Q].
    + assert (NL : ~ listening flag0 h) by (rewrite FL; discriminate).
      destruct (w_chan m) as [c|] eqn:CE; cbn [fst];
      (constructor; cbn [w_flag w_chan w_fresh w_calls w_waiting]; [rewrite WF; exact F| | | |]).
      * intros g. rewrite in_call_snoc. cbn [In]. rewrite CA. split.
        -- intros [<-|Q]; [left; auto|right; split; [discriminate|exact Q]].
        -- intros [[[= ->] _]|[_ Q]]; auto.
      * rewrite channel_made_snoc. split; [intros _; left; eauto|discriminate].
      * intros g. rewrite waiting_snoc, W. split; [right; split; [discriminate|assumption]|].
        intros [[Q _]|[_ Q]]; [discriminate Q|exact Q].
      * exact C.
      * intros g. rewrite in_call_snoc. cbn [In]. rewrite CA. split.
        -- intros [<-|Q]; [left; auto|right; split; [discriminate|exact Q]].
        -- intros [[[= ->] _]|[_ Q]]; auto.
      * rewrite channel_made_snoc. split; [intros _; left; eauto|discriminate].
      * intros g. rewrite waiting_snoc, W. split; [right; split; [discriminate|assumption]|].
        intros [[Q _]|[_ Q]]; [discriminate Q|exact Q].
      * intros g c Q. apply C in Q. discriminate.
  - destruct (existsb (Nat.eqb g0) (w_calls m)) eqn:X; cbn [fst].
    + apply existsb_in in X. pose proof (proj1 (CA g0) X) as IC.
      constructor; cbn [w_flag w_chan w_fresh w_calls w_waiting]; [rewrite WF; exact F| | | |].
      * intros g. rewrite in_remove_iff, in_call_snoc, CA. split.
        -- intros [Q N]. right. split; [congruence|exact Q].
        -- intros [[Q _]|[N Q]]; [discriminate|]. split; [exact Q|congruence].
      * rewrite channel_made_snoc, CM. split; [right; split; [discriminate|assumption]|].
        intros [[[g Q] _]|[_ Q]]; [discriminate|exact Q].
      * intros g. rewrite waiting_snoc. split.
        -- intros [c [[= <- Q]|Q]].
           ++ left. split; [reflexivity|]. split; [exact IC|]. apply CM. congruence.
           ++ right. split; [discriminate|]. apply W. eauto.
        -- intros [([= ->] & _ & Q)|[_ Q]].
           ++ apply CM in Q. destruct (w_chan m) as [c|]; [|congruence]. exists c. left. reflexivity.
           ++ apply W in Q. destruct Q as [c Q]. exists c. right. exact Q.
      * intros g c [[= <- Q]|Q]; [exact Q|apply (C g), Q].
    + assert (NC : ~ in_call flag0 h g0).
      { rewrite <- CA. intros Q. apply existsb_in in Q. congruence. }
      constructor; cbn [w_flag w_chan w_fresh w_calls w_waiting]; [rewrite WF; exact F| | | |exact C].
      * intros g. rewrite in_call_snoc, CA. split.
        -- intros Q. right. split; [intros [= ->]; contradiction|exact Q].
        -- intros [[Q _]|[_ Q]]; [discriminate|exact Q].
      * rewrite channel_made_snoc, CM. split; [right; split; [discriminate|assumption]|].
        intros [[[g Q] _]|[_ Q]]; [discriminate|exact Q].
      * intros g. rewrite waiting_snoc, W. split; [right; split; [discriminate|assumption]|].
        intros [([= ->] & Q & _)|[_ Q]]; [contradiction|exact Q].
  - assert (ICS : forall g, in_call flag0 (h ++ [WWakeUp]) g <-> in_call flag0 h g).
    { intros g. rewrite in_call_snoc. split; [intros [[Q _]|[_ Q]]; [discriminate|exact Q]|].
      intros Q. right. split; [discriminate|exact Q]. }
    assert (NM : ~ channel_made flag0 (h ++ [WWakeUp])).
    { rewrite channel_made_snoc. intros [[[g Q] _]|[Q _]]; [discriminate|congruence]. }
    assert (NW : forall g, ~ waiting flag0 (h ++ [WWakeUp]) g).
    { intros g. rewrite waiting_snoc. intros [[Q _]|[Q _]]; [discriminate|congruence]. }
    destruct (w_chan m) as [c|] eqn:CE; cbn [fst];
    (constructor; cbn [w_flag w_chan w_fresh w_calls w_waiting];
       [rewrite WF; exact F|intros g; rewrite ICS; apply CA| | |]).
    + split; [congruence|contradiction].
    + intros g. split; [|intros Q; destruct (NW g Q)]. intros [d Q]. exfalso.
      apply filter_In in Q. destruct Q as [Q P]. apply C in Q. injection Q as ->.
      unfold chan_is in P. cbn in P. rewrite Nat.eqb_refl in P. discriminate.
    + intros g d Q. exfalso. apply filter_In in Q. destruct Q as [Q P]. apply C in Q. injection Q as ->.
      unfold chan_is in P. cbn in P. rewrite Nat.eqb_refl in P. discriminate.
    + rewrite CE. split; [congruence|contradiction].
    + intros g. split; [|intros Q; destruct (NW g Q)]. intros [d Q]. apply C in Q. discriminate.
    + intros g d Q. apply C in Q. discriminate.
  - cbn [fst]. constructor; cbn [w_flag w_chan w_fresh w_calls w_waiting]; [rewrite WF; reflexivity| | | |exact C].
    * intros g. rewrite in_call_snoc, CA. split; [right; split; [discriminate|assumption]|].
      intros [[Q _]|[_ Q]]; [discriminate|exact Q].
    * rewrite channel_made_snoc, CM. split; [right; split; [discriminate|assumption]|].
      intros [[[g Q] _]|[_ Q]]; [discriminate|exact Q].
    * intros g. rewrite waiting_snoc, W. split; [right; split; [discriminate|assumption]|].
      intros [[Q _]|[_ Q]]; [discriminate Q|exact Q].
Qed.
Lemma winv_run flag0 h : winv flag0 h (wake_after (wake_init flag0) h).
Proof.
  induction h as [|l h IH] using rev_ind.
  - constructor; cbn; [reflexivity| | | |intros ? ? []].
    + intros g. split; [intros []|]. intros (p & q & E & _). destruct p; discriminate.
    + split; [congruence|]. intros (g & p & q & E & _). destruct p; discriminate.
    + intros g. split; [intros [c []]|]. intros (p & q & E & _). destruct p; discriminate.
  - rewrite wake_after_app. cbn [wake_after]. apply winv_step, IH.
Qed.

Lemma wake_releases flag0 h g :
  In g (snd (wake_step (wake_after (wake_init flag0) h) WWakeUp)) <-> waiting flag0 h g.
Proof.
  destruct (winv_run flag0 h) as [F CA CM W C]. rewrite <- W. cbn [wake_step].
  destruct (w_chan _) as [c|] eqn:CE; cbn [snd].
  - rewrite in_map_iff. split.
    + intros ([g' c'] & E & Q). cbn in E. subst g'. apply filter_In in Q. destruct Q as [Q P].
      unfold chan_is in P. cbn in P. destruct c' as [d|]; [|discriminate]. eauto.
    + intros [d Q]. exists (g, Some d). split; [reflexivity|]. apply filter_In. split; [exact Q|].
      apply C in Q. injection Q as ->. unfold chan_is. cbn. apply Nat.eqb_refl.
  - split; [intros []|]. intros [d Q]. apply C in Q. discriminate.
Qed.
Lemma wait_at_once flag0 h g :
  (listening flag0 h -> snd (wake_step (wake_after (wake_init flag0) h) (WEnter g)) = [g]) /\
  (~ listening flag0 h -> snd (wake_step (wake_after (wake_init flag0) h) (WEnter g)) = []).
Proof.
  destruct (winv_run flag0 h) as [F _ _ _ _]. rewrite listening_iff, <- F. cbn [wake_step].
  destruct (w_flag _); [split; [reflexivity|intros Q; destruct Q; reflexivity]|].
  split; [discriminate|intros _]. destruct (w_chan _); reflexivity.
Qed.
Lemma nothing_else_releases m l : (forall g, l <> WEnter g) -> l <> WWakeUp ->
  snd (wake_step m l) = [].
Proof.
  intros A B. destruct l as [g|g| |b]; cbn [wake_step].
  - destruct (A g). reflexivity.
  - destruct (existsb (Nat.eqb g) (w_calls m)); reflexivity.
  - congruence.
  - reflexivity.
Qed.
(** An undisturbed wait is ended by the next wake-up. *)
Lemma undisturbed_wait flag0 p g mid q : ~ listening flag0 p ->
  ~ In (WFetch g) mid -> ~ In WWakeUp mid -> ~ In WWakeUp q ->
  In g (snd (wake_step (wake_after (wake_init flag0) (p ++ WEnter g :: mid ++ WFetch g :: q)) WWakeUp)).
Proof.
  intros L M W Q. apply wake_releases. exists (p ++ WEnter g :: mid), q.
  split; [rewrite <- app_assoc; reflexivity|]. split; [exists p, mid; auto|].
  split; [exists g, p, mid; auto|exact Q].
Qed.

(** A goroutine that got the nil channel is never released. *)
Lemma lost_step m l g : (forall c, ~ In (g, Some c) (w_waiting m)) -> ~ In g (w_calls m) ->
  l <> WEnter g ->
  ~ In g (snd (wake_step m l)) /\
  (forall c, ~ In (g, Some c) (w_waiting (fst (wake_step m l)))) /\
  ~ In g (w_calls (fst (wake_step m l))).
Proof.
  intros A B N. destruct l as [x|x| |b]; cbn [wake_step].
  - assert (x <> g) by congruence. destruct (w_flag m); cbn [fst snd].
    + split; [intros [Q|[]]; congruence|auto].
    + destruct (w_chan m); cbn; (split; [intros []|split; [exact A|intros [Q|Q]; [congruence|auto]]]).
  - destruct (existsb (Nat.eqb x) (w_calls m)) eqn:X; cbn [fst snd].
    + apply existsb_in in X. split; [intros []|]. cbn. split.
      * intros c [Q|Q]; [|exact (A c Q)]. injection Q as -> _. contradiction.
      * rewrite in_remove_iff. tauto.
    + split; [intros []|auto].
  - destruct (w_chan m) as [c|]; cbn [fst snd]; [|split; [intros []|auto]].
    split; [|split; [|exact B]].
    + rewrite in_map_iff. intros ([g' c'] & E & Q). cbn in E. subst g'. apply filter_In in Q.
      destruct Q as [Q P]. unfold chan_is in P. cbn in P. destruct c' as [d|]; [|discriminate].
      exact (A d Q).
    + cbn. intros d Q. apply filter_In in Q. exact (A d (proj1 Q)).
  - cbn. auto.
Qed.
Lemma lost_forever m ls g : (forall c, ~ In (g, Some c) (w_waiting m)) -> ~ In g (w_calls m) ->
  ~ In (WEnter g) ls -> ~ In g (wake_released m ls).
Proof.
  revert m. induction ls as [|l ls IH]; intros m A B N; [intros []|]. cbn [wake_released].
  destruct (lost_step m l g A B) as (X & Y & Z); [intros ->; apply N; left; reflexivity|].
  intros Q. apply in_app_or in Q. destruct Q as [Q|Q]; [exact (X Q)|].
  revert Q. apply IH; auto. intros Q. apply N. right. exact Q.
Qed.
Lemma wait_lost : exists h g, In (WEnter g) h /\ In (WFetch g) h /\
  forall rest, ~ In (WEnter g) rest -> ~ In g (wake_released (wake_init false) (h ++ rest)).
Proof.
  exists [WEnter 1; WWakeUp; WFetch 1], 1. split; [left; reflexivity|].
  split; [right; right; left; reflexivity|]. intros rest N.
  change (~ In 1 (wake_released (mkWM false None 1 [] [(1, None)]) rest)).
  apply lost_forever; cbn; [|tauto|exact N]. intros c [Q|[]]. discriminate.
Qed.

(** ** The node list *)
Lemma zlookup_zset {V} k k' (v : V) m :
  zlookup k' (zset k v m) = if (k' =? k)%Z then Some v else zlookup k' m.
Proof.
  induction m as [|[k0 w] r IH]; cbn; [reflexivity|].
  destruct (k =? k0)%Z eqn:E; cbn.
  - apply Z.eqb_eq in E. subst k0. destruct (k' =? k)%Z; reflexivity.
  - rewrite IH. destruct (k' =? k0)%Z eqn:E1, (k' =? k)%Z eqn:E2; try reflexivity.
    apply Z.eqb_eq in E1, E2. subst. rewrite Z.eqb_refl in E. discriminate.
Qed.
Lemma zset_keys {V} k (v : V) m k' : In k' (map fst (zset k v m)) <-> k' = k \/ In k' (map fst m).
Proof.
  induction m as [|[k0 w] r IH]; cbn; [intuition|].
  destruct (k =? k0)%Z eqn:E; cbn.
  - apply Z.eqb_eq in E. subst k0. intuition.
  - rewrite IH. intuition.
Qed.
Lemma zset_nodup {V} k (v : V) m : NoDup (map fst m) -> NoDup (map fst (zset k v m)).
Proof.
  induction m as [|[k0 w] r IH]; cbn; intros H.
  - constructor; [intros []|constructor].
  - inversion H as [|? ? N D]; subst. destruct (k =? k0)%Z eqn:E; cbn.
    + apply Z.eqb_eq in E. subst k0. constructor; assumption.
    + constructor; [|apply IH, D]. rewrite zset_keys. intros [->|Q]; [|exact (N Q)].
      rewrite Z.eqb_refl in E. discriminate.
Qed.
Lemma zlookup_in {V} k (v : V) m : NoDup (map fst m) -> (zlookup k m = Some v <-> In (k, v) m).
Proof.
  induction m as [|[k0 w] r IH]; cbn; intros D; [split; [discriminate|intros []]|].
  inversion D as [|? ? N D']; subst. destruct (k =? k0)%Z eqn:E.
  - apply Z.eqb_eq in E. subst k0. split; [intros [= ->]; auto|].
    intros [[= ->]|Q]; [reflexivity|]. destruct N. change k with (fst (k, v)). apply in_map, Q.
  - rewrite IH by exact D'. split; [auto|]. intros [[= -> ->]|Q]; [|exact Q].
    rewrite Z.eqb_refl in E. discriminate.
Qed.

Lemma link_node_copy n : linked_copy n (link_node n).
Proof.
  unfold linked_copy. cbn. do 12 (split; [reflexivity|]).
  destruct (n_endpoints n) as [l|]; [|exact I]. induction l as [|e l IH]; constructor; [|exact IH].
  cbn. auto.
Qed.

Lemma adds_get ns id :
  (forall n, last_added ns id n -> exists n', list_get (adds new_list ns) id = Some n' /\ linked_copy n n') /\
  ((forall n, In n ns -> n_id n <> id) -> list_get (adds new_list ns) id = None).
Proof.
  induction ns as [|x ns IH] using rev_ind.
  - split; [intros n (p & q & E & _); destruct p; discriminate|reflexivity].
  - unfold adds in *. rewrite fold_left_app. cbn [fold_left].
    set (l := fold_left list_add ns new_list) in *.
    assert (G : list_get (list_add l x) id = if (id =? n_id x)%Z then Some (link_node x) else list_get l id).
    { unfold list_get, list_add. rewrite zlookup_zset. destruct l as [m|]; [reflexivity|].
      cbn. reflexivity. }
    rewrite G. destruct IH as [I1 I2]. split.
    + intros n (p & q & E & N & Q). apply snoc_split in E.
      destruct E as [(-> & -> & ->)|(q' & -> & ->)].
      * rewrite N, Z.eqb_refl. eexists. split; [reflexivity|apply link_node_copy].
      * assert (D : n_id x <> id) by (apply Q, in_or_app; right; left; reflexivity).
        destruct (id =? n_id x)%Z eqn:E; [apply Z.eqb_eq in E; congruence|].
        apply I1. exists p, q'. repeat split; auto. intros m Hm. apply Q, in_or_app. auto.
    + intros Q. assert (D : n_id x <> id) by (apply Q, in_or_app; right; left; reflexivity).
      destruct (id =? n_id x)%Z eqn:E; [apply Z.eqb_eq in E; congruence|].
      apply I2. intros n Hn. apply Q, in_or_app. auto.
Qed.
Lemma adds_nodup ns : NoDup (map fst (list_all (adds new_list ns))).
Proof.
  induction ns as [|x ns IH] using rev_ind; [constructor|].
  unfold adds in *. rewrite fold_left_app. cbn [fold_left list_add list_all].
  apply zset_nodup. destruct (fold_left list_add ns new_list); exact IH.
Qed.
Lemma adds_all ns id n :
  In (id, n) (list_all (adds new_list ns)) <-> list_get (adds new_list ns) id = Some n.
Proof.
  pose proof (adds_nodup ns) as D. destruct (adds new_list ns) as [m|]; cbn in *.
  - rewrite zlookup_in by exact D. reflexivity.
  - split; [intros []|discriminate].
Qed.
Lemma last_added_ex ns id : (exists n, last_added ns id n) \/ forall n, In n ns -> n_id n <> id.
Proof.
  induction ns as [|x ns IH] using rev_ind; [right; intros ? []|].
  destruct (Z.eq_dec (n_id x) id) as [E|E].
  - left. exists x, ns, []. repeat split; auto; intros ? [].
  - destruct IH as [(n & p & q & -> & N & Q)|N].
    + left. exists n, p, (q ++ [x]). rewrite <- app_assoc. repeat split; auto.
      intros m Hm. apply in_app_or in Hm. destruct Hm as [Hm|[<-|[]]]; auto.
    + right. intros n Hn. apply in_app_or in Hn. destruct Hn as [Hn|[<-|[]]]; auto.
Qed.
Lemma list_all_linked ns id n : In (id, n) (list_all (adds new_list ns)) -> n_id n = id.
Proof.
  rewrite adds_all. intros G. destruct (adds_get ns id) as [A B].
  destruct (last_added_ex ns id) as [(x & L)|N].
  - destruct (A x L) as (n' & G' & C). rewrite G in G'. injection G' as <-.
    destruct C as (C & _). destruct L as (p & q & _ & E & _). congruence.
  - rewrite (B N) in G. discriminate.
Qed.

(** ** The lock *)
Lemma krun_app s a b : krun s (a ++ b) = match krun s a with Some s' => krun s' b | None => None end.
Proof. revert s. induction a as [|l a IH]; intros s; cbn; [reflexivity|]. destruct (kstep s l); auto. Qed.

Lemma kstep_stuck s l s' g : kstep s l = Some s' -> rget g (k_reader s) = Some (RCalled true) ->
  rget g (k_reader s') = Some (RCalled true).
Proof.
  intros E H. destruct l; cbn in E;
    repeat match goal with
    | H : context [match ?x with _ => _ end] |- _ => destruct x eqn:?; try discriminate
    end; injection E as <-; cbn; try exact H;
    match goal with |- context [Nat.eqb ?a ?b] => destruct (Nat.eqb a b) eqn:Q end;
    try exact H; apply Nat.eqb_eq in Q; subst; congruence.
Qed.
Lemma krun_stuck s ls s' g : krun s ls = Some s' -> rget g (k_reader s) = Some (RCalled true) ->
  rget g (k_reader s') = Some (RCalled true) /\ ~ In (KReturn g) ls.
Proof.
  revert s. induction ls as [|l ls IH]; intros s; cbn; [intros [= <-]; auto|].
  destruct (kstep s l) as [s1|] eqn:E; [|discriminate]. intros R H.
  destruct (IH s1 R (kstep_stuck _ _ _ _ E H)) as [A B]. split; [exact A|].
  intros [->|Q]; [|exact (B Q)]. cbn in E. rewrite H in E. discriminate.
Qed.

(** Between a lock that is not released and the end, the adder is the same. *)
Lemma k_adder_keep s b ls s' a : k_adder s = Some b -> krun s ls = Some s' -> k_adder s' = Some a ->
  ~ In (KAddUnlock b) ls -> a = b.
Proof.
  revert s. induction ls as [|l ls IH]; intros s A; cbn; [intros [= <-]; congruence|].
  destruct (kstep s l) as [s1|] eqn:E; [|discriminate]. intros R H N.
  apply (IH s1); auto. destruct l as [x|x|g|g|g]; cbn in E; try rewrite A in E; try discriminate.
  - destruct (Nat.eqb x b) eqn:XB; [|discriminate]. apply Nat.eqb_eq in XB. subst x.
    destruct N. left. reflexivity.
  - destruct (rget g (k_reader s)); [discriminate|]. injection E as <-. reflexivity.
  - destruct (rget g (k_reader s)) as [[[]| |]|]; try discriminate. injection E as <-. reflexivity.
  - destruct (rget g (k_reader s)) as [[| |]|]; try discriminate. injection E as <-. reflexivity.
Qed.
Lemma k_adder_last p b q s' a : krun kinit (p ++ KAddLock b :: q) = Some s' -> k_adder s' = Some a ->
  ~ In (KAddUnlock b) q -> a = b.
Proof.
  rewrite krun_app. destruct (krun kinit p) as [s|]; [|discriminate]. cbn.
  destruct (k_adder s); [discriminate|]. intros R H N.
  eapply (k_adder_keep (mkK (Some b) (k_reader s))); eauto.
Qed.

Lemma k_adder_add ls s' : krun kinit ls = Some s' ->
  (exists a, k_adder s' = Some a) <-> add_in_progress ls.
Proof.
  revert s'. induction ls as [|l ls IH] using rev_ind; intros s'.
  - cbn. intros [= <-]. split; [intros [a H]; discriminate|].
    intros (a & p & q & E & _). destruct p; discriminate.
  - rewrite krun_app. destruct (krun kinit ls) as [s|] eqn:R; [|discriminate].
    cbn. destruct (kstep s l) as [s1|] eqn:E; [|discriminate]. intros [= <-].
    specialize (IH s eq_refl).
    assert (K : (forall a, l <> KAddLock a /\ l <> KAddUnlock a) ->
                (add_in_progress (ls ++ [l]) <-> add_in_progress ls)).
    { intros NL. split; intros (a & p & q & EQ & Q).
      - apply snoc_split in EQ. destruct EQ as [(-> & -> & ->)|(q' & -> & ->)].
        + destruct (NL a) as [X _]. congruence.
        + exists a, p, q'. split; [reflexivity|]. intros X. apply Q, in_or_app. auto.
      - exists a, p, (q ++ [l]). subst ls. rewrite <- app_assoc. split; [reflexivity|].
        intros X. apply in_app_or in X. destruct X as [X|[X|[]]]; [auto|].
        destruct (NL a) as [_ Y]. congruence. }
    destruct l as [a|a|g|g|g]; cbn in E.
    + destruct (k_adder s); [discriminate|]. injection E as <-. cbn. split; [|eauto].
      intros _. exists a, ls, []. split; [reflexivity|intros []].
    + destruct (k_adder s) as [a'|] eqn:KA; [|discriminate].
      destruct (Nat.eqb a a') eqn:EA; [|discriminate]. injection E as <-. cbn.
      apply Nat.eqb_eq in EA. subst a'. split; [intros [b H]; discriminate|].
      intros (b & p & q & EQ & Q). exfalso. apply snoc_split in EQ.
      destruct EQ as [(_ & H & _)|(q' & -> & ->)]; [discriminate|].
      assert (a <> b) as AB by (intros ->; apply Q, in_or_app; right; left; reflexivity).
      apply AB. eapply k_adder_last; [exact R|exact KA|]. intros X. apply Q, in_or_app. auto.
    + rewrite K by (intros b; split; discriminate).
      destruct (rget g (k_reader s)); [discriminate|]. injection E as <-. exact IH.
    + rewrite K by (intros b; split; discriminate).
      destruct (rget g (k_reader s)) as [[[]| |]|]; try discriminate. injection E as <-. exact IH.
    + rewrite K by (intros b; split; discriminate).
      destruct (rget g (k_reader s)) as [[| |]|]; try discriminate. injection E as <-. exact IH.
Qed.

(** A call that has not returned: what it is waiting for. *)
Lemma rget_snoc s l s' g : kstep s l = Some s' ->
  rget g (k_reader s') =
    if match l with KCall x | KRLock x | KReturn x => Nat.eqb g x | _ => false end
    then match l with
         | KCall _ => Some (RCalled (match k_adder s with Some _ => true | None => false end))
         | KRLock _ => Some RReading
         | _ => Some RReturned
         end
    else rget g (k_reader s).
Proof.
  intros E. destruct l; cbn in E;
    repeat match goal with
    | H : context [match ?x with _ => _ end] |- _ => destruct x eqn:?; try discriminate
    end; injection E as <-; reflexivity.
Qed.

Lemma reader_called ls s' g : krun kinit ls = Some s' ->
  (rget g (k_reader s') <> None <-> In (KCall g) ls) /\
  (rget g (k_reader s') = Some RReturned <-> In (KReturn g) ls) /\
  (forall b, rget g (k_reader s') = Some (RCalled b) ->
     exists p q, ls = p ++ KCall g :: q /\ (b = true <-> add_in_progress p)).
Proof.
  revert s'. induction ls as [|l ls IH] using rev_ind; intros s'.
  - cbn. intros [= <-]. cbn. split; [split; [congruence|intros []]|]. split; [split; [discriminate|intros []]|].
    discriminate.
  - rewrite krun_app. destruct (krun kinit ls) as [s|] eqn:R; [|discriminate].
    cbn [krun]. destruct (kstep s l) as [s1|] eqn:E; [|discriminate]. intros [= <-].
    destruct (IH s eq_refl) as (I1 & I2 & I3). rewrite (rget_snoc _ _ _ g E).
    assert (IA : forall x, In x (ls ++ [l]) <-> In x ls \/ x = l).
    { intros x. rewrite in_app_iff. cbn. intuition. }
    rewrite !IA.
    assert (K : forall b p q, ls = p ++ KCall g :: q -> (b = true <-> add_in_progress p) ->
       exists p q, ls ++ [l] = p ++ KCall g :: q /\ (b = true <-> add_in_progress p)).
    { intros b p q -> H. exists p, (q ++ [l]). rewrite <- app_assoc. auto. }
    destruct l as [a|a|x|x|x]; cbn iota.
    + rewrite I1, I2. repeat split; try tauto; try (intros [?|?]; [tauto|discriminate]).
      intros b H. destruct (I3 b H) as (p & q & A & B). eapply K; eauto.
    + rewrite I1, I2. repeat split; try tauto; try (intros [?|?]; [tauto|discriminate]).
      intros b H. destruct (I3 b H) as (p & q & A & B). eapply K; eauto.
    + destruct (Nat.eqb g x) eqn:GX.
      * apply Nat.eqb_eq in GX. subst x. split; [split; [auto|discriminate]|].
        cbn in E. destruct (rget g (k_reader s)) eqn:G; [discriminate|].
        split.
        -- split; [discriminate|]. intros [Q|Q]; [|discriminate]. apply I2 in Q. discriminate.
        -- intros b [= <-]. exists ls, []. split; [reflexivity|].
           rewrite <- (k_adder_add _ _ R). destruct (k_adder s); split; eauto; try discriminate.
           intros [a H]. discriminate.
      * assert (GN : g <> x) by (intros ->; rewrite Nat.eqb_refl in GX; discriminate).
        rewrite I1, I2. repeat split; try tauto; try (intros [?|?]; [tauto|congruence]).
        intros b H. destruct (I3 b H) as (p & q & A & B). eapply K; eauto.
    + destruct (Nat.eqb g x) eqn:GX.
      * apply Nat.eqb_eq in GX. subst x.
        cbn in E. destruct (rget g (k_reader s)) as [[[]| |]|] eqn:G; try discriminate.
        split; [|split; [|discriminate]].
        -- split; [intros _; left; apply I1; discriminate|discriminate].
        -- split; [discriminate|]. intros [Q|Q]; [apply I2 in Q|]; discriminate.
      * rewrite I1, I2. repeat split; try tauto; try (intros [?|?]; [tauto|congruence]).
        intros b H. destruct (I3 b H) as (p & q & A & B). eapply K; eauto.
    + destruct (Nat.eqb g x) eqn:GX.
      * apply Nat.eqb_eq in GX. subst x.
        cbn in E. destruct (rget g (k_reader s)) as [[| |]|] eqn:G; try discriminate.
        split; [|split; [|discriminate]].
        -- split; [intros _; left; apply I1; discriminate|discriminate].
        -- split; auto.
      * assert (GN : g <> x) by (intros ->; rewrite Nat.eqb_refl in GX; discriminate).
        rewrite I1, I2. repeat split; try tauto; try (intros [?|?]; [tauto|congruence]).
        intros b H. destruct (I3 b H) as (p & q & A & B). eapply K; eauto.
Qed.

(** A call made outside Add returns: one of its steps is possible, and at most
    two of them are needed. *)
Lemma free_reader_returns p g q s : krun kinit (p ++ KCall g :: q) = Some s ->
  ~ add_in_progress p -> In (KReturn g) (p ++ KCall g :: q) \/
  (exists s', krun s [KReturn g] = Some s') \/ (exists s', krun s [KRLock g; KReturn g] = Some s').
Proof.
  intros R N. destruct (reader_called _ _ g R) as (I1 & I2 & I3).
  destruct (rget g (k_reader s)) as [[[]| |]|] eqn:G.
  - exfalso. destruct (I3 true eq_refl) as (p' & q' & E & A).
    assert (p' = p) as ->; [|apply N, A; reflexivity].
    (* a goroutine calls once *)
    assert (U : forall a b, p ++ KCall g :: q = a ++ KCall g :: b -> ~ In (KCall g) a).
    { intros a b EQ HI. rewrite EQ in R. rewrite krun_app in R.
      destruct (krun kinit a) as [sa|] eqn:RA; [|discriminate]. cbn in R.
      destruct (reader_called _ _ g RA) as (J1 & _). apply J1 in HI.
      destruct (rget g (k_reader sa)); [discriminate|congruence]. }
    pose proof (U p q eq_refl) as U1. pose proof (U p' q' E) as U2.
    clear - E U1 U2. revert p' E U2. induction p as [|x p IH]; intros p' E U2; destruct p' as [|x' p'].
    + reflexivity.
    + injection E as <- _. destruct U2. left. reflexivity.
    + injection E as -> _. destruct U1. left. reflexivity.
    + injection E as <- E. f_equal. apply IH; [intros H; apply U1; right; exact H|exact E|].
      intros H. apply U2. right. exact H.
  - right. right. cbn. rewrite G. cbn. rewrite Nat.eqb_refl. eauto.
  - right. left. cbn. rewrite G. eauto.
  - left. apply I2. reflexivity.
  - exfalso. apply (proj2 I1); [|reflexivity]. apply in_or_app. right. left. reflexivity.
Qed.
Lemma locked_reader_never_returns p g q s : krun kinit (p ++ KCall g :: q) = Some s ->
  add_in_progress p -> ~ In (KReturn g) (p ++ KCall g :: q).
Proof.
  intros R A. rewrite krun_app in R. destruct (krun kinit p) as [s0|] eqn:R0; [|discriminate].
  pose proof (k_adder_add _ _ R0) as [_ K]. destruct (K A) as [a KA].
  destruct (reader_called _ _ g R0) as (I1 & I2 & _).
  cbn [krun] in R. destruct (kstep s0 (KCall g)) as [s1|] eqn:E; [|discriminate].
  pose proof (rget_snoc _ _ _ g E) as G. cbn in G. rewrite Nat.eqb_refl, KA in G.
  destruct (krun_stuck _ _ _ g R G) as [_ N]. intros H. apply in_app_or in H.
  destruct H as [H|[H|H]]; [|discriminate|exact (N H)].
  apply I2 in H. cbn in E. rewrite H in E. discriminate.
Qed.

(** Two Adds never overlap. *)
Lemma adders_exclude p a s b : krun kinit p = Some s -> k_adder s = Some a ->
  kstep s (KAddLock b) = None.
Proof. intros _ H. cbn. rewrite H. reflexivity. Qed.

(** ** Witnesses *)
Lemma alarm_cut_short : exists h m evs i,
  nrun (mkNM (new_node 7) 0 []) h = Some (Ok (m, evs)) /\ window_open h i /\
  mget "alarm" (n_bool (m_node m)) = Some false.
Proof.
  set (al := fun t => RAlarm t x00 x00 x00 x00 xff []).
  exists [NReport (al x05); NReport (al x06); NWindow 0].
  assert (H : match nrun (mkNM (new_node 7) 0 []) [NReport (al x05); NReport (al x06); NWindow 0] with
    | Some (Ok (m, evs)) => mget "alarm" (n_bool (m_node m)) = Some false | _ => False end)
    by (vm_compute; reflexivity).
  destruct (nrun _ _) as [[[m evs]| |]|]; try contradiction.
  exists m, evs, 1. split; [reflexivity|]. split; [|exact H]. split.
  - exists (al x06), x06. split; [reflexivity|]. unfold raised, al. eauto 8.
  - intros [Q|[Q|[Q|[]]]]; discriminate.
Qed.

Lemma reader_deadlock : exists h g s, krun kinit h = Some s /\ In (KCall g) h /\
  forall rest s', krun s rest = Some s' -> ~ In (KReturn g) (h ++ rest).
Proof.
  exists [KAddLock 0; KCall 1; KAddUnlock 0], 1. eexists. split; [reflexivity|].
  split; [right; left; reflexivity|]. intros rest s' R H.
  destruct (krun_stuck _ _ _ 1 R eq_refl) as [_ N]. cbn in H.
  destruct H as [H|[H|[H|H]]]; try discriminate. exact (N H).
Qed.

Lemma unknown_level_overwrites : exists d r n n' evs v,
  reports_new x26 x03 d = Ok r /\ d = [xfe] /\ has_maps n /\
  mget "level" (n_float n) = Some v /\ is_integer v 20 /\
  process_event n r = Ok (n', evs, false) /\
  exists v', mget "level" (n_float n') = Some v' /\ is_integer v' 100.
Proof.
  exists [xfe], (RSwitchMulti1 100 false),
    (with_states (new_node 4) (Some [("on"%string, true)]) (Some [("level"%string, f64_of_Z 20)])).
  do 3 eexists. split; [reflexivity|]. split; [reflexivity|]. split; [split; discriminate|].
  split; [reflexivity|]. split; [apply small_integer; lia|]. split; [reflexivity|].
  eexists. split; [reflexivity|]. apply (small_integer 100). lia.
Qed.
Lemma unknown_level_marked b r : reports_new x26 x03 [b] = Ok r ->
  exists cur valid, r = RSwitchMulti1 cur valid /\ (valid = false <-> b = xfe).
Proof.
  cbn. intros [= <-]. do 2 eexists. split; [reflexivity|]. rewrite negb_false_iff. apply beq_true.
Qed.

Lemma reader_overlaps_add : exists h s g, krun kinit h = Some s /\ reading h g /\ add_in_progress h.
Proof.
  exists [KCall 1; KRLock 1; KAddLock 0]. eexists. exists 1. split; [reflexivity|]. split.
  - split; [right; left; reflexivity|]. intros [H|[H|[H|[]]]]; discriminate.
  - exists 0, [KCall 1; KRLock 1], []. split; [reflexivity|intros []].
Qed.
Lemma adds_exclude h a s : krun kinit (h ++ [KAddLock a]) = Some s -> ~ add_in_progress h.
Proof.
  rewrite krun_app. destruct (krun kinit h) as [s0|] eqn:R; [|discriminate]. intros E A.
  apply (k_adder_add _ _ R) in A. destruct A as [x X]. cbn in E. rewrite X in E. discriminate.
Qed.

Lemma nil_map_crash : exists n c k d r, reports_new c k d = Ok r /\ process_event n r = Panic.
Proof.
  exists (with_states (new_node 4) None None), x25, x03, [xff]. eexists.
  split; reflexivity.
Qed.
Lemma report_no_crash n h : has_maps n ->
  nrun (mkNM n 0 []) h = None \/ exists m evs, nrun (mkNM n 0 []) h = Some (Ok (m, evs)).
Proof. intros M. destruct (nrun_inv n h M) as [N|(m & e & R & _)]; eauto. Qed.
Lemma new_node_maps id : has_maps (new_node id).
Proof. split; discriminate. Qed.
