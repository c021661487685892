(** Lemmas about overlapping accesses. *)
From Verif Require Import ModelBase ModelAccess SpecAccess ProofBase.

Section Discipline.
(** [B g]: goroutine [g] may also use the map under the read lock; [E]: sites
    that use it without a lock; [A]: which accesses a goroutine makes. *)
Variable B : nat -> bool.
Variable E : nat -> bool.
Variable A : nat -> bool -> nat -> bool.

Definition ok_in (g : nat) (h : hold) (i : option (bool * nat * nat)) : bool :=
  match i with
  | None => true
  | Some (w, m, site) =>
      A g w site &&
      ((E site && negb w) || match h with HWrite => true | HRead => B g | HNone => false end)
  end.
Definition is_none {X} (o : option X) : bool := match o with None => true | _ => false end.
Definition hold_eqb (a b : hold) : bool :=
  match a, b with HNone, HNone | HRead, HRead | HWrite, HWrite => true | _, _ => false end.
Fixpoint check (g : nat) (h : hold) (i : option (bool * nat * nat)) (l : list op) : bool :=
  match l with
  | [] => hold_eqb h HNone && is_none i
  | Lock :: r => hold_eqb h HNone && is_none i && check g HWrite None r
  | RLock :: r => hold_eqb h HNone && is_none i && check g HRead None r
  | Unlock :: r => hold_eqb h HWrite && is_none i && check g HNone None r
  | RUnlock :: r => hold_eqb h HRead && is_none i && check g HNone None r
  | Begin w m s :: r => is_none i && ok_in g h (Some (w, m, s)) && check g h (Some (w, m, s)) r
  | End :: r => check g h None r
  end.

Lemma check_app g l1 l2 : forall h i,
  check g h i l1 = true -> check g HNone None l2 = true -> check g h i (l1 ++ l2) = true.
Proof.
  induction l1 as [|o l1 IH]; intros h i H1 H2; cbn [app check] in *.
  - destruct h; try discriminate. destruct i; try discriminate. exact H2.
  - destruct o; cbn [check] in *; repeat rewrite andb_true_iff in *;
      repeat match goal with H : _ /\ _ |- _ => destruct H end; repeat split; auto.
Qed.
(** A part that keeps what is held. *)
Definition keeps (g : nat) (h : hold) (l : list op) : Prop :=
  forall r, check g h None r = true -> check g h None (l ++ r) = true.
Lemma keeps_nil g h : keeps g h [].
Proof. intros r H. exact H. Qed.
Lemma keeps_app g h l1 l2 : keeps g h l1 -> keeps g h l2 -> keeps g h (l1 ++ l2).
Proof. intros H1 H2 r H. rewrite <- app_assoc. apply H1, H2, H. Qed.
Lemma keeps_access g h w m s : ok_in g h (Some (w, m, s)) = true -> keeps g h (access w m s).
Proof. intros H r Hr. cbn [access app check is_none]. rewrite H. exact Hr. Qed.
Lemma keeps_concat {X} g h (f : X -> list op) l : (forall x, keeps g h (f x)) ->
  keeps g h (List.concat (map f l)).
Proof.
  intros H. induction l as [|x l IH]; cbn [map List.concat]; [apply keeps_nil|].
  apply keeps_app; auto.
Qed.
Lemma keeps_repeat g h p n : keeps g h p -> keeps g h (List.concat (repeat p n)).
Proof. intros H. induction n; cbn; [apply keeps_nil|apply keeps_app; auto]. Qed.
Lemma keeps_lock g p : keeps g HWrite p -> keeps g HNone ([Lock] ++ p ++ [Unlock]).
Proof.
  intros H r Hr. cbn [app check hold_eqb is_none andb]. rewrite <- app_assoc.
  apply H. cbn. exact Hr.
Qed.
Lemma keeps_rlock g p : keeps g HRead p -> keeps g HNone ([RLock] ++ p ++ [RUnlock]).
Proof.
  intros H r Hr. cbn [app check hold_eqb is_none andb]. rewrite <- app_assoc.
  apply H. cbn. exact Hr.
Qed.
Lemma keeps_check g p : keeps g HNone p -> check g HNone None p = true.
Proof. intros H. specialize (H [] eq_refl). rewrite app_nil_r in H. exact H. Qed.

Hypothesis B_one : forall g1 g2, B g1 = true -> B g2 = true -> g1 = g2.

Definition inv (ts : list thread) : Prop :=
  (forall g t, nth_error ts g = Some t ->
     check g (t_hold t) (t_in t) (t_rest t) = true /\ ok_in g (t_hold t) (t_in t) = true) /\
  (forall g1 g2 t1 t2, g1 <> g2 -> nth_error ts g1 = Some t1 -> nth_error ts g2 = Some t2 ->
     t_hold t1 = HWrite -> t_hold t2 = HNone).

Lemma set_nth_cases {X} g (v : X) l k x : (g < List.length l)%nat ->
  nth_error (set_nth g v l) k = Some x -> (k = g /\ x = v) \/ (k <> g /\ nth_error l k = Some x).
Proof.
  intros L H. destruct (Nat.eq_dec k g) as [->|N].
  - left. rewrite set_nth_same in H by exact L. injection H as <-. auto.
  - right. rewrite set_nth_other in H by auto. auto.
Qed.

Lemma held_by_none_spec ts g t : held_by_none ts = true -> nth_error ts g = Some t -> t_hold t = HNone.
Proof.
  intros H N. unfold held_by_none in H. rewrite forallb_forall in H.
  specialize (H t (nth_error_In _ _ N)). destruct (t_hold t); congruence.
Qed.
Lemma no_writer_spec ts g t : no_writer ts = true -> nth_error ts g = Some t -> t_hold t <> HWrite.
Proof.
  intros H N. unfold no_writer in H. rewrite forallb_forall in H.
  specialize (H t (nth_error_In _ _ N)). destruct (t_hold t); congruence.
Qed.

(** A step that does not give goroutine [g] more than it may have. *)
Lemma inv_set ts g t t' : inv ts -> nth_error ts g = Some t ->
  check g (t_hold t') (t_in t') (t_rest t') = true -> ok_in g (t_hold t') (t_in t') = true ->
  (t_hold t' = HWrite -> t_hold t = HWrite \/ forall k u, nth_error ts k = Some u -> t_hold u = HNone) ->
  (t_hold t' <> HNone -> t_hold t <> HNone \/ forall k u, nth_error ts k = Some u -> t_hold u <> HWrite) ->
  inv (set_nth g t' ts).
Proof.
  intros [I1 I2] N C O W R.
  assert (L : (g < List.length ts)%nat) by (apply nth_error_Some; congruence).
  split.
  - intros k u H. apply set_nth_cases in H; [|exact L]. destruct H as [[-> ->]|[_ H]]; [auto|].
    apply I1, H.
  - intros g1 g2 t1 t2 D H1 H2 HW.
    apply set_nth_cases in H1; [|exact L]. apply set_nth_cases in H2; [|exact L].
    destruct H1 as [[-> ->]|[N1 H1]], H2 as [[-> ->]|[N2 H2]]; try congruence.
    + destruct (W HW) as [HT|HA]; [|eauto]. exact (I2 g g2 t t2 D N H2 HT).
    + destruct (t_hold t') eqn:E1; [reflexivity| |];
        (destruct R as [HT|HA]; [discriminate|exfalso; apply HT; exact (I2 g1 g t1 t D H1 N HW)|
           exfalso; exact (HA _ _ H1 HW)]).
    + exact (I2 g1 g2 t1 t2 D H1 H2 HW).
Qed.

Lemma inv_step ts g ts' : inv ts -> astep ts g = Some ts' -> inv ts'.
Proof.
  intros I H. unfold astep in H. destruct (nth_error ts g) as [t|] eqn:N; [|discriminate].
  destruct (proj1 I g t N) as [C O].
  destruct (t_rest t) as [|[] r] eqn:ER; try discriminate; cbn [check] in C;
    repeat rewrite andb_true_iff in C.
  - destruct (held_by_none ts) eqn:EH; [|discriminate]. injection H as <-.
    destruct C as [[C1 C2] C3]. destruct (t_in t); [discriminate|].
    apply inv_set with (t := t); auto; cbn [t_hold t_in t_rest]; intros _; right.
    + intros k u K. exact (held_by_none_spec _ _ _ EH K).
    + intros k u K. rewrite (held_by_none_spec _ _ _ EH K). discriminate.
  - destruct (t_hold t) eqn:ET; try discriminate. injection H as <-.
    destruct C as [[C1 C2] C3]. destruct (t_in t); [discriminate|].
    apply inv_set with (t := t); auto; cbn [t_hold t_in t_rest]; congruence.
  - destruct (no_writer ts) eqn:EH; [|discriminate]. injection H as <-.
    destruct C as [[C1 C2] C3]. destruct (t_in t); [discriminate|].
    apply inv_set with (t := t); auto; cbn [t_hold t_in t_rest]; [discriminate|].
    intros _. right. intros k u K. exact (no_writer_spec _ _ _ EH K).
  - destruct (t_hold t) eqn:ET; try discriminate. injection H as <-.
    destruct C as [[C1 C2] C3]. destruct (t_in t); [discriminate|].
    apply inv_set with (t := t); auto; cbn [t_hold t_in t_rest]; congruence.
  - injection H as <-. destruct C as [[C1 C2] C3].
    apply inv_set with (t := t); auto; cbn [t_hold t_in t_rest]; auto.
  - injection H as <-. apply inv_set with (t := t); auto; cbn [t_hold t_in t_rest]; auto.
Qed.

Lemma inv_run gs : forall ts ts', inv ts -> arun ts gs = Some ts' -> inv ts'.
Proof.
  induction gs as [|g gs IH]; intros ts ts' I H; cbn [arun] in H.
  - injection H as <-. exact I.
  - destruct (astep ts g) as [ts1|] eqn:ES; [|discriminate]. exact (IH _ _ (inv_step _ _ _ I ES) H).
Qed.

Lemma inv_overlap ts m s1 s2 : inv ts -> overlap ts m s1 s2 ->
  exists g1 g2 w, g1 <> g2 /\ E s2 = true /\ A g1 true s1 = true /\ A g2 w s2 = true.
Proof.
  intros [I1 I2] (g1 & g2 & t1 & t2 & w & D & N1 & N2 & T1 & T2). exists g1, g2, w.
  destruct (I1 _ _ N1) as [_ O1]. destruct (I1 _ _ N2) as [_ O2].
  rewrite T1 in O1. rewrite T2 in O2. cbn [ok_in] in O1, O2.
  rewrite andb_true_iff in O1, O2. destruct O1 as [A1 O1], O2 as [A2 O2].
  split; [exact D|]. split; [|auto].
  rewrite andb_false_r, orb_false_l in O1.
  destruct (E s2 && negb w) eqn:EE.
  { apply andb_true_iff in EE. tauto. }
  rewrite orb_false_l in O2. exfalso.
  destruct (t_hold t1) eqn:H1; try discriminate.
  - destruct (t_hold t2) eqn:H2; try discriminate.
    + apply D. apply B_one; assumption.
    + rewrite (I2 g2 g1 t2 t1) in H1; auto. discriminate.
  - rewrite (I2 g1 g2 t1 t2) in O2; auto. discriminate.
Qed.

Lemma inv_start ps : (forall g p, nth_error ps g = Some p -> check g HNone None p = true) ->
  inv (map start ps).
Proof.
  intros H. split.
  - intros g t N. rewrite nth_error_map in N. destruct (nth_error ps g) as [p|] eqn:EP; [|discriminate].
    injection N as <-. split; [exact (H _ _ EP)|reflexivity].
  - intros g1 g2 t1 t2 _ N1 N2 W. rewrite nth_error_map in N1.
    destruct (nth_error ps g1); [|discriminate]. injection N1 as <-. discriminate.
Qed.
End Discipline.

(** ** The table of pending requests *)
Definition conn_B (g : nat) : bool := (g =? 0)%nat.
Definition conn_E (s : nat) : bool := (s =? 214)%nat.
Definition memb (s : nat) (l : list nat) : bool := existsb (Nat.eqb s) l.
Definition conn_A (g : nat) (w : bool) (s : nat) : bool :=
  if (g =? 0)%nat then if w then memb s [224; 269] else memb s [214; 254]
  else if w then memb s [154; 349] else memb s [346].
Arguments conn_A : simpl never.

Lemma memb_In s l : memb s l = true -> In s l.
Proof. unfold memb. rewrite existsb_exists. intros (x & H & E). apply Nat.eqb_eq in E. congruence. Qed.

Local Notation ckeeps := (keeps conn_B conn_E conn_A).
Lemma reader_keeps r : ckeeps 0%nat HNone (reader_ops r).
Proof.
  unfold reader_ops. apply keeps_concat. intros [e|e].
  - unfold control_loop. apply keeps_app; [|apply keeps_access; reflexivity].
    apply keeps_concat. intros d. apply keeps_app; [apply keeps_access; reflexivity|].
    apply keeps_rlock. destruct d; [apply keeps_access; reflexivity|apply keeps_nil].
  - unfold frame_loop. rewrite app_assoc with (l := List.concat _).
    apply keeps_lock. apply keeps_app; [|apply keeps_access; reflexivity].
    apply keeps_concat. intros d. apply keeps_app; [apply keeps_access; reflexivity|].
    destruct d; [apply keeps_access; reflexivity|apply keeps_nil].
Qed.
Lemma other_keeps g o : ckeeps (S g) HNone (other_ops o).
Proof.
  unfold other_ops. apply keeps_concat. intros [|b f].
  - unfold writer_take. apply keeps_lock. apply keeps_access; reflexivity.
  - unfold timeout_worker. rewrite app_assoc with (l := List.concat _).
    apply keeps_lock. apply keeps_app; [apply keeps_repeat, keeps_access; reflexivity|].
    destruct f; [|apply keeps_nil]. apply keeps_app; [apply keeps_access; reflexivity|].
    apply keeps_repeat, keeps_access; reflexivity.
Qed.

Lemma pending_overlap reader others gs ts s1 s2 :
  arun (connection_threads reader others) gs = Some ts -> overlap ts 0 s1 s2 ->
  s2 = 214%nat /\ In s1 [154; 349]%nat.
Proof.
  intros R O.
  assert (I : inv conn_B conn_E conn_A ts).
  { refine (inv_run _ _ _ gs _ _ _ R). unfold connection_threads.
    replace (_ :: _) with (map start (reader_ops reader :: map other_ops others)).
    2: { cbn [map]. rewrite map_map. reflexivity. }
    apply inv_start. intros [|g] p N; cbn [nth_error] in N.
    - injection N as <-. apply keeps_check, reader_keeps.
    - rewrite nth_error_map in N. destruct (nth_error others g) as [o|]; [|discriminate].
      injection N as <-. apply keeps_check, other_keeps. }
  apply (inv_overlap conn_B conn_E conn_A) in O; [|intros g1 g2 H1 H2; apply Nat.eqb_eq in H1; apply Nat.eqb_eq in H2; congruence|exact I].
  destruct O as (g1 & g2 & w & D & HE & A1 & A2). apply Nat.eqb_eq in HE. subst s2. split; [reflexivity|].
  unfold conn_A in A1, A2. destruct (g2 =? 0)%nat eqn:G2.
  - destruct (g1 =? 0)%nat eqn:G1; [apply Nat.eqb_eq in G1; apply Nat.eqb_eq in G2; congruence|].
    exact (memb_In _ _ A1).
  - destruct w; cbn in A2; discriminate.
Qed.

Lemma pending_overlaps : exists reader others gs ts,
  arun (connection_threads reader others) gs = Some ts /\ overlap ts 0 154 214.
Proof.
  exists [RControlByte []], [[OWrite]], [0; 1; 1]%nat. eexists. split; [reflexivity|].
  exists 1%nat, 0%nat. do 3 eexists. repeat split; [discriminate|reflexivity..].
Qed.

(** ** The state of a node *)
Definition node_B (g : nat) : bool := false.
Definition node_E (s : nat) : bool := memb s [9000; 9001].
Definition node_A (g : nat) (w : bool) (s : nat) : bool :=
  if w then memb s [90; 92; 93; 102; 103; 115; 125; 126; 139] else memb s [9000; 9001].

Lemma node_keeps g a : keeps node_B node_E node_A g HNone (node_ops a).
Proof.
  destruct a as [| | |typed| |b f].
  - cbn [node_ops]. apply keeps_lock, keeps_access; reflexivity.
  - cbn [node_ops]. rewrite app_assoc with (l := access _ _ _).
    apply keeps_lock, keeps_app; apply keeps_access; reflexivity.
  - cbn [node_ops]. apply keeps_lock, keeps_access; reflexivity.
  - cbn [node_ops].
    change ([Lock] ++ access true 0 90 ++ (if typed then access true 1 92 ++ access true 1 93 else []) ++ [Unlock] ++
      [Lock] ++ access true 0 102 ++ access true 1 103 ++ [Unlock])
      with ([Lock] ++ (access true 0 90 ++ (if typed then access true 1 92 ++ access true 1 93 else []) ++ [Unlock] ++
      [Lock] ++ access true 0 102 ++ access true 1 103 ++ [Unlock])).
    replace ([Lock] ++ _) with
      (([Lock] ++ (access true 0 90 ++ (if typed then access true 1 92 ++ access true 1 93 else [])) ++ [Unlock]) ++
       ([Lock] ++ (access true 0 102 ++ access true 1 103) ++ [Unlock])) by (destruct typed; reflexivity).
    apply keeps_app; apply keeps_lock, keeps_app; try (apply keeps_access; reflexivity).
    destruct typed; [apply keeps_app; apply keeps_access; reflexivity|apply keeps_nil].
  - intros r H. exact H.
  - cbn [node_ops]. rewrite app_assoc. apply keeps_app; [intros r H; exact H|].
    apply keeps_app; apply keeps_repeat, keeps_access; reflexivity.
Qed.

Lemma node_overlap l gs ts m s1 s2 :
  arun (node_threads l) gs = Some ts -> overlap ts m s1 s2 -> In s2 [9000; 9001]%nat.
Proof.
  intros R O.
  assert (I : inv node_B node_E node_A ts).
  { refine (inv_run _ _ _ gs _ _ _ R). unfold node_threads.
    rewrite <- map_map with (f := fun a => List.concat (map node_ops a)) (g := start).
    apply inv_start. intros g p N. rewrite nth_error_map in N.
    destruct (nth_error l g) as [o|]; [|discriminate]. injection N as <-.
    apply keeps_check, keeps_concat. intros a. apply node_keeps. }
  apply (inv_overlap node_B node_E node_A) in O; [|intros g1 g2 H; discriminate|exact I].
  destruct O as (g1 & g2 & w & D & HE & A1 & A2). exact (memb_In _ _ HE).
Qed.

Lemma node_overlaps : exists l gs ts,
  arun (node_threads l) gs = Some ts /\ overlap ts 0 115 9000.
Proof.
  exists [[NMarshal 1 1]; [NSwitch]], [0; 0; 0; 1; 1]%nat. eexists. split; [reflexivity|].
  exists 1%nat, 0%nat. do 3 eexists. repeat split; [discriminate|reflexivity..].
Qed.

(** ** Without the unlocked loops there is no overlap *)
Definition no_E (s : nat) : bool := false.
Lemma frames_keep fs : keeps conn_B no_E conn_A 0%nat HNone (reader_ops (map RFrame fs)).
Proof.
  unfold reader_ops. rewrite map_map. apply keeps_concat. intros e.
  unfold frame_loop. rewrite app_assoc with (l := List.concat _).
  apply keeps_lock. apply keeps_app; [|apply keeps_access; reflexivity].
  apply keeps_concat. intros d. apply keeps_app; [apply keeps_access; reflexivity|].
  destruct d; [apply keeps_access; reflexivity|apply keeps_nil].
Qed.
Lemma other_keeps_no g o : keeps conn_B no_E conn_A (S g) HNone (other_ops o).
Proof.
  unfold other_ops. apply keeps_concat. intros [|b f].
  - unfold writer_take. apply keeps_lock. apply keeps_access; reflexivity.
  - unfold timeout_worker. rewrite app_assoc with (l := List.concat _).
    apply keeps_lock. apply keeps_app; [apply keeps_repeat, keeps_access; reflexivity|].
    destruct f; [|apply keeps_nil]. apply keeps_app; [apply keeps_access; reflexivity|].
    apply keeps_repeat, keeps_access; reflexivity.
Qed.
Lemma frames_no_overlap fs others gs ts s1 s2 :
  arun (connection_threads (map RFrame fs) others) gs = Some ts -> ~ overlap ts 0 s1 s2.
Proof.
  intros R O.
  assert (I : inv conn_B no_E conn_A ts).
  { refine (inv_run _ _ _ gs _ _ _ R). unfold connection_threads.
    replace (_ :: _) with (map start (reader_ops (map RFrame fs) :: map other_ops others)).
    2: { cbn [map]. rewrite map_map. reflexivity. }
    apply inv_start. intros [|g] p N; cbn [nth_error] in N.
    - injection N as <-. apply keeps_check, frames_keep.
    - rewrite nth_error_map in N. destruct (nth_error others g) as [o|]; [|discriminate].
      injection N as <-. apply keeps_check, other_keeps_no. }
  apply (inv_overlap conn_B no_E conn_A) in O;
    [|intros g1 g2 H1 H2; apply Nat.eqb_eq in H1; apply Nat.eqb_eq in H2; congruence|exact I].
  destruct O as (g1 & g2 & w & D & HE & _). discriminate.
Qed.

Lemma node_keeps_no g a : match a with NMarshal _ _ => False | _ => True end ->
  keeps node_B no_E node_A g HNone (node_ops a).
Proof.
  destruct a as [| | |typed| |b f]; [..|intros []]; intros _.
  - cbn [node_ops]. apply keeps_lock, keeps_access; reflexivity.
  - cbn [node_ops]. rewrite app_assoc with (l := access _ _ _).
    apply keeps_lock, keeps_app; apply keeps_access; reflexivity.
  - cbn [node_ops]. apply keeps_lock, keeps_access; reflexivity.
  - cbn [node_ops].
    replace ([Lock] ++ _) with
      (([Lock] ++ (access true 0 90 ++ (if typed then access true 1 92 ++ access true 1 93 else [])) ++ [Unlock]) ++
       ([Lock] ++ (access true 0 102 ++ access true 1 103) ++ [Unlock])) by (destruct typed; reflexivity).
    apply keeps_app; apply keeps_lock, keeps_app; try (apply keeps_access; reflexivity).
    destruct typed; [apply keeps_app; apply keeps_access; reflexivity|apply keeps_nil].
  - intros r H. exact H.
Qed.
Lemma reports_no_overlap l gs ts m s1 s2 : reports_only l ->
  arun (node_threads l) gs = Some ts -> ~ overlap ts m s1 s2.
Proof.
  intros RO R O.
  assert (I : inv node_B no_E node_A ts).
  { refine (inv_run _ _ _ gs _ _ _ R). unfold node_threads.
    rewrite <- map_map with (f := fun a => List.concat (map node_ops a)) (g := start).
    apply inv_start. intros g p N. rewrite nth_error_map in N.
    destruct (nth_error l g) as [o|] eqn:EN; [|discriminate]. injection N as <-.
    apply nth_error_In in EN. unfold reports_only in RO. rewrite Forall_forall in RO.
    specialize (RO _ EN). apply keeps_check. clear EN.
    induction RO as [|a o HA RO IH]; cbn [map List.concat]; [apply keeps_nil|].
    apply keeps_app; [apply node_keeps_no, HA|exact IH]. }
  apply (inv_overlap node_B no_E node_A) in O; [|intros g1 g2 H; discriminate|exact I].
  destruct O as (g1 & g2 & w & D & HE & _). discriminate.
Qed.
