(** Proofs about identification. *)
From Verif Require Import ModelBase ModelReports ModelSerial ModelCommands ModelNodes.
From Verif Require Import DataDevices DataMandatory ModelDatabase ModelIdentify SpecIdentify.
From Verif Require Import ProofBase ProofDatabase.
From Coq Require Import Sorting.Sorted.
Local Open Scope list_scope.
(* The tables are large: keep reduction away from them. *)
Local Opaque definitions devices.
Local Arguments get_mandatory : simpl never.
Local Arguments device_new : simpl never.

Lemma irun_snoc st ls l : irun st (ls ++ [l]) =
  match irun st ls with
  | None => None
  | Some (st1, o1) =>
      match istep st1 l with
      | None => None
      | Some (st2, o2) => Some (st2, o1 ++ o2)
      end
  end.
Proof.
  revert st; induction ls as [|x ls IH]; intros st; cbn.
  - destruct (istep st l) as [[st2 o2]|]; [|reflexivity]. now rewrite List.app_nil_r.
  - destruct (istep st x) as [[st1 o1]|]; [|reflexivity]. rewrite IH.
    destruct (irun st1 ls) as [[st2 o2]|]; [|reflexivity].
    destruct (istep st2 l) as [[st3 o3]|]; [|reflexivity]. now rewrite app_assoc.
Qed.

(** ** ProcessEvent touches the state maps only *)
Definition same_but_states (a b : node) : Prop := exists mb mf, b = with_states a mb mf.
Lemma same_refl a : same_but_states a a.
Proof. exists (n_bool a), (n_float a). destruct a; reflexivity. Qed.
Lemma same_trans a b c : same_but_states a b -> same_but_states b c -> same_but_states a c.
Proof. intros (x & y & ->) (u & v & ->). exists u, v. reflexivity. Qed.
Lemma set_bool_same n k v n' : set_bool n k v = Ok n' -> same_but_states n n'.
Proof. unfold set_bool, same_but_states. destruct (mset k v (n_bool n)); cbn; intros H; inversion H. eauto. Qed.
Lemma set_float_same n k v n' : set_float n k v = Ok n' -> same_but_states n n'.
Proof. unfold set_float, same_but_states. destruct (mset k v (n_float n)); cbn; intros H; inversion H. eauto. Qed.

Ltac dres H :=
  match type of H with
  | bind ?m _ = Ok _ => let E := fresh "E" in destruct m eqn:E; cbn [bind] in H; [|discriminate|discriminate]
  end.

Lemma process_event_same n r n' evs b : process_event n r = Ok (n', evs, b) ->
  same_but_states n n' /\ forall a, In a evs -> a = n_id n.
Proof.
  destruct r; cbn [process_event]; intros H;
    try (inversion H; subst; split; [apply same_refl|intros ? []]; fail).
  - destruct (beq status xff); [|inversion H; subst; split; [apply same_refl|intros ? []]].
    dres H. destruct (beq typ x00).
    + cbn [bind] in H. inversion H; subst. split; [eapply set_bool_same; eauto|].
      intros a [A|[]]; auto.
    + dres H. inversion H; subst. dres E0. split; [|intros ? [A|[]]; auto].
      eapply same_trans; [eapply set_bool_same; eauto|].
      eapply same_trans; eapply set_float_same; eauto.
  - dres H. inversion H; subst. split; [eapply set_float_same; eauto|intros ? [A|[]]; auto].
  - dres H. inversion H; subst. split; [eapply set_bool_same; eauto|intros ? [A|[]]; auto].
  - dres H. inversion H; subst. split; [eapply set_bool_same; eauto|intros ? [A|[]]; auto].
  - repeat dres H. inversion H; subst. split; [|intros ? [A|[]]; auto].
    eapply same_trans; [eapply set_bool_same; eauto|eapply set_float_same; eauto].
  - repeat dres H. inversion H; subst. split; [|intros ? [A|[]]; auto].
    eapply same_trans; [eapply set_bool_same; eauto|eapply set_float_same; eauto].
Qed.
Lemma window_end_same n n' evs : alarm_window_end n = Ok (n', evs) ->
  same_but_states n n' /\ forall a, In a evs -> a = n_id n.
Proof.
  unfold alarm_window_end. intros H. repeat dres H. inversion H; subst.
  split; [|intros ? [A|[]]; auto].
  eapply same_trans; [eapply set_bool_same; eauto|eapply set_float_same; eauto].
Qed.

(** The two ways another goroutine acts on the node, as one case. *)
Inductive passive (st st' : ist) (o : list iobs) : Prop :=
| pas_wake_none : i_chan st = None -> st' = st -> o = [OWakeUp] -> passive st st' o
| pas_wake_free c : i_chan st = Some c ->
    (forall s d, i_pc st = IWait s (Some d) -> d <> c) ->
    st' = mkI (i_pc st) (i_node st) None (i_fresh st) -> o = [OWakeUp] -> passive st st' o
| pas_wake_release c s : i_chan st = Some c -> i_pc st = IWait s (Some c) ->
    st' = mkI (ISend s) (i_node st) None (i_fresh st) -> o = [OWakeUp] -> passive st st' o
| pas_states mb mf evs : st' = mkI (i_pc st) (with_states (i_node st) mb mf) (i_chan st) (i_fresh st) ->
    o = map OEvent evs -> (forall a, In a evs -> a = n_id (i_node st)) -> passive st st' o
| pas_crash : st' = mkI ICrash (i_node st) (i_chan st) (i_fresh st) -> o = [] -> passive st st' o.

Lemma report_step st r st' o : istep st (IReport r) = Some (st', o) -> passive st st' o.
Proof.
  destruct st as [pc n ch fr]. cbn [istep i_pc i_node i_chan i_fresh].
  assert (K : forall pc', r <> RWakeUp ->
    (match process_event n r with
     | Ok (n', evs, _) => Some (mkI pc' n' ch fr, map OEvent evs)
     | _ => Some (mkI ICrash n ch fr, []) end) = Some (st', o) ->
     pc' = pc -> passive (mkI pc n ch fr) st' o).
  { intros pc' _ H ->. destruct (process_event n r) as [[[n' evs] b]| |] eqn:E; inversion H; subst.
    - destruct (process_event_same _ _ _ _ _ E) as [(mb & mf & ->) A]. eapply pas_states; cbn; eauto.
    - apply pas_crash; reflexivity.
    - apply pas_crash; reflexivity. }
  assert (W : forall pc', pc' = pc -> pc <> ICrash -> (match ch with
      | None => Some (mkI pc' n ch fr, [OWakeUp])
      | Some c => Some (mkI match pc' with
                             | IWait s (Some d) => if Nat.eqb c d then ISend s else pc'
                             | _ => pc' end n None fr, [OWakeUp]) end) = Some (st', o) ->
      passive (mkI pc n ch fr) st' o).
  { intros pc' -> N H. destruct ch as [c|]; inversion H; subst; [|apply pas_wake_none; reflexivity].
    destruct pc as [| | |s|s|s [d|]|s|s|l|l| | |];
      try (eapply pas_wake_free; cbn; eauto; intros; discriminate).
    destruct (Nat.eqb_spec c d) as [->|D].
    - eapply pas_wake_release; cbn; eauto.
    - eapply pas_wake_free; cbn; eauto. intros s' d' E. injection E as <- <-. auto. }
  destruct pc; intros H; try discriminate;
    (destruct r; [eapply K; eauto; discriminate .. | eapply W; [reflexivity|discriminate|exact H]]).
Qed.
Lemma window_step st st' o : istep st IWindow = Some (st', o) -> passive st st' o.
Proof.
  destruct st as [pc n ch fr]. cbn [istep i_pc i_node i_chan i_fresh].
  assert (K : forall pc', pc' = pc ->
    (match alarm_window_end n with
     | Ok (n', evs) => Some (mkI pc' n' ch fr, map OEvent evs)
     | _ => Some (mkI ICrash n ch fr, []) end) = Some (st', o) ->
     passive (mkI pc n ch fr) st' o).
  { intros pc' -> H. destruct (alarm_window_end n) as [[n' evs]| |] eqn:E; inversion H; subst.
    - destruct (window_end_same _ _ _ E) as [(mb & mf & ->) A]. eapply pas_states; cbn; eauto.
    - apply pas_crash; reflexivity.
    - apply pas_crash; reflexivity. }
  destruct pc; intros H; try discriminate; (eapply K; [reflexivity|exact H]).
Qed.

(** ** The invariant *)
Definition mand (pi : protocol_info) : option (list cclass) :=
  get_mandatory definitions (pi_generic pi) (pi_specific pi).
Local Arguments mand : simpl never.
Definition listed (c : option (list cclass)) : list cclass :=
  match c with Some l => l | None => [] end.
Definition level (n : node) : nat :=
  match n_info n, n_ms n, n_endpoints n with
  | None, _, _ => 0
  | _, None, _ => 1
  | _, _, None => 2
  | _, _, _ => 3
  end.
Definition stage_level (s : stage) : nat := match s with SMs => 1 | SEp => 2 | SSt => 3 end.
Definition pc_ok (pc : ipc) (n : node) : Prop :=
  match pc with
  | ITop | IPause | ICrash => True
  | IInfo => level n = 0
  | IEnter s | IFetch s | IWait s _ | ISend s =>
      level n = stage_level s /\ (s = SSt -> n_states_ok n = false)
  | IAwait s => level n = stage_level s /\ s <> SSt
  | IStates _ | IAwaitState _ => level n = 3 /\ n_states_ok n = false
  | IFinal | IDone => level n = 3 /\ n_states_ok n = true /\
                      exists pi, n_info n = Some pi /\ n_classes n = mand pi
  end.
Definition asked (tr : list iobs) (c : cclass) : Prop :=
  In (cc_id c) [x25; x26; x31] -> exists m, In m (writes tr) /\ asks_state m (cc_id c).
Definition classes_ok (n : node) : Prop :=
  forall pi, n_info n = Some pi ->
    n_classes n = mand pi \/
    exists ms d, n_ms n = Some ms /\ device_new (ms_manufacturer ms) (ms_type ms) (ms_id ms) = Some d /\
      n_classes n = append_classes (mand pi) (d_classes d).
Definition stage_le (a b : list byte) : Prop :=
  exists i j, request_stage a = Some i /\ request_stage b = Some j /\ i <= j.

Record inv (n0 : node) (st : ist) (tr : list iobs) : Prop := {
  iv_id : n_id (i_node st) = n_id n0;
  iv_pc : pc_ok (i_pc st) (i_node st);
  iv_ok : n_states_ok (i_node st) = true -> level (i_node st) = 3;
  iv_ident : n_identified (i_node st) = true -> i_pc st = IDone \/ i_pc st = ICrash;
  iv_events : forall a, In a (published tr) -> a = n_id n0;
  iv_writes : forall m, In m (writes tr) ->
    (exists k, request_stage m = Some k /\ k <= level (i_node st)) /\
    request_node m = Some (Z2b (n_id n0));
  iv_sorted : StronglySorted stage_le (writes tr);
  iv_cls : classes_ok (i_node st);
  iv_states : forall l, i_pc st = IStates l \/ i_pc st = IAwaitState l ->
    List.length l <= 32 /\
    forall c, In c (listed (n_classes (i_node st))) -> In c l \/ asked tr c;
  iv_asked : n_states_ok (i_node st) = true -> forall pi c,
    n_info (i_node st) = Some pi -> In c (listed (mand pi)) -> asked tr c;
  iv_chan : forall s c, i_pc st = IWait s (Some c) -> i_chan st = Some c;
  iv_dev : n_ms n0 = None -> forall ms d, n_ms (i_node st) = Some ms ->
    device_new (ms_manufacturer ms) (ms_type ms) (ms_id ms) = Some d ->
    n_brand (i_node st) = d_brand d /\ n_product (i_node st) = d_product d /\
    n_description (i_node st) = d_description d }.

Lemma writes_app a b : writes (a ++ b) = writes a ++ writes b.
Proof. apply flat_map_app. Qed.
Lemma published_app a b : published (a ++ b) = published a ++ published b.
Proof. apply flat_map_app. Qed.
Lemma writes_events evs : writes (map OEvent evs) = [].
Proof. induction evs; cbn; auto. Qed.
Lemma published_events evs : published (map OEvent evs) = evs.
Proof. unfold published. induction evs; cbn; congruence. Qed.

Lemma mand_length pi : List.length (listed (mand pi)) <= 11.
Proof.
  assert (F : forallb (fun e => Nat.leb (List.length (snd e)) 11) definitions = true)
    by (vm_compute; reflexivity).
  unfold mand. destruct (get_mandatory definitions _ _) as [l|] eqn:E; cbn; [|lia].
  apply get_mandatory_in in E. rewrite forallb_forall in F. specialize (F _ E). cbn in F.
  now apply Nat.leb_le in F.
Qed.
Lemma device_length m t i d : device_new m t i = Some d -> List.length (d_classes d) <= 21.
Proof.
  assert (F : forallb (fun e => Nat.leb (List.length (d_classes (snd e))) 21) devices = true)
    by (vm_compute; reflexivity).
  unfold device_new. intros E. apply alookup_in in E.
  rewrite forallb_forall in F. specialize (F _ E). cbn [snd] in F. now apply Nat.leb_le in F.
Qed.
Lemma classes_length n pi : classes_ok n -> n_info n = Some pi ->
  List.length (listed (n_classes n)) <= 32.
Proof.
  intros C I. pose proof (mand_length pi) as M.
  destruct (C _ I) as [->|(ms & d & _ & D & ->)]; [lia|].
  apply device_length in D. unfold append_classes. destruct (d_classes d) eqn:E; [lia|].
  rewrite <- E in *. cbn [listed]. rewrite app_length.
  unfold listed in M. lia.
Qed.
Lemma classes_mand n pi c : classes_ok n -> n_info n = Some pi ->
  In c (listed (mand pi)) -> In c (listed (n_classes n)).
Proof.
  intros C I H. destruct (C _ I) as [->|(ms & d & _ & D & ->)]; [assumption|].
  unfold append_classes. destruct (d_classes d); [assumption|].
  cbn [listed]. apply in_or_app. left. exact H.
Qed.
Lemma asked_more tr o c : asked tr c -> asked (tr ++ o) c.
Proof.
  intros A H. destruct (A H) as (m & M & Q). exists m. rewrite writes_app. split; auto.
  apply in_or_app; auto.
Qed.

(** The trace grows by observations without writes. *)
Lemma sorted_snoc l x : StronglySorted stage_le l -> (forall y, In y l -> stage_le y x) ->
  StronglySorted stage_le (l ++ [x]).
Proof.
  induction 1 as [|a l S IH F]; intros H; cbn.
  - constructor; constructor.
  - constructor; [apply IH; intros y Y; apply H; now right|].
    apply Forall_app. split; [assumption|]. constructor; [|constructor]. apply H. now left.
Qed.

Lemma inv_passive n0 st tr st' o : inv n0 st tr -> passive st st' o -> inv n0 st' (tr ++ o).
Proof.
  intros I P.
  assert (T : writes o = [] /\ forall a, In a (published o) -> a = n_id (i_node st)).
  { inversion P; subst; try (split; [reflexivity|intros ? []]).
    rewrite writes_events, published_events. auto. }
  destruct T as [W E].
  assert (EV : forall a, In a (published (tr ++ o)) -> a = n_id n0).
  { intros a. rewrite published_app, in_app_iff. intros [A|A]; [eapply iv_events; eauto|].
    apply E in A. now rewrite (iv_id _ _ _ I) in A. }
  assert (WR : writes (tr ++ o) = writes tr) by (rewrite writes_app, W; apply List.app_nil_r).
  assert (AS : forall c, asked (tr ++ o) c <-> asked tr c).
  { intros c. unfold asked. now rewrite WR. }
  destruct I as [I1 I2 I3 I4 I5 I6 I7 I8 I9 I10 I11 I12].
  destruct st as [pc n ch fr]. cbn [i_pc i_node i_chan i_fresh] in *.
  inversion P as [C E1 E2|c C F E1 E2|c s C F E1 E2|mb mf evs E1 E2 F|E1 E2];
    cbn [i_pc i_node i_chan i_fresh] in *; subst.
  - constructor; cbn [i_pc i_node i_chan i_fresh]; auto; try (rewrite WR; auto).
    + intros l L. destruct (I9 l L) as [A B]. split; auto. intros c K. rewrite AS. auto.
    + intros S pi c K1 K2. rewrite AS. eauto.
  - constructor; cbn [i_pc i_node i_chan i_fresh]; auto; try (rewrite WR; auto).
    + intros l L. destruct (I9 l L) as [A B]. split; auto. intros c' K. rewrite AS. auto.
    + intros S pi c' K1 K2. rewrite AS. eauto.
    + intros s d K. pose proof (I11 _ _ K) as Q. injection Q as Q. destruct (F _ _ K). auto.
  - constructor; cbn [i_pc i_node i_chan i_fresh]; auto; try (rewrite WR; auto).
    + intros K. destruct (I4 K); discriminate.
    + intros l [L|L]; discriminate.
    + intros S pi c' K1 K2. rewrite AS. eauto.
    + intros; discriminate.
  - constructor; cbn [i_pc i_node i_chan i_fresh]; auto; try (rewrite WR; auto).
    + intros l L. destruct (I9 l L) as [A B]. split; auto. intros c' K. rewrite AS. auto.
    + intros S pi c' K1 K2. rewrite AS. eauto.
  - constructor; cbn [i_pc i_node i_chan i_fresh]; auto; try (rewrite WR; auto).
    + exact Logic.I.
    + intros l [L|L]; discriminate.
    + intros S pi c' K1 K2. rewrite AS. eauto.
    + intros; discriminate.
Qed.

Definition dev_ok (n : node) : Prop := forall ms d, n_ms n = Some ms ->
  device_new (ms_manufacturer ms) (ms_type ms) (ms_id ms) = Some d ->
  n_brand n = d_brand d /\ n_product n = d_product d /\ n_description n = d_description d.

Lemma inv_make n0 st tr pc' n' ch' fr' o : inv n0 st tr ->
  n_id n' = n_id (i_node st) -> level (i_node st) <= level n' ->
  pc_ok pc' n' -> (n_states_ok n' = true -> level n' = 3) ->
  (n_identified n' = true -> pc' = IDone) ->
  (forall a, In a (published o) -> a = n_id (i_node st)) ->
  (writes o = [] \/ exists m, writes o = [m] /\ request_stage m = Some (level (i_node st)) /\
     request_node m = Some (Z2b (n_id (i_node st)))) ->
  classes_ok n' ->
  (forall l, pc' = IStates l \/ pc' = IAwaitState l ->
     List.length l <= 32 /\ forall c, In c (listed (n_classes n')) -> In c l \/ asked (tr ++ o) c) ->
  (n_states_ok n' = true -> forall pi c, n_info n' = Some pi -> In c (listed (mand pi)) -> asked (tr ++ o) c) ->
  (forall s c, pc' = IWait s (Some c) -> ch' = Some c) ->
  (dev_ok (i_node st) \/ n_ms (i_node st) = None -> dev_ok n') ->
  inv n0 (mkI pc' n' ch' fr') (tr ++ o).
Proof.
  intros [I1 I2 I3 I4 I5 I6 I7 I8 I9 I10 I11 I12] A1 A2 A3 A4 A5 A6 A7 A8 A9 A10 A11 A12.
  constructor; cbn [i_pc i_node i_chan i_fresh]; auto.
  - congruence.
  - intros a. rewrite published_app, in_app_iff. intros [H|H]; [auto|]. rewrite <- I1. auto.
  - intros m. rewrite writes_app, in_app_iff. intros [H|H].
    + destruct (I6 m H) as [(k & K & L) N]. split; [exists k; split; [assumption|lia]|assumption].
    + destruct A7 as [W|(m' & W & S & N)]; rewrite W in H; [destruct H|].
      destruct H as [<-|[]]. rewrite <- I1. split; [eauto|assumption].
  - rewrite writes_app. destruct A7 as [W|(m' & W & S & N)]; rewrite W.
    + now rewrite List.app_nil_r.
    + apply sorted_snoc; auto. intros y Y. destruct (I6 y Y) as [(k & K & L) _].
      exists k, (level (i_node st)). auto.
  - intros N. apply A12. destruct (n_ms (i_node st)) eqn:E; [left|now right].
    intros ms d M D. rewrite E in M. apply (I12 N ms d); auto.
Qed.

Lemma level_info n pi : n_info n = Some pi -> 1 <= level n.
Proof. unfold level. intros ->. destruct (n_ms n), (n_endpoints n); lia. Qed.
Lemma level_some n : 1 <= level n -> exists pi, n_info n = Some pi.
Proof. unfold level. destruct (n_info n); [eauto|lia]. Qed.
Lemma level_le3 n : level n <= 3.
Proof. unfold level. destruct (n_info n), (n_ms n), (n_endpoints n); lia. Qed.

Lemma state_request_spec n c m : state_request n c = Some m ->
  request_stage m = Some 3 /\ request_node m = Some (Z2b (n_id n)) /\ asks_state m (cc_id c).
Proof.
  unfold state_request. destruct (cc_id c) eqn:E; try discriminate; intros H; injection H as <-;
    (split; [reflexivity|split; [reflexivity|]]); unfold asks_state, encode_raw;
    [left|left|right]; (split; [auto|]); cbn [app List.length]; repeat eexists.
Qed.
Lemma state_request_none n c : state_request n c = None -> ~ In (cc_id c) [x25; x26; x31].
Proof.
  unfold state_request. destruct (cc_id c); try discriminate; intros _ H; cbn in H;
    intuition discriminate.
Qed.

(** The part of a pass after the protocol info is known. *)
Lemma after_ms_ok n pc o pi : after_ms n = (pc, o) -> n_info n = Some pi -> n_ms n <> None ->
  (n_states_ok n = true -> n_classes n = mand pi) ->
  pc_ok pc n /\ writes o = [] /\ (forall a, In a (published o) -> a = n_id n) /\
  (forall l, pc <> IStates l /\ pc <> IAwaitState l) /\ (forall s c, pc <> IWait s c) /\
  (pc = IFinal \/ exists s, pc = IEnter s).
Proof.
  unfold after_ms. intros H I M C.
  assert (L : level n = match n_endpoints n with None => 2 | Some _ => 3 end).
  { unfold level. rewrite I. destruct (n_ms n); [|congruence]. destruct (n_endpoints n); reflexivity. }
  destruct (n_endpoints n) as [e|] eqn:E.
  - destruct (n_states_ok n) eqn:S; inversion H; subst; cbn.
    + split; [|repeat split; auto; try (intros a [A|[]]; auto); intros; discriminate].
      split; [assumption|]. split; [assumption|]. exists pi. auto.
    + repeat split; auto; try (intros a []); try (intros; discriminate); right; eauto.
  - inversion H; subst; cbn. repeat split; auto; try (intros a []); try (intros; discriminate). right; eauto.
Qed.
Lemma after_info_ok n pi pc n' o : after_info n pi = (pc, n', o) -> n_info n = Some pi ->
  n' = set_classes n (mand pi) /\
  pc_ok pc n' /\ writes o = [] /\ (forall a, In a (published o) -> a = n_id n) /\
  (forall l, pc <> IStates l /\ pc <> IAwaitState l) /\ (forall s c, pc <> IWait s c) /\
  (pc = IFinal \/ exists s, pc = IEnter s).
Proof.
  unfold after_info. fold (mand pi). intros H I.
  change (n_ms (set_classes n (mand pi))) with (n_ms n) in H.
  destruct (n_ms n) as [ms|] eqn:M.
  - destruct (after_ms (set_classes n (mand pi))) as [pc1 o1] eqn:E. inversion H; subst.
    split; [reflexivity|]. eapply (after_ms_ok _ _ _ pi E).
    + exact I.
    + cbn. congruence.
    + reflexivity.
  - inversion H; subst. split; [reflexivity|].
    repeat split; cbn; auto; try (intros ? []); try (intros; discriminate).
    + unfold level. cbn. rewrite I, M. reflexivity.
    + right. eauto.
Qed.

Lemma not_identified n0 st tr : inv n0 st tr -> i_pc st <> IDone -> i_pc st <> ICrash ->
  n_identified (i_node st) = true -> False.
Proof. intros I A B H. destruct (iv_ident _ _ _ I H); congruence. Qed.

Lemma inv_step n0 st tr l st' o : inv n0 st tr -> istep st l = Some (st', o) ->
  inv n0 st' (tr ++ o).
Proof.
  intros I H.
  destruct l as [| |m|r|r|].
  5: { eapply inv_passive; eauto. eapply report_step; eauto. }
  5: { eapply inv_passive; eauto. eapply window_step; eauto. }
  all: pose proof (not_identified _ _ _ I) as NI; pose proof I as I';
    destruct I' as [I1 I2 I3 I4 I5 I6 I7 I8 I9 I10 I11 I12];
    destruct st as [pc n ch fr]; cbn [i_pc i_node i_chan i_fresh] in *; cbn [istep] in H;
    cbn [i_pc i_node i_chan i_fresh] in H.
  all: assert (KA : n_states_ok n = true -> forall pi c o', n_info n = Some pi ->
        In c (listed (mand pi)) -> asked (tr ++ o') c)
       by (intros; apply asked_more; eauto).
  - (* IGo *)
    destruct pc as [| | |s|s|s c|s|s|l|l| | |]; try discriminate.
    + (* ITop *)
      destruct (n_info n) as [pi|] eqn:E.
      * destruct (after_info n pi) as [[pc1 n1] o1] eqn:A. inversion H; subst.
        destruct (after_info_ok _ _ _ _ _ A E) as (-> & P1 & P2 & P3 & P4 & P5 & _).
        eapply inv_make; eauto; cbn [i_node].
        -- intros K. destruct NI; auto; discriminate.
        -- intros pi' K. cbn in K. left. rewrite E in K. injection K as <-. reflexivity.
        -- intros l [L|L]; destruct (P4 l); contradiction.
        -- intros S pi' c K C. apply (KA S pi'); [cbn in K; congruence|exact C].
        -- intros s c L. destruct (P5 _ _ L).
        -- intros [D|D] ms d M; [now apply D|]. cbn in M. congruence.
      * inversion H; subst. eapply inv_make; eauto; cbn [i_node].
        -- cbn. unfold level. now rewrite E.
        -- intros K. destruct NI; auto; discriminate.
        -- intros a [].
        -- right. eexists. split; [reflexivity|]. split; [|reflexivity]. cbn. unfold level. now rewrite E.
        -- intros l [L|L]; discriminate.
        -- intros S pi' c K C. congruence.
        -- intros; discriminate.
        -- intros [D|D] ms d M; [now apply D|]. congruence.
    + (* IEnter *)
      destruct I2 as [L S].
      destruct (n_awake n); [inversion H; subst|destruct ch as [c|]; inversion H; subst].
      all: eapply inv_make; eauto; cbn [i_node]; try (split; auto; fail);
        try (intros K; destruct NI; auto; discriminate); try (intros a []; fail); auto;
        try (intros l0 [Q|Q]; discriminate); try (intros; discriminate);
        try (intros [D|D] ms d M; [now apply D|congruence]).
    + (* IFetch *)
      destruct I2 as [L S]. inversion H; subst.
      eapply inv_make; eauto; cbn [i_node]; try (split; auto; fail);
        try (intros K; destruct NI; auto; discriminate); try (intros a []; fail); auto;
        try (intros l0 [Q|Q]; discriminate);
        try (intros [D|D] ms d M; [now apply D|congruence]).
      intros s0 c Q. congruence.
    + (* ISend *)
      destruct I2 as [L S]. destruct s.
      * inversion H; subst. eapply inv_make; eauto; cbn [i_node]; try (split; auto; discriminate);
          try (intros K; destruct NI; auto; discriminate); try (intros a []; fail); auto;
          try (intros l0 [Q|Q]; discriminate); try (intros; discriminate);
          try (intros [D|D] ms d M; [now apply D|congruence]).
        right. eexists. split; [reflexivity|]. rewrite L. split; reflexivity.
      * assert (EP : n_endpoints n = None /\ exists pi, n_info n = Some pi /\ n_ms n <> None).
        { unfold level in L. cbn in L. destruct (n_info n); [|discriminate].
          destruct (n_ms n); [|discriminate]. destruct (n_endpoints n); [discriminate|].
          split; auto. eexists. split; [reflexivity|discriminate]. }
        destruct EP as (EP & pi & PI & MS).
        destruct (n_classes n) as [cc|] eqn:C; inversion H; subst.
        -- eapply inv_make; eauto; cbn [i_node]; try (split; auto; discriminate);
          try (intros K; destruct NI; auto; discriminate); try (intros a []; fail); auto;
          try (intros l0 [Q|Q]; discriminate); try (intros; discriminate);
          try (intros [D|D] ms d M; [now apply D|congruence]).
          right. eexists. split; [reflexivity|]. rewrite L. split; reflexivity.
        -- assert (LV : level (set_endpoints n []) = 3).
           { unfold level. cbn. rewrite PI. destruct (n_ms n); [reflexivity|congruence]. }
           eapply inv_make; eauto; cbn [i_node]; try (split; auto; discriminate);
          try (intros K; destruct NI; auto; discriminate); try (intros a []; fail); auto;
          try (intros l0 [Q|Q]; discriminate); try (intros; discriminate);
          try (intros [D|D] ms d M; [now apply D|congruence]).
          rewrite LV. apply level_le3.
      * inversion H; subst. eapply inv_make; eauto; cbn [i_node]; try (split; auto; fail);
          try (intros K; destruct NI; auto; discriminate); try (intros a []; fail); auto;
          try (intros; discriminate);
          try (intros [D|D] ms d M; [now apply D|congruence]).
        intros l [Q|Q]; [injection Q as <-|discriminate].
        destruct (level_some n) as [pi PI]; [rewrite L; cbn; lia|].
        split; [eapply classes_length; eauto|]. intros c C. left. exact C.
    + (* IStates *)
      destruct I2 as [L S]. destruct (I9 l (or_introl eq_refl)) as [LL AL].
      destruct l as [|c r].
      * inversion H; subst. eapply inv_make; eauto; cbn [i_node];
          try (intros K; destruct NI; auto; discriminate); try (intros a []; fail); auto;
          try (intros l0 [Q|Q]; discriminate); try (intros; discriminate);
          try (intros [D|D] ms d M; [now apply D|cbn in M; congruence]).
        -- exact Logic.I.
        -- cbn. intros _ pi c PI C. apply asked_more.
           destruct (AL c) as [[]|A]; [|exact A]. eapply classes_mand; eauto.
      * destruct (state_request n c) as [m|] eqn:R.
        -- inversion H; subst. destruct (state_request_spec _ _ _ R) as (R1 & R2 & R3).
           eapply inv_make; eauto; cbn [i_node];
           try (intros K; destruct NI; auto; discriminate); try (intros a []; fail); auto;
           try (intros; discriminate);
           try (intros [D|D] ms d M; [now apply D|cbn in M; congruence]).
           ++ destruct (state_waits c); split; auto.
           ++ right. exists m. rewrite L. auto.
           ++ intros l Q. assert (l = r) as -> by (destruct (state_waits c); destruct Q as [Q|Q]; congruence).
              split; [cbn in LL; lia|]. intros c' C'. destruct (AL c' C') as [[<-|A]|A]; auto.
              ** right. intros _. exists m. rewrite writes_app. split; auto. apply in_or_app. right. now left.
              ** right. now apply asked_more.
           ++ destruct (state_waits c); intros; discriminate.
        -- inversion H; subst. apply state_request_none in R.
           eapply inv_make; eauto; cbn [i_node];
           try (intros K; destruct NI; auto; discriminate); try (intros a []; fail); auto;
           try (intros; discriminate);
           try (intros [D|D] ms d M; [now apply D|cbn in M; congruence]).
           ++ split; auto.
           ++ intros l [Q|Q]; [injection Q as <-|discriminate].
              split; [cbn in LL; lia|]. intros c' C'. destruct (AL c' C') as [[<-|A]|A]; auto.
              ** right. intros K. contradiction.
              ** right. now apply asked_more.
    + (* IFinal *)
      destruct I2 as (L & S & pi & PI & C). inversion H; subst.
      eapply inv_make; eauto; cbn [i_node];
        try (intros a []; fail); auto; try (intros l0 [Q|Q]; discriminate); try (intros; discriminate);
        try (intros [D|D] ms d M; [now apply D|cbn in M; congruence]).
      split; [assumption|]. split; [assumption|]. exists pi. auto.
  - (* ITimer *)
    destruct pc; try discriminate. inversion H; subst.
    eapply inv_make; eauto; cbn [i_node]; try exact Logic.I;
      try (intros K; destruct NI; auto; discriminate); try (intros a []; fail); auto;
      try (intros l0 [Q|Q]; discriminate); try (intros; discriminate);
      try (intros [D|D] ms d M; [now apply D|congruence]).
  - (* IGotInfo *)
    assert (F : forall o', Some (mkI IPause n ch fr, o') = Some (st', o) -> o' = [] -> inv n0 st' (tr ++ o)).
    { intros o' Q ->. inversion Q; subst.
      eapply inv_make; eauto; cbn [i_node]; try exact Logic.I;
      try (intros K; destruct NI; auto; destruct pc; discriminate); try (intros a []; fail); auto;
      try (intros l0 [X|X]; discriminate); try (intros; discriminate);
      try (intros [D|D] ms d M; [now apply D|congruence]).
      }
    destruct pc; try discriminate.
    destruct m as [msg|]; [|eapply F; eauto].
    destruct (m_data msg) as [[| |pi]|]; try (eapply F; eauto; fail).
    clear F. cbn in I2.
    assert (EI : n_info n = None).
    { unfold level in I2. destruct (n_info n), (n_ms n), (n_endpoints n); try discriminate; reflexivity. }
    destruct (after_info (set_info n pi) pi) as [[pc1 n1] o1] eqn:A. inversion H; subst.
    destruct (after_info_ok _ _ _ _ _ A eq_refl) as (-> & P1 & P2 & P3 & P4 & P5 & _).
    assert (SO : n_states_ok n = false).
    { destruct (n_states_ok n) eqn:Q; [|reflexivity]. specialize (I3 eq_refl). lia. }
    eapply inv_make; eauto; cbn [i_node].
    + lia.
    + cbn. congruence.
    + intros K. destruct NI; auto; discriminate.
    + intros a [K|K]; [auto|]. apply P3 in K. exact K.
    + intros pi' K. cbn in K. injection K as <-. left. reflexivity.
    + intros l [L|L]; destruct (P4 l); contradiction.
    + cbn. congruence.
    + intros s c L. destruct (P5 _ _ L).
    + intros [D|D] ms d M; [now apply D|]. cbn in M. congruence.
  - (* IGotReport *)
    assert (F : Some (mkI IPause n ch fr, []) = Some (st', o) -> pc <> IDone -> pc <> ICrash -> inv n0 st' (tr ++ o)).
    { intros Q N1 N2. inversion Q; subst.
      eapply inv_make; eauto; cbn [i_node]; try exact Logic.I;
      try (intros K; destruct NI; auto; fail); try (intros a []; fail); auto;
      try (intros l0 [X|X]; discriminate); try (intros; discriminate);
      try (intros [D|D] ms d M; [now apply D|congruence]). }
    destruct pc as [| | |s|s|s c|s|s|l|l| | |]; try discriminate.
    + destruct I2 as [L NS]. destruct s; [| |congruence].
      * destruct r as [r|]; [|apply F; auto; discriminate].
        destruct r as [| mm tt ii | | | | | | |]; try (apply F; auto; discriminate). clear F.
        assert (MI : n_ms n = None /\ exists pi, n_info n = Some pi).
        { unfold level in L. cbn in L. destruct (n_info n); [|discriminate].
          destruct (n_ms n); [destruct (n_endpoints n); discriminate|]. eauto. }
        destruct MI as (MS & pi & PI).
        assert (SO : n_states_ok n = false).
        { destruct (n_states_ok n) eqn:Q; [|reflexivity]. specialize (I3 eq_refl). cbn in L. lia. }
        destruct (after_ms (set_manufacturer n (mkMS mm tt ii))) as [pc1 o1] eqn:A. inversion H; subst.
        destruct (after_ms_ok _ _ _ pi A) as (P1 & P2 & P3 & P4 & P5 & _).
        { exact PI. } { cbn. discriminate. } { cbn. congruence. }
        eapply inv_make; eauto; cbn [i_node].
        -- rewrite L. cbn. apply level_info with (pi := pi). exact PI.
        -- cbn. congruence.
        -- intros K. destruct NI; auto; discriminate.
        -- intros a [K|K]; [auto|]. apply P3 in K. exact K.
        -- intros pi' K. cbn in K. rewrite PI in K. injection K as <-.
           destruct (I8 _ PI) as [CM|(ms & d & MS' & _)]; [|congruence].
           cbn [set_manufacturer n_classes n_ms ms_manufacturer ms_type ms_id].
           destruct (device_new mm tt ii) as [d|] eqn:D; [|left; assumption].
           right. exists (mkMS mm tt ii), d. split; [reflexivity|]. split; [exact D|]. now rewrite CM.
        -- intros l [Q|Q]; destruct (P4 l); contradiction.
        -- intros s c Q. destruct (P5 _ _ Q).
        -- intros _ ms d M D. cbn in M. injection M as <-. cbn in D |- *. rewrite D. auto.
      * destruct r as [r|]; [|apply F; auto; discriminate].
        destruct r as [| | dy idn cnt | | | | | |]; try (apply F; auto; discriminate). clear F.
        assert (EP : n_endpoints n = None /\ exists pi, n_info n = Some pi /\ n_ms n <> None).
        { unfold level in L. cbn in L. destruct (n_info n); [|discriminate].
          destruct (n_ms n); [|discriminate]. destruct (n_endpoints n); [discriminate|].
          split; auto. eexists. split; [reflexivity|discriminate]. }
        destruct EP as (EP & pi & PI & MS).
        inversion H; subst.
        assert (LV : level (set_endpoints n (made_endpoints n cnt)) = 3).
        { unfold level. cbn. rewrite PI. destruct (n_ms n); [reflexivity|congruence]. }
        eapply inv_make; eauto; cbn [i_node];
          try (intros K; destruct NI; auto; discriminate); auto;
          try (intros l0 [Q|Q]; discriminate); try (intros; discriminate);
          try (intros [D|D] ms d M; [now apply D|congruence]).
        -- rewrite LV. apply level_le3.
        -- exact Logic.I.
        -- intros a [Q|[]]; auto.
    + destruct I2 as [L S]. destruct (I9 l (or_intror eq_refl)) as [LL AL].
      inversion H; subst.
      eapply inv_make; eauto; cbn [i_node]; try (split; auto; fail);
        try (intros K; destruct NI; auto; discriminate); try (intros a []; fail); auto;
        try (intros; discriminate);
        try (intros [D|D] ms d M; [now apply D|congruence]).
      intros l0 [Q|Q]; [injection Q as <-|discriminate]. split; [assumption|].
      intros c C. destruct (AL c C); [now left|right; now apply asked_more].
Qed.

Lemma inv_start n0 : unidentified n0 -> inv n0 (istart n0) [].
Proof.
  intros (A & B & C). constructor; cbn; auto; try congruence.
  all: try (intros ? []; fail); try (constructor; fail); try (intros l [H|H]; discriminate).
Qed.
Lemma inv_run n0 ls : unidentified n0 -> forall st tr, irun (istart n0) ls = Some (st, tr) -> inv n0 st tr.
Proof.
  intros U. induction ls as [|l ls IH] using rev_ind; intros st tr H.
  - cbn in H. injection H as <- <-. now apply inv_start.
  - rewrite irun_snoc in H. destruct (irun (istart n0) ls) as [[st1 o1]|]; [|discriminate].
    destruct (istep st1 l) as [[st2 o2]|] eqn:E; [|discriminate]. injection H as <- <-.
    eapply inv_step; eauto.
Qed.

(** ** C49 *)
Lemma identified_complete n0 ls st tr : unidentified n0 -> irun (istart n0) ls = Some (st, tr) ->
  n_identified (i_node st) = true \/ i_pc st = IDone ->
  i_pc st <> ICrash ->
  (exists pi, n_info (i_node st) = Some pi) /\ (exists ms, n_ms (i_node st) = Some ms) /\
  (exists eps, n_endpoints (i_node st) = Some eps) /\ n_states_ok (i_node st) = true /\
  (forall c, In c (listed (n_classes (i_node st))) -> In (cc_id c) [x25; x26; x31] ->
     exists m, In m (writes tr) /\ asks_state m (cc_id c)).
Proof.
  intros U H D NC. pose proof (inv_run _ _ U _ _ H) as I.
  assert (P : i_pc st = IDone).
  { destruct D as [D|D]; [|exact D]. destruct (iv_ident _ _ _ I D); [assumption|contradiction]. }
  pose proof (iv_pc _ _ _ I) as K. rewrite P in K. destruct K as (L & S & pi & PI & C).
  assert (Q : (exists ms, n_ms (i_node st) = Some ms) /\ exists eps, n_endpoints (i_node st) = Some eps).
  { unfold level in L. rewrite PI in L. destruct (n_ms (i_node st)); [|discriminate].
    destruct (n_endpoints (i_node st)); [|discriminate]. eauto. }
  destruct Q. repeat split; eauto.
  intros c In1 In2. rewrite C in In1. exact (iv_asked _ _ _ I S pi c PI In1 In2).
Qed.

Lemma returned_identified n0 ls : forall st tr, irun (istart n0) ls = Some (st, tr) ->
  i_pc st = IDone -> n_identified (i_node st) = true.
Proof.
  induction ls as [|l ls IH] using rev_ind; intros st tr H P; [injection H as <- <-; discriminate|].
  rewrite irun_snoc in H. destruct (irun (istart n0) ls) as [[st1 o1]|]; [|discriminate].
  destruct (istep st1 l) as [[st2 o2]|] eqn:E; [|discriminate]. injection H as <- <-. specialize (IH _ _ eq_refl).
  assert (AM : forall n pc o, after_ms n = (pc, o) -> pc <> IDone).
  { intros n pc o H. unfold after_ms in H. destruct (n_endpoints n); [destruct (n_states_ok n)|]; injection H as <- <-; discriminate. }
  assert (AI : forall n pi pc n' o, after_info n pi = (pc, n', o) -> pc <> IDone).
  { intros n pi pc n' o H. unfold after_info in H. cbv zeta in H.
    destruct (n_ms (set_classes n _)); [|injection H as <- <- <-; discriminate].
    destruct (after_ms _) as [pc0 o0] eqn:S. injection H as <- <- <-. exact (AM _ _ _ S). }
  unfold istep in E. cbv zeta in E. destruct l as [| |x|x|x|].
  - destruct (i_pc st1) as [| | |s|s|s c|s|s|l|l| | |]; try discriminate.
    + destruct (n_info (i_node st1)) as [pi|]; [|injection E as <- <-; discriminate].
      destruct (after_info _ pi) as [[pc n'] o] eqn:A. injection E as <- <-. destruct (AI _ _ _ _ _ A P).
    + destruct (n_awake (i_node st1)); [injection E as <- <-; discriminate|]. destruct (i_chan st1); injection E as <- <-; discriminate.
    + injection E as <- <-. discriminate.
    + destruct s; [injection E as <- <-; discriminate| |injection E as <- <-; discriminate].
      destruct (n_classes (i_node st1)); injection E as <- <-; discriminate.
    + destruct l as [|c l]; [injection E as <- <-; discriminate|]. destruct (state_request (i_node st1) c); injection E as <- <-; [|discriminate].
      cbn [i_pc] in P. destruct (state_waits c); discriminate.
    + injection E as <- <-. reflexivity.
  - destruct (i_pc st1); try discriminate. injection E as <- <-. discriminate.
  - destruct (i_pc st1); try discriminate. destruct x as [m0|]; [|injection E as <- <-; discriminate].
    destruct (m_data m0) as [[a b c|a|pi]|]; try (injection E as <- <-; discriminate).
    destruct (after_info _ pi) as [[pc n'] o] eqn:A. injection E as <- <-. destruct (AI _ _ _ _ _ A P).
  - destruct (i_pc st1) as [| | |s|s|s c|s|s|l|l| | |]; try discriminate.
    + destruct s; try discriminate; destruct x as [x|]; try (injection E as <- <-; discriminate);
        destruct x; try (injection E as <- <-; discriminate).
      destruct (after_ms _) as [pc o] eqn:A. injection E as <- <-. destruct (AM _ _ _ A P).
    + injection E as <- <-. discriminate.
  - assert (X : i_pc st1 = IDone /\ same_but_states (i_node st1) (i_node st2)).
    { clear IH AM AI.
      destruct (i_pc st1) as [| | |s|s|s c|s|s|l|l| | |]; try discriminate; destruct x;
        try (destruct (process_event _ _) as [[[n' evs] op]| |] eqn:PE; injection E as <- <-; try discriminate P;
             (split; [reflexivity|exact (proj1 (process_event_same _ _ _ _ _ PE))]));
        destruct (i_chan st1) as [d|]; try (destruct c as [e|]; [destruct (d =? e)%nat|]); injection E as <- <-; try discriminate P;
        (split; [reflexivity|apply same_refl]). }
    destruct X as (X & mb & mf & ->). exact (IH X).
  - assert (X : i_pc st1 = IDone /\ same_but_states (i_node st1) (i_node st2)).
    { destruct (i_pc st1) eqn:P1; try discriminate; destruct (alarm_window_end _) as [[n' evs]| |] eqn:PE; injection E as <- <-; try discriminate P;
      (split; [reflexivity|exact (proj1 (window_end_same _ _ _ PE))]). }
    destruct X as (X & mb & mf & ->). exact (IH X).
Qed.

Lemma requests_in_order n0 ls st tr : unidentified n0 -> irun (istart n0) ls = Some (st, tr) ->
  (forall m, In m (writes tr) -> (exists k, request_stage m = Some k) /\
     request_node m = Some (Z2b (n_id n0))) /\
  (forall a m1 b m2 c, writes tr = a ++ m1 :: b ++ m2 :: c ->
     exists i j, request_stage m1 = Some i /\ request_stage m2 = Some j /\ i <= j) /\
  (forall e, In e (published tr) -> e = n_id n0).
Proof.
  intros U H. pose proof (inv_run _ _ U _ _ H) as I. repeat split.
  - destruct (iv_writes _ _ _ I _ H0) as [(k & K & _) _]. eauto.
  - destruct (iv_writes _ _ _ I _ H0) as [_ N]. exact N.
  - intros a m1 b m2 c E. pose proof (iv_sorted _ _ _ I) as S. rewrite E in S. clear E.
    induction a as [|x a IH]; cbn in S; inversion S; subst; auto.
    rewrite Forall_forall in H3. apply H3. apply in_or_app. right. now left.
  - apply (iv_events _ _ _ I).
Qed.

(** ** C50 *)
Lemma identified_classes n0 ls st tr : unidentified n0 -> irun (istart n0) ls = Some (st, tr) ->
  i_pc st = IDone -> exists pi, n_info (i_node st) = Some pi /\
    n_classes (i_node st) = get_mandatory definitions (pi_generic pi) (pi_specific pi).
Proof.
  intros U H D. pose proof (iv_pc _ _ _ (inv_run _ _ U _ _ H)) as K. rewrite D in K.
  destruct K as (_ & _ & K). exact K.
Qed.
Lemma names_from_database n0 ls st tr : unidentified n0 -> n_ms n0 = None ->
  irun (istart n0) ls = Some (st, tr) ->
  forall ms d, n_ms (i_node st) = Some ms ->
  device_new (ms_manufacturer ms) (ms_type ms) (ms_id ms) = Some d ->
  n_brand (i_node st) = d_brand d /\ n_product (i_node st) = d_product d /\
  n_description (i_node st) = d_description d.
Proof. intros U N H. exact (iv_dev _ _ _ (inv_run _ _ U _ _ H) N). Qed.

(** ** C52 *)
Definition woken (tr : list iobs) (ok : list byte -> Prop) : Prop :=
  exists a b, tr = a ++ OWakeUp :: b /\ forall m, In m (writes b) -> ok m.
Definition after_wakeup (tr : list iobs) : Prop :=
  forall pre m post, tr = pre ++ OWrite m :: post -> request_stage m <> Some 0 ->
  woken pre (fun m' => request_stage m = Some 3 /\ request_stage m' = Some 3).
Record winv (st : ist) (tr : list iobs) : Prop := {
  wi_flag : n_info (i_node st) <> None -> n_awake (i_node st) = false;
  wi_send : forall s, i_pc st = ISend s -> woken tr (fun _ => False);
  wi_states : forall l, i_pc st = IStates l \/ i_pc st = IAwaitState l ->
    woken tr (fun m => request_stage m = Some 3);
  wi_all : after_wakeup tr }.

Lemma woken_app tr o ok : woken tr ok -> writes o = [] -> woken (tr ++ o) ok.
Proof.
  intros (a & b & -> & H) W. exists a, (b ++ o). split; [now rewrite <- app_assoc|].
  intros m. rewrite writes_app, W, List.app_nil_r. apply H.
Qed.
Lemma woken_write tr m (ok : list byte -> Prop) : woken tr ok -> ok m -> woken (tr ++ [OWrite m]) ok.
Proof.
  intros (a & b & -> & H) W. exists a, (b ++ [OWrite m]). split; [now rewrite <- app_assoc|].
  intros m'. rewrite writes_app, in_app_iff. cbn. intros [K|[<-|[]]]; auto.
Qed.
Lemma woken_weaken tr (ok ok' : list byte -> Prop) : (forall m, ok m -> ok' m) -> woken tr ok -> woken tr ok'.
Proof. intros W (a & b & -> & H). exists a, b. auto. Qed.

Lemma in_writes m o : In (OWrite m) o -> In m (writes o).
Proof. intros H. unfold writes. apply in_flat_map. exists (OWrite m). split; [exact H|now left]. Qed.

Lemma after_wakeup_quiet tr o : after_wakeup tr -> writes o = [] -> after_wakeup (tr ++ o).
Proof.
  intros A W pre m post E K.
  assert (S : exists post', tr = pre ++ OWrite m :: post').
  { revert tr E A. induction pre as [|x pre IH]; intros tr E A.
    - destruct tr as [|y tr]; cbn in E.
      + exfalso. assert (M : In m (writes o)) by (apply in_writes; rewrite E; now left).
        rewrite W in M. destruct M.
      + injection E as -> E. cbn. eauto.
    - destruct tr as [|y tr]; cbn in E.
      + exfalso. assert (M : In m (writes o)).
        { apply in_writes. rewrite E. right. apply in_or_app. right. now left. }
        rewrite W in M. destruct M.
      + injection E as -> E.
        assert (exists p, tr = pre ++ OWrite m :: p) as [p ->].
        { clear IH A. revert tr E. induction pre as [|z pre IH]; intros tr E.
          - destruct tr as [|y tr]; cbn in E.
            + exfalso. assert (M : In m (writes o)) by (apply in_writes; rewrite E; now left).
              rewrite W in M. destruct M.
            + injection E as -> E. cbn. eauto.
          - destruct tr as [|y tr]; cbn in E.
            + exfalso. assert (M : In m (writes o)).
              { apply in_writes. rewrite E. right. apply in_or_app. right. now left. }
              rewrite W in M. destruct M.
            + injection E as -> E. destruct (IH tr E) as [p ->]. cbn. eauto. }
        cbn. eauto. }
  destruct S as [post' S]. eapply A; eauto.
Qed.
Lemma snoc_inj_write tr m pre m' post : tr ++ [OWrite m] = pre ++ OWrite m' :: post ->
  (post = [] /\ tr = pre /\ m = m') \/ exists post', tr = pre ++ OWrite m' :: post'.
Proof.
  destruct post as [|z post] using rev_ind.
  - intros E. apply app_inj_tail in E. destruct E as [-> E]. injection E as ->. auto.
  - rewrite app_comm_cons, app_assoc. intros E. apply app_inj_tail in E. destruct E as [-> _]. eauto.
Qed.
Lemma after_wakeup_write tr m : after_wakeup tr ->
  (request_stage m <> Some 0 -> woken tr (fun m' => request_stage m = Some 3 /\ request_stage m' = Some 3)) ->
  after_wakeup (tr ++ [OWrite m]).
Proof.
  intros A K pre m' post E S. apply snoc_inj_write in E. destruct E as [(-> & -> & ->)|[p E]]; eauto.
Qed.

Lemma woken_now tr ok : woken (tr ++ [OWakeUp]) ok.
Proof. exists tr, []. split; [reflexivity|intros ? []]. Qed.

Lemma winv_passive st tr st' o : winv st tr -> passive st st' o -> winv st' (tr ++ o).
Proof.
  intros [A B C D] P.
  assert (W : writes o = []) by (inversion P; subst; try reflexivity; apply writes_events).
  assert (D' : after_wakeup (tr ++ o)) by now apply after_wakeup_quiet.
  destruct st as [pc n ch fr]. cbn [i_pc i_node i_chan i_fresh] in *.
  inversion P; cbn [i_pc i_node i_chan i_fresh] in *; subst; constructor; cbn [i_pc i_node]; auto;
    intros; try discriminate; try (apply woken_app; eauto; fail); try apply woken_now;
    repeat match goal with H : _ \/ _ |- _ => destruct H end; try discriminate;
    apply woken_app; eauto.
Qed.

Lemma after_ms_pc n pc o : after_ms n = (pc, o) -> writes o = [] /\ (pc = IFinal \/ exists s, pc = IEnter s).
Proof.
  unfold after_ms. destruct (n_endpoints n); [destruct (n_states_ok n)|]; intros H; inversion H; subst;
    split; eauto.
Qed.
Lemma after_info_pc n pi pc n' o : after_info n pi = (pc, n', o) ->
  n' = set_classes n (mand pi) /\ writes o = [] /\ (pc = IFinal \/ exists s, pc = IEnter s).
Proof.
  unfold after_info. fold (mand pi). cbn [n_ms set_classes]. destruct (n_ms n).
  - destruct (after_ms (set_classes n (mand pi))) eqn:E. intros H; inversion H; subst.
    split; [reflexivity|]. now apply after_ms_pc in E.
  - intros H; inversion H; subst. split; [reflexivity|]. split; eauto.
Qed.

Lemma winv_step n0 st tr l st' o : inv n0 st tr -> winv st tr ->
  (forall pi, In pi (info_answers [l]) -> pi_listening pi = false) ->
  istep st l = Some (st', o) -> winv st' (tr ++ o).
Proof.
  intros I W NL H.
  destruct l as [| |m|r|r|].
  5: { eapply winv_passive; eauto. eapply report_step; eauto. }
  5: { eapply winv_passive; eauto. eapply window_step; eauto. }
  all: pose proof (iv_pc _ _ _ I) as PC; destruct W as [A B C D];
    destruct st as [pc n ch fr]; cbn [i_pc i_node i_chan i_fresh] in *; cbn [istep] in H;
    cbn [i_pc i_node i_chan i_fresh] in H.
  all: assert (Q : forall pc' n' ch' fr' o', Some (mkI pc' n' ch' fr', o') = Some (st', o) ->
         writes o' = [] -> (n_info n' <> None -> n_awake n' = false) ->
         (forall s, pc' <> ISend s) -> (forall l, pc' <> IStates l /\ pc' <> IAwaitState l) ->
         winv st' (tr ++ o)).
  1,3,5,7: (intros pc' n' ch' fr' o' E W0 F S1 S2; inversion E; subst; constructor; cbn [i_pc i_node]; auto;
    [intros s K; destruct (S1 _ K)|intros l [K|K]; destruct (S2 l); contradiction|now apply after_wakeup_quiet]).
  - destruct pc as [| | |s|s|s c|s|s|l|l| | |]; try discriminate.
    + destruct (n_info n) as [pi|] eqn:E.
      * destruct (after_info n pi) as [[pc1 n1] o1] eqn:AI. destruct (after_info_pc _ _ _ _ _ AI) as (-> & W & P).
        eapply Q; eauto; try (destruct P as [->|[s ->]]; repeat split; discriminate).
        cbn. rewrite E. exact A.
      * inversion H; subst. constructor; cbn [i_pc i_node]; auto; try discriminate.
        -- intros l [K|K]; discriminate.
        -- apply after_wakeup_write; auto. intros K. destruct K. reflexivity.
    + destruct PC as [L S].
      assert (NA : n_awake n = false).
      { apply A. intros K. unfold level in L. rewrite K in L. destruct s; discriminate. }
      rewrite NA in H. destruct ch as [c|]; eapply Q; eauto; repeat split; discriminate.
    + eapply Q; eauto; repeat split; discriminate.
    + specialize (B s eq_refl). destruct s.
      * inversion H; subst. constructor; cbn [i_pc i_node]; auto; try discriminate.
        -- intros l [K|K]; discriminate.
        -- apply after_wakeup_write; auto. intros _. eapply woken_weaken; eauto. intros ? [].
      * destruct (n_classes n) as [cc|].
        -- inversion H; subst. constructor; cbn [i_pc i_node]; auto; try discriminate.
           ++ intros l [K|K]; discriminate.
           ++ apply after_wakeup_write; auto. intros _. eapply woken_weaken; eauto. intros ? [].
        -- eapply Q; eauto; repeat split; discriminate.
      * inversion H; subst. rewrite List.app_nil_r. constructor; cbn [i_pc i_node]; auto; try discriminate.
        intros l [K|K]; [|discriminate]. eapply woken_weaken; eauto. intros ? [].
    + specialize (C l (or_introl eq_refl)). destruct l as [|c r].
      * eapply Q; eauto; repeat split; discriminate.
      * destruct (state_request n c) as [m|] eqn:R; inversion H; subst.
        -- destruct (state_request_spec _ _ _ R) as (R1 & _).
           constructor; cbn [i_pc i_node]; auto.
           ++ intros s K. destruct (state_waits c); discriminate.
           ++ intros l K. apply woken_write; auto.
           ++ apply after_wakeup_write; auto. intros _. eapply woken_weaken; [|exact C]. intros m0 K0. split; assumption.
        -- rewrite List.app_nil_r. constructor; cbn [i_pc i_node]; auto; discriminate.
    + eapply Q; eauto; repeat split; discriminate.
  - destruct pc; try discriminate. eapply Q; eauto; repeat split; discriminate.
  - destruct pc; try discriminate.
    destruct m as [msg|]; [|eapply Q; eauto; repeat split; discriminate].
    destruct (m_data msg) as [[| |pi]|] eqn:MD; try (eapply Q; eauto; repeat split; discriminate).
    assert (F : pi_listening pi = false).
    { apply NL. cbn. rewrite MD. now left. }
    destruct (after_info (set_info n pi) pi) as [[pc1 n1] o1] eqn:AI.
    destruct (after_info_pc _ _ _ _ _ AI) as (-> & W & P).
    eapply Q; eauto; try (destruct P as [->|[s ->]]; repeat split; discriminate).
  - destruct pc as [| | |s|s|s c|s|s|l|l| | |]; try discriminate.
    + destruct s; try discriminate.
      * destruct r as [r|]; [|eapply Q; eauto; repeat split; discriminate].
        destruct r; try (eapply Q; eauto; repeat split; discriminate).
        destruct (after_ms (set_manufacturer n (mkMS manufacturer typ id))) as [pc1 o1] eqn:E.
        destruct (after_ms_pc _ _ _ E) as (W & P).
        eapply Q; eauto; try (destruct P as [->|[s ->]]; repeat split; discriminate).
      * destruct r as [r|]; [|eapply Q; eauto; repeat split; discriminate].
        destruct r; try (eapply Q; eauto; repeat split; discriminate).
    + specialize (C l (or_intror eq_refl)). inversion H; subst. rewrite List.app_nil_r.
      constructor; cbn [i_pc i_node]; auto; try discriminate.
Qed.

Lemma info_answers_app a b : info_answers (a ++ b) = info_answers a ++ info_answers b.
Proof. apply flat_map_app. Qed.
Lemma winv_run n0 ls : unidentified n0 -> (forall pi, In pi (info_answers ls) -> pi_listening pi = false) ->
  forall st tr, irun (istart n0) ls = Some (st, tr) -> winv st tr.
Proof.
  intros U. induction ls as [|l ls IH] using rev_ind; intros NL st tr H.
  - cbn in H. injection H as <- <-. constructor; cbn.
    + destruct U as (-> & _). congruence.
    + discriminate.
    + intros l [K|K]; discriminate.
    + intros [|? ?] m post K; discriminate.
  - rewrite irun_snoc in H. destruct (irun (istart n0) ls) as [[st1 o1]|] eqn:R; [|discriminate].
    destruct (istep st1 l) as [[st2 o2]|] eqn:E; [|discriminate]. injection H as <- <-.
    assert (IN : inv n0 st1 o1) by (eapply inv_run; eauto).
    eapply winv_step; eauto.
    + apply IH; auto. intros pi P. apply NL. rewrite info_answers_app. apply in_or_app; auto.
    + intros pi P. apply NL. rewrite info_answers_app. apply in_or_app; auto.
Qed.
Lemma contacted_awake n0 ls st tr : unidentified n0 ->
  (forall pi, In pi (info_answers ls) -> pi_listening pi = false) ->
  irun (istart n0) ls = Some (st, tr) ->
  forall pre m post, tr = pre ++ OWrite m :: post -> request_stage m <> Some 0 ->
  exists a b, pre = a ++ OWakeUp :: b /\
    forall m', In m' (writes b) -> request_stage m = Some 3 /\ request_stage m' = Some 3.
Proof. intros U NL H. exact (wi_all _ _ (winv_run _ _ U NL _ _ H)). Qed.

(** ** C51: completion *)
Definition rank (n : node) : nat :=
  match level n with 0 => 4 | 1 => 3 | 2 => 2 | _ => if n_states_ok n then 0 else 1 end.
Definition pos (pc : ipc) : nat :=
  match pc with
  | IPause => 84 | ITop => 83 | IInfo | IEnter _ => 82 | IFetch _ => 81 | IWait _ _ => 80
  | ISend _ => 79 | IAwait _ => 78
  | IStates l => 2 * List.length l + 2 | IAwaitState l => 2 * List.length l + 3
  | IFinal => 1 | IDone | ICrash => 0
  end.
Definition mu (st : ist) : nat := 85 * rank (i_node st) + pos (i_pc st).
Lemma rank_le n : rank n <= 4.
Proof. unfold rank. destruct (level n) as [|[|[|?]]]; try lia. destruct (n_states_ok n); lia. Qed.

Lemma coop_step n0 st tr l st' o : inv n0 st tr -> ~ lost st -> i_pc st <> ICrash ->
  cooperative st l -> istep st l = Some (st', o) ->
  mu st' < mu st /\ ~ lost st' /\ i_pc st' <> ICrash.
Proof.
  intros I NL NC C H. pose proof (iv_pc _ _ _ I) as PC. pose proof (iv_ok _ _ _ I) as OK.
  pose proof (iv_states _ _ _ I) as IS. pose proof (iv_chan _ _ _ I) as CH.
  pose proof (iv_cls _ _ _ I) as CL. clear I.
  destruct st as [pc n ch fr]. unfold mu, lost in *. cbn [i_pc i_node i_chan i_fresh] in *.
  assert (Q : forall pc' n' ch' fr' o', Some (mkI pc' n' ch' fr', o') = Some (st', o) ->
     85 * rank n' + pos pc' < 85 * rank n + pos pc ->
     (forall s, pc' <> IWait s None) -> (forall s, pc' = IFetch s -> ch' <> None) -> pc' <> ICrash ->
     85 * rank (i_node st') + pos (i_pc st') < 85 * rank n + pos pc /\
     ~ ((exists s, i_pc st' = IWait s None) \/ (exists s, i_pc st' = IFetch s /\ i_chan st' = None)) /\
     i_pc st' <> ICrash).
  { intros pc' n' ch' fr' o' E M F1 F2 F3. inversion E; subst. cbn [i_pc i_node i_chan]. split; [exact M|].
    split; [|exact F3]. intros [[s K]|(s & K & K')]; [exact (F1 s K)|exact (F2 s K K')]. }
  assert (AM : forall n1 pc1 o1, after_ms n1 = (pc1, o1) -> n_ms n1 <> None -> n_info n1 <> None ->
     85 * rank n1 + pos pc1 < 85 * rank n1 + 83 /\ (pc1 = IFinal \/ exists s, pc1 = IEnter s)).
  { intros n1 pc1 o1 E _ _. destruct (after_ms_pc _ _ _ E) as [_ [->|[s ->]]]; cbn; split; eauto; lia. }
  assert (RS : forall n1 b, rank (set_classes n1 b) = rank n1) by reflexivity.
  destruct l as [| |m|r|r|]; cbn [istep] in H; cbn [i_pc i_node i_chan i_fresh] in H.
  - destruct pc as [| | |s|s|s c|s|s|l|l| | |]; try discriminate.
    + destruct (n_info n) as [pi|] eqn:E.
      * destruct (after_info n pi) as [[pc1 n1] o1] eqn:AI.
        destruct (after_info_pc _ _ _ _ _ AI) as (-> & _ & P).
        eapply Q; eauto; destruct P as [->|[s ->]]; try discriminate; rewrite RS; cbn [pos]; lia.
      * eapply Q; eauto; try discriminate. cbn [pos]. lia.
    + destruct (n_awake n); [eapply Q; eauto; try discriminate; cbn [pos]; lia|].
      destruct ch; eapply Q; eauto; try discriminate; cbn [pos]; lia.
    + destruct ch as [c|]; [|destruct NL; right; eauto].
      eapply Q; eauto; try discriminate; cbn [pos]; lia.
    + destruct PC as [L S]. destruct s.
      * eapply Q; eauto; try discriminate; cbn [pos]; lia.
      * destruct (n_classes n); [eapply Q; eauto; try discriminate; cbn [pos]; lia|].
        eapply Q; eauto; try discriminate. cbn [pos].
        assert (rank n = 2) as -> by (unfold rank; now rewrite L).
        assert (rank (set_endpoints n []) <= 1); [|lia].
        unfold rank. assert (level (set_endpoints n []) = 3) as ->; [|destruct (n_states_ok _); lia].
        unfold level in *. cbn in *. destruct (n_info n); [|discriminate].
        destruct (n_ms n); [reflexivity|discriminate].
      * inversion H; subst. specialize (S eq_refl).
        assert (LL : List.length (match n_classes n with Some l => l | None => [] end) <= 32).
        { destruct (level_some n) as [pi PI]; [rewrite L; cbn; lia|]. exact (classes_length n pi CL PI). }
        eapply Q; eauto; try discriminate. cbn [pos]. lia.
    + destruct PC as [L S]. destruct (IS l (or_introl eq_refl)) as [LL _]. destruct l as [|c r].
      * eapply Q; eauto; try discriminate. cbn [pos List.length].
        assert (rank n = 1) as -> by (unfold rank; now rewrite L, S).
        assert (rank (set_states_ok n) = 0) as ->; [|lia].
        unfold rank. change (level (set_states_ok n)) with (level n). now rewrite L.
      * cbn [List.length] in *. destruct (state_request n c).
        -- destruct (state_waits c); eapply Q; eauto; try discriminate; cbn [pos List.length]; lia.
        -- eapply Q; eauto; try discriminate; cbn [pos List.length]; lia.
    + eapply Q; eauto; try discriminate. change (rank (set_identified n)) with (rank n). cbn [pos]. lia.
  - destruct pc; try discriminate. eapply Q; eauto; try discriminate; cbn [pos]; lia.
  - destruct pc; try discriminate. cbn in C. destruct m as [msg|]; [|contradiction].
    destruct C as [pi MD]. rewrite MD in H.
    destruct (after_info (set_info n pi) pi) as [[pc1 n1] o1] eqn:AI.
    destruct (after_info_pc _ _ _ _ _ AI) as (-> & _ & P).
    assert (R1 : rank n = 4) by (unfold rank; cbn in PC; now rewrite PC).
    assert (R2 : rank (set_classes (set_info n pi) (mand pi)) <= 3).
    { rewrite RS. unfold rank. pose proof (level_info (set_info n pi) pi eq_refl).
      destruct (level (set_info n pi)) as [|[|[|?]]]; try lia. destruct (n_states_ok _); lia. }
    eapply Q; eauto; destruct P as [->|[s ->]]; try discriminate; cbn [pos]; lia.
  - destruct pc as [| | |s|s|s c|s|s|l|l| | |]; try discriminate.
    + destruct PC as [L NS]. destruct s; [| |discriminate].
      * destruct r as [[]|]; try contradiction.
        destruct (after_ms (set_manufacturer n (mkMS manufacturer typ id))) as [pc1 o1] eqn:E.
        destruct (after_ms_pc _ _ _ E) as (_ & P).
        assert (R1 : rank n = 3) by (unfold rank; now rewrite L).
        assert (R2 : rank (set_manufacturer n (mkMS manufacturer typ id)) <= 2).
        { unfold rank, level in *. cbn in *. destruct (n_info n); [|discriminate].
          destruct (n_endpoints n); [destruct (n_states_ok n); lia|lia]. }
        eapply Q; eauto; destruct P as [->|[s ->]]; try discriminate; cbn [pos]; lia.
      * destruct r as [[]|]; try contradiction.
        assert (R1 : rank n = 2) by (unfold rank; now rewrite L).
        eapply Q; eauto; try discriminate. cbn [pos].
        assert (rank (set_endpoints n (made_endpoints n endpoints)) <= 1); [|lia].
        unfold rank, level in *. cbn in *. destruct (n_info n); [|discriminate].
        destruct (n_ms n); [destruct (n_states_ok n); lia|discriminate].
    + eapply Q; eauto; try discriminate. cbn [pos]. lia.
  - destruct r; try contradiction. destruct pc as [| | |s|s|s [c|]|s|s|l|l| | |]; try contradiction.
    rewrite (CH s c eq_refl) in H. rewrite Nat.eqb_refl in H.
    eapply Q; eauto; try discriminate. cbn [pos]. lia.
  - contradiction.
Qed.

Lemma progress n0 st tr : inv n0 st tr -> ~ lost st -> i_pc st <> ICrash -> i_pc st <> IDone ->
  exists l st' o, cooperative st l /\ istep st l = Some (st', o).
Proof.
  intros I NL NC ND. pose proof (iv_pc _ _ _ I) as PC. clear I.
  destruct st as [pc n ch fr]. unfold lost in NL. cbn [i_pc i_node i_chan i_fresh] in *.
  assert (G : forall p, istep (mkI pc n ch fr) IGo = Some p ->
    exists l st' o, cooperative (mkI pc n ch fr) l /\ istep (mkI pc n ch fr) l = Some (st', o)).
  { intros [st' o] H. exists IGo, st', o. split; [exact Logic.I|exact H]. }
  destruct pc as [| | |s|s|s c|s|s|l|l| | |]; try congruence.
  - cbn in G. destruct (n_info n) as [pi|].
    + destruct (after_info n pi) as [[pc1 n1] o1]. eapply G. reflexivity.
    + eapply G. reflexivity.
  - set (pi := mkPI true true true x00 true true 0 x00 x00 x00).
    set (msg := mkMessage x00 x00 x00 x00 x00 (Some (PInfo pi))).
    assert (exists p, istep (mkI IInfo n ch fr) (IGotInfo (Some msg)) = Some p) as [[st' o] E].
    { cbn. destruct (after_info (set_info n pi) pi) as [[pc1 n1] o1]. eauto. }
    exists (IGotInfo (Some msg)), st', o. split; [exists pi; reflexivity|exact E].
  - exists ITimer. eexists _, _. split; [exact Logic.I|reflexivity].
  - cbn in G. destruct (n_awake n); [eapply G; reflexivity|]. destruct ch; eapply G; reflexivity.
  - eapply G. reflexivity.
  - destruct c as [c|]; [|destruct NL; left; eauto].
    exists (IReport RWakeUp). cbn. destruct ch; eexists _, _; (split; [exact Logic.I|reflexivity]).
  - destruct s; try (eapply G; reflexivity). cbn in G. destruct (n_classes n); eapply G; reflexivity.
  - destruct PC as [L NS]. destruct s; [| |congruence].
    + assert (exists p, istep (mkI (IAwait SMs) n ch fr) (IGotReport (Some (RManufacturer "" "" ""))) = Some p)
        as [[st' o] E].
      { cbn [istep i_pc i_node]. destruct (after_ms _) as [pc1 o1]. eauto. }
      exists (IGotReport (Some (RManufacturer "" "" ""))), st', o. split; [exact Logic.I|exact E].
    + exists (IGotReport (Some (REndpoints false false 0))). eexists _, _. split; [exact Logic.I|reflexivity].
  - destruct l as [|c r]; [eapply G; reflexivity|]. cbn in G.
    destruct (state_request n c); eapply G; reflexivity.
  - exists (IGotReport None). eexists _, _. split; [exact Logic.I|reflexivity].
  - eapply G. reflexivity.
Qed.

Lemma coop_run_bound n0 st ls st' : coop_run st ls st' -> forall tr, inv n0 st tr -> ~ lost st ->
  i_pc st <> ICrash ->
  (mu st' + List.length ls <= mu st) /\ ~ lost st' /\ i_pc st' <> ICrash /\ exists tr', inv n0 st' tr'.
Proof.
  induction 1 as [st|st l st1 o ls st2 C S R IH]; intros tr I NL NC.
  - cbn. repeat split; eauto; lia.
  - destruct (coop_step _ _ _ _ _ _ I NL NC C S) as (M & NL' & NC').
    destruct (IH _ (inv_step _ _ _ _ _ _ I S) NL' NC') as (M' & K). cbn [List.length].
    split; [lia|exact K].
Qed.
Lemma mu_bound n0 st tr : inv n0 st tr -> mu st <= 424.
Proof.
  intros I. unfold mu. pose proof (rank_le (i_node st)).
  pose proof (iv_states _ _ _ I) as S.
  destruct (i_pc st) as [| | |s|s|s c|s|s|l|l| | |]; cbn [pos]; try lia.
  - destruct (S l (or_introl eq_refl)). lia.
  - destruct (S l (or_intror eq_refl)). lia.
Qed.
Lemma completes n0 ls0 st tr : unidentified n0 -> irun (istart n0) ls0 = Some (st, tr) ->
  ~ lost st -> i_pc st <> ICrash ->
  forall ls st', coop_run st ls st' ->
    List.length ls <= 424 /\
    (i_pc st' = IDone \/ exists l st'' o, cooperative st' l /\ istep st' l = Some (st'', o)).
Proof.
  intros U H NL NC ls st' R. pose proof (inv_run _ _ U _ _ H) as I.
  destruct (coop_run_bound n0 _ _ _ R tr I NL NC) as (M & NL' & NC' & tr' & I').
  pose proof (mu_bound _ _ _ I). split; [lia|].
  assert (D : i_pc st' = IDone \/ i_pc st' <> IDone) by (destruct (i_pc st'); auto; right; discriminate).
  destruct D as [D|D]; [now left|right]. eapply progress; eauto.
Qed.
(** Hence a completing continuation exists. *)
Lemma coop_app st a st1 b st2 : coop_run st a st1 -> coop_run st1 b st2 -> coop_run st (a ++ b) st2.
Proof. induction 1; intros K; cbn; [exact K|econstructor; eauto]. Qed.
Lemma coop_irun st ls st' : coop_run st ls st' -> exists o, irun st ls = Some (st', o).
Proof.
  induction 1 as [st|st l st1 o ls st2 C S R [o' IH]]; cbn; [eauto|]. rewrite S, IH. eauto.
Qed.
Lemma can_complete n0 ls0 st tr : unidentified n0 -> irun (istart n0) ls0 = Some (st, tr) ->
  ~ lost st -> i_pc st <> ICrash -> exists ls st', coop_run st ls st' /\ i_pc st' = IDone.
Proof.
  intros U H NL NC. pose proof (inv_run _ _ U _ _ H) as I. clear H.
  remember (mu st) as k eqn:E. revert st tr E I NL NC.
  induction k as [k IH] using lt_wf_ind. intros st tr -> I NL NC.
  assert (D : i_pc st = IDone \/ i_pc st <> IDone) by (destruct (i_pc st); auto; right; discriminate).
  destruct D as [D|D]; [exists [], st; split; [constructor|exact D]|].
  destruct (progress _ _ _ I NL NC D) as (l & st1 & o & C & S).
  destruct (coop_step _ _ _ _ _ _ I NL NC C S) as (M & NL' & NC').
  destruct (IH _ M st1 (tr ++ o) eq_refl (inv_step _ _ _ _ _ _ I S) NL' NC') as (ls & st' & R & D').
  exists (l :: ls), st'. split; [econstructor; eauto|exact D'].
Qed.

Lemma lost_step st l st' o : lost st \/ i_pc st = ICrash -> istep st l = Some (st', o) ->
  lost st' \/ i_pc st' = ICrash.
Proof.
  intros L H.
  assert (P : passive st st' o \/ (i_chan st' = i_chan st /\
     exists s, i_pc st = IFetch s /\ i_pc st' = IWait s (i_chan st))).
  { destruct L as [[[s K]|(s & K & C)]|K].
    - destruct l; try (left; eapply report_step; eauto; fail); try (left; eapply window_step; eauto; fail);
        destruct st as [pc n ch fr]; cbn in K; subst pc; discriminate.
    - destruct l; try (left; eapply report_step; eauto; fail); try (left; eapply window_step; eauto; fail);
        destruct st as [pc n ch fr]; cbn in K; subst pc; try discriminate.
      cbn in H. inversion H; subst. right. cbn. eauto.
    - destruct st as [pc n ch fr]; cbn in K; subst pc. destruct l; discriminate. }
  destruct P as [P|(C & s & K1 & K2)].
  - unfold lost in *. destruct st as [pc n ch fr]. cbn [i_pc i_node i_chan] in *.
    inversion P; cbn [i_pc i_node i_chan i_fresh] in *; subst; cbn [i_pc i_chan]; auto.
    + destruct L as [[L|(s & K & C)]|L]; [auto|congruence|auto].
    + destruct L as [[[s' L]|(s' & K & C)]|L]; congruence.
  - left. left. exists s. rewrite K2. destruct L as [[[s' L]|(s' & K & C')]|L]; congruence.
Qed.
Lemma lost_forever st ls : lost st -> forall st' o, irun st ls = Some (st', o) -> i_pc st' <> IDone.
Proof.
  intros L. assert (L' : lost st \/ i_pc st = ICrash) by auto. clear L. revert st L'.
  induction ls as [|l ls IH]; intros st L st' o H; cbn in H.
  - injection H as <- <-. destruct L as [[[s K]|(s & K & _)]|K]; congruence.
  - destruct (istep st l) as [[st1 o1]|] eqn:E; [|discriminate].
    destruct (irun st1 ls) as [[st2 o2]|] eqn:R; [|discriminate]. injection H as <- <-.
    apply (IH st1) with (o := o2); [|exact R]. eapply lost_step; eauto.
Qed.

(** ** C71: endpoints that are never reported *)
Definition ninv (st : ist) : Prop :=
  n_endpoints (i_node st) = None /\ forall pi, n_info (i_node st) = Some pi -> mand pi <> None.
Lemma ninv_step n0 st tr l st' o : inv n0 st tr -> ninv st ->
  endpoint_answers [l] = [] -> (forall pi, In pi (info_answers [l]) -> mand pi <> None) ->
  istep st l = Some (st', o) -> ninv st'.
Proof.
  intros I [N M] EA IA H.
  assert (P : passive st st' o -> ninv st').
  { intros P. unfold ninv. inversion P; subst; cbn [i_node]; auto. }
  destruct l as [| |m|r|r|].
  5: { apply P. eapply report_step; eauto. }
  5: { apply P. eapply window_step; eauto. }
  all: clear P; pose proof (iv_pc _ _ _ I) as PC; pose proof (iv_cls _ _ _ I) as CL; unfold ninv;
    destruct st as [pc n ch fr]; cbn [i_pc i_node i_chan i_fresh] in *; cbn [istep] in H;
    cbn [i_pc i_node i_chan i_fresh] in H.
  - destruct pc as [| | |s|s|s c|s|s|l|l| | |]; try discriminate.
    + destruct (n_info n) as [pi|] eqn:E.
      * destruct (after_info n pi) as [[pc1 n1] o1] eqn:A.
        destruct (after_info_pc _ _ _ _ _ A) as (-> & _). inversion H; subst. cbn. rewrite E. auto.
      * inversion H; subst. cbn. rewrite E. auto.
    + destruct (n_awake n); [|destruct ch]; inversion H; subst; cbn; auto.
    + inversion H; subst; cbn; auto.
    + destruct PC as [L _]. destruct s; try (inversion H; subst; cbn; auto; fail).
      destruct (n_classes n) as [cc|] eqn:C; [inversion H; subst; cbn; auto|].
      exfalso. destruct (level_some n) as [pi PI]; [rewrite L; cbn; lia|].
      specialize (M _ PI). destruct (CL _ PI) as [K|(ms & d & _ & _ & K)]; rewrite C in K; [congruence|].
      unfold append_classes in K. destruct (d_classes d); congruence.
    + destruct l as [|c r]; [inversion H; subst; cbn; auto|].
      destruct (state_request n c); inversion H; subst; cbn; auto.
    + inversion H; subst; cbn; auto.
  - destruct pc; try discriminate. inversion H; subst; cbn; auto.
  - destruct pc; try discriminate. destruct m as [msg|]; [|inversion H; subst; cbn; auto].
    destruct (m_data msg) as [[| |pi]|] eqn:MD; try (inversion H; subst; cbn; auto; fail).
    destruct (after_info (set_info n pi) pi) as [[pc1 n1] o1] eqn:A.
    destruct (after_info_pc _ _ _ _ _ A) as (-> & _). inversion H; subst. cbn. split; [assumption|].
    intros pi' K. injection K as <-. apply IA. cbn. rewrite MD. now left.
  - destruct pc as [| | |s|s|s c|s|s|l|l| | |]; try discriminate.
    + destruct s; try discriminate.
      * destruct r as [[]|]; try (inversion H; subst; cbn; auto; fail).
        destruct (after_ms _) as [pc1 o1]. inversion H; subst. split; [exact N|exact M].
      * destruct r as [[]|]; try (inversion H; subst; cbn; auto; fail). discriminate EA.
    + inversion H; subst; cbn; auto.
Qed.
Lemma never_identified n0 ls : unidentified n0 -> n_endpoints n0 = None -> endpoint_answers ls = [] ->
  (forall pi, In pi (info_answers ls) -> get_mandatory definitions (pi_generic pi) (pi_specific pi) <> None) ->
  forall st tr, irun (istart n0) ls = Some (st, tr) -> i_pc st <> IDone.
Proof.
  intros U N EA IA st tr H.
  assert (K : ninv st).
  { revert st tr H EA IA. induction ls as [|l ls IH] using rev_ind; intros st tr H EA IA.
    - cbn in H. injection H as <- <-. split; [exact N|]. cbn. destruct U as (-> & _). discriminate.
    - rewrite irun_snoc in H. destruct (irun (istart n0) ls) as [[st1 o1]|] eqn:R; [|discriminate].
      destruct (istep st1 l) as [[st2 o2]|] eqn:E; [|discriminate]. injection H as <- <-.
      unfold endpoint_answers in EA. rewrite flat_map_app in EA. apply app_eq_nil in EA. destruct EA as [E1 E2].
      assert (IN : inv n0 st1 o1) by (eapply inv_run; eauto).
      eapply ninv_step; eauto.
      + eapply IH; eauto. intros pi P. apply IA. rewrite info_answers_app. apply in_or_app; auto.
      + intros pi P. apply IA. rewrite info_answers_app. apply in_or_app; auto. }
  intros D. pose proof (iv_pc _ _ _ (inv_run _ _ U _ _ H)) as PC. rewrite D in PC.
  destruct PC as (L & _). destruct K as [K _]. unfold level in L. rewrite K in L.
  destruct (n_info (i_node st)); [destruct (n_ms (i_node st))|]; discriminate.
Qed.
