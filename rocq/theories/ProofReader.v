(** The reader goroutine: chunking, resynchronisation, acknowledgements,
    callbacks. *)
From Verif Require Import ModelBase ModelReports ModelSerial ModelConnection SpecFrame SpecDecode
  SpecConnection ProofBase ProofSerial ProofMessage SpecMessage ProofContent ProofConnection ProofLink.
From Coq Require Import Permutation Lia.

Lemma flat_map_none {A B} (P : A -> Prop) (f : A -> list B) l :
  Forall P l -> (forall a, P a -> f a = []) -> flat_map f l = [].
Proof. intros H G. induction H as [|a l Ha _ IH]; [reflexivity|]. cbn. now rewrite (G a Ha), IH. Qed.

Lemma app_inj_len {A} (a b c d : list A) : List.length a = List.length c -> a ++ b = c ++ d -> a = c /\ b = d.
Proof.
  revert c. induction a as [|x a IH]; intros [|y c] L E; try discriminate; [auto|].
  injection L as L. injection E as -> E. destruct (IH c L E) as [-> ->]. auto.
Qed.

(** Nothing the reader does. *)
Definition unread (ev : list event) : Prop :=
  frames_taken ev = [] /\ messages_taken ev = [] /\ consumed ev = [] /\ arrived ev = [] /\ acks ev = O /\
  spawned ev = [].
Definition unread_event (e : event) : Prop :=
  match e with EvFrame _ _ | EvSkip _ | EvControl _ | EvArrive _ _ | EvAck | EvSpawn _ _ => False | _ => True end.
Lemma unread_all ev : Forall unread_event ev -> unread ev.
Proof.
  intros H. unfold unread, frames_taken, messages_taken, consumed, arrived, spawned.
  repeat match goal with |- context [flat_map ?f ev] =>
    rewrite (flat_map_none unread_event f ev H) by (intros [] X; try reflexivity; destruct X) end.
  repeat split. unfold acks. induction H as [|e l He _ IH]; [reflexivity|]. destruct e; try exact IH. destruct He.
Qed.
Lemma unread_nil : unread []. Proof. repeat split. Qed.

Lemma frames_taken_app a b : frames_taken (a ++ b) = frames_taken a ++ frames_taken b.
Proof. apply flat_map_app. Qed.
Lemma messages_taken_app a b : messages_taken (a ++ b) = messages_taken a ++ messages_taken b.
Proof. apply flat_map_app. Qed.
Lemma consumed_app a b : consumed (a ++ b) = consumed a ++ consumed b.
Proof. apply flat_map_app. Qed.
Lemma arrived_app a b : arrived (a ++ b) = arrived a ++ arrived b.
Proof. apply flat_map_app. Qed.
Lemma spawned_app a b : spawned (a ++ b) = spawned a ++ spawned b.
Proof. apply flat_map_app. Qed.
Lemma called_back_app a b : called_back (a ++ b) = called_back a ++ called_back b.
Proof. apply flat_map_app. Qed.
Lemma acks_app a b : acks (a ++ b) = (acks a + acks b)%nat.
Proof. unfold acks. now rewrite filter_app, app_length. Qed.

Definition reader_label (l : label) : bool :=
  match l with LConnect | LRead _ _ _ | LReadFail | LIter _ _ | LControlEnd => true | _ => false end.

(** What a step that does not crash does to the receive buffer. *)
Inductive reader_case (s : conn) : label -> conn -> list event -> Prop :=
| rd_other l s' ev : reader_label l = false -> c_buf s' = c_buf s -> unread ev ->
    (c_mode s' = c_mode s \/ exists b m p v v' lo, c_mode s = RControl b m p v lo /\ c_mode s' = RControl b m p v' lo) ->
    reader_case s l s' ev
| rd_connect s' : c_mode s = RStopped -> c_mode s' = RReading -> c_buf s' = mkSlice [] [] ->
    reader_case s LConnect s' []
| rd_read (st : bool) c room s' : c_mode s = RReading -> c_mode s' = RParsing ->
    els (c_buf s') = (if st then [] else els (c_buf s)) ++ c ->
    reader_case s (LRead st c room) s' [EvArrive st c]
| rd_fail s' : c_mode s = RReading -> c_mode s' = RStopped -> c_buf s' = c_buf s ->
    reader_case s LReadFail s' []
| rd_empty (o a : list nat) s' : c_mode s = RParsing -> els (c_buf s) = [] -> c_mode s' = RReading -> c_buf s' = c_buf s ->
    reader_case s (LIter o a) s' []
| rd_more o a k s' : c_mode s = RParsing -> shape_of (els (c_buf s)) (SMore k) ->
    c_mode s' = RReading -> c_buf s' = c_buf s -> reader_case s (LIter o a) s' []
| rd_control o a b tl r p lo s' : c_mode s = RParsing -> els (c_buf s) = b :: tl -> In b [ACK; NAK; CAN] ->
    decode (c_buf s) = Ok (r, c_buf s) -> c_buf s' = c_buf s ->
    c_mode s' = RControl b (d_msg r) p [] lo -> reader_case s (LIter o a) s' []
| rd_reject o a b tl r d s' : c_mode s = RParsing -> els (c_buf s) = b :: tl -> shape_of (b :: tl) SReject ->
    decode (c_buf s) = Ok (r, d) -> els (c_buf s') = skipn 1 (els d) -> c_mode s' = RParsing ->
    reader_case s (LIter o a) s' [EvSkip b]
| rd_frame o a f tail r d s' ev2 ev3 : c_mode s = RParsing -> els (c_buf s) = f ++ tail -> frame f ->
    decode (c_buf s) = Ok (r, d) -> els (c_buf s') = tail -> c_mode s' = RParsing ->
    unread ev2 -> spawn_callback (d_msg r) s = (set_c_callbacks (c_callbacks s ++ spawned ev3) s, ev3) ->
    reader_case s (LIter o a) s' (ev2 ++ ev3 ++ [EvFrame f (d_msg r); EvAck])
| rd_control_end b m p v lo s' ev : c_mode s = RControl b m p v lo -> c_mode s' = RParsing ->
    els (c_buf s') = skipn 1 (els (c_buf s)) ->
    spawn_callback m s = (set_c_callbacks (c_callbacks s ++ spawned ev) s, ev) ->
    reader_case s LControlEnd s' (ev ++ [EvControl b]).

Lemma spawn_callback_indep m s s1 ev t : spawn_callback m s = (s1, ev) ->
  spawn_callback m t = (set_c_callbacks (c_callbacks t ++ spawned ev) t, ev).
Proof.
  assert (N : forall s : conn, s = set_c_callbacks (c_callbacks s ++ []) s).
  { intros []. conn_simpl. unfold set_c_callbacks. conn_simpl. now rewrite app_nil_r. }
  unfold spawn_callback. destruct m as [m|]; [|intros H; injection H as <- <-; cbn; now rewrite <- N].
  destruct (m_data m) as [[]|]; intros H; injection H as <- <-; cbn; rewrite <- ?N; reflexivity.
Qed.

Lemma decode_length d r d' : decode d = Ok (r, d') -> List.length (els d') = List.length (els d).
Proof.
  intros H. destruct (decode_effect _ _ _ H) as [_ [->|[n [rest [E [L ->]]]]]]; [reflexivity|].
  unfold zeroed. cbn [els]. apply set_nth_length.
Qed.

Lemma frame_front l k : shape_of l (SFrame k) -> exists f tail, l = f ++ tail /\ frame f /\ List.length f = k.
Proof. intros H. inversion H; subst. eauto. Qed.

Lemma zeroed_tail d f tail : els d = f ++ tail -> frame f ->
  skipn (List.length f) (els (zeroed d (List.length f))) = tail.
Proof.
  intros E F. unfold zeroed. cbn [els]. rewrite E. pose proof (frame_length f F) as L.
  rewrite set_nth_app_l by lia. rewrite <- (set_nth_length (List.length f - 1) x00 f) at 1.
  rewrite skipn_app, skipn_all, Nat.sub_diag. reflexivity.
Qed.

Lemma reply_unread ev : Forall reply_event ev -> Forall unread_event ev.
Proof. apply Forall_impl. intros []; cbn; tauto. Qed.

Lemma shape_of_control l r d d' : shape_of l SControl -> l = els d -> decode d = Ok (r, d') ->
  d' = d /\ exists b tl, l = b :: tl /\ In b [ACK; NAK; CAN].
Proof.
  intros H -> D. rewrite (decode_by_shape _ _ H) in D. unfold ctl in D. split.
  - destruct (new_message d); now inversion D.
  - inversion H; subst; eauto.
Qed.

Lemma step_reader s l s' ev : step s l = Some (s', ev) -> c_crashed s' = false -> reader_case s l s' ev.
Proof.
  intros H Hc. apply step_inv in H. destruct H as
    [M|k T|data w t er|i F|w p again q W Q|w i W|w i W|k i s' ev T E|k loop p T A|k n r T|stale chunk room M|M
    |o a s' ev M IC|i rcv b m pr vi lo p s' ev M Ip Ep Iv VC|b m pr vi lo s1 ev1 M FA SP].
  - apply rd_connect; conn_simpl; auto.
  - apply rd_other; conn_simpl; auto using unread_nil.
  - apply rd_other; conn_simpl; auto. repeat split.
  - apply rd_other; conn_simpl; auto. apply unread_all. repeat constructor. now destruct (mem i (c_open s)).
  - apply rd_other; conn_simpl; auto. repeat split.
  - apply rd_other; conn_simpl; auto. repeat split.
  - apply rd_other; conn_simpl; auto. repeat split.
  - apply expire_fields in E. destruct E as [F [_ V]]. rewrite F. apply rd_other; conn_simpl; auto.
    apply unread_all, reply_unread, V.
  - apply rd_other; conn_simpl; auto. repeat split.
  - apply rd_other; conn_simpl; auto. repeat split.
  - apply rd_read; conn_simpl; auto. unfold append_chunk.
    destruct (List.length chunk <=? _)%nat; now destruct stale.
  - apply rd_fail; conn_simpl; auto.
  - destruct IC as [E|E P|b0 tl r0 d0 E0 D0 L0|r0 d0 E0 D0 L0 M0|b0 tl r0 d0 E0 D0 L0|r0 d0 s2 ev2 _ D0 N0 _ _ DL C2|r0 d0 s2 ev2 s3 ev3 E0 D0 N0 N1 LE DL C2 SP].
    + apply rd_empty; conn_simpl; auto.
    + conn_simpl_in Hc. discriminate.
    + destruct (shape_total (els (c_buf s))) as [sh SH]; [congruence|].
      pose proof (decode_shape _ _ _ _ D0 SH) as C. rewrite L0 in C.
      pose proof (shape_bounds _ _ SH) as B.
      destruct sh as [k| | |k]; cbn in C; try lia.
      * rewrite E0 in B. cbn in B. lia.
      * destruct (shape_of_control _ _ _ _ SH eq_refl D0) as [-> [b [tl' [E1 I]]]].
        rewrite E0 in E1. injection E1 as <- <-. eapply rd_control; conn_simpl; eauto.
    + destruct (shape_total (els (c_buf s))) as [sh SH]; [congruence|].
      pose proof (decode_shape _ _ _ _ D0 SH) as C. pose proof (shape_bounds _ _ SH) as B.
      rewrite (decode_length _ _ _ D0) in M0. rewrite C in M0, L0.
      destruct sh as [k| | |k]; cbn in M0, L0; try lia.
      rewrite (decode_by_shape _ _ SH) in D0. injection D0 as <- <-.
      eapply rd_more; conn_simpl; eauto.
    + destruct (shape_total (els (c_buf s))) as [sh SH]; [congruence|].
      pose proof (decode_shape _ _ _ _ D0 SH) as C. rewrite L0 in C. destruct sh; cbn in C; try lia.
      rewrite E0 in SH. eapply rd_reject; conn_simpl; eauto.
    + congruence.
    + destruct (shape_total (els (c_buf s))) as [sh SH]; [congruence|].
      pose proof (decode_shape _ _ _ _ D0 SH) as C. pose proof (shape_bounds _ _ SH) as B.
      rewrite (decode_length _ _ _ D0) in LE. rewrite C in *.
      destruct sh as [k| | |k]; cbn in N0, N1, LE; try lia.
      destruct (frame_front _ _ SH) as [f [tail [Ef [Ff Lf]]]]. subst k.
      cbn [shape_code]. rewrite Nat2Z.id.
      assert (Ed : d0 = zeroed (c_buf s) (List.length f)).
      { rewrite (decode_by_shape _ _ SH) in D0. unfold finish in D0. destruct (new_message _); now inversion D0. }
      rewrite Ef at 1. rewrite firstn_app, firstn_all, Nat.sub_diag. cbn [firstn]. rewrite app_nil_r.
      apply deliver_fields in DL. destruct DL as [F [_ V]].
      pose proof (spawn_callback_fields _ _ _ _ SP) as [E3 _].
      eapply rd_frame with (d := d0); conn_simpl; eauto.
      * rewrite Ed. now apply zeroed_tail.
      * rewrite E3, F. conn_simpl. exact M.
      * apply unread_all, reply_unread, V.
      * eapply spawn_callback_indep, SP.
  - pose proof (visit_fields _ _ _ _ _ _ _ VC) as [F [_ V]]. rewrite F. apply rd_other; conn_simpl; auto.
    + apply unread_all. eapply Forall_impl; [|exact V]. intros []; cbn; tauto.
    + right. rewrite M. repeat eexists.
  - pose proof (spawn_callback_fields _ _ _ _ SP) as [E1 _]. eapply rd_control_end; conn_simpl; eauto.
    + rewrite E1. conn_simpl. reflexivity.
    + eapply spawn_callback_indep, SP.
Qed.

(** A step that crashes takes nothing from the buffer. *)
Lemma step_crash_unread s l s' ev : step s l = Some (s', ev) -> c_crashed s' = true -> unread ev.
Proof.
  intros H Hc. pose proof (step_alive _ _ _ _ H) as Ha. apply step_inv in H.
  destruct H as
    [M|k T|data w t er|i F|w p again q W Q|w i W|w i W|k i s' ev T E|k loop p T A|k n r T|stale chunk room M|M
    |o a s' ev M IC|i rcv b m pr vi lo p s' ev M Ip Ep Iv VC|b m pr vi lo s1 ev1 M FA SP];
    try (conn_simpl_in Hc; congruence).
  - apply expire_fields in E. destruct E as [F [_ V]]. apply unread_all, reply_unread, V.
  - destruct IC as [E|E P|b0 tl r0 d0 E0 D0 L0|r0 d0 E0 D0 L0 M0|b0 tl r0 d0 E0 D0 L0|r0 d0 s2 ev2 _ D0 N0 _ _ DL C2|r0 d0 s2 ev2 s3 ev3 E0 D0 N0 N1 LE DL C2 SP];
      try (conn_simpl_in Hc; congruence).
    + apply unread_all. repeat constructor.
    + apply deliver_fields in DL. destruct DL as [F [_ V]]. apply unread_all, reply_unread, V.
    + apply spawn_callback_fields in SP. destruct SP as [E3 _]. rewrite E3 in Hc. conn_simpl_in Hc. congruence.
  - apply visit_fields in VC. destruct VC as [F [_ V]]. apply unread_all.
    eapply Forall_impl; [|exact V]. intros []; cbn; tauto.
  - apply spawn_callback_fields in SP. destruct SP as [E3 _]. rewrite E3 in Hc. conn_simpl_in Hc. congruence.
Qed.

Lemma spawn_reads m s s1 ev : spawn_callback m s = (s1, ev) ->
  frames_taken ev = [] /\ messages_taken ev = [] /\ consumed ev = [] /\ arrived ev = [] /\ acks ev = O.
Proof.
  intros H. apply spawn_callback_fields in H. destruct H as [_ [->|[n [r ->]]]]; repeat split.
Qed.

(** ** C10 *)
Theorem acks_frames ls s tr : run init ls = Some (s, tr) ->
  acks tr = List.length (frames_taken tr) /\ Forall frame (frames_taken tr).
Proof.
  revert ls s tr. apply (run_ind_from init (fun ls s tr =>
    acks tr = List.length (frames_taken tr) /\ Forall frame (frames_taken tr))).
  - split; [reflexivity|constructor].
  - intros ls s tr l s' ev R [IH1 IH2] H. rewrite acks_app, frames_taken_app, app_length, Forall_app.
    assert (X : acks ev = List.length (frames_taken ev) /\ Forall frame (frames_taken ev)); [|intuition lia].
    destruct (c_crashed s') eqn:C.
    + destruct (step_crash_unread _ _ _ _ H C) as [-> [_ [_ [_ [-> _]]]]]. split; [reflexivity|constructor].
    + apply step_reader in H; [|exact C].
      destruct H as [l s' ev _ _ [-> [_ [_ [_ [-> _]]]]] _|s' _ _ _|st c room s' _ _ _|s' _ _ _|o a s' _ _ _ _
        |o a k s' _ _ _ _|o a b tl r p lo s' _ _ _ _ _ _|o a b tl r d s' _ _ _ _ _ _
        |o a f tail r d s' ev2 ev3 _ _ Ff _ _ _ [F2 [_ [_ [_ [A2 _]]]]] SP|b m p v lo s' ev _ _ _ SP];
        try (split; [reflexivity|constructor]).
      * apply spawn_reads in SP. destruct SP as [F3 [_ [_ [_ A3]]]].
        rewrite !frames_taken_app, !acks_app, F2, F3, A2, A3. cbn. split; [reflexivity|now constructor].
      * apply spawn_reads in SP. destruct SP as [F3 [_ [_ [_ A3]]]].
        rewrite !frames_taken_app, !acks_app, F3, A3. cbn. split; [reflexivity|constructor].
Qed.

Theorem ack_follows_frame s l s' ev : step s l = Some (s', ev) -> In EvAck ev ->
  exists pre f m tail, ev = pre ++ [EvFrame f m; EvAck] /\ ~ In EvAck pre /\ frame f /\ els (c_buf s) = f ++ tail /\
    els (c_buf s') = tail.
Proof.
  intros H I.
  assert (A : forall e, acks e = O -> ~ In EvAck e).
  { intros e X Y. unfold acks in X. apply length_zero_iff_nil in X.
    assert (Z : In EvAck (filter (fun e => match e with EvAck => true | _ => false end) e)) by (apply filter_In; auto).
    rewrite X in Z. destruct Z. }
  destruct (c_crashed s') eqn:C.
  - destruct (step_crash_unread _ _ _ _ H C) as [_ [_ [_ [_ [Z _]]]]]. now apply A in Z.
  - apply step_reader in H; [|exact C].
    destruct H as [l s' ev _ _ [_ [_ [_ [_ [Z _]]]]] _|s' _ _ _|st c room s' _ _ _|s' _ _ _|o a s' _ _ _ _
        |o a k s' _ _ _ _|o a b tl r p lo s' _ _ _ _ _ _|o a b tl r d s' _ _ _ _ _ _
        |o a f tail r d s' ev2 ev3 _ E Ff _ E' _ [_ [_ [_ [_ [Z _]]]]] SP|b m p v lo s' ev _ _ _ SP];
        try (destruct I as [I|[]]; discriminate); try (destruct I).
    + now apply A in Z.
    + apply spawn_reads in SP. destruct SP as [_ [_ [_ [_ Z3]]]].
      exists (ev2 ++ ev3), f, (d_msg r), tail. rewrite <- app_assoc. repeat split; auto.
      intros X. apply in_app_iff in X. destruct X as [X|X]; revert X; now apply A.
    + apply spawn_reads in SP. destruct SP as [_ [_ [_ [_ Z3]]]]. apply in_app_iff in I.
      destruct I as [I|[I|[]]]; [|discriminate]. now apply A in Z3.
Qed.

(** Conversely an intact frame at the front is taken and acknowledged by the
    next pass. *)
Theorem frame_is_acked s o a s' ev f tail : c_mode s = RParsing -> els (c_buf s) = f ++ tail -> frame f ->
  step s (LIter o a) = Some (s', ev) -> c_crashed s' = false ->
  frames_taken ev = [f] /\ acks ev = 1%nat /\ els (c_buf s') = tail /\ c_mode s' = RParsing /\ consumed ev = f.
Proof.
  intros M E F H C. apply step_reader in H; [|exact C].
  assert (SH : shape_of (els (c_buf s)) (SFrame (List.length f))) by (rewrite E; now apply sh_frame).
  inversion H as [l0 s0 ev0 B _ _ _| | | |o0 a0 s0 _ E0 _ _|o0 a0 k s0 _ S0 _ _|o0 a0 b tl r p lo s0 _ E0 I0 _ _ _
    |o0 a0 b tl r d s0 _ E0 S0 _ _ _|o0 a0 g tl r d s0 ev2 ev3 _ E0 G _ E1 M1 U SP|]; subst.
  - discriminate.
  - rewrite E0 in E. destruct F; discriminate.
  - pose proof (shape_unique _ _ _ S0 SH). discriminate.
  - rewrite E0 in SH. pose proof (shape_unique _ _ _ SH (sh_control _ _ I0)). discriminate.
  - rewrite E0 in SH. pose proof (shape_unique _ _ _ SH S0). discriminate.
  - assert (SG : shape_of (els (c_buf s)) (SFrame (List.length g))) by (rewrite E0; now apply sh_frame).
    pose proof (shape_unique _ _ _ SH SG) as L. injection L as L.
    rewrite E0 in E. apply app_inj_len in E; [|congruence]. destruct E as [-> ->].
    destruct U as [F2 [_ [C2 [_ [A2 _]]]]]. apply spawn_reads in SP. destruct SP as [F3 [_ [C3 [_ A3]]]].
    rewrite !frames_taken_app, !acks_app, !consumed_app, F2, F3, A2, A3, C2, C3. cbn. rewrite app_nil_r. auto.
Qed.

(** ** C09 *)
Definition left_over (s : conn) : nat := List.length (els (c_buf s)).

(** While a control byte is handled it is at the front. *)
Definition front_ok (s : conn) : Prop :=
  forall b m p v lo, c_mode s = RControl b m p v lo -> exists tl, els (c_buf s) = b :: tl.
Lemma front_step s l s' ev : step s l = Some (s', ev) -> c_crashed s' = false -> front_ok s -> front_ok s'.
Proof.
  intros H C F b m p v lo M. apply step_reader in H; [|exact C].
  destruct H as [l s' ev _ B _ [Q|[b1 [m1 [p1 [v1 [v2 [lo1 [Q1 Q2]]]]]]]]|s' _ Q _|st c room s' _ Q _|s' _ Q _|o a s' _ _ Q _
        |o a k s' _ _ Q _|o a b1 tl r p1 lo1 s' _ E _ _ B Q|o a b1 tl r d s' _ _ _ _ _ Q
        |o a f tail r d s' ev2 ev3 _ _ _ _ _ Q _ _|b1 m1 p1 v1 lo1 s' ev _ Q _ _]; try congruence.
  - rewrite B. apply (F b m p v lo). congruence.
  - rewrite B. rewrite Q2 in M. injection M as <- <- <- <- <-. eapply F, Q1.
  - rewrite B. exists tl. congruence.
Qed.
Lemma front_run ls s tr : run init ls = Some (s, tr) -> c_crashed s = false -> front_ok s.
Proof.
  revert ls s tr. apply (run_ind_from init (fun ls s tr => c_crashed s = false -> front_ok s)).
  - intros _ b m p v lo M. discriminate.
  - intros ls s tr l s' ev _ IH H C. eapply front_step; eauto. apply IH. eapply step_alive, H.
Qed.

Lemma no_reads_cons l ls : no_reads (l :: ls) -> no_reads ls.
Proof. intros NR st c r I. apply (NR st c r). now right. Qed.
Lemma connects_cons l ls : connects (l :: ls) = O -> l <> LConnect /\ connects ls = O.
Proof. unfold connects. cbn. destruct l; cbn; try discriminate; intros ->; split; congruence. Qed.

Theorem byte_accounting ls : forall s s' tr, run s ls = Some (s', tr) -> front_ok s -> no_reads ls -> connects ls = O ->
  c_crashed s' = false ->
  (List.length (consumed tr) + left_over s')%nat = left_over s.
Proof.
  induction ls as [|l ls IH]; intros s s' tr H FO NR NC C.
  - cbn in H. injection H as <- <-. reflexivity.
  - cbn [run] in H. destruct (step s l) as [[s1 e1]|] eqn:E; [|discriminate].
    destruct (run s1 ls) as [[s2 e2]|] eqn:E2; [|discriminate]. injection H as <- <-.
    assert (C1 : c_crashed s1 = false).
    { destruct ls; [cbn in E2; congruence|]. eapply run_crashed; [exact E2|discriminate]. }
    apply connects_cons in NC. destruct NC as [NC0 NC].
    rewrite consumed_app, app_length.
    rewrite <- Nat.add_assoc, (IH _ _ _ E2 (front_step _ _ _ _ E C1 FO) (no_reads_cons _ _ NR) NC C).
    unfold left_over. apply step_reader in E; [|exact C1].
    destruct E as [l s1 ev _ -> [_ [_ [-> _]]] _|s1 _ _ _|st c room s1 _ _ _|s1 _ _ ->|o a s1 _ _ _ ->
        |o a k s1 _ _ _ ->|o a b tl r p lo s1 _ _ _ _ -> _|o a b tl r d s1 _ E _ D -> _
        |o a f tail r d s1 ev2 ev3 _ E Ff _ -> _ [_ [_ [C2 _]]] SP|b m p v lo s1 ev M _ -> SP]; try reflexivity.
    + congruence.
    + exfalso. apply (NR st c room). now left.
    + pose proof (decode_length _ _ _ D) as L. rewrite E in L. rewrite E.
      destruct (els d); cbn in L |- *; lia.
    + apply spawn_reads in SP. destruct SP as [_ [_ [C3 _]]]. rewrite !consumed_app, C2, C3. cbn.
      rewrite app_nil_r, E, app_length. reflexivity.
    + apply spawn_reads in SP. destruct SP as [_ [_ [C3 _]]]. rewrite !consumed_app, C3.
      destruct (FO _ _ _ _ _ M) as [tl ->]. reflexivity.
Qed.

Definition potential (s : conn) : nat :=
  match c_mode s with RParsing => S (left_over s) | RControl _ _ _ _ _ => left_over s | _ => O end.

Lemma passes_bound ls : forall s s' tr, run s ls = Some (s', tr) -> front_ok s -> no_reads ls -> connects ls = O ->
  (passes ls <= potential s)%nat.
Proof.
  induction ls as [|l ls IH]; intros s s' tr H FO NR NC.
  - apply Nat.le_0_l.
  - cbn [run] in H. destruct (step s l) as [[s1 e1]|] eqn:E; [|discriminate].
    destruct (run s1 ls) as [[s2 e2]|] eqn:E2; [|discriminate].
    assert (PC : passes (l :: ls) = ((match l with LIter _ _ => 1 | _ => 0 end) + passes ls)%nat).
    { unfold passes. cbn. destruct l; reflexivity. }
    rewrite PC. clear PC.
    destruct (c_crashed s1) eqn:C1.
    + assert (ls = []) as ->.
      { destruct ls; [reflexivity|]. pose proof (run_crashed _ _ _ _ E2) as X. rewrite C1 in X. discriminate X. discriminate. }
      cbn. destruct l; try apply Nat.le_0_l. apply step_inv in E. inversion E; subst. unfold potential.
      match goal with M : c_mode s = _ |- _ => rewrite M end. lia.
    + apply connects_cons in NC. destruct NC as [NC0 NC].
      pose proof (IH _ _ _ E2 (front_step _ _ _ _ E C1 FO) (no_reads_cons _ _ NR) NC) as B.
      apply step_reader in E; [|exact C1]. unfold potential, left_over in *.
      destruct E as [l s1 ev RL EB U MM|s1 _ _ _|st c room s1 _ _ _|s1 M M1 EB|o a s1 M E M1 EB
        |o a k s1 M _ M1 EB|o a b tl r p lo s1 M _ _ _ EB M1|o a b tl r d s1 M E _ D EB M1
        |o a f tail r d s1 ev2 ev3 M E Ff _ EB M1 _ SP|b m p v lo s1 ev M M1 EB SP].
      * assert (P : (match c_mode s1 with RParsing => S (List.length (els (c_buf s1))) | RControl _ _ _ _ _ => List.length (els (c_buf s1)) | _ => O end)
           = (match c_mode s with RParsing => S (List.length (els (c_buf s))) | RControl _ _ _ _ _ => List.length (els (c_buf s)) | _ => O end)).
        { destruct MM as [->|[b1 [m1 [p1 [v1 [v2 [lo1 [-> ->]]]]]]]]; now rewrite EB. }
        rewrite P in B. destruct l; try discriminate; lia.
      * congruence.
      * exfalso. apply (NR st c room). now left.
      * rewrite M, M1 in *. lia.
      * rewrite M, M1 in *. lia.
      * rewrite M, M1 in *. lia.
      * rewrite M, M1, EB in *. lia.
      * rewrite M, M1, EB, E in *. pose proof (decode_length _ _ _ D) as L. rewrite E in L.
        destruct (els d); cbn in L, B |- *; lia.
      * rewrite M, M1, EB, E in *. rewrite app_length. pose proof (frame_length _ Ff). lia.
      * rewrite M, M1, EB in *. destruct (FO _ _ _ _ _ M) as [tl E]. rewrite E in *. cbn in *. lia.
Qed.

Theorem reader_terminates s ls s' tr : c_mode s = RParsing -> run s ls = Some (s', tr) -> no_reads ls ->
  connects ls = O -> (passes ls <= S (List.length (els (c_buf s))))%nat.
Proof.
  intros M H NR NC. pose proof (passes_bound ls s s' tr H) as B. unfold potential in B. rewrite M in B.
  apply B; auto. intros b m p v lo X. congruence.
Qed.

Theorem reader_accounts s ls s' tr : c_mode s = RParsing -> run s ls = Some (s', tr) -> no_reads ls ->
  connects ls = O -> c_crashed s' = false ->
  (List.length (consumed tr) + List.length (els (c_buf s')))%nat = List.length (els (c_buf s)).
Proof.
  intros M H NR NC C. apply (byte_accounting ls s s' tr); auto. intros b m p v lo X. congruence.
Qed.

Lemma step_crash_mode s l s' ev : step s l = Some (s', ev) -> c_crashed s' = true ->
  c_mode s' <> RReading /\ c_mode s' <> RStopped.
Proof.
  intros H C. cut ((c_mode s' = RReading \/ c_mode s' = RStopped) -> False); [tauto|]. intros MM.
  pose proof (step_alive _ _ _ _ H) as Ha. apply step_inv in H.
      destruct H as
      [M|k T|data w t er|i F|w p again q W Q|w i W|w i W|k i s' ev T E|k loop p T A|k n r T|stale chunk room M|M
      |o a s' ev M IC|i rcv b m pr vi lo p s' ev M Ip Ep Iv VC|b m pr vi lo s1 ev1 M FA SP];
      try (conn_simpl_in C; congruence).
      - apply expire_fields in E. destruct E as [F _]. rewrite F in C. conn_simpl_in C. congruence.
      - destruct IC as [E|E P|b0 tl r0 d0 E0 D0 L0|r0 d0 E0 D0 L0 M0|b0 tl r0 d0 E0 D0 L0|r0 d0 s2 ev2 _ D0 N0 _ _ DL C2|r0 d0 s2 ev2 s3 ev3 E0 D0 N0 N1 LE DL C2 SP];
        try (conn_simpl_in C; congruence).
        + conn_simpl_in MM. destruct MM; congruence.
        + apply deliver_fields in DL. destruct DL as [F _]. rewrite F in MM. conn_simpl_in MM. destruct MM; congruence.
        + apply spawn_callback_fields in SP. destruct SP as [E3 _]. rewrite E3 in C. conn_simpl_in C. congruence.
      - apply visit_fields in VC. destruct VC as [F _]. rewrite F in MM. conn_simpl_in MM. destruct MM; congruence.
      - apply spawn_callback_fields in SP. destruct SP as [E3 _]. rewrite E3 in C. conn_simpl_in C. congruence.
Qed.
Lemma crash_mode ls s tr : run init ls = Some (s, tr) -> c_crashed s = true ->
  c_mode s <> RReading /\ c_mode s <> RStopped.
Proof.
  revert ls s tr. apply (run_ind_from init (fun ls s tr => c_crashed s = true -> c_mode s <> RReading /\ c_mode s <> RStopped)).
  - discriminate.
  - intros ls s tr l s' ev _ _ H. eapply step_crash_mode, H.
Qed.

(** What is left when the reader waits for more bytes. *)
Definition incomplete (l : list byte) : Prop := l = [] \/ exists k, shape_of l (SMore k).
Theorem waits_for_more ls s tr : run init ls = Some (s, tr) -> (c_mode s = RReading \/ c_mode s = RStopped) ->
  incomplete (els (c_buf s)).
Proof.
  revert ls s tr. apply (run_ind_from init (fun ls s tr => (c_mode s = RReading \/ c_mode s = RStopped) ->
    incomplete (els (c_buf s)))).
  - intros _. left. reflexivity.
  - intros ls s tr l s' ev _ IH H MM.
    destruct (c_crashed s') eqn:C.
    { exfalso. destruct (step_crash_mode _ _ _ _ H C), MM; contradiction. }
    apply step_reader in H; [|exact C].
    destruct H as [l s' ev RL EB U [Q|[b1 [m1 [p1 [v1 [v2 [lo1 [Q1 Q2]]]]]]]]|s' _ _ EB|st c room s' _ M1 _|s' M M1 EB|o a s' M E M1 EB
        |o a k s' M SH M1 EB|o a b tl r p lo s' M _ _ _ EB M1|o a b tl r d s' M E _ D EB M1
        |o a f tail r d s' ev2 ev3 M E Ff _ EB M1 _ SP|b m p v lo s' ev M M1 EB SP];
      try (exfalso; destruct MM; congruence).
    + rewrite EB. apply IH. now rewrite <- Q.
    + rewrite EB. now left.
    + rewrite EB. apply IH. now left.
    + rewrite EB, E. now left.
    + rewrite EB. right. eauto.
Qed.

(** ** C07 *)
Lemma prefix_frame f more l rest : frame f -> l <> [] -> f ++ more = l ++ rest ->
  (exists tail, l = f ++ tail /\ more = tail ++ rest) \/
  (List.length l < List.length f)%nat /\ exists k, shape_of l (SMore k).
Proof.
  intros F N E. destruct (Nat.lt_ge_cases (List.length l) (List.length f)) as [L|L].
  - right. split; [exact L|]. destruct F as [n r Hn Hx]. destruct l as [|b l]; [congruence|].
    injection E as <- E. destruct l as [|c l]; [exists 2%nat; apply sh_more1|].
    injection E as <- E. eexists. apply sh_more. cbn in L. lia.
  - left. exists (skipn (List.length f) l).
    assert (E1 : firstn (List.length f) l = f).
    { assert (X : firstn (List.length f) (l ++ rest) = f).
      { rewrite <- E, firstn_app, firstn_all, Nat.sub_diag. cbn. apply app_nil_r. }
      rewrite firstn_app in X. replace (List.length f - List.length l)%nat with O in X by lia.
      cbn in X. now rewrite app_nil_r in X. }
    assert (E2 : l = f ++ skipn (List.length f) l) by (rewrite <- E1 at 1; now rewrite firstn_skipn).
    split; [exact E2|]. rewrite E2, <- app_assoc in E. now apply app_inv_head in E.
Qed.

Lemma self_contained_message f tail sp r d : self_contained f ->
  decode (mkSlice (f ++ tail) sp) = Ok (r, d) -> d_msg r = message_of f.
Proof.
  intros SC H. pose proof (decode_content f tail sp SC) as D.
  change (mkSlice (f ++ tail) sp) with {| els := f ++ tail; spare := sp |} in H.
  rewrite D in H. injection H as <- <-. reflexivity.
Qed.

Definition stream (s : conn) (tr : list event) (fs : list (list byte)) (rest : list byte) : Prop :=
  exists k, frames_taken tr = firstn k fs /\ messages_taken tr = map message_of (firstn k fs) /\
    List.concat (skipn k fs) = els (c_buf s) ++ rest /\ (k <= List.length fs)%nat.

Lemma arrived_prefix a b fs rest : List.concat fs = arrived (a ++ b) ++ rest ->
  List.concat fs = arrived a ++ (arrived b ++ rest).
Proof. now rewrite arrived_app, app_assoc. Qed.

Lemma never_stale_app a b : never_stale (a ++ b) -> never_stale a /\ never_stale b.
Proof. intros H. split; intros st c I; apply (H st c), in_app_iff; auto. Qed.

Lemma connects_app a b : connects (a ++ b) = (connects a + connects b)%nat.
Proof. unfold connects. now rewrite filter_app, app_length. Qed.

Lemma skipn_cons_nth {A} k (l : list A) x r : skipn k l = x :: r ->
  firstn (S k) l = firstn k l ++ [x] /\ skipn (S k) l = r /\ (S k <= List.length l)%nat.
Proof.
  revert l. induction k as [|k IH]; intros [|y l] H; try discriminate.
  - cbn in H. injection H as <- <-. cbn. repeat split. lia.
  - cbn [skipn] in H. destruct (IH l H) as [A1 [A2 A3]]. cbn [firstn skipn].
    change (firstn (S k) (y :: l)) with (y :: firstn k l).
    change (y :: firstn (S k) l = y :: firstn k l ++ [x] /\ skipn (S k) l = r /\ (S (S k) <= List.length (y :: l))%nat).
    rewrite A1. repeat split; auto. cbn. lia.
Qed.

Lemma stream_invariant ls s tr : run init ls = Some (s, tr) -> (connects ls <= 1)%nat -> never_stale tr ->
  c_crashed s = false ->
  (connects ls = O -> c_mode s = RStopped /\ els (c_buf s) = [] /\ unread tr) /\
  forall fs rest, Forall self_contained fs -> List.concat fs = arrived tr ++ rest ->
    stream s tr fs rest /\ forall b m p v lo, c_mode s <> RControl b m p v lo.
Proof.
  revert ls s tr. apply (run_ind_from init (fun ls s tr => (connects ls <= 1)%nat -> never_stale tr ->
  c_crashed s = false ->
  (connects ls = O -> c_mode s = RStopped /\ els (c_buf s) = [] /\ unread tr) /\
  forall fs rest, Forall self_contained fs -> List.concat fs = arrived tr ++ rest ->
    stream s tr fs rest /\ forall b m p v lo, c_mode s <> RControl b m p v lo)).
  - intros _ _ _. split; [intros _; repeat split|]. intros fs rest SC E. split; [|discriminate].
    exists O. repeat split; try exact E. lia.
  - intros ls s tr l s' ev R IH H CN NS C.
    pose proof (step_alive _ _ _ _ H) as C0.
    rewrite connects_app in CN. apply never_stale_app in NS. destruct NS as [NS NS'].
    destruct (IH ltac:(lia) NS C0) as [IH0 IHS]. clear IH.
    apply step_reader in H; [|exact C]. split.
    { intros Z. rewrite connects_app in Z. destruct (IH0 ltac:(lia)) as [M [B U]].
      assert (UU : unread ev -> unread (tr ++ ev)).
      { destruct U as [U1 [U2 [U3 [U4 [U5 U6]]]]]. intros [V1 [V2 [V3 [V4 [V5 V6]]]]]. unfold unread.
        rewrite frames_taken_app, messages_taken_app, consumed_app, arrived_app, acks_app, spawned_app.
        rewrite U1, U2, U3, U4, U5, U6, V1, V2, V3, V4, V5, V6. repeat split. }
      destruct H as [l s' ev RL EB UE [Q|[b1 [m1 [p1 [v1 [v2 [lo1 [Q1 Q2]]]]]]]]|s' _ _ _|st c room s' M0 _ _|s' M0 _ _|o a s' M0 _ _ _
        |o a k s' M0 _ _ _|o a b tl r p lo s' M0 _ _ _ _ _|o a b tl r d s' M0 _ _ _ _ _
        |o a f tail r d s' ev2 ev3 M0 _ Ff _ _ _ _ SP|b m p v lo s' ev M0 _ _ SP]; try congruence.
      - rewrite Q, EB. auto.
      - cbn in Z. lia. }
    intros fs rest SC E. pose proof (arrived_prefix _ _ _ _ E) as E'.
    destruct (IHS fs _ SC E') as [[k [S1 [S2 [S3 S4]]]] NM].
    destruct H as [l s' ev RL EB [U1 [U2 [_ [U4 _]]]] [Q|[b1 [m1 [p1 [v1 [v2 [lo1 [Q1 Q2]]]]]]]]|s' M0 M1 EB|st c room s' M0 M1 EB|s' M0 M1 EB|o a s' M0 EE M1 EB
        |o a kk s' M0 SH M1 EB|o a b tl r p lo s' M0 EE I0 _ EB M1|o a b tl r d s' M0 EE SH _ EB M1
        |o a f tail r d s' ev2 ev3 M0 EE Ff D EB M1 [U1 [U2 [_ [U4 _]]]] SP|b m p v lo s' ev M0 M1 EB SP].
    + split; [|intros; rewrite Q; apply NM]. exists k. rewrite frames_taken_app, messages_taken_app, U1, U2, !app_nil_r.
      rewrite U4 in S3. cbn in S3. rewrite EB. auto.
    + exfalso. eapply NM, Q1.
    + split; [|intros; congruence]. cbn in CN. destruct (IH0 ltac:(lia)) as [_ [B U]].
      exists k. rewrite !app_nil_r, EB. cbn in S3. rewrite B in S3. auto.
    + split; [|intros; congruence]. assert (st = false) as -> by (apply (NS' st c); now left).
      exists k. rewrite frames_taken_app, messages_taken_app. cbn. rewrite !app_nil_r, EB, <- app_assoc.
      repeat split; auto. rewrite S3. cbn. now rewrite app_nil_r.
    + split; [|intros; congruence]. exists k. rewrite !app_nil_r, EB. auto.
    + split; [|intros; congruence]. exists k. rewrite !app_nil_r, EB. auto.
    + split; [|intros; congruence]. exists k. rewrite !app_nil_r, EB. auto.
    + exfalso. destruct (skipn k fs) as [|f fs'] eqn:SK; [rewrite EE in S3; discriminate|].
      destruct (skipn_cons_nth _ _ _ _ SK) as [_ _]. cbn in S3. rewrite EE in S3.
      assert (Ff : frame f).
      { assert (X : In f (skipn k fs)) by (rewrite SK; now left). rewrite Forall_forall in SC.
        apply SC. rewrite <- (firstn_skipn k fs). apply in_app_iff. now right. }
      destruct Ff. injection S3 as <- _. cbn in I0. unfold SOF in *. intuition discriminate.
    + exfalso. destruct (skipn k fs) as [|f fs'] eqn:SK; [rewrite EE in S3; discriminate|].
      cbn in S3. rewrite EE in S3.
      assert (Ff : frame f).
      { assert (X : In f (skipn k fs)) by (rewrite SK; now left). rewrite Forall_forall in SC.
        apply SC. rewrite <- (firstn_skipn k fs). apply in_app_iff. now right. }
      destruct (prefix_frame f (List.concat fs') (b :: tl) _ Ff ltac:(discriminate) S3) as [[t [X _]]|[_ [kk X]]].
      * rewrite X in SH. pose proof (shape_unique _ _ _ SH (sh_frame _ _ Ff)). discriminate.
      * pose proof (shape_unique _ _ _ SH X). discriminate.
    + split; [|intros; congruence].
      destruct (skipn k fs) as [|g fs'] eqn:SK; [rewrite EE in S3; destruct Ff; discriminate|].
      destruct (skipn_cons_nth _ _ _ _ SK) as [K1 [K2 K3]].
      assert (SCg : self_contained g).
      { assert (X : In g (skipn k fs)) by (rewrite SK; now left). rewrite Forall_forall in SC.
        apply SC. rewrite <- (firstn_skipn k fs). apply in_app_iff. now right. }
      cbn [List.concat] in S3.
      assert (NE : els (c_buf s) <> []) by (rewrite EE; destruct Ff; discriminate).
      assert (SF : shape_of (els (c_buf s)) (SFrame (List.length f))) by (rewrite EE; now apply sh_frame).
      destruct (prefix_frame g (List.concat fs') _ _ (proj1 SCg) NE S3) as [[t [X Y]]|[_ [kk X]]].
      2:{ pose proof (shape_unique _ _ _ SF X). discriminate. }
      assert (SG : shape_of (els (c_buf s)) (SFrame (List.length g))) by (rewrite X; apply sh_frame, SCg).
      pose proof (shape_unique _ _ _ SF SG) as L. injection L as L.
      rewrite X in EE. apply app_inj_len in EE; [|congruence]. destruct EE as [-> ->].
      apply spawn_reads in SP. destruct SP as [F3 [M3 [_ [A3 _]]]].
      exists (S k). rewrite !frames_taken_app, !messages_taken_app, U1, U2, F3, M3, S1, S2, K1, K2, map_app.
      cbn. repeat split; auto.
      * do 2 f_equal. destruct (c_buf s) as [e sp] eqn:BB. cbn in X. subst e.
        apply (self_contained_message _ _ _ _ _ SCg D).
      * rewrite Y, EB, !arrived_app, U4, A3. reflexivity.
    + exfalso. eapply NM, M0.
Qed.

Theorem chunking fs ls s tr : Forall self_contained fs -> run init ls = Some (s, tr) -> (connects ls <= 1)%nat ->
  never_stale tr -> arrived tr = List.concat fs -> c_mode s = RReading ->
  frames_taken tr = fs /\ messages_taken tr = map message_of fs /\ els (c_buf s) = [].
Proof.
  intros SC R CN NS A M.
  assert (C : c_crashed s = false \/ c_crashed s = true) by (destruct (c_crashed s); auto).
  pose proof (waits_for_more _ _ _ R (or_introl M)) as W.
  destruct C as [C|C].
  - destruct (stream_invariant _ _ _ R CN NS C) as [_ S].
    destruct (S fs [] SC ltac:(now rewrite app_nil_r)) as [[k [S1 [S2 [S3 S4]]]] _]. rewrite app_nil_r in S3.
    destruct (skipn k fs) as [|f fs'] eqn:SK.
    + cbn in S3. assert (F : firstn k fs = fs).
      { rewrite <- (firstn_skipn k fs) at 2. now rewrite SK, app_nil_r. }
      rewrite F in *. auto.
    + exfalso. assert (Ff : frame f).
      { assert (X : In f (skipn k fs)) by (rewrite SK; now left). rewrite Forall_forall in SC.
        apply SC. rewrite <- (firstn_skipn k fs). apply in_app_iff. now right. }
      rewrite <- S3 in W. cbn in W. destruct W as [W|[kk W]].
      * destruct Ff; discriminate.
      * pose proof (shape_unique _ _ _ W (sh_frame _ _ Ff)). discriminate.
  - exfalso. destruct (crash_mode _ _ _ R C). contradiction.
Qed.

(** Every chunking does get through. *)
Lemma step_iter_frame s f tail : c_mode s = RParsing -> c_crashed s = false -> c_inflight s = [] ->
  self_contained f -> els (c_buf s) = f ++ tail ->
  exists s' ev, step s (LIter [] []) = Some (s', ev) /\ c_mode s' = RParsing /\ c_crashed s' = false /\
    c_inflight s' = [] /\ els (c_buf s') = tail.
Proof.
  intros M C I SC E. destruct (decode_self_contained f SC) as [r [L D]].
  destruct (c_buf s) as [e sp] eqn:B. cbn in E. subst e. specialize (D tail sp).
  unfold step. rewrite C, M. unfold iteration. rewrite B. cbn [els].
  pose proof SC as [Ff [L5 _]].
  destruct (f ++ tail) as [|b0 t0] eqn:E0; [destruct f; [cbn in L5; lia|discriminate]|].
  rewrite D. cbv iota beta zeta. rewrite L.
  destruct (Z.eqb_spec (Z.of_nat (List.length f)) 1) as [X|_]; [lia|].
  destruct (Z.ltb_spec (Z.of_nat (List.length (els {| els := clear_at (List.length f - 1) f ++ tail; spare := sp |}))) (Z.of_nat (List.length f))) as [X|_].
  { cbn in X. rewrite app_length, clear_at_length in X. lia. }
  destruct (Z.eqb_spec (Z.of_nat (List.length f)) (-1)) as [X|_]; [lia|].
  rewrite I. cbn [pick deliver]. conn_simpl. rewrite C.
  destruct (spawn_callback _ _) as [s3 ev3] eqn:SP. apply spawn_callback_fields in SP. destruct SP as [-> _].
  do 2 eexists. split; [reflexivity|]. conn_simpl. repeat split; auto.
  unfold drop. cbn [els]. rewrite Nat2Z.id, skipn_app.
  rewrite <- (clear_at_length (List.length f - 1) f) at 1. rewrite skipn_all, clear_at_length, Nat.sub_diag. reflexivity.
Qed.

Lemma step_iter_wait s : c_mode s = RParsing -> c_crashed s = false -> incomplete (els (c_buf s)) ->
  step s (LIter [] []) = Some (set_c_mode RReading s, []).
Proof.
  intros M C [E|[k SH]]; unfold step; rewrite C, M; unfold iteration.
  - now rewrite E.
  - destruct (els (c_buf s)) as [|b t] eqn:E; [inversion SH; subst; match goal with F : frame _ |- _ => destruct F end; discriminate|].
    rewrite <- E in SH. rewrite (decode_by_shape _ _ SH). cbv iota beta zeta. cbn [d_len].
    pose proof (shape_bounds _ _ SH) as B. cbn in B. rewrite E in B. cbn in B.
    destruct (Z.eqb_spec (Z.of_nat k) 1) as [X|_]; [lia|].
    destruct (Z.ltb_spec (Z.of_nat (List.length (els (c_buf s)))) (Z.of_nat k)) as [_|X].
    + f_equal.
    + rewrite E in X. cbn in X. lia.
Qed.

Definition silent (ls : list label) : Prop := Forall (fun l => exists o a, l = LIter o a) ls.

Lemma drain n : forall s fs rest, (List.length (els (c_buf s)) <= n)%nat -> c_mode s = RParsing ->
  c_crashed s = false -> c_inflight s = [] -> Forall self_contained fs ->
  List.concat fs = els (c_buf s) ++ rest ->
  exists ls s' tr, run s ls = Some (s', tr) /\ silent ls /\ c_mode s' = RReading /\ c_crashed s' = false /\
    c_inflight s' = [] /\ exists fs', Forall self_contained fs' /\ List.concat fs' = els (c_buf s') ++ rest.
Proof.
  assert (WAIT : forall s fs rest, c_mode s = RParsing -> c_crashed s = false -> c_inflight s = [] ->
    Forall self_contained fs -> List.concat fs = els (c_buf s) ++ rest -> incomplete (els (c_buf s)) ->
    exists ls s' tr, run s ls = Some (s', tr) /\ silent ls /\ c_mode s' = RReading /\ c_crashed s' = false /\
    c_inflight s' = [] /\ exists fs', Forall self_contained fs' /\ List.concat fs' = els (c_buf s') ++ rest).
  { intros s fs rest M C I SC E W. exists [LIter [] []]. do 2 eexists. cbn [run].
    rewrite (step_iter_wait s M C W). split; [reflexivity|]. split; [repeat econstructor|].
    conn_simpl. repeat split; auto. exists fs. auto. }
  induction n as [|n IH]; intros s fs rest L M C I SC E.
  - apply (WAIT s fs rest); auto. left. apply length_zero_iff_nil. lia.
  - destruct (els (c_buf s)) as [|b t] eqn:EB.
    { apply (WAIT s fs rest); auto; rewrite ?EB; auto. now left. }
    destruct fs as [|f fs]; [discriminate|]. inversion SC as [|f0 fs0 SCf SCs]; subst.
    cbn [List.concat] in E.
    destruct (prefix_frame f (List.concat fs) (b :: t) rest (proj1 SCf) ltac:(discriminate) E) as [[tail [X Y]]|[_ [k X]]].
    + destruct (step_iter_frame s f tail M C I SCf ltac:(congruence)) as [s1 [ev1 [S1 [M1 [C1 [I1 E1]]]]]].
      assert (F0 : (2 <= List.length f)%nat) by apply (frame_length f), SCf.
      destruct (IH s1 fs rest) as [ls [s' [tr [R [SL Q]]]]]; auto.
      { rewrite E1. rewrite X, app_length in L. lia. }
      { now rewrite E1. }
      exists (LIter [] [] :: ls), s', (ev1 ++ tr). cbn [run]. rewrite S1, R. split; [reflexivity|].
      split; [constructor; [repeat econstructor|exact SL]|exact Q].
    + apply (WAIT s (f :: fs) rest); auto; rewrite ?EB; auto. right. eauto.
Qed.

Lemma silent_facts ls : silent ls -> connects ls = O /\ chunks_read ls = [] /\
  forall st c r, ~ In (LRead st c r) ls.
Proof.
  intros H. induction H as [|l ls [o [a ->]] _ [H1 [H2 H3]]]; [repeat split; intros st c r []|].
  split; [exact H1|]. split; [exact H2|]. intros st c r [X|X]; [discriminate|]. now apply H3 in X.
Qed.

Lemma arrives_from_reads ls : forall s s' tr, run s ls = Some (s', tr) ->
  arrived tr = List.concat (chunks_read ls) /\
  forall st c, In (EvArrive st c) tr -> exists r, In (LRead st c r) ls.
Proof.
  induction ls as [|l ls IH]; intros s s' tr H.
  - cbn in H. injection H as <- <-. split; [reflexivity|intros st c []].
  - cbn [run] in H. destruct (step s l) as [[s1 e1]|] eqn:E; [|discriminate].
    destruct (run s1 ls) as [[s2 e2]|] eqn:E2; [|discriminate]. injection H as <- <-.
    destruct (IH _ _ _ E2) as [A1 A2]. rewrite arrived_app, A1.
    assert (CR : chunks_read (l :: ls) = chunks_read [l] ++ chunks_read ls) by (now destruct l).
    rewrite CR, concat_app. clear CR.
    assert (K : (forall st c r, l <> LRead st c r) -> (forall st c, ~ In (EvArrive st c) e1) ->
       arrived e1 ++ List.concat (chunks_read ls) = List.concat (chunks_read [l]) ++ List.concat (chunks_read ls) /\
       (forall st c, In (EvArrive st c) (e1 ++ e2) -> exists r, In (LRead st c r) (l :: ls))).
    { intros NL NE. split.
      - f_equal. destruct l; try (cbn; unfold arrived; clear -NE; induction e1 as [|e e1 IH]; [reflexivity|];
          cbn; destruct e; try (apply IH; intros st c X; apply (NE st c); now right);
          exfalso; eapply NE; now left). exfalso; eapply NL; reflexivity.
      - intros st c X. apply in_app_iff in X. destruct X as [X|X]; [now apply NE in X|].
        destruct (A2 _ _ X) as [r Y]. exists r. now right. }
    assert (U : forall (P : event -> Prop), Forall P e1 -> (forall st c, ~ P (EvArrive st c)) -> forall st c, ~ In (EvArrive st c) e1).
    { intros P F NP st c X. rewrite Forall_forall in F. apply F in X. now apply NP in X. }
    apply step_inv in E. destruct E as
    [M|k T|data w t er|i F|w p again q W Q|w i W|w i W|k i s' ev T E|k loop p T A|k n r T|stale chunk room M|M
    |o a s' ev M IC|i rcv b m pr vi lo p s' ev M Ip Ep Iv VC|b m pr vi lo s1 ev1 M FA SP];
      try (apply K; [discriminate|]; cbn; intros st c X; intuition discriminate).
    + apply K; [discriminate|]. intros st c [X|[]]. destruct (mem i (c_open s)); discriminate.
    + apply K; [discriminate|]. apply expire_fields in E. destruct E as [_ [_ V]]. apply (U _ V). cbn. tauto.
    + split; [cbn; now rewrite app_nil_r|]. intros st c [X|X].
      * injection X as <- <-. exists room. now left.
      * destruct (A2 _ _ X) as [r Y]. exists r. now right.
    + apply K; [discriminate|]. apply iter_fields in IC. destruct IC as [_ [_ V]]. apply (U _ V). cbn. tauto.
    + apply K; [discriminate|]. apply visit_fields in VC. destruct VC as [_ [_ V]]. apply (U _ V). cbn. tauto.
    + apply K; [discriminate|]. apply spawn_callback_fields in SP. destruct SP as [_ [->|[n [r ->]]]];
        cbn; intros st c X; intuition discriminate.
Qed.

Lemma feed chunks : forall s fs rest, c_mode s = RReading -> c_crashed s = false -> c_inflight s = [] ->
  Forall self_contained fs -> List.concat fs = els (c_buf s) ++ List.concat chunks ++ rest ->
  exists ls s' tr, run s ls = Some (s', tr) /\ chunks_read ls = chunks /\ connects ls = O /\
    (forall st c r, In (LRead st c r) ls -> st = false) /\ c_mode s' = RReading.
Proof.
  induction chunks as [|c chunks IH]; intros s fs rest M C I SC E.
  - exists [], s, []. repeat split; auto. intros st c r [].
  - assert (S1 : exists s1 ev1, step s (LRead false c 0) = Some (s1, ev1) /\ c_mode s1 = RParsing /\ c_crashed s1 = false
       /\ c_inflight s1 = [] /\ els (c_buf s1) = els (c_buf s) ++ c).
    { unfold step. rewrite C, M. do 2 eexists. split; [reflexivity|]. conn_simpl. repeat split; auto.
      unfold append_chunk. destruct (List.length c <=? _)%nat; reflexivity. }
    destruct S1 as [s1 [ev1 [S1 [M1 [C1 [I1 E1]]]]]].
    destruct (drain (List.length (els (c_buf s1))) s1 fs (List.concat chunks ++ rest)) as [ls1 [s2 [tr2 [R2 [SL [M2 [C2 [I2 [fs' [SC' E2]]]]]]]]]]; auto.
    { rewrite E1, <- app_assoc. cbn in E. now rewrite <- app_assoc in E. }
    destruct (IH s2 fs' rest M2 C2 I2 SC' E2) as [ls2 [s3 [tr3 [R3 [K3 [N3 [ST3 M3]]]]]]].
    destruct (silent_facts _ SL) as [Q1 [Q2 Q3]].
    exists (LRead false c 0 :: ls1 ++ ls2), s3, (ev1 ++ tr2 ++ tr3). cbn [run]. rewrite S1, run_app, R2, R3.
    split; [reflexivity|]. split.
    { unfold chunks_read in *. cbn. now rewrite flat_map_app, Q2, K3. }
    split.
    { change (connects (LRead false c 0 :: ls1 ++ ls2)) with (connects (ls1 ++ ls2)). rewrite connects_app. lia. }
    split; [|exact M3]. intros st c' r [X|X]; [now injection X|]. apply in_app_iff in X. destruct X as [X|X].
    + now apply Q3 in X.
    + eapply ST3, X.
Qed.

Theorem every_chunking fs chunks : Forall self_contained fs -> List.concat chunks = List.concat fs ->
  exists ls s tr, run init ls = Some (s, tr) /\ chunks_read ls = chunks /\ connects ls = 1%nat /\ never_stale tr /\
    frames_taken tr = fs /\ messages_taken tr = map message_of fs /\ acks tr = List.length fs /\ els (c_buf s) = [] /\
    c_mode s = RReading.
Proof.
  intros SC E.
  assert (S1 : exists s1 ev1, step init LConnect = Some (s1, ev1) /\ c_mode s1 = RReading /\ c_crashed s1 = false
     /\ c_inflight s1 = [] /\ els (c_buf s1) = []).
  { do 2 eexists. split; [reflexivity|]. repeat split. }
  destruct S1 as [s1 [ev1 [S1 [M1 [C1 [I1 E1]]]]]].
  destruct (feed chunks s1 fs [] M1 C1 I1 SC) as [ls [s [tr [R [K [N [ST M]]]]]]].
  { now rewrite E1, app_nil_r, E. }
  assert (RR : run init (LConnect :: ls) = Some (s, ev1 ++ tr)) by (cbn [run]; now rewrite S1, R).
  assert (CN : connects (LConnect :: ls) = 1%nat) by (change (connects (LConnect :: ls)) with (S (connects ls)); now rewrite N).
  destruct (arrives_from_reads _ _ _ _ RR) as [A1 A2].
  assert (NS : never_stale (ev1 ++ tr)).
  { intros st c X. destruct (A2 st c X) as [r [Y|Y]]; [discriminate|]. eapply ST, Y. }
  assert (A : arrived (ev1 ++ tr) = List.concat fs).
  { rewrite A1. change (chunks_read (LConnect :: ls)) with (chunks_read ls). now rewrite K. }
  destruct (chunking fs _ _ _ SC RR ltac:(lia) NS A M) as [F1 [F2 F3]].
  exists (LConnect :: ls), s, (ev1 ++ tr). destruct (acks_frames _ _ _ RR) as [AF _]. rewrite F1 in AF.
  repeat split; auto.
Qed.

(** ** C08 *)
Lemma junk_noise j l : Forall junk j -> noise l -> noise (j ++ l).
Proof. intros H N. induction H; [exact N|]. now apply noise_junk. Qed.

Lemma idle_reader ls : forall s s' tr, run s ls = Some (s', tr) -> c_mode s = RParsing -> passes ls = O ->
  c_crashed s' = false -> c_buf s' = c_buf s /\ c_mode s' = RParsing /\ unread tr.
Proof.
  induction ls as [|l ls IH]; intros s s' tr H M P C.
  - cbn in H. injection H as <- <-. auto using unread_nil.
  - cbn [run] in H. destruct (step s l) as [[s1 e1]|] eqn:E; [|discriminate].
    destruct (run s1 ls) as [[s2 e2]|] eqn:E2; [|discriminate]. injection H as <- <-.
    assert (C1 : c_crashed s1 = false).
    { destruct ls; [cbn in E2; congruence|]. eapply run_crashed; [exact E2|discriminate]. }
    apply step_reader in E; [|exact C1].
    destruct E as [l s1 ev RL EB UE [Q|[b1 [m1 [p1 [v1 [v2 [lo1 [Q1 Q2]]]]]]]]|s1 M0 _ _|st c room s1 M0 _ _|s1 M0 _ _|o a s1 M0 _ _ _
        |o a k s1 M0 _ _ _|o a b tl r p lo s1 M0 _ _ _ _ _|o a b tl r d s1 M0 _ _ _ _ _
        |o a f tail r d s1 ev2 ev3 M0 _ Ff _ _ _ _ SP|b m p v lo s1 ev M0 _ _ SP]; try congruence; try discriminate.
    destruct (IH _ _ _ E2 ltac:(congruence)) as [B [M1 U]]; auto.
    { unfold passes in *. cbn in P. destruct l; try exact P; discriminate. }
    rewrite B, EB. repeat split; auto; destruct UE as [U1 [U2 [U3 [U4 [U5 U6]]]]], U as [V1 [V2 [V3 [V4 [V5 V6]]]]].
    + now rewrite frames_taken_app, U1, V1.
    + now rewrite messages_taken_app, U2, V2.
    + now rewrite consumed_app, U3, V3.
    + now rewrite arrived_app, U4, V4.
    + now rewrite acks_app, U5, V5.
    + now rewrite spawned_app, U6, V6.
Qed.

Theorem resynchronises ls : forall s s' tr l f tail, run s ls = Some (s', tr) -> c_mode s = RParsing ->
  noise l -> frame f -> els (c_buf s) = l ++ f ++ tail -> passes ls = S (List.length l) -> c_crashed s' = false ->
  frames_taken tr = [f] /\ els (c_buf s') = tail /\ c_mode s' = RParsing.
Proof.
  induction ls as [|lb ls IH]; intros s s' tr l f tail H M N F E P C.
  - discriminate.
  - cbn [run] in H. destruct (step s lb) as [[s1 e1]|] eqn:ES; [|discriminate].
    destruct (run s1 ls) as [[s2 e2]|] eqn:E2; [|discriminate]. injection H as <- <-.
    assert (C1 : c_crashed s1 = false).
    { destruct ls; [cbn in E2; congruence|]. eapply run_crashed; [exact E2|discriminate]. }
    assert (P' : passes (lb :: ls) = ((match lb with LIter _ _ => 1 | _ => 0 end) + passes ls)%nat).
    { unfold passes. cbn. destruct lb; reflexivity. }
    rewrite P' in P. clear P'. rewrite frames_taken_app.
    destruct l as [|b l].
    { destruct (match lb with LIter _ _ => true | _ => false end) eqn:IL.
      - destruct lb; try discriminate.
        destruct (frame_is_acked s _ _ s1 e1 f tail M E F ES C1) as [F1 [_ [B1 [M1 _]]]].
        destruct (idle_reader _ _ _ _ E2 M1 ltac:(cbn in P; lia) C) as [B2 [M2 [U2 _]]].
        rewrite F1, U2, B2. auto.
      - apply step_reader in ES; [|exact C1].
        destruct ES as [l s1 ev RL EB [U1 _] [Q|[b1 [m1 [p1 [v1 [v2 [lo1 [Q1 Q2]]]]]]]]|s1 M0 _ _|st c room s1 M0 _ _|s1 M0 _ _|o a s1 M0 _ _ _
        |o a k s1 M0 _ _ _|o a b tl r p lo s1 M0 _ _ _ _ _|o a b tl r d s1 M0 _ _ _ _ _
        |o a f0 tail0 r d s1 ev2 ev3 M0 _ Ff _ _ _ _ SP|b m p v lo s1 ev M0 _ _ SP]; try congruence; try discriminate.
        rewrite U1. apply (IH _ _ _ [] f tail E2); auto; try congruence.
        destruct l; try discriminate; exact P. }
    (* the next byte is noise *)
    assert (SH : shape_of (els (c_buf s)) SReject /\ forall r d, decode (c_buf s) = Ok (r, d) ->
       exists l', skipn 1 (els d) = l' ++ f ++ tail /\ List.length l' = List.length l /\ noise l').
    { rewrite E. inversion N as [|b0 l0 J N0 E0|n rest l0 Hn Hx J N0 E0]; subst.
      - assert (SR : shape_of (b :: (l ++ f ++ tail)) SReject) by now apply sh_garbage.
        split; [exact SR|]. intros r d D. exists l.
        destruct (c_buf s) as [e sp] eqn:EB. cbn in E. subst e.
        rewrite (decode_garbage b (l ++ f ++ tail) sp J) in D. injection D as <- <-. auto.
      - assert (SR : shape_of (SOF :: n :: rest ++ (l0 ++ f ++ tail)) SReject) by now apply sh_damaged.
        cbn [app] in E |- *. rewrite <- app_assoc in E |- *. split; [exact SR|]. intros r d D.
        exists (removelast (n :: rest) ++ [x00] ++ l0).
        destruct (c_buf s) as [e sp] eqn:EB. cbn in E. subst e.
        assert (Ln : b2n n = List.length rest).
        { unfold b2n. rewrite Hn. apply Nat2N.id. }
        rewrite (decode_sof n (rest ++ l0 ++ f ++ tail) sp) in D by (rewrite app_length; lia).
        rewrite Ln, firstn_app, firstn_all, Nat.sub_diag in D. cbn [firstn] in D. rewrite app_nil_r in D.
        apply N.eqb_neq in Hx. rewrite Hx in D. injection D as <- <-.
        unfold zeroed. cbn [els]. replace (List.length rest + 2 - 1)%nat with (S (List.length rest)) by lia.
        cbn [set_nth skipn].
        assert (RL : n :: rest = removelast (n :: rest) ++ [last (n :: rest) x00]) by (apply app_removelast_last; discriminate).
        assert (LL : List.length (removelast (n :: rest)) = List.length rest).
        { pose proof (f_equal (@List.length byte) RL) as X. rewrite app_length in X. cbn [List.length] in X. lia. }
        change (n :: rest ++ l0 ++ f ++ tail) with ((n :: rest) ++ l0 ++ f ++ tail).
        rewrite RL at 1. rewrite <- app_assoc. cbn [app].
        split; [|split].
        + rewrite <- LL, set_nth_app_r. rewrite <- !app_assoc. reflexivity.
        + rewrite !app_length, LL. cbn. rewrite app_length. lia.
        + apply junk_noise; [exact J|]. apply (noise_junk x00); [|exact N0]. unfold junk. cbn. intuition discriminate. }
    destruct SH as [SH DD].
    apply step_reader in ES; [|exact C1].
    destruct ES as [lb s1 ev RL EB [U1 _] [Q|[b1 [m1 [p1 [v1 [v2 [lo1 [Q1 Q2]]]]]]]]|s1 M0 _ _|st c room s1 M0 _ _|s1 M0 _ _|o a s1 M0 E0 _ _
        |o a k s1 M0 S0 _ _|o a b1 tl r p lo s1 M0 E0 I0 _ _ _|o a b1 tl r d s1 M0 E0 S0 D B1 M1
        |o a f0 tail0 r d s1 ev2 ev3 M0 E0 Ff _ _ _ _ SP|b1 m p v lo s1 ev M0 _ _ SP]; try congruence; try discriminate.
    + rewrite U1. apply (IH _ _ _ (b :: l) f tail E2); auto; try congruence.
      destruct lb; try discriminate; exact P.
    + rewrite E0 in E. discriminate.
    + pose proof (shape_unique _ _ _ SH S0). discriminate.
    + rewrite E0 in SH. pose proof (shape_unique _ _ _ SH (sh_control _ _ I0)). discriminate.
    + destruct (DD r d D) as [l' [X [Y Z]]].
      apply (IH _ _ _ l' f tail E2); auto; try congruence. cbn in P. lia.
    + rewrite E0 in SH. pose proof (shape_unique _ _ _ SH (sh_frame _ _ Ff)). discriminate.
Qed.

(** ** C11 *)
Theorem callbacks_of_spawned ls s tr : run init ls = Some (s, tr) ->
  Permutation (called_back tr ++ c_callbacks s) (spawned tr).
Proof.
  revert ls s tr. apply (run_ind_from init (fun ls s tr => Permutation (called_back tr ++ c_callbacks s) (spawned tr))).
  - constructor.
  - intros ls s tr l s' ev R IH H. rewrite called_back_app, spawned_app.
    assert (Q : c_callbacks s' = c_callbacks s ++ spawned ev -> called_back ev = [] ->
      Permutation ((called_back tr ++ called_back ev) ++ c_callbacks s') (spawned tr ++ spawned ev)).
    { intros -> ->. rewrite app_nil_r, app_assoc. now apply Permutation_app_tail. }
    assert (N : forall (P : event -> Prop), Forall P ev -> (forall n r, ~ P (EvCallback n r)) -> (forall n r, ~ P (EvSpawn n r)) ->
      called_back ev = [] /\ spawned ev = []).
    { intros P F N1 N2. split; (eapply flat_map_none; [exact F|]); intros [] X; try reflexivity; exfalso; eauto using N1, N2; [eapply N1|eapply N2]; exact X. }
    apply step_inv in H. destruct H as
    [M|k T|data w t er|i F|w p again q W QQ|w i W|w i W|k i s' ev T E|k loop p T A|k n r T|stale chunk room M|M
    |o a s' ev M IC|i rcv b m pr vi lo p s' ev M Ip Ep Iv VC|b m pr vi lo s1 ev1 M FA SP];
      try (apply Q; conn_simpl; [cbn; now rewrite app_nil_r|reflexivity]).
    + apply Q; conn_simpl; destruct (mem i (c_open s)); cbn; rewrite ?app_nil_r; reflexivity.
    + apply expire_fields in E. destruct E as [F [_ V]]. destruct (N _ V) as [N1 N2]; [cbn; tauto|cbn; tauto|].
      apply Q; [|exact N1]. rewrite F, N2, app_nil_r. reflexivity.
    + conn_simpl. cbn. rewrite app_nil_r, <- app_assoc. etransitivity; [|exact IH]. apply Permutation_app_head.
      clear -T. revert k T. induction (c_callbacks s) as [|x l IH]; intros [|k] T; try discriminate.
      * cbn in T. injection T as ->. reflexivity.
      * cbn in T. unfold remove_nth in *. cbn [firstn skipn app] in *. etransitivity; [apply perm_swap|].
        apply perm_skip. apply (IH k T).
    + destruct IC as [E|E P|b0 tl r0 d0 E0 D0 L0|r0 d0 E0 D0 L0 M0|b0 tl r0 d0 E0 D0 L0|r0 d0 s2 ev2 _ D0 N0 _ _ DL C2|r0 d0 s2 ev2 s3 ev3 E0 D0 N0 N1 LE DL C2 SP];
        try (apply Q; conn_simpl; [cbn; now rewrite app_nil_r|reflexivity]).
      * apply deliver_fields in DL. destruct DL as [F [_ V]]. destruct (N _ V) as [X1 X2]; [cbn; tauto|cbn; tauto|].
        apply Q; [|exact X1]. rewrite F, X2, app_nil_r. reflexivity.
      * apply deliver_fields in DL. destruct DL as [F [_ V]].
        assert (X : called_back ev2 = [] /\ spawned ev2 = []).
        { split; (eapply flat_map_none; [exact V|]); intros [] X; try reflexivity; destruct X. }
        destruct X as [X1 X2]. pose proof (spawn_callback_fields _ _ _ _ SP) as [E3 V3].
        assert (Y : called_back ev3 = []) by (destruct V3 as [->|[n [r ->]]]; reflexivity).
        apply Q.
        -- conn_simpl. rewrite E3. conn_simpl. rewrite F. conn_simpl. rewrite !spawned_app, X2. cbn. now rewrite app_nil_r.
        -- rewrite !called_back_app, X1, Y. reflexivity.
    + apply visit_fields in VC. destruct VC as [F [_ V]]. destruct (N _ V) as [X1 X2]; [cbn; tauto|cbn; tauto|].
      apply Q; [|exact X1]. rewrite F, X2, app_nil_r. reflexivity.
    + pose proof (spawn_callback_fields _ _ _ _ SP) as [E3 V3].
      apply Q; [conn_simpl; rewrite E3; conn_simpl; rewrite spawned_app; cbn; now rewrite app_nil_r|].
      destruct V3 as [->|[n [r ->]]]; reflexivity.
Qed.

Lemma new_message_command d m c k r : new_message d = Ok m -> m_data m = Some (PCommand c k r) ->
  m_node m = nth 5 (els d) x00 /\ nth_error (els d) 3 = Some x04.
Proof.
  unfold new_message. intros H DM. destruct (idx (els d) 0) as [b0| |] eqn:I0; try discriminate. cbn [bind] in H.
  destruct (len d <=? 1)%nat; [injection H as <-; discriminate|].
  destruct (idx (els d) 1) as [b1| |]; try discriminate. cbn [bind] in H.
  destruct (idx (els d) 2) as [b2| |]; try discriminate. cbn [bind] in H.
  destruct (idx (els d) 3) as [b3| |] eqn:I3; try discriminate. cbn [bind] in H.
  assert (D : b3 = x04 \/ b3 <> x04) by (destruct b3; auto; right; discriminate).
  destruct D as [->|D].
  - destruct (idx (els d) 5) as [b5| |] eqn:I5; try discriminate. cbn [bind] in H.
    destruct (idx (els d) 6) as [b6| |]; try discriminate. cbn [bind] in H.
    destruct (sub d 7 _) as [p| |]; try discriminate. cbn [bind] in H.
    destruct (new_application_command_handler p) as [pl| |]; try discriminate. cbn [bind] in H.
    injection H as <-. cbn [m_node]. unfold idx in I5, I3. destruct (nth_error (els d) 5) eqn:N5; [|discriminate].
    injection I5 as <-. split; [symmetry; now apply nth_error_nth|].
    destruct (nth_error (els d) 3); [injection I3 as ->; reflexivity|discriminate].
  - exfalso. destruct b3; try contradiction; cbn [bind] in H;
    repeat match type of H with bind ?x _ = _ => destruct x; [cbn [bind] in H|discriminate|discriminate] end;
    try discriminate; injection H as <-; discriminate.
Qed.

Lemma spawn_report f m s s1 ev : self_contained f -> m = message_of f ->
  spawn_callback m s = (s1, ev) -> spawned ev = report_of f.
Proof.
  intros SC -> H. unfold report_of, message_of, sender, spawn_callback, content in *.
  destruct (byte_at f 3 =? 4)%N.
  - destruct (announced f) as [|c [|k data]]; try (injection H as <- <-; reflexivity).
    destruct (reports_new c k data); injection H as <- <-; reflexivity.
  - destruct (byte_at f 3 =? 2)%N; [destruct (new_discovered_nodes (announced f))|
      destruct (byte_at f 3 =? 65)%N; [destruct (new_protocol_info (skipn 4 (cleared f)))|]];
      injection H as <- <-; reflexivity.
Qed.

Theorem reports_spawned ls s tr : run init ls = Some (s, tr) -> controls_alone ls ->
  Forall self_contained (frames_taken tr) -> spawned tr = flat_map report_of (frames_taken tr).
Proof.
  intros R CA SC.
  assert (G : run init ls = Some (s, tr) -> controls_alone ls -> Forall self_contained (frames_taken tr) ->
    spawned tr = flat_map report_of (frames_taken tr) /\
    forall b m p v lo, c_mode s = RControl b m p v lo -> exists msg, m = Some msg /\ m_data msg = None).
  { clear. revert ls s tr. apply (run_ind_from init (fun ls s tr => controls_alone ls -> Forall self_contained (frames_taken tr) ->
      spawned tr = flat_map report_of (frames_taken tr) /\
      forall b m p v lo, c_mode s = RControl b m p v lo -> exists msg, m = Some msg /\ m_data msg = None)).
    - intros _ _. split; [reflexivity|discriminate].
    - intros ls s tr l s' ev R IH H CA SC. rewrite frames_taken_app in SC. apply Forall_app in SC. destruct SC as [SC SC'].
      assert (CA0 : controls_alone ls).
      { intros l1 o a l2 s0 tr0 b tl E R0 E0 I0. eapply (CA l1 o a (l2 ++ [l])); eauto. now rewrite E, <- app_assoc. }
      destruct (IH CA0 SC) as [I1 I2]. clear IH.
      rewrite spawned_app, frames_taken_app, flat_map_app, I1.
      destruct (c_crashed s') eqn:C.
      { destruct (step_crash_unread _ _ _ _ H C) as [U1 [_ [_ [_ [_ U6]]]]]. rewrite U1, U6. split; [reflexivity|].
        pose proof (step_alive _ _ _ _ H) as Ha. intros b m p v lo M. apply step_inv in H. destruct H as
          [M'|k T|data w t er|i F|w q again q' W QQ|w i W|w i W|k i s' ev T E|k loop q T A|k n r T|stale chunk room M'|M'
          |o a s' ev M' IC|i rcv b0 m0 pr vi lo0 q s' ev M' Ip Ep Iv VC|b0 m0 pr vi lo0 s1 ev1 M' FA SP];
          try (conn_simpl_in M; eapply I2, M).
        - discriminate.
        - apply expire_fields in E. destruct E as [F _]. rewrite F in M. conn_simpl_in M. eapply I2, M.
        - discriminate.
        - discriminate.
        - destruct IC as [E|E P|b0 tl r0 d0 E0 D0 L0|r0 d0 E0 D0 L0 M0|b0 tl r0 d0 E0 D0 L0|r0 d0 s2 ev2 _ D0 N0 _ _ DL C2|r0 d0 s2 ev2 s3 ev3 E0 D0 N0 N1 LE DL C2 SP];
            try (conn_simpl_in M; congruence).
          + conn_simpl_in C. congruence.
          + apply deliver_fields in DL. destruct DL as [F _]. rewrite F in M. conn_simpl_in M. congruence.
          + apply deliver_fields in DL. destruct DL as [F _]. apply spawn_callback_fields in SP. destruct SP as [E3 _].
            conn_simpl_in M. rewrite E3, F in M. conn_simpl_in M. congruence.
        - apply visit_fields in VC. destruct VC as [F _]. rewrite F in M. conn_simpl_in M. injection M as <- <- <- <- <-. eapply I2, M'.
        - discriminate. }
      pose proof H as H0. apply step_reader in H; [|exact C].
      destruct H as [l s' ev RL EB [U1 [_ [_ [_ [_ U6]]]]] [Q|[b1 [m1 [p1 [v1 [v2 [lo1 [Q1 Q2]]]]]]]]|s' M0 M1 EB|st c room s' M0 M1 EB|s' M0 M1 EB|o a s' M0 EE M1 EB
        |o a kk s' M0 SH M1 EB|o a b tl r p lo s' M0 EE I0 D0 EB M1|o a b tl r d s' M0 EE SH _ EB M1
        |o a f tail r d s' ev2 ev3 M0 EE Ff D EB M1 [U1 [U2 [_ [U4 [_ U6]]]]] SP|b m p v lo s' ev M0 M1 EB SP];
        try (split; [reflexivity|intros; congruence]).
      + rewrite U1, U6. split; [reflexivity|]. intros b m p v lo M. rewrite Q in M. eapply I2, M.
      + rewrite U1, U6. split; [reflexivity|]. intros b m p v lo M. rewrite Q2 in M. injection M as <- <- <- <- <-. eapply I2, Q1.
      + split; [reflexivity|]. intros b1 m1 p1 v1 lo1 M. rewrite M1 in M. injection M as <- <- <- <- <-.
        assert (tl = []) as -> by (eapply (CA ls o a []); eauto).
        assert (SH : shape_of (els (c_buf s)) SControl) by (rewrite EE; now apply sh_control).
        rewrite (decode_by_shape _ _ SH) in D0. unfold ctl, new_message, len, idx in D0. rewrite EE in D0.
        cbn in D0. injection D0 as <-. cbn. eauto.
      + split; [|intros; congruence].
        rewrite !frames_taken_app, U1 in SC' |- *. pose proof (spawn_reads _ _ _ _ SP) as [F3 _]. rewrite F3 in SC' |- *.
        cbn in SC' |- *. inversion SC' as [|f0 fs0 SCf _]; subst.
        rewrite !spawned_app, U6. cbn. rewrite !app_nil_r. f_equal.
        eapply (spawn_report f (d_msg r)); [exact SCf| |exact SP].
        destruct (c_buf s) as [e sp] eqn:BB. cbn in EE. subst e.
        apply (self_contained_message _ _ _ _ _ SCf D).
      + split; [|intros; congruence]. destruct (I2 _ _ _ _ _ M0) as [msg [-> DM]].
        unfold spawn_callback in SP. rewrite DM in SP. injection SP as _ <-. reflexivity. }
  apply (G R CA SC).
Qed.

Lemma iter_enabled s o a : c_mode s = RParsing -> c_crashed s = false ->
  exists s' ev, step s (LIter o a) = Some (s', ev).
Proof.
  intros M C. unfold step. rewrite C, M. destruct (iteration o a s) as [s' ev] eqn:E. eauto.
Qed.

Theorem callback_has_frame ls s tr n r : run init ls = Some (s, tr) -> controls_alone ls ->
  Forall self_contained (frames_taken tr) -> In (n, r) (called_back tr) ->
  exists f, In f (frames_taken tr) /\ frame f /\ report_of f = [(n, r)].
Proof.
  intros R CA SC I. pose proof (callbacks_of_spawned _ _ _ R) as P. rewrite (reports_spawned _ _ _ R CA SC) in P.
  assert (X : In (n, r) (flat_map report_of (frames_taken tr))).
  { eapply Permutation_in; [exact P|]. apply in_app_iff. now left. }
  apply in_flat_map in X. destruct X as [f [If Hf]]. exists f. split; [exact If|]. split.
  - rewrite Forall_forall in SC. apply SC, If.
  - unfold report_of in *. destruct (content f) as [[]| |]; try destruct Hf as [Hf|[]]; try destruct Hf. reflexivity.
Qed.
