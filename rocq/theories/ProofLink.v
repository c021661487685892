(** Matching of responses, control bytes, re-sends and the Connected flag. *)
From Verif Require Import ModelBase ModelReports ModelSerial ModelConnection
  SpecFrame SpecDecode SpecConnection ProofBase ProofSerial ProofMessage ProofConnection.
From Coq Require Import Permutation ZifyBool ZifyNat ZifyN Arith.
Ltac Zify.zify_post_hook ::= Z.div_mod_to_equations.

(** ** Matching (C27) *)
Lemma match_byte_ok message b k r : match_byte_at message b k = Ok r ->
  (r = true <-> at_or_any message b k).
Proof.
  unfold match_byte_at, at_or_any. destruct (beq_spec b x00) as [->|N].
  { intros H. injection H as <-. tauto. }
  destruct (Nat.ltb_spec (List.length message) k) as [L|L].
  { intros H. injection H as <-. split; [discriminate|]. intros [E|E]; [contradiction|].
    assert (nth_error message k = None) by (apply nth_error_None; lia). congruence. }
  unfold idx. destruct (nth_error message k) as [x|]; [|discriminate]. cbn. intros H. injection H as <-.
  rewrite beq_true. split; [intros ->; auto|]. intros [E|E]; [contradiction|congruence].
Qed.
Lemma match_byte_total message b k : (k < List.length message)%nat ->
  exists r, match_byte_at message b k = Ok r.
Proof.
  intros H. unfold match_byte_at. destruct (beq b x00); [eauto|].
  destruct (Nat.ltb_spec (List.length message) k); [lia|].
  unfold idx. destruct (nth_error_ex _ _ H) as [x ->]. cbn. eauto.
Qed.

Lemma package_function i data w t er : p_function (new_send_package i data w t er) = nth 0 data x00.
Proof. destruct data; reflexivity. Qed.
Lemma package_node i data w t er : p_node (new_send_package i data w t er) = nth 1 data x00.
Proof. destruct data as [|a [|b r]]; reflexivity. Qed.

Theorem match_decision i data w t er f r : pkg_match (new_send_package i data w t er) f = Ok r ->
  (r = true <-> answered_by data er f).
Proof.
  unfold pkg_match, answered_by. rewrite package_function, package_node.
  change (p_class (new_send_package i data w t er))
    with (if (4 <? List.length data)%nat then nth 3 data x00 else x00).
  change (p_report (new_send_package i data w t er)) with er.
  set (fn := nth 0 data x00). set (nd := nth 1 data x00).
  set (cl := if (4 <? List.length data)%nat then nth 3 data x00 else x00).
  destruct (match_byte_at f fn 3) as [b3|e|] eqn:E3; cbn [bind]; try discriminate.
  apply match_byte_ok in E3.
  set (ok := (if b3 then Ok true else _)).
  assert (OK : forall b, ok = Ok b -> (b = true <-> (at_or_any f fn 3 \/ (fn = x13 /\ nth_error f 3 = Some x04)))).
  { intros b. unfold ok. destruct b3.
    - intros X. injection X as <-. tauto.
    - destruct (beq_spec fn x13) as [E|N].
      + intros X. apply match_byte_ok in X. rewrite X. unfold at_or_any at 1. rewrite E3 at 1 || idtac.
        split.
        * intros [Y|Y]; [discriminate|right; auto].
        * intros [Y|[_ Y]]; [|now right]. apply E3 in Y. discriminate.
      + intros X. injection X as <-. split; [discriminate|]. intros [Y|[Y _]]; [now apply E3 in Y|contradiction]. }
  destruct ok as [b|e|]; cbn [bind]; try discriminate. specialize (OK b eq_refl).
  destruct b; cbn [negb].
  2:{ destruct (idx f 3); cbn [bind]; try discriminate. intros X. injection X as <-. intuition discriminate. }
  destruct (beq_spec fn x41) as [E41|N41].
  { intros X. injection X as <-. tauto. }
  destruct (match_byte_at f nd 5) as [b5|e|] eqn:E5; cbn [bind]; try discriminate. apply match_byte_ok in E5.
  destruct b5; cbn [negb].
  2:{ destruct (idx f 5); cbn [bind]; try discriminate. intros X. injection X as <-. intuition discriminate. }
  destruct (match_byte_at f cl 7) as [b7|e|] eqn:E7; cbn [bind]; try discriminate. apply match_byte_ok in E7.
  destruct b7; cbn [negb].
  2:{ destruct (idx f 7); cbn [bind]; try discriminate. intros X. injection X as <-. intuition discriminate. }
  destruct (match_byte_at f er 8) as [b8|e|] eqn:E8; cbn [bind]; try discriminate. apply match_byte_ok in E8.
  destruct b8; cbn [negb].
  2:{ destruct (idx f 8); cbn [bind]; try discriminate. intros X. injection X as <-. intuition discriminate. }
  intros X. injection X as <-. tauto.
Qed.

Theorem match_total p f : (9 <= List.length f)%nat -> exists r, pkg_match p f = Ok r.
Proof.
  intros H. unfold pkg_match.
  assert (I : forall k, (k <= 8)%nat -> exists x, idx f k = Ok x).
  { intros k Hk. exists (nth k f x00). apply idx_lt. lia. }
  destruct (match_byte_total f (p_function p) 3) as [b3 ->]; [lia|]. cbn [bind].
  assert (OK : exists ok, (if b3 then Ok true else if beq (p_function p) x13 then match_byte_at f x04 3 else Ok false) = Ok ok).
  { destruct b3; [eauto|]. destruct (beq (p_function p) x13); [|eauto]. apply match_byte_total. lia. }
  destruct OK as [ok ->]. cbn [bind]. destruct ok; cbn [negb].
  2:{ destruct (I 3%nat) as [x ->]; [lia|]. cbn. eauto. }
  destruct (beq (p_function p) x41); [eauto|].
  destruct (match_byte_total f (p_node p) 5) as [b5 ->]; [lia|]. cbn [bind]. destruct b5; cbn [negb].
  2:{ destruct (I 5%nat) as [x ->]; [lia|]. cbn. eauto. }
  destruct (match_byte_total f (p_class p) 7) as [b7 ->]; [lia|]. cbn [bind]. destruct b7; cbn [negb].
  2:{ destruct (I 7%nat) as [x ->]; [lia|]. cbn. eauto. }
  destruct (match_byte_total f (p_report p) 8) as [b8 ->]; [lia|]. cbn [bind]. destruct b8; cbn [negb].
  2:{ destruct (I 8%nat) as [x ->]; [lia|]. cbn. eauto. }
  eauto.
Qed.

(** A frame of ten or more bytes is matched on its own bytes only. *)
Lemma clear_at_other f : forall i k, i <> k -> nth_error (clear_at i f) k = nth_error f k.
Proof. induction f as [|x f IH]; intros [|i] [|k] H; cbn; auto; congruence. Qed.
Lemma clear_at_length i f : List.length (clear_at i f) = List.length f.
Proof. revert i. induction f as [|x f IH]; intros [|i]; cbn; auto. Qed.

Lemma answered_by_local data er f g :
  (forall k, (k <= 8)%nat -> nth_error f k = nth_error g k) ->
  answered_by data er f <-> answered_by data er g.
Proof. intros H. unfold answered_by, at_or_any. rewrite !H by lia. reflexivity. Qed.

Theorem matched_on_own_bytes data er f tail : (10 <= List.length f)%nat ->
  answered_by data er (clear_at (List.length f - 1) f ++ tail) <-> answered_by data er f.
Proof.
  intros H. apply answered_by_local. intros k Hk.
  rewrite nth_error_app1 by (rewrite clear_at_length; lia). apply clear_at_other. lia.
Qed.

(** ** Who gets a message *)
Lemma deliver_who buf m accepts ps s s' ev i m' :
  deliver buf m accepts ps s = (s', ev) -> In (EvDeliver i m') ev ->
  m' = m /\ In i (c_open s) /\ exists p, In p ps /\ p_id p = i /\ pkg_match p buf = Ok true.
Proof.
  revert s s' ev. induction ps as [|p r IH]; intros s s' ev H Hin; cbn [deliver] in H.
  - injection H as <- <-. destruct Hin.
  - destruct (pkg_match p buf) as [[|]|e|] eqn:PM.
    + destruct (close_pkg (p_id p) s) as [s1 ev1] eqn:E1.
      pose proof (close_pkg_events _ _ _ _ E1) as V1.
      apply close_pkg_chan in E1. destruct E1 as [[_ [Inc _]] _].
      set (s2 := set_c_inflight (del_pkg (p_id p) (c_inflight s1)) s1) in *.
      destruct (deliver buf m accepts r s2) as [s3 ev3] eqn:E3.
      assert (R3 : In (EvDeliver i m') ev3 -> m' = m /\ In i (c_open s) /\
                exists q, In q (p :: r) /\ p_id q = i /\ pkg_match q buf = Ok true).
      { intros X. destruct (IH _ _ _ E3 X) as [-> [O [q [Hq Q]]]].
        split; [reflexivity|]. split; [now apply Inc|]. exists q. split; [now right|exact Q]. }
      assert (R1 : ~ In (EvDeliver i m') ev1).
      { destruct V1 as [->| ->]; cbn; intuition discriminate. }
      destruct (mem (p_id p) (c_open s) && mem (p_id p) accepts && negb (mem (p_id p) (c_fetch s))) eqn:T.
      * apply andb_prop in T. destruct T as [T _]. apply andb_prop in T. destruct T as [T _]. apply mem_In in T.
        assert (X : ev = [EvDeliver (p_id p) m; EvCrash] \/ ev = EvDeliver (p_id p) m :: ev1 ++ ev3).
        { destruct (p_want p), m; injection H as <- <-; auto. }
        assert (Y : EvDeliver (p_id p) m = EvDeliver i m' \/ In (EvDeliver i m') ev3).
        { destruct X as [->| ->].
          - destruct Hin as [E|[E|[]]]; [auto|discriminate].
          - destruct Hin as [E|Hin]; [auto|]. apply in_app_iff in Hin. tauto. }
        destruct Y as [E|Y]; [|now apply R3]. injection E as <- <-. split; [reflexivity|]. split; [exact T|].
        exists p. split; [now left|auto].
      * injection H as <- <-. apply in_app_iff in Hin. tauto.
    + destruct (IH _ _ _ H Hin) as [-> [O [q [Hq Q]]]]. split; [reflexivity|]. split; [exact O|].
      exists q. split; [now right|exact Q].
    + injection H as <- <-. destruct Hin as [E|[]]. discriminate.
    + injection H as <- <-. destruct Hin as [E|[]]. discriminate.
Qed.

Lemma step_deliver s l s' ev i m : step s l = Some (s', ev) -> In (EvDeliver i m) ev ->
  exists r d, decode (c_buf s) = Ok (r, d) /\ m = d_msg r /\ (2 <= d_len r <= Z.of_nat (List.length (els d)))%Z /\
    In i (c_open s) /\ exists p, In p (c_inflight s) /\ p_id p = i /\ pkg_match p (els d) = Ok true.
Proof.
  intros H Hin. apply step_inv in H.
  assert (NV : forall ev, Forall visit_event ev -> ~ In (EvDeliver i m) ev).
  { intros e0 V X. rewrite Forall_forall in V. now apply V in X. }
  destruct H; try (exfalso; cbn in Hin; intuition discriminate).
  - exfalso. destruct (mem i0 (c_open s)); cbn in Hin; intuition discriminate.
  - exfalso. unfold expire in H0. conn_simpl_in H0. destruct (find_pkg i0 (c_inflight s)).
    + apply close_pkg_events in H0. destruct H0 as [->| ->]; cbn in Hin; intuition discriminate.
    + injection H0 as <- <-. destruct Hin.
  - assert (G : forall r d s2 ev2, els (c_buf s) <> [] -> decode (c_buf s) = Ok (r, d) ->
       d_len r <> 1%Z -> d_len r <> (-1)%Z -> (d_len r <= Z.of_nat (List.length (els d)))%Z ->
       deliver (els d) (d_msg r) accepts (pick order (c_inflight s)) (set_c_buf d s) = (s2, ev2) ->
       In (EvDeliver i m) ev2 ->
       exists r d, decode (c_buf s) = Ok (r, d) /\ m = d_msg r /\
         (2 <= d_len r <= Z.of_nat (List.length (els d)))%Z /\ In i (c_open s) /\
         exists p, In p (c_inflight s) /\ p_id p = i /\ pkg_match p (els d) = Ok true).
    { intros r d s2 ev2 Hne D N1 N2 L DL Hi. destruct (deliver_who _ _ _ _ _ _ _ _ _ DL Hi) as [-> [O [p [Hp Q]]]].
      exists r, d. split; [exact D|]. split; [reflexivity|]. split.
      - destruct (decode_classifies _ _ _ D) as [_ [_ [_ [_ C]]]].
        assert (LL : List.length (els d) = List.length (els (c_buf s))).
        { destruct (decode_effect _ _ _ D) as [_ [->|[n [rest [_ [_ ->]]]]]]; [reflexivity|].
          apply set_nth_length. }
        rewrite LL in *. lia.
      - split; [exact O|]. exists p. split; [now apply pick_In in Hp|exact Q]. }
    destruct H0; try (exfalso; cbn in Hin; intuition discriminate).
    + eapply G; eassumption.
    + eapply G; try eassumption. apply in_app_iff in Hin. destruct Hin as [Hin|Hin]; [exact Hin|].
      exfalso. apply in_app_iff in Hin. apply spawn_callback_fields in H7.
      destruct H7 as [_ [->|[n [rr ->]]]]; cbn in Hin; intuition discriminate.
  - exfalso. apply visit_fields in H3. destruct H3 as [_ [_ V]]. eapply NV; eassumption.
  - exfalso. apply spawn_callback_fields in H1. apply in_app_iff in Hin.
    destruct H1 as [_ [->|[n [rr ->]]]]; cbn in Hin; intuition discriminate.
Qed.

(** Every delivered message answers the request it is delivered to, the request
    was issued before, and was waiting for an answer. *)
Theorem delivery_answers ls s tr l s' ev i m : run init ls = Some (s, tr) ->
  step s l = Some (s', ev) -> In (EvDeliver i m) ev ->
  exists data w t er r d, In (EvCall i data w t er) tr /\ decode (c_buf s) = Ok (r, d) /\
    m = d_msg r /\ answered_by data er (els d) /\
    exists k, shape_of (els (c_buf s)) (SFrame k) /\ d_len r = Z.of_nat k.
Proof.
  intros R H Hin. destruct (step_deliver _ _ _ _ _ _ H Hin) as [r [d [D [-> [L [O [p [Hp [E PM]]]]]]]]].
  destruct (known_issued _ _ _ R p (or_introl Hp)) as [data [w [t [er [Hc Ep]]]]].
  rewrite E in Hc. exists data, w, t, er, r, d. split; [exact Hc|]. split; [exact D|]. split; [reflexivity|].
  split.
  - rewrite Ep in PM. now apply (match_decision _ _ _ _ _ _ _ PM).
  - destruct (decode_classifies _ _ _ D) as [_ [_ [_ [C _]]]].
    assert (LL : List.length (els d) = List.length (els (c_buf s))).
    { destruct (decode_effect _ _ _ D) as [_ [->|[n [rest [_ [_ ->]]]]]]; [reflexivity|].
      apply set_nth_length. }
    apply C. lia.
Qed.

(** ** Crashes while delivering (C35) *)
Lemma match_not_fail p f e : pkg_match p f <> Fail e.
Proof.
  unfold pkg_match.
  assert (I : forall k e0, idx f k <> Fail e0) by (intros k e0; unfold idx; destruct (nth_error f k); discriminate).
  assert (M : forall b k e0, match_byte_at f b k <> Fail e0).
  { intros b k e0. unfold match_byte_at. destruct (beq b x00); [discriminate|].
    destruct (List.length f <? k)%nat; [discriminate|]. unfold idx. destruct (nth_error f k); discriminate. }
  repeat match goal with
  | |- context[bind (match_byte_at ?a ?b ?c) _] =>
      let E := fresh in destruct (match_byte_at a b c) eqn:E; cbn [bind]; [|now apply M in E|discriminate]
  | |- context[bind (idx ?a ?b) _] =>
      let E := fresh in destruct (idx a b) eqn:E; cbn [bind]; [|now apply I in E|discriminate]
  | |- context[if ?b then _ else _] => destruct b; cbn [bind negb]
  | |- context[match_byte_at ?a ?b ?c] =>
      let E := fresh in destruct (match_byte_at a b c) eqn:E; cbn [bind]; [|now apply M in E|discriminate]
  | |- _ => discriminate
  end.
Qed.

Lemma deliver_crash buf m accepts ps s s' ev :
  deliver buf m accepts ps s = (s', ev) -> c_crashed s = false -> c_crashed s' = true ->
  (exists p, In p ps /\ pkg_match p buf = Panic) \/
  (m = None /\ exists p, In p ps /\ pkg_match p buf = Ok true /\ p_want p = WaitReport /\
                    In (EvDeliver (p_id p) None) ev).
Proof.
  revert s s' ev. induction ps as [|p r IH]; intros s s' ev H Hc Hc'; cbn [deliver] in H.
  - injection H as <- <-. congruence.
  - destruct (pkg_match p buf) as [[|]|e|] eqn:PM.
    + destruct (close_pkg (p_id p) s) as [s1 ev1] eqn:E1.
      apply close_pkg_chan in E1. destruct E1 as [_ [C1 _]].
      set (s2 := set_c_inflight (del_pkg (p_id p) (c_inflight s1)) s1) in *.
      assert (C2 : c_crashed s2 = false) by (unfold s2; conn_simpl; congruence).
      destruct (deliver buf m accepts r s2) as [s3 ev3] eqn:E3.
      assert (R3 : forall ev0, (forall e, In e ev3 -> In e ev0) -> c_crashed s3 = true ->
         (exists q, In q (p :: r) /\ pkg_match q buf = Panic) \/
         (m = None /\ exists q, In q (p :: r) /\ pkg_match q buf = Ok true /\ p_want q = WaitReport /\
              In (EvDeliver (p_id q) None) ev0)).
      { intros ev0 Hev X. destruct (IH _ _ _ E3 C2 X) as [[q [Hq Q]]|[M [q [Hq [Q1 [Q2 Q3]]]]]].
        - left. exists q. split; [now right|exact Q].
        - right. split; [exact M|]. exists q. split; [now right|auto]. }
      destruct (mem (p_id p) (c_open s) && mem (p_id p) accepts && negb (mem (p_id p) (c_fetch s))).
      * destruct (p_want p) eqn:W, m as [msg|]; injection H as <- <-;
          try (apply R3; [intros e He; right; apply in_app_iff; now right|exact Hc']).
        right. split; [reflexivity|]. exists p. split; [now left|]. split; [exact PM|]. split; [exact W|now left].
      * injection H as <- <-. apply R3; [intros e He; apply in_app_iff; now right|exact Hc'].
    + destruct (IH _ _ _ H Hc Hc') as [[q [Hq Q]]|[M [q [Hq Q]]]].
      * left. exists q. split; [now right|exact Q].
      * right. split; [exact M|]. exists q. split; [now right|exact Q].
    + now apply match_not_fail in PM.
    + left. exists p. split; [now left|exact PM].
Qed.

Theorem decoded_frames_do_not_crash s order accepts s' ev :
  step s (LIter order accepts) = Some (s', ev) -> (9 <= List.length (els (c_buf s)))%nat ->
  (exists r d, decode (c_buf s) = Ok (r, d) /\ (d_msg r <> None \/
     forall p, In p (c_inflight s) -> p_want p <> WaitReport)) -> c_crashed s' = false.
Proof.
  intros H L [r [d [D OK]]]. pose proof (step_alive _ _ _ _ H) as Hc. apply step_inv in H.
  inversion H as [| | | | | | | | | | | |o a s0 e0 M IC| |]; subst.
  assert (G : forall r0 d0 s2 ev2, decode (c_buf s) = Ok (r0, d0) ->
     deliver (els d0) (d_msg r0) accepts (pick order (c_inflight s)) (set_c_buf d0 s) = (s2, ev2) ->
     c_crashed s2 = false).
  { intros r0 d0 s2 ev2 D0 DL. rewrite D in D0. injection D0 as <- <-.
    destruct (c_crashed s2) eqn:C2; [exfalso|reflexivity].
    destruct (deliver_crash _ _ _ _ _ _ _ DL Hc C2) as [[p [Hp P]]|[Mn [p [Hp [P1 [P2 P3]]]]]].
    - assert (LL : List.length (els d) = List.length (els (c_buf s))).
      { destruct (decode_effect _ _ _ D) as [_ [->|[n [rest [_ [_ ->]]]]]]; [reflexivity|].
        apply set_nth_length. }
      destruct (match_total p (els d)) as [x X]; [lia|congruence].
    - destruct OK as [OK|OK]; [contradiction|]. apply pick_In in Hp. now apply (OK p Hp). }
  destruct IC as [E|E P|b0 tl r0 d0 _ _ _|r0 d0 _ _ _ _|b0 tl r0 d0 _ _ _|r0 d0 s2 ev2 _ D0 _ _ _ DL C2|r0 d0 s2 ev2 s3 ev3 _ D0 _ _ _ DL C2 SP];
    try exact Hc.
  - congruence.
  - apply (G _ _ _ _ D0 DL).
  - apply spawn_callback_fields in SP. destruct SP as [-> _]. conn_simpl. exact C2.
Qed.

(** ** Control bytes (C34) *)
Lemma new_message_start d m : new_message d = Ok m -> idx (els d) 0 = Ok (m_start m).
Proof.
  unfold new_message. intros H.
  repeat match type of H with
  | bind ?x _ = _ => let E := fresh "E" in destruct x eqn:E; cbn [bind] in H; try discriminate H
  | (if ?c then _ else _) = _ => destruct c
  | match ?c with _ => _ end = _ => destruct c; try discriminate H
  end; try (injection H as <-; cbn [m_start]; congruence).
Qed.

Lemma control_message d r d' : decode d = Ok (r, d') -> d_len r = 1%Z ->
  exists b tl, els d = b :: tl /\ In b [ACK; NAK; CAN] /\ d' = d /\ forall m, d_msg r = Some m -> m_start m = b.
Proof.
  intros D L. destruct (decode_classifies _ _ _ D) as [_ [_ [[C _] _]]]. specialize (C L).
  inversion C as [|b l Hb E| | | |f t Hf E E2]; subst.
  - exists b, l. split; [reflexivity|]. split; [exact Hb|].
    rewrite (decode_by_shape _ _ C) in D. unfold ctl in D.
    destruct (new_message d) as [m|e|] eqn:NM; try discriminate; injection D as <- <-; (split; [reflexivity|]).
    + intros m0 X. injection X as <-. apply new_message_start in NM. rewrite <- E in NM. cbn in NM. congruence.
    + discriminate.
Qed.

Definition control_mode (s : conn) : Prop :=
  match c_mode s with
  | RControl b m _ _ _ => In b [ACK; NAK; CAN] /\ (exists tl, els (c_buf s) = b :: tl) /\
                          forall msg, m = Some msg -> m_start msg = b
  | _ => True
  end.
Lemma control_mode_inv ls s tr : run init ls = Some (s, tr) -> control_mode s.
Proof.
  revert ls s tr. apply (run_ind_from init (fun ls s tr => control_mode s)).
  - exact I.
  - intros ls s tr l s' ev _ IH H. apply step_inv in H. unfold control_mode in *.
    destruct H; conn_simpl; try exact IH; try exact I.
    + apply expire_fields in H0. destruct H0 as [-> _]. conn_simpl. exact IH.
    + destruct H0 as [|E P|b0 tl r0 d0 E0 D0 L0|r0 d0 E0 D0 L0 M0|b0 tl r0 d0 E0 D0 L0|r0 d0 s2 ev2 _ D0 _ _ _ DL C2|r0 d0 s2 ev2 s3 ev3 _ D0 _ _ _ DL C2 SP];
        conn_simpl; rewrite ?H; try exact I.
      * destruct (control_message _ _ _ D0 L0) as [b [tl0 [E1 [E2 [-> E3]]]]]. rewrite E0 in *.
        injection E1 as <- <-. eauto.
      * apply deliver_fields in DL. destruct DL as [-> _]. conn_simpl. now rewrite H.
      * apply spawn_callback_fields in SP. destruct SP as [-> _]. apply deliver_fields in DL.
        destruct DL as [-> _]. conn_simpl. now rewrite H.
    + apply visit_fields in H3. destruct H3 as [-> _]. conn_simpl. rewrite H in IH. exact IH.
Qed.

(** What the visit of one pending command does, for each control byte. *)
Theorem visit_effect ls s tr j rcv s' ev b m present visited loop :
  run init ls = Some (s, tr) -> c_mode s = RControl b m present visited loop ->
  step s (LVisit j rcv) = Some (s', ev) ->
  (b = NAK -> c_last s = Some j -> c_crashed s' = false ->
     c_inflight s' = del_pkg j (c_inflight s) /\ c_open s' = remove_id j (c_open s) /\
     (exists l, written tr = l ++ [j]) /\
     forall k, replies k ev = if (mem j (c_open s) && (j =? k)%nat)%bool then [Closed] else []) /\
  (~ (b = NAK /\ c_last s = Some j) ->
     c_inflight s' = c_inflight s /\ c_open s' = c_open s /\ forall k, replies k ev = []).
Proof.
  intros R M H. pose proof (control_mode_inv _ _ _ R) as CM. unfold control_mode in CM. rewrite M in CM.
  destruct CM as [Hb [_ Hm]]. apply step_inv in H.
  inversion H as [| | | | | | | | | | | | |j' rcv' b' m' pr vi lo p s0 e0 M' Hp Ej Hv VC|]; subst.
  rewrite M in M'. injection M' as <- <- <- <- <-.
  assert (RC0 : forall s0 s1 ev1, recv_case b s0 s1 ev1 ->
     (forall k, replies k ev1 = []) /\ c_open s1 = c_open s0 /\ c_inflight s1 = c_inflight s0).
  { intros s0 s1 ev1 X. destruct X; (split; [reflexivity|split; reflexivity]). }
  assert (NK : forall msg, m = Some msg -> is_nak msg = beq b NAK).
  { intros msg X. unfold is_nak. now rewrite (Hm msg X). }
  destruct VC as [L|s1 ev1 L RC Mn|s1 ev1 msg s2 ev2 L RC Mn K CP|s1 ev1 msg L RC Mn K|s1 ev1 msg L RC Mn K1 K2];
    conn_simpl_in L; try (destruct (RC0 _ _ _ RC) as [RE [RO RI]]; conn_simpl_in RO; conn_simpl_in RI).
  - split; [intros _ X; contradiction|]. intros _. conn_simpl. auto.
  - split; [intros _ _ X; conn_simpl_in X; discriminate|]. intros _. conn_simpl. split; [exact RI|].
    split; [exact RO|]. intros k. rewrite replies_app, RE. reflexivity.
  - rewrite (NK msg Mn) in K. apply beq_true in K. subst b. split; [|tauto].
    intros _ _ _. unfold close_pkg in CP. conn_simpl_in CP. rewrite RI, RO in CP.
    assert (W : exists l, written tr = l ++ [p_id p]) by (eapply last_written; eassumption).
    destruct (mem (p_id p) (c_open s)) eqn:O; injection CP as <- <-; conn_simpl.
    + split; [reflexivity|]. split; [reflexivity|]. split; [exact W|]. intros k.
      rewrite replies_app, RE, replies_close. reflexivity.
    + split; [reflexivity|]. split.
      * unfold remove_id. rewrite RO. clear - O. apply mem_not_In in O.
        induction (c_open s) as [|x l IH]; [reflexivity|]. cbn. destruct (Nat.eqb_spec x (p_id p)).
        -- exfalso. apply O. now left.
        -- cbn. f_equal. apply IH. intros X. apply O. now right.
      * split; [exact W|]. intros k. rewrite replies_app, RE. reflexivity.
  - assert (NB : b <> NAK).
    { intros ->. unfold is_can in K. rewrite (Hm msg Mn) in K. discriminate. }
    split; [intros X; contradiction|]. intros _. conn_simpl. split; [exact RI|]. split; [exact RO|].
    intros k. rewrite replies_app, RE. reflexivity.
  - assert (NB : b <> NAK).
    { intros ->. rewrite (NK msg Mn) in K1. discriminate. }
    split; [intros X; contradiction|]. intros _. auto.
Qed.

(** No other step of the handling of a control byte touches the pending table
    or a reply channel. *)
Theorem control_start_end_effect s l s' ev : step s l = Some (s', ev) ->
  match l with
  | LControlEnd => True
  | LIter _ _ => shape_of (els (c_buf s)) SControl
  | _ => False
  end ->
  c_crashed s' = false ->
  c_inflight s' = c_inflight s /\ c_open s' = c_open s /\ c_last s' = c_last s /\ c_sendq s' = c_sendq s /\
  forall k, replies k ev = [].
Proof.
  intros H HL Hc'. pose proof (step_alive _ _ _ _ H) as Hc. apply step_inv in H.
  destruct H; try contradiction.
  - assert (X : forall r d, decode (c_buf s) = Ok (r, d) -> d_len r = 1%Z).
    { intros r d D. exact (decode_shape _ _ _ _ D HL). }
    destruct H0 as [E|E P|b0 tl r0 d0 E0 D0 L0|r0 d0 E0 D0 L0 M0|b0 tl r0 d0 E0 D0 L0|r0 d0 s2 ev2 _ D0 N0 _ _ DL C2|r0 d0 s2 ev2 s3 ev3 _ D0 N0 _ _ DL C2 SP].
    + conn_simpl. auto.
    + conn_simpl_in Hc'. discriminate.
    + conn_simpl. auto.
    + apply X in D0. contradiction.
    + apply X in D0. lia.
    + apply X in D0. contradiction.
    + apply X in D0. contradiction.
  - apply spawn_callback_fields in H1. destruct H1 as [-> V]. conn_simpl.
    repeat (split; [reflexivity|]). intros k. rewrite replies_app.
    destruct V as [->|[n [r ->]]]; reflexivity.
Qed.

Lemma step_visit_last s j rcv s' ev : step s (LVisit j rcv) = Some (s', ev) ->
  c_last s' = c_last s /\ In j (map p_id (c_inflight s)) /\
  exists b m pr vi lo, c_mode s = RControl b m pr vi lo /\ c_mode s' = RControl b m pr (j :: vi) lo.
Proof.
  intros H. apply step_inv in H.
  inversion H as [| | | | | | | | | | | | |j' rcv' b' m' pr vi lo p s0 e0 M' Hp Ej Hv VC|]; subst.
  apply visit_fields in VC. destruct VC as [-> _]. conn_simpl. split; [reflexivity|]. split.
  - apply in_map_iff. eauto.
  - do 5 eexists. split; [exact M'|reflexivity].
Qed.

Lemma run_reach ls s tr ls2 s2 tr2 : run init ls = Some (s, tr) -> run s ls2 = Some (s2, tr2) ->
  run init (ls ++ ls2) = Some (s2, tr ++ tr2).
Proof. intros H1 H2. rewrite run_app, H1, H2. reflexivity. Qed.

Lemma run_crashed s ls s' tr : run s ls = Some (s', tr) -> ls <> [] -> c_crashed s = false.
Proof.
  destruct ls as [|l r]; [congruence|]. cbn. intros H _.
  destruct (step s l) as [[s1 e1]|] eqn:E; [|discriminate]. now apply step_alive in E.
Qed.

Lemma del_pkg_id i l : ~ In i (map p_id l) -> del_pkg i l = l.
Proof.
  induction l as [|p l IH]; intros H; [reflexivity|]. cbn in *. destruct (Nat.eqb_spec (p_id p) i); cbn.
  - exfalso. auto.
  - f_equal. apply IH. tauto.
Qed.
Lemma del_pkg_ids i l : ~ In i (map p_id (del_pkg i l)).
Proof. intros H. apply in_map_iff in H. destruct H as [p [E H]]. apply del_pkg_In in H. tauto. Qed.

Lemma nak_visits vs : forall ls s tr s1 e1 m present visited loop,
  run init ls = Some (s, tr) -> c_mode s = RControl NAK m present visited loop ->
  run s (visits vs) = Some (s1, e1) -> c_crashed s1 = false ->
  c_last s1 = c_last s /\
  (exists vi, c_mode s1 = RControl NAK m present vi loop /\
     forall j, In j vi <-> In j visited \/ In j (map fst vs)) /\
  (forall i, c_last s = Some i -> In i (map fst vs) ->
     In i (map p_id (c_inflight s)) /\
     c_inflight s1 = del_pkg i (c_inflight s) /\ c_open s1 = remove_id i (c_open s) /\
     forall k, replies k e1 = if (mem i (c_open s) && (i =? k)%nat)%bool then [Closed] else []) /\
  ((forall i, c_last s = Some i -> ~ In i (map fst vs)) ->
     c_inflight s1 = c_inflight s /\ c_open s1 = c_open s /\ forall k, replies k e1 = []).
Proof.
  induction vs as [|[j rcv] vs IH]; intros ls s tr s1 e1 m present visited loop R M H Hc.
  - cbn in H. injection H as <- <-. split; [reflexivity|]. split; [exists visited; cbn; tauto|].
    split; [intros i _ []|]. auto.
  - cbn [visits map run fst snd] in H.
    destruct (step s (LVisit j rcv)) as [[s2 e2]|] eqn:E2; [|discriminate].
    destruct (run s2 (visits vs)) as [[s3 e3]|] eqn:E3; [|unfold visits in E3; rewrite E3 in H; discriminate].
    unfold visits in E3. rewrite E3 in H. injection H as <- <-.
    assert (C2 : c_crashed s2 = false).
    { destruct vs as [|v vs]; [cbn in E3; injection E3 as <- <-; exact Hc|].
      eapply run_crashed; [exact E3|discriminate]. }
    destruct (step_visit_last _ _ _ _ _ E2) as [L2 [Hj [b' [m' [pr [vi [lo [M1 M2]]]]]]]].
    rewrite M in M1. injection M1 as <- <- <- <- <-.
    destruct (visit_effect _ _ _ _ _ _ _ _ _ _ _ _ R M E2) as [V1 V2].
    assert (R2 : run init (ls ++ [LVisit j rcv]) = Some (s2, tr ++ e2)).
    { rewrite run_app, R. cbn. rewrite E2, app_nil_r. reflexivity. }
    destruct (IH _ _ _ _ _ _ _ _ _ R2 M2 E3 Hc) as [I1 [[vi [I2 I3]] [I4 I5]]].
    split; [congruence|]. split.
    { exists vi. split; [exact I2|]. intros x. rewrite I3. cbn. tauto. }
    split.
    + intros i Li Hin. cbn [map fst] in Hin.
      destruct (Nat.eq_dec j i) as [->|N].
      * destruct (V1 eq_refl Li C2) as [A1 [A2 [A3 A4]]]. split; [exact Hj|].
        assert (NI : ~ In i (map fst vs)).
        { intros X. destruct (I4 i) as [Y _]; [congruence|exact X|]. rewrite A1 in Y. now apply del_pkg_ids in Y. }
        destruct I5 as [B1 [B2 B3]].
        { intros x Hx. rewrite L2, Li in Hx. injection Hx as <-. exact NI. }
        split; [congruence|]. split; [congruence|]. intros k. rewrite replies_app, B3, A4, app_nil_r. reflexivity.
      * destruct Hin as [->|Hin]; [congruence|].
        destruct V2 as [A1 [A2 A3]]; [intros [_ X]; congruence|].
        destruct (I4 i) as [B0 [B1 [B2 B3]]]; [congruence|exact Hin|]. rewrite A1 in *. rewrite A2 in *.
        split; [exact B0|]. split; [exact B1|]. split; [exact B2|]. intros k.
        rewrite replies_app, A3. cbn. apply B3.
    + intros Hn. destruct V2 as [A1 [A2 A3]].
      { intros [_ X]. apply (Hn j X). now left. }
      destruct I5 as [B1 [B2 B3]].
      { intros i Hi X. rewrite L2 in Hi. apply (Hn i Hi). now right. }
      split; [congruence|]. split; [congruence|]. intros k. rewrite replies_app, A3, B3. reflexivity.
Qed.

(** The whole handling of a NAK that arrives alone. *)
Theorem nak_handling ls s tr order accepts vs s' tr' :
  run init ls = Some (s, tr) -> els (c_buf s) = [NAK] ->
  run s (LIter order accepts :: visits vs ++ [LControlEnd]) = Some (s', tr') ->
  c_crashed s' = false ->
  match c_last s with
  | Some i =>
      if mem i (map p_id (c_inflight s))
      then (exists l, written tr = l ++ [i]) /\
           c_inflight s' = del_pkg i (c_inflight s) /\ c_open s' = remove_id i (c_open s) /\
           forall k, replies k tr' = if (mem i (c_open s) && (i =? k)%nat)%bool then [Closed] else []
      else c_inflight s' = c_inflight s /\ c_open s' = c_open s /\ forall k, replies k tr' = []
  | None => c_inflight s' = c_inflight s /\ c_open s' = c_open s /\ forall k, replies k tr' = []
  end.
Proof.
  intros R B H Hc'. cbn [run] in H.
  destruct (step s (LIter order accepts)) as [[s1 e1]|] eqn:E1; [|discriminate].
  rewrite run_app in H. destruct (run s1 (visits vs)) as [[s2 e2]|] eqn:E2; [|discriminate].
  cbn [run] in H. destruct (step s2 LControlEnd) as [[s3 e3]|] eqn:E3; [|discriminate].
  injection H as <- <-. rewrite app_nil_r.
  pose proof (step_alive _ _ _ _ E3) as C2.
  assert (C1 : c_crashed s1 = false).
  { destruct vs as [|v vs]; [cbn in E2; injection E2 as <- <-; exact C2|]. eapply run_crashed; [exact E2|discriminate]. }
  assert (SH : shape_of (els (c_buf s)) SControl) by (rewrite B; apply sh_control; cbn; tauto).
  destruct (control_start_end_effect _ _ _ _ E1 SH C1) as [A1 [A2 [A3 [_ A4]]]].
  destruct (control_start_end_effect _ _ _ _ E3 I Hc') as [B1 [B2 [B3 [_ B4]]]].
  assert (R1 : run init (ls ++ [LIter order accepts]) = Some (s1, tr ++ e1)).
  { rewrite run_app, R. cbn [run]. rewrite E1, app_nil_r. reflexivity. }
  assert (M1 : exists m lo, c_mode s1 = RControl NAK m (map p_id (c_inflight s)) [] lo).
  { apply step_inv in E1. inversion E1 as [| | | | | | | | | | | |o a s0 e0 M IC| |]; subst.
    assert (X : forall r d, decode (c_buf s) = Ok (r, d) -> d_len r = 1%Z).
    { intros r d D. exact (decode_shape _ _ _ _ D SH). }
    destruct IC as [E|E P|b0 tl r0 d0 E0 D0 L0|r0 d0 E0 D0 L0 M0|b0 tl r0 d0 E0 D0 L0|r0 d0 s5 ev5 _ D0 N0 _ _ DL _|r0 d0 s5 ev5 s6 ev6 _ D0 N0 _ _ DL _ SP].
    + congruence.
    + conn_simpl_in C1. discriminate.
    + rewrite B in E0. injection E0 as <- <-. conn_simpl. eauto.
    + apply X in D0. contradiction.
    + apply X in D0. lia.
    + apply X in D0. contradiction.
    + apply X in D0. contradiction. }
  destruct M1 as [m [lo M1]].
  destruct (nak_visits vs _ _ _ _ _ _ _ _ _ R1 M1 E2 C2) as [L2 [[vi [M2 Hvi]] [T U]]].
  rewrite A3 in *.
  assert (NOTHING : (forall i, c_last s = Some i -> ~ In i (map fst vs)) ->
      c_inflight s3 = c_inflight s /\ c_open s3 = c_open s /\ forall k, replies k (e1 ++ e2 ++ e3) = []).
  { intros Hn. destruct (U Hn) as [U1 [U2 U3]]. split; [congruence|]. split; [congruence|].
    intros k. rewrite !replies_app, A4, U3, B4. reflexivity. }
  destruct (c_last s) as [i|] eqn:L; [|apply NOTHING; discriminate].
  destruct (mem i (map p_id (c_inflight s))) eqn:P.
  - apply mem_In in P.
    assert (Hin : In i (map fst vs)).
    { apply step_inv in E3. inversion E3 as [| | | | | | | | | | | | | |b5 m5 pr5 vi5 lo5 s5 ev5 M5 F5 SP5]; subst.
      rewrite M2 in M5. injection M5 as <- <- <- <- <-.
      destruct (in_dec Nat.eq_dec i (map fst vs)) as [Y|N]; [exact Y|exfalso].
      destruct (U ltac:(intros x Hx; injection Hx as <-; exact N)) as [U1 _].
      assert (Y : In i vi).
      { apply F5; [exact P|]. rewrite U1, A1. exact P. }
      apply Hvi in Y. destruct Y as [[]|Y]. contradiction. }
    destruct (T i eq_refl Hin) as [_ [T1 [T2 T3]]].
    split; [eapply last_written; eassumption|].
    split; [congruence|]. split; [congruence|]. intros k.
    rewrite !replies_app, A4, T3, B4, app_nil_r, A2. reflexivity.
  - apply NOTHING. intros x Hx Hin. injection Hx as <-.
    destruct (T i eq_refl Hin) as [T0 _]. rewrite A1 in T0. apply mem_In in T0. congruence.
Qed.

(** ** Re-sends (C33) *)
Lemma cancelled_app a b : cancelled (a ++ b) = cancelled a ++ cancelled b.
Proof. apply flat_map_app. Qed.
Lemma resent_app a b : resent (a ++ b) = resent a ++ resent b.
Proof. apply flat_map_app. Qed.
Lemma no_resend ev (P : event -> Prop) : Forall P ev ->
  (forall i a, ~ P (EvQueue i a)) -> (forall i, ~ P (EvCancel i)) -> resent ev = [] /\ cancelled ev = [].
Proof.
  intros H N1 N2. induction H as [|e ev He _ [IH1 IH2]]; [split; reflexivity|].
  destruct e; try (split; assumption); exfalso; [eapply N1|eapply N2]; exact He.
Qed.

Lemma assoc_set_other k loop p l : k <> loop -> assoc k (set_loopvar loop p l) = assoc k l.
Proof.
  intros N. unfold set_loopvar. cbn. destruct (Nat.eqb_spec k loop); [contradiction|].
  induction l as [|[j q] l IH]; [reflexivity|]. cbn. destruct (Nat.eqb_spec j loop) as [->|Nj]; cbn.
  - destruct (Nat.eqb_spec k loop); [contradiction|exact IH].
  - destruct (Nat.eqb k j); [reflexivity|exact IH].
Qed.
Lemma assoc_set_same loop p l : assoc loop (set_loopvar loop p l) = Some p.
Proof. unfold set_loopvar. cbn. now rewrite Nat.eqb_refl. Qed.

Definition to_resend (lv : list (nat * pkg)) (k : nat) : list nat :=
  match assoc k lv with Some p => [p_id p] | None => [] end.

Lemma single_visits_app ls l : single_visits (ls ++ [l]) -> single_visits ls.
Proof.
  intros H l1 i r l2 j r' l3 E. apply (H l1 i r l2 j r' (l3 ++ [l])). rewrite E.
  rewrite <- app_assoc. cbn. rewrite <- app_assoc. reflexivity.
Qed.

Definition loops_ok (ls : list label) (s : conn) : Prop :=
  (forall k p, In (k, p) (c_loopvars s) -> (k < List.length (c_loopvars s))%nat) /\
  (forall k, In k (c_resend s) -> (k < List.length (c_loopvars s))%nat) /\
  (forall b m pr vi lo, c_mode s = RControl b m pr vi lo ->
     (vi = [] /\ lo = List.length (c_loopvars s)) \/
     exists l1 i r l2, ls = l1 ++ LVisit i r :: l2 /\ ~ In LControlEnd l2).

Lemma loops_same ls l s s' : loops_ok ls s -> l <> LControlEnd ->
  c_loopvars s' = c_loopvars s -> incl (c_resend s') (c_resend s) ->
  (forall b m pr vi lo, c_mode s' = RControl b m pr vi lo -> c_mode s = RControl b m pr vi lo) ->
  loops_ok (ls ++ [l]) s'.
Proof.
  intros [A [B C]] N E1 E2 E3. split; [now rewrite E1|]. split.
  - intros k Hk. rewrite E1. now apply B, E2.
  - intros b m pr vi lo M. rewrite E1. destruct (C _ _ _ _ _ (E3 _ _ _ _ _ M)) as [X|[l1 [i [r [l2 [X Y]]]]]].
    + now left.
    + right. exists l1, i, r, (l2 ++ [l]). split; [now rewrite X, <- app_assoc|].
      rewrite in_app_iff. intros [Z|[Z|[]]]; [contradiction|congruence].
Qed.

Lemma filter_all {A} (f : A -> bool) l : (forall x, In x l -> f x = true) -> filter f l = l.
Proof.
  induction l as [|x l IH]; intros H; [reflexivity|]. cbn. rewrite H by now left. f_equal.
  apply IH. intros y Hy. apply H. now right.
Qed.

Lemma resend_invariant ls s tr : run init ls = Some (s, tr) -> single_visits ls ->
  loops_ok ls s /\
  Permutation (cancelled tr) (resent tr ++ flat_map (to_resend (c_loopvars s)) (c_resend s)).
Proof.
  revert ls s tr. apply (run_ind_from init (fun ls s tr => single_visits ls -> loops_ok ls s /\
    Permutation (cancelled tr) (resent tr ++ flat_map (to_resend (c_loopvars s)) (c_resend s)))).
  - intros _. split; [|constructor]. split; [intros k p []|]. split; [intros k []|]. discriminate.
  - intros ls s tr l s' ev R IH H SV. destruct (IH (single_visits_app _ _ SV)) as [LO P]. clear IH.
    rewrite cancelled_app, resent_app.
    assert (SAME : cancelled ev = [] -> resent ev = [] -> c_loopvars s' = c_loopvars s -> c_resend s' = c_resend s ->
       l <> LControlEnd ->
       (forall b m pr vi lo, c_mode s' = RControl b m pr vi lo -> c_mode s = RControl b m pr vi lo) ->
       loops_ok (ls ++ [l]) s' /\ Permutation (cancelled tr ++ cancelled ev)
         ((resent tr ++ resent ev) ++ flat_map (to_resend (c_loopvars s')) (c_resend s'))).
    { intros E1 E2 E3 E4 N E5. split.
      - eapply loops_same; eauto. rewrite E4. apply incl_refl.
      - rewrite E1, E2, E3, E4, !app_nil_r. exact P. }
    apply step_inv in H. destruct H.
    + apply SAME; try reflexivity; try discriminate.
    + apply SAME; try reflexivity; try discriminate. auto.
    + apply SAME; try reflexivity; try discriminate. auto.
    + apply SAME; try reflexivity; try discriminate; auto; now destruct (mem i (c_open s)).
    + apply SAME; try reflexivity; try discriminate. auto.
    + apply SAME; try reflexivity; try discriminate. auto.
    + apply SAME; try reflexivity; try discriminate. auto.
    + apply expire_fields in H0. destruct H0 as [F [_ V]].
      destruct (no_resend _ _ V) as [V1 V2]; [cbn; tauto|cbn; tauto|].
      apply SAME; auto; try discriminate; rewrite F; conn_simpl; auto.
    + (* LResend *) split.
      * eapply loops_same; [exact LO|discriminate|reflexivity| |auto]. conn_simpl. intros x Hx. now apply remove_nth_In in Hx.
      * conn_simpl. cbn [cancelled resent flat_map app]. rewrite app_nil_r. rewrite P.
        rewrite <- app_assoc. apply Permutation_app_head.
        eapply Permutation_trans; [apply (Permutation_flat_map _ (nth_error_perm _ _ _ H))|].
        cbn [flat_map]. unfold to_resend at 1. rewrite H0. reflexivity.
    + apply SAME; try reflexivity; try discriminate. auto.
    + apply SAME; try reflexivity; try discriminate.
    + apply SAME; try reflexivity; try discriminate.
    + (* LIter *) pose proof (iter_fields _ _ _ _ _ H0) as [F [_ V]].
      destruct (no_resend _ _ V) as [V1 V2]; [cbn; tauto|cbn; tauto|].
      split.
      * destruct LO as [A [B C]]. split; [rewrite F; conn_simpl; exact A|]. split; [rewrite F; conn_simpl; exact B|].
        intros b m pr vi lo M. rewrite F in M |- *. conn_simpl_in M. conn_simpl. left.
        destruct H0 as [E|E E0|b0 tl r0 d0 E0 D0 L0|r0 d0 E0 D0 L0 M0|b0 tl r0 d0 E0 D0 L0|r0 d0 s5 ev5 _ D0 N0 _ _ DL _|r0 d0 s5 ev5 s6 ev6 _ D0 N0 _ _ DL _ SP];
          conn_simpl_in M; try congruence.
        -- injection M as <- <- <- <- <-. auto.
        -- apply deliver_fields in DL. destruct DL as [F5 _]. rewrite F5 in M. conn_simpl_in M. congruence.
        -- apply spawn_callback_fields in SP. destruct SP as [-> _]. apply deliver_fields in DL.
           destruct DL as [F5 _]. conn_simpl_in M. rewrite F5 in M. conn_simpl_in M. congruence.
      * rewrite V1, V2, F. conn_simpl. rewrite !app_nil_r. exact P.
    + (* LVisit *)
      destruct LO as [A [B C]].
      assert (VF : visited = [] /\ loop = List.length (c_loopvars s)).
      { destruct (C _ _ _ _ _ H) as [X|[l1 [i0 [r0 [l2 [X Y]]]]]]; [exact X|exfalso]. apply Y.
        apply (SV l1 i0 r0 l2 i receiver []). rewrite X, <- app_assoc. reflexivity. }
      destruct VF as [-> ->].
      assert (LV : c_loopvars s' = set_loopvar (List.length (c_loopvars s)) p (c_loopvars s)).
      { apply visit_fields in H3. destruct H3 as [F _]. rewrite F. reflexivity. }
      assert (MO : c_mode s' = RControl b m present [i] (List.length (c_loopvars s))).
      { pose proof H3 as H3'. apply visit_fields in H3'. destruct H3' as [F _]. rewrite F. reflexivity. }
      assert (LL : List.length (set_loopvar (List.length (c_loopvars s)) p (c_loopvars s)) = S (List.length (c_loopvars s))).
      { unfold set_loopvar. cbn. f_equal. rewrite filter_all; [reflexivity|]. intros [k q] Hq. cbn.
        apply A in Hq. destruct (Nat.eqb_spec k (List.length (c_loopvars s))); [lia|reflexivity]. }
      assert (FM : forall xs, incl xs (c_resend s) ->
        flat_map (to_resend (c_loopvars s')) xs = flat_map (to_resend (c_loopvars s)) xs).
      { intros xs Hxs. rewrite LV. induction xs as [|k xs IHx]; [reflexivity|]. cbn. f_equal.
        - unfold to_resend. rewrite assoc_set_other; [reflexivity|].
          assert (Hk : In k (c_resend s)) by (apply Hxs; now left). apply B in Hk. lia.
        - apply IHx. intros y Hy. apply Hxs. now right. }
      assert (RES : (cancelled ev = [] /\ c_resend s' = c_resend s \/
                     cancelled ev = [p_id p] /\ c_resend s' = c_resend s ++ [List.length (c_loopvars s)]) /\ resent ev = []).
      { assert (RC0 : forall s0 s1 ev1, recv_case b s0 s1 ev1 -> c_resend s1 = c_resend s0 /\ cancelled ev1 = [] /\ resent ev1 = []).
        { intros s0 s1 ev1 X. destruct X; auto. }
        destruct H3 as [L|s1 ev1 L RC Mn|s1 ev1 msg s2 ev2 L RC Mn K CP|s1 ev1 msg L RC Mn K|s1 ev1 msg L RC Mn K1 K2];
          rewrite ?cancelled_app, ?resent_app;
          try (destruct (RC0 _ _ _ RC) as [X1 [X2 X3]]; conn_simpl_in X1).
        - auto.
        - rewrite X2, X3. conn_simpl. rewrite X1. auto.
        - pose proof (close_pkg_fields _ _ _ _ CP) as F2. apply close_pkg_events in CP. rewrite F2. conn_simpl.
          rewrite X1, X2, X3. destruct CP as [->| ->]; auto.
        - rewrite X2, X3. conn_simpl. rewrite X1. auto.
        - rewrite X2, X3. auto. }
      destruct RES as [RES V1]. rewrite V1, app_nil_r. split.
      * split.
        { intros k q Hq. rewrite LV in *. rewrite LL. apply set_loopvar_In in Hq. destruct Hq as [Hq|Hq].
          - injection Hq as -> _. lia.
          - apply A in Hq. lia. }
        split.
        { intros k Hk. rewrite LV, LL. destruct RES as [[_ E]|[_ E]]; rewrite E in Hk.
          - apply B in Hk. lia.
          - apply in_app_iff in Hk. destruct Hk as [Hk|[<-|[]]]; [apply B in Hk; lia|lia]. }
        intros b5 m5 pr5 vi5 lo5 _. right. exists ls, i, receiver, []. split; [reflexivity|intros []].
      * destruct RES as [[E1 E2]|[E1 E2]]; rewrite E1, E2.
        -- rewrite app_nil_r, FM by apply incl_refl. exact P.
        -- rewrite flat_map_app, FM by apply incl_refl. cbn [flat_map]. unfold to_resend at 2.
           rewrite LV, assoc_set_same, app_nil_r, app_assoc. now apply Permutation_app_tail.
    + (* LControlEnd *) apply spawn_callback_fields in H1. destruct H1 as [-> V].
      assert (V1 : cancelled ev1 = [] /\ resent ev1 = []) by (destruct V as [->|[n [r ->]]]; auto).
      destruct V1 as [V1 V2]. conn_simpl. split.
      * destruct LO as [A [B C]]. split; [exact A|]. split; [exact B|]. conn_simpl. discriminate.
      * rewrite cancelled_app, resent_app, V1, V2. cbn. rewrite !app_nil_r. exact P.
Qed.

(** ** Connected (C38) *)
Lemma connected_open ls s tr : run init ls = Some (s, tr) -> timers_in_time ls ->
  c_connected s = true -> c_mode s <> RStopped.
Proof.
  revert ls s tr. apply (run_ind_from init (fun ls s tr => timers_in_time ls ->
    c_connected s = true -> c_mode s <> RStopped)).
  - intros _ H. discriminate.
  - intros ls s tr l s' ev R IH H TT.
    assert (IH' : c_connected s = true -> c_mode s <> RStopped).
    { apply IH. intros l1 l2 s0 tr0 E. apply (TT l1 (l2 ++ [l])). now rewrite E, <- app_assoc. }
    apply step_inv in H. destruct H; conn_simpl; try exact IH'; try discriminate.
    + intros _. eapply TT; [reflexivity|exact R].
    + apply expire_fields in H0. destruct H0 as [-> _]. exact IH'.
    + apply iter_fields in H0 as F. destruct F as [F _]. intros _ X.
      destruct H0 as [E|E E0|b0 tl r0 d0 E0 D0 L0|r0 d0 E0 D0 L0 M0|b0 tl r0 d0 E0 D0 L0|r0 d0 s5 ev5 _ D0 N0 _ _ DL _|r0 d0 s5 ev5 s6 ev6 _ D0 N0 _ _ DL _ SP];
        conn_simpl_in X; try congruence.
      * apply deliver_fields in DL. destruct DL as [F5 _]. rewrite F5 in X. conn_simpl_in X. congruence.
      * apply spawn_callback_fields in SP. destruct SP as [-> _]. apply deliver_fields in DL.
        destruct DL as [F5 _]. conn_simpl_in X. rewrite F5 in X. conn_simpl_in X. congruence.
    + apply visit_fields in H3. destruct H3 as [-> _]. conn_simpl. intros _. discriminate.
Qed.

(** ** Remaining statements *)
Lemma match_own_bytes i data w t er f tail : (10 <= List.length f)%nat ->
  exists r, pkg_match (new_send_package i data w t er) (clear_at (List.length f - 1) f ++ tail) = Ok r /\
            (r = true <-> answered_by data er f).
Proof.
  intros H. destruct (match_total (new_send_package i data w t er) (clear_at (List.length f - 1) f ++ tail)) as [r E].
  - rewrite app_length, clear_at_length. lia.
  - exists r. split; [exact E|]. rewrite (match_decision _ _ _ _ _ _ _ E). now apply matched_on_own_bytes.
Qed.

Lemma replied_once ls s tr i : run init ls = Some (s, tr) -> replies i tr <> [] ->
  In i (called tr) /\ ~ In i (c_open s).
Proof.
  intros H N. destruct (replies_invariant _ _ _ H) as [_ G]. destruct (G i) as [_ [_ G3]].
  destruct (G3 N) as [L O]. split; [|exact O]. rewrite (called_fresh _ _ _ H). apply in_seq. lia.
Qed.

Lemma queued_once ls s tr : run init ls = Some (s, tr) ->
  flat_map (fun e => match e with EvQueue i false => [i] | _ => [] end) tr = called tr /\ NoDup (called tr).
Proof.
  intros H. split; [|rewrite (called_fresh _ _ _ H); apply seq_NoDup].
  revert ls s tr H. apply (run_ind_from init (fun ls s tr =>
    flat_map (fun e => match e with EvQueue i false => [i] | _ => [] end) tr = called tr)).
  - reflexivity.
  - intros ls s tr l s' ev _ IH H. rewrite flat_map_app, called_app, IH. f_equal.
    assert (N : forall (P : event -> Prop) ev0, Forall P ev0 -> (forall i a, ~ P (EvQueue i a)) ->
      (forall i d w t e, ~ P (EvCall i d w t e)) ->
      flat_map (fun e => match e with EvQueue i false => [i] | _ => [] end) ev0 = called ev0).
    { intros P ev0 F N1 N2. induction F as [|e ev0 He _ IHF]; [reflexivity|]. cbn.
      destruct e; try exact IHF; exfalso; [eapply N2|eapply N1]; exact He. }
    apply step_inv in H. destruct H; try reflexivity.
    + now destruct (mem i (c_open s)).
    + apply expire_fields in H0. destruct H0 as [_ [_ V]]. apply (N _ _ V); cbn; tauto.
    + apply iter_fields in H0. destruct H0 as [_ [_ V]]. apply (N _ _ V); cbn; tauto.
    + apply visit_fields in H3. destruct H3 as [_ [_ V]]. apply (N _ _ V); cbn; tauto.
    + apply spawn_callback_fields in H1. destruct H1 as [_ [->|[n [r ->]]]]; reflexivity.
Qed.

Lemma all_resent ls s tr : run init ls = Some (s, tr) -> single_visits ls -> c_resend s = [] ->
  Permutation (cancelled tr) (resent tr).
Proof.
  intros H SV E. destruct (resend_invariant _ _ _ H SV) as [_ P]. rewrite E in P. cbn in P.
  now rewrite app_nil_r in P.
Qed.

Lemma timed_entries_expire ls s tr p : run init ls = Some (s, tr) -> In p (c_inflight s) ->
  p_timeout p = true -> c_crashed s = false ->
  exists k s' ev, step s (LTimer k) = Some (s', ev) /\ ~ In (p_id p) (map p_id (c_inflight s')).
Proof.
  intros H Hp Ht Hc. destruct (pending_invariant _ _ _ H) as [T _]. specialize (T p Hp Ht).
  apply In_nth_error in T. destruct T as [k Hk]. exists k. unfold step. rewrite Hc, Hk.
  unfold expire. conn_simpl. destruct (find_pkg (p_id p) (c_inflight s)) as [q|] eqn:F.
  - destruct (close_pkg _ _) as [s' ev] eqn:CP. exists s', ev. split; [reflexivity|].
    apply close_pkg_fields in CP. rewrite CP. conn_simpl. apply del_pkg_ids.
  - eapply find_pkg_None in F; [|exact Hp]. contradiction.
Qed.

(** Ids whose issuer has not looked yet belong to waiting calls. *)
Lemma fetch_called ls s tr : run init ls = Some (s, tr) -> forall i, In i (c_fetch s) ->
  exists data w t er, In (EvCall i data w t er) tr /\ w <> NoWait.
Proof.
  revert ls s tr. apply (run_ind_from init (fun ls s tr => forall i, In i (c_fetch s) ->
    exists data w t er, In (EvCall i data w t er) tr /\ w <> NoWait)).
  - intros i [].
  - intros ls s tr l s' ev R IH H i Hi.
    assert (OLD : In i (c_fetch s) -> exists data w t er, In (EvCall i data w t er) (tr ++ ev) /\ w <> NoWait).
    { intros X. destruct (IH i X) as [data [w [t [er [Y Z]]]]]. exists data, w, t, er.
      split; [apply in_app_iff; now left|exact Z]. }
    apply step_inv in H. destruct H; conn_simpl_in Hi; try (now apply OLD).
    + apply remove_id_In in Hi. now apply OLD.
    + destruct (p_want p) eqn:W; [now apply OLD| |];
      (destruct again; [now apply OLD|]; destruct Hi as [<-|Hi]; [|now apply OLD];
       destruct (known_issued _ _ _ R p) as [data [w0 [t [er [Hc Hp]]]]];
         [right; left; rewrite H0; now left|];
       exists data, w0, t, er; split; [apply in_app_iff; now left|]; rewrite Hp in W; cbn in W; congruence).
    + apply expire_fields in H0. destruct H0 as [F _]. rewrite F in Hi. now apply OLD.
    + apply iter_fields in H0. destruct H0 as [F _]. rewrite F in Hi. now apply OLD.
    + apply visit_fields in H3. destruct H3 as [F _]. rewrite F in Hi. now apply OLD.
    + apply spawn_callback_fields in H1. destruct H1 as [-> _]. now apply OLD.
Qed.

Lemma fetch_result ls s tr i s' ev : run init ls = Some (s, tr) -> step s (LFetch i) = Some (s', ev) ->
  (ev = [EvGot i] /\ replies i tr = []) \/ (ev = [EvNil i] /\ In Closed (replies i tr)).
Proof.
  intros R H. pose proof (step_alive _ _ _ _ H) as Hc. apply step_inv in H.
  inversion H as [| | |i' Hf| | | | | | | | | | |]; subst.
  destruct (mem i (c_open s)) eqn:O.
  - left. split; [reflexivity|]. apply mem_In in O.
    destruct (replies i tr) eqn:E; [reflexivity|exfalso].
    destruct (replied_once _ _ _ i R) as [_ N]; [congruence|contradiction].
  - right. split; [reflexivity|]. apply mem_not_In in O.
    destruct (fetch_called _ _ _ R i Hf) as [data [w [t [er [Hcall Hw]]]]].
    assert (D : In Closed (replies i tr) \/ ~ In Closed (replies i tr)).
    { destruct (in_dec (fun a b : reply => ltac:(decide equality) : {a = b} + {a <> b}) Closed (replies i tr)); tauto. }
    destruct D as [D|D]; [exact D|exfalso]. apply O. eapply open_invariant; eassumption.
Qed.

Lemma lone_control_safe ls s tr b order accepts vs s' tr' :
  run init ls = Some (s, tr) -> In b [ACK; NAK; CAN] -> els (c_buf s) = [b] ->
  run s (LIter order accepts :: visits vs) = Some (s', tr') -> c_crashed s' = false.
Proof.
  intros R Hb B H. cbn [run] in H.
  destruct (step s (LIter order accepts)) as [[s1 e1]|] eqn:E1; [|discriminate].
  destruct (run s1 (visits vs)) as [[s2 e2]|] eqn:E2; [|discriminate]. injection H as <- <-.
  pose proof (step_alive _ _ _ _ E1) as Hc.
  assert (X : c_crashed s1 = false /\ exists m pr vi lo, c_mode s1 = RControl b (Some m) pr vi lo).
  { apply step_inv in E1. inversion E1 as [| | | | | | | | | | | |o a s0 e0 M IC| |]; subst.
    assert (SH : shape_of (els (c_buf s)) SControl) by (rewrite B; now apply sh_control).
    assert (D : exists m, decode (c_buf s) = Ok (mkDecoded 1 (Some m) None, c_buf s)).
    { rewrite (decode_by_shape _ _ SH). unfold ctl, new_message, len, idx. rewrite B. cbn. eauto. }
    destruct D as [m D].
    destruct IC as [E|E P|b0 tl r0 d0 E0 D0 L0|r0 d0 E0 D0 L0 M0|b0 tl r0 d0 E0 D0 L0|r0 d0 s5 ev5 _ D0 N0 _ _ DL _|r0 d0 s5 ev5 s6 ev6 _ D0 N0 _ _ DL _ SP];
      try congruence; try (rewrite D in D0; injection D0 as <- <-; cbn in *; try lia; try congruence).
    conn_simpl. split; [exact Hc|]. rewrite B in E0. injection E0 as <- <-. eauto. }
  clear E1. destruct X as [Hc1 X]. clear R B Hc tr s.
  revert s1 e2 E2 Hc1 X. induction vs as [|[j rcv] vs IH]; intros s1 e2 E2 Hc1 X.
  - cbn in E2. injection E2 as <- <-. exact Hc1.
  - cbn [visits map run fst snd] in E2. fold (visits vs) in E2.
    destruct (step s1 (LVisit j rcv)) as [[s3 e3]|] eqn:E3; [|discriminate].
    destruct (run s3 (visits vs)) as [[s4 e4]|] eqn:E4; [|discriminate]. injection E2 as <- <-.
    destruct X as [m [pr [vi [lo M]]]].
    destruct (step_visit_last _ _ _ _ _ E3) as [_ [_ [b' [m' [pr' [vi' [lo' [M1 M2]]]]]]]].
    rewrite M in M1. injection M1 as <- <- <- <- <-.
    apply (IH _ _ E4); [|eauto].
    apply step_inv in E3. inversion E3 as [| | | | | | | | | | | | |j' rcv' b' m' pr' vi' lo' p s0 e0 M' Hp Ej Hv VC|]; subst.
    rewrite M in M'. injection M' as <- <- <- <- <-.
    assert (RC0 : forall s0 s1 ev1, recv_case b s0 s1 ev1 -> c_crashed s1 = c_crashed s0).
    { intros s7 s8 ev8 X. destruct X; reflexivity. }
    destruct VC as [L|s7 ev7 L RC Mn|s7 ev7 msg s8 ev8 L RC Mn K CP|s7 ev7 msg L RC Mn K|s7 ev7 msg L RC Mn K1 K2];
      try (apply RC0 in RC; conn_simpl_in RC).
    + exact Hc1.
    + discriminate.
    + apply close_pkg_chan in CP. destruct CP as [_ [CP _]]. conn_simpl_in CP. congruence.
    + conn_simpl. congruence.
    + congruence.
Qed.
