(** The message decoded from a self-contained frame. *)
From Verif Require Import ModelBase ModelReports ModelSerial SpecFrame SpecDecode SpecMessage
  ProofBase ProofSerial ProofMessage.
From Coq Require Import ZifyBool ZifyNat ZifyN Arith.

Lemma cleared_nth f i : (i < List.length f - 1)%nat -> nth i (cleared f) x00 = nth i f x00.
Proof. intros H. unfold cleared. rewrite clear_at_set_nth. apply nth_set_nth_other. lia. Qed.

Lemma cleared_length f : List.length (cleared f) = List.length f.
Proof. unfold cleared. rewrite clear_at_set_nth. apply set_nth_length. Qed.

Lemma announced_slice f : (8 <= List.length f)%nat -> (byte_at f 6 <= 248)%N ->
  (7 + byte_at f 6 <= N.of_nat (List.length f))%N ->
  exists q, sub {| els := cleared f; spare := [] |} 7 (b2n (add8 x07 (nth 6 (cleared f) x00))) = Ok q /\
    els q = announced f /\ List.length (announced f) = N.to_nat (byte_at f 6).
Proof.
  intros H8 Hn Hl. unfold announced. rewrite cleared_nth by lia. rewrite byte_at_eq in *.
  pose proof (b2n_b2N (nth 6 f x00)) as Hb.
  destruct (payload_slice {| els := cleared f; spare := [] |} (nth 6 f x00)) as [[_ [_ [H L]]]|[Hc _]].
  - unfold cap, backing; cbn [els spare]. rewrite app_nil_r, cleared_length. lia.
  - eexists. split; [exact H|]. cbn [els]. unfold backing in *. cbn [els spare] in *. rewrite app_nil_r in *.
    replace (N.to_nat (b2N (nth 6 f x00))) with (b2n (nth 6 f x00)) by lia. split; [reflexivity|exact L].
  - exfalso. unfold cap, backing in Hc; cbn [els spare] in Hc. rewrite app_nil_r, cleared_length in Hc. lia.
Qed.

Lemma byte_at_is f i c : byte_at f i = b2N c -> nth i f x00 = c.
Proof. rewrite byte_at_eq. apply b2N_const. Qed.

Lemma new_message_content f : self_contained f ->
  new_message {| els := cleared f; spare := [] |} =
  match content f with
  | Ok p => Ok (mkMessage (nth 1 f x00) (nth 2 f x00) (nth 3 f x00) (sender f) SOF (Some p))
  | Fail e => Fail e
  | Panic => Panic
  end.
Proof.
  intros [Hf [H5 [H04 [H02 H41]]]].
  rewrite new_message_4 by (unfold len; cbn [els]; rewrite cleared_length; lia).
  cbv zeta beta. cbn [els].
  assert (E0 : nth 0 (cleared f) x00 = SOF).
  { rewrite cleared_nth by lia. destruct Hf. reflexivity. }
  rewrite E0, (cleared_nth f 1), (cleared_nth f 2), (cleared_nth f 3) by lia.
  unfold content, sender.
  destruct (N.eqb_spec (byte_at f 3) 4) as [B|B4].
  { destruct (H04 B) as [H8 [Hr Hl]]. rewrite (byte_at_is f 3 x04 B).
    rewrite !idx_lt by (rewrite cleared_length; lia). cbn [bind].
    destruct (announced_slice f H8 ltac:(lia) Hl) as [q [-> [E L]]]. cbn [bind].
    rewrite (cleared_nth f 5) by lia.
    unfold new_application_command_handler. rewrite E.
    destruct (announced f) as [|c [|k data]] eqn:EA; try (cbn in L; lia).
    cbn [idx nth_error bind]. rewrite from_ok by (unfold len; rewrite E; cbn; lia).
    cbn [bind els]. rewrite E. cbn [skipn]. destruct (reports_new c k data); reflexivity. }
  destruct (N.eqb_spec (byte_at f 3) 2) as [B|B2].
  { destruct (H02 B) as [H8 [Hr Hl]]. rewrite (byte_at_is f 3 x02 B).
    rewrite !idx_lt by (rewrite cleared_length; lia). cbn [bind].
    destruct (announced_slice f H8 ltac:(lia) Hl) as [q [-> [E L]]]. cbn [bind]. rewrite E.
    destruct (new_discovered_nodes (announced f)); reflexivity. }
  destruct (N.eqb_spec (byte_at f 3) 65) as [B|B65].
  { rewrite (byte_at_is f 3 x41 B). destruct (new_protocol_info (skipn 4 (cleared f))); reflexivity. }
  rewrite byte_at_eq in *.
  destruct (fn_cases (nth 3 f x00)) as [E|[E|[E|[E _]]]];
    [rewrite E in B4; now destruct B4|rewrite E in B2; now destruct B2|rewrite E in B65; now destruct B65|].
  rewrite E. reflexivity.
Qed.

Lemma content_not_panic f : self_contained f -> content f <> Panic.
Proof.
  intros SC E. pose proof (new_message_content f SC) as H. rewrite E in H.
  destruct (self_contained_local f SC) as [r [NP R]]. apply NP. rewrite <- (R [] []).
  destruct SC as [_ [L _]]. rewrite zeroed_app by lia. rewrite !app_nil_r.
  rewrite <- clear_at_set_nth. exact H.
Qed.

Theorem decode_content f tail sp : self_contained f ->
  decode {| els := f ++ tail; spare := sp |} =
  Ok (mkDecoded (Z.of_nat (List.length f)) (message_of f) (error_of f),
      {| els := cleared f ++ tail; spare := sp |}).
Proof.
  intros SC. pose proof (content_not_panic f SC) as NP.
  rewrite (decode_by_shape _ (SFrame (List.length f))) by (apply sh_frame; apply SC).
  destruct (self_contained_local f SC) as [r [_ R]].
  assert (Er : new_message {| els := cleared f; spare := [] |} = r).
  { rewrite <- (R [] []). destruct SC as [_ [L _]]. rewrite zeroed_app by lia.
    rewrite !app_nil_r, <- clear_at_set_nth. reflexivity. }
  rewrite (R tail sp), <- Er, (new_message_content f SC).
  destruct SC as [_ [L _]]. rewrite zeroed_app by lia. rewrite <- clear_at_set_nth. fold (cleared f).
  unfold finish, message_of, error_of. destruct (content f); [reflexivity|reflexivity|contradiction].
Qed.

Lemma decode_control_alone b sp : In b [ACK; NAK; CAN] ->
  decode {| els := [b]; spare := sp |} =
  Ok (mkDecoded 1 (Some (mkMessage x00 x00 x00 x00 b None)) None, {| els := [b]; spare := sp |}).
Proof. intros [<-|[<-|[<-|[]]]]; reflexivity. Qed.

Lemma message_header f tail sp r d' m : self_contained f ->
  decode {| els := f ++ tail; spare := sp |} = Ok (r, d') -> d_msg r = Some m ->
  m_start m = SOF /\ m_length m = nth 1 f x00 /\ m_type m = nth 2 f x00 /\ m_function m = nth 3 f x00 /\
  m_node m = (if (byte_at f 3 =? 4)%N then nth 5 f x00 else x00) /\ m_data m <> None.
Proof.
  intros SC H M. rewrite (decode_content f tail sp SC) in H. injection H as <- <-. cbn [d_msg] in M.
  unfold message_of in M. destruct (content f); try discriminate. injection M as <-. cbn.
  repeat split. discriminate.
Qed.

Lemma control_message b sp : In b [ACK; NAK; CAN] ->
  exists m, decode {| els := [b]; spare := sp |} = Ok (mkDecoded 1 (Some m) None, {| els := [b]; spare := sp |}) /\
    m_start m = b /\ m_data m = None /\
    is_ack m = (Byte.eqb b ACK) /\ is_nak m = (Byte.eqb b NAK) /\ is_can m = (Byte.eqb b CAN).
Proof.
  intros I. rewrite decode_control_alone by exact I. eexists. split; [reflexivity|]. repeat split; reflexivity.
Qed.
