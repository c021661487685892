(** Lemmas about checksum, CompileMessage, Decode framing. *)
From Verif Require Import ModelBase ModelReports ModelSerial SpecFrame ProofBase.
From Coq Require Import ZifyBool ZifyNat ZifyN Arith.
Ltac Zify.zify_post_hook ::= Z.div_mod_to_equations.

Lemma xor_sum_app l1 l2 : xor_sum (l1 ++ l2) = N.lxor (xor_sum l1) (xor_sum l2).
Proof.
  induction l1 as [|b l1 IH]; cbn [xor_sum fold_right app].
  - now rewrite N.lxor_0_l.
  - fold (xor_sum l1). fold (xor_sum (l1 ++ l2)). rewrite IH. now rewrite N.lxor_assoc.
Qed.

Lemma xor_sum_lt l : (xor_sum l < 256)%N.
Proof.
  induction l as [|b l IH]; cbn [xor_sum fold_right]; [reflexivity|].
  apply (lxor_lt _ _ 8); [apply b2N_lt | exact IH].
Qed.

Lemma xor_sum_1 b : xor_sum [b] = b2N b.
Proof. cbn. apply N.lxor_0_r. Qed.

Lemma fold_xor8 l b : b2N (fold_left xor8 l b) = N.lxor (b2N b) (xor_sum l).
Proof.
  revert b; induction l as [|c l IH]; intros b; cbn [fold_left].
  - cbn. now rewrite N.lxor_0_r.
  - rewrite IH, b2N_xor8. cbn [xor_sum fold_right]. fold (xor_sum l).
    now rewrite N.lxor_assoc.
Qed.

(** The checksum of a string whose last byte is a placeholder (the placeholder
    counts only if it is the only byte). *)
Lemma checksum_placeholder l :
  exists c, generate_checksum (l ++ [x00]) = Ok c /\ b2N c = N.lxor (xor_sum l) 255.
Proof.
  destruct l as [|b l]; cbn [app generate_checksum].
  - eexists; split; [reflexivity|]. vm_compute. reflexivity.
  - eexists; split; [reflexivity|].
    rewrite removelast_last, b2N_not8, fold_xor8. cbn [xor_sum fold_right].
    reflexivity.
Qed.

Lemma lxor_255_iff a c : N.lxor a c = 255%N <-> c = N.lxor a 255.
Proof.
  split; intros H.
  - rewrite <- H. now rewrite <- N.lxor_assoc, N.lxor_nilpotent, N.lxor_0_l.
  - subst c. now rewrite <- N.lxor_assoc, N.lxor_nilpotent, N.lxor_0_l.
Qed.

(** ** CompileMessage *)
Lemma compile_form data :
  exists cs,
    compile_message data
      = SOF :: N2b (N.of_nat (List.length data) + 2) :: x00 :: data ++ [cs] /\
    xor_sum (N2b (N.of_nat (List.length data) + 2) :: x00 :: data ++ [cs]) = 255%N.
Proof.
  unfold compile_message.
  cbn [app set_nth].
  set (n := N2b (N.of_nat (List.length (x00 :: x00 :: data ++ [x00])) - 1)).
  assert (Hn : n = N2b (N.of_nat (List.length data) + 2)).
  { unfold n. f_equal. cbn [List.length]. rewrite app_length. cbn [List.length]. lia. }
  rewrite <- Hn. clearbody n.
  destruct (checksum_placeholder (n :: x00 :: data)) as [c [Hc Hx]].
  cbn [app] in Hc. rewrite Hc.
  exists c. split.
  - f_equal. apply (set_nth_split _ _ _ x00 (n :: x00 :: data) []); [reflexivity|].
    cbn [List.length app]. rewrite app_length. cbn [List.length]. lia.
  - change (xor_sum ((n :: x00 :: data) ++ [c]) = 255%N).
    rewrite xor_sum_app, xor_sum_1. now apply lxor_255_iff.
Qed.

Lemma compile_frame data :
  (List.length data <= 253)%nat -> frame (compile_message data).
Proof.
  intros H. destruct (compile_form data) as [cs [-> Hx]].
  constructor; [|exact Hx].
  fold (b2N (N2b (N.of_nat (List.length data) + 2))).
  rewrite N2b_small by lia. cbn [List.length]. rewrite app_length. cbn [List.length]. lia.
Qed.

Lemma compile_payload data :
  exists cs,
    compile_message data
      = [SOF; N2b (N.of_nat (List.length data) + 2); x00] ++ data ++ [cs].
Proof. destruct (compile_form data) as [cs [-> _]]. exists cs. reflexivity. Qed.

Lemma compile_inj a b : compile_message a = compile_message b -> a = b.
Proof.
  destruct (compile_payload a) as [c1 ->]. destruct (compile_payload b) as [c2 ->].
  intros H. cbn [app] in H. injection H as _ H1. apply app_inj_tail in H1. tauto.
Qed.

Lemma compile_too_long data :
  (254 <= List.length data)%nat -> ~ frame (compile_message data).
Proof.
  intros H. destruct (compile_form data) as [cs [-> _]]. intros F.
  inversion F as [n rest Hlen Hxx [Hn Hr]].
  rewrite <- Hn in Hlen. fold (b2N n) in Hlen. pose proof (b2N_lt n) as Hlt.
  cbn [List.length] in Hlen. rewrite app_length in Hlen. cbn [List.length] in Hlen. lia.
Qed.

(** ** Decode: framing *)
Definition finish (k : nat) (d' : slice) (m : res message) : res (decoded * slice) :=
  match m with
  | Ok m => Ok (mkDecoded (Z.of_nat k) (Some m) None, d')
  | Fail e => Ok (mkDecoded (Z.of_nat k) None (Some e), d')
  | Panic => Panic
  end.

Definition zeroed (d : slice) (k : nat) : slice :=
  {| els := set_nth (k - 1) x00 (els d); spare := spare d |}.

Lemma decode_sof n rest sp :
  (b2n n <= List.length rest)%nat ->
  let d := {| els := SOF :: n :: rest; spare := sp |} in
  decode d =
    if (xor_sum (n :: firstn (b2n n) rest) =? 255)%N
    then finish (b2n n + 2) (zeroed d (b2n n + 2)) (new_message (zeroed d (b2n n + 2)))
    else Ok (mkDecoded (-1) None (Some EChecksum), zeroed d (b2n n + 2)).
Proof.
  intros Hlen d. unfold decode, d, zeroed, len. cbn [els spare idx nth_error bind].
  change SOF with x01. cbn [bind].
  destruct (Nat.ltb_spec (List.length (x01 :: n :: rest)) 2) as [Hc|_]; [cbn in Hc; lia|].
  destruct (Nat.ltb_spec (List.length (x01 :: n :: rest)) (b2n n + 2)) as [Hc|_]; [cbn in Hc; lia|].
  replace (b2n n + 2 - 1)%nat with (b2n n + 1)%nat by lia.
  replace (b2n n + 1)%nat with (S (b2n n)) by lia.
  cbn [set_nth nth_error skipn idx].
  destruct (nth_error_ex (n :: rest) (b2n n)) as [cs Hcs]; [cbn; lia|].
  replace (idx (x01 :: n :: rest) (S (b2n n))) with (@Ok byte cs).
  2:{ symmetry. apply idx_ok. exact Hcs. }
  cbn [bind].
  pose proof (nth_error_split_at _ _ _ Hcs) as Hsplit.
  set (l1 := firstn (b2n n) (n :: rest)) in *.
  assert (Hl1 : List.length l1 = b2n n).
  { unfold l1. rewrite firstn_length. cbn [List.length]. lia. }
  assert (Hset : set_nth (b2n n) x00 (n :: rest) = l1 ++ x00 :: skipn (S (b2n n)) (n :: rest)).
  { eapply set_nth_split; [exact Hsplit | now symmetry]. }
  assert (Hf : firstn (S (b2n n)) (set_nth (b2n n) x00 (n :: rest)) = l1 ++ [x00]).
  { rewrite Hset. replace (S (b2n n)) with (List.length l1 + 1)%nat by lia.
    rewrite firstn_app_2. reflexivity. }
  rewrite Hf.
  destruct (checksum_placeholder l1) as [c [Hc Hx]]. rewrite Hc. cbn [bind].
  assert (Hall : n :: firstn (b2n n) rest = l1 ++ [cs]).
  { change (n :: firstn (b2n n) rest) with (firstn (S (b2n n)) (n :: rest)).
    rewrite Hsplit at 1. replace (S (b2n n)) with (List.length l1 + 1)%nat by lia.
    rewrite firstn_app_2. reflexivity. }
  rewrite Hall, xor_sum_app, xor_sum_1.
  replace (S (S (b2n n))) with (b2n n + 2)%nat by lia.
  replace (N.lxor (xor_sum l1) (b2N cs) =? 255)%N with (beq cs c).
  - destruct (beq cs c); reflexivity.
  - destruct (beq_spec cs c) as [->|Hne]; symmetry.
    + apply N.eqb_eq. now apply lxor_255_iff.
    + apply N.eqb_neq. intros H. apply Hne. apply b2N_inj.
      apply lxor_255_iff in H. congruence.
Qed.

Lemma decode_short n rest sp :
  (List.length rest < b2n n)%nat ->
  let d := {| els := SOF :: n :: rest; spare := sp |} in
  decode d = Ok (mkDecoded (Z.of_nat (b2n n + 2)) None None, d).
Proof.
  intros H d. unfold decode, d, len, SOF. cbn [els idx nth_error bind].
  destruct (Nat.ltb_spec (List.length (x01 :: n :: rest)) 2) as [Hc|_]; [cbn in Hc; lia|].
  destruct (Nat.ltb_spec (List.length (x01 :: n :: rest)) (b2n n + 2)) as [_|Hc]; [reflexivity|].
  cbn in Hc; lia.
Qed.

Definition ctl (d : slice) : res (decoded * slice) :=
  match new_message d with
  | Ok m => Ok (mkDecoded 1 (Some m) None, d)
  | Fail _ => Ok (mkDecoded 1 None None, d)
  | Panic => Panic
  end.

Lemma decode_control b rest sp :
  In b [ACK; NAK; CAN] ->
  let d := {| els := b :: rest; spare := sp |} in decode d = ctl d.
Proof.
  intros H d. cbn in H. unfold decode, ctl, d. cbn [els idx nth_error bind].
  destruct H as [<-|[<-|[<-|[]]]]; reflexivity.
Qed.

Lemma decode_garbage b rest sp :
  ~ In b [SOF; ACK; NAK; CAN] ->
  let d := {| els := b :: rest; spare := sp |} in decode d = Ok (mkDecoded (-1) None None, d).
Proof.
  intros H d. unfold decode, d. cbn [els idx nth_error bind].
  destruct b; try reflexivity; exfalso; apply H; cbn; tauto.
Qed.

Lemma start_dec b :
  b = SOF \/ In b [ACK; NAK; CAN] \/ ~ In b [SOF; ACK; NAK; CAN].
Proof.
  destruct (beq_spec b SOF) as [->|H1]; [now left|].
  destruct (beq_spec b ACK) as [->|H2]; [right; left; cbn; tauto|].
  destruct (beq_spec b NAK) as [->|H3]; [right; left; cbn; tauto|].
  destruct (beq_spec b CAN) as [->|H4]; [right; left; cbn; tauto|].
  right; right. cbn. intuition congruence.
Qed.

(** Every non-empty string has exactly one shape. *)
Lemma shape_total l : l <> [] -> exists s, shape_of l s.
Proof.
  destruct l as [|b l]; [congruence|]. intros _.
  destruct (start_dec b) as [->|[H|H]].
  - destruct l as [|n rest].
    + exists (SMore 2). apply sh_more1.
    + destruct (Nat.lt_ge_cases (List.length rest) (b2n n)) as [Hl|Hl].
      * eexists. apply sh_more. fold (b2N n). rewrite <- b2n_b2N. lia.
      * rewrite <- (firstn_skipn (b2n n) rest).
        assert (Hf : Byte.to_N n = N.of_nat (List.length (firstn (b2n n) rest))).
        { fold (b2N n). rewrite <- b2n_b2N, firstn_length. lia. }
        destruct (N.eq_dec (xor_sum (n :: firstn (b2n n) rest)) 255) as [Hx|Hx].
        -- eexists. change (SOF :: n :: firstn (b2n n) rest ++ skipn (b2n n) rest)
             with ((SOF :: n :: firstn (b2n n) rest) ++ skipn (b2n n) rest).
           apply sh_frame. now constructor.
        -- eexists. now apply sh_damaged.
  - eexists. now apply sh_control.
  - eexists. now apply sh_garbage.
Qed.

Lemma frame_length f : frame f -> (2 <= List.length f)%nat.
Proof. intros [n rest _ _]. cbn. lia. Qed.

Lemma app_same_length {A} (a b c d : list A) :
  a ++ b = c ++ d -> List.length a = List.length c -> a = c /\ b = d.
Proof.
  revert c; induction a as [|x a IH]; intros [|y c] H Hl; cbn in *; try lia; auto.
  inversion H; subst. destruct (IH c) as [-> ->]; auto.
Qed.

(** Inversion of [shape_of] for each kind of first byte. *)
Lemma shape_sof_complete n rest s :
  (b2n n <= List.length rest)%nat -> shape_of (SOF :: n :: rest) s ->
  s = if (xor_sum (n :: firstn (b2n n) rest) =? 255)%N then SFrame (b2n n + 2) else SReject.
Proof.
  intros Hl H. inversion H; subst.
  - exfalso. match goal with N : ~ In _ _ |- _ => apply N end. left; reflexivity.
  - cbn in *. unfold SOF in *. intuition discriminate.
  - exfalso. fold (b2N n) in *. rewrite <- b2n_b2N in *. lia.
  - assert (Hb : b2n n = List.length rest0).
    { fold (b2N n) in *. rewrite <- b2n_b2N in *. lia. }
    rewrite Hb. rewrite firstn_app, firstn_all, Nat.sub_diag. cbn [firstn]. rewrite app_nil_r.
    destruct (N.eqb_spec (xor_sum (n :: rest0)) 255); [contradiction|reflexivity].
  - match goal with F : frame _ |- _ => destruct F as [m r Hm Hx] end.
    match goal with E : _ = SOF :: n :: rest |- _ => cbn [app] in E; inversion E; subst end.
    assert (Hb : b2n n = List.length r).
    { fold (b2N n) in *. rewrite <- b2n_b2N in *. lia. }
    rewrite Hb. rewrite firstn_app, firstn_all, Nat.sub_diag. cbn [firstn]. rewrite app_nil_r.
    rewrite Hx. cbn [N.eqb Pos.eqb List.length]. f_equal. lia.
Qed.

Lemma shape_sof_short n rest s :
  (List.length rest < b2n n)%nat -> shape_of (SOF :: n :: rest) s -> s = SMore (b2n n + 2).
Proof.
  intros Hl H. inversion H; subst.
  - exfalso. match goal with N : ~ In _ _ |- _ => apply N end. left; reflexivity.
  - cbn in *. unfold SOF in *. intuition discriminate.
  - reflexivity.
  - exfalso. fold (b2N n) in *. rewrite <- b2n_b2N in *. rewrite app_length in Hl. lia.
  - match goal with F : frame _ |- _ => destruct F as [m r Hm Hx] end.
    match goal with E : _ = SOF :: n :: rest |- _ => cbn [app] in E; inversion E; subst end.
    exfalso. fold (b2N n) in *. rewrite <- b2n_b2N in *. rewrite app_length in Hl. lia.
Qed.

Lemma shape_control b l s : In b [ACK; NAK; CAN] -> shape_of (b :: l) s -> s = SControl.
Proof.
  intros Hb H. inversion H; subst; auto.
  - exfalso. match goal with N : ~ In _ _ |- _ => apply N end. right. exact Hb.
  - cbn in Hb. unfold SOF in *. exfalso; intuition discriminate.
  - cbn in Hb. unfold SOF in *. exfalso; intuition discriminate.
  - cbn in Hb. unfold SOF in *. exfalso; intuition discriminate.
  - match goal with F : frame _ |- _ => destruct F as [m r Hm Hx] end.
    cbn in *. unfold SOF in *. exfalso.
    match goal with E : _ = b :: l |- _ => inversion E; subst end. intuition discriminate.
Qed.

Lemma shape_garbage b l s : ~ In b [SOF; ACK; NAK; CAN] -> shape_of (b :: l) s -> s = SReject.
Proof.
  intros Hb H. inversion H; subst; auto.
  - exfalso. apply Hb. right. assumption.
  - exfalso. apply Hb. left; reflexivity.
  - exfalso. apply Hb. left; reflexivity.
  - match goal with F : frame _ |- _ => destruct F as [m r Hm Hx] end.
    match goal with E : _ = b :: l |- _ => inversion E; subst end.
    exfalso. apply Hb. left; reflexivity.
Qed.

Lemma shape_sof1 s : shape_of [SOF] s -> s = SMore 2.
Proof.
  intros H. inversion H; subst; auto.
  - exfalso. match goal with N : ~ In _ _ |- _ => apply N end. left; reflexivity.
  - cbn in *. unfold SOF in *. exfalso; intuition discriminate.
  - match goal with F : frame _ |- _ => destruct F as [m r Hm Hx] end. discriminate.
Qed.

Lemma shape_unique l s1 s2 : shape_of l s1 -> shape_of l s2 -> s1 = s2.
Proof.
  intros H1 H2. destruct l as [|b l].
  { inversion H1; subst. match goal with F : frame _ |- _ => destruct F end. discriminate. }
  destruct (start_dec b) as [->|[H|H]].
  - destruct l as [|n rest].
    + rewrite (shape_sof1 _ H1), (shape_sof1 _ H2). reflexivity.
    + destruct (Nat.lt_ge_cases (List.length rest) (b2n n)) as [Hl|Hl].
      * rewrite (shape_sof_short _ _ _ Hl H1), (shape_sof_short _ _ _ Hl H2). reflexivity.
      * rewrite (shape_sof_complete _ _ _ Hl H1), (shape_sof_complete _ _ _ Hl H2). reflexivity.
  - rewrite (shape_control _ _ _ H H1), (shape_control _ _ _ H H2). reflexivity.
  - rewrite (shape_garbage _ _ _ H H1), (shape_garbage _ _ _ H H2). reflexivity.
Qed.

(** The result of Decode for each shape. *)
Lemma decode_by_shape d s :
  shape_of (els d) s ->
  decode d =
    match s with
    | SMore k => Ok (mkDecoded (Z.of_nat k) None None, d)
    | SControl => ctl d
    | SFrame k => finish k (zeroed d k) (new_message (zeroed d k))
    | SReject =>
        match els d with
        | x01 :: n :: _ => Ok (mkDecoded (-1) None (Some EChecksum), zeroed d (b2n n + 2))
        | _ => Ok (mkDecoded (-1) None None, d)
        end
    end.
Proof.
  destruct d as [l sp]. cbn [els]. intros H. destruct l as [|b l].
  { inversion H; subst. match goal with F : frame _ |- _ => destruct F end. discriminate. }
  destruct (start_dec b) as [->|[Hb|Hb]].
  - destruct l as [|n rest].
    + apply shape_sof1 in H. subst s. reflexivity.
    + destruct (Nat.lt_ge_cases (List.length rest) (b2n n)) as [Hl|Hl].
      * rewrite (shape_sof_short _ _ _ Hl H). now apply decode_short.
      * rewrite (shape_sof_complete _ _ _ Hl H). rewrite decode_sof by assumption.
        destruct (N.eqb_spec (xor_sum (n :: firstn (b2n n) rest)) 255); reflexivity.
  - rewrite (shape_control _ _ _ Hb H). now apply decode_control.
  - rewrite (shape_garbage _ _ _ Hb H). rewrite decode_garbage by assumption.
    destruct b; try reflexivity. exfalso. apply Hb. left; reflexivity.
Qed.

(** Bounds relating a shape to the buffer. *)
Lemma shape_bounds l s : shape_of l s ->
  match s with
  | SMore k => (List.length l < k)%nat
  | SFrame k => (2 <= k <= List.length l)%nat
  | SControl | SReject => (1 <= List.length l)%nat
  end.
Proof.
  intros [b l' _|b l' _| |n rest Hn|n rest tail _ _|f tail Hf]; cbn [List.length]; try lia.
  apply frame_length in Hf. rewrite app_length. lia.
Qed.

(** Two-part statement used by C02. *)
Lemma decode_shape d r d' s :
  decode d = Ok (r, d') -> shape_of (els d) s -> d_len r = shape_code s.
Proof.
  intros H Hs. rewrite (decode_by_shape d s Hs) in H. destruct s as [k| | |k]; cbn [shape_code].
  - now inversion H.
  - destruct (els d) as [|[] [|n t]]; now inversion H.
  - unfold ctl in H. destruct (new_message d); now inversion H.
  - unfold finish in H. destruct (new_message (zeroed d k)); now inversion H.
Qed.

Lemma decode_outcome d r d' s :
  decode d = Ok (r, d') -> shape_of (els d) s ->
  match s with
  | SMore _ => d_msg r = None /\ d_err r = None
  | SReject => d_msg r = None /\ (d_err r = None <-> nth_error (els d) 0 <> Some SOF)
  | SControl => d_err r = None
  | SFrame _ => d_err r = None <-> d_msg r <> None
  end.
Proof.
  intros H Hs. rewrite (decode_by_shape d s Hs) in H. destruct s as [k| | |k].
  - inversion H; subst. auto.
  - destruct (els d) as [|b t] eqn:E.
    { inversion H. split; [reflexivity|]. split; [discriminate|reflexivity]. }
    destruct (beq_spec b SOF) as [->|Hb].
    + destruct t as [|n t].
      { exfalso. apply shape_sof1 in Hs. discriminate. }
      inversion H; subst. cbn. split; [reflexivity|]. split; [discriminate|].
      intros N. now contradiction N.
    + assert (Hr : r = mkDecoded (-1) None None).
      { destruct b; now inversion H. }
      subst r. cbn. split; [reflexivity|]. split; [congruence|reflexivity].
  - unfold ctl in H. destruct (new_message d); now inversion H.
  - unfold finish in H. destruct (new_message (zeroed d k)); inversion H; subst; cbn;
      split; congruence.
Qed.

(** Effect on the buffer. *)
Lemma decode_effect d r d' :
  decode d = Ok (r, d') ->
  spare d' = spare d /\
  (d' = d \/
   exists n rest, els d = SOF :: n :: rest /\ (b2n n <= List.length rest)%nat /\
     d' = zeroed d (b2n n + 2)).
Proof.
  intros H. assert (Hnil : els d <> []).
  { intros E. unfold decode in H. rewrite E in H. discriminate. }
  destruct (shape_total (els d) Hnil) as [s Hs].
  rewrite (decode_by_shape d s Hs) in H.
  assert (Hcomplete : forall n rest, els d = SOF :: n :: rest ->
            (s = SReject \/ exists k, s = SFrame k) -> (b2n n <= List.length rest)%nat).
  { intros n rest E' Hcase. destruct (Nat.lt_ge_cases (List.length rest) (b2n n)) as [Hl|Hl]; [|exact Hl].
    rewrite E' in Hs. apply (shape_sof_short _ _ _ Hl) in Hs. subst s.
    destruct Hcase as [Hc|[k Hc]]; discriminate. }
  destruct s as [k| | |k].
  - inversion H; subst. auto.
  - destruct (els d) as [|c l'] eqn:E2; [congruence|].
    destruct (beq_spec c SOF) as [->|Hc].
    + destruct l' as [|n rest].
      * inversion H; subst. auto.
      * inversion H; subst. cbn. split; [reflexivity|]. right.
        exists n, rest. split; [reflexivity|]. split; [|reflexivity].
        apply (Hcomplete n rest); auto.
    + assert (Hd : d' = d).
      { destruct c; now inversion H. }
      subst. auto.
  - unfold ctl in H. destruct (new_message d); inversion H; subst; auto.
  - assert (Hd : d' = zeroed d k).
    { unfold finish in H. destruct (new_message (zeroed d k)); now inversion H. }
    subst d'. cbn. split; [reflexivity|]. right.
    inversion Hs as [| | | | |f tail Hf Hft Hk]. subst k.
    destruct Hf as [n rest Hn Hx]. cbn [app] in Hft.
    exists n, (rest ++ tail). rewrite <- Hft in *. split; [reflexivity|].
    assert (Hb : b2n n = List.length rest).
    { fold (b2N n) in *. rewrite <- b2n_b2N in *. lia. }
    rewrite app_length. split; [lia|]. f_equal. cbn [List.length]. lia.
Qed.

(** ** A damaged frame is rejected (C03) *)
Lemma xor_sum_change l1 l2 a b :
  xor_sum (l1 ++ a :: l2) = xor_sum (l1 ++ b :: l2) -> a = b.
Proof.
  rewrite !xor_sum_app. cbn [xor_sum fold_right]. fold (xor_sum l2). fold (b2N a). fold (b2N b).
  intros H. apply b2N_inj.
  assert (Hc : forall x y z, N.lxor x y = N.lxor x z -> y = z).
  { intros x y z Hxy. rewrite <- (N.lxor_0_l y), <- (N.lxor_0_l z), <- (N.lxor_nilpotent x).
    rewrite !N.lxor_assoc. now rewrite Hxy. }
  apply Hc in H. rewrite (N.lxor_comm (b2N a)), (N.lxor_comm (b2N b)) in H. now apply Hc in H.
Qed.

Lemma damaged_rejected f tail sp i b :
  frame f -> (2 <= i < List.length f)%nat -> nth_error f i <> Some b ->
  exists d', decode {| els := set_nth i b (f ++ tail); spare := sp |}
             = Ok (mkDecoded (-1) None (Some EChecksum), d').
Proof.
  intros Hf Hi Hne. destruct Hf as [n rest Hn Hx].
  destruct i as [|[|i]]; try lia. cbn [set_nth app]. cbn in Hne.
  assert (Hb : b2n n = List.length rest).
  { fold (b2N n) in *. rewrite <- b2n_b2N in *. lia. }
  cbn [List.length] in Hi.
  rewrite set_nth_app_l by lia.
  rewrite decode_sof.
  2:{ rewrite app_length, set_nth_length. lia. }
  replace (firstn (b2n n) (set_nth i b rest ++ tail)) with (set_nth i b rest).
  2:{ rewrite Hb, firstn_app, set_nth_length, Nat.sub_diag. cbn [firstn]. rewrite app_nil_r.
      rewrite <- (set_nth_length i b rest). now rewrite firstn_all. }
  destruct (nth_error_ex rest i) as [a Ha]; [lia|].
  pose proof (nth_error_split_at _ _ _ Ha) as Hsp.
  assert (Hset : set_nth i b rest = firstn i rest ++ b :: skipn (S i) rest).
  { eapply set_nth_split; [exact Hsp|]. rewrite firstn_length. lia. }
  destruct (N.eqb_spec (xor_sum (n :: set_nth i b rest)) 255) as [Heq|_].
  - exfalso. apply Hne. rewrite Ha. f_equal.
    rewrite Hset in Heq. rewrite Hsp in Hx. rewrite <- Hx in Heq.
    symmetry. apply (xor_sum_change (n :: firstn i rest) (skipn (S i) rest)). exact Heq.
  - eexists. reflexivity.
Qed.

(** C02 in iff form. *)
Lemma decode_classifies d r d' :
  decode d = Ok (r, d') ->
  let n := Z.of_nat (List.length (els d)) in
  ((n < d_len r)%Z <-> exists k, shape_of (els d) (SMore k) /\ d_len r = Z.of_nat k) /\
  (d_len r = (-1)%Z <-> shape_of (els d) SReject) /\
  (d_len r = 1%Z <-> shape_of (els d) SControl) /\
  ((2 <= d_len r <= n)%Z <-> exists k, shape_of (els d) (SFrame k) /\ d_len r = Z.of_nat k) /\
  ((n < d_len r)%Z \/ d_len r = (-1)%Z \/ d_len r = 1%Z \/ (2 <= d_len r <= n)%Z).
Proof.
  intros H n. assert (Hnil : els d <> []).
  { intros E. unfold decode in H. rewrite E in H. discriminate. }
  destruct (shape_total (els d) Hnil) as [s Hs].
  pose proof (decode_shape d r d' s H Hs) as Hlen.
  pose proof (shape_bounds _ _ Hs) as Hb.
  assert (Hu : forall s', shape_of (els d) s' <-> s' = s).
  { intros s'. split; [intros Hs'; eapply shape_unique; eauto | intros ->; exact Hs]. }
  assert (Hm : forall c, (exists k, shape_of (els d) (SMore k) /\ c = Z.of_nat k)
                 <-> exists k, s = SMore k /\ c = Z.of_nat k).
  { intros c. split; intros [k [Hk Hc]]; exists k; (split; [|exact Hc]).
    - symmetry. now apply Hu.
    - now apply Hu. }
  assert (Hf : forall c, (exists k, shape_of (els d) (SFrame k) /\ c = Z.of_nat k)
                 <-> exists k, s = SFrame k /\ c = Z.of_nat k).
  { intros c. split; intros [k [Hk Hc]]; exists k; (split; [|exact Hc]).
    - symmetry. now apply Hu.
    - now apply Hu. }
  rewrite Hm, Hf, !Hu, Hlen. unfold n. clear Hm Hf Hu H Hs Hlen.
  assert (Hpos : (1 <= List.length (els d))%nat).
  { destruct (els d); [contradiction|cbn; lia]. }
  destruct s as [k| | |k]; cbn [shape_code];
    (split; [|split; [|split; [|split]]]); try lia;
    (split; [intros HH | first [intros [k0 [E0 E1]] | intros E0]]);
    try discriminate; try lia; try reflexivity;
    try (exists k; split; reflexivity); exfalso; lia.
Qed.

Lemma damaged_rejected_split pre a b post tail sp :
  frame (pre ++ a :: post) -> (2 <= List.length pre)%nat -> a <> b ->
  exists d', decode {| els := pre ++ b :: post ++ tail; spare := sp |}
             = Ok (mkDecoded (-1) None (Some EChecksum), d').
Proof.
  intros Hf Hp Hab.
  replace (pre ++ b :: post ++ tail) with (set_nth (List.length pre) b ((pre ++ a :: post) ++ tail)).
  2:{ rewrite <- app_assoc. cbn [app]. apply set_nth_app_r. }
  apply damaged_rejected; [exact Hf| |].
  - rewrite app_length. cbn [List.length]. lia.
  - rewrite nth_error_app2, Nat.sub_diag by lia. cbn. congruence.
Qed.
