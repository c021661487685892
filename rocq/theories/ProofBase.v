(** Lemmas about bytes, lists and slices. *)
From Verif Require Import ModelBase.
From Coq Require Import ZifyBool ZifyNat ZifyN Arith.
Ltac Zify.zify_post_hook ::= Z.div_mod_to_equations.

Lemma b2N_lt b : (b2N b < 256)%N.
Proof. unfold b2N. pose proof (Byte.to_N_bounded b). lia. Qed.

Lemma b2n_lt b : (b2n b < 256)%nat.
Proof. pose proof (b2N_lt b). unfold b2n, b2N in *. lia. Qed.

Lemma b2n_b2N b : N.of_nat (b2n b) = b2N b.
Proof. unfold b2n, b2N. lia. Qed.

Lemma b2N_N2b n : b2N (N2b n) = (n mod 256)%N.
Proof.
  unfold N2b. destruct (Byte.of_N (n mod 256)) as [b|] eqn:E.
  - apply Byte.to_of_N in E. exact E.
  - apply Byte.of_N_None_iff in E. lia.
Qed.

Lemma b2N_inj a b : b2N a = b2N b -> a = b.
Proof.
  unfold b2N. intros H. pose proof (Byte.of_to_N a) as Ha. pose proof (Byte.of_to_N b) as Hb.
  rewrite H in Ha. congruence.
Qed.

Lemma b2n_inj a b : b2n a = b2n b -> a = b.
Proof. intros H. apply b2N_inj. rewrite <- !b2n_b2N. now rewrite H. Qed.

Lemma N2b_b2N b : N2b (b2N b) = b.
Proof. apply b2N_inj. rewrite b2N_N2b. apply N.mod_small, b2N_lt. Qed.

Lemma N2b_small n : (n < 256)%N -> b2N (N2b n) = n.
Proof. intros H. rewrite b2N_N2b. now apply N.mod_small. Qed.

Lemma beq_true a b : beq a b = true <-> a = b.
Proof. unfold beq. destruct (Byte.byte_eq_dec a b) as [->|n].
  - split; [reflexivity|]. intros _. now apply Byte.byte_dec_lb.
  - split; intros H; [now apply Byte.byte_dec_bl in H | contradiction].
Qed.

Lemma beq_refl a : beq a a = true.
Proof. now apply beq_true. Qed.

Lemma beq_false a b : beq a b = false <-> a <> b.
Proof. rewrite <- beq_true. destruct (beq a b); split; congruence. Qed.

Lemma beq_spec a b : reflect (a = b) (beq a b).
Proof. destruct (beq a b) eqn:E; constructor; [now apply beq_true | now apply beq_false]. Qed.

Lemma lt_pow2_shiftr a n : (a < 2 ^ n <-> N.shiftr a n = 0)%N.
Proof.
  rewrite N.shiftr_div_pow2.
  assert (2 ^ n <> 0)%N by (apply N.pow_nonzero; lia).
  symmetry. now apply N.div_small_iff.
Qed.

Lemma lxor_lt a b n : (a < 2 ^ n -> b < 2 ^ n -> N.lxor a b < 2 ^ n)%N.
Proof. rewrite !lt_pow2_shiftr, N.shiftr_lxor. intros -> ->. reflexivity. Qed.

Lemma land_lt a b n : (a < 2 ^ n -> N.land a b < 2 ^ n)%N.
Proof. rewrite !lt_pow2_shiftr, N.shiftr_land. intros ->. apply N.land_0_l. Qed.

Lemma b2N_xor8 a b : b2N (xor8 a b) = N.lxor (b2N a) (b2N b).
Proof.
  unfold xor8. apply N2b_small.
  apply (lxor_lt _ _ 8); apply b2N_lt.
Qed.

Lemma b2N_not8 a : b2N (not8 a) = N.lxor (b2N a) 255.
Proof. unfold not8. apply N2b_small. apply (lxor_lt _ _ 8); [apply b2N_lt | reflexivity]. Qed.

Lemma b2N_and8 a b : b2N (and8 a b) = N.land (b2N a) (b2N b).
Proof. unfold and8. apply N2b_small. apply (land_lt _ _ 8). apply b2N_lt. Qed.

(** Lifting a check over the 256 bytes. *)
Definition all_bytes : list byte := map (fun n => N2b (N.of_nat n)) (seq 0 256).

Lemma all_bytes_complete b : In b all_bytes.
Proof.
  unfold all_bytes. apply in_map_iff. exists (b2n b). split.
  - rewrite b2n_b2N. apply N2b_b2N.
  - apply in_seq. pose proof (b2n_lt b). lia.
Qed.

Lemma forall_byte (P : byte -> bool) :
  forallb P all_bytes = true -> forall b, P b = true.
Proof. intros H b. rewrite forallb_forall in H. apply H, all_bytes_complete. Qed.

Lemma forall_byte2 (P : byte -> byte -> bool) :
  forallb (fun a => forallb (P a) all_bytes) all_bytes = true -> forall a b, P a b = true.
Proof. intros H a b. apply (forall_byte (P a)). revert a. now apply forall_byte. Qed.

(** ** Lists *)
Lemma set_nth_length {A} i (v : A) l : List.length (set_nth i v l) = List.length l.
Proof. revert i; induction l as [|x l IH]; intros [|i]; cbn; auto. Qed.

Lemma set_nth_same {A} i (v : A) l :
  (i < List.length l)%nat -> nth_error (set_nth i v l) i = Some v.
Proof. revert i; induction l as [|x l IH]; intros [|i] H; cbn in *; try lia; auto. apply IH; lia. Qed.

Lemma set_nth_other {A} i j (v : A) l :
  i <> j -> nth_error (set_nth i v l) j = nth_error l j.
Proof.
  revert i j; induction l as [|x l IH]; intros [|i] [|j] H; cbn; auto; try lia.
Qed.

Lemma set_nth_app_r {A} (v x : A) l r : set_nth (List.length l) v (l ++ x :: r) = l ++ v :: r.
Proof. induction l as [|y l IH]; cbn; [reflexivity | now rewrite IH]. Qed.

Lemma set_nth_app_l {A} i (v : A) l r :
  (i < List.length l)%nat -> set_nth i v (l ++ r) = set_nth i v l ++ r.
Proof. revert i; induction l as [|y l IH]; intros [|i] H; cbn in *; try lia; auto. rewrite IH by lia. reflexivity. Qed.

Lemma set_nth_split {A} i (v : A) l x l1 l2 :
  l = l1 ++ x :: l2 -> i = List.length l1 -> set_nth i v l = l1 ++ v :: l2.
Proof. intros -> ->. apply set_nth_app_r. Qed.

Lemma nth_error_split_at {A} (l : list A) i x :
  nth_error l i = Some x -> l = firstn i l ++ x :: skipn (S i) l.
Proof.
  revert i; induction l as [|y l IH]; intros [|i] H; cbn in *; try congruence.
  f_equal. now apply IH.
Qed.

Lemma nth_error_ex {A} (l : list A) i :
  (i < List.length l)%nat -> exists x, nth_error l i = Some x.
Proof. intros H. apply nth_error_Some in H. destruct (nth_error l i); [eauto | contradiction]. Qed.

Lemma firstn_set_nth {A} i (v : A) l : firstn i (set_nth i v l) = firstn i l.
Proof. revert i; induction l as [|y l IH]; intros [|i]; cbn; auto. now rewrite IH. Qed.

Lemma idx_ok l i b : idx l i = Ok b <-> nth_error l i = Some b.
Proof. unfold idx. destruct (nth_error l i); split; congruence. Qed.

Lemma idx_panic l i : idx l i = Panic <-> (List.length l <= i)%nat.
Proof. unfold idx. rewrite <- nth_error_None. destruct (nth_error l i); split; congruence. Qed.

Lemma idx_not_fail l i e : idx l i <> Fail e.
Proof. unfold idx. destruct (nth_error l i); congruence. Qed.

Lemma idx_cases l i :
  (exists b, idx l i = Ok b /\ nth_error l i = Some b /\ (i < List.length l)%nat)
  \/ (idx l i = Panic /\ (List.length l <= i)%nat).
Proof.
  destruct (Nat.lt_ge_cases i (List.length l)) as [H|H].
  - left. destruct (nth_error_ex l i H) as [b Hb]. exists b. rewrite idx_ok. auto.
  - right. now rewrite idx_panic.
Qed.
