(** What a file that loads can contain: nodes that can be saved again. *)
From Coq Require Import ZArith Reals Floats.SpecFloat Lia Lra Permutation.
From Flocq Require Import Core BinarySingleNaN.
From Verif Require Import ModelBase ModelReports ModelNodes ModelList ModelJson SpecJson SpecFloat64 ModelConfig SpecConfig.
From Verif Require Import ProofBase ProofJson ProofConfig ProofFloat ProofFormat ProofStorable.
Local Open Scope string_scope.
Local Open Scope list_scope.

(** ** Strings read are UTF-8 *)
Lemma utf8_app a b : utf8 a -> utf8 b -> utf8 (a ++ b).
Proof.
  intros A B. induction A as [|k s L U IH]; [exact B|]. cbn [app].
  assert (LS : (S k <= List.length s)%nat) by (rewrite <- L; apply utf8_len_le).
  apply (utf8_step k).
  - clear - L. unfold utf8_len in *. destruct s as [|a s]; [discriminate|]. cbn [app].
    destruct (between x00 x7f a); [exact L|]. destruct s as [|b' s]; [discriminate|]. cbn [app].
    destruct (between xc2 xdf a); [exact L|]. destruct s as [|c s]; [discriminate|]. cbn [app].
    destruct (lead3 a b'); [exact L|]. destruct s as [|d s]; [discriminate|]. cbn [app]. exact L.
  - rewrite skipn_app. replace (S k - List.length s)%nat with O by lia. exact IH.
Qed.
Lemma utf8_one s : utf8_len s = List.length s -> utf8 s.
Proof. intros H. destruct s as [|b s]; [constructor|]. apply (utf8_step (List.length s)); [exact H|]. change (S (List.length s)) with (List.length (b :: s)). rewrite skipn_all. constructor. Qed.
Lemma utf8_first s : utf8 (firstn (utf8_len s) s).
Proof.
  apply utf8_one. rewrite firstn_length, Nat.min_l by apply utf8_len_le.
  unfold utf8_len. destruct s as [|a s]; [reflexivity|].
  destruct (between x00 x7f a) eqn:E1; [cbn; rewrite E1; reflexivity|]. destruct s as [|b s]; [reflexivity|].
  destruct (between xc2 xdf a) eqn:E2; [destruct (cont b) eqn:C; cbn; [rewrite E1, E2, C; reflexivity|reflexivity]|].
  destruct s as [|c s]; [reflexivity|].
  destruct (lead3 a b) eqn:E3; [destruct (cont c) eqn:C; cbn; [rewrite E1, E2, E3, C; reflexivity|reflexivity]|].
  destruct s as [|d s]; [reflexivity|].
  destruct (lead4 a b) eqn:E4; [|reflexivity]. destruct (cont c && cont d) eqn:C; [|reflexivity]. cbn. rewrite E1, E2, E3, E4, C. reflexivity.
Qed.
Lemma between_N x y n : (n < 256)%N -> between x y (N2b n) = ((b2N x <=? n) && (n <=? b2N y))%N.
Proof. intros H. unfold between. rewrite N2b_small by exact H. reflexivity. Qed.
Lemma beq_N n x : (n < 256)%N -> beq (N2b n) x = (n =? b2N x)%N.
Proof.
  intros H. destruct (N.eqb_spec n (b2N x)) as [->|E]; [rewrite N2b_b2N; apply beq_refl|].
  destruct (beq (N2b n) x) eqn:B; [|reflexivity]. apply beq_ok in B. subst x. rewrite N2b_small in E by exact H. congruence.
Qed.
Ltac nbool := repeat match goal with
  | |- context [(?a <=? ?b)%N] => destruct (N.leb_spec a b)
  | |- context [(?a =? ?b)%N] => destruct (N.eqb_spec a b)
  end; cbn [andb orb]; try reflexivity; try (exfalso; lia).
Lemma low6 r : N.land r 63 = (r mod 64)%N.
Proof. change 63%N with (N.ones 6). rewrite N.land_ones. reflexivity. Qed.
Lemma cont_low r : cont (N2b (128 + r mod 64)) = true.
Proof.
  pose proof (N.mod_lt r 64 ltac:(discriminate)). unfold cont. rewrite between_N by lia. change (b2N x80) with 128%N. change (b2N xbf) with 191%N. nbool.
Qed.
Definition upto (n : nat) : list N := map N.of_nat (seq 0 n).
Lemma in_upto n x : (x < N.of_nat n)%N -> In x (upto n).
Proof. intros H. apply in_map_iff. exists (N.to_nat x). split; [apply N2Nat.id|]. apply in_seq. lia. Qed.
Lemma three_bytes a b : (a < 16)%N -> (b < 64)%N -> (a = 0 -> 32 <= b)%N -> (a = 13 -> b < 32)%N ->
  between x00 x7f (N2b (224 + a)) = false /\ between xc2 xdf (N2b (224 + a)) = false /\ lead3 (N2b (224 + a)) (N2b (128 + b)) = true.
Proof.
  intros A B Z1 Z2.
  assert (H : forallb (fun a => forallb (fun b => ((a =? 0) && (b <? 32) || (a =? 13) && (32 <=? b))%N ||
     (negb (between x00 x7f (N2b (224 + a))) && negb (between xc2 xdf (N2b (224 + a))) && lead3 (N2b (224 + a)) (N2b (128 + b)))) (upto 64)) (upto 16) = true)
    by (vm_compute; reflexivity).
  rewrite forallb_forall in H. specialize (H a (in_upto 16 a A)). rewrite forallb_forall in H. specialize (H b (in_upto 64 b B)). cbn beta in H.
  apply orb_true_iff in H as [H|H].
  - apply orb_true_iff in H as [H|H]; apply andb_true_iff in H as [H1 H2]; rewrite N.eqb_eq in H1; rewrite ?N.ltb_lt, ?N.leb_le in H2; lia.
  - rewrite !andb_true_iff, !negb_true_iff in H. tauto.
Qed.
Lemma four_bytes a b : (a < 5)%N -> (b < 64)%N -> (a = 0 -> 16 <= b)%N -> (a = 4 -> b < 16)%N ->
  between x00 x7f (N2b (240 + a)) = false /\ between xc2 xdf (N2b (240 + a)) = false /\ lead3 (N2b (240 + a)) (N2b (128 + b)) = false /\
  lead4 (N2b (240 + a)) (N2b (128 + b)) = true.
Proof.
  intros A B Z1 Z2.
  assert (H : forallb (fun a => forallb (fun b => ((a =? 0) && (b <? 16) || (a =? 4) && (16 <=? b))%N ||
     (negb (between x00 x7f (N2b (240 + a))) && negb (between xc2 xdf (N2b (240 + a))) && negb (lead3 (N2b (240 + a)) (N2b (128 + b))) && lead4 (N2b (240 + a)) (N2b (128 + b)))) (upto 64)) (upto 5) = true)
    by (vm_compute; reflexivity).
  rewrite forallb_forall in H. specialize (H a (in_upto 5 a A)). rewrite forallb_forall in H. specialize (H b (in_upto 64 b B)). cbn beta in H.
  apply orb_true_iff in H as [H|H].
  - apply orb_true_iff in H as [H|H]; apply andb_true_iff in H as [H1 H2]; rewrite N.eqb_eq in H1; rewrite ?N.ltb_lt, ?N.leb_le in H2; lia.
  - rewrite !andb_true_iff, !negb_true_iff in H. tauto.
Qed.
Lemma utf8_encoded r : (r < 1114112)%N -> is_surrogate r = false -> utf8 (utf8_encode r).
Proof.
  intros R S. unfold is_surrogate in S. apply utf8_one. unfold utf8_encode. rewrite !low6, !N.shiftr_div_pow2.
  change (2 ^ 6)%N with 64%N. change (2 ^ 12)%N with 4096%N. change (2 ^ 18)%N with 262144%N.
  destruct (N.ltb_spec r 128) as [L1|L1].
  { unfold utf8_len. rewrite between_N by lia. change (b2N x00) with 0%N. change (b2N x7f) with 127%N. nbool. }
  destruct (N.ltb_spec r 2048) as [L2|L2].
  { pose proof (N.div_lt_upper_bound r 64 32 ltac:(discriminate) ltac:(lia)) as A. pose proof (N.div_le_lower_bound r 64 2 ltac:(discriminate) ltac:(lia)) as B.
    unfold utf8_len. rewrite !between_N by lia. rewrite cont_low. change (b2N x00) with 0%N. change (b2N x7f) with 127%N. change (b2N xc2) with 194%N. change (b2N xdf) with 223%N. nbool. }
  destruct (N.ltb_spec r 65536) as [L3|L3].
  { pose proof (N.div_lt_upper_bound r 4096 16 ltac:(discriminate) ltac:(lia)) as A.
    pose proof (N.mod_lt (r / 64) 64 ltac:(discriminate)) as B.
    pose proof (N.div_mod (r / 64) 64 ltac:(discriminate)) as D2. rewrite N.div_div in D2 by discriminate. change (64 * 64)%N with 4096%N in D2.
    pose proof (N.div_mod r 64 ltac:(discriminate)) as D3. pose proof (N.mod_lt r 64 ltac:(discriminate)) as M3.
    apply andb_false_iff in S. rewrite N.leb_gt, N.ltb_ge in S.
    destruct (three_bytes (r / 4096) ((r / 64) mod 64) A B) as (E1 & E2 & E3); [lia|lia|].
    unfold utf8_len. rewrite E1, E2, E3, cont_low. reflexivity. }
  pose proof (N.div_lt_upper_bound r 262144 5 ltac:(discriminate) ltac:(lia)) as A.
  pose proof (N.mod_lt (r / 4096) 64 ltac:(discriminate)) as B.
  pose proof (N.div_mod (r / 4096) 64 ltac:(discriminate)) as D2. rewrite N.div_div in D2 by discriminate. change (4096 * 64)%N with 262144%N in D2.
  pose proof (N.div_mod r 4096 ltac:(discriminate)) as D3. pose proof (N.mod_lt r 4096 ltac:(discriminate)) as M3.
  destruct (four_bytes (r / 262144) ((r / 4096) mod 64) A B) as (E1 & E2 & E3 & E4); [lia|lia|].
  unfold utf8_len. rewrite E1, E2, E3, E4, !cont_low. reflexivity.
Qed.

Lemma unhex_small b n : unhex b = Some n -> (n < 16)%N.
Proof.
  unfold unhex, is_digit, between. change (b2N x30) with 48%N. change (b2N x39) with 57%N. change (b2N x61) with 97%N. change (b2N x66) with 102%N. change (b2N x41) with 65%N. change (b2N x46) with 70%N.
  destruct ((48 <=? b2N b) && (b2N b <=? 57))%N eqn:E1; [intros [= <-]; apply andb_true_iff in E1; rewrite !N.leb_le in E1; lia|].
  destruct ((97 <=? b2N b) && (b2N b <=? 102))%N eqn:E2; [intros [= <-]; apply andb_true_iff in E2; rewrite !N.leb_le in E2; lia|].
  destruct ((65 <=? b2N b) && (b2N b <=? 70))%N eqn:E3; [intros [= <-]; apply andb_true_iff in E3; rewrite !N.leb_le in E3; lia|discriminate].
Qed.
Lemma hex4_small s u r : hex4 s = Some (u, r) -> (u < 65536)%N.
Proof.
  unfold hex4. destruct s as [|a [|b [|c [|d s]]]]; try discriminate.
  destruct (unhex a) eqn:A; [|discriminate]. destruct (unhex b) eqn:B; [|discriminate]. destruct (unhex c) eqn:C; [|discriminate]. destruct (unhex d) eqn:D; [|discriminate].
  intros [= <- _]. apply unhex_small in A, B, C, D. lia.
Qed.
Lemma utf8_replacement : utf8 replacement. Proof. apply utf8_one. reflexivity. Qed.
Lemma utf8_ascii b : (b2N b < 128)%N -> utf8 [b].
Proof. intros H. apply utf8_one. cbn. unfold between. change (b2N x00) with 0%N. change (b2N x7f) with 127%N. nbool. Qed.
Lemma escape_utf8 s c r : p_escape s = Some (c, r) -> utf8 c.
Proof.
  unfold p_escape. destruct s as [|e s]; [discriminate|].
  destruct (beq e x22 || beq e x5c || beq e x2f) eqn:E.
  { intros [= <- _]. apply utf8_ascii. rewrite !orb_true_iff in E. destruct E as [[E|E]|E]; apply beq_ok in E; subst e; reflexivity. }
  destruct (beq e x62); [intros [= <- _]; now apply utf8_ascii|]. destruct (beq e x66); [intros [= <- _]; now apply utf8_ascii|].
  destruct (beq e x6e); [intros [= <- _]; now apply utf8_ascii|]. destruct (beq e x72); [intros [= <- _]; now apply utf8_ascii|].
  destruct (beq e x74); [intros [= <- _]; now apply utf8_ascii|]. destruct (beq e x75); [|discriminate].
  destruct (hex4 s) as [[u r2]|] eqn:H; [|discriminate]. apply hex4_small in H.
  destruct (is_surrogate u) eqn:S; [|intros [= <- _]; apply utf8_encoded; [lia|exact S]].
  destruct (strip [x5c; x75] r2) as [r3|]; [|intros [= <- _]; exact utf8_replacement].
  destruct (hex4 r3) as [[w r4]|] eqn:H2; [|discriminate].
  remember (65536 + (u - 55296) * 1024 + (w - 56320))%N as q eqn:Q.
  destruct ((u <? 56320) && (56320 <=? w) && (w <? 57344))%N eqn:C; intros [= <- _]; [|exact utf8_replacement].
  rewrite !andb_true_iff, N.leb_le, !N.ltb_lt in C. unfold is_surrogate in S. rewrite andb_true_iff, N.leb_le, N.ltb_lt in S.
  apply utf8_encoded; [lia|]. unfold is_surrogate. apply andb_false_iff. right. apply N.ltb_ge. lia.
Qed.
Lemma pstr_utf8 n : forall s t r, pstr n s = Some (t, r) -> utf8 t.
Proof.
  induction n as [|n IH]; intros s t r H; [discriminate|]. cbn [pstr] in H. destruct s as [|b s]; [discriminate|].
  destruct (beq b x22); [injection H as <- _; constructor|].
  destruct (p_char (b :: s)) as [[c r1]|] eqn:C; [|discriminate]. destruct (pstr n r1) as [[t2 r2]|] eqn:E; [|discriminate]. injection H as <- _.
  apply utf8_app; [|exact (IH _ _ _ E)]. unfold p_char in C. destruct (beq b x5c); [exact (escape_utf8 _ _ _ C)|]. destruct (b2N b <? 32)%N; [discriminate|].
  destruct (utf8_len (b :: s)) as [|k] eqn:L; injection C as <- _; [exact utf8_replacement|].
  change (utf8 (firstn (S k) (b :: s))). rewrite <- L. apply utf8_first.
Qed.

(** Documents whose strings are all UTF-8. *)
Inductive clear : json -> Prop :=
| clear_null : clear JNull
| clear_bool : forall b, clear (JBool b)
| clear_num : forall l, clear (JNum l)
| clear_str : forall s, utf8 s -> clear (JStr s)
| clear_arr : forall l, (forall v, In v l -> clear v) -> clear (JArr l)
| clear_obj : forall l, (forall k v, In (k, v) l -> utf8 k /\ clear v) -> clear (JObj l).
Lemma parse_clear n :
  (forall s v r, pval n s = Some (v, r) -> clear v)
  /\ (forall s l r, parr n s = Some (l, r) -> forall v, In v l -> clear v)
  /\ (forall s l r, pobj n s = Some (l, r) -> forall k v, In (k, v) l -> utf8 k /\ clear v).
Proof.
  induction n as [|n (V & A & O)]; [repeat split; try discriminate|]. split; [|split].
  - intros s v r. rewrite pval_eq. destruct (skip_ws s) as [|b r0]; [discriminate|]. unfold p_word.
    destruct (beq b x6e); [destruct (strip _ r0); [intros [= <- _]; constructor|discriminate]|].
    destruct (beq b x74); [destruct (strip _ r0); [intros [= <- _]; constructor|discriminate]|].
    destruct (beq b x66); [destruct (strip _ r0); [intros [= <- _]; constructor|discriminate]|].
    destruct (beq b x22).
    { destruct (p_string r0) as [[t r']|] eqn:P; [|discriminate]. intros [= <- _]. constructor. exact (pstr_utf8 _ _ _ _ P). }
    destruct (beq b x5b).
    { destruct (after x5d r0); [intros [= <- _]; constructor; intros ? []|]. destruct (parr n r0) as [[l r']|] eqn:P; [|discriminate].
      intros [= <- _]. constructor. exact (A _ _ _ P). }
    destruct (beq b x7b).
    { destruct (after x7d r0); [intros [= <- _]; constructor; intros ? ? []|]. destruct (pobj n r0) as [[l r']|] eqn:P; [|discriminate].
      intros [= <- _]. constructor. exact (O _ _ _ P). }
    destruct (p_num (b :: r0)) as [[l r']|]; [intros [= <- _]; constructor|discriminate].
  - intros s l r. rewrite parr_eq. destruct (pval n s) as [[v r0]|] eqn:P; [|discriminate]. apply V in P.
    destruct (after x5d r0); [intros [= <- _] w [<-|[]]; exact P|]. destruct (after x2c r0) as [r'|]; [|discriminate].
    destruct (parr n r') as [[l' r'']|] eqn:P2; [|discriminate]. intros [= <- _] w [<-|I]; [exact P|exact (A _ _ _ P2 _ I)].
  - intros s l r. rewrite pobj_eq. destruct (after x22 s) as [r0|]; [|discriminate]. destruct (p_string r0) as [[k r1]|] eqn:K; [|discriminate].
    apply pstr_utf8 in K. destruct (after x3a r1) as [r2|]; [|discriminate]. destruct (pval n r2) as [[v r3]|] eqn:P; [|discriminate]. apply V in P.
    destruct (after x7d r3); [intros [= <- _] k' w [[= <- <-]|[]]; now split|]. destruct (after x2c r3) as [r'|]; [|discriminate].
    destruct (pobj n r') as [[l' r'']|] eqn:P2; [|discriminate]. intros [= <- _] k' w [[= <- <-]|I]; [now split|exact (O _ _ _ P2 _ _ I)].
Qed.
Lemma read_clear s d r : jread s = Some (d, r) -> clear d.
Proof. intros H. exact (proj1 (parse_clear _) _ _ _ H). Qed.

(** ** Numbers read are doubles *)
Lemma decimal_valid neg m e : valid_binary 53 1024 (decimal neg m e) = true.
Proof.
  unfold decimal. destruct m as [|p|p]; [reflexivity| |reflexivity].
  assert (W : forall z, valid_binary 53 1024 (SpecFloat.binary_normalize 53 1024 z 0 neg) = true).
  { intros z. destruct z as [|q|q]; cbn [SpecFloat.binary_normalize]; [reflexivity| |]; rewrite round_equiv;
      [exact (proj1 (binary_round_correct 53 1024 Hprec Hmax mode_NE false q 0))|exact (proj1 (binary_round_correct 53 1024 Hprec Hmax mode_NE true q 0))]. }
  destruct e as [|k|k]; [apply W|apply W|].
  pose proof (Bdiv_correct_aux 53 1024 Hprec Hmax mode_NE neg p 0 false (pow10 (Npos k)) 0) as H. cbv zeta in H.
  cbn [SFdiv]. destruct (SFdiv_core_binary 53 1024 (Z.pos p) 0 (Z.pos (pow10 (Npos k))) 0) as [[mz ez] lz].
  rewrite round_aux_equiv. exact (proj1 H).
Qed.
Lemma parse_float_double s f : parse_float s = Some f -> is_double f.
Proof.
  intros H. pose proof (parse_float_finite _ _ H) as F. split; [|destruct f; try discriminate F; exact I].
  unfold parse_float in H. destruct (match strip [x2d] s with Some r => (true, r) | None => (false, s) end) as [neg s0].
  destruct (digits s0) as [a s1]. destruct (match strip [x2e] s1 with Some r => digits r | None => ([], s1) end) as [b s2].
  destruct (parse_nat (a ++ b)) as [m|]; [|discriminate].
  match type of H with match ?x with _ => _ end = _ => destruct x as [e|]; [|discriminate] end.
  pose proof (decimal_valid neg m (e - Z.of_nat (List.length b))) as V. destruct (decimal neg m _); try discriminate; injection H as <-; exact V.
Qed.

(** ** Decoders keep what is good *)
Definition dinv {A} (P : A -> Prop) (d : dec A) : Prop := forall p j b ok, clear j -> P p -> d p j = (b, ok) -> P b.
Definition on_some {A} (P : A -> Prop) (o : option A) : Prop := forall a, o = Some a -> P a.
Definition on_slice {A} (P : A -> Prop) (o : option (list (option A))) : Prop := forall l x, o = Some l -> In (Some x) l -> P x.
Definition anything {A} (_ : A) : Prop := True.
Lemma any_inv {A} (d : dec A) : dinv anything d. Proof. intros p j b ok _ _ _. exact I. Qed.
Lemma string_inv : dinv good_string dec_string.
Proof.
  intros p j b ok C P E. unfold dec_string in E. destruct C; injection E as <- _; try exact P.
  unfold good_string. rewrite string_txt. assumption.
Qed.
Lemma int_inv : dinv int64 dec_int.
Proof.
  intros p j b ok C P E. unfold dec_int in E. destruct C as [| |l| | |]; try (injection E as <- _; exact P).
  destruct (parse_Z l) as [z|]; [|injection E as <- _; exact P].
  destruct ((- 2 ^ 63 <=? z) && (z <? 2 ^ 63))%Z eqn:B; injection E as <- _; [|exact P].
  apply andb_true_iff in B as [B1 B2]. unfold int64. lia.
Qed.
Lemma float_inv : dinv is_double dec_float.
Proof.
  intros p j b ok C P E. unfold dec_float in E. destruct C as [| |l| | |]; try (injection E as <- _; exact P).
  destruct (parse_float l) as [f|] eqn:F; injection E as <- _; [|exact P]. exact (parse_float_double _ _ F).
Qed.
Lemma ptr_inv {A} (P : A -> Prop) zero (d : dec A) : dinv P d -> P zero -> dinv (on_some P) (dec_ptr zero d).
Proof.
  intros D Z p j b ok C Q E a ->. unfold dec_ptr in E.
  assert (PR : P (match p with Some a => a | None => zero end)) by (destruct p; [now apply Q|exact Z]).
  destruct (d (match p with Some a => a | None => zero end) j) as [x okx] eqn:DE. apply (D _ _ _ _ C PR) in DE.
  destruct C; try (injection E as <- _; exact DE). discriminate.
Qed.
Lemma slice_inv {A} (P : A -> Prop) zero (d : dec A) : dinv P d -> P zero -> dinv (on_slice P) (dec_slice (dec_ptr zero d)).
Proof.
  intros D Z p j b ok C Q E r x -> I. pose proof (ptr_inv P zero d D Z) as PI.
  assert (H : forall l, (forall v, In v l -> clear v) -> forall q r ok, (forall x, In (Some x) q -> P x) -> dec_elements (dec_ptr zero d) q l = (r, ok) ->
    forall x, In (Some x) r -> P x).
  { clear - PI Z. induction l as [|v l IH]; intros CV q r ok Q E x I; cbn [dec_elements] in E; [injection E as <- _; destruct I|].
    destruct (dec_ptr zero d (match q with a :: _ => a | [] => None end) v) as [a oka] eqn:DP.
    destruct (dec_elements (dec_ptr zero d) (match q with _ :: p => p | [] => [] end) l) as [r' ok'] eqn:DL. injection E as <- _.
    destruct I as [->|I].
    - refine (PI _ _ _ _ (CV v (or_introl eq_refl)) _ DP x eq_refl). intros y Y. apply Q. destruct q as [|o q]; [discriminate|]. left. exact Y.
    - refine (IH (fun w W => CV w (or_intror W)) _ _ _ _ DL x I). intros y Y. apply Q. destruct q; [destruct Y|now right]. }
  unfold dec_slice in E. destruct C as [| | | |l CV|l CV]; try (injection E as -> _; eapply Q; eauto); try discriminate.
  destruct (dec_elements _ _ l) as [r' ok'] eqn:DL. injection E as -> _. refine (H l CV _ _ _ _ DL x I).
  intros y Y. destruct p; [eapply Q; eauto|destruct Y].
Qed.
Lemma entries_inv {A} (P : A -> Prop) zero (d : dec A) l : dinv P d -> P zero -> (forall k v, In (k, v) l -> utf8 k /\ clear v) ->
  forall m m' ok, (forall k v, In (k, v) m -> good_string k /\ P v) -> dec_entries zero d m l = (m', ok) ->
  forall k v, In (k, v) m' -> good_string k /\ P v.
Proof.
  intros D Z. induction l as [|[k j] l IH]; intros CV m m' ok Q E; cbn [dec_entries] in E; [injection E as <- _; exact Q|].
  destruct (d zero j) as [a oka] eqn:DE. destruct (dec_entries zero d _ l) as [m2 ok2] eqn:DL. injection E as <- _.
  destruct (CV k j (or_introl eq_refl)) as [U C]. apply (D _ _ _ _ C Z) in DE.
  refine (IH (fun k v H => CV k v (or_intror H)) _ _ _ _ DL). intros k' v' I. apply aset_in in I as [[-> ->]|I]; [|now apply Q].
  split; [unfold good_string; rewrite string_txt; exact U|exact DE].
Qed.
Lemma map_inv {A} (P : A -> Prop) zero (d : dec A) : dinv P d -> P zero -> dinv (good_map P) (dec_map zero d).
Proof.
  intros D Z p j b ok C Q E. unfold dec_map in E. destruct C as [| | | |l CV|l CV]; try (injection E as <- _; first [exact Q|now intros ?]).
  destruct (dec_entries _ _ _ l) as [m ok'] eqn:DL. injection E as <- _. intros l' k v [= <-].
  refine (entries_inv P zero d l D Z CV _ _ _ _ DL k v). intros k' v' I. destruct p; [eapply Q; eauto|destruct I].
Qed.
Lemma struct_keep {A} (P : A -> Prop) (field : text -> dec A) : (forall k, dinv P (field k)) -> dinv P (dec_struct field).
Proof.
  intros F p j b ok C Q E. unfold dec_struct in E. destruct C as [| | | |l CV|l CV]; try (injection E as <- _; exact Q).
  revert p b ok Q E. induction l as [|[k j] l IH]; intros p b ok Q E; cbn [dec_fields] in E; [injection E as <- _; exact Q|].
  destruct (field k p j) as [a1 ok1] eqn:E1. destruct (dec_fields field a1 l) as [a2 ok2] eqn:E2. injection E as <- _.
  refine (IH (fun k v H => CV k v (or_intror H)) _ _ _ _ E2). exact (F k _ _ _ _ (proj2 (CV k j (or_introl eq_refl))) Q E1).
Qed.

Definition gclass (c : cclass) : Prop := good_string (cc_version c).
Definition gms (m : mspec) : Prop := good_string (ms_manufacturer m) /\ good_string (ms_type m) /\ good_string (ms_id m).
Definition gep (e : rendpoint) : Prop :=
  int64 (re_id e) /\ on_slice gclass (re_classes e) /\ good_map anything (re_bool e) /\ good_map is_double (re_float e).
Definition gnode (n : rnode) : Prop :=
  int64 (rn_id n) /\ good_string (rn_brand n) /\ good_string (rn_product n) /\ good_string (rn_description n) /\
  on_some gms (rn_ms n) /\ on_slice gclass (rn_classes n) /\ on_slice gep (rn_endpoints n) /\
  good_map anything (rn_bool n) /\ good_map is_double (rn_float n).
Lemma empty_string : good_string "". Proof. constructor. Qed.
Lemma int_zero : int64 0. Proof. unfold int64. lia. Qed.
Lemma class_inv k : dinv gclass (class_field k).
Proof.
  intros p j b ok C P E. unfold class_field in E.
  repeat match type of E with
  | (if ?x then _ else _) = _ => destruct x
  | (let '(_, _) := ?x in _) = _ => let D := fresh "D" in destruct x eqn:D
  end; injection E as <- _; try exact P.
  exact (string_inv _ _ _ _ C P D).
Qed.
Lemma classes_inv : dinv (on_slice gclass) dec_classes.
Proof. apply slice_inv; [apply struct_keep, class_inv|exact empty_string]. Qed.
Lemma ms_inv k : dinv gms (ms_field k).
Proof.
  intros p j b ok C P E. destruct P as (P1 & P2 & P3). unfold ms_field in E.
  repeat match type of E with
  | (if ?x then _ else _) = _ => destruct x
  | (let '(_, _) := ?x in _) = _ => let D := fresh "D" in destruct x eqn:D
  end; injection E as <- _; try (apply string_inv in D; auto); unfold gms; cbn [ms_manufacturer ms_type ms_id]; auto.
Qed.
Lemma bools_inv : dinv (good_map anything) (dec_map false dec_bool).
Proof. apply map_inv; [apply any_inv|exact I]. Qed.
Lemma floats_inv : dinv (good_map is_double) (dec_map (S754_zero false) dec_float).
Proof. apply map_inv; [exact float_inv|exact zero_double]. Qed.
Lemma endpoint_inv k : dinv gep (endpoint_field k).
Proof.
  intros p j b ok C P E. destruct P as (P1 & P2 & P3 & P4). unfold endpoint_field in E.
  destruct (is_field k "Id"); [destruct (dec_int _ j) eqn:D; injection E as <- _; exact (conj (int_inv _ _ _ _ C P1 D) (conj P2 (conj P3 P4)))|].
  destruct (is_field k "CommandClasses"); [destruct (dec_classes _ j) eqn:D; injection E as <- _; exact (conj P1 (conj (classes_inv _ _ _ _ C P2 D) (conj P3 P4)))|].
  destruct (is_field k "StateBool"); [destruct (dec_map _ _ _ j) eqn:D; injection E as <- _; exact (conj P1 (conj P2 (conj (bools_inv _ _ _ _ C P3 D) P4)))|].
  destruct (is_field k "StateFloat"); [destruct (dec_map _ _ _ j) eqn:D; injection E as <- _; exact (conj P1 (conj P2 (conj P3 (floats_inv _ _ _ _ C P4 D))))|].
  injection E as <- _. exact (conj P1 (conj P2 (conj P3 P4))).
Qed.
Lemma node_inv k : dinv gnode (node_field k).
Proof.
  intros p j b ok C P E. unfold gnode in *. destruct p as [id aw ms br pr de cl ep bo fl].
  cbn [rn_id rn_brand rn_product rn_description rn_ms rn_classes rn_endpoints rn_bool rn_float] in P. unfold node_field in E.
  destruct P as (P1 & P2 & P3 & P4 & P5 & P6 & P7 & P8 & P9).
  destruct (is_field k "id"); [destruct (dec_int _ j) eqn:D; injection E as <- _; cbn; pose proof (int_inv _ _ _ _ C P1 D); tauto|].
  destruct (is_field k "is_awake"); [destruct (dec_bool _ j) eqn:D; injection E as <- _; cbn; tauto|].
  destruct (is_field k "ManufacurerSpecific").
  { destruct (dec_ptr _ _ ms j) eqn:D; injection E as <- _.
    assert (X : on_some gms o).
    { refine (ptr_inv gms _ _ (struct_keep _ _ ms_inv) _ _ _ _ _ C P5 D). repeat split; exact empty_string. }
    cbn; tauto. }
  destruct (is_field k "Brand"); [destruct (dec_string _ j) eqn:D; injection E as <- _; pose proof (string_inv _ _ _ _ C P2 D); cbn; tauto|].
  destruct (is_field k "Product"); [destruct (dec_string _ j) eqn:D; injection E as <- _; pose proof (string_inv _ _ _ _ C P3 D); cbn; tauto|].
  destruct (is_field k "Description"); [destruct (dec_string _ j) eqn:D; injection E as <- _; pose proof (string_inv _ _ _ _ C P4 D); cbn; tauto|].
  destruct (is_field k "CommandClasses"); [destruct (dec_classes _ j) eqn:D; injection E as <- _; pose proof (classes_inv _ _ _ _ C P6 D); cbn; tauto|].
  destruct (is_field k "Endpoints").
  { destruct (dec_slice _ ep j) eqn:D; injection E as <- _.
    assert (X : on_slice gep o).
    { refine (slice_inv gep _ _ (struct_keep _ _ endpoint_inv) _ _ _ _ _ C P7 D). split; [exact int_zero|]. split; [now intros ?|]. split; now intros ?. }
    cbn; tauto. }
  destruct (is_field k "StateBool"); [destruct (dec_map _ _ _ j) eqn:D; injection E as <- _; pose proof (bools_inv _ _ _ _ C P8 D); cbn; tauto|].
  destruct (is_field k "StateFloat"); [destruct (dec_map _ _ _ j) eqn:D; injection E as <- _; pose proof (floats_inv _ _ _ _ C P9 D); cbn; tauto|].
  injection E as <- _. cbn; tauto.
Qed.
Lemma zero_gnode : gnode zero_rnode.
Proof.
  unfold gnode. cbn. split; [exact int_zero|]. do 3 (split; [exact empty_string|]). split; [intros ? ?; discriminate|].
  do 2 (split; [intros ? ? ?; discriminate|]). split; intros ? ? ? ?; discriminate.
Qed.
Lemma list_good j es : clear j -> list_entries j = Some es -> forall k n, In (k, Some n) es -> gnode n.
Proof.
  intros C L k n I. destruct C as [| | | |l CV|l CV]; try discriminate. cbn [list_entries] in L.
  destruct (dec_entries None _ [] l) as [m ok] eqn:D. destruct ok; [|discriminate]. injection L as ->.
  assert (N0 : on_some gnode None) by (intros ? ?; discriminate).
  assert (M0 : forall k v, In (k, v) (@nil (string * option rnode)) -> good_string k /\ on_some gnode v) by (intros ? ? []).
  pose proof (entries_inv (on_some gnode) None _ l (ptr_inv gnode _ _ (struct_keep _ _ node_inv) zero_gnode) N0 CV _ _ _ M0 D _ _ I) as [_ G].
  exact (G n eq_refl).
Qed.
Lemma radd_all_good es : forall m m', (forall k n, In (k, n) m -> gnode n) -> (forall k n, In (k, Some n) es -> gnode n) ->
  radd_all m es = Some m' -> forall k n, In (k, n) m' -> gnode n.
Proof.
  induction es as [|[k0 x] es IH]; intros m m' M E R; cbn [radd_all] in R; [injection R as <-; exact M|].
  destruct x as [n0|]; cbn [radd] in R; [|discriminate]. destruct (has_nil _); [discriminate|].
  refine (IH _ _ _ (fun k n H => E k n (or_intror H)) R).
  pose proof (E k0 n0 (or_introl eq_refl)) as G0.
  intros k n I. assert (X : n = n0 \/ In (k, n) m).
  { clear - I. induction m as [|[i w] m IH]; cbn in I; [destruct I as [I|[]]; injection I as <- <-; auto|].
    destruct (Z.eqb_spec (rn_id n0) i) as [<-|]; destruct I as [I|I]; try (injection I as <- <-); auto; try (right; now left); try (right; now right).
    destruct (IH I); [auto|right; now right]. }
  destruct X as [->|X]; eauto.
Qed.
Lemma fields_good c ok l x : fields_read c ok l x -> (forall k j, In (k, j) l -> clear j) ->
  (forall m, c = Some m -> keyed m /\ forall k n, In (k, n) m -> gnode n) ->
  forall m, x = LOk (Some (Some m)) -> keyed m /\ forall k n, In (k, n) m -> gnode n.
Proof.
  induction 1 as [c ok|c ok k j l r N F IH|c ok k l r N F IH|c ok k j l r N JN LE F IH|c ok k j l es es' N LE P R|c ok k j l r es es' m N LE P R F IH];
    intros CL C m0 X.
  - destruct ok; [|discriminate]. injection X as ->. auto.
  - apply IH; auto. intros; eapply CL; right; eauto.
  - apply IH; auto; [intros; eapply CL; right; eauto|discriminate].
  - apply IH; auto; [intros; eapply CL; right; eauto|]. intros m1 E1. injection E1 as <-. destruct c; [auto|]. split; [split; [constructor|intros ? ? []]|intros ? ? []].
  - discriminate.
  - apply IH; auto; [intros; eapply CL; right; eauto|]. intros m1 E1. injection E1 as <-.
    assert (C0 : keyed (match c with Some m => m | None => [] end) /\ forall k n, In (k, n) (match c with Some m => m | None => [] end) -> gnode n).
    { destruct c; [auto|]. split; [split; [constructor|intros ? ? []]|intros ? ? []]. }
    split; [exact (radd_all_keyed _ _ _ (proj1 C0) R)|].
    refine (radd_all_good es' _ m (proj2 C0) _ R). intros k1 n1 I1. eapply (list_good j es); [apply (CL k); now left|exact LE|].
    eapply Permutation_in; [apply Permutation_sym, P|exact I1].
Qed.
Lemma loaded_good s d m : read_config s d -> load_config d = Some (Some m) -> keyed m /\ forall k n, In (k, n) m -> gnode n.
Proof.
  intros R L. destruct R as [s J|s r J|s l r x J F|s j r J N O]; try discriminate.
  destruct x as [| |[[m'|]|]]; try discriminate. injection L as ->.
  refine (fields_good None true l _ F _ ltac:(discriminate) m eq_refl). intros k j I. apply read_clear in J. inversion J as [| | | | |l' CV]; subst. exact (proj2 (CV k j I)).
Qed.

(** ** Without null pointers they are nodes that can be saved *)
Lemma all_some_in {A} (l : list (option A)) r : all_some l = Some r -> l = map Some r.
Proof.
  revert r. induction l as [|[a|] l IH]; intros r H; cbn [all_some] in H; [injection H as <-; reflexivity| |discriminate].
  destruct (all_some l) as [r'|] eqn:E; [|discriminate]. injection H as <-. cbn [map]. now rewrite (IH _ eq_refl).
Qed.
Lemma slice_real {A} (P : A -> Prop) (o : option (list (option A))) r : on_slice P o -> opt_slice o = Some r -> forall l x, r = Some l -> In x l -> P x.
Proof.
  intros H S l x -> I. destruct o as [o|]; cbn [opt_slice] in S; [|discriminate]. destruct (all_some o) as [r'|] eqn:E; [|discriminate]. injection S as ->.
  apply all_some_in in E. subst o. apply (H _ _ eq_refl). now apply in_map.
Qed.
Lemma weaken_map {V} (P Q : V -> Prop) m : (forall v, P v -> Q v) -> good_map P m -> good_map Q m.
Proof. intros H G l k v E I. destruct (G l k v E I). auto. Qed.
Lemma real_storable fmt n n' : (forall f, is_double f -> faithful fmt f) -> gnode n -> real_node n = Some n' -> storable fmt n' /\ n_id n' = rn_id n.
Proof.
  intros FF (P1 & P2 & P3 & P4 & P5 & P6 & P7 & P8 & P9) E. unfold real_node in E.
  destruct (opt_slice (rn_classes n)) as [cl|] eqn:SC; [|discriminate]. destruct (opt_slice (rn_endpoints n)) as [ep|] eqn:SE; [|discriminate].
  match type of E with match ?x with _ => _ end = _ => destruct x as [ep'|] eqn:EP; [|discriminate] end. injection E as <-. split; [|reflexivity].
  constructor; cbn [n_id n_brand n_product n_description n_ms n_classes n_endpoints n_bool n_float]; auto.
  - intros l' c H. exact (slice_real gclass _ _ P6 SC l' c H).
  - intros l e -> I. destruct ep as [ep|]; [|discriminate]. destruct (all_some (map real_endpoint ep)) as [r|] eqn:AS; [|discriminate]. injection EP as ->.
    apply all_some_in in AS. assert (J : In (Some e) (map real_endpoint ep)) by (rewrite AS; now apply in_map).
    apply in_map_iff in J as (e0 & RE & I0). pose proof (slice_real gep _ _ P7 SE ep e0 eq_refl I0) as (Q1 & Q2 & Q3 & Q4).
    unfold real_endpoint in RE. destruct (opt_slice (re_classes e0)) as [ec|] eqn:SC0; [|discriminate]. injection RE as <-.
    split; [exact Q1|]. split; [intros l' c H; exact (slice_real gclass _ _ Q2 SC0 l' c H)|]. split; [exact Q3|exact (weaken_map _ _ _ FF Q4)].
  - exact (weaken_map _ _ _ FF P9).
Qed.
