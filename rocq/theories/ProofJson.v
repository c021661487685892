(** Proofs about JSON text. *)
From Verif Require Import ModelBase ModelJson SpecJson.

Lemma beq_ok a b : beq a b = true <-> a = b.
Proof. split; [apply Byte.byte_dec_bl|apply Byte.byte_dec_lb]. Qed.
Lemma beq_refl a : beq a a = true.
Proof. now apply beq_ok. Qed.
Lemma strip_app p s : strip p (p ++ s) = Some s.
Proof. induction p as [|a p IH]; cbn; [reflexivity|]. now rewrite beq_refl. Qed.
Lemma strip_split p : forall s r, strip p s = Some r -> s = p ++ r.
Proof.
  induction p as [|a p IH]; intros s r E; cbn in E; [now injection E|].
  destruct s as [|b s]; [discriminate|]. destruct (beq a b) eqn:B; [|discriminate].
  apply beq_ok in B. subst. cbn. f_equal. now apply IH.
Qed.

(** ** Strings *)
Lemma char_ascii b : between x00 x7f b = true -> exists c t, escape1 b = c :: t /\ beq c x22 = false /\
  forall r, p_char (escape1 b ++ r) = Some ([b], r).
Proof. destruct b; intros H; try discriminate H; eexists _, _; (split; [reflexivity|split; [reflexivity|intros r; reflexivity]]). Qed.
Lemma utf8_len_one s : utf8_len s = 1 -> exists b r, s = b :: r /\ between x00 x7f b = true.
Proof.
  destruct s as [|a s]; [discriminate|]. cbn. destruct (between x00 x7f a) eqn:E; [eauto|].
  destruct s as [|b s]; [discriminate|]. destruct (between xc2 xdf a); [destruct (cont b); discriminate|].
  destruct s as [|c s]; [discriminate|]. destruct (lead3 a b); [destruct (cont c); discriminate|].
  destruct s as [|d s]; [discriminate|]. destruct (lead4 a b); [destruct (cont c && cont d)|]; discriminate.
Qed.
(** A sequence of more than one byte is recognised by its own bytes. *)
Lemma utf8_len_many s k : utf8_len s = S (S k) ->
  exists b t, firstn (S (S k)) s = b :: t /\ between x00 x7f b = false /\ List.length t = S k /\
    forall r, utf8_len (b :: t ++ r) = S (S k).
Proof.
  destruct s as [|a s]; [discriminate|]. cbn [utf8_len]. destruct (between x00 x7f a) eqn:E; [discriminate|].
  destruct s as [|b s]; [discriminate|]. destruct (between xc2 xdf a) eqn:E2.
  { destruct (cont b) eqn:C; [|discriminate]. intros K. inversion K; subst k. exists a, [b]. cbn.
    rewrite E, E2, C. auto. }
  destruct s as [|c s]; [discriminate|]. destruct (lead3 a b) eqn:E3.
  { destruct (cont c) eqn:C; [|discriminate]. intros K. inversion K; subst k. exists a, [b; c]. cbn [firstn].
    split; [reflexivity|]. split; [exact E|]. split; [reflexivity|]. intros r. cbn [app utf8_len].
    rewrite E, E2, E3, C. reflexivity. }
  destruct s as [|d s]; [discriminate|]. destruct (lead4 a b) eqn:E4; [|discriminate].
  destruct (cont c && cont d) eqn:C; [|discriminate]. intros K. inversion K; subst k. exists a, [b; c; d]. cbn [firstn].
  split; [reflexivity|]. split; [exact E|]. split; [reflexivity|]. intros r. cbn [app utf8_len].
  rewrite E, E2, E3, E4, C. reflexivity.
Qed.
Lemma high_plain b : between x00 x7f b = false ->
  beq b x22 = false /\ beq b x5c = false /\ (b2N b <? 32)%N = false.
Proof. destruct b; intros H; try discriminate H; auto. Qed.
Lemma char_raw b t k r : between x00 x7f b = false -> List.length t = S k ->
  (forall r, utf8_len (b :: t ++ r) = S (S k)) -> p_char (b :: t ++ r) = Some (b :: t, r).
Proof.
  intros H L U. destruct (high_plain b H) as (A & B & C). unfold p_char. rewrite B, C, U.
  rewrite <- L. cbn [firstn skipn]. rewrite firstn_app, Nat.sub_diag, firstn_all, skipn_app, Nat.sub_diag, skipn_all.
  cbn. rewrite app_nil_r. reflexivity.
Qed.
Lemma char_rune s k : utf8_len s = S (S k) -> exists c t, escape_rune (S (S k)) s = c :: t /\ beq c x22 = false /\
  forall r, p_char (escape_rune (S (S k)) s ++ r) = Some (firstn (S (S k)) s, r).
Proof.
  intros U. unfold escape_rune.
  destruct (strip [xe2; x80; xa8] s) as [q|] eqn:S8.
  { apply strip_split in S8. subst s. cbn in U. injection U as <-. eexists _, _. split; [reflexivity|]. split; [reflexivity|].
    intros r. reflexivity. }
  destruct (strip [xe2; x80; xa9] s) as [q|] eqn:S9.
  { apply strip_split in S9. subst s. cbn in U. injection U as <-. eexists _, _. split; [reflexivity|]. split; [reflexivity|].
    intros r. reflexivity. }
  destruct (utf8_len_many _ _ U) as (b & t & E & A & L & W). exists b, t. rewrite E.
  split; [reflexivity|]. split; [now apply high_plain|]. intros r. cbn [app]. now apply (char_raw b t k).
Qed.

Lemma escape_ok s : utf8 s -> forall m n r, List.length s <= m -> List.length (escape m s) < n ->
  pstr n (escape m s ++ x22 :: r) = Some (s, r).
Proof.
  induction 1 as [|k s U V IH]; intros m n r M N.
  - destruct n; [lia|]. destruct m; reflexivity.
  - destruct s as [|b0 s0]; [discriminate|]. destruct m as [|m]; [cbn in M; lia|].
    destruct n as [|n]; [lia|].
    assert (G : forall pre c t, pre = c :: t -> beq c x22 = false -> List.length (pre ++ escape m (skipn (S k) (b0 :: s0))) < S n ->
         (forall r, p_char (pre ++ r) = Some (firstn (S k) (b0 :: s0), r)) ->
         pstr (S n) ((pre ++ escape m (skipn (S k) (b0 :: s0))) ++ x22 :: r) = Some (b0 :: s0, r)).
    { intros pre c t -> Q LL HH. rewrite <- app_assoc. specialize (HH (escape m (skipn (S k) (b0 :: s0)) ++ x22 :: r)).
      cbn [app] in HH |- *. cbn [pstr]. rewrite Q, HH. rewrite app_length in LL. cbn [List.length] in LL.
      rewrite IH; [rewrite firstn_skipn; reflexivity| |lia].
      rewrite skipn_length. cbn [List.length] in *. lia. }
    cbn [escape] in N |- *. rewrite U in N |- *. destruct k as [|k].
    + destruct (utf8_len_one _ U) as (b & t & E & A). injection E as <- <-.
      destruct (char_ascii _ A) as (c & t & E & Q & H). exact (G _ c t E Q N H).
    + destruct (char_rune _ _ U) as (c & t & E & Q & H). exact (G _ c t E Q N H).
Qed.

Lemma quote_ok s r : utf8 s -> exists t, quote s ++ r = x22 :: t /\ p_string t = Some (s, r).
Proof.
  intros U. unfold quote, p_string. cbn [app]. eexists. split; [reflexivity|].
  rewrite <- app_assoc. cbn [app]. apply escape_ok; [exact U|lia|]. rewrite app_length. cbn. lia.
Qed.

(** Reading consumes. *)
Lemma hex4_len s x r : hex4 s = Some (x, r) -> List.length r < List.length s.
Proof.
  destruct s as [|a [|b [|c [|d s]]]]; cbn; try discriminate.
  destruct (unhex a), (unhex b), (unhex c), (unhex d); try discriminate. intros E. injection E as _ <-. lia.
Qed.
Lemma strip_len p s r : strip p s = Some r -> List.length s = List.length p + List.length r.
Proof. intros E. apply strip_split in E. subst. apply app_length. Qed.
Lemma utf8_len_le s : utf8_len s <= List.length s.
Proof.
  destruct s as [|a s]; cbn; [lia|]. destruct (between _ _ _); [lia|].
  destruct s as [|b s]; [lia|]. destruct (between _ _ _); [destruct (cont b); cbn; lia|].
  destruct s as [|c s]; [lia|]. destruct (lead3 a b); [destruct (cont c); cbn; lia|].
  destruct s as [|d s]; [lia|]. destruct (lead4 a b); [destruct (cont c && cont d)|]; cbn; lia.
Qed.
Lemma p_char_len s c r : p_char s = Some (c, r) -> List.length r < List.length s.
Proof.
  destruct s as [|b s]; cbn [p_char]; [discriminate|]. destruct (beq b x5c).
  - unfold p_escape. destruct s as [|e s]; [discriminate|].
    repeat (match goal with |- context [if ?x then _ else _] => destruct x;
       [try (intros E; injection E as _ <-; cbn; lia)|try discriminate] end).
    destruct (hex4 s) as [[u r2]|] eqn:H; [|discriminate]. apply hex4_len in H.
    destruct (is_surrogate u); [|intros E; injection E as _ <-; cbn; lia].
    destruct (strip _ r2) as [r3|] eqn:S; [|intros E; injection E as _ <-; cbn; lia].
    apply strip_len in S. cbn in S.
    destruct (hex4 r3) as [[w r4]|] eqn:H4; [|discriminate]. apply hex4_len in H4.
    destruct (_ && _); intros E; injection E as _ <-; cbn; lia.
  - destruct (_ <? _)%N; [discriminate|]. pose proof (utf8_len_le (b :: s)) as L.
    destruct (utf8_len (b :: s)); intros E; injection E as _ <-; [cbn; lia|]. rewrite skipn_length. cbn in *. lia.
Qed.
Lemma pstr_len n : forall s t r, pstr n s = Some (t, r) -> List.length r < List.length s.
Proof.
  induction n as [|n IH]; intros s t r E; [discriminate|]. cbn [pstr] in E. destruct s as [|b s]; [discriminate|].
  destruct (beq b x22); [injection E as _ <-; cbn; lia|].
  destruct (p_char (b :: s)) as [[c r1]|] eqn:P; [|discriminate]. apply p_char_len in P.
  destruct (pstr n r1) as [[t2 r2]|] eqn:Q; [|discriminate]. apply IH in Q. injection E as _ <-. lia.
Qed.
Lemma skip_ws_len s : List.length (skip_ws s) <= List.length s.
Proof. induction s as [|b s IH]; cbn; [lia|]. destruct (is_ws b); cbn; lia. Qed.
Lemma after_len b s r : after b s = Some r -> List.length r < List.length s.
Proof. unfold after. intros E. apply strip_len in E. pose proof (skip_ws_len s). cbn in E. lia. Qed.

Lemma digits_split s : forall d r, digits s = (d, r) -> s = d ++ r.
Proof.
  induction s as [|b s IH]; intros d r E; cbn in E; [injection E as <- <-; reflexivity|].
  destruct (is_digit b); [|injection E as <- <-; reflexivity].
  destruct (digits s) as [d' r']. injection E as <- <-. cbn. f_equal. now apply IH.
Qed.
Lemma p_int_split s d r : p_int s = Some (d, r) -> s = d ++ r /\ d <> [].
Proof.
  destruct s as [|b s]; cbn [p_int]; [discriminate|]. destruct (beq b x30).
  { intros E. injection E as <- <-. split; [reflexivity|discriminate]. }
  destruct (is_digit b) eqn:D; [|discriminate]. destruct (digits (b :: s)) as [d' r'] eqn:E.
  intros K. injection K as <- <-. split; [now apply digits_split|]. cbn in E. rewrite D in E.
  destruct (digits s). injection E as <- <-. discriminate.
Qed.
Lemma p_frac_split s d r : p_frac s = Some (d, r) -> s = d ++ r.
Proof.
  unfold p_frac. destruct (strip _ s) as [q|] eqn:S.
  - apply strip_split in S. destruct (digits q) as [[|x d'] r'] eqn:D; [discriminate|]. intros E. injection E as <- <-.
    apply digits_split in D. subst. reflexivity.
  - intros E. injection E as <- <-. reflexivity.
Qed.
Lemma p_exp_split s d r : p_exp s = Some (d, r) -> s = d ++ r.
Proof.
  destruct s as [|b s]; cbn [p_exp]; [intros E; injection E as <- <-; reflexivity|].
  destruct (_ || _); [|intros E; injection E as <- <-; reflexivity].
  assert (G : forall sg r1, s = sg ++ r1 -> match digits r1 with ([], _) => None | (d, r') => Some (b :: sg ++ d, r') end = Some (d, r) ->
     b :: s = d ++ r).
  { intros sg r1 -> E. destruct (digits r1) as [[|x d'] r'] eqn:D; [discriminate|]. injection E as <- <-.
    apply digits_split in D. subst. cbn. rewrite <- app_assoc. reflexivity. }
  destruct s as [|c s]; [apply G; reflexivity|]. destruct (_ || _); apply G; reflexivity.
Qed.
Lemma p_num_split s d r : p_num s = Some (d, r) -> s = d ++ r /\ d <> [].
Proof.
  unfold p_num. 
  assert (G : forall sg q, s = sg ++ q -> match p_int q with
  | None => None
  | Some (a, r1) =>
      match p_frac r1 with
      | None => None
      | Some (b, r2) =>
          match p_exp r2 with
          | None => None
          | Some (c, r3) => Some (sg ++ a ++ b ++ c, r3)
          end
      end
  end = Some (d, r) -> s = d ++ r /\ d <> []).
  { intros sg q -> E. destruct (p_int q) as [[a r1]|] eqn:A; [|discriminate].
    destruct (p_frac r1) as [[b r2]|] eqn:B; [|discriminate]. destruct (p_exp r2) as [[c r3]|] eqn:C; [|discriminate].
    apply p_int_split in A. apply p_frac_split in B. apply p_exp_split in C. destruct A as [-> A]. subst.
    injection E as <- <-. rewrite <- !app_assoc. split; [reflexivity|]. destruct sg; [|discriminate].
    destruct a; [congruence|discriminate]. }
  destruct (strip _ s) as [q|] eqn:S; [apply strip_split in S|]; now apply G.
Qed.

Lemma pval_eq n s : pval (S n) s = match skip_ws s with
      | [] => None
      | b :: r =>
          if beq b x6e then p_word [x75; x6c; x6c] JNull r
          else if beq b x74 then p_word [x72; x75; x65] (JBool true) r
          else if beq b x66 then p_word [x61; x6c; x73; x65] (JBool false) r
          else if beq b x22 then
            match p_string r with Some (t, r') => Some (JStr t, r') | None => None end
          else if beq b x5b then
            match after x5d r with
            | Some r' => Some (JArr [], r')
            | None => match parr n r with Some (l, r') => Some (JArr l, r') | None => None end
            end
          else if beq b x7b then
            match after x7d r with
            | Some r' => Some (JObj [], r')
            | None => match pobj n r with Some (l, r') => Some (JObj l, r') | None => None end
            end
          else match p_num (b :: r) with Some (l, r') => Some (JNum l, r') | None => None end
      end.
Proof. reflexivity. Qed.
Lemma parr_eq n s : parr (S n) s = match pval n s with
      | None => None
      | Some (v, r) =>
          match after x5d r with
          | Some r' => Some ([v], r')
          | None =>
              match after x2c r with
              | Some r' => match parr n r' with Some (l, r'') => Some (v :: l, r'') | None => None end
              | None => None
              end
          end
      end.
Proof. reflexivity. Qed.
Lemma pobj_eq n s : pobj (S n) s = match after x22 s with
      | None => None
      | Some r =>
          match p_string r with
          | None => None
          | Some (k, r1) =>
              match after x3a r1 with
              | None => None
              | Some r2 =>
                  match pval n r2 with
                  | None => None
                  | Some (v, r3) =>
                      match after x7d r3 with
                      | Some r' => Some ([(k, v)], r')
                      | None =>
                          match after x2c r3 with
                          | Some r' =>
                              match pobj n r' with Some (l, r'') => Some ((k, v) :: l, r'') | None => None end
                          | None => None
                          end
                      end
                  end
              end
          end
      end.
Proof. reflexivity. Qed.

Lemma p_word_len w v s x r : p_word w v s = Some (x, r) -> List.length r <= List.length s.
Proof. unfold p_word. destruct (strip w s) eqn:E; [|discriminate]. apply strip_len in E. intros K. injection K as _ <-. lia. Qed.

Lemma parse_len n :
  (forall s v r, pval n s = Some (v, r) -> List.length r < List.length s) /\
  (forall s v r, parr n s = Some (v, r) -> List.length r < List.length s) /\
  (forall s v r, pobj n s = Some (v, r) -> List.length r < List.length s).
Proof.
  induction n as [|n (IV & IA & IO)]; [split; [|split]; discriminate|]. split; [|split]; intros s v r E.
  - rewrite pval_eq in E. pose proof (skip_ws_len s) as L. destruct (skip_ws s) as [|b q]; [discriminate|]. cbn in L.
    destruct (beq b x6e); [apply p_word_len in E; lia|].
    destruct (beq b x74); [apply p_word_len in E; lia|].
    destruct (beq b x66); [apply p_word_len in E; lia|].
    destruct (beq b x22).
    { destruct (p_string q) as [[t r']|] eqn:P; [|discriminate]. apply pstr_len in P. injection E as _ <-. lia. }
    destruct (beq b x5b).
    { destruct (after x5d q) eqn:A; [apply after_len in A; injection E as _ <-; lia|].
      destruct (parr n q) as [[t r']|] eqn:P; [|discriminate]. apply IA in P. injection E as _ <-. lia. }
    destruct (beq b x7b).
    { destruct (after x7d q) eqn:A; [apply after_len in A; injection E as _ <-; lia|].
      destruct (pobj n q) as [[t r']|] eqn:P; [|discriminate]. apply IO in P. injection E as _ <-. lia. }
    destruct (p_num (b :: q)) as [[t r']|] eqn:P; [|discriminate]. apply p_num_split in P. destruct P as [P Q].
    injection E as _ <-. apply (f_equal (@List.length _)) in P. rewrite app_length in P. cbn in P. destruct t; [congruence|].
    cbn in P. lia.
  - rewrite parr_eq in E. destruct (pval n s) as [[x q]|] eqn:P; [|discriminate]. apply IV in P.
    destruct (after x5d q) eqn:A; [apply after_len in A; injection E as _ <-; lia|].
    destruct (after x2c q) as [t|] eqn:B; [|discriminate]. apply after_len in B.
    destruct (parr n t) as [[l r']|] eqn:Q; [|discriminate]. apply IA in Q. injection E as _ <-. lia.
  - rewrite pobj_eq in E. destruct (after x22 s) as [q|] eqn:P; [|discriminate]. apply after_len in P.
    destruct (p_string q) as [[k r1]|] eqn:Q; [|discriminate]. apply pstr_len in Q.
    destruct (after x3a r1) as [r2|] eqn:C; [|discriminate]. apply after_len in C.
    destruct (pval n r2) as [[x r3]|] eqn:R; [|discriminate]. apply IV in R.
    destruct (after x7d r3) eqn:A; [apply after_len in A; injection E as _ <-; lia|].
    destruct (after x2c r3) as [t|] eqn:B; [|discriminate]. apply after_len in B.
    destruct (pobj n t) as [[l r']|] eqn:K; [|discriminate]. apply IO in K. injection E as _ <-. lia.
Qed.

(** Fuel: twice the length is always enough. *)
Lemma parse_fuel n :
  (forall s x m, pval n s = Some x -> 2 * List.length s < m -> pval m s = Some x) /\
  (forall s x m, parr n s = Some x -> 2 * List.length s + 1 < m -> parr m s = Some x) /\
  (forall s x m, pobj n s = Some x -> 2 * List.length s + 1 < m -> pobj m s = Some x).
Proof.
  induction n as [|n (IV & IA & IO)]; [split; [|split]; discriminate|].
  split; [|split]; intros s x m E L; (destruct m as [|m]; [lia|]).
  - rewrite pval_eq in E |- *. pose proof (skip_ws_len s) as LW. destruct (skip_ws s) as [|b q]; [discriminate|]. cbn in LW.
    destruct (beq b x6e); [exact E|]. destruct (beq b x74); [exact E|]. destruct (beq b x66); [exact E|].
    destruct (beq b x22); [exact E|].
    destruct (beq b x5b).
    { destruct (after x5d q); [exact E|]. destruct (parr n q) as [y|] eqn:P; [|discriminate].
      rewrite (IA _ _ m P) by lia. exact E. }
    destruct (beq b x7b); [|exact E].
    destruct (after x7d q); [exact E|]. destruct (pobj n q) as [y|] eqn:P; [|discriminate].
    rewrite (IO _ _ m P) by lia. exact E.
  - rewrite parr_eq in E |- *. destruct (pval n s) as [[v q]|] eqn:P; [|discriminate].
    rewrite (IV _ _ m P) by lia. apply (parse_len n) in P.
    destruct (after x5d q); [exact E|]. destruct (after x2c q) as [t|] eqn:B; [|discriminate]. apply after_len in B.
    destruct (parr n t) as [y|] eqn:Q; [|discriminate]. rewrite (IA _ _ m Q) by lia. exact E.
  - rewrite pobj_eq in E |- *. destruct (after x22 s) as [q|] eqn:P; [|discriminate]. apply after_len in P.
    destruct (p_string q) as [[k r1]|] eqn:Q; [|discriminate]. apply pstr_len in Q.
    destruct (after x3a r1) as [r2|] eqn:C; [|discriminate]. apply after_len in C.
    destruct (pval n r2) as [[v r3]|] eqn:R; [|discriminate]. rewrite (IV _ _ m R) by lia. apply (parse_len n) in R.
    destruct (after x7d r3); [exact E|]. destruct (after x2c r3) as [t|] eqn:B; [|discriminate]. apply after_len in B.
    destruct (pobj n t) as [y|] eqn:K; [|discriminate]. rewrite (IO _ _ m K) by lia. exact E.
Qed.
Lemma jread_enough n s x : pval n s = Some x -> jread s = Some x.
Proof. intros E. apply (proj1 (parse_fuel n)) with (m := 2 * List.length s + 1) in E; [exact E|lia]. Qed.

(** ** What follows does not matter *)
Definition stops (q : text) : Prop :=
  match q with
  | [] => True
  | b :: _ => is_digit b = false /\ beq x2e b = false /\ beq b x65 || beq b x45 = false
  end.
Lemma digits_ext s : forall d r q, digits s = (d, r) -> r <> [] \/ stops q -> digits (s ++ q) = (d, r ++ q).
Proof.
  induction s as [|b s IH]; intros d r q E H; cbn in E |- *.
  - injection E as <- <-. destruct H as [H|H]; [congruence|]. destruct q as [|c q]; [reflexivity|]. cbn.
    destruct H as [-> _]. reflexivity.
  - destruct (is_digit b); [|injection E as <- <-; reflexivity].
    destruct (digits s) as [d' r']. injection E as <- <-. rewrite (IH d' r' q eq_refl H). reflexivity.
Qed.
Lemma p_int_ext s d r q : p_int s = Some (d, r) -> r <> [] \/ stops q -> p_int (s ++ q) = Some (d, r ++ q).
Proof.
  destruct s as [|b s]; cbn [p_int app]; [discriminate|]. destruct (beq b x30).
  { intros E _. injection E as <- <-. reflexivity. }
  destruct (is_digit b) eqn:D; [|discriminate]. intros E H.
  destruct (digits (b :: s)) as [d' r'] eqn:F. injection E as <- <-.
  change (b :: s ++ q) with ((b :: s) ++ q). rewrite (digits_ext _ _ _ _ F H). reflexivity.
Qed.
Lemma strip1_ext b s q : s <> [] -> strip [b] (s ++ q) = match strip [b] s with Some r => Some (r ++ q) | None => None end.
Proof. destruct s as [|c s]; [congruence|]. intros _. cbn. destruct (beq b c); reflexivity. Qed.
Lemma p_frac_ext s d r q : p_frac s = Some (d, r) -> r <> [] \/ stops q -> p_frac (s ++ q) = Some (d, r ++ q).
Proof.
  unfold p_frac. destruct s as [|b s].
  - cbn [strip app]. intros E H. injection E as <- <-. destruct H as [H|H]; [congruence|].
    destruct q as [|c q]; [reflexivity|]. cbn [strip]. destruct H as (_ & -> & _). reflexivity.
  - intros E H. rewrite strip1_ext by discriminate. destruct (strip [x2e] (b :: s)) as [u|].
    + destruct (digits u) as [d' r'] eqn:F. assert (R : r' = r) by (destruct d'; [discriminate|]; now injection E).
      subst r'. rewrite (digits_ext _ _ _ _ F H). destruct d'; [discriminate|]. injection E as <-. reflexivity.
    + injection E as <- <-. reflexivity.
Qed.
Lemma p_exp_ext s d r q : p_exp s = Some (d, r) -> r <> [] \/ stops q -> p_exp (s ++ q) = Some (d, r ++ q).
Proof.
  destruct s as [|b s]; cbn [p_exp app].
  - intros E H. injection E as <- <-. destruct H as [H|H]; [congruence|].
    destruct q as [|c q]; [reflexivity|]. cbn [p_exp app]. destruct H as (_ & _ & ->). reflexivity.
  - destruct (beq b x65 || beq b x45); [|intros E _; injection E as <- <-; reflexivity].
    assert (G : forall sg u, match digits u with ([], _) => None | (d, r') => Some (b :: sg ++ d, r') end = Some (d, r) ->
       r <> [] \/ stops q -> match digits (u ++ q) with ([], _) => None | (d, r') => Some (b :: sg ++ d, r') end = Some (d, r ++ q)).
    { intros sg u E H. destruct (digits u) as [d' r'] eqn:F. assert (R : r' = r) by (destruct d'; [discriminate|]; now injection E).
      subst r'. rewrite (digits_ext _ _ _ _ F H). destruct d'; [discriminate|]. injection E as <-. reflexivity. }
    destruct s as [|c s]; [discriminate|]. cbn [app].
    destruct (beq c x2b || beq c x2d); [apply G|]. intros E H.
    change (c :: s ++ q) with ((c :: s) ++ q). now apply G.
Qed.
Lemma p_num_ext s d r q : p_num s = Some (d, r) -> r <> [] \/ stops q -> p_num (s ++ q) = Some (d, r ++ q).
Proof.
  intros E H. pose proof (p_num_split _ _ _ E) as [SP NE].
  assert (SN : s <> []) by (destruct s; [destruct d; [congruence|discriminate]|discriminate]).
  unfold p_num in *. rewrite strip1_ext by exact SN.
  assert (G : forall sg u, match p_int u with
  | None => None
  | Some (a, r1) =>
      match p_frac r1 with
      | None => None
      | Some (b, r2) =>
          match p_exp r2 with
          | None => None
          | Some (c, r3) => Some (sg ++ a ++ b ++ c, r3)
          end
      end
  end = Some (d, r) -> match p_int (u ++ q) with
  | None => None
  | Some (a, r1) =>
      match p_frac r1 with
      | None => None
      | Some (b, r2) =>
          match p_exp r2 with
          | None => None
          | Some (c, r3) => Some (sg ++ a ++ b ++ c, r3)
          end
      end
  end = Some (d, r ++ q)).
  { intros sg u K. destruct (p_int u) as [[a r1]|] eqn:A; [|discriminate].
    destruct (p_frac r1) as [[b r2]|] eqn:B; [|discriminate]. destruct (p_exp r2) as [[c r3]|] eqn:C; [|discriminate].
    injection K as <- <-.
    assert (H2 : r2 <> [] \/ stops q).
    { destruct H as [H|H]; [left|now right]. apply p_exp_split in C. intros ->. destruct c, r3; try discriminate. congruence. }
    assert (H1 : r1 <> [] \/ stops q).
    { destruct H2 as [H2|H2]; [left|now right]. apply p_frac_split in B. intros ->. destruct b, r2; try discriminate. congruence. }
    rewrite (p_int_ext _ _ _ _ A H1), (p_frac_ext _ _ _ _ B H2), (p_exp_ext _ _ _ _ C H). reflexivity. }
  destruct (strip [x2d] s) as [u|]; now apply G.
Qed.

Lemma p_char_suffix s c r : p_char s = Some (c, r) -> exists p, s = p ++ r.
Proof.
  destruct s as [|b s]; cbn [p_char]; [discriminate|]. destruct (beq b x5c).
  - assert (G : (exists p, s = p ++ r) -> exists p, b :: s = p ++ r) by (intros (p & ->); exists (b :: p); reflexivity).
    intros E. apply G. clear G. revert E.
    unfold p_escape. destruct s as [|e s]; [discriminate|].
    repeat (match goal with |- context [if ?x then _ else _] => destruct x;
       [try (intros E; injection E as _ <-; exists [e]; reflexivity)|try discriminate] end).
    destruct (hex4 s) as [[u r2]|] eqn:H; [|discriminate].
    assert (HS : forall s u r, hex4 s = Some (u, r) -> exists p, s = p ++ r).
    { clear. intros s u r. destruct s as [|a [|b [|c [|d s]]]]; cbn; try discriminate.
      destruct (unhex a), (unhex b), (unhex c), (unhex d); try discriminate. intros E. injection E as _ <-.
      exists [a; b; c; d]. reflexivity. }
    destruct (HS _ _ _ H) as (p & ->).
    destruct (is_surrogate u); [|intros E; injection E as _ <-; exists (e :: p); reflexivity].
    destruct (strip _ r2) as [r3|] eqn:S; [|intros E; injection E as _ <-; exists (e :: p); reflexivity].
    apply strip_split in S. subst r2.
    destruct (hex4 r3) as [[w r4]|] eqn:H4; [|discriminate]. destruct (HS _ _ _ H4) as (p4 & ->).
    destruct (_ && _); intros E; injection E as _ <-.
    + exists (e :: p ++ [x5c; x75] ++ p4). cbn. rewrite <- app_assoc. reflexivity.
    + exists (e :: p). reflexivity.
  - destruct (_ <? _)%N; [discriminate|].
    destruct (utf8_len (b :: s)); intros E; injection E as _ <-; [exists [b]; reflexivity|].
    eexists. symmetry. apply (firstn_skipn (S n) (b :: s)).
Qed.
Lemma pstr_quote n : forall s t r, pstr n s = Some (t, r) -> In x22 s.
Proof.
  induction n as [|n IH]; intros s t r E; [discriminate|]. cbn [pstr] in E. destruct s as [|b s]; [discriminate|].
  destruct (beq b x22) eqn:B; [apply beq_ok in B; subst; now left|].
  destruct (p_char (b :: s)) as [[c r1]|] eqn:P; [|discriminate]. apply p_char_suffix in P. destruct P as (p & P).
  destruct (pstr n r1) as [[t2 r2]|] eqn:Q; [|discriminate]. apply IH in Q. rewrite P. apply in_or_app. now right.
Qed.

Lemma cont_high b : cont b = true -> b <> x22.
Proof. intros C ->. discriminate. Qed.
Lemma lead3_high a b : lead3 a b = true -> a <> x22 /\ b <> x22.
Proof. intros H. split; intros ->; [destruct b; discriminate H|]. destruct a; discriminate H. Qed.
Lemma lead4_high a b : lead4 a b = true -> a <> x22 /\ b <> x22.
Proof. intros H. split; intros ->; [destruct b; discriminate H|]. destruct a; discriminate H. Qed.
(** A text with a quote in it has at its beginning the same UTF-8 sequence as
    any extension. *)
Lemma utf8_len_ext s q : In x22 s -> utf8_len (s ++ q) = utf8_len s.
Proof.
  destruct s as [|a s]; [intros []|]. cbn [utf8_len app]. destruct (between x00 x7f a) eqn:E; [reflexivity|].
  intros I. destruct I as [->|I]; [discriminate|].
  destruct s as [|b s]; [destruct I|]. cbn [app]. destruct (between xc2 xdf a); [reflexivity|].
  destruct s as [|c s].
  { destruct I as [->|[]]. cbn [app]. destruct q as [|c q]; [reflexivity|].
    destruct (lead3 a x22) eqn:L; [apply lead3_high in L; tauto|]. destruct q as [|d q]; [reflexivity|].
    destruct (lead4 a x22) eqn:L4; [apply lead4_high in L4; tauto|]. reflexivity. }
  cbn [app]. destruct (lead3 a b); [reflexivity|].
  destruct s as [|d s]; [|reflexivity]. cbn [app]. destruct q as [|d q]; [reflexivity|].
  destruct (lead4 a b) eqn:L4; [|reflexivity]. apply lead4_high in L4. destruct I as [->|[->|[]]]; [tauto|].
  reflexivity.
Qed.
Lemma hex4_ext s u r q : hex4 s = Some (u, r) -> hex4 (s ++ q) = Some (u, r ++ q).
Proof.
  destruct s as [|a [|b [|c [|d s]]]]; cbn; try discriminate.
  destruct (unhex a), (unhex b), (unhex c), (unhex d); try discriminate. intros E. injection E as <- <-. reflexivity.
Qed.
Lemma p_char_ext s c r q : p_char s = Some (c, r) -> In x22 r -> p_char (s ++ q) = Some (c, r ++ q).
Proof.
  intros E I. pose proof (p_char_suffix _ _ _ E) as (p & P).
  assert (IS : In x22 s) by (rewrite P; apply in_or_app; now right).
  destruct s as [|b s]; [discriminate|].
  pose proof (utf8_len_ext _ q IS) as UL. pose proof (utf8_len_le (b :: s)) as LE.
  cbn [p_char app] in *. destruct (beq b x5c).
  - clear P UL LE IS. unfold p_escape in *. destruct s as [|e s]; [discriminate|]. cbn [app].
    repeat (match goal with |- context [if ?x then _ else _] => destruct x;
       [solve [discriminate|injection E as <- <-; reflexivity]|] end).
    destruct (beq e x75); [|discriminate].
    destruct (hex4 s) as [[u r2]|] eqn:H; [|discriminate]. rewrite (hex4_ext _ _ _ _ H).
    destruct (is_surrogate u); [|injection E as <- <-; reflexivity].
    assert (SX : forall r3, strip [x5c; x75] r2 = Some r3 -> strip [x5c; x75] (r2 ++ q) = Some (r3 ++ q)).
    { intros r3 S. apply strip_split in S. subst r2. reflexivity. }
    destruct (strip [x5c; x75] r2) as [r3|] eqn:S.
    + rewrite (SX _ eq_refl). destruct (hex4 r3) as [[w r4]|] eqn:H4; [|discriminate]. rewrite (hex4_ext _ _ _ _ H4).
      destruct (_ && _); injection E as <- <-; reflexivity.
    + assert (SN : strip [x5c; x75] (r2 ++ q) = None).
      { injection E as <- <-. destruct r2 as [|x r2]; [destruct I|]. cbn [strip app] in S |- *.
        destruct (beq x5c x) eqn:B; [|reflexivity]. apply beq_ok in B. subst x. destruct I as [I|I]; [discriminate|].
        destruct r2 as [|y r2]; [destruct I|]. cbn [strip app] in S |- *. destruct (beq x75 y); [discriminate|reflexivity]. }
      rewrite SN. injection E as <- <-. reflexivity.
  - destruct (_ <? _)%N; [discriminate|]. change (b :: s ++ q) with ((b :: s) ++ q). cbn [app] in UL |- *. rewrite UL.
    destruct (utf8_len (b :: s)) as [|k]; injection E as <- <-; [reflexivity|].
    change (b :: s ++ q) with ((b :: s) ++ q).
    rewrite firstn_app, skipn_app. replace (S k - List.length (b :: s)) with 0 by lia. cbn [firstn skipn].
    rewrite app_nil_r. reflexivity.
Qed.
Lemma pstr_ext n : forall s t r q m, pstr n s = Some (t, r) -> n <= m -> pstr m (s ++ q) = Some (t, r ++ q).
Proof.
  induction n as [|n IH]; intros s t r q m E L; [discriminate|]. destruct m as [|m]; [lia|].
  cbn [pstr] in E. destruct s as [|b s]; [discriminate|].
  destruct (p_char (b :: s)) as [[c r1]|] eqn:P.
  - cbn [app pstr]. destruct (beq b x22); [injection E as <- <-; reflexivity|].
    destruct (pstr n r1) as [[t2 r2]|] eqn:Q; [|discriminate].
    apply (p_char_ext _ _ _ q) in P; [|now apply pstr_quote in Q]. cbn [app] in P. rewrite P.
    rewrite (IH _ _ _ q m Q) by lia. injection E as <- <-. reflexivity.
  - destruct (beq b x22) eqn:B; [|discriminate]. cbn [app pstr]. rewrite B. injection E as <- <-. reflexivity.
Qed.
Lemma p_string_ext s t r q : p_string s = Some (t, r) -> p_string (s ++ q) = Some (t, r ++ q).
Proof. unfold p_string. intros E. eapply pstr_ext; [exact E|]. rewrite app_length. lia. Qed.
Lemma skip_ws_ext s b r q : skip_ws s = b :: r -> skip_ws (s ++ q) = b :: r ++ q.
Proof.
  induction s as [|c s IH]; cbn; [discriminate|]. destruct (is_ws c); [exact IH|]. intros E. injection E as <- <-. reflexivity.
Qed.
Lemma after_ext b s q : skip_ws s <> [] -> after b (s ++ q) = match after b s with Some r => Some (r ++ q) | None => None end.
Proof.
  intros H. unfold after. destruct (skip_ws s) as [|c r] eqn:E; [congruence|].
  rewrite (skip_ws_ext _ _ _ q E). cbn. destruct (beq b c); reflexivity.
Qed.
Lemma after_some b s r : after b s = Some r -> skip_ws s <> [].
Proof. unfold after. intros E K. rewrite K in E. discriminate. Qed.
Lemma p_word_ext w v s x r q : p_word w v s = Some (x, r) -> p_word w v (s ++ q) = Some (x, r ++ q).
Proof.
  unfold p_word. destruct (strip w s) as [u|] eqn:E; [|discriminate]. apply strip_split in E. subst s.
  rewrite <- app_assoc, strip_app. intros K. injection K as <- <-. reflexivity.
Qed.

Definition is_num (v : json) : bool := match v with JNum _ => true | _ => false end.
Lemma pval_some n s x : pval n s = Some x -> skip_ws s <> [].
Proof. destruct n; [discriminate|]. rewrite pval_eq. destruct (skip_ws s); [discriminate|]. intros _. discriminate. Qed.
Lemma parr_some n s x : parr n s = Some x -> skip_ws s <> [].
Proof.
  destruct n; [discriminate|]. rewrite parr_eq. destruct (pval n s) as [y|] eqn:E; [|discriminate]. intros _.
  now apply pval_some in E.
Qed.
Lemma pobj_some n s x : pobj n s = Some x -> skip_ws s <> [].
Proof. destruct n; [discriminate|]. rewrite pobj_eq. destruct (after x22 s) as [y|] eqn:E; [|discriminate]. intros _. now apply after_some in E. Qed.

Lemma parse_ext n :
  (forall s v r q, pval n s = Some (v, r) -> is_num v = false \/ r <> [] \/ stops q -> pval n (s ++ q) = Some (v, r ++ q)) /\
  (forall s v r q, parr n s = Some (v, r) -> parr n (s ++ q) = Some (v, r ++ q)) /\
  (forall s v r q, pobj n s = Some (v, r) -> pobj n (s ++ q) = Some (v, r ++ q)).
Proof.
  induction n as [|n (IV & IA & IO)]; [split; [|split]; discriminate|].
  split; [|split]; intros s v r q E.
  - intros H. rewrite pval_eq in E |- *. destruct (skip_ws s) as [|b u] eqn:W; [discriminate|].
    rewrite (skip_ws_ext _ _ _ q W).
    destruct (beq b x6e); [now apply p_word_ext|]. destruct (beq b x74); [now apply p_word_ext|].
    destruct (beq b x66); [now apply p_word_ext|].
    destruct (beq b x22).
    { destruct (p_string u) as [[t r']|] eqn:P; [|discriminate]. rewrite (p_string_ext _ _ _ q P).
      injection E as <- <-. reflexivity. }
    destruct (beq b x5b).
    { assert (N : skip_ws u <> []).
      { destruct (after x5d u) eqn:A; [now apply after_some in A|]. destruct (parr n u) eqn:A2; [|discriminate]. now apply parr_some in A2. }
      rewrite after_ext by exact N. destruct (after x5d u) eqn:A; [injection E as <- <-; reflexivity|].
      destruct (parr n u) as [[l r']|] eqn:P; [|discriminate]. rewrite (IA _ _ _ q P). injection E as <- <-. reflexivity. }
    destruct (beq b x7b).
    { assert (N : skip_ws u <> []).
      { destruct (after x7d u) eqn:A; [now apply after_some in A|]. destruct (pobj n u) eqn:A2; [|discriminate]. now apply pobj_some in A2. }
      rewrite after_ext by exact N. destruct (after x7d u) eqn:A; [injection E as <- <-; reflexivity|].
      destruct (pobj n u) as [[l r']|] eqn:P; [|discriminate]. rewrite (IO _ _ _ q P). injection E as <- <-. reflexivity. }
    destruct (p_num (b :: u)) as [[l r']|] eqn:P; [|discriminate]. injection E as <- <-.
    change (b :: u ++ q) with ((b :: u) ++ q). rewrite (p_num_ext _ _ _ q P); [reflexivity|].
    destruct H as [H|H]; [discriminate|exact H].
  - rewrite parr_eq in E |- *. destruct (pval n s) as [[x u]|] eqn:P; [|discriminate].
    assert (N : skip_ws u <> []).
    { destruct (after x5d u) eqn:A; [now apply after_some in A|]. destruct (after x2c u) eqn:A2; [|discriminate]. now apply after_some in A2. }
    rewrite (IV _ _ _ q P) by (right; left; intros ->; apply N; reflexivity).
    rewrite !after_ext by exact N. destruct (after x5d u); [injection E as <- <-; reflexivity|].
    destruct (after x2c u) as [t|]; [|discriminate]. destruct (parr n t) as [[l r']|] eqn:Q; [|discriminate].
    rewrite (IA _ _ _ q Q). injection E as <- <-. reflexivity.
  - rewrite pobj_eq in E |- *. destruct (after x22 s) as [u|] eqn:A; [|discriminate].
    rewrite (after_ext x22 s q) by (now apply after_some in A). rewrite A.
    destruct (p_string u) as [[k r1]|] eqn:P; [|discriminate]. rewrite (p_string_ext _ _ _ q P).
    destruct (after x3a r1) as [r2|] eqn:C; [|discriminate].
    rewrite (after_ext x3a r1 q) by (now apply after_some in C). rewrite C.
    destruct (pval n r2) as [[x r3]|] eqn:V; [|discriminate].
    assert (N : skip_ws r3 <> []).
    { destruct (after x7d r3) eqn:B; [now apply after_some in B|]. destruct (after x2c r3) eqn:B2; [|discriminate]. now apply after_some in B2. }
    rewrite (IV _ _ _ q V) by (right; left; intros ->; apply N; reflexivity).
    rewrite !after_ext by exact N. destruct (after x7d r3); [injection E as <- <-; reflexivity|].
    destruct (after x2c r3) as [t|]; [|discriminate]. destruct (pobj n t) as [[l r']|] eqn:Q; [|discriminate].
    rewrite (IO _ _ _ q Q). injection E as <- <-. reflexivity.
Qed.

(** ** What was written is read *)
Fixpoint arr_rest (d : nat) (l : list json) : text :=
  match l with
  | [] => nl d ++ [x5d]
  | y :: l => [x2c] ++ nl (S d) ++ jprint (S d) y ++ arr_rest d l
  end.
Fixpoint obj_rest (d : nat) (l : list (text * json)) : text :=
  match l with
  | [] => nl d ++ [x7d]
  | (k, y) :: l => [x2c] ++ nl (S d) ++ quote k ++ [x3a; x20] ++ jprint (S d) y ++ obj_rest d l
  end.
Lemma jprint_arr d x l : jprint d (JArr (x :: l)) = [x5b] ++ nl (S d) ++ jprint (S d) x ++ arr_rest d l.
Proof. cbn. repeat f_equal. induction l as [|y l IH]; cbn; [reflexivity|]. now rewrite <- IH. Qed.
Lemma jprint_obj d k x l : jprint d (JObj ((k, x) :: l)) =
  [x7b] ++ nl (S d) ++ quote k ++ [x3a; x20] ++ jprint (S d) x ++ obj_rest d l.
Proof. cbn. repeat f_equal. induction l as [|[j y] l IH]; cbn; [reflexivity|]. now rewrite <- IH. Qed.

Fixpoint jsize (v : json) : nat :=
  match v with
  | JArr l => S (fold_right (fun v n => jsize v + n) 0 l)
  | JObj l => S (fold_right (fun p n => jsize (snd p) + n) 0 l)
  | _ => 1
  end.

Lemma skip_nl d s : skip_ws (nl d ++ s) = skip_ws s.
Proof. cbn. induction d as [|d IH]; cbn; [reflexivity|exact IH]. Qed.
Lemma pval_ws n s s' : skip_ws s = skip_ws s' -> pval n s = pval n s'.
Proof. intros E. destruct n; [reflexivity|]. rewrite !pval_eq, E. reflexivity. Qed.
Lemma after_ws b s s' : skip_ws s = skip_ws s' -> after b s = after b s'.
Proof. intros E. unfold after. now rewrite E. Qed.
Lemma pobj_ws n s s' : skip_ws s = skip_ws s' -> pobj n s = pobj n s'.
Proof. intros E. destruct n; [reflexivity|]. rewrite !pobj_eq, (after_ws x22 s s' E). reflexivity. Qed.
Lemma parr_ws n s s' : skip_ws s = skip_ws s' -> parr n s = parr n s'.
Proof. intros E. destruct n; [reflexivity|]. rewrite !parr_eq, (pval_ws _ s s' E). reflexivity. Qed.

Definition reads (s : text) (v : json) (r : text) : Prop := exists n, pval n s = Some (v, r).
Definition reads_arr (s : text) (l : list json) (r : text) : Prop := exists n, parr n s = Some (l, r).
Definition reads_obj (s : text) (l : list (text * json)) (r : text) : Prop := exists n, pobj n s = Some (l, r).

Lemma big_val n s x : pval n s = Some x -> exists N, forall m, N <= m -> pval m s = Some x.
Proof. intros E. exists (S (2 * List.length s)). intros m L. eapply parse_fuel; [exact E|lia]. Qed.
Lemma big_arr n s x : parr n s = Some x -> exists N, forall m, N <= m -> parr m s = Some x.
Proof. intros E. exists (S (2 * List.length s + 1)). intros m L. eapply parse_fuel; [exact E|lia]. Qed.
Lemma big_obj n s x : pobj n s = Some x -> exists N, forall m, N <= m -> pobj m s = Some x.
Proof. intros E. exists (S (2 * List.length s + 1)). intros m L. eapply parse_fuel; [exact E|lia]. Qed.

Lemma num_head l r : literal l -> exists b t, l ++ r = b :: t /\
  is_ws b = false /\ beq b x6e = false /\ beq b x74 = false /\ beq b x66 = false /\ beq b x22 = false /\
  beq b x5b = false /\ beq b x7b = false.
Proof.
  intros L. pose proof (p_num_split _ _ _ L) as [_ N]. destruct l as [|b l]; [congruence|]. exists b, (l ++ r).
  split; [reflexivity|]. unfold literal, p_num in L. cbn [strip] in L. destruct (beq x2d b) eqn:B.
  - apply beq_ok in B. subst b. repeat split; reflexivity.
  - cbn [p_int] in L. destruct (beq b x30) eqn:Z; [apply beq_ok in Z; subst b; repeat split; reflexivity|].
    destruct (is_digit b) eqn:D; [|discriminate]. clear - D.
    destruct b; try discriminate D; repeat split; reflexivity.
Qed.

Lemma stops_ok b t : b = x0a \/ b = x2c -> stops (b :: t).
Proof. intros [-> | ->]; repeat split; reflexivity. Qed.

Lemma print_reads : forall k v, jsize v <= k -> sound v -> forall d r, (is_num v = true -> stops r) ->
  reads (jprint d v ++ r) v r.
Proof.
  induction k as [|k IH]; intros v K S d r ST; [destruct v; cbn in K; lia|].
  destruct v as [|b|l|s|l|l].
  - exists 1. reflexivity.
  - exists 1. destruct b; reflexivity.
  - inversion S as [| |? L| | |]; subst. exists 1. cbn [jprint].
    destruct (num_head l r L) as (b & t & E & W & A1 & A2 & A3 & A4 & A5 & A6). rewrite E.
    rewrite pval_eq. cbn [skip_ws]. rewrite W, A1, A2, A3, A4, A5, A6. rewrite <- E.
    unfold literal in L. rewrite (p_num_ext _ _ _ r L) by (right; now apply ST). reflexivity.
  - inversion S as [| | |? U| |]; subst. exists 1. cbn [jprint]. destruct (quote_ok s r U) as (t & E & P). rewrite E.
    rewrite pval_eq. cbn [skip_ws].
    change (is_ws x22) with false. cbv iota. change (beq x22 x6e) with false. change (beq x22 x74) with false.
    change (beq x22 x66) with false. change (beq x22 x22) with true. cbv iota. rewrite P. reflexivity.
  - inversion S as [| | | |? SL|]; subst. destruct l as [|x l]; [exists 1; reflexivity|].
    assert (REST : forall l, (forall v, In v l -> sound v) -> fold_right (fun v n => jsize v + n) 0 l <= k ->
       forall x, jsize x <= k -> sound x -> reads_arr (jprint (Datatypes.S d) x ++ arr_rest d l ++ r) (x :: l) r).
    { clear x l S SL K ST. induction l as [|y l IHl]; intros SL KL x KX SX.
      - destruct (IH x KX SX (Datatypes.S d) (arr_rest d [] ++ r)) as (n & E).
        { intros _. now apply stops_ok; left. }
        exists (Datatypes.S n). rewrite parr_eq, E. cbn [arr_rest]. rewrite <- app_assoc.
        rewrite (after_ws x5d _ ([x5d] ++ r)) by apply skip_nl. reflexivity.
      - destruct (IH x KX SX (Datatypes.S d) (arr_rest d (y :: l) ++ r)) as (n & E).
        { intros _. now apply stops_ok; right. }
        cbn in KL. destruct (IHl (fun v H => SL v (or_intror H)) ltac:(lia) y ltac:(lia) (SL y (or_introl eq_refl))) as (n2 & E2).
        apply big_val in E. destruct E as (N1 & E). apply big_arr in E2. destruct E2 as (N2 & E2).
        exists (Datatypes.S (N1 + N2)). rewrite parr_eq, E by lia. cbn [arr_rest].
        assert (A : after x2c (([x2c] ++ nl (Datatypes.S d) ++ jprint (Datatypes.S d) y ++ arr_rest d l) ++ r) =
          Some (nl (Datatypes.S d) ++ jprint (Datatypes.S d) y ++ arr_rest d l ++ r)).
        { rewrite <- !app_assoc. reflexivity. }
        assert (B : after x5d (([x2c] ++ nl (Datatypes.S d) ++ jprint (Datatypes.S d) y ++ arr_rest d l) ++ r) = None) by reflexivity.
        rewrite A, B. rewrite (parr_ws _ _ _ (skip_nl _ _)). rewrite E2 by lia. reflexivity. }
    cbn in K. destruct (REST l (fun v H => SL v (or_intror H)) ltac:(lia) x ltac:(lia) (SL x (or_introl eq_refl))) as (n & E).
    exists (Datatypes.S n). rewrite jprint_arr, pval_eq. rewrite <- !app_assoc. cbn [app skip_ws].
    change (is_ws x5b) with false. cbv iota. change (beq x5b x6e) with false. change (beq x5b x74) with false.
    change (beq x5b x66) with false. change (beq x5b x22) with false. change (beq x5b x5b) with true. cbv iota.
    rewrite (parr_ws _ _ _ (skip_nl _ _)). rewrite (after_ws x5d _ _ (skip_nl _ _)).
    assert (A : after x5d (jprint (Datatypes.S d) x ++ arr_rest d l ++ r) = None).
    { destruct (after x5d _) as [q|] eqn:A; [|reflexivity]. exfalso. destruct n as [|n]; [discriminate|].
      rewrite parr_eq in E. unfold after in A. apply strip_split in A. destruct n as [|n]; [discriminate|].
      rewrite pval_eq, A in E. discriminate E. }
    rewrite A, E. reflexivity.
  - inversion S as [| | | | |? SL]; subst. destruct l as [|[j x] l]; [exists 1; reflexivity|].
    assert (REST : forall l, (forall k v, In (k, v) l -> utf8 k /\ sound v) -> fold_right (fun p n => jsize (snd p) + n) 0 l <= k ->
       forall j x, jsize x <= k -> utf8 j -> sound x -> reads_obj (quote j ++ [x3a; x20] ++ jprint (Datatypes.S d) x ++ obj_rest d l ++ r) ((j, x) :: l) r).
    { clear j x l S SL K ST. induction l as [|[i y] l IHl]; intros SL KL j x KX UJ SX.
      - destruct (IH x KX SX (Datatypes.S d) (obj_rest d [] ++ r)) as (n & E).
        { intros _. now apply stops_ok; left. }
        exists (Datatypes.S n). rewrite pobj_eq.
        destruct (quote_ok j ([x3a; x20] ++ jprint (Datatypes.S d) x ++ obj_rest d [] ++ r) UJ) as (t & Q & P). rewrite Q.
        rewrite (eq_refl : after x22 (x22 :: t) = Some t), P.
        assert (C : after x3a ([x3a; x20] ++ jprint (Datatypes.S d) x ++ obj_rest d [] ++ r) = Some (x20 :: jprint (Datatypes.S d) x ++ obj_rest d [] ++ r)) by reflexivity.
        rewrite C. rewrite (pval_ws _ (x20 :: jprint (Datatypes.S d) x ++ obj_rest d [] ++ r) (jprint (Datatypes.S d) x ++ obj_rest d [] ++ r)) by reflexivity.
        rewrite E. cbn [obj_rest]. rewrite <- app_assoc.
        rewrite (after_ws x7d _ ([x7d] ++ r)) by apply skip_nl. reflexivity.
      - destruct (IH x KX SX (Datatypes.S d) (obj_rest d ((i, y) :: l) ++ r)) as (n & E).
        { intros _. now apply stops_ok; right. }
        cbn in KL. destruct (SL i y (or_introl eq_refl)) as [UI SY].
        destruct (IHl (fun k v H => SL k v (or_intror H)) ltac:(lia) i y ltac:(lia) UI SY) as (n2 & E2).
        apply big_val in E. destruct E as (N1 & E). apply big_obj in E2. destruct E2 as (N2 & E2).
        exists (Datatypes.S (N1 + N2)). rewrite pobj_eq.
        destruct (quote_ok j ([x3a; x20] ++ jprint (Datatypes.S d) x ++ obj_rest d ((i, y) :: l) ++ r) UJ) as (t & Q & P). rewrite Q.
        rewrite (eq_refl : after x22 (x22 :: t) = Some t), P.
        assert (C : after x3a ([x3a; x20] ++ jprint (Datatypes.S d) x ++ obj_rest d ((i, y) :: l) ++ r) = Some (x20 :: jprint (Datatypes.S d) x ++ obj_rest d ((i, y) :: l) ++ r)) by reflexivity.
        rewrite C. rewrite (pval_ws _ (x20 :: jprint (Datatypes.S d) x ++ obj_rest d ((i, y) :: l) ++ r) (jprint (Datatypes.S d) x ++ obj_rest d ((i, y) :: l) ++ r)) by reflexivity.
        rewrite E by lia. cbn [obj_rest].
        assert (A : after x2c (([x2c] ++ nl (Datatypes.S d) ++ quote i ++ [x3a; x20] ++ jprint (Datatypes.S d) y ++ obj_rest d l) ++ r) =
          Some (nl (Datatypes.S d) ++ quote i ++ [x3a; x20] ++ jprint (Datatypes.S d) y ++ obj_rest d l ++ r)).
        { rewrite <- !app_assoc. reflexivity. }
        assert (B : after x7d (([x2c] ++ nl (Datatypes.S d) ++ quote i ++ [x3a; x20] ++ jprint (Datatypes.S d) y ++ obj_rest d l) ++ r) = None) by reflexivity.
        rewrite A, B. rewrite (pobj_ws _ _ _ (skip_nl _ _)). rewrite E2 by lia. reflexivity. }
    cbn in K. destruct (SL j x (or_introl eq_refl)) as [UJ SX].
    destruct (REST l (fun k v H => SL k v (or_intror H)) ltac:(lia) j x ltac:(lia) UJ SX) as (n & E).
    exists (Datatypes.S n). rewrite jprint_obj, pval_eq. rewrite <- !app_assoc. cbn [app skip_ws].
    change (is_ws x7b) with false. cbv iota. change (beq x7b x6e) with false. change (beq x7b x74) with false.
    change (beq x7b x66) with false. change (beq x7b x22) with false. change (beq x7b x5b) with false.
    change (beq x7b x7b) with true. cbv iota.
    rewrite (pobj_ws _ _ _ (skip_nl _ _)). rewrite (after_ws x7d _ _ (skip_nl _ _)).
    assert (A : after x7d (quote j ++ x3a :: x20 :: jprint (Datatypes.S d) x ++ obj_rest d l ++ r) = None) by reflexivity.
    rewrite A. cbn [app] in E. rewrite E. reflexivity.
Qed.
Lemma written_read v r : sound v -> (is_num v = true -> stops r) -> jread (jprint 0 v ++ r) = Some (v, r).
Proof. intros S H. destruct (print_reads (jsize v) v (le_n _) S 0 r H) as (n & E). now apply jread_enough in E. Qed.
(** No part of an object is a document. *)
Lemma prefix_unreadable l p q : sound (JObj l) -> jprint 0 (JObj l) = p ++ q -> q <> [] -> jread p = None.
Proof.
  intros S E Q. destruct (jread p) as [[v r]|] eqn:R; [|reflexivity]. exfalso.
  assert (N : is_num v = false).
  { destruct p as [|b p]; [discriminate|].
    assert (B : b = x7b) by (destruct l as [|[k x] l]; cbn in E; injection E; intros; congruence). subst b.
    unfold jread in R. rewrite Nat.add_1_r, pval_eq in R. cbn [skip_ws] in R.
    change (is_ws x7b) with false in R. cbv iota in R. change (beq x7b x6e) with false in R. change (beq x7b x74) with false in R.
    change (beq x7b x66) with false in R. change (beq x7b x22) with false in R. change (beq x7b x5b) with false in R.
    change (beq x7b x7b) with true in R. cbv iota in R.
    destruct (after x7d p); [injection R as <- _; reflexivity|].
    destruct (pobj _ p) as [[? ?]|]; [|discriminate]. injection R as <- _. reflexivity. }
  unfold jread in R.
  apply (proj1 (parse_ext _)) with (q := q) in R; [|now left]. apply jread_enough in R. rewrite <- E in R.
  rewrite <- (app_nil_r (jprint 0 (JObj l))) in R. rewrite written_read in R; [|exact S|discriminate].
  injection R as _ R. destruct r; [cbn in R; congruence|discriminate].
Qed.
