(** Proofs about the configuration file. *)
From Verif Require Import ModelBase ModelReports ModelNodes ModelList ModelJson SpecJson ModelConfig SpecConfig ProofJson.
From Coq Require Import Floats.SpecFloat Permutation Sorting.Sorted.

(** ** Numbers *)
Definition all_digits (s : text) : Prop := forall b, In b s -> is_digit b = true.
Lemma digit_byte n : (n < 10)%N -> is_digit (N2b (48 + n)) = true /\ (b2N (N2b (48 + n)) - 48 = n)%N /\
  (n <> 0%N -> beq (N2b (48 + n)) x30 = false) /\ between x00 x7f (N2b (48 + n)) = true.
Proof.
  intros H. assert (K : In n (map N.of_nat (seq 0 10))) by (cbn; lia).
  cbn in K. repeat (destruct K as [<-|K]; [repeat split; try reflexivity; try congruence|]). destruct K.
Qed.
Lemma dec_value_app s : forall a t, all_digits s ->
  exists v, dec_value a s = Some v /\ dec_value a (s ++ t) = dec_value v t.
Proof.
  induction s as [|b s IH]; intros a t D; [exists a; auto|]. cbn. rewrite (D b) by now left.
  apply IH. intros c C. apply D. now right.
Qed.
Lemma log2_div2 n : (1 < n)%N -> N.log2 n = N.succ (N.log2 (N.div2 n)).
Proof. destruct n as [|[[p|p|]|[p|p|]|]]; intros H; try reflexivity; lia. Qed.
Lemma dec_digits_spec fuel : forall n acc, (N.to_nat (N.log2 n) < fuel)%nat ->
  exists ds, dec_digits fuel n acc = ds ++ acc /\ ds <> [] /\ all_digits ds /\
    (forall a, dec_value a ds = Some (a * 10 ^ Z.of_nat (List.length ds) + Z.of_N n))%Z /\
    (n <> 0%N -> match ds with b :: _ => beq b x30 = false | [] => True end) /\
    (n = 0%N -> ds = [x30]).
Proof.
  induction fuel as [|fuel IH]; intros n acc L; [lia|]. cbn [dec_digits].
  assert (M : (n mod 10 < 10)%N) by (apply N.mod_lt; discriminate).
  destruct (digit_byte _ M) as (D1 & D2 & D3 & _).
  assert (A1 : all_digits [N2b (48 + n mod 10)]) by (intros b [<-|[]]; exact D1).
  destruct (N.ltb_spec n 10) as [S|S].
  - exists [N2b (48 + n mod 10)]. rewrite N.mod_small in * by exact S. split; [reflexivity|]. split; [discriminate|].
    split; [exact A1|]. split; [intros a; cbn [dec_value]; rewrite D1, D2; f_equal; cbn; lia|].
    split; [intros H; now apply D3|]. intros ->. reflexivity.
  - assert (L' : (N.to_nat (N.log2 (n / 10)) < fuel)%nat).
    { assert (N.log2 (n / 10) < N.log2 n)%N; [|lia].
      assert (H2 : (n / 10 <= n / 2)%N) by (apply N.div_le_compat_l; lia).
      apply N.log2_le_mono in H2. rewrite <- N.div2_div in H2. 
      pose proof (log2_div2 n ltac:(lia)). lia. }
    destruct (IH (n / 10)%N (N2b (48 + n mod 10) :: acc) L') as (ds & E & NE & AD & V & F & _).
    exists (ds ++ [N2b (48 + n mod 10)]). rewrite E, <- app_assoc. split; [reflexivity|].
    split; [destruct ds; discriminate|]. split; [intros b B; apply in_app_or in B; destruct B; auto|].
    split.
    { intros a. destruct (dec_value_app ds a [N2b (48 + n mod 10)] AD) as (v & Hv & ->). rewrite V in Hv.
      injection Hv as <-. cbn [dec_value]. rewrite D1, D2. f_equal. rewrite app_length, Nat.add_1_r, Nat2Z.inj_succ, Z.pow_succ_r by lia.
      pose proof (N.div_mod n 10 ltac:(discriminate)) as DM. lia. }
    split; [|intros ->; lia]. intros _. destruct ds as [|b ds]; [congruence|]. cbn. apply F.
    intros Z. pose proof (N.div_str_pos n 10). lia.
Qed.
Lemma print_N_spec n : exists ds, print_N n = ds /\ ds <> [] /\ all_digits ds /\
  dec_value 0 ds = Some (Z.of_N n) /\
  (n <> 0%N -> match ds with b :: _ => beq b x30 = false | [] => True end) /\ (n = 0%N -> ds = [x30]).
Proof.
  unfold print_N. destruct (dec_digits_spec (S (N.to_nat (N.log2 n))) n [] (Nat.lt_succ_diag_r _)) as (ds & E & A & B & C & D & F).
  exists ds. rewrite E, app_nil_r. split; [reflexivity|]. split; [exact A|]. split; [exact B|].
  split; [rewrite C; f_equal; lia|auto].
Qed.
Lemma all_digits_digits s : all_digits s -> digits s = (s, []).
Proof.
  induction s as [|b s IH]; intros D; [reflexivity|]. cbn. rewrite (D b) by now left.
  rewrite IH; [reflexivity|]. intros c C. apply D. now right.
Qed.
Lemma print_N_int n : p_int (print_N n) = Some (print_N n, []).
Proof.
  destruct (print_N_spec n) as (ds & -> & A & B & _ & D & F). destruct (N.eq_dec n 0) as [Z|NZ].
  - rewrite (F Z). reflexivity.
  - specialize (D NZ). destruct ds as [|b ds]; [congruence|]. cbn [p_int]. rewrite D, (B b) by now left.
    rewrite all_digits_digits by exact B. reflexivity.
Qed.
Lemma digit_not_minus b : is_digit b = true -> beq x2d b = false /\ between x00 x7f b = true /\ beq x2e b = false.
Proof. destruct b; intros H; try discriminate H; repeat split; reflexivity. Qed.
Lemma print_N_strip n : strip [x2d] (print_N n) = None.
Proof.
  destruct (print_N_spec n) as (ds & -> & A & B & _). destruct ds as [|b ds]; [congruence|]. cbn [strip].
  destruct (digit_not_minus b (B b (or_introl eq_refl))) as (-> & _). reflexivity.
Qed.
Lemma print_Z_cases z : (exists n, z = Z.of_N n /\ print_Z z = print_N n) \/
  (exists n, z = (- Z.of_N n)%Z /\ print_Z z = x2d :: print_N n).
Proof.
  destruct z as [|p|p]; [left; exists 0%N; auto|left; exists (Npos p); auto|right; exists (Npos p); auto].
Qed.
Lemma parse_nat_print n : parse_nat (print_N n) = Some (Z.of_N n).
Proof. destruct (print_N_spec n) as (ds & -> & A & _ & C & _). unfold parse_nat. destruct ds; [congruence|exact C]. Qed.
Lemma parse_Z_print z : parse_Z (print_Z z) = Some z.
Proof.
  destruct (print_Z_cases z) as [(n & -> & ->)|(n & -> & ->)]; unfold parse_Z.
  - rewrite print_N_strip. apply parse_nat_print.
  - cbn [strip]. rewrite beq_refl, parse_nat_print. reflexivity.
Qed.
Lemma print_Z_literal z : literal (print_Z z).
Proof.
  unfold literal, p_num. destruct (print_Z_cases z) as [(n & _ & ->)|(n & _ & ->)].
  - rewrite print_N_strip, print_N_int. cbn. rewrite app_nil_r. reflexivity.
  - cbn [strip]. rewrite beq_refl, print_N_int. cbn. rewrite app_nil_r. reflexivity.
Qed.
Definition all_ascii (s : text) : Prop := forall b, In b s -> between x00 x7f b = true.
Lemma ascii_utf8 s : all_ascii s -> utf8 s.
Proof.
  induction s as [|b s IH]; intros A; [constructor|]. apply (utf8_step 0).
  - cbn. rewrite (A b) by now left. reflexivity.
  - cbn. apply IH. intros c C. apply A. now right.
Qed.
Lemma print_Z_ascii z : all_ascii (print_Z z).
Proof.
  assert (G : forall n, all_ascii (print_N n)).
  { intros n. destruct (print_N_spec n) as (ds & -> & _ & B & _). intros b H. now apply digit_not_minus, B. }
  destruct (print_Z_cases z) as [(n & _ & ->)|(n & _ & ->)]; [apply G|]. intros b [<-|H]; [reflexivity|now apply (G n)].
Qed.
Lemma print_Z_inj a b : print_Z a = print_Z b -> a = b.
Proof. intros E. pose proof (parse_Z_print a) as A. rewrite E, parse_Z_print in A. congruence. Qed.

(** ** Keys *)
Lemma txt_string s : string_of_list_byte (txt s) = s.
Proof. apply string_of_list_byte_of_string. Qed.
Lemma string_txt s : txt (string_of_list_byte s) = s.
Proof. apply list_byte_of_string_of_list_byte. Qed.
Lemma txt_inj a b : txt a = txt b -> a = b.
Proof. intros E. rewrite <- (txt_string a), E. apply txt_string. Qed.

Lemma text_ltb_irr a : text_ltb a a = false.
Proof. induction a as [|x a IH]; cbn; [reflexivity|]. now rewrite beq_refl. Qed.
Lemma text_ltb_total a : forall b, text_ltb a b = false -> text_ltb b a = false -> a = b.
Proof.
  induction a as [|x a IH]; intros [|y b] H1 H2; try discriminate; [reflexivity|]. cbn in H1, H2.
  destruct (beq x y) eqn:E.
  - apply beq_ok in E. subst y. rewrite beq_refl in H2. f_equal. now apply IH.
  - assert (E' : beq y x = false) by (destruct (beq y x) eqn:F; [apply beq_ok in F; subst; rewrite beq_refl in E; discriminate|reflexivity]).
    rewrite E' in H2. apply N.ltb_ge in H1, H2. exfalso.
    assert (b2N x = b2N y) by lia. unfold b2N in *. assert (x = y); [|subst; rewrite beq_refl in E; discriminate].
    pose proof (Byte.of_to_N x) as X. pose proof (Byte.of_to_N y) as Y. congruence.
Qed.

Section Keys.
Context {V : Type}.
Fixpoint klookup (k : text) (m : list (text * V)) : option V :=
  match m with
  | [] => None
  | (k', v) :: r => if text_ltb k k' || text_ltb k' k then klookup k r else Some v
  end.
Lemma same_spec a b : text_ltb a b || text_ltb b a = false <-> a = b.
Proof.
  split.
  - intros H. apply orb_false_elim in H. destruct H. now apply text_ltb_total.
  - intros ->. now rewrite text_ltb_irr.
Qed.
Lemma text_dec (a b : text) : {a = b} + {a <> b}.
Proof. apply list_eq_dec. apply Byte.byte_eq_dec. Qed.
Lemma klookup_eq k m : klookup k m = match m with
  | [] => None
  | (k', v) :: r => if text_dec k k' then Some v else klookup k r
  end.
Proof.
  destruct m as [|[k' v] m]; [reflexivity|]. cbn. destruct (text_dec k k') as [->|N].
  - now rewrite text_ltb_irr.
  - destruct (_ || _) eqn:E; [reflexivity|]. apply same_spec in E. congruence.
Qed.
Lemma kinsert_lookup k v m k' : klookup k' (kinsert k v m) = if text_dec k' k then Some v else klookup k' m.
Proof.
  induction m as [|[j w] m IH]; cbn [kinsert].
  - rewrite klookup_eq. reflexivity.
  - destruct (text_ltb k j) eqn:L1; [rewrite klookup_eq; reflexivity|].
    destruct (text_ltb j k) eqn:L2.
    + rewrite klookup_eq, IH. rewrite (klookup_eq k' ((j, w) :: m)).
      destruct (text_dec k' j) as [->|]; [|reflexivity]. destruct (text_dec j k) as [->|]; [|reflexivity].
      rewrite text_ltb_irr in L1. rewrite text_ltb_irr in L2. discriminate.
    + assert (E : k = j) by now apply text_ltb_total. subst j. rewrite klookup_eq. rewrite (klookup_eq k' ((k, w) :: m)).
      destruct (text_dec k' k); reflexivity.
Qed.
Lemma ksort_lookup m k : klookup k (ksort m) = klookup k m.
Proof.
  unfold ksort. induction m as [|[j w] m IH]; [reflexivity|]. cbn [fold_right fst snd].
  rewrite kinsert_lookup, IH, (klookup_eq k ((j, w) :: m)). reflexivity.
Qed.
Lemma kinsert_in k (v : V) m x : In x (kinsert k v m) -> x = (k, v) \/ In x m.
Proof.
  induction m as [|[j w] m IH]; cbn [kinsert]; [intros [<-|[]]; auto|].
  destruct (text_ltb k j); [intros [<-|H]; auto|]. destruct (text_ltb j k).
  - intros [<-|H]; [right; now left|]. destruct (IH H); [now left|right; now right].
  - intros [<-|H]; [now left|right; now right].
Qed.
Lemma ksort_in (m : list (text * V)) x : In x (ksort m) -> In x m.
Proof.
  unfold ksort. induction m as [|[j w] m IH]; [auto|]. cbn [fold_right fst snd]. intros H.
  apply kinsert_in in H. destruct H as [->|H]; [now left|right; auto].
Qed.
(** Sorted without repetitions. *)
Lemma kinsert_keys k (v : V) m j : In j (map fst (kinsert k v m)) <-> j = k \/ In j (map fst m).
Proof.
  induction m as [|[i w] m IH]; cbn [kinsert]; [cbn; intuition|].
  destruct (text_ltb k i) eqn:L1; [cbn; intuition|]. destruct (text_ltb i k) eqn:L2.
  - cbn [map fst In]. rewrite IH. cbn. intuition.
  - assert (E : k = i) by now apply text_ltb_total. subst i. cbn. intuition.
Qed.
End Keys.

Lemma text_ltb_trans a : forall b c, text_ltb a b = true -> text_ltb b c = true -> text_ltb a c = true.
Proof.
  induction a as [|x a IH]; intros [|y b] [|z c] H1 H2; try discriminate; [reflexivity|]. cbn in *.
  destruct (beq x y) eqn:E.
  - apply beq_ok in E. subst y. destruct (beq x z); [now apply (IH b)|exact H2].
  - destruct (beq y z) eqn:F.
    + apply beq_ok in F. subst z. rewrite E. exact H1.
    + apply N.ltb_lt in H1, H2. assert (G : beq x z = false).
      { destruct (beq x z) eqn:G; [apply beq_ok in G; subst; lia|reflexivity]. }
      rewrite G. apply N.ltb_lt. lia.
Qed.
Definition klt {V} (a b : text * V) : Prop := text_ltb (fst a) (fst b) = true.
Lemma kinsert_sorted {V} k (v : V) m : StronglySorted klt m -> StronglySorted klt (kinsert k v m).
Proof.
  induction 1 as [|[j w] m S IH F]; cbn [kinsert]; [repeat constructor|].
  destruct (text_ltb k j) eqn:L1.
  - constructor; [now constructor|]. constructor; [exact L1|]. rewrite Forall_forall in *. intros x X.
    unfold klt in *. cbn in *. eapply text_ltb_trans; [exact L1|now apply F].
  - destruct (text_ltb j k) eqn:L2.
    + constructor; [exact IH|]. rewrite Forall_forall in *. intros x X. apply kinsert_in in X.
      destruct X as [->|X]; [exact L2|now apply F].
    + assert (E : k = j) by now apply text_ltb_total. subst j. constructor; [exact S|exact F].
Qed.
Lemma ksort_sorted {V} (m : list (text * V)) : StronglySorted klt (ksort m).
Proof. unfold ksort. induction m as [|p m IH]; cbn; [constructor|]. now apply kinsert_sorted. Qed.
Lemma sorted_nodup {V} (m : list (text * V)) : StronglySorted klt m -> NoDup (map fst m).
Proof.
  induction 1 as [|p m S IH F]; cbn; [constructor|]. constructor; [|exact IH]. intros I. apply in_map_iff in I.
  destruct I as (q & E & I). rewrite Forall_forall in F. apply F in I. unfold klt in I. rewrite E, text_ltb_irr in I. discriminate.
Qed.
Lemma klookup_in {V} (m : list (text * V)) k v : NoDup (map fst m) -> (klookup k m = Some v <-> In (k, v) m).
Proof.
  induction m as [|[j w] m IH]; intros N; [cbn; intuition discriminate|]. rewrite klookup_eq.
  inversion N as [|? ? NI N']; subst. destruct (text_dec k j) as [->|NE].
  - split; [intros E; injection E as ->; now left|]. intros [E|I]; [injection E as ->; reflexivity|].
    exfalso. apply NI. apply (in_map fst) in I. exact I.
  - rewrite IH by exact N'. split; [intros H; now right|]. intros [E|I]; [congruence|exact I].
Qed.

(** ** Maps *)
Lemma alookup_aset {V} k (v : V) m k' : alookup k' (aset k v m) = if String.eqb k' k then Some v else alookup k' m.
Proof.
  induction m as [|[j w] m IH]; cbn; [reflexivity|]. destruct (String.eqb_spec k j) as [->|N]; cbn.
  - destruct (String.eqb k' j); reflexivity.
  - rewrite IH. destruct (String.eqb_spec k' j) as [->|]; [|reflexivity].
    destruct (String.eqb_spec j k) as [->|]; [congruence|reflexivity].
Qed.
Lemma dec_entries_spec {A} (zero : A) (d : dec A) (g : json -> A) l : forall m,
  (forall k j, In (k, j) l -> d zero j = (g j, true)) -> NoDup (map fst l) ->
  exists m', dec_entries zero d m l = (m', true) /\
    forall k, alookup k m' = match klookup (txt k) l with Some j => Some (g j) | None => alookup k m end.
Proof.
  induction l as [|[k j] l IH]; intros m D N.
  - exists m. auto.
  - cbn [dec_entries]. rewrite (D k j) by now left. inversion N as [|? ? NI N']; subst.
    destruct (IH (aset (string_of_list_byte k) (g j) m)) as (m' & -> & L); [intros; apply (D k0); now right|exact N'|].
    exists m'. split; [reflexivity|]. intros k'. rewrite L, alookup_aset, (klookup_eq _ ((k, j) :: l)).
    destruct (text_dec (txt k') k) as [E|NE].
    + subst k. rewrite txt_string, String.eqb_refl.
      destruct (klookup (txt k') l) eqn:K; [|reflexivity]. apply klookup_in in K; [|exact N'].
      exfalso. apply NI. apply (in_map fst) in K. exact K.
    + destruct (String.eqb_spec k' (string_of_list_byte k)) as [->|]; [rewrite string_txt in NE; congruence|reflexivity].
Qed.
Lemma klookup_map {V W} (f : V -> W) (l : list (string * V)) k :
  klookup (txt k) (map (fun p => (txt (fst p), f (snd p))) l) = option_map f (alookup k l).
Proof.
  induction l as [|[j w] l IH]; [reflexivity|]. cbn [map fst snd]. rewrite klookup_eq. cbn [alookup].
  destruct (String.eqb_spec k j) as [->|N].
  - destruct (text_dec (txt j) (txt j)); [reflexivity|congruence].
  - destruct (text_dec (txt k) (txt j)) as [E|]; [apply txt_inj in E; congruence|exact IH].
Qed.
Lemma dec_map_spec {A} (zero : A) (d : dec A) (f : A -> json) (m : smap A) :
  (forall l k a, m = Some l -> In (k, a) l -> d zero (f a) = (a, true)) ->
  exists m', dec_map zero d None (jmap f m) = (m', true) /\ same_map m m'.
Proof.
  intros D. destruct m as [l|]; [|exists None; cbn; split; [reflexivity|]; split; [tauto|reflexivity]].
  cbn [jmap dec_map].
  destruct (dec_entries_spec zero d (fun j => fst (d zero j)) (ksort (map (fun p => (txt (fst p), f (snd p))) l)) [])
    as (m' & E & L).
  - intros k j I. apply ksort_in in I. apply in_map_iff in I. destruct I as ([k' a] & E & I). injection E as <- <-.
    cbn [snd]. rewrite (D l k' a eq_refl I). reflexivity.
  - apply sorted_nodup, ksort_sorted.
  - rewrite E. exists (Some m'). split; [reflexivity|]. split; [split; discriminate|].
    intros k. cbn [mget]. rewrite L, ksort_lookup, klookup_map. cbn [alookup].
    destruct (alookup k l) as [a|] eqn:K; [|reflexivity]. cbn [option_map].
    assert (I : In (k, a) l).
    { clear - K. induction l as [|[j w] l IH]; cbn in K; [discriminate|]. destruct (String.eqb_spec k j) as [->|];
        [injection K as ->; now left|right; auto]. }
    rewrite (D l k a eq_refl I). reflexivity.
Qed.

Lemma dec_elements_spec {A B} (d : dec (option B)) (f : A -> json) (R : A -> B -> Prop) l :
  (forall a, In a l -> exists b, d None (f a) = (Some b, true) /\ R a b) ->
  exists l', dec_elements d [] (map f l) = (map Some l', true) /\ Forall2 R l l'.
Proof.
  induction l as [|a l IH]; intros D; [exists []; split; [reflexivity|constructor]|].
  destruct (D a (or_introl eq_refl)) as (b & E & RB). destruct IH as (l' & EL & RL); [intros x X; apply D; now right|].
  exists (b :: l'). cbn [map dec_elements]. rewrite E, EL. split; [reflexivity|now constructor].
Qed.
Lemma Forall2_eq {A} (l l' : list A) : Forall2 eq l l' -> l = l'.
Proof. induction 1; congruence. Qed.

(** ** The fields *)
Lemma dec_jstr p s : dec_string p (jstr s) = (s, true).
Proof. cbn. now rewrite txt_string. Qed.
Lemma dec_jint p z : int64 z -> dec_int p (jint z) = (z, true).
Proof.
  intros [A B]. unfold jint. cbn [dec_int]. rewrite parse_Z_print.
  apply Z.leb_le in A. apply Z.ltb_lt in B. rewrite A, B. reflexivity.
Qed.
Lemma dec_jbyte p b : dec_byte p (jint (Z.of_N (b2N b))) = (b, true).
Proof.
  unfold jint. cbn [dec_byte]. assert (E : print_Z (Z.of_N (b2N b)) = print_N (b2N b)) by (destruct (b2N b); reflexivity).
  rewrite E, parse_nat_print. destruct (Z.ltb_spec (Z.of_N (b2N b)) 256) as [L|L].
  - rewrite N2Z.id. f_equal. destruct b; reflexivity.
  - exfalso. pose proof (Byte.to_N_bounded b). unfold b2N in L. lia.
Qed.

Lemma dec_class c : dec_ptr zero_class (dec_struct class_field) None (jclass c) = (Some c, true).
Proof.
  unfold jclass. cbn [dec_ptr dec_struct dec_fields].
  assert (F1 : forall c j, class_field (txt "ID") c j = let '(x, ok) := dec_byte (cc_id c) j in
    (mkCC x (cc_innif c) (cc_secure c) (cc_nonsecure c) (cc_version c), ok)) by reflexivity.
  assert (F2 : forall c j, class_field (txt "InNIF") c j = let '(x, ok) := dec_bool (cc_innif c) j in
    (mkCC (cc_id c) x (cc_secure c) (cc_nonsecure c) (cc_version c), ok)) by reflexivity.
  assert (F3 : forall c j, class_field (txt "Secure") c j = let '(x, ok) := dec_bool (cc_secure c) j in
    (mkCC (cc_id c) (cc_innif c) x (cc_nonsecure c) (cc_version c), ok)) by reflexivity.
  assert (F4 : forall c j, class_field (txt "NonSecure") c j = let '(x, ok) := dec_bool (cc_nonsecure c) j in
    (mkCC (cc_id c) (cc_innif c) (cc_secure c) x (cc_version c), ok)) by reflexivity.
  assert (F5 : forall c j, class_field (txt "Version") c j = let '(x, ok) := dec_string (cc_version c) j in
    (mkCC (cc_id c) (cc_innif c) (cc_secure c) (cc_nonsecure c) x, ok)) by reflexivity.
  rewrite F1, dec_jbyte. rewrite F2. cbn [dec_bool cc_innif]. rewrite F3. cbn [dec_bool]. rewrite F4. cbn [dec_bool].
  rewrite F5, dec_jstr. cbn. destruct c. reflexivity.
Qed.
Lemma dec_classes_ok l : exists l', dec_classes None (jslice jclass l) = (l', true) /\
  opt_slice l' = Some l.
Proof.
  destruct l as [l|]; [|exists None; auto]. unfold dec_classes. cbn [jslice dec_slice].
  destruct (dec_elements_spec (dec_ptr zero_class (dec_struct class_field)) jclass (fun a b => a = b) l) as (l' & E & R).
  - intros a _. exists a. split; [apply dec_class|reflexivity].
  - rewrite E. apply Forall2_eq in R. subst l'. exists (Some (map Some l)). split; [reflexivity|].
    cbn. assert (K : all_some (map Some l) = Some l) by (induction l as [|a l IH]; cbn; [reflexivity|];
      destruct (dec_elements_spec (dec_ptr zero_class (dec_struct class_field)) jclass (fun a b => a = b) l) as (l' & E' & R');
      [intros x _; exists x; split; [apply dec_class|reflexivity]|]; apply Forall2_eq in R'; subst l'; rewrite (IH E'); reflexivity).
    rewrite K. reflexivity.
Qed.
Lemma all_some_map {A} (l : list A) : all_some (map Some l) = Some l.
Proof. induction l as [|a l IH]; cbn; [reflexivity|]. now rewrite IH. Qed.

Lemma dec_bool_ok m : good_map (fun _ : bool => True) m ->
  exists m', dec_map false dec_bool None (jmap JBool m) = (m', true) /\ same_map m m'.
Proof. intros _. apply dec_map_spec. reflexivity. Qed.
Lemma dec_float_ok fmt m : good_map (faithful fmt) m ->
  exists m', dec_map (S754_zero false) dec_float None (jmap (fun f => JNum (fmt f)) m) = (m', true) /\ same_map m m'.
Proof.
  intros G. apply dec_map_spec. intros l k a E I. destruct (G l k a E I) as (_ & _ & P). cbn. rewrite P. reflexivity.
Qed.

Lemma dec_endpoint fmt e : good_endpoint fmt e ->
  exists r e', dec_ptr zero_rendpoint (dec_struct endpoint_field) None (jendpoint fmt e) = (Some r, true) /\
    real_endpoint r = Some e' /\ kept_endpoint e e'.
Proof.
  intros (GI & GC & GB & GF). unfold jendpoint. cbn [dec_ptr dec_struct dec_fields].
  assert (F1 : forall e j, endpoint_field (txt "Id") e j = let '(x, ok) := dec_int (re_id e) j in
    (mkRE x (re_classes e) (re_bool e) (re_float e), ok)) by reflexivity.
  assert (F2 : forall e j, endpoint_field (txt "CommandClasses") e j = let '(x, ok) := dec_classes (re_classes e) j in
    (mkRE (re_id e) x (re_bool e) (re_float e), ok)) by reflexivity.
  assert (F3 : forall e j, endpoint_field (txt "StateBool") e j = let '(x, ok) := dec_map false dec_bool (re_bool e) j in
    (mkRE (re_id e) (re_classes e) x (re_float e), ok)) by reflexivity.
  assert (F4 : forall e j, endpoint_field (txt "StateFloat") e j = let '(x, ok) := dec_map (S754_zero false) dec_float (re_float e) j in
    (mkRE (re_id e) (re_classes e) (re_bool e) x, ok)) by reflexivity.
  destruct (dec_classes_ok (e_classes e)) as (cl & EC & OC).
  destruct (dec_bool_ok _ GB) as (bm & EB & SB). destruct (dec_float_ok fmt _ GF) as (fm & EF & SF).
  rewrite F1, dec_jint by exact GI. rewrite F2. cbn [re_classes zero_rendpoint re_id re_bool re_float]. rewrite EC.
  rewrite F3. cbn [re_bool re_id re_classes re_float]. rewrite EB. rewrite F4. cbn [re_bool re_id re_classes re_float]. rewrite EF.
  cbn [andb]. eexists _, _. split; [reflexivity|]. unfold real_endpoint. cbn [re_classes re_id re_bool re_float]. rewrite OC.
  split; [reflexivity|]. unfold kept_endpoint. cbn. auto.
Qed.

Lemma dec_ms m : (forall x, m = Some x -> good_string (ms_manufacturer x) /\ good_string (ms_type x) /\ good_string (ms_id x)) ->
  dec_ptr (mkMS "" "" "") (dec_struct ms_field) None (jms m) = (m, true).
Proof.
  intros _. destruct m as [[a b c]|]; [|reflexivity]. cbn [jms dec_ptr dec_struct dec_fields ms_manufacturer ms_type ms_id].
  assert (F1 : forall m j, ms_field (txt "manufacturer") m j = let '(x, ok) := dec_string (ms_manufacturer m) j in
    (mkMS x (ms_type m) (ms_id m), ok)) by reflexivity.
  assert (F2 : forall m j, ms_field (txt "type") m j = let '(x, ok) := dec_string (ms_type m) j in
    (mkMS (ms_manufacturer m) x (ms_id m), ok)) by reflexivity.
  assert (F3 : forall m j, ms_field (txt "id") m j = let '(x, ok) := dec_string (ms_id m) j in
    (mkMS (ms_manufacturer m) (ms_type m) x, ok)) by reflexivity.
  rewrite F1, dec_jstr, F2, dec_jstr, F3, dec_jstr. reflexivity.
Qed.

Lemma all_some_forall2 {A B C} (f : A -> option B) (R : C -> B -> Prop) l (cs : list C) :
  Forall2 (fun c a => exists b, f a = Some b /\ R c b) cs l ->
  exists l', all_some (map f l) = Some l' /\ Forall2 R cs l'.
Proof.
  induction 1 as [|c a cs l (b & E & RB) _ IH]; [exists []; split; [reflexivity|constructor]|].
  destruct IH as (l' & EL & RL). exists (b :: l'). cbn [map all_some]. rewrite E, EL. split; [reflexivity|now constructor].
Qed.

Lemma dec_node fmt n : storable fmt n ->
  exists r n', dec_ptr zero_rnode (dec_struct node_field) None (jnode fmt n) = (Some r, true) /\
    real_node r = Some n' /\ kept n n' /\ has_nil (rn_endpoints r) = false /\ rn_id r = n_id n.
Proof.
  intros [SI SBr SPr SDe SM SC SE SB SF]. unfold jnode. cbn [dec_ptr dec_struct dec_fields].
  destruct (dec_classes_ok (n_classes n)) as (cl & EC & OC).
  destruct (dec_bool_ok _ SB) as (bm & EB & MB). destruct (dec_float_ok fmt _ SF) as (fm & EF & MF).
  assert (EP : exists ep ep', dec_slice (dec_ptr zero_rendpoint (dec_struct endpoint_field)) None (jslice (jendpoint fmt) (n_endpoints n)) = (ep, true) /\
     has_nil ep = false /\ exists raw, opt_slice ep = Some raw /\
     match raw with
     | None => Some None
     | Some l => match all_some (map real_endpoint l) with Some r => Some (Some r) | None => None end
     end = Some ep' /\ kept_endpoints (n_endpoints n) ep').
  { destruct (n_endpoints n) as [l|]; [|exists None, None; cbn; repeat split; exists None; auto].
    cbn [jslice dec_slice].
    destruct (dec_elements_spec (dec_ptr zero_rendpoint (dec_struct endpoint_field)) (jendpoint fmt)
      (fun e r => exists e', real_endpoint r = Some e' /\ kept_endpoint e e') l) as (l' & E & R).
    { intros a I. destruct (dec_endpoint fmt a (SE l a eq_refl I)) as (r & e' & A & B & C). exists r. eauto. }
    rewrite E. apply all_some_forall2 in R. destruct R as (l2 & E2 & R2).
    exists (Some (map Some l')), (Some l2). split; [reflexivity|].
    split; [cbn; clear; induction l'; cbn; auto|]. exists (Some l'). cbn. rewrite all_some_map. split; [reflexivity|].
    rewrite E2. auto. }
  destruct EP as (ep & ep' & EE & HN & raw & OE & RE & KE).
  assert (F1 : forall n j, node_field (txt "id") n j = let '(mkRN id aw ms br pr de cl ep bo fl) := n in
    let '(x, ok) := dec_int id j in (mkRN x aw ms br pr de cl ep bo fl, ok)) by (intros []; reflexivity).
  assert (F2 : forall n j, node_field (txt "is_awake") n j = let '(mkRN id aw ms br pr de cl ep bo fl) := n in
    let '(x, ok) := dec_bool aw j in (mkRN id x ms br pr de cl ep bo fl, ok)) by (intros []; reflexivity).
  assert (F3 : forall n j, node_field (txt "ManufacurerSpecific") n j = let '(mkRN id aw ms br pr de cl ep bo fl) := n in
    let '(x, ok) := dec_ptr (mkMS "" "" "") (dec_struct ms_field) ms j in (mkRN id aw x br pr de cl ep bo fl, ok)) by (intros []; reflexivity).
  assert (F4 : forall n j, node_field (txt "Brand") n j = let '(mkRN id aw ms br pr de cl ep bo fl) := n in
    let '(x, ok) := dec_string br j in (mkRN id aw ms x pr de cl ep bo fl, ok)) by (intros []; reflexivity).
  assert (F5 : forall n j, node_field (txt "Product") n j = let '(mkRN id aw ms br pr de cl ep bo fl) := n in
    let '(x, ok) := dec_string pr j in (mkRN id aw ms br x de cl ep bo fl, ok)) by (intros []; reflexivity).
  assert (F6 : forall n j, node_field (txt "Description") n j = let '(mkRN id aw ms br pr de cl ep bo fl) := n in
    let '(x, ok) := dec_string de j in (mkRN id aw ms br pr x cl ep bo fl, ok)) by (intros []; reflexivity).
  assert (F7 : forall n j, node_field (txt "CommandClasses") n j = let '(mkRN id aw ms br pr de cl ep bo fl) := n in
    let '(x, ok) := dec_classes cl j in (mkRN id aw ms br pr de x ep bo fl, ok)) by (intros []; reflexivity).
  assert (F8 : forall n j, node_field (txt "Endpoints") n j = let '(mkRN id aw ms br pr de cl ep bo fl) := n in
    let '(x, ok) := dec_slice (dec_ptr zero_rendpoint (dec_struct endpoint_field)) ep j in
    (mkRN id aw ms br pr de cl x bo fl, ok)) by (intros []; reflexivity).
  assert (F9 : forall n j, node_field (txt "StateBool") n j = let '(mkRN id aw ms br pr de cl ep bo fl) := n in
    let '(x, ok) := dec_map false dec_bool bo j in (mkRN id aw ms br pr de cl ep x fl, ok)) by (intros []; reflexivity).
  assert (F10 : forall n j, node_field (txt "StateFloat") n j = let '(mkRN id aw ms br pr de cl ep bo fl) := n in
    let '(x, ok) := dec_map (S754_zero false) dec_float fl j in (mkRN id aw ms br pr de cl ep bo x, ok)) by (intros []; reflexivity).
  rewrite F1. unfold zero_rnode at 1. rewrite dec_jint by exact SI. rewrite F2. cbn [dec_bool]. rewrite F3, dec_ms by exact SM.
  rewrite F4, dec_jstr, F5, dec_jstr, F6, dec_jstr, F7, EC, F8, EE, F9, EB, F10, EF. cbn [andb].
  eexists _, _. split; [reflexivity|]. unfold real_node. cbn [rn_classes rn_endpoints]. rewrite OC, OE, RE.
  split; [reflexivity|]. split; [|split; [exact HN|reflexivity]]. constructor; auto.
Qed.

(** ** The whole document *)
Lemma sound_jstr s : good_string s -> sound (jstr s).
Proof. intros H. now constructor. Qed.
Lemma sound_jint z : sound (jint z).
Proof. constructor. apply print_Z_literal. Qed.
Lemma sound_fields l : Forall (fun p => utf8 (fst p) /\ sound (snd p)) l -> sound (JObj l).
Proof. intros F. constructor. intros k v I. rewrite Forall_forall in F. exact (F _ I). Qed.
Ltac ascii := let b := fresh in let B := fresh in
  apply ascii_utf8; intros b B; cbn in B; repeat (destruct B as [<-|B]; [reflexivity|]); destruct B.
Ltac fields := apply sound_fields; repeat (apply Forall_cons; [split; [cbn [fst]; ascii|cbn [snd]]|]); [..|apply Forall_nil].
Lemma sound_class c : good_string (cc_version c) -> sound (jclass c).
Proof. intros G. unfold jclass. fields; try apply sound_jint; try constructor. exact G. Qed.
Lemma sound_classes l : good_classes l -> sound (jslice jclass l).
Proof.
  intros G. destruct l as [l|]; [|constructor]. cbn. constructor. intros v I. apply in_map_iff in I.
  destruct I as (c & <- & I). apply sound_class. now apply (G l).
Qed.
Lemma sound_map {V} (P : V -> Prop) (f : V -> json) m : good_map P m -> (forall v, P v -> sound (f v)) ->
  sound (jmap f m).
Proof.
  intros G F. destruct m as [l|]; [|constructor]. cbn. constructor. intros k v I. apply ksort_in in I.
  apply in_map_iff in I. destruct I as ([k' a] & E & I). injection E as <- <-. destruct (G l k' a eq_refl I). cbn. auto.
Qed.
Lemma sound_bools m : good_map (fun _ => True) m -> sound (jmap JBool m).
Proof. intros G. eapply sound_map; [exact G|]. constructor. Qed.
Lemma sound_floats fmt m : good_map (faithful fmt) m -> sound (jmap (fun f => JNum (fmt f)) m).
Proof. intros G. eapply sound_map; [exact G|]. intros v [L _]. now constructor. Qed.
Lemma sound_endpoint fmt e : good_endpoint fmt e -> sound (jendpoint fmt e).
Proof.
  intros (A & B & C & D). unfold jendpoint.
  fields; [apply sound_jint|now apply sound_classes|now apply sound_bools|now apply sound_floats].
Qed.
Lemma sound_node fmt n : storable fmt n -> sound (jnode fmt n).
Proof.
  intros [SI SBr SPr SDe SM SC SE SB SF]. unfold jnode.
  fields; [apply sound_jint|constructor| |now apply sound_jstr|now apply sound_jstr|now apply sound_jstr|now apply sound_classes|
    |now apply sound_bools|now apply sound_floats].
  - destruct (n_ms n) as [m|]; [|constructor]. destruct (SM m eq_refl) as (A & B & C). cbn [jms].
    fields; now apply sound_jstr.
  - destruct (n_endpoints n) as [l|]; [|constructor]. cbn. constructor. intros v I. apply in_map_iff in I.
    destruct I as (e & <- & I). apply sound_endpoint. now apply (SE l).
Qed.
Lemma sound_controller fmt ns : (forall k n, In (k, n) ns -> storable fmt n) -> sound (jcontroller fmt ns).
Proof.
  intros G. unfold jcontroller. fields. constructor. intros k v I. apply ksort_in in I.
  apply in_map_iff in I. destruct I as ([z n] & E & I). injection E as <- <-. cbn [fst snd].
  split; [apply ascii_utf8, print_Z_ascii|apply sound_node; eauto].
Qed.

Lemma binary_finite s m e : finite (binary_normalize 53 1024 m e s) = true \/
  binary_normalize 53 1024 m e s = S754_nan \/ exists b, binary_normalize 53 1024 m e s = S754_infinity b.
Proof. destruct (binary_normalize 53 1024 m e s); cbn; eauto. Qed.
Lemma parse_float_finite s f : parse_float s = Some f -> finite f = true.
Proof.
  unfold parse_float. intros H. repeat match type of H with
  | match ?x with _ => _ end = _ => destruct x; try discriminate H
  end; injection H as <-; reflexivity.
Qed.
Lemma storable_finite fmt n f : storable fmt n -> In f (node_floats n) -> finite f = true.
Proof.
  assert (M : forall m, good_map (faithful fmt) m -> In f (map_values m) -> finite f = true).
  { intros m G I. destruct m as [l|]; [|destruct I]. cbn in I. apply in_map_iff in I. destruct I as ([k v] & <- & I).
    destruct (G l k v eq_refl I) as (_ & _ & P). now apply parse_float_finite in P. }
  intros [SI SBr SPr SDe SM SC SE SB SF] I. unfold node_floats in I. apply in_app_or in I. destruct I as [I|I]; [eauto|].
  destruct (n_endpoints n) as [l|]; [|destruct I]. apply in_flat_map in I. destruct I as (e & I & J).
  destruct (SE l e eq_refl I) as (_ & _ & _ & G). eauto.
Qed.
Lemma storable_written fmt ns : (forall k n, In (k, n) ns -> storable fmt n) ->
  marshal fmt ns = Some (jprint 0 (jcontroller fmt ns)).
Proof.
  intros G. unfold marshal. replace (forallb _ _) with true; [reflexivity|]. symmetry. apply forallb_forall.
  intros f I. apply in_flat_map in I. destruct I as ([k n] & I & J). cbn in J. eapply storable_finite; eauto.
Qed.

(** ** Adding nodes *)
Lemma zlookup_zset {V} k (v : V) m k' : zlookup k' (zset k v m) = if (k' =? k)%Z then Some v else zlookup k' m.
Proof.
  induction m as [|[j w] m IH]; cbn; [reflexivity|]. destruct (Z.eqb_spec k j) as [->|N]; cbn.
  - destruct (Z.eqb k' j); reflexivity.
  - rewrite IH. destruct (Z.eqb_spec k' j) as [->|]; [|reflexivity].
    destruct (Z.eqb_spec j k) as [->|]; [congruence|reflexivity].
Qed.
Lemma zlookup_in {V} (m : list (Z * V)) k v : NoDup (map fst m) -> (zlookup k m = Some v <-> In (k, v) m).
Proof.
  induction m as [|[j w] m IH]; intros N; [cbn; intuition discriminate|].
  inversion N as [|? ? NI N']; subst. cbn. destruct (Z.eqb_spec k j) as [->|NE].
  - split; [intros E; injection E as ->; now left|]. intros [E|I]; [injection E as ->; reflexivity|].
    exfalso. apply NI. apply (in_map fst) in I. exact I.
  - rewrite IH by exact N'. split; [intros H; now right|]. intros [E|I]; [congruence|exact I].
Qed.
Definition fine (p : string * option rnode) : bool :=
  match snd p with Some n => negb (has_nil (rn_endpoints n)) | None => false end.
Lemma radd_all_some es : forall m, (exists m', radd_all m es = Some m') <-> forallb fine es = true.
Proof.
  induction es as [|[k n] es IH]; intros m; [cbn; intuition eauto|]. cbn [radd_all forallb]. unfold fine at 1. cbn [snd].
  destruct n as [n|]; cbn [radd]; [|split; [intros [? ?]; discriminate|discriminate]].
  destruct (has_nil (rn_endpoints n)); cbn [negb andb]; [split; [intros [? ?]; discriminate|discriminate]|].
  apply IH.
Qed.
Lemma radd_all_lookup es : forall m m' (g : Z -> option rnode), radd_all m es = Some m' ->
  (forall k n, In (k, Some n) es -> g (rn_id n) = Some n) ->
  (forall id, (exists k n, In (k, Some n) es /\ rn_id n = id) -> zlookup id m' = g id) /\
  (forall id, ~ (exists k n, In (k, Some n) es /\ rn_id n = id) -> zlookup id m' = zlookup id m).
Proof.
  induction es as [|[k n] es IH]; intros m m' g R G.
  - injection R as <-. split; [intros id (k & n & [] & _)|reflexivity].
  - cbn [radd_all] in R. destruct n as [n|]; cbn [radd] in R; [|discriminate].
    destruct (has_nil (rn_endpoints n)); [discriminate|].
    assert (G' : forall k0 n0, In (k0, Some n0) es -> g (rn_id n0) = Some n0) by (intros k0 n0 I; apply (G k0); now right).
    destruct (IH _ _ g R G') as [A B].
    assert (D : forall id, (exists k n, In (k, Some n) es /\ rn_id n = id) \/ ~ (exists k n, In (k, Some n) es /\ rn_id n = id)).
    { intros id. clear. induction es as [|[k [n|]] es [(k0 & n0 & I & E)|N]].
      - right. intros (? & ? & [] & _).
      - left. exists k0, n0. split; [now right|exact E].
      - destruct (Z.eq_dec (rn_id n) id) as [E|NE]; [left; exists k, n; split; [now left|exact E]|].
        right. intros (k0 & n0 & [E|I] & E'); [congruence|]. apply N. eauto.
      - left. exists k0, n0. split; [now right|exact E].
      - right. intros (k0 & n0 & [E|I] & E'); [congruence|]. apply N. eauto. }
    split; intros id H.
    + destruct (D id) as [D1|D1]; [now apply A|]. rewrite B by exact D1. destruct H as (k0 & n0 & [E|I] & E').
      * injection E as <- <-. subst id. rewrite zlookup_zset, Z.eqb_refl. symmetry. apply (G k). now left.
      * exfalso. apply D1. eauto.
    + rewrite B by (intros (k0 & n0 & I & E); apply H; exists k0, n0; split; [now right|exact E]).
      rewrite zlookup_zset. destruct (Z.eqb_spec id (rn_id n)) as [->|]; [|reflexivity].
      exfalso. apply H. exists k, n. split; [now left|reflexivity].
Qed.
Lemma zset_keys {V} k (v : V) m j : In j (map fst (zset k v m)) <-> j = k \/ In j (map fst m).
Proof.
  induction m as [|[i w] m IH]; cbn; [intuition|]. destruct (Z.eqb_spec k i) as [->|]; cbn; [intuition|].
  rewrite IH. intuition.
Qed.
Lemma zset_nodup {V} k (v : V) m : NoDup (map fst m) -> NoDup (map fst (zset k v m)).
Proof.
  induction m as [|[i w] m IH]; cbn; intros N; [repeat constructor; intros []|].
  inversion N; subst. destruct (Z.eqb_spec k i) as [->|]; cbn; [exact N|]. constructor; [|auto].
  rewrite zset_keys. intros [E|I]; [congruence|auto].
Qed.
Definition keyed (m : list (Z * rnode)) : Prop := NoDup (map fst m) /\ forall k n, In (k, n) m -> rn_id n = k.
Lemma zset_keyed n m : keyed m -> keyed (zset (rn_id n) n m).
Proof.
  intros [A B]. split; [now apply zset_nodup|]. intros k n' I.
  apply zlookup_in in I; [|now apply zset_nodup]. rewrite zlookup_zset in I.
  destruct (Z.eqb_spec k (rn_id n)) as [->|]; [congruence|]. apply zlookup_in in I; [|exact A]. now apply B.
Qed.
Lemma radd_all_keyed es : forall m m', keyed m -> radd_all m es = Some m' -> keyed m'.
Proof.
  induction es as [|[k n] es IH]; intros m m' K R; [injection R as <-; exact K|]. cbn [radd_all] in R.
  destruct n as [n|]; cbn [radd] in R; [|discriminate]. destruct (has_nil _); [discriminate|].
  eapply IH; [|exact R]. now apply zset_keyed.
Qed.
Lemma added_lookup old m new : keyed m -> added old m new ->
  forall id, zlookup id new = match zlookup id m with Some n => Some n | None => zlookup id old end.
Proof.
  intros [N B] (es & P & ->).
  assert (K : forall l acc, keyed l -> forall id,
    zlookup id (fold_left (fun acc p => zset (rn_id (snd p)) (snd p) acc) l acc) =
    match zlookup id l with Some n => Some n | None => zlookup id acc end).
  { induction l as [|[k n] l IH]; intros acc [N' B'] id; [reflexivity|]. cbn [fold_left snd].
    inversion N' as [|? ? NI N2]; subst. rewrite IH by (split; [exact N2|intros; apply B'; now right]).
    rewrite zlookup_zset. cbn. rewrite (B' k n) by now left. destruct (Z.eqb_spec id k) as [->|]; [|reflexivity].
    destruct (zlookup k l) eqn:E; [|reflexivity]. apply zlookup_in in E; [|exact N2].
    exfalso. apply NI. apply (in_map fst) in E. exact E. }
  assert (KE : keyed es).
  { split; [eapply Permutation_NoDup; [apply Permutation_map, P|exact N]|].
    intros k n I. apply B. eapply Permutation_in; [apply Permutation_sym, P|exact I]. }
  intros id. rewrite K by exact KE.
  assert (E : zlookup id es = zlookup id m); [|now rewrite E].
  destruct (zlookup id m) as [n|] eqn:E.
  - apply zlookup_in in E; [|exact N]. apply zlookup_in; [apply KE|]. eapply Permutation_in; eauto.
  - destruct (zlookup id es) as [n|] eqn:E2; [|reflexivity]. apply zlookup_in in E2; [|apply KE].
    apply (Permutation_in _ (Permutation_sym P)) in E2. apply zlookup_in in E2; [congruence|exact N].
Qed.

(** ** C43 *)
Definition node_of (fmt : spec_float -> text) (n : node) : rnode :=
  match fst (dec_ptr zero_rnode (dec_struct node_field) None (jnode fmt n)) with Some r => r | None => zero_rnode end.
Lemma node_of_spec fmt n : storable fmt n ->
  dec_ptr zero_rnode (dec_struct node_field) None (jnode fmt n) = (Some (node_of fmt n), true) /\
  exists n', real_node (node_of fmt n) = Some n' /\ kept n n' /\ has_nil (rn_endpoints (node_of fmt n)) = false /\
    rn_id (node_of fmt n) = n_id n.
Proof.
  intros S. destruct (dec_node fmt n S) as (r & n' & E & A & B & C & D). unfold node_of. rewrite E. cbn [fst]. eauto 8.
Qed.
Lemma entries_of fmt ns : node_list ns -> (forall k n, In (k, n) ns -> storable fmt n) ->
  exists es, list_entries (JObj (ksort (map (fun p => (print_Z (fst p), jnode fmt (snd p))) ns))) = Some es /\
    forall k x, In (k, x) es <-> exists z n, In (z, n) ns /\ k = string_of_list_byte (print_Z z) /\ x = Some (node_of fmt n).
Proof.
  intros [ND ID] G. set (l := ksort _). assert (NL : NoDup (map fst l)) by (apply sorted_nodup, ksort_sorted).
  assert (IL : forall k j, In (k, j) l <-> exists z n, In (z, n) ns /\ k = print_Z z /\ j = jnode fmt n).
  { intros k j. rewrite <- klookup_in by exact NL. unfold l. rewrite ksort_lookup, klookup_in.
    - rewrite in_map_iff. split; [intros ([z n] & E & I); injection E as <- <-; eauto|].
      intros (z & n & I & -> & ->). exists (z, n). auto.
    - rewrite map_map. cbn. assert (K : NoDup (map print_Z (map fst ns))).
      { clear - ND. induction ND as [|z zs NI ND IH]; cbn; [constructor|]. constructor; [|exact IH].
        intros I. apply in_map_iff in I. destruct I as (y & E & I). apply print_Z_inj in E. congruence. }
      rewrite map_map in K. exact K. }
  assert (DO : forall k j, In (k, j) l -> dec_ptr zero_rnode (dec_struct node_field) None j =
     (fst (dec_ptr zero_rnode (dec_struct node_field) None j), true)).
  { intros k j I. apply IL in I. destruct I as (z & n & I & _ & ->). destruct (node_of_spec fmt n (G _ _ I)) as [-> _]. reflexivity. }
  destruct (dec_entries_spec None (dec_ptr zero_rnode (dec_struct node_field))
     (fun j => fst (dec_ptr zero_rnode (dec_struct node_field) None j)) l [] DO NL) as (es & E & L).
  exists es. cbn [list_entries]. rewrite E. split; [reflexivity|].
  assert (NE : NoDup (map fst es)).
  { assert (Q : forall l0 m0 (m1 : list (string * option rnode)) b, dec_entries None (dec_ptr zero_rnode (dec_struct node_field)) m0 l0 = (m1, b) ->
      NoDup (map fst m0) -> NoDup (map fst m1)).
    { induction l0 as [|[k j] l0 IH]; intros m0 m1 b H N; cbn [dec_entries] in H; [congruence|].
      destruct (dec_ptr _ _ None j) as [a ok]. destruct (dec_entries _ _ _ l0) as [m2 ok'] eqn:D. injection H as <- <-.
      eapply IH; [exact D|]. clear - N. induction m0 as [|[i w] m0 IH]; cbn; [repeat constructor; intros []|].
      inversion N; subst. destruct (String.eqb_spec (string_of_list_byte k) i) as [<-|NE]; cbn; [exact N|].
      constructor; [|auto]. intros I. assert (X : i = string_of_list_byte k \/ In i (map fst m0)).
      { clear - I. induction m0 as [|[h w] m0 IH]; cbn in *; [intuition|]. destruct (String.eqb_spec (string_of_list_byte k) h) as [<-|]; cbn in *; intuition. }
      destruct X; [congruence|auto]. }
    eapply Q; [exact E|constructor]. }
  assert (AL : forall k x, alookup k es = Some x <-> In (k, x) es).
  { intros k x. clear - NE. induction es as [|[i w] es IH]; cbn; [intuition discriminate|]. inversion NE; subst.
    destruct (String.eqb_spec k i) as [->|]; [|rewrite IH by assumption; intuition congruence].
    split; [intros H; injection H as ->; auto|]. intros [H|H]; [congruence|]. apply (in_map fst) in H. contradiction. }
  intros k x. rewrite <- AL, L. split.
  - destruct (klookup (txt k) l) as [j|] eqn:K; [|discriminate]. intros H. injection H as <-.
    apply klookup_in in K; [|exact NL]. apply IL in K. destruct K as (z & n & I & E1 & ->).
    exists z, n. split; [exact I|]. rewrite <- E1, txt_string. split; [reflexivity|].
    destruct (node_of_spec fmt n (G _ _ I)) as [-> _]. reflexivity.
  - intros (z & n & I & -> & ->). rewrite string_txt.
    assert (K : klookup (print_Z z) l = Some (jnode fmt n)) by (apply klookup_in; [exact NL|]; apply IL; eauto).
    rewrite K. destruct (node_of_spec fmt n (G _ _ I)) as [-> _]. reflexivity.
Qed.

Lemma roundtrip fmt ns : node_list ns -> (forall k n, In (k, n) ns -> storable fmt n) ->
  exists s, marshal fmt ns = Some s /\ (exists d, read_config s d) /\
  forall d, read_config s d -> exists m, load_config d = Some (Some m) /\
    forall old new, added old m new -> forall id,
    match zlookup id ns with
    | Some n => exists r n', zlookup id new = Some r /\ real_node r = Some n' /\ kept n n'
    | None => zlookup id new = zlookup id old
    end.
Proof.
  intros NL G. exists (jprint 0 (jcontroller fmt ns)). split; [now apply storable_written|].
  assert (J : jread (jprint 0 (jcontroller fmt ns)) = Some (jcontroller fmt ns, [])).
  { pose proof (written_read (jcontroller fmt ns) []) as W. rewrite app_nil_r in W. apply W; [now apply sound_controller|discriminate]. }
  destruct (entries_of fmt ns NL G) as (es & LE & IN).
  assert (FE : forallb fine es = true).
  { apply forallb_forall. intros [k x] I. apply IN in I. destruct I as (z & n & I & _ & ->).
    destruct (node_of_spec fmt n (G _ _ I)) as (_ & n' & _ & _ & H & _). cbn. rewrite H. reflexivity. }
  assert (NN : is_field (txt "Nodes") "Nodes" = true) by reflexivity.
  split.
  { destruct (proj2 (radd_all_some es []) FE) as (m & R).
    exists (LOk (Some (Some m))). eapply RC_object; [exact J|].
    eapply FR_nodes; [exact NN|exact LE|apply Permutation_refl|exact R|]. apply (FR_done (Some m) true). }
  intros d RC.
  assert (FR : fields_read None true [(txt "Nodes", JObj (ksort (map (fun p => (print_Z (fst p), jnode fmt (snd p))) ns)))] d).
  { inversion RC as [s N|s r N|s l r x N F|s j r N]; subst.
    - congruence.
    - rewrite J in N. discriminate N.
    - rewrite J in N. injection N as <- <-. exact F.
    - rewrite J in N. injection N as <- <-. unfold jcontroller in *. exfalso. eapply H0. reflexivity. }
  inversion FR as [|? ? ? ? ? ? NF|? ? ? ? ? NF|? ? ? ? ? ? NF JN LN F|? ? ? ? ? es0 es' NF L0 P R|? ? ? ? ? ? es0 es' m NF L0 P R F]; subst.
  - rewrite NN in NF. discriminate.
  - rewrite LE in LN. discriminate.
  - rewrite LE in L0. injection L0 as <-.
    assert (FE' : forallb fine es' = true).
    { apply forallb_forall. intros x I. rewrite forallb_forall in FE. apply FE. eapply Permutation_in; [apply Permutation_sym, P|exact I]. }
    destruct (proj2 (radd_all_some es' []) FE') as (m & R'). congruence.
  - rewrite LE in L0. injection L0 as <-. inversion F; subst. exists m. split; [reflexivity|].
    intros old new AD id.
    assert (KM : keyed m) by (eapply radd_all_keyed; [|exact R]; split; [constructor|intros ? ? []]).
    rewrite (added_lookup old m new KM AD).
    destruct (radd_all_lookup es' [] m (fun id => option_map (node_of fmt) (zlookup id ns)) R) as [A B].
    { intros k n I. apply (Permutation_in _ (Permutation_sym P)) in I. apply IN in I. destruct I as (z & n0 & I & _ & E).
      injection E as ->. destruct (node_of_spec fmt n0 (G _ _ I)) as (_ & _ & _ & _ & _ & ->).
      destruct NL as [ND ID]. rewrite (ID _ _ I). apply zlookup_in in I; [|exact ND]. rewrite I. reflexivity. }
    destruct (zlookup id ns) as [n|] eqn:Z.
    + apply zlookup_in in Z; [|apply NL]. destruct (node_of_spec fmt n (G _ _ Z)) as (_ & n' & RN & KN & _ & IDN).
      rewrite (A id).
      * rewrite (proj2 (zlookup_in ns id n (proj1 NL)) Z). cbn. eauto.
      * exists (string_of_list_byte (print_Z id)), (node_of fmt n). split.
        -- eapply Permutation_in; [exact P|]. apply IN. eauto.
        -- rewrite IDN. destruct NL as [_ ID]. now apply ID.
    + rewrite (B id); [reflexivity|]. intros (k & r & I & E). apply (Permutation_in _ (Permutation_sym P)) in I. apply IN in I.
      destruct I as (z & n & I & _ & E'). injection E' as ->. destruct (node_of_spec fmt n (G _ _ I)) as (_ & _ & _ & _ & _ & IDN).
      destruct NL as [ND ID]. rewrite IDN, (ID _ _ I) in E. subst z. apply zlookup_in in I; [congruence|exact ND].
Qed.

(** ** Which documents crash *)
Lemma fine_permutation es es' : Permutation es es' -> forallb fine es' = forallb fine es.
Proof.
  intros P. destruct (forallb fine es) eqn:F.
  - apply forallb_forall. intros x I. rewrite forallb_forall in F. apply F. eapply Permutation_in; [apply Permutation_sym, P|exact I].
  - destruct (forallb fine es') eqn:F'; [|reflexivity]. rewrite <- F. symmetry. apply forallb_forall. intros x I.
    rewrite forallb_forall in F'. apply F'. eapply Permutation_in; eauto.
Qed.
Lemma not_fine j es : list_entries j = Some es -> (forallb fine es = false <-> null_node j).
Proof.
  intros E. split.
  - intros F. assert (X : exists x, In x es /\ fine x = false).
    { clear - F. induction es as [|x es IH]; [discriminate|]. cbn in F. destruct (fine x) eqn:X.
      - destruct IH as (y & I & Y); [exact F|]. exists y. split; [now right|exact Y].
      - exists x. split; [now left|exact X]. }
    destruct X as ([k n] & I & X). exists es, k, n. split; [exact E|]. split; [exact I|].
    unfold fine in X. cbn in X. destruct n; [|constructor]. now destruct (has_nil _).
  - intros (es0 & k & n & E0 & I & X). rewrite E in E0. injection E0 as <-.
    destruct (forallb fine es) eqn:F; [|reflexivity]. rewrite forallb_forall in F. apply F in I.
    unfold fine in I. cbn in I. destruct n; [rewrite X in I|]; discriminate.
Qed.
Lemma entries_not_null j es : list_entries j = Some es -> j <> JNull.
Proof. intros E ->. discriminate. Qed.

(** What the fields do, from a controller in which [c] is the node list so far
    and [ok] tells that there was no error. *)
Definition tolerated (j : json) : Prop := j = JNull \/ list_entries j <> None.
Inductive bad (c : option (list (Z * rnode))) (ok : bool) (l : list (text * json)) : Prop :=
| bad_node : forall k j, In (k, j) l -> names_nodes k = true -> null_node j -> bad c ok l
| bad_missing : ok = true -> (forall k j, In (k, j) l -> names_nodes k = true -> tolerated j) ->
    (forall l1 k j l2, l = l1 ++ (k, j) :: l2 -> names_nodes k = true ->
       (forall k' j', In (k', j') l2 -> names_nodes k' = false) -> j = JNull) ->
    ((exists k j, In (k, j) l /\ names_nodes k = true) \/ c = None) -> bad c ok l.
Lemma names_dec (l : list (text * json)) :
  (exists k j, In (k, j) l /\ names_nodes k = true) \/ (forall k j, In (k, j) l -> names_nodes k = false).
Proof.
  induction l as [|[k j] l [(k0 & j0 & I & N)|N]].
  - right. intros k j [].
  - left. exists k0, j0. split; [now right|exact N].
  - destruct (names_nodes k) eqn:E; [left; exists k, j; split; [now left|exact E]|].
    right. intros k0 j0 [H|H]; [congruence|eauto].
Qed.
Lemma last_cons k j (l : list (text * json)) :
  (forall l1 k0 j0 l2, (k, j) :: l = l1 ++ (k0, j0) :: l2 -> names_nodes k0 = true ->
     (forall k' j', In (k', j') l2 -> names_nodes k' = false) -> j0 = JNull) <->
  ((forall l1 k0 j0 l2, l = l1 ++ (k0, j0) :: l2 -> names_nodes k0 = true ->
     (forall k' j', In (k', j') l2 -> names_nodes k' = false) -> j0 = JNull) /\
   (names_nodes k = true -> (forall k' j', In (k', j') l -> names_nodes k' = false) -> j = JNull)).
Proof.
  split.
  - intros H. split.
    + intros l1 k0 j0 l2 -> N F. apply (H ((k, j) :: l1) k0 j0 l2 eq_refl N F).
    + intros N F. exact (H [] k j l eq_refl N F).
  - intros [H1 H2] l1 k0 j0 l2 E N F. destruct l1 as [|p l1]; cbn in E.
    + injection E as <- <- <-. auto.
    + injection E as E1 E2. eauto.
Qed.
Lemma fields_bad c ok l x : fields_read c ok l x -> (load_config x = None <-> bad c ok l).
Proof.
  induction 1 as [c ok|c ok k j l r N F IH|c ok k l r N F IH|c ok k j l r N JN LE F IH|c ok k j l es es' N LE P R|c ok k j l r es es' m N LE P R F IH].
  - destruct ok; cbn [load_config].
    + destruct c as [m|]; cbn [load_config].
      * split; [discriminate|]. intros [k j []|_ _ _ [(k & j & [] & _)|E]]. discriminate.
      * split; [|reflexivity]. intros _. apply bad_missing; [reflexivity|intros k j []| |now right].
        intros l1 k j l2 E. destruct l1; discriminate.
    + split; [discriminate|]. intros [k j []|E]. discriminate.
  - rewrite IH. fold (names_nodes k) in N. split.
    + intros [k0 j0 I N0 B|O T L M].
      * apply (bad_node _ _ _ k0 j0); [now right|exact N0|exact B].
      * apply bad_missing; [exact O| | |].
        -- intros k0 j0 [E|I] N0; [congruence|eauto].
        -- apply last_cons. split; [exact L|congruence].
        -- destruct M as [(k0 & j0 & I & N0)|M]; [left; exists k0, j0; split; [now right|exact N0]|now right].
    + intros [k0 j0 [E|I] N0 B|O T L M].
      * congruence.
      * now apply (bad_node _ _ _ k0 j0).
      * apply last_cons in L. destruct L as [L _]. apply bad_missing; [exact O|intros; eapply T; [right|]; eauto|exact L|].
        destruct M as [(k0 & j0 & [E|I] & N0)|M]; [congruence|eauto|now right].
  - rewrite IH. fold (names_nodes k) in N. split.
    + intros [k0 j0 I N0 B|O T L M].
      * apply (bad_node _ _ _ k0 j0); [now right|exact N0|exact B].
      * apply bad_missing; [exact O| | |left; exists k, JNull; split; [now left|exact N]].
        -- intros k0 j0 [E|I] N0; [injection E as <- <-; now left|eauto].
        -- apply last_cons. split; [exact L|reflexivity].
    + intros [k0 j0 [E|I] N0 B|O T L M].
      * injection E as <- <-. destruct B as (es & ? & ? & E & _). discriminate.
      * now apply (bad_node _ _ _ k0 j0).
      * apply last_cons in L. destruct L as [L _]. apply bad_missing; [exact O|intros; eapply T; [right|]; eauto|exact L|now right].
  - rewrite IH. fold (names_nodes k) in N. split.
    + intros [k0 j0 I N0 B|O T L M]; [|discriminate]. apply (bad_node _ _ _ k0 j0); [now right|exact N0|exact B].
    + intros [k0 j0 [E|I] N0 B|O T L M].
      * injection E as <- <-. destruct B as (es & ? & ? & E & _). congruence.
      * now apply (bad_node _ _ _ k0 j0).
      * exfalso. destruct (T k j (or_introl eq_refl) N); congruence.
  - fold (names_nodes k) in N. split; [|reflexivity]. intros _. apply (bad_node _ _ _ k j); [now left|exact N|].
    apply (not_fine j es LE). rewrite <- (fine_permutation _ _ P).
    destruct (forallb fine es') eqn:FE; [|reflexivity]. apply (proj2 (radd_all_some es' (match c with Some m => m | None => [] end))) in FE.
    destruct FE as (m' & E). congruence.
  - rewrite IH. fold (names_nodes k) in N.
    assert (FE : forallb fine es = true).
    { rewrite <- (fine_permutation _ _ P). apply (radd_all_some es' (match c with Some m => m | None => [] end)). eauto. }
    split.
    + intros [k0 j0 I N0 B|O T L M].
      * apply (bad_node _ _ _ k0 j0); [now right|exact N0|exact B].
      * apply bad_missing; [exact O| | |left; exists k, j; split; [now left|exact N]].
        -- intros k0 j0 [E|I] N0; [injection E as <- <-; right; congruence|eauto].
        -- apply last_cons. split; [exact L|]. intros _ NO. destruct M as [(k0 & j0 & I & N0)|M]; [|discriminate].
           rewrite (NO _ _ I) in N0. discriminate.
    + intros [k0 j0 [E|I] N0 B|O T L M].
      * injection E as <- <-. apply (not_fine j es LE) in B. congruence.
      * now apply (bad_node _ _ _ k0 j0).
      * apply last_cons in L. destruct L as [L L2]. apply bad_missing; [exact O|intros; eapply T; [right|]; eauto|exact L|].
        destruct (names_dec l) as [X|X]; [now left|]. exfalso. apply (entries_not_null j es LE). auto.
Qed.
Lemma bad_fatal l : bad None true l <-> fatal (JObj l).
Proof.
  split.
  - intros [k j I N B|O T L M]; [now apply (fatal_node l k j)|]. now apply fatal_missing.
  - intros F. inversion F; subst.
    + now apply (bad_node _ _ _ k j).
    + apply bad_missing; auto.
Qed.
Lemma crash_exactly s d : read_config s d ->
  (load_config d = None <-> exists j r, jread s = Some (j, r) /\ fatal j).
Proof.
  intros R. inversion R as [? N|? r N|? l r ? N F|? j r N NN NO]; subst.
  - split; [discriminate|]. intros (j & r & E & _). congruence.
  - split; [|reflexivity]. intros _. exists JNull, r. split; [exact N|constructor].
  - rewrite (fields_bad _ _ _ _ F), bad_fatal. split; [intros B; eauto|].
    intros (j & r0 & E & B). rewrite N in E. injection E as <- <-. exact B.
  - split; [discriminate|]. intros (j0 & r0 & E & B). rewrite N in E. injection E as <- <-.
    inversion B; subst; [congruence|exfalso; eapply NO; reflexivity..].
Qed.
(** Every text is read in some way. *)
Lemma fields_total l : forall c ok, exists x, fields_read c ok l x.
Proof.
  induction l as [|[k j] l IH]; intros c ok; [eexists; constructor|].
  destruct (is_field k "Nodes") eqn:N; [|destruct (IH c ok) as (x & X); exists x; now constructor].
  destruct (list_entries j) as [es|] eqn:LE.
  - destruct (radd_all (match c with Some m => m | None => [] end) es) as [m|] eqn:R.
    + destruct (IH (Some m) ok) as (x & X). exists x. eapply FR_nodes; eauto.
    + exists LCrash. eapply FR_crash; eauto.
  - destruct j; try (destruct (IH (Some (match c with Some m => m | None => [] end)) false) as (x & X); exists x;
      apply FR_error; [exact N|discriminate|exact LE|exact X]).
    destruct (IH None ok) as (x & X). exists x. now apply FR_null.
Qed.
Lemma read_total s : exists d, read_config s d.
Proof.
  destruct (jread s) as [[j r]|] eqn:J; [|exists LError; now constructor].
  destruct j; try (exists LError; eapply RC_type; [exact J|discriminate|discriminate]).
  - exists (LOk None). eapply RC_null. exact J.
  - destruct (fields_total l None true) as (x & X). exists x. eapply RC_object; eauto.
Qed.

(** ** Documents without null *)
Lemma nil_free_elements {A} (d : dec (option A)) l :
  (forall p j, In j l -> exists a ok, d p j = (Some a, ok)) -> forall p,
  exists r ok, dec_elements d p l = (map Some r, ok).
Proof.
  induction l as [|j l IH]; intros D p; [exists [], true; reflexivity|]. cbn [dec_elements].
  destruct (D (match p with a :: _ => a | [] => None end) j (or_introl eq_refl)) as (a & ok & ->).
  destruct (IH (fun p j I => D p j (or_intror I)) (match p with _ :: p => p | [] => [] end)) as (r & ok' & ->).
  exists (a :: r), (ok && ok'). reflexivity.
Qed.
Lemma ptr_not_nil {A} (zero : A) (d : dec A) p j : null_free j -> exists a ok, dec_ptr zero d p j = (Some a, ok).
Proof.
  intros N. destruct N; cbn [dec_ptr]; match goal with |- context [d ?a ?b] => destruct (d a b) as [x ok] end; eauto.
Qed.
Lemma slice_no_nil {A} (zero : A) (d : dec A) p j r ok : null_free j -> has_nil p = false ->
  dec_slice (dec_ptr zero d) p j = (r, ok) -> has_nil r = false.
Proof.
  intros N P E. destruct N; cbn [dec_slice] in E; try (injection E as <- <-; exact P).
  destruct (nil_free_elements (dec_ptr zero d) l (fun p j I => ptr_not_nil zero d p j (H j I)) (match p with Some l => l | None => [] end)) as (r' & ok' & E').
  rewrite E' in E. injection E as <- <-. cbn. clear. induction r'; cbn; auto.
Qed.
Lemma field_no_nil k n j n' ok : null_free j -> has_nil (rn_endpoints n) = false ->
  node_field k n j = (n', ok) -> has_nil (rn_endpoints n') = false.
Proof.
  intros N P E. destruct n as [id aw ms br pr de cl ep bo fl]. cbn [rn_endpoints] in P. unfold node_field in E.
  destruct (is_field k "id"); [destruct (dec_int id j); injection E as <- <-; exact P|].
  destruct (is_field k "is_awake"); [destruct (dec_bool aw j); injection E as <- <-; exact P|].
  destruct (is_field k "ManufacurerSpecific"); [destruct (dec_ptr _ _ ms j); injection E as <- <-; exact P|].
  destruct (is_field k "Brand"); [destruct (dec_string br j); injection E as <- <-; exact P|].
  destruct (is_field k "Product"); [destruct (dec_string pr j); injection E as <- <-; exact P|].
  destruct (is_field k "Description"); [destruct (dec_string de j); injection E as <- <-; exact P|].
  destruct (is_field k "CommandClasses"); [destruct (dec_classes cl j); injection E as <- <-; exact P|].
  destruct (is_field k "Endpoints").
  { destruct (dec_slice _ ep j) as [x okx] eqn:D. injection E as <- <-. cbn [rn_endpoints].
    eapply slice_no_nil; [exact N|exact P|exact D]. }
  destruct (is_field k "StateBool"); [destruct (dec_map _ _ bo j); injection E as <- <-; exact P|].
  destruct (is_field k "StateFloat"); [destruct (dec_map _ _ fl j); injection E as <- <-; exact P|].
  injection E as <- <-. exact P.
Qed.
Lemma fields_no_nil l : (forall k j, In (k, j) l -> null_free j) -> forall n n' ok,
  has_nil (rn_endpoints n) = false -> dec_fields node_field n l = (n', ok) -> has_nil (rn_endpoints n') = false.
Proof.
  induction l as [|[k j] l IH]; intros H n n' ok P E; cbn [dec_fields] in E; [congruence|].
  destruct (node_field k n j) as [n1 ok1] eqn:F. destruct (dec_fields node_field n1 l) as [n2 ok2] eqn:G. injection E as <- <-.
  eapply IH; [intros; eapply H; right; eauto| |exact G]. eapply field_no_nil; [eapply H; now left|exact P|exact F].
Qed.
Lemma node_no_nil j r ok : null_free j -> dec_ptr zero_rnode (dec_struct node_field) None j = (r, ok) ->
  exists n, r = Some n /\ has_nil (rn_endpoints n) = false.
Proof.
  intros N E. destruct N; cbn [dec_ptr dec_struct] in E; try (injection E as <- <-; eexists; split; reflexivity).
  destruct (dec_fields node_field zero_rnode l) as [n ok'] eqn:D. injection E as <- <-. exists n. split; [reflexivity|].
  eapply fields_no_nil; [exact H| |exact D]. reflexivity.
Qed.
Lemma entries_fine l : (forall k j, In (k, j) l -> null_free j) -> forall m m' ok,
  forallb fine m = true -> dec_entries None (dec_ptr zero_rnode (dec_struct node_field)) m l = (m', ok) ->
  forallb fine m' = true.
Proof.
  induction l as [|[k j] l IH]; intros H m m' ok F E; cbn [dec_entries] in E; [congruence|].
  destruct (dec_ptr zero_rnode _ None j) as [a ok1] eqn:D. destruct (dec_entries _ _ _ l) as [m2 ok2] eqn:G. injection E as <- <-.
  eapply IH; [intros; eapply H; right; eauto| |exact G].
  destruct (node_no_nil j a ok1 (H k j (or_introl eq_refl)) D) as (n & -> & P).
  clear - F P. induction m as [|[i w] m IH]; cbn in *; [rewrite P; reflexivity|].
  apply andb_prop in F. destruct F as [F1 F2]. destruct (String.eqb _ i); cbn; [rewrite P; cbn; exact F2|].
  rewrite F1. cbn. auto.
Qed.
Lemma null_free_not_fatal l k j : null_free (JObj l) -> In (k, j) l -> names_nodes k = true -> ~ fatal (JObj l).
Proof.
  intros N I K F. inversion N as [| | | |? H]; subst. inversion F as [|? k0 j0 I0 K0 B|? T L]; subst.
  - destruct B as (es & k1 & n & E & I1 & B). specialize (H _ _ I0). destruct H as [| | | |l0 H]; try discriminate E.
    cbn [list_entries] in E. destruct (dec_entries _ _ [] l0) as [m ok] eqn:D. destruct ok; [|discriminate]. injection E as ->.
    pose proof (entries_fine l0 H [] es true eq_refl D) as FI. rewrite forallb_forall in FI. apply FI in I1.
    unfold fine in I1. cbn in I1. destruct n; [rewrite B in I1|]; discriminate.
  - assert (X : exists l1 k j l2, l = l1 ++ (k, j) :: l2 /\ names_nodes k = true /\ forall k' j', In (k', j') l2 -> names_nodes k' = false).
    { clear - I K. induction l as [|[k0 j0] l IH]; [destruct I|].
      destruct (names_dec l) as [(k1 & j1 & I1 & K1)|NO].
      - assert (IH' : exists l1 k j l2, l = l1 ++ (k, j) :: l2 /\ names_nodes k = true /\ forall k' j', In (k', j') l2 -> names_nodes k' = false).
        { clear IH I K. revert k1 j1 I1 K1. induction l as [|[k2 j2] l IH]; intros; [destruct I1|].
          destruct (names_dec l) as [(k3 & j3 & I3 & K3)|NO].
          - destruct (IH _ _ I3 K3) as (l1 & k4 & j4 & l2 & -> & A & B). exists ((k2, j2) :: l1), k4, j4, l2. auto.
          - destruct I1 as [E|I1]; [injection E as -> ->; exists [], k1, j1, l; auto|]. rewrite (NO _ _ I1) in K1. discriminate. }
        destruct IH' as (l1 & k4 & j4 & l2 & -> & A & B). exists ((k0, j0) :: l1), k4, j4, l2. auto.
      - destruct I as [E|I]; [injection E as -> ->; exists [], k, j, l; auto|]. rewrite (NO _ _ I) in K. discriminate. }
    destruct X as (l1 & k1 & j1 & l2 & E & K1 & NO). assert (j1 = JNull) by (apply (L l1 k1 j1 l2); auto). subst j1.
    assert (NF : null_free JNull) by (apply (H k1); rewrite E; apply in_or_app; right; now left). inversion NF.
Qed.

(** *** Nodes loaded from such documents have no nil pointers at all *)
Definition clean_ep (e : rendpoint) : Prop := has_nil (re_classes e) = false.
Definition clean (n : rnode) : Prop :=
  has_nil (rn_classes n) = false /\ has_nil (rn_endpoints n) = false /\
  forall l e, rn_endpoints n = Some l -> In (Some e) l -> clean_ep e.
Lemma elements_inv {A} (P : A -> Prop) (zero : A) (d : dec A) l :
  P zero -> (forall j, In j l -> null_free j) ->
  (forall a j b ok, P a -> null_free j -> d a j = (b, ok) -> P b) ->
  forall p r ok, (forall x, In (Some x) p -> P x) -> dec_elements (dec_ptr zero d) p l = (r, ok) ->
  forall x, In (Some x) r -> P x.
Proof.
  intros PZ N D. induction l as [|j l IH]; intros p r ok PP E x I; cbn [dec_elements] in E.
  - injection E as <- _. destruct I.
  - destruct (dec_ptr zero d (match p with a :: _ => a | [] => None end) j) as [a ok1] eqn:E1.
    destruct (dec_elements (dec_ptr zero d) (match p with _ :: p => p | [] => [] end) l) as [r2 ok2] eqn:E2.
    injection E as <- _. destruct I as [->|I].
    + set (prev := match p with a :: _ => a | [] => None end) in E1.
      assert (PR : P (match prev with Some a => a | None => zero end)).
      { unfold prev. destruct p as [|[y|] p]; try exact PZ. apply PP. now left. }
      assert (NJ : null_free j) by (apply N; now left).
      unfold dec_ptr in E1. destruct (d (match prev with Some a => a | None => zero end) j) as [b okb] eqn:DE.
      apply (D _ _ _ _ PR NJ) in DE. destruct NJ; injection E1 as <- _; exact DE.
    + eapply (IH (fun j I => N j (or_intror I))); [|exact E2|exact I]. intros y Y. apply PP. destruct p; [destruct Y|now right].
Qed.
Lemma ep_field_clean k e j e' ok : null_free j -> clean_ep e -> endpoint_field k e j = (e', ok) -> clean_ep e'.
Proof.
  intros N P E. unfold endpoint_field in E.
  destruct (is_field k "Id"); [destruct (dec_int _ j); injection E as <- <-; exact P|].
  destruct (is_field k "CommandClasses").
  { destruct (dec_classes _ j) as [x okx] eqn:D. injection E as <- <-. unfold clean_ep. cbn [re_classes].
    eapply slice_no_nil; [exact N|exact P|exact D]. }
  destruct (is_field k "StateBool"); [destruct (dec_map _ _ _ j); injection E as <- <-; exact P|].
  destruct (is_field k "StateFloat"); [destruct (dec_map _ _ _ j); injection E as <- <-; exact P|].
  injection E as <- <-. exact P.
Qed.
Lemma struct_inv {A} (P : A -> Prop) (field : text -> dec A) a j b ok :
  (forall k a j b ok, null_free j -> P a -> field k a j = (b, ok) -> P b) ->
  P a -> null_free j -> dec_struct field a j = (b, ok) -> P b.
Proof.
  intros F PA N E. destruct N as [| | | |l N]; cbn [dec_struct] in E; try (injection E as <- _; exact PA).
  revert a b ok PA E. induction l as [|[k j] l IH]; intros a b ok PA E; cbn [dec_fields] in E; [injection E as <- _; exact PA|].
  destruct (field k a j) as [a1 ok1] eqn:E1. destruct (dec_fields field a1 l) as [a2 ok2] eqn:E2. injection E as <- _.
  eapply (IH (fun k v I => N k v (or_intror I))); [|exact E2]. eapply F; [|exact PA|exact E1]. eapply N. now left.
Qed.
Lemma field_clean k n j n' ok : null_free j -> clean n -> node_field k n j = (n', ok) -> clean n'.
Proof.
  intros N P E. pose proof P as (P1 & P2 & P3). destruct n as [id aw ms br pr de cl ep bo fl]. cbn [rn_endpoints rn_classes] in *. unfold node_field in E.
  destruct (is_field k "id"); [destruct (dec_int id j); injection E as <- <-; exact P|].
  destruct (is_field k "is_awake"); [destruct (dec_bool aw j); injection E as <- <-; exact P|].
  destruct (is_field k "ManufacurerSpecific"); [destruct (dec_ptr _ _ ms j); injection E as <- <-; exact P|].
  destruct (is_field k "Brand"); [destruct (dec_string br j); injection E as <- <-; exact P|].
  destruct (is_field k "Product"); [destruct (dec_string pr j); injection E as <- <-; exact P|].
  destruct (is_field k "Description"); [destruct (dec_string de j); injection E as <- <-; exact P|].
  destruct (is_field k "CommandClasses").
  { destruct (dec_classes cl j) as [x okx] eqn:D. injection E as <- <-. split; [|split; [exact P2|exact P3]].
    cbn [rn_classes]. eapply slice_no_nil; [exact N|exact P1|exact D]. }
  destruct (is_field k "Endpoints").
  { destruct (dec_slice _ ep j) as [x okx] eqn:D. injection E as <- <-. split; [exact P1|]. split.
    - cbn [rn_endpoints]. eapply slice_no_nil; [exact N|exact P2|exact D].
    - cbn [rn_endpoints]. intros l e -> I. destruct N as [| | |l0 N|]; cbn [dec_slice] in D; try (injection D as -> _; eapply P3; eauto).
      destruct (dec_elements _ (match ep with Some l => l | None => [] end) l0) as [r okr] eqn:DE. injection D as -> _.
      refine (elements_inv clean_ep zero_rendpoint (dec_struct endpoint_field) l0 _ N _ _ l okr _ DE e I).
      + reflexivity.
      + intros a j b okb PA NJ S. eapply struct_inv; [|exact PA|exact NJ|exact S]. intros; eapply ep_field_clean; eauto.
      + intros x0 X. destruct ep as [ep|]; [|destruct X]. eapply P3; eauto. }
  destruct (is_field k "StateBool"); [destruct (dec_map _ _ bo j); injection E as <- <-; exact P|].
  destruct (is_field k "StateFloat"); [destruct (dec_map _ _ fl j); injection E as <- <-; exact P|].
  injection E as <- <-. exact P.
Qed.
Lemma zero_clean : clean zero_rnode.
Proof. split; [reflexivity|]. split; [reflexivity|]. intros l e E. discriminate. Qed.
Definition entry_clean (p : string * option rnode) : Prop := forall n, snd p = Some n -> clean n.
Lemma entries_clean l : (forall k j, In (k, j) l -> null_free j) -> forall m m' ok,
  (forall p, In p m -> entry_clean p) -> dec_entries None (dec_ptr zero_rnode (dec_struct node_field)) m l = (m', ok) ->
  forall p, In p m' -> entry_clean p.
Proof.
  induction l as [|[k j] l IH]; intros H m m' ok F E p I; cbn [dec_entries] in E; [injection E as <- _; auto|].
  destruct (dec_ptr zero_rnode _ None j) as [a ok1] eqn:D. destruct (dec_entries _ _ _ l) as [m2 ok2] eqn:G. injection E as <- <-.
  revert p I. eapply IH; [intros; eapply H; right; eauto| |exact G].
  assert (NJ : null_free j) by (apply (H k); now left).
  assert (CA : forall n, a = Some n -> clean n).
  { intros n ->. unfold dec_ptr in D. destruct (dec_struct node_field zero_rnode j) as [b okb] eqn:S.
    apply (struct_inv clean node_field) in S; [|intros; eapply field_clean; eauto|exact zero_clean|exact NJ].
    destruct NJ; injection D as <- _; exact S. }
  intros p I. assert (X : p = (string_of_list_byte k, a) \/ In p m).
  { clear - I. induction m as [|[i w] m IH]; cbn in I; [destruct I as [<-|[]]; auto|].
    destruct (String.eqb_spec (string_of_list_byte k) i) as [<-|]; destruct I as [<-|I]; auto; try (right; now left); try (right; now right).
    destruct (IH I); [auto|right; now right]. }
  destruct X as [->|X]; [exact CA|auto].
Qed.
Lemma radd_all_clean es : forall m m', (forall k n, In (k, n) m -> clean n) -> (forall p, In p es -> entry_clean p) ->
  radd_all m es = Some m' -> forall k n, In (k, n) m' -> clean n.
Proof.
  induction es as [|[k0 x] es IH]; intros m m' M E R; cbn [radd_all] in R; [injection R as <-; exact M|].
  destruct x as [n0|]; cbn [radd] in R; [|discriminate]. destruct (has_nil _); [discriminate|].
  eapply IH; [|intros p I; apply E; now right|exact R].
  assert (C0 : clean n0) by (apply (E (k0, Some n0)); [now left|reflexivity]).
  intros k n I. assert (X : n = n0 \/ In (k, n) m).
  { clear - I. induction m as [|[i w] m IH]; cbn in I; [destruct I as [I|[]]; injection I as <- <-; auto|].
    destruct (Z.eqb_spec (rn_id n0) i) as [<-|]; destruct I as [I|I]; try (injection I as <- <-); auto; try (right; now left); try (right; now right).
    destruct (IH I); [auto|right; now right]. }
  destruct X as [->|X]; eauto.
Qed.
Lemma fields_clean c ok l x : fields_read c ok l x -> (forall k j, In (k, j) l -> null_free j) ->
  (forall m k n, c = Some m -> In (k, n) m -> clean n) ->
  forall m k n, x = LOk (Some (Some m)) -> In (k, n) m -> clean n.
Proof.
  assert (CE : forall j es, null_free j -> list_entries j = Some es -> forall p, In p es -> entry_clean p).
  { intros j es NJ LE. destruct NJ as [| | | |l0 NJ]; try discriminate LE. cbn [list_entries] in LE.
    destruct (dec_entries _ _ [] l0) as [m0 ok0] eqn:D. destruct ok0; [|discriminate]. injection LE as ->.
    eapply entries_clean; [exact NJ| |exact D]. intros p []. }
  induction 1 as [c ok|c ok k j l r N F IH|c ok k l r N F IH|c ok k j l r N JN LE F IH|c ok k j l es es' N LE P R|c ok k j l r es es' m N LE P R F IH];
    intros NF C m0 k0 n0 X I.
  - destruct ok; [|discriminate]. injection X as ->. eauto.
  - eapply IH; eauto. intros; eapply NF; right; eauto.
  - assert (B : null_free JNull) by (apply (NF k); now left). inversion B.
  - eapply IH; eauto; [intros; eapply NF; right; eauto|]. intros m1 k1 n1 E1 I1. injection E1 as <-. destruct c; [eauto|destruct I1].
  - discriminate.
  - eapply IH; eauto; [intros; eapply NF; right; eauto|]. intros m1 k1 n1 E1 I1. injection E1 as <-.
    refine (radd_all_clean es' _ m _ _ R k1 n1 I1).
    + intros k2 n2 I2. destruct c; [eauto|destruct I2].
    + intros p Ip. eapply (CE j es); [apply (NF k); now left|exact LE|]. eapply Permutation_in; [apply Permutation_sym, P|exact Ip].
Qed.
Lemma all_some_total {A} (l : list (option A)) : existsb (fun x => match x with None => true | Some _ => false end) l = false ->
  exists r, all_some l = Some r /\ l = map Some r.
Proof.
  induction l as [|[a|] l IH]; cbn; [exists []; auto| |discriminate]. intros H. destruct (IH H) as (r & -> & ->).
  exists (a :: r). auto.
Qed.
Lemma opt_slice_total {A} (l : option (list (option A))) : has_nil l = false -> exists r, opt_slice l = Some r.
Proof. destruct l as [l|]; cbn; [|eauto]. intros H. destruct (all_some_total l H) as (r & -> & _). eauto. Qed.
Lemma clean_real n : clean n -> exists n', real_node n = Some n'.
Proof.
  intros (C & E & EC). unfold real_node. destruct (opt_slice_total _ C) as (cl & ->).
  destruct (rn_endpoints n) as [l|]; cbn [opt_slice]; [|eauto]. destruct (all_some_total l E) as (r & ER & EL). rewrite ER.
  assert (K : exists r', all_some (map real_endpoint r) = Some r').
  { assert (EC' : forall e, In e r -> clean_ep e) by (intros e I; eapply EC; [reflexivity|]; rewrite EL; now apply in_map).
    clear - EC'. induction r as [|e r IH]; [exists []; reflexivity|]. cbn [map all_some]. unfold real_endpoint at 1.
    destruct (opt_slice_total (re_classes e) (EC' e (or_introl eq_refl))) as (cl & ->).
    destruct IH as (r' & ->); [intros x I; apply EC'; now right|]. eauto. }
  destruct K as (r' & ->). eauto.
Qed.
Lemma real_has n n' c : real_node n = Some n' -> raw_has_command n c = Ok (has_command n' c).
Proof.
  unfold real_node, raw_has_command, has_command. destruct (opt_slice (rn_classes n)) as [cl|] eqn:E; [|discriminate].
  destruct (opt_slice (rn_endpoints n)) as [ep|]; [|discriminate].
  destruct (match ep with None => _ | Some l => _ end); [|discriminate]. intros H. injection H as <-. cbn [n_classes].
  destruct (rn_classes n) as [l|]; cbn [opt_slice] in E; [|injection E as <-; reflexivity].
  destruct (all_some l) as [r|] eqn:A; [|discriminate]. injection E as <-. revert r A.
  induction l as [|[x|] l IH]; intros r A; cbn [all_some] in A; [injection A as <-; reflexivity| |discriminate].
  destruct (all_some l) as [r2|] eqn:A2; [|discriminate]. injection A as <-. cbn [raw_has existsb].
  destruct (beq (cc_id x) c); [reflexivity|]. exact (IH _ eq_refl).
Qed.
Lemma loaded_usable s j r d m k n : jread s = Some (j, r) -> null_free j -> read_config s d ->
  load_config d = Some (Some m) -> In (k, n) m ->
  exists n', real_node n = Some n' /\ forall c, raw_has_command n c = Ok (has_command n' c).
Proof.
  intros J N R L I. inversion R as [? J'|? r0 J'|? l r0 x J' F|? j0 r0 J' NN NO]; subst; try (rewrite J in J'); try discriminate.
  injection J' as -> ->. destruct d as [| |[[m0|]|]]; try discriminate. injection L as ->.
  assert (C : clean n).
  { inversion N as [| | | |? NL]; subst. exact (fields_clean None true l _ F NL (fun m0 k0 n0 E _ => ltac:(discriminate E)) m k n eq_refl I). }
  destruct (clean_real n C) as (n' & E). exists n'. split; [exact E|]. intros c. now apply real_has.
Qed.

(** ** Saving *)
Definition full (new : option text) : text := match new with Some t => t | None => [] end.
Inductive fstate (old : option text) (new : option text) : fst_ -> bool -> Prop :=
| fs_start : fstate old new (mkF SvStart old) true
| fs_failed : fstate old new (mkF (SvCreated false) old) false
| fs_created : fstate old new (mkF (SvCreated true) (Some [])) true
| fs_failing : fstate old new (mkF (SvWriting []) old) false
| fs_writing : forall a b, full new = a ++ b -> fstate old new (mkF (SvWriting b) (Some a)) true
| fs_done : forall a b ok, full new = a ++ b -> (ok = true -> b = []) -> fstate old new (mkF SvDone (Some a)) ok
| fs_undone : fstate old new (mkF SvDone old) false.
Lemma fstep_state old new st ok l st' : fstate old new st ok -> fstep new st l = Some st' ->
  fstate old new st' (ok && file_op l).
Proof.
  intros F S. destruct F as [| | | |a b E|a b ok E O|]; destruct l; cbn [fstep f_phase f_file] in S; try discriminate S;
    try (injection S as <-; cbn [andb file_op]; try constructor).
  - destruct new as [t|]; apply fs_writing; reflexivity.
  - destruct k as [|k]; cbn in S; [injection S as <-|discriminate]. cbn. destruct old as [o|]; [rewrite app_nil_r|]; constructor.
  - destruct (Nat.leb_spec k (List.length b)) as [L|L]; [|discriminate]. injection S as <-. cbn [andb file_op].
    apply fs_writing. rewrite E, <- app_assoc, firstn_skipn. reflexivity.
  - apply (fs_done _ _ a b); [exact E|discriminate].
  - destruct b as [|x b]; [|discriminate]. injection S as <-. cbn [andb file_op]. apply (fs_done _ _ a []); auto.
Qed.
Lemma frun_state old new ls : forall st ok st', fstate old new st ok -> frun new st ls = Some st' ->
  fstate old new st' (ok && forallb file_op ls).
Proof.
  induction ls as [|l ls IH]; intros st ok st' F R; cbn [frun] in R.
  - injection R as <-. cbn. rewrite andb_true_r. exact F.
  - destruct (fstep new st l) as [st1|] eqn:S; [|discriminate]. cbn [forallb]. rewrite andb_assoc.
    eapply IH; [|exact R]. eapply fstep_state; eauto.
Qed.
Lemma save_states old new ls st : frun new (mkF SvStart old) ls = Some st ->
  (f_file st = old \/ exists a, f_file st = Some a /\ (a = full new \/ strict_prefix a (full new))) /\
  (f_phase st = SvDone -> forallb file_op ls = true -> f_file st = Some (full new)).
Proof.
  intros R. pose proof (frun_state old new ls _ true _ (fs_start old new) R) as F. cbn [andb] in F.
  assert (P : forall a b : text, full new = a ++ b -> a = full new \/ strict_prefix a (full new)).
  { intros a b E. destruct b as [|x b]; [left; now rewrite app_nil_r in E|]. right. exists (x :: b). split; [discriminate|exact E]. }
  inversion F as [| | | |a b E|a b ok E O|]; subst; cbn [f_file f_phase].
  - split; [now left|discriminate].
  - split; [now left|discriminate].
  - split; [|discriminate]. right. exists []. split; [reflexivity|]. apply (P [] (full new)). reflexivity.
  - split; [now left|discriminate].
  - split; [|discriminate]. right. eauto.
  - split; [right; eauto|]. intros _ OK. rewrite OK in O. rewrite (O eq_refl), app_nil_r in E. now rewrite E.
  - split; [now left|]. intros _ OK. congruence.
Qed.
Lemma unreadable_rejected s : jread s = None -> rejected s.
Proof. intros N d R. inversion R; subst; [reflexivity|congruence..]. Qed.
Lemma cut_rejected fmt ns s a : (forall k n, In (k, n) ns -> storable fmt n) -> marshal fmt ns = Some s ->
  strict_prefix a s -> rejected a.
Proof.
  intros G M (c & C & E). rewrite (storable_written fmt ns G) in M.
  assert (E' : jprint 0 (jcontroller fmt ns) = a ++ c) by congruence. clear M E.
  apply unreadable_rejected. unfold jcontroller in E'. eapply prefix_unreadable; [|exact E'|exact C].
  exact (sound_controller fmt ns G).
Qed.
Lemma save_crash fmt ns s old ls st : (forall k n, In (k, n) ns -> storable fmt n) -> marshal fmt ns = Some s ->
  frun (Some s) (mkF SvStart old) ls = Some st ->
  f_file st = old \/ f_file st = Some s \/ exists a, f_file st = Some a /\ strict_prefix a s /\ rejected a.
Proof.
  intros G M R. destruct (save_states _ _ _ _ R) as [[H|(a & E & [->|P])] _]; [now left|right; left; exact E|].
  right. right. exists a. split; [exact E|]. split; [exact P|]. eapply cut_rejected; eauto.
Qed.

(** ** The spellings of "Nodes" *)
Lemma text_eqb_eq a : forall b, text_eqb a b = true -> a = b.
Proof.
  induction a as [|x a IH]; intros [|y b] H; try discriminate; [reflexivity|]. cbn [text_eqb] in H.
  apply andb_true_iff in H. destruct H as [H1 H2]. unfold beq in H1. apply Byte.byte_dec_bl in H1. subst y. f_equal. exact (IH _ H2).
Qed.
Definition lower (b : byte) : byte := if between x41 x5a b then N2b (b2N b + 32) else b.
Lemma fold_step n k c rest : fold_key n k = c :: rest -> (List.length k <= n)%nat ->
  exists n' r, (List.length r <= n')%nat /\ fold_key n' r = rest /\
    ((exists b, k = b :: r /\ lower b = c) \/ c = x6b \/ (c = x73 /\ k = xc5 :: xbf :: r)).
Proof.
  intros H L. destruct n as [|n]; [discriminate|]. destruct k as [|b k]; [discriminate|]. cbn [fold_key] in H.
  destruct (strip [xe2; x84; xaa] (b :: k)) as [r|] eqn:E1.
  { apply strip_split in E1. injection H as <- <-. exists n, r. split; [|split; [reflexivity|right; left; reflexivity]].
    apply (f_equal (@List.length byte)) in E1. cbn [List.length app] in *. lia. }
  destruct (strip [xc5; xbf] (b :: k)) as [r|] eqn:E2.
  { apply strip_split in E2. injection H as <- <-. exists n, r. split; [|split; [reflexivity|right; right; split; [reflexivity|exact E2]]].
    apply (f_equal (@List.length byte)) in E2. cbn [List.length app] in *. lia. }
  injection H as <- <-. exists n, k. cbn [List.length] in L. split; [lia|]. split; [reflexivity|]. left. exists b. split; reflexivity.
Qed.
Lemma lower_letter c b : In c (txt "nodes") -> lower b = c -> b = c \/ b = N2b (b2N c - 32).
Proof.
  intros I E. cbn in I. destruct I as [<-|[<-|[<-|[<-|[<-|[]]]]]]; revert E;
    destruct b; vm_compute; intros E; try discriminate E; auto.
Qed.
Lemma nodes_spelled k : names_nodes k = true <-> spelled_nodes k.
Proof.
  unfold names_nodes, is_field, same_key, spelled_nodes. split.
  - intros H. change (fold_key (List.length (txt "Nodes")) (txt "Nodes")) with (txt "nodes") in H.
    apply text_eqb_eq in H. change (txt "nodes") with [x6e; x6f; x64; x65; x73] in H.
    assert (St : forall n k c rest, fold_key n k = c :: rest -> (List.length k <= n)%nat -> In c (txt "node") ->
      exists n' b r, k = b :: r /\ (b = c \/ b = N2b (b2N c - 32)) /\ (List.length r <= n')%nat /\ fold_key n' r = rest).
    { clear. intros n k c rest H L I. destruct (fold_step _ _ _ _ H L) as (n' & r & L' & F & D).
      assert (I' : In c (txt "nodes")) by (cbn in I |- *; tauto).
      destruct D as [(b & -> & E)|[->|[-> _]]].
      - exists n', b, r. split; [reflexivity|]. split; [exact (lower_letter _ _ I' E)|]. auto.
      - cbn in I. destruct I as [I|[I|[I|[I|[]]]]]; discriminate I.
      - cbn in I. destruct I as [I|[I|[I|[I|[]]]]]; discriminate I. }
    destruct (St _ _ _ _ H (le_n _) ltac:(cbn; auto)) as (n1 & b1 & r1 & -> & B1 & L1 & F1).
    destruct (St _ _ _ _ F1 L1 ltac:(cbn; auto)) as (n2 & b2 & r2 & -> & B2 & L2 & F2).
    destruct (St _ _ _ _ F2 L2 ltac:(cbn; auto)) as (n3 & b3 & r3 & -> & B3 & L3 & F3).
    destruct (St _ _ _ _ F3 L3 ltac:(cbn; auto)) as (n4 & b4 & r4 & -> & B4 & L4 & F4). clear St.
    exists b1, b2, b3, b4, r4. split; [reflexivity|].
    split; [destruct B1 as [->| ->]; vm_compute; auto|]. split; [destruct B2 as [->| ->]; vm_compute; auto|].
    split; [destruct B3 as [->| ->]; vm_compute; auto|]. split; [destruct B4 as [->| ->]; vm_compute; auto|].
    destruct (fold_step _ _ _ _ F4 L4) as (n5 & r5 & L5 & F5 & D).
    assert (r5 = []) as ->.
    { destruct r5 as [|x r5]; [reflexivity|]. destruct n5 as [|n5]; [cbn in L5; lia|]. cbn [fold_key] in F5.
      destruct (strip [xe2; x84; xaa] (x :: r5)); [discriminate|]. destruct (strip [xc5; xbf] (x :: r5)); discriminate. }
    destruct D as [(b & -> & E)|[D|[_ ->]]]; [|discriminate|auto].
    assert (I' : In x73 (txt "nodes")) by (cbn; tauto).
    destruct (lower_letter _ _ I' E) as [->| ->]; vm_compute; auto.
  - intros (n & o & d & e & s & -> & N & O & D & E & S). cbn in N, O, D, E.
    destruct N as [<-|[<-|[]]], O as [<-|[<-|[]]], D as [<-|[<-|[]]], E as [<-|[<-|[]]], S as [->|[->| ->]]; vm_compute; reflexivity.
Qed.
