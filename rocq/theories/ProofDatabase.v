(** Proofs about the device database, the mandatory table, the generator and
    the printed names. *)
From Verif Require Import ModelBase ModelReports ModelNodes DataDevices DataMandatory DataNames.
From Verif Require Import ModelDatabase SpecReports SpecDatabase ProofBase ProofReports.
From Coq Require Import Permutation.
Local Open Scope string_scope.

(** ** Strings *)
Lemma app_nil_r s : s ++ "" = s.
Proof. induction s as [|c s IH]; cbn; [reflexivity|now rewrite IH]. Qed.
Lemma app_assoc_s a b c : (a ++ b) ++ c = a ++ (b ++ c).
Proof. induction a as [|x a IH]; cbn; [reflexivity|now rewrite IH]. Qed.

Fixpoint count (sep : ascii) (s : string) : nat :=
  match s with
  | EmptyString => 0
  | String c r => (if Ascii.eqb c sep then 1 else 0) + count sep r
  end.
Lemma count_app sep a b : count sep (a ++ b) = (count sep a + count sep b)%nat.
Proof. induction a as [|c a IH]; cbn; [reflexivity|rewrite IH; lia]. Qed.

Lemma split_unique sep a b x y :
  count sep a = 0%nat -> count sep b = 0%nat ->
  a ++ String sep x = b ++ String sep y -> a = b /\ x = y.
Proof.
  revert b; induction a as [|c a IH]; intros [|d b]; cbn; intros A B H.
  - injection H; auto.
  - injection H as E _. subst d. rewrite Ascii.eqb_refl in B. discriminate.
  - injection H as E _. subst c. rewrite Ascii.eqb_refl in A. discriminate.
  - injection H as E H. subst d.
    destruct (Ascii.eqb c sep); [discriminate|].
    destruct (IH b A B H) as [-> ->]. auto.
Qed.

Lemma has_prefix_ok s p : has_prefix s p = true <-> exists b, s = p ++ b.
Proof.
  revert s; induction p as [|c p IH]; intros [|d s].
  - split; [intros _; exists ""; reflexivity|reflexivity].
  - split; [intros _; exists (String d s); reflexivity|reflexivity].
  - split; [discriminate|intros [b H]; discriminate].
  - cbn [has_prefix]. rewrite andb_true_iff, Ascii.eqb_eq, IH. split.
    + intros [-> [b ->]]. exists b. reflexivity.
    + intros [b H]. cbn in H. injection H as -> ->. eauto.
Qed.
Lemma contains_ok s sub : contains s sub = true <-> occurs sub s.
Proof.
  unfold occurs. induction s as [|c s IH].
  - cbn [contains]. rewrite orb_false_r, has_prefix_ok. split.
    + intros [b H]. exists "", b. exact H.
    + intros (a & b & H). destruct a; [eauto|discriminate].
  - cbn [contains]. rewrite orb_true_iff, has_prefix_ok, IH. split.
    + intros [[b H]|(a & b & ->)]; [exists "", b; exact H|exists (String c a), b; reflexivity].
    + intros (a & b & H). destruct a as [|d a]; [left; eauto|].
      injection H as -> ->. right. eauto.
Qed.
Lemma occurs_trans a b c : occurs a b -> occurs b c -> occurs a c.
Proof.
  intros (x & y & ->) (u & v & ->). exists (u ++ x), (y ++ v).
  rewrite !app_assoc_s. reflexivity.
Qed.

(** ** Device lookup *)
Definition key_ok (e : string * device) : bool :=
  let d := snd e in
  let ok s := (String.eqb (hex4 (match hex_value s with Some n => n | None => 0%N end)) s) in
  let m := lower_text (d_manufacturer d) in
  let t := lower_text (d_type d) in
  let i := lower_text (d_id d) in
  String.eqb (fst e) (m ++ "_" ++ t ++ "_" ++ i) && ok m && ok t && ok i.
Lemma devices_ok : forallb key_ok devices = true.
Proof. vm_compute. reflexivity. Qed.
Fixpoint distinct (l : list string) : bool :=
  match l with [] => true | x :: r => negb (existsb (String.eqb x) r) && distinct r end.
Lemma distinct_ok l : distinct l = true -> NoDup l.
Proof.
  induction l as [|x r IH]; cbn; [constructor|].
  rewrite andb_true_iff, negb_true_iff. intros [A B]. constructor; auto.
  intros H. apply Bool.not_true_iff_false in A. apply A.
  apply existsb_exists. exists x. split; auto. apply String.eqb_refl.
Qed.
Lemma device_keys_distinct : NoDup (map fst devices).
Proof. apply distinct_ok. vm_compute. reflexivity. Qed.

Lemma alookup_in {V} k (m : list (string * V)) v : alookup k m = Some v -> In (k, v) m.
Proof.
  induction m as [|[k' w] r IH]; cbn; [discriminate|].
  destruct (String.eqb_spec k k') as [->|]; [intros H; injection H as ->; auto|auto].
Qed.
Lemma alookup_nodup {V} k (m : list (string * V)) v :
  NoDup (map fst m) -> In (k, v) m -> alookup k m = Some v.
Proof.
  induction m as [|[k' w] r IH]; cbn; [contradiction|].
  intros N [H|H]; inversion N as [|? ? A B]; subst.
  - injection H as -> ->. rewrite String.eqb_refl. reflexivity.
  - destruct (String.eqb_spec k k') as [->|]; [|auto].
    destruct A. apply (in_map fst) in H. exact H.
Qed.

Lemma hexdigit_not_sep n : Ascii.eqb (hexdigit n) "_" = false.
Proof.
  unfold hexdigit. destruct n as [|p]; [reflexivity|].
  do 4 (destruct p as [p|p|]; try reflexivity).
Qed.
Lemma hex4_no_sep n : count "_" (hex4 n) = 0%nat.
Proof. unfold hex4. cbn [count]. rewrite !hexdigit_not_sep. reflexivity. Qed.

Lemma device_key k d : In (k, d) devices ->
  exists m t i, (m < 65536)%N /\ (t < 65536)%N /\ (i < 65536)%N /\
    lower_text (d_manufacturer d) = hex4 m /\ lower_text (d_type d) = hex4 t /\
    lower_text (d_id d) = hex4 i /\ k = hex4 m ++ "_" ++ hex4 t ++ "_" ++ hex4 i.
Proof.
  intros H. pose proof devices_ok as F. rewrite forallb_forall in F. specialize (F _ H).
  assert (R : forall n, exists n', (n' < 65536)%N /\ hex4 n = hex4 n').
  { intros n. exists (n mod 65536)%N. split; [apply N.mod_lt; lia|].
    unfold hex4.
    assert (E : (n mod 65536 / 4096 mod 16 = n / 4096 mod 16 /\
                 n mod 65536 / 256 mod 16 = n / 256 mod 16 /\
                 n mod 65536 / 16 mod 16 = n / 16 mod 16 /\
                 n mod 65536 mod 16 = n mod 16)%N).
    { Ltac Zify.zify_post_hook ::= Z.div_mod_to_equations. repeat split; lia. }
    destruct E as (-> & -> & -> & ->). reflexivity. }
  unfold key_ok in F. cbn [fst snd] in F.
  rewrite !andb_true_iff, !String.eqb_eq in F. destruct F as [[[K M] T] I].
  revert M T I.
  destruct (R (match hex_value (lower_text (d_manufacturer d)) with Some n => n | None => 0%N end)) as (m & Lm & ->).
  destruct (R (match hex_value (lower_text (d_type d)) with Some n => n | None => 0%N end)) as (t & Lt & ->).
  destruct (R (match hex_value (lower_text (d_id d)) with Some n => n | None => 0%N end)) as (i & Li & ->).
  intros M T I. exists m, t, i. repeat split; auto. rewrite M, T, I. exact K.
Qed.

Lemma key_unique a b c m t i :
  count "_" m = 0%nat -> count "_" t = 0%nat -> count "_" i = 0%nat ->
  a ++ "_" ++ b ++ "_" ++ c = m ++ "_" ++ t ++ "_" ++ i -> a = m /\ b = t /\ c = i.
Proof.
  intros M T I H.
  assert (C := f_equal (count "_") H). rewrite !count_app in C.
  rewrite M, T, I in C. cbn in C.
  destruct (split_unique "_" a m (b ++ "_" ++ c) (t ++ "_" ++ i)) as [-> H']; auto; [lia|].
  destruct (split_unique "_" b t c i) as [-> ->]; auto. lia.
Qed.

Lemma device_found m t i d : device_new m t i = Some d ->
  lower_text (d_manufacturer d) = m /\ lower_text (d_type d) = t /\ lower_text (d_id d) = i.
Proof.
  unfold device_new. intros H. apply alookup_in in H.
  destruct (device_key _ _ H) as (m' & t' & i' & _ & _ & _ & -> & -> & -> & K).
  apply key_unique in K; try apply hex4_no_sep. destruct K as (-> & -> & ->). auto.
Qed.

Lemma hex4_inj a b : (a < 65536)%N -> (b < 65536)%N -> hex4 a = hex4 b -> a = b.
Proof.
  intros A B H. apply (f_equal hex_value) in H. rewrite !hex4_value in H by assumption.
  congruence.
Qed.

Lemma device_reachable d : In d (map snd devices) ->
  exists m t i, (m < 65536 /\ t < 65536 /\ i < 65536)%N /\
    device_new (hex4 m) (hex4 t) (hex4 i) = Some d /\
    forall m' t' i', device_new m' t' i' = Some d -> (m', t', i') = (hex4 m, hex4 t, hex4 i).
Proof.
  rewrite in_map_iff. intros ([k d'] & E & H). cbn in E. subst d'.
  destruct (device_key _ _ H) as (m & t & i & Lm & Lt & Li & M & T & I & ->).
  exists m, t, i. split; [auto|]. split.
  - apply alookup_nodup; [apply device_keys_distinct|exact H].
  - intros m' t' i' H'. apply device_found in H'. destruct H' as (<- & <- & <-).
    rewrite M, T, I. reflexivity.
Qed.

Lemma report_lookup a b c d e f m t i dev :
  reports_new x72 x05 [a; b; c; d; e; f] = Ok (RManufacturer m t i) ->
  device_new m t i = Some dev ->
  hex_value (lower_text (d_manufacturer dev)) = Some (256 * Byte.to_N a + Byte.to_N b)%N /\
  hex_value (lower_text (d_type dev)) = Some (256 * Byte.to_N c + Byte.to_N d)%N /\
  hex_value (lower_text (d_id dev)) = Some (256 * Byte.to_N e + Byte.to_N f)%N.
Proof.
  intros R D. destruct (manufacturer_spec a b c d e f) as (m' & t' & i' & R' & M).
  rewrite R in R'. injection R' as -> -> ->.
  destruct (device_found _ _ _ _ D) as (-> & -> & ->). intuition auto.
Qed.

(** ** Mandatory classes *)
Lemma definitions_all : List.length definitions = List.length mandatory_go.
Proof. vm_compute. reflexivity. Qed.

Lemma byte_eqb_eq a b : Byte.eqb a b = true <-> a = b.
Proof. split; [apply Byte.byte_dec_bl|apply Byte.byte_dec_lb]. Qed.

Lemma get_mandatory_in order g s v : get_mandatory order g s = Some v -> In (g, s, v) order.
Proof.
  induction order as [|[[g' s'] w] r IH]; cbn; [discriminate|].
  destruct (Byte.eqb g' g && Byte.eqb s' s) eqn:E; [|auto].
  rewrite andb_true_iff, !byte_eqb_eq in E. destruct E as [-> ->]. intros H. injection H as ->. auto.
Qed.
Lemma get_mandatory_none order g s v : get_mandatory order g s = None -> ~ In (g, s, v) order.
Proof.
  induction order as [|[[g' s'] w] r IH]; cbn; [auto|].
  destruct (Byte.eqb g' g && Byte.eqb s' s) eqn:E; [discriminate|].
  intros H [K|K]; [|now apply IH].
  injection K as -> -> ->.
  assert (Byte.eqb g g && Byte.eqb s s = true); [|congruence].
  rewrite andb_true_iff, !byte_eqb_eq. auto.
Qed.

Fixpoint pairs_distinct (l : list (byte * byte * list cclass)) : bool :=
  match l with
  | [] => true
  | (g, s, _) :: r =>
      negb (existsb (fun e => Byte.eqb (fst (fst e)) g && Byte.eqb (snd (fst e)) s) r) && pairs_distinct r
  end.
Lemma pairs_distinct_ok l g s v v' : pairs_distinct l = true ->
  In (g, s, v) l -> In (g, s, v') l -> v = v'.
Proof.
  induction l as [|[[g' s'] w] r IH]; cbn; [contradiction|].
  rewrite andb_true_iff, negb_true_iff. intros [A B] H K.
  assert (N : forall u, In (g', s', u) r -> False).
  { intros u U. apply Bool.not_true_iff_false in A. apply A. apply existsb_exists.
    exists (g', s', u). split; auto. cbn. rewrite andb_true_iff, !byte_eqb_eq. auto. }
  destruct H as [H|H], K as [K|K].
  - congruence.
  - injection H as -> -> ->. destruct (N _ K).
  - injection K as -> -> ->. destruct (N _ H).
  - auto.
Qed.
Lemma definitions_distinct : pairs_distinct definitions = true.
Proof. vm_compute. reflexivity. Qed.

Lemma mandatory_lookup order g s : Permutation definitions order ->
  (forall v, get_mandatory order g s = Some v <-> only_row definitions g s v) /\
  (get_mandatory order g s = None <-> forall v, ~ In (g, s, v) definitions).
Proof.
  intros P.
  assert (I : forall v, In (g, s, v) order <-> In (g, s, v) definitions).
  { intros v. split; apply Permutation_in; [now apply Permutation_sym|assumption]. }
  assert (U : forall v v', In (g, s, v) definitions -> In (g, s, v') definitions -> v = v').
  { intros v v'. apply pairs_distinct_ok, definitions_distinct. }
  split.
  - intros v. unfold only_row. split.
    + intros H. apply get_mandatory_in, I in H. split; eauto.
    + intros [H _]. apply I in H. destruct (get_mandatory order g s) as [w|] eqn:E.
      * apply get_mandatory_in, I in E. f_equal. apply U; auto. now apply I.
      * apply (get_mandatory_none _ _ _ v) in E. contradiction.
  - split.
    + intros E v H. apply I in H. revert H. now apply get_mandatory_none.
    + intros N. destruct (get_mandatory order g s) as [w|] eqn:E; [|reflexivity].
      apply get_mandatory_in, I in E. destruct (N _ E).
Qed.

Lemma alookup_In {V} name (l : list (string * V)) v : alookup name l = Some v -> In (name, v) l.
Proof.
  induction l as [|[k w] l IH]; [discriminate|]. cbn [alookup]. destruct (String.eqb_spec name k) as [->|_].
  - intros H. injection H as ->. left. reflexivity.
  - intros H. right. exact (IH H).
Qed.
Lemma all_resolved : forallb (fun e => match resolve e with Some _ => true | None => false end) mandatory_go = true.
Proof. vm_compute. reflexivity. Qed.
Lemma row_by_name g s ids : In (g, s, ids) mandatory_go ->
  exists gb sb v, In (g, gb) protocol_constants /\ In (s, sb) protocol_constants /\
    get_mandatory definitions gb sb = Some v /\ map cc_id v = ids.
Proof.
  intros I. pose proof all_resolved as A. rewrite forallb_forall in A. specialize (A _ I).
  destruct (resolve (g, s, ids)) as [x|] eqn:E; [|discriminate]. clear A.
  assert (D : In x definitions) by (apply in_flat_map; exists (g, s, ids); split; [exact I|rewrite E; left; reflexivity]).
  unfold resolve, protocol_constant in E. destruct (alookup g _) as [gb|] eqn:G; [|discriminate].
  destruct (alookup s _) as [sb|] eqn:S; [|discriminate]. injection E as <-.
  exists gb, sb, (map mandatory_class ids). split; [exact (alookup_In _ _ _ G)|]. split; [exact (alookup_In _ _ _ S)|].
  split; [|rewrite map_map; apply map_id].
  apply (mandatory_lookup definitions gb sb (Permutation_refl _)). split; [exact D|].
  intros v' V. exact (pairs_distinct_ok _ _ _ _ _ definitions_distinct V D).
Qed.
Lemma constants_distinct : NoDup (map fst protocol_constants).
Proof.
  assert (X : forall l : list string, (fix nd l := match l with [] => true | x :: r => negb (existsb (String.eqb x) r) && nd r end) l = true -> NoDup l).
  { induction l as [|x l IH]; intros H; [constructor|]. apply andb_true_iff in H. destruct H as [H1 H2]. constructor; [|exact (IH H2)].
    intros I. apply negb_true_iff in H1. assert (Y : existsb (String.eqb x) l = true) by (apply existsb_exists; exists x; split; [exact I|apply String.eqb_refl]). congruence. }
  apply X. vm_compute. reflexivity.
Qed.

Lemma mandatory_generated : generate mandatory_txt = Ok mandatory_go.
Proof. vm_compute. reflexivity. Qed.

(** ** Class names *)
Lemma contains_false s sub : ~ occurs sub s -> contains s sub = false.
Proof. intros H. apply Bool.not_true_iff_false. rewrite contains_ok. exact H. Qed.

Lemma mentions_contains t nm : In nm (map fst class_names) -> ~ In nm whole_names ->
  contains t nm = true -> mentions t nm.
Proof.
  intros I N C. split; [exact I|]. destruct (in_dec string_dec nm whole_names); [contradiction|].
  now apply contains_ok.
Qed.
Lemma mentions_whole nm : In nm whole_names -> mentions nm nm.
Proof.
  intros I. split.
  - cbn in I |- *. intuition (subst; auto 30).
  - destruct (in_dec string_dec nm whole_names); [reflexivity|contradiction].
Qed.

Ltac in_names := solve [cbn; auto 30].
Ltac not_whole := solve [cbn; intuition discriminate].

Lemma string_to_byte_names t nm : names_class t nm -> nm <> "Multichannel Association" ->
  In (nm, string_to_byte t) class_names.
Proof.
  intros [[I M] A] N.
  assert (NO : forall nm', In nm' (map fst class_names) -> ~ In nm' whole_names ->
            contains nm nm' = false -> contains t nm' = false).
  { intros nm' I' W' C. destruct (contains t nm') eqn:E; [|reflexivity].
    rewrite (proj2 (contains_ok nm nm')) in C; [discriminate|].
    apply A. apply mentions_contains; auto. }
  assert (NE : forall w, In w whole_names -> contains nm w = false -> String.eqb t w = false).
  { intros w W C. destruct (String.eqb_spec t w) as [->|]; [|reflexivity].
    rewrite (proj2 (contains_ok nm w)) in C; [discriminate|].
    apply A. now apply mentions_whole. }
  unfold string_to_byte.
  cbn [map fst class_names In] in I.
  repeat (destruct I as [<-|I]); try contradiction; try congruence;
    (destruct (in_dec string_dec _ whole_names) as [W|W];
     [ try (exfalso; revert W; not_whole) | try (destruct W; in_names; fail) ]);
    repeat match goal with
      | |- context [contains t ?x] =>
          first [ rewrite (NO x) by (first [reflexivity | in_names | not_whole])
                | rewrite (proj2 (contains_ok t x)) by assumption ]
      | |- context [String.eqb t ?x] =>
          first [ rewrite (NE x) by (first [reflexivity | in_names])
                | rewrite (proj2 (String.eqb_eq t x)) by assumption ]
      end; in_names.
Qed.

Lemma string_to_byte_sound t : string_to_byte t <> x00 ->
  exists nm, mentions t nm /\ In (nm, string_to_byte t) class_names.
Proof.
  unfold string_to_byte. intros H.
  repeat match type of H with
    | context [if contains t ?x then _ else _] =>
        destruct (contains t x) eqn:?;
        [ exists x; split; [apply mentions_contains; [in_names|not_whole|assumption]|in_names] |]
    | context [if String.eqb t ?x then _ else _] =>
        destruct (String.eqb_spec t x) as [->|];
        [ exists x; split; [apply mentions_whole; in_names|in_names] |]
    end.
  congruence.
Qed.
Lemma string_to_byte_unknown t : string_to_byte t = x00 -> forall nm, ~ mentions t nm.
Proof.
  unfold string_to_byte. intros H nm [I M].
  repeat match type of H with
    | context [if ?c then _ else _] => destruct c eqn:?; [discriminate|]
    end.
  cbn [map fst class_names In] in I.
  repeat (destruct I as [<-|I]); try contradiction;
    (destruct (in_dec string_dec _ whole_names) as [W|W];
     [ try (exfalso; revert W; not_whole); subst t; discriminate
     | try (destruct W; in_names; fail); apply contains_ok in M; congruence ]).
Qed.

(** ** Printed names *)
Definition all_bytes : list byte :=
  flat_map (fun n => match Byte.of_N n with Some b => [b] | None => [] end)
           (map N.of_nat (seq 0 256)).
Lemma all_bytes_in b : In b all_bytes.
Proof.
  assert (E : existsb (Byte.eqb b) all_bytes = true) by (destruct b; vm_compute; reflexivity).
  apply existsb_exists in E. destruct E as (x & I & E). apply Byte.byte_dec_bl in E. now subst.
Qed.
Lemma all_bytes_check (f : byte -> bool) : forallb f all_bytes = true -> forall b, f b = true.
Proof. intros H b. rewrite forallb_forall in H. apply H, all_bytes_in. Qed.

Definition injective_check (f : byte -> string) (a : byte) : bool :=
  String.eqb (f a) "" || forallb (fun b => negb (String.eqb (f a) (f b)) || Byte.eqb a b) all_bytes.
Lemma injective_by_check f : forallb (injective_check f) all_bytes = true ->
  forall a b, f a = f b -> f a <> "" -> a = b.
Proof.
  intros H a b E N. pose proof (all_bytes_check _ H a) as C. unfold injective_check in C.
  rewrite orb_true_iff, String.eqb_eq in C. destruct C as [C|C]; [contradiction|].
  pose proof (all_bytes_check _ C b) as D. cbn in D.
  rewrite orb_true_iff, negb_true_iff, String.eqb_neq, byte_eqb_eq in D.
  destruct D as [D|D]; [contradiction|exact D].
Qed.
Lemma function_string_inj a b : function_string a = function_string b -> function_string a <> "" -> a = b.
Proof. apply injective_by_check. vm_compute. reflexivity. Qed.
Lemma command_string_inj a b : command_string a = command_string b -> command_string a <> "" -> a = b.
Proof. apply injective_by_check. vm_compute. reflexivity. Qed.

Lemma function_constants_ok name b : In (name, b) function_constants -> function_string b = name.
Proof.
  intros H.
  assert (F : forallb (fun e => String.eqb (function_string (snd e)) (fst e)) function_constants = true)
    by (vm_compute; reflexivity).
  rewrite forallb_forall in F. specialize (F _ H). now apply String.eqb_eq in F.
Qed.
Lemma command_constants_ok name b : In (name, b) command_constants -> ~ In name unnamed_commands ->
  command_string b = name.
Proof.
  intros H N.
  assert (F : forallb (fun e => existsb (String.eqb (fst e)) unnamed_commands
              || String.eqb (command_string (snd e)) (fst e)) command_constants = true)
    by (vm_compute; reflexivity).
  rewrite forallb_forall in F. specialize (F _ H). cbn [fst snd] in F.
  rewrite orb_true_iff, String.eqb_eq in F. destruct F as [F|F]; [|exact F].
  destruct N. apply existsb_exists in F. destruct F as (x & X & E).
  apply String.eqb_eq in E. now subst.
Qed.
Lemma command_constants_unnamed name b : In (name, b) command_constants -> In name unnamed_commands ->
  command_string b = "".
Proof.
  intros H N.
  assert (F : forallb (fun e => negb (existsb (String.eqb (fst e)) unnamed_commands)
              || String.eqb (command_string (snd e)) "") command_constants = true)
    by (vm_compute; reflexivity).
  rewrite forallb_forall in F. specialize (F _ H). cbn [fst snd] in F.
  rewrite orb_true_iff, String.eqb_eq, negb_true_iff in F. destruct F as [F|F]; [|exact F].
  apply Bool.not_true_iff_false in F. destruct F. apply existsb_exists. exists name.
  split; auto. apply String.eqb_refl.
Qed.

(** ** Blank lines of the specification text *)
Lemma blank_trim l : blank_line l -> trim_space l = "".
Proof.
  unfold blank_line, trim_space. intros H.
  assert (E : trim_left is_space l = "").
  { induction l as [|c l IH]; [reflexivity|]. cbn in H |- *. inversion H as [|? ? A B]; subst.
    assert (S : is_space c = true).
    { unfold is_space. destruct A as [->|A]; [reflexivity|].
      rewrite orb_true_iff, andb_true_iff, !N.leb_le. auto. }
    rewrite S. auto. }
  rewrite E. reflexivity.
Qed.
Lemma gen_lines_app st a b :
  gen_lines st (a ++ b) = (do st' <- gen_lines st a ; gen_lines st' b).
Proof.
  revert st; induction a as [|l a IH]; intros st; cbn; [reflexivity|].
  destruct (gen_line st l); cbn; auto.
Qed.
Lemma generate_blank lines l l' : blank_line l -> blank_line l' ->
  generate ((lines ++ [l]) ++ [l'])%list = generate (lines ++ [l])%list.
Proof.
  intros B B'. unfold generate. rewrite !gen_lines_app.
  destruct (gen_lines _ lines) as [st|e|]; cbn [gen_lines]; try reflexivity.
  unfold gen_line. rewrite (blank_trim l B), (blank_trim l' B'). reflexivity.
Qed.
