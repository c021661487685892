(** Proofs about the generator of the device table. *)
From Verif Require Import ModelBase ModelNodes DataDevices DataFiles ModelDatabase ModelGenerator SpecGenerator.
From Coq Require Import Lia.
Local Open Scope string_scope.

Lemma append_assoc_s a b c : (a ++ b) ++ c = a ++ (b ++ c).
Proof. induction a as [|x a IH]; [reflexivity|]. cbn [append]. rewrite IH. reflexivity. Qed.
Lemma append_empty_r a : a ++ "" = a.
Proof. induction a as [|x a IH]; [reflexivity|]. cbn [append]. rewrite IH. reflexivity. Qed.
Lemma to_lower_append a b : to_lower (a ++ b) = to_lower a ++ to_lower b.
Proof. induction a as [|x a IH]; [reflexivity|]. cbn [append to_lower]. rewrite IH. reflexivity. Qed.
Lemma reverse_spec s acc : reverse s acc = reverse s "" ++ acc.
Proof.
  revert acc. induction s as [|c s IH]; intros acc; [reflexivity|].
  cbn [reverse]. rewrite IH. rewrite (IH (String c "")). rewrite append_assoc_s. reflexivity.
Qed.

Lemma split_cut s : forall cur,
  split_on ":" cur s =
  match cut s with
  | (a, None) => [reverse cur "" ++ a]
  | (a, Some r) => (reverse cur "" ++ a) :: split_on ":" "" r
  end.
Proof.
  induction s as [|c s IH]; intros cur; cbn [split_on cut].
  - rewrite append_empty_r. reflexivity.
  - destruct (Ascii.eqb c ":").
    + rewrite append_empty_r. reflexivity.
    + rewrite IH. destruct (cut s) as [a [r|]]; cbn [fst snd reverse];
        rewrite (reverse_spec cur (String c "")), append_assoc_s; reflexivity.
Qed.
Lemma parse_ref_of s : parse_ref s = ref_of s.
Proof.
  unfold parse_ref, ref_of. rewrite split_cut. destruct (cut s) as [a [r|]]; [|reflexivity].
  rewrite split_cut. destruct (cut r) as [b [q|]]; [|reflexivity].
  rewrite split_cut. destruct (cut q) as [d [w|]]; reflexivity.
Qed.

(** ** Order and duplicates *)
Fixpoint dedup (seen : list string) (l : list (jfile * (string * string)))
  : list (jfile * (string * string)) :=
  match l with
  | [] => []
  | (f, r) :: l' =>
      if existsb (String.eqb (full_id f r)) seen then dedup seen l'
      else (f, r) :: dedup (full_id f r :: seen) l'
  end.

Lemma keep_dedup f rest : forall refs seen kept seen', keep f seen refs = (kept, seen') ->
  dedup seen (map (fun r => (f, r)) refs ++ rest) = (map (fun r => (f, r)) kept ++ dedup seen' rest)%list.
Proof.
  induction refs as [|r refs IH]; intros seen kept seen' H; cbn [keep] in H.
  - injection H as <- <-. reflexivity.
  - cbn [map app dedup]. change (iden f r) with (full_id f r) in H.
    destruct (existsb (String.eqb (full_id f r)) seen).
    + apply IH. exact H.
    + destruct (keep f (full_id f r :: seen) refs) as [k s'] eqn:K. injection H as <- <-.
      cbn [map app]. f_equal. apply IH. exact K.
Qed.
Lemma generator_dedup fs : forall seen,
  generator seen fs = map (fun p => render (fst p) (snd p)) (dedup seen (mentions fs)).
Proof.
  induction fs as [|f fs IH]; intros seen; [reflexivity|].
  cbn [generator]. unfold mentions. cbn [flat_map]. fold (mentions fs).
  destruct (keep f seen (map parse_ref (j_refs f))) as [kept seen'] eqn:K.
  rewrite (map_ext _ (fun s => (f, parse_ref s))) by (intros; rewrite parse_ref_of; reflexivity).
  rewrite <- (map_map parse_ref (fun r => (f, r))).
  rewrite (keep_dedup _ (mentions fs) _ _ _ _ K). rewrite map_app, map_map. cbn [fst snd].
  rewrite IH. reflexivity.
Qed.

Lemma existsb_in x l : existsb (String.eqb x) l = true <-> In x l.
Proof.
  rewrite existsb_exists. split.
  - intros (y & I & E). apply String.eqb_eq in E. subst. exact I.
  - intros I. exists x. split; [exact I|apply String.eqb_refl].
Qed.
Lemma existsb_nin x l : existsb (String.eqb x) l = false <-> ~ In x l.
Proof. rewrite <- existsb_in. destruct (existsb _ _); split; congruence. Qed.

Lemma dedup_first l : forall seen f r,
  In (f, r) (dedup seen l) <->
  exists pre post, l = (pre ++ (f, r) :: post)%list /\ ~ In (full_id f r) seen /\
    forall g q, In (g, q) pre -> full_id g q <> full_id f r.
Proof.
  induction l as [|(g, q) l IH]; intros seen f r; cbn [dedup].
  - split; [intros []|]. intros (pre & post & E & _). destruct pre; discriminate.
  - destruct (existsb (String.eqb (full_id g q)) seen) eqn:X.
    + apply existsb_in in X. rewrite IH. split.
      * intros (pre & post & E & N & F). exists ((g, q) :: pre), post. subst. split; [reflexivity|].
        split; [exact N|]. intros g' q' [H|H]; [injection H as <- <-; congruence|exact (F _ _ H)].
      * intros (pre & post & E & N & F). destruct pre as [|p pre]; cbn [app] in E; injection E as E1 E2.
        { subst. contradiction. }
        { intros. exists pre, post. split; [assumption|]. split; [exact N|]. intros; apply F; right; assumption. }
    + apply existsb_nin in X. cbn [In]. rewrite IH. split.
      * intros [H|(pre & post & E & N & F)].
        { injection H as <- <-. exists [], l. split; [reflexivity|]. split; [exact X|]. intros ? ? []. }
        { exists ((g, q) :: pre), post. subst. split; [reflexivity|]. split.
          - intros I. apply N. right. exact I.
          - intros g' q' [H|H]; [injection H as <- <-; intros E; apply N; left; exact E|exact (F _ _ H)]. }
      * intros (pre & post & E & N & F). destruct pre as [|p pre]; cbn [app] in E.
        { injection E as E1 E2 E3. subst. left. reflexivity. }
        { injection E as E1 E2. subst p. right. exists pre, post. split; [exact E2|]. split.
          - cbn [In]. intros [H|H]; [|exact (N H)]. exact (F g q (or_introl eq_refl) H).
          - intros; apply F; right; assumption. }
Qed.
Lemma dedup_in l seen p : In p (dedup seen l) -> In p l.
Proof.
  destruct p as [f r]. rewrite dedup_first. intros (pre & post & -> & _).
  apply in_or_app. right. left. reflexivity.
Qed.
Lemma dedup_nodup l : forall seen, NoDup (map (fun p => full_id (fst p) (snd p)) (dedup seen l)).
Proof.
  induction l as [|(g, q) l IH]; intros seen; cbn [dedup]; [constructor|].
  destruct (existsb (String.eqb (full_id g q)) seen); [apply IH|].
  cbn [map fst snd]. constructor; [|apply IH].
  rewrite in_map_iff. intros ((f, r) & E & I). cbn [fst snd] in E.
  apply dedup_first in I. destruct I as (pre & post & _ & N & _). apply N. left. symmetry. exact E.
Qed.

Lemma first_mention_in fs f r : first_mention fs f r <-> In (f, r) (dedup [] (mentions fs)).
Proof.
  rewrite dedup_first. unfold first_mention. split; intros (pre & post & E & H); exists pre, post.
  - split; [exact E|]. split; [intros []|exact H].
  - split; [exact E|]. apply H.
Qed.

Lemma render_case f r : r_case (render f r) = to_lower (full_id f r).
Proof.
  destruct r as [t i]. unfold full_id. rewrite !to_lower_append. reflexivity.
Qed.
Lemma render_func f r : r_func (render f r) = "New" ++ full_id f r.
Proof. destruct r as [t i]. reflexivity. Qed.

Lemma NoDup_map_inj {A B C} (g : A -> B) (h : A -> C) l :
  NoDup (map g l) -> (forall x y, In x l -> In y l -> h x = h y -> g x = g y) -> NoDup (map h l).
Proof.
  induction l as [|x l IH]; intros N I; [constructor|].
  cbn [map] in *. inversion N as [|? ? N1 N2]; subst. constructor.
  - rewrite in_map_iff. intros (y & E & Y). apply N1. rewrite in_map_iff. exists y. split; [|exact Y].
    apply I; [right; exact Y|left; reflexivity|exact E].
  - apply IH; [exact N2|]. intros; apply I; try (right; assumption); assumption.
Qed.

Lemma funcs_distinct fs : NoDup (map r_func (generator [] fs)).
Proof.
  rewrite generator_dedup, map_map.
  apply (NoDup_map_inj (fun p => full_id (fst p) (snd p))); [apply dedup_nodup|].
  intros x y _ _ E. rewrite !render_func in E. cbn [append] in E. injection E as E. exact E.
Qed.
Lemma cases_distinct fs : one_case fs -> NoDup (map r_case (generator [] fs)).
Proof.
  intros O. rewrite generator_dedup, map_map.
  apply (NoDup_map_inj (fun p => full_id (fst p) (snd p))); [apply dedup_nodup|].
  intros [f r] [g q] X Y E. cbn [fst snd] in *. rewrite !render_case in E.
  apply O; [exact (dedup_in _ _ _ X)|exact (dedup_in _ _ _ Y)|exact E].
Qed.
Lemma distinct_nodup l : distinct l = true <-> NoDup l.
Proof.
  induction l as [|x l IH]; cbn [distinct]; [split; [constructor|reflexivity]|].
  rewrite andb_true_iff, negb_true_iff, existsb_nin, IH.
  split; [intros [A B]; constructor; assumption|intros N; inversion N; split; assumption].
Qed.

(** ** Literals *)
Lemma ascii_cases (P : ascii -> bool) : forallb P (map ascii_of_N (map N.of_nat (seq 0 256))) = true ->
  forall c, P c = true.
Proof.
  intros H c. rewrite forallb_forall in H. apply H. rewrite in_map_iff. exists (N_of_ascii c).
  split; [apply ascii_N_embedding|]. rewrite in_map_iff. exists (nat_of_ascii c).
  split; [unfold nat_of_ascii; apply N2Nat.id|]. apply in_seq. pose proof (nat_ascii_bounded c). lia.
Qed.

Definition special (c : ascii) : bool :=
  Ascii.eqb c "\" || Ascii.eqb c """" || (N_of_ascii c =? 13)%N || (N_of_ascii c =? 10)%N.
Lemma literal_special c s : special c = true ->
  go_literal (escape_char c ++ s) = match go_literal s with Some t => Some (String c t) | None => None end.
Proof.
  unfold special, escape_char. rewrite !orb_true_iff, !Ascii.eqb_eq, !N.eqb_eq.
  intros [[[-> | ->]|E]|E].
  - cbn. destruct (go_literal s); reflexivity.
  - cbn. destruct (go_literal s); reflexivity.
  - assert (c = ascii_of_N 13) as -> by (rewrite <- E, ascii_N_embedding; reflexivity).
    cbn. destruct (go_literal s); reflexivity.
  - assert (c = ascii_of_N 10) as -> by (rewrite <- E, ascii_N_embedding; reflexivity).
    cbn. destruct (go_literal s); reflexivity.
Qed.
Lemma literal_plain c s : special c = false ->
  go_literal (escape_char c ++ s) =
  if (N_of_ascii c =? 0)%N then None
  else if has_prefix (String c s) bom then None
  else match go_literal s with Some t => Some (String c t) | None => None end.
Proof.
  unfold special, escape_char. rewrite !orb_false_iff. intros [[[A B] C] D].
  rewrite A, B, C, D. cbn [append go_literal]. rewrite A, B, D. reflexivity.
Qed.
Lemma has_prefix_spec s t : has_prefix s t = true <-> exists b, s = t ++ b.
Proof.
  revert s. induction t as [|c t IH]; intros s.
  - cbn [has_prefix append]. split; [intros; exists s; reflexivity|]. intros; destruct s; reflexivity.
  - destruct s as [|d s]; cbn [has_prefix append].
    + split; [discriminate|intros (b & E); discriminate].
    + rewrite andb_true_iff, Ascii.eqb_eq, IH. split.
      * intros [-> (b & ->)]. exists b. reflexivity.
      * intros (b & E). injection E as -> ->. split; [reflexivity|]. exists b. reflexivity.
Qed.
Lemma contains_spec s t : contains s t = true <-> occurs t s.
Proof.
  unfold occurs. induction s as [|c s IH]; cbn [contains]; rewrite orb_true_iff, has_prefix_spec.
  - split.
    + intros [(b & E)|H]; [exists "", b; exact E|discriminate].
    + intros (a & b & E). left. destruct a; [exists b; exact E|discriminate].
  - rewrite IH. split.
    + intros [(b & E)|(a & b & E)]; [exists "", b; exact E|]. exists (String c a), b. rewrite E. reflexivity.
    + intros (a & b & E). destruct a as [|d a]; [left; exists b; exact E|].
      injection E as -> ->. right. exists a, b. reflexivity.
Qed.

Lemma prefix_empty s : has_prefix s "" = true.
Proof. destruct s; reflexivity. Qed.
Fixpoint none_special (t : string) : bool :=
  match t with "" => true | String c r => negb (special c) && none_special r end.
Lemma prefix_escape t : none_special t = true -> forall s, has_prefix (escape s) t = has_prefix s t.
Proof.
  induction t as [|c t IH]; intros N s; [rewrite !prefix_empty; reflexivity|].
  cbn [none_special] in N. apply andb_prop in N. destruct N as [C N]. apply negb_true_iff in C.
  destruct s as [|d s]; [reflexivity|]. cbn [escape].
  destruct (special d) eqn:D.
  - cbn [has_prefix]. assert (E : Ascii.eqb c d = false)
      by (destruct (Ascii.eqb_spec c d); [subst; congruence|reflexivity]).
    rewrite E. cbn [andb]. clear E IH N.
    assert (X : exists d', escape_char d = String "\" d').
    { unfold special in D. unfold escape_char.
      destruct (Ascii.eqb d "\"); [eexists; reflexivity|].
      destruct (Ascii.eqb d """"); [eexists; reflexivity|].
      destruct (N_of_ascii d =? 13)%N; [eexists; reflexivity|].
      destruct (N_of_ascii d =? 10)%N; [eexists; reflexivity|]. discriminate. }
    destruct X as [d' ->]. cbn [append has_prefix].
    destruct (Ascii.eqb_spec c "\"); [subst; discriminate|reflexivity].
  - assert (X : escape_char d = String d "").
    { unfold special in D. unfold escape_char. apply orb_false_elim in D. destruct D as [D D4].
      apply orb_false_elim in D. destruct D as [D D3]. apply orb_false_elim in D. destruct D as [D D2].
      rewrite D, D2, D3, D4. reflexivity. }
    rewrite X. cbn [append has_prefix]. rewrite (IH N). reflexivity.
Qed.
Lemma special_bom c s : special c = true -> has_prefix (String c s) bom = false.
Proof.
  intros H. unfold bom. cbn [has_prefix]. destruct (Ascii.eqb_spec (ascii_of_N 239) c); [|reflexivity].
  subst c. discriminate.
Qed.
Lemma special_nul c s : special c = true -> has_prefix (String c s) nul = false.
Proof.
  intros H. unfold nul. cbn [has_prefix]. destruct (Ascii.eqb_spec (ascii_of_N 0) c); [|reflexivity].
  subst c. discriminate.
Qed.
Lemma prefix_nul c s : has_prefix (String c s) nul = (N_of_ascii c =? 0)%N.
Proof.
  unfold nul. cbn [has_prefix]. rewrite prefix_empty, andb_true_r. destruct (Ascii.eqb_spec (ascii_of_N 0) c).
  - subst c. reflexivity.
  - symmetry. apply N.eqb_neq. intros E. apply n. rewrite <- E. apply ascii_N_embedding.
Qed.
Lemma literal_escape s :
  go_literal (escape s) = if contains s nul || contains s bom then None else Some s.
Proof.
  induction s as [|c s IH]; [reflexivity|]. cbn [escape]. cbn [contains].
  destruct (special c) eqn:C.
  - rewrite (literal_special _ _ C), IH, (special_nul _ _ C), (special_bom _ _ C). cbn [orb].
    destruct (contains s nul || contains s bom); reflexivity.
  - rewrite (literal_plain _ _ C), IH, prefix_nul.
    destruct (N_of_ascii c =? 0)%N; [reflexivity|]. cbn [orb].
    assert (X : has_prefix (String c (escape s)) bom = has_prefix (String c s) bom).
    { unfold bom. cbn [has_prefix]. f_equal. apply (prefix_escape (String (ascii_of_N 187) (String (ascii_of_N 191) ""))).
      reflexivity. }
    rewrite X. destruct (has_prefix (String c s) bom), (contains s nul), (contains s bom); reflexivity.
Qed.
Lemma literal_source s : go_literal (escape s) = Some s <-> source_text s.
Proof.
  rewrite literal_escape. unfold source_text. rewrite <- !contains_spec.
  destruct (contains s nul), (contains s bom); cbn [orb]; split; try congruence;
    try (intros [A B]; exfalso; first [apply A; reflexivity|apply B; reflexivity]).
  intros _. split; discriminate.
Qed.

(** Letters, digits and underscores stand for themselves. *)
Definition wordchar (c : ascii) : bool :=
  let n := N_of_ascii c in
  ((48 <=? n) && (n <=? 57) || (65 <=? n) && (n <=? 90) || (97 <=? n) && (n <=? 122) || (n =? 95))%N.
Fixpoint word (s : string) : bool :=
  match s with "" => true | String c r => wordchar c && word r end.
Lemma word_lower s : word s = true -> word (to_lower s) = true.
Proof.
  induction s as [|c s IH]; [reflexivity|]. cbn [word to_lower]. intros H. apply andb_prop in H.
  destruct H as [C H]. rewrite (IH H), andb_true_r.
  pose proof (ascii_cases (fun c => implb (wordchar c) (wordchar (lower_ascii c))) eq_refl c) as X.
  cbv beta in X. rewrite C in X. exact X.
Qed.
Lemma word_app a b : word (a ++ b) = word a && word b.
Proof.
  induction a as [|c a IH]; [reflexivity|]. cbn [append word]. rewrite IH, andb_assoc. reflexivity.
Qed.
Lemma alnum_word s : alnum s -> word s = true.
Proof.
  induction s as [|c s IH]; [reflexivity|]. cbn [alnum word]. intros [C H]. rewrite (IH H), andb_true_r.
  unfold wordchar. rewrite !orb_true_iff, !andb_true_iff, !N.leb_le. tauto.
Qed.
Lemma word_literal s : word s = true -> go_literal s = Some s.
Proof.
  induction s as [|c s IH]; [reflexivity|]. cbn [word]. intros H. apply andb_prop in H. destruct H as [C H].
  cbn [go_literal]. rewrite (IH H).
  pose proof (ascii_cases (fun c => implb (wordchar c)
    (negb (Ascii.eqb c "\") && negb (Ascii.eqb c """") && negb (N_of_ascii c =? 10)%N && negb (N_of_ascii c =? 0)%N
     && negb (Ascii.eqb (ascii_of_N 239) c))) eq_refl c) as X.
  cbv beta in X. rewrite C in X. cbn [implb] in X. rewrite !andb_true_iff, !negb_true_iff in X.
  destruct X as [[[[X1 X2] X3] X4] X5]. rewrite X1, X2, X3, X4. cbn [has_prefix]. rewrite X5. reflexivity.
Qed.

(** ** Classes *)
Lemma digit_value n c : (n < 16)%N -> digit_of n c -> go_hexdigit c = Some n.
Proof.
  intros L H. assert (X : In n (map N.of_nat (seq 0 16))).
  { rewrite in_map_iff. exists (N.to_nat n). split; [apply N2Nat.id|]. apply in_seq. lia. }
  cbn in X. repeat (destruct X as [<-|X]; [destruct H as [H|H]; cbn in H; injection H as <-; reflexivity|]).
  destruct X.
Qed.
Lemma id_value s b : id_denotes s b ->
  match text_unless_empty s with None => Some x00 | Some t => go_byte t end = Some b.
Proof.
  intros [[-> ->]|(h & l & c & d & -> & C & D & H & L & E)]; [reflexivity|].
  unfold text_unless_empty. cbn [String.eqb go_byte go_hex].
  rewrite (digit_value _ _ H C), (digit_value _ _ L D).
  replace (16 * (16 * 0 + h) + l)%N with (16 * h + l)%N by lia. rewrite <- E. apply Byte.of_to_N.
Qed.
Lemma class_value j b : id_denotes (jc_id j) b -> alnum (jc_version j) ->
  exists c, go_class (render_class j) = Some c /\ class_matches j c.
Proof.
  intros I V. apply alnum_word, word_literal in V.
  exists (mkCC b (jc_nif j) (jc_secure j) (jc_nonsecure j) (jc_version j)). split.
  - unfold go_class, render_class. cbn [rc_id rc_nif rc_secure rc_nonsecure rc_version].
    rewrite (id_value _ _ I). unfold text_unless_empty.
    destruct (String.eqb_spec (jc_version j) "") as [->|N]; [reflexivity|]. rewrite V. reflexivity.
  - repeat split; try reflexivity. exact I.
Qed.
Lemma classes_value l : (forall c, In c l -> alnum (jc_version c) /\ exists b, id_denotes (jc_id c) b) ->
  exists cs, all_some (map go_class (map render_class l)) = Some cs /\ Forall2 class_matches l cs.
Proof.
  induction l as [|j l IH]; intros H; [exists []; split; [reflexivity|constructor]|].
  destruct IH as (cs & E & F); [intros; apply H; right; assumption|].
  destruct (H j (or_introl eq_refl)) as (V & b & I). destruct (class_value j b I V) as (c & G & M).
  exists (c :: cs). cbn [map all_some]. rewrite G, E. split; [reflexivity|constructor; assumption].
Qed.

Definition fine (f : jfile) (r : string * string) : Prop :=
  source_text (j_manufacturer_name f) /\ source_text (j_label f) /\ source_text (j_decription f) /\
  alnum (j_manufacturer_id f) /\ alnum (fst r) /\ alnum (snd r) /\
  forall e c, In e (j_endpoints f) -> In c e -> alnum (jc_version c) /\ exists b, id_denotes (jc_id c) b.
Lemma device_value f r : fine f r ->
  exists d, go_device (render f r) = Some (to_lower (full_id f r), d) /\ device_matches f r d.
Proof.
  intros (N & L & D & M & T & I & C).
  apply literal_source in N. apply literal_source in L. apply literal_source in D.
  apply alnum_word in M. apply alnum_word in T. apply alnum_word in I.
  destruct (classes_value (first_endpoint f)) as (cs & E & F).
  { unfold first_endpoint. destruct (j_endpoints f) as [|e es]; [intros ? []|].
    intros c X. exact (C e c (or_introl eq_refl) X). }
  assert (K : go_literal (to_lower (full_id f r)) = Some (to_lower (full_id f r))).
  { apply word_literal, word_lower. unfold full_id. rewrite !word_app, M, T, I. reflexivity. }
  rewrite <- render_case in K |- *.
  exists (mkDevice (j_manufacturer_name f) (j_label f) (j_decription f) (j_manufacturer_id f) (fst r) (snd r) cs).
  apply word_literal in M. apply word_literal in T. apply word_literal in I.
  split.
  - unfold go_device. rewrite K. destruct r as [t i].
    cbn [render r_brand r_product r_description r_manufacturer r_type r_id r_classes fst snd] in *.
    rewrite N, L, D, M, T, I, E. reflexivity.
  - unfold device_matches. cbn [d_brand d_product d_description d_manufacturer d_type d_id d_classes].
    repeat (split; [reflexivity|]). exact F.
Qed.

Lemma devices_value (l : list (jfile * (string * string))) : (forall f r, In (f, r) l -> fine f r) ->
  exists ds, all_some (map go_device (map (fun p => render (fst p) (snd p)) l)) = Some ds /\
    Forall2 (fun p x => fst x = to_lower (full_id (fst p) (snd p)) /\ device_matches (fst p) (snd p) (snd x)) l ds.
Proof.
  induction l as [|(f, r) l IH]; intros H; [exists []; split; [reflexivity|constructor]|].
  destruct IH as (ds & E & F); [intros; apply H; right; assumption|].
  destruct (device_value f r (H f r (or_introl eq_refl))) as (d & G & M).
  exists ((to_lower (full_id f r), d) :: ds). cbn [map all_some fst snd]. rewrite G, E. split; [reflexivity|].
  constructor; [split; [reflexivity|exact M]|exact F].
Qed.
Lemma Forall2_keys {A B} (k : A -> B) {V} (R : A -> B * V -> Prop) l ds :
  Forall2 (fun p x => fst x = k p /\ R p x) l ds -> map fst ds = map k l.
Proof. induction 1 as [|p x l ds [E _] _ IH]; [reflexivity|]. cbn [map]. rewrite E, IH. reflexivity. Qed.
Lemma Forall2_in_l {A B} (R : A -> B -> Prop) l m x : Forall2 R l m -> In x l -> exists y, In y m /\ R x y.
Proof.
  induction 1 as [|a b l m H _ IH]; intros []; [subst; exists b; split; [left; reflexivity|exact H]|].
  destruct IH as (y & Y & Z); [assumption|]. exists y. split; [right; exact Y|exact Z].
Qed.
Lemma Forall2_in_r {A B} (R : A -> B -> Prop) l m y : Forall2 R l m -> In y m -> exists x, In x l /\ R x y.
Proof.
  induction 1 as [|a b l m H _ IH]; intros []; [subst; exists a; split; [left; reflexivity|exact H]|].
  destruct IH as (x & Y & Z); [assumption|]. exists x. split; [right; exact Y|exact Z].
Qed.
Lemma alookup_in {V} k (v : V) l : NoDup (map fst l) -> In (k, v) l -> alookup k l = Some v.
Proof.
  induction l as [|(k', v') l IH]; intros N []; cbn [alookup map fst] in *.
  - injection H as -> ->. rewrite String.eqb_refl. reflexivity.
  - inversion N as [|? ? N1 N2]; subst. destruct (String.eqb_spec k k') as [->|_]; [|exact (IH N2 H)].
    exfalso. apply N1. rewrite in_map_iff. exists (k', v). split; [reflexivity|exact H].
Qed.

Lemma generated_table fs : usable fs ->
  exists ds, go_build (generator [] fs) = Some ds /\
    (forall f r, first_mention fs f r ->
       exists d, alookup (to_lower (full_id f r)) ds = Some d /\ device_matches f r d) /\
    (forall k d, alookup k ds = Some d ->
       exists f r, first_mention fs f r /\ k = to_lower (full_id f r) /\ device_matches f r d).
Proof.
  intros [O U]. destruct (devices_value (dedup [] (mentions fs))) as (ds & E & F).
  { intros f r I. apply dedup_in in I. exact (U f r I). }
  pose proof (cases_distinct fs O) as C. pose proof (Forall2_keys _ _ _ _ F) as K.
  assert (N : NoDup (map fst ds)).
  { rewrite K. rewrite generator_dedup, map_map in C.
    rewrite (map_ext _ (fun p => r_case (render (fst p) (snd p)))); [exact C|].
    intros [f r]. symmetry. apply render_case. }
  exists ds. split; [|split].
  - unfold go_build. rewrite (generator_dedup fs []), E.
    apply distinct_nodup in N. rewrite N. pose proof (funcs_distinct fs) as D.
    rewrite generator_dedup in D. apply distinct_nodup in D. rewrite D. reflexivity.
  - intros f r I. apply first_mention_in in I. destruct (Forall2_in_l _ _ _ _ F I) as ((k, d) & Y & E1 & M).
    cbn [fst snd] in *. subst k. exists d. split; [apply alookup_in; assumption|exact M].
  - intros k d A. assert (I : In (k, d) ds).
    { clear - A. induction ds as [|(k', v) ds IH]; [discriminate|]. cbn [alookup] in A.
      destruct (String.eqb_spec k k') as [->|_]; [injection A as ->; left; reflexivity|right; exact (IH A)]. }
    destruct (Forall2_in_r _ _ _ _ F I) as ((f, r) & Y & E1 & M). cbn [fst snd] in *.
    exists f, r. split; [apply first_mention_in; exact Y|]. split; assumption.
Qed.

(** ** The files of the repository *)
Definition alnumb (s : string) : bool :=
  (fix go s := match s with
   | "" => true
   | String c r => wordchar c && negb (N_of_ascii c =? 95)%N && go r
   end) s.
Lemma alnumb_spec s : alnumb s = true -> alnum s.
Proof.
  induction s as [|c s IH]; [intros; exact I|]. cbn. intros H. apply andb_prop in H. destruct H as [C H].
  split; [|exact (IH H)]. clear - C. apply andb_prop in C. destruct C as [C D].
  apply negb_true_iff, N.eqb_neq in D. unfold wordchar in C.
  rewrite !orb_true_iff, !andb_true_iff, !N.leb_le, N.eqb_eq in C. tauto.
Qed.
Definition idb (s : string) : bool :=
  match s with
  | "" => true
  | String c (String d "") =>
      match go_hexdigit c, go_hexdigit d with Some _, Some _ => true | _, _ => false end
  | _ => false
  end.
Lemma hexdigit_digit c n : go_hexdigit c = Some n -> (n < 16)%N /\ digit_of n c.
Proof.
  pose proof (ascii_cases (fun c => match go_hexdigit c with
    | None => true
    | Some n => (n <? 16)%N &&
        match String.get (N.to_nat n) "0123456789abcdef", String.get (N.to_nat n) "0123456789ABCDEF" with
        | Some a, Some b => Ascii.eqb a c || Ascii.eqb b c
        | _, _ => false
        end end) eq_refl c) as X. cbv beta in X.
  intros E. rewrite E in X. apply andb_prop in X. destruct X as [L X]. apply N.ltb_lt in L. split; [exact L|].
  unfold digit_of.
  destruct (String.get (N.to_nat n) "0123456789abcdef"); [|discriminate].
  destruct (String.get (N.to_nat n) "0123456789ABCDEF"); [|discriminate].
  apply orb_prop in X. destruct X as [X|X]; apply Ascii.eqb_eq in X; subst; [left|right]; reflexivity.
Qed.
Lemma idb_spec s : idb s = true -> exists b, id_denotes s b.
Proof.
  destruct s as [|c [|d [|e s]]]; cbn [idb]; try discriminate.
  - intros _. exists x00. left. split; reflexivity.
  - destruct (go_hexdigit c) as [h|] eqn:C; [|discriminate].
    destruct (go_hexdigit d) as [l|] eqn:D; [|discriminate]. intros _.
    apply hexdigit_digit in C. apply hexdigit_digit in D. destruct C as [H C], D as [L D].
    destruct (Byte.of_N (16 * h + l)) as [b|] eqn:B.
    + exists b. right. exists h, l, c, d. apply Byte.to_of_N in B. repeat (split; [assumption || reflexivity|]). exact B.
    + apply Byte.of_N_None_iff in B. lia.
Qed.
Definition texts_ok (f : jfile) : bool :=
  negb (contains (j_manufacturer_name f) nul) && negb (contains (j_manufacturer_name f) bom)
  && negb (contains (j_label f) nul) && negb (contains (j_label f) bom)
  && negb (contains (j_decription f) nul) && negb (contains (j_decription f) bom)
  && alnumb (j_manufacturer_id f)
  && forallb (fun s => alnumb (fst (ref_of s)) && alnumb (snd (ref_of s))) (j_refs f)
  && forallb (forallb (fun c => alnumb (jc_version c) && idb (jc_id c))) (j_endpoints f).
Lemma source_bool s : negb (contains s nul) = true -> negb (contains s bom) = true -> source_text s.
Proof. rewrite !negb_true_iff. intros A B. split; rewrite <- contains_spec; congruence. Qed.
Lemma texts_fine f s : texts_ok f = true -> In s (j_refs f) -> fine f (ref_of s).
Proof.
  unfold texts_ok. rewrite !andb_true_iff. intros ((((((((A1 & A2) & B1) & B2) & C1) & C2) & M) & R) & E) I.
  rewrite forallb_forall in R. specialize (R s I). apply andb_prop in R. destruct R as [R1 R2].
  unfold fine.
  split; [exact (source_bool _ A1 A2)|]. split; [exact (source_bool _ B1 B2)|].
  split; [exact (source_bool _ C1 C2)|]. split; [exact (alnumb_spec _ M)|].
  split; [exact (alnumb_spec _ R1)|]. split; [exact (alnumb_spec _ R2)|].
  intros e c X Y. rewrite forallb_forall in E. specialize (E e X). rewrite forallb_forall in E.
  specialize (E c Y). apply andb_prop in E. destruct E as [E1 E2].
  split; [exact (alnumb_spec _ E1)|exact (idb_spec _ E2)].
Qed.
Definition one_caseb (ids : list string) : bool :=
  let l := map (fun s => (to_lower s, s)) ids in
  forallb (fun a => forallb (fun b => if String.eqb (fst a) (fst b) then String.eqb (snd a) (snd b) else true) l) l.
Lemma one_caseb_spec fs :
  one_caseb (map (fun p => full_id (fst p) (snd p)) (mentions fs)) = true -> one_case fs.
Proof.
  unfold one_caseb, one_case. intros H f r g q X Y E. rewrite forallb_forall in H.
  assert (P : forall f r, In (f, r) (mentions fs) ->
    In (to_lower (full_id f r), full_id f r)
      (map (fun s => (to_lower s, s)) (map (fun p => full_id (fst p) (snd p)) (mentions fs)))).
  { intros f' r' I. rewrite map_map. apply (in_map (fun p => (to_lower (full_id (fst p) (snd p)), full_id (fst p) (snd p))) _ (f', r')).
    exact I. }
  specialize (H _ (P _ _ X)). rewrite forallb_forall in H. specialize (H _ (P _ _ Y)). cbn [fst snd] in H.
  rewrite E, String.eqb_refl in H. apply String.eqb_eq in H. exact H.
Qed.
Lemma mentions_in fs f r : In (f, r) (mentions fs) -> In f fs /\ exists s, In s (j_refs f) /\ r = ref_of s.
Proof.
  unfold mentions. rewrite in_flat_map. intros (g & G & H). rewrite in_map_iff in H.
  destruct H as (s & E & I). injection E as <- <-. split; [exact G|]. exists s. split; [exact I|reflexivity].
Qed.
Lemma usable_bool fs : forallb texts_ok fs = true ->
  one_caseb (map (fun p => full_id (fst p) (snd p)) (mentions fs)) = true -> usable fs.
Proof.
  intros T O. split; [exact (one_caseb_spec fs O)|]. intros f r I. apply mentions_in in I.
  destruct I as (F & s & S & ->). rewrite forallb_forall in T. exact (texts_fine f s (T f F) S).
Qed.
Lemma files_usable : usable files.
Proof.
  apply usable_bool; vm_cast_no_check (eq_refl true).
Qed.
Lemma files_built : go_build (generator [] files) = Some devices.
Proof. vm_cast_no_check (eq_refl (Some devices)). Qed.

Lemma lookup_key f r :
  lookup_ref device_new f r = alookup (to_lower (full_id f r)) devices.
Proof. unfold lookup_ref, device_new, full_id. rewrite !to_lower_append. reflexivity. Qed.
Lemma files_table :
  (forall f r, first_mention files f r ->
       exists d, alookup (to_lower (full_id f r)) devices = Some d /\ device_matches f r d) /\
  (forall k d, alookup k devices = Some d ->
       exists f r, first_mention files f r /\ k = to_lower (full_id f r) /\ device_matches f r d).
Proof.
  destruct (generated_table files files_usable) as (ds & B & H). rewrite files_built in B.
  injection B as <-. exact H.
Qed.
Lemma lookup_complete f r : first_mention files f r ->
  exists d, lookup_ref device_new f r = Some d /\ device_matches f r d.
Proof. intros H. rewrite lookup_key. exact (proj1 files_table f r H). Qed.
Lemma lookup_sound m t i d : device_new m t i = Some d ->
  exists f r, first_mention files f r /\ device_matches f r d /\
    m ++ "_" ++ t ++ "_" ++ i = to_lower (full_id f r).
Proof.
  intros H. destruct (proj2 files_table _ _ H) as (f & r & F & E & M). exists f, r.
  split; [exact F|]. split; [exact M|exact E].
Qed.

Lemma first_exists l : forall f r, In (f, r) l ->
  exists pre g q post, l = (pre ++ (g, q) :: post)%list /\ full_id g q = full_id f r /\
    forall g' q', In (g', q') pre -> full_id g' q' <> full_id f r.
Proof.
  induction l as [|(g, q) l IH]; intros f r; [intros []|].
  intros H. destruct (string_dec (full_id g q) (full_id f r)) as [E|N].
  - exists [], g, q, l. split; [reflexivity|]. split; [exact E|intros ? ? []].
  - destruct H as [H|H]; [injection H as -> ->; congruence|].
    destruct (IH f r H) as (pre & g' & q' & post & -> & E & F).
    exists ((g, q) :: pre), g', q', post. split; [reflexivity|]. split; [exact E|].
    intros a b [X|X]; [injection X as <- <-; exact N|exact (F a b X)].
Qed.
Lemma lookup_only f r : only_mention files f r ->
  exists d, lookup_ref device_new f r = Some d /\ device_matches f r d.
Proof.
  intros [I U]. apply lookup_complete. destruct (first_exists _ f r I) as (pre & g & q & post & E & K & F).
  assert (X : (g, q) = (f, r)).
  { apply U; [|exact K]. rewrite E. apply in_or_app. right. left. reflexivity. }
  injection X as -> ->. exists pre, post. split; [exact E|exact F].
Qed.
Lemma lookup_some f r : In (f, r) (mentions files) -> exists d, lookup_ref device_new f r = Some d.
Proof.
  intros I. destruct (first_exists _ f r I) as (pre & g & q & post & E & K & F).
  destruct (lookup_complete g q) as (d & D & _).
  { exists pre, post. split; [exact E|]. intros. rewrite K. apply (F _ _ H). }
  exists d. rewrite lookup_key in *. rewrite <- K. exact D.
Qed.

Lemma other_file : exists f r d, In (f, r) (mentions files) /\ lookup_ref device_new f r = Some d /\
  ~ device_matches f r d.
Proof.
  pose (P := fun p => match lookup_ref device_new (fst p) (snd p) with
    | Some d => negb (String.eqb (d_product d) (j_label (fst p))) | None => false end).
  assert (X : existsb P (mentions files) = true) by (vm_cast_no_check (eq_refl true)).
  apply existsb_exists in X. destruct X as ((f, r) & I & X). unfold P in X. cbn [fst snd] in X.
  destruct (lookup_ref device_new f r) as [d|] eqn:D; [|discriminate].
  exists f, r, d. split; [exact I|]. split; [exact D|]. intros (_ & L & _).
  rewrite L, String.eqb_refl in X. discriminate.
Qed.

Lemma id_denotes_value s b : id_denotes s b -> b = match go_byte s with Some x => x | None => x00 end.
Proof.
  intros D. apply id_value in D. unfold text_unless_empty in D.
  destruct (String.eqb_spec s "") as [->|N]; [injection D as <-; reflexivity|]. rewrite D. reflexivity.
Qed.
Lemma later_endpoint : exists f r d e c b, only_mention files f r /\ lookup_ref device_new f r = Some d /\
  In e (j_endpoints f) /\ In c e /\ id_denotes (jc_id c) b /\ ~ In b (map cc_id (d_classes d)).
Proof.
  pose (bad := fun (d : device) c => idb (jc_id c) &&
     negb (existsb (Byte.eqb (match go_byte (jc_id c) with Some x => x | None => x00 end)) (map cc_id (d_classes d)))).
  pose (same := fun (a b : jfile * (string * string)) => String.eqb (full_id (fst a) (snd a)) (full_id (fst b) (snd b))).
  pose (P := fun p => match lookup_ref device_new (fst p) (snd p) with
    | Some d => existsb (existsb (bad d)) (j_endpoints (fst p)) &&
                (List.length (filter (same p) (mentions files)) =? 1)%nat
    | None => false end).
  assert (X : existsb P (mentions files) = true) by (vm_cast_no_check (eq_refl true)).
  apply existsb_exists in X. destruct X as ((f, r) & I & X). unfold P in X. cbn [fst snd] in X.
  destruct (lookup_ref device_new f r) as [d|] eqn:D; [|discriminate].
  apply andb_prop in X. destruct X as [X O]. apply Nat.eqb_eq in O.
  apply existsb_exists in X. destruct X as (e & E & X). apply existsb_exists in X. destruct X as (c & C & X).
  unfold bad in X. apply andb_prop in X. destruct X as [X N]. destruct (idb_spec _ X) as [b B].
  exists f, r, d, e, c, b. split.
  - split; [exact I|]. intros g q G K.
    assert (A1 : In (f, r) (filter (same (f, r)) (mentions files)))
      by (apply filter_In; split; [exact I|apply String.eqb_refl]).
    assert (A2 : In (g, q) (filter (same (f, r)) (mentions files)))
      by (apply filter_In; split; [exact G|apply String.eqb_eq; symmetry; exact K]).
    destruct (filter (same (f, r)) (mentions files)) as [|x [|y l]]; try discriminate.
    destruct A1 as [A1|[]], A2 as [A2|[]]. congruence.
  - do 4 (split; [assumption|]). rewrite <- (id_denotes_value _ _ B) in N. apply negb_true_iff in N.
    intros Z. assert (Y : existsb (Byte.eqb b) (map cc_id (d_classes d)) = true).
    { apply existsb_exists. exists b. split; [exact Z|]. apply Byte.byte_dec_lb. reflexivity. }
    congruence.
Qed.
Lemma id_denotes_inj s b b' : id_denotes s b -> id_denotes s b' -> b = b'.
Proof. intros A B. rewrite (id_denotes_value _ _ A), (id_denotes_value _ _ B). reflexivity. Qed.
Lemma one_endpoint f r d c b : only_mention files f r -> lookup_ref device_new f r = Some d ->
  List.length (j_endpoints f) = 1%nat -> lists_class f c -> id_denotes (jc_id c) b ->
  In b (map cc_id (d_classes d)).
Proof.
  intros O D L (e & E & C) B. destruct (lookup_only f r O) as (d' & D' & M). rewrite D in D'. injection D' as <-.
  destruct M as (_ & _ & _ & _ & _ & _ & F). destruct (j_endpoints f) as [|e' [|]]; try discriminate.
  destruct E as [<-|[]]. destruct (Forall2_in_l _ _ _ _ F C) as (k & K & (I & _)).
  rewrite (id_denotes_inj _ _ _ B I). apply in_map. exact K.
Qed.
Lemma escape_refuted : exists s, go_literal (escape s) <> Some s.
Proof. exists nul. rewrite literal_escape. discriminate. Qed.
Definition two_cases : list jfile := [mkJF "Lamp" "Brand" "0081" ["00a0:0001"; "00A0:0001"] "" []].
Lemma case_refuted : exists fs,
  (forall f r, In (f, r) (mentions fs) ->
     source_text (j_manufacturer_name f) /\ source_text (j_label f) /\ source_text (j_decription f) /\
     alnum (j_manufacturer_id f) /\ alnum (fst r) /\ alnum (snd r) /\ j_endpoints f = []) /\
  go_build (generator [] fs) = None.
Proof.
  exists two_cases. split; [|reflexivity]. intros f r I. apply mentions_in in I.
  destruct I as ([<-|[]] & s & S & ->).
  destruct (texts_fine (mkJF "Lamp" "Brand" "0081" ["00a0:0001"; "00A0:0001"] "" []) s eq_refl S)
    as (A & B & C & D & E & F & _).
  do 6 (split; [assumption|]). reflexivity.
Qed.
