(** The text of a report shows what the report says (C109, C110). *)
From Verif Require Import ModelBase ModelReports ModelText SpecFrame SpecReports SpecText ProofBase ProofReports.
From Coq Require Import Floats.SpecFloat ZifyBool ZifyNat ZifyN.
Ltac Zify.zify_post_hook ::= Z.div_mod_to_equations.
Local Open Scope string_scope.

Lemma Ok_inj {A} (x y : A) : Ok x = Ok y -> x = y.
Proof. intros H. now injection H. Qed.

Fixpoint spaceless (s : string) : bool :=
  match s with "" => true | String c r => negb (Ascii.eqb c " ") && spaceless r end.

Lemma app_nil_s s : s ++ "" = s.
Proof. induction s as [|c s IH]; [reflexivity|]. cbn. now rewrite IH. Qed.
Lemma app_assoc_s (a b c : string) : (a ++ b) ++ c = a ++ (b ++ c).
Proof. induction a as [|x a IH]; [reflexivity|]. cbn. now rewrite IH. Qed.

Lemma word_end v : spaceless v = true -> word v = v.
Proof.
  induction v as [|c v IH]; [reflexivity|]. cbn. destruct (Ascii.eqb c " "); [discriminate|].
  cbn. intros H. now rewrite IH.
Qed.
Lemma word_space v r : spaceless v = true -> word (v ++ String " " r) = v.
Proof.
  induction v as [|c v IH]; [reflexivity|]. cbn. destruct (Ascii.eqb c " "); [discriminate|].
  cbn. intros H. now rewrite IH.
Qed.
Lemma after_skip k v r : spaceless v = true -> after (String " " k) (v ++ r) = after (String " " k) r.
Proof.
  induction v as [|c v IH]; [reflexivity|]. cbn [spaceless append after strip]. intros H.
  apply andb_prop in H. destruct H as [H1 H2]. rewrite Ascii.eqb_sym.
  destruct (Ascii.eqb c " "); [discriminate|]. now apply IH.
Qed.
Lemma after_none k v : spaceless v = true -> after (String " " k) v = None.
Proof. intros H. rewrite <- (app_nil_s v), after_skip by exact H. reflexivity. Qed.

Lemma spaceless_app a b : spaceless a = true -> spaceless b = true -> spaceless (a ++ b) = true.
Proof.
  induction a as [|c a IH]; [tauto|]. cbn. intros H Hb. apply andb_prop in H. destruct H as [-> H].
  cbn. now apply IH.
Qed.

Lemma hex_byte_ok b : spaceless (hex_byte b) = true /\ String.eqb (hex_byte b) "" = false /\
  hex_value (hex_byte b) = Some (Byte.to_N b).
Proof. destruct b; vm_compute; auto. Qed.
Lemma itoa_byte b : spaceless (itoa (b2N b)) = true /\ dec_value (itoa (b2N b)) = Some (Byte.to_N b).
Proof. destruct b; vm_compute; auto. Qed.

(** Finds a field: literal characters are compared, values are skipped. *)
Ltac seek :=
  repeat (first
    [ progress cbn [append after strip Ascii.eqb Bool.eqb]
    | rewrite after_skip by assumption
    | rewrite after_none by assumption ]).

Lemma alarm_text_long t l s st ty ev rest r :
  reports_new x71 x05 (t :: l :: s :: st :: ty :: ev :: rest) = Ok r ->
  hex_field "type" (report_text r) = Some (Byte.to_N t) /\
  hex_field "level" (report_text r) = Some (Byte.to_N l) /\
  hex_field "sensorSrcID" (report_text r) = Some (Byte.to_N s) /\
  hex_field "status" (report_text r) = Some (Byte.to_N st) /\
  hex_field "sensorType" (report_text r) = Some (Byte.to_N ty) /\
  hex_field "event" (report_text r) = Some (Byte.to_N ev).
Proof.
  rewrite alarm_long. intros H. apply Ok_inj in H. subst r.
  unfold report_text. replace (6 <=? List.length (t :: l :: s :: st :: ty :: ev :: rest))%nat with true
    by (symmetry; apply Nat.leb_le; cbn [List.length]; lia).
  destruct (hex_byte_ok t) as [T1 [T2 T3]]. destruct (hex_byte_ok l) as [L1 [L2 L3]].
  destruct (hex_byte_ok s) as [S1 [S2 S3]]. destruct (hex_byte_ok st) as [U1 [U2 U3]].
  destruct (hex_byte_ok ty) as [Y1 [Y2 Y3]]. destruct (hex_byte_ok ev) as [E1 [E2 E3]].
  generalize dependent (hex_byte t). intros vt T1 T2 T3.
  generalize dependent (hex_byte l). intros vl L1 L2 L3.
  generalize dependent (hex_byte s). intros vs S1 S2 S3.
  generalize dependent (hex_byte st). intros vu U1 U2 U3.
  generalize dependent (hex_byte ty). intros vy Y1 Y2 Y3.
  generalize dependent (hex_byte ev). intros ve E1 E2 E3.
  unfold hex_field, field, rest_of.
  repeat split; seek; cbn [option_map];
    first [rewrite word_space by assumption|rewrite word_end by assumption];
    match goal with |- (if ?b then _ else _) = _ => replace b with false by (symmetry; assumption) end; assumption.
Qed.

Lemma alarm_text_short t l rest r :
  (List.length rest < 4)%nat ->
  reports_new x71 x05 (t :: l :: rest) = Ok r ->
  hex_field "type" (report_text r) = Some (Byte.to_N t) /\
  hex_field "level" (report_text r) = Some (Byte.to_N l) /\
  field "sensorSrcID" (report_text r) = None /\ field "status" (report_text r) = None /\
  field "sensorType" (report_text r) = None /\ field "event" (report_text r) = None.
Proof.
  intros Hl. rewrite alarm_short by exact Hl. intros H. apply Ok_inj in H. subst r.
  unfold report_text. replace (6 <=? List.length (t :: l :: rest))%nat with false
    by (symmetry; apply Nat.leb_gt; cbn [List.length]; lia).
  destruct (hex_byte_ok t) as [T1 [T2 T3]]. destruct (hex_byte_ok l) as [L1 [L2 L3]].
  generalize dependent (hex_byte t). intros vt T1 T2 T3.
  generalize dependent (hex_byte l). intros vl L1 L2 L3.
  unfold hex_field, field, rest_of.
  repeat split; seek; cbn [option_map]; try reflexivity;
    first [rewrite word_space by assumption|rewrite word_end by assumption];
    match goal with |- (if ?b then _ else _) = _ => replace b with false by (symmetry; assumption) end; assumption.
Qed.

Lemma hex4_spaceless n : spaceless (hex4 n) = true /\ String.eqb (hex4 n) "" = false.
Proof.
  assert (D : forall n, Ascii.eqb (hexdigit n) " " = false).
  { intros k. unfold hexdigit. repeat (match goal with |- context [match ?x with _ => _ end] => destruct x end; try reflexivity). }
  unfold hex4. cbn [spaceless]. rewrite !D. auto.
Qed.

Lemma product_text a b c d e f r :
  reports_new x72 x05 [a; b; c; d; e; f] = Ok r ->
  hex_field "manufacturer" (report_text r) = Some (256 * Byte.to_N a + Byte.to_N b)%N /\
  hex_field "type" (report_text r) = Some (256 * Byte.to_N c + Byte.to_N d)%N /\
  hex_field "id" (report_text r) = Some (256 * Byte.to_N e + Byte.to_N f)%N.
Proof.
  destruct (manufacturer_spec a b c d e f) as [m [t [i [E [_ [Hm [Ht Hi]]]]]]].
  assert (E' := E). unfold reports_new, new_manufacturer in E'. injection E' as <- <- <-.
  rewrite E. intros H. apply Ok_inj in H. subst r. unfold report_text.
  destruct (hex4_spaceless (be16 a b)) as [M1 M2]. destruct (hex4_spaceless (be16 c d)) as [T1 T2].
  destruct (hex4_spaceless (be16 e f)) as [I1 I2]. clear E.
  generalize dependent (hex4 (be16 a b)). intros vm M3 M1 M2.
  generalize dependent (hex4 (be16 c d)). intros vt T3 T1 T2.
  generalize dependent (hex4 (be16 e f)). intros vi I3 I1 I2.
  unfold hex_field, field, rest_of.
  repeat split; seek; cbn [option_map];
    first [rewrite word_space by assumption|rewrite word_end by assumption];
    match goal with |- (if ?b then _ else _) = _ => replace b with false by (symmetry; assumption) end; assumption.
Qed.

Lemma bool_spaceless b : spaceless (bool_text b) = true.
Proof. now destruct b. Qed.

Lemma endpoints_text a b rest r :
  reports_new x60 x08 (a :: b :: rest) = Ok r ->
  field "dynamic" (report_text r) = Some (truth (bit a 7)) /\
  field "identical" (report_text r) = Some (truth (bit a 6)) /\
  exists n, field "endpoints" (report_text r) = Some n /\ dec_value n = Some (Byte.to_N b).
Proof.
  rewrite endpoints_spec. intros H. apply Ok_inj in H. subst r. unfold report_text.
  pose proof (bool_spaceless (bit a 7)) as A1. pose proof (bool_spaceless (bit a 6)) as B1.
  change (truth (bit a 7)) with (bool_text (bit a 7)). change (truth (bit a 6)) with (bool_text (bit a 6)).
  destruct (itoa_byte b) as [N1 N2]. fold (b2N b) in *.
  generalize dependent (bool_text (bit a 7)). intros va A1.
  generalize dependent (bool_text (bit a 6)). intros vb B1.
  generalize dependent (itoa (b2N b)). intros vn N1 N2.
  unfold field, rest_of.
  split; [|split; [|exists vn; split; [|exact N2]]]; seek; cbn [option_map];
    first [rewrite word_space by assumption|rewrite word_end by assumption]; reflexivity.
Qed.

(** ** Switches *)
Lemma duration_text d : duration_shown d (duration_string d).
Proof. destruct d; vm_compute; reflexivity. Qed.

Definition level_text (b : byte) : string :=
  if negb (negb (Byte.to_N b =? 254)%N) then "unknown" else float_text (f64_of_Z (Z.of_N (N.min (Byte.to_N b) 100))).
Lemma level_ok b : spaceless (level_text b) = true /\ level_shown b (level_text b).
Proof. destruct b; vm_compute; split; reflexivity. Qed.

Lemma binary1_text b r :
  Byte.to_N b <> 254%N ->
  reports_new x25 x03 [b] = Ok r ->
  exists v, field "current" (report_text r) = Some v /\ switch_shown b v.
Proof.
  intros Hb. rewrite switch_binary1_spec. intros H. apply Ok_inj in H. subst r.
  exists (bool_text (Byte.to_N b =? 255)%N). unfold report_text, field, rest_of.
  split.
  - pose proof (bool_spaceless (Byte.to_N b =? 255)%N) as A.
    generalize dependent (bool_text (Byte.to_N b =? 255)%N). intros v A.
    seek. cbn [option_map]. rewrite word_end by assumption. reflexivity.
  - unfold switch_shown, bool_text. destruct (N.eqb_spec (Byte.to_N b) 254); [contradiction|reflexivity].
Qed.
Lemma binary1_unknown_shown : exists r, reports_new x25 x03 [xfe] = Ok r /\
  report_text r = "current:false" /\
  ~ (exists v, field "current" (report_text r) = Some v /\ switch_shown xfe v).
Proof.
  eexists. split; [reflexivity|]. split; [reflexivity|].
  intros [v [E H]]. vm_compute in E. injection E as <-. vm_compute in H. discriminate.
Qed.

Lemma binary2_text c t d r :
  reports_new x25 x03 [c; t; d] = Ok r ->
  field "current" (report_text r) = Some (truth (negb (Byte.to_N c =? 0)%N)) /\
  field "target" (report_text r) = Some (truth (negb (Byte.to_N t =? 0)%N)) /\
  exists v, rest_of "duration" (report_text r) = Some v /\ duration_shown d v.
Proof.
  rewrite switch_binary2_spec. intros H. apply Ok_inj in H. subst r. unfold report_text.
  pose proof (duration_text d) as D.
  set (x := negb (Byte.to_N c =? 0)%N). set (y := negb (Byte.to_N t =? 0)%N).
  change (truth x) with (bool_text x). change (truth y) with (bool_text y).
  pose proof (bool_spaceless x) as A. pose proof (bool_spaceless y) as B.
  generalize dependent (bool_text x). intros vx A.
  generalize dependent (bool_text y). intros vy B.
  generalize dependent (duration_string d). intros vd D.
  unfold field, rest_of.
  split; [|split; [|exists vd; split; [|exact D]]]; seek; cbn [option_map]; try reflexivity;
    rewrite word_space by assumption; reflexivity.
Qed.

Lemma multi1_text b r :
  reports_new x26 x03 [b] = Ok r ->
  exists v, field "current" (report_text r) = Some v /\ level_shown b v.
Proof.
  rewrite switch_multi1_spec. intros H. apply Ok_inj in H. subst r. destruct (level_ok b) as [A L].
  exists (level_text b). split; [|exact L].
  replace (report_text _) with ("current:" ++ level_text b).
  - unfold field, rest_of. generalize dependent (level_text b). intros v A _.
    seek. cbn [option_map]. rewrite word_end by assumption. reflexivity.
  - unfold report_text, level_text. destruct (negb (negb (Byte.to_N b =? 254)%N)); reflexivity.
Qed.

Lemma multi4_text c t d r :
  reports_new x26 x03 [c; t; d] = Ok r ->
  (exists v, field "current" (report_text r) = Some v /\ level_shown c v) /\
  (exists v, field "target" (report_text r) = Some v /\ level_shown t v) /\
  (exists v, rest_of "duration" (report_text r) = Some v /\ duration_shown d v).
Proof.
  rewrite switch_multi4_spec. intros H. apply Ok_inj in H. subst r.
  destruct (level_ok c) as [C1 C2]. destruct (level_ok t) as [T1 T2]. pose proof (duration_text d) as D.
  replace (report_text _) with
    ("current:" ++ level_text c ++ " target:" ++ level_text t ++ " duration:" ++ duration_string d).
  - generalize dependent (level_text c). intros vc C1 C2.
    generalize dependent (level_text t). intros vt T1 T2.
    generalize dependent (duration_string d). intros vd D.
    unfold field, rest_of.
    split; [exists vc; split; [|exact C2]|split; [exists vt; split; [|exact T2]|exists vd; split; [|exact D]]];
      seek; cbn [option_map]; try reflexivity; rewrite word_space by assumption; reflexivity.
  - unfold report_text, level_text. cbv zeta.
    destruct (negb (negb (Byte.to_N c =? 254)%N)), (negb (negb (Byte.to_N t =? 254)%N));
      cbn [append]; rewrite ?app_assoc_s; reflexivity.
Qed.

(** ** Sensors: type and unit *)
Definition scales : list byte := [x00; x01; x02; x03].
Definition kinds : list (byte * byte) := list_prod all_bytes scales.
Definition kind_text (k : byte * byte) : string := sensor_type (fst k) ++ " " ++ sensor_unit (fst k) (snd k).
Lemma kinds_differ :
  (let t := map (fun k => (kind_text k, (fst k, sensor_unit (fst k) (snd k)))) kinds in
   forallb (fun a => forallb (fun b =>
     implb (String.eqb (fst a) (fst b))
           (beq (fst (snd a)) (fst (snd b)) && String.eqb (snd (snd a)) (snd (snd b)))) t) t) = true.
Proof. vm_compute. reflexivity. Qed.

Lemma split_word a b r s : spaceless a = true -> spaceless b = true ->
  a ++ String " " r = b ++ String " " s -> a = b /\ r = s.
Proof.
  revert b. induction a as [|x a IH]; intros [|y b]; cbn [spaceless append]; intros Ha Hb E.
  - injection E as ->. auto.
  - injection E as <- _. discriminate.
  - injection E as -> _. discriminate.
  - apply andb_prop in Ha. apply andb_prop in Hb. injection E as -> E.
    destruct (IH b (proj2 Ha) (proj2 Hb) E) as [-> ->]. auto.
Qed.

Lemma scale_small h : In (shr8 (and8 h x18) 3) scales.
Proof.
  assert (H : existsb (beq (shr8 (and8 h x18) 3)) scales = true) by (destruct h; vm_compute; reflexivity).
  apply existsb_exists in H. destruct H as [x [Hx E]]. apply beq_true in E. now rewrite E.
Qed.

Lemma kind_shown v1 s1 v2 s2 : In s1 scales -> In s2 scales ->
  kind_text (v1, s1) = kind_text (v2, s2) -> v1 = v2 /\ sensor_unit v1 s1 = sensor_unit v2 s2.
Proof.
  intros H1 H2 E. pose proof kinds_differ as K. cbv zeta in K. rewrite forallb_forall in K.
  assert (A : In (kind_text (v1, s1), (v1, sensor_unit v1 s1))
                 (map (fun k => (kind_text k, (fst k, sensor_unit (fst k) (snd k)))) kinds)).
  { apply in_map_iff. exists (v1, s1). split; [reflexivity|].
    apply in_prod; [apply all_bytes_complete|exact H1]. }
  assert (B : In (kind_text (v2, s2), (v2, sensor_unit v2 s2))
                 (map (fun k => (kind_text k, (fst k, sensor_unit (fst k) (snd k)))) kinds)).
  { apply in_map_iff. exists (v2, s2). split; [reflexivity|].
    apply in_prod; [apply all_bytes_complete|exact H2]. }
  specialize (K _ A). rewrite forallb_forall in K. specialize (K _ B). cbn [fst snd] in K.
  rewrite E, String.eqb_refl in K. cbn [implb] in K. apply andb_prop in K. destruct K as [K1 K2].
  apply beq_true in K1. apply String.eqb_eq in K2. auto.
Qed.
