(** The text of a sensor report (C111). *)
From Verif Require Import ModelBase ModelReports ModelText SpecFrame SpecReports SpecText SpecFloat64
  ProofBase ProofReports ProofFloat ProofSensor ProofText.
From Coq Require Import Reals Floats.SpecFloat ZifyBool ZifyNat ZifyN Lra DecimalString DecimalN Decimal.
From Flocq Require Import Core BinarySingleNaN.
Ltac Zify.zify_post_hook ::= Z.div_mod_to_equations.

(** ** Decimal text *)
Fixpoint uval (acc : N) (d : Decimal.uint) : N :=
  match d with
  | Nil => acc
  | D0 d => uval (10 * acc) d
  | D1 d => uval (10 * acc + 1) d
  | D2 d => uval (10 * acc + 2) d
  | D3 d => uval (10 * acc + 3) d
  | D4 d => uval (10 * acc + 4) d
  | D5 d => uval (10 * acc + 5) d
  | D6 d => uval (10 * acc + 6) d
  | D7 d => uval (10 * acc + 7) d
  | D8 d => uval (10 * acc + 8) d
  | D9 d => uval (10 * acc + 9) d
  end.
Lemma uval_pos d : forall p, uval (Npos p) d = Npos (Pos.of_uint_acc d p).
Proof.
  induction d; intros p; cbn [uval Pos.of_uint_acc]; [reflexivity|..]; rewrite <- IHd; f_equal; lia.
Qed.
Lemma uval_of d : uval 0 d = N.of_uint d.
Proof.
  unfold N.of_uint. induction d; cbn [uval Pos.of_uint]; [reflexivity|exact IHd|..];
    cbn [N.mul N.add]; apply uval_pos.
Qed.
Lemma digits_uint d r : forall acc,
  (forall n, digits n r = (n, r)) ->
  digits acc (NilEmpty.string_of_uint d ++ r) = (uval acc d, r).
Proof.
  induction d; intros acc H; cbn [NilEmpty.string_of_uint append uval]; [apply H|..];
    cbn [digits]; cbn -[digits uval N.mul N.add N.sub append NilEmpty.string_of_uint];
    rewrite IHd by exact H; (apply (f_equal (fun x => (uval x d, r)))); lia.
Qed.
Lemma digits_itoa n r : (forall k, digits k r = (k, r)) -> digits 0 (itoa n ++ r) = (n, r).
Proof.
  intros H. unfold itoa. rewrite digits_uint by exact H. rewrite uval_of.
  now rewrite DecimalN.Unsigned.of_to.
Qed.

Lemma digit_code n : N_of_ascii (digit n) = (48 + n mod 10)%N.
Proof. unfold digit. apply N_ascii_embedding. lia. Qed.
Lemma digit_reads acc n r : digits acc (String (digit n) r) = digits (10 * acc + n mod 10) r.
Proof.
  cbn [digits]. rewrite digit_code. cbv zeta.
  replace ((48 <=? 48 + n mod 10)%N && (48 + n mod 10 <=? 57)%N) with true by lia.
  f_equal. lia.
Qed.
Lemma six_value n : (n < 1000000)%N -> dec_value (six_digits n) = Some n.
Proof.
  intros H. unfold dec_value. unfold six_digits at 1.
  unfold six_digits. rewrite !digit_reads. cbn [digits]. f_equal.
  assert (E2 : (n / 100 = n / 10 / 10)%N) by (rewrite N.div_div by lia; reflexivity).
  assert (E3 : (n / 1000 = n / 10 / 10 / 10)%N) by (rewrite !N.div_div by lia; reflexivity).
  assert (E4 : (n / 10000 = n / 10 / 10 / 10 / 10)%N) by (rewrite !N.div_div by lia; reflexivity).
  assert (E5 : (n / 100000 = n / 10 / 10 / 10 / 10 / 10)%N) by (rewrite !N.div_div by lia; reflexivity).
  assert (B : (n / 100000 < 10)%N) by (apply N.div_lt_upper_bound; lia).
  rewrite E5 in *. rewrite E4, E3, E2. clear E2 E3 E4 E5 H.
  pose proof (N.div_mod n 10 ltac:(discriminate)) as D1. set (a := (n / 10)%N) in *.
  pose proof (N.div_mod a 10 ltac:(discriminate)) as D2. set (b := (a / 10)%N) in *.
  pose proof (N.div_mod b 10 ltac:(discriminate)) as D3. set (c := (b / 10)%N) in *.
  pose proof (N.div_mod c 10 ltac:(discriminate)) as D4. set (d := (c / 10)%N) in *.
  pose proof (N.div_mod d 10 ltac:(discriminate)) as D5. set (e := (d / 10)%N) in *.
  rewrite (N.mod_small e 10) by exact B.
  set (ra := (n mod 10)%N) in *. set (rb := (a mod 10)%N) in *. set (rc := (b mod 10)%N) in *.
  set (rd := (c mod 10)%N) in *. set (re := (d mod 10)%N) in *.
  clearbody ra rb rc rd re e d c b a. lia.
Qed.
Lemma digit_not_space n : Ascii.eqb (digit n) " " = false.
Proof.
  destruct (Ascii.eqb_spec (digit n) " ") as [E|E]; [|reflexivity].
  pose proof (digit_code n) as H. rewrite E in H. change (N_of_ascii " ") with 32%N in H. lia.
Qed.
Lemma six_spaceless n : spaceless (six_digits n) = true.
Proof. unfold six_digits. cbn [spaceless]. now rewrite !digit_not_space. Qed.
Lemma itoa_spaceless n : spaceless (itoa n) = true.
Proof. unfold itoa. induction (N.to_uint n); cbn; auto. Qed.

Lemma read_abs_ok k : read_abs (itoa (k / 1000000) ++ "." ++ six_digits (k mod 1000000)) = Some k.
Proof.
  unfold read_abs. rewrite digits_itoa by reflexivity. cbn [append].
  change (String.length (six_digits (k mod 1000000)) =? 6)%nat with true. cbv iota.
  rewrite six_value by lia. cbn [option_map]. f_equal. lia.
Qed.
Lemma itoa_not_minus n : match itoa n with String "-" _ => False | _ => True end.
Proof. unfold itoa. now destruct (N.to_uint n). Qed.

Definition signed (s : bool) (k : Z) : Z := if s then (- k)%Z else k.
Lemma read_finite s m e : (0 <= millionths m e)%Z ->
  read_millionths (float_text (S754_finite s m e)) = Some (signed s (millionths m e)).
Proof.
  intros H. unfold float_text. cbv zeta. set (k := Z.to_N (millionths m e)).
  assert (Hk : millionths m e = Z.of_N k) by (unfold k; lia). rewrite Hk.
  destruct s; cbn [sign_text append].
  - unfold read_millionths. rewrite read_abs_ok. reflexivity.
  - pose proof (itoa_not_minus (k / 1000000)) as M. pose proof (read_abs_ok k) as A.
    cbn [append] in A.
    remember (itoa (k / 1000000) ++ String "." (six_digits (k mod 1000000)))%string as t eqn:Et.
    assert (M' : match t with String "-" _ => False | _ => True end).
    { rewrite Et. destruct (itoa (k / 1000000)) as [|c u]; [exact I|].
      cbn [append]. destruct c as [[] [] [] [] [] [] [] []]; try exact I; exact M. }
    clear -A M'. unfold read_millionths.
    destruct t as [|c u]; [discriminate A|].
    destruct c as [[] [] [] [] [] [] [] []]; try contradiction; exact (f_equal (option_map Z.of_N) A).
Qed.
Lemma float_spaceless x : spaceless (float_text x) = true.
Proof.
  destruct x as [s|s| |s m e]; try (destruct s; reflexivity); try reflexivity.
  unfold float_text. cbv zeta.
  apply spaceless_app; [now destruct s|]. apply spaceless_app; [apply itoa_spaceless|].
  apply spaceless_app; [reflexivity|apply six_spaceless].
Qed.

(** ** Rounding to millionths *)
Lemma millionths_near m e :
  (0 <= millionths m e)%Z /\
  (Rabs (IZR (millionths m e) - IZR (Zpos m) * powerRZ 2 e * 1000000) <= 1 / 2)%R.
Proof.
  unfold millionths. destruct (Z.leb_spec 0 e) as [H|H].
  - split; [assert (0 <= 2 ^ e)%Z by (apply Z.pow_nonneg; lia); nia|].
    rewrite !mult_IZR. replace (powerRZ 2 e) with (IZR (2 ^ e)).
    + replace (_ - _)%R with 0%R by ring. rewrite Rabs_R0. lra.
    + rewrite <- (Z2Nat.id e) by exact H. rewrite <- pow_IZR, <- pow_powerRZ. reflexivity.
  - set (n := (Zpos m * 1000000)%Z). set (d := (2 ^ (- e))%Z).
    assert (Hd : (0 < d)%Z) by (apply Z.pow_pos_nonneg; lia).
    assert (E : (IZR (Zpos m) * powerRZ 2 e * 1000000 = IZR n / IZR d)%R).
    { unfold n, d. rewrite mult_IZR. replace (IZR (2 ^ (- e))) with (powerRZ 2 (- e)).
      - rewrite powerRZ_neg'. field. apply powerRZ_NOR. lra.
      - rewrite <- (Z2Nat.id (- e)) by lia. rewrite <- pow_IZR, <- pow_powerRZ. reflexivity. }
    rewrite E. pose proof (Z.div_mod n d ltac:(lia)) as D. pose proof (Z.mod_pos_bound n d Hd) as B.
    assert (Hn : (0 <= n)%Z) by (unfold n; lia). pose proof (Z.div_pos n d Hn Hd) as P.
    set (q := (n / d)%Z) in *. set (r := (n mod d)%Z) in *.
    assert (Dp : (0 < IZR d)%R) by (apply IZR_lt; exact Hd).
    assert (G : forall k : Z, (Z.abs (2 * (k * d - n)) <= d)%Z -> (Rabs (IZR k - IZR n / IZR d) <= 1 / 2)%R).
    { intros k Hk. apply IZR_le in Hk. rewrite abs_IZR, mult_IZR, minus_IZR, mult_IZR in Hk.
      replace (IZR k - IZR n / IZR d)%R with ((2 * (IZR k * IZR d - IZR n)) / (2 * IZR d))%R by (field; lra).
      unfold Rdiv at 1. rewrite Rabs_mult, (Rabs_right (/ (2 * IZR d))).
      - apply Rmult_le_reg_r with (2 * IZR d)%R; [lra|]. rewrite Rmult_assoc, Rinv_l by lra. lra.
      - apply Rle_ge, Rlt_le, Rinv_0_lt_compat. lra. }
    destruct (Z.ltb_spec (2 * r) d) as [H1|H1]; [split; [lia|apply G; nia]|].
    destruct (Z.ltb_spec d (2 * r)) as [H2|H2]; [split; [lia|apply G; nia]|].
    destruct (Z.even q); (split; [lia|apply G; nia]).
Qed.

Lemma float_reads x : is_double x ->
  exists k, read_millionths (float_text x) = Some k /\
    (Rabs (IZR k - double_value x * 1000000) <= 1 / 2)%R.
Proof.
  intros [_ H]. destruct x as [s|s| |s m e]; try contradiction.
  - exists 0%Z. split; [now destruct s|]. cbn [double_value]. rewrite Rmult_0_l, Rminus_0_r, Rabs_R0. lra.
  - destruct (millionths_near m e) as [A B]. exists (signed s (millionths m e)).
    split; [now apply read_finite|]. cbn [double_value]. destruct s; cbn [signed]; [|exact B].
    rewrite opp_IZR. change (Zneg m) with (- Zpos m)%Z. rewrite opp_IZR.
    rewrite <- Rabs_Ropp. replace (- _)%R with (IZR (millionths m e) - IZR (Zpos m) * powerRZ 2 e * 1000000)%R by ring.
    exact B.
Qed.

(** ** The error of the division *)
Local Instance Hprec' : FLX.Prec_gt_0 53 := eq_refl _.
Local Instance vexp : Valid_exp fmt := fexp_correct 53 1024 Hprec'.
Local Instance mexp : Monotone_exp fmt.
Proof. change fmt with (FLT_exp (3 - 1024 - 53) 53). apply FLT_exp_monotone. Qed.

Lemma round_error q k : (0 <= k <= 100)%Z -> (Rabs q <= bpow radix2 k)%R ->
  (Rabs (round radix2 fmt ZnearestE q - q) <= bpow radix2 (k - 53))%R.
Proof.
  intros Hk Hq. eapply Rle_trans; [apply error_le_half_ulp; exact vexp|].
  assert (U : (ulp radix2 fmt q <= ulp radix2 fmt (bpow radix2 k))%R).
  { apply ulp_le; [exact vexp|exact mexp|]. rewrite (Rabs_right (bpow radix2 k)); [exact Hq|].
    apply Rle_ge, bpow_ge_0. }
  rewrite ulp_bpow in U. replace (fmt (k + 1)) with (k - 53 + 1)%Z in U.
  - rewrite bpow_plus in U. change (bpow radix2 1) with 2%R in U. lra.
  - unfold fmt, SpecFloat.emin. lia.
Qed.

Lemma sensor_text vt h body z r :
  let size := (Byte.to_N h mod 8)%N in
  let prec := (Byte.to_N h / 32)%N in
  In size [1; 2; 4]%N -> (N.to_nat size <= List.length body)%nat ->
  twos_complement (firstn (N.to_nat size) body) z ->
  reports_new x31 x05 (vt :: h :: body) = Ok r ->
  exists k, read_millionths (word (report_text r)) = Some k /\
    (2 * Z.abs (k * 10 ^ Z.of_N prec - z * 1000000) <= 10 ^ Z.of_N prec)%Z.
Proof.
  intros size prec Hs Hl Htc E.
  destruct (sensor_value vt h body z Hs Hl Htc) as [sz [sc [pr [v [ts [un [E' [_ [_ [_ [Hd [Hv _]]]]]]]]]]]].
  fold size prec in Hv. rewrite E in E'. apply Ok_inj in E'. subst r. unfold report_text.
  cbn [append]. rewrite word_space by apply float_spaceless.
  destruct (float_reads v Hd) as [k [Hk He]]. exists k. split; [exact Hk|].
  rewrite Hv in He. clear Hk Hv Hd E.
  assert (Hz : (Z.abs z <= 2 ^ 31)%Z).
  { destruct Htc as [B _].
    assert (L : List.length (firstn (N.to_nat size) body) = N.to_nat size) by (rewrite firstn_length; lia).
    rewrite L in B.
    assert (2 ^ (8 * Z.of_nat (N.to_nat size) - 1) <= 2 ^ 31)%Z.
    { apply Z.pow_le_mono_r; [lia|]. cbn in Hs. lia. }
    lia. }
  assert (Hp : (prec < 8)%N) by (unfold prec; pose proof (b2N_lt h) as X; unfold b2N in X; lia).
  clearbody prec. clear Htc Hl Hs size.
  set (q := (IZR z / IZR (10 ^ Z.of_N prec))%R) in *.
  assert (Hz' : (Rabs (IZR z) <= IZR (2 ^ 31))%R) by (rewrite <- abs_IZR; now apply IZR_le).
  (* exact for six decimals, and at most half a unit off for seven *)
  destruct (N.ltb_spec prec 7) as [H6|H7].
  - assert (P1 : (1 <= IZR (10 ^ Z.of_N prec))%R).
    { apply IZR_le. assert (0 < 10 ^ Z.of_N prec)%Z by (apply Z.pow_pos_nonneg; lia). lia. }
    assert (Hq : (Rabs q <= bpow radix2 31)%R).
    { unfold q, Rdiv. rewrite Rabs_mult, Rabs_inv, (Rabs_right (IZR (10 ^ _))) by lra.
      change (bpow radix2 31) with (IZR (2 ^ 31)).
      apply Rle_trans with (Rabs (IZR z) * 1)%R; [|lra].
      apply Rmult_le_compat_l; [apply Rabs_pos|]. rewrite <- Rinv_1. apply Rinv_le_contravar; lra. }
    pose proof (round_error q 31 ltac:(lia) Hq) as HR. change (31 - 53)%Z with (-22)%Z in HR.
    change (bpow radix2 (-22)) with (/ 4194304)%R in HR.
    set (x := round radix2 fmt ZnearestE q) in *.
    assert (X : (Rabs (IZR k - q * 1000000) < 1)%R).
    { replace (IZR k - q * 1000000)%R with ((IZR k - x * 1000000) + (x - q) * 1000000)%R by ring.
      eapply Rle_lt_trans; [apply Rabs_triang|]. rewrite Rabs_mult, (Rabs_right 1000000) by lra. lra. }
    assert (W : (10 ^ Z.of_N prec * 10 ^ (6 - Z.of_N prec) = 1000000)%Z).
    { rewrite <- Z.pow_add_r by lia. replace (Z.of_N prec + (6 - Z.of_N prec))%Z with 6%Z by lia. reflexivity. }
    assert (Q : (q * 1000000 = IZR (z * 10 ^ (6 - Z.of_N prec)))%R).
    { unfold q. rewrite <- W. rewrite !mult_IZR. field. lra. }
    rewrite Q, <- minus_IZR, <- abs_IZR in X. apply lt_IZR in X.
    assert (k = z * 10 ^ (6 - Z.of_N prec))%Z by lia. subst k.
    replace (z * 10 ^ (6 - Z.of_N prec) * 10 ^ Z.of_N prec)%Z with (z * 1000000)%Z by (rewrite <- W; ring).
    replace (z * 1000000 - z * 1000000)%Z with 0%Z by ring. cbn [Z.abs Z.mul].
    apply Z.pow_nonneg. lia.
  - assert (prec = 7%N) by lia. subst prec. change (10 ^ Z.of_N 7)%Z with 10000000%Z in *.
    assert (Hq : (Rabs q <= bpow radix2 8)%R).
    { unfold q, Rdiv. rewrite Rabs_mult, Rabs_inv, (Rabs_right (IZR 10000000)) by lra.
      change (bpow radix2 8) with 256%R. change (2 ^ 31)%Z with 2147483648%Z in Hz'. lra. }
    pose proof (round_error q 8 ltac:(lia) Hq) as HR. change (8 - 53)%Z with (-45)%Z in HR.
    assert (HR' : (bpow radix2 (-45) <= / 4194304 / 1024)%R).
    { replace (/ 4194304 / 1024)%R with (bpow radix2 (-32)).
      - apply bpow_le. lia.
      - cbn. lra. }
    set (x := round radix2 fmt ZnearestE q) in *.
    assert (X : (Rabs (IZR k - q * 1000000) < 6 / 10)%R).
    { replace (IZR k - q * 1000000)%R with ((IZR k - x * 1000000) + (x - q) * 1000000)%R by ring.
      eapply Rle_lt_trans; [apply Rabs_triang|]. rewrite Rabs_mult, (Rabs_right 1000000) by lra. lra. }
    assert (Y : (Rabs (IZR (10 * k - z)) < 6)%R).
    { replace (IZR (10 * k - z)) with (10 * (IZR k - q * 1000000))%R.
      - rewrite Rabs_mult, (Rabs_right 10) by lra. lra.
      - rewrite minus_IZR, mult_IZR. unfold q. field. }
    rewrite <- abs_IZR in Y. apply lt_IZR in Y. lia.
Qed.

Lemma sensor_text_exact vt h body z r :
  let size := (Byte.to_N h mod 8)%N in
  let prec := (Byte.to_N h / 32)%N in
  In size [1; 2; 4]%N -> (N.to_nat size <= List.length body)%nat -> (prec <= 6)%N ->
  twos_complement (firstn (N.to_nat size) body) z ->
  reports_new x31 x05 (vt :: h :: body) = Ok r ->
  exists k, read_millionths (word (report_text r)) = Some k /\
    (k * 10 ^ Z.of_N prec = z * 1000000)%Z.
Proof.
  intros size prec Hs Hl Hp Htc E.
  destruct (sensor_text vt h body z r Hs Hl Htc E) as [k [Hk B]]. fold prec in B.
  exists k. split; [exact Hk|].
  assert (W : (10 ^ Z.of_N prec * 10 ^ (6 - Z.of_N prec) = 1000000)%Z).
  { rewrite <- Z.pow_add_r by lia. replace (Z.of_N prec + (6 - Z.of_N prec))%Z with 6%Z by lia. reflexivity. }
  assert (0 < 10 ^ Z.of_N prec)%Z by (apply Z.pow_pos_nonneg; lia).
  assert (G : forall a b k z c, (0 < a -> a * b = c -> 2 * Z.abs (k * a - z * c) <= a -> k * a = z * c)%Z).
  { clear. intros a b k z c Ha <- B. replace (k * a - z * (a * b))%Z with ((k - z * b) * a)%Z in B by ring.
    rewrite Z.abs_mul, (Z.abs_eq a) in B by lia.
    assert (Z.abs (k - z * b) < 1)%Z by (set (w := Z.abs (k - z * b)) in *; assert (0 <= w)%Z by apply Z.abs_nonneg; clearbody w; nia).
    assert (k = z * b)%Z by lia. subst k. ring. }
  now apply (G _ _ _ _ _ H W).
Qed.

(** ** Type and unit *)
Lemma sensor_kind d1 d2 v1 z1 c1 p1 x1 t1 u1 v2 z2 c2 p2 x2 t2 u2 :
  reports_new x31 x05 d1 = Ok (RSensor v1 z1 c1 p1 x1 t1 u1) ->
  reports_new x31 x05 d2 = Ok (RSensor v2 z2 c2 p2 x2 t2 u2) ->
  report_text (RSensor v1 z1 c1 p1 x1 t1 u1) = report_text (RSensor v2 z2 c2 p2 x2 t2 u2) ->
  v1 = v2 /\ t1 = t2 /\ u1 = u2.
Proof.
  assert (G : forall d v z c p x t u, reports_new x31 x05 d = Ok (RSensor v z c p x t u) ->
    t = sensor_type v /\ u = sensor_unit v c /\ In c scales).
  { intros d v z c p x t u. cbn [reports_new]. unfold new_sensor.
    destruct (List.length d <? 2)%nat; [discriminate|].
    destruct (idx d 0) as [v'| |]; cbn [bind]; try discriminate.
    destruct (idx d 1) as [h| |]; cbn [bind]; try discriminate.
    match goal with |- context [if ?b then Fail _ else _] => destruct b; [discriminate|] end.
    intros E. apply Ok_inj in E. cbv zeta in E. injection E as <- _ <- _ _ <- <-.
    split; [reflexivity|]. split; [reflexivity|apply scale_small]. }
  intros E1 E2 E. destruct (G _ _ _ _ _ _ _ _ E1) as [T1 [U1 S1]]. destruct (G _ _ _ _ _ _ _ _ E2) as [T2 [U2 S2]].
  cbn [report_text append] in E.
  apply split_word in E; [|apply float_spaceless|apply float_spaceless]. destruct E as [EF EK].
  rewrite T1, U1, T2, U2 in EK.
  destruct (kind_shown v1 c1 v2 c2 S1 S2 EK) as [-> EU].
  rewrite T1, T2, U1, U2. auto.
Qed.
