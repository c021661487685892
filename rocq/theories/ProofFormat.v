(** The exact decimal expansion of a double reads back (Flocq). *)
From Coq Require Import ZArith Reals Floats.SpecFloat Lia Lra.
From Flocq Require Import Core BinarySingleNaN.
From Verif Require Import ModelBase ModelJson SpecJson SpecFloat64 ModelConfig SpecConfig ProofJson ProofConfig ProofFloat.

Local Instance Hprec : FLX.Prec_gt_0 53 := eq_refl _.
Local Instance Hmax : Prec_lt_emax 53 1024 := eq_refl _.

Lemma same_double x y : valid_binary 53 1024 x = true -> valid_binary 53 1024 y = true ->
  is_finite_SF x = true -> is_finite_SF y = true -> SF2R radix2 x = SF2R radix2 y -> sign_SF x = sign_SF y -> x = y.
Proof.
  intros Vx Vy Fx Fy E S.
  rewrite <- (B2SF_SF2B 53 1024 x Vx), <- (B2SF_SF2B 53 1024 y Vy). f_equal.
  apply B2R_Bsign_inj.
  - rewrite is_finite_SF2B. exact Fx.
  - rewrite is_finite_SF2B. exact Fy.
  - rewrite !B2R_SF2B. exact E.
  - rewrite !Bsign_SF2B. exact S.
Qed.

Lemma double_small s m e : valid_binary 53 1024 (S754_finite s m e) = true ->
  generic_format radix2 fmt (SF2R radix2 (S754_finite s m e)) /\
  (Rabs (SF2R radix2 (S754_finite s m e)) < bpow radix2 1024)%R.
Proof.
  intros V. rewrite <- (B2SF_SF2B 53 1024 _ V), SF2R_B2SF.
  split; [apply generic_format_B2R|apply abs_B2R_lt_emax].
Qed.

Lemma whole_exact s m e p : valid_binary 53 1024 (S754_finite s m e) = true -> (0 <= e)%Z ->
  Zpos p = (Zpos m * 2 ^ e)%Z ->
  SpecFloat.binary_normalize 53 1024 (if s then - Zpos p else Zpos p)%Z 0 s = S754_finite s m e.
Proof.
  intros V E P. destruct (double_small s m e V) as [G L].
  assert (Q : F2R (Float radix2 (cond_Zopp s (Zpos p)) 0) = SF2R radix2 (S754_finite s m e)).
  { cbn [SF2R]. unfold F2R. cbn [Fnum Fexp]. change (bpow radix2 0) with 1%R. rewrite Rmult_1_r.
    rewrite <- IZR_Zpower by exact E. rewrite <- mult_IZR. f_equal. rewrite P. change (radix2 ^ e)%Z with (2 ^ e)%Z. destruct s; cbn [cond_Zopp]; lia. }
  pose proof (binary_round_correct 53 1024 Hprec Hmax mode_NE s p 0) as H. cbv zeta in H.
  rewrite Q, round_generic in H by (try apply valid_rnd_round_mode; exact G).
  rewrite Rlt_bool_true in H by exact L. destruct H as (Hv & H1 & H2 & H3).
  assert (B : SpecFloat.binary_normalize 53 1024 (if s then - Zpos p else Zpos p)%Z 0 s = BinarySingleNaN.binary_round 53 1024 mode_NE s p 0).
  { destruct s; cbn [Z.opp SpecFloat.binary_normalize]; apply round_equiv. }
  rewrite B. apply same_double; auto.
Qed.

Lemma ratio_exact s m k p : valid_binary 53 1024 (S754_finite s m (Zneg k)) = true ->
  Zpos p = (Zpos m * 5 ^ Zpos k)%Z ->
  SFdiv 53 1024 (S754_finite s p 0) (S754_finite false (pow10 (Npos k)) 0) = S754_finite s m (Zneg k).
Proof.
  intros V P. destruct (double_small s m _ V) as [G L].
  pose proof (Bdiv_correct_aux 53 1024 Hprec Hmax mode_NE s p 0 false (pow10 (Npos k)) 0) as H. cbv zeta in H.
  cbn [SFdiv]. destruct (SFdiv_core_binary 53 1024 (Z.pos p) 0 (Z.pos (pow10 (Npos k))) 0) as [[mz ez] lz].
  rewrite round_aux_equiv.
  assert (Q : (F2R (Float radix2 (cond_Zopp s (Zpos p)) 0) / F2R (Float radix2 (cond_Zopp false (Zpos (pow10 (Npos k)))) 0))%R
    = SF2R radix2 (S754_finite s m (Zneg k))).
  { cbn [SF2R]. unfold F2R. cbn [Fnum Fexp]. change (bpow radix2 0) with 1%R. rewrite !Rmult_1_r.
    cbn [cond_Zopp pow10]. rewrite Pos2Z.inj_pow.
    assert (T : IZR (10 ^ Zpos k) = (IZR (5 ^ Zpos k) * IZR (2 ^ Zpos k))%R).
    { rewrite <- mult_IZR, <- Z.pow_mul_l. reflexivity. }
    rewrite T. assert (B : bpow radix2 (Zneg k) = (/ IZR (2 ^ Zpos k))%R).
    { change (Zneg k) with (- Zpos k)%Z. rewrite bpow_opp. rewrite <- IZR_Zpower by lia. reflexivity. }
    rewrite B. assert (N5 : IZR (5 ^ Zpos k) <> 0%R) by (apply not_0_IZR; lia).
    assert (N2 : IZR (2 ^ Zpos k) <> 0%R) by (apply not_0_IZR; lia).
    assert (C : cond_Zopp s (Zpos p) = (cond_Zopp s (Zpos m) * 5 ^ Zpos k)%Z) by (destruct s; cbn [cond_Zopp]; lia).
    rewrite C, mult_IZR. field. auto. }
  rewrite Q in H. destruct H as (Hv & H).
  rewrite round_generic in H by (try apply valid_rnd_round_mode; exact G).
  rewrite Rlt_bool_true in H by exact L. destruct H as (H1 & H2 & H3).
  apply same_double; auto. rewrite H3. now destruct s.
Qed.

(** The texts. *)
Lemma digits_stop s b r : all_digits s -> is_digit b = false -> digits (s ++ b :: r) = (s, b :: r).
Proof.
  induction s as [|c s IH]; intros D B; cbn [app digits]; [rewrite B; reflexivity|].
  rewrite (D c) by now left. rewrite IH; [reflexivity| |exact B]. intros x X. apply D. now right.
Qed.
Lemma print_N_digits n : all_digits (print_N n).
Proof. destruct (print_N_spec n) as (ds & -> & _ & B & _). exact B. Qed.
Lemma print_N_head n : exists b r, print_N n = b :: r /\ is_digit b = true.
Proof.
  destruct (print_N_spec n) as (ds & -> & A & B & _). destruct ds as [|b r]; [congruence|].
  exists b, r. split; [reflexivity|]. apply B. now left.
Qed.
Lemma print_N_int_stop n b r : is_digit b = false -> n <> 0%N -> p_int (print_N n ++ b :: r) = Some (print_N n, b :: r).
Proof.
  intros B NZ. destruct (print_N_spec n) as (ds & -> & A & D & _ & F & _). specialize (F NZ). destruct ds as [|c ds]; [congruence|].
  pose proof (digits_stop (c :: ds) b r D B) as E. cbn [p_int app]. rewrite F, (D c) by now left.
  change (c :: ds ++ b :: r) with ((c :: ds) ++ b :: r). rewrite E. reflexivity.
Qed.
Definition sg (s : bool) : text := if s then [x2d] else [].
Lemma sign_strip s n r : strip [x2d] (sg s ++ print_N n ++ r) = if s then Some (print_N n ++ r) else None.
Proof.
  destruct s; cbn [sg app strip]; [rewrite beq_refl; reflexivity|].
  destruct (print_N_head n) as (b & t & -> & D). cbn [app strip]. destruct (digit_not_minus b D) as (-> & _). reflexivity.
Qed.

Lemma exact_literal f : literal (exact_format f).
Proof.
  assert (Z0 : forall s, literal (sg s ++ [x30])) by (intros []; reflexivity).
  assert (W : forall s n, literal (sg s ++ print_N n)).
  { intros s n. unfold literal, p_num. pose proof (sign_strip s n []) as SS. rewrite app_nil_r in SS. rewrite SS.
    destruct s; cbn [sg app]; rewrite print_N_int; cbn; rewrite app_nil_r; reflexivity. }
  destruct f as [s|s| |s m e]; [apply (Z0 s)|apply (Z0 false)|apply (Z0 false)|]. cbn [exact_format].
  destruct e as [|p|k]; [apply (W s)|apply (W s)|]. set (n := (Npos m * 5 ^ Npos k)%N).
  assert (NZ : n <> 0%N) by (unfold n; apply N.neq_mul_0; split; [discriminate|apply N.pow_nonzero; discriminate]).
  unfold literal, p_num. fold (sg s). rewrite sign_strip. cbn [app].
  assert (X : p_exp (x65 :: x2d :: print_N (Npos k)) = Some (x65 :: x2d :: print_N (Npos k), [])).
  { cbn [p_exp]. rewrite beq_refl. cbn [orb]. rewrite (eq_refl : beq x2d x2b = false), beq_refl. cbn [orb].
    rewrite all_digits_digits by apply print_N_digits. destruct (print_N_head (Npos k)) as (b & t & -> & _). reflexivity. }
  destruct s; cbn [sg app]; rewrite print_N_int_stop by (try reflexivity; exact NZ);
    rewrite (eq_refl : p_frac (x65 :: x2d :: print_N (Npos k)) = Some ([], x65 :: x2d :: print_N (Npos k))), X; reflexivity.
Qed.

Lemma parse_float_whole s n : parse_float (sg s ++ print_N n) =
  match decimal s (Z.of_N n) 0 with S754_infinity _ | S754_nan => None | f => Some f end.
Proof.
  unfold parse_float. pose proof (sign_strip s n []) as SS. rewrite app_nil_r in SS. rewrite SS.
  assert (D : digits (print_N n) = (print_N n, [])) by apply all_digits_digits, print_N_digits.
  destruct s; cbn [sg app]; rewrite D; cbn [strip]; rewrite app_nil_r, parse_nat_print; reflexivity.
Qed.
Lemma parse_float_ratio s n k : parse_float (sg s ++ print_N n ++ [x65; x2d] ++ print_N (Npos k)) =
  match decimal s (Z.of_N n) (Zneg k) with S754_infinity _ | S754_nan => None | f => Some f end.
Proof.
  unfold parse_float. rewrite sign_strip. cbn [app].
  assert (D : digits (print_N n ++ x65 :: x2d :: print_N (Npos k)) = (print_N n, x65 :: x2d :: print_N (Npos k)))
    by (apply digits_stop; [apply print_N_digits|reflexivity]).
  assert (P : parse_Z (x2d :: print_N (Npos k)) = Some (Zneg k)).
  { pose proof (parse_Z_print (Zneg k)) as H. exact H. }
  destruct s; cbn [sg app]; rewrite D; rewrite (eq_refl : strip [x2e] (x65 :: x2d :: print_N (Npos k)) = None);
    rewrite (eq_refl : strip [x2b] (x2d :: print_N (Npos k)) = None), P, app_nil_r, parse_nat_print; reflexivity.
Qed.

Lemma exact_reads f : is_double f -> parse_float (exact_format f) = Some f.
Proof.
  intros [V F]. destruct f as [s|s| |s m e]; try contradiction; [destruct s; reflexivity|]. cbn [exact_format]. fold (sg s).
  destruct e as [|p|k].
  - rewrite parse_float_whole. cbn [Z.to_N N.pow]. rewrite N.mul_1_r. cbn [Z.of_N decimal].
    change (10 ^ 0)%Z with 1%Z. rewrite Z.mul_1_r. rewrite (whole_exact s m 0 m V); [reflexivity|lia|lia].
  - rewrite parse_float_whole.
    assert (E : exists q, Z.of_N (Npos m * 2 ^ Z.to_N (Zpos p)) = Zpos q).
    { destruct (Z.of_N (Npos m * 2 ^ Z.to_N (Zpos p))) eqn:E; [|eauto|]; exfalso.
      - assert (0 < Npos m * 2 ^ Z.to_N (Zpos p))%N; [|lia]. apply N.mul_pos_pos; [lia|].
        pose proof (N.pow_nonzero 2 (Z.to_N (Zpos p))). lia.
      - lia. }
    destruct E as (q & E). rewrite E. cbn [decimal]. change (10 ^ 0)%Z with 1%Z. rewrite Z.mul_1_r.
    rewrite (whole_exact s m (Zpos p) q V); [reflexivity|lia|].
    rewrite <- E, N2Z.inj_mul, N2Z.inj_pow. reflexivity.
  - rewrite parse_float_ratio.
    assert (E : exists q, Z.of_N (Npos m * 5 ^ Npos k) = Zpos q).
    { destruct (Z.of_N (Npos m * 5 ^ Npos k)) eqn:E; [|eauto|]; exfalso.
      - assert (0 < Npos m * 5 ^ Npos k)%N; [|lia]. apply N.mul_pos_pos; [lia|].
        pose proof (N.pow_nonzero 5 (Npos k)). lia.
      - lia. }
    destruct E as (q & E). rewrite E. cbn [decimal].
    rewrite (ratio_exact s m k q V); [reflexivity|]. rewrite <- E, N2Z.inj_mul, N2Z.inj_pow. reflexivity.
Qed.
Lemma exact_faithful f : is_double f -> faithful exact_format f.
Proof. intros D. split; [apply exact_literal|now apply exact_reads]. Qed.
