(** Correctness of the float computation of sensor values (Flocq). *)
From Coq Require Import ZArith Reals Floats.SpecFloat Lia Lra Psatz.
From Flocq Require Import Core BinarySingleNaN.
From Verif Require Import SpecFloat64.

Local Instance Hprec : FLX.Prec_gt_0 53 := eq_refl _.
Local Instance Hmax : Prec_lt_emax 53 1024 := eq_refl _.

Notation fmt := (SpecFloat.fexp 53 1024).

Lemma round_ne_equiv s m l :
  SpecFloat.round_nearest_even m l = choice_mode mode_NE s m l.
Proof.
  destruct l as [|c]; [reflexivity|]. destruct c; try reflexivity.
  cbn. unfold Round.cond_incr. now destruct (Z.even m).
Qed.

Lemma round_aux_equiv sx mx ex lx :
  SpecFloat.binary_round_aux 53 1024 sx mx ex lx
  = BinarySingleNaN.binary_round_aux 53 1024 mode_NE sx mx ex lx.
Proof.
  unfold SpecFloat.binary_round_aux, BinarySingleNaN.binary_round_aux.
  destruct (shr_fexp 53 1024 mx ex lx) as [mrs e]. now rewrite (round_ne_equiv sx).
Qed.

Lemma round_equiv s m e :
  SpecFloat.binary_round 53 1024 s m e = BinarySingleNaN.binary_round 53 1024 mode_NE s m e.
Proof.
  unfold SpecFloat.binary_round, BinarySingleNaN.binary_round, shl_align_fexp.
  destruct (shl_align m e _) as [mz ez]. apply round_aux_equiv.
Qed.

Lemma double_value_SF2R x : double_value x = SF2R radix2 x.
Proof.
  destruct x as [s|s| |s m e]; try reflexivity.
  cbn [double_value SF2R]. unfold F2R. cbn [Fnum Fexp]. rewrite bpow_powerRZ.
  destruct s; reflexivity.
Qed.

Lemma is_double_format x : is_double x -> generic_format radix2 fmt (double_value x).
Proof.
  intros [Hv _]. rewrite double_value_SF2R.
  rewrite <- (B2SF_SF2B 53 1024 x Hv) at 1. rewrite SF2R_B2SF. apply generic_format_B2R.
Qed.

Lemma round_nearest_double x q :
  valid_binary 53 1024 x = true -> is_finite_SF x = true ->
  double_value x = round radix2 fmt ZnearestE q ->
  nearest_double x q.
Proof.
  intros Hv Hf Hx. split.
  - split; [exact Hv|]. destruct x; cbn in Hf; try discriminate; exact I.
  - intros y Hy. rewrite Hx.
    assert (Hr : Rnd_N_pt (generic_format radix2 fmt) q (round radix2 fmt ZnearestE q)).
    { apply round_N_pt. apply fexp_correct. exact Hprec. }
    apply Hr. now apply is_double_format.
Qed.

(** Small integers are exact. *)
Lemma of_Z_exact z :
  (Z.abs z < 2 ^ 53)%Z ->
  let x := SpecFloat.binary_normalize 53 1024 z 0 false in
  valid_binary 53 1024 x = true /\ is_finite_SF x = true /\ SF2R radix2 x = IZR z.
Proof.
  intros Hz x.
  assert (Hfmt : generic_format radix2 fmt (IZR z)).
  { replace (IZR z) with (F2R (Float radix2 z 0)) by (unfold F2R; cbn; ring).
    change fmt with (FLT_exp (3 - 1024 - 53) 53).
    apply generic_format_FLT. exists (Float radix2 z 0).
    - reflexivity.
    - cbn [Fnum]. change (radix2 ^ 53)%Z with (2 ^ 53)%Z. lia.
    - cbn. lia. }
  assert (Hlt : (Rabs (IZR z) < bpow radix2 1024)%R).
  { apply Rle_lt_trans with (bpow radix2 53).
    - rewrite <- abs_IZR. change (bpow radix2 53) with (IZR (2 ^ 53)). apply IZR_le; lia.
    - apply bpow_lt. lia. }
  unfold x. destruct z as [|p|p]; cbn [SpecFloat.binary_normalize].
  - repeat split; reflexivity.
  - rewrite round_equiv.
    pose proof (binary_round_correct 53 1024 Hprec Hmax mode_NE false p 0) as H. cbv zeta in H.
    destruct H as [Hv H]. split; [exact Hv|].
    replace (F2R (Float radix2 (cond_Zopp false (Zpos p)) 0)) with (IZR (Zpos p)) in H
      by (unfold F2R; cbn; ring).
    rewrite round_generic in H; [|apply valid_rnd_round_mode|exact Hfmt].
    rewrite Rlt_bool_true in H by exact Hlt. tauto.
  - rewrite round_equiv.
    pose proof (binary_round_correct 53 1024 Hprec Hmax mode_NE true p 0) as H. cbv zeta in H.
    destruct H as [Hv H]. split; [exact Hv|].
    replace (F2R (Float radix2 (cond_Zopp true (Zpos p)) 0)) with (IZR (Zneg p)) in H
      by (unfold F2R; cbn; ring).
    rewrite round_generic in H; [|apply valid_rnd_round_mode|exact Hfmt].
    rewrite Rlt_bool_true in H by exact Hlt. tauto.
Qed.

(** Division of finite doubles is correctly rounded unless it overflows. *)
Lemma div_correct x y :
  valid_binary 53 1024 x = true -> is_finite_SF x = true ->
  valid_binary 53 1024 y = true -> is_finite_SF y = true -> SF2R radix2 y <> 0%R ->
  (Rabs (SF2R radix2 x / SF2R radix2 y) <= bpow radix2 1000)%R ->
  let z := SFdiv 53 1024 x y in
  valid_binary 53 1024 z = true /\ is_finite_SF z = true /\
  SF2R radix2 z = round radix2 fmt ZnearestE (SF2R radix2 x / SF2R radix2 y).
Proof.
  intros Hvx Hfx Hvy Hfy Hy Hq z. unfold z.
  destruct y as [sy|sy| |sy my ey]; try discriminate; try (cbn in Hy; lra).
  destruct x as [sx|sx| |sx mx ex]; try discriminate.
  - cbn. split; [reflexivity|]. split; [reflexivity|].
    unfold Rdiv. rewrite Rmult_0_l, round_0; [reflexivity|apply valid_rnd_N].
  - cbn [SFdiv].
    pose proof (Bdiv_correct_aux 53 1024 Hprec Hmax mode_NE sx mx ex sy my ey) as H. cbv zeta in H.
    destruct (SFdiv_core_binary 53 1024 (Z.pos mx) ex (Z.pos my) ey) as [[mz ez] lz].
    rewrite round_aux_equiv. destruct H as [Hv H]. split; [exact Hv|].
    change (F2R (Float radix2 (cond_Zopp sx (Zpos mx)) ex)) with (SF2R radix2 (S754_finite sx mx ex)) in H.
    change (F2R (Float radix2 (cond_Zopp sy (Zpos my)) ey)) with (SF2R radix2 (S754_finite sy my ey)) in H.
    rewrite Rlt_bool_true in H; [tauto|].
    apply Rle_lt_trans with (bpow radix2 1000); [|apply bpow_lt; lia].
    apply abs_round_le_generic; [apply fexp_correct; exact Hprec|apply valid_rnd_round_mode| |exact Hq].
    apply generic_format_bpow. cbn. lia.
Qed.

Lemma div_int_correct z w :
  (Z.abs z < 2 ^ 53)%Z -> (1 <= w < 2 ^ 53)%Z ->
  let x := SFdiv 53 1024 (SpecFloat.binary_normalize 53 1024 z 0 false)
                         (SpecFloat.binary_normalize 53 1024 w 0 false) in
  valid_binary 53 1024 x = true /\ is_finite_SF x = true /\
  double_value x = round radix2 fmt ZnearestE (IZR z / IZR w).
Proof.
  intros Hz Hw x.
  destruct (of_Z_exact z Hz) as [Hvz [Hfz Hxz]].
  destruct (of_Z_exact w) as [Hvw [Hfw Hxw]]; [lia|].
  rewrite double_value_SF2R. unfold x. rewrite <- Hxz, <- Hxw at 1.
  assert (Hw1 : (1 <= IZR w)%R) by (apply IZR_le; lia).
  apply div_correct; try assumption.
  - rewrite Hxw. lra.
  - rewrite Hxz, Hxw. unfold Rdiv. rewrite Rabs_mult.
    apply Rle_trans with (bpow radix2 53 * 1)%R.
    + apply Rmult_le_compat; try apply Rabs_pos.
      * rewrite <- abs_IZR. change (bpow radix2 53) with (IZR (2 ^ 53)). apply IZR_le; lia.
      * rewrite Rabs_inv, Rabs_pos_eq by lra.
        rewrite <- Rinv_1. apply Rinv_le; lra.
    + rewrite Rmult_1_r. apply bpow_le. lia.
Qed.
