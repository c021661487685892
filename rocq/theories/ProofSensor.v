(** The value of a multilevel sensor report (C16). *)
From Verif Require Import ModelBase ModelReports SpecFrame SpecReports SpecFloat64
  ProofBase ProofReports ProofFloat.
From Coq Require Import Reals Floats.SpecFloat ZifyBool ZifyNat ZifyN Lra.
From Flocq Require Import Core BinarySingleNaN.
Ltac Zify.zify_post_hook ::= Z.div_mod_to_equations.

Lemma sensor_value vt h body z :
  let size := (Byte.to_N h mod 8)%N in
  let prec := (Byte.to_N h / 32)%N in
  In size [1; 2; 4]%N -> (N.to_nat size <= List.length body)%nat ->
  twos_complement (firstn (N.to_nat size) body) z ->
  exists sz sc pr v ts un,
    reports_new x31 x05 (vt :: h :: body) = Ok (RSensor vt sz sc pr v ts un) /\
    Byte.to_N sz = size /\ Byte.to_N sc = (Byte.to_N h / 8 mod 4)%N /\ Byte.to_N pr = prec /\
    is_double v /\
    double_value v = round radix2 (SpecFloat.fexp 53 1024) ZnearestE (IZR z / IZR (10 ^ Z.of_N prec)) /\
    nearest_double v (IZR z / IZR (10 ^ Z.of_N prec)).
Proof.
  intros size prec Hs Hl Htc. unfold size, prec in *. clear size prec.
  fold (b2N h) in *. pose proof (size_field h) as Hsz. rewrite <- Hsz in *.
  destruct (sensor_fields vt h body) as [v [E Hv]].
  { unfold b2n. fold (b2N (and8 h x07)). lia. }
  do 6 eexists. split; [exact E|].
  split; [reflexivity|]. split; [apply scale_field|]. split; [apply precision_field|].
  set (sz := b2N (and8 h x07)) in *.
  set (p := (b2N h / 32)%N) in *.
  assert (Hp : (p < 8)%N) by (unfold p; pose proof (b2N_lt h); lia).
  set (bytes := firstn (N.to_nat sz) body) in *.
  assert (Hlen : List.length bytes = N.to_nat sz) by (unfold bytes; rewrite firstn_length; lia).
  assert (Hne : bytes <> []).
  { intros En. rewrite En in Hlen. cbn in Hs, Hlen. lia. }
  assert (Hz : z = be_signed bytes).
  { eapply twos_complement_unique; [exact Hne|exact Htc|now apply be_signed_spec]. }
  assert (Hzb : (Z.abs z < 2 ^ 53)%Z).
  { destruct Htc as [Hb _]. rewrite Hlen in Hb.
    assert (2 ^ (8 * Z.of_nat (N.to_nat sz) - 1) <= 2 ^ 31)%Z.
    { apply Z.pow_le_mono_r; [lia|]. cbn in Hs. lia. }
    assert (2 ^ 31 < 2 ^ 53)%Z by (vm_compute; reflexivity). lia. }
  assert (Hv' : v = if (0 <? p)%N then f64_div (f64_of_Z z) (f64_pow10 p) else f64_of_Z z).
  { cbv zeta in Hv. rewrite !beq_num in Hv. fold sz in Hv.
    change (b2N x01) with 1%N in Hv. change (b2N x02) with 2%N in Hv. change (b2N x04) with 4%N in Hv.
    rewrite Hz. rewrite Hv. unfold bytes.
    cbn in Hs. destruct Hs as [Hs|[Hs|[Hs|[]]]]; rewrite <- Hs; reflexivity. }
  clear Hv. subst v.
  assert (Hround : valid_binary 53 1024 (if (0 <? p)%N then f64_div (f64_of_Z z) (f64_pow10 p) else f64_of_Z z) = true
     /\ is_finite_SF (if (0 <? p)%N then f64_div (f64_of_Z z) (f64_pow10 p) else f64_of_Z z) = true
     /\ double_value (if (0 <? p)%N then f64_div (f64_of_Z z) (f64_pow10 p) else f64_of_Z z)
       = round radix2 (SpecFloat.fexp 53 1024) ZnearestE (IZR z / IZR (10 ^ Z.of_N p))).
  { destruct (N.ltb_spec 0 p) as [H0|H0].
    - apply div_int_correct; [exact Hzb|].
      split.
      + assert (0 < 10 ^ Z.of_N p)%Z by (apply Z.pow_pos_nonneg; lia). lia.
      + apply Z.le_lt_trans with (10 ^ 7)%Z; [apply Z.pow_le_mono_r; lia|vm_compute; reflexivity].
    - assert (p = 0%N) by lia. subst p. rewrite H in *.
      destruct (of_Z_exact z Hzb) as [H1 [H2 H3]]. split; [exact H1|]. split; [exact H2|].
      cbn [Z.of_N Z.pow]. unfold Rdiv. rewrite Rinv_1, Rmult_1_r.
      rewrite double_value_SF2R. unfold f64_of_Z, f64_prec, f64_emax. rewrite H3. symmetry. apply round_generic; [apply valid_rnd_N|].
      rewrite <- H3, <- double_value_SF2R. apply is_double_format. split; [exact H1|].
      match goal with |- match ?x with _ => _ end => destruct x; cbn in H2; try discriminate; exact I end. }
  destruct Hround as [R1 [R2 R3]].
  pose proof (round_nearest_double _ _ R1 R2 R3) as Hn.
  split; [exact (proj1 Hn)|]. split; [exact R3|exact Hn].
Qed.
