(** Proofs about the encoders and about commands sent to nodes. *)
From Verif Require Import ModelBase ModelReports ModelSerial ModelCommands ModelNodes
  SpecFrame SpecReports SpecFloat64 SpecCommands SpecNodes ProofBase ProofSerial ProofReports ProofFloat.
From Coq Require Import Reals Floats.SpecFloat Lra ZifyBool ZifyNat ZifyN.
From Flocq Require Import Core BinarySingleNaN.
Ltac Zify.zify_post_hook ::= Z.div_mod_to_equations.
Close Scope R_scope.

Lemma Z2b_low z : low_byte z (Z2b z).
Proof.
  unfold low_byte, Z2b. change (Byte.to_N (N2b (Z.to_N (z mod 256)))) with (b2N (N2b (Z.to_N (z mod 256)))).
  rewrite b2N_N2b. pose proof (Z.mod_pos_bound z 256). lia.
Qed.

Lemma low_byte_unique z a b : low_byte z a -> low_byte z b -> a = b.
Proof. unfold low_byte. intros H1 H2. apply b2N_inj. unfold b2N. lia. Qed.

Lemma Z2b_small z : (0 <= z < 256)%Z -> Byte.to_N (Z2b z) = Z.to_N z.
Proof. intros H. pose proof (Z2b_low z) as L. unfold low_byte in L. rewrite Z.mod_small in L by lia. lia. Qed.

(** *** float64 comparison *)
Lemma SFltb_correct x y : is_double x -> is_double y ->
  SFltb x y = Rlt_bool (double_value x) (double_value y).
Proof.
  intros [Hvx Hfx] [Hvy Hfy].
  pose proof (Bltb_correct 53 1024 (SF2B x Hvx) (SF2B y Hvy)) as H.
  unfold Bltb in H. rewrite !B2SF_SF2B in H. rewrite !B2R_SF2B in H.
  rewrite !double_value_SF2R. apply H.
  - rewrite is_finite_SF2B. now destruct x.
  - rewrite is_finite_SF2B. now destruct y.
Qed.

Lemma f64_int z : (Z.abs z < 2 ^ 53)%Z -> is_double (f64_of_Z z) /\ double_value (f64_of_Z z) = IZR z.
Proof.
  intros H. destruct (of_Z_exact z H) as [Hv [Hf Hr]]. unfold f64_of_Z, f64_prec, f64_emax.
  rewrite double_value_SF2R. split; [|exact Hr]. split; [exact Hv|].
  destruct (SpecFloat.binary_normalize 53 1024 z 0 false); cbn in Hf; try discriminate; exact I.
Qed.

Lemma f64_trunc_floor v : is_double v -> (0 <= double_value v)%R ->
  exists z, f64_trunc v = Some z /\ (IZR z <= double_value v < IZR z + 1)%R.
Proof.
  intros [_ Hf] H0. destruct v as [s|s| |s m e]; try contradiction.
  - exists 0%Z. split; [reflexivity|]. cbn. lra.
  - assert (Hs : s = false).
    { destruct s; [|reflexivity]. exfalso. cbn [double_value] in H0.
      assert (0 < powerRZ 2 e)%R by (apply powerRZ_lt; lra).
      assert (IZR (Z.neg m) < 0)%R by (apply IZR_lt; lia). nra. }
    subst s. cbn [f64_trunc double_value].
    destruct e as [|k|k].
    + eexists. split; [reflexivity|]. cbn [powerRZ]. lra.
    + eexists. split; [reflexivity|]. rewrite mult_IZR.
      change (2 ^ Z.pos k)%Z with (radix2 ^ Z.pos k)%Z. rewrite IZR_Zpower by lia.
      rewrite bpow_powerRZ. change (IZR radix2) with 2%R. lra.
    + eexists. split; [reflexivity|].
      assert (Hp : (IZR (2 ^ Z.pos k) * powerRZ 2 (Z.neg k) = 1)%R).
      { change (2 ^ Z.pos k)%Z with (radix2 ^ Z.pos k)%Z. rewrite IZR_Zpower by lia.
        rewrite bpow_powerRZ. change (IZR radix2) with 2%R.
        rewrite <- powerRZ_add by lra. replace (Z.pos k + Z.neg k)%Z with 0%Z by lia. reflexivity. }
      assert (Hpos : (0 < powerRZ 2 (Z.neg k))%R) by (apply powerRZ_lt; lra).
      assert (Hz : (0 < 2 ^ Z.pos k)%Z) by (apply Z.pow_pos_nonneg; lia).
      pose proof (Z.div_mod (Z.pos m) (2 ^ Z.pos k) ltac:(lia)) as Hd.
      pose proof (Z.mod_pos_bound (Z.pos m) (2 ^ Z.pos k) Hz) as Hm.
      remember (Z.pos m / 2 ^ Z.pos k)%Z as q. remember (2 ^ Z.pos k)%Z as w.
      assert (H1 : (IZR w * IZR q <= IZR (Z.pos m))%R) by (rewrite <- mult_IZR; apply IZR_le; lia).
      assert (H2 : (IZR (Z.pos m) < IZR w * (IZR q + 1))%R).
      { rewrite <- plus_IZR, <- mult_IZR. apply IZR_lt. lia. }
      split.
      * replace (IZR q) with ((IZR w * IZR q) * powerRZ 2 (Z.neg k))%R.
        -- apply Rmult_le_compat_r; lra.
        -- rewrite (Rmult_comm (IZR w)), Rmult_assoc, Hp. ring.
      * replace (IZR q + 1)%R with ((IZR w * (IZR q + 1)) * powerRZ 2 (Z.neg k))%R.
        -- apply Rmult_lt_compat_r; lra.
        -- rewrite (Rmult_comm (IZR w)), Rmult_assoc, Hp. ring.
Qed.

Lemma level_sent_unique v a b : level_sent v a -> level_sent v b -> a = b.
Proof.
  assert (forall n, is_double (S754_infinity n) -> False) by (intros n [_ []]).
  intros H1 H2.
  inversion H1; subst; inversion H2; subst; try reflexivity; try (exfalso; lra);
    try (exfalso; eauto; fail).
  assert (IZR (Z.of_N a) < IZR (Z.of_N b) + 1)%R by lra.
  assert (IZR (Z.of_N b) < IZR (Z.of_N a) + 1)%R by lra.
  rewrite <- plus_IZR in *. apply lt_IZR in H0, H3 || idtac.
  repeat match goal with H : (IZR _ < IZR _)%R |- _ => apply lt_IZR in H end. lia.
Qed.

Lemma multilevel_byte_spec undef v :
  v <> S754_nan -> (is_double v \/ exists s, v = S754_infinity s) ->
  level_sent v (Byte.to_N (multilevel_byte undef v)) /\
  (Byte.to_N (multilevel_byte undef v) <= 99)%N.
Proof.
  intros _ [Hd|[s ->]].
  2:{ destruct s; vm_compute; (split; [|discriminate]).
      - apply ls_minus_infinity.
      - apply ls_infinity. }
  destruct (f64_int 1 ltac:(lia)) as [D1 V1]. destruct (f64_int 99 ltac:(lia)) as [D99 V99].
  assert (Dz : is_double (S754_zero false)) by (split; [reflexivity|exact I]).
  unfold multilevel_byte. rewrite (SFltb_correct v _ Hd D1), V1.
  destruct (Rlt_bool_spec (double_value v) 1) as [Hlt|Hge].
  - rewrite (SFltb_correct _ _ D99 Dz), V99. cbn [double_value].
    rewrite Rlt_bool_false by lra. cbn [f64_trunc]. split; [|vm_compute; discriminate].
    change (Byte.to_N (Z2b 0)) with 0%N. now apply ls_low.
  - rewrite (SFltb_correct _ _ D99 Hd), V99.
    destruct (Rlt_bool_spec 99 (double_value v)) as [Hgt|Hle].
    + replace (f64_trunc (f64_of_Z 99)) with (Some 99%Z) by reflexivity.
      change (Byte.to_N (Z2b 99)) with 99%N. split; [now apply ls_high|lia].
    + destruct (f64_trunc_floor v Hd ltac:(lra)) as [z [-> Hz]].
      assert (0 < z + 1 /\ z <= 99)%Z.
      { split; [apply lt_IZR; rewrite plus_IZR; lra|apply le_IZR; lra]. }
      rewrite Z2b_small by lia. split; [|lia].
      apply ls_mid; [exact Hd|lra|]. rewrite Z2N.id by lia. exact Hz.
Qed.

Lemma multilevel_encode_spec undef node v :
  (is_double v \/ exists s, v = S754_infinity s) ->
  exists nb lb, encode_switch_multilevel undef node v = multilevel_set nb lb /\
    low_byte node nb /\ level_sent v (Byte.to_N lb) /\ (Byte.to_N lb <= 99)%N.
Proof.
  intros H. exists (Z2b node), (multilevel_byte undef v). split; [reflexivity|].
  split; [apply Z2b_low|]. apply multilevel_byte_spec; [|exact H].
  intros ->. destruct H as [[_ []]|[s E]]; discriminate.
Qed.

(** *** Encapsulation *)
Lemma encap_spec msg e : (3 <= List.length msg)%nat ->
  exists out eb, encode_multichannel msg e = Ok out /\ low_byte e eb /\ encapsulated msg eb out.
Proof.
  intros H. destruct msg as [|a [|b [|c body]]]; cbn in H; try lia.
  exists ([a; b; add8 c x04; x60; x0d; x01; Z2b e] ++ body), (Z2b e).
  split; [reflexivity|]. split; [apply Z2b_low|]. constructor.
  change (Byte.to_N (add8 c x04)) with (b2N (add8 c x04)). unfold add8. rewrite b2N_N2b. reflexivity.
Qed.

Lemma encap_short msg e : (List.length msg < 3)%nat -> encode_multichannel msg e = Panic.
Proof. intros H. destruct msg as [|a [|b [|c body]]]; cbn in H; try lia; reflexivity. Qed.

Lemma encap_recover m1 m2 e1 e2 out :
  encapsulated m1 e1 out -> encapsulated m2 e2 out -> m1 = m2 /\ e1 = e2.
Proof.
  intros H1 H2. inversion H1; subst. inversion H2; subst.
  split; [|reflexivity]. f_equal. f_equal. f_equal. apply b2N_inj. unfold b2N.
  pose proof (b2N_lt l). pose proof (b2N_lt l0). unfold b2N in *. lia.
Qed.

(** *** Raw *)
Lemma raw_length_wrong node data :
  exists nb lb, encode_raw node data = x13 :: nb :: lb :: data /\ low_byte node nb /\
    Byte.to_N lb <> N.of_nat (List.length data).
Proof.
  exists (Z2b node), (Z2b (Z.of_nat (List.length data) + 1)). split; [reflexivity|].
  split; [apply Z2b_low|]. pose proof (Z2b_low (Z.of_nat (List.length data) + 1)) as L.
  unfold low_byte in L. lia.
Qed.

Lemma raw_form node data : (List.length data < 255)%nat ->
  exists nb lb, encode_raw node data = x13 :: nb :: lb :: data /\ low_byte node nb /\
    Byte.to_N lb = (N.of_nat (List.length data) + 1)%N.
Proof.
  intros H. exists (Z2b node), (Z2b (Z.of_nat (List.length data) + 1)). split; [reflexivity|].
  split; [apply Z2b_low|]. pose proof (Z2b_low (Z.of_nat (List.length data) + 1)) as L.
  unfold low_byte in L. lia.
Qed.

(** *** Node commands *)
Lemma has_command_spec n c : has_command n c = true <-> supports n c.
Proof.
  unfold has_command, supports. destruct (n_classes n) as [l|].
  - rewrite existsb_exists. split.
    + intros [v [Hi He]]. exists l, v. apply beq_true in He. auto.
    + intros [l' [v [E [Hi He]]]]. injection E as <-. exists v. split; [exact Hi|]. now apply beq_true.
  - split; [discriminate|]. intros [l [v [E _]]]. discriminate.
Qed.

Lemma has_command_false n c : has_command n c = false <-> ~ supports n c.
Proof. rewrite <- has_command_spec. destruct (has_command n c); intuition discriminate. Qed.

Lemma node_switch_spec n nb : low_byte (n_id n) nb ->
  (supports n x25 -> node_on n = [binary_set nb xff] /\ node_off n = [binary_set nb x00]) /\
  (~ supports n x25 -> supports n x26 ->
     node_on n = [multilevel_set nb x63] /\ node_off n = [multilevel_set nb x00]) /\
  (~ supports n x25 -> ~ supports n x26 -> node_on n = [] /\ node_off n = []).
Proof.
  intros Hb. assert (Hz : Z2b (n_id n) = nb) by (eapply low_byte_unique; [apply Z2b_low|exact Hb]).
  unfold node_on, node_off. split; [|split].
  - intros H. apply has_command_spec in H. rewrite H. unfold encode_switch_binary. now rewrite Hz.
  - intros H1 H2. apply has_command_false in H1. apply has_command_spec in H2. rewrite H1, H2.
    unfold encode_switch_multilevel. rewrite Hz. split; reflexivity.
  - intros H1 H2. apply has_command_false in H1, H2. now rewrite H1, H2.
Qed.

Lemma node_level_spec undef n v : (is_double v \/ exists s, v = S754_infinity s) ->
  (supports n x26 -> exists nb lb, node_level undef n v = [multilevel_set nb lb] /\
     low_byte (n_id n) nb /\ level_sent v (Byte.to_N lb)) /\
  (~ supports n x26 -> node_level undef n v = []).
Proof.
  intros Hv. unfold node_level. split.
  - intros H. apply has_command_spec in H. rewrite H.
    destruct (multilevel_encode_spec undef (n_id n) v Hv) as [nb [lb [-> [A [B _]]]]]. eauto.
  - intros H. apply has_command_false in H. now rewrite H.
Qed.

Lemma node_frames undef n v cmd :
  In cmd (node_on n ++ node_off n ++ node_level undef n v) ->
  frame (compile_message cmd) /\
  exists mid cs, compile_message cmd = SOF :: mid ++ cmd ++ [cs] /\ List.length mid = 2%nat.
Proof.
  intros H. assert (L : List.length cmd = 7%nat).
  { unfold node_on, node_off, node_level in H.
    repeat (rewrite in_app_iff in H).
    destruct (has_command n x25), (has_command n x26); cbn [In] in H;
      repeat (destruct H as [H|H]); try contradiction; subst; reflexivity. }
  split; [apply compile_frame; lia|].
  destruct cmd as [|c0 [|c1 [|c2 [|c3 [|c4 [|c5 [|c6 [|c7 r]]]]]]]]; try discriminate L.
  unfold compile_message. cbn [app set_nth List.length Nat.sub generate_checksum removelast].
  eexists [_; _], _. split; reflexivity.
Qed.

(** *** Endpoints *)
Lemma endpoint_lookup n count k :
  let n' := set_endpoints n (made_endpoints n count) in
  ((0 <= k < Z.of_N count - 1)%Z ->
     exists e, node_endpoint n' k = Ok (Some e) /\ e_id e = (k + 1)%Z /\
       forall msg, (3 <= List.length msg)%nat -> exists out eb,
         endpoint_write e msg = Ok [out] /\ low_byte (k + 1) eb /\ encapsulated msg eb out) /\
  ((k < 0)%Z -> node_endpoint n' k = Panic) /\
  (k = Z.max 0 (Z.of_N count - 1) -> node_endpoint n' k = Panic) /\
  ((Z.max 0 (Z.of_N count - 1) < k)%Z -> node_endpoint n' k = Ok None).
Proof.
  intros n'. unfold node_endpoint, n'. cbn [n_endpoints set_endpoints].
  assert (L : List.length (made_endpoints n count) = (N.to_nat count - 1)%nat).
  { unfold made_endpoints. now rewrite map_length, seq_length. }
  rewrite L. split; [|split; [|split]].
  - intros Hk.
    destruct (Z.ltb_spec (Z.of_nat (N.to_nat count - 1)) k); [lia|].
    destruct (Z.ltb_spec k 0); [lia|].
    unfold made_endpoints. rewrite nth_error_map.
    assert (E : nth_error (seq 1 (N.to_nat count - 1)) (Z.to_nat k) = Some (1 + Z.to_nat k)%nat).
    { rewrite (nth_error_nth' _ 0%nat) by (rewrite seq_length; lia).
      now rewrite seq_nth by lia. }
    rewrite E. cbn [option_map]. eexists. split; [reflexivity|]. cbn [e_id].
    assert (Hid : Z.of_nat (1 + Z.to_nat k) = (k + 1)%Z) by lia.
    split; [exact Hid|]. intros msg Hm. rewrite Hid.
    destruct (encap_spec msg (k + 1) Hm) as [out [eb [Ho [Hb He]]]].
    exists out, eb. split; [|auto]. unfold endpoint_write. cbn [e_linked e_id]. now rewrite Ho.
  - intros Hk. destruct (Z.ltb_spec (Z.of_nat (N.to_nat count - 1)) k); [lia|].
    destruct (Z.ltb_spec k 0); [reflexivity|lia].
  - intros Hk. destruct (Z.ltb_spec (Z.of_nat (N.to_nat count - 1)) k); [lia|].
    destruct (Z.ltb_spec k 0); [reflexivity|].
    replace (nth_error (made_endpoints n count) (Z.to_nat k)) with (@None endpoint); [reflexivity|].
    symmetry. apply nth_error_None. rewrite L. lia.
  - intros Hk. destruct (Z.ltb_spec (Z.of_nat (N.to_nat count - 1)) k); [reflexivity|lia].
Qed.

(** *** Sensor keys *)
Local Open Scope string_scope.
Fixpoint before_underscore (s : string) : string :=
  match s with
  | EmptyString => EmptyString
  | String c r => if Ascii.eqb c "_"%char then EmptyString else String c (before_underscore r)
  end.

Fixpoint no_underscore (s : string) : bool :=
  match s with
  | EmptyString => true
  | String c r => negb (Ascii.eqb c "_"%char) && no_underscore r
  end.

Lemma before_key t u : no_underscore (to_lower t) = true ->
  before_underscore (sensor_key t u) = to_lower t.
Proof.
  unfold sensor_key. induction t as [|c t IH]; intros H.
  - reflexivity.
  - cbn [to_lower no_underscore] in H. apply andb_prop in H. destruct H as [H1 H2].
    cbn [append to_lower before_underscore]. apply negb_true_iff in H1. rewrite H1. f_equal. exact (IH H2).
Qed.

Lemma types_clean vt : no_underscore (to_lower (sensor_type vt)) = true.
Proof.
  apply (forall_byte (fun v => no_underscore (to_lower (sensor_type v)))). vm_compute. reflexivity.
Qed.

Lemma types_distinct a b : to_lower (sensor_type a) = to_lower (sensor_type b) -> a = b.
Proof.
  pose (P := fun a b => beq a b || negb (String.eqb (to_lower (sensor_type a)) (to_lower (sensor_type b)))).
  assert (H : forallb (fun a => forallb (P a) all_bytes) all_bytes = true) by (vm_compute; reflexivity).
  intros E. rewrite forallb_forall in H. specialize (H a (all_bytes_complete a)).
  rewrite forallb_forall in H. specialize (H b (all_bytes_complete b)). unfold P in H.
  rewrite E, String.eqb_refl in H. rewrite orb_false_r in H. now apply beq_true.
Qed.

Lemma sensor_origin d vt s sc p v ts u :
  reports_new x31 x05 d = Ok (RSensor vt s sc p v ts u) ->
  ts = sensor_type vt /\ u = sensor_unit vt sc /\ (b2N sc < 4)%N /\ nth_error d 0 = Some vt.
Proof.
  intros H. pose proof H as H0. apply reports_new_sound in H. destruct H as [_ [Ha Hb]].
  destruct d as [|a [|h body]]; cbn in Ha; try lia.
  assert (L : (b2n (and8 h x07) <= List.length body)%nat).
  { unfold byte_at in Hb. cbn [nth List.length] in Hb. unfold b2n.
    change (Byte.to_N (and8 h x07)) with (b2N (and8 h x07)). rewrite b2N_and8.
    change (b2N x07) with (N.ones 3). rewrite N.land_ones. unfold b2N. change (2^3)%N with 8%N. lia. }
  destruct (sensor_fields a h body L) as [w [E _]]. rewrite E in H0.
  injection H0 as <- <- <- <- <- <- <-. repeat split; try reflexivity.
  pose proof (forall_byte (fun h => (b2N (shr8 (and8 h x18) 3) <? 4)%N)) as F.
  apply N.ltb_lt. apply F. vm_compute. reflexivity.
Qed.

Lemma sensor_keys_distinct d1 d2 vt1 s1 sc1 p1 v1 ts1 u1 vt2 s2 sc2 p2 v2 ts2 u2 :
  reports_new x31 x05 d1 = Ok (RSensor vt1 s1 sc1 p1 v1 ts1 u1) ->
  reports_new x31 x05 d2 = Ok (RSensor vt2 s2 sc2 p2 v2 ts2 u2) ->
  sensor_key ts1 u1 = sensor_key ts2 u2 -> vt1 = vt2.
Proof.
  intros H1 H2 E. apply types_distinct.
  assert (T1 : ts1 = sensor_type vt1) by (apply sensor_origin in H1; tauto).
  assert (T2 : ts2 = sensor_type vt2) by (apply sensor_origin in H2; tauto).
  subst. rewrite <- (before_key _ u1 (types_clean vt1)), <- (before_key _ u2 (types_clean vt2)).
  now rewrite E.
Qed.

Lemma key_not_other t u : no_underscore (sensor_key t u) = false.
Proof.
  unfold sensor_key. induction t as [|c t IH]; [reflexivity|].
  change (negb (Ascii.eqb (lower_ascii c) "_"%char) && no_underscore (to_lower (t ++ "_" ++ u)) = false).
  rewrite IH. apply andb_false_r.
Qed.

Lemma sensor_keys_reserved t u :
  ~ In (sensor_key t u) ["level"; "alarm"; "alarmLastType"; "on"].
Proof.
  intros H. pose proof (key_not_other t u) as K. cbn [In] in H.
  repeat (destruct H as [H|H]; [rewrite <- H in K; vm_compute in K; discriminate|]). exact H.
Qed.

(** Readings of one type in different units are kept apart too. *)
Lemma append_inj_l a b c : a ++ b = a ++ c -> b = c.
Proof. induction a as [|x a IH]; cbn; intros H; [exact H|]. injection H as H. auto. Qed.

Lemma to_lower_app a b : to_lower (a ++ b) = to_lower a ++ to_lower b.
Proof. induction a as [|x a IH]; cbn; [reflexivity|]. now rewrite IH. Qed.

Lemma sensor_units_distinct d1 d2 vt1 s1 sc1 p1 v1 ts1 u1 vt2 s2 sc2 p2 v2 ts2 u2 :
  reports_new x31 x05 d1 = Ok (RSensor vt1 s1 sc1 p1 v1 ts1 u1) ->
  reports_new x31 x05 d2 = Ok (RSensor vt2 s2 sc2 p2 v2 ts2 u2) ->
  sensor_key ts1 u1 = sensor_key ts2 u2 -> u1 = u2.
Proof.
  intros H1 H2 E. pose proof (sensor_keys_distinct _ _ _ _ _ _ _ _ _ _ _ _ _ _ _ _ H1 H2 E) as V.
  apply sensor_origin in H1, H2. destruct H1 as [-> [-> [B1 _]]], H2 as [-> [-> [B2 _]]]. subst vt2.
  unfold sensor_key in E. rewrite !to_lower_app in E. apply append_inj_l in E. apply append_inj_l in E.
  pose (sc4 := [x00; x01; x02; x03]).
  pose (P := fun v a b => String.eqb (sensor_unit v a) (sensor_unit v b)
               || negb (String.eqb (to_lower (sensor_unit v a)) (to_lower (sensor_unit v b)))).
  assert (F : forallb (fun v => forallb (fun a => forallb (P v a) sc4) sc4) all_bytes = true)
    by (vm_compute; reflexivity).
  assert (I4 : forall b, (b2N b < 4)%N -> In b sc4).
  { intros b Hb. pose proof (forall_byte (fun b => negb (b2N b <? 4)%N || existsb (beq b) sc4)) as G.
    specialize (G ltac:(vm_compute; reflexivity) b). cbv beta in G. apply N.ltb_lt in Hb. rewrite Hb in G.
    cbn [negb orb] in G. apply existsb_exists in G. destruct G as [x [Hx Hb']]. apply beq_true in Hb'. now subst. }
  rewrite forallb_forall in F. specialize (F vt1 (all_bytes_complete vt1)).
  rewrite forallb_forall in F. specialize (F sc1 (I4 _ B1)).
  rewrite forallb_forall in F. specialize (F sc2 (I4 _ B2)). unfold P in F.
  rewrite E, String.eqb_refl, orb_false_r in F. now apply String.eqb_eq.
Qed.

Lemma endpoint_lookup_wrong : exists n count k,
  (1 <= k <= Z.of_N count)%Z /\
  node_endpoint (set_endpoints n (made_endpoints n count)) k = Panic.
Proof. exists (new_node 5), 2%N, 1%Z. split; [lia|]. vm_compute. reflexivity. Qed.

Lemma endpoint_send_one e cmds cmd :
  e_linked e = true -> (List.length cmds <= 1)%nat -> In cmd cmds -> (3 <= List.length cmd)%nat ->
  exists out eb, endpoint_send e cmds = Ok [out] /\ low_byte (e_id e) eb /\ encapsulated cmd eb out.
Proof.
  intros He Hl Hi Hc. destruct cmds as [|c [|d r]]; cbn in Hl; try lia; [destruct Hi|].
  destruct Hi as [->|[]]. destruct (encap_spec cmd (e_id e) Hc) as [out [eb [Ho [Hb Hn]]]].
  exists out, eb. split; [|auto]. unfold endpoint_send, endpoint_write. now rewrite He, Ho.
Qed.

Lemma endpoint_commands n e : e_linked e = true ->
  (node_on n = [] -> endpoint_on n e = Ok []) /\
  (node_off n = [] -> endpoint_off n e = Ok []) /\
  (forall cmd, In cmd (node_on n) -> exists out eb,
     endpoint_on n e = Ok [out] /\ low_byte (e_id e) eb /\ encapsulated cmd eb out) /\
  (forall cmd, In cmd (node_off n) -> exists out eb,
     endpoint_off n e = Ok [out] /\ low_byte (e_id e) eb /\ encapsulated cmd eb out) /\
  (forall undef v cmd, In cmd (node_level undef n v) -> exists out eb,
     endpoint_level undef n e v = Ok [out] /\ low_byte (e_id e) eb /\ encapsulated cmd eb out).
Proof.
  intros He. unfold endpoint_on, endpoint_off, endpoint_level. split; [|split; [|split; [|split]]].
  - intros ->. unfold endpoint_send. now rewrite He.
  - intros ->. unfold endpoint_send. now rewrite He.
  - intros cmd Hi. apply endpoint_send_one; try assumption; unfold node_on in *;
      destruct (has_command n x25), (has_command n x26); cbn in *; try lia; intuition (subst; cbn; lia).
  - intros cmd Hi. apply endpoint_send_one; try assumption; unfold node_off in *;
      destruct (has_command n x25), (has_command n x26); cbn in *; try lia; intuition (subst; cbn; lia).
  - intros undef v cmd Hi. apply endpoint_send_one; try assumption; unfold node_level in *;
      destruct (has_command n x26); cbn in *; try lia; intuition (subst; cbn; lia).
Qed.

(** Readings of one type in different scales. *)
Lemma units_of_scales v a b : (b2N a < 4)%N -> (b2N b < 4)%N -> ~ In v [x0a; x11; x1c; x1d] ->
  sensor_unit v a <> "" -> sensor_unit v a = sensor_unit v b -> a = b.
Proof.
  intros A B NI NE E.
  pose (P := fun v a b => existsb (beq v) [x0a; x11; x1c; x1d] || negb (b2N a <? 4)%N || negb (b2N b <? 4)%N || beq a b ||
               String.eqb (sensor_unit v a) "" || negb (String.eqb (sensor_unit v a) (sensor_unit v b))).
  pose (sc4 := [x00; x01; x02; x03]).
  assert (F : forallb (fun v => forallb (fun a => forallb (P v a) sc4) sc4) all_bytes = true)
    by (vm_compute; reflexivity).
  assert (I4 : forall b, (b2N b < 4)%N -> In b sc4).
  { intros c Hc. pose proof (forall_byte (fun b => negb (b2N b <? 4)%N || existsb (beq b) sc4)) as G.
    specialize (G eq_refl c). cbv beta in G. apply N.ltb_lt in Hc. rewrite Hc in G. cbn [negb orb] in G.
    apply existsb_exists in G. destruct G as (x & I & X). apply beq_true in X. congruence. }
  rewrite forallb_forall in F. specialize (F v (all_bytes_complete v)).
  rewrite forallb_forall in F. specialize (F a (I4 a A)).
  rewrite forallb_forall in F. specialize (F b (I4 b B)). unfold P in F.
  rewrite E, String.eqb_refl in F. apply N.ltb_lt in A, B. rewrite A, B in F. cbn [negb] in F.
  rewrite !orb_false_r in F.
  assert (X1 : existsb (beq v) [x0a; x11; x1c; x1d] = false).
  { apply not_true_iff_false. rewrite existsb_exists. intros (x & I & X). apply beq_true in X. subst x. exact (NI I). }
  rewrite X1 in F. assert (X2 : String.eqb (sensor_unit v b) "" = false) by (apply String.eqb_neq; congruence).
  rewrite X2, orb_false_r in F. now apply beq_true.
Qed.

Lemma scales_distinct d1 d2 vt1 s1 sc1 p1 v1 ts1 u1 vt2 s2 sc2 p2 v2 ts2 u2 :
  reports_new x31 x05 d1 = Ok (RSensor vt1 s1 sc1 p1 v1 ts1 u1) ->
  reports_new x31 x05 d2 = Ok (RSensor vt2 s2 sc2 p2 v2 ts2 u2) ->
  u1 <> "" -> ~ In vt1 [x0a; x11; x1c; x1d] ->
  sensor_key ts1 u1 = sensor_key ts2 u2 -> vt1 = vt2 /\ sc1 = sc2.
Proof.
  intros H1 H2 U V E.
  pose proof (sensor_keys_distinct _ _ _ _ _ _ _ _ _ _ _ _ _ _ _ _ H1 H2 E) as K.
  pose proof (sensor_units_distinct _ _ _ _ _ _ _ _ _ _ _ _ _ _ _ _ H1 H2 E) as W.
  apply sensor_origin in H1, H2. destruct H1 as [-> [-> [B1 _]]], H2 as [-> [-> [B2 _]]]. subst vt2.
  split; [reflexivity|]. exact (units_of_scales vt1 sc1 sc2 B1 B2 V U W).
Qed.

Lemma scales_mixed : exists d1 d2 vt s1 sc1 p1 v1 ts1 u1 s2 sc2 p2 v2 ts2 u2,
  reports_new x31 x05 d1 = Ok (RSensor vt s1 sc1 p1 v1 ts1 u1) /\
  reports_new x31 x05 d2 = Ok (RSensor vt s2 sc2 p2 v2 ts2 u2) /\
  sensor_key ts1 u1 = sensor_key ts2 u2 /\ sc1 <> sc2.
Proof.
  exists [x07; x01; x05], [x07; x09; x05]. do 13 eexists.
  split; [vm_compute; reflexivity|]. split; [vm_compute; reflexivity|]. split; [reflexivity|discriminate].
Qed.
