(** Lemmas about payload decoders. *)
From Verif Require Import ModelBase ModelReports ModelSerial SpecFrame SpecDecode SpecReports
  ProofBase ProofSerial ProofMessage.
From Coq Require Import ZifyBool ZifyNat ZifyN Arith Floats.SpecFloat.
Ltac Zify.zify_post_hook ::= Z.div_mod_to_equations.

(** ** Bits *)
Definition mask_ok (m : byte) (i : N) : bool :=
  forallb (fun b => Bool.eqb (hasbit b m) (bit b i)) all_bytes.

Lemma mask_lift m i : mask_ok m i = true -> forall b, hasbit b m = bit b i.
Proof. intros H b. apply eqb_prop. exact (forall_byte _ H b). Qed.

Lemma hasbit_01 b : hasbit b x01 = bit b 0. Proof. now apply mask_lift; vm_compute. Qed.
Lemma hasbit_02 b : hasbit b x02 = bit b 1. Proof. now apply mask_lift; vm_compute. Qed.
Lemma hasbit_04 b : hasbit b x04 = bit b 2. Proof. now apply mask_lift; vm_compute. Qed.
Lemma hasbit_08 b : hasbit b x08 = bit b 3. Proof. now apply mask_lift; vm_compute. Qed.
Lemma hasbit_10 b : hasbit b x10 = bit b 4. Proof. now apply mask_lift; vm_compute. Qed.
Lemma hasbit_20 b : hasbit b x20 = bit b 5. Proof. now apply mask_lift; vm_compute. Qed.
Lemma hasbit_40 b : hasbit b x40 = bit b 6. Proof. now apply mask_lift; vm_compute. Qed.
Lemma hasbit_80 b : hasbit b x80 = bit b 7. Proof. now apply mask_lift; vm_compute. Qed.

(** ** C12 *)
Lemma nth_set_nth_same {A} i (v d : A) l : (i < List.length l)%nat -> nth i (set_nth i v l) d = v.
Proof. revert i; induction l as [|x l IH]; intros [|i] H; cbn in *; try lia; auto. apply IH; lia. Qed.

Lemma put8_other arr index b j :
  (j < index * 8 \/ index * 8 + 8 <= j)%nat -> nth j (put8 arr index b) false = nth j arr false.
Proof. intros H. unfold put8. now rewrite !nth_set_nth_other by lia. Qed.

Lemma put8_same arr index b j :
  (index * 8 + 7 < List.length arr)%nat -> (j < 8)%nat ->
  nth (index * 8 + j) (put8 arr index b) false = bit b (N.of_nat j).
Proof.
  intros Ha Hj. unfold put8.
  do 8 (destruct j as [|j];
    [ rewrite ?nth_set_nth_other by lia; rewrite nth_set_nth_same by (rewrite ?set_nth_length; lia);
      first [apply hasbit_01|apply hasbit_02|apply hasbit_04|apply hasbit_08
            |apply hasbit_10|apply hasbit_20|apply hasbit_40|apply hasbit_80] | ]).
  lia.
Qed.

Lemma discovery_loop_bits data : forall arr index,
  List.length arr = 232%nat -> (index + List.length data <= 29)%nat ->
  exists arr', discovery_loop arr index data = Ok arr' /\ List.length arr' = 232%nat /\
    forall i, nth i arr' false =
      if (index * 8 <=? i)%nat && (i <? (index + List.length data) * 8)%nat
      then bit (nth (i / 8 - index) data x00) (N.of_nat (i mod 8))
      else nth i arr false.
Proof.
  induction data as [|b r IH]; intros arr index Ha Hi.
  - exists arr. split; [reflexivity|]. split; [exact Ha|]. intros i.
    destruct (Nat.leb_spec (index * 8) i) as [H1|H1]; [|reflexivity].
    destruct (Nat.ltb_spec i ((index + List.length (@nil byte)) * 8)) as [H2|H2]; [cbn in H2; lia|reflexivity].
  - cbn [List.length] in *. rewrite discovery_step by lia.
    destruct (IH (put8 arr index b) (S index)) as [arr' [E [L Hn]]]; [now rewrite put8_length|lia|].
    exists arr'. split; [exact E|]. split; [exact L|]. intros i. rewrite Hn. clear Hn IH E.
    destruct (Nat.leb_spec (S index * 8) i) as [H1|H1].
    + destruct (Nat.leb_spec (index * 8) i) as [H1'|H1']; [|lia]. cbn [andb].
      destruct (Nat.ltb_spec i ((S index + List.length r) * 8)) as [H2|H2].
      * destruct (Nat.ltb_spec i ((index + S (List.length r)) * 8)) as [H2'|H2']; [|lia].
        assert (Hd : (i / 8 - index = S (i / 8 - S index))%nat) by lia.
        rewrite Hd. reflexivity.
      * destruct (Nat.ltb_spec i ((index + S (List.length r)) * 8)) as [H2'|H2']; [lia|].
        apply put8_other. lia.
    + cbn [andb]. destruct (Nat.leb_spec (index * 8) i) as [H1'|H1']; cbn [andb].
      * destruct (Nat.ltb_spec i ((index + S (List.length r)) * 8)) as [H2'|H2']; [|lia].
        assert (Hd : (i / 8 - index = 0)%nat) by lia. rewrite Hd. cbn [nth].
        assert (He : (i = index * 8 + i mod 8)%nat) by lia.
        rewrite He at 1. apply put8_same; lia.
      * apply put8_other. lia.
Qed.

Lemma bit_x00 i : bit x00 i = false.
Proof. unfold bit. apply N.bits_0. Qed.

Lemma discovered_nodes_bits data :
  (6 <= List.length data <= 29)%nat ->
  exists arr, new_discovered_nodes data = Ok arr /\ List.length arr = 232%nat /\
    forall i, (i < 232)%nat -> nth i arr false = bit (nth (i / 8) data x00) (N.of_nat (i mod 8)).
Proof.
  intros H. unfold new_discovered_nodes.
  destruct (Nat.ltb_spec (List.length data) 6) as [Hl|Hl]; [lia|].
  destruct (discovery_loop_bits data (repeat false 232) 0) as [arr [E [L Hn]]]; [reflexivity|lia|].
  exists arr. split; [exact E|]. split; [exact L|]. intros i Hi. rewrite Hn.
  cbn [Nat.mul Nat.add]. rewrite Nat.sub_0_r.
  destruct (Nat.leb_spec 0 i) as [_|H0]; [|lia]. cbn [andb].
  destruct (Nat.ltb_spec i (List.length data * 8)) as [H1|H1]; [reflexivity|].
  rewrite nth_overflow with (l := data) by lia. rewrite bit_x00.
  rewrite nth_repeat. reflexivity.
Qed.

Lemma discovered_short data :
  (List.length data < 6)%nat -> new_discovered_nodes data = Fail ETooShort.
Proof.
  intros H. unfold new_discovered_nodes.
  destruct (Nat.ltb_spec (List.length data) 6) as [Hl|Hl]; [reflexivity|lia].
Qed.

(** ** C13 *)
Lemma pi_version_ok b : b2N (add8 (and8 b x07) x01) = (b2N b mod 8 + 1)%N.
Proof.
  apply N.eqb_eq. revert b. apply (forall_byte (fun b =>
    (b2N (add8 (and8 b x07) x01) =? (b2N b mod 8 + 1))%N)). vm_compute. reflexivity.
Qed.

Lemma pi_baud_ok b : beq (and8 b x38) x10 = (b2N b / 8 mod 8 =? 2)%N.
Proof.
  apply eqb_prop. revert b. apply (forall_byte (fun b =>
    Bool.eqb (beq (and8 b x38) x10) (b2N b / 8 mod 8 =? 2)%N)). vm_compute. reflexivity.
Qed.

Lemma pi_flirs_ok b : hasbit b x60 = bit b 5 || bit b 6.
Proof.
  apply eqb_prop. revert b. apply (forall_byte (fun b =>
    Bool.eqb (hasbit b x60) (bit b 5 || bit b 6))). vm_compute. reflexivity.
Qed.

Lemma protocol_info_fields b0 b1 b2 b3 b4 b5 r :
  exists pi, new_protocol_info (b0 :: b1 :: b2 :: b3 :: b4 :: b5 :: r) = Ok pi /\
    pi_listening pi = bit b0 7 /\ pi_routing pi = bit b0 6 /\
    Byte.to_N (pi_version pi) = (Byte.to_N b0 mod 8 + 1)%N /\
    pi_maxbaud pi = (if (Byte.to_N b0 / 8 mod 8 =? 2)%N then 40000 else 9600)%Z /\
    pi_flirs pi = bit b1 5 || bit b1 6 /\ pi_beaming pi = bit b1 4 /\ pi_security pi = bit b1 0 /\
    pi_basic pi = b3 /\ pi_generic pi = b4 /\ pi_specific pi = b5.
Proof.
  eexists. split; [reflexivity|].
  cbn [pi_listening pi_routing pi_version pi_maxbaud pi_flirs pi_beaming pi_security
       pi_basic pi_generic pi_specific].
  rewrite hasbit_80, hasbit_40, hasbit_10, hasbit_01, pi_flirs_ok, pi_baud_ok.
  repeat split. apply pi_version_ok.
Qed.

Lemma protocol_info_short data :
  (List.length data < 6)%nat -> new_protocol_info data = Fail ETooShort.
Proof.
  intros H. unfold new_protocol_info.
  destruct (Nat.ltb_spec (List.length data) 6) as [Hl|Hl]; [reflexivity|lia].
Qed.

(** ** C14 *)
Definition kind_of (r : report) : kind :=
  match r with
  | RAlarm _ _ _ _ _ _ _ => KAlarm
  | RManufacturer _ _ _ => KManufacturer
  | REndpoints _ _ _ => KEndpoints
  | RSensor _ _ _ _ _ _ _ => KSensor
  | RSwitchBinary1 _ _ => KBinary1
  | RSwitchBinary2 _ _ _ => KBinary2
  | RSwitchMulti1 _ _ => KMulti1
  | RSwitchMulti4 _ _ _ _ _ => KMulti4
  | RWakeUp => KWakeUp
  end.

Lemma size_field h : b2N (and8 h x07) = (b2N h mod 8)%N.
Proof.
  apply N.eqb_eq. revert h. apply (forall_byte (fun b =>
    (b2N (and8 b x07) =? (b2N b mod 8))%N)). vm_compute. reflexivity.
Qed.

Lemma scale_field h : b2N (shr8 (and8 h x18) 3) = (b2N h / 8 mod 4)%N.
Proof.
  apply N.eqb_eq. revert h. apply (forall_byte (fun b =>
    (b2N (shr8 (and8 b x18) 3) =? (b2N b / 8 mod 4))%N)). vm_compute. reflexivity.
Qed.

Lemma precision_field h : b2N (shr8 (and8 h xe0) 5) = (b2N h / 32)%N.
Proof.
  apply N.eqb_eq. revert h. apply (forall_byte (fun b =>
    (b2N (shr8 (and8 b xe0) 5) =? (b2N b / 32))%N)). vm_compute. reflexivity.
Qed.

Lemma new_alarm_kind data :
  if (2 <=? List.length data)%nat then exists r, new_alarm data = Ok r /\ kind_of r = KAlarm
  else exists e, new_alarm data = Fail e.
Proof.
  unfold new_alarm. destruct (Nat.ltb_spec (List.length data) 2) as [H|H].
  - destruct (Nat.leb_spec 2 (List.length data)); [lia|]. eauto.
  - destruct (Nat.leb_spec 2 (List.length data)); [|lia].
    rewrite !idx_lt by lia. cbn [bind].
    destruct (Nat.leb_spec 6 (List.length data)) as [H6|H6].
    + rewrite !idx_lt by lia. cbn [bind]. eauto.
    + eauto.
Qed.

Lemma new_sensor_kind data :
  if (2 <=? N.of_nat (List.length data))%N && (2 + byte_at data 1 mod 8 <=? N.of_nat (List.length data))%N
  then exists r, new_sensor data = Ok r /\ kind_of r = KSensor
  else exists e, new_sensor data = Fail e.
Proof.
  unfold new_sensor. destruct (Nat.ltb_spec (List.length data) 2) as [H|H].
  - destruct (N.leb_spec 2 (N.of_nat (List.length data))); [lia|]. cbn [andb]. eauto.
  - destruct (N.leb_spec 2 (N.of_nat (List.length data))); [|lia]. cbn [andb].
    rewrite !idx_lt by lia. cbn [bind]. rewrite byte_at_eq, <- size_field, <- b2n_b2N.
    destruct (Nat.ltb_spec (List.length data) (2 + b2n (and8 (nth 1 data x00) x07))) as [H1|H1].
    + destruct (N.leb_spec (2 + N.of_nat (b2n (and8 (nth 1 data x00) x07))) (N.of_nat (List.length data))); [lia|]. eauto.
    + destruct (N.leb_spec (2 + N.of_nat (b2n (and8 (nth 1 data x00) x07))) (N.of_nat (List.length data))); [|lia]. eauto.
Qed.

(** Soundness: an accepted payload has a row in the table. *)
Lemma reports_new_sound c class data r :
  reports_new c class data = Ok r ->
  dispatch (Byte.to_N c) (Byte.to_N class) (kind_of r) /\ accepts (kind_of r) data.
Proof.
  intros H. unfold reports_new in H.
  destruct c; try discriminate; [..|inversion H; subst; cbn; split; [constructor|exact I]];
    destruct class; try discriminate.
  - destruct data as [|a [|b [|c [|d data]]]]; try discriminate; inversion H; subst; cbn;
      (split; [constructor|reflexivity]).
  - destruct data as [|a [|b [|c [|d data]]]]; try discriminate; inversion H; subst; cbn;
      (split; [constructor|reflexivity]).
  - pose proof (new_sensor_kind data) as K.
    destruct ((2 <=? N.of_nat (List.length data))%N && (2 + byte_at data 1 mod 8 <=? N.of_nat (List.length data))%N) eqn:E.
    + destruct K as [r' [Hr Hk]]. rewrite H in Hr. inversion Hr; subst. rewrite Hk. cbn.
      split; [constructor|]. apply andb_prop in E. destruct E as [E1 E2].
      apply N.leb_le in E1, E2. split; assumption.
    + destruct K as [e Hr]. rewrite H in Hr. discriminate.
  - destruct data as [|a [|b data]]; try discriminate; inversion H; subst; cbn.
    split; [constructor|lia].
  - pose proof (new_alarm_kind data) as K. destruct (Nat.leb_spec 2 (List.length data)) as [E|E].
    + destruct K as [r' [Hr Hk]]. rewrite H in Hr. inversion Hr; subst. rewrite Hk. cbn.
      split; [constructor|exact E].
    + destruct K as [e Hr]. rewrite H in Hr. discriminate.
  - destruct data as [|a [|b [|c [|d [|e [|f [|g data]]]]]]]; try discriminate; inversion H; subst; cbn;
      (split; [constructor|reflexivity]).
Qed.

Lemma byte_is c n : Byte.to_N c = n -> Byte.of_N n = Some c.
Proof. intros <-. apply Byte.of_to_N. Qed.

(** Completeness: every row accepts. *)
Lemma reports_new_complete c class data k :
  dispatch (Byte.to_N c) (Byte.to_N class) k -> accepts k data ->
  exists r, reports_new c class data = Ok r /\ kind_of r = k.
Proof.
  intros Hd Ha. inversion Hd as [H1 H2|H1 H2|H1 H2|H1 H2|H1 H2|H1 H2|H1 H2|H1 H2|cc H1 H2]; subst k;
    symmetry in H1; apply byte_is in H1; try (symmetry in H2; apply byte_is in H2; vm_compute in H2);
    vm_compute in H1; inversion H1; try inversion H2; subst c; try subst class; cbn [accepts] in Ha;
    cbn [reports_new].
  - pose proof (new_alarm_kind data) as K. destruct (Nat.leb_spec 2 (List.length data)); [exact K|lia].
  - destruct data as [|a [|b [|c [|d [|e [|f [|g data]]]]]]]; cbn in Ha; try lia. cbn. eauto.
  - destruct data as [|a [|b data]]; cbn in Ha; try lia. cbn. eauto.
  - pose proof (new_sensor_kind data) as K.
    destruct Ha as [Ha1 Ha2]. apply N.leb_le in Ha1, Ha2. rewrite Ha1, Ha2 in K. exact K.
  - destruct data as [|a [|b data]]; cbn in Ha; try lia. cbn. eauto.
  - destruct data as [|a [|b [|c [|d data]]]]; cbn in Ha; try lia. cbn. eauto.
  - destruct data as [|a [|b data]]; cbn in Ha; try lia. cbn. eauto.
  - destruct data as [|a [|b [|c [|d data]]]]; cbn in Ha; try lia. cbn. eauto.
  - eauto.
Qed.

Lemma reports_new_total c class data :
  (exists r, reports_new c class data = Ok r) \/ (exists e, reports_new c class data = Fail e).
Proof.
  pose proof (reports_new_np c class data) as H.
  destruct (reports_new c class data); eauto. contradiction.
Qed.

(** ** C15 *)
Lemma beq_num a c : beq a c = (b2N a =? b2N c)%N.
Proof.
  destruct (beq_spec a c) as [->|H]; symmetry.
  - apply N.eqb_refl.
  - apply N.eqb_neq. intros E. apply H. now apply b2N_inj.
Qed.

Lemma switch_binary1_spec b :
  reports_new x25 x03 [b] =
    Ok (RSwitchBinary1 (Byte.to_N b =? 255)%N (negb (Byte.to_N b =? 254)%N)).
Proof.
  cbn [reports_new List.length new_switch_binary1]. rewrite !beq_num.
  change (b2N xff) with 255%N. change (b2N xfe) with 254%N. fold (b2N b).
  repeat f_equal. destruct (N.eqb_spec (b2N b) 255) as [E|E]; [rewrite E; reflexivity|reflexivity].
Qed.

Lemma switch_binary2_spec c t d :
  reports_new x25 x03 [c; t; d] =
    Ok (RSwitchBinary2 (negb (Byte.to_N c =? 0)%N) (negb (Byte.to_N t =? 0)%N) d).
Proof. cbn [reports_new List.length new_switch_binary2]. rewrite !beq_num. reflexivity. Qed.

Lemma switch_multi1_spec b :
  reports_new x26 x03 [b] =
    Ok (RSwitchMulti1 (N.min (Byte.to_N b) 100) (negb (Byte.to_N b =? 254)%N)).
Proof. cbn [reports_new List.length new_switch_multi1]. rewrite !beq_num. reflexivity. Qed.

Lemma switch_multi4_spec c t d :
  reports_new x26 x03 [c; t; d] =
    Ok (RSwitchMulti4 (N.min (Byte.to_N c) 100) (N.min (Byte.to_N t) 100) d
          (negb (Byte.to_N c =? 254)%N) (negb (Byte.to_N t =? 254)%N)).
Proof. cbn [reports_new List.length new_switch_multi4]. rewrite !beq_num. reflexivity. Qed.

Lemma switch_other_length c data :
  (c = x25 \/ c = x26) -> List.length data <> 1%nat -> List.length data <> 3%nat ->
  reports_new c x03 data = Fail EUnknownCommand.
Proof.
  intros [->| ->] H1 H3; cbn [reports_new];
    destruct data as [|a [|b [|d [|e data]]]]; cbn in *; try reflexivity; congruence.
Qed.

(** ** C19 *)
Definition duration_check (d : byte) : bool :=
  match duration_secs d with
  | Ok s => (b2N d <=? 253)%N && (0 <=? s)%Z && (s <=? 126 * 60)%Z &&
            (s =? (if (b2N d <=? 127)%N then Z.of_N (b2N d) else (Z.of_N (b2N d) - 127) * 60))%Z &&
            match read_duration 0 0 (duration_string d) with
            | Some n => (Z.of_N n =? s)%Z | None => false end
  | Fail EFactoryDefault => (254 <=? b2N d)%N && String.eqb (duration_string d) "Factory default duration"
  | _ => false
  end.
Lemma duration_checked d : duration_check d = true.
Proof. revert d. apply forall_byte. vm_compute. reflexivity. Qed.

Lemma duration_ok d :
  (Byte.to_N d <= 253)%N ->
  exists s, duration_secs d = Ok s /\ (0 <= s <= 126 * 60)%Z /\
    s = (if (Byte.to_N d <=? 127)%N then Z.of_N (Byte.to_N d) else (Z.of_N (Byte.to_N d) - 127) * 60)%Z /\
    read_duration 0 0 (duration_string d) = Some (Z.to_N s).
Proof.
  intros H. fold (b2N d) in *. pose proof (duration_checked d) as C. unfold duration_check in C.
  destruct (duration_secs d) as [s|[]|]; try discriminate.
  - exists s. split; [reflexivity|].
    destruct (read_duration 0 0 (duration_string d)) as [n|].
    + repeat rewrite andb_true_iff in C. destruct C as [[[[C1 C2] C3] C4] C5].
      apply Z.leb_le in C2, C3. apply Z.eqb_eq in C4, C5. repeat split; try assumption.
      f_equal. lia.
    + rewrite andb_false_r in C. discriminate.
  - exfalso. apply andb_prop in C. destruct C as [C _]. apply N.leb_le in C. lia.
Qed.

Lemma duration_bad d :
  (254 <= Byte.to_N d)%N ->
  duration_secs d = Fail EFactoryDefault /\ duration_string d = "Factory default duration"%string.
Proof.
  intros H. fold (b2N d) in *. pose proof (duration_checked d) as C. unfold duration_check in C.
  destruct (duration_secs d) as [s|[]|]; try discriminate.
  - exfalso. repeat rewrite andb_true_iff in C. destruct C as [[[[C1 C2] C3] C4] C5].
    apply N.leb_le in C1. lia.
  - split; [reflexivity|]. apply andb_prop in C. destruct C as [_ C]. now apply String.eqb_eq.
Qed.

(** ** C20 *)
Definition hexdigit_check (n : N) : bool :=
  match hex_digit_value (hexdigit n) with Some v => (v =? n)%N | None => false end.
Lemma hexdigit_ok n : (n < 16)%N -> hex_digit_value (hexdigit n) = Some n.
Proof.
  intros H.
  assert (C : forallb hexdigit_check (map N.of_nat (seq 0 16)) = true) by (vm_compute; reflexivity).
  rewrite forallb_forall in C. specialize (C n). unfold hexdigit_check in C.
  destruct (hex_digit_value (hexdigit n)) as [v|].
  - f_equal. apply N.eqb_eq. apply C. apply in_map_iff. exists (N.to_nat n). split; [lia|].
    apply in_seq. lia.
  - exfalso. assert (false = true); [|discriminate]. apply C. apply in_map_iff.
    exists (N.to_nat n). split; [lia|]. apply in_seq. lia.
Qed.

Lemma hex4_value n : (n < 65536)%N -> hex_value (hex4 n) = Some n.
Proof.
  intros H. unfold hex_value, hex4. cbn [hex_value_from].
  rewrite !hexdigit_ok by lia. cbn [hex_value_from]. f_equal. lia.
Qed.

Lemma hex4_length n : String.length (hex4 n) = 4%nat.
Proof. reflexivity. Qed.

Lemma manufacturer_spec a b c d e f :
  exists m t i, reports_new x72 x05 [a; b; c; d; e; f] = Ok (RManufacturer m t i) /\
    (String.length m = 4 /\ String.length t = 4 /\ String.length i = 4)%nat /\
    hex_value m = Some (256 * Byte.to_N a + Byte.to_N b)%N /\
    hex_value t = Some (256 * Byte.to_N c + Byte.to_N d)%N /\
    hex_value i = Some (256 * Byte.to_N e + Byte.to_N f)%N.
Proof.
  eexists; eexists; eexists. split; [reflexivity|]. split; [auto|].
  pose proof (b2N_lt a); pose proof (b2N_lt b); pose proof (b2N_lt c);
  pose proof (b2N_lt d); pose proof (b2N_lt e); pose proof (b2N_lt f).
  unfold be16. rewrite !hex4_value by lia. auto.
Qed.

Lemma manufacturer_other_length data :
  List.length data <> 6%nat -> reports_new x72 x05 data = Fail EWrongLength.
Proof.
  intros H. cbn [reports_new].
  destruct data as [|a [|b [|c [|d [|e [|f [|g data]]]]]]]; cbn in *; try reflexivity; congruence.
Qed.

(** ** C21 *)
Lemma endpoints_spec a b r :
  reports_new x60 x08 (a :: b :: r) = Ok (REndpoints (bit a 7) (bit a 6) (Byte.to_N b)).
Proof. cbn [reports_new new_endpoints]. now rewrite hasbit_80, hasbit_40. Qed.

Lemma endpoints_short data :
  (List.length data < 2)%nat -> reports_new x60 x08 data = Fail ETooShort.
Proof. intros H. destruct data as [|a [|b r]]; cbn in *; try reflexivity; lia. Qed.

(** ** Sensors: the decoded fields *)
Lemma sensor_fields vt h body :
  (b2n (and8 h x07) <= List.length body)%nat ->
  exists v, reports_new x31 x05 (vt :: h :: body)
      = Ok (RSensor vt (and8 h x07) (shr8 (and8 h x18) 3) (shr8 (and8 h xe0) 5) v
              (sensor_type vt) (sensor_unit vt (shr8 (and8 h x18) 3))) /\
    let v0 := if beq (and8 h x07) x01 then f64_of_Z (be_signed (firstn 1 body))
              else if beq (and8 h x07) x02 then f64_of_Z (be_signed (firstn 2 body))
              else if beq (and8 h x07) x04 then f64_of_Z (be_signed (firstn 4 body))
              else S754_zero false in
    v = if (0 <? b2N h / 32)%N then f64_div v0 (f64_pow10 (b2N h / 32)) else v0.
Proof.
  intros H. cbn [reports_new]. unfold new_sensor. cbn [idx nth_error bind].
  destruct (Nat.ltb_spec (List.length (vt :: h :: body)) 2) as [Hc|_]; [cbn in Hc; lia|].
  destruct (Nat.ltb_spec (List.length (vt :: h :: body)) (2 + b2n (and8 h x07))) as [Hc|_]; [cbn in Hc; lia|].
  eexists. split; [reflexivity|]. cbv zeta. rewrite precision_field. cbn [skipn].
  destruct (and8 h x07); reflexivity.
Qed.

Lemma be_unsigned_spec l : be_unsigned l = big_endian l.
Proof.
  unfold be_unsigned.
  enough (E : forall acc, fold_left (fun a b => (a * 256 + Z.of_N (b2N b))%Z) l acc
       = (acc * 256 ^ Z.of_nat (List.length l) + big_endian l)%Z).
  { rewrite E. lia. }
  induction l as [|b l IH]; intros acc.
  - cbn. lia.
  - cbn [fold_left]. rewrite IH. cbn [big_endian List.length].
    fold (b2N b).
    replace (Z.of_nat (S (List.length l))) with (Z.of_nat (List.length l) + 1)%Z by lia.
    rewrite Z.pow_add_r by lia. ring.
Qed.

Lemma big_endian_bounds l : (0 <= big_endian l < 256 ^ Z.of_nat (List.length l))%Z.
Proof.
  induction l as [|b l IH]; [cbn; lia|]. cbn [big_endian List.length].
  replace (Z.of_nat (S (List.length l))) with (Z.of_nat (List.length l) + 1)%Z by lia.
  rewrite Z.pow_add_r by lia. fold (b2N b). pose proof (b2N_lt b).
  set (w := (256 ^ Z.of_nat (List.length l))%Z) in *. nia.
Qed.

Lemma be_signed_spec l : l <> [] -> twos_complement l (be_signed l).
Proof.
  intros Hne. unfold twos_complement, be_signed. rewrite be_unsigned_spec.
  pose proof (big_endian_bounds l) as Hb.
  set (n := Z.of_nat (List.length l)) in *.
  assert (Hn : (1 <= n)%Z) by (destruct l; [contradiction|cbn in n; lia]).
  replace (256 ^ n)%Z with (2 ^ (8 * n))%Z in * by (rewrite Z.pow_mul_r by lia; reflexivity).
  assert (Hh : (2 ^ (8 * n) = 2 * 2 ^ (8 * n - 1))%Z).
  { replace (8 * n)%Z with (Z.succ (8 * n - 1)) at 1 by lia. apply Z.pow_succ_r. lia. }
  set (u := big_endian l) in *. set (half := (2 ^ (8 * n - 1))%Z) in *.
  set (w := (2 ^ (8 * n))%Z) in *. clearbody u half w.
  destruct (Z.ltb_spec (2 * u) w) as [H|H].
  - split; [lia|]. apply Z.mod_small. lia.
  - split; [lia|]. replace (u - w)%Z with (u + (-1) * w)%Z by lia.
    rewrite Z.mod_add by lia. apply Z.mod_small. lia.
Qed.

Lemma twos_complement_unique l z1 z2 :
  l <> [] -> twos_complement l z1 -> twos_complement l z2 -> z1 = z2.
Proof.
  intros Hne [B1 E1] [B2 E2]. rewrite <- E2 in E1.
  set (w := (8 * Z.of_nat (List.length l))%Z) in *.
  assert (Hw : (8 <= w)%Z) by (destruct l; [contradiction|cbn [List.length] in w; lia]).
  assert (Hh : (2 ^ w = 2 * 2 ^ (w - 1))%Z).
  { replace w with (Z.succ (w - 1)) at 1 by lia. apply Z.pow_succ_r. lia. }
  set (half := (2 ^ (w - 1))%Z) in *. rewrite Hh in E1.
  assert (0 < half)%Z by (apply Z.pow_pos_nonneg; lia). clearbody half w.
  pose proof (Z.div_mod z1 (2 * half)). pose proof (Z.div_mod z2 (2 * half)).
  assert (z1 - z2 = 2 * half * (z1 / (2 * half) - z2 / (2 * half)))%Z by lia.
  assert (-1 < z1 / (2 * half) - z2 / (2 * half) < 1)%Z by nia. nia.
Qed.

(** ** C17 *)
Lemma sensor_bad_size vt h body :
  ~ In (Byte.to_N h mod 8)%N [1; 2; 4]%N ->
  (N.to_nat (Byte.to_N h mod 8) <= List.length body)%nat ->
  exists size scale prec ts unit,
    reports_new x31 x05 (vt :: h :: body)
      = Ok (RSensor vt size scale prec (S754_zero false) ts unit).
Proof.
  intros Hs Hl. fold (b2N h) in *. rewrite <- size_field in *.
  destruct (sensor_fields vt h body) as [v [E Hv]]; [unfold b2n; fold (b2N (and8 h x07)); lia|].
  assert (Hz : v = S754_zero false).
  { cbv zeta in Hv. rewrite !beq_num in Hv. change (b2N x01) with 1%N in Hv.
    change (b2N x02) with 2%N in Hv. change (b2N x04) with 4%N in Hv.
    destruct (N.eqb_spec (b2N (and8 h x07)) 1) as [E1|_]; [exfalso; apply Hs; cbn; auto|].
    destruct (N.eqb_spec (b2N (and8 h x07)) 2) as [E1|_]; [exfalso; apply Hs; cbn; auto|].
    destruct (N.eqb_spec (b2N (and8 h x07)) 4) as [E1|_]; [exfalso; apply Hs; cbn; auto|].
    rewrite Hv. destruct (N.ltb_spec 0 (b2N h / 32)) as [Hp|_]; [|reflexivity].
    assert (C : forall p, (1 <= p < 8)%N -> f64_div (S754_zero false) (f64_pow10 p) = S754_zero false).
    { intros p Hpp. assert (Hin : In p [1;2;3;4;5;6;7]%N) by (cbn; lia).
      cbn in Hin. repeat (destruct Hin as [<-|Hin]; [reflexivity|]). destruct Hin. }
    apply C. pose proof (b2N_lt h). lia. }
  subst v. eauto 10.
Qed.

(** ** Alarm fields (C62) *)
Lemma alarm_long t l s st ty ev r :
  reports_new x71 x05 (t :: l :: s :: st :: ty :: ev :: r)
  = Ok (RAlarm t l s ty ev st (t :: l :: s :: st :: ty :: ev :: r)).
Proof. reflexivity. Qed.

Lemma alarm_short t l r :
  (List.length r < 4)%nat ->
  reports_new x71 x05 (t :: l :: r) = Ok (RAlarm t l x00 x00 x00 x00 (t :: l :: r)).
Proof. intros H. destruct r as [|a [|b [|c [|d r]]]]; cbn in H; try lia; reflexivity. Qed.

Lemma alarm_too_short data :
  (List.length data < 2)%nat -> reports_new x71 x05 data = Fail ETooShort.
Proof. intros H. destruct data as [|a [|b r]]; cbn in *; try lia; reflexivity. Qed.

Lemma sensor_short_rejected data :
  ~ accepts KSensor data -> exists e, reports_new x31 x05 data = Fail e.
Proof.
  intros H. cbn [reports_new]. pose proof (new_sensor_kind data) as K.
  destruct ((2 <=? N.of_nat (List.length data))%N && (2 + byte_at data 1 mod 8 <=? N.of_nat (List.length data))%N) eqn:E; [|exact K].
  exfalso. apply H. apply andb_prop in E. destruct E as [E1 E2].
  apply N.leb_le in E1, E2. split; assumption.
Qed.

Lemma reading_exists l : l <> [] ->
  exists z, twos_complement l z /\ forall z', twos_complement l z' -> z' = z.
Proof.
  intros H. exists (be_signed l). split; [now apply be_signed_spec|].
  intros z' H'. exact (twos_complement_unique l z' _ H H' (be_signed_spec l H)).
Qed.

Lemma bad_size_witness : exists vt h body,
  ~ In (Byte.to_N h mod 8)%N [1; 2; 4]%N /\
  ~ exists e, reports_new x31 x05 (vt :: h :: body) = Fail e.
Proof.
  exists x01, x23, [x12; x34; x56]. split.
  - intros H. cbn in H. intuition discriminate.
  - intros [e H]. vm_compute in H. discriminate.
Qed.
