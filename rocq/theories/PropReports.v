(** Property theorems C12 - C17, C19 - C21, C62 (payload decoders). *)
From Verif Require Import ModelBase ModelReports ModelSerial SpecFrame SpecReports SpecFloat64
  ProofBase ProofReports ProofMessage ProofSensor.
From Coq Require Import Reals Floats.SpecFloat.
From Flocq Require Import Core.
Close Scope R_scope.
Open Scope nat_scope.

(** ** C12 *)
Theorem C12_bitmap_decoded : forall data,
  6 <= List.length data <= 29 ->
  exists arr, new_discovered_nodes data = Ok arr /\ List.length arr = 232 /\
    forall i, i < 232 -> nth i arr false = bit (nth (i / 8) data x00) (N.of_nat (i mod 8)).
Proof. exact discovered_nodes_bits. Qed.
Print Assumptions C12_bitmap_decoded.

Theorem C12_short_bitmap_is_error : forall data,
  List.length data < 6 -> new_discovered_nodes data = Fail ETooShort.
Proof. exact discovered_short. Qed.
Print Assumptions C12_short_bitmap_is_error.

(** Longer bitmaps do not fit the array: the code panics. *)
Theorem C12_long_bitmap_panics : forall data,
  new_discovered_nodes data = Panic <-> 29 < List.length data.
Proof. exact discovered_panic. Qed.
Print Assumptions C12_long_bitmap_panics.

Example C12_example :
  match new_discovered_nodes [x15; x00; x00; x00; x00; x80] with
  | Ok arr => filter (fun i => nth i arr false) (seq 0 232) = [0; 2; 4; 47]
  | _ => False
  end.
Proof. vm_compute. reflexivity. Qed.

(** ** C13 *)
Theorem C13_protocol_info_bits : forall b0 b1 b2 b3 b4 b5 r,
  exists pi, new_protocol_info (b0 :: b1 :: b2 :: b3 :: b4 :: b5 :: r) = Ok pi /\
    pi_listening pi = bit b0 7 /\ pi_routing pi = bit b0 6 /\
    Byte.to_N (pi_version pi) = (Byte.to_N b0 mod 8 + 1)%N /\
    pi_maxbaud pi = (if (Byte.to_N b0 / 8 mod 8 =? 2)%N then 40000 else 9600)%Z /\
    pi_flirs pi = bit b1 5 || bit b1 6 /\ pi_beaming pi = bit b1 4 /\ pi_security pi = bit b1 0 /\
    pi_basic pi = b3 /\ pi_generic pi = b4 /\ pi_specific pi = b5.
Proof. exact protocol_info_fields. Qed.
Print Assumptions C13_protocol_info_bits.

Theorem C13_short_payload_is_error : forall data,
  List.length data < 6 -> new_protocol_info data = Fail ETooShort.
Proof. exact protocol_info_short. Qed.
Print Assumptions C13_short_payload_is_error.

Example C13_example : new_protocol_info [xd3; x9c; x00; x04; x10; x01] =
  Ok (mkPI true true true x04 false false 40000 x04 x10 x01).
Proof. vm_compute. reflexivity. Qed.

(** ** C14 *)
Theorem C14_reports_total : forall c class data,
  (exists r, reports_new c class data = Ok r) \/ (exists e, reports_new c class data = Fail e).
Proof. exact reports_new_total. Qed.
Print Assumptions C14_reports_total.

Theorem C14_reports_dispatch_sound : forall c class data r,
  reports_new c class data = Ok r ->
  dispatch (Byte.to_N c) (Byte.to_N class) (kind_of r) /\ accepts (kind_of r) data.
Proof. exact reports_new_sound. Qed.
Print Assumptions C14_reports_dispatch_sound.

Theorem C14_reports_dispatch_complete : forall c class data k,
  dispatch (Byte.to_N c) (Byte.to_N class) k -> accepts k data ->
  exists r, reports_new c class data = Ok r /\ kind_of r = k.
Proof. exact reports_new_complete. Qed.
Print Assumptions C14_reports_dispatch_complete.

Example C14_example : dispatch (Byte.to_N x31) (Byte.to_N x05) KSensor /\
  accepts KSensor [x01; x22; x00; xd7] /\ ~ accepts KSensor [x01; x24; x00; xd7].
Proof. split; [constructor|]. cbn. split; [split; discriminate|]. intros [_ H]. now apply H. Qed.

(** ** C15 *)
Theorem C15_switch_binary_v1 : forall b,
  reports_new x25 x03 [b] =
    Ok (RSwitchBinary1 (Byte.to_N b =? 255)%N (negb (Byte.to_N b =? 254)%N)).
Proof. exact switch_binary1_spec. Qed.
Print Assumptions C15_switch_binary_v1.

Theorem C15_switch_binary_v2 : forall c t d,
  reports_new x25 x03 [c; t; d] =
    Ok (RSwitchBinary2 (negb (Byte.to_N c =? 0)%N) (negb (Byte.to_N t =? 0)%N) d).
Proof. exact switch_binary2_spec. Qed.
Print Assumptions C15_switch_binary_v2.

Theorem C15_switch_multilevel_v1 : forall b,
  reports_new x26 x03 [b] =
    Ok (RSwitchMulti1 (N.min (Byte.to_N b) 100) (negb (Byte.to_N b =? 254)%N)).
Proof. exact switch_multi1_spec. Qed.
Print Assumptions C15_switch_multilevel_v1.

Theorem C15_switch_multilevel_v4 : forall c t d,
  reports_new x26 x03 [c; t; d] =
    Ok (RSwitchMulti4 (N.min (Byte.to_N c) 100) (N.min (Byte.to_N t) 100) d
          (negb (Byte.to_N c =? 254)%N) (negb (Byte.to_N t =? 254)%N)).
Proof. exact switch_multi4_spec. Qed.
Print Assumptions C15_switch_multilevel_v4.

Theorem C15_switch_other_lengths : forall c data,
  c = x25 \/ c = x26 -> List.length data <> 1 -> List.length data <> 3 ->
  reports_new c x03 data = Fail EUnknownCommand.
Proof. exact switch_other_length. Qed.
Print Assumptions C15_switch_other_lengths.

Example C15_example :
  reports_new x26 x03 [xfe; x63; x80] = Ok (RSwitchMulti4 100 99 x80 false true) /\
  reports_new x25 x03 [x00; xff] = Fail EUnknownCommand.
Proof. split; vm_compute; reflexivity. Qed.

(** ** C16 *)
(** [size] and [prec] are the low and high three bits of the header byte; [z]
    is the two's complement integer transmitted; the reported value is a double
    nearest to z / 10^prec (ties to even), whatever bytes follow. *)
Theorem C16_sensor_value_nearest : forall vt h body z,
  let size := (Byte.to_N h mod 8)%N in
  let prec := (Byte.to_N h / 32)%N in
  In size [1; 2; 4]%N -> N.to_nat size <= List.length body ->
  twos_complement (firstn (N.to_nat size) body) z ->
  exists sz sc pr v ts un,
    reports_new x31 x05 (vt :: h :: body) = Ok (RSensor vt sz sc pr v ts un) /\
    Byte.to_N sz = size /\ Byte.to_N sc = (Byte.to_N h / 8 mod 4)%N /\ Byte.to_N pr = prec /\
    is_double v /\
    double_value v = round radix2 (SpecFloat.fexp 53 1024) ZnearestE (IZR z / IZR (10 ^ Z.of_N prec)) /\
    nearest_double v (IZR z / IZR (10 ^ Z.of_N prec)).
Proof. exact sensor_value. Qed.
Print Assumptions C16_sensor_value_nearest.

(** Hypotheses are met for every such payload: each byte string has exactly one
    two's complement reading. *)
Theorem C16_reading_exists : forall l, l <> [] ->
  exists z, twos_complement l z /\ forall z', twos_complement l z' -> z' = z.
Proof. exact reading_exists. Qed.
Print Assumptions C16_reading_exists.

Example C16_example : twos_complement [xff; x38] (-200) /\
  (Byte.to_N x22 mod 8 = 2 /\ Byte.to_N x22 / 32 = 1)%N.
Proof. vm_compute. intuition discriminate. Qed.

(** ** C17 *)
(** Full statement (false of the code): if the size field is not 1, 2 or 4,
    the decoder returns an error. *)
Theorem C17_bad_size_rejected_refuted : exists vt h body,
  ~ In (Byte.to_N h mod 8)%N [1; 2; 4]%N /\
  ~ exists e, reports_new x31 x05 (vt :: h :: body) = Fail e.
Proof. exact bad_size_witness. Qed.
Print Assumptions C17_bad_size_rejected_refuted.

(** It is false of every such payload that is long enough: the reading is 0. *)
Theorem C17_bad_size_reads_zero : forall vt h body,
  ~ In (Byte.to_N h mod 8)%N [1; 2; 4]%N ->
  N.to_nat (Byte.to_N h mod 8) <= List.length body ->
  exists size scale prec ts unit,
    reports_new x31 x05 (vt :: h :: body)
      = Ok (RSensor vt size scale prec (S754_zero false) ts unit).
Proof. exact sensor_bad_size. Qed.
Print Assumptions C17_bad_size_reads_zero.

(** What does hold: a payload shorter than its size field says is an error. *)
Theorem C17_short_payload_rejected_partial : forall data,
  ~ accepts KSensor data -> exists e, reports_new x31 x05 data = Fail e.
Proof. exact sensor_short_rejected. Qed.
Print Assumptions C17_short_payload_rejected_partial.

Example C17_example : exists sz sc pr ts un,
  reports_new x31 x05 [x01; x23; x12; x34; x56] = Ok (RSensor x01 sz sc pr (S754_zero false) ts un).
Proof. do 5 eexists. vm_compute. reflexivity. Qed.

(** ** C19 *)
Theorem C19_duration_span : forall d,
  (Byte.to_N d <= 253)%N ->
  exists s, duration_secs d = Ok s /\ (0 <= s <= 126 * 60)%Z /\
    s = (if (Byte.to_N d <=? 127)%N then Z.of_N (Byte.to_N d) else (Z.of_N (Byte.to_N d) - 127) * 60)%Z /\
    read_duration 0 0 (duration_string d) = Some (Z.to_N s).
Proof. exact duration_ok. Qed.
Print Assumptions C19_duration_span.

Theorem C19_duration_factory_default : forall d,
  (254 <= Byte.to_N d)%N ->
  duration_secs d = Fail EFactoryDefault /\ duration_string d = "Factory default duration"%string.
Proof. exact duration_bad. Qed.
Print Assumptions C19_duration_factory_default.

Example C19_example : duration_string xfd = "2h6m0s"%string /\ duration_secs xfd = Ok 7560%Z.
Proof. split; vm_compute; reflexivity. Qed.

(** ** C20 *)
Theorem C20_manufacturer_hex : forall a b c d e f,
  exists m t i, reports_new x72 x05 [a; b; c; d; e; f] = Ok (RManufacturer m t i) /\
    (String.length m = 4 /\ String.length t = 4 /\ String.length i = 4) /\
    hex_value m = Some (256 * Byte.to_N a + Byte.to_N b)%N /\
    hex_value t = Some (256 * Byte.to_N c + Byte.to_N d)%N /\
    hex_value i = Some (256 * Byte.to_N e + Byte.to_N f)%N.
Proof. exact manufacturer_spec. Qed.
Print Assumptions C20_manufacturer_hex.

Theorem C20_other_lengths : forall data,
  List.length data <> 6 -> reports_new x72 x05 data = Fail EWrongLength.
Proof. exact manufacturer_other_length. Qed.
Print Assumptions C20_other_lengths.

Example C20_example :
  reports_new x72 x05 [x00; x86; x00; x03; x00; x0b] = Ok (RManufacturer "0086" "0003" "000b").
Proof. vm_compute. reflexivity. Qed.

(** ** C21 *)
Theorem C21_endpoints_decoded : forall a b r,
  reports_new x60 x08 (a :: b :: r) = Ok (REndpoints (bit a 7) (bit a 6) (Byte.to_N b)).
Proof. exact endpoints_spec. Qed.
Print Assumptions C21_endpoints_decoded.

Theorem C21_short_is_error : forall data,
  List.length data < 2 -> reports_new x60 x08 data = Fail ETooShort.
Proof. exact endpoints_short. Qed.
Print Assumptions C21_short_is_error.

Example C21_example : reports_new x60 x08 [x40; x04; x99] = Ok (REndpoints false true 4).
Proof. vm_compute. reflexivity. Qed.

(** ** C62 *)
Theorem C62_alarm_long : forall t l s st ty ev r,
  reports_new x71 x05 (t :: l :: s :: st :: ty :: ev :: r)
  = Ok (RAlarm t l s ty ev st (t :: l :: s :: st :: ty :: ev :: r)).
Proof. exact alarm_long. Qed.
Print Assumptions C62_alarm_long.

Theorem C62_alarm_short : forall t l r,
  List.length r < 4 ->
  reports_new x71 x05 (t :: l :: r) = Ok (RAlarm t l x00 x00 x00 x00 (t :: l :: r)).
Proof. exact alarm_short. Qed.
Print Assumptions C62_alarm_short.

Theorem C62_alarm_too_short : forall data,
  List.length data < 2 -> reports_new x71 x05 data = Fail ETooShort.
Proof. exact alarm_too_short. Qed.
Print Assumptions C62_alarm_too_short.

Example C62_example :
  reports_new x71 x05 [x01; x02; x03; xff; x07; x08; x00] =
    Ok (RAlarm x01 x02 x03 x07 x08 xff [x01; x02; x03; xff; x07; x08; x00]).
Proof. vm_compute. reflexivity. Qed.
