(** C109-C111: the text a report is printed as. *)
From Verif Require Import ModelBase ModelReports ModelText SpecFrame SpecReports SpecText
  ProofText ProofSensorText.
From Coq Require Import Floats.SpecFloat.
Local Open Scope string_scope.

(** ** C109 *)
Theorem C109_alarm_fields : forall t l s st ty ev rest r,
  reports_new x71 x05 (t :: l :: s :: st :: ty :: ev :: rest) = Ok r ->
  hex_field "type" (report_text r) = Some (Byte.to_N t) /\
  hex_field "level" (report_text r) = Some (Byte.to_N l) /\
  hex_field "sensorSrcID" (report_text r) = Some (Byte.to_N s) /\
  hex_field "status" (report_text r) = Some (Byte.to_N st) /\
  hex_field "sensorType" (report_text r) = Some (Byte.to_N ty) /\
  hex_field "event" (report_text r) = Some (Byte.to_N ev).
Proof. exact alarm_text_long. Qed.
Print Assumptions C109_alarm_fields.

(** A short alarm shows no fields it does not have. *)
Theorem C109_short_alarm_fields : forall t l rest r,
  List.length rest < 4 ->
  reports_new x71 x05 (t :: l :: rest) = Ok r ->
  hex_field "type" (report_text r) = Some (Byte.to_N t) /\
  hex_field "level" (report_text r) = Some (Byte.to_N l) /\
  field "sensorSrcID" (report_text r) = None /\ field "status" (report_text r) = None /\
  field "sensorType" (report_text r) = None /\ field "event" (report_text r) = None.
Proof. exact alarm_text_short. Qed.
Print Assumptions C109_short_alarm_fields.

Theorem C109_product_fields : forall a b c d e f r,
  reports_new x72 x05 [a; b; c; d; e; f] = Ok r ->
  hex_field "manufacturer" (report_text r) = Some (256 * Byte.to_N a + Byte.to_N b)%N /\
  hex_field "type" (report_text r) = Some (256 * Byte.to_N c + Byte.to_N d)%N /\
  hex_field "id" (report_text r) = Some (256 * Byte.to_N e + Byte.to_N f)%N.
Proof. exact product_text. Qed.
Print Assumptions C109_product_fields.

Theorem C109_endpoints_fields : forall a b rest r,
  reports_new x60 x08 (a :: b :: rest) = Ok r ->
  field "dynamic" (report_text r) = Some (truth (bit a 7)) /\
  field "identical" (report_text r) = Some (truth (bit a 6)) /\
  exists n, field "endpoints" (report_text r) = Some n /\ dec_value n = Some (Byte.to_N b).
Proof. exact endpoints_text. Qed.
Print Assumptions C109_endpoints_fields.

Example C109_example :
  (exists r, reports_new x71 x05 [x01; xff; x03; x0a; x05; x06] = Ok r /\
     report_text r = "alarm type:1 level:ff sensorSrcID:3 status:a sensorType:5 event:6") /\
  (exists r, reports_new x72 x05 [x00; x86; x00; x03; x00; x0b] = Ok r /\
     report_text r = "manufacturerSpecific manufacturer:0086 type:0003 id:000b (0086:0003:000b)") /\
  (exists r, reports_new x60 x08 [x40; x0c] = Ok r /\
     report_text r = "multiChannelEndpoints dynamic:false identical:true endpoints:12") /\
  (* the reader is not satisfied with anything *)
  hex_field "level" "alarm type:1 lvl:2" = None /\ hex_field "type" "alarm type:1x" = None.
Proof.
  split; [eexists; split; vm_compute; reflexivity|].
  split; [eexists; split; vm_compute; reflexivity|].
  split; [eexists; split; vm_compute; reflexivity|]. split; vm_compute; reflexivity.
Qed.

(** ** C110 *)
(** The property as stated includes reports of an unknown state; the text of the
    first version of the on/off report says "false" for them. *)
Theorem C110_unknown_is_shown_refuted : exists b r,
  reports_new x25 x03 [b] = Ok r /\ Byte.to_N b = 254%N /\ report_text r = "current:false" /\
  ~ (exists v, field "current" (report_text r) = Some v /\ switch_shown b v).
Proof.
  exists xfe. destruct binary1_unknown_shown as [r [A [B C]]]. exists r.
  split; [exact A|]. split; [reflexivity|]. split; [exact B|exact C].
Qed.
Print Assumptions C110_unknown_is_shown_refuted.

(** Full statement: without the hypothesis on b. *)
Theorem C110_switch_is_shown_partial : forall b r,
  Byte.to_N b <> 254%N ->
  reports_new x25 x03 [b] = Ok r ->
  exists v, field "current" (report_text r) = Some v /\ switch_shown b v.
Proof. exact binary1_text. Qed.
Print Assumptions C110_switch_is_shown_partial.

Theorem C110_switch_transition_is_shown : forall c t d r,
  reports_new x25 x03 [c; t; d] = Ok r ->
  field "current" (report_text r) = Some (truth (negb (Byte.to_N c =? 0)%N)) /\
  field "target" (report_text r) = Some (truth (negb (Byte.to_N t =? 0)%N)) /\
  exists v, rest_of "duration" (report_text r) = Some v /\ duration_shown d v.
Proof. exact binary2_text. Qed.
Print Assumptions C110_switch_transition_is_shown.

Theorem C110_level_is_shown : forall b r,
  reports_new x26 x03 [b] = Ok r ->
  exists v, field "current" (report_text r) = Some v /\ level_shown b v.
Proof. exact multi1_text. Qed.
Print Assumptions C110_level_is_shown.

Theorem C110_level_transition_is_shown : forall c t d r,
  reports_new x26 x03 [c; t; d] = Ok r ->
  (exists v, field "current" (report_text r) = Some v /\ level_shown c v) /\
  (exists v, field "target" (report_text r) = Some v /\ level_shown t v) /\
  (exists v, rest_of "duration" (report_text r) = Some v /\ duration_shown d v).
Proof. exact multi4_text. Qed.
Print Assumptions C110_level_transition_is_shown.

Example C110_example :
  (exists r, reports_new x26 x03 [x2a; xfe; x81] = Ok r /\
     report_text r = "current:42.000000 target:unknown duration:2m0s") /\
  (exists r, reports_new x26 x03 [xff; x00; xff] = Ok r /\
     report_text r = "current:100.000000 target:0.000000 duration:Factory default duration") /\
  (exists r, reports_new x25 x03 [x00; x01; x05] = Ok r /\
     report_text r = "current:false target:true duration:5s") /\
  ~ level_shown x2a "current" /\ ~ duration_shown x81 "2s".
Proof.
  split; [eexists; split; vm_compute; reflexivity|].
  split; [eexists; split; vm_compute; reflexivity|].
  split; [eexists; split; vm_compute; reflexivity|]. split; vm_compute; discriminate.
Qed.

(** ** C111 *)
(** The printed number [k]/10^6 is a nearest one to the transmitted z/10^prec:
    it differs by at most half a millionth. *)
Theorem C111_reading_is_shown : forall vt h body z r,
  let size := (Byte.to_N h mod 8)%N in
  let prec := (Byte.to_N h / 32)%N in
  In size [1; 2; 4]%N -> N.to_nat size <= List.length body ->
  twos_complement (firstn (N.to_nat size) body) z ->
  reports_new x31 x05 (vt :: h :: body) = Ok r ->
  exists k, read_millionths (word (report_text r)) = Some k /\
    (2 * Z.abs (k * 10 ^ Z.of_N prec - z * 1000000) <= 10 ^ Z.of_N prec)%Z.
Proof. exact sensor_text. Qed.
Print Assumptions C111_reading_is_shown.

(** It is the transmitted number itself if that has at most six decimals. *)
Theorem C111_reading_is_exact : forall vt h body z r,
  let size := (Byte.to_N h mod 8)%N in
  let prec := (Byte.to_N h / 32)%N in
  In size [1; 2; 4]%N -> N.to_nat size <= List.length body -> (prec <= 6)%N ->
  twos_complement (firstn (N.to_nat size) body) z ->
  reports_new x31 x05 (vt :: h :: body) = Ok r ->
  exists k, read_millionths (word (report_text r)) = Some k /\
    (k * 10 ^ Z.of_N prec = z * 1000000)%Z.
Proof. exact sensor_text_exact. Qed.
Print Assumptions C111_reading_is_exact.

(** Reports with the same text are of the same type and in the same unit. *)
Theorem C111_type_and_unit_are_shown :
  forall d1 d2 v1 z1 c1 p1 x1 t1 u1 v2 z2 c2 p2 x2 t2 u2,
  reports_new x31 x05 d1 = Ok (RSensor v1 z1 c1 p1 x1 t1 u1) ->
  reports_new x31 x05 d2 = Ok (RSensor v2 z2 c2 p2 x2 t2 u2) ->
  report_text (RSensor v1 z1 c1 p1 x1 t1 u1) = report_text (RSensor v2 z2 c2 p2 x2 t2 u2) ->
  v1 = v2 /\ t1 = t2 /\ u1 = u2.
Proof. exact sensor_kind. Qed.
Print Assumptions C111_type_and_unit_are_shown.

Example C111_example :
  (exists r, reports_new x31 x05 [x01; x42; xff; x09] = Ok r /\
     twos_complement [xff; x09] (-247) /\ report_text r = "-2.470000 Temperature C") /\
  (* the largest reading with six decimals is printed exactly *)
  (exists r, reports_new x31 x05 [x1a; xd4; x7f; xff; xff; xff] = Ok r /\
     twos_complement [x7f; xff; xff; xff] 2147483647 /\
     report_text r = "2147.483647 SeismicMagnitude surface wave") /\
  (* seven decimals are rounded *)
  (exists r, reports_new x31 x05 [xc8; xe2; x00; x0f] = Ok r /\
     report_text r = "0.000002 Unknown (200) ").
Proof.
  split; [eexists; split; [vm_compute; reflexivity|split; [split; [split; [discriminate|reflexivity]|reflexivity]|vm_compute; reflexivity]]|].
  split; [eexists; split; [vm_compute; reflexivity|split; [split; [split; [discriminate|reflexivity]|reflexivity]|vm_compute; reflexivity]]|].
  eexists. split; vm_compute; reflexivity.
Qed.
