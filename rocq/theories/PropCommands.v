(** Property theorems C18, C22 - C26. *)
From Verif Require Import ModelBase ModelReports ModelSerial ModelCommands ModelNodes
  SpecFrame SpecFloat64 SpecCommands SpecNodes ProofCommands.
From Coq Require Import Reals Floats.SpecFloat.
Close Scope R_scope.
Open Scope nat_scope.

(** ** C18 *)
Theorem C18_sensor_types_kept_apart : forall d1 d2 vt1 s1 sc1 p1 v1 ts1 u1 vt2 s2 sc2 p2 v2 ts2 u2,
  reports_new x31 x05 d1 = Ok (RSensor vt1 s1 sc1 p1 v1 ts1 u1) ->
  reports_new x31 x05 d2 = Ok (RSensor vt2 s2 sc2 p2 v2 ts2 u2) ->
  sensor_key ts1 u1 = sensor_key ts2 u2 -> vt1 = vt2.
Proof. exact sensor_keys_distinct. Qed.
Print Assumptions C18_sensor_types_kept_apart.

(** Different units of one type are kept apart as well. *)
Theorem C18_units_kept_apart : forall d1 d2 vt1 s1 sc1 p1 v1 ts1 u1 vt2 s2 sc2 p2 v2 ts2 u2,
  reports_new x31 x05 d1 = Ok (RSensor vt1 s1 sc1 p1 v1 ts1 u1) ->
  reports_new x31 x05 d2 = Ok (RSensor vt2 s2 sc2 p2 v2 ts2 u2) ->
  sensor_key ts1 u1 = sensor_key ts2 u2 -> u1 = u2.
Proof. exact sensor_units_distinct. Qed.
Print Assumptions C18_units_kept_apart.

(** Nor can a reading be stored under one of the keys used for other things. *)
Theorem C18_reserved_keys : forall t u,
  ~ In (sensor_key t u) ["level"; "alarm"; "alarmLastType"; "on"]%string.
Proof. exact sensor_keys_reserved. Qed.
Print Assumptions C18_reserved_keys.

Example C18_example : exists s sc p v s' sc' p' v',
  reports_new x31 x05 [x01; x22; x00; xd7] = Ok (RSensor x01 s sc p v "Temperature" "C") /\
  reports_new x31 x05 [x0b; x22; x00; xd7] = Ok (RSensor x0b s' sc' p' v' "DewPoint" "C") /\
  sensor_key "Temperature" "C" = "temperature_c"%string.
Proof. do 8 eexists. split; [vm_compute; reflexivity|]. split; vm_compute; reflexivity. Qed.

(** ** C22 *)
Theorem C22_level_sent : forall undef node v,
  (is_double v \/ exists s, v = S754_infinity s) ->
  exists nb lb, encode_switch_multilevel undef node v = multilevel_set nb lb /\
    low_byte node nb /\ level_sent v (Byte.to_N lb) /\ (Byte.to_N lb <= 99)%N.
Proof. exact multilevel_encode_spec. Qed.
Print Assumptions C22_level_sent.

(** The specification leaves no choice. *)
Theorem C22_level_determined : forall v a b, level_sent v a -> level_sent v b -> a = b.
Proof. exact level_sent_unique. Qed.
Print Assumptions C22_level_determined.

(** 50.9999... (the double just below 51) is sent as 50. *)
Example C22_example : encode_switch_multilevel x00 7 (S754_finite false 7177611906121727 (-47))
  = multilevel_set x07 x32.
Proof. vm_compute. reflexivity. Qed.

(** ** C23 *)
Theorem C23_encapsulation : forall msg e, 3 <= List.length msg ->
  exists out eb, encode_multichannel msg e = Ok out /\ low_byte e eb /\ encapsulated msg eb out.
Proof. exact encap_spec. Qed.
Print Assumptions C23_encapsulation.

Theorem C23_recoverable : forall m1 m2 e1 e2 out,
  encapsulated m1 e1 out -> encapsulated m2 e2 out -> m1 = m2 /\ e1 = e2.
Proof. exact encap_recover. Qed.
Print Assumptions C23_recoverable.

(** Shorter commands panic. *)
Theorem C23_short_panics : forall msg e, List.length msg < 3 -> encode_multichannel msg e = Panic.
Proof. exact encap_short. Qed.
Print Assumptions C23_short_panics.

Example C23_example : encode_multichannel (binary_set x05 xff) 2 =
  Ok [x13; x05; x07; x60; x0d; x01; x02; x25; x01; xff; x25].
Proof. vm_compute. reflexivity. Qed.

(** ** C24 *)
(** Full statement (false of the code): the length byte of commands.Raw is the
    number of bytes after it.  It is wrong for every payload. *)
Theorem C24_raw_length_refuted : forall node data,
  exists nb lb, encode_raw node data = x13 :: nb :: lb :: data /\ low_byte node nb /\
    Byte.to_N lb <> N.of_nat (List.length data).
Proof. exact raw_length_wrong. Qed.
Print Assumptions C24_raw_length_refuted.

(** What it is instead: one more than the number of bytes. *)
Theorem C24_raw_length_partial : forall node data, List.length data < 255 ->
  exists nb lb, encode_raw node data = x13 :: nb :: lb :: data /\ low_byte node nb /\
    Byte.to_N lb = (N.of_nat (List.length data) + 1)%N.
Proof. exact raw_form. Qed.
Print Assumptions C24_raw_length_partial.

Example C24_example : encode_raw 9 [x72; x04; x00] = [x13; x09; x04; x72; x04; x00].
Proof. vm_compute. reflexivity. Qed.

(** ** C25 *)
Theorem C25_on_off : forall n nb, low_byte (n_id n) nb ->
  (supports n x25 -> node_on n = [binary_set nb xff] /\ node_off n = [binary_set nb x00]) /\
  (~ supports n x25 -> supports n x26 ->
     node_on n = [multilevel_set nb x63] /\ node_off n = [multilevel_set nb x00]) /\
  (~ supports n x25 -> ~ supports n x26 -> node_on n = [] /\ node_off n = []).
Proof. exact node_switch_spec. Qed.
Print Assumptions C25_on_off.

Theorem C25_level : forall undef n v, (is_double v \/ exists s, v = S754_infinity s) ->
  (supports n x26 -> exists nb lb, node_level undef n v = [multilevel_set nb lb] /\
     low_byte (n_id n) nb /\ level_sent v (Byte.to_N lb)) /\
  (~ supports n x26 -> node_level undef n v = []).
Proof. exact node_level_spec. Qed.
Print Assumptions C25_level.

Theorem C25_wire_frames : forall undef n v cmd,
  In cmd (node_on n ++ node_off n ++ node_level undef n v) ->
  frame (compile_message cmd) /\
  exists mid cs, compile_message cmd = SOF :: mid ++ cmd ++ [cs] /\ List.length mid = 2.
Proof. exact node_frames. Qed.
Print Assumptions C25_wire_frames.

Definition dimmer : node :=
  with_states {| n_id := 12; n_awake := true; n_info := None; n_ms := None;
     n_brand := ""; n_product := ""; n_description := "";
     n_classes := Some [mkCC x20 true false false "1"; mkCC x26 true false false "1"];
     n_endpoints := None; n_bool := None; n_float := None;
     n_states_ok := false; n_identified := false |} (Some []) (Some []).
Example C25_example : node_on dimmer = [multilevel_set x0c x63] /\
  map compile_message (node_off dimmer) =
    [[x01; x09; x00; x13; x0c; x03; x26; x01; x00; x25; xe8]].
Proof. split; vm_compute; reflexivity. Qed.

(** ** C26 *)
(** Full statement (false of the code): for a device with [count] endpoints,
    Endpoint(k), 1 <= k <= count, addresses endpoint k; other k give nil. *)
Theorem C26_endpoint_addressing_refuted : exists n count k,
  (1 <= k <= Z.of_N count)%Z /\
  node_endpoint (set_endpoints n (made_endpoints n count)) k = Panic.
Proof. exact endpoint_lookup_wrong. Qed.
Print Assumptions C26_endpoint_addressing_refuted.

(** What the code does, for every k: Endpoint(k) addresses endpoint k + 1; the
    last endpoint is never reachable; Endpoint(count - 1) and negative k panic. *)
Theorem C26_endpoint_addressing_partial : forall n count k,
  let n' := set_endpoints n (made_endpoints n count) in
  ((0 <= k < Z.of_N count - 1)%Z ->
     exists e, node_endpoint n' k = Ok (Some e) /\ e_id e = (k + 1)%Z /\
       forall msg, 3 <= List.length msg -> exists out eb,
         endpoint_write e msg = Ok [out] /\ low_byte (k + 1) eb /\ encapsulated msg eb out) /\
  ((k < 0)%Z -> node_endpoint n' k = Panic) /\
  (k = Z.max 0 (Z.of_N count - 1) -> node_endpoint n' k = Panic) /\
  ((Z.max 0 (Z.of_N count - 1) < k)%Z -> node_endpoint n' k = Ok None).
Proof. exact endpoint_lookup. Qed.
Print Assumptions C26_endpoint_addressing_partial.

(** Commands sent through an endpoint are the node's own commands, encapsulated. *)
Theorem C26_endpoint_commands : forall n e, e_linked e = true ->
  (node_on n = [] -> endpoint_on n e = Ok []) /\
  (node_off n = [] -> endpoint_off n e = Ok []) /\
  (forall cmd, In cmd (node_on n) -> exists out eb,
     endpoint_on n e = Ok [out] /\ low_byte (e_id e) eb /\ encapsulated cmd eb out) /\
  (forall cmd, In cmd (node_off n) -> exists out eb,
     endpoint_off n e = Ok [out] /\ low_byte (e_id e) eb /\ encapsulated cmd eb out) /\
  (forall undef v cmd, In cmd (node_level undef n v) -> exists out eb,
     endpoint_level undef n e v = Ok [out] /\ low_byte (e_id e) eb /\ encapsulated cmd eb out).
Proof. exact endpoint_commands. Qed.
Print Assumptions C26_endpoint_commands.

Example C26_example : forall e, 
  node_endpoint (set_endpoints dimmer (made_endpoints dimmer 3)) 1 = Ok (Some e) -> e_id e = 2%Z.
Proof. intros e H. vm_compute in H. injection H as <-. reflexivity. Qed.

(** ** C86 *)
(** The full statement: [reports_new x31 x05 d1 = Ok (RSensor vt _ sc1 _ _ ts1 u1) ->
    reports_new x31 x05 d2 = Ok (RSensor vt _ sc2 _ _ ts2 u2) ->
    sensor_key ts1 u1 = sensor_key ts2 u2 -> sc1 = sc2].
    It is false: scales without a unit share a key. *)
Theorem C86_scales_kept_apart_refuted : exists d1 d2 vt s1 sc1 p1 v1 ts1 u1 s2 sc2 p2 v2 ts2 u2,
  reports_new x31 x05 d1 = Ok (RSensor vt s1 sc1 p1 v1 ts1 u1) /\
  reports_new x31 x05 d2 = Ok (RSensor vt s2 sc2 p2 v2 ts2 u2) /\
  sensor_key ts1 u1 = sensor_key ts2 u2 /\ sc1 <> sc2.
Proof. exact scales_mixed. Qed.
Print Assumptions C86_scales_kept_apart_refuted.

(** What is missing: readings without a unit, and the four types (solar
    radiation, CO2, electrical resistivity and conductivity) that have the same
    unit for every scale. *)
Theorem C86_scales_kept_apart_partial : forall d1 d2 vt1 s1 sc1 p1 v1 ts1 u1 vt2 s2 sc2 p2 v2 ts2 u2,
  reports_new x31 x05 d1 = Ok (RSensor vt1 s1 sc1 p1 v1 ts1 u1) ->
  reports_new x31 x05 d2 = Ok (RSensor vt2 s2 sc2 p2 v2 ts2 u2) ->
  u1 <> ""%string -> ~ In vt1 [x0a; x11; x1c; x1d] ->
  sensor_key ts1 u1 = sensor_key ts2 u2 -> vt1 = vt2 /\ sc1 = sc2.
Proof. exact scales_distinct. Qed.
Print Assumptions C86_scales_kept_apart_partial.

(** 21 degrees in Celsius and 70 in Fahrenheit. *)
Example C86_example : exists s1 p1 v1 s2 p2 v2,
  reports_new x31 x05 [x01; x01; x15] = Ok (RSensor x01 s1 x00 p1 v1 "Temperature" "C") /\
  reports_new x31 x05 [x01; x09; x46] = Ok (RSensor x01 s2 x01 p2 v2 "Temperature" "F").
Proof. do 6 eexists. split; vm_compute; reflexivity. Qed.
