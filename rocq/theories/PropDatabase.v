(** Properties of the device database, the mandatory table, its generator and
    the printed names. *)
From Verif Require Import ModelBase ModelReports ModelNodes DataDevices DataMandatory DataNames.
From Verif Require Import ModelDatabase SpecReports SpecDatabase ProofDatabase.
From Coq Require Import Permutation.
Local Open Scope string_scope.

(** ** C55: a lookup finds the device with exactly those ids, or nothing *)
Theorem C55_found_has_ids : forall m t i d, device_new m t i = Some d ->
  lower_text (d_manufacturer d) = m /\ lower_text (d_type d) = t /\ lower_text (d_id d) = i.
Proof. exact device_found. Qed.
Print Assumptions C55_found_has_ids.

Theorem C55_each_device_reachable_once : forall d, In d (map snd devices) ->
  exists m t i, (m < 65536 /\ t < 65536 /\ i < 65536)%N /\
    device_new (hex4 m) (hex4 t) (hex4 i) = Some d /\
    forall m' t' i', device_new m' t' i' = Some d -> (m', t', i') = (hex4 m, hex4 t, hex4 i).
Proof. exact device_reachable. Qed.
Print Assumptions C55_each_device_reachable_once.

(** From the bytes of a manufacturer report to the device. *)
Theorem C55_report_to_device : forall a b c d e f m t i dev,
  reports_new x72 x05 [a; b; c; d; e; f] = Ok (RManufacturer m t i) ->
  device_new m t i = Some dev ->
  hex_value (lower_text (d_manufacturer dev)) = Some (256 * Byte.to_N a + Byte.to_N b)%N /\
  hex_value (lower_text (d_type dev)) = Some (256 * Byte.to_N c + Byte.to_N d)%N /\
  hex_value (lower_text (d_id dev)) = Some (256 * Byte.to_N e + Byte.to_N f)%N.
Proof. exact report_lookup. Qed.
Print Assumptions C55_report_to_device.

Example C55_example : exists d, device_new "0081" "00a0" "0001" = Some d /\ d_type d = "00A0".
Proof. eexists. split; vm_compute; reflexivity. Qed.
Example C55_example_report : exists d,
  reports_new x72 x05 [x01; x0a; x11; x00; x4b; x00] = Ok (RManufacturer "010a" "1100" "4b00") /\
  device_new "010a" "1100" "4b00" = Some d.
Proof. eexists. split; vm_compute; reflexivity. Qed.
Example C55_example_absent : device_new "ffff" "0000" "0000" = None /\ List.length devices = 706%nat.
Proof. split; vm_compute; reflexivity. Qed.

(** ** C56: the mandatory lookup is a function of its arguments *)
Theorem C56_mandatory_lookup : forall order g s, Permutation definitions order ->
  (forall v, get_mandatory order g s = Some v <-> only_row definitions g s v) /\
  (get_mandatory order g s = None <-> forall v, ~ In (g, s, v) definitions).
Proof. exact mandatory_lookup. Qed.
Print Assumptions C56_mandatory_lookup.

(** Every row of the source text is found under the values of its two constants,
    with its classes; and there is nothing else in the table. *)
Theorem C56_all_rows_present :
  (forall g s ids, In (g, s, ids) mandatory_go ->
     exists gb sb v, In (g, gb) protocol_constants /\ In (s, sb) protocol_constants /\
       get_mandatory definitions gb sb = Some v /\ map cc_id v = ids) /\
  NoDup (map fst protocol_constants) /\ List.length definitions = List.length mandatory_go.
Proof. exact (conj row_by_name (conj constants_distinct definitions_all)). Qed.
Print Assumptions C56_all_rows_present.

Example C56_example :
  get_mandatory (rev definitions) x10 x01 = get_mandatory definitions x10 x01 /\
  (exists v, get_mandatory definitions x10 x01 = Some v /\ In (mandatory_class x25) v) /\
  get_mandatory definitions xff xff = None.
Proof.
  split; [vm_compute; reflexivity|]. split; [|vm_compute; reflexivity].
  eexists. split; [vm_compute; reflexivity|]. vm_compute. auto 30.
Qed.

(** ** C57: the committed table is what the generator makes of the text *)
Theorem C57_table_is_generated : generate mandatory_txt = Ok mandatory_go.
Proof. exact mandatory_generated. Qed.
Print Assumptions C57_table_is_generated.
Example C57_example : List.length mandatory_go = 35%nat /\
  generate ["# X - G - S"; "- Basic"; "- Version (v2 or newer)"; ""] = Ok [("G", "S", [x20; x86])].
Proof. split; vm_compute; reflexivity. Qed.

(** ** C60: class names of the specification text *)

(** The line for the multi-channel association class is read as plain
    association. *)
Theorem C60_names_refuted : exists text nm,
  names_class text nm /\ ~ In (nm, string_to_byte text) class_names.
Proof.
  exists "Multichannel Association (version 3 or newer)", "Multichannel Association".
  split.
  - split.
    + split; [cbn; auto 30|]. destruct (in_dec string_dec _ whole_names) as [W|W].
      * cbn in W. intuition discriminate.
      * exists "", " (version 3 or newer)". reflexivity.
    + intros nm' [I M]. cbn [map fst class_names In] in I.
      repeat (destruct I as [<-|I]); try contradiction;
        (destruct (in_dec string_dec _ whole_names) as [W|W];
         [ first [discriminate | exfalso; revert W; cbn; intuition discriminate]
         | apply contains_ok in M; first [discriminate | apply contains_ok; reflexivity] ]).
  - vm_compute. intuition discriminate.
Qed.
Print Assumptions C60_names_refuted.

(** Every other name is recognised wherever it is the largest name mentioned. *)
Theorem C60_names_partial : forall text nm,
  names_class text nm -> nm <> "Multichannel Association" ->
  In (nm, string_to_byte text) class_names.
Proof. exact string_to_byte_names. Qed.
Print Assumptions C60_names_partial.

Theorem C60_recognised_is_mentioned : forall text, string_to_byte text <> x00 ->
  exists nm, mentions text nm /\ In (nm, string_to_byte text) class_names.
Proof. exact string_to_byte_sound. Qed.
Print Assumptions C60_recognised_is_mentioned.

Theorem C60_unrecognised_mentions_nothing : forall text, string_to_byte text = x00 ->
  forall nm, ~ mentions text nm.
Proof. exact string_to_byte_unknown. Qed.
Print Assumptions C60_unrecognised_mentions_nothing.

Example C60_example : names_class "Association Group Information (v1)" "Association Group Information" /\
  string_to_byte "Association Group Information (v1)" = x59 /\ string_to_byte "Simple AV" = x00.
Proof.
  split; [|split; reflexivity]. split.
  - split; [cbn; auto 30|]. destruct (in_dec string_dec _ whole_names) as [W|W].
    + cbn in W. intuition discriminate.
    + exists "", " (v1)". reflexivity.
  - intros nm' [I M]. cbn [map fst class_names In] in I.
    repeat (destruct I as [<-|I]); try contradiction;
      (destruct (in_dec string_dec _ whole_names) as [W|W];
       [ first [discriminate | exfalso; revert W; cbn; intuition discriminate]
       | apply contains_ok in M; first [discriminate | apply contains_ok; reflexivity] ]).
Qed.

(** ** C61: printed names *)
Theorem C61_function_names_differ : forall a b,
  function_string a = function_string b -> function_string a <> "" -> a = b.
Proof. exact function_string_inj. Qed.
Print Assumptions C61_function_names_differ.
Theorem C61_command_names_differ : forall a b,
  command_string a = command_string b -> command_string a <> "" -> a = b.
Proof. exact command_string_inj. Qed.
Print Assumptions C61_command_names_differ.
Theorem C61_function_constants : forall name b,
  In (name, b) function_constants -> function_string b = name.
Proof. exact function_constants_ok. Qed.
Print Assumptions C61_function_constants.

(** Eight command class constants do not print their name; [Mark] moreover has
    a code of its own that no device uses. *)
Theorem C61_command_constants_refuted : exists name b,
  In (name, b) command_constants /\ command_string b = "" /\
  exists b', command_string b' = name /\ b' <> b.
Proof.
  exists "Mark", x0e. split; [vm_compute; auto 60|]. split; [reflexivity|].
  exists xef. split; [reflexivity|discriminate].
Qed.
Print Assumptions C61_command_constants_refuted.
Theorem C61_command_constants_partial : forall name b,
  In (name, b) command_constants ->
  (~ In name unnamed_commands -> command_string b = name) /\
  (In name unnamed_commands -> command_string b = "").
Proof.
  intros name b H. split; [now apply command_constants_ok|now apply command_constants_unnamed].
Qed.
Print Assumptions C61_command_constants_partial.
Example C61_example : function_string x13 = "SendData" /\ command_string x84 = "WakeUp" /\
  List.length function_constants = 75%nat /\ List.length command_constants = 51%nat /\
  command_string x98 = "" /\ In ("Security", x98) command_constants.
Proof. repeat split; try reflexivity. vm_compute. auto 60. Qed.

(** ** C70: blank lines after the specification text do not matter *)

(** Without a final blank line the last block is lost. *)
Theorem C70_final_blank_refuted : exists lines l,
  blank_line l /\ generate (lines ++ [l])%list <> generate lines.
Proof.
  exists ["# X - G - S"; "- Basic"], "". split; [constructor|]. vm_compute. discriminate.
Qed.
Print Assumptions C70_final_blank_refuted.
Theorem C70_final_blank_partial : forall lines l l',
  blank_line l -> blank_line l' ->
  generate ((lines ++ [l]) ++ [l'])%list = generate (lines ++ [l])%list.
Proof. exact generate_blank. Qed.
Print Assumptions C70_final_blank_partial.
Example C70_example : generate ["# X - G - S"; "- Basic"; " "; ""] = Ok [("G", "S", [x20])] /\
  generate ["# X - G - S"; "- Basic"] = Ok [].
Proof. split; vm_compute; reflexivity. Qed.
