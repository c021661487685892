(** Properties of the parameters in the device table. *)
From Verif Require Import ModelBase ModelNodes DataDevices DataFiles DataParameters ModelDatabase ModelGenerator ModelParameters.
From Verif Require Import SpecGenerator SpecParameters ProofParameters.
Local Open Scope string_scope.

(** ** C114: the parameters of a device are those of the first file that mentions it *)
Theorem C114_table_up_to_date : go_full (generator_full [] full_files) = Some full_devices.
Proof. exact full_built. Qed.
Print Assumptions C114_table_up_to_date.

(** [full_new] is [device_new] with the parameters. *)
Theorem C114_same_devices : forall m t i, device_new m t i = option_map fst (full_new m t i).
Proof. exact new_noparams. Qed.
Print Assumptions C114_same_devices.

Theorem C114_parameters_sound : forall m t i d qs, full_new m t i = Some (d, qs) ->
  exists f ps r, first_full full_files f ps r /\ m ++ "_" ++ t ++ "_" ++ i = to_lower (full_id f r) /\
    device_matches f r d /\ Forall2 parameter_matches ps qs.
Proof. exact full_sound. Qed.
Print Assumptions C114_parameters_sound.

Theorem C114_parameters_complete : forall f ps r, first_full full_files f ps r ->
  exists d qs, full_new (to_lower (j_manufacturer_id f)) (to_lower (fst r)) (to_lower (snd r)) = Some (d, qs) /\
    device_matches f r d /\ Forall2 parameter_matches ps qs.
Proof. exact full_complete. Qed.
Print Assumptions C114_parameters_complete.

(** The same for any files the generator can make a table of. *)
Theorem C114_any_files : forall fs,
  usable (map fst fs) -> (forall f ps p, In (f, ps) fs -> In p ps -> plain_parameter p) ->
  exists ds, go_full (generator_full [] fs) = Some ds /\
    (forall f ps r, first_full fs f ps r ->
       exists d qs, alookup (to_lower (full_id f r)) ds = Some (d, qs) /\ device_matches f r d /\ Forall2 parameter_matches ps qs) /\
    (forall k d qs, alookup k ds = Some (d, qs) ->
       exists f ps r, first_full fs f ps r /\ k = to_lower (full_id f r) /\ device_matches f r d /\ Forall2 parameter_matches ps qs).
Proof. exact full_table. Qed.
Print Assumptions C114_any_files.

Example C114_example : List.length full_files = 553%nat /\
  List.length (flat_map snd full_files) = 3402%nat /\
  List.length (flat_map (fun x => snd (snd x)) full_devices) = 5084%nat /\ usable (map fst full_files).
Proof. split; [vm_compute; reflexivity|]. split; [vm_compute; reflexivity|]. split; [vm_compute; reflexivity|exact full_usable]. Qed.
Example C114_example_device : exists f ps r, first_full full_files f ps r /\ (5 <= List.length ps)%nat /\
  existsb (fun p => match jp_options p with [] => true | _ => false end) ps = true /\
  existsb (fun p => match jp_options p with [] => false | _ => true end) ps = true.
Proof. exact some_parameters. Qed.

(** ** C115: the table allows the values of a parameter that the file allows *)
(** False, even of the value the file gives as the default: if the file names some
    of the values, its range is not in the table.  (Nor is the default.) *)
Theorem C115_values_allowed_refuted : exists f ps r d qs k p q, first_full full_files f ps r /\
  full_new (to_lower (j_manufacturer_id f)) (to_lower (fst r)) (to_lower (snd r)) = Some (d, qs) /\
  nth_error ps k = Some p /\ nth_error qs k = Some q /\
  file_allows p (jp_default p) /\ ~ table_allows q (jp_default p) /\ gp_default q = "".
Proof. exact default_refuted. Qed.
Print Assumptions C115_values_allowed_refuted.

(** True if the file names no values; otherwise exactly the named ones are allowed. *)
Theorem C115_values_allowed_partial : forall f ps r d qs k p q, first_full full_files f ps r ->
  full_new (to_lower (j_manufacturer_id f)) (to_lower (fst r)) (to_lower (snd r)) = Some (d, qs) ->
  nth_error ps k = Some p -> nth_error qs k = Some q ->
  (jp_options p = [] -> forall v, table_allows q v <-> file_allows p v) /\
  (jp_options p <> [] -> forall v, table_allows q v <-> In v (map fst (jp_options p))).
Proof. exact values_exact. Qed.
Print Assumptions C115_values_allowed_partial.

Example C115_example : exists f ps r, first_full full_files f ps r /\ (5 <= List.length ps)%nat /\
  existsb (fun p => match jp_options p with [] => true | _ => false end) ps = true /\
  existsb (fun p => match jp_options p with [] => false | _ => true end) ps = true.
Proof. exact some_parameters. Qed.
