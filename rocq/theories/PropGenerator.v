(** Properties of the generator of the device table and of the committed table. *)
From Verif Require Import ModelBase ModelNodes DataDevices DataFiles ModelDatabase ModelGenerator.
From Verif Require Import SpecGenerator ProofGenerator.
Local Open Scope string_scope.

(** ** C87: the committed table is what the generator makes of the committed
    files; a lookup returns what the first file that mentions the device says *)
Theorem C87_table_up_to_date : go_build (generator [] files) = Some devices.
Proof. exact files_built. Qed.
Print Assumptions C87_table_up_to_date.

Theorem C87_lookup_sound : forall m t i d, device_new m t i = Some d ->
  exists f r, first_mention files f r /\ device_matches f r d /\
    m ++ "_" ++ t ++ "_" ++ i = to_lower (full_id f r).
Proof. exact lookup_sound. Qed.
Print Assumptions C87_lookup_sound.

Theorem C87_lookup_complete : forall f r, first_mention files f r ->
  exists d, lookup_ref device_new f r = Some d /\ device_matches f r d.
Proof. exact lookup_complete. Qed.
Print Assumptions C87_lookup_complete.

Theorem C87_every_reference_found : forall f r, In (f, r) (mentions files) ->
  exists d, lookup_ref device_new f r = Some d.
Proof. exact lookup_some. Qed.
Print Assumptions C87_every_reference_found.

Example C87_example : List.length files = 553%nat /\ List.length (mentions files) = 806%nat /\
  List.length devices = 706%nat.
Proof. split; [|split]; vm_compute; reflexivity. Qed.
Example C87_example_ref : ref_of "0600:1000" = ("0600", "1000") /\ ref_of "0600" = ("0600", "") /\
  ref_of "1:2:3" = ("", "").
Proof. repeat split. Qed.

(** ** C88: a text in the generated source denotes the original text *)
Theorem C88_text_kept_refuted : exists s, go_literal (escape s) <> Some s.
Proof. exact escape_refuted. Qed.
Print Assumptions C88_text_kept_refuted.

(** Exactly the texts without NUL and without a byte order mark survive. *)
Theorem C88_text_kept_partial : forall s, go_literal (escape s) = Some s <-> source_text s.
Proof. exact literal_source. Qed.
Print Assumptions C88_text_kept_partial.

Example C88_example : go_literal (escape "6"" \ off") = Some "6"" \ off" /\
  go_literal "6"" \ off" = None /\ source_text "6"" \ off".
Proof.
  split; [reflexivity|]. split; [reflexivity|].
  apply source_bool; reflexivity.
Qed.

(** ** C89: the generated source compiles to a table of the files *)
Theorem C89_compiles_refuted : exists fs,
  (forall f r, In (f, r) (mentions fs) ->
     source_text (j_manufacturer_name f) /\ source_text (j_label f) /\ source_text (j_decription f) /\
     alnum (j_manufacturer_id f) /\ alnum (fst r) /\ alnum (snd r) /\ j_endpoints f = []) /\
  go_build (generator [] fs) = None.
Proof. exact case_refuted. Qed.
Print Assumptions C89_compiles_refuted.

(** It does if no two references differ only in the case of letters (part of
    [usable]). *)
Theorem C89_compiles_partial : forall fs, usable fs ->
  exists ds, go_build (generator [] fs) = Some ds /\
    (forall f r, first_mention fs f r ->
       exists d, alookup (to_lower (full_id f r)) ds = Some d /\ device_matches f r d) /\
    (forall k d, alookup k ds = Some d ->
       exists f r, first_mention fs f r /\ k = to_lower (full_id f r) /\ device_matches f r d).
Proof. exact generated_table. Qed.
Print Assumptions C89_compiles_partial.

Theorem C89_functions_distinct_partial : forall fs, NoDup (map r_func (generator [] fs)).
Proof. exact funcs_distinct. Qed.
Print Assumptions C89_functions_distinct_partial.

Example C89_example : usable files.
Proof. exact files_usable. Qed.

(** ** C90: a lookup describes the device as the files that mention it do *)
Theorem C90_agrees_with_files_refuted : exists f r d, In (f, r) (mentions files) /\
  lookup_ref device_new f r = Some d /\ ~ device_matches f r d.
Proof. exact other_file. Qed.
Print Assumptions C90_agrees_with_files_refuted.

(** It does for a device that only one file mentions. *)
Theorem C90_agrees_with_files_partial : forall f r, only_mention files f r ->
  exists d, lookup_ref device_new f r = Some d /\ device_matches f r d.
Proof. exact lookup_only. Qed.
Print Assumptions C90_agrees_with_files_partial.

(** The plug FGWP102: the table says FGWP101. *)
Example C90_example : exists f d, In (f, ("0600", "1000")) (mentions files) /\
  lookup_ref device_new f ("0600", "1000") = Some d /\ j_label f <> d_product d.
Proof.
  pose (P := fun p => String.eqb (snd (snd p)) "1000" && String.eqb (fst (snd p)) "0600" &&
    match lookup_ref device_new (fst p) (snd p) with
    | Some d => negb (String.eqb (j_label (fst p)) (d_product d)) | None => false end).
  assert (X : existsb P (mentions files) = true) by (vm_cast_no_check (eq_refl true)).
  apply existsb_exists in X. destruct X as ((f, (t, i)) & I & X). unfold P in X. cbn [fst snd] in X.
  apply andb_prop in X. destruct X as [X N]. apply andb_prop in X. destruct X as [A B].
  apply String.eqb_eq in A. apply String.eqb_eq in B. subst.
  destruct (lookup_ref device_new f ("0600", "1000")) as [d|] eqn:D; [|discriminate].
  exists f, d. split; [exact I|]. split; [exact D|]. intros E. rewrite E, String.eqb_refl in N. discriminate.
Qed.

(** ** C91: the classes of a device are those of all its endpoints *)
Theorem C91_all_endpoints_refuted : exists f r d e c b,
  only_mention files f r /\ lookup_ref device_new f r = Some d /\
  In e (j_endpoints f) /\ In c e /\ id_denotes (jc_id c) b /\ ~ In b (map cc_id (d_classes d)).
Proof. exact later_endpoint. Qed.
Print Assumptions C91_all_endpoints_refuted.

Theorem C91_all_endpoints_partial : forall f r d c b,
  only_mention files f r -> lookup_ref device_new f r = Some d ->
  List.length (j_endpoints f) = 1%nat -> lists_class f c -> id_denotes (jc_id c) b ->
  In b (map cc_id (d_classes d)).
Proof. exact one_endpoint. Qed.
Print Assumptions C91_all_endpoints_partial.

Example C91_example : exists f c, In f files /\ List.length (j_endpoints f) = 1%nat /\
  lists_class f c /\ id_denotes (jc_id c) x86.
Proof.
  pose (P := fun f => (List.length (j_endpoints f) =? 1)%nat &&
    existsb (existsb (fun c => String.eqb (jc_id c) "86")) (j_endpoints f)).
  assert (X : existsb P files = true) by (vm_cast_no_check (eq_refl true)).
  apply existsb_exists in X. destruct X as (f & I & X). apply andb_prop in X. destruct X as [L X].
  apply existsb_exists in X. destruct X as (e & E & X). apply existsb_exists in X. destruct X as (c & C & X).
  apply String.eqb_eq in X. exists f, c. split; [exact I|]. split; [apply Nat.eqb_eq; exact L|].
  split; [exists e; split; assumption|]. rewrite X. right. exists 8%N, 6%N, "8"%char, "6"%char.
  repeat (split; [reflexivity || (left; reflexivity)|]). reflexivity.
Qed.
