(** Property theorems C01 - C06 (framing). *)
From Verif Require Import ModelBase ModelReports ModelSerial SpecFrame SpecDecode SpecMessage
  ProofBase ProofSerial ProofMessage ProofContent.

(** ** C01 *)
(** CompileMessage: for payloads of at most 253 bytes the result is a frame
    (independent grammar [frame]) of type request carrying exactly the payload. *)
Theorem C01_compile_wellformed : forall data : list byte,
  (List.length data <= 253)%nat ->
  frame (compile_message data) /\
  exists n cs, compile_message data = [SOF; n; x00] ++ data ++ [cs].
Proof.
  exact (fun data H => conj (compile_frame data H)
    match compile_payload data with
    | ex_intro _ cs E => ex_intro _ _ (ex_intro _ cs E) end).
Qed.
Print Assumptions C01_compile_wellformed.

Theorem C01_compile_injective : forall a b : list byte,
  compile_message a = compile_message b -> a = b.
Proof. exact compile_inj. Qed.
Print Assumptions C01_compile_injective.

(** Beyond 253 bytes the length byte is wrong and the result is no frame. *)
Theorem C01_compile_too_long : forall data : list byte,
  (254 <= List.length data)%nat -> ~ frame (compile_message data).
Proof. exact compile_too_long. Qed.
Print Assumptions C01_compile_too_long.

Example C01_example :
  compile_message [x13; x05; x03; x25; x01; xff; x25]
  = [x01; x09; x00; x13; x05; x03; x25; x01; xff; x25; x1d].
Proof. reflexivity. Qed.

(** ** C02 *)
(** Every non-empty string has exactly one shape in the grammar. *)
Theorem C02_grammar_total : forall l, l <> [] ->
  exists s, shape_of l s /\ forall s', shape_of l s' -> s' = s.
Proof.
  exact (fun l H => match shape_total l H with
    | ex_intro _ s Hs => ex_intro _ s (conj Hs (fun s' Hs' => shape_unique l s' s Hs' Hs)) end).
Qed.
Print Assumptions C02_grammar_total.

(** Decode's length result says exactly which. *)
Theorem C02_decode_classifies : forall d r d',
  decode d = Ok (r, d') ->
  let n := Z.of_nat (List.length (els d)) in
  ((n < d_len r)%Z <-> exists k, shape_of (els d) (SMore k) /\ d_len r = Z.of_nat k) /\
  (d_len r = (-1)%Z <-> shape_of (els d) SReject) /\
  (d_len r = 1%Z <-> shape_of (els d) SControl) /\
  ((2 <= d_len r <= n)%Z <-> exists k, shape_of (els d) (SFrame k) /\ d_len r = Z.of_nat k) /\
  ((n < d_len r)%Z \/ d_len r = (-1)%Z \/ d_len r = 1%Z \/ (2 <= d_len r <= n)%Z).
Proof. exact decode_classifies. Qed.
Print Assumptions C02_decode_classifies.

(** The message and error results that go with each shape. *)
Theorem C02_decode_results : forall d r d' s,
  decode d = Ok (r, d') -> shape_of (els d) s ->
  match s with
  | SMore _ => d_msg r = None /\ d_err r = None
  | SReject => d_msg r = None /\ (d_err r = None <-> nth_error (els d) 0 <> Some SOF)
  | SControl => d_err r = None
  | SFrame _ => d_err r = None <-> d_msg r <> None
  end.
Proof. exact decode_outcome. Qed.
Print Assumptions C02_decode_results.

Example C02_example_frame :
  exists m d', decode (mkSlice [x01; x08; x00; x04; x04; x03; x02; x84; x07; x75; x06] [])
    = Ok (mkDecoded 10 (Some m) None, d') /\ m_node m = x03 /\
      m_data m = Some (PCommand x84 x07 RWakeUp).
Proof. eexists; eexists; split; [vm_compute; reflexivity | split; reflexivity]. Qed.
Example C02_example_more :
  exists d', decode (mkSlice [x01; x08; x00] []) = Ok (mkDecoded 10 None None, d').
Proof. eexists; vm_compute; reflexivity. Qed.
Example C02_example_reject :
  exists d', decode (mkSlice [x01; x03; x00; x04; x00] []) = Ok (mkDecoded (-1) None (Some EChecksum), d').
Proof. eexists; vm_compute; reflexivity. Qed.

(** ** C03 *)
(** Any single changed byte after the length byte makes Decode reject the frame
    (without panicking, and whatever follows in the buffer). *)
Theorem C03_single_byte_damage_rejected : forall pre a b post tail sp,
  frame (pre ++ a :: post) -> (2 <= List.length pre)%nat -> a <> b ->
  exists d', decode {| els := pre ++ b :: post ++ tail; spare := sp |}
             = Ok (mkDecoded (-1) None (Some EChecksum), d').
Proof. exact damaged_rejected_split. Qed.
Print Assumptions C03_single_byte_damage_rejected.

Example C03_example : frame [x01; x08; x00; x04; x04; x03; x02; x84; x07; x75].
Proof. constructor; reflexivity. Qed.

(** ** C04 *)
(** Full statement (false of the code): [forall d, els d <> [] -> decode d <> Panic]. *)
(** An ACK that is in the buffer together with the start byte of the next frame
    crashes Decode; so does an intact frame announcing a 249 byte payload, all
    of whose bytes are there. *)
Theorem C04_decode_never_panics_refuted :
  (exists d, els d = [ACK; SOF] /\ decode d = Panic) /\
  (exists d f, els d = f /\ frame f /\ byte_at f 6 = 249%N /\ List.length f = 257%nat /\ decode d = Panic).
Proof.
  exact (conj
    (ex_intro _ (mkSlice [ACK; SOF] []) (conj eq_refl eq_refl))
    (let f := [x01; xff; x00; x04; x00; x05; xf9] ++ repeat x00 249 ++ [xf8] in
     ex_intro _ (mkSlice f [])
      (ex_intro _ f
        (conj eq_refl (conj (frame_intro xff ([x00; x04; x00; x05; xf9] ++ repeat x00 249 ++ [xf8])
                               eq_refl eq_refl)
          (conj eq_refl (conj eq_refl eq_refl))))))).
Qed.
Print Assumptions C04_decode_never_panics_refuted.

(** The exact condition under which Decode panics. *)
Theorem C04_decode_panics_iff_partial : forall d,
  decode d = Panic <->
  els d = [] \/
  (shape_of (els d) SControl /\ message_crashes (els d) (cap d)) \/
  (exists k, shape_of (els d) (SFrame k) /\
             message_crashes (clear_at (k - 1) (els d)) (cap d)).
Proof. exact decode_panic. Qed.
Print Assumptions C04_decode_panics_iff_partial.

(** A frame that contains what it announces is decoded without a panic,
    whatever follows it (C06 gives the result). *)
Theorem C04_self_contained_frames_safe_partial : forall f tail sp,
  self_contained f -> decode {| els := f ++ tail; spare := sp |} <> Panic.
Proof.
  exact (fun f tail sp H E => match decode_self_contained f H with
    | ex_intro _ r (conj _ Hr) =>
        match eq_trans (eq_sym (Hr tail sp)) E in _ = y
          return match y with Ok _ => True | _ => False end with eq_refl => I end end).
Qed.
Print Assumptions C04_self_contained_frames_safe_partial.

Example C04_example :
  self_contained [x01; x08; x00; x04; x04; x03; x02; x84; x07; x75].
Proof.
  unfold self_contained. repeat split; try (constructor; reflexivity); try (cbn; lia);
  vm_compute; try discriminate; reflexivity.
Qed.

(** ** C05 *)
(** Full statement (false of the code):
    [forall d r d', decode d = Ok (r, d') -> d' = d]. *)
Theorem C05_decode_preserves_buffer_refuted :
  exists d r d', frame (els d) /\ decode d = Ok (r, d') /\ d' <> d /\ nth 9 (els d') xff = x00 /\ nth 9 (els d) xff = x75.
Proof.
  exact (ex_intro _ (mkSlice [x01; x08; x00; x04; x04; x03; x02; x84; x07; x75] [])
    (ex_intro _ _ (ex_intro _ (mkSlice [x01; x08; x00; x04; x04; x03; x02; x84; x07; x00] [])
    (conj (frame_intro x08 [x00; x04; x04; x03; x02; x84; x07; x75] eq_refl eq_refl)
    (conj eq_refl (conj (fun E => eq_ind (mkSlice [x01; x08; x00; x04; x04; x03; x02; x84; x07; x00] [])
        (fun s => match nth 9 (els s) xff with x00 => True | _ => False end) I _ E) (conj eq_refl eq_refl))))))).
Qed.
Print Assumptions C05_decode_preserves_buffer_refuted.

(** The exact effect: nothing changes, except that a complete SOF frame (valid
    or not) has its checksum byte cleared. *)
Theorem C05_decode_effect_partial : forall d r d',
  decode d = Ok (r, d') ->
  spare d' = spare d /\
  (els d' = els d \/
   exists n rest, els d = SOF :: n :: rest /\ (N.to_nat (Byte.to_N n) <= List.length rest)%nat /\
     els d' = clear_at (N.to_nat (Byte.to_N n) + 1) (els d)).
Proof. exact decode_effect_spec. Qed.
Print Assumptions C05_decode_effect_partial.

(** ** C06 *)
(** Full statement (false of the code): for every frame [f], [decode] of
    [f ++ tail] gives the same message for every [tail] and spare capacity. *)
Theorem C06_decode_local_refuted :
  exists f t1 t2 m1 m2 d1 d2, frame f /\
    decode (mkSlice (f ++ t1) []) = Ok (mkDecoded 10 (Some m1) None, d1) /\
    decode (mkSlice (f ++ t2) []) = Ok (mkDecoded 10 (Some m2) None, d2) /\ m1 <> m2.
Proof. exact decode_local_refuted. Qed.
Print Assumptions C06_decode_local_refuted.

Theorem C06_self_contained_local_partial : forall f,
  self_contained f ->
  exists r, d_len r = Z.of_nat (List.length f) /\
    forall tail sp, decode {| els := f ++ tail; spare := sp |}
      = Ok (r, {| els := clear_at (List.length f - 1) f ++ tail; spare := sp |}).
Proof. exact decode_self_contained. Qed.
Print Assumptions C06_self_contained_local_partial.

(** ** C81 *)
(** Decode of a frame that contains what it announces, whatever follows it: the
    message says what the bytes of the frame say, or there is the error of the
    payload's decoder. *)
Theorem C81_message_of_frame : forall f tail sp, self_contained f ->
  exists d', decode {| els := f ++ tail; spare := sp |} =
  Ok (mkDecoded (Z.of_nat (List.length f)) (message_of f) (error_of f), d').
Proof. exact (fun f tail sp H => ex_intro _ _ (decode_content f tail sp H)). Qed.
Print Assumptions C81_message_of_frame.

(** The fields that do not depend on the payload. *)
Theorem C81_header : forall f tail sp r d' m, self_contained f ->
  decode {| els := f ++ tail; spare := sp |} = Ok (r, d') -> d_msg r = Some m ->
  m_start m = SOF /\ m_length m = nth 1 f x00 /\ m_type m = nth 2 f x00 /\ m_function m = nth 3 f x00 /\
  m_node m = (if (byte_at f 3 =? 4)%N then nth 5 f x00 else x00) /\ m_data m <> None.
Proof. exact message_header. Qed.
Print Assumptions C81_header.

(** A control byte gives a message that is only this byte. *)
Theorem C81_control : forall b sp, In b [ACK; NAK; CAN] ->
  exists m, decode {| els := [b]; spare := sp |} = Ok (mkDecoded 1 (Some m) None, {| els := [b]; spare := sp |}) /\
    m_start m = b /\ m_data m = None /\
    is_ack m = (Byte.eqb b ACK) /\ is_nak m = (Byte.eqb b NAK) /\ is_can m = (Byte.eqb b CAN).
Proof. exact control_message. Qed.
Print Assumptions C81_control.

(** A report of node 5: binary switch on. *)
Example C81_example :
  let f := [x01; x09; x00; x04; x00; x05; x03; x25; x03; xff; x2d] in
  self_contained f /\
  message_of f = Some (mkMessage x09 x00 x04 x05 x01 (Some (PCommand x25 x03 (RSwitchBinary1 true true)))).
Proof.
  split; [|reflexivity]. unfold self_contained.
  repeat split; try (constructor; reflexivity); try (cbn; lia); vm_compute; try discriminate; reflexivity.
Qed.
