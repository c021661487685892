(** Properties of the serial recorder and of the recording converter. *)
From Verif Require Import ModelBase ModelRecorder SpecRecorder ProofRecorder.
From Coq Require Import Permutation Sorted Lia.

Definition rend (st : rst) (ls : list rlabel) : rst * list robs :=
  match rrun st ls with Some p => p | None => (st, []) end.
Lemma rend_ok st ls : (match rrun st ls with Some _ => true | _ => false end) = true ->
  rrun st ls = Some (rend st ls).
Proof. unfold rend. destruct (rrun st ls) as [p|]; try discriminate. reflexivity. Qed.

(** ** C58: the converter prints every recorded byte, in order, per direction.
    Full statement, false:
    forall rows out, sorted_rows rows out -> forall dir,
      printed_bytes dir (printed true true out) = bytes_of dir rows *)
Theorem C58_refuted : forall x, (0 < r_time x)%Z -> r_data x <> [] ->
  exists out, sorted_rows [x] out /\
    printed_bytes (r_dir x) (printed true true out) <> bytes_of (r_dir x) [x].
Proof.
  intros x T D. exists []. split.
  - split; [|constructor]. unfold combined, combine_all, combine, combiner0. cbn [b_time b_dir b_buf fst snd Z.eqb].
    rewrite Z.sub_diag. destruct (r_dir x); reflexivity.
  - cbn. rewrite Bool.eqb_reflx, app_nil_r. congruence.
Qed.
Print Assumptions C58_refuted.
(** What is missing is exactly the last burst of each direction, as long as the
    rows of a direction were recorded in the order of their timestamps. *)
Theorem C58_partial : forall rows out (dir rd wr : bool), clocked rows -> sorted_rows rows out ->
  (if dir then wr else rd) = true ->
  exists burst, last_burst (of_dir dir rows) burst /\
    printed_bytes dir (printed rd wr out) ++ bytes_of dir burst = bytes_of dir rows.
Proof. exact converter_result. Qed.
Print Assumptions C58_partial.
(** The direction that was not asked for is not printed. *)
Theorem C58_filter : forall rows out (dir rd wr : bool), sorted_rows rows out ->
  (if dir then wr else rd) = false -> printed_bytes dir (printed rd wr out) = [].
Proof. exact converter_excludes. Qed.
Print Assumptions C58_filter.

Definition rows58 : list row :=
  [mkRow 1000000 false [x01]; mkRow 1500000 true [x06]; mkRow 1600000 false [x09; x00];
   mkRow 9000000 false [x13]; mkRow 9100000 true [x15]].
Example C58_example : clocked rows58 /\
  sorted_rows rows58 [mkRow 1500000 true [x06]; mkRow 1600000 false [x01; x09; x00]] /\
  printed true true [mkRow 1500000 true [x06]; mkRow 1600000 false [x01; x09; x00]] =
    [(true, [x06]); (false, [x01; x09; x00])] /\
  last_burst (of_dir false rows58) [mkRow 9000000 false [x13]].
Proof.
  split; [|split; [|split]].
  - split.
    + intros r I. cbn in I. repeat (destruct I as [<-|I]; [cbn; lia|]). destruct I.
    + intros [|]; cbn; repeat constructor; unfold time_le; cbn; lia.
  - split; [|repeat constructor; unfold time_le; cbn; lia].
    vm_compute. apply perm_swap.
  - reflexivity.
  - split; [apply no_gap_one|].
    exists [mkRow 1000000 false [x01]; mkRow 1600000 false [x09; x00]]. split; [reflexivity|]. right.
    exists [mkRow 1000000 false [x01]], (mkRow 1600000 false [x09; x00]), (mkRow 9000000 false [x13]), [].
    split; [reflexivity|]. split; [reflexivity|]. cbn. lia.
Qed.

(** ** C59: the recorder logs every operation once and in order. *)
(** Every operation is logged at most once; when the logging goroutines are done,
    exactly once; and they can always be finished. *)
Theorem C59_once : forall t ls st o, undisturbed ls -> rrun (rinit t) ls = Some (st, o) ->
  (exists rest, Permutation (operations o) (map content (logged (v_log st)) ++ rest)) /\
  (v_pend st = [] -> v_ready st = [] -> v_chan st = [] ->
   Permutation (operations o) (map content (logged (v_log st)))).
Proof. exact logged_once. Qed.
Print Assumptions C59_once.
Theorem C59_completes : forall t ls st o, rrun (rinit t) ls = Some (st, o) -> In ROpen ls ->
  exists l2 st', rrun st l2 = Some (st', []) /\
    (forall l, In l l2 -> exists i, l = RStamp i \/ l = RSend i \/ l = REncode i) /\
    v_pend st' = [] /\ v_ready st' = [] /\ v_chan st' = [].
Proof. exact log_completes. Qed.
Print Assumptions C59_completes.
(** Full statement, false: the log is in the order of the operations. *)
Theorem C59_order_refuted : exists t ls st o, undisturbed ls /\ rrun (rinit t) ls = Some (st, o) /\
  v_pend st = [] /\ v_ready st = [] /\ v_chan st = [] /\
  operations o <> map content (logged (v_log st)).
Proof.
  set (ls := [ROpen; RRead 0 [x01]; RRead 1 [x06]; RStamp 1; RStamp 0; RSend 0; RSend 0; REncode 0; REncode 0]).
  exists 1%Z, ls, (fst (rend (rinit 1) ls)), (snd (rend (rinit 1) ls)).
  split; [|split; [rewrite <- surjective_pairing; apply rend_ok; vm_compute; reflexivity|
    split; [vm_compute; reflexivity|split; [vm_compute; reflexivity|split; [vm_compute; reflexivity|
      vm_compute; discriminate]]]]].
  intros p l q l' b E I U.
  do 9 (destruct p as [|? p]; [injection E as <- <-; cbn in I, U; intuition (subst; cbn in *; intuition congruence)
                               |injection E as _ E]).
  destruct p; discriminate.
Qed.
Print Assumptions C59_order_refuted.
Definition ls59 : list rlabel :=
  [ROpen; RReuse 3 [x01; x02]; RWrite 3 2; RClock 7; RRead 4 [x06]; RStamp 1; RSend 0; REncode 0; RStamp 0; RSend 0; REncode 0].
Example C59_example : undisturbed ls59 /\ exists st o, rrun (rinit 5) ls59 = Some (st, o) /\
  operations o = [(true, [x01; x02]); (false, [x06])] /\
  logged (v_log st) = [mkRow 12 false [x06]; mkRow 12 true [x01; x02]].
Proof.
  split.
  - intros p l q l' b E I U.
    do 11 (destruct p as [|? p]; [injection E as <- <-; cbn in I, U; intuition (subst; cbn in *; intuition congruence)
                               |injection E as _ E]).
    destruct p; discriminate.
  - exists (fst (rend (rinit 5) ls59)), (snd (rend (rinit 5) ls59)).
    split; [rewrite <- surjective_pairing; apply rend_ok; vm_compute; reflexivity|].
    split; vm_compute; reflexivity.
Qed.

(** ** C76: what is logged is what was transferred, whatever the caller does with
    its buffer later.  Full statement, false:
    forall t ls st o, rrun (rinit t) ls = Some (st, o) ->
      exists rest, Permutation (operations o) (map content (logged (v_log st)) ++ rest) *)
Theorem C76_refuted : exists t ls st o, rrun (rinit t) ls = Some (st, o) /\
  forall rest, ~ Permutation (operations o) (map content (logged (v_log st)) ++ rest).
Proof.
  set (ls := [ROpen; RRead 0 [x01]; RRead 0 [x06]; RStamp 0; RSend 0; REncode 0; RStamp 0; RSend 0; REncode 0]).
  exists 1%Z, ls, (fst (rend (rinit 1) ls)), (snd (rend (rinit 1) ls)).
  split; [rewrite <- surjective_pairing; apply rend_ok; vm_compute; reflexivity|].
  intros rest P.
  assert (E : operations (snd (rend (rinit 1) ls)) = [(false, [x01]); (false, [x06])]) by (vm_compute; reflexivity).
  assert (F : map content (logged (v_log (fst (rend (rinit 1) ls)))) = [(false, [x06]); (false, [x06])])
    by (vm_compute; reflexivity).
  rewrite E, F in P. apply (Permutation_in (false, [x01])) in P as Q; [|now left].
  destruct Q as [Q|[Q|Q]]; [discriminate|discriminate|].
  apply Permutation_length in P. destruct rest; [destruct Q|cbn in P; lia].
Qed.
Print Assumptions C76_refuted.
(** Nothing else goes wrong: with buffers that are left alone it holds. *)
Theorem C76_partial : forall t ls st o, undisturbed ls -> rrun (rinit t) ls = Some (st, o) ->
  exists rest, Permutation (operations o) (map content (logged (v_log st)) ++ rest).
Proof. intros t ls st o U E. exact (proj1 (logged_once t ls st o U E)). Qed.
Print Assumptions C76_partial.

(** ** C77: a recording can be read back.  Full statement, false:
    forall t ls st o, rrun (rinit t) ls = Some (st, o) ->
      gob_decode false (v_log st) = Some (logged (v_log st)) *)
Theorem C77_refuted : exists t ls st o, rrun (rinit t) ls = Some (st, o) /\
  gob_decode false (v_log st) = None.
Proof.
  set (ls := [ROpen; RRead 0 [x01]; RStamp 0; RSend 0; REncode 0; ROpen; RRead 1 [x06]; RStamp 0; RSend 0; REncode 1]).
  exists 1%Z, ls, (fst (rend (rinit 1) ls)), (snd (rend (rinit 1) ls)).
  split; [rewrite <- surjective_pairing; apply rend_ok; vm_compute; reflexivity|].
  vm_compute; reflexivity.
Qed.
Print Assumptions C77_refuted.
(** With a port that is opened once it holds. *)
Theorem C77_partial : forall t ls st o, rrun (rinit t) ls = Some (st, o) -> opens ls <= 1 ->
  gob_decode false (v_log st) = Some (logged (v_log st)).
Proof. exact one_open_readable. Qed.
Print Assumptions C77_partial.
Example C77_example : opens ls59 = 1 /\
  gob_decode false (v_log (fst (rend (rinit 5) ls59))) =
    Some [mkRow 12 false [x06]; mkRow 12 true [x01; x02]].
Proof. split; vm_compute; reflexivity. Qed.
