(** Model of package serialrecorder and of cmd/serialrecordingtohex. *)
From Verif Require Import ModelBase.
From Coq Require Import Permutation Sorted.

(** serialrecorder.go:23-27 and direction.go: [false] is a read.  Timestamps
    are nanoseconds; 0 stands for the zero time.Time. *)
Record row : Type := mkRow { r_time : Z; r_dir : bool; r_data : list byte }.

(** ** The recorder.  Buffers belong to the caller and are passed by reference:
    [v_heap] gives the current content of each.  A logging goroutine
    (serialrecorder.go:41, 47) holds a direction, a buffer and a length; after
    line 53 also a timestamp. *)
Record rref : Type := mkRef { f_time : Z; f_dir : bool; f_buf : nat; f_len : nat }.
(** What is written to the log: the gob stream.  Each encoder first sends the
    description of the type. *)
Inductive gitem : Type := GType | GRow (r : row).
(** [v_pend]: logging goroutines before line 53; [v_ready]: those blocked in the
    send of line 52; [v_chan]: the channel, of capacity 100; [v_writers]: for each
    logWriter goroutine, whether its encoder has sent the type. *)
Record rst : Type := mkR {
  v_heap : nat -> list byte; v_now : Z;
  v_pend : list (bool * nat * nat); v_ready : list rref; v_chan : list rref;
  v_writers : list bool; v_log : list gitem }.

Inductive rlabel : Type :=
| ROpen                                (* Open: another logWriter *)
| RRead (buf : nat) (data : list byte) (* Read fills the buffer with [data] *)
| RWrite (buf : nat) (n : nat)         (* Write of the first [n] bytes *)
| RReuse (buf : nat) (data : list byte) (* the caller changes its buffer *)
| RStamp (i : nat)                     (* goroutine [i] takes the time *)
| RSend (i : nat)                      (* a stamped goroutine gets to send *)
| REncode (w : nat)                    (* logWriter [w] encodes the next row *)
| RClock (d : N).
(** Operations as the caller sees them. *)
Inductive robs : Type := RODone (dir : bool) (data : list byte).

Definition chan_cap : nat := 100.    (* serialrecorder.go:35 *)
Definition hset (h : nat -> list byte) (b : nat) (d : list byte) : nat -> list byte :=
  fun x => if Nat.eqb x b then d else h x.
(** A read of n bytes leaves the rest of the buffer. *)
Definition fill (old d : list byte) : list byte := d ++ skipn (List.length d) old.
(** [p[:n]] now. *)
Definition deref (h : nat -> list byte) (b n : nat) : list byte := firstn n (h b).
Definition drop_nth {A} (i : nat) (l : list A) : list A := firstn i l ++ skipn (S i) l.

Definition rstep (st : rst) (l : rlabel) : option (rst * list robs) :=
  match l with
  | ROpen =>                                               (* 77-79 *)
      Some (mkR (v_heap st) (v_now st) (v_pend st) (v_ready st) (v_chan st)
                (v_writers st ++ [false]) (v_log st), [])
  | RRead b d =>                                           (* 39-43 *)
      Some (mkR (hset (v_heap st) b (fill (v_heap st b) d)) (v_now st)
                (v_pend st ++ [(false, b, List.length d)])
                (v_ready st) (v_chan st) (v_writers st) (v_log st), [RODone false d])
  | RWrite b n =>                                          (* 45-49 *)
      Some (mkR (v_heap st) (v_now st) (v_pend st ++ [(true, b, n)])
                (v_ready st) (v_chan st) (v_writers st) (v_log st),
            [RODone true (deref (v_heap st) b n)])
  | RReuse b d =>
      Some (mkR (hset (v_heap st) b d) (v_now st) (v_pend st) (v_ready st) (v_chan st)
                (v_writers st) (v_log st), [])
  | RStamp i =>                                            (* 52-56 *)
      match nth_error (v_pend st) i with
      | Some (dir, b, n) =>
          Some (mkR (v_heap st) (v_now st) (drop_nth i (v_pend st))
                    (v_ready st ++ [mkRef (v_now st) dir b n]) (v_chan st)
                    (v_writers st) (v_log st), [])
      | None => None
      end
  | RSend i =>
      match nth_error (v_ready st) i with
      | Some r =>
          if (List.length (v_chan st) <? chan_cap)%nat then
            Some (mkR (v_heap st) (v_now st) (v_pend st) (drop_nth i (v_ready st))
                      (v_chan st ++ [r]) (v_writers st) (v_log st), [])
          else None
      | None => None
      end
  | REncode w =>                                           (* 59-68 *)
      match nth_error (v_writers st) w, v_chan st with
      | Some started, r :: q =>
          Some (mkR (v_heap st) (v_now st) (v_pend st) (v_ready st) q
                    (set_nth w true (v_writers st))
                    (v_log st ++ (if started then [] else [GType]) ++
                       [GRow (mkRow (f_time r) (f_dir r) (deref (v_heap st) (f_buf r) (f_len r)))]), [])
      | _, _ => None
      end
  | RClock d =>
      Some (mkR (v_heap st) (v_now st + Z.of_N d)%Z (v_pend st) (v_ready st) (v_chan st)
                (v_writers st) (v_log st), [])
  end.
Fixpoint rrun (st : rst) (ls : list rlabel) : option (rst * list robs) :=
  match ls with
  | [] => Some (st, [])
  | l :: r =>
      match rstep st l with
      | None => None
      | Some (st1, o1) =>
          match rrun st1 r with
          | None => None
          | Some (st2, o2) => Some (st2, o1 ++ o2)
          end
      end
  end.
(** The recorder is made at time [t] > 0. *)
Definition rinit (t : Z) : rst := mkR (fun _ => []) t [] [] [] [] [].

(** Reading the stream back (serialrecordingtohex.go:39-58): gob refuses a type
    it already knows, and a row of a type it does not know. *)
Fixpoint gob_decode (known : bool) (s : list gitem) : option (list row) :=
  match s with
  | [] => Some []
  | GType :: r => if known then None else gob_decode true r
  | GRow x :: r =>
      if known then match gob_decode known r with Some l => Some (x :: l) | None => None end
      else None
  end.

(** ** The converter *)
(** serialrecordingtohex.go:108-111; the zero value has the zero time. *)
Record combiner : Type := mkComb { b_time : Z; b_dir : bool; b_buf : list byte }.
Definition combiner0 : combiner := mkComb 0 false [].
(** serialrecordingtohex.go:113-140 [combine] *)
Definition combine (c : combiner) (r : row) : combiner * option row :=
  let prev := if (b_time c =? 0)%Z then (r_time r, r_dir r) else (b_time c, b_dir c) in
  if (r_time r - fst prev <? 1000000)%Z
  then (mkComb (r_time r) (r_dir r) (b_buf c ++ r_data r), None)
  else (mkComb (r_time r) (r_dir r) (r_data r), Some (mkRow (fst prev) (snd prev) (b_buf c))).
(** serialrecordingtohex.go:60-79 *)
Fixpoint combine_all (reads writes : combiner) (rows : list row) : list row :=
  match rows with
  | [] => []
  | r :: rest =>
      if r_dir r then
        let '(c, o) := combine writes r in
        match o with Some x => x :: combine_all reads c rest | None => combine_all reads c rest end
      else
        let '(c, o) := combine reads r in
        match o with Some x => x :: combine_all c writes rest | None => combine_all c writes rest end
  end.
Definition combined (rows : list row) : list row := combine_all combiner0 combiner0 rows.
(** serialrecordingtohex.go:81-98: sort.Sort promises some sorted permutation. *)
Definition time_le (a b : row) : Prop := (r_time a <= r_time b)%Z.
Definition sorted_rows (rows out : list row) : Prop :=
  Permutation (combined rows) out /\ StronglySorted time_le out.
(** Which of them are printed; only the data is kept of the lines. *)
Definition printed (read write : bool) (out : list row) : list (bool * list byte) :=
  map (fun r => (r_dir r, r_data r))
      (filter (fun r => if r_dir r then write else read) out).
