(** The program from one start to the next: gozwave.go:17-55 starts it with the
    nodes of the configuration file, controller.go:105-117 and 134-157 save them
    while it runs, and it can be killed at any time.  Somebody else may write the
    file too. *)
From Verif Require Import ModelBase ModelReports ModelSerial ModelCommands ModelNodes ModelList.
From Verif Require Import ModelDatabase ModelIdentify ModelController ModelConnection ModelSystem ModelWhole.
From Verif Require Import ModelJson ModelConfig.
From Coq Require Import Floats.SpecFloat Permutation.

(** A process; [pr_save]: where SaveConfigurationToFile is, while it is called. *)
Record proc : Type := mkProc { pr_whole : whole; pr_save : option sphase }.
Record world : Type := mkWorld { wd_disk : option text; wd_proc : option proc }.

Inductive tlabel : Type :=
| TStart                       (* gozwave.go:17: the program is started with the name of the file *)
| TWork (l : wlabel)           (* it runs *)
| TSave (l : flabel)           (* a step of SaveConfigurationToFile *)
| TKill                        (* it is killed *)
| TEdit (s : option text).     (* somebody writes or removes the file *)

(** What can be seen from outside. *)
Inductive tobs : Type :=
| TOStarted (ns : list (Z * node))  (* the nodes it knows after loading *)
| TOCreated                         (* os.Create has emptied the file *)
| TOSave (ns : list (Z * node))     (* the nodes as MarshalIndent finds them *)
| TOFailed                          (* the file cannot be created or written *)
| TOSaved                           (* SaveConfigurationToFile returns *)
| TOFileCrash                       (* it panics while it reads the file *)
| TOCrash                           (* it panics for another reason *)
| TOKilled
| TOEdited.

Definition nodes_of (w : whole) : list (Z * node) := c_nodes (y_ctl (w_sys w)).

(** gozwave.go:33-35, controller.go:159-173: the nodes a start adds, in the order
    in which the map is visited; [None]: it panics.  A file that cannot be opened
    or read adds none: the error is dropped.  A file with a null class is not
    followed further: [real_node] is [None]. *)
Inductive boots : option text -> option (list node) -> Prop :=
| boot_missing : boots None (Some [])
| boot_rejected : forall s d, read_config s d -> load_config d = Some None -> boots (Some s) (Some [])
| boot_nodes : forall s d m es ns, read_config s d -> load_config d = Some (Some m) -> Permutation m es ->
    map (fun p => real_node (snd p)) es = map Some ns -> boots (Some s) (Some ns)
| boot_crash : forall s d, read_config s d -> load_config d = None -> boots (Some s) None.

(** controller.go:135: the file is read before it is created anew.  What is read
    is compared with the controller and never equal to it: the channels of the
    controller (lines 34-35) are not in the file. *)
Definition read_before (ph : sphase) (disk : option text) : Prop :=
  match ph, disk with
  | SvStart, Some s => exists d, read_config s d /\ d <> LCrash
  | _, _ => True
  end.
Definition save_obs (l : flabel) (ns : list (Z * node)) : list tobs :=
  match l with
  | FCreate => [TOCreated]
  | FCreateFails => [TOFailed]
  | FMarshal => [TOSave ns]
  | FWrite _ => []
  | FWriteFails => [TOFailed; TOSaved]
  | FReturn => [TOSaved]
  end.

(** The debouncer waits in line 111 until the save has returned. *)
Definition is_saved (l : wlabel) : bool := match l with WSys (YCtl CSaved) => true | _ => false end.
Definition may_work (l : wlabel) (ph : option sphase) : Prop := is_saved l = true -> ph = Some SvDone.
Definition begins (o : list cobs) : bool :=
  existsb (fun x => match x with COSave _ => true | _ => false end) o.
Definition after_work (l : wlabel) (o : list cobs) (ph : option sphase) : option sphase :=
  if begins o then Some SvStart else if is_saved l then None else ph.

(** [fmt]: how floats are written. *)
Inductive tstep (fmt : spec_float -> text) : world -> tlabel -> world -> list tobs -> Prop :=
| t_start : forall disk ns, boots disk (Some ns) ->
    tstep fmt (mkWorld disk None) TStart
      (mkWorld disk (Some (mkProc (wstart true ns) None))) [TOStarted (nodes_of (wstart true ns))]
| t_start_crash : forall disk, boots disk None ->
    tstep fmt (mkWorld disk None) TStart (mkWorld disk None) [TOFileCrash]
| t_work : forall disk w ph l w' ev o, wstep w l = Some (Ok (w', ev, o)) -> may_work l ph ->
    tstep fmt (mkWorld disk (Some (mkProc w ph))) (TWork l)
      (mkWorld disk (Some (mkProc w' (after_work l o ph)))) []
| t_work_crash : forall disk w ph l, wstep w l = Some Panic ->
    tstep fmt (mkWorld disk (Some (mkProc w ph))) (TWork l) (mkWorld disk None) [TOCrash]
| t_save : forall disk w ph l ph' disk', read_before ph disk ->
    fstep (marshal fmt (nodes_of w)) (mkF ph disk) l = Some (mkF ph' disk') ->
    tstep fmt (mkWorld disk (Some (mkProc w (Some ph)))) (TSave l)
      (mkWorld disk' (Some (mkProc w (Some ph')))) (save_obs l (nodes_of w))
| t_save_crash : forall s w l, read_config s LCrash ->
    tstep fmt (mkWorld (Some s) (Some (mkProc w (Some SvStart)))) (TSave l) (mkWorld (Some s) None) [TOFileCrash]
| t_kill : forall disk p, tstep fmt (mkWorld disk (Some p)) TKill (mkWorld disk None) [TOKilled]
| t_edit : forall disk p s, tstep fmt (mkWorld disk p) (TEdit s) (mkWorld s p) [TOEdited].

Inductive trun (fmt : spec_float -> text) : world -> list tlabel -> world -> list tobs -> Prop :=
| trun_nil : forall w, trun fmt w [] w []
| trun_step : forall w l w1 o1 ls w2 o2, tstep fmt w l w1 o1 -> trun fmt w1 ls w2 o2 ->
    trun fmt w (l :: ls) w2 (o1 ++ o2).
