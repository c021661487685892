(** Executions with restarts. *)
From Verif Require Import ModelBase ModelReports ModelSerial ModelCommands ModelNodes ModelList DataDevices ModelDatabase.
From Verif Require Import ModelIdentify ModelController ModelConnection ModelSystem ModelWhole.
From Verif Require Import ProofBase ProofWholeRuns ProofFormat.
From Verif Require Import SpecFloat64 ModelJson SpecJson ModelConfig SpecConfig ProofConfig ProofReload ProofSane ModelLife SpecLife ProofLife.
From Coq Require Import Lia Floats.SpecFloat Permutation.
Local Opaque definitions devices.

(** ** Executions put together *)
Section Fmt.
Variable fmt : spec_float -> text.
Hypothesis FMT : forall f, is_double f -> faithful fmt f.

Lemma trun_app w ls w1 o1 ls' w2 o2 : trun fmt w ls w1 o1 -> trun fmt w1 ls' w2 o2 ->
  trun fmt w (ls ++ ls') w2 (o1 ++ o2).
Proof.
  induction 1 as [w|w l w1 o1 ls w3 o3 S R IH]; intros H; [exact H|]. rewrite <- app_assoc. cbn [app].
  eapply trun_step; [exact S|]. apply IH, H.
Qed.
Lemma trun_one w l w1 o1 : tstep fmt w l w1 o1 -> trun fmt w [l] w1 o1.
Proof. intros H. rewrite <- (app_nil_r o1). eapply trun_step; [exact H|constructor]. Qed.
Lemma work_run ls : forall disk w w' ev o ph, wrun w ls = Some (Ok (w', ev, o)) ->
  existsb is_saved ls = false -> begins o = false ->
  trun fmt (mkWorld disk (Some (mkProc w ph))) (map TWork ls) (mkWorld disk (Some (mkProc w' ph))) [].
Proof.
  induction ls as [|l ls IH]; intros disk w w' ev o ph R NS NB; cbn [wrun map existsb] in *.
  - injection R as <- _ _. constructor.
  - apply orb_false_elim in NS. destruct NS as [N1 N2]. destruct (wstep w l) as [[[[w1 e1] o1]| |]|] eqn:S; try discriminate.
    destruct (wrun w1 ls) as [[[[w2 e2] o2]| |]|] eqn:R2; try discriminate. injection R as <- _ <-.
    unfold begins in NB. rewrite existsb_app in NB. apply orb_false_elim in NB. destruct NB as [B1 B2].
    change (@nil tobs) with (@nil tobs ++ []). eapply trun_step.
    + eapply t_work; [exact S|]. intros E. congruence.
    + unfold after_work, begins. rewrite B1, N1. exact (IH disk w1 w2 e2 o2 ph R2 N2 B2).
Qed.

(** A save from its beginning to its end. *)
Definition full_save (s : text) : list tlabel := map TSave [FCreate; FMarshal; FWrite (List.length s); FReturn].
Lemma save_run disk w : wsane fmt w -> harmless disk -> exists s, marshal fmt (nodes_of w) = Some s /\ gives s (nodes_of w) /\
  trun fmt (mkWorld disk (Some (mkProc w (Some SvStart)))) (full_save s)
    (mkWorld (Some s) (Some (mkProc w (Some SvDone)))) [TOCreated; TOSave (nodes_of w); TOSaved].
Proof.
  intros [S0 S S1] H. destruct (saved_text fmt _ S) as (s & M). exists s. split; [exact M|]. split; [exact (saved_gives fmt _ s S M)|].
  unfold full_save. cbn [map].
  change [TOCreated; TOSave (nodes_of w); TOSaved] with ([TOCreated] ++ [TOSave (nodes_of w)] ++ [] ++ [TOSaved] ++ []).
  eapply trun_step; [apply (t_save fmt disk w SvStart FCreate); [|reflexivity]|].
  { destruct disk as [t|]; cbn; [|exact I]. destruct (read_total t) as (d & R). exists d. split; [exact R|].
    intros ->. apply H. exists LCrash. auto. }
  eapply trun_step; [apply (t_save fmt _ w _ FMarshal); [exact I|cbn [fstep f_phase f_file]; unfold nodes_of; rewrite M; reflexivity]|].
  eapply trun_step; [apply (t_save fmt _ w _ (FWrite (List.length s))); [exact I|]|].
  { cbn [fstep f_phase f_file]. rewrite Nat.leb_refl, skipn_all, firstn_all. reflexivity. }
  eapply trun_step; [apply (t_save fmt _ w _ FReturn); [exact I|reflexivity]|]. constructor.
Qed.
End Fmt.

(** ** The program finds node 5, identifies it and saves *)
Definition again : list wlabel := map (fun l => WSys (YCtl l)) [CTrigger; CTick 10000].
Definition timeout : wlabel := WSys (YCtl CTimeout).
Definition returned : wlabel := WSys (YCtl CSaved).

Definition after (w : whole) (ls : list wlabel) : whole :=
  match wrun w ls with Some (Ok (w', _, _)) => w' | _ => w end.
Definition w1 : whole := after (wstart true []) (identify ++ again).
Definition w2 : whole := after w1 [timeout].
Definition w3 : whole := after w2 (returned :: again).
Definition w4 : whole := after w3 [timeout].

Definition step_ok (w : whole) (ls : list wlabel) (b : bool) : bool :=
  match wrun w ls with Some (Ok (_, _, o)) => Bool.eqb (begins o) b | _ => false end.
Lemma step_ok_run w ls b : step_ok w ls b = true -> exists ev o, wrun w ls = Some (Ok (after w ls, ev, o)) /\ begins o = b.
Proof.
  unfold step_ok, after. destruct (wrun w ls) as [[[[w' ev] o]| |]|]; try discriminate. intros H.
  exists ev, o. split; [reflexivity|]. now apply Bool.eqb_prop.
Qed.
Lemma runs_ok : (step_ok (wstart true []) (identify ++ again) false && step_ok w1 [timeout] true &&
  step_ok w2 (returned :: again) false && step_ok w3 [timeout] true &&
  negb (existsb is_saved (identify ++ again)))%bool = true.
Proof. vm_compute. reflexivity. Qed.

Definition knows5b (ns : list (Z * node)) : bool :=
  match zlookup 5%Z ns with
  | Some n => String.eqb (n_brand n) "SIEGENIA-AUBI KG" && String.eqb (n_product n) "Sensoair"
  | None => false
  end.
Lemma knows5b_ok ns : knows5b ns = true -> knows5 ns.
Proof.
  unfold knows5b, knows5. destruct (zlookup 5 ns) as [n|]; [|discriminate]. intros H. apply andb_prop in H. destruct H as [B P].
  exists n. repeat split; [now apply String.eqb_eq|now apply String.eqb_eq].
Qed.
Lemma known_w2 : knows5 (nodes_of w2).
Proof. apply knows5b_ok. vm_compute. reflexivity. Qed.
Lemma runs5 : step_ok (wstart true []) (identify ++ again) false = true /\ step_ok w1 [timeout] true = true /\
  step_ok w2 (returned :: again) false = true /\ step_ok w3 [timeout] true = true /\ existsb is_saved (identify ++ again) = false.
Proof.
  pose proof runs_ok as H. apply andb_prop in H. destruct H as [H E]. apply andb_prop in H. destruct H as [H D].
  apply andb_prop in H. destruct H as [H C]. apply andb_prop in H. destruct H as [A B]. apply negb_true_iff in E. auto.
Qed.

Lemma w1_eq : after (wstart true []) (identify ++ again) = w1.
Proof. unfold w1. reflexivity. Qed.
Lemma w2_eq : after w1 [timeout] = w2.
Proof. unfold w2. reflexivity. Qed.
Lemma w3_eq : after w2 (returned :: again) = w3.
Proof. unfold w3. reflexivity. Qed.
Lemma w4_eq : after w3 [timeout] = w4.
Proof. unfold w4. reflexivity. Qed.
Lemma again_quiet : existsb is_saved again = false.
Proof. reflexivity. Qed.

Section Story.
Variable fmt : spec_float -> text.
Hypothesis FMT : forall f, is_double f -> faithful fmt f.

Lemma quiet_work disk w ls ph : step_ok w ls false = true -> existsb is_saved ls = false ->
  trun fmt (mkWorld disk (Some (mkProc w ph))) (map TWork ls) (mkWorld disk (Some (mkProc (after w ls) ph))) [].
Proof. intros A E. destruct (step_ok_run _ _ _ A) as (e & o & R & B). exact (work_run fmt _ disk _ _ e o ph R E B). Qed.
Lemma save_asked disk w l ph : step_ok w [l] true = true -> is_saved l = false ->
  trun fmt (mkWorld disk (Some (mkProc w ph))) [TWork l] (mkWorld disk (Some (mkProc (after w [l]) (Some SvStart)))) [].
Proof.
  intros A E. destruct (step_ok_run _ _ _ A) as (e & o & R & B). apply trun_one. revert R. unfold after. cbn [wrun].
  destruct (wstep w l) as [[[[w' ev] o']| |]|] eqn:S; try discriminate.
  intros R. injection R as _ Eo. rewrite app_nil_r in Eo. subst o'.
  replace (Some SvStart) with (after_work l o ph) by (unfold after_work; rewrite B; reflexivity).
  eapply t_work; [exact S|]. intros; congruence.
Qed.
Lemma save_returned disk w ls : step_ok w (returned :: ls) false = true -> existsb is_saved ls = false ->
  trun fmt (mkWorld disk (Some (mkProc w (Some SvDone)))) (map TWork (returned :: ls))
    (mkWorld disk (Some (mkProc (after w (returned :: ls)) None))) [].
Proof.
  intros A E. destruct (step_ok_run _ _ _ A) as (e & o & R & B). revert R. unfold after. cbn [wrun map].
  destruct (wstep w returned) as [[[[wa ea] oa]| |]|] eqn:S; try discriminate.
  destruct (wrun wa ls) as [[[[wb eb] ob]| |]|] eqn:R'; try discriminate.
  intros R. injection R as _ Eo. subst o. unfold begins in B. rewrite existsb_app in B. apply orb_false_elim in B. destruct B as [Ba Bb].
  change (@nil tobs) with (@nil tobs ++ []). eapply trun_step; [eapply t_work; [exact S|intros _; reflexivity]|].
  unfold after_work, begins. rewrite Ba. exact (work_run fmt ls disk wa wb eb ob None R' E Bb).
Qed.

Local Opaque w1 w2 w3 w4 identify again after step_ok wstart.
(** Started without a file, the program comes to its first save. *)
Definition upto_save : list tlabel := TStart :: map TWork (identify ++ again) ++ [TWork timeout].
Lemma first_save : trun fmt (mkWorld None None) upto_save (mkWorld None (Some (mkProc w2 (Some SvStart)))) [TOStarted (nodes_of (wstart true []))].
Proof.
  destruct runs5 as (A & B & _ & _ & E). unfold upto_save.
  change [TOStarted (nodes_of (wstart true []))] with ([TOStarted (nodes_of (wstart true []))] ++ [] ++ []).
  eapply trun_step; [apply t_start, boot_missing|].
  eapply trun_app; [exact (quiet_work None _ _ None A E)|]. rewrite w1_eq, <- w2_eq. exact (save_asked None w1 timeout None B eq_refl).
Qed.
(** When the save has returned, the next one is asked for. *)
Definition next_save : list tlabel := map TWork (returned :: again) ++ [TWork timeout].
Lemma second_save disk : trun fmt (mkWorld disk (Some (mkProc w2 (Some SvDone)))) next_save (mkWorld disk (Some (mkProc w4 (Some SvStart)))) [].
Proof.
  destruct runs5 as (_ & _ & C & D & _). unfold next_save. change (@nil tobs) with (@nil tobs ++ []).
  eapply trun_app; [exact (save_returned disk w2 again C again_quiet)|]. rewrite w3_eq, <- w4_eq.
  exact (save_asked disk w3 timeout None D eq_refl).
Qed.
Lemma none_known : nodes_of (wstart true []) = [].
Proof. Local Transparent wstart. reflexivity. Qed.
Local Opaque wstart.
Lemma sane_w2 : wsane fmt w2.
Proof. exact (tsane_run fmt FMT _ _ _ _ first_save I). Qed.
Lemma not_in_empty ns : knows5 ns -> ~ same_nodes ns [].
Proof. intros (n & Z & _) H. specialize (H 5%Z). rewrite Z in H. exact H. Qed.

(** The first save ends, the second one is cut short by a kill, and the program starts again. *)
Lemma saved_then_lost : exists ls w ns, trun fmt (mkWorld None None) ls w
    [TOStarted []; TOCreated; TOSave ns; TOSaved; TOCreated; TOKilled; TOStarted []] /\ knows5 ns.
Proof.
  pose proof known_w2 as K. destruct (save_run fmt None w2 sane_w2 I) as (s & M & G & R).
  exists (upto_save ++ full_save s ++ next_save ++ [TSave FCreate; TKill; TStart]), (mkWorld (Some []) (Some (mkProc (wstart true []) None))), (nodes_of w2).
  split; [|exact K].
  change [TOStarted []; TOCreated; TOSave (nodes_of w2); TOSaved; TOCreated; TOKilled; TOStarted []] with
    ([TOStarted []] ++ [TOCreated; TOSave (nodes_of w2); TOSaved] ++ [] ++ [TOCreated] ++ [TOKilled] ++ [TOStarted []] ++ []).
  eapply trun_app; [rewrite <- none_known; exact first_save|]. eapply trun_app; [exact R|]. eapply trun_app; [exact (second_save (Some s))|].
  eapply trun_step.
  { refine (t_save fmt (Some s) w4 SvStart FCreate (SvCreated true) (Some []) _ eq_refl).
    destruct G as (_ & NC & _). destruct (read_total s) as (d & RD). exists d. split; [exact RD|]. intros ->. apply NC. exists LCrash. auto. }
  eapply trun_step; [apply t_kill|]. eapply trun_step; [|constructor]. rewrite <- none_known. apply t_start.
  apply (boot_rejected [] LError); [apply RC_syntax; reflexivity|reflexivity].
Qed.

(** A file with a null node is put in place while the program runs. *)
Definition null_file : text := txt "{""Nodes"":{""5"":null}}".
Lemma null_held : holds_null null_file.
Proof.
  eexists _, _, _, _. split; [vm_compute; reflexivity|]. split; [left; reflexivity|]. split; [vm_compute; reflexivity|].
  eexists _, _, _. split; [reflexivity|]. split; [left; reflexivity|]. exact I.
Qed.
Lemma edited_then_crash : exists ls w, trun fmt (mkWorld None None) ls w [TOStarted []; TOEdited; TOFileCrash].
Proof.
  exists (upto_save ++ [TEdit (Some null_file); TSave FCreate]), (mkWorld (Some null_file) None).
  change [TOStarted []; TOEdited; TOFileCrash] with ([TOStarted []] ++ [TOEdited] ++ [TOFileCrash] ++ []).
  eapply trun_app; [rewrite <- none_known; exact first_save|]. eapply trun_step; [apply t_edit|]. eapply trun_step; [|constructor].
  apply t_save_crash. destruct (read_total null_file) as (d & R). pose proof (proj2 (null_crash _ _ R) null_held). congruence.
Qed.

(** A save at which the program dies while it reads the file. *)
Lemma save_crash_iff s w : (exists l w', tstep fmt (mkWorld (Some s) (Some (mkProc w (Some SvStart)))) (TSave l) w' [TOFileCrash]) <-> holds_null s.
Proof.
  destruct (read_total s) as (d & R). split.
  - intros (l & w' & H). inversion H as [| | | |? ? ? ? ? ? ? ? F O|? ? ? R' O| |]; subst.
    + destruct l; discriminate.
    + apply (proj1 (null_crash _ _ R')). reflexivity.
  - intros N. pose proof (proj2 (null_crash _ _ R) N) as ->. exists FCreate. eexists. apply t_save_crash, R.
Qed.
(** The first save ends, and the program is killed and started again. *)
Lemma saved_then_restarted : exists ls w ns ns', trun fmt (mkWorld None None) ls w
    [TOStarted []; TOCreated; TOSave ns; TOSaved; TOKilled; TOStarted ns'] /\ knows5 ns /\ knows5 ns'.
Proof.
  pose proof known_w2 as K. destruct (save_run fmt None w2 sane_w2 I) as (s & M & G & R).
  destruct G as (_ & _ & (ns' & B) & SM).
  exists (upto_save ++ full_save s ++ [TKill; TStart]), (mkWorld (Some s) (Some (mkProc (wstart true ns') None))), (nodes_of w2), (nodes_of (wstart true ns')).
  split; [|split; [exact K|]].
  - change [TOStarted []; TOCreated; TOSave (nodes_of w2); TOSaved; TOKilled; TOStarted (nodes_of (wstart true ns'))] with
      ([TOStarted []] ++ [TOCreated; TOSave (nodes_of w2); TOSaved] ++ [TOKilled] ++ [TOStarted (nodes_of (wstart true ns'))] ++ []).
    eapply trun_app; [rewrite <- none_known; exact first_save|]. eapply trun_app; [exact R|]. eapply trun_step; [apply t_kill|].
    eapply trun_step; [|constructor]. apply t_start, B.
  - specialize (SM ns' B 5%Z). destruct K as (n & Z & I1 & I2). rewrite Z in SM.
    destruct (zlookup 5 (nodes_of (wstart true ns'))) as [n'|] eqn:Z'; [|contradiction]. exists n'. split; [exact Z'|].
    rewrite (kept_brand _ _ SM), (kept_product _ _ SM). auto.
Qed.
End Story.
