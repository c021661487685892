(** Executions in which Identify of a node is under way, and one in which it waits for ever. *)
From Verif Require Import ModelBase ModelReports ModelSerial ModelNodes ModelList DataDevices ModelDatabase ModelIdentify.
From Verif Require Import ModelController ModelConnection ModelSystem ModelWhole.
From Verif Require Import SpecFrame SpecMessage SpecConnection SpecSystem SpecWhole SpecComplete.
From Verif Require Import ProofSerial ProofWitness ProofDiscovery ProofWholeRuns ProofAnswerRuns ProofComplete ProofResume.
From Coq Require Import Lia.

(** Node 5 says that it does not listen; node 5 says that it is awake. *)
Definition sleeper_frame : list byte := [x01; x09; x01; x41; x53; x9c; x00; x04; x10; x01; x6c].
Definition awake_frame : list byte := [x01; x08; x00; x04; x00; x05; x02; x84; x07; x77].
(** Identify of a sleeping node waits for its wake-up before it asks for the product. *)
Definition asleep : list wlabel := waiting ++ map WSys (frame_in sleeper_frame [1]) ++ [WAnswer 5; WGo 5; WGo 5].

Lemma contained_more : Forall self_contained [sleeper_frame; awake_frame].
Proof.
  repeat apply Forall_cons; [| |apply Forall_nil]; (split; [eapply frame_compute; reflexivity|]); vm_compute;
    repeat split; try discriminate; try lia.
Qed.
Lemma all_contained f : In f [info_frame; ms_frame; ep_frame; sleeper_frame; awake_frame] -> self_contained f.
Proof.
  pose proof contained as C. pose proof contained_more as D. rewrite Forall_forall in C, D. cbn [In] in *.
  intros [<-|[<-|[<-|[<-|[<-|[]]]]]]; try (apply C; tauto); apply D; tauto.
Qed.

(** What the property speaks about, as a check that can be run. *)
Definition under_way (ls : list wlabel) (k : nat) : bool :=
  match wrun (wstart false []) ls with
  | Some (Ok (w, tr, o)) =>
      negb (c_crashed (y_conn (w_sys w))) && match c_mode (y_conn (w_sys w)) with RReading => true | _ => false end &&
      match node_of (w_sys w) x05 with Some _ => true | None => false end &&
      match zlookup (address x05) (w_jobs w) with
      | Some j => match k with
                  | 0 => j_holds j && negb (answered j) && match stage_of (j_pc j) with Some 0 => true | _ => false end
                  | _ => match j_pc j with IWait SMs (Some _) => true | _ => false end
                  end
      | None => false
      end
  | _ => false
  end.
Definition moment (P : whole -> list event -> Prop) : Prop :=
  exists ls w tr o, wrun (wstart false []) ls = Some (Ok (w, tr, o)) /\ c_crashed (y_conn (w_sys w)) = false /\
    c_mode (y_conn (w_sys w)) = RReading /\ (exists n, node_of (w_sys w) x05 = Some n) /\ P w tr.
Lemma type_awaited : moment (fun w _ => at_stage w x05 0).
Proof.
  assert (U : under_way waiting 0 = true) by (vm_compute; reflexivity). unfold under_way in U.
  destruct (wrun (wstart false []) waiting) as [[[[w tr] o]| |]|] eqn:R; [|discriminate U|discriminate U|discriminate U].
  exists waiting, w, tr, o. split; [exact R|]. destruct (c_crashed (y_conn (w_sys w))); [discriminate U|]. split; [reflexivity|].
  destruct (c_mode (y_conn (w_sys w))); try discriminate U. split; [reflexivity|].
  destruct (node_of (w_sys w) x05) as [n|]; [|discriminate U]. split; [exists n; reflexivity|].
  destruct (zlookup (address x05) (w_jobs w)) as [j|] eqn:J; [|discriminate U]. cbn [negb andb] in U.
  apply andb_prop in U. destruct U as [U S]. apply andb_prop in U. destruct U as [HH A].
  exists j. split; [exact J|]. split; [exact HH|]. split; [unfold answered in A; destruct (j_ans j); [discriminate A|reflexivity]|].
  destruct (stage_of (j_pc j)) as [[|k]|]; [reflexivity|discriminate S|discriminate S].
Qed.
Lemma wake_awaited : moment (fun w tr => unfinished w x05 /\ ~ is_lost w tr x05).
Proof.
  assert (U : under_way asleep 1 = true) by (vm_compute; reflexivity). unfold under_way in U.
  destruct (wrun (wstart false []) asleep) as [[[[w tr] o]| |]|] eqn:R; [|discriminate U|discriminate U|discriminate U].
  exists asleep, w, tr, o. split; [exact R|]. destruct (c_crashed (y_conn (w_sys w))); [discriminate U|]. split; [reflexivity|].
  destruct (c_mode (y_conn (w_sys w))); try discriminate U. split; [reflexivity|].
  destruct (node_of (w_sys w) x05) as [n|]; [|discriminate U]. split; [exists n; reflexivity|].
  destruct (zlookup (address x05) (w_jobs w)) as [j|] eqn:J; [|discriminate U]. cbn [negb andb] in U.
  destruct (j_pc j) as [| | |s|s|s [c|]|s|s|l|l| | |] eqn:P; try discriminate U; [|destruct s; discriminate U].
  split; [exists j; split; [exact J|rewrite P; discriminate]|].
  intros (j' & J' & L). rewrite J in J'. injection J' as <-. destruct L as [(s' & [L|[L _]])|(L & _)]; rewrite P in L; discriminate L.
Qed.
Lemma answer_missed : moment (fun w tr => unfinished w x05 /\ is_lost w tr x05).
Proof.
  assert (U : match wrun (wstart false []) too_early with
    | Some (Ok (w, tr, o)) =>
      negb (c_crashed (y_conn (w_sys w))) && match c_mode (y_conn (w_sys w)) with RReading => true | _ => false end &&
      match node_of (w_sys w) x05 with Some _ => true | None => false end &&
      existsb (fun e => match e with EvClose 1 => true | _ => false end) tr &&
      match zlookup (address x05) (w_jobs w) with
      | Some j => negb (j_holds j) && match j_pc j with IInfo => true | _ => false end && match j_req j with Some 1 => true | _ => false end
      | None => false
      end
    | _ => false
    end = true) by (vm_compute; reflexivity).
  destruct (wrun (wstart false []) too_early) as [[[[w tr] o]| |]|] eqn:R; [|discriminate U|discriminate U|discriminate U].
  exists too_early, w, tr, o. split; [exact R|]. destruct (c_crashed (y_conn (w_sys w))); [discriminate U|]. split; [reflexivity|].
  destruct (c_mode (y_conn (w_sys w))); try discriminate U. split; [reflexivity|].
  destruct (node_of (w_sys w) x05) as [n|]; [|discriminate U]. split; [exists n; reflexivity|]. cbn [negb andb] in U.
  apply andb_prop in U. destruct U as [E U]. apply existsb_exists in E. destruct E as (e & IE & EE).
  destruct (zlookup (address x05) (w_jobs w)) as [j|] eqn:J; [|discriminate U].
  destruct (j_holds j) eqn:HH; [discriminate U|].
  destruct (j_pc j) eqn:P; try discriminate U. destruct (j_req j) as [[|[|k]]|] eqn:Q; try discriminate U.
  split; [exists j; split; [exact J|rewrite P; discriminate]|]. exists j. split; [exact J|]. right. split; [rewrite P; reflexivity|].
  exists 1. split; [exact Q|]. split; [exact HH|].
  destruct e as [| | | | | | | |k0| | | | | | | | |]; try discriminate EE. destruct k0 as [|[|k0]]; try discriminate EE. exact IE.
Qed.
Lemma never_ends : exists file ns ls w tr o b,
  wrun (wstart file ns) ls = Some (Ok (w, tr, o)) /\ c_crashed (y_conn (w_sys w)) = false /\
  c_mode (y_conn (w_sys w)) = RReading /\ unfinished w b /\
  forall ls' w' ev o', wrun w ls' = Some (Ok (w', ev, o')) -> ~ returned w' b.
Proof.
  destruct answer_missed as (ls & w & tr & o & R & C & M & _ & U & L). exists false, [], ls, w, tr, o, x05.
  repeat (split; [assumption|]). exact (lost_never_ends _ _ _ _ _ _ _ R L).
Qed.
Lemma answers_known : Forall self_contained [info_frame; ms_frame; ep_frame; sleeper_frame; awake_frame] /\
  (exists pi, info_of info_frame = Some pi /\ pi_listening pi = true /\ listed_type (pi_generic pi) (pi_specific pi)) /\
  (exists pi, info_of sleeper_frame = Some pi /\ pi_listening pi = false) /\
  report_of ms_frame = [(x05, RManufacturer "0081" "00a0" "0001")]%string /\
  (exists x y, report_of ep_frame = [(x05, REndpoints x y 3)]) /\ report_of awake_frame = [(x05, RWakeUp)].
Proof.
  split; [apply Forall_forall; exact all_contained|]. split.
  { eexists. split; [vm_compute; reflexivity|]. split; [reflexivity|]. cbn [pi_generic pi_specific].
    assert (E : existsb (fun d => match d with (g, s, _) => (Byte.eqb g x10 && Byte.eqb s x01)%bool end) definitions = true) by (vm_compute; reflexivity).
    apply existsb_exists in E. destruct E as ([[g s] v] & I & E). apply andb_prop in E. destruct E as [E1 E2].
    apply Byte.byte_dec_bl in E1. apply Byte.byte_dec_bl in E2. subst. exists v. exact I. }
  split; [eexists; split; vm_compute; reflexivity|]. split; [vm_compute; reflexivity|].
  split; [do 2 eexists; vm_compute; reflexivity|vm_compute; reflexivity].
Qed.
