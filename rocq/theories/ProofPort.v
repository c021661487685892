(** Lemmas about the port. *)
From Verif Require Import ModelBase ModelReports ModelSerial ModelConnection ModelPort SpecConnection SpecPort
  ProofBase ProofConnection.

Lemma same_map ev : same_but_lost (map PE ev) ev.
Proof. induction ev; constructor; auto. Qed.

Lemma fails_first n sp tr : prun pinit (repeat POpenFails n) = Some (sp, tr) -> sp = pinit /\ tr = [].
Proof.
  revert sp tr. induction n as [|n IH]; intros sp tr H; cbn [repeat prun] in H.
  - injection H as <- <-. auto.
  - change (pstep pinit POpenFails) with (Some (pinit, @nil pevent)) in H. cbv iota beta in H.
    destruct (prun pinit (repeat POpenFails n)) as [[sp1 e1]|] eqn:E; [|discriminate].
    injection H as <- <-. exact (IH _ _ eq_refl).
Qed.

Lemma prun_app ls1 : forall ls2 sp sp2 tr, prun sp (ls1 ++ ls2) = Some (sp2, tr) ->
  exists sp1 tr1 tr2, prun sp ls1 = Some (sp1, tr1) /\ prun sp1 ls2 = Some (sp2, tr2) /\ tr = tr1 ++ tr2.
Proof.
  induction ls1 as [|l ls1 IH]; intros ls2 sp sp2 tr H; cbn [app prun] in *.
  - exists sp, [], tr. auto.
  - destruct (pstep sp l) as [[spa eva]|]; [|discriminate].
    destruct (prun spa (ls1 ++ ls2)) as [[spb evb]|] eqn:E; [|discriminate].
    injection H as <- <-. apply IH in E. destruct E as (sp1 & t1 & t2 & H1 & H2 & ->).
    rewrite H1. exists sp1, (eva ++ t1), t2. rewrite app_assoc. auto.
Qed.

Definition not_nil (pre : list label) (p : port) : Prop := (0 < connects pre)%nat -> p <> PNil.

Lemma take_writer s w s' ev : step s (LTake w) = Some (s', ev) -> (0 < List.length (c_writers s))%nat.
Proof.
  intros H. unfold step in H. destruct (c_crashed s); [discriminate|].
  destruct (c_writers s); [destruct w; discriminate|cbn; lia].
Qed.
Lemma take_event s w s' ev : step s (LTake w) = Some (s', ev) -> exists b, ev = [EvWire (taken_id s) b].
Proof.
  intros H. unfold step in H. destruct (c_crashed s); [discriminate|]. unfold taken_id.
  destruct (nth_error _ _) as [[]|]; try discriminate. destruct (c_sendq s) as [|[]]; [discriminate|].
  injection H as _ <-. eauto.
Qed.
Lemma take_crashed s w s' ev : step s (LTake w) = Some (s', ev) -> c_crashed s' = false.
Proof.
  intros H. unfold step in H. destruct (c_crashed s) eqn:E; [discriminate|].
  destruct (nth_error _ _) as [[]|]; try discriminate. destruct (c_sendq s) as [|[]]; [discriminate|].
  injection H as <- _. exact E.
Qed.

Lemma one_step pre s tr p l s' p' ev : run init pre = Some (s, tr) -> not_nil pre p ->
  pstep (s, p) (PDo l) = Some ((s', p'), ev) ->
  exists ev', run init (pre ++ [l]) = Some (s', tr ++ ev') /\ same_but_lost ev ev' /\
    not_nil (pre ++ [l]) p' /\ (l <> LReadFail -> p <> PClosed -> p' <> PClosed /\ ev = map PE ev').
Proof.
  intros R N H. unfold pstep in H. destruct (step s l) as [[s1 ev1]|] eqn:ES; [|discriminate].
  assert (R1 : run init (pre ++ [l]) = Some (s1, tr ++ ev1)).
  { rewrite run_app, R. cbn [run]. rewrite ES, app_nil_r. reflexivity. }
  assert (K : l <> LConnect -> connects (pre ++ [l]) = connects pre).
  { intros D. unfold connects. rewrite filter_app, app_length. destruct l; cbn; try lia. congruence. }
  unfold not_nil in *.
  destruct l; try (injection H as <- <- <-; exists ev1; split; [exact R1|]; split; [apply same_map|];
    split; [first [rewrite K by discriminate; exact N|discriminate]|]; auto; fail).
  - injection H as <- <- <-. exists ev1. split; [exact R1|]. split; [apply same_map|]. split; [discriminate|].
    intros _ _. split; [discriminate|reflexivity].
  - pose proof (take_writer _ _ _ _ ES) as W. rewrite (writers_connects _ _ _ R) in W.
    destruct p.
    + exfalso. exact (N W eq_refl).
    + injection H as <- <- <-. exists ev1. split; [exact R1|]. split; [apply same_map|].
      split; [discriminate|]. auto.
    + injection H as <- <- <-. exists ev1. split; [exact R1|].
      destruct (take_event _ _ _ _ ES) as [b ->]. split; [repeat constructor; eauto|].
      split; [discriminate|]. congruence.
Qed.

Lemma all_steps r : forall pre s tr p s' p' ptr, run init pre = Some (s, tr) -> not_nil pre p ->
  prun (s, p) (map PDo r) = Some ((s', p'), ptr) ->
  exists tr', run init (pre ++ r) = Some (s', tr ++ tr') /\ same_but_lost ptr tr' /\ not_nil (pre ++ r) p' /\
    (~ In LReadFail r -> p <> PClosed -> p' <> PClosed /\ ptr = map PE tr').
Proof.
  induction r as [|l r IH]; intros pre s tr p s' p' ptr R N H; cbn [map prun] in H.
  - injection H as <- <- <-. exists []. rewrite !app_nil_r. repeat split; auto. constructor.
  - destruct (pstep (s, p) (PDo l)) as [[[s1 p1] ev1]|] eqn:ES; [|discriminate].
    destruct (prun (s1, p1) (map PDo r)) as [[[s2 p2] ev2]|] eqn:ER; [|discriminate].
    injection H as <- <- <-.
    destruct (one_step _ _ _ _ _ _ _ _ R N ES) as (e1 & R1 & S1 & N1 & C1).
    destruct (IH _ _ _ _ _ _ _ R1 N1 ER) as (e2 & R2 & S2 & N2 & C2).
    exists (e1 ++ e2). rewrite <- app_assoc in R2. cbn [app] in R2. rewrite app_assoc. split; [exact R2|].
    split; [apply Forall2_app; assumption|]. split; [rewrite <- app_assoc in N2; exact N2|].
    intros L P. destruct C1 as [C1 ->]; [intros ->; apply L; left; reflexivity|exact P|].
    destruct C2 as [C2 ->]; [intros I; apply L; right; exact I|exact C1|].
    rewrite map_app. auto.
Qed.

Lemma actions_reopens n r : actions (repeat POpenFails n ++ map PDo r) = r.
Proof.
  unfold actions. rewrite flat_map_app. replace (flat_map _ (repeat _ n)) with (@nil label).
  - cbn. induction r; cbn; congruence.
  - induction n; cbn; auto.
Qed.

Lemma reopens_steps ls s p ptr : reopens ls -> prun pinit ls = Some ((s, p), ptr) ->
  exists tr', run init (actions ls) = Some (s, tr') /\ same_but_lost ptr tr' /\ not_nil (actions ls) p /\
    (port_lasts ls -> p <> PClosed /\ ptr = map PE tr').
Proof.
  intros (n & r & ->) H. apply prun_app in H. destruct H as (sp1 & t1 & t2 & H1 & H2 & ->).
  apply fails_first in H1. destruct H1 as [-> ->]. rewrite actions_reopens.
  assert (N0 : not_nil [] PNil) by (unfold not_nil; cbn; lia).
  destruct (all_steps r [] init [] PNil s p t2 eq_refl N0 H2) as (tr' & R & S & N & C).
  exists tr'. cbn [app] in R, N. do 3 (split; [assumption|]).
  intros L. apply C; [|discriminate]. intros I. apply L. apply in_or_app. right. apply in_map, I.
Qed.

Lemma reopening_simulates ls s p tr : reopens ls -> prun pinit ls = Some ((s, p), tr) ->
  exists tr', run init (actions ls) = Some (s, tr') /\ same_but_lost tr tr'.
Proof. intros R H. destruct (reopens_steps _ _ _ _ R H) as (t & A & B & _). eauto. Qed.

Lemma take_safe ls s p tr w s' p' ev : reopens ls -> prun pinit ls = Some ((s, p), tr) ->
  pstep (s, p) (PDo (LTake w)) = Some ((s', p'), ev) -> c_crashed s' = false.
Proof.
  intros R H T. destruct (reopens_steps _ _ _ _ R H) as (t & A & _ & N & _).
  unfold pstep in T. destruct (step s (LTake w)) as [[s1 e1]|] eqn:ES; [|discriminate].
  pose proof (take_writer _ _ _ _ ES) as W. rewrite (writers_connects _ _ _ A) in W.
  pose proof (take_crashed _ _ _ _ ES) as C.
  destruct p; [exfalso; exact (N W eq_refl)|..]; injection T as <- _ _; exact C.
Qed.

Lemma lasting ls s p tr : reopens ls -> port_lasts ls -> prun pinit ls = Some ((s, p), tr) ->
  exists tr', run init (actions ls) = Some (s, tr') /\ tr = map PE tr'.
Proof. intros R L H. destruct (reopens_steps _ _ _ _ R H) as (t & A & _ & _ & C). exists t. split; [exact A|]. apply C, L. Qed.

Lemma lost_pe tr : lost (map PE tr) = [].
Proof. induction tr; cbn; auto. Qed.

Lemma port_crash : exists ls s p tr, prun pinit ls = Some ((s, p), tr) /\ no_reads (actions ls) /\
  c_crashed s = true.
Proof.
  exists [PDo LConnect; PDo LReadFail; POpenFails; PDo (LCall [x02] NoWait false x00); PDo (LTake 0)].
  do 3 eexists. split; [vm_compute; reflexivity|]. split; [|reflexivity].
  intros st c r I. cbn in I. intuition discriminate.
Qed.

Lemma port_lost : exists ls s p tr i, prun pinit ls = Some ((s, p), tr) /\ reopens ls /\
  In (PE (EvCall i [x02] NoWait false x00)) tr /\ lost tr = [i] /\ sent tr = [] /\
  p = POpen /\ c_crashed s = false /\ c_sendq s = [] /\ c_resend s = [] /\ c_timers s = [] /\ c_writers s = [WIdle; WIdle].
Proof.
  exists (map PDo [LConnect; LReadFail; LCall [x02] NoWait false x00; LTake 0; LAckTimeout 0; LFinish 0; LConnect]).
  do 4 eexists. split; [vm_compute; reflexivity|]. split; [exists 0%nat, [LConnect; LReadFail; LCall [x02] NoWait false x00; LTake 0; LAckTimeout 0; LFinish 0; LConnect]; reflexivity|].
  repeat split; try reflexivity. left. reflexivity.
Qed.
Lemma lasting_lost ls s p tr : reopens ls -> port_lasts ls -> prun pinit ls = Some ((s, p), tr) ->
  lost tr = [] /\ exists tr', run init (actions ls) = Some (s, tr') /\ tr = map PE tr'.
Proof.
  intros R L H. destruct (lasting _ _ _ _ R L H) as (t & A & ->). split; [apply lost_pe|eauto].
Qed.
