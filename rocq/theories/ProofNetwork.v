(** Proofs about the whole program: the identifications of several nodes can be
    completed one after the other. *)
From Verif Require Import ModelBase ModelReports ModelSerial ModelCommands ModelNodes ModelList DataDevices ModelDatabase.
From Verif Require Import ModelIdentify ModelController ModelConnection ModelSystem ModelWhole.
From Verif Require Import SpecFrame SpecDecode SpecMessage SpecReports SpecConnection SpecIdentify SpecController SpecNodes SpecSystem SpecWhole SpecComplete.
From Verif Require Import ProofBase ProofReports ProofSerial ProofMessage ProofConnection ProofLink ProofReader ProofContent ProofIdentify ProofController ProofSystem ProofDiscovery ProofDelivery ProofWhole ProofWholeWait ProofAnswer ProofComplete ProofResume.
From Coq Require Import Lia.
Local Opaque definitions devices get_mandatory device_new.

(** ** One node *)
Lemma top_completes file ns b fs fw fm ma mt mp fe x y count fi pi : In fm fs -> In fe fs -> self_contained fm ->
  report_of fm = [(b, RManufacturer ma mt mp)] -> self_contained fe -> report_of fe = [(b, REndpoints x y count)] ->
  In fi fs -> self_contained fi -> info_of fi = Some pi ->
  forall w j n, stands file ns b w j n -> j_busy j = false -> j_pc j = ITop ->
  (match n_info n with Some q => n_awake n | None => pi_listening pi end = true \/
   (In fw fs /\ self_contained fw /\ report_of fw = [(b, RWakeUp)])) ->
  complete file ns b fs ma mt mp count w (match n_info n with Some _ => n | None => set_info n pi end).
Proof.
  intros IFM IFE SCM RM SCE RP IFI SCI RI w j n SD BU PC LI. destruct (n_info n) as [q|] eqn:IN.
  - destruct (after_info_split n q) as (io & AI & CO).
    destruct (goes_quiet file ns b fs _ _ _ (WGo (address b)) IGo (mkI (match n_ms n with None => IEnter SMs
       | Some _ => fst (after_ms (set_classes n (get_mandatory definitions (pi_generic q) (pi_specific q)))) end)
       (set_classes n (get_mandatory definitions (pi_generic q) (pi_specific q))) (j_chan j) (j_fresh j)) io SD) as (w' & G & SD').
    + left; reflexivity.
    + cbn [job_label]. rewrite BU. reflexivity.
    + rewrite PC. cbn [istep i_pc i_node]. rewrite IN, AI. reflexivity.
    + exact CO.
    + reflexivity.
    + apply (complete_from _ _ _ _ _ _ _ _ _ _ _ G).
      apply (from_after_info file ns b fs fw fm ma mt mp fe x y count IFM IFE SCM RM SCE RP _ _ _ q SD'); [reflexivity|reflexivity| |exact IN].
      exact LI.
  - destruct (goes_sends file ns b fs _ _ _ (mkI IInfo n (j_chan j) (j_fresh j)) [OWrite (info_request n)] (info_request n) [] SD BU)
      as (w2 & j2 & G2 & SD2 & P2 & B2 & A2 & H2).
    { rewrite PC. cbn [istep i_pc i_node]. rewrite IN. reflexivity. }
    { reflexivity. }
    cbn [i_pc] in P2, H2. specialize (H2 ltac:(discriminate)). apply (complete_from _ _ _ _ _ _ _ _ _ _ _ G2).
    exact (from_type file ns b fs fw fm ma mt mp fe x y count IFM IFE SCM RM SCE RP fi pi IFI SCI RI _ _ _ SD2 H2 A2 P2 LI).
Qed.
Lemma node_completes file ns b a w n0 : reached file ns w -> c_crashed (y_conn (w_sys w)) = false -> c_mode (y_conn (w_sys w)) = RReading ->
  not_begun w b -> node_of (w_sys w) b = Some n0 -> answers_all b n0 a ->
  exists w' j n, goes b (frames_for n0 a) w w' /\ stands file ns b w' j n /\ j_pc j = IDone /\ told b n0 a n.
Proof.
  intros RE C M NB N ((SCI & pi & RI) & (SCM & ma & mt & mp & RM) & (SCE & x & y & count & RP) & LI).
  set (fs := frames_for n0 a).
  assert (IFI : In (rs_type a) fs) by (left; reflexivity).
  assert (IFM : In (rs_product a) fs) by (right; left; reflexivity).
  assert (IFE : In (rs_endpoints a) fs) by (right; right; left; reflexivity).
  assert (LI' : match n_info n0 with Some q => n_awake n0 | None => pi_listening pi end = true \/
    (In (rs_awake a) fs /\ self_contained (rs_awake a) /\ report_of (rs_awake a) = [(b, RWakeUp)])).
  { unfold fs, frames_for. destruct (told_listening n0 a) eqn:T.
    - left. unfold told_listening in T. rewrite RI in T. destruct (n_info n0); exact T.
    - right. destruct LI as [X|X]; [discriminate|]. split; [right; right; right; left; reflexivity|exact X]. }
  assert (SD : stands file ns b w new_job n0) by (split; assumption).
  destruct (top_completes file ns b fs (rs_awake a) (rs_product a) ma mt mp (rs_endpoints a) x y count (rs_type a) pi
    IFM IFE SCM RM SCE RP IFI SCI RI w new_job n0 SD eq_refl eq_refl LI') as (w' & j' & n' & G & SD' & P & ID & (q & K0 & K1 & K2 & K3)).
  exists w', j', n'. split; [exact G|]. split; [exact SD'|]. split; [exact P|].
  assert (TT : told_type n0 a = Some q) by (unfold told_type; destruct (n_info n0) eqn:E; [congruence|rewrite RI; exact K0]).
  assert (E2 : n_ms (match n_info n0 with Some _ => n0 | None => set_info n0 pi end) = n_ms n0) by (destruct (n_info n0); reflexivity).
  assert (E3 : n_endpoints (match n_info n0 with Some _ => n0 | None => set_info n0 pi end) = n_endpoints n0) by (destruct (n_info n0); reflexivity).
  rewrite E2 in K2. rewrite E3 in K3. split; [exact ID|]. split; [congruence|]. split.
  - destruct (n_ms n0) as [m|]; [exact K2|]. exists (mkMS ma mt mp). split; [exact K2|exact RM].
  - destruct (n_endpoints n0) as [eps|].
    + destruct K3 as [[K3 _]|[X _]]; [exact K3|discriminate].
    + destruct K3 as [[_ X]|[_ (eps & K3 & AE)]]; [congruence|]. exists q, eps. split; [exact K1|]. split; [exact K3|]. intros LT.
      exists x, y, count. split; [exact RP|]. unfold answered_endpoints in AE. pose proof (listed_mandatory _ _ LT).
      destruct (get_mandatory _ _ _); [exact AE|congruence].
Qed.

(** ** The others meanwhile *)
Lemma not_restarted o : forall jobs id (j : job), zlookup id jobs = Some j -> ~ In (COIdentify id) o -> zlookup id (started o jobs) = Some j.
Proof.
  unfold started. induction o as [|x o IH]; intros jobs id j HH NI; [exact HH|].
  cbn [fold_left]. apply IH; [|intros X; apply NI; right; exact X]. destruct x; try exact HH. rewrite zlookup_set.
  destruct (Z.eqb_spec id id0) as [->|_]; [destruct NI; left; reflexivity|exact HH].
Qed.
Lemma others_step file ns w l w' ev o bs b j n : reached file ns w -> wstep w l = Some (Ok (w', ev, o)) -> moves_of bs l -> ~ In b bs ->
  zlookup (address b) (w_jobs w) = Some j -> node_of (w_sys w) b = Some n ->
  (exists e, zlookup (address b) (w_jobs w') = Some (fold_left (hear (address b)) e j)) /\
  exists n', node_of (w_sys w') b = Some n' /\ same_but_states n n'.
Proof.
  intros (ls & tr & o0 & R) S MV NI J N. pose proof (job_ident _ _ _ _ _ _ R _ _ J) as IDT.
  destruct (wstep_job _ _ _ _ _ S) as [(yl & -> & PL & YS & WJ)|(id & j1 & n1 & il & st & io & L & J1 & N1 & JL & IS & YR & WJ)].
  - split.
    + exists ev. rewrite WJ. apply not_restarted.
      * unfold hears. rewrite (zlookup_map (fun i j => fold_left (hear i) ev j)), J. reflexivity.
      * destruct (wstep_yrun _ _ _ _ _ S) as [yls YR]. destruct (yrun_spec _ _ _ _ _ YR) as [_ (cls & CC & _)].
        destruct (passed_run _ _ _ _ (address b) CC (passed_whole _ _ _ _ _ _ _ R)) as [_ X]. apply X. exact (passed_whole _ _ _ _ _ _ _ R IDT).
    + destruct (ystep_spec _ _ _ _ _ YS) as [_ (cls & CC & _)].
      assert (K : knows (y_ctl (w_sys w)) (address b)).
      { apply zlookup_key. unfold node_of in N. congruence. }
      pose proof (crun_known _ _ _ _ _ CC K) as K'.
      destruct (zlookup (address b) (c_nodes (y_ctl (w_sys w')))) as [n'|] eqn:N'; [|destruct (proj1 (zlookup_key _ _) K' N')].
      exists n'. split; [exact N'|]. destruct (proj1 (plain_nodes _ _ _ _ _ YS PL) _ _ N') as [(n2 & A & B)|(A & _)]; unfold node_of in N; congruence.
  - assert (NE : address b <> id).
    { intros <-. assert (X : exists c, In c bs /\ address b = address c) by (destruct L as [->|[->| ->]]; exact MV).
      destruct X as (c & I & E). apply NI. assert (b = c) as -> by (rewrite <- (Z2b_address b), <- (Z2b_address c), E; reflexivity). exact I. }
    split.
    + exists []. rewrite WJ, zlookup_set. destruct (Z.eqb_spec (address b) id); [contradiction|exact J].
    + exists n. split; [|apply same_refl]. unfold node_of. rewrite (effect_nodes _ _ _ _ _ _ _ YR _ NE). exact N.
Qed.
Lemma others_run file ns bs b ls : forall w w' ev o j n, reached file ns w -> wrun w ls = Some (Ok (w', ev, o)) -> Forall (moves_of bs) ls -> ~ In b bs ->
  zlookup (address b) (w_jobs w) = Some j -> node_of (w_sys w) b = Some n ->
  (exists e, zlookup (address b) (w_jobs w') = Some (fold_left (hear (address b)) e j)) /\
  exists n', node_of (w_sys w') b = Some n' /\ same_but_states n n'.
Proof.
  induction ls as [|l ls IH]; intros w w' ev o j n RE R F NI J N; cbn [wrun] in R.
  - injection R as <- _ _. split; [exists []; exact J|]. exists n. split; [exact N|apply same_refl].
  - destruct (wstep w l) as [[[[w1 e1] o1]| |]|] eqn:S; try discriminate.
    destruct (wrun w1 ls) as [[[[w2 e2] o2]| |]|] eqn:R2; try discriminate. injection R as <- _ _.
    inversion F as [|? ? F1 F2]; subst.
    destruct (others_step _ _ _ _ _ _ _ _ _ _ _ RE S F1 NI J N) as ((e & J1) & n1 & N1 & SB).
    assert (RE1 : reached file ns w1).
    { destruct RE as (l0 & e0 & o0 & R0). exists (l0 ++ [l]). do 2 eexists. eapply wrun_app; [exact R0|]. cbn [wrun]. rewrite S. reflexivity. }
    destruct (IH _ _ _ _ _ _ RE1 R2 F2 NI J1 N1) as ((e' & J2) & n2 & N2 & SB2).
    split; [exists (e ++ e'); rewrite fold_left_app; exact J2|]. exists n2. split; [exact N2|exact (same_trans _ _ _ SB SB2)].
Qed.
Lemma new_hears id e : fold_left (hear id) e new_job = new_job.
Proof.
  induction e as [|x e IH]; [reflexivity|]. cbn [fold_left].
  assert (X : hear id new_job x = new_job) by (destruct x; try reflexivity; destruct r; try reflexivity; cbn [hear]; destruct (id =? _)%Z; reflexivity).
  rewrite X. exact IH.
Qed.
Lemma same_known_facts n n' : same_but_states n n' -> n_info n' = n_info n /\ n_ms n' = n_ms n /\ n_endpoints n' = n_endpoints n /\ n_identified n' = n_identified n.
Proof. intros (mb & mf & ->). repeat split. Qed.
Lemma told_before b n0 n0' a n : same_but_states n0 n0' -> told b n0' a n -> told b n0 a n.
Proof. intros S. destruct (same_known_facts _ _ S) as (A & B & D & _). unfold told, told_type. rewrite A, B, D. exact (fun x => x). Qed.
Lemma told_after b n0 a n n' : same_but_states n n' -> told b n0 a n -> told b n0 a n'.
Proof. intros S. destruct (same_known_facts _ _ S) as (A & B & D & E). unfold told. rewrite A, B, D, E. exact (fun x => x). Qed.
Lemma frames_same n n' a : same_but_states n n' -> frames_for n' a = frames_for n a /\ forall b, answers_all b n a -> answers_all b n' a.
Proof.
  intros S. assert (E : told_listening n' a = told_listening n a) by (destruct S as (mb & mf & ->); reflexivity).
  unfold frames_for, answers_all. rewrite E. split; [reflexivity|]. intros b X. exact X.
Qed.

(** ** All nodes *)
Lemma all_complete file ns f : forall bs w, reached file ns w -> c_crashed (y_conn (w_sys w)) = false -> c_mode (y_conn (w_sys w)) = RReading ->
  NoDup bs -> (forall b, In b bs -> not_begun w b /\ exists n, node_of (w_sys w) b = Some n /\ answers_all b n (f b)) ->
  exists ls w' ev o, wrun w ls = Some (Ok (w', ev, o)) /\ Forall (only (flat_map (frames_of (w_sys w) f) bs)) ev /\ Forall (moves_of bs) ls /\
    c_crashed (y_conn (w_sys w')) = false /\
    forall b, In b bs -> returned w' b /\ exists n0 n, node_of (w_sys w) b = Some n0 /\ node_of (w_sys w') b = Some n /\ told b n0 (f b) n.
Proof.
  induction bs as [|b bs IH]; intros w RE C M ND A.
  - exists [], w, [], []. split; [reflexivity|]. split; [constructor|]. split; [constructor|]. split; [exact C|intros b []].
  - inversion ND as [|? ? NI ND']; subst. destruct (A b (or_introl eq_refl)) as (NB & n0 & N & AN).
    destruct (node_completes file ns b (f b) w n0 RE C M NB N AN) as (w1 & j1 & n1 & (l1 & e1 & o1 & R1 & F1 & M1) & SD & P & T).
    pose proof SD as [RE1 C1 RD1 J1 N1].
    assert (MV1 : Forall (moves_of [b]) l1).
    { revert M1. apply Forall_impl. intros [l|i|i|i]; cbn; try (intros ->; exists b; auto). auto. }
    assert (A1 : forall c, In c bs -> exists n nc, node_of (w_sys w) c = Some n /\ node_of (w_sys w1) c = Some nc /\ same_but_states n nc /\
      not_begun w1 c /\ answers_all c nc (f c)).
    { intros c I. destruct (A c (or_intror I)) as (NBc & nc & Nc & ANc).
      assert (NIc : ~ In c [b]) by (intros [<-|[]]; exact (NI I)).
      destruct (others_run _ _ _ _ _ _ _ _ _ _ _ RE R1 MV1 NIc NBc Nc) as ((e & Jc) & nc' & Nc' & SB).
      exists nc, nc'. split; [exact Nc|]. split; [exact Nc'|]. split; [exact SB|]. rewrite new_hears in Jc. split; [exact Jc|].
      exact (proj2 (frames_same _ _ _ SB) _ ANc). }
    destruct (IH w1 RE1 C1 RD1 ND') as (l2 & w2 & e2 & o2 & R2 & F2 & MV2 & C2 & K2).
    { intros c I. destruct (A1 c I) as (n & nc & _ & X & _ & Y & Z). split; [exact Y|]. exists nc. auto. }
    exists (l1 ++ l2), w2. do 2 eexists. split; [exact (wrun_app _ _ _ _ _ _ _ _ _ R1 R2)|].
    split.
    { apply Forall_app. split.
      - revert F1. apply Forall_impl. intros []; cbn; try exact (fun x => x). intros I. apply in_or_app. left. unfold frames_of. rewrite N. exact I.
      - revert F2. apply Forall_impl. intros []; cbn; try exact (fun x => x). intros I. apply in_or_app. right.
        apply in_flat_map in I. destruct I as (c & Ic & I). apply in_flat_map. exists c. split; [exact Ic|].
        destruct (A1 c Ic) as (n & nc & X & Y & SB & _). unfold frames_of in *. rewrite X. rewrite Y in I. rewrite (proj1 (frames_same _ _ _ SB)) in I. exact I. }
    split.
    { apply Forall_app. split.
      - revert MV1. apply Forall_impl. intros [l|i|i|i]; cbn; try exact (fun x => x); intros (c & [<-|[]] & ->); exists b; auto.
      - revert MV2. apply Forall_impl. intros [l|i|i|i]; cbn; try exact (fun x => x); intros (c & I & ->); exists c; auto. }
    split; [exact C2|]. intros c [<-|I].
    + destruct (others_run _ _ _ _ _ _ _ _ _ _ _ RE1 R2 MV2 NI J1 N1) as ((e & J2) & n2 & N2 & SB).
      split; [|exists n0, n2; split; [exact N|]; split; [exact N2|exact (told_after _ _ _ _ _ SB T)]].
      eexists. split; [exact J2|]. destruct (hear_all_pc e (address b) j1) as [X|(s & ch & X & _)]; congruence.
    + destruct (K2 c I) as (RT & nc' & n & X & Y & Z). destruct (A1 c I) as (n0c & nc & Q1 & Q2 & SB & _).
      split; [exact RT|]. exists n0c, n. split; [exact Q1|]. split; [exact Y|]. assert (nc' = nc) as -> by congruence. exact (told_before _ _ _ _ _ SB Z).
Qed.

Lemma network_completes : forall file ns ls w tr o bs f,
  wrun (wstart file ns) ls = Some (Ok (w, tr, o)) -> c_crashed (y_conn (w_sys w)) = false -> c_mode (y_conn (w_sys w)) = RReading ->
  NoDup bs -> (forall b, In b bs -> not_begun w b /\ exists n, node_of (w_sys w) b = Some n /\ answers_all b n (f b)) ->
  exists ls' w' ev o', wrun w ls' = Some (Ok (w', ev, o')) /\ Forall (only (flat_map (frames_of (w_sys w) f) bs)) ev /\
    Forall (moves_of bs) ls' /\ c_crashed (y_conn (w_sys w')) = false /\
    forall b, In b bs -> returned w' b /\
      exists n0 n, node_of (w_sys w) b = Some n0 /\ node_of (w_sys w') b = Some n /\ told b n0 (f b) n.
Proof. intros file ns ls w tr o bs f R C M ND A. apply (all_complete file ns); try assumption. exists ls, tr, o. exact R. Qed.
