(** Proofs about the whole program: an answer that arrives is used. *)
From Verif Require Import ModelBase ModelReports ModelSerial ModelCommands ModelNodes ModelList DataDevices ModelDatabase.
From Verif Require Import ModelIdentify ModelController ModelConnection ModelSystem ModelWhole.
From Verif Require Import SpecFrame SpecDecode SpecMessage SpecReports SpecConnection SpecIdentify SpecController SpecNodes SpecSystem SpecWhole.
From Verif Require Import ProofBase ProofReports ProofSerial ProofMessage ProofConnection ProofLink ProofReader ProofContent ProofIdentify ProofController ProofSystem ProofDiscovery ProofDelivery ProofWhole ProofWholeWait.
From Coq Require Import Lia Permutation.
Local Opaque definitions devices.

(** ** The request was made in the way its stage needs *)
Definition kinv (tr : list event) (j : job) : Prop :=
  forall i, j_req j = Some i -> pauses (j_pc j) = true ->
  exists data wt t er, In (EvCall i data wt t er) tr /\ request_kind (j_pc j) = (wt, t, er).
Lemma kinv_more tr ev j : kinv tr j -> kinv (tr ++ ev) j.
Proof.
  intros K i Q P. destruct (K i Q P) as (d & wt & t & er & A & B). exists d, wt, t, er. split; [apply in_or_app; left; exact A|exact B].
Qed.
Lemma kinv_hear tr ev id j : kinv tr j -> kinv tr (fold_left (hear id) ev j).
Proof.
  intros K i Q P. rewrite hear_req in Q. destruct (hear_all_pc ev id j) as [E|(s & c & _ & E)]; rewrite E in *; [exact (K i Q P)|discriminate].
Qed.
Lemma kinv_step w tr l w' ev o : (forall id j, zlookup id (w_jobs w) = Some j -> kinv tr j) ->
  wstep w l = Some (Ok (w', ev, o)) -> forall id j, zlookup id (w_jobs w') = Some j -> kinv (tr ++ ev) j.
Proof.
  intros W H id j J.
  destruct (wstep_job _ _ _ _ _ H) as [(yl & -> & PL & YS & WJ)|(id' & j' & n' & il & st & io & L & J' & N' & JL & IS & YR' & WJ)].
  - rewrite WJ in J. destruct (started_jobs _ _ _ _ J) as [X|[-> X]]; [|discriminate].
    unfold hears in X. rewrite (zlookup_map (fun i j => fold_left (hear i) ev j)) in X.
    destruct (zlookup id (w_jobs w)) as [j0|] eqn:J0; [|discriminate]. injection X as <-.
    apply kinv_more, kinv_hear, (W _ _ J0).
  - pose proof (effect_events _ _ _ _ _ _ _ YR') as EV. rewrite WJ, zlookup_set in J.
    destruct (id =? id')%Z; [|apply kinv_more; exact (W _ _ J)]. injection J as <-. unfold job_after.
    destruct (commands_of io) as [|m r] eqn:CO; [intros i X; discriminate|].
    intros i X _. injection X as <-. cbn [j_pc]. destruct (request_kind (i_pc st)) as [[wt t] er] eqn:K. rewrite EV. exists m, wt, t, er.
    split; [apply in_or_app; right; left; reflexivity|reflexivity].
Qed.
Lemma kinv_run file ns ls : forall w tr o, wrun (wstart file ns) ls = Some (Ok (w, tr, o)) ->
  forall id j, zlookup id (w_jobs w) = Some j -> kinv tr j.
Proof.
  induction ls as [|l ls IH] using rev_ind; intros w tr o R.
  - injection R as <- <- <-. intros id j J. discriminate.
  - apply wrun_snoc in R. destruct R as (w1 & t1 & o1 & t2 & o2 & R & S & -> & ->). exact (kinv_step _ _ _ _ _ _ (IH _ _ _ R) S).
Qed.

(** ** Hearing a delivered message *)
Definition taken (pc : ipc) (m : option message) : option answer :=
  if is_info pc then Some (AMessage m)
  else match m with
       | Some msg => match m_data msg with Some (PCommand _ _ r) => Some (AReport (Some r)) | _ => None end
       | None => None
       end.
Lemma hear_keeps id j e a : j_ans j = Some a -> j_ans (hear id j e) = Some a.
Proof.
  intros A. destruct e as [| |k b| | |k| |k m|k| | | | | | | |b r|]; cbn [hear]; try exact A.
  - destruct (own_request j k); exact A.
  - destruct (own_request j k); exact A.
  - unfold answered. rewrite A. cbn [negb]. rewrite andb_false_r. exact A.
  - unfold answered. rewrite A. cbn [negb]. rewrite andb_false_r. exact A.
  - destruct r; try exact A. destruct (id =? Z.of_N (b2N b))%Z; [|exact A]. destruct (istep _ _) as [[st o]|]; exact A.
Qed.
Lemma hear_all_keeps id a ev : forall j, j_ans j = Some a -> j_ans (fold_left (hear id) ev j) = Some a.
Proof. induction ev as [|e ev IH]; intros j A; [exact A|]. cbn [fold_left]. apply IH, hear_keeps, A. Qed.
Lemma hear_deliver id i m a ev : forall j, j_holds j = true -> j_req j = Some i -> j_ans j = None -> pauses (j_pc j) = true ->
  taken (j_pc j) m = Some a -> In (EvDeliver i m) ev -> replies i ev = [Message; Closed] ->
  j_ans (fold_left (hear id) ev j) = Some a.
Proof.
  induction ev as [|e ev IH]; intros j H Q A P T I RP; [destruct I|]. cbn [fold_left].
  assert (Skip : j_holds (hear id j e) = true -> j_ans (hear id j e) = None -> e <> EvDeliver i m ->
    replies i [e] = [] -> j_ans (fold_left (hear id) ev (hear id j e)) = Some a).
  { intros H' A' NE RE. assert (PC : j_pc (hear id j e) = j_pc j).
    { destruct (proj2 (hear_pc id j e)) as [X|(s & c & X & _)]; [exact X|]. rewrite X in P. discriminate. }
    apply IH; try assumption; try (rewrite PC; assumption).
    - rewrite (proj1 (hear_pc id j e)). exact Q.
    - destruct I as [->|I]; [congruence|exact I].
    - change (e :: ev) with ([e] ++ ev) in RP. rewrite replies_app, RE in RP. exact RP. }
  assert (HH : j_holds (hear id j e) = true) by (apply hear_ans, H).
  destruct e as [| |k b| | |k| |k m'|k| | | | | | | |b r|]; try (apply Skip; [exact HH|exact A|discriminate|reflexivity]).
  - apply Skip; [exact HH| |discriminate|reflexivity]. cbn [hear]. destruct (own_request j k); exact A.
  - apply Skip; [exact HH| |discriminate|reflexivity]. cbn [hear]. destruct (own_request j k); exact A.
  - destruct (Nat.eq_dec k i) as [->|NE].
    + assert (m' = m) as ->.
      { destruct I as [I|I]; [congruence|]. exfalso. cbn in RP. rewrite Nat.eqb_refl in RP. injection RP as RP.
        fold (replies i ev) in RP. apply in_split in I. destruct I as (u & v & ->). rewrite replies_app in RP. cbn in RP. rewrite Nat.eqb_refl in RP.
        destruct (replies i u) as [|x l]; [discriminate|]. injection RP as _ RP. destruct l; discriminate. }
      apply hear_all_keeps. cbn [hear]. unfold own_request, answered. rewrite Q, Nat.eqb_refl, H, A. cbn [andb negb].
      unfold taken in T. destruct (is_info (j_pc j)); [exact T|]. destruct m as [msg|]; [|discriminate].
      destruct (m_data msg) as [[c x r|?|?]|]; try discriminate. exact T.
    + apply Skip; [exact HH| |congruence|].
      * cbn [hear]. unfold own_request. rewrite Q. destruct (Nat.eqb_spec i k) as [E|_]; [congruence|]. exact A.
      * cbn. destruct (Nat.eqb_spec k i); [congruence|]. reflexivity.
  - destruct (Nat.eq_dec k i) as [->|NE].
    + exfalso. cbn in RP. rewrite Nat.eqb_refl in RP. discriminate.
    + apply Skip; [exact HH| |congruence|].
      * cbn [hear]. unfold own_request. rewrite Q. destruct (Nat.eqb_spec i k) as [E|_]; [congruence|]. exact A.
      * cbn. destruct (Nat.eqb_spec k i); [congruence|]. reflexivity.
  - apply Skip; [exact HH| |discriminate|reflexivity]. cbn [hear].
    destruct r; try exact A. destruct (id =? Z.of_N (b2N b))%Z; [|exact A]. destruct (istep _ _) as [[st o]|]; exact A.
Qed.

(** ** Frames that answer *)
Lemma frame_message s o a s' ev f m : step s (LIter o a) = Some (s', ev) -> c_crashed s' = false -> In (EvFrame f m) ev ->
  self_contained f -> m = message_of f.
Proof.
  intros H C I SC. pose proof (step_reader _ _ _ _ H C) as RC. inversion RC; subst; try (cbn in I; intuition discriminate).
  match goal with U : unread ev2, SP : spawn_callback _ _ = (_, ev3) |- _ => rename U into UU; rename SP into SQ end.
  assert (X : f0 = f /\ d_msg r = m).
  { apply in_app_iff in I. destruct I as [I|I].
    { exfalso. destruct UU as [UU _]. assert (X : In f (frames_taken ev2)).
      { unfold frames_taken. apply in_flat_map. exists (EvFrame f m). split; [exact I|left; reflexivity]. }
      rewrite UU in X. exact X. }
    apply in_app_iff in I. destruct I as [I|I].
    { exfalso. revert SQ I. unfold spawn_callback. destruct (d_msg r) as [mm|]; [destruct (m_data mm) as [[]|]|];
        intros Q; injection Q as _ <-; cbn; intuition discriminate. }
    destruct I as [I|[I|[]]]; [|discriminate]. injection I as -> ->. auto. }
  destruct X as [-> <-]. match goal with X : els (c_buf s) = f ++ _, D : decode _ = _ |- _ => rename X into BF; rename D into DD end.
  destruct (c_buf s) as [e sp]. cbn [els] in BF. subst e. exact (self_contained_message _ _ _ _ _ SC DD).
Qed.
Lemma report_bytes f c k r : self_contained f -> content f = Ok (PCommand c k r) -> (kind_of r = KManufacturer \/ kind_of r = KEndpoints) ->
  (10 <= List.length f)%nat /\ nth_error f 3 = Some x04 /\ nth_error f 7 = Some c /\ nth_error f 8 = Some k /\
  dispatch (Byte.to_N c) (Byte.to_N k) (kind_of r).
Proof.
  intros SC CT K. unfold content in CT.
  destruct (N.eqb_spec (byte_at f 3) 4) as [E|_].
  2: { exfalso. destruct (byte_at f 3 =? 2)%N; [destruct (new_discovered_nodes _); discriminate|].
       destruct (byte_at f 3 =? 65)%N; [destruct (new_protocol_info _); discriminate|discriminate]. }
  destruct (SpecMessage.announced f) as [|c0 [|k0 data]] eqn:AN; try discriminate.
  destruct (reports_new c0 k0 data) as [r0| |] eqn:RN; try discriminate. injection CT as -> -> ->.
  destruct (reports_new_sound _ _ _ _ RN) as [D A].
  assert (L : (2 <= List.length data)%nat) by (destruct K as [K|K]; rewrite K in A; cbn in A; lia).
  unfold SpecMessage.announced in AN. set (q := N.to_nat (byte_at f 6)) in *.
  assert (EQ : cleared f = firstn 7 (cleared f) ++ c :: k :: data ++ skipn q (skipn 7 (cleared f))).
  { rewrite <- (firstn_skipn 7 (cleared f)) at 1. f_equal. rewrite <- (firstn_skipn q (skipn 7 (cleared f))) at 1. rewrite AN. reflexivity. }
  assert (LC : (11 <= List.length (cleared f))%nat).
  { assert (X : List.length (firstn q (skipn 7 (cleared f))) = S (S (List.length data))) by (rewrite AN; reflexivity).
    rewrite firstn_length, skipn_length in X. lia. }
  assert (LF : List.length (cleared f) = List.length f) by (unfold cleared; apply clear_at_length).
  assert (NE : forall i, (i <= 8)%nat -> nth_error f i = nth_error (cleared f) i).
  { intros i I. unfold cleared. rewrite clear_at_other by lia. reflexivity. }
  assert (L7 : List.length (firstn 7 (cleared f)) = 7%nat) by (rewrite firstn_length; lia).
  split; [lia|]. split; [|split; [|split; [|exact D]]].
  - unfold byte_at in E. destruct (nth_error f 3) as [x|] eqn:X3; [|apply nth_error_None in X3; lia].
    rewrite (nth_error_nth f 3 x00 X3) in E. f_equal. apply (f_equal Byte.of_N) in E. rewrite Byte.of_to_N in E. injection E as ->. reflexivity.
  - rewrite NE by lia. rewrite EQ, nth_error_app2 by lia. rewrite L7. reflexivity.
  - rewrite NE by lia. rewrite EQ, nth_error_app2 by lia. rewrite L7. reflexivity.
Qed.
Lemma byte_of_N b n : Byte.to_N b = n -> Byte.of_N n = Some b.
Proof. intros <-. apply Byte.of_to_N. Qed.
Lemma product_bytes f b a t p : self_contained f -> report_of f = [(b, RManufacturer a t p)] ->
  (10 <= List.length f)%nat /\ nth_error f 3 = Some x04 /\ nth_error f 5 = Some b /\ nth_error f 7 = Some x72 /\ nth_error f 8 = Some x05 /\
  exists msg, message_of f = Some msg /\ exists c k, m_data msg = Some (PCommand c k (RManufacturer a t p)).
Proof.
  intros SC R. unfold report_of in R. destruct (content f) as [[c k r|?|?]| |] eqn:CT; try discriminate. injection R as B ->.
  destruct (report_bytes _ _ _ _ SC CT (or_introl eq_refl)) as (L & X3 & X7 & X8 & D). cbn [kind_of] in D.
  inversion D as [|E1 E2| | | | | | |]; subst. symmetry in E1, E2. apply byte_of_N in E1, E2. injection E1 as <-. injection E2 as <-.
  repeat split; try assumption.
  - rewrite (nth_error_nth' f x00) by lia. reflexivity.
  - unfold message_of. rewrite CT. eexists. split; [reflexivity|]. cbn [m_data]. eauto.
Qed.
Lemma endpoints_bytes f b x y count : self_contained f -> report_of f = [(b, REndpoints x y count)] ->
  (10 <= List.length f)%nat /\ nth_error f 3 = Some x04 /\ nth_error f 5 = Some b /\ nth_error f 7 = Some x60 /\ nth_error f 8 = Some x08 /\
  exists msg, message_of f = Some msg /\ exists c k, m_data msg = Some (PCommand c k (REndpoints x y count)).
Proof.
  intros SC R. unfold report_of in R. destruct (content f) as [[c k r|?|?]| |] eqn:CT; try discriminate. injection R as B ->.
  destruct (report_bytes _ _ _ _ SC CT (or_intror eq_refl)) as (L & X3 & X7 & X8 & D). cbn [kind_of] in D.
  inversion D as [| |E1 E2| | | | | |]; subst. symmetry in E1, E2. apply byte_of_N in E1, E2. injection E1 as <-. injection E2 as <-.
  repeat split; try assumption.
  - rewrite (nth_error_nth' f x00) by lia. reflexivity.
  - unfold message_of. rewrite CT. eexists. split; [reflexivity|]. cbn [m_data]. eauto.
Qed.
Lemma info_bytes f pi : self_contained f -> info_of f = Some pi ->
  (10 <= List.length f)%nat /\ nth_error f 3 = Some x41 /\
  exists msg, message_of f = Some msg /\ m_data msg = Some (PInfo pi).
Proof.
  intros SC R. unfold info_of in R. destruct (content f) as [[c k r|?|pi0]| |] eqn:CT; try discriminate. injection R as ->.
  pose proof CT as CT'. unfold content in CT'.
  destruct (byte_at f 3 =? 4)%N; [destruct (SpecMessage.announced f) as [|c [|k d]]; try discriminate; destruct (reports_new c k d); discriminate|].
  destruct (byte_at f 3 =? 2)%N; [destruct (new_discovered_nodes _); discriminate|].
  destruct (N.eqb_spec (byte_at f 3) 65) as [E|_]; [|discriminate].
  destruct SC as (_ & _ & _ & _ & L). specialize (L E). split; [exact L|]. split.
  - unfold byte_at in E. destruct (nth_error f 3) as [x|] eqn:X3; [|apply nth_error_None in X3; lia].
    rewrite (nth_error_nth f 3 x00 X3) in E. f_equal. apply byte_of_N in E. injection E as ->. reflexivity.
  - unfold message_of. rewrite CT. eexists. split; [reflexivity|]. reflexivity.
Qed.

(** ** The frame reaches the one who waits for it *)
Lemma asked_stage0 data b : request_stage data = Some 0 -> request_node data = Some b -> data = [x41; b].
Proof.
  destruct data as [|d0 [|d1 r]]; try discriminate. cbn [request_node]. intros S N. injection N as ->.
  destruct (Byte.byte_eq_dec d0 x41) as [->|NE].
  - destruct r; [reflexivity|discriminate].
  - exfalso. destruct (Byte.byte_eq_dec d0 x13) as [->|NE2].
    + revert S. clear. destruct r as [|r0 [|c [|k r]]]; [discriminate|discriminate| |].
      * destruct c; discriminate.
      * destruct c; try discriminate; destruct k; discriminate.
    + revert S NE NE2. clear. destruct d0; try discriminate; congruence.
Qed.
Lemma asked_stage12 data b k : request_stage data = Some k -> request_node data = Some b -> (k = 1 \/ k = 2) ->
  exists x c g r, data = x13 :: b :: x :: c :: g :: r /\ c = (if (k =? 1)%nat then x72 else x60).
Proof.
  destruct data as [|d0 [|d1 r]]; try discriminate. cbn [request_node]. intros S N K. injection N as ->.
  destruct (Byte.byte_eq_dec d0 x13) as [->|NE].
  - destruct r as [|r0 [|c [|g r]]]; [discriminate|discriminate| |].
    { exfalso. revert S. clear. destruct c; discriminate. }
    exists r0, c, g, r. split; [reflexivity|]. revert S K. clear.
    destruct c; try discriminate; destruct g; try discriminate; intros S; injection S as <-; intros [K|K]; try discriminate; reflexivity.
  - exfalso. revert S K NE. clear. destruct d0; try discriminate; try congruence. destruct r; try discriminate. intros S. injection S as <-. intros [K|K]; discriminate.
Qed.
Lemma follow_quiet ev : forall ask c a c' o, follow ask c ev = Some (Ok (a, c', o)) -> identifies o = [].
Proof.
  induction ev as [|e ev IH]; intros ask c a c' o F; cbn [follow] in F; [injection F as _ _ <-; reflexivity|].
  destruct (react ask c e) as [l|] eqn:RE; [|exact (IH _ _ _ _ _ F)].
  destruct (cstep c l) as [[[c1 o1]| |]|] eqn:CS; try discriminate.
  destruct (follow (hold ask e) c1 ev) as [[[[a2 c2] o2]| |]|] eqn:F2; try discriminate. injection F as _ _ <-.
  unfold identifies. rewrite flat_map_app. fold (identifies o1) (identifies o2). rewrite (IH _ _ _ _ _ F2), app_nil_r.
  assert (X : l = CDisc -> False).
  { intros ->. destruct e as [| |k b| | |k| |k m|k| | | | | | | |b r|]; cbn [react] in RE; try discriminate;
      destruct ask as [[? []]|]; try discriminate; destruct (c_disc c); try discriminate; destruct (Nat.eqb _ _); discriminate. }
  destruct (cstep_inv _ _ _ _ CS); try reflexivity; try (exfalso; apply X; reflexivity).
  clear. induction evs as [|z evs IH]; [reflexivity|exact IH].
Qed.
Lemma started_quiet o : forall jobs, identifies o = [] -> started o jobs = jobs.
Proof.
  unfold started. induction o as [|x o IH]; intros jobs E; [reflexivity|]. cbn [fold_left].
  destruct x; try (apply IH; exact E). discriminate.
Qed.
Lemma wrun_then l w1 e1 o1 ls : forall w0 w tr o, wrun w0 ls = Some (Ok (w, tr, o)) -> wstep w l = Some (Ok (w1, e1, o1)) ->
  wrun w0 (ls ++ [l]) = Some (Ok (w1, tr ++ e1, o ++ o1)).
Proof.
  induction ls as [|x ls IH]; intros w0 w tr o R S; cbn [app wrun] in *.
  - injection R as -> <- <-. rewrite S. rewrite app_nil_r, app_nil_r. reflexivity.
  - destruct (wstep w0 x) as [[[[w2 e2] o2]| |]|]; try discriminate.
    destruct (wrun w2 ls) as [[[[w3 e3] o3]| |]|] eqn:E; try discriminate. injection R as -> <- <-.
    rewrite (IH _ _ _ _ E S), !app_assoc. reflexivity.
Qed.

Lemma arrives file ns ls w tr o order accepts w1 ev o1 f m b j k a :
  wrun (wstart file ns) ls = Some (Ok (w, tr, o)) ->
  zlookup (address b) (w_jobs w) = Some j -> j_holds j = true -> j_ans j = None -> awaits (j_pc j) = Some k ->
  wstep w (WSys (YConn (LIter order accepts))) = Some (Ok (w1, ev, o1)) -> c_crashed (y_conn (w_sys w1)) = false ->
  In (EvFrame f m) ev -> self_contained f -> all_listen tr accepts -> (10 <= List.length f)%nat ->
  (forall data wt t er, request_stage data = Some k -> request_node data = Some b -> request_kind (j_pc j) = (wt, t, er) ->
     answered_by data er f) ->
  taken (j_pc j) (message_of f) = Some a ->
  exists j1, zlookup (address b) (w_jobs w1) = Some j1 /\ j_pc j1 = j_pc j /\ j_ans j1 = Some a.
Proof.
  intros R J H A AW S C I SC AL L AB T.
  destruct (hinv_run _ _ _ _ _ _ R _ _ J) as [RQ HD]. destruct (HD H) as (i & Q & G & NC). specialize (NC A).
  destruct (wrun_conn _ _ _ _ _ _ R) as [cl CR]. destruct (got_ready _ _ _ _ CR G) as (WR & d & wt & t & er & CA & NW).
  assert (PS : pauses (j_pc j) = true) by (destruct (j_pc j) as [| | |s|s|s c|s|[| |]|x|x| | |]; try discriminate; reflexivity).
  destruct (kinv_run _ _ _ _ _ _ R _ _ J i Q PS) as (d1 & wt1 & t1 & er1 & CA1 & RK).
  destruct (call_unique _ _ _ _ _ _ _ _ _ _ _ _ CR CA CA1) as (<- & <- & <- & <-). clear CA1.
  destruct (wi_jobs _ _ _ (winv_run _ _ _ _ _ _ R) _ _ J) as (_ & RO & _).
  destruct (RO _ AW) as (i2 & d2 & wt2 & t2 & er2 & Q2 & CA2 & RS & RN). rewrite Z2b_address in RN.
  assert (i2 = i) as -> by congruence.
  destruct (call_unique _ _ _ _ _ _ _ _ _ _ _ _ CR CA CA2) as (<- & <- & <- & <-). clear CA2.
  specialize (AB _ _ _ _ RS RN RK).
  destruct (wstep_job _ _ _ _ _ S) as [(yl & E & _ & YS & WJ)|(id' & j' & n' & il & st & io & [X|[X|X]] & _)]; try discriminate.
  injection E as <-. cbn [ystep] in YS.
  destruct (step (y_conn (w_sys w)) (LIter order accepts)) as [[s1 ev1]|] eqn:ST; [|discriminate].
  destruct (follow (y_ask (w_sys w)) (y_ctl (w_sys w)) ev1) as [[[[a1 c1] oo]| |]|] eqn:FO; try discriminate.
  injection YS as YS <- <-. rewrite <- YS in C. cbn [y_conn] in C.
  pose proof (step_alive _ _ _ _ ST) as Hc.
  assert (OP : In i (c_open (y_conn (w_sys w)))) by exact (open_invariant _ _ _ CR Hc _ _ _ _ _ CA NW NC).
  assert (RP : replies i tr = []).
  { destruct (replies i tr) as [|x l] eqn:E; [reflexivity|exfalso]. destruct (replied_once _ _ _ i CR) as [_ X]; [congruence|contradiction]. }
  destruct (frame_reaches _ _ _ _ _ _ _ _ _ _ _ _ _ _ CR ST C I L CA NW WR RP) as [CL DL].
  assert (IC : In (EvClose i) ev1) by (apply CL; exact AB).
  assert (ID : In (EvDeliver i m) ev1) by (apply DL; [exact AB|exact G|exact (AL _ G)]).
  assert (M : m = message_of f) by exact (frame_message _ _ _ _ _ _ _ ST C I SC). subst m.
  assert (RUN1 : run init (cl ++ [LIter order accepts]) = Some (s1, tr ++ ev1)).
  { rewrite run_app, CR. cbn [run]. rewrite ST. rewrite app_nil_r. reflexivity. }
  assert (RE : replies i ev1 = [Message; Closed]).
  { destruct (replies_invariant _ _ _ RUN1) as [_ GI]. destruct (GI i) as [GD _]. rewrite replies_app, RP in GD. cbn [app] in GD.
    assert (X1 : In Message (replies i ev1)).
    { unfold replies. apply in_flat_map. eexists. split; [exact ID|]. cbn beta iota. rewrite Nat.eqb_refl. left. reflexivity. }
    unfold good in GD. assert (X2 : In Closed (replies i ev1)).
    { unfold replies. apply in_flat_map. eexists. split; [exact IC|]. cbn beta iota. rewrite Nat.eqb_refl. left. reflexivity. }
    cbn [In] in GD. destruct GD as [GD|[GD|[GD|[GD|[]]]]]; rewrite <- GD in X1, X2 |- *; cbn in X1, X2; intuition discriminate. }
  exists (fold_left (hear (address b)) ev1 j). rewrite WJ, started_quiet by exact (follow_quiet _ _ _ _ _ _ FO).
  unfold hears. rewrite (zlookup_map (fun i0 j0 => fold_left (hear i0) ev1 j0)), J. split; [reflexivity|].
  split; [apply hear_pauses; exact PS|]. exact (hear_deliver _ _ _ _ _ _ H Q A PS T ID RE).
Qed.

(** ** What Identify does with it *)
Lemma idents_run id n es : forall y, In id (c_ident (y_ctl y)) -> In id (c_setup (y_ctl y)) -> n_id n = id ->
  exists y' o, yrun y (map (fun _ : Z => YCtl (CIdent id n true)) es) = Some (Ok (y', [], o)).
Proof.
  induction es as [|e es IH]; intros y I S N; [exists y, []; reflexivity|]. cbn [map yrun ystep own_step cstep].
  assert (X : forall l, In id l -> existsb (Z.eqb id) l = true)
    by (intros l Q; apply existsb_exists; exists id; split; [exact Q|apply Z.eqb_refl]).
  rewrite (X _ I), N, Z.eqb_refl. cbn [andb]. unfold node_events. cbn [with_nodes c_setup]. rewrite (X _ S). cbn [map pushes].
  match goal with |- context [yrun ?y1 _] => destruct (IH y1) as (y' & o & E) end; [exact I|exact S|exact N|].
  rewrite E. do 2 eexists. reflexivity.
Qed.
Lemma answer_runs file ns ls w tr o id j :
  wrun (wstart file ns) ls = Some (Ok (w, tr, o)) -> zlookup id (w_jobs w) = Some j ->
  exists n, zlookup id (c_nodes (y_ctl (w_sys w))) = Some n /\ n_id n = id /\ pc_ok (j_pc j) n /\
  forall il st io, job_label (WAnswer id) j = Some il -> istep (mkI (j_pc j) n (j_chan j) (j_fresh j)) il = Some (st, io) ->
    commands_of io = [] -> n_id (i_node st) = id ->
    exists w2 ev2 o2, wstep w (WAnswer id) = Some (Ok (w2, ev2, o2)) /\ zlookup id (c_nodes (y_ctl (w_sys w2))) = Some (i_node st).
Proof.
  intros R J. pose proof (winv_run _ _ _ _ _ _ R) as WI. pose proof (wi_known _ _ _ WI _ _ J) as K. unfold knows in K.
  apply zlookup_key in K. destruct (zlookup id (c_nodes (y_ctl (w_sys w)))) as [n|] eqn:N; [|congruence]. clear K.
  exists n. split; [reflexivity|]. split; [exact (pv_id _ _ _ _ (wi_nodes _ _ _ WI _ _ N))|]. split; [exact (wi_pc _ _ _ WI _ _ _ J N)|].
  intros il st io JL IS CO NI. pose proof (job_ident _ _ _ _ _ _ R _ _ J) as IDT.
  pose proof (ci_ident _ (wi_ctl _ _ _ WI) _ IDT) as IST.
  cbn [wstep]. rewrite J, N, JL, IS. unfold job_effect. rewrite CO.
  destruct (events_of io) as [|e es].
  - assert (X : exists y' o', yrun (w_sys w) [YCtl (CIdent id (i_node st) false)] = Some (Ok (y', [], o'))).
    { cbn [yrun ystep own_step cstep]. assert (X : existsb (Z.eqb id) (c_ident (y_ctl (w_sys w))) = true)
        by (apply existsb_exists; exists id; split; [exact IDT|apply Z.eqb_refl]).
      rewrite X, NI, Z.eqb_refl. cbn [andb node_events]. do 2 eexists. reflexivity. }
    destruct X as (y' & o' & X). rewrite X. do 3 eexists. split; [reflexivity|]. cbn [w_sys].
    rewrite (proj2 (ident_nodes _ _ _ _ _ _ X)), Z.eqb_refl. reflexivity.
  - destruct (idents_run id (i_node st) (e :: es) _ IDT IST NI) as (y' & o' & X). rewrite X. do 3 eexists. split; [reflexivity|]. cbn [w_sys].
    rewrite (proj2 (idents_nodes id (i_node st) (e :: es) _ _ _ _ X)), Z.eqb_refl. reflexivity.
Qed.

Section Used.
  Context (file : bool) (ns : list node) (ls : list wlabel) (w : whole) (tr : list event) (o : list cobs)
    (order accepts : list nat) (w1 : whole) (ev : list event) (o1 : list cobs) (f : list byte) (m : option message) (b : byte).
  Hypothesis R : wrun (wstart file ns) ls = Some (Ok (w, tr, o)).
  Hypothesis S : wstep w (WSys (YConn (LIter order accepts))) = Some (Ok (w1, ev, o1)).
  Hypothesis C : c_crashed (y_conn (w_sys w1)) = false.
  Hypothesis I : In (EvFrame f m) ev.
  Hypothesis SC : self_contained f.
  Hypothesis AL : all_listen tr accepts.
  Let R1 := wrun_then _ _ _ _ _ _ _ _ _ R S.

  Lemma type_used pi : at_stage w b 0 -> info_of f = Some pi ->
    exists w2 ev2 o2 n, wstep w1 (WAnswer (address b)) = Some (Ok (w2, ev2, o2)) /\ node_of (w_sys w2) b = Some n /\ n_info n = Some pi.
  Proof using R S C I SC AL.
    intros (j & J & H & A & ST) IN. destruct (info_bytes _ _ SC IN) as (L & X3 & msg & MS & MD).
    assert (PC : j_pc j = IInfo) by (destruct (j_pc j) as [| | |s|s|s c|s|[| |]|x|x| | |]; try discriminate; reflexivity).
    assert (X : exists j1, zlookup (address b) (w_jobs w1) = Some j1 /\ j_pc j1 = j_pc j /\ j_ans j1 = Some (AMessage (message_of f))).
    { apply (arrives _ _ _ _ _ _ _ _ _ _ _ _ _ _ _ _ _ R J H A ST S C I SC AL L).
      - intros data wt t er RS RN _. rewrite (asked_stage0 _ _ RS RN). unfold answered_by. cbn [nth]. split; [left; right; exact X3|left; reflexivity].
      - rewrite PC. reflexivity. }
    destruct X as (j1 & J1 & P1 & A1). destruct (answer_runs _ _ _ _ _ _ _ _ R1 J1) as (n & N & NI & _ & W).
    specialize (W (IGotInfo (message_of f))). cbn [job_label] in W. rewrite A1, P1, PC, MS in W. cbn [istep i_pc i_node] in W. rewrite MD in W.
    destruct (after_info (set_info n pi) pi) as [[pc n2] io] eqn:AI.
    assert (X : commands_of io = [] /\ n_id n2 = address b /\ n_info n2 = Some pi).
    { revert AI. unfold after_info, after_ms. cbv zeta.
      destruct (n_ms _); [|intros E; injection E as _ <- <-; auto].
      destruct (n_endpoints _); [|intros E; injection E as _ <- <-; auto].
      destruct (n_states_ok _); intros E; injection E as _ <- <-; auto. }
    destruct X as (X1 & X2 & X3').
    destruct (W _ _ eq_refl eq_refl X1 X2) as (w2 & e2 & o2 & W2 & N2).
    exists w2, e2, o2, n2. auto.
  Qed.
  Lemma product_used a t p : at_stage w b 1 -> report_of f = [(b, RManufacturer a t p)] ->
    exists w2 ev2 o2 n, wstep w1 (WAnswer (address b)) = Some (Ok (w2, ev2, o2)) /\ node_of (w_sys w2) b = Some n /\ n_ms n = Some (mkMS a t p).
  Proof using R S C I SC AL.
    intros (j & J & H & A & ST) IN. destruct (product_bytes _ _ _ _ _ SC IN) as (L & X3 & X5 & X7 & X8 & msg & MS & c & k & MD).
    assert (PC : j_pc j = IAwait SMs) by (destruct (j_pc j) as [| | |s|s|s c0|s|[| |]|x|x| | |]; try discriminate; reflexivity).
    assert (X : exists j1, zlookup (address b) (w_jobs w1) = Some j1 /\ j_pc j1 = j_pc j /\ j_ans j1 = Some (AReport (Some (RManufacturer a t p)))).
    { apply (arrives _ _ _ _ _ _ _ _ _ _ _ _ _ _ _ _ _ R J H A ST S C I SC AL L).
      - intros data wt t0 er RS RN RK. destruct (asked_stage12 _ _ _ RS RN (or_introl eq_refl)) as (x & cc & g & r & -> & ->).
        rewrite PC in RK. injection RK as _ _ <-. unfold answered_by. cbn [nth List.length Nat.ltb Nat.leb].
        split; [right; split; [reflexivity|exact X3]|right]. split; [right; exact X5|]. split; right; [exact X7|exact X8].
      - rewrite PC, MS. unfold taken. cbn [is_info]. rewrite MD. reflexivity. }
    destruct X as (j1 & J1 & P1 & A1). destruct (answer_runs _ _ _ _ _ _ _ _ R1 J1) as (n & N & NI & _ & W).
    specialize (W (IGotReport (Some (RManufacturer a t p)))). cbn [job_label] in W. rewrite A1, P1, PC in W. cbn [istep i_pc i_node] in W.
    destruct (after_ms (set_manufacturer n (mkMS a t p))) as [pc io] eqn:AI.
    assert (X : commands_of io = []).
    { revert AI. unfold after_ms. destruct (n_endpoints _); [|intros E; injection E as _ <-; reflexivity].
      destruct (n_states_ok _); intros E; injection E as _ <-; reflexivity. }
    assert (Y : n_id (set_manufacturer n (mkMS a t p)) = address b /\ n_ms (set_manufacturer n (mkMS a t p)) = Some (mkMS a t p)).
    { unfold set_manufacturer. destruct (device_new _ _ _); auto. }
    destruct (W _ _ eq_refl eq_refl X (proj1 Y)) as (w2 & e2 & o2 & W2 & N2).
    exists w2, e2, o2, (set_manufacturer n (mkMS a t p)). split; [exact W2|]. split; [exact N2|exact (proj2 Y)].
  Qed.
  Lemma endpoints_used x y count : at_stage w b 2 -> report_of f = [(b, REndpoints x y count)] ->
    exists w2 ev2 o2 n eps, wstep w1 (WAnswer (address b)) = Some (Ok (w2, ev2, o2)) /\ node_of (w_sys w2) b = Some n /\
      n_endpoints n = Some eps /\ map e_id eps = map Z.of_nat (seq 1 (N.to_nat count - 1)).
  Proof using R S C I SC AL.
    intros (j & J & H & A & ST) IN. destruct (endpoints_bytes _ _ _ _ _ SC IN) as (L & X3 & X5 & X7 & X8 & msg & MS & c & k & MD).
    assert (PC : j_pc j = IAwait SEp) by (destruct (j_pc j) as [| | |s|s|s c0|s|[| |]|x0|x0| | |]; try discriminate; reflexivity).
    assert (X : exists j1, zlookup (address b) (w_jobs w1) = Some j1 /\ j_pc j1 = j_pc j /\ j_ans j1 = Some (AReport (Some (REndpoints x y count)))).
    { apply (arrives _ _ _ _ _ _ _ _ _ _ _ _ _ _ _ _ _ R J H A ST S C I SC AL L).
      - intros data wt t0 er RS RN RK. destruct (asked_stage12 _ _ _ RS RN (or_intror eq_refl)) as (u & cc & g & r & -> & ->).
        rewrite PC in RK. injection RK as _ _ <-. unfold answered_by. cbn [nth List.length Nat.ltb Nat.leb].
        split; [right; split; [reflexivity|exact X3]|right]. split; [right; exact X5|]. split; right; [exact X7|exact X8].
      - rewrite PC, MS. unfold taken. cbn [is_info]. rewrite MD. reflexivity. }
    destruct X as (j1 & J1 & P1 & A1). destruct (answer_runs _ _ _ _ _ _ _ _ R1 J1) as (n & N & NI & _ & W).
    specialize (W (IGotReport (Some (REndpoints x y count)))). cbn [job_label] in W. rewrite A1, P1, PC in W. cbn [istep i_pc i_node] in W.
    destruct (W _ _ eq_refl eq_refl eq_refl NI) as (w2 & e2 & o2 & W2 & N2).
    exists w2, e2, o2. do 2 eexists. split; [exact W2|]. split; [exact N2|]. split; [reflexivity|].
    unfold made_endpoints. rewrite map_map. reflexivity.
  Qed.
End Used.
