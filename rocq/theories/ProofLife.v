(** Proofs about restarts. *)
From Verif Require Import ModelBase ModelReports ModelSerial ModelCommands ModelNodes ModelList DataDevices ModelDatabase.
From Verif Require Import ModelIdentify ModelController ModelConnection ModelSystem ModelWhole.
From Verif Require Import ProofBase ProofController ProofNodes ProofSystem ProofWhole.
From Verif Require Import SpecFloat64 ModelJson SpecJson ModelConfig SpecConfig ProofConfig ProofReload ProofSane ModelLife SpecLife.
From Coq Require Import Lia Floats.SpecFloat Permutation.
Local Opaque definitions devices.

(** ** Reading *)
Lemma fields_null c ok l x : fields_read c ok l x ->
  (x = LCrash <-> exists k j, In (k, j) l /\ names_nodes k = true /\ null_node j).
Proof.
  induction 1 as [c ok|c ok k j l r N F IH|c ok k l r N F IH|c ok k j l r N JN LE F IH|c ok k j l es es' N LE P R|c ok k j l r es es' m N LE P R F IH].
  - split; [destruct ok; discriminate|]. intros (k & j & [] & _).
  - rewrite IH. split; intros (k0 & j0 & I & B & C); [exists k0, j0; split; [right; exact I|auto]|].
    destruct I as [I|I]; [|eauto]. injection I as -> ->. unfold names_nodes in B. congruence.
  - rewrite IH. split; intros (k0 & j0 & I & B & C); [exists k0, j0; split; [right; exact I|auto]|].
    destruct I as [I|I]; [|eauto]. injection I as -> <-. destruct C as (es & k1 & n1 & E & _). discriminate.
  - rewrite IH. split; intros (k0 & j0 & I & B & C); [exists k0, j0; split; [right; exact I|auto]|].
    destruct I as [I|I]; [|eauto]. injection I as -> ->. destruct C as (es & k1 & n1 & E & _). congruence.
  - split; [intros _|reflexivity]. exists k, j. split; [left; reflexivity|]. split; [exact N|].
    apply (not_fine j es LE). rewrite <- (fine_permutation _ _ P).
    destruct (forallb fine es') eqn:FE; [|reflexivity]. apply (proj2 (radd_all_some es' (match c with Some m => m | None => [] end))) in FE.
    destruct FE as (m' & E). congruence.
  - assert (FE : forallb fine es = true).
    { rewrite <- (fine_permutation _ _ P). apply (radd_all_some es' (match c with Some m => m | None => [] end)). eauto. }
    rewrite IH. split; intros (k0 & j0 & I & B & C); [exists k0, j0; split; [right; exact I|auto]|].
    destruct I as [I|I]; [|eauto]. injection I as -> ->. apply (not_fine _ es LE) in C. congruence.
Qed.
Lemma read_total s : exists d, read_config s d.
Proof.
  destruct (jread s) as [[j r]|] eqn:J; [|exists LError; now apply RC_syntax].
  destruct j as [| | | | |l]; try (exists LError; eapply RC_type; [exact J|discriminate|discriminate]).
  - exists (LOk None). eapply RC_null. exact J.
  - destruct (fields_total l None true) as (x & F). exists x. eapply RC_object; eauto.
Qed.
Lemma null_crash s d : read_config s d -> (d = LCrash <-> holds_null s).
Proof.
  intros R. inversion R as [? N|? r N|? l r ? N F|? j r N NN NO]; subst.
  - split; [discriminate|]. intros (l & r & k & j & E & _). congruence.
  - split; [discriminate|]. intros (l & r0 & k & j & E & _). congruence.
  - rewrite (fields_null _ _ _ _ F). split; [intros (k & j & I & B & C); exists l, r, k, j; auto|].
    intros (l0 & r0 & k & j & E & I & B). rewrite N in E. injection E as <- <-. eauto.
  - split; [discriminate|]. intros (l & r0 & k & j0 & E & _). rewrite N in E. injection E as -> _. destruct (NO l eq_refl).
Qed.

(** ** Loading *)
Lemma link_real r n : real_node r = Some n -> link_node n = n.
Proof.
  unfold real_node. intros H. destruct (opt_slice (rn_classes r)) as [cl|]; [|discriminate].
  destruct (opt_slice (rn_endpoints r)) as [ep|]; [|discriminate].
  match type of H with match ?x with _ => _ end = _ => destruct x as [ep'|] eqn:EP; [|discriminate] end. injection H as <-.
  unfold link_node. cbn. f_equal. destruct ep' as [l|]; [|reflexivity]. f_equal. destruct ep as [l0|]; [|discriminate].
  destruct (all_some (map real_endpoint l0)) as [x|] eqn:A; [|discriminate]. injection EP as ->. apply all_some_in in A.
  assert (G : forall e, In e l -> link_endpoint e = e).
  { intros e I. assert (J : In (Some e) (map real_endpoint l0)) by (rewrite A; now apply in_map).
    apply in_map_iff in J. destruct J as (e0 & E & _). unfold real_endpoint in E. destruct (opt_slice _); [|discriminate]. injection E as <-. reflexivity. }
  clear A. induction l as [|e l IH]; [reflexivity|]. cbn [map]. rewrite G by (left; reflexivity). f_equal. apply IH.
  intros e0 I. apply G. right. exact I.
Qed.
Lemma map_somes {A B} (f : A -> option B) es ns : map f es = map Some ns ->
  forall x, (In x ns -> exists e, In e es /\ f e = Some x) .
Proof.
  intros E x I. assert (J : In (Some x) (map f es)) by (rewrite E; now apply in_map). apply in_map_iff in J. destruct J as (e & H & K). eauto.
Qed.
Lemma boots_nodes s ns : boots (Some s) (Some ns) ->
  (ns = [] /\ exists d, read_config s d /\ load_config d = Some None) \/
  exists d m, read_config s d /\ load_config d = Some (Some m) /\
    forall id, zlookup id (nodes_of (wstart true ns)) =
      match zlookup id m with Some r => real_node r | None => None end.
Proof.
  intros B. inversion B as [|s0 d R L|s0 d m es ns0 R L P M|]; subst; [left; eauto|]. right. exists d, m.
  split; [exact R|]. split; [exact L|]. destruct (loaded_good _ _ _ R L) as [[ND KD] _].
  assert (KE : ProofConfig.keyed es).
  { split; [eapply Permutation_NoDup; [apply Permutation_map, P|exact ND]|].
    intros k n I. apply KD. eapply Permutation_in; [apply Permutation_sym, P|exact I]. }
  assert (Q : forall id, zlookup id es = zlookup id m).
  { intros id. destruct (zlookup id m) as [n|] eqn:E.
    - apply ProofConfig.zlookup_in in E; [|exact ND]. apply ProofConfig.zlookup_in; [apply KE|]. eapply Permutation_in; eauto.
    - destruct (zlookup id es) as [n|] eqn:E2; [|reflexivity]. apply ProofConfig.zlookup_in in E2; [|apply KE].
      apply (Permutation_in _ (Permutation_sym P)) in E2. apply ProofConfig.zlookup_in in E2; [congruence|exact ND]. }
  assert (G : forall es ns st, ProofConfig.keyed es -> map (fun p => real_node (snd p)) es = map Some ns -> forall id,
    zlookup id (c_nodes (load_nodes st ns)) =
    match zlookup id es with Some r => real_node r | None => zlookup id (c_nodes st) end).
  { clear. induction es as [|[k r] es IH]; intros [|n ns] st [N K] M id; try discriminate; [reflexivity|].
    cbn [map snd] in M. injection M as RN M. cbn [load_nodes]. inversion N as [|? ? NI N']; subst.
    rewrite (IH ns _ (conj N' (fun k0 n0 I => K k0 n0 (or_intror I))) M).
    assert (E : zlookup id (c_nodes (push (add_node (with_setup st (n_id n)) n) (EDiscovered (n_id n)))) =
      if (id =? k)%Z then real_node r else zlookup id (c_nodes st)).
    { match goal with |- context [push ?x ?e] => destruct (pushes_frame [e] x) as (_&G&_) end.
      cbn [pushes] in G. rewrite G. cbn. rewrite zlookup_set.
      assert (I : n_id n = k).
      { rewrite <- (K k r) by (left; reflexivity). unfold real_node in RN. destruct (opt_slice (rn_classes r)); [|discriminate].
        destruct (opt_slice (rn_endpoints r)); [|discriminate].
        match type of RN with match ?x with _ => _ end = _ => destruct x; [|discriminate] end. injection RN as <-. reflexivity. }
      rewrite I, (link_real _ _ RN), RN. reflexivity. }
    rewrite E. cbn [zlookup]. destruct (Z.eqb_spec id k) as [->|NE]; [|reflexivity].
    destruct (zlookup k es) as [r'|] eqn:Z; [|reflexivity]. apply ProofConfig.zlookup_in in Z; [|exact N'].
    destruct (NI (in_map fst _ _ Z)). }
  intros id. unfold nodes_of, wstart. cbn [w_sys ystart y_ctl]. rewrite (G es ns _ KE M), Q. reflexivity.
Qed.

Section Fmt.
Variable fmt : spec_float -> text.
Hypothesis FMT : forall f, is_double f -> faithful fmt f.

Lemma boots_storable disk ns : boots disk (Some ns) -> forall n, In n ns -> storable fmt n.
Proof.
  intros B n I. inversion B as [|s0 d R L|s0 d m es ns0 R L P M|]; subst; try destruct I.
  destruct (loaded_good _ _ _ R L) as [_ G]. destruct (map_somes _ _ _ M n I) as ([k r] & J & E).
  apply (real_storable fmt r n FMT); [|exact E]. apply (G k). eapply Permutation_in; [apply Permutation_sym, P|exact J].
Qed.

Definition tsane (w : world) : Prop :=
  match wd_proc w with Some p => wsane fmt (pr_whole p) | None => True end.
Lemma tsane_step w l w' o : tstep fmt w l w' o -> tsane w -> tsane w'.
Proof.
  intros H S. destruct H; unfold tsane in *; cbn in *; auto.
  - apply wsane_start, (boots_storable _ _ H).
  - exact (wsane_step fmt FMT _ _ _ _ _ S H).
Qed.

(** What is written. *)
Lemma saved_text ns : sane fmt ns -> exists s, marshal fmt (c_nodes ns) = Some s.
Proof. intros [L N _]. destruct (roundtrip fmt _ L N) as (s & M & _). eauto. Qed.
Lemma saved_gives st s : sane fmt st -> marshal fmt (c_nodes st) = Some s -> gives s (c_nodes st).
Proof.
  intros [L N _] M. destruct (roundtrip fmt _ L N) as (s' & M' & (d & R) & RT). rewrite M in M'. injection M' as <-.
  split; [destruct (RT d R) as (m & E & _); exists d, m; auto|]. split.
  { intros (d' & R' & C). destruct (RT d' R') as (m & E & _). congruence. }
  split.
  { destruct (RT d R) as (m & E & K). destruct (loaded_good _ _ _ R E) as [KD _].
    set (new := fold_left (fun acc p => zset (rn_id (snd p)) (snd p) acc) m []).
    assert (AD : added [] m new) by (exists m; split; [apply Permutation_refl|reflexivity]).
    assert (G : forall p, In p m -> exists n', real_node (snd p) = Some n').
    { intros [k r] I. apply ProofConfig.zlookup_in in I; [|apply KD]. specialize (K [] new AD k).
      rewrite (added_lookup [] m new KD AD), I in K. destruct (zlookup k (c_nodes st)) as [n|]; [|discriminate].
      destruct K as (r' & n' & E1 & E2 & _). injection E1 as <-. eauto. }
    assert (X : exists ns, map (fun p => real_node (snd p)) m = map Some ns).
    { clear - G. induction m as [|p m IH]; [exists []; reflexivity|]. destruct (G p) as (n & E); [left; reflexivity|].
      destruct IH as (ns & IH); [intros q I; apply G; right; exact I|]. exists (n :: ns). cbn [map]. rewrite E, IH. reflexivity. }
    destruct X as (ns & X). exists ns. exact (boot_nodes s d m m ns R E (Permutation_refl _) X). }
  intros ns' B. destruct (boots_nodes _ _ B) as [(_ & d' & R' & C)|(d' & m & R' & C & Z)].
  { destruct (RT d' R') as (m & E & _). congruence. }
  destruct (RT d' R') as (m' & E & K). rewrite C in E. injection E as <-. intros id.
  destruct (loaded_good _ _ _ R' C) as [KD _].
  set (new := fold_left (fun acc p => zset (rn_id (snd p)) (snd p) acc) m []).
  assert (AD : added [] m new) by (exists m; split; [apply Permutation_refl|reflexivity]).
  specialize (K [] new AD id). rewrite (added_lookup [] m new KD AD) in K. rewrite Z.
  destruct (zlookup id (c_nodes st)) as [n|].
  - destruct K as (r & n' & E1 & E2 & E3). destruct (zlookup id m) as [r0|]; [|discriminate]. injection E1 as ->. rewrite E2. exact E3.
  - destruct (zlookup id m); [discriminate|]. exact I.
Qed.
Lemma rejected_boots s ns : rejected s -> boots (Some s) (Some ns) -> ns = [].
Proof.
  intros R B. destruct (boots_nodes _ _ B) as [[-> _]|(d & m & RC & L & _)]; [reflexivity|]. rewrite (R d RC) in L. discriminate.
Qed.
Lemma empty_rejected : rejected [].
Proof. apply unreadable_rejected. reflexivity. Qed.

(** ** Every state of a run in which nobody else writes the file *)
Definition written (o : list tobs) (s : text) : Prop :=
  exists st, In (TOSave (c_nodes st)) o /\ sane fmt st /\ marshal fmt (c_nodes st) = Some s.
Definition content (d0 : option text) (o : list tobs) (disk : option text) : Prop :=
  (~ In TOCreated o /\ disk = d0) \/
  (exists a, disk = Some a /\ (a = [] \/ exists s r, written o s /\ s = a ++ r)).
Definition progress (o : list tobs) (w : world) : Prop :=
  match wd_proc w with
  | Some (mkProc _ (Some (SvCreated true))) => wd_disk w = Some [] /\ In TOCreated o
  | Some (mkProc _ (Some (SvWriting (x :: t)))) => In TOCreated o /\
      exists s a, written o s /\ wd_disk w = Some a /\ s = a ++ x :: t
  | _ => True
  end.
Lemma written_more o o' s : written o s -> written (o ++ o') s.
Proof. intros (st & I & S & M). exists st. split; [apply in_or_app; left; exact I|auto]. Qed.
Lemma content_more d0 o o' disk : content d0 o disk -> ~ In TOCreated o' -> content d0 (o ++ o') disk.
Proof.
  intros [[N E]|(a & E & H)] N'; [left|right].
  - split; [intros X; apply in_app_or in X; tauto|exact E].
  - exists a. split; [exact E|]. destruct H as [H|(s & r & W & H)]; [auto|]. right. exists s, r. split; [now apply written_more|exact H].
Qed.
Lemma progress_more o o' disk w ph : progress o (mkWorld disk (Some (mkProc w ph))) ->
  forall w', progress (o ++ o') (mkWorld disk (Some (mkProc w' ph))).
Proof.
  unfold progress. cbn. intros H w'. destruct ph as [[|[]|[|x t]|]|]; auto.
  - destruct H as [A B]. split; [exact A|apply in_or_app; left; exact B].
  - destruct H as [A (s & a & W & D & E)]. split; [apply in_or_app; left; exact A|].
    exists s, a. split; [now apply written_more|auto].
Qed.
Lemma after_work_cases l o ph : after_work l o ph = ph \/ after_work l o ph = Some SvStart \/ after_work l o ph = None.
Proof. unfold after_work. destruct (begins o); [auto|]. destruct (is_saved l); auto. Qed.
Lemma content_step d0 o w l w' o' : tsane w -> content d0 o (wd_disk w) -> progress o w ->
  tstep fmt w l w' o' -> ~ In TOEdited o' -> content d0 (o ++ o') (wd_disk w') /\ progress (o ++ o') w'.
Proof.
  intros S C P H NE. destruct H as [disk ns B|disk B|disk w ph l w' ev ob WS MW|disk w ph l WS|disk w ph l ph' disk' RB F|s w l RC|disk p|disk p s]; cbn [wd_disk] in *.
  - split; [|exact I]. apply content_more; [exact C|]. cbn. intuition discriminate.
  - split; [|exact I]. apply content_more; [exact C|]. cbn. intuition discriminate.
  - rewrite app_nil_r. split; [exact C|]. destruct (after_work_cases l ob ph) as [->|[->| ->]]; try exact I.
    rewrite <- (app_nil_r o). exact (progress_more _ _ _ _ _ P w').
  - split; [|exact I]. apply content_more; [exact C|]. cbn. intuition discriminate.
  - destruct l; cbn [fstep f_phase f_file] in F; destruct ph as [|op|t|]; try discriminate F; cbn [save_obs].
    + injection F as <- <-. split; [right; exists []; auto|]. split; [reflexivity|apply in_or_app; right; left; reflexivity].
    + injection F as <- <-. split; [|exact I]. apply content_more; [exact C|]. cbn. intuition discriminate.
    + injection F as <- <-. split; [apply content_more; [exact C|cbn; intuition discriminate]|].
      destruct op; [|exact I]. unfold tsane in S. cbn in S. destruct S as [_ S _]. destruct P as [PD PC].
      destruct (saved_text _ S) as (s & M). unfold nodes_of. rewrite M. unfold progress. cbn [wd_proc wd_disk].
      destruct s as [|x s]; [exact I|]. split; [apply in_or_app; left; exact PC|]. exists (x :: s), [].
      split; [|auto]. exists (y_ctl (w_sys w)). split; [apply in_or_app; right; left; reflexivity|auto].
    + destruct (Nat.leb_spec k (List.length t)) as [L|L]; [|discriminate]. injection F as <- <-. rewrite app_nil_r.
      destruct t as [|x t].
      * cbn in L. replace k with 0%nat by lia. cbn [skipn firstn]. split; [|exact I].
        destruct disk as [c|]; [rewrite app_nil_r|]; exact C.
      * destruct P as [PC (s & a & W & D & E)]. cbn in D. rewrite D.
        assert (E' : s = (a ++ firstn k (x :: t)) ++ skipn k (x :: t)) by (rewrite <- app_assoc, firstn_skipn; exact E).
        split.
        -- right. exists (a ++ firstn k (x :: t)). split; [reflexivity|]. right. exists s, (skipn k (x :: t)). auto.
        -- unfold progress. cbn [wd_proc wd_disk]. destruct (skipn k (x :: t)) as [|y r] eqn:K; [exact I|].
           split; [exact PC|]. exists s, (a ++ firstn k (x :: t)). auto.
    + injection F as <- <-. split; [|exact I]. apply content_more; [exact C|]. cbn. intuition discriminate.
    + destruct t; [|discriminate]. injection F as <- <-. split; [|exact I]. apply content_more; [exact C|]. cbn. intuition discriminate.
  - split; [|exact I]. apply content_more; [exact C|]. cbn. intuition discriminate.
  - split; [|exact I]. apply content_more; [exact C|]. cbn. intuition discriminate.
  - exfalso. apply NE. left. reflexivity.
Qed.
Lemma tsane_run w ls w' o : trun fmt w ls w' o -> tsane w -> tsane w'.
Proof. induction 1 as [|w l w1 o1 ls w2 o2 S R IH]; intros T; [exact T|]. apply IH, (tsane_step _ _ _ _ S T). Qed.
Lemma content_run w ls w' o : trun fmt w ls w' o -> forall d0 o0, tsane w -> content d0 o0 (wd_disk w) -> progress o0 w ->
  ours o -> content d0 (o0 ++ o) (wd_disk w') /\ progress (o0 ++ o) w'.
Proof.
  induction 1 as [|w l w1 o1 ls w2 o2 S R IH]; intros d0 o0 T C P N; [rewrite app_nil_r; auto|].
  destruct (content_step _ _ _ _ _ _ T C P S) as [C1 P1]; [intros X; apply N, in_or_app; left; exact X|].
  rewrite app_assoc. apply IH; [exact (tsane_step _ _ _ _ S T)|exact C1|exact P1|]. intros X. apply N, in_or_app. right. exact X.
Qed.
Lemma fresh_content d0 ls w o : trun fmt (mkWorld d0 None) ls w o -> ours o -> content d0 o (wd_disk w).
Proof.
  intros R N. destruct (content_run _ _ _ _ R d0 [] I) as [C _]; [left; split; [intros []|reflexivity]|exact I|exact N|exact C].
Qed.

(** ** Where an observation is made *)
Lemma run_at w ls w' o : trun fmt w ls w' o -> forall p x q, o = p ++ x :: q ->
  exists l1 w1 l w2 l2 a u v b, trun fmt w l1 w1 a /\ tstep fmt w1 l w2 (u ++ x :: v) /\ trun fmt w2 l2 w' b /\
    p = a ++ u /\ q = v ++ b.
Proof.
  induction 1 as [|w l w1 o1 ls w2 o2 S R IH]; intros p x q E; [destruct p; discriminate|].
  assert (D : (exists u, o1 = p ++ x :: u /\ q = u ++ o2) \/ (exists u, p = o1 ++ u /\ o2 = u ++ x :: q)).
  { clear - E. revert p E. induction o1 as [|y o1 IH]; intros p E; [right; exists p; auto|].
    destruct p as [|z p]; cbn in E; injection E as -> E; [left; exists o1; auto|].
    destruct (IH _ E) as [(u & -> & ->)|(u & -> & ->)]; [left|right]; exists u; auto. }
  destruct D as [(u & -> & ->)|(u & -> & E2)].
  - exists [], w, l, w1, ls, [], p, u, o2. split; [constructor|auto].
  - destruct (IH _ _ _ E2) as (l1 & wa & la & wb & l2 & a & u1 & v & b & R1 & S1 & R2 & -> & ->).
    exists (l :: l1), wa, la, wb, l2, (o1 ++ a), u1, v, b. split; [econstructor; eassumption|].
    split; [exact S1|]. split; [exact R2|]. rewrite app_assoc. auto.
Qed.
Lemma run_at_in w ls w' o x : trun fmt w ls w' o -> In x o ->
  exists l1 w1 l w2 l2 a u v b, trun fmt w l1 w1 a /\ tstep fmt w1 l w2 (u ++ x :: v) /\ trun fmt w2 l2 w' b /\ o = (a ++ u) ++ x :: v ++ b.
Proof.
  intros R I. apply in_split in I. destruct I as (p & q & E).
  destruct (run_at _ _ _ _ R _ _ _ E) as (l1 & w1 & l & w2 & l2 & a & u & v & b & A & B & C & -> & ->).
  exists l1, w1, l, w2, l2, a, u, v, b. auto.
Qed.
Lemma started_step w l w' u ns v : tstep fmt w l w' (u ++ TOStarted ns :: v) -> u = [] /\ v = [] /\
  exists ns0, boots (wd_disk w) (Some ns0) /\ ns = nodes_of (wstart true ns0).
Proof.
  intros H. remember (u ++ TOStarted ns :: v) as o eqn:E. destruct H; try (destruct u as [|? [|]]; discriminate E).
  - destruct u as [|x u]; [|destruct u; discriminate]. injection E as E1 E2. subst v. split; [reflexivity|]. split; [reflexivity|]. exists ns0. cbn. auto.
  - destruct l; cbn in E; destruct u as [|? [|? []]]; discriminate E.
Qed.
Lemma save_step w l w' u ns v : tsane w -> tstep fmt w l w' (u ++ TOSave ns :: v) -> u = [] /\ v = [] /\
  exists st, sane fmt st /\ ns = c_nodes st.
Proof.
  intros T H. remember (u ++ TOSave ns :: v) as o eqn:E. destruct H; try (destruct u as [|? [|]]; discriminate E).
  destruct l; cbn in E; destruct u as [|? [|? []]]; try discriminate E. injection E as <- <-.
  split; [reflexivity|]. split; [reflexivity|]. unfold tsane in T. cbn in T. destruct T as [_ S _]. exists (y_ctl (w_sys w)). auto.
Qed.
Lemma file_crash_step w l w' u v : tstep fmt w l w' (u ++ TOFileCrash :: v) -> u = [] /\ v = [] /\ exists s, wd_disk w = Some s /\ crashes s.
Proof.
  intros H. remember (u ++ TOFileCrash :: v) as o eqn:E. destruct H; try (destruct u as [|? [|]]; discriminate E).
  - destruct u as [|? []]; try discriminate E. injection E as <-. split; [reflexivity|]. split; [reflexivity|].
    inversion H as [| | |s d R L]; subst. exists s. split; [reflexivity|]. exists d. auto.
  - destruct l; cbn in E; destruct u as [|? [|? []]]; discriminate E.
  - destruct u as [|? []]; try discriminate E. injection E as <-. split; [reflexivity|]. split; [reflexivity|]. exists s. split; [reflexivity|]. exists LCrash. auto.
Qed.

(** ** The file does not bring the program down *)
Lemma written_gives o s : written o s -> exists ns, In (TOSave ns) o /\ gives s ns.
Proof. intros (st & I & S & M). exists (c_nodes st). split; [exact I|]. now apply saved_gives. Qed.
Lemma written_cut o s a r : written o s -> s = a ++ r -> r <> [] -> rejected a.
Proof.
  intros (st & I & S & M) E NE. apply (cut_rejected fmt (c_nodes st) s); [apply (sn_nodes _ _ S)|exact M|]. exists r. auto.
Qed.
Lemma rejected_harmless s : rejected s -> ~ crashes s.
Proof. intros R (d & RC & L). rewrite (R d RC) in L. discriminate. Qed.
Lemma content_harmless d0 o disk : content d0 o disk -> harmless d0 -> harmless disk.
Proof.
  intros [[_ ->]|(a & -> & H)] HD; [exact HD|]. cbn. destruct H as [->|(s & r & W & E)]; [exact (rejected_harmless _ empty_rejected)|].
  destruct r as [|x r]; [|apply rejected_harmless; apply (written_cut _ _ _ _ W E); discriminate].
  rewrite app_nil_r in E. subst a. destruct (written_gives _ _ W) as (ns & _ & _ & N & _). exact N.
Qed.
Theorem file_harmless d0 ls w o : trun fmt (mkWorld d0 None) ls w o -> ours o -> harmless d0 -> ~ In TOFileCrash o.
Proof.
  intros R N H I. destruct (run_at_in _ _ _ _ _ R I) as (l1 & w1 & l & w2 & l2 & a & u & v & b & R1 & S & _ & ->).
  destruct (file_crash_step _ _ _ _ _ S) as (-> & -> & s & D & C).
  assert (X : content d0 a (wd_disk w1)).
  { apply (fresh_content _ _ _ _ R1). intros X. apply N. apply in_or_app. left. apply in_or_app. left. exact X. }
  apply (content_harmless _ _ _ X) in H. rewrite D in H. exact (H C).
Qed.
(** ** What is saved can be read again *)
Theorem saved_readable d0 ls w o ns : trun fmt (mkWorld d0 None) ls w o -> In (TOSave ns) o ->
  exists s, marshal fmt ns = Some s /\ gives s ns.
Proof.
  intros R I. destruct (run_at_in _ _ _ _ _ R I) as (l1 & w1 & l & w2 & l2 & a & u & v & b & R1 & S & _ & _).
  destruct (save_step _ _ _ _ _ _ (tsane_run _ _ _ _ R1 Logic.I) S) as (_ & _ & st & ST & ->).
  destruct (saved_text _ ST) as (s & M). exists s. split; [exact M|]. now apply saved_gives.
Qed.
(** ** No mixture *)
Theorem no_mixture d0 ls w o ns : trun fmt (mkWorld d0 None) ls w (o ++ [TOStarted ns]) -> ours o ->
  ns = [] \/ (exists ns0, In (TOSave ns0) o /\ same_nodes ns0 ns) \/
  (~ In TOCreated o /\ exists ns0, boots d0 (Some ns0) /\ ns = nodes_of (wstart true ns0)).
Proof.
  intros R N. destruct (run_at _ _ _ _ R o (TOStarted ns) [] eq_refl) as (l1 & w1 & l & w2 & l2 & a & u & v & b & R1 & S & _ & E & _).
  destruct (started_step _ _ _ _ _ _ S) as (-> & _ & ns0 & B & ->). rewrite app_nil_r in E. subst a.
  destruct (fresh_content _ _ _ _ R1 N) as [[NC D]|(a & D & H)]; rewrite D in B; [right; right; eauto|].
  destruct H as [->|(s & r & W & E)]; [left; rewrite (rejected_boots _ _ empty_rejected B); reflexivity|].
  destruct r as [|x r].
  - rewrite app_nil_r in E. subst a. right. left. destruct (written_gives _ _ W) as (ns & I & _ & _ & _ & G). exists ns. split; [exact I|]. exact (G _ B).
  - left. rewrite (rejected_boots a ns0); [reflexivity| |exact B]. apply (written_cut _ _ _ _ W E). discriminate.
Qed.

(** ** A save that is left alone *)
Definition idle (ph : option sphase) : Prop := match ph with None | Some SvStart | Some SvDone => True | _ => False end.
Inductive watch : Type := WEmptied | WFilling (s : text) | WFull (s : text).
Definition watched (q : watch) (w : world) : Prop :=
  match q with
  | WEmptied => wd_disk w = Some [] /\
      match wd_proc w with Some p => idle (pr_save p) \/ pr_save p = Some (SvCreated true) | None => True end
  | WFilling s =>
      match wd_proc w with
      | Some p => idle (pr_save p) \/ exists a t, pr_save p = Some (SvWriting t) /\ wd_disk w = Some a /\ s = a ++ t
      | None => True
      end
  | WFull s => wd_disk w = Some s /\ match wd_proc w with Some p => idle (pr_save p) | None => True end
  end.
Definition marks (x : tobs) : Prop := match x with TOSave _ | TOSaved => True | _ => False end.
Lemma after_work_idle l o ph : idle ph -> idle (after_work l o ph).
Proof. destruct (after_work_cases l o ph) as [->|[->| ->]]; auto. intros _. exact I. intros _. exact I. Qed.
Lemma watch_step q w l w' o : tsane w -> watched q w -> tstep fmt w l w' o -> quiet o ->
  (watched q w' /\ forall x, In x o -> ~ marks x) \/
  match q with
  | WEmptied => exists st s, sane fmt st /\ marshal fmt (c_nodes st) = Some s /\ o = [TOSave (c_nodes st)] /\ watched (WFilling s) w'
  | WFilling s => o = [TOSaved] /\ watched (WFull s) w'
  | WFull s => False
  end.
Proof.
  intros T W H Q. assert (NQ : forall x, In x o -> match x with TOCreated | TOFailed | TOEdited => True | _ => False end -> False).
  { intros x I B. specialize (Q x I). destruct x; auto. }
  destruct H as [disk ns B|disk B|disk w ph l w' ev ob WS MW|disk w ph l WS|disk w ph l ph' disk' RB F|s w l RC|disk p|disk p s].
  - left. split; [|intros x [<-|[]] []]. destruct q; cbn in *; intuition exact I.
  - left. split; [exact W|intros x [<-|[]] []].
  - left. split; [|intros x []]. destruct q as [|s|s]; cbn in *.
    + destruct W as [D [W|W]]; (split; [exact D|]); [left; now apply after_work_idle|].
      destruct (after_work_cases l ob ph) as [->|[->| ->]]; auto; left; exact I.
    + destruct W as [W|W]; [left; now apply after_work_idle|].
      destruct (after_work_cases l ob ph) as [->|[->| ->]]; auto; left; exact I.
    + destruct W as [D W]. split; [exact D|now apply after_work_idle].
  - left. split; [|intros x [<-|[]] []]. destruct q; cbn in *; auto; destruct W; auto.
  - destruct l; cbn [fstep f_phase f_file] in F; destruct ph as [|op|t|]; try discriminate F; cbn [save_obs] in *.
    + destruct (NQ TOCreated (or_introl eq_refl) I).
    + destruct (NQ TOFailed (or_introl eq_refl) I).
    + injection F as <- <-. destruct q as [|s|s]; cbn in W.
      * destruct W as [D [[]|W]]. injection W as ->. right. unfold tsane in T. cbn in T. destruct T as [_ S _].
        destruct (saved_text _ S) as (s & M). exists (y_ctl (w_sys w)), s. split; [exact S|]. split; [exact M|].
        split; [reflexivity|]. cbn. right. exists [], s. split; [unfold nodes_of; rewrite M; reflexivity|auto].
      * destruct W as [[]|(a & t & W & _)]. discriminate.
      * destruct W as [_ []].
    + destruct (Nat.leb_spec k (List.length t)) as [L|L]; [|discriminate]. injection F as <- <-.
      left. split; [|intros x []]. destruct q as [|s|s]; cbn in W.
      * destruct W as [D [[]|W]]. discriminate.
      * destruct W as [[]|(a & t0 & W & D & E)]. injection W as <-. cbn. right. exists (a ++ firstn k t), (skipn k t).
        rewrite D. split; [reflexivity|]. split; [reflexivity|]. rewrite <- app_assoc, firstn_skipn. exact E.
      * destruct W as [_ []].
    + destruct (NQ TOFailed (or_introl eq_refl) I).
    + destruct t; [|discriminate]. injection F as <- <-. destruct q as [|s|s]; cbn in W.
      * destruct W as [D [[]|W]]. discriminate.
      * destruct W as [[]|(a & t & W & D & E)]. injection W as <-. rewrite app_nil_r in E. subst a. right. split; [reflexivity|].
        cbn. auto.
      * destruct W as [_ []].
  - left. split; [|intros x [<-|[]] []]. destruct q; cbn in *; auto; destruct W; auto.
  - left. split; [|intros x [<-|[]] []]. destruct q; cbn in *; auto; destruct W; auto.
  - destruct (NQ TOEdited (or_introl eq_refl) I).
Qed.
Lemma quiet_app a b : quiet (a ++ b) -> quiet a /\ quiet b.
Proof. intros Q. split; intros x I; apply Q, in_or_app; auto. Qed.
Lemma watch_run w ls w' o : trun fmt w ls w' o -> forall q, tsane w -> watched q w -> quiet o ->
  match q with
  | WEmptied => (watched q w' /\ forall x, In x o -> ~ marks x) \/
      exists st s, sane fmt st /\ marshal fmt (c_nodes st) = Some s /\ In (TOSave (c_nodes st)) o /\
        (forall ns, In (TOSave ns) o -> ns = c_nodes st) /\
        ((watched (WFilling s) w' /\ ~ In TOSaved o) \/ (watched (WFull s) w' /\ In TOSaved o))
  | WFilling s => (forall ns, ~ In (TOSave ns) o) /\
      ((watched q w' /\ ~ In TOSaved o) \/ (watched (WFull s) w' /\ In TOSaved o))
  | WFull s => watched q w' /\ forall x, In x o -> ~ marks x
  end.
Proof.
  induction 1 as [|w l w1 o1 ls w2 o2 S R IH]; intros q T W Q.
  { destruct q as [|s|s]; [left; split; [exact W|intros x []]| |split; [exact W|intros x []]].
    split; [intros ns []|]. left. split; [exact W|intros []]. }
  apply quiet_app in Q. destruct Q as [Q1 Q2]. pose proof (tsane_step _ _ _ _ S T) as T1.
  destruct (watch_step _ _ _ _ _ T W S Q1) as [[W1 M]|X].
  - specialize (IH q T1 W1 Q2).
    assert (N : forall x, In x (o1 ++ o2) -> marks x -> In x o2).
    { intros x I MX. apply in_app_or in I. destruct I as [I|I]; [destruct (M _ I MX)|exact I]. }
    destruct q as [|s|s].
    + destruct IH as [[W2 M2]|(st & s & A & B & C & D & E)].
      * left. split; [exact W2|]. intros x I MX. exact (M2 x (N x I MX) MX).
      * right. exists st, s. split; [exact A|]. split; [exact B|]. split; [apply in_or_app; right; exact C|].
        split; [intros ns I; apply D, (N _ I Logic.I)|].
        destruct E as [[E F]|[E F]]; [left|right]; (split; [exact E|]); [intros X; exact (F (N _ X Logic.I))|apply in_or_app; right; exact F].
    + destruct IH as [A E]. split; [intros ns I; exact (A _ (N _ I Logic.I))|].
      destruct E as [[E F]|[E F]]; [left|right]; (split; [exact E|]); [intros X; exact (F (N _ X Logic.I))|apply in_or_app; right; exact F].
    + destruct IH as [W2 M2]. split; [exact W2|]. intros x I MX. exact (M2 x (N x I MX) MX).
  - destruct q as [|s|s].
    + destruct X as (st & s & A & B & -> & W1). right. exists st, s. split; [exact A|]. split; [exact B|].
      split; [left; reflexivity|]. destruct (IH _ T1 W1 Q2) as [N E].
      split; [intros ns [I|I]; [injection I as <-; reflexivity|destruct (N _ I)]|].
      destruct E as [[E F]|[E F]]; [left|right]; (split; [exact E|]); [intros [Y|Y]; [discriminate|exact (F Y)]|right; exact F].
    + destruct X as [-> W1]. destruct (IH _ T1 W1 Q2) as [W2 M2]. split.
      * intros ns [I|I]; [discriminate|]. exact (M2 _ I Logic.I).
      * right. split; [exact W2|left; reflexivity].
    + destruct X.
Qed.
Lemma created_step w l w' u v : tstep fmt w l w' (u ++ TOCreated :: v) -> u = [] /\ v = [] /\ watched WEmptied w'.
Proof.
  intros H. remember (u ++ TOCreated :: v) as o eqn:E. destruct H; try (destruct u as [|? [|]]; discriminate E).
  destruct l; cbn in E; destruct u as [|? [|? []]]; try discriminate E. injection E as <-.
  split; [reflexivity|]. split; [reflexivity|]. cbn [fstep f_phase] in H0. destruct ph; try discriminate. injection H0 as <- <-. cbn. auto.
Qed.
Theorem survives d0 ls w o1 o2 ns o3 o4 ns' :
  trun fmt (mkWorld d0 None) ls w (o1 ++ TOCreated :: o2 ++ TOSave ns :: o3 ++ TOSaved :: o4 ++ [TOStarted ns']) ->
  quiet o2 -> quiet o3 -> quiet o4 -> same_nodes ns ns'.
Proof.
  intros R Q2 Q3 Q4. destruct (run_at _ _ _ _ R _ _ _ eq_refl) as (l1 & w1 & l & w2 & l2 & a & u & v & b & R1 & S & R2 & E1 & E2).
  destruct (created_step _ _ _ _ _ S) as (-> & -> & W2). cbn in E2. subst b.
  pose proof (tsane_step _ _ _ _ S (tsane_run _ _ _ _ R1 Logic.I)) as T2.
  destruct (run_at _ _ _ _ R2 (o2 ++ TOSave ns :: o3 ++ TOSaved :: o4) (TOStarted ns') []) as
    (l3 & w3 & l4 & w4 & l5 & a3 & u3 & v3 & b3 & R3 & S3 & _ & E3 & _).
  { rewrite <- !app_assoc. cbn. rewrite <- !app_assoc. reflexivity. }
  destruct (started_step _ _ _ _ _ _ S3) as (-> & _ & ns0 & B & ->). rewrite app_nil_r in E3. subst a3.
  assert (Q : quiet (o2 ++ TOSave ns :: o3 ++ TOSaved :: o4)).
  { intros x I. apply in_app_or in I. destruct I as [I|[<-|I]]; [exact (Q2 _ I)|exact Logic.I|].
    apply in_app_or in I. destruct I as [I|[<-|I]]; [exact (Q3 _ I)|exact Logic.I|exact (Q4 _ I)]. }
  assert (I1 : In (TOSave ns) (o2 ++ TOSave ns :: o3 ++ TOSaved :: o4)) by (apply in_or_app; right; left; reflexivity).
  assert (I2 : In TOSaved (o2 ++ TOSave ns :: o3 ++ TOSaved :: o4)).
  { apply in_or_app. right. right. apply in_or_app. right. left. reflexivity. }
  destruct (watch_run _ _ _ _ R3 WEmptied T2 W2 Q) as [[_ M]|(st & s & A & MS & _ & D & E)]; [destruct (M _ I1 Logic.I)|].
  rewrite (D _ I1). destruct E as [[_ N]|[[DK _] _]]; [destruct (N I2)|]. rewrite DK in B.
  destruct (saved_gives _ _ A MS) as (_ & _ & _ & G). exact (G _ B).
Qed.
End Fmt.
