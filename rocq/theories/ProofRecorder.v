(** Proofs about recordings. *)
From Verif Require Import ModelBase ModelRecorder SpecRecorder.
From Coq Require Import Permutation Sorted Lia.

(** ** The recorder *)
Lemma rrun_app st l1 l2 st' o : rrun st (l1 ++ l2) = Some (st', o) <->
  exists st1 o1 o2, rrun st l1 = Some (st1, o1) /\ rrun st1 l2 = Some (st', o2) /\ o = o1 ++ o2.
Proof.
  revert st o. induction l1 as [|l l1 IH]; intros st o; cbn [app rrun].
  - split; [intros E; exists st, [], o; auto|].
    intros (st1 & o1 & o2 & A & B & ->). injection A as <- <-. exact B.
  - destruct (rstep st l) as [[st1 o1]|] eqn:E.
    2: split; [discriminate|intros (? & ? & ? & A & _); discriminate].
    split.
    + destruct (rrun st1 (l1 ++ l2)) as [[st2 o2]|] eqn:R; try discriminate.
      intros K. injection K as <- <-. apply IH in R. destruct R as (a & b & c & R1 & R2 & ->).
      exists a, (o1 ++ b), c. rewrite R1. rewrite app_assoc. auto.
    + intros (a & b & c & R1 & R2 & ->).
      destruct (rrun st1 l1) as [[st2 o2]|] eqn:R; try discriminate. injection R1 as <- <-.
      assert (K : rrun st1 (l1 ++ l2) = Some (st', o2 ++ c)) by (apply IH; exists st2, o2, c; auto).
      rewrite K. rewrite app_assoc. reflexivity.
Qed.
Lemma rrun_snoc st ls l st' o : rrun st (ls ++ [l]) = Some (st', o) <->
  exists st1 o1 o2, rrun st ls = Some (st1, o1) /\ rstep st1 l = Some (st', o2) /\ o = o1 ++ o2.
Proof.
  rewrite rrun_app. split; intros (st1 & o1 & o2 & A & B & ->); exists st1, o1, o2; split; auto.
  - cbn in B. destruct (rstep st1 l) as [[a b]|]; try discriminate.
    injection B as <- <-. rewrite app_nil_r. auto.
  - cbn. rewrite B. rewrite app_nil_r. auto.
Qed.

Lemma drop_nth_perm {A} (l : list A) i x : nth_error l i = Some x -> Permutation l (x :: drop_nth i l).
Proof.
  revert i. induction l as [|y l IH]; intros [|i] E; cbn in E; try discriminate.
  - injection E as ->. reflexivity.
  - apply IH in E. unfold drop_nth in *. cbn [firstn app skipn]. 
    transitivity (y :: x :: firstn i l ++ skipn (S i) l); [now constructor|]. apply perm_swap.
Qed.

Definition view_pend (h : nat -> list byte) (p : bool * nat * nat) : bool * list byte :=
  let '(d, b, n) := p in (d, deref h b n).
Definition view (h : nat -> list byte) (r : rref) : bool * list byte :=
  (f_dir r, deref h (f_buf r) (f_len r)).
Definition items (st : rst) : list (bool * list byte) :=
  map content (logged (v_log st)) ++ map (view (v_heap st)) (v_chan st) ++
  map (view (v_heap st)) (v_ready st) ++ map (view_pend (v_heap st)) (v_pend st).
Definition bufs (st : rst) : list nat :=
  map f_buf (v_chan st) ++ map f_buf (v_ready st) ++ map (fun p => snd (fst p)) (v_pend st).

Lemma items_heap st h : (forall b, In b (bufs st) -> h b = v_heap st b) ->
  items (mkR h (v_now st) (v_pend st) (v_ready st) (v_chan st) (v_writers st) (v_log st)) = items st.
Proof.
  intros H. unfold items, bufs in *. cbn [v_log v_chan v_ready v_pend v_heap]. f_equal. f_equal; [|f_equal].
  - apply map_ext_in. intros r I. unfold view, deref. rewrite H; [reflexivity|].
    apply in_or_app. left. now apply in_map.
  - apply map_ext_in. intros r I. unfold view, deref. rewrite H; [reflexivity|].
    apply in_or_app. right. apply in_or_app. left. now apply in_map.
  - apply map_ext_in. intros [[d b] n] I. unfold view_pend, deref. rewrite H; [reflexivity|].
    apply in_or_app. right. apply in_or_app. right.
    change b with ((fun p : bool * nat * nat => snd (fst p)) (d, b, n)). now apply in_map.
Qed.

Lemma undisturbed_prefix ls l : undisturbed (ls ++ [l]) -> undisturbed ls.
Proof.
  intros U p x q l' b E I. apply (U p x (q ++ [l]) l' b); [rewrite E, <- app_assoc; reflexivity|].
  apply in_or_app. now left.
Qed.
Lemma undisturbed_last ls l b : undisturbed (ls ++ [l]) -> In b (flat_map used ls) -> ~ In b (uses l).
Proof.
  intros U I. apply in_flat_map in I. destruct I as (x & I & J).
  apply in_split in I. destruct I as (p & q & ->).
  apply (U p x (q ++ [l]) l b); [rewrite <- app_assoc; reflexivity|apply in_or_app; cbn; auto|exact J].
Qed.

Lemma logged_app a b : logged (a ++ b) = logged a ++ logged b.
Proof. apply flat_map_app. Qed.

Ltac perm_app :=
  repeat rewrite map_app; cbn [map app]; repeat rewrite <- app_assoc; cbn [app].

Lemma recorder_inv t ls : forall st o, undisturbed ls -> rrun (rinit t) ls = Some (st, o) ->
  (forall b, In b (bufs st) -> In b (flat_map used ls)) /\
  Permutation (operations o) (items st).
Proof.
  induction ls as [|l ls IH] using rev_ind; intros st o U E.
  - injection E as <- <-. cbn. split; [tauto|reflexivity].
  - apply rrun_snoc in E. destruct E as (st1 & o1 & o2 & A & B & ->).
    destruct (IH _ _ (undisturbed_prefix _ _ U) A) as [BU P].
    assert (SUB : forall b, In b (flat_map used ls) -> In b (flat_map used (ls ++ [l])))
      by (intros b I; rewrite flat_map_app; apply in_or_app; now left).
    unfold operations in *. rewrite map_app.
    destruct l; cbn -[Nat.ltb] in B.
    + injection B as <- <-. cbn [map]. rewrite app_nil_r. split; [|exact P].
      intros b I. apply SUB, BU, I.
    + injection B as <- <-. split.
      { unfold bufs. cbn. intros b I. rewrite map_app, !app_assoc in I. apply in_app_or in I.
        destruct I as [I|[<-|[]]].
        - apply SUB, BU. unfold bufs. rewrite app_assoc. exact I.
        - rewrite flat_map_app. apply in_or_app. right. cbn. auto. }
      assert (H : forall b, In b (bufs st1) ->
        hset (v_heap st1) buf (fill (v_heap st1 buf) data) b = v_heap st1 b).
      { intros b I. unfold hset. destruct (Nat.eqb_spec b buf) as [->|]; [|reflexivity].
        exfalso. apply (undisturbed_last _ _ _ U (BU _ I)). cbn. auto. }
      pose proof (items_heap _ _ H) as IH'. unfold items in *. cbn [v_log v_chan v_ready v_pend v_heap] in *.
      rewrite map_app, !app_assoc. rewrite <- IH' in P.
      apply Permutation_app; [rewrite <- !app_assoc; exact P|]. cbn. unfold deref, hset, fill. rewrite Nat.eqb_refl.
      rewrite firstn_app, Nat.sub_diag, firstn_all. cbn. rewrite app_nil_r. reflexivity.
    + injection B as <- <-. split.
      { unfold bufs. cbn. intros b I. rewrite map_app, !app_assoc in I. apply in_app_or in I.
        destruct I as [I|[<-|[]]].
        - apply SUB, BU. unfold bufs. rewrite app_assoc. exact I.
        - rewrite flat_map_app. apply in_or_app. right. cbn. auto. }
      unfold items in *. cbn [v_log v_chan v_ready v_pend v_heap] in *.
      rewrite map_app, !app_assoc.
      apply Permutation_app; [rewrite <- !app_assoc; exact P|]. reflexivity.
    + injection B as <- <-. rewrite app_nil_r. split; [intros b I; apply SUB, BU, I|].
      rewrite (items_heap st1); [exact P|].
      intros b I. unfold hset. destruct (Nat.eqb_spec b buf) as [->|]; [|reflexivity].
      exfalso. apply (undisturbed_last _ _ _ U (BU _ I)). cbn. auto.
    + destruct (nth_error (v_pend st1) i) as [[[d b] n]|] eqn:N; [|discriminate]. injection B as <- <-.
      apply drop_nth_perm in N. rewrite app_nil_r. split.
      { intros x I. apply SUB, BU. unfold bufs in *. cbn in I. rewrite map_app in I.
        apply (Permutation_map (fun p => snd (fst p))) in N.
        rewrite N. cbn [map fst snd]. cbn [map] in I.
        repeat rewrite in_app_iff in *. cbn [In] in *. tauto. }
      rewrite P. unfold items. cbn [v_log v_chan v_ready v_pend v_heap].
      apply Permutation_app_head, Permutation_app_head.
      rewrite map_app, <- app_assoc. apply Permutation_app_head. 
      apply (Permutation_map (view_pend (v_heap st1))) in N. exact N.
    + destruct (nth_error (v_ready st1) i) as [r|] eqn:N; [|discriminate].
      destruct (_ <? _); [|discriminate]. injection B as <- <-.
      apply drop_nth_perm in N. rewrite app_nil_r. split.
      { intros x I. apply SUB, BU. unfold bufs in *. cbn [v_chan v_ready v_pend] in I. rewrite map_app in I.
        apply (Permutation_map f_buf) in N. rewrite !in_app_iff in I |- *. cbn [map In] in I.
        assert (M : In x (map f_buf (v_ready st1)) <-> f_buf r = x \/ In x (map f_buf (drop_nth i (v_ready st1)))).
        { split; intros J; [apply (Permutation_in _ N) in J|apply (Permutation_in _ (Permutation_sym N))]; exact J. }
        rewrite M. rewrite ?in_app_iff in I. tauto. }
      rewrite P. unfold items. cbn [v_log v_chan v_ready v_pend v_heap].
      apply Permutation_app_head. rewrite map_app, <- app_assoc. apply Permutation_app_head.
      apply (Permutation_map (view (v_heap st1))) in N. rewrite N. reflexivity.
    + destruct (nth_error (v_writers st1) w) as [s|]; [|discriminate].
      destruct (v_chan st1) as [|r q] eqn:Q; [discriminate|]. injection B as <- <-.
      rewrite app_nil_r. split.
      { intros x I. apply SUB, BU. unfold bufs in *. rewrite Q. cbn in *. auto. }
      rewrite P. unfold items. cbn [v_log v_chan v_ready v_pend v_heap]. rewrite Q, !logged_app.
      replace (logged (if s then [] else [GType])) with (@nil row) by (destruct s; reflexivity).
      cbn [app logged flat_map]. rewrite map_app, <- app_assoc. reflexivity.
    + injection B as <- <-. cbn [map]. rewrite app_nil_r. split; [|exact P].
      intros b I. apply SUB, BU, I.
Qed.

Lemma logged_once t ls st o : undisturbed ls -> rrun (rinit t) ls = Some (st, o) ->
  (exists rest, Permutation (operations o) (map content (logged (v_log st)) ++ rest)) /\
  (v_pend st = [] -> v_ready st = [] -> v_chan st = [] ->
   Permutation (operations o) (map content (logged (v_log st)))).
Proof.
  intros U E. destruct (recorder_inv _ _ _ _ U E) as [_ P]. split; [eexists; exact P|].
  intros A B C. unfold items in P. rewrite A, B, C in P. cbn in P. rewrite app_nil_r in P. exact P.
Qed.

(** Logging can always be completed. *)
Lemma drains n : forall st, 3 * List.length (v_pend st) + 2 * List.length (v_ready st) + List.length (v_chan st) <= n ->
  v_writers st <> [] -> List.length (v_chan st) <= 100 ->
  exists ls st', rrun st ls = Some (st', []) /\
    (forall l, In l ls -> exists i, l = RStamp i \/ l = RSend i \/ l = REncode i) /\
    v_pend st' = [] /\ v_ready st' = [] /\ v_chan st' = [].
Proof.
  induction n as [|n IH]; intros st L W C.
  - exists [], st. split; [reflexivity|]. split; [intros l []|].
    destruct (v_pend st), (v_ready st), (v_chan st); cbn in L; try lia; auto.
  - assert (ONE : forall l st1, rstep st l = Some (st1, []) ->
       (exists i, l = RStamp i \/ l = RSend i \/ l = REncode i) ->
       3 * List.length (v_pend st1) + 2 * List.length (v_ready st1) + List.length (v_chan st1) <= n ->
       v_writers st1 <> [] -> List.length (v_chan st1) <= 100 ->
       exists ls st', rrun st ls = Some (st', []) /\
         (forall l, In l ls -> exists i, l = RStamp i \/ l = RSend i \/ l = REncode i) /\
         v_pend st' = [] /\ v_ready st' = [] /\ v_chan st' = []).
    { intros l st1 S K L1 W1 C1. destruct (IH st1 L1 W1 C1) as (ls & st' & R & F & D).
      exists (l :: ls), st'. cbn. rewrite S, R. split; [reflexivity|]. split; [|exact D].
      intros x [<-|X]; auto. }
    destruct (v_chan st) as [|r q] eqn:Q.
    + destruct (v_ready st) as [|r q] eqn:Q2.
      * destruct (v_pend st) as [|[[d b] m] q] eqn:Q3.
        -- exists [], st. split; [reflexivity|]. split; [intros l []|auto].
        -- eapply (ONE (RStamp 0)); [unfold rstep; rewrite Q3; reflexivity|eauto| | |];
             cbn [v_pend v_ready v_chan v_writers]; rewrite ?Q, ?Q2; cbn in *; auto; try lia.
      * eapply (ONE (RSend 0)); [unfold rstep; rewrite Q2, Q; reflexivity|eauto| | |];
             cbn [v_pend v_ready v_chan v_writers]; rewrite ?Q, ?Q2; cbn in *; auto; try lia.
    + destruct (v_writers st) as [|w ws] eqn:Q2; [congruence|].
      eapply (ONE (REncode 0)); [unfold rstep; rewrite Q2, Q; reflexivity|eauto| | |];
        cbn [v_pend v_ready v_chan v_writers]; rewrite ?Q, ?Q2; cbn in *; try lia; discriminate.
Qed.
Lemma chan_bound t ls : forall st o, rrun (rinit t) ls = Some (st, o) -> List.length (v_chan st) <= 100.
Proof.
  induction ls as [|l ls IH] using rev_ind; intros st o E; [injection E as <- _; cbn; lia|].
  apply rrun_snoc in E. destruct E as (st1 & o1 & o2 & A & B & _). specialize (IH _ _ A).
  destruct l; cbn -[Nat.ltb] in B; try (injection B as <- <-; exact IH).
  - destruct (nth_error _ _) as [[[? ?] ?]|]; [|discriminate]. injection B as <- <-. exact IH.
  - destruct (nth_error _ _); [|discriminate].
    destruct (Nat.ltb_spec (List.length (v_chan st1)) chan_cap); [|discriminate].
    injection B as <- <-. cbn. rewrite app_length. unfold chan_cap in *. cbn. lia.
  - destruct (nth_error _ _); [|discriminate]. destruct (v_chan st1); [discriminate|].
    injection B as <- <-. cbn in *. lia.
Qed.
Lemma opens_app a b : opens (a ++ b) = opens a + opens b.
Proof. unfold opens. rewrite filter_app, app_length. reflexivity. Qed.
Lemma set_nth_length {A} i (x : A) l : List.length (set_nth i x l) = List.length l.
Proof. revert i. induction l as [|y l IH]; intros [|i]; cbn; auto. Qed.
Lemma writers_opens t ls : forall st o, rrun (rinit t) ls = Some (st, o) ->
  List.length (v_writers st) = opens ls.
Proof.
  induction ls as [|l ls IH] using rev_ind; intros st o E; [injection E as <- _; reflexivity|].
  apply rrun_snoc in E. destruct E as (st1 & o1 & o2 & A & B & _). specialize (IH _ _ A).
  rewrite opens_app.
  destruct l; cbn -[Nat.ltb] in B; try (injection B as <- <-; cbn; rewrite ?app_length; cbn; lia).
  - destruct (nth_error _ _) as [[[? ?] ?]|]; [|discriminate]. injection B as <- <-. cbn. lia.
  - destruct (nth_error _ _); [|discriminate].
    destruct (_ <? _); [|discriminate]. injection B as <- <-. cbn. lia.
  - destruct (nth_error _ _); [|discriminate]. destruct (v_chan st1); [discriminate|].
    injection B as <- <-. cbn. rewrite set_nth_length. lia.
Qed.
Lemma log_completes t ls st o : rrun (rinit t) ls = Some (st, o) -> In ROpen ls ->
  exists l2 st', rrun st l2 = Some (st', []) /\
    (forall l, In l l2 -> exists i, l = RStamp i \/ l = RSend i \/ l = REncode i) /\
    v_pend st' = [] /\ v_ready st' = [] /\ v_chan st' = [].
Proof.
  intros E I. eapply drains; [reflexivity| |eapply chan_bound; exact E].
  apply writers_opens in E. intros N. rewrite N in E. cbn in E.
  apply in_split in I. destruct I as (p & q & ->). rewrite opens_app in E. cbn in E. lia.
Qed.

(** One Open: the log can be read back. *)
Lemma gob_rows rows : gob_decode true (map GRow rows) = Some rows.
Proof. induction rows as [|r rows IH]; cbn; [reflexivity|]. now rewrite IH. Qed.
Lemma logged_rows rows : logged (map GRow rows) = rows.
Proof. unfold logged. induction rows; cbn; congruence. Qed.
Lemma one_open t ls : forall st o, rrun (rinit t) ls = Some (st, o) -> opens ls <= 1 ->
  (v_log st = [] /\ (v_writers st = [] \/ v_writers st = [false])) \/
  (v_writers st = [true] /\ exists rows, v_log st = GType :: map GRow rows).
Proof.
  induction ls as [|l ls IH] using rev_ind; intros st o E L; [injection E as <- _; left; cbn; auto|].
  apply rrun_snoc in E. destruct E as (st1 & o1 & o2 & A & B & _). rewrite opens_app in L.
  pose proof (writers_opens _ _ _ _ A) as W. specialize (IH _ _ A ltac:(lia)).
  destruct l; cbn -[Nat.ltb] in B; try (injection B as <- <-; exact IH).
  - injection B as <- <-. cbn in *. destruct (v_writers st1) as [|? ?] eqn:Q; [|cbn in W; lia].
    destruct IH as [[K _]|[K _]]; [|discriminate]. left. cbn. auto.
  - destruct (nth_error _ _) as [[[? ?] ?]|]; [|discriminate]. injection B as <- <-. exact IH.
  - destruct (nth_error _ _); [|discriminate].
    destruct (_ <? _); [|discriminate]. injection B as <- <-. exact IH.
  - destruct (nth_error _ w) as [s|] eqn:N; [|discriminate]. destruct (v_chan st1); [discriminate|].
    injection B as <- <-. right. cbn.
    destruct IH as [[K [V|V]]|[V [rows K]]]; rewrite V in N |- *.
    + destruct w; discriminate.
    + destruct w as [|[|w]]; cbn in N; try discriminate. injection N as <-. rewrite K. cbn.
      split; [reflexivity|]. eexists [_]. reflexivity.
    + destruct w as [|[|w]]; cbn in N; try discriminate. injection N as <-. rewrite K. cbn.
      split; [reflexivity|]. eexists (rows ++ [_]). rewrite map_app. reflexivity.
Qed.
Lemma one_open_readable t ls st o : rrun (rinit t) ls = Some (st, o) -> opens ls <= 1 ->
  gob_decode false (v_log st) = Some (logged (v_log st)).
Proof.
  intros E L. destruct (one_open _ _ _ _ E L) as [[-> _]|[_ [rows ->]]]; [reflexivity|].
  cbn [gob_decode logged flat_map app]. rewrite gob_rows. f_equal. symmetry. apply logged_rows.
Qed.

(** ** The converter *)
Definition data_of (rows : list row) : list byte := flat_map r_data rows.
(** One direction on its own. *)
Fixpoint comb1 (c : combiner) (rows : list row) : list row :=
  match rows with
  | [] => []
  | r :: rest =>
      let '(c', o) := combine c r in
      match o with Some x => x :: comb1 c' rest | None => comb1 c' rest end
  end.
Definition good (d : bool) (c : combiner) : Prop := b_time c = 0%Z \/ b_dir c = d.
Lemma combine_dir d c r c' o : good d c -> r_dir r = d -> combine c r = (c', o) ->
  good d c' /\ forall x, o = Some x -> r_dir x = d.
Proof.
  intros G R. unfold combine. destruct (Z.eqb_spec (b_time c) 0) as [Z|Z]; cbn [fst snd];
    destruct (_ <? _)%Z; intros E; injection E as <- <-; split; try (right; exact R);
    intros x K; try discriminate; injection K as <-; cbn; [exact R|].
  destruct G; [contradiction|assumption].
Qed.
Lemma combine_all_split rows : forall cr cw, good false cr -> good true cw ->
  of_dir false (combine_all cr cw rows) = comb1 cr (of_dir false rows) /\
  of_dir true (combine_all cr cw rows) = comb1 cw (of_dir true rows).
Proof.
  induction rows as [|r rows IH]; intros cr cw G1 G2; [auto|].
  cbn [combine_all of_dir filter]. destruct (r_dir r) eqn:D; cbn [Bool.eqb].
  - destruct (combine cw r) as [c o] eqn:E. destruct (combine_dir true _ _ _ _ G2 D E) as [G X].
    destruct (IH cr c G1 G) as [A B]. destruct o as [x|].
    + cbn [of_dir filter]. rewrite (X x eq_refl). cbn [Bool.eqb]. cbn [comb1]. rewrite E.
      unfold of_dir in A, B. rewrite A, B. auto.
    + cbn [comb1]. rewrite E. exact (conj A B).
  - destruct (combine cr r) as [c o] eqn:E. destruct (combine_dir false _ _ _ _ G1 D E) as [G X].
    destruct (IH c cw G G2) as [A B]. destruct o as [x|].
    + cbn [of_dir filter]. rewrite (X x eq_refl). cbn [Bool.eqb]. cbn [comb1]. rewrite E.
      unfold of_dir in A, B. rewrite A, B. auto.
    + cbn [comb1]. rewrite E. exact (conj A B).
Qed.

Definition time_lt (a b : row) : Prop := (r_time a < r_time b)%Z.
Definition comb_of (x : row) : combiner := mkComb (r_time x) (r_dir x) (r_data x).

Lemma no_gap_one x : no_gap [x].
Proof. intros [|? [|? ?]] a b q E; discriminate. Qed.

Lemma comb1_spec d : forall rows x, (0 < r_time x)%Z -> r_dir x = d ->
  (forall r, In r rows -> r_dir r = d) -> StronglySorted time_le (x :: rows) ->
  exists burst, last_burst (x :: rows) burst /\
    data_of (comb1 (comb_of x) rows) ++ data_of burst = data_of (x :: rows) /\
    StronglySorted time_lt (comb1 (comb_of x) rows) /\
    (forall y, In y (comb1 (comb_of x) rows) -> (r_time x <= r_time y)%Z).
Proof.
  induction rows as [|r rows IH]; intros x T X D S.
  - exists [x]. cbn [comb1]. split.
    + split; [apply no_gap_one|]. exists []. auto.
    + repeat split; [constructor|intros y []].
  - apply StronglySorted_inv in S. destruct S as [S F]. 
    assert (XR : time_le x r) by (inversion F; assumption). unfold time_le in XR.
    cbn [comb1]. unfold combine, comb_of. cbn [b_time b_dir b_buf].
    destruct (Z.eqb_spec (r_time x) 0) as [|_]; [lia|]. cbn [fst snd].
    destruct (Z.ltb_spec (r_time r - r_time x) 1000000) as [G|G].
    + (* appended *)
      set (x' := mkRow (r_time r) (r_dir r) (r_data x ++ r_data r)).
      assert (DX : forall l, r_data x' ++ l = r_data x ++ r_data r ++ l)
        by (intros l; cbn; now rewrite <- app_assoc).
      assert (S' : StronglySorted time_le (x' :: rows)).
      { apply StronglySorted_inv in S. destruct S as [S1 S2]. constructor; [exact S1|].
        eapply Forall_impl; [|exact S2]. intros a Ha. exact Ha. }
      destruct (IH x') as (burst & [NG (p & E & P)] & DA & SS & LB); auto.
      { cbn. lia. } { cbn. apply D. now left. } { intros a Ha. apply D. now right. }
      change (mkComb (r_time r) (r_dir r) (r_data x ++ r_data r)) with (comb_of x').
      destruct p as [|p0 p].
      * (* the burst is everything *)
        cbn in E. exists (x :: r :: rows). split; [split; [|exists []; auto]|].
        -- intros [|z p] a b q EE.
           ++ injection EE as <- <- <-. exact G.
           ++ injection EE as <- EE. subst burst. destruct p as [|z p].
              ** injection EE as <- EE. subst rows. exact (NG [] x' b q eq_refl).
              ** injection EE as <- EE. apply (NG (x' :: p) a b q). cbn. now rewrite EE.
        -- split; [|split; [exact SS|]].
           ++ rewrite <- E in DA. cbn [data_of flat_map r_data] in *. rewrite ?DX in DA. exact DA.
           ++ intros y Y. apply LB in Y. cbn in Y. lia.
      * cbn in E. injection E as E0 E. subst p0. exists burst.
        split; [split; [exact NG|]|].
        -- exists (x :: r :: p). split; [cbn; rewrite E; reflexivity|].
           destruct P as [P|(p' & a & b & q & P & Q & W)]; [discriminate|]. right.
           destruct p' as [|z p'].
           ++ injection P as P0 P. subst p a. exists [x], r, b, q. auto.
           ++ injection P as P0 P. subst z p. exists (x :: r :: p'), a, b, q. auto.
        -- split; [|split; [exact SS|]].
           ++ cbn [data_of flat_map r_data] in *. rewrite ?DX in DA. exact DA.
           ++ intros y Y. apply LB in Y. cbn in Y. lia.
    + (* flushed *)
      destruct (IH r) as (burst & [NG (p & E & P)] & DA & SS & LB); auto.
      { lia. } { apply D. now left. } { intros a Ha. apply D. now right. }
      fold (comb_of r). exists burst. split; [split; [exact NG|]|].
      * exists (x :: p). split; [cbn; rewrite E; reflexivity|]. right.
        destruct P as [->|(p' & a & b & q & -> & Q & W)].
        -- cbn in E. exists [], x, r, rows. auto.
        -- exists (x :: p'), a, b, q. auto.
      * split; [|split].
        -- cbn [data_of flat_map r_data] in *. rewrite <- app_assoc. f_equal. exact DA.
        -- constructor; [exact SS|]. apply Forall_forall. intros y Y. apply LB in Y.
           unfold time_lt. cbn. lia.
        -- intros y [<-|Y]; [cbn; lia|]. apply LB in Y. lia.
Qed.

Lemma sorted_unique : forall l1 l2, StronglySorted time_lt l1 -> StronglySorted time_le l2 ->
  Permutation l1 l2 -> l1 = l2.
Proof.
  induction l1 as [|a l1 IH]; intros l2 S1 S2 P.
  - apply Permutation_nil in P. now subst.
  - destruct l2 as [|b l2]; [apply Permutation_sym, Permutation_nil in P; discriminate|].
    apply StronglySorted_inv in S1. destruct S1 as [S1 F1].
    apply StronglySorted_inv in S2. destruct S2 as [S2 F2].
    assert (E : a = b).
    { assert (Ia : In b (a :: l1)) by (apply (Permutation_in _ (Permutation_sym P)); now left).
      destruct Ia as [E|Ia]; [exact E|]. rewrite Forall_forall in F1, F2.
      assert (Ib : In a (b :: l2)) by (apply (Permutation_in _ P); now left).
      destruct Ib as [E|Ib]; [now symmetry|]. apply F1 in Ia. apply F2 in Ib.
      unfold time_lt, time_le in *. lia. }
    subst b. apply Permutation_cons_inv in P. f_equal. apply IH; auto.
Qed.
Lemma sorted_filter {A} (R : A -> A -> Prop) f l : StronglySorted R l -> StronglySorted R (filter f l).
Proof.
  induction 1 as [|a l S IH F]; cbn; [constructor|]. destruct (f a); [|exact IH].
  constructor; [exact IH|]. apply Forall_forall. intros x X. apply filter_In in X.
  rewrite Forall_forall in F. now apply F.
Qed.
Lemma perm_filter {A} (f : A -> bool) l l' : Permutation l l' -> Permutation (filter f l) (filter f l').
Proof.
  induction 1; cbn; auto.
  - destruct (f x); auto.
  - destruct (f x), (f y); auto. apply perm_swap.
  - etransitivity; eauto.
Qed.
Lemma of_dir_in d rows r : In r (of_dir d rows) -> r_dir r = d.
Proof. intros I. apply filter_In in I. now apply Bool.eqb_prop. Qed.
Lemma bytes_of_dir d rows : bytes_of d rows = data_of (of_dir d rows).
Proof.
  unfold bytes_of, data_of, of_dir. induction rows as [|r rows IH]; cbn; [reflexivity|].
  destruct (Bool.eqb (r_dir r) d); cbn; now rewrite IH.
Qed.
Lemma bytes_of_all d rows : (forall r, In r rows -> r_dir r = d) -> bytes_of d rows = data_of rows.
Proof.
  unfold bytes_of, data_of. induction rows as [|r rows IH]; intros H; cbn; [reflexivity|].
  rewrite (H r) by now left. rewrite Bool.eqb_reflx. f_equal. apply IH. intros x X. apply H. now right.
Qed.
Lemma printed_of_dir d rd wr out :
  printed_bytes d (printed rd wr out) = if (if d then wr else rd) then bytes_of d out else [].
Proof.
  unfold printed_bytes, printed, bytes_of. induction out as [|r out IH]; cbn.
  - now destruct d, rd, wr.
  - destruct (r_dir r) eqn:E.
    + destruct wr; cbn; rewrite ?E; destruct d; cbn; rewrite ?IH; cbn; try reflexivity;
        destruct rd; reflexivity.
    + destruct rd; cbn; rewrite ?E; destruct d; cbn; rewrite ?IH; cbn; try reflexivity;
        destruct wr; reflexivity.
Qed.

Lemma converter_result rows out (dir rd wr : bool) : clocked rows -> sorted_rows rows out ->
  (if dir then wr else rd) = true ->
  exists burst, last_burst (of_dir dir rows) burst /\
    printed_bytes dir (printed rd wr out) ++ bytes_of dir burst = bytes_of dir rows.
Proof.
  intros [T C] [P S] F. rewrite printed_of_dir, F.
  assert (ONE : of_dir dir (combined rows) = comb1 combiner0 (of_dir dir rows)).
  { destruct (combine_all_split rows combiner0 combiner0) as [A B]; [left; reflexivity|left; reflexivity|].
    destruct dir; [exact B|exact A]. }
  assert (SD : forall r, In r (of_dir dir rows) -> r_dir r = dir) by (intros r; apply of_dir_in).
  specialize (C dir). rewrite !bytes_of_dir.
  destruct (of_dir dir rows) as [|x rest] eqn:O.
  - exists []. split; [split; [intros [|? ?] ? ? ? E; discriminate|exists []; auto]|].
    cbn in ONE. apply (perm_filter (fun r => Bool.eqb (r_dir r) dir)) in P.
    fold (of_dir dir (combined rows)) in P. rewrite ONE in P. apply Permutation_nil in P.
    unfold of_dir. rewrite P. reflexivity.
  - assert (TX : (0 < r_time x)%Z).
    { apply T. assert (I : In x (of_dir dir rows)) by (rewrite O; now left). now apply filter_In in I. }
    assert (E0 : comb1 combiner0 (x :: rest) = comb1 (comb_of x) rest).
    { cbn [comb1]. unfold combine, combiner0. cbn [b_time b_dir b_buf fst snd Z.eqb].
      rewrite Z.sub_diag. reflexivity. }
    destruct (comb1_spec dir rest x TX (SD x (or_introl eq_refl)) (fun r H => SD r (or_intror H)) C)
      as (burst & L & D & SS & _).
    exists burst. split; [exact L|].
    assert (EQ : of_dir dir out = comb1 (comb_of x) rest).
    { symmetry. apply sorted_unique; [exact SS|now apply sorted_filter|].
      rewrite <- E0, <- ONE. now apply perm_filter. }
    rewrite EQ. destruct L as [_ (p & E & _)].
    assert (SB : of_dir dir burst = burst).
    { assert (I : forall r, In r burst -> r_dir r = dir)
        by (intros r I; apply SD; rewrite E; apply in_or_app; now right).
      clear - I. unfold of_dir. induction burst as [|b l IH]; cbn; [reflexivity|].
      rewrite (I b) by now left. rewrite Bool.eqb_reflx. f_equal. apply IH. intros r J. apply I. now right. }
    rewrite ?bytes_of_dir, ?EQ, SB. exact D.
Qed.
Lemma converter_excludes rows out (dir rd wr : bool) : sorted_rows rows out -> (if dir then wr else rd) = false ->
  printed_bytes dir (printed rd wr out) = [].
Proof. intros _ F. rewrite printed_of_dir, F. reflexivity. Qed.
