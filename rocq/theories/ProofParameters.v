(** Proofs about the parameters in the device table. *)
From Verif Require Import ModelBase ModelNodes DataDevices DataFiles DataParameters ModelDatabase ModelGenerator ModelParameters.
From Verif Require Import SpecGenerator SpecParameters ProofGenerator.
From Coq Require Import Lia Decimal DecimalString DecimalZ DecimalPos.
Local Open Scope string_scope.

(** ** Numbers *)
Lemma int_read z : NilZero.int_of_string (int_text z) = Some (Z.to_int z).
Proof.
  unfold int_text. destruct (Z.to_int z) as [d|d] eqn:E.
  - apply NilZero.isi; destruct z as [|p|p]; cbn in E; injection E as <- ||discriminate; try discriminate;
      intros X; injection X as X; exact (Unsigned.to_uint_nonnil p X).
  - apply NilZero.isi; destruct z as [|p|p]; cbn in E; try discriminate; injection E as <-; try discriminate;
      intros X; injection X as X; exact (Unsigned.to_uint_nonnil p X).
Qed.
Lemma int_kept z : int64 z -> go_int (int_text z) = Some z.
Proof.
  intros [L H]. unfold go_int. rewrite int_read. rewrite DecimalZ.of_to. cbv zeta.
  apply Z.leb_le in L. apply Z.ltb_lt in H. rewrite L, H. reflexivity.
Qed.

(** ** One parameter *)
Lemma option_value o : int64 (fst o) -> source_text (snd o) ->
  exists v, go_value (mkRV (int_text (fst o)) (int_text (fst o)) (Some (escape (snd o)))) = Some v /\ option_is o v.
Proof.
  intros I S. apply literal_source in S. unfold go_value. cbn [rv_from rv_to rv_desc]. rewrite (int_kept _ I), S.
  eexists. split; [reflexivity|]. repeat split.
Qed.
Lemma options_value os : (forall o, In o os -> int64 (fst o) /\ source_text (snd o)) ->
  exists vs, all_some (map go_value (map (fun o => mkRV (int_text (fst o)) (int_text (fst o)) (Some (escape (snd o)))) os)) = Some vs /\
    Forall2 option_is os vs.
Proof.
  induction os as [|o os IH]; intros H; [exists []; split; [reflexivity|constructor]|].
  destruct IH as (vs & E & F); [intros; apply H; right; assumption|].
  destruct (H o (or_introl eq_refl)) as [I S]. destruct (option_value o I S) as (v & G & M).
  exists (v :: vs). cbn [map all_some]. rewrite G, E. split; [reflexivity|constructor; assumption].
Qed.
Lemma param_value p : plain_parameter p -> exists q, go_param (render_param p) = Some q /\ parameter_matches p q.
Proof.
  intros (L & I & S & MI & MA & O). apply literal_source in L. unfold go_param, render_param. cbn [rp_id rp_name rp_size rp_values].
  rewrite L, (int_kept _ S).
  assert (ID : match (if (0 <? jp_id p)%Z then Some (int_text (jp_id p)) else None) with None => Some 0%Z | Some s => go_int s end =
    Some (Z.max 0 (jp_id p))).
  { destruct (Z.ltb_spec 0 (jp_id p)); [rewrite (int_kept _ I), Z.max_r by lia|rewrite Z.max_l by lia]; reflexivity. }
  rewrite ID. unfold render_values. destruct (jp_options p) as [|o os] eqn:OE.
  - cbn [map all_some]. unfold go_value. cbn [rv_from rv_to rv_desc]. rewrite (int_kept _ MI), (int_kept _ MA).
    eexists. split; [reflexivity|]. repeat (split; [reflexivity|]). right. split; [exact OE|]. eexists. split; [reflexivity|]. repeat split.
  - destruct (options_value (o :: os) O) as (vs & E & F). cbn [map] in E |- *. rewrite E.
    eexists. split; [reflexivity|]. repeat (split; [reflexivity|]). left. rewrite OE. split; [discriminate|exact F].
Qed.
Lemma params_value ps : (forall p, In p ps -> plain_parameter p) ->
  exists qs, all_some (map go_param (map render_param ps)) = Some qs /\ Forall2 parameter_matches ps qs.
Proof.
  induction ps as [|p ps IH]; intros H; [exists []; split; [reflexivity|constructor]|].
  destruct IH as (qs & E & F); [intros; apply H; right; assumption|].
  destruct (param_value p (H p (or_introl eq_refl))) as (q & G & M).
  exists (q :: qs). cbn [map all_some]. rewrite G, E. split; [reflexivity|constructor; assumption].
Qed.

(** ** All files *)
Definition noparams (x : pfile * (string * string)) : jfile * (string * string) := (fst (fst x), snd x).
Fixpoint dedup_full (seen : list string) (l : list (pfile * (string * string))) : list (pfile * (string * string)) :=
  match l with
  | [] => []
  | (f, r) :: l' =>
      if existsb (String.eqb (full_id (fst f) r)) seen then dedup_full seen l'
      else (f, r) :: dedup_full (full_id (fst f) r :: seen) l'
  end.
Lemma dedup_noparams l : forall seen, dedup seen (map noparams l) = map noparams (dedup_full seen l).
Proof.
  induction l as [|[f r] l IH]; intros seen; [reflexivity|]. cbn [map noparams fst snd dedup dedup_full].
  destruct (existsb _ seen); rewrite IH; reflexivity.
Qed.
Lemma mentions_noparams fs : mentions (map fst fs) = map noparams (full_mentions fs).
Proof.
  unfold mentions, full_mentions. induction fs as [|f fs IH]; [reflexivity|]. cbn [map flat_map].
  rewrite map_app, map_map, IH. reflexivity.
Qed.
Lemma keep_dedup_full f rest : forall refs seen kept seen', keep (fst f) seen refs = (kept, seen') ->
  dedup_full seen (map (fun r => (f, r)) refs ++ rest)%list = (map (fun r => (f, r)) kept ++ dedup_full seen' rest)%list.
Proof.
  induction refs as [|r refs IH]; intros seen kept seen' H; cbn [keep] in H.
  - injection H as <- <-. reflexivity.
  - cbn [map List.app dedup_full]. change (iden (fst f) r) with (full_id (fst f) r) in H.
    destruct (existsb (String.eqb (full_id (fst f) r)) seen).
    + apply IH. exact H.
    + destruct (keep (fst f) (full_id (fst f) r :: seen) refs) as [k s'] eqn:K. injection H as <- <-.
      cbn [map List.app]. f_equal. apply IH. exact K.
Qed.
Lemma generator_full_dedup fs : forall seen,
  generator_full seen fs =
  map (fun x => (render (fst (fst x)) (snd x), map render_param (snd (fst x)))) (dedup_full seen (full_mentions fs)).
Proof.
  induction fs as [|[f ps] fs IH]; intros seen; [reflexivity|].
  cbn [generator_full]. unfold full_mentions. cbn [flat_map fst]. fold (full_mentions fs).
  destruct (keep f seen (map parse_ref (j_refs f))) as [kept seen'] eqn:K.
  rewrite (map_ext _ (fun s => ((f, ps), parse_ref s))) by (intros; rewrite parse_ref_of; reflexivity).
  rewrite <- (map_map parse_ref (fun r => ((f, ps), r))).
  rewrite (keep_dedup_full (f, ps) (full_mentions fs) _ _ _ _ K). rewrite map_app, map_map. cbn [fst snd].
  rewrite IH. reflexivity.
Qed.
Lemma generator_noparams fs : map fst (generator_full [] fs) = generator [] (map fst fs).
Proof.
  rewrite generator_full_dedup, generator_dedup, mentions_noparams, dedup_noparams, !map_map. reflexivity.
Qed.
Lemma dedup_full_first l : forall seen f ps r,
  In ((f, ps), r) (dedup_full seen l) <->
  exists pre post, l = (pre ++ ((f, ps), r) :: post)%list /\ ~ In (full_id f r) seen /\
    forall g q s, In ((g, q), s) pre -> full_id g s <> full_id f r.
Proof.
  induction l as [|((g, qs), q) l IH]; intros seen f ps r; cbn [dedup_full fst].
  - split; [intros []|]. intros (pre & post & E & _). destruct pre; discriminate.
  - destruct (existsb (String.eqb (full_id g q)) seen) eqn:X.
    + apply existsb_in in X. rewrite IH. split.
      * intros (pre & post & E & N & F). exists (((g, qs), q) :: pre), post. subst. split; [reflexivity|].
        split; [exact N|]. intros g' q' s' [H|H]; [injection H as <- <- <-; congruence|exact (F _ _ _ H)].
      * intros (pre & post & E & N & F). destruct pre as [|p pre]; cbn [List.app] in E; injection E as E1 E2.
        { subst. contradiction. }
        { intros. exists pre, post. split; [assumption|]. split; [exact N|]. intros g' q' s' I. exact (F g' q' s' (or_intror I)). }
    + apply existsb_nin in X. cbn [In]. rewrite IH. split.
      * intros [H|(pre & post & E & N & F)].
        { injection H as <- <- <-. exists [], l. split; [reflexivity|]. split; [exact X|]. intros ? ? ? []. }
        { exists (((g, qs), q) :: pre), post. subst. split; [reflexivity|]. split.
          - intros I. apply N. right. exact I.
          - intros g' q' s' [H|H]; [injection H as <- <- <-; intros E; apply N; left; exact E|exact (F _ _ _ H)]. }
      * intros (pre & post & E & N & F). destruct pre as [|p pre]; cbn [List.app] in E.
        { injection E as E1 E2 E3 E4. subst. left. reflexivity. }
        { injection E as E1 E2. subst p. right. exists pre, post. split; [exact E2|]. split.
          - cbn [In]. intros [H|H]; [|exact (N H)]. exact (F g qs q (or_introl eq_refl) H).
          - intros g' q' s' I. exact (F g' q' s' (or_intror I)). }
Qed.
Lemma first_full_in fs f ps r : first_full fs f ps r <-> In ((f, ps), r) (dedup_full [] (full_mentions fs)).
Proof.
  rewrite dedup_full_first. unfold first_full. split; intros (pre & post & E & H); exists pre, post.
  - split; [exact E|]. split; [intros []|exact H].
  - split; [exact E|]. apply H.
Qed.
Lemma full_in fs f ps r : In ((f, ps), r) (full_mentions fs) -> In (f, ps) fs.
Proof.
  unfold full_mentions. rewrite in_flat_map. intros (x & I & H). apply in_map_iff in H. destruct H as (s & E & _).
  injection E as -> _. exact I.
Qed.

Lemma generated_list fs : usable fs ->
  exists ds, go_build (generator [] fs) = Some ds /\ NoDup (map fst ds) /\
    Forall2 (fun p x => fst x = to_lower (full_id (fst p) (snd p)) /\ device_matches (fst p) (snd p) (snd x)) (dedup [] (mentions fs)) ds.
Proof.
  intros [O U]. destruct (devices_value (dedup [] (mentions fs))) as (ds & E & F).
  { intros f r I. apply dedup_in in I. exact (U f r I). }
  pose proof (cases_distinct fs O) as C. pose proof (Forall2_keys _ _ _ _ F) as K.
  assert (N : NoDup (map fst ds)).
  { rewrite K. rewrite generator_dedup, map_map in C.
    rewrite (map_ext _ (fun p => r_case (render (fst p) (snd p)))); [exact C|].
    intros [f r]. symmetry. apply render_case. }
  exists ds. split; [|split; assumption].
  unfold go_build. rewrite (generator_dedup fs []), E.
  apply distinct_nodup in N. rewrite N. pose proof (funcs_distinct fs) as D.
  rewrite generator_dedup in D. apply distinct_nodup in D. rewrite D. reflexivity.
Qed.
Lemma all_params (l : list (pfile * (string * string))) : (forall f ps r, In ((f, ps), r) l -> forall p, In p ps -> plain_parameter p) ->
  exists qss, all_some (map (fun x => all_some (map go_param (snd x)))
      (map (fun x => (render (fst (fst x)) (snd x), map render_param (snd (fst x)))) l)) = Some qss /\
    Forall2 (fun x qs => Forall2 parameter_matches (snd (fst x)) qs) l qss.
Proof.
  induction l as [|((f, ps), r) l IH]; intros H; [exists []; split; [reflexivity|constructor]|].
  destruct IH as (qss & E & F); [intros f' ps' r' I; exact (H f' ps' r' (or_intror I))|].
  destruct (params_value ps (H f ps r (or_introl eq_refl))) as (qs & G & M).
  exists (qs :: qss). cbn [map all_some fst snd]. rewrite G, E. split; [reflexivity|constructor; assumption].
Qed.
Definition entry_ok (x : pfile * (string * string)) (y : string * (device * list gparam)) : Prop :=
  fst y = to_lower (full_id (fst (fst x)) (snd x)) /\ device_matches (fst (fst x)) (snd x) (fst (snd y)) /\
  Forall2 parameter_matches (snd (fst x)) (snd (snd y)).
Lemma joined (l : list (pfile * (string * string))) ds qss :
  Forall2 (fun p x => fst x = to_lower (full_id (fst p) (snd p)) /\ device_matches (fst p) (snd p) (snd x)) (map noparams l) ds ->
  Forall2 (fun x qs => Forall2 parameter_matches (snd (fst x)) qs) l qss ->
  Forall2 entry_ok l (map join (combine ds qss)) /\ map fst (map join (combine ds qss)) = map fst ds.
Proof.
  revert ds qss. induction l as [|x l IH]; intros ds qss F1 F2; cbn [map] in F1; inversion F1; inversion F2; subst; [split; [constructor|reflexivity]|].
  cbn [combine map]. destruct (IH _ _ H3 H8) as [A B]. split.
  - constructor; [|exact A]. destruct H1 as [K M]. split; [exact K|]. split; [exact M|exact H6].
  - cbn [join fst]. rewrite B. reflexivity.
Qed.
Lemma full_table fs : usable (map fst fs) -> (forall f ps p, In (f, ps) fs -> In p ps -> plain_parameter p) ->
  exists ds, go_full (generator_full [] fs) = Some ds /\
    (forall f ps r, first_full fs f ps r ->
       exists d qs, alookup (to_lower (full_id f r)) ds = Some (d, qs) /\ device_matches f r d /\ Forall2 parameter_matches ps qs) /\
    (forall k d qs, alookup k ds = Some (d, qs) ->
       exists f ps r, first_full fs f ps r /\ k = to_lower (full_id f r) /\ device_matches f r d /\ Forall2 parameter_matches ps qs).
Proof.
  intros U P. destruct (generated_list _ U) as (ds & E & N & F).
  destruct (all_params (dedup_full [] (full_mentions fs))) as (qss & E2 & F2).
  { intros f ps r I. apply dedup_full_first in I. destruct I as (pre & post & ME & _). intros p. apply (P f ps).
    apply (full_in fs f ps r). rewrite ME. apply in_or_app. right. left. reflexivity. }
  rewrite mentions_noparams, dedup_noparams in F. destruct (joined _ _ _ F F2) as [J K].
  exists (map join (combine ds qss)). split; [|split].
  - unfold go_full. rewrite generator_noparams, E, generator_full_dedup, E2. reflexivity.
  - intros f ps r I. apply first_full_in in I. destruct (Forall2_in_l _ _ _ _ J I) as ((k, (d, qs)) & Y & E1 & M & Q).
    cbn [fst snd] in *. subst k. exists d, qs. split; [|split; assumption]. apply alookup_in; [rewrite K; exact N|exact Y].
  - intros k d qs A. assert (I : In (k, (d, qs)) (map join (combine ds qss))).
    { clear - A. revert A. generalize (map join (combine ds qss)). clear. intros l A.
      induction l as [|(k', v) l IH]; [discriminate|]. cbn [alookup] in A.
      destruct (String.eqb_spec k k') as [->|_]; [injection A as ->; left; reflexivity|right; exact (IH A)]. }
    destruct (Forall2_in_r _ _ _ _ J I) as (((f, ps), r) & Y & E1 & M & Q). cbn [fst snd] in *.
    exists f, ps, r. split; [apply first_full_in; exact Y|]. split; [exact E1|split; assumption].
Qed.

(** ** The files of the repository *)
Definition int64b (z : Z) : bool := ((- 2 ^ 63 <=? z) && (z <? 2 ^ 63))%Z.
Lemma int64b_spec z : int64b z = true -> int64 z.
Proof. unfold int64b, int64. intros H. apply andb_prop in H. destruct H as [A B]. apply Z.leb_le in A. apply Z.ltb_lt in B. lia. Qed.
Definition sourceb (s : string) : bool := negb (contains s nul) && negb (contains s bom).
Definition plainb (p : jparam) : bool :=
  sourceb (jp_label p) && int64b (jp_id p) && int64b (jp_size p) && int64b (jp_min p) && int64b (jp_max p) &&
  forallb (fun o => int64b (fst o) && sourceb (snd o)) (jp_options p).
Lemma sourceb_spec s : sourceb s = true -> source_text s.
Proof. intros H. apply andb_prop in H. destruct H. apply source_bool; assumption. Qed.
Lemma plainb_spec p : plainb p = true -> plain_parameter p.
Proof.
  unfold plainb. intros H. apply andb_prop in H. destruct H as [H F]. apply andb_prop in H. destruct H as [H E].
  apply andb_prop in H. destruct H as [H D]. apply andb_prop in H. destruct H as [H C]. apply andb_prop in H. destruct H as [A B].
  split; [apply sourceb_spec; exact A|]. do 4 (split; [apply int64b_spec; assumption|]).
  intros o I. rewrite forallb_forall in F. specialize (F o I). apply andb_prop in F. destruct F.
  split; [apply int64b_spec|apply sourceb_spec]; assumption.
Qed.
Lemma full_usable : usable (map fst full_files).
Proof.
  assert (E : map fst full_files = files).
  { unfold full_files. assert (L : List.length files = List.length file_parameters) by (vm_cast_no_check (eq_refl 553%nat)).
    revert L. generalize files file_parameters. intros l. induction l as [|x l IH]; intros [|y m] H; try discriminate; [reflexivity|].
    cbn [combine map fst]. f_equal. apply IH. injection H as H. exact H. }
  rewrite E. exact files_usable.
Qed.
Lemma full_plain f ps p : In (f, ps) full_files -> In p ps -> plain_parameter p.
Proof.
  assert (E : forallb (fun x => forallb plainb (snd x)) full_files = true) by (vm_cast_no_check (eq_refl true)).
  intros I J. apply plainb_spec. rewrite forallb_forall in E. specialize (E _ I). cbn [snd] in E. rewrite forallb_forall in E. exact (E _ J).
Qed.
Lemma full_built : go_full (generator_full [] full_files) = Some full_devices.
Proof. vm_cast_no_check (eq_refl (Some full_devices)). Qed.
Lemma devices_full : map (fun x => (fst x, fst (snd x))) full_devices = devices.
Proof. vm_cast_no_check (eq_refl devices). Qed.
Lemma new_noparams m t i : device_new m t i = option_map fst (full_new m t i).
Proof.
  unfold device_new, full_new. rewrite <- devices_full. generalize full_devices (m ++ "_" ++ t ++ "_" ++ i). intros l k.
  induction l as [|(k', v) l IH]; [reflexivity|]. cbn [map alookup fst snd]. destruct (String.eqb k k'); [reflexivity|exact IH].
Qed.
Lemma full_sound m t i d qs : full_new m t i = Some (d, qs) ->
  exists f ps r, first_full full_files f ps r /\ m ++ "_" ++ t ++ "_" ++ i = to_lower (full_id f r) /\
    device_matches f r d /\ Forall2 parameter_matches ps qs.
Proof.
  intros H. destruct (full_table _ full_usable full_plain) as (ds & B & _ & T). rewrite full_built in B. injection B as <-.
  exact (T _ _ _ H).
Qed.
Lemma full_complete f ps r : first_full full_files f ps r ->
  exists d qs, full_new (to_lower (j_manufacturer_id f)) (to_lower (fst r)) (to_lower (snd r)) = Some (d, qs) /\
    device_matches f r d /\ Forall2 parameter_matches ps qs.
Proof.
  intros H. destruct (full_table _ full_usable full_plain) as (ds & B & T & _). rewrite full_built in B. injection B as <-.
  destruct (T _ _ _ H) as (d & qs & A & M). exists d, qs. split; [|exact M].
  unfold full_new. unfold full_id in A. rewrite !to_lower_append in A. exact A.
Qed.

(** ** Allowed values *)
Lemma allows_listed p q v : parameter_matches p q -> jp_options p <> [] ->
  (table_allows q v <-> In v (map fst (jp_options p))).
Proof.
  intros (_ & _ & _ & [(_ & F)|(E & _)]) N; [|contradiction]. unfold table_allows. rewrite in_map_iff. split.
  - intros (x & I & L). destruct (Forall2_in_r _ _ _ _ F I) as (o & O & A & B & _). exists o. split; [lia|exact O].
  - intros (o & E & O). destruct (Forall2_in_l _ _ _ _ F O) as (x & I & A & B & _). exists x. split; [exact I|lia].
Qed.
Lemma allows_range p q v : parameter_matches p q -> jp_options p = [] ->
  (table_allows q v <-> (jp_min p <= v <= jp_max p)%Z).
Proof.
  intros (_ & _ & _ & [(N & _)|(_ & x & E & A & B & _)]) O; [contradiction|]. unfold table_allows. rewrite E. split.
  - intros (y & [<-|[]] & L). lia.
  - intros L. exists x. split; [left; reflexivity|lia].
Qed.
Lemma Forall2_nth {A B} (R : A -> B -> Prop) l m : Forall2 R l m -> forall k,
  (forall x, nth_error l k = Some x -> exists y, nth_error m k = Some y /\ R x y) /\
  (forall x y, nth_error l k = Some x -> nth_error m k = Some y -> R x y).
Proof.
  induction 1 as [|a b l m H _ IH]; intros [|k]; split; cbn [nth_error]; try (intros; discriminate); try apply IH.
  - intros x E. injection E as <-. exists b. split; [reflexivity|exact H].
  - intros x y E F. injection E as <-. injection F as <-. exact H.
Qed.
Lemma first_same f ps r d qs : first_full full_files f ps r ->
  full_new (to_lower (j_manufacturer_id f)) (to_lower (fst r)) (to_lower (snd r)) = Some (d, qs) ->
  Forall2 parameter_matches ps qs.
Proof. intros F N. destruct (full_complete f ps r F) as (d' & qs' & E & _ & M). rewrite N in E. injection E as <- <-. exact M. Qed.
Lemma values_exact f ps r d qs k p q : first_full full_files f ps r ->
  full_new (to_lower (j_manufacturer_id f)) (to_lower (fst r)) (to_lower (snd r)) = Some (d, qs) ->
  nth_error ps k = Some p -> nth_error qs k = Some q ->
  (jp_options p = [] -> forall v, table_allows q v <-> file_allows p v) /\
  (jp_options p <> [] -> forall v, table_allows q v <-> In v (map fst (jp_options p))).
Proof.
  intros F N P Q. pose proof (proj2 (Forall2_nth _ _ _ (first_same _ _ _ _ _ F N) k) _ _ P Q) as M. split; intros O v.
  - rewrite (allows_range _ _ v M O). unfold file_allows. rewrite O. cbn [map In]. tauto.
  - exact (allows_listed _ _ v M O).
Qed.
Definition default_lost (p : jparam) : bool :=
  match jp_options p with [] => false | _ => true end &&
  ((jp_min p <=? jp_default p) && (jp_default p <=? jp_max p))%Z &&
  negb (existsb (Z.eqb (jp_default p)) (map fst (jp_options p))).
Lemma default_refuted : exists f ps r d qs k p q, first_full full_files f ps r /\
  full_new (to_lower (j_manufacturer_id f)) (to_lower (fst r)) (to_lower (snd r)) = Some (d, qs) /\
  nth_error ps k = Some p /\ nth_error qs k = Some q /\
  file_allows p (jp_default p) /\ ~ table_allows q (jp_default p) /\ gp_default q = "".
Proof.
  assert (X : existsb (fun x => existsb default_lost (snd (fst x))) (dedup_full [] (full_mentions full_files)) = true)
    by (vm_cast_no_check (eq_refl true)).
  apply existsb_exists in X. destruct X as (((f, ps), r) & I & X). cbn [fst snd] in X. apply first_full_in in I.
  apply existsb_exists in X. destruct X as (p & IP & X).
  destruct (full_complete f ps r I) as (d & qs & N & _ & M).
  destruct (In_nth_error _ _ IP) as [k K]. destruct (proj1 (Forall2_nth _ _ _ M k) p K) as (q & Q & PM).
  exists f, ps, r, d, qs, k, p, q. repeat (split; [assumption|]).
  unfold default_lost in X. apply andb_prop in X. destruct X as [X NO]. apply andb_prop in X. destruct X as [O R].
  apply andb_prop in R. destruct R as [R1 R2]. apply Z.leb_le in R1. apply Z.leb_le in R2.
  split; [left; lia|]. split.
  - rewrite (allows_listed p q _ PM) by (destruct (jp_options p); [discriminate|discriminate]).
    intros IN. apply Bool.negb_true_iff in NO. assert (Y : existsb (Z.eqb (jp_default p)) (map fst (jp_options p)) = true).
    { apply existsb_exists. exists (jp_default p). split; [exact IN|apply Z.eqb_refl]. } congruence.
  - assert (E : forallb (fun x => forallb (fun g => String.eqb (gp_default g) "") (snd (snd x))) full_devices = true)
      by (vm_cast_no_check (eq_refl true)).
    rewrite forallb_forall in E. unfold full_new in N.
    assert (IN : forall k (v : device * list gparam) l, alookup k l = Some v -> In (k, v) l).
    { clear. intros k v l. induction l as [|(k', v') l IH]; [discriminate|]. cbn [alookup].
      destruct (String.eqb_spec k k') as [->|_]; [intros A; injection A as ->; left; reflexivity|intros A; right; exact (IH A)]. }
    apply IN in N. specialize (E _ N). cbn [snd] in E. rewrite forallb_forall in E.
    apply String.eqb_eq. apply E. apply nth_error_In with k. exact Q.
Qed.
(** The first device of the repository with parameters. *)
Lemma some_parameters : exists f ps r, first_full full_files f ps r /\ (5 <= List.length ps)%nat /\
  existsb (fun p => match jp_options p with [] => true | _ => false end) ps = true /\
  existsb (fun p => match jp_options p with [] => false | _ => true end) ps = true.
Proof.
  assert (X : existsb (fun x => (5 <=? List.length (snd (fst x)))%nat &&
      (existsb (fun p => match jp_options p with [] => true | _ => false end) (snd (fst x)) &&
       existsb (fun p => match jp_options p with [] => false | _ => true end) (snd (fst x))))
    (dedup_full [] (full_mentions full_files)) = true) by (vm_cast_no_check (eq_refl true)).
  apply existsb_exists in X. destruct X as (((f, ps), r) & I & X). cbn [fst snd] in X. apply first_full_in in I.
  apply andb_prop in X. destruct X as [L X]. apply andb_prop in X. exists f, ps, r. split; [exact I|]. split; [apply Nat.leb_le; exact L|exact X].
Qed.
