(** Proofs about the events the application sees and about the example program. *)
From Verif Require Import ModelBase ModelReports ModelSerial ModelNodes ModelList ModelController.
From Verif Require Import ModelExample SpecController SpecNodes SpecCommands SpecExample.
From Verif Require Import ProofNodes ProofCommands ProofController ProofSystem.
From Coq Require Import Lia Ascii String.
Local Open Scope string_scope.

(** ** Events name known nodes *)
Definition named (st : cst) : Prop :=
  keyed st /\ Forall (fun e => knows st (event_node e)) (c_queue st) /\
  (forall i r, c_disc st = DcAdded i r -> knows st (Z.of_nat i + 1)).

Lemma enq_forall (P : event -> Prop) es : forall q, Forall P q -> Forall P es -> Forall P (fold_left enq es q).
Proof.
  induction es as [|e es IH]; intros q Q E; [exact Q|]. cbn [fold_left]. inversion E; subst. apply IH; [|assumption].
  unfold enq. destruct (List.length q <? 10)%nat; [|exact Q]. apply Forall_app. split; [exact Q|]. constructor; auto.
Qed.

Lemma update_touches st l st' o a : keyed st -> cstep st l = Some (Ok (st', o)) -> In (EUpdated a) (pushed o) ->
  touches a l.
Proof.
  intros K S I. destruct (keyed_step _ _ _ _ K S) as [_ U].
  assert (D : touches a l \/ ~ touches a l) by (destruct l; cbn; auto; apply Z.eq_decidable).
  destruct D as [D|D]; [exact D|]. specialize (U a D). exfalso. unfold ups in U.
  assert (J : In (EUpdated a) []); [|exact J]. rewrite <- U. apply filter_In. split; [exact I|]. apply Z.eqb_refl.
Qed.

Lemma touch_known st l st' o id : cstep st l = Some (Ok (st', o)) -> touches id l -> o <> [] -> knows st' id.
Proof.
  intros S T O. destruct (cstep_inv _ _ _ _ S); cbn [touches] in *; try contradiction.
  assert (id0 = id).
  { destruct l; cbn in *; try contradiction; congruence. }
  subst id0. unfold knows.
  match goal with |- context [pushes ?x ?y] => destruct (pushes_frame y x) as (_&G&_) end.
  rewrite G. cbn. rewrite zset_keys. now left.
Qed.

Lemma pushed_known st l st' o : named st -> cstep st l = Some (Ok (st', o)) ->
  Forall (fun e => knows st' (event_node e)) (pushed o).
Proof.
  intros (K & Q & D) S. apply Forall_forall. intros e I. destruct e as [a|a]; cbn [event_node].
  - pose proof (cstep_inv _ _ _ _ S) as C. destruct C; cbn in I; try contradiction.
    + destruct I as [I|[]]. injection I as <-. apply (step_known _ _ _ _ _ S). eapply D. eassumption.
    + rewrite pushed_events in I. apply in_map_iff in I. destruct I as (x & X & _). discriminate.
  - pose proof (update_touches _ _ _ _ _ K S I) as T. apply (touch_known _ _ _ _ _ S T). intros ->. exact I.
Qed.

Lemma named_step st l st' o : named st -> cstep st l = Some (Ok (st', o)) ->
  named st' /\ Forall (fun e => knows st' (event_node e)) (pushed o ++ received o).
Proof.
  intros N S. pose proof (pushed_known _ _ _ _ N S) as P. destruct N as (K & Q & D).
  destruct (keyed_step _ _ _ _ K S) as [K' _].
  assert (Q1 : Forall (fun e => knows st' (event_node e)) (c_queue st)).
  { eapply Forall_impl; [|exact Q]. intros e. apply (step_known _ _ _ _ _ S). }
  assert (D' : forall i r, c_disc st' = DcAdded i r -> knows st' (Z.of_nat i + 1)).
  { intros i r E. pose proof (cstep_inv _ _ _ _ S) as C. destruct C; cbn in E; try discriminate.
    all: try (apply (step_known _ _ _ _ _ S); eapply D; exact E).
    - injection E as <- <-. unfold knows. cbn. rewrite zset_keys. now left.
    - apply (step_known _ _ _ _ _ S). eapply D.
      match goal with H : context [pushes ?x ?y] |- _ => destruct (pushes_frame y x) as (_&_&_&_&G&_) end.
      rewrite G in E. exact E. }
  destruct (step_queue _ _ _ _ S) as [(e & -> & E)|[R E]].
  - rewrite E in Q1. inversion Q1; subst. split; [split; [exact K'|split; assumption]|].
    cbn. constructor; [assumption|constructor].
  - rewrite R, app_nil_r. split; [|exact P]. split; [exact K'|]. split; [|exact D'].
    rewrite E. apply enq_forall; assumption.
Qed.

Lemma named_run ls : forall st st' o, named st -> crun st ls = Some (Ok (st', o)) ->
  named st' /\ Forall (fun e => knows st' (event_node e)) (pushed o ++ received o).
Proof.
  induction ls as [|l ls IH]; intros st st' o N R.
  - injection R as <- <-. split; [exact N|]. constructor.
  - apply crun_cons in R. destruct R as (s1 & o1 & o2 & S & R & ->).
    destruct (named_step _ _ _ _ N S) as [N1 F1]. destruct (IH _ _ _ N1 R) as [N2 F2]. split; [exact N2|].
    rewrite pushed_app, received_app. rewrite !Forall_app in *. destruct F1 as [F1a F1b], F2 as [F2a F2b].
    assert (M : forall l, Forall (fun e => knows s1 (event_node e)) l -> Forall (fun e => knows st' (event_node e)) l).
    { intros l'. apply Forall_impl. intros e X.
      clear - R X. revert s1 st' o2 R X. induction ls as [|l0 ls IH]; intros s1 st' o2 R X.
      - injection R as <- _. exact X.
      - apply crun_cons in R. destruct R as (s2 & p1 & p2 & S & R & ->).
        eapply IH; [exact R|]. eapply step_known; eassumption. }
    auto.
Qed.

Lemma named_load ns : forall st, named st -> (forall i r, c_disc st <> DcAdded i r) -> named (load_nodes st ns).
Proof.
  induction ns as [|n ns IH]; intros st N D; [exact N|]. cbn [load_nodes]. apply IH.
  - destruct N as (K & Q & _). split; [|split].
    + exact (keyed_load [n] st K).
    + change (c_queue (push (add_node (with_setup st (n_id n)) n) (EDiscovered (n_id n))))
        with (fold_left enq [EDiscovered (n_id n)] (c_queue st)).
      apply enq_forall.
      * eapply Forall_impl; [|exact Q]. intros e X. apply (proj2 (load_known [n] st _)). now left.
      * constructor; [|constructor]. apply (proj2 (load_known [n] st _)). right. now left.
    + intros i r X. exfalso. exact (D i r X).
  - intros i r X. exact (D i r X).
Qed.
Lemma named_start file ns : named (loaded file ns).
Proof.
  apply named_load; [|intros i r; discriminate]. split; [intros id n; discriminate|]. split; [constructor|].
  intros i r. discriminate.
Qed.

Lemma events_known file ns ls st o e : crun (loaded file ns) ls = Some (Ok (st, o)) ->
  In e (pushed o ++ received o) -> exists n, list_get (Some (c_nodes st)) (event_node e) = Some n /\
    n_id n = event_node e.
Proof.
  intros R I. destruct (named_run _ _ _ _ (named_start file ns) R) as [(K & _) F].
  rewrite Forall_forall in F. specialize (F e I). unfold knows in F. rewrite zlookup_key in F.
  cbn [list_get]. destruct (zlookup (event_node e) (c_nodes st)) as [n|] eqn:Z; [|congruence].
  exists n. split; [reflexivity|]. exact (K _ _ Z).
Qed.
Lemma handled file ns ls st o e : crun (loaded file ns) ls = Some (Ok (st, o)) -> In e (received o) ->
  handle_event st e = Ok tt.
Proof.
  intros R I. destruct (events_known file ns ls st o e R) as (n & G & _); [apply in_or_app; now right|].
  unfold handle_event. destruct e; cbn [event_node] in G; rewrite G; reflexivity.
Qed.

(** ** Numerals *)
Lemma digit_spec c d : digit_of c = Some d <-> digit (String c "") d.
Proof.
  split.
  - destruct c as [[] [] [] [] [] [] [] []]; vm_compute; intros H; try discriminate; injection H as <-; constructor.
  - intros H. inversion H; subst; reflexivity.
Qed.
Lemma digits_app s : forall acc t, digits_from acc (s ++ t) =
  match digits_from acc s with Some v => digits_from v t | None => None end.
Proof.
  induction s as [|c s IH]; intros acc t; [reflexivity|]. cbn [append digits_from].
  destruct (digit_of c); [apply IH|reflexivity].
Qed.
Lemma digit_one t d : digit t d -> exists c, t = String c "" /\ digit_of c = Some d.
Proof. intros H. inversion H; subst; eexists; (split; [reflexivity|reflexivity]). Qed.

Lemma decimal_digits s v : decimal s v -> s <> "" /\ digits_from 0 s = Some v.
Proof.
  induction 1 as [s d D|s v t d _ [N IH] D].
  - apply digit_one in D. destruct D as (c & -> & E). split; [discriminate|]. cbn [digits_from]. rewrite E. reflexivity.
  - apply digit_one in D. destruct D as (c & -> & E). split; [destruct s; [contradiction|discriminate]|].
    rewrite digits_app, IH. cbn [digits_from]. rewrite E. reflexivity.
Qed.
Lemma app_assoc_s (a b c : string) : (a ++ b) ++ c = a ++ (b ++ c).
Proof. induction a as [|x a IH]; [reflexivity|]. cbn [append]. rewrite IH. reflexivity. Qed.
Lemma digits_decimal s : forall p acc v, decimal p acc -> digits_from acc s = Some v -> decimal (p ++ s) v.
Proof.
  induction s as [|c s IH]; intros p acc v D E; cbn [digits_from] in E.
  - injection E as <-. replace (p ++ "") with p; [exact D|]. clear. induction p as [|x p IH]; [reflexivity|].
    cbn [append]. rewrite <- IH. reflexivity.
  - destruct (digit_of c) as [d|] eqn:Dc; [|discriminate].
    change (String c s) with (String c "" ++ s). rewrite <- app_assoc_s. eapply IH; [|exact E].
    constructor; [exact D|]. apply digit_spec. exact Dc.
Qed.
Lemma decimal_iff s v : decimal s v <-> s <> "" /\ digits_from 0 s = Some v.
Proof.
  split; [apply decimal_digits|]. intros [N E]. destruct s as [|c s]; [contradiction|]. cbn [digits_from] in E.
  destruct (digit_of c) as [d|] eqn:Dc; [|discriminate]. change (String c s) with (String c "" ++ s).
  eapply digits_decimal; [|exact E]. constructor. apply digit_spec. exact Dc.
Qed.

Definition fits (v : Z) : option Z := if ((- 2 ^ 63 <=? v) && (v <? 2 ^ 63))%Z then Some v else None.
Lemma fits_iff v x : fits v = Some x <-> x = v /\ (- 2 ^ 63 <= x < 2 ^ 63)%Z.
Proof.
  unfold fits. destruct (Z.leb_spec (- 2 ^ 63) v), (Z.ltb_spec v (2 ^ 63)); cbn [andb]; split; intros G.
  all: try (injection G as <-; lia). all: try discriminate. all: try (destruct G as [-> G]; lia || reflexivity).
Qed.
Definition unsigned (neg : bool) (ds : string) : option Z :=
  match ds with
  | EmptyString => None
  | _ => match digits_from 0 ds with
         | None => None
         | Some v => fits (if neg then (- v)%Z else v)
         end
  end.
Lemma unsigned_iff neg ds x : unsigned neg ds = Some x <->
  exists v, decimal ds v /\ x = (if neg then - v else v)%Z /\ (- 2 ^ 63 <= x < 2 ^ 63)%Z.
Proof.
  split.
  - intros E. unfold unsigned in E. destruct ds as [|c r] eqn:Ds; [discriminate|]. rewrite <- Ds in *.
    destruct (digits_from 0 ds) as [v|] eqn:V; [|discriminate]. apply fits_iff in E. exists v. split; [|exact E].
    apply decimal_iff. split; [congruence|exact V].
  - intros (v & D & X). apply decimal_iff in D. destruct D as [N V]. unfold unsigned.
    destruct ds as [|c r]; [contradiction|]. rewrite V. apply fits_iff. exact X.
Qed.
Lemma first_digit s v : decimal s v -> exists c r, s = String c r /\ digit_of c <> None.
Proof.
  intros D. apply decimal_iff in D. destruct D as [N E]. destruct s as [|c r]; [contradiction|]. exists c, r.
  split; [reflexivity|]. cbn [digits_from] in E. destruct (digit_of c); [discriminate|discriminate].
Qed.
Lemma atoi_unfold s : atoi s = match s with
  | String c r => if Ascii.eqb c "-" then unsigned true r else if Ascii.eqb c "+" then unsigned false r
                  else unsigned false s
  | EmptyString => None end.
Proof.
  destruct s as [|c r]; [reflexivity|]. destruct c as [[] [] [] [] [] [] [] []]; reflexivity.
Qed.
Lemma atoi_iff s id : atoi s = Some id <-> names s id.
Proof.
  rewrite atoi_unfold. split.
  - destruct s as [|c r]; [discriminate|].
    destruct (Ascii.eqb_spec c "-") as [->|]; [|destruct (Ascii.eqb_spec c "+") as [->|]];
      intros E; apply unsigned_iff in E; destruct E as (v & D & -> & B); (split; [|exact B]).
    + exact (numeral_minus _ _ D).
    + exact (numeral_plus _ _ D).
    + exact (numeral_plain _ _ D).
  - intros [N B]. destruct N as [s v D|s v D|s v D].
    + destruct (first_digit _ _ D) as (c & r & -> & F).
      destruct (Ascii.eqb_spec c "-") as [->|]; [exfalso; apply F; reflexivity|].
      destruct (Ascii.eqb_spec c "+") as [->|]; [exfalso; apply F; reflexivity|].
      apply unsigned_iff. exists v. auto.
    + cbn [append]. cbn [Ascii.eqb Bool.eqb]. apply unsigned_iff. exists v. auto.
    + cbn [append]. cbn [Ascii.eqb Bool.eqb]. apply unsigned_iff. exists v. auto.
Qed.
Lemma names_unique s a b : names s a -> names s b -> a = b.
Proof. rewrite <- !atoi_iff. congruence. Qed.

(** ** The server *)
Lemma node_answers st s : answers st s (http_node st s) 200.
Proof.
  unfold answers, http_node. split; [|split].
  - intros id N I. apply atoi_iff in N. rewrite N. apply zlookup_key in I. cbn [list_get].
    destruct (zlookup id (c_nodes st)); [reflexivity|congruence].
  - intros id N I. apply atoi_iff in N. rewrite N. cbn [list_get].
    destruct (zlookup id (c_nodes st)) eqn:Z; [|reflexivity]. exfalso. apply I. apply zlookup_key. congruence.
  - intros H. destruct (atoi s) as [id|] eqn:A; [|reflexivity]. exfalso. apply (H id). apply atoi_iff. exact A.
Qed.
Lemma control_answers st s a :
  answers st s (fst (http_control st s a)) (if in_dec string_dec a ["on"; "off"] then 200 else 404).
Proof.
  assert (X : forall A (x y : A), (if (a =? "on")%string then x else if (a =? "off")%string then x else y) =
    if in_dec string_dec a ["on"; "off"] then x else y).
  { intros A x y. destruct (String.eqb_spec a "on") as [->|]; [reflexivity|].
    destruct (String.eqb_spec a "off") as [->|]; [reflexivity|].
    destruct (in_dec string_dec a ["on"; "off"]) as [[I|[I|[]]]|]; congruence. }
  unfold answers, http_control. split; [|split].
  - intros id N I. apply atoi_iff in N. rewrite N. apply zlookup_key in I. cbn [list_get].
    destruct (zlookup id (c_nodes st)); [|congruence]. rewrite <- X.
    destruct (a =? "on")%string; [reflexivity|]. destruct (a =? "off")%string; reflexivity.
  - intros id N I. apply atoi_iff in N. rewrite N. cbn [list_get].
    destruct (zlookup id (c_nodes st)) eqn:Z; [|reflexivity]. exfalso. apply I. apply zlookup_key. congruence.
  - intros H. destruct (atoi s) as [id|] eqn:A; [|reflexivity]. exfalso. apply (H id). apply atoi_iff. exact A.
Qed.
Lemma control_sends file ns ls st o s a id n nb : crun (loaded file ns) ls = Some (Ok (st, o)) ->
  names s id -> list_get (Some (c_nodes st)) id = Some n -> low_byte id nb ->
  let sent := snd (http_control st s a) in
  (a = "on" -> supports n x25 -> sent = [binary_set nb xff]) /\
  (a = "off" -> supports n x25 -> sent = [binary_set nb x00]) /\
  (a = "on" -> ~ supports n x25 -> supports n x26 -> sent = [multilevel_set nb x63]) /\
  (a = "off" -> ~ supports n x25 -> supports n x26 -> sent = [multilevel_set nb x00]) /\
  (~ supports n x25 -> ~ supports n x26 -> sent = []) /\
  (a <> "on" -> a <> "off" -> sent = []).
Proof.
  intros R N G B. destruct (named_run _ _ _ _ (named_start file ns) R) as [(K & _) _].
  pose proof (K _ _ G) as I. rewrite <- I in B. destruct (node_switch_spec n nb B) as (A1 & A2 & A3).
  apply atoi_iff in N. unfold http_control. rewrite N, G. cbv zeta.
  split; [intros ->; cbn; intros H; apply A1, H|]. split; [intros ->; cbn; intros H; apply A1, H|].
  split; [intros ->; cbn; intros H1 H2; apply (A2 H1 H2)|]. split; [intros ->; cbn; intros H1 H2; apply (A2 H1 H2)|].
  split.
  - intros H1 H2. destruct (A3 H1 H2) as [-> ->]. destruct (a =? "on")%string; [reflexivity|].
    destruct (a =? "off")%string; reflexivity.
  - intros H1 H2. destruct (String.eqb_spec a "on"); [contradiction|].
    destruct (String.eqb_spec a "off"); [contradiction|]. reflexivity.
Qed.
Lemma nothing_else st s a cmd : In cmd (snd (http_control st s a)) ->
  exists id, names s id /\ In id (map fst (c_nodes st)).
Proof.
  unfold http_control. destruct (atoi s) as [id|] eqn:A; [|intros []]. cbn [list_get].
  destruct (zlookup id (c_nodes st)) eqn:Z; [|intros []]. intros _. exists id. split; [apply atoi_iff, A|].
  apply zlookup_key. congruence.
Qed.
