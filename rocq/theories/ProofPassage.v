(** What the reader takes from the buffer was received in one piece. *)
From Verif Require Import ModelBase ModelReports ModelSerial ModelConnection SpecFrame SpecDecode
  SpecConnection SpecPassage ProofBase ProofSerial ProofMessage SpecMessage ProofContent ProofConnection ProofLink
  ProofWitness ProofReader.
From Coq Require Import Lia.

Definition prefix (c p : list byte) : Prop := exists rest, p = c ++ rest.

Lemma passages_head ls : forall cur, exists x ps, passages cur ls = (cur ++ x) :: ps.
Proof.
  assert (N : forall (cur : list byte) ps, exists x ps', cur :: ps = (cur ++ x) :: ps')
    by (intros cur ps; exists [], ps; now rewrite app_nil_r).
  induction ls as [|l ls IH]; intros cur; cbn [passages]; [apply N|].
  destruct l; try apply IH; try apply N. destruct stale; [apply N|].
  destruct (IH (cur ++ chunk)) as [x [ps ->]]. exists (chunk ++ x), ps. now rewrite app_assoc.
Qed.
Lemma prefixes_nil ps : exists cs, List.concat cs = [] /\ Forall2 prefix cs ps.
Proof.
  exists (map (fun _ => []) ps). split; [induction ps; [reflexivity|assumption]|].
  induction ps as [|p ps IH]; constructor; [now exists p|assumption].
Qed.

Section Passage.
Context (R : byte -> byte -> Prop) (R_refl : forall b, R b b).

Lemma R_list l : Forall2 R l l.
Proof. induction l; constructor; auto. Qed.
Lemma R_cut a b l : Forall2 R (a ++ b) l -> exists l1 l2, l = l1 ++ l2 /\ Forall2 R a l1 /\ Forall2 R b l2.
Proof. intros H. apply Forall2_app_inv_l in H. destruct H as [l1 [l2 [A [B ->]]]]. eauto. Qed.
Lemma R_zero k l l' : (forall x, R x00 x) -> Forall2 R l l' -> Forall2 R (set_nth k x00 l) l'.
Proof.
  intros Z H. revert k. induction H as [|x y l l' Hx H IH]; intros k; [destruct k; constructor|].
  destruct k; cbn; constructor; auto.
Qed.

Lemma passage_inv ls : forall s s' tr cur c0 c1, run s ls = Some (s', tr) -> front_ok s ->
  cur = c0 ++ c1 -> Forall2 R (els (c_buf s)) c1 -> (forall x, R x00 x) \/ ~ In (EvSkip SOF) tr ->
  (exists d cs rest ps, Forall2 R (consumed tr) (d ++ List.concat cs) /\
     passages cur ls = (c0 ++ d ++ rest) :: ps /\ Forall2 prefix cs ps) /\
  (forall f, In f (frames_taken tr) -> exists p g, In p (passages cur ls) /\ part_of g p /\ Forall2 R f g).
Proof.
  induction ls as [|l ls IH]; intros s s' tr cur c0 c1 H FO EC B Z.
  - cbn in H. injection H as <- <-. split; [|intros f []].
    exists [], [], c1, []. cbn. rewrite EC. repeat split; constructor.
  - cbn [run] in H. destruct (step s l) as [[s1 e1]|] eqn:E; [|discriminate].
    destruct (run s1 ls) as [[s2 e2]|] eqn:E2; [|discriminate]. injection H as <- <-.
    destruct (c_crashed s1) eqn:C1.
    { assert (ls = []).
      { destruct ls as [|x ls]; [reflexivity|]. cbn [run] in E2. unfold step in E2. rewrite C1 in E2. discriminate. }
      subst ls. cbn in E2. injection E2 as <- <-. rewrite app_nil_r.
      pose proof (step_crash_unread _ _ _ _ E C1) as [F [_ [Cn _]]]. rewrite F, Cn. split; [|intros f []].
      destruct (passages_head [l] cur) as [x [ps ->]]. destruct (prefixes_nil ps) as [cs [Ec Hc]].
      exists [], cs, (c1 ++ x), ps. rewrite Ec, EC. split; [constructor|]. split; [now rewrite <- app_assoc|exact Hc]. }
    pose proof (front_step _ _ _ _ E C1 FO) as FO1.
    assert (Z2 : (forall x, R x00 x) \/ ~ In (EvSkip SOF) e2)
      by (destruct Z as [Z|Z]; [now left|right; intros I; apply Z, in_or_app; now right]).
    rewrite consumed_app, frames_taken_app. apply step_reader in E; [|exact C1].
    (* nothing is taken, the buffer stays *)
    assert (STAY : c_buf s1 = c_buf s -> consumed e1 = [] -> frames_taken e1 = [] -> passages cur (l :: ls) = passages cur ls ->
      (exists d cs rest ps, Forall2 R (consumed e1 ++ consumed e2) (d ++ List.concat cs) /\
         passages cur (l :: ls) = (c0 ++ d ++ rest) :: ps /\ Forall2 prefix cs ps) /\
      (forall f, In f (frames_taken e1 ++ frames_taken e2) ->
         exists p g, In p (passages cur (l :: ls)) /\ part_of g p /\ Forall2 R f g)).
    { intros Eb Ec Ef Ep. rewrite Ec, Ef, Ep. cbn [app].
      apply (IH s1 s2 e2 cur c0 c1); auto. now rewrite Eb. }
    (* [k] was taken *)
    assert (TAKE : forall k k' tl tl', passages cur (l :: ls) = passages cur ls ->
       c1 = k' ++ tl' -> Forall2 R k k' -> els (c_buf s1) = tl -> Forall2 R tl tl' -> consumed e1 = k ->
       (frames_taken e1 = [] \/ frames_taken e1 = [k]) ->
      (exists d cs rest ps, Forall2 R (consumed e1 ++ consumed e2) (d ++ List.concat cs) /\
         passages cur (l :: ls) = (c0 ++ d ++ rest) :: ps /\ Forall2 prefix cs ps) /\
      (forall f, In f (frames_taken e1 ++ frames_taken e2) ->
         exists p g, In p (passages cur (l :: ls)) /\ part_of g p /\ Forall2 R f g)).
    { intros k k' tl tl' Ep E1 Rk Et Rt Ec Ef. rewrite Ep, Ec.
      destruct (IH s1 s2 e2 cur (c0 ++ k') tl') as [[d [cs [rest [ps [A [P Q]]]]]] FR]; auto.
      { now rewrite EC, E1, app_assoc. } { now rewrite Et. }
      split.
      - exists (k' ++ d), cs, rest, ps. rewrite <- app_assoc. split; [now apply Forall2_app|].
        split; [|exact Q]. rewrite P. now rewrite <- !app_assoc.
      - intros f I. apply in_app_or in I. destruct I as [I|I]; [|auto].
        destruct Ef as [Ef|Ef]; rewrite Ef in I; [contradiction|]. destruct I as [<-|[]].
        exists ((c0 ++ k') ++ d ++ rest), k'. rewrite P. split; [now left|]. split; [|exact Rk].
        exists c0, (d ++ rest). now rewrite <- app_assoc. }
    destruct E as [l s1 ev RL Eb [Fu [_ [Cu _]]] _|s1 _ _ Eb|st c room s1 _ _ Eb|s1 _ _ Eb|o a s1 _ _ _ Eb
        |o a k s1 _ _ _ Eb|o a b tl r p lo s1 _ _ _ _ Eb _|o a b tl r d s1 _ E SH D Eb _
        |o a f tail r d s1 ev2 ev3 _ E Ff _ Eb _ [F2 [_ [C2 _]]] SP|b m p v lo s1 ev M _ Eb SP].
    + apply STAY; auto. destruct l; try discriminate; reflexivity.
    + cbn [passages consumed frames_taken flat_map app].
      destruct (IH s1 s2 e2 [] [] []) as [[d [cs [rest [ps [A [P Q]]]]]] FR]; auto.
      { rewrite Eb. constructor. }
      split.
      * exists [], (d :: cs), c1, ((d ++ rest) :: ps). cbn. rewrite EC. split; [exact A|]. rewrite P.
        split; [reflexivity|]. constructor; [now exists rest|exact Q].
      * intros f I. destruct (FR f I) as [q [g [I1 X]]]. exists q, g. split; [now right|exact X].
    + cbn [passages consumed frames_taken flat_map app]. destruct st.
      * destruct (IH s1 s2 e2 c [] c) as [[d [cs [rest [ps [A [P Q]]]]]] FR]; auto.
        { rewrite Eb. apply R_list. }
        split.
        -- exists [], (d :: cs), c1, ((d ++ rest) :: ps). cbn. rewrite EC. split; [exact A|]. rewrite P.
           split; [reflexivity|]. constructor; [now exists rest|exact Q].
        -- intros f I. destruct (FR f I) as [q [g [I1 X]]]. exists q, g. split; [now right|exact X].
      * apply (IH s1 s2 e2 (cur ++ c) c0 (c1 ++ c)); auto.
        { now rewrite EC, app_assoc. }
        { rewrite Eb. apply Forall2_app; [exact B|apply R_list]. }
    + now apply STAY.
    + now apply STAY.
    + now apply STAY.
    + now apply STAY.
    + destruct (decode_effect _ _ _ D) as [_ [Ed|[n [rest [E3 [L Ed]]]]]].
      * rewrite E in B. inversion B as [|x y ? ? Hx Hl E3 E4]; subst x.
        apply (TAKE [b] [y] tl l'); auto; rewrite ?Eb, ?Ed, ?E; auto.
      * destruct Z as [Z|Z].
        -- assert (B' : Forall2 R (els d) c1).
           { rewrite Ed. unfold zeroed. cbn [els]. now apply R_zero. }
           assert (Hd : exists t, els d = b :: t).
           { rewrite Ed. unfold zeroed. cbn [els]. rewrite E3 in E. injection E as <- <-. rewrite E3.
             replace (b2n n + 2 - 1)%nat with (S (b2n n)) by lia. cbn [set_nth]. eauto. }
           destruct Hd as [t Hd]. rewrite Hd in B'. inversion B' as [|x y ? ? Hx Hl E5 E4]; subst x.
           apply (TAKE [b] [y] t l'); auto. rewrite Eb, Hd. reflexivity.
        -- exfalso. rewrite E3 in E. injection E as <- <-. apply Z. now left.
    + destruct (spawn_reads _ _ _ _ SP) as [F3 [_ [C3 _]]].
      rewrite E in B. destruct (R_cut _ _ _ B) as [l1 [l2 [-> [B1 B2]]]].
      apply (TAKE f l1 tail l2); auto.
      * rewrite !consumed_app, C2, C3. cbn. apply app_nil_r.
      * right. rewrite !frames_taken_app, F2, F3. reflexivity.
    + destruct (spawn_reads _ _ _ _ SP) as [F3 [_ [C3 _]]].
      destruct (FO _ _ _ _ _ M) as [tl Hb]. rewrite Hb in B.
      inversion B as [|x y ? ? Hx Hl E3 E4]; subst x.
      apply (TAKE [b] [y] tl l'); auto.
      * rewrite Eb, Hb. reflexivity.
      * rewrite consumed_app, C3. reflexivity.
      * left. rewrite frames_taken_app, F3. reflexivity.
Qed.
End Passage.

(** ** C97 *)
Lemma front_init : front_ok init.
Proof. intros b m p v lo M. discriminate. Qed.
Lemma equal_list (l l' : list byte) : Forall2 eq l l' -> l = l'.
Proof. intros H. induction H; congruence. Qed.

Theorem frames_received_wiped ls s tr f : run init ls = Some (s, tr) -> In f (frames_taken tr) ->
  exists p g, In p (passages [] ls) /\ part_of g p /\ wiped f g.
Proof.
  intros H. apply (passage_inv (fun g s => g = s \/ g = x00) (fun b => or_introl eq_refl) ls init s tr [] [] []);
    auto using front_init. constructor.
Qed.

Theorem frames_received ls s tr f : run init ls = Some (s, tr) -> ~ In (EvSkip SOF) tr -> In f (frames_taken tr) ->
  exists p, In p (passages [] ls) /\ part_of f p.
Proof.
  intros H N I. destruct (passage_inv eq (fun b => eq_refl) ls init s tr [] [] []) as [_ F]; auto using front_init; [constructor|].
  destruct (F f I) as [p [g [Ip [P E]]]]. apply equal_list in E. subst g. eauto.
Qed.

Theorem bytes_in_order ls s tr : run init ls = Some (s, tr) -> ~ In (EvSkip SOF) tr ->
  exists cs, consumed tr = List.concat cs /\ Forall2 (fun c p => exists rest, p = c ++ rest) cs (passages [] ls).
Proof.
  intros H N. destruct (passage_inv eq (fun b => eq_refl) ls init s tr [] [] []) as [[d [cs [rest [ps [A [P Q]]]]]] _];
    auto using front_init; [constructor|].
  exists (d :: cs). apply equal_list in A. split; [exact A|]. rewrite P. constructor; [now exists rest|exact Q].
Qed.

Definition part_of_b (f p : list byte) : bool :=
  existsb (fun k => if list_eq_dec Byte.byte_eq_dec (firstn (List.length f) (skipn k p)) f then true else false)
    (seq 0 (S (List.length p))).
Lemma part_of_check f p : part_of f p -> part_of_b f p = true.
Proof.
  intros [a [b ->]]. apply existsb_exists. exists (List.length a). split.
  - apply in_seq. rewrite app_length. lia.
  - rewrite skipn_app, skipn_all, Nat.sub_diag. cbn [app skipn].
    rewrite firstn_app, firstn_all, Nat.sub_diag. cbn [firstn]. rewrite app_nil_r.
    now destruct (list_eq_dec Byte.byte_eq_dec f f).
Qed.

(** A frame damaged in one byte, behind two noise bytes. *)
Definition disturbed : list byte := [x01; x05] ++ [x01; x09; x00; x04; x77; x05; x03; x25; x03; xff; x2d].
Lemma phantom_frame : exists ls s tr, run init ls = Some (s, tr) /\
  (arrived tr = disturbed /\ passages [] ls = [[]; disturbed] /\ never_stale tr /\ connects ls = 1%nat /\
   frames_taken tr = [switch_frame] /\ ~ part_of switch_frame disturbed /\
   called_back tr = report_of switch_frame /\ report_of switch_frame <> []).
Proof.
  pose (ls := [LConnect; LRead false disturbed 0; LIter [] []; LIter [] []; LIter [] []; LIter [] []; LCallback 0]).
  assert (W : match run init ls with
     | Some (s, tr) => arrived tr = disturbed /\ connects ls = 1%nat /\ frames_taken tr = [switch_frame] /\
         called_back tr = report_of switch_frame /\
         forallb (fun e => match e with EvArrive true _ => false | _ => true end) tr = true
     | None => False end) by (vm_compute; tauto).
  destruct (run init ls) as [[s tr]|] eqn:E; [|contradiction]. exists ls, s, tr.
  destruct W as [W1 [W2 [W3 [W4 W5]]]]. split; [exact E|].
  split; [exact W1|]. split; [reflexivity|]. split.
  { intros st c I. rewrite forallb_forall in W5. specialize (W5 _ I). now destruct st. }
  split; [exact W2|]. split; [exact W3|]. split.
  { intros P. apply part_of_check in P. vm_compute in P. discriminate. }
  split; [exact W4|]. clear. vm_compute. discriminate.
Qed.

Lemma cut_twice : exists ls s tr, run init ls = Some (s, tr) /\
  (passages [] ls = [[]; [SOF; x09]; wakeup_frame ++ [SOF]; switch_frame] /\ ~ In (EvSkip SOF) tr /\
   frames_taken tr = [wakeup_frame; switch_frame]).
Proof.
  pose (ls := [LConnect; LRead false [SOF; x09] 0; LIter [] []; LRead true (wakeup_frame ++ [SOF]) 0; LIter [] []; LIter [] [];
               LReadFail; LConnect; LRead false switch_frame 0; LIter [] []]).
  assert (W : match run init ls with
     | Some (s, tr) => passages [] ls = [[]; [SOF; x09]; wakeup_frame ++ [SOF]; switch_frame] /\
         frames_taken tr = [wakeup_frame; switch_frame] /\
         forallb (fun e => match e with EvSkip x01 => false | _ => true end) tr = true
     | None => False end) by (vm_compute; tauto).
  destruct (run init ls) as [[s tr]|] eqn:E; [|contradiction]. exists ls, s, tr.
  destruct W as [W1 [W2 W3]]. split; [exact E|]. split; [exact W1|]. split; [|exact W2].
  intros I. rewrite forallb_forall in W3. specialize (W3 _ I). discriminate.
Qed.
