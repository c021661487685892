(** Proofs about received frames reaching everybody they answer. *)
From Verif Require Import ModelBase ModelReports ModelSerial ModelConnection.
From Verif Require Import SpecFrame SpecDecode SpecMessage SpecConnection.
From Verif Require Import ProofBase ProofSerial ProofMessage ProofConnection ProofLink ProofReader.
From Coq Require Import Lia Permutation.

Lemma pick_complete order : forall l p, In p l -> exists q, In q (pick order l) /\ p_id q = p_id p.
Proof.
  induction order as [|i r IH]; intros l p H; cbn [pick]; [exists p; auto|].
  destruct (find_pkg i l) as [q|] eqn:E; [|exact (IH l p H)].
  apply find_pkg_Some in E. destruct E as [E1 E2].
  destruct (Nat.eq_dec (p_id p) i) as [X|X].
  - exists q. split; [left; reflexivity|congruence].
  - destruct (IH (del_pkg i l) p) as (q' & Q1 & Q2); [apply del_pkg_In; auto|]. exists q'. split; [right; exact Q1|exact Q2].
Qed.

Lemma deliver_all buf m accepts ps : forall s s' ev p, deliver buf m accepts ps s = (s', ev) -> c_crashed s' = false ->
  In p ps -> pkg_match p buf = Ok true -> In (p_id p) (c_open s) ->
  In (EvClose (p_id p)) ev /\
  (In (p_id p) accepts -> ~ In (p_id p) (c_fetch s) -> In (EvDeliver (p_id p) m) ev).
Proof.
  induction ps as [|q r IH]; intros s s' ev p H C I M O; [destruct I|]. cbn [deliver] in H.
  destruct (pkg_match q buf) as [[|]|e|] eqn:PM.
  - destruct (close_pkg (p_id q) s) as [s1 ev1] eqn:E1.
    set (s2 := set_c_inflight (del_pkg (p_id q) (c_inflight s1)) s1) in *.
    assert (F2 : c_fetch s2 = c_fetch s) by (unfold s2; rewrite (close_pkg_fields _ _ _ _ E1); reflexivity).
    destruct (deliver buf m accepts r s2) as [s3 ev3] eqn:E3.
    assert (EV : exists pre, ev = pre ++ ev1 ++ ev3 /\ s' = s3 /\
      (mem (p_id q) (c_open s) && mem (p_id q) accepts && negb (mem (p_id q) (c_fetch s)) = true -> pre = [EvDeliver (p_id q) m])).
    { destruct (mem (p_id q) (c_open s) && mem (p_id q) accepts && negb (mem (p_id q) (c_fetch s))).
      - destruct (p_want q), m as [mm|]; injection H as <- <-; try (conn_simpl_in C; discriminate C);
          (eexists [_]; split; [reflexivity|]; auto).
      - injection H as <- <-. exists []. split; [reflexivity|]. split; [reflexivity|discriminate]. }
    destruct EV as (pre & -> & -> & PRE).
    destruct (Nat.eq_dec (p_id q) (p_id p)) as [X|X].
    + rewrite <- X in *. pose proof O as O'. apply mem_In in O'. unfold close_pkg in E1. rewrite O' in E1.
      injection E1 as <- <-. split; [apply in_or_app; right; left; reflexivity|]. intros A F.
      rewrite PRE; [left; reflexivity|]. apply mem_In in A. apply mem_not_In in F. rewrite O', A, F. reflexivity.
    + destruct I as [->|I]; [contradiction|].
      assert (O2 : In (p_id p) (c_open s2)).
      { unfold s2. conn_simpl. unfold close_pkg in E1. destruct (mem (p_id q) (c_open s)); injection E1 as <- <-; [|exact O].
        conn_simpl. unfold remove_id. apply filter_In. split; [exact O|]. apply negb_true_iff, Nat.eqb_neq. auto. }
      destruct (IH _ _ _ _ E3 C I M O2) as [A B]. rewrite F2 in B.
      split; [apply in_or_app; right; apply in_or_app; right; exact A|].
      intros A1 A2. apply in_or_app; right; apply in_or_app; right. auto.
  - destruct I as [->|I]; [rewrite M in PM; discriminate|]. exact (IH _ _ _ _ H C I M O).
  - injection H as <- <-. discriminate.
  - injection H as <- <-. discriminate.
Qed.

Lemma deliver_closed buf m accepts ps : forall s s' ev i, deliver buf m accepts ps s = (s', ev) ->
  In (EvClose i) ev -> exists p, In p ps /\ p_id p = i /\ pkg_match p buf = Ok true.
Proof.
  induction ps as [|q r IH]; intros s s' ev i H I; cbn [deliver] in H; [injection H as <- <-; destruct I|].
  destruct (pkg_match q buf) as [[|]|e|] eqn:PM.
  - destruct (close_pkg (p_id q) s) as [s1 ev1] eqn:E1.
    set (s2 := set_c_inflight (del_pkg (p_id q) (c_inflight s1)) s1) in *.
    destruct (deliver buf m accepts r s2) as [s3 ev3] eqn:E3.
    assert (V : In (EvClose i) ev1 -> p_id q = i).
    { intros X. apply close_pkg_events in E1. destruct E1 as [->| ->]; [destruct X|].
      destruct X as [X|[]]. injection X as ->. reflexivity. }
    assert (W : In (EvClose i) (ev1 ++ ev3)).
    { destruct (mem (p_id q) (c_open s) && mem (p_id q) accepts && negb (mem (p_id q) (c_fetch s))).
      - destruct (p_want q), m; injection H as <- <-; cbn in I; intuition discriminate.
      - injection H as <- <-. exact I. }
    apply in_app_iff in W. destruct W as [W|W].
    + exists q. split; [left; reflexivity|]. split; [exact (V W)|exact PM].
    + destruct (IH _ _ _ _ E3 W) as (p & P1 & P2). exists p. split; [right; exact P1|exact P2].
  - destruct (IH _ _ _ _ H I) as (p & P1 & P2). exists p. split; [right; exact P1|exact P2].
  - injection H as <- <-. destruct I as [I|[]]. discriminate.
  - injection H as <- <-. destruct I as [I|[]]. discriminate.
Qed.

(** The pass in which a frame is taken. *)
Lemma frame_pass s l s' ev f m : step s l = Some (s', ev) -> c_crashed s' = false -> In (EvFrame f m) ev ->
  exists order accepts tail d s2 ev2 ev3,
    l = LIter order accepts /\ els d = clear_at (List.length f - 1) f ++ tail /\ frame f /\
    deliver (els d) m accepts (pick order (c_inflight s)) (set_c_buf d s) = (s2, ev2) /\ c_crashed s2 = false /\
    c_open s' = c_open s2 /\
    ev = ev2 ++ ev3 ++ [EvFrame f m; EvAck] /\ (forall i, ~ In (EvClose i) ev3).
Proof.
  intros H Hc Hin. apply step_inv in H.
  assert (G : forall P ev, Forall P ev -> (P (EvFrame f m) -> False) -> In (EvFrame f m) ev -> False).
  { intros P e0 V NP X. rewrite Forall_forall in V. exact (NP (V _ X)). }
  destruct H as
    [M|k T|data w t er|i F|w p again q W Q|w i W|w i W|k i s' ev T E|k loop p T A|k n r T|stale chunk room M|M
    |o a s' ev M IC|i rcv b m0 pr vi lo p s' ev M Ip Ep Iv VC|b m0 pr vi lo s1 ev1 M FA SP];
    try (exfalso; cbn in Hin; intuition discriminate).
  - exfalso. destruct (mem i (c_open s)); cbn in Hin; intuition discriminate.
  - exfalso. apply expire_fields in E. destruct E as (_ & _ & V). exact (G _ _ V (fun x => x) Hin).
  - destruct IC as [E|E P|b0 tl r0 d0 E0 D0 L0|r0 d0 E0 D0 L0 M0|b0 tl r0 d0 E0 D0 L0|r0 d0 s2 ev2 _ D0 N0 _ _ DL C2|r0 d0 s2 ev2 s3 ev3 E0 D0 N0 N1 LE DL C2 SP];
      try (exfalso; cbn in Hin; intuition discriminate).
    + congruence.
    + destruct (shape_total (els (c_buf s))) as [sh SH]; [congruence|].
      pose proof (decode_shape _ _ _ _ D0 SH) as C. pose proof (shape_bounds _ _ SH) as B.
      rewrite (decode_length _ _ _ D0) in LE. rewrite C in *.
      destruct sh as [k| | |k]; cbn in N0, N1, LE; try lia.
      destruct (frame_front _ _ SH) as [f0 [tail [Ef [Ff Lf]]]]. subst k.
      cbn [shape_code] in *. rewrite Nat2Z.id in *.
      assert (Ed : d0 = zeroed (c_buf s) (List.length f0)).
      { rewrite (decode_by_shape _ _ SH) in D0. unfold finish in D0. destruct (new_message _); now inversion D0. }
      rewrite Ef in Hin at 1. rewrite firstn_app, firstn_all, Nat.sub_diag in Hin. cbn [firstn] in Hin. rewrite app_nil_r in Hin.
      pose proof (deliver_fields _ _ _ _ _ _ _ DL) as (_ & _ & V).
      pose proof (spawn_callback_fields _ _ _ _ SP) as [E3 E4].
      assert (X : f = f0 /\ m = d_msg r0).
      { apply in_app_iff in Hin. destruct Hin as [Hin|Hin]; [destruct (G _ _ V (fun x => x) Hin)|].
        apply in_app_iff in Hin. destruct Hin as [Hin|Hin].
        - destruct E4 as [->|(n & r & ->)]; cbn in Hin; intuition discriminate.
        - destruct Hin as [Hin|[Hin|[]]]; [injection Hin as <- <-; auto|discriminate]. }
      destruct X as [-> ->].
      exists o, a, tail, d0, s2, ev2, ev3. split; [reflexivity|]. split.
      { rewrite Ed. unfold zeroed. cbn [els]. rewrite Ef. pose proof (frame_length f0 Ff) as L.
        rewrite clear_at_set_nth. apply set_nth_app_l. lia. }
      split; [exact Ff|]. split; [exact DL|]. split; [exact C2|]. split; [conn_simpl; rewrite E3; reflexivity|].
      split.
      { rewrite Ef at 1. rewrite firstn_app, firstn_all, Nat.sub_diag. cbn [firstn]. rewrite app_nil_r. reflexivity. }
      intros i X. destruct E4 as [->|(n & r & ->)]; cbn in X; intuition discriminate.
  - exfalso. apply visit_fields in VC. destruct VC as (_ & _ & V). exact (G _ _ V (fun x => x) Hin).
  - exfalso. apply spawn_callback_fields in SP. apply in_app_iff in Hin.
    destruct SP as [_ [->|[n [rr ->]]]]; cbn in Hin; intuition discriminate.
Qed.

(** ** Who holds a reply channel *)
Definition firsts (q : list (pkg * bool)) : list nat :=
  flat_map (fun x : pkg * bool => if snd x then [] else [p_id (fst x)]) q.
Definition unfetched (s : conn) : list nat := firsts (c_sendq s) ++ c_fetch s.
Lemma unfetched_invariant ls s tr : run init ls = Some (s, tr) ->
  NoDup (unfetched s) /\ (forall i, In i (unfetched s) -> (i < c_next s)%nat) /\
  (forall i, In (EvGot i) tr -> (i < c_next s)%nat /\ ~ In i (unfetched s)).
Proof.
  revert ls s tr. apply (run_ind_from init (fun ls s tr => NoDup (unfetched s) /\
    (forall i, In i (unfetched s) -> (i < c_next s)%nat) /\
    (forall i, In (EvGot i) tr -> (i < c_next s)%nat /\ ~ In i (unfetched s)))).
  - split; [constructor|]. split; [intros i []|intros i []].
  - intros ls s tr l s' ev _ (N & B & G) H.
    assert (Same : unfetched s' = unfetched s -> c_next s' = c_next s -> (forall i, ~ In (EvGot i) ev) ->
      NoDup (unfetched s') /\ (forall i, In i (unfetched s') -> (i < c_next s')%nat) /\
      (forall i, In (EvGot i) (tr ++ ev) -> (i < c_next s')%nat /\ ~ In i (unfetched s'))).
    { intros -> -> NE. split; [exact N|]. split; [exact B|]. intros i I. apply in_app_iff in I.
      destruct I as [I|I]; [exact (G i I)|destruct (NE i I)]. }
    assert (F : forall (P : event -> Prop) ev, Forall P ev -> (forall i, P (EvGot i) -> False) -> forall i, ~ In (EvGot i) ev).
    { intros P e0 V NP i X. rewrite Forall_forall in V. exact (NP i (V _ X)). }
    apply step_inv in H. destruct H as
    [M|k T|data w t er|i Fi|w p again q W Q|w i W|w i W|k i s' ev T E|k loop p T A|k n r T|stale chunk room M|M
    |o a s' ev M IC|i rcv b m0 pr vi lo p s' ev M Ip Ep Iv VC|b m0 pr vi lo s1 ev1 M FA SP];
    try (apply Same; [reflexivity|reflexivity|intros i0 X; cbn in X; intuition discriminate]).
    + clear Same. unfold unfetched in *. conn_simpl. unfold firsts in *. rewrite flat_map_app. cbn [flat_map snd fst app].
      assert (NI : ~ In (c_next s) (firsts (c_sendq s) ++ c_fetch s)) by (intros X; apply B in X; lia).
      assert (P : Permutation ((firsts (c_sendq s) ++ [c_next s]) ++ c_fetch s) (c_next s :: firsts (c_sendq s) ++ c_fetch s)).
      { rewrite <- app_assoc. apply Permutation_sym, Permutation_middle. }
      change (p_id (new_send_package (c_next s) data w t er)) with (c_next s). fold (firsts (c_sendq s)) in *.
      split; [|split].
      * apply (Permutation_NoDup (Permutation_sym P)). constructor; assumption.
      * intros i X. apply (Permutation_in _ P) in X. destruct X as [<-|X]; [lia|]. apply B in X. lia.
      * intros i X. apply in_app_iff in X. destruct X as [X|X]; [|cbn in X; intuition discriminate].
        destruct (G i X) as [L NX]. split; [lia|]. intros Y. apply (Permutation_in _ P) in Y.
        destruct Y as [<-|Y]; [lia|contradiction].
    + clear Same. unfold unfetched in *. conn_simpl.
      assert (SUB : forall j, In j (firsts (c_sendq s) ++ remove_id i (c_fetch s)) -> In j (firsts (c_sendq s) ++ c_fetch s) /\ j <> i).
      { intros j X. apply in_app_iff in X. destruct X as [X|X].
        - split; [apply in_or_app; left; exact X|]. intros ->. apply in_split in Fi. destruct Fi as (u & v & Fi). rewrite Fi in N.
          rewrite app_assoc in N. apply NoDup_remove_2 in N. apply N. rewrite <- app_assoc. apply in_or_app. left. exact X.
        - unfold remove_id in X. apply filter_In in X. destruct X as [X1 X2]. apply negb_true_iff, Nat.eqb_neq in X2.
          split; [apply in_or_app; right; exact X1|auto]. }
      split; [|split].
      * clear -N. induction (firsts (c_sendq s)) as [|x l IHl]; cbn [app] in *.
        -- unfold remove_id. apply NoDup_filter. exact N.
        -- inversion N; subst. constructor; [|apply IHl; assumption]. intros X. apply H1. apply in_app_iff in X. apply in_or_app.
           destruct X as [X|X]; [left; exact X|right]. unfold remove_id in X. apply filter_In in X. tauto.
      * intros j X. apply SUB in X. apply B. tauto.
      * intros j X. apply in_app_iff in X. destruct X as [X|X].
        -- destruct (G j X) as [L NX]. split; [exact L|]. intros Y. apply SUB in Y. tauto.
        -- assert (j = i) as -> by (destruct (mem i (c_open s)); cbn in X; destruct X as [X|[]]; [injection X as ->; reflexivity|discriminate]).
           split; [apply B; apply in_or_app; right; exact Fi|]. intros Y. apply SUB in Y. tauto.
    + clear Same. unfold unfetched in *. conn_simpl. rewrite Q in N, B, G. unfold firsts in N, B, G. cbn [flat_map snd fst] in N, B, G.
      fold (firsts q) in N, B, G.
      assert (X : (match p_want p with NoWait => c_fetch s | _ => if again then c_fetch s else p_id p :: c_fetch s end = c_fetch s) \/
                  (again = false /\ match p_want p with NoWait => c_fetch s | _ => if again then c_fetch s else p_id p :: c_fetch s end = p_id p :: c_fetch s)).
      { destruct (p_want p); auto; destruct again; auto. }
      destruct X as [->|[-> ->]].
      * assert (SUB : forall j, In j (firsts q ++ c_fetch s) -> In j ((if again then [] else [p_id p]) ++ firsts q ++ c_fetch s))
          by (intros j X; apply in_or_app; right; exact X).
        rewrite <- app_assoc in N, B, G. split; [|split].
        -- destruct again; [exact N|]. inversion N; assumption.
        -- intros j X. apply B, SUB, X.
        -- intros j X. apply in_app_iff in X. destruct X as [X|X]; [|cbn in X; intuition discriminate].
           destruct (G j X) as [L NX]. split; [exact L|]. intros Y. apply NX, SUB, Y.
      * cbn [app] in N, B, G.
        assert (P : Permutation (firsts q ++ p_id p :: c_fetch s) (p_id p :: firsts q ++ c_fetch s))
          by (apply Permutation_sym, Permutation_middle).
        split; [|split].
        -- apply (Permutation_NoDup (Permutation_sym P)). exact N.
        -- intros j X. apply (Permutation_in _ P) in X. apply B, X.
        -- intros j X. apply in_app_iff in X. destruct X as [X|X]; [|cbn in X; intuition discriminate].
           destruct (G j X) as [L NX]. split; [exact L|]. intros Y. apply NX. apply (Permutation_in _ P), Y.
    + apply expire_fields in E. destruct E as (E & _ & V). apply Same; [rewrite E; reflexivity|rewrite E; reflexivity|].
      exact (F _ _ V (fun _ x => x)).
    + apply Same; [|reflexivity|intros i0 X; cbn in X; intuition discriminate].
      unfold unfetched. conn_simpl. unfold firsts. rewrite flat_map_app. cbn [flat_map snd app]. rewrite app_nil_r. reflexivity.
    + apply iter_fields in IC. destruct IC as (E & _ & V). apply Same; [rewrite E; reflexivity|rewrite E; reflexivity|].
      exact (F _ _ V (fun _ x => x)).
    + apply visit_fields in VC. destruct VC as (E & _ & V). apply Same; [rewrite E; reflexivity|rewrite E; reflexivity|].
      exact (F _ _ V (fun _ x => x)).
    + apply spawn_callback_fields in SP. destruct SP as [-> X]. apply Same; [reflexivity|reflexivity|].
      intros i Y. apply in_app_iff in Y. destruct X as [->|(n & r & ->)]; cbn in Y; intuition discriminate.
Qed.

(** ** A frame reaches everybody it answers, and nobody else *)
Theorem frame_reaches ls s tr order accepts s' ev f m i data w t er :
  run init ls = Some (s, tr) -> step s (LIter order accepts) = Some (s', ev) -> c_crashed s' = false ->
  In (EvFrame f m) ev -> (10 <= List.length f)%nat ->
  In (EvCall i data w t er) tr -> w <> NoWait -> In i (written tr) -> replies i tr = [] ->
  (In (EvClose i) ev <-> answered_by data er f) /\
  (answered_by data er f -> In (EvGot i) tr -> In i accepts -> In (EvDeliver i m) ev).
Proof.
  intros R H C IF L CL W WR RP.
  pose proof (step_alive _ _ _ _ H) as Hc.
  assert (O : In i (c_open s)).
  { apply (open_invariant _ _ _ R Hc i _ _ _ _ CL W). rewrite RP. intros []. }
  destruct (frame_pass _ _ _ _ _ _ H C IF) as (o & a & tail & d & s2 & ev2 & ev3 & LE & ED & FF & DL & C2 & _ & -> & NE).
  injection LE as <- <-. rewrite ED in DL.
  assert (PK : forall p, In p (pick order (c_inflight s)) -> p_id p = i ->
    exists r, pkg_match p (clear_at (List.length f - 1) f ++ tail) = Ok r /\ (r = true <-> answered_by data er f)).
  { intros p I E. apply pick_In in I. destruct (known_issued _ _ _ R p (or_introl I)) as (d2 & w2 & t2 & e2 & H2 & E2).
    rewrite E in H2. destruct (call_unique _ _ _ _ _ _ _ _ _ _ _ _ R CL H2) as (<- & <- & <- & <-).
    rewrite E2. apply match_own_bytes. exact L. }
  split.
  - split.
    + intros X. apply in_app_iff in X. destruct X as [X|X].
      * destruct (deliver_closed _ _ _ _ _ _ _ _ DL X) as (p & P1 & P2 & P3).
        destruct (PK p P1 P2) as (r & M & D). rewrite P3 in M. injection M as <-. apply D. reflexivity.
      * apply in_app_iff in X. destruct X as [X|X]; [destruct (NE _ X)|]. cbn in X. intuition discriminate.
    + intros A. destruct (pending_invariant _ _ _ R) as [_ P]. destruct (P Hc i WR O) as (p & P1 & P2).
      destruct (pick_complete order _ _ P1) as (q & Q1 & Q2). destruct (PK q Q1 ltac:(congruence)) as (r & M & D).
      apply D in A. subst r. apply in_or_app. left. replace i with (p_id q) by congruence.
      apply (deliver_all _ _ _ _ _ _ _ _ DL C2 Q1 M). conn_simpl. replace (p_id q) with i by congruence. exact O.
  - intros A GT AC. destruct (pending_invariant _ _ _ R) as [_ P]. destruct (P Hc i WR O) as (p & P1 & P2).
    destruct (pick_complete order _ _ P1) as (q & Q1 & Q2). destruct (PK q Q1 ltac:(congruence)) as (r & M & D).
    apply D in A. subst r. apply in_or_app. left. replace i with (p_id q) by congruence.
    apply (deliver_all _ _ _ _ _ _ _ _ DL C2 Q1 M); conn_simpl; replace (p_id q) with i by congruence; try assumption.
    intros X. destruct (unfetched_invariant _ _ _ R) as (_ & _ & G). destruct (G i GT) as [_ G']. apply G'.
    unfold unfetched. apply in_or_app. right. exact X.
Qed.
