(** The writers make progress (C96). *)
From Verif Require Import ModelBase ModelReports ModelSerial ModelConnection SpecFrame SpecConnection SpecPassage
  ProofBase ProofConnection ProofLink ProofWitness.
From Coq Require Import Lia.

Definition cost (w : writer) : nat := match w with WIdle => 0 | WWaiting _ => 2 | WFinishing _ => 1 end.
Definition owed (ws : list writer) : nat := list_sum (map cost ws).

Lemma owed_set_nth ws : forall w x y, nth_error ws w = Some x -> (owed (set_nth w y ws) + cost x = owed ws + cost y)%nat.
Proof.
  unfold owed. induction ws as [|z ws IH]; intros [|w] x y H; cbn in H; try discriminate.
  - injection H as ->. cbn. lia.
  - specialize (IH w x y H). change (owed (set_nth w y ws)) with (list_sum (map cost (set_nth w y ws))) in IH.
    cbn [set_nth map list_sum fold_right] in *. unfold list_sum in *. cbn. lia.
Qed.
Lemma owed_le ws : (owed ws <= 2 * List.length ws)%nat.
Proof. unfold owed. induction ws as [|z ws IH]; cbn; [lia|]. unfold list_sum in IH. destruct z; cbn; lia. Qed.
Lemma owed_app a b : owed (a ++ b) = (owed a + owed b)%nat.
Proof. unfold owed. now rewrite map_app, list_sum_app. Qed.

Lemma writer_steps_app a b : writer_steps (a ++ b) = (writer_steps a + writer_steps b)%nat.
Proof. unfold writer_steps. now rewrite filter_app, app_length. Qed.

Lemma step_owed s l s' ev : step s l = Some (s', ev) ->
  (writer_steps [l] + owed (c_writers s') <= owed (c_writers s) + 3 * List.length (written ev))%nat.
Proof.
  intros H. pose proof (step_turn _ _ _ _ H) as T. apply step_inv in H.
  destruct (writer_label l) eqn:WL.
  - destruct H; try discriminate WL.
    + conn_simpl. pose proof (owed_set_nth _ _ _ (WWaiting (p_id p)) H) as Q. cbn in *. lia.
    + conn_simpl. pose proof (owed_set_nth _ _ _ (WFinishing i) H) as Q. cbn in *. lia.
    + conn_simpl. pose proof (owed_set_nth _ _ _ WIdle H) as Q. cbn in *. lia.
  - unfold writer_steps. cbn [filter]. rewrite WL. cbn [List.length].
    destruct T as [N T E| -> T E|w i N W T E|w i N W T E|w i N W T E|w i N W T E]; rewrite E.
    + lia.
    + rewrite owed_app. cbn. lia.
    + pose proof (owed_set_nth _ _ _ (WWaiting i) W) as Q. cbn in Q.
      assert (L : List.length (written ev) = 1%nat).
      { clear -T. assert (X : forall ev, List.length (written ev) =
          List.length (filter (fun t => match t with Sent _ => true | _ => false end) (turns ev))).
        { induction ev0 as [|e ev0 IH]; [reflexivity|]. unfold written, turns in *. cbn [flat_map].
          rewrite app_length, IH, filter_app, app_length. now destruct e. }
        rewrite X, T. reflexivity. }
      lia.
    + pose proof (owed_set_nth _ _ _ (WFinishing i) W) as Q. cbn in Q. lia.
    + pose proof (owed_set_nth _ _ _ (WFinishing i) W) as Q. cbn in Q. lia.
    + pose proof (owed_set_nth _ _ _ WIdle W) as Q. cbn in Q. lia.
Qed.

Lemma run_owed l2 : forall s s' tr2, run s l2 = Some (s', tr2) ->
  (writer_steps l2 + owed (c_writers s') <= owed (c_writers s) + 3 * List.length (written tr2))%nat /\
  map (fun x => p_id (fst x)) (c_sendq s) ++ queued tr2 = written tr2 ++ map (fun x => p_id (fst x)) (c_sendq s').
Proof.
  induction l2 as [|l ls IH]; intros s s' tr H.
  - cbn in H. injection H as <- <-. cbn. rewrite app_nil_r. split; [lia|reflexivity].
  - cbn [run] in H. destruct (step s l) as [[s1 e1]|] eqn:E; [|discriminate].
    destruct (run s1 ls) as [[s2 e2]|] eqn:E2; [|discriminate]. injection H as <- <-.
    destruct (IH _ _ _ E2) as [A B]. pose proof (step_owed _ _ _ _ E) as C. pose proof (step_order _ _ _ _ E) as D.
    rewrite written_app, queued_app, app_length. change (l :: ls) with ([l] ++ ls). rewrite writer_steps_app. split; [lia|].
    now rewrite app_assoc, D, <- !app_assoc, B.
Qed.

Theorem command_is_written ls s tr l2 s' tr2 waiting k i : run init ls = Some (s, tr) -> run s l2 = Some (s', tr2) ->
  queued tr = written tr ++ waiting -> nth_error waiting k = Some i ->
  (2 * connects ls + 3 * k < writer_steps l2)%nat -> nth_error (written tr2) k = Some i.
Proof.
  intros R R2 Q N W. rewrite (wire_order _ _ _ R) in Q. apply app_inv_head in Q. subst waiting.
  destruct (run_owed _ _ _ _ R2) as [A B].
  pose proof (owed_le (c_writers s)) as L. rewrite (writers_connects _ _ _ R) in L.
  assert (K : (k < List.length (written tr2))%nat) by lia.
  rewrite <- (nth_error_app1 (written tr2) (map (fun x => p_id (fst x)) (c_sendq s')) K), <- B.
  rewrite nth_error_app1; [exact N|]. apply nth_error_Some. now rewrite N.
Qed.

Theorem writers_not_stuck ls s tr : run init ls = Some (s, tr) -> c_crashed s = false -> (1 <= connects ls)%nat ->
  queued tr <> written tr -> exists l s' ev, writer_label l = true /\ step s l = Some (s', ev).
Proof.
  intros R C K N. rewrite <- (writers_connects _ _ _ R) in K. rewrite (wire_order _ _ _ R) in N.
  destruct (c_sendq s) as [|[p again] q] eqn:Q; [exfalso; apply N; apply app_nil_r|].
  destruct (c_writers s) as [|w ws] eqn:W; [cbn in K; lia|].
  destruct w as [|i|i].
  - exists (LTake 0). unfold step. rewrite C, W, Q. cbn [nth_error]. repeat eexists.
  - exists (LAckTimeout 0). unfold step. rewrite C, W. cbn [nth_error]. repeat eexists.
  - exists (LFinish 0). unfold step. rewrite C, W. cbn [nth_error]. repeat eexists.
Qed.

Definition three_calls : list label :=
  [LCall [x41; x02] NoWait false x00; LCall [x41; x03] NoWait false x00; LCall [x41; x04] NoWait false x00;
   LConnect; LTake 0].
Definition six_steps : list label := [LAckTimeout 0; LFinish 0; LTake 0; LAckTimeout 0; LFinish 0; LTake 0].
Lemma three_written : exists s tr s' tr2, run init three_calls = Some (s, tr) /\ run s six_steps = Some (s', tr2) /\
  (queued tr = written tr ++ [1; 2] /\ connects three_calls = 1 /\ writer_steps six_steps = 6 /\
   written tr = [0] /\ written tr2 = [1; 2])%nat.
Proof.
  assert (W : match run init three_calls with
     | Some (s, tr) => match run s six_steps with
        | Some (_, tr2) => (queued tr = [0; 1; 2] /\ written tr = [0] /\ written tr2 = [1; 2])%nat
        | None => False end
     | None => False end) by (vm_compute; tauto).
  destruct (run init three_calls) as [[s tr]|] eqn:E; [|contradiction].
  destruct (run s six_steps) as [[s' tr2]|] eqn:F; [|contradiction]. destruct W as (A & B & C).
  exists s, tr, s', tr2. rewrite F, A, B. repeat split; auto.
Qed.
