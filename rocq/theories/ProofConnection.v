(** Invariants of the connection machine. *)
From Verif Require Import ModelBase ModelReports ModelSerial ModelConnection
  SpecFrame SpecConnection ProofBase ProofSerial ProofMessage.
From Coq Require Import Permutation ZifyBool ZifyNat ZifyN Arith.
Ltac Zify.zify_post_hook ::= Z.div_mod_to_equations.

(** ** Runs, extended at the end *)
Lemma run_app s l1 l2 :
  run s (l1 ++ l2) =
  match run s l1 with
  | None => None
  | Some (s1, e1) => match run s1 l2 with
                     | None => None
                     | Some (s2, e2) => Some (s2, e1 ++ e2)
                     end
  end.
Proof.
  revert s. induction l1 as [|l l1 IH]; intros s; cbn [app run].
  - destruct (run s l2) as [[s2 e2]|]; reflexivity.
  - destruct (step s l) as [[s1 e1]|]; [|reflexivity]. rewrite IH.
    destruct (run s1 l1) as [[s2 e2]|]; [|reflexivity].
    destruct (run s2 l2) as [[s3 e3]|]; [|reflexivity]. now rewrite app_assoc.
Qed.

(** Induction over executions. *)
Lemma run_ind_from (s0 : conn) (P : list label -> conn -> list event -> Prop) :
  P [] s0 [] ->
  (forall ls s tr l s' ev, run s0 ls = Some (s, tr) -> P ls s tr -> step s l = Some (s', ev) ->
     P (ls ++ [l]) s' (tr ++ ev)) ->
  forall ls s tr, run s0 ls = Some (s, tr) -> P ls s tr.
Proof.
  intros H0 HS ls. induction ls as [|l ls IH] using rev_ind; intros s tr H.
  - cbn in H. injection H as <- <-. exact H0.
  - rewrite run_app in H. destruct (run s0 ls) as [[s1 e1]|] eqn:E; [|discriminate].
    cbn in H. destruct (step s1 l) as [[s2 e2]|] eqn:E2; [|discriminate].
    injection H as <- <-. rewrite app_nil_r. eapply HS; [exact E| |exact E2]. now apply IH.
Qed.

Lemma mem_In i l : mem i l = true <-> In i l.
Proof.
  unfold mem. rewrite existsb_exists. split.
  - intros [x [Hx He]]. apply Nat.eqb_eq in He. now subst.
  - intros H. exists i. split; [exact H|apply Nat.eqb_refl].
Qed.
Lemma mem_not_In i l : mem i l = false <-> ~ In i l.
Proof. rewrite <- mem_In. destruct (mem i l); intuition discriminate. Qed.
Lemma remove_id_In i j l : In j (remove_id i l) <-> In j l /\ j <> i.
Proof.
  unfold remove_id. rewrite filter_In. rewrite negb_true_iff, Nat.eqb_neq. reflexivity.
Qed.
Lemma del_pkg_In i p l : In p (del_pkg i l) <-> In p l /\ p_id p <> i.
Proof. unfold del_pkg. rewrite filter_In, negb_true_iff, Nat.eqb_neq. reflexivity. Qed.
Lemma find_pkg_Some i l p : find_pkg i l = Some p -> In p l /\ p_id p = i.
Proof. intros H. apply find_some in H. now rewrite Nat.eqb_eq in H. Qed.
Lemma find_pkg_None i l : find_pkg i l = None -> forall p, In p l -> p_id p <> i.
Proof. intros H p Hp E. eapply find_none in H; [|exact Hp]. apply Nat.eqb_neq in H. congruence. Qed.
Lemma put_pkg_In p q l : In q (put_pkg p l) <-> q = p \/ (In q l /\ p_id q <> p_id p).
Proof. unfold put_pkg. rewrite in_app_iff, del_pkg_In. cbn. intuition. Qed.
Lemma remove_nth_In {A} k (l : list A) x : In x (remove_nth k l) -> In x l.
Proof.
  unfold remove_nth. rewrite in_app_iff. intros [H|H].
  - rewrite <- (firstn_skipn k l). apply in_app_iff. now left.
  - rewrite <- (firstn_skipn (S k) l). apply in_app_iff. now right.
Qed.
Lemma nth_error_perm {A} k (l : list A) x :
  nth_error l k = Some x -> Permutation l (x :: remove_nth k l).
Proof.
  intros H. apply nth_error_split in H. destruct H as [l1 [l2 [-> <-]]].
  unfold remove_nth. rewrite firstn_app, Nat.sub_diag, firstn_all, firstn_O, app_nil_r.
  replace (skipn (S (List.length l1)) (l1 ++ x :: l2)) with l2.
  - symmetry. apply Permutation_middle.
  - rewrite skipn_app. replace (S (List.length l1) - List.length l1)%nat with 1%nat by lia.
    rewrite skipn_all2 by lia. reflexivity.
Qed.
Lemma pick_In order l p : In p (pick order l) -> In p l.
Proof.
  revert l. induction order as [|i r IH]; intros l H; cbn in H; [exact H|].
  destruct (find_pkg i l) as [q|] eqn:E; [|now apply IH].
  destruct H as [<-|H]; [now apply find_pkg_Some in E|]. apply IH in H. now apply del_pkg_In in H.
Qed.

(** ** Reply channels (C29) *)
Lemma replies_app i a b : replies i (a ++ b) = replies i a ++ replies i b.
Proof. unfold replies. apply flat_map_app. Qed.

Definition good (l : list reply) : Prop := In l [[]; [Message]; [Closed]; [Message; Closed]].

Definition chan (s : conn) (ev : list event) (s' : conn) : Prop :=
  c_next s' = c_next s /\ incl (c_open s') (c_open s) /\
  forall i, good (replies i ev) /\
    (replies i ev = [Message] -> c_crashed s' = true) /\
    (replies i ev <> [] -> In i (c_open s) /\ ~ In i (c_open s')).

Lemma chan_nil s s' : c_next s' = c_next s -> c_open s' = c_open s -> chan s [] s'.
Proof.
  intros H1 H2. split; [exact H1|]. rewrite H2. split; [apply incl_refl|].
  intros i. cbn. unfold good. cbn. intuition congruence.
Qed.

Lemma chan_quiet s ev s' : c_next s' = c_next s -> c_open s' = c_open s ->
  (forall i, replies i ev = []) -> chan s ev s'.
Proof.
  intros H1 H2 H3. split; [exact H1|]. rewrite H2. split; [apply incl_refl|].
  intros i. rewrite H3. unfold good. cbn. intuition congruence.
Qed.

Lemma chan_trans s1 e1 s2 e2 s3 :
  chan s1 e1 s2 -> chan s2 e2 s3 -> c_crashed s2 = false -> chan s1 (e1 ++ e2) s3.
Proof.
  intros [N1 [I1 G1]] [N2 [I2 G2]] Hc. split; [congruence|].
  split; [eapply incl_tran; eassumption|]. intros i. rewrite replies_app.
  destruct (G1 i) as [A1 [B1 C1]], (G2 i) as [A2 [B2 C2]].
  destruct (replies i e1) as [|r1 l1] eqn:E1.
  - cbn [app]. split; [exact A2|]. split; [exact B2|]. intros H. destruct (C2 H) as [P Q].
    split; [now apply I1|exact Q].
  - destruct (C1 ltac:(discriminate)) as [P Q].
    assert (E2 : replies i e2 = []).
    { destruct (replies i e2) eqn:E2; [reflexivity|]. exfalso. apply Q. now apply C2. }
    rewrite E2, app_nil_r. split; [exact A1|]. split.
    + intros H. specialize (B1 H). congruence.
    + intros _. split; [exact P|]. intros H. apply Q. now apply I2.
Qed.

Lemma replies_close i j : replies i [EvClose j] = if Nat.eqb j i then [Closed] else [].
Proof. cbn. now rewrite app_nil_r. Qed.

Lemma close_pkg_chan i s s' ev : close_pkg i s = (s', ev) ->
  chan s ev s' /\ c_crashed s' = c_crashed s /\ ~ In i (c_open s') /\
  (forall j, j <> i -> In j (c_open s) -> In j (c_open s')).
Proof.
  unfold close_pkg. destruct (mem i (c_open s)) eqn:E; intros H; injection H as <- <-.
  - apply mem_In in E. split; [|split; [reflexivity|split]].
    + split; [reflexivity|]. split.
      * intros j Hj. conn_simpl_in Hj. now apply remove_id_In in Hj.
      * intros j. rewrite replies_close. conn_simpl.
        destruct (Nat.eqb_spec i j) as [<-|Hij].
        -- split; [unfold good; cbn; tauto|]. split; [discriminate|]. intros _.
           split; [exact E|]. rewrite remove_id_In. tauto.
        -- split; [unfold good; cbn; tauto|]. split; [discriminate|]. tauto.
    + conn_simpl. rewrite remove_id_In. tauto.
    + intros j Hj Ho. conn_simpl. now apply remove_id_In.
  - apply mem_not_In in E. split; [now apply chan_nil|]. split; [reflexivity|]. split; [exact E|auto].
Qed.

Lemma close_pkg_fields i s s' ev : close_pkg i s = (s', ev) ->
  s' = set_c_open (c_open s') s.
Proof.
  unfold close_pkg. destruct (mem i (c_open s)); intros H; injection H as <- <-; [reflexivity|].
  now destruct s.
Qed.

Lemma deliver_chan buf m accepts ps s s' ev :
  deliver buf m accepts ps s = (s', ev) -> c_crashed s = false -> chan s ev s'.
Proof.
  revert s s' ev. induction ps as [|p r IH]; intros s s' ev H Hc; cbn [deliver] in H.
  - injection H as <- <-. now apply chan_nil.
  - destruct (pkg_match p buf) as [[|]|e|].
    + destruct (close_pkg (p_id p) s) as [s1 ev1] eqn:E1.
      pose proof (close_pkg_chan _ _ _ _ E1) as [C1 [K1 [O1 _]]].
      assert (C2 : chan s ev1 (set_c_inflight (del_pkg (p_id p) (c_inflight s1)) s1)).
      { destruct C1 as [A [B C]]. split; [exact A|]. split; [exact B|exact C]. }
      assert (K2 : c_crashed (set_c_inflight (del_pkg (p_id p) (c_inflight s1)) s1) = false)
        by (conn_simpl; congruence).
      destruct (mem (p_id p) (c_open s) && mem (p_id p) accepts && negb (mem (p_id p) (c_fetch s))) eqn:T.
      * apply andb_prop in T. destruct T as [T _]. apply andb_prop in T. destruct T as [T _].
        assert (Eev : ev1 = [EvClose (p_id p)]).
        { unfold close_pkg in E1. rewrite T in E1. now injection E1. }
        apply mem_In in T.
        assert (D : forall s3, c_open s3 = c_open s1 -> c_next s3 = c_next s ->
                 chan s (EvDeliver (p_id p) m :: ev1) s3).
        { intros s3 Ho Hn. split; [exact Hn|]. split; [rewrite Ho; apply C1|].
          intros i. subst ev1. cbn. rewrite Ho, app_nil_r. destruct (Nat.eqb_spec (p_id p) i) as [<-|Hi]; cbn.
          - split; [unfold good; cbn; tauto|]. split; [discriminate|]. intros _. split; assumption.
          - split; [unfold good; cbn; tauto|]. split; [discriminate|]. tauto. }
        assert (X : (p_want p = WaitReport /\ m = None /\
                     s' = set_c_crashed true (set_c_inflight (del_pkg (p_id p) (c_inflight s1)) s1) /\
                     ev = [EvDeliver (p_id p) m; EvCrash]) \/
                    (exists ev3, deliver buf m accepts r (set_c_inflight (del_pkg (p_id p) (c_inflight s1)) s1) = (s', ev3) /\
                       ev = EvDeliver (p_id p) m :: ev1 ++ ev3)).
        { destruct (deliver buf m accepts r (set_c_inflight (del_pkg (p_id p) (c_inflight s1)) s1)) as [s3 ev3].
          destruct (p_want p), m; injection H as <- <-; eauto 8. }
        destruct X as [[_ [_ [-> ->]]]|[ev3 [E3 ->]]].
        -- split; [conn_simpl; apply C1|]. split; [conn_simpl; apply C1|].
           intros i. cbn. destruct (Nat.eqb_spec (p_id p) i) as [<-|Hi]; cbn.
           ++ split; [unfold good; cbn; tauto|]. split; [reflexivity|]. intros _. conn_simpl. split; assumption.
           ++ split; [unfold good; cbn; tauto|]. split; [discriminate|]. tauto.
        -- apply IH in E3; [|exact K2].
           change (EvDeliver (p_id p) m :: ev1 ++ ev3) with ((EvDeliver (p_id p) m :: ev1) ++ ev3).
           eapply chan_trans; [|exact E3|exact K2]. apply D; [reflexivity|apply C1].
      * destruct (deliver buf m accepts r (set_c_inflight (del_pkg (p_id p) (c_inflight s1)) s1)) as [s3 ev3] eqn:E3.
        injection H as <- <-. apply IH in E3; [|exact K2]. eapply chan_trans; eassumption.
    + now apply IH.
    + unfold crash in H. injection H as <- <-. apply chan_quiet; try reflexivity. 
    + unfold crash in H. injection H as <- <-. apply chan_quiet; try reflexivity.
Qed.

Lemma spawn_callback_fields m s s' ev : spawn_callback m s = (s', ev) ->
  s' = set_c_callbacks (c_callbacks s ++ spawned ev) s /\
  (ev = [] \/ exists n r, ev = [EvSpawn n r]).
Proof.
  unfold spawn_callback. intros H.
  assert (N : forall s : conn, s = set_c_callbacks (c_callbacks s ++ []) s).
  { intros []. conn_simpl. unfold set_c_callbacks. conn_simpl. now rewrite app_nil_r. }
  destruct m as [msg|]; [|injection H as <- <-; split; [apply N|now left]].
  destruct (m_data msg) as [[c k r|a|pi]|]; injection H as <- <-;
    (split; [|eauto]); try apply N. reflexivity.
Qed.

(** ** Inversion of the reader's steps *)
Inductive iter_case (order accepts : list nat) (s : conn) : conn -> list event -> Prop :=
| ic_empty : els (c_buf s) = [] -> iter_case order accepts s (set_c_mode RReading s) []
| ic_panic : els (c_buf s) <> [] -> decode (c_buf s) = Panic ->
    iter_case order accepts s (set_c_crashed true s) [EvCrash]
| ic_control b0 tl r d : els (c_buf s) = b0 :: tl -> decode (c_buf s) = Ok (r, d) -> d_len r = 1%Z ->
    iter_case order accepts s
      (set_c_mode (RControl b0 (d_msg r) (map p_id (c_inflight s)) [] (List.length (c_loopvars s)))
         (set_c_buf d s)) []
| ic_more r d : els (c_buf s) <> [] -> decode (c_buf s) = Ok (r, d) -> d_len r <> 1%Z ->
    (Z.of_nat (List.length (els d)) < d_len r)%Z ->
    iter_case order accepts s (set_c_mode RReading (set_c_buf d s)) []
| ic_reject b0 tl r d : els (c_buf s) = b0 :: tl -> decode (c_buf s) = Ok (r, d) -> d_len r = (-1)%Z ->
    iter_case order accepts s (set_c_buf (drop 1 d) (set_c_buf d s)) [EvSkip b0]
| ic_frame_crash r d s2 ev2 : els (c_buf s) <> [] -> decode (c_buf s) = Ok (r, d) ->
    d_len r <> 1%Z -> d_len r <> (-1)%Z -> (d_len r <= Z.of_nat (List.length (els d)))%Z ->
    deliver (els d) (d_msg r) accepts (pick order (c_inflight s)) (set_c_buf d s) = (s2, ev2) ->
    c_crashed s2 = true -> iter_case order accepts s s2 ev2
| ic_frame r d s2 ev2 s3 ev3 : els (c_buf s) <> [] -> decode (c_buf s) = Ok (r, d) ->
    d_len r <> 1%Z -> d_len r <> (-1)%Z -> (d_len r <= Z.of_nat (List.length (els d)))%Z ->
    deliver (els d) (d_msg r) accepts (pick order (c_inflight s)) (set_c_buf d s) = (s2, ev2) ->
    c_crashed s2 = false -> spawn_callback (d_msg r) s2 = (s3, ev3) ->
    iter_case order accepts s (set_c_buf (drop (Z.to_nat (d_len r)) d) s3)
      (ev2 ++ ev3 ++ [EvFrame (firstn (Z.to_nat (d_len r)) (els (c_buf s))) (d_msg r); EvAck]).

Lemma decode_not_fail d e : decode d <> Fail e.
Proof.
  unfold decode. destruct (els d) as [|b0 tl]; [discriminate|]. cbn [idx nth_error bind].
  intros H.
  assert (X : forall (A : Type) (i : nat) (k : byte -> res A) l, bind (idx l i) k = Fail e ->
             exists b, k b = Fail e).
  { intros A i k l Hb. unfold idx in Hb. destruct (nth_error l i); [eauto|discriminate]. }
  assert (Y : forall e0 l, generate_checksum l <> Fail e0) by (intros e0 []; discriminate).
  destruct b0; try discriminate H; try (destruct (new_message d); discriminate H).
  destruct (len d <? 2)%nat; [discriminate|]. apply X in H. destruct H as [lb H]. cbv zeta in H.
  destruct (len d <? b2n lb + 2)%nat; [discriminate|]. apply X in H. destruct H as [cs H].
  destruct (generate_checksum _) eqn:G; cbn [bind] in H.
  - destruct (negb _); [discriminate|]. destruct (new_message _); discriminate.
  - now apply Y in G.
  - discriminate.
Qed.

Lemma iteration_case order accepts s s' ev :
  iteration order accepts s = (s', ev) -> iter_case order accepts s s' ev.
Proof.
  unfold iteration. intros H.
  destruct (els (c_buf s)) as [|b0 tl] eqn:E.
  { injection H as <- <-. now apply ic_empty. }
  assert (E' : els (c_buf s) <> []) by congruence.
  destruct (decode (c_buf s)) as [[r d]|e|] eqn:D.
  - destruct (Z.eqb_spec (d_len r) 1).
    { injection H as <- <-. eapply ic_control; eassumption. }
    destruct (Z.ltb_spec (Z.of_nat (List.length (els d))) (d_len r)).
    { injection H as <- <-. eapply ic_more; eassumption. }
    destruct (Z.eqb_spec (d_len r) (-1)).
    { injection H as <- <-. eapply ic_reject; eassumption. }
    destruct (deliver (els d) (d_msg r) accepts (pick order (c_inflight s)) (set_c_buf d s)) as [s2 ev2] eqn:DL.
    destruct (c_crashed s2) eqn:C2.
    { injection H as <- <-. eapply ic_frame_crash; eassumption. }
    destruct (spawn_callback (d_msg r) s2) as [s3 ev3] eqn:SP. injection H as <- <-.
    rewrite <- E. eapply ic_frame; eassumption.
  - now apply decode_not_fail in D.
  - unfold crash in H. injection H as <- <-. now apply ic_panic.
Qed.

Inductive recv_case (b : byte) (s : conn) : conn -> list event -> Prop :=
| rc_none : recv_case b s s []
| rc_some w j : nth_error (c_writers s) w = Some (WWaiting j) ->
    recv_case b s (set_c_writers (set_nth w (WFinishing j) (c_writers s)) s) [EvResult j b].

Inductive visit_case (b : byte) (m : option message) (loop : nat) (p : pkg) (s : conn)
  : conn -> list event -> Prop :=
| vc_other : c_last s <> Some (p_id p) -> visit_case b m loop p s s []
| vc_crash s1 ev1 : c_last s = Some (p_id p) -> recv_case b s s1 ev1 -> m = None ->
    visit_case b m loop p s (set_c_crashed true s1) (ev1 ++ [EvCrash])
| vc_nak s1 ev1 msg s2 ev2 : c_last s = Some (p_id p) -> recv_case b s s1 ev1 -> m = Some msg ->
    is_nak msg = true ->
    close_pkg (p_id p) (set_c_inflight (del_pkg (p_id p) (c_inflight s1)) s1) = (s2, ev2) ->
    visit_case b m loop p s s2 (ev1 ++ ev2)
| vc_can s1 ev1 msg : c_last s = Some (p_id p) -> recv_case b s s1 ev1 -> m = Some msg ->
    is_can msg = true ->
    visit_case b m loop p s (set_c_resend (c_resend s1 ++ [loop]) s1) (ev1 ++ [EvCancel (p_id p)])
| vc_ack s1 ev1 msg : c_last s = Some (p_id p) -> recv_case b s s1 ev1 -> m = Some msg ->
    is_nak msg = false -> is_can msg = false ->
    visit_case b m loop p s s1 ev1.

Lemma visit_inv b m loop p receiver s s' ev :
  visit b m loop p receiver s = Some (s', ev) -> visit_case b m loop p s s' ev.
Proof.
  unfold visit. intros H. destruct (c_last s) as [i|] eqn:L.
  2:{ destruct receiver; [discriminate|]. injection H as <- <-. apply vc_other. congruence. }
  destruct (Nat.eqb_spec (p_id p) i) as [E|E].
  2:{ destruct receiver; [discriminate|]. injection H as <- <-. apply vc_other. congruence. }
  subst i.
  set (received := match receiver with None => _ | Some w => _ end) in H.
  assert (R : forall s1 ev1, received = Some (s1, ev1) -> recv_case b s s1 ev1).
  { intros s1 ev1. unfold received. destruct receiver as [w|].
    - destruct (nth_error (c_writers s) w) as [[|j|j]|] eqn:W; intros X; try discriminate.
      injection X as <- <-. now apply rc_some.
    - intros X. injection X as <- <-. apply rc_none. }
  destruct received as [[s1 ev1]|]; [|discriminate]. specialize (R s1 ev1 eq_refl).
  destruct m as [msg|].
  2:{ injection H as <- <-. now apply vc_crash. }
  destruct (is_nak msg) eqn:NK.
  - destruct (close_pkg (p_id p) (set_c_inflight (del_pkg (p_id p) (c_inflight s1)) s1)) as [s2 ev2] eqn:CP.
    assert (NC : is_can msg = false).
    { unfold is_nak, is_can in *. apply beq_true in NK. now rewrite NK. }
    rewrite NC in H. injection H as <- <-. rewrite app_nil_r. eapply vc_nak; eauto.
  - destruct (is_can msg) eqn:NC; injection H as <- <-; cbn [app]; rewrite ?app_nil_r.
    + eapply vc_can; eauto.
    + eapply vc_ack; eauto.
Qed.

Lemma recv_fields b s s1 ev1 : recv_case b s s1 ev1 -> s1 = set_c_writers (c_writers s1) s.
Proof. intros []; [now destruct s|reflexivity]. Qed.

(** One label at a time, with the crash flag resolved. *)
Lemma step_alive s l s' ev : step s l = Some (s', ev) -> c_crashed s = false.
Proof. unfold step. now destruct (c_crashed s). Qed.

Inductive step_case (s : conn) : label -> conn -> list event -> Prop :=
| sc_connect : c_mode s = RStopped ->
    step_case s LConnect (set_c_contimers (S (c_contimers s))
                 (set_c_writers (c_writers s ++ [WIdle])
                   (set_c_buf (mkSlice [] []) (set_c_mode RReading s)))) []
| sc_contimer k : c_contimers s = S k ->
    step_case s LConnectTimer (set_c_contimers k (set_c_connected true s)) []
| sc_call data w timeout er :
    step_case s (LCall data w timeout er)
      (set_c_open (match w with NoWait => c_open s | _ => c_next s :: c_open s end)
        (set_c_sendq (c_sendq s ++ [(new_send_package (c_next s) data w timeout er, false)])
          (set_c_next (S (c_next s)) s)))
      [EvCall (c_next s) data w timeout er; EvQueue (c_next s) false]
| sc_fetch i : In i (c_fetch s) ->
    step_case s (LFetch i) (set_c_fetch (remove_id i (c_fetch s)) s)
      [if mem i (c_open s) then EvGot i else EvNil i]
| sc_take w p again q : nth_error (c_writers s) w = Some WIdle -> c_sendq s = (p, again) :: q ->
    step_case s (LTake w)
      (set_c_fetch (match p_want p with
                    | NoWait => c_fetch s
                    | _ => if again then c_fetch s else p_id p :: c_fetch s
                    end)
        (set_c_timers (if p_timeout p then c_timers s ++ [p_id p] else c_timers s)
          (set_c_last (Some (p_id p))
            (set_c_inflight (put_pkg p (c_inflight s)) (set_c_sendq q
                (set_c_writers (set_nth w (WWaiting (p_id p)) (c_writers s)) s))))))
      [EvWire (p_id p) (p_message p)]
| sc_acktimeout w i : nth_error (c_writers s) w = Some (WWaiting i) ->
    step_case s (LAckTimeout w)
      (set_c_writers (set_nth w (WFinishing i) (c_writers s)) s) [EvSendTimeout i]
| sc_finish w i : nth_error (c_writers s) w = Some (WFinishing i) ->
    step_case s (LFinish w)
      (set_c_last None (set_c_writers (set_nth w WIdle (c_writers s)) s)) []
| sc_timer k i s' ev : nth_error (c_timers s) k = Some i ->
    expire i (set_c_timers (remove_nth k (c_timers s)) s) = (s', ev) ->
    step_case s (LTimer k) s' ev
| sc_resend k loop p : nth_error (c_resend s) k = Some loop -> assoc loop (c_loopvars s) = Some p ->
    step_case s (LResend k)
      (set_c_sendq (c_sendq s ++ [(p, true)]) (set_c_resend (remove_nth k (c_resend s)) s))
      [EvQueue (p_id p) true]
| sc_callback k n r : nth_error (c_callbacks s) k = Some (n, r) ->
    step_case s (LCallback k) (set_c_callbacks (remove_nth k (c_callbacks s)) s) [EvCallback n r]
| sc_read stale chunk room : c_mode s = RReading ->
    step_case s (LRead stale chunk room)
      (set_c_mode RParsing
        (set_c_buf (append_chunk (if stale then mkSlice [] [] else c_buf s) chunk room) s))
      [EvArrive stale chunk]
| sc_readfail : c_mode s = RReading ->
    step_case s LReadFail (set_c_connected false (set_c_mode RStopped s)) []
| sc_iter order accepts s' ev : c_mode s = RParsing -> iter_case order accepts s s' ev ->
    step_case s (LIter order accepts) s' ev
| sc_visit i receiver b m present visited loop p s' ev :
    c_mode s = RControl b m present visited loop -> In p (c_inflight s) -> p_id p = i ->
    ~ In i visited ->
    visit_case b m loop p
      (set_c_loopvars (set_loopvar loop p (c_loopvars s))
         (set_c_mode (RControl b m present (i :: visited) loop) s)) s' ev ->
    step_case s (LVisit i receiver) s' ev
| sc_controlend b m present visited loop s1 ev1 :
    c_mode s = RControl b m present visited loop ->
    (forall i, In i present -> In i (map p_id (c_inflight s)) -> In i visited) ->
    spawn_callback m s = (s1, ev1) ->
    step_case s LControlEnd (set_c_mode RParsing (set_c_buf (drop 1 (c_buf s1)) s1)) (ev1 ++ [EvControl b]).

Lemma step_inv s l s' ev : step s l = Some (s', ev) -> step_case s l s' ev.
Proof.
  unfold step. intros H. destruct (c_crashed s) eqn:Hc; [discriminate|].
  destruct l.
  - destruct (c_mode s) eqn:M; try discriminate. injection H as <- <-. now apply sc_connect.
  - destruct (c_contimers s) eqn:M; try discriminate. injection H as <- <-. now apply sc_contimer.
  - injection H as <- <-. apply sc_call.
  - destruct (mem id (c_fetch s)) eqn:M; [|discriminate]. injection H as <- <-.
    apply sc_fetch. now apply mem_In.
  - destruct (nth_error (c_writers s) w) as [[|j|j]|] eqn:W; try discriminate.
    destruct (c_sendq s) as [|[p again] q] eqn:Q; [discriminate|]. injection H as <- <-.
    now apply sc_take.
  - destruct (nth_error (c_writers s) w) as [[|j|j]|] eqn:W; try discriminate.
    injection H as <- <-. now apply sc_acktimeout.
  - destruct (nth_error (c_writers s) w) as [[|j|j]|] eqn:W; try discriminate.
    injection H as <- <-. eapply sc_finish; eassumption.
  - destruct (nth_error (c_timers s) k) as [i|] eqn:T; [|discriminate]. injection H as H.
    eapply sc_timer; eassumption.
  - destruct (nth_error (c_resend s) k) as [loop|] eqn:T; [|discriminate].
    destruct (assoc loop (c_loopvars s)) as [p|] eqn:A; [|discriminate]. injection H as <- <-.
    eapply sc_resend; eassumption.
  - destruct (nth_error (c_callbacks s) k) as [[n r]|] eqn:T; [|discriminate]. injection H as <- <-.
    now apply sc_callback.
  - destruct (c_mode s) eqn:M; try discriminate. injection H as <- <-. now apply sc_read.
  - destruct (c_mode s) eqn:M; try discriminate. injection H as <- <-. now apply sc_readfail.
  - destruct (c_mode s) eqn:M; try discriminate. injection H as H. apply sc_iter; [exact M|].
    now apply iteration_case.
  - destruct (c_mode s) as [| | |b m present visited loop] eqn:M; try discriminate.
    destruct (find_pkg id (c_inflight s)) as [p|] eqn:F; [|discriminate].
    destruct (mem id visited) eqn:V; [discriminate|]. apply find_pkg_Some in F.
    apply visit_inv in H. apply mem_not_In in V.
    eapply sc_visit; try eassumption; tauto.
  - destruct (c_mode s) as [| | |b m present visited loop] eqn:M; try discriminate.
    destruct (forallb _ present) eqn:F; [|discriminate].
    destruct (spawn_callback m s) as [s1 ev1] eqn:SP. injection H as <- <-.
    eapply sc_controlend; try eassumption. intros i Hi Hf.
    rewrite forallb_forall in F. specialize (F i Hi). apply orb_prop in F. destruct F as [F|F].
    + now apply mem_In.
    + apply negb_true_iff, mem_not_In in F. contradiction.
Qed.

Lemma visit_chan b m loop p s s' ev : visit_case b m loop p s s' ev -> c_crashed s = false ->
  chan s ev s'.
Proof.
  intros H Hc.
  assert (R : forall s1 ev1, recv_case b s s1 ev1 -> chan s ev1 s1 /\ c_crashed s1 = false).
  { intros s1 ev1 R. split.
    - destruct R; apply chan_quiet; reflexivity.
    - destruct R; assumption. }
  destruct H as [H|s1 ev1 L RC M|s1 ev1 msg s2 ev2 L RC M K CP|s1 ev1 msg L RC M K|s1 ev1 msg L RC M K1 K2].
  - now apply chan_nil.
  - destruct (R _ _ RC) as [C1 K1]. eapply chan_trans; [exact C1| |exact K1]. now apply chan_quiet.
  - destruct (R _ _ RC) as [C1 K1]. apply close_pkg_chan in CP. destruct CP as [C2 _].
    eapply chan_trans; [exact C1| |exact K1].
    destruct C2 as [A [B C]]. split; [exact A|]. split; [exact B|exact C].
  - destruct (R _ _ RC) as [C1 K1].
    eapply chan_trans; [exact C1| |exact K1]. apply chan_quiet; reflexivity.
  - now destruct (R _ _ RC).
Qed.

Lemma expire_chan i s s' ev : expire i s = (s', ev) -> chan s ev s' /\ c_crashed s' = c_crashed s.
Proof.
  unfold expire. destruct (find_pkg i (c_inflight s)).
  - intros H. apply close_pkg_chan in H. destruct H as [C [K _]]. split; [|exact K].
    destruct C as [A [B C]]. split; [exact A|]. split; [exact B|exact C].
  - intros H. injection H as <- <-. split; [now apply chan_nil|reflexivity].
Qed.

Lemma iter_chan order accepts s s' ev : iter_case order accepts s s' ev -> c_crashed s = false ->
  chan s ev s'.
Proof.
  intros H Hc. destruct H as [| | | | |r d s2 ev2 _ _ _ _ _ DL C2|r d s2 ev2 s3 ev3 _ _ _ _ _ DL C2 SP];
    try (apply chan_nil; reflexivity).
  - apply deliver_chan in DL; [|exact Hc]. exact DL.
  - apply deliver_chan in DL; [|exact Hc]. apply spawn_callback_fields in SP. destruct SP as [-> E3].
    eapply chan_trans; [exact DL| |exact C2].
    apply chan_quiet; try reflexivity. intros i. rewrite replies_app.
    destruct E3 as [->|[n [rr ->]]]; reflexivity.
Qed.

Lemma step_chan s l s' ev : step s l = Some (s', ev) ->
  (forall data w timeout er, l <> LCall data w timeout er) -> chan s ev s'.
Proof.
  intros H NL. pose proof (step_alive _ _ _ _ H) as Hc. apply step_inv in H.
  destruct H; try (apply chan_nil; reflexivity); try (apply chan_quiet; reflexivity).
  - exfalso. eapply NL. reflexivity.
  - destruct (mem i (c_open s)); apply chan_quiet; reflexivity.
  - apply expire_chan in H0. destruct H0 as [C _]. exact C.
  - now apply iter_chan in H0.
  - now apply visit_chan in H3.
  - apply spawn_callback_fields in H1. destruct H1 as [-> [->|[n [r ->]]]];
      apply chan_quiet; reflexivity.
Qed.

Lemma replies_invariant ls s tr : run init ls = Some (s, tr) ->
  (forall i, In i (c_open s) -> (i < c_next s)%nat) /\
  forall i, good (replies i tr) /\
    (replies i tr = [Message] -> c_crashed s = true) /\
    (replies i tr <> [] -> (i < c_next s)%nat /\ ~ In i (c_open s)).
Proof.
  revert ls s tr. apply run_ind_from.
  - split; [intros i []|]. intros i. cbn. unfold good. cbn. intuition congruence.
  - intros ls s tr l s' ev _ [B G] H. pose proof (step_alive _ _ _ _ H) as Hc.
    assert (D : (exists data w timeout er, l = LCall data w timeout er) \/
                forall data w timeout er, l <> LCall data w timeout er).
    { destruct l; try (right; intros; discriminate). left. eauto 6. }
    destruct D as [[data [w [timeout [er ->]]]]|NL].
    + apply step_inv in H. inversion H; subst. conn_simpl. split.
      * intros i Hi. assert (Hi' : i = c_next s \/ In i (c_open s)) by (destruct w; cbn in Hi; intuition).
        destruct Hi' as [->|Hi']; [lia|]. apply B in Hi'. lia.
      * intros i. rewrite replies_app. cbn [replies flat_map app]. rewrite app_nil_r.
        destruct (G i) as [G1 [G2 G3]]. split; [exact G1|]. split.
        -- intros E. rewrite (G2 E) in Hc. discriminate.
        -- intros N. destruct (G3 N) as [L O]. split; [lia|]. intros Hi.
           destruct w; cbn in Hi; intuition lia.
    + pose proof (step_chan _ _ _ _ H NL) as [N [I C]]. rewrite N. split.
      * intros i Hi. apply B. now apply I.
      * intros i. rewrite replies_app. destruct (G i) as [G1 [G2 G3]], (C i) as [C1 [C2 C3]].
        destruct (replies i tr) as [|x t] eqn:E.
        -- cbn [app]. split; [exact C1|]. split; [exact C2|]. intros X. destruct (C3 X) as [P Q].
           split; [now apply B|exact Q].
        -- destruct (G3 ltac:(discriminate)) as [L O].
           assert (E2 : replies i ev = []).
           { destruct (replies i ev); [reflexivity|]. exfalso. apply O. now apply C3. }
           rewrite E2, app_nil_r. split; [exact G1|]. split.
           ++ intros X. rewrite (G2 X) in Hc. discriminate.
           ++ intros _. split; [exact L|]. intros X. apply O. now apply I.
Qed.

Theorem one_reply ls s tr i : run init ls = Some (s, tr) ->
  In (replies i tr) [[]; [Message]; [Closed]; [Message; Closed]] /\
  (replies i tr = [Message] -> c_crashed s = true).
Proof. intros H. destruct (replies_invariant _ _ _ H) as [_ G]. destruct (G i) as [A [B _]]. auto. Qed.

(** ** What each kind of step leaves alone *)
Definition reply_event (e : event) : Prop :=
  match e with EvDeliver _ _ | EvClose _ | EvCrash => True | _ => False end.
Definition visit_event (e : event) : Prop :=
  match e with EvResult _ _ | EvClose _ | EvCancel _ | EvCrash => True | _ => False end.

Lemma set_c_inflight_same s : set_c_inflight (c_inflight s) s = s.
Proof. now destruct s. Qed.

Lemma conn_eta3 s : s = set_c_crashed (c_crashed s) (set_c_inflight (c_inflight s) (set_c_open (c_open s) s)).
Proof. now destruct s. Qed.

Lemma close_pkg_events i s s' ev : close_pkg i s = (s', ev) -> ev = [] \/ ev = [EvClose i].
Proof.
  unfold close_pkg. destruct (mem i (c_open s)); intros H; injection H as <- <-; auto.
Qed.

Lemma deliver_fields buf m accepts ps s s' ev :
  deliver buf m accepts ps s = (s', ev) ->
  s' = set_c_crashed (c_crashed s') (set_c_inflight (c_inflight s') (set_c_open (c_open s') s)) /\
  incl (c_inflight s') (c_inflight s) /\ Forall reply_event ev.
Proof.
  revert s s' ev. induction ps as [|p r IH]; intros s s' ev H; cbn [deliver] in H.
  - injection H as <- <-. split; [apply conn_eta3|]. split; [apply incl_refl|constructor].
  - destruct (pkg_match p buf) as [[|]|e|].
    + destruct (close_pkg (p_id p) s) as [s1 ev1] eqn:E1.
      pose proof (close_pkg_fields _ _ _ _ E1) as F1. pose proof (close_pkg_events _ _ _ _ E1) as V1.
      assert (V1' : Forall reply_event ev1) by (destruct V1 as [->| ->]; repeat constructor).
      set (s2 := set_c_inflight (del_pkg (p_id p) (c_inflight s1)) s1) in *.
      assert (I2 : incl (c_inflight s2) (c_inflight s)).
      { unfold s2. conn_simpl. rewrite F1. conn_simpl. intros q Hq. now apply del_pkg_In in Hq. }
      destruct (deliver buf m accepts r s2) as [s3 ev3] eqn:E3.
      apply IH in E3. destruct E3 as [F3 [I3 V3]].
      assert (F3' : s3 = set_c_crashed (c_crashed s3) (set_c_inflight (c_inflight s3) (set_c_open (c_open s3) s))).
      { etransitivity; [exact F3|]. unfold s2. rewrite F1. now destruct s. }
      assert (I3' : incl (c_inflight s3) (c_inflight s)) by (eapply incl_tran; eassumption).
      destruct (mem (p_id p) (c_open s) && mem (p_id p) accepts && negb (mem (p_id p) (c_fetch s))).
      * assert (X : (s' = set_c_crashed true s2 /\ ev = [EvDeliver (p_id p) m; EvCrash]) \/
                    (s' = s3 /\ ev = EvDeliver (p_id p) m :: ev1 ++ ev3)).
        { destruct (p_want p), m; injection H as <- <-; auto. }
        destruct X as [[-> ->]|[-> ->]].
        -- split; [unfold s2; rewrite F1; now destruct s|]. split; [exact I2|]. repeat constructor.
        -- split; [exact F3'|]. split; [exact I3'|]. constructor; [exact I|]. now apply Forall_app.
      * injection H as <- <-. split; [exact F3'|]. split; [exact I3'|]. now apply Forall_app.
    + now apply IH.
    + injection H as <- <-. split; [now destruct s|]. split; [apply incl_refl|repeat constructor].
    + injection H as <- <-. split; [now destruct s|]. split; [apply incl_refl|repeat constructor].
Qed.

Lemma expire_fields i s s' ev : expire i s = (s', ev) ->
  s' = set_c_inflight (c_inflight s') (set_c_open (c_open s') s) /\
  incl (c_inflight s') (c_inflight s) /\ Forall reply_event ev.
Proof.
  unfold expire. destruct (find_pkg i (c_inflight s)).
  - intros H. pose proof (close_pkg_fields _ _ _ _ H) as F. pose proof (close_pkg_events _ _ _ _ H) as V.
    split; [rewrite F; now destruct s|]. split.
    + rewrite F. conn_simpl. intros q Hq. now apply del_pkg_In in Hq.
    + destruct V as [->| ->]; repeat constructor.
  - intros H. injection H as <- <-. split; [now destruct s|]. split; [apply incl_refl|constructor].
Qed.

Lemma visit_fields b m loop p s s' ev : visit_case b m loop p s s' ev ->
  s' = set_c_crashed (c_crashed s') (set_c_resend (c_resend s') (set_c_writers (c_writers s')
        (set_c_inflight (c_inflight s') (set_c_open (c_open s') s)))) /\
  incl (c_inflight s') (c_inflight s) /\ Forall visit_event ev.
Proof.
  intros H.
  assert (R : forall s1 ev1, recv_case b s s1 ev1 ->
             s1 = set_c_writers (c_writers s1) s /\ Forall visit_event ev1).
  { intros s1 ev1 R. split; [eapply recv_fields; exact R|]. destruct R; repeat constructor. }
  destruct H as [H|s1 ev1 L RC M|s1 ev1 msg s2 ev2 L RC M K CP|s1 ev1 msg L RC M K|s1 ev1 msg L RC M K1 K2].
  - split; [now destruct s|]. split; [apply incl_refl|constructor].
  - destruct (R _ _ RC) as [F V]. rewrite F. split; [now destruct s|]. split; [apply incl_refl|].
    apply Forall_app. split; [exact V|repeat constructor].
  - destruct (R _ _ RC) as [F V]. pose proof (close_pkg_fields _ _ _ _ CP) as F2.
    pose proof (close_pkg_events _ _ _ _ CP) as V2. split; [rewrite F2, F; now destruct s|]. split.
    + rewrite F2. conn_simpl. rewrite F. conn_simpl. intros q Hq. now apply del_pkg_In in Hq.
    + apply Forall_app. split; [exact V|]. destruct V2 as [->| ->]; repeat constructor.
  - destruct (R _ _ RC) as [F V]. rewrite F. split; [now destruct s|]. split; [apply incl_refl|].
    apply Forall_app. split; [exact V|repeat constructor].
  - destruct (R _ _ RC) as [F V]. rewrite F. split; [now destruct s|]. split; [apply incl_refl|exact V].
Qed.

(** The reader's own step leaves everything alone but the buffer, the mode, the
    pending table, the reply channels and the callbacks. *)
Definition iter_event (e : event) : Prop :=
  match e with
  | EvDeliver _ _ | EvClose _ | EvCrash | EvSpawn _ _ | EvFrame _ _ | EvAck | EvSkip _ => True
  | _ => False
  end.
Lemma reply_iter_event ev : Forall reply_event ev -> Forall iter_event ev.
Proof. apply Forall_impl. intros []; cbn; tauto. Qed.

Lemma iter_fields order accepts s s' ev : iter_case order accepts s s' ev ->
  s' = set_c_crashed (c_crashed s') (set_c_callbacks (c_callbacks s') (set_c_mode (c_mode s')
        (set_c_buf (c_buf s') (set_c_inflight (c_inflight s') (set_c_open (c_open s') s))))) /\
  incl (c_inflight s') (c_inflight s) /\ Forall iter_event ev.
Proof.
  intros H. destruct H as [| | | | |r d s2 ev2 _ _ _ _ _ DL C2|r d s2 ev2 s3 ev3 _ _ _ _ _ DL C2 SP].
  1-5: (split; [now destruct s|]; split; [apply incl_refl|repeat constructor]).
  - apply deliver_fields in DL. destruct DL as [F [I V]]. split; [rewrite F; now destruct s|].
    split; [exact I|now apply reply_iter_event].
  - apply deliver_fields in DL. destruct DL as [F [I V]].
    apply spawn_callback_fields in SP. destruct SP as [E3 V3]. rewrite E3. conn_simpl.
    split; [rewrite F; now destruct s|]. split; [exact I|].
    apply Forall_app. split; [now apply reply_iter_event|]. apply Forall_app. split.
    + destruct V3 as [->|[n [rr ->]]]; repeat constructor.
    + repeat constructor.
Qed.

(** ** Where commands come from *)
Definition issued (tr : list event) (p : pkg) : Prop :=
  exists data w timeout er, In (EvCall (p_id p) data w timeout er) tr /\
    p = new_send_package (p_id p) data w timeout er.
Lemma issued_app tr ev p : issued tr p -> issued (tr ++ ev) p.
Proof.
  intros [data [w [t [er [H E]]]]]. exists data, w, t, er. split; [|exact E]. apply in_app_iff. now left.
Qed.

(** The packages a state knows of. *)
Definition known (s : conn) (p : pkg) : Prop :=
  In p (c_inflight s) \/ In p (map fst (c_sendq s)) \/ In p (map snd (c_loopvars s)).

Lemma set_loopvar_In loop p l x : In x (set_loopvar loop p l) -> x = (loop, p) \/ In x l.
Proof. intros [H|H]; [now left|]. apply filter_In in H. right. tauto. Qed.
Lemma assoc_In {A} i (l : list (nat * A)) x : assoc i l = Some x -> In (i, x) l.
Proof.
  induction l as [|[j y] r IH]; cbn; [discriminate|].
  destruct (Nat.eqb_spec i j) as [->|]; intros H; [injection H as <-; now left|right; auto].
Qed.

Lemma step_known s l s' ev p : step s l = Some (s', ev) -> known s' p ->
  known s p \/ exists data w timeout er, l = LCall data w timeout er /\ p_id p = c_next s /\
     p = new_send_package (c_next s) data w timeout er /\
     ev = [EvCall (c_next s) data w timeout er; EvQueue (c_next s) false].
Proof.
  intros H K. apply step_inv in H.
  destruct H; unfold known in K |- *; conn_simpl_in K; try (left; exact K).
  - rewrite map_app in K. cbn [map fst] in K. rewrite in_app_iff in K. cbn [In] in K.
    destruct K as [K|[[K|[K|[]]]|K]]; auto. right. exists data, w, timeout, er. subst p. auto.
  - left. rewrite put_pkg_In in K. rewrite H0. cbn [map fst In]. intuition.
  - apply expire_fields in H0. destruct H0 as [F [I V]]. rewrite F in K. conn_simpl_in K.
    left. destruct K as [K|K]; [left; now apply I|now right].
  - left. rewrite map_app in K. cbn [map fst] in K. rewrite in_app_iff in K. cbn [In] in K.
    destruct K as [K|[[K|[K|[]]]|K]]; auto. subst p0. right. right.
    apply in_map_iff. exists (loop, p). split; [reflexivity|]. now apply assoc_In.
  - apply iter_fields in H0. destruct H0 as [F [I V]]. rewrite F in K. conn_simpl_in K.
    left. destruct K as [K|K]; [left; now apply I|now right].
  - apply visit_fields in H3. destruct H3 as [F [I V]]. rewrite F in K. conn_simpl_in K.
    left. destruct K as [K|[K|K]]; [left; now apply I|now right; left|].
    apply in_map_iff in K. destruct K as [[j q] [E Hq]]. cbn in E. subst q.
    apply set_loopvar_In in Hq. destruct Hq as [Hq|Hq].
    + injection Hq as _ ->. now left.
    + right. right. apply in_map_iff. exists (j, p). auto.
  - apply spawn_callback_fields in H1. destruct H1 as [-> _]. conn_simpl_in K. now left.
Qed.

Lemma known_issued ls s tr : run init ls = Some (s, tr) -> forall p, known s p -> issued tr p.
Proof.
  revert ls s tr.
  apply (run_ind_from init (fun ls s tr => forall p, known s p -> issued tr p)).
  - intros p [[]|[[]|[]]].
  - intros ls s tr l s' ev _ IH H p K. destruct (step_known _ _ _ _ _ H K) as [K'|[data [w [t [er [-> [E [Hp He]]]]]]]].
    + apply issued_app. now apply IH.
    + exists data, w, t, er. rewrite E. split; [|exact Hp]. apply in_app_iff. right. rewrite He. now left.
Qed.

(** Call ids are fresh. *)
Definition called (tr : list event) : list nat :=
  flat_map (fun e => match e with EvCall i _ _ _ _ => [i] | _ => [] end) tr.
Lemma called_app a b : called (a ++ b) = called a ++ called b.
Proof. apply flat_map_app. Qed.
Lemma called_In i tr : In i (called tr) <-> exists data w t er, In (EvCall i data w t er) tr.
Proof.
  unfold called. rewrite in_flat_map. split.
  - intros [e [He Hi]]. destruct e; cbn in Hi; try contradiction. destruct Hi as [<-|[]]. eauto 6.
  - intros [data [w [t [er H]]]]. eexists. split; [exact H|]. now left.
Qed.

Lemma no_call_in ev (P : event -> Prop) : Forall P ev ->
  (forall i d w t e, ~ P (EvCall i d w t e)) -> called ev = [].
Proof.
  intros H N. induction H as [|e ev He _ IH]; [reflexivity|].
  destruct e; try exact IH. now apply N in He.
Qed.

Lemma step_called s l s' ev : step s l = Some (s', ev) ->
  (called ev = [] /\ c_next s' = c_next s) \/
  (called ev = [c_next s] /\ c_next s' = S (c_next s)).
Proof.
  intros H. apply step_inv in H. destruct H; try (left; split; reflexivity); try (right; split; reflexivity).
  - left. split; [|reflexivity]. now destruct (mem i (c_open s)).
  - apply expire_fields in H0. destruct H0 as [F [I V]]. left. split; [|now rewrite F].
    apply (no_call_in _ _ V). cbn. tauto.
  - apply iter_fields in H0. destruct H0 as [F [I V]]. left. split; [|now rewrite F].
    apply (no_call_in _ _ V). cbn. tauto.
  - apply visit_fields in H3. destruct H3 as [F [I V]]. left. split; [|now rewrite F].
    apply (no_call_in _ _ V). cbn. tauto.
  - apply spawn_callback_fields in H1. destruct H1 as [-> [->|[n [r ->]]]]; left; split; reflexivity.
Qed.

Lemma called_fresh ls s tr : run init ls = Some (s, tr) -> called tr = seq 0 (c_next s).
Proof.
  revert ls s tr. apply (run_ind_from init (fun ls s tr => called tr = seq 0 (c_next s))).
  - reflexivity.
  - intros ls s tr l s' ev _ IH H. rewrite called_app, IH.
    destruct (step_called _ _ _ _ H) as [[E1 E2]|[E1 E2]]; rewrite E1, E2; [apply app_nil_r|].
    now rewrite seq_S.
Qed.

Lemma call_unique ls s tr i d1 w1 t1 e1 d2 w2 t2 e2 : run init ls = Some (s, tr) ->
  In (EvCall i d1 w1 t1 e1) tr -> In (EvCall i d2 w2 t2 e2) tr ->
  d1 = d2 /\ w1 = w2 /\ t1 = t2 /\ e1 = e2.
Proof.
  intros H H1 H2. apply called_fresh in H.
  assert (N : NoDup (called tr)) by (rewrite H; apply seq_NoDup).
  clear H s ls. revert N H1 H2. induction tr as [|e tr IH]; [intros _ []|].
  intros N [->|H1] [E2|H2].
  - injection E2 as <- <- <- <-. auto.
  - exfalso. cbn in N. apply NoDup_cons_iff in N. apply (proj1 N). apply called_In. eauto 6.
  - subst e. exfalso. cbn in N. apply NoDup_cons_iff in N. apply (proj1 N). apply called_In. eauto 6.
  - apply IH; auto. cbn in N. destruct e; try exact N. cbn in N. now apply NoDup_cons_iff in N.
Qed.

(** ** Commands reach the wire in queue order (C32) *)
Lemma queued_app a b : queued (a ++ b) = queued a ++ queued b.
Proof. apply flat_map_app. Qed.
Lemma written_app a b : written (a ++ b) = written a ++ written b.
Proof. apply flat_map_app. Qed.
Lemma no_traffic ev (P : event -> Prop) : Forall P ev ->
  (forall i a, ~ P (EvQueue i a)) -> (forall i b, ~ P (EvWire i b)) -> queued ev = [] /\ written ev = [].
Proof.
  intros H N1 N2. induction H as [|e ev He _ [IH1 IH2]]; [split; reflexivity|].
  destruct e; try (split; assumption); [now apply N1 in He|now apply N2 in He].
Qed.

Lemma step_order s l s' ev : step s l = Some (s', ev) ->
  map (fun x => p_id (fst x)) (c_sendq s) ++ queued ev
  = written ev ++ map (fun x => p_id (fst x)) (c_sendq s').
Proof.
  intros H. apply step_inv in H.
  destruct H; conn_simpl; cbn [queued written flat_map app]; rewrite ?app_nil_r; try reflexivity.
  - now rewrite map_app.
  - now destruct (mem i (c_open s)); cbn; rewrite app_nil_r.
  - now rewrite H0.
  - apply expire_fields in H0. destruct H0 as [F [I V]]. rewrite F. conn_simpl.
    destruct (no_traffic _ _ V) as [-> ->]; cbn; try tauto. now rewrite app_nil_r.
  - now rewrite map_app.
  - apply iter_fields in H0. destruct H0 as [F [I V]]. rewrite F. conn_simpl.
    destruct (no_traffic _ _ V) as [-> ->]; cbn; try tauto. now rewrite app_nil_r.
  - apply visit_fields in H3. destruct H3 as [F [I V]]. rewrite F. conn_simpl.
    destruct (no_traffic _ _ V) as [-> ->]; cbn; try tauto. now rewrite app_nil_r.
  - apply spawn_callback_fields in H1. destruct H1 as [-> [->|[n [r ->]]]]; cbn; now rewrite app_nil_r.
Qed.

Theorem wire_order ls s tr : run init ls = Some (s, tr) ->
  queued tr = written tr ++ map (fun x => p_id (fst x)) (c_sendq s).
Proof.
  revert ls s tr. apply (run_ind_from init (fun ls s tr => queued tr = written tr ++ map (fun x => p_id (fst x)) (c_sendq s))).
  - reflexivity.
  - intros ls s tr l s' ev _ IH H. rewrite queued_app, written_app, IH, <- !app_assoc. f_equal.
    now apply step_order in H.
Qed.

Lemma step_wire s l s' ev i bytes : step s l = Some (s', ev) -> In (EvWire i bytes) ev ->
  exists w p again q, l = LTake w /\ c_sendq s = (p, again) :: q /\ i = p_id p /\ bytes = p_message p.
Proof.
  intros H Hin. apply step_inv in H. destruct H; cbn in Hin; try (exfalso; intuition discriminate).
  - destruct (mem i0 (c_open s)); exfalso; cbn in Hin; intuition discriminate.
  - destruct Hin as [E|[]]. injection E as <- <-. eauto 8.
  - apply expire_fields in H0. destruct H0 as [_ [_ V]]. rewrite Forall_forall in V. now apply V in Hin.
  - apply iter_fields in H0. destruct H0 as [_ [_ V]]. rewrite Forall_forall in V. now apply V in Hin.
  - apply visit_fields in H3. destruct H3 as [_ [_ V]]. rewrite Forall_forall in V. now apply V in Hin.
  - apply spawn_callback_fields in H1. destruct H1 as [_ [->|[n [r ->]]]]; cbn in Hin; intuition discriminate.
Qed.

Theorem wire_bytes ls s tr i bytes : run init ls = Some (s, tr) -> In (EvWire i bytes) tr ->
  exists data w timeout er, In (EvCall i data w timeout er) tr /\ bytes = compile_message data.
Proof.
  revert ls s tr. apply (run_ind_from init (fun ls s tr => In (EvWire i bytes) tr ->
    exists data w timeout er, In (EvCall i data w timeout er) tr /\ bytes = compile_message data)).
  - intros [].
  - intros ls s tr l s' ev R IH H Hin. apply in_app_iff in Hin. destruct Hin as [Hin|Hin].
    + destruct (IH Hin) as [data [w [t [er [Hc Hb]]]]]. exists data, w, t, er.
      split; [apply in_app_iff; now left|exact Hb].
    + destruct (step_wire _ _ _ _ _ _ H Hin) as [wr [p [again [q [-> [Q [-> ->]]]]]]].
      destruct (known_issued _ _ _ R p) as [data [w [t [er [Hc Hp]]]]].
      { right. left. rewrite Q. now left. }
      exists data, w, t, er. split; [apply in_app_iff; now left|]. now rewrite Hp.
Qed.

(** ** Open channels are in the pending table, with a timer (C30) *)
Definition keeps (s : conn) (ev : list event) (s' : conn) : Prop :=
  incl (c_open s') (c_open s) /\
  (forall i, In i (c_open s) -> In i (c_open s') \/ In (EvClose i) ev \/ c_crashed s' = true) /\
  (forall p, In p (c_inflight s) -> In p (c_inflight s') \/ ~ In (p_id p) (c_open s')).

Lemma keeps_refl s ev s' : c_open s' = c_open s -> c_inflight s' = c_inflight s -> keeps s ev s'.
Proof.
  intros H1 H2. unfold keeps. rewrite H1, H2. split; [apply incl_refl|]. split; auto.
Qed.
Lemma keeps_trans s1 e1 s2 e2 s3 : keeps s1 e1 s2 -> keeps s2 e2 s3 ->
  c_crashed s2 = false -> keeps s1 (e1 ++ e2) s3.
Proof.
  intros [I1 [A1 B1]] [I2 [A2 B2]] Hc. split; [eapply incl_tran; eassumption|]. split.
  - intros i Hi. rewrite in_app_iff. destruct (A1 i Hi) as [H|[H|H]]; [|tauto|congruence].
    destruct (A2 i H) as [H'|[H'|H']]; tauto.
  - intros p Hp. destruct (B1 p Hp) as [H|H].
    + apply B2 in H. tauto.
    + right. intros X. apply H. now apply I2.
Qed.

(** Removing a package from the table and closing it. *)
Lemma close_keeps i s s' ev : close_pkg i s = (s', ev) ->
  keeps s ev (set_c_inflight (del_pkg i (c_inflight s')) s').
Proof.
  intros H. pose proof (close_pkg_chan _ _ _ _ H) as [[_ [I _]] [_ [O K]]].
  pose proof (close_pkg_fields _ _ _ _ H) as F.
  split; [exact I|]. split.
  - intros j Hj. conn_simpl. destruct (Nat.eq_dec j i) as [->|N]; [|left; now apply K].
    right. left. unfold close_pkg in H. apply mem_In in Hj. rewrite Hj in H. injection H as _ <-. now left.
  - intros p Hp. conn_simpl. rewrite del_pkg_In. rewrite F. conn_simpl.
    destruct (Nat.eq_dec (p_id p) i) as [E|N]; [right; now rewrite E|left; tauto].
Qed.
Lemma close_keeps' i s s' ev :
  close_pkg i (set_c_inflight (del_pkg i (c_inflight s)) s) = (s', ev) -> keeps s ev s'.
Proof.
  intros H. pose proof (close_pkg_chan _ _ _ _ H) as [[_ [I _]] [_ [O K]]].
  pose proof (close_pkg_fields _ _ _ _ H) as F. conn_simpl_in I. conn_simpl_in K.
  split; [exact I|]. split.
  - intros j Hj. destruct (Nat.eq_dec j i) as [->|N]; [|left; now apply K].
    right. left. unfold close_pkg in H. conn_simpl_in H. apply mem_In in Hj. rewrite Hj in H.
    injection H as _ <-. now left.
  - intros p Hp. rewrite F. conn_simpl. rewrite del_pkg_In.
    destruct (Nat.eq_dec (p_id p) i) as [E|N]; [right; now rewrite E|left; tauto].
Qed.

Lemma deliver_keeps buf m accepts ps s s' ev :
  deliver buf m accepts ps s = (s', ev) -> c_crashed s = false -> keeps s ev s'.
Proof.
  revert s s' ev. induction ps as [|p r IH]; intros s s' ev H Hc; cbn [deliver] in H.
  - injection H as <- <-. now apply keeps_refl.
  - destruct (pkg_match p buf) as [[|]|e|].
    + destruct (close_pkg (p_id p) s) as [s1 ev1] eqn:E1.
      pose proof (close_keeps _ _ _ _ E1) as K1.
      set (s2 := set_c_inflight (del_pkg (p_id p) (c_inflight s1)) s1) in *.
      assert (C2 : c_crashed s2 = false).
      { unfold s2. conn_simpl. apply close_pkg_chan in E1. destruct E1 as [_ [-> _]]. exact Hc. }
      destruct (deliver buf m accepts r s2) as [s3 ev3] eqn:E3. apply IH in E3; [|exact C2].
      pose proof (keeps_trans _ _ _ _ _ K1 E3 C2) as K3.
      destruct (mem (p_id p) (c_open s) && mem (p_id p) accepts && negb (mem (p_id p) (c_fetch s))).
      * assert (X : (s' = set_c_crashed true s2 /\ ev = [EvDeliver (p_id p) m; EvCrash]) \/
                    (s' = s3 /\ ev = EvDeliver (p_id p) m :: ev1 ++ ev3)).
        { destruct (p_want p), m; injection H as <- <-; auto. }
        destruct X as [[-> ->]|[-> ->]].
        -- destruct K1 as [I1 [A1 B1]]. split; [exact I1|]. split; [|exact B1]. intros i _. auto.
        -- destruct K3 as [I3 [A3 B3]]. split; [exact I3|]. split; [|exact B3]. intros i Hi.
           destruct (A3 i Hi) as [Q|[Q|Q]]; auto. right. left. now right.
      * injection H as <- <-. exact K3.
    + now apply IH.
    + injection H as <- <-. now apply keeps_refl.
    + injection H as <- <-. now apply keeps_refl.
Qed.

Lemma expire_keeps i s s' ev : expire i s = (s', ev) -> keeps s ev s'.
Proof.
  unfold expire. destruct (find_pkg i (c_inflight s)).
  - apply close_keeps'.
  - intros H. injection H as <- <-. now apply keeps_refl.
Qed.

Lemma keeps_ext s ev s' t : keeps s ev s' ->
  c_open t = c_open s -> c_inflight t = c_inflight s -> keeps t ev s'.
Proof. intros [A [B C]] H1 H2. unfold keeps. rewrite H1, H2. auto. Qed.

Lemma visit_keeps b m loop p s s' ev : visit_case b m loop p s s' ev -> c_crashed s = false ->
  keeps s ev s'.
Proof.
  intros H Hc.
  assert (R : forall s1 ev1, recv_case b s s1 ev1 -> keeps s ev1 s1 /\ c_crashed s1 = false).
  { intros s1 ev1 R. destruct R; (split; [now apply keeps_refl|exact Hc]). }
  destruct H as [H|s1 ev1 L RC M|s1 ev1 msg s2 ev2 L RC M K CP|s1 ev1 msg L RC M K|s1 ev1 msg L RC M K1 K2].
  - now apply keeps_refl.
  - destruct (R _ _ RC) as [K1 C1]. eapply keeps_trans; [exact K1| |exact C1]. now apply keeps_refl.
  - destruct (R _ _ RC) as [K1 C1]. eapply keeps_trans; [exact K1| |exact C1]. now apply close_keeps' in CP.
  - destruct (R _ _ RC) as [K1 C1]. eapply keeps_trans; [exact K1| |exact C1]. now apply keeps_refl.
  - now apply R.
Qed.

Lemma iter_keeps order accepts s s' ev : iter_case order accepts s s' ev -> c_crashed s = false ->
  keeps s ev s'.
Proof.
  intros H Hc. destruct H as [| | | | |r d s2 ev2 _ _ _ _ _ DL C2|r d s2 ev2 s3 ev3 _ _ _ _ _ DL C2 SP];
    try (apply keeps_refl; reflexivity).
  - apply deliver_keeps in DL; [|exact Hc]. exact DL.
  - apply deliver_keeps in DL; [|exact Hc]. apply spawn_callback_fields in SP. destruct SP as [-> _].
    eapply keeps_trans; [exact DL| |exact C2]. now apply keeps_refl.
Qed.

Lemma step_keeps s l s' ev : step s l = Some (s', ev) ->
  (forall data w timeout er, l <> LCall data w timeout er) -> (forall w, l <> LTake w) -> keeps s ev s'.
Proof.
  intros H NL NT. pose proof (step_alive _ _ _ _ H) as Hc. apply step_inv in H.
  destruct H; try (apply keeps_refl; reflexivity).
  - exfalso. eapply NL. reflexivity.
  - exfalso. eapply NT. reflexivity.
  - apply expire_keeps in H0. exact H0.
  - now apply iter_keeps in H0.
  - apply visit_keeps in H3; [|exact Hc]. exact H3.
  - apply spawn_callback_fields in H1. destruct H1 as [-> _]. now apply keeps_refl.
Qed.

Lemma written_In i tr : In i (written tr) <-> exists bytes, In (EvWire i bytes) tr.
Proof.
  unfold written. rewrite in_flat_map. split.
  - intros [e [He Hi]]. destruct e; cbn in Hi; try contradiction. destruct Hi as [<-|[]]. eauto.
  - intros [b H]. eexists. split; [exact H|]. now left.
Qed.
Lemma written_called ls s tr i : run init ls = Some (s, tr) -> In i (written tr) -> (i < c_next s)%nat.
Proof.
  intros H Hi. apply written_In in Hi. destruct Hi as [b Hb].
  destruct (wire_bytes _ _ _ _ _ H Hb) as [data [w [t [er [Hc _]]]]].
  apply called_fresh in H. assert (In i (called tr)) as X by (apply called_In; eauto 6).
  rewrite H in X. apply in_seq in X. lia.
Qed.

Definition is_call (l : label) : Prop :=
  match l with LCall _ _ _ _ => True | _ => False end.
Lemma label_split l : (exists data w t er, l = LCall data w t er) \/ (exists w, l = LTake w) \/
  (exists k, l = LTimer k) \/
  ((forall data w timeout er, l <> LCall data w timeout er) /\ (forall w, l <> LTake w) /\ forall k, l <> LTimer k).
Proof. destruct l; eauto 8; right; right; right; repeat split; intros; discriminate. Qed.

Lemma step_timers s l s' ev : step s l = Some (s', ev) ->
  (forall w, l <> LTake w) -> (forall k, l <> LTimer k) -> c_timers s' = c_timers s.
Proof.
  intros H NT NM. apply step_inv in H. destruct H; try reflexivity.
  - exfalso. eapply NT. reflexivity.
  - exfalso. eapply NM. reflexivity.
  - apply iter_fields in H0. destruct H0 as [-> _]. reflexivity.
  - apply visit_fields in H3. destruct H3 as [-> _]. reflexivity.
  - apply spawn_callback_fields in H1. destruct H1 as [-> _]. reflexivity.
Qed.

Lemma written_step s l s' ev : step s l = Some (s', ev) -> (forall w, l <> LTake w) -> written ev = [].
Proof.
  intros H N. destruct (written ev) as [|i t] eqn:E; [reflexivity|]. exfalso.
  assert (Hi : In i (written ev)) by (rewrite E; now left).
  apply written_In in Hi. destruct Hi as [b Hb].
  destruct (step_wire _ _ _ _ _ _ H Hb) as [w [p [ag [q [-> _]]]]]. now apply (N w).
Qed.

(** Pending entries with a timeout have a running timer; written requests with
    an open channel are pending. *)
Lemma pending_invariant ls s tr : run init ls = Some (s, tr) ->
  (forall p, In p (c_inflight s) -> p_timeout p = true -> In (p_id p) (c_timers s)) /\
  (c_crashed s = false -> forall i, In i (written tr) -> In i (c_open s) ->
     exists p, In p (c_inflight s) /\ p_id p = i).
Proof.
  revert ls s tr. apply run_ind_from.
  - split; [intros p []|]. intros _ i [].
  - intros ls s tr l s' ev R [T W] H. pose proof (step_alive _ _ _ _ H) as Hc.
    specialize (W Hc).
    destruct (label_split l) as [[data [w [t [er ->]]]]|[[w ->]|[[k ->]|[N1 [N2 N3]]]]].
    + apply step_inv in H. inversion H; subst. conn_simpl. split; [exact T|].
      intros _ i. rewrite written_app. cbn [written flat_map]. rewrite app_nil_r. intros Hw Ho.
      apply W; [exact Hw|]. apply (written_called _ _ _ _ R) in Hw.
      destruct w; cbn in Ho; [exact Ho| |]; (destruct Ho as [E|Ho]; [lia|exact Ho]).
    + apply step_inv in H. inversion H; subst. conn_simpl. split.
      * intros q0 Hq Ht. apply put_pkg_In in Hq. destruct Hq as [->|[Hq _]].
        -- rewrite Ht. apply in_app_iff. right. now left.
        -- specialize (T q0 Hq Ht). destruct (p_timeout p); [apply in_app_iff; now left|exact T].
      * intros _ i. rewrite written_app. cbn [written flat_map app]. rewrite in_app_iff. intros Hw Ho.
        destruct (Nat.eq_dec i (p_id p)) as [->|N].
        -- exists p. split; [apply put_pkg_In; now left|reflexivity].
        -- destruct Hw as [Hw|[Hw|[]]]; [|congruence]. destruct (W i Hw Ho) as [q0 [Hq E]].
           exists q0. split; [|exact E]. apply put_pkg_In. right. split; [exact Hq|congruence].
    + pose proof (step_keeps _ _ _ _ H ltac:(discriminate) ltac:(discriminate)) as [I [A B]].
      pose proof (written_step _ _ _ _ H ltac:(discriminate)) as NW.
      apply step_inv in H. inversion H as [| | | | | | |k' j s'' ev' HT HX| | | | | | |]; subst.
      pose proof HX as HX'. apply expire_fields in HX'. destruct HX' as [F [J V]]. conn_simpl_in J.
      split.
      * intros q Hq Ht. rewrite F. conn_simpl.
        assert (Hq' : In q (c_inflight s)) by now apply J.
        specialize (T q Hq' Ht). pose proof (nth_error_perm _ _ _ HT) as P.
        apply (Permutation_in _ P) in T. destruct T as [E|T]; [|exact T]. exfalso. subst j.
        unfold expire in HX. conn_simpl_in HX. destruct (find_pkg (p_id q) (c_inflight s)) as [p0|] eqn:FP.
        -- apply close_pkg_fields in HX. rewrite HX in Hq. conn_simpl_in Hq. apply del_pkg_In in Hq. tauto.
        -- eapply find_pkg_None in FP; [|exact Hq']. now apply FP.
      * intros _ i. rewrite written_app, NW, app_nil_r. intros Hw Ho.
        destruct (W i Hw (I _ Ho)) as [p [Hp E]]. destruct (B p Hp) as [Q|Q]; [eauto|].
        rewrite E in Q. contradiction.
    + pose proof (step_keeps _ _ _ _ H N1 N2) as [I [A B]].
      pose proof (written_step _ _ _ _ H N2) as NW. pose proof (step_timers _ _ _ _ H N2 N3) as ET.
      split.
      * intros q Hq Ht. rewrite ET. apply T; [|exact Ht].
        destruct (step_known _ _ _ _ q H) as [K|[data [w [t [er [-> _]]]]]].
        -- now left.
        -- clear - H Hq N1 N2. apply step_inv in H. destruct H; conn_simpl_in Hq; try exact Hq.
           ++ exfalso. eapply N2. reflexivity.
           ++ apply expire_fields in H0. destruct H0 as [_ [J _]]. now apply J.
           ++ apply iter_fields in H0. destruct H0 as [_ [J _]]. now apply J.
           ++ apply visit_fields in H3. destruct H3 as [_ [J _]]. now apply J.
           ++ apply spawn_callback_fields in H1. destruct H1 as [-> _]. exact Hq.
        -- exfalso. eapply N1. reflexivity.
      * intros _ i. rewrite written_app, NW, app_nil_r. intros Hw Ho.
        destruct (W i Hw (I _ Ho)) as [p [Hp E]]. destruct (B p Hp) as [Q|Q]; [eauto|].
        rewrite E in Q. contradiction.
Qed.

Lemma in_closed i tr : In (EvClose i) tr -> In Closed (replies i tr).
Proof.
  intros H. unfold replies. apply in_flat_map. exists (EvClose i). split; [exact H|].
  cbn. rewrite Nat.eqb_refl. now left.
Qed.

(** A waiting request whose channel was not closed is open. *)
Lemma open_invariant ls s tr : run init ls = Some (s, tr) -> c_crashed s = false ->
  forall i data w t er, In (EvCall i data w t er) tr -> w <> NoWait ->
  ~ In Closed (replies i tr) -> In i (c_open s).
Proof.
  revert ls s tr. apply (run_ind_from init (fun ls s tr => c_crashed s = false ->
    forall i data w t er, In (EvCall i data w t er) tr -> w <> NoWait ->
    ~ In Closed (replies i tr) -> In i (c_open s))).
  - intros _ i data w t er [].
  - intros ls s tr l s' ev R IH H Hc' i data w t er Hin Hw Hnc.
    pose proof (step_alive _ _ _ _ H) as Hc. rewrite replies_app, in_app_iff in Hnc.
    apply in_app_iff in Hin.
    assert (HI : In (EvCall i data w t er) tr -> In i (c_open s)).
    { intros Hi. eapply IH; eauto. }
    assert (GEN : (forall d0 w0 t0 e0, l <> LCall d0 w0 t0 e0) -> (forall w0, l <> LTake w0) -> In i (c_open s')).
    { intros N1 N2. pose proof (step_keeps _ _ _ _ H N1 N2) as [I [A B]].
      assert (Hi : In (EvCall i data w t er) tr).
      { destruct Hin as [Hi|Hi]; [exact Hi|]. exfalso.
        destruct (step_called _ _ _ _ H) as [[E _]|[E X]].
        - assert (Y : In i (called ev)) by (apply called_In; eauto 6). rewrite E in Y. destruct Y.
        - apply step_inv in H. destruct H; conn_simpl_in X; try (clear - X; lia).
          + eapply N1. reflexivity.
          + apply expire_fields in H0. destruct H0 as [F _]. rewrite F in X. conn_simpl_in X. clear - X; lia.
          + apply iter_fields in H0. destruct H0 as [F _]. rewrite F in X. conn_simpl_in X. clear - X; lia.
          + apply visit_fields in H3. destruct H3 as [F _]. rewrite F in X. conn_simpl_in X. clear - X; lia.
          + apply spawn_callback_fields in H1. destruct H1 as [-> _]. conn_simpl_in X. clear - X; lia. }
      destruct (A i (HI Hi)) as [Q|[Q|Q]]; [exact Q| |congruence].
      exfalso. apply Hnc. right. now apply in_closed. }
    destruct (label_split l) as [[d0 [w0 [t0 [e0 ->]]]]|[[w0 ->]|[[k ->]|[N1 [N2 N3]]]]];
      [| |apply GEN; discriminate|now apply GEN].
    + apply step_inv in H. inversion H; subst. conn_simpl. destruct Hin as [Hi|Hi].
      * apply HI in Hi. destruct w0; [exact Hi|now right|now right].
      * cbn in Hi. destruct Hi as [E|[E|[]]]; [|discriminate]. injection E as <- <- <- <- <-.
        destruct w0; [congruence| |]; now left.
    + apply step_inv in H. inversion H; subst. conn_simpl. destruct Hin as [Hi|Hi]; [now apply HI|].
      cbn in Hi. destruct Hi as [E|[]]. discriminate.
Qed.

Theorem timer_closes ls s tr i data w er : run init ls = Some (s, tr) -> c_crashed s = false ->
  In (EvCall i data w true er) tr -> w <> NoWait -> In i (written tr) ->
  ~ In Closed (replies i tr) ->
  exists k s' ev, step s (LTimer k) = Some (s', ev) /\ In (EvClose i) ev.
Proof.
  intros H Hc Hcall Hw Hwr Hn.
  pose proof (open_invariant _ _ _ H Hc _ _ _ _ _ Hcall Hw Hn) as Ho.
  destruct (pending_invariant _ _ _ H) as [T P]. destruct (P Hc i Hwr Ho) as [p [Hp E]].
  assert (Ht : p_timeout p = true).
  { destruct (known_issued _ _ _ H p (or_introl Hp)) as [d2 [w2 [t2 [e2 [Hc2 Ep]]]]].
    rewrite E in Hc2. destruct (call_unique _ _ _ _ _ _ _ _ _ _ _ _ H Hcall Hc2) as [_ [_ [<- _]]].
    now rewrite Ep. }
  specialize (T p Hp Ht). rewrite E in T. apply In_nth_error in T. destruct T as [k Hk].
  exists k. unfold step. rewrite Hc, Hk. unfold expire. conn_simpl.
  destruct (find_pkg i (c_inflight s)) as [q|] eqn:F.
  - unfold close_pkg. conn_simpl. apply mem_In in Ho. rewrite Ho. do 2 eexists. split; [reflexivity|now left].
  - eapply find_pkg_None in F; [|exact Hp]. contradiction.
Qed.

(** ** Stop and wait (C31, C37) *)
Definition waiting (w : writer) : list nat := match w with WWaiting i => [i] | _ => [] end.

Lemma turns_app a b : turns (a ++ b) = turns a ++ turns b.
Proof. apply flat_map_app. Qed.
Lemma no_turn ev (P : event -> Prop) : Forall P ev ->
  (forall i b, ~ P (EvWire i b)) -> (forall i b, ~ P (EvResult i b)) -> (forall i, ~ P (EvSendTimeout i)) ->
  turns ev = [].
Proof.
  intros H N1 N2 N3. induction H as [|e ev He _ IH]; [reflexivity|].
  destruct e; try exact IH; exfalso; [eapply N1|eapply N2|eapply N3]; exact He.
Qed.

(** What a step does to the writers and the turns, together. *)
Inductive turn_case (s : conn) (l : label) (ev : list event) (s' : conn) : Prop :=
| tc_none : l <> LConnect -> turns ev = [] -> c_writers s' = c_writers s -> turn_case s l ev s'
| tc_connect : l = LConnect -> turns ev = [] -> c_writers s' = c_writers s ++ [WIdle] -> turn_case s l ev s'
| tc_sent w i : l <> LConnect -> nth_error (c_writers s) w = Some WIdle -> turns ev = [Sent i] ->
    c_writers s' = set_nth w (WWaiting i) (c_writers s) -> turn_case s l ev s'
| tc_answered w i : l <> LConnect -> nth_error (c_writers s) w = Some (WWaiting i) -> turns ev = [Answered i] ->
    c_writers s' = set_nth w (WFinishing i) (c_writers s) -> turn_case s l ev s'
| tc_gaveup w i : l <> LConnect -> nth_error (c_writers s) w = Some (WWaiting i) -> turns ev = [GaveUp i] ->
    c_writers s' = set_nth w (WFinishing i) (c_writers s) -> turn_case s l ev s'
| tc_finish w i : l <> LConnect -> nth_error (c_writers s) w = Some (WFinishing i) -> turns ev = [] ->
    c_writers s' = set_nth w WIdle (c_writers s) -> turn_case s l ev s'.

Lemma step_turn s l s' ev : step s l = Some (s', ev) -> turn_case s l ev s'.
Proof.
  intros H. apply step_inv in H. destruct H; try (apply tc_none; [discriminate|reflexivity|reflexivity]).
  - now apply tc_connect.
  - apply tc_none; [discriminate| |reflexivity]. now destruct (mem i (c_open s)).
  - eapply tc_sent; [discriminate|eassumption|reflexivity|reflexivity].
  - eapply tc_gaveup; [discriminate|eassumption|reflexivity|reflexivity].
  - eapply tc_finish; [discriminate|eassumption|reflexivity|reflexivity].
  - apply expire_fields in H0. destruct H0 as [F [_ V]]. apply tc_none; [discriminate| |now rewrite F].
    apply (no_turn _ _ V); cbn; tauto.
  - apply iter_fields in H0. destruct H0 as [F [_ V]]. apply tc_none; [discriminate| |now rewrite F].
    apply (no_turn _ _ V); cbn; tauto.
  - assert (R : forall s0 s1 ev1, recv_case b s0 s1 ev1 -> c_writers s0 = c_writers s ->
       (turns ev1 = [] /\ c_writers s1 = c_writers s) \/
       exists w j, nth_error (c_writers s) w = Some (WWaiting j) /\ turns ev1 = [Answered j] /\
                   c_writers s1 = set_nth w (WFinishing j) (c_writers s)).
    { intros s0 s1 ev1 R0 E0. destruct R0 as [|w j Hw]; [now left|]. right. exists w, j.
      conn_simpl. rewrite E0 in *. auto. }
    assert (Z : forall ev1 ev2 w', turns ev2 = [] ->
       (turns ev1 = [] /\ w' = c_writers s) \/
       (exists w j, nth_error (c_writers s) w = Some (WWaiting j) /\ turns ev1 = [Answered j] /\
                    w' = set_nth w (WFinishing j) (c_writers s)) ->
       c_writers s' = w' -> turn_case s (LVisit i receiver) (ev1 ++ ev2) s').
    { intros ev1 ev2 w' E2 D Ew. destruct D as [[E1 ->]|[w [j [Hw [E1 ->]]]]].
      - apply tc_none; [discriminate| |exact Ew]. now rewrite turns_app, E1, E2.
      - eapply tc_answered; [discriminate|exact Hw| |exact Ew]. now rewrite turns_app, E1, E2. }
    destruct H3 as [_|s1 ev1 _ RC _|s1 ev1 msg s2 ev2 _ RC _ _ CP|s1 ev1 msg _ RC _ _|s1 ev1 msg _ RC _ _ _].
    + now apply tc_none.
    + eapply Z; [reflexivity|apply (R _ _ _ RC); reflexivity|reflexivity].
    + eapply Z; [|apply (R _ _ _ RC); reflexivity|].
      * apply close_pkg_events in CP. now destruct CP as [->| ->].
      * apply close_pkg_fields in CP. now rewrite CP.
    + eapply Z; [reflexivity|apply (R _ _ _ RC); reflexivity|reflexivity].
    + rewrite <- (app_nil_r ev1). eapply Z; [reflexivity|apply (R _ _ _ RC); reflexivity|reflexivity].
  - apply spawn_callback_fields in H1. destruct H1 as [-> V]. apply tc_none; [discriminate| |reflexivity].
    destruct V as [->|[n [r ->]]]; reflexivity.
Qed.

Lemma connects_app a b : connects (a ++ b) = (connects a + connects b)%nat.
Proof. unfold connects. now rewrite filter_app, app_length. Qed.
Lemma connects_one l : l <> LConnect -> connects [l] = 0%nat.
Proof. destruct l; try reflexivity. congruence. Qed.

Lemma writers_connects ls s tr : run init ls = Some (s, tr) -> List.length (c_writers s) = connects ls.
Proof.
  revert ls s tr. apply (run_ind_from init (fun ls s tr => List.length (c_writers s) = connects ls)).
  - reflexivity.
  - intros ls s tr l s' ev _ IH H. rewrite connects_app.
    destruct (step_turn _ _ _ _ H) as [N _ E| -> _ E|w i N _ _ E|w i N _ _ E|w i N _ _ E|w i N _ _ E];
      rewrite E, ?set_nth_length, ?(connects_one _ N); try lia.
    rewrite app_length. cbn. lia.
Qed.

Theorem alternates ls s tr : run init ls = Some (s, tr) -> (connects ls <= 1)%nat ->
  exists o, stop_and_wait (turns tr) o.
Proof.
  intros H.
  assert (X : (connects ls <= 1)%nat ->
     stop_and_wait (turns tr) (match c_writers s with [WWaiting i] => Some i | _ => None end)).
  { revert ls s tr H. apply (run_ind_from init (fun ls s tr => (connects ls <= 1)%nat ->
      stop_and_wait (turns tr) (match c_writers s with [WWaiting i] => Some i | _ => None end))).
    - intros _. constructor.
    - intros ls s tr l s' ev R IH H. rewrite connects_app. intros Hle.
      specialize (IH ltac:(lia)). pose proof (writers_connects _ _ _ R) as L.
      rewrite turns_app.
      assert (ONE : forall w x, nth_error (c_writers s) w = Some x -> w = O /\ c_writers s = [x]).
      { intros w x Hx. destruct (c_writers s) as [|y [|z r]]; cbn in L.
        - now destruct w.
        - destruct w as [|w]; [cbn in Hx; injection Hx as ->; auto|]. now destruct w.
        - lia. }
      destruct (step_turn _ _ _ _ H) as [N T E| -> T E|w i N W T E|w i N W T E|w i N W T E|w i N W T E];
        rewrite T, E, ?app_nil_r.
      + exact IH.
      + change (connects [LConnect]) with 1%nat in Hle.
        destruct (c_writers s) as [|y r]; [exact IH|cbn in L; lia].
      + destruct (ONE _ _ W) as [-> E1]. rewrite E1 in *. cbn. now constructor.
      + destruct (ONE _ _ W) as [-> E1]. rewrite E1 in *. cbn. now apply sw_answered.
      + destruct (ONE _ _ W) as [-> E1]. rewrite E1 in *. cbn. now apply sw_gave_up.
      + destruct (ONE _ _ W) as [-> E1]. rewrite E1 in *. cbn. exact IH. }
  intros Hle. eauto.
Qed.

Definition waiting_count (ws : list writer) : nat := List.length (flat_map waiting ws).
Lemma waiting_set_nth ws : forall w x y, nth_error ws w = Some x ->
  (waiting_count (set_nth w y ws) + List.length (waiting x) = waiting_count ws + List.length (waiting y))%nat.
Proof.
  unfold waiting_count. induction ws as [|z ws IH]; intros [|w] x y H; cbn in H; try discriminate.
  - injection H as ->. cbn [set_nth flat_map]. rewrite !app_length. lia.
  - specialize (IH w x y H). cbn [set_nth flat_map]. rewrite !app_length. lia.
Qed.
Lemma waiting_count_le ws : (waiting_count ws <= List.length ws)%nat.
Proof.
  unfold waiting_count. induction ws as [|z ws IH]; cbn; [lia|]. rewrite app_length.
  destruct z; cbn; lia.
Qed.

Theorem outstanding_bound ls s tr : run init ls = Some (s, tr) ->
  (ended_count tr <= sent_count tr <= ended_count tr + connects ls)%nat.
Proof.
  intros H.
  assert (X : sent_count tr = (ended_count tr + waiting_count (c_writers s))%nat).
  { revert ls s tr H. apply (run_ind_from init (fun ls s tr =>
      sent_count tr = (ended_count tr + waiting_count (c_writers s))%nat)).
    - reflexivity.
    - intros ls s tr l s' ev R IH H. unfold sent_count, ended_count in *. rewrite turns_app, !filter_app, !app_length.
      destruct (step_turn _ _ _ _ H) as [N T E| -> T E|w i N W T E|w i N W T E|w i N W T E|w i N W T E];
        rewrite T, E; cbn [filter List.length];
        try (match goal with |- context[set_nth w ?y _] =>
               pose proof (waiting_set_nth _ _ _ y W) as Q; cbn [waiting List.length] in Q end); try lia.
      unfold waiting_count in *. rewrite flat_map_app, app_length. cbn. lia. }
  pose proof (waiting_count_le (c_writers s)). rewrite (writers_connects _ _ _ H) in *. lia.
Qed.

(** ** The last command (C34) *)
Lemma last_written ls s tr i : run init ls = Some (s, tr) -> c_last s = Some i ->
  exists l, written tr = l ++ [i].
Proof.
  revert ls s tr. apply (run_ind_from init (fun ls s tr => c_last s = Some i -> exists l, written tr = l ++ [i])).
  - discriminate.
  - intros ls s tr l s' ev R IH H. rewrite written_app.
    destruct (label_split l) as [[d0 [w0 [t0 [e0 ->]]]]|[[w0 ->]|D]].
    + apply step_inv in H. inversion H; subst. conn_simpl. cbn. rewrite app_nil_r. exact IH.
    + apply step_inv in H. inversion H; subst. conn_simpl. intros E. injection E as <-. cbn. eauto.
    + assert (N2 : forall w, l <> LTake w) by (destruct D as [[k ->]|[_ [N2 _]]]; [discriminate|exact N2]).
      rewrite (written_step _ _ _ _ H N2), app_nil_r.
      assert (E : c_last s' = c_last s \/ c_last s' = None).
      { apply step_inv in H. destruct H; try (left; reflexivity); try (right; reflexivity).
        - exfalso. eapply N2. reflexivity.
        - apply expire_fields in H0. destruct H0 as [-> _]. now left.
        - apply iter_fields in H0. destruct H0 as [-> _]. now left.
        - apply visit_fields in H3. destruct H3 as [-> _]. now left.
        - apply spawn_callback_fields in H1. destruct H1 as [-> _]. now left. }
      destruct E as [E|E]; rewrite E; [exact IH|discriminate].
Qed.
