(** When NewMessage/Decode panic, and independence of following bytes. *)
From Verif Require Import ModelBase ModelReports ModelSerial SpecFrame SpecDecode ProofBase ProofSerial.
From Coq Require Import ZifyBool ZifyNat ZifyN Arith.
Ltac Zify.zify_post_hook ::= Z.div_mod_to_equations.

Lemma idx_lt l i : (i < List.length l)%nat -> idx l i = Ok (nth i l x00).
Proof. intros H. apply idx_ok. now apply nth_error_nth'. Qed.

Lemma byte_at_eq l i : byte_at l i = b2N (nth i l x00).
Proof. reflexivity. Qed.

Lemma clear_at_set_nth i l : clear_at i l = set_nth i x00 l.
Proof. revert i; induction l as [|b l IH]; intros [|i]; cbn; auto. now rewrite IH. Qed.

(** reports.New never panics. *)
Lemma new_alarm_np data : new_alarm data <> Panic.
Proof.
  unfold new_alarm. destruct (Nat.ltb_spec (List.length data) 2) as [H|H]; [discriminate|].
  rewrite !idx_lt by lia. cbn [bind].
  destruct (Nat.leb_spec 6 (List.length data)) as [H6|H6]; [|discriminate].
  rewrite !idx_lt by lia. discriminate.
Qed.

Lemma new_sensor_np data : new_sensor data <> Panic.
Proof.
  unfold new_sensor. destruct (Nat.ltb_spec (List.length data) 2) as [H|H]; [discriminate|].
  rewrite !idx_lt by lia. cbn [bind].
  match goal with |- context [if ?c then _ else _] => destruct c end; discriminate.
Qed.

Lemma reports_new_np c class data : reports_new c class data <> Panic.
Proof.
  unfold reports_new.
  assert (Hm : new_manufacturer data <> Panic).
  { destruct data as [|? [|? [|? [|? [|? [|? [|? ?]]]]]]]; discriminate. }
  assert (He : new_endpoints data <> Panic).
  { destruct data as [|? [|? ?]]; discriminate. }
  pose proof (new_alarm_np data) as Ha. pose proof (new_sensor_np data) as Hs.
  assert (Hb : match List.length data with
               | 1%nat => new_switch_binary1 data | 3%nat => new_switch_binary2 data
               | _ => Fail EUnknownCommand end <> Panic).
  { destruct data as [|? [|? [|? [|? ?]]]]; discriminate. }
  assert (Hl : match List.length data with
               | 1%nat => new_switch_multi1 data | 3%nat => new_switch_multi4 data
               | _ => Fail EUnknownCommand end <> Panic).
  { destruct data as [|? [|? [|? [|? ?]]]]; discriminate. }
  destruct c; try discriminate; destruct class; try discriminate; assumption.
Qed.

Lemma ach_panic p : new_application_command_handler p = Panic <-> (len p < 2)%nat.
Proof.
  unfold new_application_command_handler, len.
  destruct (Nat.lt_ge_cases (List.length (els p)) 2) as [H|H].
  - split; [auto|intros _].
    destruct (idx_cases (els p) 0) as [[b0 [-> _]]|[-> _]]; [cbn [bind]|reflexivity].
    destruct (idx_cases (els p) 1) as [[b1 [_ [_ H1]]]|[-> _]]; [lia|reflexivity].
  - rewrite !idx_lt by lia. cbn [bind]. unfold from, sub, cap, backing.
    rewrite app_length. unfold len.
    destruct (Nat.leb_spec 2 (List.length (els p))); [|lia].
    destruct (Nat.leb_spec (List.length (els p)) (List.length (els p) + List.length (spare p))); [|lia].
    cbn [andb bind els].
    match goal with |- context [reports_new ?a ?b ?c] =>
      pose proof (reports_new_np a b c) as Hnp; destruct (reports_new a b c) end;
      cbn [bind]; split; try discriminate; try contradiction; lia.
Qed.

Lemma upd_bool_ok arr i v :
  (i < List.length arr)%nat -> upd_bool arr i v = Ok (set_nth i v arr).
Proof. intros H. unfold upd_bool. destruct (Nat.ltb_spec i (List.length arr)); [reflexivity|lia]. Qed.

(** The loop of NewDiscoverdNodes: array writes in order. *)
Definition put8 (arr : list bool) (index : nat) (bits : byte) : list bool :=
  set_nth (index * 8 + 7) (hasbit bits x80)
 (set_nth (index * 8 + 6) (hasbit bits x40)
 (set_nth (index * 8 + 5) (hasbit bits x20)
 (set_nth (index * 8 + 4) (hasbit bits x10)
 (set_nth (index * 8 + 3) (hasbit bits x08)
 (set_nth (index * 8 + 2) (hasbit bits x04)
 (set_nth (index * 8 + 1) (hasbit bits x02)
 (set_nth (index * 8 + 0) (hasbit bits x01) arr))))))).

Lemma discovery_step arr index bits r :
  (index * 8 + 7 < List.length arr)%nat ->
  discovery_loop arr index (bits :: r) = discovery_loop (put8 arr index bits) (S index) r.
Proof.
  intros H. cbn [discovery_loop].
  repeat (rewrite upd_bool_ok by (rewrite ?set_nth_length; lia); cbn [bind]).
  reflexivity.
Qed.

Lemma put8_length arr i b : List.length (put8 arr i b) = List.length arr.
Proof. unfold put8. now rewrite !set_nth_length. Qed.

Lemma discovery_panic data : forall arr index,
  List.length arr = 232%nat -> (index <= 29)%nat ->
  discovery_loop arr index data = Panic <-> (29 < index + List.length data)%nat.
Proof.
  induction data as [|b r IH]; intros arr index Ha Hi.
  - cbn. split; [discriminate|lia].
  - destruct (Nat.lt_ge_cases index 29) as [H|H].
    + rewrite discovery_step by lia. rewrite IH; [|rewrite put8_length; exact Ha|lia].
      cbn [List.length]. lia.
    + assert (index = 29%nat) by lia. subst index. cbn [discovery_loop].
      unfold upd_bool at 1. rewrite Ha. cbn [Nat.mul Nat.add Nat.ltb Nat.leb bind List.length].
      split; [lia|reflexivity].
Qed.

Lemma discovery_not_fail data : forall arr index e, discovery_loop arr index data <> Fail e.
Proof.
  induction data as [|b r IH]; intros arr index e; cbn [discovery_loop]; [discriminate|].
  unfold upd_bool at 1.
  assert (Hb : forall a i v (k : list bool -> res (list bool)),
     (forall a', k a' <> Fail e) -> bind (upd_bool a i v) k <> Fail e).
  { intros a i v k Hk. unfold upd_bool. destruct (i <? List.length a)%nat; cbn [bind]; [apply Hk|discriminate]. }
  fold (upd_bool arr (index * 8 + 0) (hasbit b x01)).
  repeat (apply Hb; intros ?). apply IH.
Qed.

Lemma discovered_panic data : new_discovered_nodes data = Panic <-> (29 < List.length data)%nat.
Proof.
  unfold new_discovered_nodes. destruct (Nat.ltb_spec (List.length data) 6) as [H|H].
  - split; [discriminate|lia].
  - rewrite discovery_panic; [lia|reflexivity|lia].
Qed.

Lemma protocol_info_np data : new_protocol_info data <> Panic.
Proof.
  unfold new_protocol_info. destruct (Nat.ltb_spec (List.length data) 6) as [H|H]; [discriminate|].
  rewrite !idx_lt by lia. cbn [bind]. discriminate.
Qed.

(** The payload slice [data[7 : 7+data[6]]]. *)
Lemma payload_slice d n :
  (7 <= cap d)%nat ->
  ((b2N n <= 248)%N /\ (7 + b2n n <= cap d)%nat /\
   sub d 7 (b2n (add8 x07 n)) = Ok {| els := firstn (b2n n) (skipn 7 (backing d));
                                      spare := skipn (7 + b2n n) (backing d) |}
   /\ List.length (firstn (b2n n) (skipn 7 (backing d))) = b2n n)
  \/ (((248 < b2N n)%N \/ (cap d < 7 + b2n n)%nat) /\ sub d 7 (b2n (add8 x07 n)) = Panic).
Proof.
  intros Hc.
  assert (Hadd : b2N (add8 x07 n) = ((7 + b2N n) mod 256)%N).
  { unfold add8. rewrite b2N_N2b. reflexivity. }
  pose proof (b2N_lt n) as Hn. pose proof (b2n_b2N n) as Hbn.
  pose proof (b2n_b2N (add8 x07 n)) as Hb2.
  unfold sub.
  destruct (N.ltb_spec 248 (b2N n)) as [H|H].
  - right. split; [left; exact H|].
    destruct (Nat.leb_spec 7 (b2n (add8 x07 n))) as [H7|H7]; [|reflexivity].
    exfalso. lia.
  - assert (Hx : b2n (add8 x07 n) = (7 + b2n n)%nat) by lia. rewrite Hx.
    destruct (Nat.leb_spec 7 (7 + b2n n)) as [_|H7]; [|lia].
    destruct (Nat.leb_spec (7 + b2n n) (cap d)) as [Hle|Hgt]; cbn [andb].
    + left. split; [exact H|]. split; [exact Hle|]. split.
      * repeat f_equal. lia.
      * rewrite firstn_length, skipn_length. unfold cap in *. lia.
    + right. split; [right; exact Hgt|reflexivity].
Qed.

Lemma from_ok d k : (k <= len d)%nat -> from d k = Ok {| els := skipn k (els d); spare := spare d |}.
Proof.
  intros H. unfold from, sub, cap, backing, len in *. rewrite app_length.
  destruct (Nat.leb_spec k (List.length (els d))); [|lia].
  destruct (Nat.leb_spec (List.length (els d)) (List.length (els d) + List.length (spare d))); [|lia].
  cbn [andb]. f_equal. f_equal.
  - rewrite skipn_app. replace (k - List.length (els d))%nat with 0%nat by lia. cbn [skipn].
    rewrite firstn_app, skipn_length.
    rewrite Nat.sub_diag. cbn [firstn]. rewrite app_nil_r.
    rewrite <- skipn_length. apply firstn_all.
  - rewrite skipn_app, Nat.sub_diag, skipn_all. reflexivity.
Qed.

Lemma cap_ge_len d : (len d <= cap d)%nat.
Proof. unfold len, cap, backing. rewrite app_length. lia. Qed.

(** Reading the body of [new_message] once the header is available. *)
Lemma new_message_4 d :
  (4 <= len d)%nat ->
  new_message d =
    let l := els d in let b := fun i => nth i l x00 in
    match b 3 with
    | x04 =>
        do node <- idx l 5;
        do n <- idx l 6;
        do p <- sub d 7 (b2n (add8 x07 n));
        do pl <- new_application_command_handler p;
        Ok {| m_length := b 1; m_type := b 2; m_function := b 3; m_node := node;
              m_start := b 0; m_data := Some pl |}
    | x02 =>
        do n <- idx l 6;
        do p <- sub d 7 (b2n (add8 x07 n));
        do a <- new_discovered_nodes (els p);
        Ok {| m_length := b 1; m_type := b 2; m_function := b 3; m_node := x00;
              m_start := b 0; m_data := Some (PNodes a) |}
    | x41 =>
        do pi <- new_protocol_info (skipn 4 l);
        Ok {| m_length := b 1; m_type := b 2; m_function := b 3; m_node := x00;
              m_start := b 0; m_data := Some (PInfo pi) |}
    | _ => Fail ENotImplemented
    end.
Proof.
  intros H. unfold new_message. rewrite idx_lt by (unfold len in H; lia). cbn [bind].
  destruct (Nat.leb_spec (len d) 1) as [H1|_]; [lia|].
  rewrite !idx_lt with (i := 1%nat) by (unfold len in H; lia).
  rewrite !idx_lt with (i := 2%nat) by (unfold len in H; lia).
  rewrite !idx_lt with (i := 3%nat) by (unfold len in H; lia). cbn [bind].
  rewrite from_ok by exact H. cbn [bind els]. cbv zeta beta.
  destruct (nth 3 (els d) x00); reflexivity.
Qed.

Lemma fn_cases b :
  b = x04 \/ b = x02 \/ b = x41 \/
  (forall A (x y z w : A), match b with x04 => x | x02 => y | x41 => z | _ => w end = w) /\
  b <> x04 /\ b <> x02 /\ b <> x41.
Proof.
  destruct b; auto; right; right; right; split; try (intros; reflexivity); repeat split; discriminate.
Qed.

Lemma b2N_const (b : byte) c : b2N b = b2N c <-> b = c.
Proof. split; [apply b2N_inj | now intros ->]. Qed.

Lemma new_message_panic d :
  els d <> [] ->
  new_message d = Panic <-> message_crashes (els d) (cap d).
Proof.
  intros Hne. unfold message_crashes. fold (len d).
  destruct (Nat.lt_ge_cases (len d) 4) as [H|H].
  - unfold new_message, len in *.
    destruct (els d) as [|b0 [|b1 [|b2 [|b3 r]]]] eqn:E; cbn [List.length] in *; try lia;
      cbn; try congruence; split; try (intros; discriminate); try lia; auto.
  - pose proof (cap_ge_len d) as Hcap.
    rewrite new_message_4 by exact H. cbv zeta beta. rewrite !byte_at_eq.
    assert (H04 : b2N (nth 3 (els d) x00) = 4%N <-> nth 3 (els d) x00 = x04) by apply (b2N_const _ x04).
    assert (H02 : b2N (nth 3 (els d) x00) = 2%N <-> nth 3 (els d) x00 = x02) by apply (b2N_const _ x02).
    rewrite H04, H02. clear H04 H02.
    pose proof (b2n_b2N (nth 6 (els d) x00)) as Hbn.
    destruct (fn_cases (nth 3 (els d) x00)) as [E|[E|[E|[E [N1 [N2 N3]]]]]]; [rewrite E|rewrite E|rewrite E|].
    + destruct (Nat.lt_ge_cases (len d) 7) as [H7|H7].
      * split; [intros _|intros _]; [right; right; left; auto|].
        destruct (idx_cases (els d) 5) as [[v [-> _]]|[-> _]]; [cbn [bind]|reflexivity].
        destruct (idx_cases (els d) 6) as [[v6 [_ [_ Hv6]]]|[-> _]]; [unfold len in *; lia|reflexivity].
      * rewrite !idx_lt by (unfold len in *; lia). cbn [bind].
        destruct (payload_slice d (nth 6 (els d) x00)) as [[Hn [Hc [-> Hl]]]|[Hcond ->]]; [lia| |].
        -- cbn [bind].
           match goal with |- context [new_application_command_handler ?p] =>
             pose proof (ach_panic p) as Hp; destruct (new_application_command_handler p) end;
             cbn [bind]; unfold len in Hp; cbn [els] in Hp; rewrite Hl in Hp.
           ++ split; [discriminate|]. intros Hx. exfalso.
              assert (@Ok payload a = Panic) by (apply Hp; intuition (try discriminate; lia)). discriminate.
           ++ split; [discriminate|]. intros Hx. exfalso.
              assert (@Fail payload e = Panic) by (apply Hp; intuition (try discriminate; lia)). discriminate.
           ++ split; [intros _|reflexivity]. right; right; left. split; [exact H|]. split; [reflexivity|].
              right; left. assert (b2n (nth 6 (els d) x00) < 2)%nat by (now apply Hp). lia.
        -- cbn [bind]. split; [intros _|reflexivity]. right; right; left. split; [exact H|].
           split; [reflexivity|]. destruct Hcond; lia.
    + destruct (Nat.lt_ge_cases (len d) 7) as [H7|H7].
      * split; [intros _|intros _]; [right; right; right; auto|].
        destruct (idx_cases (els d) 6) as [[v6 [_ [_ Hv6]]]|[-> _]]; [unfold len in *; lia|reflexivity].
      * rewrite !idx_lt by (unfold len in *; lia). cbn [bind].
        destruct (payload_slice d (nth 6 (els d) x00)) as [[Hn [Hc [-> Hl]]]|[Hcond ->]]; [lia| |].
        -- cbn [bind els].
           pose proof (discovered_panic (firstn (b2n (nth 6 (els d) x00)) (skipn 7 (backing d)))) as Hp.
           rewrite Hl in Hp.
           destruct (new_discovered_nodes (firstn (b2n (nth 6 (els d) x00)) (skipn 7 (backing d)))); cbn [bind].
           ++ split; [discriminate|]. intros Hx. exfalso.
              assert (@Ok (list bool) a = Panic) by (apply Hp; intuition (try discriminate; lia)). discriminate.
           ++ split; [discriminate|]. intros Hx. exfalso.
              assert (@Fail (list bool) e = Panic) by (apply Hp; intuition (try discriminate; lia)). discriminate.
           ++ split; [intros _|reflexivity]. right; right; right. split; [exact H|]. split; [reflexivity|].
              right; left. assert (29 < b2n (nth 6 (els d) x00))%nat by (now apply Hp). lia.
        -- cbn [bind]. split; [intros _|reflexivity]. right; right; right. split; [exact H|].
           split; [reflexivity|]. destruct Hcond; lia.
    + pose proof (protocol_info_np (skipn 4 (els d))) as Hp.
      split.
      * intros Hx. destruct (new_protocol_info (skipn 4 (els d))); cbn [bind] in Hx; try discriminate. contradiction.
      * intros Hx. exfalso. intuition (try discriminate; lia).
    + rewrite E. split; [discriminate|]. intros Hx. exfalso. intuition (try contradiction; lia).
Qed.

(** The exact condition for a panic in Decode. *)
Lemma decode_panic d :
  decode d = Panic <->
  els d = [] \/
  (shape_of (els d) SControl /\ message_crashes (els d) (cap d)) \/
  (exists k, shape_of (els d) (SFrame k) /\
             message_crashes (clear_at (k - 1) (els d)) (cap d)).
Proof.
  destruct (els d) as [|b l] eqn:E.
  - split; [auto|]. intros _. unfold decode. rewrite E. reflexivity.
  - rewrite <- E. assert (Hne : els d <> []) by congruence.
    destruct (shape_total (els d) Hne) as [s Hs].
    rewrite (decode_by_shape d s Hs). split.
    + intros H. destruct s as [k| | |k]; try discriminate.
      * exfalso. destruct (els d) as [|[] [|]]; discriminate.
      * right; left. split; [exact Hs|]. apply new_message_panic; [exact Hne|].
        unfold ctl in H. destruct (new_message d); (discriminate || reflexivity).
      * right; right. exists k. split; [exact Hs|].
        rewrite clear_at_set_nth.
        replace (cap d) with (cap (zeroed d k)).
        2:{ unfold cap, backing, zeroed; cbn [els spare]. now rewrite !app_length, set_nth_length. }
        change (set_nth (k - 1) x00 (els d)) with (els (zeroed d k)).
        apply new_message_panic.
        -- cbn [zeroed els]. rewrite E. destruct (k - 1)%nat; discriminate.
        -- unfold finish in H. destruct (new_message (zeroed d k)); (discriminate || reflexivity).
    + intros [H|[[H Hc]|[k [H Hc]]]]; [contradiction| |].
      * assert (s = SControl) by (eapply shape_unique; eauto). subst s.
        unfold ctl. apply new_message_panic in Hc; [|exact Hne]. now rewrite Hc.
      * assert (s = SFrame k) by (eapply shape_unique; eauto). subst s.
        rewrite clear_at_set_nth in Hc.
        replace (cap d) with (cap (zeroed d k)) in Hc.
        2:{ unfold cap, backing, zeroed; cbn [els spare]. now rewrite !app_length, set_nth_length. }
        change (set_nth (k - 1) x00 (els d)) with (els (zeroed d k)) in Hc.
        apply new_message_panic in Hc.
        -- unfold finish. now rewrite Hc.
        -- cbn [zeroed els]. rewrite E. destruct (k - 1)%nat; discriminate.
Qed.

(** ** Self-contained frames *)
Lemma nth_set_nth_other {A} i j (v d : A) l : i <> j -> nth j (set_nth i v l) d = nth j l d.
Proof.
  revert i j; induction l as [|x l IH]; intros [|i] [|j] H; cbn; auto; try lia.
Qed.

Lemma frame_last_split f : frame f -> (5 <= List.length f)%nat -> exists g c,
  f = g ++ [c] /\ List.length g = (List.length f - 1)%nat.
Proof.
  intros _ H. destruct (exists_last (l := f)) as [g [c ->]].
  - intros ->. cbn in H. lia.
  - exists g, c. split; [reflexivity|]. rewrite app_length. cbn. lia.
Qed.

Lemma zeroed_app f tail sp :
  (1 <= List.length f)%nat ->
  zeroed {| els := f ++ tail; spare := sp |} (List.length f)
  = {| els := set_nth (List.length f - 1) x00 f ++ tail; spare := sp |}.
Proof. intros H. unfold zeroed. cbn [els spare]. rewrite set_nth_app_l by lia. reflexivity. Qed.

Lemma new_protocol_info_app l t :
  (6 <= List.length l)%nat -> new_protocol_info (l ++ t) = new_protocol_info l.
Proof.
  intros H. unfold new_protocol_info. rewrite app_length.
  destruct (Nat.ltb_spec (List.length l + List.length t) 6); [lia|].
  destruct (Nat.ltb_spec (List.length l) 6); [lia|].
  rewrite !idx_lt by (rewrite ?app_length; lia).
  rewrite !app_nth1 by lia. reflexivity.
Qed.

Lemma handler_els p q :
  els p = els q -> new_application_command_handler p = new_application_command_handler q.
Proof.
  intros H. unfold new_application_command_handler. rewrite H.
  destruct (Nat.lt_ge_cases (List.length (els q)) 2) as [Hl|Hl].
  - destruct (idx_cases (els q) 0) as [[b0 [-> _]]|[-> _]]; [cbn [bind]|reflexivity].
    destruct (idx_cases (els q) 1) as [[b1 [_ [_ H1]]]|[-> _]]; [lia|reflexivity].
  - rewrite !from_ok by (unfold len; congruence || lia).
    cbn [bind els]. now rewrite H.
Qed.

(** If the promised payload lies within [g], what follows [g] is irrelevant. *)
Lemma new_message_local g tail sp :
  (4 <= List.length g)%nat ->
  (byte_at g 3 = 4%N -> (7 <= List.length g)%nat /\ (byte_at g 6 <= 248)%N /\
        (7 + byte_at g 6 <= N.of_nat (List.length g))%N) ->
  (byte_at g 3 = 2%N -> (7 <= List.length g)%nat /\ (byte_at g 6 <= 248)%N /\
        (7 + byte_at g 6 <= N.of_nat (List.length g))%N) ->
  (byte_at g 3 = 65%N -> (10 <= List.length g)%nat) ->
  new_message {| els := g ++ tail; spare := sp |} = new_message {| els := g; spare := [] |}.
Proof.
  intros H H04 H02 H41. rewrite byte_at_eq in *.
  set (D := {| els := g ++ tail; spare := sp |}). set (G := {| els := g; spare := [] |}).
  rewrite !new_message_4 by (unfold len, D, G; cbn [els]; rewrite ?app_length; lia).
  cbv zeta beta. change (els D) with (g ++ tail). change (els G) with g.
  assert (Hsub : forall n, (b2N n <= 248)%N -> (7 + b2N n <= N.of_nat (List.length g))%N ->
      exists p q, sub D 7 (b2n (add8 x07 n)) = Ok p /\ sub G 7 (b2n (add8 x07 n)) = Ok q /\ els p = els q).
  { intros n Hn Hg. pose proof (b2n_b2N n) as Hbn.
    destruct (payload_slice D n) as [[_ [_ [HD _]]]|[Hc _]].
    { unfold cap, backing, D; cbn [els spare]. rewrite !app_length. lia. }
    2:{ exfalso. unfold cap, backing, D in Hc; cbn [els spare] in Hc. rewrite !app_length in Hc. lia. }
    destruct (payload_slice G n) as [[_ [_ [HG _]]]|[Hc _]].
    { unfold cap, backing, G; cbn [els spare]. rewrite !app_length. lia. }
    2:{ exfalso. unfold cap, backing, G in Hc; cbn [els spare] in Hc. rewrite !app_length in Hc. lia. }
    eexists; eexists. split; [exact HD|]. split; [exact HG|]. cbn [els].
    unfold backing, D, G; cbn [els spare]. rewrite app_nil_r, <- app_assoc.
    rewrite skipn_app, firstn_app, skipn_length.
    replace (b2n n - (List.length g - 7))%nat with 0%nat by lia. cbn [firstn]. apply app_nil_r. }
  rewrite !app_nth1 by lia.
  destruct (fn_cases (nth 3 g x00)) as [E|[E|[E|[E _]]]]; [rewrite E|rewrite E|rewrite E|].
  - destruct H04 as [H7 [Hn Hlen]]; [rewrite E; reflexivity|]. rewrite byte_at_eq in *.
    rewrite !idx_lt by (rewrite ?app_length; lia). rewrite !app_nth1 by lia. cbn [bind].
    destruct (Hsub _ Hn Hlen) as [p [q [-> [-> Hpq]]]]. cbn [bind].
    rewrite (handler_els p q Hpq). reflexivity.
  - destruct H02 as [H7 [Hn Hlen]]; [rewrite E; reflexivity|]. rewrite byte_at_eq in *.
    rewrite !idx_lt by (rewrite ?app_length; lia). rewrite !app_nth1 by lia. cbn [bind].
    destruct (Hsub _ Hn Hlen) as [p [q [-> [-> Hpq]]]]. cbn [bind]. now rewrite Hpq.
  - assert (H10 : (10 <= List.length g)%nat) by (apply H41; rewrite E; reflexivity).
    rewrite skipn_app. replace (4 - List.length g)%nat with 0%nat by lia. rewrite skipn_O.
    rewrite new_protocol_info_app by (rewrite skipn_length; lia). reflexivity.
  - rewrite !E. reflexivity.
Qed.

Lemma self_contained_local f :
  self_contained f ->
  exists r, (r <> Panic) /\ forall tail sp,
    new_message (zeroed {| els := f ++ tail; spare := sp |} (List.length f)) = r.
Proof.
  intros [Hf [H5 [H04 [H02 H41]]]].
  set (g := set_nth (List.length f - 1) x00 f).
  assert (Hg : List.length g = List.length f) by apply set_nth_length.
  assert (B3 : byte_at g 3 = byte_at f 3).
  { rewrite !byte_at_eq. unfold g. rewrite nth_set_nth_other by lia. reflexivity. }
  assert (B6 : (8 <= List.length f)%nat -> byte_at g 6 = byte_at f 6).
  { intros H8. rewrite !byte_at_eq. unfold g. rewrite nth_set_nth_other by lia. reflexivity. }
  exists (new_message {| els := g; spare := [] |}). split.
  - intros Hp. apply new_message_panic in Hp.
    2:{ cbn [els]. intros E. rewrite E in Hg. cbn in Hg. lia. }
    unfold message_crashes, cap, backing in Hp. cbn [els spare] in Hp.
    rewrite app_nil_r, Hg, B3 in Hp.
    destruct Hp as [Hp|[Hp|[[_ [Hp1 Hp2]]|[_ [Hp1 Hp2]]]]]; lia.
  - intros tail sp. rewrite zeroed_app by lia. fold g.
    apply new_message_local.
    + lia.
    + rewrite B3, Hg. intros E. destruct (H04 E) as [H8 Hr]. rewrite B6 by exact H8. lia.
    + rewrite B3, Hg. intros E. destruct (H02 E) as [H8 Hr]. rewrite B6 by exact H8. lia.
    + rewrite B3, Hg. exact H41.
Qed.

Lemma decode_self_contained f :
  self_contained f ->
  exists r, d_len r = Z.of_nat (List.length f) /\
    forall tail sp, decode {| els := f ++ tail; spare := sp |}
      = Ok (r, {| els := clear_at (List.length f - 1) f ++ tail; spare := sp |}).
Proof.
  intros Hsc. destruct (self_contained_local f Hsc) as [m [Hnp Hm]].
  destruct Hsc as [Hf [H5 _]].
  exists match m with
         | Ok m => mkDecoded (Z.of_nat (List.length f)) (Some m) None
         | Fail e => mkDecoded (Z.of_nat (List.length f)) None (Some e)
         | Panic => mkDecoded 0 None None end.
  split; [destruct m; [reflexivity|reflexivity|contradiction]|].
  intros tail sp.
  rewrite (decode_by_shape _ (SFrame (List.length f))) by (now apply sh_frame).
  rewrite (Hm tail sp). rewrite zeroed_app by lia. rewrite clear_at_set_nth.
  unfold finish. destruct m; [reflexivity|reflexivity|contradiction].
Qed.

Lemma decode_effect_spec d r d' :
  decode d = Ok (r, d') ->
  spare d' = spare d /\
  (els d' = els d \/
   exists n rest, els d = SOF :: n :: rest /\ (N.to_nat (Byte.to_N n) <= List.length rest)%nat /\
     els d' = clear_at (N.to_nat (Byte.to_N n) + 1) (els d)).
Proof.
  intros H. destruct (decode_effect d r d' H) as [Hs [->|[n [rest [E [Hn ->]]]]]].
  - split; [reflexivity|]. now left.
  - split; [exact Hs|]. right. exists n, rest. split; [exact E|]. split; [exact Hn|].
    rewrite clear_at_set_nth. cbn [zeroed els]. unfold b2n. f_equal. lia.
Qed.

Lemma decode_local_refuted :
  exists f t1 t2 m1 m2 d1 d2, frame f /\
    decode (mkSlice (f ++ t1) []) = Ok (mkDecoded 10 (Some m1) None, d1) /\
    decode (mkSlice (f ++ t2) []) = Ok (mkDecoded 10 (Some m2) None, d2) /\ m1 <> m2.
Proof.
  exists [x01; x08; x00; x04; x00; x05; x04; x71; x05; x86], [x00], [xff].
  eexists; eexists; eexists; eexists. split; [constructor; vm_compute; reflexivity|].
  split; [vm_compute; reflexivity|]. split; [vm_compute; reflexivity|]. discriminate.
Qed.
