(** What a node gets from the wire and from the device table can be saved. *)
From Verif Require Import ModelBase ModelReports ModelSerial ModelNodes ModelList DataDevices ModelDatabase ModelIdentify.
From Verif Require Import SpecFrame SpecReports SpecFloat64 ProofBase ProofReports ProofFloat ProofCommands.
From Verif Require Import ModelJson SpecJson ModelConfig SpecConfig ProofJson ProofConfig.
From Coq Require Import Reals Floats.SpecFloat ZifyBool ZifyNat ZifyN Lra.
From Flocq Require Import Core BinarySingleNaN.
Local Opaque definitions devices.

(** ** Texts *)
Fixpoint utf8b (fuel : nat) (s : text) : bool :=
  match s with
  | [] => true
  | _ => match fuel with
         | O => false
         | S n => match utf8_len s with O => false | S k => utf8b n (skipn (S k) s) end
         end
  end.
Lemma utf8b_ok fuel : forall s, utf8b fuel s = true -> utf8 s.
Proof.
  induction fuel as [|n IH]; intros s H; destruct s as [|b s]; try discriminate; try constructor.
  cbn [utf8b] in H. destruct (utf8_len (b :: s)) as [|k] eqn:L; [discriminate|].
  apply (utf8_step k); [exact L|]. now apply IH.
Qed.
Definition goodb (s : string) : bool := utf8b (String.length s) (txt s).
Lemma goodb_ok s : goodb s = true -> good_string s.
Proof. apply utf8b_ok. Qed.
Fixpoint asciib (s : string) : bool :=
  match s with EmptyString => true | String c r => (N_of_ascii c <? 128)%N && asciib r end.
Lemma asciib_ok s : asciib s = true -> good_string s.
Proof.
  intros H. apply ascii_utf8. induction s as [|c s IH]; [intros b []|]. cbn [asciib] in H. apply andb_prop in H.
  destruct H as [C H]. intros b [<-|I]; [|now apply IH].
  destruct c as [[] [] [] [] [] [] [] []]; try discriminate C; reflexivity.
Qed.
Lemma asciib_app a b : asciib (a ++ b) = asciib a && asciib b.
Proof. induction a as [|c a IH]; cbn; [reflexivity|]. rewrite IH. apply andb_assoc. Qed.
Lemma asciib_lower s : asciib s = true -> asciib (to_lower s) = true.
Proof.
  induction s as [|c s IH]; [reflexivity|]. cbn [asciib to_lower]. intros H. apply andb_prop in H. destruct H as [C H].
  rewrite IH by exact H. rewrite andb_true_r. destruct c as [[] [] [] [] [] [] [] []]; try discriminate C; reflexivity.
Qed.
Lemma type_ascii : forall v, asciib (sensor_type v) = true.
Proof. apply (forall_byte (fun v => asciib (sensor_type v))). vm_compute. reflexivity. Qed.
Lemma unit_ascii : forall v s, asciib (sensor_unit v s) = true.
Proof. apply (forall_byte2 (fun v s => asciib (sensor_unit v s))). vm_compute. reflexivity. Qed.
Lemma sensor_key_good v s : good_string (sensor_key (sensor_type v) (sensor_unit v s)).
Proof.
  apply asciib_ok. unfold sensor_key. apply asciib_lower. rewrite !asciib_app, type_ascii, unit_ascii. reflexivity.
Qed.
Lemma hexdigit_ascii n : (N_of_ascii (ModelReports.hexdigit n) <? 128)%N = true.
Proof.
  destruct n as [|p]; [reflexivity|]. unfold ModelReports.hexdigit.
  repeat (destruct p as [p|p|]; try reflexivity).
Qed.
Lemma hex4_good n : good_string (ModelReports.hex4 n).
Proof. apply asciib_ok. unfold ModelReports.hex4. cbn [asciib]. rewrite !hexdigit_ascii. reflexivity. Qed.

Definition classes_goodb (l : list cclass) : bool := forallb (fun c => goodb (cc_version c)) l.
Definition device_goodb (d : device) : bool :=
  goodb (d_brand d) && goodb (d_product d) && goodb (d_description d) && classes_goodb (d_classes d).
Lemma devices_good : forallb (fun p => device_goodb (snd p)) devices = true.
Proof. vm_compute. reflexivity. Qed.
Lemma definitions_good : forallb (fun e => classes_goodb (snd e)) definitions = true.
Proof. vm_compute. reflexivity. Qed.
Lemma alookup_in {V} k (l : list (string * V)) v : alookup k l = Some v -> exists k', In (k', v) l.
Proof.
  induction l as [|[j w] l IH]; cbn; [discriminate|]. destruct (String.eqb k j); [intros E; injection E as ->; eauto|].
  intros E. destruct (IH E) as (k' & I). eauto.
Qed.
Lemma classes_good l : classes_goodb l = true -> good_classes (Some l).
Proof.
  intros H l' c E I. injection E as <-. unfold classes_goodb in H. rewrite forallb_forall in H. now apply goodb_ok, H.
Qed.
Lemma device_good m t i d : device_new m t i = Some d ->
  good_string (d_brand d) /\ good_string (d_product d) /\ good_string (d_description d) /\ good_classes (Some (d_classes d)).
Proof.
  intros E. apply alookup_in in E. destruct E as (k & I). pose proof devices_good as G. rewrite forallb_forall in G.
  apply G in I. unfold device_goodb in I. cbn [snd] in I. rewrite !andb_true_iff in I. destruct I as [[[A B] C] D].
  repeat split; try now apply goodb_ok. now apply classes_good.
Qed.
Lemma mandatory_good g s : good_classes (get_mandatory definitions g s).
Proof.
  pose proof definitions_good as G. induction definitions as [|[[a b] v] l IH]; [intros l' c E; discriminate|].
  cbn [forallb snd] in G. apply andb_prop in G. destruct G as [G1 G2]. cbn [get_mandatory].
  destruct (_ && _); [now apply classes_good|now apply IH].
Qed.
Lemma append_good cc l : good_classes cc -> good_classes (Some l) -> good_classes (append_classes cc l).
Proof.
  intros A B. destruct l as [|x l]; [exact A|]. intros l' c E I. cbn [append_classes] in E. injection E as <-.
  apply in_app_or in I. destruct I as [I|I]; [|exact (B _ c eq_refl I)].
  destruct cc as [cc|]; [exact (A cc c eq_refl I)|destruct I].
Qed.

(** ** Numbers from reports *)
Lemma zero_double : is_double (S754_zero false).
Proof. split; [reflexivity|exact I]. Qed.
Lemma byte_double b : is_double (f64_of_Z (Z.of_N (b2N b))).
Proof. apply f64_int. pose proof (b2N_lt b). lia. Qed.
Lemma double_div v p : is_double v -> (Rabs (double_value v) <= bpow radix2 53)%R -> (1 <= p < 8)%N -> is_double (f64_div v (f64_pow10 p)).
Proof.
  intros [V F] B P.
  assert (FV : is_finite_SF v = true) by (destruct v; try contradiction; reflexivity).
  assert (W : (1 <= 10 ^ Z.of_N p < 2 ^ 53)%Z).
  { split; [assert (0 < 10 ^ Z.of_N p)%Z by (apply Z.pow_pos_nonneg; lia); lia|].
    apply Z.le_lt_trans with (10 ^ 7)%Z; [apply Z.pow_le_mono_r; lia|vm_compute; reflexivity]. }
  destruct (of_Z_exact (10 ^ Z.of_N p)) as (W1 & W2 & W3); [lia|].
  assert (W4 : (1 <= IZR (10 ^ Z.of_N p))%R) by (apply IZR_le; lia).
  destruct (div_correct v (SpecFloat.binary_normalize 53 1024 (10 ^ Z.of_N p) 0 false)) as (A1 & A2 & _); auto.
  - rewrite W3. lra.
  - rewrite W3, <- double_value_SF2R. unfold Rdiv. rewrite Rabs_mult.
    apply Rle_trans with (bpow radix2 53 * 1)%R; [|rewrite Rmult_1_r; apply bpow_le; lia].
    apply Rmult_le_compat; try apply Rabs_pos; [exact B|]. rewrite Rabs_inv, Rabs_pos_eq by lra.
    rewrite <- Rinv_1. apply Rinv_le; lra.
  - split; [exact A1|]. unfold f64_div, f64_prec, f64_emax. unfold f64_pow10, f64_of_Z, f64_prec, f64_emax in *.
    destruct (SFdiv 53 1024 v _); try discriminate A2; exact I.
Qed.
Lemma be_signed_bound l : (1 <= List.length l <= 4)%nat -> (Z.abs (be_signed l) <= 2 ^ 32)%Z.
Proof.
  intros L. assert (NE : l <> []) by (destruct l; [cbn in L; lia|discriminate]).
  destruct (be_signed_spec l NE) as [B _].
  assert (2 ^ (8 * Z.of_nat (List.length l) - 1) <= 2 ^ 31)%Z by (apply Z.pow_le_mono_r; lia).
  change (2 ^ 31)%Z with 2147483648%Z in *. change (2 ^ 32)%Z with 4294967296%Z. lia.
Qed.
Lemma sensor_double data vt sz sc pr v ts un : new_sensor data = Ok (RSensor vt sz sc pr v ts un) ->
  is_double v /\ ts = sensor_type vt /\ un = sensor_unit vt sc.
Proof.
  unfold new_sensor. destruct data as [|b [|h body]]; try discriminate.
  destruct (_ <? 2)%nat; [discriminate|]. cbn [idx nth_error bind].
  destruct (Nat.ltb_spec (List.length (b :: h :: body)) (2 + b2n (and8 h x07))) as [|L]; [discriminate|].
  intros E. injection E as <- <- <- <- <- <- <-. split; [|auto].
  set (v0 := match and8 h x07 with x01 => _ | x02 => _ | x04 => _ | _ => _ end).
  assert (K : is_double v0 /\ (Rabs (double_value v0) <= bpow radix2 53)%R).
  { assert (G : forall k, (1 <= k <= 4)%nat -> (k <= List.length body)%nat ->
      is_double (f64_of_Z (be_signed (firstn k body))) /\ (Rabs (double_value (f64_of_Z (be_signed (firstn k body)))) <= bpow radix2 53)%R).
    { intros k K1 K2. assert (B : (Z.abs (be_signed (firstn k body)) <= 2 ^ 32)%Z) by (apply be_signed_bound; rewrite firstn_length; lia).
      change (2 ^ 32)%Z with 4294967296%Z in B. destruct (f64_int (be_signed (firstn k body))) as [A1 A2];
        [change (2 ^ 53)%Z with 9007199254740992%Z; lia|].
      split; [exact A1|]. rewrite A2, <- abs_IZR. change (bpow radix2 53) with (IZR 9007199254740992). apply IZR_le. lia. }
    cbn [List.length skipn] in L. unfold v0. cbn [skipn].
    destruct (and8 h x07); try (split; [exact zero_double|cbn [double_value]; rewrite Rabs_R0; apply bpow_ge_0]);
      cbn in L; [apply (G 1%nat); lia|apply (G 2%nat); lia|apply (G 4%nat); lia]. }
  destruct K as [K1 K2]. destruct (N.ltb_spec 0 (b2N (shr8 (and8 h xe0) 5))) as [P|P]; [|exact K1].
  apply double_div; [exact K1|exact K2|]. rewrite precision_field in *. pose proof (b2N_lt h). split; [lia|].
  apply N.div_lt_upper_bound; lia.
Qed.

Inductive plain_report : report -> Prop :=
| pl_alarm : forall a b c d e f r, plain_report (RAlarm a b c d e f r)
| pl_ms : forall a b c, good_string a -> good_string b -> good_string c -> plain_report (RManufacturer a b c)
| pl_ep : forall a b n, (n < 256)%N -> plain_report (REndpoints a b n)
| pl_sensor : forall vt sz sc pr v, is_double v -> plain_report (RSensor vt sz sc pr v (sensor_type vt) (sensor_unit vt sc))
| pl_b1 : forall a b, plain_report (RSwitchBinary1 a b)
| pl_b2 : forall a b c, plain_report (RSwitchBinary2 a b c)
| pl_m1 : forall a b, (a <= 100)%N -> plain_report (RSwitchMulti1 a b)
| pl_m4 : forall a b c d e, (a <= 100)%N -> plain_report (RSwitchMulti4 a b c d e)
| pl_wake : plain_report RWakeUp.
Ltac pick E := first [exact E|left; exact E|right; pick E].
Lemma decoded_plain r : decoded r -> plain_report r.
Proof.
  intros (c & class & data & E).
  assert (C : new_alarm data = Ok r \/ new_manufacturer data = Ok r \/ new_endpoints data = Ok r \/ new_sensor data = Ok r \/
    new_switch_binary1 data = Ok r \/ new_switch_binary2 data = Ok r \/ new_switch_multi1 data = Ok r \/ new_switch_multi4 data = Ok r \/ r = RWakeUp).
  { unfold reports_new in E. destruct c; try discriminate E; try solve [injection E as <-; do 8 right; reflexivity];
      destruct class; try discriminate E; try solve [pick E];
      destruct (List.length data) as [|[|[|[|]]]]; try discriminate E; pick E. }
  clear E. destruct C as [E|[E|[E|[E|[E|[E|[E|[E|E]]]]]]]].
  - unfold new_alarm in E. destruct (_ <? 2)%nat; [discriminate|].
    destruct (idx data 0); try discriminate. cbn [bind] in E. destruct (idx data 1); try discriminate. cbn [bind] in E.
    destruct (6 <=? _)%nat; [|injection E as <-; constructor].
    destruct (idx data 2); try discriminate. cbn [bind] in E. destruct (idx data 3); try discriminate. cbn [bind] in E.
    destruct (idx data 4); try discriminate. cbn [bind] in E. destruct (idx data 5); try discriminate. cbn [bind] in E.
    injection E as <-. constructor.
  - unfold new_manufacturer in E. destruct data as [|? [|? [|? [|? [|? [|? [|]]]]]]]; try discriminate. injection E as <-.
    constructor; apply hex4_good.
  - unfold new_endpoints in E. destruct data as [|? [|n ?]]; try discriminate. injection E as <-. constructor. apply b2N_lt.
  - assert (S : exists vt sz sc pr v ts un, r = RSensor vt sz sc pr v ts un).
    { unfold new_sensor in E. destruct data as [|b [|h body]]; try discriminate.
      destruct (_ <? 2)%nat; [discriminate|]. cbn [idx nth_error bind] in E. destruct (_ <? _)%nat; [discriminate|].
      injection E as <-. do 7 eexists. reflexivity. }
    destruct S as (vt & sz & sc & pr & v & ts & un & ->). apply sensor_double in E. destruct E as (D & -> & ->). now constructor.
  - unfold new_switch_binary1 in E. destruct data as [|? [|]]; try discriminate. injection E as <-. constructor.
  - unfold new_switch_binary2 in E. destruct data as [|? [|? [|? [|]]]]; try discriminate. injection E as <-. constructor.
  - unfold new_switch_multi1 in E. destruct data as [|? [|]]; try discriminate. injection E as <-. constructor. apply N.le_min_r.
  - unfold new_switch_multi4 in E. destruct data as [|? [|? [|? [|]]]]; try discriminate. injection E as <-. constructor. apply N.le_min_r.
  - subst r. constructor.
Qed.

(** ** The node *)
Section Fmt.
Variable fmt : spec_float -> text.
Hypothesis FMT : forall f, is_double f -> faithful fmt f.

Lemma aset_in {V} k (v : V) l k' v' : In (k', v') (aset k v l) -> (k' = k /\ v' = v) \/ In (k', v') l.
Proof.
  induction l as [|[j w] l IH]; cbn; [intros [E|[]]; injection E as <- <-; auto|].
  destruct (String.eqb_spec k j) as [->|].
  - intros [E|I]; [injection E as <- <-; auto|auto].
  - intros [E|I]; [auto|]. destruct (IH I); auto.
Qed.
Lemma mset_good {V} (P : V -> Prop) k v m m' : good_map P m -> good_string k -> P v -> mset k v m = Ok m' -> good_map P m'.
Proof.
  intros G K PV E. destruct m as [l|]; [|discriminate]. injection E as <-. intros l' k' v' E I. injection E as <-.
  apply aset_in in I. destruct I as [[-> ->]|I]; [auto|]. exact (G l k' v' eq_refl I).
Qed.
Lemma set_bool_good n k v n' : storable fmt n -> good_string k -> set_bool n k v = Ok n' -> storable fmt n'.
Proof.
  intros S K E. unfold set_bool in E. destruct (mset k v (n_bool n)) as [b| |] eqn:M; try discriminate. injection E as <-.
  pose proof (mset_good _ _ _ _ _ (st_bool fmt n S) K Logic.I M). destruct S. constructor; auto.
Qed.
Lemma set_float_good n k v n' : storable fmt n -> good_string k -> is_double v -> set_float n k v = Ok n' -> storable fmt n'.
Proof.
  intros S K D E. unfold set_float in E. destruct (mset k v (n_float n)) as [b| |] eqn:M; try discriminate. injection E as <-.
  pose proof (mset_good _ _ _ _ _ (st_float fmt n S) K (FMT v D) M). destruct S. constructor; auto.
Qed.
Lemma process_good n r n' evs o : storable fmt n -> plain_report r -> process_event n r = Ok (n', evs, o) -> storable fmt n'.
Proof.
  intros S P E. destruct P; cbn [process_event] in E; try (injection E as <- <- <-; exact S).
  - destruct (beq f xff); [|injection E as <- <- <-; exact S].
    destruct (set_bool n "alarm" true) as [n1| |] eqn:E1; try discriminate. cbn [bind] in E.
    apply set_bool_good in E1; [|exact S|apply asciib_ok; reflexivity].
    destruct (beq a x00); cbn [bind] in E; [injection E as <- <- <-; exact E1|].
    destruct (set_float n1 "alarm" _) as [n2| |] eqn:E2; try discriminate. cbn [bind] in E.
    apply set_float_good in E2; [|exact E1|apply asciib_ok; reflexivity|apply byte_double].
    destruct (set_float n2 "alarmLastType" _) as [n3| |] eqn:E3; try discriminate. cbn [bind] in E. injection E as <- <- <-.
    apply set_float_good in E3; [exact E3|exact E2|apply asciib_ok; reflexivity|apply byte_double].
  - destruct (set_float n _ v) as [n1| |] eqn:E1; try discriminate. cbn [bind] in E. injection E as <- <- <-.
    apply set_float_good in E1; [exact E1|exact S|apply sensor_key_good|exact H].
  - destruct (set_bool n "on" a) as [n1| |] eqn:E1; try discriminate. cbn [bind] in E. injection E as <- <- <-.
    apply set_bool_good in E1; [exact E1|exact S|apply asciib_ok; reflexivity].
  - destruct (set_bool n "on" a) as [n1| |] eqn:E1; try discriminate. cbn [bind] in E. injection E as <- <- <-.
    apply set_bool_good in E1; [exact E1|exact S|apply asciib_ok; reflexivity].
  - destruct (set_bool n "on" _) as [n1| |] eqn:E1; try discriminate. cbn [bind] in E.
    destruct (set_float n1 "level" _) as [n2| |] eqn:E2; try discriminate. cbn [bind] in E. injection E as <- <- <-.
    apply set_bool_good in E1; [|exact S|apply asciib_ok; reflexivity].
    apply set_float_good in E2; [exact E2|exact E1|apply asciib_ok; reflexivity|]. apply f64_int. lia.
  - destruct (set_bool n "on" _) as [n1| |] eqn:E1; try discriminate. cbn [bind] in E.
    destruct (set_float n1 "level" _) as [n2| |] eqn:E2; try discriminate. cbn [bind] in E. injection E as <- <- <-.
    apply set_bool_good in E1; [|exact S|apply asciib_ok; reflexivity].
    apply set_float_good in E2; [exact E2|exact E1|apply asciib_ok; reflexivity|]. apply f64_int. lia.
Qed.
Lemma window_good n n' evs : storable fmt n -> alarm_window_end n = Ok (n', evs) -> storable fmt n'.
Proof.
  intros S E. unfold alarm_window_end in E.
  destruct (set_bool n "alarm" false) as [n1| |] eqn:E1; try discriminate. cbn [bind] in E.
  destruct (set_float n1 "alarm" _) as [n2| |] eqn:E2; try discriminate. cbn [bind] in E. injection E as <- <-.
  apply set_bool_good in E1; [|exact S|apply asciib_ok; reflexivity].
  apply set_float_good in E2; [exact E2|exact E1|apply asciib_ok; reflexivity|]. apply f64_int. lia.
Qed.
Lemma classes_storable n cc : storable fmt n -> good_classes cc -> storable fmt (set_classes n cc).
Proof. intros [] G. constructor; auto. Qed.
Lemma info_storable n pi : storable fmt n -> storable fmt (set_info n pi).
Proof. intros []. constructor; auto. Qed.
Lemma states_storable n : storable fmt n -> storable fmt (set_states_ok n).
Proof. intros []. constructor; auto. Qed.
Lemma identified_storable n : storable fmt n -> storable fmt (set_identified n).
Proof. intros []. constructor; auto. Qed.
Lemma manufacturer_storable n m t i : storable fmt n -> good_string m -> good_string t -> good_string i ->
  storable fmt (set_manufacturer n (mkMS m t i)).
Proof.
  intros [] Gm Gt Gi. unfold set_manufacturer. cbn [ms_manufacturer ms_type ms_id].
  destruct (device_new m t i) as [d|] eqn:D.
  - destruct (device_good m t i d D) as (A & B & C & G). constructor; auto.
    + cbn [n_ms]. intros x E. injection E as <-. auto.
    + cbn [n_classes]. apply append_good; auto.
  - constructor; auto. cbn [n_ms]. intros x E. injection E as <-. auto.
Qed.
Lemma empty_good {V} (P : V -> Prop) : good_map P (Some []).
Proof. intros l k v E I. injection E as <-. destruct I. Qed.
Lemma endpoints_storable n l : storable fmt n -> (forall e, In e l -> good_endpoint fmt e) -> storable fmt (set_endpoints n l).
Proof. intros [] G. constructor; auto. cbn [n_endpoints]. intros l' e E I. injection E as <-. auto. Qed.
Lemma made_good n c e : storable fmt n -> (c < 256)%N -> In e (made_endpoints n c) -> good_endpoint fmt e.
Proof.
  intros S C I. unfold made_endpoints in I. apply in_map_iff in I. destruct I as (i & <- & I). apply in_seq in I.
  split; [cbn; unfold int64; change (2 ^ 63)%Z with 9223372036854775808%Z; lia|]. split; [exact (st_classes fmt n S)|].
  split; apply empty_good.
Qed.
Lemma after_info_good n pi pc n' o : storable fmt n -> after_info n pi = (pc, n', o) -> storable fmt n'.
Proof.
  intros S E. unfold after_info in E.
  pose proof (classes_storable n (get_mandatory definitions (pi_generic pi) (pi_specific pi)) S (mandatory_good _ _)) as G.
  destruct (n_ms _); [destruct (after_ms _)|]; injection E as _ <- _; exact G.
Qed.
Lemma istep_good st l st' o : storable fmt (i_node st) -> wire_label l -> istep st l = Some (st', o) -> storable fmt (i_node st').
Proof.
  intros S W E. unfold istep in E. destruct l as [| |m|r|r|].
  - destruct (i_pc st) as [| | |s|s|s c|s|s|l|l| | |]; try discriminate E.
    + destruct (n_info (i_node st)) as [pi|]; [|injection E as <- _; exact S].
      destruct (after_info (i_node st) pi) as [[pc n'] o'] eqn:A. injection E as <- _. cbn [i_node]. eapply after_info_good; eauto.
    + destruct (n_awake (i_node st)); [|destruct (i_chan st)]; injection E as <- _; exact S.
    + injection E as <- _. exact S.
    + destruct s; [injection E as <- _; exact S| |injection E as <- _; exact S].
      destruct (n_classes (i_node st)); injection E as <- _; [exact S|]. cbn [i_node]. apply endpoints_storable; [exact S|intros e []].
    + destruct l as [|c l]; [injection E as <- _; now apply states_storable|].
      destruct (state_request (i_node st) c); injection E as <- _; exact S.
    + injection E as <- _. now apply identified_storable.
  - destruct (i_pc st); try discriminate E. injection E as <- _. exact S.
  - destruct (i_pc st); try discriminate E. destruct m as [m|]; [|injection E as <- _; exact S].
    destruct (m_data m) as [[]|]; try (injection E as <- _; exact S).
    destruct (after_info (set_info (i_node st) _) _) as [[pc n'] o'] eqn:A. injection E as <- _. cbn [i_node].
    eapply after_info_good; [|exact A]. now apply info_storable.
  - destruct (i_pc st) as [| | |s|s|s c|s|s|l|l| | |]; try discriminate E.
    + destruct s; try discriminate E.
      * destruct r as [r|]; [|injection E as <- _; exact S]. apply decoded_plain in W.
        destruct W; try (injection E as <- _; exact S). destruct (after_ms _) as [pc o']. injection E as <- _.
        cbn [i_node]. now apply manufacturer_storable.
      * destruct r as [r|]; [|injection E as <- _; exact S]. apply decoded_plain in W.
        destruct W; try (injection E as <- _; exact S). injection E as <- _. cbn [i_node].
        apply endpoints_storable; [exact S|]. intros x I. eapply made_good; eauto.
    + injection E as <- _. exact S.
  - apply decoded_plain in W.
    assert (Q : forall pc, (match process_event (i_node st) r with
       | Ok (n', evs, _) => Some (mkI pc n' (i_chan st) (i_fresh st), map OEvent evs)
       | _ => Some (mkI ICrash (i_node st) (i_chan st) (i_fresh st), [])
       end) = Some (st', o) -> storable fmt (i_node st')).
    { intros pc H. destruct (process_event (i_node st) r) as [[[n' evs] b]| |] eqn:P; injection H as <- _; cbn [i_node]; try exact S.
      eapply process_good; eauto. }
    assert (K : forall pc, (match i_chan st with
       | None => Some (mkI pc (i_node st) (i_chan st) (i_fresh st), [OWakeUp])
       | Some c => Some (mkI (match pc with IWait s (Some d) => if Nat.eqb c d then ISend s else pc | _ => pc end) (i_node st) None (i_fresh st), [OWakeUp])
       end) = Some (st', o) -> storable fmt (i_node st')).
    { intros pc H. destruct (i_chan st); injection H as <- _; exact S. }
    destruct (i_pc st) eqn:PC; try discriminate E; destruct W; try (eapply Q; exact E);
      destruct (i_chan st); injection E as <- _; exact S.
  - assert (Q : forall pc, (match alarm_window_end (i_node st) with
       | Ok (n', evs) => Some (mkI pc n' (i_chan st) (i_fresh st), map OEvent evs)
       | _ => Some (mkI ICrash (i_node st) (i_chan st) (i_fresh st), [])
       end) = Some (st', o) -> storable fmt (i_node st')).
    { intros pc H. destruct (alarm_window_end (i_node st)) as [[n' evs]| |] eqn:P; injection H as <- _; cbn [i_node]; try exact S.
      eapply window_good; eauto. }
    destruct (i_pc st) eqn:PC; try discriminate E; eapply Q; exact E.
Qed.
Lemma irun_good ls : forall st st' o, storable fmt (i_node st) -> (forall l, In l ls -> wire_label l) ->
  irun st ls = Some (st', o) -> storable fmt (i_node st').
Proof.
  induction ls as [|l ls IH]; intros st st' o S W E; cbn [irun] in E; [injection E as <- _; exact S|].
  destruct (istep st l) as [[st1 o1]|] eqn:E1; [|discriminate].
  destruct (irun st1 ls) as [[st2 o2]|] eqn:E2; [|discriminate]. injection E as <- _.
  eapply IH; [|intros x X; apply W; now right|exact E2]. eapply istep_good; [exact S| |exact E1]. apply W. now left.
Qed.
Lemma new_storable id : int64 id -> storable fmt (new_node id).
Proof.
  intros I. constructor; cbn; try (apply asciib_ok; reflexivity); try discriminate; try apply empty_good. exact I.
Qed.
End Fmt.
