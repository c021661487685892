(** Lemmas for what is left of C67 and C68. *)
From Verif Require Import ModelBase ModelReports ModelNodes ModelList SpecNodes ProofNodes.
From Coq Require Import Floats.SpecFloat.
Local Open Scope list_scope.

Lemma unknown_level_current rest r : reports_new x26 x03 (xfe :: rest) = Ok r ->
  (exists valid, r = RSwitchMulti1 100 valid) \/ (exists t d v tv, r = RSwitchMulti4 100 t d v tv).
Proof.
  intros H. destruct rest as [|a [|b [|c rest]]]; cbn in H; try discriminate H; injection H as <-.
  - left. eexists. reflexivity.
  - right. do 4 eexists. reflexivity.
Qed.
Lemma unknown_level_effect rest r n : reports_new x26 x03 (xfe :: rest) = Ok r -> has_maps n ->
  exists n' v, process_event n r = Ok (n', [n_id n], false) /\ is_integer v 100 /\
    updated (n_bool n) (n_bool n') "on" true /\ updated (n_float n) (n_float n') "level" v /\ same_but_state n n'.
Proof.
  intros H M.
  assert (S : state_report r).
  { destruct (unknown_level_current _ _ H) as [(v & ->)|(t & d & v & tv & ->)]; exact I. }
  destruct (state_report_effect n _ _ _ _ H M S) as (n' & P & E & B & _). exists n'.
  destruct (unknown_level_current _ _ H) as [(va & ->)|(t & d & va & tv & ->)]; inversion E as
    [| |? ? v on U O F J|? ? ? ? ? v on U O F J|]; subst; exists v;
    (assert (on = true) as -> by (apply O; discriminate)); auto.
Qed.
(** A reader that looks at the map called before the Add began. *)
Lemma locked_reader_never_reads p g q s : krun kinit (p ++ KCall g :: q) = Some s ->
  In (KRLock g) (p ++ KCall g :: q) -> ~ add_in_progress p.
Proof.
  intros R I A. pose proof R as R1. apply in_split in I. destruct I as (a & b & E). rewrite E in R.
  rewrite krun_app in R. destruct (krun kinit a) as [sa|] eqn:RA; [|discriminate]. cbn [krun] in R.
  destruct (kstep sa (KRLock g)) as [s1|] eqn:K; [|discriminate]. cbn in K.
  destruct (rget g (k_reader sa)) as [[[]| |]|] eqn:G; try discriminate.
  destruct (reader_called _ _ g RA) as (_ & _ & C). destruct (C false G) as (p' & q' & -> & B).
  assert (N : ~ add_in_progress p') by (intros X; apply B in X; discriminate).
  assert (U : forall x y, p ++ KCall g :: q = x ++ KCall g :: y -> ~ In (KCall g) x).
  { intros x y EQ HI. rewrite EQ in R1. rewrite krun_app in R1.
    destruct (krun kinit x) as [sx|] eqn:RX; [|discriminate]. cbn in R1.
    destruct (reader_called _ _ g RX) as (J1 & _). apply J1 in HI.
    destruct (rget g (k_reader sx)); [discriminate|congruence]. }
  rewrite <- app_assoc in E. cbn [app] in E.
  pose proof (U p q eq_refl) as U1. pose proof (U p' _ E) as U2.
  assert (p' = p) as ->; [|exact (N A)].
  clear - E U1 U2. revert p' E U2. induction p as [|x p IH]; intros p' E U2; destruct p' as [|x' p'].
  - reflexivity.
  - injection E as <- _. destruct U2. left. reflexivity.
  - injection E as -> _. destruct U1. left. reflexivity.
  - injection E as <- E. f_equal. apply IH; [intros H; apply U1; right; exact H|exact E|].
    intros H. apply U2. right. exact H.
Qed.
