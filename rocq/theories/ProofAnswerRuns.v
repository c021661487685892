(** Executions in which an answer arrives at Identify. *)
From Verif Require Import ModelBase ModelReports ModelSerial ModelNodes ModelList ModelIdentify ModelController ModelConnection ModelSystem ModelWhole.
From Verif Require Import SpecFrame SpecMessage SpecConnection SpecSystem SpecWhole ProofWitness ProofDiscovery ProofWholeRuns.

(** The execution of [identify] up to the arrival of the answer of stage [k]. *)
Definition read_in (f : list byte) : list wlabel := [WSys (YConn (LRead false f 64))].
Definition up_to (k : nat) : list wlabel :=
  discover list_frame 1 ++ [WGo 5] ++ map WSys (sent 1 []) ++
  match k with
  | 0 => read_in info_frame
  | _ => map WSys (frame_in info_frame [1]) ++ [WAnswer 5; WGo 5; WGo 5] ++ map WSys (sent 2 []) ++
         match k with
         | 1 => read_in ms_frame
         | _ => map WSys (frame_in ms_frame [2]) ++ [WAnswer 5; WGo 5; WGo 5] ++ map WSys (sent 3 []) ++ read_in ep_frame
         end
  end.
Definition got_ids (tr : list event) : list nat := flat_map (fun e => match e with EvGot i => [i] | _ => [] end) tr.
Lemma listen_all tr accepts : (forall i, In i (got_ids tr) -> In i accepts) -> all_listen tr accepts.
Proof. intros H i I. apply H. unfold got_ids. apply in_flat_map. exists (EvGot i). split; [exact I|left; reflexivity]. Qed.

Definition answer_case (k : nat) (f : list byte) : Prop :=
  exists ls w tr o accepts w1 ev o1 m, wrun (wstart false []) ls = Some (Ok (w, tr, o)) /\ at_stage w x05 k /\
    wstep w (WSys (YConn (LIter [] accepts))) = Some (Ok (w1, ev, o1)) /\ c_crashed (y_conn (w_sys w1)) = false /\
    In (EvFrame f m) ev /\ self_contained f /\ all_listen tr accepts.
Definition checked (ls : list wlabel) (k : nat) (f : list byte) : bool :=
  match wrun (wstart false []) ls with
  | Some (Ok (w, tr, o)) =>
      match wstep w (WSys (YConn (LIter [] [0; 1; 2; 3]))) with
      | Some (Ok (w1, ev, o1)) =>
          negb (c_crashed (y_conn (w_sys w1))) &&
          match zlookup (address x05) (w_jobs w) with
          | Some j => j_holds j && negb (answered j) && match stage_of (j_pc j) with Some k' => (k' =? k)%nat | None => false end
          | None => false
          end &&
          forallb (fun i => existsb (Nat.eqb i) [0; 1; 2; 3]) (got_ids tr) &&
          existsb (fun e => match e with EvFrame g _ => if list_eq_dec Byte.byte_eq_dec g f then true else false | _ => false end) ev
      | _ => false
      end
  | _ => false
  end.
Lemma checked_case ls k f : checked ls k f = true -> self_contained f -> answer_case k f.
Proof.
  unfold checked. destruct (wrun (wstart false []) ls) as [[[[w tr] o]| |]|] eqn:R; [|discriminate|discriminate|discriminate].
  destruct (wstep w (WSys (YConn (LIter [] [0; 1; 2; 3])))) as [[[[w1 ev] o1]| |]|] eqn:S; [|discriminate|discriminate|discriminate].
  intros H SC. apply andb_prop in H. destruct H as [H HF]. apply andb_prop in H. destruct H as [H HL].
  apply andb_prop in H. destruct H as [HC HJ].
  destruct (zlookup (address x05) (w_jobs w)) as [j|] eqn:J; [|discriminate].
  apply andb_prop in HJ. destruct HJ as [HJ HS]. apply andb_prop in HJ. destruct HJ as [HH HA].
  destruct (stage_of (j_pc j)) as [k'|] eqn:ST; [|discriminate]. apply Nat.eqb_eq in HS. subst k'.
  apply existsb_exists in HF. destruct HF as (e & IE & EF). destruct e as [| | | | | | | | | |g m| | | | | | |]; try discriminate.
  destruct (list_eq_dec Byte.byte_eq_dec g f) as [->|]; [|discriminate].
  exists ls, w, tr, o, [0; 1; 2; 3], w1, ev, o1, m. split; [exact R|]. split.
  { exists j. split; [exact J|]. split; [exact HH|]. split; [|exact ST]. unfold answered in HA. destruct (j_ans j); [discriminate|reflexivity]. }
  split; [exact S|]. split; [destruct (c_crashed _); [discriminate|reflexivity]|]. split; [exact IE|]. split; [exact SC|].
  apply listen_all. rewrite forallb_forall in HL. intros i I. specialize (HL i I). apply existsb_exists in HL.
  destruct HL as (x & X & E). apply Nat.eqb_eq in E. subst x. exact X.
Qed.
Lemma type_case : answer_case 0 info_frame /\ info_of info_frame <> None.
Proof.
  pose proof contained as C. inversion C as [|a l C1 C2]. inversion C2.
  split; [apply (checked_case (up_to 0)); [vm_compute; reflexivity|assumption]|vm_compute; discriminate].
Qed.
Lemma product_case : answer_case 1 ms_frame /\ report_of ms_frame = [(x05, RManufacturer "0081" "00a0" "0001")]%string.
Proof.
  pose proof contained as C. inversion C as [|a l C1 C2]. inversion C2 as [|a2 l2 C3 C4]. inversion C4.
  split; [apply (checked_case (up_to 1)); [vm_compute; reflexivity|assumption]|vm_compute; reflexivity].
Qed.
Lemma endpoints_case : answer_case 2 ep_frame /\ exists x y, report_of ep_frame = [(x05, REndpoints x y 3)].
Proof.
  pose proof contained as C. inversion C as [|a l C1 C2]. inversion C2 as [|a2 l2 C3 C4]. inversion C4 as [|a3 l3 C5 C6]. inversion C6.
  split; [apply (checked_case (up_to 2)); [vm_compute; reflexivity|assumption]|do 2 eexists; vm_compute; reflexivity].
Qed.
