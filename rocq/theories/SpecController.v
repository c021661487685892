(** Vocabulary for the statements about the controller. *)
From Verif Require Import ModelBase ModelReports ModelSerial ModelNodes ModelList ModelController.

(** ** Events *)
Definition pushed (o : list cobs) : list event :=
  flat_map (fun x => match x with COPush e => [e] | _ => [] end) o.
Definition received (o : list cobs) : list event :=
  flat_map (fun x => match x with CORead e => [e] | _ => [] end) o.
Definition is_update (e : event) : bool := match e with EUpdated _ => true | _ => false end.
Definition updates (o : list cobs) : nat := List.length (filter is_update (pushed o)).
Definition discovered (o : list cobs) : list Z :=
  flat_map (fun x => match x with COPush (EDiscovered a) => [a] | _ => [] end) o.
Definition identifies (o : list cobs) : list Z :=
  flat_map (fun x => match x with COIdentify a => [a] | _ => [] end) o.
Definition saves (o : list cobs) : list (list (Z * node)) :=
  flat_map (fun x => match x with COSave ns => [ns] | _ => [] end) o.

(** The elements of [l] marked true in [keep]. *)
Fixpoint chosen {A} (keep : list bool) (l : list A) : list A :=
  match keep, l with
  | k :: keep, x :: l => if k then x :: chosen keep l else chosen keep l
  | _, _ => []
  end.

(** The announcements made while the nodes [ns] of a file are loaded. *)
Definition announced (ns : list node) : list cobs :=
  map (fun n => COPush (EDiscovered (n_id n))) ns.
(** The controller after start-up with the nodes [ns] of the file. *)
Definition loaded (file : bool) (ns : list node) : cst := load_nodes (new_controller file) ns.

(** The same controller with any queue and any number of pending save requests. *)
Definition congested (st : cst) (q : list event) (t : nat) : cst :=
  with_deb (with_queue st q) t (c_deb st).

(** ** Time *)
Fixpoint elapsed (ls : list clabel) : N :=
  match ls with
  | [] => 0
  | CTick d :: r => d + elapsed r
  | _ :: r => elapsed r
  end.
(** Time passes only while the goroutine of the debouncer has nothing to do:
    no save request is ready to be taken and its timer has not fired. *)
Definition calm (st : cst) (d : N) : Prop :=
  match c_deb st with
  | DOff | DSaving => True
  | DWait => c_trig st = 0
  | DTimer age => c_trig st = 0 /\ (age + d <= 10000)%N
  end.
Inductive prompt : cst -> list clabel -> Prop :=
| prompt_nil st : prompt st []
| prompt_cons st l st1 o r :
    match l with CTick d => calm st d | _ => True end ->
    cstep st l = Some (Ok (st1, o)) -> prompt st1 r -> prompt st (l :: r).
(** The time that passed while no save was being written. *)
Inductive idle_time : cst -> list clabel -> N -> Prop :=
| idle_nil st : idle_time st [] 0
| idle_cons st l st1 o r t d :
    cstep st l = Some (Ok (st1, o)) -> idle_time st1 r t ->
    d = match l with
        | CTick d => match c_deb st with DSaving => 0%N | _ => d end
        | _ => 0%N
        end ->
    idle_time st (l :: r) (d + t).

(** ** Nodes *)
Definition knows (st : cst) (id : Z) : Prop := In id (map fst (c_nodes st)).
(** The label may change node [id]. *)
Definition touches (id : Z) (l : clabel) : Prop :=
  match l with
  | CReport b _ => Z.of_N (b2N b) = id
  | CWindow i => i = id
  | CIdent i _ _ => i = id
  | _ => False
  end.
(** Node [id] is marked active in the bitmap; ids start at one. *)
Definition active_in (bitmap : list bool) (id : Z) : Prop :=
  (1 <= id)%Z /\ nth_error bitmap (Z.to_nat (id - 1)) = Some true.
Fixpoint increasing (l : list Z) : Prop :=
  match l with
  | [] => True
  | x :: r => (forall y, In y r -> (x < y)%Z) /\ increasing r
  end.
(** Discovery of [id] is between adding the node and setting it up. *)
Definition half_discovered (st : cst) (id : Z) : Prop :=
  exists i rest, (c_disc st = DcAdded i rest \/ c_disc st = DcPushed i rest) /\
    id = (Z.of_nat i + 1)%Z.
