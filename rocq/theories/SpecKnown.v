(** Vocabulary of C118-C119: what is known about a node, and what it is asked. *)
From Verif Require Import ModelBase ModelReports ModelSerial ModelNodes ModelList ModelDatabase ModelIdentify.
From Verif Require Import ModelConnection ModelSystem ModelWhole SpecSystem SpecWhole SpecComplete.

Definition is_set {V} (x : option V) : Prop := x <> None.
(** The node [n] has become [n']: nothing that was known about it is forgotten
    or changed; its states may have new values, but none of them disappears. *)
Record grows (n n' : node) : Prop := mkGrows {
  gr_id : n_id n' = n_id n;
  gr_known : keeps_known n n';
  gr_awake : is_set (n_info n) -> n_awake n' = n_awake n;
  gr_names : is_set (n_ms n) -> names n' = names n;
  gr_states : n_states_ok n = true -> n_states_ok n' = true;
  gr_identified : n_identified n = true -> n_identified n' = true;
  gr_bool : forall k, is_set (mget k (n_bool n)) -> is_set (mget k (n_bool n'));
  gr_float : forall k, is_set (mget k (n_float n)) -> is_set (mget k (n_float n')) }.

(** A step of Identify of node [b]. *)
Definition identifies_node (b : byte) (l : wlabel) : Prop :=
  match l with WSys _ => False | WGo i | WTimer i | WAnswer i => i = address b end.
(** What the question of stage [k] is about is not known of [n]: the type, the
    product, the endpoints, and whether the states have been asked for. *)
Definition unknown (k : nat) (n : node) : Prop :=
  match k with
  | 0 => n_info n = None
  | 1 => n_ms n = None
  | 2 => n_endpoints n = None
  | _ => n_states_ok n = false
  end.
