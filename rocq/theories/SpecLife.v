(** Vocabulary for the statements about restarts. *)
From Verif Require Import ModelBase ModelNodes ModelList ModelJson ModelConfig SpecConfig ModelLife.
From Coq Require Import Floats.SpecFloat.

(** The same nodes, as they are after a restart. *)
Definition same_nodes (ns ns' : list (Z * node)) : Prop :=
  forall id, match zlookup id ns, zlookup id ns' with
             | Some n, Some n' => kept n n'
             | None, None => True
             | _, _ => False
             end.
(** The file is left alone: not created, not written by others; nothing fails. *)
Definition quiet (o : list tobs) : Prop :=
  forall x, In x o -> match x with TOCreated | TOFailed | TOEdited => False | _ => True end.
(** Nobody else writes the file. *)
Definition ours (o : list tobs) : Prop := ~ In TOEdited o.
(** The file can be read without a panic. *)
Definition harmless (disk : option text) : Prop := match disk with None => True | Some s => ~ crashes s end.
(** A document with a null node, or a node with a null endpoint. *)
Definition holds_null (s : text) : Prop :=
  exists l r k j, jread s = Some (JObj l, r) /\ In (k, j) l /\ names_nodes k = true /\ null_node j.
(** The program can be started with the text, and every start with it gives the nodes. *)
Definition gives (s : text) (ns : list (Z * node)) : Prop :=
  loads s /\ ~ crashes s /\ (exists ns', boots (Some s) (Some ns')) /\
  forall ns', boots (Some s) (Some ns') -> same_nodes ns (nodes_of (ModelWhole.wstart true ns')).
(** Node 5 is known, with a brand and a product. *)
Definition knows5 (ns : list (Z * node)) : Prop := exists n, zlookup 5%Z ns = Some n /\
  n_brand n = "SIEGENIA-AUBI KG"%string /\ n_product n = "Sensoair"%string.
