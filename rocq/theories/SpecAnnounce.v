(** Vocabulary of C122: when nodes are announced. *)
From Verif Require Import ModelBase ModelReports ModelSerial ModelNodes ModelList ModelController SpecController.

(** Node [id] is in the list and the next thing discovery does is to announce it. *)
Definition just_added (st : cst) (id : Z) : Prop :=
  exists i rest, c_disc st = DcAdded i rest /\ id = (Z.of_nat i + 1)%Z.
