(** Vocabulary about JSON documents. *)
From Verif Require Import ModelBase ModelJson.

(** Valid UTF-8. *)
Inductive utf8 : text -> Prop :=
| utf8_nil : utf8 []
| utf8_step : forall k s, utf8_len s = S k -> utf8 (skipn (S k) s) -> utf8 s.
(** A number literal. *)
Definition literal (l : text) : Prop := p_num l = Some (l, []).
(** A document that survives being written: its strings are UTF-8, its numbers
    are number literals. *)
Inductive sound : json -> Prop :=
| sound_null : sound JNull
| sound_bool : forall b, sound (JBool b)
| sound_num : forall l, literal l -> sound (JNum l)
| sound_str : forall s, utf8 s -> sound (JStr s)
| sound_arr : forall l, (forall v, In v l -> sound v) -> sound (JArr l)
| sound_obj : forall l, (forall k v, In (k, v) l -> utf8 k /\ sound v) -> sound (JObj l).
