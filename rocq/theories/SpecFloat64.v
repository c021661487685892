(** Real value of an IEEE double, using only the standard library. *)
From Coq Require Import ZArith Reals Floats.SpecFloat.

Definition is_double (x : spec_float) : Prop :=
  valid_binary 53 1024 x = true /\
  match x with S754_zero _ | S754_finite _ _ _ => True | _ => False end.

Definition double_value (x : spec_float) : R :=
  match x with
  | S754_finite s m e => (IZR (if s then Zneg m else Zpos m) * powerRZ 2 e)%R
  | _ => 0%R
  end.

(** [x] is a double nearest to the real [q]. *)
Definition nearest_double (x : spec_float) (q : R) : Prop :=
  is_double x /\
  forall y, is_double y -> (Rabs (double_value x - q) <= Rabs (double_value y - q))%R.
