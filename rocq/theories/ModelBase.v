(** Shared vocabulary of the model: bytes, panics, Go slices.
    No code of the repository is modelled here; these are the pieces of the
    Go language semantics that the model needs. *)
From Coq Require Export List Bool NArith ZArith Lia String Ascii.
From Coq Require Export Init.Byte.
From Coq Require Strings.Byte.
Export ListNotations.
Open Scope bool_scope.
Open Scope list_scope.

(** ** Bytes.  [Byte.byte] has exactly 256 inhabitants [x00 .. xff]. *)
Definition b2N (b : byte) : N := Byte.to_N b.
Definition b2n (b : byte) : nat := N.to_nat (Byte.to_N b).
(** Go's conversion [byte(n)]: truncation modulo 256. *)
Definition N2b (n : N) : byte :=
  match Byte.of_N (N.modulo n 256) with Some b => b | None => x00 end.
Definition beq (a b : byte) : bool := Byte.eqb a b.
Definition xor8 (a b : byte) : byte := N2b (N.lxor (b2N a) (b2N b)).
Definition and8 (a b : byte) : byte := N2b (N.land (b2N a) (b2N b)).
Definition add8 (a b : byte) : byte := N2b (b2N a + b2N b).
Definition sub8 (a b : byte) : byte := N2b (b2N a + 256 - b2N b).
Definition shr8 (a : byte) (k : N) : byte := N2b (N.shiftr (b2N a) k).
(** Go's unary [^x] on a byte. *)
Definition not8 (a : byte) : byte := N2b (N.lxor (b2N a) 255).
(** [x & m != 0] *)
Definition hasbit (x m : byte) : bool := negb (beq (and8 x m) x00).

(** ** Outcomes of a Go call: a value, an error value, or a panic. *)
Inductive err : Set :=
| EChecksum         (* "Invalid checksum ..." *)
| ETooShort         (* "To short ..." / "wrong length ..." *)
| EWrongLength      (* "Wrong length ..." *)
| ENotImplemented   (* "Dropping message function=... (not implemented)" *)
| EUnknownCommand   (* "Unknown command ..." *)
| EFactoryDefault.  (* "Factory default duration" *)

Inductive res (A : Type) : Type :=
| Ok (a : A)
| Fail (e : err)
| Panic.
Arguments Ok {A} a.
Arguments Fail {A} e.
Arguments Panic {A}.

Definition bind {A B} (m : res A) (f : A -> res B) : res B :=
  match m with Ok a => f a | Fail e => Fail e | Panic => Panic end.
Notation "'do' x <- m ; k" := (bind m (fun x => k))
  (at level 200, x name, m at level 100, k at level 200, right associativity).

(** ** Go slices of bytes: the visible elements, and the bytes of the backing
    array behind them (up to the capacity).  Slice expressions [s[lo:hi]] are
    checked against the capacity, indexing against the length. *)
Record slice : Type := mkSlice { els : list byte; spare : list byte }.
Definition len (s : slice) : nat := List.length (els s).
Definition backing (s : slice) : list byte := els s ++ spare s.
Definition cap (s : slice) : nat := List.length (backing s).

(** [s[i]] *)
Definition idx (l : list byte) (i : nat) : res byte :=
  match nth_error l i with Some b => Ok b | None => Panic end.
(** [s[lo:hi]] *)
Definition sub (s : slice) (lo hi : nat) : res slice :=
  if (lo <=? hi)%nat && (hi <=? cap s)%nat
  then Ok {| els := firstn (hi - lo) (skipn lo (backing s));
             spare := skipn hi (backing s) |}
  else Panic.
(** [s[lo:]] *)
Definition from (s : slice) (lo : nat) : res slice := sub s lo (len s).

(** [a[i] = v] on a list of known length. *)
Fixpoint set_nth {A} (i : nat) (v : A) (l : list A) : list A :=
  match l, i with
  | [], _ => []
  | _ :: r, O => v :: r
  | x :: r, S j => x :: set_nth j v r
  end.
