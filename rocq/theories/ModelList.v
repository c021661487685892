(** Model of nodes/list.go: the node list and its lock. *)
From Verif Require Import ModelBase ModelReports ModelNodes.

(** ** The list as a map (list.go:9-22).  [None] is the nil map of a zero List;
    keys are node ids. *)
Definition nlist : Type := option (list (Z * node)).
(** list.go:16-21 [NewList] *)
Definition new_list : nlist := Some [].

Fixpoint zlookup {V} (k : Z) (m : list (Z * V)) : option V :=
  match m with
  | [] => None
  | (k', v) :: r => if (k =? k')%Z then Some v else zlookup k r
  end.
Fixpoint zset {V} (k : Z) (v : V) (m : list (Z * V)) : list (Z * V) :=
  match m with
  | [] => [(k, v)]
  | (k', w) :: r => if (k =? k')%Z then (k, v) :: r else (k', w) :: zset k v r
  end.

Definition link_endpoint (e : endpoint) : endpoint :=
  mkEndpoint (e_id e) (e_classes e) (e_bool e) (e_float e) true.
(** list.go:31-33: the endpoints' back pointers. *)
Definition link_node (n : node) : node :=
  {| n_id := n_id n; n_awake := n_awake n; n_info := n_info n; n_ms := n_ms n;
     n_brand := n_brand n; n_product := n_product n; n_description := n_description n;
     n_classes := n_classes n;
     n_endpoints := match n_endpoints n with
                    | None => None
                    | Some l => Some (map link_endpoint l)
                    end;
     n_bool := n_bool n; n_float := n_float n;
     n_states_ok := n_states_ok n; n_identified := n_identified n |}.

(** list.go:23-38 [Add] of a non-nil node *)
Definition list_add (l : nlist) (n : node) : nlist :=
  Some (zset (n_id n) (link_node n) (match l with None => [] | Some m => m end)).

(** list.go:52-62 [Get] *)
Definition list_get (l : nlist) (id : Z) : option node :=
  match l with None => None | Some m => zlookup id m end.

(** list.go:40-50 [All]: the entries, in some order. *)
Definition list_all (l : nlist) : list (Z * node) :=
  match l with None => [] | Some m => m end.

(** ** The lock.  List.Get, All and MarshalJSON have value receivers: they work
    on a copy of the List, and so on a copy of its RWMutex, made when they are
    called (list.go:40, 52, 70).  Only Add (pointer receiver) uses the lock of
    the list itself.  A copy made while Add holds the lock is a locked lock
    that nobody will ever unlock.
    [k_adder]: the goroutine between lines 24 and 37 of Add.  [k_reader]: for
    each goroutine that called Get or All, whether its copy of the lock was
    locked, and how far it got.  The locks of the nodes are left out. *)
Inductive rstage : Set := RCalled (copy_locked : bool) | RReading | RReturned.
Record klist : Type := mkK {
  k_adder : option nat; k_reader : list (nat * rstage) }.
Inductive klabel : Set :=
| KAddLock (a : nat)      (* line 24: l.Lock() returns *)
| KAddUnlock (a : nat)    (* line 37 *)
| KCall (g : nat)         (* Get or All is called: the List is copied *)
| KRLock (g : nat)        (* line 41 / 53: RLock on the copy returns *)
| KReturn (g : nat).      (* the map was read and the call returns *)

Fixpoint rget (g : nat) (m : list (nat * rstage)) : option rstage :=
  match m with
  | [] => None
  | (g', v) :: r => if Nat.eqb g g' then Some v else rget g r
  end.

Definition kstep (s : klist) (l : klabel) : option klist :=
  match l with
  | KAddLock a =>
      match k_adder s with
      | None => Some (mkK (Some a) (k_reader s))
      | Some _ => None
      end
  | KAddUnlock a =>
      match k_adder s with
      | Some a' => if Nat.eqb a a' then Some (mkK None (k_reader s)) else None
      | None => None
      end
  | KCall g =>
      match rget g (k_reader s) with
      | None => Some (mkK (k_adder s)
                 ((g, RCalled (match k_adder s with Some _ => true | None => false end))
                  :: k_reader s))
      | Some _ => None
      end
  | KRLock g =>
      match rget g (k_reader s) with
      | Some (RCalled false) => Some (mkK (k_adder s) ((g, RReading) :: k_reader s))
      | _ => None
      end
  | KReturn g =>
      match rget g (k_reader s) with
      | Some RReading => Some (mkK (k_adder s) ((g, RReturned) :: k_reader s))
      | _ => None
      end
  end.
Definition kinit : klist := mkK None [].
Fixpoint krun (s : klist) (ls : list klabel) : option klist :=
  match ls with
  | [] => Some s
  | l :: r => match kstep s l with Some s' => krun s' r | None => None end
  end.
