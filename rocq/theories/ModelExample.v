(** Model of zwave-example/example.go: the web server and the loop over the
    events.  Routing (gin) delivers the path segments [id] and [action]; the
    bodies of the answers are left out. *)
From Verif Require Import ModelBase ModelReports ModelSerial ModelNodes ModelList ModelController.
From Coq Require Import Ascii String.
Local Open Scope string_scope.

(** strconv.Atoi: an optional sign, then decimal digits; an error if the value
    does not fit 64 bits. *)
Definition digit_of (c : ascii) : option Z :=
  let k := Z.of_N (N_of_ascii c) in
  if ((48 <=? k) && (k <=? 57))%Z then Some (k - 48)%Z else None.
Fixpoint digits_from (acc : Z) (s : string) : option Z :=
  match s with
  | EmptyString => Some acc
  | String c r => match digit_of c with
                  | Some d => digits_from (10 * acc + d)%Z r
                  | None => None
                  end
  end.
Definition atoi (s : string) : option Z :=
  let '(neg, ds) := match s with
                    | String "-" r => (true, r)
                    | String "+" r => (false, r)
                    | _ => (false, s)
                    end in
  match ds with
  | EmptyString => None
  | _ => match digits_from 0 ds with
         | None => None
         | Some v => let v := if neg then (- v)%Z else v in
                     if ((- 2 ^ 63 <=? v) && (v <? 2 ^ 63))%Z then Some v else None
         end
  end.

(** example.go:80-96 [getNode]: the status of the answer. *)
Definition http_node (st : cst) (id : string) : Z :=
  match atoi id with
  | None => 500
  | Some k => match list_get (Some (c_nodes st)) k with
              | None => 404
              | Some _ => 200
              end
  end.

(** example.go:98-125 [control]: the status and the commands handed to the
    connection.  Lines 115-116 look the node up again; nodes are never removed. *)
Definition http_control (st : cst) (id action : string) : Z * list (list byte) :=
  match atoi id with
  | None => (500, [])
  | Some k =>
      match list_get (Some (c_nodes st)) k with
      | None => (404, [])
      | Some n => if (action =? "on")%string then (200, node_on n)
                  else if (action =? "off")%string then (200, node_off n)
                  else (404, [])
      end
  end%Z.

(** example.go:66-78 [getNodes]: the keys of the object in the answer. *)
Definition http_nodes (st : cst) : list Z := map fst (list_all (Some (c_nodes st))).

(** example.go:42-63: what the loop does with an event.  Both cases look the
    node up and lock it, which panics on nil. *)
Definition handle_event (st : cst) (e : event) : res unit :=
  let address := match e with EDiscovered a | EUpdated a => a end in
  match list_get (Some (c_nodes st)) address with
  | None => Panic
  | Some _ => Ok tt
  end.
