(** Model of generators/database/database.go, second part: the configuration
    parameters of the devices.  Extends [ModelGenerator], which leaves them out. *)
From Verif Require Import ModelBase ModelNodes DataDevices DataFiles DataParameters ModelDatabase ModelGenerator.
From Coq Require Import Decimal DecimalString.
Local Open Scope string_scope.

(** A file with its parameters (database.go:40). *)
Definition pfile : Type := (jfile * list jparam)%type.

(** An int as text/template writes it: fmt.Fprint. *)
Definition int_text (z : Z) : string := NilZero.string_of_int (Z.to_int z).

(** What the template writes for one value and one parameter (database.go:216-238). *)
Record rendered_value : Type := mkRV { rv_from : string; rv_to : string; rv_desc : option string }.
Record rendered_param : Type := mkRP {
  rp_id : option string;          (* None: no line *)
  rp_name : string; rp_size : string; rp_values : list rendered_value }.
(** database.go:224-235: range, and else if there is nothing to range over *)
Definition render_values (p : jparam) : list rendered_value :=
  match jp_options p with
  | [] => [mkRV (int_text (jp_min p)) (int_text (jp_max p)) None]
  | os => map (fun o => mkRV (int_text (fst o)) (int_text (fst o)) (Some (escape (snd o)))) os
  end.
(** database.go:217-237 *)
Definition render_param (p : jparam) : rendered_param :=
  mkRP (if (0 <? jp_id p)%Z then Some (int_text (jp_id p)) else None)
       (escape (jp_label p)) (int_text (jp_size p)) (render_values p).

(** database.go:273-317 and 183-243: [generator] with the parameters *)
Fixpoint generator_full (seen : list string) (fs : list pfile) : list (rendered * list rendered_param) :=
  match fs with
  | [] => []
  | (f, ps) :: r =>
      let '(kept, seen') := keep f seen (map parse_ref (j_refs f)) in
      (map (fun ref => (render f ref, map render_param ps)) kept ++ generator_full seen' r)%list
  end.

(** ** What the Go compiler reads *)

(** A decimal constant with an optional sign, of type int or int64 (64 bits).
    (Digits after a leading zero would be octal; the template writes none.) *)
Definition go_int (s : string) : option Z :=
  match NilZero.int_of_string s with
  | Some d => let z := Z.of_int d in
              if ((- 2 ^ 63 <=? z) && (z <? 2 ^ 63))%Z then Some z else None
  | None => None
  end.
Definition go_value (v : rendered_value) : option gvalue :=
  match go_int (rv_from v), go_int (rv_to v), match rv_desc v with None => Some "" | Some s => go_literal s end with
  | Some a, Some b, Some d => Some (mkGV a b d "")
  | _, _, _ => None
  end.
(** Fields that are not written have the zero value. *)
Definition go_param (p : rendered_param) : option gparam :=
  match match rp_id p with None => Some 0%Z | Some s => go_int s end, go_literal (rp_name p), go_int (rp_size p),
        all_some (map go_value (rp_values p)) with
  | Some i, Some n, Some z, Some vs => Some (mkGP i n "" "" z "" vs)
  | _, _, _, _ => None
  end.
Definition join (x : (string * device) * list gparam) : string * (device * list gparam) :=
  (fst (fst x), (snd (fst x), snd x)).
Definition go_full (l : list (rendered * list rendered_param)) : option (list (string * (device * list gparam))) :=
  match go_build (map fst l), all_some (map (fun x => all_some (map go_param (snd x))) l) with
  | Some ds, Some ps => Some (map join (combine ds ps))
  | _, _ => None
  end.

(** ** The committed table *)
Definition full_files : list pfile := combine files file_parameters.
Definition full_devices : list (string * (device * list gparam)) := map join (combine devices device_parameters).
(** devices.go:31 ff. [New], with the parameters *)
Definition full_new (manufacturer typ id : string) : option (device * list gparam) :=
  alookup (manufacturer ++ "_" ++ typ ++ "_" ++ id) full_devices.
