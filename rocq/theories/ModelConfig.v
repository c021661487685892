(** Model of the configuration file: controller.go:134-190, and the JSON
    methods of nodes/list.go:70-94 (with encoding/json's treatment of the types
    involved). *)
From Verif Require Import ModelBase ModelReports ModelSerial ModelNodes ModelList ModelJson.
From Coq Require Import Floats.SpecFloat Permutation.
Local Open Scope string_scope.
Local Open Scope list_scope.

(** ** Writing (json.Marshal).  [fmt] is strconv's shortest formatting of
    floats; only that it can be read back matters here. *)
(** Maps are written in the order of their keys; a later duplicate of a key in
    the association list is not part of the map. *)
Fixpoint text_ltb (a b : text) : bool :=
  match a, b with
  | [], _ :: _ => true
  | _, [] => false
  | x :: a, y :: b => if beq x y then text_ltb a b else (b2N x <? b2N y)%N
  end.
Fixpoint kinsert {V} (k : text) (v : V) (m : list (text * V)) : list (text * V) :=
  match m with
  | [] => [(k, v)]
  | (k', w) :: r =>
      if text_ltb k k' then (k, v) :: m
      else if text_ltb k' k then (k', w) :: kinsert k v r
      else (k, v) :: r
  end.
Definition ksort {V} (m : list (text * V)) : list (text * V) :=
  fold_right (fun p acc => kinsert (fst p) (snd p) acc) [] m.

Definition jstr (s : string) : json := JStr (txt s).
Definition jint (z : Z) : json := JNum (print_Z z).
Definition jmap {V} (f : V -> json) (m : smap V) : json :=
  match m with
  | None => JNull
  | Some l => JObj (ksort (map (fun p => (txt (fst p), f (snd p))) l))
  end.
Definition jslice {V} (f : V -> json) (l : option (list V)) : json :=
  match l with None => JNull | Some l => JArr (map f l) end.
(** database/types.go:5-12 *)
Definition jclass (c : cclass) : json :=
  JObj [(txt "ID", jint (Z.of_N (b2N (cc_id c)))); (txt "InNIF", JBool (cc_innif c));
        (txt "Secure", JBool (cc_secure c)); (txt "NonSecure", JBool (cc_nonsecure c));
        (txt "Version", jstr (cc_version c))].
(** nodes/endpoints.go:10-18 *)
Definition jendpoint (fmt : spec_float -> text) (e : endpoint) : json :=
  JObj [(txt "Id", jint (e_id e)); (txt "CommandClasses", jslice jclass (e_classes e));
        (txt "StateBool", jmap JBool (e_bool e));
        (txt "StateFloat", jmap (fun f => JNum (fmt f)) (e_float e))].
(** manufacturer_specific.go:10-15 *)
Definition jms (m : option mspec) : json :=
  match m with
  | None => JNull
  | Some m => JObj [(txt "manufacturer", jstr (ms_manufacturer m)); (txt "type", jstr (ms_type m));
                    (txt "id", jstr (ms_id m))]
  end.
(** nodes/node.go:30-59: the exported fields *)
Definition jnode (fmt : spec_float -> text) (n : node) : json :=
  JObj [(txt "id", jint (n_id n)); (txt "is_awake", JBool (n_awake n));
        (txt "ManufacurerSpecific", jms (n_ms n));
        (txt "Brand", jstr (n_brand n)); (txt "Product", jstr (n_product n));
        (txt "Description", jstr (n_description n));
        (txt "CommandClasses", jslice jclass (n_classes n));
        (txt "Endpoints", jslice (jendpoint fmt) (n_endpoints n));
        (txt "StateBool", jmap JBool (n_bool n));
        (txt "StateFloat", jmap (fun f => JNum (fmt f)) (n_float n))].
(** list.go:70-78 [MarshalJSON], controller.go:20-29 *)
Definition jcontroller (fmt : spec_float -> text) (ns : list (Z * node)) : json :=
  JObj [(txt "Nodes", JObj (ksort (map (fun p => (print_Z (fst p), jnode fmt (snd p))) ns)))].

(** NaN and infinities cannot be written. *)
Definition finite (f : spec_float) : bool :=
  match f with S754_zero _ | S754_finite _ _ _ => true | _ => false end.
Definition map_values {V} (m : smap V) : list V :=
  match m with None => [] | Some l => map snd l end.
Definition node_floats (n : node) : list spec_float :=
  map_values (n_float n) ++
  match n_endpoints n with None => [] | Some l => flat_map (fun e => map_values (e_float e)) l end.
(** controller.go:150 [json.MarshalIndent]; [None]: an error *)
Definition marshal (fmt : spec_float -> text) (ns : list (Z * node)) : option text :=
  if forallb finite (flat_map (fun p => node_floats (snd p)) ns)
  then Some (jprint 0 (jcontroller fmt ns)) else None.

(** ** Reading (json.Decoder.Decode).  A value of the wrong type is an error,
    but decoding goes on: decoders return whether there was no error.  They get
    the previous value because keys can be repeated.  Pointers in slices can be
    nil here. *)
Definition dec (A : Type) : Type := A -> json -> A * bool.
Record rendpoint : Type := mkRE {
  re_id : Z; re_classes : option (list (option cclass));
  re_bool : smap bool; re_float : smap spec_float }.
Record rnode : Type := mkRN {
  rn_id : Z; rn_awake : bool; rn_ms : option mspec;
  rn_brand : string; rn_product : string; rn_description : string;
  rn_classes : option (list (option cclass)); rn_endpoints : option (list (option rendpoint));
  rn_bool : smap bool; rn_float : smap spec_float }.

(** Field names match if they are equal up to case; the Kelvin sign and the
    long s count as k and s. *)
Fixpoint fold_key (fuel : nat) (s : text) : text :=
  match fuel with
  | O => []
  | S n =>
      match s with
      | [] => []
      | b :: r =>
          match strip [xe2; x84; xaa] s, strip [xc5; xbf] s with
          | Some r', _ => x6b :: fold_key n r'
          | _, Some r' => x73 :: fold_key n r'
          | _, _ => (if between x41 x5a b then N2b (b2N b + 32) else b) :: fold_key n r
          end
      end
  end.
Fixpoint text_eqb (a b : text) : bool :=
  match a, b with
  | [], [] => true
  | x :: a, y :: b => beq x y && text_eqb a b
  | _, _ => false
  end.
Definition same_key (k name : text) : bool :=
  text_eqb (fold_key (List.length k) k) (fold_key (List.length name) name).
Definition is_field (k : text) (name : string) : bool := same_key k (txt name).

Definition dec_bool : dec bool := fun p j =>
  match j with JNull => (p, true) | JBool b => (b, true) | _ => (p, false) end.
Definition dec_string : dec string := fun p j =>
  match j with JNull => (p, true) | JStr s => (string_of_list_byte s, true) | _ => (p, false) end.
Definition dec_int : dec Z := fun p j =>
  match j with
  | JNull => (p, true)
  | JNum l => match parse_Z l with
              | Some z => if (- 2 ^ 63 <=? z)%Z && (z <? 2 ^ 63)%Z then (z, true) else (p, false)
              | None => (p, false)
              end
  | _ => (p, false)
  end.
Definition dec_byte : dec byte := fun p j =>
  match j with
  | JNull => (p, true)
  | JNum l => match parse_nat l with
              | Some z => if (z <? 256)%Z then (N2b (Z.to_N z), true) else (p, false)
              | None => (p, false)
              end
  | _ => (p, false)
  end.
Definition dec_float : dec spec_float := fun p j =>
  match j with
  | JNull => (p, true)
  | JNum l => match parse_float l with Some f => (f, true) | None => (p, false) end
  | _ => (p, false)
  end.
(** A pointer: null makes it nil; otherwise it points to the old or a new value. *)
Definition dec_ptr {A} (zero : A) (d : dec A) : dec (option A) := fun p j =>
  match j with
  | JNull => (None, true)
  | _ => let '(a, ok) := d (match p with Some a => a | None => zero end) j in (Some a, ok)
  end.
Fixpoint dec_elements {A} (d : dec (option A)) (p : list (option A)) (l : list json) : list (option A) * bool :=
  match l with
  | [] => ([], true)
  | j :: l =>
      let '(a, ok) := d (match p with a :: _ => a | [] => None end) j in
      let '(r, ok') := dec_elements d (match p with _ :: p => p | [] => [] end) l in
      (a :: r, ok && ok')
  end.
Definition dec_slice {A} (d : dec (option A)) : dec (option (list (option A))) := fun p j =>
  match j with
  | JNull => (None, true)
  | JArr l => let '(r, ok) := dec_elements d (match p with Some l => l | None => [] end) l in (Some r, ok)
  | _ => (p, false)
  end.
Fixpoint dec_entries {A} (zero : A) (d : dec A) (m : list (string * A)) (l : list (text * json)) :
  list (string * A) * bool :=
  match l with
  | [] => (m, true)
  | (k, j) :: l =>
      let '(a, ok) := d zero j in
      let '(m', ok') := dec_entries zero d (aset (string_of_list_byte k) a m) l in
      (m', ok && ok')
  end.
Definition dec_map {A} (zero : A) (d : dec A) : dec (smap A) := fun p j =>
  match j with
  | JNull => (None, true)
  | JObj l => let '(m, ok) := dec_entries zero d (match p with Some m => m | None => [] end) l in (Some m, ok)
  | _ => (p, false)
  end.
Fixpoint dec_fields {A} (field : text -> dec A) (a : A) (l : list (text * json)) : A * bool :=
  match l with
  | [] => (a, true)
  | (k, j) :: l =>
      let '(a1, ok) := field k a j in
      let '(a2, ok') := dec_fields field a1 l in
      (a2, ok && ok')
  end.
Definition dec_struct {A} (field : text -> dec A) : dec A := fun a j =>
  match j with
  | JNull => (a, true)
  | JObj l => dec_fields field a l
  | _ => (a, false)
  end.

Definition zero_class : cclass := mkCC x00 false false false "".
Definition class_field (k : text) : dec cclass := fun c j =>
  if is_field k "ID" then let '(x, ok) := dec_byte (cc_id c) j in
    (mkCC x (cc_innif c) (cc_secure c) (cc_nonsecure c) (cc_version c), ok)
  else if is_field k "InNIF" then let '(x, ok) := dec_bool (cc_innif c) j in
    (mkCC (cc_id c) x (cc_secure c) (cc_nonsecure c) (cc_version c), ok)
  else if is_field k "Secure" then let '(x, ok) := dec_bool (cc_secure c) j in
    (mkCC (cc_id c) (cc_innif c) x (cc_nonsecure c) (cc_version c), ok)
  else if is_field k "NonSecure" then let '(x, ok) := dec_bool (cc_nonsecure c) j in
    (mkCC (cc_id c) (cc_innif c) (cc_secure c) x (cc_version c), ok)
  else if is_field k "Version" then let '(x, ok) := dec_string (cc_version c) j in
    (mkCC (cc_id c) (cc_innif c) (cc_secure c) (cc_nonsecure c) x, ok)
  else (c, true).
Definition dec_classes : dec (option (list (option cclass))) :=
  dec_slice (dec_ptr zero_class (dec_struct class_field)).

Definition zero_rendpoint : rendpoint := mkRE 0 None None None.
Definition endpoint_field (k : text) : dec rendpoint := fun e j =>
  if is_field k "Id" then let '(x, ok) := dec_int (re_id e) j in
    (mkRE x (re_classes e) (re_bool e) (re_float e), ok)
  else if is_field k "CommandClasses" then let '(x, ok) := dec_classes (re_classes e) j in
    (mkRE (re_id e) x (re_bool e) (re_float e), ok)
  else if is_field k "StateBool" then let '(x, ok) := dec_map false dec_bool (re_bool e) j in
    (mkRE (re_id e) (re_classes e) x (re_float e), ok)
  else if is_field k "StateFloat" then let '(x, ok) := dec_map (S754_zero false) dec_float (re_float e) j in
    (mkRE (re_id e) (re_classes e) (re_bool e) x, ok)
  else (e, true).

Definition ms_field (k : text) : dec mspec := fun m j =>
  if is_field k "manufacturer" then let '(x, ok) := dec_string (ms_manufacturer m) j in
    (mkMS x (ms_type m) (ms_id m), ok)
  else if is_field k "type" then let '(x, ok) := dec_string (ms_type m) j in
    (mkMS (ms_manufacturer m) x (ms_id m), ok)
  else if is_field k "id" then let '(x, ok) := dec_string (ms_id m) j in
    (mkMS (ms_manufacturer m) (ms_type m) x, ok)
  else (m, true).

Definition zero_rnode : rnode := mkRN 0 false None "" "" "" None None None None.
Definition node_field (k : text) : dec rnode := fun n j =>
  let '(mkRN id aw ms br pr de cl ep bo fl) := n in
  if is_field k "id" then let '(x, ok) := dec_int id j in (mkRN x aw ms br pr de cl ep bo fl, ok)
  else if is_field k "is_awake" then let '(x, ok) := dec_bool aw j in (mkRN id x ms br pr de cl ep bo fl, ok)
  else if is_field k "ManufacurerSpecific" then
    let '(x, ok) := dec_ptr (mkMS "" "" "") (dec_struct ms_field) ms j in (mkRN id aw x br pr de cl ep bo fl, ok)
  else if is_field k "Brand" then let '(x, ok) := dec_string br j in (mkRN id aw ms x pr de cl ep bo fl, ok)
  else if is_field k "Product" then let '(x, ok) := dec_string pr j in (mkRN id aw ms br x de cl ep bo fl, ok)
  else if is_field k "Description" then let '(x, ok) := dec_string de j in (mkRN id aw ms br pr x cl ep bo fl, ok)
  else if is_field k "CommandClasses" then let '(x, ok) := dec_classes cl j in (mkRN id aw ms br pr de x ep bo fl, ok)
  else if is_field k "Endpoints" then
    let '(x, ok) := dec_slice (dec_ptr zero_rendpoint (dec_struct endpoint_field)) ep j in
    (mkRN id aw ms br pr de cl x bo fl, ok)
  else if is_field k "StateBool" then
    let '(x, ok) := dec_map false dec_bool bo j in (mkRN id aw ms br pr de cl ep x fl, ok)
  else if is_field k "StateFloat" then
    let '(x, ok) := dec_map (S754_zero false) dec_float fl j in (mkRN id aw ms br pr de cl ep bo x, ok)
  else (n, true).

(** list.go:80-86: the document of the list as a map of node pointers; [None]:
    an error. *)
Definition list_entries (j : json) : option (list (string * option rnode)) :=
  match j with
  | JObj l =>
      let '(m, ok) := dec_entries None (dec_ptr zero_rnode (dec_struct node_field)) [] l in
      if ok then Some m else None
  | _ => None
  end.

(** list.go:23-38 [Add]: a nil node, or a nil endpoint, is a nil dereference. *)
Definition has_nil {A} (l : option (list (option A))) : bool :=
  match l with
  | None => false
  | Some l => existsb (fun x => match x with None => true | Some _ => false end) l
  end.
Definition radd (m : list (Z * rnode)) (n : option rnode) : option (list (Z * rnode)) :=
  match n with
  | None => None
  | Some n => if has_nil (rn_endpoints n) then None else Some (zset (rn_id n) n m)
  end.
(** list.go:88-90; [None] is a crash. *)
Fixpoint radd_all (m : list (Z * rnode)) (es : list (string * option rnode)) : option (list (Z * rnode)) :=
  match es with
  | [] => Some m
  | (_, n) :: es => match radd m n with Some m' => radd_all m' es | None => None end
  end.

(** What becomes of a document: an error, a crash, or a controller.  The
    controller is nil, or has a node list, which may be nil. *)
Inductive loaded_doc : Type :=
| LError
| LCrash
| LOk (c : option (option (list (Z * rnode)))).
(** The fields of the controller, one after the other; the entries of a map are
    visited in some order. *)
Inductive fields_read : option (list (Z * rnode)) -> bool -> list (text * json) -> loaded_doc -> Prop :=
| FR_done : forall c ok,
    fields_read c ok [] (if ok then LOk (Some c) else LError)
| FR_other : forall c ok k j l r,
    is_field k "Nodes" = false -> fields_read c ok l r -> fields_read c ok ((k, j) :: l) r
| FR_null : forall c ok k l r,
    is_field k "Nodes" = true -> fields_read None ok l r -> fields_read c ok ((k, JNull) :: l) r
| FR_error : forall c ok k j l r,
    is_field k "Nodes" = true -> j <> JNull -> list_entries j = None ->
    fields_read (Some (match c with Some m => m | None => [] end)) false l r ->
    fields_read c ok ((k, j) :: l) r
| FR_crash : forall c ok k j l es es',
    is_field k "Nodes" = true -> list_entries j = Some es -> Permutation es es' ->
    radd_all (match c with Some m => m | None => [] end) es' = None ->
    fields_read c ok ((k, j) :: l) LCrash
| FR_nodes : forall c ok k j l r es es' m,
    is_field k "Nodes" = true -> list_entries j = Some es -> Permutation es es' ->
    radd_all (match c with Some m => m | None => [] end) es' = Some m ->
    fields_read (Some m) ok l r -> fields_read c ok ((k, j) :: l) r.
(** controller.go:175-189 [loadConfigurationFromFile], for a file that can be
    opened *)
Inductive read_config : text -> loaded_doc -> Prop :=
| RC_syntax : forall s, jread s = None -> read_config s LError
| RC_null : forall s r, jread s = Some (JNull, r) -> read_config s (LOk None)
| RC_object : forall s l r x, jread s = Some (JObj l, r) -> fields_read None true l x -> read_config s x
| RC_type : forall s j r, jread s = Some (j, r) -> j <> JNull -> (forall l, j <> JObj l) ->
    read_config s LError.
(** controller.go:159-173 [LoadConfigurationFromFile]: [controller.Nodes.All()]
    dereferences both pointers. *)
Definition load_config (d : loaded_doc) : option (option (list (Z * rnode))) :=
  match d with
  | LError => Some None               (* an error is returned *)
  | LCrash => None
  | LOk (Some (Some m)) => Some (Some m)
  | LOk _ => None
  end.

(** controller.go:165-171: the loaded nodes are added to those there already, in
    the order of the map [All] gives. *)
Definition added (old : list (Z * rnode)) (m : list (Z * rnode)) (new : list (Z * rnode)) : Prop :=
  exists es, Permutation m es /\ new = fold_left (fun acc p => zset (rn_id (snd p)) (snd p) acc) es old.

(** The node without nil pointers in its slices, as the rest of the model sees
    it; [Add] and [Setup] have been called. *)
Fixpoint all_some {A} (l : list (option A)) : option (list A) :=
  match l with
  | [] => Some []
  | Some a :: l => match all_some l with Some r => Some (a :: r) | None => None end
  | None :: _ => None
  end.
Definition opt_slice {A} (l : option (list (option A))) : option (option (list A)) :=
  match l with
  | None => Some None
  | Some l => match all_some l with Some r => Some (Some r) | None => None end
  end.
Definition real_endpoint (e : rendpoint) : option endpoint :=
  match opt_slice (re_classes e) with
  | Some cl => Some (mkEndpoint (re_id e) cl (re_bool e) (re_float e) true)
  | None => None
  end.
Definition real_node (n : rnode) : option node :=
  match opt_slice (rn_classes n), opt_slice (rn_endpoints n) with
  | Some cl, Some ep =>
      match (match ep with
             | None => Some None
             | Some l => match all_some (map real_endpoint l) with Some r => Some (Some r) | None => None end
             end) with
      | Some ep =>
          Some {| n_id := rn_id n; n_awake := rn_awake n; n_info := None; n_ms := rn_ms n;
                  n_brand := rn_brand n; n_product := rn_product n; n_description := rn_description n;
                  n_classes := cl; n_endpoints := ep; n_bool := rn_bool n; n_float := rn_float n;
                  n_states_ok := false; n_identified := false |}
      | None => None
      end
  | _, _ => None
  end.

(** nodes/node.go:308-320 [HasCommand] on such a node: a nil class is a nil
    dereference. *)
Fixpoint raw_has (l : list (option cclass)) (c : byte) : res bool :=
  match l with
  | [] => Ok false
  | None :: _ => Panic
  | Some x :: l => if beq (cc_id x) c then Ok true else raw_has l c
  end.
Definition raw_has_command (n : rnode) (c : byte) : res bool :=
  match rn_classes n with None => Ok false | Some l => raw_has l c end.

(** ** Saving: controller.go:134-157.  [f_file]: the content of the file, if it
    exists.  Between two steps the process can be killed. *)
Inductive sphase : Type :=
| SvStart                  (* line 135 *)
| SvCreated                (* line 142, after os.Create; [false]: it failed *)
      (open : bool)
| SvWriting (left : text)  (* in out.WriteTo *)
| SvDone.                  (* line 156: nil is returned *)
Record fst_ : Type := mkF { f_phase : sphase; f_file : option text }.
Inductive flabel : Type :=
| FCreate                  (* os.Create truncates the file or makes an empty one *)
| FCreateFails
| FMarshal                 (* lines 149-154 *)
| FWrite (k : nat)         (* [k] more bytes reach the file *)
| FWriteFails              (* the rest cannot be written *)
| FReturn.
(** [new]: what MarshalIndent gives. *)
Definition fstep (new : option text) (st : fst_) (l : flabel) : option fst_ :=
  match l, f_phase st with
  | FCreate, SvStart => Some (mkF (SvCreated true) (Some []))
  | FCreateFails, SvStart => Some (mkF (SvCreated false) (f_file st))
  | FMarshal, SvCreated open =>
      Some (mkF (match open, new with true, Some t => SvWriting t | _, _ => SvWriting [] end) (f_file st))
  | FWrite k, SvWriting t =>
      if (k <=? List.length t)%nat then
        Some (mkF (SvWriting (skipn k t))
                  (match f_file st with Some c => Some (c ++ firstn k t) | None => None end))
      else None
  | FWriteFails, SvWriting _ => Some (mkF SvDone (f_file st))
  | FReturn, SvWriting [] => Some (mkF SvDone (f_file st))
  | _, _ => None
  end.
(** controller.go:156: the error a finished save returns; there is none, ever. *)
Definition reported_error (st : fst_) : bool := false.
Fixpoint frun (new : option text) (st : fst_) (ls : list flabel) : option fst_ :=
  match ls with
  | [] => Some st
  | l :: r => match fstep new st l with Some st' => frun new st' r | None => None end
  end.
