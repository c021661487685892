(** Vocabulary for the statements about the configuration file. *)
From Verif Require Import ModelBase ModelReports ModelNodes ModelList ModelIdentify ModelJson SpecJson ModelConfig.
From Coq Require Import Floats.SpecFloat.

(** ** What a saved configuration must preserve *)
Definition same_map {V} (a b : smap V) : Prop :=
  (a = None <-> b = None) /\ forall k, mget k a = mget k b.
Definition kept_endpoint (e e' : endpoint) : Prop :=
  e_id e' = e_id e /\ e_classes e' = e_classes e /\
  same_map (e_bool e) (e_bool e') /\ same_map (e_float e) (e_float e') /\ e_linked e' = true.
Definition kept_endpoints (l l' : option (list endpoint)) : Prop :=
  match l, l' with
  | None, None => True
  | Some l, Some l' => Forall2 kept_endpoint l l'
  | _, _ => False
  end.
(** [n'] is [n] after a restart. *)
Record kept (n n' : node) : Prop := mkKept {
  kept_id : n_id n' = n_id n; kept_awake : n_awake n' = n_awake n; kept_ms : n_ms n' = n_ms n;
  kept_brand : n_brand n' = n_brand n; kept_product : n_product n' = n_product n;
  kept_description : n_description n' = n_description n;
  kept_classes : n_classes n' = n_classes n; kept_eps : kept_endpoints (n_endpoints n) (n_endpoints n');
  kept_bool : same_map (n_bool n) (n_bool n'); kept_float : same_map (n_float n) (n_float n');
  reset_info : n_info n' = None; reset_states : n_states_ok n' = false; reset_identified : n_identified n' = false }.

(** ** What can be saved: texts in UTF-8, numbers of the right size, floats that
    the formatter writes as they are (true of strconv for all but NaN and the
    infinities). *)
Definition good_string (s : string) : Prop := utf8 (txt s).
Definition int64 (z : Z) : Prop := (- 2 ^ 63 <= z < 2 ^ 63)%Z.
Definition faithful (fmt : spec_float -> text) (f : spec_float) : Prop :=
  literal (fmt f) /\ parse_float (fmt f) = Some f.
Definition good_map {V} (P : V -> Prop) (m : smap V) : Prop :=
  forall l k v, m = Some l -> In (k, v) l -> good_string k /\ P v.
Definition good_classes (l : option (list cclass)) : Prop :=
  forall l' c, l = Some l' -> In c l' -> good_string (cc_version c).
Definition good_endpoint (fmt : spec_float -> text) (e : endpoint) : Prop :=
  int64 (e_id e) /\ good_classes (e_classes e) /\
  good_map (fun _ => True) (e_bool e) /\ good_map (faithful fmt) (e_float e).
Record storable (fmt : spec_float -> text) (n : node) : Prop := mkStorable {
  st_id : int64 (n_id n);
  st_brand : good_string (n_brand n); st_product : good_string (n_product n);
  st_description : good_string (n_description n);
  st_ms : forall m, n_ms n = Some m ->
    good_string (ms_manufacturer m) /\ good_string (ms_type m) /\ good_string (ms_id m);
  st_classes : good_classes (n_classes n);
  st_endpoints : forall l e, n_endpoints n = Some l -> In e l -> good_endpoint fmt e;
  st_bool : good_map (fun _ => True) (n_bool n);
  st_float : good_map (faithful fmt) (n_float n) }.
(** A node list: distinct keys, each the id of its node. *)
Definition node_list (ns : list (Z * node)) : Prop :=
  NoDup (map fst ns) /\ forall k n, In (k, n) ns -> n_id n = k.

(** ** Documents *)
(** The text is read without an error and without a crash. *)
Definition loads (s : text) : Prop := exists d m, read_config s d /\ load_config d = Some (Some m).
Definition rejected (s : text) : Prop := forall d, read_config s d -> load_config d = Some None.
Definition crashes (s : text) : Prop := exists d, read_config s d /\ load_config d = None.
Definition names_nodes (k : text) : bool := is_field k "Nodes"%string.
(** The spellings of that name: each letter in either case, and the long s (U+017F)
    for the last one. *)
Definition spelled_nodes (k : text) : Prop := exists n o d e s, k = n :: o :: d :: e :: s /\
  In n (txt "Nn") /\ In o (txt "Oo") /\ In d (txt "Dd") /\ In e (txt "Ee") /\
  (s = txt "S" \/ s = txt "s" \/ s = [xc5; xbf]).

(** Nowhere null. *)
Inductive null_free : json -> Prop :=
| nf_bool : forall b, null_free (JBool b)
| nf_num : forall l, null_free (JNum l)
| nf_str : forall s, null_free (JStr s)
| nf_arr : forall l, (forall v, In v l -> null_free v) -> null_free (JArr l)
| nf_obj : forall l, (forall k v, In (k, v) l -> null_free v) -> null_free (JObj l).

(** The document holds a node that is null, or that has a null endpoint. *)
Definition null_node (j : json) : Prop :=
  exists es k n, list_entries j = Some es /\ In (k, n) es /\
    match n with None => True | Some n => has_nil (rn_endpoints n) = true end.
(** What makes loading crash: the document is null; or some "Nodes" has a null
    node; or the last "Nodes" is missing or null and the others are in order. *)
Inductive fatal : json -> Prop :=
| fatal_null : fatal JNull
| fatal_node : forall l k j, In (k, j) l -> names_nodes k = true -> null_node j -> fatal (JObj l)
| fatal_missing : forall l,
    (forall k j, In (k, j) l -> names_nodes k = true -> j = JNull \/ list_entries j <> None) ->
    (forall l1 k j l2, l = l1 ++ (k, j) :: l2 -> names_nodes k = true ->
       (forall k' j', In (k', j') l2 -> names_nodes k' = false) -> j = JNull) ->
    fatal (JObj l).

(** ** Saving *)
(** [a] is a part of [b] from its start, and not all of it. *)
Definition strict_prefix (a b : text) : Prop := exists c, c <> [] /\ b = a ++ c.
Definition file_op (l : flabel) : bool := match l with FCreateFails | FWriteFails => false | _ => true end.

(** ** A formatter that writes every double as it is: the exact decimal
    expansion.  (strconv writes the shortest decimal that reads back.) *)
Definition exact_format (f : spec_float) : text :=
  match f with
  | S754_finite s m e =>
      (if s then [x2d] else []) ++
      match e with
      | Zneg k => print_N (Npos m * 5 ^ Npos k) ++ [x65; x2d] ++ print_N (Npos k)
      | _ => print_N (Npos m * 2 ^ Z.to_N e)
      end
  | S754_zero s => (if s then [x2d] else []) ++ [x30]
  | _ => [x30]
  end.

(** ** Nodes fed by the wire *)
Definition decoded (r : report) : Prop := exists c class data, reports_new c class data = Ok r.
Definition wire_label (l : ilabel) : Prop :=
  match l with
  | IGotReport (Some r) | IReport r => decoded r
  | _ => True
  end.
