(* What a well formed value of an entity type is, and when two values are the
   same document. *)
From Verif Require Import Str SMap Json CodecModel CodecTables.

(* The keys that a pattern property of the specification allows. *)
Inductive legal : pat -> string -> Prop :=
| legal_x r : legal PatX ("x-" ^^ r)
| legal_path r : legal PatSlash ("/" ^^ r)
| legal_method k : In k ["get"; "put"; "post"; "delete"; "options"; "head"; "patch"; "trace"] -> legal PatMethod k
| legal_code a b c : In a ["1"; "2"; "3"; "4"; "5"]%char ->
    In b ["0"; "1"; "2"; "3"; "4"; "5"; "6"; "7"; "8"; "9"]%char ->
    In c ["0"; "1"; "2"; "3"; "4"; "5"; "6"; "7"; "8"; "9"]%char ->
    legal PatStatus (String a (String b (String c EmptyString)))
| legal_range a : In a ["1"; "2"; "3"; "4"; "5"]%char -> legal PatStatus (String a "XX")
| legal_name k : k <> "" ->
    (forall c, In c (list_ascii_of_string k) ->
       In c (list_ascii_of_string "abcdefghijklmnopqrstuvwxyzABCDEFGHIJKLMNOPQRSTUVWXYZ0123456789.-_")) ->
    legal PatName k.

(* A JSON value as it comes out of a Go interface{}: objects without repeated
   keys, numbers that are float64. *)
Inductive clean (rnd : Q -> Q) : json -> Prop :=
| clean_null : clean rnd JNull
| clean_bool b : clean rnd (JBool b)
| clean_num q : rnd q = q -> clean rnd (JNum q)
| clean_str s : clean rnd (JStr s)
| clean_arr l : (forall j, In j l -> clean rnd j) -> clean rnd (JArr l)
| clean_obj m : NoDup (map fst m) -> (forall k j, In (k, j) m -> clean rnd j) -> clean rnd (JObj m).

(* No object has a key twice. *)
Inductive distinct : json -> Prop :=
| distinct_null : distinct JNull
| distinct_bool b : distinct (JBool b)
| distinct_num q : distinct (JNum q)
| distinct_str s : distinct (JStr s)
| distinct_arr l : (forall j, In j l -> distinct j) -> distinct (JArr l)
| distinct_obj m : NoDup (map fst m) -> (forall k j, In (k, j) m -> distinct j) -> distinct (JObj m).

Section Wf.
  Variable T : list (string * ent).
  Variable rnd : Q -> Q.
  (* Types whose embedded oneOf members repeat what the other fields say
     (Parameter and HTTPSecurityScheme of 3.0): they are filled by decoding. *)
  Variable derived : string -> bool.
  (* Further conditions on the values of single types. *)
  Variable extra : string -> list val -> bool.

  Definition map_keys (v : val) : list string :=
    match v with VMap m => map fst m | _ => [] end.

  (* A slice or a map that is empty but not nil. *)
  Definition hollow (v : val) : Prop := v = VArr [] \/ v = VMap [].

  (* Conditions on the value at a field, besides its type. *)
  Record field_ok (n : string) (d : dprog) (i : nat) (f : field) (v : val) : Prop := {
    (* omitempty drops empty slices and maps *)
    fo_omit : f_omit f = true -> ~ hollow v;
    (* pattern properties have legal keys, and are nil if there are none *)
    fo_pat : forall p, In (p, i) (d_pats d) -> ~ hollow v /\ (forall k, In k (map_keys v) -> legal p k);
    (* other properties have keys that are no pattern keys *)
    fo_addl : In i (d_addl d) ->
      ~ hollow v /\ (forall k p j, In k (map_keys v) -> In (p, j) (d_pats d) -> ~ legal p k);
    fo_derived : derived n = true -> In i (d_embed d ++ d_oneof d) -> v = VNil
  }.

  (* Exactly one alternative. *)
  Definition one_alt (d : dprog) (vs : list val) : Prop :=
    exists i w, In i (d_oneof d) /\ nth_error vs i = Some (VPtr w) /\
      (forall k, In k (d_oneof d) -> k <> i -> nth_error vs k = Some VNil).

  (* Well formed values. *)
  Inductive wf : ty -> val -> Prop :=
  | wf_str s : wf TStr (VStr s)
  | wf_bool b : wf TBool (VBool b)
  | wf_int z : (-2 ^ 63 <= z < 2 ^ 63)%Z -> wf TInt (VNum (inject_Z z))
  | wf_float q : rnd q = q -> wf TFloat (VNum q)
  | wf_any j : clean rnd j -> wf TAny (VAny j)
  | wf_skip : wf TSkip VNil
  | wf_nil_ptr t : wf (TPtr t) VNil
  | wf_nil_arr t : wf (TArr t) VNil
  | wf_nil_map t : wf (TMap t) VNil
  | wf_ptr t v : wf t v -> wf (TPtr t) (VPtr v)
  | wf_arr t l : (forall v, In v l -> wf t v) -> wf (TArr t) (VArr l)
  | wf_map t m : NoDup (map fst m) -> (forall k v, In (k, v) m -> wf t v) -> wf (TMap t) (VMap m)
  | wf_enum n vals s : get n T = Some (EEnum vals) -> In s vals -> wf (TNamed n) (VStr s)
  | wf_struct n fs parts d vs :
      get n T = Some (EStruct fs parts d) ->
      length fs = length vs ->
      (forall i f v, nth_error fs i = Some f -> nth_error vs i = Some v -> wf (f_ty f) v) ->
      (forall i f v, nth_error fs i = Some f -> nth_error vs i = Some v -> field_ok n d i f v) ->
      (derived n = false -> d_oneof d <> [] -> one_alt d vs) ->
      extra n vs = true ->
      wf (TNamed n) (VStruct vs).

  (* The fields of a struct, those at derived positions nil. *)
  Fixpoint strip_fields (dv : nat -> bool) (i : nat) (fs : list field) (l : list (val * (ty -> val))) : list val :=
    match fs, l with
    | f :: fs, s :: l => (if dv i then VNil else snd s (f_ty f)) :: strip_fields dv (S i) fs l
    | _, _ => map fst l
    end.

  (* The value without the derived members.  Without derived types this is the
     value itself. *)
  Fixpoint strip (v : val) : ty -> val := fun t =>
    match v with
    | VPtr w => match t with TPtr t => VPtr (strip w t) | _ => v end
    | VArr l => match t with TArr t => VArr (map (fun w => strip w t) l) | _ => v end
    | VMap m => match t with TMap t => VMap (map (fun kw => (fst kw, strip (snd kw) t)) m) | _ => v end
    | VStruct l =>
        match t with
        | TNamed n =>
            match get n T with
            | Some (EStruct fs _ d) =>
                VStruct (strip_fields (fun i => derived n && existsb (Nat.eqb i) (d_embed d ++ d_oneof d)) 0 fs (map (fun w => (w, strip w)) l))
            | _ => v
            end
        | _ => v
        end
    | _ => v
    end.

  (* No derived type in the value. *)
  Fixpoint free_fields (fs : list field) (l : list (ty -> bool)) : bool :=
    match fs, l with
    | f :: fs, s :: l => s (f_ty f) && free_fields fs l
    | _, _ => true
    end.
  Fixpoint underived (v : val) : ty -> bool := fun t =>
    match v with
    | VPtr w => match t with TPtr t => underived w t | _ => true end
    | VArr l => match t with TArr t => forallb (fun w => underived w t) l | _ => true end
    | VMap m => match t with TMap t => forallb (fun kw => underived (snd kw) t) m | _ => true end
    | VStruct l =>
        match t with
        | TNamed n =>
            negb (derived n) && match get n T with Some (EStruct fs _ _) => free_fields fs (map underived l) | _ => true end
        | _ => true
        end
    | _ => true
    end.
End Wf.

(* ---------- the two packages ---------- *)

(* The value of a field, by its Go name. *)
Fixpoint find_name (name : string) (fs : list field) (vs : list val) : val :=
  match fs, vs with
  | f :: fs, v :: vs => if String.eqb (f_name f) name then v else find_name name fs vs
  | _, _ => VNil
  end.
Definition fieldv (T : list (string * ent)) (n name : string) (vs : list val) : val :=
  match get n T with Some (EStruct fs _ _) => find_name name fs vs | _ => VNil end.

Definition is_nil (v : val) : bool := match v with VNil => true | _ => false end.
Definition str_is (v : val) (s : string) : bool := match v with VStr x => String.eqb x s | _ => false end.

(* A pointer that is nil or points to one of some strings. *)
Definition nil_or_one_of (v : val) (l : list string) : bool :=
  match v with VNil => true | VPtr (VStr s) => in_list s l | _ => false end.

Definition derived30 (n : string) : bool := in_list n ["Parameter"; "HTTPSecurityScheme"].

(* OpenAPI 3.0: a link has an operationId or an operationRef, not both; a
   parameter has either a schema or a content, a path parameter is required,
   and the style is one of those for the place of the parameter; only the
   "bearer" scheme has a bearerFormat.  NonBearer is no entity of its own: it is
   always filled by decoding an HTTPSecurityScheme. *)
Definition extra30 (n : string) (vs : list val) : bool :=
  let F := fun name => fieldv T30 n name vs in
  if String.eqb n "Link" then is_nil (F "OperationID") || is_nil (F "OperationRef")
  else if String.eqb n "Parameter" then
    xorb (is_nil (F "Schema")) (is_nil (F "Content")) &&
    ((str_is (F "In") "path" && match F "Required" with VPtr (VBool true) => true | _ => false end &&
      nil_or_one_of (F "Style") ["matrix"; "label"; "simple"]) ||
     (str_is (F "In") "query" && nil_or_one_of (F "Style") ["form"; "spaceDelimited"; "pipeDelimited"; "deepObject"]) ||
     (str_is (F "In") "header" && nil_or_one_of (F "Style") ["simple"]) ||
     (str_is (F "In") "cookie" && nil_or_one_of (F "Style") ["form"]))
  else if String.eqb n "HTTPSecurityScheme" then str_is (F "Scheme") "bearer" || is_nil (F "BearerFormat")
  else negb (String.eqb n "NonBearer").

Definition derived31 (n : string) : bool := false.

(* OpenAPI 3.1: a header has either a schema or a content; HTTPBearer is for the
   scheme "bearer" in any case, HTTP for the others.  The rest is what the code
   cannot decode (see the refutations in CodecProps.v): Example objects,
   references to links and path items, references to responses with a
   description.  Examples is a type that no other type uses. *)
Definition extra31 (n : string) (vs : list val) : bool :=
  let F := fun name => fieldv T31 n name vs in
  if String.eqb n "Header" then xorb (is_nil (F "Schema")) (is_nil (F "Content"))
  else if String.eqb n "SecuritySchemeHTTP" then
    match F "Scheme" with VStr s => negb (String.eqb (to_lower s) "bearer") | _ => false end
  else if String.eqb n "SecuritySchemeHTTPBearer" then
    match F "Scheme" with VStr s => String.eqb (to_lower s) "bearer" | _ => false end
  else if in_list n ["LinkOrReference"; "PathItemOrReference"] then is_nil (F "Reference")
  else if String.eqb n "ResponseOrReference" then
    match F "Reference" with
    | VPtr (VStruct ws) => is_nil (fieldv T31 "Reference" "Description" ws)
    | _ => true
    end
  else negb (in_list n ["Example"; "Examples"]).
