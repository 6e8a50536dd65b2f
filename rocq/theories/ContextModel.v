(* Operation contexts (internal/operation_context.go, operationContext of both
   packages), content units (operation.go), the setters of a document
   (helper.go) and the deprecated entry points of openapi3. *)
From Coq Require Import ZArith.
From Verif Require Import Str SMap Json PathModel Types RegistryModel ReflectModel.

(* ------------------------------------------------------------------ *)
(* Content units: operation.go:20-108                                   *)

Section Units.
  Variable V : Type.   (* Go values; a nil interface is [None] *)

  (* ContentUnit, operation.go:24-51.  [u_custom]: whether Customize is set and
     which function it is (opaque). *)
  Record cunit_in := mkUnit {
    u_struct : option V;
    u_ctype : string;
    u_format : string;
    u_status : Z;
    u_default : bool;
    u_desc : string;
    u_custom : option nat;
    u_mapping : smap (smap string) }.
  Definition zero_unit : cunit_in := mkUnit None "" "" 0 false "" None [].

  (* SetFieldMapping, operation.go:93-103 *)
  Definition set_field_mapping (loc : string) (m : smap string) (u : cunit_in) : cunit_in :=
    match m with
    | [] => u
    | _ => mkUnit (u_struct u) (u_ctype u) (u_format u) (u_status u) (u_default u) (u_desc u) (u_custom u)
             (put loc m (u_mapping u))
    end.
  (* FieldMapping, operation.go:106-108 *)
  Definition field_mapping (u : cunit_in) (loc : string) : smap string :=
    match get loc (u_mapping u) with Some m => m | None => [] end.

  (* WithContentType, WithHTTPStatus and the assignment of Structure,
     operation.go:79-90 *)
  Definition with_content_type (ct : string) (u : cunit_in) : cunit_in :=
    mkUnit (u_struct u) ct (u_format u) (u_status u) (u_default u) (u_desc u) (u_custom u) (u_mapping u).
  Definition with_status (st : Z) (u : cunit_in) : cunit_in :=
    mkUnit (u_struct u) (u_ctype u) (u_format u) st (u_default u) (u_desc u) (u_custom u) (u_mapping u).
  Definition with_struct (s : option V) (u : cunit_in) : cunit_in :=
    mkUnit s (u_ctype u) (u_format u) (u_status u) (u_default u) (u_desc u) (u_custom u) (u_mapping u).

  (* The ContentUnitPreparer of a value, if it has one. *)
  Variable preparer : V -> option (cunit_in -> cunit_in).

  (* The unit made by AddReqStructure and AddRespStructure,
     internal/operation_context.go:76-108 *)
  Definition make_unit (s : option V) (options : list (cunit_in -> cunit_in)) : cunit_in :=
    let u := match s with
             | Some v => match preparer v with Some f => f zero_unit | None => with_struct s zero_unit end
             | None => with_struct None zero_unit
             end in
    fold_left (fun u f => f u) options u.
End Units.
Arguments mkUnit {V}. Arguments u_struct {V}. Arguments u_ctype {V}. Arguments u_format {V}. Arguments u_status {V}.
Arguments u_default {V}. Arguments u_desc {V}. Arguments u_custom {V}. Arguments u_mapping {V}. Arguments zero_unit {V}.
Arguments set_field_mapping {V}. Arguments field_mapping {V}. Arguments with_content_type {V}. Arguments with_status {V}.
Arguments with_struct {V}. Arguments make_unit {V}.

(* ------------------------------------------------------------------ *)
(* Operation contexts                                                    *)

Section Contexts.
  Variables V X : Type.
  Variable preparer : V -> option (cunit_in V -> cunit_in V).

  (* The members of Operation that the setters touch, and the others.  A nil
     slice is [None]; a slice shared with the caller is a value here. *)
  Record opinfo := mkInfo {
    i_tags : option (list string);
    i_summary : option string;
    i_desc : option string;
    i_id : option string;
    i_deprecated : option bool;
    i_security : list (smap (option (list string)));
    i_ext : smap json;
    i_rest : X }.

  (* internal.OperationContext (operation_context.go:14-24) with the operation. *)
  Record context := mkCtx {
    x_method : string;
    x_path : string;
    x_req : list (cunit_in V);
    x_resp : list (cunit_in V);
    x_processing_resp : bool;
    x_processing_in : string;
    x_info : opinfo }.

  (* One call on a context. *)
  Inductive ccall :=
  | SetTags (l : option (list string)) | SetSummary (s : string) | SetDescription (s : string) | SetID (s : string)
  | SetDeprecated (b : bool) | AddSecurity (name : string) (scopes : option (list string))
  | SetMethod (s : string) | SetPathPattern (s : string) | SetProcessingIn (s : string) | SetProcessingResponse (b : bool)
  | AddReq (s : option V) (options : list (cunit_in V -> cunit_in V))
  | AddResp (s : option V) (options : list (cunit_in V -> cunit_in V)).

  Definition with_info (f : opinfo -> opinfo) (c : context) : context :=
    mkCtx (x_method c) (x_path c) (x_req c) (x_resp c) (x_processing_resp c) (x_processing_in c) (f (x_info c)).

  (* openapi3/reflect.go:123-196, openapi31/reflect.go:140-211 with the With...
     methods of Operation in entities.go; internal/operation_context.go:41-108 *)
  Definition ctx_call (c : context) (k : ccall) : context :=
    match k with
    | SetTags l => with_info (fun i => mkInfo l (i_summary i) (i_desc i) (i_id i) (i_deprecated i) (i_security i) (i_ext i) (i_rest i)) c
    | SetSummary s => with_info (fun i => mkInfo (i_tags i) (Some s) (i_desc i) (i_id i) (i_deprecated i) (i_security i) (i_ext i) (i_rest i)) c
    | SetDescription s => with_info (fun i => mkInfo (i_tags i) (i_summary i) (Some s) (i_id i) (i_deprecated i) (i_security i) (i_ext i) (i_rest i)) c
    | SetID s => with_info (fun i => mkInfo (i_tags i) (i_summary i) (i_desc i) (Some s) (i_deprecated i) (i_security i) (i_ext i) (i_rest i)) c
    | SetDeprecated b => with_info (fun i => mkInfo (i_tags i) (i_summary i) (i_desc i) (i_id i) (Some b) (i_security i) (i_ext i) (i_rest i)) c
    | AddSecurity n scopes => with_info (fun i => mkInfo (i_tags i) (i_summary i) (i_desc i) (i_id i) (i_deprecated i)
        (i_security i ++ [[(n, match scopes with None => Some [] | Some l => Some l end)]]) (i_ext i) (i_rest i)) c
    | SetMethod s => mkCtx s (x_path c) (x_req c) (x_resp c) (x_processing_resp c) (x_processing_in c) (x_info c)
    | SetPathPattern s => mkCtx (x_method c) s (x_req c) (x_resp c) (x_processing_resp c) (x_processing_in c) (x_info c)
    | SetProcessingIn s => mkCtx (x_method c) (x_path c) (x_req c) (x_resp c) (x_processing_resp c) s (x_info c)
    | SetProcessingResponse b => mkCtx (x_method c) (x_path c) (x_req c) (x_resp c) b (x_processing_in c) (x_info c)
    | AddReq s fs => mkCtx (x_method c) (x_path c) (x_req c ++ [make_unit preparer s fs]) (x_resp c) (x_processing_resp c) (x_processing_in c) (x_info c)
    | AddResp s fs => mkCtx (x_method c) (x_path c) (x_req c) (x_resp c ++ [make_unit preparer s fs]) (x_processing_resp c) (x_processing_in c) (x_info c)
    end.

  Definition ctx_calls (c : context) (l : list ccall) : context := fold_left ctx_call l c.

  (* The getters. *)
  Definition text (o : option string) : string := match o with Some s => s | None => "" end.
  Definition get_tags (c : context) : option (list string) := i_tags (x_info c).
  Definition get_summary (c : context) : string := text (i_summary (x_info c)).
  Definition get_description (c : context) : string := text (i_desc (x_info c)).
  Definition get_id (c : context) : string := text (i_id (x_info c)).
  Definition is_deprecated (c : context) : bool := match i_deprecated (x_info c) with Some b => b | None => false end.

  (* UnknownParamIsForbidden: openapi3/helper.go:125-129, openapi31/helper.go:221-225;
     a missing key gives a nil interface. *)
  Definition unknown_forbidden (c : context) (loc : string) : bool :=
    match get (x_forbid_unknown ^^ loc) (i_ext (x_info c)) with Some (JBool b) => b | _ => false end.
End Contexts.
Arguments mkInfo {X}. Arguments i_tags {X}. Arguments i_summary {X}. Arguments i_desc {X}. Arguments i_id {X}.
Arguments i_deprecated {X}. Arguments i_security {X}. Arguments i_ext {X}. Arguments i_rest {X}.
Arguments mkCtx {V X}. Arguments x_method {V X}. Arguments x_path {V X}. Arguments x_req {V X}. Arguments x_resp {V X}.
Arguments x_processing_resp {V X}. Arguments x_processing_in {V X}. Arguments x_info {V X}.
Arguments SetTags {V}. Arguments SetSummary {V}. Arguments SetDescription {V}. Arguments SetID {V}. Arguments SetDeprecated {V}.
Arguments AddSecurity {V}. Arguments SetMethod {V}. Arguments SetPathPattern {V}. Arguments SetProcessingIn {V}.
Arguments SetProcessingResponse {V}. Arguments AddReq {V}. Arguments AddResp {V}.
Arguments ctx_call {V X}. Arguments ctx_calls {V X}. Arguments get_tags {V X}. Arguments get_summary {V X}.
Arguments get_description {V X}. Arguments get_id {V X}. Arguments is_deprecated {V X}. Arguments unknown_forbidden {V X}.
Arguments with_info {V X}.

(* ------------------------------------------------------------------ *)
(* Documents: information and security schemes                           *)

(* Info of both packages: the members with setters and the others. *)
Record docinfo := mkDocInfo { di_title : string; di_version : string; di_desc : option string; di_rest : json }.

(* A document; [C] is the type of Components. *)
Record doc (C : Type) := mkDoc { d_info : docinfo; d_components : option C; d_rest : json }.
Arguments mkDoc {C}. Arguments d_info {C}. Arguments d_components {C}. Arguments d_rest {C}.

(* openapi3/helper.go:133-165, openapi31/helper.go:229-261 *)
Section Info.
  Context {C : Type}.
  Definition title (d : doc C) : string := di_title (d_info d).
  Definition version (d : doc C) : string := di_version (d_info d).
  Definition description (d : doc C) : string := match di_desc (d_info d) with Some s => s | None => "" end.
  Definition set_info (d : doc C) (i : docinfo) : doc C := mkDoc i (d_components d) (d_rest d).
  Definition set_title (s : string) (d : doc C) : doc C :=
    set_info d (mkDocInfo s (di_version (d_info d)) (di_desc (d_info d)) (di_rest (d_info d))).
  Definition set_version (s : string) (d : doc C) : doc C :=
    set_info d (mkDocInfo (di_title (d_info d)) s (di_desc (d_info d)) (di_rest (d_info d))).
  Definition set_description (s : string) (d : doc C) : doc C :=
    set_info d (mkDocInfo (di_title (d_info d)) (di_version (d_info d)) (Some s) (di_rest (d_info d))).
End Info.

(* openapi3: Components (entities.go:5708-5719), ComponentsSecuritySchemes
   (8017-8019), SecuritySchemeOrRef (7946-7949), SecurityScheme (7827-7832),
   HTTPSecurityScheme (6557-6564), APIKeySecurityScheme (6417-6422).  Members
   that are not set here are in the [..._rest] fields. *)
Record http30 := mkHttp30 { ht_scheme : string; ht_format : option string; ht_desc : option string; ht_rest : json }.
Record apikey30 := mkKey30 { ak_name : string; ak_in : string; ak_desc : option string; ak_rest : json }.
Record scheme30 := mkScheme30 { s3_apikey : option apikey30; s3_http : option http30; s3_oauth : option json; s3_oidc : option json }.
Record sor30 := mkSor30 { so_ref : option string; so_scheme : option scheme30 }.
Record components30 := mkComponents30 { c3_security : option (smap sor30); c3_rest : json }.

(* ComponentsEns, SecuritySchemesEns and WithMapOf...Item: entities.go:89-95,
   5818-5824, 8028-8036 *)
Definition put_scheme30 (d : doc components30) (name : string) (s : sor30) : doc components30 :=
  let c := match d_components d with Some c => c | None => mkComponents30 None JNull end in
  let m := match c3_security c with Some m => m | None => [] end in
  mkDoc (d_info d) (Some (mkComponents30 (Some (put name s m)) (c3_rest c))) (d_rest d).

(* openapi3/helper.go:168-177 *)
Definition basic30 (name desc : string) (d : doc components30) : doc components30 :=
  put_scheme30 d name (mkSor30 None (Some (mkScheme30 None (Some (mkHttp30 "basic" None (Some desc) JNull)) None None))).
(* openapi3/helper.go:180-192 *)
Definition apikey_30 (name field loc desc : string) (d : doc components30) : doc components30 :=
  put_scheme30 d name (mkSor30 None (Some (mkScheme30 (Some (mkKey30 field loc (Some desc) JNull)) None None None))).
(* openapi3/helper.go:195-212 *)
Definition bearer30 (name format desc : string) (d : doc components30) : doc components30 :=
  let h := mkHttp30 "bearer" None (Some desc) JNull in
  let h := if negb (String.eqb format "") then mkHttp30 (ht_scheme h) (Some format) (ht_desc h) (ht_rest h) else h in
  put_scheme30 d name (mkSor30 None (Some (mkScheme30 None (Some h) None None))).

(* openapi31: Components (entities.go:3730-3741), SecuritySchemeOrReference
   (5223-5226), SecurityScheme (3914-3923) and its members. *)
Record bearer_member := mkBearer { be_scheme : string; be_format : option string }.
Record scheme31 := mkScheme31 {
  s1_desc : option string; s1_apikey : option (string * string); s1_http : option string; s1_bearer : option bearer_member;
  s1_oauth : option json; s1_oidc : option json; s1_tls : option json; s1_ext : smap json }.
Record sor31 := mkSor31 { so1_ref : option string; so1_scheme : option scheme31 }.
Record components31 := mkComponents31 { c1_security : smap sor31; c1_rest : json }.

(* ComponentsEns and WithSecuritySchemesItem: entities.go:96-102, 3851-3860; a
   nil map is the empty one. *)
Definition put_scheme31 (d : doc components31) (name : string) (s : sor31) : doc components31 :=
  let c := match d_components d with Some c => c | None => mkComponents31 [] JNull end in
  mkDoc (d_info d) (Some (mkComponents31 (put name s (c1_security c)) (c1_rest c))) (d_rest d).

(* openapi31/helper.go:264-273 *)
Definition basic31 (name desc : string) (d : doc components31) : doc components31 :=
  put_scheme31 d name (mkSor31 None (Some (mkScheme31 (Some desc) None (Some "basic") None None None None []))).
(* openapi31/helper.go:276-287 *)
Definition apikey_31 (name field loc desc : string) (d : doc components31) : doc components31 :=
  put_scheme31 d name (mkSor31 None (Some (mkScheme31 (Some desc) (Some (field, loc)) None None None None None []))).
(* openapi31/helper.go:290-306 *)
Definition bearer31 (name format desc : string) (d : doc components31) : doc components31 :=
  let b := mkBearer "bearer" None in
  let b := if negb (String.eqb format "") then mkBearer (be_scheme b) (Some format) else b in
  put_scheme31 d name (mkSor31 None (Some (mkScheme31 (Some desc) None None (Some b) None None None []))).

(* The setters of both packages as data. *)
Inductive scall_sec := SBasic (name desc : string) | SKey (name field loc desc : string) | SBearer (name format desc : string).
Definition secure30 (d : doc components30) (k : scall_sec) : doc components30 :=
  match k with SBasic n x => basic30 n x d | SKey n f l x => apikey_30 n f l x d | SBearer n f x => bearer30 n f x d end.
Definition secure31 (d : doc components31) (k : scall_sec) : doc components31 :=
  match k with SBasic n x => basic31 n x d | SKey n f l x => apikey_31 n f l x d | SBearer n f x => bearer31 n f x d end.

(* ------------------------------------------------------------------ *)
(* ResolveJSONSchemaRef: openapi3/reflect.go:81-95, openapi31/reflect.go:87-104;
   [to_json] is ToJSONSchema resp. FromSimpleMap (which panics on an error).  A
   nil document, nil components and nil schemas have no schemas. *)
Definition schemas_prefix := "#/components/schemas/".
Fixpoint drop (n : nat) (s : string) : string :=
  match n, s with S n, String _ s => drop n s | _, _ => s end.
Definition resolve_ref {Sch T} (to_json : Sch -> out T) (c : smap Sch) (ref : string) : out (option T) :=
  if String.prefix schemas_prefix ref then
    match get (drop (String.length schemas_prefix) ref) c with
    | Some s => match to_json s with Ret t => Ret (Some t) | Err => Err | Panic => Panic end
    | None => Ret None
    end
  else Ret None.

(* ------------------------------------------------------------------ *)
(* The deprecated form of openapi3                                       *)

Section Deprecated.
  Variables V O : Type.
  Variable preparer : V -> option (cunit_in V -> cunit_in V).

  (* OperationContext, openapi3/reflect_deprecated.go:85-103 *)
  Record depctx := mkDep {
    d_op : option O; d_input : option V; d_method : string;
    d_query : smap string; d_path : smap string; d_cookie : smap string; d_header : smap string; d_form : smap string;
    d_output : option V; d_status : Z; d_ctype : string; d_resp_header : smap string;
    d_proc_resp : bool; d_proc_in : string }.

  (* The state of internal.OperationContext. *)
  Record ictx := mkIctx {
    n_method : string; n_path : string; n_req : list (cunit_in V); n_resp : list (cunit_in V);
    n_proc_resp : bool; n_proc_in : string }.

  (* toOpCtx: openapi3/reflect.go:198-227 *)
  Definition to_op_ctx (c : depctx) : ictx * option O :=
    (mkIctx (d_method c) ""
       [make_unit preparer (d_input c)
          [fun u => set_field_mapping "formData" (d_form c) (set_field_mapping "path" (d_path c)
             (set_field_mapping "cookie" (d_cookie c) (set_field_mapping "query" (d_query c)
                (set_field_mapping "header" (d_header c) u))))]]
       [make_unit preparer (d_output c)
          [fun u => set_field_mapping "header" (d_resp_header c) (with_status (d_status c) (with_content_type (d_ctype c) u))]]
       (d_proc_resp c) (d_proc_in c),
     d_op c).

  (* fromOpCtx: openapi3/reflect.go:229-260 *)
  Definition from_op_ctx (x : ictx) : depctx :=
    let c := mkDep None None (n_method x) [] [] [] [] [] None 0 "" [] (n_proc_resp x) (n_proc_in x) in
    let c := match n_req x with
             | [] => c
             | u :: _ => mkDep (d_op c) (u_struct u) (d_method c) (field_mapping u "query") (field_mapping u "path")
                           (field_mapping u "cookie") (field_mapping u "header") (field_mapping u "formData")
                           (d_output c) (d_status c) (d_ctype c) (d_resp_header c) (d_proc_resp c) (d_proc_in c)
             end in
    match n_resp x with
    | [] => c
    | u :: _ => mkDep (d_op c) (d_input c) (d_method c) (d_query c) (d_path c) (d_cookie c) (d_header c) (d_form c)
                  (u_struct u) (u_status u) (u_ctype u) (field_mapping u "header") (d_proc_resp c) (d_proc_in c)
    end.
End Deprecated.
Arguments mkDep {V O}. Arguments d_op {V O}. Arguments d_input {V O}. Arguments d_method {V O}. Arguments d_query {V O}.
Arguments d_path {V O}. Arguments d_cookie {V O}. Arguments d_header {V O}. Arguments d_form {V O}. Arguments d_output {V O}.
Arguments d_status {V O}. Arguments d_ctype {V O}. Arguments d_resp_header {V O}. Arguments d_proc_resp {V O}. Arguments d_proc_in {V O}.
Arguments mkIctx {V}. Arguments n_method {V}. Arguments n_path {V}. Arguments n_req {V}. Arguments n_resp {V}.
Arguments n_proc_resp {V}. Arguments n_proc_in {V}. Arguments to_op_ctx {V O}. Arguments from_op_ctx {V O}.

Section Flows.
  Variables V J Sch : Type.
  Variable B : backend J Sch.
  Variable preparer : V -> option (cunit_in V -> cunit_in V).
  (* What reflection reports about a content unit. *)
  Variable report : cunit_in V -> cunit J Sch.
  Notation op := (op30 Sch).

  (* SetupRequest, SetupResponse: openapi3/reflect_deprecated.go:11-13, 69-71.
     The operation pointed to is passed on and handed back. *)
  Definition dep_setup_request (c : depctx V unit) (st : comps Sch * op) : (comps Sch * op) * out unit :=
    let x := fst (to_op_ctx preparer c) in setup_request B (map report (n_req x)) (n_method x) st.
  Definition dep_setup_response (c : depctx V unit) (st : comps Sch * op) : (comps Sch * op) * out unit :=
    let x := fst (to_op_ctx preparer c) in
    let (cs, o) := st in
    match setup_response B (map report (n_resp x)) (n_method x) (cs, op_responses o) with
    | ((cs, rs), e) => ((cs, set_responses o rs), e)
    end.

  (* SetRequest, SetJSONResponse, SetStringResponse: reflect_deprecated.go:18-24,
     58-64, 47-53 *)
  Definition set_request (input : option V) (method : string) :=
    dep_setup_request (mkDep (Some tt) input method [] [] [] [] [] None 0 "" [] false "").
  Definition set_json_response (output : option V) (status : Z) :=
    dep_setup_response (mkDep (Some tt) None "" [] [] [] [] [] output status "" [] false "").
  Definition set_string_response (status : Z) (ctype : string) :=
    dep_setup_response (mkDep (Some tt) None "" [] [] [] [] [] None status ctype [] false "").

  (* Documenting an operation the deprecated way: SetRequest, SetJSONResponse,
     Spec.AddOperation.  [None]: some call returned an error or panicked. *)
  Definition old_flow (r : refl30 Sch) (method path : string) (input output : option V) (status : Z) : option (refl30 Sch) :=
    match set_request input method (r30_comps r, zero_op30) with
    | ((cs, o), Ret _) =>
        match set_json_response output status (cs, o) with
        | ((cs, o), Ret _) =>
            match add_operation30 (r30_paths r) method path o with
            | (p, None) => Some (mkRefl30 p cs)
            | _ => None
            end
        | _ => None
        end
    | _ => None
    end.

  (* And with an operation context: NewOperationContext, AddReqStructure,
     AddRespStructure with WithHTTPStatus, AddOperation. *)
  Definition new_flow (r : refl30 Sch) (method path : string) (input output : option V) (status : Z) : option (refl30 Sch) :=
    match new_context30 (J := J) r method path with
    | Some oc =>
        let oc := mkOC (oc_method oc) (oc_path oc) [report (make_unit preparer input [])]
                    [report (make_unit preparer output [with_status status])] (oc_op oc) (oc_params oc) in
        match reflector_add30 B r oc with
        | (r, _, AOk) => Some r
        | _ => None
        end
    | None => None
    end.
End Flows.
