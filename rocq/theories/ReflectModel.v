(* The reflection pipeline of both packages: openapi3/reflect.go,
   openapi31/reflect.go, internal/json_schema.go, internal/operation_context.go.

   The two packages run the same code up to a few points; these points are the
   members of [backend].  What the libraries jsonschema-go and refl report about
   a Go value is part of the content unit ([cunit]): arbitrary data, so every
   theorem holds for every reflection result. *)
From Coq Require Import ZArith DecimalString.
From Verif Require Import Str SMap Json PathModel Types RegistryModel.

(* Result of a step: a value, a returned error, or a panic. *)
Inductive out (A : Type) := Ret (a : A) | Err | Panic.
Arguments Ret {A}. Arguments Err {A}. Arguments Panic {A}.

(* strconv.Itoa *)
Definition itoa (z : Z) : string := NilZero.string_of_int (Z.to_int z).

(* net/http.StatusText: the IANA registered texts; other codes give "". *)
Definition status_text (z : Z) : string :=
  match z with
  | 100 => "Continue" | 101 => "Switching Protocols" | 102 => "Processing" | 103 => "Early Hints"
  | 200 => "OK" | 201 => "Created" | 202 => "Accepted" | 203 => "Non-Authoritative Information"
  | 204 => "No Content" | 205 => "Reset Content" | 206 => "Partial Content" | 207 => "Multi-Status"
  | 208 => "Already Reported" | 226 => "IM Used"
  | 300 => "Multiple Choices" | 301 => "Moved Permanently" | 302 => "Found" | 303 => "See Other"
  | 304 => "Not Modified" | 305 => "Use Proxy" | 307 => "Temporary Redirect" | 308 => "Permanent Redirect"
  | 400 => "Bad Request" | 401 => "Unauthorized" | 402 => "Payment Required" | 403 => "Forbidden"
  | 404 => "Not Found" | 405 => "Method Not Allowed" | 406 => "Not Acceptable"
  | 407 => "Proxy Authentication Required" | 408 => "Request Timeout" | 409 => "Conflict" | 410 => "Gone"
  | 411 => "Length Required" | 412 => "Precondition Failed" | 413 => "Request Entity Too Large"
  | 414 => "Request URI Too Long" | 415 => "Unsupported Media Type"
  | 416 => "Requested Range Not Satisfiable" | 417 => "Expectation Failed" | 418 => "I'm a teapot"
  | 421 => "Misdirected Request" | 422 => "Unprocessable Entity" | 423 => "Locked"
  | 424 => "Failed Dependency" | 425 => "Too Early" | 426 => "Upgrade Required"
  | 428 => "Precondition Required" | 429 => "Too Many Requests"
  | 431 => "Request Header Fields Too Large" | 451 => "Unavailable For Legal Reasons"
  | 500 => "Internal Server Error" | 501 => "Not Implemented" | 502 => "Bad Gateway"
  | 503 => "Service Unavailable" | 504 => "Gateway Timeout" | 505 => "HTTP Version Not Supported"
  | 506 => "Variant Also Negotiates" | 507 => "Insufficient Storage" | 508 => "Loop Detected"
  | 510 => "Not Extended" | 511 => "Network Authentication Required"
  | _ => ""
  end%Z.

(* openapi3/reflect.go:331-342, openapi31/reflect.go:297-307 *)
Definition tag_json := "json".
Definition tag_form_data := "formData".
Definition tag_form := "form".
Definition mime_json := "application/json".
Definition mime_form := "application/x-www-form-urlencoded".
Definition mime_multipart := "multipart/form-data".
Definition x_forbid_unknown := "x-forbid-unknown-".

(* strings.Split(contentType, ";")[0] *)
Definition before_semicolon (s : string) : string := fst (span (fun c => negb (Ascii.eqb c ";")) s).

(* Type of a value met while a request body is reflected, as tested by
   internal/json_schema.go:158-165. *)
Inductive vkind := KFile | KFileHeader | KOther.
Definition is_file (k : vkind) : bool := match k with KOther => false | _ => true end.

Section Reflect.
  Variables J Sch : Type.      (* jsonschema.Schema and the schema type of the package *)

  (* What refl.PopulateFieldsFromTags reads from a field tag, per member. *)
  Record tagset := mkTags {
    t_name : option string; t_desc : option string; t_required : option bool;
    t_deprecated : option bool; t_allow_empty : option bool; t_style : option string;
    t_explode : option bool; t_allow_reserved : option bool }.

  (* One call of the property interceptor (jsonschema.InterceptPropParams and
     what the interceptor asks about the field). *)
  Record prop := mkProp {
    pr_processed : bool;              (* params.Processed *)
    pr_depth : nat;                   (* len(params.Path) *)
    pr_name : string;                 (* params.Name *)
    pr_schema : J;                    (* params.PropertySchema *)
    pr_ptr : bool;                    (* field.Type.Kind() == reflect.Ptr *)
    pr_cf : string;                   (* tag collectionFormat *)
    pr_tag_json : bool;               (* HasTaggedFields(property, "json") *)
    pr_tag_in : bool;                 (* HasTaggedFields(property, in) *)
    pr_json_defs : list (string * J); (* definitions collected by Reflect(property, RootRef...) *)
    pr_json : out J;                  (* its result *)
    pr_plain : out bool;              (* Reflect(property, InlineRefs): HasType(object) *)
    pr_tags : out tagset }.           (* PopulateFieldsFromTags *)

  (* Reflection of parameters: property callbacks and collected definitions in
     the order in which they happen. *)
  Inductive pevent := EProp (p : prop) | EDef (name : string) (j : J).

  Record cunit := mkCU {
    cu_nil : bool;                    (* Structure == nil *)
    cu_ctype : string;
    cu_format : string;
    cu_status : Z;
    cu_default : bool;
    cu_desc : string;
    cu_form_mapping : bool;           (* len(FieldMapping(formData)) > 0 *)
    cu_custom_req : option (rbor Sch -> rbor Sch);
    cu_custom_resp : option (ror Sch -> ror Sch);
    (* what the libraries report about Structure *)
    v_force_body : bool;              (* implements RequestBodyEnforcer *)
    v_force_json : bool;              (* implements RequestJSONBodyEnforcer *)
    v_slice : bool;                   (* refl.IsSliceOrMap *)
    v_embedded_slice : bool;          (* refl.FindEmbeddedSliceOrMap != nil *)
    v_struct : bool;                  (* contains a jsonschema.Struct *)
    v_tagged : string -> bool;        (* refl.HasTaggedFields *)
    v_without_tags : out bool;        (* rc.ProcessWithoutTags of the default options *)
    v_body : string -> list vkind * out (J * list (string * J));
                                      (* Reflect for the body with a tag: visited values, schema and Definitions *)
    v_params : string -> list pevent * out bool;
                                      (* Reflect for parameters in a location; additionalProperties is false *)
    v_content_tags : list string;     (* refl.WalkTaggedFields(contentType) *)
    v_has_json : out bool;            (* hasJSONBody *)
    v_json : list (string * J) * out J; (* Reflect for the JSON response *)
    v_headers : list prop * out (option string)
                                      (* Reflect for response headers; description of the schema *) }.

  Record backend := mkBackend {
    b_conv : J -> out Sch;            (* FromJSONSchema / ToSimpleMap *)
    b_desc : J -> option string;      (* Schema.Description *)
    b_unnull : Sch -> Sch;            (* Schema.Nullable = nil (3.0 only) *)
    b_deprecated : J -> Sch -> out (option bool);
                                      (* s.Schema.Deprecated (panics on a reference) / isDeprecated *)
    b_string : string -> Sch;         (* the schema of mediaType(format) *)
    b_v31 : bool }.

  Variable B : backend.

  (* mediaType: openapi3/reflect.go:344-359, openapi31/reflect.go:309-325 *)
  Definition media_type (format : string) : media Sch := mkMedia (Some (b_string B format)) JNull.

  Definition comps := smap Sch.

  (* collectDefinition: openapi3/reflect.go:582-593, openapi31/reflect.go:548-561.
     A conversion error is a panic in 3.1 and cannot happen in 3.0. *)
  Definition collect_definition (c : comps) (name : string) (j : J) : comps * out unit :=
    if has name c then (c, Ret tt)
    else match b_conv B j with
         | Ret s => (put name s c, Ret tt)
         | _ => (c, Panic)
         end.

  Fixpoint collect_all (c : comps) (l : list (string * J)) : comps * out unit :=
    match l with
    | [] => (c, Ret tt)
    | (n, j) :: l' => match collect_definition c n j with
                      | (c', Ret _) => collect_all c' l'
                      | r => r
                      end
    end.

  (* The switch on collectionFormat: openapi3/reflect.go:487-496,
     openapi31/reflect.go:451-460. *)
  Definition with_collection (cf : string) (p : param Sch) : param Sch :=
    let set st ex := mkParam (p_name p) (p_in p) (p_desc p) (p_required p) (p_deprecated p)
                       (p_allow_empty p) (Some st) (Some ex) (p_allow_reserved p) (p_schema p) (p_content p) (p_rest p) in
    if String.eqb cf "csv" then set "form" false
    else if String.eqb cf "ssv" then set "spaceDelimited" false
    else if String.eqb cf "pipes" then set "pipeDelimited" false
    else if String.eqb cf "multi" then set "form" true
    else p.

  Definition over {A : Type} (t cur : option A) : option A :=
    match t with Some _ => t | None => cur end.

  (* refl.PopulateFieldsFromTags(&p, field.Tag): a member is overwritten if the
     tag is present.  In 3.1 Style, AllowEmptyValue and AllowReserved are not
     populated (Style has a named type, the others are not members). *)
  Definition populate (t : tagset) (p : param Sch) : param Sch :=
    mkParam (match t_name t with Some n => n | None => p_name p end) (p_in p)
      (over (t_desc t) (p_desc p)) (over (t_required t) (p_required p)) (over (t_deprecated t) (p_deprecated p))
      (if b_v31 B then p_allow_empty p else over (t_allow_empty t) (p_allow_empty p))
      (if b_v31 B then p_style p else over (t_style t) (p_style p))
      (over (t_explode t) (p_explode p))
      (if b_v31 B then p_allow_reserved p else over (t_allow_reserved t) (p_allow_reserved p))
      (p_schema p) (p_content p) (p_rest p).

  Definition with_required (p : param Sch) : param Sch :=
    mkParam (p_name p) (p_in p) (p_desc p) (Some true) (p_deprecated p) (p_allow_empty p) (p_style p)
      (p_explode p) (p_allow_reserved p) (p_schema p) (p_content p) (p_rest p).

  Definition with_deep_object (p : param Sch) : param Sch :=
    mkParam (p_name p) (p_in p) (p_desc p) (p_required p) (p_deprecated p) (p_allow_empty p)
      (Some "deepObject") (Some true) (p_allow_reserved p) (p_schema p) (p_content p) (p_rest p).

  Definition with_json_content (s : Sch) (p : param Sch) : param Sch :=
    mkParam (p_name p) (p_in p) (p_desc p) (p_required p) (p_deprecated p) (p_allow_empty p)
      (p_style p) (p_explode p) (p_allow_reserved p) None
      (put mime_json (mkMedia (Some s) JNull) (p_content p)) (p_rest p).

  (* The parameter built for a property: openapi3/reflect.go:465-541,
     openapi31/reflect.go:431-506. *)
  Definition build_param (c : comps) (loc : string) (q : prop) : comps * out (param Sch) :=
    match b_conv B (pr_schema q) with
    | Err => (c, Err)
    | Panic => (c, Panic)
    | Ret s =>
        let s := if pr_ptr q then s else b_unnull B s in
        let p := mkParam (pr_name q) loc (b_desc B (pr_schema q)) None None None None None None (Some s) [] JNull in
        let p := with_collection (pr_cf q) p in
        let finish (c : comps) (p : param Sch) : comps * out (param Sch) :=
          match pr_tags q with
          | Ret t => let p := populate t p in
                     (c, Ret (if String.eqb loc in_path then with_required p else p))
          | Err => (c, Err)
          | Panic => (c, Panic)
          end in
        if String.eqb (pr_cf q) "json" || (pr_tag_json q && negb (pr_tag_in q)) then
          match collect_all c (pr_json_defs q) with
          | (c, Ret _) =>
              match pr_json q with
              | Ret j => match b_conv B j with
                         | Ret s => finish c (with_json_content s p)
                         | Err => (c, Err)
                         | Panic => (c, Panic)
                         end
              | Err => (c, Err)
              | Panic => (c, Panic)
              end
          | (c, _) => (c, Panic)
          end
        else
          match pr_plain q with
          | Ret true => finish c (with_deep_object p)
          | Ret false => finish c p
          | Err => (c, Err)
          | Panic => (c, Panic)
          end
    end.

  (* The search for an existing parameter: openapi3/reflect.go:543-555,
     openapi31/reflect.go:508-520. *)
  Fixpoint already_exists (ps : list (por Sch)) (name loc : string) : bool :=
    match ps with
    | [] => false
    | ep :: ps' =>
        match por_param ep with
        | Some e => (String.eqb (p_in e) loc && String.eqb (p_name e) name) || already_exists ps' name loc
        | None => already_exists ps' name loc
        end
    end.

  Section Op.
  Variable R : Type.
  Notation op := (operation Sch R).

  Definition set_params (o : op) (ps : list (por Sch)) : op :=
    mkOp (op_tags o) (op_summary o) (op_desc o) (op_id o) ps (op_body o) (op_responses o)
         (op_deprecated o) (op_security o) (op_ext o) (op_rest o).
  Definition set_body (o : op) (b : option (rbor Sch)) : op :=
    mkOp (op_tags o) (op_summary o) (op_desc o) (op_id o) (op_params o) b (op_responses o)
         (op_deprecated o) (op_security o) (op_ext o) (op_rest o).
  Definition set_ext (o : op) (e : smap json) : op :=
    mkOp (op_tags o) (op_summary o) (op_desc o) (op_id o) (op_params o) (op_body o) (op_responses o)
         (op_deprecated o) (op_security o) e (op_rest o).

  (* State of request processing: component schemas and the operation. *)
  Definition rst := (comps * op)%type.

  (* joinErrors(f1(), f2(), ...): all arguments are evaluated, in order, unless
     one panics: openapi3/reflect.go:98-112, openapi31/reflect.go:106-120. *)
  Fixpoint join_errors {S : Type} (fs : list (S -> S * out unit)) (s : S) : S * out unit :=
    match fs with
    | [] => (s, Ret tt)
    | f :: fs' =>
        match f s with
        | (s1, Panic) => (s1, Panic)
        | (s1, r1) =>
            match join_errors fs' s1 with
            | (s2, Ret _) => (s2, r1)
            | (s2, r2) => (s2, r2)
            end
        end
    end.

  (* The property callback: openapi3/reflect.go:460-560, openapi31/reflect.go:426-525. *)
  Definition param_callback (loc : string) (q : prop) (st : rst) : rst * out unit :=
    let (c, o) := st in
    if negb (pr_processed q) || (1 <? pr_depth q) then (st, Ret tt)
    else match build_param c loc q with
         | (c, Ret p) =>
             if already_exists (op_params o) (p_name p) (p_in p) then ((c, o), Err)
             else ((c, set_params o (op_params o ++ [mkPor (Some p) None])), Ret tt)
         | (c, Err) => ((c, o), Err)
         | (c, Panic) => ((c, o), Panic)
         end.

  (* jsonschema.Reflector.Reflect calling back; a callback error ends it. *)
  Fixpoint run_events (loc : string) (es : list pevent) (st : rst) : rst * out unit :=
    match es with
    | [] => (st, Ret tt)
    | e :: es' =>
        let r := match e with
                 | EProp q => param_callback loc q st
                 | EDef n j => let (c, x) := collect_definition (fst st) n j in ((c, snd st), x)
                 end in
        match r with
        | (st', Ret _) => run_events loc es' st'
        | r => r
        end
    end.

  (* parseParametersIn: openapi3/reflect.go:443-572, openapi31/reflect.go:414-538,
     internal/json_schema.go:275-307. *)
  Definition parse_parameters_in (cu : cunit) (loc : string) (st : rst) : rst * out unit :=
    if v_slice cu then (st, Ret tt)
    else
      let (es, fin) := v_params cu loc in
      match run_events loc es st with
      | (st, Ret _) =>
          match fin with
          | Ret true => let (c, o) := st in
                        ((c, set_ext o (put (x_forbid_unknown ^^ loc) (JBool true) (op_ext o))), Ret tt)
          | Ret false => (st, Ret tt)
          | Err => (st, Err)
          | Panic => (st, Panic)
          end
      | r => r
      end.

  (* openapi3/reflect.go:435-441, openapi31/reflect.go:406-412 *)
  Definition parse_parameters (cu : cunit) : rst -> rst * out unit :=
    join_errors [ parse_parameters_in cu "query"; parse_parameters_in cu "path";
                  parse_parameters_in cu "cookie"; parse_parameters_in cu "header" ].

  (* RequestBodyEns().RequestBodyEns().WithContentItem(mime, mt) *)
  Definition with_body_content (o : op) (mime : string) (mt : media Sch) : op :=
    let rb := match op_body o with Some b => b | None => mkRbor None None end in
    let b := match rbor_body rb with Some b => b | None => mkRbody None [] JNull end in
    set_body o (Some (mkRbor (Some (mkRbody (rb_desc b) (put mime mt (rb_content b)) (rb_rest b))) (rbor_ref rb))).

  (* Methods that should not have a body: internal/json_schema.go:52-58. *)
  Definition safe_method (method : string) : bool :=
    mem (to_upper method) ["GET"; "HEAD"; "DELETE"; "TRACE"].

  (* The conditions of ReflectRequestBody: internal/json_schema.go:46-103.
     [Ret false] is "no body". *)
  Definition body_wanted (cu : cunit) (method : string) (mapping : bool) (tag : string) (more : list string) : out bool :=
    if safe_method method && negb (v_force_body cu) then Ret false
    else
      let tagged := existsb (v_tagged cu) (tag :: more) in
      if negb tagged && negb mapping && negb (String.eqb tag tag_json) then Ret false
      else if String.eqb tag tag_json && (v_tagged cu tag_form_data || v_tagged cu tag_form)
              && negb (v_force_json cu) && negb (v_struct cu) then Ret false
      else match v_without_tags cu with
           | Err => Err
           | Panic => Panic
           | Ret without =>
               if negb tagged && negb (v_struct cu) && negb mapping && negb (v_slice cu)
                  && negb (v_embedded_slice cu) && negb without
               then Ret false else Ret true
           end.

  (* The loop over schema.Definitions: openapi3/reflect.go:412-418,
     openapi31/reflect.go:382-389. *)
  Fixpoint put_definitions (c : comps) (l : list (string * J)) : comps * out unit :=
    match l with
    | [] => (c, Ret tt)
    | (n, j) :: l' => match b_conv B j with
                      | Ret s => put_definitions (put n s c) l'
                      | Err => (c, Err)
                      | Panic => (c, Panic)
                      end
    end.

  (* parseRequestBody: openapi3/reflect.go:379-427, openapi31/reflect.go:345-398,
     with ReflectRequestBody, internal/json_schema.go:36-191. *)
  Definition parse_request_body (cu : cunit) (mime method : string) (mapping : bool) (tag : string)
      (more : list string) (st : rst) : rst * out unit :=
    match body_wanted cu method mapping tag more with
    | Err => (st, Err)
    | Panic => (st, Panic)
    | Ret false => (st, Ret tt)
    | Ret true =>
        let (visited, res) := v_body cu tag in
        match res with
        | Err => (st, Err)
        | Panic => (st, Panic)
        | Ret (j, defs) =>
            match b_conv B j with
            | Err => (st, Err)
            | Panic => (st, Panic)
            | Ret s =>
                match put_definitions (fst st) defs with
                | (c, Ret _) =>
                    let mime := if String.eqb mime mime_form && existsb is_file visited
                                then mime_multipart else mime in
                    ((c, with_body_content (snd st) mime (mkMedia (Some s) JNull)), Ret tt)
                | (c, r) => ((c, snd st), r)
                end
            end
        end
    end.

  (* stringRequestBody, parseRawRequestBody: openapi3/reflect.go:361-377,
     openapi31/reflect.go:327-343. *)
  Definition string_request_body (o : op) (mime format : string) : op :=
    with_body_content o mime (media_type format).

  Definition parse_raw_request_body (cu : cunit) (o : op) : op :=
    if cu_nil cu then o
    else fold_left (fun o t => string_request_body o t "") (v_content_tags cu) o.

  (* One iteration of setupRequest: openapi3/reflect.go:289-326,
     openapi31/reflect.go:255-292. *)
  Definition request_content (cu : cunit) (method : string) (st : rst) : rst * out unit :=
    if String.eqb (cu_ctype cu) "" then
      match join_errors [ parse_request_body cu mime_form method (cu_form_mapping cu) tag_form_data [tag_form];
                          parse_parameters cu;
                          parse_request_body cu mime_json method false tag_json [] ] st with
      | ((c, o), Ret _) => ((c, parse_raw_request_body cu o), Ret tt)
      | r => r
      end
    else if String.eqb (cu_ctype cu) mime_json then
      join_errors [ parse_parameters cu; parse_request_body cu mime_json method false tag_json [] ] st
    else if String.eqb (cu_ctype cu) mime_form || String.eqb (cu_ctype cu) mime_multipart then
      join_errors [ parse_request_body cu mime_form method (cu_form_mapping cu) tag_form_data [tag_form];
                    parse_parameters cu ] st
    else
      let (c, o) := st in ((c, string_request_body o (cu_ctype cu) (cu_format cu)), Ret tt).

  Definition describe_body (cu : cunit) (o : op) : op :=
    match op_body o with
    | Some rb =>
        match rbor_body rb with
        | Some b => if is_empty (cu_desc cu) then o
                    else set_body o (Some (mkRbor (Some (mkRbody (Some (cu_desc cu)) (rb_content b) (rb_rest b))) (rbor_ref rb)))
        | None => o
        end
    | None => o
    end.

  Definition customize_body (cu : cunit) (o : op) : op :=
    match cu_custom_req cu, op_body o with
    | Some f, Some rb => set_body o (Some (f rb))
    | _, _ => o
    end.

  Definition request_unit (cu : cunit) (method : string) (st : rst) : rst * out unit :=
    match request_content cu method st with
    | ((c, o), Ret _) => ((c, customize_body cu (describe_body cu o)), Ret tt)
    | r => r
    end.

  (* setupRequest: openapi3/reflect.go:288-329, openapi31/reflect.go:254-295 *)
  Fixpoint setup_request (cus : list cunit) (method : string) (st : rst) : rst * out unit :=
    match cus with
    | [] => (st, Ret tt)
    | cu :: cus' => match request_unit cu method st with
                    | (st', Ret _) => setup_request cus' method st'
                    | r => r
                    end
    end.
  End Op.

  (* ------------------------------------------------------------------ *)
  (* Responses                                                            *)

  Notation responses := (responses Sch).
  Notation response := (response Sch).

  (* State of response processing: component schemas and the response. *)
  Definition pst := (comps * response)%type.

  Definition set_desc (r : response) (d : string) : response :=
    mkResp d (rs_headers r) (rs_content r) (rs_rest r).
  Definition set_headers (r : response) (h : smap (header Sch)) : response :=
    mkResp (rs_desc r) h (rs_content r) (rs_rest r).
  Definition set_content (r : response) (c : smap (media Sch)) : response :=
    mkResp (rs_desc r) (rs_headers r) c (rs_rest r).

  (* if d != nil && resp.Description == "" *)
  Definition fill_desc (d : option string) (r : response) : response :=
    match d with
    | Some x => if is_empty (rs_desc r) then set_desc r x else r
    | None => r
    end.

  (* parseJSONResponse: openapi3/reflect.go:743-782, openapi31/reflect.go:713-750,
     with ReflectJSONResponse, internal/json_schema.go:194-219. *)
  Definition parse_json_response (cu : cunit) (ctype : string) (st : pst) : pst * out unit :=
    let (c, r) := st in
    if cu_nil cu then (st, Ret tt)
    else
      match v_has_json cu with
      | Panic => (st, Panic)
      | Ret false => (st, Ret tt)
      | Ret true | Err =>
          let (defs, res) := v_json cu in
          match collect_all c defs with
          | (c, Ret _) =>
              match res with
              | Err => ((c, r), Err)
              | Panic => ((c, r), Panic)
              | Ret j =>
                  match b_conv B j with
                  | Err => ((c, r), Err)
                  | Panic => ((c, r), Panic)
                  | Ret s =>
                      let s := b_unnull B s in
                      let ct := if is_empty ctype then mime_json else ctype in
                      let rest := match get ct (rs_content r) with Some m => mt_rest m | None => JNull end in
                      let r := set_content r (put ct (mkMedia (Some s) rest) (rs_content r)) in
                      ((c, fill_desc (b_desc B j) r), Ret tt)
                  end
              end
          | (c, _) => ((c, r), Panic)
          end
      end.

  (* The callback for headers: openapi3/reflect.go:603-635, openapi31/reflect.go:571-605. *)
  Definition header_callback (q : prop) (res : smap (header Sch)) : smap (header Sch) * out unit :=
    if negb (pr_processed q) || (1 <? pr_depth q) then (res, Ret tt)
    else match b_conv B (pr_schema q) with
         | Err => (res, Err)
         | Panic => (res, Panic)
         | Ret s =>
             match b_deprecated B (pr_schema q) s with
             | Err => (res, Err)
             | Panic => (res, Panic)
             | Ret d =>
                 match pr_tags q with
                 | Err => (res, Err)
                 | Panic => (res, Panic)
                 | Ret t =>
                     let h := mkHeader (over (t_desc t) (b_desc B (pr_schema q))) (t_required t)
                                (over (t_deprecated t) d)
                                (if b_v31 B then None else t_allow_empty t)
                                (t_explode t)
                                (if b_v31 B then None else t_allow_reserved t) (Some s) in
                     (put (pr_name q) h res, Ret tt)
                 end
             end
         end.

  Fixpoint run_headers (qs : list prop) (res : smap (header Sch)) : smap (header Sch) * out unit :=
    match qs with
    | [] => (res, Ret tt)
    | q :: qs' => match header_callback q res with
                  | (res', Ret _) => run_headers qs' res'
                  | r => r
                  end
    end.

  (* parseResponseHeader: openapi3/reflect.go:595-648, openapi31/reflect.go:563-618 *)
  Definition parse_response_header (cu : cunit) (st : pst) : pst * out unit :=
    let (c, r) := st in
    if cu_nil cu then (st, Ret tt)
    else
      let (qs, fin) := v_headers cu in
      match run_headers qs [] with
      | (_, Err) => (st, Err)
      | (_, Panic) => (st, Panic)
      | (res, Ret _) =>
          match fin with
          | Err => (st, Err)
          | Panic => (st, Panic)
          | Ret d => ((c, fill_desc d (set_headers r res)), Ret tt)
          end
      end.

  (* ensureResponseContentType: openapi3/reflect.go:733-741, openapi31/reflect.go:703-711 *)
  Definition ensure_content_type (r : response) (ctype format : string) : response :=
    if has ctype (rs_content r) then r
    else set_content r (put ctype (media_type format) (rs_content r)).

  (* parseRawResponseBody: openapi3/reflect.go:650-658 keeps an existing entry,
     openapi31/reflect.go:620-628 replaces it. *)
  Definition raw_content (r : response) (tag : string) : response :=
    if b_v31 B then set_content r (put tag (media_type "") (rs_content r))
    else ensure_content_type r tag "".

  Definition parse_raw_response_body (cu : cunit) (r : response) : response :=
    if cu_nil cu then r else fold_left raw_content (v_content_tags cu) r.

  (* HTTPStatus after the default is applied: openapi3/reflect.go:662-664. *)
  Definition norm_status (cu : cunit) : Z :=
    if (cu_status cu =? 0)%Z && negb (cu_default cu) then 200%Z else cu_status cu.

  (* The key under which a unit is filed: openapi3/reflect.go:668-683. *)
  Definition response_key (cu : cunit) : string :=
    let st := norm_status cu in
    if cu_default cu then "default"
    else if ((0 <? st) && (st <? 6))%Z then itoa st ^^ "XX"
    else itoa st.

  (* The response being extended, if any (a pointer into the operation). *)
  Definition current_response (cu : cunit) (rs : responses) : option response :=
    if cu_default cu then
      match rs_default rs with Some x => ror_resp x | None => None end
    else match get (response_key cu) (rs_map rs) with Some x => ror_resp x | None => None end.

  (* o.Responses.Default = &ResponseOrRef{} when nil: openapi3/reflect.go:675-677. *)
  Definition ensure_default (cu : cunit) (rs : responses) : responses :=
    if cu_default cu then
      match rs_default rs with Some _ => rs | None => mkResps (Some (mkRor None None)) (rs_map rs) end
    else rs.

  (* resp is modified through a pointer: after an error the operation of the
     context shows what was done so far. *)
  Definition write_back (cu : cunit) (r : response) (rs : responses) : responses :=
    if cu_default cu then
      match rs_default rs with
      | Some x => match ror_resp x with
                  | Some _ => mkResps (Some (mkRor (Some r) (ror_ref x))) (rs_map rs)
                  | None => rs
                  end
      | None => rs
      end
    else match get (response_key cu) (rs_map rs) with
         | Some x => match ror_resp x with
                     | Some _ => mkResps (rs_default rs) (put (response_key cu) (mkRor (Some r) (ror_ref x)) (rs_map rs))
                     | None => rs
                     end
         | None => rs
         end.

  Definition store_response (cu : cunit) (x : ror Sch) (rs : responses) : responses :=
    if cu_default cu then mkResps (Some x) (rs_map rs)
    else mkResps (rs_default rs) (put (response_key cu) x (rs_map rs)).

  (* The part of one iteration that fills [resp]: openapi3/reflect.go:685-715,
     openapi31/reflect.go:655-685. *)
  Definition fill_response (cu : cunit) (method : string) (st : pst) : pst * out unit :=
    let ctype := before_semicolon (cu_ctype cu) in
    let filled :=
      if negb (String.eqb (to_upper method) "HEAD") then
        match join_errors [ parse_json_response cu ctype; parse_response_header cu ] st with
        | ((c, r), Ret _) =>
            let r := parse_raw_response_body cu r in
            ((c, if is_empty ctype then r else ensure_content_type r ctype (cu_format cu)), Ret tt)
        | x => x
        end
      else parse_response_header cu st in
    match filled with
    | ((c, r), Ret _) =>
        let r := if is_empty (cu_desc cu) then r else set_desc r (cu_desc cu) in
        let r := if is_empty (rs_desc r) then set_desc r (status_text (norm_status cu)) else r in
        ((c, r), Ret tt)
    | x => x
    end.

  Definition zero_response : response := mkResp "" [] [] JNull.

  (* One iteration of setupResponse: openapi3/reflect.go:661-728,
     openapi31/reflect.go:631-698. *)
  Definition response_unit (cu : cunit) (method : string) (st : comps * responses) : (comps * responses) * out unit :=
    let (c, rs) := st in
    let rs := ensure_default cu rs in
    let resp := match current_response cu rs with Some r => r | None => zero_response end in
    match fill_response cu method (c, resp) with
    | ((c, r), Ret _) =>
        let x := mkRor (Some r) None in
        let x := match cu_custom_resp cu with Some f => f x | None => x end in
        ((c, store_response cu x rs), Ret tt)
    | ((c, r), e) => ((c, write_back cu r rs), e)
    end.

  (* setupResponse: openapi3/reflect.go:660-731, openapi31/reflect.go:630-701 *)
  Fixpoint setup_response (cus : list cunit) (method : string) (st : comps * responses)
    : (comps * responses) * out unit :=
    match cus with
    | [] => (st, Ret tt)
    | cu :: cus' => match response_unit cu method st with
                    | (st', Ret _) => setup_response cus' method st'
                    | r => r
                    end
    end.

  (* ------------------------------------------------------------------ *)
  (* Operation contexts and the reflectors                                 *)

  (* operationContext with internal.OperationContext. *)
  Record opctx (R : Type) := mkOC {
    oc_method : string;
    oc_path : string;
    oc_req : list cunit;
    oc_resp : list cunit;
    oc_op : operation Sch R;
    oc_params : list string }.
  Arguments oc_method {R}. Arguments oc_path {R}. Arguments oc_req {R}. Arguments oc_resp {R}.
  Arguments oc_op {R}. Arguments oc_params {R}. Arguments mkOC {R}.

  (* The reflectors: the document and its component schemas. *)
  Record refl30 := mkRefl30 { r30_paths : paths30 Sch; r30_comps : comps }.
  Record refl31 := mkRefl31 { r31_paths : paths31 Sch; r31_comps : comps }.

  (* openapi3/reflect.go:51-76 *)
  Definition new_context30 (r : refl30) (method path : string) : option (opctx responses) :=
    match sanitize_method_path method path with
    | None => None
    | Some (m, p, ps) =>
        match get m (pi_ops (item30 (r30_paths r) p)) with
        | Some _ => None
        | None => Some (mkOC m p [] [] zero_op30 ps)
        end
    end.

  (* openapi31/reflect.go:51-82 *)
  Definition new_context31 (r : refl31) (method path : string) : refl31 * option (opctx (option responses)) :=
    match sanitize_method_path method path with
    | None => (r, None)
    | Some (m, p, ps) =>
        let (s, items) := paths_ens (r31_paths r) in
        let r := mkRefl31 s (r31_comps r) in
        match pi_operation (item31 items p) m with
        | Some None => (r, Some (mkOC m p [] [] zero_op31 ps))
        | _ => (r, None)
        end
    end.

  Definition set_op {R} (oc : opctx R) (o : operation Sch R) : opctx R :=
    mkOC (oc_method oc) (oc_path oc) (oc_req oc) (oc_resp oc) o (oc_params oc).

  Inductive add_error := AERequest | AEParams (l : list param_error) | AEResponse | AESpec (e : reg_error).
  Inductive add_result := AOk | AFail (e : add_error) | APanic.

  (* setupRequest, validatePathParams and setupResponse in sequence:
     openapi3/reflect.go:273-283, openapi31/reflect.go:239-249.  [rget]/[rset]
     access the responses of the operation; with no response units they are
     not touched. *)
  Definition setup_oc {R} (rget : R -> responses) (rset : responses -> R) (c : comps) (oc : opctx R)
    : comps * operation Sch R * add_result :=
    match setup_request R (oc_req oc) (oc_method oc) (c, oc_op oc) with
    | ((c, o), Err) => (c, o, AFail AERequest)
    | ((c, o), Panic) => (c, o, APanic)
    | ((c, o), Ret _) =>
        match validate_path_params (op_params o) (oc_params oc) with
        | [] =>
            match oc_resp oc with
            | [] => (c, o, AOk)
            | cus =>
                match setup_response cus (oc_method oc) (c, rget (op_responses o)) with
                | ((c, rs), Err) => (c, set_responses o (rset rs), AFail AEResponse)
                | ((c, rs), Panic) => (c, set_responses o (rset rs), APanic)
                | ((c, rs), Ret _) => (c, set_responses o (rset rs), AOk)
                end
            end
        | errs => (c, o, AFail (AEParams errs))
        end
    end.

  Definition setup_oc30 : comps -> opctx responses -> comps * operation Sch responses * add_result :=
    setup_oc (fun rs => rs) (fun rs => rs).
  Definition ens (x : option responses) : responses :=
    match x with Some rs => rs | None => mkResps None [] end.
  Definition setup_oc31 : comps -> opctx (option responses) -> comps * operation Sch (option responses) * add_result :=
    setup_oc ens Some.

  (* AddOperation: openapi3/reflect.go:267-286 *)
  Definition reflector_add30 (r : refl30) (oc : opctx responses) : refl30 * opctx responses * add_result :=
    match setup_oc30 (r30_comps r) oc with
    | (c, o, AOk) =>
        let (p, e) := add_operation30 (r30_paths r) (oc_method oc) (oc_path oc) o in
        (mkRefl30 p c, set_op oc o, match e with None => AOk | Some e => AFail (AESpec e) end)
    | (c, o, e) => (mkRefl30 (r30_paths r) c, set_op oc o, e)
    end.

  (* AddOperation, AddWebhook: openapi31/reflect.go:214-252 *)
  Definition reflector_add31 (r : refl31) (oc : opctx (option responses))
    : refl31 * opctx (option responses) * add_result :=
    match setup_oc31 (r31_comps r) oc with
    | (c, o, AOk) =>
        let (p, e) := add_operation31 (r31_paths r) (oc_method oc) (oc_path oc) o in
        (mkRefl31 p c, set_op oc o, match e with None => AOk | Some e => AFail (AESpec e) end)
    | (c, o, e) => (mkRefl31 (r31_paths r) c, set_op oc o, e)
    end.

  Definition reflector_webhook31 (r : refl31) (oc : opctx (option responses))
    : refl31 * opctx (option responses) * add_result :=
    match setup_oc31 (r31_comps r) oc with
    | (c, o, AOk) =>
        let (p, e) := add_webhook31 (r31_paths r) (oc_method oc) (oc_path oc) o in
        (mkRefl31 p c, set_op oc o, match e with None => AOk | Some e => AFail (AESpec e) end)
    | (c, o, e) => (mkRefl31 (r31_paths r) c, set_op oc o, e)
    end.
End Reflect.


Arguments pr_processed {J}. Arguments pr_depth {J}. Arguments pr_name {J}. Arguments pr_schema {J}.
Arguments pr_ptr {J}. Arguments pr_cf {J}. Arguments pr_tag_json {J}. Arguments pr_tag_in {J}.
Arguments pr_json_defs {J}. Arguments pr_json {J}. Arguments pr_plain {J}. Arguments pr_tags {J}. Arguments mkProp {J}.
Arguments EProp {J}. Arguments EDef {J}.
Arguments cu_nil {J Sch}. Arguments cu_ctype {J Sch}. Arguments cu_format {J Sch}. Arguments cu_status {J Sch}.
Arguments cu_default {J Sch}. Arguments cu_desc {J Sch}. Arguments cu_form_mapping {J Sch}.
Arguments cu_custom_req {J Sch}. Arguments cu_custom_resp {J Sch}.
Arguments v_force_body {J Sch}. Arguments v_force_json {J Sch}. Arguments v_slice {J Sch}.
Arguments v_embedded_slice {J Sch}. Arguments v_struct {J Sch}. Arguments v_tagged {J Sch}.
Arguments v_without_tags {J Sch}. Arguments v_body {J Sch}. Arguments v_params {J Sch}.
Arguments v_content_tags {J Sch}. Arguments v_has_json {J Sch}. Arguments v_json {J Sch}. Arguments v_headers {J Sch}.
Arguments mkCU {J Sch}.
Arguments b_conv {J Sch}. Arguments b_desc {J Sch}. Arguments b_unnull {J Sch}. Arguments b_deprecated {J Sch}.
Arguments b_string {J Sch}. Arguments b_v31 {J Sch}. Arguments mkBackend {J Sch}.
Arguments oc_method {J Sch R}. Arguments oc_path {J Sch R}. Arguments oc_req {J Sch R}. Arguments oc_resp {J Sch R}.
Arguments oc_op {J Sch R}. Arguments oc_params {J Sch R}. Arguments mkOC {J Sch R}. Arguments set_op {J Sch R}.
Arguments r30_paths {Sch}. Arguments r30_comps {Sch}. Arguments mkRefl30 {Sch}.
Arguments r31_paths {Sch}. Arguments r31_comps {Sch}. Arguments mkRefl31 {Sch}.
Arguments media_type {J Sch}. Arguments collect_definition {J Sch}. Arguments collect_all {J Sch}.
Arguments with_collection {Sch}. Arguments populate {J Sch}. Arguments with_required {Sch}.
Arguments with_deep_object {Sch}. Arguments with_json_content {Sch}. Arguments build_param {J Sch}.
Arguments already_exists {Sch}. Arguments set_params {Sch R}. Arguments set_body {Sch R}. Arguments set_ext {Sch R}.
Arguments param_callback {J Sch} B {R}. Arguments run_events {J Sch} B {R}. Arguments parse_parameters_in {J Sch} B {R}.
Arguments parse_parameters {J Sch} B {R}. Arguments with_body_content {Sch R}. Arguments body_wanted {J Sch}.
Arguments put_definitions {J Sch}. Arguments parse_request_body {J Sch} B {R}. Arguments string_request_body {J Sch} B {R}.
Arguments parse_raw_request_body {J Sch} B {R}. Arguments request_content {J Sch} B {R}. Arguments describe_body {J Sch R}.
Arguments customize_body {J Sch R}. Arguments request_unit {J Sch} B {R}. Arguments setup_request {J Sch} B {R}.
Arguments set_desc {Sch}. Arguments set_headers {Sch}. Arguments set_content {Sch}. Arguments fill_desc {Sch}.
Arguments parse_json_response {J Sch}. Arguments header_callback {J Sch}. Arguments run_headers {J Sch}.
Arguments parse_response_header {J Sch}. Arguments ensure_content_type {J Sch}. Arguments raw_content {J Sch}.
Arguments parse_raw_response_body {J Sch}. Arguments norm_status {J Sch}. Arguments response_key {J Sch}.
Arguments current_response {J Sch}. Arguments ensure_default {J Sch}. Arguments write_back {J Sch}.
Arguments store_response {J Sch}. Arguments fill_response {J Sch}. Arguments zero_response {Sch}.
Arguments response_unit {J Sch}. Arguments setup_response {J Sch}.
Arguments new_context30 {J Sch}. Arguments new_context31 {J Sch}. Arguments setup_oc {J Sch} B {R}.
Arguments setup_oc30 {J Sch}. Arguments setup_oc31 {J Sch}. Arguments ens {Sch}.
Arguments reflector_add30 {J Sch}. Arguments reflector_add31 {J Sch}. Arguments reflector_webhook31 {J Sch}.
