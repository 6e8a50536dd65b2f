(* What functions given by the user see while an operation is added.

   jsonschema-go calls functions of the user during reflection: interceptors of
   the default options and methods of the reflected types.  They get the
   reflection context and ask openapi.OperationCtx for the operation context and
   its processing state (operation.go:148-178).  Here a reflection is a
   [session]: it may ask for the state at any point, may call back into the
   package, and ends with a result.  What it does after asking depends on all
   answers given so far during the call, so functions of the user may keep state.
   Functions that change the operation context themselves are not modelled.

   The pipeline is that of ReflectModel with sessions in the place of reports. *)
From Coq Require Import ZArith.
From Verif Require Import Str SMap Json PathModel Types RegistryModel ReflectModel.

(* IsProcessingResponse and ProcessingIn: internal/operation_context.go:21-22. *)
Definition pstate := (bool * string)%type.

(* The reflections of the package. *)
Inductive what :=
| WProbe                 (* r.Reflect("", ...): internal/json_schema.go:90 *)
| WBody (tag : string)   (* request body: internal/json_schema.go:185 *)
| WParams (loc : string) (* parameters: internal/json_schema.go:290 *)
| WField (loc : string)  (* one parameter: openapi3/reflect.go:503, 520, openapi31/reflect.go:466, 485 *)
| WHasJSON               (* hasJSONBody: internal/json_schema.go:222 *)
| WJSON                  (* response body: internal/json_schema.go:213 *)
| WHeaders.              (* response headers: internal/json_schema.go:261 *)

(* What OperationCtx answered, and during which reflection. *)
Record obs := mkObs { o_what : what; o_seen : option pstate }.

(* A reflection that calls back with events of type [E]. *)
Inductive session (E A : Type) :=
| Done (a : out A)
| Ask (k : list obs -> session E A)      (* the answers so far, latest first *)
| Meet (e : E) (k : session E A).
Arguments Done {E A}. Arguments Ask {E A}. Arguments Meet {E A}.

(* The answers so far and the processing state of the operation context. *)
Record tr := mkTr { t_log : list obs; t_now : pstate }.

(* openapi.OperationCtx: operation.go:172-178.  [ctx]: the reflection context
   carries the operation context. *)
Definition note (w : what) (ctx : bool) (t : tr) : tr :=
  mkTr (mkObs w (if ctx then Some (t_now t) else None) :: t_log t) (t_now t).

Section Run.
  Context {E A S : Type}.
  Variable step : E -> S * tr -> (S * tr) * out unit.
  Variables (w : what) (ctx : bool).
  Fixpoint run (s : session E A) (st : S * tr) : (S * tr) * out A :=
    match s with
    | Done a => (st, a)
    | Ask k => let (x, t) := st in let t := note w ctx t in run (k (t_log t)) (x, t)
    | Meet e k => match step e st with
                  | (st, Ret _) => run k st
                  | (st, Err) => (st, Err)
                  | (st, Panic) => (st, Panic)
                  end
    end.
End Run.

(* Reflect with openapi.WithOperationCtx(oc, response, in) or without it:
   operation.go:161-168. *)
Definition reflect_in {E A S} (step : E -> S * tr -> (S * tr) * out unit) (w : what) (p : pstate)
    (s : session E A) (st : S * tr) : (S * tr) * out A :=
  let (x, t) := st in run step w true s (x, mkTr (t_log t) p).
Definition reflect_out {E A S} (step : E -> S * tr -> (S * tr) * out unit) (w : what)
    (s : session E A) (st : S * tr) : (S * tr) * out A :=
  run step w false s st.

Definition no_event {S} (e : Empty_set) (st : S * tr) : (S * tr) * out unit := match e with end.

Section Hooks.
  Variables J Sch : Type.
  Variable B : backend J Sch.
  Notation cunit := (cunit J Sch).

  (* Events of the reflection of parameters.  A property comes with the
     reflections of its type as JSON and in place. *)
  Inductive hevent :=
  | HProp (q : prop J) (js : session (string * J) J) (pl : session Empty_set bool)
  | HDef (n : string) (j : J).

  (* A content unit whose structure is reflected with functions of the user.  Of
     [h_unit] only the members that are not reflections are used. *)
  Record hunit := mkHU {
    h_unit : cunit;
    h_body : string -> session vkind (J * list (string * J));
    h_params : string -> session hevent bool;
    h_has_json : session Empty_set bool;
    h_json : session (string * J) J;
    h_headers : session (prop J) (option string) }.

  (* The probe for default options: internal/json_schema.go:87-95.  A function of
     the user may ask for the state; that it changes the default options is not
     modelled. *)
  Definition h_without (h : hunit) : session Empty_set bool := Ask (fun _ => Done (v_without_tags (h_unit h))).

  (* collectDefinition as a callback. *)
  Definition on_def (d : string * J) (st : comps Sch * tr) : (comps Sch * tr) * out unit :=
    let (c, t) := st in let (c, r) := collect_definition B c (fst d) (snd d) in ((c, t), r).

  Definition with_reports (q : prop J) (js : out J) (pl : out bool) : prop J :=
    mkProp (pr_processed q) (pr_depth q) (pr_name q) (pr_schema q) (pr_ptr q) (pr_cf q) (pr_tag_json q)
      (pr_tag_in q) [] js pl (pr_tags q).

  Definition is_json_param (q : prop J) : bool :=
    String.eqb (pr_cf q) "json" || (pr_tag_json q && negb (pr_tag_in q)).

  (* The parameter of a property, with the reflection of its type:
     openapi3/reflect.go:465-541, openapi31/reflect.go:431-506.  The definitions
     are collected while the type is reflected. *)
  Definition h_build_param (loc : string) (q : prop J) (js : session (string * J) J) (pl : session Empty_set bool)
      (st : comps Sch * tr) : (comps Sch * tr) * out (param Sch) :=
    let build (st : comps Sch * tr) q := let (c, t) := st in let (c, r) := build_param B c loc q in ((c, t), r) in
    match b_conv B (pr_schema q) with
    | Ret _ =>
        if is_json_param q then
          let (st, r) := reflect_in on_def (WField loc) (false, loc) js st in build st (with_reports q r Err)
        else
          let (st, r) := reflect_in no_event (WField loc) (false, loc) pl st in build st (with_reports q Err r)
    | _ => build st (with_reports q Err Err)
    end.

  Section Op.
  Variable R : Type.
  Notation op := (operation Sch R).
  Notation hst := ((comps Sch * op) * tr)%type.

  (* The property callback: openapi3/reflect.go:460-560, openapi31/reflect.go:426-525. *)
  Definition h_param_callback (loc : string) (q : prop J) (js : session (string * J) J) (pl : session Empty_set bool)
      (st : hst) : hst * out unit :=
    let '((c, o), t) := st in
    if negb (pr_processed q) || (1 <? pr_depth q) then (st, Ret tt)
    else match h_build_param loc q js pl (c, t) with
         | ((c, t), Ret p) =>
             if already_exists (op_params o) (p_name p) (p_in p) then (((c, o), t), Err)
             else (((c, set_params o (op_params o ++ [mkPor (Some p) None])), t), Ret tt)
         | ((c, t), Err) => (((c, o), t), Err)
         | ((c, t), Panic) => (((c, o), t), Panic)
         end.

  Definition on_param (loc : string) (e : hevent) (st : hst) : hst * out unit :=
    match e with
    | HProp q js pl => h_param_callback loc q js pl st
    | HDef n j => let '((c, o), t) := st in
                  let (c, r) := collect_definition B c n j in (((c, o), t), r)
    end.

  (* parseParametersIn: openapi3/reflect.go:443-572, openapi31/reflect.go:414-538,
     internal/json_schema.go:275-307. *)
  Definition h_parse_parameters_in (h : hunit) (loc : string) (st : hst) : hst * out unit :=
    if v_slice (h_unit h) then (st, Ret tt)
    else match reflect_in (on_param loc) (WParams loc) (false, loc) (h_params h loc) st with
         | (((c, o), t), Ret true) =>
             (((c, set_ext o (put (x_forbid_unknown ^^ loc) (JBool true) (op_ext o))), t), Ret tt)
         | (st, Ret false) => (st, Ret tt)
         | (st, Err) => (st, Err)
         | (st, Panic) => (st, Panic)
         end.

  (* openapi3/reflect.go:435-441, openapi31/reflect.go:406-412 *)
  Definition h_parse_parameters (h : hunit) : hst -> hst * out unit :=
    join_errors [ h_parse_parameters_in h "query"; h_parse_parameters_in h "path";
                  h_parse_parameters_in h "cookie"; h_parse_parameters_in h "header" ].

  (* The conditions of ReflectRequestBody: internal/json_schema.go:46-103. *)
  Definition h_body_wanted (h : hunit) (method : string) (mapping : bool) (tag : string) (more : list string)
      (st : hst) : hst * out bool :=
    let cu := h_unit h in
    if safe_method method && negb (v_force_body cu) then (st, Ret false)
    else
      let tagged := existsb (v_tagged cu) (tag :: more) in
      if negb tagged && negb mapping && negb (String.eqb tag tag_json) then (st, Ret false)
      else if String.eqb tag tag_json && (v_tagged cu tag_form_data || v_tagged cu tag_form)
              && negb (v_force_json cu) && negb (v_struct cu) then (st, Ret false)
      else match reflect_out no_event WProbe (h_without h) st with
           | (st, Err) => (st, Err)
           | (st, Panic) => (st, Panic)
           | (st, Ret without) =>
               if negb tagged && negb (v_struct cu) && negb mapping && negb (v_slice cu)
                  && negb (v_embedded_slice cu) && negb without
               then (st, Ret false) else (st, Ret true)
           end.

  (* The interceptor that looks for files: internal/json_schema.go:155-182. *)
  Definition on_value (v : vkind) (st : bool * tr) : (bool * tr) * out unit :=
    ((fst st || is_file v, snd st), Ret tt).

  (* parseRequestBody: openapi3/reflect.go:379-427, openapi31/reflect.go:345-398,
     with ReflectRequestBody, internal/json_schema.go:36-191. *)
  Definition h_parse_request_body (h : hunit) (mime method : string) (mapping : bool) (tag : string)
      (more : list string) (st : hst) : hst * out unit :=
    match h_body_wanted h method mapping tag more st with
    | (st, Err) => (st, Err)
    | (st, Panic) => (st, Panic)
    | (st, Ret false) => (st, Ret tt)
    | ((s, t), Ret true) =>
        match reflect_in on_value (WBody tag) (false, "body") (h_body h tag) (false, t) with
        | ((_, t), Err) => ((s, t), Err)
        | ((_, t), Panic) => ((s, t), Panic)
        | ((files, t), Ret (j, defs)) =>
            match b_conv B j with
            | Err => ((s, t), Err)
            | Panic => ((s, t), Panic)
            | Ret sch =>
                match put_definitions B (fst s) defs with
                | (c, Ret _) =>
                    let mime := if String.eqb mime mime_form && files then mime_multipart else mime in
                    (((c, with_body_content (snd s) mime (mkMedia (Some sch) JNull)), t), Ret tt)
                | (c, r) => (((c, snd s), t), r)
                end
            end
        end
    end.

  (* One iteration of setupRequest: openapi3/reflect.go:289-326,
     openapi31/reflect.go:255-292. *)
  Definition h_request_content (h : hunit) (method : string) (st : hst) : hst * out unit :=
    let cu := h_unit h in
    if String.eqb (cu_ctype cu) "" then
      match join_errors [ h_parse_request_body h mime_form method (cu_form_mapping cu) tag_form_data [tag_form];
                          h_parse_parameters h;
                          h_parse_request_body h mime_json method false tag_json [] ] st with
      | (((c, o), t), Ret _) => (((c, parse_raw_request_body B cu o), t), Ret tt)
      | r => r
      end
    else if String.eqb (cu_ctype cu) mime_json then
      join_errors [ h_parse_parameters h; h_parse_request_body h mime_json method false tag_json [] ] st
    else if String.eqb (cu_ctype cu) mime_form || String.eqb (cu_ctype cu) mime_multipart then
      join_errors [ h_parse_request_body h mime_form method (cu_form_mapping cu) tag_form_data [tag_form];
                    h_parse_parameters h ] st
    else
      let '((c, o), t) := st in (((c, string_request_body B o (cu_ctype cu) (cu_format cu)), t), Ret tt).

  Definition h_request_unit (h : hunit) (method : string) (st : hst) : hst * out unit :=
    match h_request_content h method st with
    | (((c, o), t), Ret _) => (((c, customize_body (h_unit h) (describe_body (h_unit h) o)), t), Ret tt)
    | r => r
    end.

  (* setupRequest: openapi3/reflect.go:288-329, openapi31/reflect.go:254-295 *)
  Fixpoint h_setup_request (hs : list hunit) (method : string) (st : hst) : hst * out unit :=
    match hs with
    | [] => (st, Ret tt)
    | h :: hs' => match h_request_unit h method st with
                  | (st', Ret _) => h_setup_request hs' method st'
                  | r => r
                  end
    end.
  End Op.
  Arguments h_setup_request {R}.

  (* ------------------------------------------------------------------ *)
  (* Responses                                                            *)

  Notation responses := (responses Sch).
  Notation response := (response Sch).
  Notation hpst := ((comps Sch * response) * tr)%type.

  (* parseJSONResponse: openapi3/reflect.go:743-782, openapi31/reflect.go:713-750,
     with ReflectJSONResponse, internal/json_schema.go:194-219. *)
  Definition h_parse_json_response (h : hunit) (ctype : string) (st : hpst) : hpst * out unit :=
    if cu_nil (h_unit h) then (st, Ret tt)
    else
      match reflect_out no_event WHasJSON (h_has_json h) st with
      | (st, Panic) => (st, Panic)
      | (st, Ret false) => (st, Ret tt)
      | (((c, r), t), Ret true) | (((c, r), t), Err) =>
          match reflect_in on_def WJSON (true, "body") (h_json h) (c, t) with
          | ((c, t), Err) => (((c, r), t), Err)
          | ((c, t), Panic) => (((c, r), t), Panic)
          | ((c, t), Ret j) =>
              match b_conv B j with
              | Err => (((c, r), t), Err)
              | Panic => (((c, r), t), Panic)
              | Ret s =>
                  let s := b_unnull B s in
                  let ct := if is_empty ctype then mime_json else ctype in
                  let rest := match get ct (rs_content r) with Some m => mt_rest m | None => JNull end in
                  let r := set_content r (put ct (mkMedia (Some s) rest) (rs_content r)) in
                  (((c, fill_desc (b_desc B j) r), t), Ret tt)
              end
          end
      end.

  Definition on_header (q : prop J) (st : smap (header Sch) * tr) : (smap (header Sch) * tr) * out unit :=
    let (res, t) := st in let (res, r) := header_callback B q res in ((res, t), r).

  (* parseResponseHeader: openapi3/reflect.go:595-648, openapi31/reflect.go:563-618,
     with ReflectResponseHeader, internal/json_schema.go:248-272. *)
  Definition h_parse_response_header (h : hunit) (st : hpst) : hpst * out unit :=
    let '((c, r), t) := st in
    if cu_nil (h_unit h) then (st, Ret tt)
    else match reflect_in on_header WHeaders (true, "header") (h_headers h) ([], t) with
         | ((_, t), Err) => (((c, r), t), Err)
         | ((_, t), Panic) => (((c, r), t), Panic)
         | ((res, t), Ret d) => (((c, fill_desc d (set_headers r res)), t), Ret tt)
         end.

  (* The part of one iteration that fills [resp]: openapi3/reflect.go:685-715,
     openapi31/reflect.go:655-685. *)
  Definition h_fill_response (h : hunit) (method : string) (st : hpst) : hpst * out unit :=
    let cu := h_unit h in
    let ctype := before_semicolon (cu_ctype cu) in
    let filled :=
      if negb (String.eqb (to_upper method) "HEAD") then
        match join_errors [ h_parse_json_response h ctype; h_parse_response_header h ] st with
        | (((c, r), t), Ret _) =>
            let r := parse_raw_response_body B cu r in
            (((c, if is_empty ctype then r else ensure_content_type B r ctype (cu_format cu)), t), Ret tt)
        | x => x
        end
      else h_parse_response_header h st in
    match filled with
    | (((c, r), t), Ret _) =>
        let r := if is_empty (cu_desc cu) then r else set_desc r (cu_desc cu) in
        let r := if is_empty (rs_desc r) then set_desc r (status_text (norm_status cu)) else r in
        (((c, r), t), Ret tt)
    | x => x
    end.

  (* One iteration of setupResponse: openapi3/reflect.go:661-728,
     openapi31/reflect.go:631-698. *)
  Definition h_response_unit (h : hunit) (method : string) (st : (comps Sch * responses) * tr)
    : ((comps Sch * responses) * tr) * out unit :=
    let '((c, rs), t) := st in
    let cu := h_unit h in
    let rs := ensure_default cu rs in
    let resp := match current_response cu rs with Some r => r | None => zero_response end in
    match h_fill_response h method ((c, resp), t) with
    | (((c, r), t), Ret _) =>
        let x := mkRor (Some r) None in
        let x := match cu_custom_resp cu with Some f => f x | None => x end in
        (((c, store_response cu x rs), t), Ret tt)
    | (((c, r), t), e) => (((c, write_back cu r rs), t), e)
    end.

  (* setupResponse: openapi3/reflect.go:660-731, openapi31/reflect.go:630-701 *)
  Fixpoint h_setup_response (hs : list hunit) (method : string) (st : (comps Sch * responses) * tr)
    : ((comps Sch * responses) * tr) * out unit :=
    match hs with
    | [] => (st, Ret tt)
    | h :: hs' => match h_response_unit h method st with
                  | (st', Ret _) => h_setup_response hs' method st'
                  | r => r
                  end
    end.

  (* The operation context with its units; [x_oc] has no units of its own. *)
  Record hctx (R : Type) := mkHctx {
    x_oc : opctx J Sch R; x_request : list hunit; x_response : list hunit; x_state : pstate }.
  Arguments x_oc {R}. Arguments x_request {R}. Arguments x_response {R}. Arguments x_state {R}. Arguments mkHctx {R}.

  (* setupRequest, validatePathParams and setupResponse:
     openapi3/reflect.go:273-283, openapi31/reflect.go:239-249. *)
  Definition h_setup {R} (rget : R -> responses) (rset : responses -> R) (c : comps Sch) (x : hctx R)
    : comps Sch * operation Sch R * add_result * tr :=
    let oc := x_oc x in
    match h_setup_request (x_request x) (oc_method oc) ((c, oc_op oc), mkTr [] (x_state x)) with
    | (((c, o), t), Err) => (c, o, AFail AERequest, t)
    | (((c, o), t), Panic) => (c, o, APanic, t)
    | (((c, o), t), Ret _) =>
        match validate_path_params (op_params o) (oc_params oc) with
        | [] =>
            match x_response x with
            | [] => (c, o, AOk, t)
            | hs =>
                match h_setup_response hs (oc_method oc) ((c, rget (op_responses o)), t) with
                | (((c, rs), t), Err) => (c, set_responses o (rset rs), AFail AEResponse, t)
                | (((c, rs), t), Panic) => (c, set_responses o (rset rs), APanic, t)
                | (((c, rs), t), Ret _) => (c, set_responses o (rset rs), AOk, t)
                end
            end
        | errs => (c, o, AFail (AEParams errs), t)
        end
    end.

  (* The answers in the order in which they were given. *)
  Definition answers (t : tr) : list obs := rev (t_log t).

  (* AddOperation: openapi3/reflect.go:267-286.  Also returned: the answers and
     the state in which the operation context is left. *)
  Definition h_add30 (r : refl30 Sch) (x : hctx responses)
    : refl30 Sch * opctx J Sch responses * add_result * (list obs * pstate) :=
    let oc := x_oc x in
    match h_setup (fun rs => rs) (fun rs => rs) (r30_comps r) x with
    | (c, o, AOk, t) =>
        let (p, e) := add_operation30 (r30_paths r) (oc_method oc) (oc_path oc) o in
        (mkRefl30 p c, set_op oc o, match e with None => AOk | Some e => AFail (AESpec e) end, (answers t, t_now t))
    | (c, o, e, t) => (mkRefl30 (r30_paths r) c, set_op oc o, e, (answers t, t_now t))
    end.

  (* AddOperation and AddWebhook: openapi31/reflect.go:214-252 *)
  Definition h_add31 (webhook : bool) (r : refl31 Sch) (x : hctx (option responses))
    : refl31 Sch * opctx J Sch (option responses) * add_result * (list obs * pstate) :=
    let oc := x_oc x in
    match h_setup ens Some (r31_comps r) x with
    | (c, o, AOk, t) =>
        let (p, e) := (if webhook then add_webhook31 else add_operation31) (r31_paths r) (oc_method oc) (oc_path oc) o in
        (mkRefl31 p c, set_op oc o, match e with None => AOk | Some e => AFail (AESpec e) end, (answers t, t_now t))
    | (c, o, e, t) => (mkRefl31 (r31_paths r) c, set_op oc o, e, (answers t, t_now t))
    end.
End Hooks.
Arguments HProp {J}. Arguments HDef {J}. Arguments mkHU {J Sch}. Arguments h_unit {J Sch}. Arguments h_body {J Sch}.
Arguments h_params {J Sch}. Arguments h_has_json {J Sch}. Arguments h_json {J Sch}. Arguments h_headers {J Sch}.
Arguments h_without {J Sch}. Arguments on_def {J Sch}. Arguments with_reports {J}. Arguments is_json_param {J}.
Arguments h_build_param {J Sch}. Arguments h_param_callback {J Sch} B {R}. Arguments on_param {J Sch} B {R}.
Arguments h_parse_parameters_in {J Sch} B {R}. Arguments h_parse_parameters {J Sch} B {R}.
Arguments h_body_wanted {J Sch R}. Arguments h_parse_request_body {J Sch} B {R}. Arguments h_request_content {J Sch} B {R}.
Arguments h_request_unit {J Sch} B {R}. Arguments h_setup_request {J Sch} B {R}. Arguments h_parse_json_response {J Sch}.
Arguments on_header {J Sch}. Arguments h_parse_response_header {J Sch}. Arguments h_fill_response {J Sch}.
Arguments h_response_unit {J Sch}. Arguments h_setup_response {J Sch}. Arguments mkHctx {J Sch R}. Arguments x_oc {J Sch R}.
Arguments x_request {J Sch R}. Arguments x_response {J Sch R}. Arguments x_state {J Sch R}. Arguments h_setup {J Sch} B {R}.
Arguments h_add30 {J Sch}. Arguments h_add31 {J Sch}.
