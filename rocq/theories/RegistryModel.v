(* The operation registry: openapi3/helper.go and openapi31/helper.go. *)
From Verif Require Import Str SMap Json PathModel Types.

(* Elements of the error list of validatePathParams. *)
Inductive param_error :=
| EDuplicate (loc name : string)
| EMissingPlaceholder (name : string)
| EUndefined (name : string).

Inductive reg_error :=
| EMethod                     (* unexpected http method *)
| EExists                     (* operation already exists *)
| EDupWebhook                 (* duplicate webhook name *)
| EParams (l : list param_error)
| ESetup.                     (* a setup function failed *)

Definition in_path : string := "path".

Section Registry.
  Variable Sch : Type.

  Local Notation por := (por Sch).
  Local Notation responses := (responses Sch).

  (* First loop of validatePathParams, openapi3/helper.go:32-50 and
     openapi31/helper.go:119-137.  [idx] is the set paramIndex, keyed by
     name+in. *)
  Fixpoint check_params (ps : list por) (pp : list string) (idx : list string)
    : list param_error * list string :=
    match ps with
    | [] => ([], idx)
    | p :: ps' =>
        match por_param p with
        | None => check_params ps' pp idx
        | Some q =>
            let key := p_name q ^^ p_in q in
            if mem key idx then
              let (e, i) := check_params ps' pp idx in (EDuplicate (p_in q) (p_name q) :: e, i)
            else if negb (mem (p_name q) pp) && String.eqb (p_in q) in_path then
              let (e, i) := check_params ps' pp idx in (EMissingPlaceholder (p_name q) :: e, i)
            else check_params ps' pp (key :: idx)
        end
    end.

  (* openapi3/helper.go:27-63, openapi31/helper.go:114-150.  [pp] lists the
     keys of the map pathParams in iteration order (duplicates in [pp] only
     repeat a message; Go's map has none). *)
  Definition validate_path_params (ps : list por) (pp : list string) : list param_error :=
    let (e, idx) := check_params ps pp [] in
    e ++ flat_map (fun n => if mem (n ^^ in_path) idx then [] else [EUndefined n]) pp.

  (* helper.go: "Add No Content response if there are no responses configured",
     openapi3/helper.go:109-115, openapi31/helper.go:169-175. *)
  Definition no_content : ror Sch :=
    mkRor (Some (mkResp "No Content" [] [] JNull)) None.

  Definition ensure_response (r : responses) : responses :=
    match rs_map r, rs_default r with
    | [], None => mkResps (rs_default r) (put "204" no_content (rs_map r))
    | _, _ => r
    end.

  (* A setup function: takes a pointer to Operation, returns an error.  It may change the operation
     and then fail. *)
  Definition setup (Op : Type) := Op -> Op * bool.

  (* The loop over setup functions, openapi3/helper.go:75-79 and
     openapi31/helper.go:90-94: returns the operation as left in memory and
     whether a function failed (later functions are then not run). *)
  Fixpoint run_setups {Op : Type} (fs : list (setup Op)) (o : Op) : Op * bool :=
    match fs with
    | [] => (o, false)
    | f :: fs' => let (o', err) := f o in
                  if err then (o', true) else run_setups fs' o'
    end.

  (* ---------------------------------------------------------------- *)
  (* openapi3                                                           *)

  Definition op30 := operation Sch responses.

  (* Operation{} *)
  Definition zero_op30 : op30 :=
    mkOp [] None None None [] None (mkResps None []) None [] [] JNull.

  (* PathItem, openapi3/entities.go:1142-1152. *)
  Record pitem30 := mkPI30 { pi_ops : smap op30; pi30_rest : json }.
  Definition zero_pitem30 : pitem30 := mkPI30 [] JNull.

  (* Spec restricted to Paths; everything else in [sp30_rest]. *)
  Record paths30 := mkPaths30 { sp30_items : smap pitem30; sp30_rest : json }.

  (* A lookup in a Go map yields the zero value for a missing key. *)
  Definition item30 (s : paths30) (path : string) : pitem30 :=
    match get path (sp30_items s) with Some i => i | None => zero_pitem30 end.

  (* openapi3/helper.go:66-95 *)
  Definition setup_operation30 (s : paths30) (method path : string) (fs : list (setup op30))
    : paths30 * option reg_error :=
    match sanitize_method_path method path with
    | None => (s, Some EMethod)
    | Some (method, path, pathParams) =>
        let pathItem := item30 s path in
        let operation := match get method (pi_ops pathItem) with Some o => o | None => zero_op30 end in
        let (operation, failed) := run_setups fs operation in
        if failed then (s, Some ESetup)
        else match validate_path_params (op_params operation) pathParams with
             | [] =>
                 let pathItem := mkPI30 (put method operation (pi_ops pathItem)) (pi30_rest pathItem) in
                 (mkPaths30 (put path pathItem (sp30_items s)) (sp30_rest s), None)
             | errs => (s, Some (EParams errs))
             end
    end.

  Definition set_responses {R R'} (o : operation Sch R) (r : R') : operation Sch R' :=
    mkOp (op_tags o) (op_summary o) (op_desc o) (op_id o) (op_params o) (op_body o) r
         (op_deprecated o) (op_security o) (op_ext o) (op_rest o).

  (* openapi3/helper.go:100-122 *)
  Definition add_operation30 (s : paths30) (method path : string) (operation : op30)
    : paths30 * option reg_error :=
    let method := to_lower method in
    let pathItem := item30 s path in
    match get method (pi_ops pathItem) with
    | Some _ => (s, Some EExists)
    | None =>
        let operation := set_responses operation (ensure_response (op_responses operation)) in
        setup_operation30 s method path [fun _ => (operation, false)]
    end.

  (* ---------------------------------------------------------------- *)
  (* openapi31                                                          *)

  Definition op31 := operation Sch (option responses).

  Definition zero_op31 : op31 :=
    mkOp [] None None None [] None None None [] [] JNull.

  (* PathItem, openapi31/entities.go:876-890: one pointer per method. *)
  Record pitem31 := mkPI31 {
    pi_get : option op31; pi_put : option op31; pi_post : option op31; pi_delete : option op31;
    pi_options : option op31; pi_head : option op31; pi_patch : option op31; pi_trace : option op31;
    pi31_rest : json }.

  Definition zero_pitem31 : pitem31 := mkPI31 None None None None None None None None JNull.

  (* Spec restricted to Paths (a pointer: [None] is nil), Webhooks (path items,
     never references, as AddWebhook stores them); everything else in rest. *)
  Record paths31 := mkPaths31 {
    sp31_items : option (smap pitem31);
    sp31_webhooks : smap pitem31;
    sp31_rest : json }.

  (* openapi31/helper.go:21-42: [None] is the error result. *)
  Definition pi_operation (p : pitem31) (method : string) : option (option op31) :=
    let m := to_upper method in
    if String.eqb m "GET" then Some (pi_get p)
    else if String.eqb m "PUT" then Some (pi_put p)
    else if String.eqb m "POST" then Some (pi_post p)
    else if String.eqb m "DELETE" then Some (pi_delete p)
    else if String.eqb m "OPTIONS" then Some (pi_options p)
    else if String.eqb m "HEAD" then Some (pi_head p)
    else if String.eqb m "PATCH" then Some (pi_patch p)
    else if String.eqb m "TRACE" then Some (pi_trace p)
    else None.

  (* openapi31/helper.go:45-70 *)
  Definition pi_set_operation (p : pitem31) (method : string) (o : option op31) : option pitem31 :=
    let m := to_upper method in
    match p with
    | mkPI31 g pu po d op h pa t r =>
        if String.eqb m "GET" then Some (mkPI31 o pu po d op h pa t r)
        else if String.eqb m "PUT" then Some (mkPI31 g o po d op h pa t r)
        else if String.eqb m "POST" then Some (mkPI31 g pu o d op h pa t r)
        else if String.eqb m "DELETE" then Some (mkPI31 g pu po o op h pa t r)
        else if String.eqb m "OPTIONS" then Some (mkPI31 g pu po d o h pa t r)
        else if String.eqb m "HEAD" then Some (mkPI31 g pu po d op o pa t r)
        else if String.eqb m "PATCH" then Some (mkPI31 g pu po d op h o t r)
        else if String.eqb m "TRACE" then Some (mkPI31 g pu po d op h pa o r)
        else None
    end.

  (* Spec.PathsEns(): nil becomes an empty Paths. *)
  Definition paths_ens (s : paths31) : paths31 * smap pitem31 :=
    match sp31_items s with
    | Some m => (s, m)
    | None => (mkPaths31 (Some []) (sp31_webhooks s) (sp31_rest s), [])
    end.

  Definition item31 (m : smap pitem31) (path : string) : pitem31 :=
    match get path m with Some i => i | None => zero_pitem31 end.

  Definition set_items31 (s : paths31) (m : smap pitem31) : paths31 :=
    mkPaths31 (Some m) (sp31_webhooks s) (sp31_rest s).

  (* openapi31/helper.go:73-112.  [operation] is a pointer into the document
     when the operation exists, so what the setup functions do to it is visible
     in the document even when an error is returned afterwards ([written]). *)
  Definition setup_operation31 (s : paths31) (method path : string) (fs : list (setup op31))
    : paths31 * option reg_error :=
    match sanitize_method_path method path with
    | None => (s, Some EMethod)
    | Some (method, path, pathParams) =>
        let (s, items) := paths_ens s in
        let pathItem := item31 items path in
        match pi_operation pathItem method with
        | None => (s, Some EMethod)
        | Some existing =>
            let operation := match existing with Some o => o | None => zero_op31 end in
            let (operation, failed) := run_setups fs operation in
            let written :=
              match existing with
              | Some _ =>
                  match pi_set_operation pathItem method (Some operation) with
                  | Some pi => set_items31 s (put path pi items)
                  | None => s
                  end
              | None => s
              end in
            if failed then (written, Some ESetup)
            else match validate_path_params (op_params operation) pathParams with
                 | [] =>
                     match pi_set_operation pathItem method (Some operation) with
                     | Some pi => (set_items31 s (put path pi items), None)
                     | None => (written, Some EMethod)
                     end
                 | errs => (written, Some (EParams errs))
                 end
        end
    end.

  (* operation.ResponsesEns() and the No Content default,
     openapi31/helper.go:169-175, 196-202. *)
  Definition ensure_response31 (o : op31) : op31 :=
    let r := match op_responses o with Some r => r | None => mkResps None [] end in
    set_responses o (Some (ensure_response r)).

  (* openapi31/helper.go:155-183 *)
  Definition add_operation31 (s : paths31) (method path : string) (operation : op31)
    : paths31 * option reg_error :=
    let method := to_lower method in
    let (s, items) := paths_ens s in
    let pathItem := item31 items path in
    match pi_operation pathItem method with
    | None => (s, Some EMethod)
    | Some (Some _) => (s, Some EExists)
    | Some None =>
        let operation := ensure_response31 operation in
        setup_operation31 s method path [fun _ => (operation, false)]
    end.

  (* openapi31/helper.go:188-218 *)
  Definition add_webhook31 (s : paths31) (method name : string) (operation : op31)
    : paths31 * option reg_error :=
    if has name (sp31_webhooks s) then (s, Some EDupWebhook)
    else
      let method := to_lower method in
      let operation := ensure_response31 operation in
      match sanitize_method_path method "/" with
      | None => (s, Some EMethod)
      | Some (method, _, _) =>
          match pi_set_operation zero_pitem31 method (Some operation) with
          | None => (s, Some EMethod)
          | Some pathItem =>
              (mkPaths31 (sp31_items s) (put name pathItem (sp31_webhooks s)) (sp31_rest s), None)
          end
      end.
End Registry.

Arguments check_params {Sch}. Arguments validate_path_params {Sch}.
Arguments no_content {Sch}. Arguments ensure_response {Sch}.
Arguments zero_op30 {Sch}. Arguments pi_ops {Sch}. Arguments pi30_rest {Sch}. Arguments mkPI30 {Sch}.
Arguments zero_pitem30 {Sch}. Arguments sp30_items {Sch}. Arguments sp30_rest {Sch}. Arguments mkPaths30 {Sch}.
Arguments item30 {Sch}. Arguments setup_operation30 {Sch}. Arguments set_responses {Sch R R'}.
Arguments add_operation30 {Sch}. Arguments zero_op31 {Sch}.
Arguments pi_get {Sch}. Arguments pi_put {Sch}. Arguments pi_post {Sch}. Arguments pi_delete {Sch}.
Arguments pi_options {Sch}. Arguments pi_head {Sch}. Arguments pi_patch {Sch}. Arguments pi_trace {Sch}.
Arguments pi31_rest {Sch}. Arguments mkPI31 {Sch}. Arguments zero_pitem31 {Sch}.
Arguments sp31_items {Sch}. Arguments sp31_webhooks {Sch}. Arguments sp31_rest {Sch}. Arguments mkPaths31 {Sch}.
Arguments pi_operation {Sch}. Arguments pi_set_operation {Sch}. Arguments paths_ens {Sch}.
Arguments item31 {Sch}. Arguments set_items31 {Sch}. Arguments setup_operation31 {Sch}.
Arguments ensure_response31 {Sch}. Arguments add_operation31 {Sch}. Arguments add_webhook31 {Sch}.
