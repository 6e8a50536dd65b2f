(* Theorems about operation contexts, the setters of a document, reference
   resolution and the deprecated entry points (properties C49, C50, C52, C58,
   C59).  [preparer] is the ContentUnitPreparer of a value, if it has one. *)
From Coq Require Import ZArith.
From Verif Require Import Str SMap Json PathModel Types RegistryModel ReflectModel ContextModel ContextSpec ContextProofs.

(* ---------- C49 ---------- *)

(* After any history of calls every getter shows the argument of the last call
   of its setter, or what it showed before if there was none. *)
Theorem C49_getters : forall (V X : Type) preparer l (c : context V X),
  let c' := ctx_calls preparer c l in
  observed sets_tags (get_tags c) l (get_tags c') /\
  observed sets_summary (get_summary c) l (get_summary c') /\
  observed sets_description (get_description c) l (get_description c') /\
  observed sets_id (get_id c) l (get_id c') /\
  observed sets_deprecated (is_deprecated c) l (is_deprecated c') /\
  observed sets_method (x_method c) l (x_method c') /\
  observed sets_path (x_path c) l (x_path c') /\
  observed sets_processing_in (x_processing_in c) l (x_processing_in c') /\
  observed sets_processing_response (x_processing_resp c) l (x_processing_resp c').
Proof. exact @getters. Qed.

(* Security requirements are appended in call order. *)
Theorem C49_security : forall (V X : Type) preparer l (c : context V X),
  exists ls, Forall2 adds_security l ls /\
    i_security (x_info (ctx_calls preparer c l)) = i_security (x_info c) ++ concat ls.
Proof. exact @security. Qed.

(* So are the content units. *)
Theorem C49_units : forall (V X : Type) preparer l (c : context V X),
  (exists ls, Forall2 (adds_request preparer) l ls /\ x_req (ctx_calls preparer c l) = x_req c ++ concat ls) /\
  (exists ls, Forall2 (adds_response preparer) l ls /\ x_resp (ctx_calls preparer c l) = x_resp c ++ concat ls).
Proof. exact @units. Qed.

(* Nothing else changes. *)
Theorem C49_other_members : forall (V X : Type) preparer l (c : context V X),
  i_ext (x_info (ctx_calls preparer c l)) = i_ext (x_info c) /\ i_rest (x_info (ctx_calls preparer c l)) = i_rest (x_info c).
Proof. exact @others. Qed.

Theorem C49_unknown_parameters : forall (V X : Type) (c : context V X) loc,
  unknown_forbidden c loc = true <-> get ("x-forbid-unknown-" ^^ loc) (i_ext (x_info c)) = Some (JBool true).
Proof. exact @forbidden. Qed.

(* What was never set: no text, not deprecated. *)
Theorem C49_unset : forall (V X : Type) (c : context V X),
  (i_summary (x_info c) = None -> get_summary c = "") /\ (i_desc (x_info c) = None -> get_description c = "") /\
  (i_id (x_info c) = None -> get_id c = "") /\ (i_deprecated (x_info c) = None -> is_deprecated c = false).
Proof.
  intros V X c. unfold get_summary, get_description, get_id, is_deprecated. split; [intros ->; reflexivity|]. split; [intros ->; reflexivity|].
  split; intros ->; reflexivity.
Qed.

(* A field mapping that is not empty is shown by its getter; other locations
   keep theirs. *)
Theorem C49_field_mapping : forall (V : Type) loc m (u : cunit_in V),
  (m <> [] -> field_mapping (set_field_mapping loc m u) loc = m) /\
  (forall loc', loc <> loc' -> field_mapping (set_field_mapping loc m u) loc' = field_mapping u loc').
Proof. intros. split; [apply mapping_same|intros; apply mapping_other; assumption]. Qed.

Definition cx0 : context string unit := mkCtx "get" "/" [] [] false "" (mkInfo None None None None None [] [("x-forbid-unknown-query", JBool true)] tt).
Definition cx_prep (v : string) : option (cunit_in string -> cunit_in string) :=
  if String.eqb v "self" then Some (with_status 404) else None.
Example C49_example :
  let c := ctx_calls cx_prep cx0
    [SetSummary "a"; AddSecurity "k" None; SetTags (Some ["t"]); SetSummary ""; SetID "x"; SetDeprecated true;
     AddSecurity "k" (Some ["s"]); AddReq (Some "v") [with_content_type "text/csv"]; SetDeprecated false; AddResp (Some "self") []] in
  get_summary c = "" /\ get_tags c = Some ["t"] /\ get_id c = "x" /\ is_deprecated c = false /\ get_description c = "" /\
  i_security (x_info c) = [[("k", Some [])]; [("k", Some ["s"])]] /\
  map u_struct (x_req c) = [Some "v"] /\ map u_ctype (x_req c) = ["text/csv"] /\
  map u_struct (x_resp c) = [None] /\ map u_status (x_resp c) = [404%Z] /\
  unknown_forbidden c "query" = true /\ unknown_forbidden c "path" = false.
Proof. vm_compute. auto 20. Qed.

(* ---------- C50 ---------- *)

Theorem C50_scheme_stored30 : forall d k,
  (exists s, scheme_of30 (secure30 d k) (secured k) = Some s /\ stands_for30 k s) /\
  (forall n, n <> secured k -> scheme_of30 (secure30 d k) n = scheme_of30 d n) /\
  same_rest30 d (secure30 d k).
Proof. exact secure30_ok. Qed.

Theorem C50_scheme_stored31 : forall d k,
  (exists s, scheme_of31 (secure31 d k) (secured k) = Some s /\ stands_for31 k s) /\
  (forall n, n <> secured k -> scheme_of31 (secure31 d k) n = scheme_of31 d n) /\
  same_rest31 d (secure31 d k).
Proof. exact secure31_ok. Qed.

(* After any history of calls: the scheme of the last call for the name. *)
Theorem C50_last_call30 : forall n l d,
  observed (fun k s => secured k = n /\ exists x, s = Some x /\ stands_for30 k x) (scheme_of30 d n) l
    (scheme_of30 (fold_left secure30 l d) n).
Proof. exact secure30_history. Qed.

Theorem C50_last_call31 : forall n l d,
  observed (fun k s => secured k = n /\ exists x, s = Some x /\ stands_for31 k x) (scheme_of31 d n) l
    (scheme_of31 (fold_left secure31 l d) n).
Proof. exact secure31_history. Qed.

Example C50_example :
  let l := [SBasic "b" "old"; SKey "k" "X-Key" "header" "a key"; SBearer "b" "JWT" "new"; SBearer "c" "" ""] in
  let i := mkDocInfo "t" "1" None JNull in
  let d30 := fold_left secure30 l (mkDoc i None (JStr "rest")) in
  let d31 := fold_left secure31 l (mkDoc i (Some (mkComponents31 [("z", mkSor31 (Some "#/z") None)] (JStr "c"))) (JStr "rest")) in
  scheme_of30 d30 "b" = Some (mkSor30 None (Some (mkScheme30 None (Some (mkHttp30 "bearer" (Some "JWT") (Some "new") JNull)) None None))) /\
  scheme_of30 d30 "k" = Some (mkSor30 None (Some (mkScheme30 (Some (mkKey30 "X-Key" "header" (Some "a key") JNull)) None None None))) /\
  scheme_of30 d30 "x" = None /\ d_rest d30 = JStr "rest" /\
  scheme_of31 d31 "c" = Some (mkSor31 None (Some (mkScheme31 (Some "") None None (Some (mkBearer "bearer" None)) None None None []))) /\
  scheme_of31 d31 "z" = Some (mkSor31 (Some "#/z") None) /\ d_rest d31 = JStr "rest".
Proof. vm_compute. auto 10. Qed.

(* ---------- C58 ---------- *)

Theorem C58_document_information : forall (C : Type) l (d : doc C),
  let d' := fold_left info_call l d in
  observed (fun k s => k = ITitle s) (title d) l (title d') /\
  observed (fun k s => k = IVersion s) (version d) l (version d') /\
  observed (fun k s => k = IDescription s) (description d) l (description d') /\
  d_components d' = d_components d /\ d_rest d' = d_rest d /\ di_rest (d_info d') = di_rest (d_info d).
Proof. exact @info_history. Qed.

Theorem C58_unset : forall (C : Type) (d : doc C), di_desc (d_info d) = None -> description d = "".
Proof. intros C d H. unfold description. rewrite H. reflexivity. Qed.

Example C58_example :
  let d := fold_left info_call [ITitle "a"; IDescription "x"; IVersion "2"; ITitle "b"] (mkDoc (C := nat) (mkDocInfo "" "" None (JStr "r")) (Some 3) JNull) in
  title d = "b" /\ version d = "2" /\ description d = "x" /\ d_components d = Some 3 /\ di_rest (d_info d) = JStr "r".
Proof. vm_compute. auto. Qed.

(* ---------- C59 ---------- *)

(* A reference to a component schema gives its conversion, any other text is
   not found. *)
Theorem C59_resolution : forall (Sch T : Type) (to_json : Sch -> out T) c ref,
  (forall name s, ref = "#/components/schemas/" ^^ name -> get name c = Some s ->
     resolve_ref to_json c ref = match to_json s with Ret t => Ret (Some t) | Err => Err | Panic => Panic end) /\
  ((forall name, ref = "#/components/schemas/" ^^ name -> get name c = None) -> resolve_ref to_json c ref = Ret None).
Proof. exact @resolve_ok. Qed.

Example C59_example :
  let c := [("A", 1); ("#/components/schemas/A", 2)] in
  resolve_ref (fun n => Ret n) c "#/components/schemas/A" = Ret (Some 1) /\
  resolve_ref (fun n => Ret n) c "A" = Ret None /\
  resolve_ref (fun n => Ret n) c "#/components/schemas/#/components/schemas/A" = Ret (Some 2) /\
  resolve_ref (fun n => Ret n) c "#/components/schemas/B" = Ret None /\
  resolve_ref (fun n => Ret n) c "#/components/responses/A" = Ret None.
Proof. vm_compute. auto. Qed.

(* ---------- C52 ---------- *)

(* SetupRequest and SetupResponse work on one unit with the members of the
   deprecated context. *)
Theorem C52_setup_request : forall (V J Sch : Type) (B : backend J Sch) preparer report (c : depctx V unit) st,
  plain preparer (d_input c) ->
  exists u, dep_setup_request V J Sch B preparer report c st = setup_request B [report u] (d_method c) st /\
    u_struct u = d_input c /\ u_ctype u = "" /\ u_format u = "" /\ u_desc u = "" /\ u_custom u = None /\
    field_mapping u "query" = d_query c /\ field_mapping u "path" = d_path c /\ field_mapping u "cookie" = d_cookie c /\
    field_mapping u "header" = d_header c /\ field_mapping u "formData" = d_form c.
Proof. exact dep_request. Qed.

Theorem C52_setup_response : forall (V J Sch : Type) (B : backend J Sch) preparer report (c : depctx V unit) cs (o : op30 Sch),
  plain preparer (d_output c) ->
  exists u, dep_setup_response V J Sch B preparer report c (cs, o) =
      (let '((cs', rs), e) := setup_response B [report u] (d_method c) (cs, op_responses o) in ((cs', set_responses o rs), e)) /\
    u_struct u = d_output c /\ u_ctype u = d_ctype c /\ u_status u = d_status c /\ u_default u = false /\ u_format u = "" /\
    u_desc u = "" /\ u_custom u = None /\ field_mapping u "header" = d_resp_header c.
Proof. exact dep_response. Qed.

(* The three short forms. *)
Theorem C52_set_request : forall (V J Sch : Type) (B : backend J Sch) preparer report input method st,
  plain preparer input ->
  exists u, set_request V J Sch B preparer report input method st = setup_request B [report u] method st /\
    u_struct u = input /\ u_ctype u = "" /\ u_format u = "" /\ u_desc u = "" /\ u_custom u = None /\
    forall loc, In loc ["query"; "path"; "cookie"; "header"; "formData"] -> field_mapping u loc = [].
Proof.
  intros V J Sch B preparer report input method st P.
  destruct (dep_request V J Sch B preparer report (mkDep (Some tt) input method [] [] [] [] [] None 0%Z "" [] false "") st P) as (u & E & H1 & H2 & H3 & H4 & H5 & H6 & H7 & H8 & H9 & H10).
  exists u. split; [exact E|]. do 5 (split; [assumption|]). intros loc [<-|[<-|[<-|[<-|[<-|[]]]]]]; assumption.
Qed.
Theorem C52_set_json_response : forall (V J Sch : Type) (B : backend J Sch) preparer report output status cs (o : op30 Sch),
  plain preparer output ->
  exists u, set_json_response V J Sch B preparer report output status (cs, o) =
      (let '((cs', rs), e) := setup_response B [report u] "" (cs, op_responses o) in ((cs', set_responses o rs), e)) /\
    u_struct u = output /\ u_ctype u = "" /\ u_status u = status /\ u_default u = false /\ u_format u = "" /\
    u_desc u = "" /\ u_custom u = None /\ field_mapping u "header" = [].
Proof.
  intros V J Sch B preparer report output status cs o P.
  exact (dep_response V J Sch B preparer report (mkDep (Some tt) None "" [] [] [] [] [] output status "" [] false "") cs o P).
Qed.
Theorem C52_set_string_response : forall (V J Sch : Type) (B : backend J Sch) preparer report status ctype cs (o : op30 Sch),
  exists u, set_string_response V J Sch B preparer report status ctype (cs, o) =
      (let '((cs', rs), e) := setup_response B [report u] "" (cs, op_responses o) in ((cs', set_responses o rs), e)) /\
    u_struct u = None /\ u_ctype u = ctype /\ u_status u = status /\ u_default u = false /\ u_format u = "" /\
    u_desc u = "" /\ u_custom u = None /\ field_mapping u "header" = [].
Proof.
  intros V J Sch B preparer report status ctype cs o.
  assert (P : plain preparer None) by (intros v E; discriminate E).
  exact (dep_response V J Sch B preparer report (mkDep (Some tt) None "" [] [] [] [] [] None status ctype [] false "") cs o P).
Qed.

(* SetRequest, SetJSONResponse and Spec.AddOperation succeed exactly if the same
   structures in an operation context are accepted by Reflector.AddOperation,
   and give the same document.  The path has no constraints in its
   placeholders. *)
Theorem C52_same_document : forall (V J Sch : Type) (B : backend J Sch) preparer report r method path input output status m ps,
  plain preparer output -> sanitize_method_path method path = Some (m, path, ps) ->
  to_upper method = to_upper m -> m <> "head" ->
  forall r', old_flow V J Sch B preparer report r method path input output status = Some r' <->
             new_flow V J Sch B preparer report r method path input output status = Some r'.
Proof. exact flows. Qed.

(* A context survives the conversion, apart from its operation. *)
Theorem C52_round_trip_partial : forall (V O : Type) preparer (c : depctx V O),
  plain preparer (d_input c) -> plain preparer (d_output c) ->
  from_op_ctx (O := O) (fst (to_op_ctx preparer c)) =
  mkDep None (d_input c) (d_method c) (d_query c) (d_path c) (d_cookie c) (d_header c) (d_form c)
    (d_output c) (d_status c) (d_ctype c) (d_resp_header c) (d_proc_resp c) (d_proc_in c).
Proof. exact @round_trip. Qed.

(* What OperationCtx shows of a context. *)
Theorem C52_view : forall (V O : Type) (x : ictx V),
  let c := from_op_ctx (O := O) x in
  d_op c = None /\ d_method c = n_method x /\ d_proc_resp c = n_proc_resp x /\ d_proc_in c = n_proc_in x /\
  (forall u l, n_req x = u :: l -> d_input c = u_struct u /\ d_query c = field_mapping u "query" /\ d_path c = field_mapping u "path" /\
     d_cookie c = field_mapping u "cookie" /\ d_header c = field_mapping u "header" /\ d_form c = field_mapping u "formData") /\
  (n_req x = [] -> d_input c = None /\ d_query c = [] /\ d_path c = [] /\ d_cookie c = [] /\ d_header c = [] /\ d_form c = []) /\
  (forall u l, n_resp x = u :: l -> d_output c = u_struct u /\ d_status c = u_status u /\ d_ctype c = u_ctype u /\
     d_resp_header c = field_mapping u "header") /\
  (n_resp x = [] -> d_output c = None /\ d_status c = 0%Z /\ d_ctype c = "" /\ d_resp_header c = []).
Proof. exact @view. Qed.

(* The operation of a context is lost on the way back. *)
Theorem C52_operation_lost_refuted : exists (V O : Type) preparer (c : depctx V O),
  plain preparer (d_input c) /\ plain preparer (d_output c) /\ d_op c <> None /\
  d_op (from_op_ctx (O := O) (fst (to_op_ctx preparer c))) <> d_op c.
Proof.
  exists string, nat, (fun _ => None), (mkDep (Some 1) (Some "in") "get" [] [] [] [] [] None 0%Z "" [] false "").
  repeat split; try discriminate; intros v; reflexivity.
Qed.

(* A value that prepares its own content unit loses the status it gives. *)
Theorem C52_prepared_status_refuted : exists (V : Type) preparer (v : V) (c : depctx V unit),
  d_output c = Some v /\ u_status (make_unit preparer (Some v) []) = 404%Z /\
  map u_status (n_resp (fst (to_op_ctx preparer c))) = [0%Z].
Proof.
  exists string, cx_prep, "self", (mkDep (Some tt) None "" [] [] [] [] [] (Some "self") 0%Z "" [] false "").
  vm_compute. auto.
Qed.

Definition dx_backend : backend string string :=
  mkBackend (fun j => Ret j) (fun _ => None) (fun s => s) (fun _ _ => Ret None) (fun f => "string:" ^^ f) false.
(* Every value has the JSON schema that is its name. *)
Definition dx_report (u : cunit_in string) : cunit string string :=
  mkCU (match u_struct u with None => true | _ => false end) (u_ctype u) (u_format u) (u_status u) (u_default u) (u_desc u) false None None
    false false false false true (fun t => String.eqb t "json") (Ret false)
    (fun _ => ([], Ret (match u_struct u with Some v => v | None => "" end, [])))
    (fun _ => ([], Ret false)) [] (Ret true)
    ([], Ret (match u_struct u with Some v => v | None => "" end)) ([], Ret None).

(* A response to HEAD documented the deprecated way has a body. *)
Theorem C52_head_refuted : exists (V J Sch : Type) (B : backend J Sch) preparer report r input output r1 r2,
  plain preparer output /\
  old_flow V J Sch B preparer report r "HEAD" "/x" input output 200 = Some r1 /\
  new_flow V J Sch B preparer report r "HEAD" "/x" input output 200 = Some r2 /\ r1 <> r2.
Proof.
  exists string, string, string, dx_backend, (fun _ => None), dx_report, (mkRefl30 (mkPaths30 [] JNull) []), None, (Some "out").
  do 2 eexists. split; [intros v _; reflexivity|]. split; [vm_compute; reflexivity|]. split; [vm_compute; reflexivity|].
  discriminate.
Qed.

Example C52_example :
  let r := mkRefl30 (mkPaths30 [] JNull) [] in
  sanitize_method_path "Post" "/x/y" = Some ("post", "/x/y", []) /\ to_upper "Post" = to_upper "post" /\
  exists r', old_flow string string string dx_backend (fun _ => None) dx_report r "Post" "/x/y" (Some "in") (Some "out") 201 = Some r' /\
    new_flow string string string dx_backend (fun _ => None) dx_report r "Post" "/x/y" (Some "in") (Some "out") 201 = Some r' /\
    exists it o, sp30_items (r30_paths r') = [("/x/y", it)] /\ pi_ops it = [("post", o)] /\
      op_body o = Some (mkRbor (Some (mkRbody None [("application/json", mkMedia (Some "in") JNull)] JNull)) None) /\
      keys (rs_map (op_responses o)) = ["201"].
Proof.
  cbv zeta. split; [vm_compute; reflexivity|]. split; [vm_compute; reflexivity|].
  eexists. split; [vm_compute; reflexivity|]. split; [vm_compute; reflexivity|].
  do 2 eexists. split; [vm_compute; reflexivity|]. split; [vm_compute; reflexivity|]. split; vm_compute; reflexivity.
Qed.

(* ---------- assumptions ---------- *)

Print Assumptions C49_getters.
Print Assumptions C49_security.
Print Assumptions C49_units.
Print Assumptions C49_other_members.
Print Assumptions C49_unknown_parameters.
Print Assumptions C49_unset.
Print Assumptions C49_field_mapping.
Print Assumptions C50_scheme_stored30.
Print Assumptions C50_scheme_stored31.
Print Assumptions C50_last_call30.
Print Assumptions C50_last_call31.
Print Assumptions C58_document_information.
Print Assumptions C58_unset.
Print Assumptions C59_resolution.
Print Assumptions C52_setup_request.
Print Assumptions C52_setup_response.
Print Assumptions C52_set_request.
Print Assumptions C52_set_json_response.
Print Assumptions C52_set_string_response.
Print Assumptions C52_same_document.
Print Assumptions C52_round_trip_partial.
Print Assumptions C52_view.
Print Assumptions C52_operation_lost_refuted.
Print Assumptions C52_prepared_status_refuted.
Print Assumptions C52_head_refuted.
