(* What functions of the user see while an operation is added: the specification. *)
From Coq Require Import ZArith.
From Verif Require Import Str SMap Json Types ReflectModel HookModel.

(* The answer of OperationCtx during each kind of reflection: whether a response
   is processed, and the location.  None: there is no operation context. *)
Inductive sees : what -> option pstate -> Prop :=
| se_probe : sees WProbe None
| se_body tag : sees (WBody tag) (Some (false, "body"))
| se_params loc : sees (WParams loc) (Some (false, loc))
| se_field loc : sees (WField loc) (Some (false, loc))
| se_has_json : sees WHasJSON None
| se_json : sees WJSON (Some (true, "body"))
| se_headers : sees WHeaders (Some (true, "header")).
Definition right (o : obs) : Prop := sees (o_what o) (o_seen o).

(* Answers given during reflections of the kinds [ws] only. *)
Definition about (ws : list what) (l : list obs) : Prop := forall o, In o l -> In (o_what o) ws.

Section Yields.
  Context {E E' A : Type}.
  Variable rel : E -> E' -> Prop.
  Variable w : what.

  (* What a reflection reports when every answer is the right one: the events up
     to where the package stops it, and the result. *)
  Inductive yields : session E A -> list E' -> out A -> Prop :=
  | y_done a : yields (Done a) [] a
  | y_ask k s l es a : sees w s -> yields (k (mkObs w s :: l)) es a -> yields (Ask k) es a
  | y_meet e e' k es a : rel e e' -> yields k es a -> yields (Meet e k) (e' :: es) a
  | y_stop e e' k a : rel e e' -> yields (Meet e k) [e'] a.
End Yields.

Section Units.
  Variables J Sch : Type.
  Notation cunit := (cunit J Sch).
  Notation hunit := (hunit J Sch).

  Inductive event_as (loc : string) : hevent J -> pevent J -> Prop :=
  | ea_def n j : event_as loc (HDef n j) (EDef n j)
  | ea_prop q q' js pl ps :
      pr_processed q' = pr_processed q -> pr_depth q' = pr_depth q -> pr_name q' = pr_name q ->
      pr_schema q' = pr_schema q -> pr_ptr q' = pr_ptr q -> pr_cf q' = pr_cf q ->
      pr_tag_json q' = pr_tag_json q -> pr_tag_in q' = pr_tag_in q -> pr_tags q' = pr_tags q ->
      yields eq (WField loc) js (pr_json_defs q') (pr_json q') ->
      yields (fun _ _ : Empty_set => False) (WField loc) pl ps (pr_plain q') ->
      event_as loc (HProp q js pl) (EProp q').

  (* The unit [cu] is [h] with the reports of its reflections. *)
  Record reported (h : hunit) (cu : cunit) : Prop := mkReported {
    rp_nil : cu_nil cu = cu_nil (h_unit h);
    rp_ctype : cu_ctype cu = cu_ctype (h_unit h);
    rp_format : cu_format cu = cu_format (h_unit h);
    rp_status : cu_status cu = cu_status (h_unit h);
    rp_default : cu_default cu = cu_default (h_unit h);
    rp_desc : cu_desc cu = cu_desc (h_unit h);
    rp_form_mapping : cu_form_mapping cu = cu_form_mapping (h_unit h);
    rp_custom_req : cu_custom_req cu = cu_custom_req (h_unit h);
    rp_custom_resp : cu_custom_resp cu = cu_custom_resp (h_unit h);
    rp_force_body : v_force_body cu = v_force_body (h_unit h);
    rp_force_json : v_force_json cu = v_force_json (h_unit h);
    rp_slice : v_slice cu = v_slice (h_unit h);
    rp_embedded : v_embedded_slice cu = v_embedded_slice (h_unit h);
    rp_struct : v_struct cu = v_struct (h_unit h);
    rp_tagged : v_tagged cu = v_tagged (h_unit h);
    rp_without : v_without_tags cu = v_without_tags (h_unit h);
    rp_content_tags : v_content_tags cu = v_content_tags (h_unit h);
    rp_body : forall tag, yields eq (WBody tag) (h_body h tag) (fst (v_body cu tag)) (snd (v_body cu tag));
    rp_params : forall loc, yields (event_as loc) (WParams loc) (h_params h loc) (fst (v_params cu loc)) (snd (v_params cu loc));
    rp_has_json : exists es, yields (fun _ _ : Empty_set => False) WHasJSON (h_has_json h) es (v_has_json cu);
    rp_json : yields eq WJSON (h_json h) (fst (v_json cu)) (snd (v_json cu));
    rp_headers : yields eq WHeaders (h_headers h) (fst (v_headers cu)) (snd (v_headers cu)) }.

  (* The operation context with units that were reported. *)
  Definition with_units {R} (oc : opctx J Sch R) (req resp : list cunit) : opctx J Sch R :=
    mkOC (oc_method oc) (oc_path oc) req resp (oc_op oc) (oc_params oc).

  (* The answers given while a request unit is reflected, in order. *)
  Inductive request_answers (method : string) (h : hunit) : list obs -> Prop :=
  | ra form query path cookie header json :
      about [WProbe; WBody "formData"] form -> about [WParams "query"; WField "query"] query ->
      about [WParams "path"; WField "path"] path -> about [WParams "cookie"; WField "cookie"] cookie ->
      about [WParams "header"; WField "header"] header -> about [WProbe; WBody "json"] json ->
      (* no body without need *)
      (form ++ json <> [] -> In (to_upper method) ["GET"; "HEAD"; "DELETE"; "TRACE"] -> v_force_body (h_unit h) = true) ->
      (form <> [] -> In (cu_ctype (h_unit h)) [""; "application/x-www-form-urlencoded"; "multipart/form-data"]) ->
      (json <> [] -> In (cu_ctype (h_unit h)) [""; "application/json"]) ->
      (query ++ path ++ cookie ++ header <> [] -> v_slice (h_unit h) = false /\
         In (cu_ctype (h_unit h)) [""; "application/json"; "application/x-www-form-urlencoded"; "multipart/form-data"]) ->
      request_answers method h (form ++ query ++ path ++ cookie ++ header ++ json).

  (* And a response unit. *)
  Inductive response_answers (method : string) (h : hunit) : list obs -> Prop :=
  | pa probe json header :
      about [WHasJSON] probe -> about [WJSON] json -> about [WHeaders] header ->
      (probe ++ json <> [] -> to_upper method <> "HEAD") ->
      (probe ++ json ++ header <> [] -> cu_nil (h_unit h) = false) ->
      response_answers method h (probe ++ json ++ header).

  (* The answers given to the units of a list, one after the other; [n] of them
     were reached. *)
  Inductive in_turn (P : hunit -> list obs -> Prop) : list hunit -> nat -> list obs -> Prop :=
  | it_end hs : in_turn P hs 0 []
  | it_next h hs n l l' : P h l -> in_turn P hs n l' -> in_turn P (h :: hs) (S n) (l ++ l').

  (* All answers of a call: requests first; responses only after all requests. *)
  Definition call_answers (method : string) (req resp : list hunit) (l : list obs) : Prop :=
    exists n m l1 l2, l = l1 ++ l2 /\
      in_turn (request_answers method) req n l1 /\ in_turn (response_answers method) resp m l2 /\
      (m <> 0 -> n = length req).
End Units.
Arguments reported {J Sch}. Arguments request_answers {J Sch}. Arguments response_answers {J Sch}.
Arguments in_turn {J Sch}. Arguments call_answers {J Sch}. Arguments event_as {J}. Arguments with_units {J Sch R}.
