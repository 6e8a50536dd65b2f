(* What a user observes of Reflector.AddOperation / AddWebhook. *)
From Coq Require Import ZArith Decimal DecimalString.
From Verif Require Import Str SMap Json PathSpec Types RegistryModel RegistrySpec ReflectModel.

(* [s] is the decimal numeral of [z] without superfluous zeros (read by the
   standard library). *)
Definition numeral (z : Z) (s : string) : Prop :=
  exists d, NilZero.int_of_string s = Some d /\ norm d = d /\ Z.of_int d = z.

(* The media type without its parameters: what precedes the first ';'. *)
Definition base_type (s b : string) : Prop :=
  no_char ";" b /\ (s = b \/ exists r, s = b ^^ ";" ^^ r).

(* Where a response is documented. *)
Inductive rkey := KDefault | KStatus (s : string).

(* Reason phrases: RFC 9110 section 15 and the IANA registry, in the wording of
   net/http (RFC 7231 and older for 413, 414, 416 and 422). *)
Definition phrases : list (Z * string) := [
  (100, "Continue"); (101, "Switching Protocols"); (102, "Processing"); (103, "Early Hints");
  (200, "OK"); (201, "Created"); (202, "Accepted"); (203, "Non-Authoritative Information"); (204, "No Content");
  (205, "Reset Content"); (206, "Partial Content"); (207, "Multi-Status"); (208, "Already Reported"); (226, "IM Used");
  (300, "Multiple Choices"); (301, "Moved Permanently"); (302, "Found"); (303, "See Other"); (304, "Not Modified");
  (305, "Use Proxy"); (307, "Temporary Redirect"); (308, "Permanent Redirect");
  (400, "Bad Request"); (401, "Unauthorized"); (402, "Payment Required"); (403, "Forbidden"); (404, "Not Found");
  (405, "Method Not Allowed"); (406, "Not Acceptable"); (407, "Proxy Authentication Required"); (408, "Request Timeout");
  (409, "Conflict"); (410, "Gone"); (411, "Length Required"); (412, "Precondition Failed"); (413, "Request Entity Too Large");
  (414, "Request URI Too Long"); (415, "Unsupported Media Type"); (416, "Requested Range Not Satisfiable");
  (417, "Expectation Failed"); (418, "I'm a teapot"); (421, "Misdirected Request"); (422, "Unprocessable Entity");
  (423, "Locked"); (424, "Failed Dependency"); (425, "Too Early"); (426, "Upgrade Required"); (428, "Precondition Required");
  (429, "Too Many Requests"); (431, "Request Header Fields Too Large"); (451, "Unavailable For Legal Reasons");
  (500, "Internal Server Error"); (501, "Not Implemented"); (502, "Bad Gateway"); (503, "Service Unavailable");
  (504, "Gateway Timeout"); (505, "HTTP Version Not Supported"); (506, "Variant Also Negotiates");
  (507, "Insufficient Storage"); (508, "Loop Detected"); (510, "Not Extended"); (511, "Network Authentication Required")]%Z.
Definition phrase (z : Z) (t : string) : Prop := In (z, t) phrases \/ t = "" /\ ~ In z (map fst phrases).

Section Spec.
  Context {J Sch : Type}.
  Notation cunit := (cunit J Sch).
  Notation prop := (prop J).
  Notation responses := (responses Sch).

  Definition filed (rs : responses) (k : rkey) : option (ror Sch) :=
    match k with KDefault => rs_default rs | KStatus s => get s (rs_map rs) end.

  Definition inline_at (rs : responses) (k : rkey) : option (response Sch) :=
    match filed rs k with Some x => ror_resp x | None => None end.

  (* The key a response unit belongs to. *)
  Inductive files_under (cu : cunit) : rkey -> Prop :=
  | fu_default : cu_default cu = true -> files_under cu KDefault
  | fu_none : cu_default cu = false -> cu_status cu = 0%Z -> files_under cu (KStatus "200")
  | fu_class s : cu_default cu = false -> (1 <= cu_status cu <= 5)%Z -> numeral (cu_status cu) s ->
      files_under cu (KStatus (s ^^ "XX"))
  | fu_code s : cu_default cu = false -> cu_status cu <> 0%Z -> ~ (1 <= cu_status cu <= 5)%Z ->
      numeral (cu_status cu) s -> files_under cu (KStatus s).

  (* The content types a response unit documents (for methods other than HEAD). *)
  Inductive contributes (cu : cunit) : string -> Prop :=
  | con_json : cu_nil cu = false -> v_has_json cu <> Ret false -> base_type (cu_ctype cu) "" ->
      contributes cu "application/json"
  | con_tag ct : cu_nil cu = false -> In ct (v_content_tags cu) -> contributes cu ct
  | con_type ct : base_type (cu_ctype cu) ct -> ct <> "" -> contributes cu ct.

  (* Properties that become parameters or headers: processed, not nested. *)
  Definition considered (q : prop) : bool := pr_processed q && (pr_depth q <=? 1).

  Definition content_before (rs : responses) (k : rkey) : smap (media Sch) :=
    match inline_at rs k with Some r => rs_content r | None => [] end.
  Definition headers_before (rs : responses) (k : rkey) : smap (header Sch) :=
    match inline_at rs k with Some r => rs_headers r | None => [] end.
  Definition desc_before (rs : responses) (k : rkey) : string :=
    match inline_at rs k with Some r => rs_desc r | None => "" end.

  (* First non-empty text. *)
  Fixpoint first_text (l : list string) : string :=
    match l with [] => "" | x :: l' => if is_empty x then first_text l' else x end.

  Definition text (o : option string) : string := match o with Some s => s | None => "" end.

  (* Texts found in what is reflected for a response unit. *)
  Definition json_text (B : backend J Sch) (method : string) (cu : cunit) (t : string) : Prop :=
    (t = "" /\ (method = "head" \/ cu_nil cu = true \/ v_has_json cu = Ret false)) \/
    (method <> "head" /\ cu_nil cu = false /\ v_has_json cu <> Ret false /\
     exists defs j, v_json cu = (defs, Ret j) /\ t = text (b_desc B j)).
  Definition header_text (cu : cunit) (t : string) : Prop :=
    (t = "" /\ cu_nil cu = true) \/
    (cu_nil cu = false /\ exists qs d, v_headers cu = (qs, Ret d) /\ t = text d).

  (* The status whose standard text is used. *)
  Definition effective_status (cu : cunit) (z : Z) : Prop :=
    (cu_status cu = 0%Z /\ cu_default cu = false /\ z = 200%Z) \/
    ((cu_status cu <> 0%Z \/ cu_default cu = true) /\ z = cu_status cu).

  (* The description after a unit, given the one before. *)
  Definition describes (B : backend J Sch) (method : string) (cu : cunit) (before after : string) : Prop :=
    exists tj th z, json_text B method cu tj /\ header_text cu th /\ effective_status cu z /\
      after = first_text [cu_desc cu; before; tj; th; status_text z].

  (* The description after several units. *)
  Inductive described (B : backend J Sch) (method : string) : list cunit -> string -> string -> Prop :=
  | dd_nil d : described B method [] d d
  | dd_cons cu l d d1 d2 : describes B method cu d d1 -> described B method l d1 d2 ->
      described B method (cu :: l) d d2.

  (* The units filed under a key, in order. *)
  Inductive units_of (k : rkey) : list cunit -> list cunit -> Prop :=
  | uo_nil : units_of k [] []
  | uo_take cu l l' : files_under cu k -> units_of k l l' -> units_of k (cu :: l) (cu :: l')
  | uo_skip cu l l' : ~ files_under cu k -> units_of k l l' -> units_of k (cu :: l) l'.

  (* ------------------------------------------------------------------ *)
  (* Requests                                                             *)

  Definition locations : list string := ["query"; "path"; "cookie"; "header"].

  (* Content types for which the structure is reflected; for any other type
     the body is a string. *)
  Definition structuredb (cu : cunit) : bool :=
    mem (cu_ctype cu) [""; "application/json"; "application/x-www-form-urlencoded"; "multipart/form-data"].

  Fixpoint props_of (es : list (pevent J)) : list prop :=
    match es with
    | [] => []
    | EProp q :: es' => if considered q then q :: props_of es' else props_of es'
    | EDef _ _ :: es' => props_of es'
    end.

  (* The properties of a request structure that become parameters, in order. *)
  Definition param_fields (cu : cunit) : list (string * prop) :=
    if structuredb cu && negb (v_slice cu)
    then flat_map (fun loc => map (pair loc) (props_of (fst (v_params cu loc)))) locations
    else [].

  (* Locations in which a request structure forbids unknown parameters. *)
  Definition forbidden_locations (cu : cunit) : list string :=
    if structuredb cu && negb (v_slice cu)
    then filter (fun loc => match snd (v_params cu loc) with Ret true => true | _ => false end) locations
    else [].

  (* Names of the definitions reported while the structures are reflected: for
     parameters and for JSON responses. *)
  Definition event_defs (es : list (pevent J)) : list string :=
    flat_map (fun e => match e with EDef n _ => [n] | EProp _ => [] end) es.
  Definition param_defs (cu : cunit) : list string :=
    if structuredb cu && negb (v_slice cu)
    then flat_map (fun loc => event_defs (fst (v_params cu loc))) locations
    else [].
  Inductive json_def (method : string) (cu : cunit) : string -> Prop :=
  | jd_in n : method <> "head" -> cu_nil cu = false -> v_has_json cu <> Ret false ->
      In n (map fst (fst (v_json cu))) -> json_def method cu n.

  (* The media types of a request body. *)
  Definition body_content (b : option (rbor Sch)) : smap (media Sch) :=
    match b with
    | Some x => match rbor_body x with Some y => rb_content y | None => [] end
    | None => []
    end.

  (* Serialisation of a parameter for a collectionFormat tag. *)
  Inductive array_style : string -> option (string * bool) -> Prop :=
  | as_csv : array_style "csv" (Some ("form", false))
  | as_ssv : array_style "ssv" (Some ("spaceDelimited", false))
  | as_pipes : array_style "pipes" (Some ("pipeDelimited", false))
  | as_multi : array_style "multi" (Some ("form", true))
  | as_other cf : ~ In cf ["csv"; "ssv"; "pipes"; "multi"] -> array_style cf None.

  (* A parameter sent as a JSON text. *)
  Definition json_encoded (q : prop) : Prop :=
    pr_cf q = "json" \/ (pr_tag_json q = true /\ pr_tag_in q = false).

  Definition default_style (q : prop) (x : option (string * bool)) : Prop :=
    (~ json_encoded q /\ pr_plain q = Ret true /\ x = Some ("deepObject", true)) \/
    ((json_encoded q \/ pr_plain q = Ret false) /\ array_style (pr_cf q) x).

  Definition or_else {A : Type} (a b : option A) : option A :=
    match a with Some _ => a | None => b end.

  (* The parameter documented for a property. *)
  Definition renders (B : backend J Sch) (f : string * prop) (x : por Sch) : Prop :=
    exists p t ds, x = mkPor (Some p) None /\ pr_tags (snd f) = Ret t /\ default_style (snd f) ds /\
      p_in p = fst f /\
      p_name p = match t_name t with Some n => n | None => pr_name (snd f) end /\
      p_required p = (if String.eqb (fst f) "path" then Some true else t_required t) /\
      p_desc p = or_else (t_desc t) (b_desc B (pr_schema (snd f))) /\
      p_deprecated p = t_deprecated t /\
      p_style p = (if b_v31 B then option_map fst ds else or_else (t_style t) (option_map fst ds)) /\
      p_explode p = or_else (t_explode t) (option_map snd ds) /\
      p_allow_empty p = (if b_v31 B then None else t_allow_empty t) /\
      p_allow_reserved p = (if b_v31 B then None else t_allow_reserved t) /\
      p_rest p = JNull /\
      (json_encoded (snd f) -> p_schema p = None /\ exists j s, pr_json (snd f) = Ret j /\ b_conv B j = Ret s /\
         p_content p = [("application/json", mkMedia (Some s) JNull)]) /\
      (~ json_encoded (snd f) -> p_content p = [] /\ exists s, b_conv B (pr_schema (snd f)) = Ret s /\
         p_schema p = Some (if pr_ptr (snd f) then s else b_unnull B s)).

  (* A structure that describes a form. *)
  Definition form_structure (cu : cunit) : Prop :=
    v_tagged cu "formData" = true \/ v_tagged cu "form" = true \/ cu_form_mapping cu = true.

  Definition has_file (cu : cunit) : Prop :=
    In KFile (fst (v_body cu "formData")) \/ In KFileHeader (fst (v_body cu "formData")).

  Definition bodyless (m : string) : Prop := m = "get" \/ m = "head" \/ m = "delete" \/ m = "trace".

  (* ------------------------------------------------------------------ *)
  (* Calls                                                                 *)

  (* What an operation of either package shows. *)
  Record view := mkView {
    vw_params : list (por Sch);
    vw_body : option (rbor Sch);
    vw_responses : responses;
    vw_ext : smap json;
    vw_other : list string * option string * option string * option string * option bool
               * list (smap (list string)) * json }.

  Definition view_of {R} (f : R -> responses) (o : operation Sch R) : view :=
    mkView (op_params o) (op_body o) (f (op_responses o)) (op_ext o)
      (op_tags o, op_summary o, op_desc o, op_id o, op_deprecated o, op_security o, op_rest o).
  Definition view30 (o : op30 Sch) : view := view_of (fun r => r) o.
  Definition view31 (o : op31 Sch) : view :=
    view_of (fun r => match r with Some r => r | None => mkResps None [] end) o.

  (* Contexts made by NewOperationContext, with any content and setter calls
     afterwards (method, path and placeholders cannot be changed). *)
  Definition made30 (oc : opctx J Sch responses) : Prop :=
    exists (r : refl30 Sch) method path (oc0 : opctx J Sch responses),
      new_context30 r method path = Some oc0 /\
      oc_method oc = oc_method oc0 /\ oc_path oc = oc_path oc0 /\ oc_params oc = oc_params oc0.
  Definition made31 (oc : opctx J Sch (option responses)) : Prop :=
    exists (r : refl31 Sch) r' method path (oc0 : opctx J Sch (option responses)),
      new_context31 r method path = (r', Some oc0) /\
      oc_method oc = oc_method oc0 /\ oc_path oc = oc_path oc0 /\ oc_params oc = oc_params oc0.

  (* A call: method, request units, response units, the operation before. *)
  Record call := mkCall { c_method : string; c_req : list cunit; c_resp : list cunit; c_view : view }.

  (* [documented B call v]: a successful AddOperation or AddWebhook call of
     either package, after which the document shows [v]. *)
  Inductive documented (B : backend J Sch) : call -> view -> Prop :=
  | doc_30 r oc r' oc' o' : made30 oc -> reflector_add30 B r oc = (r', oc', AOk) ->
      doc30 (r30_paths r') (oc_path oc) (oc_method oc) = Some o' ->
      documented B (mkCall (oc_method oc) (oc_req oc) (oc_resp oc) (view30 (oc_op oc))) (view30 o')
  | doc_31 r oc r' oc' o' : made31 oc -> reflector_add31 B r oc = (r', oc', AOk) ->
      doc31 (r31_paths r') (oc_path oc) (oc_method oc) = Some o' ->
      documented B (mkCall (oc_method oc) (oc_req oc) (oc_resp oc) (view31 (oc_op oc))) (view31 o')
  | doc_hook r oc r' oc' o' : made31 oc -> reflector_webhook31 B r oc = (r', oc', AOk) ->
      hook31 (r31_paths r') (oc_path oc) (oc_method oc) = Some o' ->
      documented B (mkCall (oc_method oc) (oc_req oc) (oc_resp oc) (view31 (oc_op oc))) (view31 o').

  (* Component names are never lost. *)
  Definition grows (c c' : smap Sch) : Prop := forall k, In k (keys c) -> In k (keys c').

  (* Histories of calls on one reflector, failing ones included. *)
  Definition rstep30 (B : backend J Sch) (r : refl30 Sch) (oc : opctx J Sch responses) : refl30 Sch :=
    fst (fst (reflector_add30 B r oc)).
  Definition rrun30 B (r : refl30 Sch) (l : list (opctx J Sch responses)) : refl30 Sch := fold_left (rstep30 B) l r.
  (* the flag selects AddWebhook *)
  Definition rstep31 (B : backend J Sch) (r : refl31 Sch) (a : bool * opctx J Sch (option responses)) : refl31 Sch :=
    fst (fst (if fst a then reflector_webhook31 B r (snd a) else reflector_add31 B r (snd a))).
  Definition rrun31 B (r : refl31 Sch) (l : list (bool * opctx J Sch (option responses))) : refl31 Sch :=
    fold_left (rstep31 B) l r.
End Spec.
Arguments view : clear implicits. Arguments call : clear implicits.
