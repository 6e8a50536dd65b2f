(* What has to hold of the operations and of the calls of a reflector for its
   document to be well formed. *)
From Coq Require Import ZArith.
From Verif Require Import Str SMap Json PathSpec Types RegistryModel RegistrySpec ReflectModel ReflectSpec BodySpec
  SchemaModel CodecModel CodecTables CodecSpec ReadModel.

(* Every entry of a map is fine; a Go map has no key twice. *)
Definition each {A : Type} (P : A -> Prop) (m : smap A) : Prop :=
  NoDup (keys m) /\ forall k x, In (k, x) m -> P x.
Definition if_some {A : Type} (P : A -> Prop) (x : option A) : Prop := forall a, x = Some a -> P a.

(* The styles of OpenAPI for a place of parameters, and those of the type
   ParameterStyle of openapi31. *)
Definition styles30 (loc : string) : list string :=
  if String.eqb loc "path" then ["matrix"; "label"; "simple"]
  else if String.eqb loc "query" then ["form"; "spaceDelimited"; "pipeDelimited"; "deepObject"]
  else if String.eqb loc "header" then ["simple"]
  else if String.eqb loc "cookie" then ["form"]
  else [].
Definition styles31 (loc : string) : list string := ["form"; "spaceDelimited"; "pipeDelimited"; "deepObject"].

Section Parts.
  Variable rnd : Q -> Q.
  Context {Sch : Type}.
  Variable good : Sch -> Prop.              (* a schema *)
  Variable good_header : Sch -> Prop.       (* the schema of a header *)
  Variable styles : string -> list string.

  Definition good_media (m : media Sch) : Prop := if_some good (mt_schema m) /\ mt_rest m = JNull.

  (* A parameter has a schema or a content; a path parameter is required; the
     style is one of those for the place. *)
  Definition good_param (p : param Sch) : Prop :=
    In (p_in p) locations /\ (p_in p = "path" -> p_required p = Some true) /\
    if_some (fun s => In s (styles (p_in p))) (p_style p) /\
    if_some good (p_schema p) /\ each good_media (p_content p) /\ (p_schema p = None <-> p_content p <> []) /\
    p_rest p = JNull.

  Definition good_header_obj (h : header Sch) : Prop := exists s, h_schema h = Some s /\ good_header s.
  Definition good_response (r : response Sch) : Prop :=
    each good_header_obj (rs_headers r) /\ each good_media (rs_content r) /\ rs_rest r = JNull.
  Definition good_body (b : rbody Sch) : Prop := each good_media (rb_content b) /\ rb_rest b = JNull.

  (* An object or a reference. *)
  Definition good_por (x : por Sch) : Prop :=
    (exists p, x = mkPor (Some p) None /\ good_param p) \/ (exists r, x = mkPor None (Some r)).
  Definition good_ror (x : ror Sch) : Prop :=
    (exists r, x = mkRor (Some r) None /\ good_response r) \/ (exists r, x = mkRor None (Some r)).
  Definition good_rbor (x : rbor Sch) : Prop :=
    (exists b, x = mkRbor (Some b) None /\ good_body b) \/ (exists r, x = mkRbor None (Some r)).

  Definition good_responses (rs : responses Sch) : Prop :=
    if_some good_ror (rs_default rs) /\ each good_ror (rs_map rs) /\
    forall k, In k (keys (rs_map rs)) -> legal PatStatus k.

  Definition good_op {R : Type} (rgood : R -> Prop) (o : operation Sch R) : Prop :=
    Forall good_por (op_params o) /\ if_some good_rbor (op_body o) /\ rgood (op_responses o) /\
    Forall (fun m => NoDup (keys m)) (op_security o) /\
    each (clean rnd) (op_ext o) /\ (forall k, In k (keys (op_ext o)) -> legal PatX k) /\ op_rest o = JNull.
  Definition good_op30 : op30 Sch -> Prop := good_op good_responses.
  Definition good_op31 : op31 Sch -> Prop := good_op (if_some good_responses).

  (* ------------------------------------------------------------------ *)
  (* Calls                                                                 *)

  Context {J : Type}.
  Variable B : backend J Sch.
  Notation cunit := (cunit J Sch).

  (* All schemas that the package makes are fine. *)
  Definition good_backend : Prop :=
    (forall j s, b_conv B j = Ret s -> good s) /\ (forall s, good s -> good (b_unnull B s)) /\
    (forall f, good (b_string B f)).

  (* The style of a parameter: the tag (3.0), else the default. *)
  Definition style_of (q : prop J) (x : option string) : Prop :=
    exists t ds, pr_tags q = Ret t /\ default_style q ds /\
      x = if b_v31 B then option_map fst ds else or_else (t_style t) (option_map fst ds).

  Definition good_request (cu : cunit) : Prop :=
    (forall loc q s, In (loc, q) (param_fields cu) -> style_of q (Some s) -> In s (styles loc)) /\
    (forall f x, cu_custom_req cu = Some f -> good_rbor x -> good_rbor (f x)).

  (* The status is a class, a three digit code or not given. *)
  Definition good_status (cu : cunit) : Prop :=
    cu_default cu = true \/ (0 <= cu_status cu <= 5)%Z \/ (100 <= cu_status cu <= 599)%Z.

  Definition good_reply (cu : cunit) : Prop :=
    good_status cu /\
    (forall q s, In q (fst (v_headers cu)) -> considered q = true -> b_conv B (pr_schema q) = Ret s -> good_header s) /\
    (forall f x, cu_custom_resp cu = Some f -> good_ror x -> good_ror (f x)).

  (* Media types are not added to a body that is a reference. *)
  Definition inline_body (x : rbor Sch) : Prop := exists b, x = mkRbor (Some b) None /\ good_body b.
  Definition keeps_inline (cu : cunit) : Prop :=
    forall f x, cu_custom_req cu = Some f -> inline_body x -> inline_body (f x).
  Definition good_bodies (m : string) (b : option (rbor Sch)) (req : list cunit) : Prop :=
    forall l1 cu l2 ct, req = l1 ++ cu :: l2 -> body_type m cu ct -> if_some inline_body b /\ Forall keeps_inline l1.

  Definition good_units {R : Type} (oc : opctx J Sch R) : Prop :=
    Forall good_request (oc_req oc) /\ Forall good_reply (oc_resp oc) /\
    good_bodies (oc_method oc) (op_body (oc_op oc)) (oc_req oc).

  (* Calls of AddOperation with contexts of NewOperationContext; the operation
     that the context has from the start is fine, the path begins with a slash.
     The names of component schemas have a pattern in 3.0 only. *)
  Definition good_call30 (oc : opctx J Sch (responses Sch)) : Prop :=
    made30 oc /\ legal PatSlash (oc_path oc) /\ good_op30 (oc_op oc) /\ good_units oc /\
    (forall n j, call_def (oc_method oc) (oc_req oc) (oc_resp oc) n j -> legal PatName n).
  Definition good_call31 (a : bool * opctx J Sch (option (responses Sch))) : Prop :=
    made31 (snd a) /\ (fst a = false -> legal PatSlash (oc_path (snd a))) /\ good_op31 (oc_op (snd a)) /\ good_units (snd a).
End Parts.

(* A reflector with an empty document. *)
Definition new30 {Sch} (r : refl30 Sch) : Prop := sp30_items (r30_paths r) = [] /\ r30_comps r = [].
Definition new31 {Sch} (r : refl31 Sch) : Prop :=
  (sp31_items (r31_paths r) = None \/ sp31_items (r31_paths r) = Some []) /\ sp31_webhooks (r31_paths r) = [] /\ r31_comps r = [].

(* Schemas of 3.1: the values of a map[string]interface{}; the one of a header
   is not empty. *)
Definition good31 (rnd : Q -> Q) (s : sch31) : Prop := each (clean rnd) s.
Definition good_header31 (rnd : Q -> Q) (s : sch31) : Prop := good31 rnd s /\ s <> [].

(* Schemas of 3.0. *)
Definition good30 (rnd : Q -> Q) {Sch : Type} (sv : Sch -> val) (s : Sch) : Prop := wf T30 rnd derived30 extra30 (TNamed "SchemaOrRef") (sv s).

(* JSON schemas with a type of JSON Schema, numbers that are float64, lengths
   that are int64, no key twice. *)
Definition int64 (z : Z) : Prop := (-2 ^ 63 <= z < 2 ^ 63)%Z.
Definition js_type (t : string) : Prop := In t ["array"; "boolean"; "integer"; "number"; "object"; "string"; "null"].
Record attrs_ok (rnd : Q -> Q) (a : jattrs) : Prop := {
  ao_type : match ja_type a with JTNone => True | JTOne t => js_type t | JTMany ts => Forall js_type ts end;
  ao_multiple : if_some (fun q => rnd q = q) (ja_multiple a);
  ao_max : if_some (fun q => rnd q = q) (ja_max a);
  ao_min : if_some (fun q => rnd q = q) (ja_min a);
  ao_maxlen : if_some int64 (ja_maxlen a);
  ao_minlen : int64 (ja_minlen a);
  ao_maxitems : if_some int64 (ja_maxitems a);
  ao_minitems : int64 (ja_minitems a);
  ao_maxprops : if_some int64 (ja_maxprops a);
  ao_minprops : int64 (ja_minprops a);
  ao_enum : Forall (clean rnd) (ja_enum a);
  ao_default : if_some (clean rnd) (ja_default a);
  ao_examples : Forall (clean rnd) (ja_examples a);
  ao_extra : each (clean rnd) (ja_extra a) }.
Inductive js_ok (rnd : Q -> Q) : jsob -> Prop :=
| jok_zero : js_ok rnd JSZero
| jok_bool b : js_ok rnd (JSBool b)
| jok_ref a r nt al on an it tu pr ad ot : js_ok rnd (JSObj a (Some r) nt al on an it tu pr ad ot)
| jok_obj a nt al on an it tu pr ad ot : attrs_ok rnd a ->
    (forall x, In x (al ++ on ++ an) -> js_ok rnd x) ->
    (forall x, In (Some x) [nt; it; ad] -> js_ok rnd x) ->
    NoDup (keys pr) -> (forall k x, In (k, x) pr -> js_ok rnd x) ->
    js_ok rnd (JSObj a None nt al on an it tu pr ad ot).
