(* openapi3/walk_schema.go and openapi31/walk_schema.go (the same code apart
   from the form of ToJSONSchema), on top of the reflection pipeline. *)
From Verif Require Import Str SMap Json SchemaModel Types ReflectModel.

(* textproto.CanonicalMIMEHeaderKey, which http.CanonicalHeaderKey calls: a name
   with a byte that is not allowed in header names stays as it is, otherwise the
   first letter and the letters after hyphens become upper case, the others
   lower case. *)
Definition header_byte (c : ascii) : bool :=
  let n := Ascii.nat_of_ascii c in
  ((48 <=? n) && (n <=? 57)) || ((65 <=? n) && (n <=? 90)) || ((97 <=? n) && (n <=? 122)) ||
  existsb (Ascii.eqb c) ["!"; "#"; "$"; "%"; "&"; "'"; "*"; "+"; "-"; "."; "^"; "_"; "`"; "|"; "~"]%char.
Definition upper_byte (c : ascii) : ascii :=
  let n := Ascii.nat_of_ascii c in if (97 <=? n) && (n <=? 122) then Ascii.ascii_of_nat (n - 32) else c.
Definition lower_byte (c : ascii) : ascii :=
  let n := Ascii.nat_of_ascii c in if (65 <=? n) && (n <=? 90) then Ascii.ascii_of_nat (n + 32) else c.
Fixpoint all_bytes (f : ascii -> bool) (s : string) : bool :=
  match s with EmptyString => true | String c s => f c && all_bytes f s end.
Fixpoint canon_from (upper : bool) (s : string) : string :=
  match s with
  | EmptyString => EmptyString
  | String c s => String (if upper then upper_byte c else lower_byte c) (canon_from (Ascii.eqb c "-") s)
  end.
Definition canonical_header_key (s : string) : string := if all_bytes header_byte s then canon_from true s else s.

(* The jsonschema.SchemaOrBool that ToJSONSchema returns: with or without
   TypeObject.  [defs]: what ToJSONSchema attached to the extra properties of
   TypeObject as components/schemas (nothing if empty).  3.1 may attach an empty
   TypeObject to a boolean: openapi31/jsonschema.go:38, 47. *)
Inductive js :=
| JsBool (s : jsob)
| JsObj (s : jsob) (defs : smap jsob).

(* Members of TypeObject that provideFormDataSchemas looks at. *)
Definition js_props (s : jsob) : smap jsob := match s with JSObj _ _ _ _ _ _ _ _ pr _ _ => pr | _ => [] end.
Definition js_required (s : jsob) : list string := match s with JSObj a _ _ _ _ _ _ _ _ _ _ => ja_required a | _ => [] end.
Definition js_extra (s : jsob) : smap json := match s with JSObj a _ _ _ _ _ _ _ _ _ _ => ja_extra a | _ => [] end.

(* x.ExtraProperties = e *)
Definition with_extra (e : smap json) (a : jattrs) : jattrs :=
  mkJA (ja_gotype a) (ja_title a) (ja_desc a) (ja_type a) (ja_multiple a) (ja_max a) (ja_exmax a) (ja_min a) (ja_exmin a)
    (ja_maxlen a) (ja_minlen a) (ja_pattern a) (ja_maxitems a) (ja_minitems a) (ja_unique a) (ja_maxprops a) (ja_minprops a)
    (ja_required a) (ja_enum a) (ja_format a) (ja_default a) (ja_examples a) (ja_readonly a) (ja_writeonly a) (ja_deprecated a)
    e (ja_more a).

(* One call of the callback: location, name, schema (nil or not), required. *)
Record scall := mkSCall { k_in : string; k_name : string; k_schema : option js; k_required : bool }.

(* What the callback does. *)
Inductive answer := CNil | CErr (e : nat) | CPanic.

(* Result of a walk: the error of the setup, a callback error (wrapped), ... *)
Inductive wres := WOk | WSetup | WCall (e : nat) | WPanic.

Section Walk.
  Variables J Sch : Type.
  Variable B : backend J Sch.
  (* SchemaOrRef.ToJSONSchema(spec) / ToJSONSchema(schema, spec); a nil
     schema is [None]. *)
  Variable to_json : comps Sch -> option Sch -> out js.
  (* The order in which Go iterates over a map. *)
  Variable range : forall A, smap A -> list (string * A).
  (* The callback sees the calls made before. *)
  Variable cb : list scall -> scall -> answer.

  Definition tr := list scall.

  (* if err := cb(...); err != nil { return ... } *)
  Definition do_call (x : scall) (t : tr) (k : tr -> tr * wres) : tr * wres :=
    match cb t x with
    | CNil => k (t ++ [x])
    | CErr e => (t ++ [x], WCall e)
    | CPanic => (t ++ [x], WPanic)
    end.

  (* schema := x.ToJSONSchema(r.Spec) *)
  Definition do_conv (c : comps Sch) (s : option Sch) (t : tr) (k : js -> tr * wres) : tr * wres :=
    match to_json c s with Ret j => k j | _ => (t, WPanic) end.

  Definition is_true (b : option bool) : bool := match b with Some true => true | _ => false end.

  (* paramSchema: openapi3/walk_schema.go:199-209 *)
  Definition param_schema (p : param Sch) : option Sch :=
    match p_schema p with
    | Some s => Some s
    | None => match get mime_json (p_content p) with Some m => mt_schema m | None => None end
    end.

  (* provideParametersJSONSchemas: openapi3/walk_schema.go:169-197 *)
  Fixpoint provide_parameters (c : comps Sch) (ps : list (por Sch)) (t : tr) (k : tr -> tr * wres) : tr * wres :=
    match ps with
    | [] => k t
    | x :: ps =>
        match por_param x with
        | None => (t, WPanic)
        | Some p =>
            match param_schema p with
            | None => do_call (mkSCall (p_in p) (p_name p) None (is_true (p_required p))) t
                        (fun t => provide_parameters c ps t k)
            | Some s => do_conv c (Some s) t (fun j =>
                        do_call (mkSCall (p_in p) (p_name p) (Some j) (is_true (p_required p))) t
                          (fun t => provide_parameters c ps t k))
            end
        end
    end.

  (* The copy of a property with the extra properties of its parent:
     openapi3/walk_schema.go:141-145. *)
  Definition inherit (extra : smap json) (defs : smap jsob) (p : jsob) : js :=
    match p with
    | JSObj a r nt al on an it tu pr ad ot =>
        match extra, defs with
        | [], [] => JsObj p []
        | _, _ => JsObj (JSObj (with_extra extra a) r nt al on an it tu pr ad ot) defs
        end
    | _ => JsBool p
    end.

  (* The loop of provideFormDataSchemas: openapi3/walk_schema.go:138-164 *)
  Fixpoint form_loop (ps : list (string * jsob)) (required : list string) (extra : smap json) (defs : smap jsob) (t : tr)
      (k : tr -> tr * wres) : tr * wres :=
    match ps with
    | [] => k t
    | (n, p) :: ps => do_call (mkSCall "formData" n (Some (inherit extra defs p)) (existsb (fun r => String.eqb r n) required)) t
                        (fun t => form_loop ps required extra defs t k)
    end.
  Definition provide_form (s : js) (t : tr) (k : tr -> tr * wres) : tr * wres :=
    match s with
    | JsBool _ => (t, WPanic)
    | JsObj s defs => form_loop (range _ (js_props s)) (js_required s) (js_extra s) defs t k
    end.

  (* The loop over the content of the body: openapi3/walk_schema.go:118-133 *)
  Fixpoint body_loop (c : comps Sch) (ms : list (string * media Sch)) (t : tr) : tr * wres :=
    match ms with
    | [] => (t, WOk)
    | (ct, m) :: ms =>
        do_conv c (mt_schema m) t (fun j =>
          let form t := if String.eqb ct mime_form then provide_form j t (body_loop c ms) else body_loop c ms t in
          if String.eqb ct mime_json then do_call (mkSCall "body" "body" (Some j) false) t form else form t)
    end.

  (* What happens during a walk: callbacks, and the call of done with the
     operation of the context. *)
  Inductive event (O : Type) := ECall (x : scall) | EDone (o : O).
  Arguments ECall {O}. Arguments EDone {O}.

  (* The deferred function: openapi3/walk_schema.go:98-102.  It runs on every
     way out, also when the function panics. *)
  Definition deferred {O} (done : bool) (o : O) (r : tr * wres) : list (event O) * wres :=
    (map ECall (fst r) ++ (if done then [EDone o] else []), snd r).

  Section Request.
  Variable R : Type.
  Variable zero : operation Sch R.   (* &Operation{} *)

  (* WalkRequestJSONSchemas after setupRequest: openapi3/walk_schema.go:110-135 *)
  Definition walk_request_after (c : comps Sch) (o : operation Sch R) : tr * wres :=
    provide_parameters c (op_params o) [] (fun t =>
      match op_body o with
      | Some rb => match rbor_body rb with
                   | Some b => body_loop c (range _ (rb_content b)) t
                   | None => (t, WOk)
                   end
      | None => (t, WOk)
      end).

  (* WalkRequestJSONSchemas: openapi3/walk_schema.go:83-136.  [c]: the component
     schemas of the reflector. *)
  Definition walk_request (c : comps Sch) (method : string) (cu : cunit J Sch) (done : bool)
      : comps Sch * (list (event (operation Sch R)) * wres) :=
    match setup_request B [cu] method (c, zero) with
    | ((c, o), Ret _) => (c, deferred done o (walk_request_after c o))
    | ((c, o), Err) => (c, deferred done o ([], WSetup))
    | ((c, o), Panic) => (c, deferred done o ([], WPanic))
    end.
  End Request.

  (* provideHeaderSchemas: openapi3/walk_schema.go:57-80 *)
  Fixpoint header_loop (c : comps Sch) (hs : list (string * header Sch)) (t : tr) (k : tr -> tr * wres) : tr * wres :=
    match hs with
    | [] => k t
    | (n, h) :: hs =>
        match h_schema h with
        | None => header_loop c hs t k
        | Some s => do_conv c (Some s) t (fun j =>
            do_call (mkSCall "header" (canonical_header_key n) (Some j) (is_true (h_required h))) t
              (fun t => header_loop c hs t k))
        end
    end.

  (* openapi3/walk_schema.go:42-52 *)
  Fixpoint content_loop (c : comps Sch) (ms : list (string * media Sch)) (t : tr) : tr * wres :=
    match ms with
    | [] => (t, WOk)
    | (_, m) :: ms =>
        match mt_schema m with
        | None => content_loop c ms t
        | Some s => do_conv c (Some s) t (fun j =>
            do_call (mkSCall "body" "body" (Some j) false) t (content_loop c ms))
        end
    end.

  (* The response that is walked over: openapi3/walk_schema.go:31-35 *)
  Definition last_response (l : list (string * ror Sch)) : option (response Sch) :=
    fold_left (fun _ x => ror_resp (snd x)) l None.

  (* WalkResponseJSONSchemas after setupResponse: openapi3/walk_schema.go:31-54;
     a nil response is dereferenced. *)
  Definition walk_response_after (c : comps Sch) (rs : responses Sch) : tr * wres :=
    match last_response (range _ (rs_map rs)) with
    | None => ([], WPanic)
    | Some r => header_loop c (range _ (rs_headers r)) [] (fun t => content_loop c (range _ (rs_content r)) t)
    end.

  (* WalkResponseJSONSchemas: openapi3/walk_schema.go:13-55.  The operation of
     the context has no member but the responses. *)
  Definition walk_response (c : comps Sch) (cu : cunit J Sch) (done : bool)
      : comps Sch * (list (event (responses Sch)) * wres) :=
    match setup_response B [cu] "GET" (c, mkResps None []) with
    | ((c, rs), Ret _) => (c, deferred done rs (walk_response_after c rs))
    | ((c, rs), Err) => (c, deferred done rs ([], WSetup))
    | ((c, rs), Panic) => (c, deferred done rs ([], WPanic))
    end.
End Walk.

Arguments ECall {O}. Arguments EDone {O}.
Arguments walk_request {J Sch}. Arguments walk_response {J Sch}.
Arguments provide_parameters {Sch}. Arguments body_loop {Sch}. Arguments header_loop {Sch}. Arguments content_loop {Sch}.
Arguments param_schema {Sch}. Arguments do_conv {Sch}. Arguments last_response {Sch}.
Arguments walk_request_after {Sch} _ _ _ {R}. Arguments walk_response_after {Sch}.
