(* The documents of the reflectors as values of the entity types: which Go value
   a record of Types.v, RegistryModel.v or SchemaModel.v stands for.

   Nil and empty slices or maps are not told apart in those records; an empty
   one is nil here.  (All fields concerned have omitempty or are joined by
   marshalUnion, so both are written alike; the content of a request body and
   the scopes of a security requirement are the exceptions, and the latter are
   never nil: openapi3/reflect.go:136-142, openapi31/reflect.go:144-150.)
   Members that are kept in the [..._rest] of a record are nil: the records of a
   document have an empty rest (ReadSpec.v). *)
From Verif Require Import Str SMap Json Types RegistryModel ReflectModel SchemaModel CodecModel CodecTables.

Definition optv {A : Type} (f : A -> val) (x : option A) : val :=
  match x with Some a => VPtr (f a) | None => VNil end.
Definition listv {A : Type} (f : A -> val) (l : list A) : val :=
  match l with [] => VNil | _ => VArr (map f l) end.
Definition mapv {A : Type} (f : A -> val) (m : smap A) : val :=
  match m with [] => VNil | _ => VMap (map (fun kv => (fst kv, f (snd kv))) m) end.

Definition strv (x : option string) : val := optv VStr x.
Definition boolv (x : option bool) : val := optv VBool x.
Definition numv (x : option Q) : val := optv VNum x.
Definition intv (x : option Z) : val := optv (fun z => VNum (inject_Z z)) x.
Definition anyv (x : option json) : val := optv VAny x.

(* A security requirement, openapi3/entities.go Operation.Security. *)
Definition securityv (m : smap (list string)) : val :=
  VMap (map (fun kv => (fst kv, VArr (map VStr (snd kv)))) m).

(* ------------------------------------------------------------------ *)
(* openapi3                                                             *)

(* ReferenceEntities {Ref string}: openapi3/entities.go:1311, 4128, 4550, 2120 *)
Definition ref30 (r : string) : val := VStruct [VStr r].

(* SchemaOrRef, Schema, SchemaAdditionalProperties: openapi3/entities.go:2186-2189,
   1666-1704, 2257-2260.  ReflectType is not written. *)
Fixpoint schemav (o : osor) : val :=
  match o with
  | ONone => VStruct [VNil; VNil]
  | ORef r => VStruct [VNil; VPtr (ref30 r)]
  | OSch a nt al on an it pr ad =>
      VStruct [VPtr (VStruct
        [ strv (oa_title a); numv (oa_multiple a); numv (oa_max a); boolv (oa_exmax a); numv (oa_min a); boolv (oa_exmin a);
          intv (oa_maxlen a); intv (oa_minlen a); strv (oa_pattern a); intv (oa_maxitems a); intv (oa_minitems a);
          boolv (oa_unique a); intv (oa_maxprops a); intv (oa_minprops a); listv VStr (oa_required a); listv VAny (oa_enum a);
          strv (oa_type a); optv schemav nt; listv schemav al; listv schemav on; listv schemav an; optv schemav it;
          mapv schemav pr;
          match ad with
          | None => VNil
          | Some (Addl b s) => VPtr (VStruct [optv schemav s; boolv b])
          end;
          strv (oa_desc a); strv (oa_format a); anyv (oa_default a); boolv (oa_nullable a); VNil; boolv (oa_readonly a);
          boolv (oa_writeonly a); anyv (oa_example a); VNil; boolv (oa_deprecated a); VNil; mapv VAny (oa_x a); VNil ]);
        VNil]
  end.

Section V30.
  Variable Sch : Type.
  Variable sv : Sch -> val.     (* SchemaOrRef *)

  (* MediaType: openapi3/entities.go:2517-2523 *)
  Definition media30 (m : media Sch) : val := VStruct [optv sv (mt_schema m); VNil; VNil; VNil; VNil].

  (* Parameter: openapi3/entities.go:1377-1394 *)
  Definition param30 (p : param Sch) : val :=
    VStruct [ VStr (p_name p); VStr (p_in p); strv (p_desc p); boolv (p_required p); boolv (p_deprecated p);
              boolv (p_allow_empty p); strv (p_style p); boolv (p_explode p); boolv (p_allow_reserved p);
              optv sv (p_schema p); mapv media30 (p_content p); VNil; VNil; VNil; VNil; VNil ].

  Definition por30 (x : por Sch) : val := VStruct [optv ref30 (por_ref x); optv param30 (por_param x)].

  (* Header: openapi3/entities.go:3048-3060 *)
  Definition header30 (h : header Sch) : val :=
    VStruct [ strv (h_desc h); boolv (h_required h); boolv (h_deprecated h); boolv (h_allow_empty h); boolv (h_explode h);
              boolv (h_allow_reserved h); optv sv (h_schema h); VNil; VNil; VNil; VNil ].
  Definition hor30 (h : header Sch) : val := VStruct [VNil; VPtr (header30 h)].

  (* Response: openapi3/entities.go:4616-4622 *)
  Definition response30 (r : response Sch) : val :=
    VStruct [VStr (rs_desc r); mapv hor30 (rs_headers r); mapv media30 (rs_content r); VNil; VNil].
  Definition ror30 (x : ror Sch) : val := VStruct [optv ref30 (ror_ref x); optv response30 (ror_resp x)].

  (* RequestBody: openapi3/entities.go:4194-4199 *)
  Definition rbody30 (b : rbody Sch) : val :=
    VStruct [strv (rb_desc b); mapv media30 (rb_content b); VNil; VNil].
  Definition rbor30 (x : rbor Sch) : val := VStruct [optv ref30 (rbor_ref x); optv rbody30 (rbor_body x)].

  (* Responses: openapi3/entities.go:4404-4408 *)
  Definition responses30 (rs : responses Sch) : val :=
    VStruct [optv ror30 (rs_default rs); mapv ror30 (rs_map rs); VNil].

  (* Operation: openapi3/entities.go:3899-3913 *)
  Definition operation30 (o : op30 Sch) : val :=
    VStruct [ listv VStr (op_tags o); strv (op_summary o); strv (op_desc o); VNil; strv (op_id o);
              listv por30 (op_params o); optv rbor30 (op_body o); responses30 (op_responses o); VNil;
              boolv (op_deprecated o); listv securityv (op_security o); VNil; mapv VAny (op_ext o) ].

  (* PathItem, Paths: openapi3/entities.go:1142-1152, 5597-5600 *)
  Definition pathitem30 (i : pitem30 Sch) : val :=
    VStruct [VNil; VNil; VNil; VNil; VNil; mapv operation30 (pi_ops i); VNil].
  Definition paths30v (s : paths30 Sch) : val := VStruct [mapv pathitem30 (sp30_items s); VNil].

  (* Components with component schemas: [cs] are the fields of what the document
     has besides (openapi3/entities.go:5708-5719).  Components are created with
     the first schema: openapi3/reflect.go:414-416, 588-589. *)
  Definition components30 (cs : val) (c : smap Sch) : val :=
    match c, cs with
    | [], _ => cs
    | _, VPtr (VStruct l) => VPtr (VStruct (set_nth 0 (VPtr (VStruct [mapv sv c])) l))
    | _, _ => VPtr (VStruct [VPtr (VStruct [mapv sv c]); VNil; VNil; VNil; VNil; VNil; VNil; VNil; VNil; VNil])
    end.

  (* Spec: openapi3/entities.go:17-28.  [base] are the fields of a document
     without operations and component schemas. *)
  Definition spec30 (base : list val) (s : paths30 Sch) (c : smap Sch) : val :=
    VStruct (set_nth 6 (paths30v s) (set_nth 7 (components30 (nth 7 base VNil) c) base)).
End V30.
Arguments media30 {Sch}. Arguments param30 {Sch}. Arguments por30 {Sch}. Arguments header30 {Sch}. Arguments hor30 {Sch}.
Arguments response30 {Sch}. Arguments ror30 {Sch}. Arguments rbody30 {Sch}. Arguments rbor30 {Sch}. Arguments responses30 {Sch}.
Arguments operation30 {Sch}. Arguments pathitem30 {Sch}. Arguments paths30v {Sch}. Arguments components30 {Sch}. Arguments spec30 {Sch}.

(* The schemas of openapi3: FromJSONSchema converts, [schema] is the JSON schema
   that the reflection library returned (an element of [J]). *)
Definition unnull30 (o : osor) : osor :=
  match o with
  | OSch a nt al on an it pr ad =>
      OSch (mkOA (oa_gotype a) (oa_title a) (oa_desc a) (oa_type a) None (oa_multiple a) (oa_max a) (oa_exmax a) (oa_min a)
              (oa_exmin a) (oa_maxlen a) (oa_minlen a) (oa_pattern a) (oa_maxitems a) (oa_minitems a) (oa_unique a)
              (oa_maxprops a) (oa_minprops a) (oa_required a) (oa_enum a) (oa_format a) (oa_default a) (oa_example a)
              (oa_readonly a) (oa_writeonly a) (oa_deprecated a) (oa_x a) (oa_more a)) nt al on an it pr ad
  | _ => o
  end.

(* mediaType: openapi3/reflect.go:343-359 *)
Definition string30 (format : string) : osor :=
  sch0 (mkOA None None None (Some "string") None None None None None None None None None None None None None None [] []
          (if Str.is_empty format then None else Some format) None None None None None [] []).

(* openapi3/reflect.go:405, 411-416, 468-470, 509-510, 587-590 (FromJSONSchema),
   470-472, 757-759 (Nullable), 617 (s.Schema.Deprecated, a nil dereference for a
   reference) *)
Definition backend30 {J : Type} (schema : J -> jsob) : backend J osor :=
  mkBackend (fun j => match from_js (schema j) with Some o => Ret o | None => ReflectModel.Panic end)
    (fun j => match schema j with JSObj a _ _ _ _ _ _ _ _ _ _ => ja_desc a | _ => None end)
    unnull30
    (fun _ o => match o with OSch a _ _ _ _ _ _ _ => Ret (oa_deprecated a) | _ => ReflectModel.Panic end)
    string30 false.

(* ------------------------------------------------------------------ *)
(* openapi31: a schema is a map[string]interface{}                       *)

Definition sch31 := smap json.

(* Reference: openapi31/entities.go:1128-1134 *)
Definition ref31 (r : string) : val := VStruct [VStr r; VNil; VNil].

Definition schema31 (x : option sch31) : val := match x with Some s => mapv VAny s | None => VNil end.

(* MediaType: openapi31/entities.go:1413-1419 *)
Definition media31 (m : media sch31) : val := VStruct [schema31 (mt_schema m); VNil; VNil; VNil; VNil].

(* Parameter: openapi31/entities.go:1190-1205 *)
Definition param31 (p : param sch31) : val :=
  VStruct [ VStr (p_name p); VStr (p_in p); strv (p_desc p); boolv (p_required p); boolv (p_deprecated p);
            schema31 (p_schema p); mapv media31 (p_content p); strv (p_style p); boolv (p_explode p); VNil; VNil; VNil ].
Definition por31 (x : por sch31) : val := VStruct [optv ref31 (por_ref x); optv param31 (por_param x)].

(* Header: openapi31/entities.go:1619-1631 *)
Definition header31 (h : header sch31) : val :=
  VStruct [ strv (h_desc h); boolv (h_required h); boolv (h_deprecated h); schema31 (h_schema h); VNil; VNil; VNil;
            boolv (h_explode h); VNil ].
Definition hor31 (h : header sch31) : val := VStruct [VNil; VPtr (header31 h)].

(* Response: openapi31/entities.go:2928-2934 *)
Definition response31 (r : response sch31) : val :=
  VStruct [VStr (rs_desc r); mapv hor31 (rs_headers r); mapv media31 (rs_content r); VNil; VNil].
Definition ror31 (x : ror sch31) : val := VStruct [optv ref31 (ror_ref x); optv response31 (ror_resp x)].

(* RequestBody: openapi31/entities.go:2592-2598 *)
Definition rbody31 (b : rbody sch31) : val := VStruct [strv (rb_desc b); mapv media31 (rb_content b); VNil; VNil].
Definition rbor31 (x : rbor sch31) : val := VStruct [optv ref31 (rbor_ref x); optv rbody31 (rbor_body x)].

(* Responses: openapi31/entities.go:2792-2796 *)
Definition responses31 (rs : responses sch31) : val :=
  VStruct [optv ror31 (rs_default rs); mapv ror31 (rs_map rs); VNil].

(* Operation: openapi31/entities.go:2262-2276 *)
Definition operation31 (o : op31 sch31) : val :=
  VStruct [ listv VStr (op_tags o); strv (op_summary o); strv (op_desc o); VNil; strv (op_id o);
            listv por31 (op_params o); optv rbor31 (op_body o); optv responses31 (op_responses o); VNil;
            boolv (op_deprecated o); listv securityv (op_security o); VNil; mapv VAny (op_ext o) ].

(* PathItem, Paths, PathItemOrReference: openapi31/entities.go:876-890,
   3629-3633, 3487-3490 *)
Definition pathitem31 (i : pitem31 sch31) : val :=
  VStruct [ VNil; VNil; VNil; VNil; optv operation31 (pi_get i); optv operation31 (pi_put i); optv operation31 (pi_post i);
            optv operation31 (pi_delete i); optv operation31 (pi_options i); optv operation31 (pi_head i);
            optv operation31 (pi_patch i); optv operation31 (pi_trace i); VNil ].
Definition paths31v (m : smap (pitem31 sch31)) : val := VStruct [mapv pathitem31 m; VNil].
Definition hook31v (i : pitem31 sch31) : val := VStruct [VNil; VPtr (pathitem31 i)].

(* Components: openapi31/entities.go:3730-3741 *)
Definition components31 (cs : val) (c : smap sch31) : val :=
  let schemas := mapv (fun s : sch31 => VMap (map (fun kv => (fst kv, VAny (snd kv))) s)) c in
  match c, cs with
  | [], _ => cs
  | _, VPtr (VStruct l) => VPtr (VStruct (set_nth 0 schemas l))
  | _, _ => VPtr (VStruct [schemas; VNil; VNil; VNil; VNil; VNil; VNil; VNil; VNil; VNil])
  end.

(* Spec: openapi31/entities.go:17-33 *)
Definition spec31 (base : list val) (s : paths31 sch31) (c : smap sch31) : val :=
  VStruct (set_nth 4 (optv paths31v (sp31_items s)) (set_nth 5 (mapv hook31v (sp31_webhooks s))
            (set_nth 6 (components31 (nth 6 base VNil) c) base))).
