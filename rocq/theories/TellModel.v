(* The schema conversions of both packages as the walkers call them. *)
From Verif Require Import Str SMap Json SchemaModel Types ReflectModel WalkModel.

(* What ToJSONSchema returns: the definitions are attached to TypeObject, which
   is created for that if needed: openapi3/jsonschema.go:35-40,
   openapi31/jsonschema.go:46-51. *)
Definition js_of (s : jsob) (defs : smap jsob) : js :=
  match s, defs with
  | JSObj _ _ _ _ _ _ _ _ _ _ _, _ => JsObj s defs
  | _, [] => JsBool s
  | _, _ => JsObj s defs
  end.

(* The pointers from r.Spec to the map of component schemas are not nil if they
   were not nil before the walk ([ens]), or if the map has an entry. *)
Definition spec_has {A : Type} (ens : bool) (c : smap A) : bool := ens || match c with [] => false | _ => true end.

(* SchemaOrRef.ToJSONSchema(r.Spec), called in openapi3/walk_schema.go:47, 64,
   121, 189.  A nil receiver is dereferenced: openapi3/jsonschema.go:27. *)
Definition to_json30 (ens : bool) (c : comps osor) (s : option osor) : out js :=
  match s with
  | None => ReflectModel.Panic
  | Some o =>
      match to_json_schema30 o (if spec_has ens c then Some c else None) with
      | Ok (s, defs) => Ret (js_of s defs)
      | _ => ReflectModel.Panic
      end
  end.

(* ToJSONSchema(schema, r.Spec), called in openapi31/walk_schema.go:50, 67, 122,
   189.  [decode]: SchemaOrBool.FromSimpleMap of jsonschema-go ([None]: an error,
   which becomes a panic), [nil_map] for a nil map.  TypeObjectEns gives a root
   that is not an object an empty TypeObject: openapi31/jsonschema.go:38. *)
Section V31.
  Variable Sch : Type.
  Variable decode : Sch -> option jsob.
  Variable nil_map : option jsob.

  Definition decoded (c : comps Sch) : smap (option jsob) := map (fun kv => (fst kv, decode (snd kv))) c.

  Definition to_json31 (ens : bool) (c : comps Sch) (s : option Sch) : out js :=
    match match s with Some m => decode m | None => nil_map end with
    | None => ReflectModel.Panic
    | Some s =>
        match to_json_schema31 nil_map s (if spec_has ens c then Some (decoded c) else None) with
        | Ok (s', defs) => Ret (match s with JSObj _ _ _ _ _ _ _ _ _ _ _ => js_of s' defs | _ => JsObj s' defs end)
        | _ => ReflectModel.Panic
        end
    end.
End V31.
Arguments to_json31 {Sch}. Arguments decoded {Sch}.
