(* Conversions between OpenAPI schemas and JSON schemas:
   openapi3/jsonschema.go and openapi31/jsonschema.go. *)
From Verif Require Import Str SMap Json.

(* ------------------------------------------------------------------ *)
(* Schemas                                                              *)

(* jsonschema.Type: a simple type, a list of them, or nothing. *)
Inductive jtype := JTNone | JTOne (t : string) | JTMany (ts : list string).

(* Members of jsonschema.Schema that hold no schemas.  [ja_more] holds the
   keywords that neither conversion looks at (const, contentEncoding, ...). *)
Record jattrs := mkJA {
  ja_gotype : option string;            (* ReflectType *)
  ja_title : option string;
  ja_desc : option string;
  ja_type : jtype;
  ja_multiple : option Q;
  ja_max : option Q;
  ja_exmax : option Q;
  ja_min : option Q;
  ja_exmin : option Q;
  ja_maxlen : option Z;
  ja_minlen : Z;
  ja_pattern : option string;
  ja_maxitems : option Z;
  ja_minitems : Z;
  ja_unique : option bool;
  ja_maxprops : option Z;
  ja_minprops : Z;
  ja_required : list string;
  ja_enum : list json;
  ja_format : option string;
  ja_default : option json;
  ja_examples : list json;
  ja_readonly : option bool;
  ja_writeonly : option bool;
  ja_deprecated : option bool;
  ja_extra : smap json;                 (* ExtraProperties *)
  ja_more : smap json }.

(* jsonschema.SchemaOrBool: neither, a boolean, or an object.  A value with both
   TypeBoolean and TypeObject counts as a boolean, as both conversions treat
   it.  [others] are the schemas under keywords that are not listed
   (patternProperties, if, then, else, contains, definitions, ...). *)
Inductive jsob :=
| JSZero
| JSBool (b : bool)
| JSObj (a : jattrs) (ref : option string) (nt : option jsob) (allOf oneOf anyOf : list jsob)
        (items : option jsob) (tuple : list jsob) (props : smap jsob) (addl : option jsob)
        (others : smap jsob).

(* Members of openapi3.Schema that hold no schemas: openapi3/entities.go:1666-1704.
   [oa_more]: discriminator, externalDocs and xml. *)
Record oattrs := mkOA {
  oa_gotype : option string;
  oa_title : option string;
  oa_desc : option string;
  oa_type : option string;
  oa_nullable : option bool;
  oa_multiple : option Q;
  oa_max : option Q;
  oa_exmax : option bool;
  oa_min : option Q;
  oa_exmin : option bool;
  oa_maxlen : option Z;
  oa_minlen : option Z;
  oa_pattern : option string;
  oa_maxitems : option Z;
  oa_minitems : option Z;
  oa_unique : option bool;
  oa_maxprops : option Z;
  oa_minprops : option Z;
  oa_required : list string;
  oa_enum : list json;
  oa_format : option string;
  oa_default : option json;
  oa_example : option json;
  oa_readonly : option bool;
  oa_writeonly : option bool;
  oa_deprecated : option bool;
  oa_x : smap json;                     (* MapOfAnything *)
  oa_more : smap json }.

(* SchemaAdditionalProperties: openapi3/entities.go:2257-2260. *)
Inductive addl (A : Type) := Addl (b : option bool) (s : option A).
Arguments Addl {A}.

(* SchemaOrRef: neither, a reference (whatever Schema holds then is not
   looked at), or a schema: openapi3/entities.go:2186-2189. *)
Inductive osor :=
| ONone
| ORef (r : string)
| OSch (a : oattrs) (nt : option osor) (allOf oneOf anyOf : list osor) (items : option osor)
       (props : smap osor) (ad : option (addl osor)).

(* Zero values. *)
Definition ja0 : jattrs :=
  mkJA None None None JTNone None None None None None None 0 None None 0 None None 0 [] [] None None [] None None None [] [].
Definition oa0 : oattrs :=
  mkOA None None None None None None None None None None None None None None None None None None [] [] None None None
    None None None [] [].

Definition components_schemas : string := "#/components/schemas/".

(* ------------------------------------------------------------------ *)
(* FromJSONSchema                                                       *)

(* checkNullable in a loop: openapi3/jsonschema.go:223-231, 328-334. *)
Definition check_nullable (t : string) (acc : option string * option bool) : option string * option bool :=
  if String.eqb t "null" then (fst acc, Some true) else (Some t, snd acc).

Definition from_type (t : jtype) : option string * option bool :=
  match t with
  | JTNone => (None, None)
  | JTOne t => check_nullable t (None, None)
  | JTMany ts => fold_left (fun acc t => check_nullable t acc) ts (None, None)
  end.

Definition non_zero (z : Z) : option Z := if (z =? 0)%Z then None else Some z.

(* The copying part: openapi3/jsonschema.go:209-221, 248-325.  The value is the
   one of the fresh receiver that every caller in the repository uses. *)
Definition from_attrs (a : jattrs) : oattrs :=
  let (ty, nu) := from_type (ja_type a) in
  mkOA (ja_gotype a) (ja_title a) (ja_desc a) ty nu (ja_multiple a)
    (ja_max a) (match ja_exmax a with Some _ => Some true | None => None end)
    (ja_min a) (match ja_exmin a with Some _ => Some true | None => None end)
    (ja_maxlen a) (non_zero (ja_minlen a)) (ja_pattern a)
    (ja_maxitems a) (non_zero (ja_minitems a)) (ja_unique a)
    (ja_maxprops a) (non_zero (ja_minprops a)) (ja_required a) (ja_enum a) (ja_format a) (ja_default a)
    (match ja_examples a with x :: _ => Some x | [] => None end)
    (ja_readonly a) (ja_writeonly a) (ja_deprecated a)
    (filter (fun kv => has_prefix "x-" (fst kv)) (ja_extra a)) [].

Definition is_true (b : option bool) : bool := match b with Some true => true | _ => false end.

Definition sch0 (a : oattrs) : osor := OSch a None [] [] [] None [] None.

Definition with_allof_deprecated (r : string) : osor :=
  OSch oa0 None
    [ sch0 (mkOA None None None None None None None None None None None None None None None None None None [] [] None None None
              None None (Some true) [] []);
      ORef r ] [] [] None [] None.

(* Schema{}.Not = &SchemaOrRef{Schema: &Schema{}} : openapi3/jsonschema.go:352-364 *)
Definition from_bool (b : bool) : osor :=
  if b then sch0 oa0 else OSch oa0 (Some (sch0 oa0)) [] [] [] None [] None.

(* All of them, or a panic. *)
Definition all_opt {A C : Type} (f : A -> option C) : list A -> option (list C) :=
  fix go l := match l with
              | [] => Some []
              | x :: l' => match f x, go l' with Some y, Some r => Some (y :: r) | _, _ => None end
              end.
Definition all_props {A C : Type} (f : A -> option C) : smap A -> option (smap C) :=
  fix go l := match l with
              | [] => Some []
              | (k, x) :: l' => match f x, go l' with Some y, Some r => Some ((k, y) :: r) | _, _ => None end
              end.
Definition opt_opt {A C : Type} (f : A -> option C) (x : option A) : option (option C) :=
  match x with None => Some None | Some a => match f a with Some y => Some (Some y) | None => None end end.

(* SchemaOrRef.FromJSONSchema on a fresh receiver: openapi3/jsonschema.go:182-326.
   [None]: nil dereference of TypeObject (line 190). *)
Fixpoint from_js (s : jsob) : option osor :=
  match s with
  | JSZero => None
  | JSBool b => Some (from_bool b)
  | JSObj a (Some r) _ _ _ _ _ _ _ _ _ =>
      Some (if is_true (ja_deprecated a) then with_allof_deprecated r else ORef r)
  | JSObj a None nt al on an it _ pr ad _ =>
      match opt_opt from_js nt, all_opt from_js on, all_opt from_js an, all_opt from_js al with
      | Some nt, Some on, Some an, Some al =>
          let ad' := match ad with
                     | None => Some None
                     | Some (JSBool b) => Some (Some (Addl (Some b) None))
                     | Some x => match from_js x with Some y => Some (Some (Addl None (Some y))) | None => None end
                     end in
          match ad', opt_opt from_js it, all_props from_js pr with
          | Some ad, Some it, Some pr => Some (OSch (from_attrs a) nt al on an it pr ad)
          | _, _, _ => None
          end
      | _, _, _, _ => None
      end
  end.

(* ------------------------------------------------------------------ *)
(* toJSONSchema (3.0)                                                   *)

(* Schema.AddType of jsonschema-go: adds unless present. *)
Definition add_type (t : string) (x : jtype) : jtype :=
  match x with
  | JTNone => JTOne t
  | JTOne u => if String.eqb u t then x else JTMany [u; t]
  | JTMany us => if mem t us then x else JTMany (us ++ [t])
  end.

Definition to_attrs (a : oattrs) : jattrs :=
  let ty := match oa_type a with Some t => add_type t JTNone | None => JTNone end in
  let ty := if is_true (oa_nullable a) then add_type "null" ty else ty in
  mkJA (oa_gotype a) (oa_title a) (oa_desc a) ty (oa_multiple a)
    (if is_true (oa_exmax a) then None else oa_max a) (if is_true (oa_exmax a) then oa_max a else None)
    (if is_true (oa_exmin a) then None else oa_min a) (if is_true (oa_exmin a) then oa_min a else None)
    (oa_maxlen a) (match oa_minlen a with Some z => z | None => 0%Z end) (oa_pattern a)
    (oa_maxitems a) (match oa_minitems a with Some z => z | None => 0%Z end) (oa_unique a)
    (oa_maxprops a) (match oa_minprops a with Some z => z | None => 0%Z end) (oa_required a) (oa_enum a)
    (oa_format a) (oa_default a) (match oa_example a with Some x => [x] | None => [] end)
    (oa_readonly a) (oa_writeonly a) (oa_deprecated a) (oa_x a) [].

(* Results of functions that can panic; OutOfFuel is shown not to occur. *)
Inductive res (A : Type) := Ok (x : A) | Panic | OutOfFuel.
Arguments Ok {A}. Arguments Panic {A}. Arguments OutOfFuel {A}.

Definition bind {A C : Type} (x : res A) (f : A -> res C) : res C :=
  match x with Ok a => f a | Panic => Panic | OutOfFuel => OutOfFuel end.

(* toJSONSchemaContext: openapi3/jsonschema.go:9-13.  The maps are shared by
   all calls, hence threaded. *)
Record ctx := mkCtx { c_refs : smap jsob; c_count : smap nat }.
Definition ctx0 : ctx := mkCtx [] [].

(* refsCount[name]++ *)
Definition count_of (name : string) (c : ctx) : nat := match get name (c_count c) with Some n => n | None => 0 end.
Definition bump (name : string) (c : ctx) : ctx := mkCtx (c_refs c) (put name (S (count_of name c)) (c_count c)).
Definition set_ref (name : string) (j : jsob) (c : ctx) : ctx := mkCtx (put name j (c_refs c)) (c_count c).

Definition map_list {A C : Type} (f : A -> ctx -> res (C * ctx)) : list A -> ctx -> res (list C * ctx) :=
  fix go l c :=
    match l with
    | [] => Ok ([], c)
    | x :: l' => bind (f x c) (fun yc => bind (go l' (snd yc)) (fun rc => Ok (fst yc :: fst rc, snd rc)))
    end.
Definition map_props {A C : Type} (f : A -> ctx -> res (C * ctx)) : smap A -> ctx -> res (smap C * ctx) :=
  fix go l c :=
    match l with
    | [] => Ok ([], c)
    | (k, x) :: l' => bind (f x c) (fun yc => bind (go l' (snd yc)) (fun rc => Ok ((k, fst yc) :: fst rc, snd rc)))
    end.
Definition map_opt {A C : Type} (f : A -> ctx -> res (C * ctx)) (x : option A) (c : ctx) : res (option C * ctx) :=
  match x with
  | None => Ok (None, c)
  | Some a => bind (f a c) (fun yc => Ok (Some (fst yc), snd yc))
  end.

(* toJSONSchema: openapi3/jsonschema.go:45-179.  [on_ref] is what happens at a
   local reference (lines 53-64).  The order of [props] is the iteration order
   of the Go map. *)
Section ToJS.
  Variable on_ref : string -> ctx -> res ctx.

  Fixpoint tjs (o : osor) (c : ctx) : res (jsob * ctx) :=
    match o with
    | ONone => Ok (JSObj ja0 None None [] [] [] None [] [] None [], c)
    | ORef r =>
        let js := JSObj ja0 (Some r) None [] [] [] None [] [] None [] in
        if has_prefix components_schemas r
        then bind (on_ref (trim_prefix components_schemas r) c) (fun c => Ok (js, c))
        else Ok (js, c)
    | OSch a nt al on an it pr ad =>
        bind (map_opt tjs nt c) (fun nt =>
        bind (map_list tjs al (snd nt)) (fun al =>
        bind (map_list tjs on (snd al)) (fun on =>
        bind (map_list tjs an (snd on)) (fun an =>
        bind (map_opt tjs it (snd an)) (fun it =>
        bind (map_props tjs pr (snd it)) (fun pr =>
        bind (match ad with
              | None => Ok (None, snd pr)
              | Some (Addl (Some b) _) => Ok (Some (JSBool b), snd pr)
              | Some (Addl None None) => Ok (None, snd pr)
              | Some (Addl None (Some x)) => bind (tjs x (snd pr)) (fun y => Ok (Some (fst y), snd y))
              end) (fun ad =>
        Ok (JSObj (to_attrs a) None (fst nt) (fst al) (fst on) (fst an) (fst it) [] (fst pr) (fst ad) [],
            snd ad))))))))
    end.
End ToJS.

(* The component map: spec.Components.Schemas may be nil, then a lookup panics
   (line 58); a missing component is the zero SchemaOrRef. *)
Definition comps30 := option (smap osor).

Definition component30 (m : smap osor) (name : string) : osor :=
  match get name m with Some o => o | None => ONone end.

(* openapi3/jsonschema.go:53-64 *)
Fixpoint on_ref30 (fuel : nat) (cs : comps30) (name : string) (c : ctx) : res ctx :=
  match fuel with
  | O => OutOfFuel
  | S n =>
      bind (if has name (c_refs c) then Ok c
            else let c := set_ref name JSZero c in
                 match cs with
                 | None => Panic
                 | Some m => bind (tjs (on_ref30 n cs) (component30 m name) c) (fun yc => Ok (set_ref name (fst yc) (snd yc)))
                 end)
           (fun c => Ok (bump name c))
  end.

(* delete(m, k) *)
Definition del {A : Type} (k : string) (m : smap A) : smap A := filter (fun kv => negb (String.eqb k (fst kv))) m.

(* The result of ToJSONSchema: the schema and what is attached as
   components/schemas (nothing if empty). *)
Definition result := (jsob * smap jsob)%type.

(* Fuel that always suffices (C34, C35). *)
Definition enough {A : Type} (cs : option (smap A)) : nat := match cs with Some m => 2 + List.length m | None => 1 end.

(* SchemaOrRef.ToJSONSchema: openapi3/jsonschema.go:18-43 *)
Definition to_json_schema30_fuel (fuel : nat) (o : osor) (cs : comps30) : res result :=
  bind (tjs (on_ref30 fuel cs) o ctx0) (fun yc =>
    let (js, c) := yc in
    match o with
    | ORef r =>
        let dst := trim_prefix components_schemas r in
        if count_of dst c =? 1
        then match get dst (c_refs c) with
             | Some js => Ok (js, del dst (c_refs c))
             | None => Ok (JSZero, c_refs c)
             end
        else Ok (js, c_refs c)
    | _ => Ok (js, c_refs c)
    end).

Definition to_json_schema30 (o : osor) (cs : comps30) : res result := to_json_schema30_fuel (enough cs) o cs.

(* ------------------------------------------------------------------ *)
(* ToJSONSchema (3.1)                                                   *)

Definition iter_list {A : Type} (f : A -> ctx -> res ctx) : list A -> ctx -> res ctx :=
  fix go l c := match l with [] => Ok c | x :: l' => bind (f x c) (go l') end.
Definition iter_props {A : Type} (f : A -> ctx -> res ctx) : smap A -> ctx -> res ctx :=
  fix go l c := match l with [] => Ok c | (_, x) :: l' => bind (f x c) (go l') end.
Definition iter_opt {A : Type} (f : A -> ctx -> res ctx) (x : option A) (c : ctx) : res ctx :=
  match x with None => Ok c | Some a => f a c end.

(* findReferences: openapi31/jsonschema.go:60-124 *)
Section Find.
  Variable on_ref : string -> ctx -> res ctx.

  Fixpoint find_refs (s : jsob) (c : ctx) : res ctx :=
    match s with
    | JSZero | JSBool _ => Ok c
    | JSObj _ (Some r) _ _ _ _ _ _ _ _ _ =>
        if has_prefix components_schemas r then on_ref (trim_prefix components_schemas r) c else Ok c
    | JSObj _ None nt al on an it tu pr ad _ =>
        bind (iter_opt find_refs nt c) (fun c =>
        bind (iter_list find_refs al c) (fun c =>
        bind (iter_list find_refs on c) (fun c =>
        bind (iter_list find_refs an c) (fun c =>
        bind (iter_opt find_refs it c) (fun c =>
        bind (iter_list find_refs tu c) (fun c =>
        bind (iter_props find_refs pr c) (fun c =>
        iter_opt find_refs ad c)))))))
    end.
End Find.

(* Components: nil pointer, or the schema maps as js.FromSimpleMap decodes them
   ([None]: it returns an error, which is a panic).  [nil_map] is the decoding
   of the nil map that a missing component yields. *)
Definition comps31 := option (smap (option jsob)).

Definition component31 (nil_map : option jsob) (m : smap (option jsob)) (name : string) : option jsob :=
  match get name m with Some x => x | None => nil_map end.

Fixpoint on_ref31 (fuel : nat) (nil_map : option jsob) (cs : comps31) (name : string) (c : ctx) : res ctx :=
  match fuel with
  | O => OutOfFuel
  | S n =>
      bind (if has name (c_refs c) then Ok c
            else match cs with
                 | None => Panic
                 | Some m => match component31 nil_map m name with
                             | None => Panic
                             | Some js => find_refs (on_ref31 n nil_map cs) js (set_ref name js c)
                             end
                 end)
           (fun c => Ok (bump name c))
  end.

(* ToJSONSchema, from the decoded schema on: openapi31/jsonschema.go:26-58.
   TypeObjectEns turns a root that is neither into an empty object. *)
Definition to_json_schema31_fuel (fuel : nat) (nil_map : option jsob) (js : jsob) (cs : comps31) : res result :=
  bind (find_refs (on_ref31 fuel nil_map cs) js ctx0) (fun c =>
    match js with
    | JSObj _ (Some r) _ _ _ _ _ _ _ _ _ =>
        let dst := trim_prefix components_schemas r in
        if count_of dst c =? 1
        then match get dst (c_refs c) with
             | Some js => Ok (js, del dst (c_refs c))
             | None => Ok (JSZero, c_refs c)
             end
        else Ok (js, c_refs c)
    | JSZero => Ok (JSObj ja0 None None [] [] [] None [] [] None [], c_refs c)
    | _ => Ok (js, c_refs c)
    end).

Definition to_json_schema31 (nil_map : option jsob) (js : jsob) (cs : comps31) : res result :=
  to_json_schema31_fuel (enough cs) nil_map js cs.
