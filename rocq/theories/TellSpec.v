(* What the schemas given to the callbacks of the walkers say about values,
   compared with the JSON schemas that the reflection library reports. *)
From Coq Require Import Permutation.
From Verif Require Import Str SMap Json SchemaModel SchemaSpec Types ReflectModel ReflectSpec BodySpec WalkModel WalkSpec.

(* The methods, in the spelling of net/http or in lower case. *)
Definition http_method (method m : string) : Prop :=
  In (method, m) [("GET", "get"); ("PUT", "put"); ("POST", "post"); ("DELETE", "delete");
                  ("OPTIONS", "options"); ("HEAD", "head"); ("PATCH", "patch"); ("TRACE", "trace");
                  ("get", "get"); ("put", "put"); ("post", "post"); ("delete", "delete");
                  ("options", "options"); ("head", "head"); ("patch", "patch"); ("trace", "trace")].

(* A schema with the definitions that it carries. *)
Definition given_schema (x : js) : jsob := match x with JsBool s => s | JsObj s _ => s end.
Definition given_defs (x : js) (n : string) : option jsob := match x with JsBool _ => None | JsObj _ defs => get n defs end.

(* The given schema, looked at on its own, accepts what the schema [s] accepts
   and rejects what [s] rejects - of the values in question. *)
Definition tells_of (these : json -> Prop) (env : string -> option jsob) (s : jsob) (x : js) : Prop :=
  forall O v b, these v -> jsays O env s v b -> jsays O (given_defs x) (given_schema x) v b.
Definition all_values (v : json) : Prop := True.
Definition non_null (v : json) : Prop := v <> JNull.
Notation tells := (tells_of all_values).

Section Reports.
  Context {J Sch : Type}.
  Variable B : backend J Sch.
  Variable schema : J -> jsob.
  Variable ok : J -> Prop.                (* schemas that the version of OpenAPI can express *)
  Variable D : string -> option J.        (* the definition a name stands for *)

  (* The component schemas are conversions of definitions. *)
  Definition represents (c : comps Sch) : Prop :=
    forall n s, get n c = Some s -> exists j, D n = Some j /\ ok j /\ b_conv B j = Ret s.
  Definition env (c : comps Sch) (n : string) : option jsob :=
    match get n c with Some _ => option_map schema (D n) | None => None end.

  (* The definitions that are reported for a unit are the ones of [D]. *)
  Definition reports_request (m : string) (cu : cunit J Sch) : Prop :=
    forall n j, request_def m cu n j -> D n = Some j /\ ok j.
  Definition reports_response (cu : cunit J Sch) : Prop :=
    forall n j, response_def "get" cu n j -> D n = Some j /\ ok j.

  (* A call for a property of a structure that becomes a parameter.  [these]:
     the values that the schema of a field that is not a pointer is about. *)
  Definition field_told (these : json -> Prop) (c : comps Sch) (f : string * prop J) (k : scall) : Prop :=
    exists t x, pr_tags (snd f) = Ret t /\ k_in k = fst f /\
      k_name k = match t_name t with Some n => n | None => pr_name (snd f) end /\
      (k_required k = true <-> fst f = "path" \/ t_required t = Some true) /\ k_schema k = Some x /\
      (json_encoded (snd f) -> exists j, pr_json (snd f) = Ret j /\ (ok j -> tells (env c) (schema j) x)) /\
      (~ json_encoded (snd f) -> ok (pr_schema (snd f)) ->
         (pr_ptr (snd f) = true -> tells (env c) (schema (pr_schema (snd f))) x) /\
         (pr_ptr (snd f) = false -> tells_of these (env c) (schema (pr_schema (snd f))) x)).

  (* A call for the header that the property [q] becomes under the name [n]. *)
  Definition header_told (c : comps Sch) (n : string) (q : prop J) (k : scall) : Prop :=
    exists t x, pr_tags q = Ret t /\ k_in k = "header" /\ canonical n (k_name k) /\
      (k_required k = true <-> t_required t = Some true) /\ k_schema k = Some x /\
      (ok (pr_schema q) -> tells (env c) (schema (pr_schema q)) x).

  (* [t] describes the fields of the form that is reported as [j]: it is the
     schema of [j], or the definition that [j] refers to, which does not refer to
     itself. *)
  Inductive form_schema (c : comps Sch) (j : J) : jsob -> Prop :=
  | fs_here a nt al on an it tu pr ad ot : schema j = JSObj a None nt al on an it tu pr ad ot ->
      form_schema c j (JSObj a None nt al on an it tu pr ad ot)
  | fs_ref n b x1 x2 x3 x4 x5 x6 x7 x8 x9 a nt al on an it tu pr ad ot :
      schema j = JSObj b (Some (local n)) x1 x2 x3 x4 x5 x6 x7 x8 x9 -> ja_deprecated b <> Some true ->
      env c n = Some (JSObj a None nt al on an it tu pr ad ot) ->
      ~ reachable jmentions (env c) (JSObj a None nt al on an it tu pr ad ot) n ->
      form_schema c j (JSObj a None nt al on an it tu pr ad ot).

  (* The call for a field of a form. *)
  Definition form_field_told (c : comps Sch) (required : list string) (f : string * jsob) (k : scall) : Prop :=
    exists x, k_in k = "formData" /\ k_name k = fst f /\ (k_required k = true <-> In (fst f) required) /\
      k_schema k = Some x /\ tells (env c) (snd f) x.
End Reports.
