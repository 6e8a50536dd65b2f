(* What the JSON of a document has to say about its operations: the keys are
   those of the OpenAPI specification, the values those of the records of Types.v
   (and so those that the theorems about reflection are about). *)
From Verif Require Import Str SMap Json Types RegistryModel RegistrySpec.

(* The member of an object. *)
Definition at_key (k : string) (j : json) : option json := match j with JObj M => get k M | _ => None end.
Fixpoint at_keys (ks : list string) (j : json) : option json :=
  match ks with
  | [] => Some j
  | k :: ks => match at_key k j with Some i => at_keys ks i | None => None end
  end.

Definition both {A B : Type} (R : A -> B -> Prop) (x : option A) (y : option B) : Prop :=
  match x, y with Some a, Some b => R a b | None, None => True | _, _ => False end.

Definition str_m (x : option string) : option json := option_map JStr x.
Definition bool_m (x : option bool) : option json := option_map JBool x.
Definition strs_m (l : list string) : option json := match l with [] => None | _ => Some (JArr (map JStr l)) end.

(* A list is an array and is not written if empty. *)
Definition list_m {A : Type} (R : A -> json -> Prop) (l : list A) (y : option json) : Prop :=
  match l with [] => y = None | _ => exists js, y = Some (JArr js) /\ Forall2 R l js end.
(* A map is an object with the same keys; an empty one is left out or null. *)
Definition map_m {A : Type} (R : A -> json -> Prop) (m : smap A) (y : option json) : Prop :=
  match m with
  | [] => y = None \/ y = Some JNull
  | _ => exists M, y = Some (JObj M) /\ forall k, both R (get k m) (get k M)
  end.

(* https://spec.openapis.org/oas/v3.0.3#operation-object, the same in 3.1 *)
Definition operation_keys : list string :=
  ["tags"; "summary"; "description"; "externalDocs"; "operationId"; "parameters"; "requestBody"; "responses"; "callbacks";
   "deprecated"; "security"; "servers"].

Section Says.
  Context {Sch : Type}.
  Variable sj : Sch -> option json.      (* the member of a schema *)
  Variable v30 : bool.                   (* some members are of 3.0 only *)

  Definition schema_m (x : option Sch) : option json := match x with Some s => sj s | None => None end.

  Definition says_media (m : media Sch) (j : json) : Prop := at_key "schema" j = schema_m (mt_schema m).

  Record says_param (p : param Sch) (j : json) : Prop := {
    sp_name : at_key "name" j = Some (JStr (p_name p));
    sp_in : at_key "in" j = Some (JStr (p_in p));
    sp_desc : at_key "description" j = str_m (p_desc p);
    sp_required : at_key "required" j = bool_m (p_required p);
    sp_deprecated : at_key "deprecated" j = bool_m (p_deprecated p);
    sp_style : at_key "style" j = str_m (p_style p);
    sp_explode : at_key "explode" j = bool_m (p_explode p);
    sp_schema : at_key "schema" j = schema_m (p_schema p);
    sp_content : map_m says_media (p_content p) (at_key "content" j);
    sp_30 : v30 = true -> at_key "allowEmptyValue" j = bool_m (p_allow_empty p) /\ at_key "allowReserved" j = bool_m (p_allow_reserved p) }.

  Record says_header (h : header Sch) (j : json) : Prop := {
    sh_desc : at_key "description" j = str_m (h_desc h);
    sh_required : at_key "required" j = bool_m (h_required h);
    sh_deprecated : at_key "deprecated" j = bool_m (h_deprecated h);
    sh_explode : at_key "explode" j = bool_m (h_explode h);
    sh_schema : at_key "schema" j = schema_m (h_schema h);
    sh_30 : v30 = true -> at_key "allowEmptyValue" j = bool_m (h_allow_empty h) /\ at_key "allowReserved" j = bool_m (h_allow_reserved h) }.

  Record says_response (r : response Sch) (j : json) : Prop := {
    sr_desc : at_key "description" j = Some (JStr (rs_desc r));
    sr_headers : map_m says_header (rs_headers r) (at_key "headers" j);
    sr_content : map_m says_media (rs_content r) (at_key "content" j) }.

  Record says_body (b : rbody Sch) (j : json) : Prop := {
    sb_desc : at_key "description" j = str_m (rb_desc b);
    sb_content : map_m says_media (rb_content b) (at_key "content" j) }.

  (* An object or a reference. *)
  Definition or_ref {A : Type} (R : A -> json -> Prop) (x : option A) (ref : option string) (j : json) : Prop :=
    match x with
    | Some a => R a j /\ ref = None
    | None => exists r, ref = Some r /\ j = JObj [("$ref", JStr r)]
    end.
  Definition says_por (x : por Sch) : json -> Prop := or_ref says_param (por_param x) (por_ref x).
  Definition says_ror (x : ror Sch) : json -> Prop := or_ref says_response (ror_resp x) (ror_ref x).
  Definition says_rbor (x : rbor Sch) : json -> Prop := or_ref says_body (rbor_body x) (rbor_ref x).

  Record says_responses (rs : responses Sch) (j : json) : Prop := {
    so_default : both says_ror (rs_default rs) (at_key "default" j);
    so_status : forall k, k <> "default" -> both says_ror (get k (rs_map rs)) (at_key k j) }.

  Definition requirement (m : smap (list string)) : json := JObj (map (fun kv => (fst kv, JArr (map JStr (snd kv)))) m).
  Definition security_m (l : list (smap (list string))) : option json :=
    match l with [] => None | _ => Some (JArr (map requirement l)) end.

  Record says_op {R : Type} (saysr : R -> option json -> Prop) (o : operation Sch R) (j : json) : Prop := {
    sq_tags : at_key "tags" j = strs_m (op_tags o);
    sq_summary : at_key "summary" j = str_m (op_summary o);
    sq_desc : at_key "description" j = str_m (op_desc o);
    sq_id : at_key "operationId" j = str_m (op_id o);
    sq_params : list_m says_por (op_params o) (at_key "parameters" j);
    sq_body : both says_rbor (op_body o) (at_key "requestBody" j);
    sq_responses : saysr (op_responses o) (at_key "responses" j);
    sq_deprecated : at_key "deprecated" j = bool_m (op_deprecated o);
    sq_security : at_key "security" j = security_m (op_security o);
    sq_rest : forall k, In k ["externalDocs"; "callbacks"; "servers"] -> at_key k j = None;
    sq_ext : forall k, ~ In k operation_keys -> at_key k j = get k (op_ext o) }.

  Definition says_op30 : op30 Sch -> json -> Prop := says_op (fun rs => both says_responses (Some rs)).
  Definition says_op31 : op31 Sch -> json -> Prop := says_op (both says_responses).
End Says.
