(* C116: the JSON of a reflected document says what its operations are. *)
From Coq Require Import ZArith Lia.
From Verif Require Import Str SMap Json Types RegistryModel RegistrySpec ReflectModel ReflectSpec BodySpec SchemaModel CodecModel CodecTables CodecSpec
  CodecProofs CodecEnc CodecRound CodecRT CodecCheck ReadModel ReadSpec ReadProofs ReadRun ReadSchemas ReadProps SaySpec SayProofs SayDocs SayDocs31 SaySchema.

Lemma base_length T rnd derived extra n fs parts d base : get n T = Some (EStruct fs parts d) -> wf T rnd derived extra (TNamed n) (VStruct base) ->
  length base = length fs.
Proof. intros G W. inversion W as [| | | | | | | | | | | | |? ? ? ? ? G1 L1]; subst. rewrite G in G1. injection G1 as <- <- <-. symmetry. exact L1. Qed.

(* Every operation is found under its path and method with all that its record
   has, nothing else is found there; the schemas are found under their names;
   the rest of the document is as it was. *)
Theorem C116_document30 : forall rnd (J Sch : Type) (sv : Sch -> val) (B : backend J Sch) base r l,
  good_backend (good30 rnd sv) B -> wf T30 rnd derived30 extra30 (TNamed "Spec") (VStruct base) -> new30 r ->
  Forall (good_call30 rnd (good30 rnd sv) (good30 rnd sv) styles30 B) l ->
  exists j0 j, marshal T30 (TNamed "Spec") (VStruct base) = Some j0 /\ marshal T30 (TNamed "Spec") (document30 sv base (rrun30 B r l)) = Some j /\
    (forall path method, both (says_op30 (fun s => marshal T30 (TNamed "SchemaOrRef") (sv s)) true)
       (doc30 (r30_paths (rrun30 B r l)) path method) (at_keys ["paths"; path; method] j)) /\
    (forall name s, get name (r30_comps (rrun30 B r l)) = Some s ->
       exists i, at_keys ["components"; "schemas"; name] j = Some i /\ marshal T30 (TNamed "SchemaOrRef") (sv s) = Some i) /\
    (forall k, k <> "paths" -> k <> "components" -> at_key k j = at_key k j0).
Proof.
  intros rnd J Sch sv B base r l GB W [N1 N2] F.
  assert (D0 : doc_ok30 rnd Sch sv (r30_paths r)) by (split; rewrite N1; [apply each_nil|intros k []]).
  assert (C0 : comps_ok30 rnd Sch sv (r30_comps r)) by (rewrite N2; split; [apply each_nil|intros k []]).
  destruct (run_keep30 rnd sv B GB l F r D0 C0) as [D C].
  pose proof (base_length T30 _ _ _ "Spec" _ _ _ _ eq_refl W) as L. cbn in L.
  pose proof (wf_spec30 rnd Sch sv base _ _ W D C) as Wd.
  exact (whole30 rnd sv base _ _ L W Wd).
Qed.

Theorem C116_document31 : forall rnd (J : Type) (B : backend J sch31) base r l,
  good_backend (good31 rnd) B -> wf T31 rnd derived31 extra31 (TNamed "Spec") (VStruct base) -> new31 r ->
  Forall (good_call31 rnd (good31 rnd) (good_header31 rnd) styles31 B) l ->
  exists j0 j, marshal T31 (TNamed "Spec") (VStruct base) = Some j0 /\ marshal T31 (TNamed "Spec") (document31 base (rrun31 B r l)) = Some j /\
    (forall path method, both (says_op31 sj31 false) (doc31 (r31_paths (rrun31 B r l)) path method) (at_keys ["paths"; path; method] j)) /\
    (forall name method, both (says_op31 sj31 false) (hook31 (r31_paths (rrun31 B r l)) name method) (at_keys ["webhooks"; name; method] j)) /\
    (forall name s, get name (r31_comps (rrun31 B r l)) = Some s -> at_keys ["components"; "schemas"; name] j = Some (JObj s)) /\
    (forall k, k <> "paths" -> k <> "webhooks" -> k <> "components" -> at_key k j = at_key k j0).
Proof.
  intros rnd J B base r l GB W (N1 & N2 & N3) F.
  assert (D0 : doc_ok31 rnd (r31_paths r)).
  { split; [|rewrite N2; apply each_nil]. intros m E. destruct N1 as [N1|N1]; rewrite N1 in E; [discriminate E|]. injection E as <-.
    split; [apply each_nil|intros k []]. }
  assert (C0 : comps_ok31 rnd (r31_comps r)) by (unfold comps_ok31; rewrite N3; apply each_nil).
  destruct (run_keep31 rnd B GB l F r D0 C0) as [D C].
  pose proof (base_length T31 _ _ _ "Spec" _ _ _ _ eq_refl W) as L. cbn in L.
  pose proof (wf_spec31 rnd base _ _ W D C) as Wd.
  exact (whole31 rnd base _ _ L W Wd).
Qed.

(* Any operation that is well formed, also one built by hand. *)
Theorem C116_operation30 : forall rnd (Sch : Type) (sv : Sch -> val) o, wf T30 rnd derived30 extra30 (TNamed "Operation") (operation30 sv o) ->
  exists j, marshal T30 (TNamed "Operation") (operation30 sv o) = Some j /\ says_op30 (fun s => marshal T30 (TNamed "SchemaOrRef") (sv s)) true o j.
Proof. intros rnd Sch sv o W. exact (operation30_says rnd sv o W). Qed.
Theorem C116_operation31 : forall rnd o, wf T31 rnd derived31 extra31 (TNamed "Operation") (operation31 o) ->
  exists j, marshal T31 (TNamed "Operation") (operation31 o) = Some j /\ says_op31 sj31 false o j.
Proof. exact operation31_says. Qed.

(* The schemas of 3.0: exactly the members that the specification has for what
   is set, also in a schema converted from a JSON schema and in the components
   of a reflected document. *)
Theorem C116_schema30 : forall rnd o, wf T30 rnd derived30 extra30 (TNamed "SchemaOrRef") (schemav o) ->
  marshal T30 (TNamed "SchemaOrRef") (schemav o) = Some (schema_doc o).
Proof. exact schema_says. Qed.

Theorem C116_converted30 : forall rnd j o, js_ok rnd j -> from_js j = Some o ->
  marshal T30 (TNamed "SchemaOrRef") (schemav o) = Some (schema_doc o).
Proof. intros rnd j o JO E. exact (schema_says rnd o (from_js_ok rnd j JO o E)). Qed.

Theorem C116_components30 : forall rnd (J : Type) (schema : J -> jsob) base r l,
  (forall j, js_ok rnd (schema j)) -> wf T30 rnd derived30 extra30 (TNamed "Spec") (VStruct base) -> new30 r ->
  Forall (good_call30 rnd (good30 rnd schemav) (good30 rnd schemav) styles30 (backend30 schema)) l ->
  exists j, marshal T30 (TNamed "Spec") (document30 schemav base (rrun30 (backend30 schema) r l)) = Some j /\
    forall name s, get name (r30_comps (rrun30 (backend30 schema) r l)) = Some s ->
      at_keys ["components"; "schemas"; name] j = Some (schema_doc s).
Proof.
  intros rnd J schema base r l JO W [N1 N2] F. pose proof (backend30_ok rnd schema JO) as GB.
  destruct (C116_document30 rnd J osor schemav (backend30 schema) base r l GB W (conj N1 N2) F) as (j0 & j & _ & M & _ & Cs & _).
  exists j. split; [exact M|]. intros name s G. destruct (Cs name s G) as (i & -> & Mi).
  assert (D0 : doc_ok30 rnd osor schemav (r30_paths r)) by (split; rewrite N1; [apply each_nil|intros k []]).
  assert (C0 : comps_ok30 rnd osor schemav (r30_comps r)) by (rewrite N2; split; [apply each_nil|intros k []]).
  destruct (run_keep30 rnd schemav (backend30 schema) GB l F r D0 C0) as [_ [[_ Cg] _]].
  pose proof (Cg name s (get_In _ _ _ G)) as Ws. rewrite (C116_schema30 rnd s Ws) in Mi. injection Mi as <-. reflexivity.
Qed.

Example C116_schema_example :
  match from_js (rd_schema false) with
  | Some o => at_keys ["type"] (schema_doc o) = Some (JStr "array") /\
      at_keys ["items"; "$ref"] (schema_doc o) = Some (JStr "#/components/schemas/Item") /\ at_keys ["nullable"] (schema_doc o) = None
  | None => False
  end.
Proof. vm_compute. repeat split. Qed.

(* The hypotheses are those of C78 and C79 (C78_example, C79_example); what is
   found in the document of the former: *)
Example C116_example :
  let calls := [rd_oc30 "get" "/a/{id}" [rd_request "" "multi"] [rd_response 404];
                rd_oc30 "put" "/a/{id}" [rd_request "" "pipes"] [rd_response 5]] in
  match marshal T30 (TNamed "Spec") (document30 schemav rd_base30 (rrun30 (backend30 rd_schema) rd_refl30 calls)) with
  | Some j =>
      at_keys ["paths"; "/a/{id}"; "get"; "responses"; "404"; "description"] j = Some (JStr "Not Found") /\
      (exists i, at_keys ["paths"; "/a/{id}"; "put"; "parameters"] j = Some i) /\
      at_keys ["paths"; "/a/{id}"; "post"] j = None /\ at_keys ["paths"; "/b"; "get"] j = None
  | None => False
  end.
Proof. vm_compute. repeat split. eexists. reflexivity. Qed.

(* ---------- assumptions ---------- *)

Print Assumptions C116_document30.
Print Assumptions C116_document31.
Print Assumptions C116_operation30.
Print Assumptions C116_operation31.
Print Assumptions C116_schema30.
Print Assumptions C116_converted30.
Print Assumptions C116_components30.
