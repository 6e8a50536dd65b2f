(* Theorems about writing the documents that reflectors build and reading them
   again. *)
From Coq Require Import ZArith Lia.
From Verif Require Import Str SMap Json PathModel PathSpec PathProofs PathProps Types RegistryModel RegistrySpec RegistryProofs
  ReflectModel ReflectSpec ReflectProofs ReflectProps BodySpec SchemaModel CodecModel CodecTables CodecSpec CodecProofs CodecCheck
  CodecProps ReadModel ReadSpec ReadProofs ReadRun ReadSchemas.

(* ---------- C78: openapi3 ---------- *)

Definition document30 {Sch} (sv : Sch -> val) (base : list val) (r : refl30 Sch) : val := spec30 sv base (r30_paths r) (r30_comps r).
Definition readable30 (rnd : Q -> Q) (v : val) : Prop :=
  exists j v', marshal T30 (TNamed "Spec") v = Some j /\ unmarshal T30 rnd (TNamed "Spec") j = Some v' /\
    strip T30 derived30 v' (TNamed "Spec") = v.

Theorem C78_readable : forall rnd (J Sch : Type) (sv : Sch -> val) (B : backend J Sch) base r l,
  good_backend (good30 rnd sv) B -> wf T30 rnd derived30 extra30 (TNamed "Spec") (VStruct base) -> new30 r ->
  Forall (good_call30 rnd (good30 rnd sv) (good30 rnd sv) styles30 B) l ->
  readable30 rnd (document30 sv base (rrun30 B r l)).
Proof.
  intros rnd J Sch sv B base r l GB W [N1 N2] F.
  assert (D0 : doc_ok30 rnd Sch sv (r30_paths r)) by (split; rewrite N1; [apply each_nil|intros k []]).
  assert (C0 : comps_ok30 rnd Sch sv (r30_comps r)) by (rewrite N2; split; [apply each_nil|intros k []]).
  destruct (run_keep30 rnd sv B GB l F r D0 C0) as [D C]. apply C41_roundtrip. apply wf_spec30; assumption.
Qed.

(* With the schemas of the package. *)
Theorem C78_reflected : forall rnd (J : Type) (schema : J -> jsob) base r l,
  (forall j, js_ok rnd (schema j)) -> wf T30 rnd derived30 extra30 (TNamed "Spec") (VStruct base) -> new30 r ->
  Forall (good_call30 rnd (good30 rnd schemav) (good30 rnd schemav) styles30 (backend30 schema)) l ->
  readable30 rnd (document30 schemav base (rrun30 (backend30 schema) r l)).
Proof. intros rnd J schema base r l JO. apply C78_readable. apply backend30_ok. exact JO. Qed.

Theorem C78_schema : forall rnd j o, js_ok rnd j -> from_js j = Some o ->
  exists i v, marshal T30 (TNamed "SchemaOrRef") (schemav o) = Some i /\ unmarshal T30 rnd (TNamed "SchemaOrRef") i = Some v /\
    strip T30 derived30 v (TNamed "SchemaOrRef") = schemav o.
Proof. intros rnd j o JO E. apply C41_roundtrip. exact (from_js_ok rnd j JO o E). Qed.

(* With the schemas of openapi3 a style tag decides. *)
Theorem C78_style_tag : forall (J : Type) (schema : J -> jsob) (q : prop J) x t s,
  style_of (backend30 schema) q x -> pr_tags q = Ret t -> t_style t = Some s -> x = Some s.
Proof. intros J schema q x t s (t' & ds & E & _ & ->) E' S. rewrite E in E'. injection E' as ->. cbn [backend30 b_v31]. rewrite S. reflexivity. Qed.

(* ---------- C79: openapi31 ---------- *)

Definition document31 (base : list val) (r : refl31 sch31) : val := spec31 base (r31_paths r) (r31_comps r).
Definition readable31 (rnd : Q -> Q) (v : val) : Prop :=
  exists j, marshal T31 (TNamed "Spec") v = Some j /\ unmarshal T31 rnd (TNamed "Spec") j = Some v.

Theorem C79_readable : forall rnd (J : Type) (B : backend J sch31) base r l,
  good_backend (good31 rnd) B -> wf T31 rnd derived31 extra31 (TNamed "Spec") (VStruct base) -> new31 r ->
  Forall (good_call31 rnd (good31 rnd) (good_header31 rnd) styles31 B) l ->
  readable31 rnd (document31 base (rrun31 B r l)).
Proof.
  intros rnd J B base r l GB W (N1 & N2 & N3) F.
  assert (D0 : doc_ok31 rnd (r31_paths r)).
  { split; [|rewrite N2; apply each_nil]. intros m E. destruct N1 as [N1|N1]; rewrite N1 in E; [discriminate E|]. injection E as <-.
    split; [apply each_nil|intros k []]. }
  assert (C0 : comps_ok31 rnd (r31_comps r)) by (unfold comps_ok31; rewrite N3; apply each_nil).
  destruct (run_keep31 rnd B GB l F r D0 C0) as [D C]. apply C42_roundtrip. apply wf_spec31; assumption.
Qed.

(* The condition on styles holds by itself. *)
Theorem C79_styles : forall (J Sch : Type) (B : backend J Sch) (q : prop J) s loc,
  b_v31 B = true -> style_of B q (Some s) -> In s (styles31 loc).
Proof.
  intros J Sch B q s loc V (t & ds & _ & D & E). rewrite V in E. destruct ds as [[st ex]|]; [|discriminate E]. cbn [option_map fst] in E.
  injection E as ->. destruct D as [(_ & _ & D)|(_ & D)].
  - injection D as -> _. cbn [styles31 In]. tauto.
  - inversion D; subst; cbn [styles31 In]; tauto.
Qed.

(* ---------- example data ---------- *)

(* Two schemas: a text that may be null, a list of components. *)
Definition rd_attrs (t : jtype) : jattrs :=
  mkJA None None None t None None None None None (Some 10%Z) 0 None None 0 None None 0 [] [] None None [] None None None [] [].
Definition rd_schema (b : bool) : jsob :=
  if b then JSObj (rd_attrs (JTMany ["string"; "null"])) None None [] [] [] None [] [] None []
  else JSObj (rd_attrs (JTOne "array")) None None [] [] []
         (Some (JSObj ja0 (Some "#/components/schemas/Item") None [] [] [] None [] [] None [])) [] [] None [].
Definition rd_map (b : bool) : sch31 := if b then [("type", JStr "string")] else [("type", JStr "array"); ("maxItems", JNum 10)].
Definition rd_backend31 : backend bool sch31 :=
  mkBackend (fun b => Ret (rd_map b)) (fun _ => None) (fun s => s) (fun _ _ => Ret None) (fun _ => [("type", JStr "string")]) true.
(* As before, with an empty schema. *)
Definition rd_backend31' : backend bool sch31 :=
  mkBackend (fun b => Ret []) (fun _ => None) (fun s => s) (fun _ _ => Ret None) (fun _ => [("type", JStr "string")]) true.

Definition rd_prop (name cf : string) : prop bool :=
  mkProp true 1 name true false cf false true [] Err (Ret false) (Ret (ex_tags None)).

(* A path parameter id and a query parameter ids, with a collectionFormat. *)
Definition rd_request {Sch} (path_cf query_cf : string) : cunit bool Sch :=
  mkCU false "" "" 0 false "" false None None false false false false false (fun _ => false) (Ret false)
    (fun _ => ([], Err))
    (fun loc => if String.eqb loc "path" then ([EProp (rd_prop "id" path_cf)], Ret false)
                else if String.eqb loc "query" then ([EDef "Item" true; EProp (rd_prop "ids" query_cf)], Ret true)
                else ([], Ret false))
    [] (Ret false) ([], Err) ([], Err).
(* A JSON response with a header. *)
Definition rd_response {Sch} (status : Z) : cunit bool Sch :=
  mkCU false "" "" status false "" false None None false false false false false (fun _ => false) (Ret false)
    (fun _ => ([], Err)) (fun _ => ([], Ret false)) [] (Ret true)
    ([("Out", false)], Ret true) ([rd_prop "X-A" ""], Ret None).

Definition rd_refl30 : refl30 osor := mkRefl30 (mkPaths30 [] JNull) [].
Definition rd_refl31 : refl31 sch31 := mkRefl31 (mkPaths31 None [] JNull) [].
Definition rd_params (path : string) : list string := if String.eqb path "/a/{id}" || String.eqb path "a/{id}" then ["id"] else [].
Definition rd_oc30 (method path : string) req resp : opctx bool osor (responses osor) :=
  mkOC method path req resp zero_op30 (rd_params path).
Definition rd_oc31 (method path : string) req resp : opctx bool sch31 (option (responses sch31)) :=
  mkOC method path req resp zero_op31 (rd_params path).

(* A document with a title and a version. *)
Definition rd_start (version : string) : json :=
  JObj [("openapi", JStr version); ("info", JObj [("title", JStr "T"); ("version", JStr "1")]); ("paths", JObj [])].
Definition rd_base (x : option val) : list val := match x with Some (VStruct l) => l | _ => [] end.
Definition rd_base30 : list val := rd_base (unmarshal T30 idq (TNamed "Spec") (rd_start "3.0.3")).
Definition rd_base31 : list val := rd_base (unmarshal T31 idq (TNamed "Spec") (rd_start "3.1.0")).

Lemma rd_made30 method path req resp oc0 :
  new_context30 (J := bool) rd_refl30 method path = Some oc0 ->
  oc_method oc0 = method -> oc_path oc0 = path -> oc_params oc0 = rd_params path -> made30 (rd_oc30 method path req resp).
Proof. intros H E1 E2 E3. exists rd_refl30, method, path, oc0. cbn [rd_oc30 oc_method oc_path oc_params]. auto. Qed.
Lemma rd_made31 method path req resp r' oc0 :
  new_context31 (J := bool) rd_refl31 method path = (r', Some oc0) ->
  oc_method oc0 = method -> oc_path oc0 = path -> oc_params oc0 = rd_params path -> made31 (rd_oc31 method path req resp).
Proof. intros H E1 E2 E3. exists rd_refl31, r', method, path, oc0. cbn [rd_oc31 oc_method oc_path oc_params]. auto. Qed.
Ltac rd_made := first [eapply rd_made30 | eapply rd_made31]; vm_compute; reflexivity.


Lemma rd_schema_ok rnd b : js_ok rnd (rd_schema b).
Proof.
  assert (I : int64 10 /\ int64 0) by (unfold int64; lia).
  assert (A : forall t, match t with JTNone => True | JTOne s => js_type s | JTMany ts => Forall js_type ts end -> attrs_ok rnd (rd_attrs t)).
  { intros t T. constructor; try (intros a E; first [discriminate E|injection E as <-]); try exact T; try apply I; try (apply Forall_nil).
    apply each_nil. }
  destruct b; cbn [rd_schema]; apply jok_obj; try apply NoDup_nil; try (intros k x I'; destruct I'; fail).
  - apply A. unfold js_type. repeat (apply Forall_cons; [cbn; tauto|]). apply Forall_nil.
  - intros x [].
  - intros x [E|[E|[E|[]]]]; discriminate E.
  - apply A. unfold js_type. cbn. tauto.
  - intros x [].
  - intros x [E|[E|[E|[]]]]; try discriminate E. injection E as <-. apply jok_ref.
Qed.

Lemma rd_op30 rnd : good_op30 rnd (good30 rnd schemav) (good30 rnd schemav) styles30 zero_op30.
Proof.
  split; [apply Forall_nil|]. split; [intros a E; discriminate E|]. split.
  - split; [intros a E; discriminate E|]. split; [apply each_nil|intros k []].
  - split; [apply Forall_nil|]. split; [apply each_nil|]. split; [intros k []|reflexivity].
Qed.
Lemma rd_op31 rnd : good_op31 rnd (good31 rnd) (good_header31 rnd) styles31 zero_op31.
Proof.
  split; [apply Forall_nil|]. split; [intros a E; discriminate E|]. split; [intros a E; discriminate E|].
  split; [apply Forall_nil|]. split; [apply each_nil|]. split; [intros k []|reflexivity].
Qed.

Lemma rd_style {Sch} (B : backend bool Sch) name cf s : style_of B (rd_prop name cf) (Some s) ->
  In cf ["multi"; "csv"] /\ s = "form" \/ cf = "ssv" /\ s = "spaceDelimited" \/ cf = "pipes" /\ s = "pipeDelimited".
Proof.
  intros (t & ds & T & D & E). injection T as <-. destruct D as [(_ & D & _)|(_ & D)]; [discriminate D|].
  assert (X : Some s = option_map fst ds) by (destruct (b_v31 B); exact E). cbn [rd_prop pr_cf] in D.
  inversion D; subst; cbn [option_map fst] in X; try discriminate X; injection X as ->; cbn [In]; tauto.
Qed.
Lemma rd_fields {Sch} (pc qc : string) : param_fields (Sch := Sch) (rd_request pc qc) = [("query", rd_prop "ids" qc); ("path", rd_prop "id" pc)].
Proof. reflexivity. Qed.
Lemma rd_names {Sch} m pc qc st n j : call_def m [rd_request (Sch := Sch) pc qc] [rd_response st] n j -> n = "Item" \/ n = "Out".
Proof.
  intros [(cu & [<-|[]] & D)|(cu & [<-|[]] & D)]; inversion D; subst.
  - cbn [In locations] in *. destruct H1 as [<-|[<-|[<-|[<-|[]]]]]; cbn in H2; try tauto;
      destruct H2 as [E|H2]; try discriminate E; try (injection E as <- _); try tauto. destruct H2 as [E|[]]; discriminate E.
  - rewrite rd_fields in H. destruct H as [E|[E|[]]]; injection E as _ <-; cbn in H1; tauto.
  - discriminate H1.
  - discriminate H1.
  - destruct H2 as [E|[]]. injection E as <- _. auto.
Qed.

Lemma rd_call30 rnd method path qc st : made30 (rd_oc30 method path [rd_request "" qc] [rd_response st]) -> legal PatSlash path ->
  (0 <= st <= 5 \/ 100 <= st <= 599)%Z ->
  good_call30 rnd (good30 rnd schemav) (good30 rnd schemav) styles30 (backend30 rd_schema) (rd_oc30 method path [rd_request "" qc] [rd_response st]).
Proof.
  intros M L S. destruct (backend30_ok rnd rd_schema (rd_schema_ok rnd)) as [GB _]. split; [exact M|]. split; [exact L|]. split; [exact (rd_op30 rnd)|]. split.
  - split; [|split].
    + apply Forall_cons; [|apply Forall_nil]. split; [|discriminate]. intros loc q s I E. rewrite rd_fields in I.
      destruct I as [X|[X|[]]]; injection X as <- <-; apply rd_style in E; cbn [In] in E.
      * destruct E as [(_ & ->)|[(_ & ->)|(_ & ->)]]; cbn; tauto.
      * exfalso. intuition discriminate.
    + apply Forall_cons; [|apply Forall_nil]. split; [right; exact S|]. split; [|discriminate]. intros q s _ _ E. exact (GB _ _ E).
    + intros l1 cu l2 ct E _. split; [discriminate|]. destruct l1 as [|x l1]; [apply Forall_nil|].
      injection E as <- E. destruct l1; discriminate E.
  - intros n j D. apply rd_names in D. destruct D as [-> | ->]; apply matches_legal; reflexivity.
Qed.
Lemma rd_map_ok rnd b : rnd 10%Q = 10%Q -> good31 rnd (rd_map b).
Proof.
  intros T. split; destruct b; cbn [rd_map keys map fst].
  1,2: repeat constructor; cbn [In]; intuition discriminate.
  - intros k x [E|[]]. injection E as _ <-. apply clean_str.
  - intros k x [E|[E|[]]]; injection E as _ <-; [apply clean_str|apply clean_num; exact T].
Qed.
Lemma rd_backend31_ok rnd : rnd 10%Q = 10%Q -> good_backend (good31 rnd) rd_backend31.
Proof.
  intros T. split; [intros j s E; injection E as <-; apply (rd_map_ok rnd _ T)|]. split; [intros s G; exact G|]. intros f. exact (rd_map_ok rnd true T).
Qed.
Lemma rd_call31 rnd hook method path pc qc st : rnd 10%Q = 10%Q -> made31 (rd_oc31 method path [rd_request pc qc] [rd_response st]) ->
  (hook = false -> legal PatSlash path) -> (0 <= st <= 5 \/ 100 <= st <= 599)%Z ->
  good_call31 rnd (good31 rnd) (good_header31 rnd) styles31 rd_backend31 (hook, rd_oc31 method path [rd_request pc qc] [rd_response st]).
Proof.
  intros T M L S. split; [exact M|]. split; [exact L|]. split; [exact (rd_op31 rnd)|].
  split; [|split].
  - apply Forall_cons; [|apply Forall_nil]. split; [|discriminate]. intros loc q s I E. eapply C79_styles; [|exact E]. reflexivity.
  - apply Forall_cons; [|apply Forall_nil]. split; [right; exact S|]. split; [|discriminate]. intros q s _ _ E. injection E as <-.
    split; [|destruct (pr_schema q); discriminate]. apply (rd_map_ok rnd _ T).
  - intros l1 cu l2 ct E _. split; [discriminate|]. destruct l1 as [|x l1]; [apply Forall_nil|].
    injection E as <- E. destruct l1; discriminate E.
Qed.

Example C78_example :
  let calls := [rd_oc30 "get" "/a/{id}" [rd_request "" "multi"] [rd_response 404];
                rd_oc30 "get" "/a/{id}" [rd_request "" ""] [rd_response 200];     (* documented already *)
                rd_oc30 "post" "/b" [rd_request "" "csv"] [rd_response 200];      (* no such placeholder *)
                rd_oc30 "put" "/a/{id}" [rd_request "" "pipes"] [rd_response 5]] in
  (forall b, js_ok idq (rd_schema b)) /\ wf T30 idq derived30 extra30 (TNamed "Spec") (VStruct rd_base30) /\ new30 rd_refl30 /\
  Forall (good_call30 idq (good30 idq schemav) (good30 idq schemav) styles30 (backend30 rd_schema)) calls /\
  let r := rrun30 (backend30 rd_schema) rd_refl30 calls in
  map fst (pi_ops (item30 (r30_paths r) "/a/{id}")) = ["get"; "put"] /\ keys (r30_comps r) = ["Item"; "Out"].
Proof.
  cbv zeta. split; [exact (rd_schema_ok idq)|]. split; [apply wfb30_ok; vm_compute; reflexivity|]. split; [split; reflexivity|].
  split; [|vm_compute; auto].
  repeat (apply Forall_cons; [apply rd_call30; [rd_made|apply matches_legal; reflexivity|lia]|]). apply Forall_nil.
Qed.

Example C79_example :
  let calls := [(false, rd_oc31 "get" "/a/{id}" [rd_request "" "multi"] [rd_response 404]);
                (false, rd_oc31 "get" "/a/{id}" [rd_request "" ""] [rd_response 200]);
                (true, rd_oc31 "post" "/a/{id}" [rd_request "csv" "csv"] [rd_response 200]);
                (false, rd_oc31 "put" "/a/{id}" [rd_request "csv" "pipes"] [rd_response 5])] in
  good_backend (good31 idq) rd_backend31 /\ wf T31 idq derived31 extra31 (TNamed "Spec") (VStruct rd_base31) /\ new31 rd_refl31 /\
  Forall (good_call31 idq (good31 idq) (good_header31 idq) styles31 rd_backend31) calls /\
  let r := rrun31 rd_backend31 rd_refl31 calls in
  option_map keys (sp31_items (r31_paths r)) = Some ["/a/{id}"] /\ keys (sp31_webhooks (r31_paths r)) = ["/a/{id}"].
Proof.
  cbv zeta. split; [exact (rd_backend31_ok idq eq_refl)|]. split; [apply wfb31_ok; vm_compute; reflexivity|]. split; [repeat split; left; reflexivity|].
  split; [|vm_compute; auto].
  repeat (apply Forall_cons; [apply rd_call31; [reflexivity|rd_made|intros _; apply matches_legal; reflexivity|lia]|]). apply Forall_nil.
Qed.

(* ---------- C80: what is accepted can be read ---------- *)

(* The document is written, but not read. *)
Definition rejected30 (rnd : Q -> Q) (v : val) : Prop :=
  exists j, marshal T30 (TNamed "Spec") v = Some j /\ unmarshal T30 rnd (TNamed "Spec") j = None.
Definition rejected31 (rnd : Q -> Q) (v : val) : Prop :=
  exists j, marshal T31 (TNamed "Spec") v = Some j /\ unmarshal T31 rnd (TNamed "Spec") j = None.
(* The document is written and read, but written differently then. *)
Definition changed31 (rnd : Q -> Q) (v : val) : Prop :=
  exists j v' j', marshal T31 (TNamed "Spec") v = Some j /\ unmarshal T31 rnd (TNamed "Spec") j = Some v' /\
    marshal T31 (TNamed "Spec") v' = Some j' /\ j' <> j.

(* One call on an empty reflector, which succeeds. *)
Definition accepted30 (oc : opctx bool osor (responses osor)) (v : val) : Prop :=
  made30 oc /\ oc_op oc = zero_op30 /\ snd (reflector_add30 (backend30 rd_schema) rd_refl30 oc) = AOk /\
  v = document30 schemav rd_base30 (rrun30 (backend30 rd_schema) rd_refl30 [oc]).
Definition accepted31 (B : backend bool sch31) (oc : opctx bool sch31 (option (responses sch31))) (v : val) : Prop :=
  made31 oc /\ oc_op oc = zero_op31 /\ snd (reflector_add31 B rd_refl31 oc) = AOk /\
  v = document31 rd_base31 (rrun31 B rd_refl31 [(false, oc)]).

Ltac rd_rejected := eexists; split; [split; [rd_made|split; [reflexivity|split; [vm_compute; reflexivity|reflexivity]]]|intros rnd; eexists; split; [vm_compute; reflexivity|]; vm_compute; reflexivity].
Ltac rd_changed := eexists; split; [split; [rd_made|split; [reflexivity|split; [vm_compute; reflexivity|reflexivity]]]|intros rnd; do 3 eexists; split; [vm_compute; reflexivity|];
  split; [vm_compute; reflexivity|]; split; [vm_compute; reflexivity|discriminate]].

(* openapi3: a path parameter with a collectionFormat, *)
Theorem C80_refuted_style : exists v,
  accepted30 (rd_oc30 "get" "/a/{id}" [rd_request "csv" ""] [rd_response 200]) v /\ forall rnd, rejected30 rnd v.
Proof. rd_rejected. Qed.

(* a status that is none of HTTP, *)
Theorem C80_refuted_status : exists v,
  accepted30 (rd_oc30 "get" "/a/{id}" [rd_request "" ""] [rd_response 600]) v /\ forall rnd, rejected30 rnd v.
Proof. rd_rejected. Qed.

(* a path without a slash at the start. *)
Theorem C80_refuted_path : exists v,
  accepted30 (rd_oc30 "get" "a/{id}" [rd_request "" ""] [rd_response 200]) v /\ forall rnd, rejected30 rnd v.
Proof. rd_rejected. Qed.

(* openapi31: a status and a path as above, a header without a type. *)
Theorem C80_refuted_status_31 : exists v,
  accepted31 rd_backend31 (rd_oc31 "get" "/a/{id}" [rd_request "" ""] [rd_response 600]) v /\ forall rnd, changed31 rnd v.
Proof. rd_changed. Qed.
Theorem C80_refuted_path_31 : exists v,
  accepted31 rd_backend31 (rd_oc31 "get" "a/{id}" [rd_request "" ""] [rd_response 200]) v /\ forall rnd, changed31 rnd v.
Proof. rd_changed. Qed.
Theorem C80_refuted_header_31 : exists v,
  accepted31 rd_backend31' (rd_oc31 "get" "/a/{id}" [rd_request "" ""] [rd_response 200]) v /\ forall rnd, rejected31 rnd v.
Proof. rd_rejected. Qed.

(* ---------- C81: styles suit the place of a parameter ---------- *)

(* Of query parameters without a style of their own, for both packages. *)
Theorem C81_query_partial : forall (J Sch : Type) (B : backend J Sch) cl v,
  documented B cl v ->
  (forall q t, In ("query", q) (flat_map param_fields (c_req cl)) -> pr_tags q = Ret t -> t_style t = None) ->
  forall x p, In x (vw_params v) -> ~ In x (vw_params (c_view cl)) -> por_param x = Some p -> p_in p = "query" ->
  if_some (fun s => In s (styles30 "query")) (p_style p).
Proof.
  intros J Sch B cl v D NS x p I N E P s ES. destruct (C22_parameters J Sch B cl v D) as (new & EQ & F & _).
  rewrite EQ in I. apply in_app_iff in I. destruct I as [I|I]; [contradiction|].
  assert (X : exists f, In f (flat_map param_fields (c_req cl)) /\ renders B f x).
  { clear - F I. induction F as [|f y fs ys R F IH]; [destruct I|]. destruct I as [<-|I].
    - exists f. split; [left; reflexivity|exact R].
    - destruct (IH I) as (g & Ig & R'). exists g. split; [right; exact Ig|exact R']. }
  destruct X as ([loc q] & If & (p' & t & ds & -> & T & DS & EI & _ & _ & _ & _ & ST & _)). injection E as ->. cbn [fst snd] in *.
  rewrite P in EI. subst loc. rewrite (NS q t If T) in ST. rewrite ES in ST.
  assert (Y : Some s = option_map fst ds) by (destruct (b_v31 B); exact ST). clear ST. cbn [styles30 String.eqb Ascii.eqb Bool.eqb].
  destruct DS as [(_ & _ & ->)|(_ & A)]; [injection Y as ->; cbn; tauto|].
  inversion A; subst; cbn [option_map fst] in Y; try discriminate Y; injection Y as ->; cbn; tauto.
Qed.

Example C81_example : exists cl v x p, documented (ex_backend false) cl v /\
  (forall q t, In ("query", q) (flat_map param_fields (c_req cl)) -> pr_tags q = Ret t -> t_style t = None) /\
  In x (vw_params v) /\ ~ In x (vw_params (c_view cl)) /\ por_param x = Some p /\ p_in p = "query" /\ p_style p = Some "form".
Proof.
  eexists. eexists. eexists. eexists. split; [apply (ex_doc30 _ (ex_oc30 "get" "/a/{id}" [ex_request] [])); [ex_made|vm_compute; reflexivity|vm_compute; reflexivity]|].
  split; [|split; [left; reflexivity|split; [intros []|repeat split]]].
  intros q t I T. cbn in I. destruct I as [E|[E|[E|[]]]]; try discriminate E; injection E as <-; injection T as <-; reflexivity.
Qed.

(* Not of path parameters. *)
Theorem C81_refuted_30 : exists oc o x p, made30 oc /\ snd (reflector_add30 (backend30 rd_schema) rd_refl30 oc) = AOk /\
  doc30 (r30_paths (fst (fst (reflector_add30 (backend30 rd_schema) rd_refl30 oc)))) (oc_path oc) (oc_method oc) = Some o /\
  op_params (oc_op oc) = [] /\ In x (op_params o) /\ por_param x = Some p /\
  (forall q t, In ("path", q) (flat_map param_fields (oc_req oc)) -> pr_tags q = Ret t -> t_style t = None) /\
  p_in p = "path" /\ p_style p = Some "form" /\ ~ In "form" (styles30 "path").
Proof.
  exists (rd_oc30 "get" "/a/{id}" [rd_request "csv" ""] [rd_response 200]). eexists _, _, _.
  split; [rd_made|]. split; [vm_compute; reflexivity|]. split; [vm_compute; reflexivity|]. split; [reflexivity|].
  split; [right; left; reflexivity|]. split; [reflexivity|]. split; [|split; [reflexivity|split; [reflexivity|cbn; intuition discriminate]]].
  cbn [oc_req rd_oc30 flat_map app]. rewrite rd_fields. intros q t [E|[E|[]]] T; try discriminate E; injection E as <-; injection T as <-; reflexivity.
Qed.

Theorem C81_refuted_31 : exists oc o x p, made31 oc /\ snd (reflector_add31 rd_backend31 rd_refl31 oc) = AOk /\
  doc31 (r31_paths (fst (fst (reflector_add31 rd_backend31 rd_refl31 oc)))) (oc_path oc) (oc_method oc) = Some o /\
  op_params (oc_op oc) = [] /\ In x (op_params o) /\ por_param x = Some p /\
  (forall q t, In ("path", q) (flat_map param_fields (oc_req oc)) -> pr_tags q = Ret t -> t_style t = None) /\
  p_in p = "path" /\ p_style p = Some "form" /\ ~ In "form" (styles30 "path").
Proof.
  exists (rd_oc31 "get" "/a/{id}" [rd_request "csv" ""] [rd_response 200]). eexists _, _, _.
  split; [rd_made|]. split; [vm_compute; reflexivity|]. split; [vm_compute; reflexivity|]. split; [reflexivity|].
  split; [right; left; reflexivity|]. split; [reflexivity|]. split; [|split; [reflexivity|split; [reflexivity|cbn; intuition discriminate]]].
  cbn [oc_req rd_oc31 flat_map app]. rewrite rd_fields. intros q t [E|[E|[]]] T; try discriminate E; injection E as <-; injection T as <-; reflexivity.
Qed.

(* ---------- assumptions ---------- *)

Print Assumptions C78_readable.
Print Assumptions C78_reflected.
Print Assumptions C78_schema.
Print Assumptions C78_style_tag.
Print Assumptions C79_readable.
Print Assumptions C79_styles.
Print Assumptions C80_refuted_style.
Print Assumptions C80_refuted_status.
Print Assumptions C80_refuted_path.
Print Assumptions C80_refuted_status_31.
Print Assumptions C80_refuted_path_31.
Print Assumptions C80_refuted_header_31.
Print Assumptions C81_query_partial.
Print Assumptions C81_refuted_30.
Print Assumptions C81_refuted_31.
