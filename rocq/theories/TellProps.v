(* Theorems about the schemas that the walkers give to their callbacks
   (property C100).  [schema]: the JSON schema that the reflection library
   reports, [D]: its definitions, [ens]: whether the document had a map of
   components before; [decode], [nil_map]: how 3.1 reads a map back as a schema. *)
From Coq Require Import ZArith Permutation.
From Verif Require Import Str SMap Json SchemaModel SchemaSpec SchemaRefs SchemaRefs2 Types RegistryModel ReflectModel ReflectSpec ReadModel BodySpec
  WalkModel WalkSpec WalkProofs WalkProofs2 TellModel TellSpec TellSchemas TellMeans TellProofs.
From Verif Require SchemaProps.
Notation ex_oracle := SchemaProps.ex_oracle.

(* Schemas that OpenAPI 3.0 can express. *)
Definition says30 {J} (schema : J -> jsob) (j : J) : Prop := expressible (schema j).
(* 3.1 keeps JSON schemas as they are. *)
Definition keeps31 {J Sch} (B : backend J Sch) (schema : J -> jsob) (decode : Sch -> option jsob) : Prop :=
  (forall s, b_unnull B s = s) /\ (forall j s, b_conv B j = Ret s -> decode s = Some (schema j)).
Definition any_schema {J} (_ : J) : Prop := True.
Definition no_references (nil_map : option jsob) : Prop := forall s, nil_map = Some s -> jrefs s = [].

(* ---------- parameters ---------- *)

Theorem C100_parameters30 : forall (J : Type) (schema : J -> jsob) D ens range, iterates range ->
  forall cb (R : Type) (zero : operation osor R), fresh_op zero -> forall c method m cu done evs res c',
  http_method method m -> represents (backend30 schema) (says30 schema) D c -> reports_request (says30 schema) D m cu ->
  walk_request (backend30 schema) (to_json30 ens) range cb R zero c method cu done = (c', (evs, res)) ->
  exists pk bk n, calls_of evs = pk ++ bk /\
    Forall2 (field_told schema (says30 schema) D non_null c') (firstn n (param_fields cu)) pk /\
    (bk <> [] \/ res = WOk -> firstn n (param_fields cu) = param_fields cu) /\
    (forall k, In k bk -> k_in k = "body" \/ k_in k = "formData").
Proof.
  intros J schema D ens range RG cb R zero Z c method m cu done evs res c' HM RP RR W.
  exact (parameters_told (backend30 schema) schema (says30 schema) D non_null (to_json30 ens) (told30 schema D ens) (unnull_told30 schema D ens)
    range RG cb R zero Z c method m cu done HM RP RR evs res c' W).
Qed.

Theorem C100_parameters31 : forall (J Sch : Type) (B : backend J Sch) schema D ens decode nil_map,
  keeps31 B schema decode -> no_references nil_map -> forall range, iterates range ->
  forall cb (R : Type) (zero : operation Sch R), fresh_op zero -> forall c method m cu done evs res c',
  http_method method m -> represents B any_schema D c -> reports_request any_schema D m cu ->
  walk_request B (to_json31 decode nil_map ens) range cb R zero c method cu done = (c', (evs, res)) ->
  exists pk bk n, calls_of evs = pk ++ bk /\
    Forall2 (field_told schema any_schema D all_values c') (firstn n (param_fields cu)) pk /\
    (bk <> [] \/ res = WOk -> firstn n (param_fields cu) = param_fields cu) /\
    (forall k, In k bk -> k_in k = "body" \/ k_in k = "formData").
Proof.
  intros J Sch B schema D ens decode nil_map [U DC] NM range RG cb R zero Z c method m cu done evs res c' HM RP RR W.
  exact (parameters_told B schema any_schema D all_values (to_json31 decode nil_map ens) (told31 B schema D ens decode nil_map NM DC)
    (unnull_told31 B schema D ens decode nil_map NM U DC) range RG cb R zero Z c method m cu done HM RP RR evs res c' W).
Qed.

(* ---------- JSON bodies ---------- *)

Theorem C100_body30 : forall (J : Type) (schema : J -> jsob) D ens range, iterates range ->
  forall cb (R : Type) (zero : operation osor R), fresh_op zero -> forall c method m cu done evs c',
  http_method method m -> represents (backend30 schema) (says30 schema) D c -> reports_request (says30 schema) D m cu ->
  cu_custom_req cu = None -> In (cu_ctype cu) [""; "application/json"] -> wants_json m cu ->
  (cu_ctype cu = "" -> cu_nil cu = false -> ~ In "application/json" (v_content_tags cu)) ->
  walk_request (backend30 schema) (to_json30 ens) range cb R zero c method cu done = (c', (evs, WOk)) ->
  exists j defs x, snd (v_body cu "json") = Ret (j, defs) /\ calls_in "body" (calls_of evs) = [mkSCall "body" "body" (Some x) false] /\
    (expressible (schema j) -> tells (env schema D c') (schema j) x).
Proof.
  intros J schema D ens range RG cb R zero Z c method m cu done evs c' HM RP RR NC IC WJ NT W.
  exact (body_told (backend30 schema) schema (says30 schema) D (to_json30 ens) (told30 schema D ens)
    range RG cb R zero Z c method m cu done HM RP RR NC c' evs W IC WJ NT).
Qed.

Theorem C100_body31 : forall (J Sch : Type) (B : backend J Sch) schema D ens decode nil_map,
  keeps31 B schema decode -> no_references nil_map -> forall range, iterates range ->
  forall cb (R : Type) (zero : operation Sch R), fresh_op zero -> forall c method m cu done evs c',
  http_method method m -> represents B any_schema D c -> reports_request any_schema D m cu ->
  cu_custom_req cu = None -> In (cu_ctype cu) [""; "application/json"] -> wants_json m cu ->
  (cu_ctype cu = "" -> cu_nil cu = false -> ~ In "application/json" (v_content_tags cu)) ->
  walk_request B (to_json31 decode nil_map ens) range cb R zero c method cu done = (c', (evs, WOk)) ->
  exists j defs x, snd (v_body cu "json") = Ret (j, defs) /\ calls_in "body" (calls_of evs) = [mkSCall "body" "body" (Some x) false] /\
    tells (env schema D c') (schema j) x.
Proof.
  intros J Sch B schema D ens decode nil_map [U DC] NM range RG cb R zero Z c method m cu done evs c' HM RP RR NC IC WJ NT W.
  destruct (body_told B schema any_schema D (to_json31 decode nil_map ens) (told31 B schema D ens decode nil_map NM DC)
    range RG cb R zero Z c method m cu done HM RP RR NC c' evs W IC WJ NT) as (j & defs & x & H1 & H2 & H3).
  exists j, defs, x. split; [exact H1|]. split; [exact H2|]. apply H3. exact I.
Qed.

(* ---------- forms ---------- *)

Theorem C100_form30 : forall (J : Type) (schema : J -> jsob) D ens range, iterates range ->
  forall cb (R : Type) (zero : operation osor R), fresh_op zero -> forall c method m cu done evs c',
  http_method method m -> represents (backend30 schema) (says30 schema) D c -> reports_request (says30 schema) D m cu ->
  cu_custom_req cu = None -> In (cu_ctype cu) [""; "application/x-www-form-urlencoded"; "multipart/form-data"] ->
  wants_form m cu -> ~ has_file cu ->
  (cu_ctype cu = "" -> cu_nil cu = false -> ~ In "application/x-www-form-urlencoded" (v_content_tags cu)) ->
  walk_request (backend30 schema) (to_json30 ens) range cb R zero c method cu done = (c', (evs, WOk)) ->
  exists j defs, snd (v_body cu "formData") = Ret (j, defs) /\
    forall t fields required extra, expressible (schema j) -> form_schema schema D c' j t -> form_of t fields required extra ->
      exists l, Forall2 (form_field_told schema D c' required) fields l /\ Permutation l (calls_in "formData" (calls_of evs)).
Proof.
  intros J schema D ens range RG cb R zero Z c method m cu done evs c' HM RP RR NC IC WF NF NT W.
  exact (fields_told (backend30 schema) schema (says30 schema) D (to_json30 ens) (form_told30 schema D ens)
    range RG cb R zero Z c method m cu done HM RP RR NC c' evs W IC WF NF NT).
Qed.

Theorem C100_form31 : forall (J Sch : Type) (B : backend J Sch) schema D ens decode nil_map,
  keeps31 B schema decode -> no_references nil_map -> forall range, iterates range ->
  forall cb (R : Type) (zero : operation Sch R), fresh_op zero -> forall c method m cu done evs c',
  http_method method m -> represents B any_schema D c -> reports_request any_schema D m cu ->
  cu_custom_req cu = None -> In (cu_ctype cu) [""; "application/x-www-form-urlencoded"; "multipart/form-data"] ->
  wants_form m cu -> ~ has_file cu ->
  (cu_ctype cu = "" -> cu_nil cu = false -> ~ In "application/x-www-form-urlencoded" (v_content_tags cu)) ->
  walk_request B (to_json31 decode nil_map ens) range cb R zero c method cu done = (c', (evs, WOk)) ->
  exists j defs, snd (v_body cu "formData") = Ret (j, defs) /\
    forall t fields required extra, form_schema schema D c' j t -> form_of t fields required extra ->
      exists l, Forall2 (form_field_told schema D c' required) fields l /\ Permutation l (calls_in "formData" (calls_of evs)).
Proof.
  intros J Sch B schema D ens decode nil_map [U DC] NM range RG cb R zero Z c method m cu done evs c' HM RP RR NC IC WF NF NT W.
  destruct (fields_told B schema any_schema D (to_json31 decode nil_map ens) (form_told31 B schema D ens decode nil_map NM DC)
    range RG cb R zero Z c method m cu done HM RP RR NC c' evs W IC WF NF NT) as (j & defs & H1 & H2).
  exists j, defs. split; [exact H1|]. intros t fields required extra. apply H2. exact I.
Qed.

(* ---------- responses ---------- *)

(* The JSON body of a response; the only body call if there are no contentType tags. *)
Theorem C100_response30 : forall (J : Type) (schema : J -> jsob) D ens range, iterates range ->
  forall cb c cu done evs c' ct,
  represents (backend30 schema) (says30 schema) D c -> reports_response (says30 schema) D cu ->
  cu_default cu = false -> cu_custom_resp cu = None -> json_shown cu ct -> ~ tag_shown cu ct ->
  walk_response (backend30 schema) (to_json30 ens) range cb c cu done = (c', (evs, WOk)) ->
  exists j x, snd (v_json cu) = Ret j /\ In (mkSCall "body" "body" (Some x) false) (calls_of evs) /\
    (v_content_tags cu = [] -> calls_in "body" (calls_of evs) = [mkSCall "body" "body" (Some x) false]) /\
    (expressible (schema j) -> tells_of non_null (env schema D c') (schema j) x).
Proof.
  intros J schema D ens range RG cb c cu done evs c' ct RP RR ND NC JS NT W.
  exact (response_body_told (backend30 schema) schema (says30 schema) D non_null (to_json30 ens) (unnull_told30 schema D ens)
    range RG cb c cu done RP RR ND NC c' evs ct W JS NT).
Qed.

Theorem C100_response31 : forall (J Sch : Type) (B : backend J Sch) schema D ens decode nil_map,
  keeps31 B schema decode -> no_references nil_map -> forall range, iterates range ->
  forall cb c cu done evs c' ct,
  represents B any_schema D c -> reports_response any_schema D cu ->
  cu_default cu = false -> cu_custom_resp cu = None -> json_shown cu ct -> ~ tag_shown cu ct ->
  walk_response B (to_json31 decode nil_map ens) range cb c cu done = (c', (evs, WOk)) ->
  exists j x, snd (v_json cu) = Ret j /\ In (mkSCall "body" "body" (Some x) false) (calls_of evs) /\
    (v_content_tags cu = [] -> calls_in "body" (calls_of evs) = [mkSCall "body" "body" (Some x) false]) /\
    tells (env schema D c') (schema j) x.
Proof.
  intros J Sch B schema D ens decode nil_map [U DC] NM range RG cb c cu done evs c' ct RP RR ND NC JS NT W.
  destruct (response_body_told B schema any_schema D all_values (to_json31 decode nil_map ens)
    (unnull_told31 B schema D ens decode nil_map NM U DC) range RG cb c cu done RP RR ND NC c' evs ct W JS NT) as (j & x & H1 & H2 & H3 & H4).
  exists j, x. split; [exact H1|]. split; [exact H2|]. split; [exact H3|]. apply H4. exact I.
Qed.

(* The headers of a response: one call per name. *)
Theorem C100_headers30 : forall (J : Type) (schema : J -> jsob) D ens range, iterates range ->
  forall cb c cu done evs c',
  represents (backend30 schema) (says30 schema) D c -> reports_response (says30 schema) D cu ->
  cu_default cu = false -> cu_custom_resp cu = None -> cu_nil cu = false ->
  walk_response (backend30 schema) (to_json30 ens) range cb c cu done = (c', (evs, WOk)) ->
  (forall n q, last_named (fst (v_headers cu)) n q ->
     exists k, In k (calls_in "header" (calls_of evs)) /\ header_told schema (says30 schema) D c' n q k) /\
  (forall k, In k (calls_in "header" (calls_of evs)) ->
     exists n q, last_named (fst (v_headers cu)) n q /\ header_told schema (says30 schema) D c' n q k) /\
  (forall names, NoDup names -> (forall n, In n names <-> exists q, last_named (fst (v_headers cu)) n q) ->
     List.length (calls_in "header" (calls_of evs)) = List.length names).
Proof.
  intros J schema D ens range RG cb c cu done evs c' RP RR ND NC CN W.
  exact (response_headers_told (backend30 schema) schema (says30 schema) D (to_json30 ens) (told30 schema D ens)
    range RG cb c cu done RP RR ND NC c' evs W CN).
Qed.

Theorem C100_headers31 : forall (J Sch : Type) (B : backend J Sch) schema D ens decode nil_map,
  keeps31 B schema decode -> no_references nil_map -> forall range, iterates range ->
  forall cb c cu done evs c',
  represents B any_schema D c -> reports_response any_schema D cu ->
  cu_default cu = false -> cu_custom_resp cu = None -> cu_nil cu = false ->
  walk_response B (to_json31 decode nil_map ens) range cb c cu done = (c', (evs, WOk)) ->
  (forall n q, last_named (fst (v_headers cu)) n q ->
     exists k, In k (calls_in "header" (calls_of evs)) /\ header_told schema any_schema D c' n q k) /\
  (forall k, In k (calls_in "header" (calls_of evs)) ->
     exists n q, last_named (fst (v_headers cu)) n q /\ header_told schema any_schema D c' n q k) /\
  (forall names, NoDup names -> (forall n, In n names <-> exists q, last_named (fst (v_headers cu)) n q) ->
     List.length (calls_in "header" (calls_of evs)) = List.length names).
Proof.
  intros J Sch B schema D ens decode nil_map [U DC] NM range RG cb c cu done evs c' RP RR ND NC CN W.
  exact (response_headers_told B schema any_schema D (to_json31 decode nil_map ens) (told31 B schema D ens decode nil_map NM DC)
    range RG cb c cu done RP RR ND NC c' evs W CN).
Qed.

(* ---------- one walk after another ---------- *)

(* A walk, however it ends, leaves components that are conversions of
   definitions, as the theorems above need. *)
Theorem C100_walks_again : forall (J Sch : Type) (B : backend J Sch) ok D to_json range cb (c : comps Sch) cu done, represents B ok D c ->
  (forall (R : Type) (zero : operation Sch R) method m, http_method method m -> reports_request ok D m cu ->
     represents B ok D (fst (walk_request B to_json range cb R zero c method cu done))) /\
  (reports_response ok D cu -> represents B ok D (fst (walk_response B to_json range cb c cu done))).
Proof.
  intros J Sch B ok D to_json range cb c cu done RP. split.
  - intros R zero method m HM RR. destruct (walk_request B to_json range cb R zero c method cu done) as [c' r] eqn:W.
    exact (walk_represents B ok D to_json range cb R zero c method m cu done HM RP RR c' r W).
  - intros RR. destruct (walk_response B to_json range cb c cu done) as [c' r] eqn:W.
    exact (rwalk_represents B ok D to_json range cb c cu done RP RR c' r W).
Qed.

(* ---------- example data ---------- *)

Definition tx_attrs (t : jtype) (required : list string) : jattrs :=
  mkJA None None None t None None None None None None 0 None None 0 None None 0 required [] None None [] None None None [] [].
Definition tx_text : jsob := JSObj (tx_attrs (JTOne "string") []) None None [] [] [] None [] [] None [].
Definition tx_text_or_null : jsob := JSObj (tx_attrs (JTMany ["null"; "string"]) []) None None [] [] [] None [] [] None [].
Definition tx_ref (n : string) : jsob := JSObj ja0 (Some (local n)) None [] [] [] None [] [] None [].
Definition tx_object (required : list string) (props : smap jsob) : jsob :=
  JSObj (tx_attrs (JTOne "object") required) None None [] [] [] None [] props None [].
(* A form with a text and a tag, a list that may go on. *)
Definition tx_schema (j : string) : jsob :=
  match j with
  | "form" => tx_ref "Form"
  | "Form" => tx_object ["a"] [("a", tx_text_or_null); ("tag", tx_ref "Tag")]
  | "Tag" => tx_text
  | "node" => tx_ref "Node"
  | "Node" => tx_object [] [("next", tx_ref "Node")]
  | _ => tx_text_or_null
  end.
Definition tx_D (n : string) : option string := if mem n ["Form"; "Tag"; "Node"] then Some n else None.
Definition tx_backend31 : backend string jsob :=
  mkBackend (fun j => Ret (tx_schema j)) (fun _ => None) (fun s => s) (fun _ _ => Ret None) (fun _ => tx_text) true.
Definition tx_json31 := to_json31 (@Some jsob) (Some (JSObj ja0 None None [] [] [] None [] [] None [])) false.

Definition tx_prop (name : string) : prop string :=
  mkProp true 1 name name false "" false true [] Err (Ret false) (Ret (mkTags None None None None None None None None)).
Definition tx_request {Sch} (j : string) (defs : list (string * string)) : cunit string Sch :=
  mkCU false "" "" 0 false "" false None None false false false false false
    (fun t => String.eqb t "formData") (Ret false) (fun _ => ([], Ret (j, defs)))
    (fun loc => if String.eqb loc "query" then ([EProp (tx_prop "q")], Ret false) else ([], Ret false))
    [] (Ret false) ([], Err) ([], Err).
Definition tx_form {Sch} : cunit string Sch := tx_request "form" [("Form", "Form"); ("Tag", "Tag")].
Definition tx_list {Sch} : cunit string Sch := tx_request "node" [("Node", "Node")].
Definition tx_response {Sch} : cunit string Sch :=
  mkCU false "" "" 0 false "" false None None false false false false false (fun _ => false) (Ret false)
    (fun _ => ([], Err)) (fun _ => ([], Ret false)) [] (Ret true)
    ([("Node", "Node")], Ret "node") ([tx_prop "x-next-page"], Ret None).

Ltac tx_kids := try (intros k s X; destruct X; fail); try (intros s X; first [discriminate X|destruct X; fail]).
Lemma tx_expressible j : expressible (tx_schema j).
Proof.
  assert (T : forall t rq, exp_type t -> exp_attrs (tx_attrs t rq)) by (intros t rq H; split; [exact H|]; split; [exact I|]; split; [exact I|reflexivity]).
  assert (N : expressible tx_text_or_null).
  { apply exp_obj; tx_kids. apply T.
    exists "string". split; [discriminate|]. split; [right; left; reflexivity|]. intros u [<-|[<-|[]]]; auto. }
  assert (Y : expressible tx_text) by (apply exp_obj; tx_kids; apply T; discriminate).
  unfold tx_schema.
  repeat match goal with |- context [match ?x with _ => _ end] => destruct x end; try exact N; try exact Y; try apply exp_ref.
  all: apply exp_obj; tx_kids; try (apply T; discriminate).
  - intros k s [E|[]]; injection E as _ <-. apply exp_ref.
  - intros k s [E|[E|[]]]; injection E as _ <-; [exact N|apply exp_ref].
Qed.

Lemma tx_reports {Sch} (ok : string -> Prop) j defs : (forall j, ok j) -> (forall n k, In (n, k) defs -> tx_D n = Some k) ->
  reports_request ok tx_D "post" (tx_request (Sch := Sch) j defs).
Proof.
  intros O H n k Q. split; [|apply O]. destruct Q as [loc n k _ _ Il Ie|loc q n k Ip JE Id|n k j0 d _ _ E Id|n k j0 d _ _ E Id].
  - cbn [tx_request v_params fst] in Ie. destruct (String.eqb loc "query"); [destruct Ie as [Ie|[]]; discriminate|destruct Ie].
  - destruct Ip as [Ip|[]]. injection Ip as <- <-. destruct Id.
  - cbn [tx_request v_body snd] in E. injection E as <- <-. auto.
  - cbn [tx_request v_body snd] in E. injection E as <- <-. auto.
Qed.
Lemma tx_form_defs n k : In (n, k) [("Form", "Form"); ("Tag", "Tag")] -> tx_D n = Some k.
Proof. intros [E|[E|[]]]; injection E as <- <-; reflexivity. Qed.
Lemma tx_list_defs n k : In (n, k) [("Node", "Node")] -> tx_D n = Some k.
Proof. intros [E|[]]; injection E as <- <-; reflexivity. Qed.
Lemma tx_wants {Sch} j defs : wants_form "post" (tx_request (Sch := Sch) j defs).
Proof. split; [left; unfold bodyless; intuition discriminate|]. left. reflexivity. Qed.

(* The fields of a form whose definition refers to itself are not visited. *)
Theorem C100_recursive_form30_refuted : exists (J : Type) (schema : J -> jsob) D ens range cb (zero : op30 osor) c cu c' evs j defs n t fields required extra,
  iterates range /\ fresh_op zero /\ represents (backend30 schema) (says30 schema) D c /\ reports_request (says30 schema) D "post" cu /\
  cu_custom_req cu = None /\ wants_form "post" cu /\ ~ has_file cu /\
  walk_request (backend30 schema) (to_json30 ens) range cb (responses osor) zero c "POST" cu true = (c', (evs, WOk)) /\
  snd (v_body cu "formData") = Ret (j, defs) /\ schema j = tx_ref n /\ env schema D c' n = Some t /\
  form_of t fields required extra /\ fields <> [] /\ calls_in "formData" (calls_of evs) = [].
Proof.
  exists string, tx_schema, tx_D, false, (fun A m => m), (fun _ _ => CNil), zero_op30, [], tx_list. do 9 eexists.
  split; [intros A m; apply Permutation_refl|]. split; [split; reflexivity|]. split; [intros n s E; discriminate|].
  split; [apply tx_reports; [exact tx_expressible|exact tx_list_defs]|]. split; [reflexivity|]. split; [apply tx_wants|].
  split; [intros [[]|[]]|]. split; [vm_compute; reflexivity|]. split; [reflexivity|]. split; [reflexivity|].
  split; [vm_compute; reflexivity|]. split; [apply fo_obj|]. split; [discriminate|]. vm_compute. reflexivity.
Qed.

Theorem C100_recursive_form31_refuted : exists (J Sch : Type) (B : backend J Sch) schema D ens decode nil_map range cb (zero : op31 Sch) c cu c' evs
  j defs n t fields required extra,
  keeps31 B schema decode /\ no_references nil_map /\
  iterates range /\ fresh_op zero /\ represents B any_schema D c /\ reports_request any_schema D "post" cu /\
  cu_custom_req cu = None /\ wants_form "post" cu /\ ~ has_file cu /\
  walk_request B (to_json31 decode nil_map ens) range cb (option (responses Sch)) zero c "POST" cu true = (c', (evs, WOk)) /\
  snd (v_body cu "formData") = Ret (j, defs) /\ schema j = tx_ref n /\ env schema D c' n = Some t /\
  form_of t fields required extra /\ fields <> [] /\ calls_in "formData" (calls_of evs) = [].
Proof.
  exists string, jsob, tx_backend31, tx_schema, tx_D, false, (@Some jsob), (Some (JSObj ja0 None None [] [] [] None [] [] None [])),
    (fun A m => m), (fun _ _ => CNil), zero_op31, [], tx_list. do 9 eexists.
  split; [split; [reflexivity|intros j s E; injection E as <-; reflexivity]|]. split; [intros s E; injection E as <-; reflexivity|].
  split; [intros A m; apply Permutation_refl|]. split; [split; reflexivity|]. split; [intros n s E; discriminate|].
  split; [apply tx_reports; [exact (fun _ => I)|exact tx_list_defs]|]. split; [reflexivity|]. split; [apply tx_wants|].
  split; [intros [[]|[]]|]. split; [vm_compute; reflexivity|]. split; [reflexivity|]. split; [reflexivity|].
  split; [vm_compute; reflexivity|]. split; [apply fo_obj|]. split; [discriminate|]. vm_compute. reflexivity.
Qed.

Ltac tx_child C := inversion C; subst; cbn [In] in *;
  repeat match goal with H : _ \/ _ |- _ => destruct H | H : False |- _ => destruct H | H : (_, _) = (_, _) |- _ => injection H as <- <- end.
Lemma tx_text_mentions n : ~ jmentions n tx_text.
Proof. intros M. inversion M as [|s t C K]; subst. tx_child C. Qed.
Lemma tx_null_mentions n : ~ jmentions n tx_text_or_null.
Proof. intros M. inversion M as [|s t C K]; subst. tx_child C. Qed.
Lemma tx_ref_mentions n k : jmentions n (tx_ref k) -> n = k.
Proof.
  intros M. inversion M as [|s t C K]; subst; [|tx_child C]. apply local_inj. congruence.
Qed.
Lemma tx_form_reach {Sch} (c : comps Sch) n : get "Tag" c <> None -> reachable jmentions (env tx_schema tx_D c) (tx_schema "Form") n -> n = "Tag".
Proof.
  intros G R. induction R as [n M|n d t R IH E M].
  - inversion M as [|s t C K]; subst. tx_child C; [exfalso; exact (tx_null_mentions n K)|exact (tx_ref_mentions n "Tag" K)].
  - subst d. unfold env in E. destruct (get "Tag" c); [|congruence]. injection E as <-. destruct (tx_text_mentions n M).
Qed.

Definition tx_told (k : scall) : string * string * bool := (k_in k, k_name k, k_required k).

(* A form with a text that may be null and a tag, next to a query parameter. *)
Example C100_form30_case : exists c' evs,
  http_method "POST" "post" /\ represents (backend30 tx_schema) (says30 tx_schema) tx_D [] /\
  reports_request (says30 tx_schema) tx_D "post" (tx_form (Sch := osor)) /\
  walk_request (backend30 tx_schema) (to_json30 false) (fun A m => m) (fun _ _ => CNil) (responses osor) zero_op30 [] "POST" tx_form true
    = (c', (evs, WOk)) /\
  map tx_told (calls_of evs) = [("query", "q", false); ("formData", "a", true); ("formData", "tag", false)] /\
  snd (v_body (tx_form (Sch := osor)) "formData") = Ret ("form", [("Form", "Form"); ("Tag", "Tag")]) /\
  says30 tx_schema "form" /\ form_schema tx_schema tx_D c' "form" (tx_schema "Form") /\
  form_of (tx_schema "Form") [("a", tx_text_or_null); ("tag", tx_ref "Tag")] ["a"] [] /\
  wants_form "post" (tx_form (Sch := osor)) /\ ~ has_file (tx_form (Sch := osor)) /\
  jsays ex_oracle (env tx_schema tx_D c') (tx_ref "Tag") (JStr "x") true.
Proof.
  eexists. eexists. split; [right; right; left; reflexivity|]. split; [intros n s E; discriminate|].
  split; [apply tx_reports; [exact tx_expressible|exact tx_form_defs]|]. split; [vm_compute; reflexivity|].
  split; [vm_compute; reflexivity|]. split; [reflexivity|]. split; [exact (tx_expressible "form")|]. split.
  { eapply fs_ref; [reflexivity|discriminate|reflexivity|]. intros R. apply tx_form_reach in R; discriminate. }
  split; [apply fo_obj|]. split; [apply tx_wants|]. split; [intros [[]|[]]|].
  exists 2. vm_compute. reflexivity.
Qed.

(* A JSON body that is a list of nodes, next to a query parameter. *)
Definition tx_body {Sch} : cunit string Sch :=
  mkCU false "" "" 0 false "" false None None false false false false false
    (fun t => String.eqb t "json") (Ret false) (fun _ => ([], Ret ("node", [("Node", "Node")])))
    (fun loc => if String.eqb loc "query" then ([EProp (tx_prop "q")], Ret false) else ([], Ret false))
    [] (Ret false) ([], Err) ([], Err).

Example C100_body31_case : exists c' evs,
  keeps31 tx_backend31 tx_schema (@Some jsob) /\ no_references (Some (JSObj ja0 None None [] [] [] None [] [] None [])) /\
  reports_request any_schema tx_D "put" (tx_body (Sch := jsob)) /\ wants_json "put" (tx_body (Sch := jsob)) /\
  walk_request tx_backend31 tx_json31 (fun A m => m) (fun _ _ => CNil) (option (responses jsob)) zero_op31 [] "PUT" tx_body true
    = (c', (evs, WOk)) /\
  calls_of evs = [mkSCall "query" "q" (Some (JsObj tx_text_or_null [])) false;
                  mkSCall "body" "body" (Some (JsObj (tx_ref "Node") [("Node", tx_schema "Node")])) false] /\
  jsays ex_oracle (env tx_schema tx_D c') (tx_schema "node") (JObj [("next", JObj [])]) true /\
  jsays ex_oracle (env tx_schema tx_D c') (tx_schema "node") (JObj [("next", JStr "x")]) false.
Proof.
  eexists. eexists. split; [split; [reflexivity|intros j s E; injection E as <-; reflexivity]|].
  split; [intros s E; injection E as <-; reflexivity|]. split.
  { intros n k Q. split; [|exact I]. destruct Q as [loc n k _ _ Il Ie|loc q n k Ip JE Id|n k j0 d _ _ E Id|n k j0 d _ _ E Id].
    - cbn [tx_body v_params fst] in Ie. destruct (String.eqb loc "query"); [destruct Ie as [Ie|[]]; discriminate|destruct Ie].
    - destruct Ip as [Ip|[]]. injection Ip as <- <-. destruct Id.
    - cbn [tx_body v_body snd] in E. injection E as <- <-. apply tx_list_defs. exact Id.
    - cbn [tx_body v_body snd] in E. injection E as <- <-. apply tx_list_defs. exact Id. }
  split; [split; [left; unfold bodyless; intuition discriminate|]; split; [intros [E|E]; discriminate|left; reflexivity]|].
  split; [vm_compute; reflexivity|]. split; [vm_compute; reflexivity|]. split; exists 3; vm_compute; reflexivity.
Qed.

(* A response with a header and a list of nodes. *)
Example C100_response30_case : exists c' evs,
  reports_response (says30 tx_schema) tx_D (tx_response (Sch := osor)) /\ json_shown (tx_response (Sch := osor)) "application/json" /\
  ~ tag_shown (tx_response (Sch := osor)) "application/json" /\
  walk_response (backend30 tx_schema) (to_json30 false) (fun A m => m) (fun _ _ => CNil) [] tx_response true = (c', (evs, WOk)) /\
  map tx_told (calls_of evs) = [("header", "X-Next-Page", false); ("body", "body", false)] /\
  last_named (fst (v_headers (tx_response (Sch := osor)))) "x-next-page" (tx_prop "x-next-page").
Proof.
  eexists. eexists. split.
  { intros n k Q. split; [|apply tx_expressible]. destruct Q as [n k _ _ _ Id]. apply tx_list_defs. exact Id. }
  split; [split; [reflexivity|]; split; [discriminate|]; right; split; [|reflexivity]; split; [intros s1 s2 E; destruct s1; discriminate|left; reflexivity]|].
  split; [intros [_ []]|]. split; [vm_compute; reflexivity|]. split; [vm_compute; reflexivity|].
  exists [], []. split; [reflexivity|]. split; [reflexivity|]. split; [reflexivity|]. intros x [].
Qed.

(* ---------- assumptions ---------- *)

Print Assumptions C100_parameters30.
Print Assumptions C100_parameters31.
Print Assumptions C100_body30.
Print Assumptions C100_body31.
Print Assumptions C100_form30.
Print Assumptions C100_form31.
Print Assumptions C100_response30.
Print Assumptions C100_response31.
Print Assumptions C100_headers30.
Print Assumptions C100_headers31.
Print Assumptions C100_walks_again.
Print Assumptions C100_recursive_form30_refuted.
Print Assumptions C100_recursive_form31_refuted.
