(* Theorems about Reflector.AddOperation and Reflector.AddWebhook of
   openapi3/reflect.go and openapi31/reflect.go, for every reflection result. *)
From Coq Require Import ZArith Lia.
From Verif Require Import Str SMap Json PathModel PathSpec PathProofs PathProps Types.
From Verif Require Import RegistryModel RegistrySpec RegistryProofs.
From Verif Require Import ReflectModel ReflectSpec ReflectProofs ReflectProofs2 ReflectComps.

(* ---------- example data ---------- *)

(* Schemas are strings here; the converter keeps them. *)
Definition ex_backend (v31 : bool) : backend string string :=
  mkBackend (fun j => Ret j) (fun j => if String.eqb j "described" then Some "from schema" else None)
    (fun s => s) (fun _ _ => Ret None) (fun f => "string:" ^^ f) v31.

Definition ex_tags (name : option string) : tagset := mkTags name None None None None None None None.

Definition ex_prop (name cf : string) : prop string :=
  mkProp true 1 name name false cf false true [] Err (Ret false) (Ret (ex_tags None)).

(* A request with path and query parameters. *)
Definition ex_request : cunit string string :=
  mkCU false "" "" 0 false "" false None None false false false false false (fun _ => false) (Ret false)
    (fun _ => ([], Err))
    (fun loc => if String.eqb loc "path" then ([EProp (ex_prop "id" "")], Ret false)
                else if String.eqb loc "query"
                     then ([EDef "Item" "item"; EProp (ex_prop "ids" "csv"); EProp (ex_prop "id" "")], Ret true)
                     else ([], Ret false))
    [] (Ret false) ([], Err) ([], Err).

(* A form with the given values in its fields. *)
Definition ex_form (kinds : list vkind) : cunit string string :=
  mkCU false "" "" 0 false "" false None None false false false false false
    (fun t => String.eqb t "formData") (Ret false)
    (fun _ => (kinds, Ret ("form", [("FormDataUp", "up")])))
    (fun _ => ([], Ret false)) [] (Ret false) ([], Err) ([], Err).

(* A JSON response with headers. *)
Definition ex_response (status : Z) (ctype desc : string) (headers : list string) : cunit string string :=
  mkCU false ctype "" status false desc false None None false false false false false (fun _ => false) (Ret false)
    (fun _ => ([], Err)) (fun _ => ([], Ret false)) [] (Ret true)
    ([("Out", "out")], Ret "resp") (map (fun n => ex_prop n "") headers, Ret None).

Definition ex_refl30 : refl30 string := mkRefl30 (mkPaths30 [] JNull) [].
Definition ex_refl31 : refl31 string := mkRefl31 (mkPaths31 None [] JNull) [].

Definition ex_oc30 (method path : string) req resp : opctx string string (responses string) :=
  mkOC method path req resp zero_op30 (if String.eqb path "/a/{id}" then ["id"] else []).
Definition ex_oc31 (method path : string) req resp : opctx string string (option (responses string)) :=
  mkOC method path req resp zero_op31 (if String.eqb path "/a/{id}" then ["id"] else []).

Lemma ex_made30 method path req resp oc0 :
  new_context30 (J := string) ex_refl30 method path = Some oc0 ->
  oc_method oc0 = method -> oc_path oc0 = path -> oc_params oc0 = (if String.eqb path "/a/{id}" then ["id"] else []) ->
  made30 (ex_oc30 method path req resp).
Proof. intros H E1 E2 E3. exists ex_refl30, method, path, oc0. cbn [ex_oc30 oc_method oc_path oc_params]. auto. Qed.

Lemma ex_made31 method path req resp r' oc0 :
  new_context31 (J := string) ex_refl31 method path = (r', Some oc0) ->
  oc_method oc0 = method -> oc_path oc0 = path -> oc_params oc0 = (if String.eqb path "/a/{id}" then ["id"] else []) ->
  made31 (ex_oc31 method path req resp).
Proof. intros H E1 E2 E3. exists ex_refl31, r', method, path, oc0. cbn [ex_oc31 oc_method oc_path oc_params]. auto. Qed.

Ltac ex_made := first [eapply ex_made30 | eapply ex_made31]; vm_compute; reflexivity.

(* A successful call in each of the three ways. *)
Lemma ex_doc30 (B : backend string string) oc o' : made30 oc -> snd (reflector_add30 B ex_refl30 oc) = AOk ->
  doc30 (r30_paths (fst (fst (reflector_add30 B ex_refl30 oc)))) (oc_path oc) (oc_method oc) = Some o' ->
  documented B (mkCall (oc_method oc) (oc_req oc) (oc_resp oc) (view30 (oc_op oc))) (view30 o').
Proof.
  intros M A D. destruct (reflector_add30 B ex_refl30 oc) as [[r' oc'] a] eqn:E. simpl in *. subst a.
  eapply doc_30; eauto.
Qed.
Lemma ex_doc31 (B : backend string string) oc o' : made31 oc -> snd (reflector_add31 B ex_refl31 oc) = AOk ->
  doc31 (r31_paths (fst (fst (reflector_add31 B ex_refl31 oc)))) (oc_path oc) (oc_method oc) = Some o' ->
  documented B (mkCall (oc_method oc) (oc_req oc) (oc_resp oc) (view31 (oc_op oc))) (view31 o').
Proof.
  intros M A D. destruct (reflector_add31 B ex_refl31 oc) as [[r' oc'] a] eqn:E. simpl in *. subst a.
  eapply doc_31; eauto.
Qed.
Lemma ex_hook (B : backend string string) oc o' : made31 oc -> snd (reflector_webhook31 B ex_refl31 oc) = AOk ->
  hook31 (r31_paths (fst (fst (reflector_webhook31 B ex_refl31 oc)))) (oc_path oc) (oc_method oc) = Some o' ->
  documented B (mkCall (oc_method oc) (oc_req oc) (oc_resp oc) (view31 (oc_op oc))) (view31 o').
Proof.
  intros M A D. destruct (reflector_webhook31 B ex_refl31 oc) as [[r' oc'] a] eqn:E. simpl in *. subst a.
  eapply doc_hook; eauto.
Qed.

Ltac ex_call L oc := eexists; eexists; split; [apply (L _ oc); [ex_made | vm_compute; reflexivity | vm_compute; reflexivity] |].

(* ---------- C15: no operation is replaced ---------- *)

Theorem C15_documented_twice_fails_30 : forall (J Sch : Type) (B : backend J Sch) r oc r' oc' a old,
  made30 oc -> doc30 (r30_paths r) (oc_path oc) (oc_method oc) = Some old ->
  reflector_add30 B r oc = (r', oc', a) -> a <> AOk /\ r30_paths r' = r30_paths r.
Proof.
  intros J Sch B r oc r' oc' a old M D H. apply made30_ok in M. destruct M as (OM & CL & _).
  apply add30_cases in H. destruct H as (_ & [H|(-> & o & A)]); [exact H|].
  apply (effect30 _ _ _ _ _ _ OM CL) in A. destruct A. congruence.
Qed.

Theorem C15_documented_twice_fails_31 : forall (J Sch : Type) (B : backend J Sch) r oc r' oc' a old,
  made31 oc -> doc31 (r31_paths r) (oc_path oc) (oc_method oc) = Some old ->
  reflector_add31 B r oc = (r', oc', a) -> a <> AOk /\ same31 (r31_paths r) (r31_paths r').
Proof.
  intros J Sch B r oc r' oc' a old M D H. apply made31_ok in M. destruct M as (OM & CL & _).
  apply add31_cases' in H; [|exact CL]. destruct H as (_ & [H|(-> & o & A)]); [exact H|].
  apply (effect31 _ _ _ _ _ _ OM CL) in A. destruct A. congruence.
Qed.

Theorem C15_success_adds_one_30 : forall (J Sch : Type) (B : backend J Sch) r oc r' oc',
  made30 oc -> reflector_add30 B r oc = (r', oc', AOk) ->
  doc30 (r30_paths r) (oc_path oc) (oc_method oc) = None /\
  exists o, only_at30 (r30_paths r) (r30_paths r') (oc_path oc) (oc_method oc) o.
Proof.
  intros J Sch B r oc r' oc' M H. apply made30_ok in M. destruct M as (OM & CL & _).
  apply add30_cases in H. destruct H as (_ & [(N & _)|(_ & o & A)]); [congruence|].
  apply (effect30 _ _ _ _ _ _ OM CL) in A. exact A.
Qed.

Theorem C15_success_adds_one_31 : forall (J Sch : Type) (B : backend J Sch) r oc r' oc',
  made31 oc -> reflector_add31 B r oc = (r', oc', AOk) ->
  doc31 (r31_paths r) (oc_path oc) (oc_method oc) = None /\
  exists o, only_at31 (r31_paths r) (r31_paths r') (oc_path oc) (oc_method oc) o.
Proof.
  intros J Sch B r oc r' oc' M H. apply made31_ok in M. destruct M as (OM & CL & _).
  apply add31_cases' in H; [|exact CL]. destruct H as (_ & [(N & _)|(_ & o & A)]); [congruence|].
  apply (effect31 _ _ _ _ _ _ OM CL) in A. exact A.
Qed.

(* Whatever is called afterwards, documented operations and webhooks stay. *)
Theorem C15_history_30 : forall (J Sch : Type) (B : backend J Sch) l r p m o,
  Forall made30 l -> doc30 (r30_paths r) p m = Some o -> doc30 (r30_paths (rrun30 B r l)) p m = Some o.
Proof. intros. apply rrun30_keeps; assumption. Qed.

Theorem C15_history_31 : forall (J Sch : Type) (B : backend J Sch) l r p m o,
  Forall (fun a => made31 (snd a)) l -> doc31 (r31_paths r) p m = Some o ->
  doc31 (r31_paths (rrun31 B r l)) p m = Some o.
Proof. intros. apply rrun31_keeps; assumption. Qed.

Theorem C15_history_webhooks : forall (J Sch : Type) (B : backend J Sch) l r n i,
  Forall (fun a => made31 (snd a)) l -> get n (sp31_webhooks (r31_paths r)) = Some i ->
  get n (sp31_webhooks (r31_paths (rrun31 B r l))) = Some i.
Proof. intros. apply rrun31_hooks; assumption. Qed.

(* NewOperationContext gives a context for exactly the undocumented pairs. *)
Theorem C15_context_30 : forall (J Sch : Type) (r : refl30 Sch) method path l, parses path l ->
  ((exists oc : opctx J Sch (responses Sch), new_context30 r method path = Some oc /\
      oc_path oc = render (map strip l) /\ oc_params oc = names l /\ oc_req oc = [] /\ oc_resp oc = []) <->
   exists m, openapi_method m /\ method_is method m /\ doc30 (r30_paths r) (render (map strip l)) m = None).
Proof.
  intros J Sch r method path l P. unfold new_context30. split.
  - intros (oc & H & _). destruct (sanitize_method_path method path) as [[[m p] ps]|] eqn:S; [|discriminate].
    destruct (sanitize_some _ _ _ _ _ _ P S) as (OM & MI & _ & -> & ->). exists m. split; [exact OM|]. split; [exact MI|].
    unfold doc30. destruct (get m (pi_ops (item30 (r30_paths r) (render (map strip l))))) eqn:G; [discriminate|].
    unfold item30 in G. destruct (get _ (sp30_items _)); [exact G|reflexivity].
  - intros (m & OM & MI & D).
    rewrite (proj2 (sanitize_iff method path l m P) (conj OM MI)).
    assert (G : get m (pi_ops (item30 (r30_paths r) (render (map strip l)))) = None).
    { unfold item30. unfold doc30 in D. destruct (get _ (sp30_items _)); [exact D|reflexivity]. }
    rewrite G. eexists. split; [reflexivity|]. auto.
Qed.

Theorem C15_context_31 : forall (J Sch : Type) (r : refl31 Sch) method path l, parses path l ->
  same31 (r31_paths r) (r31_paths (fst (new_context31 (J := J) r method path))) /\
  ((exists oc : opctx J Sch (option (responses Sch)), snd (new_context31 r method path) = Some oc /\
      oc_path oc = render (map strip l) /\ oc_params oc = names l /\ oc_req oc = [] /\ oc_resp oc = []) <->
   exists m, openapi_method m /\ method_is method m /\ doc31 (r31_paths r) (render (map strip l)) m = None).
Proof.
  intros J Sch r method path l P. unfold new_context31.
  destruct (paths_ens (r31_paths r)) as [s items] eqn:PE.
  destruct (paths_ens_spec _ _ _ PE) as (_ & _ & _ & DI & _).
  assert (SL : forall m p, slot (item31 items p) m = doc31 (r31_paths r) p m) by (intros; rewrite slot_item31; apply DI).
  split.
  - destruct (sanitize_method_path method path) as [[[m p] ps]|]; [|apply same31_refl].
    destruct (pi_operation (item31 items p) m) as [[]|]; simpl; eapply same31_ens; eauto.
  - split.
    + intros (oc & H & _). destruct (sanitize_method_path method path) as [[[m p] ps]|] eqn:S; [|discriminate].
      destruct (sanitize_some _ _ _ _ _ _ P S) as (OM & MI & _ & -> & ->). exists m. split; [exact OM|]. split; [exact MI|].
      rewrite <- SL. rewrite (pi_operation_slot _ _ OM) in H. destruct (slot _ m); [discriminate|reflexivity].
    + intros (m & OM & MI & D).
      rewrite (proj2 (sanitize_iff method path l m P) (conj OM MI)).
      rewrite (pi_operation_slot _ _ OM), SL, D. simpl. eexists. split; [reflexivity|]. auto.
Qed.

(* Two calls; the second one, with another context for the same method and
   path, fails. *)
Example C15_example :
  let B := ex_backend false in
  let oc := ex_oc30 "get" "/a/{id}" [ex_request] [ex_response 200 "" "" ["X-A"]] in
  let r := fst (fst (reflector_add30 B ex_refl30 oc)) in
  made30 oc /\ is_some (doc30 (r30_paths r) "/a/{id}" "get") = true /\
  snd (reflector_add30 B r oc) = AFail (AESpec EExists) /\
  snd (reflector_add30 B r (ex_oc30 "post" "/a/{id}" [ex_request] [])) = AOk.
Proof. cbv zeta. split; [ex_made|]. repeat split; vm_compute; reflexivity. Qed.

(* ---------- C16: responses of the documented operation ---------- *)

Theorem C16_has_response : forall (J Sch : Type) (B : backend J Sch) cl v,
  documented B cl v -> ~ no_responses (vw_responses v).
Proof. intros. eapply doc_some; eauto. Qed.

Theorem C16_no_units_204 : forall (J Sch : Type) (B : backend J Sch) cl v,
  documented B cl v -> c_resp cl = [] -> no_responses (vw_responses (c_view cl)) ->
  vw_responses v = mkResps None [("204", mkRor (Some (mkResp "No Content" [] [] JNull)) None)].
Proof. intros. eapply doc_204; eauto. Qed.

(* Otherwise the responses are those present and those added, nothing else. *)
Theorem C16_keys : forall (J Sch : Type) (B : backend J Sch) cl v,
  documented B cl v -> c_resp cl <> [] \/ ~ no_responses (vw_responses (c_view cl)) ->
  forall k, filed (vw_responses v) k <> None <->
    filed (vw_responses (c_view cl)) k <> None \/ exists cu, In cu (c_resp cl) /\ files_under cu k.
Proof. intros. eapply doc_keys; eauto. Qed.

Theorem C16_other_keys_untouched : forall (J Sch : Type) (B : backend J Sch) cl v,
  documented B cl v -> c_resp cl <> [] \/ ~ no_responses (vw_responses (c_view cl)) ->
  forall k, (forall cu, In cu (c_resp cl) -> ~ files_under cu k) ->
    filed (vw_responses v) k = filed (vw_responses (c_view cl)) k.
Proof. intros J Sch B cl v D N k F. eapply (proj2 (doc_keys _ _ B cl v D N k)). exact F. Qed.

Example C16_example :
  (exists cl v, documented (ex_backend false) cl v /\ c_resp cl = [] /\ no_responses (vw_responses (c_view cl))) /\
  (exists cl v, documented (ex_backend true) cl v /\ c_resp cl <> [] /\ keys (rs_map (vw_responses v)) = ["404"; "5XX"]).
Proof.
  split.
  - ex_call ex_doc30 (ex_oc30 "get" "/a/{id}" [ex_request] []). split; [reflexivity|]. split; reflexivity.
  - ex_call ex_doc31 (ex_oc31 "get" "/a/{id}" [ex_request] [ex_response 404 "" "" []; ex_response 5 "" "" []]).
    split; [discriminate|reflexivity].
Qed.

(* ---------- C17: the key of a response unit ---------- *)

Theorem C17_one_key : forall (J Sch : Type) (cu : cunit J Sch), exists! k, files_under cu k.
Proof.
  intros J Sch cu. exists (rk cu). split; [apply files_under_iff; reflexivity|].
  intros k H. apply files_under_iff in H. congruence.
Qed.

(* A single unit is filed under its key and nothing else changes. *)
Theorem C17_filed : forall (J Sch : Type) (B : backend J Sch) cl v cu k,
  documented B cl v -> c_resp cl = [cu] -> files_under cu k ->
  filed (vw_responses v) k <> None /\
  forall k', k' <> k -> filed (vw_responses v) k' = filed (vw_responses (c_view cl)) k'.
Proof.
  intros J Sch B cl v cu k D E F.
  assert (N : c_resp cl <> [] \/ ~ no_responses (vw_responses (c_view cl))) by (left; rewrite E; discriminate).
  split.
  - apply (proj1 (doc_keys _ _ B cl v D N k)). right. exists cu. rewrite E. simpl. auto.
  - intros k' NE. apply (proj2 (doc_keys _ _ B cl v D N k')). rewrite E. intros x [<-|[]] F'.
    apply files_under_iff in F, F'. congruence.
Qed.

(* Different statuses share a key only as 0 and 200. *)
Theorem C17_shared_key : forall (J Sch : Type) (a b : cunit J Sch) k,
  files_under a k -> files_under b k ->
  (cu_default a = true /\ cu_default b = true) \/
  (cu_default a = false /\ cu_default b = false /\
   (cu_status a = cu_status b \/ (cu_status a = 0%Z /\ cu_status b = 200%Z) \/ (cu_status a = 200%Z /\ cu_status b = 0%Z))).
Proof. intros J Sch a b k. apply shared_key. Qed.

Example C17_example :
  files_under (ex_response 0 "" "" []) (KStatus "200") /\ files_under (ex_response 4 "" "" []) (KStatus "4XX") /\
  files_under (ex_response 404 "" "" []) (KStatus "404") /\
  exists cl v, documented (ex_backend true) cl v /\ c_resp cl = [ex_response 404 "" "" []] /\
    keys (rs_map (vw_responses v)) = ["404"].
Proof.
  split; [|split; [|split]].
  - apply fu_none; reflexivity.
  - apply (fu_class _ "4"); [reflexivity|simpl; lia|exact (itoa_numeral 4)].
  - apply fu_code; [reflexivity|discriminate|simpl; lia|exact (itoa_numeral 404)].
  - ex_call ex_hook (ex_oc31 "post" "hook" [] [ex_response 404 "" "" []]). split; reflexivity.
Qed.

(* ---------- C18: units of one status are merged ---------- *)

Theorem C18_content_union : forall (J Sch : Type) (B : backend J Sch) cl v k,
  documented B cl v -> c_method cl <> "head" ->
  (forall cu, In cu (c_resp cl) -> files_under cu k -> cu_custom_resp cu = None) ->
  forall ct, In ct (keys (content_before (vw_responses v) k)) <->
    In ct (keys (content_before (vw_responses (c_view cl)) k)) \/
    exists cu, In cu (c_resp cl) /\ files_under cu k /\ contributes cu ct.
Proof. intros J Sch B cl v k D NH NC. exact (proj1 (doc_content _ _ B cl v D k NH NC)). Qed.

(* A content type no unit of the call documents keeps its description. *)
Theorem C18_others_untouched : forall (J Sch : Type) (B : backend J Sch) cl v k,
  documented B cl v -> c_method cl <> "head" ->
  (forall cu, In cu (c_resp cl) -> files_under cu k -> cu_custom_resp cu = None) ->
  forall ct, (forall cu, In cu (c_resp cl) -> files_under cu k -> ~ contributes cu ct) ->
    get ct (content_before (vw_responses v) k) = get ct (content_before (vw_responses (c_view cl)) k).
Proof. intros J Sch B cl v k D NH NC. exact (proj2 (doc_content _ _ B cl v D k NH NC)). Qed.

Example C18_example : exists cl v, documented (ex_backend false) cl v /\ c_method cl <> "head" /\
  (forall cu, In cu (c_resp cl) -> cu_custom_resp cu = None) /\
  keys (content_before (vw_responses v) (KStatus "200")) = ["application/json"; "text/csv"].
Proof.
  ex_call ex_doc30 (ex_oc30 "get" "/a/{id}" [ex_request] [ex_response 200 "" "" []; ex_response 0 "text/csv; x=y" "" []]).
  split; [discriminate|]. split; [|reflexivity]. intros cu [<-|[<-|[]]]; reflexivity.
Qed.

(* ---------- C19: headers of merged units ---------- *)

(* A later unit replaces the headers. *)
Theorem C19_headers_accumulate_refuted :
  exists cl v (a b : cunit string string) q, documented (ex_backend false) cl v /\ c_resp cl = [a; b] /\
    files_under a (KStatus "200") /\ files_under b (KStatus "200") /\
    In q (fst (v_headers a)) /\ considered q = true /\
    ~ In (pr_name q) (keys (headers_before (vw_responses v) (KStatus "200"))).
Proof.
  eexists. eexists.
  exists (ex_response 200 "" "" ["X-A"]), (ex_response 200 "text/csv" "" ["X-B"]), (ex_prop "X-A" "").
  split; [apply (ex_doc30 _ (ex_oc30 "get" "/a/{id}" [ex_request]
            [ex_response 200 "" "" ["X-A"]; ex_response 200 "text/csv" "" ["X-B"]]));
          [ex_made | vm_compute; reflexivity | vm_compute; reflexivity] |].
  split; [reflexivity|].
  split; [apply fu_code; [reflexivity|discriminate|simpl; lia|exact (itoa_numeral 200)]|].
  split; [apply fu_code; [reflexivity|discriminate|simpl; lia|exact (itoa_numeral 200)]|].
  split; [left; reflexivity|]. split; [reflexivity|]. vm_compute. intros [H|[]]. discriminate.
Qed.

(* Exactly: the headers are those of the last unit with a structure. *)
Theorem C19_last_unit_partial : forall (J Sch : Type) (B : backend J Sch) cl v k l1 cu l2,
  documented B cl v -> units_of k (c_resp cl) (l1 ++ cu :: l2) ->
  (forall x, In x (l1 ++ cu :: l2) -> cu_custom_resp x = None) ->
  cu_nil cu = false -> (forall x, In x l2 -> cu_nil x = true) ->
  forall n, In n (keys (headers_before (vw_responses v) k)) <->
    exists q, In q (fst (v_headers cu)) /\ considered q = true /\ pr_name q = n.
Proof. intros. eapply doc_headers_last; eauto. Qed.

Theorem C19_no_structure_partial : forall (J Sch : Type) (B : backend J Sch) cl v k,
  documented B cl v ->
  (forall x, In x (c_resp cl) -> files_under x k -> cu_custom_resp x = None /\ cu_nil x = true) ->
  headers_before (vw_responses v) k = headers_before (vw_responses (c_view cl)) k.
Proof. intros. eapply doc_headers_same; eauto. Qed.

Example C19_example : exists cl v a b, documented (ex_backend true) cl v /\
  units_of (KStatus "200") (c_resp cl) ([a] ++ b :: []) /\ cu_nil b = false /\
  keys (headers_before (vw_responses v) (KStatus "200")) = ["X-B"; "X-C"].
Proof.
  eexists. eexists. exists (ex_response 200 "" "" ["X-A"]), (ex_response 0 "" "" ["X-B"; "X-C"]).
  split; [apply (ex_doc31 _ (ex_oc31 "put" "/a/{id}" [ex_request]
            [ex_response 200 "" "" ["X-A"]; ex_response 0 "" "" ["X-B"; "X-C"]]));
          [ex_made | vm_compute; reflexivity | vm_compute; reflexivity] |].
  split; [|split; reflexivity].
  apply uo_take; [apply fu_code; [reflexivity|discriminate|simpl; lia|exact (itoa_numeral 200)]|].
  apply uo_take; [apply fu_none; reflexivity|]. constructor.
Qed.

(* ---------- C20: HEAD ---------- *)

Theorem C20_head_no_content : forall (J Sch : Type) (B : backend J Sch) cl v k,
  documented B cl v -> c_method cl = "head" ->
  (forall cu, In cu (c_resp cl) -> files_under cu k -> cu_custom_resp cu = None) ->
  content_before (vw_responses v) k = content_before (vw_responses (c_view cl)) k.
Proof. intros. eapply doc_head; eauto. Qed.

Example C20_example : exists cl v, documented (ex_backend false) cl v /\ c_method cl = "head" /\
  (forall cu, In cu (c_resp cl) -> cu_custom_resp cu = None) /\
  content_before (vw_responses v) (KStatus "200") = [] /\
  keys (headers_before (vw_responses v) (KStatus "200")) = ["X-A"].
Proof.
  ex_call ex_doc30 (ex_oc30 "head" "/a/{id}" [ex_request] [ex_response 200 "" "" ["X-A"]]).
  split; [reflexivity|]. split; [|split; reflexivity]. intros cu [<-|[]]; reflexivity.
Qed.

(* ---------- C21: descriptions ---------- *)

(* The description after the units of a key, one after the other. *)
Theorem C21_description : forall (J Sch : Type) (B : backend J Sch) cl v k l,
  documented B cl v -> units_of k (c_resp cl) l -> l <> [] ->
  (forall cu, In cu l -> cu_custom_resp cu = None) ->
  exists r, filed (vw_responses v) k = Some (mkRor (Some r) None) /\
    described B (c_method cl) l (desc_before (vw_responses (c_view cl)) k) (rs_desc r).
Proof. intros. eapply doc_desc; eauto. Qed.

(* The last description given for the key is the one documented. *)
Theorem C21_last_given : forall (J Sch : Type) (B : backend J Sch) cl v k l1 cu l2,
  documented B cl v -> units_of k (c_resp cl) (l1 ++ cu :: l2) ->
  (forall x, In x (l1 ++ cu :: l2) -> cu_custom_resp x = None) ->
  cu_desc cu <> "" -> (forall x, In x l2 -> cu_desc x = "") ->
  exists r, filed (vw_responses v) k = Some (mkRor (Some r) None) /\ rs_desc r = cu_desc cu.
Proof.
  intros J Sch B cl v k l1 cu l2 D U NC N L.
  destruct (doc_desc _ _ B cl v D k _ U) as (r & F & H); [destruct l1; discriminate|exact NC|].
  exists r. split; [exact F|]. eapply described_last; eauto.
Qed.

(* With no description given and none present, a single unit without texts in
   its schemas gets the standard text of its status. *)
Theorem C21_status_text : forall (J Sch : Type) (B : backend J Sch) cl v k cu z,
  documented B cl v -> units_of k (c_resp cl) [cu] -> cu_custom_resp cu = None ->
  cu_desc cu = "" -> desc_before (vw_responses (c_view cl)) k = "" ->
  (forall t, json_text B (c_method cl) cu t -> t = "") -> (forall t, header_text cu t -> t = "") ->
  effective_status cu z ->
  exists r, filed (vw_responses v) k = Some (mkRor (Some r) None) /\ rs_desc r = status_text z.
Proof.
  intros J Sch B cl v k cu z D U NC N DB JT HT ES.
  destruct (doc_desc _ _ B cl v D k _ U) as (r & F & H); [discriminate|intros x [<-|[]]; exact NC|].
  exists r. split; [exact F|]. apply described_cons_inv in H. destruct H as (d1 & (tj & th & z' & T1 & T2 & ES' & ->) & H2).
  inversion H2; subst. rewrite N, DB, (JT _ T1), (HT _ T2). simpl.
  assert (z' = z) as ->; [|destruct (status_text z); reflexivity].
  destruct ES as [(A1 & A2 & ->)|([A1|A1] & ->)], ES' as [(B1 & B2 & ->)|([B1|B1] & ->)]; congruence.
Qed.

Lemma status_phrase z t : phrase z t -> status_text z = t.
Proof.
  intros [I|[-> N]].
  - unfold phrases in I. cbn [In] in I. repeat (destruct I as [E|I]; [injection E as <- <-; reflexivity|]). destruct I.
  - assert (M : forall x, x <> "" -> status_text z = x -> In z (map fst phrases)).
    { intros x NE E. unfold status_text in E.
      repeat match type of E with (match ?y with _ => _ end) = _ => destruct y; try congruence; try (subst; vm_compute; tauto) end. }
    destruct (string_dec (status_text z) "") as [E|E]; [exact E|]. destruct (N (M _ E eq_refl)).
Qed.
Theorem C21_phrase : forall (J Sch : Type) (B : backend J Sch) cl v k cu z t,
  documented B cl v -> units_of k (c_resp cl) [cu] -> cu_custom_resp cu = None ->
  cu_desc cu = "" -> desc_before (vw_responses (c_view cl)) k = "" ->
  (forall t, json_text B (c_method cl) cu t -> t = "") -> (forall t, header_text cu t -> t = "") ->
  effective_status cu z -> phrase z t ->
  exists r, filed (vw_responses v) k = Some (mkRor (Some r) None) /\ rs_desc r = t.
Proof.
  intros J Sch B cl v k cu z t D U NC N DB JT HT ES P. rewrite <- (status_phrase z t P). eapply C21_status_text; eassumption.
Qed.

Example C21_example :
  (exists cl v a b, documented (ex_backend true) cl v /\
     units_of (KStatus "200") (c_resp cl) ([] ++ a :: [b]) /\ cu_desc a = "given" /\ cu_desc b = "" /\
     desc_before (vw_responses v) (KStatus "200") = "given") /\
  (exists cl v, documented (ex_backend true) cl v /\ desc_before (vw_responses v) (KStatus "404") = "Not Found").
Proof.
  split.
  - eexists. eexists. exists (ex_response 200 "" "given" []), (ex_response 0 "text/csv" "" []).
    split; [apply (ex_doc31 _ (ex_oc31 "put" "/a/{id}" [ex_request]
            [ex_response 200 "" "given" []; ex_response 0 "text/csv" "" []]));
          [ex_made | vm_compute; reflexivity | vm_compute; reflexivity] |].
    split; [|repeat split; reflexivity].
    apply uo_take; [apply fu_code; [reflexivity|discriminate|simpl; lia|exact (itoa_numeral 200)]|].
    apply uo_take; [apply fu_none; reflexivity|]. constructor.
  - ex_call ex_doc31 (ex_oc31 "put" "/a/{id}" [ex_request] [ex_response 404 "" "" []]). reflexivity.
Qed.

(* ---------- C22, C23: parameters ---------- *)

Theorem C22_parameters : forall (J Sch : Type) (B : backend J Sch) cl v,
  documented B cl v ->
  exists new, vw_params v = vw_params (c_view cl) ++ new /\
    Forall2 (renders B) (flat_map param_fields (c_req cl)) new /\
    NoDup (inline new) /\ (forall x, In x (inline new) -> ~ In x (inline (vw_params (c_view cl)))).
Proof. intros. eapply doc_params; eauto. Qed.

Theorem C22_path_required : forall (J Sch : Type) (B : backend J Sch) cl v x p,
  documented B cl v -> In x (vw_params v) -> ~ In x (vw_params (c_view cl)) -> por_param x = Some p ->
  p_in p = "path" -> p_required p = Some true.
Proof.
  intros J Sch B cl v x p D I N E P. destruct (doc_params _ _ B cl v D) as (new & EQ & F & _).
  rewrite EQ in I. apply in_app_iff in I. destruct I as [I|I]; [contradiction|].
  destruct (Forall2_in_r _ _ _ _ F I) as (f & _ & (p' & t & ds & -> & _ & _ & L & _ & RQ & _)).
  simpl in E. injection E as ->. rewrite RQ, <- L, P. reflexivity.
Qed.

(* Without style and explode tags the serialisation of an added parameter is
   the one of the table [array_style], unless it is an object or JSON. *)
Theorem C23_collection_formats : forall (J Sch : Type) (B : backend J Sch) cl v,
  documented B cl v ->
  exists new, vw_params v = vw_params (c_view cl) ++ new /\
    Forall2 (fun f x => exists p t, x = mkPor (Some p) None /\ pr_tags (snd f) = Ret t /\
       (t_style t = None -> t_explode t = None -> pr_plain (snd f) = Ret false ->
        forall st, array_style (pr_cf (snd f)) st ->
          p_style p = option_map fst st /\ p_explode p = option_map snd st))
      (flat_map param_fields (c_req cl)) new.
Proof.
  intros J Sch B cl v D. destruct (doc_params _ _ B cl v D) as (new & EQ & F & _).
  exists new. split; [exact EQ|]. clear EQ. induction F as [|f x fs new H F IH]; constructor; [clear IH F|exact IH].
  destruct H as (p & t & ds & -> & T & DS & _ & _ & _ & _ & _ & ST & EX & _).
  exists p, t. split; [reflexivity|]. split; [exact T|].
  intros NS NE PL st AS. rewrite NS in ST. rewrite NE in EX. simpl in ST, EX.
  assert (ds = st) as ->.
  { destruct DS as [(_ & X & _)|(_ & X)]; [congruence|]. eapply array_style_fun; eauto. }
  split; [destruct (b_v31 B); exact ST|exact EX].
Qed.

Example C22_example : exists cl v, documented (ex_backend false) cl v /\
  inline (vw_params v) = [("ids", "query"); ("id", "query"); ("id", "path")] /\
  map (fun x => match por_param x with Some p => (p_required p, p_style p, p_explode p) | None => (None, None, None) end)
    (vw_params v) = [(None, Some "form", Some false); (None, None, None); (Some true, None, None)] /\
  map (fun f => (fst f, pr_name (snd f))) (flat_map param_fields (c_req cl)) = [("query", "ids"); ("query", "id"); ("path", "id")].
Proof.
  ex_call ex_doc30 (ex_oc30 "get" "/a/{id}" [ex_request] []). repeat split; reflexivity.
Qed.

(* ---------- C24, C25: request bodies ---------- *)

(* No body for GET, HEAD, DELETE and TRACE, if no unit forces one, has fields
   tagged with a content type, or an own content type. *)
Theorem C24_no_body : forall (J Sch : Type) (B : backend J Sch) cl v,
  documented B cl v -> bodyless (c_method cl) -> vw_body (c_view cl) = None ->
  (forall cu, In cu (c_req cl) -> v_force_body cu = false /\ structuredb cu = true /\
     (cu_nil cu = true \/ v_content_tags cu = [] \/ cu_ctype cu <> "")) ->
  vw_body v = None.
Proof. intros. eapply doc_bodyless; eauto. Qed.

Example C24_example : exists cl v, documented (ex_backend false) cl v /\ bodyless (c_method cl) /\
  vw_body (c_view cl) = None /\
  (forall cu, In cu (c_req cl) -> form_structure cu /\ v_force_body cu = false /\ structuredb cu = true /\ v_content_tags cu = []).
Proof.
  ex_call ex_doc30 (ex_oc30 "delete" "/x" [ex_form [KFile]] []).
  split; [unfold bodyless; auto|]. split; [reflexivity|]. intros cu [<-|[]]. repeat split; left; reflexivity.
Qed.

Theorem C25_form_body : forall (J Sch : Type) (B : backend J Sch) cl v l cu,
  documented B cl v -> c_req cl = l ++ [cu] ->
  ~ bodyless (c_method cl) \/ v_force_body cu = true -> form_structure cu -> cu_custom_req cu = None ->
  In (cu_ctype cu) [""; "application/x-www-form-urlencoded"; "multipart/form-data"] ->
  (cu_ctype cu = "" -> cu_nil cu = false ->
     ~ In "application/x-www-form-urlencoded" (v_content_tags cu) /\ ~ In "multipart/form-data" (v_content_tags cu)) ->
  exists s j defs, snd (v_body cu "formData") = Ret (j, defs) /\ b_conv B j = Ret s /\
    (has_file cu ->
       get "multipart/form-data" (body_content (vw_body v)) = Some (mkMedia (Some s) JNull) /\
       (l = [] -> get "application/x-www-form-urlencoded" (body_content (vw_body v)) =
                  get "application/x-www-form-urlencoded" (body_content (vw_body (c_view cl))))) /\
    (~ has_file cu ->
       get "application/x-www-form-urlencoded" (body_content (vw_body v)) = Some (mkMedia (Some s) JNull) /\
       (l = [] -> get "multipart/form-data" (body_content (vw_body v)) =
                  get "multipart/form-data" (body_content (vw_body (c_view cl))))).
Proof. intros. eapply doc_form; eauto. Qed.

Example C25_example :
  (exists cl v, documented (ex_backend false) cl v /\ c_req cl = [ex_form [KOther; KFileHeader]] /\
     has_file (ex_form [KOther; KFileHeader]) /\ keys (body_content (vw_body v)) = ["multipart/form-data"]) /\
  (exists cl v, documented (ex_backend true) cl v /\ c_req cl = [ex_form [KOther]] /\
     ~ has_file (ex_form [KOther]) /\ form_structure (ex_form [KOther]) /\
     keys (body_content (vw_body v)) = ["application/x-www-form-urlencoded"]).
Proof.
  split.
  - ex_call ex_doc30 (ex_oc30 "post" "/x" [ex_form [KOther; KFileHeader]] []).
    split; [reflexivity|]. split; [right; simpl; auto|reflexivity].
  - ex_call ex_hook (ex_oc31 "post" "/x" [ex_form [KOther]] []).
    split; [reflexivity|]. split; [intros [[H|[]]|[H|[]]]; discriminate|]. split; [left; reflexivity|reflexivity].
Qed.

(* ---------- C26: failing calls ---------- *)

Theorem C26_failure_30 : forall (J Sch : Type) (B : backend J Sch) r oc r' oc' a,
  reflector_add30 B r oc = (r', oc', a) -> a <> AOk ->
  r30_paths r' = r30_paths r /\ grows (r30_comps r) (r30_comps r').
Proof. intros J Sch B r oc r' oc' a H N. apply add30_cases in H. destruct H as (G & [(_ & H)|(H & _)]); tauto. Qed.

Theorem C26_failure_31 : forall (J Sch : Type) (B : backend J Sch) r oc r' oc' a,
  made31 oc -> reflector_add31 B r oc = (r', oc', a) -> a <> AOk ->
  same31 (r31_paths r) (r31_paths r') /\ grows (r31_comps r) (r31_comps r').
Proof.
  intros J Sch B r oc r' oc' a M H N. apply made31_ok in M. destruct M as (_ & CL & _).
  apply add31_cases' in H; [|exact CL]. destruct H as (G & [(_ & H)|(H & _)]); tauto.
Qed.

Theorem C26_failure_webhook : forall (J Sch : Type) (B : backend J Sch) r oc r' oc' a,
  reflector_webhook31 B r oc = (r', oc', a) -> a <> AOk ->
  r31_paths r' = r31_paths r /\ grows (r31_comps r) (r31_comps r').
Proof. intros J Sch B r oc r' oc' a H N. apply hook31_cases in H. destruct H as (G & [(_ & H)|(H & _)]); tauto. Qed.

(* Components are never removed, in any history of calls. *)
Theorem C26_components_grow_30 : forall (J Sch : Type) (B : backend J Sch) l r,
  grows (r30_comps r) (r30_comps (rrun30 B r l)).
Proof. intros. apply rrun30_comps. Qed.

Theorem C26_components_grow_31 : forall (J Sch : Type) (B : backend J Sch) l r,
  Forall (fun a => made31 (snd a)) l -> grows (r31_comps r) (r31_comps (rrun31 B r l)).
Proof. intros. apply rrun31_comps. assumption. Qed.

(* The request is fine and registers a component, the path parameter is missing. *)
Example C26_example :
  let oc := ex_oc31 "get" "/a/{id}" [ex_form [KOther]] [] in
  made31 oc /\ snd (reflector_add31 (ex_backend true) ex_refl31 oc) = AFail (AEParams [EUndefined "id"]) /\
  let oc2 := ex_oc30 "post" "/x" [ex_form [KOther]] [ex_form []] in
  snd (reflector_add30 (ex_backend false) ex_refl30 oc2) = AFail AEResponse /\
  keys (r30_comps (fst (fst (reflector_add30 (ex_backend false) ex_refl30 oc2)))) = ["FormDataUp"].
Proof. cbv zeta. split; [ex_made|]. repeat split; vm_compute; reflexivity. Qed.

(* ---------- C53: unknown parameters ---------- *)

Theorem C53_forbid_unknown : forall (J Sch : Type) (B : backend J Sch) cl v,
  documented B cl v ->
  (forall loc, In loc (flat_map forbidden_locations (c_req cl)) ->
     get ("x-forbid-unknown-" ^^ loc) (vw_ext v) = Some (JBool true)) /\
  (forall k, (forall loc, In loc (flat_map forbidden_locations (c_req cl)) -> k <> "x-forbid-unknown-" ^^ loc) ->
     get k (vw_ext v) = get k (vw_ext (c_view cl))).
Proof. intros. eapply doc_ext; eauto. Qed.

Example C53_example : exists cl v, documented (ex_backend false) cl v /\
  flat_map forbidden_locations (c_req cl) = ["query"] /\ vw_ext v = [("x-forbid-unknown-query", JBool true)].
Proof. ex_call ex_doc30 (ex_oc30 "get" "/a/{id}" [ex_request] []). split; reflexivity. Qed.

(* ---------- C54: the other members of the operation ---------- *)

Theorem C54_other_members_kept : forall (J Sch : Type) (B : backend J Sch) cl v,
  documented B cl v -> vw_other v = vw_other (c_view cl).
Proof. intros J Sch B cl v D. apply documented_core in D. apply (core_other _ _ _ D). Qed.

Example C54_example :
  let o := mkOp ["t"] (Some "s") (Some "d") (Some "id") [] None (mkResps (Sch := string) None []) (Some true) [[("k", [])]] [] (JBool true) in
  let oc := mkOC "get" "/a/{id}" [ex_request] [] o ["id"] in
  made30 oc /\ snd (reflector_add30 (ex_backend false) ex_refl30 oc) = AOk /\ vw_other (view30 o) <> vw_other (view30 (Sch := string) zero_op30).
Proof.
  cbv zeta. split; [exists ex_refl30, "get", "/a/{id}", (ex_oc30 "get" "/a/{id}" [] []); repeat split; vm_compute; reflexivity|].
  split; [vm_compute; reflexivity|]. vm_compute. discriminate.
Qed.

(* ---------- C55, C56: components ---------- *)

(* A definition attached to a request body replaces the component of its name. *)
Theorem C55_components_unchanged_refuted :
  exists (r r' : refl30 string) oc oc' n s, made30 oc /\ reflector_add30 (ex_backend false) r oc = (r', oc', AOk) /\
    get n (r30_comps r) = Some s /\ get n (r30_comps r') <> Some s.
Proof.
  exists (mkRefl30 (mkPaths30 [] JNull) [("FormDataUp", "mine")]). eexists.
  exists (ex_oc30 "post" "/x" [ex_form [KOther]] []). eexists. exists "FormDataUp", "mine".
  split; [ex_made|]. split; [vm_compute; reflexivity|]. split; [reflexivity|]. vm_compute. discriminate.
Qed.

Theorem C55_components_unchanged_30_partial : forall (J Sch : Type) (B : backend J Sch) r oc r' oc' a n s,
  reflector_add30 B r oc = (r', oc', a) ->
  (forall cu tag j defs, In cu (oc_req oc) -> snd (v_body cu tag) = Ret (j, defs) -> ~ In n (map fst defs)) ->
  get n (r30_comps r) = Some s -> get n (r30_comps r') = Some s.
Proof.
  intros J Sch B r oc r' oc' a n s H OK. unfold reflector_add30 in H.
  destruct (setup_oc30 B (r30_comps r) oc) as [[c o] x] eqn:E.
  apply (setup_oc_keeps B _ _ _ _ _ _ _ n OK) in E.
  destruct x; [destruct (add_operation30 _ _ _ _)|..]; injection H as <- <- <-; apply E.
Qed.

Theorem C55_components_unchanged_31_partial : forall (J Sch : Type) (B : backend J Sch) r oc r' oc' a n s,
  (reflector_add31 B r oc = (r', oc', a) \/ reflector_webhook31 B r oc = (r', oc', a)) ->
  (forall cu tag j defs, In cu (oc_req oc) -> snd (v_body cu tag) = Ret (j, defs) -> ~ In n (map fst defs)) ->
  get n (r31_comps r) = Some s -> get n (r31_comps r') = Some s.
Proof.
  intros J Sch B r oc r' oc' a n s H OK. unfold reflector_add31, reflector_webhook31 in H.
  destruct (setup_oc31 B (r31_comps r) oc) as [[c o] x] eqn:E.
  apply (setup_oc_keeps B _ _ _ _ _ _ _ n OK) in E.
  destruct H as [H|H]; (destruct x; [first [destruct (add_operation31 _ _ _ _)|destruct (add_webhook31 _ _ _ _)]|..]);
    injection H as <- <- <-; apply E.
Qed.

Theorem C56_definitions_registered_30 : forall (J Sch : Type) (B : backend J Sch) r oc r' oc' n,
  made30 oc -> reflector_add30 B r oc = (r', oc', AOk) ->
  (exists cu, In cu (oc_req oc) /\ In n (param_defs cu)) \/
  (exists cu, In cu (oc_resp oc) /\ json_def (oc_method oc) cu n) ->
  In n (keys (r30_comps r')).
Proof.
  intros J Sch B r oc r' oc' n M H D. apply made30_ok in M. destruct M as (OM & _). unfold reflector_add30 in H.
  destruct (setup_oc30 B (r30_comps r) oc) as [[c o] x] eqn:E. destruct x; [|discriminate..].
  apply setup_oc_defs with (n := n) in E; [|reflexivity|exact OM|exact D].
  destruct (add_operation30 _ _ _ _). injection H as <- _ _. exact E.
Qed.

Theorem C56_definitions_registered_31 : forall (J Sch : Type) (B : backend J Sch) r oc r' oc' n,
  made31 oc -> (reflector_add31 B r oc = (r', oc', AOk) \/ reflector_webhook31 B r oc = (r', oc', AOk)) ->
  (exists cu, In cu (oc_req oc) /\ In n (param_defs cu)) \/
  (exists cu, In cu (oc_resp oc) /\ json_def (oc_method oc) cu n) ->
  In n (keys (r31_comps r')).
Proof.
  intros J Sch B r oc r' oc' n M H D. apply made31_ok in M. destruct M as (OM & _).
  unfold reflector_add31, reflector_webhook31 in H.
  destruct (setup_oc31 B (r31_comps r) oc) as [[c o] x] eqn:E. destruct x; [|destruct H; discriminate..].
  apply setup_oc_defs with (n := n) in E; [|reflexivity|exact OM|exact D].
  destruct H as [H|H]; first [destruct (add_operation31 _ _ _ _)|destruct (add_webhook31 _ _ _ _)]; injection H as <- _ _; exact E.
Qed.

Example C56_example :
  let oc := ex_oc30 "get" "/a/{id}" [ex_request] [ex_response 200 "" "" []] in
  made30 oc /\ param_defs ex_request = ["Item"] /\ json_def "get" (ex_response 200 "" "" []) "Out" /\
  keys (r30_comps (fst (fst (reflector_add30 (ex_backend false) ex_refl30 oc)))) = ["Item"; "Out"].
Proof.
  cbv zeta. split; [ex_made|]. split; [reflexivity|]. split; [|vm_compute; reflexivity].
  constructor; try discriminate; simpl; auto.
Qed.

Example C55_example :
  let oc := ex_oc30 "get" "/a/{id}" [ex_request] [ex_response 200 "" "" []] in
  let r := mkRefl30 (mkPaths30 [] JNull) [("Item", "mine")] in
  (forall cu tag j defs, In cu (oc_req oc) -> snd (v_body cu tag) = Ret (j, defs) -> ~ In "Item" (map fst defs)) /\
  snd (reflector_add30 (ex_backend false) r oc) = AOk.
Proof. cbv zeta. split; [|vm_compute; reflexivity]. intros cu tag j defs [<-|[]] H. discriminate. Qed.

(* ---------- assumptions ---------- *)

Print Assumptions C15_documented_twice_fails_30.
Print Assumptions C15_documented_twice_fails_31.
Print Assumptions C15_success_adds_one_30.
Print Assumptions C15_success_adds_one_31.
Print Assumptions C15_history_30.
Print Assumptions C15_history_31.
Print Assumptions C15_history_webhooks.
Print Assumptions C15_context_30.
Print Assumptions C15_context_31.
Print Assumptions C16_has_response.
Print Assumptions C16_no_units_204.
Print Assumptions C16_keys.
Print Assumptions C16_other_keys_untouched.
Print Assumptions C17_one_key.
Print Assumptions C17_filed.
Print Assumptions C17_shared_key.
Print Assumptions C18_content_union.
Print Assumptions C18_others_untouched.
Print Assumptions C19_headers_accumulate_refuted.
Print Assumptions C19_last_unit_partial.
Print Assumptions C19_no_structure_partial.
Print Assumptions C20_head_no_content.
Print Assumptions C21_description.
Print Assumptions C21_last_given.
Print Assumptions C21_status_text.
Print Assumptions C21_phrase.
Print Assumptions C22_parameters.
Print Assumptions C22_path_required.
Print Assumptions C23_collection_formats.
Print Assumptions C24_no_body.
Print Assumptions C25_form_body.
Print Assumptions C26_failure_30.
Print Assumptions C26_failure_31.
Print Assumptions C26_failure_webhook.
Print Assumptions C26_components_grow_30.
Print Assumptions C26_components_grow_31.
Print Assumptions C53_forbid_unknown.
Print Assumptions C54_other_members_kept.
Print Assumptions C55_components_unchanged_refuted.
Print Assumptions C55_components_unchanged_30_partial.
Print Assumptions C55_components_unchanged_31_partial.
Print Assumptions C56_definitions_registered_30.
Print Assumptions C56_definitions_registered_31.
