(* Theorems about what request bodies, responses, headers and components of a
   documented operation contain, for every reflection result. *)
From Coq Require Import ZArith Lia.
From Verif Require Import Str SMap Json PathModel PathSpec PathProofs PathProps Types.
From Verif Require Import RegistryModel RegistrySpec RegistryProofs ReflectModel ReflectSpec.
From Verif Require Import ReflectProofs ReflectProofs2 ReflectComps ReflectProps BodySpec BodyProofs BodyComps.

(* ---------- C73: media types of responses ---------- *)

Theorem C73_media : forall (J Sch : Type) (B : backend J Sch) cl v k l ct,
  documented B cl v -> c_method cl <> "head" -> units_of k (c_resp cl) l -> l <> [] ->
  (forall cu, In cu l -> cu_custom_resp cu = None) ->
  responses_media B ct l (get ct (content_before (vw_responses (c_view cl)) k))
                         (get ct (content_before (vw_responses v) k)).
Proof. intros. eapply doc_media; eauto. Qed.

(* The last unit with a JSON body for the media type decides the schema. *)
Theorem C73_json_schema : forall (J Sch : Type) (B : backend J Sch) cl v k l1 cu l2 ct,
  documented B cl v -> c_method cl <> "head" -> units_of k (c_resp cl) (l1 ++ cu :: l2) ->
  (forall x, In x (l1 ++ cu :: l2) -> cu_custom_resp x = None) ->
  json_shown cu ct -> ~ tag_shown cu ct -> (forall x, In x l2 -> ~ contributes x ct) ->
  exists j s rest, snd (v_json cu) = Ret j /\ b_conv B j = Ret s /\
    get ct (content_before (vw_responses v) k) = Some (mkMedia (Some (b_unnull B s)) rest).
Proof.
  intros J Sch B cl v k l1 cu l2 ct D NH U NC JS NT L.
  assert (NE : l1 ++ cu :: l2 <> []) by (destruct l1; discriminate).
  pose proof (doc_media B cl v D k _ U NE NH NC ct) as M.
  apply responses_media_app in M. destruct M as (m & _ & M). apply responses_media_cons_inv in M. destruct M as (m' & M1 & M2).
  rewrite (responses_media_keep _ _ _ _ _ M2 L). destruct M1 as (x & y & A & _ & _ & C & E1 & E2).
  destruct (A JS) as (j & s & V & CV & ->). rewrite (C NT) in E1, E2. exists j, s, (rest_of m).
  split; [exact V|]. split; [exact CV|].
  destruct JS as (_ & _ & [T|(T & ->)]).
  - rewrite (E1 T). reflexivity.
  - destruct (string_dec (cu_ctype cu) "") as [Z|Z].
    + rewrite E2; [reflexivity|]. intros (X & _). pose proof (base_type_unique _ _ _ T X). discriminate.
    + rewrite E2; [reflexivity|]. intros (X & _). pose proof (base_type_unique _ _ _ T X). discriminate.
Qed.

(* A content type without JSON body and not documented before is a string of
   the format of the unit. *)
Theorem C73_plain : forall (J Sch : Type) (B : backend J Sch) cl v k l1 cu l2 ct,
  documented B cl v -> c_method cl <> "head" -> units_of k (c_resp cl) (l1 ++ cu :: l2) ->
  (forall x, In x (l1 ++ cu :: l2) -> cu_custom_resp x = None) ->
  type_shown cu ct -> cu_nil cu = true \/ v_has_json cu = Ret false -> ~ tag_shown cu ct ->
  get ct (content_before (vw_responses (c_view cl)) k) = None ->
  (forall x, In x l1 -> ~ contributes x ct) -> (forall x, In x l2 -> ~ contributes x ct) ->
  get ct (content_before (vw_responses v) k) = Some (mkMedia (Some (b_string B (cu_format cu))) JNull).
Proof.
  intros J Sch B cl v k l1 cu l2 ct D NH U NC TS NJ NT G L1 L2.
  assert (NE : l1 ++ cu :: l2 <> []) by (destruct l1; discriminate).
  pose proof (doc_media B cl v D k _ U NE NH NC ct) as M.
  apply responses_media_app in M. destruct M as (m & M0 & M). apply responses_media_cons_inv in M. destruct M as (m' & M1 & M2).
  apply responses_media_keep in M0; [|exact L1]. rewrite G in M0. subst m.
  rewrite (responses_media_keep _ _ _ _ _ M2 L2). destruct M1 as (x & y & _ & A & _ & C & E & _).
  rewrite (E TS), (C NT), A; [reflexivity|]. intros (X & Y & _). destruct NJ; congruence.
Qed.

Definition ex_text : cunit string string :=
  mkCU true "text/csv; charset=utf-8" "binary" 200 false "" false None None false false false false false
    (fun _ => false) (Ret false) (fun _ => ([], Err)) (fun _ => ([], Ret false)) [] (Ret false) ([], Err) ([], Err).

Example C73_case : exists cl v, documented (ex_backend false) cl v /\
  json_shown (ex_response 200 "" "" ["X"]) "application/json" /\ type_shown ex_text "text/csv" /\
  get "application/json" (content_before (vw_responses v) (KStatus "200")) = Some (mkMedia (Some "resp") JNull) /\
  get "text/csv" (content_before (vw_responses v) (KStatus "200")) = Some (mkMedia (Some "string:binary") JNull).
Proof.
  ex_call ex_doc30 (ex_oc30 "get" "/x" [] [ex_response 200 "" "" ["X"]; ex_text]).
  split; [|split; [|split; vm_compute; reflexivity]].
  - split; [reflexivity|]. split; [discriminate|]. right. split; [|reflexivity].
    exact (before_semicolon_base "").
  - split; [|discriminate]. exact (before_semicolon_base "text/csv; charset=utf-8").
Qed.

(* ---------- C74: headers of responses ---------- *)

Theorem C74_header : forall (J Sch : Type) (B : backend J Sch) cl v k l1 cu l2 n,
  documented B cl v -> units_of k (c_resp cl) (l1 ++ cu :: l2) ->
  (forall x, In x (l1 ++ cu :: l2) -> cu_custom_resp x = None) ->
  cu_nil cu = false -> (forall x, In x l2 -> cu_nil x = true) ->
  (forall q, last_named (fst (v_headers cu)) n q ->
     exists h, get n (headers_before (vw_responses v) k) = Some h /\ renders_header B q h) /\
  ((forall q, In q (fst (v_headers cu)) -> considered q = true -> pr_name q <> n) ->
     get n (headers_before (vw_responses v) k) = None).
Proof. intros. eapply doc_header; eauto. Qed.

Example C74_case : exists cl v, documented (ex_backend true) cl v /\
  last_named (fst (v_headers (ex_response 200 "" "" ["X"; "Y"]))) "X" (ex_prop "X" "") /\
  get "X" (headers_before (vw_responses v) (KStatus "200")) = Some (mkHeader None None None None None None (Some "X")).
Proof.
  ex_call ex_doc31 (ex_oc31 "get" "/x" [] [ex_response 200 "" "" ["X"; "Y"]]).
  split; [|vm_compute; reflexivity]. exists [], [ex_prop "Y" ""]. split; [reflexivity|]. split; [reflexivity|].
  split; [reflexivity|]. intros x [<-|[]] _. discriminate.
Qed.

(* ---------- C75: media types of request bodies ---------- *)

(* The last unit that documents a media type decides its entry. *)
Theorem C75_media : forall (J Sch : Type) (B : backend J Sch) cl v l1 cu l2 ct,
  documented B cl v -> (forall x, In x (c_req cl) -> cu_custom_req x = None) ->
  c_req cl = l1 ++ cu :: l2 -> body_type (c_method cl) cu ct ->
  (forall x, In x l2 -> ~ body_type (c_method cl) x ct) ->
  gives B (c_method cl) cu ct (get ct (body_content (vw_body v))).
Proof. intros. eapply doc_body_gives; eauto. Qed.

Theorem C75_others_kept : forall (J Sch : Type) (B : backend J Sch) cl v ct,
  documented B cl v -> (forall x, In x (c_req cl) -> cu_custom_req x = None) ->
  (forall x, In x (c_req cl) -> ~ body_type (c_method cl) x ct) ->
  get ct (body_content (vw_body v)) = get ct (body_content (vw_body (c_view cl))).
Proof. intros. eapply doc_body_keep; eauto. Qed.

(* There is a body exactly when there was one or a unit documents a media type. *)
Theorem C75_body_present : forall (J Sch : Type) (B : backend J Sch) cl v,
  documented B cl v -> (forall x, In x (c_req cl) -> cu_custom_req x = None) ->
  (has_body (vw_body v) <->
   has_body (vw_body (c_view cl)) \/ exists cu ct, In cu (c_req cl) /\ body_type (c_method cl) cu ct).
Proof. intros. eapply doc_body_has; eauto. Qed.

Theorem C75_body_untouched : forall (J Sch : Type) (B : backend J Sch) cl v,
  documented B cl v -> (forall x, In x (c_req cl) -> cu_custom_req x = None) ->
  (forall cu, In cu (c_req cl) -> (forall ct, ~ body_type (c_method cl) cu ct) /\ cu_desc cu = "") ->
  vw_body v = vw_body (c_view cl).
Proof. intros. eapply doc_body_none; eauto. Qed.

(* A structure with json tags and a file upload of another type. *)
Definition ex_json_body (desc : string) : cunit string string :=
  mkCU false "" "" 0 false desc false None None false false false false false
    (fun t => String.eqb t "json") (Ret false)
    (fun t => if String.eqb t "json" then ([], Ret ("body", [("In", "in")])) else ([], Err))
    (fun _ => ([], Ret false)) ["text/plain"] (Ret false) ([], Err) ([], Err).
Definition ex_csv_body : cunit string string :=
  mkCU true "text/csv" "binary" 0 false "" false None None false false false false false
    (fun _ => false) (Ret false) (fun _ => ([], Err)) (fun _ => ([], Ret false)) [] (Ret false) ([], Err) ([], Err).

Lemma ex_json_type : body_type "post" (ex_json_body "d") "application/json".
Proof.
  apply bt_json; [left; reflexivity|]. split; [left; intros [X|[X|[X|X]]]; discriminate|].
  split; [intros [X|X]; discriminate|left; reflexivity].
Qed.

Example C75_case : exists cl v, documented (ex_backend false) cl v /\
  (forall x, In x (c_req cl) -> cu_custom_req x = None) /\ c_method cl = "post" /\
  body_type "post" (ex_json_body "d") "application/json" /\ body_type "post" ex_csv_body "text/csv" /\
  body_content (vw_body v) = [("application/json", mkMedia (Some "body") JNull);
    ("text/plain", mkMedia (Some "string:") JNull); ("text/csv", mkMedia (Some "string:binary") JNull)].
Proof.
  ex_call ex_doc30 (ex_oc30 "post" "/x" [ex_json_body "d"; ex_csv_body] []).
  split; [intros x [<-|[<-|[]]]; reflexivity|]. split; [reflexivity|]. split; [exact ex_json_type|].
  split; [|vm_compute; reflexivity]. apply bt_other. intros [X|[X|[X|[X|[]]]]]; discriminate.
Qed.

(* ---------- C76: description of the request body ---------- *)

Theorem C76_description : forall (J Sch : Type) (B : backend J Sch) cl v l1 cu l2,
  documented B cl v -> (forall x, In x (c_req cl) -> cu_custom_req x = None) ->
  c_req cl = l1 ++ cu :: l2 -> cu_desc cu <> "" -> (forall x, In x l2 -> cu_desc x = "") ->
  has_body (vw_body (c_view cl)) \/ (exists x ct, In x (l1 ++ [cu]) /\ body_type (c_method cl) x ct) ->
  body_desc (vw_body v) = Some (cu_desc cu).
Proof. intros. eapply doc_body_desc; eauto. Qed.

Theorem C76_description_kept : forall (J Sch : Type) (B : backend J Sch) cl v,
  documented B cl v -> (forall x, In x (c_req cl) -> cu_custom_req x = None) ->
  (forall x, In x (c_req cl) -> cu_desc x = "") ->
  body_desc (vw_body v) = body_desc (vw_body (c_view cl)).
Proof. intros. eapply doc_body_desc_keep; eauto. Qed.

Example C76_case : exists cl v, documented (ex_backend true) cl v /\ c_req cl = [ex_json_body "d"; ex_csv_body] /\
  body_type (c_method cl) (ex_json_body "d") "application/json" /\ body_desc (vw_body v) = Some "d".
Proof.
  ex_call ex_doc31 (ex_oc31 "post" "/x" [ex_json_body "d"; ex_csv_body] []).
  split; [reflexivity|]. split; [exact ex_json_type|vm_compute; reflexivity].
Qed.

(* ---------- C77: where components come from ---------- *)

(* Whatever the outcome of the call. *)
Theorem C77_origin_30 : forall (J Sch : Type) (B : backend J Sch) r oc r' oc' a n s,
  made30 oc -> reflector_add30 B r oc = (r', oc', a) -> get n (r30_comps r') = Some s ->
  get n (r30_comps r) = Some s \/
  exists j, call_def (oc_method oc) (oc_req oc) (oc_resp oc) n j /\ b_conv B j = Ret s.
Proof.
  intros J Sch B r oc r' oc' a n s M H. apply made30_ok in M. destruct M as (OM & _). unfold reflector_add30 in H.
  destruct (setup_oc30 B (r30_comps r) oc) as [[c o] x] eqn:E.
  apply (setup_oc_from B _ _ _ _ _ _ _ OM) in E.
  destruct x; [destruct (add_operation30 _ _ _ _)|..]; injection H as <- <- <-; apply E.
Qed.

Theorem C77_origin_31 : forall (J Sch : Type) (B : backend J Sch) r oc r' oc' a n s,
  made31 oc -> (reflector_add31 B r oc = (r', oc', a) \/ reflector_webhook31 B r oc = (r', oc', a)) ->
  get n (r31_comps r') = Some s ->
  get n (r31_comps r) = Some s \/
  exists j, call_def (oc_method oc) (oc_req oc) (oc_resp oc) n j /\ b_conv B j = Ret s.
Proof.
  intros J Sch B r oc r' oc' a n s M H. apply made31_ok in M. destruct M as (OM & _).
  unfold reflector_add31, reflector_webhook31 in H.
  destruct (setup_oc31 B (r31_comps r) oc) as [[c o] x] eqn:E.
  apply (setup_oc_from B _ _ _ _ _ _ _ OM) in E.
  destruct H as [H|H]; (destruct x; [first [destruct (add_operation31 _ _ _ _)|destruct (add_webhook31 _ _ _ _)]|..]);
    injection H as <- <- <-; apply E.
Qed.

(* After success every reported definition is a component, a new one with the
   converted schema when the reports of the name agree. *)
Theorem C77_registered_30 : forall (J Sch : Type) (B : backend J Sch) r oc r' oc' n j,
  made30 oc -> reflector_add30 B r oc = (r', oc', AOk) ->
  call_def (oc_method oc) (oc_req oc) (oc_resp oc) n j ->
  In n (keys (r30_comps r')) /\
  (get n (r30_comps r) = None -> (forall i, call_def (oc_method oc) (oc_req oc) (oc_resp oc) n i -> i = j) ->
   exists s, b_conv B j = Ret s /\ get n (r30_comps r') = Some s).
Proof.
  intros J Sch B r oc r' oc' n j M H CD. apply made30_ok in M. destruct M as (OM & _). unfold reflector_add30 in H.
  destruct (setup_oc30 B (r30_comps r) oc) as [[c o] x] eqn:E. destruct x; [|discriminate..].
  pose proof (setup_oc_registered B _ _ _ _ _ _ (fun x => eq_refl) OM E n j CD) as P1.
  pose proof (setup_oc_exact B _ _ _ _ _ _ (fun x => eq_refl) OM E n j CD) as P2.
  destruct (add_operation30 _ _ _ _). injection H as <- _ _. split; assumption.
Qed.

Theorem C77_registered_31 : forall (J Sch : Type) (B : backend J Sch) r oc r' oc' n j,
  made31 oc -> (reflector_add31 B r oc = (r', oc', AOk) \/ reflector_webhook31 B r oc = (r', oc', AOk)) ->
  call_def (oc_method oc) (oc_req oc) (oc_resp oc) n j ->
  In n (keys (r31_comps r')) /\
  (get n (r31_comps r) = None -> (forall i, call_def (oc_method oc) (oc_req oc) (oc_resp oc) n i -> i = j) ->
   exists s, b_conv B j = Ret s /\ get n (r31_comps r') = Some s).
Proof.
  intros J Sch B r oc r' oc' n j M H CD. apply made31_ok in M. destruct M as (OM & _).
  unfold reflector_add31, reflector_webhook31 in H.
  destruct (setup_oc31 B (r31_comps r) oc) as [[c o] x] eqn:E. destruct x; [|destruct H; discriminate..].
  assert (P1 : In n (keys c)) by (eapply (setup_oc_registered B) with (4 := CD); [|exact OM|exact E]; reflexivity).
  assert (P2 : get n (r31_comps r) = None -> (forall i, call_def (oc_method oc) (oc_req oc) (oc_resp oc) n i -> i = j) ->
    exists s, b_conv B j = Ret s /\ get n c = Some s)
    by (eapply (setup_oc_exact B) with (4 := CD); [|exact OM|exact E]; reflexivity).
  destruct H as [H|H]; first [destruct (add_operation31 _ _ _ _)|destruct (add_webhook31 _ _ _ _)]; injection H as <- _ _;
    split; assumption.
Qed.

Example C77_case :
  let oc := ex_oc30 "post" "/x" [ex_json_body ""] [ex_response 200 "" "" []] in
  made30 oc /\ call_def "post" (oc_req oc) (oc_resp oc) "In" "in" /\ call_def "post" (oc_req oc) (oc_resp oc) "Out" "out" /\
  r30_comps (fst (fst (reflector_add30 (ex_backend false) ex_refl30 oc))) = [("In", "in"); ("Out", "out")].
Proof.
  cbv zeta. split; [ex_made|]. split; [|split; [|vm_compute; reflexivity]].
  - left. exists (ex_json_body ""). split; [left; reflexivity|].
    eapply rd_body_json; [left; reflexivity| |reflexivity|left; reflexivity].
    split; [left; intros [X|[X|[X|X]]]; discriminate|]. split; [intros [X|X]; discriminate|left; reflexivity].
  - right. exists (ex_response 200 "" "" []). split; [left; reflexivity|].
    apply sd_json; [discriminate|reflexivity|discriminate|left; reflexivity].
Qed.

(* ---------- assumptions ---------- *)

Print Assumptions C73_media.
Print Assumptions C73_json_schema.
Print Assumptions C73_plain.
Print Assumptions C74_header.
Print Assumptions C75_media.
Print Assumptions C75_others_kept.
Print Assumptions C75_body_present.
Print Assumptions C75_body_untouched.
Print Assumptions C76_description.
Print Assumptions C76_description_kept.
Print Assumptions C77_origin_30.
Print Assumptions C77_origin_31.
Print Assumptions C77_registered_30.
Print Assumptions C77_registered_31.
