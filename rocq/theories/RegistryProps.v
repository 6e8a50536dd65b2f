(* Theorems about Spec.AddOperation, Spec.SetupOperation and Spec.AddWebhook
   of openapi3/helper.go and openapi31/helper.go. *)
From Verif Require Import Str SMap Json PathModel PathSpec PathProofs PathProps Types.
From Verif Require Import RegistryModel RegistrySpec RegistryProofs.

(* ---------- example data ---------- *)

Definition ex_param (name loc : string) : por unit :=
  mkPor (Some (mkParam name loc None (Some true) None None None None None None [] JNull)) None.
Definition ex_op30 (id : string) (ps : list (por unit)) : op30 unit :=
  mkOp [] None None (Some id) ps None (mkResps None []) None [] [] JNull.
Definition ex_op31 (id : string) (ps : list (por unit)) : op31 unit :=
  mkOp [] None None (Some id) ps None None None [] [] JNull.
Definition ex_new30 : paths30 unit := mkPaths30 [] JNull.
Definition ex_new31 : paths31 unit := mkPaths31 None [] JNull.
Definition ex_id : list (por unit) := [ex_param "id" "path"; ex_param "id" "query"].
(* One documented operation: GET /a/{id}. *)
Definition ex_calls30 : list call30 := [("GET", "/a/{id}", ex_op30 "A" ex_id)].
Definition ex_calls31 : list call31 := [("GET", "/a/{id}", ex_op31 "A" ex_id)].
Definition ex_doc30 : paths30 unit := run30 ex_new30 ex_calls30.
Definition ex_doc31 : paths31 unit := run31 ex_new31 ex_calls31.

Lemma ex_clean c s l : parses (String c s) l -> map strip l = l -> clean (String c s).
Proof. intros P E l' P'. rewrite <- (parses_unique _ _ P _ P'). exact E. Qed.

Lemma ex_clean_a : clean "/a/{id}".
Proof.
  apply (ex_clean _ _ [Lit "/"; Lit "a"; Lit "/"; Ph "id" None]); [solve_parses | reflexivity].
Qed.

Lemma ex_parses_raw : parses "/a/{id:x}" [Lit "/"; Lit "a"; Lit "/"; Ph "id" (Some "x")].
Proof. solve_parses. Qed.

Lemma ex_legal : legal_params ex_id.
Proof. intros n i [E|[E|[]]]; injection E as <- <-; unfold legal_loc; auto. Qed.

Lemma ex_match : params_match ["id"] ex_id.
Proof.
  split.
  - repeat constructor; simpl; intuition discriminate.
  - simpl. intuition (try discriminate); left; congruence.
Qed.

(* ---------- C06, C07: which calls are accepted ---------- *)

Theorem C06_add_accepts_30 : forall (Sch : Type) (s : paths30 Sch) method path l o,
  parses path l -> legal_params (op_params o) ->
  ((exists s', add_operation30 s method path o = (s', None)) <->
   exists m, openapi_method m /\ method_is method m /\ doc30 s path m = None /\
     params_match (names l) (op_params o)).
Proof. intros. apply add30_accept; assumption. Qed.

Theorem C06_setup_accepts_30 : forall (Sch : Type) (s : paths30 Sch) method path l fs,
  parses path l ->
  (forall m o, applied fs (current30 s (render (map strip l)) m) o -> legal_params (op_params o)) ->
  ((exists s', setup_operation30 s method path fs = (s', None)) <->
   exists m o, openapi_method m /\ method_is method m /\
     applied fs (current30 s (render (map strip l)) m) o /\ params_match (names l) (op_params o)).
Proof. intros. apply setup30_accept; assumption. Qed.

Theorem C07_add_accepts_31 : forall (Sch : Type) (s : paths31 Sch) method path l o,
  parses path l -> legal_params (op_params o) ->
  ((exists s', add_operation31 s method path o = (s', None)) <->
   exists m, openapi_method m /\ method_is method m /\ doc31 s path m = None /\
     params_match (names l) (op_params o)).
Proof. intros. apply add31_accept; assumption. Qed.

Theorem C07_setup_accepts_31 : forall (Sch : Type) (s : paths31 Sch) method path l fs,
  parses path l ->
  (forall m o, applied fs (current31 s (render (map strip l)) m) o -> legal_params (op_params o)) ->
  ((exists s', setup_operation31 s method path fs = (s', None)) <->
   exists m o, openapi_method m /\ method_is method m /\
     applied fs (current31 s (render (map strip l)) m) o /\ params_match (names l) (op_params o)).
Proof. intros. apply setup31_accept; assumption. Qed.

(* A path with a constraint, parameters of two locations with one name. *)
Example C06_example :
  parses "/a/{id:x}" [Lit "/"; Lit "a"; Lit "/"; Ph "id" (Some "x")] /\ legal_params ex_id /\
  params_match ["id"] ex_id /\
  snd (add_operation30 ex_new30 "Post" "/a/{id:x}" (ex_op30 "B" ex_id)) = None /\
  snd (add_operation31 ex_new31 "Post" "/a/{id:x}" (ex_op31 "B" ex_id)) = None /\
  snd (add_operation30 ex_new30 "Post" "/a/{id:x}" (ex_op30 "B" [])) = Some (EParams [EUndefined "id"]).
Proof.
  split; [exact ex_parses_raw|]. split; [exact ex_legal|]. split; [exact ex_match|].
  repeat split; reflexivity.
Qed.

(* ---------- C08, C09: AddOperation never replaces ---------- *)

(* A second operation under a documented (path, method) is refused. *)
Theorem C08_second_is_error : forall (Sch : Type) (s : paths30 Sch) method path m o old,
  openapi_method m -> method_is method m -> doc30 s path m = Some old ->
  add_operation30 s method path o = (s, Some EExists).
Proof.
  intros Sch s method path m o old Hm M D. destruct (parses_total path) as [l Hl].
  pose proof (proj2 (sanitize_iff method path l m Hl) (conj Hm M)) as S.
  pose proof (add30_result s _ _ o _ _ _ S) as R. rewrite D in R. simpl in R.
  destruct (add_operation30 s method path o) as [s' r] eqn:E. simpl in R. subst r.
  rewrite (add30_err _ _ _ _ _ _ E). reflexivity.
Qed.

(* But the check is made with the path as written and the operation is stored
   under the clean path: a documented operation is replaced without error. *)
Theorem C08_never_replaces_refuted : exists (s s' : paths30 unit) method path o p m old,
  s = run30 ex_new30 ex_calls30 /\
  add_operation30 s method path o = (s', None) /\
  doc30 s p m = Some old /\ doc30 s' p m <> Some old.
Proof.
  exists ex_doc30. eexists. exists "GET", "/a/{id:x}", (ex_op30 "B" ex_id), "/a/{id}", "get". eexists.
  repeat split; try reflexivity. vm_compute. discriminate.
Qed.

(* Exactly then: an operation is lost only to a call with a constraint in the
   path whose clean path is the path of the lost operation. *)
Theorem C08_replaces_only_through_constraints : forall (Sch : Type) (s s' : paths30 Sch) method path l o r p m old,
  parses path l -> add_operation30 s method path o = (s', r) ->
  doc30 s p m = Some old -> doc30 s' p m <> Some old ->
  r = None /\ p = render (map strip l) /\ p <> path /\ method_is method m.
Proof.
  intros Sch s s' method path l o r p m old Hl H D D'. destruct r as [e|].
  - apply add30_err in H. congruence.
  - destruct (add30_effect _ _ _ _ _ _ Hl H) as (m' & o' & Hm & M & N & _ & A1 & A2 & _).
    destruct (string_dec p (render (map strip l))) as [->|NP]; [destruct (string_dec m m') as [->|NM]|].
    + repeat split; auto. intros E. rewrite E in D. congruence.
    + rewrite A2 in D' by congruence. congruence.
    + rewrite A2 in D' by congruence. congruence.
Qed.

Theorem C08_never_replaces_partial : forall (Sch : Type) (s s' : paths30 Sch) method path o r,
  clean path -> add_operation30 s method path o = (s', r) ->
  forall p m old, doc30 s p m = Some old -> doc30 s' p m = Some old.
Proof. intros. eapply add30_clean_keeps; eauto. Qed.

Theorem C08_history_partial : forall (Sch : Type) (cs : list call30) (s : paths30 Sch),
  Forall (fun c => clean (snd (fst c))) cs ->
  forall p m old, doc30 s p m = Some old -> doc30 (run30 s cs) p m = Some old.
Proof. intros. apply run30_keeps; assumption. Qed.

Theorem C09_second_is_error : forall (Sch : Type) (s : paths31 Sch) method path m o old,
  openapi_method m -> method_is method m -> doc31 s path m = Some old ->
  add_operation31 s method path o = (s, Some EExists).
Proof.
  intros Sch s method path m o old Hm M D.
  assert (E : to_lower method = m) by (apply lower_of_method; auto).
  unfold add_operation31. rewrite E.
  unfold doc31 in D. destruct (sp31_items s) as [items|] eqn:I; [|discriminate].
  unfold paths_ens. rewrite I, (pi_operation_slot _ _ Hm), slot_item31, D. reflexivity.
Qed.

Theorem C09_never_replaces_refuted : exists (s s' : paths31 unit) method path o p m old,
  s = run31 ex_new31 ex_calls31 /\
  add_operation31 s method path o = (s', None) /\
  doc31 s p m = Some old /\ doc31 s' p m <> Some old.
Proof.
  exists ex_doc31. eexists. exists "GET", "/a/{id:x}", (ex_op31 "B" ex_id), "/a/{id}", "get". eexists.
  repeat split; try reflexivity. vm_compute. discriminate.
Qed.

Theorem C09_never_replaces_partial : forall (Sch : Type) (s s' : paths31 Sch) method path o r,
  clean path -> add_operation31 s method path o = (s', r) ->
  forall p m old, doc31 s p m = Some old -> doc31 s' p m = Some old.
Proof. intros. eapply add31_clean_keeps; eauto. Qed.

Theorem C09_history_partial : forall (Sch : Type) (cs : list call31) (s : paths31 Sch),
  Forall (fun c => clean (snd (fst c))) cs ->
  forall p m old, doc31 s p m = Some old -> doc31 (run31 s cs) p m = Some old.
Proof. intros. apply run31_keeps; assumption. Qed.

Example C08_example :
  clean "/a/{id}" /\
  (exists old, doc30 ex_doc30 "/a/{id}" "get" = Some old /\ op_id old = Some "A") /\
  snd (add_operation30 ex_doc30 "get" "/a/{id}" (ex_op30 "B" ex_id)) = Some EExists /\
  snd (add_operation30 ex_doc30 "put" "/a/{id}" (ex_op30 "B" ex_id)) = None.
Proof.
  split; [exact ex_clean_a|]. split; [eexists; split; reflexivity|]. split; reflexivity.
Qed.

Example C09_example :
  clean "/a/{id}" /\
  (exists old, doc31 ex_doc31 "/a/{id}" "get" = Some old /\ op_id old = Some "A") /\
  snd (add_operation31 ex_doc31 "get" "/a/{id}" (ex_op31 "B" ex_id)) = Some EExists /\
  snd (add_operation31 ex_doc31 "put" "/a/{id}" (ex_op31 "B" ex_id)) = None.
Proof.
  split; [exact ex_clean_a|]. split; [eexists; split; reflexivity|]. split; reflexivity.
Qed.

(* ---------- C10: frame ---------- *)

Theorem C10_add_frame_30 : forall (Sch : Type) (s s' : paths30 Sch) method path l o,
  parses path l -> add_operation30 s method path o = (s', None) ->
  exists m o', openapi_method m /\ method_is method m /\ completed30 o o' /\
    only_at30 s s' (render (map strip l)) m o'.
Proof.
  intros Sch s s' method path l o Hl H.
  destruct (add30_effect _ _ _ _ _ _ Hl H) as (m & o' & ? & ? & _ & ? & ?). eauto 8.
Qed.

Theorem C10_setup_frame_30 : forall (Sch : Type) (s s' : paths30 Sch) method path l fs,
  parses path l -> setup_operation30 s method path fs = (s', None) ->
  exists m o, openapi_method m /\ method_is method m /\
    applied fs (current30 s (render (map strip l)) m) o /\ only_at30 s s' (render (map strip l)) m o.
Proof. intros. eapply setup30_effect; eauto. Qed.

Theorem C10_add_frame_31 : forall (Sch : Type) (s s' : paths31 Sch) method path l o,
  parses path l -> add_operation31 s method path o = (s', None) ->
  exists m o', openapi_method m /\ method_is method m /\ completed31 o o' /\
    only_at31 s s' (render (map strip l)) m o'.
Proof.
  intros Sch s s' method path l o Hl H.
  destruct (add31_effect _ _ _ _ _ _ Hl H) as (m & o' & ? & ? & _ & ? & ?). eauto 8.
Qed.

Theorem C10_setup_frame_31 : forall (Sch : Type) (s s' : paths31 Sch) method path l fs,
  parses path l -> setup_operation31 s method path fs = (s', None) ->
  exists m o, openapi_method m /\ method_is method m /\
    applied fs (current31 s (render (map strip l)) m) o /\ only_at31 s s' (render (map strip l)) m o.
Proof. intros. eapply setup31_effect; eauto. Qed.

Example C10_example :
  exists s', add_operation30 ex_doc30 "PUT" "/a/{id:x}" (ex_op30 "B" ex_id) = (s', None) /\
  doc30 s' "/a/{id}" "get" = doc30 ex_doc30 "/a/{id}" "get" /\
  exists o', doc30 s' "/a/{id}" "put" = Some o' /\ op_responses o' = response_204.
Proof. eexists. split; [reflexivity|]. split; [reflexivity|]. eexists. split; reflexivity. Qed.

(* ---------- C11, C12: failing calls ---------- *)

Theorem C11_add_atomic_30 : forall (Sch : Type) (s s' : paths30 Sch) method path o e,
  add_operation30 s method path o = (s', Some e) -> s' = s.
Proof. intros. eapply add30_err; eauto. Qed.

Theorem C11_setup_atomic_30 : forall (Sch : Type) (s s' : paths30 Sch) method path fs e,
  setup_operation30 s method path fs = (s', Some e) -> s' = s.
Proof. intros. eapply setup30_err; eauto. Qed.

Example C11_example :
  snd (add_operation30 ex_doc30 "get" "/b/{id}" (ex_op30 "B" [ex_param "no" "path"]))
    = Some (EParams [EMissingPlaceholder "no"; EUndefined "id"]) /\
  snd (setup_operation30 ex_doc30 "get" "/a/{id}" [fun _ => (zero_op30, true)]) = Some ESetup.
Proof. split; reflexivity. Qed.

(* In 3.1 the operation under a clean path is written through a pointer before
   it is validated: a failing AddOperation destroys a documented operation. *)
Theorem C12_add_atomic_31_refuted : exists (s s' : paths31 unit) method path o e,
  s = run31 ex_new31 ex_calls31 /\
  add_operation31 s method path o = (s', Some e) /\ ~ same31 s s'.
Proof.
  exists ex_doc31. eexists. exists "get", "/a/{id:x}", (ex_op31 "B" []). eexists.
  split; [reflexivity|]. split; [reflexivity|].
  intros (_ & _ & _ & H). specialize (H "/a/{id}" "get"). vm_compute in H. discriminate.
Qed.

Theorem C12_setup_atomic_31_refuted : exists (s s' : paths31 unit) method path fs e,
  s = run31 ex_new31 ex_calls31 /\ clean path /\
  setup_operation31 s method path fs = (s', Some e) /\ ~ same31 s s'.
Proof.
  exists ex_doc31. eexists. exists "get", "/a/{id}", [fun _ => (zero_op31, true)]. eexists.
  split; [reflexivity|]. split; [exact ex_clean_a|]. split; [reflexivity|].
  intros (_ & _ & _ & H). specialize (H "/a/{id}" "get"). vm_compute in H. discriminate.
Qed.

Theorem C12_add_atomic_31_partial : forall (Sch : Type) (s s' : paths31 Sch) method path o e,
  clean path -> add_operation31 s method path o = (s', Some e) -> same31 s s'.
Proof. intros. eapply add31_clean_err; eauto. Qed.

(* A failing SetupOperation for an operation that is not documented yet. *)
Theorem C12_setup_atomic_31_partial : forall (Sch : Type) (s s' : paths31 Sch) method path l fs e,
  parses path l ->
  (forall m, openapi_method m -> method_is method m -> doc31 s (render (map strip l)) m = None) ->
  setup_operation31 s method path fs = (s', Some e) -> same31 s s'.
Proof.
  intros Sch s s' method path l fs e Hl N H.
  apply setup31_cases in H as [(_ & -> & _)|(m & p & ps & o & failed & S & R & E & W1 & W2 & W3 & W4)].
  - apply same31_refl.
  - repeat split; auto. intros p2 m2. rewrite W4.
    destruct (sanitize_some _ _ _ _ _ _ Hl S) as (Hm & M & _ & -> & _).
    rewrite (N m Hm M). simpl. rewrite andb_false_r. reflexivity.
Qed.

(* What a failing 3.1 call can change at most: the operation at the clean path. *)
Theorem C12_damage_is_local : forall (Sch : Type) (s s' : paths31 Sch) method path l o e,
  parses path l -> add_operation31 s method path o = (s', Some e) ->
  sp31_webhooks s' = sp31_webhooks s /\ sp31_rest s' = sp31_rest s /\
  (forall p, item_rest31 s' p = item_rest31 s p) /\
  (forall p m, (p = render (map strip l) /\ p <> path /\ method_is method m /\ doc31 s p m <> None) \/
     doc31 s' p m = doc31 s p m).
Proof.
  intros Sch s s' method path l o e Hl H.
  apply add31_cases in H as [(e' & H & S & _)|(m & p & ps & S & D & R & W1 & W2 & W3 & W4)].
  - destruct S as (? & ? & ? & ?). repeat split; auto.
  - repeat split; auto. intros p2 m2.
    destruct (sanitize_some _ _ _ _ _ _ Hl S) as (Hm & M & _ & -> & _).
    destruct (string_dec p2 (render (map strip l))) as [->|NP]; [destruct (string_dec m2 m) as [->|NM]|].
    + destruct (doc31 s (render (map strip l)) m) eqn:D2.
      * left. repeat split; auto; [intros E; congruence | discriminate].
      * right. rewrite W4, D2. simpl. rewrite andb_false_r. auto.
    + right. rewrite W4, pair_neqb by congruence. reflexivity.
    + right. rewrite W4, pair_neqb by congruence. reflexivity.
Qed.

Theorem C12_webhook_atomic_31 : forall (Sch : Type) (s s' : paths31 Sch) method name o e,
  add_webhook31 s method name o = (s', Some e) -> s' = s.
Proof.
  intros Sch s s' method name o e H.
  apply webhook_cases in H as [(? & _ & ? & _)|[(_ & _ & ? & _)|(? & ? & _ & _ & _ & ? & _)]]; congruence.
Qed.

Example C12_example :
  clean "/a/{id}" /\
  snd (add_operation31 ex_doc31 "put" "/a/{id}" (ex_op31 "B" [])) = Some (EParams [EUndefined "id"]) /\
  snd (add_webhook31 ex_doc31 "LINK" "w" (ex_op31 "B" [])) = Some EMethod.
Proof. split; [exact ex_clean_a|]. split; reflexivity. Qed.

(* ---------- C13: reachable documents are coherent ---------- *)

Theorem C13_coherent_30 : forall (Sch : Type) (s : paths30 Sch) (cs : list call30),
  empty30 s -> Forall (fun c => legal_params (op_params (snd c))) cs ->
  forall p m o, doc30 (run30 s cs) p m = Some o ->
    coherent p m (op_params o) (Some (op_responses o)).
Proof. intros Sch s cs E F. apply coh30_run; auto. apply coh30_empty. exact E. Qed.

Theorem C13_coherent_31_partial : forall (Sch : Type) (s : paths31 Sch) (cs : list call31),
  empty31 s -> Forall (fun c => clean (snd (fst c)) /\ legal_params (op_params (snd c))) cs ->
  forall p m o, doc31 (run31 s cs) p m = Some o -> coherent p m (op_params o) (op_responses o).
Proof. intros Sch s cs E F. apply coh31_run; auto. apply coh31_empty. exact E. Qed.

(* With a constraint in the path of a failing call coherence is lost in 3.1. *)
Theorem C13_coherent_31_refuted : exists (cs : list (@call31 unit)) p m o,
  Forall (fun c => legal_params (op_params (snd c))) cs /\
  doc31 (run31 ex_new31 cs) p m = Some o /\ ~ coherent p m (op_params o) (op_responses o).
Proof.
  exists (ex_calls31 ++ [("get", "/a/{id:x}", ex_op31 "B" [])]), "/a/{id}", "get". eexists.
  split; [apply Forall_cons; [exact ex_legal|]; apply Forall_cons; [intros n i []|]; apply Forall_nil|]. split; [reflexivity|].
  intros (_ & _ & C & _).
  assert (P : parses "/a/{id}" [Lit "/"; Lit "a"; Lit "/"; Ph "id" None]) by solve_parses.
  destruct (C _ P) as [_ C']. apply (proj1 (C' "id")). simpl. auto.
Qed.

Example C13_example :
  empty30 ex_new30 /\ empty31 ex_new31 /\
  Forall (fun c : call30 => legal_params (op_params (snd c))) ex_calls30 /\
  Forall (fun c : call31 => clean (snd (fst c)) /\ legal_params (op_params (snd c))) ex_calls31 /\
  exists o, doc30 (run30 ex_new30 ex_calls30) "/a/{id}" "get" = Some o.
Proof.
  split; [reflexivity|]. split; [left; reflexivity|].
  split; [apply Forall_cons; [exact ex_legal|]; apply Forall_nil|].
  split; [apply Forall_cons; [split; [exact ex_clean_a | exact ex_legal]|]; apply Forall_nil|]. eexists. reflexivity.
Qed.

(* ---------- C14: webhooks ---------- *)

Theorem C14_webhook_accepts : forall (Sch : Type) (s : paths31 Sch) method name o,
  (exists s', add_webhook31 s method name o = (s', None)) <->
  (~ In name (keys (sp31_webhooks s)) /\ exists m, openapi_method m /\ method_is method m).
Proof.
  intros Sch s method name o. rewrite <- get_None. split.
  - intros [s' H].
    apply webhook_cases in H as [(? & _ & _ & ?)|[(_ & _ & _ & ?)|(m & ? & ? & ? & ? & _)]]; try discriminate. eauto.
  - intros [G (m & Hm & M)]. destruct (add_webhook31 s method name o) as [s' r] eqn:H. exists s'. f_equal.
    apply webhook_cases in H as [(? & ? & _)|[(_ & N & _)|(? & ? & _ & _ & _ & ? & _)]]; auto; [congruence|].
    exfalso. eauto.
Qed.

Theorem C14_webhook_effect : forall (Sch : Type) (s s' : paths31 Sch) method name o,
  add_webhook31 s method name o = (s', None) ->
  sp31_items s' = sp31_items s /\ sp31_rest s' = sp31_rest s /\
  exists m pi o', openapi_method m /\ method_is method m /\ completed31 o o' /\
    get name (sp31_webhooks s') = Some pi /\ pi31_rest pi = JNull /\
    (forall m', slot pi m' = if String.eqb m' m then Some o' else None) /\
    (forall n, n <> name -> get n (sp31_webhooks s') = get n (sp31_webhooks s)).
Proof.
  intros Sch s s' method name o H.
  apply webhook_cases in H as [(? & _ & _ & ?)|[(_ & _ & _ & ?)|(m & pi & G & Hm & M & _ & I & R & W & PR & SL)]];
    try discriminate.
  split; auto. split; auto. exists m, pi. eexists. split; auto. split; auto. split; [apply completed31_ensure|].
  rewrite W, get_put_same. repeat split; auto. intros n N. apply get_put_other. exact N.
Qed.

Theorem C14_first_registration_wins : forall (Sch : Type) (s : paths31 Sch) (l : list act31) name pi,
  get name (sp31_webhooks s) = Some pi ->
  get name (sp31_webhooks (act_run31 s l)) = Some pi.
Proof. intros. apply act_run_hook_keeps. assumption. Qed.

Example C14_example :
  exists s', add_webhook31 ex_doc31 "PATCH" "w" (ex_op31 "W" []) = (s', None) /\
  snd (add_webhook31 s' "get" "w" (ex_op31 "W2" [])) = Some EDupWebhook /\
  exists pi, get "w" (sp31_webhooks s') = Some pi.
Proof. eexists. split; [reflexivity|]. split; [reflexivity|]. eexists. reflexivity. Qed.

(* ---------- C51: the two packages agree ---------- *)

Theorem C51_same_result : forall (Sch : Type) (s : paths30 Sch) (t : paths31 Sch) method path a b m,
  corr s t -> same_op a b -> openapi_method m -> method_is method m ->
  snd (add_operation31 t method path b) = snd (add_operation30 s method path a).
Proof. intros. eapply parity_result; eauto. Qed.

Theorem C51_bad_methods_fail_in_both : forall (Sch : Type) (s : paths30 Sch) (t : paths31 Sch) method path a b,
  (~ exists m, openapi_method m /\ method_is method m) ->
  (exists e, snd (add_operation30 s method path a) = Some e) /\
  (exists e, snd (add_operation31 t method path b) = Some e).
Proof.
  intros Sch s t method path a b N. apply (proj2 (C01_method_error method path)) in N.
  split; [apply add30_bad_method | apply add31_bad_method]; exact N.
Qed.

(* U+017F lower-cases to itself and upper-cases to S, and 3.1 looks the
   operation up under the upper-cased method. *)
Theorem C51_same_error_refuted : exists (s : paths30 unit) (t : paths31 unit) method path a b,
  corr s t /\ same_op a b /\
  snd (add_operation30 s method path a) = Some EMethod /\
  snd (add_operation31 t method path b) = Some EExists.
Proof.
  exists (run30 ex_new30 [("options", "/a", ex_op30 "A" [])]), (run31 ex_new31 [("options", "/a", ex_op31 "A" [])]),
    (String.append "option" (String "197" (String "191" ""))), "/a", (ex_op30 "A" []), (ex_op31 "A" []).
  assert (O : same_op (ex_op30 "A" []) (ex_op31 "A" [])) by (split; [reflexivity | right; split; reflexivity]).
  split; [|split; [exact O | split; reflexivity]].
  apply parity_run.
  - repeat constructor; try exact O; reflexivity.
  - repeat constructor. simpl. apply (ex_clean _ _ [Lit "/"; Lit "a"]); [solve_parses | reflexivity].
  - intros p m. unfold doc30, doc31. simpl. split; [tauto | discriminate].
Qed.

Theorem C51_histories_correspond_partial : forall (Sch : Type) (cs : list call30) (ds : list call31)
    (s : paths30 Sch) (t : paths31 Sch),
  Forall2 same_call cs ds -> Forall (fun c => clean (snd (fst c))) cs ->
  corr s t -> corr (run30 s cs) (run31 t ds).
Proof. intros. apply parity_run; assumption. Qed.

(* After a failing call with a constraint in the path the documents differ. *)
Theorem C51_histories_correspond_refuted : exists (cs : list (@call30 unit)) (ds : list (@call31 unit)),
  Forall2 same_call cs ds /\ corr ex_new30 ex_new31 /\ ~ corr (run30 ex_new30 cs) (run31 ex_new31 ds).
Proof.
  assert (O : forall id ps, same_op (ex_op30 id ps) (ex_op31 id ps))
    by (split; [reflexivity | right; split; reflexivity]).
  exists (ex_calls30 ++ [("get", "/a/{id:x}", ex_op30 "B" [])]), (ex_calls31 ++ [("get", "/a/{id:x}", ex_op31 "B" [])]).
  split; [repeat constructor; apply O|].
  split; [intros p m; unfold doc30, doc31; simpl; split; [tauto | discriminate]|].
  intros C. destruct (C "/a/{id}" "get") as [_ H]. specialize (H _ _ eq_refl eq_refl).
  apply same_op_params in H. vm_compute in H. discriminate.
Qed.

Example C51_example :
  corr ex_new30 ex_new31 /\ Forall2 same_call ex_calls30 ex_calls31 /\
  Forall (fun c : call30 => clean (snd (fst c))) ex_calls30.
Proof.
  split; [intros p m; unfold doc30, doc31; simpl; split; [tauto | discriminate]|].
  split; [repeat constructor; right; split; reflexivity|].
  repeat constructor. exact ex_clean_a.
Qed.

Print Assumptions C06_add_accepts_30.
Print Assumptions C06_setup_accepts_30.
Print Assumptions C07_add_accepts_31.
Print Assumptions C07_setup_accepts_31.
Print Assumptions C08_second_is_error.
Print Assumptions C08_never_replaces_refuted.
Print Assumptions C08_replaces_only_through_constraints.
Print Assumptions C08_never_replaces_partial.
Print Assumptions C08_history_partial.
Print Assumptions C09_second_is_error.
Print Assumptions C09_never_replaces_refuted.
Print Assumptions C09_never_replaces_partial.
Print Assumptions C09_history_partial.
Print Assumptions C10_add_frame_30.
Print Assumptions C10_setup_frame_30.
Print Assumptions C10_add_frame_31.
Print Assumptions C10_setup_frame_31.
Print Assumptions C11_add_atomic_30.
Print Assumptions C11_setup_atomic_30.
Print Assumptions C12_add_atomic_31_refuted.
Print Assumptions C12_setup_atomic_31_refuted.
Print Assumptions C12_add_atomic_31_partial.
Print Assumptions C12_setup_atomic_31_partial.
Print Assumptions C12_damage_is_local.
Print Assumptions C12_webhook_atomic_31.
Print Assumptions C13_coherent_30.
Print Assumptions C13_coherent_31_partial.
Print Assumptions C13_coherent_31_refuted.
Print Assumptions C14_webhook_accepts.
Print Assumptions C14_webhook_effect.
Print Assumptions C14_first_registration_wins.
Print Assumptions C51_same_result.
Print Assumptions C51_bad_methods_fail_in_both.
Print Assumptions C51_same_error_refuted.
Print Assumptions C51_histories_correspond_partial.
Print Assumptions C51_histories_correspond_refuted.
