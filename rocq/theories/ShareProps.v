(* Theorems about documented operations when contexts are kept and used again,
   for openapi3/reflect.go and openapi31/reflect.go and every reflection
   result. *)
From Coq Require Import ZArith.
From Verif Require Import Str SMap Json PathModel Types.
From Verif Require Import RegistryModel RegistrySpec ReflectModel ReflectSpec ReflectProps.
From Verif Require Import ShareModel ShareSpec ShareProofs ShareProofs31.

(* ---------- C95: documented operations and the contexts they came from ---------- *)

(* As long as a context is not used after it was accepted, what is documented
   stays as it is. *)
Theorem C95_own_context_30 : forall (J Sch : Type) (B : backend J Sch) r l1 l2 p m d,
  accepted_once30 B (mkWorld30 r []) (l1 ++ l2) ->
  doc30 (r30_paths (w30_refl (run30 B (mkWorld30 r []) l1))) p m = Some d ->
  doc30 (r30_paths (w30_refl (run30 B (mkWorld30 r []) (l1 ++ l2)))) p m = Some d.
Proof. intros. eapply own30; eauto. Qed.

Theorem C95_own_context_31 : forall (J Sch : Type) (B : backend J Sch) r l1 l2 p m d,
  accepted_once31 B (mkWorld31 r []) (l1 ++ l2) ->
  (doc31 (r31_paths (w31_refl (run31 B (mkWorld31 r []) l1))) p m = Some d ->
   doc31 (r31_paths (w31_refl (run31 B (mkWorld31 r []) (l1 ++ l2)))) p m = Some d) /\
  (hook31 (r31_paths (w31_refl (run31 B (mkWorld31 r []) l1))) p m = Some d ->
   hook31 (r31_paths (w31_refl (run31 B (mkWorld31 r []) (l1 ++ l2)))) p m = Some d).
Proof.
  intros J Sch B r l1 l2 p m d O. split; intros D.
  - exact (own31_kept B r l2 l1 false p m d O D).
  - exact (own31_kept B r l2 l1 true p m d O D).
Qed.

(* A call that fails then changes no operation. *)
Theorem C95_own_failure_30 : forall (J Sch : Type) (B : backend J Sch) r l i a p m,
  accepted_once30 B (mkWorld30 r []) (l ++ [Add i]) ->
  outcome30 B (run30 B (mkWorld30 r []) l) i = Some a -> a <> AOk ->
  doc30 (r30_paths (w30_refl (run30 B (mkWorld30 r []) (l ++ [Add i])))) p m =
  doc30 (r30_paths (w30_refl (run30 B (mkWorld30 r []) l))) p m.
Proof. intros. eapply own30_failure; eauto. Qed.

Theorem C95_own_failure_31 : forall (J Sch : Type) (B : backend J Sch) r l e hook i a p m,
  accepted_once31 B (mkWorld31 r []) (l ++ [e]) -> call31 e hook i ->
  outcome31 B hook (run31 B (mkWorld31 r []) l) i = Some a -> a <> AOk ->
  doc31 (r31_paths (w31_refl (run31 B (mkWorld31 r []) (l ++ [e])))) p m =
  doc31 (r31_paths (w31_refl (run31 B (mkWorld31 r []) l))) p m /\
  hook31 (r31_paths (w31_refl (run31 B (mkWorld31 r []) (l ++ [e])))) p m =
  hook31 (r31_paths (w31_refl (run31 B (mkWorld31 r []) l))) p m.
Proof.
  intros J Sch B r l e hook i a p m O C A NA. apply calls_call31 in C. split.
  - exact (own31_failure B r l e hook i a false p m O C A NA).
  - exact (own31_failure B r l e hook i a true p m O C A NA).
Qed.

(* However contexts are used, what is documented stays documented and keeps
   its outline. *)
Theorem C95_outline_30 : forall (J Sch : Type) (B : backend J Sch) r l1 l2 p m d,
  doc30 (r30_paths (w30_refl (run30 B (mkWorld30 r []) l1))) p m = Some d ->
  exists d', doc30 (r30_paths (w30_refl (run30 B (mkWorld30 r []) (l1 ++ l2)))) p m = Some d' /\
    keeps_outline (view30 d) (view30 d').
Proof.
  intros J Sch B r l1 l2 p m d D. rewrite run30_app. eapply run30_outline; [apply run30_inv, inv30_nil|exact D].
Qed.

Theorem C95_outline_31 : forall (J Sch : Type) (B : backend J Sch) r l1 l2 p m d,
  (doc31 (r31_paths (w31_refl (run31 B (mkWorld31 r []) l1))) p m = Some d ->
   exists d', doc31 (r31_paths (w31_refl (run31 B (mkWorld31 r []) (l1 ++ l2)))) p m = Some d' /\
     keeps_outline (view31 d) (view31 d')) /\
  (hook31 (r31_paths (w31_refl (run31 B (mkWorld31 r []) l1))) p m = Some d ->
   exists d', hook31 (r31_paths (w31_refl (run31 B (mkWorld31 r []) (l1 ++ l2)))) p m = Some d' /\
     keeps_outline (view31 d) (view31 d')).
Proof.
  intros J Sch B r l1 l2 p m d. rewrite run31_app. split; intros D.
  - exact (run31_outline B l2 _ false p m d (run31_inv B l1 _ (inv31_nil r)) D).
  - exact (run31_outline B l2 _ true p m d (run31_inv B l1 _ (inv31_nil r)) D).
Qed.

(* A call changes nothing under another path or method. *)
Theorem C95_elsewhere_30 : forall (J Sch : Type) (B : backend J Sch) r l i x p m,
  nth_error (w30_ctx (run30 B (mkWorld30 r []) l)) i = Some x ->
  (p, m) <> (oc_path (x30_oc x), oc_method (x30_oc x)) ->
  doc30 (r30_paths (w30_refl (run30 B (mkWorld30 r []) (l ++ [Add i])))) p m =
  doc30 (r30_paths (w30_refl (run30 B (mkWorld30 r []) l))) p m.
Proof.
  intros J Sch B r l i x p m N NE. rewrite run30_app. unfold run30 at 1. cbn [fold_left step30]. rewrite N.
  destruct (add30 B x (w30_refl (run30 B (mkWorld30 r []) l))) as [[r' x'] a] eqn:A. cbn [w30_refl].
  destruct (step30_add B _ i x r' x' a (run30_inv B l _ (inv30_nil r)) N A) as (_ & _ & _ & E & _).
  exact (E (p, m) NE).
Qed.

Theorem C95_elsewhere_31 : forall (J Sch : Type) (B : backend J Sch) r l e hook i x p m,
  call31 e hook i -> nth_error (w31_ctx (run31 B (mkWorld31 r []) l)) i = Some x ->
  (p, m) <> (oc_path (x31_oc x), oc_method (x31_oc x)) ->
  doc31 (r31_paths (w31_refl (run31 B (mkWorld31 r []) (l ++ [e])))) p m =
  doc31 (r31_paths (w31_refl (run31 B (mkWorld31 r []) l))) p m /\
  hook31 (r31_paths (w31_refl (run31 B (mkWorld31 r []) (l ++ [e])))) p m =
  hook31 (r31_paths (w31_refl (run31 B (mkWorld31 r []) l))) p m.
Proof.
  intros J Sch B r l e hook i x p m C N NE. apply calls_call31 in C. rewrite run31_app.
  pose proof (run31_inv B l _ (inv31_nil r)) as I. set (w := run31 B (mkWorld31 r []) l) in *.
  unfold run31. cbn [fold_left]. rewrite (step31_call B w e hook i x C N).
  destruct (add31 B hook x (w31_refl w)) as [[r' x'] a] eqn:A. cbn [w31_refl fst snd].
  destruct (step31_add B hook w i x r' x' a I N A) as (_ & _ & _ & E & _).
  exact (conj (E false (p, m) NE) (E true (p, m) NE)).
Qed.

(* In general: a failing call leaves every operation as it is.  False: a
   context that was accepted shares its response map with the document. *)
Definition ex_reuse : list (event string string) :=
  [New "get" "/a"; Fill 0 [] [ex_response 200 "" "" []]; Add 0; Fill 0 [] [ex_response 404 "" "" []]].

Theorem C95_reused_30_refuted : exists (B : backend string string) r l i a p m,
  outcome30 B (run30 B (mkWorld30 r []) l) i = Some a /\ a <> AOk /\
  doc30 (r30_paths (w30_refl (run30 B (mkWorld30 r []) (l ++ [Add i])))) p m <>
  doc30 (r30_paths (w30_refl (run30 B (mkWorld30 r []) l))) p m.
Proof.
  exists (ex_backend false), ex_refl30, ex_reuse, 0, (AFail (AESpec EExists)), "/a", "get".
  split; [vm_compute; reflexivity|]. split; [discriminate|]. vm_compute. discriminate.
Qed.

Theorem C95_reused_31_refuted : exists (B : backend string string) r l i a p m,
  outcome31 B false (run31 B (mkWorld31 r []) l) i = Some a /\ a <> AOk /\
  doc31 (r31_paths (w31_refl (run31 B (mkWorld31 r []) (l ++ [Add i])))) p m <>
  doc31 (r31_paths (w31_refl (run31 B (mkWorld31 r []) l))) p m.
Proof.
  exists (ex_backend true), ex_refl31, ex_reuse, 0, (AFail (AESpec EExists)), "/a", "get".
  split; [vm_compute; reflexivity|]. split; [discriminate|]. vm_compute. discriminate.
Qed.

(* Also when the second call succeeds: a context given to AddOperation and then
   to AddWebhook changes the operation under the path. *)
Theorem C95_webhook_31_refuted : exists (B : backend string string) r l i p m d d',
  outcome31 B true (run31 B (mkWorld31 r []) l) i = Some AOk /\
  doc31 (r31_paths (w31_refl (run31 B (mkWorld31 r []) l))) p m = Some d /\
  doc31 (r31_paths (w31_refl (run31 B (mkWorld31 r []) (l ++ [Hook i])))) p m = Some d' /\
  keys (rs_map (vw_responses (view31 d))) = ["200"] /\ keys (rs_map (vw_responses (view31 d'))) = ["200"; "404"].
Proof.
  exists (ex_backend true), ex_refl31, ex_reuse, 0, "/a", "get". do 2 eexists.
  split; [vm_compute; reflexivity|]. split; [vm_compute; reflexivity|]. split; [vm_compute; reflexivity|].
  split; vm_compute; reflexivity.
Qed.

(* Extensions: a map that the context has made is seen in the document, one that
   it makes later is not. *)
Definition ex_forbid (loc : string) : cunit string string :=
  mkCU false "" "" 0 false "" false None None false false false false true (fun _ => false) (Ret false)
    (fun _ => ([], Err)) (fun l => ([], Ret (String.eqb l loc))) [] (Ret false) ([], Err) ([], Err).
Definition ex_extend (first : list (cunit string string)) : list (event string string) :=
  [New "get" "/a"; Fill 0 first []; Add 0; Fill 0 [ex_forbid "header"] []; Add 0].
Theorem C95_extensions_30_refuted : exists (B : backend string string) r,
  option_map op_ext (doc30 (r30_paths (w30_refl (run30 B (mkWorld30 r []) (ex_extend [ex_forbid "query"])))) "/a" "get") =
    Some [("x-forbid-unknown-query", JBool true); ("x-forbid-unknown-header", JBool true)] /\
  option_map op_ext (doc30 (r30_paths (w30_refl (run30 B (mkWorld30 r []) (ex_extend [])))) "/a" "get") = Some [].
Proof. exists (ex_backend false), ex_refl30. split; vm_compute; reflexivity. Qed.
Theorem C95_extensions_31_refuted : exists (B : backend string string) r,
  option_map op_ext (doc31 (r31_paths (w31_refl (run31 B (mkWorld31 r []) (ex_extend [ex_forbid "query"])))) "/a" "get") =
    Some [("x-forbid-unknown-query", JBool true); ("x-forbid-unknown-header", JBool true)] /\
  option_map op_ext (doc31 (r31_paths (w31_refl (run31 B (mkWorld31 r []) (ex_extend [])))) "/a" "get") = Some [].
Proof. exists (ex_backend true), ex_refl31. split; vm_compute; reflexivity. Qed.

(* The hypotheses hold for histories with a context for each operation, also
   when a refused context is tried again. *)
Definition ex_history : list (event string string) :=
  [New "get" "/a"; New "get" "/a"; Fill 0 [] [ex_response 200 "" "" []]; Add 0; Fill 1 [] [ex_response 404 "" "" []];
   Add 1; Add 1].

Lemma two_places {A} (l l1 l2 l3 : list A) e e' : l = l1 ++ e :: l2 ++ e' :: l3 ->
  firstn (length l1) l = l1 /\ nth_error l (length l1) = Some e /\ nth_error l (S (length l1 + length l2)) = Some e'.
Proof.
  intros ->. split; [|split].
  - rewrite firstn_app, Nat.sub_diag, firstn_all. apply app_nil_r.
  - rewrite nth_error_app2, Nat.sub_diag by auto. reflexivity.
  - rewrite nth_error_app2 by (apply le_S, Nat.le_add_r).
    rewrite <- Nat.add_succ_r, (Nat.add_comm (length l1)), Nat.add_sub. cbn [nth_error].
    rewrite nth_error_app2, Nat.sub_diag by auto. reflexivity.
Qed.

(* The places of a call in a history of seven events. *)
Ltac places H :=
  apply two_places in H; destruct H as (? & ? & ?);
  match goal with E : firstn (length ?l) _ = ?l |- _ =>
    revert E; match goal with A : nth_error _ (length l) = _, C : nth_error _ (S (length l + ?k)) = _ |- _ =>
      revert A C; generalize (length l); generalize k end end;
  intros k n A C E;
  do 8 (try (destruct n as [|n]; [hnf in A; try discriminate A|]));
  try discriminate A.

Example C95_example_30 : accepted_once30 (ex_backend false) (mkWorld30 ex_refl30 []) ex_history /\
  doc30 (r30_paths (w30_refl (run30 (ex_backend false) (mkWorld30 ex_refl30 []) ex_history))) "/a" "get" <> None /\
  outcome30 (ex_backend false) (run30 (ex_backend false) (mkWorld30 ex_refl30 []) ex_history) 1 = Some (AFail (AESpec EExists)).
Proof.
  split; [|split; [vm_compute; discriminate|vm_compute; reflexivity]].
  intros l1 i l2 l3 H. places H; injection A as <-; subst l1.
  - do 4 (destruct k as [|k]; [discriminate C|]). destruct k; discriminate C.
  - vm_compute. discriminate.
  - vm_compute. discriminate.
Qed.

(* The same with AddWebhook as the second and third call. *)
Definition ex_history31 : list (event string string) :=
  [New "get" "/a"; New "get" "/a"; Fill 0 [] [ex_response 200 "" "" []]; Add 0; Fill 1 [] [ex_response 404 "" "" []];
   Add 1; Hook 1].
Example C95_example_31 : accepted_once31 (ex_backend true) (mkWorld31 ex_refl31 []) ex_history31 /\
  doc31 (r31_paths (w31_refl (run31 (ex_backend true) (mkWorld31 ex_refl31 []) ex_history31))) "/a" "get" <> None /\
  hook31 (r31_paths (w31_refl (run31 (ex_backend true) (mkWorld31 ex_refl31 []) ex_history31))) "/a" "get" <> None /\
  outcome31 (ex_backend true) true (run31 (ex_backend true) (mkWorld31 ex_refl31 []) ex_history31) 0 = Some (AFail (AESpec EDupWebhook)).
Proof.
  split; [|split; [vm_compute; discriminate|split; [vm_compute; discriminate|vm_compute; reflexivity]]].
  intros l1 e hook e' hook' i l2 l3 C1 C2 H. places H; unfold call31 in C1, C2.
  all: injection A as <-; subst l1.
  1-3, 5: destruct hook; discriminate C1.
  - destruct hook; [discriminate C1|]. injection C1 as <-.
    do 4 (destruct k as [|k]; [destruct hook'; subst e'; discriminate C|]). destruct k; discriminate C.
  - destruct hook; [discriminate C1|]. injection C1 as <-. vm_compute. discriminate.
  - destruct hook; [|discriminate C1]. injection C1 as <-. do 2 (destruct k; [discriminate C|]). destruct k; discriminate C.
Qed.

(* ---------- C96: a context whose parameters were documented once ---------- *)

(* Once a call with a context has put a parameter into its operation, every
   later call with that context fails, whatever happens in between. *)
Theorem C96_spoilt_30 : forall (J Sch : Type) (B : backend J Sch) w i l,
  ctx_params30 (step30 B w (Add i)) i <> ctx_params30 w i ->
  outcome30 B (run30 B (step30 B w (Add i)) l) i <> Some AOk.
Proof. intros. apply spoilt30. assumption. Qed.

Theorem C96_spoilt_31 : forall (J Sch : Type) (B : backend J Sch) w e hook i l hook',
  call31 e hook i -> ctx_params31 (step31 B w e) i <> ctx_params31 w i ->
  outcome31 B hook' (run31 B (step31 B w e) l) i <> Some AOk.
Proof. intros. eapply spoilt31; eauto. Qed.

(* A response that cannot be reflected makes the call fail after the
   parameters were added; a new response structure does not help. *)
Definition ex_bad_response : cunit string string :=
  mkCU false "" "" 200 false "" false None None false false false false false (fun _ => false) (Ret false)
    (fun _ => ([], Err)) (fun _ => ([], Ret false)) [] (Ret true) ([], Err) ([], Err).

Definition ex_retry : list (event string string) := [New "get" "/a/{id}"; Fill 0 [ex_request] [ex_bad_response]].

Example C96_example_30 :
  let B := ex_backend false in
  let w := run30 B (mkWorld30 ex_refl30 []) ex_retry in
  ctx_params30 (step30 B w (Add 0)) 0 <> ctx_params30 w 0 /\
  (exists e, outcome30 B w 0 = Some (AFail e)) /\
  doc30 (r30_paths (w30_refl (step30 B w (Add 0)))) "/a/{id}" "get" = None.
Proof. cbv zeta. split; [vm_compute; discriminate|]. split; [eexists; vm_compute; reflexivity|vm_compute; reflexivity]. Qed.

Example C96_example_31 :
  let B := ex_backend true in
  let w := run31 B (mkWorld31 ex_refl31 []) [New "get" "/a/{id}"; Fill 0 [ex_request] [ex_response 200 "" "" []]] in
  ctx_params31 (step31 B w (Add 0)) 0 <> ctx_params31 w 0 /\ outcome31 B false w 0 = Some AOk.
Proof. cbv zeta. split; [vm_compute; discriminate|vm_compute; reflexivity]. Qed.

(* ---------- assumptions ---------- *)

Print Assumptions C95_own_context_30.
Print Assumptions C95_own_context_31.
Print Assumptions C95_own_failure_30.
Print Assumptions C95_own_failure_31.
Print Assumptions C95_outline_30.
Print Assumptions C95_outline_31.
Print Assumptions C95_elsewhere_30.
Print Assumptions C95_elsewhere_31.
Print Assumptions C95_reused_30_refuted.
Print Assumptions C95_reused_31_refuted.
Print Assumptions C95_webhook_31_refuted.
Print Assumptions C95_extensions_30_refuted.
Print Assumptions C95_extensions_31_refuted.
Print Assumptions C96_spoilt_30.
Print Assumptions C96_spoilt_31.
