(* Theorems about the schema walkers of both packages (properties C46-C48, C57).
   [zero] is the empty operation of the package, [range] any iteration order of
   maps, [to_json] any schema conversion (it may panic), [cb] any callback. *)
From Coq Require Import ZArith Permutation.
From Verif Require Import Str SMap Json SchemaModel Types RegistryModel ReflectModel ReflectSpec WalkModel WalkSpec WalkProofs WalkProofs2.

(* ---------- C46 ---------- *)

(* After the operation is set up the callback is called as planned: the
   parameters in order, then the media types of the body. *)
Theorem C46_follows_the_document : forall (J Sch : Type) (B : backend J Sch) to_json range, iterates range ->
  forall cb (R : Type) (zero : operation Sch R), fresh_op zero -> forall c method cu done c' o,
  setup_request B [cu] method (c, zero) = ((c', o), Ret tt) ->
  exists calls res plan,
    walk_request B to_json range cb R zero c method cu done =
      (c', (map ECall calls ++ (if done then [EDone o] else []), res)) /\
    request_plan Sch to_json c' o plan /\ executes cb [] plan calls res.
Proof. exact request_walk. Qed.

(* One call per parameter property of the structure, in order and before any
   other; a walk that ends early made the first calls of these. *)
Theorem C46_parameters : forall (J Sch : Type) (B : backend J Sch) to_json range, iterates range ->
  forall cb (R : Type) (zero : operation Sch R), fresh_op zero -> forall c method cu done evs res c',
  walk_request B to_json range cb R zero c method cu done = (c', (evs, res)) ->
  exists pk bk n, calls_of evs = pk ++ bk /\ Forall2 (field_call B to_json c') (firstn n (param_fields cu)) pk /\
    (bk <> [] \/ res = WOk -> firstn n (param_fields cu) = param_fields cu) /\
    (forall k, In k bk -> k_in k = "body" \/ k_in k = "formData").
Proof. exact request_fields. Qed.

(* A finished walk: one call for the JSON body, one per field of the
   urlencoded form. *)
Theorem C46_bodies : forall (J Sch : Type) (B : backend J Sch) to_json range, iterates range ->
  forall cb (R : Type) (zero : operation Sch R), fresh_op zero -> forall c method cu done c' o evs,
  setup_request B [cu] method (c, zero) = ((c', o), Ret tt) ->
  walk_request B to_json range cb R zero c method cu done = (c', (evs, WOk)) ->
  NoDup (keys (body_content (op_body o))) ->
  match get "application/json" (body_content (op_body o)) with
  | Some m => exists j, to_json c' (mt_schema m) = Ret j /\
                calls_in "body" (calls_of evs) = [mkSCall "body" "body" (Some j) false]
  | None => calls_in "body" (calls_of evs) = []
  end /\
  match get "application/x-www-form-urlencoded" (body_content (op_body o)) with
  | Some m => exists s defs props required extra l, to_json c' (mt_schema m) = Ret (JsObj s defs) /\ form_of s props required extra /\
                Forall2 (form_call required extra defs) props l /\ Permutation l (calls_in "formData" (calls_of evs))
  | None => calls_in "formData" (calls_of evs) = []
  end.
Proof. exact request_bodies. Qed.

(* Every answer before the last call was nil, and a callback error is returned
   exactly if the last call failed with it. *)
Theorem C46_stops_at_first_error : forall (J Sch : Type) (B : backend J Sch) to_json range, iterates range ->
  forall cb (R : Type) (zero : operation Sch R), fresh_op zero -> forall c method cu done evs res c',
  walk_request B to_json range cb R zero c method cu done = (c', (evs, res)) ->
  forall l1 x l2, calls_of evs = l1 ++ x :: l2 ->
    (l2 <> [] -> cb l1 x = CNil) /\
    (l2 = [] -> (forall e, res = WCall e <-> cb l1 x = CErr e) /\ (res = WOk -> cb l1 x = CNil)).
Proof. exact request_stops. Qed.

Theorem C46_returned_error : forall (J Sch : Type) (B : backend J Sch) to_json range, iterates range ->
  forall cb (R : Type) (zero : operation Sch R), fresh_op zero -> forall c method cu done evs e c',
  walk_request B to_json range cb R zero c method cu done = (c', (evs, WCall e)) ->
  exists l x, calls_of evs = l ++ [x] /\ cb l x = CErr e.
Proof. exact request_call_error. Qed.

(* A structure that cannot be set up: the error, and no call. *)
Theorem C46_failed_setup : forall (J Sch : Type) (B : backend J Sch) to_json range cb (R : Type) (zero : operation Sch R)
  c method cu done c' o, setup_request B [cu] method (c, zero) = ((c', o), Err) ->
  walk_request B to_json range cb R zero c method cu done = (c', ((if done then [EDone o] else []), WSetup)).
Proof. exact request_failed. Qed.

(* ---------- example data ---------- *)

Definition wx_backend : backend string string :=
  mkBackend (fun j => Ret j) (fun _ => None) (fun s => s) (fun _ _ => Ret None) (fun f => "string:" ^^ f) false.
Definition wx_prop (name : string) : prop string :=
  mkProp true 1 name name false "" false true [] Err (Ret false) (Ret (mkTags None None None None None None None None)).
(* Parameters id (path) and q (query), fields a (required) and b. *)
Definition wx_form (kinds : list vkind) : cunit string string :=
  mkCU false "" "" 0 false "" false None None false false false false false
    (fun t => String.eqb t "formData") (Ret false)
    (fun _ => (kinds, Ret ("form", []))) 
    (fun loc => if String.eqb loc "path" then ([EProp (wx_prop "id")], Ret false)
                else if String.eqb loc "query" then ([EProp (wx_prop "q")], Ret false) else ([], Ret false))
    [] (Ret false) ([], Err) ([], Err).
Definition wx_response (default : bool) : cunit string string :=
  mkCU false "" "" 0 default "" false None None false false false false false (fun _ => false) (Ret false)
    (fun _ => ([], Err)) (fun _ => ([], Ret false)) [] (Ret true)
    ([], Ret "resp") ([wx_prop "x-next-page"], Ret None).
Definition wx_schema (title : string) : jsob :=
  JSObj (mkJA None (Some title) None JTNone None None None None None None 0 None None 0 None None 0 [] [] None None [] None None None [] [])
    None None [] [] [] None [] [] None [].
Definition wx_fields : jsob :=
  JSObj (mkJA None None None JTNone None None None None None None 0 None None 0 None None 0 ["a"] [] None None [] None None None [] [])
    None None [] [] [] None [] [("a", wx_schema "A"); ("b", JSBool true)] None [].
Definition wx_defs : smap jsob := [("D", wx_schema "D")].
Definition wx_json (_ : comps string) (s : option string) : out js :=
  match s with
  | None => Panic
  | Some "form" => Ret (JsObj wx_fields wx_defs)
  | Some s => Ret (JsObj (wx_schema s) [])
  end.
Definition wx_range (A : Type) (m : smap A) : list (string * A) := m.
Definition wx_fail (n : nat) (t : list scall) (_ : scall) : answer := if List.length t =? n then CErr 7 else CNil.

(* The fields of a form with a file are never visited. *)
Theorem C46_multipart_fields_refuted : exists (J Sch : Type) (B : backend J Sch) to_json range cb (zero : op30 Sch) c cu c' o evs m
  s defs props required extra,
  iterates range /\ fresh_op zero /\ form_structure cu /\
  setup_request B [cu] "post" (c, zero) = ((c', o), Ret tt) /\
  get "multipart/form-data" (body_content (op_body o)) = Some m /\
  to_json c' (mt_schema m) = Ret (JsObj s defs) /\ form_of s props required extra /\ props <> [] /\
  walk_request B to_json range cb (responses Sch) zero c "post" cu true = (c', (evs, WOk)) /\
  calls_in "formData" (calls_of evs) = [].
Proof.
  exists string, string, wx_backend, wx_json, wx_range, (wx_fail 9), zero_op30, [], (wx_form [KFile]).
  do 9 eexists. split; [intros A m; apply Permutation_refl|]. split; [split; reflexivity|]. split; [left; reflexivity|].
  split; [vm_compute; reflexivity|]. split; [vm_compute; reflexivity|]. split; [reflexivity|].
  split; [apply fo_obj|]. split; [discriminate|]. split; vm_compute; reflexivity.
Qed.

Example C46_example :
  iterates wx_range /\ fresh_op (zero_op30 (Sch := string)) /\
  let walk cb := snd (walk_request wx_backend wx_json wx_range cb (responses string) zero_op30 [] "post" (wx_form []) true) in
  let calls := [mkSCall "query" "q" (Some (JsObj (wx_schema "q") [])) false;
                mkSCall "path" "id" (Some (JsObj (wx_schema "id") [])) true;
                mkSCall "formData" "a" (Some (JsObj (wx_schema "A") wx_defs)) true;
                mkSCall "formData" "b" (Some (JsBool (JSBool true))) false] in
  calls_of (fst (walk (wx_fail 9))) = calls /\ snd (walk (wx_fail 9)) = WOk /\
  calls_of (fst (walk (wx_fail 2))) = firstn 3 calls /\ snd (walk (wx_fail 2)) = WCall 7 /\
  List.length (fst (walk (wx_fail 2))) = 4.
Proof. split; [intros A m; apply Permutation_refl|]. split; [split; reflexivity|]. vm_compute. auto 10. Qed.

(* ---------- C47 ---------- *)

(* Whatever happens - an error, a callback error, a panic - done is called once,
   after all calls, with the operation as it was set up. *)
Theorem C47_request_done : forall (J Sch : Type) (B : backend J Sch) to_json range cb (R : Type) (zero : operation Sch R) c method cu done,
  exists calls o res, fst (setup_request B [cu] method (c, zero)) = (fst (walk_request B to_json range cb R zero c method cu done), o) /\
    snd (walk_request B to_json range cb R zero c method cu done) = (map ECall calls ++ (if done then [EDone o] else []), res).
Proof. exact request_done. Qed.

Theorem C47_response_done : forall (J Sch : Type) (B : backend J Sch) to_json range cb c cu done,
  exists calls rs res, fst (setup_response B [cu] "GET" (c, mkResps None [])) = (fst (walk_response B to_json range cb c cu done), rs) /\
    snd (walk_response B to_json range cb c cu done) = (map ECall calls ++ (if done then [EDone rs] else []), res).
Proof. exact response_done. Qed.

Example C47_example :
  let ends {O} (w : comps string * (list (event O) * wres)) := (List.length (fst (snd w)), snd (snd w)) in
  ends (walk_request wx_backend wx_json wx_range (wx_fail 0) _ (zero_op30 (Sch := string)) [] "post" (wx_form []) true) = (2, WCall 7) /\
  ends (walk_response wx_backend wx_json wx_range (wx_fail 9) [] (wx_response false) true) = (3, WOk) /\
  ends (walk_response wx_backend wx_json wx_range (wx_fail 9) [] (wx_response true) true) = (1, WPanic).
Proof. vm_compute. auto. Qed.

(* ---------- C48 ---------- *)

(* The response walker reads only the responses by status: a unit for the
   default response ends in a nil dereference. *)
Theorem C48_total_refuted : exists (J Sch : Type) (B : backend J Sch) to_json range cb c cu,
  iterates range /\ (forall c s, exists j, to_json c (Some s) = Ret j) /\ (forall t x, cb t x = CNil) /\
  snd (setup_response B [cu] "GET" (c, mkResps None [])) = Ret tt /\
  snd (snd (walk_response B to_json range cb c cu true)) = WPanic.
Proof.
  exists string, string, wx_backend, wx_json, wx_range, (fun _ _ => CNil), [], (wx_response true).
  split; [intros A m; apply Permutation_refl|]. split.
  - intros c s. destruct (wx_json c (Some s)) as [j| |] eqn:E; [eauto| |]; exfalso; revert E; unfold wx_json;
      repeat (match goal with |- context [match ?x with _ => _ end] => destruct x end; try discriminate).
  - split; [reflexivity|]. split; vm_compute; reflexivity.
Qed.

(* This happens for every default unit that can be set up. *)
Theorem C48_default_units_panic : forall (J Sch : Type) (B : backend J Sch) to_json range, iterates range ->
  forall cb c cu done c' rs, setup_response B [cu] "GET" (c, mkResps None []) = ((c', rs), Ret tt) -> cu_default cu = true ->
  walk_response B to_json range cb c cu done = (c', ((if done then [EDone rs] else []), WPanic)).
Proof. exact response_default. Qed.

(* Other units without a customising function: no panic unless reflection, the
   schema conversion or the callback panics. *)
Theorem C48_total_partial : forall (J Sch : Type) (B : backend J Sch) to_json range, iterates range ->
  forall cb c cu done, cu_default cu = false -> cu_custom_resp cu = None ->
  snd (setup_response B [cu] "GET" (c, mkResps None [])) <> Panic ->
  (forall c s, exists j, to_json c (Some s) = Ret j) -> (forall t x, cb t x <> CPanic) ->
  snd (snd (walk_response B to_json range cb c cu done)) <> WPanic.
Proof. exact response_total. Qed.

(* ---------- C57 ---------- *)

(* Headers with a schema, then media types with a schema, each once. *)
Theorem C57_follows_the_document : forall (J Sch : Type) (B : backend J Sch) to_json range, iterates range ->
  forall cb c cu done c' rs k r, setup_response B [cu] "GET" (c, mkResps None []) = ((c', rs), Ret tt) ->
  rs_map rs = [(k, mkRor (Some r) None)] ->
  exists calls res plan, walk_response B to_json range cb c cu done =
      (c', (map ECall calls ++ (if done then [EDone rs] else []), res)) /\
    response_plan Sch to_json c' r plan /\ executes cb [] plan calls res.
Proof. exact response_walk. Qed.

(* There is such a response for every unit that is not the default one. *)
Theorem C57_one_response : forall (J Sch : Type) (B : backend J Sch) c cu c' rs,
  setup_response B [cu] "GET" (c, mkResps None []) = ((c', rs), Ret tt) -> cu_default cu = false -> cu_custom_resp cu = None ->
  exists k r, rs_default rs = None /\ rs_map rs = [(k, mkRor (Some r) None)].
Proof.
  intros J Sch B c cu c' rs H D C. destruct (proj2 (response_set_up _ _ _ _ _ _ _ H) D) as (k & r & N & M).
  rewrite C in M. eauto.
Qed.

Theorem C57_stops_at_first_error : forall (J Sch : Type) (B : backend J Sch) to_json range, iterates range ->
  forall cb c cu done evs res c', cu_default cu = false -> cu_custom_resp cu = None ->
  walk_response B to_json range cb c cu done = (c', (evs, res)) ->
  forall l1 x l2, calls_of evs = l1 ++ x :: l2 ->
    (l2 <> [] -> cb l1 x = CNil) /\
    (l2 = [] -> (forall e, res = WCall e <-> cb l1 x = CErr e) /\ (res = WOk -> cb l1 x = CNil)).
Proof. exact response_stops. Qed.

Example C57_example :
  let walk cb := snd (walk_response wx_backend wx_json wx_range cb [] (wx_response false) true) in
  cu_default (wx_response false) = false /\ cu_custom_resp (wx_response false) = None /\
  calls_of (fst (walk (wx_fail 9))) =
    [mkSCall "header" "X-Next-Page" (Some (JsObj (wx_schema "x-next-page") [])) false;
     mkSCall "body" "body" (Some (JsObj (wx_schema "resp") [])) false] /\
  snd (walk (wx_fail 9)) = WOk /\ snd (walk (wx_fail 1)) = WCall 7.
Proof. vm_compute. auto 10. Qed.

(* ---------- assumptions ---------- *)

Print Assumptions C46_follows_the_document.
Print Assumptions C46_parameters.
Print Assumptions C46_bodies.
Print Assumptions C46_stops_at_first_error.
Print Assumptions C46_returned_error.
Print Assumptions C46_failed_setup.
Print Assumptions C46_multipart_fields_refuted.
Print Assumptions C47_request_done.
Print Assumptions C47_response_done.
Print Assumptions C48_total_refuted.
Print Assumptions C48_default_units_panic.
Print Assumptions C48_total_partial.
Print Assumptions C57_follows_the_document.
Print Assumptions C57_one_response.
Print Assumptions C57_stops_at_first_error.
