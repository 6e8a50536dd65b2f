(* C110-C113: documents as a whole. *)
From Verif Require Import Str SMap Json PathSpec PathProofs Types RegistryModel RegistrySpec ReflectModel ReflectSpec
  SeqSpec ContextModel ContextSpec ReadSpec WholeSpec WholeProofs ReflectProps.

(* ---------- examples ---------- *)

Definition wp_request (name : string) : cunit string string :=
  mkCU false "" "" 0 false "" false None None false false false false false (fun _ => false) (Ret false)
    (fun _ => ([], Err))
    (fun loc => if String.eqb loc "path" then ([EProp (ex_prop name "")], Ret false) else ([], Ret false))
    [] (Ret false) ([], Err) ([], Err).

(* A call with an identifier and a security requirement; the placeholder, if
   any, is [ph]. *)
Definition wp_op {R} (id scheme : string) (rs : R) : operation string R :=
  mkOp ["t"] None None (Some id) [] None rs None [[(scheme, [])]] [] JNull.
Definition wp30 (method path ph id scheme : string) : call30 string string :=
  mkOC method path (if String.eqb ph "" then [] else [wp_request ph]) [] (wp_op id scheme (mkResps None []))
    (if String.eqb ph "" then [] else [ph]).
Definition wp31 (hook : bool) (method path ph id scheme : string) : call31 string string :=
  (hook, mkOC method path (if String.eqb ph "" then [] else [wp_request ph]) [] (wp_op id scheme None)
    (if String.eqb ph "" then [] else [ph])).

Lemma wp_made30 method path ph id scheme oc0 : new_context30 (J := string) ex_refl30 method path = Some oc0 ->
  oc_method oc0 = method -> oc_path oc0 = path -> oc_params oc0 = (if String.eqb ph "" then [] else [ph]) ->
  made30 (wp30 method path ph id scheme).
Proof. intros H E1 E2 E3. exists ex_refl30, method, path, oc0. cbn [wp30 oc_method oc_path oc_params]. auto. Qed.
Lemma wp_made31 hook method path ph id scheme r' oc0 : new_context31 (J := string) ex_refl31 method path = (r', Some oc0) ->
  oc_method oc0 = method -> oc_path oc0 = path -> oc_params oc0 = (if String.eqb ph "" then [] else [ph]) ->
  made31 (snd (wp31 hook method path ph id scheme)).
Proof. intros H E1 E2 E3. exists ex_refl31, r', method, path, oc0. cbn [wp31 snd oc_method oc_path oc_params]. auto. Qed.
Ltac wp_made := repeat (apply Forall_cons; [first [eapply wp_made30 | eapply wp_made31]; vm_compute; reflexivity|]); apply Forall_nil.

Lemma wp_new30 : new30 ex_refl30.
Proof. split; reflexivity. Qed.
Lemma wp_new31 : new31 ex_refl31.
Proof. split; [left; reflexivity|]. split; reflexivity. Qed.

(* The third call is refused (the operation exists), the others are accepted. *)
Definition wp_calls30 := [wp30 "get" "/a/{id}" "id" "x" "key"; wp30 "post" "/a/{id}" "id" "y" "key"; wp30 "get" "/a/{id}" "id" "z" "other"; wp30 "get" "/b" "" "w" "key"].
Definition wp_calls31 := [wp31 false "get" "/a/{id}" "id" "x" "key"; wp31 true "post" "/a/{id}" "id" "y" "key"; wp31 true "get" "/a/{id}" "id" "z" "other"; wp31 false "get" "/b" "" "w" "key"].

(* ---------- C110: the operations of a document ---------- *)

Theorem C110_documented30 : forall (J Sch : Type) (B : backend J Sch) r l, new30 r -> Forall made30 l -> forall x t,
  (exists o, op_at30 (fst (calls30 B r l)) x = Some o /\ said o = t) <->
  (exists i oc, accepted30 B r l i oc /\ where30 oc = x /\ said (oc_op oc) = t).
Proof. intros J Sch B. exact (documented30 J Sch B). Qed.

Theorem C110_documented31 : forall (J Sch : Type) (B : backend J Sch) r l, new31 r -> Forall (fun c => made31 (snd c)) l -> forall x t,
  (exists o, op_at31 (fst (calls31 B r l)) x = Some o /\ said o = t) <->
  (exists i c, accepted31 B r l i c /\ where31 c = x /\ said (oc_op (snd c)) = t).
Proof. intros J Sch B. exact (documented31 J Sch B). Qed.

(* No two calls are accepted for one place. *)
Theorem C110_once30 : forall (J Sch : Type) (B : backend J Sch) r l, Forall made30 l -> forall i j oc oc',
  accepted30 B r l i oc -> accepted30 B r l j oc' -> where30 oc = where30 oc' -> i = j.
Proof. intros J Sch B. exact (once30 J Sch B). Qed.

Theorem C110_once31 : forall (J Sch : Type) (B : backend J Sch) r l, Forall (fun c => made31 (snd c)) l -> forall i j c c',
  accepted31 B r l i c -> accepted31 B r l j c' -> where31 c = where31 c' -> i = j.
Proof. intros J Sch B. exact (once31 J Sch B). Qed.

Example C110_example :
  Forall made30 wp_calls30 /\ Forall (fun c => made31 (snd c)) wp_calls31 /\
  map snd (snd (calls30 (ex_backend false) ex_refl30 wp_calls30)) = [AOk; AOk; AFail (AESpec EExists); AOk] /\
  map snd (snd (calls31 (ex_backend true) ex_refl31 wp_calls31)) = [AOk; AOk; AFail (AESpec EDupWebhook); AOk] /\
  option_map op_id (op_at30 (fst (calls30 (ex_backend false) ex_refl30 wp_calls30)) (false, "/a/{id}", "post")) = Some (Some "y") /\
  option_map op_id (op_at31 (fst (calls31 (ex_backend true) ex_refl31 wp_calls31)) (true, "/a/{id}", "post")) = Some (Some "y").
Proof. split; [wp_made|]. split; [wp_made|]. split; [vm_compute; reflexivity|]. split; [vm_compute; reflexivity|]. split; vm_compute; reflexivity. Qed.

(* ---------- C111: identifiers of operations ---------- *)

Lemma acc_fun30 {J Sch} (B : backend J Sch) r l i c d : accepted30 B r l i c -> accepted30 B r l i d -> c = d.
Proof. intros [E _] [E' _]. congruence. Qed.
Lemma acc_fun31 {J Sch} (B : backend J Sch) r l i c d : accepted31 B r l i c -> accepted31 B r l i d -> c = d.
Proof. intros [E _] [E' _]. congruence. Qed.

Theorem C111_ids30 : forall (J Sch : Type) (B : backend J Sch) r l, new30 r -> Forall made30 l ->
  (unique_ids (op_at30 (fst (calls30 B r l))) <->
   forall i j oc oc' id, accepted30 B r l i oc -> accepted30 B r l j oc' -> op_id (oc_op oc) = Some id -> op_id (oc_op oc') = Some id -> i = j).
Proof.
  intros J Sch B r l N F. apply (ids_iff Sch _ _ _ (accepted30 B r l) where30 (fun oc : call30 J Sch => oc_op oc) (documented30 J Sch B r l N F)).
  - exact (acc_fun30 B r l).
  - exact (once30 J Sch B r l F).
Qed.

Theorem C111_ids31 : forall (J Sch : Type) (B : backend J Sch) r l, new31 r -> Forall (fun c => made31 (snd c)) l ->
  (unique_ids (op_at31 (fst (calls31 B r l))) <->
   forall i j c c' id, accepted31 B r l i c -> accepted31 B r l j c' -> op_id (oc_op (snd c)) = Some id -> op_id (oc_op (snd c')) = Some id -> i = j).
Proof.
  intros J Sch B r l N F. apply (ids_iff Sch _ _ _ (accepted31 B r l) where31 (fun c : call31 J Sch => oc_op (snd c)) (documented31 J Sch B r l N F)).
  - exact (acc_fun31 B r l).
  - exact (once31 J Sch B r l F).
Qed.

(* Two operations with one identifier are accepted. *)
Theorem C111_ids_refuted30 : exists (B : backend string string) r l, new30 r /\ Forall made30 l /\
  Forall (fun a => a = AOk) (map snd (snd (calls30 B r l))) /\ ~ unique_ids (op_at30 (fst (calls30 B r l))).
Proof.
  exists (ex_backend false), ex_refl30, [wp30 "get" "/a" "" "x" "key"; wp30 "get" "/b" "" "x" "key"].
  split; [exact wp_new30|]. split; [wp_made|]. split; [vm_compute; repeat constructor|]. intros U.
  assert (X : (false, "/a", "get") = (false, "/b", "get")); [|discriminate X].
  eapply (U _ _ _ _ "x"); [vm_compute; reflexivity|vm_compute; reflexivity|reflexivity|reflexivity].
Qed.

Theorem C111_ids_refuted31 : exists (B : backend string string) r l, new31 r /\ Forall (fun c => made31 (snd c)) l /\
  Forall (fun a => a = AOk) (map snd (snd (calls31 B r l))) /\ ~ unique_ids (op_at31 (fst (calls31 B r l))).
Proof.
  exists (ex_backend true), ex_refl31, [wp31 false "get" "/a" "" "x" "key"; wp31 true "get" "/b" "" "x" "key"].
  split; [exact wp_new31|]. split; [wp_made|]. split; [vm_compute; repeat constructor|]. intros U.
  assert (X : (false, "/a", "get") = (true, "/b", "get")); [|discriminate X].
  eapply (U _ _ _ _ "x"); [vm_compute; reflexivity|vm_compute; reflexivity|reflexivity|reflexivity].
Qed.

Example C111_example :
  unique_ids (op_at30 (fst (calls30 (ex_backend false) ex_refl30 wp_calls30))) /\
  unique_ids (op_at31 (fst (calls31 (ex_backend true) ex_refl31 wp_calls31))).
Proof.
  split.
  - apply C111_ids30; [exact wp_new30|wp_made|]. intros i j oc oc' id [E _] [E' _] I I'.
    do 4 (destruct i as [|i]; [do 4 (destruct j as [|j]; [first [reflexivity|injection E as <-; injection E' as <-; cbn in I, I'; congruence]|]); destruct j; discriminate E'|]).
    destruct i; discriminate E.
  - apply C111_ids31; [exact wp_new31|wp_made|]. intros i j oc oc' id [E _] [E' _] I I'.
    do 4 (destruct i as [|i]; [do 4 (destruct j as [|j]; [first [reflexivity|injection E as <-; injection E' as <-; cbn in I, I'; congruence]|]); destruct j; discriminate E'|]).
    destruct i; discriminate E.
Qed.

(* ---------- C112: templates of paths ---------- *)

Theorem C112_templates30 : forall (J Sch : Type) (B : backend J Sch) r l, new30 r -> Forall made30 l ->
  (unique_templates (op_at30 (fst (calls30 B r l))) <->
   forall i j oc oc', accepted30 B r l i oc -> accepted30 B r l j oc' -> same_template (oc_path oc) (oc_path oc') -> oc_path oc = oc_path oc').
Proof.
  intros J Sch B r l N F. rewrite (templates_iff Sch _ _ _ (accepted30 B r l) where30 (fun oc : call30 J Sch => oc_op oc) (documented30 J Sch B r l N F)).
  split.
  - intros Q i j c d A A' T. exact (Q i j c d _ _ _ _ A A' eq_refl eq_refl T).
  - intros Q i j c d p q m m' A A' W W' T. unfold where30 in W, W'. injection W as <- <-. injection W' as <- <-. exact (Q i j c d A A' T).
Qed.

(* Webhooks are named, not templated. *)
Theorem C112_templates31 : forall (J Sch : Type) (B : backend J Sch) r l, new31 r -> Forall (fun c => made31 (snd c)) l ->
  (unique_templates (op_at31 (fst (calls31 B r l))) <->
   forall i j oc oc', accepted31 B r l i (false, oc) -> accepted31 B r l j (false, oc') -> same_template (oc_path oc) (oc_path oc') -> oc_path oc = oc_path oc').
Proof.
  intros J Sch B r l N F. rewrite (templates_iff Sch _ _ _ (accepted31 B r l) where31 (fun c : call31 J Sch => oc_op (snd c)) (documented31 J Sch B r l N F)).
  split.
  - intros Q i j c d A A' T. exact (Q i j (false, c) (false, d) _ _ _ _ A A' eq_refl eq_refl T).
  - intros Q i j [h c] [h' d] p q m m' A A' W W' T. unfold where31 in W, W'. injection W as -> <- <-. injection W' as -> <- <-. exact (Q i j c d A A' T).
Qed.

Lemma wp_same_template : same_template "/a/{id}" "/a/{key}".
Proof.
  exists [Lit "/"; Lit "a"; Lit "/"; Ph "id" None], [Lit "/"; Lit "a"; Lit "/"; Ph "key" None].
  split; [solve_parses|]. split; [solve_parses|reflexivity].
Qed.

(* Paths that differ in the name of a placeholder only are accepted. *)
Theorem C112_templates_refuted30 : exists (B : backend string string) r l, new30 r /\ Forall made30 l /\
  Forall (fun a => a = AOk) (map snd (snd (calls30 B r l))) /\ ~ unique_templates (op_at30 (fst (calls30 B r l))).
Proof.
  exists (ex_backend false), ex_refl30, [wp30 "get" "/a/{id}" "id" "x" "key"; wp30 "get" "/a/{key}" "key" "y" "key"].
  split; [exact wp_new30|]. split; [wp_made|]. split; [vm_compute; repeat constructor|]. intros U.
  eassert (X : "/a/{id}" = "/a/{key}") by (eapply (U _ _ "get" "get"); [vm_compute; reflexivity|vm_compute; reflexivity|exact wp_same_template]). discriminate X.
Qed.

Theorem C112_templates_refuted31 : exists (B : backend string string) r l, new31 r /\ Forall (fun c => made31 (snd c)) l /\
  Forall (fun a => a = AOk) (map snd (snd (calls31 B r l))) /\ ~ unique_templates (op_at31 (fst (calls31 B r l))).
Proof.
  exists (ex_backend true), ex_refl31, [wp31 false "get" "/a/{id}" "id" "x" "key"; wp31 false "get" "/a/{key}" "key" "y" "key"].
  split; [exact wp_new31|]. split; [wp_made|]. split; [vm_compute; repeat constructor|]. intros U.
  eassert (X : "/a/{id}" = "/a/{key}") by (eapply (U _ _ "get" "get"); [vm_compute; reflexivity|vm_compute; reflexivity|exact wp_same_template]). discriminate X.
Qed.

Lemma wp_other_template : ~ same_template "/a/{id}" "/b".
Proof.
  intros (l & l' & P & P' & E).
  assert (Q : parses "/a/{id}" [Lit "/"; Lit "a"; Lit "/"; Ph "id" None]) by solve_parses.
  assert (Q' : parses "/b" [Lit "/"; Lit "b"]) by solve_parses.
  rewrite (parses_unique _ _ P _ Q), (parses_unique _ _ P' _ Q') in E. discriminate E.
Qed.
Lemma same_template_sym p q : same_template p q -> same_template q p.
Proof. intros (l & l' & P & P' & E). exists l', l. auto. Qed.

Example C112_example :
  same_template "/a/{id}" "/a/{key}" /\ ~ same_template "/a/{id}" "/b" /\
  unique_templates (op_at30 (fst (calls30 (ex_backend false) ex_refl30 wp_calls30))) /\
  unique_templates (op_at31 (fst (calls31 (ex_backend true) ex_refl31 wp_calls31))).
Proof.
  split; [exact wp_same_template|]. split; [exact wp_other_template|]. split.
  - apply C112_templates30; [exact wp_new30|wp_made|]. intros i j oc oc' [E _] [E' _] T.
    do 4 (destruct i as [|i]; [do 4 (destruct j as [|j]; [injection E as <-; injection E' as <-; cbn in T |- *;
      first [reflexivity|exfalso; exact (wp_other_template T)|exfalso; exact (wp_other_template (same_template_sym _ _ T))]|]); destruct j; discriminate E'|]).
    destruct i; discriminate E.
  - apply C112_templates31; [exact wp_new31|wp_made|]. intros i j oc oc' [E _] [E' _] T.
    do 4 (destruct i as [|i]; [do 4 (destruct j as [|j]; [first [discriminate E|discriminate E'|injection E as <-; injection E' as <-; cbn in T |- *;
      first [reflexivity|exfalso; exact (wp_other_template T)|exfalso; exact (wp_other_template (same_template_sym _ _ T))]]|]); destruct j; discriminate E'|]).
    destruct i; discriminate E.
Qed.

(* ---------- C113: security schemes that operations name ---------- *)

(* The document has the schemes of [d] and those registered by the calls [ks]. *)
Theorem C113_schemes30 : forall (J Sch : Type) (B : backend J Sch) r l d ks, new30 r -> Forall made30 l ->
  (schemes_declared (op_at30 (fst (calls30 B r l))) (declared30 (fold_left secure30 ks d)) <->
   forall i oc n, accepted30 B r l i oc -> names_scheme (oc_op oc) n -> declared30 d n \/ exists k, In k ks /\ secured k = n).
Proof.
  intros J Sch B r l d ks N F.
  rewrite (schemes_iff Sch _ _ _ (accepted30 B r l) where30 (fun oc : call30 J Sch => oc_op oc) (documented30 J Sch B r l N F)).
  split; intros H i c n A S; [apply secured30|apply secured30]; exact (H i c n A S).
Qed.

Theorem C113_schemes31 : forall (J Sch : Type) (B : backend J Sch) r l d ks, new31 r -> Forall (fun c => made31 (snd c)) l ->
  (schemes_declared (op_at31 (fst (calls31 B r l))) (declared31 (fold_left secure31 ks d)) <->
   forall i c n, accepted31 B r l i c -> names_scheme (oc_op (snd c)) n -> declared31 d n \/ exists k, In k ks /\ secured k = n).
Proof.
  intros J Sch B r l d ks N F.
  rewrite (schemes_iff Sch _ _ _ (accepted31 B r l) where31 (fun c : call31 J Sch => oc_op (snd c)) (documented31 J Sch B r l N F)).
  split; intros H i c n A S; [apply secured31|apply secured31]; exact (H i c n A S).
Qed.

(* An operation is accepted though no scheme has the name that it requires. *)
Theorem C113_schemes_refuted30 : exists (B : backend string string) r l d, new30 r /\ Forall made30 l /\
  Forall (fun a => a = AOk) (map snd (snd (calls30 B r l))) /\ ~ schemes_declared (op_at30 (fst (calls30 B r l))) (declared30 d).
Proof.
  exists (ex_backend false), ex_refl30, [wp30 "get" "/a" "" "x" "key"], (mkDoc (mkDocInfo "" "" None JNull) None JNull).
  split; [exact wp_new30|]. split; [wp_made|]. split; [vm_compute; repeat constructor|]. intros U.
  eassert (X : declared30 _ "key").
  { eapply (U (false, "/a", "get")); [vm_compute; reflexivity|]. exists [("key", [])]. split; left; reflexivity. }
  destruct X as [s X]. discriminate X.
Qed.

Theorem C113_schemes_refuted31 : exists (B : backend string string) r l d, new31 r /\ Forall (fun c => made31 (snd c)) l /\
  Forall (fun a => a = AOk) (map snd (snd (calls31 B r l))) /\ ~ schemes_declared (op_at31 (fst (calls31 B r l))) (declared31 d).
Proof.
  exists (ex_backend true), ex_refl31, [wp31 false "get" "/a" "" "x" "key"], (mkDoc (mkDocInfo "" "" None JNull) None JNull).
  split; [exact wp_new31|]. split; [wp_made|]. split; [vm_compute; repeat constructor|]. intros U.
  eassert (X : declared31 _ "key").
  { eapply (U (false, "/a", "get")); [vm_compute; reflexivity|]. exists [("key", [])]. split; left; reflexivity. }
  destruct X as [s X]. discriminate X.
Qed.

Example C113_example :
  let d30 := mkDoc (mkDocInfo "" "" None JNull) None JNull in
  let d31 := mkDoc (mkDocInfo "" "" None JNull) None JNull in
  schemes_declared (op_at30 (fst (calls30 (ex_backend false) ex_refl30 wp_calls30))) (declared30 (fold_left secure30 [SBasic "key" ""] d30)) /\
  schemes_declared (op_at31 (fst (calls31 (ex_backend true) ex_refl31 wp_calls31))) (declared31 (fold_left secure31 [SBasic "key" ""] d31)).
Proof.
  split.
  - apply C113_schemes30; [exact wp_new30|wp_made|]. intros i oc n [E (o & R)] (req & I & K). right. exists (SBasic "key" ""). split; [left; reflexivity|].
    do 2 (destruct i as [|i]; [injection E as <-; destruct I as [<-|[]]; destruct K as [<-|[]]; reflexivity|]).
    destruct i as [|i]; [vm_compute in R; discriminate R|].
    destruct i as [|i]; [injection E as <-; destruct I as [<-|[]]; destruct K as [<-|[]]; reflexivity|]. destruct i; discriminate E.
  - apply C113_schemes31; [exact wp_new31|wp_made|]. intros i oc n [E (o & R)] (req & I & K). right. exists (SBasic "key" ""). split; [left; reflexivity|].
    do 2 (destruct i as [|i]; [injection E as <-; destruct I as [<-|[]]; destruct K as [<-|[]]; reflexivity|]).
    destruct i as [|i]; [vm_compute in R; discriminate R|].
    destruct i as [|i]; [injection E as <-; destruct I as [<-|[]]; destruct K as [<-|[]]; reflexivity|]. destruct i; discriminate E.
Qed.

(* ---------- assumptions ---------- *)

Print Assumptions C110_documented30.
Print Assumptions C110_documented31.
Print Assumptions C110_once30.
Print Assumptions C110_once31.
Print Assumptions C111_ids30.
Print Assumptions C111_ids31.
Print Assumptions C111_ids_refuted30.
Print Assumptions C111_ids_refuted31.
Print Assumptions C112_templates30.
Print Assumptions C112_templates31.
Print Assumptions C112_templates_refuted30.
Print Assumptions C112_templates_refuted31.
Print Assumptions C113_schemes30.
Print Assumptions C113_schemes31.
Print Assumptions C113_schemes_refuted30.
Print Assumptions C113_schemes_refuted31.
