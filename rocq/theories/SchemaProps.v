(* Theorems about the schema conversions of openapi3/jsonschema.go and
   openapi31/jsonschema.go. *)
From Coq Require Import Permutation.
From Verif Require Import Str SMap Json SchemaModel SchemaSpec SchemaProofs SchemaRefs SchemaRefs2 SchemaOrder SchemaInline.

(* ---------- example data ---------- *)

Ltac no_kids := solve [discriminate | intros ? [] | intros ? ? []].

Definition ex_oracle : oracle :=
  mkOracle String.length (fun p s => has_prefix p s) (fun _ _ => true)
    (fun x y => match x, y with JStr a, JStr b => String.eqb a b | JNull, JNull => true | _, _ => false end)
    (fun _ _ => Some true).

Definition ex_jref (n : string) : jsob := JSObj ja0 (Some (local n)) None [] [] [] None [] [] None [].

Definition ex_ja (t : jtype) (req : list string) : jattrs :=
  mkJA None (Some "Title") None t None None None None None None 0 None None 0 None None 0 req [] None None [] None None None [] [].

(* A list: an object with a nullable string and a reference to itself. *)
Definition ex_node : jsob :=
  JSObj (ex_ja (JTOne "object") ["value"]) None None [] [] [] None []
    [("next", ex_jref "Node");
     ("value", JSObj (ex_ja (JTMany ["null"; "string"]) []) None None [] [] [] None [] [] None [])]
    (Some (JSBool false)) [].

Definition ex_oa (t : option string) (nullable : option bool) (req : list string) : oattrs :=
  mkOA None (Some "Title") None t nullable None None None None None None None None None None None None None req [] None None None
    None None None [] [].

Definition ex_onode : osor :=
  OSch (ex_oa (Some "object") None ["value"]) None [] [] [] None
    [("next", ORef (local "Node")); ("value", sch0 (ex_oa (Some "string") (Some true) []))]
    (Some (Addl (Some false) None)).

Definition ex_value (last : json) : json := JObj [("value", JStr "x"); ("next", JObj [("value", last)])].

Definition ex_jenv (n : string) : option jsob := if String.eqb n "Node" then Some ex_node else None.
Definition ex_oenv (n : string) : option osor := if String.eqb n "Node" then Some ex_onode else None.

Lemma ex_node_expressible : expressible ex_node.
Proof.
  apply exp_obj; try no_kids.
  - repeat split; simpl; auto. discriminate.
  - intros k s [E|[E|[]]]; injection E as <- <-; [apply exp_ref|].
    apply exp_obj; try no_kids.
    repeat split; simpl; auto. exists "string". split; [discriminate|]. split; auto.
    intros u [<-|[<-|[]]]; auto.
  - intros s E. injection E as <-. apply exp_bool.
Qed.

Lemma ex_converted : converted ex_jenv ex_oenv.
Proof.
  intros n. unfold ex_jenv, ex_oenv. destruct (String.eqb n "Node"); [|reflexivity].
  split; [apply ex_node_expressible | vm_compute; reflexivity].
Qed.

(* ---------- C29 ---------- *)

(* Every expressible schema is converted, and the conversion says about every
   value what the schema says, with references through converted definitions. *)
Theorem C29_same_values : forall O jenv oenv s, converted jenv oenv -> expressible s ->
  exists o, from_js s = Some o /\ forall v b, osays O oenv o v b <-> jsays O jenv s v b.
Proof. exact from_says. Qed.

(* The same number of references is followed. *)
Theorem C29_same_steps : forall O jenv oenv s o, converted jenv oenv -> expressible s -> from_js s = Some o ->
  forall n v, omeaning O (follow (omeaning O) O oenv n) o v = jmeaning O (follow (jmeaning O) O jenv n) s v.
Proof. exact from_keeps. Qed.

(* What a schema says is unique. *)
Theorem C29_says_one : forall O jenv s v b b', jsays O jenv s v b -> jsays O jenv s v b' -> b = b'.
Proof. exact jsays_fun. Qed.

Example C29_example_accepts :
  from_js ex_node = Some ex_onode /\ converted ex_jenv ex_oenv /\ expressible ex_node /\
  jsays ex_oracle ex_jenv (ex_jref "Node") (ex_value JNull) true /\
  osays ex_oracle ex_oenv (ORef (local "Node")) (ex_value JNull) true /\
  jsays ex_oracle ex_jenv (ex_jref "Node") (ex_value (JBool true)) false /\
  osays ex_oracle ex_oenv (ORef (local "Node")) (ex_value (JBool true)) false.
Proof.
  split; [vm_compute; reflexivity|]. split; [apply ex_converted|]. split; [apply ex_node_expressible|].
  repeat split; exists 3; vm_compute; reflexivity.
Qed.

(* ---------- C30 ---------- *)

(* False as stated: exclusiveMaximum 5 accepts 7 after the conversion. *)
Theorem C30_refuted : exists O env env' s o q,
  from_js s = Some o /\ jsays O env s (JNum q) false /\ osays O env' o (JNum q) true.
Proof.
  exists ex_oracle, (fun _ => None), (fun _ => None), (jattr_schema (max_attrs None (Some 5%Q))), (sch0 (from_attrs (max_attrs None (Some 5%Q)))), 7%Q.
  split; [vm_compute; reflexivity|]. split; exists 0; vm_compute; reflexivity.
Qed.

(* The numbers are kept exactly if maximum stands next to it with the same value. *)
Theorem C30_max_partial : forall O rs mx e,
  (forall q, omeaning O rs (sch0 (from_attrs (max_attrs mx (Some e)))) (JNum q)
             = jmeaning O rs (jattr_schema (max_attrs mx (Some e))) (JNum q))
  <-> exp_bound mx (Some e).
Proof. exact max_kept_iff. Qed.

Theorem C30_min_partial : forall O rs mn e,
  (forall q, omeaning O rs (sch0 (from_attrs (min_attrs mn (Some e)))) (JNum q)
             = jmeaning O rs (jattr_schema (min_attrs mn (Some e))) (JNum q))
  <-> exp_bound mn (Some e).
Proof. exact min_kept_iff. Qed.

Example C30_example :
  from_js (jattr_schema (max_attrs (Some 5%Q) (Some 5%Q))) = Some (sch0 (from_attrs (max_attrs (Some 5%Q) (Some 5%Q)))) /\
  exp_bound (Some 5%Q) (Some (10 # 2)%Q) /\ ~ exp_bound (Some 6%Q) (Some 5%Q).
Proof.
  split; [vm_compute; reflexivity|]. split.
  - exists 5%Q. split; reflexivity.
  - intros (m & E & Q). injection E as <-. vm_compute in Q. discriminate.
Qed.

(* ---------- C31 ---------- *)

Definition ex_comps : comps30 := Some [("Other", sch0 (ex_oa (Some "string") None [])); ("Node", ex_onode)].

Lemma ex_onode_typed : nullable_typed ex_onode.
Proof.
  apply nt_sch; try no_kids.
  intros k s [E|[E|[]]]; injection E as <- <-; [apply nt_ref|].
  apply nt_sch; no_kids.
Qed.

Lemma ex_comps_typed : forall d s, oenv ex_comps d = Some s -> nullable_typed s.
Proof.
  intros d s E. unfold oenv, ex_comps in E. cbn [get] in E.
  destruct (String.eqb d "Other"); [|destruct (String.eqb d "Node"); [|discriminate]]; injection E as <-.
  - apply nt_sch; no_kids.
  - apply ex_onode_typed.
Qed.

Theorem C31_same_values : forall O o cs js defs,
  nullable_typed o -> (forall d s, oenv cs d = Some s -> nullable_typed s) ->
  to_json_schema30 o cs = Ok (js, defs) ->
  forall v b, osays O (oenv cs) o v b -> jsays O (fun n => get n defs) js v b.
Proof. exact toj30_says. Qed.

(* Conversely, unless a reference points to nothing. *)
Theorem C31_same_values_back : forall O o cs js defs,
  nullable_typed o -> (forall d s, oenv cs d = Some s -> nullable_typed s) ->
  (forall d, reachable omentions (oenv cs) o d -> oenv cs d <> None) ->
  to_json_schema30 o cs = Ok (js, defs) ->
  forall v b, jsays O (fun n => get n defs) js v b -> osays O (oenv cs) o v b.
Proof. exact toj30_says_back. Qed.

Example C31_example :
  nullable_typed (ORef (local "Node")) /\ (forall d s, oenv ex_comps d = Some s -> nullable_typed s) /\
  exists js defs, to_json_schema30 (ORef (local "Node")) ex_comps = Ok (js, defs) /\ keys defs = ["Node"] /\
  jsays ex_oracle (fun n => get n defs) js (ex_value JNull) true /\
  jsays ex_oracle (fun n => get n defs) js (ex_value (JBool true)) false.
Proof.
  split; [apply nt_ref|]. split; [apply ex_comps_typed|].
  eexists. eexists. split; [vm_compute; reflexivity|]. split; [vm_compute; reflexivity|].
  split; exists 3; vm_compute; reflexivity.
Qed.

(* Without the restriction on nullable it is false. *)
Theorem C31_untyped_nullable : exists O o cs js defs v,
  to_json_schema30 o cs = Ok (js, defs) /\ osays O (oenv cs) o v true /\ jsays O (fun n => get n defs) js v false.
Proof.
  exists ex_oracle, (sch0 (ex_oa None (Some true) [])), (Some []), (conv (sch0 (ex_oa None (Some true) []))), [], (JStr "x").
  split; [vm_compute; reflexivity|]. split; exists 0; vm_compute; reflexivity.
Qed.

(* ---------- C32 ---------- *)

(* Converting back gives [norm] of the schema, or of the component the root
   refers to; the definitions give [norm] of the components. *)
Theorem C32_round_trip_partial : forall o cs js defs, to_json_schema30 o cs = Ok (js, defs) ->
  (from_js js = Some (norm o) \/ exists n, o = ORef (local n) /\ from_js js = Some (norm (comp30 cs n))) /\
  (forall n s, get n defs = Some s -> from_js s = Some (norm (comp30 cs n))).
Proof. exact back30. Qed.

(* Schemas without the lost features come back unchanged. *)
Theorem C32_plain_partial : forall o cs js defs, to_json_schema30 o cs = Ok (js, defs) ->
  plain o -> (forall n, reachable omentions (oenv cs) o n -> plain (comp30 cs n)) ->
  (from_js js = Some o \/ exists n, o = ORef (local n) /\ from_js js = oenv cs n) /\
  (forall n s, get n defs = Some s -> from_js s = oenv cs n).
Proof. exact back30_plain. Qed.

(* False as stated: the value of an exclusive bound is lost, and the schema that
   comes back accepts more. *)
Definition ex_exclusive : osor :=
  sch0 (mkOA None None None (Some "number") None None (Some 5%Q) (Some true) None None None None None None None None None None [] []
          None None None None None None [] []).

Theorem C32_refuted : exists O o cs js defs o' v,
  to_json_schema30 o cs = Ok (js, defs) /\ from_js js = Some o' /\
  osays O (oenv cs) o v false /\ osays O (oenv cs) o' v true.
Proof.
  exists ex_oracle, ex_exclusive, (Some []), (conv ex_exclusive), [], (norm ex_exclusive), (JNum 7%Q).
  split; [vm_compute; reflexivity|]. split; [vm_compute; reflexivity|]. split; exists 0; vm_compute; reflexivity.
Qed.

Example C32_example :
  plain ex_onode /\ (forall n, reachable omentions (oenv ex_comps) ex_onode n -> plain (comp30 ex_comps n)) /\
  exists js defs, to_json_schema30 ex_onode ex_comps = Ok (js, defs) /\ from_js js = Some ex_onode /\ keys defs = ["Node"].
Proof.
  assert (PA : forall t nu rq, t <> Some "null" -> nu <> Some false -> plain_attrs (ex_oa t nu rq)).
  { intros t nu rq H1 H2. repeat split; auto; try discriminate. }
  assert (PS : forall t nu rq, t <> Some "null" -> nu <> Some false -> plain (sch0 (ex_oa t nu rq))).
  { intros t nu rq H1 H2. apply pl_sch; auto; no_kids. }
  assert (PN : plain ex_onode).
  { apply pl_sch; try no_kids.
    - apply PA; discriminate.
    - intros k s [E|[E|[]]]; injection E as <- <-; [apply pl_ref|]. apply PS; discriminate.
    - right. left. eauto. }
  split; [exact PN|]. split.
  - intros n R. assert (E : n = "Node").
    { apply reach30 in R. revert R. change (orefs ex_onode) with ["Node"]. intros R. induction R as [x I|d x R IH I].
      - destruct I as [<-|[]]. reflexivity.
      - subst d. destruct I as [<-|[]]. reflexivity. }
    subst n. exact PN.
  - eexists. eexists. split; [vm_compute; reflexivity|]. split; vm_compute; reflexivity.
Qed.

(* ---------- C33 ---------- *)

Theorem C33_panics_exactly : forall s, from_js s = None <-> zero_met s.
Proof. exact from_js_None. Qed.

Theorem C33_expressible : forall s, expressible s -> ~ zero_met s.
Proof. exact expressible_no_zero. Qed.

Example C33_example :
  from_js (JSObj ja0 None None [] [] [] None [] [("a", JSZero)] None []) = None /\
  zero_met (JSObj ja0 None None [] [] [] None [] [("a", JSZero)] None []) /\
  from_js (JSObj ja0 (Some "r") None [] [] [] None [] [("a", JSZero)] None []) <> None.
Proof.
  split; [reflexivity|]. split; [eapply zm_prop; [left; reflexivity | apply zm_zero] | discriminate].
Qed.

(* ---------- C34 ---------- *)

(* A nesting depth of two plus the number of components is never exceeded, so
   that the recursion ends; more depth changes nothing. *)
Theorem C34_terminates : forall n o cs, enough cs <= n ->
  to_json_schema30_fuel n o cs <> OutOfFuel /\ to_json_schema30_fuel n o cs = to_json_schema30 o cs.
Proof. exact toj30_fuel. Qed.

(* It panics only for a reference without components to look in. *)
Theorem C34_panics_exactly : forall o cs, to_json_schema30 o cs = Panic <-> cs = None /\ exists n, omentions n o.
Proof. exact toj30_panic. Qed.

Definition ex_cycle : comps30 :=
  Some [("A", OSch oa0 None [ORef (local "B"); ORef (local "Lost")] [] [] None [("a", ORef (local "A"))] None);
        ("B", OSch oa0 None [] [] [] (Some (ORef (local "A"))) [] None)].

Example C34_example :
  exists js defs, to_json_schema30 (ORef (local "A")) ex_cycle = Ok (js, defs) /\ keys defs = ["A"; "B"; "Lost"] /\
  to_json_schema30_fuel 2 (ORef (local "A")) ex_cycle = OutOfFuel /\
  to_json_schema30 (ORef (local "A")) None = Panic.
Proof. eexists. eexists. split; [vm_compute; reflexivity|]. repeat split; vm_compute; reflexivity. Qed.

(* ---------- C35 ---------- *)

Theorem C35_terminates : forall nil_map cs, (forall s, nil_map = Some s -> jrefs s = []) ->
  forall n s, enough cs <= n ->
  to_json_schema31_fuel n nil_map s cs <> OutOfFuel /\ to_json_schema31_fuel n nil_map s cs = to_json_schema31 nil_map s cs.
Proof. exact toj31_fuel. Qed.

(* A component that cannot be decoded and is reachable is needed for a panic;
   for schemas in the entered form it suffices. *)
Theorem C35_panics_only : forall nil_map cs, (forall s, nil_map = Some s -> jrefs s = []) ->
  forall s, to_json_schema31 nil_map s cs = Panic ->
  exists x, reachable jmentions (comp31 nil_map cs) s x /\ comp31 nil_map cs x = None.
Proof.
  intros nil_map cs nil_ok s H. apply (toj31_panic nil_map cs nil_ok) in H as (x & R & B). exists x. split; auto.
  apply reach31_sub. exact R.
Qed.

Theorem C35_panics_exactly : forall nil_map cs, (forall s, nil_map = Some s -> jrefs s = []) ->
  forall s, entered s -> (forall d t, comp31 nil_map cs d = Some t -> entered t) ->
  (to_json_schema31 nil_map s cs = Panic <->
   exists x, reachable jmentions (comp31 nil_map cs) s x /\ comp31 nil_map cs x = None).
Proof.
  intros nil_map cs nil_ok s Es Ec. rewrite (toj31_panic nil_map cs nil_ok).
  split; intros (x & R & B); exists x; split; auto; apply (reach31 nil_map cs); auto.
Qed.

Definition ex_cycle31 : comps31 :=
  Some [("A", Some (JSObj ja0 None None [ex_jref "B"] [] [] None [ex_jref "A"] [] None []));
        ("B", Some (JSObj ja0 None None [] [] [] (Some (ex_jref "A")) [] [] (Some (ex_jref "Lost")) []));
        ("Bad", None)].
Definition ex_nil : option jsob := Some (JSObj ja0 None None [] [] [] None [] [] None []).

Lemma ex_nil_ok : forall s, ex_nil = Some s -> jrefs s = [].
Proof. intros s E. injection E as <-. reflexivity. Qed.

Example C35_example :
  (forall s, ex_nil = Some s -> jrefs s = []) /\
  exists js defs, to_json_schema31 ex_nil (ex_jref "A") ex_cycle31 = Ok (js, defs) /\ keys defs = ["A"; "B"; "Lost"] /\
  to_json_schema31_fuel 2 ex_nil (ex_jref "A") ex_cycle31 = OutOfFuel /\
  to_json_schema31 ex_nil (ex_jref "Bad") ex_cycle31 = Panic.
Proof.
  split; [exact ex_nil_ok|]. eexists. eexists. split; [vm_compute; reflexivity|]. repeat split; vm_compute; reflexivity.
Qed.

(* ---------- C36 ---------- *)

Theorem C36_self_contained : forall o cs js defs n, to_json_schema30 o cs = Ok (js, defs) ->
  jmentions n js \/ (exists d s, get d defs = Some s /\ jmentions n s) ->
  get n defs = Some (conv (comp30 cs n)).
Proof. exact toj30_closed. Qed.

(* Nothing else is attached. *)
Theorem C36_minimal : forall o cs js defs n s, to_json_schema30 o cs = Ok (js, defs) -> get n defs = Some s ->
  reachable omentions (oenv cs) o n /\ s = conv (comp30 cs n).
Proof. exact toj30_minimal. Qed.

Example C36_example :
  exists js defs, to_json_schema30 (ORef (local "A")) ex_cycle = Ok (js, defs) /\
  (exists d s, get d defs = Some s /\ jmentions "Lost" s) /\ get "Lost" defs = Some (conv ONone).
Proof.
  eexists. eexists. split; [vm_compute; reflexivity|]. split; [|vm_compute; reflexivity].
  exists "A". eexists. split; [vm_compute; reflexivity|].
  eapply jm_child; [apply jc_all; right; left; reflexivity|]. apply (jm_here "Lost").
Qed.

(* ---------- C37 ---------- *)

Theorem C37_self_contained_partial : forall nil_map cs, (forall s, nil_map = Some s -> jrefs s = []) ->
  forall s js defs n, to_json_schema31 nil_map s cs = Ok (js, defs) ->
  entered s -> (forall d t, reachable jmentions (comp31 nil_map cs) s d -> comp31 nil_map cs d = Some t -> entered t) ->
  jmentions n js \/ (exists d t, get d defs = Some t /\ jmentions n t) ->
  exists t, comp31 nil_map cs n = Some t /\ get n defs = Some t.
Proof.
  intros nil_map cs nil_ok s js defs n H Es Ec. apply (toj31_closed nil_map cs nil_ok s js defs n H Es).
  intros d t R. apply Ec. apply reach31_sub. exact R.
Qed.

Theorem C37_minimal : forall nil_map cs, (forall s, nil_map = Some s -> jrefs s = []) ->
  forall s js defs n t, to_json_schema31 nil_map s cs = Ok (js, defs) -> get n defs = Some t ->
  reachable jmentions (comp31 nil_map cs) s n /\ comp31 nil_map cs n = Some t.
Proof.
  intros nil_map cs nil_ok s js defs n t H E. destruct (toj31_minimal nil_map cs nil_ok s js defs n t H E) as [R C].
  split; auto. apply reach31_sub. exact R.
Qed.

(* False as stated: references under keywords that are not entered, such as
   patternProperties, stay without definition. *)
Theorem C37_keyword_refuted : exists nil_map s cs js defs n,
  (forall t, nil_map = Some t -> jrefs t = []) /\
  to_json_schema31 nil_map s cs = Ok (js, defs) /\ jmentions n js /\ get n defs = None /\ comp31 nil_map cs n <> None.
Proof.
  exists ex_nil, (JSObj ja0 None None [] [] [] None [] [] None [("patternProperties/^a", ex_jref "A")]), ex_cycle31,
    (JSObj ja0 None None [] [] [] None [] [] None [("patternProperties/^a", ex_jref "A")]), [], "A".
  split; [exact ex_nil_ok|]. split; [vm_compute; reflexivity|]. split.
  - eapply jm_child; [eapply jc_other; left; reflexivity|]. apply (jm_here "A").
  - split; [reflexivity|discriminate].
Qed.

(* The same next to $ref, where JSON schema 2020-12 has other keywords too. *)
Theorem C37_sibling_refuted : exists nil_map s cs js defs n,
  (forall t, nil_map = Some t -> jrefs t = []) /\
  to_json_schema31 nil_map s cs = Ok (js, defs) /\ jmentions n js /\ get n defs = None /\ comp31 nil_map cs n <> None.
Proof.
  exists ex_nil, (JSObj ja0 (Some "other.json") None [ex_jref "A"] [] [] None [] [] None []), ex_cycle31,
    (JSObj ja0 (Some "other.json") None [ex_jref "A"] [] [] None [] [] None []), [], "A".
  split; [exact ex_nil_ok|]. split; [vm_compute; reflexivity|]. split.
  - eapply jm_child; [eapply jc_all; left; reflexivity|]. apply (jm_here "A").
  - split; [reflexivity|discriminate].
Qed.

Lemma ex_entered31 : forall d t, comp31 ex_nil ex_cycle31 d = Some t -> entered t.
Proof.
  assert (ER : forall n, entered (ex_jref n)) by (intros; apply en_ref).
  intros d t E. unfold comp31, ex_cycle31 in E. cbn [get] in E.
  destruct (String.eqb d "A"); [|destruct (String.eqb d "B"); [|destruct (String.eqb d "Bad"); [discriminate|]]];
    injection E as <-; apply en_obj; intros s C; inversion C; subst; simpl in *; intuition (subst; auto).
Qed.

Example C37_example :
  entered (ex_jref "A") /\ (forall d t, comp31 ex_nil ex_cycle31 d = Some t -> entered t) /\
  exists js defs, to_json_schema31 ex_nil (ex_jref "A") ex_cycle31 = Ok (js, defs) /\
  (exists d s, get d defs = Some s /\ jmentions "Lost" s) /\ get "Lost" defs = ex_nil.
Proof.
  split; [apply en_ref|]. split; [exact ex_entered31|].
  eexists. eexists. split; [vm_compute; reflexivity|]. split; [|vm_compute; reflexivity].
  exists "B". eexists. split; [vm_compute; reflexivity|].
  eapply jm_child; [apply jc_addl|]. apply (jm_here "Lost").
Qed.

(* ---------- C38 ---------- *)

(* Schemas and components that differ only in the order of map entries give the
   same result up to that order: schema, definitions, and whether it panics. *)
Theorem C38_order_30 : forall o o' cs cs', osame o o' -> same_comps30 cs cs' ->
  same_result (to_json_schema30 o cs) (to_json_schema30 o' cs').
Proof. exact order30. Qed.

Theorem C38_order_31 : forall nil_map s s' cs cs', (forall t, nil_map = Some t -> jrefs t = []) ->
  jsame s s' -> same_comps31 cs cs' ->
  same_result (to_json_schema31 nil_map s cs) (to_json_schema31 nil_map s' cs').
Proof. exact order31. Qed.

Definition ex_order (l : smap osor) : osor := OSch oa0 None [] [] [] None l None.

Example C38_example :
  let p := ex_order [("a", ORef (local "A")); ("b", ORef (local "B"))] in
  let p' := ex_order [("b", ORef (local "B")); ("a", ORef (local "A"))] in
  osame p p' /\ p <> p' /\
  exists js defs js' defs', to_json_schema30 p ex_cycle = Ok (js, defs) /\ to_json_schema30 p' ex_cycle = Ok (js', defs') /\
    keys defs = ["A"; "B"; "Lost"] /\ keys defs' = ["B"; "A"; "Lost"].
Proof.
  split; [|split].
  - apply os_sch; try constructor. eexists. split; [apply perm_swap|].
    repeat (constructor; [split; [reflexivity|constructor]|]). constructor.
  - intros E. injection E as E. discriminate E.
  - do 4 eexists. split; [vm_compute; reflexivity|]. split; [vm_compute; reflexivity|]. split; vm_compute; reflexivity.
Qed.

(* ---------- C39 ---------- *)

Theorem C39_inlined_30 : forall n cs js defs, to_json_schema30 (ORef (local n)) cs = Ok (js, defs) ->
  ((forall d s, reachable omentions (oenv cs) (ORef (local n)) d -> oenv cs d = Some s -> ~ omentions n s) ->
   js = conv (comp30 cs n) /\ get n defs = None) /\
  ((exists d s, reachable omentions (oenv cs) (ORef (local n)) d /\ oenv cs d = Some s /\ omentions n s) ->
   js = JSObj ja0 (Some (local n)) None [] [] [] None [] [] None [] /\ get n defs = Some (conv (comp30 cs n))).
Proof. exact inline30. Qed.

Theorem C39_inlined_31 : forall nil_map cs a n nt al on an it tu pr ad ot js defs,
  (forall s, nil_map = Some s -> jrefs s = []) ->
  (forall d t, comp31 nil_map cs d = Some t -> entered t) ->
  let root := JSObj a (Some (local n)) nt al on an it tu pr ad ot in
  let R := reachable jmentions (comp31 nil_map cs) (JSObj a (Some (local n)) None [] [] [] None [] [] None []) in
  to_json_schema31 nil_map root cs = Ok (js, defs) ->
  exists t, comp31 nil_map cs n = Some t /\
  ((forall d s, R d -> comp31 nil_map cs d = Some s -> ~ jmentions n s) -> js = t /\ get n defs = None) /\
  ((exists d s, R d /\ comp31 nil_map cs d = Some s /\ jmentions n s) -> js = root /\ get n defs = Some t).
Proof. exact inline31. Qed.

Example C39_example :
  (exists defs, to_json_schema30 (ORef (local "Other")) ex_comps = Ok (conv (sch0 (ex_oa (Some "string") None [])), defs) /\ defs = []) /\
  (exists defs, to_json_schema30 (ORef (local "Node")) ex_comps = Ok (ex_jref "Node", defs) /\ keys defs = ["Node"]) /\
  (exists defs, to_json_schema31 ex_nil (ex_jref "Lost") ex_cycle31 = Ok (JSObj ja0 None None [] [] [] None [] [] None [], defs) /\ defs = []).
Proof. repeat split; eexists; split; vm_compute; reflexivity. Qed.

(* ---------- assumptions ---------- *)

Print Assumptions C29_same_values.
Print Assumptions C29_same_steps.
Print Assumptions C29_says_one.
Print Assumptions C30_refuted.
Print Assumptions C30_max_partial.
Print Assumptions C30_min_partial.
Print Assumptions C31_same_values.
Print Assumptions C31_same_values_back.
Print Assumptions C31_untyped_nullable.
Print Assumptions C32_round_trip_partial.
Print Assumptions C32_plain_partial.
Print Assumptions C32_refuted.
Print Assumptions C33_panics_exactly.
Print Assumptions C33_expressible.
Print Assumptions C34_terminates.
Print Assumptions C34_panics_exactly.
Print Assumptions C35_terminates.
Print Assumptions C35_panics_only.
Print Assumptions C35_panics_exactly.
Print Assumptions C36_self_contained.
Print Assumptions C36_minimal.
Print Assumptions C37_self_contained_partial.
Print Assumptions C37_minimal.
Print Assumptions C37_keyword_refuted.
Print Assumptions C37_sibling_refuted.
Print Assumptions C38_order_30.
Print Assumptions C38_order_31.
Print Assumptions C39_inlined_30.
Print Assumptions C39_inlined_31.
