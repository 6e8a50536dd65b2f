(* Theorems about the order of members and the way through YAML (C89-C91).
   [rnd] is the rounding of numbers to float64. *)
From Coq Require Import Permutation.
From Verif Require Import Str SMap Json YamlModel YamlSpec YamlDocModel YamlDocSpec YamlDocProofs.
From Verif Require Import CodecModel CodecTables CodecSpec CodecCheck OrdModel OrdSpec OrdProofs OrdWrite OrdCheck.

(* ---------- C89 ---------- *)

(* The order of the members of a document, at any depth, is of no importance:
   for every type of both packages it is accepted or not, and what is read is the
   same. *)
Theorem C89_members : forall T rnd t j j', CodecSpec.distinct j -> unambiguous T t j -> reordered j j' ->
  agree vsame (unmarshal T rnd t j) (unmarshal T rnd t j').
Proof. exact members_free. Qed.

(* And it is written the same. *)
Theorem C89_rewritten : forall T rnd t j j' v, CodecSpec.distinct j -> unambiguous T t j -> reordered j j' -> unmarshal T rnd t j = Some v ->
  exists v', unmarshal T rnd t j' = Some v' /\ vsame v v' /\ agree reordered (marshal T t v) (marshal T t v').
Proof. exact rewrite_same. Qed.

(* A simpler condition: nowhere in the document, examples and extensions
   included, are there two names that differ only in case and spell a key of the
   package. *)
Theorem C89_plain : forall T t j, no_variants (field_keys T) j -> unambiguous T t j.
Proof. exact plainly_unambiguous. Qed.

(* Two members whose names differ in case, or are the same: the last one is
   taken. *)
Theorem C89_variants_refuted : forall rnd, exists m, CodecSpec.distinct (JObj m) /\ reordered (JObj m) (JObj (rev m)) /\
  ~ agree vsame (unmarshal T31 rnd (TNamed "Info") (JObj m)) (unmarshal T31 rnd (TNamed "Info") (JObj (rev m))).
Proof.
  intros rnd. exists [("version", JStr "1"); ("title", JStr "a"); ("Title", JStr "b")].
  split; [apply distinctb_ok; vm_compute; reflexivity|]. split; [apply ro_rev|].
  intros A. vm_compute in A. inversion A as [|x y H]; subst. apply vs_eqb_ok in H. vm_compute in H. discriminate H.
Qed.
Theorem C89_repeated_refuted : forall rnd, exists m, unambiguous T30 (TNamed "Info") (JObj m) /\ reordered (JObj m) (JObj (rev m)) /\
  ~ agree vsame (unmarshal T30 rnd (TNamed "Info") (JObj m)) (unmarshal T30 rnd (TNamed "Info") (JObj (rev m))).
Proof.
  intros rnd. exists [("version", JStr "1"); ("title", JStr "a"); ("title", JStr "b")].
  split; [apply (unambb_ok T30 20); vm_compute; reflexivity|]. split; [apply ro_rev|].
  intros A. vm_compute in A. inversion A as [|x y H]; subst. apply vs_eqb_ok in H. vm_compute in H. discriminate H.
Qed.

(* A document and the same with the members of all objects in reverse order:
   the maps of the entity are in another order.  Names of schemas and properties
   and the members of examples may differ in case. *)
Example C89_example :
  let j := JObj [("openapi", JStr "3.0.3"); ("info", JObj [("title", JStr "t"); ("version", JStr "1")]);
                 ("paths", JObj [("/a", JObj []); ("/b", JObj [("summary", JStr "s")])]);
                 ("components", JObj [("schemas", JObj [("Type", JObj [("properties", JObj [("type", JObj []); ("Type", JObj [("type", JStr "string")])]);
                                                                      ("example", JObj [("type", JNum 1); ("TYPE", JNum 2)])]);
                                                       ("type", JObj [])])])] in
  CodecSpec.distinct j /\ unambiguous T30 (TNamed "Spec") j /\ ~ no_variants (field_keys T30) j /\ reordered j (backwards j) /\ j <> backwards j /\
  exists v v', unmarshal T30 idq (TNamed "Spec") j = Some v /\ unmarshal T30 idq (TNamed "Spec") (backwards j) = Some v' /\ v <> v' /\ vsame v v'.
Proof.
  cbv zeta. set (j := JObj _).
  assert (D : CodecSpec.distinct j) by (apply distinctb_ok; vm_compute; reflexivity).
  assert (N : unambiguous T30 (TNamed "Spec") j) by (apply (unambb_ok T30 60); vm_compute; reflexivity).
  pose proof (C89_members T30 idq (TNamed "Spec") j (backwards j) D N (ro_backwards j)) as A.
  split; [exact D|]. split; [exact N|]. split.
  { intros NV. unfold j in NV. inversion NV as [| | | | |m0 _ H]; subst. specialize (H _ _ (or_intror (or_intror (or_intror (or_introl eq_refl))))).
    inversion H as [| | | | |m0 _ H1]; subst. specialize (H1 _ _ (or_introl eq_refl)). inversion H1 as [| | | | |m0 C _]; subst.
    assert (X : "Type" = "type") by (apply (C "type"); [vm_compute; auto 200|left; reflexivity|right; left; reflexivity|reflexivity|reflexivity]). discriminate X. }
  split; [apply ro_backwards|]. split; [intros X; vm_compute in X; discriminate X|].
  destruct (agree_case _ _ _ A) as [[E _]|(v & v' & E & E' & S)]; [vm_compute in E; discriminate E|].
  exists v, v'. split; [exact E|]. split; [exact E'|]. split; [|exact S]. intros <-. rewrite <- E' in E. vm_compute in E. discriminate E.
Qed.

(* ---------- C90 ---------- *)

(* The order in which Go runs over the raw members is of no importance, for all
   JSON values whatsoever. *)
Theorem C90_iteration : forall T rnd o o' t j, fair o -> fair o' -> agree vsame (unmarshal_o T rnd o t j) (unmarshal_o T rnd o' t j).
Proof. exact order_free. Qed.

(* The functions of the other chapters are those with the order of the
   document. *)
Theorem C90_as_given : forall T rnd t j, unmarshal_o T rnd (fun _ _ _ l => l) t j = unmarshal T rnd t j.
Proof. intros T rnd t j. unfold unmarshal_o, unmarshal. exact (f_equal (fun d => d j t (zero T LVL t)) (dec_given T rnd)). Qed.

(* The order of the members and the iteration order together. *)
Theorem C90_members : forall T rnd o o' t j j', fair o -> fair o' -> CodecSpec.distinct j -> unambiguous T t j -> reordered j j' ->
  agree vsame (unmarshal_o T rnd o t j) (unmarshal_o T rnd o' t j').
Proof. exact members_order_free. Qed.

(* Written values: a map of a value may be in any order. *)
Theorem C90_written : forall T t v v', single v -> single v' -> vsame v v' -> agree reordered (marshal T t v) (marshal T t v').
Proof. exact write_same. Qed.
(* What is read has no key twice. *)
Theorem C90_read_single : forall T rnd o t j v, fair o -> unmarshal_o T rnd o t j = Some v -> single v.
Proof. exact read_single_o. Qed.

Example C90_example : fair (fun _ _ _ l => rev l) /\
  exists v v', unmarshal_o T30 idq (fun _ _ _ l => rev l) (TNamed "Paths") (JObj [("/a", JObj []); ("x-a", JNull); ("/b", JObj [])]) = Some v /\
    unmarshal T30 idq (TNamed "Paths") (JObj [("/a", JObj []); ("x-a", JNull); ("/b", JObj [])]) = Some v' /\ v <> v' /\ vsame v v'.
Proof.
  assert (F : fair (fun _ _ _ l => rev l)) by (intros n i j l; apply Permutation_rev). split; [exact F|].
  set (j := JObj _). pose proof (C90_iteration T30 idq _ as_given (TNamed "Paths") j F fair_given) as A. unfold as_given in A. rewrite C90_as_given in A.
  destruct (agree_case _ _ _ A) as [[E _]|(v & v' & E & E' & S)]; [vm_compute in E; discriminate E|].
  exists v, v'. split; [exact E|]. split; [exact E'|]. split; [|exact S]. intros <-. rewrite <- E' in E. vm_compute in E. discriminate E.
Qed.

(* ---------- C91 ---------- *)

(* UnmarshalYAML reads what UnmarshalJSON reads: YAML text that says the same as
   a JSON document, keys that are numbers or booleans included. *)
Theorem C91_reads_as_json : forall T rnd sprint j y, CodecSpec.distinct j -> unambiguous T (TNamed "Spec") j -> loads sprint j y ->
  agree vsame (unmarshal T rnd (TNamed "Spec") j) (unmarshal_yaml T rnd sprint y).
Proof. exact yaml_is_json. Qed.

(* MarshalYAML and back, numbers being float64. *)
Theorem C91_round_trip30 : forall rnd v m, wf T30 rnd derived30 extra30 (TNamed "Spec") v -> marshal T30 (TNamed "Spec") v = Some (JObj m) ->
  floats rnd (JObj m) ->
  marshal_yaml T30 rnd v = Some m /\
  forall sprint y, loads sprint (JObj m) y -> exists v', unmarshal_yaml T30 rnd sprint y = Some v' /\ vsame v (strip T30 derived30 v' (TNamed "Spec")).
Proof. exact yaml_round30. Qed.
Theorem C91_round_trip31 : forall rnd v m, wf T31 rnd derived31 extra31 (TNamed "Spec") v -> marshal T31 (TNamed "Spec") v = Some (JObj m) ->
  floats rnd (JObj m) ->
  marshal_yaml T31 rnd v = Some m /\
  forall sprint y, loads sprint (JObj m) y -> exists v', unmarshal_yaml T31 rnd sprint y = Some v' /\ vsame v v'.
Proof. exact yaml_round31. Qed.

(* Integers of more than 53 bits are not kept: MarshalYAML writes the float64
   nearest to it, and so reading gives another document or fails. *)
Theorem C91_integers_refuted : forall rnd, rnd (inject_Z (2 ^ 53 + 1)) = inject_Z (2 ^ 53) -> rnd (inject_Z (2 ^ 63 - 1)) = inject_Z (2 ^ 63) ->
  exists v w u, sized_spec (inject_Z (2 ^ 53 + 1)) v /\ sized_spec (inject_Z (2 ^ 53)) w /\ v <> w /\ marshal_yaml T30 rnd v = marshal_yaml T30 idq w /\
    sized_spec (inject_Z (2 ^ 63 - 1)) u /\
    exists m, marshal_yaml T30 rnd u = Some m /\ forall sprint y, loads sprint (JObj m) y -> unmarshal_yaml T30 rnd sprint y = None.
Proof. exact yaml_integers. Qed.

Example C91_example :
  let m := [("openapi", JStr "3.1.0"); ("info", JObj [("title", JStr "t"); ("version", JStr "1")]);
            ("paths", JObj [("/a", JObj [("get", JObj [("responses", JObj [("200", JObj [("description", JStr "d")])])])])])] in
  let sprint := fun _ => "200" in
  let y := YMapI [(KString "info", YMapI [(KString "version", YOther (JStr "1")); (KString "title", YOther (JStr "t"))]); (KString "openapi", YOther (JStr "3.1.0"));
             (KString "paths", YMapI [(KString "/a", YMapI [(KString "get", YMapI [(KString "responses", YMapI [(KOther 0, YMapI [(KString "description", YOther (JStr "d"))])])])])])] in
  exists v, wf T31 idq derived31 extra31 (TNamed "Spec") v /\ marshal T31 (TNamed "Spec") v = Some (JObj m) /\ floats idq (JObj m) /\
    loads sprint (JObj m) y /\ unmarshal_yaml T31 idq sprint y = Some v.
Proof.
  cbv zeta. set (m := ("openapi", _) :: _).
  destruct (unmarshal T31 idq (TNamed "Spec") (JObj m)) as [v|] eqn:E; [|vm_compute in E; discriminate E].
  exists v. vm_compute in E. injection E as <-. split; [apply wfb31_ok; vm_compute; reflexivity|]. split; [vm_compute; reflexivity|].
  split; [apply floatsb_ok; vm_compute; reflexivity|]. split; [|vm_compute; reflexivity].
  unfold m. eapply ld_obj; [apply (perm_swap ("info", _))|].
  constructor; [split; [reflexivity|]|constructor; [split; [reflexivity|constructor]|constructor; [split; [reflexivity|]|constructor]]].
  - eapply ld_obj; [apply (perm_swap ("version", _))|]. constructor; [split; [reflexivity|constructor]|]. constructor; [split; [reflexivity|constructor]|constructor].
  - eapply ld_obj; [reflexivity|]. constructor; [|constructor]. split; [reflexivity|].
    eapply ld_obj; [reflexivity|]. constructor; [|constructor]. split; [reflexivity|].
    eapply ld_obj; [reflexivity|]. constructor; [|constructor]. split; [reflexivity|].
    eapply ld_obj; [reflexivity|]. constructor; [|constructor]. split; [reflexivity|].
    eapply ld_obj; [reflexivity|]. constructor; [|constructor]. split; [reflexivity|]. constructor.
Qed.

(* ---------- assumptions ---------- *)

Print Assumptions C89_members.
Print Assumptions C89_rewritten.
Print Assumptions C89_plain.
Print Assumptions C89_variants_refuted.
Print Assumptions C89_repeated_refuted.
Print Assumptions C90_iteration.
Print Assumptions C90_as_given.
Print Assumptions C90_members.
Print Assumptions C90_written.
Print Assumptions C90_read_single.
Print Assumptions C91_reads_as_json.
Print Assumptions C91_round_trip30.
Print Assumptions C91_round_trip31.
Print Assumptions C91_integers_refuted.
