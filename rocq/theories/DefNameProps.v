(* Theorems about the names of component schemas. *)
From Verif Require Import Str SMap Json Types ReflectModel ReflectSpec ReflectProofs ReflectProofs2 ReflectComps DefName.

(* ---------- C27 ---------- *)

(* The name is what is legal in the definition name. *)
Theorem C27_legal_part : forall s t, legal_part s t <-> t = sanitize_def_name s.
Proof.
  intros s t. split; [|intros ->; apply sanitize_part]. intros H. eapply part_fun; [exact H|apply sanitize_part].
Qed.

Theorem C27_names_are_legal : forall tag tagged s,
  legal_name (sanitize_def_name s) /\ legal_name (body_def_name tag tagged s).
Proof. intros. split; eapply part_legal; apply sanitize_part. Qed.

Theorem C27_legal_names_kept : forall s, legal_name s -> sanitize_def_name s = s.
Proof. exact legal_id. Qed.

Theorem C27_idempotent : forall s, sanitize_def_name (sanitize_def_name s) = sanitize_def_name s.
Proof. intros. apply legal_id. eapply part_legal. apply sanitize_part. Qed.

(* Form structures get a prefix and otherwise the same name. *)
Theorem C27_form_names : forall s,
  body_def_name "formData" true s = "FormData" ^^ sanitize_def_name s /\
  body_def_name "json" true s = sanitize_def_name s /\
  body_def_name "formData" false s = sanitize_def_name s.
Proof. intros s. unfold body_def_name. simpl negb. cbv iota. auto. Qed.

Example C27_example :
  sanitize_def_name "Pair[int,*a/b.C]" = "Pairintab.C" /\ legal_name "Pairintab.C" /\
  ~ legal_name "Pair[int,*a/b.C]" /\ body_def_name "formData" true "Up[T]" = "FormDataUpT".
Proof.
  repeat split; try reflexivity.
  - eapply part_legal. apply (sanitize_part "Pairintab.C").
  - intros L. apply legal_id in L. discriminate.
Qed.

(* ---------- C28 ---------- *)

Theorem C28_different_names_refuted : exists a b, a <> b /\ sanitize_def_name a = sanitize_def_name b.
Proof. exists "Foo[int]", "Fooint". split; [discriminate|reflexivity]. Qed.

(* What a user sees then: the second definition is not registered. *)
Theorem C28_second_definition_lost_refuted :
  exists (B : backend string string) (a b ja jb : string) c,
    a <> b /\ collect_all B [] [(sanitize_def_name a, ja); (sanitize_def_name b, jb)] = (c, Ret tt) /\
    forall n s, get n c = Some s -> s <> jb.
Proof.
  exists (mkBackend (fun j => Ret j) (fun _ => None) (fun s => s) (fun _ _ => Ret None) (fun f => f) false),
    "Foo[int]", "Fooint", "A", "B". eexists. split; [discriminate|]. split; [reflexivity|].
  intros n s. rewrite get_put. destruct (String.eqb _ _); [|discriminate]. intros H. injection H as <-. discriminate.
Qed.

(* Exactly then: names collide only when they differ in illegal bytes alone. *)
Theorem C28_collisions_partial : forall a b ta tb, legal_part a ta -> legal_part b tb ->
  (sanitize_def_name a = sanitize_def_name b <-> ta = tb).
Proof.
  intros a b ta tb A B. apply C27_legal_part in A, B. subst. reflexivity.
Qed.

Theorem C28_legal_names_differ_partial : forall a b, legal_name a -> legal_name b -> a <> b ->
  sanitize_def_name a <> sanitize_def_name b.
Proof. intros a b A B N. rewrite (legal_id _ A), (legal_id _ B). exact N. Qed.

(* A form structure and a JSON structure collide only if the type of the
   latter is itself called FormData... *)
Theorem C28_form_and_json_partial : forall a b,
  body_def_name "formData" true a = body_def_name "json" true b ->
  exists t, legal_part b ("FormData" ^^ t) /\ legal_part a t.
Proof.
  intros a b H. destruct (C27_form_names a) as [E1 _]. destruct (C27_form_names b) as (_ & E2 & _).
  rewrite E1, E2 in H. exists (sanitize_def_name a). rewrite H. split; apply sanitize_part.
Qed.

Example C28_example : legal_name "A" /\ legal_name "B" /\
  body_def_name "formData" true "X" = body_def_name "json" true "FormDataX".
Proof.
  split; [|split; [|reflexivity]].
  - eapply part_legal. apply (sanitize_part "A").
  - eapply part_legal. apply (sanitize_part "B").
Qed.

(* ---------- assumptions ---------- *)

Print Assumptions C27_legal_part.
Print Assumptions C27_names_are_legal.
Print Assumptions C27_legal_names_kept.
Print Assumptions C27_idempotent.
Print Assumptions C27_form_names.
Print Assumptions C28_different_names_refuted.
Print Assumptions C28_second_definition_lost_refuted.
Print Assumptions C28_collisions_partial.
Print Assumptions C28_legal_names_differ_partial.
Print Assumptions C28_form_and_json_partial.
