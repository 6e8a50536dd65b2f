(* What is said about documents as a whole: which operations they have, their
   identifiers, the templates of their paths, the security schemes they name. *)
From Verif Require Import Str SMap Json PathSpec Types RegistryModel RegistrySpec ReflectModel SeqSpec ContextModel ContextSpec.

(* Where an operation stands: under webhooks or under paths, the name or path,
   the method. *)
Definition place := (bool * string * string)%type.

Section Spec.
  Context {J Sch : Type}.

  Definition op_at30 (r : refl30 Sch) (x : place) : option (op30 Sch) :=
    let '(hook, p, m) := x in if hook then None else doc30 (r30_paths r) p m.
  Definition op_at31 (r : refl31 Sch) (x : place) : option (op31 Sch) :=
    let '(hook, p, m) := x in if hook then hook31 (r31_paths r) p m else doc31 (r31_paths r) p m.

  (* What the user said about an operation with the setters of its context:
     tags, summary, description, identifier, deprecation, security. *)
  Definition said {R} (o : operation Sch R) :=
    (op_tags o, op_summary o, op_desc o, op_id o, op_deprecated o, op_security o).

  (* The call number i of a history was accepted. *)
  Definition accepted30 (B : backend J Sch) (r : refl30 Sch) (l : list (call30 J Sch)) (i : nat) (oc : call30 J Sch) : Prop :=
    nth_error l i = Some oc /\ exists o, nth_error (snd (calls30 B r l)) i = Some (o, AOk).
  Definition accepted31 (B : backend J Sch) (r : refl31 Sch) (l : list (call31 J Sch)) (i : nat) (c : call31 J Sch) : Prop :=
    nth_error l i = Some c /\ exists o, nth_error (snd (calls31 B r l)) i = Some (o, AOk).
  Definition where30 (oc : call30 J Sch) : place := (false, oc_path oc, oc_method oc).
  Definition where31 (c : call31 J Sch) : place := (fst c, oc_path (snd c), oc_method (snd c)).

  (* "Unique string used to identify the operation.  The id MUST be unique among
     all operations described in the API." *)
  Definition unique_ids {R} (op_at : place -> option (operation Sch R)) : Prop :=
    forall x y o o' id, op_at x = Some o -> op_at y = Some o' -> op_id o = Some id -> op_id o' = Some id -> x = y.

  (* "Templated paths with the same hierarchy but different templated names MUST
     NOT exist as they are identical." *)
  Definition nameless (x : seg) : seg := match x with Lit c => Lit c | Ph _ _ => Ph "" None end.
  Definition same_template (p q : string) : Prop :=
    exists l l', parses p l /\ parses q l' /\ map nameless l = map nameless l'.
  Definition unique_templates {R} (op_at : place -> option (operation Sch R)) : Prop :=
    forall p q m m' o o', op_at (false, p, m) = Some o -> op_at (false, q, m') = Some o' -> same_template p q -> p = q.

  (* "Each name MUST correspond to a security scheme which is declared in the
     Security Schemes under the Components Object." *)
  Definition names_scheme {R} (o : operation Sch R) (n : string) : Prop :=
    exists req, In req (op_security o) /\ In n (keys req).
  Definition schemes_declared {R} (op_at : place -> option (operation Sch R)) (declared : string -> Prop) : Prop :=
    forall x o n, op_at x = Some o -> names_scheme o n -> declared n.
End Spec.

(* The security schemes of a document. *)
Definition declared30 (d : doc components30) (n : string) : Prop := exists s, scheme_of30 d n = Some s.
Definition declared31 (d : doc components31) (n : string) : Prop := exists s, scheme_of31 d n = Some s.
