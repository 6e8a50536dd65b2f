(* Which reflector a context belongs to, told from the calls alone, and the
   calls that concern one reflector. *)
From Verif Require Import Str ManyModel.

Section Spec.
  Context {J3 S3 J1 S1 : Type}.
  Notation call := (call J3 S3 J1 S1).

  (* The makers of the contexts, in the order of the contexts. *)
  Definition maker (c : call) : list (option nat) :=
    match c with Make j _ _ => [Some j] | Foreign => [None] | _ => [] end.
  Definition makers (l : list call) : list (option nat) := flat_map maker l.

  (* No context is given to a reflector of the same version other than the one
     that made it.  [new_version j]: the j-th reflector is one of openapi31. *)
  Definition own_context (new_version : nat -> bool) (ms : list (option nat)) (j i : nat) : Prop :=
    forall k, nth_error ms i = Some (Some k) -> new_version k = new_version j -> k = j.
  Definition no_mixing (new_version : nat -> bool) (l : list call) : Prop :=
    forall c j i, In c l -> c = Give j i \/ c = GiveHook j i -> own_context new_version (makers l) j i.

  (* The calls without those that give contexts to other reflectors. *)
  Definition concerns (j : nat) (c : call) : bool :=
    match c with Give k _ | GiveHook k _ => k =? j | _ => true end.
  Definition only (j : nat) (l : list call) : list call := filter (concerns j) l.
End Spec.

Definition is_31 {S3 S1} (rs : list (reflector S3 S1)) (j : nat) : bool :=
  match nth_error rs j with Some (R31 _) => true | _ => false end.
