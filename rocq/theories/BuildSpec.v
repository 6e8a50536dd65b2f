(* What the builder methods are for: With<Field> sets a field, With<Field>Item an
   entry of a map, <Field>Ens gives a structure that can be filled. *)
From Verif Require Import Str SMap Json CodecModel CodecTables CodecSpec CodecObjSpec CodecTypeSpec BuildModel BuildTables.

(* Only the field at [i] differs, it is [w]. *)
Definition updated (i : nat) (w : val) (vs vs' : list val) : Prop :=
  length vs' = length vs /\ nth_error vs' i = Some w /\ forall j, j <> i -> nth_error vs' j = nth_error vs j.

(* How a field of type [t] holds an argument of type [a]: as it is, or by a pointer. *)
Definition holds (t a : ty) (x w : val) : Prop := t = a /\ w = x \/ t = TPtr a /\ w = VPtr x.

(* The values that an object has under a key; a JSON reader takes the last one. *)
Definition under_key (k : string) (ms : list (string * json)) : list json :=
  map snd (filter (fun m => String.eqb (fst m) k) ms).

(* Fields without a key of their own (pattern properties, choices), except the one
   called [name], do not write the key [k]: they write null, or an object without it. *)
Fixpoint unused_but (T : list (string * ent)) (name : option string) (k : string) (fs : list field) (vs : list val) : Prop :=
  match fs, vs with
  | f :: fs, v :: vs =>
      (f_key f = None -> Some (f_name f) <> name -> forall r, marshal T (f_ty f) v = Some r -> r = JNull \/ exists es, r = JObj es /\ under_key k es = []) /\
      unused_but T name k fs vs
  | _, _ => True
  end.
Definition unused (T : list (string * ent)) : string -> list field -> list val -> Prop := unused_but T None.

(* The values that "omitempty" leaves out. *)
Definition blank (x : val) : Prop := x = VNil \/ x = VArr [] \/ x = VMap [].

(* The entries of a map: none if it is nil. *)
Definition holds_map (v : val) (m : list (string * val)) : Prop := v = VNil /\ m = [] \/ v = VMap m.

(* The Go field for an alternative of a choice. *)
Definition alt_name (t : ty) : string := match t with TNamed s => s | TBool => "Bool" | _ => "" end.

(* The packages with the objects of the specification, the types of their members
   and the choices. *)
Record package := mkPackage {
  p_types : list (string * ent); p_meths : list (string * list (string * meth));
  p_objects : list (string * obj); p_members : list (string * list (string * ty)); p_choices : list (string * list ty) }.
Definition v30 : package := mkPackage T30 M30 objects30 types30 choices30.
Definition v31 : package := mkPackage T31 M31 objects31 types31 choices31.
Definition packages : list package := [v30; v31].
