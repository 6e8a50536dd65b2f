(* Specification of path patterns and methods, independent of the regexp
   scanning and of the replace loop in operation.go. *)
From Verif Require Import Str.

(* A placeholder is written {name} or {name:constraint}. *)
Definition ph_text (name : string) (con : option string) : string :=
  match con with
  | None => "{" ^^ name ^^ "}"
  | Some r => "{" ^^ name ^^ ":" ^^ r ^^ "}"
  end.

(* The name is non-empty and has neither '}' nor ':'; a constraint is non-empty
   and has no '}'. *)
Definition no_char (c : ascii) (s : string) : Prop :=
  forall a b, s <> a ^^ String c b.

Definition wf_con (con : option string) : Prop :=
  match con with None => True | Some r => r <> "" /\ no_char "}" r end.

Definition wf_ph (name : string) (con : option string) : Prop :=
  name <> "" /\ no_char "}" name /\ no_char ":" name /\ wf_con con.

(* A pattern is a sequence of literal bytes and placeholders. *)
Inductive seg :=
| Lit (c : ascii)
| Ph (name : string) (con : option string).

Definition seg_text (x : seg) : string :=
  match x with Lit c => String c "" | Ph n r => ph_text n r end.

Fixpoint render (l : list seg) : string :=
  match l with [] => "" | x :: l' => seg_text x ^^ render l' end.

(* No placeholder is written at the beginning of [s]. *)
Definition no_ph_here (s : string) : Prop :=
  forall n con r, wf_ph n con -> s <> ph_text n con ^^ r.

(* Reading a pattern from left to right: a placeholder wherever one is written,
   a literal byte otherwise. *)
Inductive parses : string -> list seg -> Prop :=
| P_nil : parses "" []
| P_ph n con s l : wf_ph n con -> parses s l -> parses (ph_text n con ^^ s) (Ph n con :: l)
| P_lit c s l : no_ph_here (String c s) -> parses s l -> parses (String c s) (Lit c :: l).

(* Removing the constraints. *)
Definition strip (x : seg) : seg :=
  match x with Lit c => Lit c | Ph n _ => Ph n None end.

Definition seg_names (x : seg) : list string :=
  match x with Lit _ => [] | Ph n _ => [n] end.

Definition names (l : list seg) : list string := flat_map seg_names l.

(* A method written in any case: [method_is written canonical].  The last two
   rules are Unicode: U+0130 lower-cases to 'i', U+212A (Kelvin sign) to 'k'. *)
Inductive method_is : string -> string -> Prop :=
| mi_nil : method_is "" ""
| mi_same c s t : method_is s t -> method_is (String c s) (String c t)
| mi_upper n s t : 65 <= n <= 90 -> method_is s t ->
    method_is (String (ascii_of_nat n) s) (String (ascii_of_nat (n + 32)) t)
| mi_dotted s t : method_is s t -> method_is (String "196" (String "176" s)) (String "i" t)
| mi_kelvin s t : method_is s t ->
    method_is (String "226" (String "132" (String "170" s))) (String "k" t).

(* The eight methods that OpenAPI path items know. *)
Definition openapi_method (m : string) : Prop :=
  m = "get" \/ m = "put" \/ m = "post" \/ m = "delete" \/
  m = "options" \/ m = "head" \/ m = "patch" \/ m = "trace".
