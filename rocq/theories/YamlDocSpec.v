(* What YAML text gives back. *)
From Coq Require Import Permutation.
From Verif Require Import Str SMap Json YamlModel YamlSpec CodecModel CodecTables CodecSpec.

(* A value made from YAML text that says the same as JSON: scalars and lists as
   they are, objects as maps whose keys print as the names of the members, in any
   order. *)
Inductive loads (sprint : nat -> string) : json -> yval -> Prop :=
| ld_null : loads sprint JNull (YOther JNull)
| ld_bool b : loads sprint (JBool b) (YOther (JBool b))
| ld_num q : loads sprint (JNum q) (YOther (JNum q))
| ld_str s : loads sprint (JStr s) (YOther (JStr s))
| ld_arr l l' : Forall2 (loads sprint) l l' -> loads sprint (JArr l) (YSlice l')
| ld_obj m m1 y : Permutation m m1 ->
    Forall2 (fun a b => fst a = shown sprint (fst b) /\ loads sprint (snd a) (snd b)) m1 y -> loads sprint (JObj m) (YMapI y).

(* All numbers are float64. *)
Inductive floats (rnd : Q -> Q) : json -> Prop :=
| fl_null : floats rnd JNull
| fl_bool b : floats rnd (JBool b)
| fl_num q : rnd q = q -> floats rnd (JNum q)
| fl_str s : floats rnd (JStr s)
| fl_arr l : (forall j, In j l -> floats rnd j) -> floats rnd (JArr l)
| fl_obj m : (forall k j, In (k, j) m -> floats rnd j) -> floats rnd (JObj m).

(* A 3.0 document with one number in it. *)
Definition sized (q : Q) : json :=
  JObj [("openapi", JStr "3.0.3"); ("info", JObj [("title", JStr "t"); ("version", JStr "1")]); ("paths", JObj []);
        ("components", JObj [("schemas", JObj [("A", JObj [("maxLength", JNum q)])])])].
(* A well formed value that is written so. *)
Definition sized_spec (q : Q) (v : val) : Prop :=
  (forall rnd, wf T30 rnd derived30 extra30 (TNamed "Spec") v) /\ marshal T30 (TNamed "Spec") v = Some (sized q).
