(* Theorems about marshalUnion (property C40). *)
From Verif Require Import Str Json UnionModel UnionSpec UnionProofs.

(* The encodings of objects, null and empty objects are joined into the text
   of one object with the members of all parts in order. *)
Theorem C40_union_of_objects : forall num_text str_text parts ms,
  Forall2 (contributes num_text str_text) parts ms ->
  exists out, marshal_union parts = UOk out /\ jtext num_text str_text out (JObj (concat ms)).
Proof. exact union_objects. Qed.

(* If there is a result at all, the parts that are looked at are all objects,
   or there is one text, which is no object, and it is the result.  (The text "{" is
   no JSON text.) *)
Theorem C40_one_kind : forall parts out, marshal_union parts = UOk out -> (forall p, In p parts -> p <> EncOk "{") ->
  (forall p, In p parts -> live p = true -> object_like p = true) \/
  (Forall (fun p => live p = false \/ p = EncOk out) parts /\ object_like (EncOk out) = false).
Proof. exact union_kinds. Qed.

(* A part that is no object, alone, is the result. *)
Theorem C40_single : forall parts1 parts2 c j, Ascii.eqb c "{" = false -> live (EncOk (String c j)) = true ->
  (forall p, In p (parts1 ++ parts2) -> live p = false) ->
  marshal_union (parts1 ++ EncOk (String c j) :: parts2) = UOk (String c j).
Proof. exact union_single. Qed.

(* Parts that encode to some text never make it panic; objects next to other
   values are an error. *)
Theorem C40_no_panic : forall parts, (forall p, In p parts -> p <> EncOk "") -> marshal_union parts <> UPanic.
Proof. exact union_no_panic. Qed.

Theorem C40_mixed : forall parts p q, In p parts -> In q parts -> (forall p, In p parts -> p <> EncOk "{" /\ p <> EncOk "") ->
  live p = true -> live q = true -> object_like p = true -> object_like q = false -> marshal_union parts = UErr.
Proof. exact union_mixed. Qed.

(* ---------- examples ---------- *)

Definition example_str (t x : string) : Prop := t = String """" (x ^^ String """" "").
Definition example_num (t : string) (q : Q) : Prop := False.

Example C40_example : 
  Forall2 (contributes example_num example_str)
    [EncOk "{""a"":true,""b"":[null,{}]}"; EncOk "null"; EncOk "{}"; EncOk "{""x-c"":""d""}"]
    [[("a", JBool true); ("b", JArr [JNull; JObj []])]; []; []; [("x-c", JStr "d")]] /\
  marshal_union [EncOk "{""a"":true,""b"":[null,{}]}"; EncOk "null"; EncOk "{}"; EncOk "{""x-c"":""d""}"] =
    UOk "{""a"":true,""b"":[null,{}],""x-c"":""d""}".
Proof.
  split; [|vm_compute; reflexivity]. repeat constructor.
  - apply (c_members _ _ """a"":true,""b"":[null,{}]").
    apply (m_more _ _ """a""" "a" "true" (JBool true) """b"":[null,{}]"); [reflexivity|constructor|].
    apply (m_one _ _ """b""" "b" "[null,{}]"); [reflexivity|].
    apply (t_arr _ _ "null,{}"). apply (e_more _ _ "null" JNull "{}"); [constructor|]. constructor. constructor.
  - apply (c_members _ _ """x-c"":""d"""). apply (m_one _ _ """x-c""" "x-c" """d"""); [reflexivity|]. apply t_str. reflexivity.
Qed.

Example C40_example_single : marshal_union [EncOk "{}"; EncOk "[1]"; EncOk "null"] = UOk "[1]" /\
  marshal_union [EncOk "{""a"":1}"; EncOk "true"] = UErr /\ marshal_union [EncOk "true"; EncOk "{""a"":1}"] = UErr /\
  marshal_union [] = UOk "{}" /\ marshal_union [EncOk "true"; EncOk "true"] = UErr /\ marshal_union [EncOk "7"; EncOk "7"] = UOk "7".
Proof. vm_compute. auto 10. Qed.

(* ---------- assumptions ---------- *)

Print Assumptions C40_union_of_objects.
Print Assumptions C40_one_kind.
Print Assumptions C40_single.
Print Assumptions C40_no_panic.
Print Assumptions C40_mixed.
