(* JSON texts without white space, as encoding/json writes them, and the
   specification of marshalUnion. *)
From Verif Require Import Str Json UnionModel.

(* The texts of numbers and of strings are left open. *)
Section Grammar.
  Variable num_text : string -> Q -> Prop.
  Variable str_text : string -> string -> Prop.

  Inductive jtext : string -> json -> Prop :=
  | t_null : jtext "null" JNull
  | t_true : jtext "true" (JBool true)
  | t_false : jtext "false" (JBool false)
  | t_num s q : num_text s q -> jtext s (JNum q)
  | t_str s x : str_text s x -> jtext s (JStr x)
  | t_arr0 : jtext "[]" (JArr [])
  | t_arr s l : elements_text s l -> jtext ("[" ^^ s ^^ "]") (JArr l)
  | t_obj0 : jtext "{}" (JObj [])
  | t_obj s m : members_text s m -> jtext ("{" ^^ s ^^ "}") (JObj m)
  with elements_text : string -> list json -> Prop :=
  | e_one s v : jtext s v -> elements_text s [v]
  | e_more s v s' l : jtext s v -> elements_text s' l -> elements_text (s ^^ "," ^^ s') (v :: l)
  with members_text : string -> list (string * json) -> Prop :=
  | m_one k key s v : str_text k key -> jtext s v -> members_text (k ^^ ":" ^^ s) [(key, v)]
  | m_more k key s v s' m : str_text k key -> jtext s v -> members_text s' m ->
      members_text (k ^^ ":" ^^ s ^^ "," ^^ s') ((key, v) :: m).

  (* A part contributes members: an object does, null contributes none. *)
  Inductive contributes : enc -> list (string * json) -> Prop :=
  | c_null : contributes (EncOk "null") []
  | c_empty : contributes (EncOk "{}") []
  | c_members s m : members_text s m -> contributes (EncOk ("{" ^^ s ^^ "}")) m.
End Grammar.

(* Parts that are looked at. *)
Definition live (p : enc) : bool :=
  match p with EncErr => true | EncOk j => negb (String.eqb j "{}" || String.eqb j "null") end.
Definition object_like (p : enc) : bool :=
  match p with EncOk (String c _) => Ascii.eqb c "{" | _ => false end.
