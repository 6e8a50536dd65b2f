(* What a document says when it was written, read, and written again. *)
From Verif Require Import Str SMap Json.

(* The numbers of a JSON value as float64. *)
Fixpoint rounded (rnd : Q -> Q) (j : json) : json :=
  match j with
  | JNum q => JNum (rnd q)
  | JArr l => JArr (map (rounded rnd) l)
  | JObj m => JObj (map (fun kv => (fst kv, rounded rnd (snd kv))) m)
  | _ => j
  end.

(* The style at the end of a parameter of a location, given its members. *)
Inductive style_again (m : list (string * json)) : string -> list (string * json) -> Prop :=
| style_kept i s : In i ["path"; "query"] -> In ("style", s) m -> style_again m i [("style", s)]
| style_none i : In i ["path"; "query"] -> ~ In "style" (map fst m) -> style_again m i []
| style_header : (In "style" (map fst m) -> In ("style", JStr "simple") m) -> style_again m "header" [("style", JStr "simple")]
| style_cookie : (In "style" (map fst m) -> In ("style", JStr "form") m) -> style_again m "cookie" [("style", JStr "form")].

(* The members that a parameter has at its end, besides its members [m]: its
   schema or content once more, with numbers as float64, its location, for a
   path parameter that it is required, and its style.  A header parameter and a
   cookie parameter get a style, also if they had none. *)
Inductive parameter_again (rnd : Q -> Q) (m : list (string * json)) : list (string * json) -> Prop :=
| parameter_tail k x i r s : In k ["schema"; "content"] -> In (k, x) m -> In ("in", JStr i) m ->
    r = (if String.eqb i "path" then [("required", JBool true)] else []) -> incl r m -> style_again m i s ->
    parameter_again rnd m ((k, rounded rnd x) :: ("in", JStr i) :: r ++ s).

(* The members that an HTTP security scheme has at its end. *)
Inductive http_again (m : list (string * json)) : list (string * json) -> Prop :=
| http_bearer : In ("scheme", JStr "bearer") m -> http_again m [("scheme", JStr "bearer")]
| http_other s : In ("scheme", JStr s) m -> s <> "bearer" -> http_again m [].

(* [again rnd j j']: what was written as [j] is now [j'].  The same members in
   the same order; parameters and HTTP security schemes may have the members
   above at their end. *)
Inductive again (rnd : Q -> Q) : json -> json -> Prop :=
| again_same j : again rnd j j
| again_arr l l' : Forall2 (again rnd) l l' -> again rnd (JArr l) (JArr l')
| again_obj m m' : Forall2 (fun a b => fst b = fst a /\ again rnd (snd a) (snd b)) m m' -> again rnd (JObj m) (JObj m')
| again_parameter m e : parameter_again rnd m e -> again rnd (JObj m) (JObj (m ++ e))
| again_http m e : http_again m e -> again rnd (JObj m) (JObj (m ++ e)).
