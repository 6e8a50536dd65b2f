(* marshalUnion: openapi3/entities.go:8526-8572, openapi31/entities.go:5625-5671
   (the same code), at the level of bytes. *)
From Verif Require Import Str.

(* What json.Marshal returns for one part. *)
Inductive enc := EncErr | EncOk (j : string).

Inductive ures := UOk (j : string) | UErr | UPanic.

(* result[len(result)-1] = c *)
Fixpoint set_last (c : ascii) (s : string) : string :=
  match s with
  | EmptyString => EmptyString
  | String _ EmptyString => String c EmptyString
  | String d s' => String d (set_last c s')
  end.

(* The loop and what follows it: lines 8530-8571.  j[0] of an empty encoding is
   out of range. *)
Fixpoint union_loop (parts : list enc) (result : string) (is_object : bool) : ures :=
  match parts with
  | [] => UOk (if is_object && (String.length result =? 1) then result ^^ "}" else result)
  | EncErr :: _ => UErr
  | EncOk j :: parts =>
      if String.eqb j "{}" then union_loop parts result is_object
      else if String.eqb j "null" then union_loop parts result is_object
      else match j with
           | EmptyString => UPanic
           | String c j1 =>
               if negb (Ascii.eqb c "{") then
                 if (String.length result =? 1) && (is_object || String.eqb result j)
                 then union_loop parts j false
                 else UErr
               else if negb is_object then UErr
               else union_loop parts ((if 1 <? String.length result then set_last "," result else result) ^^ j1) is_object
           end
  end.

Definition marshal_union (parts : list enc) : ures := union_loop parts "{" true.
