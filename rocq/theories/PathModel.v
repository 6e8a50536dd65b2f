(* Model of openapi.SanitizeMethodPath, operation.go:178-204. *)
From Verif Require Import Str.

(* operation.go:185, the case list of the method switch. *)
Definition http_methods : list string :=
  ["get"; "put"; "post"; "delete"; "options"; "head"; "patch"; "trace"].

(* One element of FindAllStringSubmatch: the whole match and the groups 1, 2. *)
Record pmatch := { m_all : string; m_name : string; m_re : string }.

(* Character classes [^}:] and [^}] of operation.go:178. *)
Definition name_char (c : ascii) : bool := negb (Ascii.eqb c "}") && negb (Ascii.eqb c ":").
Definition re_char (c : ascii) : bool := negb (Ascii.eqb c "}").

(* operation.go:178, the regexp  {([^}:]+)(:[^}]+)?(?:})  tried at the start of
   [s].  The expression is deterministic: group 1 stops at the first '}' or
   ':', and what follows decides whether group 2 takes part. *)
Definition match_here (s : string) : option pmatch :=
  match s with
  | String c s1 =>
      if Ascii.eqb c "{" then
        let (g1, r1) := span name_char s1 in
        if is_empty g1 then None
        else match r1 with
             | String d r2 =>
                 if Ascii.eqb d "}" then
                   Some {| m_all := "{" ^^ g1 ^^ "}"; m_name := g1; m_re := "" |}
                 else
                   (* d = ':' *)
                   let (g2, r3) := span re_char r2 in
                   if is_empty g2 then None
                   else match r3 with
                        | String e r4 =>
                            Some {| m_all := "{" ^^ g1 ^^ ":" ^^ g2 ^^ "}";
                                    m_name := g1; m_re := ":" ^^ g2 |}
                        | EmptyString => None
                        end
             | EmptyString => None
             end
      else None
  | EmptyString => None
  end.

(* operation.go:183, FindAllStringSubmatch(pathPattern, -1): leftmost
   non-overlapping matches.  [skip] counts the bytes of the current match that
   are still to be passed. *)
Fixpoint find_all_from (skip : nat) (s : string) : list pmatch :=
  match s with
  | EmptyString => []
  | String _ s1 =>
      match skip with
      | S k => find_all_from k s1
      | O => match match_here s with
             | Some m => m :: find_all_from (pred (String.length (m_all m))) s1
             | None => find_all_from 0 s1
             end
      end
  end.

Definition find_all (s : string) : list pmatch := find_all_from 0 s.

(* operation.go:192-200, the loop over the submatches. *)
Definition clean_step (path : string) (m : pmatch) : string :=
  if is_empty (m_re m) then path
  else replace_first path (m_all m) ("{" ^^ m_name m ^^ "}").

Definition clean_path (path : string) (ms : list pmatch) : string :=
  fold_left clean_step ms path.

(* operation.go:181-204.  [None] is the error "unexpected http method". *)
Definition sanitize_method_path (method path : string) : option (string * string * list string) :=
  let method := to_lower method in
  let ms := find_all path in
  if mem method http_methods
  then Some (method, clean_path path ms, map m_name ms)
  else None.
