(* The scanner of encoding/json (scanner.go of Go 1.22; not part of the
   repository, so functions are named instead of lines): one function per state, a stack of open arrays and objects and the
   limit of their number.  json.Unmarshal runs it over the text before anything
   else is done, and json.Marshal runs it (compact) over what a MarshalJSON method
   returned; all of openapi3/entities.go and openapi31/entities.go is reached through
   these two. *)
From Coq Require Import NArith ZArith Ascii.
From Verif Require Import Str Json CodecModel OrdModel BytesModel.
Local Open Scope N_scope.

(* parseObjectKey, parseObjectValue, parseArrayValue *)
Inductive pstate := ObjectKey | ObjectValue | ArrayValue.
(* maxNestingDepth *)
Definition max_depth : N := 10000.

(* The step functions by name. *)
Inductive sname :=
| BeginValueOrEmpty | BeginValue | BeginStringOrEmpty | BeginString | EndValue | EndTop
| InString | InEsc | EscU | EscU1 | EscU12 | EscU123
| Neg | Num1 | Num0 | Dot | Dot0 | Exp | ExpSign | Exp0
| LitT | LitTr | LitTru | LitF | LitFa | LitFal | LitFals | LitN | LitNu | LitNul | InError.

(* type scanner: step, parseState (the last element first), endTop, and whether
   err is set. *)
Record scanner := mkScan { sc_step : sname; sc_stack : list pstate; sc_end : bool; sc_err : bool }.
Definition set_step (k : scanner) (n : sname) : scanner := mkScan n (sc_stack k) (sc_end k) (sc_err k).

(* What a step function leaves, and whether it returned scanError. *)
Definition sres := (scanner * bool)%type.
Definition go (k : scanner) (n : sname) : sres := (set_step k n, false).
(* scanner.error *)
Definition fail (k : scanner) : sres := (mkScan InError (sc_stack k) (sc_end k) true, true).

(* pushParseState *)
Definition push (k : scanner) (p : pstate) : sres :=
  let k := mkScan (sc_step k) (p :: sc_stack k) (sc_end k) (sc_err k) in
  if N.of_nat (length (sc_stack k)) <=? max_depth then (k, false) else fail k.
(* popParseState *)
Definition pop (k : scanner) : scanner :=
  match tl (sc_stack k) with
  | [] => mkScan EndTop [] true (sc_err k)
  | st => mkScan EndValue st (sc_end k) (sc_err k)
  end.
(* s.parseState[n-1] = p *)
Definition retop (k : scanner) (p : pstate) : scanner := mkScan (sc_step k) (p :: tl (sc_stack k)) (sc_end k) (sc_err k).

(* stateEndTop: the error is kept, scanEnd is returned. *)
Definition state_end_top (k : scanner) (c : N) : sres :=
  if space c then (k, false) else (fst (fail k), false).
(* stateEndValue *)
Definition state_end_value (k : scanner) (c : N) : sres :=
  match sc_stack k with
  | [] => state_end_top (mkScan EndTop [] true (sc_err k)) c
  | p :: _ =>
      if space c then go k EndValue
      else match p with
           | ObjectKey => if c =? 58 then go (retop k ObjectValue) BeginValue else fail k
           | ObjectValue => if c =? 44 then go (retop k ObjectKey) BeginString
                            else if c =? 125 then (pop k, false) else fail k
           | ArrayValue => if c =? 44 then go k BeginValue
                           else if c =? 93 then (pop k, false) else fail k
           end
  end.
(* stateBeginValue *)
Definition state_begin_value (k : scanner) (c : N) : sres :=
  if space c then (k, false)
  else if c =? 123 then push (set_step k BeginStringOrEmpty) ObjectKey
  else if c =? 91 then push (set_step k BeginValueOrEmpty) ArrayValue
  else if c =? 34 then go k InString
  else if c =? 45 then go k Neg
  else if c =? 48 then go k Num0
  else if c =? 116 then go k LitT
  else if c =? 102 then go k LitF
  else if c =? 110 then go k LitN
  else if between 49 c 57 then go k Num1
  else fail k.
(* stateBeginValueOrEmpty *)
Definition state_begin_value_or_empty (k : scanner) (c : N) : sres :=
  if space c then (k, false) else if c =? 93 then state_end_value k c else state_begin_value k c.
(* stateBeginString *)
Definition state_begin_string (k : scanner) (c : N) : sres :=
  if space c then (k, false) else if c =? 34 then go k InString else fail k.
(* stateBeginStringOrEmpty; the stack is not empty here (Go would panic). *)
Definition state_begin_string_or_empty (k : scanner) (c : N) : sres :=
  if space c then (k, false)
  else if c =? 125 then state_end_value (retop k ObjectValue) c else state_begin_string k c.

(* stateInString *)
Definition state_in_string (k : scanner) (c : N) : sres :=
  if c =? 34 then go k EndValue else if c =? 92 then go k InEsc else if c <? 32 then fail k else (k, false).
(* stateInStringEsc: b f n r t backslash slash quote, and u *)
Definition state_in_esc (k : scanner) (c : N) : sres :=
  if (c =? 98) || (c =? 102) || (c =? 110) || (c =? 114) || (c =? 116) || (c =? 92) || (c =? 47) || (c =? 34) then go k InString
  else if c =? 117 then go k EscU else fail k.
(* stateInStringEscU, stateInStringEscU1, stateInStringEscU12, stateInStringEscU123 *)
Definition hexadecimal (c : N) : bool := between 48 c 57 || between 97 c 102 || between 65 c 70.
Definition state_hex (next : sname) (k : scanner) (c : N) : sres :=
  if hexadecimal c then go k next else fail k.

(* state0 *)
Definition state0 (k : scanner) (c : N) : sres :=
  if c =? 46 then go k Dot else if (c =? 101) || (c =? 69) then go k Exp else state_end_value k c.
(* stateNeg, state1 *)
Definition state_neg (k : scanner) (c : N) : sres :=
  if c =? 48 then go k Num0 else if between 49 c 57 then go k Num1 else fail k.
Definition state1 (k : scanner) (c : N) : sres :=
  if between 48 c 57 then go k Num1 else state0 k c.
(* stateDot, stateDot0 *)
Definition state_dot (k : scanner) (c : N) : sres := if between 48 c 57 then go k Dot0 else fail k.
Definition state_dot0 (k : scanner) (c : N) : sres :=
  if between 48 c 57 then (k, false) else if (c =? 101) || (c =? 69) then go k Exp else state_end_value k c.
(* stateESign, stateE, stateE0 *)
Definition state_exp_sign (k : scanner) (c : N) : sres := if between 48 c 57 then go k Exp0 else fail k.
Definition state_exp (k : scanner) (c : N) : sres :=
  if (c =? 43) || (c =? 45) then go k ExpSign else state_exp_sign k c.
Definition state_exp0 (k : scanner) (c : N) : sres :=
  if between 48 c 57 then (k, false) else state_end_value k c.
(* stateT to stateNul: the letters of true, false and null *)
Definition letter (x : N) (next : sname) (k : scanner) (c : N) : sres := if c =? x then go k next else fail k.

(* s.step(s, c) *)
Definition step (k : scanner) (c : N) : sres :=
  match sc_step k with
  | BeginValueOrEmpty => state_begin_value_or_empty k c
  | BeginValue => state_begin_value k c
  | BeginStringOrEmpty => state_begin_string_or_empty k c
  | BeginString => state_begin_string k c
  | EndValue => state_end_value k c
  | EndTop => state_end_top k c
  | InString => state_in_string k c
  | InEsc => state_in_esc k c
  | EscU => state_hex EscU1 k c
  | EscU1 => state_hex EscU12 k c
  | EscU12 => state_hex EscU123 k c
  | EscU123 => state_hex InString k c
  | Neg => state_neg k c
  | Num1 => state1 k c
  | Num0 => state0 k c
  | Dot => state_dot k c
  | Dot0 => state_dot0 k c
  | Exp => state_exp k c
  | ExpSign => state_exp_sign k c
  | Exp0 => state_exp0 k c
  | LitT => letter 114 LitTr k c
  | LitTr => letter 117 LitTru k c
  | LitTru => letter 101 EndValue k c
  | LitF => letter 97 LitFa k c
  | LitFa => letter 108 LitFal k c
  | LitFal => letter 115 LitFals k c
  | LitFals => letter 101 EndValue k c
  | LitN => letter 117 LitNu k c
  | LitNu => letter 108 LitNul k c
  | LitNul => letter 108 EndValue k c
  | InError => (k, true)
  end.

(* scanner.eof *)
Definition eof (k : scanner) : bool :=
  if sc_err k then false
  else if sc_end k then true
  else sc_end (fst (step k 32)).

(* checkValid from a state on *)
Fixpoint check (k : scanner) (l : list N) : bool :=
  match l with
  | [] => eof k
  | c :: l => let (k, e) := step k c in if e then false else check k l
  end.
(* scanner.reset *)
Definition reset : scanner := mkScan BeginValue [] false false.
Definition check_valid (s : string) : bool := check reset (bytes s).

(* json.Unmarshal: checkValid, then the decoder. *)
Definition unmarshal_json (T : list (string * ent)) (rnd : Q -> Q) (o : order) (t : ty) (s : string) : option val :=
  if check_valid s then unmarshal_bytes T rnd o t s else None.
