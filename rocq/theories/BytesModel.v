(* Texts of JSON values as encoding/json of the Go standard library writes and
   reads them (encode.go, decode.go, scanner.go of Go 1.22; not part of the
   repository, but MarshalJSON and UnmarshalJSON of all entities go through it). *)
From Coq Require Import NArith ZArith Ascii.
From Verif Require Import Str Json CodecModel OrdModel.
Local Open Scope N_scope.

(* ---------- unicode/utf8 ---------- *)

Definition bytes (s : string) : list N := map N_of_ascii (list_ascii_of_string s).
Fixpoint unbytes (l : list N) : string :=
  match l with [] => "" | b :: l => String (ascii_of_N b) (unbytes l) end.

Definition between (a x b : N) : bool := (a <=? x) && (x <=? b).
Definition tail (x : N) : bool := between 128 x 191.
(* utf8.DecodeRune: the accepted ranges of utf8.go *)
Definition seq2 (a b : N) : option N :=
  if between 194 a 223 && tail b then Some ((a - 192) * 64 + (b - 128)) else None.
Definition seq3 (a b c : N) : option N :=
  if between 224 a 239 && between (if a =? 224 then 160 else 128) b (if a =? 237 then 159 else 191) && tail c
  then Some (((a - 224) * 64 + (b - 128)) * 64 + (c - 128)) else None.
Definition seq4 (a b c d : N) : option N :=
  if between 240 a 244 && between (if a =? 240 then 144 else 128) b (if a =? 244 then 143 else 191) && tail c && tail d
  then Some ((((a - 240) * 64 + (b - 128)) * 64 + (c - 128)) * 64 + (d - 128)) else None.

(* The runes of a text; [None] is a byte that belongs to none (RuneError of
   width 1). *)
Fixpoint decode (l : list N) : list (option N) :=
  match l with
  | [] => []
  | a :: l1 =>
      if a <? 128 then Some a :: decode l1
      else match l1 with
           | [] => [None]
           | b :: l2 =>
               match seq2 a b with
               | Some c => Some c :: decode l2
               | None =>
                   match l2 with
                   | [] => None :: decode l1
                   | c :: l3 =>
                       match seq3 a b c with
                       | Some x => Some x :: decode l3
                       | None =>
                           match l3 with
                           | [] => None :: decode l1
                           | d :: l4 =>
                               match seq4 a b c d with
                               | Some x => Some x :: decode l4
                               | None => None :: decode l1
                               end
                           end
                       end
                   end
               end
           end
  end.

(* utf8.EncodeRune *)
Definition encode (c : N) : list N :=
  if c <? 128 then [c]
  else if c <? 2048 then [192 + c / 64; 128 + c mod 64]
  else if c <? 65536 then [224 + c / 4096; 128 + c / 64 mod 64; 128 + c mod 64]
  else [240 + c / 262144; 128 + c / 4096 mod 64; 128 + c / 64 mod 64; 128 + c mod 64].

(* ---------- writing ---------- *)

Definition hex (d : N) : N := if d <? 10 then 48 + d else 87 + d.

(* One step of appendString with escapeHTML, encode.go:1027-1095.  Bytes of a rune
   are copied; they are its encoding. *)
Definition quote_rune (r : option N) : list N :=
  match r with
  | None => [92; 117; 102; 102; 102; 100]
  | Some c =>
      if c <? 128 then
        if (c =? 92) || (c =? 34) then [92; c]
        else if c =? 8 then [92; 98]
        else if c =? 12 then [92; 102]
        else if c =? 10 then [92; 110]
        else if c =? 13 then [92; 114]
        else if c =? 9 then [92; 116]
        else if (c <? 32) || (c =? 60) || (c =? 62) || (c =? 38) then [92; 117; 48; 48; hex (c / 16); hex (c mod 16)]
        else [c]
      else if (c =? 8232) || (c =? 8233) then [92; 117; 50; 48; 50; hex (c mod 16)]
      else encode c
  end.
Definition quote (s : string) : string :=
  unbytes (34 :: flat_map quote_rune (decode (bytes s)) ++ [34]).

(* ---------- reading ---------- *)

(* Runes as the decoder sees them: a byte that belongs to none is U+FFFD inside
   of strings (unquoteBytes, decode.go:1176-1300) and an error outside. *)
Definition runes (s : string) : list N := map (fun r => match r with Some c => c | None => 65533 end) (decode (bytes s)).

Definition space (c : N) : bool := (c =? 32) || (c =? 9) || (c =? 13) || (c =? 10).
Fixpoint skip (l : list N) : list N :=
  match l with c :: r => if space c then skip r else l | [] => [] end.

(* getu4 *)
Definition hex_value (c : N) : option N :=
  if between 48 c 57 then Some (c - 48)
  else if between 97 c 102 then Some (c - 87)
  else if between 65 c 70 then Some (c - 55) else None.
Definition u4 (a b c d : N) : option N :=
  match hex_value a, hex_value b, hex_value c, hex_value d with
  | Some x, Some y, Some z, Some w => Some (x * 4096 + y * 256 + z * 16 + w)
  | _, _, _, _ => None
  end.
(* utf16.IsSurrogate, utf16.DecodeRune *)
Definition surrogate (c : N) : bool := between 55296 c 57343.
Definition pair (a b : N) : option N :=
  if between 55296 a 56319 && between 56320 b 57343 then Some ((a - 55296) * 1024 + (b - 56320) + 65536) else None.

Definition unescape (c : N) : option N :=
  if (c =? 34) || (c =? 92) || (c =? 47) then Some c
  else if c =? 98 then Some 8
  else if c =? 102 then Some 12
  else if c =? 110 then Some 10
  else if c =? 114 then Some 13
  else if c =? 116 then Some 9
  else None.

Definition add_rune (c : N) (r : option (list N * list N)) : option (list N * list N) :=
  match r with Some (x, l) => Some (encode c ++ x, l) | None => None end.

(* The rest of a string after the opening quote: its bytes and what follows. *)
Fixpoint read_string (l : list N) : option (list N * list N) :=
  match l with
  | [] => None
  | c :: r =>
      if c =? 34 then Some ([], r)
      else if c =? 92 then
        match r with
        | [] => None
        | e :: r1 =>
            if e =? 117 then
              match r1 with
              | a :: b :: c :: d :: r2 =>
                  match u4 a b c d with
                  | None => None
                  | Some u =>
                      if surrogate u then
                        match r2 with
                        | x :: y :: a' :: b' :: c' :: d' :: r3 =>
                            match (if (x =? 92) && (y =? 117) then u4 a' b' c' d' else None) with
                            | Some u' => match pair u u' with
                                         | Some v => add_rune v (read_string r3)
                                         | None => add_rune 65533 (read_string r2)
                                         end
                            | None => add_rune 65533 (read_string r2)
                            end
                        | _ => add_rune 65533 (read_string r2)
                        end
                      else add_rune u (read_string r2)
                  end
              | _ => None
              end
            else match unescape e with
                 | Some x => add_rune x (read_string r1)
                 | None => None
                 end
        end
      else if c <? 32 then None
      else add_rune c (read_string r)
  end.

(* Numbers: scanner.go stateNeg to stateE0; the value is that of the decimal. *)
Definition is_digit (c : N) : bool := between 48 c 57.
Fixpoint span (l : list N) : list N * list N :=
  match l with
  | c :: r => if is_digit c then let (d, r') := span r in (c :: d, r') else ([], l)
  | [] => ([], [])
  end.
Definition value (acc : Z) (l : list N) : Z := fold_left (fun v c => (10 * v + (Z.of_N c - 48))%Z) l acc.

Definition read_integral (l : list N) : option (list N * list N) :=
  match l with
  | c :: r => if c =? 48 then Some ([c], r)
              else if is_digit c then Some (span l) else None
  | [] => None
  end.
Definition read_fraction (l : list N) : option (list N * list N) :=
  match l with
  | c :: r => if c =? 46 then match span r with ([], _) => None | x => Some x end else Some ([], l)
  | [] => Some ([], [])
  end.
Definition read_exponent (l : list N) : option (Z * list N) :=
  match l with
  | c :: r =>
      if (c =? 101) || (c =? 69) then
        let (sg, r1) := match r with
                        | p :: r1 => if p =? 43 then (1%Z, r1) else if p =? 45 then ((-1)%Z, r1) else (1%Z, r)
                        | [] => (1%Z, r)
                        end in
        match span r1 with ([], _) => None | (d, r2) => Some ((sg * value 0 d)%Z, r2) end
      else Some (0%Z, l)
  | [] => Some (0%Z, [])
  end.
Definition read_number (l : list N) : option (Q * list N) :=
  let (sg, l) := match l with c :: r => if c =? 45 then ((-1)%Z, r) else (1%Z, l) | [] => (1%Z, l) end in
  match read_integral l with
  | None => None
  | Some (i, l1) =>
      match read_fraction l1 with
      | None => None
      | Some (f, l2) =>
          match read_exponent l2 with
          | None => None
          | Some (e, l3) => Some (Qred (inject_Z (sg * value (value 0 i) f) * Qpower 10 (e - Z.of_nat (length f))), l3)
          end
      end
  end.

Fixpoint prefix (p l : list N) : option (list N) :=
  match p, l with
  | [], _ => Some l
  | a :: p, b :: l => if a =? b then prefix p l else None
  | _, [] => None
  end.

(* A value and what follows it.  The scanner's limit of 10000 nested arrays and
   objects is left out; [fuel] bounds the number of calls. *)
Fixpoint read_value (fuel : nat) (l : list N) : option (json * list N) :=
  match fuel with
  | O => None
  | S fuel =>
      match skip l with
      | [] => None
      | c :: r =>
          if c =? 123 then
            match skip r with
            | c' :: r' => if c' =? 125 then Some (JObj [], r')
                          else match read_members fuel r with Some (m, r'') => Some (JObj m, r'') | None => None end
            | [] => None
            end
          else if c =? 91 then
            match skip r with
            | c' :: r' => if c' =? 93 then Some (JArr [], r')
                          else match read_elements fuel r with Some (m, r'') => Some (JArr m, r'') | None => None end
            | [] => None
            end
          else if c =? 34 then match read_string r with Some (x, r') => Some (JStr (unbytes x), r') | None => None end
          else if c =? 110 then match prefix [117; 108; 108] r with Some r' => Some (JNull, r') | None => None end
          else if c =? 116 then match prefix [114; 117; 101] r with Some r' => Some (JBool true, r') | None => None end
          else if c =? 102 then match prefix [97; 108; 115; 101] r with Some r' => Some (JBool false, r') | None => None end
          else match read_number (c :: r) with Some (q, r') => Some (JNum q, r') | None => None end
      end
  end
with read_elements (fuel : nat) (l : list N) : option (list json * list N) :=
  match fuel with
  | O => None
  | S fuel =>
      match read_value fuel l with
      | Some (v, r) =>
          match skip r with
          | c :: r' => if c =? 93 then Some ([v], r')
                       else if c =? 44 then match read_elements fuel r' with Some (vs, r'') => Some (v :: vs, r'') | None => None end
                       else None
          | [] => None
          end
      | None => None
      end
  end
with read_members (fuel : nat) (l : list N) : option (list (string * json) * list N) :=
  match fuel with
  | O => None
  | S fuel =>
      match skip l with
      | q :: r0 =>
          if q =? 34 then
            match read_string r0 with
            | Some (k, r1) =>
                match skip r1 with
                | c :: r2 =>
                    if c =? 58 then
                      match read_value fuel r2 with
                      | Some (v, r) =>
                          match skip r with
                          | c :: r' => if c =? 125 then Some ([(unbytes k, v)], r')
                                       else if c =? 44 then match read_members fuel r' with Some (vs, r'') => Some ((unbytes k, v) :: vs, r'') | None => None end
                                       else None
                          | [] => None
                          end
                      | None => None
                      end
                    else None
                | [] => None
                end
            | None => None
            end
          else None
      | [] => None
      end
  end.

(* checkValid and the value that the decoder goes through: decode.go:92-104 *)
Definition parse (s : string) : option json :=
  let l := runes s in
  match read_value (S (2 * length l)) l with
  | Some (j, r) => match skip r with [] => Some j | _ => None end
  | None => None
  end.

(* json.Unmarshal of bytes: UnmarshalJSON of the type gets what was found to be
   valid (OrdModel.v: [o] are the iteration orders). *)
Definition unmarshal_bytes (T : list (string * ent)) (rnd : Q -> Q) (o : order) (t : ty) (s : string) : option val :=
  match parse s with Some j => unmarshal_o T rnd o t j | None => None end.
