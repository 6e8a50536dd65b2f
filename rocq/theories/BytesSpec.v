(* JSON texts (RFC 8259) as bytes, UTF-8 (RFC 3629) included. *)
From Coq Require Import NArith ZArith Ascii.
From Verif Require Import Str Json CodecModel.

(* ---------- UTF-8 ---------- *)

(* Unicode scalar values, and their bytes: RFC 3629, section 3. *)
Definition scalar (c : N) : Prop := (c < 55296 \/ 57344 <= c < 1114112)%N.

Definition byte (n : N) : string := String (ascii_of_N n) "".
Definition utf8 (c : N) : string :=
  (if c <? 128 then byte c
   else if c <? 2048 then byte (192 + c / 64) ^^ byte (128 + c mod 64)
   else if c <? 65536 then byte (224 + c / 4096) ^^ byte (128 + c / 64 mod 64) ^^ byte (128 + c mod 64)
   else byte (240 + c / 262144) ^^ byte (128 + c / 4096 mod 64) ^^ byte (128 + c / 64 mod 64) ^^ byte (128 + c mod 64))%N.

Inductive valid : string -> Prop :=
| valid_nil : valid ""
| valid_cons c s : scalar c -> valid s -> valid (utf8 c ^^ s).

(* A string with every byte that belongs to no character replaced by U+FFFD. *)
Inductive repaired : string -> string -> Prop :=
| rp_nil : repaired "" ""
| rp_char c s x : scalar c -> repaired s x -> repaired (utf8 c ^^ s) (utf8 c ^^ x)
| rp_byte a s x : (forall c r, scalar c -> String a s <> utf8 c ^^ r) -> repaired s x -> repaired (String a s) (utf8 65533 ^^ x).

(* ---------- strings ---------- *)

Definition hex_digit (c : ascii) (d : N) : Prop :=
  String.get (N.to_nat d) "0123456789abcdef" = Some c \/ String.get (N.to_nat d) "0123456789ABCDEF" = Some c.
Inductive hex4 : string -> N -> Prop :=
| hex4_of a b c d x y z w : hex_digit a x -> hex_digit b y -> hex_digit c z -> hex_digit d w ->
    hex4 (String a (String b (String c (String d "")))) (((x * 16 + y) * 16 + z) * 16 + w).

(* Letters after a backslash and the characters they stand for. *)
Definition escapes : list (string * N) :=
  [("""", 34); ("\", 92); ("/", 47); ("b", 8); ("f", 12); ("n", 10); ("r", 13); ("t", 9)]%N.

(* What is between the quotes, and the string that it stands for.  With [lone],
   escapes of half a surrogate pair are allowed and stand for U+FFFD. *)
Inductive chars_in (lone : bool) : string -> string -> Prop :=
| ch_end : chars_in lone "" ""
| ch_plain c s x : scalar c -> (32 <= c)%N -> c <> 34%N -> c <> 92%N -> chars_in lone s x -> chars_in lone (utf8 c ^^ s) (utf8 c ^^ x)
| ch_escape e c s x : In (e, c) escapes -> chars_in lone s x -> chars_in lone ("\" ^^ e ^^ s) (utf8 c ^^ x)
| ch_u h c s x : hex4 h c -> scalar c -> chars_in lone s x -> chars_in lone ("\u" ^^ h ^^ s) (utf8 c ^^ x)
| ch_pair h h' a b s x : hex4 h (55296 + a) -> hex4 h' (56320 + b) -> (a < 1024)%N -> (b < 1024)%N -> chars_in lone s x ->
    chars_in lone ("\u" ^^ h ^^ "\u" ^^ h' ^^ s) (utf8 (65536 + a * 1024 + b) ^^ x)
| ch_lone h c s x : lone = true -> hex4 h c -> ~ scalar c ->
    (forall h' b s', (c < 56320)%N -> hex4 h' (56320 + b) -> (b < 1024)%N -> s <> "\u" ^^ h' ^^ s') ->
    chars_in lone s x -> chars_in lone ("\u" ^^ h ^^ s) (utf8 65533 ^^ x).
Arguments ch_end {lone}.
Arguments ch_plain {lone}.
Arguments ch_escape {lone}.
Arguments ch_u {lone}.
Arguments ch_pair {lone}.
Arguments ch_lone {lone}.

Definition literal_in (lone : bool) (s x : string) : Prop := exists b, chars_in lone b x /\ s = """" ^^ b ^^ """".
Notation chars := (chars_in false).
Notation literal := (literal_in false).

(* ---------- numbers ---------- *)

Definition digit (c : ascii) (d : Z) : Prop := (0 <= d)%Z /\ String.get (Z.to_nat d) "0123456789" = Some c.
(* One or more digits, their value and their number. *)
Inductive digits : string -> Z -> nat -> Prop :=
| dg_one c d : digit c d -> digits (String c "") d 1
| dg_more s v n c d : digits s v n -> digit c d -> digits (s ^^ String c "") (10 * v + d) (S n).
Inductive integral : string -> Z -> Prop :=
| in_zero : integral "0" 0
| in_digits c s v n : digits (String c s) v n -> c <> "0"%char -> integral (String c s) v.
Inductive fraction : string -> Q -> Prop :=
| fr_none : fraction "" 0
| fr_some s v n : digits s v n -> fraction ("." ^^ s) (inject_Z v / inject_Z (10 ^ Z.of_nat n)).
Inductive exponent : string -> Z -> Prop :=
| ex_none : exponent "" 0
| ex_plus e p s v n : In e ["e"; "E"] -> In p [""; "+"] -> digits s v n -> exponent (e ^^ p ^^ s) v
| ex_minus e s v n : In e ["e"; "E"] -> digits s v n -> exponent (e ^^ "-" ^^ s) (- v).
Inductive numeral : string -> Q -> Prop :=
| nu_plus i z f q e x : integral i z -> fraction f q -> exponent e x ->
    numeral (i ^^ f ^^ e) (Qred ((inject_Z z + q) * Qpower 10 x))
| nu_minus i z f q e x : integral i z -> fraction f q -> exponent e x ->
    numeral ("-" ^^ i ^^ f ^^ e) (Qred (- ((inject_Z z + q) * Qpower 10 x))).

(* ---------- values ---------- *)

Inductive blank : string -> Prop :=
| bl_nil : blank ""
| bl_cons c s : In c [32; 9; 10; 13]%N -> blank s -> blank (byte c ^^ s).

Inductive text_in (lone : bool) : string -> json -> Prop :=
| x_blank a s b j : blank a -> text_in lone s j -> blank b -> text_in lone (a ^^ s ^^ b) j
| x_null : text_in lone "null" JNull
| x_true : text_in lone "true" (JBool true)
| x_false : text_in lone "false" (JBool false)
| x_num s q : numeral s q -> text_in lone s (JNum q)
| x_str s x : literal_in lone s x -> text_in lone s (JStr x)
| x_arr0 w : blank w -> text_in lone ("[" ^^ w ^^ "]") (JArr [])
| x_arr s l : elements_in lone s l -> text_in lone ("[" ^^ s ^^ "]") (JArr l)
| x_obj0 w : blank w -> text_in lone ("{" ^^ w ^^ "}") (JObj [])
| x_obj s m : members_in lone s m -> text_in lone ("{" ^^ s ^^ "}") (JObj m)
with elements_in (lone : bool) : string -> list json -> Prop :=
| xe_one s v : text_in lone s v -> elements_in lone s [v]
| xe_more s v s' l : text_in lone s v -> elements_in lone s' l -> elements_in lone (s ^^ "," ^^ s') (v :: l)
with members_in (lone : bool) : string -> list (string * json) -> Prop :=
| xm_one a k b key s v : blank a -> literal_in lone k key -> blank b -> text_in lone s v -> members_in lone (a ^^ k ^^ b ^^ ":" ^^ s) [(key, v)]
| xm_more a k b key s v s' m : blank a -> literal_in lone k key -> blank b -> text_in lone s v -> members_in lone s' m ->
    members_in lone (a ^^ k ^^ b ^^ ":" ^^ s ^^ "," ^^ s') ((key, v) :: m).

Scheme text_mut := Minimality for text_in Sort Prop
  with elements_mut := Minimality for elements_in Sort Prop
  with members_mut := Minimality for members_in Sort Prop.
Arguments x_blank {lone}.
Arguments x_null {lone}.
Arguments x_true {lone}.
Arguments x_false {lone}.
Arguments x_num {lone}.
Arguments x_str {lone}.
Arguments x_arr0 {lone}.
Arguments x_arr {lone}.
Arguments x_obj0 {lone}.
Arguments x_obj {lone}.
Arguments xe_one {lone}.
Arguments xe_more {lone}.
Arguments xm_one {lone}.
Arguments xm_more {lone}.

(* The texts of RFC 8259. *)
Notation text := (text_in false).
Notation elements := (elements_in false).
Notation members := (members_in false).

(* ---------- documents ---------- *)

(* Texts of characters that may stand in HTML: no <, >, & and no U+2028, U+2029. *)
Inductive harmless : string -> Prop :=
| harmless_nil : harmless ""
| harmless_cons c s : scalar c -> ~ In c [60; 62; 38; 8232; 8233]%N -> harmless s -> harmless (utf8 c ^^ s).

(* What is assumed of the texts of numbers: they are numerals, of the number
   itself if it is an integer of 64 bits or one that a float64 stands for.  (A
   float64 stands for the shortest decimal that is rounded to it.) *)
Record numbers_ok (rnd : Q -> Q) (num_text : Q -> string) : Prop := {
  no_numeral : forall q, exists q', numeral (num_text q) q' /\ (rnd q = q \/ (exists z, q = inject_Z z /\ (-2 ^ 63 <= z < 2 ^ 63)%Z) -> q' = q)
}.

(* All strings (keys of objects and maps included) and all numbers. *)
Inductive all_json (S : string -> Prop) (N : Q -> Prop) : json -> Prop :=
| aj_null : all_json S N JNull
| aj_bool b : all_json S N (JBool b)
| aj_num q : N q -> all_json S N (JNum q)
| aj_str s : S s -> all_json S N (JStr s)
| aj_arr l : (forall j, In j l -> all_json S N j) -> all_json S N (JArr l)
| aj_obj m : (forall k j, In (k, j) m -> S k /\ all_json S N j) -> all_json S N (JObj m).
Inductive all_val (S : string -> Prop) (N : Q -> Prop) : val -> Prop :=
| av_nil : all_val S N VNil
| av_str s : S s -> all_val S N (VStr s)
| av_num q : N q -> all_val S N (VNum q)
| av_bool b : all_val S N (VBool b)
| av_any j : all_json S N j -> all_val S N (VAny j)
| av_ptr v : all_val S N v -> all_val S N (VPtr v)
| av_arr l : (forall v, In v l -> all_val S N v) -> all_val S N (VArr l)
| av_map m : (forall k v, In (k, v) m -> S k /\ all_val S N v) -> all_val S N (VMap m)
| av_struct l : (forall v, In v l -> all_val S N v) -> all_val S N (VStruct l).

(* All strings of an entity are UTF-8. *)
Definition utf8_val (v : val) : Prop := all_val valid (fun _ => True) v.

(* A value with other strings and numbers. *)
Fixpoint jmap (f : string -> string) (g : Q -> Q) (j : json) : json :=
  match j with
  | JNull => JNull
  | JBool b => JBool b
  | JNum q => JNum (g q)
  | JStr s => JStr (f s)
  | JArr l => JArr (map (jmap f g) l)
  | JObj m => JObj (map (fun kv => (f (fst kv), jmap f g (snd kv))) m)
  end.
