(* Texts of numbers and strings. *)
From Verif Require Import Str Json.

(* What is assumed of the texts of numbers and strings: a number begins with a
   digit or a minus sign, a string is something in quotes. *)
Record texts_ok (num_text : Q -> string) (str_text : string -> string) : Prop := {
  to_num : forall q, exists c r, num_text q = String c r /\ In c (list_ascii_of_string "-0123456789");
  to_str : forall x, exists r, str_text x = String """" (r ^^ String """" "")
}.
