(* Theorems about the bytes of documents (C104, C105, C107): through encoding/json,
   and not only through the values that the texts stand for.  [rnd] is the
   rounding of numbers to float64, [num_text] the texts of numbers. *)
From Coq Require Import NArith ZArith Ascii.
From Verif Require Import Str SMap Json CodecModel CodecTables CodecSpec CodecProofs CodecCheck UnionModel UnionSpec.
From Verif Require Import OrdModel OrdSpec OrdProofs OrdWrite OrdCheck TextModel TextSpec TextProofs RoundProofs BytesSpec BytesModel BytesProofs BytesDocs BytesSound.

(* ---------- C104 ---------- *)

(* The bytes that an entity is written as are read as the entity. *)
Theorem C104_bytes30 : forall rnd num_text o n v, numbers_ok rnd num_text -> fair o ->
  wf T30 rnd derived30 extra30 (TNamed n) v -> utf8_val v ->
  exists s v', marshal_text T30 num_text quote (TNamed n) v = UOk s /\
    unmarshal_bytes T30 rnd o (TNamed n) s = Some v' /\ vsame v (strip T30 derived30 v' (TNamed n)).
Proof. intros rnd nt o n v OK. exact (bytes_read30 rnd nt OK o n v). Qed.
Theorem C104_bytes31 : forall rnd num_text o n v, numbers_ok rnd num_text -> fair o ->
  wf T31 rnd derived31 extra31 (TNamed n) v -> utf8_val v ->
  exists s v', marshal_text T31 num_text quote (TNamed n) v = UOk s /\
    unmarshal_bytes T31 rnd o (TNamed n) s = Some v' /\ vsame v v' /\ marshal_text T31 num_text quote (TNamed n) v' = UOk s.
Proof. intros rnd nt o n v OK. exact (bytes_read31 rnd nt OK o n v). Qed.

(* White space, escapes, spellings of numbers and the order of members make no
   difference: two texts of the same document are read as the same. *)
Theorem C104_spelling30 : forall rnd o o' t s s' j j', fair o -> fair o' -> text s j -> text s' j' -> reordered j j' ->
  CodecSpec.distinct j -> unambiguous T30 t j -> agree vsame (unmarshal_bytes T30 rnd o t s) (unmarshal_bytes T30 rnd o' t s').
Proof. intros rnd o o' t s s' j j' F F' X X' R D U. unfold unmarshal_bytes. rewrite (text_parse _ _ _ X), (text_parse _ _ _ X'). exact (members_order_free T30 rnd o o' t j j' F F' D U R). Qed.
Theorem C104_spelling31 : forall rnd o o' t s s' j j', fair o -> fair o' -> text s j -> text s' j' -> reordered j j' ->
  CodecSpec.distinct j -> unambiguous T31 t j -> agree vsame (unmarshal_bytes T31 rnd o t s) (unmarshal_bytes T31 rnd o' t s').
Proof. intros rnd o o' t s s' j j' F F' X X' R D U. unfold unmarshal_bytes. rewrite (text_parse _ _ _ X), (text_parse _ _ _ X'). exact (members_order_free T31 rnd o o' t j j' F F' D U R). Qed.

(* With whatever strings: what is read differs from what was written only where
   a string is not UTF-8 or a number not one of Go. *)
Theorem C104_any30 : forall rnd num_text t v s, numbers_ok rnd num_text -> single v -> marshal_text T30 num_text quote t v = UOk s ->
  exists f g j j', (forall x, repaired x (f x)) /\
    (forall q, rnd q = q \/ (exists z, q = inject_Z z /\ (-2 ^ 63 <= z < 2 ^ 63)%Z) -> g q = q) /\
    marshal T30 t v = Some j /\ reordered j j' /\ text s (jmap f g j') /\ parse s = Some (jmap f g j').
Proof. intros rnd nt t v s OK. exact (bytes_repaired rnd nt T30 OK numless_30 plain_30 t v s). Qed.
Theorem C104_any31 : forall rnd num_text t v s, numbers_ok rnd num_text -> single v -> marshal_text T31 num_text quote t v = UOk s ->
  exists f g j j', (forall x, repaired x (f x)) /\
    (forall q, rnd q = q \/ (exists z, q = inject_Z z /\ (-2 ^ 63 <= z < 2 ^ 63)%Z) -> g q = q) /\
    marshal T31 t v = Some j /\ reordered j j' /\ text s (jmap f g j') /\ parse s = Some (jmap f g j').
Proof. intros rnd nt t v s OK. exact (bytes_repaired rnd nt T31 OK numless_31 plain_31 t v s). Qed.
Theorem C104_repaired : forall x y, repaired x y -> valid y /\ (valid x -> y = x) /\ forall z, repaired x z -> z = y.
Proof. intros x y R. split; [exact (repaired_valid_out x y R)|]. split; [intros V; exact (repaired_same x y V R)|]. intros z Z. exact (repaired_one x z y Z R). Qed.

Definition b255 : string := String (ascii_of_N 255) "".
Definition b254 : string := String (ascii_of_N 254) "".

(* Without UTF-8 the entity is written without an error, but what is read is
   another: U+FFFD in place of the byte, and of two extensions one. *)
Definition info30 (title : string) (m : smap val) : val := VStruct [VStr title; VNil; VNil; VNil; VNil; VStr "1"; VMap m].
Definition info31 (title : string) (m : smap val) : val := VStruct [VStr title; VNil; VNil; VNil; VNil; VNil; VStr "1"; VMap m].
Theorem C104_invalid_refuted_30 : exists rnd num_text v s v', numbers_ok rnd num_text /\ wf T30 rnd derived30 extra30 (TNamed "Info") v /\
  marshal_text T30 num_text quote (TNamed "Info") v = UOk s /\ unmarshal_bytes T30 rnd as_given (TNamed "Info") s = Some v' /\
  ~ vsame v (strip T30 derived30 v' (TNamed "Info")) /\
  exists title title' m m', v = info30 title m /\ v' = info30 title' m' /\ title <> title' /\ length m = 2 /\ length m' = 1.
Proof.
  exists whole, whole_text, (info30 b255 [("x-" ^^ b255, VAny (JBool true)); ("x-" ^^ b254, VAny (JBool false))]). eexists. eexists.
  split; [exact whole_ok|]. split; [apply wfi30_ok; vm_compute; reflexivity|]. split; [vm_compute; reflexivity|]. split; [vm_compute; reflexivity|].
  split; [|eexists; eexists; eexists; eexists; split; [reflexivity|]; split; [reflexivity|]; split; [discriminate|split; reflexivity]].
  intros V. vm_compute in V. inversion V as [| | | | | | |l l' F|]; subst. inversion F as [|x y lx ly Vs]; subst. inversion Vs.
Qed.
Theorem C104_invalid_refuted_31 : exists rnd num_text v s v', numbers_ok rnd num_text /\ wf T31 rnd derived31 extra31 (TNamed "Info") v /\
  marshal_text T31 num_text quote (TNamed "Info") v = UOk s /\ unmarshal_bytes T31 rnd as_given (TNamed "Info") s = Some v' /\ ~ vsame v v' /\
  exists title title' m m', v = info31 title m /\ v' = info31 title' m' /\ title <> title' /\ length m = 2 /\ length m' = 1.
Proof.
  exists whole, whole_text, (info31 b255 [("x-" ^^ b255, VAny (JBool true)); ("x-" ^^ b254, VAny (JBool false))]). eexists. eexists.
  split; [exact whole_ok|]. split; [apply wfi31_ok; vm_compute; reflexivity|]. split; [vm_compute; reflexivity|]. split; [vm_compute; reflexivity|].
  split; [|eexists; eexists; eexists; eexists; split; [reflexivity|]; split; [reflexivity|]; split; [discriminate|split; reflexivity]].
  intros V. inversion V as [| | | | | | |l l' F|]; subst. inversion F as [|x y lx ly Vs]; subst. inversion Vs.
Qed.

(* ---------- C105 ---------- *)

(* Whatever the strings of an entity are, the bytes are UTF-8 and hold none of
   <, >, &, U+2028, U+2029: they can stand in a script of an HTML page. *)
Theorem C105_harmless30 : forall rnd num_text t v s, numbers_ok rnd num_text -> single v -> marshal_text T30 num_text quote t v = UOk s -> harmless s.
Proof. intros rnd nt t v s OK. exact (bytes_harmless rnd nt T30 OK numless_30 plain_30 t v s). Qed.
Theorem C105_harmless31 : forall rnd num_text t v s, numbers_ok rnd num_text -> single v -> marshal_text T31 num_text quote t v = UOk s -> harmless s.
Proof. intros rnd nt t v s OK. exact (bytes_harmless rnd nt T31 OK numless_31 plain_31 t v s). Qed.
Theorem C105_utf8_30 : forall rnd num_text t v s, numbers_ok rnd num_text -> single v -> marshal_text T30 num_text quote t v = UOk s -> valid s.
Proof. intros rnd nt t v s OK S E. exact (harmless_valid s (C105_harmless30 rnd nt t v s OK S E)). Qed.
Theorem C105_utf8_31 : forall rnd num_text t v s, numbers_ok rnd num_text -> single v -> marshal_text T31 num_text quote t v = UOk s -> valid s.
Proof. intros rnd nt t v s OK S E. exact (harmless_valid s (C105_harmless31 rnd nt t v s OK S E)). Qed.

(* ---------- examples ---------- *)

(* Letters of two, three and four bytes, a tab, a quote and a tag; numbers of
   either sign. *)
Example C104_example :
  let title := "a""\<b>" ^^ utf8 9 ^^ utf8 233 ^^ utf8 8364 ^^ utf8 128512 ^^ utf8 8232 in
  let v := info31 title [("x-n", VAny (JArr [JNum (inject_Z 120); JNum (inject_Z (-7)); JNull]))] in
  numbers_ok whole whole_text /\ wf T31 whole derived31 extra31 (TNamed "Info") v /\ utf8_val v /\ single v /\
  marshal_text T31 whole_text quote (TNamed "Info") v =
    UOk ("{""title"":""a\""\\\u003cb\u003e\t" ^^ utf8 233 ^^ utf8 8364 ^^ utf8 128512 ^^ "\u2028"",""version"":""1"",""x-n"":[120,-7,null]}") /\
  unmarshal_bytes T31 whole as_given (TNamed "Info")
    (" { ""x-n"":[ 1.2e2 ,-70E-1, null ],""version"" : ""\u0031"",""\u0074itle"":""\u0061\""\\<b>\t\u00E9" ^^ utf8 8364 ^^ "\ud83d\uDE00\u2028""}" ^^ utf8 10) = Some v.
Proof.
  cbv zeta. assert (W : wf T31 whole derived31 extra31 (TNamed "Info") (info31 ("a""\<b>" ^^ utf8 9 ^^ utf8 233 ^^ utf8 8364 ^^ utf8 128512 ^^ utf8 8232) [("x-n", VAny (JArr [JNum (inject_Z 120); JNum (inject_Z (-7)); JNull]))])).
  { apply (wfb_ok whole (fun q => (Qden q =? 1)%positive)) with (m := 100); [|vm_compute; lia|vm_compute; reflexivity].
    intros [z d] E. cbn [Qden] in E. apply Pos.eqb_eq in E. subst d. unfold whole. cbn [Qnum Qden]. rewrite Z.div_1_r. reflexivity. }
  split; [exact whole_ok|]. split; [exact W|]. split; [apply val_utf8_ok; vm_compute; reflexivity|]. split; [exact (wf_single _ _ _ _ _ _ W)|].
  split; vm_compute; reflexivity.
Qed.

(* A text with another spelling is one of the same value (C104_spelling). *)
Example C104_text_case : text (" [ ""\u0061"" ,10 ]") (JArr [JStr "a"; JNum (inject_Z 10)]) /\ text "[""a"",1e1]" (JArr [JStr "a"; JNum (inject_Z 10)]).
Proof.
  assert (D : forall c d, In (c, d) [("0"%char, 0%Z); ("1"%char, 1%Z)] -> digit c d) by (intros c d [E|[E|[]]]; injection E as <- <-; split; [discriminate|reflexivity|discriminate|reflexivity]).
  assert (B1 : blank " ") by (apply (bl_cons 32%N ""); [left; reflexivity|constructor]).
  assert (I1 : integral "1" 1) by (apply (in_digits "1" "" 1 1); [constructor; apply D; right; left; reflexivity|discriminate]).
  split.
  - apply (x_blank " " "[ ""\u0061"" ,10 ]" ""); [exact B1| |constructor]. apply (x_arr " ""\u0061"" ,10 "). apply (xe_more " ""\u0061"" " (JStr "a") "10 ").
    + apply (x_blank " " """\u0061""" " "); [exact B1| |exact B1]. apply x_str. exists "\u0061". split; [|reflexivity].
      change "a" with (utf8 97 ^^ ""). apply (ch_u "0061" 97 "" ""); [|left; reflexivity|constructor].
      apply (hex4_of "0" "0" "6" "1" 0 0 6 1)%char; left; reflexivity.
    + constructor. apply (x_blank "" "10" " "); [constructor| |exact B1]. apply x_num. change (inject_Z 10) with (Qred ((inject_Z 10 + 0) * Qpower 10 0)).
      apply (nu_plus "10" 10 "" 0 "" 0); [|constructor|constructor]. apply (in_digits "1" "0" 10 2); [|discriminate].
      apply (dg_more "1" 1 1 "0" 0); [constructor; apply D; right; left; reflexivity|apply D; left; reflexivity].
  - apply (x_arr """a"",1e1"). apply (xe_more """a""" (JStr "a") "1e1").
    + apply x_str. exists "a". split; [|reflexivity]. apply (ch_plain 97 "" ""); [left; reflexivity|discriminate|discriminate|discriminate|constructor].
    + constructor. apply x_num. change (inject_Z 10) with (Qred ((inject_Z 1 + 0) * Qpower 10 1)).
      apply (nu_plus "1" 1 "" 0 "e1" 1); [exact I1|constructor|]. apply (ex_plus "e" "" "1" 1 1); [left; reflexivity|left; reflexivity|constructor; apply D; right; left; reflexivity].
Qed.

(* A byte that is no UTF-8 is written as an escape. *)
Example C105_example : exists v s, single v /\ marshal_text T30 whole_text quote (TNamed "Info") v = UOk s /\
  s = "{""title"":""\u0026\ufffd"",""version"":""1""}".
Proof.
  exists (info30 ("&" ^^ b255) []). eexists. split; [|split; [vm_compute; reflexivity|reflexivity]].
  constructor. intros x I. cbn [In] in I. repeat (destruct I as [<-|I]; [repeat constructor; intros ? ? []|]). destruct I.
Qed.

(* ---------- C107 ---------- *)

(* Exactly JSON texts are read; bytes that belong to no character and escapes of
   half a surrogate pair stand for U+FFFD. *)
Theorem C107_exact30 : forall rnd o t s v, unmarshal_bytes T30 rnd o t s = Some v <->
  exists s' j, repaired s s' /\ text_in true s' j /\ unmarshal_o T30 rnd o t j = Some v.
Proof. intros. apply unmarshal_exact. Qed.
Theorem C107_exact31 : forall rnd o t s v, unmarshal_bytes T31 rnd o t s = Some v <->
  exists s' j, repaired s s' /\ text_in true s' j /\ unmarshal_o T31 rnd o t j = Some v.
Proof. intros. apply unmarshal_exact. Qed.
(* A text has one value. *)
Theorem C107_one : forall lone s j j', text_in lone s j -> text_in lone s j' -> j = j'.
Proof. exact text_one. Qed.

(* Nothing after the document, no zero before a number, no comma at the end, no
   control characters in strings, no other bytes than UTF-8 outside of them. *)
Example C107_rejected : forall j s', In s' ["{} {}"; "01"; "[1,]"; """" ^^ byte 10 ^^ """"; "{""a"":1,}"; "+1"; "1."; ".5"; "nul"; "'a'"; """\x41"""; ""; "[1 2]"; "{a:1}"] -> ~ text_in true s' j.
Proof.
  intros j s' I T. apply text_parse in T. cbn [In] in I. repeat (destruct I as [<-|I]; [vm_compute in T; discriminate T|]). destruct I.
Qed.
Example C107_example : exists s' v, repaired ("{""title"":""a" ^^ byte 255 ^^ "b\ud800"",""version"":""1""}") s' /\
  text_in true s' (JObj [("title", JStr ("a" ^^ utf8 65533 ^^ "b" ^^ utf8 65533)); ("version", JStr "1")]) /\
  unmarshal_bytes T30 whole as_given (TNamed "Info") ("{""title"":""a" ^^ byte 255 ^^ "b\ud800"",""version"":""1""}") = Some v.
Proof.
  eexists. eexists. split; [apply repair_repaired|]. split; [apply parse_sound; vm_compute; reflexivity|vm_compute; reflexivity].
Qed.

(* ---------- assumptions ---------- *)

Print Assumptions C104_bytes30.
Print Assumptions C104_bytes31.
Print Assumptions C104_spelling30.
Print Assumptions C104_spelling31.
Print Assumptions C104_any30.
Print Assumptions C104_any31.
Print Assumptions C104_repaired.
Print Assumptions C104_invalid_refuted_30.
Print Assumptions C104_invalid_refuted_31.
Print Assumptions C105_harmless30.
Print Assumptions C105_harmless31.
Print Assumptions C105_utf8_30.
Print Assumptions C105_utf8_31.
Print Assumptions C107_exact30.
Print Assumptions C107_exact31.
Print Assumptions C107_one.
