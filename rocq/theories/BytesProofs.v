(* Proofs about texts of JSON values. *)
From Coq Require Import NArith ZArith Ascii Lia Qpower Qfield.
From Verif Require Import Str Json BytesSpec BytesModel.
Local Open Scope N_scope.

Ltac nia_div := Z.to_euclidean_division_equations.
Ltac Zify.zify_post_hook ::= Z.to_euclidean_division_equations.

(* ---------- bytes ---------- *)

Lemma unbytes_app a b : unbytes (a ++ b) = unbytes a ^^ unbytes b.
Proof. induction a as [|x a IH]; [reflexivity|]. cbn [unbytes app String.append]. rewrite IH. reflexivity. Qed.

Lemma unbytes_bytes s : unbytes (bytes s) = s.
Proof.
  unfold bytes. induction s as [|a s IH]; [reflexivity|]. cbn [list_ascii_of_string map unbytes]. rewrite IH, ascii_N_embedding. reflexivity.
Qed.

Lemma bytes_unbytes l : Forall (fun b => b < 256) l -> bytes (unbytes l) = l.
Proof.
  unfold bytes. induction 1 as [|b l H _ IH]; [reflexivity|]. cbn [unbytes list_ascii_of_string map]. rewrite IH, N_ascii_embedding by exact H. reflexivity.
Qed.

Lemma bytes_app a b : bytes (a ^^ b) = bytes a ++ bytes b.
Proof. unfold bytes. induction a as [|x a IH]; [reflexivity|]. cbn [String.append list_ascii_of_string map app]. rewrite IH. reflexivity. Qed.

Lemma bytes_small s : Forall (fun b => b < 256) (bytes s).
Proof. unfold bytes. induction s as [|a s IH]; [constructor|]. cbn [list_ascii_of_string map]. constructor; [apply N_ascii_bounded|exact IH]. Qed.

Lemma encode_small c : c < 1114112 -> Forall (fun b => b < 256) (encode c).
Proof.
  intros H. unfold encode. destruct (N.ltb_spec c 128); [repeat constructor; lia|].
  destruct (N.ltb_spec c 2048); [repeat constructor; lia|]. destruct (N.ltb_spec c 65536); repeat constructor; lia.
Qed.

Lemma unbytes_encode c : unbytes (encode c) = utf8 c.
Proof. unfold encode, utf8. destruct (c <? 128), (c <? 2048), (c <? 65536); reflexivity. Qed.

Lemma scalar_bound c : scalar c -> c < 1114112.
Proof. unfold scalar. lia. Qed.

Lemma bytes_utf8 c : scalar c -> bytes (utf8 c) = encode c.
Proof. intros H. rewrite <- unbytes_encode. apply bytes_unbytes, encode_small, scalar_bound, H. Qed.

(* ---------- runes ---------- *)

Lemma between_ok a x b : a <= x -> x <= b -> between a x b = true.
Proof. intros H1 H2. unfold between. apply N.leb_le in H1. apply N.leb_le in H2. rewrite H1, H2. reflexivity. Qed.
Lemma between_no a x b : x < a \/ b < x -> between a x b = false.
Proof. intros H. unfold between. apply Bool.andb_false_iff. rewrite !N.leb_gt. exact H. Qed.

Lemma decode_encode c r : scalar c -> decode (encode c ++ r) = Some c :: decode r.
Proof.
  intros S. unfold scalar in S. unfold encode.
  destruct (N.ltb_spec c 128).
  { cbn [app decode]. replace (c <? 128) with true by (symmetry; apply N.ltb_lt; lia). reflexivity. }
  destruct (N.ltb_spec c 2048).
  { cbn [app decode]. replace (192 + c / 64 <? 128) with false by (symmetry; apply N.ltb_ge; lia).
    unfold seq2, tail. rewrite !between_ok by lia. cbn [andb]. f_equal. f_equal. lia. }
  destruct (N.ltb_spec c 65536).
  { cbn [app decode]. replace (224 + c / 4096 <? 128) with false by (symmetry; apply N.ltb_ge; lia).
    unfold seq2 at 1. rewrite (between_no 194) by lia. cbn [andb].
    unfold seq3, tail. rewrite (between_ok 224) by lia. rewrite (between_ok 128 (128 + c mod 64)) by lia.
    rewrite between_ok; [|destruct (N.eqb_spec (224 + c / 4096) 224); lia|destruct (N.eqb_spec (224 + c / 4096) 237); lia].
    cbn [andb]. f_equal. f_equal. lia. }
  cbn [app decode]. replace (240 + c / 262144 <? 128) with false by (symmetry; apply N.ltb_ge; lia).
  unfold seq2 at 1. rewrite (between_no 194) by lia. cbn [andb].
  unfold seq3 at 1. rewrite (between_no 224) by lia. cbn [andb].
  unfold seq4, tail. rewrite (between_ok 240) by lia. rewrite (between_ok 128 (128 + c mod 64)) by lia. rewrite (between_ok 128 (128 + c / 64 mod 64)) by lia.
  rewrite between_ok; [|destruct (N.eqb_spec (240 + c / 262144) 240); lia|destruct (N.eqb_spec (240 + c / 262144) 244); lia].
  cbn [andb]. f_equal. f_equal. lia.
Qed.

Lemma runes_utf8 c r : scalar c -> runes (utf8 c ^^ r) = c :: runes r.
Proof. intros H. unfold runes. rewrite bytes_app, bytes_utf8 by exact H. rewrite decode_encode by exact H. reflexivity. Qed.

Lemma runes_ascii a r : N_of_ascii a < 128 -> runes (String a r) = N_of_ascii a :: runes r.
Proof.
  intros H. unfold runes, bytes. cbn [list_ascii_of_string map decode]. replace (N_of_ascii a <? 128) with true by (symmetry; apply N.ltb_lt; exact H). reflexivity.
Qed.

(* What is valid is read on its own. *)
Definition plainly (s : string) : Prop := forall r, runes (s ^^ r) = runes s ++ runes r.
Lemma app_nil_s s : s ^^ "" = s.
Proof. induction s as [|a s IH]; [reflexivity|]. cbn [String.append]. rewrite IH. reflexivity. Qed.
Lemma app_assoc_s a b c : (a ^^ b) ^^ c = a ^^ b ^^ c.
Proof. induction a as [|x a IH]; [reflexivity|]. cbn [String.append]. rewrite IH. reflexivity. Qed.

Lemma valid_plainly s : valid s -> plainly s.
Proof.
  induction 1 as [|c s H _ IH]; intros r; [reflexivity|]. rewrite app_assoc_s, !runes_utf8 by exact H. rewrite IH. reflexivity.
Qed.
Lemma plainly_app a b : plainly a -> plainly b -> plainly (a ^^ b).
Proof. intros A B r. rewrite app_assoc_s, A, B, A. rewrite app_assoc. reflexivity. Qed.
Lemma plainly_ascii a s : N_of_ascii a < 128 -> plainly s -> plainly (String a s).
Proof. intros H A r. cbn [String.append]. rewrite !runes_ascii by exact H. rewrite A. reflexivity. Qed.
Lemma plainly_nil : plainly "".
Proof. intros r. reflexivity. Qed.
Lemma plainly_utf8 c : scalar c -> plainly (utf8 c).
Proof. intros H r. rewrite runes_utf8 by exact H. rewrite <- (app_nil_s (utf8 c)) at 1. rewrite runes_utf8 by exact H. reflexivity. Qed.
Lemma runes_one c : scalar c -> runes (utf8 c) = [c].
Proof. intros H. rewrite <- (app_nil_s (utf8 c)), runes_utf8 by exact H. reflexivity. Qed.
Lemma runes_one_byte c : c < 128 -> runes (byte c) = [c].
Proof. intros H. unfold byte. rewrite runes_ascii; rewrite N_ascii_embedding by lia; [reflexivity|exact H]. Qed.
Lemma plainly_byte c : c < 128 -> plainly (byte c).
Proof. intros H. unfold byte. apply plainly_ascii; [rewrite N_ascii_embedding by lia; exact H|exact plainly_nil]. Qed.

(* ---------- strings ---------- *)

Ltac cases16 d H :=
  let n := fresh "n" in let E := fresh "E" in
  remember (N.to_nat d) as n eqn:E; apply (f_equal N.of_nat) in E; rewrite N2Nat.id in E; subst d;
  do 16 (destruct n as [|n]; [injection H as <-; try (vm_compute; auto)|]); discriminate H.

Lemma hex_digit_value c d : hex_digit c d -> N_of_ascii c < 128 /\ hex_value (N_of_ascii c) = Some d.
Proof.
  intros [H|H]; cases16 d H.
Qed.

Lemma hex4_runes h u : hex4 h u -> plainly h /\ exists a b c d, runes h = [a; b; c; d] /\ u4 a b c d = Some u.
Proof.
  intros H. destruct H as [a b c d x y z w A B C D].
  apply hex_digit_value in A. apply hex_digit_value in B. apply hex_digit_value in C. apply hex_digit_value in D.
  destruct A as [A1 A2], B as [B1 B2], C as [C1 C2], D as [D1 D2].
  split; [repeat (apply plainly_ascii; [assumption|]); exact plainly_nil|].
  do 4 eexists. rewrite !runes_ascii by assumption. split; [reflexivity|]. unfold u4. rewrite A2, B2, C2, D2. f_equal. lia.
Qed.

Lemma not_surrogate c : scalar c -> surrogate c = false.
Proof. unfold scalar. intros H. apply between_no. lia. Qed.

Lemma escape_runes e c : In (e, c) escapes -> plainly e /\ exists a, runes e = [a] /\ a <> 117 /\ unescape a = Some c /\ scalar c.
Proof.
  intros H. cbn [escapes In] in H.
  repeat (destruct H as [H|H]; [injection H as <- <-; split; [apply plainly_ascii; [reflexivity|exact plainly_nil]|]; eexists; split; [reflexivity|]; split; [discriminate|]; split; [reflexivity|]; unfold scalar; lia|]). destruct H.
Qed.

(* ---------- runes as strings ---------- *)

Definition str (l : list N) : string := unbytes (flat_map encode l).
Lemma str_cons c l : str (c :: l) = utf8 c ^^ str l.
Proof. unfold str. cbn [flat_map]. rewrite unbytes_app, unbytes_encode. reflexivity. Qed.
Lemma str_app a b : str (a ++ b) = str a ^^ str b.
Proof. unfold str. rewrite flat_map_app, unbytes_app. reflexivity. Qed.
Lemma str_ascii c l : c < 128 -> str (c :: l) = String (ascii_of_N c) (str l).
Proof. intros H. rewrite str_cons. unfold utf8. apply N.ltb_lt in H. rewrite H. reflexivity. Qed.
Lemma runes_str l : Forall scalar l -> runes (str l) = l.
Proof. induction 1 as [|c l S _ IH]; [reflexivity|]. rewrite str_cons, runes_utf8, IH by exact S. reflexivity. Qed.
Lemma str_runes s : valid s -> str (runes s) = s /\ Forall scalar (runes s).
Proof. induction 1 as [|c s S _ [IH F]]; [split; [reflexivity|constructor]|]. rewrite runes_utf8 by exact S. rewrite str_cons, IH. split; [reflexivity|constructor; assumption]. Qed.
Lemma valid_str l : Forall scalar l -> valid (str l).
Proof. induction 1 as [|c l S _ IH]; [constructor|]. rewrite str_cons. constructor; assumption. Qed.
Lemma valid_app a b : valid a -> valid b -> valid (a ^^ b).
Proof. intros A B. induction A as [|c s S _ IH]; [exact B|]. rewrite app_assoc_s. constructor; assumption. Qed.
Lemma valid_ascii a s : N_of_ascii a < 128 -> valid s -> valid (String a s).
Proof.
  intros L V. replace (String a s) with (utf8 (N_of_ascii a) ^^ s); [constructor; [unfold scalar; lia|exact V]|].
  unfold utf8. apply N.ltb_lt in L. rewrite L. unfold byte. rewrite ascii_N_embedding. reflexivity.
Qed.

Lemma hex_value_digit n d : hex_value n = Some d -> n < 128 /\ hex_digit (ascii_of_N n) d.
Proof.
  unfold hex_value, between. intros H.
  assert (D : d < 16 /\ (n = 48 + d /\ d < 10 \/ n = 87 + d /\ 10 <= d \/ n = 55 + d /\ 10 <= d)).
  { destruct ((48 <=? n) && (n <=? 57)) eqn:E1; [injection H as <-; apply andb_prop in E1; destruct E1 as [A B]; apply N.leb_le in A, B; lia|].
    destruct ((97 <=? n) && (n <=? 102)) eqn:E2; [injection H as <-; apply andb_prop in E2; destruct E2 as [A B]; apply N.leb_le in A, B; lia|].
    destruct ((65 <=? n) && (n <=? 70)) eqn:E3; [injection H as <-; apply andb_prop in E3; destruct E3 as [A B]; apply N.leb_le in A, B; lia|discriminate H]. }
  clear H. destruct D as [D C]. split; [lia|]. replace d with (N.of_nat (N.to_nat d)) in * by apply N2Nat.id. set (k := N.to_nat d) in *. clearbody k.
  do 16 (destruct k as [|k]; [destruct C as [[-> C]|[[-> C]|[-> C]]]; try (exfalso; clear -C; lia); (left; reflexivity) || (right; reflexivity)|]). exfalso. clear -D. lia.
Qed.
Lemma u4_hex a b c d u : u4 a b c d = Some u -> (a < 128 /\ b < 128 /\ c < 128 /\ d < 128) /\ hex4 (str [a; b; c; d]) u.
Proof.
  unfold u4. destruct (hex_value a) as [x|] eqn:A; [|discriminate]. destruct (hex_value b) as [y|] eqn:B; [|discriminate]. destruct (hex_value c) as [z|] eqn:C; [|discriminate].
  destruct (hex_value d) as [w|] eqn:D; [|discriminate]. intros H. injection H as <-.
  apply hex_value_digit in A, B, C, D. destruct A as [A1 A2], B as [B1 B2], C as [C1 C2], D as [D1 D2]. split; [auto|].
  rewrite !str_ascii by assumption. replace (x * 4096 + y * 256 + z * 16 + w) with (((x * 16 + y) * 16 + z) * 16 + w) by lia. constructor; assumption.
Qed.
Lemma hex4_small h c : hex4 h c -> c < 65536.
Proof.
  intros H. destruct H as [a b c d x y z w A B C D]. assert (X : forall a x, hex_digit a x -> x < 16).
  { clear. intros a x [H|H]; destruct (N.lt_ge_cases x 16) as [L|L]; try exact L; exfalso; assert (G : String.get (N.to_nat x) "" = None) by reflexivity.
    all: remember (N.to_nat x) as k eqn:K; assert (16 <= k)%nat by lia; do 16 (destruct k as [|k]; [lia|]); cbn in H; discriminate H. }
  apply X in A, B, C, D. lia.
Qed.
Lemma hex4_valid h c : hex4 h c -> valid h.
Proof.
  intros H. destruct H as [a b c d x y z w A B C D]. apply hex_digit_value in A, B, C, D.
  repeat (apply valid_ascii; [tauto|]). constructor.
Qed.
Lemma chars_valid lone b x : chars_in lone b x -> valid b.
Proof.
  assert (U : valid "\u") by (apply valid_ascii; [reflexivity|]; apply valid_ascii; [reflexivity|]; constructor).
  induction 1 as [|c s x S _ _ _ _ IH|e c s x I _ IH|h c s x H _ _ IH|h h' a b s x H H' _ _ _ IH|h c s x _ H _ _ _ IH].
  - constructor.
  - constructor; assumption.
  - apply (valid_app "\"); [apply valid_ascii; [reflexivity|constructor]|]. apply valid_app; [|exact IH]. cbn [escapes In] in I.
    repeat (destruct I as [I|I]; [injection I as <- <-; apply valid_ascii; [reflexivity|constructor]|]). destruct I.
  - repeat (apply valid_app; [first [exact U|exact (hex4_valid _ _ H)]|]); exact IH.
  - repeat (apply valid_app; [first [exact U|exact (hex4_valid _ _ H)|exact (hex4_valid _ _ H')]|]); exact IH.
  - repeat (apply valid_app; [first [exact U|exact (hex4_valid _ _ H)]|]); exact IH.
Qed.

(* Six runes in front of what follows a string are its own, if they are an escape. *)
Lemma split6 l r a b c d rest u : u4 a b c d = Some u -> l ++ 34 :: r = 92 :: 117 :: a :: b :: c :: d :: rest ->
  exists l', l = 92 :: 117 :: a :: b :: c :: d :: l'.
Proof.
  intros U E. assert (N34 : forall x, hex_value x <> None -> x <> 34) by (intros x H ->; apply H; reflexivity).
  unfold u4 in U. destruct (hex_value a) eqn:A; [|discriminate]. destruct (hex_value b) eqn:B; [|discriminate]. destruct (hex_value c) eqn:C; [|discriminate]. destruct (hex_value d) eqn:D; [|discriminate].
  assert (a <> 34) by (apply N34; congruence). assert (b <> 34) by (apply N34; congruence). assert (c <> 34) by (apply N34; congruence). assert (d <> 34) by (apply N34; congruence).
  do 6 (destruct l as [|? l]; [injection E; intros; subst; congruence|injection E as -> E]). exists l. reflexivity.
Qed.

Lemma chars_read lone b x : chars_in lone b x -> plainly b /\ forall r, read_string (runes b ++ 34 :: r) = Some (bytes x, r).
Proof.
  induction 1 as [|c s x S C1 C2 C3 _ [P IH]|e c s x I _ [P IH]|h c s x H S _ [P IH]|h h' a b s x H H' A B _ [P IH]|h c s x L H NS NP C [P IH]].
  - split; [exact plainly_nil|]. intros r. reflexivity.
  - split; [apply plainly_app; [apply plainly_utf8; exact S|exact P]|]. intros r. rewrite runes_utf8 by exact S. cbn [app read_string].
    apply N.eqb_neq in C2. apply N.eqb_neq in C3. apply N.ltb_ge in C1. rewrite C2, C3, C1, IH. cbn [add_rune]. rewrite bytes_app, bytes_utf8 by exact S. reflexivity.
  - destruct (escape_runes _ _ I) as (Pe & a & E & N1 & U & S). split; [apply plainly_app; [apply plainly_ascii; [reflexivity|exact plainly_nil]|apply plainly_app; assumption]|].
    intros r. change ("\" ^^ e ^^ s) with (String "\" (e ^^ s)). rewrite runes_ascii by reflexivity. rewrite Pe, E. cbn [app read_string].
    change (N_of_ascii "\" =? 34) with false. change (N_of_ascii "\" =? 92) with true. cbv iota. apply N.eqb_neq in N1. rewrite N1, U, IH.
    cbn [add_rune]. rewrite bytes_app, bytes_utf8 by exact S. reflexivity.
  - destruct (hex4_runes _ _ H) as (Ph & p & q & t & w & E & U).
    split; [apply plainly_app; [apply plainly_ascii; [reflexivity|apply plainly_ascii; [reflexivity|exact plainly_nil]]|apply plainly_app; assumption]|].
    intros r. change ("\u" ^^ h ^^ s) with (String "\" (String "u" (h ^^ s))). rewrite !runes_ascii by reflexivity. rewrite Ph, E. cbn [app read_string].
    change (N_of_ascii "\" =? 34) with false. change (N_of_ascii "\" =? 92) with true. change (N_of_ascii "u" =? 117) with true. cbv iota.
    rewrite U, (not_surrogate _ S), IH. cbn [add_rune]. rewrite bytes_app, bytes_utf8 by exact S. reflexivity.
  - destruct (hex4_runes _ _ H) as (Ph & p & q & t & w & E & U). destruct (hex4_runes _ _ H') as (Ph' & p' & q' & t' & w' & E' & U').
    assert (S : scalar (65536 + a * 1024 + b)) by (unfold scalar; lia).
    assert (P2 : plainly "\u") by (apply plainly_ascii; [reflexivity|apply plainly_ascii; [reflexivity|exact plainly_nil]]).
    split; [repeat (apply plainly_app; [assumption|]); exact P|].
    intros r. rewrite (P2 _), Ph, E, (P2 _), Ph', E'. change (runes "\u") with [92; 117]. cbn [app read_string].
    change (92 =? 34) with false. change (92 =? 92) with true. change (117 =? 117) with true. cbv iota. rewrite U.
    unfold surrogate at 1. rewrite between_ok by lia. cbn [andb]. rewrite U'. unfold pair. rewrite !between_ok by lia. cbn [andb]. rewrite IH.
    cbn [add_rune]. rewrite bytes_app, bytes_utf8 by exact S. do 3 f_equal. f_equal. lia.
  - destruct (hex4_runes _ _ H) as (Ph & p & q & t & w & E & U).
    assert (P2 : plainly "\u") by (apply plainly_ascii; [reflexivity|apply plainly_ascii; [reflexivity|exact plainly_nil]]).
    split; [repeat (apply plainly_app; [assumption|]); exact P|].
    intros r. rewrite (P2 _), Ph, E. change (runes "\u") with [92; 117]. cbn [app]. set (l2 := runes s ++ 34 :: r) in *. cbn [read_string].
    change (92 =? 34) with false. change (92 =? 92) with true. change (117 =? 117) with true. cbv iota. rewrite U.
    pose proof (hex4_small _ _ H) as B16. assert (SU : surrogate c = true) by (apply between_ok; unfold scalar in NS; lia). rewrite SU.
    assert (R : add_rune 65533 (read_string l2) = Some (bytes (utf8 65533 ^^ x), r)) by (unfold l2; rewrite IH; cbn [add_rune]; rewrite bytes_app, bytes_utf8 by (unfold scalar; lia); reflexivity).
    destruct l2 as [|e1 [|e2 [|a' [|b' [|c' [|d' r3]]]]]] eqn:E6; try exact R.
    destruct ((e1 =? 92) && (e2 =? 117)) eqn:EE; [|exact R]. destruct (u4 a' b' c' d') as [u'|] eqn:U'; [|exact R].
    unfold pair. destruct (between 55296 c 56319 && between 56320 u' 57343) eqn:BB; [|exact R]. exfalso.
    apply andb_prop in EE. destruct EE as [E1 E2]. apply N.eqb_eq in E1, E2. subst e1 e2.
    apply andb_prop in BB. destruct BB as [B1 B2]. unfold between in B1, B2. apply andb_prop in B1, B2. destruct B1 as [B1 B3], B2 as [B2 B4]. apply N.leb_le in B1, B2, B3, B4.
    destruct (split6 _ _ _ _ _ _ _ _ U' E6) as (l' & El). destruct (u4_hex _ _ _ _ _ U') as [_ H4].
    apply (NP (str [a'; b'; c'; d']) (u' - 56320) (str l')); [lia|replace (56320 + (u' - 56320)) with u' by lia; exact H4|lia|].
    destruct (str_runes s (chars_valid _ _ _ C)) as [<- _]. rewrite El. change (92 :: 117 :: a' :: b' :: c' :: d' :: l') with ([92; 117] ++ [a'; b'; c'; d'] ++ l'). rewrite !str_app. reflexivity.
Qed.

Lemma literal_read lone s x : literal_in lone s x -> plainly s /\ exists l, runes s = 34 :: l /\ forall r, read_string (l ++ r) = Some (bytes x, r).
Proof.
  intros (b & C & ->). destruct (chars_read _ _ _ C) as [P R].
  split; [apply plainly_app; [apply plainly_ascii; [reflexivity|exact plainly_nil]|apply plainly_app; [exact P|apply plainly_ascii; [reflexivity|exact plainly_nil]]]|].
  exists (runes b ++ [34]). split.
  - change ("""" ^^ b ^^ """") with (String """" (b ^^ """")). rewrite runes_ascii by reflexivity. rewrite P. reflexivity.
  - intros r. rewrite <- app_assoc. cbn [app]. apply R.
Qed.

(* ---------- writing strings ---------- *)

Lemma hex_is d : d < 16 -> hex_digit (ascii_of_N (hex d)) d.
Proof.
  intros H. replace d with (N.of_nat (N.to_nat d)) in * by apply N2Nat.id. set (n := N.to_nat d) in *. clearbody n. 
  do 16 (destruct n as [|n]; [left; reflexivity|]). lia.
Qed.

Lemma quote_chars c s x : scalar c -> chars s x -> chars (unbytes (quote_rune (Some c)) ^^ s) (utf8 c ^^ x).
Proof.
  intros S C. cbn [quote_rune]. destruct (N.ltb_spec c 128) as [L|L].
  - destruct (N.eqb_spec c 92) as [->|N1]; [apply (ch_escape "\" 92); [cbn; auto|exact C]|].
    destruct (N.eqb_spec c 34) as [->|N2]; [apply (ch_escape """" 34); [cbn; auto|exact C]|]. cbn [orb].
    destruct (N.eqb_spec c 8) as [->|N3]; [apply (ch_escape "b" 8); [cbn; auto 10|exact C]|].
    destruct (N.eqb_spec c 12) as [->|N4]; [apply (ch_escape "f" 12); [cbn; auto 10|exact C]|].
    destruct (N.eqb_spec c 10) as [->|N5]; [apply (ch_escape "n" 10); [cbn; auto 10|exact C]|].
    destruct (N.eqb_spec c 13) as [->|N6]; [apply (ch_escape "r" 13); [cbn; auto 10|exact C]|].
    destruct (N.eqb_spec c 9) as [->|N7]; [apply (ch_escape "t" 9); [cbn; auto 10|exact C]|].
    destruct ((c <? 32) || (c =? 60) || (c =? 62) || (c =? 38)) eqn:E.
    + apply (ch_u (String "0" (String "0" (String (ascii_of_N (hex (c / 16))) (String (ascii_of_N (hex (c mod 16))) "")))) c s x); [|exact S|exact C].
      replace c with (((0 * 16 + 0) * 16 + c / 16) * 16 + c mod 16) at 3 by lia. constructor; [left; reflexivity|left; reflexivity| |]; apply hex_is; lia.
    + assert (N8 : 32 <= c) by (destruct (N.ltb_spec c 32); [discriminate E|assumption]).
      replace (unbytes [c]) with (utf8 c) by (unfold utf8; replace (c <? 128) with true by (symmetry; apply N.ltb_lt; exact L); reflexivity).
      apply ch_plain; assumption.
  - destruct (N.eqb_spec c 8232) as [->|N1]; [apply (ch_u "2028" 8232 s x); [|exact S|exact C]|].
    { change 8232 with (((2 * 16 + 0) * 16 + 2) * 16 + 8). constructor; left; reflexivity. }
    destruct (N.eqb_spec c 8233) as [->|N2]; [apply (ch_u "2029" 8233 s x); [|exact S|exact C]|].
    { change 8233 with (((2 * 16 + 0) * 16 + 2) * 16 + 9). constructor; left; reflexivity. }
    cbn [orb]. rewrite unbytes_encode. apply ch_plain; try assumption; lia.
Qed.

Lemma quote_literal s : valid s -> literal (quote s) s.
Proof.
  intros V. exists (unbytes (flat_map quote_rune (decode (bytes s)))). split.
  - induction V as [|c s S V IH]; [constructor|]. rewrite bytes_app, bytes_utf8, decode_encode by exact S. cbn [flat_map].
    rewrite unbytes_app. apply quote_chars; assumption.
  - unfold quote. cbn [unbytes]. rewrite unbytes_app. reflexivity.
Qed.

(* ---------- numbers ---------- *)

Lemma digit_is c d : digit c d -> exists n, N_of_ascii c = n /\ n < 128 /\ is_digit n = true /\ d = (Z.of_N n - 48)%Z /\ (n = 48 -> c = "0"%char).
Proof.
  intros [P H]. exists (N_of_ascii c). split; [reflexivity|]. rewrite <- (Z2Nat.id d) by exact P. set (n := Z.to_nat d) in *. clearbody n.
  do 10 (destruct n as [|n]; [injection H as <-; repeat split; reflexivity || discriminate|]). discriminate H.
Qed.

Lemma value_app a l l' : value a (l ++ l') = value (value a l) l'.
Proof. unfold value. apply fold_left_app. Qed.

Lemma value_start a l : value a l = (a * 10 ^ Z.of_nat (length l) + value 0 l)%Z.
Proof.
  revert a. induction l as [|c l IH]; intros a; [cbn [value fold_left length]; change (Z.of_nat 0) with 0%Z; lia|].
  change (value a (c :: l)) with (value (10 * a + (Z.of_N c - 48)) l). change (value 0 (c :: l)) with (value (10 * 0 + (Z.of_N c - 48)) l).
  rewrite IH, (IH (10 * 0 + _)%Z). cbn [length]. rewrite Nat2Z.inj_succ, Z.pow_succ_r by lia. lia.
Qed.

Definition no_digit (l : list N) : Prop := match l with c :: _ => is_digit c = false | [] => True end.

Lemma span_all ds r : Forall (fun c => is_digit c = true) ds -> no_digit r -> span (ds ++ r) = (ds, r).
Proof.
  intros F N. induction F as [|c ds H _ IH]; cbn [app].
  - destruct r as [|c r]; [reflexivity|]. cbn [span no_digit] in *. rewrite N. reflexivity.
  - cbn [span]. rewrite H, IH. reflexivity.
Qed.

Lemma digits_are s v n : digits s v n -> plainly s /\ exists ds, runes s = ds /\ ds <> [] /\ Forall (fun c => is_digit c = true) ds /\ value 0 ds = v /\ length ds = n.
Proof.
  induction 1 as [c d D|s v n c d _ (P & ds & E & NE & F & V & L) D]; destruct (digit_is _ _ D) as (k & K & K1 & K2 & -> & _); subst k.
  - split; [apply plainly_ascii; [exact K1|exact plainly_nil]|]. rewrite runes_ascii by exact K1. eexists. split; [reflexivity|]. split; [discriminate|].
    split; [constructor; [exact K2|constructor]|]. split; [|reflexivity]. cbn [value fold_left runes]. change (runes "") with (@nil N). cbn [value fold_left]. lia.
  - split; [apply plainly_app; [exact P|apply plainly_ascii; [exact K1|exact plainly_nil]]|]. rewrite P, E, runes_ascii by exact K1. change (runes "") with (@nil N).
    eexists. split; [reflexivity|]. split; [destruct ds; discriminate|]. split; [apply Forall_app; split; [exact F|constructor; [exact K2|constructor]]|].
    split; [rewrite value_app, V; reflexivity|]. rewrite app_length, L. cbn [length]. lia.
Qed.

(* What may follow a value. *)
Definition ends (l : list N) : Prop := match l with c :: _ => In c [32; 9; 10; 13; 44; 93; 125] | [] => True end.
Lemma ends_no l : ends l -> no_digit l /\ match l with c :: _ => (c =? 46) = false /\ (c =? 101) = false /\ (c =? 69) = false | [] => True end.
Proof.
  destruct l as [|c l]; [split; exact I|]. intros H. cbn [ends In] in H. cbn [no_digit].
  repeat (destruct H as [<-|H]; [split; [reflexivity|]; split; [reflexivity|]; split; reflexivity|]). destruct H.
Qed.

Lemma integral_read i z : integral i z -> plainly i /\ exists c ds, runes i = c :: ds /\ is_digit c = true /\ value 0 (c :: ds) = z /\
  forall r, no_digit r -> read_integral (c :: ds ++ r) = Some (c :: ds, r).
Proof.
  intros H. destruct H as [|c s v n D N0].
  - split; [apply plainly_ascii; [reflexivity|exact plainly_nil]|]. exists 48, []. split; [reflexivity|]. split; [reflexivity|]. split; [reflexivity|]. intros r _. reflexivity.
  - destruct (digits_are _ _ _ D) as (P & ds & E & NE & F & V & L). split; [exact P|]. destruct ds as [|k ds]; [congruence|].
    exists k, ds. split; [exact E|]. split; [inversion F; assumption|]. split; [exact V|]. intros r Hr. cbn [read_integral].
    assert (K : k <> 48).
    { intros ->. apply N0. assert (B : N_of_ascii c < 128).
      { clear -D. remember (String c s) as t eqn:T. revert s T. induction D as [c0 d D0|s0 v n c0 d D IH D0]; intros s T.
        - injection T as <- <-. destruct (digit_is _ _ D0) as (k & <- & K & _). exact K.
        - destruct s0 as [|a s0]; [inversion D as [|s1 v1 n1 c1 d1 D1 D2 E1]; subst; destruct s1; discriminate E1|]. injection T as <- <-. exact (IH s0 eq_refl). }
      rewrite runes_ascii in E by exact B. injection E as E1 _. rewrite <- (ascii_N_embedding c), E1. reflexivity. }
    apply N.eqb_neq in K. rewrite K. assert (D1 : is_digit k = true) by (inversion F; assumption). rewrite D1.
    change (k :: ds ++ r) with ((k :: ds) ++ r). rewrite span_all by assumption. reflexivity.
Qed.

Lemma fraction_read f q : fraction f q -> plainly f /\ exists ds, (q == inject_Z (value 0 ds) / inject_Z (10 ^ Z.of_nat (length ds)))%Q /\
  (forall r, no_digit r -> no_digit (runes f ++ r)) /\
  forall r, no_digit r -> match r with c :: _ => (c =? 46) = false | [] => True end -> read_fraction (runes f ++ r) = Some (ds, r).
Proof.
  intros H. destruct H as [|s v n D].
  - split; [exact plainly_nil|]. exists []. split; [reflexivity|]. split; [intros r Hr; exact Hr|]. intros r _ Hr. change (runes "") with (@nil N). cbn [app].
    destruct r as [|c r]; [reflexivity|]. cbn [read_fraction]. rewrite Hr. reflexivity.
  - destruct (digits_are _ _ _ D) as (P & ds & E & NE & F & V & L). split; [apply plainly_app; [apply plainly_ascii; [reflexivity|exact plainly_nil]|exact P]|].
    exists ds. rewrite V, L. split; [reflexivity|]. change ("." ^^ s) with (String "." s). rewrite runes_ascii, E by reflexivity. split; [intros r _; reflexivity|].
    intros r Hr _. cbn [app read_fraction]. change (N_of_ascii "." =? 46) with true. cbv iota. rewrite span_all by assumption. destruct ds; [congruence|reflexivity].
Qed.

Lemma exponent_read e x : exponent e x -> plainly e /\
  (forall r, ends r -> no_digit (runes e ++ r) /\ match runes e ++ r with c :: _ => (c =? 46) = false | [] => True end) /\
  forall r, ends r -> read_exponent (runes e ++ r) = Some (x, r).
Proof.
  assert (A : forall a, N_of_ascii a < 128 -> plainly (String a "")) by (intros a H; apply plainly_ascii; [exact H|exact plainly_nil]).
  intros H. destruct H as [|e p s v n Ie Ip D|e s v n Ie D].
  - split; [exact plainly_nil|]. change (runes "") with (@nil N). cbn [app]. split.
    + intros r Hr. destruct (ends_no _ Hr) as [H1 H2]. split; [exact H1|]. destruct r; [exact I|exact (proj1 H2)].
    + intros r Hr. destruct (ends_no _ Hr) as [H1 H2]. destruct r as [|c r]; [reflexivity|]. destruct H2 as (_ & H2 & H3). cbn [read_exponent]. rewrite H2, H3. reflexivity.
  - destruct (digits_are _ _ _ D) as (P & ds & E & NE & F & V & L).
    assert (Pe : exists a, (a = 101 \/ a = 69) /\ forall t, runes (e ^^ t) = a :: runes t).
    { cbn [In] in Ie. destruct Ie as [<-|[<-|[]]]; eexists; (split; [|intros t; cbn [String.append]; rewrite runes_ascii by reflexivity; reflexivity]); [left|right]; reflexivity. }
    destruct Pe as (a & Ha & Re).
    assert (Pl : plainly (e ^^ p ^^ s)).
    { cbn [In] in Ie, Ip. apply plainly_app; [destruct Ie as [<-|[<-|[]]]; apply A; reflexivity|]. apply plainly_app; [|exact P]. destruct Ip as [<-|[<-|[]]]; [exact plainly_nil|apply A; reflexivity]. }
    split; [exact Pl|]. rewrite Re. cbn [app]. split; [intros r _; destruct Ha as [-> | ->]; split; reflexivity|].
    intros r Hr. destruct (ends_no _ Hr) as [H1 H2]. cbn [read_exponent]. replace ((a =? 101) || (a =? 69)) with true by (destruct Ha as [-> | ->]; reflexivity).
    cbn [In] in Ip. destruct Ip as [<-|[<-|[]]].
    + change ("" ^^ s) with s. rewrite E. destruct ds as [|k ds]; [congruence|]. cbn [app]. assert (K : is_digit k = true) by (inversion F; assumption).
      assert (K1 : (k =? 43) = false /\ (k =? 45) = false).
      { unfold is_digit, between in K. apply andb_prop in K. destruct K as [K _]. apply N.leb_le in K. split; apply N.eqb_neq; lia. }
      destruct K1 as [K1 K2]. rewrite K1, K2. change (k :: ds ++ r) with ((k :: ds) ++ r). rewrite span_all by assumption. f_equal. f_equal. rewrite <- V. destruct (value 0 (k :: ds)); reflexivity.
    + change ("+" ^^ s) with (String "+" s). rewrite runes_ascii, E by reflexivity. cbn [app]. change (N_of_ascii "+" =? 43) with true. cbv iota.
      rewrite span_all by assumption. destruct ds as [|k ds]; [congruence|]. f_equal. f_equal. rewrite <- V. destruct (value 0 (k :: ds)); reflexivity.
  - destruct (digits_are _ _ _ D) as (P & ds & E & NE & F & V & L).
    assert (Pe : exists a, (a = 101 \/ a = 69) /\ forall t, runes (e ^^ t) = a :: runes t).
    { cbn [In] in Ie. destruct Ie as [<-|[<-|[]]]; eexists; (split; [|intros t; cbn [String.append]; rewrite runes_ascii by reflexivity; reflexivity]); [left|right]; reflexivity. }
    destruct Pe as (a & Ha & Re).
    assert (Pl : plainly (e ^^ "-" ^^ s)).
    { cbn [In] in Ie. apply plainly_app; [destruct Ie as [<-|[<-|[]]]; apply A; reflexivity|]. apply plainly_app; [|exact P]. apply A; reflexivity. }
    split; [exact Pl|]. rewrite Re. cbn [app]. split; [intros r _; destruct Ha as [-> | ->]; split; reflexivity|].
    intros r Hr. destruct (ends_no _ Hr) as [H1 H2]. cbn [read_exponent]. replace ((a =? 101) || (a =? 69)) with true by (destruct Ha as [-> | ->]; reflexivity).
    change ("-" ^^ s) with (String "-" s). rewrite runes_ascii, E by reflexivity. cbn [app]. change (N_of_ascii "-" =? 43) with false. change (N_of_ascii "-" =? 45) with true. cbv iota.
    rewrite span_all by assumption. destruct ds as [|k ds]; [congruence|]. f_equal. f_equal. rewrite <- V. destruct (value 0 (k :: ds)); reflexivity.
Qed.

Lemma number_value z ds x : (inject_Z (value z ds) * Qpower 10 (x - Z.of_nat (length ds)) ==
  (inject_Z z + inject_Z (value 0 ds) / inject_Z (10 ^ Z.of_nat (length ds))) * Qpower 10 x)%Q.
Proof.
  assert (P : (0 <= Z.of_nat (length ds))%Z) by lia. set (n := Z.of_nat (length ds)) in *.
  assert (T : ~ (10 == 0)%Q) by discriminate.
  unfold Z.sub. rewrite Qpower_plus by exact T. rewrite Qpower_opp. rewrite value_start. fold n.
  assert (W : (inject_Z (10 ^ n) == Qpower 10 n)%Q) by (rewrite Zpower_Qpower by exact P; reflexivity).
  rewrite inject_Z_plus, inject_Z_mult, W. assert (NZ : ~ (Qpower 10 n == 0)%Q) by (apply Qpower_not_0; exact T). field. exact NZ.
Qed.

Lemma numeral_read s q : numeral s q -> plainly s /\ exists c l, runes s = c :: l /\ (c = 45 \/ is_digit c = true) /\
  forall r, ends r -> read_number (c :: l ++ r) = Some (q, r).
Proof.
  assert (Core : forall i z f q e x sg, integral i z -> fraction f q -> exponent e x -> plainly (i ^^ f ^^ e) /\ exists c l, runes (i ^^ f ^^ e) = c :: l /\ is_digit c = true /\
    forall r, ends r -> exists ci cf l1 l2, read_integral (c :: l ++ r) = Some (ci, l1) /\ read_fraction l1 = Some (cf, l2) /\ read_exponent l2 = Some (x, r) /\
      (inject_Z (sg * value (value 0 ci) cf) * Qpower 10 (x - Z.of_nat (length cf)) == inject_Z sg * ((inject_Z z + q) * Qpower 10 x))%Q).
  { clear. intros i z f q e x sg Hi Hf He.
    destruct (integral_read _ _ Hi) as (Pi & c & ds & Ei & Di & Vi & Ri). destruct (fraction_read _ _ Hf) as (Pf & fs & Qf & Nf & Rf).
    destruct (exponent_read _ _ He) as (Pe & Ne & Re).
    split; [apply plainly_app; [exact Pi|apply plainly_app; assumption]|]. exists c, (ds ++ runes f ++ runes e). rewrite Pi, Pf, Ei. split; [reflexivity|]. split; [exact Di|].
    intros r Hr. destruct (Ne r Hr) as [N1 N2]. exists (c :: ds), fs, (runes f ++ runes e ++ r), (runes e ++ r).
    split; [rewrite <- !app_assoc; apply Ri; apply Nf; exact N1|]. split; [apply Rf; assumption|]. split; [apply Re; exact Hr|].
    rewrite inject_Z_mult, <- Qmult_assoc, number_value, Vi, <- Qf. reflexivity. }
  intros H. destruct H as [i z f q e x Hi Hf He|i z f q e x Hi Hf He].
  - destruct (Core i z f q e x 1%Z Hi Hf He) as (P & c & l & E & D & R). split; [exact P|]. exists c, l. split; [exact E|]. split; [right; exact D|].
    intros r Hr. destruct (R r Hr) as (ci & cf & l1 & l2 & R1 & R2 & R3 & V). unfold read_number.
    assert (K : (c =? 45) = false). { unfold is_digit, between in D. apply andb_prop in D. destruct D as [D _]. apply N.leb_le in D. apply N.eqb_neq. lia. }
    rewrite K, R1, R2, R3. f_equal. f_equal. apply Qred_complete. rewrite V. ring.
  - destruct (Core i z f q e x (-1)%Z Hi Hf He) as (P & c & l & E & D & R). split; [apply plainly_app; [apply plainly_ascii; [reflexivity|exact plainly_nil]|exact P]|].
    exists 45, (c :: l). split; [change ("-" ^^ i ^^ f ^^ e) with (String "-" (i ^^ f ^^ e)); rewrite runes_ascii, E by reflexivity; reflexivity|]. split; [left; reflexivity|].
    intros r Hr. destruct (R r Hr) as (ci & cf & l1 & l2 & R1 & R2 & R3 & V). unfold read_number. change (45 =? 45) with true. cbv iota. cbn [app].
    rewrite R1, R2, R3. f_equal. f_equal. apply Qred_complete. rewrite V. ring.
Qed.

(* ---------- values ---------- *)

Lemma skip_spaces w l : Forall (fun c => space c = true) w -> skip (w ++ l) = skip l.
Proof. induction 1 as [|c w H _ IH]; [reflexivity|]. cbn [app skip]. rewrite H. exact IH. Qed.

Lemma blank_runes s : blank s -> plainly s /\ Forall (fun c => space c = true) (runes s) /\ forall r, ends r -> ends (runes s ++ r).
Proof.
  induction 1 as [|c s I _ (P & F & E)]; [split; [exact plainly_nil|split; [constructor|intros r H; exact H]]|].
  assert (L : c < 128) by (cbn [In] in I; intuition lia).
  split; [apply plainly_app; [apply plainly_byte; exact L|exact P]|]. rewrite (plainly_byte c L), runes_one_byte by exact L. cbn [app].
  split; [constructor; [|exact F]; cbn [In] in I; destruct I as [<-|[<-|[<-|[<-|[]]]]]; reflexivity|].
  intros r _. cbn [ends]. cbn [In] in I |- *. destruct I as [<-|[<-|[<-|[<-|[]]]]]; auto 10.
Qed.

Lemma value_skip f l l' : skip l = skip l' -> read_value f l = read_value f l'.
Proof. intros H. destruct f as [|f]; [reflexivity|]. cbn [read_value]. rewrite H. reflexivity. Qed.

Definition reads_value (s : string) (j : json) : Prop := plainly s /\
  (forall r, exists c l, skip (runes s ++ r) = c :: l /\ c <> 93 /\ c <> 125) /\
  forall f r, (2 * length (runes s) < f)%nat -> ends r -> exists w, Forall (fun c => space c = true) w /\ read_value f (runes s ++ r) = Some (j, w ++ r).
Definition reads_elements (s : string) (l : list json) : Prop := plainly s /\
  (forall r, exists c l, skip (runes s ++ r) = c :: l /\ c <> 93 /\ c <> 125) /\
  forall f r, (2 * length (runes s) + 1 < f)%nat -> read_elements f (runes s ++ 93 :: r) = Some (l, r).
Definition reads_members (s : string) (m : list (string * json)) : Prop := plainly s /\
  (forall r, exists c l, skip (runes s ++ r) = c :: l /\ c <> 93 /\ c <> 125) /\
  forall f r, (2 * length (runes s) + 1 < f)%nat -> read_members f (runes s ++ 125 :: r) = Some (m, r).

Lemma plainly_cons a : N_of_ascii a < 128 -> plainly (String a "").
Proof. intros H. apply plainly_ascii; [exact H|exact plainly_nil]. Qed.

Lemma ends_comma l : ends (44 :: l).
Proof. cbn; auto 10. Qed.
Lemma ends_bracket l : ends (93 :: l).
Proof. cbn; auto 10. Qed.
Lemma ends_brace l : ends (125 :: l).
Proof. cbn; auto 10. Qed.

Lemma member_reads lone a k b key s v : blank a -> literal_in lone k key -> blank b -> reads_value s v -> plainly (a ^^ k ^^ b ^^ ":" ^^ s) /\
  (forall r, exists c l, skip (runes (a ^^ k ^^ b ^^ ":" ^^ s) ++ r) = c :: l /\ c <> 93 /\ c <> 125) /\
  forall r, exists r0 r1, skip (runes (a ^^ k ^^ b ^^ ":" ^^ s) ++ r) = 34 :: r0 /\ read_string r0 = Some (bytes key, r1) /\ skip r1 = 58 :: runes s ++ r.
Proof.
  intros A K B (Ps & _ & _). destruct (blank_runes _ A) as (Pa & Fa & _). destruct (blank_runes _ B) as (Pb & Fb & _). destruct (literal_read _ _ _ K) as (Pk & l & El & Rl).
  assert (P : plainly (a ^^ k ^^ b ^^ ":" ^^ s)) by (repeat (apply plainly_app; [first [assumption|apply plainly_cons; reflexivity]|]); exact Ps).
  split; [exact P|].
  assert (X : forall r, skip (runes (a ^^ k ^^ b ^^ ":" ^^ s) ++ r) = 34 :: l ++ runes b ++ 58 :: runes s ++ r).
  { intros r. rewrite Pa, Pk, El, Pb. change (":" ^^ s) with (String ":" s). rewrite runes_ascii by reflexivity. rewrite <- !app_assoc, skip_spaces by exact Fa.
    cbn [app skip]. change (space 34) with false. cbv iota. reflexivity. }
  split.
  - intros r. rewrite X. eexists _, _. split; [reflexivity|]. split; discriminate.
  - intros r. rewrite X. eexists _, _. split; [reflexivity|]. split; [apply Rl|]. rewrite skip_spaces by exact Fb. reflexivity.
Qed.

Ltac len := cbn [length] in *; repeat match goal with |- context [length (_ ++ _)] => rewrite app_length | H : context [length (_ ++ _)] |- _ => rewrite app_length in H end; cbn [length] in *; lia.

Lemma text_reads lone s j : text_in lone s j -> reads_value s j.
Proof.
  apply (text_mut lone reads_value reads_elements reads_members); clear s j.
  - intros a s b j A _ (P & St & R) B. destruct (blank_runes _ A) as (Pa & Fa & _). destruct (blank_runes _ B) as (Pb & Fb & Eb).
    split; [apply plainly_app; [exact Pa|apply plainly_app; assumption]|]. rewrite Pa, P. split.
    + intros r. rewrite <- !app_assoc, skip_spaces by exact Fa. apply St.
    + intros f r L E. rewrite <- !app_assoc. rewrite (value_skip f _ (runes s ++ runes b ++ r)) by (apply skip_spaces; exact Fa).
      destruct (R f (runes b ++ r)) as (w & W & Ew); [len|apply Eb; exact E|]. exists (w ++ runes b). split; [apply Forall_app; split; assumption|]. rewrite <- app_assoc. exact Ew.
  - split; [repeat (apply plainly_ascii; [reflexivity|]); exact plainly_nil|]. split; [intros r; eexists _, _; split; [reflexivity|split; discriminate]|].
    intros f r L _. exists []. split; [constructor|]. destruct f as [|f]; [len|reflexivity].
  - split; [repeat (apply plainly_ascii; [reflexivity|]); exact plainly_nil|]. split; [intros r; eexists _, _; split; [reflexivity|split; discriminate]|].
    intros f r L _. exists []. split; [constructor|]. destruct f as [|f]; [len|reflexivity].
  - split; [repeat (apply plainly_ascii; [reflexivity|]); exact plainly_nil|]. split; [intros r; eexists _, _; split; [reflexivity|split; discriminate]|].
    intros f r L _. exists []. split; [constructor|]. destruct f as [|f]; [len|reflexivity].
  - intros s q H. destruct (numeral_read _ _ H) as (P & c & l & E & C & R). split; [exact P|]. rewrite E.
    assert (K : 45 <= c <= 57). { destruct C as [-> |C]; [lia|]. unfold is_digit, between in C. apply andb_prop in C. destruct C as [C1 C2]. apply N.leb_le in C1. apply N.leb_le in C2. lia. }
    assert (Sp : space c = false) by (unfold space; repeat (apply Bool.orb_false_iff; split); apply N.eqb_neq; lia).
    split; [intros r; cbn [app skip]; rewrite Sp; eexists _, _; split; [reflexivity|lia]|].
    intros f r L Er. exists []. split; [constructor|]. destruct f as [|f]; [len|]. cbn [read_value app skip]. rewrite Sp.
    replace (c =? 123) with false by (symmetry; apply N.eqb_neq; lia). replace (c =? 91) with false by (symmetry; apply N.eqb_neq; lia). replace (c =? 34) with false by (symmetry; apply N.eqb_neq; lia).
    replace (c =? 110) with false by (symmetry; apply N.eqb_neq; lia). replace (c =? 116) with false by (symmetry; apply N.eqb_neq; lia). replace (c =? 102) with false by (symmetry; apply N.eqb_neq; lia).
    rewrite R by exact Er. reflexivity.
  - intros s x H. destruct (literal_read _ _ _ H) as (P & l & E & R). split; [exact P|]. rewrite E. split; [intros r; eexists _, _; split; [reflexivity|split; discriminate]|].
    intros f r L _. exists []. split; [constructor|]. destruct f as [|f]; [len|]. cbn [read_value app skip]. change (space 34) with false. cbv iota.
    change (34 =? 123) with false. change (34 =? 91) with false. change (34 =? 34) with true. cbv iota. rewrite R, unbytes_bytes. reflexivity.
  - intros w W. destruct (blank_runes _ W) as (Pw & Fw & _). split; [apply plainly_app; [apply plainly_cons; reflexivity|apply plainly_app; [exact Pw|apply plainly_cons; reflexivity]]|].
    change ("[" ^^ w ^^ "]") with (String "[" (w ^^ "]")). rewrite runes_ascii, Pw by reflexivity. split; [intros r; eexists _, _; split; [reflexivity|split; discriminate]|].
    intros f r L _. exists []. split; [constructor|]. destruct f as [|f]; [len|]. cbn [read_value app skip]. change (space (N_of_ascii "[")) with false. cbv iota.
    change (N_of_ascii "[" =? 123) with false. change (N_of_ascii "[" =? 91) with true. cbv iota. rewrite <- app_assoc, skip_spaces by exact Fw. reflexivity.
  - intros s l _ (P & St & R). split; [apply plainly_app; [apply plainly_cons; reflexivity|apply plainly_app; [exact P|apply plainly_cons; reflexivity]]|].
    change ("[" ^^ s ^^ "]") with (String "[" (s ^^ "]")). rewrite runes_ascii, P by reflexivity. split; [intros r; eexists _, _; split; [reflexivity|split; discriminate]|].
    intros f r L _. exists []. split; [constructor|]. destruct f as [|f]; [len|]. cbn [read_value app skip]. change (space (N_of_ascii "[")) with false. cbv iota.
    change (N_of_ascii "[" =? 123) with false. change (N_of_ascii "[" =? 91) with true. cbv iota. rewrite <- app_assoc. change (runes "]" ++ r) with (93 :: r).
    destruct (St (93 :: r)) as (c & l' & E & C & _). rewrite E. apply N.eqb_neq in C. rewrite C. rewrite R; [reflexivity|]. change (runes "]") with [93] in L. len.
  - intros w W. destruct (blank_runes _ W) as (Pw & Fw & _). split; [apply plainly_app; [apply plainly_cons; reflexivity|apply plainly_app; [exact Pw|apply plainly_cons; reflexivity]]|].
    change ("{" ^^ w ^^ "}") with (String "{" (w ^^ "}")). rewrite runes_ascii, Pw by reflexivity. split; [intros r; eexists _, _; split; [reflexivity|split; discriminate]|].
    intros f r L _. exists []. split; [constructor|]. destruct f as [|f]; [len|]. cbn [read_value app skip]. change (space (N_of_ascii "{")) with false. cbv iota.
    change (N_of_ascii "{" =? 123) with true. cbv iota. rewrite <- app_assoc, skip_spaces by exact Fw. reflexivity.
  - intros s m _ (P & St & R). split; [apply plainly_app; [apply plainly_cons; reflexivity|apply plainly_app; [exact P|apply plainly_cons; reflexivity]]|].
    change ("{" ^^ s ^^ "}") with (String "{" (s ^^ "}")). rewrite runes_ascii, P by reflexivity. split; [intros r; eexists _, _; split; [reflexivity|split; discriminate]|].
    intros f r L _. exists []. split; [constructor|]. destruct f as [|f]; [len|]. cbn [read_value app skip]. change (space (N_of_ascii "{")) with false. cbv iota.
    change (N_of_ascii "{" =? 123) with true. cbv iota. rewrite <- app_assoc. change (runes "}" ++ r) with (125 :: r).
    destruct (St (125 :: r)) as (c & l' & E & _ & C). rewrite E. apply N.eqb_neq in C. rewrite C. rewrite R; [reflexivity|]. change (runes "}") with [125] in L. len.
  - intros s v _ (P & St & R). split; [exact P|]. split; [exact St|]. intros f r L. destruct f as [|f]; [len|]. cbn [read_elements].
    destruct (R f (93 :: r)) as (w & W & E); [lia|apply ends_bracket|]. rewrite E, skip_spaces by exact W. reflexivity.
  - intros s v s' l _ (P & St & R) _ (P' & _ & R'). split; [apply plainly_app; [exact P|apply plainly_app; [apply plainly_cons; reflexivity|exact P']]|].
    rewrite P. change ("," ^^ s') with (String "," s'). rewrite runes_ascii by reflexivity. change (N_of_ascii ",") with 44. split; [intros r; rewrite <- app_assoc; apply St|].
    intros f r L. destruct f as [|f]; [len|]. cbn [read_elements]. rewrite <- app_assoc. cbn [app].
    destruct (R f (44 :: runes s' ++ 93 :: r)) as (w & W & E); [len|apply ends_comma|]. rewrite E, skip_spaces by exact W.
    change (skip (44 :: runes s' ++ 93 :: r)) with (44 :: runes s' ++ 93 :: r). cbv iota. change (44 =? 93) with false. change (44 =? 44) with true. cbv iota. rewrite R'; [reflexivity|len].
  - intros a k b key s v A K B _ H. destruct (member_reads lone a k b key s v A K B H) as (P & St & M). split; [exact P|]. split; [exact St|].
    intros f r L. destruct f as [|f]; [len|]. cbn [read_members]. destruct (M (125 :: r)) as (r0 & r1 & E0 & E1 & E2). rewrite E0. change (34 =? 34) with true. cbv iota. rewrite E1, E2.
    change (58 =? 58) with true. cbv iota. destruct H as (Ps & _ & R).
    assert (Ls : (length (runes s) < length (runes (a ^^ k ^^ b ^^ ":" ^^ s)))%nat).
    { destruct (blank_runes _ A) as (Pa & _). destruct (blank_runes _ B) as (Pb & _). destruct (literal_read _ _ _ K) as (Pk & l & El & _). rewrite Pa, Pk, Pb. change (":" ^^ s) with (String ":" s). rewrite runes_ascii by reflexivity. len. }
    destruct (R f (125 :: r)) as (w & W & E); [lia|apply ends_brace|]. rewrite E, skip_spaces, unbytes_bytes by exact W. reflexivity.
  - intros a k b key s v s' m A K B _ H _ (P' & _ & R'). destruct (member_reads lone a k b key s v A K B H) as (P & St & M).
    assert (X : a ^^ k ^^ b ^^ ":" ^^ s ^^ "," ^^ s' = (a ^^ k ^^ b ^^ ":" ^^ s) ^^ "," ^^ s') by (rewrite !app_assoc_s; reflexivity). rewrite X. clear X.
    assert (Ls : (length (runes s) < length (runes (a ^^ k ^^ b ^^ ":" ^^ s)))%nat).
    { destruct (blank_runes _ A) as (Pa & _). destruct (blank_runes _ B) as (Pb & _). destruct (literal_read _ _ _ K) as (Pk & l & El & _). rewrite Pa, Pk, Pb. change (":" ^^ s) with (String ":" s). rewrite runes_ascii by reflexivity. len. }
    set (t := a ^^ k ^^ b ^^ ":" ^^ s) in *. clearbody t. split; [apply plainly_app; [exact P|apply plainly_app; [apply plainly_cons; reflexivity|exact P']]|].
    rewrite P. change ("," ^^ s') with (String "," s'). rewrite runes_ascii by reflexivity. change (N_of_ascii ",") with 44. split; [intros r; rewrite <- app_assoc; apply St|].
    intros f r L. destruct f as [|f]; [len|]. cbn [read_members]. rewrite <- app_assoc. cbn [app].
    destruct (M (44 :: runes s' ++ 125 :: r)) as (r0 & r1 & E0 & E1 & E2). rewrite E0. change (34 =? 34) with true. cbv iota. rewrite E1, E2. change (58 =? 58) with true. cbv iota.
    destruct H as (Ps & _ & R). destruct (R f (44 :: runes s' ++ 125 :: r)) as (w & W & E); [len|apply ends_comma|]. rewrite E, skip_spaces by exact W.
    change (skip (44 :: runes s' ++ 125 :: r)) with (44 :: runes s' ++ 125 :: r). cbv iota. change (44 =? 125) with false. change (44 =? 44) with true. cbv iota. rewrite R', unbytes_bytes; [reflexivity|len].
Qed.

Lemma text_parse lone s j : text_in lone s j -> parse s = Some j.
Proof.
  intros H. destruct (text_reads _ _ _ H) as (_ & _ & R). unfold parse. destruct (R (S (2 * length (runes s))) []) as (w & W & E); [lia|exact I|].
  rewrite app_nil_r in E. rewrite E. rewrite (skip_spaces w []) by exact W. reflexivity.
Qed.
