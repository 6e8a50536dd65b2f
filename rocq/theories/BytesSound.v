(* Proofs that nothing but JSON texts is read, and what is made of bytes that
   belong to no character. *)
From Coq Require Import NArith ZArith Ascii Lia.
From Verif Require Import Str SMap Json CodecModel CodecTables CodecSpec UnionModel UnionSpec OrdModel OrdSpec OrdProofs TextModel TextSpec TextProofs.
From Verif Require Import BytesSpec BytesModel BytesProofs BytesDocs.
Local Open Scope N_scope.

(* ---------- UTF-8 ---------- *)

Lemma encode2 c : 128 <= c -> c < 2048 -> encode c = [192 + c / 64; 128 + c mod 64].
Proof. intros A B. unfold encode. apply N.ltb_ge in A. apply N.ltb_lt in B. rewrite A, B. reflexivity. Qed.
Lemma encode3 c : 2048 <= c -> c < 65536 -> encode c = [224 + c / 4096; 128 + c / 64 mod 64; 128 + c mod 64].
Proof.
  intros A B. unfold encode. assert (X : (c <? 128) = false) by (apply N.ltb_ge; lia). apply N.ltb_ge in A. apply N.ltb_lt in B. rewrite X, A, B. reflexivity.
Qed.
Lemma encode4 c : 65536 <= c -> encode c = [240 + c / 262144; 128 + c / 4096 mod 64; 128 + c / 64 mod 64; 128 + c mod 64].
Proof.
  intros A. unfold encode. assert (X : (c <? 128) = false) by (apply N.ltb_ge; lia). assert (Y : (c <? 2048) = false) by (apply N.ltb_ge; lia). apply N.ltb_ge in A. rewrite X, Y, A. reflexivity.
Qed.

Lemma seq2_encode a b x : seq2 a b = Some x -> encode x = [a; b].
Proof.
  unfold seq2. destruct (_ && _) eqn:E; [|discriminate]. intros H. injection H as <-.
  apply andb_prop in E. destruct E as [E1 E2]. unfold tail in E2. apply between_iff in E1. apply between_iff in E2.
  rewrite encode2 by lia. repeat f_equal; lia.
Qed.
Lemma seq3_encode a b c x : seq3 a b c = Some x -> encode x = [a; b; c].
Proof.
  unfold seq3. destruct (_ && _) eqn:E; [|discriminate]. intros H. injection H as <-.
  apply andb_prop in E. destruct E as [E E3]. apply andb_prop in E. destruct E as [E1 E2]. unfold tail in E3. apply between_iff in E1. apply between_iff in E2. apply between_iff in E3.
  rewrite encode3 by (destruct (N.eqb_spec a 224), (N.eqb_spec a 237); lia).
  assert (B : 128 <= b <= 191) by (destruct (N.eqb_spec a 224), (N.eqb_spec a 237); lia). clear E2. repeat f_equal; lia.
Qed.
Lemma seq4_encode a b c d x : seq4 a b c d = Some x -> encode x = [a; b; c; d].
Proof.
  unfold seq4. destruct (_ && _) eqn:E; [|discriminate]. intros H. injection H as <-.
  apply andb_prop in E. destruct E as [E E4]. apply andb_prop in E. destruct E as [E E3]. apply andb_prop in E. destruct E as [E1 E2]. unfold tail in *.
  apply between_iff in E1. apply between_iff in E2. apply between_iff in E3. apply between_iff in E4.
  rewrite encode4 by (destruct (N.eqb_spec a 240), (N.eqb_spec a 244); lia).
  assert (B : 128 <= b <= 191) by (destruct (N.eqb_spec a 240), (N.eqb_spec a 244); lia). clear E2. repeat f_equal; lia.
Qed.

Lemma decode_step a l : (exists c r, scalar c /\ a :: l = encode c ++ r /\ decode (a :: l) = Some c :: decode r) \/
  decode (a :: l) = None :: decode l.
Proof.
  assert (S : forall c r, a :: l = encode c ++ r -> decode (a :: l) = Some c :: decode r -> scalar c) by (intros c r _ H; apply (decode_scalar (a :: l)); rewrite H; left; reflexivity).
  assert (W : (exists c r, a :: l = encode c ++ r /\ decode (a :: l) = Some c :: decode r) \/ decode (a :: l) = None :: decode l);
    [|destruct W as [(c & r & A & B)|W]; [left; exists c, r; split; [exact (S c r A B)|split; assumption]|right; exact W]].
  clear S. cbn [decode]. destruct (N.ltb_spec a 128) as [A|A].
  { left. exists a, l. split; [|reflexivity]. unfold encode. apply N.ltb_lt in A. rewrite A. reflexivity. }
  destruct l as [|b l2]; [right; reflexivity|]. destruct (seq2 a b) as [x|] eqn:E2; [left; exists x, l2; split; [rewrite (seq2_encode _ _ _ E2); reflexivity|reflexivity]|].
  destruct l2 as [|c l3]; [right; reflexivity|]. destruct (seq3 a b c) as [x|] eqn:E3; [left; exists x, l3; split; [rewrite (seq3_encode _ _ _ _ E3); reflexivity|reflexivity]|].
  destruct l3 as [|d l4]; [right; reflexivity|]. destruct (seq4 a b c d) as [x|] eqn:E4; [left; exists x, l4; split; [rewrite (seq4_encode _ _ _ _ _ E4); reflexivity|reflexivity]|].
  right. reflexivity.
Qed.

Lemma repair_runes s : repair s = str (runes s).
Proof. unfold repair, str, runes. induction (decode (bytes s)) as [|r l IH]; [reflexivity|]. cbn [map flat_map]. rewrite !unbytes_app, IH. reflexivity. Qed.

Lemma decode_repaired : forall n l, (length l <= n)%nat -> Forall (fun b => b < 256) l ->
  repaired (unbytes l) (unbytes (flat_map (fun r => encode (match r with Some c => c | None => 65533 end)) (decode l))).
Proof.
  induction n as [|n IH]; intros l L B; [destruct l; [constructor|cbn [length] in L; lia]|].
  destruct l as [|a l]; [constructor|]. destruct (decode_step a l) as [(c & r & Sc & E & D)|D].
  - rewrite D, E. cbn [flat_map]. rewrite !unbytes_app, unbytes_encode. constructor; [exact Sc|]. rewrite E in B. apply Forall_app in B. apply IH; [|tauto].
    assert (X : (length (a :: l) = length (encode c) + length r)%nat) by (rewrite E, app_length; reflexivity). assert (Y : (1 <= length (encode c))%nat).
    { unfold encode. destruct (c <? 128); [cbn; lia|]. destruct (c <? 2048); [cbn; lia|]. destruct (c <? 65536); cbn; lia. } lia.
  - rewrite D. cbn [flat_map]. rewrite unbytes_app, unbytes_encode. cbn [unbytes]. apply rp_byte.
    + intros c r Sc E. change (String (ascii_of_N a) (unbytes l)) with (unbytes (a :: l)) in E. apply (f_equal bytes) in E.
      rewrite bytes_unbytes, bytes_app, bytes_utf8 in E by assumption. rewrite E, decode_encode in D by exact Sc. discriminate D.
    + apply IH; [cbn [length] in L; lia|]. inversion B; assumption.
Qed.
Lemma repair_repaired s : repaired s (repair s).
Proof. unfold repair. rewrite <- (unbytes_bytes s) at 1. apply (decode_repaired (length (bytes s))); [lia|apply bytes_small]. Qed.

Lemma utf8_not_empty c s : utf8 c ^^ s <> "".
Proof. unfold utf8. destruct (c <? 128); [discriminate|]. destruct (c <? 2048); [discriminate|]. destruct (c <? 65536); discriminate. Qed.
Lemma utf8_inj c c' s s' : scalar c -> scalar c' -> utf8 c ^^ s = utf8 c' ^^ s' -> c = c' /\ s = s'.
Proof.
  intros Sc Sc' E. assert (D : decode (bytes (utf8 c ^^ s)) = decode (bytes (utf8 c' ^^ s'))) by (rewrite E; reflexivity).
  rewrite !bytes_app, !bytes_utf8, !decode_encode in D by assumption. injection D as -> _. split; [reflexivity|].
  apply (f_equal bytes) in E. rewrite !bytes_app in E. apply app_inv_head in E. rewrite <- (unbytes_bytes s), E, unbytes_bytes. reflexivity.
Qed.

Lemma repaired_one s x y : repaired s x -> repaired s y -> x = y.
Proof.
  intros H. revert y. induction H as [|c s x Sc H IH|a s x N H IH]; intros y R.
  - inversion R as [|c s' x' Sc' _ E|]; [reflexivity|]. exfalso. exact (utf8_not_empty _ _ E).
  - remember (utf8 c ^^ s) as t eqn:T. destruct R as [|c' s' x' Sc' R|a s' x' N R].
    + exfalso. exact (utf8_not_empty _ _ (eq_sym T)).
    + destruct (utf8_inj _ _ _ _ Sc' Sc T) as [-> ->]. rewrite (IH _ R). reflexivity.
    + exfalso. exact (N _ _ Sc T).
  - remember (String a s) as t eqn:T. destruct R as [|c' s' x' Sc' R|a' s' x' N' R].
    + discriminate T.
    + exfalso. exact (N _ _ Sc' eq_refl).
    + injection T as -> ->. rewrite (IH _ R). reflexivity.
Qed.
Lemma repaired_is s x : repaired s x -> x = repair s.
Proof. intros H. exact (repaired_one _ _ _ H (repair_repaired s)). Qed.
Lemma repaired_valid_out s x : repaired s x -> valid x.
Proof. intros H. rewrite (repaired_is _ _ H). apply repair_valid. Qed.
Lemma repaired_same s x : valid s -> repaired s x -> x = s.
Proof. intros V H. rewrite (repaired_is _ _ H). apply repair_same. exact V. Qed.

Lemma runes_scalar s : Forall scalar (runes s).
Proof.
  unfold runes. apply Forall_forall. intros c I. apply in_map_iff in I. destruct I as (r & E & I). destruct r as [x|]; [subst x; exact (decode_scalar _ _ I)|]. subst c. right. lia.
Qed.
Lemma runes_repair s : runes (repair s) = runes s.
Proof. rewrite repair_runes. apply runes_str. apply runes_scalar. Qed.
Lemma parse_repair s : parse (repair s) = parse s.
Proof. unfold parse. rewrite runes_repair. reflexivity. Qed.

(* ---------- white space ---------- *)

Lemma str_nil : str [] = "".
Proof. reflexivity. Qed.
Lemma skip_sound l : exists w, l = w ++ skip l /\ blank (str w).
Proof.
  induction l as [|c l (w & E & B)]; [exists []; split; [reflexivity|constructor]|]. cbn [skip]. destruct (space c) eqn:S; [|exists []; split; [reflexivity|constructor]].
  exists (c :: w). split; [cbn [app]; f_equal; exact E|]. assert (I : In c [32; 9; 10; 13]).
  { unfold space in S. apply Bool.orb_prop in S. destruct S as [S|S]; [apply Bool.orb_prop in S; destruct S as [S|S]; [apply Bool.orb_prop in S; destruct S as [S|S]|]|]; apply N.eqb_eq in S; subst c; cbn [In]; tauto. }
  assert (X : str (c :: w) = byte c ^^ str w). { cbn [In] in I. destruct I as [<-|[<-|[<-|[<-|[]]]]]; rewrite str_ascii by reflexivity; reflexivity. }
  rewrite X. constructor; assumption.
Qed.

(* ---------- strings ---------- *)

Lemma unescape_In e x : unescape e = Some x -> e < 128 /\ In (str [e], x) escapes.
Proof.
  unfold unescape. intros H.
  assert (C : (e = 34 /\ x = 34) \/ (e = 92 /\ x = 92) \/ (e = 47 /\ x = 47) \/ (e = 98 /\ x = 8) \/ (e = 102 /\ x = 12) \/ (e = 110 /\ x = 10) \/ (e = 114 /\ x = 13) \/ (e = 116 /\ x = 9)).
  { destruct (N.eqb_spec e 34); [injection H as <-; tauto|]. destruct (N.eqb_spec e 92); [injection H as <-; tauto|]. destruct (N.eqb_spec e 47); [injection H as <-; tauto|].
    cbn [orb] in H. destruct (N.eqb_spec e 98); [injection H as <-; tauto|]. destruct (N.eqb_spec e 102); [injection H as <-; tauto|]. destruct (N.eqb_spec e 110); [injection H as <-; tauto|].
    destruct (N.eqb_spec e 114); [injection H as <-; tauto|]. destruct (N.eqb_spec e 116); [injection H as <-; tauto|discriminate H]. }
  clear H. cbn [escapes In]. destruct C as [[E X]|[[E X]|[[E X]|[[E X]|[[E X]|[[E X]|[[E X]|[E X]]]]]]]]; subst e x; (split; [reflexivity|]); cbv; tauto.
Qed.

Lemma add_some c r x t : add_rune c r = Some (x, t) -> exists y, r = Some (y, t) /\ x = encode c ++ y.
Proof. unfold add_rune. destruct r as [[y l]|]; [|discriminate]. intros H. injection H as <- <-. exists y. split; reflexivity. Qed.

Lemma str6 a b c d l : str (92 :: 117 :: a :: b :: c :: d :: l) = "\u" ^^ str [a; b; c; d] ^^ str l.
Proof. change (92 :: 117 :: a :: b :: c :: d :: l) with ([92; 117] ++ [a; b; c; d] ++ l). rewrite !str_app. reflexivity. Qed.

Lemma surrogate_iff c : surrogate c = true <-> 55296 <= c <= 57343.
Proof. apply between_iff. Qed.

(* The escape of a half is not followed by the other one. *)
Lemma lone_half u b0 : Forall scalar b0 ->
  (forall a b c d rest u', b0 = 92 :: 117 :: a :: b :: c :: d :: rest -> u4 a b c d = Some u' -> pair u u' = None) -> 55296 <= u ->
  forall h' b s', u < 56320 -> hex4 h' (56320 + b) -> b < 1024 -> str b0 <> "\u" ^^ h' ^^ s'.
Proof.
  intros F P U h' b s' L H B E. destruct (hex4_runes _ _ H) as (Ph & x & y & z & w & Rh & Uh).
  assert (R : b0 = 92 :: 117 :: x :: y :: z :: w :: runes s').
  { rewrite <- (runes_str b0 F), E. change ("\u" ^^ h' ^^ s') with (String "\" (String "u" (h' ^^ s'))). rewrite !runes_ascii by reflexivity. rewrite Ph, Rh. reflexivity. }
  specialize (P _ _ _ _ _ _ R Uh). unfold pair in P. replace (between 55296 u 56319) with true in P by (symmetry; apply between_iff; lia).
  replace (between 56320 (56320 + b) 57343) with true in P by (symmetry; apply between_iff; lia). discriminate P.
Qed.

Lemma read_string_sound : forall n l x r, (length l <= n)%nat -> Forall scalar l -> read_string l = Some (x, r) ->
  exists b, l = b ++ 34 :: r /\ chars_in true (str b) (unbytes x).
Proof.
  induction n as [|n IH]; intros l x r L F H; [destruct l; [discriminate H|cbn [length] in L; lia]|].
  destruct l as [|c l]; [discriminate H|]. cbn [length] in L. inversion F as [|? ? Sc F']; subst. cbn [read_string] in H.
  destruct (N.eqb_spec c 34) as [->|N34]; [injection H as <- <-; exists []; split; [reflexivity|constructor]|].
  destruct (N.eqb_spec c 92) as [->|N92].
  2:{ destruct (N.ltb_spec c 32) as [|C]; [discriminate H|]. destruct (add_some _ _ _ _ H) as (y & E & ->). destruct (IH l y r) as (b & El & Cb); [lia|exact F'|exact E|].
      exists (c :: b). split; [cbn [app]; f_equal; exact El|]. rewrite str_cons, unbytes_app, unbytes_encode. apply ch_plain; assumption. }
  destruct l as [|e l]; [discriminate H|]. inversion F' as [|? ? Se F1]; subst. cbn [length] in L. destruct (N.eqb_spec e 117) as [->|N117].
  2:{ destruct (unescape e) as [c|] eqn:U; [|discriminate H]. destruct (add_some _ _ _ _ H) as (y & E & ->). destruct (IH l y r) as (b & El & Cb); [lia|exact F1|exact E|].
      destruct (unescape_In _ _ U) as [Le I]. exists (92 :: e :: b). split; [cbn [app]; do 2 f_equal; exact El|].
      change (92 :: e :: b) with ([92] ++ [e] ++ b). rewrite (str_app [92]), (str_app [e]), unbytes_app, unbytes_encode. change (str [92]) with "\". apply ch_escape; assumption. }
  destruct l as [|a [|b [|c [|d r2]]]]; try discriminate H. cbn [length] in L. destruct (u4 a b c d) as [u|] eqn:U; [|discriminate H].
  destruct (u4_hex _ _ _ _ _ U) as [_ Hx]. assert (F2 : Forall scalar r2) by (repeat match goal with X : Forall scalar (_ :: _) |- _ => inversion X; clear X; subst end; assumption).
  assert (Plain : forall y, read_string r2 = Some (y, r) -> exists b0, r2 = b0 ++ 34 :: r /\ chars_in true (str b0) (unbytes y)) by (intros y E; apply (IH r2); [lia|exact F2|exact E]).
  destruct (surrogate u) eqn:Su.
  2:{ destruct (add_some _ _ _ _ H) as (y & E & ->). destruct (Plain _ E) as (b0 & El & Cb). exists (92 :: 117 :: a :: b :: c :: d :: b0). split; [cbn [app]; rewrite El; reflexivity|].
      rewrite str6, unbytes_app, unbytes_encode. apply ch_u; [exact Hx| |exact Cb]. unfold surrogate in Su. unfold scalar.
      pose proof (hex4_small _ _ Hx). destruct (N.lt_ge_cases u 55296); [left; assumption|right]. destruct (N.lt_ge_cases u 57344) as [L1|L1]; [|lia].
      exfalso. assert (X : between 55296 u 57343 = true) by (apply between_iff; lia). congruence. }
  apply surrogate_iff in Su.
  assert (Lone : (forall a b c d rest u', r2 = 92 :: 117 :: a :: b :: c :: d :: rest -> u4 a b c d = Some u' -> pair u u' = None) -> add_rune 65533 (read_string r2) = Some (x, r) ->
    exists b1, 92 :: 117 :: a :: b :: c :: d :: r2 = b1 ++ 34 :: r /\ chars_in true (str b1) (unbytes x)).
  { intros P A. destruct (add_some _ _ _ _ A) as (y & E & ->). destruct (Plain _ E) as (b0 & El & Cb). exists (92 :: 117 :: a :: b :: c :: d :: b0). split; [cbn [app]; rewrite El; reflexivity|].
    rewrite str6, unbytes_app, unbytes_encode. apply (ch_lone (str [a; b; c; d]) u); [reflexivity|exact Hx|unfold scalar; lia| |exact Cb].
    apply lone_half; [rewrite El in F2; apply Forall_app in F2; tauto| |lia].
    intros a' b' c' d' rest u' Eb. rewrite Eb in El. intros U'. exact (P _ _ _ _ _ _ El U'). }
  destruct r2 as [|x1 [|y1 [|a' [|b' [|c' [|d' r3]]]]]]; try (apply Lone; [intros; discriminate|exact H]).
  destruct ((x1 =? 92) && (y1 =? 117)) eqn:E2.
  2:{ apply Lone; [|exact H]. intros ? ? ? ? ? ? E. injection E as -> -> _. discriminate E2. }
  apply andb_prop in E2. destruct E2 as [Ex Ey]. apply N.eqb_eq in Ex, Ey. subst x1 y1.
  destruct (u4 a' b' c' d') as [u'|] eqn:U'.
  2:{ apply Lone; [|exact H]. intros ? ? ? ? ? ? E V. injection E as -> -> -> -> _. congruence. }
  destruct (pair u u') as [v|] eqn:Pv.
  2:{ apply Lone; [|exact H]. intros ? ? ? ? ? ? E V. injection E as -> -> -> -> _. congruence. }
  destruct (add_some _ _ _ _ H) as (y & E & ->). cbn [length] in L.
  assert (F3 : Forall scalar r3) by (clear F F' F1; repeat match goal with X : Forall scalar (_ :: _) |- _ => inversion X; clear X; subst end; assumption).
  destruct (IH r3 y r) as (b0 & El & Cb); [lia|exact F3|exact E|]. exists (92 :: 117 :: a :: b :: c :: d :: 92 :: 117 :: a' :: b' :: c' :: d' :: b0).
  split; [cbn [app]; rewrite El; reflexivity|]. rewrite !str6, unbytes_app, unbytes_encode. destruct (u4_hex _ _ _ _ _ U') as [_ Hx'].
  unfold pair in Pv. destruct (between 55296 u 56319 && between 56320 u' 57343) eqn:Bt; [|discriminate Pv]. injection Pv as <-. apply andb_prop in Bt. destruct Bt as [B1 B2]. apply between_iff in B1, B2.
  replace ((u - 55296) * 1024 + (u' - 56320) + 65536) with (65536 + (u - 55296) * 1024 + (u' - 56320)) by lia.
  apply ch_pair; [replace (55296 + (u - 55296)) with u by lia; exact Hx|replace (56320 + (u' - 56320)) with u' by lia; exact Hx'|lia|lia|exact Cb].
Qed.

(* ---------- numbers ---------- *)

Lemma span_sound l d r : span l = (d, r) -> l = d ++ r /\ Forall (fun c => is_digit c = true) d.
Proof.
  revert d r. induction l as [|c l IH]; intros d r H; cbn [span] in H; [injection H as <- <-; split; [reflexivity|constructor]|].
  destruct (is_digit c) eqn:D; [|injection H as <- <-; split; [reflexivity|constructor]]. destruct (span l) as [d' r'] eqn:E. injection H as <- <-. destruct (IH _ _ eq_refl) as [-> F].
  split; [reflexivity|constructor; assumption].
Qed.
Lemma is_digit_digit c : is_digit c = true -> c < 128 /\ digit (ascii_of_N c) (Z.of_N c - 48).
Proof.
  unfold is_digit. rewrite between_iff. intros H. split; [lia|]. replace c with (48 + (c - 48)) at 1 by lia. replace (Z.of_N c - 48)%Z with (Z.of_N (c - 48)) by lia. apply digit_of. lia.
Qed.
Lemma digits_sound d : Forall (fun c => is_digit c = true) d -> d <> [] -> digits (str d) (value 0 d) (length d).
Proof.
  induction d as [|c d IH] using rev_ind; intros F NE; [congruence|]. apply Forall_app in F. destruct F as [F Fc]. inversion Fc as [|? ? Hc _]; subst. destruct (is_digit_digit _ Hc) as [Lc Dc].
  rewrite str_app, value_app, app_length. cbn [length]. rewrite Nat.add_1_r. rewrite (str_ascii c []) by exact Lc. change (str []) with "".
  destruct d as [|c0 d]; [cbn [str flat_map unbytes length]; change (value (value 0 []) [c]) with (10 * 0 + (Z.of_N c - 48))%Z; rewrite Z.mul_0_r, Z.add_0_l; constructor; exact Dc|].
  change (value (value 0 (c0 :: d)) [c]) with (10 * value 0 (c0 :: d) + (Z.of_N c - 48))%Z. constructor; [apply IH; [exact F|discriminate]|exact Dc].
Qed.

Lemma integral_sound l i r : read_integral l = Some (i, r) -> l = i ++ r /\ integral (str i) (value 0 i).
Proof.
  destruct l as [|c l]; [discriminate|]. cbn [read_integral]. destruct (N.eqb_spec c 48) as [->|N].
  - intros H. injection H as <- <-. split; [reflexivity|]. exact in_zero.
  - destruct (is_digit c) eqn:D; [|discriminate]. intros H0. assert (H : span (c :: l) = (i, r)) by congruence. clear H0. destruct (span_sound _ _ _ H) as [E F]. split; [exact E|].
    cbn [span] in H. rewrite D in H. destruct (span l) as [d r'] eqn:Es. injection H as <- <-. destruct (is_digit_digit _ D) as [Lc _].
    pose proof (digits_sound _ F ltac:(discriminate)) as Dg. rewrite str_ascii in * by exact Lc. apply (in_digits _ _ _ _ Dg).
    intros X. apply N. rewrite <- (N_ascii_embedding c) by lia. rewrite X. reflexivity.
Qed.
Lemma fraction_sound l f r : read_fraction l = Some (f, r) -> exists b, l = b ++ r /\ fraction (str b) (inject_Z (value 0 f) / inject_Z (10 ^ Z.of_nat (length f))).
Proof.
  destruct l as [|c l]; cbn [read_fraction]; [intros H; injection H as <- <-; exists []; split; [reflexivity|exact fr_none]|].
  destruct (N.eqb_spec c 46) as [->|N]; [|intros H; injection H as <- <-; exists []; split; [reflexivity|exact fr_none]].
  destruct (span l) as [[|x d] r'] eqn:E; [discriminate|]. intros H. injection H as <- <-. destruct (span_sound _ _ _ E) as [-> F]. exists (46 :: x :: d). split; [reflexivity|].
  rewrite str_ascii by reflexivity. change (String (ascii_of_N 46) (str (x :: d))) with ("." ^^ str (x :: d)). apply fr_some. apply digits_sound; [exact F|discriminate].
Qed.
Lemma exponent_sound l e r : read_exponent l = Some (e, r) -> exists b, l = b ++ r /\ exponent (str b) e.
Proof.
  destruct l as [|c l]; cbn [read_exponent]; [intros H; injection H as <- <-; exists []; split; [reflexivity|exact ex_none]|].
  destruct ((c =? 101) || (c =? 69)) eqn:C; [|intros H; injection H as <- <-; exists []; split; [reflexivity|exact ex_none]].
  assert (Ce : c < 128 /\ In (str [c]) ["e"; "E"]).
  { apply Bool.orb_prop in C. destruct C as [C|C]; apply N.eqb_eq in C; subst c; split; [reflexivity|left; reflexivity|reflexivity|right; left; reflexivity]. }
  destruct Ce as [Lc Ic].
  assert (Plus : forall p l1, In (str p) [""; "+"] -> match span l1 with ([], _) => None | (d, r2) => Some ((1 * value 0 d)%Z, r2) end = Some (e, r) ->
    exists b, c :: p ++ l1 = b ++ r /\ exponent (str b) e).
  { intros p l1 Ip H. destruct (span l1) as [[|x d] r2] eqn:E; [discriminate|]. assert (He : e = (1 * value 0 (x :: d))%Z) by congruence. assert (r2 = r) by congruence. subst r2 e. destruct (span_sound _ _ _ E) as [-> F]. exists (c :: p ++ x :: d). split; [cbn [app]; rewrite <- app_assoc; reflexivity|].
    change (c :: p ++ x :: d) with ([c] ++ p ++ x :: d). rewrite !str_app. rewrite Z.mul_1_l. apply (ex_plus _ _ _ _ _ Ic Ip (digits_sound _ F ltac:(discriminate))). }
  destruct l as [|p l]; [cbn [span]; discriminate|]. destruct (N.eqb_spec p 43) as [->|N43]; [intros H; exact (Plus [43] l (or_intror (or_introl eq_refl)) H)|].
  destruct (N.eqb_spec p 45) as [->|N45]; [|intros H; exact (Plus [] (p :: l) (or_introl eq_refl) H)].
  intros H. destruct (span l) as [[|x d] r2] eqn:E; [discriminate|]. assert (He : e = (- value 0 (x :: d))%Z) by (replace e with (-1 * value 0 (x :: d))%Z by congruence; lia). assert (r2 = r) by congruence. subst r2 e. destruct (span_sound _ _ _ E) as [-> F]. exists (c :: 45 :: x :: d). split; [reflexivity|].
  change (c :: 45 :: x :: d) with ([c] ++ [45] ++ x :: d). rewrite !str_app. change (str [45]) with "-". apply (ex_minus _ _ _ _ Ic (digits_sound _ F ltac:(discriminate))).
Qed.
Lemma number_sound l q r : read_number l = Some (q, r) -> exists b, l = b ++ r /\ numeral (str b) q.
Proof.
  assert (Core : forall sg l, match read_integral l with None => None | Some (i, l1) => match read_fraction l1 with None => None | Some (f, l2) => match read_exponent l2 with None => None
      | Some (e, l3) => Some (Qred (inject_Z (sg * value (value 0 i) f) * Qpower 10 (e - Z.of_nat (length f))), l3) end end end = Some (q, r) ->
    exists bi bf be z qf x, l = bi ++ bf ++ be ++ r /\ integral (str bi) z /\ fraction (str bf) qf /\ exponent (str be) x /\ q = Qred (inject_Z sg * ((inject_Z z + qf) * Qpower 10 x))).
  { clear l. intros sg l H. destruct (read_integral l) as [[i l1]|] eqn:E1; [|discriminate]. destruct (read_fraction l1) as [[f l2]|] eqn:E2; [|discriminate]. destruct (read_exponent l2) as [[e l3]|] eqn:E3; [|discriminate].
    assert (Hq : q = Qred (inject_Z (sg * value (value 0 i) f) * Qpower 10 (e - Z.of_nat (length f)))) by congruence. assert (l3 = r) by congruence. subst l3 q. clear H. destruct (integral_sound _ _ _ E1) as [-> I]. destruct (fraction_sound _ _ _ E2) as (bf & -> & F). destruct (exponent_sound _ _ _ E3) as (be & -> & X).
    exists i, bf, be. do 3 eexists. split; [reflexivity|]. split; [exact I|]. split; [exact F|]. split; [exact X|]. apply Qred_complete. rewrite inject_Z_mult, <- Qmult_assoc, number_value. reflexivity. }
  unfold read_number. intros H. destruct l as [|c l].
  { discriminate H. }
  destruct (N.eqb_spec c 45) as [->|N].
  - destruct (Core (-1)%Z l H) as (bi & bf & be & z & qf & x & -> & I & F & X & ->). exists (45 :: bi ++ bf ++ be). split; [cbn [app]; rewrite <- !app_assoc; reflexivity|].
    rewrite str_ascii by reflexivity. rewrite !str_app. change (String (ascii_of_N 45) (str bi ^^ str bf ^^ str be)) with ("-" ^^ str bi ^^ str bf ^^ str be).
    replace (Qred (inject_Z (-1) * ((inject_Z z + qf) * Qpower 10 x))) with (Qred (- ((inject_Z z + qf) * Qpower 10 x))) by (apply Qred_complete; change (inject_Z (-1)) with (-(1))%Q; ring). apply nu_minus; assumption.
  - destruct (Core 1%Z (c :: l) H) as (bi & bf & be & z & qf & x & -> & I & F & X & ->). exists (bi ++ bf ++ be). split; [rewrite <- !app_assoc; reflexivity|].
    rewrite !str_app. replace (Qred (inject_Z 1 * ((inject_Z z + qf) * Qpower 10 x))) with (Qred ((inject_Z z + qf) * Qpower 10 x)) by (apply Qred_complete; change (inject_Z 1) with 1%Q; ring). apply nu_plus; assumption.
Qed.

(* ---------- values ---------- *)

Lemma prefix_sound p l r : prefix p l = Some r -> l = p ++ r.
Proof.
  revert l. induction p as [|a p IH]; intros l H; [injection H as ->; reflexivity|]. destruct l as [|b l]; [discriminate H|]. cbn [prefix] in H. destruct (N.eqb_spec a b) as [->|]; [|discriminate H].
  cbn [app]. f_equal. exact (IH _ H).
Qed.
Lemma blanked w b w' j : blank (str w) -> text_in true (str b) j -> blank (str w') -> text_in true (str (w ++ b ++ w')) j.
Proof. intros A T B. rewrite !str_app. apply x_blank; assumption. Qed.
Lemma before w b j : blank (str w) -> text_in true (str b) j -> text_in true (str (w ++ b)) j.
Proof. intros A T. rewrite <- (app_nil_r b). apply blanked; [exact A|exact T|exact bl_nil]. Qed.
Lemma behind b w j : text_in true (str b) j -> blank (str w) -> text_in true (str (b ++ w)) j.
Proof. intros T B. apply (blanked [] b w j); [exact bl_nil|exact T|exact B]. Qed.
Lemma bracketed a z l : a < 128 -> z < 128 -> str (a :: l ++ [z]) = byte a ^^ str l ^^ byte z.
Proof. intros A Z. rewrite str_ascii by exact A. rewrite str_app, (str_ascii z []) by exact Z. reflexivity. Qed.

Lemma sound : forall fuel,
  (forall l j r, Forall scalar l -> read_value fuel l = Some (j, r) -> exists b, l = b ++ r /\ text_in true (str b) j) /\
  (forall l v r, Forall scalar l -> read_elements fuel l = Some (v, r) -> exists b, l = b ++ 93 :: r /\ elements_in true (str b) v) /\
  (forall l m r, Forall scalar l -> read_members fuel l = Some (m, r) -> exists b, l = b ++ 125 :: r /\ members_in true (str b) m).
Proof.
  assert (Fa : forall a b : list N, Forall scalar (a ++ b) -> Forall scalar b) by (intros a b H; apply Forall_app in H; tauto).
  induction fuel as [|fuel (IV & IE & IM)]; [split; [|split]; intros; discriminate|]. split; [|split].
  - intros l j r F H. cbn [read_value] in H. destruct (skip_sound l) as (w & El & W). destruct (skip l) as [|c t] eqn:Es; [discriminate H|].
    assert (Ft : Forall scalar t) by (rewrite El in F; apply Fa in F; inversion F; assumption).
    assert (Done : forall b, c :: t = b ++ r -> text_in true (str b) j -> exists b, l = b ++ r /\ text_in true (str b) j).
    { intros b E T. exists (w ++ b). split; [rewrite El, E, app_assoc; reflexivity|]. apply before; assumption. }
    clear El Es. destruct (N.eqb_spec c 123) as [->|N1].
    { destruct (skip_sound t) as (w2 & E2 & W2). destruct (skip t) as [|c' t'] eqn:Es2; [discriminate H|]. destruct (N.eqb_spec c' 125) as [->|N2].
      - injection H as <- <-. apply (Done (123 :: w2 ++ [125])); [rewrite E2; cbn [app]; rewrite <- app_assoc; reflexivity|]. rewrite bracketed by reflexivity. exact (x_obj0 _ W2).
      - destruct (read_members fuel t) as [[m r'']|] eqn:R; [|discriminate H]. injection H as <- <-. destruct (IM _ _ _ Ft R) as (b & E & T).
        apply (Done (123 :: b ++ [125])); [rewrite E; cbn [app]; rewrite <- app_assoc; reflexivity|]. rewrite bracketed by reflexivity. exact (x_obj _ _ T). }
    destruct (N.eqb_spec c 91) as [->|N2].
    { destruct (skip_sound t) as (w2 & E2 & W2). destruct (skip t) as [|c' t'] eqn:Es2; [discriminate H|]. destruct (N.eqb_spec c' 93) as [->|N3].
      - injection H as <- <-. apply (Done (91 :: w2 ++ [93])); [rewrite E2; cbn [app]; rewrite <- app_assoc; reflexivity|]. rewrite bracketed by reflexivity. exact (x_arr0 _ W2).
      - destruct (read_elements fuel t) as [[m r'']|] eqn:R; [|discriminate H]. injection H as <- <-. destruct (IE _ _ _ Ft R) as (b & E & T).
        apply (Done (91 :: b ++ [93])); [rewrite E; cbn [app]; rewrite <- app_assoc; reflexivity|]. rewrite bracketed by reflexivity. exact (x_arr _ _ T). }
    destruct (N.eqb_spec c 34) as [->|N3].
    { destruct (read_string t) as [[x r']|] eqn:R; [|discriminate H]. injection H as <- <-. destruct (read_string_sound (length t) _ _ _ (le_n _) Ft R) as (b & E & T).
      apply (Done (34 :: b ++ [34])); [rewrite E; cbn [app]; rewrite <- app_assoc; reflexivity|]. rewrite bracketed by reflexivity. apply x_str. exists (str b). split; [exact T|reflexivity]. }
    destruct (N.eqb_spec c 110) as [->|N4].
    { destruct (prefix [117; 108; 108] t) as [r'|] eqn:R; [|discriminate H]. injection H as <- <-. apply (Done [110; 117; 108; 108]); [rewrite (prefix_sound _ _ _ R); reflexivity|exact x_null]. }
    destruct (N.eqb_spec c 116) as [->|N5].
    { destruct (prefix [114; 117; 101] t) as [r'|] eqn:R; [|discriminate H]. injection H as <- <-. apply (Done [116; 114; 117; 101]); [rewrite (prefix_sound _ _ _ R); reflexivity|exact x_true]. }
    destruct (N.eqb_spec c 102) as [->|N6].
    { destruct (prefix [97; 108; 115; 101] t) as [r'|] eqn:R; [|discriminate H]. injection H as <- <-. apply (Done [102; 97; 108; 115; 101]); [rewrite (prefix_sound _ _ _ R); reflexivity|exact x_false]. }
    destruct (read_number (c :: t)) as [[q r']|] eqn:R; [|discriminate H]. injection H as <- <-. destruct (number_sound _ _ _ R) as (b & E & T). apply (Done b E). apply x_num. exact T.
  - intros l vs r F H. cbn [read_elements] in H. destruct (read_value fuel l) as [[v t]|] eqn:R; [|discriminate H]. destruct (IV _ _ _ F R) as (b & -> & T).
    destruct (skip_sound t) as (w & Et & W). destruct (skip t) as [|c t'] eqn:Es; [discriminate H|]. apply Fa in F. destruct (N.eqb_spec c 93) as [->|N1].
    + injection H as <- <-. exists (b ++ w). split; [rewrite Et, <- app_assoc; reflexivity|]. apply xe_one. apply behind; assumption.
    + destruct (N.eqb_spec c 44) as [->|N2]; [|discriminate H]. destruct (read_elements fuel t') as [[vs' r'']|] eqn:R2; [|discriminate H]. injection H as <- <-.
      rewrite Et in F. apply Fa in F. pose proof (Forall_inv_tail F) as Ft'. destruct (IE _ _ _ Ft' R2) as (b2 & E2 & T2). exists ((b ++ w) ++ 44 :: b2).
      split; [rewrite Et, E2; rewrite <- !app_assoc; reflexivity|]. rewrite (str_app (b ++ w)), (str_ascii 44) by reflexivity. change (String (ascii_of_N 44) (str b2)) with ("," ^^ str b2).
      apply xe_more; [apply behind; assumption|exact T2].
  - intros l m r F H. cbn [read_members] in H. destruct (skip_sound l) as (w & El & W). destruct (skip l) as [|q t] eqn:Es; [discriminate H|]. rewrite El in F. apply Fa in F. pose proof (Forall_inv_tail F) as Ft.
    destruct (N.eqb_spec q 34) as [->|]; [|discriminate H]. destruct (read_string t) as [[k r1]|] eqn:R; [|discriminate H]. destruct (read_string_sound (length t) _ _ _ (le_n _) Ft R) as (bk & -> & Tk).
    apply Fa in Ft. pose proof (Forall_inv_tail Ft) as Fr1. destruct (skip_sound r1) as (w1 & E1 & W1). destruct (skip r1) as [|c r2] eqn:Es1; [discriminate H|]. destruct (N.eqb_spec c 58) as [->|]; [|discriminate H].
    rewrite E1 in Fr1. apply Fa in Fr1. pose proof (Forall_inv_tail Fr1) as Fr2. destruct (read_value fuel r2) as [[v r3]|] eqn:Rv; [|discriminate H]. destruct (IV _ _ _ Fr2 Rv) as (b & -> & T).
    destruct (skip_sound r3) as (w3 & E3 & W3). destruct (skip r3) as [|c r4] eqn:Es3; [discriminate H|]. apply Fa in Fr2.
    assert (K : literal_in true (str (34 :: bk ++ [34])) (unbytes k)) by (rewrite bracketed by reflexivity; exists (str bk); split; [exact Tk|reflexivity]).
    destruct (N.eqb_spec c 125) as [->|N1].
    + injection H as <- <-. exists (w ++ (34 :: bk ++ [34]) ++ w1 ++ [58] ++ (b ++ w3)). split; [rewrite El, E1, E3; do 4 (cbn [app]; rewrite <- ?app_assoc); reflexivity|].
      rewrite (str_app w), (str_app (34 :: bk ++ [34])), (str_app w1), (str_app [58]). change (str [58]) with ":". apply xm_one; [exact W|exact K|exact W1|apply behind; assumption].
    + destruct (N.eqb_spec c 44) as [->|]; [|discriminate H]. destruct (read_members fuel r4) as [[vs' r'']|] eqn:R2; [|discriminate H]. injection H as <- <-.
      rewrite E3 in Fr2. apply Fa in Fr2. pose proof (Forall_inv_tail Fr2) as Fr4. destruct (IM _ _ _ Fr4 R2) as (b2 & E2 & T2). exists (w ++ (34 :: bk ++ [34]) ++ w1 ++ [58] ++ (b ++ w3) ++ [44] ++ b2).
      split; [rewrite El, E1, E3, E2; do 4 (cbn [app]; rewrite <- ?app_assoc); reflexivity|].
      rewrite (str_app w), (str_app (34 :: bk ++ [34])), (str_app w1), (str_app [58]), (str_app (b ++ w3)), (str_app [44]). change (str [58]) with ":". change (str [44]) with ",".
      apply xm_more; [exact W|exact K|exact W1|apply behind; assumption|exact T2].
Qed.

Lemma parse_sound s j : parse s = Some j -> text_in true (repair s) j.
Proof.
  rewrite repair_runes. unfold parse. destruct (read_value _ _) as [[v r]|] eqn:R; [|discriminate]. destruct (skip_sound r) as (w & E & W). destruct (skip r) as [|]; [|discriminate]. intros H. injection H as <-.
  destruct (proj1 (sound _) _ _ _ (runes_scalar s) R) as (b & Eb & T). rewrite Eb, E, app_nil_r. apply behind; assumption.
Qed.
Lemma parse_exact s j : parse s = Some j <-> exists s', repaired s s' /\ text_in true s' j.
Proof.
  split.
  - intros H. exists (repair s). split; [apply repair_repaired|]. apply parse_sound. exact H.
  - intros (s' & R & T). rewrite <- parse_repair, <- (repaired_is _ _ R). exact (text_parse _ _ _ T).
Qed.

(* ---------- documents ---------- *)

Lemma text_one lone s j j' : text_in lone s j -> text_in lone s j' -> j = j'.
Proof. intros A B. apply text_parse in A. apply text_parse in B. congruence. Qed.

Lemma bytes_repaired rnd num_text T : numbers_ok rnd num_text -> numless T = true -> plain_parts T = true -> forall t v s, single v -> marshal_text T num_text quote t v = UOk s ->
  exists f g j j', (forall x, repaired x (f x)) /\ (forall q, rnd q = q \/ (exists z, q = inject_Z z /\ (-2 ^ 63 <= z < 2 ^ 63)%Z) -> g q = q) /\
    marshal T t v = Some j /\ reordered j j' /\ text s (jmap f g j') /\ parse s = Some (jmap f g j').
Proof.
  intros OK NL PP t v s S E. destruct (bytes_any rnd num_text OK T NL PP t v s S E) as (g & j & j' & G & M & R & X & P). exists repair, g, j, j'. split; [exact repair_repaired|].
  split; [exact G|]. split; [exact M|]. split; [exact R|]. split; assumption.
Qed.

Lemma unmarshal_exact T rnd o t s v : unmarshal_bytes T rnd o t s = Some v <-> exists s' j, repaired s s' /\ text_in true s' j /\ unmarshal_o T rnd o t j = Some v.
Proof.
  unfold unmarshal_bytes. split.
  - destruct (parse s) as [j|] eqn:P; [|discriminate]. intros U. apply parse_exact in P. destruct P as (s' & R & X). exists s', j. auto.
  - intros (s' & j & R & X & U). assert (P : parse s = Some j) by (apply parse_exact; exists s'; auto). rewrite P. exact U.
Qed.
