(* The scanner accepts what the recursive reader reads, if it is not too deep. *)
From Coq Require Import NArith ZArith Ascii Lia Bool.
From Verif Require Import Str Json CodecModel OrdModel BytesModel ScanModel ScanSpec.
Local Open Scope N_scope.

Definition conf (n : sname) (st : list pstate) : scanner := mkScan n st false false.

Lemma check_error : forall l st e, check (mkScan InError st e true) l = false.
Proof. intros [|c l] st e; reflexivity. Qed.

Lemma check_top : forall l st, check (mkScan EndTop st true false) l = match skip l with [] => true | _ => false end.
Proof.
  induction l as [|c l IH]; intros st; [reflexivity|]. cbn [check skip step sc_step]. unfold step, state_end_top. cbn [sc_step].
  destruct (space c); [apply IH|]. cbn [fst fail sc_stack sc_end]. apply check_error.
Qed.
Lemma check_end : forall l, check (conf EndValue []) l = match skip l with [] => true | _ => false end.
Proof.
  intros [|c l]; [reflexivity|]. rewrite <- (check_top (c :: l) []). reflexivity.
Qed.
(* popParseState leaves the state after a value *)
Lemma check_pop : forall p st n l, check (pop (mkScan n (p :: st) false false)) l = check (conf EndValue st) l.
Proof.
  intros p [|q st] n l; [|reflexivity]. unfold pop. cbn [sc_stack tl sc_err]. rewrite check_top, check_end. reflexivity.
Qed.

Lemma check_skip_bv : forall st l, check (conf BeginValue st) l = check (conf BeginValue st) (skip l).
Proof.
  intros st. induction l as [|c l IH]; [reflexivity|]. cbn [skip]. destruct (space c) eqn:S; [|reflexivity].
  rewrite <- IH. cbn [check]. unfold step, state_begin_value. cbn [sc_step conf]. rewrite S. reflexivity.
Qed.
Lemma check_bve : forall st l, check (conf BeginValueOrEmpty (ArrayValue :: st)) l =
  match skip l with [] => false | c :: r => if c =? 93 then check (conf EndValue st) r else check (conf BeginValue (ArrayValue :: st)) l end.
Proof.
  intros st. induction l as [|c l IH]; [reflexivity|]. cbn [skip]. destruct (space c) eqn:S.
  - cbn [check]. unfold step at 1. cbn [sc_step conf]. unfold state_begin_value_or_empty. rewrite S. rewrite IH.
    destruct (skip l) as [|d r]; [reflexivity|]. destruct (d =? 93); [reflexivity|].
    unfold step, state_begin_value. cbn [sc_step]. rewrite S. reflexivity.
  - cbn [check]. unfold step at 1. cbn [sc_step conf]. unfold state_begin_value_or_empty. rewrite S.
    destruct (c =? 93) eqn:E; [|unfold step, state_begin_value; cbn [sc_step]; rewrite S; destruct (c =? 123), (c =? 91), (c =? 34), (c =? 45), (c =? 48), (c =? 116), (c =? 102), (c =? 110), (between 49 c 57); reflexivity]. unfold state_end_value. cbn [sc_stack]. rewrite S. apply N.eqb_eq in E. subst c. cbn [N.eqb Pos.eqb].
    apply (check_pop ArrayValue st).
Qed.
Lemma check_skip_bs : forall st l, check (conf BeginString st) l = check (conf BeginString st) (skip l).
Proof.
  intros st. induction l as [|c l IH]; [reflexivity|]. cbn [skip]. destruct (space c) eqn:S; [|reflexivity].
  rewrite <- IH. cbn [check]. unfold step, state_begin_string. cbn [sc_step conf]. rewrite S. reflexivity.
Qed.
Lemma check_bse : forall st l, check (conf BeginStringOrEmpty (ObjectKey :: st)) l =
  match skip l with [] => false | c :: r => if c =? 125 then check (conf EndValue st) r else check (conf BeginString (ObjectKey :: st)) l end.
Proof.
  intros st. induction l as [|c l IH]; [reflexivity|]. cbn [skip]. destruct (space c) eqn:S.
  - cbn [check]. unfold step at 1. cbn [sc_step conf]. unfold state_begin_string_or_empty. rewrite S. rewrite IH.
    destruct (skip l) as [|d r]; [reflexivity|]. destruct (d =? 125); [reflexivity|].
    unfold step, state_begin_string. cbn [sc_step]. rewrite S. reflexivity.
  - cbn [check]. unfold step at 1. cbn [sc_step conf]. unfold state_begin_string_or_empty. rewrite S.
    destruct (c =? 125) eqn:E; [|unfold step, state_begin_string; cbn [sc_step]; rewrite S; destruct (c =? 34); reflexivity]. unfold state_end_value. cbn [sc_stack retop tl]. rewrite S. apply N.eqb_eq in E. subst c. cbn [N.eqb Pos.eqb].
    apply (check_pop ObjectValue st).
Qed.

(* After a value inside of something. *)
Lemma check_ev : forall p st l, check (conf EndValue (p :: st)) l =
  match skip l with
  | [] => false
  | c :: r => match p with
              | ObjectKey => if c =? 58 then check (conf BeginValue (ObjectValue :: st)) r else false
              | ObjectValue => if c =? 125 then check (conf EndValue st) r else if c =? 44 then check (conf BeginString (ObjectKey :: st)) r else false
              | ArrayValue => if c =? 93 then check (conf EndValue st) r else if c =? 44 then check (conf BeginValue (ArrayValue :: st)) r else false
              end
  end.
Proof.
  intros p st. induction l as [|c l IH]; [reflexivity|]. cbn [skip check]. unfold step. cbn [sc_step conf]. unfold state_end_value. cbn [sc_stack].
  destruct (space c) eqn:S; [exact IH|].
  destruct p.
  - destruct (c =? 58); reflexivity.
  - destruct (c =? 44) eqn:E; [apply N.eqb_eq in E; subst c; reflexivity|]. destruct (c =? 125); [apply (check_pop ObjectValue)|reflexivity].
  - destruct (c =? 44) eqn:E; [apply N.eqb_eq in E; subst c; reflexivity|]. destruct (c =? 93); [apply (check_pop ArrayValue)|reflexivity].
Qed.

(* ---------- strings ---------- *)

Definition then_end (st : list pstate) {A} (x : option (A * list N)) : bool :=
  match x with Some (_, r) => check (conf EndValue st) r | None => false end.

Lemma then_add : forall st c x, then_end st (add_rune c x) = then_end st x.
Proof. intros st c [[y r]|]; reflexivity. Qed.

Lemma hex_some : forall c, hexadecimal c = match hex_value c with Some _ => true | None => false end.
Proof. intros c. unfold hexadecimal, hex_value. destruct (between 48 c 57), (between 97 c 102), (between 65 c 70); reflexivity. Qed.
Lemma unescape_some : forall c,
  ((c =? 98) || (c =? 102) || (c =? 110) || (c =? 114) || (c =? 116) || (c =? 92) || (c =? 47) || (c =? 34))%bool =
  match unescape c with Some _ => true | None => false end.
Proof.
  intros c. unfold unescape. destruct (c =? 34), (c =? 92), (c =? 47), (c =? 98), (c =? 102), (c =? 110), (c =? 114), (c =? 116); reflexivity.
Qed.

Lemma check_u4 : forall st l, check (conf EscU st) l =
  match l with
  | a :: b :: c :: d :: r => match u4 a b c d with Some _ => check (conf InString st) r | None => false end
  | _ => false
  end.
Proof.
  intros st l. destruct l as [|a [|b [|c [|d r]]]]; try (unfold u4);
  repeat (cbn [check]; unfold step; cbn [sc_step conf go set_step sc_stack sc_end sc_err]; unfold state_hex; rewrite ?hex_some;
    match goal with |- context [hex_value ?x] => destruct (hex_value x) end; cbn [go set_step sc_stack sc_end sc_err]; try reflexivity).
  reflexivity.
Qed.

Lemma check_string : forall n l st, (length l <= n)%nat -> check (conf InString st) l = then_end st (read_string l).
Proof.
  induction n as [|n IH]; intros l st L; destruct l as [|c r]; try reflexivity; cbn [length] in L; [lia|].
  cbn [check read_string]. unfold step. cbn [sc_step conf]. unfold state_in_string.
  destruct (c =? 34); [reflexivity|]. destruct (c =? 92) eqn:C.
  - change (set_step (conf InString st) InEsc) with (conf InEsc st). cbn [go].
    destruct r as [|e r1]; [reflexivity|]. cbn [check]. unfold step. cbn [sc_step conf]. unfold state_in_esc. cbn [length] in L.
    destruct (e =? 117) eqn:E.
    + apply N.eqb_eq in E. subst e. cbn [N.eqb Pos.eqb orb go].
      transitivity (check (conf EscU st) r1); [reflexivity|]. rewrite check_u4. destruct r1 as [|a [|b [|x [|d r2]]]]; try reflexivity. destruct (u4 a b x d) as [u|]; [|reflexivity].
      cbn [length] in L.
      assert (R2 : check (conf InString st) r2 = then_end st (read_string r2)) by (apply IH; lia).
      destruct (surrogate u); [|rewrite then_add; exact R2].
      destruct r2 as [|p [|q [|a' [|b' [|c' [|d' r3]]]]]]; try (rewrite then_add; exact R2).
      destruct ((p =? 92) && (q =? 117))%bool eqn:PQ; [|rewrite then_add; exact R2].
      destruct (u4 a' b' c' d') as [u'|] eqn:U; [|rewrite then_add; exact R2].
      destruct (pair u u'); [|rewrite then_add; exact R2].
      rewrite then_add. apply andb_prop in PQ. destruct PQ as [P Q]. apply N.eqb_eq in P. apply N.eqb_eq in Q. subst p q.
      transitivity (check (conf EscU st) (a' :: b' :: c' :: d' :: r3)); [reflexivity|]. rewrite check_u4, U. apply IH. cbn [length] in L. lia.
    + rewrite unescape_some. destruct (unescape e); [|reflexivity]. rewrite then_add.
      transitivity (check (conf InString st) r1); [reflexivity|]. apply IH. lia.
  - destruct (c <? 32); [reflexivity|]. rewrite then_add. apply IH. lia.
Qed.

(* ---------- numbers ---------- *)

Lemma ev_any : forall n st c, state_end_value (conf n st) c = state_end_value (conf EndValue st) c.
Proof. intros n [|[] st] c; reflexivity. Qed.
Lemma hand_over : forall n st l, step (conf n st) 32 = state_end_value (conf n st) 32 ->
  (forall c r, l = c :: r -> step (conf n st) c = state_end_value (conf n st) c) -> check (conf n st) l = check (conf EndValue st) l.
Proof.
  intros n st [|c r] E H.
  - cbn [check]. unfold eof. cbn [sc_err sc_end conf]. fold (conf n st). fold (conf EndValue st). rewrite E, ev_any. reflexivity.
  - cbn [check]. rewrite (H c r eq_refl), ev_any. reflexivity.
Qed.

Lemma check_exp0 : forall st l, check (conf Exp0 st) l = check (conf EndValue st) (snd (span l)).
Proof.
  intros st. induction l as [|c l IH]; [apply hand_over; [reflexivity|discriminate]|]. cbn [span]. unfold is_digit. destruct (between 48 c 57) eqn:D.
  - destruct (span l) as [d r] eqn:E. cbn [snd] in *. rewrite <- IH. cbn [check]. unfold step, state_exp0. cbn [sc_step conf]. rewrite D. reflexivity.
  - cbn [snd]. apply hand_over; [reflexivity|]. intros x y Q. inversion Q; subst. unfold step, state_exp0. cbn [sc_step conf]. rewrite D. reflexivity.
Qed.
Lemma check_exp_sign : forall st l, check (conf ExpSign st) l = then_end st (match span l with ([], _) => None | x => Some x end).
Proof.
  intros st [|c l]; [reflexivity|]. cbn [check span]. unfold step, state_exp_sign. cbn [sc_step conf]. unfold is_digit. destruct (between 48 c 57); [|reflexivity].
  transitivity (check (conf Exp0 st) l); [reflexivity|]. rewrite check_exp0. destruct (span l); reflexivity.
Qed.
Lemma check_exp : forall st l, check (conf Exp st) l =
  then_end st (match span (match l with p :: r1 => if p =? 43 then r1 else if p =? 45 then r1 else l | [] => l end) with ([], _) => None | x => Some x end).
Proof.
  intros st [|c l]; [reflexivity|]. destruct (c =? 43) eqn:A; [|destruct (c =? 45) eqn:B].
  - rewrite <- check_exp_sign. cbn [check]. unfold step at 1, state_exp. cbn [sc_step conf]. rewrite A. reflexivity.
  - rewrite <- check_exp_sign. cbn [check]. unfold step at 1, state_exp. cbn [sc_step conf]. rewrite A, B. reflexivity.
  - rewrite <- check_exp_sign. cbn [check]. unfold step, state_exp. cbn [sc_step conf]. rewrite A, B. unfold state_exp_sign. destruct (between 48 c 57); reflexivity.
Qed.
Lemma then_exponent : forall st l,
  then_end st (read_exponent l) = match l with
    | c :: r => if ((c =? 101) || (c =? 69))%bool then check (conf Exp st) r else check (conf EndValue st) l
    | [] => check (conf EndValue st) []
    end.
Proof.
  intros st [|c r]; [reflexivity|]. cbn [read_exponent]. destruct ((c =? 101) || (c =? 69))%bool; [|reflexivity]. rewrite check_exp.
  destruct r as [|p r1]; [reflexivity|]. destruct (p =? 43).
  { destruct (span r1) as [[|d ds] r2]; reflexivity. }
  destruct (p =? 45); [destruct (span r1) as [[|d ds] r2]|destruct (span (p :: r1)) as [[|d ds] r2]]; reflexivity.
Qed.
Lemma check_dot0 : forall st l, check (conf Dot0 st) l = then_end st (read_exponent (snd (span l))).
Proof.
  intros st. induction l as [|c l IH]; [apply hand_over; [reflexivity|discriminate]|]. cbn [span]. unfold is_digit. destruct (between 48 c 57) eqn:D.
  - destruct (span l) as [d r] eqn:E. cbn [snd] in *. rewrite <- IH. cbn [check]. unfold step, state_dot0. cbn [sc_step conf]. rewrite D. reflexivity.
  - cbn [snd]. rewrite then_exponent. destruct ((c =? 101) || (c =? 69))%bool eqn:X.
    + cbn [check]. unfold step at 1, state_dot0. cbn [sc_step conf]. rewrite D, X. reflexivity.
    + apply hand_over; [reflexivity|]. intros x y Q. inversion Q; subst. unfold step, state_dot0. cbn [sc_step conf]. rewrite D, X. reflexivity.
Qed.
Definition then_rest (st : list pstate) (l : list N) : bool :=
  match read_fraction l with None => false | Some (_, l2) => then_end st (read_exponent l2) end.
Lemma check_num0 : forall st l, check (conf Num0 st) l = then_rest st l.
Proof.
  intros st [|c l]; [apply hand_over; [reflexivity|discriminate]|]. unfold then_rest. cbn [read_fraction]. destruct (c =? 46) eqn:D.
  - cbn [check]. unfold step at 1, state0. cbn [sc_step conf]. rewrite D. transitivity (check (conf Dot st) l); [reflexivity|].
    destruct l as [|d l]; [reflexivity|]. cbn [check span]. unfold step at 1, state_dot. cbn [sc_step conf]. unfold is_digit. destruct (between 48 d 57); [|reflexivity].
    transitivity (check (conf Dot0 st) l); [reflexivity|]. rewrite check_dot0. destruct (span l); reflexivity.
  - rewrite then_exponent. destruct ((c =? 101) || (c =? 69))%bool eqn:X.
    + cbn [check]. unfold step at 1, state0. cbn [sc_step conf]. rewrite D, X. reflexivity.
    + apply hand_over; [reflexivity|]. intros x y Q. inversion Q; subst. unfold step, state0. cbn [sc_step conf]. rewrite D, X. reflexivity.
Qed.
Lemma check_num1 : forall st l, check (conf Num1 st) l = then_rest st (snd (span l)).
Proof.
  intros st. induction l as [|c l IH]; [apply hand_over; [reflexivity|discriminate]|]. cbn [span]. unfold is_digit. destruct (between 48 c 57) eqn:D.
  - destruct (span l) as [d r] eqn:E. cbn [snd] in *. rewrite <- IH. cbn [check]. unfold step, state1. cbn [sc_step conf]. rewrite D. reflexivity.
  - cbn [snd]. rewrite <- check_num0. cbn [check]. unfold step, state1. cbn [sc_step conf]. rewrite D. unfold state0. rewrite (ev_any Num1), (ev_any Num0).
    destruct (c =? 46), ((c =? 101) || (c =? 69))%bool; reflexivity.
Qed.
Lemma between_49 : forall c, between 49 c 57 = (negb (c =? 48) && between 48 c 57)%bool.
Proof.
  intros c. unfold between. destruct (N.eqb_spec c 48) as [->|E]; [reflexivity|]. cbn [negb andb]. f_equal.
  destruct (N.leb_spec 49 c), (N.leb_spec 48 c); try reflexivity; lia.
Qed.
Definition then_number (st : list pstate) (l : list N) : bool :=
  match read_integral l with None => false | Some (_, l1) => then_rest st l1 end.
Lemma check_neg : forall st l, check (conf Neg st) l = then_number st l.
Proof.
  intros st [|c l]; [reflexivity|]. unfold then_number. cbn [read_integral check span]. unfold step, state_neg. cbn [sc_step conf]. rewrite between_49. unfold is_digit.
  destruct (c =? 48); [apply check_num0|]. cbn [negb andb]. destruct (between 48 c 57); [|reflexivity].
  transitivity (check (conf Num1 st) l); [reflexivity|]. rewrite check_num1. destruct (span l); reflexivity.
Qed.
Lemma then_read_number : forall st l, then_end st (read_number l) = then_number st (match l with c :: r => if c =? 45 then r else l | [] => l end).
Proof.
  intros st l. unfold read_number, then_number, then_rest.
  destruct l as [|c r]; [reflexivity|]. destruct (c =? 45).
  - destruct (read_integral r) as [[i l1]|]; [|reflexivity]. destruct (read_fraction l1) as [[f l2]|]; [|reflexivity]. destruct (read_exponent l2) as [[e l3]|]; reflexivity.
  - destruct (read_integral (c :: r)) as [[i l1]|]; [|reflexivity]. destruct (read_fraction l1) as [[f l2]|]; [|reflexivity]. destruct (read_exponent l2) as [[e l3]|]; reflexivity.
Qed.
Lemma check_number : forall st c r, space c = false -> (c =? 123) = false -> (c =? 91) = false -> (c =? 34) = false ->
  (c =? 116) = false -> (c =? 102) = false -> (c =? 110) = false -> check (conf BeginValue st) (c :: r) = then_end st (read_number (c :: r)).
Proof.
  intros st c r S A B C D E F. rewrite then_read_number. cbn [check]. unfold step, state_begin_value. cbn [sc_step conf]. rewrite S, A, B, C, D, E, F.
  destruct (c =? 45); [apply check_neg|]. unfold then_number. cbn [read_integral span]. rewrite between_49. unfold is_digit.
  destruct (c =? 48); [apply check_num0|]. cbn [negb andb]. destruct (between 48 c 57); [|reflexivity].
  transitivity (check (conf Num1 st) r); [reflexivity|]. rewrite check_num1. destruct (span r); reflexivity.
Qed.

(* ---------- literals ---------- *)

Ltac letters l := destruct l as [|?c l]; [reflexivity|]; cbn [check prefix]; unfold step; cbn [sc_step conf]; unfold letter;
  match goal with |- context [?c =? ?x] => rewrite ?(N.eqb_sym x c); destruct (c =? x); [|reflexivity] end; cbn [go set_step sc_stack sc_end sc_err].
Lemma check_null : forall st l, check (conf LitN st) l = match prefix [117; 108; 108] l with Some r => check (conf EndValue st) r | None => false end.
Proof. intros st l. letters l. letters l. letters l. destruct l; reflexivity. Qed.
Lemma check_true : forall st l, check (conf LitT st) l = match prefix [114; 117; 101] l with Some r => check (conf EndValue st) r | None => false end.
Proof. intros st l. letters l. letters l. letters l. destruct l; reflexivity. Qed.
Lemma check_false : forall st l, check (conf LitF st) l = match prefix [97; 108; 115; 101] l with Some r => check (conf EndValue st) r | None => false end.
Proof. intros st l. letters l. letters l. letters l. letters l. destruct l; reflexivity. Qed.

(* ---------- what is left gets shorter ---------- *)

Lemma skip_len : forall l, (length (skip l) <= length l)%nat.
Proof. induction l as [|c l IH]; [apply le_n|]. cbn [skip]. destruct (space c); cbn [length]; lia. Qed.
Lemma skip_cons : forall l c r, skip l = c :: r -> (length r < length l)%nat /\ space c = false.
Proof.
  intros l c r. induction l as [|d l IH]; intros H; [discriminate H|]. cbn [skip] in H. destruct (space d) eqn:S.
  - destruct (IH H). cbn [length]. split; [lia|assumption].
  - inversion H; subst. split; [cbn [length]; lia|exact S].
Qed.
Lemma add_rune_len : forall n c x y r, (forall y r, x = Some (y, r) -> (length r < n)%nat) -> add_rune c x = Some (y, r) -> (length r < n)%nat.
Proof. intros n c [[y' r']|] y r H E; [|discriminate E]. cbn [add_rune] in E. inversion E; subst. exact (H y' r eq_refl). Qed.
Lemma read_string_len : forall n l x r, (length l <= n)%nat -> read_string l = Some (x, r) -> (length r < length l)%nat.
Proof.
  induction n as [|n IH]; intros l x r L E; destruct l as [|c l]; try discriminate E; cbn [length] in L; [lia|].
  cbn [read_string] in E. destruct (c =? 34); [inversion E; subst; cbn [length]; lia|]. cbn [length].
  assert (G : forall l' z y, (length l' <= length l)%nat -> add_rune z (read_string l') = Some (y, r) -> (length r < S (length l))%nat).
  { intros l' z y L' E'. apply (add_rune_len _ _ _ _ _) with (2 := E'). intros y' r' E2. apply IH in E2; lia. }
  destruct (c =? 92).
  - destruct l as [|e r1]; [discriminate E|]. cbn [length] in *. destruct (e =? 117).
    + destruct r1 as [|a [|b [|d [|f r2]]]]; try discriminate E. destruct (u4 a b d f) as [u|]; [|discriminate E]. cbn [length] in *.
      assert (G2 : forall z y, add_rune z (read_string r2) = Some (y, r) -> (length r < S (S (S (S (S (S (length r2)))))))%nat) by (intros z y; apply G; lia).
      destruct (surrogate u); [|exact (G2 _ _ E)].
      destruct r2 as [|p [|q [|a' [|b' [|c' [|d' r3]]]]]]; try exact (G2 _ _ E).
      destruct (if ((p =? 92) && (q =? 117))%bool then u4 a' b' c' d' else None) as [u'|]; [|exact (G2 _ _ E)].
      destruct (pair u u'); [|exact (G2 _ _ E)]. cbn [length] in *. apply (G _ _ _) with (2 := E). cbn [length]. lia.
    + destruct (unescape e); [|discriminate E]. apply (G _ _ _) with (2 := E). lia.
  - destruct (c <? 32); [discriminate E|]. apply (G _ _ _) with (2 := E). lia.
Qed.
Lemma span_len : forall l, (length (snd (span l)) <= length l)%nat.
Proof. induction l as [|c l IH]; [apply le_n|]. cbn [span]. destruct (is_digit c); [|apply le_n]. destruct (span l) as [d r]. cbn [snd length] in *. lia. Qed.
Lemma read_number_len : forall l q r, read_number l = Some (q, r) -> (length r < length l)%nat.
Proof.
  assert (I : forall l x r, read_integral l = Some (x, r) -> (length r < length l)%nat).
  { intros [|c l] x r; cbn [read_integral]; [discriminate|]. destruct (c =? 48); [intros E; inversion E; subst; cbn [length]; lia|].
    destruct (is_digit c) eqn:D; [|discriminate]. cbn [span]. rewrite D. pose proof (span_len l). destruct (span l). intros E. inversion E; subst. cbn [snd length] in *. lia. }
  assert (F : forall l x r, read_fraction l = Some (x, r) -> (length r <= length l)%nat).
  { intros [|c l] x r; cbn [read_fraction]; [intros E; inversion E; subst; apply le_n|]. destruct (c =? 46); [|intros E; inversion E; subst; apply le_n].
    pose proof (span_len l). destruct (span l) as [[|d ds] r']; [discriminate|]. intros E. inversion E; subst. cbn [snd length] in *. lia. }
  assert (X : forall l x r, read_exponent l = Some (x, r) -> (length r <= length l)%nat).
  { intros [|c l] x r; cbn [read_exponent]; [intros E; inversion E; subst; apply le_n|]. destruct ((c =? 101) || (c =? 69))%bool; [|intros E; inversion E; subst; apply le_n].
    assert (G : forall (sg : Z) r1, (length r1 <= length l)%nat -> (let '(d, r2) := span r1 in match d with [] => None | _ => Some ((sg * value 0 d)%Z, r2) end) = Some (x, r) -> (length r <= length (c :: l))%nat).
    { intros sg r1 L. pose proof (span_len r1). destruct (span r1) as [[|d ds] r']; [discriminate|]. intros E. inversion E; subst. cbn [snd length] in *. lia. }
    destruct l as [|p r1]; [apply (G 1%Z []); apply le_n|]. destruct (p =? 43); [apply (G 1%Z r1); cbn [length]; lia|]. destruct (p =? 45); [apply (G (-1)%Z r1); cbn [length]; lia|].
    apply (G 1%Z (p :: r1)). apply le_n. }
  intros l q r. unfold read_number.
  assert (G : forall (sg : Z) l0, (length l0 <= length l)%nat ->
    match read_integral l0 with None => None | Some (i, l1) => match read_fraction l1 with None => None | Some (f, l2) => match read_exponent l2 with None => None
      | Some (e, l3) => Some (Qred (inject_Z (sg * value (value 0 i) f) * Qpower 10 (e - Z.of_nat (length f))), l3) end end end = Some (q, r) -> (length r < length l)%nat).
  { intros sg l0 L. destruct (read_integral l0) as [[i l1]|] eqn:E1; [|discriminate]. destruct (read_fraction l1) as [[f l2]|] eqn:E2; [|discriminate].
    destruct (read_exponent l2) as [[e l3]|] eqn:E3; [|discriminate]. intros E. assert (l3 = r) by (inversion E; reflexivity). subst l3.
    apply I in E1. apply F in E2. apply X in E3. lia. }
  destruct l as [|c l']; [apply G; apply le_n|]. destruct (c =? 45); [apply G; cbn [length]; lia|apply G; apply le_n].
Qed.
Lemma prefix_len : forall p l r, prefix p l = Some r -> (length r <= length l)%nat.
Proof.
  induction p as [|a p IH]; intros l r E; cbn [prefix] in E; [destruct l; inversion E; subst; apply le_n|]. destruct l as [|b l]; [discriminate E|].
  destruct (a =? b); [|discriminate E]. apply IH in E. cbn [length]. lia.
Qed.

Lemma read_len : forall fuel,
  (forall l j r, read_value fuel l = Some (j, r) -> (length r < length l)%nat) /\
  (forall l j r, read_elements fuel l = Some (j, r) -> (length r < length l)%nat) /\
  (forall l j r, read_members fuel l = Some (j, r) -> (length r < length l)%nat).
Proof.
  induction fuel as [|fuel (IV & IE & IM)]; [split; [|split]; discriminate|]. split; [|split].
  - intros l j r E. cbn [read_value] in E. destruct (skip l) as [|c r0] eqn:K; [discriminate E|]. apply skip_cons in K. destruct K as [K _].
    destruct (c =? 123).
    { destruct (skip r0) as [|c' r'] eqn:K'; [discriminate E|]. destruct (c' =? 125); [inversion E; subst; apply skip_cons in K'; lia|].
      destruct (read_members fuel r0) as [[m r'']|] eqn:E'; [|discriminate E]. inversion E; subst. apply IM in E'. lia. }
    destruct (c =? 91).
    { destruct (skip r0) as [|c' r'] eqn:K'; [discriminate E|]. destruct (c' =? 93); [inversion E; subst; apply skip_cons in K'; lia|].
      destruct (read_elements fuel r0) as [[m r'']|] eqn:E'; [|discriminate E]. inversion E; subst. apply IE in E'. lia. }
    destruct (c =? 34). { destruct (read_string r0) as [[x r']|] eqn:E'; [|discriminate E]. inversion E; subst. apply (read_string_len _ _ _ _ (le_n _)) in E'. lia. }
    destruct (c =? 110). { destruct (prefix _ r0) eqn:E'; [|discriminate E]. inversion E; subst. apply prefix_len in E'. lia. }
    destruct (c =? 116). { destruct (prefix _ r0) eqn:E'; [|discriminate E]. inversion E; subst. apply prefix_len in E'. lia. }
    destruct (c =? 102). { destruct (prefix _ r0) eqn:E'; [|discriminate E]. inversion E; subst. apply prefix_len in E'. lia. }
    destruct (read_number (c :: r0)) as [[q r']|] eqn:E'; [|discriminate E]. inversion E; subst. apply read_number_len in E'. cbn [length] in E'. lia.
  - intros l j r E. cbn [read_elements] in E. destruct (read_value fuel l) as [[v r1]|] eqn:E1; [|discriminate E]. apply IV in E1.
    destruct (skip r1) as [|c r'] eqn:K; [discriminate E|]. apply skip_cons in K. destruct K as [K _]. destruct (c =? 93); [inversion E; subst; lia|].
    destruct (c =? 44); [|discriminate E]. destruct (read_elements fuel r') as [[vs r'']|] eqn:E2; [|discriminate E]. inversion E; subst. apply IE in E2. lia.
  - intros l j r E. cbn [read_members] in E. destruct (skip l) as [|q r0] eqn:K0; [discriminate E|]. apply skip_cons in K0. destruct K0 as [K0 _].
    destruct (q =? 34); [|discriminate E]. destruct (read_string r0) as [[k r1]|] eqn:E0; [|discriminate E]. apply (read_string_len _ _ _ _ (le_n _)) in E0.
    destruct (skip r1) as [|c r2] eqn:K1; [discriminate E|]. apply skip_cons in K1. destruct K1 as [K1 _]. destruct (c =? 58); [|discriminate E].
    destruct (read_value fuel r2) as [[v r3]|] eqn:E1; [|discriminate E]. apply IV in E1.
    destruct (skip r3) as [|c' r'] eqn:K; [discriminate E|]. apply skip_cons in K. destruct K as [K _]. destruct (c' =? 125); [inversion E; subst; lia|].
    destruct (c' =? 44); [|discriminate E]. destruct (read_members fuel r') as [[vs r'']|] eqn:E2; [|discriminate E]. inversion E; subst. apply IM in E2. lia.
Qed.

(* ---------- values ---------- *)

Definition fits (st : list pstate) (d : nat) : bool := N.of_nat (length st + d) <=? max_depth.
Definition arr_depth (l : list json) : nat := fold_right Nat.max 0%nat (map depth l).
Definition obj_depth (m : list (string * json)) : nat := fold_right Nat.max 0%nat (map (fun kv => depth (snd kv)) m).

Lemma fits_0 : forall st, (N.of_nat (length st) <= max_depth)%N -> fits st 0 = true.
Proof. intros st H. unfold fits. apply N.leb_le. rewrite Nat.add_0_r. exact H. Qed.
Lemma fits_max : forall st a b, fits st (Nat.max a b) = (fits st a && fits st b)%bool.
Proof.
  intros st a b. unfold fits. destruct (N.leb_spec (N.of_nat (length st + a)) max_depth), (N.leb_spec (N.of_nat (length st + b)) max_depth); cbn [andb];
  [apply N.leb_le|apply N.leb_gt|apply N.leb_gt|apply N.leb_gt]; lia.
Qed.
Lemma fits_S : forall p st d, fits (p :: st) d = fits st (S d).
Proof. intros p st d. unfold fits. cbn [length]. f_equal. f_equal. lia. Qed.

Lemma check_push : forall n p st l, check (fst (push (conf n st) p)) l = if N.of_nat (length (p :: st)) <=? max_depth then check (conf n (p :: st)) l else false.
Proof.
  intros n p st l. unfold push. cbn [sc_stack conf]. destruct (N.of_nat (length (p :: st)) <=? max_depth); [reflexivity|]. apply check_error.
Qed.

Lemma check_values : forall fuel,
  (forall l st, (2 * length l + 1 <= fuel)%nat -> N.of_nat (length st) <= max_depth ->
     check (conf BeginValue st) l = match read_value fuel l with Some (j, r) => (fits st (depth j) && check (conf EndValue st) r)%bool | None => false end) /\
  (forall l st, (2 * length l + 2 <= fuel)%nat -> N.of_nat (length (ArrayValue :: st)) <= max_depth ->
     check (conf BeginValue (ArrayValue :: st)) l = match read_elements fuel l with Some (js, r) => (fits (ArrayValue :: st) (arr_depth js) && check (conf EndValue st) r)%bool | None => false end) /\
  (forall l st, (2 * length l + 2 <= fuel)%nat -> N.of_nat (length (ObjectKey :: st)) <= max_depth ->
     check (conf BeginString (ObjectKey :: st)) l = match read_members fuel l with Some (m, r) => (fits (ObjectKey :: st) (obj_depth m) && check (conf EndValue st) r)%bool | None => false end).
Proof.
  induction fuel as [|fuel (IV & IE & IM)]; [split; [|split]; intros; lia|]. split; [|split].
  - intros l st L B. rewrite check_skip_bv. cbn [read_value]. destruct (skip l) as [|c r] eqn:K; [reflexivity|]. apply skip_cons in K. destruct K as [K Sp].
    destruct (c =? 123) eqn:C1.
    { apply N.eqb_eq in C1. subst c. cbn [check]. unfold step. cbn [sc_step conf]. unfold state_begin_value. cbn [space N.eqb Pos.eqb orb].
      change (set_step _ BeginStringOrEmpty) with (conf BeginStringOrEmpty st). pose proof (check_push BeginStringOrEmpty ObjectKey st r) as P.
      destruct (push (conf BeginStringOrEmpty st) ObjectKey) as [k e] eqn:E. cbn [fst] in P.
      assert (P' : (if e then false else check k r) = if N.of_nat (length (ObjectKey :: st)) <=? max_depth then check (conf BeginStringOrEmpty (ObjectKey :: st)) r else false).
      { rewrite <- P. destruct e; [|reflexivity]. unfold push in E. cbn [sc_stack conf] in E. destruct (N.of_nat (length (ObjectKey :: st)) <=? max_depth); [discriminate E|]. inversion E. symmetry. apply check_error. }
      rewrite P'. clear P P' E k e. rewrite check_bse.
      assert (Fz : forall d, max_depth < N.of_nat (length (ObjectKey :: st)) -> fits st (S d) = false).
      { intros d H. unfold fits. apply N.leb_gt. cbn [length] in H. lia. }
      destruct (N.leb_spec (N.of_nat (length (ObjectKey :: st))) max_depth) as [Le|Gt].
      - destruct (skip r) as [|c' r'] eqn:K'; [reflexivity|]. destruct (c' =? 125).
        + cbn [depth map fold_right]. rewrite <- (fits_S ObjectKey), fits_0 by exact Le. reflexivity.
        + rewrite IM by (try exact Le; lia). destruct (read_members fuel r) as [[m r'']|]; [|reflexivity]. rewrite fits_S. reflexivity.
      - destruct (skip r) as [|c' r']; [reflexivity|]. destruct (c' =? 125); [cbn [depth map fold_right]; rewrite Fz by exact Gt; reflexivity|].
        destruct (read_members fuel r) as [[m r'']|]; [|reflexivity]. cbn [depth]. rewrite Fz by exact Gt. reflexivity. }
    destruct (c =? 91) eqn:C2.
    { apply N.eqb_eq in C2. subst c. cbn [check]. unfold step. cbn [sc_step conf]. unfold state_begin_value. cbn [space N.eqb Pos.eqb orb].
      change (set_step _ BeginValueOrEmpty) with (conf BeginValueOrEmpty st). pose proof (check_push BeginValueOrEmpty ArrayValue st r) as P.
      destruct (push (conf BeginValueOrEmpty st) ArrayValue) as [k e] eqn:E. cbn [fst] in P.
      assert (P' : (if e then false else check k r) = if N.of_nat (length (ArrayValue :: st)) <=? max_depth then check (conf BeginValueOrEmpty (ArrayValue :: st)) r else false).
      { rewrite <- P. destruct e; [|reflexivity]. unfold push in E. cbn [sc_stack conf] in E. destruct (N.of_nat (length (ArrayValue :: st)) <=? max_depth); [discriminate E|]. inversion E. symmetry. apply check_error. }
      rewrite P'. clear P P' E k e. rewrite check_bve.
      assert (Fz : forall d, max_depth < N.of_nat (length (ArrayValue :: st)) -> fits st (S d) = false).
      { intros d H. unfold fits. apply N.leb_gt. cbn [length] in H. lia. }
      destruct (N.leb_spec (N.of_nat (length (ArrayValue :: st))) max_depth) as [Le|Gt].
      - destruct (skip r) as [|c' r'] eqn:K'; [reflexivity|]. destruct (c' =? 93).
        + cbn [depth map fold_right]. rewrite <- (fits_S ArrayValue), fits_0 by exact Le. reflexivity.
        + rewrite IE by (try exact Le; lia). destruct (read_elements fuel r) as [[m r'']|]; [|reflexivity]. rewrite fits_S. reflexivity.
      - destruct (skip r) as [|c' r']; [reflexivity|]. destruct (c' =? 93); [cbn [depth map fold_right]; rewrite Fz by exact Gt; reflexivity|].
        destruct (read_elements fuel r) as [[m r'']|]; [|reflexivity]. cbn [depth]. rewrite Fz by exact Gt. reflexivity. }
    destruct (c =? 34) eqn:C3.
    { apply N.eqb_eq in C3. subst c. transitivity (check (conf InString st) r); [reflexivity|]. rewrite (check_string _ _ _ (le_n _)).
      destruct (read_string r) as [[x r']|]; [|reflexivity]. cbn [depth]. rewrite fits_0 by exact B. reflexivity. }
    destruct (c =? 110) eqn:C4.
    { apply N.eqb_eq in C4. subst c. transitivity (check (conf LitN st) r); [reflexivity|]. rewrite check_null. destruct (prefix _ r); [|reflexivity]. cbn [depth]. rewrite fits_0 by exact B. reflexivity. }
    destruct (c =? 116) eqn:C5.
    { apply N.eqb_eq in C5. subst c. transitivity (check (conf LitT st) r); [reflexivity|]. rewrite check_true. destruct (prefix _ r); [|reflexivity]. cbn [depth]. rewrite fits_0 by exact B. reflexivity. }
    destruct (c =? 102) eqn:C6.
    { apply N.eqb_eq in C6. subst c. transitivity (check (conf LitF st) r); [reflexivity|]. rewrite check_false. destruct (prefix _ r); [|reflexivity]. cbn [depth]. rewrite fits_0 by exact B. reflexivity. }
    rewrite check_number by assumption. destruct (read_number (c :: r)) as [[q r']|]; [|reflexivity]. cbn [depth]. rewrite fits_0 by exact B. reflexivity.
  - intros l st L B. rewrite IV by (try exact B; lia). cbn [read_elements]. destruct (read_value fuel l) as [[v r]|] eqn:E; [|reflexivity].
    pose proof (proj1 (read_len fuel) _ _ _ E) as Len. rewrite check_ev. destruct (skip r) as [|c r'] eqn:K; [apply andb_false_r|]. apply skip_cons in K.
    destruct (c =? 93). { unfold arr_depth. cbn [map fold_right]. rewrite Nat.max_0_r. reflexivity. }
    destruct (c =? 44); [|apply andb_false_r]. rewrite IE by (try exact B; lia). destruct (read_elements fuel r') as [[vs r'']|]; [|apply andb_false_r].
    unfold arr_depth. cbn [map fold_right]. rewrite fits_max, andb_assoc. reflexivity.
  - intros l st L B. rewrite check_skip_bs. cbn [read_members]. destruct (skip l) as [|q r0] eqn:K0; [reflexivity|]. apply skip_cons in K0. destruct K0 as [K0 Sp].
    destruct (q =? 34) eqn:Q.
    2:{ cbn [check]. unfold step. cbn [sc_step conf]. unfold state_begin_string. rewrite Sp, Q. reflexivity. }
    apply N.eqb_eq in Q. subst q. transitivity (check (conf InString (ObjectKey :: st)) r0); [reflexivity|]. rewrite (check_string _ _ _ (le_n _)).
    destruct (read_string r0) as [[k r1]|] eqn:E0; [|reflexivity]. apply (read_string_len _ _ _ _ (le_n _)) in E0. cbn [then_end]. rewrite check_ev.
    destruct (skip r1) as [|c r2] eqn:K1; [reflexivity|]. apply skip_cons in K1. destruct (c =? 58); [|reflexivity].
    rewrite IV by (try exact B; lia). destruct (read_value fuel r2) as [[v r]|] eqn:E; [|reflexivity].
    pose proof (proj1 (read_len fuel) _ _ _ E) as Len. change (fits (ObjectValue :: st) (depth v)) with (fits (ObjectKey :: st) (depth v)).
    rewrite check_ev. destruct (skip r) as [|c' r'] eqn:K; [apply andb_false_r|]. apply skip_cons in K.
    destruct (c' =? 125). { unfold obj_depth. cbn [map fold_right snd]. rewrite Nat.max_0_r. reflexivity. }
    destruct (c' =? 44); [|apply andb_false_r]. rewrite IM by (try exact B; lia). destruct (read_members fuel r') as [[vs r'']|]; [|apply andb_false_r].
    unfold obj_depth. cbn [map fold_right snd]. rewrite fits_max, andb_assoc. reflexivity.
Qed.

(* ---------- bytes and characters ---------- *)

(* Everything from 128 on is the same to the scanner. *)
Lemma high_eqb : forall c x, 128 <= c -> x < 128 -> (c =? x) = false.
Proof. intros c x H L. apply N.eqb_neq. lia. Qed.
Lemma high_between : forall c a b, 128 <= c -> b < 128 -> between a c b = false.
Proof. intros c a b H L. unfold between. apply andb_false_iff. right. apply N.leb_gt. lia. Qed.
Lemma high_step : forall k c, 128 <= c ->
  step k c = match sc_step k with
             | InString => (k, false)
             | InError => (k, true)
             | EndTop => (mkScan InError (sc_stack k) (sc_end k) true, false)
             | EndValue | Num0 | Num1 | Dot0 | Exp0 =>
                 match sc_stack k with [] => (mkScan InError [] true true, false) | _ => (mkScan InError (sc_stack k) (sc_end k) true, true) end
             | _ => (mkScan InError (sc_stack k) (sc_end k) true, true)
             end.
Proof.
  intros [n st e x] c H. assert (Sp : space c = false) by (unfold space; rewrite !high_eqb by (try exact H; reflexivity); reflexivity).
  assert (Lt : (c <? 32) = false) by (apply N.ltb_ge; lia).
  unfold step. cbn [sc_step].
  destruct n; unfold state_begin_value_or_empty, state_begin_string_or_empty, state_begin_value, state_begin_string, state1, state0, state_in_string,
    state_in_esc, state_hex, hexadecimal, state_neg, state_dot, state_dot0, state_exp, state_exp_sign, state_exp0, state_end_value, state_end_top, letter, fail, go, set_step; cbn [sc_stack sc_end sc_err sc_step];
    rewrite ?Sp, ?Lt, ?(high_between c) by (try exact H; reflexivity); rewrite ?(high_eqb c) by (try exact H; reflexivity);
    cbn [orb fst]; rewrite ?Sp; try reflexivity; destruct st as [|[] st]; reflexivity.
Qed.
Lemma check_high : forall k c l, 128 <= c ->
  check k (c :: l) = match sc_step k with InString => check k l | _ => false end.
Proof.
  intros k c l H. cbn [check]. rewrite high_step by exact H. destruct (sc_step k); try reflexivity; try apply check_error; destruct (sc_stack k); try reflexivity; apply check_error.
Qed.
Lemma check_highs : forall h k c l, 128 <= c -> Forall (fun b => 128 <= b) h -> h <> [] -> check k (h ++ l) = check k (c :: l).
Proof.
  induction h as [|b h IH]; intros k c l H F N; [destruct N; reflexivity|]. inversion F as [|x y Hb Fh]; subst. cbn [app]. rewrite (check_high k b), (check_high k c) by assumption.
  destruct (sc_step k) eqn:E; try reflexivity. destruct h as [|b' h]; [reflexivity|]. rewrite (IH k c l H Fh) by discriminate. rewrite check_high, E by exact H. reflexivity.
Qed.

Definition rune (r : option N) : N := match r with Some c => c | None => 65533 end.
Lemma seq2_high : forall a b x, seq2 a b = Some x -> 128 <= a /\ 128 <= b /\ 128 <= x.
Proof.
  intros a b x. unfold seq2, between, tail, between. destruct (N.leb_spec 194 a), (N.leb_spec a 223), (N.leb_spec 128 b), (N.leb_spec b 191); cbn [andb]; try discriminate.
  intros E. inversion E; subst. lia.
Qed.
Lemma seq3_high : forall a b c x, seq3 a b c = Some x -> 128 <= a /\ 128 <= b /\ 128 <= c /\ 128 <= x.
Proof.
  intros a b c x. unfold seq3, tail, between.
  destruct (N.leb_spec 224 a), (N.leb_spec a 239), (N.leb_spec (if a =? 224 then 160 else 128) b), (N.leb_spec b (if a =? 237 then 159 else 191)), (N.leb_spec 128 c), (N.leb_spec c 191); cbn [andb]; try discriminate.
  intros E. inversion E; subst. destruct (N.eqb_spec a 224); lia.
Qed.
Lemma seq4_high : forall a b c d x, seq4 a b c d = Some x -> 128 <= a /\ 128 <= b /\ 128 <= c /\ 128 <= d /\ 128 <= x.
Proof.
  intros a b c d x. unfold seq4, tail, between.
  destruct (N.leb_spec 240 a), (N.leb_spec a 244), (N.leb_spec (if a =? 240 then 144 else 128) b), (N.leb_spec b (if a =? 244 then 143 else 191)), (N.leb_spec 128 c), (N.leb_spec c 191), (N.leb_spec 128 d), (N.leb_spec d 191); cbn [andb]; try discriminate.
  intros E. inversion E; subst. destruct (N.eqb_spec a 240); lia.
Qed.

Lemma check_runes : forall n l k, (length l <= n)%nat -> check k l = check k (map rune (decode l)).
Proof.
  induction n as [|n IH]; intros l k L; destruct l as [|a l1]; try reflexivity; cbn [length] in L; [lia|]. cbn [decode].
  destruct (N.ltb_spec a 128) as [A|A].
  { cbn [map rune check]. destruct (step k a) as [k' e]. destruct e; [reflexivity|]. apply IH. lia. }
  assert (One : forall l', (length l' <= n)%nat -> check k (a :: l') = check k (map rune (None :: decode l'))).
  { intros l' L'. cbn [map rune]. rewrite (check_high k a), (check_high k 65533) by (assumption || discriminate). destruct (sc_step k); try reflexivity. apply IH. exact L'. }
  assert (Many : forall h x l', Forall (fun b => 128 <= b) h -> h <> [] -> 128 <= x -> (length l' <= n)%nat -> check k (h ++ l') = check k (map rune (Some x :: decode l'))).
  { intros h x l' F Ne Hx L'. rewrite (check_highs h k x l' Hx F Ne). cbn [map rune]. rewrite !check_high by exact Hx. destruct (sc_step k); try reflexivity. apply IH. exact L'. }
  destruct l1 as [|b l2]; [exact (One [] (Nat.le_0_l _))|]. destruct (seq2 a b) as [x|] eqn:S2.
  { apply seq2_high in S2. destruct S2 as (Ha & Hb & Hx). apply (Many [a; b]); [repeat constructor; assumption|discriminate|exact Hx|cbn [length] in L; lia]. }
  destruct l2 as [|c l3]; [apply One; cbn [length] in *; lia|]. destruct (seq3 a b c) as [x|] eqn:S3.
  { apply seq3_high in S3. destruct S3 as (Ha & Hb & Hc & Hx). apply (Many [a; b; c]); [repeat constructor; assumption|discriminate|exact Hx|cbn [length] in L; lia]. }
  destruct l3 as [|d l4]; [apply One; cbn [length] in *; lia|]. destruct (seq4 a b c d) as [x|] eqn:S4.
  { apply seq4_high in S4. destruct S4 as (Ha & Hb & Hc & Hd & Hx). apply (Many [a; b; c; d]); [repeat constructor; assumption|discriminate|exact Hx|cbn [length] in L; lia]. }
  apply One. cbn [length] in *. lia.
Qed.

Theorem check_valid_parse : forall s, check_valid s = match parse s with Some j => N.of_nat (depth j) <=? max_depth | None => false end.
Proof.
  intros s. unfold check_valid, parse. rewrite (check_runes _ _ _ (le_n _)). change (map rune (decode (bytes s))) with (runes s). change reset with (conf BeginValue []).
  rewrite (proj1 (check_values (S (2 * length (runes s))))) by (try lia; cbn; discriminate).
  destruct (read_value (S (2 * length (runes s))) (runes s)) as [[j r]|]; [|reflexivity]. rewrite check_end. unfold fits. cbn [length Nat.add].
  destruct (skip r); [apply andb_true_r|apply andb_false_r].
Qed.
