(* Byte strings: Go [string] is a sequence of bytes, modelled by Coq's
   [string] (a list of 8-bit [ascii]).  This file is a small library; it
   models no code of the repository except where a Go function is named. *)
From Coq Require Export Ascii String List Bool Arith Lia.
Export ListNotations.
Open Scope string_scope.
Open Scope list_scope.
Open Scope nat_scope.

Infix "^^" := String.append (right associativity, at level 60).

(* [s] with the first [n] bytes removed: Go [s[n:]]. *)
Fixpoint sdrop (n : nat) (s : string) : string :=
  match n with
  | O => s
  | S n' => match s with EmptyString => EmptyString | String _ s' => sdrop n' s' end
  end.

(* All bytes of [s] satisfy [p]. *)
Fixpoint sforall (p : ascii -> bool) (s : string) : bool :=
  match s with EmptyString => true | String c s' => p c && sforall p s' end.

(* Longest prefix whose bytes satisfy [p], and the rest. *)
Fixpoint span (p : ascii -> bool) (s : string) : string * string :=
  match s with
  | EmptyString => (EmptyString, EmptyString)
  | String c s' =>
      if p c then let (a, b) := span p s' in (String c a, b)
      else (EmptyString, s)
  end.

(* Go strings.HasPrefix(s, p). *)
Definition has_prefix (p s : string) : bool := String.prefix p s.

(* Go strings.TrimPrefix(s, p). *)
Definition trim_prefix (p s : string) : string :=
  if has_prefix p s then sdrop (String.length p) s else s.

(* Go strings.Replace(s, old, new, 1) for a non-empty [old]: the leftmost
   occurrence of [old] is replaced. *)
Fixpoint replace_first (s old new : string) : string :=
  if String.prefix old s then new ^^ sdrop (String.length old) s
  else match s with
       | EmptyString => EmptyString
       | String c s' => String c (replace_first s' old new)
       end.

Definition is_empty (s : string) : bool :=
  match s with EmptyString => true | _ => false end.

(* Bytes. *)
Definition byte (n : nat) : ascii := ascii_of_nat n.

Definition in_range (lo hi : nat) (c : ascii) : bool :=
  (lo <=? nat_of_ascii c) && (nat_of_ascii c <=? hi).

(* ASCII letters. *)
Definition is_upper (c : ascii) : bool := in_range 65 90 c.
Definition is_lower (c : ascii) : bool := in_range 97 122 c.
Definition is_digit (c : ascii) : bool := in_range 48 57 c.

Definition lower_byte (c : ascii) : ascii :=
  if is_upper c then ascii_of_nat (nat_of_ascii c + 32) else c.
Definition upper_byte (c : ascii) : ascii :=
  if is_lower c then ascii_of_nat (nat_of_ascii c - 32) else c.

(* Go strings.ToLower.  ASCII letters are folded; of the non-ASCII runes only
   U+0130 (bytes C4 B0) and U+212A (bytes E2 84 AA) have an ASCII lower case
   ('i' and 'k').  SIMPLIFIED: every other non-ASCII byte is kept, Go would
   fold other scripts and replace invalid UTF-8 by U+FFFD; no such rune can
   become an ASCII byte or make one disappear. *)
Fixpoint to_lower (s : string) : string :=
  match s with
  | EmptyString => EmptyString
  | String c s1 =>
      match s1 with
      | String d s2 =>
          if Ascii.eqb c "196" && Ascii.eqb d "176" then String "i" (to_lower s2)
          else match s2 with
               | String e s3 =>
                   if Ascii.eqb c "226" && Ascii.eqb d "132" && Ascii.eqb e "170"
                   then String "k" (to_lower s3)
                   else String (lower_byte c) (to_lower s1)
               | EmptyString => String (lower_byte c) (to_lower s1)
               end
      | EmptyString => String (lower_byte c) (to_lower s1)
      end
  end.

(* Go strings.ToUpper.  As above; the non-ASCII runes with an ASCII upper case
   are U+0131 (C4 B1, 'I') and U+017F (C5 BF, 'S').  Same simplification. *)
Fixpoint to_upper (s : string) : string :=
  match s with
  | EmptyString => EmptyString
  | String c s1 =>
      match s1 with
      | String d s2 =>
          if Ascii.eqb c "196" && Ascii.eqb d "177" then String "I" (to_upper s2)
          else if Ascii.eqb c "197" && Ascii.eqb d "191" then String "S" (to_upper s2)
          else String (upper_byte c) (to_upper s1)
      | EmptyString => String (upper_byte c) (to_upper s1)
      end
  end.

(* Membership as a boolean. *)
Definition mem (x : string) (l : list string) : bool := existsb (String.eqb x) l.

(* Decimal rendering of a natural number. *)
Definition digit_of (n : nat) : ascii := ascii_of_nat (48 + n).

(* ------------------------------------------------------------------ *)
(* Lemmas                                                               *)

Lemma app_assoc_s a b c : (a ^^ b) ^^ c = a ^^ b ^^ c.
Proof. induction a; simpl; congruence. Qed.

Lemma app_nil_r_s a : a ^^ "" = a.
Proof. induction a; simpl; congruence. Qed.

Lemma length_app_s a b : String.length (a ^^ b) = String.length a + String.length b.
Proof. induction a; simpl; congruence. Qed.

Lemma app_inv_head_s a b c : a ^^ b = a ^^ c -> b = c.
Proof. induction a; simpl; intros H; [exact H|]. injection H; auto. Qed.

Lemma app_inv_tail_s a : forall b c, b ^^ a = c ^^ a -> b = c.
Proof.
  assert (L : forall x, a <> String x EmptyString ^^ a) by
    (intros x E; apply (f_equal String.length) in E; simpl in E; lia).
  induction b; destruct c as [|y c]; simpl; intros H; auto.
  - apply (f_equal String.length) in H. simpl in H. rewrite length_app_s in H. lia.
  - apply (f_equal String.length) in H. simpl in H. rewrite length_app_s in H. lia.
  - injection H as -> H. f_equal. auto.
Qed.

Lemma prefix_iff p : forall s, String.prefix p s = true <-> exists r, s = p ^^ r.
Proof.
  induction p as [|c p IH]; intros s.
  - split; [intros _; exists s; reflexivity | destruct s; reflexivity].
  - destruct s as [|d s].
    + split; [discriminate | intros [r H]; discriminate].
    + cbn [String.prefix]. destruct (ascii_dec c d) as [->|N].
      * rewrite IH. split; intros [r H]; exists r; [subst; reflexivity | injection H; auto].
      * split; [discriminate | intros [r H]; injection H; congruence].
Qed.

Lemma prefix_app p s : String.prefix p (p ^^ s) = true.
Proof. apply prefix_iff. eauto. Qed.

Lemma sdrop_app p : forall s, sdrop (String.length p) (p ^^ s) = s.
Proof. induction p; simpl; auto. Qed.

Lemma prefix_split p s : String.prefix p s = true -> s = p ^^ sdrop (String.length p) s.
Proof. intros H. apply prefix_iff in H as [r ->]. rewrite sdrop_app. reflexivity. Qed.

Lemma sforall_app p a : forall b, sforall p (a ^^ b) = sforall p a && sforall p b.
Proof. induction a; simpl; intros; auto. rewrite IHa, andb_assoc. reflexivity. Qed.

Lemma sforall_impl (p q : ascii -> bool) s :
  (forall c, p c = true -> q c = true) -> sforall p s = true -> sforall q s = true.
Proof.
  intros H. induction s; simpl; auto. rewrite !andb_true_iff. intros [? ?]; auto.
Qed.

Lemma span_app p : forall s a b, span p s = (a, b) -> s = a ^^ b.
Proof.
  induction s as [|c s IH]; simpl; intros a b H.
  - injection H as <- <-. reflexivity.
  - destruct (p c).
    + destruct (span p s) as [x y] eqn:E. injection H as <- <-.
      simpl. rewrite (IH _ _ eq_refl) at 1. reflexivity.
    + injection H as <- <-. reflexivity.
Qed.

Lemma span_forall p : forall s a b, span p s = (a, b) -> sforall p a = true.
Proof.
  induction s as [|c s IH]; simpl; intros a b H.
  - injection H as <- <-. reflexivity.
  - destruct (p c) eqn:Hc.
    + destruct (span p s) as [x y] eqn:E. injection H as <- <-.
      simpl. rewrite Hc, (IH _ _ eq_refl). reflexivity.
    + injection H as <- <-. reflexivity.
Qed.

Lemma span_stop p : forall s a b, span p s = (a, b) ->
  match b with EmptyString => True | String c _ => p c = false end.
Proof.
  induction s as [|c s IH]; simpl; intros a b H.
  - injection H as <- <-. exact I.
  - destruct (p c) eqn:Hc.
    + destruct (span p s) as [x y] eqn:E. injection H as <- <-. apply (IH _ _ eq_refl).
    + injection H as <- <-. exact Hc.
Qed.

(* [span] on a string of the form run ++ stop. *)
Lemma span_exact p : forall a b, sforall p a = true ->
  match b with EmptyString => True | String c _ => p c = false end ->
  span p (a ^^ b) = (a, b).
Proof.
  induction a as [|c a IH]; simpl; intros b Ha Hb.
  - destruct b as [|c b]; [reflexivity|]. simpl. rewrite Hb. reflexivity.
  - apply andb_true_iff in Ha as [Hc Ha]. rewrite Hc, (IH b Ha Hb). reflexivity.
Qed.

Lemma eqb_true_s a b : String.eqb a b = true <-> a = b.
Proof. apply String.eqb_eq. Qed.

Lemma eqb_false_s a b : String.eqb a b = false <-> a <> b.
Proof. apply String.eqb_neq. Qed.

Lemma mem_In x l : mem x l = true <-> In x l.
Proof.
  unfold mem. rewrite existsb_exists. split.
  - intros [y [H1 H2]]. apply String.eqb_eq in H2. subst. auto.
  - intros H. exists x. split; auto. apply String.eqb_refl.
Qed.

Lemma mem_not_In x l : mem x l = false <-> ~ In x l.
Proof. rewrite <- mem_In. destruct (mem x l); split; congruence. Qed.

Lemma is_empty_true s : is_empty s = true <-> s = "".
Proof. destruct s; simpl; split; congruence. Qed.
