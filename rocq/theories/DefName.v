(* Names of component schemas: internal/json_schema.go:27-33, 105-124;
   openapi3/reflect.go:574-580, openapi31/reflect.go:540-546. *)
From Verif Require Import Str SMap Json Types ReflectModel.

(* The class [a-zA-Z0-9.\-_]. *)
Definition name_byte (c : ascii) : bool :=
  is_upper c || is_lower c || is_digit c || Ascii.eqb c "." || Ascii.eqb c "-" || Ascii.eqb c "_".

(* defNameSanitizer.ReplaceAllString(s, ""): every maximal run of other runes
   is replaced by nothing.  A rune outside ASCII, also an invalid one, is in
   the class with all its bytes, so the bytes can be looked at one by one. *)
Fixpoint sanitize_def_name (s : string) : string :=
  match s with
  | EmptyString => EmptyString
  | String c s' => if name_byte c then String c (sanitize_def_name s') else sanitize_def_name s'
  end.

(* strings.Title of the tags in use: the first byte in upper case. *)
Definition title (s : string) : string :=
  match s with EmptyString => EmptyString | String c s' => String (upper_byte c) s' end.

(* The name of the definition of a type in a request body with the given tag:
   both InterceptDefName options in sequence.  [tagged] says whether the type
   has fields with the tag or with an additional one. *)
Definition body_def_name (tag : string) (tagged : bool) (default : string) : string :=
  sanitize_def_name (if negb (String.eqb tag tag_json) && tagged then title tag ^^ default else default).

(* ---------- specification ---------- *)

(* The bytes OpenAPI allows in component names. *)
Definition legal_bytes : list ascii :=
  list_ascii_of_string "ABCDEFGHIJKLMNOPQRSTUVWXYZabcdefghijklmnopqrstuvwxyz0123456789.-_".
Definition legal_name (s : string) : Prop := forall a c b, s = a ^^ String c b -> In c legal_bytes.

(* [t] consists of the legal bytes of [s] in order. *)
Inductive legal_part : string -> string -> Prop :=
| lp_nil : legal_part "" ""
| lp_keep c s t : In c legal_bytes -> legal_part s t -> legal_part (String c s) (String c t)
| lp_drop c s t : ~ In c legal_bytes -> legal_part s t -> legal_part (String c s) t.

(* ---------- proofs ---------- *)

Lemma name_byte_legal c : name_byte c = true <-> In c legal_bytes.
Proof.
  rewrite <- (ascii_nat_embedding c). pose proof (nat_ascii_bounded c) as L.
  revert L. generalize (nat_of_ascii c). intros n L.
  assert (F : forallb (fun n => eqb (name_byte (ascii_of_nat n))
                         (if in_dec ascii_dec (ascii_of_nat n) legal_bytes then true else false)) (seq 0 256) = true)
    by (vm_compute; reflexivity).
  rewrite forallb_forall in F. specialize (F n). rewrite in_seq in F.
  assert (E := F (conj (Nat.le_0_l n) L)). apply eqb_prop in E. rewrite E.
  destruct (in_dec ascii_dec (ascii_of_nat n) legal_bytes); split; intros; try tauto; discriminate.
Qed.

Lemma sanitize_part s : legal_part s (sanitize_def_name s).
Proof.
  induction s as [|c s IH]; simpl; [constructor|]. destruct (name_byte c) eqn:E.
  - constructor; [apply name_byte_legal; exact E|exact IH].
  - constructor; [|exact IH]. intros I. apply name_byte_legal in I. congruence.
Qed.

Lemma part_fun s t t' : legal_part s t -> legal_part s t' -> t = t'.
Proof.
  intros H. revert t'. induction H as [|c s t I H IH|c s t I H IH]; intros t' H'; inversion H'; subst; try tauto.
  f_equal. auto. auto.
Qed.

Lemma part_legal s t : legal_part s t -> legal_name t.
Proof.
  induction 1 as [|c s t I H IH|c s t I H IH]; intros a x b E.
  - destruct a; discriminate.
  - destruct a as [|y a]; simpl in E; injection E as -> E; [exact I|]. eapply IH; eauto.
  - eapply IH; eauto.
Qed.

Lemma legal_id s : legal_name s -> sanitize_def_name s = s.
Proof.
  induction s as [|c s IH]; intros L; simpl; [reflexivity|].
  rewrite (proj2 (name_byte_legal c)) by (apply (L "" c s); reflexivity). f_equal. apply IH.
  intros a x b E. apply (L (String c a) x b). simpl. congruence.
Qed.

Lemma sanitize_app a b : sanitize_def_name (a ^^ b) = sanitize_def_name a ^^ sanitize_def_name b.
Proof. induction a as [|c a IH]; simpl; [reflexivity|]. destruct (name_byte c); simpl; congruence. Qed.
