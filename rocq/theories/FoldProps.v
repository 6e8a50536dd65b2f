(* C89: which names of members are taken for the name of a field. *)
From Coq Require Import Lia.
From Verif Require Import Str SMap Json CodecModel CodecTables CodecSpec OrdSpec UsedSpec.

(* The same letters, upper or lower case; the long s (U+017F, in UTF-8 C5 BF)
   and the Kelvin sign (U+212A, E2 84 AA) are an s and a k. *)
Definition letters : string := "abcdefghijklmnopqrstuvwxyz".
Definition capitals : string := "ABCDEFGHIJKLMNOPQRSTUVWXYZ".
Definition same_letter (c d : ascii) : Prop :=
  c = d \/ exists i, (String.get i letters = Some c /\ String.get i capitals = Some d) \/ (String.get i capitals = Some c /\ String.get i letters = Some d).
Definition long_s : string := String (ascii_of_nat 197) (String (ascii_of_nat 191) "").
Definition kelvin : string := String (ascii_of_nat 226) (String (ascii_of_nat 132) (String (ascii_of_nat 170) "")).
Inductive alike : string -> string -> Prop :=
| al_end : alike "" ""
| al_byte c d k q : same_letter c d -> alike k q -> alike (String c k) (String d q)
| al_s d k q : d = "s"%char \/ d = "S"%char -> alike k q -> alike (long_s ^^ k) (String d q)
| al_k d k q : d = "k"%char \/ d = "K"%char -> alike k q -> alike (kelvin ^^ k) (String d q).

Fixpoint plain_ascii (s : string) : bool := match s with String c s => (nat_of_ascii c <? 128) && plain_ascii s | EmptyString => true end.

Definition index_of (c : ascii) : nat := nat_of_ascii (lower_byte c) - 97.
Definition same_letterb (c d : ascii) : bool :=
  Ascii.eqb c d ||
  match String.get (index_of c) letters, String.get (index_of c) capitals with
  | Some a, Some b => (Ascii.eqb a c && Ascii.eqb b d) || (Ascii.eqb b c && Ascii.eqb a d)
  | _, _ => false
  end.
Lemma same_letterb_ok c d : same_letterb c d = true -> same_letter c d.
Proof.
  unfold same_letterb. intros H. apply orb_prop in H. destruct H as [H|H]; [left; apply Ascii.eqb_eq; exact H|]. right. exists (index_of c).
  destruct (String.get _ letters), (String.get _ capitals); try discriminate. apply orb_prop in H.
  destruct H as [H|H]; apply andb_prop in H; destruct H as [A B]; apply Ascii.eqb_eq in A; apply Ascii.eqb_eq in B; subst; auto.
Qed.
Definition bytes : list ascii := map ascii_of_nat (seq 0 256).
Lemma in_bytes c : In c bytes.
Proof. unfold bytes. rewrite <- (ascii_nat_embedding c). apply in_map. apply in_seq. pose proof (nat_ascii_bounded c). lia. Qed.
Lemma lower_same : forall c d, lower_byte c = lower_byte d -> same_letter c d.
Proof.
  assert (H : forallb (fun c => forallb (fun d => negb (Ascii.eqb (lower_byte c) (lower_byte d)) || same_letterb c d) bytes) bytes = true) by (vm_compute; reflexivity).
  intros c d E. apply same_letterb_ok. rewrite forallb_forall in H. specialize (H c (in_bytes c)). rewrite forallb_forall in H. specialize (H d (in_bytes d)).
  rewrite E, Ascii.eqb_refl in H. exact H.
Qed.
Lemma get_small i c : String.get i letters = Some c \/ String.get i capitals = Some c -> i < 26.
Proof. intros H. do 26 (destruct i as [|i]; [lia|]). destruct H as [H|H]; cbn in H; destruct i; discriminate H. Qed.
Lemma same_lower : forall c d, same_letter c d -> lower_byte c = lower_byte d.
Proof.
  intros c d [->|(i & [[A B]|[A B]])]; [reflexivity| |]; pose proof (get_small i c (ltac:(auto))) as L;
    do 26 (destruct i as [|i]; [cbn in A, B; injection A as <-; injection B as <-; reflexivity|]); lia.
Qed.
Lemma lower_ascii : forall c, nat_of_ascii c < 128 -> nat_of_ascii (lower_byte c) < 128.
Proof.
  assert (H : forallb (fun c => negb (nat_of_ascii c <? 128) || (nat_of_ascii (lower_byte c) <? 128)) bytes = true) by (vm_compute; reflexivity).
  intros c L. rewrite forallb_forall in H. specialize (H c (in_bytes c)). apply Nat.ltb_lt in L. rewrite L in H. apply Nat.ltb_lt. exact H.
Qed.

Lemma fold_ascii c s : nat_of_ascii c < 128 -> fold_key (String c s) = String (lower_byte c) (fold_key s).
Proof.
  intros L. cbn [fold_key]. assert (A : Ascii.eqb c "197" = false) by (apply Ascii.eqb_neq; intros ->; vm_compute in L; lia).
  assert (B : Ascii.eqb c "226" = false) by (apply Ascii.eqb_neq; intros ->; vm_compute in L; lia). rewrite A, B. cbn [andb]. destruct s as [|d [|e s]]; reflexivity.
Qed.
Lemma fold_cases c s : (exists k, String c s = long_s ^^ k /\ fold_key (String c s) = String "s" (fold_key k)) \/
  (exists k, String c s = kelvin ^^ k /\ fold_key (String c s) = String "k" (fold_key k)) \/
  fold_key (String c s) = String (lower_byte c) (fold_key s).
Proof.
  cbn [fold_key]. destruct s as [|d s]; [auto|]. destruct (Ascii.eqb c "197" && Ascii.eqb d "191") eqn:A.
  - apply andb_prop in A. destruct A as [A B]. apply Ascii.eqb_eq in A. apply Ascii.eqb_eq in B. subst. left. exists s. split; reflexivity.
  - destruct s as [|e s]; [auto|]. destruct (Ascii.eqb c "226" && Ascii.eqb d "132" && Ascii.eqb e "170") eqn:E; [|auto].
    apply andb_prop in E. destruct E as [E C]. apply andb_prop in E. destruct E as [E D]. apply Ascii.eqb_eq in E. apply Ascii.eqb_eq in D. apply Ascii.eqb_eq in C. subst.
    right. left. exists s. split; reflexivity.
Qed.
Lemma fold_long_s k : fold_key (long_s ^^ k) = String "s" (fold_key k).
Proof. destruct k as [|c k]; reflexivity. Qed.
Lemma fold_kelvin k : fold_key (kelvin ^^ k) = String "k" (fold_key k).
Proof. destruct k as [|c k]; reflexivity. Qed.
Lemma lower_of x d : x = lower_byte d -> same_letter x d.
Proof. intros ->. apply lower_same. assert (H : forallb (fun c => Ascii.eqb (lower_byte (lower_byte c)) (lower_byte c)) bytes = true) by (vm_compute; reflexivity).
  rewrite forallb_forall in H. apply Ascii.eqb_eq. exact (H d (in_bytes d)). Qed.

Lemma fold_same : forall q, plain_ascii q = true -> forall k, fold_key k = fold_key q <-> alike k q.
Proof.
  induction q as [|d q IH]; intros P k.
  - split; intros H; [|inversion H; reflexivity]. destruct k as [|c s]; [constructor|].
    destruct (fold_cases c s) as [(k & _ & E)|[(k & _ & E)|E]]; rewrite E in H; discriminate H.
  - cbn [plain_ascii] in P. apply andb_prop in P. destruct P as [L P]. apply Nat.ltb_lt in L. rewrite (fold_ascii d q L). split; intros H.
    + destruct k as [|c s]; [discriminate H|]. destruct (fold_cases c s) as [(k & E0 & E)|[(k & E0 & E)|E]]; rewrite E in H; injection H as H1 H2; apply (IH P) in H2.
      * rewrite E0. apply al_s; [|exact H2]. revert H1. clear. assert (H : forallb (fun d => negb (Ascii.eqb "s" (lower_byte d)) || Ascii.eqb d "s" || Ascii.eqb d "S") bytes = true) by (vm_compute; reflexivity).
        intros E. rewrite forallb_forall in H. specialize (H d (in_bytes d)). rewrite <- E in H. cbn [Ascii.eqb Bool.eqb negb orb] in H.
        apply orb_prop in H. destruct H as [H|H]; apply Ascii.eqb_eq in H; auto.
      * rewrite E0. apply al_k; [|exact H2]. revert H1. clear. assert (H : forallb (fun d => negb (Ascii.eqb "k" (lower_byte d)) || Ascii.eqb d "k" || Ascii.eqb d "K") bytes = true) by (vm_compute; reflexivity).
        intros E. rewrite forallb_forall in H. specialize (H d (in_bytes d)). rewrite <- E in H. cbn [Ascii.eqb Bool.eqb negb orb] in H.
        apply orb_prop in H. destruct H as [H|H]; apply Ascii.eqb_eq in H; auto.
      * apply al_byte; [apply lower_same; exact H1|exact H2].
    + inversion H as [|c d' k' q' S A E1 E2|d' k' q' S A E1 E2|d' k' q' S A E1 E2]; subst.
      * pose proof (same_lower c d S) as E. rewrite <- E. apply (IH P) in A. rewrite <- A. destruct (fold_cases c k') as [(x & E0 & _)|[(x & E0 & _)|E3]]; [| |exact E3].
        -- exfalso. injection E0 as Ec _. subst c. assert (X : lower_byte (ascii_of_nat 197) = ascii_of_nat 197) by (vm_compute; reflexivity). rewrite X in E.
           pose proof (lower_ascii d L) as Y. rewrite <- E in Y. vm_compute in Y. lia.
        -- exfalso. injection E0 as Ec _. subst c. assert (X : lower_byte (ascii_of_nat 226) = ascii_of_nat 226) by (vm_compute; reflexivity). rewrite X in E.
           pose proof (lower_ascii d L) as Y. rewrite <- E in Y. vm_compute in Y. lia.
      * rewrite fold_long_s. apply (IH P) in A. rewrite A. destruct S as [-> | ->]; reflexivity.
      * rewrite fold_kelvin. apply (IH P) in A. rewrite A. destruct S as [-> | ->]; reflexivity.
Qed.

(* A member is read into the field of the name [q] if its name is alike. *)
Theorem C89_same_name30 : forall q k, In q (field_keys T30) -> fold_key k = fold_key q <-> alike k q.
Proof.
  intros q k I. apply fold_same. assert (H : forallb plain_ascii (field_keys T30) = true) by (vm_compute; reflexivity). rewrite forallb_forall in H. exact (H q I).
Qed.
Theorem C89_same_name31 : forall q k, In q (field_keys T31) -> fold_key k = fold_key q <-> alike k q.
Proof.
  intros q k I. apply fold_same. assert (H : forallb plain_ascii (field_keys T31) = true) by (vm_compute; reflexivity). rewrite forallb_forall in H. exact (H q I).
Qed.
Example C89_names : In "description" (field_keys T30) /\ In "links" (field_keys T31) /\
  alike "dEsCRIPTION" "description" /\ alike ("de" ^^ long_s ^^ "cription") "description" /\ alike ("lin" ^^ kelvin ^^ long_s) "links" /\ ~ alike "lincs" "links".
Proof.
  split; [vm_compute; auto 200|]. split; [vm_compute; auto 200|].
  split; [apply fold_same; vm_compute; reflexivity|]. split; [apply fold_same; vm_compute; reflexivity|]. split; [apply fold_same; vm_compute; reflexivity|].
  intros H. apply fold_same in H; [discriminate H|reflexivity].
Qed.

(* ---------- assumptions ---------- *)

Print Assumptions C89_same_name30.
Print Assumptions C89_same_name31.
