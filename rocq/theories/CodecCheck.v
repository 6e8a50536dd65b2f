(* Well formedness as a function, for the examples. *)
From Coq Require Import Lia.
From Verif Require Import Str SMap Json CodecModel CodecTables CodecSpec CodecProofs CodecEnc CodecRound.

Definition idq (q : Q) : Q := q.

Fixpoint nodups (l : list string) : bool :=
  match l with [] => true | x :: l => negb (in_list x l) && nodups l end.
Lemma nodups_ok l : nodups l = true <-> NoDup l.
Proof.
  induction l as [|x l IH]; cbn [nodups]; [split; [constructor|reflexivity]|].
  rewrite andb_true_iff, negb_true_iff, <- not_true_iff_false, in_list_In, IH. split.
  - intros [A B]. constructor; assumption.
  - intros H. inversion H; subst. auto.
Qed.

Section Clean.
  Variable rnd : Q -> Q.
  (* Numbers known to be float64. *)
  Variable okq : Q -> bool.
  Hypothesis okq_ok : forall q, okq q = true -> rnd q = q.

  Fixpoint cleanq (j : json) : bool :=
    match j with
    | JNum q => okq q
    | JArr l => forallb cleanq l
    | JObj m => nodups (map fst m) && forallb (fun kj => cleanq (snd kj)) m
    | _ => true
    end.

  Lemma cleanq_ok : forall j, cleanq j = true -> clean rnd j.
  Proof.
    induction j as [|b|q|s|l IH|m IH] using json_ind'; cbn [cleanq]; intros H; constructor; auto.
    - rewrite forallb_forall in H. rewrite Forall_forall in IH. auto.
    - apply andb_true_iff in H. apply nodups_ok. apply H.
    - apply andb_true_iff in H. destruct H as [_ H]. rewrite forallb_forall in H. rewrite Forall_forall in IH.
      intros k j I. apply (IH _ I). exact (H _ I).
  Qed.
End Clean.
Definition every (q : Q) : bool := true.
Lemma every_ok q : every q = true -> idq q = q.
Proof. reflexivity. Qed.
Lemma cleanb_ok j : cleanq every j = true -> clean idq j.
Proof. apply cleanq_ok. exact every_ok. Qed.

Section Wfb.
  Variable rnd : Q -> Q.
  Variable okq : Q -> bool.
  Hypothesis okq_ok : forall q, okq q = true -> rnd q = q.
  Variable T : list (string * ent).
  Variable derived : string -> bool.
  Variable extra : string -> list val -> bool.

  Definition hollowb (v : val) : bool := match v with VArr [] | VMap [] => true | _ => false end.
  Definition field_okb (n : string) (d : dprog) (i : nat) (f : field) (v : val) : bool :=
    (negb (f_omit f) || negb (hollowb v)) &&
    forallb (fun pi => negb (Nat.eqb (snd pi) i) || negb (hollowb v) && forallb (matches (fst pi)) (map_keys v)) (d_pats d) &&
    (negb (existsb (Nat.eqb i) (d_addl d)) ||
     negb (hollowb v) && forallb (fun k => forallb (fun pi => negb (matches (fst pi) k)) (d_pats d)) (map_keys v)) &&
    (negb (derived n) || negb (existsb (Nat.eqb i) (d_embed d ++ d_oneof d)) || is_nil v).
  Definition one_altb (n : string) (d : dprog) (l : list val) : bool :=
    derived n || match d_oneof d with [] => true | _ => false end ||
    existsb (fun i => match nth_error l i with
                      | Some (VPtr _) => forallb (fun k => Nat.eqb k i || match nth_error l k with Some VNil => true | _ => false end) (d_oneof d)
                      | _ => false
                      end) (d_oneof d).
  Fixpoint fields_wfb (n : string) (d : dprog) (i : nat) (fs : list field) (l : list (val * (ty -> bool))) : bool :=
    match fs, l with
    | [], [] => true
    | f :: fs, vw :: l => snd vw (f_ty f) && field_okb n d i f (fst vw) && fields_wfb n d (S i) fs l
    | _, _ => false
    end.
  Fixpoint wfb (v : val) : ty -> bool := fun t =>
    match v with
    | VNil => match t with TSkip | TPtr _ | TArr _ | TMap _ => true | _ => false end
    | VStr s =>
        match t with
        | TStr => true
        | TNamed n => match get n T with Some (EEnum vals) => in_list s vals | _ => false end
        | _ => false
        end
    | VNum q => match t with TInt => int64b q | TFloat => okq q | _ => false end
    | VBool _ => match t with TBool => true | _ => false end
    | VAny j => match t with TAny => cleanq okq j | _ => false end
    | VPtr v => match t with TPtr t => wfb v t | _ => false end
    | VArr l => match t with TArr t => forallb (fun v => wfb v t) l | _ => false end
    | VMap m => match t with TMap t => nodups (map fst m) && forallb (fun kv => wfb (snd kv) t) m | _ => false end
    | VStruct l =>
        match t with
        | TNamed n =>
            match get n T with
            | Some (EStruct fs _ d) =>
                fields_wfb n d 0 fs (map (fun v => (v, wfb v)) l) && one_altb n d l && extra n l
            | _ => false
            end
        | _ => false
        end
    end.

  Lemma hollowb_ok v : hollowb v = false -> ~ hollow v.
  Proof. intros H [->| ->]; discriminate. Qed.

  Lemma field_okb_ok n d i f v : field_okb n d i f v = true -> field_ok derived n d i f v.
  Proof.
    unfold field_okb. rewrite !andb_true_iff. intros [[[A B] C] D]. rewrite forallb_forall in B. constructor.
    - intros O. rewrite O in A. cbn in A. apply negb_true_iff in A. apply hollowb_ok. exact A.
    - intros p I. specialize (B _ I). cbn [fst snd] in B. rewrite Nat.eqb_refl in B. cbn [negb orb] in B. apply andb_true_iff in B. destruct B as [B1 B2].
      apply negb_true_iff in B1. split; [apply hollowb_ok; exact B1|]. rewrite forallb_forall in B2. intros k Ik. apply matches_legal. auto.
    - intros I. assert (X : existsb (Nat.eqb i) (d_addl d) = true) by (apply existsb_exists; exists i; split; [exact I|apply Nat.eqb_refl]).
      rewrite X in C. cbn [negb orb] in C. apply andb_true_iff in C. destruct C as [C1 C2]. apply negb_true_iff in C1. split; [apply hollowb_ok; exact C1|].
      rewrite forallb_forall in C2. intros k p j Ik Ip Lk. specialize (C2 k Ik). rewrite forallb_forall in C2. specialize (C2 _ Ip). cbn [fst] in C2.
      apply matches_legal in Lk. rewrite Lk in C2. discriminate.
    - intros Dn I. assert (X : existsb (Nat.eqb i) (d_embed d ++ d_oneof d) = true) by (apply existsb_exists; exists i; split; [exact I|apply Nat.eqb_refl]).
      rewrite Dn, X in D. cbn in D. destruct v; try discriminate D. reflexivity.
  Qed.

  Lemma one_altb_ok n d l : one_altb n d l = true -> derived n = false -> d_oneof d <> [] -> one_alt d l.
  Proof.
    unfold one_altb. intros H Dn NE. rewrite Dn in H. destruct (d_oneof d) as [|o os] eqn:Eo; [congruence|]. rewrite <- Eo in *. cbn [orb] in H.
    replace (match d_oneof d with [] => true | _ => false end) with false in H by (rewrite Eo; reflexivity). cbn [orb] in H.
    apply existsb_exists in H. destruct H as (i & I & H). destruct (nth_error l i) as [[]|] eqn:Ei; try discriminate H.
    rewrite forallb_forall in H. exists i, v. split; [exact I|]. split; [exact Ei|]. intros k Ik Nk. specialize (H k Ik).
    apply orb_true_iff in H. destruct H as [H|H]; [apply Nat.eqb_eq in H; congruence|]. destruct (nth_error l k) as [[]|]; try discriminate H. reflexivity.
  Qed.

  Lemma fields_wfb_ok n d : forall fs l i0, fields_wfb n d i0 fs (map (fun v => (v, wfb v)) l) = true ->
    length fs = length l /\ forall i f v, nth_error fs i = Some f -> nth_error l i = Some v -> wfb v (f_ty f) = true /\ field_ok derived n d (i0 + i) f v.
  Proof.
    induction fs as [|f fs IH]; intros [|v l] i0 H; cbn [map fields_wfb] in H; try discriminate H; [split; [reflexivity|intros [] f v E; discriminate E]|].
    rewrite !andb_true_iff in H. cbn [fst snd] in H. destruct H as [[A B] C]. apply IH in C. destruct C as [L C]. split; [cbn; congruence|].
    intros [|i] f' v' Ef Ev; cbn [nth_error] in Ef, Ev.
    - injection Ef as <-. injection Ev as <-. rewrite Nat.add_0_r. split; [exact A|apply field_okb_ok; exact B].
    - rewrite <- Nat.add_succ_comm. exact (C i f' v' Ef Ev).
  Qed.

  Lemma wfb_ok : forall m v t, vsize v < m -> wfb v t = true -> wf T rnd derived extra t v.
  Proof.
    induction m as [|m IH]; intros v t Sz H; [lia|].
    destruct v as [|s|q|b|j|v|l|mp|l]; cbn [wfb] in H.
    - destruct t; try discriminate H; constructor.
    - destruct t; try discriminate H; [constructor|]. destruct (get n T) as [[vals|]|] eqn:G; try discriminate H. econstructor; [exact G|].
      apply in_list_In. exact H.
    - destruct t; try discriminate H; [|constructor; apply okq_ok; exact H]. destruct q as [z p]. unfold int64b in H. cbn [Qden Qnum] in H.
      rewrite !andb_true_iff, Pos.eqb_eq, !Z.leb_le in H. destruct H as [[-> A] B]. change (Qmake z 1) with (inject_Z z). constructor.
      change (-2 ^ 63)%Z with (-9223372036854775808)%Z. change (2 ^ 63)%Z with 9223372036854775808%Z. lia.
    - destruct t; try discriminate H; constructor.
    - destruct t; try discriminate H. constructor. apply (cleanq_ok rnd okq okq_ok). exact H.
    - destruct t; try discriminate H. constructor. apply IH; [|exact H]. pose proof (vsize_ptr v). lia.
    - destruct t; try discriminate H. constructor. rewrite forallb_forall in H. intros v I. apply IH; [|auto]. pose proof (vsize_arr v l I). lia.
    - destruct t; try discriminate H. apply andb_true_iff in H. destruct H as [A B]. rewrite forallb_forall in B. constructor; [apply nodups_ok; exact A|].
      intros k v I. apply IH; [|exact (B _ I)]. pose proof (vsize_map k v mp I). lia.
    - destruct t; try discriminate H. destruct (get n T) as [[|fs parts d]|] eqn:G; try discriminate H. rewrite !andb_true_iff in H. destruct H as [[A B] C].
      apply fields_wfb_ok in A. destruct A as [L A]. econstructor; [exact G|exact L| | | |exact C].
      + intros i f v Ef Ev. apply IH; [|exact (proj1 (A i f v Ef Ev))]. pose proof (vsize_struct i v l Ev). lia.
      + intros i f v Ef Ev. exact (proj2 (A i f v Ef Ev)).
      + intros Dn NE. exact (one_altb_ok n d l B Dn NE).
  Qed.
End Wfb.

Definition wfb30 (n : string) (v : val) : bool := wfb every T30 derived30 extra30 v (TNamed n).
Definition wfb31 (n : string) (v : val) : bool := wfb every T31 derived31 extra31 v (TNamed n).
Lemma wfb30_ok n v : wfb30 n v = true -> wf T30 idq derived30 extra30 (TNamed n) v.
Proof. apply (wfb_ok idq every every_ok _ _ _ (S (vsize v))). lia. Qed.
Lemma wfb31_ok n v : wfb31 n v = true -> wf T31 idq derived31 extra31 (TNamed n) v.
Proof. apply (wfb_ok idq every every_ok _ _ _ (S (vsize v))). lia. Qed.

(* Without numbers that have to be float64. *)
Definition wfi30 (n : string) (v : val) : bool := wfb (fun _ => false) T30 derived30 extra30 v (TNamed n).
Definition wfi31 (n : string) (v : val) : bool := wfb (fun _ => false) T31 derived31 extra31 v (TNamed n).
Lemma wfi30_ok rnd n v : wfi30 n v = true -> wf T30 rnd derived30 extra30 (TNamed n) v.
Proof. apply (wfb_ok rnd (fun _ => false) (fun q E => match Bool.diff_false_true E with end) _ _ _ (S (vsize v))). lia. Qed.
Lemma wfi31_ok rnd n v : wfi31 n v = true -> wf T31 rnd derived31 extra31 (TNamed n) v.
Proof. apply (wfb_ok rnd (fun _ => false) (fun q E => match Bool.diff_false_true E with end) _ _ _ (S (vsize v))). lia. Qed.
