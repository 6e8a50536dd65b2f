(* Decoding does not depend on the order of members: proofs. *)
From Coq Require Import Permutation Lia.
From Verif Require Import Str SMap Json CodecModel CodecSpec CodecProofs OrdModel OrdSpec.

(* ---------- relations ---------- *)

Section ValInd.
  Variable P : val -> Prop.
  Hypothesis Hnil : P VNil.
  Hypothesis Hstr : forall s, P (VStr s).
  Hypothesis Hnum : forall q, P (VNum q).
  Hypothesis Hbool : forall b, P (VBool b).
  Hypothesis Hany : forall j, P (VAny j).
  Hypothesis Hptr : forall v, P v -> P (VPtr v).
  Hypothesis Harr : forall l, Forall P l -> P (VArr l).
  Hypothesis Hmap : forall m, Forall (fun kv => P (snd kv)) m -> P (VMap m).
  Hypothesis Hstruct : forall l, Forall P l -> P (VStruct l).
  Fixpoint val_ind' (v : val) : P v :=
    match v with
    | VNil => Hnil | VStr s => Hstr s | VNum q => Hnum q | VBool b => Hbool b | VAny j => Hany j
    | VPtr v => Hptr v (val_ind' v)
    | VArr l => Harr l ((fix go l : Forall P l := match l with [] => Forall_nil _ | x :: r => Forall_cons _ (val_ind' x) (go r) end) l)
    | VMap m => Hmap m ((fix go m : Forall (fun kv : string * val => P (snd kv)) m := match m with [] => Forall_nil _ | x :: r => Forall_cons _ (val_ind' (snd x)) (go r) end) m)
    | VStruct l => Hstruct l ((fix go l : Forall P l := match l with [] => Forall_nil _ | x :: r => Forall_cons _ (val_ind' x) (go r) end) l)
    end.
End ValInd.

Lemma F2_refl {A} (R : A -> A -> Prop) l : Forall (fun x => R x x) l -> Forall2 R l l.
Proof. induction 1; constructor; assumption. Qed.
Lemma F2_sym {A} (R : A -> A -> Prop) l l' : Forall (fun x => forall y, R x y -> R y x) l -> Forall2 R l l' -> Forall2 R l' l.
Proof. intros F H. induction H; constructor; inversion F; subst; auto. Qed.
Lemma F2_trans {A} (R : A -> A -> Prop) : forall l1 l2 l3, Forall (fun x => forall y z, R x y -> R y z -> R x z) l1 ->
  Forall2 R l1 l2 -> Forall2 R l2 l3 -> Forall2 R l1 l3.
Proof.
  intros l1 l2 l3 F H. revert l3 F. induction H; intros l3 F H2; inversion H2; subst; constructor; inversion F; subst; eauto.
Qed.
Lemma F2_impl {A B} (R R' : A -> B -> Prop) l l' : (forall a b, R a b -> R' a b) -> Forall2 R l l' -> Forall2 R' l l'.
Proof. intros H. induction 1; constructor; auto. Qed.
Lemma F2_flip {A B} (R : A -> B -> Prop) l l' : Forall2 R l l' <-> Forall2 (fun b a => R a b) l' l.
Proof. split; induction 1; constructor; assumption. Qed.
Lemma F2_In_l {A B} (R : A -> B -> Prop) l l' a : Forall2 R l l' -> In a l -> exists b, In b l' /\ R a b.
Proof. induction 1 as [|x y l l' H F IH]; intros I; [destruct I|]. destruct I as [->|I]; [exists y; split; [left; reflexivity|exact H]|]. destruct (IH I) as (b & A1 & A2). exists b. split; [right; exact A1|exact A2]. Qed.
Lemma Forall_perm {A} (P : A -> Prop) l l' : Permutation l l' -> Forall P l -> Forall P l'.
Proof. intros H F. apply Forall_forall. intros x I. rewrite Forall_forall in F. apply F. eapply Permutation_in; [apply Permutation_sym; exact H|exact I]. Qed.
Lemma perm_F2_r {A B} (R : A -> B -> Prop) l1 l2 l2' : Permutation l2 l2' -> Forall2 R l1 l2 -> exists l1', Permutation l1 l1' /\ Forall2 R l1' l2'.
Proof. intros H F. apply F2_flip in F. destruct (Permutation_Forall2 H F) as (l1' & A1 & A2). exists l1'. split; [exact A1|apply F2_flip; exact A2]. Qed.

Lemma ro_refl : forall j, reordered j j.
Proof.
  induction j as [|b|q|s|l IH|m IH] using json_ind'; try constructor.
  - apply F2_refl. exact IH.
  - apply ro_obj with m; [reflexivity|]. apply F2_refl. eapply Forall_impl; [|exact IH]. intros a H. split; [reflexivity|exact H].
Qed.
Lemma ro_sym : forall j j', reordered j j' -> reordered j' j.
Proof.
  induction j as [|b|q|s|l IH|m IH] using json_ind'; intros j' H; inversion H; subst; try constructor.
  - apply F2_sym; assumption.
  - match goal with P : Permutation m ?m1, F : Forall2 _ ?m1 _ |- _ => rename P into Pm; rename F into Fm end.
    apply (Forall_perm _ _ _ Pm) in IH. apply F2_flip in Fm. apply Permutation_sym in Pm.
    destruct (perm_F2_r _ _ _ _ Pm Fm) as (m2 & A1 & A2). apply ro_obj with m2; [exact A1|].
    apply (Forall_perm _ _ _ Pm) in IH. clear - IH A2. induction A2 as [|a b l l' [E R] F IHF]; constructor; inversion IH; subst; auto. 
Qed.
Lemma ro_trans : forall j1 j2 j3, reordered j1 j2 -> reordered j2 j3 -> reordered j1 j3.
Proof.
  induction j1 as [|b|q|s|l IH|m IH] using json_ind'; intros j2 j3 H H2; inversion H; subst; inversion H2; subst; try constructor.
  - eapply F2_trans; eassumption.
  - match goal with P : Permutation m ?m1, F : Forall2 _ ?m1 ?m', P' : Permutation ?m' ?m2, F' : Forall2 _ ?m2 _ |- _ =>
      rename P into P1; rename F into F1; rename P' into P2; rename F' into F2' end.
    destruct (perm_F2_r _ _ _ _ P2 F1) as (m3 & A1 & A2). apply ro_obj with m3; [transitivity m1; assumption|].
    apply (Forall_perm _ _ _ (perm_trans P1 A1)) in IH. eapply F2_trans; [|exact A2|exact F2'].
    eapply Forall_impl; [|exact IH]. intros a Ha y z [E1 R1] [E2 R2]. split; [congruence|eauto].
Qed.

Lemma vs_refl : forall v, vsame v v.
Proof.
  induction v as [|s|q|b|j|v IH|l IH|m IH|l IH] using val_ind'; try constructor; auto using ro_refl.
  - apply F2_refl. exact IH.
  - intros k v E. exists v. split; [exact E|]. apply get_In in E. rewrite Forall_forall in IH. exact (IH _ E).
  - apply F2_refl. exact IH.
Qed.
Lemma vs_sym : forall v v', vsame v v' -> vsame v' v.
Proof.
  induction v as [|s|q|b|j|v IH|l IH|m IH|l IH] using val_ind'; intros v' H; inversion H; subst; try constructor; auto using ro_sym.
  - apply F2_sym; assumption.
  - intros k E. destruct (get k m) as [v|] eqn:G; [|reflexivity].
    match goal with X : forall k v, get k m = Some v -> _ |- _ => destruct (X k v G) as (w & A & _) end. congruence.
  - intros k v E. destruct (get k m) as [w|] eqn:G.
    + match goal with X : forall k v, get k m = Some v -> _ |- _ => destruct (X k w G) as (w' & A & B) end. exists w. split; [reflexivity|].
      rewrite E in A. injection A as <-. apply get_In in G. rewrite Forall_forall in IH. exact (IH _ G _ B).
    + match goal with X : forall k, get k m = None -> _ |- _ => rewrite (X k G) in E end. discriminate E.
  - apply F2_sym; assumption.
Qed.
Lemma vs_trans : forall v1 v2 v3, vsame v1 v2 -> vsame v2 v3 -> vsame v1 v3.
Proof.
  induction v1 as [|s|q|b|j|v IH|l IH|m IH|l IH] using val_ind'; intros v2 v3 H H2; inversion H; subst; inversion H2; subst; try constructor; eauto using ro_trans.
  - eapply F2_trans; eassumption.
  - intros k v E. match goal with X : forall k v, get k m = Some v -> _ |- _ => destruct (X k v E) as (w & A & B) end.
    match goal with X : forall k v, get k ?m' = Some v -> _, A : get k ?m' = Some w |- _ => destruct (X k w A) as (w' & A' & B') end.
    exists w'. split; [exact A'|]. apply get_In in E. rewrite Forall_forall in IH. exact (IH _ E _ _ B B').
  - eapply F2_trans; eassumption.
Qed.
Lemma vss_refl l : Forall2 vsame l l.
Proof. apply F2_refl. apply Forall_forall. intros x _. apply vs_refl. Qed.
Lemma vss_trans l1 l2 l3 : Forall2 vsame l1 l2 -> Forall2 vsame l2 l3 -> Forall2 vsame l1 l3.
Proof. apply F2_trans. apply Forall_forall. intros x _ y z. apply vs_trans. Qed.

Lemma agree_trans {A} (R : A -> A -> Prop) (Tr : forall x y z, R x y -> R y z -> R x z) a b c : agree R a b -> agree R b c -> agree R a c.
Proof. intros H H2. inversion H; subst; inversion H2; subst; constructor; eauto. Qed.
Lemma agree_refl {A} (R : A -> A -> Prop) (Rf : forall x, R x x) a : agree R a a.
Proof. destruct a; constructor; auto. Qed.

Lemma agree_case {A} (R : A -> A -> Prop) a b : agree R a b -> (a = None /\ b = None) \/ exists x y, a = Some x /\ b = Some y /\ R x y.
Proof. intros [|x y H]; [left; auto|right; eauto 6]. Qed.

(* ---------- decoders ---------- *)

(* For some types. *)
Definition drel (ok : ty -> Prop) (d1 d2 : decoder) : Prop := forall t v1 v2, ok t -> vsame v1 v2 -> agree vsame (d1 t v1) (d2 t v2).

Section Keys.
  Variable T : list (string * ent).
  (* What is decoded into what; whether members may be in another order. *)
  Variable ok : ty -> json -> Prop.
  Variable swap : Prop.
  Hypothesis OK : forall a b, ok (fst a) (snd a) -> reads T a b -> ok (fst b) (snd b).
  Hypothesis CL : swap -> forall n m fs ps d f q k x k' x', ok (TNamed n) (JObj m) -> get n T = Some (EStruct fs ps d) ->
    In f fs -> f_key f = Some q -> In (k, x) m -> In (k', x') m -> fold_key k = fold_key q -> fold_key k' = fold_key q ->
    k = k' \/ misfit (f_ty f) x \/ misfit (f_ty f) x'.

  Definition fails (a : string * (json * decoder)) (t : ty) : Prop := forall v, snd (snd a) t v = None.
  Definition clear (fs : list field) (ms : members) : Prop :=
    NoDup (map fst ms) /\ forall a b i f, In a ms -> In b ms -> find_field fs (fst a) = Some i -> find_field fs (fst b) = Some i -> nth_error fs i = Some f ->
      fst a = fst b \/ fails a (f_ty f) \/ fails b (f_ty f).

  Inductive jrel : json -> json -> Prop :=
  | jr_null : jrel JNull JNull
  | jr_bool b : jrel (JBool b) (JBool b)
  | jr_num q : jrel (JNum q) (JNum q)
  | jr_str s : jrel (JStr s) (JStr s)
  | jr_arr l l' : Forall2 jrel l l' -> jrel (JArr l) (JArr l')
  | jr_obj m m1 m' : Forall2 (fun a b => fst a = fst b /\ jrel (snd a) (snd b)) m m1 ->
      (m1 = m' \/ swap /\ NoDup (map fst m') /\ Permutation m1 m') -> jrel (JObj m) (JObj m').

  Definition mem (a b : string * (json * decoder)) : Prop :=
    fst a = fst b /\ jrel (fst (snd a)) (fst (snd b)) /\ drel (fun t => ok t (fst (snd a))) (snd (snd a)) (snd (snd b)) /\
    forall t, misfit t (fst (snd a)) -> fails b t.

  Lemma clear_perm fs ks ks' : Permutation ks ks' -> clear fs ks -> clear fs ks'.
  Proof.
    intros P [N C]. split; [eapply Permutation_NoDup; [apply Permutation_map|]; eassumption|]. intros a b i f Ia Ib. apply C; eapply Permutation_in; try (apply Permutation_sym; exact P); assumption.
  Qed.
  Lemma clear_tail fs k ks : clear fs (k :: ks) -> clear fs ks.
  Proof.
    intros [N C]. cbn [map] in N. inversion N; subst. split; [assumption|]. intros a b i f Ia Ib. apply C; right; assumption.
  Qed.
  Lemma F2_left {A B} (R : A -> B -> Prop) l l' b : Forall2 R l l' -> In b l' -> exists a, In a l /\ R a b.
  Proof.
    induction 1 as [|x y l l' H F IH]; intros I; [destruct I|]. destruct I as [<-|I]; [exists x; split; [left; reflexivity|exact H]|].
    destruct (IH I) as (a & Ia & Ra). exists a. split; [right; exact Ia|exact Ra].
  Qed.
  Lemma mem_keys ms ms' : Forall2 mem ms ms' -> map fst ms = map fst ms'.
  Proof. induction 1 as [|a b l l' [E _] F IH]; [reflexivity|]. cbn [map]. rewrite E, IH. reflexivity. Qed.

  Lemma nth_F2 {A} (R : A -> A -> Prop) l l' i x : Forall2 R l l' -> nth_error l i = Some x -> exists y, nth_error l' i = Some y /\ R x y.
  Proof. intros F. revert i. induction F as [|a b l l' H F IH]; intros [|i] E; try discriminate E; cbn in *; [injection E as <-; eauto|eauto]. Qed.
  Lemma nth_F2_None {A} (R : A -> A -> Prop) l l' i : Forall2 R l l' -> nth_error l i = None -> nth_error l' i = None.
  Proof. intros F. revert i. induction F as [|a b l l' H F IH]; intros [|i] E; try discriminate E; cbn in *; auto. Qed.
  Lemma set_F2 {A} (R : A -> A -> Prop) l l' i x y : Forall2 R l l' -> R x y -> Forall2 R (set_nth i x l) (set_nth i y l').
  Proof. intros F H. revert i. induction F as [|a b l l' H' F IH]; intros [|i]; cbn [set_nth]; constructor; auto. Qed.

  (* ----- fields of a struct ----- *)

  Lemma fields_rel fs : forall ms ms' vs vs', Forall2 mem ms ms' ->
    (forall a i f, In a ms -> find_field fs (fst a) = Some i -> nth_error fs i = Some f -> ok (f_ty f) (fst (snd a))) -> Forall2 vsame vs vs' ->
    agree (Forall2 vsame) (dec_fields fs ms vs) (dec_fields fs ms' vs').
  Proof.
    intros ms ms' vs vs' F. revert vs vs'. induction F as [|[k [j d]] [k' [j' d']] ms ms' (E & J & D & _) F IH]; intros vs vs' H V; cbn [dec_fields]; [constructor; exact V|].
    assert (H' : forall a i f, In a ms -> find_field fs (fst a) = Some i -> nth_error fs i = Some f -> ok (f_ty f) (fst (snd a))) by (intros a i f I; apply H; right; exact I).
    cbn in E, J, D. subst k'. destruct (find_field fs k) as [i|] eqn:Ei; [|apply IH; assumption]. destruct (nth_error fs i) as [f|] eqn:Ef; [|constructor].
    destruct (nth_error vs i) as [v|] eqn:Ev.
    - destruct (nth_F2 _ _ _ _ _ V Ev) as (v' & Ev' & S). rewrite Ev'. specialize (D (f_ty f) _ _ (H _ _ _ (or_introl eq_refl) Ei Ef) S). inversion D; subst; [constructor|].
      apply IH; [exact H'|]. apply set_F2; assumption.
    - rewrite (nth_F2_None _ _ _ _ V Ev). constructor.
  Qed.

  Lemma find_at_fold test fs i : find_at test fs = Some i -> exists f k, nth_error fs i = Some f /\ f_key f = Some k /\ test k = true.
  Proof.
    revert i. induction fs as [|f fs IH]; intros i E; cbn [find_at] in E; [discriminate E|]. destruct (f_key f) as [k|] eqn:Ek.
    - destruct (test k) eqn:Et; [injection E as <-; exists f, k; auto|]. destruct (find_at test fs) as [i'|]; [|discriminate E]. injection E as <-. destruct (IH i' eq_refl) as (f' & k' & A). exists f', k'. exact A.
    - destruct (find_at test fs) as [i'|]; [|discriminate E]. injection E as <-. destruct (IH i' eq_refl) as (f' & k' & A). exists f', k'. exact A.
  Qed.
  Lemma find_field_fold fs k i : find_field fs k = Some i -> exists f k', nth_error fs i = Some f /\ f_key f = Some k' /\ fold_key k = fold_key k'.
  Proof.
    unfold find_field. destruct (find_at (String.eqb k) fs) as [i'|] eqn:E; intros H.
    - injection H as <-. destruct (find_at_fold _ _ _ E) as (f & k' & A & B & C). apply String.eqb_eq in C. subst k'. exists f, k. auto.
    - destruct (find_at_fold _ _ _ H) as (f & k' & A & B & C). apply String.eqb_eq in C. exists f, k'. auto.
  Qed.

  Lemma set_comm {A} : forall i i' (w w' : A) vs, i <> i' -> set_nth i w (set_nth i' w' vs) = set_nth i' w' (set_nth i w vs).
  Proof. induction i as [|i IH]; intros [|i'] w w' [|v vs] N; cbn [set_nth]; try reflexivity; try congruence. f_equal. apply IH. congruence. Qed.
  Lemma set_other {A} : forall i i' (w : A) vs, i <> i' -> nth_error (set_nth i w vs) i' = nth_error vs i'.
  Proof. induction i as [|i IH]; intros [|i'] w [|v vs] N; cbn [set_nth nth_error]; try reflexivity; try congruence. apply IH. congruence. Qed.

  Lemma fields_perm fs : forall ms ms', Permutation ms ms' -> clear fs ms ->
    forall vs, dec_fields fs ms vs = dec_fields fs ms' vs.
  Proof.
    intros ms ms' P. induction P as [|[k [j d]] ms ms' P IH|[k [j d]] [k' [j' d']] ms|ms1 ms2 ms3 P1 IH1 P2 IH2]; intros C vs; cbn [dec_fields].
    - reflexivity.
    - apply clear_tail in C. destruct (find_field fs k) as [i|]; [|apply IH; exact C]. destruct (nth_error fs i), (nth_error vs i); try reflexivity.
      destruct (d _ _); [|reflexivity]. apply IH. exact C.
    - destruct (find_field fs k) as [i|] eqn:Ei; [|reflexivity]. destruct (find_field fs k') as [i'|] eqn:Ei'; [|reflexivity].
      destruct (Nat.eq_dec i i') as [<-|N].
      { destruct C as [ND C]. cbn [map fst] in ND. assert (NK : k <> k') by (intros <-; inversion ND as [|x l NI _]; subst; apply NI; left; reflexivity).
        destruct (nth_error fs i) as [f|] eqn:Ef; [|reflexivity]. destruct (nth_error vs i) as [v|] eqn:Ev; [|reflexivity].
        assert (B' : forall u, nth_error (set_nth i u vs) i = Some u) by (intros u; apply nth_set_same; apply nth_error_Some; congruence).
        pose proof (C (k, (j, d)) (k', (j', d')) i f (or_intror (or_introl eq_refl)) (or_introl eq_refl) Ei Ei' Ef) as X. unfold fails in X. cbn [fst snd] in X.
        destruct X as [X|[X|X]]; [destruct (NK X)| | ]; rewrite X; [destruct (d' (f_ty f) v)|destruct (d (f_ty f) v)]; rewrite ?B', ?X; reflexivity. }
      destruct (nth_error fs i) as [f|] eqn:Ef.
      + destruct (nth_error vs i) as [v|] eqn:Ev; destruct (nth_error fs i') as [f'|] eqn:Ef'; try (destruct (nth_error vs i') as [v'|] eqn:Ev');
          try (destruct (d' (f_ty f') v') as [w'|] eqn:D'); try (destruct (d (f_ty f) v) as [w|] eqn:D); try reflexivity;
          rewrite ?(set_other i i'), ?(set_other i' i) by congruence; rewrite ?Ev, ?Ev', ?D, ?D'; try reflexivity.
        rewrite (set_comm i' i) by congruence. reflexivity.
      + destruct (nth_error fs i') as [f'|]; [|reflexivity]. destruct (nth_error vs i') as [v'|]; [|reflexivity]. destruct (d' _ _); reflexivity.
    - rewrite IH1 by exact C. apply IH2. eapply clear_perm; [exact P1|exact C].
  Qed.

  (* ----- maps ----- *)
  Notation vss := (Forall2 vsame).

  Definition bnd {A B} (o : option A) (f : A -> option B) : option B := match o with Some x => f x | None => None end.
  Lemma agree_bnd {A B} (R : A -> A -> Prop) (R' : B -> B -> Prop) o o' f g : agree R o o' -> (forall x y, R x y -> agree R' (f x) (g y)) -> agree R' (bnd o f) (bnd o' g).
  Proof. intros H F. destruct H; cbn; [constructor|auto]. Qed.

  Definition entries (v : val) : list (string * val) := match v with VMap m => m | _ => [] end.
  Lemma vs_get m m' k : vsame (VMap m) (VMap m') -> agree vsame (get k m) (get k m').
  Proof.
    intros H. inversion H; subst. destruct (get k m) as [v|] eqn:E.
    - match goal with X : forall k v, get k m = Some v -> _ |- _ => destruct (X k v E) as (w & A & B) end. rewrite A. constructor. exact B.
    - match goal with X : forall k, get k m = None -> _ |- _ => rewrite (X k E) end. constructor.
  Qed.
  Lemma vs_of_get m m' : (forall k, agree vsame (get k m) (get k m')) -> vsame (VMap m) (VMap m').
  Proof.
    intros H. constructor; intros k.
    - intros E. specialize (H k). rewrite E in H. inversion H. reflexivity.
    - intros v E. specialize (H k). rewrite E in H. inversion H; subst. eauto.
  Qed.
  Lemma put_rel k v v' m m' : vsame v v' -> vsame (VMap m) (VMap m') -> vsame (VMap (put k v m)) (VMap (put k v' m')).
  Proof.
    intros V M. apply vs_of_get. intros q. rewrite !get_put. destruct (String.eqb q k); [constructor; exact V|apply vs_get; exact M].
  Qed.
  Lemma put_swap k v k' v' m : k <> k' -> vsame (VMap (put k v (put k' v' m))) (VMap (put k' v' (put k v m))).
  Proof.
    intros N. apply vs_of_get. intros q. rewrite !get_put. destruct (String.eqb q k) eqn:E; destruct (String.eqb q k') eqn:E'; try (apply agree_refl; apply vs_refl).
    apply String.eqb_eq in E, E'. congruence.
  Qed.
  Lemma entries_rel v v' : vsame v v' -> vsame (VMap (entries v)) (VMap (entries v')).
  Proof. intros H. inversion H; subst; cbn [entries]; try apply vs_refl. exact H. Qed.

  Lemma store_eq fs i k d vs : store T fs i k d vs =
    match nth_error fs i, nth_error vs i with
    | Some f, Some old =>
        match f_ty f with
        | TMap t => match d t (zero T LVL t) with Some v => Some (set_nth i (VMap (put k v (entries old))) vs) | None => None end
        | _ => None
        end
    | _, _ => None
    end.
  Proof. reflexivity. Qed.

  Lemma store_rel fs i k d d' vs vs' : (forall f t, nth_error fs i = Some f -> f_ty f = TMap t -> agree vsame (d t (zero T LVL t)) (d' t (zero T LVL t))) -> vss vs vs' -> agree vss (store T fs i k d vs) (store T fs i k d' vs').
  Proof.
    intros D V. rewrite !store_eq. destruct (nth_error fs i) as [f|] eqn:Ef; [|constructor]. destruct (nth_error vs i) as [v|] eqn:Ev.
    - destruct (nth_F2 _ _ _ _ _ V Ev) as (v' & Ev' & S). rewrite Ev'. destruct (f_ty f) as [| | | | | | | |t|] eqn:Et; try constructor. destruct (agree_case _ _ _ (D f t eq_refl Et)) as [[-> ->]|(x & y & -> & -> & Rxy)]; constructor.
      apply set_F2; [exact V|]. apply put_rel; [assumption|]. apply entries_rel. exact S.
    - rewrite (nth_F2_None _ _ _ _ V Ev). constructor.
  Qed.
  Lemma store_same fs i k d vs vs' : vss vs vs' -> agree vss (store T fs i k d vs) (store T fs i k d vs').
  Proof. apply store_rel. intros f t _ _. apply agree_refl. apply vs_refl. Qed.
  Lemma set_twice {A} : forall i (w w' : A) vs, set_nth i w (set_nth i w' vs) = set_nth i w vs.
  Proof. induction i as [|i IH]; intros w w' [|v vs]; cbn [set_nth]; try reflexivity. f_equal. apply IH. Qed.
  Lemma store_swap fs i k d i' k' d' vs : k <> k' ->
    agree vss (bnd (store T fs i k d vs) (store T fs i' k' d')) (bnd (store T fs i' k' d' vs) (store T fs i k d)).
  Proof.
    intros N. rewrite !store_eq. destruct (Nat.eq_dec i i') as [<-|NI].
    - destruct (nth_error fs i) as [f|] eqn:Ef; [|constructor]. destruct (nth_error vs i) as [v|] eqn:Ev; [|constructor].
      assert (L : i < length vs) by (apply nth_error_Some; congruence).
      destruct (f_ty f) as [| | | | | | | |t|] eqn:Et; try constructor. destruct (d t (zero T LVL t)) as [w|] eqn:D; destruct (d' t (zero T LVL t)) as [w'|] eqn:D'; cbn [bnd]; rewrite ?store_eq, ?Ef, ?Et, ?D, ?D'; rewrite ?nth_set_same by exact L; try constructor.
      rewrite !set_twice. cbn [entries]. apply set_F2; [apply vss_refl|]. apply put_swap. congruence.
    - destruct (nth_error fs i) as [f|] eqn:Ef; destruct (nth_error fs i') as [f'|] eqn:Ef'; destruct (nth_error vs i) as [v|] eqn:Ev; destruct (nth_error vs i') as [v'|] eqn:Ev';
        try (destruct (f_ty f) as [| | | | | | | |t|] eqn:Et); try (destruct (f_ty f') as [| | | | | | | |t'|] eqn:Et'); cbn [bnd]; try constructor;
        try (destruct (d t (zero T LVL t)) as [w|] eqn:D); try (destruct (d' t' (zero T LVL t')) as [w'|] eqn:D'); cbn [bnd]; try constructor;
        rewrite ?store_eq, ?Ef, ?Ef'; rewrite ?(set_other i i'), ?(set_other i' i) by congruence; rewrite ?Ev, ?Ev', ?Et, ?Et', ?D, ?D'; try constructor.
      rewrite (set_comm i' i) by congruence. apply vss_refl.
  Qed.

  Lemma pats_rel1 fs k d d' : forall ps vs vs', (forall p i f t, In (p, i) ps -> matches p k = true -> nth_error fs i = Some f -> f_ty f = TMap t -> agree vsame (d t (zero T LVL t)) (d' t (zero T LVL t))) -> vss vs vs' -> agree vss (store_pats T fs ps k d vs) (store_pats T fs ps k d' vs').
  Proof.
    induction ps as [|[p i] ps IH]; intros vs vs' D V; cbn [store_pats]; [constructor; exact V|]. assert (D' : forall p i f t, In (p, i) ps -> matches p k = true -> nth_error fs i = Some f -> f_ty f = TMap t -> agree vsame (d t (zero T LVL t)) (d' t (zero T LVL t))) by (intros p0 i0 f t I; apply D; right; exact I).
    destruct (matches p k) eqn:Em; [|apply IH; assumption].
    pose proof (store_rel fs i k d d' vs vs' (fun f t => D p i f t (or_introl eq_refl) Em) V) as S. inversion S; subst; [constructor|]. apply IH; assumption.
  Qed.
  Lemma pats_same fs k d ps vs vs' : vss vs vs' -> agree vss (store_pats T fs ps k d vs) (store_pats T fs ps k d vs').
  Proof. apply pats_rel1. intros p i f t _ _ _ _. apply agree_refl. apply vs_refl. Qed.
  Lemma pats_cons fs p i ps k d vs : store_pats T fs ((p, i) :: ps) k d vs =
    if matches p k then bnd (store T fs i k d vs) (store_pats T fs ps k d) else store_pats T fs ps k d vs.
  Proof. cbn [store_pats]. destruct (matches p k); reflexivity. Qed.
  Lemma agree_assoc {A} (R : A -> A -> Prop) (a b : option A) : a = b -> (forall x, R x x) -> agree R a b.
  Proof. intros -> H. apply agree_refl. exact H. Qed.
  Lemma bnd_assoc {A B C} (o : option A) (f : A -> option B) (g : B -> option C) : bnd (bnd o f) g = bnd o (fun x => bnd (f x) g).
  Proof. destruct o; reflexivity. Qed.

  Notation trans := (agree_trans vss vss_trans).

  Lemma pats_swap1 fs i k d k' d' : k <> k' -> forall ps vs,
    agree vss (bnd (store T fs i k d vs) (store_pats T fs ps k' d')) (bnd (store_pats T fs ps k' d' vs) (store T fs i k d)).
  Proof.
    intros N. induction ps as [|[p i'] ps IH]; intros vs.
    - cbn [store_pats bnd]. destruct (store T fs i k d vs); apply agree_refl; apply vss_refl.
    - rewrite pats_cons. destruct (matches p k') eqn:E.
      + rewrite bnd_assoc.
        assert (X : bnd (store T fs i k d vs) (store_pats T fs ((p, i') :: ps) k' d') = bnd (bnd (store T fs i k d vs) (store T fs i' k' d')) (store_pats T fs ps k' d')).
        { rewrite bnd_assoc. destruct (store T fs i k d vs) as [vs1|]; [|reflexivity]. cbn [bnd]. rewrite pats_cons, E. reflexivity. }
        rewrite X. eapply trans; [eapply agree_bnd; [exact (store_swap fs i k d i' k' d' vs N)|intros x y V; apply pats_same; exact V]|].
        rewrite bnd_assoc. apply (agree_bnd vss vss _ _ _ _ (agree_refl vss vss_refl _)). intros x y V.
        eapply trans; [apply IH|]. eapply agree_bnd; [apply pats_same; exact V|]. intros a b W. apply store_same; exact W.
      + assert (X : bnd (store T fs i k d vs) (store_pats T fs ((p, i') :: ps) k' d') = bnd (store T fs i k d vs) (store_pats T fs ps k' d')).
        { destruct (store T fs i k d vs) as [vs1|]; [|reflexivity]. cbn [bnd]. rewrite pats_cons, E. reflexivity. }
        rewrite X. apply IH.
  Qed.
  Lemma pats_swap fs k d k' d' ps' : k <> k' -> forall ps vs,
    agree vss (bnd (store_pats T fs ps k d vs) (store_pats T fs ps' k' d')) (bnd (store_pats T fs ps' k' d' vs) (store_pats T fs ps k d)).
  Proof.
    intros N. induction ps as [|[p i] ps IH]; intros vs.
    - cbn [store_pats bnd]. destruct (store_pats T fs ps' k' d' vs); apply agree_refl; apply vss_refl.
    - rewrite pats_cons. destruct (matches p k) eqn:E.
      + rewrite bnd_assoc.
        eapply trans; [apply (agree_bnd vss vss _ _ _ (fun x => bnd (store_pats T fs ps' k' d' x) (store_pats T fs ps k d)) (agree_refl vss vss_refl _))|].
        * intros x y V. eapply trans; [apply IH|]. eapply agree_bnd; [apply pats_same; exact V|]. intros a b W. apply pats_same; exact W.
        * rewrite <- bnd_assoc. eapply trans; [eapply agree_bnd; [exact (pats_swap1 fs i k d k' d' N ps' vs)|intros x y V; apply pats_same; exact V]|].
          rewrite bnd_assoc. apply (agree_bnd vss vss _ _ _ _ (agree_refl vss vss_refl _)). intros x y V. rewrite pats_cons, E.
          eapply agree_bnd; [apply store_same; exact V|]. intros a b W. apply pats_same; exact W.
      + eapply trans; [apply IH|]. apply (agree_bnd vss vss _ _ _ _ (agree_refl vss vss_refl _)). intros x y V. rewrite pats_cons, E. apply pats_same; exact V.
  Qed.

  (* Loops that do the same for every member. *)
  Definition each (f : string -> decoder -> list val -> option (list val)) : members -> list val -> option (list val) :=
    fix go ms vs := match ms with [] => Some vs | (k, (_, d)) :: ms => match f k d vs with Some vs' => go ms vs' | None => None end end.
  Lemma pats_each fs ps : forall ms vs, dec_pats T fs ps ms vs = each (store_pats T fs ps) ms vs.
  Proof. induction ms as [|[k [j d]] ms IH]; intros vs; cbn [dec_pats each]; [reflexivity|]. destruct (store_pats T fs ps k d vs); [apply IH|reflexivity]. Qed.
  Lemma addl_each fs i : forall ms vs, dec_addl T fs i ms vs = each (store T fs i) ms vs.
  Proof. induction ms as [|[k [j d]] ms IH]; intros vs; cbn [dec_addl each]; [reflexivity|]. destruct (store T fs i k d vs); [apply IH|reflexivity]. Qed.

  Lemma each_rel f : forall ms ms', Forall2 (fun a b => forall vs vs', vss vs vs' -> agree vss (f (fst a) (snd (snd a)) vs) (f (fst b) (snd (snd b)) vs')) ms ms' ->
    forall vs vs', vss vs vs' -> agree vss (each f ms vs) (each f ms' vs').
  Proof.
    intros ms ms' F. induction F as [|[k [j d]] [k' [j' d']] ms ms' H F IH]; intros vs vs' V; cbn [each]; [constructor; exact V|]. cbn [fst snd] in H.
    pose proof (H vs vs' V) as S. inversion S; subst; [constructor|]. apply IH. assumption.
  Qed.
  Lemma each_perm f (Hf : forall k d vs vs', vss vs vs' -> agree vss (f k d vs) (f k d vs'))
    (Hs : forall k d k' d' vs, k <> k' -> agree vss (bnd (f k d vs) (f k' d')) (bnd (f k' d' vs) (f k d))) :
    forall ms ms', Permutation ms ms' -> NoDup (map fst ms) -> forall vs vs', vss vs vs' -> agree vss (each f ms vs) (each f ms' vs').
  Proof.
    assert (Rl : forall ms vs vs', vss vs vs' -> agree vss (each f ms vs) (each f ms vs')).
    { intros ms vs vs' V. apply each_rel; [|exact V]. apply F2_refl. apply Forall_forall. intros x _ us us' U. apply Hf. exact U. }
    intros ms ms' P. induction P as [|[k [j d]] ms ms' P IH|[k [j d]] [k' [j' d']] ms|ms1 ms2 ms3 P1 IH1 P2 IH2]; intros N vs vs' V.
    - constructor. exact V.
    - cbn [each]. inversion N as [|x l NI N']; subst. pose proof (Hf k d vs vs' V) as S. inversion S; subst; [constructor|]. apply IH; assumption.
    - cbn [map fst] in N. inversion N as [|x l NI N']; subst. assert (D : k' <> k) by (intros ->; apply NI; left; reflexivity).
      assert (X : forall a b a' b' w, each f ((a, (j, b)) :: (a', (j', b')) :: ms) w = bnd (bnd (f a b w) (f a' b')) (each f ms)).
      { intros a b a' b' w. cbn [each]. destruct (f a b w) as [w1|]; [|reflexivity]. cbn [bnd]. destruct (f a' b' w1); reflexivity. }
      assert (X' : forall a b a' b' w, each f ((a, (j', b)) :: (a', (j, b')) :: ms) w = bnd (bnd (f a b w) (f a' b')) (each f ms)).
      { intros a b a' b' w. cbn [each]. destruct (f a b w) as [w1|]; [|reflexivity]. cbn [bnd]. destruct (f a' b' w1); reflexivity. }
      rewrite X, X'. eapply agree_bnd; [|intros x y W; apply Rl; exact W]. eapply trans; [apply (Hs k' d' k d vs D)|].
      eapply agree_bnd; [apply Hf; exact V|]. intros x y W. apply Hf. exact W.
    - eapply trans; [exact (IH1 N vs vs' V)|]. apply IH2; [|apply vss_refl]. eapply Permutation_NoDup; [apply Permutation_map; exact P1|exact N].
  Qed.

  (* ----- rawMap ----- *)

  Definition rawrel (ms ms' : members) : Prop := exists ms1, Forall2 mem ms ms1 /\ Permutation ms1 ms' /\ NoDup (map fst ms').

  Lemma in_list_In k l : in_list k l = true <-> In k l.
  Proof.
    unfold in_list. rewrite existsb_exists. split.
    - intros (x & I & E). apply String.eqb_eq in E. subst x. exact I.
    - intros I. exists k. split; [exact I|apply String.eqb_refl].
  Qed.
  Lemma in_list_perm k l l' : Permutation l l' -> in_list k l = in_list k l'.
  Proof.
    intros P. destruct (in_list k l) eqn:E; destruct (in_list k l') eqn:E'; try reflexivity.
    - apply in_list_In in E. apply (Permutation_in _ P) in E. apply in_list_In in E. congruence.
    - apply in_list_In in E'. apply (Permutation_in _ (Permutation_sym P)) in E'. apply in_list_In in E'. congruence.
  Qed.
  Lemma dedup_F2 {A} (R : string * A -> string * A -> Prop) (HR : forall a b, R a b -> fst a = fst b) : forall ms ms', Forall2 R ms ms' -> Forall2 R (dedup ms) (dedup ms').
  Proof.
    assert (HK : forall ms ms', Forall2 R ms ms' -> map fst ms = map fst ms') by (induction 1 as [|a b l l' H F IH]; [reflexivity|]; cbn [map]; rewrite (HR _ _ H), IH; reflexivity).
    induction 1 as [|a b l l' H F IH]; cbn [dedup]; [constructor|]. rewrite (HR _ _ H), (HK _ _ F). destruct (in_list (fst b) (map fst l')); [exact IH|constructor; assumption].
  Qed.
  Lemma dedup_keys_in {A} (ms : list (string * A)) k : In k (map fst (dedup ms)) -> In k (map fst ms).
  Proof. induction ms as [|m ms IH]; cbn [dedup map]; [auto|]. destruct (in_list (fst m) (map fst ms)); cbn [map]; intros I; [right; auto|destruct I as [I|I]; [left; exact I|right; auto]]. Qed.
  Lemma dedup_ND {A} (ms : list (string * A)) : NoDup (map fst (dedup ms)).
  Proof.
    induction ms as [|m ms IH]; cbn [dedup map]; [constructor|]. destruct (in_list (fst m) (map fst ms)) eqn:E; [exact IH|]. cbn [map]. constructor; [|exact IH].
    intros I. apply dedup_keys_in in I. apply in_list_In in I. congruence.
  Qed.
  Lemma dedup_same {A} (ms : list (string * A)) : NoDup (map fst ms) -> dedup ms = ms.
  Proof.
    induction ms as [|m ms IH]; cbn [dedup map]; [reflexivity|]. intros N. inversion N as [|x l NI N']; subst. destruct (in_list (fst m) (map fst ms)) eqn:E; [apply in_list_In in E; contradiction|]. rewrite IH by exact N'. reflexivity.
  Qed.

  Inductive drels : list json -> list decoder -> list decoder -> Prop :=
  | dr_nil : drels [] [] []
  | dr_cons x xs d ds d' ds' : drel (fun t => ok t x) d d' -> drels xs ds ds' -> drels (x :: xs) (d :: ds) (d' :: ds').
  Definition plain (ms : members) : list (string * json) := map (fun a => (fst a, fst (snd a))) ms.
  Inductive vrel : json -> jview -> jview -> Prop :=
  | vr_null : vrel JNull SNull SNull
  | vr_bool b : vrel (JBool b) (SBool b) (SBool b)
  | vr_num q : vrel (JNum q) (SNum q) (SNum q)
  | vr_str s : vrel (JStr s) (SStr s) (SStr s)
  | vr_arr x l l' : drels x l l' -> vrel (JArr x) (SArr l) (SArr l')
  | vr_obj m m1 m' : Forall2 mem m m1 -> (m1 = m' \/ swap /\ NoDup (map fst m') /\ Permutation m1 m') -> vrel (JObj (plain m)) (SObj m) (SObj m').
  Lemma in_plain a ms : In a ms -> In (fst a, fst (snd a)) (plain ms).
  Proof. apply (in_map (fun a => (fst a, fst (snd a)))). Qed.
  Lemma plain_keys ms : map fst (plain ms) = map fst ms.
  Proof. unfold plain. rewrite map_map. reflexivity. Qed.

  Lemma mem_fst a b : mem a b -> fst a = fst b.
  Proof. intros [E _]. exact E. Qed.

  Lemma raw_rel j w w' : vrel j w w' -> rawrel (raw_map w) (raw_map w').
  Proof.
    intros H. destruct H as [|b|q|s|x l l' F|m m1 m' F P]; try (exists []; split; [constructor|]; split; [constructor|constructor]).
    cbn [raw_map]. destruct P as [->|(_ & N & P)].
    - exists (dedup m'). split; [apply dedup_F2; [exact mem_fst|exact F]|]. split; [reflexivity|apply dedup_ND].
    - assert (N1 : NoDup (map fst m1)) by (eapply Permutation_NoDup; [apply Permutation_map; apply Permutation_sym; exact P|exact N]).
      assert (N0 : NoDup (map fst m)) by (rewrite (mem_keys _ _ F); exact N1).
      rewrite !dedup_same by assumption. exists m1. auto.
  Qed.
  Lemma rawrel_keys ms ms' : rawrel ms ms' -> Permutation (map fst ms) (map fst ms').
  Proof. intros (m1 & F & P & _). rewrite (mem_keys _ _ F). apply Permutation_map. exact P. Qed.
  Lemma rawrel_has ms ms' k : rawrel ms ms' -> raw_has ms k = raw_has ms' k.
  Proof. intros H. unfold raw_has. apply in_list_perm. apply rawrel_keys. exact H. Qed.
  Lemma get_perm {A} k (ms ms' : list (string * A)) : Permutation ms ms' -> NoDup (map fst ms) -> get k ms = get k ms'.
  Proof.
    intros P N. destruct (get k ms) as [x|] eqn:E; symmetry.
    - apply get_In in E. apply In_get; [eapply Permutation_NoDup; [apply Permutation_map; exact P|exact N]|]. eapply Permutation_in; eassumption.
    - destruct (get k ms') as [y|] eqn:E'; [|reflexivity]. apply get_In in E'. apply (Permutation_in _ (Permutation_sym P)) in E'. apply (In_get _ _ _ N) in E'. congruence.
  Qed.
  Lemma get_F2 k ms ms' : Forall2 mem ms ms' -> agree (fun a b => jrel (fst a) (fst b)) (get k ms) (get k ms').
  Proof.
    induction 1 as [|[a x] [b y] l l' [E H] F IH]; cbn [get]; [constructor|]. cbn in E, H. subst b. destruct (String.eqb k a); [constructor; exact (proj1 H)|exact IH].
  Qed.
  Lemma rawrel_is ms ms' k c : rawrel ms ms' -> raw_is ms k c = raw_is ms' k c.
  Proof.
    intros (m1 & F & P & N). unfold raw_is. rewrite <- (get_perm k m1 ms' P) by (eapply Permutation_NoDup; [apply Permutation_map; apply Permutation_sym; exact P|exact N]).
    destruct (agree_case _ _ _ (get_F2 k _ _ F)) as [[-> ->]|([j d] & [j' d'] & -> & -> & J)]; [reflexivity|]. cbn in J. inversion J; subst; reflexivity.
  Qed.
  Lemma forallb_eq {A} (f g : A -> bool) l : (forall x, f x = g x) -> forallb f l = forallb g l.
  Proof. intros H. induction l as [|x l IH]; cbn [forallb]; [reflexivity|]. rewrite H, IH. reflexivity. Qed.
  Lemma checks_rel d ms ms' : rawrel ms ms' -> raw_checks d ms = raw_checks d ms'.
  Proof.
    intros H. unfold raw_checks.
    rewrite (forallb_eq (raw_has ms) (raw_has ms')) by (intros x; apply rawrel_has; exact H).
    rewrite (forallb_eq (fun ab => xorb (raw_has ms (fst ab)) (raw_has ms (snd ab))) (fun ab => xorb (raw_has ms' (fst ab)) (raw_has ms' (snd ab)))) by (intros x; rewrite !(rawrel_has _ _ _ H); reflexivity).
    rewrite (forallb_eq (fun kc : string * json => negb (raw_has ms (fst kc)) || raw_is ms (fst kc) (snd kc)) (fun kc => negb (raw_has ms' (fst kc)) || raw_is ms' (fst kc) (snd kc))) by (intros x; rewrite (rawrel_has _ _ _ H), (rawrel_is _ _ _ _ H); reflexivity).
    rewrite (forallb_eq (fun kc : string * json => negb (raw_is ms (fst kc) (snd kc))) (fun kc => negb (raw_is ms' (fst kc) (snd kc)))) by (intros x; rewrite (rawrel_is _ _ _ _ H); reflexivity).
    rewrite (forallb_eq (fun k => negb (raw_has ms k)) (fun k => negb (raw_has ms' k))) by (intros x; rewrite (rawrel_has _ _ _ H); reflexivity).
    reflexivity.
  Qed.
  Lemma lower_rel d vs vs' : vss vs vs' -> lower_checks d vs = lower_checks d vs'.
  Proof.
    intros V. unfold lower_checks. apply forallb_eq. intros c. destruct (nth_error vs (fst (fst c))) as [v|] eqn:E.
    - destruct (nth_F2 _ _ _ _ _ V E) as (v' & -> & S). inversion S; subst; reflexivity.
    - rewrite (nth_F2_None _ _ _ _ V E). reflexivity.
  Qed.
  Lemma fix_rel ms ms' : rawrel ms ms' -> forall fx vs vs', vss vs vs' -> vss (dec_fix fx ms vs) (dec_fix fx ms' vs').
  Proof.
    intros H. induction fx as [|[i k] fx IH]; intros vs vs' V; cbn [dec_fix]; [exact V|]. apply IH. rewrite (rawrel_has _ _ k H). destruct (nth_error vs i) as [v|] eqn:E.
    - destruct (nth_F2 _ _ _ _ _ V E) as (v' & -> & S). inversion S; subst; try exact V. destruct (raw_has ms' k); [|exact V]. apply set_F2; [exact V|apply vs_refl].
    - rewrite (nth_F2_None _ _ _ _ V E). exact V.
  Qed.
  Lemma filter_rel (p : string -> bool) ms ms' : rawrel ms ms' -> rawrel (filter (fun m => p (fst m)) ms) (filter (fun m => p (fst m)) ms').
  Proof.
    intros (m1 & F & P & N). exists (filter (fun m => p (fst m)) m1). split; [|split].
    - clear P N. induction F as [|a b l l' M F IH]; cbn [filter]; [constructor|]. rewrite (mem_fst _ _ M). destruct (p (fst b)); [constructor; assumption|exact IH].
    - clear F N. induction P as [|x l l' P IH|x y l|l1 l2 l3 P1 IH1 P2 IH2]; cbn [filter]; [constructor| | |etransitivity; eassumption].
      + destruct (p (fst x)); [constructor; exact IH|exact IH].
      + destruct (p (fst x)), (p (fst y)); try apply perm_swap; reflexivity.
    - clear F P. induction ms' as [|x l IH]; cbn [filter map]; [constructor|]. cbn [map] in N. inversion N as [|y l' NI N']; subst. destruct (p (fst x)); [|auto]. cbn [map]. constructor; [|auto].
      intros I. apply NI. apply in_map_iff in I. destruct I as (z & E & I). apply filter_In in I. rewrite <- E. apply in_map. exact (proj1 I).
  Qed.
  Lemma fair_rel l1 l1' l2 l2' : rawrel l1 l2 -> Permutation l1 l1' -> Permutation l2 l2' -> rawrel l1' l2'.
  Proof.
    intros (m1 & F & P & N) P1 P2. destruct (Permutation_Forall2 P1 F) as (m2 & A & B). exists m2. split; [exact B|]. split.
    - transitivity m1; [apply Permutation_sym; exact A|]. transitivity l2; assumption.
    - eapply Permutation_NoDup; [apply Permutation_map; exact P2|exact N].
  Qed.
  Lemma each_raw f (Hs : forall k d k' d' vs, k <> k' -> agree vss (bnd (f k d vs) (f k' d')) (bnd (f k' d' vs) (f k d)))
    (Hf : forall k d vs vs', vss vs vs' -> agree vss (f k d vs) (f k d vs')) ms ms' vs vs' :
    (forall a b, In a ms -> mem a b -> forall us us', vss us us' -> agree vss (f (fst a) (snd (snd a)) us) (f (fst b) (snd (snd b)) us')) ->
    rawrel ms ms' -> vss vs vs' -> agree vss (each f ms vs) (each f ms' vs').
  Proof.
    intros H (m1 & F & P & N) V. eapply trans.
    - apply (each_rel f ms m1); [|exact V]. clear - F H. induction F as [|a b l l' M F IH]; constructor; [exact (H a b (or_introl eq_refl) M)|apply IH; intros x y I; apply H; right; exact I].
    - apply each_perm; [exact Hf|exact Hs|exact P| |apply vss_refl]. eapply Permutation_NoDup; [apply Permutation_map; apply Permutation_sym; exact P|exact N].
  Qed.

  (* ----- types at the same JSON value ----- *)

  Lemma embed_rel okj fs same same' : drel okj same same' -> forall is vs vs', (forall i f, In i is -> nth_error fs i = Some f -> okj (f_ty f)) -> vss vs vs' ->
    agree vss (dec_embed same fs is vs) (dec_embed same' fs is vs').
  Proof.
    intros D. induction is as [|i is IH]; intros vs vs' H V; cbn [dec_embed]; [constructor; exact V|]. destruct (nth_error fs i) as [f|] eqn:Ef; [|constructor]. destruct (nth_error vs i) as [v|] eqn:E.
    - destruct (nth_F2 _ _ _ _ _ V E) as (v' & -> & S). destruct (agree_case _ _ _ (D (f_ty f) _ _ (H i f (or_introl eq_refl) Ef) S)) as [[-> ->]|(x & y & -> & -> & R)]; [constructor|].
      apply IH; [intros i0 f0 I; apply H; right; exact I|]. apply set_F2; assumption.
    - rewrite (nth_F2_None _ _ _ _ V E). constructor.
  Qed.
  Lemma alts_rel okj fs same same' : drel okj same same' -> forall is vs vs' n, (forall i f, In i is -> nth_error fs i = Some f -> okj (f_ty f)) -> vss vs vs' ->
    vss (fst (dec_alts same fs is vs n)) (fst (dec_alts same' fs is vs' n)) /\ snd (dec_alts same fs is vs n) = snd (dec_alts same' fs is vs' n).
  Proof.
    intros D. induction is as [|i is IH]; intros vs vs' n H V; cbn [dec_alts]; [split; [exact V|reflexivity]|].
    assert (H' : forall i f, In i is -> nth_error fs i = Some f -> okj (f_ty f)) by (intros i0 f0 I; apply H; right; exact I).
    destruct (nth_error fs i) as [f|] eqn:Ef; [|split; [exact V|reflexivity]]. destruct (nth_error vs i) as [v|] eqn:E.
    - destruct (nth_F2 _ _ _ _ _ V E) as (v' & -> & S). destruct (agree_case _ _ _ (D (f_ty f) _ _ (H i f (or_introl eq_refl) Ef) S)) as [[-> ->]|(x & y & -> & -> & R)]; (apply IH; [exact H'|]); apply set_F2; try assumption. apply vs_refl.
    - rewrite (nth_F2_None _ _ _ _ V E). split; [exact V|reflexivity].
  Qed.
  Lemma not_rel (okj : ty -> Prop) same same' ts : drel okj same same' -> (forall t, In t ts -> okj t) ->
    forallb (fun t => match same t (zero T LVL t) with None => true | Some _ => false end) ts = forallb (fun t => match same' t (zero T LVL t) with None => true | Some _ => false end) ts.
  Proof.
    intros D. induction ts as [|t ts IH]; intros H; cbn [forallb]; [reflexivity|]. rewrite IH by (intros x I; apply H; right; exact I).
    destruct (agree_case _ _ _ (D t (zero T LVL t) (zero T LVL t) (H t (or_introl eq_refl)) (vs_refl _))) as [[-> ->]|(x & y & -> & -> & R)]; reflexivity.
  Qed.

  Section Struct.
  Variables (n : string) (fs : list field) (ps : list part) (d : dprog) (j : json).
  Hypothesis G : get n T = Some (EStruct fs ps d).
  Hypothesis O : ok (TNamed n) j.

  Lemma part_ok i f : In i (d_embed d ++ d_oneof d) -> nth_error fs i = Some f -> ok (f_ty f) j.
  Proof. intros I E. exact (OK (TNamed n, j) (f_ty f, j) O (rd_part T n fs ps d i f j G I E)). Qed.
  Lemma struct_rel w w' vs vs' : vrel j w w' -> vss vs vs' -> agree vss (dec_struct w fs vs) (dec_struct w' fs vs').
  Proof.
    intros W V. destruct W as [|b|q|s|x l l' F|m m1 m' F P]; cbn [dec_struct]; try (constructor; exact V); try constructor.
    assert (H : forall a i f, In a m -> find_field fs (fst a) = Some i -> nth_error fs i = Some f -> ok (f_ty f) (fst (snd a))).
    { intros a i f I E1 E2. destruct (find_field_fold _ _ _ E1) as (f' & q & A1 & A2 & A3). rewrite E2 in A1. injection A1 as <-.
      exact (OK (TNamed n, JObj (plain m)) (f_ty f, fst (snd a)) O (rd_field T n fs ps d f q (plain m) (fst a) (fst (snd a)) G (nth_error_In _ _ E2) A2 A3 (in_plain a m I))). }
    destruct P as [->|(SW & N & P)]; [apply fields_rel; assumption|]. rewrite <- (fields_perm fs m1 m' P); [apply fields_rel; assumption|].
    split; [eapply Permutation_NoDup; [apply Permutation_map; apply Permutation_sym; exact P|exact N]|].
    intros a b i f Ia Ib E1 E2 Ef. destruct (find_field_fold _ _ _ E1) as (f1 & q & A1 & A2 & A3). destruct (find_field_fold _ _ _ E2) as (f2 & q' & B1 & B2 & B3).
    rewrite Ef in A1, B1. injection A1 as <-. injection B1 as <-. rewrite A2 in B2. injection B2 as <-.
    destruct (F2_left _ _ _ _ F Ia) as (a0 & Ia0 & M1 & _ & _ & X1). destruct (F2_left _ _ _ _ F Ib) as (b0 & Ib0 & M2 & _ & _ & X2).
    rewrite <- M1 in *. rewrite <- M2 in *.
    destruct (CL SW n (plain m) fs ps d f q _ _ _ _ O G (nth_error_In _ _ Ef) A2 (in_plain _ _ Ia0) (in_plain _ _ Ib0) A3 B3) as [X|[X|X]]; [left; exact X|right; left; apply X1; exact X|right; right; apply X2; exact X].
  Qed.
  Lemma entry_ok i f t w w' a : vrel j w w' -> In a (raw_rest d (raw_map w)) ->
    (exists p, In (p, i) (d_pats d) /\ matches p (fst a) = true) \/ In i (d_addl d) /\ matched d (fst a) = false ->
    nth_error fs i = Some f -> f_ty f = TMap t -> ok t (fst (snd a)).
  Proof.
    intros W I H E1 E2. unfold raw_rest in I. apply filter_In in I. destruct I as [I K]. apply andb_true_iff in K. rewrite !negb_true_iff in K. destruct K as [K1 K2].
    assert (NI : forall l, in_list (fst a) l = false -> ~ In (fst a) l) by (intros l X Y; assert (in_list (fst a) l = true) by (apply existsb_exists; exists (fst a); split; [exact Y|apply String.eqb_refl]); congruence).
    assert (H' : (exists p, In (p, i) (d_pats d) /\ matches p (fst a) = true) \/ In i (d_addl d) /\ (forall p i', In (p, i') (d_pats d) -> matches p (fst a) = false)).
    { destruct H as [H|[H M]]; [left; exact H|right]. split; [exact H|]. intros p i' Ip. destruct (matches p (fst a)) eqn:X; [|reflexivity].
      assert (matched d (fst a) = true) by (apply existsb_exists; exists (p, i'); split; [exact Ip|exact X]). congruence. }
    destruct W as [|b|q|s|x l l' F|m m1 m' F P]; try destruct I. cbn [raw_map] in I.
    assert (I' : In a m) by (clear - I; induction m as [|y m IH]; [exact I|]; cbn [dedup] in I; destruct (in_list (fst y) (map fst m)); [right; auto|destruct I as [I|I]; [left; exact I|right; auto]]).
    exact (OK (TNamed n, JObj (plain m)) (t, fst (snd a)) O (rd_entry T n fs ps d i f t (plain m) (fst a) (fst (snd a)) G (NI _ K1) (NI _ K2) H' E1 E2 (in_plain a m I'))).
  Qed.
  End Struct.

  Section Orders.
  Variable rnd : Q -> Q.
  Variables o o' : order.
  Hypothesis Fo : fair o.
  Hypothesis Fo' : fair o'.

  Lemma rawd_rel n fs ps d j j' w w' vs vs' : get n T = Some (EStruct fs ps d) -> ok (TNamed n) j -> vrel j w w' -> vss vs vs' -> agree vss (dec_raw_o T o n j fs d w vs) (dec_raw_o T o' n j' fs d w' vs').
  Proof.
    intros G O W V. unfold dec_raw_o. pose proof (raw_rel _ _ _ W) as R. rewrite (checks_rel d _ _ R), (lower_rel d _ _ V).
    destruct (raw_checks d (raw_map w') && lower_checks d vs'); [|constructor].
    assert (R1 : rawrel (raw_rest d (raw_map w)) (raw_rest d (raw_map w'))) by (apply (filter_rel (fun k => negb (in_list k (map fst (d_const d))) && negb (in_list k (d_known d)))); exact R).
    assert (R2 : rawrel (raw_left d (raw_rest d (raw_map w))) (raw_left d (raw_rest d (raw_map w')))) by (apply (filter_rel (fun k => negb (matched d k))); exact R1).
    rewrite !pats_each.
    assert (A : agree vss (each (store_pats T fs (d_pats d)) (o n 0 j (raw_rest d (raw_map w))) (dec_fix (d_fix d) (raw_map w) vs))
                          (each (store_pats T fs (d_pats d)) (o' n 0 j' (raw_rest d (raw_map w'))) (dec_fix (d_fix d) (raw_map w') vs'))).
    { apply each_raw.
      - intros k d1 k' d2 us N. apply pats_swap. exact N.
      - intros k d1 us us' U. apply pats_same. exact U.
      - intros a b I (E & _ & D & _) us us' U. rewrite <- E. apply pats_rel1; [|exact U]. intros p i f t Ip Mp E1 E2. apply D; [|apply vs_refl].
        apply (entry_ok n fs ps d j G O i f t w w' a W); [|left; exists p; split; assumption|exact E1|exact E2].
        apply (Permutation_in _ (Permutation_sym (Fo _ _ _ _))) in I. exact I.
      - eapply fair_rel; [exact R1|apply Fo|apply Fo'].
      - apply fix_rel; assumption. }
    destruct (agree_case _ _ _ A) as [[-> ->]|(us & us' & -> & -> & U)]; [constructor|].
    destruct (d_addl d) as [|i is] eqn:Ea.
    - destruct R2 as (m1 & F & P & _). destruct (raw_left d (raw_rest d (raw_map w))) as [|x l]; destruct (raw_left d (raw_rest d (raw_map w'))) as [|x' l'].
      + destruct (d_closed d && _); constructor. exact U.
      + inversion F; subst. apply Permutation_nil in P. discriminate P.
      + apply Permutation_sym, Permutation_nil in P. subst m1. inversion F.
      + destruct (d_closed d && _); constructor. exact U.
    - rewrite !addl_each. apply each_raw.
      + intros k d1 k' d2 ws N. apply store_swap. exact N.
      + intros k d1 ws ws' U'. apply store_same. exact U'.
      + intros a b I (E & _ & D & _) ws ws' U'. rewrite <- E. apply (Permutation_in _ (Permutation_sym (Fo _ _ _ _))) in I. unfold raw_left in I. apply filter_In in I. destruct I as [I NM]. apply negb_true_iff in NM. apply store_rel; [|exact U']. intros f t E1 E2. apply D; [|apply vs_refl].
        apply (entry_ok n fs ps d j G O i f t w w' a W); [exact I|right; split; [rewrite Ea; left; reflexivity|exact NM]|exact E1|exact E2].
      + eapply fair_rel; [exact R2|apply Fo|apply Fo'].
      + exact U.
  Qed.

  Lemma ent_rel n fs ps d j j' same same' w w' vs vs' : get n T = Some (EStruct fs ps d) -> ok (TNamed n) j -> drel (fun t => ok t j) same same' -> vrel j w w' -> vss vs vs' ->
    agree vss (dec_ent_o T o n j same w fs d vs) (dec_ent_o T o' n j' same' w' fs d vs').
  Proof.
    intros G O D W V. unfold dec_ent_o. rewrite (not_rel _ _ _ (d_not d) D) by (intros t I; exact (OK (TNamed n, j) (t, j) O (rd_not T n fs ps d t j G I))). destruct (forallb _ (d_not d)); [|constructor].
    assert (A : agree vss (if d_struct d then dec_struct w fs vs else Some vs) (if d_struct d then dec_struct w' fs vs' else Some vs')) by (destruct (d_struct d); [apply (struct_rel n fs ps d j); assumption|constructor; exact V]).
    destruct (agree_case _ _ _ A) as [[-> ->]|(us & us' & -> & -> & U)]; [constructor|].
    pose proof (part_ok n fs ps d j G O) as PO.
    assert (A2 : agree vss (dec_embed same fs (d_embed d) us) (dec_embed same' fs (d_embed d) us')) by (apply (embed_rel _ fs _ _ D); [intros i f I; apply PO; apply in_or_app; left; exact I|exact U]).
    destruct (agree_case _ _ _ A2) as [[-> ->]|(ws & ws' & -> & -> & X)]; [constructor|].
    destruct (alts_rel _ fs _ _ D (d_oneof d) _ _ 0 (fun i f I => PO i f (in_or_app _ _ _ (or_intror I))) X) as [Y E]. destruct (dec_alts same fs (d_oneof d) ws 0) as [zs z]. destruct (dec_alts same' fs (d_oneof d) ws' 0) as [zs' z'].
    cbn [fst snd] in Y, E. subst z'. destruct (match d_oneof d with [] => true | _ => (z =? 1)%nat end); [|constructor]. apply (rawd_rel n fs ps); assumption.
  Qed.

  Lemma canon_rel : forall j j', jrel j j' -> reordered (canon rnd j) (canon rnd j').
  Proof.
    induction j as [|b|q|s|l IH|m IH] using json_ind'; intros j' H; inversion H as [| | | |l1 l2 F|m0 m1 m' F P]; subst; cbn [canon]; [constructor|constructor|constructor|constructor| | ].
    - constructor. clear H. induction F as [|a b l l' J F IHF]; cbn [map]; constructor; inversion IH; subst; auto.
    - set (f := fun kv : string * json => (fst kv, canon rnd (snd kv))).
      assert (F' : Forall2 (fun a b => fst a = fst b /\ reordered (snd a) (snd b)) (map f m) (map f m1)).
      { clear P H. induction F as [|a b l l' [E J] F IHF]; cbn [map]; constructor; inversion IH; subst; [split; [exact E|cbn; auto]|auto]. }
      assert (Kf : forall l, map fst (map f l) = map fst l) by (intros l; rewrite map_map; reflexivity).
      destruct P as [->|(_ & N & P)].
      + apply ro_obj with (dedup (map f m)); [reflexivity|]. apply dedup_F2; [|exact F']. intros a b [E _]. exact E.
      + assert (N1 : NoDup (map fst m1)) by (eapply Permutation_NoDup; [apply Permutation_map; apply Permutation_sym; exact P|exact N]).
        assert (Em : map fst m = map fst m1) by (clear - F; induction F as [|a b l l' [E _] F IHF]; [reflexivity|]; cbn [map]; rewrite E, IHF; reflexivity).
        rewrite !dedup_same by (rewrite Kf; congruence). 
        destruct (perm_F2_r _ _ _ _ (Permutation_map f P) F') as (m2 & A & B). apply ro_obj with m2; assumption.
  Qed.

  Lemma elems_rel t : forall xs ds ds', drels xs ds ds' -> (forall x, In x xs -> ok t x) -> forall os os', vss os os' -> agree vss (dec_elems T t ds os) (dec_elems T t ds' os').
  Proof.
    induction 1 as [|x xs d ds d' ds' D F IH]; intros H os os' V; cbn [dec_elems]; [constructor; constructor|].
    assert (HD : vsame (hd (zero T LVL t) os) (hd (zero T LVL t) os')) by (destruct V; [apply vs_refl|assumption]).
    assert (TL : vss (tl os) (tl os')) by (destruct V; [constructor|assumption]).
    destruct (agree_case _ _ _ (D t _ _ (H x (or_introl eq_refl)) HD)) as [[-> ->]|(v & v' & -> & -> & R)]; [constructor|].
    destruct (IH (fun y I => H y (or_intror I)) _ _ TL) as [|us us' RR]; constructor. constructor; assumption.
  Qed.
  Definition msame (m m' : list (string * val)) : Prop := vsame (VMap m) (VMap m').
  Lemma entries_F2 t : forall ms ms', Forall2 mem ms ms' -> (forall a, In a ms -> ok t (fst (snd a))) -> forall m m', msame m m' -> agree msame (dec_entries T t ms m) (dec_entries T t ms' m').
  Proof.
    induction 1 as [|[k [j d]] [k' [j' d']] l l' (E & J & D & _) F IH]; intros H m m' M; cbn [dec_entries]; [constructor; exact M|]. cbn in E, J, D. subst k'.
    destruct (agree_case _ _ _ (D t (zero T LVL t) (zero T LVL t) (H _ (or_introl eq_refl)) (vs_refl _))) as [[-> ->]|(x & y & -> & -> & R)]; [constructor|]. apply IH; [intros a I; apply H; right; exact I|]. apply put_rel; assumption.
  Qed.
  Lemma msame_trans a b c : msame a b -> msame b c -> msame a c.
  Proof. apply vs_trans. Qed.
  Lemma entries_same t : forall ms m m', msame m m' -> agree msame (dec_entries T t ms m) (dec_entries T t ms m').
  Proof.
    induction ms as [|[k [j d]] ms IH]; intros m m' M; cbn [dec_entries]; [constructor; exact M|].
    destruct (d t (zero T LVL t)) as [v|]; [|constructor]. apply IH. apply put_rel; [apply vs_refl|exact M].
  Qed.
  Lemma entries_perm t : forall ms ms', Permutation ms ms' -> NoDup (map fst ms) -> forall m, agree msame (dec_entries T t ms m) (dec_entries T t ms' m).
  Proof.
    intros ms ms' P. induction P as [|[k [j d]] ms ms' P IH|[k [j d]] [k' [j' d']] ms|ms1 ms2 ms3 P1 IH1 P2 IH2]; intros N m; cbn [dec_entries].
    - constructor. apply vs_refl.
    - inversion N; subst. destruct (d t (zero T LVL t)); [|constructor]. apply IH. assumption.
    - cbn [map fst] in N. inversion N as [|x l NI N']; subst. assert (D : k' <> k) by (intros ->; apply NI; left; reflexivity).
      destruct (d t (zero T LVL t)) as [v|]; destruct (d' t (zero T LVL t)) as [v'|]; try constructor. apply entries_same. apply put_swap. congruence.
    - eapply (agree_trans msame msame_trans); [apply IH1; exact N|]. apply IH2. eapply Permutation_NoDup; [apply Permutation_map; exact P1|exact N].
  Qed.

  Lemma olds_rel v v' : vsame v v' -> vss (match v with VArr l => l | _ => [] end) (match v' with VArr l => l | _ => [] end).
  Proof. intros V. inversion V; subst; try constructor; assumption. Qed.

  Lemma step_rel j j' w w' same same' : jrel j j' -> vrel j w w' -> drel (fun t => ok t j) same same' -> drel (fun t => ok t j) (dec_step_o T rnd o j w same) (dec_step_o T rnd o' j' w' same').
  Proof.
    intros J W D t v v' O V. destruct t as [| | | | | |t|t|t|n]; cbn [dec_step_o dec_step].
    1,4: destruct W; constructor; exact V || constructor.
    1: destruct W; try constructor; try exact V; destruct (int64b q); constructor; constructor.
    1: destruct W; try constructor; try exact V; constructor.
    - constructor. constructor. apply canon_rel. exact J.
    - constructor.
    - assert (Z : vsame (match v with VPtr x => x | _ => zero T LVL t end) (match v' with VPtr x => x | _ => zero T LVL t end)) by (inversion V; subst; try apply vs_refl; assumption).
      pose proof (D t _ _ (OK (TPtr t, j) (t, j) O (rd_ptr T t j)) Z) as A. destruct W; try (constructor; constructor); destruct (agree_case _ _ _ A) as [[-> ->]|(x0 & y & -> & -> & R)]; constructor; constructor; exact R.
    - destruct W as [|b|q|s|x l l' F|m m1 m' F P]; try constructor; try constructor.
      destruct (elems_rel t _ _ _ F (fun y I => OK (TArr t, JArr x) (t, y) O (rd_arr T t x y I)) _ _ (olds_rel _ _ V)); constructor. constructor. assumption.
    - destruct W as [|b|q|s|x l l' F|m m1 m' F P]; try constructor; try constructor.
      assert (H : forall a, In a m -> ok t (fst (snd a))) by (intros a I; exact (OK (TMap t, JObj (plain m)) (t, fst (snd a)) O (rd_map T t _ (fst a) _ (in_plain a m I)))).
      pose proof (entries_rel _ _ V) as E. fold (entries v). fold (entries v').
      assert (A : agree msame (dec_entries T t m (entries v)) (dec_entries T t m' (entries v'))).
      { destruct P as [->|(_ & N & P)]; [apply entries_F2; assumption|]. eapply (agree_trans msame msame_trans); [apply (entries_F2 t m m1 F H _ _ E)|].
        apply entries_perm; [exact P|]. eapply Permutation_NoDup; [apply Permutation_map; apply Permutation_sym; exact P|exact N]. }
      destruct (agree_case _ _ _ A) as [[-> ->]|(x & y & -> & -> & R)]; constructor. exact R.
    - destruct (get n T) as [[vals|fs ps d]|] eqn:G; [| |constructor].
      + destruct W; try constructor; destruct (in_list _ vals); constructor; constructor.
      + destruct V; try constructor. destruct (agree_case _ _ _ (ent_rel n fs ps d j j' same same' w w' l l' G O D W H)) as [[-> ->]|(x & y & -> & -> & R)]; constructor. constructor. exact R.
  Qed.
  Lemma levels_rel okj f g : (forall s s', drel okj s s' -> drel okj (f s) (g s')) -> forall n, drel okj (levels f n) (levels g n).
  Proof. intros H. induction n as [|n IH]; cbn [levels]; [intros t v v' _ V; constructor|apply H; exact IH]. Qed.

  Lemma dec_misfit o1 t m v : misfit t (JObj m) -> dec_o T rnd o1 (JObj m) t v = None.
  Proof. intros [[->| ->] _]; reflexivity. Qed.
  Lemma dec_rel : forall j j', jrel j j' -> drel (fun t => ok t j) (dec_o T rnd o j) (dec_o T rnd o' j').
  Proof.
    induction j as [|b|q|s|l IH|m IH] using json_ind'; intros j' H; inversion H as [| | | |l1 l2 F|m0 m1 m' F P]; subst; cbn [dec_o]; apply levels_rel; intros sm sm' D; apply step_rel; try exact H; try exact D; [constructor|constructor|constructor|constructor| | ].
    - constructor. clear H D. induction F as [|a b l l' J F IHF]; cbn [map]; constructor; inversion IH; subst; auto.
    - set (g := fun kv : string * json => (fst kv, (snd kv, dec_o T rnd o (snd kv)))). set (g' := fun kv : string * json => (fst kv, (snd kv, dec_o T rnd o' (snd kv)))).
      assert (E : JObj m = JObj (plain (map g m))). { f_equal. unfold plain. rewrite map_map. cbn [fst snd g]. rewrite <- (map_id m) at 1. apply map_ext. intros [k x]. reflexivity. }
      rewrite E at 1. apply vr_obj with (map g' m1).
      + clear P H D E. induction F as [|a b l l' [E J] F IHF]; cbn [map]; constructor; inversion IH; subst; [|auto]. split; [exact E|]. cbn [fst snd g g']. split; [exact J|]. split; [auto|]. intros t M u. cbn [fst snd g g'] in *.
        destruct M as [Mt (mm & Em)]. cbn [snd] in Em. rewrite Em in J. inversion J; subst. apply dec_misfit. split; [exact Mt|eexists; reflexivity].
      + destruct P as [->|(SW & C & P)]; [left; reflexivity|right]. split; [exact SW|]. split; [rewrite map_map; cbn; exact C|apply Permutation_map; exact P].
  Qed.
  End Orders.
End Keys.

Lemma jr_refl sw : forall j, jrel sw j j.
Proof.
  induction j as [|b|q|s|l IH|m IH] using json_ind'; [constructor|constructor|constructor|constructor| | ].
  - constructor. apply F2_refl. exact IH.
  - apply jr_obj with m; [|left; reflexivity]. apply F2_refl. eapply Forall_impl; [|exact IH]. intros a H. split; [reflexivity|exact H].
Qed.

(* ---------- C90: iteration order ---------- *)

Theorem order_free T rnd o o' t j : fair o -> fair o' -> agree vsame (unmarshal_o T rnd o t j) (unmarshal_o T rnd o' t j).
Proof.
  intros F F'. unfold unmarshal_o. apply (dec_rel T (fun _ _ => True) False) with (1 := fun _ _ _ _ => I) (3 := F) (4 := F'); [intros []|apply jr_refl|exact I|apply vs_refl].
Qed.

Definition as_given : order := fun _ _ _ l => l.
Lemma fair_given : fair as_given.
Proof. intros n i j l. reflexivity. Qed.


Lemma step_given T rnd : dec_step_o T rnd as_given = dec_step T rnd.
Proof. unfold dec_step_o, dec_step, dec_ent_o, dec_ent, dec_raw_o, dec_raw, as_given. reflexivity. Qed.
Lemma dec_given T rnd : dec_o T rnd as_given = dec T rnd.
Proof. unfold dec_o, dec. rewrite step_given. reflexivity. Qed.

(* ---------- C89: order of members ---------- *)

Lemma jr_of_ro : forall j j', distinct j -> reordered j j' -> jrel True j j'.
Proof.
  induction j as [|b|q|s|l IH|m IH] using json_ind'; intros j' D H; inversion H as [| | | |l1 l2 F|m0 m1 m' P F]; subst; [constructor|constructor|constructor|constructor| | ].
  - constructor. inversion D as [| | | |l0 D'|]; subst. rewrite Forall_forall in IH.
    clear H D. induction F as [|a b l l' J F IHF]; constructor.
    + apply IH; [left; reflexivity| |exact J]. apply D'. left. reflexivity.
    + apply IHF; [intros x I; apply IH; right; exact I|intros x I; apply D'; right; exact I].
  - inversion D as [| | | | |m0 ND D']; subst. rewrite Forall_forall in IH.
    destruct (Permutation_Forall2 (Permutation_sym P) F) as (m2 & A & B). apply jr_obj with m2.
    + clear - IH B D'. induction B as [|[k a] [k' b] l l' [E J] F IHF]; constructor.
      * cbn in E, J. subst k'. split; [reflexivity|]. cbn. apply (IH (k, a)); [left; reflexivity| |exact J]. apply (D' k). left. reflexivity.
      * apply IHF; [intros x I; apply IH; right; exact I|intros k1 x I; apply (D' k1); right; exact I].
    + right. split; [exact I|]. split; [|apply Permutation_sym; exact A].
      assert (E : map fst m = map fst m2) by (clear - B; induction B as [|x y l l' [E _] F IHF]; [reflexivity|]; cbn [map]; rewrite E, IHF; reflexivity).
      eapply Permutation_NoDup; [|exact ND]. rewrite E. apply Permutation_map. apply Permutation_sym. exact A.
Qed.

Theorem members_order_free T rnd o o' t j j' : fair o -> fair o' -> distinct j -> unambiguous T t j -> reordered j j' ->
  agree vsame (unmarshal_o T rnd o t j) (unmarshal_o T rnd o' t j').
Proof.
  intros F F' D N R. unfold unmarshal_o.
  apply (dec_rel T (fun t' j' => reads_all T (t, j) (t', j')) True) with (3 := F) (4 := F'); [| |apply jr_of_ro; assumption|apply ra_self|apply vs_refl].
  - intros [t1 j1] [t2 j2] A B. cbn [fst snd] in *. eapply ra_step; eassumption.
  - intros _ n m fs ps d f q k x k' x' A. apply (N n m fs ps d f q k x k' x' A).
Qed.
Theorem members_free T rnd t j j' : distinct j -> unambiguous T t j -> reordered j j' ->
  agree vsame (unmarshal T rnd t j) (unmarshal T rnd t j').
Proof.
  intros D N R. pose proof (members_order_free T rnd as_given as_given t j j' fair_given fair_given D N R) as A. unfold unmarshal_o in A. rewrite dec_given in A. exact A.
Qed.

(* ---------- documents without variants ---------- *)

Lemma field_keys_In T n fs ps d : get n T = Some (EStruct fs ps d) -> forall f k, In f fs -> f_key f = Some k -> In k (field_keys T).
Proof.
  intros G f k I E. apply get_In in G. unfold field_keys. apply in_flat_map. exists (n, EStruct fs ps d). split; [exact G|]. cbn [snd].
  apply in_flat_map. exists f. split; [exact I|]. rewrite E. left. reflexivity.
Qed.
Theorem plainly_unambiguous T t j : no_variants (field_keys T) j -> unambiguous T t j.
Proof.
  intros N. assert (H : forall a b, reads_all T a b -> no_variants (field_keys T) (snd a) -> no_variants (field_keys T) (snd b)).
  { intros a b RA NA. induction RA as [|b c RA IH R]; [exact NA|]. clear RA. destruct R; cbn [snd] in *; try exact IH.
    - inversion IH as [| | | |l0 Hx|]; subst. apply Hx. assumption.
    - inversion IH as [| | | | |m0 C Hx]; subst. eapply Hx. eassumption.
    - inversion IH as [| | | | |m0 C Hx]; subst. eapply Hx. eassumption.
    - inversion IH as [| | | | |m0 C Hx]; subst. eapply Hx. eassumption. }
  intros n m fs ps d f q k x k' x' RA G If Eq Ik Ik' Fk Fk'. specialize (H _ _ RA N). cbn [snd] in H. inversion H as [| | | | |m0 C H0]; subst. left.
  exact (C q k k' (field_keys_In T n fs ps d G f q If Eq) (in_map fst _ _ Ik) (in_map fst _ _ Ik') Fk Fk').
Qed.
