(* The conditions of the order theorems as functions, for the examples. *)
From Coq Require Import Permutation.
From Verif Require Import Str SMap Json CodecModel CodecSpec CodecProofs CodecCheck OrdModel OrdSpec OrdProofs OrdWrite YamlDocSpec.

Fixpoint distinctb (j : json) : bool :=
  match j with
  | JArr l => forallb distinctb l
  | JObj m => nodups (map fst m) && forallb (fun kj => distinctb (snd kj)) m
  | _ => true
  end.
Lemma distinctb_ok : forall j, distinctb j = true -> distinct j.
Proof.
  induction j as [|b|q|s|l IH|m IH] using json_ind'; cbn [distinctb]; intros H; constructor.
  - rewrite forallb_forall in H. rewrite Forall_forall in IH. auto.
  - apply andb_true_iff in H. apply nodups_ok. apply H.
  - apply andb_true_iff in H. destruct H as [_ H]. rewrite forallb_forall in H. rewrite Forall_forall in IH. intros k j I. apply (IH _ I). exact (H _ I).
Qed.

(* Members whose names fold to the same are the same, wherever a key folds so. *)
Definition apartb (K ks : list string) : bool :=
  forallb (fun a => forallb (fun b => String.eqb a b || negb (String.eqb (fold_key a) (fold_key b)) || negb (existsb (fun k => String.eqb (fold_key k) (fold_key a)) K)) ks) ks.
Fixpoint variantsb (K : list string) (j : json) : bool :=
  match j with
  | JArr l => forallb (variantsb K) l
  | JObj m => apartb K (map fst m) && forallb (fun kj => variantsb K (snd kj)) m
  | _ => true
  end.
Lemma variantsb_ok K : forall j, variantsb K j = true -> no_variants K j.
Proof.
  induction j as [|b|q|s|l IH|m IH] using json_ind'; cbn [variantsb]; intros H; constructor.
  - rewrite forallb_forall in H. rewrite Forall_forall in IH. auto.
  - apply andb_true_iff in H. destruct H as [H _]. unfold apartb in H. rewrite forallb_forall in H. intros k a b Ik Ia Ib Ea Eb.
    specialize (H a Ia). rewrite forallb_forall in H. specialize (H b Ib). rewrite !orb_true_iff, !negb_true_iff in H. destruct H as [[H|H]|H].
    + apply String.eqb_eq. exact H.
    + apply String.eqb_neq in H. congruence.
    + exfalso. assert (X : existsb (fun k => String.eqb (fold_key k) (fold_key a)) K = true) by (apply existsb_exists; exists k; split; [exact Ik|apply String.eqb_eq; congruence]). congruence.
  - apply andb_true_iff in H. destruct H as [_ H]. rewrite forallb_forall in H. rewrite Forall_forall in IH. intros k j I. apply (IH _ I). exact (H _ I).
Qed.

(* What is read where: [n] bounds the depth. *)
Fixpoint unambb (T : list (string * ent)) (n : nat) (t : ty) (j : json) : bool :=
  match n with
  | O => false
  | S n =>
    match t with
    | TPtr t => unambb T n t j
    | TArr t => match j with JArr l => forallb (unambb T n t) l | _ => true end
    | TMap t => match j with JObj m => forallb (fun kx => unambb T n t (snd kx)) m | _ => true end
    | TNamed s =>
      match get s T with
      | Some (EStruct fs ps d) =>
        forallb (fun t => unambb T n t j) (d_not d) &&
        forallb (fun i => match nth_error fs i with Some f => unambb T n (f_ty f) j | None => true end) (d_embed d ++ d_oneof d) &&
        match j with
        | JObj m =>
          forallb (fun f => match f_key f with
                            | Some q => let ks := filter (fun k => String.eqb (fold_key k) (fold_key q)) (map fst m) in
                                        forallb (fun a => forallb (String.eqb a) ks) ks &&
                                        forallb (fun kx => if String.eqb (fold_key (fst kx)) (fold_key q) then unambb T n (f_ty f) (snd kx) else true) m
                            | None => true end) fs &&
          forallb (fun i => match nth_error fs i with
                            | Some f => match f_ty f with TMap t => forallb (fun kx => unambb T n t (snd kx)) m | _ => true end
                            | None => true end) (map snd (d_pats d) ++ d_addl d)
        | _ => true
        end
      | _ => true
      end
    | _ => true
    end
  end.
Lemma unambb_step T n a b : unambb T n (fst a) (snd a) = true -> reads T a b -> exists n', unambb T n' (fst b) (snd b) = true.
Proof.
  destruct n as [|n]; [discriminate|]. intros H R. exists n. destruct R as [t j|t l x I|t m k x I|s fs ps d t j G I|s fs ps d i f j G I E|s fs ps d f q m k x G If Eq Ef I|s fs ps d i f t m k x G _ _ Hi E Et I]; cbn [fst snd] in *; cbn [unambb] in H.
  - exact H.
  - rewrite forallb_forall in H. exact (H x I).
  - rewrite forallb_forall in H. exact (H (k, x) I).
  - rewrite G in H. apply andb_true_iff in H. destruct H as [H _]. apply andb_true_iff in H. destruct H as [H _]. rewrite forallb_forall in H. exact (H t I).
  - rewrite G in H. apply andb_true_iff in H. destruct H as [H _]. apply andb_true_iff in H. destruct H as [_ H]. rewrite forallb_forall in H. specialize (H i I). cbv beta in H. rewrite E in H. exact H.
  - rewrite G in H. apply andb_true_iff in H. destruct H as [_ H]. apply andb_true_iff in H. destruct H as [H _]. rewrite forallb_forall in H. specialize (H f If). cbv beta in H. rewrite Eq in H. cbv zeta in H.
    apply andb_true_iff in H. destruct H as [_ H]. rewrite forallb_forall in H. specialize (H (k, x) I). cbn [fst snd] in H. rewrite Ef, String.eqb_refl in H. exact H.
  - rewrite G in H. apply andb_true_iff in H. destruct H as [_ H]. apply andb_true_iff in H. destruct H as [_ H]. rewrite forallb_forall in H.
    assert (Ii : In i (map snd (d_pats d) ++ d_addl d)) by (apply in_or_app; destruct Hi as [(p & Ip & _)|[Ia _]]; [left; exact (in_map snd _ _ Ip)|right; exact Ia]).
    specialize (H i Ii). cbv beta in H. rewrite E, Et in H. rewrite forallb_forall in H. exact (H (k, x) I).
Qed.
Lemma unambb_ok T n t j : unambb T n t j = true -> unambiguous T t j.
Proof.
  intros H. assert (X : forall b, reads_all T (t, j) b -> exists n', unambb T n' (fst b) (snd b) = true).
  { intros b RA. induction RA as [|b c RA IH R]; [exists n; exact H|]. destruct IH as (n' & IH). exact (unambb_step T n' b c IH R). }
  intros s m fs ps d f q k x k' x' RA G If Eq Ik Ik' Ek Ek'. left. apply (in_map fst) in Ik, Ik'. cbn [fst] in Ik, Ik'. destruct (X _ RA) as ([|n'] & Y); [discriminate Y|]. cbn [fst snd unambb] in Y. rewrite G in Y.
  apply andb_true_iff in Y. destruct Y as [_ Y]. apply andb_true_iff in Y. destruct Y as [Y _]. rewrite forallb_forall in Y. specialize (Y f If). cbv beta in Y. rewrite Eq in Y. cbv zeta in Y.
  apply andb_true_iff in Y. destruct Y as [Y _]. rewrite forallb_forall in Y.
  assert (K : forall z, In z (map fst m) -> fold_key z = fold_key q -> In z (filter (fun k => String.eqb (fold_key k) (fold_key q)) (map fst m))) by (intros z Iz Ez; apply filter_In; split; [exact Iz|apply String.eqb_eq; exact Ez]).
  specialize (Y k (K k Ik Ek)). rewrite forallb_forall in Y. apply String.eqb_eq. exact (Y k' (K k' Ik' Ek')).
Qed.

(* All objects backwards. *)
Fixpoint backwards (j : json) : json :=
  match j with
  | JArr l => JArr (map backwards l)
  | JObj m => JObj (rev (map (fun kj => (fst kj, backwards (snd kj))) m))
  | _ => j
  end.
Lemma ro_rev m : reordered (JObj m) (JObj (rev m)).
Proof. apply ro_obj with (rev m); [apply Permutation_rev|]. apply F2_refl. apply Forall_forall. intros x _. split; [reflexivity|apply ro_refl]. Qed.
Lemma ro_backwards : forall j, reordered j (backwards j).
Proof.
  induction j as [|b|q|s|l IH|m IH] using json_ind'; cbn [backwards]; try constructor.
  - induction IH; cbn [map]; constructor; assumption.
  - apply ro_trans with (JObj (map (fun kj => (fst kj, backwards (snd kj))) m)); [|apply ro_rev].
    apply ro_obj with m; [reflexivity|]. induction IH; cbn [map]; constructor; auto.
Qed.

(* Values with equal scalars in the same places (maps aside). *)
Fixpoint vs_eqb (v w : val) : bool :=
  match v, w with
  | VStr s, VStr s' => String.eqb s s'
  | VPtr v, VPtr w => vs_eqb v w
  | VStruct l, VStruct l' => (fix go l l' := match l, l' with v :: l, w :: l' => vs_eqb v w && go l l' | _, _ => true end) l l'
  | _, _ => true
  end.
Lemma vs_eqb_ok : forall v w, vsame v w -> vs_eqb v w = true.
Proof.
  induction v as [|s|q|b|j|v IH|l IH|m IH|l IH] using val_ind'; intros w S; inversion S; subst; try reflexivity; cbn [vs_eqb].
  - apply String.eqb_refl.
  - apply IH. assumption.
  - match goal with F : Forall2 _ _ _ |- _ => rename F into FF end. clear S. induction FF as [|x y l l' H F IHF]; [reflexivity|]. inversion IH; subst. apply andb_true_iff. split; [auto|apply IHF; assumption].
Qed.

(* No rounding. *)
Lemma floatsb_ok : forall j, distinctb j = true -> floats idq j.
Proof.
  induction j as [|b|q|s|l IH|m IH] using json_ind'; cbn [distinctb]; intros H; constructor; try reflexivity.
  - rewrite forallb_forall in H. rewrite Forall_forall in IH. auto.
  - apply andb_true_iff in H. destruct H as [_ H]. rewrite forallb_forall in H. rewrite Forall_forall in IH. intros k j I. apply (IH _ I). exact (H _ I).
Qed.
