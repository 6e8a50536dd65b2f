(* Go maps with string keys, as association lists without duplicate keys.
   [put] replaces in place or appends; iteration order is list order. *)
From Verif Require Import Str.

Definition smap (A : Type) := list (string * A).

Section SMap.
  Context {A : Type}.

  Fixpoint get (k : string) (m : smap A) : option A :=
    match m with
    | [] => None
    | (k', v) :: m' => if String.eqb k k' then Some v else get k m'
    end.

  Fixpoint put (k : string) (v : A) (m : smap A) : smap A :=
    match m with
    | [] => [(k, v)]
    | (k', v') :: m' => if String.eqb k k' then (k, v) :: m' else (k', v') :: put k v m'
    end.

  Definition has (k : string) (m : smap A) : bool :=
    match get k m with Some _ => true | None => false end.

  Definition keys (m : smap A) : list string := map fst m.

  Lemma get_put_same k v m : get k (put k v m) = Some v.
  Proof.
    induction m as [|[k' v'] m IH]; simpl.
    - rewrite String.eqb_refl. reflexivity.
    - destruct (String.eqb k k') eqn:E; simpl; rewrite ?String.eqb_refl, ?E; auto.
  Qed.

  Lemma get_put_other k k' v m : k' <> k -> get k' (put k v m) = get k' m.
  Proof.
    intros N. apply String.eqb_neq in N. induction m as [|[k2 v2] m IH]; simpl.
    - rewrite N. reflexivity.
    - destruct (String.eqb k k2) eqn:E; simpl.
      + apply String.eqb_eq in E. subst k2. rewrite N. reflexivity.
      + destruct (String.eqb k' k2); auto.
  Qed.

  Lemma get_put k k' v m : get k' (put k v m) = if String.eqb k' k then Some v else get k' m.
  Proof.
    destruct (String.eqb k' k) eqn:E.
    - apply String.eqb_eq in E. subst. apply get_put_same.
    - apply String.eqb_neq in E. apply get_put_other. exact E.
  Qed.

  Lemma get_In k v m : get k m = Some v -> In (k, v) m.
  Proof.
    induction m as [|[k' v'] m IH]; simpl; [discriminate|].
    destruct (String.eqb k k') eqn:E.
    - apply String.eqb_eq in E. intros H. injection H as <-. subst. auto.
    - auto.
  Qed.

  Lemma get_None k m : get k m = None <-> ~ In k (keys m).
  Proof.
    induction m as [|[k' v'] m IH]; simpl.
    - tauto.
    - destruct (String.eqb k k') eqn:E.
      + apply String.eqb_eq in E. subst. split; [discriminate|]. intros N. exfalso. auto.
      + apply String.eqb_neq in E. rewrite IH. firstorder congruence.
  Qed.

  Lemma In_get k v m : NoDup (keys m) -> In (k, v) m -> get k m = Some v.
  Proof.
    induction m as [|[k' v'] m IH]; simpl; intros N I; [tauto|].
    inversion N; subst. destruct I as [I|I].
    - injection I as -> ->. rewrite String.eqb_refl. reflexivity.
    - destruct (String.eqb k k') eqn:E; auto.
      apply String.eqb_eq in E. subst. exfalso. apply H1. apply in_map_iff. exists (k', v). auto.
  Qed.

  Lemma keys_put k v m : forall x, In x (keys (put k v m)) <-> x = k \/ In x (keys m).
  Proof.
    intros x. induction m as [|[k' v'] m IH]; simpl.
    - intuition.
    - destruct (String.eqb k k') eqn:E; simpl.
      + apply String.eqb_eq in E. subst. intuition.
      + rewrite IH. intuition.
  Qed.

  Lemma NoDup_put k v m : NoDup (keys m) -> NoDup (keys (put k v m)).
  Proof.
    induction m as [|[k' v'] m IH]; simpl; intros N.
    - repeat constructor. simpl. tauto.
    - inversion N; subst. destruct (String.eqb k k') eqn:E; simpl.
      + apply String.eqb_eq in E. subst. constructor; auto.
      + apply String.eqb_neq in E. constructor; auto. rewrite keys_put. intuition.
  Qed.

  Lemma put_nonempty k v m : put k v m <> [].
  Proof. destruct m as [|[k' v'] m]; simpl; [discriminate|]. destruct (String.eqb k k'); discriminate. Qed.

  Lemma has_true k m : has k m = true <-> exists v, get k m = Some v.
  Proof. unfold has. destruct (get k m); split; eauto; [discriminate | intros [? H]; discriminate]. Qed.

  Lemma has_In k m : has k m = true <-> In k (keys m).
  Proof.
    unfold has. destruct (get k m) eqn:E.
    - split; auto. intros _. apply get_In in E. apply in_map_iff. exists (k, a). auto.
    - apply get_None in E. split; [discriminate | tauto].
  Qed.

  (* Equality of maps is equality of lookups. *)
  Definition map_eq (m1 m2 : smap A) : Prop := forall k, get k m1 = get k m2.
End SMap.
