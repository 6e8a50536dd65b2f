(* Sequences of calls in another order. *)
From Coq Require Import Permutation.
From Verif Require Import Str SMap Json PathModel PathSpec PathProofs Types RegistryModel RegistrySpec ReflectModel ReflectSpec
  ReflectProofs SeqSpec SeqProofs.

(* Steps whose effects on different places do not meet. *)
Section Perm.
  Variables (S A R P : Type) (step : S -> A -> S * R) (place : A -> P).
  Variables (eqv : S -> S -> Prop) (ok : S -> Prop) (oka : A -> Prop) (va : A -> A -> Prop).
  Hypothesis eqv_trans : forall a b c, eqv a b -> eqv b c -> eqv a c.
  Hypothesis eqv_refl : forall a, eqv a a.
  Hypothesis va_refl : forall a, va a a.
  Hypothesis step_ok : forall s a, ok s -> oka a -> ok (fst (step s a)).
  Hypothesis step_ok' : forall s a a', ok s -> oka a -> va a a' -> ok (fst (step s a')).
  Hypothesis step_eqv : forall s s' a a', ok s -> ok s' -> oka a -> va a a' -> eqv s s' ->
    eqv (fst (step s a)) (fst (step s' a')) /\ snd (step s a) = snd (step s' a').
  Hypothesis step_swap : forall s a b, ok s -> oka a -> oka b -> place a <> place b ->
    eqv (fst (step (fst (step s a)) b)) (fst (step (fst (step s b)) a)) /\
    snd (step (fst (step s a)) b) = snd (step s b) /\ snd (step (fst (step s b)) a) = snd (step s a).

  Fixpoint seq (s : S) (l : list A) : S * list R :=
    match l with
    | [] => (s, [])
    | a :: l' => let (s1, x) := step s a in let (s2, t) := seq s1 l' in (s2, x :: t)
    end.

  Lemma seq_cons s a l : seq s (a :: l) = (fst (seq (fst (step s a)) l), snd (step s a) :: snd (seq (fst (step s a)) l)).
  Proof. cbn [seq]. destruct (step s a) as [s1 x]. cbn [fst snd]. destruct (seq s1 l) as [s2 t]. reflexivity. Qed.

  Lemma seq_eqv : forall l l' s s', Forall2 va l l' -> Forall oka l -> ok s -> ok s' -> eqv s s' ->
    eqv (fst (seq s l)) (fst (seq s' l')) /\ snd (seq s l) = snd (seq s' l').
  Proof.
    intros l l' s s' H. revert s s'. induction H as [|a a' l l' V H IH]; intros s s' F O O' E.
    - split; [exact E|reflexivity].
    - inversion F as [|? ? F1 F2]; subst. rewrite !seq_cons. cbn [fst snd].
      destruct (step_eqv s s' a a' O O' F1 V E) as [E1 E2].
      destruct (IH _ _ F2 (step_ok _ _ O F1) (step_ok' _ _ _ O' F1 V) E1) as [E3 E4].
      split; [exact E3|]. rewrite E2, E4. reflexivity.
  Qed.

  Lemma va_list l : Forall2 va l l.
  Proof. induction l; auto. Qed.

  Lemma seq_perm : forall l l' s, Permutation l l' -> NoDup (map place l) -> Forall oka l -> ok s ->
    eqv (fst (seq s l)) (fst (seq s l')) /\ Permutation (combine l (snd (seq s l))) (combine l' (snd (seq s l'))).
  Proof.
    intros l l' s H. revert s. induction H as [|a l l' H IH|a b l|l1 l2 l3 H1 IH1 H2 IH2]; intros s ND F O.
    - split; [apply eqv_refl|apply Permutation_refl].
    - inversion F as [|? ? F1 F2]; subst. inversion ND as [|? ? N1 N2]; subst. rewrite !seq_cons. cbn [fst snd combine].
      destruct (IH _ N2 F2 (step_ok _ _ O F1)) as [E1 E2]. split; [exact E1|]. apply perm_skip. exact E2.
    - inversion F as [|? ? Fb F']; subst. inversion F' as [|? ? Fa F2]; subst. cbn [map] in ND. inversion ND as [|? ? N1 N2]; subst.
      rewrite !seq_cons. cbn [fst snd combine].
      assert (D : place b <> place a). { intros E. apply N1. left. symmetry. exact E. }
      destruct (step_swap s b a O Fb Fa D) as (E1 & E2 & E3).
      destruct (seq_eqv l l _ _ (va_list l) F2 (step_ok _ _ (step_ok _ _ O Fb) Fa) (step_ok _ _ (step_ok _ _ O Fa) Fb) E1) as [E4 E5].
      split; [exact E4|]. rewrite E2, E3, E5. apply perm_swap.
    - assert (ND2 : NoDup (map place l2)). { eapply Permutation_NoDup; [|exact ND]. apply Permutation_map. exact H1. }
      assert (F2 : Forall oka l2). { apply Forall_forall. intros x I. rewrite Forall_forall in F. apply F. eapply Permutation_in; [apply Permutation_sym; exact H1|exact I]. }
      destruct (IH1 s ND F O) as [E1 E2]. destruct (IH2 s ND2 F2 O) as [E3 E4].
      split; [exact (eqv_trans _ _ _ E1 E3)|exact (Permutation_trans E2 E4)].
  Qed.
End Perm.

Lemma sanitized m p : openapi_method m -> clean p -> exists ps, sanitize_method_path m p = Some (m, p, ps).
Proof.
  intros OM CL. destruct (sanitize_method_path m p) as [[[m' p'] ps]|] eqn:E.
  - destruct (clean_sanitized _ _ _ _ _ OM CL E) as [-> ->]. exists ps. reflexivity.
  - exfalso. unfold sanitize_method_path in E. rewrite (to_lower_fix _ OM) in E.
    destruct OM as [->|[->|[->|[->|[->|[->|[->| ->]]]]]]]; discriminate E.
Qed.

(* ------------------------------------------------------------------ *)
(* openapi3: the paths                                                  *)

Section P30.
  Context {Sch : Type}.

  Definition set30 (s : paths30 Sch) (p m : string) (o : op30 Sch) : paths30 Sch :=
    mkPaths30 (put p (mkPI30 (put m o (pi_ops (item30 s p))) (pi30_rest (item30 s p))) (sp30_items s)) (sp30_rest s).

  Lemma add30_form m p : openapi_method m -> clean p -> exists ps, forall s (o : op30 Sch),
    add_operation30 s m p o =
      match get m (pi_ops (item30 s p)) with
      | Some _ => (s, Some EExists)
      | None => match validate_path_params (op_params o) ps with
                | [] => (set30 s p m (set_responses o (ensure_response (op_responses o))), None)
                | errs => (s, Some (EParams errs))
                end
      end.
  Proof.
    intros OM CL. destruct (sanitized m p OM CL) as [ps E]. exists ps. intros s o. unfold add_operation30, setup_operation30.
    rewrite (to_lower_fix _ OM), E. destruct (get m (pi_ops (item30 s p))); [reflexivity|]. cbn [run_setups set_responses op_params].
    destruct (validate_path_params (op_params o) ps); reflexivity.
  Qed.

  Lemma item_same (s s' : paths30 Sch) p : same_paths30 s s' -> same_item30 (item30 s p) (item30 s' p).
  Proof.
    intros [H _]. specialize (H p). unfold item30, same_opt in *. destruct (get p (sp30_items s)), (get p (sp30_items s')); try tauto.
    split; [intros k|]; reflexivity.
  Qed.

  Lemma put_same30 (s s' : paths30 Sch) p i i' : same_paths30 s s' -> same_item30 i i' ->
    same_paths30 (mkPaths30 (put p i (sp30_items s)) (sp30_rest s)) (mkPaths30 (put p i' (sp30_items s')) (sp30_rest s')).
  Proof.
    intros [H1 H2] H. split; [|exact H2]. intros q. cbn [sp30_items]. rewrite !get_put. destruct (String.eqb q p); [exact H|apply H1].
  Qed.

  Lemma add30_same m p o (s s' : paths30 Sch) : openapi_method m -> clean p -> same_paths30 s s' ->
    same_paths30 (fst (add_operation30 s m p o)) (fst (add_operation30 s' m p o)) /\
    snd (add_operation30 s m p o) = snd (add_operation30 s' m p o).
  Proof.
    intros OM CL H. destruct (add30_form m p OM CL) as [ps E]. rewrite !E. destruct (item_same s s' p H) as [HI HR].
    rewrite <- (HI m). destruct (get m (pi_ops (item30 s p))); [split; [exact H|reflexivity]|].
    destruct (validate_path_params (op_params o) ps); [|split; [exact H|reflexivity]]. split; [|reflexivity].
    apply put_same30; [exact H|]. split; [|exact HR]. intros k. cbn [pi_ops]. rewrite !get_put. destruct (String.eqb k m); [reflexivity|apply HI].
  Qed.

  Lemma same_paths30_refl (s : paths30 Sch) : same_paths30 s s.
  Proof. split; [|reflexivity]. intros p. unfold same_opt. destruct (get p (sp30_items s)); [|exact I]. split; [intros k|]; reflexivity. Qed.
  Lemma same_paths30_trans (a b c : paths30 Sch) : same_paths30 a b -> same_paths30 b c -> same_paths30 a c.
  Proof.
    intros [H1 H2] [K1 K2]. split; [|congruence]. intros p. specialize (H1 p). specialize (K1 p). unfold same_opt in *.
    destruct (get p (sp30_items a)), (get p (sp30_items b)), (get p (sp30_items c)); try tauto.
    destruct H1 as [A1 A2], K1 as [B1 B2]. split; [|congruence]. intros k. rewrite A1. apply B1.
  Qed.

  Lemma get_set30 s p m o p' m' : (p, m) <> (p', m') -> get m' (pi_ops (item30 (set30 s p m o) p')) = get m' (pi_ops (item30 s p')).
  Proof.
    intros D. unfold set30. unfold item30 at 1. cbn [sp30_items]. rewrite get_put. destruct (String.eqb p' p) eqn:E; [|reflexivity].
    apply String.eqb_eq in E. subst p'. cbn [pi_ops]. rewrite get_put. destruct (String.eqb m' m) eqn:E'; [|reflexivity].
    apply String.eqb_eq in E'. subst m'. exfalso. apply D. reflexivity.
  Qed.

  Lemma set30_swap s p m o p' m' o' : (p, m) <> (p', m') ->
    same_paths30 (set30 (set30 s p m o) p' m' o') (set30 (set30 s p' m' o') p m o).
  Proof.
    intros D. split; [|reflexivity]. intros q. unfold set30, item30. cbn [sp30_items sp30_rest]. rewrite !get_put.
    destruct (String.eqb p' p) eqn:E.
    - apply String.eqb_eq in E. subst p'. rewrite String.eqb_refl. cbn [pi_ops pi30_rest].
      destruct (String.eqb q p); cbn [same_opt]; [|destruct (get q (sp30_items s)); [split; [intros k|]; reflexivity|exact I]].
      split; [|reflexivity]. intros k. cbn [pi_ops]. rewrite !get_put. destruct (String.eqb k m') eqn:E1; [|reflexivity].
      destruct (String.eqb k m) eqn:E2; [|reflexivity]. apply String.eqb_eq in E1, E2. subst. exfalso. apply D. reflexivity.
    - rewrite (String.eqb_sym p p'), E. destruct (String.eqb q p') eqn:E1.
      + destruct (String.eqb q p) eqn:E2.
        * apply String.eqb_eq in E1, E2. subst. rewrite String.eqb_refl in E. discriminate E.
        * cbn [same_opt]. split; [intros k|]; reflexivity.
      + destruct (String.eqb q p); cbn [same_opt]; [split; [intros k|]; reflexivity|].
        destruct (get q (sp30_items s)); [split; [intros k|]; reflexivity|exact I].
  Qed.

  Lemma add30_swap m p o m' p' o' (s : paths30 Sch) : openapi_method m -> clean p -> openapi_method m' -> clean p' -> (p, m) <> (p', m') ->
    same_paths30 (fst (add_operation30 (fst (add_operation30 s m p o)) m' p' o')) (fst (add_operation30 (fst (add_operation30 s m' p' o')) m p o)) /\
    snd (add_operation30 (fst (add_operation30 s m p o)) m' p' o') = snd (add_operation30 s m' p' o').
  Proof.
    intros OM CL OM' CL' D. destruct (add30_form m p OM CL) as [ps E]. destruct (add30_form m' p' OM' CL') as [ps' E'].
    assert (D' : (p', m') <> (p, m)) by congruence.
    rewrite (E s o), (E' s o').
    destruct (get m (pi_ops (item30 s p))) eqn:G; [|destruct (validate_path_params (op_params o) ps) as [|e es] eqn:V];
    (destruct (get m' (pi_ops (item30 s p'))) eqn:G'; [|destruct (validate_path_params (op_params o') ps') as [|e' es'] eqn:V']);
    cbn [fst snd]; rewrite ?E, ?E', ?(get_set30 _ _ _ _ _ _ D), ?(get_set30 _ _ _ _ _ _ D'), ?G, ?G', ?V, ?V'; cbn [fst snd];
    (split; [|reflexivity]); first [apply same_paths30_refl|apply set30_swap; exact D].
  Qed.
End P30.

(* ------------------------------------------------------------------ *)
(* openapi31: the paths and the webhooks                                *)

Section P31.
  Context {Sch : Type}.

  Definition items_of (s : paths31 Sch) : smap (pitem31 Sch) := match sp31_items s with Some m => m | None => [] end.
  Definition with_items (s : paths31 Sch) (m : smap (pitem31 Sch)) : paths31 Sch := mkPaths31 (Some m) (sp31_webhooks s) (sp31_rest s).

  (* The operation under a method, and the path item with another one. *)
  Definition op_at (i : pitem31 Sch) (m : string) : option (op31 Sch) := match pi_operation i m with Some x => x | None => None end.
  Definition op_put (i : pitem31 Sch) (m : string) (o : op31 Sch) : pitem31 Sch :=
    match pi_set_operation i m (Some o) with Some x => x | None => i end.

  Lemma op_known i m : openapi_method m -> pi_operation i m = Some (op_at i m).
  Proof. intros OM. unfold op_at. destruct OM as [->|[->|[->|[->|[->|[->|[->| ->]]]]]]]; reflexivity. Qed.
  Lemma put_known i m o : openapi_method m -> pi_set_operation i m (Some o) = Some (op_put i m o).
  Proof. intros OM. unfold op_put. destruct i. destruct OM as [->|[->|[->|[->|[->|[->|[->| ->]]]]]]]; reflexivity. Qed.

  Lemma op_at_put i m o m' : openapi_method m -> openapi_method m' -> m <> m' -> op_at (op_put i m o) m' = op_at i m'.
  Proof.
    intros OM OM' D. destruct i. destruct OM as [->|[->|[->|[->|[->|[->|[->| ->]]]]]]];
      destruct OM' as [->|[->|[->|[->|[->|[->|[->| ->]]]]]]]; try reflexivity; exfalso; apply D; reflexivity.
  Qed.
  Lemma op_put_swap i m o m' o' : openapi_method m -> openapi_method m' -> m <> m' ->
    op_put (op_put i m o) m' o' = op_put (op_put i m' o') m o.
  Proof.
    intros OM OM' D. destruct i. destruct OM as [->|[->|[->|[->|[->|[->|[->| ->]]]]]]];
      destruct OM' as [->|[->|[->|[->|[->|[->|[->| ->]]]]]]]; try reflexivity; exfalso; apply D; reflexivity.
  Qed.

  Lemma add31_form m p : openapi_method m -> clean p -> exists ps, forall s (o : op31 Sch),
    add_operation31 s m p o =
      let it := item31 (items_of s) p in
      match op_at it m with
      | Some _ => (with_items s (items_of s), Some EExists)
      | None => match validate_path_params (op_params o) ps with
                | [] => (with_items s (put p (op_put it m (ensure_response31 o)) (items_of s)), None)
                | errs => (with_items s (items_of s), Some (EParams errs))
                end
      end.
  Proof.
    intros OM CL. destruct (sanitized m p OM CL) as [ps E]. exists ps. intros s o. unfold add_operation31.
    rewrite (to_lower_fix _ OM).
    assert (PE : forall s : paths31 Sch, paths_ens s = (with_items s (items_of s), items_of s)).
    { intros [[x|] w q]; reflexivity. }
    rewrite PE. cbv zeta. rewrite (op_known _ _ OM). destruct (op_at (item31 (items_of s) p) m) eqn:G; [reflexivity|].
    unfold setup_operation31. rewrite E, PE. change (items_of (with_items s (items_of s))) with (items_of s).
    rewrite (op_known _ _ OM), G. cbn [run_setups]. rewrite (put_known _ _ _ OM).
    change (op_params (ensure_response31 o)) with (op_params o). destruct (validate_path_params (op_params o) ps); reflexivity.
  Qed.

  Lemma hook31_form m n : openapi_method m -> forall s (o : op31 Sch),
    add_webhook31 s m n o =
      if has n (sp31_webhooks s) then (s, Some EDupWebhook)
      else (mkPaths31 (sp31_items s) (put n (op_put zero_pitem31 m (ensure_response31 o)) (sp31_webhooks s)) (sp31_rest s), None).
  Proof.
    intros OM s o. unfold add_webhook31. destruct (has n (sp31_webhooks s)); [reflexivity|]. rewrite (to_lower_fix _ OM).
    destruct OM as [->|[->|[->|[->|[->|[->|[->| ->]]]]]]]; reflexivity.
  Qed.

  Lemma same31_refl (s : paths31 Sch) : same_paths31 s s.
  Proof. split; [|split; [intros k; reflexivity|reflexivity]]. unfold same_opt. destruct (sp31_items s); [intros k; reflexivity|exact I]. Qed.
  Lemma same31_trans (a b c : paths31 Sch) : same_paths31 a b -> same_paths31 b c -> same_paths31 a c.
  Proof.
    intros (H1 & H2 & H3) (K1 & K2 & K3). split; [|split; [intros k; rewrite H2; apply K2|congruence]]. unfold same_opt in *.
    destruct (sp31_items a), (sp31_items b), (sp31_items c); try tauto. intros k. rewrite H1. apply K1.
  Qed.

  Lemma items_same s s' : same_paths31 s s' -> map_eq (items_of s) (items_of s').
  Proof. intros (H & _). unfold items_of, same_opt in *. destruct (sp31_items s), (sp31_items s'); try tauto. intros k. reflexivity. Qed.

  Lemma put_map_eq {A} k (x : A) m m' : map_eq m m' -> map_eq (put k x m) (put k x m').
  Proof. intros H k'. rewrite !get_put. destruct (String.eqb k' k); [reflexivity|apply H]. Qed.
  Lemma put_swap_eq {A} k (x : A) k' x' m : k <> k' -> map_eq (put k x (put k' x' m)) (put k' x' (put k x m)).
  Proof.
    intros D q. rewrite !get_put. destruct (String.eqb q k) eqn:E; [|reflexivity]. destruct (String.eqb q k') eqn:E'; [|reflexivity].
    apply String.eqb_eq in E, E'. congruence.
  Qed.

  Lemma with_same s s' m m' : same_paths31 s s' -> map_eq m m' -> same_paths31 (with_items s m) (with_items s' m').
  Proof. intros (_ & H2 & H3) H. split; [exact H|]. split; [exact H2|exact H3]. Qed.

  (* One of the two calls. *)
  Definition reg31 (hook : bool) (s : paths31 Sch) (m p : string) (o : op31 Sch) := (if hook then add_webhook31 else add_operation31) s m p o.

  Lemma reg31_same hook m p o (s s' : paths31 Sch) : openapi_method m -> clean p -> same_paths31 s s' ->
    same_paths31 (fst (reg31 hook s m p o)) (fst (reg31 hook s' m p o)) /\ snd (reg31 hook s m p o) = snd (reg31 hook s' m p o).
  Proof.
    intros OM CL H. unfold reg31. destruct hook.
    - rewrite !(hook31_form m p OM). destruct H as (H1 & H2 & H3). unfold has. rewrite <- (H2 p).
      destruct (get p (sp31_webhooks s)); [split; [split; [exact H1|split; [exact H2|exact H3]]|reflexivity]|].
      split; [|reflexivity]. split; [exact H1|]. split; [|exact H3]. apply put_map_eq. exact H2.
    - destruct (add31_form m p OM CL) as [ps E]. rewrite !E. cbv zeta. pose proof (items_same _ _ H) as HI.
      assert (EI : item31 (items_of s') p = item31 (items_of s) p). { unfold item31. rewrite <- (HI p). reflexivity. }
      rewrite EI. destruct (op_at (item31 (items_of s) p) m); [split; [apply with_same; assumption|reflexivity]|].
      destruct (validate_path_params (op_params o) ps); (split; [apply with_same; [exact H|]|reflexivity]); [|exact HI].
      apply put_map_eq. exact HI.
  Qed.

  Definition place (hook : bool) (m p : string) : bool * string * string := if hook then (true, p, "") else (false, p, m).

  Lemma reg31_swap hook m p o hook' m' p' o' (s : paths31 Sch) : openapi_method m -> clean p -> openapi_method m' -> clean p' ->
    place hook m p <> place hook' m' p' ->
    same_paths31 (fst (reg31 hook' (fst (reg31 hook s m p o)) m' p' o')) (fst (reg31 hook (fst (reg31 hook' s m' p' o')) m p o)) /\
    snd (reg31 hook' (fst (reg31 hook s m p o)) m' p' o') = snd (reg31 hook' s m' p' o').
  Proof.
    intros OM CL OM' CL' D. unfold reg31, place in *. destruct hook, hook'.
    - rewrite (hook31_form m p OM s o), (hook31_form m' p' OM' s o').
      assert (D' : p <> p') by congruence. assert (D'' : p' <> p) by congruence.
      destruct (has p (sp31_webhooks s)) eqn:G; destruct (has p' (sp31_webhooks s)) eqn:G'; cbn [fst snd];
        rewrite ?(hook31_form m p OM), ?(hook31_form m' p' OM'); cbn [sp31_webhooks sp31_items sp31_rest];
        try (unfold has in *; rewrite ?(get_put_other _ _ _ _ D'), ?(get_put_other _ _ _ _ D''));
        try (unfold has in *; rewrite ?G, ?G'); cbn [fst snd]; (split; [|reflexivity]); try apply same31_refl.
      cbn [sp31_webhooks sp31_items sp31_rest]. split; [|split; [|reflexivity]].
      + unfold same_opt. cbn [sp31_items]. destruct (sp31_items s); [intros k; reflexivity|exact I].
      + cbn [sp31_webhooks]. apply put_swap_eq. exact D''.
    - destruct (add31_form m' p' OM' CL') as [ps' E']. rewrite (hook31_form m p OM s o), (E' s o').
      set (s1 := if has p (sp31_webhooks s) then (s, Some EDupWebhook) else _).
      assert (I1 : items_of (fst s1) = items_of s). { unfold s1. destruct (has p (sp31_webhooks s)); reflexivity. }
      rewrite E', I1. cbv zeta. unfold s1.
      destruct (op_at (item31 (items_of s) p') m'); [|destruct (validate_path_params (op_params o') ps')]; cbn [fst snd];
        rewrite (hook31_form m p OM); cbn [with_items sp31_webhooks sp31_items sp31_rest];
        destruct (has p (sp31_webhooks s)); cbn [fst snd]; (split; [|reflexivity]); apply same31_refl.
    - destruct (add31_form m p OM CL) as [ps E]. rewrite (hook31_form m' p' OM' s o'), (E s o).
      set (s1 := if has p' (sp31_webhooks s) then (s, Some EDupWebhook) else _).
      assert (I1 : items_of (fst s1) = items_of s). { unfold s1. destruct (has p' (sp31_webhooks s)); reflexivity. }
      rewrite E, I1. cbv zeta. unfold s1.
      destruct (op_at (item31 (items_of s) p) m); [|destruct (validate_path_params (op_params o) ps)]; cbn [fst snd];
        rewrite (hook31_form m' p' OM'); cbn [with_items sp31_webhooks sp31_items sp31_rest];
        destruct (has p' (sp31_webhooks s)); cbn [fst snd]; (split; [|reflexivity]); apply same31_refl.
    - destruct (add31_form m p OM CL) as [ps E]. destruct (add31_form m' p' OM' CL') as [ps' E']. rewrite (E s o), (E' s o').
      cbv zeta.
      assert (IP : forall x, item31 (put p x (items_of s)) p = x). { intros x. unfold item31. rewrite get_put_same. reflexivity. }
      assert (IP' : forall x, item31 (put p' x (items_of s)) p' = x). { intros x. unfold item31. rewrite get_put_same. reflexivity. }
      destruct (String.eqb p p') eqn:EP.
      + apply String.eqb_eq in EP. subst p'. assert (DM : m <> m') by congruence. assert (DM' : m' <> m) by congruence.
        destruct (op_at (item31 (items_of s) p) m) eqn:G; [|destruct (validate_path_params (op_params o) ps) as [|e es] eqn:V];
        (destruct (op_at (item31 (items_of s) p) m') eqn:G'; [|destruct (validate_path_params (op_params o') ps') as [|e' es'] eqn:V']);
        cbn [fst snd]; rewrite ?E, ?E'; cbv zeta; cbn [items_of with_items sp31_items]; rewrite ?IP, ?IP';
        rewrite ?(op_at_put _ _ _ _ OM OM' DM), ?(op_at_put _ _ _ _ OM' OM DM'), ?G, ?G', ?V, ?V'; cbn [fst snd];
        (split; [|reflexivity]); try apply same31_refl.
        cbn [with_items items_of sp31_items sp31_webhooks sp31_rest].
        rewrite ?(op_put_swap _ _ _ _ _ OM OM' DM). split; [|split; [intros k; reflexivity|reflexivity]].
        unfold same_opt. cbn [sp31_items]. intros k. rewrite !get_put. destruct (String.eqb k p); reflexivity.
      + assert (DP : p <> p') by (intros ->; rewrite String.eqb_refl in EP; discriminate EP). assert (DP' : p' <> p) by congruence.
        assert (IO : forall x, item31 (put p x (items_of s)) p' = item31 (items_of s) p'). { intros x. unfold item31. rewrite (get_put_other _ _ _ _ DP'). reflexivity. }
        assert (IO' : forall x, item31 (put p' x (items_of s)) p = item31 (items_of s) p). { intros x. unfold item31. rewrite (get_put_other _ _ _ _ DP). reflexivity. }
        destruct (op_at (item31 (items_of s) p) m) eqn:G; [|destruct (validate_path_params (op_params o) ps) as [|e es] eqn:V];
        (destruct (op_at (item31 (items_of s) p') m') eqn:G'; [|destruct (validate_path_params (op_params o') ps') as [|e' es'] eqn:V']);
        cbn [fst snd]; rewrite ?E, ?E'; cbv zeta; cbn [items_of with_items sp31_items]; rewrite ?IO, ?IO', ?G, ?G', ?V, ?V'; cbn [fst snd];
        (split; [|reflexivity]); try apply same31_refl.
        cbn [with_items items_of sp31_items sp31_webhooks sp31_rest].
        split; [|split; [intros k; reflexivity|reflexivity]]. unfold same_opt. cbn [sp31_items]. apply put_swap_eq. exact DP'.
  Qed.
End P31.

(* ------------------------------------------------------------------ *)
(* Whole calls                                                          *)

Lemma ext_map_eq {Sch} (meaning : string -> Sch) N c c' d d' : map_eq c d -> ext meaning N c c' -> ext meaning N d d' -> map_eq c' d'.
Proof. intros H E E' n. rewrite E, E'. destruct (N n); [reflexivity|apply H]. Qed.
Lemma ext_swap_eq {Sch} (meaning : string -> Sch) N N' c c1 c12 c2 c21 :
  ext meaning N c c1 -> ext meaning N' c1 c12 -> ext meaning N' c c2 -> ext meaning N c2 c21 -> map_eq c12 c21.
Proof. intros E1 E2 E3 E4 n. rewrite E2, E1, E4, E3. destruct (N n), (N' n); reflexivity. Qed.

Section Calls.
  Context {J Sch : Type} (B : backend J Sch) (meaning : string -> Sch).
  Notation okc := (comps_agree meaning).

  Lemma varies_refl_prop (q : prop J) : prop_varies q q.
  Proof. constructor; reflexivity. Qed.
  Lemma varies_refl_events (es : list (pevent J)) : events_vary es es.
  Proof.
    induction es as [|e es IH]; [exact (es_end [] [] (Permutation_refl _))|]. apply es_step; [|exact IH].
    destruct e; constructor. apply varies_refl_prop.
  Qed.
  Lemma varies_refl_unit (cu : cunit J Sch) : unit_varies cu cu.
  Proof.
    constructor; try reflexivity.
    - intros tag. split; [reflexivity|]. destruct (snd (v_body cu tag)) as [[j d]| |]; constructor. reflexivity.
    - intros loc. split; [apply varies_refl_events|reflexivity].
    - split; reflexivity.
  Qed.
  Lemma varies_refl_call {R} (oc : opctx J Sch R) : call_varies oc oc.
  Proof. constructor; try reflexivity; [induction (oc_req oc)|induction (oc_resp oc)]; constructor; auto using varies_refl_unit. Qed.

  (* ---------- openapi3 ---------- *)

  Definition step30 (r : refl30 Sch) (oc : call30 J Sch) : refl30 Sch * (op30 Sch * add_result) :=
    let '(r1, oc1, a) := reflector_add30 B r oc in (r1, (oc_op oc1, a)).
  Lemma calls30_seq : forall l r, calls30 B r l = seq _ _ _ step30 r l.
  Proof.
    induction l as [|oc l IH]; intros r; cbn [calls30 seq]; [reflexivity|]. unfold step30 at 1.
    destruct (reflector_add30 B r oc) as [[r1 oc1] a]. rewrite IH. reflexivity.
  Qed.

  Definition ok30 (r : refl30 Sch) : Prop := okc (r30_comps r).
  Definition oka30 (oc : call30 J Sch) : Prop := call_agrees B meaning oc /\ made30 oc.

  (* What a call does to the paths, and its result. *)
  Definition outc {P} (a : add_result) (x : P * option reg_error) (p : P) : P * add_result :=
    match a with
    | AOk => (fst x, match snd x with None => AOk | Some e => AFail (AESpec e) end)
    | _ => (p, a)
    end.

  Lemma outc_same {P} (eqv : P -> P -> Prop) a x x' p p' : eqv p p' -> eqv (fst x) (fst x') -> snd x = snd x' ->
    eqv (fst (outc a x p)) (fst (outc a x' p')) /\ snd (outc a x p) = snd (outc a x' p').
  Proof. intros H1 H2 H3. destruct a; cbn [outc fst snd]; rewrite ?H3; auto. Qed.

  Lemma outc_swap {P} (eqv : P -> P -> Prop) (f g : P -> P * option reg_error) a b p : (forall p, eqv p p) ->
    eqv (fst (g (fst (f p)))) (fst (f (fst (g p)))) -> snd (g (fst (f p))) = snd (g p) -> snd (f (fst (g p))) = snd (f p) ->
    let p1 := fst (outc a (f p) p) in let p2 := fst (outc b (g p) p) in
    eqv (fst (outc b (g p1) p1)) (fst (outc a (f p2) p2)) /\
    snd (outc b (g p1) p1) = snd (outc b (g p) p) /\ snd (outc a (f p2) p2) = snd (outc a (f p) p).
  Proof. intros H0 H1 H2 H3. destruct a, b; cbn [outc fst snd]; rewrite ?H2, ?H3; auto. Qed.

  Lemma step30_form oc oc' : oka30 oc -> call_varies oc oc' -> exists o a N, forall r, ok30 r -> exists c1 c2 : smap Sch,
    ext meaning N (r30_comps r) c1 /\ ext meaning N (r30_comps r) c2 /\
    let x := outc a (add_operation30 (r30_paths r) (oc_method oc) (oc_path oc) o) (r30_paths r) in
    step30 r oc = (mkRefl30 (fst x) c1, (o, snd x)) /\ step30 r oc' = (mkRefl30 (fst x) c2, (o, snd x)).
  Proof.
    intros [AG _] V. destruct (setup_alike B meaning (fun rs => rs) (fun rs => rs) oc oc' V AG) as (o & a & N & H).
    exists o, a, N. intros r Hr. destruct (H _ Hr) as (c1 & c2 & H1 & H2 & X1 & X2). exists c1, c2. split; [exact X1|]. split; [exact X2|].
    cbv zeta. unfold step30, reflector_add30, setup_oc30. destruct V as [V1 V2 V3 V4 V5 V6]. rewrite V1, V2.
    set (x := add_operation30 (r30_paths r) (oc_method oc) (oc_path oc) o).
    replace (setup_oc B (fun rs => rs) (fun rs => rs) (r30_comps r) oc) with (c1, o, a) by (symmetry; exact H1).
    replace (setup_oc B (fun rs => rs) (fun rs => rs) (r30_comps r) oc') with (c2, o, a) by (symmetry; exact H2).
    destruct a; cbn [outc fst snd]; fold x; try (destruct x as [p e]); split; reflexivity.
  Qed.

  Definition eqv30 : refl30 Sch -> refl30 Sch -> Prop := same_refl30.
  Lemma eqv30_refl r : eqv30 r r.
  Proof. split; [apply same_paths30_refl|intros k; reflexivity]. Qed.
  Lemma eqv30_trans a b c : eqv30 a b -> eqv30 b c -> eqv30 a c.
  Proof. intros [H1 H2] [K1 K2]. split; [exact (same_paths30_trans _ _ _ H1 K1)|intros k; rewrite H2; apply K2]. Qed.

  Lemma step30_ok' r oc oc' : ok30 r -> oka30 oc -> call_varies oc oc' -> ok30 (fst (step30 r oc')).
  Proof.
    intros O A V. destruct (step30_form oc oc' A V) as (o & a & N & H). destruct (H r O) as (c1 & c2 & _ & X2 & _ & E). rewrite E.
    exact (ext_ok _ _ _ _ O X2).
  Qed.
  Lemma step30_eqv r r' oc oc' : ok30 r -> ok30 r' -> oka30 oc -> call_varies oc oc' -> eqv30 r r' ->
    eqv30 (fst (step30 r oc)) (fst (step30 r' oc')) /\ snd (step30 r oc) = snd (step30 r' oc').
  Proof.
    intros O O' A V [E1 E2]. destruct (step30_form oc oc' A V) as (o & a & N & H).
    destruct (H r O) as (c1 & _ & X1 & _ & S1 & _). destruct (H r' O') as (_ & c2 & _ & X2 & _ & S2). rewrite S1, S2. cbn [fst snd].
    destruct A as [_ M]. destruct (made30_ok oc M) as (OM & CL & _).
    destruct (add30_same (oc_method oc) (oc_path oc) o _ _ OM CL E1) as [P1 P2].
    destruct (outc_same same_paths30 a _ _ _ _ E1 P1 P2) as [Q1 Q2].
    split; [|rewrite Q2; reflexivity]. split; cbn [r30_paths r30_comps]; [exact Q1|exact (ext_map_eq _ _ _ _ _ _ E2 X1 X2)].
  Qed.
  Lemma step30_swap r oc oc' : ok30 r -> oka30 oc -> oka30 oc' -> place30 oc <> place30 oc' ->
    eqv30 (fst (step30 (fst (step30 r oc)) oc')) (fst (step30 (fst (step30 r oc')) oc)) /\
    snd (step30 (fst (step30 r oc)) oc') = snd (step30 r oc') /\ snd (step30 (fst (step30 r oc')) oc) = snd (step30 r oc).
  Proof.
    intros O A A' D.
    destruct (step30_form oc oc A (varies_refl_call oc)) as (o & a & N & H).
    destruct (step30_form oc' oc' A' (varies_refl_call oc')) as (o' & a' & N' & H').
    destruct (H r O) as (c1 & _ & X1 & _ & S1 & _). destruct (H' r O) as (c2 & _ & X2 & _ & S2 & _).
    rewrite S1, S2. cbn [fst snd] in *.
    assert (O1 : ok30 (mkRefl30 (fst (outc a (add_operation30 (r30_paths r) (oc_method oc) (oc_path oc) o) (r30_paths r))) c1)) by exact (ext_ok _ _ _ _ O X1).
    assert (O2 : ok30 (mkRefl30 (fst (outc a' (add_operation30 (r30_paths r) (oc_method oc') (oc_path oc') o') (r30_paths r))) c2)) by exact (ext_ok _ _ _ _ O X2).
    destruct (H' _ O1) as (c12 & _ & X12 & _ & S12 & _). destruct (H _ O2) as (c21 & _ & X21 & _ & S21 & _). rewrite S12, S21.
    cbn [fst snd r30_paths r30_comps] in *.
    destruct A as [_ M]. destruct (made30_ok oc M) as (OM & CL & _). destruct A' as [_ M']. destruct (made30_ok oc' M') as (OM' & CL' & _).
    unfold place30 in D.
    destruct (add30_swap _ _ o _ _ o' (r30_paths r) OM CL OM' CL' D) as [P1 P2].
    assert (D' : (oc_path oc', oc_method oc') <> (oc_path oc, oc_method oc)) by congruence.
    destruct (add30_swap _ _ o' _ _ o (r30_paths r) OM' CL' OM CL D') as [_ P3].
    destruct (outc_swap same_paths30 (fun p => add_operation30 p (oc_method oc) (oc_path oc) o) (fun p => add_operation30 p (oc_method oc') (oc_path oc') o')
                a a' (r30_paths r) same_paths30_refl P1 P2 P3) as (Q1 & Q2 & Q3).
    cbv zeta in Q1, Q2, Q3. split; [split; cbn [r30_paths r30_comps]; [exact Q1|exact (ext_swap_eq _ _ _ _ _ _ _ _ X1 X12 X2 X21)]|].
    split; [rewrite Q2|rewrite Q3]; reflexivity.
  Qed.

  Theorem calls30_perm r l l' : okc (r30_comps r) -> Forall (call_agrees B meaning) l -> Forall made30 l -> NoDup (map place30 l) ->
    Permutation l l' ->
    same_refl30 (fst (calls30 B r l)) (fst (calls30 B r l')) /\
    Permutation (combine l (snd (calls30 B r l))) (combine l' (snd (calls30 B r l'))).
  Proof.
    intros O A M ND P. rewrite !calls30_seq.
    apply (seq_perm _ _ _ _ step30 place30 eqv30 ok30 oka30 call_varies eqv30_trans eqv30_refl varies_refl_call
             (fun s a Os Oa => step30_ok' s a a Os Oa (varies_refl_call a)) step30_ok' step30_eqv step30_swap l l' r P ND); [|exact O].
    apply Forall_forall. intros x I. rewrite Forall_forall in A, M. split; [exact (A x I)|exact (M x I)].
  Qed.
  Theorem calls30_vary r r' l l' : okc (r30_comps r) -> Forall (call_agrees B meaning) l -> Forall made30 l -> same_refl30 r r' ->
    Forall2 call_varies l l' ->
    same_refl30 (fst (calls30 B r l)) (fst (calls30 B r' l')) /\ snd (calls30 B r l) = snd (calls30 B r' l').
  Proof.
    intros O A M E V. rewrite !calls30_seq.
    assert (O' : ok30 r') by (intros n s G; apply O; rewrite (proj2 E n); exact G).
    apply (seq_eqv _ _ _ step30 eqv30 ok30 oka30 call_varies
             (fun s a Os Oa => step30_ok' s a a Os Oa (varies_refl_call a)) step30_ok' step30_eqv l l' r r' V); [|exact O|exact O'|exact E].
    apply Forall_forall. intros x I. rewrite Forall_forall in A, M. split; [exact (A x I)|exact (M x I)].
  Qed.

  (* ---------- openapi31 ---------- *)

  Definition step31 (r : refl31 Sch) (x : call31 J Sch) : refl31 Sch * (op31 Sch * add_result) :=
    let '(r1, oc1, a) := (if fst x then reflector_webhook31 B else reflector_add31 B) r (snd x) in (r1, (oc_op oc1, a)).
  Lemma calls31_seq : forall l r, calls31 B r l = seq _ _ _ step31 r l.
  Proof.
    induction l as [|[hook oc] l IH]; intros r; cbn [calls31 seq]; [reflexivity|]. unfold step31 at 1. cbn [fst snd].
    destruct ((if hook then reflector_webhook31 B else reflector_add31 B) r oc) as [[r1 oc1] a]. rewrite IH. reflexivity.
  Qed.

  Definition ok31 (r : refl31 Sch) : Prop := okc (r31_comps r).
  Definition oka31 (x : call31 J Sch) : Prop := call_agrees B meaning (snd x) /\ made31 (snd x).
  Definition varies31 (x x' : call31 J Sch) : Prop := fst x' = fst x /\ call_varies (snd x) (snd x').
  Lemma varies31_refl x : varies31 x x.
  Proof. split; [reflexivity|apply varies_refl_call]. Qed.

  Lemma step31_form x x' : oka31 x -> varies31 x x' -> exists o a N, forall r, ok31 r -> exists c1 c2 : smap Sch,
    ext meaning N (r31_comps r) c1 /\ ext meaning N (r31_comps r) c2 /\
    let y := outc a (reg31 (fst x) (r31_paths r) (oc_method (snd x)) (oc_path (snd x)) o) (r31_paths r) in
    step31 r x = (mkRefl31 (fst y) c1, (o, snd y)) /\ step31 r x' = (mkRefl31 (fst y) c2, (o, snd y)).
  Proof.
    intros [AG _] [VF V]. destruct x as [hook oc], x' as [hook' oc']. cbn [fst snd] in *. subst hook'.
    destruct (setup_alike B meaning ens Some oc oc' V AG) as (o & a & N & H).
    exists o, a, N. intros r Hr. destruct (H _ Hr) as (c1 & c2 & H1 & H2 & X1 & X2). exists c1, c2. split; [exact X1|]. split; [exact X2|].
    cbv zeta. unfold step31, reflector_add31, reflector_webhook31, setup_oc31, reg31. cbn [fst snd].
    destruct V as [V1 V2 V3 V4 V5 V6]. 
    destruct hook; rewrite V1, V2;
    [set (x := add_webhook31 (r31_paths r) (oc_method oc) (oc_path oc) o)|set (x := add_operation31 (r31_paths r) (oc_method oc) (oc_path oc) o)];
    replace (setup_oc B ens Some (r31_comps r) oc) with (c1, o, a) by (symmetry; exact H1);
    replace (setup_oc B ens Some (r31_comps r) oc') with (c2, o, a) by (symmetry; exact H2);
    destruct a; cbn [outc fst snd]; fold x; try (destruct x as [p e]); split; reflexivity.
  Qed.

  Definition eqv31 : refl31 Sch -> refl31 Sch -> Prop := same_refl31.
  Lemma eqv31_refl r : eqv31 r r.
  Proof. split; [apply same31_refl|intros k; reflexivity]. Qed.
  Lemma eqv31_trans a b c : eqv31 a b -> eqv31 b c -> eqv31 a c.
  Proof. intros [H1 H2] [K1 K2]. split; [exact (same31_trans _ _ _ H1 K1)|intros k; rewrite H2; apply K2]. Qed.

  Lemma step31_ok' r x x' : ok31 r -> oka31 x -> varies31 x x' -> ok31 (fst (step31 r x')).
  Proof.
    intros O A V. destruct (step31_form x x' A V) as (o & a & N & H). destruct (H r O) as (c1 & c2 & _ & X2 & _ & E). rewrite E.
    exact (ext_ok _ _ _ _ O X2).
  Qed.
  Lemma step31_eqv r r' x x' : ok31 r -> ok31 r' -> oka31 x -> varies31 x x' -> eqv31 r r' ->
    eqv31 (fst (step31 r x)) (fst (step31 r' x')) /\ snd (step31 r x) = snd (step31 r' x').
  Proof.
    intros O O' A V [E1 E2]. destruct (step31_form x x' A V) as (o & a & N & H).
    destruct (H r O) as (c1 & _ & X1 & _ & S1 & _). destruct (H r' O') as (_ & c2 & _ & X2 & _ & S2). rewrite S1, S2. cbn [fst snd].
    destruct A as [_ M]. destruct (made31_ok (snd x) M) as (OM & CL & _).
    destruct (reg31_same (fst x) (oc_method (snd x)) (oc_path (snd x)) o _ _ OM CL E1) as [P1 P2].
    destruct (outc_same same_paths31 a _ _ _ _ E1 P1 P2) as [Q1 Q2].
    split; [|rewrite Q2; reflexivity]. split; cbn [r31_paths r31_comps]; [exact Q1|exact (ext_map_eq _ _ _ _ _ _ E2 X1 X2)].
  Qed.
  Lemma step31_swap r x x' : ok31 r -> oka31 x -> oka31 x' -> place31 x <> place31 x' ->
    eqv31 (fst (step31 (fst (step31 r x)) x')) (fst (step31 (fst (step31 r x')) x)) /\
    snd (step31 (fst (step31 r x)) x') = snd (step31 r x') /\ snd (step31 (fst (step31 r x')) x) = snd (step31 r x).
  Proof.
    intros O A A' D.
    destruct (step31_form x x A (varies31_refl x)) as (o & a & N & H).
    destruct (step31_form x' x' A' (varies31_refl x')) as (o' & a' & N' & H').
    destruct (H r O) as (c1 & _ & X1 & _ & S1 & _). destruct (H' r O) as (c2 & _ & X2 & _ & S2 & _).
    destruct x as [h oc], x' as [h' oc']. rewrite S1, S2. cbn [fst snd] in *.
    assert (O1 : ok31 (mkRefl31 (fst (outc a (reg31 h (r31_paths r) (oc_method oc) (oc_path oc) o) (r31_paths r))) c1)) by exact (ext_ok _ _ _ _ O X1).
    assert (O2 : ok31 (mkRefl31 (fst (outc a' (reg31 h' (r31_paths r) (oc_method oc') (oc_path oc') o') (r31_paths r))) c2)) by exact (ext_ok _ _ _ _ O X2).
    destruct (H' _ O1) as (c12 & _ & X12 & _ & S12 & _). destruct (H _ O2) as (c21 & _ & X21 & _ & S21 & _). rewrite S12, S21.
    cbn [fst snd r31_paths r31_comps] in *.
    destruct A as [_ M]. destruct (made31_ok oc M) as (OM & CL & _). destruct A' as [_ M']. destruct (made31_ok oc' M') as (OM' & CL' & _).
    change (place h (oc_method oc) (oc_path oc) <> place h' (oc_method oc') (oc_path oc')) in D.
    assert (D' : place h' (oc_method oc') (oc_path oc') <> place h (oc_method oc) (oc_path oc)) by congruence.
    destruct (reg31_swap h _ _ o h' _ _ o' (r31_paths r) OM CL OM' CL' D) as [P1 P2].
    destruct (reg31_swap h' _ _ o' h _ _ o (r31_paths r) OM' CL' OM CL D') as [_ P3].
    destruct (outc_swap same_paths31 (fun p => reg31 h p (oc_method oc) (oc_path oc) o) (fun p => reg31 h' p (oc_method oc') (oc_path oc') o')
                a a' (r31_paths r) same31_refl P1 P2 P3) as (Q1 & Q2 & Q3).
    cbv zeta in Q1, Q2, Q3. split; [split; cbn [r31_paths r31_comps]; [exact Q1|exact (ext_swap_eq _ _ _ _ _ _ _ _ X1 X12 X2 X21)]|].
    split; [rewrite Q2|rewrite Q3]; reflexivity.
  Qed.

  Theorem calls31_perm r l l' : okc (r31_comps r) -> Forall (fun x => call_agrees B meaning (snd x)) l -> Forall (fun x => made31 (snd x)) l ->
    NoDup (map place31 l) -> Permutation l l' ->
    same_refl31 (fst (calls31 B r l)) (fst (calls31 B r l')) /\
    Permutation (combine l (snd (calls31 B r l))) (combine l' (snd (calls31 B r l'))).
  Proof.
    intros O A M ND P. rewrite !calls31_seq.
    apply (seq_perm _ _ _ _ step31 place31 eqv31 ok31 oka31 varies31 eqv31_trans eqv31_refl varies31_refl
             (fun s a Os Oa => step31_ok' s a a Os Oa (varies31_refl a)) step31_ok' step31_eqv step31_swap l l' r P ND); [|exact O].
    apply Forall_forall. intros x I. rewrite Forall_forall in A, M. split; [exact (A x I)|exact (M x I)].
  Qed.
  Theorem calls31_vary r r' l l' : okc (r31_comps r) -> Forall (fun x => call_agrees B meaning (snd x)) l -> Forall (fun x => made31 (snd x)) l ->
    same_refl31 r r' -> Forall2 (fun x x' => fst x' = fst x /\ call_varies (snd x) (snd x')) l l' ->
    same_refl31 (fst (calls31 B r l)) (fst (calls31 B r' l')) /\ snd (calls31 B r l) = snd (calls31 B r' l').
  Proof.
    intros O A M E V. rewrite !calls31_seq.
    assert (O' : ok31 r') by (intros n s G; apply O; rewrite (proj2 E n); exact G).
    apply (seq_eqv _ _ _ step31 eqv31 ok31 oka31 varies31
             (fun s a Os Oa => step31_ok' s a a Os Oa (varies31_refl a)) step31_ok' step31_eqv l l' r r' V); [|exact O|exact O'|exact E].
    apply Forall_forall. intros x I. rewrite Forall_forall in A, M. split; [exact (A x I)|exact (M x I)].
  Qed.
End Calls.
