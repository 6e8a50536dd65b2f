(* The operations of a document are those of the accepted calls. *)
From Verif Require Import Str SMap Json PathSpec PathProofs Types RegistryModel RegistrySpec RegistryProofs ReflectModel ReflectSpec
  ReflectProofs ReflectProofs2 SeqSpec ContextModel ContextSpec ContextProofs ReadSpec WholeSpec.

Section Gen.
  Variables R C O A : Type.
  Variable at_ : R -> place -> option O.
  Variable say : O -> A.
  Variable csay : C -> A.
  Variable wh : C -> place.

  Definition step_ok (r : R) (c : C) (b : bool) (r' : R) : Prop :=
    b = false /\ (forall x, at_ r' x = at_ r x) \/
    b = true /\ at_ r (wh c) = None /\ (exists o, at_ r' (wh c) = Some o /\ say o = csay c) /\
    (forall x, x <> wh c -> at_ r' x = at_ r x).

  Inductive hist : R -> list C -> list bool -> R -> Prop :=
  | h_nil r : hist r [] [] r
  | h_cons r c b r1 l bs r2 : step_ok r c b r1 -> hist r1 l bs r2 -> hist r (c :: l) (b :: bs) r2.

  Lemma place_dec (x y : place) : {x = y} + {x <> y}.
  Proof. repeat decide equality. Qed.

  Lemma hist_keeps r l bs r' : hist r l bs r' -> forall x o, at_ r x = Some o -> at_ r' x = Some o.
  Proof.
    induction 1 as [|r c b r1 l bs r2 S H IH]; intros x o E; [exact E|]. apply IH.
    destruct S as [[_ S]|(_ & N & _ & S)]; [rewrite S; exact E|].
    destruct (place_dec x (wh c)) as [->|D]; [congruence|]. rewrite S by exact D. exact E.
  Qed.

  Definition acc (l : list C) (bs : list bool) (i : nat) (c : C) : Prop := nth_error l i = Some c /\ nth_error bs i = Some true.

  Lemma hist_has r l bs r' : hist r l bs r' -> forall i c, acc l bs i c -> at_ r (wh c) = None /\ exists o, at_ r' (wh c) = Some o /\ say o = csay c.
  Proof.
    induction 1 as [|r c b r1 l bs r2 S H IH]; intros i c0 [E1 E2]; [destruct i; discriminate|].
    destruct i as [|i]; cbn [nth_error] in E1, E2.
    - injection E1 as <-. injection E2 as ->. destruct S as [[X _]|(_ & N & (o & G & Y) & _)]; [discriminate|].
      split; [exact N|]. exists o. split; [|exact Y]. exact (hist_keeps _ _ _ _ H _ _ G).
    - destruct (IH i c0 (conj E1 E2)) as [N G]. split; [|exact G].
      destruct S as [[_ S]|(_ & N' & _ & S)]; [rewrite <- S; exact N|].
      destruct (place_dec (wh c0) (wh c)) as [Q|D]; [rewrite Q; exact N'|]. rewrite <- S by exact D. exact N.
  Qed.

  Lemma hist_from r l bs r' : hist r l bs r' -> forall x o, at_ r' x = Some o ->
    at_ r x = Some o \/ exists i c, acc l bs i c /\ wh c = x /\ say o = csay c.
  Proof.
    induction 1 as [|r c b r1 l bs r2 S H IH]; intros x o E; [left; exact E|].
    destruct (IH x o E) as [E1|(i & c0 & [A1 A2] & W & Y)].
    - destruct S as [[_ S]|(-> & N & (o1 & G & Y) & S)]; [left; rewrite <- S; exact E1|].
      destruct (place_dec x (wh c)) as [->|D]; [|left; rewrite <- S by exact D; exact E1].
      right. exists 0, c. split; [split; reflexivity|]. split; [reflexivity|]. congruence.
    - right. exists (Datatypes.S i), c0. split; [split; assumption|]. split; assumption.
  Qed.

  Lemma hist_once r l bs r' : hist r l bs r' -> forall i j c d, acc l bs i c -> acc l bs j d -> wh c = wh d -> i = j.
  Proof.
    induction 1 as [|r c b r1 l bs r2 S H IH]; intros i j c0 d0 [E1 E2] [F1 F2] W; [destruct i; discriminate|].
    assert (X : forall c k e, acc l bs k e -> forall b', step_ok r c b' r1 -> b' = true -> wh c = wh e -> False).
    { intros c1 k e Ak b' Sk -> Q. destruct (hist_has _ _ _ _ H k e Ak) as [N _].
      destruct Sk as [[X _]|(_ & _ & (o & G & _) & _)]; [discriminate|]. congruence. }
    destruct i as [|i], j as [|j]; cbn [nth_error] in E1, E2, F1, F2.
    - reflexivity.
    - injection E1 as <-. injection E2 as ->. exfalso. exact (X c j d0 (conj F1 F2) true S eq_refl W).
    - injection F1 as <-. injection F2 as ->. exfalso. exact (X c i c0 (conj E1 E2) true S eq_refl (eq_sym W)).
    - f_equal. exact (IH i j c0 d0 (conj E1 E2) (conj F1 F2) W).
  Qed.

  Lemma hist_documented r l bs r' : hist r l bs r' -> (forall x, at_ r x = None) -> forall x t,
    (exists o, at_ r' x = Some o /\ say o = t) <-> (exists i c, acc l bs i c /\ wh c = x /\ csay c = t).
  Proof.
    intros H E x t. split.
    - intros (o & G & <-). destruct (hist_from _ _ _ _ H x o G) as [X|(i & c & X & Y & Z)]; [rewrite E in X; discriminate|].
      exists i, c. split; [exact X|]. split; [exact Y|]. congruence.
    - intros (i & c & X & <- & <-). destruct (hist_has _ _ _ _ H i c X) as [_ G]. exact G.
  Qed.
End Gen.

Definition okb (a : add_result) : bool := match a with AOk => true | _ => false end.
Lemma okb_true a : okb a = true <-> a = AOk.
Proof. destruct a; cbn; split; congruence. Qed.

Section Runs.
  Variables J Sch : Type.
  Variable B : backend J Sch.

  Lemma said_view30 (o o' : op30 Sch) : vw_other (view30 o) = vw_other (view30 o') -> said o = said o'.
  Proof. unfold said. cbn. congruence. Qed.
  Lemma said_view31 (o o' : op31 Sch) : vw_other (view31 o) = vw_other (view31 o') -> said o = said o'.
  Proof. unfold said. cbn. congruence. Qed.

  Lemma step30 r oc r' oc' a : made30 oc -> reflector_add30 B r oc = (r', oc', a) ->
    step_ok _ _ _ _ op_at30 said (fun oc : call30 J Sch => said (oc_op oc)) where30 r oc (okb a) r'.
  Proof.
    intros M H. pose proof (made30_ok _ M) as (OM & CL & _).
    destruct (add30_cases _ _ _ _ _ _ _ _ H) as (_ & [(N & E)|(-> & o & Ad)]).
    - left. split; [destruct a; cbn; congruence|]. intros [[h p] m]. unfold op_at30. rewrite E. reflexivity.
    - right. split; [reflexivity|]. destruct (effect30 _ _ _ _ _ _ OM CL Ad) as (D & o' & G & S & _).
      split; [exact D|]. split.
      + exists o'. split; [exact G|].
        pose proof (doc_30 B r oc r' oc' o' M H G) as K. apply documented_core in K. apply said_view30. exact (core_other _ _ _ K).
      + intros [[h p] m] X. unfold op_at30. destruct h; [reflexivity|]. apply S. intros Q. apply X. injection Q as -> ->. reflexivity.
  Qed.

  Lemma step31 r c r' oc' a : made31 (snd c) ->
    (if fst c : bool then reflector_webhook31 B else reflector_add31 B) r (snd c) = (r', oc', a) ->
    step_ok _ _ _ _ op_at31 said (fun c : call31 J Sch => said (oc_op (snd c))) where31 r c (okb a) r'.
  Proof.
    destruct c as [hook oc]. cbn [fst snd]. intros M H. pose proof (made31_ok _ M) as (OM & CL & _). destruct hook.
    - destruct (hook31_cases _ _ _ _ _ _ _ _ H) as (_ & [(N & E)|(-> & o & Ad)]).
      + left. split; [destruct a; cbn; congruence|]. intros [[h p] m]. unfold op_at31. rewrite E. reflexivity.
      + right. split; [reflexivity|]. apply webhook_cases in Ad.
        destruct Ad as [(i & _ & _ & X)|[(_ & _ & _ & X)|(m & pi & G & OM' & MI & _ & I & _ & W & _ & SL)]]; [discriminate..|].
        apply (lower_of_method _ _ OM') in MI. rewrite (to_lower_fix _ OM) in MI. subst m.
        assert (Z : hook31 (r31_paths r') (oc_path oc) (oc_method oc) = Some (ensure_response31 o)).
        { unfold hook31. rewrite W, get_put_same, SL, String.eqb_refl. reflexivity. }
        split; [unfold where31, op_at31, hook31; cbn [fst snd]; rewrite G; reflexivity|]. split.
        * eexists. split; [exact Z|].
          pose proof (doc_hook B r oc r' oc' _ M H Z) as K. apply documented_core in K. apply said_view31. exact (core_other _ _ _ K).
        * intros [[h p] m] X. unfold op_at31. destruct h.
          -- unfold hook31. rewrite W, get_put. destruct (String.eqb p (oc_path oc)) eqn:Q.
             ++ apply String.eqb_eq in Q. subst p. rewrite SL, G. destruct (String.eqb m (oc_method oc)) eqn:Q; [|reflexivity].
                apply String.eqb_eq in Q. subst m. exfalso. apply X. reflexivity.
             ++ reflexivity.
          -- unfold doc31. rewrite I. reflexivity.
    - destruct (add31_cases' _ _ _ _ _ _ _ _ H CL) as (_ & [(N & E)|(-> & o & Ad)]).
      + left. split; [destruct a; cbn; congruence|]. destruct E as (E1 & _ & _ & E2).
        intros [[h p] m]. unfold op_at31, hook31. rewrite E1, E2. reflexivity.
      + right. split; [reflexivity|]. destruct (effect31 _ _ _ _ _ _ OM CL Ad) as (D & o' & G & S & _ & W & _).
        split; [exact D|]. split.
        * exists o'. split; [exact G|].
          pose proof (doc_31 B r oc r' oc' o' M H G) as K. apply documented_core in K. apply said_view31. exact (core_other _ _ _ K).
        * intros [[h p] m] X. unfold op_at31. destruct h; [unfold hook31; rewrite W; reflexivity|].
          apply S. intros Q. apply X. injection Q as -> ->. reflexivity.
  Qed.

  Definition h30 := hist (refl30 Sch) _ _ _ op_at30 said (fun oc : call30 J Sch => said (oc_op oc)) where30.
  Definition h31 := hist (refl31 Sch) _ _ _ op_at31 said (fun c : call31 J Sch => said (oc_op (snd c))) where31.

  Lemma run30 l : forall r, Forall made30 l -> h30 r l (map (fun x => okb (snd x)) (snd (calls30 B r l))) (fst (calls30 B r l)).
  Proof.
    induction l as [|oc l IH]; intros r F; [constructor|]. inversion F as [|? ? M F']; subst. cbn [calls30].
    destruct (reflector_add30 B r oc) as [[r1 oc1] a] eqn:H. specialize (IH r1 F').
    destruct (calls30 B r1 l) as [r2 t] eqn:E. cbn [fst snd map] in *.
    econstructor; [|exact IH]. exact (step30 _ _ _ _ _ M H).
  Qed.

  Lemma run31 l : forall r, Forall (fun c => made31 (snd c)) l -> h31 r l (map (fun x => okb (snd x)) (snd (calls31 B r l))) (fst (calls31 B r l)).
  Proof.
    induction l as [|[hook oc] l IH]; intros r F; [constructor|]. inversion F as [|? ? M F']; subst. cbn [calls31].
    destruct ((if hook then reflector_webhook31 B else reflector_add31 B) r oc) as [[r1 oc1] a] eqn:H. specialize (IH r1 F').
    destruct (calls31 B r1 l) as [r2 t] eqn:E. cbn [fst snd map] in *.
    econstructor; [|exact IH]. exact (step31 _ (hook, oc) _ _ _ M H).
  Qed.

  Lemma okb_nth {X} (l : list (X * add_result)) i :
    nth_error (map (fun x => okb (snd x)) l) i = Some true <-> exists o, nth_error l i = Some (o, AOk).
  Proof.
    rewrite nth_error_map. destruct (nth_error l i) as [[o a]|]; cbn [option_map snd].
    - split; [intros E; injection E as E; apply okb_true in E; subst; eauto|]. intros (o' & E). injection E as -> ->. reflexivity.
    - split; [discriminate|]. intros (o & E). discriminate.
  Qed.

  Lemma acc30 r l i oc : accepted30 B r l i oc <-> acc _ l (map (fun x => okb (snd x)) (snd (calls30 B r l))) i oc.
  Proof. unfold accepted30, acc. rewrite okb_nth. tauto. Qed.
  Lemma acc31 r l i c : accepted31 B r l i c <-> acc _ l (map (fun x => okb (snd x)) (snd (calls31 B r l))) i c.
  Proof. unfold accepted31, acc. rewrite okb_nth. tauto. Qed.

  Lemma empty30 (r : refl30 Sch) : new30 r -> forall x, op_at30 r x = None.
  Proof. intros [E _] [[h p] m]. unfold op_at30, doc30. rewrite E. destruct h; reflexivity. Qed.
  Lemma empty31 (r : refl31 Sch) : new31 r -> forall x, op_at31 r x = None.
  Proof. intros ([E|E] & W & _) [[h p] m]; unfold op_at31, doc31, hook31; rewrite E, W; destruct h; reflexivity. Qed.

  Lemma documented30 r l : new30 r -> Forall made30 l -> forall x t,
    (exists o, op_at30 (fst (calls30 B r l)) x = Some o /\ said o = t) <->
    (exists i oc, accepted30 B r l i oc /\ where30 oc = x /\ said (oc_op oc) = t).
  Proof.
    intros N F x t. rewrite (hist_documented _ _ _ _ _ _ _ _ _ _ _ _ (run30 l r F) (empty30 r N) x t).
    split; intros (i & c & A & X); exists i, c; (split; [apply acc30; exact A|exact X]).
  Qed.
  Lemma documented31 r l : new31 r -> Forall (fun c => made31 (snd c)) l -> forall x t,
    (exists o, op_at31 (fst (calls31 B r l)) x = Some o /\ said o = t) <->
    (exists i c, accepted31 B r l i c /\ where31 c = x /\ said (oc_op (snd c)) = t).
  Proof.
    intros N F x t. rewrite (hist_documented _ _ _ _ _ _ _ _ _ _ _ _ (run31 l r F) (empty31 r N) x t).
    split; intros (i & c & A & X); exists i, c; (split; [apply acc31; exact A|exact X]).
  Qed.
  Lemma once30 r l : Forall made30 l -> forall i j oc oc', accepted30 B r l i oc -> accepted30 B r l j oc' -> where30 oc = where30 oc' -> i = j.
  Proof.
    intros F i j c d A A' W. apply acc30 in A. apply acc30 in A'. exact (hist_once _ _ _ _ _ _ _ _ _ _ _ _ (run30 l r F) _ _ _ _ A A' W).
  Qed.
  Lemma once31 r l : Forall (fun c => made31 (snd c)) l -> forall i j c c', accepted31 B r l i c -> accepted31 B r l j c' -> where31 c = where31 c' -> i = j.
  Proof.
    intros F i j c d A A' W. apply acc31 in A. apply acc31 in A'. exact (hist_once _ _ _ _ _ _ _ _ _ _ _ _ (run31 l r F) _ _ _ _ A A' W).
  Qed.
End Runs.

(* From the characterisation to identifiers, templates and security. *)
Section Facts.
  Variables Sch R C : Type.
  Variable at_ : place -> option (operation Sch R).
  Variable ac : nat -> C -> Prop.
  Variable wh : C -> place.
  Variable op : C -> operation Sch R.
  Hypothesis D : forall x t, (exists o, at_ x = Some o /\ said o = t) <-> (exists i c, ac i c /\ wh c = x /\ said (op c) = t).
  Hypothesis F : forall i c d, ac i c -> ac i d -> c = d.
  Hypothesis U : forall i j c d, ac i c -> ac j d -> wh c = wh d -> i = j.

  Lemma said_id (o o' : operation Sch R) : said o = said o' -> op_id o = op_id o'.
  Proof. unfold said. congruence. Qed.
  Lemma said_security (o o' : operation Sch R) : said o = said o' -> op_security o = op_security o'.
  Proof. unfold said. congruence. Qed.
  Lemma at_call x o : at_ x = Some o -> exists i c, ac i c /\ wh c = x /\ said (op c) = said o.
  Proof. intros E. apply D. eauto. Qed.
  Lemma call_at i c : ac i c -> exists o, at_ (wh c) = Some o /\ said o = said (op c).
  Proof. intros A. apply D. eauto. Qed.

  Lemma ids_iff : unique_ids at_ <->
    (forall i j c d id, ac i c -> ac j d -> op_id (op c) = Some id -> op_id (op d) = Some id -> i = j).
  Proof.
    split.
    - intros Q i j c d id Ai Aj Ic Id. destruct (call_at _ _ Ai) as (o & G & E). destruct (call_at _ _ Aj) as (o' & G' & E').
      apply (U i j c d Ai Aj). apply (Q _ _ o o' id G G'); [rewrite (said_id _ _ E); exact Ic|rewrite (said_id _ _ E'); exact Id].
    - intros Q x y o o' id G G' Io Io'. destruct (at_call _ _ G) as (i & c & Ai & <- & E). destruct (at_call _ _ G') as (j & d & Aj & <- & E').
      assert (i = j) as <-; [|rewrite (F _ _ _ Ai Aj); reflexivity].
      apply (Q i j c d id Ai Aj); [rewrite (said_id _ _ E); exact Io|rewrite (said_id _ _ E'); exact Io'].
  Qed.

  Lemma templates_iff : unique_templates at_ <->
    (forall i j c d p q m m', ac i c -> ac j d -> wh c = (false, p, m) -> wh d = (false, q, m') -> same_template p q -> p = q).
  Proof.
    split.
    - intros Q i j c d p q m m' Ai Aj W W' T. destruct (call_at _ _ Ai) as (o & G & E). destruct (call_at _ _ Aj) as (o' & G' & E').
      rewrite W in G. rewrite W' in G'. exact (Q _ _ _ _ _ _ G G' T).
    - intros Q p q m m' o o' G G' T. destruct (at_call _ _ G) as (i & c & Ai & W & E). destruct (at_call _ _ G') as (j & d & Aj & W' & E').
      exact (Q _ _ _ _ _ _ _ _ Ai Aj W W' T).
  Qed.

  Lemma schemes_iff (declared : string -> Prop) : schemes_declared at_ declared <->
    (forall i c n, ac i c -> names_scheme (op c) n -> declared n).
  Proof.
    unfold schemes_declared, names_scheme. split.
    - intros Q i c n Ai (req & I & K). destruct (call_at _ _ Ai) as (o & G & E). apply (Q _ o n G). exists req.
      rewrite (said_security _ _ E). auto.
    - intros Q x o n G (req & I & K). destruct (at_call _ _ G) as (i & c & Ai & W & E). apply (Q i c n Ai). exists req.
      rewrite (said_security _ _ E). auto.
  Qed.
End Facts.

Lemma secured30 l : forall d n, declared30 (fold_left secure30 l d) n <-> declared30 d n \/ exists k, In k l /\ secured k = n.
Proof.
  induction l as [|k l IH]; intros d n; cbn [fold_left]; [split; [auto|intros [X|(k & [] & _)]; exact X]|].
  rewrite IH. destruct (secure30_ok d k) as ((s & E & _) & K & _). unfold declared30.
  destruct (string_dec n (secured k)) as [->|X].
  - split; [intros _; right; exists k; split; [left; reflexivity|reflexivity]|]. intros _. left. eauto.
  - rewrite (K n X). split.
    + intros [H|(k' & I & Q)]; [left; exact H|]. right. exists k'. split; [right; exact I|exact Q].
    + intros [H|(k' & [<-|I] & Q)]; [left; exact H|congruence|]. right. eauto.
Qed.
Lemma secured31 l : forall d n, declared31 (fold_left secure31 l d) n <-> declared31 d n \/ exists k, In k l /\ secured k = n.
Proof.
  induction l as [|k l IH]; intros d n; cbn [fold_left]; [split; [auto|intros [X|(k & [] & _)]; exact X]|].
  rewrite IH. destruct (secure31_ok d k) as ((s & E & _) & K & _). unfold declared31.
  destruct (string_dec n (secured k)) as [->|X].
  - split; [intros _; right; exists k; split; [left; reflexivity|reflexivity]|]. intros _. left. eauto.
  - rewrite (K n X). split.
    + intros [H|(k' & I & Q)]; [left; exact H|]. right. exists k'. split; [right; exact I|exact Q].
    + intros [H|(k' & [<-|I] & Q)]; [left; exact H|congruence|]. right. eauto.
Qed.
