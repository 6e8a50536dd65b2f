From Verif Require Import Str SMap Json PathModel PathSpec PathProofs PathProps Types
  RegistryModel RegistrySpec.

Section Proofs.
  Context {Sch : Type}.

  (* ---------- name ++ location is unambiguous for legal locations ---------- *)

  (* suffix comparison through reversed lists of bytes *)
  Lemma app_last_len a b c d : a ^^ b = c ^^ d -> String.length b = String.length d ->
    a = c /\ b = d.
  Proof.
    revert c. induction a as [|x a IH]; intros [|y c] H L; simpl in H.
    - auto.
    - exfalso. subst b. simpl in L. rewrite length_app_s in L. lia.
    - exfalso. subst d. simpl in L. rewrite length_app_s in L. lia.
    - injection H as -> H. destruct (IH c H L) as [-> ->]. auto.
  Qed.

  Lemma app_suffix a b c d : a ^^ b = c ^^ d -> String.length b <= String.length d ->
    exists e, d = e ^^ b.
  Proof.
    revert c. induction a as [|x a IH]; intros [|y c] H L; simpl in H.
    - exists "". auto.
    - exfalso. subst b. simpl in L. rewrite length_app_s in L. lia.
    - exists (String x a). auto.
    - injection H as _ H. eauto.
  Qed.

  Lemma suffix_len e b d : d = e ^^ b -> String.length e = String.length d - String.length b.
  Proof. intros ->. rewrite length_app_s. lia. Qed.

  Ltac kill_suffix :=
    match goal with
    | H : ?d = ?e ^^ ?b |- _ =>
        let L := fresh "L" in
        pose proof (suffix_len e b d H) as L; cbn in L;
        repeat (destruct e as [|? e]; cbn in L; try discriminate L);
        discriminate H
    end.

  Lemma key_inj n i n' i' : legal_loc i -> legal_loc i' -> n ^^ i = n' ^^ i' -> n = n' /\ i = i'.
  Proof.
    intros L L' H.
    destruct (Nat.eq_dec (String.length i) (String.length i')) as [E|E].
    - apply app_last_len in H; auto.
    - exfalso. destruct (Nat.le_ge_cases (String.length i) (String.length i')) as [C|C].
      + destruct (app_suffix _ _ _ _ H C) as [e He].
        destruct L as [->|[->|[->| ->]]]; destruct L' as [->|[->|[->| ->]]];
          cbn in E, C; try lia; try (exfalso; apply E; reflexivity); kill_suffix.
      + symmetry in H. destruct (app_suffix _ _ _ _ H C) as [e He].
        destruct L as [->|[->|[->| ->]]]; destruct L' as [->|[->|[->| ->]]];
          cbn in E, C; try lia; try (exfalso; apply E; reflexivity); kill_suffix.
  Qed.

  (* ---------- validate_path_params ---------- *)

  Definition key (x : string * string) : string := fst x ^^ snd x.

  Lemma check_params_spec ps pp : forall idx,
    fst (check_params ps pp idx) = [] ->
    (forall n, In (n, in_path) (inline ps) -> In n pp) /\
    NoDup (map key (inline ps)) /\
    (forall x, In x (inline ps) -> ~ In (key x) idx) /\
    (forall k, In k (snd (check_params (Sch:=Sch) ps pp idx)) <-> In k idx \/ In k (map key (inline ps))).
  Proof.
    induction ps as [|p ps IH]; intros idx H; simpl in *.
    - repeat split; try constructor; simpl; try tauto.
    - destruct (por_param p) as [q|]; [|apply IH; auto].
      destruct (mem (p_name q ^^ p_in q) idx) eqn:M.
      { destruct (check_params ps pp idx); discriminate H. }
      apply mem_not_In in M.
      destruct (negb (mem (p_name q) pp) && String.eqb (p_in q) in_path) eqn:B.
      { destruct (check_params ps pp idx); discriminate H. }
      destruct (IH _ H) as (H1 & H2 & H3 & H4).
      assert (F : ~ In (key (p_name q, p_in q)) (map key (inline ps))).
      { intros I. apply in_map_iff in I as (x & Ex & Ix). apply (H3 _ Ix). rewrite Ex. simpl. auto. }
      repeat split.
      + intros n [E|I]; auto. injection E as <- E.
        rewrite E in B. unfold in_path in B. rewrite String.eqb_refl, andb_true_r in B.
        apply negb_false_iff, mem_In in B. exact B.
      + simpl. constructor; auto.
      + intros x [<-|I]; [exact M|]. intros J. apply (H3 _ I). simpl. auto.
      + rewrite H4. simpl. intros [[<-|?]|?]; auto.
      + rewrite H4. simpl. intros [?|[<-|?]]; auto.
  Qed.

  Lemma check_params_ok ps pp : forall idx,
    (forall n, In (n, in_path) (inline ps) -> In n pp) ->
    NoDup (map key (inline ps)) ->
    (forall x, In x (inline ps) -> ~ In (key x) idx) ->
    fst (check_params (Sch:=Sch) ps pp idx) = [].
  Proof.
    induction ps as [|p ps IH]; intros idx H1 H2 H3; simpl in *; auto.
    destruct (por_param p) as [q|]; [|apply IH; auto].
    assert (M : mem (p_name q ^^ p_in q) idx = false).
    { apply mem_not_In. apply (H3 (p_name q, p_in q)). simpl; auto. }
    rewrite M.
    assert (B : negb (mem (p_name q) pp) && String.eqb (p_in q) in_path = false).
    { destruct (String.eqb (p_in q) in_path) eqn:E; [|apply andb_false_r].
      apply String.eqb_eq in E. rewrite andb_true_r. apply negb_false_iff, mem_In.
      apply H1. rewrite E. simpl; auto. }
    rewrite B. simpl in H2. inversion H2; subst. apply IH; auto.
    - intros n I. apply H1. simpl; auto.
    - intros x I [J|J]; [|apply (H3 x); simpl; auto].
      apply H4. rewrite in_map_iff. exists x. split; auto.
  Qed.

  Lemma flat_map_nil_iff {A B} (f : A -> list B) l :
    flat_map f l = [] <-> forall x, In x l -> f x = [].
  Proof.
    induction l as [|a l IH]; simpl; [tauto|].
    destruct (f a) eqn:E; simpl.
    - rewrite IH. split; [intros H x [<-|I]; auto | auto].
    - split; [discriminate | intros H; specialize (H a (or_introl eq_refl)); congruence].
  Qed.

  Lemma NoDup_map_inj {A B} (f : A -> B) l :
    NoDup l -> (forall x y, In x l -> In y l -> f x = f y -> x = y) -> NoDup (map f l).
  Proof.
    induction 1 as [|a l N H IH]; simpl; intros I; constructor.
    - intros J. apply in_map_iff in J as (x & E & J). apply N.
      rewrite <- (I x a); simpl; auto.
    - apply IH. intros x y ? ?. apply I; simpl; auto.
  Qed.

  Lemma validate_iff ps pp : legal_params ps ->
    (validate_path_params (Sch:=Sch) ps pp = [] <-> params_match pp ps).
  Proof.
    intros L. unfold validate_path_params, params_match.
    pose proof (check_params_spec ps pp []) as CS.
    pose proof (check_params_ok ps pp []) as CO.
    destruct (check_params ps pp []) as [e idx] eqn:C. simpl in *.
    split.
    - intros H. apply app_eq_nil in H as [-> H].
      destruct (CS eq_refl) as (H1 & H2 & _ & H4).
      split; [eapply NoDup_map_inv; exact H2|].
      intros n. split; [|apply H1].
      intros I. rewrite flat_map_nil_iff in H. specialize (H n I).
      destruct (mem (n ^^ in_path) idx) eqn:M; [|discriminate].
      apply mem_In, H4 in M as [[]|M]. apply in_map_iff in M as ([n' i'] & E & M).
      unfold key in E. simpl in E.
      apply key_inj in E as [-> ->]; auto.
      + eapply L; eauto.
      + left; reflexivity.
    - intros (N & M).
      assert (NK : NoDup (map key (inline ps))).
      { apply NoDup_map_inj; auto. intros [n i] [n' i'] I I' E. unfold key in E. simpl in E.
        apply key_inj in E as [-> ->]; auto; eapply L; eauto. }
      assert (E : e = []) by (apply CO; auto; intros n I; apply M; exact I). subst e.
      destruct (CS eq_refl) as (_ & _ & _ & H4). simpl.
      rewrite flat_map_nil_iff. intros n I.
      assert (X : In (n ^^ in_path) idx).
      { apply H4. right. apply in_map_iff. exists (n, in_path). split; auto. apply M. exact I. }
      apply mem_In in X. rewrite X. reflexivity.
  Qed.

  (* ---------- methods in 3.1 ---------- *)

  Lemma pi_operation_slot (p : pitem31 Sch) m : openapi_method m ->
    pi_operation p m = Some (slot p m).
  Proof. unfold openapi_method. intuition; subst; reflexivity. Qed.

  Lemma pi_set_slot (p : pitem31 Sch) m o : openapi_method m ->
    exists p', pi_set_operation p m o = Some p' /\
      pi31_rest p' = pi31_rest p /\
      forall m', slot p' m' = if String.eqb m' m then o else slot p m'.
  Proof.
    destruct p as [g pu po d op h pa t r]. unfold openapi_method.
    intros H. repeat destruct H as [H|H]; subst m; eexists; (split; [reflexivity|]);
      (split; [reflexivity|]); intros m'; unfold slot;
      repeat match goal with
        | |- context [String.eqb m' ?x] =>
            let E := fresh in destruct (String.eqb m' x) eqn:E;
            [apply String.eqb_eq in E; subst m'; try reflexivity | ]
        end; try reflexivity; try discriminate.
  Qed.

  Lemma slot_non_method (p : pitem31 Sch) m : ~ openapi_method m -> slot p m = None.
  Proof.
    intros N. unfold slot, openapi_method in *.
    repeat match goal with
      | |- context [String.eqb m ?x] =>
          let E := fresh in destruct (String.eqb m x) eqn:E;
          [apply String.eqb_eq in E; exfalso; apply N; tauto | ]
      end. reflexivity.
  Qed.

  (* ---------- clean paths ---------- *)

  Lemma clean_sanitize method path : clean path ->
    match sanitize_method_path method path with
    | Some (_, p, _) => p = path
    | None => True
    end.
  Proof.
    intros C. destruct (parses_total path) as [l Hl].
    rewrite (sanitize_spec _ _ _ Hl). destruct (mem _ _); auto.
    rewrite (C l Hl). symmetry. apply parses_render. exact Hl.
  Qed.

  Lemma sanitize_clean method path m p ps :
    sanitize_method_path method path = Some (m, p, ps) -> clean p.
  Proof.
    intros H l Hl. destruct (parses_total path) as [l0 Hl0].
    pose proof (C02_clean_path _ _ _ _ _ _ Hl0 H) as ->.
    pose proof (parses_strip _ _ Hl0) as P.
    assert (l = map strip l0) as -> by (eapply parses_unique; eauto).
    rewrite map_map. apply map_ext. apply strip_idem.
  Qed.

  (* ---------- 3.0 ---------- *)

  Lemma ensure_after (r : responses Sch) : responses_after r (ensure_response r).
  Proof.
    unfold responses_after, no_responses, ensure_response. destruct r as [d m]; simpl.
    destruct m, d; simpl; split; intros H; try reflexivity; try (destruct H; discriminate).
    exfalso. apply H. auto.
  Qed.

  Lemma ensure_not_empty (r : responses Sch) : ~ no_responses (ensure_response r).
  Proof.
    unfold no_responses, ensure_response. destruct r as [d m]; simpl.
    destruct m, d; simpl; intros [? ?]; discriminate.
  Qed.

  Lemma setup30_ok (s s' : paths30 Sch) method path fs :
    setup_operation30 s method path fs = (s', None) ->
    exists m p ps o,
      sanitize_method_path method path = Some (m, p, ps) /\
      run_setups fs (match doc30 s p m with Some o => o | None => zero_op30 end) = (o, false) /\
      validate_path_params (op_params o) ps = [] /\
      s' = mkPaths30 (put p (mkPI30 (put m o (pi_ops (item30 s p))) (pi30_rest (item30 s p))) (sp30_items s)) (sp30_rest s).
  Proof.
    unfold setup_operation30. destruct (sanitize_method_path method path) as [[[m p] ps]|]; [|discriminate].
    assert (D : match get m (pi_ops (item30 s p)) with Some o => o | None => zero_op30 end =
                match doc30 s p m with Some o => o | None => zero_op30 end).
    { unfold doc30, item30. destruct (get p (sp30_items s)); reflexivity. }
    rewrite D. destruct (run_setups fs _) as [o failed] eqn:R.
    destruct failed; [discriminate|].
    destruct (validate_path_params (op_params o) ps) eqn:V; [|discriminate].
    intros H. injection H as <-. exists m, p, ps, o. auto.
  Qed.

  Lemma setup30_err (s s' : paths30 Sch) method path fs e :
    setup_operation30 s method path fs = (s', Some e) -> s' = s.
  Proof.
    unfold setup_operation30. destruct (sanitize_method_path method path) as [[[m p] ps]|]; [|congruence].
    destruct (run_setups fs _) as [o failed]. destruct failed; [congruence|].
    destruct (validate_path_params _ _); congruence.
  Qed.

  Lemma add30_err (s s' : paths30 Sch) method path o e :
    add_operation30 s method path o = (s', Some e) -> s' = s.
  Proof.
    unfold add_operation30. destruct (get _ _); [congruence|]. apply setup30_err.
  Qed.

  Lemma doc30_put (s : paths30 Sch) p m o p2 m2 :
    doc30 (mkPaths30 (put p (mkPI30 (put m o (pi_ops (item30 s p))) (pi30_rest (item30 s p))) (sp30_items s)) (sp30_rest s)) p2 m2
    = if String.eqb p2 p && String.eqb m2 m then Some o else doc30 s p2 m2.
  Proof.
    unfold doc30, item30. simpl. rewrite get_put. destruct (String.eqb p2 p) eqn:E.
    - apply String.eqb_eq in E. subst p2. simpl. rewrite get_put.
      destruct (String.eqb m2 m); auto. destruct (get p (sp30_items s)); auto.
    - reflexivity.
  Qed.

  Lemma item_rest30_put (s : paths30 Sch) p m o p2 :
    item_rest30 (mkPaths30 (put p (mkPI30 (put m o (pi_ops (item30 s p))) (pi30_rest (item30 s p))) (sp30_items s)) (sp30_rest s)) p2
    = item_rest30 s p2.
  Proof.
    unfold item_rest30, item30. simpl. rewrite get_put. destruct (String.eqb p2 p) eqn:E; auto.
    apply String.eqb_eq in E. subst p2. simpl. destruct (get p (sp30_items s)); auto.
  Qed.

  Lemma sanitize_lower method path :
    sanitize_method_path (to_lower method) path = sanitize_method_path method path.
  Proof. unfold sanitize_method_path. rewrite to_lower_idem. reflexivity. Qed.

  Lemma add30_ok (s s' : paths30 Sch) method path o :
    add_operation30 s method path o = (s', None) ->
    exists m p ps,
      sanitize_method_path method path = Some (m, p, ps) /\
      doc30 s path m = None /\
      validate_path_params (op_params o) ps = [] /\
      s' = let o' := set_responses o (ensure_response (op_responses o)) in
           mkPaths30 (put p (mkPI30 (put m o' (pi_ops (item30 s p))) (pi30_rest (item30 s p))) (sp30_items s)) (sp30_rest s).
  Proof.
    unfold add_operation30. destruct (get (to_lower method) (pi_ops (item30 s path))) eqn:G; [discriminate|].
    intros H. apply setup30_ok in H as (m & p & ps & o2 & S & R & V & ->).
    simpl in R. injection R as <-. simpl in V. rewrite sanitize_lower in S.
    assert (Em : m = to_lower method).
    { destruct (parses_total path) as [l Hl]. rewrite (sanitize_spec _ _ _ Hl) in S.
      destruct (mem _ _); [|discriminate]. congruence. }
    exists m, p, ps. repeat split; auto. subst m.
    unfold doc30, item30 in *. destruct (get path (sp30_items s)); auto.
  Qed.

  (* ---------- acceptance of AddOperation, 3.0 ---------- *)

  Lemma sanitize_iff method path l m : parses path l ->
    (sanitize_method_path method path = Some (m, render (map strip l), names l) <->
     openapi_method m /\ method_is method m).
  Proof.
    intros Hl. rewrite (sanitize_spec _ _ _ Hl). split.
    - destruct (mem _ _) eqn:M; [|discriminate]. intros H. injection H as <-.
      split; [apply http_methods_iff; auto | apply to_lower_method].
    - intros [H M]. apply (lower_of_method method m H) in M. subst m.
      apply http_methods_iff in H. rewrite H. reflexivity.
  Qed.

  Lemma sanitize_some method path l m p ps : parses path l ->
    sanitize_method_path method path = Some (m, p, ps) ->
    openapi_method m /\ method_is method m /\ to_lower method = m /\
    p = render (map strip l) /\ ps = names l.
  Proof.
    intros Hl H. pose proof (C01_method_accepted _ _ _ _ _ H) as [Hm Hm2].
    pose proof (C02_clean_path _ _ _ _ _ _ Hl H) as ->.
    pose proof (C03_placeholder_names _ _ _ _ _ _ Hl H) as ->.
    repeat split; auto. apply lower_of_method; auto.
  Qed.

  Lemma add30_accept (s : paths30 Sch) method path l o : parses path l -> legal_params (op_params o) ->
    ((exists s', add_operation30 s method path o = (s', None)) <->
     exists m, openapi_method m /\ method_is method m /\ doc30 s path m = None /\
       params_match (names l) (op_params o)).
  Proof.
    intros Hl L. split.
    - intros [s' H]. apply add30_ok in H as (m & p & ps & S & D & V & _).
      destruct (sanitize_some _ _ _ _ _ _ Hl S) as (? & ? & ? & ? & ->).
      exists m. split; [auto|]. split; [auto|]. split; [auto|]. apply (proj1 (validate_iff _ (names l) L) V).
    - intros (m & Hm & M & D & PM). 
      assert (E : to_lower method = m) by (apply lower_of_method; auto).
      unfold add_operation30. rewrite E.
      assert (G : get m (pi_ops (item30 s path)) = None).
      { unfold doc30, item30 in *. destruct (get path (sp30_items s)); auto. }
      rewrite G. unfold setup_operation30.
      assert (S : sanitize_method_path m path = Some (m, render (map strip l), names l)).
      { apply sanitize_iff; auto. split; auto. rewrite <- (to_lower_fix m Hm) at 2. apply to_lower_method. }
      rewrite S. simpl run_setups. cbv beta iota zeta.
      apply (proj2 (validate_iff _ (names l) L)) in PM.
      change (op_params (set_responses o (ensure_response (op_responses o)))) with (op_params o).
      rewrite PM. eauto.
  Qed.

  (* ---------- 3.1 ---------- *)

  Lemma paths_ens_spec (s s0 : paths31 Sch) items : paths_ens s = (s0, items) ->
    sp31_items s0 = Some items /\ sp31_webhooks s0 = sp31_webhooks s /\ sp31_rest s0 = sp31_rest s /\
    (forall p m, match get p items with Some i => slot i m | None => None end = doc31 s p m) /\
    (forall p, match get p items with Some i => pi31_rest i | None => JNull end = item_rest31 s p).
  Proof.
    unfold paths_ens, doc31, item_rest31. destruct (sp31_items s) eqn:E; intros H; injection H as <- <-; auto.
  Qed.

  Lemma slot_zero m : slot (Sch:=Sch) zero_pitem31 m = None.
  Proof. unfold slot. simpl. repeat destruct (String.eqb _ _); reflexivity. Qed.

  Lemma slot_item31 items p m : slot (Sch:=Sch) (item31 items p) m =
    match get p items with Some i => slot i m | None => None end.
  Proof. unfold item31. destruct (get p items); auto. apply slot_zero. Qed.

  Lemma doc31_put (s s0 : paths31 Sch) items p m o pi : openapi_method m ->
    paths_ens s = (s0, items) -> pi_set_operation (item31 items p) m (Some o) = Some pi ->
    let s' := set_items31 s0 (put p pi items) in
    sp31_webhooks s' = sp31_webhooks s /\ sp31_rest s' = sp31_rest s /\
    (forall p2, item_rest31 s' p2 = item_rest31 s p2) /\
    (forall p2 m2, doc31 s' p2 m2 = if String.eqb p2 p && String.eqb m2 m then Some o else doc31 s p2 m2).
  Proof.
    intros Hm E S. destruct (paths_ens_spec _ _ _ E) as (H1 & H2 & H3 & H4 & H5).
    destruct (pi_set_slot (item31 items p) m (Some o) Hm) as (pi' & S' & R' & SL).
    rewrite S in S'. injection S' as <-. simpl. repeat split; auto.
    - intros p2. unfold item_rest31 at 1. simpl. rewrite get_put.
      destruct (String.eqb p2 p) eqn:Ep; [|apply H5].
      apply String.eqb_eq in Ep. subst p2. rewrite R', <- H5. unfold item31.
      destruct (get p items); reflexivity.
    - intros p2 m2. unfold doc31 at 1. simpl. rewrite get_put.
      destruct (String.eqb p2 p) eqn:Ep; [|apply H4].
      apply String.eqb_eq in Ep. subst p2. rewrite SL. simpl.
      destruct (String.eqb m2 m); auto. rewrite slot_item31. apply H4.
  Qed.

  Lemma same31_refl (s : paths31 Sch) : same31 s s.
  Proof. repeat split; auto. Qed.

  Lemma same31_ens (s s0 : paths31 Sch) items : paths_ens s = (s0, items) -> same31 s s0.
  Proof.
    intros E. destruct (paths_ens_spec _ _ _ E) as (H1 & H2 & H3 & H4 & H5).
    repeat split; auto.
    - intros p. unfold item_rest31 at 1. rewrite H1. apply H5.
    - intros p m. unfold doc31 at 1. rewrite H1. apply H4.
  Qed.

  (* Full effect of SetupOperation, 3.1. *)
  Definition is_some {A} (x : option A) : bool := match x with Some _ => true | None => false end.

  Lemma setup31_cases (s s' : paths31 Sch) method path fs r :
    setup_operation31 s method path fs = (s', r) ->
    (sanitize_method_path method path = None /\ s' = s /\ r = Some EMethod) \/
    exists m p ps o failed,
      sanitize_method_path method path = Some (m, p, ps) /\
      run_setups fs (match doc31 s p m with Some o => o | None => zero_op31 end) = (o, failed) /\
      r = (if failed then Some ESetup
           else match validate_path_params (op_params o) ps with [] => None | e => Some (EParams e) end) /\
      sp31_webhooks s' = sp31_webhooks s /\ sp31_rest s' = sp31_rest s /\
      (forall p2, item_rest31 s' p2 = item_rest31 s p2) /\
      (forall p2 m2, doc31 s' p2 m2 =
         if String.eqb p2 p && String.eqb m2 m && (negb (is_some r) || is_some (doc31 s p m))
         then Some o else doc31 s p2 m2).
  Proof.
    unfold setup_operation31.
    destruct (sanitize_method_path method path) as [[[m p] ps]|] eqn:S.
    2:{ intros H. injection H as <- <-. auto. }
    intros H. right.
    pose proof (C01_method_accepted _ _ _ _ _ S) as [Hm _].
    destruct (paths_ens s) as [s0 items] eqn:E.
    destruct (paths_ens_spec _ _ _ E) as (H1 & H2 & H3 & H4 & H5).
    rewrite (pi_operation_slot _ _ Hm), slot_item31, H4 in H.
    destruct (run_setups fs _) as [o failed] eqn:R.
    destruct (pi_set_slot (item31 items p) m (Some o) Hm) as (pi & Sp & _ & _).
    rewrite Sp in H.
    destruct (doc31_put s s0 items p m o pi Hm E Sp) as (D1 & D2 & D3 & D4).
    destruct (same31_ens _ _ _ E) as (W1 & W2 & W3 & W4).
    exists m, p, ps, o, failed. split; auto. split; auto.
    destruct (doc31 s p m) as [old|] eqn:Dold.
    - destruct failed.
      { injection H as <- <-. split; auto. repeat split; auto. intros p2 m2. rewrite D4. simpl.
        rewrite andb_true_r. reflexivity. }
      destruct (validate_path_params (op_params o) ps) eqn:V; injection H as <- <-;
        (split; auto; repeat split; auto; intros p2 m2; rewrite D4; simpl; rewrite andb_true_r; reflexivity).
    - destruct failed.
      { injection H as <- <-. split; auto. repeat split; auto. intros p2 m2. simpl.
        rewrite andb_false_r. apply W4. }
      destruct (validate_path_params (op_params o) ps) eqn:V; injection H as <- <-.
      + split; auto; repeat split; auto; intros p2 m2; rewrite D4; simpl; rewrite andb_true_r; reflexivity.
      + split; auto; repeat split; auto; intros p2 m2. simpl. rewrite andb_false_r. apply W4.
  Qed.

  Lemma to_upper_ne m : pi_operation (Sch:=Sch) zero_pitem31 m = None ->
    forall p : pitem31 Sch, pi_operation p m = None.
  Proof.
    unfold pi_operation. intros H p. repeat destruct (String.eqb _ _); auto; discriminate.
  Qed.

  (* Full effect of AddOperation, 3.1. *)
  Lemma add31_cases (s s' : paths31 Sch) method path o r :
    add_operation31 s method path o = (s', r) ->
    (exists e, r = Some e /\ same31 s s' /\
       (e = EExists -> exists m, pi_operation (item31 (snd (paths_ens s)) path) (to_lower method) = Some (Some m))
       /\ (e = EMethod \/ e = EExists)) \/
    exists m p ps,
      sanitize_method_path method path = Some (m, p, ps) /\
      doc31 s path m = None /\
      r = match validate_path_params (op_params o) ps with [] => None | e => Some (EParams e) end /\
      sp31_webhooks s' = sp31_webhooks s /\ sp31_rest s' = sp31_rest s /\
      (forall p2, item_rest31 s' p2 = item_rest31 s p2) /\
      (forall p2 m2, doc31 s' p2 m2 =
         if String.eqb p2 p && String.eqb m2 m && (negb (is_some r) || is_some (doc31 s p m))
         then Some (ensure_response31 o) else doc31 s p2 m2).
  Proof.
    unfold add_operation31. destruct (paths_ens s) as [s0 items] eqn:E.
    pose proof (same31_ens _ _ _ E) as SE. simpl.
    destruct (paths_ens_spec _ _ _ E) as (H1 & H2 & H3 & H4 & H5).
    destruct (pi_operation (item31 items path) (to_lower method)) as [[old|]|] eqn:P.
    - intros H. injection H as <- <-. left. exists EExists. repeat split; auto; try apply SE; eauto.
    - intros H. apply setup31_cases in H as [(S & -> & ->)|(m & p & ps & o2 & failed & S & R & -> & W1 & W2 & W3 & W4)].
      + left. exists EMethod. repeat split; auto; try apply SE. discriminate.
      + right. simpl in R. injection R as <- <-. rewrite sanitize_lower in S.
        exists m, p, ps. split; auto.
        pose proof (C01_method_accepted _ _ _ _ _ S) as [Hm _].
        destruct (parses_total path) as [l Hl].
        destruct (sanitize_some _ _ _ _ _ _ Hl S) as (_ & _ & Em & _ & _).
        destruct SE as (S1 & S2 & S3 & S4).
        rewrite Em, (pi_operation_slot _ _ Hm), slot_item31, H4 in P.
        split; [congruence|]. rewrite S4 in *. split; [reflexivity|].
        split; [congruence|]. split; [congruence|]. split.
        * intros p2. rewrite W3. auto.
        * intros p2 m2. rewrite W4, !S4. reflexivity.
    - intros H. injection H as <- <-. left. exists EMethod. repeat split; auto; try apply SE. discriminate.
  Qed.

  Lemma add31_ok (s s' : paths31 Sch) method path o :
    add_operation31 s method path o = (s', None) ->
    exists m p ps,
      sanitize_method_path method path = Some (m, p, ps) /\
      doc31 s path m = None /\
      validate_path_params (op_params o) ps = [] /\
      sp31_webhooks s' = sp31_webhooks s /\ sp31_rest s' = sp31_rest s /\
      (forall p2, item_rest31 s' p2 = item_rest31 s p2) /\
      (forall p2 m2, doc31 s' p2 m2 =
         if String.eqb p2 p && String.eqb m2 m then Some (ensure_response31 o) else doc31 s p2 m2).
  Proof.
    intros H. apply add31_cases in H as [(e & H & _)|(m & p & ps & S & D & R & W1 & W2 & W3 & W4)]; [discriminate|].
    exists m, p, ps. repeat split; auto.
    - destruct (validate_path_params (op_params o) ps); congruence.
    - intros p2 m2. rewrite W4. simpl. rewrite andb_true_r. reflexivity.
  Qed.

  Lemma add31_accept (s : paths31 Sch) method path l o : parses path l -> legal_params (op_params o) ->
    ((exists s', add_operation31 s method path o = (s', None)) <->
     exists m, openapi_method m /\ method_is method m /\ doc31 s path m = None /\
       params_match (names l) (op_params o)).
  Proof.
    intros Hl L. split.
    - intros [s' H]. apply add31_ok in H as (m & p & ps & S & D & V & _).
      destruct (sanitize_some _ _ _ _ _ _ Hl S) as (? & ? & ? & ? & ->).
      exists m. split; [auto|]. split; [auto|]. split; [auto|]. apply (proj1 (validate_iff _ (names l) L) V).
    - intros (m & Hm & M & D & PM).
      assert (E : to_lower method = m) by (apply lower_of_method; auto).
      assert (S : sanitize_method_path m path = Some (m, render (map strip l), names l)).
      { apply sanitize_iff; auto. split; auto. rewrite <- (to_lower_fix m Hm) at 2. apply to_lower_method. }
      apply (proj2 (validate_iff _ (names l) L)) in PM.
      destruct (add_operation31 s method path o) as [s' r] eqn:A. exists s'. f_equal.
      unfold add_operation31 in A. rewrite E in A.
      destruct (paths_ens s) as [s0 items] eqn:Ens.
      destruct (paths_ens_spec _ _ _ Ens) as (H1 & H2 & H3 & H4 & H5).
      rewrite (pi_operation_slot _ _ Hm), slot_item31, H4, D in A.
      apply setup31_cases in A as [(S' & _ & _)|(m' & p & ps & o2 & failed & S' & R & -> & _)].
      + rewrite S in S'. discriminate.
      + rewrite S in S'. injection S' as <- <- <-. simpl in R. injection R as <- <-.
        simpl. rewrite PM. reflexivity.
  Qed.

  Lemma completed30_ensure (o : op30 Sch) :
    completed30 o (set_responses o (ensure_response (op_responses o))).
  Proof. split; [apply ensure_after | reflexivity]. Qed.

  Lemma completed31_ensure (o : op31 Sch) : completed31 o (ensure_response31 o).
  Proof.
    unfold completed31, ensure_response31. eexists. split; [reflexivity|]. split; [apply ensure_after | reflexivity].
  Qed.

  (* ---------- webhooks ---------- *)

  Lemma webhook_cases (s s' : paths31 Sch) method name o r :
    add_webhook31 s method name o = (s', r) ->
    (exists i, get name (sp31_webhooks s) = Some i /\ s' = s /\ r = Some EDupWebhook) \/
    (get name (sp31_webhooks s) = None /\ (~ exists m, openapi_method m /\ method_is method m) /\
      s' = s /\ r = Some EMethod) \/
    (exists m pi, get name (sp31_webhooks s) = None /\ openapi_method m /\ method_is method m /\ r = None /\
       sp31_items s' = sp31_items s /\ sp31_rest s' = sp31_rest s /\
       sp31_webhooks s' = put name pi (sp31_webhooks s) /\ pi31_rest pi = JNull /\
       forall m', slot pi m' = if String.eqb m' m then Some (ensure_response31 o) else None).
  Proof.
    unfold add_webhook31, has. destruct (get name (sp31_webhooks s)) as [i|] eqn:G.
    - intros H. injection H as <- <-. left. eauto.
    - rewrite sanitize_lower. destruct (sanitize_method_path method "/") as [[[m p] ps]|] eqn:S.
      + pose proof (C01_method_accepted _ _ _ _ _ S) as [Hm Hm2].
        destruct (pi_set_slot zero_pitem31 m (Some (ensure_response31 o)) Hm) as (pi & Sp & R & SL).
        rewrite Sp. intros H. injection H as <- <-. right. right. exists m, pi.
        repeat split; auto. intros m'. rewrite SL, slot_zero. reflexivity.
      + intros H. injection H as <- <-. right. left. repeat split; auto.
        apply (proj1 (C01_method_error method "/")). exact S.
  Qed.

  (* ---------- consequences used by the theorems ---------- *)

  Lemma applied_iff {Op} fs : forall o o' : Op, applied fs o o' <-> run_setups fs o = (o', false).
  Proof.
    induction fs as [|f fs IH]; simpl; intros o o'; split.
    - inversion 1; subst; reflexivity.
    - intros H. injection H as ->. constructor.
    - inversion 1 as [|? ? ? ? ? Hf Ha]; subst. rewrite Hf. apply IH. assumption.
    - destruct (f o) as [o1 e] eqn:E. destruct e; [discriminate|]. intros H.
      econstructor; eauto. apply IH. exact H.
  Qed.

  Lemma pair_eqb p m p2 m2 : (String.eqb p2 p && String.eqb m2 m = true)%bool <-> (p2, m2) = (p, m).
  Proof.
    rewrite andb_true_iff, !String.eqb_eq. split; [intros [-> ->]; auto | intros H; injection H; auto].
  Qed.

  Lemma pair_neqb p m p2 m2 : (p2, m2) <> (p, m) -> (String.eqb p2 p && String.eqb m2 m)%bool = false.
  Proof. rewrite <- pair_eqb. apply not_true_is_false. Qed.

  Lemma pair_refl p m : (String.eqb p p && String.eqb m m)%bool = true.
  Proof. rewrite !String.eqb_refl. reflexivity. Qed.

  Lemma add30_effect (s s' : paths30 Sch) method path l o : parses path l ->
    add_operation30 s method path o = (s', None) ->
    exists m o', openapi_method m /\ method_is method m /\ doc30 s path m = None /\
      completed30 o o' /\ only_at30 s s' (render (map strip l)) m o'.
  Proof.
    intros Hl H. apply add30_ok in H as (m & p & ps & S & D & V & ->).
    destruct (sanitize_some _ _ _ _ _ _ Hl S) as (Hm & Hm2 & _ & -> & _).
    exists m. eexists. split; [auto|]. split; [auto|]. split; [auto|]. split; [apply completed30_ensure|].
    split; [|split; [|split]].
    - rewrite doc30_put, pair_refl. reflexivity.
    - intros p2 m2 N. rewrite doc30_put, (pair_neqb _ _ _ _ N). reflexivity.
    - intros p2. apply item_rest30_put.
    - reflexivity.
  Qed.

  Lemma add31_effect (s s' : paths31 Sch) method path l o : parses path l ->
    add_operation31 s method path o = (s', None) ->
    exists m o', openapi_method m /\ method_is method m /\ doc31 s path m = None /\
      completed31 o o' /\ only_at31 s s' (render (map strip l)) m o'.
  Proof.
    intros Hl H. apply add31_ok in H as (m & p & ps & S & D & V & W1 & W2 & W3 & W4).
    destruct (sanitize_some _ _ _ _ _ _ Hl S) as (Hm & Hm2 & _ & -> & _).
    exists m. eexists. split; [auto|]. split; [auto|]. split; [auto|]. split; [apply completed31_ensure|].
    split; [|split; [|split; [|split]]]; auto.
    - rewrite W4, pair_refl. reflexivity.
    - intros p2 m2 N. rewrite W4, (pair_neqb _ _ _ _ N). reflexivity.
  Qed.

  Lemma setup30_effect (s s' : paths30 Sch) method path l fs : parses path l ->
    setup_operation30 s method path fs = (s', None) ->
    let p := render (map strip l) in
    exists m o, openapi_method m /\ method_is method m /\
      applied fs (current30 s p m) o /\ only_at30 s s' p m o.
  Proof.
    intros Hl H. apply setup30_ok in H as (m & p & ps & o & S & R & V & ->).
    destruct (sanitize_some _ _ _ _ _ _ Hl S) as (Hm & Hm2 & _ & -> & _).
    exists m, o. split; [auto|]. split; [auto|]. split; [apply applied_iff; exact R|].
    split; [|split; [|split]].
    - rewrite doc30_put, pair_refl. reflexivity.
    - intros p2 m2 N. rewrite doc30_put, (pair_neqb _ _ _ _ N). reflexivity.
    - intros p2. apply item_rest30_put.
    - reflexivity.
  Qed.

  Lemma setup31_effect (s s' : paths31 Sch) method path l fs : parses path l ->
    setup_operation31 s method path fs = (s', None) ->
    let p := render (map strip l) in
    exists m o, openapi_method m /\ method_is method m /\
      applied fs (current31 s p m) o /\ only_at31 s s' p m o.
  Proof.
    intros Hl H. apply setup31_cases in H as [(_ & _ & H)|(m & p & ps & o & failed & S & R & E & W1 & W2 & W3 & W4)];
      [discriminate|].
    destruct failed; [discriminate|].
    destruct (sanitize_some _ _ _ _ _ _ Hl S) as (Hm & Hm2 & _ & -> & _).
    exists m, o. split; [auto|]. split; [auto|]. split; [apply applied_iff; exact R|].
    simpl in W4. split; [|split; [|split; [|split]]]; auto.
    - rewrite W4, pair_refl. reflexivity.
    - intros p2 m2 N. rewrite W4, (pair_neqb _ _ _ _ N). reflexivity.
  Qed.

  Lemma setup30_accept (s : paths30 Sch) method path l fs : parses path l ->
    let p := render (map strip l) in
    (forall m o, applied fs (current30 s p m) o -> legal_params (op_params o)) ->
    ((exists s', setup_operation30 s method path fs = (s', None)) <->
     exists m o, openapi_method m /\ method_is method m /\ applied fs (current30 s p m) o /\
       params_match (names l) (op_params o)).
  Proof.
    intros Hl p L. split.
    - intros [s' H]. apply setup30_ok in H as (m & p' & ps & o & S & R & V & _).
      destruct (sanitize_some _ _ _ _ _ _ Hl S) as (Hm & Hm2 & _ & -> & ->).
      assert (A : applied fs (current30 s p m) o) by (apply applied_iff; exact R).
      exists m, o. split; [auto|]. split; [auto|]. split; [auto|].
      apply (proj1 (validate_iff _ (names l) (L m o A)) V).
    - intros (m & o & Hm & M & A & PM).
      unfold setup_operation30. rewrite (proj2 (sanitize_iff _ _ _ _ Hl) (conj Hm M)).
      pose proof (proj1 (applied_iff _ _ _) A) as R.
      apply (proj2 (validate_iff _ (names l) (L m o A))) in PM.
      assert (C : match get m (pi_ops (item30 s p)) with Some o => o | None => zero_op30 end = current30 s p m).
      { unfold current30, doc30, item30. destruct (get p (sp30_items s)); reflexivity. }
      fold p. rewrite C, R, PM. eauto.
  Qed.

  Lemma setup31_accept (s : paths31 Sch) method path l fs : parses path l ->
    let p := render (map strip l) in
    (forall m o, applied fs (current31 s p m) o -> legal_params (op_params o)) ->
    ((exists s', setup_operation31 s method path fs = (s', None)) <->
     exists m o, openapi_method m /\ method_is method m /\ applied fs (current31 s p m) o /\
       params_match (names l) (op_params o)).
  Proof.
    intros Hl p L. split.
    - intros [s' H]. apply setup31_cases in H as [(_ & _ & H)|(m & p' & ps & o & failed & S & R & E & _)];
        [discriminate|].
      destruct failed; [discriminate|].
      destruct (sanitize_some _ _ _ _ _ _ Hl S) as (Hm & Hm2 & _ & -> & ->).
      assert (A : applied fs (current31 s p m) o) by (apply applied_iff; exact R).
      exists m, o. split; [auto|]. split; [auto|]. split; [auto|].
      apply (proj1 (validate_iff _ (names l) (L m o A))).
      destruct (validate_path_params (op_params o) (names l)); congruence.
    - intros (m & o & Hm & M & A & PM).
      destruct (setup_operation31 s method path fs) as [s' r] eqn:H. exists s'. f_equal.
      apply setup31_cases in H as [(S & _ & _)|(m' & p' & ps & o' & failed & S & R & -> & _)].
      + rewrite (proj2 (sanitize_iff _ _ _ _ Hl) (conj Hm M)) in S. discriminate.
      + rewrite (proj2 (sanitize_iff _ _ _ _ Hl) (conj Hm M)) in S. injection S as <- <- <-.
        fold p in R. fold (current31 s p m) in R.
        rewrite (proj1 (applied_iff _ _ _) A) in R. injection R as <- <-.
        apply (proj2 (validate_iff _ (names l) (L m o A))) in PM. rewrite PM. reflexivity.
  Qed.

  Lemma clean_render path l : clean path -> parses path l -> render (map strip l) = path.
  Proof. intros C P. rewrite (C _ P). symmetry. apply parses_render. exact P. Qed.

  Lemma clean_stripped path l : parses path l -> clean (render (map strip l)).
  Proof.
    intros P l' P'. rewrite (parses_unique _ _ P' _ (parses_strip _ _ P)).
    rewrite map_map. apply map_ext. apply strip_idem.
  Qed.

  Lemma add30_clean_keeps (s s' : paths30 Sch) method path o r : clean path ->
    add_operation30 s method path o = (s', r) ->
    forall p m old, doc30 s p m = Some old -> doc30 s' p m = Some old.
  Proof.
    intros C H p m old D. destruct r as [e|].
    - apply add30_err in H. congruence.
    - destruct (parses_total path) as [l Hl].
      destruct (add30_effect _ _ _ _ _ _ Hl H) as (m' & o' & _ & _ & N & _ & A).
      rewrite (clean_render _ _ C Hl) in A. destruct A as (_ & A & _).
      rewrite A; auto. intros E. injection E as -> ->. congruence.
  Qed.

  Lemma add31_clean_err (s s' : paths31 Sch) method path o e : clean path ->
    add_operation31 s method path o = (s', Some e) -> same31 s s'.
  Proof.
    intros C H. apply add31_cases in H as [(e' & H & S & _)|(m & p & ps & S & D & R & W1 & W2 & W3 & W4)]; auto.
    repeat split; auto. intros p2 m2. rewrite W4. simpl.
    destruct (parses_total path) as [l Hl].
    destruct (sanitize_some _ _ _ _ _ _ Hl S) as (_ & _ & _ & -> & _).
    rewrite (clean_render _ _ C Hl), D. simpl. rewrite andb_false_r. reflexivity.
  Qed.

  Lemma add31_clean_keeps (s s' : paths31 Sch) method path o r : clean path ->
    add_operation31 s method path o = (s', r) ->
    forall p m old, doc31 s p m = Some old -> doc31 s' p m = Some old.
  Proof.
    intros C H p m old D. destruct r as [e|].
    - apply add31_clean_err in H; auto. destruct H as (_ & _ & _ & H). rewrite H. auto.
    - destruct (parses_total path) as [l Hl].
      destruct (add31_effect _ _ _ _ _ _ Hl H) as (m' & o' & _ & _ & N & _ & A).
      rewrite (clean_render _ _ C Hl) in A. destruct A as (_ & A & _).
      rewrite A; auto. intros E. injection E as -> ->. congruence.
  Qed.

  Definition path_of {A B C : Type} (c : A * B * C) : B := snd (fst c).

  Lemma run30_keeps cs : forall s : paths30 Sch, Forall (fun c => clean (path_of c)) cs ->
    forall p m old, doc30 s p m = Some old -> doc30 (run30 s cs) p m = Some old.
  Proof.
    induction cs as [|[[me pa] o] cs IH]; simpl; intros s F p m old D; auto.
    inversion F; subst. apply IH; auto. unfold step30.
    destruct (add_operation30 s me pa o) eqn:E. eapply add30_clean_keeps; eauto.
  Qed.

  Lemma run31_keeps cs : forall s : paths31 Sch, Forall (fun c => clean (path_of c)) cs ->
    forall p m old, doc31 s p m = Some old -> doc31 (run31 s cs) p m = Some old.
  Proof.
    induction cs as [|[[me pa] o] cs IH]; simpl; intros s F p m old D; auto.
    inversion F; subst. apply IH; auto. unfold step31.
    destruct (add_operation31 s me pa o) eqn:E. eapply add31_clean_keeps; eauto.
  Qed.

  (* ---------- coherence of reachable documents ---------- *)

  Definition coh30 (s : paths30 Sch) : Prop :=
    forall p m o, doc30 s p m = Some o -> coherent p m (op_params o) (Some (op_responses o)).
  Definition coh31 (s : paths31 Sch) : Prop :=
    forall p m o, doc31 s p m = Some o -> coherent p m (op_params o) (op_responses o).

  Lemma not_empty_after (r r' : responses Sch) : responses_after r r' -> ~ no_responses r'.
  Proof.
    intros [A B] N. destruct r as [d m]. destruct m as [|x m].
    - destruct d.
      + rewrite B in N; [|intros [_ H]; discriminate]. destruct N as [_ N]. discriminate.
      + rewrite A in N; [|split; reflexivity]. destruct N as [N _]. discriminate.
    - rewrite B in N; [|intros [H _]; discriminate]. destruct N as [N _]. discriminate.
  Qed.

  Lemma coh30_add (s : paths30 Sch) me pa o : legal_params (op_params o) -> coh30 s ->
    coh30 (fst (add_operation30 s me pa o)).
  Proof.
    intros L C. destruct (add_operation30 s me pa o) as [s' [e|]] eqn:H; simpl.
    - apply add30_err in H. subst. auto.
    - destruct (parses_total pa) as [l Hl].
      pose proof (proj1 (add30_accept s me pa l o Hl L) (ex_intro _ _ H)) as (m & Hm & M & D & PM).
      destruct (add30_effect _ _ _ _ _ _ Hl H) as (m' & o' & Hm' & M' & _ & CO & A1 & A2 & _).
      intros p2 m2 o2 D2.
      destruct (string_dec p2 (render (map strip l))) as [->|NP];
        [destruct (string_dec m2 m') as [->|NM]|].
      + rewrite A1 in D2. injection D2 as <-. destruct CO as [RA E].
        split; [auto|]. split; [eapply clean_stripped; eauto|]. split.
        * intros l' P'. rewrite (parses_unique _ _ P' _ (parses_strip _ _ Hl)), names_strip, E. exact PM.
        * exists (op_responses o'). split; auto. eapply not_empty_after; eauto.
      + rewrite A2 in D2; [auto|congruence].
      + rewrite A2 in D2; [auto|congruence].
  Qed.

  Lemma coh31_add (s : paths31 Sch) me pa o : clean pa -> legal_params (op_params o) -> coh31 s ->
    coh31 (fst (add_operation31 s me pa o)).
  Proof.
    intros CL L C. destruct (add_operation31 s me pa o) as [s' [e|]] eqn:H; simpl.
    - apply add31_clean_err in H; auto. destruct H as (_ & _ & _ & H). intros p m o2 D. rewrite H in D. auto.
    - destruct (parses_total pa) as [l Hl].
      pose proof (proj1 (add31_accept s me pa l o Hl L) (ex_intro _ _ H)) as (m & Hm & M & D & PM).
      destruct (add31_effect _ _ _ _ _ _ Hl H) as (m' & o' & Hm' & M' & _ & CO & A1 & A2 & _).
      intros p2 m2 o2 D2.
      destruct (string_dec p2 (render (map strip l))) as [->|NP];
        [destruct (string_dec m2 m') as [->|NM]|].
      + rewrite A1 in D2. injection D2 as <-. destruct CO as (r' & R & RA & E).
        split; [auto|]. split; [eapply clean_stripped; eauto|]. split.
        * intros l' P'. rewrite (parses_unique _ _ P' _ (parses_strip _ _ Hl)), names_strip, E. exact PM.
        * exists r'. split; auto. eapply not_empty_after; eauto.
      + rewrite A2 in D2; [auto|congruence].
      + rewrite A2 in D2; [auto|congruence].
  Qed.

  Lemma coh30_run cs : forall s : paths30 Sch,
    Forall (fun c => legal_params (op_params (snd c))) cs -> coh30 s -> coh30 (run30 s cs).
  Proof.
    induction cs as [|[[me pa] o] cs IH]; simpl; intros s F C; auto.
    inversion F; subst. apply IH; auto. apply coh30_add; auto.
  Qed.

  Lemma coh31_run cs : forall s : paths31 Sch,
    Forall (fun c => clean (path_of c) /\ legal_params (op_params (snd c))) cs -> coh31 s -> coh31 (run31 s cs).
  Proof.
    induction cs as [|[[me pa] o] cs IH]; simpl; intros s F C; auto.
    inversion F as [|? ? [? ?] ?]; subst. apply IH; auto. apply coh31_add; auto.
  Qed.

  Lemma coh30_empty (s : paths30 Sch) : empty30 s -> coh30 s.
  Proof. intros E p m o D. unfold doc30 in D. rewrite E in D. discriminate. Qed.

  Lemma coh31_empty (s : paths31 Sch) : empty31 s -> coh31 s.
  Proof. intros E p m o D. unfold doc31 in D. destruct E as [E|E]; rewrite E in D; discriminate. Qed.

  (* ---------- webhooks ---------- *)

  Lemma add31_hooks (s : paths31 Sch) m p o :
    sp31_webhooks (fst (add_operation31 s m p o)) = sp31_webhooks s.
  Proof.
    destruct (add_operation31 s m p o) as [s' r] eqn:H. simpl.
    apply add31_cases in H as [(e & _ & (H & _) & _)|(? & ? & ? & _ & _ & _ & H & _)]; auto.
  Qed.

  Lemma act_hook_keeps a (s : paths31 Sch) name i : get name (sp31_webhooks s) = Some i ->
    get name (sp31_webhooks (act_step31 s a)) = Some i.
  Proof.
    intros G. destruct a as [m p o|m n o]; simpl.
    - rewrite add31_hooks. exact G.
    - destruct (add_webhook31 s m n o) as [s' r] eqn:H. simpl.
      apply webhook_cases in H as [(? & _ & -> & _)|[(_ & _ & -> & _)|(m' & pi & G' & _ & _ & _ & _ & _ & -> & _)]]; auto.
      rewrite get_put. destruct (String.eqb name n) eqn:E; auto.
      apply String.eqb_eq in E. subst. congruence.
  Qed.

  Lemma act_run_hook_keeps l : forall (s : paths31 Sch) name i, get name (sp31_webhooks s) = Some i ->
    get name (sp31_webhooks (act_run31 s l)) = Some i.
  Proof.
    induction l as [|a l IH]; simpl; intros s name i G; auto.
    apply IH. apply act_hook_keeps. exact G.
  Qed.

  (* ---------- parity ---------- *)

  Lemma same_op_params (a : op30 Sch) (b : op31 Sch) : same_op a b -> op_params b = op_params a.
  Proof. intros [E _]. apply (f_equal op_params) in E. exact E. Qed.

  Lemma same_op_ensure (a : op30 Sch) (b : op31 Sch) : same_op a b ->
    same_op (set_responses a (ensure_response (op_responses a))) (ensure_response31 b).
  Proof.
    intros [E R]. split.
    - exact E.
    - left. simpl. destruct R as [->|[-> ->]]; reflexivity.
  Qed.

  Lemma sanitize_canon method path m p ps :
    sanitize_method_path method path = Some (m, p, ps) -> sanitize_method_path m path = Some (m, p, ps).
  Proof.
    intros S. destruct (parses_total path) as [l Hl].
    destruct (sanitize_some _ _ _ _ _ _ Hl S) as (_ & _ & E & _).
    rewrite <- E at 1. rewrite sanitize_lower. exact S.
  Qed.

  Definition outcome (exists_ : bool) (errs : list param_error) : option reg_error :=
    if exists_ then Some EExists else match errs with [] => None | e => Some (EParams e) end.

  Lemma add30_result (s : paths30 Sch) method path o m p ps :
    sanitize_method_path method path = Some (m, p, ps) ->
    snd (add_operation30 s method path o) =
    outcome (is_some (doc30 s path m)) (validate_path_params (op_params o) ps).
  Proof.
    intros S. destruct (parses_total path) as [l Hl].
    destruct (sanitize_some _ _ _ _ _ _ Hl S) as (Hm & M & E & _).
    unfold add_operation30. rewrite E.
    assert (G : get m (pi_ops (item30 s path)) = doc30 s path m).
    { unfold doc30, item30 in *. destruct (get path (sp30_items s)); auto. }
    rewrite G. destruct (doc30 s path m); [reflexivity|].
    unfold setup_operation30. rewrite (sanitize_canon _ _ _ _ _ S). simpl run_setups. cbv beta iota zeta.
    change (op_params (set_responses o (ensure_response (op_responses o)))) with (op_params o).
    unfold outcome, is_some. destruct (validate_path_params (op_params o) ps); reflexivity.
  Qed.

  Lemma add31_result (s : paths31 Sch) method path o m p ps :
    sanitize_method_path method path = Some (m, p, ps) ->
    snd (add_operation31 s method path o) =
    outcome (is_some (doc31 s path m)) (validate_path_params (op_params o) ps).
  Proof.
    intros S. destruct (parses_total path) as [l Hl].
    destruct (sanitize_some _ _ _ _ _ _ Hl S) as (Hm & M & E & _).
    unfold add_operation31. rewrite E.
    destruct (paths_ens s) as [s0 items] eqn:Ens.
    destruct (paths_ens_spec _ _ _ Ens) as (H1 & H2 & H3 & H4 & H5).
    rewrite (pi_operation_slot _ _ Hm), slot_item31, H4.
    destruct (doc31 s path m) eqn:D; [reflexivity|].
    destruct (setup_operation31 s0 m path _) as [s' r] eqn:H.
    apply setup31_cases in H as [(S' & _ & _)|(m' & p' & ps' & o' & failed & S' & R & -> & _)].
    - rewrite (sanitize_canon _ _ _ _ _ S) in S'. discriminate.
    - rewrite (sanitize_canon _ _ _ _ _ S) in S'. injection S' as <- <- <-.
      simpl in R. injection R as <- <-. simpl.
      destruct (validate_path_params (op_params o) ps); reflexivity.
  Qed.

  Lemma add30_bad_method (s : paths30 Sch) method path o :
    sanitize_method_path method path = None ->
    exists e, snd (add_operation30 s method path o) = Some e.
  Proof.
    intros S. destruct (snd (add_operation30 s method path o)) eqn:E; eauto.
    destruct (add_operation30 s method path o) as [s' r] eqn:H. simpl in E. subst r.
    apply add30_ok in H as (m & p & ps & S' & _). congruence.
  Qed.

  Lemma add31_bad_method (s : paths31 Sch) method path o :
    sanitize_method_path method path = None ->
    exists e, snd (add_operation31 s method path o) = Some e.
  Proof.
    intros S. destruct (snd (add_operation31 s method path o)) eqn:E; eauto.
    destruct (add_operation31 s method path o) as [s' r] eqn:H. simpl in E. subst r.
    apply add31_ok in H as (m & p & ps & S' & _). congruence.
  Qed.

  Lemma corr_is_some (s : paths30 Sch) t p m : corr s t -> is_some (doc31 t p m) = is_some (doc30 s p m).
  Proof.
    intros C. destruct (C p m) as [[A B] _]. destruct (doc30 s p m), (doc31 t p m); simpl; auto.
    - specialize (B eq_refl). discriminate.
    - specialize (A eq_refl). discriminate.
  Qed.

  Lemma parity_result (s : paths30 Sch) t method path a b m :
    corr s t -> same_op a b -> openapi_method m -> method_is method m ->
    snd (add_operation31 t method path b) = snd (add_operation30 s method path a).
  Proof.
    intros C O Hm M. destruct (parses_total path) as [l Hl].
    pose proof (proj2 (sanitize_iff method path l m Hl) (conj Hm M)) as S.
    rewrite (add30_result _ _ _ _ _ _ _ S), (add31_result _ _ _ _ _ _ _ S).
    rewrite (corr_is_some _ _ _ _ C), (same_op_params _ _ O). reflexivity.
  Qed.

  Lemma corr_same (s : paths30 Sch) t t' : corr s t -> same31 t t' -> corr s t'.
  Proof. intros C (_ & _ & _ & H) p m. rewrite H. apply C. Qed.

  Lemma parity_step (s : paths30 Sch) t method path a b :
    corr s t -> same_op a b -> clean path ->
    corr (fst (add_operation30 s method path a)) (fst (add_operation31 t method path b)).
  Proof.
    intros C O CL. destruct (parses_total path) as [l Hl].
    destruct (add_operation30 s method path a) as [s' r] eqn:H30.
    destruct (add_operation31 t method path b) as [t' r'] eqn:H31. simpl.
    destruct (sanitize_method_path method path) as [[[m p] ps]|] eqn:S.
    - destruct (sanitize_some _ _ _ _ _ _ Hl S) as (Hm & M & _ & Ep & _).
      assert (R : r' = r).
      { pose proof (parity_result _ _ method path _ _ _ C O Hm M) as R.
        rewrite H30, H31 in R. exact R. }
      subst r'. destruct r as [e|].
      + apply add30_err in H30. subst. eapply corr_same; eauto. eapply add31_clean_err; eauto.
      + apply add30_ok in H30 as (m1 & p1 & ps1 & S1 & _ & _ & ->).
        apply add31_ok in H31 as (m2 & p2 & ps2 & S2 & _ & _ & _ & _ & _ & D).
        rewrite S in S1, S2. injection S1 as <- <- <-. injection S2 as <- <- <-.
        intros p2 m2. rewrite D, doc30_put.
        destruct (String.eqb p2 p && String.eqb m2 m)%bool.
        * split; [split; discriminate|]. intros x y Hx Hy. injection Hx as <-. injection Hy as <-.
          apply same_op_ensure. exact O.
        * apply C.
    - destruct (add30_bad_method s method path a S) as [e E]. rewrite H30 in E. simpl in E. subst.
      apply add30_err in H30. subst.
      destruct (add31_bad_method t method path b S) as [e' E']. rewrite H31 in E'. simpl in E'. subst.
      eapply corr_same; eauto. eapply add31_clean_err; eauto.
  Qed.

  Lemma parity_run cs ds : Forall2 same_call cs ds -> Forall (fun c => clean (path_of c)) cs ->
    forall (s : paths30 Sch) t, corr s t -> corr (run30 s cs) (run31 t ds).
  Proof.
    induction 1 as [|[[m p] a] [[m' p'] b] cs ds H HF IH]; simpl; intros F s t C; auto.
    destruct H as (-> & -> & O). inversion F; subst. apply IH; auto. apply parity_step; auto.
  Qed.
End Proofs.
