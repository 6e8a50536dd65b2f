(* Lemmas about the component schemas during Reflector.AddOperation. *)
From Coq Require Import ZArith Lia.
From Verif Require Import Str SMap Json PathModel PathSpec PathProofs PathProps Types.
From Verif Require Import RegistryModel RegistrySpec RegistryProofs ReflectModel ReflectSpec ReflectProofs ReflectProofs2.

Section Comps.
  Context {J Sch : Type}.
  Variable B : backend J Sch.
  Notation cunit := (cunit J Sch).
  Notation prop := (prop J).
  Notation response := (response Sch).
  Notation comps := (smap Sch).

  (* ---------- relations kept by every step ---------- *)

  Section Rel.
    Variable Rel : comps -> comps -> Prop.
    Hypothesis rel_refl : forall c, Rel c c.
    Hypothesis rel_trans : forall a b c, Rel a b -> Rel b c -> Rel a c.
    Hypothesis rel_new : forall c n s, get n c = None -> Rel c (put n s c).
    Variable okdefs : list (string * J) -> Prop.
    Hypothesis rel_defs : forall c l c' r, okdefs l -> put_definitions B c l = (c', r) -> Rel c c'.

    Lemma collect_definition_rel c n j c' r : collect_definition B c n j = (c', r) -> Rel c c'.
    Proof.
      unfold collect_definition, has. destruct (get n c) eqn:E; [intros H; injection H as <- <-; auto|].
      destruct (b_conv B j); intros H; injection H as <- <-; auto.
    Qed.

    Lemma collect_all_rel l : forall c c' r, collect_all B c l = (c', r) -> Rel c c'.
    Proof.
      induction l as [|[n j] l IH]; intros c c' r H; simpl in H.
      - injection H as <- <-. auto.
      - destruct (collect_definition B c n j) as [c1 r1] eqn:E. apply collect_definition_rel in E.
        destruct r1; [|injection H as <- <-; exact E..]. apply IH in H. eauto.
    Qed.

    Lemma build_param_rel c loc q c' r : build_param B c loc q = (c', r) -> Rel c c'.
    Proof.
      unfold build_param. intros H.
      destruct (b_conv B (pr_schema q)) as [s| |]; [|injection H as <- <-; auto..].
      destruct (_ || _)%bool.
      - destruct (collect_all B c (pr_json_defs q)) as [c1 r1] eqn:E. apply collect_all_rel in E.
        destruct r1 as [[]| |]; [|injection H as <- <-; exact E..].
        destruct (pr_json q) as [j| |]; [|injection H as <- <-; exact E..].
        destruct (b_conv B j); [|injection H as <- <-; exact E..].
        destruct (pr_tags q); injection H as <- <-; exact E.
      - destruct (pr_plain q) as [[]| |]; [| |injection H as <- <-; auto..];
        destruct (pr_tags q); injection H as <- <-; auto.
    Qed.

    Section Op.
      Context {R : Type}.
      Notation st := (comps * operation Sch R)%type.
      Definition srel (a b : st) : Prop := Rel (fst a) (fst b).
      Lemma srel_refl a : srel a a. Proof. apply rel_refl. Qed.
      Lemma srel_trans a b c : srel a b -> srel b c -> srel a c. Proof. apply rel_trans. Qed.

      Lemma param_callback_rel loc q (a b : st) r : param_callback B loc q a = (b, r) -> srel a b.
      Proof.
        unfold param_callback, srel. destruct a as [c o]. intros H.
        destruct (_ || _)%bool; [injection H as <- <-; auto|].
        destruct (build_param B c loc q) as [c1 r1] eqn:E. apply build_param_rel in E.
        destruct r1 as [p| |]; [|injection H as <- <-; exact E..].
        destruct (already_exists _ _ _); injection H as <- <-; exact E.
      Qed.

      Lemma event_rel loc e (a b : st) r :
        match e with
        | EProp q => param_callback B loc q a
        | EDef n j => let (c, x) := collect_definition B (fst a) n j in ((c, snd a), x)
        end = (b, r) -> srel a b.
      Proof.
        destruct e as [q|n j]; [apply param_callback_rel|].
        destruct (collect_definition B (fst a) n j) as [c x] eqn:E. apply collect_definition_rel in E.
        intros H. injection H as <- <-. exact E.
      Qed.

      Lemma run_events_rel loc es : forall (a b : st) r, run_events B loc es a = (b, r) -> srel a b.
      Proof.
        induction es as [|e es IH]; intros a b r H; simpl in H.
        - injection H as <- <-; apply srel_refl.
        - match type of H with (match ?x with _ => _ end) = _ => destruct x as [s1 r1] eqn:E end.
          apply event_rel in E. destruct r1 as [[]| |]; [|injection H as <- <-; exact E..].
          apply IH in H. eapply srel_trans; eauto.
      Qed.

      Lemma parse_parameters_in_rel cu loc (a b : st) r : parse_parameters_in B cu loc a = (b, r) -> srel a b.
      Proof.
        unfold parse_parameters_in. intros H. destruct (v_slice cu); [injection H as <- <-; apply srel_refl|].
        destruct (v_params cu loc) as [es fin].
        destruct (run_events B loc es a) as [s1 r1] eqn:E. apply run_events_rel in E.
        destruct r1 as [[]| |]; [|injection H as <- <-; exact E..].
        destruct fin as [[]| |]; [destruct s1 as [c1 o1]|..]; injection H as <- <-; exact E.
      Qed.

      Lemma parse_parameters_rel cu (a b : st) r : parse_parameters B cu a = (b, r) -> srel a b.
      Proof.
        apply (join_rel srel srel_refl srel_trans).
        repeat apply Forall_cons; try apply Forall_nil; intros s s' r'; apply parse_parameters_in_rel.
      Qed.

      Definition okbody (cu : cunit) : Prop :=
        forall tag j defs, snd (v_body cu tag) = Ret (j, defs) -> okdefs defs.

      Lemma parse_request_body_rel cu mime m mp tag more (a b : st) r : okbody cu ->
        parse_request_body B cu mime m mp tag more a = (b, r) -> srel a b.
      Proof.
        unfold parse_request_body, srel, okbody. destruct a as [c o]. cbn [fst snd]. intros OK H.
        destruct (body_wanted _ _ _ _ _) as [[]| |]; [|injection H as <- <-; auto..].
        specialize (OK tag). destruct (v_body cu tag) as [vis res]. simpl in OK.
        destruct res as [[j defs]| |]; [|injection H as <- <-; auto..].
        specialize (OK _ _ eq_refl).
        destruct (b_conv B j); [|injection H as <- <-; auto..].
        destruct (put_definitions B c defs) as [c1 r1] eqn:E. apply rel_defs in E; [|exact OK].
        destruct r1 as [[]| |]; injection H as <- <-; exact E.
      Qed.

      Lemma request_unit_rel cu m (a b : st) r : okbody cu -> request_unit B cu m a = (b, r) -> srel a b.
      Proof.
        unfold request_unit. intros OK H. destruct (request_content B cu m a) as [[c1 o1] r1] eqn:E.
        assert (P1 : forall (s s' : st) r', parse_parameters B cu s = (s', r') -> srel s s')
          by (intros s s' r'; apply parse_parameters_rel).
        assert (P2 : forall mime mp tag more (s s' : st) r',
          parse_request_body B cu mime m mp tag more s = (s', r') -> srel s s')
          by (intros mime mp tag more s s' r'; apply parse_request_body_rel; exact OK).
        assert (E' : srel a (c1, o1)).
        { unfold request_content in E. destruct (String.eqb (cu_ctype cu) "").
          - match type of E with context [join_errors ?fs ?s0] => destruct (join_errors fs s0) as [[c2 o2] r2] eqn:E2 end.
            apply (join_rel srel srel_refl srel_trans) in E2.
            + destruct r2 as [[]| |]; injection E as <- <- <-; exact E2.
            + repeat apply Forall_cons; try apply Forall_nil; eauto.
          - destruct (String.eqb (cu_ctype cu) mime_json).
            + eapply (join_rel srel srel_refl srel_trans); [|exact E]. repeat apply Forall_cons; try apply Forall_nil; eauto.
            + destruct (_ || _)%bool.
              * eapply (join_rel srel srel_refl srel_trans); [|exact E]. repeat apply Forall_cons; try apply Forall_nil; eauto.
              * destruct a as [c o]. injection E as <- <- <-. apply rel_refl. }
        destruct r1 as [[]| |]; injection H as <- <-; exact E'.
      Qed.

      Lemma setup_request_rel cus m : (forall cu, In cu cus -> okbody cu) ->
        forall (a b : st) r, setup_request B cus m a = (b, r) -> srel a b.
      Proof.
        induction cus as [|cu cus IH]; intros OK a b r H; simpl in H.
        - injection H as <- <-. apply srel_refl.
        - destruct (request_unit B cu m a) as [s1 r1] eqn:E. apply request_unit_rel in E; [|apply OK; simpl; auto].
          destruct r1 as [[]| |]; [|injection H as <- <-; exact E..].
          apply IH in H; [|intros x I; apply OK; simpl; auto]. eapply srel_trans; eauto.
      Qed.
    End Op.

    Lemma parse_json_rel cu ct st st' r : parse_json_response B cu ct st = (st', r) -> Rel (fst st) (fst st').
    Proof.
      unfold parse_json_response. destruct st as [c rs]. intros H.
      destruct (cu_nil cu); [injection H as <- <-; apply rel_refl|].
      destruct (v_has_json cu) as [[]| |]; try (injection H as <- <-; apply rel_refl; fail).
      all: destruct (v_json cu) as [defs res]; destruct (collect_all B c defs) as [c1 r1] eqn:E;
        apply collect_all_rel in E; destruct r1 as [[]| |]; try (injection H as <- <-; exact E);
        destruct res as [j| |]; try (injection H as <- <-; exact E);
        destruct (b_conv B j); injection H as <- <-; exact E.
    Qed.

    Lemma fill_rel cu m st st' r : fill_response B cu m st = (st', r) -> Rel (fst st) (fst st').
    Proof.
      unfold fill_response. intros H.
      match type of H with (let (_, _) := ?x in _) = _ => destruct x as [[c1 r1] x1] eqn:E end.
      assert (P : Rel (fst st) c1).
      { destruct (negb _).
        - match type of E with context [join_errors ?fs ?s0] => destruct (join_errors fs s0) as [[c9 r9] x9] eqn:E9 end.
          apply (join_rel (fun a b => Rel (fst a) (fst b))) in E9.
          + destruct x9 as [[]| |]; injection E as <- <- <-; exact E9.
          + intros s. apply rel_refl.
          + intros a b c. apply rel_trans.
          + apply Forall_cons; [|apply Forall_cons; [|apply Forall_nil]]; intros s s' r'.
            * apply parse_json_rel.
            * intros X. apply parse_header_comps in X. destruct s, s'; simpl in *; subst. apply rel_refl.
        - apply parse_header_comps in E. simpl in E. rewrite E. apply rel_refl. }
      destruct x1 as [[]| |]; injection H as <- <-; exact P.
    Qed.

    Lemma response_unit_rel cu m st st' r : response_unit B cu m st = (st', r) -> Rel (fst st) (fst st').
    Proof.
      unfold response_unit. destruct st as [c rs]. intros H.
      match type of H with context [fill_response B cu m ?s] => destruct (fill_response B cu m s) as [[c1 r1] x] eqn:E end.
      apply fill_rel in E. simpl in E.
      destruct x as [[]| |]; injection H as <- <-; exact E.
    Qed.

    Lemma setup_response_rel cus m : forall st st' r, setup_response B cus m st = (st', r) -> Rel (fst st) (fst st').
    Proof.
      induction cus as [|cu cus IH]; intros st st' r H; cbn [setup_response] in H.
      - injection H as <- <-. apply rel_refl.
      - destruct (response_unit B cu m st) as [st1 r1] eqn:E. apply response_unit_rel in E.
        destruct r1 as [[]| |]; [|injection H as <- <-; exact E..].
        apply IH in H. eauto.
    Qed.

    Lemma setup_oc_rel {R} rget rset c (oc : opctx J Sch R) c' o' a :
      (forall cu, In cu (oc_req oc) -> okbody cu) ->
      setup_oc B rget rset c oc = (c', o', a) -> Rel c c'.
    Proof.
      unfold setup_oc. intros OK H.
      destruct (setup_request B (oc_req oc) (oc_method oc) (c, oc_op oc)) as [[c1 o1] r1] eqn:E.
      apply setup_request_rel in E; [|exact OK]. unfold srel in E. simpl in E.
      destruct r1 as [[]| |]; [|injection H as <- <- <-; exact E..].
      destruct (validate_path_params _ _); [|injection H as <- <- <-; exact E].
      destruct (oc_resp oc) as [|cu cus]; [injection H as <- <- <-; exact E|].
      destruct (setup_response B (cu :: cus) (oc_method oc) (c1, rget (op_responses o1))) as [[c2 rs2] r2] eqn:E2.
      apply setup_response_rel in E2. simpl in E2.
      destruct r2 as [[]| |]; injection H as <- <- <-; eauto.
    Qed.
  End Rel.

  (* ---------- existing components ---------- *)

  Definition keeps (n : string) (c c' : comps) : Prop := forall s, get n c = Some s -> get n c' = Some s.

  Lemma keeps_defs n l : ~ In n (map fst l) -> forall c c' r, put_definitions B c l = (c', r) -> keeps n c c'.
  Proof.
    intros N. induction l as [|[k j] l IH]; intros c c' r H; simpl in *.
    - injection H as <- <-. intros s X. exact X.
    - destruct (b_conv B j) as [s| |]; [|injection H as <- <-; intros s X; exact X..].
      assert (P := IH (fun X => N (or_intror X)) _ _ _ H). intros x X. apply P. rewrite get_put.
      destruct (String.eqb_spec n k); [subst; tauto|exact X].
  Qed.

  Lemma setup_oc_keeps {R} rget rset c (oc : opctx J Sch R) c' o' a n :
    (forall cu tag j defs, In cu (oc_req oc) -> snd (v_body cu tag) = Ret (j, defs) -> ~ In n (map fst defs)) ->
    setup_oc B rget rset c oc = (c', o', a) -> keeps n c c'.
  Proof.
    intros OK. apply (setup_oc_rel (keeps n)) with (okdefs := fun l => ~ In n (map fst l)).
    - intros x s H. exact H.
    - intros x y z H1 H2 s H. auto.
    - intros x k s G t H. rewrite get_put. destruct (String.eqb_spec n k); [subst; congruence|exact H].
    - intros x l y r H. apply keeps_defs. exact H.
    - intros cu I tag j defs E. eapply OK; eauto.
  Qed.

  (* ---------- reported definitions ---------- *)

  Lemma put_in n (s : Sch) c : In n (keys (put n s c)).
  Proof. apply keys_put. auto. Qed.

  Lemma get_in n (c : comps) : get n c <> None <-> In n (keys c).
  Proof.
    split.
    - intros H. destruct (in_dec string_dec n (keys c)); [assumption|]. apply get_None in n0. congruence.
    - intros H E. apply get_None in E. contradiction.
  Qed.

  Lemma collect_definition_in c n j c' u : collect_definition B c n j = (c', Ret u) -> In n (keys c').
  Proof.
    unfold collect_definition, has. destruct (get n c) eqn:E.
    - intros H. injection H as <- <-. apply get_in. congruence.
    - destruct (b_conv B j); intros H; [|discriminate..]. injection H as <- <-. apply put_in.
  Qed.

  Lemma collect_all_in l : forall c c' u, collect_all B c l = (c', Ret u) -> forall n, In n (map fst l) -> In n (keys c').
  Proof.
    induction l as [|[k j] l IH]; intros c c' u H n I; simpl in *; [tauto|].
    destruct (collect_definition B c k j) as [c1 r1] eqn:E. destruct r1 as [[]| |]; [|discriminate..].
    destruct I as [<-|I]; [|eapply IH; eauto].
    apply collect_definition_in in E. apply collect_all_grows in H. apply H. exact E.
  Qed.

  Section Op2.
    Context {R : Type}.
    Notation st := (comps * operation Sch R)%type.

    Lemma run_events_in loc es : forall (a b : st) u, run_events B loc es a = (b, Ret u) ->
      forall n, In n (event_defs es) -> In n (keys (fst b)).
    Proof.
      induction es as [|e es IH]; intros a b u H n I; simpl in *; [tauto|].
      match type of H with (match ?x with _ => _ end) = _ => destruct x as [s1 r1] eqn:E end.
      destruct r1 as [[]| |]; [|discriminate..].
      apply in_app_iff in I. destruct I as [I|I]; [|eapply IH; eauto].
      destruct e as [q|k j]; simpl in I; [tauto|]. destruct I as [<-|[]].
      destruct a as [c0 o0]. cbn [fst snd] in E. destruct (collect_definition B c0 k j) as [c x] eqn:E2. injection E as <- ->.
      apply collect_definition_in in E2. apply run_events_fr in H. destruct H as ((G & _) & _). apply G. exact E2.
    Qed.

    Lemma parse_parameters_in_in cu loc (a b : st) u : v_slice cu = false ->
      parse_parameters_in B cu loc a = (b, Ret u) ->
      forall n, In n (event_defs (fst (v_params cu loc))) -> In n (keys (fst b)).
    Proof.
      unfold parse_parameters_in. intros -> H n I. destruct (v_params cu loc) as [es fin]. simpl in I.
      destruct (run_events B loc es a) as [[c1 o1] r1] eqn:E. destruct r1 as [[]| |]; [|discriminate..].
      assert (G := run_events_in _ _ _ _ _ E n I).
      destruct fin as [[]| |]; [| |discriminate..]; injection H as <- <-; exact G.
    Qed.

    Lemma parse_parameters_defs cu (a b : st) u : v_slice cu = false -> parse_parameters B cu a = (b, Ret u) ->
      forall n loc, In loc locations -> In n (event_defs (fst (v_params cu loc))) -> In n (keys (fst b)).
    Proof.
      unfold parse_parameters. intros VS H n loc L I.
      apply join_cons in H. destruct H as (s1 & H1 & H). apply join_cons in H. destruct H as (s2 & H2 & H).
      apply join_cons in H. destruct H as (s3 & H3 & H). apply join_cons in H. destruct H as (s4 & H4 & H).
      simpl in H. injection H as <-.
      assert (G2 := proj1 (parse_parameters_in_fr _ _ _ _ _ _ H2)). assert (G3 := proj1 (parse_parameters_in_fr _ _ _ _ _ _ H3)).
      assert (G4 := proj1 (parse_parameters_in_fr _ _ _ _ _ _ H4)). destruct G2 as [G2 _], G3 as [G3 _], G4 as [G4 _].
      destruct L as [<-|[<-|[<-|[<-|[]]]]].
      - apply G4, G3, G2. eapply parse_parameters_in_in; [exact VS|exact H1|exact I].
      - apply G4, G3. eapply parse_parameters_in_in; [exact VS|exact H2|exact I].
      - apply G4. eapply parse_parameters_in_in; [exact VS|exact H3|exact I].
      - eapply parse_parameters_in_in; [exact VS|exact H4|exact I].
    Qed.

    Lemma request_unit_defs cu m (a b : st) u : request_unit B cu m a = (b, Ret u) ->
      forall n, In n (param_defs cu) -> In n (keys (fst b)).
    Proof.
      unfold request_unit, param_defs. intros H n I.
      destruct (structuredb cu) eqn:SB; [|simpl in I; tauto]. destruct (v_slice cu) eqn:VS; [simpl in I; tauto|].
      cbn [andb negb] in I. apply in_flat_map in I. destruct I as (loc & L & I).
      destruct (request_content B cu m a) as [[c1 o1] r1] eqn:E. destruct r1 as [[]| |]; [|discriminate..].
      assert (P1 : forall (s s' : st) u', parse_parameters B cu s = (s', Ret u') -> In n (keys (fst s')))
        by (intros s s' u' X; eapply parse_parameters_defs; eauto).
      assert (P2 : forall mime mp tag more (s s' : st) r',
        parse_request_body B cu mime m mp tag more s = (s', r') -> In n (keys (fst s)) -> In n (keys (fst s')))
        by (intros mime mp tag more s s' r' X; apply parse_request_body_fr in X; apply X).
      assert (G : In n (keys c1)).
      { unfold request_content in E. rewrite structuredb_cases in SB.
        destruct (String.eqb (cu_ctype cu) "").
        - match type of E with context [join_errors ?fs ?s0] => destruct (join_errors fs s0) as [[c2 o2] r2] eqn:E2 end.
          destruct r2 as [[]| |]; [|discriminate..]. injection E as <- <-.
          apply join_cons in E2. destruct E2 as (s1 & H1 & H2). apply join_cons in H2. destruct H2 as (s2 & H2 & H3).
          apply join_cons in H3. destruct H3 as (s3 & H3 & H4). simpl in H4. injection H4 as ->.
          apply P2 in H3; [exact H3|]. eapply P1; eauto.
        - destruct (String.eqb (cu_ctype cu) mime_json).
          + apply join_cons in E. destruct E as (s1 & H1 & H2). apply join_cons in H2. destruct H2 as (s2 & H2 & H3).
            simpl in H3. injection H3 as ->. apply P2 in H2; [exact H2|]. eapply P1; eauto.
          + simpl in SB. rewrite SB in E.
            apply join_cons in E. destruct E as (s1 & H1 & H2). apply join_cons in H2. destruct H2 as (s2 & H2 & H3).
            simpl in H3. injection H3 as ->. apply P1 in H2. exact H2. }
      injection H as <- <-. exact G.
    Qed.

    Lemma setup_request_defs cus m : forall (a b : st) u, setup_request B cus m a = (b, Ret u) ->
      forall n cu, In cu cus -> In n (param_defs cu) -> In n (keys (fst b)).
    Proof.
      induction cus as [|x cus IH]; intros a b u H n cu I D; simpl in *; [tauto|].
      destruct (request_unit B x m a) as [s1 r1] eqn:E. destruct r1 as [[]| |]; [|discriminate..].
      destruct I as [->|I]; [|eapply IH; eauto].
      apply setup_request_fr in H. destruct H as [G _]. apply G. eapply request_unit_defs; eauto.
    Qed.
  End Op2.

  Lemma fill_defs cu m c r c' r' u : openapi_method m -> fill_response B cu m (c, r) = ((c', r'), Ret u) ->
    forall n, json_def m cu n -> In n (keys c').
  Proof.
    intros OM H n [n' NH N HJ I]. unfold fill_response in H.
    assert (HD : String.eqb (to_upper m) "HEAD" = false)
      by (destruct OM as [->|[->|[->|[->|[->|[->|[->| ->]]]]]]]; try reflexivity; congruence).
    rewrite HD in H. cbn [negb] in H.
    match type of H with context [join_errors ?fs ?s0] => destruct (join_errors fs s0) as [[c9 r9] x9] eqn:E9 end.
    destruct x9 as [[]| |]; [|discriminate..]. injection H as <- <-.
    apply join_cons in E9. destruct E9 as ([c1 r1] & H1 & H2). apply join_cons in H2. destruct H2 as ([c2 r2] & H2 & H3).
    simpl in H3. injection H3 as -> ->. apply parse_header_comps in H2. simpl in H2. subst c9.
    unfold parse_json_response in H1. rewrite N in H1.
    destruct (v_has_json cu) as [[]| |]; [|congruence| |discriminate];
      destruct (v_json cu) as [defs res]; destruct (collect_all B c defs) as [c3 r3] eqn:E;
      (destruct r3 as [[]| |]; [|discriminate..]); (destruct res as [j| |]; [|discriminate..]);
      (destruct (b_conv B j); [|discriminate..]); injection H1 as <- <-;
      eapply collect_all_in; eauto.
  Qed.

  Lemma setup_response_defs cus m : openapi_method m -> forall c rs c' rs' u,
    setup_response B cus m (c, rs) = ((c', rs'), Ret u) ->
    forall n cu, In cu cus -> json_def m cu n -> In n (keys c').
  Proof.
    intros OM. induction cus as [|x cus IH]; intros c rs c' rs' u H n cu I D; cbn [setup_response] in H; [simpl in I; tauto|].
    destruct (response_unit B x m (c, rs)) as [[c1 rs1] r1] eqn:E. destruct r1 as [[]| |]; [|discriminate..].
    destruct I as [->|I]; [|eapply IH; eauto].
    apply setup_response_grows in H. apply H. simpl.
    apply response_unit_ok in E. destruct E as (r' & F & _). eapply fill_defs; eauto.
  Qed.

  Lemma setup_oc_defs {R} rget rset c (oc : opctx J Sch R) c' o' : (forall x, rget (rset x) = x) ->
    openapi_method (oc_method oc) -> setup_oc B rget rset c oc = (c', o', AOk) ->
    forall n, (exists cu, In cu (oc_req oc) /\ In n (param_defs cu)) \/
              (exists cu, In cu (oc_resp oc) /\ json_def (oc_method oc) cu n) -> In n (keys c').
  Proof.
    intros GS OM H n D. apply setup_oc_ok in H; [|exact GS].
    destruct H as (c1 & o1 & rs1 & H1 & _ & H2 & _). destruct D as [(cu & I & D)|(cu & I & D)].
    - apply setup_response_grows in H2. apply H2. eapply (setup_request_defs _ _ _ _ _ H1); eauto.
    - eapply (setup_response_defs _ _ OM _ _ _ _ _ H2); eauto.
  Qed.
End Comps.
