(* Where the component schemas come from. *)
From Coq Require Import ZArith Lia.
From Verif Require Import Str SMap Json PathModel PathSpec PathProofs PathProps Types.
From Verif Require Import RegistryModel RegistrySpec RegistryProofs ReflectModel ReflectSpec.
From Verif Require Import ReflectProofs ReflectProofs2 ReflectComps BodySpec BodyProofs.

Section Comps.
  Context {J Sch : Type}.
  Variable B : backend J Sch.
  Notation cunit := (cunit J Sch).
  Notation prop := (prop J).
  Notation comps := (smap Sch).

  (* [c'] holds what [c] held and conversions of definitions in [D]. *)
  Definition from (D : string -> J -> Prop) (c c' : comps) : Prop :=
    (forall n s, get n c' = Some s -> get n c = Some s \/ exists j, D n j /\ b_conv B j = Ret s) /\
    (NoDup (keys c) -> NoDup (keys c')).

  Lemma from_refl D c : from D c c.
  Proof. split; auto. Qed.
  Lemma from_trans D a b c : from D a b -> from D b c -> from D a c.
  Proof. intros [H1 N1] [H2 N2]. split; auto. intros n s H. apply H2 in H. destruct H as [H|H]; auto. Qed.
  Lemma from_weak (D D' : string -> J -> Prop) c c' : (forall n j, D n j -> D' n j) -> from D c c' -> from D' c c'.
  Proof. intros W [H N]. split; auto. intros n s G. destruct (H n s G) as [X|(j & X & Y)]; [auto|right; exists j; auto]. Qed.

  Lemma from_put (D : string -> J -> Prop) n j s c : D n j -> b_conv B j = Ret s -> from D c (put n s c).
  Proof.
    intros I CV. split; [|apply NoDup_put]. intros k t G. rewrite get_put in G. destruct (String.eqb_spec k n) as [->|]; [|auto].
    injection G as <-. right. eauto.
  Qed.

  Lemma collect_definition_from (D : string -> J -> Prop) c n j c' r : D n j ->
    collect_definition B c n j = (c', r) -> from D c c'.
  Proof.
    unfold collect_definition. intros I H. destruct (has n c); [injection H as <- <-; apply from_refl|].
    destruct (b_conv B j) eqn:CV; injection H as <- <-; [|apply from_refl..]. eapply from_put; eauto.
  Qed.

  Lemma collect_all_from (D : string -> J -> Prop) l : (forall n j, In (n, j) l -> D n j) -> forall c c' r,
    collect_all B c l = (c', r) -> from D c c'.
  Proof.
    induction l as [|[n j] l IH]; intros I c c' r H; cbn [collect_all] in H.
    - injection H as <- <-. apply from_refl.
    - destruct (collect_definition B c n j) as [c1 r1] eqn:E.
      apply (collect_definition_from D) in E; [|apply I; simpl; auto].
      destruct r1; [|injection H as <- <-; exact E..].
      apply IH in H; [|intros; apply I; simpl; auto]. eapply from_trans; eauto.
  Qed.

  Lemma put_definitions_from (D : string -> J -> Prop) l : (forall n j, In (n, j) l -> D n j) -> forall c c' r,
    put_definitions B c l = (c', r) -> from D c c'.
  Proof.
    induction l as [|[n j] l IH]; intros I c c' r H; cbn [put_definitions] in H.
    - injection H as <- <-. apply from_refl.
    - destruct (b_conv B j) as [s| |] eqn:CV; [|injection H as <- <-; apply from_refl..].
      apply IH in H; [|intros; apply I; simpl; auto]. eapply from_trans; [|exact H].
      eapply from_put; [|exact CV]. apply I. simpl. auto.
  Qed.

  Lemma json_encoded_b (q : prop) :
    (String.eqb (pr_cf q) "json" || (pr_tag_json q && negb (pr_tag_in q)))%bool = true <-> json_encoded q.
  Proof.
    unfold json_encoded. rewrite orb_true_iff, andb_true_iff, negb_true_iff, String.eqb_eq. reflexivity.
  Qed.

  Lemma build_param_from (D : string -> J -> Prop) c loc q c' r :
    (json_encoded q -> forall n j, In (n, j) (pr_json_defs q) -> D n j) ->
    build_param B c loc q = (c', r) -> from D c c'.
  Proof.
    unfold build_param. intros I H. rewrite <- json_encoded_b in I.
    destruct (b_conv B (pr_schema q)) as [s| |]; [|injection H as <- <-; apply from_refl..].
    destruct (_ || _)%bool.
    - destruct (collect_all B c (pr_json_defs q)) as [c1 r1] eqn:E. apply (collect_all_from D) in E; [|apply I; reflexivity].
      destruct r1 as [[]| |]; [|injection H as <- <-; exact E..].
      destruct (pr_json q) as [j| |]; [|injection H as <- <-; exact E..].
      destruct (b_conv B j); [|injection H as <- <-; exact E..].
      destruct (pr_tags q); injection H as <- <-; exact E.
    - destruct (pr_plain q) as [[]| |]; [| |injection H as <- <-; apply from_refl..];
      destruct (pr_tags q); injection H as <- <-; apply from_refl.
  Qed.

  Section Op.
    Context {R : Type}.
    Notation st := (comps * operation Sch R)%type.
    Definition sfrom D (a b : st) : Prop := from D (fst a) (fst b).
    Lemma sfrom_refl D a : sfrom D a a. Proof. apply from_refl. Qed.
    Lemma sfrom_trans D a b c : sfrom D a b -> sfrom D b c -> sfrom D a c. Proof. apply from_trans. Qed.

    Lemma run_events_from (D : string -> J -> Prop) loc es :
      (forall n j, In (EDef n j) es -> D n j) ->
      (forall q, In q (props_of es) -> json_encoded q -> forall n j, In (n, j) (pr_json_defs q) -> D n j) ->
      forall (a b : st) r, run_events B loc es a = (b, r) -> sfrom D a b.
    Proof.
      induction es as [|e es IH]; intros I1 I2 a b r H; cbn [run_events] in H; cbv zeta in H.
      - injection H as <- <-. apply sfrom_refl.
      - match type of H with (let (_, _) := ?x in _) = _ => destruct x as [s1 r1] eqn:E end.
        assert (P : sfrom D a s1).
        { destruct e as [q|n j].
          - unfold param_callback in E. destruct a as [c o]. rewrite considered_b in E.
            cbn [props_of] in I2. destruct (considered q) eqn:CQ; cbn [negb] in E; [|injection E as <- <-; apply sfrom_refl].
            destruct (build_param B c loc q) as [c1 x] eqn:EB.
            apply (build_param_from D) in EB; [|apply I2; simpl; auto].
            destruct x as [p| |]; [|injection E as <- <-; exact EB..].
            destruct (already_exists _ _ _); injection E as <- <-; exact EB.
          - destruct a as [c0 o0]. cbn [fst snd] in E.
            destruct (collect_definition B c0 n j) as [c x] eqn:EC. injection E as <- <-.
            eapply collect_definition_from; [|exact EC]. apply I1. simpl. auto. }
        destruct r1 as [[]| |]; [|injection H as <- <-; exact P..].
        apply IH in H.
        + eapply sfrom_trans; eauto.
        + intros n j X. apply I1. simpl. auto.
        + intros q X. apply I2. destruct e as [q'|]; cbn [props_of]; [destruct (considered q'); simpl; auto|exact X].
    Qed.

    Lemma parse_parameters_in_from m cu loc (a b : st) r : structuredb cu = true -> In loc locations ->
      parse_parameters_in B cu loc a = (b, r) -> sfrom (request_def m cu) a b.
    Proof.
      unfold parse_parameters_in. intros SB L H. destruct (v_slice cu) eqn:VS; [injection H as <- <-; apply sfrom_refl|].
      assert (I1 : forall n j, In (EDef n j) (fst (v_params cu loc)) -> request_def m cu n j)
        by (intros n j X; eapply rd_param; eauto).
      assert (I2 : forall q, In q (props_of (fst (v_params cu loc))) -> json_encoded q ->
        forall n j, In (n, j) (pr_json_defs q) -> request_def m cu n j).
      { intros q X JE n j Y. eapply rd_json; [|exact JE|exact Y]. unfold param_fields. rewrite SB, VS. cbn [andb negb].
        apply in_flat_map. exists loc. split; [exact L|]. apply in_map. exact X. }
      destruct (v_params cu loc) as [es fin]. cbn [fst] in I1, I2.
      destruct (run_events B loc es a) as [s1 r1] eqn:E. apply (run_events_from _ _ _ I1 I2) in E.
      destruct r1 as [[]| |]; [|injection H as <- <-; exact E..].
      destruct fin as [[]| |]; [destruct s1 as [c1 o1]|..]; injection H as <- <-; exact E.
    Qed.

    Lemma parse_parameters_from m cu (a b : st) r : structuredb cu = true ->
      parse_parameters B cu a = (b, r) -> sfrom (request_def m cu) a b.
    Proof.
      intros SB. apply (join_rel _ (sfrom_refl _) (sfrom_trans _)).
      repeat apply Forall_cons; try apply Forall_nil; intros s s' r' H; eapply parse_parameters_in_from; eauto; simpl; auto.
    Qed.

    Lemma request_body_from (D : string -> J -> Prop) cu mime m mp tag more (a b : st) r :
      (body_wanted cu m mp tag more = Ret true -> forall j0 defs n j,
         snd (v_body cu tag) = Ret (j0, defs) -> In (n, j) defs -> D n j) ->
      parse_request_body B cu mime m mp tag more a = (b, r) -> sfrom D a b.
    Proof.
      unfold parse_request_body, sfrom. destruct a as [c o]. cbn [fst snd]. intros I H.
      destruct (body_wanted _ _ _ _ _) as [[]| |]; [|injection H as <- <-; apply from_refl..].
      specialize (I eq_refl). destruct (v_body cu tag) as [vis res]. cbn [snd] in I.
      destruct res as [[j defs]| |]; [|injection H as <- <-; apply from_refl..].
      destruct (b_conv B j); [|injection H as <- <-; apply from_refl..].
      destruct (put_definitions B c defs) as [c1 r1] eqn:E.
      apply (put_definitions_from D) in E; [|intros; eapply I; eauto].
      destruct r1 as [[]| |]; injection H as <- <-; exact E.
    Qed.

    Lemma request_unit_from m cu (a b : st) r : openapi_method m ->
      request_unit B cu m a = (b, r) -> sfrom (request_def m cu) a b.
    Proof.
      unfold request_unit. intros OM H. destruct (request_content B cu m a) as [[c1 o1] r1] eqn:E.
      set (D := request_def m cu).
      assert (P1 : structuredb cu = true -> forall (s s' : st) r', parse_parameters B cu s = (s', r') -> sfrom D s s')
        by (intros SB s s' r'; apply parse_parameters_from; exact SB).
      assert (PJ : In (cu_ctype cu) [""; "application/json"] -> forall (s s' : st) r',
        parse_request_body B cu mime_json m false tag_json [] s = (s', r') -> sfrom D s s').
      { intros IC s s' r'. apply request_body_from. intros W j0 defs n j V I. apply (wanted_json _ _ _ OM) in W.
        eapply rd_body_json; [exact IC|apply W; reflexivity|exact V|exact I]. }
      assert (PF : In (cu_ctype cu) [""; "application/x-www-form-urlencoded"; "multipart/form-data"] -> forall (s s' : st) r',
        parse_request_body B cu mime_form m (cu_form_mapping cu) tag_form_data [tag_form] s = (s', r') -> sfrom D s s').
      { intros IC s s' r'. apply request_body_from. intros W j0 defs n j V I. apply (wanted_form _ _ _ OM) in W.
        eapply rd_body_form; [exact IC|apply W; reflexivity|exact V|exact I]. }
      assert (E' : sfrom D a (c1, o1)).
      { unfold request_content in E.
        destruct (String.eqb_spec (cu_ctype cu) "") as [E0|E0].
        - assert (SB : structuredb cu = true) by (unfold structuredb; rewrite E0; reflexivity).
          match type of E with context [join_errors ?fs ?s0] => destruct (join_errors fs s0) as [[c2 o2] r2] eqn:E2 end.
          apply (join_rel _ (sfrom_refl D) (sfrom_trans D)) in E2.
          + destruct r2 as [[]| |]; injection E as <- <- <-; exact E2.
          + repeat apply Forall_cons; try apply Forall_nil; [apply PF|apply P1|apply PJ]; try exact SB; rewrite E0; simpl; auto.
        - destruct (String.eqb_spec (cu_ctype cu) mime_json) as [E1|E1].
          + assert (SB : structuredb cu = true) by (unfold structuredb; rewrite E1; reflexivity).
            eapply (join_rel _ (sfrom_refl D) (sfrom_trans D)); [|exact E].
            repeat apply Forall_cons; try apply Forall_nil; [apply P1; exact SB|apply PJ; rewrite E1; simpl; auto].
          + destruct (_ || _)%bool eqn:E2.
            * assert (X : cu_ctype cu = mime_form \/ cu_ctype cu = mime_multipart)
                by (apply orb_true_iff in E2; destruct E2 as [E2|E2]; apply String.eqb_eq in E2; auto).
              assert (SB : structuredb cu = true) by (unfold structuredb; destruct X as [-> | ->]; reflexivity).
              eapply (join_rel _ (sfrom_refl D) (sfrom_trans D)); [|exact E].
              repeat apply Forall_cons; try apply Forall_nil; [apply PF|apply P1; exact SB].
              destruct X as [-> | ->]; simpl; auto.
            * destruct a as [c o]. injection E as <- <- <-. apply from_refl. }
      destruct r1 as [[]| |]; injection H as <- <-; exact E'.
    Qed.

    Lemma setup_request_from (D : string -> J -> Prop) m cus : openapi_method m ->
      (forall cu n j, In cu cus -> request_def m cu n j -> D n j) ->
      forall (a b : st) r, setup_request B cus m a = (b, r) -> sfrom D a b.
    Proof.
      intros OM. induction cus as [|cu cus IH]; intros I a b r H; cbn [setup_request] in H.
      - injection H as <- <-. apply sfrom_refl.
      - destruct (request_unit B cu m a) as [s1 r1] eqn:E. apply (request_unit_from _ _ _ _ _ OM) in E.
        assert (P : sfrom D a s1) by (eapply from_weak; [|exact E]; intros n j; apply I; simpl; auto).
        destruct r1 as [[]| |]; [|injection H as <- <-; exact P..].
        apply IH in H; [|intros x n j X; apply I; simpl; auto]. eapply sfrom_trans; eauto.
    Qed.
  End Op.

  Lemma fill_from m cu st st' r : openapi_method m ->
    fill_response B cu m st = (st', r) -> from (response_def m cu) (fst st) (fst st').
  Proof.
    unfold fill_response. intros OM H.
    assert (HD : String.eqb (to_upper m) "HEAD" = true <-> m = "head")
      by (destruct OM as [->|[->|[->|[->|[->|[->|[->| ->]]]]]]]; vm_compute; split; congruence).
    match type of H with (let (_, _) := ?x in _) = _ => destruct x as [[c1 r1] x1] eqn:E end.
    assert (P : from (response_def m cu) (fst st) c1).
    { destruct (String.eqb (to_upper m) "HEAD"); cbn [negb] in E.
      - apply parse_header_comps in E. cbn [fst] in E. rewrite E. apply from_refl.
      - assert (NH : m <> "head") by (intros X; apply HD in X; discriminate).
        match type of E with context [join_errors ?fs ?s0] => destruct (join_errors fs s0) as [[c9 r9] x9] eqn:E9 end.
        apply (join_rel (fun a b => from (response_def m cu) (fst a) (fst b))) in E9.
        + destruct x9 as [[]| |]; injection E as <- <- <-; exact E9.
        + intros s. apply from_refl.
        + intros a b c. apply from_trans.
        + apply Forall_cons; [|apply Forall_cons; [|apply Forall_nil]]; intros [c rs] s' r' X.
          * unfold parse_json_response in X.
            destruct (cu_nil cu) eqn:N; [injection X as <- <-; apply from_refl|].
            destruct (v_has_json cu) as [[]| |] eqn:HJ; try (injection X as <- <-; apply from_refl; fail).
            all: assert (I : forall n j, In (n, j) (fst (v_json cu)) -> response_def m cu n j)
              by (intros n j I; apply sd_json; auto; rewrite HJ; discriminate);
              destruct (v_json cu) as [defs res]; destruct (collect_all B c defs) as [c2 r2] eqn:EC;
              apply (collect_all_from _ _ I) in EC; destruct r2 as [[]| |]; try (injection X as <- <-; exact EC);
              destruct res as [j| |]; try (injection X as <- <-; exact EC);
              destruct (b_conv B j); injection X as <- <-; exact EC.
          * apply parse_header_comps in X. destruct s' as [c2 rs2]. cbn [fst] in X |- *. rewrite X. apply from_refl. }
    destruct x1 as [[]| |]; injection H as <- <-; exact P.
  Qed.

  Lemma setup_response_from (D : string -> J -> Prop) m cus : openapi_method m ->
    (forall cu n j, In cu cus -> response_def m cu n j -> D n j) ->
    forall st st' r, setup_response B cus m st = (st', r) -> from D (fst st) (fst st').
  Proof.
    intros OM. induction cus as [|cu cus IH]; intros I st st' r H; cbn [setup_response] in H.
    - injection H as <- <-. apply from_refl.
    - destruct (response_unit B cu m st) as [st1 r1] eqn:E.
      assert (P : from D (fst st) (fst st1)).
      { unfold response_unit in E. destruct st as [c rs].
        match type of E with context [fill_response B cu m ?s] => destruct (fill_response B cu m s) as [[c1 rr] x] eqn:EF end.
        apply (fill_from _ _ _ _ _ OM) in EF. cbn [fst] in EF.
        eapply (from_weak _ D) in EF; [|intros n j; apply I; simpl; auto].
        destruct x as [[]| |]; injection E as <- <-; exact EF. }
      destruct r1 as [[]| |]; [|injection H as <- <-; exact P..].
      apply IH in H; [|intros x n j X; apply I; simpl; auto]. eapply from_trans; eauto.
  Qed.

  Lemma setup_oc_from {R} rget rset c (oc : opctx J Sch R) c' o' a : openapi_method (oc_method oc) ->
    setup_oc B rget rset c oc = (c', o', a) ->
    from (call_def (oc_method oc) (oc_req oc) (oc_resp oc)) c c'.
  Proof.
    unfold setup_oc. intros OM H.
    destruct (setup_request B (oc_req oc) (oc_method oc) (c, oc_op oc)) as [[c1 o1] r1] eqn:E.
    set (D := call_def (oc_method oc) (oc_req oc) (oc_resp oc)).
    apply (setup_request_from D) in E; [|exact OM|intros cu n j I X; left; eauto]. unfold sfrom in E. cbn [fst] in E.
    destruct r1 as [[]| |]; [|injection H as <- <- <-; exact E..].
    destruct (validate_path_params _ _); [|injection H as <- <- <-; exact E].
    destruct (oc_resp oc) as [|cu cus] eqn:RE; [injection H as <- <- <-; exact E|].
    destruct (setup_response B (cu :: cus) (oc_method oc) (c1, rget (op_responses o1))) as [[c2 rs2] r2] eqn:E2.
    apply (setup_response_from D) in E2; [|exact OM|intros x n j I X; right; eauto]. cbn [fst] in E2.
    destruct r2 as [[]| |]; injection H as <- <- <-; eapply from_trans; eauto.
  Qed.

  (* ---------- every reported definition is registered ---------- *)

  Lemma put_definitions_in l : forall c c' u, put_definitions B c l = (c', Ret u) ->
    forall n j, In (n, j) l -> In n (keys c').
  Proof.
    induction l as [|[k i] l IH]; intros c c' u H n j I; cbn [put_definitions] in H; [destruct I|].
    destruct (b_conv B i) as [s| |]; [|discriminate..].
    destruct I as [I|I]; [injection I as -> ->|eapply IH; eauto].
    apply put_definitions_grows in H. apply H. apply keys_put. auto.
  Qed.

  Section Op2.
    Context {R : Type}.
    Notation st := (comps * operation Sch R)%type.

    Lemma callback_in loc q (a b : st) u : considered q = true -> json_encoded q ->
      param_callback B loc q a = (b, Ret u) -> forall n j, In (n, j) (pr_json_defs q) -> In n (keys (fst b)).
    Proof.
      unfold param_callback. destruct a as [c o]. intros CQ JE H n j I. rewrite considered_b, CQ in H. cbn [negb] in H.
      destruct (build_param B c loc q) as [c1 x] eqn:E. destruct x as [p| |]; [|discriminate..].
      destruct (already_exists _ _ _); [discriminate|]. injection H as <- <-. cbn [fst].
      unfold build_param in E. apply json_encoded_b in JE.
      destruct (b_conv B (pr_schema q)) as [s| |]; [|discriminate..]. rewrite JE in E.
      destruct (collect_all B c (pr_json_defs q)) as [c2 r2] eqn:EC. destruct r2 as [[]| |]; [|discriminate..].
      destruct (pr_json q) as [j0| |]; [|discriminate..]. destruct (b_conv B j0); [|discriminate..].
      destruct (pr_tags q); [|discriminate..]. injection E as <- _.
      eapply collect_all_in; eauto. apply (in_map fst _ _ I).
    Qed.

    Lemma run_events_json_in loc es : forall (a b : st) u, run_events B loc es a = (b, Ret u) ->
      forall q, In q (props_of es) -> json_encoded q -> forall n j, In (n, j) (pr_json_defs q) -> In n (keys (fst b)).
    Proof.
      induction es as [|e es IH]; intros a b u H q I JE n j X; cbn [run_events] in H; cbv zeta in H; [destruct I|].
      match type of H with (let (_, _) := ?x in _) = _ => destruct x as [s1 r1] eqn:E end.
      destruct r1 as [[]| |]; [|discriminate..].
      destruct e as [q'|k i]; cbn [props_of] in I; [|eapply IH; eauto].
      destruct (considered q') eqn:CQ; [|eapply IH; eauto].
      destruct I as [->|I]; [|eapply IH; eauto].
      apply run_events_fr in H. destruct H as ((G & _) & _). apply G. eapply callback_in; eauto.
    Qed.

    Lemma parameters_json_in cu (a b : st) u : v_slice cu = false -> parse_parameters B cu a = (b, Ret u) ->
      forall loc q, In loc locations -> In q (props_of (fst (v_params cu loc))) -> json_encoded q ->
      forall n j, In (n, j) (pr_json_defs q) -> In n (keys (fst b)).
    Proof.
      unfold parse_parameters. intros VS H loc q L I JE n j X.
      assert (P : forall (s s' : st), parse_parameters_in B cu loc s = (s', Ret tt) -> In n (keys (fst s'))).
      { intros s s' E. unfold parse_parameters_in in E. rewrite VS in E. destruct (v_params cu loc) as [es fin]. cbn [fst] in I.
        destruct (run_events B loc es s) as [[c1 o1] r1] eqn:E1. destruct r1 as [[]| |]; [|discriminate..].
        assert (G := run_events_json_in _ _ _ _ _ E1 q I JE n j X).
        destruct fin as [[]| |]; [| |discriminate..]; injection E as <-; exact G. }
      apply join_cons in H. destruct H as (s1 & H1 & H). apply join_cons in H. destruct H as (s2 & H2 & H).
      apply join_cons in H. destruct H as (s3 & H3 & H). apply join_cons in H. destruct H as (s4 & H4 & H).
      cbn [join_errors] in H. injection H as <-.
      assert (G2 := proj1 (parse_parameters_in_fr _ _ _ _ _ _ H2)). assert (G3 := proj1 (parse_parameters_in_fr _ _ _ _ _ _ H3)).
      assert (G4 := proj1 (parse_parameters_in_fr _ _ _ _ _ _ H4)). destruct G2 as [G2 _], G3 as [G3 _], G4 as [G4 _].
      destruct L as [<-|[<-|[<-|[<-|[]]]]].
      - apply G4, G3, G2. eapply P; eauto.
      - apply G4, G3. eapply P; eauto.
      - apply G4. eapply P; eauto.
      - eapply P; eauto.
    Qed.

    Lemma request_body_in cu mime m mp tag more (a b : st) u :
      parse_request_body B cu mime m mp tag more a = (b, Ret u) -> body_wanted cu m mp tag more <> Ret false ->
      forall j0 defs n j, snd (v_body cu tag) = Ret (j0, defs) -> In (n, j) defs -> In n (keys (fst b)).
    Proof.
      unfold parse_request_body. destruct a as [c0 o0]. cbn [fst snd]. intros H W j0 defs n j V I.
      destruct (body_wanted _ _ _ _ _) as [[]| |]; [|congruence|discriminate..].
      destruct (v_body cu tag) as [vis res]. cbn [snd] in V. subst res.
      destruct (b_conv B j0); [|discriminate..].
      destruct (put_definitions B c0 defs) as [c1 r1] eqn:E. destruct r1 as [[]| |]; [|discriminate..].
      injection H as <- <-. cbn [fst]. eapply put_definitions_in; eauto.
    Qed.

    Lemma request_unit_in m cu (a b : st) u : openapi_method m -> request_unit B cu m a = (b, Ret u) ->
      forall n j, request_def m cu n j -> In n (keys (fst b)).
    Proof.
      intros OM H n j RD.
      assert (PD : In n (param_defs cu) -> In n (keys (fst b))) by (eapply request_unit_defs; eauto).
      destruct RD as [loc n j SB VS L I|loc q n j I JE X|n j j0 defs IC W V I|n j j0 defs IC W V I].
      { apply PD. unfold param_defs. rewrite SB, VS. cbn [andb negb]. apply in_flat_map. exists loc. split; [exact L|].
        unfold event_defs. apply in_flat_map. exists (EDef n j). split; [exact I|simpl; auto]. }
      all: clear PD; unfold request_unit in H; destruct (request_content B cu m a) as [[c1 o1] r1] eqn:E;
        destruct r1 as [[]| |]; [|discriminate..]; injection H as <- <-; cbn [fst]; unfold request_content in E.
      all: assert (PB : forall mime mp tag more (s s' : st) r',
        parse_request_body B cu mime m mp tag more s = (s', r') -> In n (keys (fst s)) -> In n (keys (fst s')))
        by (intros mime mp tag more s s' r' Y; apply parse_request_body_fr in Y; apply Y).
      all: assert (PP : forall (s s' : st) r', parse_parameters B cu s = (s', r') -> In n (keys (fst s)) -> In n (keys (fst s')))
        by (intros s s' r' Y; apply parse_parameters_fr in Y; destruct Y as ((Y & _) & _); apply Y).
      - unfold param_fields in I.
        destruct (structuredb cu) eqn:SB; [|destruct I]. destruct (v_slice cu) eqn:VS; [destruct I|]. cbn [andb negb] in I.
        apply in_flat_map in I. destruct I as (loc' & L & I). apply in_map_iff in I. destruct I as (q' & EQ & I).
        injection EQ as -> ->.
        assert (P1 : forall (s s' : st), parse_parameters B cu s = (s', Ret tt) -> In n (keys (fst s')))
          by (intros s s' Y; eapply parameters_json_in; eauto).
        rewrite structuredb_cases in SB.
        destruct (String.eqb (cu_ctype cu) "").
        + match type of E with context [join_errors ?fs ?s0] => destruct (join_errors fs s0) as [[c2 o2] r2] eqn:E2 end.
          destruct r2 as [[]| |]; [|discriminate..]. injection E as <- <-.
          apply join_cons in E2. destruct E2 as (s1 & H1 & H2). apply join_cons in H2. destruct H2 as (s2 & H2 & H3).
          apply join_cons in H3. destruct H3 as (s3 & H3 & H4). cbn [join_errors] in H4. injection H4 as ->.
          apply PB in H3; [exact H3|]. eapply P1; eauto.
        + destruct (String.eqb (cu_ctype cu) mime_json).
          * apply join_cons in E. destruct E as (s1 & H1 & H2). apply join_cons in H2. destruct H2 as (s2 & H2 & H3).
            cbn [join_errors] in H3. injection H3 as ->. apply PB in H2; [exact H2|]. eapply P1; eauto.
          * cbn [orb] in SB. rewrite SB in E.
            apply join_cons in E. destruct E as (s1 & H1 & H2). apply join_cons in H2. destruct H2 as (s2 & H2 & H3).
            cbn [join_errors] in H3. injection H3 as ->. apply P1 in H2. exact H2.
      - assert (NF : body_wanted cu m false tag_json [] <> Ret false)
          by (intros Y; apply (wanted_json _ _ _ OM) in Y; apply Y in W; discriminate).
        destruct IC as [IC|[IC|[]]]; rewrite <- IC in E.
        + change (String.eqb "" "") with true in E. cbv iota in E.
          match type of E with context [join_errors ?fs ?s0] => destruct (join_errors fs s0) as [[c2 o2] r2] eqn:E2 end.
          destruct r2 as [[]| |]; [|discriminate..]. injection E as <- <-.
          apply join_cons in E2. destruct E2 as (s1 & H1 & H2). apply join_cons in H2. destruct H2 as (s2 & H2 & H3).
          apply join_cons in H3. destruct H3 as (s3 & H3 & H4). cbn [join_errors] in H4. injection H4 as ->.
          eapply (request_body_in _ _ _ _ _ _ _ _ _ H3 NF); eauto.
        + change (String.eqb "application/json" "") with false in E.
          change (String.eqb "application/json" mime_json) with true in E. cbv iota in E.
          apply join_cons in E. destruct E as (s1 & H1 & H2). apply join_cons in H2. destruct H2 as (s2 & H2 & H3).
          cbn [join_errors] in H3. injection H3 as ->. eapply (request_body_in _ _ _ _ _ _ _ _ _ H2 NF); eauto.
      - assert (NF : body_wanted cu m (cu_form_mapping cu) tag_form_data [tag_form] <> Ret false)
          by (intros Y; apply (wanted_form _ _ _ OM) in Y; apply Y in W; discriminate).
        assert (F : forall (s s' : st), parse_request_body B cu mime_form m (cu_form_mapping cu) tag_form_data [tag_form] s = (s', Ret tt) ->
          In n (keys (fst s'))) by (intros s s' Y; eapply (request_body_in _ _ _ _ _ _ _ _ _ Y NF); eauto).
        destruct (String.eqb_spec (cu_ctype cu) "") as [E0|E0].
        + match type of E with context [join_errors ?fs ?s0] => destruct (join_errors fs s0) as [[c2 o2] r2] eqn:E2 end.
          destruct r2 as [[]| |]; [|discriminate..]. injection E as <- <-.
          apply join_cons in E2. destruct E2 as (s1 & H1 & H2). apply join_cons in H2. destruct H2 as (s2 & H2 & H3).
          apply join_cons in H3. destruct H3 as (s3 & H3 & H4). cbn [join_errors] in H4. injection H4 as ->.
          apply PB in H3; [exact H3|]. apply PP in H2; [exact H2|]. eapply F; eauto.
        + destruct (String.eqb_spec (cu_ctype cu) mime_json) as [E1|E1].
          { exfalso. unfold mime_json in E1. rewrite E1 in IC. simpl in IC. intuition discriminate. }
          assert (X : (String.eqb (cu_ctype cu) mime_form || String.eqb (cu_ctype cu) mime_multipart)%bool = true).
          { apply orb_true_iff. rewrite !String.eqb_eq. unfold mime_form, mime_multipart. simpl in IC. intuition congruence. }
          rewrite X in E.
          apply join_cons in E. destruct E as (s1 & H1 & H2). apply join_cons in H2. destruct H2 as (s2 & H2 & H3).
          cbn [join_errors] in H3. injection H3 as ->. apply PP in H2; [exact H2|]. eapply F; eauto.
    Qed.

    Lemma setup_request_in m cus : openapi_method m -> forall (a b : st) u, setup_request B cus m a = (b, Ret u) ->
      forall n j cu, In cu cus -> request_def m cu n j -> In n (keys (fst b)).
    Proof.
      intros OM. induction cus as [|x cus IH]; intros a b u H n j cu I RD; cbn [setup_request] in H; [destruct I|].
      destruct (request_unit B x m a) as [s1 r1] eqn:E. destruct r1 as [[]| |]; [|discriminate..].
      destruct I as [->|I]; [|eapply IH; eauto].
      apply setup_request_fr in H. destruct H as [G _]. apply G. eapply request_unit_in; eauto.
    Qed.
  End Op2.

  Lemma setup_oc_registered {R} rget rset c (oc : opctx J Sch R) c' o' : (forall x, rget (rset x) = x) ->
    openapi_method (oc_method oc) -> setup_oc B rget rset c oc = (c', o', AOk) ->
    forall n j, call_def (oc_method oc) (oc_req oc) (oc_resp oc) n j -> In n (keys c').
  Proof.
    intros GS OM H n j CD. apply setup_oc_ok in H; [|exact GS].
    destruct H as (c1 & o1 & rs1 & H1 & _ & H2 & _). destruct CD as [(cu & I & RD)|(cu & I & RD)].
    - apply setup_response_grows in H2. apply H2. eapply (setup_request_in _ _ OM _ _ _ H1); eauto.
    - destruct RD as [n j NH N HJ X]. eapply (setup_response_defs B _ _ OM _ _ _ _ _ H2 n cu I).
      apply jd_in; auto. apply (in_map fst _ _ X).
  Qed.

  (* When all reports of a name agree, a new component is its conversion. *)
  Lemma setup_oc_exact {R} rget rset c (oc : opctx J Sch R) c' o' : (forall x, rget (rset x) = x) ->
    openapi_method (oc_method oc) -> setup_oc B rget rset c oc = (c', o', AOk) ->
    forall n j, call_def (oc_method oc) (oc_req oc) (oc_resp oc) n j -> get n c = None ->
    (forall i, call_def (oc_method oc) (oc_req oc) (oc_resp oc) n i -> i = j) ->
    exists s, b_conv B j = Ret s /\ get n c' = Some s.
  Proof.
    intros GS OM H n j CD G U. pose proof (setup_oc_registered _ _ _ _ _ _ GS OM H n j CD) as I.
    apply get_in in I. destruct (get n c') as [s|] eqn:E; [|congruence].
    apply (setup_oc_from _ _ _ _ _ _ _ OM) in H. destruct (proj1 H _ _ E) as [X|(i & X & Y)]; [congruence|].
    apply U in X. subst i. eauto.
  Qed.
End Comps.
