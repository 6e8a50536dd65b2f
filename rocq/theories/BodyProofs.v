(* Lemmas about request bodies, response content, headers and components of a
   documented operation. *)
From Coq Require Import ZArith Lia.
From Verif Require Import Str SMap Json PathModel PathSpec PathProofs PathProps Types.
From Verif Require Import RegistryModel RegistrySpec RegistryProofs ReflectModel ReflectSpec.
From Verif Require Import ReflectProofs ReflectProofs2 ReflectComps BodySpec.

Section Proofs.
  Context {J Sch : Type}.
  Variable B : backend J Sch.
  Notation cunit := (cunit J Sch).
  Notation prop := (prop J).
  Notation response := (response Sch).
  Notation responses := (responses Sch).
  Notation comps := (smap Sch).

  (* ---------- response content ---------- *)

  Lemma fill_desc_content d (r : response) : rs_content (fill_desc d r) = rs_content r.
  Proof. destruct d; [|reflexivity]. cbn [fill_desc]. destruct (is_empty (rs_desc r)); reflexivity. Qed.

  Lemma fill_desc_headers d (r : response) : rs_headers (fill_desc d r) = rs_headers r.
  Proof. destruct d; [|reflexivity]. cbn [fill_desc]. destruct (is_empty (rs_desc r)); reflexivity. Qed.

  Lemma json_shown_iff (cu : cunit) ct : json_shown cu ct <->
    cu_nil cu = false /\ v_has_json cu <> Ret false /\
    ct = (if is_empty (before_semicolon (cu_ctype cu)) then mime_json else before_semicolon (cu_ctype cu)).
  Proof.
    pose proof (before_semicolon_base (cu_ctype cu)) as BS. unfold json_shown, mime_json.
    split; intros (N & HJ & H); (split; [exact N|]; split; [exact HJ|]).
    - destruct H as [(BT & NE)|(BT & ->)]; pose proof (base_type_unique _ _ _ BS BT) as ->.
      + destruct ct; [congruence|reflexivity].
      + reflexivity.
    - destruct (before_semicolon (cu_ctype cu)) as [|x b]; cbn [is_empty] in H; subst ct.
      + right. auto.
      + left. split; [exact BS|discriminate].
  Qed.

  Lemma type_shown_iff (cu : cunit) ct : type_shown cu ct <->
    is_empty (before_semicolon (cu_ctype cu)) = false /\ ct = before_semicolon (cu_ctype cu).
  Proof.
    pose proof (before_semicolon_base (cu_ctype cu)) as BS. unfold type_shown. split.
    - intros (BT & NE). pose proof (base_type_unique _ _ _ BS BT) as ->. split; [|reflexivity].
      destruct ct; [congruence|reflexivity].
    - intros (NE & ->). split; [exact BS|]. destruct (before_semicolon (cu_ctype cu)); [discriminate|discriminate].
  Qed.

  Lemma parse_json_media cu c r c' r' u :
    parse_json_response B cu (before_semicolon (cu_ctype cu)) (c, r) = ((c', r'), Ret u) -> forall ct,
    (json_shown cu ct -> exists j s, snd (v_json cu) = Ret j /\ b_conv B j = Ret s /\
       get ct (rs_content r') = Some (mkMedia (Some (b_unnull B s)) (rest_of (get ct (rs_content r))))) /\
    (~ json_shown cu ct -> get ct (rs_content r') = get ct (rs_content r)).
  Proof.
    intros H ct. rewrite !json_shown_iff. unfold parse_json_response in H.
    destruct (cu_nil cu) eqn:N; [injection H as <- <- <-; split; [intros (X & _); discriminate|reflexivity]|].
    set (key := if is_empty (before_semicolon (cu_ctype cu)) then mime_json else before_semicolon (cu_ctype cu)) in *.
    assert (K : forall defs res, v_json cu = (defs, res) -> v_has_json cu <> Ret false ->
      match collect_all B c defs with
      | (c, Ret _) => match res with
          | Err => ((c, r), Err) | Panic => ((c, r), Panic)
          | Ret j => match b_conv B j with
              | Err => ((c, r), Err) | Panic => ((c, r), Panic)
              | Ret s => ((c, fill_desc (b_desc B j) (set_content r (put key (mkMedia (Some (b_unnull B s))
                            (rest_of (get key (rs_content r)))) (rs_content r)))), Ret tt)
              end
          end
      | (c, _) => ((c, r), Panic)
      end = ((c', r'), Ret u) ->
      (false = false /\ v_has_json cu <> Ret false /\ ct = key -> exists j s, snd (v_json cu) = Ret j /\ b_conv B j = Ret s /\
        get ct (rs_content r') = Some (mkMedia (Some (b_unnull B s)) (rest_of (get ct (rs_content r))))) /\
      (~ (false = false /\ v_has_json cu <> Ret false /\ ct = key) -> get ct (rs_content r') = get ct (rs_content r))).
    { intros defs res V HJ E. destruct (collect_all B c defs) as [c1 [[]| |]]; [|discriminate..].
      destruct res as [j| |]; [|discriminate..]. destruct (b_conv B j) as [s| |] eqn:CV; [|discriminate..].
      injection E as <- <- <-. rewrite fill_desc_content. cbn [set_content rs_content]. split.
      - intros (_ & _ & ->). exists j, s. rewrite V, get_put_same. auto.
      - intros X. apply get_put_other. intros ->. tauto. }
    destruct (v_has_json cu) as [[]| |] eqn:HJ; [| | |discriminate].
    - destruct (v_json cu) as [defs res] eqn:V. eapply K; [reflexivity|discriminate|exact H].
    - injection H as <- <- <-. split; [intros (_ & X & _); congruence|reflexivity].
    - destruct (v_json cu) as [defs res] eqn:V. eapply K; [reflexivity|discriminate|exact H].
  Qed.

  Lemma ensure_get r ct f k : get k (rs_content (ensure_content_type B r ct f)) =
    if String.eqb k ct then or_else (get k (rs_content r)) (Some (plain B f)) else get k (rs_content r).
  Proof.
    unfold ensure_content_type, has. destruct (String.eqb_spec k ct) as [->|N].
    - destruct (get ct (rs_content r)) eqn:G; [rewrite G; reflexivity|].
      cbn [set_content rs_content]. rewrite get_put_same. reflexivity.
    - destruct (get ct (rs_content r)); [reflexivity|]. cbn [set_content rs_content]. apply get_put_other. exact N.
  Qed.

  Lemma raw_get l : forall r k, get k (rs_content (fold_left (raw_content B) l r)) =
    if mem k l then (if b_v31 B then Some (plain B "") else or_else (get k (rs_content r)) (Some (plain B "")))
    else get k (rs_content r).
  Proof.
    induction l as [|t l IH]; intros r k; cbn [fold_left mem existsb]; [reflexivity|].
    rewrite IH. unfold raw_content. fold (mem k l). destruct (b_v31 B) eqn:V.
    - cbn [set_content rs_content]. rewrite get_put. destruct (String.eqb k t), (mem k l); reflexivity.
    - rewrite ensure_get. destruct (String.eqb k t), (mem k l); try reflexivity.
      destruct (get k (rs_content r)); reflexivity.
  Qed.

  Lemma mem_In k l : mem k l = true <-> In k l.
  Proof.
    unfold mem. rewrite existsb_exists. split.
    - intros (x & I & E). apply String.eqb_eq in E. subst. exact I.
    - intros I. exists k. split; [exact I|apply String.eqb_refl].
  Qed.

  Lemma fill_media cu m c r c' r' : openapi_method m -> m <> "head" ->
    fill_response B cu m (c, r) = ((c', r'), Ret tt) -> forall ct,
    response_media B cu ct (get ct (rs_content r)) (get ct (rs_content r')).
  Proof.
    intros OM NH H ct. unfold fill_response in H.
    assert (HD : String.eqb (to_upper m) "HEAD" = false)
      by (destruct OM as [->|[->|[->|[->|[->|[->|[->| ->]]]]]]]; try reflexivity; congruence).
    rewrite HD in H. cbn [negb] in H.
    match type of H with context [join_errors ?fs ?s0] => destruct (join_errors fs s0) as [[c9 r9] x] eqn:E end.
    destruct x as [[]| |]; [|discriminate..].
    apply join_cons in E. destruct E as ([c1 r1] & E1 & E).
    apply join_cons in E. destruct E as ([c2 r2] & E2 & E). injection E as <- <-.
    apply parse_header_ok in E2. destruct E2 as (_ & C2 & _).
    set (r3 := if is_empty (before_semicolon (cu_ctype cu)) then parse_raw_response_body B cu r2
               else ensure_content_type B (parse_raw_response_body B cu r2) (before_semicolon (cu_ctype cu)) (cu_format cu)) in *.
    pose proof (finish_desc cu r3) as F. cbv zeta in F. injection H as <- <-. destruct F as (F1 & _). rewrite F1. clear F1.
    destruct (parse_json_media _ _ _ _ _ _ E1 ct) as [M1 M2].
    exists (get ct (rs_content r1)), (get ct (rs_content (parse_raw_response_body B cu r2))).
    split; [exact M1|]. split; [exact M2|]. rewrite <- C2.
    assert (RW : get ct (rs_content (parse_raw_response_body B cu r2)) =
      if (negb (cu_nil cu) && mem ct (v_content_tags cu))%bool
      then (if b_v31 B then Some (plain B "") else or_else (get ct (rs_content r2)) (Some (plain B "")))
      else get ct (rs_content r2)).
    { unfold parse_raw_response_body. destruct (cu_nil cu); [reflexivity|]. rewrite raw_get. reflexivity. }
    assert (TS : (negb (cu_nil cu) && mem ct (v_content_tags cu))%bool = true <-> tag_shown cu ct).
    { unfold tag_shown. rewrite andb_true_iff, negb_true_iff, mem_In. reflexivity. }
    split; [intros T; rewrite RW; apply TS in T; rewrite T; reflexivity|].
    split; [intros T; rewrite RW; destruct (_ && _)%bool; [exfalso; apply T, TS; reflexivity|reflexivity]|].
    rewrite type_shown_iff. unfold r3. destruct (is_empty (before_semicolon (cu_ctype cu))).
    - split; [intros (X & _); discriminate|reflexivity].
    - rewrite ensure_get. destruct (String.eqb_spec ct (before_semicolon (cu_ctype cu))).
      + split; [reflexivity|tauto].
      + split; [tauto|reflexivity].
  Qed.

  Lemma fills_media m l r r' : openapi_method m -> m <> "head" -> fills B m l r r' -> forall ct,
    responses_media B ct l (get ct (rs_content r)) (get ct (rs_content r')).
  Proof.
    intros OM NH. induction 1 as [r|cu l r r1 r2 c c' F _ I]; intros ct; [constructor|].
    econstructor; [|apply I]. eapply fill_media; eauto.
  Qed.

  Lemma responses_media_cons_inv ct cu l a b : responses_media B ct (cu :: l) a b ->
    exists m, response_media B cu ct a m /\ responses_media B ct l m b.
  Proof. inversion 1; subst. eauto. Qed.

  Lemma responses_media_app ct l1 l2 a b : responses_media B ct (l1 ++ l2) a b ->
    exists m, responses_media B ct l1 a m /\ responses_media B ct l2 m b.
  Proof.
    revert a. induction l1 as [|cu l1 IH]; intros a H; cbn [app] in H.
    - exists a. split; [constructor|exact H].
    - apply responses_media_cons_inv in H. destruct H as (m & H1 & H2).
      destruct (IH _ H2) as (x & P & Q). exists x. split; [econstructor; eauto|exact Q].
  Qed.

  Lemma responses_media_keep ct l a b : responses_media B ct l a b ->
    (forall cu, In cu l -> ~ contributes cu ct) -> b = a.
  Proof.
    induction 1 as [m|cu l m m1 m2 H _ IH]; intros N; [reflexivity|].
    rewrite IH by (intros x I; apply N; simpl; auto). specialize (N cu (or_introl eq_refl)).
    destruct H as (x & y & _ & A & _ & C & _ & E).
    assert (~ json_shown cu ct).
    { intros (P & Q & [(S1 & S2)|(S1 & ->)]); apply N; [apply con_type|apply con_json]; assumption. }
    assert (~ tag_shown cu ct) by (intros (P & Q); apply N, con_tag; assumption).
    assert (~ type_shown cu ct) by (intros (P & Q); apply N, con_type; assumption).
    rewrite E, C, A; auto.
  Qed.

  (* ---------- headers ---------- *)

  Lemma run_headers_get qs : forall res res' u, run_headers B qs res = (res', Ret u) -> forall n,
    (forall q, last_named qs n q -> exists h, get n res' = Some h /\ renders_header B q h) /\
    ((forall q, In q qs -> considered q = true -> pr_name q <> n) -> get n res' = get n res).
  Proof.
    induction qs as [|q qs IH]; intros res res' u H n; cbn [run_headers] in H.
    - injection H as <- <-. split; [|reflexivity]. intros q (l1 & l2 & E & _). destruct l1; discriminate.
    - destruct (header_callback B q res) as [r1 x] eqn:E. destruct x as [[]| |]; [|discriminate..].
      destruct (IH _ _ _ H n) as [I1 I2]. unfold header_callback in E. rewrite considered_b in E. split.
      + intros q0 (l1 & l2 & EQ & CQ & NM & L).
        destruct l1 as [|y l1]; cbn [app] in EQ; injection EQ as <- ->.
        * rewrite (I2 L). rewrite CQ in E. cbn [negb] in E.
          destruct (b_conv B (pr_schema q)) as [s| |] eqn:CV; [|discriminate..].
          destruct (b_deprecated B (pr_schema q) s) as [d| |] eqn:DP; [|discriminate..].
          destruct (pr_tags q) as [t| |] eqn:TG; [|discriminate..].
          injection E as <-. rewrite <- NM, get_put_same. eexists. split; [reflexivity|].
          exists t, s, d. cbn [h_desc h_required h_deprecated h_explode h_allow_empty h_allow_reserved h_schema].
          split; [exact TG|]. split; [exact CV|]. split; [exact DP|]. repeat split; reflexivity.
        * apply I1. exists l1, l2. auto.
      + intros N. rewrite I2 by (intros x X; apply N; simpl; auto).
        specialize (N q (or_introl eq_refl)). destruct (considered q); cbn [negb] in E.
        * destruct (b_conv B (pr_schema q)) as [s| |]; [|discriminate..].
          destruct (b_deprecated B (pr_schema q) s) as [d| |]; [|discriminate..].
          destruct (pr_tags q) as [t| |]; [|discriminate..].
          injection E as <-. apply get_put_other. intros X. apply N; auto.
        * injection E as <-. reflexivity.
  Qed.

  Lemma fill_headers cu m c r c' r' : cu_nil cu = false ->
    fill_response B cu m (c, r) = ((c', r'), Ret tt) -> forall n,
    (forall q, last_named (fst (v_headers cu)) n q -> exists h, get n (rs_headers r') = Some h /\ renders_header B q h) /\
    ((forall q, In q (fst (v_headers cu)) -> considered q = true -> pr_name q <> n) -> get n (rs_headers r') = None).
  Proof.
    intros N H n. unfold fill_response in H.
    assert (P : forall c1 r1 c2 r2, parse_response_header B cu (c1, r1) = ((c2, r2), Ret tt) ->
      (forall q, last_named (fst (v_headers cu)) n q -> exists h, get n (rs_headers r2) = Some h /\ renders_header B q h) /\
      ((forall q, In q (fst (v_headers cu)) -> considered q = true -> pr_name q <> n) -> get n (rs_headers r2) = None)).
    { intros c1 r1 c2 r2 E. unfold parse_response_header in E. rewrite N in E.
      destruct (v_headers cu) as [qs fin]. destruct (run_headers B qs []) as [res x] eqn:RH.
      destruct x as [[]| |]; [|discriminate..]. destruct fin as [d| |]; [|discriminate..].
      injection E as <- <-. rewrite fill_desc_headers. cbn [set_headers rs_headers fst].
      destruct (run_headers_get _ _ _ _ RH n) as [I1 I2]. split; [exact I1|]. intros X. rewrite (I2 X). reflexivity. }
    destruct (negb _).
    - match type of H with context [join_errors ?fs ?s0] => destruct (join_errors fs s0) as [[c9 r9] x] eqn:E end.
      destruct x as [[]| |]; [|discriminate..].
      apply join_cons in E. destruct E as ([c1 r1] & E1 & E).
      apply join_cons in E. destruct E as ([c2 r2] & E2 & E). injection E as <- <-.
      apply P in E2.
      set (r3 := if is_empty (before_semicolon (cu_ctype cu)) then parse_raw_response_body B cu r2
               else ensure_content_type B (parse_raw_response_body B cu r2) (before_semicolon (cu_ctype cu)) (cu_format cu)) in *.
      pose proof (finish_desc cu r3) as F. cbv zeta in F. injection H as <- <-. destruct F as (_ & F & _). rewrite F.
      assert (R3 : rs_headers r3 = rs_headers r2).
      { unfold r3. destruct (is_empty _); [apply (raw_response_cont B cu r2)|].
        etransitivity; [apply (ensure_cont B)|apply (raw_response_cont B cu r2)]. }
      rewrite R3. exact E2.
    - destruct (parse_response_header B cu (c, r)) as [[c1 r1] x] eqn:E. destruct x as [[]| |]; [|discriminate..].
      apply P in E. pose proof (finish_desc cu r1) as F. cbv zeta in F. injection H as <- <-.
      destruct F as (_ & F & _). rewrite F. exact E.
  Qed.

  (* ---------- request bodies ---------- *)

  Lemma safe_bodyless m : openapi_method m -> safe_method m = true <-> bodyless m.
  Proof.
    unfold safe_method, bodyless.
    intros [->|[->|[->|[->|[->|[->|[->| ->]]]]]]]; vm_compute; split; try tauto; intros; repeat match goal with
      | H : _ \/ _ |- _ => destruct H end; congruence.
  Qed.

  Lemma may_b m (cu : cunit) : openapi_method m ->
    (safe_method m && negb (v_force_body cu))%bool = false <-> may_have_body m cu.
  Proof.
    intros OM. unfold may_have_body. rewrite <- (safe_bodyless m OM).
    destruct (safe_method m), (v_force_body cu); cbn; intuition congruence.
  Qed.

  Lemma wanted_json m (cu : cunit) b : openapi_method m ->
    body_wanted cu m false tag_json [] = Ret b -> (b = true <-> wants_json m cu).
  Proof.
    intros OM H. unfold body_wanted in H. unfold wants_json. rewrite <- (may_b m cu OM).
    destruct (safe_method m && negb (v_force_body cu))%bool.
    { injection H as <-. split; [discriminate|intros (X & _); discriminate]. }
    cbn [existsb] in H. rewrite orb_false_r in H. change (String.eqb tag_json tag_json) with true in H.
    cbn [negb] in H. rewrite andb_false_r in H. cbn [andb] in H.
    unfold tag_json, tag_form_data, tag_form in H.
    destruct ((v_tagged cu "formData" || v_tagged cu "form") && negb (v_force_json cu) && negb (v_struct cu))%bool eqn:FB.
    { injection H as <-. split; [discriminate|]. intros (_ & X & _).
      apply andb_true_iff in FB. destruct FB as [FB S]. apply andb_true_iff in FB. destruct FB as [FB FJ].
      apply orb_true_iff in FB. apply negb_true_iff in S, FJ. destruct (X FB); congruence. }
    assert (X : v_tagged cu "formData" = true \/ v_tagged cu "form" = true -> v_force_json cu = true \/ v_struct cu = true).
    { intros T. apply orb_true_iff in T. rewrite T in FB. destruct (v_force_json cu), (v_struct cu); auto. }
    destruct (v_without_tags cu) as [w| |]; [|discriminate..].
    destruct (v_tagged cu "json"), (v_struct cu), (v_slice cu), (v_embedded_slice cu), w; cbn in H; injection H as <-;
      split; intros Y; try discriminate; try reflexivity; try (split; [reflexivity|]; split; [exact X|]; tauto);
      destruct Y as (_ & _ & Y); intuition discriminate.
  Qed.

  Lemma wanted_form m (cu : cunit) b : openapi_method m ->
    body_wanted cu m (cu_form_mapping cu) tag_form_data [tag_form] = Ret b -> (b = true <-> wants_form m cu).
  Proof.
    intros OM H. unfold body_wanted in H. unfold wants_form, form_structure. rewrite <- (may_b m cu OM).
    destruct (safe_method m && negb (v_force_body cu))%bool.
    { injection H as <-. split; [discriminate|intros (X & _); discriminate]. }
    cbn [existsb] in H. rewrite orb_false_r in H. change (String.eqb tag_form_data tag_json) with false in H.
    cbn [negb andb] in H. rewrite andb_true_r in H. unfold tag_form_data, tag_form in H.
    destruct (v_tagged cu "formData"), (v_tagged cu "form"), (cu_form_mapping cu); cbn in H;
      try (injection H as <-; split; [discriminate|intros (_ & X); intuition discriminate]);
      destruct (v_without_tags cu) as [w| |]; try discriminate;
      rewrite ?andb_false_r in H; cbn in H; injection H as <-; (split; [intros _; split; [reflexivity|tauto]|reflexivity]).
  Qed.

  Section Op.
    Context {R : Type}.
    Notation op := (operation Sch R).

    (* The body as far as it is described by the theorems. *)
    Definition bstate (b : option (rbor Sch)) : option string * option string * option json :=
      (body_desc b, match b with Some x => rbor_ref x | None => None end,
       match b with Some x => option_map (fun y => rb_rest y) (rbor_body x) | None => None end).

    Lemma with_content_desc (o : op) mime mt : body_desc (op_body (with_body_content o mime mt)) = body_desc (op_body o).
    Proof.
      unfold with_body_content, body_desc. cbn -[put]. destruct (op_body o) as [[[b|] rf]|]; reflexivity.
    Qed.

    Lemma with_content_has (o : op) mime mt : has_body (op_body (with_body_content o mime mt)).
    Proof. unfold with_body_content, has_body. cbn [set_body op_body]. eexists. eexists. split; reflexivity. Qed.

    Lemma form_type_b (cu : cunit) ct : form_type cu ct <->
      ct = (if existsb is_file (fst (v_body cu "formData")) then mime_multipart else mime_form).
    Proof.
      unfold form_type, mime_multipart, mime_form. rewrite <- has_file_b.
      destruct (existsb is_file (fst (v_body cu "formData"))); split; intros H; try (left; split; [reflexivity|exact H]);
        try (right; split; [discriminate|exact H]); destruct H as [(X & H)|(X & H)]; congruence.
    Qed.

    (* One parseRequestBody call. *)
    Definition body_put (cu : cunit) (tag : string) (wants : Prop) (key : string -> Prop) (o o' : op) : Prop :=
      (wants -> has_body (op_body o') /\ exists x, reflected_body B cu tag x /\
         forall k, key k -> get k (body_content (op_body o')) = x) /\
      (forall k, ~ (wants /\ key k) -> get k (body_content (op_body o')) = get k (body_content (op_body o))) /\
      (~ wants -> op_body o' = op_body o) /\ body_desc (op_body o') = body_desc (op_body o).

    Lemma json_put cu m c (o : op) c' o' u : openapi_method m ->
      parse_request_body B cu mime_json m false tag_json [] (c, o) = ((c', o'), Ret u) ->
      body_put cu "json" (wants_json m cu) (eq "application/json") o o'.
    Proof.
      intros OM H. unfold parse_request_body in H.
      destruct (body_wanted cu m false tag_json []) as [b| |] eqn:W; [|discriminate..].
      apply (wanted_json _ _ _ OM) in W. destruct b.
      - assert (WJ : wants_json m cu) by (apply W; reflexivity). unfold tag_json in H.
        destruct (v_body cu "json") as [vis res] eqn:V. destruct res as [[j defs]| |]; [|discriminate..].
        destruct (b_conv B j) as [s| |] eqn:CV; [|discriminate..].
        destruct (put_definitions B _ defs) as [c1 r1]. destruct r1 as [[]| |]; [|discriminate..].
        injection H as <- <- <-. change (String.eqb mime_json mime_form) with false. cbn [andb snd].
        split; [|split; [|split]].
        + intros _. split; [apply with_content_has|]. eexists. split.
          * exists j, defs, s. rewrite V. split; [reflexivity|]. split; [exact CV|reflexivity].
          * intros k <-. rewrite body_content_put. reflexivity.
        + intros k N. rewrite body_content_put. destruct (String.eqb_spec k mime_json) as [->|]; [|reflexivity].
          exfalso. apply N. split; [exact WJ|reflexivity].
        + tauto.
        + apply with_content_desc.
      - injection H as <- <- <-. assert (NW : ~ wants_json m cu) by (intros X; apply W in X; discriminate).
        split; [tauto|]. repeat split; reflexivity.
    Qed.

    Lemma form_put cu m c (o : op) c' o' u : openapi_method m ->
      parse_request_body B cu mime_form m (cu_form_mapping cu) tag_form_data [tag_form] (c, o) = ((c', o'), Ret u) ->
      body_put cu "formData" (wants_form m cu) (form_type cu) o o'.
    Proof.
      intros OM H. unfold parse_request_body in H.
      destruct (body_wanted cu m (cu_form_mapping cu) tag_form_data [tag_form]) as [b| |] eqn:W; [|discriminate..].
      apply (wanted_form _ _ _ OM) in W. destruct b.
      - assert (WJ : wants_form m cu) by (apply W; reflexivity). unfold tag_form_data in H.
        pose proof (form_type_b cu) as FT.
        destruct (v_body cu "formData") as [vis res] eqn:V. destruct res as [[j defs]| |]; [|discriminate..].
        destruct (b_conv B j) as [s| |] eqn:CV; [|discriminate..].
        destruct (put_definitions B _ defs) as [c1 r1]. destruct r1 as [[]| |]; [|discriminate..].
        injection H as <- <- <-. change (String.eqb mime_form mime_form) with true. cbn [andb snd]. cbn [fst] in FT.
        split; [|split; [|split]].
        + intros _. split; [apply with_content_has|]. eexists. split.
          * exists j, defs, s. rewrite V. split; [reflexivity|]. split; [exact CV|reflexivity].
          * intros k FK. apply FT in FK. rewrite body_content_put, FK, String.eqb_refl. reflexivity.
        + intros k N. rewrite body_content_put.
          match goal with |- context [String.eqb k ?x] => destruct (String.eqb_spec k x) as [E|]; [|reflexivity] end.
          exfalso. apply N. split; [exact WJ|]. apply FT. exact E.
        + tauto.
        + apply with_content_desc.
      - injection H as <- <- <-. assert (NW : ~ wants_form m cu) by (intros X; apply W in X; discriminate).
        split; [tauto|]. repeat split; reflexivity.
    Qed.

    Lemma raw_put cu (o : op) : let o' := parse_raw_request_body B cu o in
      (forall k, cu_nil cu = false -> In k (v_content_tags cu) -> get k (body_content (op_body o')) = Some (plain B "")) /\
      (forall k, cu_nil cu = true \/ ~ In k (v_content_tags cu) -> get k (body_content (op_body o')) = get k (body_content (op_body o))) /\
      (cu_nil cu = true \/ v_content_tags cu = [] -> o' = o) /\
      (cu_nil cu = false -> v_content_tags cu <> [] -> has_body (op_body o')) /\
      body_desc (op_body o') = body_desc (op_body o).
    Proof.
      cbv zeta. split; [|split; [|split; [|split]]].
      - intros k N I. unfold parse_raw_request_body. rewrite N. clear N.
        revert o. induction (v_content_tags cu) as [|t l IH]; intros o; [destruct I|]. cbn [fold_left].
        destruct (in_dec string_dec k l) as [L|L]; [apply IH; exact L|].
        destruct I as [->|I]; [|contradiction].
        assert (X : forall l (o : op), ~ In k l -> get k (body_content (op_body (fold_left (fun o t => string_request_body B o t "") l o))) =
          get k (body_content (op_body o))).
        { clear. induction l as [|t l IH]; intros o N; cbn [fold_left]; [reflexivity|].
          rewrite IH by (intros X; apply N; simpl; auto). unfold string_request_body. rewrite body_content_put.
          destruct (String.eqb_spec k t) as [->|]; [exfalso; apply N; simpl; auto|reflexivity]. }
        rewrite (X _ _ L). unfold string_request_body. rewrite body_content_put, String.eqb_refl. reflexivity.
      - intros k H. apply raw_body_content. exact H.
      - unfold parse_raw_request_body. intros [->|E]; [reflexivity|]. rewrite E. destruct (cu_nil cu); reflexivity.
      - intros N E. unfold parse_raw_request_body. rewrite N. clear N. revert o E.
        induction (v_content_tags cu) as [|t l IH]; intros o E; [congruence|]. cbn [fold_left].
        destruct l as [|t' l]; [apply with_content_has|]. apply IH. discriminate.
      - unfold parse_raw_request_body. destruct (cu_nil cu); [reflexivity|].
        revert o. induction (v_content_tags cu) as [|t l IH]; intros o; cbn [fold_left]; [reflexivity|].
        rewrite IH. apply with_content_desc.
    Qed.

    (* What a unit does to the body, before the description is set. *)
    Record body_step (m : string) (cu : cunit) (o o' : op) : Prop := mkBodyStep {
      bs_gives : forall ct, body_type m cu ct -> gives B m cu ct (get ct (body_content (op_body o')));
      bs_keep : forall ct, ~ body_type m cu ct -> get ct (body_content (op_body o')) = get ct (body_content (op_body o));
      bs_has : (exists ct, body_type m cu ct) -> has_body (op_body o');
      bs_none : (forall ct, ~ body_type m cu ct) -> op_body o' = op_body o;
      bs_desc : body_desc (op_body o') = body_desc (op_body o) }.

    Lemma form_type_ex (cu : cunit) : exists ct, form_type cu ct.
    Proof.
      exists (if existsb is_file (fst (v_body cu "formData")) then mime_multipart else mime_form).
      apply form_type_b. reflexivity.
    Qed.

    Lemma form_not_json (cu : cunit) : ~ form_type cu "application/json".
    Proof. intros [(_ & X)|(_ & X)]; discriminate. Qed.

    Lemma params_body cu (a b : comps * op) r : parse_parameters B cu a = (b, r) -> op_body (snd b) = op_body (snd a).
    Proof. intros H. apply parse_parameters_fr in H. destruct H as [_ H]. exact H. Qed.

    Lemma wants_json_dec m cu c (o : op) c' o' u : openapi_method m ->
      parse_request_body B cu mime_json m false tag_json [] (c, o) = ((c', o'), Ret u) -> wants_json m cu \/ ~ wants_json m cu.
    Proof.
      intros OM H. unfold parse_request_body in H.
      destruct (body_wanted cu m false tag_json []) as [b| |] eqn:W; [|discriminate..].
      apply (wanted_json _ _ _ OM) in W. destruct b; [left; tauto|right; intros X; apply W in X; discriminate].
    Qed.

    Lemma wants_form_dec m (cu : cunit) : openapi_method m -> wants_form m cu \/ ~ wants_form m cu.
    Proof.
      intros OM. unfold wants_form, form_structure. rewrite <- (may_b m cu OM).
      destruct (_ && _)%bool; [right; intros (X & _); discriminate|].
      destruct (v_tagged cu "formData"), (v_tagged cu "form"), (cu_form_mapping cu); try (left; tauto).
      right. intros (_ & X). intuition discriminate.
    Qed.

    Lemma content_step m cu c (o : op) c' o' u : openapi_method m ->
      request_content B cu m (c, o) = ((c', o'), Ret u) -> body_step m cu o o'.
    Proof.
      intros OM H. unfold request_content in H.
      destruct (String.eqb_spec (cu_ctype cu) "") as [E0|E0].
      { match type of H with context [join_errors ?fs ?s0] => destruct (join_errors fs s0) as [[c8 o8] r8] eqn:E8 end.
        destruct r8 as [[]| |]; [|discriminate..]. injection H as <- <- <-.
        apply join_cons in E8. destruct E8 as ([c1 o1] & H1 & E).
        apply join_cons in E. destruct E as ([c2 o2] & H2 & E).
        apply join_cons in E. destruct E as ([c3 o3] & H3 & E). injection E as <- <-.
        pose proof (wants_json_dec _ _ _ _ _ _ _ OM H3) as DJ. pose proof (wants_form_dec m cu OM) as DF.
        apply form_put in H1; [|exact OM]. apply json_put in H3; [|exact OM].
        apply params_body in H2. cbn [snd] in H2.
        destruct (raw_put cu o3) as (R1 & R2 & R3 & R4 & R5).
        set (o9 := parse_raw_request_body B cu o3) in *. cbv zeta in *.
        destruct H1 as (F1 & F2 & F3 & F4). destruct H3 as (J1 & J2 & J3 & J4). rewrite H2 in J2, J3, J4.
        destruct (form_type_ex cu) as [fct FCT].
        assert (TG : forall k, cu_nil cu = false /\ In k (v_content_tags cu) \/ (cu_nil cu = true \/ ~ In k (v_content_tags cu))).
        { intros k. destruct (cu_nil cu); [auto|]. destruct (in_dec string_dec k (v_content_tags cu)); auto. }
        split.
        - intros ct BT. destruct (TG ct) as [(N & I)|N].
          + rewrite (R1 ct N I). apply gv_tag; auto.
          + rewrite (R2 ct N). destruct BT as [X|ct X Y Z|X W|ct X W FT].
            * exfalso. apply X. rewrite E0. simpl. auto.
            * exfalso. destruct N; [congruence|contradiction].
            * destruct (J1 W) as (_ & x & RB & K). rewrite (K _ eq_refl). apply gv_json; auto.
              intros _ N0. destruct N; [congruence|assumption].
            * rewrite J2; [|intros (_ & <-); exact (form_not_json cu FT)].
              destruct (F1 W) as (_ & x & RB & K). rewrite (K _ FT). apply gv_form; auto.
              intros _ N0. destruct N; [congruence|assumption].
        - intros ct NB.
          rewrite R2; [|destruct (TG ct) as [(N & I)|N]; [exfalso; apply NB, bt_tag; auto|exact N]].
          rewrite J2; [|intros (W & <-); apply NB, bt_json; [rewrite E0; simpl; auto|exact W]].
          rewrite F2; [reflexivity|]. intros (W & FT). apply NB, bt_form; [rewrite E0; simpl; auto|exact W|exact FT].
        - intros (ct & BT).
          destruct (cu_nil cu) eqn:N, (v_content_tags cu) as [|t l] eqn:TL.
          all: try (rewrite R3 by auto). 
          all: try (apply R4; [reflexivity|discriminate]).
          all: assert (X : wants_json m cu \/ wants_form m cu)
             by (destruct BT as [X|ct X Y Z|X W|ct X W FT]; auto;
                 [exfalso; apply X; rewrite E0; simpl; auto|congruence || (rewrite TL in Z; destruct Z)]).
          all: destruct DJ as [DJ|DJ]; [apply (J1 DJ)|]; rewrite (J3 DJ); destruct X as [X|X]; [contradiction|]; apply (F1 X).
        - intros NB.
          rewrite R3.
          + rewrite J3; [rewrite F3; [reflexivity|]|].
            * intros W. apply (NB fct), bt_form; [rewrite E0; simpl; auto|exact W|exact FCT].
            * intros W. apply (NB "application/json"), bt_json; [rewrite E0; simpl; auto|exact W].
          + destruct (cu_nil cu) eqn:N; [auto|]. destruct (v_content_tags cu) as [|t l] eqn:TL; [auto|].
            exfalso. apply (NB t), bt_tag; [exact E0|exact N|rewrite TL; simpl; auto].
        - congruence. }
      destruct (String.eqb_spec (cu_ctype cu) mime_json) as [E1|E1].
      { apply join_cons in H. destruct H as ([c1 o1] & H1 & H). apply join_cons in H. destruct H as ([c2 o2] & H2 & H).
        injection H as <- <-. apply params_body in H1. cbn [snd] in H1. apply json_put in H2; [|exact OM].
        destruct H2 as (J1 & J2 & J3 & J4). rewrite H1 in J2, J3, J4. unfold mime_json in E1.
        assert (BTJ : forall ct, body_type m cu ct -> ct = "application/json" /\ wants_json m cu).
        { intros ct [X|ct' X|X W|ct' X]; [exfalso; apply X; rewrite E1; simpl; auto|congruence|auto|].
          rewrite E1 in X. simpl in X. intuition discriminate. }
        split.
        - intros ct BT. destruct (BTJ _ BT) as (-> & W). destruct (J1 W) as (_ & x & RB & K). rewrite (K _ eq_refl).
          apply gv_json; [rewrite E1; simpl; auto|exact W|reflexivity|congruence|exact RB].
        - intros ct NB. apply J2. intros (W & <-). apply NB, bt_json; [rewrite E1; simpl; auto|exact W].
        - intros (ct & BT). apply BTJ in BT. apply J1, BT.
        - intros NB. apply J3. intros W. apply (NB "application/json"), bt_json; [rewrite E1; simpl; auto|exact W].
        - exact J4. }
      destruct (String.eqb (cu_ctype cu) mime_form || String.eqb (cu_ctype cu) mime_multipart)%bool eqn:E2.
      { apply join_cons in H. destruct H as ([c1 o1] & H1 & H). apply join_cons in H. destruct H as ([c2 o2] & H2 & H).
        injection H as <- <-. apply params_body in H2. cbn [snd] in H2. apply form_put in H1; [|exact OM].
        destruct H1 as (F1 & F2 & F3 & F4). rewrite <- H2 in F1, F2, F3, F4.
        destruct (form_type_ex cu) as [fct FCT].
        assert (IC : In (cu_ctype cu) [""; "application/x-www-form-urlencoded"; "multipart/form-data"]).
        { apply orb_true_iff in E2. destruct E2 as [E2|E2]; apply String.eqb_eq in E2; rewrite E2; simpl; auto. }
        assert (BTF : forall ct, body_type m cu ct -> form_type cu ct /\ wants_form m cu).
        { intros ct [X|ct' X|X W|ct' X W FT]; [exfalso; apply X; simpl in IC |- *; tauto|congruence| |auto].
          exfalso. unfold mime_json in E1. simpl in X. intuition congruence. }
        split.
        - intros ct BT. destruct (BTF _ BT) as (FT & W). destruct (F1 W) as (_ & x & RB & K). rewrite (K _ FT).
          apply gv_form; [exact IC|exact W|exact FT|congruence|exact RB].
        - intros ct NB. apply F2. intros (W & FT). apply NB, bt_form; assumption.
        - intros (ct & BT). apply BTF in BT. apply F1, BT.
        - intros NB. apply F3. intros W. apply (NB fct), bt_form; assumption.
        - exact F4. }
      injection H as <- <- <-. apply orb_false_iff in E2. destruct E2 as [E2 E3]. apply String.eqb_neq in E2, E3.
      unfold mime_json, mime_form, mime_multipart in *.
      assert (NI : ~ In (cu_ctype cu) [""; "application/json"; "application/x-www-form-urlencoded"; "multipart/form-data"]).
      { intros [X|[X|[X|[X|[]]]]]; congruence. }
      assert (BTO : forall ct, body_type m cu ct <-> ct = cu_ctype cu).
      { intros ct. split; [|intros ->; apply bt_other; exact NI].
        intros [X|ct' X|X W|ct' X W FT]; [reflexivity|congruence|exfalso; apply NI; simpl in X |- *; tauto..]. }
      split.
      - intros ct BT. apply BTO in BT. subst ct. unfold string_request_body. rewrite body_content_put, String.eqb_refl.
        apply gv_other; auto.
      - intros ct NB. unfold string_request_body. rewrite body_content_put.
        destruct (String.eqb_spec ct (cu_ctype cu)) as [->|]; [exfalso; apply NB, BTO; reflexivity|reflexivity].
      - intros _. apply with_content_has.
      - intros NB. exfalso. apply (NB (cu_ctype cu)), BTO. reflexivity.
      - apply with_content_desc.
    Qed.

    (* A whole unit: the body is described when there is one. *)
    Record unit_step (m : string) (cu : cunit) (o o' : op) : Prop := mkUnitStep {
      us_gives : forall ct, body_type m cu ct -> gives B m cu ct (get ct (body_content (op_body o')));
      us_keep : forall ct, ~ body_type m cu ct -> get ct (body_content (op_body o')) = get ct (body_content (op_body o));
      us_has : (exists ct, body_type m cu ct) -> has_body (op_body o');
      us_has_keep : has_body (op_body o) -> has_body (op_body o');
      us_has_only : has_body (op_body o') -> has_body (op_body o) \/ exists ct, body_type m cu ct;
      us_none : (forall ct, ~ body_type m cu ct) -> cu_desc cu = "" -> op_body o' = op_body o;
      us_desc : cu_desc cu <> "" -> has_body (op_body o') -> body_desc (op_body o') = Some (cu_desc cu);
      us_desc_keep : cu_desc cu = "" -> body_desc (op_body o') = body_desc (op_body o) }.

    Lemma describe_has (cu : cunit) (o : op) : has_body (op_body (describe_body cu o)) <-> has_body (op_body o).
    Proof.
      unfold describe_body, has_body. destruct (op_body o) as [[[b|] rf]|] eqn:E; cbn [rbor_body]; rewrite ?E; try tauto.
      destruct (is_empty (cu_desc cu)); rewrite ?E; [tauto|]. cbn [set_body op_body]. split; intros _; eexists; eexists; split; reflexivity.
    Qed.

    Lemma describe_desc (cu : cunit) (o : op) : cu_desc cu <> "" -> has_body (op_body o) ->
      body_desc (op_body (describe_body cu o)) = Some (cu_desc cu).
    Proof.
      intros N (x & y & E1 & E2). unfold describe_body. rewrite E1, E2.
      destruct (cu_desc cu) eqn:D; [congruence|]. reflexivity.
    Qed.

    Lemma describe_empty (cu : cunit) (o : op) : cu_desc cu = "" -> describe_body cu o = o.
    Proof. intros N. unfold describe_body. rewrite N. destruct (op_body o) as [[[b|] rf]|]; reflexivity. Qed.

    Lemma body_type_some_dec m cu c (o : op) c' o' u : openapi_method m ->
      request_content B cu m (c, o) = ((c', o'), Ret u) ->
      (exists ct, body_type m cu ct) \/ (forall ct, ~ body_type m cu ct).
    Proof.
      intros OM H.
      destruct (in_dec string_dec (cu_ctype cu) [""; "application/json"; "application/x-www-form-urlencoded"; "multipart/form-data"]) as [I|I];
        [|left; exists (cu_ctype cu); apply bt_other; exact I].
      destruct (form_type_ex cu) as [fct FCT].
      assert (DJ : In (cu_ctype cu) [""; "application/json"] -> wants_json m cu \/ ~ wants_json m cu).
      { intros X. unfold request_content in H. destruct X as [X|[X|[]]]; rewrite <- X in H.
        - change (String.eqb "" "") with true in H. cbv iota in H.
          match type of H with context [join_errors ?fs ?s0] => destruct (join_errors fs s0) as [[c8 o8] r8] eqn:E8 end.
          destruct r8 as [[]| |]; [|discriminate..].
          apply join_cons in E8. destruct E8 as ([c1 o1] & H1 & E).
          apply join_cons in E. destruct E as ([c2 o2] & H2 & E).
          apply join_cons in E. destruct E as ([c3 o3] & H3 & E). eapply wants_json_dec; eauto.
        - change (String.eqb "application/json" "") with false in H. change (String.eqb "application/json" mime_json) with true in H.
          cbv iota in H. apply join_cons in H. destruct H as ([c1 o1] & H1 & H). apply join_cons in H. destruct H as ([c2 o2] & H2 & H).
          eapply wants_json_dec; eauto. }
      pose proof (wants_form_dec m cu OM) as DF.
      assert (FORM : In (cu_ctype cu) [""; "application/x-www-form-urlencoded"; "multipart/form-data"] -> wants_form m cu ->
        exists ct, body_type m cu ct) by (intros X W; exists fct; apply bt_form; auto).
      assert (JSON : In (cu_ctype cu) [""; "application/json"] -> wants_json m cu ->
        exists ct, body_type m cu ct) by (intros X W; exists "application/json"; apply bt_json; auto).
      destruct (in_dec string_dec (cu_ctype cu) [""; "application/json"]) as [I1|I1].
      - destruct (DJ I1) as [W|W]; [left; auto|].
        destruct (string_dec (cu_ctype cu) "") as [E|E].
        + destruct DF as [DF|DF]; [left; apply FORM; [rewrite E; simpl; auto|exact DF]|].
          destruct (cu_nil cu) eqn:N.
          * right. intros ct [X|ct' X Y Z|X Y|ct' X Y Z]; [tauto|congruence|tauto|tauto].
          * destruct (v_content_tags cu) as [|t l] eqn:TL.
            -- right. intros ct [X|ct' X Y Z|X Y|ct' X Y Z]; [tauto|rewrite TL in Z; destruct Z|tauto|tauto].
            -- left. exists t. apply bt_tag; [exact E|exact N|rewrite TL; simpl; auto].
        + right. intros ct [X|ct' X Y Z|X Y|ct' X Y Z]; [tauto|congruence|tauto|].
          simpl in I1, X. destruct I1 as [I1|[I1|[]]]; [congruence|]. rewrite <- I1 in X. intuition discriminate.
      - destruct DF as [DF|DF].
        + left. apply FORM; [|exact DF]. simpl in I, I1 |- *. tauto.
        + right. intros ct [X|ct' X Y Z|X Y|ct' X Y Z]; [tauto|apply I1; rewrite X; simpl; auto|tauto|tauto].
    Qed.

    Lemma request_unit_step m cu c (o : op) c' o' u : openapi_method m -> cu_custom_req cu = None ->
      request_unit B cu m (c, o) = ((c', o'), Ret u) -> unit_step m cu o o'.
    Proof.
      intros OM NC H. unfold request_unit in H.
      destruct (request_content B cu m (c, o)) as [[c1 o1] r1] eqn:E. destruct r1 as [[]| |]; [|discriminate..].
      injection H as <- <- <-.
      pose proof (body_type_some_dec _ _ _ _ _ _ _ OM E) as DEC.
      apply content_step in E; [|exact OM]. destruct E as [G K HB NB DS].
      assert (CB : customize_body cu (describe_body cu o1) = describe_body cu o1) by (unfold customize_body; rewrite NC; reflexivity).
      assert (DC : forall k, get k (body_content (op_body (customize_body cu (describe_body cu o1)))) = get k (body_content (op_body o1)))
        by (intros k; apply describe_content; exact NC).
      split; rewrite ?CB.
      - intros ct BT. rewrite <- CB, DC. apply G. exact BT.
      - intros ct BT. rewrite <- CB, DC. apply K. exact BT.
      - intros X. apply describe_has, HB, X.
      - intros X. apply describe_has. destruct DEC as [D|D]; [apply HB, D|]. rewrite (NB D). exact X.
      - intros X. apply (proj1 (describe_has _ _)) in X. destruct DEC as [D|D]; [auto|]. rewrite (NB D) in X. auto.
      - intros X Y. rewrite describe_empty by exact Y. apply NB, X.
      - intros X Y. apply (proj1 (describe_has _ _)) in Y. apply describe_desc; assumption.
      - intros X. rewrite describe_empty by exact X. exact DS.
    Qed.

    Inductive unit_steps (m : string) : list cunit -> op -> op -> Prop :=
    | st_nil o : unit_steps m [] o o
    | st_cons cu l o o1 o2 : unit_step m cu o o1 -> unit_steps m l o1 o2 -> unit_steps m (cu :: l) o o2.

    Lemma setup_request_steps m l : openapi_method m -> (forall cu, In cu l -> cu_custom_req cu = None) ->
      forall c (o : op) c' o' u, setup_request B l m (c, o) = ((c', o'), Ret u) -> unit_steps m l o o'.
    Proof.
      intros OM. induction l as [|cu l IH]; intros NC c o c' o' u H; cbn [setup_request] in H.
      - injection H as <- <- <-. constructor.
      - destruct (request_unit B cu m (c, o)) as [[c1 o1] [[]| |]] eqn:E; [|discriminate..].
        econstructor; [eapply request_unit_step; eauto; apply NC; simpl; auto|].
        eapply IH; eauto. intros x I. apply NC. simpl. auto.
    Qed.

    Lemma steps_app m l1 l2 (o o' : op) : unit_steps m (l1 ++ l2) o o' ->
      exists o1, unit_steps m l1 o o1 /\ unit_steps m l2 o1 o'.
    Proof.
      revert o. induction l1 as [|cu l1 IH]; intros o H; cbn [app] in H.
      - exists o. split; [constructor|exact H].
      - inversion H as [|x y z o1 w H1 H2]; subst. destruct (IH _ H2) as (p & P & Q). exists p. split; [econstructor; eauto|exact Q].
    Qed.

    Lemma steps_keep m l (o o' : op) ct : unit_steps m l o o' -> (forall cu, In cu l -> ~ body_type m cu ct) ->
      get ct (body_content (op_body o')) = get ct (body_content (op_body o)).
    Proof.
      induction 1 as [o|cu l o o1 o2 S _ IH]; intros N; [reflexivity|].
      rewrite IH by (intros x I; apply N; simpl; auto). apply (us_keep _ _ _ _ S). apply N. simpl. auto.
    Qed.

    Lemma steps_last m l1 cu l2 (o o' : op) ct : unit_steps m (l1 ++ cu :: l2) o o' -> body_type m cu ct ->
      (forall x, In x l2 -> ~ body_type m x ct) -> gives B m cu ct (get ct (body_content (op_body o'))).
    Proof.
      intros H BT N. apply steps_app in H. destruct H as (o1 & _ & H). inversion H as [|x y z o2 w H1 H2]; subst.
      rewrite (steps_keep _ _ _ _ ct H2 N). apply (us_gives _ _ _ _ H1). exact BT.
    Qed.

    Lemma steps_has m l (o o' : op) : unit_steps m l o o' ->
      (has_body (op_body o') <-> has_body (op_body o) \/ exists cu ct, In cu l /\ body_type m cu ct).
    Proof.
      induction 1 as [o|cu l o o1 o2 S _ IH].
      - split; [auto|]. intros [H|(cu & ct & [] & _)]. exact H.
      - rewrite IH. split.
        + intros [H|(x & ct & I & T)]; [|right; exists x, ct; simpl; auto].
          apply (us_has_only _ _ _ _ S) in H. destruct H as [H|(ct & H)]; [auto|right; exists cu, ct; simpl; auto].
        + intros [H|(x & ct & [<-|I] & T)].
          * left. apply (us_has_keep _ _ _ _ S). exact H.
          * left. apply (us_has _ _ _ _ S). eauto.
          * right. eauto.
    Qed.

    Lemma steps_desc_keep m l (o o' : op) : unit_steps m l o o' -> (forall cu, In cu l -> cu_desc cu = "") ->
      body_desc (op_body o') = body_desc (op_body o).
    Proof.
      induction 1 as [o|cu l o o1 o2 S _ IH]; intros N; [reflexivity|].
      rewrite IH by (intros x I; apply N; simpl; auto). apply (us_desc_keep _ _ _ _ S). apply N. simpl. auto.
    Qed.

    Lemma steps_desc m l1 cu l2 (o o' : op) : unit_steps m (l1 ++ cu :: l2) o o' -> cu_desc cu <> "" ->
      (forall x, In x l2 -> cu_desc x = "") ->
      has_body (op_body o) \/ (exists x ct, In x (l1 ++ [cu]) /\ body_type m x ct) ->
      body_desc (op_body o') = Some (cu_desc cu).
    Proof.
      intros H D L HB. replace (l1 ++ cu :: l2) with ((l1 ++ [cu]) ++ l2) in H by (rewrite <- app_assoc; reflexivity).
      apply steps_app in H. destruct H as (o2 & H1 & H2).
      rewrite (steps_desc_keep _ _ _ _ H2 L).
      assert (HB2 : has_body (op_body o2)) by (apply (steps_has _ _ _ _ H1); exact HB).
      apply steps_app in H1. destruct H1 as (o1 & _ & H1). inversion H1 as [|x y z o3 w S N]; subst.
      inversion N; subst. apply (us_desc _ _ _ _ S); assumption.
    Qed.

    Lemma steps_none m l (o o' : op) : unit_steps m l o o' ->
      (forall cu, In cu l -> (forall ct, ~ body_type m cu ct) /\ cu_desc cu = "") -> op_body o' = op_body o.
    Proof.
      induction 1 as [o|cu l o o1 o2 S _ IH]; intros N; [reflexivity|].
      rewrite IH by (intros x I; apply N; simpl; auto).
      destruct (N cu (or_introl eq_refl)). apply (us_none _ _ _ _ S); assumption.
    Qed.
  End Op.

  (* ---------- documented operations ---------- *)

  Section Doc.
    Variables (cl : call J Sch) (v : view Sch).
    Hypothesis D : documented B cl v.
    Notation before := (vw_responses (c_view cl)).
    Notation after := (vw_responses v).

    Let C : core B cl v.
    Proof. apply documented_core. exact D. Qed.

    Lemma resp_content (rs : responses) k : rs_content (resp_at rs k) = content_before rs k.
    Proof. unfold content_before, resp_at. destruct (inline_at rs k); reflexivity. Qed.
    Lemma resp_headers (rs : responses) k : rs_headers (resp_at rs k) = headers_before rs k.
    Proof. unfold headers_before, resp_at. destruct (inline_at rs k); reflexivity. Qed.

    Lemma doc_units k l : units_of k (c_resp cl) l -> l <> [] -> (forall cu, In cu l -> cu_custom_resp cu = None) ->
      fills B (c_method cl) l (resp_at before k) (resp_at after k).
    Proof.
      intros U NE NC. apply units_filter in U.
      assert (NC' : forall x, In x (c_resp cl) -> files_under x k -> cu_custom_resp x = None).
      { intros x I FU. apply NC. rewrite <- U. apply in_filter_under. auto. }
      destruct (doc_fills _ _ _ k C NC') as [F _]; [left; destruct (c_resp cl); [subst; simpl in NE; congruence|discriminate]|].
      rewrite U in F. exact F.
    Qed.

    Lemma doc_media k l : units_of k (c_resp cl) l -> l <> [] -> c_method cl <> "head" ->
      (forall cu, In cu l -> cu_custom_resp cu = None) -> forall ct,
      responses_media B ct l (get ct (content_before before k)) (get ct (content_before after k)).
    Proof.
      intros U NE NH NC ct. pose proof (doc_units _ _ U NE NC) as F.
      apply (fills_media _ _ _ _ (core_method _ _ _ C) NH) with (ct := ct) in F. rewrite !resp_content in F. exact F.
    Qed.

    Lemma doc_header k l1 cu l2 : units_of k (c_resp cl) (l1 ++ cu :: l2) ->
      (forall x, In x (l1 ++ cu :: l2) -> cu_custom_resp x = None) ->
      cu_nil cu = false -> (forall x, In x l2 -> cu_nil x = true) -> forall n,
      (forall q, last_named (fst (v_headers cu)) n q ->
         exists h, get n (headers_before after k) = Some h /\ renders_header B q h) /\
      ((forall q, In q (fst (v_headers cu)) -> considered q = true -> pr_name q <> n) ->
         get n (headers_before after k) = None).
    Proof.
      intros U NC N L n.
      assert (NE : l1 ++ cu :: l2 <> []) by (destruct l1; discriminate).
      pose proof (doc_units _ _ U NE NC) as F. apply fills_app in F. destruct F as (r1 & _ & F).
      apply fills_cons_inv in F. destruct F as (r2 & c & c' & F1 & F2).
      rewrite <- resp_headers. rewrite (fills_headers_same _ _ B _ _ _ _ (core_method _ _ _ C) F2 L).
      eapply fill_headers; eauto.
    Qed.

    Hypothesis NC : forall cu, In cu (c_req cl) -> cu_custom_req cu = None.

    Lemma doc_steps : exists R (o o1 : operation Sch R), unit_steps (c_method cl) (c_req cl) o o1 /\
      op_body o = vw_body (c_view cl) /\ op_body o1 = vw_body v.
    Proof.
      destruct (core_req _ _ _ C) as (R & o & o1 & c & c1 & E & _ & Q & _ & _ & Q1 & _).
      exists R, o, o1. split; [|auto]. eapply setup_request_steps; eauto. apply (core_method _ _ _ C).
    Qed.

    Lemma doc_body_gives l1 cu l2 ct : c_req cl = l1 ++ cu :: l2 -> body_type (c_method cl) cu ct ->
      (forall x, In x l2 -> ~ body_type (c_method cl) x ct) ->
      gives B (c_method cl) cu ct (get ct (body_content (vw_body v))).
    Proof.
      intros E BT N. destruct doc_steps as (R & o & o1 & S & Q & Q1). rewrite <- Q1. rewrite E in S.
      eapply steps_last; eauto.
    Qed.

    Lemma doc_body_keep ct : (forall x, In x (c_req cl) -> ~ body_type (c_method cl) x ct) ->
      get ct (body_content (vw_body v)) = get ct (body_content (vw_body (c_view cl))).
    Proof.
      intros N. destruct doc_steps as (R & o & o1 & S & Q & Q1). rewrite <- Q1, <- Q. eapply steps_keep; eauto.
    Qed.

    Lemma doc_body_has : has_body (vw_body v) <->
      has_body (vw_body (c_view cl)) \/ exists cu ct, In cu (c_req cl) /\ body_type (c_method cl) cu ct.
    Proof. destruct doc_steps as (R & o & o1 & S & Q & Q1). rewrite <- Q1, <- Q. eapply steps_has; eauto. Qed.

    Lemma doc_body_none : (forall cu, In cu (c_req cl) -> (forall ct, ~ body_type (c_method cl) cu ct) /\ cu_desc cu = "") ->
      vw_body v = vw_body (c_view cl).
    Proof. destruct doc_steps as (R & o & o1 & S & Q & Q1). rewrite <- Q1, <- Q. eapply steps_none; eauto. Qed.

    Lemma doc_body_desc l1 cu l2 : c_req cl = l1 ++ cu :: l2 -> cu_desc cu <> "" ->
      (forall x, In x l2 -> cu_desc x = "") ->
      has_body (vw_body (c_view cl)) \/ (exists x ct, In x (l1 ++ [cu]) /\ body_type (c_method cl) x ct) ->
      body_desc (vw_body v) = Some (cu_desc cu).
    Proof.
      intros E N L HB. destruct doc_steps as (R & o & o1 & S & Q & Q1). rewrite <- Q1. rewrite <- Q in HB. rewrite E in S.
      eapply steps_desc; eauto.
    Qed.

    Lemma doc_body_desc_keep : (forall x, In x (c_req cl) -> cu_desc x = "") ->
      body_desc (vw_body v) = body_desc (vw_body (c_view cl)).
    Proof.
      intros N. destruct doc_steps as (R & o & o1 & S & Q & Q1). rewrite <- Q1, <- Q. eapply steps_desc_keep; eauto.
    Qed.
  End Doc.
End Proofs.
