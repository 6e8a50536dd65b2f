(* Where the schemas of documented operations come from; components stay closed. *)
From Coq Require Import ZArith Lia.
From Verif Require Import Str SMap Json PathModel PathSpec PathProofs PathProps Types RegistryModel RegistrySpec RegistryProofs
  ReflectModel ReflectSpec ReflectProofs ReflectProofs2 ReflectComps ReflectProps BodySpec BodyProofs BodyComps BodyProps RefSpec.

Lemma In_put {A} k (x : A) m k' y : In (k', y) (put k x m) -> y = x \/ In (k', y) m.
Proof.
  induction m as [|[k0 x0] m IH]; cbn [put].
  - intros [E|[]]. left. congruence.
  - destruct (String.eqb k k0).
    + intros [E|I]; [left; congruence|right; right; exact I].
    + intros [E|I]; [right; left; exact E|]. destruct (IH I) as [E|I']; [left; exact E|right; right; exact I'].
Qed.

Section Origin.
  Context {J Sch : Type}.
  Variable B : backend J Sch.
  Notation cunit := (cunit J Sch).
  Notation comps := (smap Sch).
  Variable P : Sch -> Prop.

  Lemma media_put m k x : (forall s, media_shows m s -> P s) -> (forall s, mt_schema x = Some s -> P s) ->
    forall s, media_shows (put k x m) s -> P s.
  Proof.
    intros H X s (k' & y & I & E). apply In_put in I. destruct I as [->|I]; [exact (X s E)|]. apply H. exists k', y. auto.
  Qed.
  Lemma media_nil s : media_shows (Sch := Sch) [] s -> P s.
  Proof. intros (k & x & [] & _). Qed.

  Section Op.
    Context {R : Type}.
    Notation op := (operation Sch R).
    Notation st := (comps * op)%type.
    Definition bok (o : op) : Prop := forall x s, op_body o = Some x -> body_shows x s -> P s.
    Definition bkeep (a b : st) : Prop := bok (snd a) -> bok (snd b).
    Lemma bkeep_refl a : bkeep a a. Proof. intros H. exact H. Qed.
    Lemma bkeep_trans a b c : bkeep a b -> bkeep b c -> bkeep a c. Proof. intros H1 H2 H. auto. Qed.

    Lemma with_content_bok (o : op) mime s : P s -> bok o -> bok (with_body_content o mime (mkMedia (Some s) JNull)).
    Proof.
      intros Ps I x t E (b & Eb & S). unfold with_body_content in E. cbn [set_body op_body] in E. injection E as <-.
      cbn [rbor_body] in Eb. injection Eb as <-. cbn [rb_content] in S. revert t S. apply media_put.
      - destruct (op_body o) as [x|] eqn:OB; [|cbn [rbor_body rb_content]; intros t; apply media_nil].
        destruct (rbor_body x) as [b|] eqn:Eb; [|cbn [rb_content]; intros t; apply media_nil].
        intros t M. apply (I x t OB). exists b. auto.
      - intros t E. injection E as <-. exact Ps.
    Qed.

    Lemma request_unit_bok m cu (a : st) b u : openapi_method m ->
      (forall f, f = "" \/ f = cu_format cu -> P (b_string B f)) ->
      (forall j defs s, In (cu_ctype cu) [""; "application/json"] -> wants_json m cu ->
         snd (v_body cu "json") = Ret (j, defs) -> b_conv B j = Ret s -> P s) ->
      (forall j defs s, In (cu_ctype cu) [""; "application/x-www-form-urlencoded"; "multipart/form-data"] -> wants_form m cu ->
         snd (v_body cu "formData") = Ret (j, defs) -> b_conv B j = Ret s -> P s) ->
      (forall f x s, cu_custom_req cu = Some f -> body_shows (f x) s -> body_shows x s) ->
      request_unit B cu m a = (b, Ret u) -> bkeep a b.
    Proof.
      intros OM HT HJ HF HC H. unfold request_unit in H. destruct (request_content B cu m a) as [[c1 o1] r1] eqn:E.
      destruct r1 as [[]| |]; [|discriminate..]. injection H as <- _.
      assert (PP : forall (s s' : st) r', parse_parameters B cu s = (s', r') -> bkeep s s').
      { intros s s' r' H I x t X. apply parse_parameters_fr in H. destruct H as [_ H]. apply (I x t).
        exact (eq_trans (eq_sym H) X). }
      assert (PB : forall mime mp tag more, (body_wanted cu m mp tag more = Ret true -> forall j defs s,
          snd (v_body cu tag) = Ret (j, defs) -> b_conv B j = Ret s -> P s) ->
          forall (s s' : st) r', parse_request_body B cu mime m mp tag more s = (s', r') -> bkeep s s').
      { intros mime mp tag more W [c o] s' r' H. unfold parse_request_body in H. cbn [fst snd] in H.
        destruct (body_wanted _ _ _ _ _) as [[]| |]; [|injection H as <- <-; apply bkeep_refl..].
        specialize (W eq_refl). destruct (v_body cu tag) as [vis res]. cbn [snd] in W.
        destruct res as [[j defs]| |]; [|injection H as <- <-; apply bkeep_refl..].
        destruct (b_conv B j) as [s| |] eqn:CV; [|injection H as <- <-; apply bkeep_refl..].
        destruct (put_definitions B c defs) as [c2 r2]. destruct r2 as [[]| |]; injection H as <- <-; try (intros X; exact X).
        intros I. apply with_content_bok; [exact (W _ _ _ eq_refl CV)|exact I]. }
      assert (WJ : In (cu_ctype cu) [""; "application/json"] -> body_wanted cu m false tag_json [] = Ret true -> forall j defs s,
          snd (v_body cu tag_json) = Ret (j, defs) -> b_conv B j = Ret s -> P s).
      { intros IC BW j defs s. apply HJ; [exact IC|]. apply (proj1 (wanted_json m cu true OM BW)). reflexivity. }
      assert (WF : In (cu_ctype cu) [""; "application/x-www-form-urlencoded"; "multipart/form-data"] ->
          body_wanted cu m (cu_form_mapping cu) tag_form_data [tag_form] = Ret true -> forall j defs s,
          snd (v_body cu tag_form_data) = Ret (j, defs) -> b_conv B j = Ret s -> P s).
      { intros IC BW j defs s. apply HF; [exact IC|]. apply (proj1 (wanted_form m cu true OM BW)). reflexivity. }
      assert (K : bkeep a (c1, o1)).
      { unfold request_content in E. destruct (String.eqb_spec (cu_ctype cu) "") as [CE|CE].
        - match type of E with context [join_errors ?fs ?s0] => destruct (join_errors fs s0) as [[c2 o2] r2] eqn:E2 end.
          apply (join_rel _ bkeep_refl bkeep_trans) in E2;
            [|repeat apply Forall_cons; try apply Forall_nil; [apply PB, WF|exact PP|apply PB, WJ]; rewrite CE; left; reflexivity].
          destruct r2 as [[]| |]; injection E as <- <-; try discriminate. intros I. specialize (E2 I). cbn [snd] in *.
          unfold parse_raw_request_body. destruct (cu_nil cu); [exact E2|]. clear I. revert o2 E2.
          induction (v_content_tags cu) as [|t l IH]; intros o2 E2; cbn [fold_left]; [exact E2|]. apply IH.
          apply with_content_bok; [apply HT; auto|exact E2].
        - destruct (String.eqb_spec (cu_ctype cu) mime_json) as [CJ|CJ].
          + eapply (join_rel _ bkeep_refl bkeep_trans); [|exact E]. repeat apply Forall_cons; try apply Forall_nil; [exact PP|apply PB, WJ].
            rewrite CJ. right. left. reflexivity.
          + destruct (_ || _)%bool eqn:CF.
            * eapply (join_rel _ bkeep_refl bkeep_trans); [|exact E]. repeat apply Forall_cons; try apply Forall_nil; [apply PB, WF|exact PP].
              apply orb_true_iff in CF. rewrite !String.eqb_eq in CF. destruct CF as [-> | ->]; cbn [In]; auto.
            * destruct a as [c o]. injection E as <- <-. intros I. apply with_content_bok; [apply HT; auto|exact I]. }
      intros I. specialize (K I). cbn [snd] in *.
      assert (K2 : bok (describe_body cu o1)).
      { unfold describe_body. destruct (op_body o1) as [rb|] eqn:OB; [|exact K]. destruct (rbor_body rb) as [bd|] eqn:RB; [|exact K].
        destruct (Str.is_empty (cu_desc cu)); [exact K|]. intros x s X (b0 & Eb & S). cbn [set_body op_body] in X. injection X as <-.
        cbn [rbor_body] in Eb. injection Eb as <-. cbn [rb_content] in S. apply (K rb s OB). exists bd. auto. }
      unfold customize_body. destruct (cu_custom_req cu) as [f|] eqn:CF; [|exact K2].
      destruct (op_body (describe_body cu o1)) as [rb|] eqn:OB; [|exact K2].
      intros x s X S. cbn [set_body op_body] in X. injection X as <-. apply (K2 rb s OB). exact (HC f rb s eq_refl S).
    Qed.
  End Op.

  (* ---------- responses ---------- *)

  Notation pst := (comps * response Sch)%type.
  Definition rok (r : response Sch) : Prop :=
    (forall s, media_shows (rs_content r) s -> P s) /\ forall s, headers_show (rs_headers r) s -> P s.
  Definition rkeep (a b : pst) : Prop := rok (snd a) -> rok (snd b).
  Lemma rkeep_refl a : rkeep a a. Proof. intros H. exact H. Qed.
  Lemma rkeep_trans a b c : rkeep a b -> rkeep b c -> rkeep a c. Proof. intros H1 H2 H. auto. Qed.

  Lemma rok_fill_desc d r : rok r -> rok (fill_desc d r).
  Proof. intros H. unfold fill_desc. destruct d; [|exact H]. destruct (Str.is_empty _); exact H. Qed.
  Lemma rok_put_media ct m r : (forall s, mt_schema m = Some s -> P s) -> rok r -> rok (set_content r (put ct m (rs_content r))).
  Proof. intros M (C & H). split; [|exact H]. cbn [set_content rs_content]. apply media_put; assumption. Qed.
  Lemma rok_ensure ct f r : P (b_string B f) -> rok r -> rok (ensure_content_type B r ct f).
  Proof.
    intros Ps H. unfold ensure_content_type. destruct (has _ _); [exact H|]. apply rok_put_media; [|exact H].
    intros s E. injection E as <-. exact Ps.
  Qed.

  Section Unit.
    Variable m : string.
    Variable cu : cunit.
    Hypothesis OM : openapi_method m.
    Hypothesis HT : forall f, f = "" \/ f = cu_format cu -> P (b_string B f).
    Hypothesis HJ : forall j s, m <> "head" -> cu_nil cu = false -> v_has_json cu <> Ret false ->
      snd (v_json cu) = Ret j -> b_conv B j = Ret s -> P (b_unnull B s).
    Hypothesis HH : forall q s, cu_nil cu = false -> In q (fst (v_headers cu)) -> considered q = true ->
      b_conv B (pr_schema q) = Ret s -> P s.
    Hypothesis HC : forall f x s, cu_custom_resp cu = Some f -> response_shows (f x) s -> response_shows x s.

    Lemma rok_raw r : rok r -> rok (parse_raw_response_body B cu r).
    Proof.
      unfold parse_raw_response_body. destruct (cu_nil cu); [auto|]. revert r.
      induction (v_content_tags cu) as [|t l IH]; intros r H; cbn [fold_left]; [exact H|]. apply IH. unfold raw_content.
      destruct (b_v31 B); [|apply rok_ensure; [apply HT; auto|exact H]]. apply rok_put_media; [|exact H].
      intros s E. injection E as <-. apply HT. auto.
    Qed.

    Lemma json_rkeep ct (a b : pst) r : m <> "head" -> parse_json_response B cu ct a = (b, r) -> rkeep a b.
    Proof.
      intros MH. destruct a as [c x]. unfold parse_json_response. intros H.
      destruct (cu_nil cu) eqn:NC; [injection H as <- <-; apply rkeep_refl|].
      assert (K : v_has_json cu <> Ret false -> (let (defs, res) := v_json cu in
            match collect_all B c defs with
            | (c, Ret _) =>
                match res with
                | Err => ((c, x), Err)
                | ReflectModel.Panic => ((c, x), ReflectModel.Panic)
                | Ret j =>
                    match b_conv B j with
                    | Err => ((c, x), Err)
                    | ReflectModel.Panic => ((c, x), ReflectModel.Panic)
                    | Ret s =>
                        let s := b_unnull B s in
                        let ct := if Str.is_empty ct then mime_json else ct in
                        let rest := match get ct (rs_content x) with Some m => mt_rest m | None => JNull end in
                        let r := set_content x (put ct (mkMedia (Some s) rest) (rs_content x)) in
                        ((c, fill_desc (b_desc B j) r), Ret tt)
                    end
                end
            | (c, _) => ((c, x), ReflectModel.Panic)
            end) = (b, r) -> rkeep (c, x) b).
      { clear H. intros VH. assert (HJ' := fun j s => HJ j s MH eq_refl VH). destruct (v_json cu) as [defs res]. cbn [snd] in HJ'.
        destruct (collect_all B c defs) as [c1 r1].
        destruct r1 as [[]| |]; [|intros H; injection H as <- <-; exact (fun Y => Y)..].
        destruct res as [j| |]; [|intros H; injection H as <- <-; exact (fun Y => Y)..].
        destruct (b_conv B j) as [s| |] eqn:CV; [|intros H; injection H as <- <-; exact (fun Y => Y)..].
        cbv zeta. intros H. injection H as <- <-. intros G. cbn [snd] in *. apply rok_fill_desc. apply rok_put_media; [|exact G].
        intros t E. injection E as <-. exact (HJ' j s eq_refl CV). }
      destruct (v_has_json cu) as [[]| |] eqn:VH;
        [exact (K ltac:(discriminate) H)|injection H as <- <-; apply rkeep_refl|exact (K ltac:(discriminate) H)|injection H as <- <-; apply rkeep_refl].
    Qed.

    Lemma headers_rkeep (a b : pst) r : parse_response_header B cu a = (b, r) -> rkeep a b.
    Proof.
      destruct a as [c x]. unfold parse_response_header. destruct (cu_nil cu) eqn:NC; [intros H; injection H as <- <-; apply rkeep_refl|].
      assert (HH' := fun q s => HH q s eq_refl). destruct (v_headers cu) as [qs fin]. cbn [fst] in HH'.
      assert (K : forall l res, incl l qs -> (forall s, headers_show res s -> P s) -> forall s, headers_show (fst (run_headers B l res)) s -> P s).
      { induction l as [|q l IH]; intros res I E; cbn [run_headers]; [exact E|].
        destruct (header_callback B q res) as [res' r'] eqn:HB.
        assert (E' : forall s, headers_show res' s -> P s).
        { unfold header_callback in HB. destruct (negb (pr_processed q) || (1 <? pr_depth q))%bool eqn:CQ; [injection HB as <- <-; exact E|].
          destruct (b_conv B (pr_schema q)) as [s| |] eqn:CV; [|injection HB as <- <-; exact E..].
          destruct (b_deprecated B (pr_schema q) s); [|injection HB as <- <-; exact E..].
          destruct (pr_tags q); [|injection HB as <- <-; exact E..]. injection HB as <- <-.
          intros t (k & h & Ih & Eh). apply In_put in Ih. destruct Ih as [->|Ih]; [|apply E; exists k, h; auto].
          cbn [h_schema] in Eh. injection Eh as <-. apply (HH' q); [apply I; left; reflexivity| |exact CV].
          unfold considered. apply orb_false_iff in CQ. destruct CQ as [C1 C2]. apply negb_false_iff in C1. rewrite C1.
          apply Nat.ltb_ge in C2. apply Nat.leb_le in C2. rewrite C2. reflexivity. }
        destruct r' as [[]| |]; [|exact E'..]. apply IH; [|exact E']. intros y Y. apply I. right. exact Y. }
      assert (N : forall s, headers_show (Sch := Sch) [] s -> P s) by (intros s (k & h & [] & _)).
      specialize (K qs [] (fun y Y => Y) N). destruct (run_headers B qs []) as [res r1]. cbn [fst] in K.
      destruct r1 as [[]| |]; [|intros H; injection H as <- <-; exact (fun Y => Y)..].
      destruct fin as [d| |]; intros H; injection H as <- <-; try exact (fun Y => Y).
      intros (C & _). cbn [snd] in *. apply rok_fill_desc. split; [exact C|exact K].
    Qed.

    Lemma fill_rkeep (a b : pst) r : fill_response B cu m a = (b, r) -> rkeep a b.
    Proof.
      unfold fill_response. cbv zeta.
      match goal with |- (match ?f with _ => _ end) = _ -> _ => destruct f as [[c1 r1] u] eqn:F end.
      assert (K : rkeep a (c1, r1)).
      { destruct (negb (String.eqb (to_upper m) "HEAD")) eqn:MH in F.
        - assert (NH : m <> "head") by (intros ->; discriminate MH).
          match type of F with context [join_errors ?fs ?s0] => destruct (join_errors fs s0) as [[c2 o2] r2] eqn:E2 end.
          apply (join_rel _ rkeep_refl rkeep_trans) in E2.
          + destruct r2 as [[]| |]; injection F as <- <- <-; try exact E2. intros G. specialize (E2 G). cbn [snd] in *.
            apply rok_raw in E2. destruct (Str.is_empty _); [exact E2|]. apply rok_ensure; [apply HT; auto|exact E2].
          + repeat apply Forall_cons; try apply Forall_nil; intros s s' r'; [apply json_rkeep; exact NH|apply headers_rkeep].
        - exact (headers_rkeep _ _ _ F). }
      destruct u as [[]| |]; intros H; injection H as <- <-; try exact K. intros G. specialize (K G). cbn [snd] in *. clear F.
      assert (K2 : rok (if Str.is_empty (cu_desc cu) then r1 else set_desc r1 (cu_desc cu))) by (destruct (Str.is_empty (cu_desc cu)); exact K).
      match goal with |- rok (if ?b then _ else _) => destruct b end; exact K2.
    Qed.

    Definition rsok (rs : responses Sch) : Prop := forall s, responses_show rs s -> P s.

    Lemma rok_zero : rok zero_response.
    Proof. split; [apply media_nil|]. intros s (k & h & [] & _). Qed.

    Lemma response_rkeep c rs c' rs' u : response_unit B cu m (c, rs) = ((c', rs'), Ret u) -> rsok rs -> rsok rs'.
    Proof.
      intros H G. unfold response_unit in H. cbv zeta in H.
      destruct (fill_response B cu m (c, match current_response cu (ensure_default cu rs) with Some r => r | None => zero_response end)) as [[c1 r1] u1] eqn:F.
      destruct u1 as [[]| |]; [|discriminate..]. injection H as <- <- _.
      assert (RX : forall x r, (rs_default rs = Some x \/ exists k, In (k, x) (rs_map rs)) -> ror_resp x = Some r -> rok r).
      { intros x r I E. split; intros s S; apply G; exists x; (split; [exact I|]); exists r; auto. }
      assert (G0 : rok (match current_response cu (ensure_default cu rs) with Some r => r | None => zero_response end)).
      { unfold current_response, ensure_default. destruct (cu_default cu) eqn:CD; rewrite ?CD.
        - destruct (rs_default rs) as [x|] eqn:E; [|exact rok_zero]. rewrite E. destruct (ror_resp x) as [r|] eqn:ER; [|exact rok_zero].
          exact (RX x r (or_introl eq_refl) ER).
        - destruct (get _ (rs_map rs)) as [x|] eqn:E; [|exact rok_zero]. destruct (ror_resp x) as [r|] eqn:ER; [|exact rok_zero].
          apply (RX x r); [right; eexists; apply get_In; exact E|exact ER]. }
      apply fill_rkeep in F. specialize (F G0). cbn [snd] in F.
      set (y := match cu_custom_resp cu with Some f => f (mkRor (Some r1) None) | None => mkRor (Some r1) None end).
      assert (GX : forall s, response_shows y s -> P s).
      { assert (X : forall s, response_shows (mkRor (Some r1) None) s -> P s).
        { intros s (r & E & S). cbn [ror_resp] in E. injection E as <-. destruct F as [F1 F2]. destruct S; auto. }
        unfold y. destruct (cu_custom_resp cu) as [f|] eqn:CF; [|exact X]. intros s S. apply X. exact (HC f _ s eq_refl S). }
      clearbody y. intros s (x & I & S). unfold store_response, ensure_default in I. destruct (cu_default cu) eqn:CD; rewrite ?CD in I.
      - assert (E : rs_map (match rs_default rs with Some _ => rs | None => mkResps (Some (mkRor None None)) (rs_map rs) end) = rs_map rs)
          by (destruct (rs_default rs); reflexivity). rewrite E in I. cbn [rs_default rs_map] in I.
        destruct I as [X|(k & X)]; [injection X as <-; exact (GX s S)|]. apply G. exists x. split; [right; eauto|exact S].
      - cbn [rs_default rs_map] in I. destruct I as [X|(k & X)]; [apply G; exists x; auto|].
        apply In_put in X. destruct X as [->|X]; [exact (GX s S)|]. apply G. exists x. split; [right; eauto|exact S].
    Qed.
  End Unit.
End Origin.

Lemma Forall2_In_r {A C} (Q : A -> C -> Prop) l l' y : Forall2 Q l l' -> In y l' -> exists x, In x l /\ Q x y.
Proof.
  intros F. induction F as [|a c l l' H F IH]; intros I; [destruct I|]. destruct I as [<-|I]; [exists a; split; [left; reflexivity|exact H]|].
  destruct (IH I) as (x & Ix & Qx). exists x. split; [right; exact Ix|exact Qx].
Qed.

Section Documented.
  Context {J Sch : Type}.
  Variable B : backend J Sch.

  Lemma setup_request_shows m cus0 resp (P : Sch -> Prop) : openapi_method m -> forall cus, incl cus cus0 -> Forall customs_keep cus ->
    (forall s, made_of B m cus0 resp s -> P s) ->
    forall {R} c (o : operation Sch R) c' o' u, setup_request B cus m (c, o) = ((c', o'), Ret u) -> bok P o -> bok P o'.
  Proof.
    intros OM cus. induction cus as [|cu cus IH]; intros I KC HM R c o c' o' u H K; cbn [setup_request] in H.
    - injection H as <- <- _. exact K.
    - destruct (request_unit B cu m (c, o)) as [[c1 o1] r1] eqn:E. destruct r1 as [[]| |]; [|discriminate..].
      inversion KC as [|x y K1 K2]; subst. assert (Ic : In cu cus0) by (apply I; left; reflexivity).
      assert (S := request_unit_bok B P m cu (c, o) (c1, o1) tt OM). unfold bkeep in S. cbn [snd] in S.
      refine (IH (fun y Y => I y (or_intror Y)) K2 HM R c1 o1 c' o' u H (S _ _ _ _ E K)).
      + intros f [->| ->]; apply HM; right; [exists ""; split; [left; reflexivity|reflexivity]|].
        exists (cu_format cu). split; [|reflexivity]. right. exists cu. split; [apply in_or_app; auto|reflexivity].
      + intros j defs s IC W V CV. apply HM. left. exists j, s. split; [eapply cs_body_json; eauto|auto].
      + intros j defs s IC W V CV. apply HM. left. exists j, s. split; [eapply cs_body_form; eauto|auto].
      + exact (proj1 K1).
  Qed.

  Lemma setup_response_shows m req cus0 (P : Sch -> Prop) : openapi_method m -> forall cus, incl cus cus0 -> Forall customs_keep cus ->
    (forall s, made_of B m req cus0 s -> P s) ->
    forall c rs c' rs' u, setup_response B cus m (c, rs) = ((c', rs'), Ret u) -> rsok P rs -> rsok P rs'.
  Proof.
    intros OM cus. induction cus as [|cu cus IH]; intros I KC HM c rs c' rs' u H K; cbn [setup_response] in H.
    - injection H as <- <- _. exact K.
    - destruct (response_unit B cu m (c, rs)) as [[c1 rs1] r1] eqn:E. destruct r1 as [[]| |]; [|discriminate..].
      inversion KC as [|x y K1 K2]; subst. assert (Ic : In cu cus0) by (apply I; left; reflexivity).
      refine (IH (fun y Y => I y (or_intror Y)) K2 HM c1 rs1 c' rs' u H _).
      eapply (response_rkeep B P m cu OM); [..|exact E|exact K].
      + intros f [->| ->]; apply HM; right; [exists ""; split; [left; reflexivity|reflexivity]|].
        exists (cu_format cu). split; [|reflexivity]. right. exists cu. split; [apply in_or_app; auto|reflexivity].
      + intros j s MH NC VH V CV. apply HM. left. exists j, s. split; [eapply cs_json; eauto|auto].
      + intros q s NC Iq CQ CV. apply HM. left. exists (pr_schema q), s. split; [eapply cs_header; eauto|auto].
      + exact (proj2 K1).
  Qed.

  Lemma documented_shows cl v s : documented B cl v -> Forall customs_keep (c_req cl) -> Forall customs_keep (c_resp cl) ->
    shows v s -> shows (c_view cl) s \/ made_of B (c_method cl) (c_req cl) (c_resp cl) s.
  Proof.
    intros D K1 K2 S. pose proof (documented_core B cl v D) as [OM (R & o & o1 & c & c1 & E & P1 & P2 & _ & P4 & P5 & _) (c2 & c3 & rs1 & ER & RV) _].
    set (P := fun s => shows (c_view cl) s \/ made_of B (c_method cl) (c_req cl) (c_resp cl) s). change (P s).
    assert (HM : forall s, made_of B (c_method cl) (c_req cl) (c_resp cl) s -> P s) by (intros t T; right; exact T).
    destruct S as [(x & I & S)|[(x & X & S)|S]].
    - destruct (C22_parameters _ _ _ cl v D) as (new & EN & F & _). rewrite EN in I. apply in_app_or in I. destruct I as [I|I].
      { left. left. exists x. auto. }
      right. destruct (Forall2_In_r _ _ _ _ F I) as (f & If & RF). apply in_flat_map in If. destruct If as (cu & Ic & If). destruct f as [loc q].
      destruct RF as (p & t & ds & -> & _ & _ & _ & _ & _ & _ & _ & _ & _ & _ & _ & _ & RJ & RN). destruct S as (p' & Ep & S).
      cbn [por_param] in Ep. injection Ep as <-. cbn [snd] in *.
      assert (DJ : json_encoded q \/ ~ json_encoded q) by (rewrite <- (json_encoded_b q); destruct (_ || _)%bool; [left; reflexivity|right; discriminate]).
      destruct DJ as [DJ|DJ].
      + destruct (RJ DJ) as (E1 & j & u & E2 & E3 & E4). rewrite E1, E4 in S. destruct S as [S|(k & y & [X|[]] & S)]; [discriminate S|].
        injection X as _ <-. cbn [mt_schema] in S. injection S as <-. left. exists j, u. split; [eapply cs_param_json; eauto|auto].
      + destruct (RN DJ) as (E1 & u & E2 & E3). rewrite E1, E3 in S. destruct S as [S|(k & y & [] & S)]. injection S as <-.
        left. exists (pr_schema q), u. split; [eapply cs_param; eauto|]. split; [exact E2|]. destruct (pr_ptr q); auto.
    - assert (K : bok P o1).
      { eapply setup_request_shows with (5 := E); [exact OM|apply incl_refl|exact K1|exact HM|].
        intros y t Y T. left. right. left. exists y. rewrite <- P2. auto. }
      apply (K x s); [rewrite P5; exact X|exact S].
    - assert (K : rsok P rs1).
      { eapply setup_response_shows with (5 := ER); [exact OM|apply incl_refl|exact K2|exact HM|].
        intros t T. left. right. right. exact T. }
      rewrite RV in S.
      assert (C : ensure_response rs1 = rs1 \/ ensure_response rs1 = response_204).
      { unfold ensure_response. destruct rs1 as [[d|] [|kv l]]; cbn [rs_map rs_default]; auto. }
      destruct C as [C|C]; rewrite C in S; [exact (K s S)|].
      destruct S as (x & [I|(k & [I|[]])] & r & Er & S); [discriminate I|]. injection I as _ <-.
      cbn [ror_resp] in Er. injection Er as <-. cbn [rs_content rs_headers] in S.
      destruct S as [(k' & y & [] & _)|(k' & y & [] & _)].
  Qed.
End Documented.

(* ------------------------------------------------------------------ *)
(* References                                                            *)

Section Closed.
  Context {J Sch : Type}.
  Variable mj : J -> string -> Prop.
  Variable ms : Sch -> string -> Prop.
  Variable B : backend J Sch.
  Hypothesis AR : adds_no_references mj ms B.
  Notation cunit := (cunit J Sch).
  Notation comps := (smap Sch).
  Notation closed := (closed ms).
  Notation complete := (complete mj).

  Definition ckeep (c c' : comps) : Prop := closed c -> closed c'.

  Lemma keys_some n (c : comps) : In n (keys c) -> exists t, get n c = Some t.
  Proof. intros I. apply get_in in I. destruct (get n c) as [t|]; [eauto|congruence]. Qed.
  Lemma some_keys n (c : comps) t : get n c = Some t -> In n (keys c).
  Proof. intros E. apply get_in. congruence. Qed.

  Lemma closed_by js defs (c c' : comps) : complete js defs -> from B (fun n j => In (n, j) defs) c c' ->
    (forall n, In n (keys c) -> In n (keys c')) -> (forall n, In n (map fst defs) -> In n (keys c')) -> ckeep c c'.
  Proof.
    intros CP [F _] G D C n s E k M. apply keys_some. destruct (F n s E) as [E0|(j & I & CV)].
    - apply G. destruct (C n s E0 k M) as [t T]. exact (some_keys _ _ _ T).
    - apply D. apply (CP j k); [apply in_or_app; right; exact (in_map snd _ _ I)|]. exact (proj1 AR j s k CV M).
  Qed.

  Lemma collect_all_total defs : convertible B defs -> forall c, exists c', collect_all B c defs = (c', Ret tt).
  Proof.
    induction defs as [|[n j] l IH]; intros CV c; cbn [collect_all]; [eauto|]. unfold collect_definition.
    assert (CV' : convertible B l) by (intros k i I; apply (CV k i); right; exact I).
    destruct (has n c); [apply IH; exact CV'|]. destruct (CV n j (or_introl eq_refl)) as [s ->]. apply IH. exact CV'.
  Qed.
  Lemma put_definitions_total defs : convertible B defs -> forall c, exists c', put_definitions B c defs = (c', Ret tt).
  Proof.
    induction defs as [|[n j] l IH]; intros CV c; cbn [put_definitions]; [eauto|].
    assert (CV' : convertible B l) by (intros k i I; apply (CV k i); right; exact I).
    destruct (CV n j (or_introl eq_refl)) as [s ->]. apply IH. exact CV'.
  Qed.

  Lemma collect_all_closed js defs c c' r : complete js defs -> convertible B defs -> collect_all B c defs = (c', r) -> ckeep c c' /\ r = Ret tt.
  Proof.
    intros CP CV H. destruct (collect_all_total defs CV c) as [c1 E]. rewrite E in H. injection H as <- <-. split; [|reflexivity].
    eapply closed_by; [exact CP| | |].
    - eapply collect_all_from; [|exact E]. auto.
    - intros n I. exact (collect_all_grows B _ _ _ _ E n I).
    - exact (collect_all_in B _ _ _ _ E).
  Qed.
  Lemma put_definitions_closed js defs c c' r : complete js defs -> convertible B defs -> put_definitions B c defs = (c', r) ->
    ckeep c c' /\ r = Ret tt.
  Proof.
    intros CP CV H. destruct (put_definitions_total defs CV c) as [c1 E]. rewrite E in H. injection H as <- <-. split; [|reflexivity].
    eapply closed_by; [exact CP| | |].
    - eapply put_definitions_from; [|exact E]. auto.
    - intros n I. exact (put_definitions_grows B _ _ _ _ E n I).
    - intros n I. apply in_map_iff in I. destruct I as ([k j] & <- & I). exact (put_definitions_in B _ _ _ _ E k j I).
  Qed.

  Lemma build_param_closed c loc q c' r :
    (json_encoded q -> complete (match pr_json q with Ret j => [j] | _ => [] end) (pr_json_defs q) /\ convertible B (pr_json_defs q)) ->
    build_param B c loc q = (c', r) -> ckeep c c'.
  Proof.
    unfold build_param. intros I H. rewrite <- json_encoded_b in I.
    destruct (b_conv B (pr_schema q)) as [s| |]; [|injection H as <- <-; exact (fun X => X)..].
    destruct (_ || _)%bool.
    - destruct (I eq_refl) as [CP CV]. destruct (collect_all B c (pr_json_defs q)) as [c1 r1] eqn:E.
      apply (collect_all_closed _ _ _ _ _ CP CV) in E. destruct E as [E ->].
      destruct (pr_json q) as [j| |]; [|injection H as <- <-; exact E..].
      destruct (b_conv B j); [|injection H as <- <-; exact E..].
      destruct (pr_tags q); injection H as <- <-; exact E.
    - destruct (pr_plain q) as [[]| |]; [| |injection H as <- <-; exact (fun X => X)..];
      destruct (pr_tags q); injection H as <- <-; exact (fun X => X).
  Qed.

  Section Op.
    Context {R : Type}.
    Notation st := (comps * operation Sch R)%type.
    Definition skeep (a b : st) : Prop := ckeep (fst a) (fst b).
    Lemma skeep_refl a : skeep a a. Proof. intros H. exact H. Qed.
    Lemma skeep_trans a b c : skeep a b -> skeep b c -> skeep a c. Proof. intros H1 H2 H. apply H2, H1, H. Qed.

    Lemma run_props_closed loc qs : (forall q, In q qs -> json_encoded q ->
        complete (match pr_json q with Ret j => [j] | _ => [] end) (pr_json_defs q) /\ convertible B (pr_json_defs q)) ->
      forall es (a b : st) r, (forall (a' b' : st) r', run_events B loc es a' = (b', r') -> skeep a' b') ->
      run_events B loc (map EProp qs ++ es) a = (b, r) -> skeep a b.
    Proof.
      intros Q es. induction qs as [|q qs IH]; intros a b r HE H; cbn [map app] in H; [exact (HE a b r H)|].
      cbn [run_events] in H. destruct (param_callback B loc q a) as [s1 r1] eqn:E.
      assert (K : skeep a s1).
      { unfold param_callback in E. destruct a as [c o]. destruct (_ || _)%bool; [injection E as <- <-; apply skeep_refl|].
        destruct (build_param B c loc q) as [c1 x] eqn:EB.
        apply build_param_closed in EB; [|apply Q; left; reflexivity].
        destruct x as [p| |]; [|injection E as <- <-; exact EB..].
        destruct (already_exists _ _ _); injection E as <- <-; exact EB. }
      destruct r1 as [[]| |]; [|injection H as <- <-; exact K..].
      eapply skeep_trans; [exact K|]. eapply IH; [|exact HE|exact H]. intros q' I. apply Q. right. exact I.
    Qed.

    Lemma run_defs loc defs : forall (a b : st) r, run_events B loc (map (fun d => EDef (fst d) (snd d)) defs) a = (b, r) ->
      collect_all B (fst a) defs = (fst b, r).
    Proof.
      induction defs as [|[n j] l IH]; intros a b r H; cbn [map run_events collect_all fst snd] in *.
      - injection H as <- <-. reflexivity.
      - destruct a as [c0 o0]. cbn [fst snd] in *. destruct (collect_definition B c0 n j) as [c x]. destruct x as [[]| |]; [|injection H as <- <-; reflexivity..].
        apply IH in H. exact H.
    Qed.

    Lemma parameters_closed cu (a b : st) r : whole_unit mj B cu -> parse_parameters B cu a = (b, r) -> skeep a b.
    Proof.
      intros (W & _). apply (join_rel _ skeep_refl skeep_trans).
      assert (K : forall loc (s s' : st) r', parse_parameters_in B cu loc s = (s', r') -> skeep s s').
      { intros loc s s' r' H. unfold parse_parameters_in in H. destruct (v_slice cu); [injection H as <- <-; apply skeep_refl|].
        specialize (W loc). destruct (v_params cu loc) as [es fin]. destruct W as (qs & defs & EE & CP & CV & Q). cbn [fst] in EE. subst es.
        destruct (run_events B loc _ s) as [s1 r1] eqn:E.
        apply (run_props_closed loc qs Q) in E; [|intros a' b' r0 X; apply run_defs in X; apply (collect_all_closed _ _ _ _ _ CP CV) in X; exact (proj1 X)].
        destruct r1 as [[]| |]; [|injection H as <- <-; exact E..].
        destruct fin as [[]| |]; [destruct s1 as [c1 o1]|..]; injection H as <- <-; exact E. }
      repeat apply Forall_cons; try apply Forall_nil; intros s s' r'; apply K.
    Qed.

    Lemma request_unit_closed cu m (a b : st) r : whole_unit mj B cu -> request_unit B cu m a = (b, r) -> skeep a b.
    Proof.
      intros W H. unfold request_unit in H. destruct (request_content B cu m a) as [[c1 o1] r1] eqn:E.
      assert (PP : forall (s s' : st) r', parse_parameters B cu s = (s', r') -> skeep s s') by (intros s s' r'; apply parameters_closed; exact W).
      assert (PB : forall mime mp tag more (s s' : st) r', parse_request_body B cu mime m mp tag more s = (s', r') -> skeep s s').
      { intros mime mp tag more [c o] s' r' X. destruct W as (_ & W & _). unfold parse_request_body in X. cbn [fst snd] in X.
        destruct (body_wanted _ _ _ _ _) as [[]| |]; [|injection X as <- <-; apply skeep_refl..].
        specialize (W tag). destruct (v_body cu tag) as [vis res]. cbn [snd] in W.
        destruct res as [[j defs]| |]; [|injection X as <- <-; apply skeep_refl..].
        destruct (W j defs eq_refl) as [CP CV].
        destruct (b_conv B j) as [s| |]; [|injection X as <- <-; apply skeep_refl..].
        destruct (put_definitions B c defs) as [c2 r2] eqn:EP. apply (put_definitions_closed _ _ _ _ _ CP CV) in EP.
        destruct EP as [EP ->]. injection X as <- <-. exact EP. }
      assert (K : skeep a (c1, o1)).
      { unfold request_content in E. destruct (String.eqb (cu_ctype cu) "").
        - match type of E with context [join_errors ?fs ?s0] => destruct (join_errors fs s0) as [[c2 o2] r2] eqn:E2 end.
          apply (join_rel _ skeep_refl skeep_trans) in E2; [|repeat apply Forall_cons; try apply Forall_nil; eauto].
          destruct r2 as [[]| |]; injection E as <- <- <-; exact E2.
        - destruct (String.eqb (cu_ctype cu) mime_json).
          + eapply (join_rel _ skeep_refl skeep_trans); [|exact E]. repeat apply Forall_cons; try apply Forall_nil; eauto.
          + destruct (_ || _)%bool.
            * eapply (join_rel _ skeep_refl skeep_trans); [|exact E]. repeat apply Forall_cons; try apply Forall_nil; eauto.
            * destruct a as [c o]. injection E as <- <- <-. intros X. exact X. }
      destruct r1 as [[]| |]; injection H as <- <-; exact K.
    Qed.

    Lemma setup_request_closed cus m : (forall cu, In cu cus -> whole_unit mj B cu) ->
      forall (a b : st) r, setup_request B cus m a = (b, r) -> skeep a b.
    Proof.
      induction cus as [|cu cus IH]; intros W a b r H; cbn [setup_request] in H.
      - injection H as <- <-. apply skeep_refl.
      - destruct (request_unit B cu m a) as [s1 r1] eqn:E. apply request_unit_closed in E; [|apply W; left; reflexivity].
        destruct r1 as [[]| |]; [|injection H as <- <-; exact E..]. eapply skeep_trans; [exact E|].
        eapply IH; [|exact H]. intros x I. apply W. right. exact I.
    Qed.
  End Op.

  Lemma fill_closed cu m (st st' : comps * response Sch) r : whole_unit mj B cu -> fill_response B cu m st = (st', r) -> ckeep (fst st) (fst st').
  Proof.
    intros W H. unfold fill_response in H. cbv zeta in H.
    match type of H with (match ?f with _ => _ end) = _ => destruct f as [[c1 r1] x1] eqn:E end.
    assert (PH : forall s s' r', parse_response_header B cu s = (s', r') -> ckeep (fst s) (fst s')).
    { intros [c x] s' r' X. apply parse_header_comps in X. destruct s' as [c2 x2]. cbn [fst] in *. rewrite X. exact (fun Y => Y). }
    assert (PJ : forall ct s s' r', parse_json_response B cu ct s = (s', r') -> ckeep (fst s) (fst s')).
    { intros ct [c x] s' r' X. destruct W as (_ & _ & (CP & CV) & _). unfold parse_json_response in X. cbn [fst].
      destruct (cu_nil cu); [injection X as <- <-; exact (fun Y => Y)|].
      destruct (v_json cu) as [defs res]. cbn [fst snd] in CP, CV. destruct (collect_all B c defs) as [c2 r2] eqn:EC.
      apply (collect_all_closed _ _ _ _ _ CP CV) in EC. destruct EC as [EC ->].
      destruct (v_has_json cu) as [[]| |]; try (injection X as <- <-; exact (fun Y => Y));
        (destruct res as [j| |]; [destruct (b_conv B j)|..]; injection X as <- <-; exact EC). }
    assert (P : ckeep (fst st) c1).
    { destruct (negb _).
      - match type of E with context [join_errors ?fs ?s0] => destruct (join_errors fs s0) as [[c2 o2] r2] eqn:E2 end.
        apply (join_rel (fun s s' => ckeep (fst s) (fst s')) (fun s X => X) (fun a b c X Y Z => Y (X Z))) in E2;
          [|repeat apply Forall_cons; try apply Forall_nil; eauto].
        cbn [fst] in E2. destruct r2 as [[]| |]; injection E as <- <- <-; exact E2.
      - exact (PH _ _ _ E). }
    destruct x1 as [[]| |]; injection H as <- <-; exact P.
  Qed.

  Lemma setup_response_closed cus m : (forall cu, In cu cus -> whole_unit mj B cu) ->
    forall st st' r, setup_response B cus m st = (st', r) -> ckeep (fst st) (fst st').
  Proof.
    induction cus as [|cu cus IH]; intros W st st' r H; cbn [setup_response] in H.
    - injection H as <- <-. exact (fun X => X).
    - destruct (response_unit B cu m st) as [st1 r1] eqn:E.
      assert (P : ckeep (fst st) (fst st1)).
      { unfold response_unit in E. destruct st as [c rs].
        match type of E with context [fill_response B cu m ?s] => destruct (fill_response B cu m s) as [[c1 rr] x] eqn:EF end.
        apply fill_closed in EF; [|apply W; left; reflexivity]. cbn [fst] in EF.
        destruct x as [[]| |]; injection E as <- <-; exact EF. }
      destruct r1 as [[]| |]; [|injection H as <- <-; exact P..].
      apply IH in H; [|intros x I; apply W; right; exact I]. intros X. apply H, P, X.
  Qed.

  Lemma setup_oc_closed {R} rget rset c (oc : opctx J Sch R) c' o' a :
    (forall cu, In cu (oc_req oc ++ oc_resp oc) -> whole_unit mj B cu) ->
    setup_oc B rget rset c oc = (c', o', a) -> ckeep c c'.
  Proof.
    unfold setup_oc. intros W H.
    destruct (setup_request B (oc_req oc) (oc_method oc) (c, oc_op oc)) as [[c1 o1] r1] eqn:E.
    apply setup_request_closed in E; [|intros cu I; apply W, in_or_app; auto]. unfold skeep in E. cbn [fst] in E.
    destruct r1 as [[]| |]; [|injection H as <- <- <-; exact E..].
    destruct (validate_path_params _ _); [|injection H as <- <- <-; exact E].
    destruct (oc_resp oc) as [|cu cus] eqn:RE; [injection H as <- <- <-; exact E|].
    destruct (setup_response B (cu :: cus) (oc_method oc) (c1, rget (op_responses o1))) as [[c2 rs2] r2] eqn:E2.
    apply setup_response_closed in E2; [|intros x I; apply W, in_or_app; auto]. cbn [fst] in E2.
    destruct r2 as [[]| |]; injection H as <- <- <-; exact (fun X => E2 (E X)).
  Qed.

  (* What is shown after a successful call refers to definitions of the call. *)
  Lemma shown_reported m req resp s n : openapi_method m -> (forall cu, In cu (req ++ resp) -> whole_unit mj B cu) ->
    made_of B m req resp s -> ms s n -> exists j, call_def m req resp n j.
  Proof.
    intros OM W [(j & t & CS & CV & S)|(f & _ & ->)] M; [|destruct (proj2 (proj2 AR) f n M)].
    assert (M' : mj j n) by (apply (proj1 AR j t n CV); destruct S as [->| ->]; [exact M|exact (proj1 (proj2 AR) t n M)]).
    assert (PM : forall cu loc q, In (loc, q) (param_fields cu) -> whole_unit mj B cu ->
      structuredb cu = true /\ v_slice cu = false /\ In loc locations /\
      exists qs defs, fst (v_params cu loc) = map EProp qs ++ map (fun d => EDef (fst d) (snd d)) defs /\ complete (map pr_schema qs) defs /\
        In q qs /\ (json_encoded q -> complete (match pr_json q with Ret j => [j] | _ => [] end) (pr_json_defs q))).
    { intros cu loc q I (W1 & _). unfold param_fields in I. destruct (structuredb cu); [|destruct I]. destruct (v_slice cu); [destruct I|].
      cbn [andb negb] in I. apply in_flat_map in I. destruct I as (loc' & L & I). apply in_map_iff in I. destruct I as (q' & E & I).
      injection E as -> ->. split; [reflexivity|]. split; [reflexivity|]. split; [exact L|].
      destruct (W1 loc) as (qs & defs & EE & CP & _ & Q). exists qs, defs. split; [exact EE|]. split; [exact CP|].
      assert (IQ : In q qs).
      { rewrite EE in I. clear - I. induction qs as [|x qs IH]; cbn [map app props_of] in I.
        - exfalso. induction defs as [|d l IH]; [destruct I|apply IH; exact I].
        - destruct (considered x); [destruct I as [->|I]; [left; reflexivity|]|]; right; apply IH; exact I. }
      split; [exact IQ|]. intros JE. exact (proj1 (Q q IQ JE)). }
    destruct CS as [cu loc q Ic I NJ|cu loc q j Ic I JE EJ|cu j defs Ic IT WJ V|cu j defs Ic IT WF V|cu j Ic MH NC VH V|cu q Ic NC I CQ].
    - destruct (PM cu loc q I (W cu (in_or_app _ _ _ (or_introl Ic)))) as (SB & VS & L & qs & defs & EE & CP & IQ & _).
      assert (X : In n (map fst defs)) by (apply (CP (pr_schema q)); [apply in_or_app; left; exact (in_map pr_schema _ _ IQ)|exact M']).
      apply in_map_iff in X. destruct X as ([k i] & <- & X). exists i. left. exists cu. split; [exact Ic|].
      apply (rd_param m cu loc); auto. rewrite EE. apply in_or_app. right. apply in_map_iff. exists (k, i). auto.
    - destruct (PM cu loc q I (W cu (in_or_app _ _ _ (or_introl Ic)))) as (_ & _ & _ & _ & _ & _ & _ & _ & Q).
      specialize (Q JE). rewrite EJ in Q. assert (X : In n (map fst (pr_json_defs q))) by (apply (Q j); [left; reflexivity|exact M']).
      apply in_map_iff in X. destruct X as ([k i] & <- & X). exists i. left. exists cu. split; [exact Ic|]. apply (rd_json m cu loc q); auto.
    - destruct (W cu (in_or_app _ _ _ (or_introl Ic))) as (_ & W2 & _). destruct (W2 _ _ _ V) as [CP _].
      assert (X : In n (map fst defs)) by (apply (CP j); [left; reflexivity|exact M']).
      apply in_map_iff in X. destruct X as ([k i] & <- & X). exists i. left. exists cu. split; [exact Ic|]. eapply rd_body_json; eauto.
    - destruct (W cu (in_or_app _ _ _ (or_introl Ic))) as (_ & W2 & _). destruct (W2 _ _ _ V) as [CP _].
      assert (X : In n (map fst defs)) by (apply (CP j); [left; reflexivity|exact M']).
      apply in_map_iff in X. destruct X as ([k i] & <- & X). exists i. left. exists cu. split; [exact Ic|]. eapply rd_body_form; eauto.
    - destruct (W cu (in_or_app _ _ _ (or_intror Ic))) as (_ & _ & (CP & _) & _). rewrite V in CP.
      assert (X : In n (map fst (fst (v_json cu)))) by (apply (CP j); [left; reflexivity|exact M']).
      apply in_map_iff in X. destruct X as ([k i] & <- & X). exists i. right. exists cu. split; [exact Ic|]. apply sd_json; auto.
    - destruct (W cu (in_or_app _ _ _ (or_intror Ic))) as (_ & _ & _ & W4 & _). destruct (W4 q n I M').
  Qed.
End Closed.
