(* What the walkers tell their callbacks, for any conversion that keeps meaning. *)
From Coq Require Import ZArith Permutation.
From Verif Require Import Str SMap Json PathSpec SchemaModel SchemaSpec SchemaProofs SchemaRefs Types RegistryModel RegistrySpec ReflectModel ReflectSpec
  ReflectProofs ReflectProofs2 BodySpec BodyProofs BodyComps WalkModel WalkSpec WalkProofs WalkProofs2 TellModel TellSpec TellSchemas TellMeans.

Lemma Forall2_left {A C : Type} (P : A -> C -> Prop) l l' x : Forall2 P l l' -> In x l -> exists y, In y l' /\ P x y.
Proof. induction 1 as [|a c l l' H _ IH]; intros []; [subst; exists c; simpl; auto|]. destruct IH as (y & I & Q); auto. exists y. simpl. auto. Qed.

(* ---------- names occur once ---------- *)

Section Names.
  Context {J Sch : Type}.
  Variable B : backend J Sch.

  Definition body_once {C R} (a b : C * operation Sch R) : Prop :=
    NoDup (keys (body_content (op_body (snd a)))) -> NoDup (keys (body_content (op_body (snd b)))).

  Lemma with_content_once {R} (o : operation Sch R) mime mt :
    NoDup (keys (body_content (op_body o))) -> NoDup (keys (body_content (op_body (with_body_content o mime mt)))).
  Proof.
    unfold with_body_content. cbn [set_body op_body body_content rbor_body rb_content].
    destruct (op_body o) as [x|]; cbn [body_content rbor_body]; [|intros _; apply NoDup_put; constructor].
    destruct (rbor_body x); cbn [rb_content]; intros N; apply NoDup_put; [exact N|constructor].
  Qed.

  Lemma setup_once {R} cu m (c : comps Sch) (o : operation Sch R) c' o' u : cu_custom_req cu = None ->
    setup_request B [cu] m (c, o) = ((c', o'), Ret u) -> body_once (c, o) (c', o').
  Proof.
    intros NC H. cbn [setup_request] in H. destruct (request_unit B cu m (c, o)) as [[c1 o1] [[]| |]] eqn:E; [|discriminate..].
    injection H as <- <- <-. unfold request_unit in E. destruct (request_content B cu m (c, o)) as [[c2 o2] [[]| |]] eqn:RC; [|discriminate..].
    injection E as <- <-.
    assert (X : body_once (c, o) (c2, o2)).
    { assert (PB : forall mime mapping tag more (a b : comps Sch * operation Sch R) r,
        parse_request_body B cu mime m mapping tag more a = (b, r) -> body_once a b).
      { intros mime mapping tag more [ca oa] b r E. unfold parse_request_body in E.
        destruct (body_wanted cu m mapping tag more) as [[]| |]; try (injection E as <- <-; intros N; exact N).
        destruct (v_body cu tag) as [vis [[j defs]| |]]; try (injection E as <- <-; intros N; exact N).
        destruct (b_conv B j) as [s| |]; try (injection E as <- <-; intros N; exact N). cbn [fst] in E.
        destruct (put_definitions B ca defs) as [cb [[]| |]]; injection E as <- <-; try (intros N; exact N).
        intros N. cbn [snd] in *. apply with_content_once. exact N. }
      assert (PP : forall (a b : comps Sch * operation Sch R) r, parse_parameters B cu a = (b, r) -> body_once a b).
      { intros a b r E N. pose proof (params_body B _ _ _ _ E) as PE. destruct a as [ca oa], b as [cb ob]. cbn [snd] in *. rewrite PE. exact N. }
      assert (JN : forall fs, Forall (fun f : comps Sch * operation Sch R -> (comps Sch * operation Sch R) * out unit =>
                 forall s s' r, f s = (s', r) -> body_once s s') fs ->
               forall s s' r, join_errors fs s = (s', r) -> body_once s s').
      { apply join_rel; [intros s N; exact N|intros a b d H1 H2 N; auto]. }
      unfold request_content in RC. destruct (String.eqb (cu_ctype cu) "").
      - match type of RC with context [join_errors ?fs ?s0] => destruct (join_errors fs s0) as [[c8 o8] r8] eqn:E8 end.
        destruct r8 as [[]| |]; [|discriminate..]. injection RC as <- <-. intros N.
        eapply JN in E8; [|repeat (apply Forall_cons || apply Forall_nil); intros; eauto]. specialize (E8 N). cbn [snd] in *.
        unfold parse_raw_request_body. destruct (cu_nil cu); [exact E8|]. clear - E8. revert o8 E8.
        induction (v_content_tags cu) as [|t l IH]; intros o8 E8; cbn [fold_left]; [exact E8|]. apply IH. apply with_content_once. exact E8.
      - destruct (String.eqb (cu_ctype cu) mime_json);
          [eapply JN in RC; [exact RC|repeat (apply Forall_cons || apply Forall_nil); intros; eauto]|].
        destruct (_ || _);
          [eapply JN in RC; [exact RC|repeat (apply Forall_cons || apply Forall_nil); intros; eauto]|].
        injection RC as <- <-. intros N. apply with_content_once. exact N. }
    intros N. specialize (X N). cbn [snd] in *. unfold customize_body. rewrite NC. unfold describe_body.
    destruct (op_body o2) as [rb|] eqn:OB; [|rewrite OB; exact X]. destruct (rbor_body rb) as [b|] eqn:RB; [|rewrite OB; exact X].
    destruct (is_empty (cu_desc cu)); [rewrite OB; exact X|]. cbn [set_body op_body body_content rbor_body rb_content] in *. rewrite RB in X. exact X.
  Qed.

  Definition response_once (r : response Sch) : Prop := NoDup (keys (rs_headers r)) /\ NoDup (keys (rs_content r)).

  Lemma desc_once d r : response_once r -> response_once (fill_desc d r).
  Proof. intros [H1 H2]. split; [rewrite fill_desc_headers|rewrite fill_desc_content]; assumption. Qed.

  Lemma ensure_once r ct f : response_once r -> response_once (ensure_content_type B r ct f).
  Proof.
    unfold ensure_content_type. destruct (has ct (rs_content r)); [auto|]. intros [H1 H2]. split; [exact H1|]. apply NoDup_put. exact H2.
  Qed.

  Lemma fill_once cu m c r c' r' u : fill_response B cu m (c, r) = ((c', r'), Ret u) -> response_once r -> response_once r'.
  Proof.
    intros H N. unfold fill_response in H.
    assert (PH : forall a b x, parse_response_header B cu a = (b, x) -> response_once (snd a) -> response_once (snd b)).
    { intros [ca ra] b x E Q. unfold parse_response_header in E. destruct (cu_nil cu); [injection E as <- <-; exact Q|].
      destruct (v_headers cu) as [qs fin]. destruct (run_headers B qs []) as [res y] eqn:RH.
      assert (NR : NoDup (keys res)).
      { assert (G : forall qs acc res y, run_headers B qs acc = (res, y) -> NoDup (keys acc) -> NoDup (keys res)).
        { clear. induction qs as [|q qs IH]; intros acc res y E N; cbn [run_headers] in E; [injection E as <- <-; exact N|].
          destruct (header_callback B q acc) as [a z] eqn:Ec.
          assert (Na : NoDup (keys a)).
          { unfold header_callback in Ec. destruct (_ || _); [injection Ec as <- <-; exact N|].
            destruct (b_conv B (pr_schema q)) as [s| |]; [|injection Ec as <- <-; exact N..].
            destruct (b_deprecated B (pr_schema q) s); [|injection Ec as <- <-; exact N..].
            destruct (pr_tags q); [|injection Ec as <- <-; exact N..]. injection Ec as <- <-. apply NoDup_put. exact N. }
          destruct z as [[]| |]; [eapply IH; eauto|injection E as <- <-; exact Na..]. }
        eapply G; [exact RH|constructor]. }
      destruct y as [[]| |]; [|injection E as <- <-; exact Q..]. destruct fin as [d| |]; [|injection E as <- <-; exact Q..].
      injection E as <- <-. cbn [snd]. apply desc_once. destruct Q as [Q1 Q2]. split; [exact NR|exact Q2]. }
    assert (PJ : forall ct a b x, parse_json_response B cu ct a = (b, x) -> response_once (snd a) -> response_once (snd b)).
    { intros ct [ca ra] b x E Q. unfold parse_json_response in E. destruct (cu_nil cu); [injection E as <- <-; exact Q|].
      assert (G : forall defs res, (match collect_all B ca defs with
          | (c, Ret _) => match res with Err => ((c, ra), Err) | Panic => ((c, ra), Panic) | Ret j =>
              match b_conv B j with Err => ((c, ra), Err) | Panic => ((c, ra), Panic) | Ret s =>
                let s := b_unnull B s in let ct := if is_empty ct then mime_json else ct in
                let rest := match get ct (rs_content ra) with Some m => mt_rest m | None => JNull end in
                let r := set_content ra (put ct (mkMedia (Some s) rest) (rs_content ra)) in
                ((c, fill_desc (b_desc B j) r), Ret tt) end end
          | (c, _) => ((c, ra), Panic) end) = (b, x) -> response_once (snd b)).
      { intros defs res E'. destruct (collect_all B ca defs) as [c2 [[]| |]]; [|injection E' as <- <-; exact Q..].
        destruct res as [j| |]; [|injection E' as <- <-; exact Q..]. destruct (b_conv B j) as [s| |]; [|injection E' as <- <-; exact Q..].
        cbv zeta in E'. injection E' as <- <-. cbn [snd]. apply desc_once. destruct Q as [Q1 Q2]. split; [exact Q1|]. apply NoDup_put. exact Q2. }
      destruct (v_has_json cu) as [[]| |]; try (injection E as <- <-; exact Q); destruct (v_json cu) as [defs res]; eapply G; exact E. }
    assert (FD : forall r0, response_once r0 -> response_once (let r := if is_empty (cu_desc cu) then r0 else set_desc r0 (cu_desc cu) in
        if is_empty (rs_desc r) then set_desc r (status_text (norm_status cu)) else r)).
    { intros r0 [Q1 Q2]. cbv zeta. destruct (is_empty (cu_desc cu)); destruct (is_empty (rs_desc _)); split; assumption. }
    destruct (negb _).
    - match type of H with context [join_errors ?fs ?s0] => destruct (join_errors fs s0) as [[c9 r9] x] eqn:E end.
      destruct x as [[]| |]; [|discriminate..].
      assert (JN : forall fs, Forall (fun f : comps Sch * response Sch -> (comps Sch * response Sch) * out unit =>
                 forall s s' r, f s = (s', r) -> response_once (snd s) -> response_once (snd s')) fs ->
               forall s s' r, join_errors fs s = (s', r) -> response_once (snd s) -> response_once (snd s')).
      { apply (join_rel (fun a b : comps Sch * response Sch => response_once (snd a) -> response_once (snd b))); auto. }
      eapply JN in E; [|repeat (apply Forall_cons || apply Forall_nil); intros; eauto|exact N]. cbn [snd] in E. injection H as <- <-. apply FD.
      assert (P : response_once (parse_raw_response_body B cu r9)).
      { unfold parse_raw_response_body. destruct (cu_nil cu); [exact E|]. clear - E. revert r9 E.
        induction (v_content_tags cu) as [|t l IH]; intros r9 E; cbn [fold_left]; [exact E|]. apply IH.
        unfold raw_content. destruct (b_v31 B); [|apply ensure_once; exact E]. destruct E as [E1 E2]. split; [exact E1|]. apply NoDup_put. exact E2. }
      destruct (is_empty (before_semicolon (cu_ctype cu))); [exact P|]. apply ensure_once. exact P.
    - destruct (parse_response_header B cu (c, r)) as [[c1 r1] [[]| |]] eqn:E; [|discriminate..]. injection H as <- <-. apply FD.
      apply (PH _ _ _ E N).
  Qed.
End Names.

(* ---------- methods ---------- *)

Lemma method_openapi method m : http_method method m -> openapi_method m.
Proof.
  unfold http_method, openapi_method. cbn [In]. intros H.
  repeat (destruct H as [H|H]; [injection H as _ <-; tauto|]). destruct H.
Qed.

Lemma method_same {J Sch R : Type} (B : backend J Sch) method m cus (st : comps Sch * operation Sch R) : http_method method m ->
  setup_request B cus method st = setup_request B cus m st.
Proof.
  intros H. assert (S : safe_method method = safe_method m).
  { unfold http_method in H. cbn [In] in H. repeat (destruct H as [H|H]; [injection H as <- <-; reflexivity|]). destruct H. }
  assert (W : forall cu mapping tag more, body_wanted (J := J) (Sch := Sch) cu method mapping tag more = body_wanted cu m mapping tag more).
  { intros. unfold body_wanted. rewrite S. reflexivity. }
  revert st. induction cus as [|cu cus IH]; intros st; cbn [setup_request]; [reflexivity|].
  assert (U : request_unit B cu method st = request_unit B cu m st).
  { unfold request_unit, request_content, parse_request_body. rewrite !W. reflexivity. }
  rewrite U. destruct (request_unit B cu m st) as [st' [[]| |]]; [apply IH|reflexivity..].
Qed.

Section Tell.
  Context {J Sch : Type}.
  Variable B : backend J Sch.
  Variable schema : J -> jsob.
  Variable ok : J -> Prop.
  Variable D : string -> option J.
  Variable these : json -> Prop.
  Variable to_json : comps Sch -> option Sch -> out js.
  Notation represents := (represents B ok D).
  Notation env := (env schema D).
  Hypothesis told : forall c j s x, represents c -> ok j -> b_conv B j = Ret s -> to_json c (Some s) = Ret x -> tells (env c) (schema j) x.
  Hypothesis unnull_told : forall c j s x, represents c -> ok j -> b_conv B j = Ret s -> to_json c (Some (b_unnull B s)) = Ret x ->
    tells_of these (env c) (schema j) x.
  Hypothesis form_told : forall c j s x t, represents c -> ok j -> b_conv B j = Ret s -> to_json c (Some s) = Ret x ->
    form_schema schema D c j t ->
    exists s' defs, x = JsObj s' defs /\ js_required s' = js_required t /\ Forall2 (field_kept (env c) defs) (js_props t) (js_props s').
  Variable range : forall A, smap A -> list (string * A).
  Hypothesis range_all : iterates range.
  Variable cb : list scall -> scall -> answer.

  Lemma from_represents (E : string -> J -> Prop) c c' : (forall n j, E n j -> D n = Some j /\ ok j) -> from B E c c' -> represents c -> represents c'.
  Proof.
    intros H [F _] R n s G. apply F in G as [G|(j & Ej & C)]; [auto|]. destruct (H _ _ Ej) as [H1 H2]. exists j. auto.
  Qed.

  Section Request.
    Variable R : Type.
    Variable zero : operation Sch R.
    Hypothesis fresh : fresh_op zero.
    Variables (c : comps Sch) (method m : string) (cu : cunit J Sch) (done : bool).
    Hypothesis hm : http_method method m.
    Hypothesis rep : represents c.
    Hypothesis reps : reports_request ok D m cu.
    Notation walk := (walk_request B to_json range cb R zero c method cu done).

    Lemma setup_represents c' o r : setup_request B [cu] method (c, zero) = ((c', o), r) -> represents c'.
    Proof.
      intros H. rewrite (method_same _ _ _ _ _ hm) in H.
      apply (setup_request_from B (request_def m cu)) in H; [|eapply method_openapi; exact hm|].
      - unfold sfrom in H. eapply from_represents; [|exact H|exact rep]. intros n j Q. apply reps. exact Q.
      - intros x n j [<-|[]] Q. exact Q.
    Qed.

    Lemma walk_represents c' r : walk = (c', r) -> represents c'.
    Proof.
      unfold walk_request. destruct (setup_request B [cu] method (c, zero)) as [[c1 o] [[]| |]] eqn:H; intros E; injection E as <- _;
        eapply setup_represents; exact H.
    Qed.

    Lemma walk_ok c' evs : walk = (c', (evs, WOk)) -> exists o, setup_request B [cu] method (c, zero) = ((c', o), Ret tt).
    Proof.
      unfold walk_request. destruct (setup_request B [cu] method (c, zero)) as [[c1 o] [[]| |]] eqn:H; intros E; try discriminate.
      injection E as <- _ _. eauto.
    Qed.

    Lemma parameters_told evs res c' : walk = (c', (evs, res)) ->
      exists pk bk n, calls_of evs = pk ++ bk /\ Forall2 (field_told schema ok D these c') (firstn n (param_fields cu)) pk /\
        (bk <> [] \/ res = WOk -> firstn n (param_fields cu) = param_fields cu) /\
        (forall k, In k bk -> k_in k = "body" \/ k_in k = "formData").
    Proof.
      intros W. pose proof (walk_represents _ _ W) as Rc.
      destruct (request_fields _ _ B to_json range range_all cb _ _ fresh _ _ _ _ _ _ _ W) as (pk & bk & n & E & F & X & Y).
      exists pk, bk, n. split; [exact E|]. split; [|auto]. clear - F Rc told unnull_told.
      induction F as [|f k fs ks H _ IH]; constructor; [|exact IH].
      destruct H as (t & T & K1 & K2 & K3 & x & s & Kx & Tx & H). exists t, x.
      split; [exact T|]. split; [exact K1|]. split; [exact K2|]. split; [exact K3|]. split; [exact Kx|]. split.
      - intros JE. destruct H as [(_ & j & Ej & Cj)|(N & _)]; [|contradiction]. exists j. split; [exact Ej|]. intros O. eapply told; eauto.
      - intros JE O. destruct H as [(Y & _)|(_ & s0 & C0 & Es)]; [contradiction|]. subst s. split; intros P; rewrite P in Tx.
        + eapply told; eauto.
        + eapply unnull_told; eauto.
    Qed.

    Hypothesis plain_unit : cu_custom_req cu = None.

    Lemma body_given c' o ct : setup_request B [cu] method (c, zero) = ((c', o), Ret tt) -> body_type m cu ct ->
      gives B m cu ct (get ct (body_content (op_body o))).
    Proof.
      intros H T. rewrite (method_same _ _ _ _ _ hm) in H.
      apply (setup_request_steps B m [cu]) in H; [|eapply method_openapi; exact hm|intros x [<-|[]]; exact plain_unit].
      apply (steps_last B m [] cu [] _ _ ct H T). intros x [].
    Qed.

    Lemma names_once c' o : setup_request B [cu] method (c, zero) = ((c', o), Ret tt) -> NoDup (keys (body_content (op_body o))).
    Proof.
      intros H. apply (setup_once B cu method c zero c' o tt plain_unit H). cbn [snd]. destruct fresh as [_ ->]. constructor.
    Qed.

    Lemma body_told c' evs : walk = (c', (evs, WOk)) -> In (cu_ctype cu) [""; "application/json"] -> wants_json m cu ->
      (cu_ctype cu = "" -> cu_nil cu = false -> ~ In "application/json" (v_content_tags cu)) ->
      exists j defs x, snd (v_body cu "json") = Ret (j, defs) /\ calls_in "body" (calls_of evs) = [mkSCall "body" "body" (Some x) false] /\
        (ok j -> tells (env c') (schema j) x).
    Proof.
      intros W IC WJ NT. pose proof (walk_represents _ _ W) as Rc. destruct (walk_ok _ _ W) as [o H].
      pose proof (body_given _ _ "application/json" H (bt_json _ _ IC WJ)) as G.
      destruct (request_bodies _ _ B to_json range range_all cb _ _ fresh _ _ _ _ _ _ _ H W (names_once _ _ H)) as [Q _].
      remember (get "application/json" (body_content (op_body o))) as g eqn:Eg. clear Eg. destruct G as [N E|E N I|x I1 I2 E N RB|x I1 I2 FT N RB].
      - exfalso. apply N. cbn [In] in IC |- *. tauto.
      - exfalso. apply (NT E N I).
      - destruct RB as (j & defs & s & E1 & E2 & ->). cbn [mt_schema] in Q. destruct Q as (y & Ty & Q).
        exists j, defs, y. split; [exact E1|]. split; [exact Q|]. intros O. eapply told; eauto.
      - exfalso. exact (form_not_json cu FT).
    Qed.

    Lemma form_call_kept rq ex defs (c' : comps Sch) f f' k : form_call rq ex defs f' k -> field_kept (env c') defs f f' ->
      form_field_told schema D c' rq f k.
    Proof.
      intros F [E K]. destruct f as [n p], f' as [n' p']. cbn [fst snd] in E, K. subst n'.
      remember (n, p') as y eqn:Ey. destruct F as [n0 b v1 v2 v3 v4 v5 v6 v7 v8 v9 v10 v11 v12 v13 v14 v15 v16 v17 v18 v19 v20 v21 v22 v23 v24 v25 e
        mo r nt al on an it tu pr ad ot Rq NE field|n0 a r nt al on an it tu pr ad ot b Rq -> ->|n0 p0 b Rq P]; injection Ey as -> <-.
      - eexists. split; [reflexivity|]. split; [reflexivity|]. split; [exact Rq|]. split; [reflexivity|]. cbn [snd].
        intros O v b' _ H. apply K in H. destruct H as [i H]. exists i. exact H.
      - eexists. split; [reflexivity|]. split; [reflexivity|]. split; [exact Rq|]. split; [reflexivity|]. cbn [snd].
        intros O v b' _ H. apply K in H. exact H.
      - eexists. split; [reflexivity|]. split; [reflexivity|]. split; [exact Rq|]. split; [reflexivity|]. cbn [snd].
        intros O v b' _ H. apply K in H. destruct H as [i H]. exists i. destruct P as [->|[x ->]]; exact H.
    Qed.

    Lemma fields_told c' evs : walk = (c', (evs, WOk)) ->
      In (cu_ctype cu) [""; "application/x-www-form-urlencoded"; "multipart/form-data"] -> wants_form m cu -> ~ has_file cu ->
      (cu_ctype cu = "" -> cu_nil cu = false -> ~ In "application/x-www-form-urlencoded" (v_content_tags cu)) ->
      exists j defs, snd (v_body cu "formData") = Ret (j, defs) /\
        forall t fields required extra, ok j -> form_schema schema D c' j t -> form_of t fields required extra ->
          exists l, Forall2 (form_field_told schema D c' required) fields l /\ Permutation l (calls_in "formData" (calls_of evs)).
    Proof.
      intros W IC WF NF NT. pose proof (walk_represents _ _ W) as Rc. destruct (walk_ok _ _ W) as [o H].
      assert (FT : form_type cu "application/x-www-form-urlencoded") by (right; auto).
      pose proof (body_given _ _ "application/x-www-form-urlencoded" H (bt_form _ _ _ IC WF FT)) as G.
      destruct (request_bodies _ _ B to_json range range_all cb _ _ fresh _ _ _ _ _ _ _ H W (names_once _ _ H)) as [_ Q].
      remember (get "application/x-www-form-urlencoded" (body_content (op_body o))) as g eqn:Eg. clear Eg.
      destruct G as [N E|E N I|x I1 I2 E N RB|x I1 I2 FT' N RB].
      - exfalso. apply N. cbn [In] in IC |- *. tauto.
      - exfalso. apply (NT E N I).
      - discriminate.
      - destruct RB as (j & defs & s & E1 & E2 & ->). cbn [mt_schema] in Q.
        destruct Q as (s' & df & props & rq & ex & l & Ty & FO & Fl & P). exists j, defs. split; [exact E1|].
        intros t fields required extra O FS FO'. destruct (form_told _ _ _ _ _ Rc O E2 Ty FS) as (s2 & df2 & Es & RQ & K).
        injection Es as <- <-.
        assert (A : js_props s' = props /\ js_required s' = rq) by (destruct FO as [|? [->|[? ->]]]; auto).
        assert (A' : js_props t = fields /\ js_required t = required) by (destruct FO' as [|? [->|[? ->]]]; auto).
        destruct A as [<- <-], A' as [<- <-]. exists l. split; [|exact P]. rewrite <- RQ. clear - K Fl.
        revert l Fl. induction K as [|f f' fs fs' Kf _ IH]; intros l Fl; inversion Fl; subst; constructor; [|auto].
        eapply form_call_kept; eauto.
    Qed.
  End Request.

  Section Response.
    Variables (c : comps Sch) (cu : cunit J Sch) (done : bool).
    Hypothesis rep : represents c.
    Hypothesis reps : reports_response ok D cu.
    Notation walk := (walk_response B to_json range cb c cu done).

    Lemma rsetup_represents c' o r : setup_response B [cu] "GET" (c, mkResps None []) = ((c', o), r) -> represents c'.
    Proof.
      intros H. change (setup_response B [cu] "GET" (c, mkResps None [])) with (setup_response B [cu] "get" (c, mkResps None [])) in H.
      apply (setup_response_from B (response_def "get" cu)) in H; [|left; reflexivity|].
      - eapply from_represents; [|exact H|exact rep]. intros n j Q. apply reps. exact Q.
      - intros x n j [<-|[]] Q. exact Q.
    Qed.

    Lemma rwalk_represents c' r : walk = (c', r) -> represents c'.
    Proof.
      unfold walk_response. destruct (setup_response B [cu] "GET" (c, mkResps None [])) as [[c1 o] [[]| |]] eqn:H; intros E; injection E as <- _;
        eapply rsetup_represents; exact H.
    Qed.

    Hypothesis not_default : cu_default cu = false.
    Hypothesis plain_unit : cu_custom_resp cu = None.

    Lemma response_ok c' evs : walk = (c', (evs, WOk)) ->
      exists r hs hls ms mls, fill_response B cu "get" (c, zero_response) = ((c', r), Ret tt) /\
        Permutation (rs_headers r) hs /\ Forall2 (header_slots Sch to_json c') hs hls /\
        Permutation (rs_content r) ms /\ Forall2 (content_slots Sch to_json c') ms mls /\
        map Ret (calls_of evs) = concat hls ++ concat mls.
    Proof.
      intros W. destruct (setup_response B [cu] "GET" (c, mkResps None [])) as [[c1 rs] [[]| |]] eqn:H;
        [|unfold walk_response in W; rewrite H in W; discriminate..].
      assert (F : exists r, fill_response B cu "get" (c, zero_response) = ((c1, r), Ret tt) /\ exists k, rs_map rs = [(k, mkRor (Some r) None)]).
      { cbn [setup_response] in H. destruct (response_unit B cu "GET" (c, mkResps None [])) as [[c2 rs2] [[]| |]] eqn:E; [|discriminate..].
        injection H as <- <-. unfold response_unit in E.
        unfold current_response, ensure_default, store_response in E. rewrite not_default, plain_unit in E. cbn [rs_map get] in E.
        change (fill_response B cu "GET" (c, zero_response)) with (fill_response B cu "get" (c, zero_response)) in E.
        destruct (fill_response B cu "get" (c, zero_response)) as [[c3 r3] [[]| |]]; [|discriminate..]. injection E as <- <-.
        exists r3. split; [reflexivity|]. eexists. reflexivity. }
      destruct F as (r & F & k & M).
      destruct (response_walk _ _ B to_json range range_all cb c cu done _ _ _ _ H M) as
        (calls & res & plan & W' & (hs & hls & ms & mls & P1 & F1 & P2 & F2 & ->) & X).
      rewrite W in W'. injection W' as -> -> <-.
      destruct (ex_prefix _ _ _ _ _ X) as (l & L & rest & Er & K). cbn [app] in L. subst l. rewrite (K eq_refl), app_nil_r in Er.
      exists r, hs, hls, ms, mls. rewrite calls_of_app, calls_of_map.
      replace (calls_of (if done then [EDone rs] else [])) with (@nil scall) by (destruct done; reflexivity). rewrite app_nil_r. auto 10.
    Qed.

    Lemma slot_call c' loc n b s l k : schema_slot Sch to_json c' loc n b (Some s) l -> l = Ret k ->
      exists x, to_json c' (Some s) = Ret x /\ k = mkSCall loc n (Some x) b.
    Proof. intros S ->. inversion S as [x T Ek|]; subst. eauto. Qed.

    (* The calls of a list of slots. *)
    Lemma all_calls (l1 l2 l : list (out scall)) calls : map Ret calls = l1 ++ l2 -> In l [l1; l2] -> forall sl, In sl l -> exists k, sl = Ret k /\ In k calls.
    Proof.
      intros E I sl S. assert (Q : In sl (l1 ++ l2)) by (destruct I as [<-|[<-|[]]]; apply in_or_app; auto).
      rewrite <- E in Q. apply in_map_iff in Q as (k & <- & Ik). eauto.
    Qed.

    Lemma response_body_told c' evs ct : walk = (c', (evs, WOk)) -> json_shown cu ct -> ~ tag_shown cu ct ->
      exists j x, snd (v_json cu) = Ret j /\ In (mkSCall "body" "body" (Some x) false) (calls_of evs) /\
        (v_content_tags cu = [] -> calls_in "body" (calls_of evs) = [mkSCall "body" "body" (Some x) false]) /\
        (ok j -> tells_of these (env c') (schema j) x).
    Proof.
      intros W JS NT. pose proof (rwalk_represents _ _ W) as Rc.
      destruct (response_ok _ _ W) as (r & hs & hls & ms & mls & F & P1 & F1 & P2 & F2 & E).
      assert (OM : openapi_method "get") by (left; reflexivity).
      pose proof (fill_media B cu "get" _ _ _ _ OM ltac:(discriminate) F) as M.
      pose proof (fill_once B cu "get" _ _ _ _ _ F (conj (NoDup_nil _) (NoDup_nil _))) as [ND1 ND2].
      destruct (M ct) as (m1 & m2 & A1 & _ & _ & A4 & A5 & A6). destruct (A1 JS) as (j & s & E1 & E2 & ->). rewrite (A4 NT) in A5, A6.
      assert (G : exists rest, get ct (rs_content r) = Some (mkMedia (Some (b_unnull B s)) rest)).
      { destruct (type_shown_iff cu ct) as [_ _]. cbn [zero_response rs_content get rest_of] in *.
        destruct (is_empty (before_semicolon (cu_ctype cu))) eqn:IE; [|destruct (String.eqb_spec ct (before_semicolon (cu_ctype cu)))].
        - eexists. apply A6. rewrite type_shown_iff. rewrite IE. intros [? _]. discriminate.
        - eexists. rewrite A5; [cbn [or_else]; reflexivity|]. rewrite type_shown_iff. auto.
        - eexists. apply A6. rewrite type_shown_iff. intros [_ ?]. contradiction. }
      destruct G as [rest G].
      assert (I : In (ct, mkMedia (Some (b_unnull B s)) rest) ms) by (eapply Permutation_in; [exact P2|apply get_In; exact G]).
      destruct (Forall2_left _ _ _ _ F2 I) as (sl & Isl & S).
      inversion S as [|? ? s' l' Es SS]; subst; [cbn [mt_schema] in *; discriminate|]. cbn [mt_schema] in Es. injection Es as <-.
      destruct (all_calls _ _ (concat mls) _ E ltac:(simpl; auto) l') as (k & -> & Ik); [apply in_concat; exists [l']; simpl; auto|].
      destruct (slot_call _ _ _ _ _ _ k SS eq_refl) as (x & Tx & ->). exists j, x.
      split; [exact E1|]. split; [exact Ik|]. split; [|intros O; eapply unnull_told; eauto].
      intros NTG.
      assert (ONE : rs_content r = [(ct, mkMedia (Some (b_unnull B s)) rest)]).
      { assert (OTHER : forall ct', ct' <> ct -> get ct' (rs_content r) = None).
        { intros ct' N. destruct (M ct') as (n1 & n2 & B1 & B2 & B3 & B4 & B5 & B6).
          assert (NS : ~ json_shown cu ct').
          { rewrite json_shown_iff in JS |- *. intros (Q1 & Q2 & Q3). destruct JS as (_ & _ & Q4). congruence. }
          assert (NTY : ~ type_shown cu ct').
          { rewrite type_shown_iff. rewrite json_shown_iff in JS. destruct JS as (_ & _ & Q). intros [Q1 Q2]. rewrite Q1 in Q. congruence. }
          rewrite (B6 NTY), (B4 ltac:(unfold tag_shown; rewrite NTG; intros [_ []])), (B2 NS). reflexivity. }
        destruct (rs_content r) as [|[k m] [|[k2 m3] l]] eqn:ER.
        - discriminate G.
        - cbn [get] in G. destruct (String.eqb_spec ct k) as [->|]; [injection G as ->; reflexivity|discriminate].
        - exfalso. destruct (String.eqb_spec k ct) as [->|N1].
          + assert (N2 : k2 <> ct) by (intros ->; inversion ND2 as [|? ? Q _]; subst; apply Q; simpl; auto).
            specialize (OTHER k2 N2). cbn [get] in OTHER. apply String.eqb_neq in N2. rewrite N2, String.eqb_refl in OTHER. discriminate.
          + specialize (OTHER k N1). cbn [get] in OTHER. rewrite String.eqb_refl in OTHER. discriminate. }
      rewrite ONE in P2. apply Permutation_length_1_inv in P2. subst ms.
      inversion F2 as [|? sl2 ? mls' S2 F2']; subst. inversion F2'; subst. 
      assert (S2' : sl2 = [Ret (mkSCall "body" "body" (Some x) false)]).
      { inversion S2 as [|? ? s' l' Es SS2]; subst; [cbn [mt_schema] in *; discriminate|]. cbn [mt_schema] in Es. injection Es as <-.
        f_equal. inversion SS2 as [y Ty|NP]; subst; [rewrite Tx in Ty; injection Ty as <-; reflexivity|exfalso; eapply NP; exact Tx]. }
      subst sl2. cbn [concat] in E. rewrite app_nil_r in E.
      assert (HD : forall k, In (Ret k) (concat hls) -> k_in k = "header").
      { intros k Ik'. apply in_concat in Ik' as (l & Il & Ik'). destruct (Forall2_in_r _ _ _ _ F1 Il) as (h & _ & Sh).
        inversion Sh as [|? ? ? ? ? ? ? ? ? SS3]; subst; [destruct Ik'|]. destruct Ik' as [->|[]]. inversion SS3; subst. reflexivity. }
      apply map_eq_app in E as (hk & bk & Ec & Eh & Eb). rewrite Ec.
      destruct bk as [|b0 [|? ?]]; try discriminate. injection Eb as ->. unfold calls_in. rewrite filter_app. cbn [filter k_in].
      change (String.eqb "body" "body") with true. cbv iota.
      assert (Z : filter (fun k => String.eqb (k_in k) "body") hk = []).
      { assert (HK : forall k, In k hk -> k_in k = "header") by (intros k Q; apply HD; rewrite <- Eh; apply in_map; exact Q).
        clear - HK. induction hk as [|k hk IH]; [reflexivity|]. cbn [filter]. rewrite (HK k (or_introl eq_refl)).
        change (String.eqb "header" "body") with false. cbv iota. apply IH. intros x I. apply HK. right. exact I. }
      rewrite Z. reflexivity.
    Qed.

    Lemma last_named_some qs n : (exists q : prop J, last_named qs n q) \/ (forall q, In q qs -> considered q = true -> pr_name q <> n).
    Proof.
      induction qs as [|q qs IH]; [right; intros q []|]. destruct IH as [(q' & l1 & l2 & -> & H)|IH].
      - left. exists q', (q :: l1), l2. auto.
      - destruct (considered q) eqn:C; [destruct (String.eqb_spec (pr_name q) n)|].
        + left. exists q, [], qs. auto.
        + right. intros x [<-|I]; auto.
        + right. intros x [<-|I]; [congruence|auto].
    Qed.

    Lemma response_headers_told c' evs : walk = (c', (evs, WOk)) -> cu_nil cu = false ->
      (forall n q, last_named (fst (v_headers cu)) n q ->
         exists k, In k (calls_in "header" (calls_of evs)) /\ header_told schema ok D c' n q k) /\
      (forall k, In k (calls_in "header" (calls_of evs)) ->
         exists n q, last_named (fst (v_headers cu)) n q /\ header_told schema ok D c' n q k) /\
      (forall names, NoDup names -> (forall n, In n names <-> exists q, last_named (fst (v_headers cu)) n q) ->
         List.length (calls_in "header" (calls_of evs)) = List.length names).
    Proof.
      intros W CN. pose proof (rwalk_represents _ _ W) as Rc.
      destruct (response_ok _ _ W) as (r & hs & hls & ms & mls & F & P1 & F1 & P2 & F2 & E).
      pose proof (fill_once B cu "get" _ _ _ _ _ F (conj (NoDup_nil _) (NoDup_nil _))) as [ND1 _].
      pose proof (fill_headers B cu "get" _ _ _ _ CN F) as FH.
      apply map_eq_app in E as (hk & bk & Ec & Eh & Eb). rewrite Ec.
      assert (HB : calls_in "header" bk = []).
      { assert (HK : forall k, In k bk -> k_in k = "body").
        { intros k Ik. assert (Q : In (Ret k) (concat mls)) by (rewrite <- Eb; apply in_map; exact Ik).
          apply in_concat in Q as (l & Il & Q). destruct (Forall2_in_r _ _ _ _ F2 Il) as (h & _ & Sh).
          inversion Sh as [|? ? ? ? ? SS3]; subst; [destruct Q|]. destruct Q as [->|[]]. inversion SS3; subst. reflexivity. }
        clear - HK. unfold calls_in. induction bk as [|k hk IH]; [reflexivity|]. cbn [filter]. rewrite (HK k (or_introl eq_refl)).
        change (String.eqb "body" "header") with false. cbv iota. apply IH. intros x I. apply HK. right. exact I. }
      (* every header has a schema and a call *)
      assert (ALL : forall n h, In (n, h) hs -> exists q, last_named (fst (v_headers cu)) n q /\ renders_header B q h).
      { intros n h I. apply Permutation_sym in P1. apply (Permutation_in _ P1) in I. apply In_get in I; [|exact ND1].
        destruct (FH n) as [G1 G2]. destruct (last_named_some (fst (v_headers cu)) n) as [(q & L)|N].
        - destruct (G1 q L) as (h' & G & RH). rewrite I in G. injection G as <-. exists q. auto.
        - rewrite (G2 N) in I. discriminate. }
      assert (PAIR : Forall2 (fun nh k => k_in k = "header" /\ forall q, last_named (fst (v_headers cu)) (fst nh) q -> renders_header B q (snd nh) ->
          header_told schema ok D c' (fst nh) q k) hs hk).
      { clear - F1 ALL Eh Rc told. revert hk Eh. induction F1 as [|[n h] sl hs hls S F IH]; intros hk Eh.
        - destruct hk; [constructor|discriminate].
        - destruct (ALL n h (or_introl eq_refl)) as (q0 & L0 & (t0 & s0 & d0 & _ & _ & _ & _ & _ & _ & _ & _ & _ & HS0)).
          inversion S as [|? n' ? s b l' Hs CN FL SS]; subst; [congruence|].
          cbn [concat app] in Eh. destruct hk as [|k hk]; [discriminate|]. injection Eh as El Eh. subst l'.
          constructor; [|apply IH; [intros; eapply ALL; right; eauto|exact Eh]].
          destruct (slot_call _ _ _ _ _ _ k SS eq_refl) as (x & Tx & ->). split; [reflexivity|].
          intros q L (t & s2 & d & T & C2 & _ & _ & RQ & _ & _ & _ & _ & HS). cbn [fst snd] in *. rewrite HS in Hs. injection Hs as <-.
          exists t, x. split; [exact T|]. split; [reflexivity|]. split; [exact CN|]. split; [cbn [k_required]; rewrite <- RQ; exact FL|].
          split; [reflexivity|]. intros O. eapply told; eauto. }
      assert (HH : calls_in "header" hk = hk).
      { clear - PAIR. unfold calls_in. induction PAIR as [|x k hs hk [E _] _ IH]; [reflexivity|]. cbn [filter]. rewrite E.
        change (String.eqb "header" "header") with true. cbv iota. f_equal. exact IH. }
      assert (FLT : calls_in "header" (hk ++ bk) = hk).
      { unfold calls_in in *. rewrite filter_app, HH, HB. apply app_nil_r. }
      rewrite FLT. split; [|split].
      - intros n q L. destruct (proj1 (FH n) q L) as (h & G & RH).
        assert (I : In (n, h) hs) by (eapply Permutation_in; [exact P1|apply get_In; exact G]).
        destruct (Forall2_left _ _ _ _ PAIR I) as (k & Ik & _ & K). exists k. split; [exact Ik|]. apply K; assumption.
      - intros k Ik. destruct (Forall2_in_r _ _ _ _ PAIR Ik) as ([n h] & I & _ & K). destruct (ALL n h I) as (q & L & RH).
        exists n, q. split; [exact L|]. apply K; assumption.
      - intros names NN NI. rewrite <- (Forall2_len _ _ _ PAIR), <- (Permutation_length P1). rewrite <- (map_length fst).
        apply Permutation_length. apply NoDup_Permutation; [exact ND1|exact NN|]. intros n. rewrite NI. split.
        + intros I. apply in_map_iff in I as ([n' h] & <- & I). apply (Permutation_in _ P1) in I. destruct (ALL _ _ I) as (q & L & _). eauto.
        + intros (q & L). destruct (proj1 (FH n) q L) as (h & G & _). apply get_In in G. apply in_map_iff. exists (n, h). auto.
    Qed.
  End Response.
End Tell.
