(* The calls of a reflector keep its document well formed. *)
From Coq Require Import ZArith Lia.
From Verif Require Import Str SMap Json PathModel PathSpec PathProofs PathProps Types RegistryModel RegistrySpec RegistryProofs
  ReflectModel ReflectSpec ReflectProofs ReflectProofs2 ReflectComps BodySpec BodyProofs BodyComps
  SchemaModel CodecModel CodecTables CodecSpec CodecProofs ReadModel ReadSpec ReadProofs.

Lemma each_put {A} (P : A -> Prop) k x (m : smap A) : each P m -> P x -> each P (put k x m).
Proof.
  intros [N H] Px. split; [apply NoDup_put; exact N|]. intros k' y I. apply In_get in I; [|apply NoDup_put; exact N].
  rewrite get_put in I. destruct (String.eqb k' k); [injection I as <-; exact Px|]. exact (H k' y (get_In _ _ _ I)).
Qed.
Lemma each_nil {A} (P : A -> Prop) : each P [].
Proof. split; [constructor|]. intros k x []. Qed.
Lemma each_get {A} (P : A -> Prop) (m : smap A) k x : each P m -> get k m = Some x -> P x.
Proof. intros [_ H] G. exact (H k x (get_In _ _ _ G)). Qed.
Lemma keys_legal_put {A} p k (x : A) m : legal p k -> (forall k, In k (keys m) -> legal p k) -> forall k', In k' (keys (put k x m)) -> legal p k'.
Proof. intros L H k' I. apply keys_put in I. destruct I as [->|I]; auto. Qed.

Section Run.
  Variable rnd : Q -> Q.
  Context {J Sch : Type}.
  Variable good good_header : Sch -> Prop.
  Variable styles : string -> list string.
  Variable B : backend J Sch.
  Notation cunit := (cunit J Sch).
  Notation comps := (smap Sch).
  Hypothesis GB : good_backend good B.

  Notation good_por := (good_por good styles).
  Notation good_ror := (good_ror good good_header).
  Notation good_rbor := (good_rbor good).
  Notation inline_body := (inline_body good).
  Notation good_media := (good_media good).

  Lemma json_encoded_dec (q : prop J) : json_encoded q \/ ~ json_encoded q.
  Proof.
    rewrite <- (json_encoded_b q). destruct (_ || _)%bool; [left; reflexivity|right; discriminate].
  Qed.

  Lemma renders_good f x : In (fst f) locations -> (forall s, style_of B (snd f) (Some s) -> In s (styles (fst f))) ->
    renders B f x -> good_por x.
  Proof.
    intros L ST (p & t & ds & -> & T & DS & Ei & _ & RQ & _ & _ & ES & _ & _ & _ & RS & HJ & HN). left. exists p. split; [reflexivity|].
    destruct GB as (G1 & G2 & _). unfold good_param. rewrite Ei. split; [exact L|].
    split; [intros E; rewrite RQ, E; reflexivity|].
    split; [intros s Es; apply ST; exists t, ds; rewrite <- Es; auto|].
    destruct (json_encoded_dec (snd f)) as [D|D].
    - destruct (HJ D) as (S & j & s & _ & C & CT). rewrite S, CT. split; [intros a E; discriminate E|]. split.
      + apply (each_put _ _ _ []); [apply each_nil|]. split; [|reflexivity]. intros a E. injection E as <-. exact (G1 _ _ C).
      + split; [split; [discriminate|reflexivity]|exact RS].
    - destruct (HN D) as (CT & s & C & S). rewrite S, CT. split.
      + intros a E. injection E as <-. destruct (pr_ptr (snd f)); [exact (G1 _ _ C)|exact (G2 _ (G1 _ _ C))].
      + split; [apply each_nil|]. split; [|exact RS]. split; [discriminate|intros N; destruct (N eq_refl)].
  Qed.

  Lemma Forall2_Forall_r {A C} (P : A -> C -> Prop) (Q : C -> Prop) l l' :
    (forall a c, In a l -> P a c -> Q c) -> Forall2 P l l' -> Forall Q l'.
  Proof. intros I F. induction F as [|a c l l' H F IH]; constructor; [eapply I; [left; reflexivity|exact H]|apply IH; intros; eapply I; [right|]; eassumption]. Qed.

  Lemma fields_loc' (cu : cunit) f : In f (param_fields cu) -> In (fst f) locations.
  Proof.
    unfold param_fields. destruct (_ && _)%bool; [|intros []]. intros I. apply in_flat_map in I. destruct I as (loc & L & I).
    apply in_map_iff in I. destruct I as (q & <- & _). exact L.
  Qed.

  Section Op.
    Context {R : Type}.
    Notation op := (operation Sch R).
    Notation st := (comps * op)%type.

    Lemma params_good cus m c (o : op) c' o' u : Forall (good_request good styles B) cus ->
      setup_request B cus m (c, o) = ((c', o'), Ret u) -> Forall good_por (op_params o) -> Forall good_por (op_params o').
    Proof.
      intros GR H P. apply setup_request_adds in H. destruct H as ((new & -> & F & _) & _). apply Forall_app. split; [exact P|].
      eapply Forall2_Forall_r; [|exact F]. intros f x I RF. apply in_flat_map in I. destruct I as (cu & Ic & I).
      rewrite Forall_forall in GR. destruct (GR cu Ic) as [ST _]. eapply renders_good; [eapply fields_loc'; exact I| |exact RF].
      intros s. destruct f as [loc q]. apply ST. exact I.
    Qed.

    (* ---------- extensions ---------- *)

    Definition ext_ok (e : smap json) : Prop := each (clean rnd) e /\ forall k, In k (keys e) -> legal PatX k.
    Definition ext_keep (a b : st) : Prop := ext_ok (op_ext (snd a)) -> ext_ok (op_ext (snd b)).

    Lemma ext_refl a : ext_keep a a. Proof. intros H. exact H. Qed.
    Lemma ext_trans a b c : ext_keep a b -> ext_keep b c -> ext_keep a c.
    Proof. intros H1 H2 H. auto. Qed.

    Lemma parameters_ext cu (a b : st) r : parse_parameters B cu a = (b, r) -> ext_keep a b.
    Proof.
      apply (join_rel _ ext_refl ext_trans).
      assert (P : forall loc s s' r', parse_parameters_in B cu loc s = (s', r') -> ext_keep s s').
      { intros loc s s' r' H. unfold parse_parameters_in in H. destruct (v_slice cu); [injection H as <- <-; apply ext_refl|].
        destruct (v_params cu loc) as [es fin].
        destruct (run_events B loc es s) as [s1 r1] eqn:E. apply run_events_fr in E. destruct E as (_ & _ & E).
        assert (K : ext_keep s s1) by (exact (fun X => eq_ind_r ext_ok X E)).
        destruct r1 as [[]| |]; [|injection H as <- <-; exact K..].
        destruct fin as [[]| |]; [destruct s1 as [c1 o1]|..]; injection H as <- <-; try exact K.
        intros X. destruct (K X) as [K1 K2]. cbn [fst snd set_ext op_ext] in *. split.
        - apply each_put; [exact K1|constructor].
        - apply keys_legal_put; [|exact K2]. exact (legal_x ("forbid-unknown-" ^^ loc)). }
      repeat apply Forall_cons; try apply Forall_nil; intros s s' r'; apply P.
    Qed.

    Lemma request_unit_ext cu m (a b : st) r : request_unit B cu m a = (b, r) -> ext_keep a b.
    Proof.
      unfold request_unit. intros H. destruct (request_content B cu m a) as [[c1 o1] r1] eqn:E.
      assert (PP : forall (s s' : st) r', parse_parameters B cu s = (s', r') -> ext_keep s s') by (intros s s' r'; apply parameters_ext).
      assert (PB : forall mime mp tag more (s s' : st) r', parse_request_body B cu mime m mp tag more s = (s', r') -> ext_keep s s').
      { intros mime mp tag more s s' r' X. apply parse_request_body_fr in X. destruct X as (_ & _ & X). exact (fun Y => eq_ind_r ext_ok Y X). }
      assert (K : ext_keep a (c1, o1)).
      { unfold request_content in E. destruct (String.eqb (cu_ctype cu) "").
        - match type of E with context [join_errors ?fs ?s0] => destruct (join_errors fs s0) as [[c2 o2] r2] eqn:E2 end.
          apply (join_rel _ ext_refl ext_trans) in E2; [|repeat apply Forall_cons; try apply Forall_nil; eauto].
          destruct r2 as [[]| |]; injection E as <- <- <-; try exact E2.
          intros X. destruct (raw_body_fr B cu c2 o2) as (_ & _ & Y). cbn [snd] in *. rewrite Y. exact (E2 X).
        - destruct (String.eqb (cu_ctype cu) mime_json).
          + eapply (join_rel _ ext_refl ext_trans); [|exact E]. repeat apply Forall_cons; try apply Forall_nil; eauto.
          + destruct (_ || _)%bool.
            * eapply (join_rel _ ext_refl ext_trans); [|exact E]. repeat apply Forall_cons; try apply Forall_nil; eauto.
            * destruct a as [c o]. injection E as <- <- <-. intros X. exact X. }
      destruct r1 as [[]| |]; injection H as <- <-; try exact K. intros X.
      destruct (describe_fr cu c1 o1) as (_ & _ & Y). cbn [snd] in *. rewrite Y. exact (K X).
    Qed.

    Lemma setup_request_ext cus m : forall (a b : st) r, setup_request B cus m a = (b, r) -> ext_keep a b.
    Proof.
      induction cus as [|cu cus IH]; intros a b r H; cbn [setup_request] in H.
      - injection H as <- <-. apply ext_refl.
      - destruct (request_unit B cu m a) as [s1 r1] eqn:E. apply request_unit_ext in E.
        destruct r1 as [[]| |]; [|injection H as <- <-; exact E..]. apply IH in H. eapply ext_trans; eauto.
    Qed.

    (* ---------- bodies ---------- *)

    Definition ib (o : op) : Prop := if_some inline_body (op_body o).
    Definition ib_keep (a b : st) : Prop := ib (snd a) -> ib (snd b).
    Lemma ib_refl a : ib_keep a a. Proof. intros H. exact H. Qed.
    Lemma ib_trans a b c : ib_keep a b -> ib_keep b c -> ib_keep a c.
    Proof. intros H1 H2 H. auto. Qed.

    Lemma with_content_ib (o : op) mime s : good s -> ib o -> ib (with_body_content o mime (mkMedia (Some s) JNull)).
    Proof.
      intros G I x E. unfold with_body_content in E. cbn [set_body op_body] in E. injection E as <-.
      assert (GM : good_media (mkMedia (Some s) JNull)) by (split; [intros a Ea; injection Ea as <-; exact G|reflexivity]).
      destruct (op_body o) as [x|] eqn:OB.
      - destruct (I x OB) as (b & -> & C & Rb). cbn [rbor_body rbor_ref]. eexists. split; [reflexivity|].
        split; cbn [rb_content rb_rest]; [apply each_put; assumption|exact Rb].
      - cbn [rbor_body rbor_ref rb_desc rb_content rb_rest]. eexists. split; [reflexivity|].
        split; cbn [rb_content rb_rest]; [apply each_put; [apply each_nil|exact GM]|reflexivity].
    Qed.

    Lemma request_content_ib cu m (a b : st) r : request_content B cu m a = (b, r) -> ib_keep a b.
    Proof.
      destruct GB as (G1 & _ & G3). intros E.
      assert (PP : forall (s s' : st) r', parse_parameters B cu s = (s', r') -> ib_keep s s').
      { intros s s' r' H I. apply parse_parameters_fr in H. destruct H as [_ H]. exact (eq_ind_r (if_some inline_body) I H). }
      assert (PB : forall mime mp tag more (s s' : st) r', parse_request_body B cu mime m mp tag more s = (s', r') -> ib_keep s s').
      { intros mime mp tag more [c o] s' r' H. unfold parse_request_body in H. cbn [fst snd] in H.
        destruct (body_wanted _ _ _ _ _) as [[]| |]; [|injection H as <- <-; apply ib_refl..].
        destruct (v_body cu tag) as [vis res]. destruct res as [[j defs]| |]; [|injection H as <- <-; apply ib_refl..].
        destruct (b_conv B j) as [s| |] eqn:CV; [|injection H as <- <-; apply ib_refl..].
        destruct (put_definitions B c defs) as [c1 r1]. destruct r1 as [[]| |]; injection H as <- <-; try (intros X; exact X).
        intros I. apply with_content_ib; [exact (G1 _ _ CV)|exact I]. }
      unfold request_content in E. destruct (String.eqb (cu_ctype cu) "").
      - match type of E with context [join_errors ?fs ?s0] => destruct (join_errors fs s0) as [[c2 o2] r2] eqn:E2 end.
        apply (join_rel _ ib_refl ib_trans) in E2; [|repeat apply Forall_cons; try apply Forall_nil; eauto].
        destruct r2 as [[]| |]; injection E as <- <-; try exact E2. intros I. specialize (E2 I). cbn [snd] in *.
        unfold parse_raw_request_body. destruct (cu_nil cu); [exact E2|]. clear I. revert o2 E2.
        induction (v_content_tags cu) as [|t l IH]; intros o2 E2; cbn [fold_left]; [exact E2|]. apply IH.
        apply with_content_ib; [apply G3|exact E2].
      - destruct (String.eqb (cu_ctype cu) mime_json).
        + eapply (join_rel _ ib_refl ib_trans); [|exact E]. repeat apply Forall_cons; try apply Forall_nil; eauto.
        + destruct (_ || _)%bool.
          * eapply (join_rel _ ib_refl ib_trans); [|exact E]. repeat apply Forall_cons; try apply Forall_nil; eauto.
          * destruct a as [c o]. injection E as <- <-. intros I. apply with_content_ib; [apply G3|exact I].
    Qed.

    Lemma inline_good x : inline_body x -> good_rbor x.
    Proof. intros (b & -> & G). left. eauto. Qed.

    Lemma describe_ib (cu : cunit) (o : op) : ib o -> ib (describe_body cu o).
    Proof.
      intros I. unfold describe_body. destruct (op_body o) as [rb|] eqn:E; [|exact I]. destruct (I rb E) as (b & -> & C & Rb).
      cbn [rbor_body rbor_ref]. destruct (Str.is_empty (cu_desc cu)); [exact I|]. intros x X. cbn [set_body op_body] in X. injection X as <-.
      eexists. split; [reflexivity|]. split; assumption.
    Qed.
    Lemma describe_good (cu : cunit) (o : op) : if_some good_rbor (op_body o) -> if_some good_rbor (op_body (describe_body cu o)).
    Proof.
      intros I. unfold describe_body. destruct (op_body o) as [rb|] eqn:E; [|rewrite E; exact I].
      destruct (I rb eq_refl) as [(b & -> & C & Rb)|(r & ->)]; cbn [rbor_body rbor_ref]; [|rewrite E; exact I].
      destruct (Str.is_empty (cu_desc cu)); [rewrite E; exact I|]. intros x X. cbn [set_body op_body] in X. injection X as <-.
      left. eexists. split; [reflexivity|]. split; assumption.
    Qed.

    Lemma request_unit_body m cu c (o : op) c' o' u : openapi_method m -> good_request good styles B cu ->
      ((exists ct, body_type m cu ct) -> ib o) -> if_some good_rbor (op_body o) ->
      request_unit B cu m (c, o) = ((c', o'), Ret u) ->
      if_some good_rbor (op_body o') /\ (ib o -> keeps_inline good cu -> ib o').
    Proof.
      intros OM [_ CU] NB GO H. unfold request_unit in H. destruct (request_content B cu m (c, o)) as [[c1 o1] r1] eqn:E.
      destruct r1 as [[]| |]; [|discriminate..]. injection H as <- <- <-.
      pose proof (request_content_ib _ _ _ _ _ E) as K. unfold ib_keep in K. cbn [snd] in K.
      pose proof (content_step _ _ _ _ _ _ _ _ OM E) as S.
      assert (G1 : if_some good_rbor (op_body o1)).
      { destruct (body_type_some_dec _ _ _ _ _ _ _ _ OM E) as [X|X].
        - apply (if_some_imp inline_body); [exact inline_good|]. exact (K (NB X)).
        - rewrite (bs_none _ _ _ _ _ S X). exact GO. }
      assert (G2 := describe_good cu o1 G1). split.
      - unfold customize_body. destruct (cu_custom_req cu) as [f|] eqn:CF; [|exact G2].
        destruct (op_body (describe_body cu o1)) as [rb|] eqn:OB; [|rewrite OB; exact G2].
        intros x X. cbn [set_body op_body] in X. injection X as <-. exact (CU f rb eq_refl (G2 rb eq_refl)).
      - intros I KI. specialize (K I). apply (describe_ib cu) in K. unfold customize_body.
        destruct (cu_custom_req cu) as [f|] eqn:CF; [|exact K].
        destruct (op_body (describe_body cu o1)) as [rb|] eqn:OB; [|exact K].
        intros x X. cbn [set_body op_body] in X. injection X as <-. exact (KI f rb CF (K rb OB)).
    Qed.

    Lemma setup_request_body m cus : openapi_method m -> Forall (good_request good styles B) cus ->
      forall c (o : op) c' o' u, good_bodies good m (op_body o) cus -> if_some good_rbor (op_body o) ->
      setup_request B cus m (c, o) = ((c', o'), Ret u) -> if_some good_rbor (op_body o').
    Proof.
      intros OM. induction cus as [|cu cus IH]; intros GR c o c' o' u NB GO H; cbn [setup_request] in H.
      - injection H as <- <- <-. exact GO.
      - destruct (request_unit B cu m (c, o)) as [[c1 o1] r1] eqn:E. destruct r1 as [[]| |]; [|discriminate..].
        inversion GR as [|x y GR1 GR2]; subst.
        assert (N0 : (exists ct, body_type m cu ct) -> ib o) by (intros (ct & X); exact (proj1 (NB [] cu cus ct eq_refl X))).
        destruct (request_unit_body _ _ _ _ _ _ _ OM GR1 N0 GO E) as [G1 I1].
        refine (IH GR2 c1 o1 c' o' u _ G1 H). intros l1 cu' l2 ct EQ BT. rewrite EQ in NB.
        destruct (NB (cu :: l1) cu' l2 ct eq_refl BT) as [I KI]. inversion KI as [|x y K1 K2]; subst. split; [exact (I1 I K1)|exact K2].
    Qed.
  End Op.

  (* ---------- responses ---------- *)

  Notation good_response := (good_response good good_header).
  Notation good_responses := (good_responses good good_header).
  Notation pst := (comps * response Sch)%type.
  Definition rs_keep (a b : pst) : Prop := good_response (snd a) -> good_response (snd b).
  Lemma rs_refl a : rs_keep a a. Proof. intros H. exact H. Qed.
  Lemma rs_trans a b c : rs_keep a b -> rs_keep b c -> rs_keep a c.
  Proof. intros H1 H2 H. auto. Qed.

  Lemma good_desc d r : good_response r -> good_response (set_desc r d).
  Proof. intros H. exact H. Qed.
  Lemma good_fill_desc d r : good_response r -> good_response (fill_desc d r).
  Proof. intros H. unfold fill_desc. destruct d; [|exact H]. destruct (Str.is_empty _); exact H. Qed.
  Lemma good_put_media ct m r : good_media m -> good_response r -> good_response (set_content r (put ct m (rs_content r))).
  Proof. intros M (H & C & R). split; [exact H|]. split; [apply each_put; assumption|exact R]. Qed.
  Lemma good_ensure ct f r : good_response r -> good_response (ensure_content_type B r ct f).
  Proof.
    destruct GB as (_ & _ & G3). intros H. unfold ensure_content_type. destruct (has _ _); [exact H|]. apply good_put_media; [|exact H].
    split; [intros s E; injection E as <-; apply G3|reflexivity].
  Qed.
  Lemma good_raw cu r : good_response r -> good_response (parse_raw_response_body B cu r).
  Proof.
    destruct GB as (_ & _ & G3). unfold parse_raw_response_body. destruct (cu_nil cu); [auto|]. revert r.
    induction (v_content_tags cu) as [|t l IH]; intros r H; cbn [fold_left]; [exact H|]. apply IH. unfold raw_content.
    destruct (b_v31 B); [|apply good_ensure; exact H]. apply good_put_media; [|exact H].
    split; [intros s E; injection E as <-; apply G3|reflexivity].
  Qed.

  Lemma json_keep cu ct (a b : pst) r : parse_json_response B cu ct a = (b, r) -> rs_keep a b.
  Proof.
    destruct GB as (G1 & G2 & _). destruct a as [c x]. unfold parse_json_response. intros H.
    destruct (cu_nil cu); [injection H as <- <-; apply rs_refl|].
    assert (K : (let (defs, res) := v_json cu in
          match collect_all B c defs with
          | (c, Ret _) =>
              match res with
              | Err => ((c, x), Err)
              | ReflectModel.Panic => ((c, x), ReflectModel.Panic)
              | Ret j =>
                  match b_conv B j with
                  | Err => ((c, x), Err)
                  | ReflectModel.Panic => ((c, x), ReflectModel.Panic)
                  | Ret s =>
                      let s := b_unnull B s in
                      let ct := if Str.is_empty ct then mime_json else ct in
                      let rest := match get ct (rs_content x) with Some m => mt_rest m | None => JNull end in
                      let r := set_content x (put ct (mkMedia (Some s) rest) (rs_content x)) in
                      ((c, fill_desc (b_desc B j) r), Ret tt)
                  end
              end
          | (c, _) => ((c, x), ReflectModel.Panic)
          end) = (b, r) -> rs_keep (c, x) b).
    { clear H. destruct (v_json cu) as [defs res]. destruct (collect_all B c defs) as [c1 r1].
      destruct r1 as [[]| |]; [|intros H; injection H as <- <-; exact (fun Y => Y)..].
      destruct res as [j| |]; [|intros H; injection H as <- <-; exact (fun Y => Y)..].
      destruct (b_conv B j) as [s| |] eqn:CV; [|intros H; injection H as <- <-; exact (fun Y => Y)..].
      cbv zeta. intros H. injection H as <- <-. intros G. cbn [snd] in *. apply good_fill_desc. apply good_put_media; [|exact G].
      split; cbn [mt_schema mt_rest].
      - intros a E. injection E as <-. exact (G2 _ (G1 _ _ CV)).
      - destruct (get _ (rs_content x)) as [m|] eqn:Gm; [|reflexivity]. destruct G as (_ & C & _).
        exact (proj2 (each_get _ _ _ _ C Gm)). }
    destruct (v_has_json cu) as [[]| |]; [exact (K H)|injection H as <- <-; apply rs_refl|exact (K H)|injection H as <- <-; apply rs_refl].
  Qed.

  Lemma headers_keep cu : good_reply good good_header B cu -> forall (a b : pst) r, parse_response_header B cu a = (b, r) -> rs_keep a b.
  Proof.
    intros (_ & GH & _) [c x] b r. unfold parse_response_header. destruct (cu_nil cu); [intros H; injection H as <- <-; apply rs_refl|].
    destruct (v_headers cu) as [qs fin]. cbn [fst] in GH.
    assert (K : forall l res, incl l qs -> each (good_header_obj good_header) res ->
              each (good_header_obj good_header) (fst (run_headers B l res))).
    { induction l as [|q l IH]; intros res I E; cbn [run_headers]; [exact E|].
      destruct (header_callback B q res) as [res' r'] eqn:HC.
      assert (E' : each (good_header_obj good_header) res').
      { unfold header_callback in HC. destruct (negb (pr_processed q) || (1 <? pr_depth q))%bool eqn:CQ; [injection HC as <- <-; exact E|].
        destruct (b_conv B (pr_schema q)) as [s| |] eqn:CV; [|injection HC as <- <-; exact E..].
        destruct (b_deprecated B (pr_schema q) s); [|injection HC as <- <-; exact E..].
        destruct (pr_tags q); [|injection HC as <- <-; exact E..]. injection HC as <- <-. apply each_put; [exact E|].
        exists s. split; [reflexivity|]. apply (GH q s); [apply I; left; reflexivity| |exact CV].
        unfold considered. apply orb_false_iff in CQ. destruct CQ as [C1 C2]. apply negb_false_iff in C1. rewrite C1.
        apply Nat.ltb_ge in C2. apply Nat.leb_le in C2. rewrite C2. reflexivity. }
      destruct r' as [[]| |]; [|exact E'..]. apply IH; [|exact E']. intros y Y. apply I. right. exact Y. }
    specialize (K qs [] (fun y Y => Y) (each_nil _)). destruct (run_headers B qs []) as [res r1]. cbn [fst] in K.
    destruct r1 as [[]| |]; [|intros H; injection H as <- <-; exact (fun Y => Y)..].
    destruct fin as [d| |]; intros H; injection H as <- <-; try exact (fun Y => Y).
    intros (_ & C & R). cbn [snd] in *. apply good_fill_desc. split; [exact K|]. split; assumption.
  Qed.

  Lemma fill_keep cu m : good_reply good good_header B cu -> forall (a b : pst) r, fill_response B cu m a = (b, r) -> rs_keep a b.
  Proof.
    intros GR a b r. unfold fill_response. cbv zeta.
    match goal with |- (match ?f with _ => _ end) = _ -> _ => destruct f as [[c1 r1] u] eqn:F end.
    assert (K : rs_keep a (c1, r1)).
    { destruct (negb _) in F.
      - match type of F with context [join_errors ?fs ?s0] => destruct (join_errors fs s0) as [[c2 o2] r2] eqn:E2 end.
        apply (join_rel _ rs_refl rs_trans) in E2.
        + destruct r2 as [[]| |]; injection F as <- <- <-; try exact E2. intros G. specialize (E2 G). cbn [snd] in *.
          apply (good_raw cu) in E2. destruct (Str.is_empty _); [exact E2|]. apply good_ensure. exact E2.
        + repeat apply Forall_cons; try apply Forall_nil; intros s s' r'; [apply json_keep|apply headers_keep; exact GR].
      - exact (headers_keep cu GR _ _ _ F). }
    destruct u as [[]| |]; intros H; injection H as <- <-; try exact K. intros G. specialize (K G). cbn [snd] in *. clear F.
    assert (K2 : good_response (if Str.is_empty (cu_desc cu) then r1 else set_desc r1 (cu_desc cu))) by (destruct (Str.is_empty (cu_desc cu)); exact K).
    match goal with |- good_response (if ?b then _ else _) => destruct b end; exact K2.
  Qed.

  Definition codes : list Z := map (fun n => (Z.of_nat n + 100)%Z) (seq 0 500).
  Lemma key_legal (cu : cunit) : good_status cu -> cu_default cu = false -> legal PatStatus (response_key cu).
  Proof.
    intros S D. unfold response_key, norm_status. rewrite D. cbn [negb]. rewrite andb_true_r. cbv zeta.
    destruct S as [S|[S|S]]; [congruence|..].
    - apply matches_legal. assert (C : In (cu_status cu) [0; 1; 2; 3; 4; 5]%Z) by (cbn [In]; lia).
      cbn [In] in C. repeat (destruct C as [<-|C]; [vm_compute; reflexivity|]). destruct C.
    - assert (E0 : (cu_status cu =? 0)%Z = false) by (apply Z.eqb_neq; lia). rewrite E0.
      assert (E1 : ((0 <? cu_status cu) && (cu_status cu <? 6))%Z = false) by (apply andb_false_iff; right; apply Z.ltb_ge; lia). rewrite E1.
      assert (C : forallb (fun z => matches PatStatus (itoa z)) codes = true) by (vm_compute; reflexivity).
      rewrite forallb_forall in C. apply matches_legal. apply C. unfold codes. apply in_map_iff.
      exists (Z.to_nat (cu_status cu - 100)). split; [lia|]. apply in_seq. lia.
  Qed.

  Lemma response_keep cu m c rs c' rs' u : good_reply good good_header B cu ->
    response_unit B cu m (c, rs) = ((c', rs'), Ret u) -> good_responses rs -> good_responses rs'.
  Proof.
    intros GR H G. unfold response_unit in H. cbv zeta in H.
    destruct (fill_response B cu m (c, match current_response cu (ensure_default cu rs) with Some r => r | None => zero_response end)) as [[c1 r1] u1] eqn:F.
    destruct u1 as [[]| |]; [|discriminate..]. injection H as <- <- _.
    assert (G0 : good_response (match current_response cu (ensure_default cu rs) with Some r => r | None => zero_response end)).
    { assert (Z : good_response zero_response) by (split; [apply each_nil|]; split; [apply each_nil|reflexivity]).
      destruct G as (D & M & _). unfold current_response, ensure_default. destruct (cu_default cu) eqn:CD; rewrite ?CD.
      - destruct (rs_default rs) as [x|] eqn:E; [|exact Z]. rewrite E. destruct (D x eq_refl) as [(r & -> & Gr)|(r & ->)]; [exact Gr|exact Z].
      - destruct (get _ (rs_map rs)) as [x|] eqn:E; [|exact Z].
        destruct (each_get _ _ _ _ M E) as [(r & -> & Gr)|(r & ->)]; [exact Gr|exact Z]. }
    apply (fill_keep cu m GR) in F. specialize (F G0). cbn [snd] in F.
    assert (GX : good_ror (match cu_custom_resp cu with Some f => f (mkRor (Some r1) None) | None => mkRor (Some r1) None end)).
    { assert (X : good_ror (mkRor (Some r1) None)) by (left; eauto). destruct GR as (_ & _ & CU).
      destruct (cu_custom_resp cu) as [f|] eqn:CF; [exact (CU f _ eq_refl X)|exact X]. }
    destruct G as (D & M & K). unfold store_response, ensure_default. destruct (cu_default cu) eqn:CD; rewrite ?CD.
    - assert (E : rs_map (match rs_default rs with Some _ => rs | None => mkResps (Some (mkRor None None)) (rs_map rs) end) = rs_map rs)
        by (destruct (rs_default rs); reflexivity). rewrite E.
      split; [intros a Ea; injection Ea as <-; exact GX|]. split; assumption.
    - split; [exact D|]. split; [apply each_put; assumption|]. apply keys_legal_put; [|exact K]. apply key_legal; [apply GR|exact CD].
  Qed.

  Lemma responses_keep cus m : Forall (good_reply good good_header B) cus -> forall c rs c' rs' u,
    setup_response B cus m (c, rs) = ((c', rs'), Ret u) -> good_responses rs -> good_responses rs'.
  Proof.
    induction cus as [|cu cus IH]; intros GR c rs c' rs' u H G; cbn [setup_response] in H.
    - injection H as <- <- _. exact G.
    - destruct (response_unit B cu m (c, rs)) as [[c1 rs1] r1] eqn:E. destruct r1 as [[]| |]; [|discriminate..].
      inversion GR as [|x y GR1 GR2]; subst. exact (IH GR2 _ _ _ _ _ H (response_keep _ _ _ _ _ _ _ GR1 E G)).
  Qed.

  (* ---------- an operation ---------- *)

  Lemma setup_keep {R} rget rset c (oc : opctx J Sch R) c' o' : (forall x, rget (rset x) = x) ->
    openapi_method (oc_method oc) -> good_units good good_header styles B oc ->
    good_op rnd good styles (fun x => good_responses (rget x)) (oc_op oc) ->
    setup_oc B rget rset c oc = (c', o', AOk) -> good_op rnd good styles (fun x => good_responses (rget x)) o'.
  Proof.
    intros GS OM (U1 & U2 & U3) (P & Bd & Rs & Se & Ex & K & Re) H.
    apply (setup_oc_ok _ _ _ _ _ _ _ GS) in H. destruct H as (c1 & o1 & rs1 & H1 & _ & H2 & H3 & H4 & H5 & H6 & H7).
    unfold others in H7. injection H7 as _ _ _ _ _ E1 E2. unfold good_op. rewrite H4, H5, H6, E1, E2.
    split; [exact (params_good _ _ _ _ _ _ _ U1 H1 P)|].
    split; [exact (setup_request_body _ _ OM U1 _ _ _ _ _ U3 Bd H1)|].
    split; [rewrite H3; exact (responses_keep _ _ U2 _ _ _ _ _ H2 Rs)|].
    split; [exact Se|]. apply setup_request_ext in H1. destruct (H1 (conj Ex K)) as [X1 X2]. auto.
  Qed.

  Lemma good_no_responses : good_responses (mkResps None []).
  Proof. split; [intros a E; discriminate E|]. split; [apply each_nil|intros k []]. Qed.

  Lemma ensure_keep rs : good_responses rs -> good_responses (ensure_response rs).
  Proof.
    intros (D & M & K). unfold ensure_response. destruct (rs_map rs) as [|kv m] eqn:E; [|rewrite <- E in *; split; auto].
    destruct (rs_default rs) as [x|] eqn:E2; [rewrite <- E2, <- E in *; split; [exact D|split; assumption]|].
    split; [intros a X; discriminate X|]. split.
    - cbn [rs_map]. apply each_put; [apply each_nil|]. left. eexists. split; [reflexivity|].
      split; [apply each_nil|]. split; [apply each_nil|reflexivity].
    - cbn [rs_map]. apply keys_legal_put; [apply matches_legal; vm_compute; reflexivity|exact K].
  Qed.

  (* ---------- components ---------- *)

  Lemma comps_keep {R} rget rset c (oc : opctx J Sch R) c' o' a : openapi_method (oc_method oc) ->
    setup_oc B rget rset c oc = (c', o', a) -> each good c -> each good c'.
  Proof.
    intros OM H (N & C). apply (setup_oc_from _ _ _ _ _ _ _ _ OM) in H. destruct H as [F ND]. specialize (ND N).
    split; [exact ND|]. intros n s I. destruct (F n s (In_get _ _ _ ND I)) as [G0|(j & D & CV)].
    - apply get_In in G0. exact (C _ _ G0).
    - exact (proj1 GB _ _ CV).
  Qed.

  Lemma names_keep {R} rget rset c (oc : opctx J Sch R) c' o' a : openapi_method (oc_method oc) ->
    (forall n j, call_def (oc_method oc) (oc_req oc) (oc_resp oc) n j -> legal PatName n) ->
    setup_oc B rget rset c oc = (c', o', a) -> each good c ->
    (forall k, In k (keys c) -> legal PatName k) -> forall k, In k (keys c') -> legal PatName k.
  Proof.
    intros OM U H (N & _) K. apply (setup_oc_from _ _ _ _ _ _ _ _ OM) in H. destruct H as [F ND]. specialize (ND N).
    intros n I. unfold keys in I. apply in_map_iff in I. destruct I as ((n' & s) & <- & I). cbn [fst].
    destruct (F n' s (In_get _ _ _ ND I)) as [G0|(j & D & CV)]; [|exact (U _ _ D)].
    apply K. unfold keys. change n' with (fst (n', s)). apply in_map. apply get_In. exact G0.
  Qed.
End Run.

Lemma clean_path_sanitize method path m p ps : RegistrySpec.clean path -> sanitize_method_path method path = Some (m, p, ps) ->
  p = path /\ openapi_method m.
Proof.
  intros C S. pose proof (clean_sanitize method path C) as X. rewrite S in X. split; [exact X|].
  exact (proj1 (C01_method_accepted _ _ _ _ _ S)).
Qed.
Lemma method_legal m : openapi_method m -> legal PatMethod m.
Proof. intros OM. constructor. unfold openapi_method in OM. cbn [In]. intuition auto. Qed.

(* ------------------------------------------------------------------ *)
(* openapi3                                                              *)

Section Run30.
  Variable rnd : Q -> Q.
  Context {J Sch : Type}.
  Variable sv : Sch -> val.
  Variable B : backend J Sch.
  Notation good := (sgood rnd Sch sv).
  Hypothesis GB : good_backend good B.
  Notation doc_ok := (doc_ok30 rnd Sch sv).
  Notation comps_ok := (comps_ok30 rnd Sch sv).
  Notation good_call := (good_call30 rnd good good styles30 B).

  Lemma add_keep30 s m path o s' e : RegistrySpec.clean path -> legal PatSlash path -> good_op30 rnd good good styles30 o -> doc_ok s ->
    add_operation30 s m path o = (s', e) -> doc_ok s'.
  Proof.
    intros C L G D H. destruct e as [e|]; [apply add30_err in H; subst s'; exact D|].
    apply add30_ok in H. destruct H as (m' & p & ps & S & _ & _ & ->). apply (clean_path_sanitize _ _ _ _ _ C) in S. destruct S as [-> OM].
    destruct D as [D1 D2]. cbv zeta. split; cbn [sp30_items]; [|apply keys_legal_put; assumption].
    apply each_put; [exact D1|].
    assert (IO : item_ok30 rnd Sch sv (item30 s path)).
    { unfold item30. destruct (get path (sp30_items s)) as [i|] eqn:E; [exact (each_get _ _ _ _ D1 E)|].
      split; [apply each_nil|]. split; [intros k []|reflexivity]. }
    destruct IO as (I1 & I2 & I3). split; cbn [pi_ops pi30_rest]; [|split; [apply keys_legal_put; [apply method_legal; exact OM|exact I2]|exact I3]].
    apply each_put; [exact I1|]. destruct G as (P & Bd & Rs & G). split; [exact P|]. split; [exact Bd|]. split; [|exact G].
    apply ensure_keep. exact Rs.
  Qed.

  Lemma step_keep30 r oc : good_call oc -> doc_ok (r30_paths r) -> comps_ok (r30_comps r) ->
    doc_ok (r30_paths (rstep30 B r oc)) /\ comps_ok (r30_comps (rstep30 B r oc)).
  Proof.
    intros (M & L & G & U & NM) D C. apply made30_ok in M. destruct M as (OM & CL & _). unfold rstep30, reflector_add30.
    destruct (setup_oc30 B (r30_comps r) oc) as [[c o] a] eqn:E.
    assert (C' : comps_ok c) by (split; [exact (comps_keep good B GB _ _ _ _ _ _ _ OM E (proj1 C))
                                         |exact (names_keep good B _ _ _ _ _ _ _ OM NM E (proj1 C) (proj2 C))]).
    destruct a; [|exact (conj D C')..].
    apply (setup_keep rnd good good styles30 B GB _ _ _ _ _ _ (fun x => eq_refl) OM U G) in E.
    destruct (add_operation30 (r30_paths r) (oc_method oc) (oc_path oc) o) as [p e] eqn:EA. cbn [fst r30_paths r30_comps].
    split; [|exact C']. exact (add_keep30 _ _ _ _ _ _ CL L E D EA).
  Qed.

  Lemma run_keep30 l : Forall good_call l -> forall r, doc_ok (r30_paths r) -> comps_ok (r30_comps r) ->
    doc_ok (r30_paths (rrun30 B r l)) /\ comps_ok (r30_comps (rrun30 B r l)).
  Proof.
    unfold rrun30. induction l as [|oc l IH]; intros F r D C; cbn [fold_left]; [auto|]. inversion F as [|x y F1 F2]; subst.
    destruct (step_keep30 r oc F1 D C) as [D' C']. exact (IH F2 _ D' C').
  Qed.
End Run30.

(* ------------------------------------------------------------------ *)
(* openapi31                                                             *)

Section Run31.
  Variable rnd : Q -> Q.
  Context {J : Type}.
  Variable B : backend J sch31.
  Notation good := (good31 rnd).
  Notation goodh := (good_header31 rnd).
  Hypothesis GB : good_backend good B.
  Notation doc_ok := (doc_ok31 rnd).
  Notation comps_ok := (comps_ok31 rnd).
  Notation good_call := (good_call31 rnd good goodh styles31 B).

  Lemma ensure_keep31 o : good_op31 rnd good goodh styles31 o -> good_op31 rnd good goodh styles31 (ensure_response31 o).
  Proof.
    intros (P & Bd & Rs & G). split; [exact P|]. split; [exact Bd|]. split; [|exact G]. intros x E. injection E as <-. apply ensure_keep.
    destruct (op_responses o) as [rs|] eqn:E; [exact (Rs rs eq_refl)|apply good_no_responses].
  Qed.

  Lemma set_keep i m o i' : good_op31 rnd good goodh styles31 o -> item_ok31 rnd i -> pi_set_operation i m (Some o) = Some i' -> item_ok31 rnd i'.
  Proof.
    intros G (F & R) H. destruct i as [g pu po d op h pa t r]. cbn [pi_get pi_put pi_post pi_delete pi_options pi_head pi_patch pi_trace pi31_rest] in F, R.
    assert (X : if_some (good_op31 rnd good goodh styles31) (Some o)) by (intros a E; injection E as <-; exact G).
    repeat match goal with H : Forall _ (_ :: _) |- _ => inversion H; clear H; subst end.
    unfold pi_set_operation in H. cbv zeta in H.
    repeat match type of H with (if ?b then _ else _) = _ => destruct b end; try discriminate H; injection H as <-;
      (split; [repeat (apply Forall_cons; [assumption|]); apply Forall_nil|first [assumption|reflexivity]]).
  Qed.

  Lemma zero_item_ok : item_ok31 rnd zero_pitem31.
  Proof. split; [|reflexivity]. repeat (apply Forall_cons; [intros a E; discriminate E|]); apply Forall_nil. Qed.

  Lemma paths_ens_ok s s0 items : paths_ens s = (s0, items) -> doc_ok s ->
    doc_ok s0 /\ sp31_items s0 = Some items /\ (each (item_ok31 rnd) items /\ forall k, In k (keys items) -> legal PatSlash k).
  Proof.
    unfold paths_ens. intros H D. destruct (sp31_items s) as [m|] eqn:E; injection H as <- <-.
    - split; [exact D|]. split; [exact E|]. exact (proj1 D m E).
    - destruct D as [_ D2]. assert (X : each (item_ok31 rnd) [] /\ forall k, In k (keys (@nil (string * pitem31 sch31))) -> legal PatSlash k)
        by (split; [apply each_nil|intros k []]).
      split; [|split; [reflexivity|exact X]]. split; [|exact D2]. intros m Em. injection Em as <-. exact X.
  Qed.

  Lemma setup_keep31 s m path o s' e : RegistrySpec.clean path -> legal PatSlash path -> good_op31 rnd good goodh styles31 o -> doc_ok s ->
    setup_operation31 s m path [fun _ => (o, false)] = (s', e) -> doc_ok s'.
  Proof.
    intros C L G D H. unfold setup_operation31 in H. destruct (sanitize_method_path m path) as [[[m' p] ps]|] eqn:S; [|injection H as <- <-; exact D].
    apply (clean_path_sanitize _ _ _ _ _ C) in S. destruct S as [-> OM].
    destruct (paths_ens s) as [s0 items] eqn:PE. apply paths_ens_ok in PE; [|exact D]. destruct PE as (D0 & ED & EI).
    destruct (pi_operation (item31 items path) m') as [ex|]; [|injection H as <- <-; exact D0].
    cbn [run_setups] in H. cbv zeta in H.
    assert (W : forall i', pi_set_operation (item31 items path) m' (Some o) = Some i' -> doc_ok (set_items31 s0 (put path i' items))).
    { intros i' E. apply (set_keep _ _ _ _ G) in E; [|unfold item31; destruct (get path items) as [i|] eqn:Gi; [exact (each_get _ _ _ _ (proj1 EI) Gi)|exact zero_item_ok]].
      destruct D0 as [_ D2]. split; cbn [set_items31 sp31_items sp31_webhooks]; [|exact D2].
      intros m0 E0. injection E0 as <-. split; [apply each_put; [apply EI|exact E]|apply keys_legal_put; [exact L|apply EI]]. }
    destruct (validate_path_params (op_params o) ps).
    - destruct (pi_set_operation (item31 items path) m' (Some o)) as [i'|] eqn:E; injection H as <- <-; auto; destruct ex; auto.
    - destruct ex as [x|]; [|injection H as <- <-; exact D0].
      destruct (pi_set_operation (item31 items path) m' (Some o)) as [i'|] eqn:E; injection H as <- <-; auto.
  Qed.

  Lemma add_keep31 s m path o s' e : RegistrySpec.clean path -> legal PatSlash path -> good_op31 rnd good goodh styles31 o -> doc_ok s ->
    add_operation31 s m path o = (s', e) -> doc_ok s'.
  Proof.
    intros C L G D H. unfold add_operation31 in H. cbv zeta in H.
    destruct (paths_ens s) as [s0 items] eqn:PE. apply paths_ens_ok in PE; [|exact D]. destruct PE as (D0 & _).
    destruct (pi_operation _ _) as [[x|]|]; [injection H as <- <-; exact D0| |injection H as <- <-; exact D0].
    eapply setup_keep31; [exact C|exact L| |exact D0|exact H]. apply ensure_keep31. exact G.
  Qed.

  Lemma webhook_keep31 s m n o s' e : good_op31 rnd good goodh styles31 o -> doc_ok s -> add_webhook31 s m n o = (s', e) -> doc_ok s'.
  Proof.
    intros G D H. unfold add_webhook31 in H. cbv zeta in H. destruct (has _ _); [injection H as <- <-; exact D|].
    destruct (sanitize_method_path _ _) as [[[m' p] ps]|]; [|injection H as <- <-; exact D].
    destruct (pi_set_operation _ _ _) as [i|] eqn:E; injection H as <- <-; [|exact D].
    apply (set_keep _ _ _ _ (ensure_keep31 _ G) zero_item_ok) in E. destruct D as [D1 D2]. split; [exact D1|].
    apply each_put; assumption.
  Qed.

  Lemma step_keep31 r a : good_call a -> doc_ok (r31_paths r) -> comps_ok (r31_comps r) ->
    doc_ok (r31_paths (rstep31 B r a)) /\ comps_ok (r31_comps (rstep31 B r a)).
  Proof.
    destruct a as [wh oc]. intros (M & L & G & U) D C. cbn [fst snd] in *. apply made31_ok in M. destruct M as (OM & CL & _).
    unfold rstep31. cbn [fst snd]. unfold reflector_add31, reflector_webhook31.
    destruct (setup_oc31 B (r31_comps r) oc) as [[c o] x] eqn:E.
    pose proof (comps_keep good B GB _ _ _ _ _ _ _ OM E) as C'.
    destruct x; [|destruct wh; exact (conj D (C' C))..].
    assert (G' : good_op rnd good styles31 (fun x => good_responses good goodh (ens x)) (oc_op oc)).
    { destruct G as (P & Bd & Rs & G). split; [exact P|]. split; [exact Bd|]. split; [|exact G].
      destruct (op_responses (oc_op oc)) as [rs|] eqn:ER; [exact (Rs rs eq_refl)|apply good_no_responses]. }
    apply (setup_keep rnd good goodh styles31 B GB ens Some _ _ _ _ (fun x => eq_refl) OM U G') in E.
    assert (G2 : good_op31 rnd good goodh styles31 o).
    { destruct E as (P & Bd & Rs & E). split; [exact P|]. split; [exact Bd|]. split; [|exact E].
      intros rs ER. rewrite ER in Rs. exact Rs. }
    destruct wh.
    - destruct (add_webhook31 (r31_paths r) (oc_method oc) (oc_path oc) o) as [p e] eqn:EA. cbn [fst r31_paths r31_comps].
      split; [|exact (C' C)]. exact (webhook_keep31 _ _ _ _ _ _ G2 D EA).
    - destruct (add_operation31 (r31_paths r) (oc_method oc) (oc_path oc) o) as [p e] eqn:EA. cbn [fst r31_paths r31_comps].
      split; [|exact (C' C)]. exact (add_keep31 _ _ _ _ _ _ CL (L eq_refl) G2 D EA).
  Qed.

  Lemma run_keep31 l : Forall good_call l -> forall r, doc_ok (r31_paths r) -> comps_ok (r31_comps r) ->
    doc_ok (r31_paths (rrun31 B r l)) /\ comps_ok (r31_comps (rrun31 B r l)).
  Proof.
    unfold rrun31. induction l as [|oc l IH]; intros F r D C; cbn [fold_left]; [auto|]. inversion F as [|x y F1 F2]; subst.
    destruct (step_keep31 r oc F1 D C) as [D' C']. exact (IH F2 _ D' C').
  Qed.
End Run31.
