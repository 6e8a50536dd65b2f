From Coq Require Import ZArith Decimal DecimalString DecimalFacts DecimalZ.
From Verif Require Import Str SMap Json PathModel PathSpec PathProofs Types.
From Verif Require Import RegistryModel RegistrySpec RegistryProofs ReflectModel ReflectSpec.

(* ---------- decimal numerals ---------- *)

Lemma itoa_int z : NilZero.int_of_string (itoa z) = Some (Z.to_int z).
Proof.
  unfold itoa. apply NilZero.isi; intros E;
  pose proof (DecimalZ.of_to z) as H; rewrite E in H; simpl in H; subst z; discriminate E.
Qed.

Lemma itoa_numeral z : numeral z (itoa z).
Proof.
  exists (Z.to_int z). split; [apply itoa_int|]. split.
  - rewrite <- (DecimalZ.to_of (Z.to_int z)), DecimalZ.of_to. reflexivity.
  - apply DecimalZ.of_to.
Qed.

Lemma numeral_itoa z s : numeral z s -> s = itoa z.
Proof.
  intros (d & H1 & H2 & H3). subst z. unfold itoa. rewrite DecimalZ.to_of, H2.
  symmetry. apply NilZero.sis. exact H1.
Qed.

Lemma itoa_inj a b : itoa a = itoa b -> a = b.
Proof.
  intros E. pose proof (itoa_int a) as H. rewrite E, itoa_int in H. injection H as H.
  rewrite <- (DecimalZ.of_to a), <- (DecimalZ.of_to b), H. reflexivity.
Qed.

Lemma numeral_inj a b s : numeral a s -> numeral b s -> a = b.
Proof. intros H1 H2. apply numeral_itoa in H1, H2. apply itoa_inj. congruence. Qed.

Lemma before_semicolon_base s : base_type s (before_semicolon s).
Proof.
  unfold before_semicolon, base_type. induction s as [|c s [IH1 IH2]]; simpl.
  - split; auto. intros a b H. destruct a; discriminate.
  - destruct (Ascii.eqb_spec c ";") as [->|N]; simpl.
    + split; [intros a b H; destruct a; discriminate|]. right. exists s. reflexivity.
    + destruct (span _ s) as [a b]; simpl in *. split.
      * intros a' b' H. destruct a' as [|x a']; simpl in H; injection H as -> H; [congruence|]. eapply IH1. exact H.
      * destruct IH2 as [->|[r ->]]; [auto|]. right. exists r. reflexivity.
Qed.

Lemma base_type_unique s b b' : base_type s b -> base_type s b' -> b = b'.
Proof.
  revert b b'. induction s as [|c s IH]; intros b b' [N H] [N' H'].
  - destruct b; [|destruct H as [H|[r H]]; discriminate].
    destruct b'; [reflexivity|destruct H' as [H'|[r H']]; discriminate].
  - assert (P : forall b, no_char ";" b -> String c s = b \/ (exists r, String c s = b ^^ ";" ^^ r) ->
       b = "" /\ c = ";"%char \/ exists b0, b = String c b0 /\ c <> ";"%char /\ base_type s b0).
    { clear. intros b N H. destruct b as [|d b].
      - destruct H as [H|[r H]]; [discriminate|]. injection H as -> _. auto.
      - right. exists b. assert (c = d) as <- by (destruct H as [H|[r H]]; injection H; congruence).
        split; [reflexivity|]. split; [intros ->; apply (N "" b); reflexivity|].
        split; [intros x y E; apply (N (String c x) y); simpl; congruence|].
        destruct H as [H|[r H]]; injection H as H; [left; exact H|right; exists r; exact H]. }
    destruct (P b N H) as [[-> E]|(b0 & -> & E & H0)]; destruct (P b' N' H') as [[-> E']|(b0' & -> & E' & H0')];
      try congruence. f_equal. eapply IH; eauto.
Qed.

(* ---------- joinErrors ---------- *)

Lemma join_rel {S : Type} (Rel : S -> S -> Prop) :
  (forall s, Rel s s) -> (forall a b c, Rel a b -> Rel b c -> Rel a c) ->
  forall fs, Forall (fun f : S -> S * out unit => forall s s' r, f s = (s', r) -> Rel s s') fs ->
  forall s s' r, join_errors fs s = (s', r) -> Rel s s'.
Proof.
  intros R0 RT fs F. induction F as [|f fs H F IH]; intros s s' r E; simpl in E.
  - injection E as <- <-. apply R0.
  - destruct (f s) as [s1 r1] eqn:E1. apply H in E1.
    destruct (join_errors fs s1) as [s2 r2] eqn:E2. apply IH in E2.
    destruct r1; [| |injection E as <- <-; exact E1];
    destruct r2; injection E as <- <-; eapply RT; eauto.
Qed.

Lemma join_cons {S : Type} (f : S -> S * out unit) fs s s' u :
  join_errors (f :: fs) s = (s', Ret u) ->
  exists s1, f s = (s1, Ret tt) /\ join_errors fs s1 = (s', Ret tt).
Proof.
  simpl. destruct (f s) as [s1 r1] eqn:E1. intros E.
  destruct r1 as [[]| |]; [| |discriminate].
  - destruct (join_errors fs s1) as [s2 r2] eqn:E2. destruct r2 as [[]| |]; try discriminate.
    injection E as <- <-. eauto.
  - destruct (join_errors fs s1) as [s2 r2]. destruct r2 as [[]| |]; discriminate.
Qed.

Section Proofs.
  Context {J Sch : Type}.
  Variable B : backend J Sch.
  Notation cunit := (cunit J Sch).
  Notation prop := (prop J).
  Notation responses := (responses Sch).
  Notation response := (response Sch).
  Notation comps := (smap Sch).

  (* ---------- components ---------- *)

  Lemma grows_refl (c : comps) : grows c c.
  Proof. intros k H. exact H. Qed.
  Lemma grows_trans (a b c : comps) : grows a b -> grows b c -> grows a c.
  Proof. intros H1 H2 k H. auto. Qed.
  Lemma grows_put n (s : Sch) c : grows c (put n s c).
  Proof. intros k H. apply keys_put. auto. Qed.
  Hint Resolve grows_refl grows_put : core.

  Lemma collect_definition_grows c n j c' r : collect_definition B c n j = (c', r) -> grows c c'.
  Proof.
    unfold collect_definition. destruct (has n c); [intros H; injection H as <- <-; auto|].
    destruct (b_conv B j); intros H; injection H as <- <-; auto.
  Qed.

  Lemma collect_all_grows l : forall c c' r, collect_all B c l = (c', r) -> grows c c'.
  Proof.
    induction l as [|[n j] l IH]; intros c c' r H; simpl in H.
    - injection H as <- <-. auto.
    - destruct (collect_definition B c n j) as [c1 r1] eqn:E. apply collect_definition_grows in E.
      destruct r1; [|injection H as <- <-; exact E..]. apply IH in H. eapply grows_trans; eauto.
  Qed.

  Lemma put_definitions_grows l : forall c c' r, put_definitions B c l = (c', r) -> grows c c'.
  Proof.
    induction l as [|[n j] l IH]; intros c c' r H; simpl in H.
    - injection H as <- <-. auto.
    - destruct (b_conv B j) as [s| |]; [|injection H as <- <-; auto..].
      apply IH in H. eapply grows_trans; eauto.
  Qed.

  Lemma build_param_grows c loc q c' r : build_param B c loc q = (c', r) -> grows c c'.
  Proof.
    unfold build_param. intros H.
    destruct (b_conv B (pr_schema q)) as [s| |]; [|injection H as <- <-; auto..].
    destruct (_ || _)%bool.
    - destruct (collect_all B c (pr_json_defs q)) as [c1 r1] eqn:E. apply collect_all_grows in E.
      destruct r1 as [[]| |]; [|injection H as <- <-; exact E..].
      destruct (pr_json q) as [j| |]; [|injection H as <- <-; exact E..].
      destruct (b_conv B j); [|injection H as <- <-; exact E..].
      destruct (pr_tags q); injection H as <- <-; exact E.
    - destruct (pr_plain q) as [[]| |]; [| |injection H as <- <-; auto..];
      destruct (pr_tags q); injection H as <- <-; auto.
  Qed.

  (* ---------- requests: frame ---------- *)

  Section Op.
  Context {R : Type}.
  Notation op := (operation Sch R).

  Definition others (o : op) :=
    (op_tags o, op_summary o, op_desc o, op_id o, op_deprecated o, op_security o, op_rest o).

  Definition fr (st st' : comps * op) : Prop :=
    grows (fst st) (fst st') /\ op_responses (snd st') = op_responses (snd st) /\ others (snd st') = others (snd st).

  Lemma fr_refl st : fr st st. Proof. repeat split; auto. Qed.
  Lemma fr_trans a b c : fr a b -> fr b c -> fr a c.
  Proof. intros (H1 & H2 & H3) (H4 & H5 & H6). split; [eapply grows_trans; eauto|]. split; congruence. Qed.
  Hint Resolve fr_refl : core.

  Lemma param_callback_fr loc q st st' r : param_callback B loc q st = (st', r) ->
    fr st st' /\ op_body (snd st') = op_body (snd st) /\ op_ext (snd st') = op_ext (snd st).
  Proof.
    unfold param_callback. destruct st as [c o]. intros H.
    destruct (_ || _)%bool; [injection H as <- <-; auto|].
    destruct (build_param B c loc q) as [c1 r1] eqn:E. apply build_param_grows in E.
    destruct r1 as [p| |]; [|injection H as <- <-; repeat split; exact E..].
    destruct (already_exists _ _ _); injection H as <- <-; repeat split; exact E.
  Qed.

  Lemma run_events_fr loc es : forall st st' r, run_events B loc es st = (st', r) ->
    fr st st' /\ op_body (snd st') = op_body (snd st) /\ op_ext (snd st') = op_ext (snd st).
  Proof.
    induction es as [|e es IH]; intros st st' r H; simpl in H.
    - injection H as <- <-; auto.
    - match type of H with (match ?x with _ => _ end) = _ => destruct x as [st1 r1] eqn:E end.
      assert (P : fr st st1 /\ op_body (snd st1) = op_body (snd st) /\ op_ext (snd st1) = op_ext (snd st)).
      { destruct e as [q|n j].
        - eapply param_callback_fr; eauto.
        - destruct (collect_definition B (fst st) n j) as [c x] eqn:E2. apply collect_definition_grows in E2.
          injection E as <- <-. repeat split; exact E2. }
      destruct P as (P1 & P2 & P3).
      destruct r1 as [[]| |]; [|injection H as <- <-; auto..].
      apply IH in H. destruct H as (Q1 & Q2 & Q3). split; [eapply fr_trans; eauto|]. split; congruence.
  Qed.

  Lemma parse_parameters_in_fr cu loc st st' r : parse_parameters_in B cu loc st = (st', r) ->
    fr st st' /\ op_body (snd st') = op_body (snd st).
  Proof.
    unfold parse_parameters_in. intros H. destruct (v_slice cu); [injection H as <- <-; auto|].
    destruct (v_params cu loc) as [es fin].
    destruct (run_events B loc es st) as [st1 r1] eqn:E. apply run_events_fr in E. destruct E as (E & E2 & E3).
    destruct r1 as [[]| |]; [|injection H as <- <-; auto..].
    destruct fin as [[]| |]; [destruct st1 as [c1 o1]|..]; injection H as <- <-; auto.
  Qed.

  Lemma parse_parameters_fr cu st st' r : parse_parameters B cu st = (st', r) ->
    fr st st' /\ op_body (snd st') = op_body (snd st).
  Proof.
    apply (join_rel (fun a b => fr a b /\ op_body (snd b) = op_body (snd a))).
    - auto.
    - intros a b c (H1 & H2) (H3 & H4). split; [eapply fr_trans; eauto|congruence].
    - repeat apply Forall_cons; try apply Forall_nil; intros s s' r'; apply parse_parameters_in_fr.
  Qed.

  Definition samepar (st st' : comps * op) : Prop :=
    fr st st' /\ op_params (snd st') = op_params (snd st) /\ op_ext (snd st') = op_ext (snd st).

  Lemma parse_request_body_fr cu mime m mp tag more st st' r :
    parse_request_body B cu mime m mp tag more st = (st', r) -> samepar st st'.
  Proof.
    unfold parse_request_body, samepar. intros H.
    destruct (body_wanted _ _ _ _ _) as [[]| |]; [|injection H as <- <-; auto..].
    destruct (v_body cu tag) as [vis res]. destruct res as [[j defs]| |]; [|injection H as <- <-; auto..].
    destruct (b_conv B j); [|injection H as <- <-; auto..].
    destruct (put_definitions B (fst st) defs) as [c1 r1] eqn:E. apply put_definitions_grows in E.
    destruct r1 as [[]| |]; injection H as <- <-; repeat split; exact E.
  Qed.

  Lemma raw_body_fr cu c (o : op) : samepar (c, o) (c, parse_raw_request_body B cu o).
  Proof.
    unfold parse_raw_request_body. destruct (cu_nil cu); [repeat split; auto|].
    generalize (v_content_tags cu). intros l. revert o.
    induction l as [|t l IH]; intros o; simpl; [repeat split; auto|].
    destruct (IH (string_request_body B o t "")) as (H1 & H2 & H3). destruct H1 as (H11 & H12 & H13).
    unfold samepar, fr in *. simpl in *. repeat split; auto.
  Qed.

  Lemma describe_fr (cu : cunit) c (o : op) : samepar (c, o) (c, customize_body cu (describe_body cu o)).
  Proof.
    unfold customize_body, describe_body, samepar, fr.
    destruct o as [t s d i ps [[[b|] rf]|] rs dp se ex re]; simpl;
      [destruct (is_empty (cu_desc cu))|..]; destruct (cu_custom_req cu); simpl; repeat split; auto.
  Qed.

  Lemma request_content_fr cu m st st' r : request_content B cu m st = (st', r) -> fr st st'.
  Proof.
    unfold request_content. intros H.
    assert (P1 : forall (s s' : comps * op) r', parse_parameters B cu s = (s', r') -> fr s s')
      by (intros s s' r' E; apply parse_parameters_fr in E; apply E).
    assert (P2 : forall mime mp tag more (s s' : comps * op) r',
      parse_request_body B cu mime m mp tag more s = (s', r') -> fr s s')
      by (intros mime mp tag more s s' r' E; apply parse_request_body_fr in E; apply E).
    destruct (String.eqb (cu_ctype cu) "").
    - destruct (join_errors _ st) as [[c1 o1] r1] eqn:E.
      apply (join_rel fr fr_refl fr_trans) in E.
      + destruct r1 as [[]| |]; injection H as <- <-; try exact E.
        eapply fr_trans; [exact E|]. apply raw_body_fr.
      + repeat apply Forall_cons; try apply Forall_nil; eauto.
    - destruct (String.eqb (cu_ctype cu) mime_json).
      + eapply (join_rel fr fr_refl fr_trans); [|exact H]. repeat apply Forall_cons; try apply Forall_nil; eauto.
      + destruct (_ || _)%bool.
        * eapply (join_rel fr fr_refl fr_trans); [|exact H]. repeat apply Forall_cons; try apply Forall_nil; eauto.
        * destruct st as [c o]. injection H as <- <-. repeat split; auto.
  Qed.

  Lemma request_unit_fr cu m st st' r : request_unit B cu m st = (st', r) -> fr st st'.
  Proof.
    unfold request_unit. intros H. destruct (request_content B cu m st) as [[c1 o1] r1] eqn:E.
    apply request_content_fr in E.
    destruct r1 as [[]| |]; injection H as <- <-; try exact E.
    eapply fr_trans; [exact E|]. apply describe_fr.
  Qed.

  Lemma setup_request_fr cus m : forall st st' r, setup_request B cus m st = (st', r) -> fr st st'.
  Proof.
    induction cus as [|cu cus IH]; intros st st' r H; simpl in H.
    - injection H as <- <-. auto.
    - destruct (request_unit B cu m st) as [st1 r1] eqn:E. apply request_unit_fr in E.
      destruct r1 as [[]| |]; [|injection H as <- <-; exact E..].
      apply IH in H. eapply fr_trans; eauto.
  Qed.

  (* ---------- requests: parameters ---------- *)

  Lemma inline_app (a b : list (por Sch)) : inline (a ++ b) = inline a ++ inline b.
  Proof. induction a as [|x a IH]; simpl; auto. destruct (por_param x); simpl; rewrite IH; auto. Qed.

  Lemma already_exists_iff (ps : list (por Sch)) n l : already_exists ps n l = true <-> In (n, l) (inline ps).
  Proof.
    induction ps as [|x ps IH]; simpl; [split; [discriminate|tauto]|].
    destruct (por_param x) as [e|]; [|exact IH].
    rewrite orb_true_iff, andb_true_iff, !String.eqb_eq, IH. simpl. split.
    - intros [[-> ->]|H]; auto.
    - intros [H|H]; auto. injection H as -> ->. auto.
  Qed.

  Definition fresh_app (ps new : list (por Sch)) : Prop :=
    NoDup (inline new) /\ forall x, In x (inline new) -> ~ In x (inline ps).

  Lemma NoDup_app2 {A : Type} (a b : list A) : NoDup a -> NoDup b -> (forall x, In x b -> ~ In x a) -> NoDup (a ++ b).
  Proof.
    intros Ha Hb D. induction Ha as [|x a N Ha IH]; simpl; auto. constructor.
    - rewrite in_app_iff. intros [I|I]; auto. apply (D _ I). simpl. auto.
    - apply IH. intros y I I2. apply (D _ I). simpl. auto.
  Qed.

  Lemma fresh_app_trans ps a b : fresh_app ps a -> fresh_app (ps ++ a) b -> fresh_app ps (a ++ b).
  Proof.
    intros [H1 H2] [H3 H4]. split.
    - rewrite inline_app. apply NoDup_app2; auto. intros x I I2. apply (H4 _ I). rewrite inline_app, in_app_iff. auto.
    - intros x I I2. rewrite inline_app, in_app_iff in I. destruct I as [I|I]; [eapply H2; eauto|].
      apply (H4 _ I). rewrite inline_app, in_app_iff. auto.
  Qed.

  Definition adds (fields : list (string * prop)) (fb : list string) (o o' : op) : Prop :=
    (exists new, op_params o' = op_params o ++ new /\ Forall2 (renders B) fields new /\
       fresh_app (op_params o) new) /\
    (forall loc, In loc fb -> get (x_forbid_unknown ^^ loc) (op_ext o') = Some (JBool true)) /\
    (forall k, (forall loc, In loc fb -> k <> x_forbid_unknown ^^ loc) -> get k (op_ext o') = get k (op_ext o)).

  Lemma adds_same (o o' : op) : op_params o' = op_params o -> op_ext o' = op_ext o -> adds [] [] o o'.
  Proof.
    intros H1 H2. split.
    - exists []. rewrite app_nil_r. split; [exact H1|]. split; [constructor|]. split; [constructor|intros x []].
    - split; [intros loc []|]. intros k _. congruence.
  Qed.

  Lemma adds_trans f1 b1 f2 b2 (o o1 o2 : op) : adds f1 b1 o o1 -> adds f2 b2 o1 o2 -> adds (f1 ++ f2) (b1 ++ b2) o o2.
  Proof.
    intros [(n1 & P1 & F1 & D1) [A1 E1]] [(n2 & P2 & F2 & D2) [A2 E2]]. split; [|split].
    - exists (n1 ++ n2). rewrite app_assoc, <- P1. split; [exact P2|].
      split; [apply Forall2_app; auto|]. apply fresh_app_trans; auto. rewrite <- P1. exact D2.
    - intros loc I. destruct (in_dec string_dec loc b2) as [I2|I2]; [auto|].
      apply in_app_iff in I. destruct I as [I|I]; [|tauto].
      rewrite E2; [auto|]. intros l' Il E. assert (loc = l') as <- by (unfold x_forbid_unknown in E; simpl in E; congruence).
      tauto.
    - intros k N. rewrite E2, E1; auto; intros loc I; apply N; apply in_app_iff; auto.
  Qed.

  Lemma json_encoded_b q : (String.eqb (pr_cf q) "json" || (pr_tag_json q && negb (pr_tag_in q)))%bool = true <->
    json_encoded (J:=J) q.
  Proof.
    unfold json_encoded. rewrite orb_true_iff, andb_true_iff, String.eqb_eq, negb_true_iff. reflexivity.
  Qed.

  Lemma with_collection_style cf (p : param Sch) : p_style p = None -> p_explode p = None ->
    exists x, array_style cf x /\ p_style (with_collection cf p) = option_map fst x /\
      p_explode (with_collection cf p) = option_map snd x /\
      with_collection cf p =
        mkParam (p_name p) (p_in p) (p_desc p) (p_required p) (p_deprecated p) (p_allow_empty p)
          (option_map fst x) (option_map snd x) (p_allow_reserved p) (p_schema p) (p_content p) (p_rest p).
  Proof.
    intros S0 E0. unfold with_collection.
    destruct (String.eqb_spec cf "csv") as [->|N1]; [eexists; split; [constructor|auto]|].
    destruct (String.eqb_spec cf "ssv") as [->|N2]; [eexists; split; [constructor|auto]|].
    destruct (String.eqb_spec cf "pipes") as [->|N3]; [eexists; split; [constructor|auto]|].
    destruct (String.eqb_spec cf "multi") as [->|N4]; [eexists; split; [constructor|auto]|].
    exists None. split; [apply as_other; simpl; intuition congruence|].
    destruct p; simpl in *; subst; auto.
  Qed.

  Lemma over_or_else {A : Type} (a b : option A) : over a b = or_else a b.
  Proof. reflexivity. Qed.

  Lemma build_param_ok c loc q c' p : build_param B c loc q = (c', Ret p) ->
    renders B (loc, q) (mkPor (Some p) None).
  Proof.
    unfold build_param. intros H.
    destruct (b_conv B (pr_schema q)) as [s| |] eqn:C; [|discriminate..].
    match type of H with context [with_collection ?cf ?p0] =>
      destruct (with_collection_style cf p0 eq_refl eq_refl) as (x & AS & _ & _ & W); rewrite W in H; clear W end.
    cbn [p_name p_in p_desc p_required p_deprecated p_allow_empty p_style p_explode p_allow_reserved p_schema p_content p_rest] in H.
    set (jb := (String.eqb (pr_cf q) "json" || (pr_tag_json q && negb (pr_tag_in q)))%bool) in *.
    assert (JE := json_encoded_b q). fold jb in JE.
    destruct jb.
    - assert (Je : json_encoded q) by (apply JE; reflexivity).
      destruct (collect_all B c (pr_json_defs q)) as [c1 r1]. destruct r1 as [[]| |]; [|discriminate..].
      destruct (pr_json q) as [j| |] eqn:PJ; [|discriminate..].
      destruct (b_conv B j) as [s2| |] eqn:C2; [|discriminate..].
      destruct (pr_tags q) as [t| |] eqn:T; [|discriminate..].
      injection H as <- <-.
      exists (if String.eqb loc in_path
              then with_required (populate B t (with_json_content s2 (mkParam (pr_name q) loc (b_desc B (pr_schema q)) None None None (option_map fst x) (option_map snd x) None (Some (if pr_ptr q then s else b_unnull B s)) [] JNull)))
              else populate B t (with_json_content s2 (mkParam (pr_name q) loc (b_desc B (pr_schema q)) None None None (option_map fst x) (option_map snd x) None (Some (if pr_ptr q then s else b_unnull B s)) [] JNull))), t, x.
      split; [reflexivity|]. split; [exact T|]. split; [right; auto|].
      unfold in_path. destruct (String.eqb loc "path") eqn:L; cbn; rewrite ?L;
      (repeat match goal with |- _ /\ _ => split end); try reflexivity;
      try (destruct (t_name t); reflexivity); try (destruct (t_required t); reflexivity);
      try (destruct (t_deprecated t); reflexivity);
      try (destruct (b_v31 B), (t_allow_empty t), (t_allow_reserved t); reflexivity);
      try (intros; exists j, s2; auto; fail); try tauto; try (intros _; split; [reflexivity|exists j, s2; auto]).
    - assert (Je : ~ json_encoded q) by (intros X; apply JE in X; discriminate).
      destruct (pr_plain q) as [b| |] eqn:PP; [|destruct (pr_tags q); discriminate..].
      destruct (pr_tags q) as [t| |] eqn:T; [|destruct b; discriminate..].
      destruct b; injection H as <- <-.
      + eexists _, t, (Some ("deepObject", true)).
        split; [reflexivity|]. split; [exact T|]. split; [left; auto|].
        unfold in_path. cbn [fst snd].
        destruct (String.eqb loc "path") eqn:L; cbn;
        (repeat match goal with |- _ /\ _ => split end); try reflexivity;
        try (destruct (t_name t); reflexivity); try (destruct (t_required t); reflexivity);
        try (destruct (t_deprecated t); reflexivity);
        try (destruct (b_v31 B), (t_allow_empty t), (t_allow_reserved t); reflexivity);
        try tauto; try (intros _; split; [reflexivity|exists s; auto]).
      + eexists _, t, x.
        split; [reflexivity|]. split; [exact T|]. split; [right; auto|].
        unfold in_path. cbn [fst snd].
        destruct (String.eqb loc "path") eqn:L; cbn;
        (repeat match goal with |- _ /\ _ => split end); try reflexivity;
        try (destruct (t_name t); reflexivity); try (destruct (t_required t); reflexivity);
        try (destruct (t_deprecated t); reflexivity);
        try (destruct (b_v31 B), (t_allow_empty t), (t_allow_reserved t); reflexivity);
        try tauto; try (intros _; split; [reflexivity|exists s; auto]).
  Qed.

  Lemma considered_b (q : prop) : (negb (pr_processed q) || (1 <? pr_depth q))%bool = negb (considered q).
  Proof.
    unfold considered. destruct (pr_processed q); simpl; auto.
    destruct (Nat.leb_spec (pr_depth q) 1); destruct (Nat.ltb_spec 1 (pr_depth q)); auto; lia.
  Qed.

  Lemma renders_inline f x : renders B f x -> exists n, inline [x] = [(n, fst f)].
  Proof. intros (p & t & ds & -> & _ & _ & H & _). simpl. rewrite H. eauto. Qed.

  Lemma param_callback_ok loc q c (o : op) c' o' u : param_callback B loc q (c, o) = ((c', o'), Ret u) ->
    adds (if considered q then [(loc, q)] else []) [] o o'.
  Proof.
    unfold param_callback. rewrite considered_b. intros H.
    destruct (considered q); simpl negb in H; cbv iota in H.
    2:{ injection H as <- <- <-. apply adds_same; reflexivity. }
    destruct (build_param B c loc q) as [c1 r1] eqn:E. destruct r1 as [p| |]; [|discriminate..].
    apply build_param_ok in E.
    destruct (already_exists _ _ _) eqn:A; [discriminate|]. injection H as <- <- <-.
    split; [|split; [intros l []|reflexivity]].
    exists [mkPor (Some p) None]. split; [reflexivity|]. split; [constructor; [exact E|constructor]|].
    split; [simpl; constructor; [simpl; tauto|constructor]|].
    intros x I. simpl in I. destruct I as [<-|[]]. intros I.
    apply already_exists_iff in I. congruence.
  Qed.

  Lemma run_events_ok loc es : forall c (o : op) c' o' u, run_events B loc es (c, o) = ((c', o'), Ret u) ->
    adds (map (pair loc) (props_of es)) [] o o'.
  Proof.
    induction es as [|e es IH]; intros c o c' o' u H; cbn [run_events] in H.
    - injection H as <- <- <-. apply adds_same; reflexivity.
    - destruct e as [q|n j].
      + destruct (param_callback B loc q (c, o)) as [[c1 o1] r1] eqn:E.
        destruct r1 as [[]| |]; [|discriminate..].
        apply param_callback_ok in E. apply IH in H. simpl.
        pose proof (adds_trans _ _ _ _ _ _ _ E H) as P.
        destruct (considered q); exact P.
      + simpl in H. destruct (collect_definition B c n j) as [c1 r1]. simpl in H.
        destruct r1 as [[]| |]; [|discriminate..]. apply IH in H. exact H.
  Qed.

  Definition fb_in (cu : cunit) (loc : string) : list string :=
    match snd (v_params cu loc) with Ret true => [loc] | _ => [] end.

  Lemma parse_parameters_in_ok cu loc c (o : op) c' o' u : v_slice cu = false ->
    parse_parameters_in B cu loc (c, o) = ((c', o'), Ret u) ->
    adds (map (pair loc) (props_of (fst (v_params cu loc)))) (fb_in cu loc) o o'.
  Proof.
    unfold parse_parameters_in, fb_in. intros -> H. destruct (v_params cu loc) as [es fin]. simpl fst; simpl snd.
    destruct (run_events B loc es (c, o)) as [[c1 o1] r1] eqn:E. destruct r1 as [[]| |]; [|discriminate..].
    apply run_events_ok in E. destruct fin as [[]| |]; [| |discriminate..]; injection H as <- <- <-; [|exact E].
    rewrite <- (app_nil_r (map _ _)). apply (adds_trans _ [] _ [loc] _ _ _ E).
    split; [|split].
    - exists []. simpl. rewrite app_nil_r. split; [reflexivity|]. split; [constructor|]. split; [constructor|intros x []].
    - intros l [<-|[]]. simpl op_ext. apply get_put_same.
    - intros k N. simpl op_ext. apply get_put_other. apply N. simpl. auto.
  Qed.

  Lemma parse_parameters_in_slice cu loc (st st' : comps * op) u : v_slice cu = true ->
    parse_parameters_in B cu loc st = (st', Ret u) -> st' = st.
  Proof. unfold parse_parameters_in. intros -> H. injection H as <- <-. reflexivity. Qed.

  (* Parameters and flags of a unit that is reflected. *)
  Definition all_fields (cu : cunit) : list (string * prop) :=
    if v_slice cu then []
    else flat_map (fun loc => map (pair loc) (props_of (fst (v_params cu loc)))) locations.
  Definition all_fb (cu : cunit) : list string :=
    if v_slice cu then [] else flat_map (fb_in cu) locations.

  Lemma parse_parameters_ok cu c (o : op) c' o' u :
    parse_parameters B cu (c, o) = ((c', o'), Ret u) -> adds (all_fields cu) (all_fb cu) o o'.
  Proof.
    unfold parse_parameters, all_fields, all_fb. intros H.
    apply join_cons in H. destruct H as ([c1 o1] & H1 & H).
    apply join_cons in H. destruct H as ([c2 o2] & H2 & H).
    apply join_cons in H. destruct H as ([c3 o3] & H3 & H).
    apply join_cons in H. destruct H as ([c4 o4] & H4 & H).
    injection H as <- <-.
    destruct (v_slice cu) eqn:S.
    - apply (parse_parameters_in_slice _ _ _ _ _ S) in H1, H2, H3, H4.
      injection H1 as <- <-. injection H2 as <- <-. injection H3 as <- <-. injection H4 as <- <-.
      apply adds_same; reflexivity.
    - apply (parse_parameters_in_ok _ _ _ _ _ _ _ S) in H1, H2, H3, H4.
      unfold locations. simpl flat_map.
      eapply adds_trans; [exact H1|]. eapply adds_trans; [exact H2|]. eapply adds_trans; [exact H3|].
      rewrite !app_nil_r. exact H4.
  Qed.

  Lemma parse_request_body_adds cu mime m mp tag more c (o : op) c' o' u :
    parse_request_body B cu mime m mp tag more (c, o) = ((c', o'), Ret u) -> adds [] [] o o'.
  Proof. intros H. apply parse_request_body_fr in H. destruct H as (_ & H1 & H2). apply adds_same; assumption. Qed.

  Lemma structuredb_cases (cu : cunit) : structuredb cu =
    (String.eqb (cu_ctype cu) "" || (String.eqb (cu_ctype cu) mime_json ||
       (String.eqb (cu_ctype cu) mime_form || String.eqb (cu_ctype cu) mime_multipart)))%bool.
  Proof. unfold structuredb, mem. simpl existsb. rewrite orb_false_r. reflexivity. Qed.

  Lemma fields_structured cu : structuredb cu = true -> param_fields cu = all_fields cu.
  Proof. unfold param_fields, all_fields. intros ->. destruct (v_slice cu); reflexivity. Qed.

  Lemma fb_structured cu : structuredb cu = true -> forbidden_locations cu = all_fb cu.
  Proof.
    unfold forbidden_locations, all_fb, fb_in. intros ->. destruct (v_slice cu); [reflexivity|]. simpl.
    destruct (snd (v_params cu "query")) as [[]| |]; destruct (snd (v_params cu "path")) as [[]| |];
    destruct (snd (v_params cu "cookie")) as [[]| |]; destruct (snd (v_params cu "header")) as [[]| |]; reflexivity.
  Qed.

  Lemma adds_app_r f1 b1 (o o1 o2 : op) : adds f1 b1 o o1 -> adds [] [] o1 o2 -> adds f1 b1 o o2.
  Proof. intros H1 H2. rewrite <- (app_nil_r f1), <- (app_nil_r b1). eapply adds_trans; eauto. Qed.

  Lemma request_content_adds cu m c (o : op) c' o' u :
    request_content B cu m (c, o) = ((c', o'), Ret u) ->
    adds (param_fields cu) (forbidden_locations cu) o o'.
  Proof.
    unfold request_content. intros H. pose proof (structuredb_cases cu) as SB.
    destruct (String.eqb (cu_ctype cu) "") eqn:E0.
    - rewrite (fields_structured cu SB), (fb_structured cu SB).
      match type of H with context [join_errors ?fs ?s0] => destruct (join_errors fs s0) as [[c9 o9] r9] eqn:E end. destruct r9 as [[]| |]; [|discriminate..].
      apply join_cons in E. destruct E as ([c1 o1] & H1 & E).
      apply join_cons in E. destruct E as ([c2 o2] & H2 & E).
      apply join_cons in E. destruct E as ([c3 o3] & H3 & E). injection E as <- <-.
      injection H as <- <- <-.
      apply parse_request_body_adds in H1, H3. apply parse_parameters_ok in H2.
      eapply adds_app_r; [eapply adds_app_r; [apply (adds_trans [] [] _ _ _ _ _ H1 H2)|exact H3]|].
      destruct (raw_body_fr cu c3 o3) as (_ & P1 & P2). apply adds_same; assumption.
    - destruct (String.eqb (cu_ctype cu) mime_json) eqn:E1.
      + rewrite (fields_structured cu SB), (fb_structured cu SB).
        apply join_cons in H. destruct H as ([c2 o2] & H2 & E).
        apply join_cons in E. destruct E as ([c3 o3] & H3 & E). injection E as <- <-.
        apply parse_request_body_adds in H3. apply parse_parameters_ok in H2. eapply adds_app_r; eauto.
      + destruct (String.eqb (cu_ctype cu) mime_form || String.eqb (cu_ctype cu) mime_multipart)%bool eqn:E2.
        * rewrite (fields_structured cu SB), (fb_structured cu SB).
          apply join_cons in H. destruct H as ([c2 o2] & H2 & E).
          apply join_cons in E. destruct E as ([c3 o3] & H3 & E). injection E as <- <-.
          apply parse_request_body_adds in H2. apply parse_parameters_ok in H3.
          apply (adds_trans [] [] _ _ _ _ _ H2 H3).
        * simpl in SB. unfold param_fields, forbidden_locations. rewrite SB.
          injection H as <- <- <-. apply adds_same; reflexivity.
  Qed.

  Lemma setup_request_adds cus m : forall c (o : op) c' o' u,
    setup_request B cus m (c, o) = ((c', o'), Ret u) ->
    adds (flat_map param_fields cus) (flat_map forbidden_locations cus) o o'.
  Proof.
    induction cus as [|cu cus IH]; intros c o c' o' u H; simpl in H.
    - injection H as <- <- <-. apply adds_same; reflexivity.
    - destruct (request_unit B cu m (c, o)) as [[c1 o1] r1] eqn:E. destruct r1 as [[]| |]; [|discriminate..].
      apply IH in H. simpl. eapply adds_trans; [|exact H].
      unfold request_unit in E. destruct (request_content B cu m (c, o)) as [[c2 o2] r2] eqn:E2.
      destruct r2 as [[]| |]; [|discriminate..]. injection E as <- <-.
      eapply adds_app_r; [eapply request_content_adds; eauto|].
      destruct (describe_fr cu c2 o2) as (_ & P1 & P2). apply adds_same; assumption.
  Qed.

  (* ---------- requests: body ---------- *)

  Lemma request_unit_bodyless cu m c (o : op) st' r :
    safe_method m = true -> v_force_body cu = false -> structuredb cu = true ->
    (cu_nil cu = true \/ v_content_tags cu = [] \/ cu_ctype cu <> "") ->
    op_body o = None -> request_unit B cu m (c, o) = (st', r) -> op_body (snd st') = None.
  Proof.
    intros SM FB SB CT BN H.
    assert (P : forall mime mp tag more (st : comps * op),
      parse_request_body B cu mime m mp tag more st = (st, Ret tt)).
    { intros. unfold parse_request_body, body_wanted. rewrite SM, FB. reflexivity. }
    assert (Rel : forall fs, (forall f, In f fs -> f = parse_parameters B cu \/ exists mime mp tag more, f = parse_request_body B cu mime m mp tag more) ->
      forall (st st' : comps * op) r, join_errors fs st = (st', r) -> op_body (snd st') = op_body (snd st)).
    { intros fs F. apply (join_rel (fun a b => op_body (snd b) = op_body (snd a))); [auto|congruence|].
      apply Forall_forall. intros f I s s' r' E. destruct (F f I) as [->|(mime & mp & tag & more & ->)].
      - apply parse_parameters_fr in E. apply E.
      - rewrite P in E. injection E as <- <-. reflexivity. }
    assert (Q : forall c1 (o1 : op) r1, request_content B cu m (c, o) = ((c1, o1), r1) -> op_body o1 = None).
    { intros c1 o1 r1 E. unfold request_content in E. rewrite structuredb_cases in SB.
      destruct (String.eqb_spec (cu_ctype cu) "") as [E0|E0].
      - match type of E with context [join_errors ?fs ?s0] => destruct (join_errors fs s0) as [[c9 o9] r9] eqn:E9 end.
        apply Rel in E9; [|intros f I; simpl in I; intuition (subst; eauto 9)].
        simpl in E9. rewrite BN in E9.
        destruct r9 as [[]| |]; injection E as <- <- <-; try exact E9.
        unfold parse_raw_request_body. destruct CT as [->|[CT|CT]]; [exact E9| |congruence].
        destruct (cu_nil cu); [exact E9|]. rewrite CT. exact E9.
      - destruct (String.eqb (cu_ctype cu) mime_json) eqn:E1.
        + apply Rel in E; [simpl in E; congruence|intros f I; simpl in I; intuition (subst; eauto 9)].
        + simpl in SB. destruct (String.eqb (cu_ctype cu) mime_form || String.eqb (cu_ctype cu) mime_multipart)%bool; [|discriminate].
          apply Rel in E; [simpl in E; congruence|intros f I; simpl in I; intuition (subst; eauto 9)]. }
    unfold request_unit in H. destruct (request_content B cu m (c, o)) as [[c1 o1] r1] eqn:E.
    specialize (Q _ _ _ eq_refl).
    destruct r1 as [[]| |]; injection H as <- <-; simpl; try exact Q.
    unfold customize_body, describe_body. rewrite Q. destruct (cu_custom_req cu); rewrite ?Q; auto.
  Qed.

  Lemma setup_request_bodyless cus m : safe_method m = true ->
    (forall cu, In cu cus -> v_force_body cu = false /\ structuredb cu = true /\
       (cu_nil cu = true \/ v_content_tags cu = [] \/ cu_ctype cu <> "")) ->
    forall c (o : op) st' r, op_body o = None -> setup_request B cus m (c, o) = (st', r) -> op_body (snd st') = None.
  Proof.
    intros SM. induction cus as [|cu cus IH]; intros F c o st' r BN H; simpl in H.
    - injection H as <- <-. exact BN.
    - destruct (request_unit B cu m (c, o)) as [[c1 o1] r1] eqn:E.
      destruct (F cu (or_introl eq_refl)) as (F1 & F2 & F3).
      apply request_unit_bodyless in E; auto. simpl in E.
      destruct r1 as [[]| |]; [|injection H as <- <-; exact E..].
      eapply IH in H; eauto. intros cu' I. apply F. simpl. auto.
  Qed.

  Lemma body_content_put (o : op) mime mt k :
    get k (body_content (op_body (with_body_content o mime mt))) =
    if String.eqb k mime then Some mt else get k (body_content (op_body o)).
  Proof.
    unfold with_body_content, body_content. cbn -[get put].
    destruct (op_body o) as [[[b|] rf]|]; cbn -[get put]; rewrite get_put; reflexivity.
  Qed.

  Lemma raw_body_content cu (o : op) k : (cu_nil cu = true \/ ~ In k (v_content_tags cu)) ->
    get k (body_content (op_body (parse_raw_request_body B cu o))) = get k (body_content (op_body o)).
  Proof.
    unfold parse_raw_request_body. intros [->|N]; [reflexivity|]. destruct (cu_nil cu); [reflexivity|].
    revert o N. induction (v_content_tags cu) as [|t l IH]; intros o N; simpl; [reflexivity|].
    rewrite IH by (simpl in N; tauto). unfold string_request_body. rewrite body_content_put.
    destruct (String.eqb_spec k t); [|reflexivity]. simpl in N. subst. tauto.
  Qed.

  Lemma describe_content (cu : cunit) (o : op) k : cu_custom_req cu = None ->
    get k (body_content (op_body (customize_body cu (describe_body cu o)))) = get k (body_content (op_body o)).
  Proof.
    unfold customize_body, describe_body. intros ->.
    destruct o as [t s d i ps [[[b|] rf]|] rs dp se ex re]; simpl; auto.
    destruct (is_empty (cu_desc cu)); reflexivity.
  Qed.

  Lemma has_file_b (cu : cunit) : existsb is_file (fst (v_body cu "formData")) = true <-> has_file cu.
  Proof.
    unfold has_file. rewrite existsb_exists. split.
    - intros (x & I & H). destruct x; try discriminate; auto.
    - intros [I|I]; eexists; (split; [exact I|reflexivity]).
  Qed.

  Lemma form_body_ok cu m c (o : op) c' o' u :
    (safe_method m = false \/ v_force_body cu = true) -> form_structure cu ->
    parse_request_body B cu mime_form m (cu_form_mapping cu) tag_form_data [tag_form] (c, o) = ((c', o'), Ret u) ->
    exists s j defs, snd (v_body cu "formData") = Ret (j, defs) /\ b_conv B j = Ret s /\
      forall k, get k (body_content (op_body o')) =
        if String.eqb k (if existsb is_file (fst (v_body cu "formData")) then mime_multipart else mime_form)
        then Some (mkMedia (Some s) JNull) else get k (body_content (op_body o)).
  Proof.
    intros SM FS H. unfold parse_request_body in H.
    assert (W : body_wanted cu m (cu_form_mapping cu) tag_form_data [tag_form] = Ret true \/
                body_wanted cu m (cu_form_mapping cu) tag_form_data [tag_form] = Err \/
                body_wanted cu m (cu_form_mapping cu) tag_form_data [tag_form] = Panic).
    { unfold body_wanted. replace (safe_method m && negb (v_force_body cu))%bool with false
        by (destruct SM as [-> | ->]; [reflexivity|rewrite andb_false_r; reflexivity]).
      change (String.eqb tag_form_data tag_json) with false.
      set (tg := existsb (v_tagged cu) [tag_form_data; tag_form]).
      assert (T : (tg || cu_form_mapping cu)%bool = true).
      { unfold tg. simpl. unfold tag_form_data, tag_form.
        destruct FS as [-> | [-> | ->]]; rewrite ?orb_true_r; reflexivity. }
      replace (negb tg && negb (cu_form_mapping cu) && negb false)%bool with false
        by (destruct tg, (cu_form_mapping cu); try discriminate; reflexivity).
      cbn [andb]. destruct (v_without_tags cu) as [w| |]; auto.
      match goal with |- context [if ?b then _ else _] => replace b with false; [auto|] end.
      destruct tg, (cu_form_mapping cu), (v_struct cu); try discriminate; reflexivity. }
    destruct W as [W|[W|W]]; rewrite W in H; [|discriminate..]. unfold tag_form_data in H.
    destruct (v_body cu "formData") as [vis res]. simpl fst; simpl snd.
    destruct res as [[j defs]| |]; [|discriminate..].
    destruct (b_conv B j) as [s| |] eqn:C; [|discriminate..]. simpl fst in H; simpl snd in H.
    destruct (put_definitions B c defs) as [c1 r1]. destruct r1 as [[]| |]; [|discriminate..].
    injection H as <- <- <-. exists s, j, defs. split; [reflexivity|]. split; [exact C|]. intros k.
    rewrite body_content_put. reflexivity.
  Qed.

  Lemma json_body_other cu m c (o : op) c' o' u k : k <> mime_json ->
    parse_request_body B cu mime_json m false tag_json [] (c, o) = ((c', o'), Ret u) ->
    get k (body_content (op_body o')) = get k (body_content (op_body o)).
  Proof.
    intros N H. unfold parse_request_body in H.
    destruct (body_wanted _ _ _ _ _) as [[]| |]; [|injection H as <- <- <-; reflexivity|discriminate..].
    destruct (v_body cu tag_json) as [vis res]. destruct res as [[j defs]| |]; [|discriminate..].
    destruct (b_conv B j) as [s| |]; [|discriminate..].
    destruct (put_definitions B _ defs) as [c1 r1]. destruct r1 as [[]| |]; [|discriminate..].
    injection H as <- <- <-. rewrite body_content_put. change (String.eqb mime_json mime_form) with false.
    cbn [andb]. destruct (String.eqb_spec k mime_json); [congruence|]. reflexivity.
  Qed.

  Lemma form_unit_ok cu m c (o : op) c' o' u :
    (safe_method m = false \/ v_force_body cu = true) -> form_structure cu ->
    cu_custom_req cu = None ->
    (cu_ctype cu = "" \/ cu_ctype cu = mime_form \/ cu_ctype cu = mime_multipart) ->
    (cu_ctype cu = "" -> cu_nil cu = false -> ~ In mime_form (v_content_tags cu) /\ ~ In mime_multipart (v_content_tags cu)) ->
    request_unit B cu m (c, o) = ((c', o'), Ret u) ->
    exists s j defs, snd (v_body cu "formData") = Ret (j, defs) /\ b_conv B j = Ret s /\
      forall k, (k = mime_form \/ k = mime_multipart) -> get k (body_content (op_body o')) =
        if String.eqb k (if existsb is_file (fst (v_body cu "formData")) then mime_multipart else mime_form)
        then Some (mkMedia (Some s) JNull) else get k (body_content (op_body o)).
  Proof.
    intros SM FS NC CT TG H. unfold request_unit in H.
    destruct (request_content B cu m (c, o)) as [[c9 o9] r9] eqn:E. destruct r9 as [[]| |]; [|discriminate..].
    injection H as <- <- <-. unfold request_content in E.
    destruct (String.eqb_spec (cu_ctype cu) "") as [E0|E0].
    - match type of E with context [join_errors ?fs ?s0] => destruct (join_errors fs s0) as [[c8 o8] r8] eqn:E8 end. destruct r8 as [[]| |]; [|discriminate..].
      injection E as <- <-.
      apply join_cons in E8. destruct E8 as ([c1 o1] & H1 & E).
      apply join_cons in E. destruct E as ([c2 o2] & H2 & E).
      apply join_cons in E. destruct E as ([c3 o3] & H3 & E). injection E as <- <-.
      apply form_body_ok in H1; auto. destruct H1 as (s & j & defs & V & C & G).
      exists s, j, defs. split; [exact V|]. split; [exact C|]. intros k K. rewrite <- G.
      rewrite describe_content by exact NC.
      rewrite raw_body_content.
      2:{ destruct (cu_nil cu); [auto|]. right. destruct (TG E0 eq_refl). destruct K as [-> | ->]; assumption. }
      rewrite (json_body_other _ _ _ _ _ _ _ k) with (2 := H3).
      + apply parse_parameters_fr in H2. destruct H2 as [_ H2]. simpl in H2. rewrite H2. reflexivity.
      + destruct K as [-> | ->]; discriminate.
    - assert (J1 : String.eqb (cu_ctype cu) mime_json = false)
        by (destruct CT as [X|[X|X]]; [contradiction|rewrite X; reflexivity..]).
      assert (J2 : (String.eqb (cu_ctype cu) mime_form || String.eqb (cu_ctype cu) mime_multipart)%bool = true)
        by (destruct CT as [X|[X|X]]; [contradiction|rewrite X; reflexivity..]).
      rewrite J1, J2 in E.
      apply join_cons in E. destruct E as ([c1 o1] & H1 & E).
      apply join_cons in E. destruct E as ([c2 o2] & H2 & E). injection E as <- <-.
      apply form_body_ok in H1; auto. destruct H1 as (s & j & defs & V & C & G).
      exists s, j, defs. split; [exact V|]. split; [exact C|]. intros k K. rewrite <- G.
      rewrite describe_content by exact NC.
      apply parse_parameters_fr in H2. destruct H2 as [_ H2]. simpl in H2. rewrite H2. reflexivity.
  Qed.
  End Op.

  (* ---------- responses: keys ---------- *)

  Definition rk (cu : cunit) : rkey := if cu_default cu then KDefault else KStatus (response_key cu).

  Lemma rk_eq_dec (a b : rkey) : {a = b} + {a <> b}.
  Proof. decide equality. apply string_dec. Qed.

  Lemma files_under_iff cu k : files_under cu k <-> k = rk cu.
  Proof.
    unfold rk, response_key, norm_status. split.
    - intros [D|D Z|s D Z N|s D Z N0 N]; rewrite D; simpl negb; rewrite ?andb_true_r.
      + reflexivity.
      + rewrite Z. reflexivity.
      + apply numeral_itoa in N. subst s.
        replace (cu_status cu =? 0)%Z with false by (symmetry; apply Z.eqb_neq; lia). cbn [andb].
        replace ((0 <? cu_status cu) && (cu_status cu <? 6))%Z%bool with true; [reflexivity|].
        symmetry. apply andb_true_iff. rewrite !Z.ltb_lt. lia.
      + apply numeral_itoa in N. subst s.
        replace (cu_status cu =? 0)%Z with false by (symmetry; apply Z.eqb_neq; lia). cbn [andb].
        replace ((0 <? cu_status cu) && (cu_status cu <? 6))%Z%bool with false; [reflexivity|].
        symmetry. apply andb_false_iff. rewrite !Z.ltb_ge. lia.
    - intros ->. destruct (cu_default cu) eqn:D; [constructor; exact D|]. simpl negb. rewrite andb_true_r.
      destruct (Z.eqb_spec (cu_status cu) 0) as [Z|Z].
      + change (KStatus (if ((0 <? 200) && (200 <? 6))%Z%bool then itoa 200 ^^ "XX" else itoa 200)) with (KStatus "200").
        apply fu_none; assumption.
      + destruct ((0 <? cu_status cu) && (cu_status cu <? 6))%Z%bool eqn:C.
        * apply andb_true_iff in C. rewrite !Z.ltb_lt in C. apply fu_class; [exact D|lia|apply itoa_numeral].
        * apply andb_false_iff in C. rewrite !Z.ltb_ge in C. apply fu_code; [exact D|exact Z|lia|apply itoa_numeral].
  Qed.

  Lemma store_filed (cu : cunit) x (rs : responses) k :
    filed (store_response cu x rs) k = if rk_eq_dec k (rk cu) then Some x else filed rs k.
  Proof.
    unfold store_response, rk. destruct (cu_default cu); destruct k as [|s]; simpl.
    - destruct (rk_eq_dec _ _); congruence.
    - destruct (rk_eq_dec _ _); congruence.
    - destruct (rk_eq_dec _ _); congruence.
    - rewrite get_put. destruct (String.eqb_spec s (response_key cu)); destruct (rk_eq_dec _ _); congruence.
  Qed.

  Lemma ensure_default_filed cu (rs : responses) k : k <> rk cu -> filed (ensure_default cu rs) k = filed rs k.
  Proof.
    unfold ensure_default, rk. destruct (cu_default cu); [|reflexivity].
    destruct k; [congruence|]. intros _. destruct (rs_default rs); reflexivity.
  Qed.

  Definition resp_at (rs : responses) (k : rkey) : response :=
    match inline_at rs k with Some r => r | None => zero_response end.

  Lemma current_resp_at cu (rs : responses) :
    match current_response cu (ensure_default cu rs) with Some r => r | None => zero_response end = resp_at rs (rk cu).
  Proof.
    unfold current_response, ensure_default, resp_at, inline_at, rk.
    destruct (cu_default cu); simpl; [|reflexivity]. destruct (rs_default rs) as [x|] eqn:E; rewrite ?E; reflexivity.
  Qed.

  Lemma response_unit_ok cu m c (rs : responses) c' rs' u :
    response_unit B cu m (c, rs) = ((c', rs'), Ret u) ->
    exists r', fill_response B cu m (c, resp_at rs (rk cu)) = ((c', r'), Ret tt) /\
      forall k, filed rs' k = if rk_eq_dec k (rk cu)
        then Some (match cu_custom_resp cu with Some f => f (mkRor (Some r') None) | None => mkRor (Some r') None end)
        else filed rs k.
  Proof.
    unfold response_unit. rewrite current_resp_at. intros H.
    destruct (fill_response B cu m (c, resp_at rs (rk cu))) as [[c1 r1] r] eqn:E.
    destruct r as [[]| |]; [|discriminate..]. injection H as <- <- <-.
    exists r1. split; [reflexivity|]. intros k. rewrite store_filed.
    destruct (rk_eq_dec k (rk cu)); [reflexivity|]. apply ensure_default_filed. assumption.
  Qed.

  Lemma setup_response_keys cus m : forall c (rs : responses) c' rs' u,
    setup_response B cus m (c, rs) = ((c', rs'), Ret u) ->
    forall k, (filed rs' k <> None <-> filed rs k <> None \/ exists cu, In cu cus /\ k = rk cu) /\
      ((forall cu, In cu cus -> k <> rk cu) -> filed rs' k = filed rs k).
  Proof.
    induction cus as [|cu cus IH]; intros c rs c' rs' u H k; cbn [setup_response] in H.
    - injection H as <- <- <-. split; [|reflexivity]. split; [auto|]. intros [N|(x & [] & _)]; exact N.
    - destruct (response_unit B cu m (c, rs)) as [[c1 rs1] r1] eqn:E. destruct r1 as [[]| |]; [|discriminate..].
      apply response_unit_ok in E. destruct E as (r' & _ & F). specialize (F k).
      destruct (IH _ _ _ _ _ H k) as [I1 I2]. split.
      + rewrite I1, F. destruct (rk_eq_dec k (rk cu)) as [->|N].
        * split; [intros _; right; exists cu; simpl; auto|]. intros _. left. discriminate.
        * split.
          -- intros [P|(x & P & Q)]; [auto|]. right. exists x. simpl. auto.
          -- intros [P|(x & [P|P] & Q)]; [auto|congruence|]. right. exists x. auto.
      + intros N. rewrite I2 by (intros x I; apply N; simpl; auto). rewrite F.
        destruct (rk_eq_dec k (rk cu)) as [->|_]; [|reflexivity]. exfalso. eapply N; [left; reflexivity|reflexivity].
  Qed.

  (* Successive fillings of one response. *)
  Inductive fills (m : string) : list cunit -> response -> response -> Prop :=
  | fills_nil r : fills m [] r r
  | fills_cons cu l r r1 r2 c c' : fill_response B cu m (c, r) = ((c', r1), Ret tt) -> fills m l r1 r2 ->
      fills m (cu :: l) r r2.

  Definition under (k : rkey) (cu : cunit) : bool := if rk_eq_dec k (rk cu) then true else false.

  Lemma under_iff k cu : under k cu = true <-> files_under cu k.
  Proof. unfold under. rewrite files_under_iff. destruct (rk_eq_dec k (rk cu)); intuition congruence. Qed.

  Lemma setup_response_fills cus m : forall c (rs : responses) c' rs' u k,
    setup_response B cus m (c, rs) = ((c', rs'), Ret u) ->
    (forall cu, In cu cus -> files_under cu k -> cu_custom_resp cu = None) ->
    fills m (filter (under k) cus) (resp_at rs k) (resp_at rs' k) /\
    (filter (under k) cus <> [] -> exists r, filed rs' k = Some (mkRor (Some r) None)).
  Proof.
    induction cus as [|cu cus IH]; intros c rs c' rs' u k H NC; cbn [setup_response] in H; simpl filter.
    - injection H as <- <- <-. split; [constructor|congruence].
    - destruct (response_unit B cu m (c, rs)) as [[c1 rs1] r1] eqn:E. destruct r1 as [[]| |]; [|discriminate..].
      apply response_unit_ok in E. destruct E as (r' & FR & F). specialize (F k).
      destruct (IH _ _ _ _ _ k H) as [I1 I2]; [intros x I; apply NC; simpl; auto|].
      destruct (under k cu) eqn:U.
      + assert (K : files_under cu k) by (apply under_iff; exact U).
        rewrite (NC cu (or_introl eq_refl) K) in F. apply files_under_iff in K. subst k.
        destruct (rk_eq_dec (rk cu) (rk cu)) as [_|N]; [|congruence].
        split.
        * eapply fills_cons; [exact FR|].
          replace r' with (resp_at rs1 (rk cu)); [exact I1|]. unfold resp_at, inline_at. rewrite F. reflexivity.
        * intros _. destruct (filter (under (rk cu)) cus) eqn:G; [|apply I2; congruence].
          destruct (setup_response_keys _ _ _ _ _ _ _ H (rk cu)) as [_ S]. rewrite S, F; [eauto|].
          intros x I EQ. assert (In x (filter (under (rk cu)) cus)); [|rewrite G in *; auto].
          apply filter_In. split; [exact I|]. apply under_iff. apply files_under_iff. exact EQ.
      + assert (K : k <> rk cu) by (intros EQ; apply files_under_iff, under_iff in EQ; congruence).
        destruct (rk_eq_dec k (rk cu)) as [EQ|_]; [congruence|].
        assert (R : resp_at rs1 k = resp_at rs k) by (unfold resp_at, inline_at; rewrite F; reflexivity).
        rewrite R in I1. split; assumption.
  Qed.

  (* ---------- responses: one filling ---------- *)

  Lemma parse_json_ok cu ct c r c' r' u : parse_json_response B cu ct (c, r) = ((c', r'), Ret u) ->
    rs_headers r' = rs_headers r /\ rs_rest r' = rs_rest r /\
    ((cu_nil cu = true \/ v_has_json cu = Ret false) /\ r' = r \/
     cu_nil cu = false /\ v_has_json cu <> Ret false /\
     exists defs j mt, v_json cu = (defs, Ret j) /\
       rs_content r' = put (if is_empty ct then mime_json else ct) mt (rs_content r) /\
       rs_desc r' = first_text [rs_desc r; text (b_desc B j)]).
  Proof.
    unfold parse_json_response. intros H.
    destruct (cu_nil cu); [injection H as <- <- <-; split; [reflexivity|]; split; [reflexivity|left; auto]|].
    destruct (v_has_json cu) as [[]| |] eqn:HJ; [| | |discriminate].
    2:{ injection H as <- <- <-. split; [reflexivity|]. split; [reflexivity|left; auto]. }
    all: destruct (v_json cu) as [defs res]; destruct (collect_all B c defs) as [c1 r1];
      destruct r1 as [[]| |]; try discriminate; destruct res as [j| |]; try discriminate;
      destruct (b_conv B j) as [s| |]; try discriminate; injection H as <- <- <-;
      assert (X : forall (d : option string) (r : response), rs_headers (fill_desc d r) = rs_headers r /\ rs_rest (fill_desc d r) = rs_rest r /\
        rs_content (fill_desc d r) = rs_content r /\ rs_desc (fill_desc d r) = first_text [rs_desc r; text d])
      by (intros [d|] [dd hh cc rr]; cbn; destruct dd; cbn; try destruct d; auto);
      match goal with |- context [fill_desc ?d ?r] => destruct (X d r) as (X1 & X2 & X3 & X4) end;
      rewrite X1, X2, X3, X4; split; [reflexivity|]; split; [reflexivity|]; right;
      split; [reflexivity|]; split; [congruence|]; exists defs, j; eexists; split; [reflexivity|]; split; reflexivity.
  Qed.

  Lemma run_headers_names qs : forall res res' u, run_headers B qs res = (res', Ret u) ->
    forall n, In n (keys res') <-> In n (keys res) \/ exists q, In q qs /\ considered q = true /\ pr_name q = n.
  Proof.
    induction qs as [|q qs IH]; intros res res' u H n; cbn [run_headers] in H.
    - injection H as <- <-. split; [auto|]. intros [I|(q & [] & _)]; exact I.
    - destruct (header_callback B q res) as [r1 x] eqn:E. destruct x as [[]| |]; [|discriminate..].
      rewrite (IH _ _ _ H). unfold header_callback in E. rewrite considered_b in E.
      destruct (considered q) eqn:CQ; simpl negb in E; cbv iota in E.
      + destruct (b_conv B (pr_schema q)); [|discriminate..]. destruct (b_deprecated B _ _); [|discriminate..].
        destruct (pr_tags q); [|discriminate..]. injection E as <-. rewrite keys_put. split.
        * intros [[->|I]|(q' & I & P)]; [right; exists q; simpl; auto|auto|right; exists q'; simpl; tauto].
        * intros [I|(q' & [<-|I] & P1 & P2)]; [auto|auto|right; exists q'; auto].
      + injection E as <-. split.
        * intros [I|(q' & I & P)]; [auto|right; exists q'; simpl; tauto].
        * intros [I|(q' & [<-|I] & P1 & P2)]; [auto|congruence|right; exists q'; auto].
  Qed.

  Lemma parse_header_ok cu c r c' r' u : parse_response_header B cu (c, r) = ((c', r'), Ret u) ->
    c' = c /\ rs_content r' = rs_content r /\ rs_rest r' = rs_rest r /\
    (cu_nil cu = true /\ r' = r \/
     cu_nil cu = false /\ exists qs d, v_headers cu = (qs, Ret d) /\
       rs_desc r' = first_text [rs_desc r; text d] /\
       forall n, In n (keys (rs_headers r')) <-> exists q, In q qs /\ considered q = true /\ pr_name q = n).
  Proof.
    unfold parse_response_header. intros H.
    destruct (cu_nil cu); [injection H as <- <- <-; split; [reflexivity|]; split; [reflexivity|split; [reflexivity|left; auto]]|].
    destruct (v_headers cu) as [qs fin]. destruct (run_headers B qs []) as [res x] eqn:E.
    destruct x as [[]| |]; [|discriminate..]. destruct fin as [d| |]; [|discriminate..].
    injection H as <- <- <-.
    assert (X : forall (d : option string) (r : response), rs_headers (fill_desc d r) = rs_headers r /\ rs_rest (fill_desc d r) = rs_rest r /\
        rs_content (fill_desc d r) = rs_content r /\ rs_desc (fill_desc d r) = first_text [rs_desc r; text d])
      by (intros [d0|] [dd hh cc rr]; cbn; destruct dd; cbn; try destruct d0; auto).
    destruct (X d (set_headers r res)) as (X1 & X2 & X3 & X4). rewrite X1, X2, X3, X4.
    split; [reflexivity|]. split; [reflexivity|]. split; [reflexivity|]. right. split; [reflexivity|].
    exists qs, d. split; [reflexivity|]. split; [reflexivity|]. intros n. simpl rs_headers.
    rewrite (run_headers_names _ _ _ _ E). simpl. intuition.
  Qed.

  (* Changing only the content: which keys are there, which entries are kept. *)
  Definition cont (added : string -> Prop) (r r' : response) : Prop :=
    (forall ct, In ct (keys (rs_content r')) <-> In ct (keys (rs_content r)) \/ added ct) /\
    (forall ct, ~ added ct -> get ct (rs_content r') = get ct (rs_content r)) /\
    rs_headers r' = rs_headers r /\ rs_desc r' = rs_desc r /\ rs_rest r' = rs_rest r.

  Lemma ensure_cont r ct f : cont (eq ct) r (ensure_content_type B r ct f).
  Proof.
    unfold ensure_content_type. destruct (has ct (rs_content r)) eqn:HC.
    - apply has_In in HC. repeat split; auto; try (intros [H|<-]; auto).
    - unfold cont. cbn [set_content rs_content rs_headers rs_desc rs_rest].
      split; [intros x; rewrite keys_put; intuition congruence|].
      split; [intros x N; apply get_put_other; congruence|]. auto.
  Qed.

  Lemma raw_content_cont r ct : cont (eq ct) r (raw_content B r ct).
  Proof.
    unfold raw_content. destruct (b_v31 B); [|apply ensure_cont].
    unfold cont. cbn [set_content rs_content rs_headers rs_desc rs_rest].
    split; [intros x; rewrite keys_put; intuition congruence|].
    split; [intros x N; apply get_put_other; congruence|]. auto.
  Qed.

  Lemma cont_trans A1 A2 r r1 r2 : cont A1 r r1 -> cont A2 r1 r2 -> cont (fun ct => A1 ct \/ A2 ct) r r2.
  Proof.
    intros (K1 & G1 & H1 & D1 & R1) (K2 & G2 & H2 & D2 & R2). split; [|split].
    - intros ct. rewrite K2, K1. tauto.
    - intros ct N. rewrite G2, G1; tauto.
    - repeat split; congruence.
  Qed.

  Lemma cont_iff A1 A2 r r' : (forall ct, A1 ct <-> A2 ct) -> cont A1 r r' -> cont A2 r r'.
  Proof.
    intros E (K & G & H). split; [|split; [|exact H]].
    - intros ct. rewrite K, E. tauto.
    - intros ct N. apply G. rewrite E. exact N.
  Qed.

  Lemma cont_nil r : cont (fun _ => False) r r.
  Proof. repeat split; auto; tauto. Qed.

  Lemma raw_response_cont cu r :
    cont (fun ct => cu_nil cu = false /\ In ct (v_content_tags cu)) r (parse_raw_response_body B cu r).
  Proof.
    unfold parse_raw_response_body. destruct (cu_nil cu).
    - eapply cont_iff; [|apply cont_nil]. intuition congruence.
    - apply (cont_iff (fun ct => In ct (v_content_tags cu))); [tauto|].
      generalize (v_content_tags cu). intros l. revert r.
      induction l as [|t l IH]; intros r; simpl; [apply cont_nil|].
      eapply cont_trans; [apply raw_content_cont|apply IH].
  Qed.

  Lemma contributes_iff (cu : cunit) ct : contributes cu ct <->
    (cu_nil cu = false /\ v_has_json cu <> Ret false /\
       ct = (if is_empty (before_semicolon (cu_ctype cu)) then mime_json else before_semicolon (cu_ctype cu))) \/
    (cu_nil cu = false /\ In ct (v_content_tags cu)) \/
    (is_empty (before_semicolon (cu_ctype cu)) = false /\ ct = before_semicolon (cu_ctype cu)).
  Proof.
    pose proof (before_semicolon_base (cu_ctype cu)) as BS. split.
    - intros [N HJ BT|ct' N I|ct' BT NE].
      + pose proof (base_type_unique _ _ _ BS BT) as ->. left. auto.
      + auto.
      + pose proof (base_type_unique _ _ _ BS BT) as ->. right. right. split; [destruct ct'; [congruence|reflexivity]|reflexivity].
    - destruct (before_semicolon (cu_ctype cu)) as [|x b]; simpl is_empty; cbv iota.
      + intros [(N & HJ & ->)|[(N & I)|(X & _)]]; [apply con_json; auto|apply con_tag; auto|discriminate].
      + intros [(N & HJ & ->)|[(N & I)|(X & ->)]]; [|apply con_tag; auto|]; apply con_type; auto; discriminate.
  Qed.

  Lemma first_text_assoc a b c : first_text [first_text [a; b]; c] = first_text [a; b; c].
  Proof. destruct a; cbn; auto. destruct b; cbn; auto. Qed.

  Lemma first_text_cat a l : first_text (a :: l) = first_text [a; first_text l].
  Proof.
    destruct a; cbn; auto.
    assert (X : forall s : string, (if is_empty s then "" else s) = s) by (intros []; auto). rewrite X. reflexivity.
  Qed.

  Lemma finish_desc (cu : cunit) (r : response) :
    let r1 := if is_empty (cu_desc cu) then r else set_desc r (cu_desc cu) in
    let r2 := if is_empty (rs_desc r1) then set_desc r1 (status_text (norm_status cu)) else r1 in
    rs_content r2 = rs_content r /\ rs_headers r2 = rs_headers r /\ rs_rest r2 = rs_rest r /\
    rs_desc r2 = first_text [cu_desc cu; rs_desc r; status_text (norm_status cu)].
  Proof.
    cbv zeta. assert (X : forall s : string, (if is_empty s then "" else s) = s) by (intros []; auto).
    destruct (cu_desc cu) as [|x d] eqn:D; cbn.
    - destruct (rs_desc r) as [|y e] eqn:E; cbn; rewrite ?X, ?E; auto.
    - auto.
  Qed.

  Lemma effective_norm (cu : cunit) : effective_status cu (norm_status cu).
  Proof.
    unfold effective_status, norm_status. destruct (Z.eqb_spec (cu_status cu) 0), (cu_default cu); cbn; auto 6.
  Qed.

  Definition headers_ok (cu : cunit) (r r' : response) : Prop :=
    (cu_nil cu = true /\ rs_headers r' = rs_headers r) \/
    (cu_nil cu = false /\
      forall n, In n (keys (rs_headers r')) <-> exists q, In q (fst (v_headers cu)) /\ considered q = true /\ pr_name q = n).

  Lemma fill_ok cu m c r c' r' : openapi_method m -> fill_response B cu m (c, r) = ((c', r'), Ret tt) ->
    headers_ok cu r r' /\ describes B m cu (rs_desc r) (rs_desc r') /\ rs_rest r' = rs_rest r /\
    (m = "head" -> rs_content r' = rs_content r) /\
    (m <> "head" ->
      (forall ct, In ct (keys (rs_content r')) <-> In ct (keys (rs_content r)) \/ contributes cu ct) /\
      (forall ct, ~ contributes cu ct -> get ct (rs_content r') = get ct (rs_content r))).
  Proof.
    intros OM H. unfold fill_response in H.
    assert (HD : String.eqb (to_upper m) "HEAD" = true <-> m = "head")
      by (destruct OM as [->|[->|[->|[->|[->|[->|[->| ->]]]]]]]; vm_compute; split; congruence).
    assert (HT : forall c1 r1 r2 c2, parse_response_header B cu (c1, r1) = ((c2, r2), Ret tt) ->
      exists th, header_text cu th /\ rs_desc r2 = first_text [rs_desc r1; th] /\ headers_ok cu r1 r2).
    { intros c1 r1 r2 c2 E. apply parse_header_ok in E. destruct E as (_ & _ & _ & [(N & ->)|(N & qs & d & V & D & HN)]).
      - exists "". split; [left; auto|]. split; [destruct (rs_desc r1); reflexivity|]. left. auto.
      - exists (text d). split; [right; split; [exact N|]; exists qs, d; auto|]. split; [exact D|].
        right. split; [exact N|]. rewrite V. exact HN. }
    destruct (String.eqb (to_upper m) "HEAD") eqn:EH; simpl negb in H; cbv iota in H.
    - assert (M : m = "head") by (apply HD; reflexivity).
      destruct (parse_response_header B cu (c, r)) as [[c1 r1] x] eqn:E. destruct x as [[]| |]; [|discriminate..].
      destruct (HT _ _ _ _ E) as (th & T1 & T2 & T3).
      apply parse_header_ok in E. destruct E as (_ & C1 & R1 & _).
      pose proof (finish_desc cu r1) as F. cbv zeta in F. injection H as <- <-.
      destruct F as (F1 & F2 & F3 & F4). split; [|split; [|split; [|split]]].
      + unfold headers_ok in *. rewrite F2. exact T3.
      + exists "", th, (norm_status cu). split; [left; auto|]. split; [exact T1|]. split; [apply effective_norm|].
        rewrite F4, T2. destruct (cu_desc cu), (rs_desc r); cbn; auto. destruct th; auto.
      + congruence.
      + congruence.
      + congruence.
    - assert (M : m <> "head") by (intros E; apply HD in E; discriminate).
      match type of H with context [join_errors ?fs ?s0] => destruct (join_errors fs s0) as [[c9 r9] x] eqn:E end.
      destruct x as [[]| |]; [|discriminate..].
      apply join_cons in E. destruct E as ([c1 r1] & E1 & E).
      apply join_cons in E. destruct E as ([c2 r2] & E2 & E). injection E as <- <-.
      destruct (HT _ _ _ _ E2) as (th & T1 & T2 & T3).
      apply parse_header_ok in E2. destruct E2 as (_ & C2 & R2 & _).
      apply parse_json_ok in E1. destruct E1 as (JH & JR & JC).
      match type of H with (_, ?x, _) = _ => idtac | _ => idtac end.
      set (r3 := if is_empty (before_semicolon (cu_ctype cu)) then parse_raw_response_body B cu r2
                 else ensure_content_type B (parse_raw_response_body B cu r2) (before_semicolon (cu_ctype cu)) (cu_format cu)) in *.
      pose proof (finish_desc cu r3) as F. cbv zeta in F. injection H as <- <-.
      destruct F as (F1 & F2 & F3 & F4).
      assert (C3 : cont (fun ct => (cu_nil cu = false /\ In ct (v_content_tags cu)) \/
         (is_empty (before_semicolon (cu_ctype cu)) = false /\ ct = before_semicolon (cu_ctype cu))) r2 r3).
      { unfold r3. destruct (is_empty (before_semicolon (cu_ctype cu))).
        - eapply cont_iff; [|apply raw_response_cont]. intuition congruence.
        - eapply cont_iff; [|eapply cont_trans; [apply raw_response_cont|apply ensure_cont]].
          intuition congruence. }
      destruct C3 as (K3 & G3 & H3 & D3 & R3).
      split; [|split; [|split; [|split]]].
      + unfold headers_ok in *. rewrite F2, H3. destruct T3 as [(T3 & T4)|T3]; [left; split; congruence|right; exact T3].
      + destruct JC as [(JN & ->)|(JN & JB & defs & j & mt & JV & JK & JD)].
        * exists "", th, (norm_status cu). split; [left; split; [reflexivity|]; tauto|].
          split; [exact T1|]. split; [apply effective_norm|].
          rewrite F4, D3, T2. destruct (cu_desc cu), (rs_desc r); cbn; auto. destruct th; auto.
        * exists (text (b_desc B j)), th, (norm_status cu).
          split; [right; split; [exact M|]; split; [exact JN|]; split; [exact JB|]; exists defs, j; auto|].
          split; [exact T1|]. split; [apply effective_norm|].
          rewrite F4, D3, T2, JD. destruct (cu_desc cu), (rs_desc r); cbn; auto.
          destruct (text (b_desc B j)); cbn; auto. destruct th; auto.
      + congruence.
      + congruence.
      + intros _. rewrite F1.
        destruct JC as [(JN & ->)|(JN & JB & defs & j & mt & JV & JK & JD)].
        * split.
          -- intros ct. rewrite K3, C2, contributes_iff. intuition congruence.
          -- intros ct N. rewrite contributes_iff in N. rewrite G3, C2; tauto.
        * split.
          -- intros ct. rewrite K3, C2, JK, keys_put, contributes_iff. intuition.
          -- intros ct N. rewrite contributes_iff in N. rewrite G3, C2, JK by tauto.
             apply get_put_other. intros EQ. apply N. left. auto.
  Qed.

  (* ---------- responses: components ---------- *)

  Lemma parse_json_grows cu ct st st' r : parse_json_response B cu ct st = (st', r) -> grows (fst st) (fst st').
  Proof.
    unfold parse_json_response. destruct st as [c rs]. intros H.
    destruct (cu_nil cu); [injection H as <- <-; auto|].
    destruct (v_has_json cu) as [[]| |]; try (injection H as <- <-; auto; fail).
    all: destruct (v_json cu) as [defs res]; destruct (collect_all B c defs) as [c1 r1] eqn:E;
      apply collect_all_grows in E; destruct r1 as [[]| |]; try (injection H as <- <-; exact E);
      destruct res as [j| |]; try (injection H as <- <-; exact E);
      destruct (b_conv B j); injection H as <- <-; exact E.
  Qed.

  Lemma parse_header_comps cu st st' r : parse_response_header B cu st = (st', r) -> fst st' = fst st.
  Proof.
    unfold parse_response_header. destruct st as [c rs]. intros H.
    destruct (cu_nil cu); [injection H as <- <-; auto|].
    destruct (v_headers cu) as [qs fin]. destruct (run_headers B qs []) as [res x].
    destruct x as [[]| |]; [|injection H as <- <-; auto..].
    destruct fin; injection H as <- <-; reflexivity.
  Qed.

  Lemma fill_grows cu m st st' r : fill_response B cu m st = (st', r) -> grows (fst st) (fst st').
  Proof.
    unfold fill_response. intros H.
    match type of H with (let (_, _) := ?x in _) = _ => destruct x as [[c1 r1] x1] eqn:E end.
    assert (P : grows (fst st) c1).
    { destruct (negb _).
      - match type of E with context [join_errors ?fs ?s0] => destruct (join_errors fs s0) as [[c9 r9] x9] eqn:E9 end.
        apply (join_rel (fun a b => grows (fst a) (fst b))) in E9.
        + destruct x9 as [[]| |]; injection E as <- <- <-; exact E9.
        + intros s. apply grows_refl.
        + intros a b c. apply grows_trans.
        + apply Forall_cons; [|apply Forall_cons; [|apply Forall_nil]]; intros s s' r'.
          * apply parse_json_grows.
          * intros X. apply parse_header_comps in X. destruct s, s'; simpl in *; subst. apply grows_refl.
      - apply parse_header_comps in E. simpl in E. rewrite E. apply grows_refl. }
    destruct x1 as [[]| |]; injection H as <- <-; exact P.
  Qed.

  Lemma response_unit_grows cu m st st' r : response_unit B cu m st = (st', r) -> grows (fst st) (fst st').
  Proof.
    unfold response_unit. destruct st as [c rs]. intros H.
    match type of H with context [fill_response B cu m ?s] => destruct (fill_response B cu m s) as [[c1 r1] x] eqn:E end.
    apply fill_grows in E. simpl in E.
    destruct x as [[]| |]; injection H as <- <-; exact E.
  Qed.

  Lemma setup_response_grows cus m : forall st st' r, setup_response B cus m st = (st', r) -> grows (fst st) (fst st').
  Proof.
    induction cus as [|cu cus IH]; intros st st' r H; cbn [setup_response] in H.
    - injection H as <- <-. apply grows_refl.
    - destruct (response_unit B cu m st) as [st1 r1] eqn:E. apply response_unit_grows in E.
      destruct r1 as [[]| |]; [|injection H as <- <-; exact E..].
      apply IH in H. eapply grows_trans; eauto.
  Qed.

  (* ---------- the whole call ---------- *)

  Lemma setup_oc_grows {R} rget rset c (oc : opctx J Sch R) c' o' a :
    setup_oc B rget rset c oc = (c', o', a) -> grows c c'.
  Proof.
    unfold setup_oc. intros H.
    destruct (setup_request B (oc_req oc) (oc_method oc) (c, oc_op oc)) as [[c1 o1] r1] eqn:E.
    apply setup_request_fr in E. destruct E as [E _]. simpl in E.
    destruct r1 as [[]| |]; [|injection H as <- <- <-; exact E..].
    destruct (validate_path_params _ _); [|injection H as <- <- <-; exact E].
    destruct (oc_resp oc) as [|cu cus]; [injection H as <- <- <-; exact E|].
    destruct (setup_response B (cu :: cus) (oc_method oc) (c1, rget (op_responses o1))) as [[c2 rs2] r2] eqn:E2.
    apply setup_response_grows in E2. simpl in E2.
    destruct r2 as [[]| |]; injection H as <- <- <-; eapply grows_trans; eauto.
  Qed.

  Lemma setup_oc_ok {R} rget rset c (oc : opctx J Sch R) c' o' :
    (forall x, rget (rset x) = x) ->
    setup_oc B rget rset c oc = (c', o', AOk) ->
    exists c1 o1 rs1, setup_request B (oc_req oc) (oc_method oc) (c, oc_op oc) = ((c1, o1), Ret tt) /\
      validate_path_params (op_params o1) (oc_params oc) = [] /\
      setup_response B (oc_resp oc) (oc_method oc) (c1, rget (op_responses (oc_op oc))) = ((c', rs1), Ret tt) /\
      rget (op_responses o') = rs1 /\ op_params o' = op_params o1 /\ op_body o' = op_body o1 /\
      op_ext o' = op_ext o1 /\ others o' = others (oc_op oc).
  Proof.
    unfold setup_oc. intros GS H.
    destruct (setup_request B (oc_req oc) (oc_method oc) (c, oc_op oc)) as [[c1 o1] r1] eqn:E.
    pose proof (setup_request_fr _ _ _ _ _ E) as (_ & F1 & F2). simpl in F1, F2.
    destruct r1 as [[]| |]; [|discriminate..].
    destruct (validate_path_params (op_params o1) (oc_params oc)) eqn:V; [|discriminate].
    destruct (oc_resp oc) as [|cu cus].
    - injection H as <- <-. exists c1, o1, (rget (op_responses (oc_op oc))). rewrite F1. repeat split; auto.
    - rewrite F1 in H.
      destruct (setup_response B (cu :: cus) (oc_method oc) (c1, rget (op_responses (oc_op oc)))) as [[c2 rs2] r2] eqn:E2.
      destruct r2 as [[]| |]; [|discriminate..]. injection H as <- <-.
      exists c1, o1, rs2. cbn [set_responses op_responses op_params op_body op_ext]. repeat split; auto.
  Qed.

  Lemma made_gen method path m p ps : sanitize_method_path method path = Some (m, p, ps) ->
    openapi_method m /\ clean p /\ exists l, parses p l /\ ps = names l.
  Proof.
    intros H. destruct (parses_total path) as [l P]. destruct (sanitize_some _ _ _ _ _ _ P H) as (OM & _ & _ & -> & ->).
    split; [exact OM|]. split; [eapply clean_stripped; eauto|].
    exists (map strip l). split; [apply (parses_strip _ _ P)|symmetry; apply names_strip].
  Qed.

  Lemma made30_ok (oc : opctx J Sch responses) : made30 oc ->
    openapi_method (oc_method oc) /\ clean (oc_path oc) /\ exists l, parses (oc_path oc) l /\ oc_params oc = names l.
  Proof.
    intros (r & me & pa & oc0 & H & -> & -> & ->). unfold new_context30 in H.
    destruct (sanitize_method_path me pa) as [[[m p] ps]|] eqn:S; [|discriminate].
    destruct (get m _); [discriminate|]. injection H as <-. simpl. eapply made_gen; eauto.
  Qed.

  Lemma made31_ok (oc : opctx J Sch (option responses)) : made31 oc ->
    openapi_method (oc_method oc) /\ clean (oc_path oc) /\ exists l, parses (oc_path oc) l /\ oc_params oc = names l.
  Proof.
    intros (r & r' & me & pa & oc0 & H & -> & -> & ->). unfold new_context31 in H.
    destruct (sanitize_method_path me pa) as [[[m p] ps]|] eqn:S; [|discriminate].
    destruct (paths_ens (r31_paths r)) as [s items].
    destruct (pi_operation _ _) as [[]|]; try discriminate. injection H as _ <-. simpl. eapply made_gen; eauto.
  Qed.

  Lemma clean_sanitized method p m p' ps : openapi_method method -> clean p ->
    sanitize_method_path method p = Some (m, p', ps) -> m = method /\ p' = p.
  Proof.
    intros OM CL H. destruct (parses_total p) as [l P]. destruct (sanitize_some _ _ _ _ _ _ P H) as (OM' & _ & L & -> & _).
    rewrite (to_lower_fix _ OM) in L. split; [congruence|]. apply clean_render; assumption.
  Qed.

  Record core (cl : call J Sch) (v : view Sch) : Prop := mkCore {
    core_method : openapi_method (c_method cl);
    core_req : exists R (o o1 : operation Sch R) c c1,
      setup_request B (c_req cl) (c_method cl) (c, o) = ((c1, o1), Ret tt) /\
      op_params o = vw_params (c_view cl) /\ op_body o = vw_body (c_view cl) /\ op_ext o = vw_ext (c_view cl) /\
      op_params o1 = vw_params v /\ op_body o1 = vw_body v /\ op_ext o1 = vw_ext v;
    core_resp : exists c1 c2 rs1,
      setup_response B (c_resp cl) (c_method cl) (c1, vw_responses (c_view cl)) = ((c2, rs1), Ret tt) /\
      vw_responses v = ensure_response rs1;
    core_other : vw_other v = vw_other (c_view cl) }.

  Lemma documented_core cl v : documented B cl v -> core cl v.
  Proof.
    intros [r oc r' oc' o' M A D|r oc r' oc' o' M A D|r oc r' oc' o' M A D].
    - apply made30_ok in M. destruct M as (OM & CL & _). unfold reflector_add30 in A.
      destruct (setup_oc30 B (r30_comps r) oc) as [[c o] a] eqn:E. destruct a; [|discriminate..].
      apply setup_oc_ok in E; [|reflexivity]. destruct E as (c1 & o1 & rs1 & E1 & _ & E2 & E3 & E4 & E5 & E6 & E7).
      destruct (add_operation30 (r30_paths r) (oc_method oc) (oc_path oc) o) as [p e] eqn:AD.
      destruct e; [discriminate|]. injection A as <- <-. cbn [r30_paths r31_paths] in D.
      apply add30_ok in AD. destruct AD as (m & pp & ps & S & _ & _ & ->). 
      apply (clean_sanitized _ _ _ _ _ OM CL) in S. destruct S as [-> ->].
      cbv zeta in D. pose proof (eq_trans (eq_sym (doc30_put _ _ _ _ _ _)) D) as D2. rewrite pair_refl in D2. injection D2 as <-.
      constructor; cbn [c_method c_req c_resp c_view].
      + exact OM.
      + exists responses, (oc_op oc), o1, (r30_comps r), c1. split; [exact E1|]. simpl. repeat split; congruence.
      + exists c1, c, rs1. split; [exact E2|]. simpl. congruence.
      + simpl. injection E7 as -> -> -> -> -> -> ->. reflexivity.
    - apply made31_ok in M. destruct M as (OM & CL & _). unfold reflector_add31 in A.
      destruct (setup_oc31 B (r31_comps r) oc) as [[c o] a] eqn:E. destruct a; [|discriminate..].
      apply setup_oc_ok in E; [|reflexivity]. destruct E as (c1 & o1 & rs1 & E1 & _ & E2 & E3 & E4 & E5 & E6 & E7).
      destruct (add_operation31 (r31_paths r) (oc_method oc) (oc_path oc) o) as [p e] eqn:AD.
      destruct e; [discriminate|]. injection A as <- <-. cbn [r30_paths r31_paths] in D.
      apply add31_ok in AD. destruct AD as (m & pp & ps & S & _ & _ & _ & _ & _ & DD).
      apply (clean_sanitized _ _ _ _ _ OM CL) in S. destruct S as [-> ->].
      rewrite DD, pair_refl in D. injection D as <-.
      constructor; cbn [c_method c_req c_resp c_view].
      + exact OM.
      + exists (option responses), (oc_op oc), o1, (r31_comps r), c1. split; [exact E1|]. simpl. repeat split; congruence.
      + exists c1, c, rs1. split; [exact E2|]. simpl. rewrite <- E3. reflexivity.
      + simpl. injection E7 as -> -> -> -> -> -> ->. reflexivity.
    - apply made31_ok in M. destruct M as (OM & CL & _). unfold reflector_webhook31 in A.
      destruct (setup_oc31 B (r31_comps r) oc) as [[c o] a] eqn:E. destruct a; [|discriminate..].
      apply setup_oc_ok in E; [|reflexivity]. destruct E as (c1 & o1 & rs1 & E1 & _ & E2 & E3 & E4 & E5 & E6 & E7).
      destruct (add_webhook31 (r31_paths r) (oc_method oc) (oc_path oc) o) as [p e] eqn:AD.
      destruct e; [discriminate|]. injection A as <- <-. cbn [r30_paths r31_paths] in D.
      apply webhook_cases in AD.
      destruct AD as [(i & _ & _ & X)|[(_ & _ & _ & X)|(m & pi & _ & OM' & MI & _ & _ & _ & W & _ & SL)]]; [discriminate..|].
      apply (lower_of_method _ _ OM') in MI. rewrite (to_lower_fix _ OM) in MI. subst m.
      unfold hook31 in D. rewrite W, get_put_same, SL, String.eqb_refl in D. injection D as <-.
      constructor; cbn [c_method c_req c_resp c_view].
      + exact OM.
      + exists (option responses), (oc_op oc), o1, (r31_comps r), c1. split; [exact E1|]. simpl. repeat split; congruence.
      + exists c1, c, rs1. split; [exact E2|]. simpl. rewrite <- E3. reflexivity.
      + simpl. injection E7 as -> -> -> -> -> -> ->. reflexivity.
  Qed.

  (* ---------- responses of a documented operation ---------- *)

  Lemma filed_none (rs : responses) : no_responses rs <-> forall k, filed rs k = None.
  Proof.
    split.
    - intros [H1 H2] [|s]; simpl; [exact H2|]. rewrite H1. reflexivity.
    - intros H. split; [|apply (H KDefault)]. destruct (rs_map rs) as [|[k x] m] eqn:E; [reflexivity|].
      specialize (H (KStatus k)). simpl in H. rewrite E in H. simpl in H. rewrite String.eqb_refl in H. discriminate.
  Qed.

  Lemma final_responses cl v : core cl v ->
    exists c1 c2 rs1, setup_response B (c_resp cl) (c_method cl) (c1, vw_responses (c_view cl)) = ((c2, rs1), Ret tt) /\
      ((c_resp cl = [] /\ no_responses (vw_responses (c_view cl)) /\ vw_responses v = response_204 /\ rs1 = vw_responses (c_view cl)) \/
       ((c_resp cl <> [] \/ ~ no_responses (vw_responses (c_view cl))) /\ vw_responses v = rs1)).
  Proof.
    intros [_ _ (c1 & c2 & rs1 & E & V) _]. exists c1, c2, rs1. split; [exact E|].
    destruct (ensure_after rs1) as [EA EB].
    destruct (c_resp cl) as [|cu cus].
    - injection E as <- <-.
      assert (DEC : no_responses (vw_responses (c_view cl)) \/ ~ no_responses (vw_responses (c_view cl))).
      { unfold no_responses. destruct (rs_map _), (rs_default _); auto; right; intros []; discriminate. }
      destruct DEC as [N|N].
      + left. rewrite V, EA by exact N. auto.
      + right. rewrite V, EB by exact N. auto.
    - right. split; [left; discriminate|]. rewrite V. apply EB. intros N.
      destruct (setup_response_keys _ _ _ _ _ _ _ E (rk cu)) as [K _].
      rewrite (proj1 (filed_none rs1) N) in K. apply K; [|reflexivity]. right. exists cu. simpl. auto.
  Qed.

  Lemma doc_fills cl v k : core cl v ->
    (forall cu, In cu (c_resp cl) -> files_under cu k -> cu_custom_resp cu = None) ->
    c_resp cl <> [] \/ ~ no_responses (vw_responses (c_view cl)) ->
    fills (c_method cl) (filter (under k) (c_resp cl)) (resp_at (vw_responses (c_view cl)) k) (resp_at (vw_responses v) k) /\
    (filter (under k) (c_resp cl) <> [] -> exists r, filed (vw_responses v) k = Some (mkRor (Some r) None)).
  Proof.
    intros C NC NE. destruct (final_responses _ _ C) as (c1 & c2 & rs1 & E & [(X & Y & _)|(_ & ->)]).
    - destruct NE; tauto.
    - eapply setup_response_fills; eauto.
  Qed.

  Lemma in_filter_under (cu : cunit) k l : In cu (filter (under k) l) <-> In cu l /\ files_under cu k.
  Proof. rewrite filter_In, under_iff. reflexivity. Qed.
End Proofs.
