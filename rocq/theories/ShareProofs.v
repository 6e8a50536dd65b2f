(* Lemmas about contexts that are used more than once. *)
From Verif Require Import Str SMap Json PathModel PathSpec PathProofs PathProps Types.
From Verif Require Import RegistryModel RegistrySpec RegistryProofs.
From Verif Require Import ReflectModel ReflectSpec ReflectProofs ReflectProofs2.
From Verif Require Import ShareModel ShareSpec.

(* ---------- lists ---------- *)

Lemma nth_replace_same {A : Type} (x y : A) l : forall i, nth_error l i = Some y -> nth_error (replace i x l) i = Some x.
Proof. induction l as [|z l IH]; intros [|i] H; cbn in *; try discriminate; auto. Qed.

Lemma nth_replace_other {A : Type} (x : A) l : forall i j, j <> i -> nth_error (replace i x l) j = nth_error l j.
Proof.
  induction l as [|z l IH]; intros i j N; destruct i, j; cbn; auto; try congruence.
Qed.

Lemma nth_replace {A : Type} (x y : A) l i j z : nth_error l i = Some y -> nth_error (replace i x l) j = Some z ->
  (j = i /\ z = x) \/ (j <> i /\ nth_error l j = Some z).
Proof.
  intros H E. destruct (Nat.eq_dec j i) as [->|N].
  - rewrite (nth_replace_same x y l i H) in E. injection E as <-. auto.
  - rewrite nth_replace_other in E by exact N. auto.
Qed.

Lemma nth_snoc {A : Type} (x z : A) l j : nth_error (l ++ [x]) j = Some z -> nth_error l j = Some z \/ z = x.
Proof.
  intros H. destruct (Nat.lt_ge_cases j (length l)) as [L|L].
  - rewrite nth_error_app1 in H by exact L. auto.
  - rewrite nth_error_app2 in H by exact L. destruct (j - length l) as [|n]; cbn in H; [injection H as <-; auto|].
    destruct n; discriminate.
Qed.

Section Proofs.
  Context {J Sch : Type}.
  Variable B : backend J Sch.
  Notation cunit := (cunit J Sch).
  Notation prop := (prop J).
  Notation responses := (responses Sch).
  Notation comps := (smap Sch).
  Notation ev := (event J Sch).

  (* ---------- requests, whatever the outcome ---------- *)

  Section Op.
    Context {R : Type}.
    Notation op := (operation Sch R).
    Notation st := (comps * op)%type.

    (* parameters are appended, each from one of [fs]; bodies and extensions stay *)
    Definition wid (fs : list (string * prop)) (a b : st) : Prop :=
      (exists new, op_params (snd b) = op_params (snd a) ++ new /\
                   forall x, In x new -> exists f, In f fs /\ renders B f x) /\
      (op_body (snd a) <> None -> op_body (snd b) <> None) /\
      (forall k, In k (keys (op_ext (snd a))) -> In k (keys (op_ext (snd b)))).

    Lemma wid_refl fs a : wid fs a a.
    Proof. split; [exists []; rewrite app_nil_r; split; [reflexivity|intros x []]|]. auto. Qed.
    Lemma wid_trans fs a b c : wid fs a b -> wid fs b c -> wid fs a c.
    Proof.
      intros ((n1 & P1 & F1) & H2 & H3) ((n2 & P2 & F2) & H5 & H6). split; [|auto].
      exists (n1 ++ n2). rewrite P2, P1, app_assoc. split; [reflexivity|].
      intros x I. apply in_app_iff in I. destruct I; auto.
    Qed.
    Lemma wid_incl fs fs' a b : (forall f, In f fs -> In f fs') -> wid fs a b -> wid fs' a b.
    Proof.
      intros I ((n1 & P1 & F1) & H). split; [|exact H]. exists n1. split; [exact P1|].
      intros x Ix. destruct (F1 x Ix) as (f & If & Rf). eauto.
    Qed.
    Lemma wid_same fs a b : op_params (snd b) = op_params (snd a) ->
      (op_body (snd a) <> None -> op_body (snd b) <> None) -> op_ext (snd b) = op_ext (snd a) -> wid fs a b.
    Proof.
      intros H1 H2 H3. split; [exists []; rewrite app_nil_r; split; [exact H1|intros x []]|].
      rewrite H3. auto.
    Qed.

    Lemma param_callback_wid loc q a b r : param_callback B loc q a = (b, r) ->
      wid (if considered q then [(loc, q)] else []) a b.
    Proof.
      unfold param_callback. destruct a as [c o]. rewrite considered_b. intros H.
      destruct (considered q) eqn:K; cbn [negb] in H; [|injection H as <- <-; apply wid_refl].
      destruct (build_param B c loc q) as [c1 [p| |]] eqn:E; [|injection H as <- <-; apply wid_same; auto..].
      destruct (already_exists _ _ _); injection H as <- <-; [apply wid_same; auto|].
      split; [|cbn [snd set_params op_body op_ext]; auto].
      exists [mkPor (Some p) None]. split; [reflexivity|]. intros x [<-|[]]. exists (loc, q). split; [left; reflexivity|].
      eapply build_param_ok; eauto.
    Qed.

    Lemma run_events_wid loc es : forall a b r, run_events B loc es a = (b, r) ->
      wid (map (pair loc) (props_of es)) a b.
    Proof.
      induction es as [|e es IH]; intros a b r H; cbn [run_events] in H.
      - injection H as <- <-. apply wid_refl.
      - match type of H with (match ?x with _ => _ end) = _ => destruct x as [a1 r1] eqn:E end.
        assert (P : wid (map (pair loc) (props_of (e :: es))) a a1).
        { destruct e as [q|n j].
          - apply param_callback_wid in E. eapply wid_incl; [|exact E]. cbn [props_of].
            destruct (considered q); intros f I; [|destruct I]. destruct I as [<-|[]]. left. reflexivity.
          - destruct (collect_definition B (fst a) n j) as [c x]. injection E as <- <-. apply wid_same; auto. }
        destruct r1 as [[]| |]; [|injection H as <- <-; exact P..].
        eapply wid_trans; [exact P|]. apply IH in H. eapply wid_incl; [|exact H].
        intros f I. destruct e as [q|n j]; cbn [props_of]; [|exact I].
        destruct (considered q); cbn [map]; [right|]; exact I.
    Qed.

    Lemma parse_parameters_in_wid cu loc a b r : In loc locations -> parse_parameters_in B cu loc a = (b, r) ->
      wid (all_fields cu) a b.
    Proof.
      unfold parse_parameters_in, all_fields. intros L H.
      destruct (v_slice cu); [injection H as <- <-; apply wid_refl|].
      destruct (v_params cu loc) as [es fin] eqn:V.
      destruct (run_events B loc es a) as [a1 r1] eqn:E. apply run_events_wid in E.
      assert (P : wid (flat_map (fun loc => map (pair loc) (props_of (fst (v_params cu loc)))) locations) a a1).
      { eapply wid_incl; [|exact E]. intros f I. apply in_flat_map. exists loc. split; [exact L|]. rewrite V. exact I. }
      destruct r1 as [[]| |]; [|injection H as <- <-; exact P..].
      destruct fin as [[]| |]; [destruct a1 as [c1 o1]|..]; injection H as <- <-; try exact P.
      eapply wid_trans; [exact P|]. split; [|split].
      - exists []. rewrite app_nil_r. split; [reflexivity|intros x []].
      - auto.
      - intros k I. cbn [snd set_ext op_ext]. apply keys_put. auto.
    Qed.

    Lemma parse_parameters_wid cu a b r : parse_parameters B cu a = (b, r) -> wid (all_fields cu) a b.
    Proof.
      apply (join_rel (wid (all_fields cu)) (wid_refl _) (wid_trans _)).
      apply Forall_cons; [|apply Forall_cons; [|apply Forall_cons; [|apply Forall_cons; [|apply Forall_nil]]]];
        intros s s' r'; apply parse_parameters_in_wid; unfold locations; cbn [In]; tauto.
    Qed.

    Lemma with_body_some (o : operation Sch R) mime mt : op_body (with_body_content o mime mt) <> None.
    Proof. unfold with_body_content. cbn [set_body op_body]. discriminate. Qed.

    Lemma parse_request_body_wid fs cu mime m mp tag more (a b : st) r :
      parse_request_body B cu mime m mp tag more a = (b, r) -> wid fs a b.
    Proof.
      intros H. pose proof (parse_request_body_fr _ _ _ _ _ _ _ _ _ _ H) as (_ & P1 & P2).
      apply wid_same; auto. clear P1 P2. unfold parse_request_body in H.
      destruct (body_wanted _ _ _ _ _) as [[]| |]; [|injection H as <- <-; auto..].
      destruct (v_body cu tag) as [vis res]. destruct res as [[j defs]| |]; [|injection H as <- <-; auto..].
      destruct (b_conv B j); [|injection H as <- <-; auto..].
      match type of H with (let (_, _) := ?x in _) = _ => destruct x as [c1 r1] end.
      destruct r1 as [[]| |]; injection H as <- _; cbn [snd]; auto. intros _. apply with_body_some.
    Qed.

    Lemma raw_body_wid fs cu c (o : op) : wid fs (c, o) (c, parse_raw_request_body B cu o).
    Proof.
      destruct (raw_body_fr B cu c o) as (_ & P1 & P2). apply wid_same; auto. clear P1 P2. cbn [snd].
      unfold parse_raw_request_body. destruct (cu_nil cu); [auto|].
      generalize (v_content_tags cu). intros l. revert o.
      induction l as [|t l IH]; intros o H; cbn [fold_left]; [exact H|]. apply IH. apply with_body_some.
    Qed.

    Lemma describe_wid fs (cu : cunit) c (o : op) : wid fs (c, o) (c, customize_body cu (describe_body cu o)).
    Proof.
      destruct (describe_fr cu c o) as (_ & P1 & P2). apply wid_same; auto. clear P1 P2. cbn [snd].
      unfold customize_body, describe_body. intros N.
      destruct o as [t s d i ps [[[b|] rf]|] rs dp se ex re]; cbn [op_body rbor_body] in *; [|..|congruence];
        [destruct (is_empty (cu_desc cu))|]; destruct (cu_custom_req cu); cbn; discriminate.
    Qed.

    Lemma request_content_wid cu m (a b : st) r : request_content B cu m a = (b, r) -> wid (param_fields cu) a b.
    Proof.
      unfold request_content. intros H. pose proof (structuredb_cases cu) as SB.
      assert (P2 : forall fs mime mp tag more (s s' : st) r',
        parse_request_body B cu mime m mp tag more s = (s', r') -> wid fs s s')
        by (intros fs mime mp tag more s s' r'; apply parse_request_body_wid).
      destruct (String.eqb (cu_ctype cu) "") eqn:E0.
      - rewrite (fields_structured cu SB).
        match type of H with context [join_errors ?fs ?s0] => destruct (join_errors fs s0) as [[c1 o1] r1] eqn:E end.
        apply (join_rel _ (wid_refl (all_fields cu)) (wid_trans _)) in E.
        + destruct r1 as [[]| |]; injection H as <- <-; try exact E.
          eapply wid_trans; [exact E|]. apply raw_body_wid.
        + apply Forall_cons; [|apply Forall_cons; [|apply Forall_cons; [|apply Forall_nil]]]; eauto.
          intros s s' r'. apply parse_parameters_wid.
      - destruct (String.eqb (cu_ctype cu) mime_json) eqn:E1.
        + rewrite (fields_structured cu SB).
          eapply (join_rel _ (wid_refl (all_fields cu)) (wid_trans _)); [|exact H].
          apply Forall_cons; [|apply Forall_cons; [|apply Forall_nil]]; eauto.
          intros s s' r'. apply parse_parameters_wid.
        + destruct (String.eqb (cu_ctype cu) mime_form || String.eqb (cu_ctype cu) mime_multipart)%bool eqn:E2.
          * rewrite (fields_structured cu SB).
            eapply (join_rel _ (wid_refl (all_fields cu)) (wid_trans _)); [|exact H].
            apply Forall_cons; [|apply Forall_cons; [|apply Forall_nil]]; eauto.
            intros s s' r'. apply parse_parameters_wid.
          * destruct a as [c o]. injection H as <- <-. apply wid_same; auto. intros _. apply with_body_some.
    Qed.

    Lemma setup_request_wid cus m : forall (a b : st) r, setup_request B cus m a = (b, r) ->
      wid (flat_map param_fields cus) a b.
    Proof.
      induction cus as [|cu cus IH]; intros a b r H; cbn [setup_request] in H.
      - injection H as <- <-. apply wid_refl.
      - destruct (request_unit B cu m a) as [a1 r1] eqn:E.
        assert (P : wid (flat_map param_fields (cu :: cus)) a a1).
        { unfold request_unit in E. destruct (request_content B cu m a) as [[c2 o2] r2] eqn:E2.
          apply request_content_wid in E2.
          assert (E3 : wid (flat_map param_fields (cu :: cus)) a (c2, o2)).
          { eapply wid_incl; [|exact E2]. intros f I. cbn [flat_map]. apply in_app_iff. auto. }
          destruct r2 as [[]| |]; injection E as <- <-; try exact E3.
          eapply wid_trans; [exact E3|]. apply describe_wid. }
        destruct r1 as [[]| |]; [|injection H as <- <-; exact P..].
        eapply wid_trans; [exact P|]. apply IH in H. eapply wid_incl; [|exact H].
        intros f I. cbn [flat_map]. apply in_app_iff. auto.
    Qed.

    (* Parameters of an earlier run are in the way of the next one. *)
    Lemma spoilt cus more m (a b c d : st) r : setup_request B cus m a = (b, r) ->
      op_params (snd b) <> op_params (snd a) ->
      (forall x, In x (op_params (snd b)) -> In x (op_params (snd c))) ->
      setup_request B (cus ++ more) m c <> (d, Ret tt).
    Proof.
      intros H N I H2. apply setup_request_wid in H. destruct H as ((new & P & F) & _).
      destruct new as [|x new]; [rewrite app_nil_r in P; congruence|].
      destruct (F x (or_introl eq_refl)) as (f & If & Rf).
      destruct c as [c o], d as [c' o']. apply setup_request_adds in H2. destruct H2 as [(new2 & P2 & F2 & D2) _].
      assert (If2 : In f (flat_map param_fields (cus ++ more))).
      { rewrite flat_map_app. apply in_app_iff. auto. }
      assert (exists y, In y new2 /\ renders B f y) as (y & Iy & Ry).
      { clear -F2 If2. induction F2 as [|g z gs zs G F2 IH]; [destruct If2|].
        destruct If2 as [<-|If2]; [exists z; split; [left; reflexivity|exact G]|].
        destruct (IH If2) as (y & Iy & Ry). exists y. split; [right; exact Iy|exact Ry]. }
      destruct Rf as (p & t & ds & -> & T & _ & PI & PN & _). destruct Ry as (p' & t' & ds' & -> & T' & _ & PI' & PN' & _).
      rewrite T in T'. injection T' as <-.
      assert (In2 : forall (z : por Sch) q l, por_param z = Some q -> In z l -> In (p_name q, p_in q) (inline l)).
      { clear. intros z q l E. induction l as [|w l IH]; intros I; [destruct I|]. cbn [inline].
        destruct I as [->|I]; [rewrite E; left; reflexivity|]. destruct (por_param w); [right|]; auto. }
      apply (proj2 D2 (p_name p', p_in p')).
      - apply (In2 _ _ _ (eq_refl : por_param (mkPor (Some p') None) = Some p') Iy).
      - rewrite PN', PI', <- PN, <- PI. refine (In2 (mkPor (Some p) None) p _ eq_refl (I _ _)).
        cbn [snd] in *. rewrite P. apply in_app_iff. right. left. reflexivity.
    Qed.
  End Op.

  (* ---------- responses, whatever the outcome ---------- *)

  Lemma response_unit_any cu m (a b : comps * responses) r : response_unit B cu m a = (b, r) ->
    forall k, filed (snd a) k <> None -> filed (snd b) k <> None.
  Proof.
    destruct a as [c rs]. unfold response_unit. intros H.
    match type of H with context [fill_response B cu m ?s0] => destruct (fill_response B cu m s0) as [[c1 r1] x1] end.
    assert (E : forall k, filed rs k <> None -> filed (ensure_default cu rs) k <> None).
    { intros k N. unfold ensure_default. destruct (cu_default cu); [|exact N].
      destruct (rs_default rs) eqn:D; [exact N|]. destruct k; cbn [filed rs_default rs_map] in *; congruence. }
    cbn [snd]. intros k N. apply E in N. revert N. clear E.
    generalize (ensure_default cu rs) (cu_default cu) (response_key cu) H. clear H rs. intros rs b0 key H N.
    assert (S : forall x, filed (store_response cu x rs) k <> None).
    { intros x. unfold store_response. destruct (cu_default cu); destruct k as [|k]; cbn [filed rs_default rs_map] in *;
        try discriminate; try exact N. rewrite get_put. destruct (String.eqb k _); [discriminate|exact N]. }
    destruct x1 as [[]| |]; injection H as <- _; cbn [snd]; [apply S|..];
      (unfold write_back; destruct (cu_default cu);
       [destruct (rs_default rs) as [y|] eqn:D; [|exact N]; destruct (ror_resp y); [|exact N];
        destruct k; cbn [filed rs_default rs_map] in *; [discriminate|exact N]
       |destruct (get (response_key cu) (rs_map rs)) as [y|] eqn:D; [|exact N]; destruct (ror_resp y); [|exact N];
        destruct k as [|k]; cbn [filed rs_default rs_map] in *; [exact N|];
        rewrite get_put; destruct (String.eqb k _); [discriminate|exact N]]).
  Qed.

  Lemma setup_response_any cus m : forall (a b : comps * responses) r, setup_response B cus m a = (b, r) ->
    forall k, filed (snd a) k <> None -> filed (snd b) k <> None.
  Proof.
    induction cus as [|cu cus IH]; intros a b r H k N; cbn [setup_response] in H.
    - injection H as <- _. exact N.
    - destruct (response_unit B cu m a) as [a1 r1] eqn:E. pose proof (response_unit_any _ _ _ _ _ E k N) as N1.
      destruct r1 as [[]| |]; [|injection H as <- _; exact N1..]. eapply IH; eauto.
  Qed.

  (* ---------- the operation of a context during a call ---------- *)

  (* what a call does to the operation of its context *)
  Definition wide {R} (rget : R -> responses) (o o' : operation Sch R) : Prop :=
    others o' = others o /\
    (exists new, op_params o' = op_params o ++ new) /\
    (op_body o <> None -> op_body o' <> None) /\
    (forall k, In k (keys (op_ext o)) -> In k (keys (op_ext o'))) /\
    (forall k, filed (rget (op_responses o)) k <> None -> filed (rget (op_responses o')) k <> None).

  Lemma wide_refl {R} rget (o : operation Sch R) : wide rget o o.
  Proof.
    split; [reflexivity|]. split; [exists []; rewrite app_nil_r; reflexivity|]. auto.
  Qed.
  Lemma wide_trans {R} rget (a b c : operation Sch R) : wide rget a b -> wide rget b c -> wide rget a c.
  Proof.
    intros (H1 & (n1 & H2) & H3 & H4 & H5) (K1 & (n2 & K2) & K3 & K4 & K5).
    split; [congruence|]. split; [|auto]. exists (n1 ++ n2). rewrite K2, H2, app_assoc. reflexivity.
  Qed.

  Lemma setup_oc_request {R} rget rset c (oc : opctx J Sch R) c' o' a : setup_oc B rget rset c oc = (c', o', a) ->
    exists b r, setup_request B (oc_req oc) (oc_method oc) (c, oc_op oc) = (b, r) /\
      op_params o' = op_params (snd b) /\ op_body o' = op_body (snd b) /\ op_ext o' = op_ext (snd b) /\
      others o' = others (snd b) /\
      (op_responses o' = op_responses (snd b) \/
       exists rs, op_responses o' = rset rs /\
         forall k, filed (rget (op_responses (snd b))) k <> None -> filed rs k <> None) /\
      (a = AOk -> r = Ret tt).
  Proof.
    unfold setup_oc. intros H.
    destruct (setup_request B (oc_req oc) (oc_method oc) (c, oc_op oc)) as [[c1 o1] r1] eqn:E.
    exists (c1, o1), r1. split; [reflexivity|]. cbn [snd].
    destruct r1 as [[]| |];
      [|injection H as <- <- <-; repeat (split; [reflexivity|]); split; [left; reflexivity|discriminate]..].
    destruct (validate_path_params _ _);
      [|injection H as <- <- <-; repeat (split; [reflexivity|]); split; [left; reflexivity|discriminate]].
    destruct (oc_resp oc) as [|cu cus];
      [injection H as <- <- <-; repeat (split; [reflexivity|]); split; [left; reflexivity|reflexivity]|].
    destruct (setup_response B (cu :: cus) (oc_method oc) (c1, rget (op_responses o1))) as [[c2 rs2] r2] eqn:E2.
    pose proof (setup_response_any _ _ _ _ _ E2) as K. cbn [snd] in K.
    assert (o' = set_responses o1 (rset rs2)) as ->.
    { destruct r2 as [[]| |]; injection H as <- <- <-; reflexivity. }
    repeat (split; [reflexivity|]). split; [|reflexivity]. right. exists rs2. auto.
  Qed.

  Lemma setup_oc_wide {R} rget rset c (oc : opctx J Sch R) c' o' a : (forall x, rget (rset x) = x) ->
    setup_oc B rget rset c oc = (c', o', a) -> wide rget (oc_op oc) o'.
  Proof.
    intros GS H. apply setup_oc_request in H. destruct H as ([cb ob] & r & E & P1 & P2 & P3 & P4 & P5 & _).
    pose proof (setup_request_fr _ _ _ _ _ _ E) as (_ & F1 & F2). apply setup_request_wid in E.
    destruct E as ((new & W1 & _) & W2 & W3). cbn [snd] in *.
    split; [etransitivity; [exact P4|exact F2]|]. split; [exists new; etransitivity; [exact P1|exact W1]|]. rewrite P2, P3.
    split; [exact W2|]. split; [exact W3|].
    rewrite F1 in P5. destruct P5 as [->|(rs & -> & K)]; [auto|]. rewrite GS. exact K.
  Qed.

  (* ------------------------------------------------------------------ *)
  (* openapi3                                                              *)

  Definition at_loc (p m p2 m2 : string) : bool := String.eqb p2 p && String.eqb m2 m.
  Lemma at_loc_refl p m : at_loc p m p m = true.
  Proof. unfold at_loc. rewrite !String.eqb_refl. reflexivity. Qed.
  Lemma at_loc_true p m p2 m2 : at_loc p m p2 m2 = true -> p2 = p /\ m2 = m.
  Proof. unfold at_loc. rewrite andb_true_iff, !String.eqb_eq. auto. Qed.
  Lemma at_loc_false p m p2 m2 : (p2, m2) <> (p, m) -> at_loc p m p2 m2 = false.
  Proof.
    intros N. destruct (at_loc p m p2 m2) eqn:E; [|reflexivity]. apply at_loc_true in E. destruct E as [-> ->]. congruence.
  Qed.

  Lemma touch30_doc f p m (s : paths30 Sch) p2 m2 :
    doc30 (touch30 f p m s) p2 m2 = if at_loc p m p2 m2 then option_map f (doc30 s p2 m2) else doc30 s p2 m2.
  Proof.
    unfold touch30, doc30, at_loc. destruct (get p (sp30_items s)) as [i|] eqn:G.
    - destruct (get m (pi_ops i)) as [d|] eqn:Gm.
      + cbn [sp30_items]. rewrite get_put. destruct (String.eqb p2 p) eqn:E; cbn [andb]; [|reflexivity].
        apply String.eqb_eq in E. subst p2. rewrite G. cbn [pi_ops]. rewrite get_put.
        destruct (String.eqb m2 m) eqn:E2; [|reflexivity]. apply String.eqb_eq in E2. subst m2. rewrite Gm. reflexivity.
      + destruct (String.eqb p2 p) eqn:E; cbn [andb]; [|reflexivity]. apply String.eqb_eq in E. subst p2. rewrite G.
        destruct (String.eqb m2 m) eqn:E2; [|reflexivity]. apply String.eqb_eq in E2. subst m2. rewrite Gm. reflexivity.
    - destruct (String.eqb p2 p) eqn:E; cbn [andb]; [|reflexivity]. apply String.eqb_eq in E. subst p2. rewrite G.
      destruct (String.eqb m2 m); reflexivity.
  Qed.

  Definition fix30 (o : op30 Sch) : op30 Sch := set_responses o (ensure_response (op_responses o)).
  Notation rid := (fun x : responses => x).

  (* what a call with a kept context does *)
  Lemma add30_fx (x x' : ctx30 J Sch) (r r' : refl30 Sch) a :
    made30 (x30_oc x) ->
    (x30_link x <> None -> doc30 (r30_paths r) (oc_path (x30_oc x)) (oc_method (x30_oc x)) <> None) ->
    add30 B x r = (r', x', a) ->
    exists o', x30_oc x' = set_op (x30_oc x) o' /\
      (exists c' a0, setup_oc30 B (r30_comps r) (x30_oc x) = (c', o', a0) /\ (a = AOk -> a0 = AOk)) /\
      (a <> AOk /\ x30_link x' = x30_link x /\
       (forall p m, doc30 (r30_paths r') p m =
          match x30_link x with
          | Some s => if at_loc (oc_path (x30_oc x)) (oc_method (x30_oc x)) p m
                      then option_map (see30 s o') (doc30 (r30_paths r) p m) else doc30 (r30_paths r) p m
          | None => doc30 (r30_paths r) p m
          end) \/
       a = AOk /\ x30_link x = None /\ x30_link x' = Some (shares30 o') /\
       doc30 (r30_paths r) (oc_path (x30_oc x)) (oc_method (x30_oc x)) = None /\
       (forall p m, doc30 (r30_paths r') p m =
          if at_loc (oc_path (x30_oc x)) (oc_method (x30_oc x)) p m then Some (fix30 o') else doc30 (r30_paths r) p m)).
  Proof.
    intros M L H. apply made30_ok in M. destruct M as (OM & CL & _).
    unfold add30, reflector_add30 in H.
    destruct (setup_oc30 B (r30_comps r) (x30_oc x)) as [[c o] y] eqn:E. exists o.
    destruct y.
    - destruct (add_operation30 (r30_paths r) (oc_method (x30_oc x)) (oc_path (x30_oc x)) o) as [p e] eqn:A.
      destruct e as [e|]; injection H as <- <- <-; cbn [x30_oc x30_link set_op oc_op oc_path oc_method r30_paths].
      + split; [reflexivity|]. split; [exists c, AOk; auto|]. left. split; [discriminate|]. split; [reflexivity|].
        apply add30_err in A. subst p. intros p m. destruct (x30_link x) as [s|]; cbn [r30_paths]; [|reflexivity].
        apply touch30_doc.
      + split; [reflexivity|]. split; [exists c, AOk; auto|]. right. split; [reflexivity|].
        apply add30_ok in A. destruct A as (m & pp & ps & S & D & _ & ->).
        apply (clean_sanitized _ _ _ _ _ OM CL) in S. destruct S as [-> ->].
        destruct (x30_link x) as [s|]; [exfalso; apply L; [discriminate|exact D]|]. cbn [r30_paths].
        split; [reflexivity|]. split; [reflexivity|]. split; [exact D|]. intros p m. apply doc30_put.
    - injection H as <- <- <-; cbn [x30_oc x30_link set_op oc_op oc_path oc_method r30_paths].
      split; [reflexivity|]. split; [exists c; eexists; split; [reflexivity|discriminate]|].
      left. split; [discriminate|]. split; [reflexivity|].
      intros p m. destruct (x30_link x) as [s|]; cbn [r30_paths]; [|reflexivity]. apply touch30_doc.
    - injection H as <- <- <-; cbn [x30_oc x30_link set_op oc_op oc_path oc_method r30_paths].
      split; [reflexivity|]. split; [exists c; eexists; split; [reflexivity|discriminate]|].
      left. split; [discriminate|]. split; [reflexivity|].
      intros p m. destruct (x30_link x) as [s|]; cbn [r30_paths]; [|reflexivity]. apply touch30_doc.
  Qed.

  Definition agree30 (s : shared30) (o d : op30 Sch) : Prop :=
    (h30_body s = true -> op_body o <> None) /\
    (h30_map s = true -> rs_map (op_responses d) = rs_map (op_responses o)) /\
    (h30_ext s = true -> op_ext d = op_ext o).

  Definition loc30 (x : ctx30 J Sch) : string * string := (oc_path (x30_oc x), oc_method (x30_oc x)).
  Definition docw30 (w : world30 J Sch) (l : string * string) : option (op30 Sch) :=
    doc30 (r30_paths (w30_refl w)) (fst l) (snd l).

  Record inv30 (w : world30 J Sch) : Prop := mkInv30 {
    i30_made : forall i x, nth_error (w30_ctx w) i = Some x -> made30 (x30_oc x);
    i30_link : forall i x s, nth_error (w30_ctx w) i = Some x -> x30_link x = Some s ->
      exists d, docw30 w (loc30 x) = Some d /\ agree30 s (oc_op (x30_oc x)) d;
    i30_apart : forall i j x y, i <> j -> nth_error (w30_ctx w) i = Some x -> nth_error (w30_ctx w) j = Some y ->
      x30_link x <> None -> x30_link y <> None -> loc30 x <> loc30 y }.

  Lemma inv30_nil r : inv30 (mkWorld30 r []).
  Proof. split; intros i; destruct i; cbn; intros; discriminate. Qed.

  Lemma agree30_see s (o o' d : op30 Sch) : agree30 s o d -> wide rid o o' -> agree30 s o' (see30 s o' d).
  Proof.
    intros (A1 & A2 & A3) (_ & _ & W & _). unfold agree30, see30. cbn [op_responses rs_map op_ext].
    split; [auto|]. split; intros E; rewrite E; reflexivity.
  Qed.

  Lemma outline_see30 s (o o' d : op30 Sch) : agree30 s o d -> wide rid o o' ->
    keeps_outline (view30 d) (view30 (see30 s o' d)).
  Proof.
    intros (A1 & A2 & A3) (_ & _ & W & X & F). unfold keeps_outline, view30, view_of, see30.
    cbn [vw_params vw_other vw_body vw_responses vw_ext op_params op_body op_responses op_ext op_tags op_summary op_desc op_id op_deprecated op_security op_rest].
    split; [reflexivity|]. split; [reflexivity|]. split; [|split].
    - destruct (h30_body s) eqn:E; auto.
    - intros [|k] N; cbn [filed rs_default rs_map] in *.
      + destruct (h30_default s); [|exact N]. unfold see_default.
        destruct (rs_default (op_responses d)) as [x|]; [|congruence].
        destruct (rs_default (op_responses o')) as [y|]; [|discriminate].
        destruct (ror_resp x); [|discriminate]. destruct (ror_resp y); discriminate.
      + destruct (h30_map s) eqn:E; [|exact N]. rewrite (A2 eq_refl) in N. apply (F (KStatus k)). exact N.
    - destruct (h30_ext s) eqn:E; [|auto]. intros k I. rewrite (A3 eq_refl) in I. auto.
  Qed.

  Lemma keeps_refl (v : view Sch) : keeps_outline v v.
  Proof. split; [reflexivity|]. split; [reflexivity|]. auto. Qed.
  Lemma keeps_trans (a b c : view Sch) : keeps_outline a b -> keeps_outline b c -> keeps_outline a c.
  Proof.
    intros (H1 & H2 & H3 & H4 & H5) (K1 & K2 & K3 & K4 & K5). split; [congruence|]. split; [congruence|]. auto.
  Qed.

  Lemma agree30_new (o : op30 Sch) : agree30 (shares30 o) o (fix30 o).
  Proof.
    unfold agree30, shares30, fix30. cbn [h30_body h30_map h30_ext set_responses op_responses op_ext].
    split; [|split; [|reflexivity]].
    - destruct (op_body o); cbn; [discriminate|discriminate].
    - unfold ensure_response. destruct (rs_map (op_responses o)) eqn:E; cbn [is_nil negb]; [discriminate|].
      intros _. rewrite E. reflexivity.
  Qed.

  (* contexts changed without a call *)
  Lemma inv30_edit w i x oc' : inv30 w -> nth_error (w30_ctx w) i = Some x ->
    oc_method oc' = oc_method (x30_oc x) -> oc_path oc' = oc_path (x30_oc x) -> oc_params oc' = oc_params (x30_oc x) ->
    op_body (oc_op oc') = op_body (oc_op (x30_oc x)) -> op_responses (oc_op oc') = op_responses (oc_op (x30_oc x)) ->
    op_ext (oc_op oc') = op_ext (oc_op (x30_oc x)) ->
    inv30 (mkWorld30 (w30_refl w) (replace i (mkCtx30 oc' (x30_link x)) (w30_ctx w))).
  Proof.
    intros I N E1 E2 E3 E4 E5 E6.
    assert (Q : forall j y, nth_error (replace i (mkCtx30 oc' (x30_link x)) (w30_ctx w)) j = Some y ->
      exists y0, nth_error (w30_ctx w) j = Some y0 /\ x30_link y = x30_link y0 /\ loc30 y = loc30 y0 /\
        (made30 (x30_oc y0) -> made30 (x30_oc y)) /\
        (forall s d, agree30 s (oc_op (x30_oc y0)) d -> agree30 s (oc_op (x30_oc y)) d)).
    { intros j y H. apply (nth_replace _ x) in H; [|exact N]. destruct H as [[-> ->]|[_ H]].
      - exists x. cbn [x30_link x30_oc]. split; [exact N|]. split; [reflexivity|].
        split; [unfold loc30; cbn [x30_oc]; congruence|]. split.
        + intros (r & me & pa & oc0 & M & M1 & M2 & M3). exists r, me, pa, oc0. repeat split; congruence.
        + intros s d. unfold agree30. rewrite E4, E5, E6. auto.
      - exists y. auto. }
    split; cbn [w30_ctx w30_refl].
    - intros j y H. destruct (Q j y H) as (y0 & N0 & _ & _ & M & _). apply M. eapply i30_made; eauto.
    - intros j y s H L. destruct (Q j y H) as (y0 & N0 & L0 & O & _ & A). rewrite L0 in L.
      destruct (i30_link w I j y0 s N0 L) as (d & D & AG). exists d. split; [|auto]. unfold docw30 in *. cbn [w30_refl].
      rewrite O. exact D.
    - intros j k y z NE H1 H2 L1 L2.
      destruct (Q j y H1) as (y0 & N0 & L0 & O & _). destruct (Q k z H2) as (z0 & N0' & L0' & O' & _).
      rewrite O, O'. rewrite L0 in L1. rewrite L0' in L2. exact (i30_apart w I j k y0 z0 NE N0 N0' L1 L2).
  Qed.

  Lemma made30_set_op (oc : opctx J Sch responses) o : made30 oc -> made30 (set_op oc o).
  Proof. intros (r & me & pa & oc0 & M & M1 & M2 & M3). exists r, me, pa, oc0. auto. Qed.

  Lemma step30_add w i x r' x' a : inv30 w -> nth_error (w30_ctx w) i = Some x ->
    add30 B x (w30_refl w) = (r', x', a) ->
    inv30 (mkWorld30 r' (replace i x' (w30_ctx w))) /\
    loc30 x' = loc30 x /\
    (forall p m d, doc30 (r30_paths (w30_refl w)) p m = Some d ->
       exists d', doc30 (r30_paths r') p m = Some d' /\ keeps_outline (view30 d) (view30 d')) /\
    (forall l, l <> loc30 x -> doc30 (r30_paths r') (fst l) (snd l) = doc30 (r30_paths (w30_refl w)) (fst l) (snd l)) /\
    (x30_link x = None -> a <> AOk -> forall p m, doc30 (r30_paths r') p m = doc30 (r30_paths (w30_refl w)) p m).
  Proof.
    intros I N A.
    assert (L : x30_link x <> None ->
      doc30 (r30_paths (w30_refl w)) (oc_path (x30_oc x)) (oc_method (x30_oc x)) <> None).
    { intros K. destruct (x30_link x) as [s|] eqn:E; [|congruence].
      destruct (i30_link w I i x s N E) as (d & D & _). unfold docw30, loc30 in D. cbn [fst snd] in D. congruence. }
    destruct (add30_fx x x' (w30_refl w) r' a (i30_made w I i x N) L A) as (o' & O & (c' & a0 & SU & _) & FX).
    apply setup_oc_wide in SU; [|reflexivity].
    assert (LX : loc30 x' = loc30 x) by (unfold loc30; rewrite O; reflexivity).
    assert (MX : made30 (x30_oc x')) by (rewrite O; apply made30_set_op; exact (i30_made w I i x N)).
    destruct FX as [(NA & LK & DC)|(-> & L0 & LK & D0 & DC)].
    - (* refused *)
      assert (OT : forall l, l <> loc30 x ->
        doc30 (r30_paths r') (fst l) (snd l) = doc30 (r30_paths (w30_refl w)) (fst l) (snd l)).
      { intros [p m] NE. cbn [fst snd]. rewrite DC. destruct (x30_link x); [|reflexivity].
        rewrite at_loc_false; [reflexivity|exact NE]. }
      split; [|split; [exact LX|split; [|split; [exact OT|]]]].
      + split; cbn [w30_ctx w30_refl].
        * intros j y H. apply (nth_replace _ x) in H; [|exact N]. destruct H as [[-> ->]|[_ H]]; [exact MX|].
          eapply i30_made; eauto.
        * intros j y s H K. apply (nth_replace _ x) in H; [|exact N]. unfold docw30. cbn [w30_refl].
          destruct H as [[-> ->]|[NE H]].
          -- rewrite LK in K. destruct (i30_link w I i x s N K) as (d & D & AG). exists (see30 s o' d).
             rewrite LX. unfold docw30, loc30 in *. cbn [fst snd] in *. rewrite DC, K, at_loc_refl, D. split; [reflexivity|].
             rewrite O. cbn [set_op oc_op]. eapply agree30_see; eauto.
          -- destruct (i30_link w I j y s H K) as (d & D & AG). exists d. split; [|exact AG].
             destruct (x30_link x) as [s0|] eqn:E0.
             ++ rewrite OT; [exact D|]. apply (i30_apart w I j i y x NE H N); congruence.
             ++ rewrite DC. exact D.
        * intros j k y z NE H1 H2 K1 K2.
          apply (nth_replace _ x) in H1; [|exact N]. apply (nth_replace _ x) in H2; [|exact N].
          destruct H1 as [[-> ->]|[N1 H1]]; destruct H2 as [[-> ->]|[N2 H2]].
          -- congruence.
          -- rewrite LX. rewrite LK in K1. apply (i30_apart w I i k x z); auto.
          -- rewrite LX. rewrite LK in K2. apply (i30_apart w I j i y x); auto.
          -- apply (i30_apart w I j k y z); auto.
      + intros p m d D. rewrite DC. destruct (x30_link x) as [s|] eqn:E; [|exists d; split; [exact D|apply keeps_refl]].
        destruct (at_loc _ _ p m) eqn:AT; [|exists d; split; [exact D|apply keeps_refl]].
        apply at_loc_true in AT. destruct AT as [-> ->]. rewrite D. exists (see30 s o' d). split; [reflexivity|].
        destruct (i30_link w I i x s N E) as (d0 & D0 & AG). unfold docw30, loc30 in D0. cbn [fst snd] in D0.
        assert (d0 = d) as -> by congruence. eapply outline_see30; eauto.
      + intros E _ p m. rewrite DC, E. reflexivity.
    - (* accepted *)
      assert (OT : forall l, l <> loc30 x ->
        doc30 (r30_paths r') (fst l) (snd l) = doc30 (r30_paths (w30_refl w)) (fst l) (snd l)).
      { intros [p m] NE. cbn [fst snd]. rewrite DC. rewrite at_loc_false; [reflexivity|exact NE]. }
      assert (FR : forall j y s, nth_error (w30_ctx w) j = Some y -> x30_link y = Some s -> loc30 y <> loc30 x).
      { intros j y s H K E. destruct (i30_link w I j y s H K) as (d & D & _). rewrite E in D.
        unfold docw30, loc30 in D. cbn [fst snd] in D. congruence. }
      split; [|split; [exact LX|split; [|split; [exact OT|congruence]]]].
      + split; cbn [w30_ctx w30_refl].
        * intros j y H. apply (nth_replace _ x) in H; [|exact N]. destruct H as [[-> ->]|[_ H]]; [exact MX|].
          eapply i30_made; eauto.
        * intros j y s H K. apply (nth_replace _ x) in H; [|exact N]. unfold docw30. cbn [w30_refl].
          destruct H as [[-> ->]|[NE H]].
          -- rewrite LK in K. injection K as <-. exists (fix30 o'). rewrite LX. unfold loc30. cbn [fst snd].
             rewrite DC, at_loc_refl. split; [reflexivity|]. rewrite O. cbn [set_op oc_op]. apply agree30_new.
          -- destruct (i30_link w I j y s H K) as (d & D & AG). exists d. split; [|exact AG].
             rewrite OT; [exact D|]. eapply FR; eauto.
        * intros j k y z NE H1 H2 K1 K2.
          apply (nth_replace _ x) in H1; [|exact N]. apply (nth_replace _ x) in H2; [|exact N].
          destruct H1 as [[-> ->]|[N1 H1]]; destruct H2 as [[-> ->]|[N2 H2]].
          -- congruence.
          -- rewrite LX. destruct (x30_link z) as [s|] eqn:EZ; [|congruence]. intros E. symmetry in E. revert E. eapply FR; eauto.
          -- rewrite LX. destruct (x30_link y) as [s|] eqn:EZ; [|congruence]. eapply FR; eauto.
          -- apply (i30_apart w I j k y z); auto.
      + intros p m d D. rewrite DC. destruct (at_loc _ _ p m) eqn:AT; [|exists d; split; [exact D|apply keeps_refl]].
        apply at_loc_true in AT. destruct AT as [-> ->]. congruence.
  Qed.

  Lemma step30_inv w e : inv30 w -> inv30 (step30 B w e).
  Proof.
    intros I. destruct e as [m p|i req resp|i a|i|i]; cbn [step30]; [| | | |exact I].
    - destruct (new_context30 (w30_refl w) m p) as [oc|] eqn:E; [|exact I].
      split; cbn [w30_ctx w30_refl].
      + intros j y H. apply nth_snoc in H. destruct H as [H|H]; [eapply i30_made; eauto|]. subst y. cbn [x30_oc].
        exists (w30_refl w), m, p, oc. auto.
      + intros j y s H L. apply nth_snoc in H. destruct H as [H| ->]; [|discriminate]. exact (i30_link w I j y s H L).
      + intros j k y z NE H1 H2 L1 L2. apply nth_snoc in H1, H2.
        destruct H1 as [H1| ->]; [|cbn in L1; congruence]. destruct H2 as [H2| ->]; [|cbn in L2; congruence].
        exact (i30_apart w I j k y z NE H1 H2 L1 L2).
    - destruct (nth_error (w30_ctx w) i) as [x|] eqn:N; [|exact I]. apply (inv30_edit w i x); auto.
    - destruct (nth_error (w30_ctx w) i) as [x|] eqn:N; [|exact I]. apply (inv30_edit w i x); auto.
    - destruct (nth_error (w30_ctx w) i) as [x|] eqn:N; [|exact I].
      destruct (add30 B x (w30_refl w)) as [[r' x'] a] eqn:A. eapply step30_add; eauto.
  Qed.

  Lemma run30_inv l : forall w, inv30 w -> inv30 (run30 B w l).
  Proof. induction l as [|e l IH]; intros w I; [exact I|]. cbn [run30 fold_left]. apply IH. apply step30_inv. exact I. Qed.

  Lemma run30_app w l1 l2 : run30 B w (l1 ++ l2) = run30 B (run30 B w l1) l2.
  Proof. unfold run30. apply fold_left_app. Qed.

  (* kept in outline, whatever happens *)
  Lemma step30_outline w e p m d : inv30 w -> doc30 (r30_paths (w30_refl w)) p m = Some d ->
    exists d', doc30 (r30_paths (w30_refl (step30 B w e))) p m = Some d' /\ keeps_outline (view30 d) (view30 d').
  Proof.
    intros I D. assert (K : exists d', Some d = Some d' /\ keeps_outline (view30 d) (view30 d')).
    { exists d. split; [reflexivity|apply keeps_refl]. }
    destruct e as [me pa|i req resp|i a|i|i]; cbn [step30].
    - destruct (new_context30 _ _ _); cbn [w30_refl]; rewrite D; exact K.
    - destruct (nth_error (w30_ctx w) i); cbn [w30_refl]; rewrite D; exact K.
    - destruct (nth_error (w30_ctx w) i); cbn [w30_refl]; rewrite D; exact K.
    - destruct (nth_error (w30_ctx w) i) as [x|] eqn:N; [|rewrite D; exact K].
      destruct (add30 B x (w30_refl w)) as [[r' x'] a] eqn:A.
      destruct (step30_add w i x r' x' a I N A) as (_ & _ & H & _). cbn [w30_refl]. eauto.
    - rewrite D. exact K.
  Qed.

  Lemma run30_outline l : forall w p m d, inv30 w -> doc30 (r30_paths (w30_refl w)) p m = Some d ->
    exists d', doc30 (r30_paths (w30_refl (run30 B w l))) p m = Some d' /\ keeps_outline (view30 d) (view30 d').
  Proof.
    induction l as [|e l IH]; intros w p m d I D; [exists d; split; [exact D|apply keeps_refl]|].
    destruct (step30_outline w e p m d I D) as (d1 & D1 & K1). cbn [run30 fold_left].
    destruct (IH _ p m d1 (step30_inv w e I) D1) as (d2 & D2 & K2). exists d2. split; [exact D2|].
    eapply keeps_trans; eauto.
  Qed.

  (* who has a link was accepted *)
  Lemma linked30 r l : forall i x s, nth_error (w30_ctx (run30 B (mkWorld30 r []) l)) i = Some x -> x30_link x = Some s ->
    exists l1 l2, l = l1 ++ Add i :: l2 /\ outcome30 B (run30 B (mkWorld30 r []) l1) i = Some AOk.
  Proof.
    induction l as [|e l IH] using rev_ind; intros i x s N L; [destruct i; discriminate|].
    rewrite run30_app in N. set (w := run30 B (mkWorld30 r []) l) in *.
    assert (OLD : forall y s, nth_error (w30_ctx w) i = Some y -> x30_link y = Some s ->
      exists l1 l2, l ++ [e] = l1 ++ Add i :: l2 /\ outcome30 B (run30 B (mkWorld30 r []) l1) i = Some AOk).
    { intros y s0 N0 L0. destruct (IH i y s0 N0 L0) as (l1 & l2 & -> & O). exists l1, (l2 ++ [e]).
      split; [rewrite <- app_assoc; reflexivity|exact O]. }
    cbn [run30 fold_left] in N. destruct e as [me pa|j req resp|j a|j|j]; cbn [step30] in N; [| | | |eauto].
    - destruct (new_context30 _ _ _); [|eauto]. cbn [w30_ctx] in N. apply nth_snoc in N. destruct N as [N| ->]; [eauto|discriminate].
    - destruct (nth_error (w30_ctx w) j) as [y|] eqn:NJ; [|eauto]. cbn [w30_ctx] in N.
      apply (nth_replace _ y) in N; [|exact NJ]. destruct N as [[-> ->]|[_ N]]; eauto.
    - destruct (nth_error (w30_ctx w) j) as [y|] eqn:NJ; [|eauto]. cbn [w30_ctx] in N.
      apply (nth_replace _ y) in N; [|exact NJ]. destruct N as [[-> ->]|[_ N]]; eauto.
    - destruct (nth_error (w30_ctx w) j) as [y|] eqn:NJ; [|eauto].
      destruct (add30 B y (w30_refl w)) as [[r' x'] a] eqn:A. cbn [w30_ctx] in N.
      apply (nth_replace _ y) in N; [|exact NJ]. destruct N as [[-> ->]|[_ N]]; [|eauto].
      destruct a; [exists l, []; split; [reflexivity|]; unfold outcome30; fold w; rewrite NJ, A; reflexivity|..];
        (assert (x30_link x' = x30_link y) as E
           by (unfold add30 in A; destruct (reflector_add30 B (w30_refl w) (x30_oc y)) as [[? ?] ?];
               injection A as _ <- ->; reflexivity);
         rewrite E in L; eauto).
  Qed.

  Lemma once30_link r l1 i l2 x : accepted_once30 B (mkWorld30 r []) (l1 ++ Add i :: l2) ->
    nth_error (w30_ctx (run30 B (mkWorld30 r []) l1)) i = Some x -> x30_link x = None.
  Proof.
    intros O N. destruct (x30_link x) as [s|] eqn:L; [|reflexivity]. exfalso.
    destruct (linked30 r l1 i x s N L) as (k1 & k2 & -> & AO).
    apply (O k1 i k2 l2); [|exact AO]. rewrite <- app_assoc. reflexivity.
  Qed.

  Lemma own30 r l2 : forall l1 p m d, accepted_once30 B (mkWorld30 r []) (l1 ++ l2) ->
    doc30 (r30_paths (w30_refl (run30 B (mkWorld30 r []) l1))) p m = Some d ->
    doc30 (r30_paths (w30_refl (run30 B (mkWorld30 r []) (l1 ++ l2)))) p m = Some d.
  Proof.
    induction l2 as [|e l2 IH]; intros l1 p m d O D; [rewrite app_nil_r; exact D|].
    replace (l1 ++ e :: l2) with ((l1 ++ [e]) ++ l2) in * by (rewrite <- app_assoc; reflexivity).
    apply IH; [exact O|]. rewrite run30_app. set (w := run30 B (mkWorld30 r []) l1) in *. cbn [run30 fold_left].
    destruct e as [me pa|i req resp|i a|i|i]; cbn [step30]; [| | | |exact D].
    - destruct (new_context30 _ _ _); exact D.
    - destruct (nth_error (w30_ctx w) i); exact D.
    - destruct (nth_error (w30_ctx w) i); exact D.
    - destruct (nth_error (w30_ctx w) i) as [x|] eqn:N; [|exact D].
      destruct (add30 B x (w30_refl w)) as [[r' x'] a] eqn:A. cbn [w30_refl].
      assert (L : x30_link x = None).
      { eapply once30_link; [|exact N]. rewrite <- app_assoc in O. exact O. }
      assert (I : inv30 w) by (apply run30_inv, inv30_nil).
      destruct (step30_add w i x r' x' a I N A) as (_ & _ & _ & OT & NO).
      destruct a as [|e|].
      + change p with (fst (p, m)). change m with (snd (p, m)) at 2. rewrite OT; [exact D|].
        intros E. destruct (add30_fx x x' (w30_refl w) r' AOk (i30_made w I i x N)) as (o' & _ & _ & FX); [congruence|exact A|].
        destruct FX as [(X & _)|(_ & _ & _ & D0 & _)]; [congruence|]. unfold loc30 in E. injection E as -> ->. congruence.
      + rewrite NO; [exact D|exact L|discriminate].
      + rewrite NO; [exact D|exact L|discriminate].
  Qed.

  Lemma own30_failure r l i a p m : accepted_once30 B (mkWorld30 r []) (l ++ [Add i]) ->
    outcome30 B (run30 B (mkWorld30 r []) l) i = Some a -> a <> AOk ->
    doc30 (r30_paths (w30_refl (run30 B (mkWorld30 r []) (l ++ [Add i])))) p m =
    doc30 (r30_paths (w30_refl (run30 B (mkWorld30 r []) l))) p m.
  Proof.
    intros O A NA. rewrite run30_app. unfold outcome30 in A.
    destruct (nth_error (w30_ctx (run30 B (mkWorld30 r []) l)) i) as [x|] eqn:N; [|discriminate].
    pose proof (once30_link r l i [] x O N) as L. set (w := run30 B (mkWorld30 r []) l) in *.
    cbn [run30 fold_left step30]. rewrite N.
    destruct (add30 B x (w30_refl w)) as [[r' x'] b] eqn:E. cbn [snd] in A. injection A as ->.
    assert (I : inv30 w) by (apply run30_inv, inv30_nil).
    destruct (step30_add w i x r' x' a I N E) as (_ & _ & _ & _ & NO). cbn [w30_refl]. auto.
  Qed.

  (* spoilt contexts *)
  Definition tail30 (w w' : world30 J Sch) : Prop :=
    forall i x, nth_error (w30_ctx w) i = Some x -> exists x' more, nth_error (w30_ctx w') i = Some x' /\
      oc_method (x30_oc x') = oc_method (x30_oc x) /\ oc_req (x30_oc x') = oc_req (x30_oc x) ++ more /\
      exists new, op_params (oc_op (x30_oc x')) = op_params (oc_op (x30_oc x)) ++ new.

  Lemma add30_oc x r r' x' a : add30 B x r = (r', x', a) ->
    exists c' o' a0, setup_oc30 B (r30_comps r) (x30_oc x) = (c', o', a0) /\ (a = AOk -> a0 = AOk) /\
      x30_oc x' = set_op (x30_oc x) o'.
  Proof.
    unfold add30, reflector_add30. intros H.
    destruct (setup_oc30 B (r30_comps r) (x30_oc x)) as [[c o] y] eqn:E. exists c, o, y. split; [reflexivity|].
    destruct y; [destruct (add_operation30 _ _ _ _) as [p e]|..]; injection H as _ <- <-; cbn [x30_oc];
      (split; [try reflexivity; try discriminate|reflexivity]).
  Qed.

  Lemma step30_tail w e : tail30 w (step30 B w e).
  Proof.
    assert (R0 : forall x : ctx30 J Sch, exists x' more, Some x = Some x' /\
      oc_method (x30_oc x') = oc_method (x30_oc x) /\ oc_req (x30_oc x') = oc_req (x30_oc x) ++ more /\
      exists new, op_params (oc_op (x30_oc x')) = op_params (oc_op (x30_oc x)) ++ new).
    { intros x. exists x, []. rewrite app_nil_r. repeat (split; [reflexivity|]). exists []. rewrite app_nil_r. reflexivity. }
    intros j y N. destruct e as [me pa|i req resp|i a|i|i]; cbn [step30].
    - destruct (new_context30 _ _ _); cbn [w30_ctx]; [|rewrite N; apply R0].
      rewrite nth_error_app1; [rewrite N; apply R0|]. apply nth_error_Some. congruence.
    - destruct (nth_error (w30_ctx w) i) as [x|] eqn:NI; [|rewrite N; apply R0]. cbn [w30_ctx].
      destruct (Nat.eq_dec j i) as [->|NE]; [|rewrite nth_replace_other by exact NE; rewrite N; apply R0].
      rewrite (nth_replace_same _ _ _ _ NI). rewrite NI in N. injection N as <-.
      eexists _, req. split; [reflexivity|]. split; [reflexivity|]. split; [reflexivity|]. exists []. rewrite app_nil_r. reflexivity.
    - destruct (nth_error (w30_ctx w) i) as [x|] eqn:NI; [|rewrite N; apply R0]. cbn [w30_ctx].
      destruct (Nat.eq_dec j i) as [->|NE]; [|rewrite nth_replace_other by exact NE; rewrite N; apply R0].
      rewrite (nth_replace_same _ _ _ _ NI). rewrite NI in N. injection N as <-.
      eexists _, []. split; [reflexivity|]. rewrite app_nil_r. split; [reflexivity|]. split; [reflexivity|].
      exists []. rewrite app_nil_r. reflexivity.
    - destruct (nth_error (w30_ctx w) i) as [x|] eqn:NI; [|rewrite N; apply R0].
      destruct (add30 B x (w30_refl w)) as [[r' x'] a] eqn:A. cbn [w30_ctx].
      destruct (Nat.eq_dec j i) as [->|NE]; [|rewrite nth_replace_other by exact NE; rewrite N; apply R0].
      rewrite (nth_replace_same _ _ _ _ NI). rewrite NI in N. injection N as <-.
      apply add30_oc in A. destruct A as (c' & o' & a0 & SU & _ & O). apply setup_oc_wide in SU; [|reflexivity].
      exists x', []. split; [reflexivity|]. rewrite O, app_nil_r. split; [reflexivity|]. split; [reflexivity|]. apply SU.
    - rewrite N. apply R0.
  Qed.

  Lemma tail30_trans a b c : tail30 a b -> tail30 b c -> tail30 a c.
  Proof.
    intros H K i x N. destruct (H i x N) as (y & m1 & N1 & E1 & F1 & (n1 & P1)).
    destruct (K i y N1) as (z & m2 & N2 & E2 & F2 & (n2 & P2)). exists z, (m1 ++ m2). split; [exact N2|].
    split; [congruence|]. split; [rewrite F2, F1, app_assoc; reflexivity|].
    exists (n1 ++ n2). rewrite P2, P1, app_assoc. reflexivity.
  Qed.

  Lemma run30_tail l : forall w, tail30 w (run30 B w l).
  Proof.
    induction l as [|e l IH]; intros w.
    - intros i x N. exists x, []. rewrite app_nil_r. split; [exact N|]. repeat (split; [reflexivity|]).
      exists []. rewrite app_nil_r. reflexivity.
    - cbn [run30 fold_left]. eapply tail30_trans; [apply step30_tail|apply IH].
  Qed.

  Lemma spoilt30 w i l : ctx_params30 (step30 B w (Add i)) i <> ctx_params30 w i ->
    outcome30 B (run30 B (step30 B w (Add i)) l) i <> Some AOk.
  Proof.
    unfold ctx_params30. intros NE O. pose proof (run30_tail l (step30 B w (Add i))) as T.
    set (w2 := run30 B (step30 B w (Add i)) l) in *. unfold outcome30 in O. cbn [step30] in NE, T.
    destruct (nth_error (w30_ctx w) i) as [x|] eqn:N; [|rewrite N in NE; congruence].
    destruct (add30 B x (w30_refl w)) as [[r' x'] a] eqn:A. cbn [w30_ctx] in NE, T.
    rewrite (nth_replace_same x' x _ _ N) in NE.
    destruct (T i x' (nth_replace_same x' x _ _ N)) as (z & more & NZ & EM & ER & (new & EP)). rewrite NZ in O.
    destruct (add30 B z (w30_refl w2)) as [[r2 z'] b] eqn:A2. cbn [snd] in O. injection O as ->.
    apply add30_oc in A. destruct A as (c' & o' & a0 & SU & _ & OX).
    apply add30_oc in A2. destruct A2 as (c2 & o2 & a2 & SU2 & AK & OZ). rewrite (AK eq_refl) in SU2.
    apply setup_oc_request in SU. destruct SU as ([cb ob] & rr & E & P1 & _).
    apply setup_oc_request in SU2. destruct SU2 as (b2 & rr2 & E2 & _ & _ & _ & _ & _ & K).
    rewrite (K eq_refl) in E2. rewrite OX in EM, ER, EP, NE. cbn [set_op oc_method oc_req oc_op] in EM, ER, EP, NE.
    rewrite EM, ER in E2. revert E2. eapply spoilt; [exact E|cbn [snd] in *; congruence|].
    cbn [snd] in *. rewrite EP, <- P1. intros y I. apply in_app_iff. auto.
  Qed.
End Proofs.
