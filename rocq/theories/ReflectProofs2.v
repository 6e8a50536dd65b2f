(* Lemmas about whole calls of Reflector.AddOperation / AddWebhook. *)
From Coq Require Import ZArith Lia Decimal DecimalString.
From Verif Require Import Str SMap Json PathModel PathSpec PathProofs PathProps Types.
From Verif Require Import RegistryModel RegistrySpec RegistryProofs ReflectModel ReflectSpec ReflectProofs.

Section Proofs.
  Variables J Sch : Type.
  Variable B : backend J Sch.
  Notation cunit := (cunit J Sch).
  Notation responses := (responses Sch).

  Lemma units_filter k (l l' : list cunit) : units_of k l l' -> filter (under k) l = l'.
  Proof.
    induction 1 as [|cu l l' U _ IH|cu l l' U _ IH]; simpl; [reflexivity|..].
    - apply under_iff in U. rewrite U. congruence.
    - destruct (under k cu) eqn:E; [|exact IH]. apply under_iff in E. contradiction.
  Qed.

  Lemma units_of_exists k (l : list cunit) : units_of k l (filter (under k) l).
  Proof.
    induction l as [|cu l IH]; simpl; [constructor|]. destruct (under k cu) eqn:E.
    - apply under_iff in E. constructor; assumption.
    - constructor; [|assumption]. intros F. apply under_iff in F. congruence.
  Qed.

  (* ---------- several fillings ---------- *)

  Lemma fills_cons_inv m cu l r r' : fills B m (cu :: l) r r' ->
    exists r1 c c', fill_response B cu m (c, r) = ((c', r1), Ret tt) /\ fills B m l r1 r'.
  Proof. inversion 1; subst. eauto. Qed.

  Lemma described_cons_inv m cu l d d' : described B m (cu :: l) d d' ->
    exists d1, describes B m cu d d1 /\ described B m l d1 d'.
  Proof. inversion 1; subst. eauto. Qed.

  Lemma fills_content m l r r' : openapi_method m -> m <> "head" -> fills B m l r r' ->
    (forall ct, In ct (keys (rs_content r')) <-> In ct (keys (rs_content r)) \/ exists cu, In cu l /\ contributes cu ct) /\
    (forall ct, (forall cu, In cu l -> ~ contributes cu ct) -> get ct (rs_content r') = get ct (rs_content r)).
  Proof.
    intros OM NH. induction 1 as [r|cu l r r1 r2 c c' F _ [I1 I2]].
    - split; [|reflexivity]. intros ct. split; [auto|]. intros [H|(x & [] & _)]; exact H.
    - destruct (fill_ok _ _ _ _ _ _ _ OM F) as (_ & _ & _ & _ & C). destruct (C NH) as [C1 C2]. split.
      + intros ct. rewrite I1, C1. split.
        * intros [[H|H]|(x & P & Q)]; [auto|right; exists cu; simpl; auto|right; exists x; simpl; auto].
        * intros [H|(x & [<-|P] & Q)]; [auto|auto|right; exists x; auto].
      + intros ct N. rewrite I2, C2; [reflexivity|apply N; simpl; auto|intros x I; apply N; simpl; auto].
  Qed.

  Lemma fills_head l r r' : fills B "head" l r r' -> rs_content r' = rs_content r.
  Proof.
    induction 1 as [r|cu l r r1 r2 c c' F _ I]; [reflexivity|].
    destruct (fill_ok B cu "head" c r c' r1) as (_ & _ & _ & C & _); [unfold openapi_method; tauto|exact F|].
    rewrite I. apply C. reflexivity.
  Qed.

  Lemma fills_desc m l r r' : openapi_method m -> fills B m l r r' -> described B m l (rs_desc r) (rs_desc r').
  Proof.
    intros OM. induction 1 as [r|cu l r r1 r2 c c' F _ I]; [constructor|].
    destruct (fill_ok _ _ _ _ _ _ _ OM F) as (_ & D & _). econstructor; eauto.
  Qed.

  Lemma fills_rest m l r r' : openapi_method m -> fills B m l r r' -> rs_rest r' = rs_rest r.
  Proof.
    intros OM. induction 1 as [r|cu l r r1 r2 c c' F _ I]; [reflexivity|].
    destruct (fill_ok _ _ _ _ _ _ _ OM F) as (_ & _ & D & _). congruence.
  Qed.

  Lemma fills_headers_same m l r r' : openapi_method m -> fills B m l r r' ->
    (forall cu, In cu l -> cu_nil cu = true) -> rs_headers r' = rs_headers r.
  Proof.
    intros OM. induction 1 as [r|cu l r r1 r2 c c' F _ I]; [reflexivity|]. intros N.
    destruct (fill_ok _ _ _ _ _ _ _ OM F) as (H & _). rewrite I by (intros x X; apply N; simpl; auto).
    destruct H as [(_ & H)|(H & _)]; [exact H|]. rewrite N in H by (simpl; auto). discriminate.
  Qed.

  Lemma fills_app m l1 l2 r r' : fills B m (l1 ++ l2) r r' ->
    exists r1, fills B m l1 r r1 /\ fills B m l2 r1 r'.
  Proof.
    revert r. induction l1 as [|cu l1 IH]; intros r H; simpl in H.
    - exists r. split; [constructor|exact H].
    - apply fills_cons_inv in H. destruct H as (r2 & c & c' & H1 & H2).
      destruct (IH _ H2) as (x & P & Q). exists x. split; [econstructor; eauto|exact Q].
  Qed.

  Lemma fills_headers_last m l1 cu l2 r r' : openapi_method m -> fills B m (l1 ++ cu :: l2) r r' ->
    cu_nil cu = false -> (forall x, In x l2 -> cu_nil x = true) ->
    forall n, In n (keys (rs_headers r')) <-> exists q, In q (fst (v_headers cu)) /\ considered q = true /\ pr_name q = n.
  Proof.
    intros OM H N L. apply fills_app in H. destruct H as (r1 & _ & H).
    apply fills_cons_inv in H. destruct H as (r2 & c & c' & H1 & H2).
    rewrite (fills_headers_same _ _ _ _ OM H2 L).
    destruct (fill_ok _ _ _ _ _ _ _ OM H1) as ([(X & _)|(_ & X)] & _); [congruence|exact X].
  Qed.

  (* ---------- descriptions ---------- *)

  Lemma describes_keep m (cu : cunit) d d' : describes B m cu d d' -> cu_desc cu = "" -> d <> "" -> d' = d.
  Proof.
    intros (tj & th & z & _ & _ & _ & ->) E N. simpl. rewrite E. simpl. destruct d; [congruence|reflexivity].
  Qed.

  Lemma described_keep m l d d' : described B m l d d' -> (forall cu : cunit, In cu l -> cu_desc cu = "") -> d <> "" -> d' = d.
  Proof.
    induction 1 as [d|cu l d d1 d2 H _ IH]; intros E N; [reflexivity|].
    apply describes_keep in H; [|apply E; simpl; auto|exact N]. subst d1. apply IH; [|exact N].
    intros x I. apply E. simpl. auto.
  Qed.

  Lemma described_app m l1 l2 d d' : described B m (l1 ++ l2) d d' ->
    exists e, described B m l1 d e /\ described B m l2 e d'.
  Proof.
    revert d. induction l1 as [|cu l1 IH]; intros d H; simpl in H.
    - exists d. split; [constructor|exact H].
    - apply described_cons_inv in H. destruct H as (d1 & H1 & H2).
      destruct (IH _ H2) as (x & P & Q). exists x. split; [econstructor; eauto|exact Q].
  Qed.

  Lemma described_last m l1 (cu : cunit) l2 d d' : described B m (l1 ++ cu :: l2) d d' -> cu_desc cu <> "" ->
    (forall x, In x l2 -> cu_desc x = "") -> d' = cu_desc cu.
  Proof.
    intros H N L. apply described_app in H. destruct H as (e & _ & H).
    apply described_cons_inv in H. destruct H as (d1 & H1 & H2).
    destruct H1 as (tj & th & z & _ & _ & _ & ->).
    assert (E : first_text [cu_desc cu; e; tj; th; status_text z] = cu_desc cu) by (simpl; destruct (cu_desc cu); [congruence|reflexivity]).
    rewrite E in H2. eapply described_keep; eauto.
  Qed.

  (* ---------- documented operations ---------- *)

  Section Doc.
    Variables (cl : call J Sch) (v : view Sch).
    Hypothesis D : documented B cl v.
    Notation before := (vw_responses (c_view cl)).
    Notation after := (vw_responses v).

    Let C : core B cl v.
    Proof. apply documented_core. exact D. Qed.

    Lemma doc_204 : c_resp cl = [] -> no_responses before -> after = response_204.
    Proof.
      intros E N. destruct (final_responses _ _ _ C) as (c1 & c2 & rs1 & _ & [(_ & _ & H & _)|([H|H] & _)]); auto; tauto.
    Qed.

    Lemma doc_keys : c_resp cl <> [] \/ ~ no_responses before -> forall k,
      (filed after k <> None <-> filed before k <> None \/ exists cu, In cu (c_resp cl) /\ files_under cu k) /\
      ((forall cu, In cu (c_resp cl) -> ~ files_under cu k) -> filed after k = filed before k).
    Proof.
      intros NE k. destruct (final_responses _ _ _ C) as (c1 & c2 & rs1 & E & [(X & Y & _)|(_ & ->)]); [destruct NE; tauto|].
      destruct (setup_response_keys _ _ _ _ _ _ _ _ E k) as [K1 K2]. split.
      - rewrite K1. split; (intros [H|(cu & I & F)]; [auto|right; exists cu; split; [exact I|apply files_under_iff; exact F]]).
      - intros N. apply K2. intros cu I F. apply (N cu I). apply files_under_iff. exact F.
    Qed.

    Lemma doc_some : ~ no_responses after.
    Proof. destruct C as [_ _ (c1 & c2 & rs1 & _ & ->) _]. apply ensure_not_empty. Qed.

    Lemma doc_content k : c_method cl <> "head" -> 
      (forall cu, In cu (c_resp cl) -> files_under cu k -> cu_custom_resp cu = None) ->
      (forall ct, In ct (keys (content_before after k)) <->
         In ct (keys (content_before before k)) \/ exists cu, In cu (c_resp cl) /\ files_under cu k /\ contributes cu ct) /\
      (forall ct, (forall cu, In cu (c_resp cl) -> files_under cu k -> ~ contributes cu ct) ->
         get ct (content_before after k) = get ct (content_before before k)).
    Proof.
      intros NH NC.
      assert (RA : forall rs : responses, content_before rs k = rs_content (resp_at rs k))
        by (intros rs; unfold content_before, resp_at; destruct (inline_at rs k); reflexivity).
      destruct (final_responses _ _ _ C) as (c1 & c2 & rs1 & E & [(X & Y & Z & _)|(NE & _)]).
      - rewrite X, Z. assert (E1 : content_before response_204 k = ([] : smap (media Sch))).
        { unfold content_before, inline_at. destruct k as [|s]; simpl; [reflexivity|]. destruct (String.eqb s "204"); reflexivity. }
        assert (E2 : content_before before k = []).
        { unfold content_before, inline_at. rewrite (proj1 (filed_none _) Y). reflexivity. }
        rewrite E1, E2. split; [|reflexivity]. intros ct. split; [auto|]. intros [H|(cu & [] & _)]; exact H.
      - destruct (doc_fills _ _ _ k C NC NE) as [F _]. rewrite !RA.
        destruct (fills_content _ _ _ _ (core_method _ _ _ C) NH F) as [F1 F2]. split.
        + intros ct. rewrite F1. split; (intros [H|(cu & H)]; [auto|right; exists cu; rewrite in_filter_under in *; tauto]).
        + intros ct N. apply F2. intros cu I. rewrite in_filter_under in I. apply N; tauto.
    Qed.

    Lemma doc_head k : c_method cl = "head" ->
      (forall cu, In cu (c_resp cl) -> files_under cu k -> cu_custom_resp cu = None) ->
      content_before after k = content_before before k.
    Proof.
      intros NH NC.
      assert (RA : forall rs : responses, content_before rs k = rs_content (resp_at rs k))
        by (intros rs; unfold content_before, resp_at; destruct (inline_at rs k); reflexivity).
      destruct (final_responses _ _ _ C) as (c1 & c2 & rs1 & E & [(X & Y & Z & _)|(NE & _)]).
      - rewrite Z. unfold content_before at 2, inline_at. rewrite (proj1 (filed_none _) Y).
        unfold content_before, inline_at. destruct k as [|s]; simpl; [reflexivity|]. destruct (String.eqb s "204"); reflexivity.
      - destruct (doc_fills _ _ _ k C NC NE) as [F _]. rewrite !RA. rewrite NH in F.
        apply fills_head in F. exact F.
    Qed.

    Lemma doc_desc k l : units_of k (c_resp cl) l -> l <> [] ->
      (forall cu, In cu l -> cu_custom_resp cu = None) ->
      exists r, filed after k = Some (mkRor (Some r) None) /\ described B (c_method cl) l (desc_before before k) (rs_desc r).
    Proof.
      intros U NE NC. apply units_filter in U.
      assert (NC' : forall cu, In cu (c_resp cl) -> files_under cu k -> cu_custom_resp cu = None).
      { intros cu I FU. apply NC. rewrite <- U. apply in_filter_under. auto. }
      destruct (doc_fills _ _ _ k C NC') as [F S]; [left; destruct (c_resp cl); [subst; simpl in NE; congruence|discriminate]|].
      rewrite U in *. destruct (S NE) as [r R]. exists r. split; [exact R|].
      apply fills_desc in F; [|apply (core_method _ _ _ C)].
      assert (RD : forall rs : responses, rs_desc (resp_at rs k) = desc_before rs k)
        by (intros rs; unfold desc_before, resp_at; destruct (inline_at rs k); reflexivity).
      rewrite !RD in F. unfold desc_before at 2, inline_at in F. rewrite R in F. exact F.
    Qed.

    Lemma doc_headers_last k l1 cu l2 : units_of k (c_resp cl) (l1 ++ cu :: l2) ->
      (forall x, In x (l1 ++ cu :: l2) -> cu_custom_resp x = None) ->
      cu_nil cu = false -> (forall x, In x l2 -> cu_nil x = true) ->
      forall n, In n (keys (headers_before after k)) <->
        exists q, In q (fst (v_headers cu)) /\ considered q = true /\ pr_name q = n.
    Proof.
      intros U NC N L. apply units_filter in U.
      assert (NC' : forall x, In x (c_resp cl) -> files_under x k -> cu_custom_resp x = None).
      { intros x I FU. apply NC. rewrite <- U. apply in_filter_under. auto. }
      destruct (doc_fills _ _ _ k C NC') as [F _]; [left; destruct (c_resp cl); [destruct l1; discriminate|discriminate]|].
      rewrite U in F.
      assert (RD : rs_headers (resp_at after k) = headers_before after k)
        by (unfold headers_before, resp_at; destruct (inline_at after k); reflexivity).
      rewrite <- RD. eapply fills_headers_last; eauto. apply (core_method _ _ _ C).
    Qed.

    Lemma doc_headers_same k :
      (forall x, In x (c_resp cl) -> files_under x k -> cu_custom_resp x = None /\ cu_nil x = true) ->
      headers_before after k = headers_before before k.
    Proof.
      intros NC.
      assert (RD : forall rs : responses, rs_headers (resp_at rs k) = headers_before rs k)
        by (intros rs; unfold headers_before, resp_at; destruct (inline_at rs k); reflexivity).
      destruct (final_responses _ _ _ C) as (c1 & c2 & rs1 & E & [(X & Y & Z & _)|(NE & _)]).
      - rewrite Z. unfold headers_before at 2, inline_at. rewrite (proj1 (filed_none _) Y).
        unfold headers_before, inline_at. destruct k as [|s]; simpl; [reflexivity|]. destruct (String.eqb s "204"); reflexivity.
      - destruct (doc_fills _ _ _ k C (fun x I U => proj1 (NC x I U)) NE) as [F _].
        rewrite <- !RD. eapply fills_headers_same; [apply (core_method _ _ _ C)|exact F|].
        intros cu I. rewrite in_filter_under in I. apply (NC cu); tauto.
    Qed.

    Lemma doc_params : exists new, vw_params v = vw_params (c_view cl) ++ new /\
      Forall2 (renders B) (flat_map param_fields (c_req cl)) new /\
      NoDup (inline new) /\ (forall x, In x (inline new) -> ~ In x (inline (vw_params (c_view cl)))).
    Proof.
      destruct (core_req _ _ _ C) as (R & o & o1 & c & c1 & E & P & _ & _ & P1 & _).
      apply setup_request_adds in E. destruct E as [(new & N & F & (F1 & F2)) _].
      exists new. rewrite <- P, <- P1. auto.
    Qed.

    Lemma doc_ext :
      (forall loc, In loc (flat_map forbidden_locations (c_req cl)) ->
         get ("x-forbid-unknown-" ^^ loc) (vw_ext v) = Some (JBool true)) /\
      (forall k, (forall loc, In loc (flat_map forbidden_locations (c_req cl)) -> k <> "x-forbid-unknown-" ^^ loc) ->
         get k (vw_ext v) = get k (vw_ext (c_view cl))).
    Proof.
      destruct (core_req _ _ _ C) as (R & o & o1 & c & c1 & E & _ & _ & X & _ & _ & X1).
      apply setup_request_adds in E. destruct E as [_ [A1 A2]]. rewrite <- X, <- X1. auto.
    Qed.

    Lemma doc_bodyless : bodyless (c_method cl) -> vw_body (c_view cl) = None ->
      (forall cu, In cu (c_req cl) -> v_force_body cu = false /\ structuredb cu = true /\
         (cu_nil cu = true \/ v_content_tags cu = [] \/ cu_ctype cu <> "")) ->
      vw_body v = None.
    Proof.
      intros BL N F. destruct (core_req _ _ _ C) as (R & o & o1 & c & c1 & E & _ & Q & _ & _ & Q1 & _).
      apply (setup_request_bodyless B (c_req cl) (c_method cl)) in E; auto.
      - simpl in E. congruence.
      - destruct BL as [->|[->|[->| ->]]]; reflexivity.
      - congruence.
    Qed.

    Lemma setup_request_app R l1 l2 m (st st' : rst Sch R) : setup_request B (l1 ++ l2) m st = (st', Ret tt) ->
      exists st1, setup_request B l1 m st = (st1, Ret tt) /\ setup_request B l2 m st1 = (st', Ret tt).
    Proof.
      revert st. induction l1 as [|cu l1 IH]; intros st H; cbn [app] in H.
      - exists st. auto.
      - cbn [setup_request] in H |- *. destruct (request_unit B cu m st) as [st1 [[]| |]]; [|discriminate..].
        apply IH in H. exact H.
    Qed.

    Lemma doc_form l cu : c_req cl = l ++ [cu] ->
      (~ bodyless (c_method cl) \/ v_force_body cu = true) -> form_structure cu ->
      cu_custom_req cu = None ->
      In (cu_ctype cu) [""; "application/x-www-form-urlencoded"; "multipart/form-data"] ->
      (cu_ctype cu = "" -> cu_nil cu = false ->
        ~ In "application/x-www-form-urlencoded" (v_content_tags cu) /\ ~ In "multipart/form-data" (v_content_tags cu)) ->
      exists s j defs, snd (v_body cu "formData") = Ret (j, defs) /\ b_conv B j = Ret s /\
        (has_file cu ->
           get "multipart/form-data" (body_content (vw_body v)) = Some (mkMedia (Some s) JNull) /\
           (l = [] -> get "application/x-www-form-urlencoded" (body_content (vw_body v)) =
                      get "application/x-www-form-urlencoded" (body_content (vw_body (c_view cl))))) /\
        (~ has_file cu ->
           get "application/x-www-form-urlencoded" (body_content (vw_body v)) = Some (mkMedia (Some s) JNull) /\
           (l = [] -> get "multipart/form-data" (body_content (vw_body v)) =
                      get "multipart/form-data" (body_content (vw_body (c_view cl))))).
    Proof.
      intros L SM FS NC CT TG. destruct (core_req _ _ _ C) as (R & o & o1 & c & c1 & E & _ & Q & _ & _ & Q1 & _).
      rewrite L in E. apply setup_request_app in E. destruct E as ([c2 o2] & E1 & E2). cbn [setup_request] in E2.
      destruct (request_unit B cu (c_method cl) (c2, o2)) as [[c3 o3] [[]| |]] eqn:E3; [|discriminate..].
      injection E2 as <- <-.
      apply form_unit_ok in E3; auto.
      - destruct E3 as (s & j & defs & V & CV & G). unfold mime_form, mime_multipart in G. exists s, j, defs. split; [exact V|]. split; [exact CV|].
        assert (SAME : l = [] -> o2 = o) by (intros ->; simpl in E1; injection E1 as _ <-; reflexivity).
        rewrite <- Q, <- Q1. split; intros HF.
        + apply has_file_b in HF. rewrite HF in G.
          split; [rewrite (G "multipart/form-data") by auto; reflexivity|].
          intros LN. rewrite (G "application/x-www-form-urlencoded") by auto. rewrite (SAME LN). reflexivity.
        + rewrite <- has_file_b in HF. apply not_true_is_false in HF. rewrite HF in G.
          split; [rewrite (G "application/x-www-form-urlencoded") by auto; reflexivity|].
          intros LN. rewrite (G "multipart/form-data") by auto. rewrite (SAME LN). reflexivity.
      - destruct SM as [SM|SM]; [left|auto]. unfold safe_method.
        destruct (core_method _ _ _ C) as [H|[H|[H|[H|[H|[H|[H|H]]]]]]]; rewrite H in *; try reflexivity;
          exfalso; apply SM; unfold bodyless; auto.
      - unfold mime_form, mime_multipart. simpl in CT. intuition congruence.
    Qed.
  End Doc.

  (* ---------- keys ---------- *)

  Lemma class_not_numeral z s t : numeral z (s ^^ t) -> t = "XX" -> False.
  Proof.
    intros (d & H & _) ->.
    assert (U : forall s, NilEmpty.uint_of_string (s ^^ "XX") = None).
    { clear. induction s as [|c s IH]; [reflexivity|]. cbn [String.append NilEmpty.uint_of_string]. rewrite IH.
      destruct c as [[] [] [] [] [] [] [] []]; reflexivity. }
    unfold NilZero.int_of_string in H. destruct s as [|c s]; [discriminate|]. cbn [String.append] in H.
    destruct (ascii_dec c "-").
    - subst c. unfold NilZero.uint_of_string in H. destruct (s ^^ "XX") eqn:E; [destruct s; discriminate|].
      rewrite <- E, U in H. discriminate.
    - assert (E : NilZero.uint_of_string (String c (s ^^ "XX")) = None) by exact (U (String c s)).
      revert H. destruct c as [[] [] [] [] [] [] [] []]; try (rewrite E; discriminate).
      exfalso. apply n. reflexivity.
  Qed.

  Lemma shared_key (a b : cunit) k : files_under a k -> files_under b k ->
    (cu_default a = true /\ cu_default b = true) \/
    (cu_default a = false /\ cu_default b = false /\
     (cu_status a = cu_status b \/ (cu_status a = 0%Z /\ cu_status b = 200%Z) \/ (cu_status a = 200%Z /\ cu_status b = 0%Z))).
  Proof.
    assert (N200 : numeral 200 "200") by exact (itoa_numeral 200).
    assert (INJ : forall s t, s ^^ "XX" = t ^^ "XX" -> s = t).
    { intros s t E. apply app_last_len in E; [apply E|reflexivity]. }
    intros FA FB. destruct FA as [D|D Z|s D Z N|s D Z Z2 N]; inversion FB as [D'|D' Z' E|s' D' Z' N' E|s' D' Z' Z2' N' E]; subst;
      try congruence; auto; right; (split; [exact D|]); (split; [exact D'|]).
    - left. congruence.
    - exfalso. rewrite <- E in N200. eapply class_not_numeral; eauto.
    - right. left. split; [exact Z|]. eapply numeral_inj; eauto.
    - exfalso. rewrite E in N200. eapply class_not_numeral; eauto.
    - left. apply INJ in E. subst. eapply numeral_inj; eauto.
    - exfalso. subst. eapply class_not_numeral; eauto.
    - right. right. split; [|exact Z']. eapply numeral_inj; eauto.
    - exfalso. subst. eapply class_not_numeral; eauto.
    - left. eapply numeral_inj; eauto.
  Qed.

  Lemma array_style_fun cf a b : array_style cf a -> array_style cf b -> a = b.
  Proof.
    intros H. inversion H; subst; intros H'; inversion H'; subst; try reflexivity;
      match goal with N : ~ In _ _ |- _ => exfalso; apply N; simpl; tauto end.
  Qed.

  Lemma Forall2_in_r {A C : Type} (P : A -> C -> Prop) l l' y : Forall2 P l l' -> In y l' -> exists x, In x l /\ P x y.
  Proof.
    induction 1 as [|a c l l' H F IH]; intros I; [destruct I|]. destruct I as [<-|I].
    - exists a. simpl. auto.
    - destruct (IH I) as (x & X & Y). exists x. simpl. auto.
  Qed.

  (* ---------- what a call does to the registry ---------- *)

  Lemma add30_cases (r r' : refl30 Sch) oc oc' a : reflector_add30 B r oc = (r', oc', a) ->
    grows (r30_comps r) (r30_comps r') /\
    (a <> AOk /\ r30_paths r' = r30_paths r \/
     a = AOk /\ exists o, add_operation30 (r30_paths r) (oc_method oc) (oc_path oc) o = (r30_paths r', None)).
  Proof.
    unfold reflector_add30. intros H.
    destruct (setup_oc30 B (r30_comps r) oc) as [[c o] x] eqn:E.
    apply setup_oc_grows in E.
    destruct x.
    - destruct (add_operation30 (r30_paths r) (oc_method oc) (oc_path oc) o) as [p e] eqn:AD.
      injection H as <- <- <-. split; [exact E|]. destruct e as [e|].
      + left. split; [discriminate|]. apply add30_err in AD. exact AD.
      + right. split; [reflexivity|]. exists o. exact AD.
    - injection H as <- <- <-. split; [exact E|]. left. split; [discriminate|reflexivity].
    - injection H as <- <- <-. split; [exact E|]. left. split; [discriminate|reflexivity].
  Qed.

  Lemma add31_cases' (r r' : refl31 Sch) oc oc' a : reflector_add31 B r oc = (r', oc', a) -> clean (oc_path oc) ->
    grows (r31_comps r) (r31_comps r') /\
    (a <> AOk /\ same31 (r31_paths r) (r31_paths r') \/
     a = AOk /\ exists o, add_operation31 (r31_paths r) (oc_method oc) (oc_path oc) o = (r31_paths r', None)).
  Proof.
    unfold reflector_add31. intros H CL.
    destruct (setup_oc31 B (r31_comps r) oc) as [[c o] x] eqn:E.
    apply setup_oc_grows in E.
    destruct x.
    - destruct (add_operation31 (r31_paths r) (oc_method oc) (oc_path oc) o) as [p e] eqn:AD.
      injection H as <- <- <-. split; [exact E|]. destruct e as [e|].
      + left. split; [discriminate|]. apply add31_clean_err in AD; auto.
      + right. split; [reflexivity|]. exists o. exact AD.
    - injection H as <- <- <-. split; [exact E|]. left. split; [discriminate|apply same31_refl].
    - injection H as <- <- <-. split; [exact E|]. left. split; [discriminate|apply same31_refl].
  Qed.

  Lemma hook31_cases (r r' : refl31 Sch) oc oc' a : reflector_webhook31 B r oc = (r', oc', a) ->
    grows (r31_comps r) (r31_comps r') /\
    (a <> AOk /\ r31_paths r' = r31_paths r \/
     a = AOk /\ exists o, add_webhook31 (r31_paths r) (oc_method oc) (oc_path oc) o = (r31_paths r', None)).
  Proof.
    unfold reflector_webhook31. intros H.
    destruct (setup_oc31 B (r31_comps r) oc) as [[c o] x] eqn:E.
    apply setup_oc_grows in E.
    destruct x.
    - destruct (add_webhook31 (r31_paths r) (oc_method oc) (oc_path oc) o) as [p e] eqn:AD.
      injection H as <- <- <-. split; [exact E|]. destruct e as [e|].
      + left. split; [discriminate|]. apply webhook_cases in AD.
        destruct AD as [(i & _ & -> & _)|[(_ & _ & -> & _)|(m & pi & _ & _ & _ & X & _)]]; [reflexivity..|discriminate].
      + right. split; [reflexivity|]. exists o. exact AD.
    - injection H as <- <- <-. split; [exact E|]. left. split; [discriminate|reflexivity].
    - injection H as <- <- <-. split; [exact E|]. left. split; [discriminate|reflexivity].
  Qed.

  Lemma effect30 (s s' : paths30 Sch) m p o : openapi_method m -> clean p -> add_operation30 s m p o = (s', None) ->
    doc30 s p m = None /\ exists o', only_at30 s s' p m o'.
  Proof.
    intros OM CL A. destruct (parses_total p) as [l P]. destruct (add30_effect _ _ _ _ _ _ P A) as (m' & o' & OM' & MI & DN & _ & OA).
    apply (lower_of_method _ _ OM') in MI. rewrite (to_lower_fix _ OM) in MI. subst m'.
    rewrite (clean_render _ _ CL P) in OA. eauto.
  Qed.

  Lemma effect31 (s s' : paths31 Sch) m p o : openapi_method m -> clean p -> add_operation31 s m p o = (s', None) ->
    doc31 s p m = None /\ exists o', only_at31 s s' p m o'.
  Proof.
    intros OM CL A. destruct (parses_total p) as [l P]. destruct (add31_effect _ _ _ _ _ _ P A) as (m' & o' & OM' & MI & DN & _ & OA).
    apply (lower_of_method _ _ OM') in MI. rewrite (to_lower_fix _ OM) in MI. subst m'.
    rewrite (clean_render _ _ CL P) in OA. eauto.
  Qed.

  Lemma rstep30_keeps r oc p m o : made30 oc -> doc30 (r30_paths r) p m = Some o ->
    doc30 (r30_paths (rstep30 B r oc)) p m = Some o.
  Proof.
    intros M D. unfold rstep30. destruct (reflector_add30 B r oc) as [[r' oc'] a] eqn:E. simpl.
    apply made30_ok in M. destruct M as (OM & CL & _).
    apply add30_cases in E. destruct E as (_ & [(_ & ->)|(_ & x & A)]); [exact D|].
    eapply add30_clean_keeps; eauto.
  Qed.

  Lemma rrun30_keeps l : forall r, Forall made30 l -> forall p m o, doc30 (r30_paths r) p m = Some o ->
    doc30 (r30_paths (rrun30 B r l)) p m = Some o.
  Proof.
    induction l as [|oc l IH]; intros r F p m o D; [exact D|]. inversion F; subst. simpl. apply IH; [assumption|].
    apply rstep30_keeps; assumption.
  Qed.

  Lemma doc31_items (s s' : paths31 Sch) p m : sp31_items s' = sp31_items s -> doc31 s' p m = doc31 s p m.
  Proof. unfold doc31. intros ->. reflexivity. Qed.

  Lemma rstep31_keeps r a p m o : made31 (snd a) -> doc31 (r31_paths r) p m = Some o ->
    doc31 (r31_paths (rstep31 B r a)) p m = Some o.
  Proof.
    intros M D. unfold rstep31. apply made31_ok in M. destruct M as (OM & CL & _). destruct (fst a).
    - destruct (reflector_webhook31 B r (snd a)) as [[r' oc'] x] eqn:E. simpl.
      apply hook31_cases in E. destruct E as (_ & [(_ & ->)|(_ & y & A)]); [exact D|].
      apply webhook_cases in A. destruct A as [(i & _ & _ & X)|[(_ & _ & _ & X)|(m' & pi & _ & _ & _ & _ & I & _)]]; [discriminate..|].
      rewrite (doc31_items _ _ _ _ I). exact D.
    - destruct (reflector_add31 B r (snd a)) as [[r' oc'] x] eqn:E. simpl.
      apply add31_cases' in E; [|exact CL]. destruct E as (_ & [(_ & (_ & _ & _ & S))|(_ & y & A)]); [rewrite S; exact D|].
      eapply add31_clean_keeps; eauto.
  Qed.

  Lemma rrun31_keeps l : forall r, Forall (fun a => made31 (snd a)) l -> forall p m o, doc31 (r31_paths r) p m = Some o ->
    doc31 (r31_paths (rrun31 B r l)) p m = Some o.
  Proof.
    induction l as [|oc l IH]; intros r F p m o D; [exact D|]. inversion F; subst. simpl. apply IH; [assumption|].
    apply rstep31_keeps; assumption.
  Qed.

  Lemma rstep31_hooks r a n i : made31 (snd a) -> get n (sp31_webhooks (r31_paths r)) = Some i ->
    get n (sp31_webhooks (r31_paths (rstep31 B r a))) = Some i.
  Proof.
    intros M D. unfold rstep31. apply made31_ok in M. destruct M as (OM & CL & _). destruct (fst a).
    - destruct (reflector_webhook31 B r (snd a)) as [[r' oc'] x] eqn:E. simpl.
      apply hook31_cases in E. destruct E as (_ & [(_ & ->)|(_ & y & A)]); [exact D|].
      change (r31_paths r') with (fst (r31_paths r', @None reg_error)). rewrite <- A.
      exact (act_hook_keeps (AHook (oc_method (snd a)) (oc_path (snd a)) y) _ _ _ D).
    - destruct (reflector_add31 B r (snd a)) as [[r' oc'] x] eqn:E. simpl.
      apply add31_cases' in E; [|exact CL]. destruct E as (_ & [(_ & (S & _))|(_ & y & A)]); [rewrite S; exact D|].
      change (r31_paths r') with (fst (r31_paths r', @None reg_error)). rewrite <- A, add31_hooks. exact D.
  Qed.

  Lemma rrun31_hooks l : forall r, Forall (fun a => made31 (snd a)) l -> forall n i,
    get n (sp31_webhooks (r31_paths r)) = Some i -> get n (sp31_webhooks (r31_paths (rrun31 B r l))) = Some i.
  Proof.
    induction l as [|oc l IH]; intros r F p i D; [exact D|]. inversion F; subst. simpl. apply IH; [assumption|].
    apply rstep31_hooks; assumption.
  Qed.

  Lemma rrun30_comps l : forall r, grows (r30_comps r) (r30_comps (rrun30 B r l)).
  Proof.
    induction l as [|oc l IH]; intros r; [apply grows_refl|]. simpl. eapply grows_trans; [|apply IH].
    unfold rstep30. destruct (reflector_add30 B r oc) as [[r' oc'] a] eqn:E. apply add30_cases in E. apply E.
  Qed.

  Lemma rrun31_comps l : forall r, Forall (fun a => made31 (snd a)) l -> grows (r31_comps r) (r31_comps (rrun31 B r l)).
  Proof.
    induction l as [|a l IH]; intros r F; [apply grows_refl|]. inversion F; subst. simpl. eapply grows_trans; [|apply IH; assumption].
    unfold rstep31. destruct (fst a).
    - destruct (reflector_webhook31 B r (snd a)) as [[r' oc'] x] eqn:E. apply hook31_cases in E. apply E.
    - destruct (reflector_add31 B r (snd a)) as [[r' oc'] x] eqn:E. apply add31_cases' in E; [apply E|].
      apply made31_ok in H1. tauto.
  Qed.
End Proofs.
