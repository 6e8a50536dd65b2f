(* Proofs about references instead of contents. *)
From Coq Require Import ZArith Lia.
From Verif Require Import Str SMap Json PathModel PathSpec PathProofs Types.
From Verif Require Import RegistryModel RegistrySpec RegistryProofs ReflectModel ReflectSpec.
From Verif Require Import ReflectProofs ReflectProofs2 BodySpec BodyProofs LinkModel.

Section Proofs.
  Context {J Sch : Type}.
  Variable B : backend J Sch.
  Notation cunit := (cunit J Sch).
  Notation responses := (responses Sch).

  Lemma filter_split {A} (p : A -> bool) l l1 x l2 : filter p l = l1 ++ x :: l2 ->
    exists a b, l = a ++ x :: b /\ filter p a = l1 /\ filter p b = l2.
  Proof.
    revert l1. induction l as [|y l IH]; intros l1 E; [destruct l1; discriminate|]. cbn [filter] in E. destruct (p y) eqn:Py.
    - destruct l1 as [|z l1]; cbn [app] in E.
      + injection E as -> E. exists [], l. auto.
      + injection E as -> E. destruct (IH _ E) as (a & b & -> & Ea & Eb). exists (z :: a), b. cbn [filter app]. rewrite Py, Ea. auto.
    - destruct (IH _ E) as (a & b & -> & Ea & Eb). exists (y :: a), b. cbn [filter app]. rewrite Py. auto.
  Qed.

  Lemma setup_response_app m a b : forall (c : smap Sch) (rs : responses) c' rs' u, setup_response B (a ++ b) m (c, rs) = ((c', rs'), Ret u) ->
    exists c1 rs1, setup_response B a m (c, rs) = ((c1, rs1), Ret tt) /\ setup_response B b m (c1, rs1) = ((c', rs'), Ret u).
  Proof.
    induction a as [|cu a IH]; intros c rs c' rs' u H; cbn [app setup_response] in *; [eauto|].
    destruct (response_unit B cu m (c, rs)) as [[c1 rs1] r1] eqn:E. destruct r1 as [[]| |]; [|discriminate..]. apply IH. exact H.
  Qed.

  (* The state after a unit with a reference, and the units after it. *)
  Lemma reference_left cl v k l1 ref cu l2 : documented B cl v -> units_of k (c_resp cl) (l1 ++ with_reference ref cu :: l2) ->
    exists c1 rs1 c2 b, filter (under k) b = l2 /\ filed rs1 k = Some (mkRor None (Some ref)) /\
      setup_response B b (c_method cl) (c1, rs1) = ((c2, vw_responses v), Ret tt).
  Proof.
    intros D U. apply documented_core in D. assert (F : filter (under k) (c_resp cl) = l1 ++ with_reference ref cu :: l2) by (apply units_filter; exact U). destruct (filter_split _ _ _ _ _ F) as (a & b & E & Ea & Eb).
    destruct (final_responses _ _ _ D) as (c1 & c2 & rs1 & S & [(X & _)|(_ & V)]); [exfalso; rewrite X in E; destruct a; discriminate|].
    rewrite E in S. apply setup_response_app in S. destruct S as (c3 & rs3 & S1 & S2). cbn [setup_response] in S2.
    destruct (response_unit B (with_reference ref cu) (c_method cl) (c3, rs3)) as [[c4 rs4] r4] eqn:E4. destruct r4 as [[]| |]; [|discriminate..].
    apply response_unit_ok in E4. destruct E4 as (r' & _ & E4). specialize (E4 k).
    assert (K : k = rk (with_reference ref cu)).
    { apply files_under_iff. apply under_iff. assert (I : In (with_reference ref cu) (filter (under k) (c_resp cl))) by (rewrite F; apply in_or_app; right; left; reflexivity).
      apply filter_In in I. tauto. }
    destruct (rk_eq_dec k (rk (with_reference ref cu))) as [_|N]; [|contradiction].
    exists c4, rs4, c2, b. split; [exact Eb|]. split; [exact E4|]. rewrite V. exact S2.
  Qed.

  Lemma response_reference cl v k l ref cu : documented B cl v -> units_of k (c_resp cl) (l ++ [with_reference ref cu]) ->
    filed (vw_responses v) k = Some (mkRor None (Some ref)).
  Proof.
    intros D U. destruct (reference_left _ _ _ _ _ _ _ D U) as (c1 & rs1 & c2 & b & F & E & S).
    destruct (setup_response_keys _ _ _ _ _ _ _ _ S k) as [_ K]. rewrite K; [exact E|]. intros x I ->.
    assert (X : In x (filter (under (rk x)) b)) by (apply filter_In; split; [exact I|]; apply under_iff, files_under_iff; reflexivity).
    rewrite F in X. exact X.
  Qed.

  Lemma response_anew cl v k l1 ref cu l2 : documented B cl v -> units_of k (c_resp cl) (l1 ++ with_reference ref cu :: l2) -> l2 <> [] ->
    (forall x, In x l2 -> cu_custom_resp x = None) ->
    exists r, filed (vw_responses v) k = Some (mkRor (Some r) None) /\ fills B (c_method cl) l2 (mkResp "" [] [] JNull) r.
  Proof.
    intros D U NE NC. destruct (reference_left _ _ _ _ _ _ _ D U) as (c1 & rs1 & c2 & b & F & E & S).
    destruct (setup_response_fills _ _ _ _ _ _ _ _ k S) as [Fi Ex].
    - intros x I FU. apply NC. rewrite <- F. apply filter_In. split; [exact I|]. apply under_iff. exact FU.
    - rewrite F in Fi, Ex. destruct (Ex NE) as (r & Er). exists r. split; [exact Er|].
      unfold resp_at at 1, inline_at in Fi. rewrite E in Fi. cbn [ror_resp] in Fi. unfold resp_at, inline_at in Fi. rewrite Er in Fi. cbn [ror_resp] in Fi. exact Fi.
  Qed.

  Lemma response_after_reference cl v k l1 ref cu l2 : documented B cl v -> units_of k (c_resp cl) (l1 ++ with_reference ref cu :: l2) -> l2 <> [] ->
    (forall x, In x l2 -> cu_custom_resp x = None) ->
    exists r, filed (vw_responses v) k = Some (mkRor (Some r) None) /\
      described B (c_method cl) l2 "" (rs_desc r) /\
      (c_method cl <> "head" -> forall ct, responses_media B ct l2 None (get ct (rs_content r))) /\
      (c_method cl = "head" -> rs_content r = []).
  Proof.
    intros D U NE NC. destruct (response_anew _ _ _ _ _ _ _ D U NE NC) as (r & E & F). exists r. split; [exact E|].
    pose proof (core_method _ _ _ (documented_core _ _ _ D)) as OM. split; [apply fills_desc in F; [exact F|exact OM]|]. split.
    - intros NH ct. eapply fills_media in F; [exact F|exact OM|exact NH].
    - intros H. rewrite H in F. apply fills_head in F. exact F.
  Qed.

  (* ---------- request bodies ---------- *)

  Section Op.
    Context {R : Type}.
    Notation op := (operation Sch R).

    Lemma describe_some (cu : cunit) (o : op) : op_body o <> None -> op_body (describe_body cu o) <> None.
    Proof.
      intros N. unfold describe_body. destruct (op_body o) as [[[b|] rf]|] eqn:E; cbn [rbor_body]; [|rewrite E; discriminate|congruence].
      destruct (is_empty (cu_desc cu)); [rewrite E; discriminate|]. cbn [set_body op_body]. discriminate.
    Qed.
    Lemma describe_none (cu : cunit) (o : op) : op_body o = None -> op_body (describe_body cu o) = None.
    Proof. intros N. unfold describe_body. rewrite N. exact N. Qed.
    Lemma customize_some (cu : cunit) (o : op) : op_body o <> None -> op_body (customize_body cu o) <> None.
    Proof.
      intros N. unfold customize_body. destruct (cu_custom_req cu) as [f|]; [|exact N]. destruct (op_body o) as [b|]; [|congruence].
      cbn [set_body op_body]. discriminate.
    Qed.

    Lemma unit_some m cu c (o : op) c' o' u : openapi_method m -> request_unit B cu m (c, o) = ((c', o'), Ret u) ->
      op_body o <> None \/ (exists ct, body_type m cu ct) -> op_body o' <> None.
    Proof.
      intros OM H Y. unfold request_unit in H. destruct (request_content B cu m (c, o)) as [[c1 o1] r1] eqn:E. destruct r1 as [[]| |]; [|discriminate..].
      injection H as <- <- <-. pose proof (body_type_some_dec B _ _ _ _ _ _ _ OM E) as DEC. apply content_step in E; [|exact OM]. destruct E as [G K HB NB DS].
      apply customize_some, describe_some. destruct DEC as [X|X].
      - destruct (HB X) as (x & y & E1 & _). congruence.
      - rewrite (NB X). destruct Y as [Y|(ct & Y)]; [exact Y|]. exfalso. exact (X ct Y).
    Qed.
    Lemma request_some m l : openapi_method m -> forall c (o : op) c' o' u, setup_request B l m (c, o) = ((c', o'), Ret u) ->
      op_body o <> None \/ (exists cu ct, In cu l /\ body_type m cu ct) -> op_body o' <> None.
    Proof.
      intros OM. induction l as [|cu l IH]; intros c o c' o' u H Y; cbn [setup_request] in H.
      - injection H as <- <- <-. destruct Y as [Y|(x & ct & [] & _)]. exact Y.
      - destruct (request_unit B cu m (c, o)) as [[c1 o1] r1] eqn:E. destruct r1 as [[]| |]; [|discriminate..].
        apply (IH _ _ _ _ _ H). destruct Y as [Y|(x & ct & [<-|I] & T)].
        + left. eapply unit_some; eauto.
        + left. eapply unit_some; eauto.
        + right. eauto.
    Qed.
    (* Without a body and a body type nothing happens. *)
    Lemma unit_none m cu c (o : op) c' o' u : openapi_method m -> request_unit B cu m (c, o) = ((c', o'), Ret u) ->
      op_body o = None -> (forall ct, ~ body_type m cu ct) -> op_body o' = None.
    Proof.
      intros OM H N X. unfold request_unit in H. destruct (request_content B cu m (c, o)) as [[c1 o1] r1] eqn:E. destruct r1 as [[]| |]; [|discriminate..].
      injection H as <- <- <-. apply content_step in E; [|exact OM]. destruct E as [G K HB NB DS]. rewrite <- (NB X) in N.
      pose proof (describe_none cu o1 N) as N2. unfold customize_body. rewrite N2. destruct (cu_custom_req cu); exact N2.
    Qed.
    Lemma request_none m l : openapi_method m -> forall c (o : op) c' o' u, setup_request B l m (c, o) = ((c', o'), Ret u) ->
      op_body o = None -> (forall cu ct, In cu l -> ~ body_type m cu ct) -> op_body o' = None.
    Proof.
      intros OM. induction l as [|cu l IH]; intros c o c' o' u H N X; cbn [setup_request] in H.
      - injection H as <- <- <-. exact N.
      - destruct (request_unit B cu m (c, o)) as [[c1 o1] r1] eqn:E. destruct r1 as [[]| |]; [|discriminate..].
        apply (IH _ _ _ _ _ H); [|intros x ct I; apply X; right; exact I]. eapply unit_none; eauto. intros ct. apply X. left. reflexivity.
    Qed.

    (* A body that is a reference stays one unless a unit has content. *)
    Lemma unit_refers m cu c (o : op) c' o' u ref : openapi_method m -> request_unit B cu m (c, o) = ((c', o'), Ret u) ->
      op_body o = Some (mkRbor None (Some ref)) -> (forall ct, ~ body_type m cu ct) -> cu_custom_req cu = None -> op_body o' = Some (mkRbor None (Some ref)).
    Proof.
      intros OM H N X NC. unfold request_unit in H. destruct (request_content B cu m (c, o)) as [[c1 o1] r1] eqn:E. destruct r1 as [[]| |]; [|discriminate..].
      injection H as <- <- <-. apply content_step in E; [|exact OM]. destruct E as [G K HB NB DS]. rewrite <- (NB X) in N.
      unfold customize_body. rewrite NC. unfold describe_body. rewrite N. cbn [rbor_body]. exact N.
    Qed.
    Lemma request_refers m l ref : openapi_method m -> forall c (o : op) c' o' u, setup_request B l m (c, o) = ((c', o'), Ret u) ->
      op_body o = Some (mkRbor None (Some ref)) -> (forall cu, In cu l -> cu_custom_req cu = None /\ forall ct, ~ body_type m cu ct) -> op_body o' = Some (mkRbor None (Some ref)).
    Proof.
      intros OM. induction l as [|cu l IH]; intros c o c' o' u H N X; cbn [setup_request] in H.
      - injection H as <- <- <-. exact N.
      - destruct (request_unit B cu m (c, o)) as [[c1 o1] r1] eqn:E. destruct r1 as [[]| |]; [|discriminate..].
        apply (IH _ _ _ _ _ H); [|intros x I; apply X; right; exact I]. destruct (X cu (or_introl eq_refl)) as [X1 X2]. eapply unit_refers; eauto.
    Qed.

    Lemma setup_request_app m a b : forall (c : smap Sch) (o : op) c' o' u, setup_request B (a ++ b) m (c, o) = ((c', o'), Ret u) ->
      exists c1 o1, setup_request B a m (c, o) = ((c1, o1), Ret tt) /\ setup_request B b m (c1, o1) = ((c', o'), Ret u).
    Proof.
      induction a as [|cu a IH]; intros c o c' o' u H; cbn [app setup_request] in *; [eauto|].
      destruct (request_unit B cu m (c, o)) as [[c1 o1] r1] eqn:E. destruct r1 as [[]| |]; [|discriminate..]. apply IH. exact H.
    Qed.
  End Op.

  Lemma request_reference cl v l1 ref cu l2 : documented B cl v -> c_req cl = l1 ++ with_reference ref cu :: l2 ->
    vw_body (c_view cl) <> None \/ (exists x ct, In x (l1 ++ [cu]) /\ body_type (c_method cl) x ct) ->
    (forall x, In x l2 -> cu_custom_req x = None /\ forall ct, ~ body_type (c_method cl) x ct) ->
    vw_body v = Some (mkRbor None (Some ref)).
  Proof.
    intros D E Y X. apply documented_core in D. pose proof (core_method _ _ _ D) as OM.
    destruct (core_req _ _ _ D) as (R & o & o1 & c & c1 & S & _ & B0 & _ & _ & B1 & _). rewrite E in S.
    apply setup_request_app in S. destruct S as (c2 & o2 & S1 & S2). cbn [setup_request] in S2.
    destruct (request_unit B (with_reference ref cu) (c_method cl) (c2, o2)) as [[c3 o3] r3] eqn:E3. destruct r3 as [[]| |]; [|discriminate..].
    rewrite <- B1. apply (request_refers _ _ _ OM _ _ _ _ _ S2); [|exact X].
    unfold request_unit in E3. destruct (request_content B (with_reference ref cu) (c_method cl) (c2, o2)) as [[c4 o4] r4] eqn:E4. destruct r4 as [[]| |]; [|discriminate..].
    injection E3 as <- <-. assert (N : op_body o4 <> None).
    { pose proof (body_type_some_dec B _ _ _ _ _ _ _ OM E4) as DEC. apply content_step in E4; [|exact OM]. destruct E4 as [G K HB NB DS]. destruct DEC as [Z|Z].
      - destruct (HB Z) as (x & y & Q & _). congruence.
      - rewrite (NB Z). apply (request_some _ _ OM _ _ _ _ _ S1). rewrite B0. destruct Y as [Y|(x & ct & I & T)]; [auto|]. right.
        apply in_app_or in I. destruct I as [I|[<-|[]]]; [eauto|]. exfalso. apply (Z ct). destruct T as [H|t H1 H2 H3|H1 H2|t H1 H2 H3];
          [exact (bt_other _ (with_reference ref cu) H)|apply bt_tag; assumption|apply bt_json; assumption|apply bt_form; assumption]. }
    apply (describe_some (with_reference ref cu)) in N. unfold customize_body. cbn [with_reference cu_custom_req].
    destruct (op_body (describe_body (with_reference ref cu) o4)) as [b|]; [|congruence]. reflexivity.
  Qed.

  (* Without any content there is no body, and no reference. *)
  Lemma reference_lost cl v : documented B cl v -> vw_body (c_view cl) = None ->
    (forall x ct, In x (c_req cl) -> ~ body_type (c_method cl) x ct) -> vw_body v = None.
  Proof.
    intros D E X. apply documented_core in D. pose proof (core_method _ _ _ D) as OM.
    destruct (core_req _ _ _ D) as (R & o & o1 & c & c1 & S & _ & B0 & _ & _ & B1 & _). rewrite <- B1. apply (request_none _ _ OM _ _ _ _ _ S); [congruence|exact X].
  Qed.
End Proofs.
