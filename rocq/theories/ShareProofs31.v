(* Lemmas about contexts that are used more than once: openapi31. *)
From Verif Require Import Str SMap Json PathModel PathSpec PathProofs PathProps Types.
From Verif Require Import RegistryModel RegistrySpec RegistryProofs.
From Verif Require Import ReflectModel ReflectSpec ReflectProofs ReflectProofs2.
From Verif Require Import ShareModel ShareSpec ShareProofs.

Section Proofs.
  Context {J Sch : Type}.
  Variable B : backend J Sch.
  Notation responses := (responses Sch).
  Notation ev := (event J Sch).
  Notation rget := (@ens Sch).

  (* operations under paths ([hook = false]) and webhooks *)
  Definition look (hook : bool) (s : paths31 Sch) (p m : string) : option (op31 Sch) :=
    if hook then hook31 s p m else doc31 s p m.
  Definition link (hook : bool) (x : ctx31 J Sch) : option shared31 := if hook then x31_hook x else x31_link x.

  Lemma touch_item_slot f m (i : pitem31 Sch) m2 : openapi_method m ->
    slot (touch_item31 f m i) m2 = if String.eqb m2 m then option_map f (slot i m2) else slot i m2.
  Proof.
    intros OM. unfold touch_item31. rewrite (pi_operation_slot i m OM).
    destruct (slot i m) as [d|] eqn:S.
    - destruct (pi_set_slot i m (Some (f d)) OM) as (i' & -> & _ & SL). rewrite SL.
      destruct (String.eqb m2 m) eqn:E; [|reflexivity]. apply String.eqb_eq in E. subst m2. rewrite S. reflexivity.
    - destruct (String.eqb m2 m) eqn:E; [|reflexivity]. apply String.eqb_eq in E. subst m2. rewrite S. reflexivity.
  Qed.

  Lemma touch31_look f p m (s : paths31 Sch) hook p2 m2 : openapi_method m ->
    look hook (touch31 f p m s) p2 m2 =
    if negb hook && at_loc p m p2 m2 then option_map f (look hook s p2 m2) else look hook s p2 m2.
  Proof.
    intros OM. unfold look. destruct hook; cbn [negb andb].
    - unfold touch31, hook31. destruct (sp31_items s) as [items|]; [|reflexivity]. destruct (get p items); reflexivity.
    - unfold touch31, doc31, at_loc. destruct (sp31_items s) as [items|] eqn:SI.
      + destruct (get p items) as [i|] eqn:G.
        * cbn [set_items31 sp31_items]. rewrite get_put. destruct (String.eqb p2 p) eqn:E; cbn [andb]; [|reflexivity].
          apply String.eqb_eq in E. subst p2. rewrite G. apply touch_item_slot. exact OM.
        * rewrite SI. destruct (String.eqb p2 p) eqn:E; cbn [andb]; [|reflexivity].
          apply String.eqb_eq in E. subst p2. rewrite G. destruct (String.eqb m2 m); reflexivity.
      + rewrite SI. destruct (String.eqb p2 p && String.eqb m2 m)%bool; reflexivity.
  Qed.

  Lemma touch_hook31_look f p m (s : paths31 Sch) hook p2 m2 : openapi_method m ->
    look hook (touch_hook31 f p m s) p2 m2 =
    if hook && at_loc p m p2 m2 then option_map f (look hook s p2 m2) else look hook s p2 m2.
  Proof.
    intros OM. unfold look. destruct hook; cbn [andb].
    - unfold touch_hook31, hook31, at_loc. destruct (get p (sp31_webhooks s)) as [i|] eqn:G.
      + cbn [sp31_webhooks]. rewrite get_put. destruct (String.eqb p2 p) eqn:E; cbn [andb]; [|reflexivity].
        apply String.eqb_eq in E. subst p2. rewrite G. apply touch_item_slot. exact OM.
      + destruct (String.eqb p2 p) eqn:E; cbn [andb]; [|reflexivity].
        apply String.eqb_eq in E. subst p2. rewrite G. destruct (String.eqb m2 m); reflexivity.
    - unfold touch_hook31, doc31. destruct (get p (sp31_webhooks s)); reflexivity.
  Qed.

  Lemma through_look x oc (s : paths31 Sch) hook p m : openapi_method (oc_method oc) ->
    look hook (through31 (J:=J) x oc s) p m =
    match link hook x with
    | Some h => if at_loc (oc_path oc) (oc_method oc) p m then option_map (see31 h (oc_op oc)) (look hook s p m)
                else look hook s p m
    | None => look hook s p m
    end.
  Proof.
    intros OM. unfold through31, link.
    destruct (x31_link x) as [h|], (x31_hook x) as [g|]; rewrite ?touch_hook31_look, ?touch31_look by exact OM;
      destruct hook; cbn [negb andb]; reflexivity.
  Qed.

  Lemma ensure_idem (r : responses) : ensure_response (ensure_response r) = ensure_response r.
  Proof.
    unfold ensure_response. destruct (rs_map r) as [|a l] eqn:E.
    - destruct (rs_default r) eqn:D; [rewrite E, D; reflexivity|]. reflexivity.
    - rewrite E. reflexivity.
  Qed.

  Lemma ensure_own (o : op31 Sch) : ensure_response31 (own31 o) = ensure_response31 o.
  Proof.
    unfold own31, ensure_response31. destruct (op_responses o) as [r|] eqn:E.
    - cbn [set_responses op_responses]. rewrite ensure_idem. reflexivity.
    - rewrite E. reflexivity.
  Qed.

  Lemma ensure_filed (r : responses) k : filed r k <> None -> filed (ensure_response r) k <> None.
  Proof.
    unfold ensure_response. destruct (rs_map r) as [|a l] eqn:E; [|auto]. destruct (rs_default r) eqn:D; [auto|].
    destruct k; cbn [filed rs_default rs_map]; rewrite ?D, ?E; cbn [get]; congruence.
  Qed.

  Lemma own_wide (o : op31 Sch) : wide rget o (own31 o).
  Proof.
    unfold own31. destruct (op_responses o) as [r|] eqn:E; [|apply wide_refl].
    unfold ensure_response31. split; [reflexivity|]. split; [exists []; rewrite app_nil_r; reflexivity|].
    split; [auto|]. split; [auto|]. rewrite E. cbn [set_responses op_responses ens]. intros k. apply ensure_filed.
  Qed.

  (* one call: the operation before the response is completed, and the document *)
  Lemma call31_fx (hook : bool) (oc : opctx J Sch (option responses)) (r r' : refl31 Sch) oc' a :
    made31 oc ->
    (if hook then reflector_webhook31 B r oc else reflector_add31 B r oc) = (r', oc', a) ->
    exists o, oc' = set_op oc o /\
      (exists c' a0, setup_oc31 B (r31_comps r) oc = (c', o, a0) /\ (a = AOk -> a0 = AOk)) /\
      (a <> AOk /\ (forall h p m, look h (r31_paths r') p m = look h (r31_paths r) p m) \/
       a = AOk /\ look hook (r31_paths r) (oc_path oc) (oc_method oc) = None /\
       (forall h p m, look h (r31_paths r') p m =
          if Bool.eqb h hook && at_loc (oc_path oc) (oc_method oc) p m then Some (ensure_response31 o)
          else look h (r31_paths r) p m)).
  Proof.
    intros M H. apply made31_ok in M. destruct M as (OM & CL & _). destruct hook.
    - unfold reflector_webhook31 in H. destruct (setup_oc31 B (r31_comps r) oc) as [[c o] y] eqn:E. exists o.
      destruct y.
      + destruct (add_webhook31 (r31_paths r) (oc_method oc) (oc_path oc) o) as [p e] eqn:A.
        destruct e as [e|]; injection H as <- <- <-; cbn [r31_paths].
        * split; [reflexivity|]. split; [exists c, AOk; auto|]. left. split; [discriminate|].
          apply webhook_cases in A.
          destruct A as [(i & _ & -> & _)|[(_ & _ & -> & _)|(m & pi & _ & _ & _ & X & _)]]; [reflexivity..|discriminate].
        * split; [reflexivity|]. split; [exists c, AOk; auto|]. right. split; [reflexivity|].
          apply webhook_cases in A.
          destruct A as [(i & _ & _ & X)|[(_ & _ & _ & X)|(m & pi & G & OM' & MI & _ & SI & _ & SW & _ & SL)]]; [discriminate..|].
          apply (lower_of_method _ _ OM') in MI. rewrite (to_lower_fix _ OM) in MI. subst m.
          split; [unfold look, hook31; rewrite G; reflexivity|].
          intros h p2 m2. unfold look. destruct h; cbn [Bool.eqb andb].
          -- unfold hook31, at_loc. rewrite SW, get_put. destruct (String.eqb p2 (oc_path oc)) eqn:EP; cbn [andb]; [|reflexivity].
             apply String.eqb_eq in EP. subst p2. rewrite SL, G. reflexivity.
          -- apply doc31_items. exact SI.
      + injection H as <- <- <-. split; [reflexivity|]. split; [exists c; eexists; split; [reflexivity|discriminate]|].
        left. split; [discriminate|reflexivity].
      + injection H as <- <- <-. split; [reflexivity|]. split; [exists c; eexists; split; [reflexivity|discriminate]|].
        left. split; [discriminate|reflexivity].
    - unfold reflector_add31 in H. destruct (setup_oc31 B (r31_comps r) oc) as [[c o] y] eqn:E. exists o.
      destruct y.
      + destruct (add_operation31 (r31_paths r) (oc_method oc) (oc_path oc) o) as [p e] eqn:A.
        destruct e as [e|]; injection H as <- <- <-; cbn [r31_paths].
        * split; [reflexivity|]. split; [exists c, AOk; auto|]. left. split; [discriminate|].
          apply add31_clean_err in A; [|exact CL]. destruct A as (W & _ & _ & D).
          intros h p2 m2. unfold look, hook31. rewrite W, D. reflexivity.
        * split; [reflexivity|]. split; [exists c, AOk; auto|]. right. split; [reflexivity|].
          apply add31_ok in A. destruct A as (m & pp & ps & S & D & _ & W & _ & _ & DC).
          apply (clean_sanitized _ _ _ _ _ OM CL) in S. destruct S as [-> ->]. split; [exact D|].
          intros h p2 m2. unfold look. destruct h; cbn [Bool.eqb andb]; [unfold hook31; rewrite W; reflexivity|].
          apply DC.
      + injection H as <- <- <-. split; [reflexivity|]. split; [exists c; eexists; split; [reflexivity|discriminate]|].
        left. split; [discriminate|reflexivity].
      + injection H as <- <- <-. split; [reflexivity|]. split; [exists c; eexists; split; [reflexivity|discriminate]|].
        left. split; [discriminate|reflexivity].
  Qed.

  Lemma add31_fx hook (x x' : ctx31 J Sch) (r r' : refl31 Sch) a :
    made31 (x31_oc x) ->
    (forall h, link h x <> None -> look h (r31_paths r) (oc_path (x31_oc x)) (oc_method (x31_oc x)) <> None) ->
    add31 B hook x r = (r', x', a) ->
    exists o', x31_oc x' = set_op (x31_oc x) o' /\ wide rget (oc_op (x31_oc x)) o' /\
      (forall h, link h x' = link h x \/ a = AOk /\ h = hook /\ link h x = None /\ link h x' = Some (shares31 o') /\
                 look h (r31_paths r) (oc_path (x31_oc x)) (oc_method (x31_oc x)) = None) /\
      (a = AOk -> link hook x = None /\ link hook x' = Some (shares31 o') /\
                  look hook (r31_paths r) (oc_path (x31_oc x)) (oc_method (x31_oc x)) = None) /\
      (forall h p m, look h (r31_paths r') p m =
         match link h x with
         | Some s => if at_loc (oc_path (x31_oc x)) (oc_method (x31_oc x)) p m
                     then option_map (see31 s o') (look h (r31_paths r) p m) else look h (r31_paths r) p m
         | None => if match a with AOk => Bool.eqb h hook && at_loc (oc_path (x31_oc x)) (oc_method (x31_oc x)) p m
                                 | _ => false end
                   then Some (ensure_response31 o') else look h (r31_paths r) p m
         end).
  Proof.
    intros M L H. unfold add31 in H.
    destruct (if hook then reflector_webhook31 B r (x31_oc x) else reflector_add31 B r (x31_oc x)) as [[r1 oc1] a1] eqn:E.
    apply call31_fx in E; [|exact M]. destruct E as (o & -> & (c' & a0 & SU & _) & FX).
    apply setup_oc_wide in SU; [|reflexivity]. apply made31_ok in M. destruct M as (OM & _).
    destruct FX as [(NA & DC)|(-> & D0 & DC)].
    - assert (a1 = a) as -> by (destruct a1; injection H as _ _ <-; reflexivity).
      exists o. assert (x31_oc x' = set_op (x31_oc x) o /\ (forall h, link h x' = link h x) /\
        r31_paths r' = through31 x (set_op (x31_oc x) o) (r31_paths r1)) as (E1 & E2 & E3).
      { destruct a; [congruence|..]; injection H as <- <-; repeat split; intros []; reflexivity. }
      split; [exact E1|]. split; [exact SU|]. split; [intros h; left; apply E2|]. split; [congruence|].
      intros h p m. rewrite E3, through_look by exact OM. cbn [set_op oc_path oc_method oc_op]. rewrite DC.
      destruct (link h x); [reflexivity|]. destruct a; [congruence|reflexivity..].
    - injection H as <- <- <-. exists (own31 o).
      assert (L0 : link hook x = None).
      { destruct (link hook x) eqn:E; [|reflexivity]. exfalso. apply (L hook); [congruence|exact D0]. }
      cbn [set_op oc_op]. split; [destruct hook; reflexivity|].
      split; [eapply wide_trans; [exact SU|apply own_wide]|].
      split; [|split].
      + intros h. destruct (Bool.bool_dec h hook) as [->|NE].
        * right. repeat (split; [reflexivity|]). split; [exact L0|]. split; [destruct hook; reflexivity|exact D0].
        * left. destruct h, hook; congruence || reflexivity.
      + intros _. split; [exact L0|]. split; [destruct hook; reflexivity|exact D0].
      + intros h p m. cbn [r31_paths]. rewrite through_look by exact OM. cbn [set_op oc_path oc_method oc_op]. rewrite DC, ensure_own.
        destruct (link h x) eqn:LH; [|reflexivity].
        destruct (Bool.eqb h hook) eqn:EH; [|reflexivity]. apply Bool.eqb_prop in EH. congruence.
  Qed.

  Definition agree31 (s : shared31) (o d : op31 Sch) : Prop :=
    (h31_body s = true -> op_body o <> None) /\
    (h31_resp s = true -> op_responses d = op_responses o) /\
    (h31_ext s = true -> op_ext d = op_ext o).

  Lemma agree31_see s (o o' d : op31 Sch) : agree31 s o d -> wide rget o o' -> agree31 s o' (see31 s o' d).
  Proof.
    intros (A1 & A2 & A3) (_ & _ & W & _). unfold agree31, see31. cbn [op_responses op_ext].
    split; [auto|]. split; intros E; rewrite E; reflexivity.
  Qed.

  Lemma view31_ens (o : op31 Sch) : vw_responses (view31 o) = ens (op_responses o).
  Proof. reflexivity. Qed.

  Lemma outline_see31 s (o o' d : op31 Sch) : agree31 s o d -> wide rget o o' ->
    keeps_outline (view31 d) (view31 (see31 s o' d)).
  Proof.
    intros (A1 & A2 & A3) (_ & _ & W & X & F). unfold keeps_outline. rewrite !view31_ens.
    unfold view31, view_of, see31.
    cbn [vw_params vw_other vw_body vw_ext op_params op_body op_responses op_ext op_tags op_summary op_desc op_id op_deprecated op_security op_rest].
    split; [reflexivity|]. split; [reflexivity|]. split; [|split].
    - destruct (h31_body s) eqn:E; auto.
    - intros k N. destruct (h31_resp s) eqn:E; [|exact N]. rewrite (A2 eq_refl) in N. apply F. exact N.
    - destruct (h31_ext s) eqn:E; [|auto]. intros k I. rewrite (A3 eq_refl) in I. auto.
  Qed.

  Lemma agree31_new (o : op31 Sch) : own31 o = o -> agree31 (shares31 o) o (ensure_response31 o).
  Proof.
    unfold agree31, shares31. cbn [h31_body h31_resp h31_ext]. intros W. split; [|split; [|reflexivity]].
    - destruct (op_body o); cbn; discriminate.
    - unfold own31 in W. destruct (op_responses o) eqn:E; cbn [is_some]; [|discriminate]. intros _. rewrite W. exact E.
  Qed.

  Lemma own_idem (o : op31 Sch) : own31 (own31 o) = own31 o.
  Proof.
    unfold own31 at 2 3. destruct (op_responses o) as [r|] eqn:E; [|unfold own31; rewrite E; reflexivity].
    unfold own31, ensure_response31. rewrite E. cbn [set_responses op_responses]. rewrite ensure_idem. reflexivity.
  Qed.

  Definition loc31 (x : ctx31 J Sch) : string * string := (oc_path (x31_oc x), oc_method (x31_oc x)).
  Definition lookw (h : bool) (w : world31 J Sch) (l : string * string) : option (op31 Sch) :=
    look h (r31_paths (w31_refl w)) (fst l) (snd l).

  Record inv31 (w : world31 J Sch) : Prop := mkInv31 {
    i31_made : forall i x, nth_error (w31_ctx w) i = Some x -> made31 (x31_oc x);
    i31_link : forall h i x s, nth_error (w31_ctx w) i = Some x -> link h x = Some s ->
      exists d, lookw h w (loc31 x) = Some d /\ agree31 s (oc_op (x31_oc x)) d;
    i31_apart : forall h i j x y, i <> j -> nth_error (w31_ctx w) i = Some x -> nth_error (w31_ctx w) j = Some y ->
      link h x <> None -> link h y <> None -> loc31 x <> loc31 y }.

  Lemma inv31_nil r : inv31 (mkWorld31 r []).
  Proof. split; [intros i|intros h i|intros h i]; destruct i; cbn; intros; discriminate. Qed.

  Lemma made31_set_op (oc : opctx J Sch (option responses)) o : made31 oc -> made31 (set_op oc o).
  Proof. intros (r & r' & me & pa & oc0 & M & M1 & M2 & M3). exists r, r', me, pa, oc0. auto. Qed.

  Lemma inv31_edit w i x oc' : inv31 w -> nth_error (w31_ctx w) i = Some x ->
    oc_method oc' = oc_method (x31_oc x) -> oc_path oc' = oc_path (x31_oc x) -> oc_params oc' = oc_params (x31_oc x) ->
    op_body (oc_op oc') = op_body (oc_op (x31_oc x)) -> op_responses (oc_op oc') = op_responses (oc_op (x31_oc x)) ->
    op_ext (oc_op oc') = op_ext (oc_op (x31_oc x)) ->
    inv31 (mkWorld31 (w31_refl w) (replace i (mkCtx31 oc' (x31_link x) (x31_hook x)) (w31_ctx w))).
  Proof.
    intros I N E1 E2 E3 E4 E5 E6.
    assert (Q : forall j y, nth_error (replace i (mkCtx31 oc' (x31_link x) (x31_hook x)) (w31_ctx w)) j = Some y ->
      exists y0, nth_error (w31_ctx w) j = Some y0 /\ (forall h, link h y = link h y0) /\ loc31 y = loc31 y0 /\
        (made31 (x31_oc y0) -> made31 (x31_oc y)) /\
        (forall s d, agree31 s (oc_op (x31_oc y0)) d -> agree31 s (oc_op (x31_oc y)) d)).
    { intros j y H. apply (nth_replace _ x) in H; [|exact N]. destruct H as [[-> ->]|[_ H]].
      - exists x. split; [exact N|]. split; [intros []; reflexivity|]. cbn [x31_oc].
        split; [unfold loc31; cbn [x31_oc]; congruence|]. split.
        + intros (r & r' & me & pa & oc0 & M & M1 & M2 & M3). exists r, r', me, pa, oc0. repeat split; congruence.
        + intros s d. unfold agree31. rewrite E4, E5, E6. auto.
      - exists y. auto. }
    split; cbn [w31_ctx w31_refl].
    - intros j y H. destruct (Q j y H) as (y0 & N0 & _ & _ & M & _). apply M. eapply i31_made; eauto.
    - intros h j y s H L. destruct (Q j y H) as (y0 & N0 & L0 & O & _ & A). rewrite L0 in L.
      destruct (i31_link w I h j y0 s N0 L) as (d & D & AG). exists d. split; [|auto]. unfold lookw in *. cbn [w31_refl].
      rewrite O. exact D.
    - intros h j k y z NE H1 H2 L1 L2.
      destruct (Q j y H1) as (y0 & N0 & L0 & O & _). destruct (Q k z H2) as (z0 & N0' & L0' & O' & _).
      rewrite O, O'. rewrite L0 in L1. rewrite L0' in L2. exact (i31_apart w I h j k y0 z0 NE N0 N0' L1 L2).
  Qed.

  Lemma add31_own hook (x x' : ctx31 J Sch) (r r' : refl31 Sch) : add31 B hook x r = (r', x', AOk) ->
    own31 (oc_op (x31_oc x')) = oc_op (x31_oc x').
  Proof.
    unfold add31. destruct (if hook then _ else _) as [[r1 oc1] a1]. intros H.
    assert (a1 = AOk) as -> by (destruct a1; [reflexivity|discriminate..]).
    injection H as _ <-. destruct hook; cbn [x31_oc set_op oc_op]; apply own_idem.
  Qed.

  Lemma step31_add hook w i x r' x' a : inv31 w -> nth_error (w31_ctx w) i = Some x ->
    add31 B hook x (w31_refl w) = (r', x', a) ->
    inv31 (mkWorld31 r' (replace i x' (w31_ctx w))) /\
    loc31 x' = loc31 x /\
    (forall h p m d, look h (r31_paths (w31_refl w)) p m = Some d ->
       exists d', look h (r31_paths r') p m = Some d' /\ keeps_outline (view31 d) (view31 d')) /\
    (forall h l, l <> loc31 x -> look h (r31_paths r') (fst l) (snd l) = look h (r31_paths (w31_refl w)) (fst l) (snd l)) /\
    (forall h, link h x = None -> a <> AOk -> forall p m, look h (r31_paths r') p m = look h (r31_paths (w31_refl w)) p m) /\
    (forall h p m d, link h x = None -> look h (r31_paths (w31_refl w)) p m = Some d -> look h (r31_paths r') p m = Some d).
  Proof.
    intros I N A.
    assert (L : forall h, link h x <> None ->
      look h (r31_paths (w31_refl w)) (oc_path (x31_oc x)) (oc_method (x31_oc x)) <> None).
    { intros h K. destruct (link h x) as [s|] eqn:E; [|congruence].
      destruct (i31_link w I h i x s N E) as (d & D & _). unfold lookw, loc31 in D. cbn [fst snd] in D. congruence. }
    assert (OW : a = AOk -> own31 (oc_op (x31_oc x')) = oc_op (x31_oc x')) by (intros ->; eapply add31_own; eauto).
    destruct (add31_fx hook x x' (w31_refl w) r' a (i31_made w I i x N) L A) as (o' & O & SU & LK & OK & DC).
    assert (LX : loc31 x' = loc31 x) by (unfold loc31; rewrite O; reflexivity).
    assert (MX : made31 (x31_oc x')) by (rewrite O; apply made31_set_op; exact (i31_made w I i x N)).
    rewrite O in OW. cbn [set_op oc_op] in OW.
    assert (OT : forall h l, l <> loc31 x ->
      look h (r31_paths r') (fst l) (snd l) = look h (r31_paths (w31_refl w)) (fst l) (snd l)).
    { intros h [p m] NE. cbn [fst snd]. rewrite DC. destruct (link h x).
      - rewrite at_loc_false; [reflexivity|exact NE].
      - rewrite (at_loc_false _ _ _ _ NE), andb_false_r. destruct a; reflexivity. }
    assert (FR : forall h j y s, nth_error (w31_ctx w) j = Some y -> link h y = Some s ->
      look h (r31_paths (w31_refl w)) (oc_path (x31_oc x)) (oc_method (x31_oc x)) = None -> loc31 y <> loc31 x).
    { intros h j y s H K E1 E. destruct (i31_link w I h j y s H K) as (d & D & _). rewrite E in D.
      unfold lookw, loc31 in D. cbn [fst snd] in D. congruence. }
    split; [|split; [exact LX|split; [|split; [exact OT|split]]]].
    - split; cbn [w31_ctx w31_refl].
      + intros j y H. apply (nth_replace _ x) in H; [|exact N]. destruct H as [[-> ->]|[_ H]]; [exact MX|].
        eapply i31_made; eauto.
      + intros h j y s H K. apply (nth_replace _ x) in H; [|exact N]. unfold lookw. cbn [w31_refl].
        destruct H as [[-> ->]|[NE H]].
        * rewrite LX, O. unfold loc31. cbn [fst snd set_op oc_op]. rewrite DC.
          destruct (LK h) as [LE|(-> & -> & L0 & L1 & D0)].
          -- rewrite LE in K. destruct (i31_link w I h i x s N K) as (d & D & AG). exists (see31 s o' d).
             unfold lookw, loc31 in D. cbn [fst snd] in D. rewrite K, at_loc_refl, D. split; [reflexivity|].
             eapply agree31_see; eauto.
          -- rewrite L1 in K. injection K as <-. exists (ensure_response31 o').
             rewrite L0, Bool.eqb_reflx, at_loc_refl. cbn [andb]. split; [reflexivity|]. apply agree31_new. auto.
        * destruct (i31_link w I h j y s H K) as (d & D & AG). exists d. split; [|exact AG].
          destruct (link h x) as [s0|] eqn:E0.
          -- rewrite OT; [exact D|]. apply (i31_apart w I h j i y x NE H N); congruence.
          -- destruct (LK h) as [LE|(-> & -> & _ & _ & D0)].
             ++ destruct (Bool.bool_dec h hook) as [->|NH].
                ** destruct a as [|e|]; [destruct (OK eq_refl) as (_ & LN & _); congruence|..]; rewrite DC, E0; exact D.
                ** rewrite DC, E0. assert (Bool.eqb h hook = false) as -> by (apply Bool.eqb_false_iff; exact NH).
                   destruct a; exact D.
             ++ rewrite OT; [exact D|]. eapply FR; eauto.
      + intros h j k y z NE H1 H2 K1 K2.
        apply (nth_replace _ x) in H1; [|exact N]. apply (nth_replace _ x) in H2; [|exact N].
        destruct H1 as [[-> ->]|[N1 H1]]; destruct H2 as [[-> ->]|[N2 H2]].
        * congruence.
        * rewrite LX. destruct (LK h) as [LE|(-> & -> & _ & _ & D0)].
          -- rewrite LE in K1. apply (i31_apart w I h i k x z); auto.
          -- destruct (link hook z) as [s|] eqn:EZ; [|congruence]. intros E. symmetry in E. revert E. eapply FR; eauto.
        * rewrite LX. destruct (LK h) as [LE|(-> & -> & _ & _ & D0)].
          -- rewrite LE in K2. apply (i31_apart w I h j i y x); auto.
          -- destruct (link hook y) as [s|] eqn:EZ; [|congruence]. eapply FR; eauto.
        * apply (i31_apart w I h j k y z); auto.
    - intros h p m d D. rewrite DC. destruct (link h x) as [s|] eqn:E.
      + destruct (at_loc _ _ p m) eqn:AT; [|exists d; split; [exact D|apply keeps_refl]].
        apply at_loc_true in AT. destruct AT as [-> ->]. rewrite D. exists (see31 s o' d). split; [reflexivity|].
        destruct (i31_link w I h i x s N E) as (d0 & D0 & AG). unfold lookw, loc31 in D0. cbn [fst snd] in D0.
        assert (d0 = d) as -> by congruence. eapply outline_see31; eauto.
      + exists d. split; [|apply keeps_refl]. destruct a; try exact D.
        destruct (Bool.eqb h hook && at_loc _ _ p m)%bool eqn:AT; [|exact D].
        apply andb_true_iff in AT. destruct AT as [AH AT]. apply Bool.eqb_prop in AH. subst h.
        apply at_loc_true in AT. destruct AT as [-> ->]. destruct (OK eq_refl) as (_ & _ & D0). congruence.
    - intros h E NA p m. rewrite DC, E. destruct a; [congruence|reflexivity..].
    - intros h p m d E D. rewrite DC, E. destruct a; try exact D.
      destruct (Bool.eqb h hook && at_loc _ _ p m)%bool eqn:AT; [|exact D].
      apply andb_true_iff in AT. destruct AT as [AH AT]. apply Bool.eqb_prop in AH. subst h.
      apply at_loc_true in AT. destruct AT as [-> ->]. destruct (OK eq_refl) as (_ & _ & D0). congruence.
  Qed.

  Lemma new31_look (r r' : refl31 Sch) m p oc : new_context31 (J:=J) r m p = (r', oc) ->
    (forall h p m, look h (r31_paths r') p m = look h (r31_paths r) p m) /\
    (forall o, oc = Some o -> made31 o).
  Proof.
    intros H. split.
    - unfold new_context31 in H. destruct (sanitize_method_path m p) as [[[m1 p1] ps]|]; [|injection H as <- _; reflexivity].
      destruct (paths_ens (r31_paths r)) as [s items] eqn:E.
      assert (r31_paths r' = s) as -> by (destruct (pi_operation _ _) as [[|]|]; injection H as <- _; reflexivity).
      unfold paths_ens in E. destruct (sp31_items (r31_paths r)) eqn:S; injection E as <- <-; [reflexivity|].
      intros h p2 m2. unfold look, doc31, hook31. cbn [sp31_items sp31_webhooks]. rewrite S. destruct h; reflexivity.
    - intros o ->. exists r, r', m, p, o. auto.
  Qed.

  (* AddOperation and AddWebhook as one event *)
  Definition calls (e : ev) : option (bool * nat) :=
    match e with Add i => Some (false, i) | Hook i => Some (true, i) | _ => None end.

  Lemma calls_call31 e hook i : calls e = Some (hook, i) <-> call31 e hook i.
  Proof. unfold call31. destruct e, hook; cbn; split; intros H; try discriminate; congruence. Qed.

  Lemma step31_call w e hook i x : calls e = Some (hook, i) -> nth_error (w31_ctx w) i = Some x ->
    step31 B w e = mkWorld31 (fst (fst (add31 B hook x (w31_refl w)))) (replace i (snd (fst (add31 B hook x (w31_refl w)))) (w31_ctx w)).
  Proof.
    intros C N. destruct e; cbn [calls] in C; try discriminate; injection C as <- <-; cbn [step31]; rewrite N;
      destruct (add31 B _ x (w31_refl w)) as [[r' x'] a]; reflexivity.
  Qed.
  Lemma step31_nocall w e hook i : calls e = Some (hook, i) -> nth_error (w31_ctx w) i = None -> step31 B w e = w.
  Proof.
    intros C N. destruct e; cbn [calls] in C; try discriminate; injection C as <- <-; cbn [step31]; rewrite N; reflexivity.
  Qed.

  (* events that are not calls do not touch operations *)
  Lemma step31_quiet w e : calls e = None ->
    forall h p m, look h (r31_paths (w31_refl (step31 B w e))) p m = look h (r31_paths (w31_refl w)) p m.
  Proof.
    intros C h p m. destruct e as [me pa|i req resp|i a|i|i]; try discriminate; cbn [step31].
    - destruct (new_context31 (w31_refl w) me pa) as [r' oc] eqn:E. cbn [w31_refl]. apply new31_look in E. apply E.
    - destruct (nth_error (w31_ctx w) i); reflexivity.
    - destruct (nth_error (w31_ctx w) i); reflexivity.
  Qed.

  Lemma step31_inv w e : inv31 w -> inv31 (step31 B w e).
  Proof.
    intros I. destruct (calls e) as [[hook i]|] eqn:C.
    - destruct (nth_error (w31_ctx w) i) as [x|] eqn:N; [|rewrite (step31_nocall w e hook i C N); exact I].
      rewrite (step31_call w e hook i x C N). destruct (add31 B hook x (w31_refl w)) as [[r' x'] a] eqn:A.
      eapply step31_add; eauto.
    - destruct e as [m p|i req resp|i a|i|i]; try discriminate; cbn [step31].
      + destruct (new_context31 (w31_refl w) m p) as [r' oc] eqn:E. apply new31_look in E. destruct E as [E MD].
        assert (Q : forall j y, nth_error (match oc with Some oc => w31_ctx w ++ [mkCtx31 oc None None] | None => w31_ctx w end) j = Some y ->
          nth_error (w31_ctx w) j = Some y \/ made31 (x31_oc y) /\ forall h, link h y = None).
        { intros j y H. destruct oc as [oc|]; [|auto]. apply nth_snoc in H. destruct H as [H| ->]; [auto|]. right.
          split; [apply MD; reflexivity|intros []; reflexivity]. }
        split; cbn [w31_ctx w31_refl].
        * intros j y H. apply Q in H. destruct H as [H|[H _]]; [|exact H]. eapply i31_made; eauto.
        * intros h j y s H L. apply Q in H. destruct H as [H|[_ H]]; [|rewrite H in L; discriminate].
          destruct (i31_link w I h j y s H L) as (d & D & AG). exists d. split; [|exact AG]. unfold lookw in *. cbn [w31_refl].
          rewrite E. exact D.
        * intros h j k y z NE H1 H2 L1 L2. apply Q in H1, H2.
          destruct H1 as [H1|[_ H1]]; [|rewrite H1 in L1; congruence]. destruct H2 as [H2|[_ H2]]; [|rewrite H2 in L2; congruence].
          exact (i31_apart w I h j k y z NE H1 H2 L1 L2).
      + destruct (nth_error (w31_ctx w) i) as [x|] eqn:N; [|exact I]. apply (inv31_edit w i x); auto.
      + destruct (nth_error (w31_ctx w) i) as [x|] eqn:N; [|exact I]. apply (inv31_edit w i x); auto.
  Qed.

  Lemma run31_inv l : forall w, inv31 w -> inv31 (run31 B w l).
  Proof. induction l as [|e l IH]; intros w I; [exact I|]. cbn [run31 fold_left]. apply IH. apply step31_inv. exact I. Qed.
  Lemma run31_app w l1 l2 : run31 B w (l1 ++ l2) = run31 B (run31 B w l1) l2.
  Proof. unfold run31. apply fold_left_app. Qed.

  Lemma step31_outline w e h p m d : inv31 w -> look h (r31_paths (w31_refl w)) p m = Some d ->
    exists d', look h (r31_paths (w31_refl (step31 B w e))) p m = Some d' /\ keeps_outline (view31 d) (view31 d').
  Proof.
    intros I D. assert (K : exists d', Some d = Some d' /\ keeps_outline (view31 d) (view31 d')).
    { exists d. split; [reflexivity|apply keeps_refl]. }
    destruct (calls e) as [[hook i]|] eqn:C.
    - destruct (nth_error (w31_ctx w) i) as [x|] eqn:N; [|rewrite (step31_nocall w e hook i C N), D; exact K].
      rewrite (step31_call w e hook i x C N). destruct (add31 B hook x (w31_refl w)) as [[r' x'] a] eqn:A.
      destruct (step31_add hook w i x r' x' a I N A) as (_ & _ & H & _). cbn [w31_refl fst snd]. eauto.
    - rewrite (step31_quiet w e C), D. exact K.
  Qed.

  Lemma run31_outline l : forall w h p m d, inv31 w -> look h (r31_paths (w31_refl w)) p m = Some d ->
    exists d', look h (r31_paths (w31_refl (run31 B w l))) p m = Some d' /\ keeps_outline (view31 d) (view31 d').
  Proof.
    induction l as [|e l IH]; intros w h p m d I D; [exists d; split; [exact D|apply keeps_refl]|].
    destruct (step31_outline w e h p m d I D) as (d1 & D1 & K1). cbn [run31 fold_left].
    destruct (IH _ h p m d1 (step31_inv w e I) D1) as (d2 & D2 & K2). exists d2. split; [exact D2|].
    eapply keeps_trans; eauto.
  Qed.

  Lemma linked31 r l : forall h i x s, nth_error (w31_ctx (run31 B (mkWorld31 r []) l)) i = Some x -> link h x = Some s ->
    exists l1 e l2, calls e = Some (h, i) /\ l = l1 ++ e :: l2 /\ outcome31 B h (run31 B (mkWorld31 r []) l1) i = Some AOk.
  Proof.
    induction l as [|e l IH] using rev_ind; intros h i x s N L; [destruct i; discriminate|].
    rewrite run31_app in N. set (w := run31 B (mkWorld31 r []) l) in *.
    assert (OLD : forall y s, nth_error (w31_ctx w) i = Some y -> link h y = Some s ->
      exists l1 e0 l2, calls e0 = Some (h, i) /\ l ++ [e] = l1 ++ e0 :: l2 /\
        outcome31 B h (run31 B (mkWorld31 r []) l1) i = Some AOk).
    { intros y s0 N0 L0. destruct (IH h i y s0 N0 L0) as (l1 & e0 & l2 & C & -> & O). exists l1, e0, (l2 ++ [e]).
      split; [exact C|]. split; [rewrite <- app_assoc; reflexivity|exact O]. }
    cbn [run31 fold_left] in N. destruct (calls e) as [[hook j]|] eqn:C.
    - destruct (nth_error (w31_ctx w) j) as [y|] eqn:NJ; [|rewrite (step31_nocall w e hook j C NJ) in N; eauto].
      rewrite (step31_call w e hook j y C NJ) in N. destruct (add31 B hook y (w31_refl w)) as [[r' x'] a] eqn:A.
      cbn [w31_ctx fst snd] in N. apply (nth_replace _ y) in N; [|exact NJ]. destruct N as [[-> ->]|[_ N]]; [|eauto].
      assert (I : inv31 w) by (apply run31_inv, inv31_nil).
      assert (LK : link h x' = link h y \/ h = hook /\ a = AOk).
      { unfold add31 in A. destruct (if hook then _ else _) as [[r1 oc1] a1].
        destruct a1; injection A as _ <- <-; [destruct h, hook; auto|..]; left; destruct h; reflexivity. }
      destruct LK as [E|[-> ->]]; [rewrite E in L; eauto|].
      exists l, e, []. split; [exact C|]. split; [reflexivity|]. unfold outcome31. fold w. rewrite NJ, A. reflexivity.
    - destruct e as [me pa|j req resp|j a|j|j]; try discriminate; cbn [step31] in N.
      + destruct (new_context31 (w31_refl w) me pa) as [r' oc]. cbn [w31_ctx] in N. destruct oc as [oc|]; [|eauto].
        apply nth_snoc in N. destruct N as [N| ->]; [eauto|destruct h; discriminate].
      + destruct (nth_error (w31_ctx w) j) as [y|] eqn:NJ; [|eauto]. cbn [w31_ctx] in N.
        apply (nth_replace _ y) in N; [|exact NJ]. destruct N as [[-> ->]|[_ N]]; [|eauto].
        apply (OLD y s NJ). destruct h; exact L.
      + destruct (nth_error (w31_ctx w) j) as [y|] eqn:NJ; [|eauto]. cbn [w31_ctx] in N.
        apply (nth_replace _ y) in N; [|exact NJ]. destruct N as [[-> ->]|[_ N]]; [|eauto].
        apply (OLD y s NJ). destruct h; exact L.
  Qed.

  Lemma once31_link r l1 e hook i l2 x h : accepted_once31 B (mkWorld31 r []) (l1 ++ e :: l2) -> calls e = Some (hook, i) ->
    nth_error (w31_ctx (run31 B (mkWorld31 r []) l1)) i = Some x -> link h x = None.
  Proof.
    intros O C N. destruct (link h x) as [s|] eqn:L; [|reflexivity]. exfalso.
    destruct (linked31 r l1 h i x s N L) as (k1 & e0 & k2 & C0 & -> & AO).
    apply calls_call31 in C, C0. apply (O k1 e0 h e hook i k2 l2 C0 C); [|exact AO]. rewrite <- app_assoc. reflexivity.
  Qed.

  Lemma own31_kept r l2 : forall l1 h p m d, accepted_once31 B (mkWorld31 r []) (l1 ++ l2) ->
    look h (r31_paths (w31_refl (run31 B (mkWorld31 r []) l1))) p m = Some d ->
    look h (r31_paths (w31_refl (run31 B (mkWorld31 r []) (l1 ++ l2)))) p m = Some d.
  Proof.
    induction l2 as [|e l2 IH]; intros l1 h p m d O D; [rewrite app_nil_r; exact D|].
    replace (l1 ++ e :: l2) with ((l1 ++ [e]) ++ l2) in * by (rewrite <- app_assoc; reflexivity).
    apply IH; [exact O|]. rewrite run31_app. set (w := run31 B (mkWorld31 r []) l1) in *. cbn [run31 fold_left].
    destruct (calls e) as [[hook i]|] eqn:C; [|rewrite (step31_quiet w e C); exact D].
    destruct (nth_error (w31_ctx w) i) as [x|] eqn:N; [|rewrite (step31_nocall w e hook i C N); exact D].
    rewrite (step31_call w e hook i x C N). destruct (add31 B hook x (w31_refl w)) as [[r' x'] a] eqn:A. cbn [w31_refl fst snd].
    assert (L : link h x = None).
    { eapply once31_link; [|exact C|exact N]. rewrite <- app_assoc in O. exact O. }
    assert (I : inv31 w) by (apply run31_inv, inv31_nil).
    destruct (step31_add hook w i x r' x' a I N A) as (_ & _ & _ & _ & _ & KP). eauto.
  Qed.

  Lemma own31_failure r l e hook i a h p m : accepted_once31 B (mkWorld31 r []) (l ++ [e]) -> calls e = Some (hook, i) ->
    outcome31 B hook (run31 B (mkWorld31 r []) l) i = Some a -> a <> AOk ->
    look h (r31_paths (w31_refl (run31 B (mkWorld31 r []) (l ++ [e])))) p m =
    look h (r31_paths (w31_refl (run31 B (mkWorld31 r []) l))) p m.
  Proof.
    intros O C A NA. rewrite run31_app. unfold outcome31 in A.
    destruct (nth_error (w31_ctx (run31 B (mkWorld31 r []) l)) i) as [x|] eqn:N; [|discriminate].
    assert (L : link h x = None) by (eapply once31_link; [exact O|exact C|exact N]).
    set (w := run31 B (mkWorld31 r []) l) in *.
    cbn [run31 fold_left]. rewrite (step31_call w e hook i x C N).
    destruct (add31 B hook x (w31_refl w)) as [[r' x'] b] eqn:E. cbn [snd] in A. injection A as ->.
    assert (I : inv31 w) by (apply run31_inv, inv31_nil).
    destruct (step31_add hook w i x r' x' a I N E) as (_ & _ & _ & _ & NO & _). cbn [w31_refl fst snd]. auto.
  Qed.

  (* spoilt contexts *)
  Definition tail31 (w w' : world31 J Sch) : Prop :=
    forall i x, nth_error (w31_ctx w) i = Some x -> exists x' more, nth_error (w31_ctx w') i = Some x' /\
      oc_method (x31_oc x') = oc_method (x31_oc x) /\ oc_req (x31_oc x') = oc_req (x31_oc x) ++ more /\
      exists new, op_params (oc_op (x31_oc x')) = op_params (oc_op (x31_oc x)) ++ new.

  Lemma own_params (o : op31 Sch) : op_params (own31 o) = op_params o.
  Proof. unfold own31. destruct (op_responses o); reflexivity. Qed.

  Lemma add31_oc hook x r r' x' a : add31 B hook x r = (r', x', a) ->
    exists c' o' a0 o2, setup_oc31 B (r31_comps r) (x31_oc x) = (c', o', a0) /\ (a = AOk -> a0 = AOk) /\
      x31_oc x' = set_op (x31_oc x) o2 /\ op_params o2 = op_params o'.
  Proof.
    unfold add31. intros H.
    destruct (if hook then reflector_webhook31 B r (x31_oc x) else reflector_add31 B r (x31_oc x)) as [[r1 oc1] a1] eqn:E.
    assert (exists c o y, setup_oc31 B (r31_comps r) (x31_oc x) = (c, o, y) /\ (a1 = AOk -> y = AOk) /\
      oc1 = set_op (x31_oc x) o) as (c & o & y & SU & AK & ->).
    { unfold reflector_webhook31, reflector_add31 in E.
      destruct (setup_oc31 B (r31_comps r) (x31_oc x)) as [[c o] y] eqn:SU. exists c, o, y. split; [reflexivity|].
      destruct y, hook; try destruct (add_webhook31 _ _ _ _) as [p e]; try destruct (add_operation31 _ _ _ _) as [p e];
        injection E as _ <- <-; (split; [try reflexivity; try discriminate|reflexivity]). }
    exists c, o, y, (match a1 with AOk => own31 o | _ => o end). split; [exact SU|].
    destruct a1; injection H as _ <- <-; (split; [exact AK || discriminate|]).
    - split; [destruct hook; reflexivity|apply own_params].
    - split; reflexivity.
    - split; reflexivity.
  Qed.

  Lemma step31_tail w e : tail31 w (step31 B w e).
  Proof.
    assert (R0 : forall x : ctx31 J Sch, exists x' more, Some x = Some x' /\
      oc_method (x31_oc x') = oc_method (x31_oc x) /\ oc_req (x31_oc x') = oc_req (x31_oc x) ++ more /\
      exists new, op_params (oc_op (x31_oc x')) = op_params (oc_op (x31_oc x)) ++ new).
    { intros x. exists x, []. rewrite app_nil_r. repeat (split; [reflexivity|]). exists []. rewrite app_nil_r. reflexivity. }
    intros j y N. destruct (calls e) as [[hook i]|] eqn:C.
    - destruct (nth_error (w31_ctx w) i) as [x|] eqn:NI; [|rewrite (step31_nocall w e hook i C NI), N; apply R0].
      rewrite (step31_call w e hook i x C NI). destruct (add31 B hook x (w31_refl w)) as [[r' x'] a] eqn:A. cbn [w31_ctx fst snd].
      destruct (Nat.eq_dec j i) as [->|NE]; [|rewrite nth_replace_other by exact NE; rewrite N; apply R0].
      rewrite (nth_replace_same _ _ _ _ NI). rewrite NI in N. injection N as <-.
      apply add31_oc in A. destruct A as (c' & o' & a0 & o2 & SU & _ & O & P). apply setup_oc_wide in SU; [|reflexivity].
      exists x', []. split; [reflexivity|]. rewrite O, app_nil_r. split; [reflexivity|]. split; [reflexivity|].
      cbn [set_op oc_op]. rewrite P. apply SU.
    - destruct e as [me pa|i req resp|i a|i|i]; try discriminate; cbn [step31].
      + destruct (new_context31 _ _ _) as [r' [oc|]]; cbn [w31_ctx]; [|rewrite N; apply R0].
        rewrite nth_error_app1; [rewrite N; apply R0|]. apply nth_error_Some. congruence.
      + destruct (nth_error (w31_ctx w) i) as [x|] eqn:NI; [|rewrite N; apply R0]. cbn [w31_ctx].
        destruct (Nat.eq_dec j i) as [->|NE]; [|rewrite nth_replace_other by exact NE; rewrite N; apply R0].
        rewrite (nth_replace_same _ _ _ _ NI). rewrite NI in N. injection N as <-.
        eexists _, req. split; [reflexivity|]. split; [reflexivity|]. split; [reflexivity|]. exists []. rewrite app_nil_r. reflexivity.
      + destruct (nth_error (w31_ctx w) i) as [x|] eqn:NI; [|rewrite N; apply R0]. cbn [w31_ctx].
        destruct (Nat.eq_dec j i) as [->|NE]; [|rewrite nth_replace_other by exact NE; rewrite N; apply R0].
        rewrite (nth_replace_same _ _ _ _ NI). rewrite NI in N. injection N as <-.
        eexists _, []. split; [reflexivity|]. rewrite app_nil_r. split; [reflexivity|]. split; [reflexivity|].
        exists []. rewrite app_nil_r. reflexivity.
  Qed.

  Lemma tail31_trans a b c : tail31 a b -> tail31 b c -> tail31 a c.
  Proof.
    intros H K i x N. destruct (H i x N) as (y & m1 & N1 & E1 & F1 & (n1 & P1)).
    destruct (K i y N1) as (z & m2 & N2 & E2 & F2 & (n2 & P2)). exists z, (m1 ++ m2). split; [exact N2|].
    split; [congruence|]. split; [rewrite F2, F1, app_assoc; reflexivity|].
    exists (n1 ++ n2). rewrite P2, P1, app_assoc. reflexivity.
  Qed.

  Lemma run31_tail l : forall w, tail31 w (run31 B w l).
  Proof.
    induction l as [|e l IH]; intros w.
    - intros i x N. exists x, []. rewrite app_nil_r. split; [exact N|]. repeat (split; [reflexivity|]).
      exists []. rewrite app_nil_r. reflexivity.
    - cbn [run31 fold_left]. eapply tail31_trans; [apply step31_tail|apply IH].
  Qed.

  Lemma spoilt31 w e hook i l hook2 : call31 e hook i -> ctx_params31 (step31 B w e) i <> ctx_params31 w i ->
    outcome31 B hook2 (run31 B (step31 B w e) l) i <> Some AOk.
  Proof.
    intros C NE O. apply calls_call31 in C. unfold ctx_params31 in NE. pose proof (run31_tail l (step31 B w e)) as T.
    set (w2 := run31 B (step31 B w e) l) in *. unfold outcome31 in O.
    destruct (nth_error (w31_ctx w) i) as [x|] eqn:N; [|rewrite (step31_nocall w e hook i C N), N in NE; congruence].
    rewrite (step31_call w e hook i x C N) in NE, T.
    destruct (add31 B hook x (w31_refl w)) as [[r' x'] a] eqn:A. cbn [w31_ctx fst snd] in NE, T.
    rewrite (nth_replace_same x' x _ _ N) in NE.
    destruct (T i x' (nth_replace_same x' x _ _ N)) as (z & more & NZ & EM & ER & (new & EP)). rewrite NZ in O.
    destruct (add31 B hook2 z (w31_refl w2)) as [[r2 z'] b] eqn:A2. cbn [snd] in O. injection O as ->.
    apply add31_oc in A. destruct A as (c' & o' & a0 & o1 & SU & _ & OX & P0).
    apply add31_oc in A2. destruct A2 as (c2 & o2 & a2 & o3 & SU2 & AK & OZ & _). rewrite (AK eq_refl) in SU2.
    apply setup_oc_request in SU. destruct SU as ([cb ob] & rr & E & P1 & _).
    apply setup_oc_request in SU2. destruct SU2 as (b2 & rr2 & E2 & _ & _ & _ & _ & _ & K).
    rewrite (K eq_refl) in E2. rewrite OX in EM, ER, EP, NE. cbn [set_op oc_method oc_req oc_op] in EM, ER, EP, NE.
    rewrite EM, ER in E2. revert E2. eapply spoilt; [exact E|cbn [snd] in *; congruence|].
    cbn [snd] in *. rewrite EP, P0, <- P1. intros y I. apply in_app_iff. auto.
  Qed.
End Proofs.
