(* What the conversions of the walkers keep, for both packages. *)
From Coq Require Import Permutation.
From Verif Require Import Str SMap Json SchemaModel SchemaSpec SchemaProofs SchemaRefs SchemaRefs2 Types ReflectModel ReflectSpec ReadModel
  BodySpec MeanSpec MeanProps SchemaProps WalkModel WalkSpec TellModel TellSpec TellSchemas.

Lemma js_of_schema s defs : given_schema (js_of s defs) = s.
Proof. destruct s, defs; reflexivity. Qed.
Lemma js_of_defs s defs n : given_defs (js_of s defs) n = get n defs.
Proof. destruct s, defs; reflexivity. Qed.

Lemma jmeaning_ext O rs rs' s v : (forall r v, rs r v = rs' r v) -> jmeaning O rs s v = jmeaning O rs' s v.
Proof. intros H. apply ole_anti; apply jmeaning_mono; intros r w; rewrite H; apply ole_refl. Qed.

Lemma jsays_env O (e e' : string -> option jsob) s v b : (forall n, e n = e' n) -> jsays O e s v b -> jsays O e' s v b.
Proof.
  intros E [k H]. exists k. rewrite <- H. revert s v H.
  assert (X : forall k r v, follow (jmeaning O) O e' k r v = follow (jmeaning O) O e k r v).
  { induction k0 as [|k0 IH]; intros r v; cbn [follow]; change schemas_at with components_schemas; [reflexivity|]. destruct (has_prefix components_schemas r); [|reflexivity].
    rewrite <- E. destruct (e _) as [t|]; [|reflexivity].
    apply jmeaning_ext. intros. apply IH. }
  intros s v _. apply jmeaning_ext. intros. apply X.
Qed.

(* A field of a form and the field of the given schema. *)
Definition field_kept (env : string -> option jsob) (defs : smap jsob) (f f' : string * jsob) : Prop :=
  fst f = fst f' /\ forall O v b, jsays O env (snd f) v b -> jsays O (fun n => get n defs) (snd f') v b.

Section V30.
  Context {J : Type}.
  Variable schema : J -> jsob.
  Variable D : string -> option J.
  Variable ens : bool.
  Notation B := (backend30 schema).
  Notation ok := (fun j => expressible (schema j)).
  Notation represents := (represents B ok D).
  Notation env := (env schema D).

  Lemma comps_env (c : comps osor) n : oenv (if spec_has ens c then Some c else None) n = get n c.
  Proof. unfold spec_has. destruct ens; [reflexivity|]. destruct c; reflexivity. Qed.

  Lemma conv30 j s : b_conv B j = Ret s -> from_js (schema j) = Some s.
  Proof. cbn [backend30 b_conv]. destruct (from_js (schema j)); intros H; [injection H as ->; reflexivity|discriminate]. Qed.

  Lemma rep_converted c : represents c -> converted (env c) (fun n => get n c).
  Proof.
    intros R n. unfold TellSpec.env. destruct (get n c) as [s|] eqn:G; [|reflexivity].
    destruct (R n s G) as (j & -> & X & C). cbn [option_map]. split; [exact X|]. apply conv30. exact C.
  Qed.

  Lemma rep_typed c : represents c -> forall d s, oenv (if spec_has ens c then Some c else None) d = Some s -> nullable_typed s.
  Proof.
    intros R d s H. rewrite comps_env in H. destruct (R d s H) as (j & _ & X & C). eapply from_typed; [exact X|]. apply conv30. exact C.
  Qed.

  Lemma conv_said O c j s : represents c -> expressible (schema j) -> b_conv B j = Ret s ->
    forall v b, jsays O (env c) (schema j) v b -> osays O (oenv (if spec_has ens c then Some c else None)) s v b.
  Proof.
    intros R X C v b H. destruct (C29_same_values O (env c) (fun n => get n c) (schema j) (rep_converted c R) X) as (o & F & S).
    apply conv30 in C. rewrite C in F. injection F as <-. apply S in H. destruct H as [k H]. exists k. rewrite <- H.
    apply omeaning_ext. intros r w. clear. revert r w. induction k as [|k IH]; intros r w; cbn [follow]; change schemas_at with components_schemas; [reflexivity|].
    rewrite comps_env. destruct (has_prefix components_schemas r); [|reflexivity]. destruct (get _ c); [|reflexivity].
    apply omeaning_ext. exact IH.
  Qed.

  Lemma told30 c j s x : represents c -> ok j -> b_conv B j = Ret s -> to_json30 ens c (Some s) = Ret x -> tells (env c) (schema j) x.
  Proof.
    intros R X C T O v b _ H. unfold to_json30 in T.
    destruct (to_json_schema30 s (if spec_has ens c then Some c else None)) as [[t defs]| |] eqn:E; [|discriminate..].
    injection T as <-. rewrite js_of_schema. eapply jsays_env; [intros n; symmetry; apply js_of_defs|].
    eapply C31_same_values; [eapply from_typed; [exact X|apply conv30; exact C]|apply rep_typed; exact R|exact E|].
    eapply conv_said; [exact R|exact X|exact C|exact H].
  Qed.

  Lemma unnull_typed s : nullable_typed s -> nullable_typed (unnull30 s).
  Proof. intros T. destruct s; [exact T..|]. inversion T; subst. constructor; auto. discriminate. Qed.

  Lemma unnull_told30 c j s x : represents c -> ok j -> b_conv B j = Ret s -> to_json30 ens c (Some (b_unnull B s)) = Ret x ->
    tells_of non_null (env c) (schema j) x.
  Proof.
    intros R X C T O v b N H. unfold to_json30 in T. cbn [backend30 b_unnull] in T.
    destruct (to_json_schema30 (unnull30 s) (if spec_has ens c then Some c else None)) as [[t defs]| |] eqn:E; [|discriminate..].
    injection T as <-. rewrite js_of_schema. eapply jsays_env; [intros n; symmetry; apply js_of_defs|].
    eapply C31_same_values; [apply unnull_typed; eapply from_typed; [exact X|apply conv30; exact C]|apply rep_typed; exact R|exact E|].
    apply unnull_values; [exact N|]. eapply conv_said; [exact R|exact X|exact C|exact H].
  Qed.

  Lemma reach_mentions c n : represents c -> forall t, env c n = Some t -> forall d, 
    reach (G30 (if spec_has ens c then Some c else None)) [n] d -> d = n \/ reachable jmentions (env c) t d.
  Proof.
    intros R t E d H. remember [n] as l eqn:EL. induction H as [x I|d x H IH I]; subst.
    - destruct I as [<-|[]]. auto.
    - right. unfold G30, comp30 in I. rewrite comps_env in I.
      destruct (get d c) as [s|] eqn:G; [|destruct I]. destruct (R d s G) as (j & Dj & X & C).
      assert (Ed : env c d = Some (schema j)) by (unfold TellSpec.env; rewrite G, Dj; reflexivity).
      assert (M : jmentions x (schema j)) by (eapply from_mentions; [apply conv30; exact C|exact I]).
      destruct IH as [->|Q]; [|eapply re_via; eauto]. rewrite E in Ed. injection Ed as ->. apply re_here. exact M.
  Qed.

  (* The conversion of a structure and back. *)
  Lemma form_kept c a nt al on an it tu pr ad ot s S defs : represents c ->
    expressible (JSObj a None nt al on an it tu pr ad ot) -> from_js (JSObj a None nt al on an it tu pr ad ot) = Some s ->
    attached30 (if spec_has ens c then Some c else None) defs S -> (forall d, In d (orefs s) -> S d) ->
    (exists b x1 x2 x3 x4 x5 x6 x7 x8 x9 x10, conv s = JSObj b x1 x2 x3 x4 x5 x6 x7 x8 x9 x10) /\
    js_required (conv s) = ja_required a /\ Forall2 (field_kept (env c) defs) pr (js_props (conv s)).
  Proof.
    intros R X H A I. inversion X as [| |? ? ? ? ? ? ? ? EA X1 X2 X3 X4 X5 X6 X7]; subst. rewrite from_js_obj in H.
    destruct (opt_opt from_js nt) as [nt'|]; [|discriminate].
    destruct (all_opt from_js on) as [on'|]; [|discriminate].
    destruct (all_opt from_js an) as [an'|]; [|discriminate].
    destruct (all_opt from_js al) as [al'|]; [|discriminate].
    destruct (from_addl ad) as [ad'|]; [|discriminate].
    destruct (opt_opt from_js it) as [it'|]; [|discriminate].
    destruct (all_props from_js pr) as [pr'|] eqn:E7; [|discriminate].
    injection H as <-. split; [|split].
    - cbn [conv]. do 11 eexists. reflexivity.
    - cbn [conv js_required]. unfold from_attrs. destruct (from_type (ja_type a)). reflexivity.
    - apply all_props_Some in E7.
      assert (I' : forall k o d, In (k, o) pr' -> In d (orefs o) -> S d).
      { intros k o d Ik Id. apply I. cbn [orefs]. rewrite !in_app_iff. do 5 right. left. unfold map_names. apply in_flat_map. exists (k, o). auto. }
      cbn [conv js_props]. clear I EA X. induction E7 as [|x y l l' [E F] _ IH]; cbn [map]; [apply Forall2_nil|]. apply Forall2_cons.
      + split; [exact E|]. intros O v b Hs. destruct x as [k x], y as [k' y]. cbn [fst snd] in *. subst k'.
        eapply attached_says30; [apply rep_typed; exact R|exact A|eapply from_typed; [|exact F]; apply (X6 k); simpl; auto| |].
        * intros d Id. apply (I' k y); simpl; auto.
        * destruct (C29_same_values O (env c) (fun n => get n c) x (rep_converted c R) (X6 k x (or_introl eq_refl))) as (o & F' & S').
          rewrite F in F'. injection F' as <-. apply S' in Hs. destruct Hs as [m Hs]. exists m. rewrite <- Hs.
          apply omeaning_ext. intros r w. clear. revert r w. induction m as [|m IH]; intros r w; cbn [follow]; change schemas_at with components_schemas; [reflexivity|].
          rewrite comps_env. destruct (has_prefix components_schemas r); [|reflexivity]. destruct (get _ c); [|reflexivity].
          apply omeaning_ext. exact IH.
      + apply IH; intros; [eapply X6|eapply I']; simpl; eauto.
  Qed.

  Lemma form_told30 c j s x t : represents c -> ok j -> b_conv B j = Ret s -> to_json30 ens c (Some s) = Ret x ->
    form_schema schema D c j t ->
    exists s' defs, x = JsObj s' defs /\ js_required s' = js_required t /\ Forall2 (field_kept (env c) defs) (js_props t) (js_props s').
  Proof.
    intros R X C T F. unfold to_json30 in T.
    destruct (to_json_schema30 s (if spec_has ens c then Some c else None)) as [[u defs]| |] eqn:E; [|discriminate..].
    injection T as <-. apply toj30_set in E as (S & A & E). pose proof (conv30 _ _ C) as C'.
    assert (K : forall a nt al on an it tu pr ad ot o, expressible (JSObj a None nt al on an it tu pr ad ot) ->
      from_js (JSObj a None nt al on an it tu pr ad ot) = Some o -> (forall d, In d (orefs o) -> S d) ->
      exists s' defs', js_of (conv o) defs = JsObj s' defs' /\ js_required s' = ja_required a /\
        Forall2 (field_kept (env c) defs') pr (js_props s')).
    { intros a nt al on an it tu pr ad ot o Xo Fo I. exists (conv o), defs.
      destruct (form_kept c _ _ _ _ _ _ _ _ _ _ _ _ _ R Xo Fo A I) as ((b & x1 & x2 & x3 & x4 & x5 & x6 & x7 & x8 & x9 & x10 & Eo) & K1 & K2).
      split; [rewrite Eo; reflexivity|]. auto. }
    destruct F as [a nt al on an it tu pr ad ot Ej|n b x1 x2 x3 x4 x5 x6 x7 x8 x9 a nt al on an it tu pr ad ot Ej ND En NR].
    - cbn beta in X. rewrite Ej in X, C'. destruct E as [(-> & I & _)|(n & -> & _)]; [eapply K; eauto|].
      exfalso. rewrite from_js_obj in C'.
      repeat match type of C' with match ?y with _ => _ end = _ => destruct y; [|discriminate] end. discriminate.
    - rewrite Ej in C'. cbn [from_js] in C'. injection C' as C'.
      replace (SchemaModel.is_true (ja_deprecated b)) with false in C'
        by (destruct (ja_deprecated b) as [[]|]; [congruence|reflexivity..]).
      subst s. destruct E as [(-> & _ & Q)|(n' & En' & -> & I)].
      + exfalso. destruct (Q n eq_refl) as (d & Rd & Id). apply NR.
        unfold G30, comp30 in Id. rewrite comps_env in Id. destruct (get d c) as [sd|] eqn:G; [|destruct Id].
        destruct (R d sd G) as (jd & Dj & Xd & Cd).
        assert (Ed : env c d = Some (schema jd)) by (unfold TellSpec.env; rewrite G, Dj; reflexivity).
        assert (M : jmentions n (schema jd)) by (eapply from_mentions; [apply conv30; exact Cd|exact Id]).
        destruct (reach_mentions c n R _ En d Rd) as [->|H]; [|eapply re_via; eauto].
        rewrite En in Ed. injection Ed as Ed. rewrite <- Ed in M. apply re_here. exact M.
      + assert (N : n = n') by (injection En' as En'; exact En').
        subst n'. unfold TellSpec.env in En. destruct (get n c) as [o|] eqn:G; [|discriminate].
        destruct (R n o G) as (jn & Dj & Xn & Cn). rewrite Dj in En. cbn [option_map] in En. injection En as En.
        apply conv30 in Cn. cbn beta in Xn. rewrite En in Xn, Cn.
        assert (BO : comp30 (if spec_has ens c then Some c else None) n = o) by (unfold comp30; rewrite comps_env, G; reflexivity).
        unfold body30. rewrite BO. eapply K; eauto. intros d Id. apply I. unfold G30. rewrite BO. exact Id.
  Qed.
End V30.

Section V31.
  Context {J Sch : Type}.
  Variable B : backend J Sch.
  Variable schema : J -> jsob.
  Variable D : string -> option J.
  Variable ens : bool.
  Variable decode : Sch -> option jsob.
  Variable nil_map : option jsob.
  Hypothesis nil_ok : forall s, nil_map = Some s -> jrefs s = [].
  Hypothesis un : forall s, b_unnull B s = s.
  Hypothesis dec : forall j s, b_conv B j = Ret s -> decode s = Some (schema j).
  Notation ok := (fun _ : J => True).
  Notation represents := (represents B ok D).
  Notation env := (env schema D).
  Notation cs c := (if spec_has ens c then Some (decoded decode c) else None).

  Lemma get_decoded (c : comps Sch) n : get n (decoded decode c) = option_map decode (get n c).
  Proof.
    unfold decoded. induction c as [|[k s] c IH]; [reflexivity|]. cbn [map get fst snd]. destruct (String.eqb n k); [reflexivity|exact IH].
  Qed.

  Lemma rep_comp c : represents c -> forall d t, env c d = Some t -> comp31 nil_map (cs c) d = Some t.
  Proof.
    intros R d t H. unfold TellSpec.env in H. destruct (get d c) as [s|] eqn:G; [|discriminate].
    destruct (R d s G) as (j & Dj & _ & C). rewrite Dj in H. injection H as <-.
    assert (Q : spec_has ens c = true) by (unfold spec_has; destruct ens; [reflexivity|]; destruct c; [discriminate|reflexivity]).
    rewrite Q. cbn [comp31]. rewrite get_decoded, G. cbn [option_map]. apply dec. exact C.
  Qed.

  Lemma told31 c j s x : represents c -> ok j -> b_conv B j = Ret s -> to_json31 decode nil_map ens c (Some s) = Ret x ->
    tells (env c) (schema j) x.
  Proof.
    intros R _ C T O v b _ H. unfold to_json31 in T. rewrite (dec _ _ C) in T.
    destruct (to_json_schema31 nil_map (schema j) (cs c)) as [[t defs]| |] eqn:E; [|discriminate..].
    assert (G : given_schema x = t /\ forall n, given_defs x n = get n defs).
    { injection T as <-. destruct (schema j); try (split; [apply js_of_schema|apply js_of_defs]); split; reflexivity. }
    destruct G as [-> G]. eapply jsays_env; [intros n; symmetry; apply G|].
    eapply toj31_says; [exact nil_ok| |exact E|exact H]. apply rep_comp. exact R.
  Qed.

  Lemma unnull_told31 c j s x : represents c -> ok j -> b_conv B j = Ret s -> to_json31 decode nil_map ens c (Some (b_unnull B s)) = Ret x ->
    tells (env c) (schema j) x.
  Proof. rewrite un. apply told31. Qed.

  (* Everything that is mentioned has a definition, up to nil maps. *)
  Lemma reach_mentions31 c n : represents c -> forall t, env c n = Some t -> forall d,
    reach (G31 nil_map (cs c)) [n] d -> d = n \/ reachable jmentions (env c) t d.
  Proof.
    intros R t E d H. remember [n] as l eqn:EL. induction H as [x I|d x H IH I]; subst.
    - destruct I as [<-|[]]. auto.
    - right. unfold G31 in I. destruct (comp31 nil_map (cs c) d) as [u|] eqn:Cd; [|destruct I].
      unfold comp31 in Cd. destruct (spec_has ens c); [|discriminate]. rewrite get_decoded in Cd.
      destruct (get d c) as [s|] eqn:G; cbn [option_map] in Cd; [|apply nil_ok in Cd; rewrite Cd in I; destruct I].
      destruct (R d s G) as (j & Dj & _ & C). rewrite (dec _ _ C) in Cd. injection Cd as <-.
      assert (Ed : env c d = Some (schema j)) by (unfold TellSpec.env; rewrite G, Dj; reflexivity).
      assert (M : jmentions x (schema j)) by (apply jrefs_mentions; exact I).
      destruct IH as [->|Q]; [|eapply re_via; eauto]. rewrite E in Ed. injection Ed as ->. apply re_here. exact M.
  Qed.

  Lemma form_told31 c j s x t : represents c -> ok j -> b_conv B j = Ret s -> to_json31 decode nil_map ens c (Some s) = Ret x ->
    form_schema schema D c j t ->
    exists s' defs, x = JsObj s' defs /\ js_required s' = js_required t /\ Forall2 (field_kept (env c) defs) (js_props t) (js_props s').
  Proof.
    intros R X C T F. unfold to_json31 in T. rewrite (dec _ _ C) in T.
    destruct (to_json_schema31 nil_map (schema j) (cs c)) as [[u defs]| |] eqn:E; [|discriminate..].
    apply (toj31_set nil_map (cs c) nil_ok) in E as (S & A & E).
    assert (K : forall a nt al on an it tu pr ad ot, (forall d, In d (jrefs (JSObj a None nt al on an it tu pr ad ot)) -> S d) ->
      Forall2 (field_kept (env c) defs) pr pr).
    { intros a nt al on an it tu pr ad ot I.
      assert (I' : forall k p d, In (k, p) pr -> In d (jrefs p) -> S d).
      { intros k p d Ik Id. apply I. cbn [jrefs]. rewrite !in_app_iff. do 6 right. left. apply in_flat_map. exists (k, p). auto. }
      clear I. induction pr as [|[k p] l IH]; [apply Forall2_nil|]. apply Forall2_cons.
      - split; [reflexivity|]. intros O v b Hs. cbn [snd] in *.
        eapply (attached_says31 nil_map (cs c) O (env c)); [apply rep_comp; exact R|exact A| |exact Hs].
        intros d Id. apply (I' k p); simpl; auto.
      - apply IH. intros; eapply I'; simpl; eauto. }
    destruct F as [a nt al on an it tu pr ad ot Ej|n b x1 x2 x3 x4 x5 x6 x7 x8 x9 a nt al on an it tu pr ad ot Ej ND En NR].
    - rewrite Ej in E, T. destruct E as [(-> & I & _)|(n & Rn & _)]; [|discriminate].
      injection T as <-. cbn [SchemaRefs2.ens js_of]. do 2 eexists. split; [reflexivity|]. split; [reflexivity|]. eapply K. exact I.
    - rewrite Ej in E, T. destruct E as [(-> & _ & Q)|(n' & En' & Cn & I)].
      + exfalso. destruct (Q n eq_refl) as (d & Rd & Id). apply NR.
        unfold G31 in Id. destruct (comp31 nil_map (cs c) d) as [u|] eqn:Cd; [|destruct Id].
        unfold comp31 in Cd. destruct (spec_has ens c) eqn:SH; [|discriminate]. rewrite get_decoded in Cd.
        destruct (get d c) as [sd|] eqn:G; cbn [option_map] in Cd; [|apply nil_ok in Cd; rewrite Cd in Id; destruct Id].
        destruct (R d sd G) as (jd & Dj & _ & Cd'). rewrite (dec _ _ Cd') in Cd. injection Cd as <-.
        assert (Ed : env c d = Some (schema jd)) by (unfold TellSpec.env; rewrite G, Dj; reflexivity).
        assert (M : jmentions n (schema jd)) by (apply jrefs_mentions; exact Id).
        destruct (reach_mentions31 c n R _ En d) as [->|H]; [rewrite SH; exact Rd| |eapply re_via; eauto].
        rewrite En in Ed. injection Ed as Ed. rewrite <- Ed in M. apply re_here. exact M.
      + assert (N : n = n') by (injection En' as En'; exact En').
        subst n'. rewrite (rep_comp c R n _ En) in Cn. injection Cn as <-.
        injection T as <-. cbn [js_of]. do 2 eexists. split; [reflexivity|]. split; [reflexivity|]. eapply K. exact I.
  Qed.
End V31.
