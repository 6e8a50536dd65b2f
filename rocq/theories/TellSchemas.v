(* The meaning of parts of what ToJSONSchema returns. *)
From Coq Require Import Permutation.
From Verif Require Import Str SMap Json SchemaModel SchemaSpec SchemaProofs SchemaRefs SchemaRefs2.

(* ---------- 3.0 ---------- *)

Lemma nullable_from_type t : exp_type t -> is_true (snd (from_type t)) = true -> fst (from_type t) <> None.
Proof.
  destruct t as [|t|ts]; cbn [exp_type from_type].
  - discriminate.
  - intros N. unfold check_nullable. destruct (String.eqb_spec t "null"); [contradiction|discriminate].
  - intros (t & N & I & _) _.
    assert (X : forall ts acc, In t ts \/ fst acc <> None -> fst (fold_left (fun acc t => check_nullable t acc) ts acc) <> None).
    { clear I ts. induction ts as [|u ts IH]; intros acc H; cbn [fold_left]; [destruct H as [[]|H]; exact H|]. apply IH.
      unfold check_nullable. destruct (String.eqb_spec u "null") as [->|NU]; cbn [fst].
      - destruct H as [[H|H]|H]; auto.
      - right. discriminate. }
    apply X. auto.
Qed.

Lemma from_typed s : expressible s -> forall o, from_js s = Some o -> nullable_typed o.
Proof.
  assert (T0 : nullable_typed (sch0 oa0)).
  { unfold sch0. constructor; [discriminate|intros; discriminate|intros ? []|intros ? []|intros ? []|intros; discriminate|intros ? ? []|intros; discriminate]. }
  induction s as [|b|a r nt al on an it tu pr ad ot Hnt Hal Hon Han Hit _ Hpr Had _] using jsob_ind'; intros X o H.
  - discriminate.
  - injection H as <-. destruct b; [exact T0|]. constructor; [discriminate| |intros ? []|intros ? []|intros ? []|intros; discriminate|intros ? ? []|intros; discriminate].
    intros s E. injection E as <-. exact T0.
  - destruct r as [r|].
    + cbn [from_js] in H. injection H as <-. destruct (is_true (ja_deprecated a)); [|constructor].
      unfold with_allof_deprecated. constructor; [discriminate|intros; discriminate| |intros ? []|intros ? []|intros; discriminate|intros ? ? []|intros; discriminate].
      intros s [<-|[<-|[]]]; [|constructor]. constructor; [discriminate|intros; discriminate|intros ? []|intros ? []|intros ? []|intros; discriminate|intros ? ? []|intros; discriminate].
    + inversion X as [| |? ? ? ? ? ? ? ? EA X1 X2 X3 X4 X5 X6 X7]; subst. rewrite from_js_obj in H.
      destruct (opt_opt from_js nt) as [nt'|] eqn:E1; [|discriminate].
      destruct (all_opt from_js on) as [on'|] eqn:E2; [|discriminate].
      destruct (all_opt from_js an) as [an'|] eqn:E3; [|discriminate].
      destruct (all_opt from_js al) as [al'|] eqn:E4; [|discriminate].
      destruct (from_addl ad) as [ad'|] eqn:E5; [|discriminate].
      destruct (opt_opt from_js it) as [it'|] eqn:E6; [|discriminate].
      destruct (all_props from_js pr) as [pr'|] eqn:E7; [|discriminate].
      injection H as <-. rewrite Forall_forall in Hal, Hon, Han, Hpr.
      apply all_opt_Some in E2, E3, E4. apply all_props_Some in E7.
      assert (L : forall l l', Forall2 (fun x y => from_js x = Some y) l l' -> (forall x, In x l -> expressible x) ->
                (forall x, In x l -> expressible x -> forall o, from_js x = Some o -> nullable_typed o) -> forall y, In y l' -> nullable_typed y).
      { clear. induction 1 as [|x y l l' F _ IH]; intros E P z I; [destruct I|]. destruct I as [<-|I].
        - apply (P x); simpl; auto. apply E. simpl. auto.
        - apply IH; auto; intros; [apply E|eapply P]; simpl; eauto. }
      constructor.
      * destruct EA as (ET & _). pose proof (nullable_from_type _ ET) as N. unfold from_attrs. destruct (from_type (ja_type a)). exact N.
      * intros s E. apply opt_opt_Some in E1 as [[-> ->]|(x & y & -> & -> & F)]; [discriminate|]. injection E as <-. eapply Hnt; eauto.
      * eapply L; eauto.
      * eapply L; eauto.
      * eapply L; eauto.
      * intros s E. apply opt_opt_Some in E6 as [[-> ->]|(x & y & -> & -> & F)]; [discriminate|]. injection E as <-. eapply Hit; eauto.
      * clear - E7 Hpr X6. induction E7 as [|x y l l' [E F] _ IH]; intros k s I; [destruct I|]. destruct I as [->|I].
        -- destruct x as [n x]. cbn [snd] in F. apply (Hpr (n, x)); simpl; auto. apply (X6 n). simpl. auto.
        -- eapply IH; eauto; intros; [eapply Hpr|eapply X6]; simpl; eauto.
      * intros s E. subst ad'. destruct ad as [[|b|]|]; cbn [from_addl] in E5; try discriminate.
        destruct (from_js _) as [y|] eqn:F; [|discriminate]. injection E5 as ->. eapply Had; eauto.
Qed.

(* References of the conversion occur in the JSON schema. *)
Lemma from_mentions n s : forall o, from_js s = Some o -> In n (orefs o) -> jmentions n s.
Proof.
  induction s as [|b|a r nt al on an it tu pr ad ot Hnt Hal Hon Han Hit _ Hpr Had _] using jsob_ind'; intros o H I.
  - discriminate.
  - injection H as <-. destruct b; destruct I.
  - destruct r as [r|].
    + cbn [from_js] in H. injection H as <-. assert (X : In n (ref_names r)).
      { destruct (is_true (ja_deprecated a)); [|exact I]. cbn in I. rewrite !app_nil_r in I. exact I. }
      apply ref_names_In in X. subst r. apply jm_here.
    + rewrite from_js_obj in H.
      destruct (opt_opt from_js nt) as [nt'|] eqn:E1; [|discriminate].
      destruct (all_opt from_js on) as [on'|] eqn:E2; [|discriminate].
      destruct (all_opt from_js an) as [an'|] eqn:E3; [|discriminate].
      destruct (all_opt from_js al) as [al'|] eqn:E4; [|discriminate].
      destruct (from_addl ad) as [ad'|] eqn:E5; [|discriminate].
      destruct (opt_opt from_js it) as [it'|] eqn:E6; [|discriminate].
      destruct (all_props from_js pr) as [pr'|] eqn:E7; [|discriminate].
      injection H as <-. rewrite Forall_forall in Hal, Hon, Han, Hpr.
      apply all_opt_Some in E2, E3, E4. apply all_props_Some in E7.
      assert (L : forall l l', Forall2 (fun x y => from_js x = Some y) l l' -> In n (flat_map orefs l') ->
                exists x y, In x l /\ from_js x = Some y /\ In n (orefs y)).
      { clear. induction 1 as [|x y l l' F _ IH]; intros I; [destruct I|]. cbn [flat_map] in I. apply in_app_or in I as [I|I].
        - exists x, y. simpl. auto.
        - destruct (IH I) as (u & v & A & B). exists u, v. simpl. auto. }
      cbn [orefs] in I. apply in_app_or in I as [I|I]; [|apply in_app_or in I as [I|I]; [|apply in_app_or in I as [I|I];
        [|apply in_app_or in I as [I|I]; [|apply in_app_or in I as [I|I]; [|apply in_app_or in I as [I|I]]]]]].
      * apply opt_opt_Some in E1 as [[-> ->]|(x & y & -> & -> & F)]; [destruct I|].
        eapply jm_child; [apply jc_not|]. eapply Hnt; eauto.
      * destruct (L _ _ E4 I) as (x & y & A & F & N). eapply jm_child; [apply jc_all; exact A|]. eapply Hal; eauto.
      * destruct (L _ _ E2 I) as (x & y & A & F & N). eapply jm_child; [apply jc_one; exact A|]. eapply Hon; eauto.
      * destruct (L _ _ E3 I) as (x & y & A & F & N). eapply jm_child; [apply jc_any; exact A|]. eapply Han; eauto.
      * apply opt_opt_Some in E6 as [[-> ->]|(x & y & -> & -> & F)]; [destruct I|].
        eapply jm_child; [apply jc_items|]. eapply Hit; eauto.
      * assert (Q : exists k x y, In (k, x) pr /\ from_js x = Some y /\ In n (orefs y)).
        { clear - E7 I. induction E7 as [|x y l l' [E F] _ IH]; [destruct I|]. unfold map_names in I. cbn [flat_map] in I.
          apply in_app_or in I as [I|I].
          - exists (fst x), (snd x), (snd y). split; [left; destruct x; reflexivity|auto].
          - destruct (IH I) as (k & u & v & A & B). exists k, u, v. simpl. auto. }
        destruct Q as (k & x & y & A & F & N). eapply jm_child; [eapply jc_prop; exact A|]. apply (Hpr (k, x) A y F N).
      * destruct ad as [s|]; [|injection E5 as <-; destruct I].
        destruct s as [|b|]; cbn [from_addl] in E5; [discriminate|injection E5 as <-; destruct I|].
        destruct (from_js _) as [y|] eqn:F; [|discriminate]. injection E5 as <-. eapply jm_child; [apply jc_addl|]. eapply Had; eauto.
Qed.

(* A set of names whose definitions are attached and that is closed under
   references. *)
Definition attached30 (cs : comps30) (defs : smap jsob) (S : string -> Prop) : Prop :=
  (forall d, S d -> get d defs = Some (body30 cs d)) /\ (forall d n, S d -> In n (G30 cs d) -> S n).

Lemma toj30_set o cs js defs : to_json_schema30 o cs = Ok (js, defs) ->
  exists S, attached30 cs defs S /\
    ((js = conv o /\ (forall d, In d (orefs o) -> S d) /\
      (forall n, o = ORef (local n) -> exists d, reach (G30 cs) [n] d /\ In n (G30 cs d))) \/
     (exists n, o = ORef (local n) /\ js = body30 cs n /\ forall d, In d (G30 cs n) -> S d)).
Proof.
  intros H. apply toj30_result in H as (N & D & R & [(nm & -> & Hin & -> & Hd)|(Q & -> & Hd)]).
  - exists (fun d => In d N /\ d <> nm). split; [split|].
    + intros x [I1 I2]. rewrite Hd. apply String.eqb_neq in I2. rewrite I2, (proj2 (mem_In x N) I1). reflexivity.
    + intros x y [I1 I2] J. apply R in I1. split.
      * apply R. eapply rc_via; eauto.
      * intros ->. cbn [orefs] in I1. rewrite ref_names_local in I1. apply (Hin x I1 J).
    + right. exists nm. split; [reflexivity|]. split; [reflexivity|]. intros d I.
      assert (Rn : reach (G30 cs) [nm] nm) by (constructor; simpl; auto). split.
      * apply R. cbn [orefs]. rewrite ref_names_local. eapply rc_via; eauto.
      * intros ->. apply (Hin nm Rn I).
  - exists (fun d => In d N). split; [split|].
    + intros d I. rewrite Hd, (proj2 (mem_In d N) I). reflexivity.
    + intros d n I J. apply R. apply R in I. eapply rc_via; eauto.
    + left. split; [reflexivity|]. split.
      * intros d I. apply R. constructor. exact I.
      * intros n E. destruct (Q n E) as (d & A & B). exists d. split; [|exact B]. subst o. cbn [orefs] in A. rewrite ref_names_local in A. exact A.
Qed.

Lemma attached_says30 O cs defs S o : (forall d s, oenv cs d = Some s -> nullable_typed s) -> attached30 cs defs S ->
  nullable_typed o -> (forall d, In d (orefs o) -> S d) ->
  forall v b, osays O (oenv cs) o v b -> jsays O (fun n => get n defs) (conv o) v b.
Proof.
  intros T [A C] To I v b [n Hn]. exists n. rewrite conv_meaning by exact To. revert Hn. apply omeaning_mono_in.
  - intros d w Id. eapply (agree_follow O cs defs S); eauto.
  - intros r w P. apply (follow_ext_foreign O cs defs n n r w P).
Qed.

(* ---------- 3.1 ---------- *)

Lemma jmeaning_mono_in O rs rs' s :
  (forall n v, In n (jrefs s) -> ole (rs (local n) v) (rs' (local n) v)) ->
  (forall r v, has_prefix components_schemas r = false -> rs r v = rs' r v) ->
  forall v, ole (jmeaning O rs s v) (jmeaning O rs' s v).
Proof.
  intros HR HE. revert HR.
  induction s as [|b|a r nt al on an it tu pr ad ot Hnt Hal Hon Han Hit _ Hpr Had _] using jsob_ind'; intros HR v.
  - apply ole_refl.
  - apply ole_refl.
  - destruct r as [r|].
    + cbn [jmeaning]. destruct (has_prefix components_schemas r) eqn:P.
      * rewrite (local_of r P). apply HR. cbn [jrefs]. apply ref_names_In. apply local_of. exact P.
      * rewrite HE by exact P. apply ole_refl.
    + cbn [jmeaning]. destruct (negb _); [apply ole_refl|]. rewrite Forall_forall in Hal, Hon, Han, Hpr. cbn [jrefs] in HR.
      assert (FL : forall l (x : jsob) n, In x l -> In n (jrefs x) -> In n (flat_map jrefs l)) by (intros l x n A B; apply in_flat_map; eauto).
      repeat apply vand_mono.
      * apply ole_refl.
      * apply vopt_mono. intros s E. apply vnot_mono. apply Hnt; auto. intros n w I. apply HR. subst. apply in_or_app. auto.
      * apply vall_mono. intros s E. apply Hal; auto. intros n w I. apply HR. do 1 (apply in_or_app; right). apply in_or_app. eauto.
      * apply vone_mono, vcount_mono. intros s E. apply Hon; auto. intros n w I. apply HR. do 2 (apply in_or_app; right). apply in_or_app. eauto.
      * apply vany_mono, vcount_mono. intros s E. apply Han; auto. intros n w I. apply HR. do 3 (apply in_or_app; right). apply in_or_app. eauto.
      * apply vopt_mono. intros s E. apply vall_mono. intros x _. apply Hit; auto. intros n w I. apply HR. subst.
        do 4 (apply in_or_app; right). apply in_or_app. auto.
      * apply vprops_mono. intros k s E. apply (Hpr (k, s) E). intros n w I. apply HR. do 6 (apply in_or_app; right). apply in_or_app.
        left. apply in_flat_map. exists (k, s). auto.
      * apply vopt_mono. intros s E. apply vaddl_mono. intros x. apply Had; auto. intros n w I. apply HR. subst.
        do 7 (apply in_or_app; right). exact I.
Qed.

Section V31.
  Variable nil_map : option jsob.
  Variable cs : comps31.
  Hypothesis nil_ok : forall s, nil_map = Some s -> jrefs s = [].
  Notation comp := (comp31 nil_map cs).

  Definition attached31 (defs : smap jsob) (S : string -> Prop) : Prop :=
    (forall d, S d -> get d defs = comp d) /\ (forall d t n, S d -> comp d = Some t -> In n (jrefs t) -> S n).

  Lemma toj31_set s js defs : to_json_schema31 nil_map s cs = Ok (js, defs) ->
    exists S, attached31 defs S /\
      ((js = ens s /\ (forall d, In d (jrefs s) -> S d) /\
        (forall n, root31 s = Some (local n) -> exists d, reach (G31 nil_map cs) [n] d /\ In n (G31 nil_map cs d))) \/
       (exists n, root31 s = Some (local n) /\ comp n = Some js /\ forall d, In d (jrefs js) -> S d)).
  Proof.
    intros H. apply (toj31_result nil_map cs nil_ok) in H as (N & D & R & Gd & [(nm & Rt & Hin & -> & Hd)|(Q & -> & Hd)]).
    - assert (E : jrefs s = [nm]).
      { destruct s as [| |a [r|] nt al on an it tu pr ad ot]; cbn [root31] in Rt; try discriminate. injection Rt as ->. cbn [jrefs]. apply ref_names_local. }
      rewrite E in *. assert (Rn : reach (G31 nil_map cs) [nm] nm) by (constructor; simpl; auto).
      exists (fun d => In d N /\ d <> nm). split; [split|].
      + intros x [I1 I2]. rewrite Hd. apply String.eqb_neq in I2. rewrite I2, (proj2 (mem_In x N) I1). symmetry. apply Gd. apply R. exact I1.
      + intros x t y [I1 I2] C J. apply R in I1. assert (J' : In y (G31 nil_map cs x)) by (unfold G31; rewrite C; exact J). split.
        * apply R. eapply rc_via; eauto.
        * intros ->. apply (Hin x I1 J').
      + right. exists nm. split; [exact Rt|]. pose proof (Gd nm Rn) as C. split; [exact C|]. intros d I.
        assert (I' : In d (G31 nil_map cs nm)) by (unfold G31; rewrite C; exact I). split.
        * apply R. eapply rc_via; eauto.
        * intros ->. apply (Hin nm Rn I').
    - exists (fun d => In d N). split; [split|].
      + intros d I. rewrite Hd, (proj2 (mem_In d N) I). symmetry. apply Gd, R. exact I.
      + intros d t n I C J. apply R. apply R in I. eapply rc_via; [exact I|]. unfold G31. rewrite C. exact J.
      + left. split; [reflexivity|]. split.
        * intros d I. apply R. constructor. exact I.
        * intros n E. destruct (Q n E) as (d & A & B). exists d. split; [|exact B].
          destruct s as [| |a [r|] nt al on an it tu pr ad ot]; cbn [root31] in E; try discriminate. injection E as ->.
          cbn [jrefs] in A. rewrite ref_names_local in A. exact A.
  Qed.

  (* [E]: the definitions as far as they are there. *)
  Lemma attached_follow31 O (E : string -> option jsob) defs S : (forall d t, E d = Some t -> comp d = Some t) -> attached31 defs S ->
    forall n d v, S d -> ole (follow (jmeaning O) O E n (local d) v) (follow (jmeaning O) O (fun n => get n defs) n (local d) v).
  Proof.
    intros X [A C]. induction n as [|n IH]; intros d v Sd.
    - cbn [follow]; change schemas_at with components_schemas. rewrite local_prefix. intros a H. discriminate.
    - cbn [follow]; change schemas_at with components_schemas. rewrite local_prefix, local_trim. destruct (E d) as [t|] eqn:Ed; [|intros a H; discriminate].
      pose proof (X _ _ Ed) as Cd. rewrite (A d Sd), Cd. apply jmeaning_mono_in.
      + intros x w I. apply IH. eapply C; eauto.
      + intros r w P. destruct n; cbn [follow]; change schemas_at with components_schemas; rewrite P; reflexivity.
  Qed.

  Lemma attached_says31 O (E : string -> option jsob) defs S s : (forall d t, E d = Some t -> comp d = Some t) -> attached31 defs S ->
    (forall d, In d (jrefs s) -> S d) -> forall v b, jsays O E s v b -> jsays O (fun n => get n defs) s v b.
  Proof.
    intros X A I v b [n Hn]. exists n. revert Hn. apply jmeaning_mono_in.
    - intros d w Id. eapply attached_follow31; eauto.
    - intros r w P. destruct n; cbn [follow]; change schemas_at with components_schemas; rewrite P; reflexivity.
  Qed.

  Lemma toj31_says O (E : string -> option jsob) s js defs : (forall d t, E d = Some t -> comp d = Some t) ->
    to_json_schema31 nil_map s cs = Ok (js, defs) ->
    forall v b, jsays O E s v b -> jsays O (fun n => get n defs) js v b.
  Proof.
    intros X H v b S. apply toj31_set in H as (P & A & [(-> & I & _)|(n & Rt & C & I)]).
    - destruct s as [|x|a r nt al on an it tu pr ad ot]; cbn [ens].
      + destruct S as [n S]. discriminate.
      + eapply attached_says31; eauto.
      + eapply attached_says31; eauto.
    - destruct s as [| |a [r|] nt al on an it tu pr ad ot]; cbn [root31] in Rt; try discriminate. injection Rt as ->.
      destruct S as [[|k] S]; cbn [jmeaning follow] in S; rewrite local_prefix in S; [discriminate|].
      rewrite local_trim in S. destruct (E n) as [t|] eqn:En; [|discriminate]. pose proof (X _ _ En) as C'. rewrite C in C'. injection C' as <-.
      eapply attached_says31; eauto. exists k. exact S.
  Qed.
End V31.
