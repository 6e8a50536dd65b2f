From Coq Require Import Permutation.
From Verif Require Import Str SMap Json SchemaModel Types RegistryModel ReflectModel ReflectSpec ReflectProofs WalkModel WalkSpec.

(* ------------------------------------------------------------------ *)
(* Header names                                                         *)

Fixpoint occursb (c : ascii) (s : string) : bool :=
  match s with EmptyString => false | String d s => Ascii.eqb c d || occursb c s end.
Lemma occursb_ok c s : occursb c s = true <-> occurs c s.
Proof.
  induction s as [|d s IH]; cbn [occursb occurs]; [split; [discriminate|intros []]|].
  rewrite orb_true_iff, IH, Ascii.eqb_eq. reflexivity.
Qed.

Fixpoint index_in (c : ascii) (s : string) : option nat :=
  match s with EmptyString => None | String d s => if Ascii.eqb c d then Some 0 else option_map S (index_in c s) end.
Definition recasedb (from to : string) (c c' : ascii) : bool :=
  match index_in c from with
  | Some i => match String.get i to, String.get i from with Some d, Some d' => Ascii.eqb d c' && Ascii.eqb d' c | _, _ => false end
  | None => negb (occursb c from) && Ascii.eqb c c'
  end.
Lemma recasedb_ok from to c c' : recasedb from to c c' = true -> recased from to c c'.
Proof.
  unfold recasedb. destruct (index_in c from) as [i|].
  - destruct (String.get i to) eqn:E1; [|discriminate]. destruct (String.get i from) eqn:E2; [|discriminate].
    intros H. apply andb_true_iff in H as [H1 H2]. apply Ascii.eqb_eq in H1, H2. subst. left. exists i. auto.
  - intros H. apply andb_true_iff in H as [H1 H2]. apply Ascii.eqb_eq in H2. subst. right. split; [|reflexivity].
    intros O. apply occursb_ok in O. rewrite O in H1. discriminate.
Qed.

Lemma upper_ok c : recased lowers uppers c (upper_byte c).
Proof. apply recasedb_ok. destruct c as [[] [] [] [] [] [] [] []]; vm_compute; reflexivity. Qed.
Lemma lower_ok c : recased uppers lowers c (lower_byte c).
Proof. apply recasedb_ok. destruct c as [[] [] [] [] [] [] [] []]; vm_compute; reflexivity. Qed.
Lemma header_byte_ok c : header_byte c = occursb c name_bytes.
Proof. destruct c as [[] [] [] [] [] [] [] []]; vm_compute; reflexivity. Qed.

Lemma canon_title s : forall b, title_case b s (canon_from b s).
Proof.
  induction s as [|c s IH]; intros b; cbn [canon_from]; [constructor|].
  destruct b; constructor; auto using upper_ok, lower_ok.
Qed.

Lemma canonical_ok s : canonical s (canonical_header_key s).
Proof.
  unfold canonical_header_key. destruct (all_bytes header_byte s) eqn:E.
  - apply cn_name; [|apply canon_title]. intros c O. apply occursb_ok. rewrite <- header_byte_ok.
    revert E O. induction s as [|d s IH]; cbn [all_bytes occurs]; [intros _ []|].
    intros E. apply andb_true_iff in E as [E1 E2]. intros [->|O]; auto.
  - assert (X : exists c, occurs c s /\ header_byte c = false).
    { revert E. induction s as [|d s IH]; cbn [all_bytes occurs]; [discriminate|].
      destruct (header_byte d) eqn:D; [cbn [andb]; intros E; destruct (IH E) as (c & O & H); exists c; auto|].
      intros _. exists d. auto. }
    destruct X as (c & O & H). apply (cn_other s c O). intros N. apply occursb_ok in N. rewrite <- header_byte_ok in N. congruence.
Qed.

(* ------------------------------------------------------------------ *)
(* Plans                                                                *)

Section Walk.
  Variables J Sch : Type.
  Variable B : backend J Sch.
  Variable to_json : comps Sch -> option Sch -> out js.
  Variable range : forall A, smap A -> list (string * A).
  Hypothesis range_all : forall A m, Permutation m (range A m).
  Variable cb : list scall -> scall -> answer.

  Notation ex := (executes cb).

  Definition runs (plan : list slot) (k : list scall -> list scall * wres) : Prop :=
    forall t, ex t plan (fst (k t)) (snd (k t)).

  Lemma runs_call x plan k : runs plan k -> runs (Ret x :: plan) (fun t => do_call cb x t k).
  Proof.
    intros H t. unfold do_call. destruct (cb t x) eqn:E; cbn [fst snd].
    - apply ex_nil; [exact E|]. apply H.
    - apply ex_err. exact E.
    - apply ex_panic. exact E.
  Qed.

  Lemma runs_end : runs [] (fun t => (t, WOk)).
  Proof. intros t. constructor. Qed.
  Lemma runs_stuck plan : runs (Panic :: plan) (fun t => (t, WPanic)).
  Proof. intros t. constructor. Qed.

  (* [f] is a walk with a continuation; it does [pl] before. *)
  Lemma conv_cases c s : (exists j, to_json c s = Ret j) \/ (forall j, to_json c s <> Ret j).
  Proof. destruct (to_json c s) as [j| |]; [left; eauto|right; discriminate..]. Qed.

  Lemma runs_conv_call c s loc n b plan k : runs plan k -> exists sl, schema_slot Sch to_json c loc n b s sl /\
    runs (sl :: plan) (fun t => do_conv to_json c s t (fun j => do_call cb (mkSCall loc n (Some j) b) t k)).
  Proof.
    intros H. destruct (conv_cases c s) as [[j E]|N].
    - exists (Ret (mkSCall loc n (Some j) b)). split; [constructor; exact E|].
      intros t. unfold do_conv. rewrite E. apply (runs_call _ _ _ H).
    - exists Panic. split; [constructor; exact N|]. intros t. unfold do_conv.
      destruct (to_json c s) as [j| |]; [exfalso; apply (N j); reflexivity|apply runs_stuck..].
  Qed.

  Lemma flag_true o : flag o (is_true o).
  Proof. destruct o as [[]|]; cbn; split; congruence. Qed.

  Lemma runs_params c ps plan k : (forall x, In x ps -> por_param x <> None) -> runs plan k ->
    exists pl, Forall2 (param_slot Sch to_json c) ps pl /\ runs (pl ++ plan) (fun t => provide_parameters to_json cb c ps t k).
  Proof.
    intros A H. induction ps as [|x ps IH].
    - exists []. split; [constructor|]. exact H.
    - destruct IH as (pl & F & R); [intros y I; apply A; right; exact I|].
      specialize (A x (or_introl eq_refl)). cbn [provide_parameters]. destruct (por_param x) as [p|] eqn:E; [|congruence].
      destruct (param_schema p) as [s|] eqn:P.
      + destruct (runs_conv_call c (Some s) (p_in p) (p_name p) (is_true (p_required p)) _ _ R) as (sl & S & R').
        exists (sl :: pl). split; [|exact R']. constructor; [|exact F].
        unfold param_schema in P. destruct (p_schema p) as [s0|] eqn:PS.
        * injection P as ->. eapply ps_schema; eauto. apply flag_true.
        * destruct (get mime_json (p_content p)) as [m|] eqn:G; [|discriminate]. eapply ps_content; eauto. apply flag_true.
      + exists (Ret (mkSCall (p_in p) (p_name p) None (is_true (p_required p))) :: pl). split.
        * constructor; [|exact F]. unfold param_schema in P. destruct (p_schema p) as [s0|] eqn:PS; [discriminate|].
          eapply ps_none; eauto; [|apply flag_true]. intros m G.
          change mime_json with "application/json" in P. rewrite G in P. exact P.
        * apply (runs_call _ _ _ R).
  Qed.

  Lemma existsb_eq n l : existsb (fun r => String.eqb r n) l = true <-> In n l.
  Proof.
    rewrite existsb_exists. split.
    - intros (x & I & E). apply String.eqb_eq in E. subst. exact I.
    - intros I. exists n. rewrite String.eqb_refl. auto.
  Qed.

  Lemma form_of_ok s : form_of s (js_props s) (js_required s) (js_extra s).
  Proof. destruct s as [|b|a r nt al on an it tu pr ad ot]; [apply fo_bool; eauto..|]. destruct a. apply fo_obj. Qed.

  Lemma runs_form ps required extra defs plan k : runs plan k ->
    exists l, Forall2 (form_call required extra defs) ps l /\ runs (map Ret l ++ plan) (fun t => form_loop cb ps required extra defs t k).
  Proof.
    intros H. induction ps as [|[n p] ps (l & F & R)].
    - exists []. split; [constructor|exact H].
    - exists (mkSCall "formData" n (Some (inherit extra defs p)) (existsb (fun r => String.eqb r n) required) :: l). split.
      + constructor; [|exact F]. unfold inherit. destruct p as [|b|a r nt al on an it tu pr ad ot].
        * apply fc_bool; [apply existsb_eq|left; reflexivity].
        * apply fc_bool; [apply existsb_eq|right; eauto].
        * destruct extra as [|x extra]; [destruct defs as [|x defs]; [apply fc_plain; [apply existsb_eq|reflexivity..]|]|];
            destruct a; apply fc_obj; try apply existsb_eq; first [left; discriminate|right; discriminate].
      + cbn [form_loop map app]. apply (runs_call _ _ _ R).
  Qed.

  Lemma runs_body c ms : exists bls, Forall2 (body_slots Sch to_json c) ms bls /\ runs (concat bls) (body_loop to_json range cb c ms).
  Proof.
    induction ms as [|[ct m] ms (bls & F & R)].
    - exists []. split; [constructor|]. apply runs_end.
    - cbn [body_loop]. destruct (conv_cases c (mt_schema m)) as [[j E]|N].
      + assert (X : exists l, body_slots Sch to_json c (ct, m) l /\ runs (l ++ concat bls) (body_loop to_json range cb c ((ct, m) :: ms))).
        { cbn [body_loop]. unfold do_conv. rewrite E. destruct (String.eqb ct mime_json) eqn:E1.
          - apply String.eqb_eq in E1. subst ct. eexists. split; [apply bs_json; exact E|].
            cbn [app]. apply (runs_call (mkSCall "body" "body" (Some j) false) _ _ R).
          - destruct (String.eqb ct mime_form) eqn:E2.
            + apply String.eqb_eq in E2. subst ct. destruct j as [b|s defs].
              * exists [Panic]. split; [apply (bs_form_bool _ _ _ _ b); exact E|]. apply runs_stuck.
              * destruct (runs_form (range _ (js_props s)) (js_required s) (js_extra s) defs _ _ R) as (l & Fl & Rl).
                exists (map Ret l). split; [|exact Rl]. eapply bs_form; [exact E|apply form_of_ok|apply range_all|exact Fl].
            + apply String.eqb_neq in E1, E2. exists []. split; [eapply bs_other; eauto|]. exact R. }
        destruct X as (l & S & Rl). exists (l :: bls). split; [constructor; assumption|]. exact Rl.
      + exists ([Panic] :: bls). split; [constructor; [apply bs_panic; exact N|exact F]|].
        intros t. unfold do_conv. destruct (to_json c (mt_schema m)) as [j| |]; [exfalso; apply (N j); reflexivity|apply runs_stuck..].
  Qed.

  Lemma runs_request R c (o : operation Sch R) : (forall x, In x (op_params o) -> por_param x <> None) ->
    exists plan, request_plan Sch to_json c o plan /\
      ex [] plan (fst (walk_request_after to_json range cb c o)) (snd (walk_request_after to_json range cb c o)).
  Proof.
    intros A. unfold walk_request_after, request_plan.
    set (k := fun t => match op_body o with
                       | Some rb => match rbor_body rb with Some b => body_loop to_json range cb c (range _ (rb_content b)) t | None => (t, WOk) end
                       | None => (t, WOk) end).
    assert (X : exists ms bls, Permutation (body_content (op_body o)) ms /\ Forall2 (body_slots Sch to_json c) ms bls /\ runs (concat bls) k).
    { unfold k, body_content. destruct (op_body o) as [rb|]; [destruct (rbor_body rb) as [b|]|].
      - destruct (runs_body c (range _ (rb_content b))) as (bls & F & R'). exists (range _ (rb_content b)), bls. auto.
      - exists [], []. split; [constructor|]. split; [constructor|]. apply runs_end.
      - exists [], []. split; [constructor|]. split; [constructor|]. apply runs_end. }
    destruct X as (ms & bls & P & F & Rk). destruct (runs_params c (op_params o) _ _ A Rk) as (pl & Fp & Rp).
    exists (pl ++ concat bls). split; [exists pl, ms, bls; auto|]. apply (Rp []).
  Qed.

  Lemma runs_headers c hs plan k : runs plan k ->
    exists hls, Forall2 (header_slots Sch to_json c) hs hls /\ runs (concat hls ++ plan) (fun t => header_loop to_json cb c hs t k).
  Proof.
    intros H. induction hs as [|[n h] hs (hls & F & R)].
    - exists []. split; [constructor|exact H].
    - cbn [header_loop]. destruct (h_schema h) as [s|] eqn:E.
      + destruct (runs_conv_call c (Some s) "header" (canonical_header_key n) (is_true (h_required h)) _ _ R) as (sl & S & R').
        exists ([sl] :: hls). split; [|exact R']. constructor; [|exact F]. eapply hs_some; eauto using canonical_ok, flag_true.
      + exists ([] :: hls). split; [|exact R]. constructor; [|exact F]. apply hs_none. exact E.
  Qed.

  Lemma runs_content c ms : exists mls, Forall2 (content_slots Sch to_json c) ms mls /\ runs (concat mls) (content_loop to_json cb c ms).
  Proof.
    induction ms as [|[ct m] ms (mls & F & R)].
    - exists []. split; [constructor|]. apply runs_end.
    - cbn [content_loop]. destruct (mt_schema m) as [s|] eqn:E.
      + destruct (runs_conv_call c (Some s) "body" "body" false _ _ R) as (sl & S & R').
        exists ([sl] :: mls). split; [|exact R']. constructor; [|exact F]. eapply cs_some; eauto.
      + exists ([] :: mls). split; [|exact R]. constructor; [|exact F]. apply cs_none. exact E.
  Qed.

  Lemma runs_response c (r : response Sch) :
    exists plan, response_plan Sch to_json c r plan /\
      runs plan (fun t => header_loop to_json cb c (range _ (rs_headers r)) t (fun t => content_loop to_json cb c (range _ (rs_content r)) t)).
  Proof.
    destruct (runs_content c (range _ (rs_content r))) as (mls & Fm & Rm).
    destruct (runs_headers c (range _ (rs_headers r)) _ _ Rm) as (hls & Fh & Rh).
    exists (concat hls ++ concat mls). split; [|exact Rh]. exists (range _ (rs_headers r)), hls, (range _ (rs_content r)), mls.
    repeat split; auto.
  Qed.

  (* ---------------------------------------------------------------- *)
  (* Consequences of execution                                          *)

  Lemma ex_prefix t plan t' r : ex t plan t' r -> exists l, t' = t ++ l /\ exists rest, map Ret l ++ rest = plan /\ (r = WOk -> rest = []).
  Proof.
    induction 1 as [t|t x plan t' r N _ (l & -> & rest & <- & K)|t x plan e E|t x plan E|t plan].
    - exists []. rewrite app_nil_r. split; auto. exists []. auto.
    - exists (x :: l). rewrite <- app_assoc. split; auto. exists rest. auto.
    - exists [x]. split; auto. exists plan. split; [reflexivity|discriminate].
    - exists [x]. split; auto. exists plan. split; [reflexivity|discriminate].
    - exists []. rewrite app_nil_r. split; auto. exists (Panic :: plan). split; [reflexivity|discriminate].
  Qed.

  (* Every call but the last was answered with nil; the result says how the last was. *)
  Lemma ex_answers t plan t' r : ex t plan t' r ->
    forall l1 x l2, t' = t ++ l1 ++ x :: l2 ->
      (l2 <> [] -> cb (t ++ l1) x = CNil) /\
      (l2 = [] -> (forall e, r = WCall e <-> cb (t ++ l1) x = CErr e) /\ (r = WOk -> cb (t ++ l1) x = CNil)).
  Proof.
    assert (NE : forall (A : Type) (t : list A) l1 x l2, t <> t ++ l1 ++ x :: l2).
    { intros A s l1 x l2 E. apply (f_equal (@List.length A)) in E. rewrite !app_length in E. cbn [List.length] in E. lia. }
    induction 1 as [t|t y plan t' r N X IH|t y plan e E|t y plan E|t plan]; intros l1 x l2 EQ.
    - exfalso. eapply NE; eauto.
    - destruct l1 as [|z l1].
      + cbn [app] in EQ. destruct (ex_prefix _ _ _ _ X) as (l & L & rest & Er & K).
        rewrite L, <- app_assoc in EQ. apply app_inv_head in EQ. cbn [app] in EQ. injection EQ as -> ->.
        rewrite app_nil_r. split; [auto|]. intros ->. split; [|auto]. rewrite app_nil_r in L. subst t'.
        intros e. split; [|rewrite N; discriminate]. intros ->. exfalso. clear - X NE.
        remember (t ++ [x]) as t1. inversion X as [| ? y ? ? ? N' X'|? y ? ? N'| |]; subst.
        * destruct (ex_prefix _ _ _ _ X') as (l & L & _). rewrite <- app_assoc in L. apply (NE _ (t ++ [x]) [] y l). exact L.
        * apply (NE _ (t ++ [x]) [] y []). symmetry; assumption.
      + specialize (IH l1 x l2). rewrite <- app_assoc in IH. cbn [app] in IH, EQ.
        assert (z = y) as ->. { destruct (ex_prefix _ _ _ _ X) as (l & L & _). rewrite L, <- app_assoc in EQ. apply app_inv_head in EQ. cbn [app] in EQ. congruence. }
        rewrite <- app_assoc in IH. cbn [app] in IH. apply IH. exact EQ.
    - apply app_inv_head in EQ. destruct l1 as [|z l1]; cbn [app] in EQ; [|destruct l1; discriminate]. injection EQ as <- <-.
      rewrite app_nil_r. split; [congruence|]. intros _. rewrite E. split; [|discriminate]. intros e'. split; congruence.
    - apply app_inv_head in EQ. destruct l1 as [|z l1]; cbn [app] in EQ; [|destruct l1; discriminate]. injection EQ as <- <-.
      rewrite app_nil_r. split; [congruence|]. intros _. rewrite E. split; [|discriminate]. intros e'. split; discriminate.
    - exfalso. eapply NE; eauto.
  Qed.

  (* No panic, no error in the plan or from the callback. *)
  Lemma ex_fine t plan t' r : ex t plan t' r -> (forall t x, cb t x = CNil) -> (forall sl, In sl plan -> sl <> Panic) ->
    r = WOk /\ exists l, t' = t ++ l /\ plan = map Ret l.
  Proof.
    intros X N. induction X as [t|t x plan t' r Nx X IH|t x plan e E|t x plan E|t plan]; intros P.
    - split; [reflexivity|]. exists []. rewrite app_nil_r. auto.
    - destruct IH as (-> & l & -> & ->); [intros sl I; apply P; right; exact I|]. split; [reflexivity|].
      exists (x :: l). rewrite <- app_assoc. auto.
    - rewrite N in E. discriminate.
    - rewrite N in E. discriminate.
    - exfalso. apply (P Panic); [left|]; reflexivity.
  Qed.

  Lemma ex_no_panic t plan t' r : ex t plan t' r -> (forall t x, cb t x <> CPanic) -> (forall sl, In sl plan -> sl <> Panic) ->
    r <> WPanic.
  Proof.
    intros X N. induction X as [t|t x plan t' r Nx X IH|t x plan e E|t x plan E|t plan]; intros P; try discriminate.
    - apply IH. intros sl I; apply P; right; exact I.
    - exfalso. eapply N; eauto.
    - exfalso. apply (P Panic); [left|]; reflexivity.
  Qed.
End Walk.
