From Coq Require Import Permutation.
From Verif Require Import Str SMap Json SchemaModel Types RegistryModel ReflectModel ReflectSpec ReflectProofs ReflectProofs2 WalkModel WalkSpec WalkProofs.

Section Walk.
  Variables J Sch : Type.
  Variable B : backend J Sch.
  Variable to_json : comps Sch -> option Sch -> out js.
  Variable range : forall A, smap A -> list (string * A).
  Hypothesis range_all : iterates range.
  Variable cb : list scall -> scall -> answer.

  Lemma calls_of_map {O} (l : list scall) : calls_of (map (@ECall O) l) = l.
  Proof. induction l as [|x l IH]; cbn [map calls_of]; [reflexivity|]. rewrite IH. reflexivity. Qed.
  Lemma calls_of_app {O} (a b : list (event O)) : calls_of (a ++ b) = calls_of a ++ calls_of b.
  Proof. induction a as [|[x|o] a IH]; cbn [app calls_of]; [reflexivity|rewrite IH; reflexivity|exact IH]. Qed.
  Lemma calls_deferred {O} done (o : O) r : calls_of (fst (deferred done o r)) = fst r.
  Proof. unfold deferred. cbn [fst]. rewrite calls_of_app, calls_of_map. destruct done; cbn [calls_of]; apply app_nil_r. Qed.

  Section Request.
    Variable R : Type.
    Variable zero : operation Sch R.
    Hypothesis fresh : fresh_op zero.
    Variables (c : comps Sch) (method : string) (cu : cunit J Sch) (done : bool).
    Notation walk := (walk_request B to_json range cb R zero c method cu done).

    Lemma set_up_params c' o : setup_request B [cu] method (c, zero) = ((c', o), Ret tt) ->
      Forall2 (renders B) (param_fields cu) (op_params o).
    Proof.
      intros H. apply setup_request_adds in H as [(new & N & F & _) _].
      rewrite (proj1 fresh) in N. cbn [app] in N. cbn [flat_map] in F. rewrite app_nil_r in F. rewrite N. exact F.
    Qed.

    Lemma request_walk c' o : setup_request B [cu] method (c, zero) = ((c', o), Ret tt) ->
      exists calls res plan, walk = (c', (map ECall calls ++ (if done then [EDone o] else []), res)) /\
        request_plan Sch to_json c' o plan /\ executes cb [] plan calls res.
    Proof.
      intros H. pose proof (set_up_params _ _ H) as F.
      assert (A : forall x, In x (op_params o) -> por_param x <> None).
      { intros x I. destruct (Forall2_in_r _ _ _ _ F I) as (f & _ & (p & t & ds & -> & _)). discriminate. }
      destruct (runs_request _ to_json range range_all cb R c' o A) as (plan & P & X).
      exists (fst (walk_request_after to_json range cb c' o)), (snd (walk_request_after to_json range cb c' o)), plan.
      split; [|auto]. unfold walk_request. rewrite H. reflexivity.
    Qed.

    Lemma request_failed c' o : setup_request B [cu] method (c, zero) = ((c', o), Err) ->
      walk = (c', ((if done then [EDone o] else []), WSetup)).
    Proof. intros H. unfold walk_request. rewrite H. reflexivity. Qed.

    Lemma request_done : exists calls o res, fst (setup_request B [cu] method (c, zero)) = (fst walk, o) /\
      snd walk = (map ECall calls ++ (if done then [EDone o] else []), res).
    Proof.
      unfold walk_request. destruct (setup_request B [cu] method (c, zero)) as [[c' o] [[]| |]]; cbn [fst snd].
      - exists (fst (walk_request_after to_json range cb c' o)), o, (snd (walk_request_after to_json range cb c' o)). auto.
      - exists [], o, WSetup. auto.
      - exists [], o, WPanic. auto.
    Qed.

    (* A slot for a documented parameter is a call for its property. *)
    Lemma renders_slot c' f x k : renders B f x -> param_slot Sch to_json c' x (Ret k) -> field_call B to_json c' f k.
    Proof.
      intros (p & t & ds & -> & T & _ & L & N & RQ & _ & _ & _ & _ & _ & _ & _ & HJ & HN) S.
      assert (Dec : json_encoded (snd f) \/ ~ json_encoded (snd f)).
      { unfold json_encoded. destruct (String.eqb (pr_cf (snd f)) "json") eqn:E.
        - apply String.eqb_eq in E. auto.
        - apply String.eqb_neq in E. destruct (pr_tag_json (snd f)), (pr_tag_in (snd f)); auto; right; intros [?|[]]; congruence. }
      assert (FL : forall b, flag (p_required p) b -> b = true <-> fst f = "path" \/ t_required t = Some true).
      { intros b F. unfold flag in F. rewrite F, RQ. destruct (String.eqb (fst f) "path") eqn:E.
        - apply String.eqb_eq in E. split; auto.
        - apply String.eqb_neq in E. split; [auto|]. intros [?|?]; congruence. }
      exists t. split; [exact T|].
      inversion S as [? p0 s b sl Ep Es Fb SS|? p0 m s b sl Ep Es G Em Fb SS|? p0 b Ep Es G Fb]; subst;
        cbn [por_param] in Ep; injection Ep as <-.
      - inversion SS as [j Ej|]; subst. cbn [k_in k_name k_required k_schema].
        split; [exact L|]. split; [exact N|]. split; [apply FL; exact Fb|]. exists j, s. split; [reflexivity|]. split; [exact Ej|].
        destruct Dec as [D|D]; [destruct (HJ D) as [X _]; congruence|]. right. split; [exact D|].
        destruct (HN D) as (_ & s0 & C0 & E0). exists s0. split; [exact C0|]. congruence.
      - inversion SS as [j Ej|]; subst. cbn [k_in k_name k_required k_schema].
        split; [exact L|]. split; [exact N|]. split; [apply FL; exact Fb|]. exists j, s. split; [reflexivity|]. split; [exact Ej|].
        destruct Dec as [D|D]; [|destruct (HN D) as (_ & s0 & _ & X); congruence]. left. split; [exact D|].
        destruct (HJ D) as (_ & d & s0 & Ed & C0 & E0). rewrite E0 in G. vm_compute in G. injection G as <-.
        cbn [mt_schema] in Em. injection Em as <-. eauto.
      - exfalso. destruct Dec as [D|D]; [|destruct (HN D) as (_ & s0 & _ & X); congruence].
        destruct (HJ D) as (_ & d & s0 & Ed & C0 & E0). specialize (G (mkMedia (Some s0) JNull)). rewrite E0 in G.
        assert (Some s0 = None :> option Sch) by (apply G; reflexivity). discriminate.
    Qed.

    Lemma body_slots_loc c' x l k : body_slots Sch to_json c' x l -> In (Ret k) l -> k_in k = "body" \/ k_in k = "formData".
    Proof.
      intros H I. inversion H as [? ? ?|? j ?|? s defs props required extra props' fl ? ? ? F|? ? ?|? ? ? ? ? ?]; subst.
      - destruct I as [X|[]]. discriminate.
      - destruct I as [X|[]]. injection X as <-. auto.
      - apply in_map_iff in I as (y & E & I). injection E as ->. destruct (Forall2_in_r _ _ _ _ F I) as (z & _ & Fc).
        inversion Fc; subst; auto.
      - destruct I as [X|[]]. discriminate.
      - destruct I.
    Qed.

    Lemma split_prefix {A : Type} (l rest p q : list A) : l ++ rest = p ++ q ->
      exists l1 l2, l = l1 ++ l2 /\ (exists n, l1 = firstn n p /\ (l2 <> [] \/ rest = [] -> l1 = p)) /\ (exists r, l2 ++ r = q \/ l2 = []).
    Proof.
      revert p. induction l as [|x l IH]; intros p E.
      - exists [], []. split; [reflexivity|]. split; [|exists []; auto].
        exists 0. split; [reflexivity|]. intros [X|X]; [congruence|]. subst. cbn in E. destruct p; [reflexivity|discriminate].
      - destruct p as [|y p].
        + exists [], (x :: l). split; [reflexivity|]. split; [|exists rest; left; exact E]. exists 0. auto.
        + cbn [app] in E. injection E as <- E. destruct (IH p E) as (l1 & l2 & -> & (n & -> & H) & T).
          exists (x :: firstn n p), l2. split; [reflexivity|]. split; [|exact T]. exists (S n). split; [reflexivity|].
          intros X. f_equal. apply H. exact X.
    Qed.

    Lemma Forall2_len {X Y : Type} (P : X -> Y -> Prop) l l' : Forall2 P l l' -> List.length l = List.length l'.
    Proof. induction 1; cbn [List.length]; congruence. Qed.

    Lemma Forall2_firstn {X Y : Type} (P : X -> Y -> Prop) l l' n : Forall2 P l l' -> Forall2 P (firstn n l) (firstn n l').
    Proof. intros F. revert n. induction F; intros [|n]; cbn [firstn]; constructor; auto. Qed.

    Lemma request_fields evs res c' : walk = (c', (evs, res)) ->
      exists pk bk n, calls_of evs = pk ++ bk /\ Forall2 (field_call B to_json c') (firstn n (param_fields cu)) pk /\
        (bk <> [] \/ res = WOk -> firstn n (param_fields cu) = param_fields cu) /\
        (forall k, In k bk -> k_in k = "body" \/ k_in k = "formData").
    Proof.
      intros W. destruct (setup_request B [cu] method (c, zero)) as [[c1 o] r] eqn:H. destruct r as [[]| |].
      2,3: unfold walk_request in W; rewrite H in W; injection W as <- <- <-; exists [], [], 0;
        split; [destruct done; reflexivity|]; split; [constructor|]; split; [intros [X|X]; [congruence|discriminate]|intros k []].
      destruct (request_walk _ _ H) as (calls & res' & plan & W' & (pl & ms & bls & Fp & P & Fb & EQ) & X).
      rewrite W in W'. injection W' as <- -> ->. rewrite calls_of_app, calls_of_map.
      replace (calls_of (if done then [EDone o] else [])) with (@nil scall) by (destruct done; reflexivity). rewrite app_nil_r.
      destruct (ex_prefix _ _ _ _ _ X) as (l & L & rest & Er & K). cbn [app] in L. subst l. rewrite EQ in Er.
      destruct (split_prefix _ _ _ _ Er) as (s1 & s2 & E1 & (n & E2 & E3) & (r & E4)).
      apply map_eq_app in E1 as (pk & bk & -> & <- & <-).
      exists pk, bk, n. split; [reflexivity|]. pose proof (set_up_params _ _ H) as F.
      assert (F2 : Forall2 (field_call B to_json c') (firstn n (param_fields cu)) pk).
      { pose proof (Forall2_firstn _ _ _ n F) as A1. pose proof (Forall2_firstn _ _ _ n Fp) as A2. rewrite <- E2 in A2.
        clear - A1 A2. revert pk A2. induction A1 as [|f x lf lx Rf _ IH]; intros pk A2.
        - inversion A2 as [E|]; subst. destruct pk; [constructor|discriminate].
        - inversion A2 as [|? sl ? ? S A2' E5 E6]; subst. destruct pk as [|k pk]; [discriminate|]. cbn [map] in E6. injection E6 as -> ->.
          constructor; [eapply renders_slot; eauto|]. apply IH. exact A2'. }
      split; [exact F2|]. split.
      - intros Y. assert (Z : map Ret pk = pl).
        { apply E3. destruct Y as [Y|Y]; [left; destruct bk; [congruence|discriminate]|right; auto]. }
        apply Forall2_len in F, F2, Fp. apply (f_equal (@List.length _)) in Z. rewrite map_length in Z.
        rewrite firstn_length in F2. apply firstn_all2. lia.
      - intros k I. destruct E4 as [E4|E4]; [|destruct bk; [destruct I|discriminate]].
        assert (Q : In (Ret k) (concat bls)). { rewrite <- E4. apply in_or_app. left. apply in_map. exact I. }
        apply in_concat in Q as (b & Ib & Q). destruct (Forall2_in_r _ _ _ _ Fb Ib) as (y & _ & S). eapply body_slots_loc; eauto.
    Qed.

    Lemma request_stops evs res c' : walk = (c', (evs, res)) -> forall l1 x l2, calls_of evs = l1 ++ x :: l2 ->
      (l2 <> [] -> cb l1 x = CNil) /\ (l2 = [] -> (forall e, res = WCall e <-> cb l1 x = CErr e) /\ (res = WOk -> cb l1 x = CNil)).
    Proof.
      intros W l1 x l2 E. destruct (setup_request B [cu] method (c, zero)) as [[c1 o] r] eqn:H. destruct r as [[]| |].
      2,3: unfold walk_request in W; rewrite H in W; injection W as <- <- <-; destruct done; destruct l1; discriminate.
      destruct (request_walk _ _ H) as (calls & res' & plan & W' & _ & X).
      rewrite W in W'. injection W' as <- -> ->. rewrite calls_of_app, calls_of_map in E.
      replace (calls_of (if done then [EDone o] else [])) with (@nil scall) in E by (destruct done; reflexivity). rewrite app_nil_r in E.
      apply (ex_answers _ _ _ _ _ X l1 x l2 E).
    Qed.

    Lemma request_call_error evs e c' : walk = (c', (evs, WCall e)) -> exists l x, calls_of evs = l ++ [x] /\ cb l x = CErr e.
    Proof.
      intros W. destruct (calls_of evs) as [|x l _] eqn:E using rev_ind.
      - exfalso. destruct (setup_request B [cu] method (c, zero)) as [[c1 o] r] eqn:H. destruct r as [[]| |].
        2,3: unfold walk_request in W; rewrite H in W; discriminate.
        destruct (request_walk _ _ H) as (calls & res' & plan & W' & _ & X).
        rewrite W in W'. injection W' as <- -> <-. rewrite calls_of_app, calls_of_map in E. apply app_eq_nil in E as [-> _].
        inversion X; subst.
        + match goal with H : executes _ _ _ [] _ |- _ => destruct (ex_prefix _ _ _ _ _ H) as (? & Y & _); discriminate Y end.
      - exists l, x. split; [reflexivity|]. apply (proj1 (proj2 (request_stops _ _ _ W l x [] E) eq_refl)). reflexivity.
    Qed.

    Lemma body_calls c' ms bls : Forall2 (body_slots Sch to_json c') ms bls -> NoDup (keys ms) ->
      forall bk, map Ret bk = concat bls ->
      match get "application/json" ms with
      | Some m => exists j, to_json c' (mt_schema m) = Ret j /\ calls_in "body" bk = [mkSCall "body" "body" (Some j) false]
      | None => calls_in "body" bk = []
      end /\
      match get "application/x-www-form-urlencoded" ms with
      | Some m => exists s defs props required extra l, to_json c' (mt_schema m) = Ret (JsObj s defs) /\ form_of s props required extra /\
                    Forall2 (form_call required extra defs) props l /\ Permutation l (calls_in "formData" bk)
      | None => calls_in "formData" bk = []
      end.
    Proof.
      assert (FB : forall rq ex df l fl, Forall2 (form_call rq ex df) l fl -> calls_in "body" fl = [] /\ calls_in "formData" fl = fl).
      { induction 1 as [|x k l fl Fc _ [IH1 IH2]]; [auto|]. unfold calls_in in *. cbn [filter].
        assert (E : k_in k = "formData") by (inversion Fc; subst; reflexivity). rewrite E.
        change (String.eqb "formData" "body") with false. change (String.eqb "formData" "formData") with true.
        cbv iota. rewrite IH1, IH2. auto. }
      assert (NG : forall ct (ms : smap (media Sch)), ~ In ct (keys ms) -> get ct ms = None) by (intros; apply get_None; assumption).
      induction 1 as [|[ct m] sl ms bls S F IH]; intros N bk E.
      - destruct bk; [|discriminate]. cbn. auto.
      - cbn [concat] in E. inversion N as [|? ? N1 N2]; subst. apply map_eq_app in E as (b1 & b2 & -> & E1 & E2). symmetry in E1.
        specialize (IH N2 b2 E2). unfold calls_in in *. rewrite !filter_app.
        remember (ct, m) as y eqn:Ey.
        destruct S as [ct' m' X|m' j X|m' s defs props required extra props' fl X FO P Fl|m' b X|ct' m' j X NJ NF]; injection Ey; intros; subst; cbn [get].
        + destruct b1; discriminate.
        + destruct b1 as [|x [|? ?]]; try discriminate. injection E1 as <-. cbn [filter k_in].
          change (String.eqb "body" "body") with true. change (String.eqb "body" "formData") with false. cbv iota. cbn [app].
          change (String.eqb "application/json" "application/json") with true.
          change (String.eqb "application/x-www-form-urlencoded" "application/json") with false. cbv iota.
          destruct IH as [IH1 IH2]. rewrite (NG _ ms) in IH1 by exact N1. rewrite IH1. split; [eauto|exact IH2].
        + assert (b1 = fl) as ->.
          { clear - E1. symmetry in E1. revert fl E1. induction b1; intros [|]; cbn [map]; intros E; try discriminate; [reflexivity|]. injection E as -> E. f_equal. auto. }
          destruct (FB _ _ _ _ _ Fl) as [E3 E4]. unfold calls_in in E3, E4. rewrite E3, E4. cbn [app].
          change (String.eqb "application/json" "application/x-www-form-urlencoded") with false.
          change (String.eqb "application/x-www-form-urlencoded" "application/x-www-form-urlencoded") with true. cbv iota.
          destruct IH as [IH1 IH2]. rewrite (NG _ ms) in IH2 by exact N1. rewrite IH2, app_nil_r. split; [exact IH1|].
          destruct (Permutation_Forall2 (Permutation_sym P) Fl) as (l & Pl & Fl'). exists s, defs, props, required, extra, l.
          split; [exact X|]. split; [exact FO|]. split; [exact Fl'|]. apply Permutation_sym. exact Pl.
        + destruct b1; discriminate.
        + destruct b1; [|discriminate]. cbn [filter app].
          apply not_eq_sym in NJ, NF. apply String.eqb_neq in NJ, NF. rewrite NJ, NF. exact IH.
    Qed.

    Lemma get_permutation {A : Type} (m m' : smap A) k : Permutation m m' -> NoDup (keys m) -> get k m = get k m'.
    Proof.
      intros P N. assert (N' : NoDup (keys m')) by (eapply Permutation_NoDup; [apply Permutation_map; exact P|exact N]).
      destruct (get k m) as [v|] eqn:E.
      - symmetry. apply In_get; [exact N'|]. eapply Permutation_in; [exact P|]. apply get_In. exact E.
      - symmetry. apply get_None. apply get_None in E. intros I. apply E. eapply Permutation_in; [|exact I].
        apply Permutation_sym, Permutation_map. exact P.
    Qed.

    Lemma fields_loc (f : string * prop J) : In f (param_fields cu) -> In (fst f) ["query"; "path"; "cookie"; "header"].
    Proof.
      unfold param_fields. destruct (structuredb cu && negb (v_slice cu)); [|intros []]. intros I.
      apply in_flat_map in I as (loc & Il & I). apply in_map_iff in I as (q & <- & _). exact Il.
    Qed.

    Lemma request_bodies c' o evs : setup_request B [cu] method (c, zero) = ((c', o), Ret tt) -> walk = (c', (evs, WOk)) ->
      NoDup (keys (body_content (op_body o))) ->
      match get "application/json" (body_content (op_body o)) with
      | Some m => exists j, to_json c' (mt_schema m) = Ret j /\
                    calls_in "body" (calls_of evs) = [mkSCall "body" "body" (Some j) false]
      | None => calls_in "body" (calls_of evs) = []
      end /\
      match get "application/x-www-form-urlencoded" (body_content (op_body o)) with
      | Some m => exists s defs props required extra l, to_json c' (mt_schema m) = Ret (JsObj s defs) /\ form_of s props required extra /\
                    Forall2 (form_call required extra defs) props l /\ Permutation l (calls_in "formData" (calls_of evs))
      | None => calls_in "formData" (calls_of evs) = []
      end.
    Proof.
      intros H W N. destruct (request_walk _ _ H) as (calls & res' & plan & W' & (pl & ms & bls & Fp & P & Fb & EQ) & X).
      rewrite W in W'. injection W' as -> <-. rewrite calls_of_app, calls_of_map.
      replace (calls_of (if done then [EDone o] else [])) with (@nil scall) by (destruct done; reflexivity). rewrite app_nil_r.
      destruct (ex_prefix _ _ _ _ _ X) as (l & L & rest & Er & K). cbn [app] in L. subst l. rewrite (K eq_refl), app_nil_r, EQ in Er.
      apply map_eq_app in Er as (pk & bk & -> & E1 & E2).
      rewrite !(get_permutation _ _ _ P N).
      assert (NM : NoDup (keys ms)) by (eapply Permutation_NoDup; [apply Permutation_map; exact P|exact N]).
      assert (PK : forall loc, loc = "body" \/ loc = "formData" -> calls_in loc pk = []).
      { intros loc D. pose proof (set_up_params _ _ H) as F.
        assert (FF : forall k, In k pk -> k_in k <> loc).
        { intros k I E. assert (Q : In (Ret k) pl) by (rewrite <- E1; apply in_map; exact I).
          destruct (Forall2_in_r _ _ _ _ Fp Q) as (x & Ix & S). destruct (Forall2_in_r _ _ _ _ F Ix) as (f & If & Rf).
          destruct (renders_slot _ _ _ _ Rf S) as (t & _ & Lk & _). apply fields_loc in If. rewrite <- Lk, E in If.
          cbn [In] in If. destruct D as [->| ->]; repeat (destruct If as [If|If]; [discriminate|]); exact If. }
        unfold calls_in. clear - FF. induction pk as [|k pk IH]; [reflexivity|]. cbn [filter].
        destruct (String.eqb (k_in k) loc) eqn:E; [apply String.eqb_eq in E; exfalso; apply (FF k); [left; reflexivity|exact E]|].
        apply IH. intros x I. apply FF. right. exact I. }
      pose proof (body_calls _ _ _ Fb NM bk E2) as Q. unfold calls_in in *. rewrite !filter_app, !PK by auto. exact Q.
    Qed.
  End Request.

  (* ---------------------------------------------------------------- *)
  (* Responses                                                          *)

  Section Response.
    Variables (c : comps Sch) (cu : cunit J Sch) (done : bool).
    Notation walk := (walk_response B to_json range cb c cu done).

    Lemma range_nil (A : Type) : range A [] = [].
    Proof. apply Permutation_nil. apply range_all. Qed.
    Lemma range_one (A : Type) x : range A [x] = [x].
    Proof. apply Permutation_length_1_inv. apply range_all. Qed.

    Lemma response_set_up c' rs : setup_response B [cu] "GET" (c, mkResps None []) = ((c', rs), Ret tt) ->
      (cu_default cu = true -> rs_map rs = []) /\
      (cu_default cu = false -> exists k r, rs_default rs = None /\
         rs_map rs = [(k, match cu_custom_resp cu with Some f => f (mkRor (Some r) None) | None => mkRor (Some r) None end)]).
    Proof.
      cbn [setup_response]. destruct (response_unit B cu "GET" (c, mkResps None [])) as [[c1 rs1] r1] eqn:E.
      destruct r1 as [[]| |]; [|discriminate..]. intros H. injection H as <- <-. unfold response_unit in E.
      destruct (fill_response _ _ _ _) as [[c2 r2] [u| |]]; [|discriminate..]. injection E as <- <-.
      unfold store_response, ensure_default. split; intros D; rewrite D; cbn [rs_map rs_default put].
      - reflexivity.
      - exists (response_key cu), r2. auto.
    Qed.

    Lemma response_walk c' rs k r : setup_response B [cu] "GET" (c, mkResps None []) = ((c', rs), Ret tt) ->
      rs_map rs = [(k, mkRor (Some r) None)] ->
      exists calls res plan, walk = (c', (map ECall calls ++ (if done then [EDone rs] else []), res)) /\
        response_plan Sch to_json c' r plan /\ executes cb [] plan calls res.
    Proof.
      intros H M. destruct (runs_response _ to_json range range_all cb c' r) as (plan & P & X).
      specialize (X []). unfold walk_response. rewrite H. unfold walk_response_after. rewrite M, range_one.
      cbn [last_response fold_left snd ror_resp]. eexists _, _, plan. split; [reflexivity|]. split; [exact P|]. exact X.
    Qed.

    Lemma response_done : exists calls rs res, fst (setup_response B [cu] "GET" (c, mkResps None [])) = (fst walk, rs) /\
      snd walk = (map ECall calls ++ (if done then [EDone rs] else []), res).
    Proof.
      unfold walk_response. destruct (setup_response B [cu] "GET" (c, mkResps None [])) as [[c' o] [[]| |]]; cbn [fst snd].
      - exists (fst (walk_response_after to_json range cb c' o)), o, (snd (walk_response_after to_json range cb c' o)). auto.
      - exists [], o, WSetup. auto.
      - exists [], o, WPanic. auto.
    Qed.

    (* A default unit that is set up makes the walker panic, always. *)
    Lemma response_default c' rs : setup_response B [cu] "GET" (c, mkResps None []) = ((c', rs), Ret tt) ->
      cu_default cu = true -> walk = (c', ((if done then [EDone rs] else []), WPanic)).
    Proof.
      intros H D. unfold walk_response. rewrite H. unfold walk_response_after.
      rewrite (proj1 (response_set_up _ _ H) D), range_nil. reflexivity.
    Qed.

    Lemma schema_slot_fine c' loc n b s sl : (forall c s, exists j, to_json c (Some s) = Ret j) ->
      schema_slot Sch to_json c' loc n b (Some s) sl -> sl <> Panic.
    Proof. intros T S. inversion S as [j E|N]; subst; [discriminate|]. destruct (T c' s) as [j E]. exfalso. eapply N; eauto. Qed.

    Lemma response_total : cu_default cu = false -> cu_custom_resp cu = None ->
      snd (setup_response B [cu] "GET" (c, mkResps None [])) <> Panic ->
      (forall c s, exists j, to_json c (Some s) = Ret j) -> (forall t x, cb t x <> CPanic) ->
      snd (snd walk) <> WPanic.
    Proof.
      intros D C S T N. destruct (setup_response B [cu] "GET" (c, mkResps None [])) as [[c' rs] [[]| |]] eqn:H.
      - destruct (proj2 (response_set_up _ _ H) D) as (k & r & _ & M). rewrite C in M.
        destruct (response_walk _ _ _ _ H M) as (calls & res & plan & -> & (hs & hls & ms & mls & _ & Fh & _ & Fm & ->) & X).
        cbn [snd]. eapply ex_no_panic; eauto. intros sl I. apply in_app_iff in I as [I|I]; apply in_concat in I as (l & Il & I).
        + destruct (Forall2_in_r _ _ _ _ Fh Il) as (x & _ & Sx). inversion Sx as [|? ? ? ? ? ? ? ? ? SS]; subst; [destruct I|].
          destruct I as [<-|[]]. eapply schema_slot_fine; eauto.
        + destruct (Forall2_in_r _ _ _ _ Fm Il) as (x & _ & Sx). inversion Sx as [|? ? ? ? ? SS]; subst; [destruct I|].
          destruct I as [<-|[]]. eapply schema_slot_fine; eauto.
      - unfold walk_response. rewrite H. discriminate.
      - cbn [snd] in S. congruence.
    Qed.

    Lemma response_stops evs res c' : cu_default cu = false -> cu_custom_resp cu = None -> walk = (c', (evs, res)) ->
      forall l1 x l2, calls_of evs = l1 ++ x :: l2 ->
      (l2 <> [] -> cb l1 x = CNil) /\ (l2 = [] -> (forall e, res = WCall e <-> cb l1 x = CErr e) /\ (res = WOk -> cb l1 x = CNil)).
    Proof.
      intros D C W l1 x l2 E. destruct (setup_response B [cu] "GET" (c, mkResps None [])) as [[c1 rs] [[]| |]] eqn:H.
      2,3: unfold walk_response in W; rewrite H in W; injection W as <- <- <-; destruct done; destruct l1; discriminate.
      destruct (proj2 (response_set_up _ _ H) D) as (k & r & _ & M). rewrite C in M.
      destruct (response_walk _ _ _ _ H M) as (calls & res' & plan & W' & _ & X).
      rewrite W in W'. injection W' as <- -> ->. rewrite calls_of_app, calls_of_map in E.
      replace (calls_of (if done then [EDone rs] else [])) with (@nil scall) in E by (destruct done; reflexivity). rewrite app_nil_r in E.
      apply (ex_answers _ _ _ _ _ X l1 x l2 E).
    Qed.
  End Response.
End Walk.
