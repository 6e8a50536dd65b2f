(* Proofs about what functions of the user see: the pipeline with sessions does
   what the pipeline of ReflectModel does on the reports of the sessions. *)
From Coq Require Import ZArith Lia.
From Verif Require Import Str SMap Json PathModel Types RegistryModel ReflectModel HookModel HookSpec.

Definition okl (ws : list what) (l : list obs) : Prop := Forall (fun o => right o /\ In (o_what o) ws) l.

Section Run.
  Context {E E' A S : Type}.
  Variable pstep : E' -> S -> S * out unit.
  Fixpoint steps (es : list E') (x : S) : S * out unit :=
    match es with
    | [] => (x, Ret tt)
    | e :: es' => match pstep e x with
                  | (x', Ret _) => steps es' x'
                  | r => r
                  end
    end.
  Definition plain (es : list E') (fin : out A) (x : S) : S * out A :=
    match steps es x with
    | (x', Ret _) => (x', fin)
    | (x', Err) => (x', Err)
    | (x', Panic) => (x', Panic)
    end.

  Variable rel : E -> E' -> Prop.
  Variable step : E -> S * tr -> (S * tr) * out unit.
  Variables (w : what) (ctx : bool) (p : pstate) (ws : list what).
  Hypothesis step_ok : forall e x log, exists e' x' new r, rel e e' /\
    step e (x, mkTr log p) = ((x', mkTr (new ++ log) p), r) /\ pstep e' x = (x', r) /\ okl ws new.
  Hypothesis w_sees : sees w (if ctx then Some p else None).
  Hypothesis w_in : In w ws.

  Lemma run_sim (s : session E A) : forall x log, exists es fin x' new r,
    yields rel w s es fin /\ run step w ctx s (x, mkTr log p) = ((x', mkTr (new ++ log) p), r) /\
    plain es fin x = (x', r) /\ okl ws new.
  Proof.
    induction s as [a|k IH|e k IH]; intros x log.
    - exists [], a, x, [], a. split; [constructor|]. split; [reflexivity|]. split; [reflexivity|constructor].
    - cbn [run note t_log t_now].
      destruct (IH (mkObs w (if ctx then Some p else None) :: log) x (mkObs w (if ctx then Some p else None) :: log))
        as (es & fin & x' & new & r & Y & HR & HP & Ok).
      exists es, fin, x', (new ++ [mkObs w (if ctx then Some p else None)]), r.
      split; [eapply y_ask; [exact w_sees|exact Y]|]. split; [|split; [exact HP|]].
      + rewrite <- app_assoc. exact HR.
      + apply Forall_app. split; [exact Ok|]. constructor; [|constructor]. split; [exact w_sees|exact w_in].
    - destruct (step_ok e x log) as (e' & x1 & n1 & r1 & Hrel & HS & HP & Ok).
      cbn [run]. rewrite HS. destruct r1 as [[]| |].
      + destruct (IH x1 (n1 ++ log)) as (es & fin & x' & new & r & Y & HR & HP' & Ok').
        exists (e' :: es), fin, x', (new ++ n1), r.
        split; [apply y_meet; assumption|]. split; [rewrite <- app_assoc; exact HR|]. split.
        * unfold plain in *. cbn [steps]. rewrite HP. exact HP'.
        * apply Forall_app. split; assumption.
      + exists [e'], Err, x1, n1, Err. split; [apply y_stop; assumption|]. split; [reflexivity|]. split; [|exact Ok].
        unfold plain. cbn [steps]. rewrite HP. reflexivity.
      + exists [e'], Err, x1, n1, Panic. split; [apply y_stop; assumption|]. split; [reflexivity|]. split; [|exact Ok].
        unfold plain. cbn [steps]. rewrite HP. reflexivity.
  Qed.
End Run.

(* ------------------------------------------------------------------ *)
(* Stages and their composition                                         *)

(* The stage [F] takes [x] with the answers [log] to [x'] with [new] more. *)
Definition traced {S A : Type} (F : S * tr -> (S * tr) * out A) (x : S) (log : list obs) (x' : S) (new : list obs)
    (r : out A) : Prop :=
  forall now, exists now', F (x, mkTr log now) = ((x', mkTr (new ++ log) now'), r).

(* [F] does what [G] does on some reports [p] of the kind [V]. *)
Definition simulates {S A P : Type} (F : S * tr -> (S * tr) * out A) (V : P -> Prop) (G : P -> S -> S * out A)
    (ok : list obs -> Prop) : Prop :=
  forall x log, exists p x' new r, V p /\ traced F x log x' new r /\ G p x = (x', r) /\ ok new.

(* Answers given by two stages, latest first. *)
Definition after (ok1 ok2 : list obs -> Prop) (l : list obs) : Prop :=
  exists l1 l2, l = l2 ++ l1 /\ ok1 l1 /\ ok2 l2.

Lemma simulates_join {S P1 P2 : Type} F Fs (V1 : P1 -> Prop) (V2 : P2 -> Prop)
    (G1 : P1 -> S -> S * out unit) (G2 : P2 -> list (S -> S * out unit)) ok1 (ok2 : list obs -> Prop) :
  ok2 [] ->
  simulates F V1 G1 ok1 -> simulates (join_errors Fs) V2 (fun p => join_errors (G2 p)) ok2 ->
  simulates (join_errors (F :: Fs)) (fun p => V1 (fst p) /\ V2 (snd p))
    (fun p => join_errors (G1 (fst p) :: G2 (snd p))) (after ok1 ok2).
Proof.
  intros O2 S1 S2 x log. destruct (S1 x log) as (p1 & x1 & n1 & r1 & V1p & T1 & H1 & K1).
  destruct (S2 x1 (n1 ++ log)) as (p2 & x2 & n2 & r2 & V2p & T2 & H2 & K2).
  destruct r1 as [[]| |].
  - exists (p1, p2), x2, (n2 ++ n1), (match r2 with Ret _ => Ret tt | e => e end).
    split; [split; assumption|]. split; [|split].
    + intros now. destruct (T1 now) as (now1 & E1). destruct (T2 now1) as (now2 & E2). exists now2.
      cbn [join_errors]. rewrite E1. rewrite E2, <- app_assoc. destruct r2 as [[]| |]; reflexivity.
    + cbn [join_errors fst snd]. rewrite H1, H2. destruct r2 as [[]| |]; reflexivity.
    + exists n1, n2. split; [reflexivity|]. split; assumption.
  - exists (p1, p2), x2, (n2 ++ n1), (match r2 with Ret _ => Err | e => e end).
    split; [split; assumption|]. split; [|split].
    + intros now. destruct (T1 now) as (now1 & E1). destruct (T2 now1) as (now2 & E2). exists now2.
      cbn [join_errors]. rewrite E1. rewrite E2, <- app_assoc. destruct r2 as [[]| |]; reflexivity.
    + cbn [join_errors fst snd]. rewrite H1, H2. destruct r2 as [[]| |]; reflexivity.
    + exists n1, n2. split; [reflexivity|]. split; assumption.
  - exists (p1, p2), x1, n1, Panic. split; [split; assumption|]. split; [|split].
    + intros now. destruct (T1 now) as (now1 & E1). exists now1. cbn [join_errors]. rewrite E1. reflexivity.
    + cbn [join_errors fst snd]. rewrite H1. reflexivity.
    + exists n1, []. split; [reflexivity|]. split; assumption.
Qed.

Lemma simulates_nil {S : Type} : simulates (@join_errors (S * tr) []) (fun _ : unit => True) (fun _ => @join_errors S []) (fun l => l = []).
Proof.
  intros x log. exists tt, x, [], (Ret tt). split; [exact I|]. split; [|split; reflexivity].
  intros now. exists now. reflexivity.
Qed.

(* Some reports. *)
Fixpoint pick {E E' A} (conv : E -> E') (w : what) (so : option pstate) (s : session E A) : list E' * out A :=
  match s with
  | Done a => ([], a)
  | Ask k => pick conv w so (k [mkObs w so])
  | Meet e k => let (es, a) := pick conv w so k in (conv e :: es, a)
  end.
Lemma pick_yields {E E' A} (rel : E -> E' -> Prop) conv w so (s : session E A) : sees w so -> (forall e, rel e (conv e)) ->
  yields rel w s (fst (pick conv w so s)) (snd (pick conv w so s)).
Proof.
  intros Hs HE. induction s as [a|k IH|e k IH]; cbn [pick].
  - constructor.
  - eapply y_ask; [exact Hs|]. apply IH.
  - destruct (pick conv w so k) as [es a]. cbn [fst snd] in *. apply y_meet; [apply HE|exact IH].
Qed.

Section Hooks.
  Variables J Sch : Type.
  Variable B : backend J Sch.
  Notation cunit := (cunit J Sch).
  Notation hunit := (hunit J Sch).

  (* The reports of a unit put into its plain members. *)
  Definition fill (u : cunit) (b : string -> list vkind * out (J * list (string * J)))
      (ps : string -> list (pevent J) * out bool) (hj : out bool) (j : list (string * J) * out J)
      (hd : list (prop J) * out (option string)) : cunit :=
    mkCU (cu_nil u) (cu_ctype u) (cu_format u) (cu_status u) (cu_default u) (cu_desc u) (cu_form_mapping u)
      (cu_custom_req u) (cu_custom_resp u) (v_force_body u) (v_force_json u) (v_slice u) (v_embedded_slice u)
      (v_struct u) (v_tagged u) (v_without_tags u) b ps (v_content_tags u) hj j hd.
  Definition body_only (u : cunit) (b : list vkind * out (J * list (string * J))) : cunit :=
    fill u (fun _ => b) (fun _ => ([], Err)) Err ([], Err) ([], Err).
  Definition params_only (u : cunit) (ps : list (pevent J) * out bool) : cunit :=
    fill u (fun _ => ([], Err)) (fun _ => ps) Err ([], Err) ([], Err).
  Definition resp_only (u : cunit) hj j hd : cunit := fill u (fun _ => ([], Err)) (fun _ => ([], Err)) hj j hd.

  (* ------------------------------------------------------------------ *)
  (* Definitions, values, headers                                         *)

  Lemma on_def_ok ws : forall (d : string * J) c log p, exists d' c' new r, d = d' /\
    on_def B d (c, mkTr log p) = ((c', mkTr (new ++ log) p), r) /\
    (fun d c => collect_definition B c (fst d) (snd d)) d' c = (c', r) /\ okl ws new.
  Proof.
    intros d c log p. unfold on_def. destruct (collect_definition B c (fst d) (snd d)) as [c' r] eqn:E.
    exists d, c', [], r. split; [reflexivity|]. split; [reflexivity|]. split; [exact E|constructor].
  Qed.

  Lemma steps_collect l : forall c, steps (fun d c => collect_definition B c (fst d) (snd d)) l c = collect_all B c l.
  Proof.
    induction l as [|[n j] l IH]; intros c; [reflexivity|]. cbn [steps collect_all fst snd].
    destruct (collect_definition B c n j) as [c' [[]| |]]; [apply IH|reflexivity|reflexivity].
  Qed.

  Lemma steps_headers l : forall res, steps (header_callback B) l res = run_headers B l res.
  Proof.
    induction l as [|q l IH]; intros res; [reflexivity|]. cbn [steps run_headers].
    destruct (header_callback B q res) as [res' [[]| |]]; [apply IH|reflexivity|reflexivity].
  Qed.

  Lemma collect_not_err l : forall c, snd (collect_all B c l) <> Err.
  Proof.
    induction l as [|[n j] l IH]; intros c; [discriminate|]. cbn [collect_all]. unfold collect_definition at 1.
    destruct (has n c); [apply IH|]. destruct (b_conv B j); [apply IH|discriminate|discriminate].
  Qed.

  Lemma steps_values l : forall b, steps (fun v b => (b || is_file v, Ret tt)) l b = (b || existsb is_file l, Ret tt).
  Proof.
    induction l as [|v l IH]; intros b; cbn [steps existsb].
    - rewrite orb_false_r. reflexivity.
    - rewrite IH, orb_assoc. reflexivity.
  Qed.

  Lemma no_event_ok {S : Type} ws : forall e (x : S) log p, exists e' x' new r, (fun _ _ : Empty_set => False) e e' /\
    no_event e (x, mkTr log p) = ((x', mkTr (new ++ log) p), r) /\
    (fun (e : Empty_set) (x : S) => match e return S * out unit with end) e' x = (x', r) /\ okl ws new.
  Proof. intros []. Qed.

  Lemma plain_none {S A : Type} (l : list Empty_set) (fin : out A) (x : S) :
    plain (fun (e : Empty_set) (x : S) => match e return S * out unit with end) l fin x = (x, fin).
  Proof. destruct l as [|[]]. reflexivity. Qed.

  (* ------------------------------------------------------------------ *)
  (* Parameters                                                           *)

  Definition set_reports (q : prop J) defs js pl : prop J :=
    mkProp (pr_processed q) (pr_depth q) (pr_name q) (pr_schema q) (pr_ptr q) (pr_cf q) (pr_tag_json q)
      (pr_tag_in q) defs js pl (pr_tags q).

  Lemma field_ws loc : okl [WParams loc; WField loc] [].
  Proof. constructor. Qed.

  Lemma build_param_sim loc q js pl c log : exists defs rj ps rp c' new r,
    yields eq (WField loc) js defs rj /\ yields (fun _ _ : Empty_set => False) (WField loc) pl ps rp /\
    h_build_param B loc q js pl (c, mkTr log (false, loc)) = ((c', mkTr (new ++ log) (false, loc)), r) /\
    build_param B c loc (set_reports q defs rj rp) = (c', r) /\ okl [WParams loc; WField loc] new.
  Proof.
    assert (In2 : In (WField loc) [WParams loc; WField loc]) by (right; left; reflexivity).
    destruct (run_sim (fun d c => collect_definition B c (fst d) (snd d)) eq (on_def B) (WField loc) true (false, loc)
                [WParams loc; WField loc] (fun d c log => on_def_ok _ d c log _) (se_field loc) In2 js c log)
      as (defs & rj & c1 & n1 & r1 & Y1 & R1 & P1 & K1).
    destruct (run_sim (fun (e : Empty_set) (x : comps Sch) => match e return comps Sch * out unit with end)
                (fun _ _ : Empty_set => False) no_event (WField loc) true (false, loc) [WParams loc; WField loc]
                (fun e x log => no_event_ok _ e x log _) (se_field loc) In2 pl c log)
      as (ps & rp & c2 & n2 & r2 & Y2 & R2 & P2 & K2).
    rewrite plain_none in P2. injection P2 as Ec Er. subst c2 r2.
    exists defs, rj, ps, rp.
    unfold h_build_param, reflect_in. cbn [t_log].
    destruct (b_conv B (pr_schema q)) as [s| |] eqn:EB.
    - destruct (is_json_param q) eqn:EJ.
      + rewrite R1. cbn beta iota.
        assert (G : build_param B c1 loc (with_reports q r1 Err) = build_param B c loc (set_reports q defs rj rp)).
        { unfold plain in P1. rewrite steps_collect in P1. pose proof (collect_not_err defs c) as NE.
          unfold build_param, with_reports, set_reports. cbn [pr_schema pr_ptr pr_name pr_cf pr_tag_json pr_tag_in pr_json_defs pr_json pr_plain pr_tags].
          rewrite EB. unfold is_json_param in EJ. rewrite EJ. cbn [collect_all].
          destruct (collect_all B c defs) as [c3 [[]| |]].
          - injection P1 as E1 E2. subst. reflexivity.
          - exfalso. apply NE. reflexivity.
          - injection P1 as E1 E2. subst. reflexivity. }
        rewrite <- G. destruct (build_param B c1 loc (with_reports q r1 Err)) as [c' r].
        exists c', n1, r. split; [exact Y1|]. split; [exact Y2|]. split; [reflexivity|]. split; [reflexivity|exact K1].
      + rewrite R2. cbn beta iota.
        assert (G : build_param B c loc (with_reports q Err rp) = build_param B c loc (set_reports q defs rj rp)).
        { unfold build_param, with_reports, set_reports. cbn [pr_schema pr_ptr pr_name pr_cf pr_tag_json pr_tag_in pr_json_defs pr_json pr_plain pr_tags].
          rewrite EB. unfold is_json_param in EJ. rewrite EJ. reflexivity. }
        rewrite <- G. destruct (build_param B c loc (with_reports q Err rp)) as [c' r].
        exists c', n2, r. split; [exact Y1|]. split; [exact Y2|]. split; [reflexivity|]. split; [reflexivity|exact K2].
    - exists c, [], Err. split; [exact Y1|]. split; [exact Y2|]. unfold build_param, with_reports, set_reports.
      cbn [pr_schema]. rewrite EB. split; [reflexivity|]. split; [reflexivity|constructor].
    - exists c, [], Panic. split; [exact Y1|]. split; [exact Y2|]. unfold build_param, with_reports, set_reports.
      cbn [pr_schema]. rewrite EB. split; [reflexivity|]. split; [reflexivity|constructor].
  Qed.

  Section Op.
  Variable R : Type.
  Notation op := (operation Sch R).
  Notation rst := (comps Sch * op)%type.

  Definition event_step (loc : string) (e : pevent J) (st : rst) : rst * out unit :=
    match e with
    | EProp q => param_callback B loc q st
    | EDef n j => let (c, x) := collect_definition B (fst st) n j in ((c, snd st), x)
    end.

  Lemma steps_events loc es : forall st : rst, steps (event_step loc) es st = run_events B loc es st.
  Proof.
    induction es as [|e es IH]; intros st; [reflexivity|]. cbn [steps run_events].
    unfold event_step at 1. destruct e as [q|n j].
    - destruct (param_callback B loc q st) as [st' [[]| |]]; [apply IH|reflexivity|reflexivity].
    - destruct (collect_definition B (fst st) n j) as [c [[]| |]]; [apply IH|reflexivity|reflexivity].
  Qed.

  Lemma on_param_ok loc : forall e (x : rst) log, exists e' x' new r, event_as loc e e' /\
    on_param B loc e (x, mkTr log (false, loc)) = ((x', mkTr (new ++ log) (false, loc)), r) /\
    event_step loc e' x = (x', r) /\ okl [WParams loc; WField loc] new.
  Proof.
    intros [q js pl|n j] [c o] log.
    - destruct (build_param_sim loc q js pl c log) as (defs & rj & ps & rp & c' & new & r & Y1 & Y2 & H & P & K).
      set (q' := set_reports q defs rj rp) in *.
      assert (EA : event_as loc (HProp q js pl) (EProp q')) by (eapply ea_prop; try reflexivity; [exact Y1|exact Y2]).
      destruct (negb (pr_processed q) || (1 <? pr_depth q)) eqn:EC.
      + exists (EProp q'), (c, o), [], (Ret tt). split; [exact EA|]. split; [|split; [|constructor]].
        * cbn [on_param]. unfold h_param_callback. rewrite EC. reflexivity.
        * cbn [event_step]. unfold param_callback. change (negb (pr_processed q') || (1 <? pr_depth q')) with
            (negb (pr_processed q) || (1 <? pr_depth q)). rewrite EC. reflexivity.
      + assert (G : exists x' r', on_param B loc (HProp q js pl) ((c, o), mkTr log (false, loc)) =
                      ((x', mkTr (new ++ log) (false, loc)), r') /\ event_step loc (EProp q') (c, o) = (x', r')).
        { cbn [on_param event_step]. unfold h_param_callback, param_callback.
          change (negb (pr_processed q') || (1 <? pr_depth q')) with (negb (pr_processed q) || (1 <? pr_depth q)).
          rewrite EC, H, P. destruct r as [pp| |].
          - destruct (already_exists (op_params o) (p_name pp) (p_in pp)); eexists _, _; split; reflexivity.
          - eexists _, _; split; reflexivity.
          - eexists _, _; split; reflexivity. }
        destruct G as (x' & r' & G1 & G2). exists (EProp q'), x', new, r'.
        split; [exact EA|]. split; [exact G1|]. split; [exact G2|exact K].
    - cbn [on_param]. destruct (collect_definition B c n j) as [c' r] eqn:E.
      exists (EDef n j), (c', o), [], r. split; [constructor|]. split; [reflexivity|]. split; [|constructor].
      cbn [event_step fst snd]. rewrite E. reflexivity.
  Qed.

  Definition right_params loc (h : hunit) (p : list (pevent J) * out bool) : Prop :=
    yields (event_as loc) (WParams loc) (h_params h loc) (fst p) (snd p).

  (* Answers about a location: none unless the structure has fields. *)
  Definition params_ok loc (h : hunit) (l : list obs) : Prop :=
    okl [WParams loc; WField loc] l /\ (l <> [] -> v_slice (h_unit h) = false).

  Definition pick_event (loc : string) (e : hevent J) : pevent J :=
    match e with
    | HProp q js pl =>
        let d := pick (fun d => d) (WField loc) (Some (false, loc)) js in
        EProp (set_reports q (fst d) (snd d) (snd (pick (fun e => e) (WField loc) (Some (false, loc)) pl)))
    | HDef n j => EDef n j
    end.
  Lemma events_exist loc (e : hevent J) : event_as loc e (pick_event loc e).
  Proof.
    destruct e as [q js pl|n j]; [|constructor].
    eapply ea_prop; try reflexivity.
    - apply (pick_yields eq (fun d => d)); [constructor|reflexivity].
    - apply (pick_yields (fun _ _ : Empty_set => False) (fun d => d)); [constructor|intros []].
  Qed.

  Lemma params_in_sim h loc :
    simulates (h_parse_parameters_in (R := R) B h loc) (right_params loc h)
      (fun p => parse_parameters_in B (params_only (h_unit h) p) loc) (params_ok loc h).
  Proof.
    intros x log. unfold h_parse_parameters_in, parse_parameters_in, params_only, fill. cbn [v_slice v_params].
    destruct (v_slice (h_unit h)) eqn:ES.
    - exists (pick (pick_event loc) (WParams loc) (Some (false, loc)) (h_params h loc)), x, [], (Ret tt).
      split; [apply pick_yields; [constructor|apply events_exist]|]. split; [intros now; exists now; reflexivity|].
      split; [reflexivity|]. split; [constructor|]. intros H. exfalso. apply H. reflexivity.
    - destruct (run_sim (event_step loc) (event_as loc) (on_param B loc) (WParams loc) true (false, loc)
                  [WParams loc; WField loc] (on_param_ok loc) (se_params loc) (or_introl eq_refl) (h_params h loc) x log)
        as (es & fin & x1 & new & r & Y & HR & HP & K).
      unfold plain in HP. rewrite steps_events in HP.
      assert (K' : params_ok loc h new) by (split; [exact K|intros _; exact ES]).
      destruct r as [b| |].
      + destruct x1 as [c1 o1].
        exists (es, fin), (c1, if b then set_ext o1 (put (x_forbid_unknown ^^ loc) (JBool true) (op_ext o1)) else o1), new, (Ret tt).
        split; [exact Y|]. split; [|split; [|exact K']].
        * intros now. exists (false, loc). unfold reflect_in. cbn [t_log]. rewrite HR. destruct b; reflexivity.
        * destruct (run_events B loc es x) as [st [[]| |]]; [|discriminate|discriminate].
          injection HP as E1 E2. subst. destruct b; reflexivity.
      + exists (es, fin), x1, new, Err. split; [exact Y|]. split; [|split; [|exact K']].
        * intros now. exists (false, loc). unfold reflect_in. cbn [t_log]. rewrite HR. destruct x1. reflexivity.
        * destruct (run_events B loc es x) as [st [[]| |]];
            [injection HP as E1 E2; subst; reflexivity|injection HP as E1; subst; reflexivity|discriminate].
      + exists (es, fin), x1, new, Panic. split; [exact Y|]. split; [|split; [|exact K']].
        * intros now. exists (false, loc). unfold reflect_in. cbn [t_log]. rewrite HR. destruct x1. reflexivity.
        * destruct (run_events B loc es x) as [st [[]| |]];
            [injection HP as E1 E2; subst; reflexivity|discriminate|injection HP as E1; subst; reflexivity].
  Qed.

  (* ------------------------------------------------------------------ *)
  (* Request bodies                                                       *)

  Definition right_body tag (h : hunit) (p : list vkind * out (J * list (string * J))) : Prop :=
    yields eq (WBody tag) (h_body h tag) (fst p) (snd p).
  Definition body_ok tag method (h : hunit) (l : list obs) : Prop :=
    okl [WProbe; WBody tag] l /\ (l <> [] -> safe_method method && negb (v_force_body (h_unit h)) = false).

  Lemma wanted_sim h method mapping tag more (x : rst) log : exists new r,
    traced (h_body_wanted (R := R) h method mapping tag more) x log x new r /\
    (forall b, body_wanted (body_only (h_unit h) b) method mapping tag more = r) /\ body_ok tag method h new.
  Proof.
    unfold h_body_wanted, body_wanted, body_only, fill.
    cbn [v_force_body v_tagged v_force_json v_struct v_without_tags v_slice v_embedded_slice].
    assert (Z : body_ok tag method h []) by (split; [constructor|intros H; exfalso; apply H; reflexivity]).
    destruct (safe_method method && negb (v_force_body (h_unit h))) eqn:E0.
    { exists [], (Ret false). split; [intros now; exists now; reflexivity|]. split; [reflexivity|exact Z]. }
    cbv zeta. set (tagged := existsb (v_tagged (h_unit h)) (tag :: more)).
    destruct (negb tagged && negb mapping && negb (String.eqb tag tag_json)).
    { exists [], (Ret false). split; [intros now; exists now; reflexivity|]. split; [reflexivity|exact Z]. }
    destruct (String.eqb tag tag_json && (v_tagged (h_unit h) tag_form_data || v_tagged (h_unit h) tag_form)
              && negb (v_force_json (h_unit h)) && negb (v_struct (h_unit h))).
    { exists [], (Ret false). split; [intros now; exists now; reflexivity|]. split; [reflexivity|exact Z]. }
    assert (K : body_ok tag method h [mkObs WProbe None]).
    { split; [constructor; [|constructor]|intros _; exact E0]. split; [constructor|left; reflexivity]. }
    unfold reflect_out, h_without.
    destruct (v_without_tags (h_unit h)) as [b| |].
    - destruct (negb tagged && negb (v_struct (h_unit h)) && negb mapping && negb (v_slice (h_unit h)) &&
                negb (v_embedded_slice (h_unit h)) && negb b) eqn:EE.
      + exists [mkObs WProbe None], (Ret false). split; [|split; [reflexivity|exact K]].
        intros now. exists now. cbn [run note t_log t_now]. rewrite EE. reflexivity.
      + exists [mkObs WProbe None], (Ret true). split; [|split; [reflexivity|exact K]].
        intros now. exists now. cbn [run note t_log t_now]. rewrite EE. reflexivity.
    - exists [mkObs WProbe None], Err. split; [|split; [reflexivity|exact K]]. intros now. exists now. reflexivity.
    - exists [mkObs WProbe None], Panic. split; [|split; [reflexivity|exact K]]. intros now. exists now. reflexivity.
  Qed.

  Lemma on_value_ok ws : forall v (b : bool) log p, exists v' b' new r, v = v' /\
    on_value v (b, mkTr log p) = ((b', mkTr (new ++ log) p), r) /\
    (fun v b => (b || is_file v, Ret tt)) v' b = (b', r) /\ okl ws new.
  Proof. intros v b log p. exists v, (b || is_file v), [], (Ret tt). split; [reflexivity|]. split; [reflexivity|]. split; [reflexivity|constructor]. Qed.

  Lemma request_body_sim h mime method mapping tag more :
    simulates (h_parse_request_body (R := R) B h mime method mapping tag more) (right_body tag h)
      (fun p => parse_request_body B (body_only (h_unit h) p) mime method mapping tag more) (body_ok tag method h).
  Proof.
    intros x log. destruct (wanted_sim h method mapping tag more x log) as (n1 & w & T1 & W & K1).
    destruct (run_sim (fun v b => (b || is_file v, Ret tt)) eq on_value (WBody tag) true (false, "body")
                [WProbe; WBody tag] (fun v b log => on_value_ok _ v b log _) (se_body tag)
                (or_intror (or_introl eq_refl)) (h_body h tag) false (n1 ++ log))
      as (es & fin & b1 & n2 & r & Y & HR & HP & K2).
    unfold plain in HP. rewrite steps_values in HP. cbn [orb] in HP. injection HP as E1 E2. subst b1 r.
    unfold h_parse_request_body, parse_request_body.
    destruct w as [[]| |].
    - assert (K : body_ok tag method h (n2 ++ n1)).
      { destruct K1 as [K1 K1'].
        assert (NZ : safe_method method && negb (v_force_body (h_unit h)) = false).
        { destruct (safe_method method && negb (v_force_body (h_unit h))) eqn:E; [|reflexivity].
          specialize (W ([], Err)). unfold body_wanted, body_only, fill in W. cbn [v_force_body] in W.
          rewrite E in W. discriminate. }
        split; [apply Forall_app; split; assumption|intros _; exact NZ]. }
      assert (H : exists x' r, traced (fun st => match h_body_wanted (R := R) h method mapping tag more st with
                    | (st, Err) => (st, Err)
                    | (st, Panic) => (st, Panic)
                    | (st, Ret false) => (st, Ret tt)
                    | ((s, t), Ret true) =>
                        match reflect_in on_value (WBody tag) (false, "body") (h_body h tag) (false, t) with
                        | ((_, t), Err) => ((s, t), Err)
                        | ((_, t), Panic) => ((s, t), Panic)
                        | ((files, t), Ret (j, defs)) =>
                            match b_conv B j with
                            | Err => ((s, t), Err)
                            | Panic => ((s, t), Panic)
                            | Ret sch =>
                                match put_definitions B (fst s) defs with
                                | (c, Ret _) =>
                                    (((c, with_body_content (snd s) (if String.eqb mime mime_form && files then mime_multipart else mime)
                                         (mkMedia (Some sch) JNull)), t), Ret tt)
                                | (c, r) => (((c, snd s), t), r)
                                end
                            end
                        end
                    end) x log x' (n2 ++ n1) r /\
                    parse_request_body B (body_only (h_unit h) (es, fin)) mime method mapping tag more x = (x', r)).
      { unfold parse_request_body. rewrite W. unfold body_only, fill. cbn [v_body].
        destruct fin as [[j defs]| |].
        - destruct (b_conv B j) as [sch| |] eqn:EB.
          + destruct (put_definitions B (fst x) defs) as [c [[]| |]] eqn:ED.
            * eexists _, _. split; [|reflexivity]. intros now. destruct (T1 now) as (now1 & E1). rewrite E1.
              exists (false, "body"). unfold reflect_in. cbn [t_log]. rewrite HR, EB, ED, <- app_assoc. reflexivity.
            * eexists _, _. split; [|reflexivity]. intros now. destruct (T1 now) as (now1 & E1). rewrite E1.
              exists (false, "body"). unfold reflect_in. cbn [t_log]. rewrite HR, EB, ED, <- app_assoc. reflexivity.
            * eexists _, _. split; [|reflexivity]. intros now. destruct (T1 now) as (now1 & E1). rewrite E1.
              exists (false, "body"). unfold reflect_in. cbn [t_log]. rewrite HR, EB, ED, <- app_assoc. reflexivity.
          + eexists _, _. split; [|reflexivity]. intros now. destruct (T1 now) as (now1 & E1). rewrite E1.
            exists (false, "body"). unfold reflect_in. cbn [t_log]. rewrite HR, EB, <- app_assoc. reflexivity.
          + eexists _, _. split; [|reflexivity]. intros now. destruct (T1 now) as (now1 & E1). rewrite E1.
            exists (false, "body"). unfold reflect_in. cbn [t_log]. rewrite HR, EB, <- app_assoc. reflexivity.
        - eexists _, _. split; [|reflexivity]. intros now. destruct (T1 now) as (now1 & E1). rewrite E1.
          exists (false, "body"). unfold reflect_in. cbn [t_log]. rewrite HR, <- app_assoc. reflexivity.
        - eexists _, _. split; [|reflexivity]. intros now. destruct (T1 now) as (now1 & E1). rewrite E1.
          exists (false, "body"). unfold reflect_in. cbn [t_log]. rewrite HR, <- app_assoc. reflexivity. }
      destruct H as (x' & r & T & G). exists (es, fin), x', (n2 ++ n1), r.
      split; [exact Y|]. split; [exact T|]. split; [exact G|exact K].
    - exists (es, fin), x, n1, (Ret tt). split; [exact Y|]. split; [|split; [|exact K1]].
      + intros now. destruct (T1 now) as (now1 & E1). exists now1. rewrite E1. destruct x. reflexivity.
      + rewrite W. reflexivity.
    - exists (es, fin), x, n1, Err. split; [exact Y|]. split; [|split; [|exact K1]].
      + intros now. destruct (T1 now) as (now1 & E1). exists now1. rewrite E1. destruct x. reflexivity.
      + rewrite W. reflexivity.
    - exists (es, fin), x, n1, Panic. split; [exact Y|]. split; [|split; [|exact K1]].
      + intros now. destruct (T1 now) as (now1 & E1). exists now1. rewrite E1. destruct x. reflexivity.
      + rewrite W. reflexivity.
  Qed.

  (* ------------------------------------------------------------------ *)
  (* Request units                                                        *)

  Definition four : Type := (list (pevent J) * out bool) * ((list (pevent J) * out bool) *
      ((list (pevent J) * out bool) * ((list (pevent J) * out bool) * unit))).
  Definition rep : Type := list vkind * out (J * list (string * J)).
  Definition right_all (h : hunit) (p : four) : Prop :=
    right_params "query" h (fst p) /\ right_params "path" h (fst (snd p)) /\
    right_params "cookie" h (fst (snd (snd p))) /\ right_params "header" h (fst (snd (snd (snd p)))) /\ True.
  Definition params_of (u : cunit) (p : four) : list (rst -> rst * out unit) :=
    [ parse_parameters_in B (params_only u (fst p)) "query"; parse_parameters_in B (params_only u (fst (snd p))) "path";
      parse_parameters_in B (params_only u (fst (snd (snd p)))) "cookie";
      parse_parameters_in B (params_only u (fst (snd (snd (snd p))))) "header" ].
  Definition all_ok (h : hunit) : list obs -> Prop :=
    after (params_ok "query" h) (after (params_ok "path" h) (after (params_ok "cookie" h)
      (after (params_ok "header" h) (fun l => l = [])))).

  Lemma params_ok_nil loc h : params_ok loc h [].
  Proof. split; [constructor|]. intros H. exfalso. apply H. reflexivity. Qed.
  Lemma after_nil (ok1 ok2 : list obs -> Prop) : ok1 [] -> ok2 [] -> after ok1 ok2 [].
  Proof. intros H1 H2. exists [], []. split; [reflexivity|]. split; assumption. Qed.
  Lemma all_ok_nil h : all_ok h [].
  Proof. unfold all_ok. repeat (apply after_nil; [apply params_ok_nil|]). reflexivity. Qed.
  Lemma body_ok_nil tag method h : body_ok tag method h [].
  Proof. split; [constructor|]. intros H. exfalso. apply H. reflexivity. Qed.

  Lemma parameters_sim h :
    simulates (h_parse_parameters (R := R) B h) (right_all h) (fun p => join_errors (params_of (h_unit h) p)) (all_ok h).
  Proof.
    pose proof (simulates_join (h_parse_parameters_in (R := R) B h "header") [] _ _ _ (fun _ : unit => []) _ _
                  eq_refl (params_in_sim h "header") simulates_nil) as S4.
    pose proof (simulates_join (h_parse_parameters_in (R := R) B h "cookie") _ _ _ _
                  (fun p => [parse_parameters_in B (params_only (h_unit h) (fst p)) "header"]) _ _
                  (after_nil _ _ (params_ok_nil "header" h) eq_refl) (params_in_sim h "cookie") S4) as S3.
    pose proof (simulates_join (h_parse_parameters_in (R := R) B h "path") _ _ _ _
                  (fun p => [parse_parameters_in B (params_only (h_unit h) (fst p)) "cookie";
                             parse_parameters_in B (params_only (h_unit h) (fst (snd p))) "header"]) _ _
                  (after_nil _ _ (params_ok_nil "cookie" h) (after_nil _ _ (params_ok_nil "header" h) eq_refl))
                  (params_in_sim h "path") S3) as S2.
    exact (simulates_join (h_parse_parameters_in (R := R) B h "query") _ _ _ _
             (fun p => [parse_parameters_in B (params_only (h_unit h) (fst p)) "path";
                        parse_parameters_in B (params_only (h_unit h) (fst (snd p))) "cookie";
                        parse_parameters_in B (params_only (h_unit h) (fst (snd (snd p)))) "header"]) _ _
             (after_nil _ _ (params_ok_nil "path" h) (after_nil _ _ (params_ok_nil "cookie" h)
                (after_nil _ _ (params_ok_nil "header" h) eq_refl)))
             (params_in_sim h "query") S2).
  Qed.

  (* The unit with all reports; those that were not asked for are any. *)
  Definition unit_of (h : hunit) pf pj (ps : four) : cunit :=
    fill (h_unit h)
      (fun tag => if String.eqb tag "formData" then pf else if String.eqb tag "json" then pj
                  else pick (fun v => v) (WBody tag) (Some (false, "body")) (h_body h tag))
      (fun loc => if String.eqb loc "query" then fst ps else if String.eqb loc "path" then fst (snd ps)
                  else if String.eqb loc "cookie" then fst (snd (snd ps)) else if String.eqb loc "header" then fst (snd (snd (snd ps)))
                  else pick (pick_event loc) (WParams loc) (Some (false, loc)) (h_params h loc))
      (snd (pick (fun e : Empty_set => e) WHasJSON None (h_has_json h)))
      (pick (fun d => d) WJSON (Some (true, "body")) (h_json h))
      (pick (fun d => d) WHeaders (Some (true, "header")) (h_headers h)).

  Lemma unit_of_reported h pf pj ps : right_body "formData" h pf -> right_body "json" h pj -> right_all h ps ->
    reported h (unit_of h pf pj ps).
  Proof.
    intros Hf Hj (Hq & Hp & Hc & Hh & _). constructor; try reflexivity; unfold unit_of, fill; cbn [v_body v_params v_has_json v_json v_headers].
    - intros tag. destruct (String.eqb_spec tag "formData") as [->|]; [exact Hf|].
      destruct (String.eqb_spec tag "json") as [->|]; [exact Hj|]. apply pick_yields; [constructor|reflexivity].
    - intros loc. destruct (String.eqb_spec loc "query") as [->|]; [exact Hq|].
      destruct (String.eqb_spec loc "path") as [->|]; [exact Hp|].
      destruct (String.eqb_spec loc "cookie") as [->|]; [exact Hc|].
      destruct (String.eqb_spec loc "header") as [->|]; [exact Hh|].
      apply pick_yields; [constructor|apply events_exist].
    - eexists. apply (pick_yields (fun _ _ : Empty_set => False) (fun e => e)); [constructor|intros []].
    - apply pick_yields; [constructor|reflexivity].
    - apply pick_yields; [constructor|reflexivity].
  Qed.

  Definition unit_ok method (h : hunit) (l : list obs) : Prop := Forall right l /\ request_answers method h (rev l).

  Lemma okl_right ws l : okl ws l -> Forall right l.
  Proof. apply Forall_impl. intros o [H _]. exact H. Qed.
  Lemma okl_about ws l : okl ws l -> about ws (rev l).
  Proof.
    intros H o Ho. apply in_rev in Ho. unfold okl in H. rewrite Forall_forall in H. destruct (H o Ho) as [_ H']. exact H'.
  Qed.
  Lemma rev_nonnil (l : list obs) : rev l <> [] -> l <> [].
  Proof. intros H E. subst l. apply H. reflexivity. Qed.

  Lemma all_ok_inv h l : all_ok h l -> exists q p c d, l = d ++ c ++ p ++ q /\
    params_ok "query" h q /\ params_ok "path" h p /\ params_ok "cookie" h c /\ params_ok "header" h d.
  Proof.
    intros (q & l1 & -> & Hq & p & l2 & -> & Hp & c & l3 & -> & Hc & d & l4 & -> & Hd & ->).
    exists q, p, c, d. cbn [app]. rewrite <- !app_assoc. auto.
  Qed.

  Lemma unit_ok_intro method h f q p c d j :
    body_ok "formData" method h f -> params_ok "query" h q -> params_ok "path" h p -> params_ok "cookie" h c ->
    params_ok "header" h d -> body_ok "json" method h j ->
    (f <> [] -> In (cu_ctype (h_unit h)) [""; "application/x-www-form-urlencoded"; "multipart/form-data"]) ->
    (j <> [] -> In (cu_ctype (h_unit h)) [""; "application/json"]) ->
    In (cu_ctype (h_unit h)) [""; "application/json"; "application/x-www-form-urlencoded"; "multipart/form-data"] ->
    unit_ok method h (j ++ (d ++ c ++ p ++ q) ++ f).
  Proof.
    intros [Hf Sf] [Hq Sq] [Hp Sp] [Hc Sc] [Hd Sd] [Hj Sj] Tf Tj Tp. split.
    - repeat (apply Forall_app; split); eapply okl_right; eassumption.
    - rewrite !rev_app_distr. rewrite <- !app_assoc. constructor; try (apply okl_about; assumption).
      + intros NE Hm. assert (H : safe_method method && negb (v_force_body (h_unit h)) = false).
        { destruct f as [|o f]; [|apply Sf; discriminate]. destruct j as [|o j]; [|apply Sj; discriminate].
          exfalso. apply NE. reflexivity. }
        assert (Sm : safe_method method = true).
        { unfold safe_method. apply mem_In. exact Hm. }
        rewrite Sm in H. cbn [andb] in H. apply negb_false_iff in H. exact H.
      + intros NE. apply Tf, rev_nonnil, NE.
      + intros NE. apply Tj, rev_nonnil, NE.
      + intros NE. split; [|exact Tp].
        destruct q as [|o q]; [|apply Sq; discriminate]. destruct p as [|o p]; [|apply Sp; discriminate].
        destruct c as [|o c]; [|apply Sc; discriminate]. destruct d as [|o d]; [|apply Sd; discriminate].
        exfalso. apply NE. reflexivity.
  Qed.

  Lemma unit_ok_nil method h : unit_ok method h [].
  Proof.
    split; [constructor|].
    change (rev []) with (([] ++ [] ++ [] ++ [] ++ [] ++ []) : list obs).
    assert (N : forall ws, about ws []) by (intros ws o []).
    constructor; try apply N; intros NE; exfalso; apply NE; reflexivity.
  Qed.

  Lemma request_unit_sim h method :
    simulates (h_request_unit (R := R) B h method) (reported h) (fun cu => request_unit B cu method) (unit_ok method h).
  Proof.
    assert (Pk : forall tag, right_body tag h (pick (fun v => v) (WBody tag) (Some (false, "body")) (h_body h tag)))
      by (intros tag; apply pick_yields; [constructor|reflexivity]).
    intros x log.
    assert (Content : exists cu x' new r, reported h cu /\ traced (h_request_content (R := R) B h method) x log x' new r /\
              request_content B cu method x = (x', r) /\ unit_ok method h new).
    { unfold h_request_content. destruct (String.eqb_spec (cu_ctype (h_unit h)) "") as [E1|E1].
      - assert (S3 : simulates (join_errors [ h_parse_request_body (R := R) B h mime_form method (cu_form_mapping (h_unit h)) tag_form_data [tag_form];
                          h_parse_parameters B h; h_parse_request_body B h mime_json method false tag_json [] ])
                  (fun p : rep * (four * (rep * unit)) => right_body "formData" h (fst p) /\ right_all h (fst (snd p)) /\ right_body "json" h (fst (snd (snd p))) /\ True)
                  (fun p => join_errors [ parse_request_body B (body_only (h_unit h) (fst p)) mime_form method (cu_form_mapping (h_unit h)) tag_form_data [tag_form];
                                join_errors (params_of (h_unit h) (fst (snd p)));
                                parse_request_body B (body_only (h_unit h) (fst (snd (snd p)))) mime_json method false tag_json [] ])
                  (after (body_ok "formData" method h) (after (all_ok h) (after (body_ok "json" method h) (fun l => l = []))))).
        { pose proof (simulates_join (h_parse_request_body (R := R) B h mime_json method false tag_json []) [] _ _ _
                        (fun _ : unit => []) _ _ eq_refl (request_body_sim h mime_json method false tag_json []) simulates_nil) as S1.
          pose proof (simulates_join (h_parse_parameters (R := R) B h) _ _ _ _
                        (fun p => [parse_request_body B (body_only (h_unit h) (fst p)) mime_json method false tag_json []]) _ _
                        (after_nil _ _ (body_ok_nil "json" method h) eq_refl) (parameters_sim h) S1) as S2.
          exact (simulates_join (h_parse_request_body (R := R) B h mime_form method (cu_form_mapping (h_unit h)) tag_form_data [tag_form])
                   _ _ _ _
                   (fun p => [join_errors (params_of (h_unit h) (fst p));
                              parse_request_body B (body_only (h_unit h) (fst (snd p))) mime_json method false tag_json []]) _ _
                   (after_nil _ _ (all_ok_nil h) (after_nil _ _ (body_ok_nil "json" method h) eq_refl))
                   (request_body_sim h mime_form method (cu_form_mapping (h_unit h)) tag_form_data [tag_form]) S2). }
        destruct (S3 x log) as ((pf & pa & pj & pu) & x' & new & r & (Vf & Va & Vj & _) & T & G & K).
        cbn [fst snd] in Vf, Va, Vj, G.
        destruct K as (l1 & l2 & -> & K1 & l3 & l4 & -> & K3 & l5 & l6 & -> & K5 & ->).
        destruct (all_ok_inv _ _ K3) as (q & p & c & d & -> & Hq & Hp & Hc & Hd).
        exists (unit_of h pf pj pa),
          (match r with Ret _ => (fst x', parse_raw_request_body B (h_unit h) (snd x')) | _ => x' end),
          ((([] ++ l5) ++ (d ++ c ++ p ++ q)) ++ l1), (match r with Ret _ => Ret tt | e => e end).
        split; [apply unit_of_reported; assumption|]. split; [|split].
        + intros now. destruct (T now) as (now' & E). exists now'. rewrite E. destruct x' as [c' o'].
          destruct r as [[]| |]; reflexivity.
        + unfold request_content. change (cu_ctype (unit_of h pf pj pa)) with (cu_ctype (h_unit h)). rewrite E1.
          cbn [String.eqb]. change (join_errors _ x) with
            (join_errors [ parse_request_body B (body_only (h_unit h) pf) mime_form method (cu_form_mapping (h_unit h)) tag_form_data [tag_form];
                           join_errors (params_of (h_unit h) pa);
                           parse_request_body B (body_only (h_unit h) pj) mime_json method false tag_json [] ] x).
          rewrite G. destruct x' as [c' o']. destruct r as [[]| |]; reflexivity.
        + cbn [app]. rewrite <- app_assoc. apply unit_ok_intro; try assumption.
          * intros _. rewrite E1. left. reflexivity.
          * intros _. rewrite E1. left. reflexivity.
          * rewrite E1. left. reflexivity.
      - destruct (String.eqb_spec (cu_ctype (h_unit h)) mime_json) as [E2|E2].
        + assert (S3 : simulates (join_errors [ h_parse_parameters (R := R) B h; h_parse_request_body B h mime_json method false tag_json [] ])
                  (fun p : four * (rep * unit) => right_all h (fst p) /\ right_body "json" h (fst (snd p)) /\ True)
                  (fun p => join_errors [ join_errors (params_of (h_unit h) (fst p));
                                parse_request_body B (body_only (h_unit h) (fst (snd p))) mime_json method false tag_json [] ])
                  (after (all_ok h) (after (body_ok "json" method h) (fun l => l = [])))).
          { pose proof (simulates_join (h_parse_request_body (R := R) B h mime_json method false tag_json []) [] _ _ _
                        (fun _ : unit => []) _ _ eq_refl (request_body_sim h mime_json method false tag_json []) simulates_nil) as S1.
            exact (simulates_join (h_parse_parameters (R := R) B h) _ _ _ _
                        (fun p => [parse_request_body B (body_only (h_unit h) (fst p)) mime_json method false tag_json []]) _ _
                        (after_nil _ _ (body_ok_nil "json" method h) eq_refl) (parameters_sim h) S1). }
          destruct (S3 x log) as ((pa & pj & pu) & x' & new & r & (Va & Vj & _) & T & G & K).
          cbn [fst snd] in Va, Vj, G.
          destruct K as (l3 & l4 & -> & K3 & l5 & l6 & -> & K5 & ->).
          destruct (all_ok_inv _ _ K3) as (q & p & c & d & -> & Hq & Hp & Hc & Hd).
          exists (unit_of h (pick (fun v => v) (WBody "formData") (Some (false, "body")) (h_body h "formData")) pj pa), x',
            (([] ++ l5) ++ (d ++ c ++ p ++ q)), r.
          split; [apply unit_of_reported; [apply Pk|assumption|assumption]|]. split; [exact T|]. split.
          * unfold request_content. change (cu_ctype (unit_of h _ pj pa)) with (cu_ctype (h_unit h)). rewrite E2. exact G.
          * cbn [app]. rewrite <- (app_nil_r (d ++ c ++ p ++ q)). apply unit_ok_intro; try assumption.
            -- apply body_ok_nil.
            -- intros H. exfalso. apply H. reflexivity.
            -- intros _. rewrite E2. right. left. reflexivity.
            -- rewrite E2. right. left. reflexivity.
        + destruct (String.eqb (cu_ctype (h_unit h)) mime_form || String.eqb (cu_ctype (h_unit h)) mime_multipart) eqn:E3.
          * assert (S3 : simulates (join_errors [ h_parse_request_body (R := R) B h mime_form method (cu_form_mapping (h_unit h)) tag_form_data [tag_form];
                            h_parse_parameters B h ])
                  (fun p : rep * (four * unit) => right_body "formData" h (fst p) /\ right_all h (fst (snd p)) /\ True)
                  (fun p => join_errors [ parse_request_body B (body_only (h_unit h) (fst p)) mime_form method (cu_form_mapping (h_unit h)) tag_form_data [tag_form];
                                          join_errors (params_of (h_unit h) (fst (snd p))) ])
                  (after (body_ok "formData" method h) (after (all_ok h) (fun l => l = [])))).
            { pose proof (simulates_join (h_parse_parameters (R := R) B h) [] _ _ _ (fun _ : unit => []) _ _ eq_refl
                            (parameters_sim h) simulates_nil) as S1.
              exact (simulates_join (h_parse_request_body (R := R) B h mime_form method (cu_form_mapping (h_unit h)) tag_form_data [tag_form])
                       _ _ _ _ (fun p => [join_errors (params_of (h_unit h) (fst p))]) _ _
                       (after_nil _ _ (all_ok_nil h) eq_refl)
                       (request_body_sim h mime_form method (cu_form_mapping (h_unit h)) tag_form_data [tag_form]) S1). }
            destruct (S3 x log) as ((pf & pa & pu) & x' & new & r & (Vf & Va & _) & T & G & K).
            cbn [fst snd] in Va, Vf, G.
            destruct K as (l1 & l2 & -> & K1 & l3 & l4 & -> & K3 & ->).
            destruct (all_ok_inv _ _ K3) as (q & p & c & d & -> & Hq & Hp & Hc & Hd).
            exists (unit_of h pf (pick (fun v => v) (WBody "json") (Some (false, "body")) (h_body h "json")) pa), x',
              (([] ++ (d ++ c ++ p ++ q)) ++ l1), r.
            assert (CT : In (cu_ctype (h_unit h)) ["application/x-www-form-urlencoded"; "multipart/form-data"]).
            { apply orb_prop in E3. destruct E3 as [E|E]; apply String.eqb_eq in E; rewrite E; [left|right; left]; reflexivity. }
            split; [apply unit_of_reported; [assumption|apply Pk|assumption]|]. split; [exact T|]. split.
            -- unfold request_content. change (cu_ctype (unit_of h pf _ pa)) with (cu_ctype (h_unit h)).
               destruct (String.eqb_spec (cu_ctype (h_unit h)) "") as [E|_]; [contradiction|].
               destruct (String.eqb_spec (cu_ctype (h_unit h)) mime_json) as [E|_]; [contradiction|].
               rewrite E3. exact G.
            -- change (([] ++ (d ++ c ++ p ++ q)) ++ l1) with ([] ++ (d ++ c ++ p ++ q) ++ l1). apply unit_ok_intro; try assumption.
               ++ apply body_ok_nil.
               ++ intros _. right. exact CT.
               ++ intros H. exfalso. apply H. reflexivity.
               ++ right. right. exact CT.
          * destruct x as [c0 o0].
            exists (unit_of h (pick (fun v => v) (WBody "formData") (Some (false, "body")) (h_body h "formData"))
                     (pick (fun v => v) (WBody "json") (Some (false, "body")) (h_body h "json"))
                     (pick (pick_event "query") (WParams "query") (Some (false, "query")) (h_params h "query"),
                      (pick (pick_event "path") (WParams "path") (Some (false, "path")) (h_params h "path"),
                       (pick (pick_event "cookie") (WParams "cookie") (Some (false, "cookie")) (h_params h "cookie"),
                        (pick (pick_event "header") (WParams "header") (Some (false, "header")) (h_params h "header"), tt))))).
            exists (c0, string_request_body B o0 (cu_ctype (h_unit h)) (cu_format (h_unit h))), [], (Ret tt).
            split; [|split; [|split]].
            -- apply unit_of_reported; [apply Pk|apply Pk|]. unfold right_all, right_params. cbn [fst snd].
               split; [apply pick_yields; [constructor|apply events_exist]|].
               split; [apply pick_yields; [constructor|apply events_exist]|].
               split; [apply pick_yields; [constructor|apply events_exist]|].
               split; [apply pick_yields; [constructor|apply events_exist]|exact I].
            -- intros now. exists now. reflexivity.
            -- unfold request_content. change (cu_ctype (unit_of h _ _ _)) with (cu_ctype (h_unit h)).
               destruct (String.eqb_spec (cu_ctype (h_unit h)) "") as [E|_]; [contradiction|].
               destruct (String.eqb_spec (cu_ctype (h_unit h)) mime_json) as [E|_]; [contradiction|].
               rewrite E3. reflexivity.
            -- apply unit_ok_nil. }
    destruct Content as (cu & x1 & new & r & V & T & G & K).
    exists cu, (match r with Ret _ => (fst x1, customize_body (h_unit h) (describe_body (h_unit h) (snd x1))) | _ => x1 end), new,
      (match r with Ret _ => Ret tt | e => e end).
    split; [exact V|]. split; [|split; [|exact K]].
    - intros now. destruct (T now) as (now' & E). exists now'. unfold h_request_unit. rewrite E. destruct x1 as [c1 o1].
      destruct r as [[]| |]; reflexivity.
    - unfold request_unit. rewrite G. destruct x1 as [c1 o1]. destruct r as [[]| |]; try reflexivity.
      unfold customize_body, describe_body. rewrite (rp_custom_req _ _ _ _ V), (rp_desc _ _ _ _ V). reflexivity.
  Qed.

  (* setupRequest *)
  Lemma setup_request_sim method : forall hs,
    forall (x : rst) log, exists cus x' new r n, Forall2 reported hs cus /\
      traced (h_setup_request (R := R) B hs method) x log x' new r /\ setup_request B cus method x = (x', r) /\
      Forall right new /\ in_turn (request_answers method) hs n (rev new) /\ (r = Ret tt -> n = length hs).
  Proof.
    induction hs as [|h hs IH]; intros x log.
    - exists [], x, [], (Ret tt), 0. split; [constructor|]. split; [intros now; exists now; reflexivity|].
      split; [reflexivity|]. split; [constructor|]. split; [constructor|reflexivity].
    - destruct (request_unit_sim h method x log) as (cu & x1 & n1 & r1 & V1 & T1 & G1 & K1a & K1b).
      destruct (IH x1 (n1 ++ log)) as (cus & x2 & n2 & r2 & n & V2 & T2 & G2 & K2a & K2b & K2c).
      destruct r1 as [[]| |].
      + exists (cu :: cus), x2, (n2 ++ n1), r2, (S n). split; [constructor; assumption|]. split; [|split; [|split; [|split]]].
        * intros now. destruct (T1 now) as (now1 & E1). destruct (T2 now1) as (now2 & E2). exists now2.
          cbn [h_setup_request]. rewrite E1, E2, <- app_assoc. reflexivity.
        * cbn [setup_request]. rewrite G1. exact G2.
        * apply Forall_app. split; assumption.
        * rewrite rev_app_distr. apply it_next; assumption.
        * intros Er. cbn [length]. rewrite (K2c Er). reflexivity.
      + exists (cu :: cus), x1, n1, Err, 1. split; [constructor; assumption|]. split; [|split; [|split; [|split]]].
        * intros now. destruct (T1 now) as (now1 & E1). exists now1. cbn [h_setup_request]. rewrite E1. reflexivity.
        * cbn [setup_request]. rewrite G1. reflexivity.
        * assumption.
        * rewrite <- (app_nil_r (rev n1)). apply it_next; [assumption|constructor].
        * discriminate.
      + exists (cu :: cus), x1, n1, Panic, 1. split; [constructor; assumption|]. split; [|split; [|split; [|split]]].
        * intros now. destruct (T1 now) as (now1 & E1). exists now1. cbn [h_setup_request]. rewrite E1. reflexivity.
        * cbn [setup_request]. rewrite G1. reflexivity.
        * assumption.
        * rewrite <- (app_nil_r (rev n1)). apply it_next; [assumption|constructor].
        * discriminate.
  Qed.
  End Op.

  (* ------------------------------------------------------------------ *)
  (* Responses                                                            *)

  Notation pst := (comps Sch * response Sch)%type.

  Definition jrep : Type := out bool * (list (string * J) * out J).
  Definition right_json (h : hunit) (p : jrep) : Prop :=
    (exists es, yields (fun _ _ : Empty_set => False) WHasJSON (h_has_json h) es (fst p)) /\
    yields eq WJSON (h_json h) (fst (snd p)) (snd (snd p)).
  Definition json_ok (h : hunit) (l : list obs) : Prop :=
    exists a b, l = b ++ a /\ okl [WHasJSON] a /\ okl [WJSON] b /\ (l <> [] -> cu_nil (h_unit h) = false).
  Definition right_headers (h : hunit) (p : list (prop J) * out (option string)) : Prop :=
    yields eq WHeaders (h_headers h) (fst p) (snd p).
  Definition headers_ok (h : hunit) (l : list obs) : Prop :=
    okl [WHeaders] l /\ (l <> [] -> cu_nil (h_unit h) = false).

  Lemma json_sim h ctype :
    simulates (h_parse_json_response B h ctype) (right_json h)
      (fun p => parse_json_response B (resp_only (h_unit h) (fst p) (snd p) ([], Err)) ctype) (json_ok h).
  Proof.
    intros [c r] log.
    unfold h_parse_json_response, parse_json_response, resp_only, fill. cbn [cu_nil v_has_json v_json].
    destruct (cu_nil (h_unit h)) eqn:EN.
    { exists (snd (pick (fun e : Empty_set => e) WHasJSON None (h_has_json h)),
              pick (fun d => d) WJSON (Some (true, "body")) (h_json h)), (c, r), [], (Ret tt).
      split; [|split; [intros now; exists now; reflexivity|split; [reflexivity|]]].
      - split; [eexists; apply (pick_yields (fun _ _ : Empty_set => False) (fun e => e)); [constructor|intros []]|].
        apply pick_yields; [constructor|reflexivity].
      - exists [], []. split; [reflexivity|]. split; [constructor|]. split; [constructor|].
        intros H. exfalso. apply H. reflexivity. }
    assert (HH : exists es fin n1, yields (fun _ _ : Empty_set => False) WHasJSON (h_has_json h) es fin /\
              okl [WHasJSON] n1 /\ forall now, reflect_out no_event WHasJSON (h_has_json h) ((c, r), mkTr log now) =
                (((c, r), mkTr (n1 ++ log) now), fin)).
    { clear EN. generalize (h_has_json h). intros s. revert log. induction s as [a|k IH|[] k IH]; intros log.
      - exists [], a, []. split; [constructor|]. split; [constructor|]. reflexivity.
      - destruct (IH (mkObs WHasJSON None :: log) (mkObs WHasJSON None :: log)) as (es & fin & n1 & Y & K & H).
        exists es, fin, (n1 ++ [mkObs WHasJSON None]). split; [eapply y_ask; [constructor|exact Y]|]. split.
        + apply Forall_app. split; [exact K|]. constructor; [|constructor]. split; [constructor|left; reflexivity].
        + intros now. rewrite <- app_assoc. exact (H now). }
    destruct HH as (es1 & fin1 & n1 & Y1 & K1 & H1).
    destruct (run_sim (fun d c => collect_definition B c (fst d) (snd d)) eq (on_def B) WJSON true (true, "body")
                [WJSON] (fun d c log => on_def_ok _ d c log _) se_json (or_introl eq_refl) (h_json h) c (n1 ++ log))
      as (es2 & fin2 & c2 & n2 & r2 & Y2 & R2 & P2 & K2).
    unfold plain in P2. rewrite steps_collect in P2. pose proof (collect_not_err es2 c) as NE.
    assert (KA : json_ok h n1).
    { exists n1, []. split; [reflexivity|]. split; [exact K1|]. split; [constructor|]. intros _. exact EN. }
    assert (KB : json_ok h (n2 ++ n1)).
    { exists n1, n2. split; [reflexivity|]. split; [exact K1|]. split; [exact K2|]. intros _. exact EN. }
    assert (V : right_json h (fin1, (es2, fin2))) by (split; [exists es1; exact Y1|exact Y2]).
    destruct fin1 as [[]| |].
    2:{ exists (Ret false, (es2, fin2)), (c, r), n1, (Ret tt). split; [exact V|]. split; [|split; [reflexivity|exact KA]].
        intros now. exists now. rewrite H1. reflexivity. }
    3:{ exists (Panic, (es2, fin2)), (c, r), n1, Panic. split; [exact V|]. split; [|split; [reflexivity|exact KA]].
        intros now. exists now. rewrite H1. reflexivity. }
    all: cbn [fst snd].
    all: match goal with V : right_json _ (?f, _) |- _ => exists (f, (es2, fin2)) end.
    all: cbn [fst snd].
    all: destruct r2 as [j| |].
    all: try (destruct (b_conv B j) as [sch| |] eqn:EB).
    all: destruct (collect_all B c es2) as [c3 [[]| |]] eqn:EC; try discriminate P2; try (exfalso; apply NE; reflexivity).
    all: inversion P2; subst; clear P2.
    all: eexists _, (n2 ++ n1), _; split; [exact V|]; split; [|split; [rewrite ?EB; reflexivity|exact KB]].
    all: intros now; exists (true, "body"); rewrite H1; unfold reflect_in; cbn [t_log]; rewrite R2, ?EB, <- app_assoc; reflexivity.
  Qed.

  Lemma on_header_ok ws : forall q (res : smap (header Sch)) log p, exists q' res' new r, q = q' /\
    on_header B q (res, mkTr log p) = ((res', mkTr (new ++ log) p), r) /\ header_callback B q' res = (res', r) /\ okl ws new.
  Proof.
    intros q res log p. unfold on_header. destruct (header_callback B q res) as [res' r] eqn:E.
    exists q, res', [], r. split; [reflexivity|]. split; [reflexivity|]. split; [exact E|constructor].
  Qed.

  Lemma headers_sim h :
    simulates (h_parse_response_header B h) (right_headers h)
      (fun p => parse_response_header B (resp_only (h_unit h) Err ([], Err) p)) (headers_ok h).
  Proof.
    intros [c r] log.
    unfold h_parse_response_header, parse_response_header, resp_only, fill. cbn [cu_nil v_headers].
    destruct (cu_nil (h_unit h)) eqn:EN.
    { exists (pick (fun d => d) WHeaders (Some (true, "header")) (h_headers h)), (c, r), [], (Ret tt).
      split; [apply pick_yields; [constructor|reflexivity]|]. split; [intros now; exists now; reflexivity|].
      split; [reflexivity|]. split; [constructor|]. intros H. exfalso. apply H. reflexivity. }
    destruct (run_sim (header_callback B) eq (on_header B) WHeaders true (true, "header")
                [WHeaders] (fun d c log => on_header_ok _ d c log _) se_headers (or_introl eq_refl) (h_headers h) [] log)
      as (es & fin & res & n & r1 & Y & HR & HP & K).
    unfold plain in HP. rewrite steps_headers in HP.
    assert (K' : headers_ok h n) by (split; [exact K|intros _; exact EN]).
    exists (es, fin). destruct r1 as [d| |].
    - exists (c, fill_desc d (set_headers r res)), n, (Ret tt). split; [exact Y|]. split; [|split; [|exact K']].
      + intros now. exists (true, "header"). unfold reflect_in. cbn [t_log]. rewrite HR. reflexivity.
      + destruct (run_headers B es []) as [res' [[]| |]]; try discriminate HP. injection HP as E1 E2. subst. reflexivity.
    - exists (c, r), n, Err. split; [exact Y|]. split; [|split; [|exact K']].
      + intros now. exists (true, "header"). unfold reflect_in. cbn [t_log]. rewrite HR. reflexivity.
      + destruct (run_headers B es []) as [res' [[]| |]]; try discriminate HP; [|reflexivity].
        injection HP as E1 E2. subst. reflexivity.
    - exists (c, r), n, Panic. split; [exact Y|]. split; [|split; [|exact K']].
      + intros now. exists (true, "header"). unfold reflect_in. cbn [t_log]. rewrite HR. reflexivity.
      + destruct (run_headers B es []) as [res' [[]| |]]; try discriminate HP; [|reflexivity].
        injection HP as E1 E2. subst. reflexivity.
  Qed.

  Definition resp_of (h : hunit) (pj : jrep) (ph : list (prop J) * out (option string)) : cunit :=
    fill (h_unit h) (fun tag => pick (fun v => v) (WBody tag) (Some (false, "body")) (h_body h tag))
      (fun loc => pick (pick_event loc) (WParams loc) (Some (false, loc)) (h_params h loc)) (fst pj) (snd pj) ph.
  Lemma resp_of_reported h pj ph : right_json h pj -> right_headers h ph -> reported h (resp_of h pj ph).
  Proof.
    intros [Hh Hj] Hd. constructor; try reflexivity; unfold resp_of, fill; cbn [v_body v_params v_has_json v_json v_headers].
    - intros tag. apply pick_yields; [constructor|reflexivity].
    - intros loc. apply pick_yields; [constructor|apply events_exist].
    - exact Hh.
    - exact Hj.
    - exact Hd.
  Qed.

  Definition resp_ok method (h : hunit) (l : list obs) : Prop := Forall right l /\ response_answers method h (rev l).

  Lemma resp_ok_intro method h a b d : okl [WHasJSON] a -> okl [WJSON] b -> okl [WHeaders] d ->
    (a ++ b <> [] -> to_upper method <> "HEAD") -> (b ++ a <> [] -> cu_nil (h_unit h) = false) ->
    (d <> [] -> cu_nil (h_unit h) = false) -> resp_ok method h (d ++ b ++ a).
  Proof.
    intros Ha Hb Hd T N1 N2. split.
    - repeat (apply Forall_app; split); eapply okl_right; eassumption.
    - rewrite !rev_app_distr. rewrite <- app_assoc. constructor; try (apply okl_about; assumption).
      + intros NE. apply T. intros E. apply app_eq_nil in E. destruct E as [-> ->]. apply NE. reflexivity.
      + intros NE. destruct d as [|o d]; [|apply N2; discriminate]. destruct b as [|o b]; [|apply N1; discriminate].
        destruct a as [|o a]; [|apply N1; discriminate]. exfalso. apply NE. reflexivity.
  Qed.

  Lemma headers_ok_nil h : headers_ok h [].
  Proof. split; [constructor|]. intros H. exfalso. apply H. reflexivity. Qed.

  Lemma fill_response_sim h method :
    simulates (h_fill_response B h method) (reported h) (fun cu => fill_response B cu method) (resp_ok method h).
  Proof.
    intros x log.
    set (ctype := before_semicolon (cu_ctype (h_unit h))).
    assert (Pj : right_json h (snd (pick (fun e : Empty_set => e) WHasJSON None (h_has_json h)),
                               pick (fun d => d) WJSON (Some (true, "body")) (h_json h))).
    { split; [eexists; apply (pick_yields (fun _ _ : Empty_set => False) (fun e => e)); [constructor|intros []]|].
      apply pick_yields; [constructor|reflexivity]. }
    set (hfilled := fun st : pst * tr =>
      if negb (String.eqb (to_upper method) "HEAD") then
        match join_errors [ h_parse_json_response B h ctype; h_parse_response_header B h ] st with
        | (((c, r), t), Ret _) =>
            (((c, if is_empty ctype then parse_raw_response_body B (h_unit h) r
                  else ensure_content_type B (parse_raw_response_body B (h_unit h) r) ctype (cu_format (h_unit h))), t), Ret tt)
        | x => x
        end
      else h_parse_response_header B h st).
    set (filled := fun (cu : cunit) (st : pst) =>
      if negb (String.eqb (to_upper method) "HEAD") then
        match join_errors [ parse_json_response B cu ctype; parse_response_header B cu ] st with
        | ((c, r), Ret _) =>
            ((c, if is_empty ctype then parse_raw_response_body B (h_unit h) r
                  else ensure_content_type B (parse_raw_response_body B (h_unit h) r) ctype (cu_format (h_unit h))), Ret tt)
        | x => x
        end
      else parse_response_header B cu st).
    assert (F : exists pj ph x' new r, right_json h pj /\ right_headers h ph /\ traced hfilled x log x' new r /\
              filled (resp_of h pj ph) x = (x', r) /\ resp_ok method h new).
    { unfold hfilled, filled. destruct (String.eqb_spec (to_upper method) "HEAD") as [EH|EH]; cbn [negb].
      - destruct (headers_sim h x log) as (ph & x' & new & r & V & T & G & K1 & K2).
        eexists _, ph, x', new, r. split; [exact Pj|]. split; [exact V|]. split; [exact T|]. split; [exact G|].
        rewrite <- (app_nil_r new). change (@nil obs) with (([] ++ []) : list obs). apply resp_ok_intro.
        + constructor.
        + constructor.
        + exact K1.
        + intros NE. exfalso. apply NE. reflexivity.
        + intros NE. exfalso. apply NE. reflexivity.
        + exact K2.
      - pose proof (simulates_join (h_parse_response_header B h) [] _ _ _ (fun _ : unit => []) _ _ eq_refl (headers_sim h) simulates_nil) as S1.
        pose proof (simulates_join (h_parse_json_response B h ctype) _ _ _ _
                      (fun p => [parse_response_header B (resp_only (h_unit h) Err ([], Err) (fst p))]) _ _
                      (after_nil _ _ (headers_ok_nil h) eq_refl)
                      (json_sim h ctype) S1) as S2.
        destruct (S2 x log) as ((pj & ph & []) & [c1 r1] & new & r & (Vj & Vh & _) & T & G & K).
        cbn [fst snd] in Vj, Vh, G.
        exists pj, ph, (match r with Ret _ => (c1, if is_empty ctype then parse_raw_response_body B (h_unit h) r1
                  else ensure_content_type B (parse_raw_response_body B (h_unit h) r1) ctype (cu_format (h_unit h))) | _ => (c1, r1) end),
          new, (match r with Ret _ => Ret tt | e => e end).
        split; [exact Vj|]. split; [exact Vh|]. split; [|split].
        + intros now. destruct (T now) as (now' & E). exists now'. rewrite E. destruct r as [[]| |]; reflexivity.
        + assert (G' : join_errors [parse_json_response B (resp_of h pj ph) ctype; parse_response_header B (resp_of h pj ph)] x
                       = ((c1, r1), r)) by exact G.
          rewrite G'. destruct r as [[]| |]; reflexivity.
        + destruct K as (l1 & l2 & -> & (a & b & -> & Ka & Kb & Kn) & l3 & l4 & -> & (K3 & K3') & ->).
          cbn [app]. apply resp_ok_intro; try assumption. intros _. exact EH. }
    destruct F as (pj & ph & x1 & new & r & Vj & Vh & T & G & K).
    pose proof (resp_of_reported h pj ph Vj Vh) as V. exists (resp_of h pj ph).
    set (fin := fun rr : response Sch =>
      let rr := if is_empty (cu_desc (h_unit h)) then rr else set_desc rr (cu_desc (h_unit h)) in
      if is_empty (rs_desc rr) then set_desc rr (status_text (norm_status (h_unit h))) else rr).
    exists (match r with Ret _ => (fst x1, fin (snd x1)) | _ => x1 end), new, (match r with Ret _ => Ret tt | e => e end).
    split; [exact V|]. split; [|split; [|exact K]].
    - intros now. destruct (T now) as (now' & E). exists now'.
      unfold h_fill_response. cbv zeta. unfold hfilled, ctype in E. cbv beta in E. rewrite E.
      destruct x1 as [c1 r1]. destruct r as [[]| |]; reflexivity.
    - assert (G' : (if negb (String.eqb (to_upper method) "HEAD")
                    then
                     match join_errors [parse_json_response B (resp_of h pj ph) (before_semicolon (cu_ctype (resp_of h pj ph)));
                                        parse_response_header B (resp_of h pj ph)] x with
                     | (c, r, Ret _) =>
                         (c, if is_empty (before_semicolon (cu_ctype (resp_of h pj ph)))
                             then parse_raw_response_body B (resp_of h pj ph) r
                             else ensure_content_type B (parse_raw_response_body B (resp_of h pj ph) r)
                                    (before_semicolon (cu_ctype (resp_of h pj ph))) (cu_format (resp_of h pj ph)), Ret tt)
                     | (c, r, Err) => (c, r, Err)
                     | (c, r, Panic) => (c, r, Panic)
                     end
                    else parse_response_header B (resp_of h pj ph) x) = (x1, r)).
      { rewrite <- G. unfold filled. destruct (negb (String.eqb (to_upper method) "HEAD")); [|reflexivity].
        change (before_semicolon (cu_ctype (resp_of h pj ph))) with ctype.
        destruct (join_errors [parse_json_response B (resp_of h pj ph) ctype; parse_response_header B (resp_of h pj ph)] x)
          as [[c0 r0] [[]| |]]; reflexivity. }
      unfold fill_response. cbv zeta.
      destruct (negb (String.eqb (to_upper method) "HEAD")).
      + destruct (join_errors [parse_json_response B (resp_of h pj ph) (before_semicolon (cu_ctype (resp_of h pj ph)));
                               parse_response_header B (resp_of h pj ph)] x) as [[c0 r0] [[]| |]];
          inversion G'; subst; reflexivity.
      + rewrite G'. destruct x1 as [c1 r1]. destruct r as [[]| |]; reflexivity.
  Qed.

  Lemma response_unit_sim h method :
    simulates (h_response_unit B h method) (reported h) (fun cu => response_unit B cu method) (resp_ok method h).
  Proof.
    intros [c rs] log.
    set (rs' := ensure_default (h_unit h) rs).
    set (resp := match current_response (h_unit h) rs' with Some r => r | None => zero_response end).
    destruct (fill_response_sim h method (c, resp) log) as (cu & [c1 r1] & new & r & V & T & G & K).
    exists cu, (match r with
                | Ret _ => (c1, store_response (h_unit h) (match cu_custom_resp (h_unit h) with Some f => f (mkRor (Some r1) None) | None => mkRor (Some r1) None end) rs')
                | _ => (c1, write_back (h_unit h) r1 rs')
                end), new, (match r with Ret _ => Ret tt | e => e end).
    split; [exact V|]. split; [|split; [|exact K]].
    - intros now. destruct (T now) as (now' & E). exists now'. unfold h_response_unit. fold rs'. fold resp. rewrite E.
      destruct r as [[]| |]; reflexivity.
    - unfold response_unit.
      assert (Ek : response_key cu = response_key (h_unit h)).
      { unfold response_key, norm_status. rewrite (rp_default _ _ _ _ V), (rp_status _ _ _ _ V). reflexivity. }
      assert (E1 : ensure_default cu rs = rs') by (unfold ensure_default; rewrite (rp_default _ _ _ _ V); reflexivity).
      rewrite E1.
      assert (E2 : current_response cu rs' = current_response (h_unit h) rs').
      { unfold current_response. rewrite Ek, (rp_default _ _ _ _ V). reflexivity. }
      rewrite E2. fold resp. rewrite G. rewrite (rp_custom_resp _ _ _ _ V).
      unfold store_response, write_back. rewrite Ek, (rp_default _ _ _ _ V). destruct r as [[]| |]; reflexivity.
  Qed.

  Lemma setup_response_sim method : forall hs,
    forall (x : comps Sch * responses Sch) log, exists cus x' new r n, Forall2 reported hs cus /\
      traced (h_setup_response B hs method) x log x' new r /\ setup_response B cus method x = (x', r) /\
      Forall right new /\ in_turn (response_answers method) hs n (rev new).
  Proof.
    induction hs as [|h hs IH]; intros x log.
    - exists [], x, [], (Ret tt), 0. split; [constructor|]. split; [intros now; exists now; reflexivity|].
      split; [reflexivity|]. split; constructor.
    - destruct (response_unit_sim h method x log) as (cu & x1 & n1 & r1 & V1 & T1 & G1 & K1a & K1b).
      destruct (IH x1 (n1 ++ log)) as (cus & x2 & n2 & r2 & n & V2 & T2 & G2 & K2a & K2b).
      destruct r1 as [[]| |].
      + exists (cu :: cus), x2, (n2 ++ n1), r2, (S n). split; [constructor; assumption|]. split; [|split; [|split]].
        * intros now. destruct (T1 now) as (now1 & E1). destruct (T2 now1) as (now2 & E2). exists now2.
          cbn [h_setup_response]. rewrite E1, E2, <- app_assoc. reflexivity.
        * cbn [setup_response]. rewrite G1. exact G2.
        * apply Forall_app. split; assumption.
        * rewrite rev_app_distr. apply it_next; assumption.
      + exists (cu :: cus), x1, n1, Err, 1. split; [constructor; assumption|]. split; [|split; [|split]].
        * intros now. destruct (T1 now) as (now1 & E1). exists now1. cbn [h_setup_response]. rewrite E1. reflexivity.
        * cbn [setup_response]. rewrite G1. reflexivity.
        * assumption.
        * rewrite <- (app_nil_r (rev n1)). apply it_next; [assumption|constructor].
      + exists (cu :: cus), x1, n1, Panic, 1. split; [constructor; assumption|]. split; [|split; [|split]].
        * intros now. destruct (T1 now) as (now1 & E1). exists now1. cbn [h_setup_response]. rewrite E1. reflexivity.
        * cbn [setup_response]. rewrite G1. reflexivity.
        * assumption.
        * rewrite <- (app_nil_r (rev n1)). apply it_next; [assumption|constructor].
  Qed.

  (* ------------------------------------------------------------------ *)
  (* Calls                                                                *)

  (* The whole of setupRequest, validatePathParams and setupResponse. *)
  Lemma setup_sim {R} (rget : R -> responses Sch) (rset : responses Sch -> R) c (oc : opctx J Sch R) hq hp :
    exists req resp c' o' e log, Forall2 reported hq req /\ Forall2 reported hp resp /\
      (forall now, exists now', h_setup B rget rset c (mkHctx oc hq hp now) = (c', o', e, mkTr log now')) /\
      setup_oc B rget rset c (with_units oc req resp) = (c', o', e) /\
      Forall right log /\ call_answers (oc_method oc) hq hp (rev log).
  Proof.
    destruct (setup_request_sim R (oc_method oc) hq (c, oc_op oc) [])
      as (req & [c1 o1] & n1 & r1 & n & V1 & T1 & G1 & K1 & A1 & L1).
    destruct (setup_response_sim (oc_method oc) hp (c1, rget (op_responses o1)) (n1 ++ []))
      as (resp & [c2 rs2] & n2 & r2 & m & V2 & T2 & G2 & K2 & A2).
    exists req, resp.
    assert (CA1 : call_answers (oc_method oc) hq hp (rev n1)).
    { exists n, 0, (rev n1), []. split; [symmetry; apply app_nil_r|]. split; [exact A1|]. split; [constructor|].
      intros H. exfalso. apply H. reflexivity. }
    unfold h_setup, setup_oc, with_units. cbn [x_oc x_request x_response x_state oc_req oc_resp oc_method oc_op oc_params].
    destruct r1 as [[]| |].
    - destruct (validate_path_params (op_params o1) (oc_params oc)) as [|pe pes] eqn:EV.
      + destruct hp as [|h hp].
        * inversion V2; subst. exists c1, o1, AOk, n1. split; [exact V1|]. split; [exact V2|]. split; [|split; [|split; assumption]].
          -- intros now. destruct (T1 now) as (now1 & E1). exists now1. rewrite E1, EV, app_nil_r. reflexivity.
          -- rewrite G1, EV. reflexivity.
        * exists c2, (set_responses o1 (rset rs2)), (match r2 with Ret _ => AOk | Err => AFail AEResponse | Panic => APanic end), (n2 ++ n1).
          split; [exact V1|]. split; [exact V2|]. split; [|split; [|split]].
          -- intros now. destruct (T1 now) as (now1 & E1). destruct (T2 now1) as (now2 & E2). exists now2.
             rewrite E1, EV, E2, app_nil_r. destruct r2 as [[]| |]; reflexivity.
          -- rewrite G1, EV. destruct resp as [|cu resp]; [inversion V2|]. rewrite G2. destruct r2 as [[]| |]; reflexivity.
          -- apply Forall_app. split; assumption.
          -- rewrite rev_app_distr. exists n, m, (rev n1), (rev n2). split; [reflexivity|]. split; [exact A1|].
             split; [exact A2|]. intros _. apply L1. reflexivity.
      + exists c1, o1, (AFail (AEParams (pe :: pes))), n1. split; [exact V1|]. split; [exact V2|]. split; [|split; [|split; assumption]].
        -- intros now. destruct (T1 now) as (now1 & E1). exists now1. rewrite E1, EV, app_nil_r. reflexivity.
        -- rewrite G1, EV. reflexivity.
    - exists c1, o1, (AFail AERequest), n1. split; [exact V1|]. split; [exact V2|]. split; [|split; [|split; assumption]].
      + intros now. destruct (T1 now) as (now1 & E1). exists now1. rewrite E1, app_nil_r. reflexivity.
      + rewrite G1. reflexivity.
    - exists c1, o1, APanic, n1. split; [exact V1|]. split; [exact V2|]. split; [|split; [|split; assumption]].
      + intros now. destruct (T1 now) as (now1 & E1). exists now1. rewrite E1, app_nil_r. reflexivity.
      + rewrite G1. reflexivity.
  Qed.

  (* ------------------------------------------------------------------ *)
  (* The state in which the context is left                               *)

  Lemma header_leaves h st st' r : cu_nil (h_unit h) = false -> h_parse_response_header B h st = (st', r) ->
    t_now (snd st') = (true, "header").
  Proof.
    intros N. destruct st as [[c rr] [log now]]. unfold h_parse_response_header, reflect_in. rewrite N. cbn [t_log].
    destruct (run_sim (header_callback B) eq (on_header B) WHeaders true (true, "header")
                [WHeaders] (fun d c log => on_header_ok _ d c log _) se_headers (or_introl eq_refl) (h_headers h) [] log)
      as (es & fin & res & n & r1 & Y & HR & HP & K).
    rewrite HR. intros H. destruct r1; inversion H; subst; reflexivity.
  Qed.

  Lemma nil_leaves h method st st' r : cu_nil (h_unit h) = true -> h_response_unit B h method st = (st', r) -> snd st' = snd st.
  Proof.
    intros N. destruct st as [[c rs] t]. unfold h_response_unit, h_fill_response. cbv zeta.
    destruct (negb (String.eqb (to_upper method) "HEAD")).
    - cbn [join_errors]. unfold h_parse_json_response, h_parse_response_header. rewrite N. intros H. inversion H. reflexivity.
    - unfold h_parse_response_header. rewrite N. intros H. inversion H. reflexivity.
  Qed.

  Lemma unit_leaves h method st st' : cu_nil (h_unit h) = false -> h_response_unit B h method st = (st', Ret tt) ->
    t_now (snd st') = (true, "header").
  Proof.
    intros N. destruct st as [[c rs] t]. unfold h_response_unit, h_fill_response. cbv zeta.
    set (resp := match current_response (h_unit h) (ensure_default (h_unit h) rs) with Some r => r | None => zero_response end).
    destruct (negb (String.eqb (to_upper method) "HEAD")).
    - cbn [join_errors].
      destruct (h_parse_json_response B h (before_semicolon (cu_ctype (h_unit h))) (c, resp, t)) as [st1 [[]| |]].
      + destruct (h_parse_response_header B h st1) as [[[c2 r2] t2] [[]| |]] eqn:E; intros H; inversion H; subst.
        exact (header_leaves _ _ _ _ N E).
      + destruct (h_parse_response_header B h st1) as [[[c2 r2] t2] [[]| |]] eqn:E; intros H; inversion H.
      + destruct st1 as [[c1 r1] t1]. intros H; inversion H.
    - destruct (h_parse_response_header B h (c, resp, t)) as [[[c2 r2] t2] [[]| |]] eqn:E; intros H; inversion H; subst.
      exact (header_leaves _ _ _ _ N E).
  Qed.

  Lemma responses_leave method : forall hs st st', h_setup_response B hs method st = (st', Ret tt) ->
    (forall h, In h hs -> cu_nil (h_unit h) = true) /\ snd st' = snd st \/
    (exists h, In h hs /\ cu_nil (h_unit h) = false) /\ t_now (snd st') = (true, "header").
  Proof.
    induction hs as [|h hs IH]; intros st st' H.
    - injection H as ->. left. split; [intros h []|reflexivity].
    - cbn [h_setup_response] in H. destruct (h_response_unit B h method st) as [st1 [[]| |]] eqn:E; try discriminate H.
      destruct (IH _ _ H) as [[A1 A2]|[(h' & A1 & A1') A2]].
      + destruct (cu_nil (h_unit h)) eqn:N.
        * left. split; [intros h' [<-|Hi]; [exact N|apply A1; exact Hi]|]. rewrite A2. exact (nil_leaves _ _ _ _ _ N E).
        * right. split; [exists h; split; [left; reflexivity|exact N]|]. rewrite A2. exact (unit_leaves _ _ _ _ N E).
      + right. split; [exists h'; split; [right; exact A1|exact A1']|exact A2].
  Qed.

  Lemma setup_leaves {R} (rget : R -> responses Sch) (rset : responses Sch -> R) c x c' o' t :
    h_setup B rget rset c x = (c', o', AOk, t) ->
    (exists h, In h (x_response x) /\ cu_nil (h_unit h) = false) -> t_now t = (true, "header").
  Proof.
    unfold h_setup. destruct (h_setup_request B (x_request x) _ _) as [[[c1 o1] t1] [[]| |]]; [|discriminate|discriminate].
    destruct (validate_path_params _ _) as [|pe pes]; [|discriminate].
    destruct (x_response x) as [|h hs]; [intros _ (h' & [] & _)|].
    destruct (h_setup_response B (h :: hs) (oc_method (x_oc x)) (c1, rget (op_responses o1), t1)) as [[[c2 rs2] t2] [[]| |]] eqn:E;
      [|discriminate|discriminate].
    intros H (h' & Hi & N). injection H as <- <- <-. destruct (responses_leave _ _ _ _ E) as [[A _]|[_ A]].
    - rewrite (A h' Hi) in N. discriminate.
    - exact A.
  Qed.
End Hooks.
