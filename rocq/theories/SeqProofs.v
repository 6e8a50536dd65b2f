(* What an operation adds to the components does not depend on the components
   there, nor on the order in which definitions are reported. *)
From Coq Require Import Permutation.
From Verif Require Import Str SMap Json PathModel Types RegistryModel ReflectModel ReflectSpec SeqSpec.

Section Alike.
  Context {J Sch : Type}.
  Variable B : backend J Sch.
  Variable meaning : string -> Sch.
  Notation cunit := (cunit J Sch).
  Notation comps := (comps Sch).
  Notation okc := (comps_agree meaning).

  (* The components that are in [N] get their meaning, the others stay. *)
  Definition ext (N : string -> bool) (c c' : comps) : Prop :=
    forall n, get n c' = if N n then Some (meaning n) else get n c.

  Lemma ext_refl c : ext (fun _ => false) c c.
  Proof. intros n. reflexivity. Qed.
  Lemma ext_trans N N' c c' c'' : ext N c c' -> ext N' c' c'' -> ext (fun n => N n || N' n) c c''.
  Proof. intros H H' n. rewrite H', H. destruct (N n), (N' n); reflexivity. Qed.
  Lemma ext_ok N c c' : okc c -> ext N c c' -> okc c'.
  Proof. intros H E n s G. rewrite E in G. destruct (N n); [congruence|exact (H n s G)]. Qed.

  Definition alike {X A : Type} (f g : comps * X -> (comps * X) * A) : Prop :=
    forall x, exists x' a N, forall c : comps, okc c -> exists c1 c2 : comps,
      f (c, x) = ((c1, x'), a) /\ g (c, x) = ((c2, x'), a) /\ ext N c c1 /\ ext N c c2.

  (* Functions that leave the components alone. *)
  Lemma alike_same {X A} (f g : comps * X -> (comps * X) * A) (k : X -> X * A) :
    (forall c x, f (c, x) = ((c, fst (k x)), snd (k x))) -> (forall c x, g (c, x) = ((c, fst (k x)), snd (k x))) -> alike f g.
  Proof.
    intros Hf Hg x. exists (fst (k x)), (snd (k x)), (fun _ => false). intros c _. exists c, c. rewrite Hf, Hg.
    auto using ext_refl.
  Qed.

  (* Going on with two functions that are alike after two that are. *)
  Lemma alike_then {X A C} (f g : comps * X -> (comps * X) * A) (h k : A -> comps * X -> (comps * X) * C) :
    alike f g -> (forall a, alike (h a) (k a)) ->
    alike (fun s => let (s', a) := f s in h a s') (fun s => let (s', a) := g s in k a s').
  Proof.
    intros F H x. destruct (F x) as (x1 & a & N & F'). destruct (H a x1) as (x2 & b & N' & H').
    exists x2, b, (fun n => N n || N' n). intros c Hc. destruct (F' c Hc) as (c1 & c2 & E1 & E2 & X1 & X2). rewrite E1, E2.
    destruct (H' c1 (ext_ok _ _ _ Hc X1)) as (d1 & _ & D1 & _ & Y1 & _).
    destruct (H' c2 (ext_ok _ _ _ Hc X2)) as (_ & d2 & _ & D2 & _ & Y2).
    exists d1, d2. split; [exact D1|]. split; [exact D2|]. split; [exact (ext_trans _ _ _ _ _ X1 Y1)|exact (ext_trans _ _ _ _ _ X2 Y2)].
  Qed.

  Lemma alike_ext {X A} (f g f' g' : comps * X -> (comps * X) * A) :
    (forall c x, f' (c, x) = f (c, x)) -> (forall c x, g' (c, x) = g (c, x)) -> alike f g -> alike f' g'.
  Proof.
    intros Ef Eg H x. destruct (H x) as (x' & a & N & K). exists x', a, N. intros c Hc. rewrite Ef, Eg. exact (K c Hc).
  Qed.

  Lemma alike_ret {X A} (a : A) : alike (X := X) (fun s => (s, a)) (fun s => (s, a)).
  Proof. apply (alike_same _ _ (fun x => (x, a))); reflexivity. Qed.

  Lemma alike_join {X} (fs gs : list (comps * X -> (comps * X) * out unit)) :
    Forall2 alike fs gs -> alike (join_errors fs) (join_errors gs).
  Proof.
    intros H. induction H as [|f g fs gs H _ IH].
    - apply alike_ret.
    - eapply alike_ext with
        (f := fun s : comps * X => let (s', a) := f s in (fun a s' => match a with Panic => (s', Panic) | _ =>
                 let (s2, b) := join_errors fs s' in (fun b s2 => match b with Ret _ => (s2, a) | _ => (s2, b) end) b s2 end) a s')
        (g := fun s : comps * X => let (s', a) := g s in (fun a s' => match a with Panic => (s', Panic) | _ =>
                 let (s2, b) := join_errors gs s' in (fun b s2 => match b with Ret _ => (s2, a) | _ => (s2, b) end) b s2 end) a s').
      + intros c x. cbn [join_errors]. destruct (f (c, x)) as [s1 [u| |]]; try reflexivity; destruct (join_errors fs s1) as [s2 [v| |]]; reflexivity.
      + intros c x. cbn [join_errors]. destruct (g (c, x)) as [s1 [u| |]]; try reflexivity; destruct (join_errors gs s1) as [s2 [v| |]]; reflexivity.
      + apply alike_then; [exact H|]. intros a. destruct a as [u| |]; [| |apply alike_ret];
          (apply (alike_then (join_errors fs) (join_errors gs)
             (fun b s2 => match b with Ret _ => (s2, _) | _ => (s2, b) end) (fun b s2 => match b with Ret _ => (s2, _) | _ => (s2, b) end) IH);
           intros b; destruct b; apply alike_ret).
  Qed.

  (* A stage followed by a change of the operation if it succeeds. *)
  Lemma alike_map {X} (f g : comps * X -> (comps * X) * out unit) (h h' : X -> X) : (forall x, h' x = h x) -> alike f g ->
    alike (fun s => match f s with ((c, o), Ret _) => ((c, h o), Ret tt) | r => r end)
          (fun s => match g s with ((c, o), Ret _) => ((c, h' o), Ret tt) | r => r end).
  Proof.
    intros Hh H. pose (k := fun (a : out unit) (st : comps * X) => match a with Ret _ => ((fst st, h (snd st)), Ret tt) | r => (st, r) end).
    eapply alike_ext with (f := fun s : comps * X => let (s', a) := f s in k a s') (g := fun s : comps * X => let (s', a) := g s in k a s').
    - intros c o. destruct (f (c, o)) as [[c' o'] [[]| |]]; reflexivity.
    - intros c o. destruct (g (c, o)) as [[c' o'] [[]| |]]; try reflexivity. rewrite Hh. reflexivity.
    - apply alike_then; [exact H|]. intros a. unfold k. destruct a as [u| |]; try apply alike_ret.
      apply (alike_same _ _ (fun o => (h o, Ret tt))); reflexivity.
  Qed.

  (* ------------------------------------------------------------------ *)
  (* Definitions                                                          *)

  Definition fine (defs : list (string * J)) : Prop := forall n j, In (n, j) defs -> b_conv B j = Ret (meaning n).
  Definition named (defs : list (string * J)) (n : string) : bool := mem n (map fst defs).

  Lemma put_ext n c : ext (fun m => String.eqb m n) c (put n (meaning n) c).
  Proof. intros m. rewrite get_put. destruct (String.eqb m n) eqn:E; [|reflexivity]. apply String.eqb_eq in E. subst m. reflexivity. Qed.

  Lemma collect_ext n j c : b_conv B j = Ret (meaning n) -> okc c ->
    exists c', collect_definition B c n j = (c', Ret tt) /\ ext (fun m => String.eqb m n) c c'.
  Proof.
    intros E Hc. unfold collect_definition. destruct (has n c) eqn:Hn.
    - exists c. split; [reflexivity|]. intros m. destruct (String.eqb m n) eqn:Em; [|reflexivity].
      apply String.eqb_eq in Em. subst m. apply has_true in Hn. destruct Hn as [s Hs]. rewrite Hs. f_equal. exact (Hc n s Hs).
    - rewrite E. eexists. split; [reflexivity|]. apply put_ext.
  Qed.

  Lemma ext_eq N N' c c' : (forall n, N n = N' n) -> ext N c c' -> ext N' c c'.
  Proof. intros H E n. rewrite <- H. apply E. Qed.

  Lemma collect_all_ext defs : fine defs -> forall c, okc c ->
    exists c', collect_all B c defs = (c', Ret tt) /\ ext (named defs) c c'.
  Proof.
    induction defs as [|[n j] defs IH]; intros F c Hc; cbn [collect_all].
    - exists c. split; [reflexivity|]. apply ext_refl.
    - destruct (collect_ext n j c (F n j (or_introl eq_refl)) Hc) as (c1 & E1 & X1). rewrite E1.
      destruct (IH (fun m i H => F m i (or_intror H)) c1 (ext_ok _ _ _ Hc X1)) as (c2 & E2 & X2).
      exists c2. split; [exact E2|]. eapply ext_eq; [|exact (ext_trans _ _ _ _ _ X1 X2)].
      intros m. unfold named. cbn [map fst mem existsb]. reflexivity.
  Qed.

  Lemma put_definitions_ext defs : fine defs -> forall c, okc c ->
    exists c', put_definitions B c defs = (c', Ret tt) /\ ext (named defs) c c'.
  Proof.
    induction defs as [|[n j] defs IH]; intros F c Hc; cbn [put_definitions].
    - exists c. split; [reflexivity|]. apply ext_refl.
    - rewrite (F n j (or_introl eq_refl)). pose proof (put_ext n c) as X1.
      destruct (IH (fun m i H => F m i (or_intror H)) _ (ext_ok _ _ _ Hc X1)) as (c2 & E2 & X2).
      exists c2. split; [exact E2|]. eapply ext_eq; [|exact (ext_trans _ _ _ _ _ X1 X2)].
      intros m. unfold named. cbn [map fst mem existsb]. reflexivity.
  Qed.

  Lemma named_perm defs defs' : Permutation defs defs' -> forall n, named defs n = named defs' n.
  Proof.
    intros P n. unfold named. apply eq_true_iff_eq. rewrite !mem_In. split; apply Permutation_in; [|apply Permutation_sym];
      apply Permutation_map; exact P.
  Qed.
  Lemma fine_perm defs defs' : Permutation defs defs' -> fine defs -> fine defs'.
  Proof. intros P F n j H. apply (F n j). eapply Permutation_in; [apply Permutation_sym; exact P|exact H]. Qed.

  Lemma collect_all_alike {X} defs defs' : Permutation defs defs' -> fine defs ->
    alike (X := X) (fun s => let (c, r) := collect_all B (fst s) defs in ((c, snd s), r))
                   (fun s => let (c, r) := collect_all B (fst s) defs' in ((c, snd s), r)).
  Proof.
    intros P F x. exists x, (Ret tt), (named defs). intros c Hc. cbn [fst snd].
    destruct (collect_all_ext defs F c Hc) as (c1 & E1 & X1).
    destruct (collect_all_ext defs' (fine_perm _ _ P F) c Hc) as (c2 & E2 & X2).
    exists c1, c2. rewrite E1, E2. split; [reflexivity|]. split; [reflexivity|]. split; [exact X1|].
    eapply ext_eq; [|exact X2]. intros n. symmetry. exact (named_perm _ _ P n).
  Qed.
  Lemma put_definitions_alike {X} defs defs' : Permutation defs defs' -> fine defs ->
    alike (X := X) (fun s => let (c, r) := put_definitions B (fst s) defs in ((c, snd s), r))
                   (fun s => let (c, r) := put_definitions B (fst s) defs' in ((c, snd s), r)).
  Proof.
    intros P F x. exists x, (Ret tt), (named defs). intros c Hc. cbn [fst snd].
    destruct (put_definitions_ext defs F c Hc) as (c1 & E1 & X1).
    destruct (put_definitions_ext defs' (fine_perm _ _ P F) c Hc) as (c2 & E2 & X2).
    exists c1, c2. rewrite E1, E2. split; [reflexivity|]. split; [reflexivity|]. split; [exact X1|].
    eapply ext_eq; [|exact X2]. intros n. symmetry. exact (named_perm _ _ P n).
  Qed.
  (* ------------------------------------------------------------------ *)
  (* Requests                                                             *)

  Lemma build_alike loc q q' : prop_varies q q' -> fine (pr_json_defs q) ->
    exists r N, forall c : comps, okc c -> exists c1 c2 : comps,
      build_param B c loc q = (c1, r) /\ build_param B c loc q' = (c2, r) /\ ext N c c1 /\ ext N c c2.
  Proof.
    intros [V1 V2 V3 V4 V5 V6 V7 V8 P V10 V11 V12] F. unfold build_param. rewrite V3, V4, V5, V6, V7, V8, V10, V11, V12.
    assert (Z : forall r, exists (r0 : out (param Sch)) N, forall c : comps, okc c -> exists c1 c2 : comps,
               (c, r) = (c1, r0) /\ (c, r) = (c2, r0) /\ ext N c c1 /\ ext N c c2).
    { intros r. exists r, (fun _ => false). intros c _. exists c, c. auto using ext_refl. }
    destruct (b_conv B (pr_schema q)) as [s| |]; try apply Z.
    destruct (String.eqb (pr_cf q) "json" || (pr_tag_json q && negb (pr_tag_in q))).
    - assert (W : forall k : comps -> comps * out (param Sch), (exists r, forall c, k c = (c, r)) ->
         exists (r0 : out (param Sch)) N, forall c : comps, okc c -> exists c1 c2 : comps,
           match collect_all B c (pr_json_defs q) with (c, Ret _) => k c | (c, _) => (c, Panic) end = (c1, r0) /\
           match collect_all B c (pr_json_defs q') with (c, Ret _) => k c | (c, _) => (c, Panic) end = (c2, r0) /\
           ext N c c1 /\ ext N c c2).
      { intros k [r Hk]. exists r, (named (pr_json_defs q)). intros c Hc.
        destruct (collect_all_ext _ F c Hc) as (c1 & E1 & X1).
        destruct (collect_all_ext _ (fine_perm _ _ P F) c Hc) as (c2 & E2 & X2).
        exists c1, c2. rewrite E1, E2, !Hk. split; [reflexivity|]. split; [reflexivity|]. split; [exact X1|].
        eapply ext_eq; [|exact X2]. intros n. symmetry. exact (named_perm _ _ P n). }
      apply W. destruct (pr_json q) as [j| |]; [|eexists; reflexivity|eexists; reflexivity].
      destruct (b_conv B j) as [s'| |]; [|eexists; reflexivity|eexists; reflexivity].
      destruct (pr_tags q) as [t| |]; eexists; reflexivity.
    - destruct (pr_plain q) as [[]| |]; try apply Z; destruct (pr_tags q) as [t| |]; apply Z.
  Qed.

  Section Op.
  Context {R : Type}.
  Notation op := (operation Sch R).

  Lemma callback_alike loc q q' : prop_varies q q' -> fine (pr_json_defs q) ->
    alike (X := op) (param_callback B loc q) (param_callback B loc q').
  Proof.
    intros V F. unfold param_callback. rewrite (pv_processed _ _ V), (pv_depth _ _ V).
    destruct (negb (pr_processed q) || (1 <? pr_depth q)).
    - apply (alike_same _ _ (fun x => (x, Ret tt))); reflexivity.
    - destruct (build_alike loc q q' V F) as (r & N & H). intros o.
      destruct r as [p| |].
      + destruct (already_exists (op_params o) (p_name p) (p_in p)) eqn:EA; eexists _, _, N; intros c Hc;
          destruct (H c Hc) as (c1 & c2 & E1 & E2 & X1 & X2); exists c1, c2; rewrite E1, E2, EA; auto.
      + eexists _, _, N; intros c Hc; destruct (H c Hc) as (c1 & c2 & E1 & E2 & X1 & X2); exists c1, c2; rewrite E1, E2; auto.
      + eexists _, _, N; intros c Hc; destruct (H c Hc) as (c1 & c2 & E1 & E2 & X1 & X2); exists c1, c2; rewrite E1, E2; auto.
  Qed.

  Definition run_event loc (e : pevent J) (st : comps * op) : (comps * op) * out unit :=
    match e with
    | EProp q => param_callback B loc q st
    | EDef n j => let (c, x) := collect_definition B (fst st) n j in ((c, snd st), x)
    end.

  Definition fine_event (e : pevent J) : Prop :=
    match e with EProp q => fine (pr_json_defs q) | EDef n j => b_conv B j = Ret (meaning n) end.

  Lemma event_alike loc e e' : event_varies e e' -> fine_event e -> alike (run_event loc e) (run_event loc e').
  Proof.
    intros [q q' V|n j] F; cbn [run_event fine_event] in *.
    - apply callback_alike; assumption.
    - intros o. exists o, (Ret tt), (fun m => String.eqb m n). intros c Hc.
      destruct (collect_ext n j c F Hc) as (c' & E & X). exists c', c'. unfold run_event. cbn [fst snd]. rewrite E. auto.
  Qed.

  Lemma run_defs loc defs : forall s : comps * op, run_events B loc (map (fun d => EDef (fst d) (snd d)) defs) s =
    let (c, r) := collect_all B (fst s) defs in ((c, snd s), r).
  Proof.
    induction defs as [|[n j] defs IH]; intros [c o]; cbn [map fst snd run_events collect_all]; [reflexivity|].
    destruct (collect_definition B c n j) as [c' [[]| |]]; [|reflexivity|reflexivity]. rewrite IH. reflexivity.
  Qed.

  Lemma run_events_alike loc es es' : events_vary es es' -> Forall fine_event es ->
    alike (X := op) (run_events B loc es) (run_events B loc es').
  Proof.
    intros V. induction V as [defs defs' P|e e' es es' V _ IH]; intros F.
    - eapply alike_ext; [| |apply (collect_all_alike defs defs' P)]; [intros c o; apply run_defs|intros c o; apply run_defs|].
      intros n j I. rewrite Forall_forall in F. specialize (F (EDef n j)). apply F. apply in_map_iff. exists (n, j). auto.
    - inversion F as [|? ? F1 F2]; subst.
      eapply alike_ext with
        (f := fun s : comps * op => let (s', a) := run_event loc e s in (fun a s' => match a with Ret _ => run_events B loc es s' | _ => (s', a) end) a s')
        (g := fun s : comps * op => let (s', a) := run_event loc e' s in (fun a s' => match a with Ret _ => run_events B loc es' s' | _ => (s', a) end) a s').
      + intros c o. cbn [run_events]. unfold run_event. destruct e as [q|n j].
        * destruct (param_callback B loc q (c, o)) as [s [[]| |]]; reflexivity.
        * destruct (collect_definition B (fst (c, o)) n j) as [c' [[]| |]]; reflexivity.
      + intros c o. cbn [run_events]. unfold run_event. destruct e' as [q|n j].
        * destruct (param_callback B loc q (c, o)) as [s [[]| |]]; reflexivity.
        * destruct (collect_definition B (fst (c, o)) n j) as [c' [[]| |]]; reflexivity.
      + apply alike_then; [apply event_alike; assumption|]. intros a.
        destruct a as [u| |]; [exact (IH F2)|apply alike_ret|apply alike_ret].
  Qed.

  Section Unit.
  Variables cu cu' : cunit.
  Hypothesis V : unit_varies cu cu'.
  Hypothesis F : forall n j, reports cu n j -> b_conv B j = Ret (meaning n).

  Lemma params_in_alike loc : alike (X := op) (parse_parameters_in B cu loc) (parse_parameters_in B cu' loc).
  Proof.
    unfold parse_parameters_in. rewrite (uv_slice _ _ V). destruct (v_slice cu); [apply alike_ret|].
    destruct (uv_params _ _ V loc) as [E1 E2]. destruct (v_params cu loc) as [es fin] eqn:EP.
    destruct (v_params cu' loc) as [es' fin'] eqn:EP'. cbn [fst snd] in E1, E2. subst fin'.
    assert (FE : Forall fine_event es).
    { apply Forall_forall. intros [q|n j] I; cbn [fine_event].
      - intros n j I'. apply F. apply (rp_field cu n j loc q); [rewrite EP; exact I|exact I'].
      - apply F. apply (rp_event cu n j loc). rewrite EP. exact I. }
    pose (k := fun (a : out unit) (st : comps * op) => match a with
               | Ret _ => match fin with
                          | Ret true => let (c, o) := st in ((c, set_ext o (put (x_forbid_unknown ^^ loc) (JBool true) (op_ext o))), Ret tt)
                          | Ret false => (st, Ret tt) | Err => (st, Err) | Panic => (st, Panic) end
               | r => (st, r) end).
    eapply alike_ext with (f := fun s : comps * op => let (s', a) := run_events B loc es s in k a s')
                          (g := fun s : comps * op => let (s', a) := run_events B loc es' s in k a s').
    - intros c o. destruct (run_events B loc es (c, o)) as [s [[]| |]]; reflexivity.
    - intros c o. destruct (run_events B loc es' (c, o)) as [s [[]| |]]; reflexivity.
    - apply alike_then; [apply run_events_alike; assumption|]. intros a. unfold k. destruct a as [u| |]; try apply alike_ret.
      destruct fin as [[]| |]; try apply alike_ret.
      apply (alike_same _ _ (fun o => (set_ext o (put (x_forbid_unknown ^^ loc) (JBool true) (op_ext o)), Ret tt))); reflexivity.
  Qed.

  Lemma params_alike : alike (X := op) (parse_parameters B cu) (parse_parameters B cu').
  Proof. unfold parse_parameters. apply alike_join. repeat apply Forall2_cons; try apply Forall2_nil; apply params_in_alike. Qed.

  Lemma existsb_ext {A} (f g : A -> bool) l : (forall a, f a = g a) -> existsb f l = existsb g l.
  Proof. intros H. induction l as [|a l IH]; cbn [existsb]; [reflexivity|]. rewrite H, IH. reflexivity. Qed.

  Lemma wanted_same method mapping tag more : body_wanted cu' method mapping tag more = body_wanted cu method mapping tag more.
  Proof.
    unfold body_wanted. rewrite (uv_force_body _ _ V), (uv_force_json _ _ V), (uv_struct _ _ V), (uv_slice _ _ V), (uv_embedded _ _ V),
      (uv_without _ _ V), !(uv_tagged _ _ V). rewrite (existsb_ext (v_tagged cu') (v_tagged cu)); [reflexivity|]. exact (uv_tagged _ _ V).
  Qed.

  Lemma body_alike mime method mapping tag more :
    alike (X := op) (parse_request_body B cu mime method mapping tag more) (parse_request_body B cu' mime method mapping tag more).
  Proof.
    unfold parse_request_body. rewrite wanted_same. destruct (body_wanted cu method mapping tag more) as [[]| |]; try apply alike_ret.
    destruct (uv_body _ _ V tag) as [E1 E2]. destruct (v_body cu tag) as [vis res] eqn:EB. destruct (v_body cu' tag) as [vis' res'].
    cbn [fst snd] in E1, E2. subst vis'. inversion E2 as [j defs defs' P EQ1 EQ2|EQ1 EQ2|EQ1 EQ2]; subst; try apply alike_ret.
    destruct (b_conv B j) as [s| |]; try apply alike_ret.
    assert (FD : fine defs). { intros n i I. apply F. apply (rp_body cu n i tag j defs); [rewrite EB; reflexivity|exact I]. }
    pose (k := fun (a : out unit) (st : comps * op) => match a with
               | Ret _ => ((fst st, with_body_content (snd st) (if String.eqb mime mime_form && existsb is_file vis then mime_multipart else mime)
                              (mkMedia (Some s) JNull)), Ret tt)
               | r => (st, r) end).
    eapply alike_ext with (f := fun s : comps * op => let (s', a) := (let (c, r) := put_definitions B (fst s) defs in ((c, snd s), r)) in k a s')
                          (g := fun s : comps * op => let (s', a) := (let (c, r) := put_definitions B (fst s) defs' in ((c, snd s), r)) in k a s').
    - intros c o. cbn [fst snd]. destruct (put_definitions B c defs) as [c' [[]| |]]; reflexivity.
    - intros c o. cbn [fst snd]. destruct (put_definitions B c defs') as [c' [[]| |]]; reflexivity.
    - apply (alike_then _ _ k k); [apply put_definitions_alike; assumption|]. intros a. unfold k. destruct a as [u| |]; try apply alike_ret.
      apply (alike_same _ _ (fun o => (with_body_content o (if String.eqb mime mime_form && existsb is_file vis then mime_multipart else mime)
               (mkMedia (Some s) JNull), Ret tt))); reflexivity.
  Qed.

  Lemma raw_same (o : op) : parse_raw_request_body B cu' o = parse_raw_request_body B cu o.
  Proof. unfold parse_raw_request_body. rewrite (uv_nil _ _ V), (uv_content_tags _ _ V). reflexivity. Qed.

  Lemma content_alike method : alike (X := op) (request_content B cu method) (request_content B cu' method).
  Proof.
    unfold request_content. rewrite (uv_ctype _ _ V), (uv_form_mapping _ _ V), (uv_format _ _ V).
    destruct (String.eqb (cu_ctype cu) "").
    - refine (alike_map _ _ (parse_raw_request_body B cu) (parse_raw_request_body B cu') raw_same _). apply alike_join.
      apply Forall2_cons; [apply body_alike|apply Forall2_cons; [apply params_alike|apply Forall2_cons; [apply body_alike|apply Forall2_nil]]].
    - destruct (String.eqb (cu_ctype cu) mime_json).
      + apply alike_join. apply Forall2_cons; [apply params_alike|apply Forall2_cons; [apply body_alike|apply Forall2_nil]].
      + destruct (String.eqb (cu_ctype cu) mime_form || String.eqb (cu_ctype cu) mime_multipart).
        * apply alike_join. apply Forall2_cons; [apply body_alike|apply Forall2_cons; [apply params_alike|apply Forall2_nil]].
        * apply (alike_same _ _ (fun o => (string_request_body B o (cu_ctype cu) (cu_format cu), Ret tt))); reflexivity.
  Qed.

  Lemma request_alike method : alike (X := op) (request_unit B cu method) (request_unit B cu' method).
  Proof.
    unfold request_unit.
    refine (alike_map _ _ (fun o => customize_body cu (describe_body cu o)) (fun o => customize_body cu' (describe_body cu' o)) _ (content_alike method)).
    intros o. unfold customize_body, describe_body. rewrite (uv_custom_req _ _ V), (uv_desc _ _ V). reflexivity.
  Qed.
  End Unit.

  Lemma setup_request_alike method cus cus' : Forall2 unit_varies cus cus' -> units_agree B meaning cus ->
    alike (X := op) (setup_request B cus method) (setup_request B cus' method).
  Proof.
    intros H. induction H as [|cu cu' cus cus' V H IH]; intros F; cbn [setup_request]; [apply alike_ret|].
    pose (k := fun cus (a : out unit) (st : comps * op) => match a with Ret _ => setup_request B cus method st | r => (st, r) end).
    eapply alike_ext with (f := fun s : comps * op => let (s', a) := request_unit B cu method s in k cus a s')
                          (g := fun s : comps * op => let (s', a) := request_unit B cu' method s in k cus' a s').
    - intros c o. cbn [setup_request]. destruct (request_unit B cu method (c, o)) as [s [[]| |]]; reflexivity.
    - intros c o. cbn [setup_request]. destruct (request_unit B cu' method (c, o)) as [s [[]| |]]; reflexivity.
    - apply alike_then.
      + apply request_alike; [exact V|]. intros n j. apply F. left. reflexivity.
      + intros a. unfold k. destruct a as [u| |]; try apply alike_ret. apply IH. intros x n j I. apply F. right. exact I.
  Qed.
  End Op.

  (* ------------------------------------------------------------------ *)
  (* Responses                                                            *)

  Section Unit.
  Variables cu cu' : cunit.
  Hypothesis V : unit_varies cu cu'.
  Hypothesis F : forall n j, reports cu n j -> b_conv B j = Ret (meaning n).

  Lemma json_alike ctype : alike (parse_json_response B cu ctype) (parse_json_response B cu' ctype).
  Proof.
    unfold parse_json_response. rewrite (uv_nil _ _ V), (uv_has_json _ _ V). destruct (uv_json _ _ V) as [P E2].
    assert (FD : fine (fst (v_json cu))). { intros n j I. apply F. apply rp_json. exact I. }
    destruct (v_json cu) as [defs res]. destruct (v_json cu') as [defs' res']. cbn [fst snd] in P, E2, FD. subst res'.
    destruct (cu_nil cu); [apply (alike_same _ _ (fun x => (x, Ret tt))); reflexivity|].
    pose (k := fun (a : out unit) (st : comps * response Sch) => let (c, r) := st in
               match a with
               | Ret _ => match res with
                          | Err => ((c, r), Err)
                          | Panic => ((c, r), Panic)
                          | Ret j =>
                              match b_conv B j with
                              | Err => ((c, r), Err)
                              | Panic => ((c, r), Panic)
                              | Ret s =>
                                  let s := b_unnull B s in
                                  let ct := if is_empty ctype then mime_json else ctype in
                                  let rest := match get ct (rs_content r) with Some m => mt_rest m | None => JNull end in
                                  let r := set_content r (put ct (mkMedia (Some s) rest) (rs_content r)) in
                                  ((c, fill_desc (b_desc B j) r), Ret tt)
                              end
                          end
               | _ => ((c, r), Panic) end).
    assert (W : alike (fun s : comps * response Sch => let (s', a) := (let (c, r) := collect_all B (fst s) defs in ((c, snd s), r)) in k a s')
                      (fun s : comps * response Sch => let (s', a) := (let (c, r) := collect_all B (fst s) defs' in ((c, snd s), r)) in k a s')).
    { apply (alike_then _ _ k k); [apply collect_all_alike; assumption|]. intros a. unfold k. destruct a as [u| |];
        [|apply (alike_same _ _ (fun x => (x, Panic))); reflexivity|apply (alike_same _ _ (fun x => (x, Panic))); reflexivity].
      destruct res as [j| |]; [|apply (alike_same _ _ (fun x => (x, Err))); reflexivity|apply (alike_same _ _ (fun x => (x, Panic))); reflexivity].
      destruct (b_conv B j) as [s| |]; [|apply (alike_same _ _ (fun x => (x, Err))); reflexivity|apply (alike_same _ _ (fun x => (x, Panic))); reflexivity].
      eapply (alike_same _ _ (fun r => (fill_desc (b_desc B j) (set_content r (put (if is_empty ctype then mime_json else ctype)
        (mkMedia (Some (b_unnull B s)) match get (if is_empty ctype then mime_json else ctype) (rs_content r) with Some m => mt_rest m | None => JNull end)
        (rs_content r))), Ret tt))); reflexivity. }
    destruct (v_has_json cu) as [[]| |];
      [|apply (alike_same _ _ (fun x => (x, Ret tt))); reflexivity| |apply (alike_same _ _ (fun x => (x, Panic))); reflexivity];
      (eapply alike_ext; [| |exact W]; intros c x; cbn [fst snd];
        match goal with |- context [collect_all B c ?d] => destruct (collect_all B c d) as [? [[]| |]] end; reflexivity).
  Qed.

  Lemma header_alike : alike (parse_response_header B cu) (parse_response_header B cu').
  Proof.
    unfold parse_response_header. rewrite (uv_nil _ _ V), (uv_headers _ _ V).
    destruct (cu_nil cu); [apply (alike_same _ _ (fun x => (x, Ret tt))); reflexivity|].
    destruct (v_headers cu) as [qs fin]. destruct (run_headers B qs []) as [res [[]| |]].
    - destruct fin as [d| |].
      + apply (alike_same _ _ (fun r => (fill_desc d (set_headers r res), Ret tt))); reflexivity.
      + apply (alike_same _ _ (fun x => (x, Err))); reflexivity.
      + apply (alike_same _ _ (fun x => (x, Panic))); reflexivity.
    - apply (alike_same _ _ (fun x => (x, Err))); reflexivity.
    - apply (alike_same _ _ (fun x => (x, Panic))); reflexivity.
  Qed.

  Lemma norm_same : norm_status cu' = norm_status cu.
  Proof. unfold norm_status. rewrite (uv_status _ _ V), (uv_default _ _ V). reflexivity. Qed.
  Lemma key_same : response_key cu' = response_key cu.
  Proof. unfold response_key. rewrite norm_same, (uv_default _ _ V). reflexivity. Qed.
  Lemma raw_response_same r : parse_raw_response_body B cu' r = parse_raw_response_body B cu r.
  Proof. unfold parse_raw_response_body. rewrite (uv_nil _ _ V), (uv_content_tags _ _ V). reflexivity. Qed.

  Lemma fill_alike method : alike (fill_response B cu method) (fill_response B cu' method).
  Proof.
    unfold fill_response. rewrite norm_same, (uv_ctype _ _ V), (uv_desc _ _ V), (uv_format _ _ V).
    pose (h1 := fun cu r => let r := parse_raw_response_body B cu r in
                  if is_empty (before_semicolon (cu_ctype cu)) then r else ensure_content_type B r (before_semicolon (cu_ctype cu)) (cu_format cu)).
    pose (h2 := fun r : response Sch => let r := if is_empty (cu_desc cu) then r else set_desc r (cu_desc cu) in
                  if is_empty (rs_desc r) then set_desc r (status_text (norm_status cu)) else r).
    destruct (negb (String.eqb (to_upper method) "HEAD")).
    - assert (H1 : forall r, h1 cu' r = h1 cu r).
      { intros r. unfold h1. rewrite raw_response_same, (uv_ctype _ _ V), (uv_format _ _ V). reflexivity. }
      assert (W : alike (join_errors [parse_json_response B cu (before_semicolon (cu_ctype cu)); parse_response_header B cu])
                        (join_errors [parse_json_response B cu' (before_semicolon (cu_ctype cu)); parse_response_header B cu'])).
      { apply alike_join. apply Forall2_cons; [apply json_alike|apply Forall2_cons; [apply header_alike|apply Forall2_nil]]. }
      apply (alike_map _ _ (h1 cu) (h1 cu') H1) in W. apply (alike_map _ _ h2 h2 (fun r => eq_refl)) in W.
      eapply alike_ext; [| |exact W]; intros c r; cbv beta zeta; unfold h1, h2.
      + destruct (join_errors [parse_json_response B cu (before_semicolon (cu_ctype cu)); parse_response_header B cu] (c, r)) as [[c' r'] [[]| |]]; reflexivity.
      + rewrite (uv_ctype _ _ V), (uv_format _ _ V).
        destruct (join_errors [parse_json_response B cu' (before_semicolon (cu_ctype cu)); parse_response_header B cu'] (c, r)) as [[c' r'] [[]| |]]; reflexivity.
    - eapply alike_ext; [| |exact (alike_map _ _ h2 h2 (fun r => eq_refl) header_alike)]; intros c r; cbv beta zeta; unfold h2.
      + destruct (parse_response_header B cu (c, r)) as [[c' r'] [[]| |]]; reflexivity.
      + destruct (parse_response_header B cu' (c, r)) as [[c' r'] [[]| |]]; reflexivity.
  Qed.

  Lemma response_alike method : alike (X := responses Sch) (response_unit B cu method) (response_unit B cu' method).
  Proof.
    intros rs. unfold response_unit.
    assert (E1 : ensure_default cu' rs = ensure_default cu rs). { unfold ensure_default. rewrite (uv_default _ _ V). reflexivity. }
    assert (E2 : forall x, current_response cu' x = current_response cu x).
    { intros x. unfold current_response. rewrite (uv_default _ _ V), key_same. reflexivity. }
    assert (E3 : forall r x, write_back cu' r x = write_back cu r x).
    { intros r x. unfold write_back. rewrite (uv_default _ _ V), key_same. reflexivity. }
    assert (E4 : forall r x, store_response cu' r x = store_response cu r x).
    { intros r x. unfold store_response. rewrite (uv_default _ _ V), key_same. reflexivity. }
    destruct (fill_alike method (match current_response cu (ensure_default cu rs) with Some r => r | None => zero_response end))
      as (r & a & N & H).
    destruct a as [u| |].
    - eexists _, (Ret tt), N. intros c Hc. destruct (H c Hc) as (c1 & c2 & H1 & H2 & X1 & X2). exists c1, c2.
      cbv zeta. rewrite E1, E2, H1, H2, E4, (uv_custom_resp _ _ V). split; [reflexivity|]. split; [reflexivity|]. split; assumption.
    - eexists _, Err, N. intros c Hc. destruct (H c Hc) as (c1 & c2 & H1 & H2 & X1 & X2). exists c1, c2.
      cbv zeta. rewrite E1, E2, H1, H2, E3. split; [reflexivity|]. split; [reflexivity|]. split; assumption.
    - eexists _, Panic, N. intros c Hc. destruct (H c Hc) as (c1 & c2 & H1 & H2 & X1 & X2). exists c1, c2.
      cbv zeta. rewrite E1, E2, H1, H2, E3. split; [reflexivity|]. split; [reflexivity|]. split; assumption.
  Qed.
  End Unit.

  Lemma setup_response_alike method cus cus' : Forall2 unit_varies cus cus' -> units_agree B meaning cus ->
    alike (X := responses Sch) (setup_response B cus method) (setup_response B cus' method).
  Proof.
    intros H. induction H as [|cu cu' cus cus' V H IH]; intros F; cbn [setup_response]; [apply alike_ret|].
    pose (k := fun cus (a : out unit) (st : comps * responses Sch) => match a with Ret _ => setup_response B cus method st | r => (st, r) end).
    eapply alike_ext with (f := fun s : comps * responses Sch => let (s', a) := response_unit B cu method s in k cus a s')
                          (g := fun s : comps * responses Sch => let (s', a) := response_unit B cu' method s in k cus' a s').
    - intros c o. cbn [setup_response]. destruct (response_unit B cu method (c, o)) as [s [[]| |]]; reflexivity.
    - intros c o. cbn [setup_response]. destruct (response_unit B cu' method (c, o)) as [s [[]| |]]; reflexivity.
    - apply alike_then.
      + apply response_alike; [exact V|]. intros n j. apply F. left. reflexivity.
      + intros a. unfold k. destruct a as [u| |]; try apply alike_ret. apply IH. intros x n j I. apply F. right. exact I.
  Qed.

  (* ------------------------------------------------------------------ *)
  (* A whole call                                                         *)

  Lemma setup_alike {R} rget rset (oc oc' : opctx J Sch R) : call_varies oc oc' -> call_agrees B meaning oc ->
    exists o a N, forall c : comps, okc c -> exists c1 c2 : comps,
      setup_oc B rget rset c oc = (c1, o, a) /\ setup_oc B rget rset c oc' = (c2, o, a) /\ ext N c c1 /\ ext N c c2.
  Proof.
    intros [V1 V2 V3 V4 V5 V6] [F1 F2]. unfold setup_oc. rewrite V1, V3, V4.
    destruct (setup_request_alike (oc_method oc) _ _ V5 F1 (oc_op oc)) as (o & a & N & H).
    destruct a as [u| |].
    - destruct (validate_path_params (op_params o) (oc_params oc)) as [|e es] eqn:EV.
      + destruct (setup_response_alike (oc_method oc) _ _ V6 F2 (rget (op_responses o))) as (rs & b & N' & H').
        destruct (oc_resp oc) as [|cu cus] eqn:ER; destruct (oc_resp oc') as [|cu' cus'] eqn:ER'; try (inversion V6; fail).
        * exists o, AOk, N. intros c Hc. destruct (H c Hc) as (c1 & c2 & H1 & H2 & X1 & X2). exists c1, c2. rewrite H1, H2, EV. auto.
        * exists (set_responses o (rset rs)), (match b with Ret _ => AOk | Err => AFail AEResponse | Panic => APanic end), (fun n => N n || N' n).
          intros c Hc. destruct (H c Hc) as (c1 & c2 & H1 & H2 & X1 & X2).
          destruct (H' c1 (ext_ok _ _ _ Hc X1)) as (d1 & z1 & D1 & _ & Y1 & _).
          destruct (H' c2 (ext_ok _ _ _ Hc X2)) as (z2 & d2 & _ & D2 & _ & Y2).
          exists d1, d2. rewrite H1, H2, EV.
          split; [|split; [|split; [exact (ext_trans _ _ _ _ _ X1 Y1)|exact (ext_trans _ _ _ _ _ X2 Y2)]]].
          -- replace (setup_response B (cu :: cus) (oc_method oc) (c1, rget (op_responses o))) with ((d1, rs), b) by (symmetry; exact D1).
             destruct b as [[]| |]; reflexivity.
          -- replace (setup_response B (cu' :: cus') (oc_method oc) (c2, rget (op_responses o))) with ((d2, rs), b) by (symmetry; exact D2).
             destruct b as [[]| |]; reflexivity.
      + exists o, (AFail (AEParams (e :: es))), N. intros c Hc. destruct (H c Hc) as (c1 & c2 & H1 & H2 & X1 & X2). exists c1, c2. rewrite H1, H2, EV. auto.
    - exists o, (AFail AERequest), N. intros c Hc. destruct (H c Hc) as (c1 & c2 & H1 & H2 & X1 & X2). exists c1, c2. rewrite H1, H2. auto.
    - exists o, APanic, N. intros c Hc. destruct (H c Hc) as (c1 & c2 & H1 & H2 & X1 & X2). exists c1, c2. rewrite H1, H2. auto.
  Qed.
End Alike.
