(* What MarshalJSON writes never has two members for the same field: the keys
   that the types of a package write, and the types they are read into. *)
From Coq Require Import Permutation.
From Verif Require Import Str SMap Json CodecModel CodecTables CodecSpec CodecProofs CodecEnc CodecWrite OrdModel OrdSpec OrdProofs OrdWrite.

Fixpoint ty_eqb (a b : ty) : bool :=
  match a, b with
  | TStr, TStr | TInt, TInt | TFloat, TFloat | TBool, TBool | TAny, TAny | TSkip, TSkip => true
  | TPtr a, TPtr b | TArr a, TArr b | TMap a, TMap b => ty_eqb a b
  | TNamed a, TNamed b => String.eqb a b
  | _, _ => false
  end.
Lemma ty_eqb_ok : forall a b, ty_eqb a b = true -> a = b.
Proof.
  induction a; intros []; cbn [ty_eqb]; intros H; try discriminate H; try reflexivity; try (f_equal; auto).
  apply String.eqb_eq. exact H.
Qed.
Definition pat_eqb (p q : pat) : bool :=
  match p, q with
  | PatX, PatX | PatMethod, PatMethod | PatStatus, PatStatus | PatSlash, PatSlash | PatName, PatName => true
  | _, _ => false
  end.
Lemma pat_eqb_ok p q : pat_eqb p q = true <-> p = q.
Proof. destruct p, q; split; intros H; try discriminate H; reflexivity. Qed.

Fixpoint unptr (t : ty) : ty := match t with TPtr t => unptr t | _ => t end.
Lemma unptr_not : forall a b, unptr a <> TPtr b.
Proof. induction a; intros b; cbn [unptr]; try discriminate. apply IHa. Qed.

(* Members that a type writes: a key, a key that matches a pattern, a key that
   matches none of some patterns; and the type of the value. *)
Inductive wmem := MLit (k : string) (t : ty) | MPat (p : pat) (t : ty) | MRest (ps : list pat) (t : ty).
Definition mty (w : wmem) : ty := match w with MLit _ t | MPat _ t | MRest _ t => t end.
Definition keyof (w : wmem) (k : string) : Prop :=
  match w with MLit k' _ => k = k' | MPat p _ => legal p k | MRest ps _ => forall p, In p ps -> ~ legal p k end.
Definition jty (j : json) : ty := match j with JStr _ => TStr | JBool _ => TBool | JNum _ => TFloat | _ => TAny end.
Definition scalar (j : json) : Prop := match j with JArr _ | JObj _ => False | _ => True end.

Lemma F2_nth {A B} (R : A -> B -> Prop) l l' : Forall2 R l l' -> forall i a, nth_error l i = Some a -> exists b, nth_error l' i = Some b /\ R a b.
Proof. induction 1 as [|x y l l' H F IH]; intros [|i] a E; [discriminate E|discriminate E|injection E as <-; exists y; split; [reflexivity|exact H]|exact (IH i a E)]. Qed.

Section Shape.
  Variable T : list (string * ent).
  Variable derived : string -> bool.
  (* The members of each type, and the types that are always written as objects. *)
  Variable FL : string -> list wmem.
  Variable OB : string -> bool.

  (* One step of the computation of the members. *)
  Definition flat_part (n : string) (fs : list field) (d : dprog) (p : part) : list wmem :=
    match p with
    | PConst m => map (fun kj => MLit (fst kj) (jty (snd kj))) m
    | PStruct => flat_map (fun f => match f_key f with Some k => [MLit k (f_ty f)] | None => [] end) fs
    | PField i =>
        if derived n && existsb (Nat.eqb i) (d_embed d ++ d_oneof d) then [] else
        match nth_error fs i with
        | Some f =>
            match f_ty f with
            | TMap t =>
                match find (fun pi => Nat.eqb (snd pi) i) (d_pats d) with
                | Some (p, _) => [MPat p t]
                | None => if existsb (Nat.eqb i) (d_addl d) then [MRest (map fst (d_pats d)) t] else [MRest [] t]
                end
            | t =>
                match unptr t with
                | TNamed s => FL s
                | TMap t => [MRest [] t]
                | TAny => [MRest [] TAny]
                | _ => []
                end
            end
        | None => []
        end
    end.
  Definition flat_step (n : string) (e : ent) : list wmem :=
    match e with EStruct fs parts d => flat_map (flat_part n fs d) parts | EEnum _ => [] end.
  Hypothesis HFL : forall n e w, get n T = Some e -> In w (flat_step n e) -> In w (FL n).

  Definition ob (t : ty) : bool := match t with TMap _ => true | TNamed n => OB n | _ => false end.
  Definition ob_part (fs : list field) (p : part) : bool :=
    match p with
    | PField i => match nth_error fs i with Some f => ob (unptr (f_ty f)) | None => true end
    | _ => true
    end.
  Hypothesis HOB : forall n e, get n T = Some e -> OB n = true -> match e with EStruct fs parts _ => forallb (ob_part fs) parts = true | EEnum _ => False end.
  Definition objty (t : ty) : bool := match t with TNamed n => OB n | _ => false end.
  Definition isobj (j : json) : Prop := exists m, j = JObj m.

  Inductive shape : ty -> json -> Prop :=
  | sh_scalar t j : scalar j -> shape t j
  | sh_any j : shape TAny j
  | sh_ptr t j : shape t j -> shape (TPtr t) j
  | sh_arr t l : (forall x, In x l -> shape t x) -> shape (TArr t) (JArr l)
  | sh_map t m : (forall k x, In (k, x) m -> shape t x) -> (forall k x, In (k, x) m -> objty t = true -> isobj x) -> shape (TMap t) (JObj m)
  | sh_alone n fs ps d i f j : get n T = Some (EStruct fs ps d) -> In (PField i) ps -> nth_error fs i = Some f -> ~ isobj j -> ob (unptr (f_ty f)) = false ->
      shape (f_ty f) j -> shape (TNamed n) j
  | sh_obj n m ws : length ws = length m -> (forall i k x w, nth_error m i = Some (k, x) -> nth_error ws i = Some w -> In w (FL n) /\ keyof w k /\ (objty (mty w) = true -> isobj x)) ->
      (forall i k x w, nth_error m i = Some (k, x) -> nth_error ws i = Some w -> shape (mty w) x) -> shape (TNamed n) (JObj m).

  (* One member. *)
  Definition memok (l : list wmem) (k : string) (x : json) : Prop :=
    exists w, In w l /\ keyof w k /\ shape (mty w) x /\ (objty (mty w) = true -> isobj x).
  Lemma sh_members n m : (forall k x, In (k, x) m -> memok (FL n) k x) -> shape (TNamed n) (JObj m).
  Proof.
    intros H. assert (X : exists ws, Forall2 (fun kx w => In w (FL n) /\ keyof w (fst kx) /\ shape (mty w) (snd kx) /\ (objty (mty w) = true -> isobj (snd kx))) m ws).
    { induction m as [|[k x] m IH]; [exists []; constructor|]. destruct IH as (ws & F); [intros k0 x0 I; apply H; right; exact I|].
      destruct (H k x (or_introl eq_refl)) as (w & W). exists (w :: ws). constructor; [exact W|exact F]. }
    destruct X as (ws & F). apply sh_obj with ws.
    - clear - F. induction F; cbn [length]; congruence.
    - intros i k x w E1 E2. destruct (F2_nth _ _ _ F _ _ E1) as (w' & E & R). rewrite E2 in E. injection E as <-. cbn [fst snd] in R. destruct R as (A & B & _ & C). auto.
    - intros i k x w E1 E2. destruct (F2_nth _ _ _ F _ _ E1) as (w' & E & R). rewrite E2 in E. injection E as <-. cbn [fst snd] in R. apply R.
  Qed.
  Lemma sh_unptr : forall t j, shape t j -> shape (unptr t) j.
  Proof. induction 1; cbn [unptr]; try (econstructor; eassumption). assumption. Qed.

  (* The members of an object of a type. *)
  Lemma sh_members_of n m : shape (TNamed n) (JObj m) -> forall k x, In (k, x) m -> memok (FL n) k x.
  Proof.
    intros H k x I. inversion H as [t j S|j|t j S|t l S|t m0 S S'|n0 fs ps d i f j G Ip Ef NO NB S|n0 m0 ws L A B]; subst; [destruct S|destruct NO; eexists; reflexivity|].
    destruct (In_nth_error _ _ I) as (i & E). destruct (nth_error ws i) as [w|] eqn:Ew.
    - destruct (A i k x w E Ew) as (A1 & A2 & A3). exists w. split; [exact A1|]. split; [exact A2|]. split; [exact (B i k x w E Ew)|exact A3].
    - apply nth_error_None in Ew. assert (i < length m) by (apply nth_error_Some; congruence). lia.
  Qed.

  (* ---------- writing ---------- *)

  Variable rnd : Q -> Q.
  Variable extra : string -> list val -> bool.

  Lemma union_parts : forall js acc j, junion_loop js acc = Some j ->
    (exists m, j = JObj m /\ forall kx, In kx m -> In kx acc \/ exists m', In (JObj m') js /\ In kx m') \/ In j js /\ ~ isobj j.
  Proof.
    induction js as [|x js IH]; intros acc j E; cbn [junion_loop] in E; [injection E as <-; left; exists acc; split; [reflexivity|intros kx I; left; exact I]|].
    assert (X : forall acc' k, junion_loop js acc' = Some j -> (forall kx, In kx acc' -> In kx acc \/ In kx k) -> (k = [] \/ x = JObj k) ->
      (exists m, j = JObj m /\ forall kx, In kx m -> In kx acc \/ exists m', In (JObj m') (x :: js) /\ In kx m') \/ In j (x :: js) /\ ~ isobj j).
    { intros acc' k E' H K. destruct (IH _ _ E') as [(m & -> & Hm)|[I NO]]; [left|right; split; [right; exact I|exact NO]].
      exists m. split; [reflexivity|]. intros kx I. destruct (Hm kx I) as [Ia|(m' & Im & Ik)].
      - destruct (H kx Ia) as [Ia'|Ik]; [left; exact Ia'|]. destruct K as [->| ->]; [destruct Ik|]. right. exists k. split; [left; reflexivity|exact Ik].
      - right. exists m'. split; [right; exact Im|exact Ik]. }
    destruct x as [|b|q|s|l|m]; [apply (X acc []); [exact E|intros kx I; left; exact I|left; reflexivity]| | | | |apply (X (acc ++ m) m); [exact E|intros kx I; apply in_app_or; exact I|right; reflexivity]];
      (destruct acc; [|discriminate E]; destruct (forallb _ js); [|discriminate E]; injection E as <-; right; split; [left; reflexivity|intros (mm & Em); discriminate Em]).
  Qed.

  (* Types that are written as objects, or null for nil. *)
  Lemma enc_ob : forall v t j, enc T v t = Some j -> ob (unptr t) = true -> isobj j \/ j = JNull /\ forall n, t <> TNamed n.
  Proof.
    induction v as [|s|q|b|j0|v IH|l IH|m IH|l IH] using val_ind'; intros t j E O; cbn [CodecModel.enc] in E.
    - destruct t; try discriminate E; injection E as <-; right; (split; [reflexivity|intros n X; discriminate X]).
    - destruct t as [| | | | | | | | |n]; try discriminate E; cbn [unptr ob] in O; [discriminate O|]. destruct (get n T) as [[vals|fs ps d]|] eqn:G; try discriminate E. destruct (HOB n _ G O).
    - destruct t; try discriminate E; discriminate O.
    - destruct t; try discriminate E; discriminate O.
    - destruct t; try discriminate E; discriminate O.
    - destruct t as [| | | | | |t| | |]; try discriminate E. destruct (IH t j E O) as [X|[X _]]; [left; exact X|right; split; [exact X|intros n Y; discriminate Y]].
    - destruct t; try discriminate E; discriminate O.
    - destruct t; try discriminate E. destruct (seq_opt _); [|discriminate E]. injection E as <-. left. eexists. reflexivity.
    - destruct t as [| | | | | | | | |n]; try discriminate E. destruct (get n T) as [[vals|fs ps d]|] eqn:G; try discriminate E.
      cbn [unptr ob] in O. pose proof (HOB n _ G O) as H. rewrite forallb_forall in H.
      destruct (seq_opt _) as [js|] eqn:Es; [|discriminate E]. apply seq_opt_Forall2 in Es. unfold junion in E.
      destruct (union_parts _ _ _ E) as [(m & -> & _)|[I NO]]; [left; eexists; reflexivity|exfalso].
      destruct (F2_left _ _ _ _ Es I) as (p & Ip & Ep). cbv beta in Ep. specialize (H p Ip). destruct p as [m| |i]; cbn [enc_part ob_part] in Ep, H.
      + injection Ep as <-. apply NO. eexists. reflexivity.
      + destruct (enc_fields fs _); [|discriminate Ep]. injection Ep as <-. apply NO. eexists. reflexivity.
      + destruct (nth_error fs i) as [f|] eqn:Ef; [|discriminate Ep]. rewrite nth_error_map in Ep. destruct (nth_error l i) as [v|] eqn:Ev; [|discriminate Ep]. cbn [option_map] in Ep.
        rewrite Forall_forall in IH. destruct (IH v (nth_error_In _ _ Ev) _ _ Ep H) as [X|[X _]]; [exact (NO X)|]. subst j.
        exact (junion_loop_notnull _ _ _ E eq_refl).
  Qed.
  Lemma enc_objty v t j : enc T v t = Some j -> objty t = true -> isobj j.
  Proof.
    intros E O. destruct t as [| | | | | | | | |n]; try discriminate O. destruct (enc_ob v _ j E O) as [X|[_ X]]; [exact X|destruct (X n eq_refl)].
  Qed.

  Lemma enc_fields_in fs : forall (l : list val) m, enc_fields fs (map (fun v => (v, enc T v)) l) = Some m ->
    forall k x, In (k, x) m -> exists i f v, nth_error fs i = Some f /\ nth_error l i = Some v /\ f_key f = Some k /\ enc T v (f_ty f) = Some x.
  Proof.
    induction fs as [|f fs IH]; intros [|v l] m E k x I; cbn [map enc_fields] in E; try discriminate E; [injection E as <-; destruct I|].
    assert (N : forall m', enc_fields fs (map (fun v => (v, enc T v)) l) = Some m' -> In (k, x) m' -> exists i f0 v0, nth_error (f :: fs) i = Some f0 /\ nth_error (v :: l) i = Some v0 /\ f_key f0 = Some k /\ enc T v0 (f_ty f0) = Some x).
    { intros m' E' I'. destruct (IH l m' E' k x I') as (i & R). exists (S i). exact R. }
    destruct (f_key f) as [q|] eqn:Eq; [|exact (N _ E I)]. destruct (f_omit f && is_empty v); [exact (N _ E I)|].
    destruct (enc T v (f_ty f)) as [j|] eqn:Ej; [|discriminate E]. destruct (enc_fields fs _) as [m'|] eqn:Em; [|discriminate E]. injection E as <-.
    destruct I as [I|I]; [|exact (N _ eq_refl I)]. injection I as <- <-. exists 0, f, v. auto.
  Qed.

  Theorem written_shape : forall v t j, wf T rnd derived extra t v -> enc T v t = Some j -> shape t j.
  Proof.
    induction v as [|s|q|b|j0|v IH|l IH|m IH|l IH] using val_ind'; intros t j W E; cbn [CodecModel.enc] in E.
    - destruct t; try discriminate E; injection E as <-; apply sh_scalar; exact I.
    - destruct t as [| | | | | | | | |n]; try discriminate E; [injection E as <-; apply sh_scalar; exact I|]. destruct (get n T) as [[vals|fs ps d]|]; try discriminate E. destruct (in_list s vals); [|discriminate E]. injection E as <-. apply sh_scalar. exact I.
    - destruct t; try discriminate E; injection E as <-; apply sh_scalar; exact I.
    - destruct t; try discriminate E; injection E as <-; apply sh_scalar; exact I.
    - destruct t; try discriminate E; injection E as <-; apply sh_any.
    - destruct t as [| | | | | |t| | |]; try discriminate E. inversion W; subst. apply sh_ptr. auto.
    - destruct t as [| | | | | | |t| |]; try discriminate E. destruct (seq_opt _) as [js|] eqn:Es; [|discriminate E]. injection E as <-. apply seq_opt_Forall2 in Es. inversion W; subst. apply sh_arr.
      intros x I. destruct (F2_left _ _ _ _ Es I) as (v & Iv & Ev). rewrite Forall_forall in IH. apply (IH v Iv); auto.
    - destruct t as [| | | | | | | |t|]; try discriminate E. destruct (seq_opt _) as [ms|] eqn:Es; [|discriminate E]. injection E as <-. apply seq_opt_Forall2 in Es. inversion W; subst.
      assert (X : forall k x, In (k, x) ms -> exists v, In (k, v) m /\ enc T v t = Some x).
      { intros k x I. destruct (F2_left _ _ _ _ Es I) as ([k' v] & Iv & Ev). cbn [fst snd] in Ev. destruct (enc T v t) as [y|] eqn:Ey; [|discriminate Ev]. injection Ev as <- <-. eauto. }
      rewrite Forall_forall in IH. apply sh_map; intros k x I; destruct (X k x I) as (v & Iv & Ev); [apply (IH (k, v) Iv); eauto|intros O; exact (enc_objty v t x Ev O)].
    - destruct t as [| | | | | | | | |n]; try discriminate E. inversion W as [| | | | | | | | | | | | |n0 fs ps d vs G L WF FO ONE EX]; subst. rewrite G in E.
      destruct (seq_opt _) as [js|] eqn:Es; [|discriminate E]. apply seq_opt_Forall2 in Es. unfold junion in E. rewrite Forall_forall in IH.
      assert (P : forall p jp, In p ps -> enc_part fs (map (fun v => (v, enc T v)) l) p = Some jp ->
        (forall m, jp = JObj m -> forall k x, In (k, x) m -> memok (flat_part n fs d p) k x)).
      { intros p jp Ip Ep m -> k x I. destruct p as [cm| |i]; cbn [enc_part flat_part] in Ep |- *.
        - injection Ep as <-. exists (MLit k (jty x)). split; [apply (in_map (fun kj => MLit (fst kj) (jty (snd kj))) cm (k, x) I)|]. split; [reflexivity|]. cbn [mty].
          split; [destruct x; cbn [jty]; first [apply sh_any|apply sh_scalar; exact Logic.I]|destruct x; intros O; discriminate O].
        - destruct (enc_fields fs _) as [m'|] eqn:Em; [|discriminate Ep]. injection Ep as <-. destruct (enc_fields_in fs l m' Em k x I) as (i & f & v & E1 & E2 & E3 & E4).
          exists (MLit k (f_ty f)). split; [apply in_flat_map; exists f; split; [exact (nth_error_In _ _ E1)|rewrite E3; left; reflexivity]|]. split; [reflexivity|]. cbn [mty].
          split; [apply (IH v (nth_error_In _ _ E2)); eauto|intros O; exact (enc_objty v _ x E4 O)].
        - destruct (nth_error fs i) as [f|] eqn:Ef; [|discriminate Ep]. rewrite nth_error_map in Ep. destruct (nth_error l i) as [v|] eqn:Ev; [|discriminate Ep]. cbn [option_map] in Ep.
          pose proof (WF i f v Ef Ev) as Wv. pose proof (FO i f v Ef Ev) as Fv.
          destruct (derived n && existsb (Nat.eqb i) (d_embed d ++ d_oneof d)) eqn:Ed.
          { apply andb_true_iff in Ed. destruct Ed as [D1 D2]. apply existsb_exists in D2. destruct D2 as (i' & D2 & D3). apply Nat.eqb_eq in D3. subst i'.
            rewrite (fo_derived _ _ _ _ _ _ Fv D1 D2) in Ep. cbn [CodecModel.enc] in Ep. destruct (f_ty f); discriminate Ep. }
          pose proof (IH v (nth_error_In _ _ Ev) _ _ Wv Ep) as S. pose proof (sh_unptr _ _ S) as U.
          assert (Q : forall t, shape (TMap t) (JObj m) -> memok [MRest [] t] k x).
          { intros t H. inversion H as [t0 j1 S0|j1|t0 j1 S0|t0 l0 S0|t0 m0 S0 S'|n0 fs0 ps0 d0 i0 f0 j1 G0 Ip0 Ef0 NO NB0 S0|n0 m0 ws L0 A B]; subst; [destruct S0|].
            exists (MRest [] t). split; [left; reflexivity|]. split; [intros p []|]. split; [exact (S0 k x I)|exact (S' k x I)]. }
          assert (Y : match unptr (f_ty f) with TNamed s => memok (FL s) k x | TMap t => memok [MRest [] t] k x | TAny => memok [MRest [] TAny] k x | _ => False end).
          { assert (SC : forall t, (match t with TMap _ | TAny | TNamed _ | TPtr _ => False | _ => True end) -> ~ shape t (JObj m)).
            { intros t Ht H. inversion H as [t0 j1 S0|j1|t0 j1 S0|t0 l0 S0|t0 m0 S0 S'|n0 fs0 ps0 d0 i0 f0 j1 G0 Ip0 Ef0 NO NB0 S0|n0 m0 ws L0 A B]; subst; first [exact S0|exact Ht]. }
            destruct (unptr (f_ty f)) as [| | | | | |t|t|t|s] eqn:Eu; try (refine (SC _ _ U); exact Logic.I).
            - exists (MRest [] TAny). split; [left; reflexivity|]. split; [intros p []|]. split; [apply sh_any|intros O; discriminate O].
            - destruct (unptr_not _ _ Eu).
            - apply Q. exact U.
            - exact (sh_members_of s m U k x I). }
          destruct (f_ty f) as [| | | | | |t|t|t|s] eqn:Et; cbn [unptr] in Y |- *; try exact Y; try destruct Y.
          + destruct (unptr t); try exact Y; destruct Y.
          + (* a map: the keys *)
            destruct v as [|s0|q0|b0|j0|v0|l0|mm|l0]; cbn [CodecModel.enc] in Ep; try discriminate Ep. destruct (seq_opt _) as [ms|] eqn:Em; [|discriminate Ep]. injection Ep as <-. apply seq_opt_Forall2 in Em.
            assert (K : In k (map_keys (VMap mm))).
            { cbn [map_keys]. destruct (F2_left _ _ _ _ Em I) as ([k' v] & Iv & E2). cbn [fst snd] in E2. destruct (enc T v t) as [y|]; [|discriminate E2]. injection E2 as <- _. exact (in_map fst _ _ Iv). }
            destruct (Q t S) as (w & [<-|[]] & _ & A & B). cbn [mty] in A, B.
            destruct (find (fun pi => Nat.eqb (snd pi) i) (d_pats d)) as [[p i']|] eqn:Ep.
            * apply find_some in Ep. destruct Ep as [Ip' Ei]. cbn [snd] in Ei. apply Nat.eqb_eq in Ei. subst i'. exists (MPat p t). split; [left; reflexivity|]. split; [|split; [exact A|exact B]].
              exact (proj2 (fo_pat _ _ _ _ _ _ Fv p Ip') k K).
            * destruct (existsb (Nat.eqb i) (d_addl d)) eqn:Ea; [|exists (MRest [] t); split; [left; reflexivity|]; split; [intros p []|split; [exact A|exact B]]].
              apply existsb_exists in Ea. destruct Ea as (i' & Ia & Ei). apply Nat.eqb_eq in Ei. subst i'. exists (MRest (map fst (d_pats d)) t). split; [left; reflexivity|]. split; [|split; [exact A|exact B]].
              intros p Ip'. apply in_map_iff in Ip'. destruct Ip' as ([p' i'] & <- & Ip'). exact (proj2 (fo_addl _ _ _ _ _ _ Fv Ia) k p' i' K Ip'). }
      destruct (union_parts _ _ _ E) as [(m & -> & Hm)|[I NO]].
      + apply sh_members. intros k x I. destruct (Hm (k, x) I) as [[]|(m' & Im & Ik)]. destruct (F2_left _ _ _ _ Es Im) as (p & Ip & Ep).
        destruct (P p _ Ip Ep m' eq_refl k x Ik) as (w & Iw & R). exists w. split; [|exact R]. apply (HFL n _ w G). apply in_flat_map. exists p. split; assumption.
      + destruct (F2_left _ _ _ _ Es I) as (p & Ip & Ep). cbv beta in Ep. destruct p as [cm| |i]; cbn [enc_part] in Ep.
        * injection Ep as <-. destruct NO. eexists. reflexivity.
        * destruct (enc_fields fs _); [|discriminate Ep]. injection Ep as <-. destruct NO. eexists. reflexivity.
        * destruct (nth_error fs i) as [f|] eqn:Ef; [|discriminate Ep]. rewrite nth_error_map in Ep. destruct (nth_error l i) as [v|] eqn:Ev; [|discriminate Ep]. cbn [option_map] in Ep.
          eapply sh_alone; [exact G|exact Ip|exact Ef|exact NO| |].
          { destruct (ob (unptr (f_ty f))) eqn:O; [|reflexivity]. destruct (enc_ob v _ j Ep O) as [X|[X _]]; [destruct (NO X)|]. subst j. destruct (junion_loop_notnull _ _ _ E eq_refl). }
          apply (IH v (nth_error_In _ _ Ev)); eauto.
  Qed.

  (* ---------- reading what was written ---------- *)

  (* Whether the key of a member can belong to a field, match a pattern, be left
     over. *)
  Definition may_fold (q : string) (w : wmem) : bool :=
    match w with
    | MLit k _ => String.eqb (fold_key k) (fold_key q)
    | MPat PatX _ => String.prefix "x-" (fold_key q)
    | MPat PatSlash _ => String.prefix "/" (fold_key q)
    | MPat PatMethod _ => existsb (fun k => String.eqb (fold_key k) (fold_key q)) ["get"; "put"; "post"; "delete"; "options"; "head"; "patch"; "trace"]
    | MPat PatStatus _ => match fold_key q with String a _ => in_range 49 53 a | _ => false end
    | _ => true
    end.
  Definition overlap (p' p : pat) : bool :=
    match p', p with
    | PatSlash, PatSlash | PatMethod, PatMethod | PatStatus, PatStatus | PatX, PatX | PatName, _ | _, PatName => true
    | _, _ => false
    end.
  Definition may_match (p : pat) (w : wmem) : bool :=
    match w with MLit k _ => matches p k | MPat p' _ => overlap p' p | MRest ps _ => negb (existsb (pat_eqb p) ps) end.
  Definition may_left (d : dprog) (w : wmem) : bool :=
    match w with
    | MLit k _ => negb (matched d k) && negb (in_list k (d_known d)) && negb (in_list k (map fst (d_const d)))
    | MPat p _ => negb (existsb (fun x => pat_eqb p (fst x)) (d_pats d))
    | MRest _ _ => true
    end.

  Lemma fold_x r : fold_key ("x-" ^^ r) = "x-" ^^ fold_key r.
  Proof. destruct r as [|a [|b r]]; reflexivity. Qed.
  Lemma fold_slash r : exists r', fold_key ("/" ^^ r) = "/" ^^ r'.
  Proof. destruct r as [|a [|b r]]; eexists; reflexivity. Qed.
  Lemma prefix_app a b : String.prefix a (a ^^ b) = true.
  Proof. induction a as [|c a IH]; cbn [String.prefix append]; [destruct b; reflexivity|]. destruct (ascii_dec c c); [exact IH|congruence]. Qed.

  Lemma may_fold_ok w k q : keyof w k -> fold_key k = fold_key q -> may_fold q w = true.
  Proof.
    intros K F. destruct w as [k' t|p t|ps t]; cbn [may_fold keyof] in *; [subst k'; apply String.eqb_eq; exact F| |reflexivity].
    destruct p; try reflexivity; rewrite <- F; inversion K; subst.
    - rewrite fold_x. apply prefix_app.
    - apply existsb_exists. exists k. split; [assumption|apply String.eqb_refl].
    - match goal with H : In _ ["1"%char; _; _; _; _] |- _ => cbn [In] in H; destruct H as [<-|[<-|[<-|[<-|[<-|[]]]]]] end; cbn [fold_key]; reflexivity.
    - match goal with H : In _ ["1"%char; _; _; _; _] |- _ => cbn [In] in H; destruct H as [<-|[<-|[<-|[<-|[<-|[]]]]]] end; reflexivity.
    - destruct (fold_slash r) as (r' & ->). apply prefix_app.
  Qed.
  Definition first_ok (p : pat) (c : ascii) : bool :=
    match p with
    | PatX => Ascii.eqb c "x"
    | PatSlash => Ascii.eqb c "/"
    | PatMethod => existsb (Ascii.eqb c) ["g"; "p"; "d"; "o"; "h"; "t"]%char
    | PatStatus => in_range 49 53 c
    | PatName => true
    end.
  Lemma first_char p k : matches p k = true -> exists c r, k = String c r /\ first_ok p c = true.
  Proof.
    intros M. apply matches_legal in M. destruct M as [r|r|k I|a b c Ia Ib Ic|a Ia|k N _].
    - exists "x"%char, ("-" ^^ r). split; reflexivity.
    - exists "/"%char, r. split; reflexivity.
    - cbn [In] in I. repeat destruct I as [<-|I]; try destruct I; (eexists; eexists; split; [reflexivity|reflexivity]).
    - exists a, (String b (String c "")). split; [reflexivity|]. cbn [In] in Ia. destruct Ia as [<-|[<-|[<-|[<-|[<-|[]]]]]]; reflexivity.
    - exists a, "XX". split; [reflexivity|]. cbn [In] in Ia. destruct Ia as [<-|[<-|[<-|[<-|[<-|[]]]]]]; reflexivity.
    - destruct k as [|c r]; [destruct (N eq_refl)|]. exists c, r. split; reflexivity.
  Qed.
  Lemma overlap_ok p' p k : legal p' k -> matches p k = true -> overlap p' p = true.
  Proof.
    intros L M. apply matches_legal in L. destruct (first_char _ _ L) as (c & r & -> & A). destruct (first_char _ _ M) as (c' & r' & E & B). injection E as <- <-.
    clear - A B. destruct p', p; try reflexivity; exfalso; destruct c as [[] [] [] [] [] [] [] []]; first [discriminate A|discriminate B].
  Qed.
  Lemma may_match_ok w k p : keyof w k -> matches p k = true -> may_match p w = true.
  Proof.
    intros K M. destruct w as [k' t|p' t|ps t]; cbn [may_match keyof] in *; [subst k'; exact M|exact (overlap_ok _ _ _ K M)|].
    apply negb_true_iff. destruct (existsb (pat_eqb p) ps) eqn:E; [|reflexivity]. apply existsb_exists in E. destruct E as (p' & I & E). apply pat_eqb_ok in E. subst p'.
    destruct (K p I). apply matches_legal. exact M.
  Qed.
  Lemma may_left_ok w k d : keyof w k -> ~ In k (map fst (d_const d)) -> ~ In k (d_known d) -> (forall p i, In (p, i) (d_pats d) -> matches p k = false) -> may_left d w = true.
  Proof.
    intros K A B C. destruct w as [k' t|p' t|ps t]; cbn [may_left keyof] in *; [subst k'| |reflexivity].
    - assert (X : forall l, ~ In k l -> negb (in_list k l) = true).
      { intros l N. apply negb_true_iff. destruct (in_list k l) eqn:E; [|reflexivity]. apply existsb_exists in E. destruct E as (y & I & E). apply String.eqb_eq in E. subst y. destruct (N I). }
      rewrite (X _ A), (X _ B). unfold matched. destruct (existsb _ (d_pats d)) eqn:E; [|reflexivity]. apply existsb_exists in E. destruct E as ([p i] & I & E). cbn [fst] in E. rewrite (C p i I) in E. discriminate E.
    - apply negb_true_iff. destruct (existsb _ (d_pats d)) eqn:E; [|reflexivity]. apply existsb_exists in E. destruct E as ([p i] & I & E). apply pat_eqb_ok in E. cbn [fst] in E. subst p'.
      apply matches_legal in K. rewrite (C p i I) in K. discriminate K.
  Qed.

  (* The members of something written as a type. *)
  Definition mems (W : ty) : list wmem :=
    match W with TNamed w => FL w | TMap w => [MRest [] w] | TAny => [MRest [] TAny] | _ => [] end.
  (* What else it may be. *)
  Definition alone (W : ty) : list ty :=
    match W with
    | TPtr w => [w]
    | TNamed w =>
        match get w T with
        | Some (EStruct fs parts _) => flat_map (fun p => match p with PField i => match nth_error fs i with Some f => if ob (unptr (f_ty f)) then [] else [f_ty f] | None => [] end | _ => [] end) parts
        | _ => []
        end
    | _ => []
    end.
  (* Pairs of a type something is written as, and one it is read as. *)
  Definition succ_here (W R : ty) : list (ty * ty) :=
    match R with
    | TPtr r => [(W, r)]
    | TArr r => match W with TArr w => [(w, r)] | TAny => [(TAny, r)] | _ => [] end
    | TMap r => map (fun w => (mty w, r)) (mems W)
    | TNamed n =>
        match get n T with
        | Some (EStruct fs _ d) =>
            map (fun t => (W, t)) (d_not d) ++
            flat_map (fun i => match nth_error fs i with Some f => [(W, f_ty f)] | None => [] end) (d_embed d ++ d_oneof d) ++
            flat_map (fun f => match f_key f with Some q => map (fun w => (mty w, f_ty f)) (filter (may_fold q) (mems W)) | None => [] end) fs ++
            flat_map (fun pi => match nth_error fs (snd pi) with Some f => match f_ty f with TMap t => map (fun w => (mty w, t)) (filter (may_match (fst pi)) (mems W)) | _ => [] end | None => [] end) (d_pats d) ++
            flat_map (fun i => match nth_error fs i with Some f => match f_ty f with TMap t => map (fun w => (mty w, t)) (filter (may_left d) (mems W)) | _ => [] end | None => [] end) (d_addl d)
        | _ => []
        end
    | _ => []
    end.
  Definition succ (W R : ty) : list (ty * ty) :=
    map (fun t => (t, R)) (alone W) ++ match W with TPtr _ => [] | _ => succ_here W R end.
  Definition strty (t : ty) : bool := match t with TStr | TPtr TStr => true | _ => false end.
  Definition apart (t : ty) (w w' : wmem) : bool :=
    match w, w' with
    | MLit k _, MLit k' _ => String.eqb k k' || strty t && (objty (mty w) || objty (mty w'))
    | _, _ => strty t && (objty (mty w) || objty (mty w'))
    end.
  Definition no_clash (W R : ty) : bool :=
    match R with
    | TNamed n =>
        match get n T with
        | Some (EStruct fs _ _) =>
            forallb (fun f => match f_key f with
                              | Some q => let l := filter (may_fold q) (mems W) in forallb (fun w => forallb (apart (f_ty f) w) l) l
                              | None => true end) fs
        | _ => true
        end
    | _ => true
    end.

  Variable P : ty -> ty -> Prop.
  Hypothesis HP : forall W R, P W R -> forall a, In a (succ W R) -> P (fst a) (snd a).
  Hypothesis HC : forall W R, P W R -> no_clash W R = true.

  Definition inv (b : ty * json) : Prop := scalar (snd b) \/ exists W, P W (fst b) /\ shape W (snd b).

  Lemma reads_scalar a b : reads T a b -> scalar (snd a) -> scalar (snd b).
  Proof. intros R. destruct R; cbn [snd scalar]; intros X; try destruct X; exact X. Qed.

  (* A member of an object written as W. *)
  Lemma mems_ok W m k x : shape W (JObj m) -> In (k, x) m -> match W with TPtr _ => True | _ => memok (mems W) k x end.
  Proof.
    intros H I. inversion H as [t j1 S|j1|t j1 S|t l S|t m0 S S'|n0 fs ps d i f j1 G Ip Ef NO NB S|n0 m0 ws L A B]; subst; try exact Logic.I.
    - destruct S.
    - exists (MRest [] TAny). split; [left; reflexivity|]. split; [intros p []|]. split; [apply sh_any|intros O; discriminate O].
    - exists (MRest [] t). split; [left; reflexivity|]. split; [intros p []|]. split; [exact (S k x I)|exact (S' k x I)].
    - destruct NO. eexists. reflexivity.
    - exact (sh_members_of _ _ H k x I).
  Qed.

  Lemma in_succ W R a : match W with TPtr _ => False | _ => True end -> In a (succ_here W R) -> In a (succ W R).
  Proof. intros N I. unfold succ. apply in_or_app. right. destruct W; first [exact I|destruct N]. Qed.

  Lemma step_here W x R b : match W with TPtr _ => False | _ => True end -> shape W x ->
    (forall l, x = JArr l -> match W with TArr w => forall y, In y l -> shape w y | TAny => True | _ => False end) ->
    (forall m k y, x = JObj m -> In (k, y) m -> memok (mems W) k y) ->
    P W R -> reads T (R, x) b -> inv b.
  Proof.
    intros N H HA HM HW RD. remember (R, x) as a eqn:Ea. destruct RD as [t j|t l y I|t m k y I|n fs ps d t j G I|n fs ps d i f j G I Ef|n fs ps d f q m k y G If Eq Ek I|n fs ps d i f t m k y G K1 K2 Hi Ef Et I]; injection Ea as <- <-; right; cbn [fst snd].
    - exists W. split; [|exact H]. apply (HP _ _ HW (W, t)). apply in_succ; [exact N|]; cbn [succ_here]. left. reflexivity.
    - specialize (HA l eq_refl). destruct W as [| | | | | |w|w|w|w]; try destruct HA.
      + exists TAny. split; [|apply sh_any]. apply (HP _ _ HW (TAny, t)). apply in_succ; [exact N|]; cbn [succ_here]. left. reflexivity.
      + exists w. split; [|exact (HA y I)]. apply (HP _ _ HW (w, t)). apply in_succ; [exact N|]; cbn [succ_here]. left. reflexivity.
    - destruct (HM m k y eq_refl I) as (w & Iw & _ & Sw & _). exists (mty w). split; [|exact Sw]. apply (HP _ _ HW (mty w, t)). apply in_succ; [exact N|]; cbn [succ_here]. exact (in_map (fun w => (mty w, t)) _ _ Iw).
    - exists W. split; [|exact H]. apply (HP _ _ HW (W, t)). apply in_succ; [exact N|]; cbn [succ_here]. rewrite G. apply in_or_app. left. exact (in_map (fun t => (W, t)) _ _ I).
    - exists W. split; [|exact H]. apply (HP _ _ HW (W, f_ty f)). apply in_succ; [exact N|]; cbn [succ_here]. rewrite G. apply in_or_app. right. apply in_or_app. left. apply in_flat_map. exists i. split; [exact I|]. rewrite Ef. left. reflexivity.
    - destruct (HM m k y eq_refl I) as (w & Iw & Kw & Sw & _). exists (mty w). split; [|exact Sw]. apply (HP _ _ HW (mty w, f_ty f)). apply in_succ; [exact N|]; cbn [succ_here]. rewrite G. apply in_or_app. right. apply in_or_app. right. apply in_or_app. left.
      apply in_flat_map. exists f. split; [exact If|]. rewrite Eq. apply (in_map (fun w => (mty w, f_ty f))). apply filter_In. split; [exact Iw|]. exact (may_fold_ok w k q Kw Ek).
    - destruct (HM m k y eq_refl I) as (w & Iw & Kw & Sw & _). exists (mty w). split; [|exact Sw]. apply (HP _ _ HW (mty w, t)). apply in_succ; [exact N|]; cbn [succ_here]. rewrite G. apply in_or_app. right. apply in_or_app. right. apply in_or_app. right.
      apply in_or_app. destruct Hi as [(p & Ip & Mp)|[Ia Np]]; [left|right]; apply in_flat_map.
      + exists (p, i). split; [exact Ip|]. cbn [fst snd]. rewrite Ef, Et. apply (in_map (fun w => (mty w, t))). apply filter_In. split; [exact Iw|]. exact (may_match_ok w k p Kw Mp).
      + exists i. split; [exact Ia|]. rewrite Ef, Et. apply (in_map (fun w => (mty w, t))). apply filter_In. split; [exact Iw|]. exact (may_left_ok w k d Kw K1 K2 Np).
  Qed.
  Lemma in_alone W R W' : In W' (alone W) -> P W R -> P W' R.
  Proof. intros I HW. apply (HP _ _ HW (W', R)). unfold succ. apply in_or_app. left. exact (in_map (fun t => (t, R)) _ _ I). Qed.
  Lemma alone_field n fs ps d i f : get n T = Some (EStruct fs ps d) -> In (PField i) ps -> nth_error fs i = Some f -> ob (unptr (f_ty f)) = false -> In (f_ty f) (alone (TNamed n)).
  Proof. intros G Ip Ef NB. cbn [alone]. rewrite G. apply in_flat_map. exists (PField i). split; [exact Ip|]. cbv beta iota. rewrite Ef, NB. left. reflexivity. Qed.

  Lemma step : forall W x, shape W x -> forall R b, P W R -> reads T (R, x) b -> inv b.
  Proof.
    intros W x H. induction H as [t j1 S|j1|t j1 S IH|t l S IH|t m0 S IH S'|n0 fs ps d i f j1 G Ip Ef NO NB S IH|n0 m0 ws L A B IH]; intros R b HW RD.
    - left. exact (reads_scalar _ _ RD S).
    - apply (step_here TAny j1 R b Logic.I (sh_any j1)); [intros l _; exact Logic.I| |exact HW|exact RD]. intros m k y -> I. exact (mems_ok TAny _ k y (sh_any _) I).
    - apply (IH R b); [|exact RD]. apply (in_alone (TPtr t)); [left; reflexivity|exact HW].
    - apply (step_here (TArr t) _ R b Logic.I (sh_arr t l S)); [intros l0 E; injection E as <-; exact S|intros m k y E; discriminate E|exact HW|exact RD].
    - apply (step_here (TMap t) _ R b Logic.I (sh_map t m0 S S')); [intros l0 E; discriminate E| |exact HW|exact RD]. intros m k y E I. injection E as <-. exact (mems_ok (TMap t) _ k y (sh_map t m0 S S') I).
    - apply (IH R b); [|exact RD]. apply (in_alone (TNamed n0)); [exact (alone_field n0 fs ps d i f G Ip Ef NB)|exact HW].
    - apply (step_here (TNamed n0) _ R b Logic.I (sh_obj n0 m0 ws L A B)); [intros l0 E; discriminate E| |exact HW|exact RD]. intros m k y E I. injection E as <-. exact (mems_ok (TNamed n0) _ k y (sh_obj n0 m0 ws L A B) I).
  Qed.

  Lemma members_of : forall W x, shape W x -> forall R m, P W R -> x = JObj m -> exists W', P W' R /\ forall k y, In (k, y) m -> memok (mems W') k y.
  Proof.
    intros W x H. induction H as [t j1 S|j1|t j1 S IH|t l S IH|t m0 S IH S'|n0 fs ps d i f j1 G Ip Ef NO NB S IH|n0 m0 ws L A B IH]; intros R m HW E.
    - subst. destruct S.
    - subst. exists TAny. split; [exact HW|]. intros k y I. exact (mems_ok TAny _ k y (sh_any _) I).
    - apply (IH R m); [|exact E]. apply (in_alone (TPtr t)); [left; reflexivity|exact HW].
    - discriminate E.
    - injection E as ->. exists (TMap t). split; [exact HW|]. intros k y I. exact (mems_ok (TMap t) _ k y (sh_map t m S S') I).
    - destruct NO. exists m. exact E.
    - injection E as ->. exists (TNamed n0). split; [exact HW|]. intros k y I. exact (mems_ok (TNamed n0) _ k y (sh_obj n0 m ws L A B) I).
  Qed.
  Lemma strty_ok t x : strty t = true -> isobj x -> misfit t x.
  Proof. intros E (m & ->). split; [|exists m; reflexivity]. destruct t as [| | | | | |t| | |]; try discriminate E; [left; reflexivity|]. destruct t; try discriminate E. right. reflexivity. Qed.

  Theorem shape_unambiguous W R j : P W R -> shape W j -> unambiguous T R j.
  Proof.
    intros HW S. assert (X : forall b, reads_all T (R, j) b -> inv b).
    { intros b RA. induction RA as [|b c RA IH RD]; [right; exists W; split; assumption|]. destruct IH as [IH|(W' & HW' & S')]; [left; exact (reads_scalar _ _ RD IH)|].
      destruct b as [t x]. exact (step W' x S' t c HW' RD). }
    intros n m fs ps d f q k x k' x' RA G If Eq I I' Ek Ek'. destruct (X _ RA) as [[]|(W' & HW' & S')]. cbn [fst snd] in *.
    destruct (members_of W' _ S' _ m HW' eq_refl) as (W2 & HW2 & M). pose proof (HC _ _ HW2) as C. cbn [no_clash] in C. rewrite G in C. rewrite forallb_forall in C. specialize (C f If). cbv beta in C. rewrite Eq in C. cbv zeta in C.
    destruct (M k x I) as (w & Iw & Kw & _ & Ow). destruct (M k' x' I') as (w' & Iw' & Kw' & _ & Ow').
    rewrite forallb_forall in C. specialize (C w (proj2 (filter_In _ _ _) (conj Iw (may_fold_ok w k q Kw Ek)))).
    rewrite forallb_forall in C. specialize (C w' (proj2 (filter_In _ _ _) (conj Iw' (may_fold_ok w' k' q Kw' Ek')))).
    assert (D : (strty (f_ty f) && (objty (mty w) || objty (mty w')))%bool = true -> misfit (f_ty f) x \/ misfit (f_ty f) x').
    { intros E. apply andb_true_iff in E. destruct E as [E1 E2]. apply orb_true_iff in E2. destruct E2 as [E2|E2]; [left|right]; apply strty_ok; auto. }
    destruct w as [kw tw|pw tw|sw tw]; destruct w' as [kw' tw'|pw' tw'|sw' tw']; cbn [apart] in C; try (right; exact (D C)).
    apply orb_true_iff in C. destruct C as [C|C]; [|right; exact (D C)]. cbn [keyof] in Kw, Kw'. left. apply String.eqb_eq in C. congruence.
  Qed.
End Shape.

(* ---------- the two packages ---------- *)

Fixpoint flat (T : list (string * ent)) (dv : string -> bool) (n : nat) (s : string) : list wmem :=
  match n with
  | O => []
  | S n => match get s T with Some e => flat_step dv (flat T dv n) s e | None => [] end
  end.
Fixpoint objs (T : list (string * ent)) (n : nat) (s : string) : bool :=
  match n with
  | O => false
  | S n => match get s T with Some (EStruct fs parts _) => forallb (ob_part (objs T n) fs) parts | _ => false end
  end.
Definition inp (x : ty * ty) (l : list (ty * ty)) : bool := existsb (fun y => ty_eqb (fst x) (fst y) && ty_eqb (snd x) (snd y)) l.
Fixpoint saturate (next : ty -> ty -> list (ty * ty)) (n : nat) (todo acc : list (ty * ty)) : list (ty * ty) :=
  match n with
  | O => acc
  | S n =>
      match todo with
      | [] => acc
      | x :: todo => if inp x acc then saturate next n todo acc else saturate next n (next (fst x) (snd x) ++ todo) (x :: acc)
      end
  end.

Section Table.
  Variable T : list (string * ent).
  Variable dv : string -> bool.
  (* Computed once. *)
  Variable fl : list (string * list wmem).
  Variable obs : list string.
  Variable ps : list (ty * ty).
  Definition FLt (n : string) : list wmem := match get n fl with Some l => l | None => [] end.
  Definition OBt (n : string) : bool := in_list n obs.

  Definition mem_eqb (a b : wmem) : bool :=
    match a, b with
    | MLit k t, MLit k' t' => String.eqb k k' && ty_eqb t t'
    | MPat p t, MPat p' t' => pat_eqb p p' && ty_eqb t t'
    | MRest l t, MRest l' t' => (length l =? length l')%nat && forallb (fun pp => pat_eqb (fst pp) (snd pp)) (combine l l') && ty_eqb t t'
    | _, _ => false
    end.
  Lemma mem_eqb_ok a b : mem_eqb a b = true -> a = b.
  Proof.
    destruct a, b; cbn [mem_eqb]; intros H; try discriminate H; repeat match goal with X : _ && _ = true |- _ => apply andb_true_iff in X; destruct X end;
      match goal with X : ty_eqb _ _ = true |- _ => apply ty_eqb_ok in X; subst end; f_equal.
    - apply String.eqb_eq. assumption.
    - apply pat_eqb_ok. assumption.
    - match goal with X : (length _ =? length _)%nat = true, Y : forallb _ _ = true |- _ => apply Nat.eqb_eq in X; revert X Y end. revert ps1.
      induction ps0 as [|p l IH]; intros [|p' l'] L F; try discriminate L; [reflexivity|]. cbn [combine forallb fst snd] in F. apply andb_true_iff in F. destruct F as [A B]. apply pat_eqb_ok in A. subst. f_equal. apply IH; [cbn in L; congruence|exact B].
  Qed.
  Definition checks : bool :=
    forallb (fun ne => match get (fst ne) T with
                       | Some e =>
                           forallb (fun w => existsb (mem_eqb w) (FLt (fst ne))) (flat_step dv FLt (fst ne) e) &&
                           (negb (OBt (fst ne)) || match e with EStruct fs parts _ => forallb (ob_part OBt fs) parts | EEnum _ => false end)
                       | None => true
                       end) T &&
    forallb (fun wr => forallb (fun x => inp x ps) (succ T FLt OBt (fst wr) (snd wr)) && no_clash T FLt OBt (fst wr) (snd wr)) ps.
  Hypothesis OK : checks = true.
  Definition Pt (W R : ty) : Prop := inp (W, R) ps = true.
  Lemma inp_In x l : inp x l = true <-> In x l.
  Proof.
    unfold inp. rewrite existsb_exists. split.
    - intros (y & I & E). apply andb_true_iff in E. destruct E as [A B]. apply ty_eqb_ok in A, B. destruct x, y; cbn in A, B. subst. exact I.
    - intros I. exists x. split; [exact I|]. assert (R : forall t, ty_eqb t t = true) by (induction t; cbn [ty_eqb]; auto; apply String.eqb_refl). rewrite !R. reflexivity.
  Qed.

  Theorem written_unambiguous rnd ex n v j : Pt (TNamed n) (TNamed n) -> wf T rnd dv ex (TNamed n) v -> marshal T (TNamed n) v = Some j -> unambiguous T (TNamed n) j.
  Proof.
    intros HP W E. unfold checks in OK. apply andb_true_iff in OK. destruct OK as [A B]. rewrite forallb_forall in A, B.
    assert (A' : forall n e, get n T = Some e -> forallb (fun w => existsb (mem_eqb w) (FLt n)) (flat_step dv FLt n e) && (negb (OBt n) || match e with EStruct fs parts _ => forallb (ob_part OBt fs) parts | EEnum _ => false end) = true).
    { intros n0 e G. specialize (A (n0, e) (get_In _ _ _ G)). cbn [fst] in A. rewrite G in A. exact A. }
    apply (shape_unambiguous T FLt OBt Pt) with (W := TNamed n); [| |exact HP|].
    - intros W0 R HW a I. apply inp_In in HW. specialize (B _ HW). cbn [fst snd] in B. apply andb_true_iff in B. destruct B as [B _]. rewrite forallb_forall in B. destruct a as [x y]. exact (B (x, y) I).
    - intros W0 R HW. apply inp_In in HW. specialize (B _ HW). cbn [fst snd] in B. apply andb_true_iff in B. exact (proj2 B).
    - apply (written_shape T dv FLt OBt) with (rnd := rnd) (extra := ex) (v := v); [| |exact W|exact E].
      + intros n0 e w G I. specialize (A' n0 e G). apply andb_true_iff in A'. destruct A' as [A' _]. rewrite forallb_forall in A'. specialize (A' w I). apply existsb_exists in A'. destruct A' as (w' & I' & E'). apply mem_eqb_ok in E'. subst w'. exact I'.
      + intros n0 e G O. specialize (A' n0 e G). apply andb_true_iff in A'. destruct A' as [_ A']. rewrite O in A'. cbn [negb orb] in A'. destruct e; [discriminate A'|exact A'].
  Qed.
End Table.

Definition fl30 := Eval vm_compute in map (fun ne => (fst ne, flat T30 derived30 10 (fst ne))) T30.
Definition obs30 := Eval vm_compute in filter (objs T30 10) (map fst T30).
Definition ps30 := Eval vm_compute in saturate (succ T30 (FLt fl30) (OBt obs30)) (100 * 1000) (map (fun ne => (TNamed (fst ne), TNamed (fst ne))) T30) [].
Definition fl31 := Eval vm_compute in map (fun ne => (fst ne, flat T31 derived31 10 (fst ne))) T31.
Definition obs31 := Eval vm_compute in filter (objs T31 10) (map fst T31).
Definition ps31 := Eval vm_compute in saturate (succ T31 (FLt fl31) (OBt obs31)) (100 * 1000) (map (fun ne => (TNamed (fst ne), TNamed (fst ne))) T31) [].

(* The checks of the tables of the two packages: a computation on the tables, which are given; the values are all of them. *)
Lemma checks30 : checks T30 derived30 fl30 obs30 ps30 = true.
Proof. vm_compute. reflexivity. Qed.
Lemma checks31 : checks T31 derived31 fl31 obs31 ps31 = true.
Proof. vm_compute. reflexivity. Qed.
Lemma starts30 : forallb (fun ne => inp (TNamed (fst ne), TNamed (fst ne)) ps30) T30 = true.
Proof. vm_compute. reflexivity. Qed.
Lemma starts31 : forallb (fun ne => inp (TNamed (fst ne), TNamed (fst ne)) ps31) T31 = true.
Proof. vm_compute. reflexivity. Qed.

(* Whatever MarshalJSON writes for a well formed value is unambiguous for UnmarshalJSON. *)
Theorem written_unambiguous30 rnd n v j : wf T30 rnd derived30 extra30 (TNamed n) v -> marshal T30 (TNamed n) v = Some j -> unambiguous T30 (TNamed n) j.
Proof.
  intros W E. assert (I : exists e, get n T30 = Some e) by (inversion W; subst; eauto). destruct I as (e & G).
  apply (written_unambiguous T30 derived30 fl30 obs30 ps30 checks30 rnd extra30 n v j); [|exact W|exact E].
  exact (proj1 (forallb_forall _ _) starts30 _ (get_In _ _ _ G)).
Qed.
Theorem written_unambiguous31 rnd n v j : wf T31 rnd derived31 extra31 (TNamed n) v -> marshal T31 (TNamed n) v = Some j -> unambiguous T31 (TNamed n) j.
Proof.
  intros W E. assert (I : exists e, get n T31 = Some e) by (inversion W; subst; eauto). destruct I as (e & G).
  apply (written_unambiguous T31 derived31 fl31 obs31 ps31 checks31 rnd extra31 n v j); [|exact W|exact E].
  exact (proj1 (forallb_forall _ _) starts31 _ (get_In _ _ _ G)).
Qed.
