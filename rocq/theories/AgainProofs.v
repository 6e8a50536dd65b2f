(* Writing again what was read from a written document. *)
From Coq Require Import Lia.
From Verif Require Import Str SMap Json CodecModel CodecTables CodecSpec CodecProofs CodecEnc CodecRound CodecDis CodecRT CodecObjSpec CodecStrict CodecMembers CodecConstr CodecWrite AgainSpec.

Definition pairs (rnd : Q -> Q) (m m' : list (string * json)) : Prop :=
  Forall2 (fun a b => fst b = fst a /\ again rnd (snd a) (snd b)) m m'.

Lemma pairs_refl rnd m : pairs rnd m m.
Proof. induction m as [|[k j] m IH]; constructor; [split; [reflexivity|constructor]|exact IH]. Qed.
Lemma pairs_app rnd a a' b b' : pairs rnd a a' -> pairs rnd b b' -> pairs rnd (a ++ b) (a' ++ b').
Proof. apply Forall2_app. Qed.

(* ---------- rounded ---------- *)

Lemma canon_rounded rnd : forall j, distinct j -> canon rnd j = rounded rnd j.
Proof.
  fix IH 1. intros j D. destruct j as [| | | |l|m]; cbn [canon rounded]; try reflexivity.
  - f_equal. inversion D as [| | | |l' H|]; subst. clear D. induction l as [|x l IHl]; cbn [map]; [reflexivity|].
    rewrite (IH x (H x (or_introl eq_refl))). f_equal. apply IHl. intros y I. apply H. right. exact I.
  - f_equal. inversion D as [| | | | |m' N H]; subst. clear D.
    assert (E : map (fun kv => (fst kv, canon rnd (snd kv))) m = map (fun kv => (fst kv, rounded rnd (snd kv))) m).
    { clear N. induction m as [|[k x] m IHm]; cbn [map fst snd]; [reflexivity|]. rewrite (IH x (H k x (or_introl eq_refl))). f_equal.
      apply IHm. intros k' y I. apply (H k'). right. exact I. }
    rewrite E. apply dedup_id. rewrite map_map. exact N.
Qed.

(* ---------- strip ---------- *)

Section Strip.
  Variable T : list (string * ent).
  Variable derived : string -> bool.
  Notation strip := (CodecSpec.strip T derived).

  Lemma strip_empty v t : is_empty (strip v t) = is_empty v.
  Proof.
    destruct v as [| | | | |w|l|m|l]; cbn [CodecSpec.strip]; try reflexivity.
    - destruct t; reflexivity.
    - destruct t; try reflexivity. destruct l; reflexivity.
    - destruct t; try reflexivity. destruct m; reflexivity.
    - destruct t; try reflexivity. destruct (get n T) as [[]|]; reflexivity.
  Qed.

  Definition leaf (v : val) : bool := match v with VNil | VStr _ | VNum _ | VBool _ | VAny _ => true | _ => false end.
  Lemma strip_leaf v t w : strip v t = w -> leaf w = true -> v = w.
  Proof.
    intros E L. destruct v as [| | | | |x|l|m|l]; cbn [CodecSpec.strip] in E; try exact E.
    - destruct t; try exact E; subst w; discriminate L.
    - destruct t; try exact E; subst w; discriminate L.
    - destruct t; try exact E; subst w; discriminate L.
    - destruct t; try exact E. destruct (get n T) as [[]|]; try exact E; subst w; discriminate L.
  Qed.

  Lemma strip_ptr v t w : strip v (TPtr t) = VPtr w -> exists w', v = VPtr w' /\ strip w' t = w.
  Proof.
    destruct v as [| | | | |x|l|m|l]; cbn [CodecSpec.strip]; try discriminate. intros E. injection E as E. eauto.
  Qed.
  Lemma strip_arr v t w : strip v (TArr t) = VArr w -> exists w', v = VArr w' /\ map (fun x => strip x t) w' = w.
  Proof.
    destruct v as [| | | | |x|l|m|l]; cbn [CodecSpec.strip]; try discriminate. intros E. injection E as E. eauto.
  Qed.
  Lemma strip_map v t w : strip v (TMap t) = VMap w -> exists w', v = VMap w' /\ map (fun x => (fst x, strip (snd x) t)) w' = w.
  Proof.
    destruct v as [| | | | |x|l|m|l]; cbn [CodecSpec.strip]; try discriminate. intros E. injection E as E. eauto.
  Qed.

  Lemma strip_fields_at dv : forall fs i0 l ws, strip_fields dv i0 fs (map (fun w => (w, strip w)) l) = ws ->
    length ws = length l /\
    forall i f w, nth_error fs i = Some f -> nth_error l i = Some w -> nth_error ws i = Some (if dv (i0 + i) then VNil else strip w (f_ty f)).
  Proof.
    induction fs as [|f fs IH]; intros i0 l ws E.
    - cbn [strip_fields] in E. split; [subst ws; destruct l; cbn [map length]; rewrite ?map_length; reflexivity|]. intros i f w Ef. destruct i; discriminate Ef.
    - destruct l as [|w l]; cbn [map strip_fields] in E.
      + subst ws. split; [reflexivity|]. intros i f' w _ Ev. destruct i; discriminate Ev.
      + destruct ws as [|x ws]; [discriminate|]. injection E as E1 E2. destruct (IH _ _ _ E2) as [L H]. split; [cbn [length]; congruence|].
        intros [|i] f' w' Ef Ev; cbn [nth_error] in Ef, Ev |- *.
        * injection Ef as <-. injection Ev as <-. rewrite Nat.add_0_r. cbn [snd] in E1. congruence.
        * rewrite Nat.add_succ_r. exact (H i f' w' Ef Ev).
  Qed.

  Lemma strip_struct v n fs parts d vs : get n T = Some (EStruct fs parts d) -> strip v (TNamed n) = VStruct vs ->
    exists vs', v = VStruct vs' /\ length vs = length vs' /\
      forall i f w, nth_error fs i = Some f -> nth_error vs' i = Some w ->
        nth_error vs i = Some (if derived n && special_pos d i then VNil else strip w (f_ty f)).
  Proof.
    intros G E. destruct v as [| | | | |x|l|m|l]; cbn [CodecSpec.strip] in E; try discriminate.
    rewrite G in E. injection E as E. apply strip_fields_at in E. destruct E as [L H]. exists l. split; [reflexivity|]. split; [exact L|].
    exact H.
  Qed.
End Strip.

(* ---------- reading, piece by piece ---------- *)

Section Open.
  Variable T : list (string * ent).
  Variable rnd : Q -> Q.
  Notation at_ := (CodecProofs.at_ T rnd).
  Notation mview := (CodecProofs.mview T rnd).

  Lemma ptr_open t j w : ty_good T (TPtr t) = true -> unmarshal T rnd (TPtr t) j = Some (VPtr w) -> unmarshal T rnd t j = Some w.
  Proof.
    intros G E. pose proof (ty_good_lvl T (fun _ => false) _ G) as L1.
    assert (L2 : lvl_ok T LVL t = true). { apply (ty_good_lvl T (fun _ => false)). cbn [ty_good] in G. rewrite !andb_true_iff in G. tauto. }
    unfold unmarshal in *. rewrite (dec_at T rnd) in E |- *. destruct LVL_S as [l El].
    assert (X : lvl_ok T l t = true) by (rewrite El in L1; exact L1).
    rewrite zero_ptr in E. replace (at_ j LVL (TPtr t) VNil) with (at_ j (S l) (TPtr t) VNil) in E by (rewrite El; reflexivity).
    rewrite at_ptr in E. rewrite (level_irr T rnd j l t LVL _ X L2) in E.
    destruct (at_ j LVL t (zero T LVL t)) as [w'|]; destruct j; try discriminate E; injection E as <-; reflexivity.
  Qed.

  (* The alternatives of a choice are read from the same value. *)
  Lemma union_values n fs parts d j v : get n T = Some (EStruct fs parts d) -> unionP fs parts d -> ty_good T (TNamed n) = true ->
    (forall f, In f fs -> lvl_ok T LVL (f_ty f) = true) -> unmarshal T rnd (TNamed n) j = Some v ->
    v = VStruct (map (fun f => or_nil (unmarshal T rnd (f_ty f) j)) fs) /\
    length (filter is_some (map (fun f => unmarshal T rnd (f_ty f) j) fs)) = 1.
  Proof.
    intros G U TG Lf E. unfold unmarshal at 1 in E. rewrite (dec_at T rnd) in E.
    destruct (zero_named T n fs parts d _ G (ty_good_zero T (fun _ => false) _ TG)) as (vs0 & Z & L0 & Z0). rewrite Z in E.
    destruct LVL_S as [l El].
    assert (K : lvl_ok T (S l) (TNamed n) = true) by (rewrite <- El; exact (ty_good_lvl T (fun _ => false) _ TG)).
    destruct (lvl_named T l n fs parts d G K) as [_ H].
    rewrite El in E. rewrite (at_named T rnd n fs parts d _ _ _ G) in E.
    destruct (dec_ent _ _ _ _ _ _) as [vs1|] eqn:D; [|discriminate]. injection E as <-. unfold dec_ent in D.
    destruct (forallb _ (d_not d)); [|discriminate]. rewrite (U_struct _ _ _ U), (U_embed _ _ _ U) in D. cbn [dec_embed] in D.
    assert (V0 : vs0 = map (fun _ => VNil) fs).
    { clear -L0 Z0 U. assert (H : forall i f v0, nth_error fs i = Some f -> nth_error vs0 i = Some v0 -> v0 = VNil).
      { intros i f v0 Ef Ev. destruct (Z0 i f v0 Ef Ev) as (k & _ & ->). destruct (U_field _ _ _ U i f Ef) as [_ [->|[b ->]]]; apply zero_ptr. }
      clear -H L0. revert vs0 L0 H. induction fs as [|f fs IH]; intros [|v vs0] L0 H; try discriminate; [reflexivity|]. cbn [map]. f_equal.
      - exact (H 0 f v eq_refl eq_refl).
      - apply IH; [injection L0 as L0; exact L0|]. intros i. exact (H (S i)). }
    assert (X : forall f, In f fs -> at_ j l (f_ty f) VNil = unmarshal T rnd (f_ty f) j).
    { intros f I. destruct (In_nth_error _ _ I) as [i Ef]. destruct (U_field _ _ _ U i f Ef) as [_ Et].
      assert (Ii : In i (d_embed d ++ d_oneof d)).
      { apply in_or_app. right. rewrite (U_oneof _ _ _ U). apply in_seq. assert (i < length fs) by (apply nth_error_Some; congruence). lia. }
      unfold unmarshal. rewrite (dec_at T rnd). rewrite (level_irr T rnd j l (f_ty f) LVL _ (H i f Ii Ef) (Lf f I)). f_equal. symmetry.
      destruct Et as [->|[b ->]]; apply zero_ptr. }
    pose proof (dec_alts_all (at_ j l) fs [] [] 0 eq_refl) as DA. cbn [app length Nat.add] in DA.
    rewrite (map_ext_in (fun f => or_nil (at_ j l (f_ty f) VNil)) (fun f => or_nil (unmarshal T rnd (f_ty f) j)) fs) in DA by (intros f I; rewrite (X f I); reflexivity).
    rewrite (map_ext_in (fun f => at_ j l (f_ty f) VNil) (fun f => unmarshal T rnd (f_ty f) j) fs) in DA by exact X.
    rewrite V0, (U_oneof _ _ _ U), DA in D.
    assert (Sq : seq 0 (length fs) <> []) by (rewrite <- (U_oneof _ _ _ U); exact (U_some _ _ _ U)).
    destruct (seq 0 (length fs)) as [|x xs]; [congruence|]. destruct (_ =? 1)%nat eqn:C; [|discriminate]. apply Nat.eqb_eq in C.
    unfold dec_raw, raw_checks, lower_checks in D. rewrite (U_require _ _ _ U), (U_xor _ _ _ U), (U_const _ _ _ U), (U_notconst _ _ _ U), (U_absent _ _ _ U), (U_lower _ _ _ U), (U_fix _ _ _ U), (U_pats _ _ _ U), (U_addl _ _ _ U), (U_closed _ _ _ U), dec_pats_nil in D.
    cbn [forallb andb dec_fix] in D. injection D as <-. split; [reflexivity|exact C].
  Qed.

  Lemma union_open n fs parts d j vs i f t w : get n T = Some (EStruct fs parts d) -> unionP fs parts d -> ty_good T (TNamed n) = true ->
    (forall f, In f fs -> ty_good T (f_ty f) = true) ->
    unmarshal T rnd (TNamed n) j = Some (VStruct vs) -> nth_error fs i = Some f -> f_ty f = TPtr t -> nth_error vs i = Some (VPtr w) ->
    unmarshal T rnd t j = Some w.
  Proof.
    intros G U TG Gf E Ef Et Ev.
    destruct (union_values n fs parts d j _ G U TG (fun f I => ty_good_lvl T (fun _ => false) _ (Gf f I)) E) as [V _]. injection V as ->.
    rewrite nth_error_map, Ef in Ev. cbn [option_map] in Ev. injection Ev as Ev. pose proof (Gf f (nth_error_In _ _ Ef)) as Gt. rewrite Et in Ev, Gt.
    destruct (unmarshal T rnd (TPtr t) j) as [x|] eqn:X; [|discriminate]. cbn [or_nil] in Ev. subst x. exact (ptr_open t j w Gt X).
  Qed.

  Lemma ptr_obj t M x : ty_good T (TPtr t) = true -> unmarshal T rnd (TPtr t) (JObj M) = Some x ->
    exists w, x = VPtr w /\ unmarshal T rnd t (JObj M) = Some w.
  Proof.
    intros G E. assert (X : exists w, x = VPtr w).
    { unfold unmarshal in E. rewrite (dec_at T rnd) in E. destruct LVL_S as [l El]. rewrite zero_ptr in E.
      replace (at_ (JObj M) LVL (TPtr t) VNil) with (at_ (JObj M) (S l) (TPtr t) VNil) in E by (rewrite El; reflexivity). rewrite at_ptr in E.
      destruct (at_ (JObj M) l t _) as [w|]; [|discriminate E]. injection E as <-. eauto. }
    destruct X as [w ->]. exists w. split; [reflexivity|exact (ptr_open t _ w G E)].
  Qed.

  (* The alternatives among the other fields. *)
  Lemma alts_open n fs parts d M v : get n T = Some (EStruct fs parts d) -> ty_good T (TNamed n) = true -> NoDup (map fst M) -> NoDup (map snd (d_pats d)) ->
    d_embed d = [] -> d_oneof d <> [] -> (forall i f, In i (d_oneof d) -> nth_error fs i = Some f -> f_key f = None /\ exists t, f_ty f = TPtr t /\ lvl_ok T LVL (TPtr t) = true) ->
    unmarshal T rnd (TNamed n) (JObj M) = Some v ->
    exists vs vs2 vs3 same, v = VStruct vs /\ dec_alts same fs (d_oneof d) vs2 0 = (vs3, 1) /\ length fs = length vs2 /\
      (forall i f, In i (d_oneof d) -> nth_error fs i = Some f -> nth_error vs2 i = Some VNil /\ same (f_ty f) VNil = unmarshal T rnd (f_ty f) (JObj M)) /\
      (forall i, ~ In i (map fst (d_fix d) ++ map snd (d_pats d) ++ d_addl d) -> nth_error vs i = nth_error vs3 i).
  Proof.
    intros G TG N NP Ee No Ty E. destruct (open_named T rnd n fs parts d M v G TG E) as (l & vs0 & vs & _ & -> & L0 & Z0 & D & K).
    destruct (lvl_named T l n fs parts d G K) as [_ H]. unfold dec_ent in D. destruct (forallb _ (d_not d)); [|discriminate].
    destruct (if d_struct d then dec_struct (SObj (mview M)) fs vs0 else Some vs0) as [vs2|] eqn:E1; [|discriminate].
    rewrite Ee in D. cbn [dec_embed] in D. destruct (dec_alts (at_ (JObj M) l) fs (d_oneof d) vs2 0) as [vs3 c] eqn:A.
    assert (C : c = 1). { destruct (d_oneof d); [congruence|]. destruct (c =? 1)%nat eqn:C1; [|discriminate]. apply Nat.eqb_eq in C1. exact C1. }
    subst c. exists vs, vs2, vs3, (at_ (JObj M) l). split; [reflexivity|]. split; [exact A|].
    assert (L1 : length vs2 = length vs0).
    { destruct (d_struct d); [|congruence]. cbn [dec_struct] in E1. revert E1. generalize (mview M) as ms, vs0 as w. induction ms as [|[k [j dd]] ms IH]; intros w X; cbn [dec_fields] in X; [congruence|].
      destruct (find_field fs k) as [i|]; [|auto]. destruct (nth_error fs i) as [f|]; [|discriminate]. destruct (nth_error w i) as [v|]; [|discriminate]. destruct (dd (f_ty f) v); [|discriminate].
      apply IH in X. rewrite length_set in X. exact X. }
    split; [congruence|]. split.
    - intros i f I Ef. destruct (Ty i f I Ef) as (Ek & t & Et & Lt). split.
      + assert (X : nth_error vs2 i = nth_error vs0 i).
        { destruct (d_struct d); [|congruence]. cbn [dec_struct] in E1. apply (dec_fields_frame fs i) with (2 := E1).
          intros k F. destruct (find_fold fs k i F) as (f' & k' & Ef' & Ek' & _). congruence. }
        rewrite X. destruct (nth_error vs0 i) as [v0|] eqn:E0.
        * destruct (Z0 i f v0 Ef E0) as (k & _ & ->). rewrite Et, zero_ptr. reflexivity.
        * apply nth_error_None in E0. assert (i < length fs) by (apply nth_error_Some; congruence). lia.
      + unfold unmarshal. rewrite (dec_at T rnd). rewrite Et, zero_ptr. apply level_irr; [|exact Lt].
        rewrite <- Et. apply (H i f); [apply in_or_app; right; exact I|exact Ef].
    - intros i Ni. rewrite !in_app_iff in Ni.
      assert (D' : dec_raw T fs d (SObj (mview M)) vs3 = Some vs). { destruct (d_oneof d); [congruence|]. exact D. }
      clear D. unfold dec_raw in D'. cbn [raw_map] in D'. assert (NM : NoDup (map fst (mview M))) by (rewrite mview_keys; exact N). rewrite (dedup_id _ NM) in D'.
      destruct (raw_checks d (mview M) && lower_checks d vs3); [|discriminate].
      assert (NR : NoDup (map fst (raw_rest d (mview M)))) by (apply filter_nodup; exact NM).
      assert (NL : NoDup (map fst (raw_left d (raw_rest d (mview M))))) by (apply filter_nodup; exact NR).
      destruct (dec_pats T fs (d_pats d) (raw_rest d (mview M)) (dec_fix (d_fix d) (mview M) vs3)) as [vs4|] eqn:E4; [|discriminate].
      destruct (dec_pats_inv T fs (d_pats d) NP _ _ _ E4 NR) as (_ & P1 & _).
      assert (V4 : nth_error vs4 i = nth_error vs3 i).
      { rewrite P1 by tauto. destruct (dec_fix_inv (mview M) (d_fix d) vs3 i) as [X|(X & Y & k' & Ik & _)]; [exact X|].
        exfalso. apply Ni. left. apply in_map_iff. exists (i, k'). auto. }
      destruct (d_addl d) as [|i0 ad] eqn:Ad.
      + destruct (d_closed d && _); [discriminate|]. congruence.
      + destruct (dec_addl_inv T fs i0 _ _ _ D' NL) as (_ & A1 & _). rewrite A1; [exact V4|]. intros ->. apply Ni. cbn [In]. tauto.
  Qed.

  (* A type without alternatives, patterns and the like. *)
  Definition plain (d : dprog) : Prop :=
    d_embed d = [] /\ d_oneof d = [] /\ d_fix d = [] /\ d_pats d = [] /\ d_addl d = [].

  Lemma plain_open n fs parts d M v : get n T = Some (EStruct fs parts d) -> ty_good T (TNamed n) = true -> plain d ->
    unmarshal T rnd (TNamed n) (JObj M) = Some v ->
    exists vs0 vs, v = VStruct vs /\ length fs = length vs0 /\
      (forall i f v0, nth_error fs i = Some f -> nth_error vs0 i = Some v0 -> zero_at T (f_ty f) v0) /\
      (if d_struct d then dec_fields fs (mview M) vs0 else Some vs0) = Some vs.
  Proof.
    intros G TG (P1 & P2 & P3 & P4 & P5) E. destruct (open_named T rnd n fs parts d M v G TG E) as (l & vs0 & vs & _ & -> & L0 & Z0 & D & _).
    exists vs0, vs. split; [reflexivity|]. split; [exact L0|]. split; [exact Z0|]. unfold dec_ent in D. destruct (forallb _ (d_not d)); [|discriminate].
    rewrite P1, P2 in D. cbn [dec_struct dec_embed dec_alts] in D. destruct (if d_struct d then _ else _) as [vs1|]; [|discriminate].
    unfold dec_raw in D. rewrite P3, P4, P5, dec_pats_nil in D. cbn [dec_fix] in D. destruct (raw_checks _ _ && _); [|discriminate].
    destruct (d_closed d && _); [discriminate|]. exact D.
  Qed.
End Open.
