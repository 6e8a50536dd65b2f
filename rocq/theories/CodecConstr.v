(* Constraints between the members of an object that the decoders check. *)
From Coq Require Import Lia.
From Verif Require Import Str SMap Json CodecModel CodecTables CodecSpec CodecProofs CodecEnc CodecRound CodecDis CodecRT CodecObjSpec CodecStrict CodecMembers.

Lemma dec_fields_frame fs i : (forall k, find_field fs k <> Some i) -> forall (ms : CodecModel.members) vs vs',
  dec_fields fs ms vs = Some vs' -> nth_error vs' i = nth_error vs i.
Proof.
  intros F. induction ms as [|[k [j d]] ms IH]; intros vs vs' E; cbn [dec_fields] in E; [congruence|].
  destruct (find_field fs k) as [i1|] eqn:F1; [|exact (IH _ _ E)].
  destruct (nth_error fs i1) as [f1|]; [|discriminate]. destruct (nth_error vs i1) as [v1|]; [|discriminate].
  destruct (d (f_ty f1) v1) as [v'|]; [|discriminate]. rewrite (IH _ _ E). apply nth_set_other. intros ->. exact (F k F1).
Qed.

(* Every member that belongs to a field is decoded. *)
Lemma dec_fields_each fs : forall (ms : CodecModel.members) vs vs', dec_fields fs ms vs = Some vs' ->
  forall k j d i, In (k, (j, d)) ms -> find_field fs k = Some i -> exists f v w, nth_error fs i = Some f /\ d (f_ty f) v = Some w.
Proof.
  induction ms as [|[k1 [j1 d1]] ms IH]; intros vs vs' E k j d i I F; [destruct I|]. cbn [dec_fields] in E.
  destruct I as [X|I].
  - injection X as -> -> ->. rewrite F in E. destruct (nth_error fs i) as [f|]; [|discriminate]. destruct (nth_error vs i) as [v|]; [|discriminate].
    destruct (d (f_ty f) v) as [w|] eqn:D; [|discriminate]. exists f, v, w. auto.
  - destruct (find_field fs k1) as [i1|]; [|exact (IH _ _ E _ _ _ _ I F)]. destruct (nth_error fs i1) as [f1|]; [|discriminate].
    destruct (nth_error vs i1) as [v1|]; [|discriminate]. destruct (d1 (f_ty f1) v1); [|discriminate]. exact (IH _ _ E _ _ _ _ I F).
Qed.

Section Constr.
  Variable T : list (string * ent).
  Variable rnd : Q -> Q.
  Notation at_ := (CodecProofs.at_ T rnd).
  Notation mview := (CodecProofs.mview T rnd).

  Lemma open_named n fs parts d M v : get n T = Some (EStruct fs parts d) -> ty_good T (TNamed n) = true ->
    unmarshal T rnd (TNamed n) (JObj M) = Some v ->
    exists l vs0 vs, LVL = S l /\ v = VStruct vs /\ length fs = length vs0 /\
      (forall i f v0, nth_error fs i = Some f -> nth_error vs0 i = Some v0 -> zero_at T (f_ty f) v0) /\
      dec_ent T (at_ (JObj M) l) (SObj (mview M)) fs d vs0 = Some vs /\ lvl_ok T (S l) (TNamed n) = true.
  Proof.
    intros G TG E. unfold unmarshal in E. rewrite (dec_at T rnd) in E.
    destruct (zero_named T n fs parts d _ G (ty_good_zero T (fun _ => false) _ TG)) as (vs0 & Z & L0 & H0).
    rewrite Z in E. destruct LVL_S as [l El].
    assert (K : lvl_ok T (S l) (TNamed n) = true) by (rewrite <- El; cbn [ty_good] in TG; rewrite ?andb_true_iff in TG; tauto).
    rewrite El in E. rewrite (at_named T rnd n fs parts d _ _ _ G) in E. cbn [view] in E.
    fold (mview M) in E. destruct (dec_ent _ _ _ _ _ _) as [vs|] eqn:D; [|discriminate]. injection E as <-.
    exists l, vs0, vs. repeat split; auto.
  Qed.

  Lemma at_unmarshal t M l : lvl_ok T l t = true -> lvl_ok T LVL t = true -> at_ (JObj M) l t (zero T LVL t) = unmarshal T rnd t (JObj M).
  Proof. intros H1 H2. unfold unmarshal. rewrite (dec_at T rnd). apply level_irr; assumption. Qed.

  Lemma lvl_named l n fs parts d : get n T = Some (EStruct fs parts d) -> lvl_ok T (S l) (TNamed n) = true ->
    (forall t, In t (d_not d) -> lvl_ok T l t = true) /\
    (forall i f, In i (d_embed d ++ d_oneof d) -> nth_error fs i = Some f -> lvl_ok T l (f_ty f) = true).
  Proof.
    intros G H. cbn [lvl_ok] in H. rewrite G in H. apply andb_true_iff in H. destruct H as [H1 H2]. rewrite forallb_forall in H1, H2.
    split; [exact H2|]. intros i f I E. specialize (H1 i I). rewrite E in H1. exact H1.
  Qed.

  (* Nothing is accepted that an excluded type accepts. *)
  Lemma accept_not n fs parts d M v t : get n T = Some (EStruct fs parts d) -> ty_good T (TNamed n) = true ->
    In t (d_not d) -> lvl_ok T LVL t = true -> unmarshal T rnd (TNamed n) (JObj M) = Some v -> unmarshal T rnd t (JObj M) = None.
  Proof.
    intros G TG I Lt E. destruct (open_named n fs parts d M v G TG E) as (l & vs0 & vs & _ & _ & _ & _ & D & K).
    destruct (lvl_named l n fs parts d G K) as [H _]. unfold dec_ent in D. destruct (forallb _ (d_not d)) eqn:F; [|discriminate].
    rewrite forallb_forall in F. specialize (F t I). cbv beta in F. rewrite (at_unmarshal t M l (H t I) Lt) in F.
    destruct (unmarshal T rnd t (JObj M)); [discriminate|reflexivity].
  Qed.

  Lemma dec_alts_some (same : decoder) fs : forall is vs c vs' c', dec_alts same fs is vs c = (vs', c') -> c' <> c ->
    exists i f v w, In i is /\ nth_error fs i = Some f /\ same (f_ty f) v = Some w.
  Proof.
    induction is as [|i is IH]; intros vs c vs' c' E N; cbn [dec_alts] in E; [congruence|].
    destruct (nth_error fs i) as [f|] eqn:Ef; [|congruence]. destruct (nth_error vs i) as [v|]; [|congruence].
    destruct (same (f_ty f) v) as [w|] eqn:S; [exists i, f, v, w; repeat split; auto; left; reflexivity|].
    destruct (IH _ _ _ _ E N) as (i' & f' & v' & w' & I' & R). exists i', f', v', w'. split; [right; exact I'|exact R].
  Qed.

  (* One of the alternatives accepts the same object. *)
  Lemma accept_alt n fs parts d M v : get n T = Some (EStruct fs parts d) -> ty_good T (TNamed n) = true ->
    d_embed d = [] -> d_oneof d <> [] -> NoDup (d_oneof d) ->
    (forall i f, In i (d_oneof d) -> nth_error fs i = Some f -> exists m, f_ty f = TPtr (TNamed m) /\ lvl_ok T LVL (TNamed m) = true /\ f_key f = None) ->
    unmarshal T rnd (TNamed n) (JObj M) = Some v ->
    exists i f m w, In i (d_oneof d) /\ nth_error fs i = Some f /\ f_ty f = TPtr (TNamed m) /\ unmarshal T rnd (TNamed m) (JObj M) = Some w.
  Proof.
    intros G TG Ee No Nd Ty E. destruct (open_named n fs parts d M v G TG E) as (l & vs0 & vs & _ & _ & L0 & Z0 & D & K).
    destruct (lvl_named l n fs parts d G K) as [_ H]. unfold dec_ent in D. destruct (forallb _ (d_not d)); [|discriminate].
    destruct (if d_struct d then dec_struct (SObj (mview M)) fs vs0 else Some vs0) as [vs2|] eqn:E1; [|discriminate].
    rewrite Ee in D. cbn [dec_embed] in D. destruct (dec_alts (at_ (JObj M) l) fs (d_oneof d) vs2 0) as [vs1 c] eqn:A.
    assert (C : c <> 0).
    { destruct (d_oneof d); [congruence|]. destruct (c =? 1)%nat eqn:C1; [|discriminate]. apply Nat.eqb_eq in C1. lia. }
    (* the old values of the alternatives are nil *)
    assert (Nil : forall is vs c vs' c', dec_alts (at_ (JObj M) l) fs is vs c = (vs', c') -> NoDup is -> c' <> c ->
      (forall i f v, In i is -> nth_error fs i = Some f -> nth_error vs i = Some v -> v = VNil) ->
      exists i f w, In i is /\ nth_error fs i = Some f /\ at_ (JObj M) l (f_ty f) VNil = Some w).
    { clear -T. induction is as [|i is IH]; intros vs c vs' c' E Nd N V; cbn [dec_alts] in E; [congruence|]. inversion Nd as [|? ? N1 N2]; subst.
      destruct (nth_error fs i) as [f|] eqn:Ef; [|congruence]. destruct (nth_error vs i) as [v|] eqn:Ev; [|congruence].
      assert (v = VNil) by (apply (V i f v); [left; reflexivity|exact Ef|exact Ev]). subst v.
      destruct (at_ (JObj M) l (f_ty f) VNil) as [w|] eqn:S; [exists i, f, w; repeat split; auto; left; reflexivity|].
      destruct (IH _ _ _ _ E N2 N) as (i' & f' & w' & I' & R); [|exists i', f', w'; split; [right; exact I'|exact R]].
      intros i' f' v' I' Ef' Ev'. rewrite nth_set_other in Ev' by (intros ->; exact (N1 I')). apply (V i' f' v'); [right; exact I'|exact Ef'|exact Ev']. }
    destruct (Nil _ _ _ _ _ A Nd C) as (i & f & w & I & Ef & S).
    { intros i f v' I Ef Ev. destruct (Ty i f I Ef) as (m & Et & _ & Ek).
      assert (X : nth_error vs2 i = nth_error vs0 i).
      { destruct (d_struct d); [|congruence]. cbn [dec_struct] in E1. apply (dec_fields_frame fs i) with (2 := E1).
        intros k F. destruct (find_fold fs k i F) as (f' & k' & Ef' & Ek' & _). congruence. }
      rewrite X in Ev. destruct (Z0 i f v' Ef Ev) as (k & _ & ->). rewrite Et. apply zero_ptr. }
    destruct (Ty i f I Ef) as (m & Et & Lm & _). assert (Hl := H i f (in_or_app _ _ _ (or_intror I)) Ef). rewrite Et in Hl, S.
    destruct l as [|l]; [discriminate Hl|]. rewrite at_ptr in S. cbv iota in S.
    destruct (at_ (JObj M) l (TNamed m) (zero T LVL (TNamed m))) as [w'|] eqn:S'; [|discriminate].
    rewrite at_unmarshal in S' by assumption. exists i, f, m, w'. auto.
  Qed.

  (* The value of an embedded field is what its type makes of the same object. *)
  Lemma accept_embed n fs parts d M v i f t : get n T = Some (EStruct fs parts d) -> ty_good T (TNamed n) = true ->
    NoDup (map fst M) -> NoDup (map snd (d_pats d)) ->
    In i (d_embed d) -> NoDup (d_embed d) -> nth_error fs i = Some f -> f_ty f = TPtr t -> f_key f = None -> lvl_ok T LVL t = true ->
    ~ In i (d_oneof d ++ map fst (d_fix d) ++ map snd (d_pats d) ++ d_addl d) ->
    unmarshal T rnd (TNamed n) (JObj M) = Some v ->
    exists vs w, v = VStruct vs /\ nth_error vs i = Some (VPtr w) /\ unmarshal T rnd t (JObj M) = Some w.
  Proof.
    intros G TG N NP I Nd Ef Et Ek Lt Ni E. destruct (open_named n fs parts d M v G TG E) as (l & vs0 & vs & _ & -> & L0 & Z0 & D & K).
    destruct (lvl_named l n fs parts d G K) as [_ H]. assert (Hl := H i f (in_or_app _ _ _ (or_introl I)) Ef). rewrite Et in Hl.
    destruct l as [|l]; [discriminate Hl|]. cbn [lvl_ok] in Hl.
    rewrite !in_app_iff in Ni. unfold dec_ent in D. destruct (forallb _ (d_not d)); [|discriminate].
    destruct (if d_struct d then dec_struct (SObj (mview M)) fs vs0 else Some vs0) as [vs1|] eqn:E1; [|discriminate].
    destruct (dec_embed (at_ (JObj M) (S l)) fs (d_embed d) vs1) as [vs2|] eqn:E2; [|discriminate].
    destruct (dec_alts (at_ (JObj M) (S l)) fs (d_oneof d) vs2 0) as [vs3 c] eqn:E3.
    destruct (match d_oneof d with [] => true | _ => (c =? 1)%nat end); [|discriminate].
    assert (V1 : nth_error vs1 i = Some VNil).
    { assert (X : nth_error vs0 i = Some VNil).
      { destruct (nth_error vs0 i) as [v0|] eqn:E0.
        - destruct (Z0 i f v0 Ef E0) as (k & _ & ->). rewrite Et, zero_ptr. reflexivity.
        - apply nth_error_None in E0. assert (i < length fs) by (apply nth_error_Some; congruence). lia. }
      destruct (d_struct d); [|congruence]. cbn [dec_struct] in E1. rewrite (dec_fields_frame fs i) with (vs := vs0) (2 := E1); [exact X|].
      intros k F. destruct (find_fold fs k i F) as (f' & k' & Ef' & Ek' & _). congruence. }
    assert (V2 : exists w, nth_error vs2 i = Some (VPtr w) /\ unmarshal T rnd t (JObj M) = Some w).
    { clear E E1 E3 D. revert vs1 vs2 E2 V1 I Nd. clear -Ef Et Lt Hl. generalize (d_embed d) as is.
      induction is as [|i1 is IH]; intros vs1 vs2 E V1 I Nd; [destruct I|]. inversion Nd as [|? ? N1 N2]; subst. cbn [dec_embed] in E.
      destruct (nth_error fs i1) as [f1|] eqn:Ef1; [|discriminate]. destruct (nth_error vs1 i1) as [v1|] eqn:Ev1; [|discriminate].
      destruct (at_ (JObj M) (S l) (f_ty f1) v1) as [w1|] eqn:S; [|discriminate].
      destruct (Nat.eq_dec i1 i) as [->|Ne].
      - rewrite Ef in Ef1. injection Ef1 as <-. rewrite V1 in Ev1. injection Ev1 as <-. rewrite Et, at_ptr in S. cbv iota in S.
        destruct (at_ (JObj M) l t (zero T LVL t)) as [w|] eqn:S'; [|discriminate]. injection S as <-.
        rewrite at_unmarshal in S' by assumption. exists w. split; [|exact S'].
        destruct (dec_embed_frame _ _ _ _ _ E) as [_ F]. rewrite (F i N1). apply nth_set_same. apply nth_error_Some. congruence.
      - destruct I as [X|I]; [congruence|]. apply (IH _ _ E); auto. rewrite nth_set_other by congruence. exact V1. }
    destruct V2 as (w & V2 & U). exists vs, w. split; [reflexivity|]. split; [|exact U].
    destruct (dec_alts_frame _ _ _ _ _ _ _ E3) as [_ F3]. unfold dec_raw in D. cbn [raw_map] in D.
    assert (NM : NoDup (map fst (mview M))) by (rewrite mview_keys; exact N). rewrite (dedup_id _ NM) in D.
    destruct (raw_checks d (mview M) && lower_checks d vs3); [|discriminate].
    assert (NR : NoDup (map fst (raw_rest d (mview M)))) by (apply filter_nodup; exact NM).
    assert (NL : NoDup (map fst (raw_left d (raw_rest d (mview M))))) by (apply filter_nodup; exact NR).
    destruct (dec_pats T fs (d_pats d) (raw_rest d (mview M)) (dec_fix (d_fix d) (mview M) vs3)) as [vs4|] eqn:E4; [|discriminate].
    destruct (dec_pats_inv T fs (d_pats d) NP _ _ _ E4 NR) as (_ & P1 & _).
    assert (V4 : nth_error vs4 i = Some (VPtr w)).
    { rewrite P1 by tauto. destruct (dec_fix_inv (mview M) (d_fix d) vs3 i) as [X|(X & Y & k' & Ik & _)].
      - rewrite X, F3 by tauto. exact V2.
      - exfalso. apply Ni. right. left. apply in_map_iff. exists (i, k'). auto. }
    destruct (d_addl d) as [|i0 ad] eqn:Ad.
    - destruct (d_closed d && _); [discriminate|]. congruence.
    - destruct (dec_addl_inv T fs i0 _ _ _ D NL) as (_ & A1 & _). rewrite A1; [exact V4|]. intros ->. apply Ni. cbn [In]. tauto.
  Qed.

  (* Every member of an accepted object that belongs to a field is decoded. *)
  Lemma accept_member n fs parts d M v k j i : get n T = Some (EStruct fs parts d) -> ty_good T (TNamed n) = true -> d_struct d = true ->
    In (k, j) M -> find_field fs k = Some i -> unmarshal T rnd (TNamed n) (JObj M) = Some v ->
    exists f old w, nth_error fs i = Some f /\ dec T rnd j (f_ty f) old = Some w.
  Proof.
    intros G TG St Ij F E. destruct (open_named n fs parts d M v G TG E) as (l & vs0 & vs & _ & -> & _ & _ & D & _).
    unfold dec_ent in D. destruct (forallb _ (d_not d)); [|discriminate]. rewrite St in D. cbn [dec_struct] in D.
    destruct (dec_fields fs (mview M) vs0) as [vs1|] eqn:E1; [|discriminate].
    destruct (dec_fields_each fs _ _ _ E1 k j (dec T rnd j) i) as (f & o & w & Ef & Ed); [apply mview_In; auto|exact F|]. eauto.
  Qed.

  Definition raw_checked (d : dprog) (M : list (string * json)) : Prop :=
    (forall k, In k (d_require d) -> In k (map fst M)) /\
    (forall a b, In (a, b) (d_xor d) -> (In a (map fst M) <-> ~ In b (map fst M))) /\
    (forall k c j, In (k, c) (d_const d) -> In (k, j) M -> j = c) /\
    (forall k, In k (d_absent d) -> ~ In k (map fst M)).

  Lemma accept_raw n fs parts d M v : get n T = Some (EStruct fs parts d) -> ty_good T (TNamed n) = true ->
    NoDup (map fst M) -> unmarshal T rnd (TNamed n) (JObj M) = Some v -> raw_checked d M.
  Proof.
    intros G TG N E. destruct (open_named n fs parts d M v G TG E) as (l & vs0 & vs & _ & -> & _ & _ & D & _).
    assert (R : raw_checks d (mview M) = true).
    { apply not_false_iff_true. intros R. rewrite dec_ent_raw in D; [discriminate|]. apply dec_raw_checks. rewrite raw_mview by exact N. exact R. }
    unfold raw_checks in R. rewrite !andb_true_iff in R. destruct R as [[[[R1 R2] R3] _] R5]. rewrite forallb_forall in R1, R2, R3, R5.
    split; [|split; [|split]].
    - intros k I. specialize (R1 k I). apply raw_has_In in R1. exact R1.
    - intros a b I. specialize (R2 _ I). cbn [fst snd] in R2.
      assert (Ha := raw_has_In T rnd a M). assert (Hb := raw_has_In T rnd b M).
      destruct (raw_has (mview M) a), (raw_has (mview M) b); try discriminate R2; intuition congruence.
    - intros k c j Ic Ij. specialize (R3 _ Ic). cbn [fst snd] in R3.
      rewrite (raw_has_yes T rnd M _ _ Ij), (raw_is_In T rnd M _ _ _ N Ij) in R3. apply scalar_eq. exact R3.
    - intros k I X. specialize (R5 k I). cbv beta in R5. apply (raw_has_In T rnd k M) in X. rewrite X in R5. discriminate R5.
  Qed.

  (* A struct of values of any kind accepts whatever has the required keys. *)
  Lemma accept_any n fs parts d M : get n T = Some (EStruct fs parts d) -> ty_good T (TNamed n) = true ->
    (forall f, In f fs -> f_ty f = TAny) ->
    (d_not d, d_embed d, d_oneof d, d_xor d, d_const d) = ([], [], [], [], []) ->
    (d_notconst d, d_absent d, d_lower d, d_pats d, d_addl d, d_closed d) = ([], [], [], [], [], false) ->
    (forall k, In k (d_require d) -> In k (map fst M)) -> exists v, unmarshal T rnd (TNamed n) (JObj M) = Some v.
  Proof.
    intros G TG An Q1 Q2 R. injection Q1 as Q1 Q3 Q4 Q5 Q6. injection Q2 as Q2 Q7 Q8 Q9 Q10 Q11. unfold unmarshal. rewrite (dec_at T rnd).
    destruct (zero_named T n fs parts d _ G (ty_good_zero T (fun _ => false) _ TG)) as (vs0 & Z & L0 & H0).
    rewrite Z. destruct LVL_S as [l El]. rewrite El. rewrite (at_named T rnd n fs parts d _ _ _ G). cbn [view]. fold (mview M).
    assert (X : exists vs1, (if d_struct d then dec_struct (SObj (mview M)) fs vs0 else Some vs0) = Some vs1).
    { destruct (d_struct d); [|eauto]. cbn [dec_struct]. clear -An L0. revert vs0 L0. induction M as [|[k j] M IH]; intros vs0 L0; cbn [mview map dec_fields fst snd]; [eauto|].
      fold (mview M). destruct (find_field fs k) as [i|] eqn:F; [|auto]. destruct (find_fold fs k i F) as (f & k' & Ef & _). rewrite Ef.
      assert (Li : i < length fs) by (apply nth_error_Some; congruence). destruct (nth_error vs0 i) as [v0|] eqn:Ev; [|apply nth_error_None in Ev; lia].
      rewrite (An f (nth_error_In _ _ Ef)). assert (Y : dec T rnd j TAny v0 = Some (VAny (canon rnd j))) by (rewrite (dec_at T rnd); destruct LVL_S as [l' ->]; reflexivity).
      rewrite Y. apply IH. rewrite length_set. exact L0. }
    destruct X as [vs1 X]. unfold dec_ent. rewrite Q1. cbn [forallb]. rewrite X, Q3, Q4. cbn [dec_embed dec_alts].
    unfold dec_raw, raw_checks, lower_checks. rewrite Q5, Q6, Q2, Q7, Q8, Q9, Q10, Q11, dec_pats_nil. cbn [forallb].
    assert (Y : forallb (raw_has (raw_map (SObj (mview M)))) (d_require d) = true).
    { apply forallb_forall. intros k I. unfold raw_has. apply in_list_In. cbn [raw_map]. apply dedup_keys. rewrite mview_keys. exact (R k I). }
    rewrite Y. cbn [andb]. eauto.
  Qed.
End Constr.
