(* Decoding what encoding gives, for the types of both packages. *)
From Coq Require Import Lia.
From Verif Require Import Str SMap Json CodecModel CodecTables CodecSpec CodecProofs CodecEnc CodecRound CodecDis.

(* ---------- checks over all types ---------- *)

Section Check.
  Variable T : list (string * ent).
  Variable derived skip : string -> bool.

  Definition ok_check (ne : string * ent) : bool :=
    match snd ne with
    | EStruct fs parts d =>
        skip (fst ne) || (ent_ok T fs d && (pure_union fs parts d && negb (derived (fst ne)) || joined T derived (fst ne) fs parts d))
    | EEnum _ => true
    end.
  Lemma ok_check_ok extra : forallb ok_check T = true -> (forall n vs, extra n vs = true -> skip n = false) ->
    forall n fs parts d (vs : list val), get n T = Some (EStruct fs parts d) -> extra n vs = true ->
    ent_ok T fs d = true /\ (pure_union fs parts d = true /\ derived n = false \/ joined T derived n fs parts d = true).
  Proof.
    intros C S n fs parts d vs G X. rewrite forallb_forall in C. specialize (C _ (get_In _ _ _ G)). unfold ok_check in C. cbn [fst snd] in C.
    rewrite (S n vs X) in C. cbn [orb] in C. apply andb_true_iff in C. destruct C as [C1 C2]. split; [exact C1|].
    apply orb_true_iff in C2. destruct C2 as [C2|C2]; [left|right; exact C2]. apply andb_true_iff in C2. destruct C2 as [C2 C3].
    split; [exact C2|]. apply negb_true_iff. exact C3.
  Qed.

  (* Types that are not mentioned in [l] have none of some checks. *)
  Definition none_check (g : dprog -> bool) (l : list string) (ne : string * ent) : bool :=
    match snd ne with EStruct _ _ d => in_list (fst ne) l || g d | EEnum _ => true end.
  Lemma none_ok g l : forallb (none_check g l) T = true -> forall n fs parts d, get n T = Some (EStruct fs parts d) ->
    ~ In n l -> g d = true.
  Proof.
    intros C n fs parts d G N. rewrite forallb_forall in C. specialize (C _ (get_In _ _ _ G)). unfold none_check in C. cbn [fst snd] in C.
    apply in_list_false in N. rewrite N in C. exact C.
  Qed.
End Check.

(* ---------- decoding members of an object as small types ---------- *)

Section Small.
  Variable T : list (string * ent).
  Variable rnd : Q -> Q.
  Notation at_ := (CodecProofs.at_ T rnd).

  Lemma ptr_dec M l b fs parts d vs0 : get b T = Some (EStruct fs parts d) -> zero T LVL (TNamed b) = VStruct vs0 ->
    at_ (JObj M) (S (S l)) (TPtr (TNamed b)) VNil =
      match dec_ent T (at_ (JObj M) l) (SObj (mview T rnd M)) fs d vs0 with Some vs => Some (VPtr (VStruct vs)) | None => None end.
  Proof.
    intros G Z. unfold CodecProofs.at_. cbn [levels]. cbn [dec_step view]. rewrite G, Z. unfold mview.
    destruct (dec_ent _ _ _ _ _ _); reflexivity.
  Qed.

  Lemma rejects_raw M b fs parts d : get b T = Some (EStruct fs parts d) -> NoDup (map fst M) ->
    raw_checks d (mview T rnd M) = false -> rejects T rnd (JObj M) (TNamed b).
  Proof.
    intros G N R l old Lv. destruct (lvl_S T _ _ Lv) as [l' ->]. unfold CodecProofs.at_. cbn [levels]. cbn [dec_step view]. rewrite G.
    destruct old; try reflexivity. fold (mview T rnd M). rewrite dec_ent_raw; [reflexivity|]. apply dec_raw_checks.
    rewrite raw_mview by exact N. exact R.
  Qed.

  Lemma rejects_missing M b fs parts d k : get b T = Some (EStruct fs parts d) -> NoDup (map fst M) ->
    In k (d_require d) -> ~ In k (map fst M) -> rejects T rnd (JObj M) (TNamed b).
  Proof.
    intros G N I NI. apply (rejects_raw M b fs parts d G N). apply not_true_iff_false. unfold raw_checks. rewrite !andb_true_iff. intros [[[[R _] _] _] _].
    rewrite forallb_forall in R. specialize (R k I). apply raw_has_In in R. exact (NI R).
  Qed.

  Lemma rejects_ptr j t : j <> JNull -> rejects T rnd j t -> rejects T rnd j (TPtr t).
  Proof.
    intros NJ R l old Lv. destruct (lvl_S T _ _ Lv) as [l' ->]. cbn [lvl_ok] in Lv. unfold CodecProofs.at_. cbn [levels]. unfold dec_step at 1.
    specialize (R l' (match old with VPtr v => v | _ => zero T LVL t end) Lv). unfold CodecProofs.at_ in R. rewrite R. destruct j; try congruence; reflexivity.
  Qed.

  (* A small type: fields, required keys, constants. *)
  Definition small (d : dprog) : Prop :=
    d_not d = [] /\ d_embed d = [] /\ d_oneof d = [] /\ d_lower d = [] /\ d_fix d = [] /\ d_pats d = [] /\ d_addl d = [] /\ d_closed d = false.

  Lemma small_dec M same fs d vs0 : small d -> NoDup (map fst M) -> raw_checks d (mview T rnd M) = true ->
    length fs = length vs0 ->
    (d_struct d = true ->
     (forall k1 k2 i, In k1 (map fst M) -> In k2 (map fst M) -> find_field fs k1 = Some i -> find_field fs k2 = Some i -> k1 = k2) /\
     (forall k j i f v, In (k, j) M -> find_field fs k = Some i -> nth_error fs i = Some f -> nth_error vs0 i = Some v ->
        exists v', dec T rnd j (f_ty f) v = Some v')) ->
    exists vs, dec_ent T same (SObj (mview T rnd M)) fs d vs0 = Some vs.
  Proof.
    intros (S1 & S2 & S3 & S4 & S5 & S6 & S7 & S8) N R L H. unfold dec_ent. rewrite S1, S2, S3. cbn [forallb dec_embed dec_alts].
    assert (Fin : forall vs, dec_raw T fs d (SObj (mview T rnd M)) vs = Some vs).
    { intros vs. unfold dec_raw. rewrite raw_mview by exact N. rewrite R. unfold lower_checks. rewrite S4, S5, S6, S7, S8. cbn [forallb andb dec_fix].
      rewrite dec_pats_none. reflexivity. }
    destruct (d_struct d).
    - cbn [dec_struct]. destruct (H eq_refl) as [H1 H2].
      destruct (dec_fields_ok fs (mview T rnd M) vs0) as (vs & E & _).
      + rewrite mview_keys. exact N.
      + rewrite mview_keys. exact H1.
      + exact L.
      + intros k j d0 i f v I F Ef Ev. apply mview_In in I. destruct I as [I ->]. eapply H2; eassumption.
      + exists vs. rewrite E, Fin. reflexivity.
    - exists vs0. rewrite Fin. reflexivity.
  Qed.

  Lemma small_ptr M b fs parts d vs0 : get b T = Some (EStruct fs parts d) -> zero T LVL (TNamed b) = VStruct vs0 ->
    small d -> NoDup (map fst M) -> raw_checks d (mview T rnd M) = true -> length fs = length vs0 ->
    (d_struct d = true ->
     (forall k1 k2 i, In k1 (map fst M) -> In k2 (map fst M) -> find_field fs k1 = Some i -> find_field fs k2 = Some i -> k1 = k2) /\
     (forall k j i f v, In (k, j) M -> find_field fs k = Some i -> nth_error fs i = Some f -> nth_error vs0 i = Some v ->
        exists v', dec T rnd j (f_ty f) v = Some v')) ->
    forall l, lvl_ok T l (TPtr (TNamed b)) = true -> exists v, at_ (JObj M) l (TPtr (TNamed b)) VNil = Some v.
  Proof.
    intros G Z S N R L H l Lv. destruct (lvl_S T _ _ Lv) as [l1 ->]. cbn [lvl_ok] in Lv. destruct (lvl_S T _ _ Lv) as [l2 ->].
    rewrite (ptr_dec M l2 b fs parts d vs0 G Z). destruct (small_dec M (at_ (JObj M) l2) fs d vs0 S N R L H) as [vs E]. rewrite E. eauto.
  Qed.

  Lemma union_ptr M b fs parts d vs0 i0 f0 : get b T = Some (EStruct fs parts d) -> zero T LVL (TNamed b) = VStruct vs0 ->
    pure_union fs parts d = true -> length fs = length vs0 -> (forall v, In v vs0 -> v = VNil) ->
    (forall t, In t (d_not d) -> rejects T rnd (JObj M) t) ->
    nth_error fs i0 = Some f0 ->
    (forall l, lvl_ok T l (f_ty f0) = true -> exists v, at_ (JObj M) l (f_ty f0) VNil = Some v) ->
    (forall i f, i <> i0 -> nth_error fs i = Some f -> rejects T rnd (JObj M) (f_ty f)) ->
    forall l, lvl_ok T l (TPtr (TNamed b)) = true -> exists v, at_ (JObj M) l (TPtr (TNamed b)) VNil = Some v.
  Proof.
    intros G Z U L V0 HN Ef0 HA HR l Lv. apply union_ok in U. destruct (lvl_S T _ _ Lv) as [l1 ->]. cbn [lvl_ok] in Lv. destruct (lvl_S T _ _ Lv) as [l2 ->].
    rewrite (ptr_dec M l2 b fs parts d vs0 G Z). cbn [lvl_ok] in Lv. rewrite G in Lv. apply andb_true_iff in Lv. destruct Lv as [Lv1 Lv2].
    rewrite forallb_forall in Lv1, Lv2.
    assert (Bd : forall x, In x (d_oneof d) <-> x < length fs). { intros x. rewrite (U_oneof _ _ _ U), in_seq. lia. }
    assert (Lf : forall x fx, nth_error fs x = Some fx -> lvl_ok T l2 (f_ty fx) = true).
    { intros x fx Efx. specialize (Lv1 x). rewrite (U_embed _ _ _ U) in Lv1. cbn [app] in Lv1.
      assert (Ix : In x (d_oneof d)) by (apply Bd; eapply nth_some_lt; eassumption). specialize (Lv1 Ix). rewrite Efx in Lv1. exact Lv1. }
    destruct (HA l2 (Lf _ _ Ef0)) as [v' Ed].
    destruct (dec_alts_one (at_ (JObj M) l2) fs i0 f0 v' Ef0 (d_oneof d) vs0 0 L) as (vs' & EA & _).
    - rewrite (U_oneof _ _ _ U). apply seq_NoDup.
    - apply Bd. eapply nth_some_lt. exact Ef0.
    - intros i I. apply Bd. exact I.
    - intros v Ev. rewrite (V0 v (nth_error_In _ _ Ev)). exact Ed.
    - intros i f v I N Ef Ev. rewrite (V0 v (nth_error_In _ _ Ev)). apply (HR i f N Ef). exact (Lf i f Ef).
    - unfold dec_ent. replace (forallb _ (d_not d)) with true.
      2: { symmetry. apply forallb_forall. intros t It. rewrite (HN t It l2 _ (Lv2 t It)). reflexivity. }
      rewrite (U_struct _ _ _ U), (U_embed _ _ _ U). cbn [dec_embed]. rewrite EA.
      replace (match d_oneof d with [] => true | _ => (1 =? 1)%nat end) with true by (destruct (d_oneof d); reflexivity).
      unfold dec_raw, raw_checks, lower_checks.
      rewrite (U_require _ _ _ U), (U_xor _ _ _ U), (U_const _ _ _ U), (U_notconst _ _ _ U), (U_absent _ _ _ U), (U_lower _ _ _ U), (U_fix _ _ _ U), (U_pats _ _ _ U), (U_addl _ _ _ U), (U_closed _ _ _ U).
      cbn [forallb andb dec_fix]. rewrite dec_pats_none. eauto.
  Qed.

  (* Keys of an object that are taken for a field are its key. *)
  Definition exact_check (s : shape) (fs : list field) : bool :=
    forallb (fun cb => match fst cb with
                       | KFin l => forallb (fun k => match find_field fs k with
                                                     | Some i => match nth_error fs i with
                                                                 | Some f => match f_key f with Some k' => String.eqb k k' | None => false end
                                                                 | None => false
                                                                 end
                                                     | None => true
                                                     end) l
                       | c => class_free c fs
                       end) (s_class s).
  Lemma exact_ok s fs M : sdesc s M -> exact_check s fs = true -> forall k i f, In k (map fst M) -> find_field fs k = Some i ->
    nth_error fs i = Some f -> f_key f = Some k.
  Proof.
    intros D C k i f I F Ef. apply key_pair in I. destruct I as [x I]. destruct (S_class _ _ D k x I) as (c & b & Ic & Kc & _).
    unfold exact_check in C. rewrite forallb_forall in C. specialize (C _ Ic). cbn [fst] in C. destruct c as [l|p|ps].
    - cbn in Kc. rewrite forallb_forall in C. specialize (C k Kc). rewrite F, Ef in C. destruct (f_key f); [|discriminate].
      apply String.eqb_eq in C. congruence.
    - rewrite (class_free_ok _ _ _ C Kc) in F. discriminate.
    - rewrite (class_free_ok _ _ _ C Kc) in F. discriminate.
  Qed.
  Lemma exact_inj s fs M : sdesc s M -> exact_check s fs = true -> forall k1 k2 i, In k1 (map fst M) -> In k2 (map fst M) ->
    find_field fs k1 = Some i -> find_field fs k2 = Some i -> k1 = k2.
  Proof.
    intros D C k1 k2 i I1 I2 F1 F2. destruct (find_field_some _ _ _ F1) as (f & _ & Ef & _).
    pose proof (exact_ok s fs M D C k1 i f I1 F1 Ef). pose proof (exact_ok s fs M D C k2 i f I2 F2 Ef). congruence.
  Qed.

  Lemma raw_is_In M k j c : NoDup (map fst M) -> In (k, j) M -> raw_is (mview T rnd M) k c = json_eqb_scalar j c.
  Proof. intros N I. unfold raw_is. rewrite mview_get, (get_of_In k j M N I). reflexivity. Qed.
  Lemma raw_has_yes M k j : In (k, j) M -> raw_has (mview T rnd M) k = true.
  Proof. intros I. apply raw_has_In. apply keys_In with j. exact I. Qed.
  Lemma raw_has_no M k : ~ In k (map fst M) -> raw_has (mview T rnd M) k = false.
  Proof. intros I. apply not_true_iff_false. intros H. apply raw_has_In in H. exact (I H). Qed.

  (* An object with a known member. *)
  Lemma known_desc M k c : NoDup (map fst M) -> In (k, c) M ->
    described (ShObj {| s_always := [(k, AConst c)]; s_class := [(KRest [], false)] |}) (JObj M).
  Proof.
    intros N I. exists M. split; [reflexivity|]. constructor; cbn [s_always s_class].
    - exact N.
    - intros k' a [E|[]]. injection E as <- <-. exists c. split; [exact I|reflexivity].
    - intros k' x Ix. exists (KRest []), false. split; [left; reflexivity|]. split; [intros p []|discriminate].
  Qed.
End Small.

(* The members of an encoding that come from fields. *)
Lemma obj_field T rnd derived extra n fs parts d vs i f k v j :
  (forall n fs parts d vs, get n T = Some (EStruct fs parts d) -> extra n vs = true ->
     ent_ok T fs d = true /\ (pure_union fs parts d = true /\ derived n = false \/ joined T derived n fs parts d = true)) ->
  wfs T rnd derived extra n fs parts d vs -> joined T derived n fs parts d = true ->
  nth_error fs i = Some f -> f_key f = Some k -> nth_error vs i = Some v -> f_omit f && is_empty v = false -> enc T v (f_ty f) = Some j ->
  In (k, j) (obj_of T fs parts vs).
Proof.
  intros Hok W Jb Ef Ek Ev O E. pose proof Jb as J. apply joined_ok in J. destruct (encodes T rnd derived extra Hok n fs parts d vs W J) as [JN _].
  assert (St : In PStruct parts).
  { destruct (J_struct _ _ _ _ _ _ J) as [Z|Z]; [|exact Z]. exfalso. assert (X : In k (fkeys fs)) by (apply fkeys_In; eauto). rewrite Z in X. destruct X. }
  unfold obj_of. apply in_concat_seg. exists PStruct. split; [exact St|]. apply (seg_struct_In T derived extra fs vs k j (JN _ St)). exists i, f, v. auto.
Qed.

Lemma obj_descr T rnd derived extra n fs parts d vs :
  (forall n fs parts d vs, get n T = Some (EStruct fs parts d) -> extra n vs = true ->
     ent_ok T fs d = true /\ (pure_union fs parts d = true /\ derived n = false \/ joined T derived n fs parts d = true)) ->
  wfs T rnd derived extra n fs parts d vs -> joined T derived n fs parts d = true -> descr T fs d vs (obj_of T fs parts vs).
Proof.
  intros Hok W Jb. pose proof Jb as J. apply joined_ok in J. destruct (encodes T rnd derived extra Hok n fs parts d vs W J) as [JN _].
  destruct (Hok n fs parts d vs (W_get _ _ _ _ _ _ _ _ _ W) (W_extra _ _ _ _ _ _ _ _ _ W)) as [OK _].
  eapply descr_joined; try eassumption. eapply seg_nodup; eassumption.
Qed.

(* ---------- 3.0 ---------- *)

Section V30.
  Variable rnd : Q -> Q.
  Notation wfs := (CodecEnc.wfs T30 rnd derived30 extra30).

  Lemma ok30 : forall n fs parts d vs, get n T30 = Some (EStruct fs parts d) -> extra30 n vs = true ->
    ent_ok T30 fs d = true /\ (pure_union fs parts d = true /\ derived30 n = false \/ joined T30 derived30 n fs parts d = true).
  Proof.
    apply (ok_check_ok T30 derived30 (fun n => String.eqb n "NonBearer")); [vm_compute; reflexivity|].
    intros n vs X. destruct (String.eqb n "NonBearer") eqn:E; [|reflexivity]. apply String.eqb_eq in E. subst n. discriminate X.
  Qed.

  Lemma enc30 n fs parts d vs M : wfs n fs parts d vs -> joined T30 derived30 n fs parts d = true ->
    enc T30 (VStruct vs) (TNamed n) = Some (JObj M) -> M = obj_of T30 fs parts vs.
  Proof.
    intros W Jb E. pose proof Jb as J. apply joined_ok in J. destruct (encodes T30 rnd derived30 extra30 ok30 n fs parts d vs W J) as [_ E'].
    rewrite E' in E. congruence.
  Qed.

  Lemma raw30 : forall n fs parts d vs M, wfs n fs parts d vs -> joined T30 derived30 n fs parts d = true ->
    enc T30 (VStruct vs) (TNamed n) = Some (JObj M) ->
    forallb (fun ab => xorb (raw_has (mview T30 rnd M) (fst ab)) (raw_has (mview T30 rnd M) (snd ab))) (d_xor d) = true /\
    forallb (fun kc => negb (raw_is (mview T30 rnd M) (fst kc) (snd kc))) (d_notconst d) = true /\
    forallb (fun k => negb (raw_has (mview T30 rnd M) k)) (d_absent d) = true.
  Proof.
    intros n fs parts d vs M W _ _.
    assert (N : ~ In n ["NonBearer"]). { intros [<-|[]]. pose proof (W_extra _ _ _ _ _ _ _ _ _ W) as X. discriminate X. }
    pose proof (none_ok T30 (fun d => nullb (d_xor d) && nullb (d_notconst d) && nullb (d_absent d)) ["NonBearer"] ltac:(vm_compute; reflexivity)
      n fs parts d (W_get _ _ _ _ _ _ _ _ _ W) N) as C.
    rewrite !andb_true_iff in C. destruct C as [[C1 C2] C3]. apply nullb_nil in C1, C2, C3. rewrite C1, C2, C3. auto.
  Qed.

  Lemma low30 : forall n fs parts d vs, wfs n fs parts d vs -> lower_checks d vs = true.
  Proof.
    intros n fs parts d vs W.
    pose proof (none_ok T30 (fun d => nullb (d_lower d)) [] ltac:(vm_compute; reflexivity)
      n fs parts d (W_get _ _ _ _ _ _ _ _ _ W) (fun x => x)) as C.
    apply nullb_nil in C. unfold lower_checks. rewrite C. reflexivity.
  Qed.

  Lemma dis30 : forall n fs parts d vs j i w i' f', wfs n fs parts d vs -> derived30 n = false ->
    enc T30 (VStruct vs) (TNamed n) = Some j ->
    In i (d_oneof d) -> nth_error vs i = Some (VPtr w) ->
    In i' (d_oneof d) -> i' <> i -> nth_error fs i' = Some f' -> rejects T30 rnd j (f_ty f').
  Proof.
    intros n fs parts d vs j i w i' f' W Dn E I Ei I' N Ef'.
    exact (dis_ok T30 rnd derived30 extra30 ok30 (fun _ _ _ => false) ltac:(vm_compute; reflexivity)
      n fs parts d vs j i w i' f' W Dn E I Ei I' N Ef' eq_refl).
  Qed.

  Definition not_check (skip : list string) (T : list (string * ent)) (derived : string -> bool) (ne : string * ent) : bool :=
    match snd ne with
    | EStruct fs parts d => in_list (fst ne) skip || forallb (fun t => forallb (fun s => rej T LVL s t) (shapes T derived LVL (fst ne))) (d_not d)
    | EEnum _ => true
    end.

  Lemma not_ok T derived extra skip n fs parts d vs j t :
    (forall n fs parts d vs, get n T = Some (EStruct fs parts d) -> extra n vs = true ->
       ent_ok T fs d = true /\ (pure_union fs parts d = true /\ derived n = false \/ joined T derived n fs parts d = true)) ->
    forallb (not_check skip T derived) T = true ->
    CodecEnc.wfs T rnd derived extra n fs parts d vs -> enc T (VStruct vs) (TNamed n) = Some j ->
    In t (d_not d) -> ~ In n skip -> rejects T rnd j t.
  Proof.
    intros Hok C W E It N. rewrite forallb_forall in C. specialize (C _ (get_In _ _ _ (W_get _ _ _ _ _ _ _ _ _ W))). unfold not_check in C.
    cbn [fst snd] in C. apply in_list_false in N. rewrite N in C. cbn [orb] in C. rewrite forallb_forall in C. specialize (C t It). rewrite forallb_forall in C.
    destruct (shapes_ok T rnd derived extra Hok LVL n (VStruct vs) j) as (s & Is & Ds).
    - destruct W. econstructor; eassumption.
    - exact E.
    - apply (rej_ok T rnd LVL s); [apply C; exact Is|exact Ds].
  Qed.

  Lemma not30 : forall n fs parts d vs j t, wfs n fs parts d vs -> enc T30 (VStruct vs) (TNamed n) = Some j ->
    In t (d_not d) -> rejects T30 rnd j t.
  Proof.
    intros n fs parts d vs j t W E It. destruct (in_dec string_dec n ["Link"]) as [[<-|[]]|N].
    - pose proof (W_get _ _ _ _ _ _ _ _ _ W) as G. vm_compute in G. injection G as <- <- <-.
      destruct It as [<-|[]].
      match type of W with CodecEnc.wfs _ _ _ _ _ ?fs ?parts ?d _ =>
        assert (Jb : joined T30 derived30 "Link" fs parts d = true) by (vm_compute; reflexivity) end.
      pose proof (obj_descr T30 rnd derived30 extra30 _ _ _ _ _ ok30 W Jb) as DS.
      assert (Em : exists M, j = JObj M).
      { pose proof Jb as J. apply joined_ok in J. destruct (encodes T30 rnd derived30 extra30 ok30 _ _ _ _ vs W J) as [_ E']. rewrite E' in E. injection E as <-. eauto. }
      destruct Em as [M ->]. pose proof (enc30 _ _ _ _ _ _ W Jb E) as EM. rewrite <- EM in DS.
      pose proof (W_len _ _ _ _ _ _ _ _ _ W) as L. pose proof (W_extra _ _ _ _ _ _ _ _ _ W) as X.
      destruct vs as [|v0 [|v1 vs]]; try discriminate L.
      change (is_nil v0 || is_nil v1 = true) in X.
      eapply rejects_missing with (b := "LinkNot"); [vm_compute; reflexivity|exact (D_nodup _ _ _ _ _ DS)| |].
      + instantiate (1 := if is_nil v0 then "operationId" else "operationRef"). destruct (is_nil v0); cbn; auto.
      + destruct (is_nil v0) eqn:N0.
        * destruct v0; try discriminate. eapply (D_omit _ _ _ _ _ DS 0); reflexivity.
        * cbn [orb] in X. destruct v1; try discriminate. eapply (D_omit _ _ _ _ _ DS 1); reflexivity.
    - eapply (not_ok T30 derived30 extra30 ["Link"]); try eassumption; [exact ok30|vm_compute; reflexivity].
  Qed.

  Notation at30 := (CodecProofs.at_ T30 rnd).

  (* An object with a schema or a content, not both. *)
  Lemma xor30 M s f1 f2 : NoDup (map fst M) -> sdesc s M ->
    f1 = mkField "Schema" TAny (Some "schema") false -> f2 = mkField "Content" TAny (Some "content") false ->
    exact_check s [f1] = true -> exact_check s [f2] = true ->
    (In "schema" (map fst M) /\ ~ In "content" (map fst M)) \/ (In "content" (map fst M) /\ ~ In "schema" (map fst M)) ->
    forall l, lvl_ok T30 l (TPtr (TNamed "SchemaXORContent")) = true ->
    exists v, at30 (JObj M) l (TPtr (TNamed "SchemaXORContent")) VNil = Some v.
  Proof.
    intros N SD -> -> C1 C2 H.
    assert (A1 : In "schema" (map fst M) -> forall l, lvl_ok T30 l (TPtr (TNamed "HasSchema")) = true -> exists v, at30 (JObj M) l (TPtr (TNamed "HasSchema")) VNil = Some v).
    { intros I. apply key_pair in I. destruct I as [j I].
      eapply small_ptr; [vm_compute; reflexivity|vm_compute; reflexivity|repeat split|exact N| |reflexivity|].
      - unfold raw_checks. cbn [d_require d_xor d_const d_notconst d_absent forallb andb]. rewrite (raw_has_yes T30 rnd M _ _ I). reflexivity.
      - intros _. split; [exact (exact_inj s _ M SD C1)|]. intros k j' i f v Ij F Ef Ev. destruct i as [|[|i]]; cbn in Ef; try discriminate. injection Ef as <-.
        rewrite (dec_at T30 rnd). eexists. reflexivity. }
    assert (A2 : In "content" (map fst M) -> forall l, lvl_ok T30 l (TPtr (TNamed "HasContent")) = true -> exists v, at30 (JObj M) l (TPtr (TNamed "HasContent")) VNil = Some v).
    { intros I. apply key_pair in I. destruct I as [j I].
      eapply small_ptr; [vm_compute; reflexivity|vm_compute; reflexivity|repeat split|exact N| |reflexivity|].
      - unfold raw_checks. cbn [d_require d_xor d_const d_notconst d_absent forallb andb]. rewrite (raw_has_yes T30 rnd M _ _ I). reflexivity.
      - intros _. split; [exact (exact_inj s _ M SD C2)|]. intros k j' i f v Ij F Ef Ev. destruct i as [|[|i]]; cbn in Ef; try discriminate. injection Ef as <-.
        rewrite (dec_at T30 rnd). eexists. reflexivity. }
    destruct H as [[I NI]|[I NI]].
    - eapply (union_ptr T30 rnd M "SchemaXORContent") with (i0 := 0); [vm_compute; reflexivity|vm_compute; reflexivity|vm_compute; reflexivity|reflexivity| | |reflexivity| |].
      + cbn [In]. intuition congruence.
      + intros t [<-|[]]. eapply (rejects_missing T30 rnd M "SchemaXORContentNot") with (k := "content"); [vm_compute; reflexivity|exact N|cbn; auto|exact NI].
      + exact (A1 I).
      + intros [|[|[|i]]] f Ni Ef; cbn in Ef; try congruence; try discriminate. injection Ef as <-.
        apply rejects_ptr; [discriminate|].
        eapply (rejects_missing T30 rnd M "HasContent") with (k := "content"); [vm_compute; reflexivity|exact N|cbn; auto|exact NI].
    - eapply (union_ptr T30 rnd M "SchemaXORContent") with (i0 := 1); [vm_compute; reflexivity|vm_compute; reflexivity|vm_compute; reflexivity|reflexivity| | |reflexivity| |].
      + cbn [In]. intuition congruence.
      + intros t [<-|[]]. eapply (rejects_missing T30 rnd M "SchemaXORContentNot") with (k := "schema"); [vm_compute; reflexivity|exact N|cbn; auto|exact NI].
      + exact (A2 I).
      + intros [|[|[|i]]] f Ni Ef; cbn in Ef; try congruence; try discriminate. injection Ef as <-.
        apply rejects_ptr; [discriminate|].
        eapply (rejects_missing T30 rnd M "HasSchema") with (k := "schema"); [vm_compute; reflexivity|exact N|cbn; auto|exact NI].
  Qed.

  (* The style of a parameter is absent or a string of some set. *)
  Definition style_in (M : list (string * json)) (l : list string) : Prop :=
    ~ In "style" (map fst M) \/ exists st, In ("style", JStr st) M /\ In st l.

  Lemma style_field M s n vals : NoDup (map fst M) -> sdesc s M -> get n T30 = Some (EEnum vals) -> style_in M vals ->
    exact_check s [mkField "Style" (TPtr (TNamed n)) (Some "style") true] = true ->
    forall k j i f v, In (k, j) M -> find_field [mkField "Style" (TPtr (TNamed n)) (Some "style") true] k = Some i ->
      nth_error [mkField "Style" (TPtr (TNamed n)) (Some "style") true] i = Some f -> nth_error [VNil] i = Some v ->
      exists v', dec T30 rnd j (f_ty f) v = Some v'.
  Proof.
    intros N SD G H C k j i f v I F Ef Ev. pose proof (exact_ok s _ M SD C k i f (keys_In _ _ _ I) F Ef) as K.
    destruct i as [|[|i]]; cbn in Ef, Ev; try discriminate. injection Ef as <-. injection Ev as <-. cbn in K. injection K as <-.
    destruct H as [H|(st & I' & Is)]; [exfalso; apply H; apply keys_In with j; exact I|].
    assert (j = JStr st) by (eapply nodup_eq; eassumption). subst j. apply in_list_In in Is.
    exists (VPtr (VStr st)). rewrite (dec_at T30 rnd). unfold CodecProofs.at_, LVL. cbn [levels dec_step view f_ty]. rewrite G, Is. reflexivity.
  Qed.

  Lemma loc30 M s fp fq p : NoDup (map fst M) -> sdesc s M ->
    fp = mkField "Style" (TPtr (TNamed "PathParameterStyle")) (Some "style") true ->
    fq = mkField "Style" (TPtr (TNamed "QueryParameterStyle")) (Some "style") true ->
    exact_check s [fp] = true -> exact_check s [fq] = true ->
    In ("in", JStr p) M ->
    (p = "path" /\ In ("required", JBool true) M /\ style_in M ["matrix"; "label"; "simple"]) \/
    (p = "query" /\ style_in M ["form"; "spaceDelimited"; "pipeDelimited"; "deepObject"]) \/
    (p = "header" /\ style_in M ["simple"]) \/ (p = "cookie" /\ style_in M ["form"]) ->
    forall l, lvl_ok T30 l (TPtr (TNamed "ParameterLocation")) = true ->
    exists v, at30 (JObj M) l (TPtr (TNamed "ParameterLocation")) VNil = Some v.
  Proof.
    intros N SD -> -> C1 C2 I H.
    assert (Sty : forall st, style_in M [st] -> negb (raw_has (mview T30 rnd M) "style") || raw_is (mview T30 rnd M) "style" (JStr st) = true).
    { intros st [Ns|(x & Is & [<-|[]])].
      - rewrite raw_has_no by exact Ns. reflexivity.
      - rewrite (raw_is_In T30 rnd M _ _ _ N Is). cbn [json_eqb_scalar]. rewrite String.eqb_refl. apply orb_true_r. }
    destruct H as [(-> & Ir & St)|[(-> & St)|[(-> & St)|(-> & St)]]].
    - eapply (union_ptr T30 rnd M "ParameterLocation") with (i0 := 0); [vm_compute; reflexivity|vm_compute; reflexivity|vm_compute; reflexivity|reflexivity| | |reflexivity| |].
      + cbn [In]. intuition congruence.
      + intros t [].
      + eapply small_ptr; [vm_compute; reflexivity|vm_compute; reflexivity|repeat split|exact N| |reflexivity|].
        * unfold raw_checks. cbn [d_require d_xor d_const d_notconst d_absent forallb andb fst snd].
          rewrite (raw_has_yes T30 rnd M _ _ I), (raw_has_yes T30 rnd M _ _ Ir), (raw_is_In T30 rnd M _ _ _ N I), (raw_is_In T30 rnd M _ _ _ N Ir). reflexivity.
        * intros _. split; [exact (exact_inj s _ M SD C1)|]. exact (style_field M s "PathParameterStyle" _ N SD eq_refl St C1).
      + intros i f Ni Ef. apply (rej_ok T30 rnd LVL _ _ _) with (2 := known_desc M _ _ N I).
        do 4 (destruct i as [|i]; [cbn in Ef; try congruence; injection Ef as <-; vm_compute; reflexivity|]). destruct i; discriminate Ef.
    - eapply (union_ptr T30 rnd M "ParameterLocation") with (i0 := 1); [vm_compute; reflexivity|vm_compute; reflexivity|vm_compute; reflexivity|reflexivity| | |reflexivity| |].
      + cbn [In]. intuition congruence.
      + intros t [].
      + eapply small_ptr; [vm_compute; reflexivity|vm_compute; reflexivity|repeat split|exact N| |reflexivity|].
        * unfold raw_checks. cbn [d_require d_xor d_const d_notconst d_absent forallb andb fst snd].
          rewrite (raw_has_yes T30 rnd M _ _ I), (raw_is_In T30 rnd M _ _ _ N I). reflexivity.
        * intros _. split; [exact (exact_inj s _ M SD C2)|]. exact (style_field M s "QueryParameterStyle" _ N SD eq_refl St C2).
      + intros i f Ni Ef. apply (rej_ok T30 rnd LVL _ _ _) with (2 := known_desc M _ _ N I).
        do 4 (destruct i as [|i]; [cbn in Ef; try congruence; injection Ef as <-; vm_compute; reflexivity|]). destruct i; discriminate Ef.
    - eapply (union_ptr T30 rnd M "ParameterLocation") with (i0 := 2); [vm_compute; reflexivity|vm_compute; reflexivity|vm_compute; reflexivity|reflexivity| | |reflexivity| |].
      + cbn [In]. intuition congruence.
      + intros t [].
      + eapply small_ptr; [vm_compute; reflexivity|vm_compute; reflexivity|repeat split|exact N| |reflexivity|discriminate].
        unfold raw_checks. cbn [d_require d_xor d_const d_notconst d_absent forallb andb fst snd].
        rewrite (raw_is_In T30 rnd M _ _ _ N I), (Sty _ St). rewrite orb_true_r. reflexivity.
      + intros i f Ni Ef. apply (rej_ok T30 rnd LVL _ _ _) with (2 := known_desc M _ _ N I).
        do 4 (destruct i as [|i]; [cbn in Ef; try congruence; injection Ef as <-; vm_compute; reflexivity|]). destruct i; discriminate Ef.
    - eapply (union_ptr T30 rnd M "ParameterLocation") with (i0 := 3); [vm_compute; reflexivity|vm_compute; reflexivity|vm_compute; reflexivity|reflexivity| | |reflexivity| |].
      + cbn [In]. intuition congruence.
      + intros t [].
      + eapply small_ptr; [vm_compute; reflexivity|vm_compute; reflexivity|repeat split|exact N| |reflexivity|discriminate].
        unfold raw_checks. cbn [d_require d_xor d_const d_notconst d_absent forallb andb fst snd].
        rewrite (raw_is_In T30 rnd M _ _ _ N I), (Sty _ St). rewrite orb_true_r. reflexivity.
      + intros i f Ni Ef. apply (rej_ok T30 rnd LVL _ _ _) with (2 := known_desc M _ _ N I).
        do 4 (destruct i as [|i]; [cbn in Ef; try congruence; injection Ef as <-; vm_compute; reflexivity|]). destruct i; discriminate Ef.
  Qed.

  Lemma embed_step same fs i is vs f v v' : nth_error fs i = Some f -> nth_error vs i = Some v -> same (f_ty f) v = Some v' ->
    dec_embed same fs (i :: is) vs = dec_embed same fs is (set_nth i v' vs).
  Proof. intros E1 E2 E3. cbn [dec_embed]. rewrite E1, E2, E3. reflexivity. Qed.
  Lemma alt_yes same fs i is vs c f v v' : nth_error fs i = Some f -> nth_error vs i = Some v -> same (f_ty f) v = Some v' ->
    dec_alts same fs (i :: is) vs c = dec_alts same fs is (set_nth i v' vs) (S c).
  Proof. intros E1 E2 E3. cbn [dec_alts]. rewrite E1, E2, E3. reflexivity. Qed.
  Lemma alt_no same fs i is vs c f v : nth_error fs i = Some f -> nth_error vs i = Some v -> same (f_ty f) v = None ->
    dec_alts same fs (i :: is) vs c = dec_alts same fs is (set_nth i VNil vs) c.
  Proof. intros E1 E2 E3. cbn [dec_alts]. rewrite E1, E2, E3. reflexivity. Qed.

  Lemma style_of fs d vs M i v l : descr T30 fs d vs M -> nth_error fs i = Some (mkField "Style" (TPtr TStr) (Some "style") true) ->
    nth_error vs i = Some v -> nil_or_one_of v l = true -> style_in M l.
  Proof.
    intros DS Ef Ev H. destruct v as [| | | | |[|st| | | | | | |]| | |]; try discriminate H.
    - left. eapply (D_omit _ _ _ _ _ DS i); [exact Ef|reflexivity|exact Ev|reflexivity].
    - right. exists st. apply in_list_In in H. split; [|exact H].
      destruct (D_field _ _ _ _ _ DS i _ "style" _ Ef eq_refl Ev eq_refl) as (j & E & I). cbn in E. injection E as <-. exact I.
  Qed.

  Lemma der30 : forall n fs parts d vs M, wfs n fs parts d vs -> derived30 n = true ->
    enc T30 (VStruct vs) (TNamed n) = Some (JObj M) ->
    forall l vs1, length vs1 = length fs ->
    (forall i f, special_pos d i = true -> nth_error fs i = Some f -> lvl_ok T30 l (f_ty f) = true /\ nth_error vs1 i = Some VNil) ->
    exists vsE vs2 c, dec_embed (at30 (JObj M) l) fs (d_embed d) vs1 = Some vsE /\
      dec_alts (at30 (JObj M) l) fs (d_oneof d) vsE 0 = (vs2, c) /\
      (d_oneof d <> [] -> c = 1) /\ length vs2 = length fs /\
      (forall i, special_pos d i = false -> nth_error vs2 i = nth_error vs1 i).
  Proof.
    intros n fs parts d vs M W Dn E l vs1 L1 HS. unfold derived30 in Dn. apply in_list_In in Dn. destruct Dn as [<-|[<-|[]]].
    - (* Parameter *)
      pose proof (W_get _ _ _ _ _ _ _ _ _ W) as G. vm_compute in G. injection G as <- <- <-.
      match type of W with CodecEnc.wfs _ _ _ _ _ ?fs ?parts ?d _ =>
        assert (Jb : joined T30 derived30 "Parameter" fs parts d = true) by (vm_compute; reflexivity) end.
      pose proof (enc30 _ _ _ _ _ _ W Jb E) as EM.
      pose proof (obj_descr T30 rnd derived30 extra30 _ _ _ _ _ ok30 W Jb) as DS.
      pose proof (shape_ok T30 rnd derived30 extra30 ok30 _ _ _ _ _ W Jb) as SD. rewrite <- EM in DS, SD.
      pose proof (W_extra _ _ _ _ _ _ _ _ _ W) as X. pose proof (W_ok _ _ _ _ _ _ _ _ _ W) as Wo.
      pose proof (W_len _ _ _ _ _ _ _ _ _ W) as L. pose proof (W_field _ _ _ _ _ _ _ _ _ W) as Wf.
      pose proof (D_nodup _ _ _ _ _ DS) as N. clear EM E W Jb.
      destruct vs as [|v0 [|v1 [|v2 [|v3 [|v4 [|v5 [|v6 [|v7 [|v8 [|v9 [|v10 [|v11 [|v12 [|v13 [|v14 [|v15 [|? ?]]]]]]]]]]]]]]]]]; try discriminate L.
      change (xorb (is_nil v9) (is_nil v10) &&
        ((str_is v1 "path" && match v3 with VPtr (VBool true) => true | _ => false end && nil_or_one_of v6 ["matrix"; "label"; "simple"]) ||
         (str_is v1 "query" && nil_or_one_of v6 ["form"; "spaceDelimited"; "pipeDelimited"; "deepObject"]) ||
         (str_is v1 "header" && nil_or_one_of v6 ["simple"]) || (str_is v1 "cookie" && nil_or_one_of v6 ["form"])) = true) in X.
      apply andb_true_iff in X. destruct X as [X1 X2].
      assert (SC : (In "schema" (map fst M) /\ ~ In "content" (map fst M)) \/ (In "content" (map fst M) /\ ~ In "schema" (map fst M))).
      { pose proof (Wf 9 _ v9 eq_refl eq_refl) as W9. cbn [f_ty] in W9. pose proof (Wf 10 _ v10 eq_refl eq_refl) as W10. cbn [f_ty] in W10.
        destruct (is_nil v9) eqn:N9.
        - right. destruct v9; try discriminate N9. destruct (is_nil v10) eqn:N10; [discriminate X1|]. split.
          + destruct (wf_map_inv _ _ _ _ _ _ W10) as [->|(m & -> & _)]; [discriminate N10|].
            assert (m <> []). { intros ->. apply (fo_omit _ _ _ _ _ _ (Wo 10 _ _ eq_refl eq_refl) eq_refl). right. reflexivity. }
            destruct (D_field _ _ _ _ _ DS 10 _ "content" (VMap m) eq_refl eq_refl eq_refl) as (j & _ & I); [destruct m; [congruence|reflexivity]|].
            apply keys_In with j. exact I.
          + apply (D_omit _ _ _ _ _ DS 9 _ "schema" VNil eq_refl eq_refl eq_refl eq_refl).
        - left. destruct (is_nil v10) eqn:N10; [|discriminate X1]. destruct v10; try discriminate N10. split.
          + destruct (wf_ptr_inv _ _ _ _ _ _ W9) as [->|(w & -> & _)]; [discriminate N9|].
            destruct (D_field _ _ _ _ _ DS 9 _ "schema" (VPtr w) eq_refl eq_refl eq_refl eq_refl) as (j & _ & I).
            apply keys_In with j. exact I.
          + apply (D_omit _ _ _ _ _ DS 10 _ "content" VNil eq_refl eq_refl eq_refl eq_refl). }
      assert (LO : exists p, In ("in", JStr p) M /\
        ((p = "path" /\ In ("required", JBool true) M /\ style_in M ["matrix"; "label"; "simple"]) \/
         (p = "query" /\ style_in M ["form"; "spaceDelimited"; "pipeDelimited"; "deepObject"]) \/
         (p = "header" /\ style_in M ["simple"]) \/ (p = "cookie" /\ style_in M ["form"]))).
      { assert (IN : forall p, str_is v1 p = true -> In p ["path"; "query"; "header"; "cookie"] -> In ("in", JStr p) M).
        { intros p Sp Ip. destruct v1; try discriminate Sp. cbn [str_is] in Sp. apply String.eqb_eq in Sp. subst s.
          destruct (D_field _ _ _ _ _ DS 1 _ "in" (VStr p) eq_refl eq_refl eq_refl eq_refl) as (j & Ej & I).
          cbn [f_ty enc] in Ej. change (get "ParameterIn" T30) with (Some (EEnum ["path"; "query"; "header"; "cookie"])) in Ej. cbv iota in Ej.
          apply in_list_In in Ip. rewrite Ip in Ej. injection Ej as <-. exact I. }
        assert (ST : forall l, nil_or_one_of v6 l = true -> style_in M l).
        { intros l0 Hl. exact (style_of _ _ _ M 6 v6 l0 DS eq_refl eq_refl Hl). }
        rewrite !orb_true_iff, !andb_true_iff in X2. destruct X2 as [[[[[A B] C]|[A B]]|[A B]]|[A B]].
        - exists "path". split; [apply IN; cbn; auto|]. left. split; [reflexivity|]. split; [|auto].
          destruct v3 as [| | | | |[| | |[]| | | | |]| | |]; try discriminate B.
          destruct (D_field _ _ _ _ _ DS 3 _ "required" (VPtr (VBool true)) eq_refl eq_refl eq_refl eq_refl) as (j & Ej & I). cbn in Ej. injection Ej as <-. exact I.
        - exists "query". split; [apply IN; cbn; auto|]. right. left. auto.
        - exists "header". split; [apply IN; cbn; auto|]. right. right. left. auto.
        - exists "cookie". split; [apply IN; cbn; auto|]. right. right. right. auto. }
      destruct LO as (p & Ip & LO).
      destruct (HS 13 _ eq_refl eq_refl) as [Lv13 E13]. destruct (HS 14 _ eq_refl eq_refl) as [Lv14 E14]. cbn [f_ty] in Lv13, Lv14.
      destruct (xor30 M _ _ _ N SD eq_refl eq_refl ltac:(vm_compute; reflexivity) ltac:(vm_compute; reflexivity) SC l Lv13) as [w13 D13].
      destruct (loc30 M _ _ _ p N SD eq_refl eq_refl ltac:(vm_compute; reflexivity) ltac:(vm_compute; reflexivity) Ip LO l Lv14) as [w14 D14].
      exists (set_nth 14 w14 (set_nth 13 w13 vs1)), (set_nth 14 w14 (set_nth 13 w13 vs1)), 0.
      cbn [d_embed d_oneof].
      erewrite embed_step; [|reflexivity|exact E13|exact D13].
      erewrite embed_step; [|reflexivity|rewrite nth_set_other by discriminate; exact E14|exact D14].
      split; [reflexivity|]. split; [reflexivity|]. split; [congruence|]. split; [rewrite !length_set; exact L1|].
      intros i Si. rewrite !nth_set_other; [reflexivity| |]; intros ->; discriminate Si.
    - (* HTTPSecurityScheme *)
      pose proof (W_get _ _ _ _ _ _ _ _ _ W) as G. vm_compute in G. injection G as <- <- <-.
      match type of W with CodecEnc.wfs _ _ _ _ _ ?fs ?parts ?d _ =>
        assert (Jb : joined T30 derived30 "HTTPSecurityScheme" fs parts d = true) by (vm_compute; reflexivity) end.
      pose proof (enc30 _ _ _ _ _ _ W Jb E) as EM.
      pose proof (obj_descr T30 rnd derived30 extra30 _ _ _ _ _ ok30 W Jb) as DS. rewrite <- EM in DS.
      pose proof (W_extra _ _ _ _ _ _ _ _ _ W) as X. pose proof (W_len _ _ _ _ _ _ _ _ _ W) as L. pose proof (W_field _ _ _ _ _ _ _ _ _ W) as Wf.
      pose proof (D_nodup _ _ _ _ _ DS) as N. clear EM E W Jb.
      destruct vs as [|v0 [|v1 [|v2 [|v3 [|v4 [|v5 [|? ?]]]]]]]; try discriminate L.
      change (str_is v0 "bearer" || is_nil v1 = true) in X.
      pose proof (Wf 0 _ v0 eq_refl eq_refl) as W0. cbn [f_ty] in W0. inversion W0; subst v0. clear W0.
      destruct (D_field _ _ _ _ _ DS 0 _ "scheme" (VStr s) eq_refl eq_refl eq_refl eq_refl) as (j & Ej & I). cbn in Ej. injection Ej as <-.
      destruct (HS 3 _ eq_refl eq_refl) as [Lv3 E3]. destruct (HS 4 _ eq_refl eq_refl) as [Lv4 E4]. cbn [f_ty] in Lv3, Lv4.
      cbn [str_is] in X. destruct (String.eqb s "bearer") eqn:B.
      + assert (A : exists v, at30 (JObj M) l (TPtr (TNamed "Bearer")) VNil = Some v).
        { eapply small_ptr; [vm_compute; reflexivity|vm_compute; reflexivity|repeat split|exact N| |reflexivity|discriminate|exact Lv3].
          unfold raw_checks. cbn [d_require d_xor d_const d_notconst d_absent forallb andb fst snd].
          rewrite (raw_is_In T30 rnd M _ _ _ N I). cbn [json_eqb_scalar]. rewrite B, orb_true_r. reflexivity. }
        assert (R : rejects T30 rnd (JObj M) (TPtr (TNamed "NonBearer"))).
        { apply rejects_ptr; [discriminate|]. eapply rejects_raw; [vm_compute; reflexivity|exact N|].
          unfold raw_checks. cbn [d_require d_xor d_const d_notconst d_absent forallb andb fst snd].
          rewrite (raw_is_In T30 rnd M _ _ _ N I). cbn [json_eqb_scalar]. rewrite B. reflexivity. }
        destruct A as [w A]. exists vs1, (set_nth 4 VNil (set_nth 3 w vs1)), 1. cbn [d_embed d_oneof].
        erewrite alt_yes; [|reflexivity|exact E3|exact A].
        erewrite alt_no; [|reflexivity|rewrite nth_set_other by discriminate; exact E4|exact (R l VNil Lv4)].
        split; [reflexivity|]. split; [reflexivity|]. split; [reflexivity|]. split; [rewrite !length_set; exact L1|].
        intros i Si. rewrite !nth_set_other; [reflexivity| |]; intros ->; discriminate Si.
      + cbn [orb] in X. destruct v1; try discriminate X.
        pose proof (D_omit _ _ _ _ _ DS 1 _ "bearerFormat" VNil eq_refl eq_refl eq_refl eq_refl) as NB.
        assert (A : exists v, at30 (JObj M) l (TPtr (TNamed "NonBearer")) VNil = Some v).
        { eapply small_ptr; [vm_compute; reflexivity|vm_compute; reflexivity|repeat split|exact N| |reflexivity|discriminate|exact Lv4].
          unfold raw_checks. cbn [d_require d_xor d_const d_notconst d_absent forallb andb fst snd].
          rewrite (raw_is_In T30 rnd M _ _ _ N I), (raw_has_no T30 rnd M _ NB). cbn [json_eqb_scalar]. rewrite B. reflexivity. }
        assert (R : rejects T30 rnd (JObj M) (TPtr (TNamed "Bearer"))).
        { apply rejects_ptr; [discriminate|]. eapply rejects_raw; [vm_compute; reflexivity|exact N|].
          unfold raw_checks. cbn [d_require d_xor d_const d_notconst d_absent forallb andb fst snd].
          rewrite (raw_has_yes T30 rnd M _ _ I), (raw_is_In T30 rnd M _ _ _ N I). cbn [json_eqb_scalar]. rewrite B. reflexivity. }
        destruct A as [w A]. exists vs1, (set_nth 4 w (set_nth 3 VNil vs1)), 1. cbn [d_embed d_oneof].
        erewrite alt_no; [|reflexivity|exact E3|exact (R l VNil Lv3)].
        erewrite alt_yes; [|reflexivity|rewrite nth_set_other by discriminate; exact E4|exact A].
        split; [reflexivity|]. split; [reflexivity|]. split; [reflexivity|]. split; [rewrite !length_set; exact L1|].
        intros i Si. rewrite !nth_set_other; [reflexivity| |]; intros ->; discriminate Si.
  Qed.

  Theorem roundtrip30 n v : In n (map fst T30) -> wf T30 rnd derived30 extra30 (TNamed n) v ->
    exists j v', marshal T30 (TNamed n) v = Some j /\ unmarshal T30 rnd (TNamed n) j = Some v' /\ strip T30 derived30 v' (TNamed n) = v.
  Proof.
    intros I W. assert (TG : ty_good T30 (TNamed n) = true).
    { assert (C : forallb (fun n => ty_good T30 (TNamed n)) (map fst T30) = true) by (vm_compute; reflexivity).
      rewrite forallb_forall in C. exact (C n I). }
    destruct (enc_total T30 rnd derived30 extra30 ok30 (S (vsize v)) v (le_n _) (TNamed n) W eq_refl) as [j E].
    destruct (round T30 rnd derived30 extra30 ok30 not30 raw30 low30 dis30
      (fun n fs parts d vs M W Dn E _ => der30 n fs parts d vs M W Dn E)
      (S (vsize v)) v (le_n _) (TNamed n) j W TG E LVL (zero T30 LVL (TNamed n)) (ty_good_lvl T30 derived30 _ TG) (ty_good_zero T30 derived30 _ TG))
      as (v' & Ed & [Es|(X & _)]); [|discriminate X].
    exists j, v'. split; [exact E|]. split; [|exact Es]. unfold unmarshal. rewrite (dec_at T30 rnd). exact Ed.
  Qed.
End V30.

(* ---------- 3.1 ---------- *)

(* What a struct field got from an object. *)
Lemma dec_fields_at fs k (d : decoder) i : forall (ms : members) vs vs', dec_fields fs ms vs = Some vs' ->
  NoDup (map fst ms) -> find_field fs k = Some i ->
  (forall k', In k' (map fst ms) -> find_field fs k' = Some i -> k' = k) ->
  (forall j, In (k, (j, d)) ms -> exists f v v', nth_error fs i = Some f /\ nth_error vs i = Some v /\ d (f_ty f) v = Some v' /\ nth_error vs' i = Some v') /\
  (~ In k (map fst ms) -> nth_error vs' i = nth_error vs i).
Proof.
  induction ms as [|[k1 [j1 d1]] ms IH]; intros vs vs' E N F U.
  - cbn [dec_fields] in E. injection E as <-. split; [intros j []|reflexivity].
  - cbn [dec_fields] in E. cbn [map fst] in N, U. inversion N as [|? ? N1 N2]; subst.
    assert (U' : forall k', In k' (map fst ms) -> find_field fs k' = Some i -> k' = k) by (intros; apply U; [right|]; assumption).
    destruct (find_field fs k1) as [i1|] eqn:F1.
    + destruct (nth_error fs i1) as [f1|] eqn:Ef1; [|discriminate]. destruct (nth_error vs i1) as [v1|] eqn:Ev1; [|discriminate].
      destruct (d1 (f_ty f1) v1) as [v'|] eqn:Ed; [|discriminate]. destruct (IH _ _ E N2 F U') as [IH1 IH2]. split.
      * intros j [X|I].
        -- injection X as -> <- <-. rewrite F in F1. injection F1 as <-.
           exists f1, v1, v'. split; [exact Ef1|]. split; [exact Ev1|]. split; [exact Ed|]. rewrite IH2 by exact N1. rewrite nth_set_same; [reflexivity|]. eapply nth_some_lt. eassumption.
        -- destruct (IH1 j I) as (f & v & w & A & B & C). exists f, v, w. split; [exact A|]. split; [|exact C]. rewrite nth_set_other in B; [exact B|].
           intros ->. apply N1. assert (k1 = k) by (apply U; [left; reflexivity|exact F1]). subst k1. apply in_map_iff. exists (k, (j, d)). auto.
      * cbn [map fst]. intros NI. rewrite IH2 by (intros X; apply NI; right; exact X). apply nth_set_other. intros ->. apply NI. left. apply U; [left; reflexivity|exact F1].
    + destruct (IH _ _ E N2 F U') as [IH1 IH2]. split.
      * intros j [X|I]; [|eapply IH1; exact I]. injection X as -> _ _. congruence.
      * cbn [map fst]. intros NI. apply IH2. intros X. apply NI. right. exact X.
Qed.

Lemma rejects_lower T rnd M b fs parts d i f k s c bb : get b T = Some (EStruct fs parts d) -> NoDup (map fst M) ->
  d_struct d = true -> d_embed d = [] -> d_oneof d = [] ->
  nth_error fs i = Some f -> f_ty f = TStr -> find_field fs k = Some i ->
  (forall k', In k' (map fst M) -> find_field fs k' = Some i -> k' = k) ->
  In (k, JStr s) M -> In ((i, c), bb) (d_lower d) -> Bool.eqb (String.eqb (to_lower s) c) bb = false ->
  rejects T rnd (JObj M) (TNamed b).
Proof.
  intros G N St Em On Ef Et F U I Il C l old Lv. destruct (lvl_S T _ _ Lv) as [l' ->]. unfold CodecProofs.at_. cbn [levels]. cbn [dec_step view]. rewrite G.
  destruct old as [| | | | | | | |l0]; try reflexivity. fold (mview T rnd M). unfold dec_ent. rewrite St, Em, On. cbn [dec_embed dec_alts dec_struct].
  destruct (forallb _ (d_not d)); [|reflexivity]. destruct (dec_fields fs (mview T rnd M) l0) as [vs'|] eqn:E; [|reflexivity].
  assert (K : map fst (mview T rnd M) = map fst M). { unfold mview. rewrite map_map. reflexivity. }
  destruct (dec_fields_at fs k (dec T rnd (JStr s)) i _ _ _ E) as [H _].
  - rewrite K. exact N.
  - exact F.
  - rewrite K. exact U.
  - destruct (H (JStr s)) as (f' & v & v' & Ef' & _ & Ed & Ev').
    + unfold mview. apply in_map_iff. exists (k, JStr s). split; [reflexivity|exact I].
    + rewrite Ef in Ef'. injection Ef' as <-. rewrite Et in Ed. cbn in Ed. injection Ed as <-.
      unfold dec_raw. replace (lower_checks d vs') with false; [rewrite andb_false_r; reflexivity|].
      symmetry. apply not_true_iff_false. intros L. unfold lower_checks in L. rewrite forallb_forall in L. specialize (L _ Il). cbn [fst snd] in L.
      rewrite Ev', C in L. discriminate L.
Qed.

Section V31.
  Variable rnd : Q -> Q.
  Notation wfs := (CodecEnc.wfs T31 rnd derived31 extra31).

  Lemma ok31 : forall n fs parts d vs, get n T31 = Some (EStruct fs parts d) -> extra31 n vs = true ->
    ent_ok T31 fs d = true /\ (pure_union fs parts d = true /\ derived31 n = false \/ joined T31 derived31 n fs parts d = true).
  Proof.
    apply (ok_check_ok T31 derived31 (fun n => in_list n ["Example"; "Examples"])); [vm_compute; reflexivity|].
    intros n vs X. destruct (in_list n _) eqn:E; [|reflexivity]. apply in_list_In in E. destruct E as [<-|[<-|[]]]; discriminate X.
  Qed.

  Lemma enc31 n fs parts d vs M : wfs n fs parts d vs -> joined T31 derived31 n fs parts d = true ->
    enc T31 (VStruct vs) (TNamed n) = Some (JObj M) -> M = obj_of T31 fs parts vs.
  Proof.
    intros W Jb E. pose proof Jb as J. apply joined_ok in J. destruct (encodes T31 rnd derived31 extra31 ok31 n fs parts d vs W J) as [_ E'].
    rewrite E' in E. congruence.
  Qed.

  Lemma raw31 : forall n fs parts d vs M, wfs n fs parts d vs -> joined T31 derived31 n fs parts d = true ->
    enc T31 (VStruct vs) (TNamed n) = Some (JObj M) ->
    forallb (fun ab => xorb (raw_has (mview T31 rnd M) (fst ab)) (raw_has (mview T31 rnd M) (snd ab))) (d_xor d) = true /\
    forallb (fun kc => negb (raw_is (mview T31 rnd M) (fst kc) (snd kc))) (d_notconst d) = true /\
    forallb (fun k => negb (raw_has (mview T31 rnd M) k)) (d_absent d) = true.
  Proof.
    intros n fs parts d vs M W Jb E.
    pose proof (none_ok T31 (fun d => nullb (d_notconst d) && nullb (d_absent d)) [] ltac:(vm_compute; reflexivity)
      n fs parts d (W_get _ _ _ _ _ _ _ _ _ W) (fun x => x)) as C.
    rewrite !andb_true_iff in C. destruct C as [C2 C3]. apply nullb_nil in C2, C3. rewrite C2, C3. split; [|auto].
    destruct (in_dec string_dec n ["Header"]) as [[<-|[]]|N].
    - pose proof (enc31 _ _ _ _ _ _ W Jb E) as EM. pose proof (obj_descr T31 rnd derived31 extra31 _ _ _ _ _ ok31 W Jb) as DS. rewrite <- EM in DS.
      pose proof (W_get _ _ _ _ _ _ _ _ _ W) as G. vm_compute in G. injection G as <- <- <-.
      pose proof (W_extra _ _ _ _ _ _ _ _ _ W) as X. pose proof (W_ok _ _ _ _ _ _ _ _ _ W) as Wo.
      pose proof (W_len _ _ _ _ _ _ _ _ _ W) as L. pose proof (W_field _ _ _ _ _ _ _ _ _ W) as Wf. clear EM E W Jb C2 C3.
      destruct vs as [|v0 [|v1 [|v2 [|v3 [|v4 vs]]]]]; try discriminate L.
      change (xorb (is_nil v3) (is_nil v4) = true) in X.
      cbn [d_xor forallb fst snd]. rewrite andb_true_r.
      assert (P : forall i f k m, nth_error (v0 :: v1 :: v2 :: v3 :: v4 :: vs) i = Some (VMap m) -> 
        nth_error (match e31_Header with EStruct fs _ _ => fs | _ => [] end) i = Some f -> f_key f = Some k -> f_omit f = true ->
        raw_has (mview T31 rnd M) k = true).
      { intros i f k m Ev Ef Ek Eo. assert (m <> []). { intros ->. apply (fo_omit _ _ _ _ _ _ (Wo i f _ Ef Ev) Eo). right. reflexivity. }
        destruct (D_field _ _ _ _ _ DS i f k (VMap m) Ef Ek Ev) as (j & _ & I); [destruct m; [congruence|]; apply andb_false_r|].
        exact (raw_has_yes T31 rnd M _ _ I). }
      assert (Q : forall i f k, nth_error (v0 :: v1 :: v2 :: v3 :: v4 :: vs) i = Some VNil -> 
        nth_error (match e31_Header with EStruct fs _ _ => fs | _ => [] end) i = Some f -> f_key f = Some k -> f_omit f = true ->
        raw_has (mview T31 rnd M) k = false).
      { intros i f k Ev Ef Ek Eo. apply raw_has_no. apply (D_omit _ _ _ _ _ DS i f k VNil Ef Ek Ev). rewrite Eo. reflexivity. }
      pose proof (Wf 3 _ v3 eq_refl eq_refl) as W3. cbn [f_ty] in W3. pose proof (Wf 4 _ v4 eq_refl eq_refl) as W4. cbn [f_ty] in W4.
      destruct (wf_map_inv _ _ _ _ _ _ W3) as [->|(m3 & -> & _)]; destruct (wf_map_inv _ _ _ _ _ _ W4) as [->|(m4 & -> & _)]; try discriminate X.
      + rewrite (Q 3 _ "schema" eq_refl eq_refl eq_refl eq_refl), (P 4 _ "content" m4 eq_refl eq_refl eq_refl eq_refl). reflexivity.
      + rewrite (P 3 _ "schema" m3 eq_refl eq_refl eq_refl eq_refl), (Q 4 _ "content" eq_refl eq_refl eq_refl eq_refl). reflexivity.
    - pose proof (none_ok T31 (fun d => nullb (d_xor d)) ["Header"] ltac:(vm_compute; reflexivity)
        n fs parts d (W_get _ _ _ _ _ _ _ _ _ W) N) as C1. apply nullb_nil in C1. rewrite C1. reflexivity.
  Qed.

  Lemma low31 : forall n fs parts d vs, wfs n fs parts d vs -> lower_checks d vs = true.
  Proof.
    intros n fs parts d vs W. destruct (in_dec string_dec n ["SecuritySchemeHTTP"; "SecuritySchemeHTTPBearer"]) as [I|N].
    - pose proof (W_extra _ _ _ _ _ _ _ _ _ W) as X. pose proof (W_len _ _ _ _ _ _ _ _ _ W) as L. pose proof (W_get _ _ _ _ _ _ _ _ _ W) as G.
      destruct I as [<-|[<-|[]]]; vm_compute in G; injection G as <- <- <-; destruct vs as [|v0 vs]; try discriminate L.
      + change (match v0 with VStr s => negb (String.eqb (to_lower s) "bearer") | _ => false end = true) in X.
        unfold lower_checks. cbn [d_lower forallb fst snd nth_error]. destruct v0; try discriminate X. apply negb_true_iff in X. rewrite X. reflexivity.
      + change (match v0 with VStr s => String.eqb (to_lower s) "bearer" | _ => false end = true) in X.
        unfold lower_checks. cbn [d_lower forallb fst snd nth_error]. destruct v0; try discriminate X. rewrite X. reflexivity.
    - pose proof (none_ok T31 (fun d => nullb (d_lower d)) ["SecuritySchemeHTTP"; "SecuritySchemeHTTPBearer"] ltac:(vm_compute; reflexivity)
        n fs parts d (W_get _ _ _ _ _ _ _ _ _ W) N) as C.
      apply nullb_nil in C. unfold lower_checks. rewrite C. reflexivity.
  Qed.

  Lemma not31 : forall n fs parts d vs j t, wfs n fs parts d vs -> enc T31 (VStruct vs) (TNamed n) = Some j ->
    In t (d_not d) -> rejects T31 rnd j t.
  Proof.
    intros n fs parts d vs j t W E It. destruct (in_dec string_dec n ["Example"]) as [[<-|[]]|N].
    - pose proof (W_extra _ _ _ _ _ _ _ _ _ W) as X. discriminate X.
    - eapply (not_ok rnd T31 derived31 extra31 ["Example"]); try eassumption; [exact ok31|vm_compute; reflexivity].
  Qed.

  Definition exc31 (n : string) (i i' : nat) : bool :=
    in_list n ["LinkOrReference"; "ResponseOrReference"; "PathItemOrReference"] && (i =? 0)%nat ||
    String.eqb n "SecurityScheme" && ((i =? 2)%nat && (i' =? 3)%nat || (i =? 3)%nat && (i' =? 2)%nat).

  (* An http scheme is not of the other type. *)
  Lemma http31 n b i vs w bb fs parts d vsw fsw partsw dw M s :
    n = "SecurityScheme" -> wfs n fs parts d vs -> enc T31 (VStruct vs) (TNamed n) = Some (JObj M) ->
    In (PField i) parts -> nth_error vs i = Some (VPtr w) -> w = VStruct vsw ->
    (forall f, nth_error fs i = Some f -> exists x, f_ty f = TPtr (TNamed x) /\ get x T31 = Some (EStruct fsw partsw dw) /\
      joined T31 derived31 x fsw partsw dw = true /\ wfs x fsw partsw dw vsw) ->
    nth_error vsw 0 = Some (VStr s) -> nth_error fsw 0 = Some (mkField "Scheme" TStr (Some "scheme") false) ->
    b = "SecuritySchemeHTTP" /\ bb = false \/ b = "SecuritySchemeHTTPBearer" /\ bb = true ->
    Bool.eqb (String.eqb (to_lower s) "bearer") bb = false ->
    rejects T31 rnd (JObj M) (TNamed b).
  Proof.
    intros -> W E Ip Ei -> Hi Es Ef B C.
    assert (Jb : joined T31 derived31 "SecurityScheme" fs parts d = true).
    { pose proof (W_get _ _ _ _ _ _ _ _ _ W) as G. vm_compute in G. injection G as <- <- <-. vm_compute. reflexivity. }
    pose proof (enc31 _ _ _ _ _ _ W Jb E) as EM.
    pose proof (obj_descr T31 rnd derived31 extra31 _ _ _ _ _ ok31 W Jb) as DS.
    pose proof (shape_ok T31 rnd derived31 extra31 ok31 _ _ _ _ _ W Jb) as SD. rewrite <- EM in DS, SD.
    assert (I : In ("scheme", JStr s) M).
    { destruct (nth_lt_some fs i) as [f Efi]. { rewrite (W_len _ _ _ _ _ _ _ _ _ W). eapply nth_some_lt. eassumption. }
      destruct (Hi f Efi) as (x & Et & Gx & Jx & Wx). rewrite EM. unfold obj_of. apply in_concat_seg. exists (PField i). split; [exact Ip|].
      unfold seg. cbn [enc_part]. rewrite Efi. unfold encs. rewrite nth_error_map, Ei. cbn [option_map]. rewrite Et. cbn [enc].
      pose proof Jx as J. apply joined_ok in J. destruct (encodes T31 rnd derived31 extra31 ok31 _ _ _ _ vsw Wx J) as [_ E']. cbn [enc] in E'. rewrite E'.
      cbn [objs]. eapply (obj_field T31 rnd derived31 extra31); [exact ok31|exact Wx|exact Jx|exact Ef|reflexivity|exact Es|reflexivity|reflexivity]. }
    pose proof (D_nodup _ _ _ _ _ DS) as N. clear DS EM.
    pose proof (W_get _ _ _ _ _ _ _ _ _ W) as G. vm_compute in G. injection G as <- <- <-.
    destruct B as [[-> ->]|[-> ->]].
    - eapply rejects_lower with (i := 0) (k := "scheme") (s := s); [vm_compute; reflexivity|exact N|reflexivity|reflexivity|reflexivity|reflexivity|reflexivity|vm_compute; reflexivity| |exact I|left; reflexivity|exact C].
      match type of SD with sdesc ?sh _ =>
        assert (XC : exact_check sh (match e31_SecuritySchemeHTTP with EStruct fs _ _ => fs | _ => [] end) = true) by (vm_compute; reflexivity) end.
      intros k' Ik F. pose proof (exact_ok _ _ M SD XC k' 0 _ Ik F eq_refl) as K. injection K as <-. reflexivity.
    - eapply rejects_lower with (i := 0) (k := "scheme") (s := s); [vm_compute; reflexivity|exact N|reflexivity|reflexivity|reflexivity|reflexivity|reflexivity|vm_compute; reflexivity| |exact I|left; reflexivity|exact C].
      match type of SD with sdesc ?sh _ =>
        assert (XC : exact_check sh (match e31_SecuritySchemeHTTPBearer with EStruct fs _ _ => fs | _ => [] end) = true) by (vm_compute; reflexivity) end.
      intros k' Ik F. pose proof (exact_ok _ _ M SD XC k' 0 _ Ik F eq_refl) as K. injection K as <-. reflexivity.
  Qed.

  Lemma dis31 : forall n fs parts d vs j i w i' f', wfs n fs parts d vs -> derived31 n = false ->
    enc T31 (VStruct vs) (TNamed n) = Some j ->
    In i (d_oneof d) -> nth_error vs i = Some (VPtr w) ->
    In i' (d_oneof d) -> i' <> i -> nth_error fs i' = Some f' -> rejects T31 rnd j (f_ty f').
  Proof.
    intros n fs parts d vs j i w i' f' W Dn E I Ei I' N Ef'. destruct (exc31 n i i') eqn:Ex.
    2: exact (dis_ok T31 rnd derived31 extra31 ok31 exc31 ltac:(vm_compute; reflexivity) n fs parts d vs j i w i' f' W Dn E I Ei I' N Ef' Ex).
    apply orb_true_iff in Ex. destruct Ex as [Ex|Ex]; apply andb_true_iff in Ex; destruct Ex as [En Ex].
    - apply Nat.eqb_eq in Ex. subst i. pose proof (W_extra _ _ _ _ _ _ _ _ _ W) as X. pose proof (W_len _ _ _ _ _ _ _ _ _ W) as L.
      apply in_list_In in En. destruct En as [<-|[<-|[<-|[]]]].
      + pose proof (W_get _ _ _ _ _ _ _ _ _ W) as G. vm_compute in G. injection G as <- <- <-. destruct vs as [|v0 vs]; [discriminate L|].
        injection Ei as ->. discriminate X.
      + assert (U : pure_union fs parts d = true).
        { pose proof (W_get _ _ _ _ _ _ _ _ _ W) as G. vm_compute in G. injection G as <- <- <-. reflexivity. }
        assert (Ef0 : nth_error fs 0 = Some (mkField "Reference" (TPtr (TNamed "Reference")) None false)).
        { pose proof (W_get _ _ _ _ _ _ _ _ _ W) as G. vm_compute in G. injection G as <- <- <-. reflexivity. }
        pose proof (union_inv T31 rnd derived31 extra31 ok31 _ _ _ _ _ _ _ _ _ W U Dn I Ei Ef0 E) as Ew. cbn [f_ty enc] in Ew.
        pose proof (W_field _ _ _ _ _ _ _ _ _ W 0 _ _ Ef0 Ei) as Ww. cbn [f_ty] in Ww.
        destruct (wf_ptr_inv _ _ _ _ _ _ Ww) as [Z|(w' & Z & Ww')]; [discriminate Z|]. injection Z as <-.
        destruct (struct_of T31 rnd derived31 extra31 _ w Ww' _ _ _ eq_refl) as (ws & -> & Wr).
        match type of Wr with CodecEnc.wfs _ _ _ _ _ ?fs ?parts ?d _ =>
          assert (Jr : joined T31 derived31 "Reference" fs parts d = true) by (vm_compute; reflexivity) end.
        pose proof Jr as J. apply joined_ok in J. destruct (encodes T31 rnd derived31 extra31 ok31 _ _ _ _ ws Wr J) as [_ E']. rewrite E' in Ew. injection Ew as <-.
        pose proof (obj_descr T31 rnd derived31 extra31 _ _ _ _ _ ok31 Wr Jr) as DS.
        assert (Xr : is_nil (fieldv T31 "Reference" "Description" ws) = true).
        { pose proof (W_get _ _ _ _ _ _ _ _ _ W) as G. vm_compute in G. injection G as <- <- <-. destruct vs as [|v0 vs]; [discriminate L|]. injection Ei as ->. exact X. }
        assert (Ed : nth_error ws 2 = Some VNil).
        { pose proof (W_len _ _ _ _ _ _ _ _ _ Wr) as Lr. destruct ws as [|a [|b [|c [|? ?]]]]; try discriminate Lr. change (is_nil c = true) in Xr. destruct c; try discriminate Xr. reflexivity. }
        assert (i' = 1 /\ f_ty f' = TPtr (TNamed "Response")) as [-> Et].
        { pose proof (W_get _ _ _ _ _ _ _ _ _ W) as G. vm_compute in G. injection G as <- <- <-. destruct I' as [<-|[<-|[]]]; [congruence|]. injection Ef' as <-. auto. }
        rewrite Et. apply rejects_ptr; [discriminate|].
        eapply rejects_missing with (b := "Response") (k := "description"); [vm_compute; reflexivity|exact (D_nodup _ _ _ _ _ DS)|left; reflexivity|].
        eapply (D_omit _ _ _ _ _ DS 2); [reflexivity|reflexivity|exact Ed|reflexivity].
      + pose proof (W_get _ _ _ _ _ _ _ _ _ W) as G. vm_compute in G. injection G as <- <- <-. destruct vs as [|v0 vs]; [discriminate L|].
        injection Ei as ->. discriminate X.
    - apply String.eqb_eq in En. subst n.
      assert (Jb : joined T31 derived31 "SecurityScheme" fs parts d = true).
      { pose proof (W_get _ _ _ _ _ _ _ _ _ W) as G. vm_compute in G. injection G as <- <- <-. vm_compute. reflexivity. }
      pose proof Jb as J. apply joined_ok in J. destruct (encodes T31 rnd derived31 extra31 ok31 _ _ _ _ vs W J) as [_ E']. pose proof E as Eo. rewrite E' in Eo. injection Eo as <-.
      assert (Ip : In (PField i) parts).
      { pose proof (W_get _ _ _ _ _ _ _ _ _ W) as G. vm_compute in G. injection G as <- <- <-. apply orb_true_iff in Ex.
        destruct Ex as [Ex|Ex]; apply andb_true_iff in Ex; destruct Ex as [Ex _]; apply Nat.eqb_eq in Ex; subst i; cbn; tauto. }
      assert (Fs : fs = match e31_SecurityScheme with EStruct fs _ _ => fs | _ => [] end).
      { pose proof (W_get _ _ _ _ _ _ _ _ _ W) as G. vm_compute in G. injection G as <- <- <-. reflexivity. }
      apply orb_true_iff in Ex. destruct Ex as [Ex|Ex]; apply andb_true_iff in Ex; destruct Ex as [E1 E2]; apply Nat.eqb_eq in E1, E2; subst i i'.
      + assert (Ef2 : nth_error fs 2 = Some (mkField "HTTP" (TPtr (TNamed "SecuritySchemeHTTP")) None false)) by (rewrite Fs; reflexivity).
        assert (Ef3 : f' = mkField "HTTPBearer" (TPtr (TNamed "SecuritySchemeHTTPBearer")) None false) by (rewrite Fs in Ef'; injection Ef' as <-; reflexivity).
        pose proof (W_field _ _ _ _ _ _ _ _ _ W 2 _ _ Ef2 Ei) as Ww. cbn [f_ty] in Ww.
        destruct (wf_ptr_inv _ _ _ _ _ _ Ww) as [Z|(w' & Z & Ww')]; [discriminate Z|]. injection Z as <-.
        destruct (struct_of T31 rnd derived31 extra31 _ w Ww' _ _ _ eq_refl) as (ws & -> & Wr).
        pose proof (W_extra _ _ _ _ _ _ _ _ _ Wr) as X. pose proof (W_len _ _ _ _ _ _ _ _ _ Wr) as L.
        destruct ws as [|v0 ws]; [discriminate L|].
        change (match v0 with VStr s => negb (String.eqb (to_lower s) "bearer") | _ => false end = true) in X.
        destruct v0; try discriminate X. apply negb_true_iff in X. subst f'. cbn [f_ty]. apply rejects_ptr; [discriminate|].
        eapply (http31 "SecurityScheme" _ 2 vs) with (s := s) (bb := true); [reflexivity|exact W|exact E|exact Ip|exact Ei|reflexivity| |reflexivity| |right; auto|rewrite X; reflexivity].
        * intros f Ef. rewrite Ef2 in Ef. injection Ef as <-. exists "SecuritySchemeHTTP". split; [reflexivity|]. split; [vm_compute; reflexivity|]. split; [vm_compute; reflexivity|exact Wr].
        * reflexivity.
      + assert (Ef2 : nth_error fs 3 = Some (mkField "HTTPBearer" (TPtr (TNamed "SecuritySchemeHTTPBearer")) None false)) by (rewrite Fs; reflexivity).
        assert (Ef3 : f' = mkField "HTTP" (TPtr (TNamed "SecuritySchemeHTTP")) None false) by (rewrite Fs in Ef'; injection Ef' as <-; reflexivity).
        pose proof (W_field _ _ _ _ _ _ _ _ _ W 3 _ _ Ef2 Ei) as Ww. cbn [f_ty] in Ww.
        destruct (wf_ptr_inv _ _ _ _ _ _ Ww) as [Z|(w' & Z & Ww')]; [discriminate Z|]. injection Z as <-.
        destruct (struct_of T31 rnd derived31 extra31 _ w Ww' _ _ _ eq_refl) as (ws & -> & Wr).
        pose proof (W_extra _ _ _ _ _ _ _ _ _ Wr) as X. pose proof (W_len _ _ _ _ _ _ _ _ _ Wr) as L.
        destruct ws as [|v0 ws]; [discriminate L|].
        change (match v0 with VStr s => String.eqb (to_lower s) "bearer" | _ => false end = true) in X.
        destruct v0; try discriminate X. subst f'. cbn [f_ty]. apply rejects_ptr; [discriminate|].
        eapply (http31 "SecurityScheme" _ 3 vs) with (s := s) (bb := false); [reflexivity|exact W|exact E|exact Ip|exact Ei|reflexivity| |reflexivity| |left; auto|rewrite X; reflexivity].
        * intros f Ef. rewrite Ef2 in Ef. injection Ef as <-. exists "SecuritySchemeHTTPBearer". split; [reflexivity|]. split; [vm_compute; reflexivity|]. split; [vm_compute; reflexivity|exact Wr].
        * reflexivity.
  Qed.

  Theorem roundtrip31 n v : In n (map fst T31) -> wf T31 rnd derived31 extra31 (TNamed n) v ->
    exists j, marshal T31 (TNamed n) v = Some j /\ exists v', unmarshal T31 rnd (TNamed n) j = Some v' /\ strip T31 derived31 v' (TNamed n) = v.
  Proof.
    intros I W. assert (TG : ty_good T31 (TNamed n) = true).
    { assert (C : forallb (fun n => ty_good T31 (TNamed n)) (map fst T31) = true) by (vm_compute; reflexivity).
      rewrite forallb_forall in C. exact (C n I). }
    destruct (enc_total T31 rnd derived31 extra31 ok31 (S (vsize v)) v (le_n _) (TNamed n) W eq_refl) as [j E].
    destruct (round T31 rnd derived31 extra31 ok31 not31 raw31 low31 dis31
      (fun n fs parts d vs M W Dn E _ l vs1 _ _ => False_ind _ (diff_false_true Dn))
      (S (vsize v)) v (le_n _) (TNamed n) j W TG E LVL (zero T31 LVL (TNamed n)) (ty_good_lvl T31 derived31 _ TG) (ty_good_zero T31 derived31 _ TG))
      as (v' & Ed & [Es|(X & _)]); [|discriminate X].
    exists j. split; [exact E|]. exists v'. split; [|exact Es]. unfold unmarshal. rewrite (dec_at T31 rnd). exact Ed.
  Qed.
End V31.
