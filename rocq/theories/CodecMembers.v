(* Members of objects one by one: what they are encoded from, which types they have. *)
From Coq Require Import Lia.
From Verif Require Import Str SMap Json CodecModel CodecTables CodecSpec CodecObjSpec CodecTypeSpec CodecProofs CodecEnc CodecRound CodecDis CodecRT CodecStrict CodecWrite.

Lemma spelledb_iff k name : spelledb k name = true <-> spelled k name.
Proof.
  unfold spelledb, spelled. rewrite !orb_true_iff, !andb_true_iff, !String.eqb_eq. tauto.
Qed.

Lemma by_name_inv name : forall fs vs t w, by_name name fs vs = Some (t, w) ->
  exists i f, nth_error fs i = Some f /\ nth_error vs i = Some w /\ f_name f = name /\ f_ty f = t.
Proof.
  induction fs as [|f fs IH]; intros [|v vs] t w H; try discriminate H. cbn [by_name] in H. destruct (String.eqb (f_name f) name) eqn:E.
  - injection H as <- <-. exists 0, f. apply String.eqb_eq in E. auto.
  - destruct (IH _ _ _ H) as (i & f' & A & B & C). exists (S i), f'. auto.
Qed.

Lemma by_name_nodup : forall fs vs i f v, NoDup (map f_name fs) -> nth_error fs i = Some f -> nth_error vs i = Some v ->
  by_name (f_name f) fs vs = Some (f_ty f, v).
Proof.
  induction fs as [|f0 fs IH]; intros vs i f v N Ef Ev; [destruct i; discriminate|]. cbn [map] in N. inversion N as [|x l NI N']; subst.
  destruct i as [|i].
  - cbn in Ef. injection Ef as ->. destruct vs; [discriminate|]. cbn in Ev. injection Ev as ->. cbn [by_name]. rewrite String.eqb_refl. reflexivity.
  - destruct vs as [|v0 vs]; [discriminate|]. cbn in Ef, Ev. cbn [by_name]. destruct (String.eqb (f_name f0) (f_name f)) eqn:E.
    + exfalso. apply String.eqb_eq in E. apply NI. rewrite E. apply in_map. eapply nth_error_In. exact Ef.
    + exact (IH vs i f v N' Ef Ev).
Qed.

(* A type with nil. *)
Definition nilable (t : ty) : bool := match t with TPtr _ | TArr _ | TMap _ => true | _ => false end.

Lemma scalar_eq a b : json_eqb_scalar a b = true -> a = b.
Proof.
  destruct a, b; cbn [json_eqb_scalar]; intros H; try discriminate H.
  - apply Bool.eqb_prop in H. congruence.
  - apply String.eqb_eq in H. congruence.
Qed.

Section Written.
  Variable T : list (string * ent).

  (* The member [k : j] of the object written for fields [vs] of a [n] is a
     constant, or the encoding of the field of that name, or of an entry of the
     map for its pattern. *)
  Definition written (n : string) (o : obj) (vs : list val) (k : string) (j : json) : Prop :=
    In (k, j) (o_const o) \/
    (exists name t w, spelled k name /\ by_name name (fields_of T n) vs = Some (t, w) /\ marshal T t w = Some j) \/
    (exists p name t m w, In (p, (name, t)) (o_pats o) /\ by_name name (fields_of T n) vs = Some (TMap t, VMap m) /\
       In (k, w) m /\ marshal T t w = Some j).

  Variable rnd : Q -> Q.
  Variable derived : string -> bool.
  Variable extra : string -> list val -> bool.
  Notation wf := (CodecSpec.wf T rnd derived extra).
  Notation wfs := (CodecEnc.wfs T rnd derived extra).
  Hypothesis Hok : forall n fs parts d vs, get n T = Some (EStruct fs parts d) -> extra n vs = true ->
    ent_ok T fs d = true /\ (pure_union fs parts d = true /\ derived n = false \/ joined T derived n fs parts d = true).

  Definition write_check (no : string * obj) : bool :=
    let (n, o) := no in
    match get n T with
    | Some (EStruct fs parts d) =>
        joined T derived n fs parts d && nodups (map f_name fs) &&
        forallb (fun p => match p with
                          | PConst m => forallb (fun kj => existsb (fun c => String.eqb (fst c) (fst kj) && json_eqb_scalar (snd c) (snd kj)) (o_const o)) m
                          | PStruct => true
                          | PField i =>
                              match nth_error fs i with
                              | Some f => (derived n && special_pos d i) ||
                                          existsb (fun q => String.eqb (f_name f) (fst (snd q)) && ty_eqb (f_ty f) (TMap (snd (snd q)))) (o_pats o)
                              | None => false
                              end
                          end) parts &&
        forallb (fun f => match f_key f with
                          | Some k => spelledb k (f_name f) && (in_list k (o_req o) || f_omit f || negb (nilable (f_ty f))) && (negb (f_omit f) || nilable (f_ty f))
                          | None => true
                          end) fs &&
        forallb (fun k => forallb (fun f => negb (spelledb k (f_name f)) || match f_key f with Some k' => String.eqb k' k | None => false end) fs) (o_keys o) &&
        forallb (fun q => existsb (fun p => match p with
                                            | PField i => match nth_error fs i with Some f => String.eqb (f_name f) (fst (snd q)) | None => false end
                                            | _ => false end) parts) (o_pats o)
    | _ => false
    end.

  Lemma members n o v : write_check (n, o) = true -> wf (TNamed n) v ->
    exists vs M, v = VStruct vs /\ marshal T (TNamed n) v = Some (JObj M) /\
      (forall k j, In (k, j) M -> written n o vs k j) /\
      (forall k name t w, In k (o_keys o) -> spelled k name -> by_name name (fields_of T n) vs = Some (t, w) ->
         (w <> VNil -> In k (map fst M)) /\ (w = VNil -> ~ In k (o_req o) -> ~ In k (map fst M))) /\
      (forall p name t m k w, In (p, (name, t)) (o_pats o) -> by_name name (fields_of T n) vs = Some (TMap t, VMap m) -> In (k, w) m ->
         In k (map fst M)).
  Proof.
    intros C W. unfold write_check in C. destruct (get n T) as [[|fs parts d]|] eqn:G; try discriminate.
    rewrite !andb_true_iff in C. destruct C as [[[[[Jb ND] C1] C2] C3] C4]. apply nodups_NoDup in ND. rewrite forallb_forall in C1, C2, C3, C4.
    destruct (wf_inv T rnd derived extra n v W) as [(vals & s & G' & _)|(fs' & parts' & d' & vs & Ws & ->)]; [congruence|].
    pose proof (W_get _ _ _ _ _ _ _ _ _ Ws) as G'. rewrite G in G'. injection G' as <- <- <-.
    pose proof Jb as J. apply joined_ok in J. destruct (encodes T rnd derived extra Hok n fs parts d vs Ws J) as [JN EE].
    destruct (Hok n fs parts d vs G (W_extra _ _ _ _ _ _ _ _ _ Ws)) as [OK _].
    pose proof (seg_nodup T rnd derived extra Hok n fs parts d vs Ws J JN) as SN.
    assert (D : descr T fs d vs (obj_of T fs parts vs)) by (eapply descr_joined; eassumption).
    assert (FO : fields_of T n = fs) by (unfold fields_of; rewrite G; reflexivity). rewrite FO.
    exists vs, (obj_of T fs parts vs). split; [reflexivity|]. split; [exact EE|]. split; [|split].
    - intros k j I. unfold obj_of in I. apply in_concat_seg in I. destruct I as (p & Ip & I). specialize (C1 p Ip). destruct p as [m| |i].
      + left. rewrite seg_const in I. rewrite forallb_forall in C1. specialize (C1 _ I). apply existsb_exists in C1.
        destruct C1 as ([k' c] & Ic & E). cbn [fst snd] in E. apply andb_true_iff in E. destruct E as [E1 E2]. apply String.eqb_eq in E1. apply scalar_eq in E2. congruence.
      + right. left. apply (seg_struct_In T derived extra) in I; [|apply JN; exact Ip]. destruct I as (i & f & v & Ef & Ev & Ek & _ & Ej).
        specialize (C2 f (nth_error_In _ _ Ef)). rewrite Ek in C2. rewrite !andb_true_iff in C2. destruct C2 as [[C2 _] _].
        exists (f_name f), (f_ty f), v. split; [apply spelledb_ok; exact C2|]. rewrite FO. split; [exact (by_name_nodup fs vs i f v ND Ef Ev)|exact Ej].
      + destruct (nth_error fs i) as [f|] eqn:Ef; [|discriminate]. destruct (nth_lt_some vs i) as [v Ev]. { rewrite <- (W_len _ _ _ _ _ _ _ _ _ Ws). eapply nth_some_lt. exact Ef. }
        apply orb_true_iff in C1. destruct C1 as [C1|C1].
        * apply andb_true_iff in C1. destruct C1 as [Dn Sp]. pose proof (W_ok _ _ _ _ _ _ _ _ _ Ws i f v Ef Ev) as Ov.
          assert (v = VNil) by (apply (fo_derived _ _ _ _ _ _ Ov Dn); apply special_pos_In; exact Sp). subst v.
          exfalso. unfold seg in I. rewrite (part_field _ _ _ _ _ _ Ef Ev) in I. destruct (f_ty f); cbn [enc objs] in I; contradiction.
        * apply existsb_exists in C1. destruct C1 as ([p [name t]] & Iq & E). cbn [fst snd] in E. apply andb_true_iff in E. destruct E as [E1 E2].
          apply String.eqb_eq in E1. apply ty_eqb_eq in E2. right. right.
          pose proof (W_field _ _ _ _ _ _ _ _ _ Ws i f v Ef Ev) as Wv. rewrite E2 in Wv.
          pose proof (seg_map T rnd derived extra n fs parts d vs Ws JN i f t v Ip Ef Ev E2) as EN.
          destruct (wf_map_inv _ _ _ _ _ _ Wv) as [->|(m & -> & _)]; [inversion EN as [X Y|]; rewrite <- Y in I; destruct I|]. cbn [mapof] in EN.
          assert (X : exists w, In (k, w) m /\ enc T w t = Some j).
          { clear - EN I. induction EN as [|[k1 w1] [k2 j2] m l H F IH]; [destruct I|]. cbn [fst snd] in H. destruct H as [H1 H2]. destruct I as [I|I].
            - injection I as -> ->. exists w1. split; [left; congruence|exact H2].
            - destruct (IH I) as (w & A & B). exists w. split; [right; exact A|exact B]. }
          destruct X as (w & Iw & Ew). exists p, name, t, m, w. split; [exact Iq|]. rewrite FO. split; [|split; [exact Iw|exact Ew]].
          rewrite <- E1, <- E2. exact (by_name_nodup fs vs i f (VMap m) ND Ef Ev).
    - intros k name t w Ik Sp B. destruct (by_name_inv _ _ _ _ _ B) as (i & f & Ef & Ev & <- & <-).
      specialize (C3 k Ik). rewrite forallb_forall in C3. specialize (C3 f (nth_error_In _ _ Ef)). apply spelledb_iff in Sp. rewrite Sp in C3. cbn [negb orb] in C3.
      destruct (f_key f) as [k'|] eqn:Ek; [|discriminate]. apply String.eqb_eq in C3. subst k'.
      specialize (C2 f (nth_error_In _ _ Ef)). rewrite Ek in C2. rewrite !andb_true_iff, !orb_true_iff in C2. destruct C2 as [[_ C2] C5].
      split.
      + intros NV. destruct (f_omit f && is_empty w) eqn:O.
        * exfalso. apply andb_true_iff in O. destruct O as [O1 O2]. rewrite O1 in C5. cbn [negb] in C5. destruct C5 as [C5|C5]; [discriminate|].
          pose proof (fo_omit _ _ _ _ _ _ (W_ok _ _ _ _ _ _ _ _ _ Ws i f w Ef Ev) O1) as NH.
          pose proof (W_field _ _ _ _ _ _ _ _ _ Ws i f w Ef Ev) as Wv. destruct (f_ty f); try discriminate C5; inversion Wv; subst; try congruence; try discriminate O2.
          -- destruct l; [apply NH; left; reflexivity|discriminate O2].
          -- destruct m; [apply NH; right; reflexivity|discriminate O2].
        * destruct (D_field _ _ _ _ _ D i f k w Ef Ek Ev O) as (j & _ & I). exact (in_map fst _ _ I).
      + intros -> NR. apply (D_omit _ _ _ _ _ D i f k VNil Ef Ek Ev). cbn [is_empty]. rewrite andb_true_r.
        pose proof (W_field _ _ _ _ _ _ _ _ _ Ws i f VNil Ef Ev) as Wv. destruct C2 as [[C2|C2]|C2].
        * exfalso. apply NR. apply in_list_In. exact C2.
        * exact C2.
        * exfalso. destruct (f_ty f) eqn:Et; try discriminate C2; inversion Wv; subst; try congruence.
          specialize (C5). destruct C5 as [C5|C5]; [|discriminate C5].
          pose proof (J_encf _ _ _ _ _ _ J i f k Ef Ek) as En. rewrite Et in En. discriminate En.
    - intros p name t m k w Iq B Iw. specialize (C4 _ Iq). apply existsb_exists in C4. destruct C4 as (q & Ip & E). destruct q as [| |i]; try discriminate E.
      destruct (nth_error fs i) as [f|] eqn:Ef; [|discriminate E]. cbn [fst snd] in E. apply String.eqb_eq in E. destruct (nth_lt_some vs i) as [v Ev]. { rewrite <- (W_len _ _ _ _ _ _ _ _ _ Ws). eapply nth_some_lt. exact Ef. }
      rewrite <- E in B. rewrite (by_name_nodup fs vs i f v ND Ef Ev) in B. injection B as Et ->.
      pose proof (seg_map T rnd derived extra n fs parts d vs Ws JN i f t (VMap m) Ip Ef Ev Et) as EN. cbn [mapof] in EN.
      unfold obj_of. apply in_concat_key. exists (PField i). split; [exact Ip|]. rewrite (entries_keys _ _ _ _ EN). exact (in_map fst _ _ Iw).
  Qed.
End Written.

Section Typed.
  Variable T : list (string * ent).
  Variable rnd : Q -> Q.

  Lemma at_ptr j l t old : CodecProofs.at_ T rnd j (S l) (TPtr t) old =
    match j with
    | JNull => Some VNil
    | _ => match CodecProofs.at_ T rnd j l t (match old with VPtr v => v | _ => zero T LVL t end) with Some v => Some (VPtr v) | None => None end
    end.
  Proof. destruct j; reflexivity. Qed.
  Lemma at_enum j l n vals old : get n T = Some (EEnum vals) -> CodecProofs.at_ T rnd j (S l) (TNamed n) old =
    match (match j with JStr s => Some s | JNull => Some "" | _ => None end) with
    | Some s => if in_list s vals then Some (VStr s) else None
    | None => None
    end.
  Proof. intros G. unfold CodecProofs.at_. cbn [levels]. unfold dec_step at 1. rewrite G. destruct j; reflexivity. Qed.
  Lemma zero_ptr n t : zero T n (TPtr t) = VNil.
  Proof. destruct n; reflexivity. Qed.

  Lemma unmarshal_ptr t j w : lvl_ok T LVL (TPtr t) = true -> lvl_ok T LVL t = true -> unmarshal T rnd (TPtr t) j = Some w ->
    j = JNull \/ exists w', unmarshal T rnd t j = Some w'.
  Proof.
    intros L1 L2 E. unfold unmarshal in *. rewrite (dec_at T rnd) in E |- *. destruct LVL_S as [l El].
    assert (X : lvl_ok T l t = true) by (rewrite El in L1; exact L1).
    rewrite zero_ptr in E. replace (CodecProofs.at_ T rnd j LVL (TPtr t) VNil) with (CodecProofs.at_ T rnd j (S l) (TPtr t) VNil) in E by (rewrite El; reflexivity).
    rewrite at_ptr in E. rewrite (level_irr T rnd j l t LVL _ X L2) in E.
    destruct (CodecProofs.at_ T rnd j LVL t (zero T LVL t)) as [w'|].
    - right. exists w'. reflexivity.
    - destruct j; try discriminate E. left. reflexivity.
  Qed.

  Definition type_check (o : obj) (nm : string * list (string * ty)) : bool :=
    let (n, ms) := nm in
    forallb (fun kt =>
      let (k, t) := (kt : string * ty) in
      forallb (fun f => negb (spelledb k (f_name f)) || ty_eqb (f_ty f) t || (ty_eqb (f_ty f) (TPtr t) && lvl_ok T LVL (TPtr t) && lvl_ok T LVL t)) (fields_of T n) &&
      forallb (fun c => negb (String.eqb (fst c) k) || (ty_eqb t TStr && match snd c with JStr _ => true | _ => false end)) (o_const o) &&
      forallb (fun q => negb (matches (fst q) k)) (o_pats o)) ms.

  Lemma kept_typed n o ms k t vs j : type_check o (n, ms) = true -> In (k, t) ms -> kept T rnd n o vs k j ->
    j = JNull \/ exists w, unmarshal T rnd t j = Some w.
  Proof.
    intros C I K. unfold type_check in C. rewrite forallb_forall in C. specialize (C _ I). cbv beta iota in C. rewrite !andb_true_iff in C. destruct C as [[C1 C2] C3].
    rewrite forallb_forall in C1, C2, C3. destruct K as [(c & Ic & ->)|[(name & t' & w & Sp & B & U)|(p & name & t' & m & w & Ip & Lg & _)]].
    - specialize (C2 _ Ic). cbn [fst snd] in C2. rewrite String.eqb_refl in C2. cbn [negb orb] in C2. apply andb_true_iff in C2. destruct C2 as [Et Ec].
      apply ty_eqb_eq in Et. subst t. destruct c; try discriminate Ec. right. exists (VStr s). reflexivity.
    - destruct (by_name_inv _ _ _ _ _ B) as (i & f & Ef & _ & <- & <-). specialize (C1 f (nth_error_In _ _ Ef)). apply spelledb_iff in Sp. rewrite Sp in C1.
      cbn [negb orb] in C1. apply orb_true_iff in C1. destruct U as [U|(E & -> & _)]; [|left; reflexivity]. destruct C1 as [C1|C1].
      + apply ty_eqb_eq in C1. rewrite C1 in U. right. exists w. exact U.
      + rewrite !andb_true_iff in C1. destruct C1 as [[C1 L1] L2]. apply ty_eqb_eq in C1. rewrite C1 in U. exact (unmarshal_ptr t j w L1 L2 U).
    - exfalso. specialize (C3 _ Ip). cbn [fst] in C3. apply matches_legal in Lg. rewrite Lg in C3. discriminate C3.
  Qed.

  Variable derived : string -> bool.
  Variable extra : string -> list val -> bool.
  Notation wf := (CodecSpec.wf T rnd derived extra).

  (* The encoding of a member is the encoding of a value of its type. *)
  Lemma written_typed n o ms k t vs j : type_check o (n, ms) = true -> In (k, t) ms -> wf (TNamed n) (VStruct vs) -> 
    (forall p name t' m, In (p, (name, t')) (o_pats o) -> by_name name (fields_of T n) vs = Some (TMap t', VMap m) -> forall k' w, In (k', w) m -> legal p k') ->
    written T n o vs k j ->
    j = JNull \/ exists w, wf t w /\ marshal T t w = Some j.
  Proof.
    intros C I W HP K. unfold type_check in C. rewrite forallb_forall in C. specialize (C _ I). cbv beta iota in C. rewrite !andb_true_iff in C. destruct C as [[C1 C2] C3].
    rewrite forallb_forall in C1, C2, C3. destruct K as [Ic|[(name & t' & w & Sp & B & U)|(p & name & t' & m & w & Ip & B & Iw & _)]].
    - specialize (C2 _ Ic). cbn [fst snd] in C2. rewrite String.eqb_refl in C2. cbn [negb orb] in C2. apply andb_true_iff in C2. destruct C2 as [Et Ec].
      apply ty_eqb_eq in Et. subst t. destruct j; try discriminate Ec. right. exists (VStr s). split; [constructor|reflexivity].
    - assert (Wt : wf t' w).
      { destruct (by_name_inv _ _ _ _ _ B) as (i & f & Ef & Ev & _ & <-). unfold fields_of in Ef. inversion W; subst.
        match goal with G : get n T = _ |- _ => rewrite G in Ef end. eauto. }
      destruct (by_name_inv _ _ _ _ _ B) as (i & f & Ef & _ & <- & <-). specialize (C1 f (nth_error_In _ _ Ef)). apply spelledb_iff in Sp. rewrite Sp in C1.
      cbn [negb orb] in C1. apply orb_true_iff in C1. destruct C1 as [C1|C1].
      + apply ty_eqb_eq in C1. rewrite C1 in U, Wt. right. exists w. split; [exact Wt|exact U].
      + rewrite !andb_true_iff in C1. destruct C1 as [[C1 L1] L2]. apply ty_eqb_eq in C1. rewrite C1 in U, Wt. inversion Wt; subst.
        * left. cbn in U. congruence.
        * right. exists v. split; [assumption|]. exact U.
    - exfalso. specialize (C3 _ Ip). cbn [fst] in C3. pose proof (HP p name t' m Ip B k w Iw) as Lg. apply matches_legal in Lg. rewrite Lg in C3. discriminate C3.
  Qed.

  Definition enum_check (ne : string * list string) : bool :=
    match get (fst ne) T with
    | Some (EEnum vals) => forallb (fun s => in_list s (snd ne)) vals && forallb (fun s => in_list s vals) (snd ne) && negb (in_list "" (snd ne))
    | _ => false
    end.

  Lemma enumeration n vals j v : enum_check (n, vals) = true ->
    (unmarshal T rnd (TNamed n) j = Some v <-> exists s, In s vals /\ j = JStr s /\ v = VStr s).
  Proof.
    unfold enum_check. cbn [fst snd]. destruct (get n T) as [[vs|]|] eqn:G; try discriminate. rewrite !andb_true_iff, !forallb_forall. intros [[A B] N].
    assert (X : unmarshal T rnd (TNamed n) j = match j with JStr s => if in_list s vs then Some (VStr s) else None | _ => None end).
    { unfold unmarshal. rewrite (dec_at T rnd). generalize (zero T LVL (TNamed n)). destruct LVL_S as [l ->]. intros old. rewrite (at_enum j l n vs old G).
      destruct j; try reflexivity. destruct (in_list "" vs) eqn:E; [|reflexivity].
      apply in_list_In in E. apply A in E. rewrite E in N. discriminate N. }
    rewrite X. split.
    - intros H. destruct j; try discriminate H. destruct (in_list s vs) eqn:E; [|discriminate H]. injection H as <-. apply in_list_In in E. exists s.
      split; [apply in_list_In; auto|auto].
    - intros (s & I & -> & ->). apply B in I. rewrite I. reflexivity.
  Qed.
  Lemma enumeration_written n vals j s : enum_check (n, vals) = true -> (marshal T (TNamed n) (VStr s) = Some j <-> In s vals /\ j = JStr s).
  Proof.
    unfold enum_check. cbn [fst snd]. destruct (get n T) as [[vs|]|] eqn:G; try discriminate. rewrite !andb_true_iff, !forallb_forall. intros [[A B] N].
    unfold marshal. cbn [enc]. rewrite G. split.
    - destruct (in_list s vs) eqn:E; [|discriminate]. intros H. injection H as <-. split; [|reflexivity]. apply in_list_In. apply A. apply in_list_In. exact E.
    - intros [I ->]. apply B in I. rewrite I. reflexivity.
  Qed.
End Typed.

(* ---------- the two packages ---------- *)

Lemma members30 rnd n o v : In (n, o) (objects30 ++ sections30) -> wf T30 rnd derived30 extra30 (TNamed n) v ->
  exists vs M, v = VStruct vs /\ marshal T30 (TNamed n) v = Some (JObj M) /\
    (forall k j, In (k, j) M -> written T30 n o vs k j) /\
    (forall k name t w, In k (o_keys o) -> spelled k name -> by_name name (fields_of T30 n) vs = Some (t, w) ->
       (w <> VNil -> In k (map fst M)) /\ (w = VNil -> ~ In k (o_req o) -> ~ In k (map fst M))) /\
    (forall p name t m k w, In (p, (name, t)) (o_pats o) -> by_name name (fields_of T30 n) vs = Some (TMap t, VMap m) -> In (k, w) m ->
       In k (map fst M)).
Proof.
  intros I W. apply (members T30 rnd derived30 extra30 ok30 n o v); [|exact W].
  assert (C : forallb (write_check T30 derived30) (objects30 ++ sections30) = true) by (vm_compute; reflexivity).
  rewrite forallb_forall in C. exact (C _ I).
Qed.
Lemma members31 rnd n o v : In (n, o) objects31 -> n <> "SecurityScheme" -> wf T31 rnd derived31 extra31 (TNamed n) v ->
  exists vs M, v = VStruct vs /\ marshal T31 (TNamed n) v = Some (JObj M) /\
    (forall k j, In (k, j) M -> written T31 n o vs k j) /\
    (forall k name t w, In k (o_keys o) -> spelled k name -> by_name name (fields_of T31 n) vs = Some (t, w) ->
       (w <> VNil -> In k (map fst M)) /\ (w = VNil -> ~ In k (o_req o) -> ~ In k (map fst M))) /\
    (forall p name t m k w, In (p, (name, t)) (o_pats o) -> by_name name (fields_of T31 n) vs = Some (TMap t, VMap m) -> In (k, w) m ->
       In k (map fst M)).
Proof.
  intros I N W. apply (members T31 rnd derived31 extra31 ok31 n o v); [|exact W].
  assert (C : forallb (fun no => String.eqb (fst no) "SecurityScheme" || write_check T31 derived31 no) objects31 = true) by (vm_compute; reflexivity).
  rewrite forallb_forall in C. specialize (C _ I). apply orb_true_iff in C. destruct C as [C|C]; [|exact C].
  apply String.eqb_eq in C. contradiction.
Qed.

Definition tables_check (T : list (string * ent)) (objs : list (string * obj)) (tys : list (string * list (string * ty))) : bool :=
  forallb (fun no => forallb (fun nm => if String.eqb (fst no) (fst nm) then type_check T (snd no) nm else true) tys) objs.
Lemma tables_check_ok T objs tys n o ms : tables_check T objs tys = true -> In (n, o) objs -> In (n, ms) tys -> type_check T o (n, ms) = true.
Proof.
  unfold tables_check. rewrite forallb_forall. intros C I J. specialize (C _ I). rewrite forallb_forall in C. specialize (C _ J). cbn [fst snd] in C.
  rewrite String.eqb_refl in C. exact C.
Qed.
Lemma tables30 : tables_check T30 objects30 types30 = true.
Proof. vm_compute. reflexivity. Qed.
Lemma tables31 : tables_check T31 objects31 types31 = true.
Proof. vm_compute. reflexivity. Qed.

Lemma simple_types T rnd j v :
  (unmarshal T rnd TStr j = Some v <-> (exists s, j = JStr s /\ v = VStr s) \/ j = JNull /\ v = VStr "") /\
  (unmarshal T rnd TBool j = Some v <-> (exists b, j = JBool b /\ v = VBool b) \/ j = JNull /\ v = VBool false) /\
  (unmarshal T rnd TFloat j = Some v <-> (exists q, j = JNum q /\ v = VNum (rnd q)) \/ j = JNull /\ v = VNum 0) /\
  (unmarshal T rnd TInt j = Some v <-> (exists z, (- 2 ^ 63 <= z < 2 ^ 63)%Z /\ j = JNum (z # 1) /\ v = VNum (z # 1)) \/ j = JNull /\ v = VNum 0).
Proof.
  assert (A : unmarshal T rnd TStr j = match j with JStr s => Some (VStr s) | JNull => Some (VStr "") | _ => None end) by (destruct j; reflexivity).
  assert (B : unmarshal T rnd TBool j = match j with JBool s => Some (VBool s) | JNull => Some (VBool false) | _ => None end) by (destruct j; reflexivity).
  assert (C : unmarshal T rnd TFloat j = match j with JNum s => Some (VNum (rnd s)) | JNull => Some (VNum 0) | _ => None end) by (destruct j; reflexivity).
  assert (D : unmarshal T rnd TInt j = match j with JNum s => if int64b s then Some (VNum s) else None | JNull => Some (VNum 0) | _ => None end) by (destruct j; reflexivity).
  rewrite A, B, C, D. clear A B C D. repeat split.
  - intros H; destruct j; try discriminate H; injection H as <-; eauto.
  - intros [(s & -> & ->)|[-> ->]]; reflexivity.
  - intros H; destruct j; try discriminate H; injection H as <-; eauto.
  - intros [(s & -> & ->)|[-> ->]]; reflexivity.
  - intros H; destruct j; try discriminate H; injection H as <-; eauto.
  - intros [(s & -> & ->)|[-> ->]]; reflexivity.
  - intros H; destruct j; try discriminate H; [injection H as <-; auto|]. destruct (int64b q) eqn:E; [|discriminate H]. injection H as <-.
    left. destruct q as [z d]. unfold int64b in E. cbn [Qden Qnum] in E. rewrite !andb_true_iff, Pos.eqb_eq, !Z.leb_le in E. destruct E as [[-> E1] E2].
    exists z. split; [lia|]. split; reflexivity.
  - intros [(z & E & -> & ->)|[-> ->]]; [|reflexivity]. replace (int64b (z # 1)) with true; [reflexivity|]. symmetry.
    unfold int64b. cbn [Qden Qnum]. rewrite !andb_true_iff, Pos.eqb_eq, !Z.leb_le. lia.
Qed.

(* Lists and maps: element by element. *)
Lemma list_type T rnd t j v : unmarshal T rnd (TArr t) j = Some v <->
  j = JNull /\ v = VNil \/ exists l vs, j = JArr l /\ v = VArr vs /\ Forall2 (fun x w => unmarshal T rnd t x = Some w) l vs.
Proof.
  assert (A : unmarshal T rnd (TArr t) j = match j with JNull => Some VNil | JArr l => match dec_elems T t (map (dec T rnd) l) [] with Some vs => Some (VArr vs) | None => None end | _ => None end)
    by (destruct j; reflexivity).
  rewrite A. clear A.
  assert (D : forall l vs, dec_elems T t (map (dec T rnd) l) [] = Some vs <-> Forall2 (fun x w => unmarshal T rnd t x = Some w) l vs).
  { induction l as [|x l IH]; intros vs; cbn [map dec_elems hd tl].
    - split; [intros X; injection X as <-; constructor|intros X; inversion X; reflexivity].
    - fold (unmarshal T rnd t x). split.
      + destruct (unmarshal T rnd t x) as [w|] eqn:U; [|discriminate]. destruct (dec_elems T t _ []) as [ws|]; [|discriminate]. intros X. injection X as <-.
        constructor; [exact U|]. apply IH. reflexivity.
      + intros X. inversion X as [|? w ? ws U F]; subst. rewrite U. apply IH in F. rewrite F. reflexivity. }
  split.
  - destruct j; try discriminate; [intros X; injection X as <-; auto|]. destruct (dec_elems T t _ []) as [vs|] eqn:E; [|discriminate]. intros X. injection X as <-.
    right. exists l, vs. split; [reflexivity|]. split; [reflexivity|]. apply D. exact E.
  - intros [[-> ->]|(l & vs & -> & -> & F)]; [reflexivity|]. apply D in F. rewrite F. reflexivity.
Qed.

Lemma map_type T rnd t M v : NoDup (map fst M) -> unmarshal T rnd (TMap t) (JObj M) = Some v ->
  exists m, v = VMap m /\ (forall k j, In (k, j) M -> exists w, get k m = Some w /\ unmarshal T rnd t j = Some w) /\
    (forall k, get k m <> None -> In k (map fst M)).
Proof.
  intros N E. assert (A : unmarshal T rnd (TMap t) (JObj M) = match dec_entries T t (CodecProofs.mview T rnd M) [] with Some m => Some (VMap m) | None => None end) by reflexivity.
  rewrite A in E. clear A. destruct (dec_entries T t _ []) as [m|] eqn:D; [|discriminate]. injection E as <-. exists m. split; [reflexivity|].
  assert (G : forall M m0 m, dec_entries T t (CodecProofs.mview T rnd M) m0 = Some m -> NoDup (map fst M) ->
    (forall k j, In (k, j) M -> exists w, get k m = Some w /\ unmarshal T rnd t j = Some w) /\
    (forall k, ~ In k (map fst M) -> get k m = get k m0)).
  { clear. induction M as [|[k j] M IH]; intros m0 m E N; cbn [CodecProofs.mview map dec_entries fst snd] in E.
    - injection E as <-. split; [intros k j []|reflexivity].
    - fold (CodecProofs.mview T rnd M) in E. cbn [map fst] in N. inversion N as [|? ? N1 N2]; subst. fold (unmarshal T rnd t j) in E.
      destruct (unmarshal T rnd t j) as [w|] eqn:U; [|discriminate]. destruct (IH _ _ E N2) as [H1 H2]. split.
      + intros k' j' [X|I]; [injection X as <- <-|exact (H1 k' j' I)]. exists w. split; [|exact U]. rewrite H2 by exact N1. apply get_put_same.
      + intros k' NI. cbn [map fst] in NI. rewrite H2 by (intros X; apply NI; right; exact X). apply get_put_other. intros X. apply NI. left. congruence. }
  destruct (G M [] m D N) as [H1 H2]. split; [exact H1|]. intros k K. destruct (in_dec string_dec k (map fst M)) as [|X]; [assumption|]. rewrite (H2 k X) in K. exfalso. apply K. reflexivity.
Qed.

Definition complete (objs : list (string * obj)) (tys : list (string * list (string * ty))) (skip : string -> string -> bool) : bool :=
  forallb (fun no => forallb (fun k => skip (fst no) k ||
    existsb (fun nm => String.eqb (fst nm) (fst no) && in_list k (map fst (snd nm))) tys) (o_keys (snd no))) objs.
Lemma complete_ok objs tys skip n o k : complete objs tys skip = true -> In (n, o) objs -> In k (o_keys o) -> skip n k = false ->
  exists ms t, In (n, ms) tys /\ In (k, t) ms.
Proof.
  unfold complete. rewrite forallb_forall. intros C I K S. specialize (C _ I). rewrite forallb_forall in C. specialize (C _ K). cbn [fst snd] in C.
  rewrite S in C. cbn [orb] in C. apply existsb_exists in C. destruct C as ([n' ms] & Im & E). cbn [fst snd] in E. apply andb_true_iff in E. destruct E as [E1 E2].
  apply String.eqb_eq in E1. subst n'. apply in_list_In in E2. apply key_pair in E2. destruct E2 as [t E2]. exists ms, t. auto.
Qed.
Lemma types30_complete n o k : In (n, o) objects30 -> In k (o_keys o) -> (n, k) <> ("Encoding", "headers") -> exists ms t, In (n, ms) types30 /\ In (k, t) ms.
Proof.
  intros I K N. apply (complete_ok objects30 types30 (fun n k => String.eqb n "Encoding" && String.eqb k "headers") n o k); [vm_compute; reflexivity|exact I|exact K|].
  apply not_true_iff_false. intros X. apply andb_true_iff in X. destruct X as [X1 X2]. apply String.eqb_eq in X1, X2. congruence.
Qed.
Lemma types31_complete n o k : In (n, o) objects31 -> In k (o_keys o) -> exists ms t, In (n, ms) types31 /\ In (k, t) ms.
Proof. intros I K. apply (complete_ok objects31 types31 (fun _ _ => false) n o k); [vm_compute; reflexivity|exact I|exact K|reflexivity]. Qed.
