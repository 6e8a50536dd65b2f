(* What encoding writes. *)
From Coq Require Import Lia.
From Verif Require Import Str SMap Json CodecModel CodecTables CodecSpec CodecObjSpec CodecProofs CodecEnc CodecRound CodecDis CodecRT CodecStrict.

Lemma clean_distinct rnd : forall j, clean rnd j -> distinct j.
Proof.
  induction j as [|b|q|s|l IH|m IH] using json_ind'; intros C; inversion C; subst; constructor; auto.
  - rewrite Forall_forall in IH. auto.
  - rewrite Forall_forall in IH. intros k j I. apply (IH _ I). eauto.
Qed.

Section Write.
  Variable T : list (string * ent).
  Variable rnd : Q -> Q.
  Variable derived : string -> bool.
  Variable extra : string -> list val -> bool.
  Notation wf := (CodecSpec.wf T rnd derived extra).
  Notation wfs := (CodecEnc.wfs T rnd derived extra).
  Hypothesis Hok : forall n fs parts d vs, get n T = Some (EStruct fs parts d) -> extra n vs = true ->
    ent_ok T fs d = true /\ (pure_union fs parts d = true /\ derived n = false \/ joined T derived n fs parts d = true).
  Hypothesis Hconst : forall n fs parts d m k j, get n T = Some (EStruct fs parts d) -> In (PConst m) parts -> In (k, j) m -> distinct j.

  Theorem enc_distinct : forall m v, vsize v < m -> forall t j, wf t v -> enc T v t = Some j -> distinct j.
  Proof.
    induction m as [|m IH]; intros v Sz t j W E; [lia|].
    destruct W as [s|b|z I64|q Rq|ja Cj| |t|t|t|t v W|t l Wl|t mp N Wm|n vals s G I|n fs parts d vs G L Wf Of A X].
    - cbn [enc] in E. injection E as <-. constructor.
    - cbn [enc] in E. injection E as <-. constructor.
    - cbn [enc] in E. injection E as <-. constructor.
    - cbn [enc] in E. injection E as <-. constructor.
    - cbn [enc] in E. injection E as <-. exact (clean_distinct rnd ja Cj).
    - discriminate E.
    - cbn [enc] in E. injection E as <-. constructor.
    - cbn [enc] in E. injection E as <-. constructor.
    - cbn [enc] in E. injection E as <-. constructor.
    - cbn [enc] in E. eapply IH; [|exact W|exact E]. pose proof (vsize_ptr v). lia.
    - cbn [enc] in E. destruct (seq_opt _) as [js|] eqn:Es; [|discriminate]. injection E as <-. constructor.
      apply seq_opt_Forall2 in Es. assert (Sl : forall v, In v l -> vsize v < m) by (intros v Iv; pose proof (vsize_arr v l Iv); lia). clear Sz.
      induction Es as [|v j l js Ej Es IHl]; [intros j []|]. intros j' [<-|I'].
      + eapply IH; [apply Sl; left; reflexivity|apply Wl; left; reflexivity|exact Ej].
      + apply IHl; [intros v' Iv; apply Wl; right; exact Iv|intros v' Iv; apply Sl; right; exact Iv|exact I'].
    - assert (Ee : entries T t mp (objs j)).
      { apply (enc_map_entries T t (VMap mp)); [|exact E]. destruct mp; [right; reflexivity|left; right; eexists; split; [reflexivity|discriminate]]. }
      cbn [enc] in E. destruct (seq_opt _) as [ms|] eqn:Es; [|discriminate]. injection E as <-. cbn [objs] in Ee. constructor.
      + rewrite (entries_keys T _ _ _ Ee). exact N.
      + clear Es. assert (Sl : forall k v, In (k, v) mp -> vsize v < m) by (intros k v Iv; pose proof (vsize_map k v mp Iv); lia). clear Sz N.
        induction Ee as [|[k v] [k' j] mp ms [Ek Ej] Ee IHl]; [intros k j []|]. cbn [fst snd] in *. intros k0 j0 [Eq|I'].
        * injection Eq as <- <-. eapply IH; [eapply Sl; left; reflexivity|eapply Wm; left; reflexivity|exact Ej].
        * eapply IHl; [intros k1 v1 Iv; eapply Wm; right; exact Iv|intros k1 v1 Iv; eapply Sl; right; exact Iv|exact I'].
    - cbn [enc] in E. rewrite G in E. destruct (in_list s vals); [|discriminate]. injection E as <-. constructor.
    - assert (W : wfs n fs parts d vs) by (constructor; assumption).
      destruct (Hok n fs parts d vs G X) as [OK [[U Dn]|Jb]].
      + apply union_ok in U. destruct (A Dn (U_some _ _ _ U)) as (i & w & I & Ei & Ek).
        destruct (nth_lt_some fs i) as [f Ef]. { rewrite L. eapply nth_some_lt. eassumption. }
        destruct (enc_total T rnd derived extra Hok (S (vsize (VPtr w))) (VPtr w)) with (t := f_ty f) as [j' Ej']; [lia|eapply Wf; eassumption| |].
        { destruct (U_field _ _ _ U _ _ Ef) as [_ [-> |[b ->]]]; reflexivity. }
        assert (NJ : j' <> JNull).
        { destruct (U_field _ _ _ U _ _ Ef) as [_ [Et|[b Et]]]; rewrite Et in Ej'; cbn [enc] in Ej'.
          - destruct w; cbn in Ej'; try discriminate. injection Ej' as <-. discriminate.
          - eapply enc_named_notnull. exact Ej'. }
        rewrite (union_enc T n fs parts d vs i w f j' G U L I Ei Ek Ef Ej' NJ) in E. injection E as <-.
        eapply IH; [|exact (Wf i f _ Ef Ei)|exact Ej']. pose proof (vsize_struct i _ vs Ei). lia.
      + pose proof Jb as J. apply joined_ok in J. destruct (encodes T rnd derived extra Hok n fs parts d vs W J) as [JN EE].
        rewrite EE in E. injection E as <-.
        pose proof (seg_nodup T rnd derived extra Hok n fs parts d vs W J JN) as SN.
        assert (D : descr T fs d vs (obj_of T fs parts vs)) by (eapply descr_joined; eassumption).
        constructor; [exact (D_nodup _ _ _ _ _ D)|]. intros k x Ix. unfold obj_of in Ix. apply in_concat in Ix. destruct Ix as (sg & Isg & Ix).
        apply in_map_iff in Isg. destruct Isg as (p & <- & Ip). destruct p as [cm| |i].
        * exact (Hconst n fs parts d cm k x G Ip Ix).
        * apply (proj1 (seg_struct_In T derived extra fs vs k x (JN _ Ip))) in Ix. destruct Ix as (i & f & v & Ef & Ev & _ & _ & Ee).
          eapply IH; [|exact (Wf i f v Ef Ev)|exact Ee]. pose proof (vsize_struct i _ vs Ev). lia.
        * destruct (field_of_part T rnd derived extra n fs parts d vs W J i Ip) as (f & v & Ef & Ev).
          unfold seg in Ix. rewrite (part_field T _ _ _ _ _ Ef Ev) in Ix. destruct (enc T v (f_ty f)) as [jv|] eqn:Ej; [|destruct Ix].
          assert (Dj : distinct jv). { eapply IH; [|exact (Wf i f v Ef Ev)|exact Ej]. pose proof (vsize_struct i _ vs Ev). lia. }
          destruct jv; try (destruct Ix; fail). cbn [objs] in Ix. inversion Dj; subst. eauto.
  Qed.

  (* The keys of an encoded object. *)
  Definition emit_check (no : string * obj) : bool :=
    match get (fst no) T with
    | Some (EStruct fs parts d) =>
        joined T derived (fst no) fs parts d &&
        forallb (fun p => match class_of T derived (fst no) fs d p with
                          | Some (KFin l) => forallb (fun k => in_list k (o_keys (snd no))) l
                          | Some (KPat p) => existsb (fun q => pat_eqb p (fst q)) (o_pats (snd no))
                          | _ => false
                          end) parts &&
        forallb (fun k => in_list k (d_require d)) (o_req (snd no))
    | _ => false
    end.

  Lemma emitted n o v : emit_check (n, o) = true -> wf (TNamed n) v ->
    exists M, marshal T (TNamed n) v = Some (JObj M) /\ (forall k, In k (o_req o) -> In k (map fst M)) /\
      (forall k, In k (map fst M) -> In k (o_keys o) \/ exists p x, In (p, x) (o_pats o) /\ legal p k).
  Proof.
    intros C W. unfold emit_check in C. cbn [fst snd] in C. destruct (get n T) as [[|fs parts d]|] eqn:G; try discriminate.
    rewrite !andb_true_iff in C. destruct C as [[Jb C1] C2]. rewrite forallb_forall in C1, C2.
    destruct (wf_inv T rnd derived extra n v W) as [(vals & s & G' & _)|(fs' & parts' & d' & vs & Ws & ->)]; [congruence|].
    pose proof (W_get _ _ _ _ _ _ _ _ _ Ws) as G'. rewrite G in G'. injection G' as <- <- <-.
    pose proof Jb as J. apply joined_ok in J. destruct (encodes T rnd derived extra Hok n fs parts d vs Ws J) as [JN EE].
    destruct (Hok n fs parts d vs G (W_extra _ _ _ _ _ _ _ _ _ Ws)) as [OK _].
    pose proof (seg_nodup T rnd derived extra Hok n fs parts d vs Ws J JN) as SN.
    assert (D : descr T fs d vs (obj_of T fs parts vs)) by (eapply descr_joined; eassumption).
    exists (obj_of T fs parts vs). split; [exact EE|]. split.
    - intros k I. apply (D_require _ _ _ _ _ D). apply in_list_In. auto.
    - intros k I. destruct (part_key T rnd derived extra n fs parts d vs Ws J JN k I) as (p & c & Ip & _ & Ec & Kc).
      specialize (C1 p Ip). rewrite Ec in C1. destruct c as [l|q|ps]; [| |discriminate C1]; cbn [in_class] in Kc.
      + left. rewrite forallb_forall in C1. apply in_list_In. auto.
      + right. apply existsb_exists in C1. destruct C1 as ([q' x] & Iq & E). cbn [fst] in E. apply pat_eqb_eq in E. subst q'.
        exists q, x. split; [exact Iq|]. apply matches_legal. exact Kc.
  Qed.
End Write.

Definition const_check (T : list (string * ent)) : bool :=
  forallb (fun ne => match snd ne with
                     | EStruct _ parts _ =>
                         forallb (fun p => match p with
                                           | PConst m => forallb (fun kj => match snd kj with JArr _ | JObj _ => false | _ => true end) m
                                           | _ => true
                                           end) parts
                     | EEnum _ => true
                     end) T.
Lemma const_check_ok T : const_check T = true -> forall n fs parts d m k j, get n T = Some (EStruct fs parts d) -> In (PConst m) parts -> In (k, j) m -> distinct j.
Proof.
  unfold const_check. intros C n fs parts d m k j G Ip Im. rewrite forallb_forall in C. specialize (C _ (get_In _ _ _ G)). cbn [snd] in C.
  rewrite forallb_forall in C. specialize (C _ Ip). cbn in C. rewrite forallb_forall in C. specialize (C _ Im). cbn [snd] in C.
  destruct j; try discriminate C; constructor.
Qed.

Lemma distinct30 rnd n v j : wf T30 rnd derived30 extra30 (TNamed n) v -> marshal T30 (TNamed n) v = Some j -> distinct j.
Proof.
  intros W E. eapply enc_distinct; [exact ok30|apply const_check_ok; vm_compute; reflexivity|apply le_n|exact W|exact E].
Qed.
Lemma distinct31 rnd n v j : wf T31 rnd derived31 extra31 (TNamed n) v -> marshal T31 (TNamed n) v = Some j -> distinct j.
Proof.
  intros W E. eapply enc_distinct; [exact ok31|apply const_check_ok; vm_compute; reflexivity|apply le_n|exact W|exact E].
Qed.

(* Without derived types there is nothing to strip. *)
Lemma strip_none T : forall m v t, vsize v < m -> strip T (fun _ => false) v t = v.
Proof.
  induction m as [|m IH]; intros v t S; [lia|]. destruct v; cbn [strip]; try reflexivity.
  - destruct t; try reflexivity. rewrite IH; [reflexivity|]. pose proof (vsize_ptr v). lia.
  - destruct t; try reflexivity. f_equal. rewrite <- (map_id l) at 2. apply map_ext_in. intros w I. apply IH. pose proof (vsize_arr w l I). lia.
  - destruct t; try reflexivity. f_equal. rewrite <- (map_id m0) at 2. apply map_ext_in. intros [k w] I. cbn [fst snd]. rewrite IH; [reflexivity|].
    pose proof (vsize_map k w m0 I). lia.
  - destruct t; try reflexivity. destruct (get n T) as [[|fs parts d]|]; try reflexivity. f_equal. cbn [andb].
    assert (H : forall w, In w l -> forall t, strip T (fun _ => false) w t = w).
    { intros w I t. apply IH. apply In_nth_error in I. destruct I as [i I]. pose proof (vsize_struct i w l I). lia. }
    clear S. assert (G : forall l i fs, (forall w, In w l -> forall t, strip T (fun _ => false) w t = w) ->
      strip_fields (fun _ => false) i fs (map (fun w => (w, strip T (fun _ => false) w)) l) = l).
    { clear. induction l as [|w l IHl]; intros i [|f fs] H; cbn [map strip_fields]; try reflexivity.
      - cbn [map fst]. f_equal. rewrite map_map. cbn [fst]. apply map_id.
      - cbn [snd]. rewrite (H w (or_introl eq_refl)), IHl; [reflexivity|]. intros w' I. apply H. right. exact I. }
    apply G. exact H.
Qed.

Lemma wf_known T rnd derived extra n v : wf T rnd derived extra (TNamed n) v -> In n (map fst T).
Proof. intros W. inversion W; subst; match goal with G : get _ _ = Some _ |- _ => apply get_In in G; exact (in_map fst _ _ G) end. Qed.

Lemma exact31 rnd n v : wf T31 rnd derived31 extra31 (TNamed n) v ->
  exists j, marshal T31 (TNamed n) v = Some j /\ unmarshal T31 rnd (TNamed n) j = Some v.
Proof.
  intros W. destruct (roundtrip31 rnd n v (wf_known _ _ _ _ _ _ W) W) as (j & E & v' & D & H). exists j. split; [exact E|].
  unfold derived31 in H. rewrite (strip_none T31 (S (vsize v')) v' (TNamed n) (le_n _)) in H. congruence.
Qed.

Lemma inj30 rnd n v w j : wf T30 rnd derived30 extra30 (TNamed n) v -> wf T30 rnd derived30 extra30 (TNamed n) w ->
  marshal T30 (TNamed n) v = Some j -> marshal T30 (TNamed n) w = Some j -> v = w.
Proof.
  intros V W Ev Ew. destruct (roundtrip30 rnd n v (wf_known _ _ _ _ _ _ V) V) as (j1 & v' & E1 & D1 & S1).
  destruct (roundtrip30 rnd n w (wf_known _ _ _ _ _ _ W) W) as (j2 & w' & E2 & D2 & S2). congruence.
Qed.

(* Where there is no derived type nothing is stripped. *)
Lemma strip_underived T derived : forall m v t, vsize v < m -> underived T derived (strip T derived v t) t = true -> strip T derived v t = v.
Proof.
  induction m as [|m IH]; intros v t S; [lia|]. destruct v; cbn [strip]; try reflexivity.
  - destruct t; try reflexivity. cbn [underived]. intros U. rewrite IH; [reflexivity| |exact U]. pose proof (vsize_ptr v). lia.
  - destruct t; try reflexivity. cbn [underived]. intros U. rewrite forallb_forall in U. f_equal. rewrite <- (map_id l) at 2. apply map_ext_in. intros w I. apply IH.
    + pose proof (vsize_arr w l I). lia.
    + apply U. apply (in_map (fun w => strip T derived w t)). exact I.
  - destruct t; try reflexivity. cbn [underived]. intros U. rewrite forallb_forall in U. f_equal. rewrite <- (map_id m0) at 2. apply map_ext_in. intros [k w] I. cbn [fst snd].
    f_equal. apply IH.
    + pose proof (vsize_map k w m0 I). lia.
    + apply (U (k, strip T derived w t)). apply (in_map (fun kw => (fst kw, strip T derived (snd kw) t)) _ (k, w)). exact I.
  - destruct t; try reflexivity. destruct (get n T) as [[|fs parts d]|] eqn:G; try reflexivity. cbn [underived]. rewrite G. intros U. apply andb_true_iff in U.
    destruct U as [Dn U]. apply negb_true_iff in Dn. rewrite Dn in U |- *. cbn [andb] in U |- *. f_equal.
    assert (H : forall w, In w l -> forall t, underived T derived (strip T derived w t) t = true -> strip T derived w t = w).
    { intros w I t. apply IH. apply In_nth_error in I. destruct I as [i I]. pose proof (vsize_struct i w l I). lia. }
    clear - U H. revert U. generalize 0 as i. revert fs. induction l as [|w l IHl]; intros [|f fs] i; cbn [map strip_fields]; try reflexivity.
    + intros _. cbn [fst]. f_equal. rewrite map_map. cbn [fst]. apply map_id.
    + cbn [snd map free_fields]. intros U. apply andb_true_iff in U. destruct U as [U1 U2]. f_equal.
      * apply H; [left; reflexivity|exact U1].
      * apply IHl with (i := S i); [|exact U2]. intros w' I. apply H. right. exact I.
Qed.

Lemma again30 rnd n v : wf T30 rnd derived30 extra30 (TNamed n) v -> underived T30 derived30 v (TNamed n) = true ->
  exists j, marshal T30 (TNamed n) v = Some j /\ unmarshal T30 rnd (TNamed n) j = Some v.
Proof.
  intros W U. destruct (roundtrip30 rnd n v (wf_known _ _ _ _ _ _ W) W) as (j & v' & E & D & H). exists j. split; [exact E|].
  rewrite D. f_equal. rewrite <- H in U. pose proof (strip_underived T30 derived30 (S (vsize v')) v' (TNamed n) (le_n _) U). congruence.
Qed.

Lemma emitted30 rnd n o v : In (n, o) (objects30 ++ sections30) -> wf T30 rnd derived30 extra30 (TNamed n) v ->
  exists M, marshal T30 (TNamed n) v = Some (JObj M) /\ (forall k, In k (o_req o) -> In k (map fst M)) /\
    (forall k, In k (map fst M) -> In k (o_keys o) \/ exists p x, In (p, x) (o_pats o) /\ legal p k).
Proof.
  intros I W. apply (emitted T30 rnd derived30 extra30 ok30 n o v); [|exact W].
  assert (C : forallb (emit_check T30 derived30) (objects30 ++ sections30) = true) by (vm_compute; reflexivity).
  rewrite forallb_forall in C. exact (C _ I).
Qed.
Lemma emitted31 rnd n o v : In (n, o) objects31 -> n <> "SecurityScheme" -> wf T31 rnd derived31 extra31 (TNamed n) v ->
  exists M, marshal T31 (TNamed n) v = Some (JObj M) /\ (forall k, In k (o_req o) -> In k (map fst M)) /\
    (forall k, In k (map fst M) -> In k (o_keys o) \/ exists p x, In (p, x) (o_pats o) /\ legal p k).
Proof.
  intros I N W. apply (emitted T31 rnd derived31 extra31 ok31 n o v); [|exact W].
  assert (C : forallb (fun no => String.eqb (fst no) "SecurityScheme" || emit_check T31 derived31 no) objects31 = true) by (vm_compute; reflexivity).
  rewrite forallb_forall in C. specialize (C _ I). apply orb_true_iff in C. destruct C as [C|C]; [|exact C].
  apply String.eqb_eq in C. contradiction.
Qed.
