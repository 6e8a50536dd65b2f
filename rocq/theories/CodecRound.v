(* Decoding what encoding gives: the generic part. *)
From Coq Require Import Lia.
From Verif Require Import Str SMap Json CodecModel CodecSpec CodecProofs CodecEnc.

(* ---------- alternatives ---------- *)

Lemma dec_alts_one (same : decoder) fs i0 f0 v' : nth_error fs i0 = Some f0 ->
  forall is vs c, length fs = length vs -> NoDup is -> In i0 is -> (forall i, In i is -> i < length fs) ->
  (forall v, nth_error vs i0 = Some v -> same (f_ty f0) v = Some v') ->
  (forall i f v, In i is -> i <> i0 -> nth_error fs i = Some f -> nth_error vs i = Some v -> same (f_ty f) v = None) ->
  exists vs', dec_alts same fs is vs c = (vs', S c) /\ length fs = length vs' /\ nth_error vs' i0 = Some v' /\
    (forall i, In i is -> i <> i0 -> nth_error vs' i = Some VNil) /\
    (forall i, ~ In i is -> nth_error vs' i = nth_error vs i).
Proof.
  intros Ef0.
  assert (Tail : forall is vs c, length fs = length vs -> NoDup is -> ~ In i0 is -> (forall i, In i is -> i < length fs) ->
    (forall i f v, In i is -> nth_error fs i = Some f -> nth_error vs i = Some v -> same (f_ty f) v = None) ->
    exists vs', dec_alts same fs is vs c = (vs', c) /\ length fs = length vs' /\
      (forall i, In i is -> nth_error vs' i = Some VNil) /\ (forall i, ~ In i is -> nth_error vs' i = nth_error vs i)).
  { induction is as [|i is IH]; intros vs c L N NI B H.
    - exists vs. cbn. split; [reflexivity|]. split; [exact L|]. split; [intros i []|auto].
    - cbn [dec_alts]. inversion N as [|? ? Ni N']; subst.
      destruct (nth_lt_some fs i (B i (or_introl eq_refl))) as [f Ef].
      destruct (nth_lt_some vs i) as [v Ev]. { rewrite <- L. eapply nth_some_lt. eassumption. }
      rewrite Ef, Ev, (H i f v (or_introl eq_refl) Ef Ev).
      destruct (IH (set_nth i VNil vs) c) as (vs' & E & L' & P1 & P2).
      + rewrite length_set. exact L.
      + exact N'.
      + intros I. apply NI. right. exact I.
      + intros x I. apply B. right. exact I.
      + intros x fx vx I Efx Evx. eapply H; [right; exact I|exact Efx|].
        rewrite nth_set_other in Evx by (intros ->; exact (Ni I)). exact Evx.
      + exists vs'. split; [exact E|]. split; [exact L'|]. split.
        * intros x [<-|I]; [|exact (P1 x I)]. rewrite P2 by exact Ni. apply nth_set_same. eapply nth_some_lt. eassumption.
        * intros x NIx. rewrite P2 by (intros I; apply NIx; right; exact I). apply nth_set_other. intros ->. apply NIx. left. reflexivity. }
  induction is as [|i is IH]; intros vs c L N I B S H; [destruct I|].
  inversion N as [|? ? Ni N']; subst. cbn [dec_alts].
  destruct (nth_lt_some fs i (B i (or_introl eq_refl))) as [f Ef].
  destruct (nth_lt_some vs i) as [v Ev]. { rewrite <- L. eapply nth_some_lt. eassumption. }
  rewrite Ef, Ev. destruct (Nat.eq_dec i i0) as [->|NE].
  - assert (f = f0) by congruence. subst f. rewrite (S v Ev).
    destruct (Tail is (set_nth i0 v' vs) (Datatypes.S c)) as (vs' & E & L' & P1 & P2).
    + rewrite length_set. exact L.
    + exact N'.
    + exact Ni.
    + intros x Ix. apply B. right. exact Ix.
    + intros x fx vx Ix Efx Evx. assert (x <> i0) by (intros ->; exact (Ni Ix)). eapply H; [right; exact Ix|assumption|exact Efx|].
      rewrite nth_set_other in Evx by assumption. exact Evx.
    + exists vs'. split; [exact E|]. split; [exact L'|]. split; [|split].
      * rewrite P2 by exact Ni. apply nth_set_same. eapply nth_some_lt. eassumption.
      * intros x [<-|Ix] Nx; [congruence|exact (P1 x Ix)].
      * intros x NIx. rewrite P2 by (intros Ix; apply NIx; right; exact Ix). apply nth_set_other. intros ->. apply NIx. left. reflexivity.
  - destruct I as [->|I]; [congruence|].
    rewrite (H i f v (or_introl eq_refl) NE Ef Ev).
    destruct (IH (set_nth i VNil vs) c) as (vs' & E & L' & P0 & P1 & P2).
    + rewrite length_set. exact L.
    + exact N'.
    + exact I.
    + intros x Ix. apply B. right. exact Ix.
    + intros v1 Ev1. rewrite nth_set_other in Ev1 by congruence. exact (S v1 Ev1).
    + intros x fx vx Ix Nx Efx Evx. eapply H; [right; exact Ix|exact Nx|exact Efx|].
      rewrite nth_set_other in Evx by (intros ->; exact (Ni Ix)). exact Evx.
    + exists vs'. split; [exact E|]. split; [exact L'|]. split; [exact P0|]. split.
      * intros x [<-|Ix] Nx; [|exact (P1 x Ix Nx)]. rewrite P2 by exact Ni. apply nth_set_same. eapply nth_some_lt. eassumption.
      * intros x NIx. rewrite P2 by (intros Ix; apply NIx; right; exact Ix). apply nth_set_other. intros ->. apply NIx. left. reflexivity.
Qed.

Lemma dec_pats_none T fs : forall ms vs, dec_pats T fs [] ms vs = Some vs.
Proof. induction ms as [|[k [j d]] ms IH]; intros vs; cbn; auto. Qed.

Section Round.
  Variable T : list (string * ent).
  Variable rnd : Q -> Q.
  Variable derived : string -> bool.
  Variable extra : string -> list val -> bool.
  Notation wf := (CodecSpec.wf T rnd derived extra).
  Notation wfs := (CodecEnc.wfs T rnd derived extra).
  Notation at_ := (CodecProofs.at_ T rnd).
  Notation rt := (CodecProofs.rt T rnd derived).
  Notation strip := (CodecSpec.strip T derived).

  (* No decoding of [j] as [t]. *)
  Definition rejects (j : json) (t : ty) : Prop :=
    forall l old, lvl_ok T l t = true -> at_ j l t old = None.

  Hypothesis Hok : forall n fs parts d vs, get n T = Some (EStruct fs parts d) -> extra n vs = true ->
    ent_ok T fs d = true /\ (pure_union fs parts d = true /\ derived n = false \/ joined T derived n fs parts d = true).

  Lemma zero_named n fs parts d old : get n T = Some (EStruct fs parts d) -> zero_at T (TNamed n) old ->
    exists vs0, old = VStruct vs0 /\ length fs = length vs0 /\
      (forall i f v0, nth_error fs i = Some f -> nth_error vs0 i = Some v0 -> zero_at T (f_ty f) v0).
  Proof.
    intros G (m & Z & ->). destruct m as [|m]; [discriminate|]. cbn [zero_ok] in Z. rewrite G in Z. cbn [zero]. rewrite G.
    eexists. split; [reflexivity|]. split; [rewrite map_length; reflexivity|].
    intros i f v0 Ef Ev. rewrite nth_error_map, Ef in Ev. cbn in Ev. injection Ev as <-.
    exists m. split; [|reflexivity]. rewrite forallb_forall in Z. apply Z. eapply nth_error_In. exact Ef.
  Qed.

  Lemma union_not_simple fs parts d : unionP fs parts d -> simple_parts parts = false.
  Proof.
    intros U. rewrite (U_parts _ _ _ U). pose proof (U_some _ _ _ U). destruct (d_oneof d); [congruence|reflexivity].
  Qed.

  Lemma seg_nodup n fs parts d vs : wfs n fs parts d vs -> joinedP T derived n fs parts d ->
    (forall p, In p parts -> joins T fs vs p) -> forall p, In p parts -> NoDup (map fst (seg T fs vs p)).
  Proof.
    intros W J JN p Ip. destruct p as [m| |i].
    - eapply seg_nodup_simple; eauto.
    - eapply seg_nodup_simple; eauto.
    - destruct (field_of_part T rnd derived extra n fs parts d vs W J i Ip) as (f & v & Ef & Ev).
      destruct (J_class _ _ _ _ _ _ J _ Ip) as [c Ec]. cbn [class_of] in Ec. rewrite Ef in Ec.
      pose proof (W_field _ _ _ _ _ _ _ _ _ W i f v Ef Ev) as Wv. pose proof (W_ok _ _ _ _ _ _ _ _ _ W i f v Ef Ev) as Ov.
      destruct (special_pos d i) eqn:Si.
      + destruct (derived n) eqn:Dn.
        * rewrite (fo_derived _ _ _ _ _ _ Ov Dn) in Ev by (apply special_pos_In; exact Si).
          unfold seg. rewrite (part_field T _ _ _ _ _ Ef Ev). destruct (f_ty f); try discriminate. constructor.
        * destruct (alt_ent T (f_ty f)) as [[[bfs bparts] bd]|] eqn:Ea; [|discriminate].
          destruct (simple_parts bparts) eqn:Sp; [|discriminate].
          destruct (alt_ent_inv T _ _ Ea) as (b & Et & Gb). cbn [fst snd] in Gb. rewrite Et in Wv.
          destruct (wf_ptr_inv _ _ _ _ _ _ Wv) as [->|(w & -> & Ww)].
          { unfold seg. rewrite (part_field T _ _ _ _ _ Ef Ev), Et. constructor. }
          destruct (seg_alt T rnd derived extra fs vs i f w b bfs bparts bd Ef Ev Et Gb Sp Ww (JN _ Ip)) as (ws & _ & Wb & Jb & Es & _).
          rewrite Es. destruct (Hok _ _ _ _ ws Gb (W_extra _ _ _ _ _ _ _ _ _ Wb)) as [OKb [[U _]|Jj]].
          { apply union_ok in U. rewrite (union_not_simple _ _ _ U) in Sp. discriminate. }
          apply joined_ok in Jj. unfold obj_of. apply concat_nodup with (code := code).
          -- exact (J_codes _ _ _ _ _ _ Jj).
          -- intros p I. eapply seg_nodup_simple; eauto. unfold simple_parts in Sp. rewrite forallb_forall in Sp. specialize (Sp p I).
             destruct p; [exact Logic.I|exact Logic.I|discriminate].
          -- intros p q k. eapply seg_dis; eauto.
      + destruct (f_ty f) as [| | | | | | | |t|] eqn:Et; try discriminate.
        rewrite (entries_keys T _ _ _ (seg_map T rnd derived extra n fs parts d vs W JN i f t v Ip Ef Ev Et)).
        destruct (wf_map_inv _ _ _ _ _ _ Wv) as [->|(m & -> & N & _)]; [constructor|exact N].
  Qed.

  Lemma encodes n fs parts d vs : wfs n fs parts d vs -> joinedP T derived n fs parts d ->
    (forall p, In p parts -> joins T fs vs p) /\ enc T (VStruct vs) (TNamed n) = Some (JObj (obj_of T fs parts vs)).
  Proof.
    intros W J.
    assert (JN : forall p, In p parts -> joins T fs vs p).
    { eapply parts_join; try eassumption. intros i f v Ef Ev En. eapply enc_total with (m := S (vsize v)); try eassumption; [lia|].
      eapply W_field; eassumption. }
    split; [exact JN|]. apply (enc_joins T derived extra n fs parts d vs (W_get _ _ _ _ _ _ _ _ _ W) JN).
  Qed.

  (* A larger object that contains an encoding. *)
  Lemma descr_frame fs d vs M M' : ent_ok T fs d = true -> descr T fs d vs M -> d_pats d = [] -> d_addl d = [] -> d_closed d = false ->
    NoDup (map fst M') -> incl M M' ->
    (forall k, In k (map fst M') -> In k (map fst M) \/ find_field fs k = None) ->
    descr T fs d vs M'.
  Proof.
    intros OK D P A C N S K. constructor.
    - exact N.
    - intros i f k v Ef Ek Ev O I. destruct (K k I) as [I'|F].
      + exact (D_omit _ _ _ _ _ D i f k v Ef Ek Ev O I').
      + rewrite (keyed_find T fs d OK i f k Ef Ek) in F. discriminate.
    - intros i f k v Ef Ek Ev O. destruct (D_field _ _ _ _ _ D i f k v Ef Ek Ev O) as (j & E & I). exists j. split; [exact E|]. apply S. exact I.
    - intros k i f I F Ef. destruct (K k I) as [I'|F']; [|congruence]. exact (D_exact _ _ _ _ _ D k i f I' F Ef).
    - intros k c I. destruct (D_const _ _ _ _ _ D k c I) as [I' E]. split; [apply S; exact I'|exact E].
    - intros k I. pose proof (D_require _ _ _ _ _ D k I) as X. apply key_pair in X. destruct X as [j X]. apply keys_In with j. apply S. exact X.
    - intros p i f t v I. rewrite P in I. destruct I.
    - intros i f t v I. rewrite A in I. destruct I.
    - congruence.
  Qed.

  (* What is special about single types. *)
  Hypothesis Hnot : forall n fs parts d vs j t, wfs n fs parts d vs -> enc T (VStruct vs) (TNamed n) = Some j ->
    In t (d_not d) -> rejects j t.
  Hypothesis Hraw : forall n fs parts d vs M, wfs n fs parts d vs -> joined T derived n fs parts d = true ->
    enc T (VStruct vs) (TNamed n) = Some (JObj M) ->
    forallb (fun ab => xorb (raw_has (mview T rnd M) (fst ab)) (raw_has (mview T rnd M) (snd ab))) (d_xor d) = true /\
    forallb (fun kc => negb (raw_is (mview T rnd M) (fst kc) (snd kc))) (d_notconst d) = true /\
    forallb (fun k => negb (raw_has (mview T rnd M) k)) (d_absent d) = true.
  Hypothesis Hlow : forall n fs parts d vs, wfs n fs parts d vs -> lower_checks d vs = true.
  Hypothesis Hdis : forall n fs parts d vs j i w i' f', wfs n fs parts d vs -> derived n = false ->
    enc T (VStruct vs) (TNamed n) = Some j ->
    In i (d_oneof d) -> nth_error vs i = Some (VPtr w) ->
    In i' (d_oneof d) -> i' <> i -> nth_error fs i' = Some f' -> rejects j (f_ty f').
  Hypothesis Hder : forall n fs parts d vs M, wfs n fs parts d vs -> derived n = true ->
    enc T (VStruct vs) (TNamed n) = Some (JObj M) ->
    (forall i f k v j, nth_error fs i = Some f -> f_key f = Some k -> nth_error vs i = Some v ->
       enc T v (f_ty f) = Some j -> rt (f_ty f) v j) ->
    forall l vs1, length vs1 = length fs ->
    (forall i f, special_pos d i = true -> nth_error fs i = Some f -> lvl_ok T l (f_ty f) = true /\ nth_error vs1 i = Some VNil) ->
    exists vsE vs2 c, dec_embed (at_ (JObj M) l) fs (d_embed d) vs1 = Some vsE /\ dec_alts (at_ (JObj M) l) fs (d_oneof d) vsE 0 = (vs2, c) /\
      (d_oneof d <> [] -> c = 1) /\ length vs2 = length fs /\
      (forall i, special_pos d i = false -> nth_error vs2 i = nth_error vs1 i).

  Lemma field_good fs d i f : ent_ok T fs d = true -> nth_error fs i = Some f -> ty_good T (f_ty f) = true.
  Proof.
    intros OK Ef. unfold ent_ok in OK. rewrite !andb_true_iff in OK. destruct OK as [[[[[[OKf _] _] _] _] _] _].
    pose proof (fields_check_nth T fs d fs 0 OKf i f Ef) as FC. unfold field_check in FC. apply andb_true_iff in FC. tauto.
  Qed.

  Lemma map_good fs d i : ent_ok T fs d = true -> In i (map snd (d_pats d) ++ d_addl d) ->
    forall f t, nth_error fs i = Some f -> f_ty f = TMap t -> ptr_any t = false /\ ty_good T t = true.
  Proof.
    intros OK I f t Ef Et. unfold ent_ok in OK. rewrite !andb_true_iff in OK. destruct OK as [[[[[[_ _] _] OKm] _] _] _].
    rewrite forallb_forall in OKm. specialize (OKm i I). unfold map_pos in OKm. apply andb_true_iff in OKm. destruct OKm as [_ X].
    rewrite Ef, Et in X. destruct (f_key f); [discriminate|]. apply andb_true_iff in X. destruct X as [X1 X2].
    split; [apply negb_true_iff; exact X1|exact X2].
  Qed.

  Lemma not_hollow_nil_or_map t v : wf (TMap t) v -> ~ hollow v -> nil_or_map v.
  Proof.
    intros W N. destruct (wf_map_inv _ _ _ _ _ _ W) as [->|(m & -> & _)]; [left; reflexivity|right].
    exists m. split; [reflexivity|]. intros ->. apply N. right. reflexivity.
  Qed.

  (* The part of [core] that does not depend on the alternatives. *)
  Lemma round_ent m n fs parts d vs M (same : decoder) vs0 :
    (forall v, vsize v < m -> forall t j, wf t v -> ty_good T t = true -> enc T v t = Some j -> rt t v j) ->
    vsize (VStruct vs) < S m ->
    wfs n fs parts d vs -> ent_ok T fs d = true ->
    length fs = length vs0 ->
    (forall i f v0, nth_error fs i = Some f -> nth_error vs0 i = Some v0 -> zero_at T (f_ty f) v0) ->
    descr T fs d vs M ->
    (forall t, In t (d_not d) -> same t (zero T LVL t) = None) ->
    forallb (fun ab => xorb (raw_has (mview T rnd M) (fst ab)) (raw_has (mview T rnd M) (snd ab))) (d_xor d) = true ->
    forallb (fun kc => negb (raw_is (mview T rnd M) (fst kc) (snd kc))) (d_notconst d) = true ->
    forallb (fun k => negb (raw_has (mview T rnd M) k)) (d_absent d) = true ->
    (forall vs1, length vs1 = length fs -> (forall i, special_pos d i = true -> nth_error vs1 i = nth_error vs0 i) ->
       exists vsE vs2 c, dec_embed same fs (d_embed d) vs1 = Some vsE /\ dec_alts same fs (d_oneof d) vsE 0 = (vs2, c) /\
         (d_oneof d <> [] -> c = 1) /\ length vs2 = length fs /\
         (forall i, special_pos d i = false -> nth_error vs2 i = nth_error vs1 i) /\
         (forall i f v v', special_pos d i = true -> nth_error fs i = Some f -> nth_error vs i = Some v ->
            nth_error vs2 i = Some v' -> if derived n then v = VNil else strip v' (f_ty f) = v)) ->
    exists vs', dec_ent T same (SObj (mview T rnd M)) fs d vs0 = Some vs' /\ strip (VStruct vs') (TNamed n) = VStruct vs.
  Proof.
    intros IH Sz W OK L0 Z DS HN HX HC HA HS.
    destruct (core T rnd derived n fs d vs M same vs0) as (vs' & E & L & P); try assumption.
    - exact (W_len _ _ _ _ _ _ _ _ _ W).
    - intros i f v Ef Ev Et. pose proof (W_field _ _ _ _ _ _ _ _ _ W i f v Ef Ev) as Wv. rewrite Et in Wv. inversion Wv; reflexivity.
    - intros i f v Ef Ev O C. apply andb_true_iff in O. destruct O as [O Em].
      pose proof (W_field _ _ _ _ _ _ _ _ _ W i f v Ef Ev) as Wv. pose proof (fo_omit _ _ _ _ _ _ (W_ok _ _ _ _ _ _ _ _ _ W i f v Ef Ev) O) as NH.
      destruct (f_ty f); cbn in C; try discriminate; inversion Wv; subst; try reflexivity; cbn in Em; try discriminate.
      + destruct l; [|discriminate]. exfalso. apply NH. left. reflexivity.
      + destruct m0; [|discriminate]. exfalso. apply NH. right. reflexivity.
    - intros i f k v j Ef Ek Ev Ee. apply IH; [|eapply W_field; eassumption|eapply field_good; eassumption|exact Ee].
      pose proof (vsize_struct i v vs Ev). lia.
    - intros i f t v I Ef Et Ev. pose proof (W_field _ _ _ _ _ _ _ _ _ W i f v Ef Ev) as Wv. rewrite Et in Wv.
      pose proof (W_ok _ _ _ _ _ _ _ _ _ W i f v Ef Ev) as Ov. split.
      + apply (not_hollow_nil_or_map t); [exact Wv|]. apply in_app_iff in I. destruct I as [I|I].
        * apply in_map_iff in I. destruct I as ([p i'] & X & I). cbn in X. subst i'. exact (proj1 (fo_pat _ _ _ _ _ _ Ov p I)).
        * exact (proj1 (fo_addl _ _ _ _ _ _ Ov I)).
      + intros k w j Iw Ew. destruct (wf_map_inv _ _ _ _ _ _ Wv) as [->|(mm & -> & _ & Wm)]; [destruct Iw|].
        cbn [mapof] in Iw. apply IH; [|eapply Wm; exact Iw|eapply map_good; eassumption|exact Ew].
        pose proof (vsize_struct i _ vs Ev). pose proof (vsize_map k w mm Iw). lia.
    - eapply Hlow. exact W.
    - exists vs'. split; [exact E|]. eapply strip_struct; [exact (W_get _ _ _ _ _ _ _ _ _ W)|exact (W_len _ _ _ _ _ _ _ _ _ W)|exact L|exact P].
  Qed.

  Lemma zero_ptr_nil t v : zero_at T (TPtr t) v -> v = VNil.
  Proof. intros (k & _ & ->). destruct k; reflexivity. Qed.

  Lemma zero_arr_nil t v : zero_at T (TArr t) v -> v = VNil.
  Proof. intros (k & _ & ->). destruct k; reflexivity. Qed.

  Lemma lvl_S l t : lvl_ok T l t = true -> exists l', l = S l'.
  Proof. destruct l; [discriminate|eauto]. Qed.

  Theorem round : forall m v, vsize v < m -> forall t j, wf t v -> ty_good T t = true -> enc T v t = Some j -> rt t v j.
  Proof.
    induction m as [|m IH]; intros v Sz t j W TG E; [lia|].
    destruct W as [s|b|z I64|q Rq|ja Cj| |t|t|t|t v W|t l Wl|t mp N Wm|n vals s G I|n fs parts d vs G L Wf Of A X].
    - cbn [enc] in E. injection E as <-. intros l old Lv Z. destruct (lvl_S _ _ Lv) as [l' ->]. exists (VStr s). split; [reflexivity|left; reflexivity].
    - cbn [enc] in E. injection E as <-. intros l old Lv Z. destruct (lvl_S _ _ Lv) as [l' ->]. exists (VBool b). split; [reflexivity|left; reflexivity].
    - cbn [enc] in E. injection E as <-. intros l old Lv Z. destruct (lvl_S _ _ Lv) as [l' ->]. exists (VNum (inject_Z z)).
      split; [|left; reflexivity]. unfold CodecProofs.at_. cbn [levels dec_step view]. rewrite (int64_Z z I64). reflexivity.
    - cbn [enc] in E. injection E as <-. intros l old Lv Z. destruct (lvl_S _ _ Lv) as [l' ->]. exists (VNum q).
      split; [|left; reflexivity]. unfold CodecProofs.at_. cbn [levels dec_step view]. rewrite Rq. reflexivity.
    - cbn [enc] in E. injection E as <-. intros l old Lv Z. destruct (lvl_S _ _ Lv) as [l' ->]. exists (VAny ja).
      split; [|left; reflexivity]. unfold CodecProofs.at_. cbn [levels dec_step]. rewrite (clean_canon rnd ja Cj). reflexivity.
    - discriminate.
    - cbn [enc] in E. injection E as <-. intros l old Lv Z. destruct (lvl_S _ _ Lv) as [l' ->]. exists VNil. split; [reflexivity|left; reflexivity].
    - cbn [enc] in E. injection E as <-. intros l old Lv Z. destruct (lvl_S _ _ Lv) as [l' ->]. exists VNil. split; [reflexivity|left; reflexivity].
    - cbn [enc] in E. injection E as <-. intros l old Lv Z. destruct (lvl_S _ _ Lv) as [l' ->]. exists VNil. split; [reflexivity|left; reflexivity].
    - (* pointer *)
      cbn [enc] in E. cbn [ty_good] in TG. rewrite !andb_true_iff in TG. destruct TG as [_ [NP TG]].
      pose proof (IH v ltac:(pose proof (vsize_ptr v); lia) t j W TG E) as R.
      intros l old Lv Z. rewrite (zero_ptr_nil _ _ Z). destruct (lvl_S _ _ Lv) as [l' ->]. cbn [lvl_ok] in Lv.
      destruct (R l' (zero T LVL t) Lv (ty_good_zero T derived _ TG)) as (v' & Ed & Ev').
      unfold CodecProofs.at_ in Ed |- *. cbn [levels dec_step].
      assert (Dec : j = JNull \/ j <> JNull) by (destruct j; auto; right; discriminate). destruct Dec as [->|NJ].
      + exists VNil. split; [reflexivity|]. right.
        destruct W; try discriminate NP; cbn [enc] in E; try discriminate E.
        * injection E as ->. auto.
        * rewrite H in E. destruct (in_list s vals); discriminate.
        * exfalso. eapply (enc_named_notnull T n (VStruct vs)); [|reflexivity]. exact E.
      + exists (VPtr v'). split.
        * rewrite Ed. destruct j; try congruence; reflexivity.
        * left. destruct Ev' as [Ev'|(Et & _)]; [|subst t; discriminate NP]. cbn [CodecSpec.strip]. rewrite Ev'. reflexivity.
    - (* slice *)
      cbn [enc] in E. destruct (seq_opt _) as [js|] eqn:Es; [|discriminate]. injection E as <-.
      cbn [ty_good] in TG. rewrite !andb_true_iff in TG. destruct TG as [_ [NP TG]]. apply negb_true_iff in NP.
      intros l0 old Lv Z. destruct (lvl_S _ _ Lv) as [l' ->]. unfold CodecProofs.at_. cbn [levels dec_step view].
      assert (R : exists rs, dec_elems T t (map (dec T rnd) js) [] = Some rs /\ map (fun w => strip w t) rs = l).
      { apply seq_opt_Forall2 in Es. assert (Sl : forall v, In v l -> vsize v < m) by (intros v Iv; pose proof (vsize_arr v l Iv); lia).
        clear - IH Es Sl Wl NP TG. induction Es as [|v j l js Ej F IHl]; [exists []; auto|].
        destruct IHl as (rs & Er & Em); [intros; apply Wl; right; assumption|intros; apply Sl; right; assumption|].
        destruct (IH v (Sl v (or_introl eq_refl)) t j (Wl v (or_introl eq_refl)) TG Ej LVL (zero T LVL t) (ty_good_lvl T derived _ TG) (ty_good_zero T derived _ TG)) as (v' & Ed & [Ev|(Et & _)]).
        - exists (v' :: rs). cbn [map dec_elems hd tl]. rewrite (dec_at T rnd), Ed, Er. split; [reflexivity|]. rewrite Ev, Em. reflexivity.
        - subst t. discriminate NP. }
      destruct R as (rs & Er & Em). rewrite (zero_arr_nil _ _ Z), Er. exists (VArr rs). split; [reflexivity|]. left. cbn [CodecSpec.strip]. rewrite Em. reflexivity.
    - (* map *)
      assert (Ee : entries T t mp (objs j)).
      { apply (enc_map_entries T t (VMap mp)); [|exact E]. destruct mp; [right; reflexivity|left; right; eexists; split; [reflexivity|discriminate]]. }
      cbn [enc] in E. destruct (seq_opt _) as [ms|] eqn:Es; [|discriminate]. injection E as <-. cbn [objs] in Ee.
      cbn [ty_good] in TG. rewrite !andb_true_iff in TG. destruct TG as [_ [NP TG]]. apply negb_true_iff in NP.
      intros l0 old Lv Z. destruct (lvl_S _ _ Lv) as [l' ->].
      assert (old = VNil) by (destruct Z as (k & _ & ->); destruct k; reflexivity). subst old.
      destruct (entries_decode T rnd derived t mp ms TG NP) as (r & Er & Em).
      + rewrite (entries_keys T _ _ _ Ee). exact N.
      + exact Ee.
      + intros k w j' Iw Ew. apply IH; [|eapply Wm; exact Iw|exact TG|exact Ew]. pose proof (vsize_map k w mp Iw). lia.
      + unfold CodecProofs.at_. cbn [levels dec_step view]. unfold mview in Er. rewrite Er.
        exists (VMap r). split; [reflexivity|]. left. cbn [CodecSpec.strip]. rewrite Em. reflexivity.
    - (* enum *)
      cbn [enc] in E. rewrite G in E. apply in_list_In in I. rewrite I in E. injection E as <-.
      intros l old Lv Z. destruct (lvl_S _ _ Lv) as [l' ->]. exists (VStr s). split; [|left; reflexivity].
      unfold CodecProofs.at_. cbn [levels dec_step view]. rewrite G, I. reflexivity.
    - (* struct *)
      assert (W : wfs n fs parts d vs) by (constructor; assumption).
      intros l old Lv Z. destruct (lvl_S _ _ Lv) as [l' ->]. cbn [lvl_ok] in Lv. rewrite G in Lv. apply andb_true_iff in Lv. destruct Lv as [Lv1 Lv2].
      rewrite forallb_forall in Lv1, Lv2.
      destruct (zero_named n fs parts d old G Z) as (vs0 & -> & L0 & Z0).
      destruct (Hok n fs parts d vs G X) as [OK [[U Dn]|Jb]].
      + (* a choice *)
        apply union_ok in U. destruct (A Dn (U_some _ _ _ U)) as (i & w & I & Ei & Ek).
        destruct (nth_lt_some fs i) as [f Ef]. { rewrite L. eapply nth_some_lt. eassumption. }
        assert (Nd : NoDup (d_oneof d)) by (rewrite (U_oneof _ _ _ U); apply seq_NoDup).
        assert (Bd : forall x, In x (d_oneof d) <-> x < length fs). { intros x. rewrite (U_oneof _ _ _ U), in_seq. lia. }
        assert (Ej : enc T (VPtr w) (f_ty f) = Some j).
        { destruct (enc_total T rnd derived extra Hok (S (vsize (VPtr w))) (VPtr w)) with (t := f_ty f) as [j' Ej']; [lia|eapply Wf; eassumption| |].
          - destruct (U_field _ _ _ U _ _ Ef) as [_ [-> |[b ->]]]; reflexivity.
          - assert (NJ : j' <> JNull).
            { destruct (U_field _ _ _ U _ _ Ef) as [_ [Et|[b Et]]]; rewrite Et in Ej'; cbn [enc] in Ej'.
              - destruct w; cbn in Ej'; try discriminate. injection Ej' as <-. discriminate.
              - eapply enc_named_notnull. exact Ej'. }
            rewrite (union_enc T n fs parts d vs i w f j' G U L I Ei Ek Ef Ej' NJ) in E. congruence. }
        pose proof (IH (VPtr w) ltac:(pose proof (vsize_struct i _ vs Ei); lia) (f_ty f) j (Wf i f _ Ef Ei) (field_good fs d i f OK Ef) Ej) as R.
        assert (Lf : forall x fx, nth_error fs x = Some fx -> lvl_ok T l' (f_ty fx) = true).
        { intros x fx Efx. specialize (Lv1 x). rewrite (U_embed _ _ _ U) in Lv1. cbn [app] in Lv1.
          assert (Ix : In x (d_oneof d)) by (apply Bd; eapply nth_some_lt; eassumption). specialize (Lv1 Ix). rewrite Efx in Lv1. exact Lv1. }
        assert (Zf : forall x fx, nth_error fs x = Some fx -> zero_at T (f_ty fx) VNil).
        { intros x fx Efx. exists 0. destruct (U_field _ _ _ U _ _ Efx) as [_ [-> |[b ->]]]; split; reflexivity. }
        destruct (R l' VNil (Lf i f Ef) (Zf i f Ef)) as (v' & Ed & Ev').
        assert (V0 : forall x v0, nth_error vs0 x = Some v0 -> v0 = VNil).
        { intros x v0 Ev0. destruct (nth_lt_some fs x) as [fx Efx]. { rewrite L0. eapply nth_some_lt. eassumption. }
          pose proof (Z0 x fx v0 Efx Ev0) as Zx. destruct (U_field _ _ _ U _ _ Efx) as [_ [Et|[b Et]]]; rewrite Et in Zx; exact (zero_ptr_nil _ _ Zx). }
        destruct (dec_alts_one (at_ j l') fs i f v' Ef (d_oneof d) vs0 0 L0 Nd I) as (vs' & EA & L' & P0 & P1 & P2).
        * intros x Ix. apply Bd. exact Ix.
        * intros v0 Ev0. rewrite (V0 i v0 Ev0). exact Ed.
        * intros x fx v0 Ix Nx Efx Ev0. rewrite (V0 x v0 Ev0).
          apply (Hdis n fs parts d vs j i w x fx W Dn E I Ei Ix Nx Efx). exact (Lf x fx Efx).
        * exists (VStruct vs'). split.
          -- unfold CodecProofs.at_. cbn [levels dec_step]. rewrite G. unfold dec_ent.
             replace (forallb _ (d_not d)) with true.
             2: { symmetry. apply forallb_forall. intros tn It. change (levels (dec_step T rnd j (view (dec T rnd) j)) l') with (at_ j l').
                  rewrite (Hnot n fs parts d vs j tn W E It l' _ (Lv2 tn It)). reflexivity. }
             change (levels (dec_step T rnd j (view (dec T rnd) j)) l') with (at_ j l').
             rewrite (U_struct _ _ _ U), (U_embed _ _ _ U). cbn [dec_embed]. rewrite EA.
             replace (match d_oneof d with [] => true | _ => (1 =? 1)%nat end) with true by (destruct (d_oneof d); reflexivity).
             unfold dec_raw, raw_checks, lower_checks.
             rewrite (U_require _ _ _ U), (U_xor _ _ _ U), (U_const _ _ _ U), (U_notconst _ _ _ U), (U_absent _ _ _ U), (U_lower _ _ _ U), (U_fix _ _ _ U), (U_pats _ _ _ U), (U_addl _ _ _ U), (U_closed _ _ _ U).
             cbn [forallb andb dec_fix]. rewrite dec_pats_none. reflexivity.
          -- left. eapply strip_struct; [exact G|exact L|exact L'|]. rewrite Dn. cbn [andb].
             intros x fx vx vx' Efx Evx Evx'. destruct (Nat.eq_dec x i) as [->|Nx].
             ++ assert (fx = f) by congruence. subst fx. assert (vx' = v') by congruence. subst vx'. rewrite Ei in Evx. injection Evx as <-.
                destruct Ev' as [Ev'|(Et & _)]; [exact Ev'|]. destruct (U_field _ _ _ U _ _ Ef) as [_ [Et'|[b Et']]]; congruence.
             ++ assert (Ix : In x (d_oneof d)) by (apply Bd; eapply nth_some_lt; eassumption).
                rewrite (P1 x Ix Nx) in Evx'. injection Evx' as <-. rewrite (Ek x Ix Nx) in Evx. injection Evx as <-. reflexivity.
      + (* an object *)
        pose proof Jb as J. apply joined_ok in J. destruct (encodes n fs parts d vs W J) as [JN EE].
        rewrite EE in E. injection E as <-. set (M := obj_of T fs parts vs) in *.
        assert (DS : descr T fs d vs M).
        { eapply descr_joined; try eassumption. eapply seg_nodup; eassumption. }
        destruct (Hraw n fs parts d vs M W Jb EE) as (HX & HC & HA).
        assert (Fin : exists vs', dec_ent T (at_ (JObj M) l') (SObj (mview T rnd M)) fs d vs0 = Some vs' /\ strip (VStruct vs') (TNamed n) = VStruct vs).
        { eapply round_ent; try eassumption.
          - intros tn It. exact (Hnot n fs parts d vs (JObj M) tn W EE It l' _ (Lv2 tn It)).
          - intros vs1 L1 P1. destruct (derived n) eqn:Dn.
            + destruct (Hder n fs parts d vs M W Dn EE) with (l := l') (vs1 := vs1) as (vsE & vs2 & c & A1 & A2 & A3 & A4 & A5).
              * intros i f k v j Ef Ek Ev Ee. apply IH; [|eapply Wf; eassumption|eapply field_good; eassumption|exact Ee].
                pose proof (vsize_struct i v vs Ev). lia.
              * exact L1.
              * intros i f Si Ef. split.
                -- specialize (Lv1 i). rewrite Ef in Lv1. apply Lv1. apply special_pos_In. exact Si.
                -- rewrite P1 by exact Si. destruct (nth_lt_some vs0 i) as [v0 Ev0]. { rewrite <- L0. eapply nth_some_lt. eassumption. }
                   rewrite Ev0. f_equal. pose proof (Z0 i f v0 Ef Ev0) as Zi.
                   pose proof (Wf i f) as Wi. destruct (nth_lt_some vs i) as [v Ev]. { rewrite <- L. eapply nth_some_lt. eassumption. }
                   specialize (Wi v Ef Ev). pose proof (fo_derived _ _ _ _ _ _ (Of i f v Ef Ev) Dn (proj1 (special_pos_In d i) Si)) as Nv. subst v.
                   inversion Wi; subst; destruct Zi as (kk & Zk & ->); try (destruct kk; reflexivity);
                     match goal with H : _ = f_ty f |- _ => rewrite <- H; destruct kk; reflexivity end.
              * exists vsE, vs2, c. split; [exact A1|]. split; [exact A2|]. split; [exact A3|]. split; [exact A4|]. split; [exact A5|].
                intros i f v v' Si Ef Ev _. exact (fo_derived _ _ _ _ _ _ (Of i f v Ef Ev) Dn (proj1 (special_pos_In d i) Si)).
            + rewrite (J_embed _ _ _ _ _ _ J Dn). cbn [dec_embed].
              destruct (d_oneof d) as [|o0 o'] eqn:Eo.
              * exists vs1, vs1, 0. cbn [dec_alts]. split; [reflexivity|]. split; [reflexivity|]. split; [congruence|]. split; [exact L1|].
                split; [auto|]. intros i f v v' Si. exfalso. apply special_pos_In in Si. rewrite (J_embed _ _ _ _ _ _ J Dn), Eo in Si. destruct Si.
              * rewrite <- Eo in *. assert (O : d_oneof d <> []) by (rewrite Eo; discriminate). clear Eo o0 o'.
                destruct (A eq_refl O) as (i & w & I & Ei & Ek).
                destruct (J_alts _ _ _ _ _ _ J Dn i I) as (f & bfs & bparts & bd & Ip & Ef & Ea & Sp & St & B1 & B2 & B3 & B4 & B5 & B6 & B7 & B8 & B9 & B10).
                destruct (alt_ent_inv T _ _ Ea) as (b & Et & Gb). cbn [fst snd] in Gb.
                pose proof (Wf i f _ Ef Ei) as Wv. rewrite Et in Wv. destruct (wf_ptr_inv _ _ _ _ _ _ Wv) as [|(w' & Ew & Ww)]; [discriminate|]. injection Ew as <-.
                destruct (seg_alt T rnd derived extra fs vs i f w b bfs bparts bd Ef Ei Et Gb Sp Ww (JN _ Ip)) as (ws & -> & Wb & Jnb & Es & _).
                destruct (Hok _ _ _ _ ws Gb (W_extra _ _ _ _ _ _ _ _ _ Wb)) as [OKb [[Ub _]|Jjb]].
                { apply union_ok in Ub. rewrite (union_not_simple _ _ _ Ub) in Sp. discriminate. }
                apply joined_ok in Jjb.
                assert (Db : descr T bfs bd ws M).
                { apply descr_frame with (M := obj_of T bfs bparts ws); try assumption.
                  - eapply descr_joined; try eassumption. eapply seg_nodup; eassumption.
                  - exact (D_nodup _ _ _ _ _ DS).
                  - intros [k jk] Ikj. unfold M, obj_of. apply in_concat_seg. exists (PField i). split; [exact Ip|]. rewrite Es. exact Ikj.
                  - intros k Ik. destruct (part_key T rnd derived extra n fs parts d vs W J JN k Ik) as (p & c & Ipp & Ikp & Ec & Kc).
                    destruct (alt_part derived n d p) eqn:Ap.
                    + left. unfold alt_part in Ap. apply andb_true_iff in Ap. destruct Ap as [_ Ap]. apply existsb_exists in Ap. destruct Ap as (x & Ix & Ex).
                      apply Nat.eqb_eq in Ex. destruct p as [| |x']; cbn in Ex; try discriminate. injection Ex as ->.
                      destruct (Nat.eq_dec x i) as [->|Nx]; [rewrite Es in Ikp; exact Ikp|]. exfalso.
                      pose proof (Ek x Ix Nx) as Exn. destruct (J_alts _ _ _ _ _ _ J Dn x Ix) as (fx & q1 & q2 & q3 & _ & Efx & Eax & _).
                      destruct (alt_ent_inv T _ _ Eax) as (bb & Etx & _). unfold seg in Ikp. rewrite (part_field T _ _ _ _ _ Efx Exn), Etx in Ikp. exact Ikp.
                    + right. eapply class_free_ok; [exact (B10 p c Ipp Ap Ec)|exact Kc]. }
                assert (SO : forall x, special_pos d x = true <-> In x (d_oneof d)).
                { intros x. rewrite special_pos_In, (J_embed _ _ _ _ _ _ J Dn). reflexivity. }
                assert (Lf : forall x fx, In x (d_oneof d) -> nth_error fs x = Some fx -> lvl_ok T l' (f_ty fx) = true).
                { intros x fx Ix Efx. specialize (Lv1 x). rewrite Efx in Lv1. apply Lv1. apply in_app_iff. right. exact Ix. }
                assert (Ed : exists ws', at_ (JObj M) l' (TPtr (TNamed b)) VNil = Some (VPtr (VStruct ws')) /\ strip (VStruct ws') (TNamed b) = VStruct ws).
                { pose proof (Lf i f I Ef) as Lb. rewrite Et in Lb. destruct (lvl_S _ _ Lb) as [l1 ->]. cbn [lvl_ok] in Lb. destruct (lvl_S _ _ Lb) as [l2 ->].
                  pose proof (field_good fs d i f OK Ef) as TGb. rewrite Et in TGb. cbn [ty_good] in TGb. rewrite !andb_true_iff in TGb. destruct TGb as [_ [_ TGb]].
                  assert (TGb' : ty_good T (TNamed b) = true) by (cbn [ty_good]; rewrite !andb_true_iff; exact TGb).
                  pose proof (ty_good_zero T derived _ TGb') as Zb. destruct (zero_named b bfs bparts bd _ Gb Zb) as (wz & Ez & Lz & Zz).
                  destruct (round_ent m b bfs bparts bd ws M (at_ (JObj M) l2) wz) as (ws' & Ed & Est); try assumption.
                  - pose proof (vsize_struct i _ vs Ei) as Q1. pose proof (vsize_ptr (VStruct ws)). lia.
                  - intros tn It. rewrite B3 in It. destruct It.
                  - rewrite B7. reflexivity.
                  - rewrite B8. reflexivity.
                  - rewrite B9. reflexivity.
                  - intros ws1 Lw1 Pw1. exists ws1, ws1, 0. rewrite B1, B2. cbn [dec_embed dec_alts]. split; [reflexivity|]. split; [reflexivity|].
                    split; [congruence|]. split; [exact Lw1|]. split; [auto|]. intros x fx vx vx' Sx. exfalso. apply special_pos_In in Sx.
                    rewrite B1, B2 in Sx. destruct Sx.
                  - exists ws'. split; [|exact Est]. unfold CodecProofs.at_ in Ed |- *. cbn [levels]. cbn [dec_step view]. rewrite Gb, Ez. unfold mview in Ed.
                    cbn [view] in Ed. rewrite Ed. reflexivity. }
                destruct Ed as (ws' & Ed & Est).
                assert (V1 : forall x v1, In x (d_oneof d) -> nth_error vs1 x = Some v1 -> v1 = VNil).
                { intros x v1 Ix Ev1. rewrite P1 in Ev1 by (apply SO; exact Ix).
                  destruct (J_alts _ _ _ _ _ _ J Dn x Ix) as (fx & q1 & q2 & q3 & _ & Efx & Eax & _).
                  destruct (alt_ent_inv T _ _ Eax) as (bb & Etx & _). pose proof (Z0 x fx v1 Efx Ev1) as Zx. rewrite Etx in Zx. exact (zero_ptr_nil _ _ Zx). }
                pose proof (J_oneof _ _ _ _ _ _ J) as ND.
                destruct (dec_alts_one (at_ (JObj M) l') fs i f (VPtr (VStruct ws')) Ef (d_oneof d) vs1 0 (eq_sym L1) ND I) as (vs2 & EA & L2 & Q0 & Q1 & Q2).
                -- intros x Ix. destruct (J_alts _ _ _ _ _ _ J Dn x Ix) as (fx & q1 & q2 & q3 & _ & Efx & _). eapply nth_some_lt. exact Efx.
                -- intros v1 Ev1. rewrite (V1 i v1 I Ev1), Et. exact Ed.
                -- intros x fx v1 Ix Nx Efx Ev1. rewrite (V1 x v1 Ix Ev1).
                   apply (Hdis n fs parts d vs (JObj M) i (VStruct ws) x fx W Dn EE I Ei Ix Nx Efx). exact (Lf x fx Ix Efx).
                -- exists vs1, vs2, 1. split; [reflexivity|]. split; [exact EA|]. split; [reflexivity|]. split; [congruence|]. split.
                   ++ intros x Sx. apply Q2. intros Ix. apply SO in Ix. congruence.
                   ++ intros x fx vx vx' Sx Efx Evx Evx'. apply SO in Sx. destruct (Nat.eq_dec x i) as [->|Nx].
                      ** assert (fx = f) by congruence. subst fx. rewrite Q0 in Evx'. injection Evx' as <-. rewrite Ei in Evx. injection Evx as <-.
                         rewrite Et. cbn [CodecSpec.strip]. f_equal. exact Est.
                      ** rewrite (Q1 x Sx Nx) in Evx'. injection Evx' as <-. rewrite (Ek x Sx Nx) in Evx. injection Evx as <-. reflexivity. }
        destruct Fin as (vs' & Ed & Est). exists (VStruct vs'). split; [|left; exact Est].
        unfold CodecProofs.at_ in Ed |- *. cbn [levels]. cbn [dec_step view]. rewrite G. unfold mview in Ed. cbn [view] in Ed. rewrite Ed. reflexivity.
  Qed.
End Round.
