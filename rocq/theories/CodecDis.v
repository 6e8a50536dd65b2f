(* When the encoding of one type cannot be decoded as another one: what is known
   of an encoding ([sh]), and a check that decoding fails ([rej]). *)
From Coq Require Import Lia.
From Verif Require Import Str SMap Json CodecModel CodecSpec CodecProofs CodecEnc CodecRound.

(* ---------- failing stages ---------- *)

Lemma dec_fields_fail fs k j (d : decoder) : forall (ms : members) vs,
  In (k, (j, d)) ms -> (forall i, find_field fs k = Some i -> forall f v, nth_error fs i = Some f -> d (f_ty f) v = None) ->
  find_field fs k <> None -> dec_fields fs ms vs = None.
Proof.
  induction ms as [|[k' [j' d']] ms IH]; intros vs I H N; [destruct I|].
  cbn [dec_fields]. destruct I as [E|I].
  - injection E as -> -> ->. destruct (find_field fs k) as [i|]; [|congruence].
    destruct (nth_error fs i) as [f|] eqn:Ef; [|reflexivity]. destruct (nth_error vs i) as [v|]; [|reflexivity].
    rewrite (H i eq_refl f v Ef). reflexivity.
  - destruct (find_field fs k') as [i|]; [|apply IH; assumption].
    destruct (nth_error fs i) as [f|]; [|reflexivity]. destruct (nth_error vs i) as [v|]; [|reflexivity].
    destruct (d' (f_ty f) v); [|reflexivity]. apply IH; assumption.
Qed.

Lemma dec_addl_fail T fs i f t k j (d : decoder) : nth_error fs i = Some f -> f_ty f = TMap t -> d t (zero T LVL t) = None ->
  forall (ms : members) vs, In (k, (j, d)) ms -> dec_addl T fs i ms vs = None.
Proof.
  intros Ef Et Ed. induction ms as [|[k' [j' d']] ms IH]; intros vs I; [destruct I|]. cbn [dec_addl]. destruct I as [E|I].
  - injection E as -> -> ->. unfold store. rewrite Ef, Et, Ed. destruct (nth_error vs i); reflexivity.
  - destruct (store T fs i k' d' vs); [apply IH; exact I|reflexivity].
Qed.

Lemma dec_alts_zero (same : decoder) fs : forall is vs c,
  (forall i f v, In i is -> nth_error fs i = Some f -> same (f_ty f) v = None) -> snd (dec_alts same fs is vs c) = c.
Proof.
  induction is as [|i is IH]; intros vs c H; [reflexivity|]. cbn [dec_alts].
  destruct (nth_error fs i) as [f|] eqn:Ef; [|reflexivity]. destruct (nth_error vs i) as [v|]; [|reflexivity].
  rewrite (H i f v (or_introl eq_refl) Ef). apply IH. intros i' f' v' I. apply H. right. exact I.
Qed.

(* ---------- shapes ---------- *)

Inductive aval := AStr | AConst (c : json).
Record shape := { s_always : list (string * aval); s_class : list (kclass * bool) }.

(* A boolean or a string; an object with some members, whose keys are of some
   classes, those of a class marked [true] with objects as values; anything. *)
Inductive sh := ShAtom | ShObj (s : shape) | ShTop.

Definition in_classb (c : kclass) (k : string) : bool :=
  match c with
  | KFin l => in_list k l
  | KPat p => matches p k
  | KRest ps => forallb (fun p => negb (matches p k)) ps
  end.
Lemma in_classb_ok c k : in_class c k -> in_classb c k = true.
Proof.
  destruct c; cbn [in_class in_classb]; intros H.
  - apply in_list_In. exact H.
  - exact H.
  - apply forallb_forall. intros p I. rewrite (H p I). reflexivity.
Qed.

Definition adesc (a : aval) (x : json) : Prop :=
  match a with AStr => exists s, x = JStr s | AConst c => x = c end.

Record sdesc (s : shape) (M : list (string * json)) : Prop := {
  S_nodup : NoDup (map fst M);
  S_always : forall k a, In (k, a) (s_always s) -> exists x, In (k, x) M /\ adesc a x;
  S_class : forall k x, In (k, x) M -> exists c b, In (c, b) (s_class s) /\ in_class c k /\ (b = true -> exists m, x = JObj m)
}.

Definition described (s : sh) (j : json) : Prop :=
  match s with
  | ShAtom => (exists b, j = JBool b) \/ (exists t, j = JStr t)
  | ShObj s => exists M, j = JObj M /\ sdesc s M
  | ShTop => True
  end.

Definition is_str (a : aval) : bool := match a with AStr | AConst (JStr _) => true | _ => false end.
Definition clash (a : aval) (c : json) : bool := match a with AConst c' => negb (json_eqb_scalar c' c) | _ => false end.

Definition no_class (s : shape) (k : string) : bool := forallb (fun cb => negb (in_classb (fst cb) k)) (s_class s).

Definition str_field (fs : list field) (d : dprog) (k : string) : bool :=
  d_struct d && match find_field fs k with
                | Some i => match nth_error fs i with Some f => match f_ty f with TStr => true | _ => false end | None => false end
                | None => false
                end.

(* Why an object is not accepted: a required key is missing (or has an object
   where a string is needed); a key that is always there is not known; a
   constant differs; neither of two keys is there. *)
Definition rej_obj (s : shape) (fs : list field) (d : dprog) : bool :=
  existsb (fun k => forallb (fun cb => negb (in_classb (fst cb) k) || (snd cb && str_field fs d k)) (s_class s)) (d_require d) ||
  (d_closed d && nullb (d_addl d) && existsb (fun ka => negb (gone d (fst ka) || matched d (fst ka))) (s_always s)) ||
  existsb (fun kc => existsb (fun ka => String.eqb (fst ka) (fst kc) && clash (snd ka) (snd kc)) (s_always s)) (d_const d) ||
  existsb (fun ab => no_class s (fst ab) && no_class s (snd ab)) (d_xor d).

Section Dis.
  Variable T : list (string * ent).
  Variable rnd : Q -> Q.
  Variable derived : string -> bool.
  Variable extra : string -> list val -> bool.
  Notation wf := (CodecSpec.wf T rnd derived extra).
  Notation wfs := (CodecEnc.wfs T rnd derived extra).
  Notation at_ := (CodecProofs.at_ T rnd).
  Notation rejects := (CodecRound.rejects T rnd).

  (* A value of the other members is decoded into a type that takes no string. *)
  Definition rej_addl (rej : ty -> bool) (s : shape) (fs : list field) (d : dprog) : bool :=
    match d_addl d with
    | i :: _ =>
        match nth_error fs i with
        | Some f =>
            match f_ty f with
            | TMap t => existsb (fun ka => is_str (snd ka) && negb (gone d (fst ka) || matched d (fst ka))) (s_always s) && rej t && lvl_ok T LVL t
            | _ => false
            end
        | None => false
        end
    | [] => false
    end.

  Fixpoint rej (fuel : nat) (s : sh) (t : ty) : bool :=
    match fuel with
    | O => false
    | S fuel =>
        match t with
        | TBool => match s with ShObj _ => true | _ => false end
        | TPtr t => match s with ShTop => false | _ => rej fuel s t end
        | TNamed n =>
            match get n T with
            | Some (EStruct fs _ d) =>
                existsb (fun t => match t with TAny => true | _ => false end) (d_not d) ||
                (negb (nullb (d_oneof d)) &&
                 forallb (fun i => match nth_error fs i with Some f => rej fuel s (f_ty f) | None => false end) (d_oneof d)) ||
                match s with
                | ShAtom => d_struct d
                | ShObj s => rej_obj s fs d || rej_addl (rej fuel ShAtom) s fs d
                | ShTop => false
                end
            | _ => false
            end
        | _ => false
        end
    end.

  Lemma mview_in k x M : In (k, x) M -> In (k, (x, dec T rnd x)) (mview T rnd M).
  Proof. intros I. apply mview_In. auto. Qed.

  Lemma raw_mview M : NoDup (map fst M) -> raw_map (SObj (mview T rnd M)) = mview T rnd M.
  Proof. intros N. cbn [raw_map]. apply dedup_id. rewrite mview_keys. exact N. Qed.

  Lemma at_str_obj l m v : at_ (JObj m) l TStr v = None.
  Proof. destruct l; reflexivity. Qed.

  Lemma dec_ent_raw same w fs d : (forall vs, dec_raw T fs d w vs = None) -> forall vs, dec_ent T same w fs d vs = None.
  Proof.
    intros H vs. unfold dec_ent. destruct (forallb _ (d_not d)); [|reflexivity].
    destruct (if d_struct d then dec_struct w fs vs else Some vs) as [vs1|]; [|reflexivity].
    destruct (dec_embed same fs (d_embed d) vs1) as [vs2|]; [|reflexivity].
    destruct (dec_alts same fs (d_oneof d) vs2 0) as [vs3 c]. rewrite H.
    destruct (match d_oneof d with [] => true | _ => _ end); reflexivity.
  Qed.
  Lemma dec_raw_checks fs d w : raw_checks d (raw_map w) = false -> forall vs, dec_raw T fs d w vs = None.
  Proof. intros H vs. unfold dec_raw. rewrite H. reflexivity. Qed.

  Lemma rej_obj_ok s fs d M : rej_obj s fs d = true -> sdesc s M ->
    forall same vs, dec_ent T same (SObj (mview T rnd M)) fs d vs = None.
  Proof.
    intros H D same vs. unfold rej_obj in H. rewrite !orb_true_iff in H.
    assert (AB : forall k, no_class s k = true -> ~ In k (map fst M)).
    { intros k H1 I. apply key_pair in I. destruct I as [x I]. destruct (S_class _ _ D k x I) as (c & b & Ic & Kc & _).
      unfold no_class in H1. rewrite forallb_forall in H1. specialize (H1 _ Ic). cbn [fst] in H1. rewrite (in_classb_ok _ _ Kc) in H1. discriminate. }
    destruct H as [[[H|H]|H]|H].
    - apply existsb_exists in H. destruct H as (k & Ik & H). rewrite forallb_forall in H.
      destruct (in_list k (map fst M)) eqn:KM.
      + apply in_list_In, key_pair in KM. destruct KM as [x I]. destruct (S_class _ _ D k x I) as (c & b & Ic & Kc & Ob).
        specialize (H _ Ic). cbn [fst snd] in H. rewrite (in_classb_ok _ _ Kc) in H. cbn [negb orb] in H. apply andb_true_iff in H. destruct H as [-> H].
        destruct (Ob eq_refl) as [m ->]. unfold str_field in H. apply andb_true_iff in H. destruct H as [Hs H].
        destruct (find_field fs k) as [i|] eqn:F; [|discriminate]. destruct (nth_error fs i) as [f|] eqn:Ef; [|discriminate].
        unfold dec_ent. destruct (forallb _ (d_not d)); [|reflexivity]. rewrite Hs. cbn [dec_struct].
        rewrite (dec_fields_fail fs k (JObj m) (dec T rnd (JObj m))); [reflexivity|apply mview_in; exact I| |congruence].
        intros i' F' f' v Ef'. rewrite F in F'. injection F' as <-. rewrite Ef in Ef'. injection Ef' as <-. rewrite (dec_at T rnd).
        destruct (f_ty f); try discriminate. apply at_str_obj.
      + apply dec_ent_raw, dec_raw_checks. rewrite raw_mview by exact (S_nodup _ _ D). unfold raw_checks.
        apply not_true_iff_false. rewrite !andb_true_iff. intros [[[[R _] _] _] _]. rewrite forallb_forall in R.
        specialize (R k Ik). apply raw_has_In in R. apply in_list_false in KM. exact (KM R).
    - apply andb_true_iff in H. destruct H as [H1 H]. apply andb_true_iff in H1. destruct H1 as [C A]. apply existsb_exists in H. destruct H as ([k a] & I & G). cbn [fst] in G.
      apply negb_true_iff, orb_false_iff in G. destruct G as [G Mt]. apply nullb_nil in A.
      destruct (S_always _ _ D k a I) as (x & Ix & _).
      apply dec_ent_raw. intros vs'. unfold dec_raw. rewrite raw_mview by exact (S_nodup _ _ D).
      destruct (raw_checks d _ && lower_checks d vs'); [|reflexivity]. rewrite raw_rest_mview.
      destruct (dec_pats _ _ _ _ _); [|reflexivity]. rewrite A, C, raw_left_mview.
      assert (Il : In (k, x) (sel_left d M)).
      { unfold sel_left. rewrite !filter_In. cbn [fst]. rewrite G, Mt. auto. }
      destruct (sel_left d M); [destruct Il|reflexivity].
    - apply existsb_exists in H. destruct H as ([k c] & Ic & H). apply existsb_exists in H. destruct H as ([k' a] & Ia & H). cbn [fst snd] in H.
      apply andb_true_iff in H. destruct H as [E H]. apply String.eqb_eq in E. subst k'.
      destruct (S_always _ _ D k a Ia) as (x & Ix & Ad). destruct a as [|c']; [discriminate|]. cbn in Ad. subst x. cbn [clash] in H.
      apply dec_ent_raw, dec_raw_checks. rewrite raw_mview by exact (S_nodup _ _ D). unfold raw_checks.
      apply not_true_iff_false. rewrite !andb_true_iff. intros [[[[_ _] R] _] _]. rewrite forallb_forall in R. specialize (R (k, c) Ic). cbn [fst snd] in R.
      unfold raw_is in R. rewrite mview_get, (get_of_In k c' M (S_nodup _ _ D) Ix) in R.
      apply negb_true_iff in H. rewrite H, orb_false_r in R. apply negb_true_iff in R.
      assert (X : raw_has (mview T rnd M) k = true) by (apply raw_has_In; apply keys_In with c'; exact Ix). congruence.
    - apply existsb_exists in H. destruct H as ([a b] & Iab & H). cbn [fst snd] in H. apply andb_true_iff in H. destruct H as [H1 H2].
      apply dec_ent_raw, dec_raw_checks. rewrite raw_mview by exact (S_nodup _ _ D). unfold raw_checks.
      apply not_true_iff_false. rewrite !andb_true_iff. intros [[[[_ R] _] _] _]. rewrite forallb_forall in R. specialize (R _ Iab). cbn [fst snd] in R.
      destruct (raw_has (mview T rnd M) a) eqn:E1. { apply raw_has_In in E1. exact (AB a H1 E1). }
      destruct (raw_has (mview T rnd M) b) eqn:E2. { apply raw_has_In in E2. exact (AB b H2 E2). }
      discriminate.
  Qed.

  Lemma rej_ok : forall fuel s t j, rej fuel s t = true -> described s j -> rejects j t.
  Proof.
    induction fuel as [|fuel IH]; intros s t j H D l old Lv; [discriminate|].
    destruct (lvl_S T _ _ Lv) as [l' ->]. cbn [rej] in H. destruct t as [| | | | | |t|t|t|n]; try discriminate.
    - destruct s; try discriminate. destruct D as (M & -> & _). reflexivity.
    - cbn [lvl_ok] in Lv. assert (R : rejects j t) by (destruct s; try discriminate; exact (IH _ _ _ H D)).
      assert (NJ : j <> JNull).
      { destruct s; try discriminate; cbn in D.
        - destruct D as [[b ->]|[b ->]]; discriminate.
        - destruct D as (M & -> & _). discriminate. }
      unfold CodecProofs.at_. cbn [levels]. unfold dec_step at 1. specialize (R l' (match old with VPtr v => v | _ => zero T LVL t end) Lv).
      unfold CodecProofs.at_ in R. rewrite R. destruct j; try congruence; reflexivity.
    - destruct (get n T) as [[|fs parts d]|] eqn:G; try discriminate.
      cbn [lvl_ok] in Lv. rewrite G in Lv. apply andb_true_iff in Lv. destruct Lv as [Lv1 Lv2]. rewrite forallb_forall in Lv1, Lv2.
      unfold CodecProofs.at_. cbn [levels]. unfold dec_step at 1. rewrite G. destruct old; try reflexivity.
      change (levels (dec_step T rnd j (view (dec T rnd) j)) l') with (at_ j l').
      enough (X : dec_ent T (at_ j l') (view (dec T rnd) j) fs d l = None) by (rewrite X; reflexivity).
      rewrite !orb_true_iff in H. destruct H as [[H|H]|H].
      + apply existsb_exists in H. destruct H as (t & It & H). destruct t; try discriminate.
        unfold dec_ent. replace (forallb _ (d_not d)) with false; [reflexivity|]. symmetry. apply not_true_iff_false. intros F.
        rewrite forallb_forall in F. specialize (F _ It). destruct (lvl_S T _ _ (Lv2 _ It)) as [l'' ->]. discriminate F.
      + apply andb_true_iff in H. destruct H as [H1 H2]. rewrite forallb_forall in H2. unfold dec_ent.
        destruct (forallb _ (d_not d)); [|reflexivity]. destruct (if d_struct d then _ else _) as [vs1|]; [|reflexivity].
        destruct (dec_embed _ _ _ _) as [vs2|]; [|reflexivity].
        assert (Z : snd (dec_alts (at_ j l') fs (d_oneof d) vs2 0) = 0).
        { apply dec_alts_zero. intros i f v I Ef. specialize (H2 i I). rewrite Ef in H2.
          apply (IH s (f_ty f) j H2 D). specialize (Lv1 i (proj2 (in_app_iff _ _ _) (or_intror I))). rewrite Ef in Lv1. exact Lv1. }
        destruct (dec_alts _ _ _ _ _) as [vs3 c]. cbn [snd] in Z. subst c. destruct (d_oneof d); [discriminate H1|reflexivity].
      + destruct s as [|s|]; [| |discriminate].
        * unfold dec_ent. destruct (forallb _ (d_not d)); [|reflexivity]. rewrite H. cbn in D. destruct D as [[b ->]|[b ->]]; reflexivity.
        * destruct D as (M & -> & D). change (view (dec T rnd) (JObj M)) with (SObj (mview T rnd M)).
          apply orb_true_iff in H. destruct H as [H|H]; [apply (rej_obj_ok s); assumption|].
          unfold rej_addl in H. destruct (d_addl d) as [|i rest] eqn:A; [discriminate|]. destruct (nth_error fs i) as [f|] eqn:Ef; [|discriminate].
          destruct (f_ty f) as [| | | | | | | |t|] eqn:Et; try discriminate. rewrite !andb_true_iff in H. destruct H as [[H R] Lt].
          apply existsb_exists in H. destruct H as ([k a] & Ia & H). cbn [fst snd] in H. apply andb_true_iff in H. destruct H as [Hs Hg].
          apply negb_true_iff, orb_false_iff in Hg. destruct Hg as [Hg Hm].
          destruct (S_always _ _ D k a Ia) as (x & Ix & Ad).
          assert (Dx : described ShAtom x). { right. destruct a as [|c]; cbn in Ad; [exact Ad|]. subst x. destruct c; try discriminate Hs. eauto. }
          pose proof (IH ShAtom t x R Dx LVL (zero T LVL t) Lt) as F.
          apply dec_ent_raw. intros vs'. unfold dec_raw. rewrite raw_mview by exact (S_nodup _ _ D).
          destruct (raw_checks d _ && lower_checks d vs'); [|reflexivity]. rewrite raw_rest_mview.
          destruct (dec_pats _ _ _ _ _); [|reflexivity]. rewrite A, raw_left_mview.
          apply (dec_addl_fail T fs i f t k x (dec T rnd x) Ef Et).
          -- rewrite (dec_at T rnd). exact F.
          -- apply mview_in. unfold sel_left. rewrite !filter_In. cbn [fst]. rewrite Hg, Hm. auto.
  Qed.

  (* ---------- the shape of an encoding ---------- *)

  Hypothesis Hok : forall n fs parts d vs, get n T = Some (EStruct fs parts d) -> extra n vs = true ->
    ent_ok T fs d = true /\ (pure_union fs parts d = true /\ derived n = false \/ joined T derived n fs parts d = true).

  Definition str_ty (t : ty) : bool :=
    match t with
    | TStr => true
    | TNamed n => match get n T with Some (EEnum _) => true | _ => false end
    | _ => false
    end.

  (* A type that is nothing but a choice. *)
  Definition choice (n : string) (fs : list field) (parts : list part) (d : dprog) : bool :=
    pure_union fs parts d && negb (derived n).

  (* The encodings are objects. *)
  Fixpoint obj_ty (fuel : nat) (n : string) : bool :=
    match fuel with
    | O => false
    | S fuel =>
        match get n T with
        | Some (EStruct fs parts d) =>
            if choice n fs parts d
            then forallb (fun f => match f_ty f with TPtr (TNamed b) => obj_ty fuel b | _ => false end) fs
            else true
        | _ => false
        end
    end.

  Definition alw (fs : list field) (parts : list part) : list (string * aval) :=
    map (fun kc => (fst kc, AConst (snd kc))) (const_members parts) ++
    flat_map (fun f => match f_key f with
                       | Some k => if negb (f_omit f) && str_ty (f_ty f) then [(k, AStr)] else []
                       | None => []
                       end) fs.

  Definition part_obj (fs : list field) (p : part) : bool :=
    match p with
    | PField i =>
        match nth_error fs i with
        | Some f => match f_ty f with TMap (TNamed b) => obj_ty LVL b | _ => false end
        | None => false
        end
    | _ => false
    end.

  Definition shape_of (n : string) (fs : list field) (parts : list part) (d : dprog) : shape :=
    {| s_always := alw fs parts;
       s_class := flat_map (fun p => match class_of T derived n fs d p with Some c => [(c, part_obj fs p)] | None => [] end) parts |}.

  Fixpoint shapes (fuel : nat) (n : string) : list sh :=
    match fuel with
    | O => [ShTop]
    | S fuel =>
        match get n T with
        | Some (EStruct fs parts d) =>
            if choice n fs parts d
            then flat_map (fun f => match f_ty f with TPtr TBool => [ShAtom] | TPtr (TNamed b) => shapes fuel b | _ => [ShTop] end) fs
            else [ShObj (shape_of n fs parts d)]
        | _ => [ShTop]
        end
    end.

  (* An encoding of a choice is one of the alternative. *)
  Lemma union_inv n fs parts d vs i w f j : wfs n fs parts d vs -> pure_union fs parts d = true -> derived n = false ->
    In i (d_oneof d) -> nth_error vs i = Some (VPtr w) -> nth_error fs i = Some f ->
    enc T (VStruct vs) (TNamed n) = Some j ->
    enc T (VPtr w) (f_ty f) = Some j.
  Proof.
    intros W U Dn I Ei Ef E. apply union_ok in U.
    destruct (W_alt _ _ _ _ _ _ _ _ _ W Dn (U_some _ _ _ U)) as (i0 & w0 & I0 & Ei0 & Ek0).
    assert (Ek : forall k, In k (d_oneof d) -> k <> i -> nth_error vs k = Some VNil).
    { destruct (Nat.eq_dec i i0) as [->|N]; [exact Ek0|]. rewrite (Ek0 i I N) in Ei. discriminate. }
    destruct (enc_total T rnd derived extra Hok (S (vsize (VPtr w))) (VPtr w)) with (t := f_ty f) as [j' Ej']; [lia|eapply W_field; eassumption| |].
    - destruct (U_field _ _ _ U _ _ Ef) as [_ [-> |[b ->]]]; reflexivity.
    - assert (NJ : j' <> JNull).
      { destruct (U_field _ _ _ U _ _ Ef) as [_ [Et|[b Et]]]; rewrite Et in Ej'; cbn [enc] in Ej'.
        - destruct w; cbn in Ej'; try discriminate. injection Ej' as <-. discriminate.
        - eapply enc_named_notnull. exact Ej'. }
      rewrite (union_enc T n fs parts d vs i w f j' (W_get _ _ _ _ _ _ _ _ _ W) U (W_len _ _ _ _ _ _ _ _ _ W) I Ei Ek Ef Ej' NJ) in E. congruence.
  Qed.

  Lemma not_both n fs parts d vs : wfs n fs parts d vs -> choice n fs parts d = false -> joined T derived n fs parts d = true.
  Proof.
    intros W P. unfold choice in P. destruct (Hok n fs parts d vs (W_get _ _ _ _ _ _ _ _ _ W) (W_extra _ _ _ _ _ _ _ _ _ W)) as [_ [[U Dn]|J]]; [|exact J].
    rewrite U, Dn in P. discriminate.
  Qed.

  Lemma struct_of n w : wf (TNamed n) w -> forall fs parts d, get n T = Some (EStruct fs parts d) ->
    exists vs, w = VStruct vs /\ wfs n fs parts d vs.
  Proof.
    intros W fs parts d G. destruct (wf_inv T rnd derived extra n w W) as [(vals & s & G' & _)|(fs' & parts' & d' & vs & W' & ->)]; [congruence|].
    pose proof (W_get _ _ _ _ _ _ _ _ _ W') as G'. rewrite G in G'. injection G' as <- <- <-. eauto.
  Qed.

  (* The chosen alternative. *)
  Lemma union_choice n fs parts d vs : wfs n fs parts d vs -> pure_union fs parts d = true -> derived n = false ->
    exists i w f, In i (d_oneof d) /\ nth_error vs i = Some (VPtr w) /\ nth_error fs i = Some f /\ wf (f_ty f) (VPtr w).
  Proof.
    intros W U Dn. pose proof (union_ok _ _ _ U) as P. destruct (W_alt _ _ _ _ _ _ _ _ _ W Dn (U_some _ _ _ P)) as (i & w & I & Ei & _).
    destruct (nth_lt_some fs i) as [f Ef]. { rewrite (W_len _ _ _ _ _ _ _ _ _ W). eapply nth_some_lt. eassumption. }
    exists i, w, f. split; [exact I|]. split; [exact Ei|]. split; [exact Ef|]. exact (W_field _ _ _ _ _ _ _ _ _ W i f _ Ef Ei).
  Qed.

  Lemma obj_ty_ok : forall fuel n v j, obj_ty fuel n = true -> wf (TNamed n) v -> enc T v (TNamed n) = Some j -> exists m, j = JObj m.
  Proof.
    induction fuel as [|fuel IH]; intros n v j H W E; [discriminate|]. cbn [obj_ty] in H.
    destruct (get n T) as [[|fs parts d]|] eqn:G; try discriminate. destruct (struct_of n v W _ _ _ G) as (vs & -> & Wv).
    destruct (choice n fs parts d) eqn:CU.
    - pose proof CU as U. apply andb_true_iff in U. destruct U as [U Dn]. apply negb_true_iff in Dn. destruct (union_choice n fs parts d vs Wv U Dn) as (i & w & f & I & Ei & Ef & Wf).
      rewrite forallb_forall in H. specialize (H f (nth_error_In _ _ Ef)). destruct (f_ty f) as [| | | | | |[| | | | | | | | |b]| | |] eqn:Et; try discriminate.
      pose proof (union_inv n fs parts d vs i w f j Wv U Dn I Ei Ef E) as Ew. rewrite Et in Ew. cbn [enc] in Ew.
      destruct (wf_ptr_inv _ _ _ _ _ _ Wf) as [|(w' & X & Ww)]; [discriminate|]. injection X as <-. exact (IH b w j H Ww Ew).
    - pose proof (not_both n fs parts d vs Wv CU) as J. apply joined_ok in J.
      destruct (encodes T rnd derived extra Hok n fs parts d vs Wv J) as [_ E']. rewrite E' in E. injection E as <-. eauto.
  Qed.

  Lemma alw_In n fs parts d vs k a : wfs n fs parts d vs -> joinedP T derived n fs parts d -> (forall p, In p parts -> joins T fs vs p) ->
    In (k, a) (alw fs parts) -> exists x, In (k, x) (obj_of T fs parts vs) /\ adesc a x.
  Proof.
    intros W J JN I. unfold alw in I. apply in_app_iff in I. destruct I as [I|I].
    - apply in_map_iff in I. destruct I as ([k' c] & E & I). cbn in E. injection E as <- <-.
      unfold const_members in I. apply in_flat_map in I. destruct I as (p & Ip & I). destruct p as [m| |]; try (destruct I; fail).
      exists c. split; [|reflexivity]. unfold obj_of. apply in_concat_seg. exists (PConst m). split; [exact Ip|]. rewrite seg_const. exact I.
    - apply in_flat_map in I. destruct I as (f & If & I). destruct (f_key f) as [k'|] eqn:Ek; [|destruct I].
      destruct (negb (f_omit f) && str_ty (f_ty f)) eqn:B; [|destruct I]. apply andb_true_iff in B. destruct B as [B1 B2]. apply negb_true_iff in B1.
      destruct I as [E|[]]. injection E as <- <-. apply In_nth_error in If. destruct If as [i Ef].
      destruct (nth_lt_some vs i) as [v Ev]. { rewrite <- (W_len _ _ _ _ _ _ _ _ _ W). eapply nth_some_lt. eassumption. }
      assert (St : In PStruct parts).
      { destruct (J_struct _ _ _ _ _ _ J) as [Z|Z]; [|exact Z]. exfalso.
        assert (X : In k' (fkeys fs)) by (apply fkeys_In; eauto). rewrite Z in X. destruct X. }
      assert (Ej : exists s, enc T v (f_ty f) = Some (JStr s)).
      { pose proof (W_field _ _ _ _ _ _ _ _ _ W i f v Ef Ev) as Wv. destruct (f_ty f); try discriminate.
        - inversion Wv; subst. cbn. eauto.
        - cbn [str_ty] in B2. destruct (get n0 T) as [[vals|]|] eqn:G; try discriminate. inversion Wv; subst; [|congruence].
          cbn [enc]. rewrite H0. apply in_list_In in H1. rewrite H1. eauto. }
      destruct Ej as [s Ej]. exists (JStr s). split; [|cbn; eauto]. unfold obj_of. apply in_concat_seg. exists PStruct. split; [exact St|].
      apply (seg_struct_In T derived extra fs vs k' (JStr s) (JN _ St)). exists i, f, v. rewrite B1. auto.
  Qed.

  Lemma entries_In t : forall m M k x, entries T t m M -> In (k, x) M -> exists w, In (k, w) m /\ enc T w t = Some x.
  Proof.
    intros m M k x F. unfold entries in F. induction F as [|[k1 w] [k2 x'] m M [E1 E2] F IH]; intros I; [destruct I|].
    cbn [fst snd] in *. destruct I as [I|I].
    - injection I as -> ->. subst. exists w. split; [left; reflexivity|exact E2].
    - destruct (IH I) as (w' & Iw & Ew). exists w'. split; [right; exact Iw|exact Ew].
  Qed.

  Lemma shape_ok n fs parts d vs : wfs n fs parts d vs -> joined T derived n fs parts d = true ->
    sdesc (shape_of n fs parts d) (obj_of T fs parts vs).
  Proof.
    intros W Jb. pose proof Jb as J. apply joined_ok in J. destruct (encodes T rnd derived extra Hok n fs parts d vs W J) as [JN _].
    destruct (Hok n fs parts d vs (W_get _ _ _ _ _ _ _ _ _ W) (W_extra _ _ _ _ _ _ _ _ _ W)) as [OK _].
    constructor.
    - assert (DS : descr T fs d vs (obj_of T fs parts vs)).
      { eapply descr_joined; try eassumption. eapply seg_nodup; eassumption. }
      exact (D_nodup _ _ _ _ _ DS).
    - intros k a I. eapply alw_In; eassumption.
    - intros k x I. unfold obj_of in I. apply in_concat_seg in I. destruct I as (p & Ip & I).
      destruct (J_class _ _ _ _ _ _ J p Ip) as [c Ec]. exists c, (part_obj fs p). split; [|split].
      + cbn [s_class shape_of]. apply in_flat_map. exists p. split; [exact Ip|]. rewrite Ec. left. reflexivity.
      + eapply seg_class; try eassumption. apply keys_In with x. exact I.
      + intros B. destruct p as [| |i]; try discriminate B. cbn [part_obj] in B. destruct (nth_error fs i) as [f|] eqn:Ef; [|discriminate].
        destruct (f_ty f) as [| | | | | | | |[| | | | | | | | |b]|] eqn:Et; try discriminate.
        destruct (nth_lt_some vs i) as [v Ev]. { rewrite <- (W_len _ _ _ _ _ _ _ _ _ W). eapply nth_some_lt. eassumption. }
        destruct (entries_In _ _ _ _ _ (seg_map T rnd derived extra n fs parts d vs W JN i f _ v Ip Ef Ev Et) I) as (w & Iw & Ew).
        pose proof (W_field _ _ _ _ _ _ _ _ _ W i f v Ef Ev) as Wv. rewrite Et in Wv.
        destruct (wf_map_inv _ _ _ _ _ _ Wv) as [->|(m & -> & _ & Wm)]; [destruct Iw|].
        exact (obj_ty_ok LVL b w x B (Wm k w Iw) Ew).
  Qed.

  Lemma shapes_ok : forall fuel n v j, wf (TNamed n) v -> enc T v (TNamed n) = Some j -> exists s, In s (shapes fuel n) /\ described s j.
  Proof.
    induction fuel as [|fuel IH]; intros n v j W E; [exists ShTop; split; [left; reflexivity|exact I]|]. cbn [shapes].
    destruct (get n T) as [[|fs parts d]|] eqn:G; [exists ShTop; split; [left; reflexivity|exact I]| |exists ShTop; split; [left; reflexivity|exact I]].
    destruct (struct_of n v W _ _ _ G) as (vs & -> & Wv). destruct (choice n fs parts d) eqn:CU.
    - pose proof CU as U. apply andb_true_iff in U. destruct U as [U Dn]. apply negb_true_iff in Dn. destruct (union_choice n fs parts d vs Wv U Dn) as (i & w & f & Io & Ei & Ef & Wf).
      pose proof (union_inv n fs parts d vs i w f j Wv U Dn Io Ei Ef E) as Ew.
      destruct (wf_ptr_inv T rnd derived extra (match f_ty f with TPtr t => t | t => t end) (VPtr w)) as [|(w' & X & Ww)]; [|discriminate|].
      { destruct (U_field _ _ _ (union_ok _ _ _ U) _ _ Ef) as [_ [Et|[b Et]]]; rewrite Et in Wf |- *; exact Wf. }
      injection X as <-.
      destruct (U_field _ _ _ (union_ok _ _ _ U) _ _ Ef) as [_ [Et|[b Et]]]; rewrite Et in Ew, Ww; cbn [enc] in Ew.
      + exists ShAtom. split.
        * apply in_flat_map. exists f. split; [eapply nth_error_In; exact Ef|]. rewrite Et. left. reflexivity.
        * inversion Ww; subst. cbn in Ew. injection Ew as <-. left. eauto.
      + destruct (IH b w j Ww Ew) as (s & Is & Ds). exists s. split; [|exact Ds].
        apply in_flat_map. exists f. split; [eapply nth_error_In; exact Ef|]. rewrite Et. exact Is.
    - pose proof (not_both n fs parts d vs Wv CU) as Jb. pose proof Jb as J. apply joined_ok in J.
      destruct (encodes T rnd derived extra Hok n fs parts d vs Wv J) as [_ E']. rewrite E' in E. injection E as <-.
      exists (ShObj (shape_of n fs parts d)). split; [left; reflexivity|]. exists (obj_of T fs parts vs). split; [reflexivity|].
      apply (shape_ok n fs parts d vs Wv Jb).
  Qed.

  (* ---------- the check of all choices ---------- *)

  Definition alt_shapes (t : ty) : list sh :=
    match t with TPtr TBool => [ShAtom] | TPtr (TNamed b) => shapes LVL b | _ => [ShTop] end.

  (* The alternative of a type that has other members as well. *)
  Definition mixed_shape (t : ty) : sh :=
    match alt_ent T t with
    | Some (bfs, bparts, _) => ShObj {| s_always := alw bfs bparts; s_class := [(KRest [], false)] |}
    | None => ShTop
    end.

  Definition from_shapes (fs : list field) (parts : list part) (d : dprog) (t : ty) : list sh :=
    if pure_union fs parts d then alt_shapes t else [mixed_shape t].

  Variable exc : string -> nat -> nat -> bool.

  Definition dis_check (ne : string * ent) : bool :=
    match snd ne with
    | EStruct fs parts d =>
        derived (fst ne) ||
        forallb (fun i => forallb (fun i' => (i =? i')%nat || exc (fst ne) i i' ||
          match nth_error fs i, nth_error fs i' with
          | Some f, Some f' => forallb (fun s => rej LVL s (f_ty f')) (from_shapes fs parts d (f_ty f))
          | _, _ => false
          end) (d_oneof d)) (d_oneof d)
    | EEnum _ => true
    end.

  Lemma dis_ok : forallb dis_check T = true ->
    forall n fs parts d vs j i w i' f', wfs n fs parts d vs -> derived n = false ->
      enc T (VStruct vs) (TNamed n) = Some j ->
      In i (d_oneof d) -> nth_error vs i = Some (VPtr w) ->
      In i' (d_oneof d) -> i' <> i -> nth_error fs i' = Some f' -> exc n i i' = false -> rejects j (f_ty f').
  Proof.
    intros C n fs parts d vs j i w i' f' W Dn E I Ei I' N Ef' Ex.
    rewrite forallb_forall in C. specialize (C _ (get_In _ _ _ (W_get _ _ _ _ _ _ _ _ _ W))). unfold dis_check in C. cbn [fst snd] in C.
    rewrite Dn in C. cbn [orb] in C. rewrite forallb_forall in C. specialize (C i I). rewrite forallb_forall in C. specialize (C i' I').
    rewrite Ex in C. replace (i =? i')%nat with false in C by (symmetry; apply Nat.eqb_neq; congruence). cbn [orb] in C.
    destruct (nth_error fs i) as [f|] eqn:Ef; [|discriminate]. rewrite Ef' in C. rewrite forallb_forall in C.
    unfold from_shapes in C. pose proof (W_field _ _ _ _ _ _ _ _ _ W i f _ Ef Ei) as Wf.
    destruct (pure_union fs parts d) eqn:U.
    - pose proof (union_inv n fs parts d vs i w f j W U Dn I Ei Ef E) as Ew.
      destruct (U_field _ _ _ (union_ok _ _ _ U) _ _ Ef) as [_ [Et|[b Et]]]; rewrite Et in Ew, Wf, C; cbn [enc alt_shapes] in *;
        (destruct (wf_ptr_inv _ _ _ _ _ _ Wf) as [|(w' & X & Ww)]; [discriminate|]); injection X as <-.
      + apply (rej_ok LVL ShAtom); [apply C; left; reflexivity|]. inversion Ww; subst. cbn in Ew. injection Ew as <-. left. eauto.
      + destruct (shapes_ok LVL b w j Ww Ew) as (s & Is & Ds). apply (rej_ok LVL s); [apply C; exact Is|exact Ds].
    - pose proof (not_both n fs parts d vs W ltac:(unfold choice; rewrite U; reflexivity)) as Jb. pose proof Jb as J. apply joined_ok in J.
      destruct (encodes T rnd derived extra Hok n fs parts d vs W J) as [JN E']. rewrite E' in E. injection E as <-.
      apply (rej_ok LVL (mixed_shape (f_ty f))); [apply C; left; reflexivity|].
      destruct (J_alts _ _ _ _ _ _ J Dn i I) as (f0 & bfs & bparts & bd & Ip & Ef0 & Ea & Sp & _).
      rewrite Ef in Ef0. injection Ef0 as <-. unfold mixed_shape. rewrite Ea.
      destruct (alt_ent_inv T _ _ Ea) as (b & Et & Gb). cbn [fst snd] in Gb. rewrite Et in Wf.
      destruct (wf_ptr_inv _ _ _ _ _ _ Wf) as [|(w' & X & Ww)]; [discriminate|]. injection X as <-.
      destruct (seg_alt T rnd derived extra fs vs i f w b bfs bparts bd Ef Ei Et Gb Sp Ww (JN _ Ip)) as (ws & -> & Wb & Jnb & Es & _).
      destruct (Hok _ _ _ _ ws Gb (W_extra _ _ _ _ _ _ _ _ _ Wb)) as [OKb [[Ub _]|Jjb]].
      { apply union_ok in Ub. rewrite (union_not_simple _ _ _ Ub) in Sp. discriminate. }
      apply joined_ok in Jjb. pose proof (shape_ok n fs parts d vs W Jb) as Sd.
      exists (obj_of T fs parts vs). split; [reflexivity|]. constructor.
      + exact (S_nodup _ _ Sd).
      + cbn [s_always]. intros k a Ia. destruct (alw_In b bfs bparts bd ws k a Wb Jjb Jnb Ia) as (x & Ix & Ax). exists x. split; [|exact Ax].
        unfold obj_of. apply in_concat_seg. exists (PField i). split; [exact Ip|]. rewrite Es. exact Ix.
      + intros k x Ix. exists (KRest []), false. split; [left; reflexivity|]. split; [intros p []|discriminate].
  Qed.
End Dis.
