(* Writing again what was read from a written document, at every depth. *)
From Coq Require Import Lia.
From Verif Require Import Str SMap Json CodecModel CodecTables CodecSpec CodecProofs CodecEnc CodecRound CodecDis CodecRT CodecObjSpec CodecStrict CodecMembers CodecConstr CodecWrite CodecParams AgainSpec AgainProofs AgainTail.

Section Main.
  Variable rnd : Q -> Q.
  Notation um := (unmarshal T30 rnd).
  Notation wf := (CodecSpec.wf T30 rnd derived30 extra30).
  Notation wfs := (CodecEnc.wfs T30 rnd derived30 extra30).
  Notation strip := (CodecSpec.strip T30 derived30).
  Notation enc := (CodecModel.enc T30).
  Notation pairs := (AgainProofs.pairs rnd).

  Definition P (v : val) : Prop := forall t j v', wf t v -> ty_good T30 t = true -> enc v t = Some j -> um t j = Some v' -> strip v' t = v ->
    exists j', enc v' t = Some j' /\ again rnd j j'.

  (* ---------- lists and maps ---------- *)

  Lemma list_again t : ty_good T30 t = true -> forall l' js, (forall w, In w (map (fun x => strip x t) l') -> wf t w /\ P w) ->
    seq_opt (map (fun v => enc v t) (map (fun x => strip x t) l')) = Some js -> Forall2 (fun x w => um t x = Some w) js l' ->
    exists js', seq_opt (map (fun v => enc v t) l') = Some js' /\ Forall2 (again rnd) js js'.
  Proof.
    intros TG. induction l' as [|w l' IH]; intros js H E F; cbn [map seq_opt] in E |- *.
    - injection E as <-. exists []. split; [reflexivity|constructor].
    - destruct (enc (strip w t) t) as [j|] eqn:Ej; [|discriminate]. destruct (seq_opt _) as [js0|] eqn:Es; [|discriminate]. injection E as <-.
      inversion F as [|? ? ? ? U F']; subst. destruct (H _ (or_introl eq_refl)) as [W Pw].
      destruct (Pw t j w W TG Ej U eq_refl) as (j' & Ej' & Aj).
      destruct (IH js0 (fun x I => H x (or_intror I)) eq_refl F') as (js' & -> & Ajs). rewrite Ej'. exists (j' :: js'). split; [reflexivity|]. constructor; assumption.
  Qed.

  Lemma entries_enc t m ms : entries T30 t m ms -> enc (VMap m) (TMap t) = Some (JObj ms).
  Proof.
    intros E. cbn [CodecModel.enc].
    assert (X : seq_opt (map (fun kv => match enc (snd kv) t with Some j => Some (fst kv, j) | None => None end) m) = Some ms).
    { induction E as [|[k v] [k' j] m ms [X Y] E IH]; [reflexivity|]. cbn [map seq_opt fst snd] in *. subst k'. rewrite Y, IH. reflexivity. }
    rewrite X. reflexivity.
  Qed.

  Lemma entries_same t m ms : entries T30 t m ms -> forall ms', entries T30 t m ms' -> ms = ms'.
  Proof.
    induction 1 as [|[k v] [k1 j1] m ms [X Y] E IH]; intros ms' E'; inversion E' as [|? [k2 j2] ? ms2 [X2 Y2] E2]; subst; [reflexivity|].
    cbn [fst snd] in *. f_equal; [congruence|]. apply IH. exact E2.
  Qed.

  Lemma entries_again t : ty_good T30 t = true -> forall m' ms, (forall k w, In (k, w) (map (fun x => (fst x, strip (snd x) t)) m') -> wf t w /\ P w) ->
    entries T30 t (map (fun x => (fst x, strip (snd x) t)) m') ms -> (forall k w j, In (k, w) m' -> In (k, j) ms -> um t j = Some w) ->
    exists ms', entries T30 t m' ms' /\ pairs ms ms'.
  Proof.
    intros TG. induction m' as [|[k w] m' IH]; intros ms H E U; cbn [map fst snd] in E; inversion E as [|? [k1 j] ? ms0 [X Y] E0]; subst.
    - exists []. split; constructor.
    - cbn [fst snd] in X, Y. subst k1. destruct (H k _ (or_introl eq_refl)) as [W Pw].
      destruct (Pw t j w W TG Y (U k w j (or_introl eq_refl) (or_introl eq_refl)) eq_refl) as (j' & Ej & Aj).
      destruct (IH ms0) as (ms' & Es & As).
      + intros k' w' I. apply (H k'). right. exact I.
      + exact E0.
      + intros k' w' j0 I I'. apply (U k'); right; assumption.
      + exists ((k, j') :: ms'). split; (constructor; [split; [reflexivity|assumption]|assumption]).
  Qed.

  Lemma map_again t mp m' ms : ty_good T30 t = true -> (forall k w, In (k, w) mp -> P w) -> wf (TMap t) (VMap mp) ->
    map (fun x => (fst x, strip (snd x) t)) m' = mp -> entries T30 t mp ms ->
    (forall k j, In (k, j) ms -> exists w, get k m' = Some w /\ um t j = Some w) ->
    exists ms', entries T30 t m' ms' /\ pairs ms ms'.
  Proof.
    intros TG Hp W <- E U. inversion W as [| | | | | | | | | | |? ? N Wm| |]; subst. apply (entries_again t TG m' ms).
    - intros k w I. split; [exact (Wm k w I)|exact (Hp k w I)].
    - exact E.
    - intros k w j I Ij. destruct (U k j Ij) as (w' & G & Uw). rewrite map_map in N. cbn [fst] in N.
      rewrite (In_get _ _ _ N I) in G. injection G as <-. exact Uw.
  Qed.

  (* ---------- structs ---------- *)

  Lemma fields_again : forall fs vs vs' m, length vs = length vs' -> enc_fields fs (encs T30 vs) = Some m ->
    (forall i f k v v', nth_error fs i = Some f -> f_key f = Some k -> nth_error vs i = Some v -> nth_error vs' i = Some v' ->
       is_empty v' = is_empty v /\
       (f_omit f && is_empty v = false -> forall j, enc v (f_ty f) = Some j -> exists j', enc v' (f_ty f) = Some j' /\ again rnd j j')) ->
    exists m', enc_fields fs (encs T30 vs') = Some m' /\ pairs m m'.
  Proof.
    induction fs as [|f fs IH]; intros vs vs' m L E H; destruct vs as [|v vs]; destruct vs' as [|v' vs']; try discriminate L; cbn [encs map enc_fields] in E |- *; try discriminate E.
    - injection E as <-. exists []. split; [reflexivity|constructor].
    - injection L as L. fold (encs T30 vs) in E. fold (encs T30 vs').
      assert (IH' : forall m, enc_fields fs (encs T30 vs) = Some m -> exists m', enc_fields fs (encs T30 vs') = Some m' /\ pairs m m').
      { intros m0 E0. apply (IH vs vs' m0 L E0). intros i. exact (H (Datatypes.S i)). }
      destruct (f_key f) as [k|] eqn:Ek; [|exact (IH' m E)].
      destruct (H 0 f k v v' eq_refl Ek eq_refl eq_refl) as [He Hj]. rewrite He. destruct (f_omit f && is_empty v) eqn:O; [exact (IH' m E)|].
      destruct (enc v (f_ty f)) as [j|] eqn:Ej; [|discriminate]. destruct (enc_fields fs (encs T30 vs)) as [m0|] eqn:E0; [|discriminate]. injection E as <-.
      destruct (Hj eq_refl j eq_refl) as (j' & -> & Aj). destruct (IH' m0 eq_refl) as (m' & -> & Am). exists ((k, j') :: m'). split; [reflexivity|].
      constructor; [split; [reflexivity|exact Aj]|exact Am].
  Qed.

  Definition special (d : dprog) (p : part) : bool := match p with PField i => special_pos d i | _ => false end.

  Lemma regular n fs parts d vs vs' : wfs n fs parts d vs -> joined T30 derived30 n fs parts d = true -> ty_good T30 (TNamed n) = true ->
    (forall i v, nth_error vs i = Some v -> forall w, vsize w <= vsize v -> P w) ->
    um (TNamed n) (JObj (obj_of T30 fs parts vs)) = Some (VStruct vs') -> strip (VStruct vs') (TNamed n) = VStruct vs ->
    forall p, In p parts -> special d p = false -> joins T30 fs vs' p /\ pairs (seg T30 fs vs p) (seg T30 fs vs' p).
  Proof.
    intros W Jb TG HP U St p Ip Sp.
    pose proof (obj_descr T30 rnd derived30 extra30 _ _ _ _ _ ok30 W Jb) as DS. pose proof Jb as J. apply joined_ok in J.
    destruct (encodes T30 rnd derived30 extra30 ok30 n fs parts d vs W J) as [JN _].
    pose proof (W_get _ _ _ _ _ _ _ _ _ W) as G. pose proof (W_len _ _ _ _ _ _ _ _ _ W) as L. pose proof (W_field _ _ _ _ _ _ _ _ _ W) as Wf.
    destruct (ok30 n fs parts d vs G (W_extra _ _ _ _ _ _ _ _ _ W)) as [OK _].
    destruct (strip_struct T30 derived30 _ n fs parts d vs G St) as (vs1 & X & L' & Sv). injection X as <-.
    set (M := obj_of T30 fs parts vs) in *. pose proof (D_nodup _ _ _ _ _ DS) as N.
    destruct (named_inv T30 rnd n fs parts d M _ G TG U) as (vs0 & vs1 & X & L0 & Z0 & same & D). injection X as <-.
    pose proof OK as OK'. unfold ent_ok in OK'. rewrite !andb_true_iff in OK'. destruct OK' as [[[[[[K1 K2] K3] K4] K5] K6] K7].
    apply nodupb_NoDup in K3. rewrite forallb_forall in K4, K6. apply Nat.leb_le in K2.
    pose proof (accept_inv T30 rnd same fs d M vs0 vs' D L0 N (NoDup_app_l _ _ K3)) as A.
    destruct p as [m| |i].
    - split; [exists (JObj m); split; [reflexivity|right; eauto]|]. rewrite !seg_const. apply pairs_refl.
    - destruct (JN _ Ip) as (j & Ej & _). cbn [enc_part] in Ej. destruct (enc_fields fs (encs T30 vs)) as [m|] eqn:Em; [|discriminate]. injection Ej as <-.
      edestruct (fields_again fs vs vs' m L' Em) as (m' & Em' & Am).
      { intros i f k v v' Ef Ek Ev Ev'. pose proof (Sv i f v' Ef Ev') as X.
        pose proof (fields_check_nth _ _ _ _ _ K1 i f Ef) as FC. cbn [Nat.add] in FC. unfold field_check in FC. rewrite Ek in FC. rewrite !andb_true_iff in FC.
        destruct FC as [TGf [[[[FC1 FC2] FC3] FC4] FC5]]. apply negb_true_iff in FC3. rewrite FC3, andb_false_r in X. rewrite Ev in X. injection X as X.
        split. { rewrite X. symmetry. apply strip_empty. }
        intros O j Ej. destruct (D_field _ _ _ _ _ DS i f k v Ef Ek Ev O) as (j1 & Ej1 & Ij). assert (j1 = j) by congruence. subst j1.
        assert (Ff : find_field fs k = Some i). { destruct (find_field fs k) as [i'|]; [|discriminate]. apply Nat.eqb_eq in FC1. congruence. }
        destruct (nth_lt_some vs0 i) as [v0 Ev0]. { rewrite <- L0. eapply nth_some_lt. exact Ef. }
        assert (GT : got T30 rnd fs d vs' i k j v0).
        { apply (A_field _ _ _ _ _ _ _ A FC2 k j i v0 Ij Ff Ev0).
          - intros k' Ik' Fk'. pose proof (D_exact _ _ _ _ _ DS k' i f Ik' Fk' Ef). congruence.
          - exact FC3.
          - intros Y. specialize (K4 i Y). unfold map_pos in K4. rewrite Ef, Ek in K4. rewrite andb_false_r in K4. discriminate K4.
          - intros k' If. specialize (K6 _ If). cbn [fst snd] in K6. rewrite Ef, Ek in K6. apply andb_true_iff in K6. destruct K6 as [_ P2].
            apply String.eqb_eq in P2. congruence. }
        destruct GT as (f' & w & Ef' & Ed & Ew). rewrite Ef in Ef'. injection Ef' as <-.
        rewrite (zero_at_LVL T30 (f_ty f) v0 TGf (Z0 i f v0 Ef Ev0)) in Ed. fold (um (f_ty f) j) in Ed.
        destruct Ew as [Ew|(-> & If & Ew)].
        - assert (w = v') by congruence. subst w. exact (HP i v Ev v (le_n _) (f_ty f) j v' (Wf i f v Ef Ev) TGf Ej Ed (eq_sym X)).
        - assert (v' = VPtr (VAny JNull)) by congruence. subst v'. exists j. split; [|constructor]. rewrite <- Ej, X.
          specialize (K6 _ If). cbn [fst] in K6. rewrite Ef in K6. apply andb_true_iff in K6. destruct K6 as [P1 _].
          destruct (f_ty f) as [| | | | | |[]| | |]; try discriminate P1. reflexivity. }
      split; [exists (JObj m'); cbn [enc_part]; rewrite Em'; split; [reflexivity|right; eauto]|].
      unfold seg. cbn [enc_part]. rewrite Em, Em'. exact Am.
    - cbn [special] in Sp. destruct (field_of_part T30 rnd derived30 extra30 n fs parts d vs W J i Ip) as (f & v & Ef & Ev).
      destruct (nth_lt_some vs' i) as [v' Ev']. { rewrite <- L'. eapply nth_some_lt. exact Ev. }
      pose proof (Sv i f v' Ef Ev') as X. rewrite Sp, andb_false_r, Ev in X. injection X as X.
      destruct (J_class _ _ _ _ _ _ J _ Ip) as [c Ec]. cbn [class_of] in Ec. rewrite Ef, Sp in Ec.
      destruct (f_ty f) as [| | | | | | | |t|] eqn:Et; try discriminate Ec. destruct (encodable t); [|discriminate].
      assert (Ci : (exists p, In (p, i) (d_pats d)) \/ In i (d_addl d)).
      { destruct (find _ (d_pats d)) as [[p i']|] eqn:Fd.
        - apply find_some in Fd. destruct Fd as [I E]. cbn [snd] in E. apply Nat.eqb_eq in E. subst i'. eauto.
        - right. destruct (existsb (Nat.eqb i) (d_addl d)) eqn:Ex; [|discriminate]. apply existsb_exists in Ex. destruct Ex as (y & I & E). apply Nat.eqb_eq in E. congruence. }
      assert (Ii : In i (map snd (d_pats d) ++ d_addl d)).
      { apply in_or_app. destruct Ci as [[p I]|I]; [left; change i with (snd (p, i)); apply in_map; exact I|right; exact I]. }
      destruct (map_good T30 fs d i OK Ii f t Ef Et) as [_ TGt].
      pose proof (seg_map T30 rnd derived30 extra30 n fs parts d vs W JN i f t v Ip Ef Ev Et) as Es.
      pose proof (Wf i f v Ef Ev) as Wv. rewrite Et in Wv. unfold joins. rewrite (part_field T30 fs vs' i f v' Ef Ev'), Et.
      destruct (wf_map_inv _ _ _ _ _ _ Wv) as [->|(mp & -> & _)].
      + symmetry in X. apply strip_leaf in X; [|reflexivity]. subst v'. split; [exists JNull; auto|].
        unfold seg. rewrite (part_field T30 fs vs i f VNil Ef Ev), (part_field T30 fs vs' i f VNil Ef Ev'). apply pairs_refl.
      + symmetry in X. apply strip_map in X. destruct X as (m' & -> & X). cbn [mapof] in Es. set (ms := seg T30 fs vs (PField i)) in *.
        assert (Get : forall k j, In (k, j) ms -> exists w, get k m' = Some w /\ um t j = Some w).
        { intros k j I.
          assert (Sel : exists f0 t0 w, nth_error fs i = Some f0 /\ f_ty f0 = TMap t0 /\ um t0 j = Some w /\ entry vs' i k w).
          { destruct Ci as [[p Ipi]|Ia].
            - rewrite (entries_same _ _ _ Es _ (D_pats _ _ _ _ _ DS p i f t (VMap mp) Ipi Ef Et Ev)) in I. unfold sel_pat in I.
              apply filter_In in I. destruct I as [I Mk]. apply filter_In in I. destruct I as [I Ng]. cbn [fst] in Mk, Ng. apply negb_true_iff in Ng.
              unfold gone in Ng. apply orb_false_iff in Ng. destruct Ng as [N1 N2].
              apply (A_pat _ _ _ _ _ _ _ A k j p i I Ipi Mk).
              + intros Y. apply in_list_In in Y. congruence.
              + intros Y. apply in_list_In in Y. congruence.
              + intros Y. assert (Ip' : In i (map snd (d_pats d))) by (change i with (snd (p, i)); apply in_map; exact Ipi).
                clear -K3 Ip' Y. induction (map snd (d_pats d)) as [|x l IH]; [destruct Ip'|]. cbn [app] in K3. inversion K3; subst.
                destruct Ip' as [->|Ip']; [|auto]. apply H1. apply in_or_app. right. exact Y.
            - rewrite (entries_same _ _ _ Es _ (D_addl _ _ _ _ _ DS i f t (VMap mp) Ia Ef Et Ev)) in I. unfold sel_left in I.
              apply filter_In in I. destruct I as [I Mk]. apply filter_In in I. destruct I as [I Ng]. cbn [fst] in Mk, Ng. apply negb_true_iff in Ng, Mk.
              unfold gone in Ng. apply orb_false_iff in Ng. destruct Ng as [N1 N2].
              apply (A_addl _ _ _ _ _ _ _ A k j i I).
              + destruct (d_addl d) as [|x [|? ?]]; [destruct Ia|destruct Ia as [->|[]]; reflexivity|cbn [length] in K2; lia].
              + exact Mk.
              + intros Y. apply in_list_In in Y. congruence.
              + intros Y. apply in_list_In in Y. congruence. }
          destruct Sel as (f0 & t0 & w & Ef0 & Et0 & Uw & (m0 & Em0 & Gw)). rewrite Ef in Ef0. injection Ef0 as <-. rewrite Et in Et0. injection Et0 as <-.
          rewrite Ev' in Em0. injection Em0 as <-. eauto. }
        destruct (map_again t mp m' ms TGt) as (ms' & Es' & As).
        { intros k w I. apply (HP i (VMap mp) Ev). pose proof (vsize_map k w mp I). lia. }
        { exact Wv. }
        { exact X. }
        { exact Es. }
        { exact Get. }
        pose proof (entries_enc _ _ _ Es') as Ee. split; [exists (JObj ms'); split; [exact Ee|right; eauto]|].
        replace (seg T30 fs vs' (PField i)) with ms'; [exact As|]. unfold seg. rewrite (part_field T30 fs vs' i f _ Ef Ev'), Et, Ee. reflexivity.
  Qed.

  Definition no_special (ne : string * ent) : bool :=
    match snd ne with
    | EStruct fs parts d => negb (joined T30 derived30 (fst ne) fs parts d) || (pure_union fs parts d || derived30 (fst ne)) || match d_embed d ++ d_oneof d with [] => true | _ => false end
    | EEnum _ => true
    end.
  Lemma special_free n fs parts d : get n T30 = Some (EStruct fs parts d) -> joined T30 derived30 n fs parts d = true -> pure_union fs parts d = false ->
    (forall p, special d p = false) \/ n = "Parameter" \/ n = "HTTPSecurityScheme".
  Proof.
    intros G J Np. assert (C : forallb no_special T30 = true) by (vm_compute; reflexivity). rewrite forallb_forall in C.
    specialize (C _ (get_In _ _ _ G)). unfold no_special in C. cbn [fst snd] in C. rewrite J, Np in C. cbn [negb orb] in C.
    destruct (derived30 n) eqn:Dn.
    - right. unfold derived30 in Dn. apply in_list_In in Dn. destruct Dn as [<-|[<-|[]]]; auto.
    - left. cbn [orb] in C. destruct (d_embed d ++ d_oneof d) as [|x l] eqn:E; [|discriminate]. intros [| |i]; try reflexivity. cbn [special]. unfold special_pos. rewrite E. reflexivity.
  Qed.

  (* ---------- types without derived types ---------- *)

  Fixpoint names (t : ty) : list string :=
    match t with TPtr t | TArr t | TMap t => names t | TNamed n => [n] | _ => [] end.
  Definition inner (n : string) : list string :=
    match get n T30 with Some (EStruct fs _ _) => flat_map (fun f => names (f_ty f)) fs | _ => [] end.
  Fixpoint closure (k : nat) (l : list string) : list string :=
    match k with 0 => l | Datatypes.S k => closure k (nodup string_dec (l ++ flat_map inner l)) end.
  Definition regular_names (n : string) : list string :=
    match get n T30 with
    | Some (EStruct fs _ d) => flat_map (fun i => match nth_error fs i with Some f => if special_pos d i then [] else names (f_ty f) | None => [] end) (seq 0 (length fs))
    | _ => []
    end.
  Definition free : list string := Eval vm_compute in closure 12 (nodup string_dec (regular_names "Parameter" ++ regular_names "HTTPSecurityScheme")).

  Lemma free_closed n : In n free -> derived30 n = false /\ incl (inner n) free.
  Proof.
    intros I. assert (C : forallb (fun n => negb (derived30 n) && forallb (fun x => in_list x free) (inner n)) free = true) by (vm_compute; reflexivity).
    rewrite forallb_forall in C. specialize (C n I). apply andb_true_iff in C. destruct C as [C1 C2]. split; [apply negb_true_iff; exact C1|].
    intros x Ix. rewrite forallb_forall in C2. exact (proj1 (in_list_In x free) (C2 x Ix)).
  Qed.

  Lemma free_underived : forall m v t, vsize v < m -> incl (names t) free -> underived T30 derived30 v t = true.
  Proof.
    induction m as [|m IH]; intros v t S I; [lia|]. destruct v; cbn [underived]; try reflexivity.
    - destruct t; try reflexivity. apply IH; [pose proof (vsize_ptr v); lia|exact I].
    - destruct t; try reflexivity. apply forallb_forall. intros w Iw. apply IH; [pose proof (vsize_arr w l Iw); lia|exact I].
    - destruct t; try reflexivity. apply forallb_forall. intros [k w] Iw. apply IH; [pose proof (vsize_map k w m0 Iw); cbn [snd]; lia|exact I].
    - destruct t; try reflexivity. destruct (free_closed n) as [Dn In']; [apply I; left; reflexivity|]. rewrite Dn. cbn [negb andb].
      unfold inner in In'. destruct (get n T30) as [[|fs parts d]|]; try reflexivity. clear I Dn.
      assert (H : forall w, In w l -> forall t, incl (names t) free -> underived T30 derived30 w t = true).
      { intros w Iw t It. apply IH; [|exact It]. apply In_nth_error in Iw. destruct Iw as [i Iw]. pose proof (vsize_struct i w l Iw). lia. }
      clear S IH. revert l H. induction fs as [|f fs IHf]; intros [|w l] H; cbn [map free_fields]; try reflexivity. apply andb_true_iff. split.
      + apply H; [left; reflexivity|]. intros x Ix. apply In'. cbn [flat_map]. apply in_or_app. left. exact Ix.
      + apply IHf; [intros x Ix; apply In'; cbn [flat_map]; apply in_or_app; right; exact Ix|]. intros w' Iw. apply H. right. exact Iw.
  Qed.

  (* The fields of the two derived types are read as they were. *)
  Lemma derived_same n fs parts d vs vs' : derived30 n = true -> get n T30 = Some (EStruct fs parts d) -> length fs = length vs ->
    strip (VStruct vs') (TNamed n) = VStruct vs ->
    length vs = length vs' /\ forall i, special_pos d i = false -> nth_error vs' i = nth_error vs i.
  Proof.
    intros Dn G L St. destruct (strip_struct T30 derived30 _ n fs parts d vs G St) as (vs1 & X & L' & Sv). injection X as <-. split; [exact L'|].
    intros i Si. destruct (nth_error vs' i) as [w|] eqn:Ew.
    - destruct (nth_lt_some fs i) as [f Ef]. { rewrite L, L'. eapply nth_some_lt. exact Ew. }
      pose proof (Sv i f w Ef Ew) as X. rewrite Si, andb_false_r in X. rewrite X. f_equal. symmetry.
      apply (strip_underived T30 derived30 (Datatypes.S (vsize w)) w (f_ty f) (le_n _)). apply (free_underived _ _ _ (le_n _)).
      assert (Iw : incl (regular_names n) free).
      { unfold derived30 in Dn. apply in_list_In in Dn. assert (C : forallb (fun x => in_list x free) (regular_names n) = true) by (destruct Dn as [<-|[<-|[]]]; vm_compute; reflexivity).
        intros x Ix. rewrite forallb_forall in C. exact (proj1 (in_list_In x free) (C x Ix)). }
      intros x Ix. apply Iw. unfold regular_names. rewrite G. apply in_flat_map. exists i. split; [apply in_seq; split; [lia|apply nth_some_lt in Ef; cbn [Nat.add]; exact Ef]|].
      rewrite Ef, Si. exact Ix.
    - symmetry. apply nth_error_None. rewrite L'. apply nth_error_None. exact Ew.
  Qed.

  Lemma encs_field n fs parts d vs vs' : derived30 n = true -> get n T30 = Some (EStruct fs parts d) -> length fs = length vs -> ent_ok T30 fs d = true ->
    strip (VStruct vs') (TNamed n) = VStruct vs -> forall p, special d p = false -> enc_part fs (encs T30 vs') p = enc_part fs (encs T30 vs) p.
  Proof.
    intros Dn G L OK St. destruct (derived_same n fs parts d vs vs' Dn G L St) as [L' H]. intros [m| |i] Sp; [reflexivity| |].
    - cbn [enc_part].
      assert (X : forall gs us us', length us = length us' -> (forall i g k, nth_error gs i = Some g -> f_key g = Some k -> nth_error us' i = nth_error us i) ->
        enc_fields gs (encs T30 us') = enc_fields gs (encs T30 us)).
      { clear. induction gs as [|g gs IH]; intros [|u us] [|u' us'] L H; try discriminate L; try reflexivity. injection L as L. cbn [encs map enc_fields].
        fold (encs T30 us). fold (encs T30 us'). rewrite (IH us us' L (fun i => H (Datatypes.S i))). destruct (f_key g) as [k|] eqn:Ek; [|reflexivity].
        pose proof (H 0 g k eq_refl Ek) as X. cbn [nth_error] in X. injection X as ->. reflexivity. }
      rewrite (X fs vs vs' L'); [reflexivity|]. intros i f k Ef Ek. apply H.
      unfold ent_ok in OK. rewrite !andb_true_iff in OK. destruct OK as [[[[[[K1 _] _] _] _] _] _].
      pose proof (fields_check_nth _ _ _ _ _ K1 i f Ef) as FC. cbn [Nat.add] in FC. unfold field_check in FC. rewrite Ek in FC. rewrite !andb_true_iff in FC.
      destruct FC as [_ [[[[_ _] FC3] _] _]]. apply negb_true_iff. exact FC3.
    - cbn [special] in Sp. cbn [enc_part]. unfold encs. rewrite !nth_error_map, (H i Sp). reflexivity.
  Qed.

  Lemma segs_again fs vs vs' : forall parts, (forall p, In p parts -> joins T30 fs vs' p /\ pairs (seg T30 fs vs p) (seg T30 fs vs' p)) ->
    pairs (concat (map (seg T30 fs vs) parts)) (concat (map (seg T30 fs vs') parts)).
  Proof.
    induction parts as [|p parts IH]; intros H; cbn [map concat]; [constructor|]. apply pairs_app; [apply H; left; reflexivity|]. apply IH. intros q I. apply H. right. exact I.
  Qed.

  Lemma parameter_node vs vs' fs parts d : wfs "Parameter" fs parts d vs -> joined T30 derived30 "Parameter" fs parts d = true ->
    um (TNamed "Parameter") (JObj (obj_of T30 fs parts vs)) = Some (VStruct vs') -> strip (VStruct vs') (TNamed "Parameter") = VStruct vs ->
    exists e, enc (VStruct vs') (TNamed "Parameter") = Some (JObj (obj_of T30 fs parts vs ++ e)) /\ parameter_again rnd (obj_of T30 fs parts vs) e.
  Proof.
    intros W Jb U St. pose proof Jb as J. apply joined_ok in J. destruct (encodes T30 rnd derived30 extra30 ok30 _ fs parts d vs W J) as [JN _].
    pose proof (W_get _ _ _ _ _ _ _ _ _ W) as G. pose proof (W_len _ _ _ _ _ _ _ _ _ W) as L. destruct (ok30 _ fs parts d vs G (W_extra _ _ _ _ _ _ _ _ _ W)) as [OK _].
    pose proof (encs_field "Parameter" fs parts d vs vs' eq_refl G L OK St) as F.
    destruct (parameter_end rnd fs parts d vs _ vs' W eq_refl U) as (Ep & S13 & S14 & e13 & e14 & E13 & E14 & Tl). exists (e13 ++ e14). split; [|exact Tl].
    assert (Ed : special_pos d 15 = false) by (vm_compute in G; injection G as <- <- <-; reflexivity). subst parts.
    assert (Sg : forall p, special d p = false -> seg T30 fs vs' p = seg T30 fs vs p) by (intros p Sp; unfold seg; rewrite (F p Sp); reflexivity).
    erewrite enc_joins; [|exact derived30|exact extra30|exact G|].
    - unfold obj_of. cbn [map concat]. rewrite S13, S14, (Sg PStruct eq_refl), (Sg (PField 15) Ed). cbn [app]. rewrite !app_nil_r.
      replace (seg T30 fs vs' (PField 13)) with e13 by (unfold seg; rewrite E13; reflexivity).
      replace (seg T30 fs vs' (PField 14)) with e14 by (unfold seg; rewrite E14; reflexivity). rewrite <- app_assoc. reflexivity.
    - assert (Jr : forall p, In p [PStruct; PField 15; PField 13; PField 14] -> special d p = false -> joins T30 fs vs' p).
      { intros p Ip Sp. unfold joins. rewrite (F p Sp). exact (JN p Ip). }
      intros p [<-|[<-|[<-|[<-|[]]]]]; [apply Jr; [cbn; auto|reflexivity]|apply Jr; [cbn; auto|exact Ed]|eexists; split; [exact E13|eauto]|eexists; split; [exact E14|eauto]].
  Qed.

  Lemma http_node vs vs' fs parts d : wfs "HTTPSecurityScheme" fs parts d vs -> joined T30 derived30 "HTTPSecurityScheme" fs parts d = true ->
    um (TNamed "HTTPSecurityScheme") (JObj (obj_of T30 fs parts vs)) = Some (VStruct vs') -> strip (VStruct vs') (TNamed "HTTPSecurityScheme") = VStruct vs ->
    exists e, enc (VStruct vs') (TNamed "HTTPSecurityScheme") = Some (JObj (obj_of T30 fs parts vs ++ e)) /\ http_again (obj_of T30 fs parts vs) e.
  Proof.
    intros W Jb U St. pose proof Jb as J. apply joined_ok in J. destruct (encodes T30 rnd derived30 extra30 ok30 _ fs parts d vs W J) as [JN _].
    pose proof (W_get _ _ _ _ _ _ _ _ _ W) as G. pose proof (W_len _ _ _ _ _ _ _ _ _ W) as L. destruct (ok30 _ fs parts d vs G (W_extra _ _ _ _ _ _ _ _ _ W)) as [OK _].
    pose proof (encs_field "HTTPSecurityScheme" fs parts d vs vs' eq_refl G L OK St) as F.
    destruct (http_end rnd fs parts d vs _ vs' W eq_refl U) as (Ep & S3 & S4 & j3 & j4 & E3 & E4 & O3 & O4 & Tl). exists (objs j3 ++ objs j4). split; [|exact Tl].
    assert (Ed : special_pos d 5 = false) by (vm_compute in G; injection G as <- <- <-; reflexivity). subst parts.
    assert (Sg : forall p, special d p = false -> seg T30 fs vs' p = seg T30 fs vs p) by (intros p Sp; unfold seg; rewrite (F p Sp); reflexivity).
    erewrite enc_joins; [|exact derived30|exact extra30|exact G|].
    - unfold obj_of. cbn [map concat]. rewrite S3, S4, (Sg (PConst _) eq_refl), (Sg PStruct eq_refl), (Sg (PField 5) Ed). cbn [app]. rewrite !app_nil_r.
      replace (seg T30 fs vs' (PField 3)) with (objs j3) by (unfold seg; rewrite E3; reflexivity).
      replace (seg T30 fs vs' (PField 4)) with (objs j4) by (unfold seg; rewrite E4; reflexivity). rewrite <- !app_assoc. reflexivity.
    - intros p Ip. destruct (special d p) eqn:Sp; [|unfold joins; rewrite (F p Sp); exact (JN p Ip)].
      destruct Ip as [<-|[<-|[<-|[<-|[<-|[]]]]]]; cbn [special] in Sp; try discriminate Sp; [congruence|eexists; split; [exact E3|exact O3]|eexists; split; [exact E4|exact O4]].
  Qed.

  Lemma again_all : forall m v, vsize v < m -> P v.
  Proof.
    induction m as [|m IH]; intros v S t j v' W TG E U St; [lia|].
    assert (Same : leaf v = true -> exists j', enc v' t = Some j' /\ again rnd j j').
    { intros Lv. apply strip_leaf in St; [|exact Lv]. subst v'. exists j. split; [exact E|constructor]. }
    destruct W as [s|b|q Hq|q Hq|a Ha| |t|t|t|t v W|t l Wl|t mp N Wm|n vals s G I|n fs parts d vs G L Wf Of A X]; try (apply Same; reflexivity).
    - (* pointer *)
      apply strip_ptr in St. destruct St as (w & -> & St). pose proof (ptr_open T30 rnd t j w TG U) as Uw. cbn [CodecModel.enc] in E |- *.
      apply (IH v) with (t := t); try assumption; [pose proof (vsize_ptr v); lia|]. cbn [ty_good] in TG. rewrite !andb_true_iff in TG. tauto.
    - (* slice *)
      apply strip_arr in St. destruct St as (l' & -> & St). cbn [CodecModel.enc] in E |- *. destruct (seq_opt _) as [js|] eqn:Es; [|discriminate]. injection E as <-.
      apply list_type in U. destruct U as [[Y _]|(l1 & vs1 & Y & Y2 & F)]; [discriminate Y|]. injection Y as <-. injection Y2 as <-.
      assert (TGt : ty_good T30 t = true). { cbn [ty_good] in TG. rewrite !andb_true_iff in TG. tauto. }
      destruct (list_again t TGt l' js) as (js' & -> & As).
      + rewrite St. intros w I. split; [exact (Wl w I)|]. apply IH. pose proof (vsize_arr w l I). lia.
      + rewrite St. exact Es.
      + exact F.
      + exists (JArr js'). split; [reflexivity|]. constructor. exact As.
    - (* map *)
      apply strip_map in St. destruct St as (m' & -> & St).
      assert (TGt : ty_good T30 t = true). { cbn [ty_good] in TG. rewrite !andb_true_iff in TG. tauto. }
      assert (Ee : entries T30 t mp (objs j)).
      { apply (enc_map_entries T30 t (VMap mp)); [|exact E]. destruct mp; [right; reflexivity|left; right; eexists; split; [reflexivity|discriminate]]. }
      assert (Ej : j = JObj (objs j)). { cbn [CodecModel.enc] in E. destruct (seq_opt _); [|discriminate]. injection E as <-. reflexivity. }
      rewrite Ej in U. apply map_type in U; [|rewrite (entries_keys T30 _ _ _ Ee); exact N]. destruct U as (m1 & Y & U & _). injection Y as <-.
      destruct (map_again t mp m' (objs j) TGt) as (ms' & Es' & As).
      + intros k w I. apply IH. pose proof (vsize_map k w mp I). lia.
      + constructor; assumption.
      + exact St.
      + exact Ee.
      + exact U.
      + exists (JObj ms'). split; [exact (entries_enc _ _ _ Es')|]. rewrite Ej. apply again_obj. exact As.
    - (* struct *)
      assert (W : wfs n fs parts d vs) by (constructor; assumption).
      destruct (ok30 n fs parts d vs G X) as [OK Or].
      assert (Or' : pure_union fs parts d = true /\ derived30 n = false \/ pure_union fs parts d = false /\ joined T30 derived30 n fs parts d = true).
      { destruct (pure_union fs parts d) eqn:Up; [left|right].
        - split; [reflexivity|]. destruct (derived30 n) eqn:Dn; [|reflexivity]. exfalso. unfold derived30 in Dn. apply in_list_In in Dn.
          destruct Dn as [<-|[<-|[]]]; vm_compute in G; injection G as <- <- <-; discriminate Up.
        - split; [reflexivity|]. destruct Or as [[Y _]|Y]; [discriminate Y|exact Y]. }
      clear Or. destruct Or' as [[Un Dn]|[Np Jb]].
      + (* a choice *)
        apply union_ok in Un. destruct (A Dn (U_some _ _ _ Un)) as (i & w & I & Ei & Ek).
        destruct (strip_struct T30 derived30 _ n fs parts d vs G St) as (vs' & -> & L' & Sv). rewrite Dn in Sv. cbn [andb] in Sv.
        destruct (nth_lt_some fs i) as [f Ef]. { rewrite L. eapply nth_some_lt. eassumption. }
        destruct (nth_lt_some vs' i) as [v' Ev']. { rewrite <- L'. eapply nth_some_lt. exact Ei. }
        pose proof (Sv i f v' Ef Ev') as Y. rewrite Ei in Y. injection Y as Y.
        assert (Et : exists t, f_ty f = TPtr t) by (destruct (U_field _ _ _ Un _ _ Ef) as [_ [-> |[b ->]]]; eauto). destruct Et as [t Et].
        rewrite Et in Y. symmetry in Y. apply strip_ptr in Y. destruct Y as (w' & -> & Y).
        assert (Gf : forall f, In f fs -> ty_good T30 (f_ty f) = true). { intros g Ig. destruct (In_nth_error _ _ Ig) as [k Eg]. exact (field_good T30 fs d k g OK Eg). }
        pose proof (union_open T30 rnd n fs parts d j vs' i f t w' G Un TG Gf U Ef Et Ev') as Uw.
        pose proof (Gf f (nth_error_In _ _ Ef)) as TGf. rewrite Et in TGf. pose proof (Wf i f _ Ef Ei) as Ww. rewrite Et in Ww. inversion Ww as [| | | | | | | | |? ? Ww'| | | |]; subst.
        assert (NN : forall x y, enc (VPtr x) (f_ty f) = Some y -> y <> JNull).
        { intros x y Ex. destruct (U_field _ _ _ Un _ _ Ef) as [_ [Eb|[b Eb]]]; rewrite Eb in Ex; cbn [CodecModel.enc] in Ex.
          - destruct x; cbn in Ex; try discriminate. injection Ex as <-. discriminate.
          - eapply enc_named_notnull. exact Ex. }
        assert (Ej : enc (strip w' t) t = Some j).
        { destruct (enc_total T30 rnd derived30 extra30 ok30 (Datatypes.S (vsize (VPtr (strip w' t)))) (VPtr (strip w' t))) with (t := f_ty f) as [j1 Ej1]; [lia|rewrite Et; exact Ww| |].
          - destruct (U_field _ _ _ Un _ _ Ef) as [_ [-> |[b ->]]]; reflexivity.
          - pose proof (union_enc T30 n fs parts d vs i _ f j1 G Un L I Ei Ek Ef Ej1 (NN _ _ Ej1)) as Z. rewrite E in Z. injection Z as ->. rewrite Et in Ej1. exact Ej1. }
        destruct (IH (strip w' t)) with (t := t) (j := j) (v' := w') as (j' & Ej' & Aj); try assumption; try reflexivity.
        { pose proof (vsize_struct i _ vs Ei). pose proof (vsize_ptr (strip w' t)). lia. }
        { cbn [ty_good] in TGf. rewrite !andb_true_iff in TGf. tauto. }
        exists j'. split; [|exact Aj]. assert (Ex : enc (VPtr w') (f_ty f) = Some j') by (rewrite Et; exact Ej').
        apply (union_enc T30 n fs parts d vs' i w' f j' G Un); try assumption; [congruence| |exact (NN _ _ Ex)].
        intros k Ik Nk. destruct (nth_lt_some vs' k) as [x Ex']. { rewrite <- L', <- L. rewrite (U_oneof _ _ _ Un) in Ik. apply in_seq in Ik. lia. }
        destruct (nth_lt_some fs k) as [g Eg]. { rewrite (U_oneof _ _ _ Un) in Ik. apply in_seq in Ik. lia. }
        pose proof (Sv k g x Eg Ex') as Z. rewrite (Ek k Ik Nk) in Z. injection Z as Z. symmetry in Z. apply strip_leaf in Z; [|reflexivity]. congruence.
      + (* an object *)
        pose proof Jb as J. apply joined_ok in J. destruct (encodes T30 rnd derived30 extra30 ok30 n fs parts d vs W J) as [JN EE].
        rewrite EE in E. injection E as <-.
        destruct (strip_struct T30 derived30 _ n fs parts d vs G St) as (vs' & -> & L' & Sv).
        assert (R : forall p, In p parts -> special d p = false -> joins T30 fs vs' p /\ pairs (seg T30 fs vs p) (seg T30 fs vs' p)).
        { apply (regular n fs parts d vs vs' W Jb TG); [|exact U|exact St]. intros i v Ev w Lw. apply IH. pose proof (vsize_struct i v vs Ev). lia. }
        destruct (special_free n fs parts d G Jb Np) as [Sf|[->| ->]].
        * assert (R' : forall p, In p parts -> joins T30 fs vs' p /\ pairs (seg T30 fs vs p) (seg T30 fs vs' p)) by (intros p Ip; apply R; [exact Ip|apply Sf]).
          eexists. split; [eapply enc_joins; [exact derived30|exact extra30|exact G|]; intros p Ip; exact (proj1 (R' p Ip))|].
          apply again_obj. exact (segs_again fs vs vs' parts R').
        * destruct (parameter_node vs vs' fs parts d W Jb U St) as (e & Ee & Tl). exists (JObj (obj_of T30 fs parts vs ++ e)). split; [exact Ee|]. apply again_parameter. exact Tl.
        * destruct (http_node vs vs' fs parts d W Jb U St) as (e & Ee & Tl). exists (JObj (obj_of T30 fs parts vs ++ e)). split; [exact Ee|]. apply again_http. exact Tl.
  Qed.

  Lemma again30 n v j v' : wf (TNamed n) v -> marshal T30 (TNamed n) v = Some j -> um (TNamed n) j = Some v' ->
    exists j', marshal T30 (TNamed n) v' = Some j' /\ again rnd j j'.
  Proof.
    intros W E U. pose proof (wf_known _ _ _ _ _ _ W) as I.
    destruct (roundtrip30 rnd n v I W) as (j0 & v0 & E0 & U0 & St). assert (j0 = j) by congruence. subst j0. assert (v0 = v') by congruence. subst v0.
    apply (again_all (Datatypes.S (vsize v)) v (le_n _)) with (j := j); try assumption.
    assert (C : forallb (fun n => ty_good T30 (TNamed n)) (map fst T30) = true) by (vm_compute; reflexivity).
    rewrite forallb_forall in C. exact (C n I).
  Qed.

  Lemma node_of n v m v' : In n ["Parameter"; "HTTPSecurityScheme"] -> wf (TNamed n) v -> marshal T30 (TNamed n) v = Some (JObj m) -> um (TNamed n) (JObj m) = Some v' ->
    exists fs parts d vs vs', wfs n fs parts d vs /\ joined T30 derived30 n fs parts d = true /\ m = obj_of T30 fs parts vs /\ v' = VStruct vs' /\ strip v' (TNamed n) = VStruct vs.
  Proof.
    intros In' W E U. destruct (roundtrip30 rnd n v (wf_known _ _ _ _ _ _ W) W) as (j0 & v0 & E0 & U0 & St). assert (j0 = JObj m) by congruence. subst j0.
    assert (v0 = v') by congruence. subst v0.
    destruct (wf_inv _ _ _ _ _ _ W) as [(vals & s & G & _)|(fs & parts & d & vs & Ws & ->)].
    { destruct In' as [<-|[<-|[]]]; vm_compute in G; discriminate G. }
    pose proof (W_get _ _ _ _ _ _ _ _ _ Ws) as G.
    assert (Jb : joined T30 derived30 n fs parts d = true) by (destruct In' as [<-|[<-|[]]]; vm_compute in G; injection G as <- <- <-; vm_compute; reflexivity).
    pose proof Jb as J. apply joined_ok in J. destruct (encodes T30 rnd derived30 extra30 ok30 n fs parts d vs Ws J) as [_ EE].
    destruct (strip_struct T30 derived30 _ n fs parts d vs G St) as (vs' & X & _). exists fs, parts, d, vs, vs'.
    split; [exact Ws|]. split; [exact Jb|]. split; [unfold marshal in E; congruence|]. split; [exact X|exact St].
  Qed.

  Lemma parameter30 v m v' : wf (TNamed "Parameter") v -> marshal T30 (TNamed "Parameter") v = Some (JObj m) -> um (TNamed "Parameter") (JObj m) = Some v' ->
    exists e, marshal T30 (TNamed "Parameter") v' = Some (JObj (m ++ e)) /\ parameter_again rnd m e.
  Proof.
    intros W E U. destruct (node_of "Parameter" v m v') as (fs & parts & d & vs & vs' & Ws & Jb & -> & -> & St); try assumption; [cbn; auto|].
    exact (parameter_node vs vs' fs parts d Ws Jb U St).
  Qed.
  Lemma http30 v m v' : wf (TNamed "HTTPSecurityScheme") v -> marshal T30 (TNamed "HTTPSecurityScheme") v = Some (JObj m) -> um (TNamed "HTTPSecurityScheme") (JObj m) = Some v' ->
    exists e, marshal T30 (TNamed "HTTPSecurityScheme") v' = Some (JObj (m ++ e)) /\ http_again m e.
  Proof.
    intros W E U. destruct (node_of "HTTPSecurityScheme" v m v') as (fs & parts & d & vs & vs' & Ws & Jb & -> & -> & St); try assumption; [cbn; auto|].
    exact (http_node vs vs' fs parts d Ws Jb U St).
  Qed.
End Main.
