(* What decoding accepts, and where it puts what it read. *)
From Coq Require Import Lia.
From Verif Require Import Str SMap Json CodecModel CodecTables CodecSpec CodecObjSpec CodecProofs CodecEnc CodecRound CodecDis CodecRT.

(* ---------- frames ---------- *)

Lemma NoDup_app_l {A} (l r : list A) : NoDup (l ++ r) -> NoDup l.
Proof.
  induction l as [|x l IH]; intros H; [constructor|]. inversion H; subst. constructor; [|auto].
  intros I. apply H2. apply in_or_app. left. exact I.
Qed.


Lemma dec_embed_frame same fs : forall is vs vs', dec_embed same fs is vs = Some vs' ->
  length vs' = length vs /\ forall i, ~ In i is -> nth_error vs' i = nth_error vs i.
Proof.
  induction is as [|i is IH]; intros vs vs' E; cbn [dec_embed] in E.
  - injection E as <-. auto.
  - destruct (nth_error fs i); [|discriminate]. destruct (nth_error vs i); [|discriminate]. destruct (same (f_ty f) v); [|discriminate].
    apply IH in E. destruct E as [L H]. rewrite length_set in L. split; [exact L|]. intros k NI. rewrite H by (intros X; apply NI; right; exact X).
    apply nth_set_other. intros ->. apply NI. left. reflexivity.
Qed.

Lemma dec_alts_frame same fs : forall is vs c vs' c', dec_alts same fs is vs c = (vs', c') ->
  length vs' = length vs /\ forall i, ~ In i is -> nth_error vs' i = nth_error vs i.
Proof.
  induction is as [|i is IH]; intros vs c vs' c' E; cbn [dec_alts] in E.
  - injection E as <- <-. auto.
  - destruct (nth_error fs i); [|injection E as <- <-; auto]. destruct (nth_error vs i); [|injection E as <- <-; auto].
    destruct (same (f_ty f) v); apply IH in E; destruct E as [L H]; rewrite length_set in L; (split; [exact L|]); intros k NI;
      rewrite H by (intros X; apply NI; right; exact X); apply nth_set_other; intros ->; apply NI; left; reflexivity.
Qed.

Lemma dec_fix_inv raw : forall fx vs i, nth_error (dec_fix fx raw vs) i = nth_error vs i \/
  (nth_error vs i = Some VNil /\ nth_error (dec_fix fx raw vs) i = Some (VPtr (VAny JNull)) /\ exists k, In (i, k) fx /\ raw_has raw k = true).
Proof.
  induction fx as [|[i0 k0] fx IH]; intros vs i; cbn [dec_fix]; [auto|].
  set (vs1 := match nth_error vs i0 with Some VNil => _ | _ => _ end).
  assert (H1 : nth_error vs1 i = nth_error vs i \/ (i = i0 /\ nth_error vs i = Some VNil /\ nth_error vs1 i = Some (VPtr (VAny JNull)) /\ raw_has raw k0 = true)).
  { subst vs1. destruct (nth_error vs i0) as [[]|] eqn:E0; auto. destruct (raw_has raw k0) eqn:R; auto.
    destruct (Nat.eq_dec i i0) as [->|N]; [|left; apply nth_set_other; exact N]. right. split; [reflexivity|]. split; [exact E0|]. split; [|reflexivity].
    apply nth_set_same. eapply nth_some_lt. exact E0. }
  destruct (IH vs1 i) as [H2|(H2 & H3 & k & Ik & Rk)]; destruct H1 as [H1|(-> & H1 & H1' & R)].
  - left. congruence.
  - right. split; [exact H1|]. split; [congruence|]. exists k0. split; [left; reflexivity|exact R].
  - right. split; [congruence|]. split; [exact H3|]. exists k. split; [right; exact Ik|exact Rk].
  - congruence.
Qed.

Section Strict.
  Variable T : list (string * ent).
  Variable rnd : Q -> Q.
  Notation at_ := (CodecProofs.at_ T rnd).
  Notation mview := (CodecProofs.mview T rnd).

  (* The entry of a map field. *)
  Definition entry (vs : list val) (i : nat) (k : string) (w : val) : Prop :=
    exists m, nth_error vs i = Some (VMap m) /\ get k m = Some w.

  Lemma store_inv fs i k (d : decoder) vs vs' : store T fs i k d vs = Some vs' ->
    exists f t old w, nth_error fs i = Some f /\ nth_error vs i = Some old /\ f_ty f = TMap t /\ d t (zero T LVL t) = Some w /\
      vs' = set_nth i (VMap (put k w (mapof old))) vs.
  Proof.
    unfold store. destruct (nth_error fs i) as [f|]; [|discriminate]. destruct (nth_error vs i) as [old|]; [|discriminate].
    destruct (f_ty f) as [| | | | | | | |t|] eqn:Et; try discriminate. destruct (d t (zero T LVL t)) as [w|] eqn:Ed; [|discriminate].
    intros E. injection E as <-. exists f, t, old, w. auto.
  Qed.

  Lemma store_new fs i k (d : decoder) vs vs' : store T fs i k d vs = Some vs' ->
    exists f t w, nth_error fs i = Some f /\ f_ty f = TMap t /\ d t (zero T LVL t) = Some w /\ entry vs' i k w.
  Proof.
    intros E. destruct (store_inv _ _ _ _ _ _ E) as (f & t & old & w & Ef & Eo & Et & Ed & ->). exists f, t, w. split; [exact Ef|]. split; [exact Et|]. split; [exact Ed|].
    exists (put k w (mapof old)). split; [apply nth_set_same; eapply nth_some_lt; exact Eo|apply get_put_same].
  Qed.

  Lemma store_frame fs i k (d : decoder) vs vs' : store T fs i k d vs = Some vs' ->
    length vs' = length vs /\ (forall i', i' <> i -> nth_error vs' i' = nth_error vs i').
  Proof.
    intros E. destruct (store_inv _ _ _ _ _ _ E) as (f & t & old & w & Ef & Eo & Et & Ed & ->). split; [apply length_set|].
    intros i' N. apply nth_set_other. exact N.
  Qed.

  Lemma store_keep fs i k (d : decoder) vs vs' i' k' w : store T fs i k d vs = Some vs' -> entry vs i' k' w -> i' <> i \/ k' <> k -> entry vs' i' k' w.
  Proof.
    intros E (m & Em & G) N. destruct (store_inv _ _ _ _ _ _ E) as (f & t & old & w' & Ef & Eo & Et & Ed & ->).
    destruct (Nat.eq_dec i' i) as [->|Ni].
    - destruct N as [N|N]; [congruence|]. rewrite Em in Eo. injection Eo as <-. exists (put k w' m). split.
      + apply nth_set_same. eapply nth_some_lt. exact Em.
      + rewrite get_put_other by congruence. exact G.
    - exists m. rewrite nth_set_other by exact Ni. auto.
  Qed.

  Lemma store_pats_inv fs k (d : decoder) : forall ps vs vs', store_pats T fs ps k d vs = Some vs' -> NoDup (map snd ps) ->
    length vs' = length vs /\
    (forall i, ~ In i (map snd ps) -> nth_error vs' i = nth_error vs i) /\
    (forall i k' w, k' <> k -> entry vs i k' w -> entry vs' i k' w) /\
    (forall i w, ~ In i (map snd ps) -> entry vs i k w -> entry vs' i k w) /\
    (forall p i, In (p, i) ps -> matches p k = true -> exists f t w, nth_error fs i = Some f /\ f_ty f = TMap t /\ d t (zero T LVL t) = Some w /\ entry vs' i k w).
  Proof.
    induction ps as [|[p0 i0] ps IH]; intros vs vs' E N; cbn [store_pats] in E.
    - injection E as <-. repeat split; auto. intros p i [].
    - cbn [map snd] in N. inversion N as [|? ? N1 N2]; subst. destruct (matches p0 k) eqn:Mp.
      + destruct (store T fs i0 k d vs) as [vs1|] eqn:S; [|discriminate]. destruct (IH _ _ E N2) as (L & H1 & H2 & H3 & H4).
        destruct (store_frame _ _ _ _ _ _ S) as [L1 F1]. split; [congruence|]. split; [|split; [|split]].
        * cbn [map snd]. intros i NI. rewrite H1 by (intros X; apply NI; right; exact X). apply F1. intros ->. apply NI. left. reflexivity.
        * intros i k' w Nk En. apply H2; [exact Nk|]. eapply store_keep; [exact S|exact En|right; exact Nk].
        * cbn [map snd]. intros i w NI En. apply H3; [intros X; apply NI; right; exact X|]. eapply store_keep; [exact S|exact En|]. left. intros ->. apply NI. left. reflexivity.
        * intros p i [X|I] Mk; [|eapply H4; eassumption]. injection X as -> ->.
          destruct (store_new _ _ _ _ _ _ S) as (f & t & w & Ef & Et & Ed & En). exists f, t, w. auto 6.
      + destruct (IH _ _ E N2) as (L & H1 & H2 & H3 & H4). split; [exact L|]. split; [|split; [|split]].
        * cbn [map snd]. intros i NI. apply H1. intros X. apply NI. right. exact X.
        * exact H2.
        * cbn [map snd]. intros i w NI. apply H3. intros X. apply NI. right. exact X.
        * intros p i [X|I] Mk; [injection X as -> ->; congruence|eapply H4; eassumption].
  Qed.

  Lemma dec_pats_inv fs ps : NoDup (map snd ps) -> forall (ms : members) vs vs', dec_pats T fs ps ms vs = Some vs' -> NoDup (map fst ms) ->
    length vs' = length vs /\
    (forall i, ~ In i (map snd ps) -> nth_error vs' i = nth_error vs i) /\
    (forall i k w, ~ In k (map fst ms) -> entry vs i k w -> entry vs' i k w) /\
    (forall k j d p i, In (k, (j, d)) ms -> In (p, i) ps -> matches p k = true ->
       exists f t w, nth_error fs i = Some f /\ f_ty f = TMap t /\ d t (zero T LVL t) = Some w /\ entry vs' i k w).
  Proof.
    intros NP. induction ms as [|[k0 [j0 d0]] ms IH]; intros vs vs' E N; cbn [dec_pats] in E.
    - injection E as <-. repeat split; auto. intros k j d p i [].
    - cbn [map fst] in N. inversion N as [|? ? N1 N2]; subst. destruct (store_pats T fs ps k0 d0 vs) as [vs1|] eqn:S; [|discriminate].
      destruct (store_pats_inv _ _ _ _ _ _ S NP) as (L1 & A1 & A2 & A3 & A4). destruct (IH _ _ E N2) as (L & H1 & H2 & H3).
      split; [congruence|]. split; [|split].
      + intros i NI. rewrite H1, A1 by exact NI. reflexivity.
      + cbn [map fst]. intros i k w NI En. apply H2; [intros X; apply NI; right; exact X|]. apply A2; [|exact En]. intros ->. apply NI. left. reflexivity.
      + intros k j d p i [X|I] Ip Mk; [|eapply H3; eassumption]. injection X as -> -> ->.
        destruct (A4 p i Ip Mk) as (f & t & w & Ef & Et & Ed & En). exists f, t, w. repeat split; auto.
  Qed.

  Lemma dec_addl_inv fs i : forall (ms : members) vs vs', dec_addl T fs i ms vs = Some vs' -> NoDup (map fst ms) ->
    length vs' = length vs /\
    (forall i', i' <> i -> nth_error vs' i' = nth_error vs i') /\
    (forall i' k w, i' <> i \/ ~ In k (map fst ms) -> entry vs i' k w -> entry vs' i' k w) /\
    (forall k j d, In (k, (j, d)) ms ->
       exists f t w, nth_error fs i = Some f /\ f_ty f = TMap t /\ d t (zero T LVL t) = Some w /\ entry vs' i k w).
  Proof.
    induction ms as [|[k0 [j0 d0]] ms IH]; intros vs vs' E N; cbn [dec_addl] in E.
    - injection E as <-. repeat split; auto. intros k j d [].
    - cbn [map fst] in N. inversion N as [|? ? N1 N2]; subst. destruct (store T fs i k0 d0 vs) as [vs1|] eqn:S; [|discriminate].
      destruct (store_frame _ _ _ _ _ _ S) as [L1 A1]. destruct (IH _ _ E N2) as (L & H1 & H2 & H3).
      split; [congruence|]. split; [|split].
      + intros i' NI. rewrite H1, A1 by exact NI. reflexivity.
      + cbn [map fst]. intros i' k w NI En. apply H2.
        * destruct NI as [NI|NI]; [left; exact NI|right; intros X; apply NI; right; exact X].
        * eapply store_keep; [exact S|exact En|]. destruct NI as [NI|NI]; [left; exact NI|right; intros ->; apply NI; left; reflexivity].
      + intros k j d [X|I]; [|eapply H3; eassumption]. injection X as -> -> ->.
        destruct (store_new _ _ _ _ _ _ S) as (f & t & w & Ef & Et & Ed & En). exists f, t, w. repeat split; auto.
  Qed.

  (* ---------- an accepted object ---------- *)

  (* The value of a field, given the value that decoding its member gives. *)
  Definition got (fs : list field) (d : dprog) (vs : list val) (i : nat) (k : string) (j : json) (v0 : val) : Prop :=
    exists f w, nth_error fs i = Some f /\ dec T rnd j (f_ty f) v0 = Some w /\
      (nth_error vs i = Some w \/ w = VNil /\ In (i, k) (d_fix d) /\ nth_error vs i = Some (VPtr (VAny JNull))).

  Record accepted (fs : list field) (d : dprog) (vs0 : list val) (M : list (string * json)) (vs : list val) : Prop := {
    A_len : length vs = length vs0;
    A_require : forall k, In k (d_require d) -> In k (map fst M);
    A_const : forall k c j, In (k, c) (d_const d) -> In (k, j) M -> json_eqb_scalar j c = true;
    A_closed : d_closed d = true -> d_addl d = [] -> forall k, In k (map fst M) ->
      In k (map fst (d_const d)) \/ In k (d_known d) \/ matched d k = true;
    A_field : d_struct d = true -> forall k j i v0, In (k, j) M -> find_field fs k = Some i -> nth_error vs0 i = Some v0 ->
      (forall k', In k' (map fst M) -> find_field fs k' = Some i -> k' = k) ->
      special_pos d i = false -> ~ In i (map snd (d_pats d) ++ d_addl d) ->
      (forall k', In (i, k') (d_fix d) -> k' = k) ->
      got fs d vs i k j v0;
    A_pat : forall k j p i, In (k, j) M -> In (p, i) (d_pats d) -> matches p k = true ->
      ~ In k (map fst (d_const d)) -> ~ In k (d_known d) -> ~ In i (d_addl d) ->
      exists f t w, nth_error fs i = Some f /\ f_ty f = TMap t /\ unmarshal T rnd t j = Some w /\ entry vs i k w;
    A_addl : forall k j i, In (k, j) M -> hd_error (d_addl d) = Some i -> matched d k = false ->
      ~ In k (map fst (d_const d)) -> ~ In k (d_known d) ->
      exists f t w, nth_error fs i = Some f /\ f_ty f = TMap t /\ unmarshal T rnd t j = Some w /\ entry vs i k w
  }.

  Lemma accept_inv same fs d M vs0 vs : dec_ent T same (SObj (mview M)) fs d vs0 = Some vs -> length fs = length vs0 ->
    NoDup (map fst M) -> NoDup (map snd (d_pats d)) -> accepted fs d vs0 M vs.
  Proof.
    intros E L0 N NP. unfold dec_ent in E. destruct (forallb _ (d_not d)); [|discriminate].
    destruct (if d_struct d then dec_struct (SObj (mview M)) fs vs0 else Some vs0) as [vs1|] eqn:E1; [|discriminate].
    destruct (dec_embed same fs (d_embed d) vs1) as [vs2|] eqn:E2; [|discriminate].
    destruct (dec_alts same fs (d_oneof d) vs2 0) as [vs3 c] eqn:E3.
    destruct (match d_oneof d with [] => true | _ => (c =? 1)%nat end); [|discriminate].
    unfold dec_raw in E. cbn [raw_map] in E.
    assert (KM : map fst (mview M) = map fst M) by apply mview_keys.
    assert (NM : NoDup (map fst (mview M))) by (rewrite KM; exact N).
    rewrite (dedup_id _ NM) in E.
    destruct (raw_checks d (mview M) && lower_checks d vs3) eqn:RC; [|discriminate]. apply andb_true_iff in RC. destruct RC as [RC _].
    unfold raw_checks in RC. rewrite !andb_true_iff in RC. destruct RC as [[[[R1 R2] R3] R4] R5]. rewrite forallb_forall in R1, R3.
    assert (NR : NoDup (map fst (raw_rest d (mview M)))) by (apply filter_nodup; exact NM).
    assert (NL : NoDup (map fst (raw_left d (raw_rest d (mview M))))) by (apply filter_nodup; exact NR).
    destruct (dec_pats T fs (d_pats d) (raw_rest d (mview M)) (dec_fix (d_fix d) (mview M) vs3)) as [vs4|] eqn:E4; [|discriminate].
    destruct (dec_pats_inv fs (d_pats d) NP _ _ _ E4 NR) as (L4 & P1 & P2 & P3).
    destruct (dec_embed_frame _ _ _ _ _ E2) as [L2 Fe]. destruct (dec_alts_frame _ _ _ _ _ _ _ E3) as [L3 Fa].
    assert (Lx : length (dec_fix (d_fix d) (mview M) vs3) = length vs3).
    { generalize (d_fix d) as fx, vs3 as w. induction fx as [|[a b] fx IH]; intros w; cbn [dec_fix]; [reflexivity|]. rewrite IH.
      destruct (nth_error w a) as [[]|]; try reflexivity. destruct (raw_has _ b); [apply length_set|reflexivity]. }
    assert (L1 : length vs1 = length vs0).
    { destruct (d_struct d); [|congruence]. cbn [dec_struct] in E1. revert E1. generalize (mview M) as ms, vs0 as w. induction ms as [|[k [j dd]] ms IH]; intros w X; cbn [dec_fields] in X; [congruence|].
      destruct (find_field fs k); [|auto]. destruct (nth_error fs n); [|discriminate]. destruct (nth_error w n); [|discriminate]. destruct (dd (f_ty f) v); [|discriminate].
      apply IH in X. rewrite length_set in X. exact X. }
    assert (InR : forall k j, In (k, j) M -> ~ In k (map fst (d_const d)) -> ~ In k (d_known d) -> In (k, (j, dec T rnd j)) (raw_rest d (mview M))).
    { intros k j I N1 N2. unfold raw_rest. apply filter_In. split; [apply mview_In; auto|]. cbn [fst]. apply in_list_false in N1, N2. rewrite N1, N2. reflexivity. }
    assert (Fin : length vs = length vs4 /\ (forall i, ~ In i (d_addl d) -> nth_error vs i = nth_error vs4 i) /\
      (forall i k w, ~ In i (d_addl d) -> entry vs4 i k w -> entry vs i k w) /\
      (d_closed d = true -> d_addl d = [] -> raw_left d (raw_rest d (mview M)) = []) /\
      (forall i k j, hd_error (d_addl d) = Some i -> In (k, (j, dec T rnd j)) (raw_left d (raw_rest d (mview M))) ->
         exists f t w, nth_error fs i = Some f /\ f_ty f = TMap t /\ unmarshal T rnd t j = Some w /\ entry vs i k w)).
    { destruct (d_addl d) as [|i0 ad].
      - destruct (d_closed d && negb (match raw_left d (raw_rest d (mview M)) with [] => true | _ => false end)) eqn:C; [discriminate|]. injection E as <-.
        split; [reflexivity|]. split; [reflexivity|]. split; [auto|]. split; [|intros i k j X; discriminate X].
        intros Cl _. rewrite Cl in C. cbn [andb] in C. destruct (raw_left _ _); [reflexivity|discriminate C].
      - destruct (dec_addl_inv _ _ _ _ _ E NL) as (La & A1 & A2 & A3). split; [exact La|]. split; [|split; [|split]].
        + intros i NI. apply A1. intros ->. apply NI. left. reflexivity.
        + intros i k w NI. apply A2. left. intros ->. apply NI. left. reflexivity.
        + discriminate.
        + intros i k j X I. injection X as <-. exact (A3 _ _ _ I). }
    destruct Fin as (Lf & F1 & F2 & F3 & F4).
    constructor.
    - congruence.
    - intros k I. specialize (R1 k I). apply raw_has_In in R1. exact R1.
    - intros k c0 j Ic Ij. specialize (R3 _ Ic). cbn [fst snd] in R3.
      rewrite (raw_has_yes T rnd M _ _ Ij), (raw_is_In T rnd M _ _ _ N Ij) in R3. exact R3.
    - intros Cl Ad k Ik. specialize (F3 Cl Ad). destruct (in_dec string_dec k (map fst (d_const d))) as [|N1]; [auto|].
      destruct (in_dec string_dec k (d_known d)) as [|N2]; [auto|]. right. right. destruct (matched d k) eqn:Mk; [reflexivity|]. exfalso.
      apply key_pair in Ik. destruct Ik as [j Ij].
      assert (X : In (k, (j, dec T rnd j)) (raw_left d (raw_rest d (mview M)))).
      { unfold raw_left. apply filter_In. split; [apply InR; assumption|]. cbn [fst]. rewrite Mk. reflexivity. }
      rewrite F3 in X. exact X.
    - intros St k j i v0 Ij Fi E0 U Sp NPi Ux. rewrite St in E1. cbn [dec_struct] in E1.
      destruct (dec_fields_at fs k (dec T rnd j) i _ _ _ E1 NM Fi) as [H _]; [rewrite KM; exact U|].
      destruct (H j) as (f & v & w & Ef & Ev & Ed & Ew); [apply mview_In; auto|]. rewrite E0 in Ev. injection Ev as <-.
      unfold special_pos in Sp. assert (NS : ~ In i (d_embed d ++ d_oneof d)). { intros X. apply special_pos_In in X. unfold special_pos in X. congruence. }
      assert (E3i : nth_error vs3 i = Some w).
      { rewrite Fa, Fe; [exact Ew| |]; intros X; apply NS; apply in_or_app; auto. }
      assert (E5 : nth_error vs i = nth_error (dec_fix (d_fix d) (mview M) vs3) i).
      { rewrite F1, P1; [reflexivity| |]; intros X; apply NPi; apply in_or_app; auto. }
      exists f, w. split; [exact Ef|]. split; [exact Ed|].
      destruct (dec_fix_inv (mview M) (d_fix d) vs3 i) as [H1|(H1 & H2 & k' & Ik' & _)].
      + left. congruence.
      + right. split; [congruence|]. split; [|congruence]. rewrite <- (Ux k' Ik'). exact Ik'.
    - intros k j p i Ij Ip Mk N1 N2 NA. destruct (P3 _ _ _ _ _ (InR k j Ij N1 N2) Ip Mk) as (f & t & w & Ef & Et & Ed & En).
      exists f, t, w. split; [exact Ef|]. split; [exact Et|]. split; [exact Ed|]. apply F2; assumption.
    - intros k j i Ij Hd Mk N1 N2. apply F4; [exact Hd|]. unfold raw_left. apply filter_In. split; [apply InR; assumption|]. cbn [fst]. rewrite Mk. reflexivity.
  Qed.

  (* ---------- zero values and levels do not matter ---------- *)

  Lemma zero_irr : forall n t m, zero_ok T n t = true -> zero_ok T m t = true -> zero T n t = zero T m t.
  Proof.
    induction n as [|n IH]; intros t m; destruct t; destruct m as [|m]; cbn [zero zero_ok]; try reflexivity; try discriminate.
    destruct (get n0 T) as [[|fs parts d]|]; try reflexivity. intros H1 H2. f_equal. apply map_ext_in. intros f I.
    rewrite forallb_forall in H1, H2. apply IH; auto.
  Qed.

  Lemma zero_at_LVL t v : ty_good T t = true -> zero_at T t v -> v = zero T LVL t.
  Proof.
    intros G (n & Z & ->). apply zero_irr; [exact Z|]. destruct t; cbn [ty_good] in G; rewrite ?andb_true_iff in G; tauto.
  Qed.

  Lemma dec_embed_ext (s1 s2 : decoder) fs : forall is vs,
    (forall i f v, In i is -> nth_error fs i = Some f -> s1 (f_ty f) v = s2 (f_ty f) v) -> dec_embed s1 fs is vs = dec_embed s2 fs is vs.
  Proof.
    induction is as [|i is IH]; intros vs H; cbn [dec_embed]; [reflexivity|]. destruct (nth_error fs i) as [f|] eqn:Ef; [|reflexivity].
    destruct (nth_error vs i) as [v|]; [|reflexivity]. rewrite (H i f v (or_introl eq_refl) Ef). destruct (s2 (f_ty f) v); [|reflexivity].
    apply IH. intros i' f' v' I E. exact (H i' f' v' (or_intror I) E).
  Qed.
  Lemma dec_alts_ext (s1 s2 : decoder) fs : forall is vs c,
    (forall i f v, In i is -> nth_error fs i = Some f -> s1 (f_ty f) v = s2 (f_ty f) v) -> dec_alts s1 fs is vs c = dec_alts s2 fs is vs c.
  Proof.
    induction is as [|i is IH]; intros vs c H; cbn [dec_alts]; [reflexivity|]. destruct (nth_error fs i) as [f|] eqn:Ef; [|reflexivity].
    destruct (nth_error vs i) as [v|]; [|reflexivity]. rewrite (H i f v (or_introl eq_refl) Ef).
    destruct (s2 (f_ty f) v); apply IH; intros i' f' v' I E; exact (H i' f' v' (or_intror I) E).
  Qed.

  Lemma forallb_ext' {A} (g h : A -> bool) l : (forall x, In x l -> g x = h x) -> forallb g l = forallb h l.
  Proof.
    induction l as [|x l IH]; intros H; [reflexivity|]. cbn [forallb]. rewrite (H x (or_introl eq_refl)), IH; [reflexivity|]. intros y I. apply H. right. exact I.
  Qed.

  Lemma level_irr j : forall l t l' old, lvl_ok T l t = true -> lvl_ok T l' t = true -> at_ j l t old = at_ j l' t old.
  Proof.
    induction l as [|l IH]; intros t l' old H1 H2; [discriminate|]. destruct l' as [|l']; [destruct t; discriminate|].
    unfold CodecProofs.at_. cbn [levels]. change (levels (dec_step T rnd j (view (dec T rnd) j)) l) with (at_ j l).
    change (levels (dec_step T rnd j (view (dec T rnd) j)) l') with (at_ j l').
    destruct t; unfold dec_step; try reflexivity.
    - cbn [lvl_ok] in H1, H2. rewrite (IH t l' _ H1 H2). reflexivity.
    - cbn [lvl_ok] in H1, H2. destruct (get n T) as [[|fs parts d]|]; try reflexivity. destruct old; try reflexivity.
      apply andb_true_iff in H1, H2. destruct H1 as [A1 B1], H2 as [A2 B2]. rewrite forallb_forall in A1, A2, B1, B2.
      assert (S : forall i f v, In i (d_embed d ++ d_oneof d) -> nth_error fs i = Some f -> at_ j l (f_ty f) v = at_ j l' (f_ty f) v).
      { intros i f v I Ef. specialize (A1 i I). specialize (A2 i I). rewrite Ef in A1, A2. apply IH; assumption. }
      unfold dec_ent.
      rewrite (forallb_ext' _ (fun t => match at_ j l' t (zero T LVL t) with None => true | Some _ => false end)).
      2: { intros t I. rewrite (IH t l'); auto. }
      destruct (forallb _ (d_not d)); [|reflexivity]. destruct (if d_struct d then _ else _) as [vs1|]; [|reflexivity].
      rewrite (dec_embed_ext (at_ j l) (at_ j l')). 2: { intros i f v I. apply S. apply in_or_app. left. exact I. }
      destruct (dec_embed _ _ _ _) as [vs2|]; [|reflexivity].
      rewrite (dec_alts_ext (at_ j l) (at_ j l')). 2: { intros i f v I. apply S. apply in_or_app. right. exact I. }
      reflexivity.
  Qed.

  (* ---------- objects against the table ---------- *)

  Fixpoint ty_eqb (a b : ty) : bool :=
    match a, b with
    | TStr, TStr | TInt, TInt | TFloat, TFloat | TBool, TBool | TAny, TAny | TSkip, TSkip => true
    | TPtr a, TPtr b | TArr a, TArr b | TMap a, TMap b => ty_eqb a b
    | TNamed n, TNamed m => String.eqb n m
    | _, _ => false
    end.
  Lemma ty_eqb_eq a : forall b, ty_eqb a b = true -> a = b.
  Proof.
    induction a; intros [] H; try discriminate H; try reflexivity; cbn [ty_eqb] in H; try (f_equal; auto; fail).
    apply String.eqb_eq in H. congruence.
  Qed.

  Fixpoint name_at (name : string) (fs : list field) : option nat :=
    match fs with
    | [] => None
    | f :: fs => if String.eqb (f_name f) name then Some 0 else match name_at name fs with Some i => Some (S i) | None => None end
    end.
  Lemma by_name_at name : forall fs vs i f v, name_at name fs = Some i -> nth_error fs i = Some f -> nth_error vs i = Some v ->
    by_name name fs vs = Some (f_ty f, v).
  Proof.
    induction fs as [|f0 fs IH]; intros vs i f v H Ef Ev; [discriminate|]. cbn [name_at] in H.
    destruct (String.eqb (f_name f0) name) eqn:E.
    - injection H as <-. destruct vs; [discriminate|]. cbn in Ef, Ev. injection Ef as <-. injection Ev as <-. cbn [by_name]. rewrite E. reflexivity.
    - destruct (name_at name fs) as [i'|]; [|discriminate]. injection H as <-. destruct vs; [discriminate|]. cbn [by_name]. rewrite E.
      exact (IH vs i' f v eq_refl Ef Ev).
  Qed.
  Definition spelledb (k name : string) : bool :=
    String.eqb k "$ref" && String.eqb name "Ref" || String.eqb k "operationId" && String.eqb name "ID" || String.eqb (to_lower k) (to_lower name).
  Lemma spelledb_ok k name : spelledb k name = true -> spelled k name.
  Proof.
    unfold spelledb, spelled. rewrite !orb_true_iff, !andb_true_iff, !String.eqb_eq. intros [[H|H]|H]; [left|right; left|right; right]; exact H.
  Qed.
  Definition key_check (fs : list field) (k : string) : bool :=
    match find_at (String.eqb k) fs with
    | Some i =>
        match nth_error fs i with
        | Some f => spelledb k (f_name f) && match name_at (f_name f) fs with Some i' => Nat.eqb i i' | None => false end
        | None => false
        end
    | None => false
    end.

  Definition pat_check (o : obj) (fs : list field) (d : dprog) (pi : pat * nat) : bool :=
    match nth_error fs (snd pi) with
    | Some f =>
        match f_ty f with
        | TMap t => existsb (fun q => pat_eqb (fst pi) (fst q) && String.eqb (f_name f) (fst (snd q)) && ty_eqb t (snd (snd q))) (o_pats o)
        | _ => false
        end && match name_at (f_name f) fs with Some i => Nat.eqb i (snd pi) | None => false end
    | None => false
    end && negb (existsb (Nat.eqb (snd pi)) (d_addl d)).

  Definition obj_check (no : string * obj) : bool :=
    let (n, o) := no in
    match get n T with
    | Some (EStruct fs parts d) =>
        ent_ok T fs d && ty_good T (TNamed n) &&
        forallb (fun k => in_list k (d_require d)) (o_req o) &&
        forallb (fun kc => in_list (fst kc) (o_keys o) &&
                           existsb (fun kc' => String.eqb (fst kc') (fst kc) && json_eqb_scalar (snd kc') (snd kc)) (o_const o)) (d_const d) &&
        forallb (fun k => in_list k (o_keys o)) (d_known d) &&
        forallb (fun k => in_list k (map fst (d_const d)) || key_check fs k) (o_keys o) &&
        forallb (pat_check o fs d) (d_pats d) &&
        forallb (fun q => existsb (fun pi => pat_eqb (fst pi) (fst q)) (d_pats d) &&
                          forallb (fun k => negb (matches (fst q) k)) (map fst (d_const d) ++ d_known d)) (o_pats o)
    | _ => false
    end.

  Record tabled (o : obj) (fs : list field) (d : dprog) : Prop := {
    F_ok : ent_ok T fs d = true;
    F_req : forall k, In k (o_req o) -> In k (d_require d);
    F_const : forall k c, In (k, c) (d_const d) -> In k (o_keys o) /\ In (k, c) (o_const o);
    F_known : forall k, In k (d_known d) -> In k (o_keys o);
    F_keys : forall k, In k (o_keys o) -> In k (map fst (d_const d)) \/ exists i f, find_at (String.eqb k) fs = Some i /\ nth_error fs i = Some f /\ spelled k (f_name f) /\ name_at (f_name f) fs = Some i;
    F_pat : forall p i, In (p, i) (d_pats d) -> exists f t, nth_error fs i = Some f /\ f_ty f = TMap t /\ In (p, (f_name f, t)) (o_pats o) /\
      name_at (f_name f) fs = Some i /\ ~ In i (d_addl d);
    F_pats : forall p x, In (p, x) (o_pats o) -> (exists i, In (p, i) (d_pats d)) /\
      forall k, matches p k = true -> ~ In k (map fst (d_const d)) /\ ~ In k (d_known d)
  }.

  Lemma json_scalar_eq a b : json_eqb_scalar a b = true -> a = b.
  Proof.
    destruct a, b; try discriminate; cbn [json_eqb_scalar]; intros H; f_equal.
    - apply Bool.eqb_prop. exact H.
    - apply String.eqb_eq. exact H.
  Qed.

  Lemma obj_check_ok n o : obj_check (n, o) = true -> exists fs parts d, get n T = Some (EStruct fs parts d) /\ ty_good T (TNamed n) = true /\ tabled o fs d.
  Proof.
    unfold obj_check. destruct (get n T) as [[|fs parts d]|] eqn:G; try discriminate. rewrite !andb_true_iff.
    intros [[[[[[[H1 H2] H3] H4] H5] H6] H7] H8]. exists fs, parts, d. split; [reflexivity|]. split; [exact H2|].
    rewrite forallb_forall in H3, H4, H5, H6, H7, H8. constructor.
    - exact H1.
    - intros k I. apply in_list_In. auto.
    - intros k c I. specialize (H4 _ I). cbn [fst snd] in H4. apply andb_true_iff in H4. destruct H4 as [A B]. apply in_list_In in A. split; [exact A|].
      apply existsb_exists in B. destruct B as ([k' c'] & I' & E). cbn [fst snd] in E. apply andb_true_iff in E. destruct E as [E1 E2].
      apply String.eqb_eq in E1. apply json_scalar_eq in E2. subst. exact I'.
    - intros k I. apply in_list_In. auto.
    - intros k I. specialize (H6 k I). apply orb_true_iff in H6. destruct H6 as [A|A]; [left; apply in_list_In; exact A|right].
      unfold key_check in A. destruct (find_at (String.eqb k) fs) as [i|]; [|discriminate]. destruct (nth_error fs i) as [f|] eqn:Ef; [|discriminate].
      apply andb_true_iff in A. destruct A as [A B]. exists i, f. split; [reflexivity|]. split; [exact Ef|]. split; [apply spelledb_ok; exact A|].
      destruct (name_at (f_name f) fs); [|discriminate]. apply Nat.eqb_eq in B. congruence.
    - intros p i I. specialize (H7 _ I). unfold pat_check in H7. cbn [fst snd] in H7. apply andb_true_iff in H7. destruct H7 as [A B].
      destruct (nth_error fs i) as [f|]; [|discriminate]. apply andb_true_iff in A. destruct A as [A C]. destruct (f_ty f) as [| | | | | | | |t|] eqn:Et; try discriminate A.
      exists f, t. split; [reflexivity|]. split; [exact Et|]. apply existsb_exists in A. destruct A as ([p' [nm t']] & I' & E). cbn [fst snd] in E.
      rewrite !andb_true_iff in E. destruct E as [[E1 E2] E3]. apply pat_eqb_eq in E1. apply String.eqb_eq in E2. apply ty_eqb_eq in E3. subst p' nm t'.
      split; [exact I'|]. split.
      + destruct (name_at (f_name f) fs); [|discriminate]. apply Nat.eqb_eq in C. congruence.
      + intros X. apply negb_true_iff in B. rewrite <- not_true_iff_false in B. apply B. apply existsb_exists. exists i. split; [exact X|apply Nat.eqb_refl].
    - intros p x I. specialize (H8 _ I). cbn [fst] in H8. apply andb_true_iff in H8. destruct H8 as [A B]. split.
      + apply existsb_exists in A. destruct A as ([p' i] & I' & E). cbn [fst] in E. apply pat_eqb_eq in E. subst p'. eauto.
      + rewrite forallb_forall in B. intros k Mk. split; intros X; [specialize (B k (in_or_app _ _ _ (or_introl X)))|specialize (B k (in_or_app _ _ _ (or_intror X)))]; rewrite Mk in B; discriminate B.
  Qed.

  Lemma at_named n fs parts d j l vs0 : get n T = Some (EStruct fs parts d) ->
    at_ j (S l) (TNamed n) (VStruct vs0) = match dec_ent T (at_ j l) (view (dec T rnd) j) fs d vs0 with Some vs => Some (VStruct vs) | None => None end.
  Proof. intros G. unfold CodecProofs.at_. cbn [levels]. unfold dec_step at 1. rewrite G. reflexivity. Qed.

  Lemma LVL_S : exists l, LVL = S l.
  Proof. exists 9. reflexivity. Qed.

  Lemma named_inv n fs parts d M v : get n T = Some (EStruct fs parts d) -> ty_good T (TNamed n) = true ->
    unmarshal T rnd (TNamed n) (JObj M) = Some v ->
    exists vs0 vs, v = VStruct vs /\ length fs = length vs0 /\ (forall i f v0, nth_error fs i = Some f -> nth_error vs0 i = Some v0 -> zero_at T (f_ty f) v0) /\
      exists same, dec_ent T same (SObj (mview M)) fs d vs0 = Some vs.
  Proof.
    intros G TG E. unfold unmarshal in E. rewrite (dec_at T rnd) in E.
    destruct (zero_named T n fs parts d _ G (ty_good_zero T (fun _ => false) _ TG)) as (vs0 & Z & L0 & H0).
    rewrite Z in E. destruct LVL_S as [l El]. rewrite El in E. rewrite (at_named n fs parts d _ _ _ G) in E. cbn [view] in E.
    fold (mview M) in E. destruct (dec_ent _ _ _ _ _ _) as [vs|] eqn:D; [|discriminate]. injection E as <-. exists vs0, vs. split; [reflexivity|]. split; [exact L0|]. split; [exact H0|]. eauto.
  Qed.

  Lemma obj_required n o k M : obj_check (n, o) = true -> In k (o_req o) -> ~ In k (map fst M) -> unmarshal T rnd (TNamed n) (JObj M) = None.
  Proof.
    intros C I NI. destruct (obj_check_ok n o C) as (fs & parts & d & G & TG & Tb).
    destruct (unmarshal T rnd (TNamed n) (JObj M)) as [v|] eqn:E; [|reflexivity]. exfalso.
    destruct (named_inv n fs parts d M v G TG E) as (vs0 & vs & -> & L0 & Z0 & same & D).
    rewrite dec_ent_raw in D; [discriminate|]. apply dec_raw_checks. apply not_true_iff_false. unfold raw_checks. rewrite !andb_true_iff. intros [[[[R _] _] _] _].
    rewrite forallb_forall in R. specialize (R k (F_req _ _ _ Tb k I)). unfold raw_has in R. apply in_list_In in R. cbn [raw_map] in R. apply (proj1 (dedup_keys _ _)) in R.
    rewrite mview_keys in R. exact (NI R).
  Qed.

  (* ---------- closed objects ---------- *)

  Definition closed_check (no : string * obj) : bool :=
    match get (fst no) T with
    | Some (EStruct fs parts d) =>
        d_closed d && match d_addl d with [] => true | _ => false end &&
        forallb (fun k => match find_field fs k with
                          | Some i => match nth_error fs i with
                                      | Some f => match f_key f with Some k' => String.eqb k k' | None => false end
                                      | None => false
                                      end
                          | None => true
                          end) (map fst (d_const d) ++ d_known d) &&
        forallb (fun pi => pat_free (fst pi) fs) (d_pats d)
    | _ => false
    end.

  Lemma closed_check_ok n o fs parts d : closed_check (n, o) = true -> get n T = Some (EStruct fs parts d) ->
    d_closed d = true /\ d_addl d = [] /\
    forall k i f, In k (map fst (d_const d)) \/ In k (d_known d) \/ matched d k = true -> find_field fs k = Some i -> nth_error fs i = Some f -> f_key f = Some k.
  Proof.
    unfold closed_check. cbn [fst]. intros C G. rewrite G in C. rewrite !andb_true_iff in C. destruct C as [[[C1 C2] C3] C4].
    split; [exact C1|]. split; [destruct (d_addl d); [reflexivity|discriminate]|]. rewrite forallb_forall in C3, C4.
    intros k i f H F Ef.
    assert (X : In k (map fst (d_const d) ++ d_known d) -> f_key f = Some k).
    { intros I. specialize (C3 k I). rewrite F, Ef in C3. destruct (f_key f); [|discriminate]. apply String.eqb_eq in C3. congruence. }
    destruct H as [H|[H|H]]; [apply X; apply in_or_app; auto|apply X; apply in_or_app; auto|].
    unfold matched in H. apply existsb_exists in H. destruct H as ([p i0] & Ip & Mk). cbn [fst] in Mk.
    rewrite (class_free_ok (KPat p) fs k (C4 _ Ip) Mk) in F. discriminate.
  Qed.

  Lemma obj_unknown n o k M : obj_check (n, o) = true -> closed_check (n, o) = true -> In k (map fst M) -> ~ In k (o_keys o) ->
    (forall p x, In (p, x) (o_pats o) -> matches p k = false) -> unmarshal T rnd (TNamed n) (JObj M) = None.
  Proof.
    intros C Cl Ik NK NP. destruct (obj_check_ok n o C) as (fs & parts & d & G & TG & Tb). destruct (closed_check_ok n o fs parts d Cl G) as (Dc & Da & _).
    destruct (unmarshal T rnd (TNamed n) (JObj M)) as [v|] eqn:E; [|reflexivity]. exfalso.
    destruct (named_inv n fs parts d M v G TG E) as (vs0 & vs & -> & L0 & Z0 & same & D).
    rewrite dec_ent_raw in D; [discriminate|]. intros w. unfold dec_raw. destruct (raw_checks _ _ && _); [|reflexivity].
    destruct (dec_pats _ _ _ _ _); [|reflexivity]. rewrite Da, Dc. cbn [andb raw_map].
    destruct (raw_left d (raw_rest d (dedup (mview M)))) as [|m ms] eqn:RL; [|reflexivity]. exfalso.
    assert (Ik' : In k (map fst (dedup (mview M)))) by (apply dedup_keys; rewrite mview_keys; exact Ik).
    apply key_pair in Ik'. destruct Ik' as [x Ix].
    assert (X : In (k, x) (raw_left d (raw_rest d (dedup (mview M))))).
    { unfold raw_left, raw_rest. apply filter_In. split; [apply filter_In; split; [exact Ix|]|]; cbn [fst].
      - assert (N1 : ~ In k (map fst (d_const d))). { intros X. apply key_pair in X. destruct X as [c X]. apply NK. exact (proj1 (F_const _ _ _ Tb k c X)). }
        assert (N2 : ~ In k (d_known d)). { intros X. apply NK. exact (F_known _ _ _ Tb k X). }
        apply in_list_false in N1, N2. rewrite N1, N2. reflexivity.
      - destruct (matched d k) eqn:Mk; [|reflexivity]. exfalso. unfold matched in Mk. apply existsb_exists in Mk. destruct Mk as ([p i] & Ip & Mk). cbn [fst] in Mk.
        destruct (F_pat _ _ _ Tb p i Ip) as (f & t & _ & _ & Io & _). rewrite (NP p _ Io) in Mk. discriminate. }
    rewrite RL in X. exact X.
  Qed.

  (* ---------- nothing is lost ---------- *)

  (* No two keys of [M] are for the same field. *)
  Definition apart (n : string) (M : list (string * json)) : Prop :=
    forall k k' i, In k (map fst M) -> In k' (map fst M) -> find_field (fields_of T n) k = Some i -> find_field (fields_of T n) k' = Some i -> k = k'.

  Lemma obj_kept n o M v : obj_check (n, o) = true -> NoDup (map fst M) -> apart n M ->
    unmarshal T rnd (TNamed n) (JObj M) = Some v -> exists vs, v = VStruct vs /\ forall k j, In (k, j) M ->
      In k (o_keys o) \/ (exists p x, In (p, x) (o_pats o) /\ legal p k) -> kept T rnd n o vs k j.
  Proof.
    intros C N Ap E. destruct (obj_check_ok n o C) as (fs & parts & d & G & TG & Tb).
    assert (FS : fields_of T n = fs) by (unfold fields_of; rewrite G; reflexivity). unfold apart in Ap. rewrite FS in Ap.
    destruct (named_inv n fs parts d M v G TG E) as (vs0 & vs & -> & L0 & Z0 & same & D).
    exists vs. split; [reflexivity|].
    pose proof (F_ok _ _ _ Tb) as OK. unfold ent_ok in OK. rewrite !andb_true_iff in OK. destruct OK as [[[[[[K1 K2] K3] K4] K5] K6] K7].
    apply nodupb_NoDup in K3. rewrite forallb_forall in K4, K6.
    assert (NPs : NoDup (map snd (d_pats d))) by (eapply NoDup_app_l; exact K3).
    pose proof (accept_inv _ fs d M vs0 vs D L0 N NPs) as A.
    assert (Lv : length vs = length fs) by (rewrite (A_len _ _ _ _ _ A); congruence).
    intros k j I [Ik|(p & x & Ip & Lk)].
    - destruct (in_dec string_dec k (map fst (d_const d))) as [Ic|Nc].
      + left. apply key_pair in Ic. destruct Ic as [c Ic]. exists c. split; [exact (proj2 (F_const _ _ _ Tb k c Ic))|].
        apply json_scalar_eq. exact (A_const _ _ _ _ _ A k c j Ic I).
      + right. left. destruct (F_keys _ _ _ Tb k Ik) as [X|(i & f & Fa & Ef & Sp & Na)]; [contradiction|].
        assert (Ff : find_field fs k = Some i) by (unfold find_field; rewrite Fa; reflexivity).
        destruct (find_at_some _ _ _ Fa) as (f' & k' & Ef' & Ek & Eq). apply String.eqb_eq in Eq. subst k'. rewrite Ef in Ef'. injection Ef' as <-.
        pose proof (fields_check_nth _ _ _ _ _ K1 i f Ef) as FC. cbn [Nat.add] in FC. unfold field_check in FC. rewrite Ek in FC. rewrite !andb_true_iff in FC.
        destruct FC as [TGf [[[[FC1 FC2] FC3] FC4] FC5]]. apply negb_true_iff in FC3.
        destruct (nth_lt_some vs0 i) as [v0 Ev0]. { rewrite <- L0. eapply nth_some_lt. exact Ef. }
        assert (FX : forall k', In (i, k') (d_fix d) -> k' = k /\ f_ty f = TPtr TAny).
        { intros k' If. specialize (K6 _ If). cbn [fst snd] in K6. rewrite Ef, Ek in K6. apply andb_true_iff in K6. destruct K6 as [P1 P2].
          apply String.eqb_eq in P2. split; [congruence|]. destruct (f_ty f) as [| | | | | |[]| | |]; try discriminate P1; reflexivity. }
        assert (GT : got fs d vs i k j v0).
        { apply (A_field _ _ _ _ _ A FC2 k j i v0 I Ff Ev0).
          - intros k' Ik' Fk'. eapply Ap; [exact Ik'|eapply keys_In; exact I|exact Fk'|exact Ff].
          - exact FC3.
          - intros X. specialize (K4 i X). unfold map_pos in K4. rewrite Ef, Ek in K4. rewrite andb_false_r in K4. discriminate K4.
          - intros k' If. exact (proj1 (FX k' If)). }
        destruct GT as (f' & w & Ef' & Ed & Ew). rewrite Ef in Ef'. injection Ef' as <-.
        rewrite (zero_at_LVL (f_ty f) v0 TGf (Z0 i f v0 Ef Ev0)) in Ed. fold (unmarshal T rnd (f_ty f) j) in Ed.
        destruct Ew as [Ew|(-> & If & Ew)].
        * exists (f_name f), (f_ty f), w. rewrite FS. split; [exact Sp|]. split; [exact (by_name_at _ fs vs i f w Na Ef Ew)|left; exact Ed].
        * exists (f_name f), (f_ty f), (VPtr (VAny JNull)). rewrite FS. split; [exact Sp|]. split; [exact (by_name_at _ fs vs i f _ Na Ef Ew)|]. right.
          destruct (FX _ If) as [_ Ety]. split; [exact Ety|]. split; [|reflexivity]. rewrite Ety in Ed.
          unfold unmarshal in Ed. rewrite (dec_at T rnd) in Ed. unfold CodecProofs.at_, LVL in Ed. cbn [levels] in Ed. unfold dec_step in Ed.
          destruct j; cbn [view] in Ed; try discriminate Ed. reflexivity.
    - right. right. destruct (F_pats _ _ _ Tb p x Ip) as [(i & Id) Hk]. apply matches_legal in Lk. destruct (Hk k Lk) as [N1 N2].
      destruct (F_pat _ _ _ Tb p i Id) as (f & t & Ef & Et & Io & En & Na).
      destruct (A_pat _ _ _ _ _ A k j p i I Id Lk N1 N2 Na) as (f' & t' & w & Ef' & Et' & Ed & (m & Em & Gm)).
      rewrite Ef in Ef'. injection Ef' as <-. rewrite Et in Et'. injection Et' as <-.
      exists p, (f_name f), t, m, w. split; [exact Io|]. split; [apply matches_legal; exact Lk|]. rewrite FS. split; [|auto].
      rewrite <- Et. exact (by_name_at _ fs vs i f _ En Ef Em).
  Qed.

  Lemma closed_apart n o M v : obj_check (n, o) = true -> closed_check (n, o) = true -> NoDup (map fst M) ->
    unmarshal T rnd (TNamed n) (JObj M) = Some v ->
    apart n M /\ forall k, In k (map fst M) -> In k (o_keys o) \/ (exists p x, In (p, x) (o_pats o) /\ legal p k).
  Proof.
    intros C Cl N E. destruct (obj_check_ok n o C) as (fs & parts & d & G & TG & Tb). destruct (closed_check_ok n o fs parts d Cl G) as (Dc & Da & Ex).
    assert (FS : fields_of T n = fs) by (unfold fields_of; rewrite G; reflexivity). unfold apart. rewrite FS.
    destruct (named_inv n fs parts d M v G TG E) as (vs0 & vs & -> & L0 & Z0 & same & D).
    pose proof (F_ok _ _ _ Tb) as OK. unfold ent_ok in OK. rewrite !andb_true_iff in OK. destruct OK as [[[[[[K1 K2] K3] K4] K5] K6] K7].
    apply nodupb_NoDup in K3.
    assert (NPs : NoDup (map snd (d_pats d))) by (eapply NoDup_app_l; exact K3).
    pose proof (A_closed _ _ _ _ _ (accept_inv _ fs d M vs0 vs D L0 N NPs) Dc Da) as A. split.
    - intros k k' i Ik Ik' F F'. destruct (find_field_some _ _ _ F) as (f & k0 & Ef & _ & _).
      pose proof (Ex k i f (A k Ik) F Ef). pose proof (Ex k' i f (A k' Ik') F' Ef). congruence.
    - intros k Ik. destruct (A k Ik) as [H|[H|H]].
      + left. apply key_pair in H. destruct H as [c H]. exact (proj1 (F_const _ _ _ Tb k c H)).
      + left. exact (F_known _ _ _ Tb k H).
      + right. unfold matched in H. apply existsb_exists in H. destruct H as ([p i] & Ip & Mk). cbn [fst] in Mk.
        destruct (F_pat _ _ _ Tb p i Ip) as (f & t & _ & _ & Io & _). exists p, (f_name f, t). split; [exact Io|apply matches_legal; exact Mk].
  Qed.

  (* ---------- choices ---------- *)

  Definition is_some {A} (o : option A) : bool := match o with Some _ => true | None => false end.
  Definition or_nil (o : option val) : val := match o with Some w => w | None => VNil end.

  Lemma set_nth_mid {A} (x y : A) r : forall l, set_nth (length l) x (l ++ y :: r) = l ++ x :: r.
  Proof. induction l as [|z l IH]; [reflexivity|]. cbn [length app set_nth]. rewrite IH. reflexivity. Qed.
  Lemma nth_mid {A} (y : A) r : forall l, nth_error (l ++ y :: r) (length l) = Some y.
  Proof. induction l as [|z l IH]; [reflexivity|exact IH]. Qed.

  Lemma dec_alts_all (same : decoder) : forall fs pre vs c, length pre = length vs ->
    dec_alts same (pre ++ fs) (seq (length pre) (length fs)) (vs ++ map (fun _ => VNil) fs) c =
    (vs ++ map (fun f => or_nil (same (f_ty f) VNil)) fs, c + length (filter is_some (map (fun f => same (f_ty f) VNil) fs))).
  Proof.
    induction fs as [|f fs IH]; intros pre vs c L; cbn [length seq map filter dec_alts]; [rewrite Nat.add_0_r; reflexivity|].
    rewrite nth_mid, L, nth_mid.
    assert (A : forall x, dec_alts same (pre ++ f :: fs) (seq (S (length vs)) (length fs)) (vs ++ x :: map (fun _ => VNil) fs) =
                          dec_alts same ((pre ++ [f]) ++ fs) (seq (length (pre ++ [f])) (length fs)) ((vs ++ [x]) ++ map (fun _ => VNil) fs)).
    { intros x. rewrite <- !app_assoc, app_length, L, Nat.add_comm. reflexivity. }
    assert (B : forall x : val, length (pre ++ [f]) = length (vs ++ [x])) by (intros x; rewrite !app_length, L; reflexivity).
    destruct (same (f_ty f) VNil) as [w|]; rewrite set_nth_mid, A, IH by apply B; rewrite <- app_assoc; cbn [is_some or_nil app length].
    - rewrite <- Nat.add_succ_comm. reflexivity.
    - reflexivity.
  Qed.

  Definition nils {A} (l : list A) : bool := match l with [] => true | _ => false end.
  Fixpoint tys_eqb (a b : list ty) : bool :=
    match a, b with
    | [], [] => true
    | x :: a, y :: b => ty_eqb x y && tys_eqb a b
    | _, _ => false
    end.
  Lemma tys_eqb_eq : forall a b, tys_eqb a b = true -> a = b.
  Proof.
    induction a as [|x a IH]; intros [|y b] H; try discriminate H; [reflexivity|]. cbn [tys_eqb] in H. apply andb_true_iff in H. destruct H as [A B].
    f_equal; [apply ty_eqb_eq; exact A|auto].
  Qed.

  Definition choice_check (nt : string * list ty) : bool :=
    let (n, ts) := nt in
    match get n T with
    | Some (EStruct fs _ d) =>
        tys_eqb (map f_ty fs) ts && negb (nils fs) &&
        forallb (fun t => match t with TPtr _ => true | _ => false end && lvl_ok T LVL t && lvl_ok T (pred LVL) t) ts &&
        nils (d_not d) && negb (d_struct d) && nils (d_embed d) &&
        (if list_eq_dec Nat.eq_dec (d_oneof d) (seq 0 (length fs)) then true else false) &&
        nils (d_require d) && nils (d_xor d) && nils (d_const d) && nils (d_notconst d) && nils (d_absent d) && nils (d_lower d) &&
        nils (d_fix d) && nils (d_pats d) && nils (d_addl d) && negb (d_closed d)
    | _ => false
    end.

  Lemma nils_eq {A} (l : list A) : nils l = true -> l = [].
  Proof. destruct l; [reflexivity|discriminate]. Qed.

  Lemma dec_pats_nil fs (ms : members) vs : dec_pats T fs [] ms vs = Some vs.
  Proof. induction ms as [|[k [j d]] ms IH]; [reflexivity|exact IH]. Qed.

  Lemma choice_eq n ts j : choice_check (n, ts) = true ->
    unmarshal T rnd (TNamed n) j =
      (let rs := map (fun t => unmarshal T rnd t j) ts in
       if length (filter is_some rs) =? 1 then Some (VStruct (map or_nil rs)) else None).
  Proof.
    unfold choice_check. destruct (get n T) as [[|fs parts d]|] eqn:G; try discriminate. rewrite !andb_true_iff.
    intros H. repeat match type of H with _ /\ _ => let K := fresh "K" in destruct H as [H K] end.
    apply tys_eqb_eq in H. destruct d as [dn ds de d1 dr dx dc dnc da dl df dk dp dd dcl].
    cbn [d_not d_struct d_embed d_oneof d_require d_xor d_const d_notconst d_absent d_lower d_fix d_pats d_addl d_closed] in *.
    apply nils_eq in K12, K10, K8, K7, K6, K5, K4, K3, K2, K1, K0. apply negb_true_iff in K, K11. subst. destruct (list_eq_dec Nat.eq_dec d1 _) as [->|]; [|discriminate].
    rewrite forallb_forall in K13. unfold unmarshal at 1. rewrite (dec_at T rnd). destruct LVL_S as [l El].
    assert (Z : zero T LVL (TNamed n) = VStruct (map (fun _ => VNil) fs)).
    { rewrite El. cbn [zero]. rewrite G. f_equal. apply map_ext_in. intros f I. specialize (K13 (f_ty f) (in_map f_ty _ _ I)).
      rewrite !andb_true_iff in K13. destruct (f_ty f); try (destruct K13 as [[X _] _]; discriminate X). destruct l; reflexivity. }
    assert (U : map (fun f => at_ j l (f_ty f) VNil) fs = map (fun t => unmarshal T rnd t j) (map f_ty fs)).
    { rewrite map_map. apply map_ext_in. intros f I. specialize (K13 (f_ty f) (in_map f_ty _ _ I)). rewrite !andb_true_iff in K13. destruct K13 as [[X Y] W].
      unfold unmarshal. rewrite (dec_at T rnd). rewrite El in Y, W |- *. cbn [pred] in W. rewrite (level_irr j (S l) (f_ty f) l _ Y W).
      destruct (f_ty f); try discriminate X. reflexivity. }
    rewrite Z. rewrite El at 1. rewrite (at_named n fs parts _ _ _ _ G). unfold dec_ent. cbn [d_not d_struct d_embed d_oneof forallb dec_embed].
    pose proof (dec_alts_all (at_ j l) fs [] [] 0 eq_refl) as DA. cbn [app length Nat.add] in DA. rewrite DA. rewrite <- map_map with (g := or_nil) (f := fun f => at_ j l (f_ty f) VNil).
    rewrite U. cbv zeta. destruct (length fs) as [|m] eqn:Lf; [destruct fs; discriminate|]. cbn [seq].
    destruct (_ =? 1); [|reflexivity]. unfold dec_raw. cbn [d_pats d_addl d_closed d_fix dec_fix raw_checks lower_checks d_require d_xor d_const d_notconst d_absent d_lower forallb andb].
    rewrite dec_pats_nil. reflexivity.
  Qed.

  Lemma one_of {A} : forall rs : list (option A), length (filter is_some rs) = 1 <->
    exists l x r, rs = l ++ Some x :: r /\ forall y, In y (l ++ r) -> y = None.
  Proof.
    assert (Z : forall rs : list (option A), length (filter is_some rs) = 0 <-> forall y, In y rs -> y = None).
    { induction rs as [|[y|] rs IH]; cbn [filter is_some length].
      - split; [intros _ y []|reflexivity].
      - split; [discriminate|]. intros H. specialize (H (Some y) (or_introl eq_refl)). discriminate.
      - rewrite IH. split; [intros H y [<-|I]; auto|]. intros H y I. apply H. right. exact I. }
    induction rs as [|[y|] rs IH]; cbn [filter is_some length].
    - split; [discriminate|]. intros (l & x & r & E & _). destruct l; discriminate.
    - split.
      + intros E. exists [], y, rs. split; [reflexivity|]. apply Z. injection E as E. exact E.
      + intros (l & x & r & E & H). destruct l as [|z l]; [injection E as -> ->; f_equal; apply Z; exact H|].
        injection E as <- _. specialize (H (Some y) (or_introl eq_refl)). discriminate.
    - rewrite IH. split.
      + intros (l & x & r & -> & H). exists (None :: l), x, r. split; [reflexivity|]. intros z [<-|I]; auto.
      + intros (l & x & r & E & H). destruct l as [|z l]; [discriminate|]. injection E as _ ->. exists l, x, r. split; [reflexivity|]. intros z' I. apply H. right. exact I.
  Qed.

  Lemma choice n ts j v : choice_check (n, ts) = true -> (unmarshal T rnd (TNamed n) j = Some v <-> chosen T rnd ts j v).
  Proof.
    intros C. rewrite (choice_eq n ts j C). cbv zeta. unfold chosen.
    assert (NM : forall l, (forall t, In t l -> unmarshal T rnd t j = None) -> map or_nil (map (fun t => unmarshal T rnd t j) l) = map (fun _ => VNil) l).
    { intros l H. rewrite map_map. apply map_ext_in. intros t I. rewrite (H t I). reflexivity. }
    split.
    - destruct (_ =? 1) eqn:E; [|discriminate]. apply Nat.eqb_eq in E. apply one_of in E. intros V. injection V as <-. destruct E as (l' & w & r' & E & H).
      apply map_eq_app in E. destruct E as (l & r0 & -> & <- & E). destruct r0 as [|t r]; [discriminate|]. cbn [map] in E. injection E as E1 <-.
      assert (Hl : forall t', In t' (l ++ r) -> unmarshal T rnd t' j = None).
      { intros t' I. apply H. rewrite <- map_app. apply (in_map (fun t => unmarshal T rnd t j)). exact I. }
      exists l, t, r, w. split; [reflexivity|]. split; [exact E1|]. split; [exact Hl|]. rewrite !map_app. cbn [map]. rewrite E1. cbn [or_nil].
      rewrite !NM; [reflexivity| |]; intros t' I; apply Hl; apply in_or_app; auto.
    - intros (l & t & r & w & -> & E & H & ->).
      assert (O : length (filter is_some (map (fun t => unmarshal T rnd t j) (l ++ t :: r))) = 1).
      { apply one_of. exists (map (fun t => unmarshal T rnd t j) l), w, (map (fun t => unmarshal T rnd t j) r). rewrite map_app. cbn [map]. rewrite E. split; [reflexivity|].
        rewrite <- map_app. intros y I. apply in_map_iff in I. destruct I as (t' & <- & I). auto. }
      rewrite O. cbn [Nat.eqb]. rewrite !map_app. cbn [map]. rewrite E. cbn [or_nil]. rewrite !NM; [reflexivity| |]; intros t' I; apply H; apply in_or_app; auto.
  Qed.

  (* ---------- other values than objects ---------- *)

  Definition is_struct (n : string) : bool :=
    match get n T with Some (EStruct fs _ d) => d_struct d && zero_ok T LVL (TNamed n) | _ => false end.

  Lemma not_struct n j : is_struct n = true -> j <> JNull -> (forall M, j <> JObj M) -> unmarshal T rnd (TNamed n) j = None.
  Proof.
    unfold is_struct. destruct (get n T) as [[|fs parts d]|] eqn:G; try discriminate. rewrite !andb_true_iff. intros [S Z] N O.
    destruct (zero_named T n fs parts d (zero T LVL (TNamed n)) G) as (vs0 & E0 & _). { exists LVL. split; [exact Z|reflexivity]. }
    unfold unmarshal. rewrite (dec_at T rnd), E0. destruct LVL_S as [l El]. rewrite El, (at_named n fs parts d j l vs0 G).
    unfold dec_ent. rewrite S. destruct (forallb _ (d_not d)); [|reflexivity].
    destruct j; cbn [view dec_struct]; try reflexivity; [congruence|]. exfalso. exact (O m eq_refl).
  Qed.

  Lemma null_required n o k : obj_check (n, o) = true -> In k (o_req o) -> unmarshal T rnd (TNamed n) JNull = None.
  Proof.
    intros C I. destruct (obj_check_ok n o C) as (fs & parts & d & G & TG & Tb).
    destruct (zero_named T n fs parts d (zero T LVL (TNamed n)) G (ty_good_zero T (fun _ => false) _ TG)) as (vs0 & E0 & _).
    unfold unmarshal. rewrite (dec_at T rnd), E0. destruct LVL_S as [l El]. rewrite El, (at_named n fs parts d _ l vs0 G).
    rewrite dec_ent_raw; [reflexivity|]. apply dec_raw_checks. apply not_true_iff_false. unfold raw_checks. rewrite !andb_true_iff. intros [[[[R _] _] _] _].
    rewrite forallb_forall in R. specialize (R k (F_req _ _ _ Tb k I)). discriminate R.
  Qed.

  (* ---------- keys apart under case folding ---------- *)

  Lemma find_fold fs k i : find_field fs k = Some i -> exists f k', nth_error fs i = Some f /\ f_key f = Some k' /\ fold_key k = fold_key k'.
  Proof.
    unfold find_field. destruct (find_at (String.eqb k) fs) as [i'|] eqn:F.
    - intros E. injection E as <-. destruct (find_at_some _ _ _ F) as (f & k' & Ef & Ek & Eq). apply String.eqb_eq in Eq. subst k'. eauto.
    - intros E. destruct (find_at_some _ _ _ E) as (f & k' & Ef & Ek & Eq). apply String.eqb_eq in Eq. eauto.
  Qed.

  Lemma fold_apart n M : (forall k k', In k (map fst M) -> In k' (map fst M) -> fold_key k = fold_key k' -> k = k') -> apart n M.
  Proof.
    intros H k k' i I I' F F'. destruct (find_fold _ _ _ F) as (f & a & Ef & Ea & Fa). destruct (find_fold _ _ _ F') as (f' & a' & Ef' & Ea' & Fa').
    apply H; [exact I|exact I'|]. congruence.
  Qed.

  (* ---------- types with AdditionalProperties ---------- *)

  Definition addl_check (n : string) (p : pat) (pname : string) (name : string) (t pt : ty) : bool :=
    match get n T with
    | Some (EStruct [f; g] _ d) =>
        String.eqb (f_name f) pname && String.eqb (f_name g) name && negb (String.eqb pname name) && ty_eqb (f_ty f) (TMap pt) && ty_eqb (f_ty g) (TMap t) &&
        match d_pats d, d_addl d with [(p', 0)], [1] => pat_eqb p p' | _, _ => false end &&
        nils (d_const d) && nils (d_known d) && ty_good T (TNamed n)
    | _ => false
    end.

  Lemma addl_kept n p pname name t pt M v : addl_check n p pname name t pt = true -> NoDup (map fst M) ->
    unmarshal T rnd (TNamed n) (JObj M) = Some v -> exists vs, v = VStruct vs /\ forall k j, In (k, j) M ->
      (legal p k -> exists m w, by_name pname (fields_of T n) vs = Some (TMap pt, VMap m) /\ get k m = Some w /\ unmarshal T rnd pt j = Some w) /\
      (~ legal p k -> exists m w, by_name name (fields_of T n) vs = Some (TMap t, VMap m) /\ get k m = Some w /\ unmarshal T rnd t j = Some w).
  Proof.
    unfold addl_check, fields_of. destruct (get n T) as [[|fs parts d]|] eqn:G; try discriminate. destruct fs as [|f [|g [|? ?]]]; try discriminate.
    rewrite !andb_true_iff. intros [[[[[[[[A1 A2] A3] A4] A5] A6] A7] A8] A9] N E.
    apply String.eqb_eq in A1, A2. apply negb_true_iff in A3. apply ty_eqb_eq in A4, A5. apply nils_eq in A7, A8.
    destruct (d_pats d) as [|[p' [|?]] [|? ?]] eqn:Ep; try discriminate A6. destruct (d_addl d) as [|[|[|?]] [|? ?]] eqn:Ea; try discriminate A6.
    apply pat_eqb_eq in A6. subst p'.
    destruct (named_inv n _ parts d M v G A9 E) as (vs0 & vs & -> & L0 & Z0 & same & D).
    assert (NPs : NoDup (map snd (d_pats d))) by (rewrite Ep; constructor; [intros []|constructor]).
    pose proof (accept_inv _ _ d M vs0 vs D L0 N NPs) as A. pose proof (A_len _ _ _ _ _ A) as Lv. rewrite <- L0 in Lv.
    destruct vs as [|v0 [|v1 [|? ?]]]; try discriminate Lv. exists [v0; v1]. split; [reflexivity|]. intros k j I. split; intros Lk.
    - apply matches_legal in Lk.
      destruct (A_pat _ _ _ _ _ A k j p 0 I) as (f' & t' & w & Ef' & Et' & Ed & (m & Em & Gm)).
      + rewrite Ep. left. reflexivity.
      + exact Lk.
      + rewrite A7. intros [].
      + rewrite A8. intros [].
      + rewrite Ea. intros [X|[]]. discriminate X.
      + cbn in Ef', Em. injection Ef' as <-. rewrite A4 in Et'. injection Et' as <-. injection Em as ->. exists m, w.
        cbn [by_name]. rewrite A1, String.eqb_refl, A4. auto.
    - destruct (A_addl _ _ _ _ _ A k j 1 I) as (f' & t' & w & Ef' & Et' & Ed & (m & Em & Gm)).
      + rewrite Ea. reflexivity.
      + unfold matched. rewrite Ep. cbn [existsb fst]. rewrite orb_false_r. apply not_true_iff_false. rewrite matches_legal. exact Lk.
      + rewrite A7. intros [].
      + rewrite A8. intros [].
      + cbn in Ef', Em. injection Ef' as <-. rewrite A5 in Et'. injection Et' as <-. injection Em as ->. exists m, w.
        cbn [by_name]. rewrite A1, A3, A2, String.eqb_refl, A5. auto.
  Qed.
End Strict.
