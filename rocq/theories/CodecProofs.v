(* Generic lemmas about the codec interpreters. *)
From Coq Require Import Lia.
From Verif Require Import Str SMap Json CodecModel CodecSpec.

(* ---------- lists ---------- *)

Lemma nth_set_same {A} (x : A) : forall i l, i < length l -> nth_error (set_nth i x l) i = Some x.
Proof.
  induction i as [|i IH]; intros [|y l] H; cbn in *; try lia; [reflexivity|]. apply IH. lia.
Qed.

Lemma nth_set_other {A} (x : A) : forall i l k, k <> i -> nth_error (set_nth i x l) k = nth_error l k.
Proof.
  induction i as [|i IH]; intros [|y l] [|k] N; cbn; try reflexivity; try lia. apply IH. lia.
Qed.

Lemma length_set {A} (x : A) : forall i l, length (set_nth i x l) = length l.
Proof. induction i as [|i IH]; intros [|y l]; cbn; auto. Qed.

Lemma nth_some_lt {A} (l : list A) i x : nth_error l i = Some x -> i < length l.
Proof. intros H. apply nth_error_Some. congruence. Qed.

Lemma nth_lt_some {A} (l : list A) i : i < length l -> exists x, nth_error l i = Some x.
Proof. intros H. destruct (nth_error l i) eqn:E; [eauto|]. apply nth_error_None in E. lia. Qed.

Lemma nth_ext_list {A} : forall (l l' : list A), length l = length l' ->
  (forall i x, nth_error l i = Some x -> nth_error l' i = Some x) -> l = l'.
Proof.
  induction l as [|x l IH]; intros [|y l'] L H; cbn in *; try discriminate; [reflexivity|].
  f_equal.
  - specialize (H 0 x eq_refl). cbn in H. congruence.
  - apply IH; [lia|]. intros i z E. exact (H (S i) z E).
Qed.

Lemma in_list_In k l : in_list k l = true <-> In k l.
Proof.
  unfold in_list. rewrite existsb_exists. split.
  - intros (x & I & E). apply String.eqb_eq in E. subst. exact I.
  - intros I. exists k. split; [exact I|apply String.eqb_refl].
Qed.

Lemma in_list_false k l : in_list k l = false <-> ~ In k l.
Proof. rewrite <- in_list_In. destruct (in_list k l); split; congruence. Qed.

Lemma dedup_id {A} : forall ms : list (string * A), NoDup (map fst ms) -> dedup ms = ms.
Proof.
  induction ms as [|m ms IH]; intros N; cbn; [reflexivity|].
  inversion N as [|? ? NI N']; subst.
  replace (in_list (fst m) (map fst ms)) with false by (symmetry; apply in_list_false; exact NI).
  rewrite IH by exact N'. reflexivity.
Qed.

Lemma dedup_keys {A} k : forall ms : list (string * A), In k (map fst (dedup ms)) <-> In k (map fst ms).
Proof.
  induction ms as [|m ms IH]; cbn; [tauto|].
  destruct (in_list (fst m) (map fst ms)) eqn:E.
  - apply in_list_In in E. rewrite IH. split; [auto|]. intros [<-|I]; [exact E|exact I].
  - cbn. rewrite IH. tauto.
Qed.

Lemma dedup_nodup {A} : forall ms : list (string * A), NoDup (map fst (dedup ms)).
Proof.
  induction ms as [|m ms IH]; cbn; [constructor|].
  destruct (in_list (fst m) (map fst ms)) eqn:E; [exact IH|].
  cbn. constructor; [|exact IH]. rewrite dedup_keys. apply in_list_false. exact E.
Qed.

Lemma dedup_sub {A} (x : string * A) : forall ms, In x (dedup ms) -> In x ms.
Proof.
  induction ms as [|m ms IH]; cbn; [tauto|].
  destruct (in_list (fst m) (map fst ms)); cbn; tauto.
Qed.

Lemma put_fresh {A} (k : string) (v : A) : forall m, ~ In k (map fst m) -> put k v m = m ++ [(k, v)].
Proof.
  induction m as [|[k' v'] m IH]; cbn; intros N; [reflexivity|].
  destruct (String.eqb k k') eqn:E; [apply String.eqb_eq in E; subst; tauto|].
  rewrite IH by tauto. reflexivity.
Qed.

Lemma seq_opt_Forall2 {A B} (f : A -> option B) : forall l r, seq_opt (map f l) = Some r -> Forall2 (fun x y => f x = Some y) l r.
Proof.
  induction l as [|x l IH]; cbn; intros r H.
  - injection H as <-. constructor.
  - destruct (f x) eqn:E; [|discriminate]. destruct (seq_opt (map f l)) eqn:E2; [|discriminate].
    injection H as <-. constructor; auto.
Qed.

Lemma Forall2_seq_opt {A B} (f : A -> option B) : forall l r, Forall2 (fun x y => f x = Some y) l r -> seq_opt (map f l) = Some r.
Proof. induction 1 as [|x y l r E F IH]; cbn; [reflexivity|]. rewrite E, IH. reflexivity. Qed.

Lemma F2_length {A B} (R : A -> B -> Prop) l r : Forall2 R l r -> length l = length r.
Proof. induction 1; cbn; auto. Qed.

(* ---------- fields ---------- *)

Lemma find_at_some test : forall fs i, find_at test fs = Some i ->
  exists f k, nth_error fs i = Some f /\ f_key f = Some k /\ test k = true.
Proof.
  induction fs as [|f fs IH]; cbn; intros i H; [discriminate|].
  destruct (f_key f) as [k|] eqn:K.
  - destruct (test k) eqn:E.
    + injection H as <-. exists f, k. auto.
    + destruct (find_at test fs) eqn:F; [|discriminate]. injection H as <-.
      destruct (IH n eq_refl) as (f' & k' & X). exists f', k'. exact X.
  - destruct (find_at test fs) eqn:F; [|discriminate]. injection H as <-.
    destruct (IH n eq_refl) as (f' & k' & X). exists f', k'. exact X.
Qed.

Lemma find_at_none test : forall fs, find_at test fs = None ->
  forall i f k, nth_error fs i = Some f -> f_key f = Some k -> test k = false.
Proof.
  induction fs as [|f fs IH]; cbn; intros H i f' k E K; [destruct i; discriminate|].
  destruct (match f_key f with Some k => test k | None => false end) eqn:X; [discriminate|].
  destruct (find_at test fs) eqn:F; [discriminate|].
  destruct i as [|i]; cbn in E.
  - injection E as <-. rewrite K in X. exact X.
  - exact (IH eq_refl i f' k E K).
Qed.

Lemma find_field_some fs k i : find_field fs k = Some i ->
  exists f k', nth_error fs i = Some f /\ f_key f = Some k' /\ fold_key k = fold_key k'.
Proof.
  unfold find_field. destruct (find_at (String.eqb k) fs) eqn:E; intros H.
  - injection H as <-. apply find_at_some in E. destruct E as (f & k' & A & B & C).
    apply String.eqb_eq in C. subst k'. exists f, k. auto.
  - apply find_at_some in H. destruct H as (f & k' & A & B & C). apply String.eqb_eq in C. exists f, k'. auto.
Qed.

Lemma find_field_none fs k : find_field fs k = None ->
  forall i f k', nth_error fs i = Some f -> f_key f = Some k' -> fold_key k <> fold_key k'.
Proof.
  unfold find_field. destruct (find_at (String.eqb k) fs) eqn:E; intros H; [discriminate|].
  intros i f k' A B. pose proof (find_at_none _ _ H i f k' A B) as C. apply String.eqb_neq in C. exact C.
Qed.

(* ---------- decoding struct fields ---------- *)

Lemma dec_fields_ok fs : forall (ms : members) vs,
  NoDup (map fst ms) ->
  (forall k1 k2 i, In k1 (map fst ms) -> In k2 (map fst ms) ->
     find_field fs k1 = Some i -> find_field fs k2 = Some i -> k1 = k2) ->
  length fs = length vs ->
  (forall k j d i f v, In (k, (j, d)) ms -> find_field fs k = Some i ->
     nth_error fs i = Some f -> nth_error vs i = Some v -> exists v', d (f_ty f) v = Some v') ->
  exists vs', dec_fields fs ms vs = Some vs' /\ length vs' = length vs /\
    (forall i f v, nth_error fs i = Some f -> nth_error vs i = Some v ->
       (forall k j d, In (k, (j, d)) ms -> find_field fs k = Some i ->
          exists v', d (f_ty f) v = Some v' /\ nth_error vs' i = Some v') /\
       ((forall k, In k (map fst ms) -> find_field fs k <> Some i) -> nth_error vs' i = Some v)).
Proof.
  induction ms as [|[k [j d]] ms IH]; intros vs N U L S.
  - exists vs. split; [reflexivity|]. split; [reflexivity|]. intros i f v Ef Ev. split; [intros k j d []|auto].
  - cbn [map] in *. inversion N as [|? ? NI N']; subst. cbn [dec_fields].
    destruct (find_field fs k) as [i0|] eqn:F.
    + destruct (find_field_some _ _ _ F) as (f0 & k0 & Ef0 & _ & _). rewrite Ef0.
      assert (exists v0, nth_error vs i0 = Some v0) as [v0 Ev0].
      { apply nth_lt_some. rewrite <- L. eapply nth_some_lt. eassumption. }
      rewrite Ev0.
      destruct (S k j d i0 f0 v0 (or_introl eq_refl) F Ef0 Ev0) as [v1 Ed]. rewrite Ed.
      assert (Q : forall k' i, In k' (map fst ms) -> find_field fs k' = Some i -> i <> i0).
      { intros k' i I' E' ->. assert (k' = k) by (eapply U; [right; exact I'|left; reflexivity|exact E'|exact F]).
        subst k'. exact (NI I'). }
      destruct (IH (set_nth i0 v1 vs)) as (vs' & Edec & Len & P).
      * exact N'.
      * intros k1 k2 i I1 I2. apply U; right; assumption.
      * rewrite length_set. exact L.
      * intros k' j' d' i f v I' E' Ef Ev.
        rewrite nth_set_other in Ev.
        -- eapply S; [right; exact I'|exact E'|exact Ef|exact Ev].
        -- eapply Q; [|exact E']. change k' with (fst (k', (j', d'))). apply in_map. exact I'.
      * exists vs'. split; [exact Edec|]. rewrite length_set in Len. split; [exact Len|].
        intros i f v Ef Ev. destruct (Nat.eq_dec i i0) as [->|NE].
        -- assert (X : nth_error (set_nth i0 v1 vs) i0 = Some v1).
           { apply nth_set_same. eapply nth_some_lt. eassumption. }
           destruct (P i0 f v1 Ef X) as [_ P2].
           assert (Y : nth_error vs' i0 = Some v1).
           { apply P2. intros k' I' E'. exact (Q k' i0 I' E' eq_refl). }
           split.
           ++ intros k' j' d' [E|I'] E'.
              ** injection E as <- <- <-. rewrite Ef0 in Ef. injection Ef as <-. rewrite Ev0 in Ev. injection Ev as <-.
                 exists v1. auto.
              ** exfalso. refine (Q k' i0 _ E' eq_refl). change k' with (fst (k', (j', d'))). apply in_map. exact I'.
           ++ intros H. exfalso. exact (H k (or_introl eq_refl) F).
        -- assert (X : nth_error (set_nth i0 v1 vs) i = Some v) by (rewrite nth_set_other; assumption).
           destruct (P i f v Ef X) as [P1 P2]. split.
           ++ intros k' j' d' [E|I'] E'.
              ** injection E as <- <- <-. congruence.
              ** exact (P1 k' j' d' I' E').
           ++ intros H. apply P2. intros k' I'. apply H. right. exact I'.
    + destruct (IH vs) as (vs' & Edec & Len & P).
      * exact N'.
      * intros k1 k2 i I1 I2. apply U; right; assumption.
      * exact L.
      * intros k' j' d' i f v I' E' Ef Ev. eapply S; [right; exact I'|exact E'|exact Ef|exact Ev].
      * exists vs'. split; [exact Edec|]. split; [exact Len|].
        intros i f v Ef Ev. destruct (P i f v Ef Ev) as [P1 P2]. split.
        -- intros k' j' d' [E|I'] E'; [injection E as <- <- <-; congruence|exact (P1 k' j' d' I' E')].
        -- intros H. apply P2. intros k' I'. apply H. right. exact I'.
Qed.

(* ---------- maps ---------- *)

Definition mapof (v : val) : list (string * val) := match v with VMap m => m | _ => [] end.

Definition sel (p : pat) (ms : members) : members := filter (fun m => matches p (fst m)) ms.

(* ---------- the conditions of the specification as booleans ---------- *)

Lemma matches_legal p k : matches p k = true <-> legal p k.
Proof.
  assert (EX : forall l c, existsb (Ascii.eqb c) l = true <-> In c l).
  { intros l c. rewrite existsb_exists. split; [intros (x & I & E); apply Ascii.eqb_eq in E; subst; exact I|]. intros I. exists c. split; [exact I|apply Ascii.eqb_refl]. }
  assert (D1 : forall c, in_range 49 53 c = true <-> In c ["1"; "2"; "3"; "4"; "5"]%char).
  { intros c. rewrite <- EX. replace (in_range 49 53 c) with (existsb (Ascii.eqb c) ["1"; "2"; "3"; "4"; "5"]%char); [reflexivity|].
    destruct c as [[] [] [] [] [] [] [] []]; vm_compute; reflexivity. }
  assert (D2 : forall c, digit c = true <-> In c ["0"; "1"; "2"; "3"; "4"; "5"; "6"; "7"; "8"; "9"]%char).
  { intros c. rewrite <- EX. replace (digit c) with (existsb (Ascii.eqb c) ["0"; "1"; "2"; "3"; "4"; "5"; "6"; "7"; "8"; "9"]%char); [reflexivity|].
    destruct c as [[] [] [] [] [] [] [] []]; vm_compute; reflexivity. }
  assert (D3 : forall c, name_char c = true <-> In c (list_ascii_of_string "abcdefghijklmnopqrstuvwxyzABCDEFGHIJKLMNOPQRSTUVWXYZ0123456789.-_")).
  { intros c. rewrite <- EX.
    replace (name_char c) with (existsb (Ascii.eqb c) (list_ascii_of_string "abcdefghijklmnopqrstuvwxyzABCDEFGHIJKLMNOPQRSTUVWXYZ0123456789.-_")); [reflexivity|].
    destruct c as [[] [] [] [] [] [] [] []]; vm_compute; reflexivity. }
  destruct p; cbn [matches].
  - rewrite prefix_iff. split; [intros [r ->]; constructor|intros H; inversion H; subst; eauto].
  - rewrite in_list_In. split; [constructor; assumption|intros H; inversion H; subst; assumption].
  - split.
    + destruct k as [|a [|b [|c [|e k]]]]; try discriminate. rewrite andb_true_iff, orb_true_iff, !andb_true_iff. intros [A [[B C]|[B C]]].
      * constructor; [apply D1|apply D2|apply D2]; assumption.
      * apply Ascii.eqb_eq in B, C. subst b c. apply (legal_range a). apply D1. exact A.
    + intros H. inversion H; subst.
      * apply D1 in H0. apply D2 in H1, H2. rewrite H0, H1, H2. reflexivity.
      * apply D1 in H0. rewrite H0. apply orb_true_r.
  - rewrite prefix_iff. split; [intros [r ->]; constructor|intros H; inversion H; subst; eauto].
  - assert (A : forall s, all_chars name_char s = true <-> (forall c, In c (list_ascii_of_string s) -> name_char c = true)).
    { induction s as [|c s IH]; cbn [all_chars list_ascii_of_string In]; [split; [intros _ c []|reflexivity]|].
      rewrite andb_true_iff, IH. split; [intros [H1 H2] x [<-|I]; auto|]. intros H. split; [apply H; left; reflexivity|]. intros x I. apply H. right. exact I. }
    split.
    + intros H. constructor; [intros ->; discriminate H|]. intros c I. apply D3. destruct k; [discriminate H|]. apply (proj1 (A _) H). exact I.
    + intros H. inversion H; subst. destruct k; [congruence|]. apply A. intros x I. apply D3. auto.
Qed.

Lemma clean_canon rnd : forall j, clean rnd j -> canon rnd j = j.
Proof.
  induction j as [|b|q|s|l IH|m IH] using json_ind'; intros C; cbn [canon]; try reflexivity; inversion C; subst.
  - congruence.
  - f_equal. rewrite <- (map_id l) at 2. apply map_ext_in. intros j I. rewrite Forall_forall in IH. auto.
  - f_equal. assert (E : map (fun kv => (fst kv, canon rnd (snd kv))) m = m).
    { rewrite <- (map_id m) at 2. apply map_ext_in. intros [k j] I. rewrite Forall_forall in IH. cbn [fst snd]. f_equal. apply (IH _ I). eauto. }
    rewrite E. apply dedup_id. assumption.
Qed.

Lemma int64_Z z : (-2 ^ 63 <= z < 2 ^ 63)%Z -> int64b (inject_Z z) = true.
Proof.
  intros H. change (-2 ^ 63)%Z with (-9223372036854775808)%Z in H. change (2 ^ 63)%Z with 9223372036854775808%Z in H.
  unfold int64b, inject_Z. cbn [Qden Qnum]. rewrite !andb_true_iff, !Z.leb_le. split; [split; [reflexivity|]|]; lia.
Qed.

Section Maps.
  Variable T : list (string * ent).

  Lemma store_pats_ok fs k (d : decoder) : forall ps vs,
    NoDup (map snd ps) ->
    (forall p i, In (p, i) ps -> matches p k = true ->
       exists f t v old, nth_error fs i = Some f /\ f_ty f = TMap t /\ d t (zero T LVL t) = Some v /\ nth_error vs i = Some old) ->
    exists vs', store_pats T fs ps k d vs = Some vs' /\ length vs' = length vs /\
      (forall i, (forall p, In (p, i) ps -> matches p k = false) -> nth_error vs' i = nth_error vs i) /\
      (forall p i f t v old, In (p, i) ps -> matches p k = true -> nth_error fs i = Some f -> f_ty f = TMap t ->
         d t (zero T LVL t) = Some v -> nth_error vs i = Some old -> nth_error vs' i = Some (VMap (put k v (mapof old)))).
  Proof.
    induction ps as [|[p i] ps IH]; intros vs N H.
    - exists vs. cbn. split; [reflexivity|]. split; [reflexivity|]. split; [auto|]. intros p i f t v old [].
    - cbn [map snd] in N. inversion N as [|? ? NI N']; subst. cbn [store_pats].
      assert (NI' : forall p' i', In (p', i') ps -> i' <> i).
      { intros p' i' I ->. apply NI. change i with (snd (p', i)). apply in_map. exact I. }
      destruct (matches p k) eqn:M.
      + destruct (H p i (or_introl eq_refl) M) as (f & t & v & old & Ef & Et & Ed & Eo).
        unfold store. rewrite Ef, Eo, Et, Ed.
        set (vs1 := set_nth i _ vs).
        assert (O : forall i', i' <> i -> nth_error vs1 i' = nth_error vs i') by (intros; apply nth_set_other; assumption).
        destruct (IH vs1) as (vs' & E & L & P1 & P2).
        * exact N'.
        * intros p' i' I' M'. destruct (H p' i' (or_intror I') M') as (f' & t' & v' & old' & A & B & C & D).
          exists f', t', v', old'. rewrite O by (eapply NI'; eassumption). auto.
        * exists vs'. split; [exact E|]. split; [rewrite L; apply length_set|]. split.
          -- intros i' Hi. rewrite P1 by (intros p' I'; apply Hi; right; exact I').
             apply O. intros ->. specialize (Hi p (or_introl eq_refl)). congruence.
          -- intros p' i' f' t' v' old' [X|I'] M' A B C D.
             ++ injection X as <- <-. rewrite P1.
                ** unfold vs1. rewrite nth_set_same by (eapply nth_some_lt; eassumption).
                   assert (f' = f) by congruence. subst f'. assert (t' = t) by congruence. subst t'.
                   assert (v' = v) by congruence. subst v'. assert (old' = old) by congruence. subst old'. reflexivity.
                ** intros p' I'. exfalso. exact (NI' p' i I' eq_refl).
             ++ eapply P2; try eassumption. rewrite O by (eapply NI'; eassumption). exact D.
      + destruct (IH vs) as (vs' & E & L & P1 & P2).
        * exact N'.
        * intros p' i' I'. apply H. right. exact I'.
        * exists vs'. split; [exact E|]. split; [exact L|]. split.
          -- intros i' Hi. apply P1. intros p' I'. apply Hi. right. exact I'.
          -- intros p' i' f' t' v' old' [X|I'] M' A B C D.
             ++ injection X as <- <-. congruence.
             ++ eapply P2; eassumption.
  Qed.

  Lemma dec_pats_ok fs ps : NoDup (map snd ps) -> forall ms vs,
    (forall p i, In (p, i) ps -> i < length vs /\ exists f t, nth_error fs i = Some f /\ f_ty f = TMap t /\
       (forall k j d, In (k, (j, d)) ms -> matches p k = true -> exists v, d t (zero T LVL t) = Some v)) ->
    exists vs', dec_pats T fs ps ms vs = Some vs' /\ length vs' = length vs /\
      (forall i, (forall p, ~ In (p, i) ps) -> nth_error vs' i = nth_error vs i) /\
      (forall p i f t old, In (p, i) ps -> nth_error fs i = Some f -> f_ty f = TMap t -> nth_error vs i = Some old ->
         exists m', dec_entries T t (sel p ms) (mapof old) = Some m' /\
           nth_error vs' i = Some (match sel p ms with [] => old | _ => VMap m' end)).
  Proof.
    intros N. induction ms as [|[k [j d]] ms IH]; intros vs H.
    - exists vs. cbn. split; [reflexivity|]. split; [reflexivity|]. split; [auto|].
      intros p i f t old I Ef Et Eo. exists (mapof old). auto.
    - cbn [dec_pats].
      destruct (store_pats_ok fs k d ps vs N) as (vs1 & E1 & L1 & P1 & P2).
      { intros p i I M. destruct (H p i I) as (Lt & f & t & Ef & Et & X).
        destruct (X k j d (or_introl eq_refl) M) as [v Ed]. destruct (nth_lt_some vs i Lt) as [old Eo].
        exists f, t, v, old. auto. }
      rewrite E1.
      destruct (IH vs1) as (vs' & E & L & Q1 & Q2).
      { intros p i I. destruct (H p i I) as (Lt & f & t & Ef & Et & X). split; [rewrite L1; exact Lt|].
        exists f, t. split; [exact Ef|]. split; [exact Et|]. intros k' j' d' I' M'. eapply X; [right; exact I'|exact M']. }
      exists vs'. split; [exact E|]. split; [congruence|]. split.
      + intros i NI. rewrite Q1 by exact NI. apply P1. intros p I. exfalso. exact (NI p I).
      + intros p i f t old I Ef Et Eo. unfold sel. cbn [filter fst]. destruct (matches p k) eqn:M.
        * destruct (H p i I) as (Lt & f' & t' & Ef' & Et' & X).
          assert (f' = f) by congruence. subst f'. assert (t' = t) by congruence. subst t'.
          destruct (X k j d (or_introl eq_refl) M) as [v Ed].
          pose proof (P2 p i f t v old I M Ef Et Ed Eo) as Eo1.
          destruct (Q2 p i f t _ I Ef Et Eo1) as (m' & Em & En). cbn [mapof] in Em. fold (sel p ms).
          exists m'. cbn [dec_entries]. rewrite Ed. split; [exact Em|]. rewrite En.
          destruct (sel p ms) eqn:S; [|reflexivity]. cbn in Em. injection Em as <-. reflexivity.
        * fold (sel p ms).
          assert (Eo1 : nth_error vs1 i = Some old).
          { rewrite P1; [exact Eo|]. intros p' I'. destruct (matches p' k) eqn:M'; [|reflexivity]. exfalso.
            assert (p' = p); [|congruence].
            clear - N I I'. induction ps as [|[a b] ps IH]; [destruct I|]. cbn in N. inversion N as [|? ? NI N']; subst.
            assert (Z : forall q, In (q, b) ps -> False).
            { intros q Iq. apply NI. change b with (snd (q, b)). apply in_map. exact Iq. }
            destruct I as [E|I], I' as [E'|I'].
            - congruence.
            - injection E as -> ->. exfalso. eapply Z. exact I'.
            - injection E' as -> ->. exfalso. eapply Z. exact I.
            - exact (IH N' I I'). }
          destruct (Q2 p i f t old I Ef Et Eo1) as (m' & Em & En). exists m'. auto.
  Qed.

  Lemma dec_addl_ok fs i f t : nth_error fs i = Some f -> f_ty f = TMap t -> forall ms vs old,
    nth_error vs i = Some old ->
    (forall k j d, In (k, (j, d)) ms -> exists v, d t (zero T LVL t) = Some v) ->
    exists vs' m', dec_addl T fs i ms vs = Some vs' /\ length vs' = length vs /\
      (forall i', i' <> i -> nth_error vs' i' = nth_error vs i') /\
      dec_entries T t ms (mapof old) = Some m' /\
      nth_error vs' i = Some (match ms with [] => old | _ => VMap m' end).
  Proof.
    intros Ef Et. induction ms as [|[k [j d]] ms IH]; intros vs old Eo H.
    - exists vs, (mapof old). cbn. auto 6.
    - cbn [dec_addl]. unfold store. rewrite Ef, Eo, Et.
      destruct (H k j d (or_introl eq_refl)) as [v Ed]. rewrite Ed.
      destruct (IH (set_nth i (VMap (put k v (mapof old))) vs) (VMap (put k v (mapof old)))) as (vs' & m' & E & L & O & Em & En).
      + apply nth_set_same. eapply nth_some_lt. eassumption.
      + intros k' j' d' I'. eapply H. right. exact I'.
      + exists vs', m'. fold (mapof old). split; [exact E|]. split; [rewrite L; apply length_set|]. split.
        * intros i' N. rewrite O by exact N. apply nth_set_other. exact N.
        * cbn [dec_entries]. rewrite Ed. split; [exact Em|]. rewrite En. destruct ms; [|reflexivity].
          cbn in Em. injection Em as <-. reflexivity.
  Qed.

  Lemma dec_entries_fresh t : forall (ms : members) m0 r,
    NoDup (map fst ms) -> (forall k, In k (map fst ms) -> ~ In k (map fst m0)) ->
    Forall2 (fun m kv => fst kv = fst m /\ snd (snd m) t (zero T LVL t) = Some (snd kv)) ms r ->
    dec_entries T t ms m0 = Some (m0 ++ r).
  Proof.
    induction ms as [|[k [j d]] ms IH]; intros m0 r N F H.
    - inversion H; subst. cbn. rewrite app_nil_r. reflexivity.
    - inversion H as [|? [k' v] ? r' [E1 E2] H']; subst. cbn [fst snd] in *. subst k'. cbn [dec_entries]. rewrite E2.
      cbn [map] in N. inversion N as [|? ? NI N']; subst.
      rewrite put_fresh by (apply F; left; reflexivity).
      rewrite (IH (m0 ++ [(k, v)]) r').
      + rewrite <- app_assoc. reflexivity.
      + exact N'.
      + intros k' I' X. rewrite map_app in X. apply in_app_iff in X. destruct X as [X|[<-|[]]].
        * exact (F k' (or_intror I') X).
        * exact (NI I').
      + exact H'.
  Qed.
End Maps.

(* ---------- small facts about decoding stages ---------- *)

Lemma dec_fix_ok raw : forall fx vs,
  NoDup (map fst fx) ->
  length (dec_fix fx raw vs) = length vs /\
  (forall i, (forall k, ~ In (i, k) fx) -> nth_error (dec_fix fx raw vs) i = nth_error vs i) /\
  (forall i k v, In (i, k) fx -> nth_error vs i = Some v ->
     nth_error (dec_fix fx raw vs) i =
       Some (match v with VNil => if raw_has raw k then VPtr (VAny JNull) else VNil | _ => v end)).
Proof.
  induction fx as [|[i0 k0] fx IH]; intros vs N; cbn [dec_fix].
  - split; [reflexivity|]. split; [auto|]. intros i k v [].
  - cbn [map fst] in N. inversion N as [|? ? NI N']; subst.
    set (vs1 := match nth_error vs i0 with Some VNil => _ | _ => _ end).
    assert (L1 : length vs1 = length vs).
    { unfold vs1. destruct (nth_error vs i0) as [[]|]; try reflexivity. destruct (raw_has raw k0); [apply length_set|reflexivity]. }
    assert (O : forall i, i <> i0 -> nth_error vs1 i = nth_error vs i).
    { intros i NE. unfold vs1. destruct (nth_error vs i0) as [[]|]; try reflexivity.
      destruct (raw_has raw k0); [apply nth_set_other; exact NE|reflexivity]. }
    destruct (IH vs1 N') as (L & P1 & P2). split; [congruence|]. split.
    + intros i H. rewrite P1 by (intros k I; eapply H; right; exact I).
      apply O. intros ->. exact (H k0 (or_introl eq_refl)).
    + intros i k v [E|I] Ev.
      * injection E as <- <-. rewrite P1.
        -- unfold vs1. rewrite Ev. destruct v; try exact Ev. destruct (raw_has raw k0); [|exact Ev].
           apply nth_set_same. eapply nth_some_lt. eassumption.
        -- intros k I. apply NI. change i0 with (fst (i0, k)). apply in_map. exact I.
      * assert (NE : i <> i0).
        { intros ->. apply NI. change i0 with (fst (i0, k)). apply in_map. exact I. }
        eapply P2; [exact I|]. rewrite O by exact NE. exact Ev.
Qed.

Lemma F2_nth {A B} (R : A -> B -> Prop) : forall l r, Forall2 R l r -> forall i x, nth_error l i = Some x ->
  exists y, nth_error r i = Some y /\ R x y.
Proof.
  induction 1 as [|a b l r H F IH]; intros [|i] x E; cbn in *; try discriminate.
  - injection E as <-. eauto.
  - eauto.
Qed.

Section Core.
  Variable T : list (string * ent).
  Variable rnd : Q -> Q.
  Variable derived : string -> bool.

  Notation D := (dec T rnd).

  Definition at_ (j : json) (l : nat) : decoder := levels (dec_step T rnd j (view D j)) l.

  Lemma dec_at j : D j = at_ j LVL.
  Proof. destruct j; reflexivity. Qed.

  Definition mview (M : list (string * json)) : members := map (fun kv => (fst kv, (snd kv, D (snd kv)))) M.

  Lemma mview_keys M : map fst (mview M) = map fst M.
  Proof. unfold mview. rewrite map_map. reflexivity. Qed.

  Lemma mview_In k j d M : In (k, (j, d)) (mview M) <-> In (k, j) M /\ d = D j.
  Proof.
    unfold mview. rewrite in_map_iff. split.
    - intros ([k' j'] & E & I). cbn in E. injection E as <- <- <-. auto.
    - intros [I ->]. exists (k, j). auto.
  Qed.

  Lemma mview_filter (g : string -> bool) M :
    filter (fun m => g (fst m)) (mview M) = mview (filter (fun m => g (fst m)) M).
  Proof.
    unfold mview. induction M as [|[k j] M IH]; cbn [map filter fst snd]; [reflexivity|].
    rewrite IH. destruct (g k); reflexivity.
  Qed.

  Lemma mview_get k M : get k (mview M) = match get k M with Some j => Some (j, D j) | None => None end.
  Proof. induction M as [|[k' j] M IH]; cbn; [reflexivity|]. destruct (String.eqb k k'); auto. Qed.

  (* Enough levels for a type at one JSON value. *)
  Fixpoint lvl_ok (l : nat) (t : ty) : bool :=
    match l with
    | O => false
    | S l =>
        match t with
        | TPtr t => lvl_ok l t
        | TNamed n =>
            match get n T with
            | Some (EStruct fs _ d) =>
                forallb (fun i => match nth_error fs i with Some f => lvl_ok l (f_ty f) | None => false end) (d_embed d ++ d_oneof d)
                && forallb (lvl_ok l) (d_not d)
            | Some (EEnum _) => true
            | None => false
            end
        | _ => true
        end
    end.

  Fixpoint zero_ok (n : nat) (t : ty) : bool :=
    match t with
    | TNamed s =>
        match n with
        | O => false
        | S n =>
            match get s T with
            | Some (EStruct fs _ _) => forallb (fun f => zero_ok n (f_ty f)) fs
            | Some (EEnum _) => true
            | None => false
            end
        end
    | _ => true
    end.

  Definition zero_at (t : ty) (old : val) : Prop := exists n, zero_ok n t = true /\ old = zero T n t.

  Definition ptr_any (t : ty) : bool := match t with TPtr TAny => true | _ => false end.

  Fixpoint ty_good (t : ty) : bool :=
    lvl_ok LVL t && zero_ok LVL t &&
    match t with
    | TPtr t => match t with TPtr _ | TArr _ | TMap _ | TSkip => false | _ => true end && ty_good t
    | TArr t | TMap t => negb (ptr_any t) && ty_good t
    | _ => true
    end.

  Lemma ty_good_lvl t : ty_good t = true -> lvl_ok LVL t = true.
  Proof. destruct t; cbn [ty_good]; rewrite ?andb_true_iff; tauto. Qed.
  Lemma ty_good_zero t : ty_good t = true -> zero_at t (zero T LVL t).
  Proof. intros H. exists LVL. split; [|reflexivity]. destruct t; cbn [ty_good] in H; rewrite ?andb_true_iff in H; tauto. Qed.

  (* Decoding [j] gives [v] back, up to derived members; a pointer to nil in an
     interface comes back as nil. *)
  Definition rt (t : ty) (v : val) (j : json) : Prop :=
    forall l old, lvl_ok l t = true -> zero_at t old ->
      exists v', at_ j l t old = Some v' /\
        (strip T derived v' t = v \/ t = TPtr TAny /\ j = JNull /\ v' = VNil /\ v = VPtr (VAny JNull)).

  (* Checks on the descriptor of a struct type. *)
  Definition special_pos (d : dprog) (i : nat) : bool := existsb (Nat.eqb i) (d_embed d ++ d_oneof d).

  Definition is_coll (t : ty) : bool := match t with TPtr _ | TArr _ | TMap _ => true | _ => false end.

  Definition map_pos (fs : list field) (d : dprog) (i : nat) : bool :=
    negb (special_pos d i) &&
    match nth_error fs i with
    | Some f => match f_key f, f_ty f with None, TMap t => negb (ptr_any t) && ty_good t | _, _ => false end
    | None => false
    end.

  Fixpoint nodupb (l : list nat) : bool :=
    match l with [] => true | x :: l => negb (existsb (Nat.eqb x) l) && nodupb l end.

  Definition field_check (fs : list field) (d : dprog) (i : nat) (f : field) : bool :=
    ty_good (f_ty f) &&
    match f_key f with
    | Some k =>
        match find_field fs k with Some i' => Nat.eqb i' i | None => false end &&
        d_struct d && negb (special_pos d i) &&
        (negb (f_omit f) || is_coll (f_ty f)) &&
        (negb (ptr_any (f_ty f)) || (f_omit f && existsb (fun ik => Nat.eqb (fst ik) i && String.eqb (snd ik) k) (d_fix d)))
    | None => special_pos d i || existsb (Nat.eqb i) (map snd (d_pats d) ++ d_addl d) ||
              match f_ty f with TSkip => true | _ => false end
    end.

  Fixpoint fields_check (fs0 : list field) (d : dprog) (i : nat) (fs : list field) : bool :=
    match fs with
    | [] => true
    | f :: fs => field_check fs0 d i f && fields_check fs0 d (S i) fs
    end.

  Definition ent_ok (fs : list field) (d : dprog) : bool :=
    fields_check fs d 0 fs && (length (d_addl d) <=? 1) &&
    nodupb (map snd (d_pats d) ++ d_addl d) &&
    forallb (map_pos fs d) (map snd (d_pats d) ++ d_addl d) &&
    nodupb (map fst (d_fix d)) &&
    forallb (fun ik => match nth_error fs (fst ik) with
                       | Some f => ptr_any (f_ty f) && match f_key f with Some k => String.eqb k (snd ik) | None => false end
                       | None => false
                       end) (d_fix d) &&
    forallb (fun c => match nth_error fs (fst (fst c)) with
                      | Some f => match f_ty f, f_key f with TStr, Some _ => negb (f_omit f) | _, _ => false end
                      | None => false
                      end) (d_lower d).

  Lemma fields_check_nth fs0 d : forall fs i0, fields_check fs0 d i0 fs = true ->
    forall i f, nth_error fs i = Some f -> field_check fs0 d (i0 + i) f = true.
  Proof.
    induction fs as [|f0 fs IH]; intros i0 H i f E; [destruct i; discriminate|].
    cbn [fields_check] in H. apply andb_true_iff in H. destruct H as [H1 H2].
    destruct i as [|i]; cbn in E.
    - injection E as <-. rewrite Nat.add_0_r. exact H1.
    - rewrite Nat.add_succ_r. exact (IH (S i0) H2 i f E).
  Qed.

  Lemma nodupb_NoDup l : nodupb l = true -> NoDup l.
  Proof.
    induction l as [|x l IH]; cbn; intros H; constructor; apply andb_true_iff in H; destruct H as [H1 H2].
    - intros I. apply negb_true_iff in H1. rewrite <- not_true_iff_false in H1. apply H1. apply existsb_exists.
      exists x. split; [exact I|apply Nat.eqb_refl].
    - auto.
  Qed.

  Lemma special_pos_In d i : special_pos d i = true <-> In i (d_embed d ++ d_oneof d).
  Proof.
    unfold special_pos. rewrite existsb_exists. split.
    - intros (x & I & E). apply Nat.eqb_eq in E. subst. exact I.
    - intros I. exists i. split; [exact I|apply Nat.eqb_refl].
  Qed.

  (* What the members of the encoding of a struct are. *)
  Definition entries (t : ty) (m : list (string * val)) (M : list (string * json)) : Prop :=
    Forall2 (fun kv kj => fst kj = fst kv /\ enc T (snd kv) t = Some (snd kj)) m M.

  Definition gone (d : dprog) (k : string) : bool := in_list k (map fst (d_const d)) || in_list k (d_known d).

  Definition sel_pat (d : dprog) (p : pat) (M : list (string * json)) :=
    filter (fun kj => matches p (fst kj)) (filter (fun kj => negb (gone d (fst kj))) M).
  Definition sel_left (d : dprog) (M : list (string * json)) :=
    filter (fun kj => negb (matched d (fst kj))) (filter (fun kj => negb (gone d (fst kj))) M).

  Record descr (fs : list field) (d : dprog) (vs : list val) (M : list (string * json)) : Prop := {
    D_nodup : NoDup (map fst M);
    D_omit : forall i f k v, nth_error fs i = Some f -> f_key f = Some k -> nth_error vs i = Some v ->
      f_omit f && is_empty v = true -> ~ In k (map fst M);
    D_field : forall i f k v, nth_error fs i = Some f -> f_key f = Some k -> nth_error vs i = Some v ->
      f_omit f && is_empty v = false -> exists j, enc T v (f_ty f) = Some j /\ In (k, j) M;
    D_exact : forall k i f, In k (map fst M) -> find_field fs k = Some i -> nth_error fs i = Some f -> f_key f = Some k;
    D_const : forall k c, In (k, c) (d_const d) -> In (k, c) M /\ json_eqb_scalar c c = true;
    D_require : forall k, In k (d_require d) -> In k (map fst M);
    D_pats : forall p i f t v, In (p, i) (d_pats d) -> nth_error fs i = Some f -> f_ty f = TMap t -> nth_error vs i = Some v ->
      entries t (mapof v) (sel_pat d p M);
    D_addl : forall i f t v, In i (d_addl d) -> nth_error fs i = Some f -> f_ty f = TMap t -> nth_error vs i = Some v ->
      entries t (mapof v) (sel_left d M);
    D_closed : d_closed d = true -> d_addl d = [] -> sel_left d M = []
  }.

  Lemma get_of_In {A} k (v : A) M : NoDup (map fst M) -> In (k, v) M -> get k M = Some v.
  Proof. intros N I. apply In_get; assumption. Qed.

  Lemma strip_fields_ext (dv : nat -> bool) : forall fs (l : list (val * (ty -> val))) i0 r,
    length l = length fs -> length r = length fs ->
    (forall i f s v, nth_error fs i = Some f -> nth_error l i = Some s -> nth_error r i = Some v ->
       (if dv (i0 + i) then VNil else snd s (f_ty f)) = v) ->
    strip_fields dv i0 fs l = r.
  Proof.
    induction fs as [|f fs IH]; intros l i0 r L1 L2 H; destruct l as [|s l]; destruct r as [|v r]; cbn in *; try lia; try reflexivity.
    f_equal.
    - specialize (H 0 f s v eq_refl eq_refl eq_refl). rewrite Nat.add_0_r in H. exact H.
    - apply IH; try lia. intros i f' s' v' A B C. specialize (H (S i) f' s' v' A B C).
      rewrite Nat.add_succ_r in H. exact H.
  Qed.

  Lemma strip_struct n fs parts d vs vs' :
    get n T = Some (EStruct fs parts d) -> length fs = length vs -> length fs = length vs' ->
    (forall i f v v', nth_error fs i = Some f -> nth_error vs i = Some v -> nth_error vs' i = Some v' ->
       if derived n && special_pos d i then v = VNil else strip T derived v' (f_ty f) = v) ->
    strip T derived (VStruct vs') (TNamed n) = VStruct vs.
  Proof.
    intros G L L' H. cbn [strip]. rewrite G. f_equal. apply strip_fields_ext.
    - rewrite map_length. congruence.
    - congruence.
    - intros i f s v A B C. rewrite nth_error_map in B. destruct (nth_error vs' i) as [v'|] eqn:E; [|discriminate].
      cbn in B. injection B as <-. specialize (H i f v v' A C E). cbn [Nat.add].
      change (existsb (Nat.eqb i) (d_embed d ++ d_oneof d)) with (special_pos d i).
      destruct (derived n && special_pos d i); [symmetry; exact H|exact H].
  Qed.

  (* strip of what zero types hold *)
  Lemma strip_nil t : strip T derived VNil t = VNil.
  Proof. reflexivity. Qed.

  Lemma strip_str v : strip T derived v TStr = v.
  Proof. destruct v; reflexivity. Qed.

  Lemma keys_In {A} k (v : A) (M : list (string * A)) : In (k, v) M -> In k (map fst M).
  Proof. intros I. change k with (fst (k, v)). apply in_map. exact I. Qed.

  Lemma nodup_eq {A} k (v w : A) (M : list (string * A)) : NoDup (map fst M) -> In (k, v) M -> In (k, w) M -> v = w.
  Proof. intros N I J. pose proof (get_of_In _ _ _ N I). pose proof (get_of_In _ _ _ N J). congruence. Qed.

  Lemma raw_has_In k M : raw_has (mview M) k = true <-> In k (map fst M).
  Proof. unfold raw_has. rewrite mview_keys. apply in_list_In. Qed.

  Lemma entries_decode t m Ms : ty_good t = true -> ptr_any t = false -> NoDup (map fst Ms) ->
    entries t m Ms -> (forall k w j, In (k, w) m -> enc T w t = Some j -> rt t w j) ->
    exists r, dec_entries T t (mview Ms) [] = Some r /\
      map (fun kw => (fst kw, strip T derived (snd kw) t)) r = m.
  Proof.
    intros G NP N E H.
    assert (X : exists r, Forall2 (fun mm kv => fst kv = fst mm /\ snd (snd mm) t (zero T LVL t) = Some (snd kv)) (mview Ms) r /\
                 map (fun kw => (fst kw, strip T derived (snd kw) t)) r = m).
    { clear N. induction E as [|[k w] [k' j] m Ms [E1 E2] E IH]; [exists []; split; [constructor|reflexivity]|].
      cbn [fst snd] in *. subst k'.
      destruct IH as (r & F & Er). { intros k' w' j' I'. apply (H k' w' j'). right. exact I'. }
      destruct (H k w j (or_introl eq_refl) E2 LVL (zero T LVL t) (ty_good_lvl _ G) (ty_good_zero _ G)) as (v' & Ed & [Es|(Ep & _)]).
      - exists ((k, v') :: r). split.
        + constructor; [|exact F]. cbn [fst snd]. split; [reflexivity|]. rewrite dec_at. exact Ed.
        + cbn [map fst snd]. rewrite Es, Er. reflexivity.
      - subst t. cbn in NP. discriminate. }
    destruct X as (r & F & Er). exists r. split; [|exact Er].
    rewrite (dec_entries_fresh T t (mview Ms) [] r); [reflexivity| | |exact F].
    - rewrite mview_keys. exact N.
    - intros k _ [].
  Qed.

  Lemma filter_nodup {A} (g : string * A -> bool) (M : list (string * A)) : NoDup (map fst M) -> NoDup (map fst (filter g M)).
  Proof.
    induction M as [|x M IH]; cbn; intros N; [constructor|]. inversion N as [|? ? NI N']; subst.
    destruct (g x); cbn; [|auto]. constructor; [|auto].
    intros I. apply NI. apply in_map_iff in I. destruct I as (y & E & I). rewrite <- E. apply in_map.
    apply filter_In in I. tauto.
  Qed.

  Lemma raw_rest_mview d M : raw_rest d (mview M) = mview (filter (fun kj => negb (gone d (fst kj))) M).
  Proof.
    unfold raw_rest. rewrite <- (mview_filter (fun k => negb (gone d k)) M). apply filter_ext.
    intros m. unfold gone. rewrite negb_orb. reflexivity.
  Qed.

  Lemma raw_left_mview d M : raw_left d (mview (filter (fun kj => negb (gone d (fst kj))) M)) = mview (sel_left d M).
  Proof. unfold raw_left, sel_left. rewrite <- (mview_filter (fun k => negb (matched d k))). reflexivity. Qed.

  Lemma sel_mview d p M : sel p (mview (filter (fun kj => negb (gone d (fst kj))) M)) = mview (sel_pat d p M).
  Proof. unfold sel, sel_pat. rewrite <- (mview_filter (fun k => matches p k)). reflexivity. Qed.

  Definition nil_or_map (v : val) : Prop := v = VNil \/ exists m, v = VMap m /\ m <> [].

  Lemma core n fs d vs M (same : decoder) vs0 :
    ent_ok fs d = true ->
    length fs = length vs -> length fs = length vs0 ->
    (forall i f v0, nth_error fs i = Some f -> nth_error vs0 i = Some v0 -> zero_at (f_ty f) v0) ->
    descr fs d vs M ->
    (forall i f v, nth_error fs i = Some f -> nth_error vs i = Some v -> f_ty f = TSkip -> v = VNil) ->
    (forall i f v, nth_error fs i = Some f -> nth_error vs i = Some v ->
       f_omit f && is_empty v = true -> is_coll (f_ty f) = true -> v = VNil) ->
    (forall i f k v j, nth_error fs i = Some f -> f_key f = Some k -> nth_error vs i = Some v ->
       enc T v (f_ty f) = Some j -> rt (f_ty f) v j) ->
    (forall i f t v, In i (map snd (d_pats d) ++ d_addl d) -> nth_error fs i = Some f -> f_ty f = TMap t ->
       nth_error vs i = Some v ->
       nil_or_map v /\ (forall k w j, In (k, w) (mapof v) -> enc T w t = Some j -> rt t w j)) ->
    (forall t, In t (d_not d) -> same t (zero T LVL t) = None) ->
    forallb (fun ab => xorb (raw_has (mview M) (fst ab)) (raw_has (mview M) (snd ab))) (d_xor d) = true ->
    forallb (fun kc => negb (raw_is (mview M) (fst kc) (snd kc))) (d_notconst d) = true ->
    forallb (fun k => negb (raw_has (mview M) k)) (d_absent d) = true ->
    lower_checks d vs = true ->
    (forall vs1, length vs1 = length fs -> (forall i, special_pos d i = true -> nth_error vs1 i = nth_error vs0 i) ->
       exists vsE vs2 c, dec_embed same fs (d_embed d) vs1 = Some vsE /\ dec_alts same fs (d_oneof d) vsE 0 = (vs2, c) /\
         (d_oneof d <> [] -> c = 1) /\ length vs2 = length fs /\
         (forall i, special_pos d i = false -> nth_error vs2 i = nth_error vs1 i) /\
         (forall i f v v', special_pos d i = true -> nth_error fs i = Some f -> nth_error vs i = Some v ->
            nth_error vs2 i = Some v' -> if derived n then v = VNil else strip T derived v' (f_ty f) = v)) ->
    exists vs', dec_ent T same (SObj (mview M)) fs d vs0 = Some vs' /\ length fs = length vs' /\
      (forall i f v v', nth_error fs i = Some f -> nth_error vs i = Some v -> nth_error vs' i = Some v' ->
         if derived n && special_pos d i then v = VNil else strip T derived v' (f_ty f) = v).
  Proof.
    intros OK Lv L0 Z DS HSkip HOmit HF HM HNot HXor HNC HAbs HLow HSp.
    unfold ent_ok in OK. rewrite !andb_true_iff in OK. destruct OK as [[[[[[OKf HAddl1] OKn] OKm] OKx] OKfix] OKl]. apply Nat.leb_le in HAddl1.
    assert (FC : forall i f, nth_error fs i = Some f -> field_check fs d i f = true) by (intros i f E; exact (fields_check_nth fs d fs 0 OKf i f E)).
    rewrite forallb_forall in OKm, OKfix, OKl.
    apply nodupb_NoDup in OKn. apply nodupb_NoDup in OKx.
    (* keyed fields *)
    assert (Keyed : forall i f k, nth_error fs i = Some f -> f_key f = Some k ->
              find_field fs k = Some i /\ d_struct d = true /\ special_pos d i = false /\ ty_good (f_ty f) = true /\
              (f_omit f = true -> is_coll (f_ty f) = true) /\
              (ptr_any (f_ty f) = true -> f_omit f = true /\ In (i, k) (d_fix d))).
    { intros i f k Ef Ek. specialize (FC i f Ef). unfold field_check in FC. rewrite Ek in FC. rewrite !andb_true_iff in FC.
      destruct FC as [G [[[[A B] C] E] F]].
      destruct (find_field fs k) as [i'|]; [|discriminate]. apply Nat.eqb_eq in A. subst i'.
      split; [reflexivity|]. split; [exact B|]. split; [apply negb_true_iff; exact C|]. split; [exact G|]. split.
      - intros O. rewrite O in E. exact E.
      - intros P. rewrite P in F. cbn in F. apply andb_true_iff in F. destruct F as [F1 F2]. split; [exact F1|].
        apply existsb_exists in F2. destruct F2 as ([i' k'] & I & X). cbn in X. apply andb_true_iff in X. destruct X as [X1 X2].
        apply Nat.eqb_eq in X1. apply String.eqb_eq in X2. subst. exact I. }
    assert (FieldVal : forall i f k j, nth_error fs i = Some f -> f_key f = Some k -> In (k, j) M ->
              exists v, nth_error vs i = Some v /\ f_omit f && is_empty v = false /\ rt (f_ty f) v j).
    { intros i f k j Ef Ek Ij. destruct (nth_lt_some vs i) as [v Ev]. { rewrite <- Lv. eapply nth_some_lt. eassumption. }
      exists v. split; [exact Ev|]. destruct (f_omit f && is_empty v) eqn:O.
      - exfalso. eapply (D_omit _ _ _ _ DS); try eassumption. eapply keys_In. exact Ij.
      - split; [reflexivity|]. destruct (D_field _ _ _ _ DS i f k v Ef Ek Ev O) as (j' & Ee & Ij').
        assert (j' = j) by (eapply nodup_eq; [exact (D_nodup _ _ _ _ DS)|eassumption|eassumption]). subst j'.
        eapply HF; eassumption. }
    (* the struct *)
    assert (S1 : exists vs1, (if d_struct d then dec_struct (SObj (mview M)) fs vs0 else Some vs0) = Some vs1 /\
              length vs1 = length fs /\
              (forall i f v0, nth_error fs i = Some f -> nth_error vs0 i = Some v0 ->
                 match f_key f with
                 | Some k => (forall j, In (k, j) M -> exists v', at_ j LVL (f_ty f) v0 = Some v' /\ nth_error vs1 i = Some v') /\
                             (~ In k (map fst M) -> nth_error vs1 i = Some v0)
                 | None => nth_error vs1 i = Some v0
                 end)).
    { destruct (d_struct d) eqn:Ds.
      - cbn [dec_struct].
        destruct (dec_fields_ok fs (mview M) vs0) as (vs1 & E & L & P).
        + rewrite mview_keys. exact (D_nodup _ _ _ _ DS).
        + rewrite mview_keys. intros k1 k2 i I1 I2 F1 F2. destruct (find_field_some _ _ _ F1) as (f & k' & Ef & _ & _).
          pose proof (D_exact _ _ _ _ DS k1 i f I1 F1 Ef). pose proof (D_exact _ _ _ _ DS k2 i f I2 F2 Ef). congruence.
        + exact L0.
        + intros k j dd i f v0 I F Ef Ev0. apply mview_In in I. destruct I as [I ->].
          pose proof (D_exact _ _ _ _ DS k i f (keys_In _ _ _ I) F Ef) as Ek.
          destruct (FieldVal i f k j Ef Ek I) as (v & Ev & _ & R).
          destruct (Keyed i f k Ef Ek) as (_ & _ & _ & G & _).
          destruct (R LVL v0 (ty_good_lvl _ G) (Z i f v0 Ef Ev0)) as (v' & Ed & _). exists v'. rewrite dec_at. exact Ed.
        + exists vs1. split; [exact E|]. split; [congruence|]. intros i f v0 Ef Ev0. destruct (P i f v0 Ef Ev0) as [P1 P2].
          destruct (f_key f) as [k|] eqn:Ek.
          * destruct (Keyed i f k Ef Ek) as (Fk & _). split.
            -- intros j Ij. destruct (P1 k j (D j)) as (v' & A & B); [apply mview_In; auto|exact Fk|].
               rewrite dec_at in A. exists v'. auto.
            -- intros NI. apply P2. rewrite mview_keys. intros k' I' F'.
               pose proof (D_exact _ _ _ _ DS k' i f I' F' Ef) as Ek'. rewrite Ek in Ek'. injection Ek' as <-. exact (NI I').
          * apply P2. rewrite mview_keys. intros k' I' F'.
            pose proof (D_exact _ _ _ _ DS k' i f I' F' Ef) as Ek'. congruence.
      - exists vs0. split; [reflexivity|]. split; [congruence|]. intros i f v0 Ef Ev0. destruct (f_key f) as [k|] eqn:Ek; [|exact Ev0].
        destruct (Keyed i f k Ef Ek) as (_ & X & _). congruence. }
    destruct S1 as (vs1 & E1 & L1 & P1).
    destruct (HSp vs1 L1) as (vsE & vs2 & c & EE & EA & Hc & L2 & P2 & P2').
    { intros i Si. destruct (nth_error vs0 i) as [v0|] eqn:Ev0.
      - destruct (nth_lt_some fs i) as [f Ef]. { rewrite L0. eapply nth_some_lt. eassumption. }
        specialize (P1 i f v0 Ef Ev0). destruct (f_key f) as [k|] eqn:Ek; [|exact P1].
        destruct (Keyed i f k Ef Ek) as (_ & _ & X & _). congruence.
      - apply nth_error_None in Ev0. apply nth_error_None. lia. }
    unfold dec_ent.
    replace (forallb _ (d_not d)) with true.
    2: { symmetry. apply forallb_forall. intros t It. rewrite (HNot t It). reflexivity. }
    rewrite E1, EE, EA.
    replace (match d_oneof d with [] => true | _ => (c =? 1)%nat end) with true.
    2: { destruct (d_oneof d) eqn:Eo; [reflexivity|]. rewrite Hc by congruence. reflexivity. }
    unfold dec_raw. cbn [raw_map].
    rewrite (dedup_id (mview M)) by (rewrite mview_keys; exact (D_nodup _ _ _ _ DS)).
    replace (raw_checks d (mview M)) with true.
    2: { symmetry. unfold raw_checks. rewrite HXor, HNC, HAbs, !andb_true_r. apply andb_true_iff. split.
         - apply forallb_forall. intros k Ik. apply raw_has_In. exact (D_require _ _ _ _ DS k Ik).
         - apply forallb_forall. intros [k cc] I. cbn [fst snd].
           destruct (D_const _ _ _ _ DS k cc I) as [IM EQ]. apply orb_true_iff. right.
           unfold raw_is. rewrite mview_get. rewrite (get_of_In _ _ _ (D_nodup _ _ _ _ DS) IM). exact EQ. }
    (* values after the struct at keyed fields *)
    assert (V2 : forall i f k v v', nth_error fs i = Some f -> f_key f = Some k -> nth_error vs i = Some v ->
               nth_error vs2 i = Some v' ->
               strip T derived v' (f_ty f) = v \/
               (ptr_any (f_ty f) = true /\ In k (map fst M) /\ v' = VNil /\ v = VPtr (VAny JNull))).
    { intros i f k v v' Ef Ek Ev Ev'. destruct (Keyed i f k Ef Ek) as (_ & _ & Si & G & Om & _).
      rewrite P2 in Ev' by exact Si.
      destruct (nth_lt_some vs0 i) as [v0 Ev0]. { rewrite <- L0. eapply nth_some_lt. eassumption. }
      specialize (P1 i f v0 Ef Ev0). rewrite Ek in P1. destruct P1 as [Q1 Q2].
      destruct (f_omit f && is_empty v) eqn:O.
      - rewrite Q2 in Ev' by (eapply (D_omit _ _ _ _ DS); eassumption). injection Ev' as <-.
        assert (C : is_coll (f_ty f) = true). { apply Om. apply andb_true_iff in O. tauto. }
        rewrite (HOmit i f v Ef Ev O C). left.
        destruct (Z i f v0 Ef Ev0) as (nn & _ & ->). destruct (f_ty f); cbn in C; try discriminate; destruct nn; reflexivity.
      - destruct (D_field _ _ _ _ DS i f k v Ef Ek Ev O) as (j & Ee & Ij).
        destruct (Q1 j Ij) as (v1 & Ed & E1').
        assert (v1 = v') by congruence. subst v1.
        destruct (HF i f k v j Ef Ek Ev Ee LVL v0 (ty_good_lvl _ G) (Z i f v0 Ef Ev0)) as (v1 & Ed' & R).
        rewrite Ed in Ed'. injection Ed' as <-. destruct R as [R|(R1 & R2 & R3 & R4)]; [left; exact R|right].
        rewrite R1. split; [reflexivity|]. split; [eapply keys_In; exact Ij|]. auto. }
    replace (lower_checks d vs2) with true.
    2: { symmetry. unfold lower_checks in *. rewrite forallb_forall in *. intros [[i cc] b] I. specialize (HLow _ I). specialize (OKl _ I).
         cbn [fst snd] in *. destruct (nth_error fs i) as [f|] eqn:Ef; [|discriminate].
         destruct (f_ty f) eqn:Et; try discriminate. destruct (f_key f) as [k|] eqn:Ek; [|discriminate].
         destruct (nth_lt_some vs i) as [v Ev]. { rewrite <- Lv. eapply nth_some_lt. eassumption. }
         destruct (nth_lt_some vs2 i) as [v2 Ev2]. { rewrite L2. eapply nth_some_lt. eassumption. }
         destruct (V2 i f k v v2 Ef Ek Ev Ev2) as [X|(X & _)].
         - rewrite Et, strip_str in X. subst v2. rewrite Ev2. rewrite Ev in HLow. exact HLow.
         - rewrite Et in X. discriminate. }
    cbn [andb]. rewrite raw_rest_mview.
    destruct (dec_fix_ok (mview M) (d_fix d) vs2 OKx) as (L3 & P3 & P3').
    set (vs3 := dec_fix (d_fix d) (mview M) vs2) in *.
    (* values after the fix *)
    assert (V3 : forall i f k v v', nth_error fs i = Some f -> f_key f = Some k -> nth_error vs i = Some v ->
               nth_error vs3 i = Some v' -> strip T derived v' (f_ty f) = v).
    { intros i f k v v' Ef Ek Ev Ev'. destruct (Keyed i f k Ef Ek) as (_ & _ & _ & _ & Om & PA).
      destruct (nth_lt_some vs2 i) as [v2 Ev2]. { rewrite L2. eapply nth_some_lt. eassumption. }
      pose proof (V2 i f k v v2 Ef Ek Ev Ev2) as X.
      destruct (ptr_any (f_ty f)) eqn:Pt.
      - destruct (PA eq_refl) as [Of Ifx]. rewrite (P3' i k v2 Ifx Ev2) in Ev'. injection Ev' as <-.
        assert (Tf : f_ty f = TPtr TAny). { destruct (f_ty f) as [| | | | | |[]| | |]; cbn in Pt; congruence. }
        destruct X as [X|(_ & X2 & X3 & X4)].
        + destruct v2; try exact X. cbn in X. subst v.
          replace (raw_has (mview M) k) with false; [reflexivity|]. symmetry. apply not_true_iff_false. rewrite raw_has_In.
          eapply (D_omit _ _ _ _ DS); try eassumption. rewrite Of. reflexivity.
        + subst v2 v. replace (raw_has (mview M) k) with true by (symmetry; apply raw_has_In; exact X2). rewrite Tf. reflexivity.
      - assert (NF : forall k', ~ In (i, k') (d_fix d)).
        { intros k' I. specialize (OKfix _ I). cbn [fst snd] in OKfix. rewrite Ef, Pt in OKfix. discriminate. }
        rewrite (P3 i NF) in Ev'. assert (v2 = v') by congruence. subst v'. destruct X as [X|(X & _)]; [exact X|congruence]. }
    assert (U3 : forall i f, nth_error fs i = Some f -> f_key f = None -> nth_error vs3 i = nth_error vs2 i).
    { intros i f Ef Ek. apply P3. intros k' I. specialize (OKfix _ I). cbn [fst snd] in OKfix. rewrite Ef, Ek, andb_false_r in OKfix. discriminate. }
    (* map fields start as nil *)
    assert (MP : forall i, In i (map snd (d_pats d) ++ d_addl d) -> exists f t,
               nth_error fs i = Some f /\ f_key f = None /\ f_ty f = TMap t /\ ptr_any t = false /\ ty_good t = true /\
               special_pos d i = false /\ nth_error vs3 i = Some VNil).
    { intros i I. specialize (OKm i I). unfold map_pos in OKm. apply andb_true_iff in OKm. destruct OKm as [Si X].
      destruct (nth_error fs i) as [f|] eqn:Ef; [|discriminate]. destruct (f_key f) eqn:Ek; [discriminate|].
      destruct (f_ty f) as [| | | | | | | |t|] eqn:Et; try discriminate. apply andb_true_iff in X. destruct X as [X1 X2].
      apply negb_true_iff in Si. apply negb_true_iff in X1.
      exists f, t. do 6 (split; [assumption|reflexivity] || split; [solve [auto]|]).
      rewrite (U3 i f Ef Ek), P2 by exact Si.
      destruct (nth_lt_some vs0 i) as [v0 Ev0]. { rewrite <- L0. eapply nth_some_lt. eassumption. }
      specialize (P1 i f v0 Ef Ev0). rewrite Ek in P1. rewrite P1.
      destruct (Z i f v0 Ef Ev0) as (nn & _ & ->). rewrite Et. destruct nn; reflexivity. }
    set (M1 := filter (fun kj => negb (gone d (fst kj))) M) in *.
    assert (NM1 : NoDup (map fst M1)) by (apply filter_nodup; exact (D_nodup _ _ _ _ DS)).
    destruct (dec_pats_ok T fs (d_pats d)) with (ms := mview M1) (vs := vs3) as (vs4 & E4 & L4 & P4 & P4').
    { assert (NoDup (map snd (d_pats d) ++ d_addl d)) by assumption. clear - H. induction (map snd (d_pats d)); [constructor|].
      cbn in H. inversion H; subst. constructor; [|auto]. intros X. apply H2. apply in_app_iff. auto. }
    { intros p i I. assert (I' : In i (map snd (d_pats d) ++ d_addl d)).
      { apply in_app_iff. left. change i with (snd (p, i)). apply in_map. exact I. }
      destruct (MP i I') as (f & t & Ef & Ek & Et & NP & G & Si & E3). split; [eapply nth_some_lt; eassumption|].
      exists f, t. split; [exact Ef|]. split; [exact Et|].
      intros k j dd Ij Mk. apply mview_In in Ij. destruct Ij as [Ij ->].
      destruct (nth_lt_some vs i) as [v Ev]. { rewrite <- Lv. eapply nth_some_lt. eassumption. }
      pose proof (D_pats _ _ _ _ DS p i f t v I Ef Et Ev) as EN.
      destruct (HM i f t v I' Ef Et Ev) as [_ HR].
      assert (Is : In (k, j) (sel_pat d p M)). { unfold sel_pat. apply filter_In. split; [exact Ij|exact Mk]. }
      unfold entries in EN. apply In_nth_error in Is. destruct Is as [ix Eix].
      assert (exists w, In (k, w) (mapof v) /\ enc T w t = Some j) as (w & Iw & Ew).
      { clear - EN Eix. revert ix Eix. induction EN as [|[k1 w1] [k2 j2] l r [A B] F IH]; intros [|ix] E; cbn in *; try discriminate.
        - injection E as -> ->. subst k. exists w1. auto.
        - destruct (IH ix E) as (w & I & W). exists w. auto. }
      destruct (HR k w j Iw Ew LVL (zero T LVL t) (ty_good_lvl _ G) (ty_good_zero _ G)) as (v' & Ed & _).
      exists v'. rewrite dec_at. exact Ed. }
    rewrite E4. unfold M1. rewrite raw_left_mview.
    (* map fields of patterns *)
    assert (V4 : forall p i f v v', In (p, i) (d_pats d) -> nth_error fs i = Some f -> nth_error vs i = Some v ->
              nth_error vs4 i = Some v' -> strip T derived v' (f_ty f) = v).
    { intros p i f v v' I Ef Ev Ev'. assert (I' : In i (map snd (d_pats d) ++ d_addl d)).
      { apply in_app_iff. left. change i with (snd (p, i)). apply in_map. exact I. }
      destruct (MP i I') as (f' & t & Ef' & Ek & Et & NP & G & Si & E3). assert (f' = f) by congruence. subst f'.
      destruct (HM i f t v I' Ef Et Ev) as [HN HR].
      pose proof (D_pats _ _ _ _ DS p i f t v I Ef Et Ev) as EN.
      destruct (P4' p i f t VNil I Ef Et E3) as (m' & Em & En). unfold M1 in Em, En. rewrite sel_mview in Em, En. cbn [mapof] in Em.
      rewrite Ev' in En. injection En as ->.
      destruct (entries_decode t (mapof v) (sel_pat d p M) G NP) as (r & Er & Es).
      - unfold sel_pat. apply filter_nodup, filter_nodup. exact (D_nodup _ _ _ _ DS).
      - exact EN.
      - exact HR.
      - rewrite Er in Em. injection Em as <-. rewrite Et.
        destruct HN as [->|(m & -> & Nm)].
        + cbn [mapof] in EN. destruct (sel_pat d p M); [reflexivity|inversion EN].
        + cbn [mapof] in *. destruct (sel_pat d p M) as [|x y] eqn:Sp.
          * inversion EN; subst. congruence.
          * cbn [mview map]. cbn [strip]. f_equal. exact Es. }
    assert (Rest : forall vs5, length vs5 = length vs4 -> (forall i, ~ In i (d_addl d) -> nth_error vs5 i = nth_error vs4 i) ->
              (forall i f v v', In i (d_addl d) -> nth_error fs i = Some f -> nth_error vs i = Some v -> nth_error vs5 i = Some v' ->
                 strip T derived v' (f_ty f) = v) ->
              length fs = length vs5 /\
              (forall i f v v', nth_error fs i = Some f -> nth_error vs i = Some v -> nth_error vs5 i = Some v' ->
                 if derived n && special_pos d i then v = VNil else strip T derived v' (f_ty f) = v)).
    { intros vs5 L5 P5 P5'. split; [congruence|]. intros i f v v' Ef Ev Ev'.
      destruct (in_dec Nat.eq_dec i (d_addl d)) as [Ia|Na].
      { destruct (MP i) as (f' & t & _ & _ & _ & _ & _ & Si & _); [apply in_app_iff; auto|]. rewrite Si, andb_false_r. eapply P5'; eassumption. }
      rewrite P5 in Ev' by exact Na.
      destruct (in_dec Nat.eq_dec i (map snd (d_pats d))) as [Ip|Np].
      { destruct (MP i) as (f' & t & _ & _ & _ & _ & _ & Si & _); [apply in_app_iff; auto|]. rewrite Si, andb_false_r.
        apply in_map_iff in Ip. destruct Ip as ([p i'] & X & Ip). cbn in X. subst i'. eapply V4; eassumption. }
      rewrite P4 in Ev'.
      2: { intros p I. apply Np. change i with (snd (p, i)). apply in_map. exact I. }
      destruct (f_key f) as [k|] eqn:Ek.
      { destruct (Keyed i f k Ef Ek) as (_ & _ & Si & _). rewrite Si, andb_false_r. eapply V3; eassumption. }
      rewrite (U3 i f Ef Ek) in Ev'.
      destruct (special_pos d i) eqn:Si.
      { rewrite andb_true_r. eapply P2'; eassumption. }
      rewrite andb_false_r. rewrite P2 in Ev' by exact Si.
      assert (Tk : f_ty f = TSkip).
      { specialize (FC i f Ef). unfold field_check in FC. rewrite Ek, Si in FC. apply andb_true_iff in FC. destruct FC as [_ FC].
        cbn [orb] in FC. apply orb_true_iff in FC. destruct FC as [FC|FC].
        - exfalso. apply existsb_exists in FC. destruct FC as (x & Ix & Ex). apply Nat.eqb_eq in Ex. subst x.
          apply in_app_iff in Ix. tauto.
        - destruct (f_ty f); try discriminate. reflexivity. }
      destruct (nth_lt_some vs0 i) as [v0 Ev0]. { rewrite <- L0. eapply nth_some_lt. eassumption. }
      specialize (P1 i f v0 Ef Ev0). rewrite Ek in P1. assert (v0 = v') by congruence. subst v0.
      destruct (Z i f v' Ef Ev0) as (nn & _ & ->). rewrite (HSkip i f v Ef Ev Tk), Tk. destruct nn; reflexivity. }
    destruct (d_addl d) as [|ia rest] eqn:Ead.
    - replace (d_closed d && negb match mview (sel_left d M) with [] => true | _ :: _ => false end) with false.
      2: { destruct (d_closed d) eqn:Ec; [|reflexivity]. rewrite (D_closed _ _ _ _ DS Ec Ead). reflexivity. }
      exists vs4. split; [reflexivity|]. apply Rest; [reflexivity|reflexivity|]. intros i f v v' [].
    - assert (Ia : In ia (map snd (d_pats d) ++ ia :: rest)) by (apply in_app_iff; right; left; reflexivity).
      destruct (MP ia Ia) as (f & t & Ef & Ek & Et & NP & G & Si & E3).
      destruct (nth_lt_some vs ia) as [v Ev]. { rewrite <- Lv. eapply nth_some_lt. eassumption. }
      destruct (HM ia f t v Ia Ef Et Ev) as [HN HR].
      assert (Iad : In ia (d_addl d)) by (rewrite Ead; left; reflexivity).
      pose proof (D_addl _ _ _ _ DS ia f t v Iad Ef Et Ev) as EN.
      assert (E4n : nth_error vs4 ia = Some VNil).
      { rewrite P4; [exact E3|]. intros p I. clear - OKn I. apply NoDup_remove_2 in OKn. apply OKn. apply in_app_iff. left.
        change ia with (snd (p, ia)). apply in_map. exact I. }
      destruct (entries_decode t (mapof v) (sel_left d M) G NP) as (r & Er & Es).
      { unfold sel_left. apply filter_nodup, filter_nodup. exact (D_nodup _ _ _ _ DS). }
      { exact EN. }
      { exact HR. }
      destruct (dec_addl_ok T fs ia f t Ef Et (mview (sel_left d M)) vs4 VNil E4n) as (vs5 & m' & E5 & L5 & P5 & Em & En).
      { intros k j dd Ij. apply mview_In in Ij. destruct Ij as [Ij ->].
        apply In_nth_error in Ij. destruct Ij as [ix Eix].
        assert (exists w, In (k, w) (mapof v) /\ enc T w t = Some j) as (w & Iw & Ew).
        { clear - EN Eix. revert ix Eix. induction EN as [|[k1 w1] [k2 j2] l r [A B] F IH]; intros [|ix] E; cbn in *; try discriminate.
          - injection E as -> ->. subst k. exists w1. auto.
          - destruct (IH ix E) as (w & I & W). exists w. auto. }
        destruct (HR k w j Iw Ew LVL (zero T LVL t) (ty_good_lvl _ G) (ty_good_zero _ G)) as (v' & Ed & _).
        exists v'. rewrite dec_at. exact Ed. }
      rewrite E5. exists vs5. split; [reflexivity|]. apply Rest.
      + exact L5.
      + intros i Ni. apply P5. intros ->. apply Ni. left. reflexivity.
      + assert (rest = []).
        { (* the loop exists at most once *)
          destruct rest as [|x rest]; [reflexivity|]. exfalso. revert HAddl1. cbn. lia. }
        subst rest. intros i f' v1 v' [<-|[]] Ef' Ev1 Ev'. assert (f' = f) by congruence. subst f'. assert (v1 = v) by congruence. subst v1.
        rewrite Ev' in En. injection En as ->. cbn [mapof] in Em. rewrite Er in Em. injection Em as <-. rewrite Et.
        destruct HN as [->|(m & -> & Nm)].
        * cbn [mapof] in EN. destruct (sel_left d M); [reflexivity|inversion EN].
        * cbn [mapof] in *. destruct (sel_left d M) as [|x y] eqn:Sp.
          -- inversion EN; subst. congruence.
          -- cbn [mview map]. cbn [strip]. f_equal. exact Es.
  Qed.
End Core.
