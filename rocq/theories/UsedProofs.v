(* Reading into an entity in use: proofs. *)
From Coq Require Import Lia.
From Verif Require Import Str SMap Json CodecModel CodecSpec CodecProofs OrdSpec OrdProofs UsedSpec.

(* ---------- tables ---------- *)

Section Checks.
  Variable T : list (string * ent).
  Variable K : list string.

  Fixpoint known (t : ty) : bool :=
    match t with
    | TPtr t | TArr t | TMap t => known t
    | TNamed n => match get n T with Some _ => true | None => false end
    | _ => true
    end.

  (* The value is one of the type, down to [n] structs held by value. *)
  Fixpoint zero_typed (n : nat) (t : ty) : bool :=
    match t with
    | TNamed s =>
        match n with
        | O => false
        | S n => match get s T with
                 | Some (EStruct fs _ _) => forallb (fun f => zero_typed n (f_ty f)) fs
                 | Some (EEnum _) => true
                 | None => false
                 end
        end
    | _ => true
    end.

  Definition is_coll_ty (t : ty) : bool := match t with TPtr _ | TArr _ | TMap _ => true | _ => false end.

  Definition lower_ok (fs : list field) (d : dprog) (i : nat) : bool :=
    match nth_error fs i with
    | Some f =>
        match f_ty f, f_key f with
        | TStr, Some q => d_struct d && in_list q (d_require d) && in_list q K &&
            match find_field fs q with Some i' => Nat.eqb i i' | None => false end &&
            negb (existsb (Nat.eqb i) (d_embed d ++ d_oneof d))
        | _, _ => false
        end
    | None => false
    end.

  Definition used_ok (e : string * ent) : bool :=
    match snd e with
    | EEnum _ => true
    | EStruct fs _ d =>
        zero_typed LVL (TNamed (fst e)) &&
        forallb (fun f => known (f_ty f)) fs &&
        forallb (fun i => match nth_error fs i with Some f => is_coll_ty (f_ty f) | None => true end) (d_oneof d) &&
        forallb (fun ik => match nth_error fs (fst ik) with Some f => match f_ty f with TPtr TAny => true | _ => false end | None => true end) (d_fix d) &&
        forallb (fun c => lower_ok fs d (fst (fst c))) (d_lower d)
    end.
  Definition used_checks : bool := forallb used_ok T.
End Checks.

(* ---------- lists ---------- *)

Lemma F2_nth2 {A B} (R : A -> B -> Prop) l l' : Forall2 R l l' ->
  forall i a b, nth_error l i = Some a -> nth_error l' i = Some b -> R a b.
Proof.
  induction 1 as [|x y l l' H F IH]; intros [|i] a b E E'; cbn in E, E'; try discriminate; [congruence|eauto].
Qed.
Lemma F2_of_nth {A B} (R : A -> B -> Prop) : forall l l', length l = length l' ->
  (forall i a b, nth_error l i = Some a -> nth_error l' i = Some b -> R a b) -> Forall2 R l l'.
Proof.
  induction l as [|x l IH]; intros [|y l'] L H; try discriminate L; constructor.
  - apply (H 0); reflexivity.
  - apply IH; [injection L; auto|]. intros i a b E E'. apply (H (S i)); assumption.
Qed.
Lemma nth_both {A B} (l : list A) (l' : list B) i a : length l = length l' -> nth_error l i = Some a -> exists b, nth_error l' i = Some b.
Proof. intros L E. apply nth_some_lt in E. rewrite L in E. apply nth_lt_some. exact E. Qed.

Lemma ex_refl : forall v, extends v v.
Proof.
  induction v as [|s|q|b|j|v IH|l IH|m IH|l IH] using val_ind'; try (constructor; fail); try (constructor; constructor; fail).
  - apply ex_ptr. exact IH.
  - apply ex_arr. apply F2_refl. exact IH.
  - apply ex_map. auto.
  - apply ex_struct. apply F2_refl. exact IH.
Qed.

Lemma set_id {A} (x : A) i l : nth_error l i = Some x -> set_nth i x l = l.
Proof.
  intros H. apply nth_ext_list; [apply length_set|]. intros k y E. destruct (Nat.eq_dec k i) as [->|NE].
  - rewrite nth_set_same in E by (eapply nth_some_lt; eauto). congruence.
  - rewrite nth_set_other in E by exact NE. exact E.
Qed.
Lemma forallb_in_eq {A} (g h : A -> bool) l : (forall x, In x l -> g x = h x) -> forallb g l = forallb h l.
Proof. induction l as [|x l IH]; intros H; cbn [forallb]; [reflexivity|]. rewrite (H x (or_introl eq_refl)), IH; [reflexivity|]. intros; apply H; right; assumption. Qed.

Section Used.
  Variable T : list (string * ent).
  Variable rnd : Q -> Q.
  Variable K : list string.
  Hypothesis CH : used_checks T K = true.

  Notation known := (known T).
  Notation typed := (typed T).
  Notation D := (dec T rnd).

  Lemma ch n fs ps d : get n T = Some (EStruct fs ps d) -> used_ok T K (n, EStruct fs ps d) = true.
  Proof. intros G. apply get_In in G. unfold used_checks in CH. rewrite forallb_forall in CH. exact (CH _ G). Qed.

  Lemma ch_zero n fs ps d : get n T = Some (EStruct fs ps d) -> zero_typed T LVL (TNamed n) = true.
  Proof. intros G. apply ch in G. unfold used_ok in G. cbn [fst snd] in G. rewrite !andb_true_iff in G. apply G. Qed.
  Lemma ch_known n fs ps d i f : get n T = Some (EStruct fs ps d) -> nth_error fs i = Some f -> known (f_ty f) = true.
  Proof.
    intros G N. apply ch in G. unfold used_ok in G. cbn [fst snd] in G. rewrite !andb_true_iff in G. destruct G as [[[[_ G] _] _] _].
    rewrite forallb_forall in G. apply G. eapply nth_error_In; eauto.
  Qed.
  Lemma ch_oneof n fs ps d i f : get n T = Some (EStruct fs ps d) -> In i (d_oneof d) -> nth_error fs i = Some f -> is_coll_ty (f_ty f) = true.
  Proof.
    intros G I N. apply ch in G. unfold used_ok in G. cbn [fst snd] in G. rewrite !andb_true_iff in G. destruct G as [[[_ G] _] _].
    rewrite forallb_forall in G. specialize (G i I). rewrite N in G. exact G.
  Qed.
  Lemma ch_fix n fs ps d i k f : get n T = Some (EStruct fs ps d) -> In (i, k) (d_fix d) -> nth_error fs i = Some f -> f_ty f = TPtr TAny.
  Proof.
    intros G I N. apply ch in G. unfold used_ok in G. cbn [fst snd] in G. rewrite !andb_true_iff in G. destruct G as [[_ G] _].
    rewrite forallb_forall in G. specialize (G _ I). cbn [fst] in G. rewrite N in G. destruct (f_ty f) as [| | | | | |[]| | |]; try discriminate. reflexivity.
  Qed.
  Lemma ch_lower n fs ps d i c b : get n T = Some (EStruct fs ps d) -> In (i, c, b) (d_lower d) -> lower_ok K fs d i = true.
  Proof.
    intros G I. apply ch in G. unfold used_ok in G. cbn [fst snd] in G. rewrite !andb_true_iff in G. destruct G as [_ G].
    rewrite forallb_forall in G. exact (G _ I).
  Qed.

  Lemma zero_typed_ok : forall n t, zero_typed T n t = true -> typed t (zero T n t).
  Proof.
    induction n as [|n IH]; intros t H; destruct t as [| | | | | |t|t|t|s]; cbn [zero zero_typed] in *; try discriminate; try constructor.
    destruct (get s T) as [[vals|fs ps d]|] eqn:G; [|  |discriminate].
    - econstructor. exact G.
    - eapply ty_struct; [exact G|]. rewrite forallb_forall in H. apply F2_of_nth; [rewrite map_length; reflexivity|].
      intros i f v E E'. rewrite nth_error_map, E in E'. injection E' as <-. apply IH. apply H. eapply nth_error_In; eauto.
  Qed.
  Lemma zero_is_typed t : known t = true -> typed t (zero T LVL t).
  Proof.
    intros H. apply zero_typed_ok. destruct t as [| | | | | |t|t|t|s]; try reflexivity. cbn [UsedProofs.known] in H.
    destruct (get s T) as [[vals|fs ps d]|] eqn:G; [|  |discriminate].
    - unfold LVL. cbn [zero_typed]. rewrite G. reflexivity.
    - eapply ch_zero; eauto.
  Qed.
  Lemma zero_nothing : forall n t, nothing (zero T n t).
  Proof.
    induction n as [|n IH]; intros t; destruct t as [| | | | | |t|t|t|s]; cbn [zero]; try constructor.
    destruct (get s T) as [[vals|fs ps d]|]; try constructor. intros v I. apply in_map_iff in I. destruct I as (f & <- & _). apply IH.
  Qed.

  Definition rel (t : ty) (a b : val) : Prop := typed t a /\ typed t b /\ extends a b.
  Definition srel (fs : list field) (vs vs' : list val) : Prop :=
    length vs = length fs /\ length vs' = length fs /\
    forall i f v v', nth_error fs i = Some f -> nth_error vs i = Some v -> nth_error vs' i = Some v' -> rel (f_ty f) v v'.
  Definition dmono (d : decoder) : Prop := forall t a b, known t = true -> rel t a b -> agree (rel t) (d t a) (d t b).

  Lemma rel_same t v : typed t v -> rel t v v.
  Proof. intros H. split; [exact H|]. split; [exact H|apply ex_refl]. Qed.
  Lemma rel_zero t b : known t = true -> typed t b -> rel t (zero T LVL t) b.
  Proof. intros Kt H. split; [apply zero_is_typed; exact Kt|]. split; [exact H|]. apply ex_nothing. apply zero_nothing. Qed.

  Lemma set_srel fs vs vs' i f x y : srel fs vs vs' -> nth_error fs i = Some f -> rel (f_ty f) x y -> srel fs (set_nth i x vs) (set_nth i y vs').
  Proof.
    intros (L & L' & H) N R. split; [rewrite length_set; exact L|]. split; [rewrite length_set; exact L'|].
    intros i' f' v v' N' E E'. destruct (Nat.eq_dec i' i) as [->|NE].
    - pose proof (nth_some_lt _ _ _ N) as Lt. rewrite nth_set_same in E, E' by lia. injection E as <-. injection E' as <-. congruence.
    - rewrite nth_set_other in E, E' by exact NE. eauto.
  Qed.

  Lemma srel_get fs vs vs' i f : srel fs vs vs' -> nth_error fs i = Some f ->
    exists v v', nth_error vs i = Some v /\ nth_error vs' i = Some v' /\ rel (f_ty f) v v'.
  Proof.
    intros (L & L' & H) N. destruct (nth_both fs vs i f (eq_sym L) N) as (v & E). destruct (nth_both fs vs' i f (eq_sym L') N) as (v' & E').
    exists v, v'. eauto.
  Qed.

  (* A list of fields, each decoded over its old value. *)
  Lemma at_field fs vs vs' i (d : decoder) (k k' : list val -> option (list val)) :
    dmono d -> (forall f, nth_error fs i = Some f -> known (f_ty f) = true) -> srel fs vs vs' ->
    (forall us us', srel fs us us' -> agree (srel fs) (k us) (k us')) ->
    agree (srel fs)
      (match nth_error fs i, nth_error vs i with
       | Some f, Some v => match d (f_ty f) v with Some v' => k (set_nth i v' vs) | None => None end
       | _, _ => None end)
      (match nth_error fs i, nth_error vs' i with
       | Some f, Some v => match d (f_ty f) v with Some v' => k (set_nth i v' vs') | None => None end
       | _, _ => None end).
  Proof.
    intros M Kn S C. destruct (nth_error fs i) as [f|] eqn:N; [|constructor].
    destruct (srel_get _ _ _ _ _ S N) as (v & v' & -> & -> & R).
    destruct (M (f_ty f) v v' (Kn f eq_refl) R) as [|x y R']; [constructor|]. apply C. eapply set_srel; eauto.
  Qed.

  Lemma fields_mono fs : (forall i f, nth_error fs i = Some f -> known (f_ty f) = true) ->
    forall ms, (forall m, In m ms -> dmono (snd (snd m))) -> forall vs vs', srel fs vs vs' ->
    agree (srel fs) (dec_fields fs ms vs) (dec_fields fs ms vs').
  Proof.
    intros Kn. induction ms as [|[k [x d]] ms IH]; intros M vs vs' S; cbn [dec_fields]; [constructor; exact S|].
    destruct (find_field fs k) as [i|]; [|apply IH; [intros; apply M; right; assumption|exact S]].
    apply (at_field fs vs vs' i d (dec_fields fs ms) (dec_fields fs ms)).
    - apply (M (k, (x, d))). left. reflexivity.
    - intros f N. eapply Kn; eauto.
    - exact S.
    - intros us us' U. apply IH; [intros; apply M; right; assumption|exact U].
  Qed.

  Lemma embed_mono fs same : dmono same -> (forall i f, nth_error fs i = Some f -> known (f_ty f) = true) ->
    forall is vs vs', srel fs vs vs' -> agree (srel fs) (dec_embed same fs is vs) (dec_embed same fs is vs').
  Proof.
    intros M Kn. induction is as [|i is IH]; intros vs vs' S; cbn [dec_embed]; [constructor; exact S|].
    apply (at_field fs vs vs' i same (dec_embed same fs is) (dec_embed same fs is) M); [intros f N; eapply Kn; eauto|exact S|exact IH].
  Qed.

  Lemma coll_nil t : is_coll_ty t = true -> typed t VNil.
  Proof. destruct t; try discriminate; intros _; constructor. Qed.

  Lemma alts_mono fs same : dmono same -> (forall i f, nth_error fs i = Some f -> known (f_ty f) = true) ->
    forall is, (forall i f, In i is -> nth_error fs i = Some f -> is_coll_ty (f_ty f) = true) ->
    forall vs vs' z, srel fs vs vs' ->
    srel fs (fst (dec_alts same fs is vs z)) (fst (dec_alts same fs is vs' z)) /\
    snd (dec_alts same fs is vs z) = snd (dec_alts same fs is vs' z).
  Proof.
    intros M Kn. induction is as [|i is IH]; intros C vs vs' z S; cbn [dec_alts]; [split; [exact S|reflexivity]|].
    destruct (nth_error fs i) as [f|] eqn:N; [|split; [exact S|reflexivity]].
    destruct (srel_get _ _ _ _ _ S N) as (v & v' & -> & -> & R).
    destruct (M (f_ty f) v v' (Kn i f N) R) as [|x y R']; apply IH; try (intros; eapply C; eauto; right; assumption).
    - eapply set_srel; eauto. apply rel_same. apply coll_nil. eapply C; eauto. left. reflexivity.
    - eapply set_srel; eauto.
  Qed.

  Lemma fix_mono fs raw : forall fx, (forall i k f, In (i, k) fx -> nth_error fs i = Some f -> f_ty f = TPtr TAny) ->
    forall vs vs', srel fs vs vs' -> srel fs (dec_fix fx raw vs) (dec_fix fx raw vs').
  Proof.
    induction fx as [|[i k] fx IH]; intros C vs vs' S; cbn [dec_fix]; [exact S|].
    apply IH; [intros; eapply C; eauto; right; eassumption|].
    destruct (nth_error fs i) as [f|] eqn:N.
    - destruct (srel_get _ _ _ _ _ S N) as (v & v' & E & E' & R). rewrite E, E'.
      pose proof (C i k f (or_introl eq_refl) N) as Tf. rewrite Tf in R.
      destruct R as (R1 & R2 & R3). destruct (raw_has raw k); [|destruct v, v'; exact S].
      assert (P : typed (TPtr TAny) (VPtr (VAny JNull))) by (constructor; constructor).
      inversion R1 as [ | | | | | |t|t x X| | | | | | ]; subst.
      + inversion R2 as [ | | | | | |t|t y Y| | | | | | ]; subst.
        * eapply set_srel; eauto. rewrite Tf. apply rel_same. exact P.
        * replace vs' with (set_nth i (VPtr y) vs') at 1.
          -- eapply set_srel; eauto. rewrite Tf. split; [exact P|]. split; [exact R2|]. apply ex_ptr. apply ex_nothing. constructor.
          -- apply set_id. exact E'.
      + inversion R3 as [? ? Z| | | | | ? y Z| | | ]; subst; [inversion Z|]. exact S.
    - destruct S as (L & L' & S). assert (X : nth_error vs i = None /\ nth_error vs' i = None).
      { apply nth_error_None in N. split; apply nth_error_None; lia. }
      destruct X as [-> ->]. split; [exact L|]. split; [exact L'|exact S].
  Qed.

  Lemma put_rel k t x y v v' : rel t x y -> (forall u u', x = u -> y = u' -> u = u') -> rel (TMap t) v v' ->
    rel (TMap t) (VMap (put k x (match v with VMap m => m | _ => [] end))) (VMap (put k y (match v' with VMap m => m | _ => [] end))).
  Proof.
    intros (X & Y & _) Eq (R1 & R2 & R3). specialize (Eq x y eq_refl eq_refl). subst y.
    split; [|split].
    - constructor. intros k' u G. destruct (string_dec k' k) as [->|NE]; [rewrite get_put_same in G; injection G as <-; exact X|].
      rewrite get_put_other in G by exact NE. inversion R1; subst; [discriminate G|eauto].
    - constructor. intros k' u G. destruct (string_dec k' k) as [->|NE]; [rewrite get_put_same in G; injection G as <-; exact X|].
      rewrite get_put_other in G by exact NE. inversion R2; subst; [discriminate G|eauto].
    - apply ex_map. intros k' u G. destruct (string_dec k' k) as [->|NE]; [rewrite get_put_same in *; exact G|].
      rewrite get_put_other in * by exact NE. inversion R1; subst; [discriminate G|].
      inversion R3 as [? ? Z| | | | | | |? ? Z| ]; subst; [inversion Z|]. eauto.
  Qed.

  Lemma store_mono fs i k d : dmono d -> (forall f, nth_error fs i = Some f -> known (f_ty f) = true) ->
    forall vs vs', srel fs vs vs' -> agree (srel fs) (store T fs i k d vs) (store T fs i k d vs').
  Proof.
    intros M Kn vs vs' S. unfold store. destruct (nth_error fs i) as [f|] eqn:N; [|constructor].
    destruct (srel_get _ _ _ _ _ S N) as (v & v' & E & E' & R). rewrite E, E'.
    specialize (Kn f eq_refl). destruct (f_ty f) as [| | | | | | | |t|] eqn:Tf; try constructor.
    pose proof (M t _ _ Kn (rel_same t _ (zero_is_typed t Kn))) as A.
    destruct (d t (zero T LVL t)) as [x|]; [|constructor]. constructor.
    assert (X : rel t x x) by (inversion A; assumption).
    eapply set_srel; [exact S|exact N|]. rewrite Tf. apply put_rel; [exact X|congruence|exact R].
  Qed.

  Lemma store_pats_mono fs k d : dmono d -> (forall i f, nth_error fs i = Some f -> known (f_ty f) = true) ->
    forall ps vs vs', srel fs vs vs' -> agree (srel fs) (store_pats T fs ps k d vs) (store_pats T fs ps k d vs').
  Proof.
    intros M Kn. induction ps as [|[p i] ps IH]; intros vs vs' S; cbn [store_pats]; [constructor; exact S|].
    destruct (matches p k); [|apply IH; exact S].
    destruct (store_mono fs i k d M (fun f N => Kn i f N) vs vs' S); [constructor|]. apply IH. assumption.
  Qed.
  Lemma pats_mono fs ps : (forall i f, nth_error fs i = Some f -> known (f_ty f) = true) ->
    forall ms, (forall m, In m ms -> dmono (snd (snd m))) -> forall vs vs', srel fs vs vs' ->
    agree (srel fs) (dec_pats T fs ps ms vs) (dec_pats T fs ps ms vs').
  Proof.
    intros Kn. induction ms as [|[k [x d]] ms IH]; intros M vs vs' S; cbn [dec_pats]; [constructor; exact S|].
    assert (Md : dmono d) by (apply (M (k, (x, d))); left; reflexivity).
    destruct (store_pats_mono fs k d Md Kn ps vs vs' S); [constructor|]. apply IH; [intros; apply M; right; assumption|assumption].
  Qed.
  Lemma addl_mono fs i : (forall i f, nth_error fs i = Some f -> known (f_ty f) = true) ->
    forall ms, (forall m, In m ms -> dmono (snd (snd m))) -> forall vs vs', srel fs vs vs' ->
    agree (srel fs) (dec_addl T fs i ms vs) (dec_addl T fs i ms vs').
  Proof.
    intros Kn. induction ms as [|[k [x d]] ms IH]; intros M vs vs' S; cbn [dec_addl]; [constructor; exact S|].
    assert (Md : dmono d) by (apply (M (k, (x, d))); left; reflexivity).
    destruct (store_mono fs i k d Md (fun f N => Kn i f N) vs vs' S); [constructor|]. apply IH; [intros; apply M; right; assumption|assumption].
  Qed.

  Lemma elems_mono t : known t = true -> forall ds, (forall d, In d ds -> dmono d) -> forall os os',
    (forall o, In o os -> typed t o) -> (forall o, In o os' -> typed t o) -> os = [] \/ Forall2 extends os os' ->
    agree (fun l l' => (forall v, In v l -> typed t v) /\ (forall v, In v l' -> typed t v) /\ Forall2 extends l l')
      (dec_elems T t ds os) (dec_elems T t ds os').
  Proof.
    intros Kt. induction ds as [|d ds IH]; intros M os os' To To' R; cbn [dec_elems]; [constructor; split; [intros ? []|split; [intros ? []|constructor]]|].
    assert (H : rel t (hd (zero T LVL t) os) (hd (zero T LVL t) os')).
    { destruct R as [->|R].
      - cbn [hd]. apply rel_zero; [exact Kt|]. destruct os' as [|o os']; [apply zero_is_typed; exact Kt|apply To'; left; reflexivity].
      - destruct R as [|o o' os os' R F]; cbn [hd]; [apply rel_same; apply zero_is_typed; exact Kt|].
        split; [apply To; left; reflexivity|]. split; [apply To'; left; reflexivity|exact R]. }
    assert (I : agree (fun l l' => (forall v, In v l -> typed t v) /\ (forall v, In v l' -> typed t v) /\ Forall2 extends l l')
      (dec_elems T t ds (tl os)) (dec_elems T t ds (tl os'))).
    { apply IH.
      - intros; apply M; right; assumption.
      - intros o I. apply To. destruct os; [destruct I|right; exact I].
      - intros o I. apply To'. destruct os'; [destruct I|right; exact I].
      - destruct R as [->|R]; [left; reflexivity|]. destruct R; [left; reflexivity|right; assumption]. }
    destruct (M d (or_introl eq_refl) t _ _ Kt H) as [|x y (X & Y & Z)]; [constructor|].
    destruct I as [|l l' (L1 & L2 & L3)]; [constructor|]. constructor.
    split; [intros v [<-|I]; auto|]. split; [intros v [<-|I]; auto|]. constructor; assumption.
  Qed.

  Lemma entries_mono t : known t = true -> forall ms, (forall m, In m ms -> dmono (snd (snd m))) -> forall m m',
    rel (TMap t) (VMap m) (VMap m') -> agree (fun m m' => rel (TMap t) (VMap m) (VMap m')) (dec_entries T t ms m) (dec_entries T t ms m').
  Proof.
    intros Kt. induction ms as [|[k [x d]] ms IH]; intros M m m' R; cbn [dec_entries]; [constructor; exact R|].
    pose proof (M _ (or_introl eq_refl) t _ _ Kt (rel_same t _ (zero_is_typed t Kt))) as A. cbn [snd] in A.
    destruct (d t (zero T LVL t)) as [y|]; [|constructor].
    assert (X : rel t y y) by (inversion A; assumption).
    apply IH; [intros; apply M; right; assumption|].
    apply (put_rel k t y y (VMap m) (VMap m') X); [congruence|exact R].
  Qed.

  (* ---------- the scheme of HTTP security ---------- *)

  Definition indep (d : decoder) : Prop := forall v v', d TStr v = d TStr v'.

  Lemma fields_exact fs i f : nth_error fs i = Some f -> f_ty f = TStr ->
    forall ms, (forall m, In m ms -> find_field fs (fst m) = Some i -> indep (snd (snd m))) ->
    forall vs vs' us us', length vs = length vs' ->
    nth_error vs i = nth_error vs' i \/ (exists m, In m ms /\ find_field fs (fst m) = Some i) ->
    dec_fields fs ms vs = Some us -> dec_fields fs ms vs' = Some us' -> nth_error us i = nth_error us' i.
  Proof.
    intros N Tf. induction ms as [|[k [x d]] ms IH]; intros I vs vs' us us' L C E E'; cbn [dec_fields] in E, E'.
    - destruct C as [C|(m & [] & _)]. congruence.
    - assert (I' : forall m, In m ms -> find_field fs (fst m) = Some i -> indep (snd (snd m))) by (intros; apply I; [right|]; assumption).
      destruct (find_field fs k) as [i0|] eqn:F.
      + destruct (nth_error fs i0) as [f0|] eqn:N0; [|discriminate].
        destruct (nth_error vs i0) as [v|] eqn:V; [|discriminate]. destruct (nth_error vs' i0) as [v'|] eqn:V'; [|discriminate].
        destruct (d (f_ty f0) v) as [w|] eqn:W; [|discriminate]. destruct (d (f_ty f0) v') as [w'|] eqn:W'; [|discriminate].
        assert (L2 : length (set_nth i0 w vs) = length (set_nth i0 w' vs')) by (rewrite !length_set; exact L).
        eapply IH; [exact I'|exact L2| |exact E|exact E'].
        destruct (Nat.eq_dec i0 i) as [->|NE].
        * left. rewrite N in N0. injection N0 as <-. rewrite Tf in W, W'.
          pose proof (I _ (or_introl eq_refl) F v v') as X. cbn [snd] in X. rewrite W, W' in X. injection X as ->.
          rewrite !nth_set_same by (eapply nth_some_lt; eassumption). reflexivity.
        * destruct C as [C|(m & [<-|Im] & Fm)].
          -- left. rewrite !nth_set_other by congruence. exact C.
          -- cbn [fst] in Fm. congruence.
          -- right. eauto.
      + eapply IH; [exact I'|exact L| |exact E|exact E'].
        destruct C as [C|(m & [<-|Im] & Fm)]; [left; exact C|cbn [fst] in Fm; congruence|right; eauto].
  Qed.

  Lemma embed_other same fs i : forall is vs us, ~ In i is -> dec_embed same fs is vs = Some us -> nth_error us i = nth_error vs i.
  Proof.
    induction is as [|i0 is IH]; intros vs us NI E; cbn [dec_embed] in E; [congruence|].
    destruct (nth_error fs i0) as [f|]; [|discriminate]. destruct (nth_error vs i0) as [v|]; [|discriminate].
    destruct (same (f_ty f) v) as [w|]; [|discriminate].
    rewrite (IH _ _ (fun h => NI (or_intror h)) E). apply nth_set_other. intros ->. apply NI. left. reflexivity.
  Qed.
  Lemma alts_other same fs i : forall is vs z, ~ In i is -> nth_error (fst (dec_alts same fs is vs z)) i = nth_error vs i.
  Proof.
    induction is as [|i0 is IH]; intros vs z NI; cbn [dec_alts]; [reflexivity|].
    destruct (nth_error fs i0) as [f|]; [|reflexivity]. destruct (nth_error vs i0) as [v|]; [|reflexivity].
    assert (NE : i <> i0) by (intros ->; apply NI; left; reflexivity).
    assert (NI' : ~ In i is) by (intros h; apply NI; right; exact h).
    destruct (same (f_ty f) v); rewrite IH by exact NI'; apply nth_set_other; exact NE.
  Qed.

  (* ---------- an entity ---------- *)

  Definition wmono (w : jview) : Prop :=
    match w with
    | SArr ds => forall d, In d ds -> dmono d
    | SObj ms => (forall m, In m ms -> dmono (snd (snd m))) /\
                 (forall m q, In m ms -> In q K -> fold_key (fst m) = fold_key q -> indep (snd (snd m)))
    | _ => True
    end.

  Lemma raw_mono w : wmono w -> forall m, In m (raw_map w) -> dmono (snd (snd m)).
  Proof. destruct w; cbn [raw_map wmono]; intros H m I; try destruct I. apply H. apply dedup_sub in I. exact I. Qed.

  Lemma struct_mono fs w : (forall i f, nth_error fs i = Some f -> known (f_ty f) = true) -> wmono w ->
    forall vs vs', srel fs vs vs' -> agree (srel fs) (dec_struct w fs vs) (dec_struct w fs vs').
  Proof. intros Kn W vs vs' S. destruct w; cbn [dec_struct]; try constructor; [exact S|]. apply fields_mono; [exact Kn|apply W|exact S]. Qed.

  Lemma lower_same n fs ps d i c b w vs vs' us us' : get n T = Some (EStruct fs ps d) -> In (i, c, b) (d_lower d) -> wmono w ->
    raw_checks d (raw_map w) = true -> length vs = length vs' ->
    (if d_struct d then dec_struct w fs vs else Some vs) = Some us ->
    (if d_struct d then dec_struct w fs vs' else Some vs') = Some us' ->
    nth_error us i = nth_error us' i /\ ~ In i (d_embed d) /\ ~ In i (d_oneof d).
  Proof.
    intros G I W RC L E E'. pose proof (ch_lower n fs ps d i c b G I) as LO. unfold lower_ok in LO.
    destruct (nth_error fs i) as [f|] eqn:N; [|discriminate]. destruct (f_ty f) eqn:Tf; try discriminate.
    destruct (f_key f) as [q|] eqn:Kf; [|discriminate]. rewrite !andb_true_iff in LO. destruct LO as [[[[Ds Rq] Kq] Fq] NE].
    destruct (find_field fs q) as [i'|] eqn:F; [|discriminate]. apply Nat.eqb_eq in Fq. subst i'.
    rewrite Ds in E, E'. apply CodecProofs.in_list_In in Rq, Kq.
    unfold raw_checks in RC. rewrite !andb_true_iff in RC. destruct RC as [[[[RC _] _] _] _]. rewrite forallb_forall in RC.
    specialize (RC q Rq). unfold raw_has in RC. apply CodecProofs.in_list_In in RC.
    split.
    - destruct w as [| | | | |ms]; cbn [raw_map map] in RC; try destruct RC. rewrite dedup_keys in RC. cbn [dec_struct] in E, E'.
      apply in_map_iff in RC. destruct RC as (m & Em & Im).
      eapply (fields_exact fs i f N Tf ms); [|exact L| |exact E|exact E'].
      + intros m' Im' Fm'. destruct (find_field_fold _ _ _ Fm') as (f' & k' & N' & K' & Fo).
        rewrite N in N'. injection N' as <-. rewrite Kf in K'. injection K' as <-. eapply (proj2 W); eauto.
      + right. exists m. split; [exact Im|]. rewrite Em. exact F.
    - apply negb_true_iff in NE. rewrite existsb_app in NE. apply orb_false_iff in NE. destruct NE as [N1 N2].
      assert (X : forall l, existsb (Nat.eqb i) l = false -> ~ In i l).
      { intros l H Il. assert (existsb (Nat.eqb i) l = true); [|congruence]. apply existsb_exists. exists i. split; [exact Il|apply Nat.eqb_refl]. }
      split; apply X; assumption.
  Qed.

  Lemma raw_part_mono n fs ps d w vs vs' : get n T = Some (EStruct fs ps d) -> wmono w -> srel fs vs vs' ->
    (raw_checks d (raw_map w) = true -> lower_checks d vs = lower_checks d vs') ->
    agree (srel fs) (dec_raw T fs d w vs) (dec_raw T fs d w vs').
  Proof.
    intros G W S L. unfold dec_raw. destruct (raw_checks d (raw_map w)); cbn [andb]; [|constructor].
    rewrite <- (L eq_refl). destruct (lower_checks d vs); [|constructor].
    assert (Kn : forall i f, nth_error fs i = Some f -> known (f_ty f) = true) by (intros; eapply ch_known; eauto).
    pose proof (raw_mono w W) as RM.
    assert (S1 : srel fs (dec_fix (d_fix d) (raw_map w) vs) (dec_fix (d_fix d) (raw_map w) vs')).
    { apply fix_mono; [|exact S]. intros; eapply ch_fix; eauto. }
    assert (RM1 : forall m, In m (raw_rest d (raw_map w)) -> dmono (snd (snd m))).
    { intros m I. apply RM. unfold raw_rest in I. apply filter_In in I. apply I. }
    destruct (pats_mono fs (d_pats d) Kn _ RM1 _ _ S1) as [|us us' S2]; [constructor|].
    destruct (d_addl d) as [|i is].
    - match goal with |- context [if ?b then None else _] => destruct b end; constructor. exact S2.
    - apply addl_mono; [exact Kn| |exact S2]. intros m I. apply RM1. unfold raw_left in I. apply filter_In in I. apply I.
  Qed.

  Lemma ent_mono n fs ps d w same : get n T = Some (EStruct fs ps d) -> wmono w -> dmono same ->
    forall vs vs', srel fs vs vs' -> agree (srel fs) (dec_ent T same w fs d vs) (dec_ent T same w fs d vs').
  Proof.
    intros G W M vs vs' S. unfold dec_ent.
    match goal with |- context [if ?b then _ else None] => destruct b end; [|constructor].
    assert (Kn : forall i f, nth_error fs i = Some f -> known (f_ty f) = true) by (intros; eapply ch_known; eauto).
    assert (S1 : agree (srel fs) (if d_struct d then dec_struct w fs vs else Some vs) (if d_struct d then dec_struct w fs vs' else Some vs')).
    { destruct (d_struct d); [apply struct_mono; assumption|constructor; exact S]. }
    destruct (if d_struct d then dec_struct w fs vs else Some vs) as [us|] eqn:E;
      destruct (if d_struct d then dec_struct w fs vs' else Some vs') as [us'|] eqn:E'; try (inversion S1; fail); [|constructor].
    assert (S1' : srel fs us us') by (inversion S1; assumption).
    pose proof (embed_mono fs same M Kn (d_embed d) us us' S1') as S2.
    destruct (dec_embed same fs (d_embed d) us) as [es|] eqn:EE;
      destruct (dec_embed same fs (d_embed d) us') as [es'|] eqn:EE'; try (inversion S2; fail); [|constructor].
    assert (S2' : srel fs es es') by (inversion S2; assumption).
    assert (C : forall i f, In i (d_oneof d) -> nth_error fs i = Some f -> is_coll_ty (f_ty f) = true) by (intros; eapply ch_oneof; eauto).
    destruct (alts_mono fs same M Kn (d_oneof d) C es es' 0 S2') as [S3 Z].
    pose proof (fun i => alts_other same fs i (d_oneof d) es 0) as O. pose proof (fun i => alts_other same fs i (d_oneof d) es' 0) as O'.
    destruct (dec_alts same fs (d_oneof d) es 0) as [ws z]. destruct (dec_alts same fs (d_oneof d) es' 0) as [ws' z'].
    cbn [fst snd] in *. subst z'.
    match goal with |- context [if ?b then dec_raw _ _ _ _ _ else None] => destruct b end; [|constructor].
    eapply raw_part_mono; eauto. intros RC. unfold lower_checks. apply forallb_in_eq. intros [[i c] b] I. cbn [fst snd].
    destruct (lower_same n fs ps d i c b w vs vs' us us' G I W RC) as (X & N1 & N2); [destruct S as (-> & -> & _); reflexivity|exact E|exact E'|].
    rewrite (O i N2), (O' i N2), (embed_other _ _ _ _ _ _ N1 EE), (embed_other _ _ _ _ _ _ N1 EE'), X. reflexivity.
  Qed.

  Lemma srel_of n fs ps d vs vs' : get n T = Some (EStruct fs ps d) -> rel (TNamed n) (VStruct vs) (VStruct vs') -> srel fs vs vs'.
  Proof.
    intros G (A & B & E). inversion A as [| | | | | | | | | | | | |n1 fs1 ps1 d1 l1 G1 F1]; subst. inversion B as [| | | | | | | | | | | | |n2 fs2 ps2 d2 l2 G2 F2]; subst.
    rewrite G in G1, G2. injection G1 as <- <- <-. injection G2 as <- <- <-.
    split; [symmetry; eapply F2_length; eauto|]. split; [symmetry; eapply F2_length; eauto|].
    intros i f v v' N V V'. split; [exact (F2_nth2 _ _ _ F1 i f v N V)|]. split; [exact (F2_nth2 _ _ _ F2 i f v' N V')|].
    inversion E as [? ? Z| | | | | | | |? ? Z]; subst.
    - inversion Z; subst. apply ex_nothing. match goal with h : forall u, In u _ -> nothing u |- _ => apply h end. eapply nth_error_In; eauto.
    - exact (F2_nth2 _ _ _ Z i v v' V V').
  Qed.
  Lemma rel_of n fs ps d vs vs' : get n T = Some (EStruct fs ps d) -> srel fs vs vs' -> rel (TNamed n) (VStruct vs) (VStruct vs').
  Proof.
    intros G (L & L' & H). assert (Q : forall i f, nth_error fs i = Some f -> exists v v', nth_error vs i = Some v /\ nth_error vs' i = Some v' /\ rel (f_ty f) v v').
    { intros i f N. eapply srel_get; [split; [exact L|split; [exact L'|exact H]]|exact N]. }
    split; [|split].
    - eapply ty_struct; [exact G|]. apply F2_of_nth; [congruence|]. intros i f v N V. destruct (Q i f N) as (a & b & A & B & R & _). rewrite V in A. injection A as <-. exact R.
    - eapply ty_struct; [exact G|]. apply F2_of_nth; [congruence|]. intros i f v N V. destruct (Q i f N) as (a & b & A & B & _ & R & _). rewrite V in B. injection B as <-. exact R.
    - apply ex_struct. apply F2_of_nth; [congruence|]. intros i v v' V V'. destruct (nth_both vs fs i v L V) as (f & N).
      destruct (H i f v v' N V V') as (_ & _ & R). exact R.
  Qed.

  Lemma step_mono j w same : wmono w -> dmono same -> dmono (dec_step T rnd j w same).
  Proof.
    intros W M t a b Kt R. pose proof R as (A & B & E). destruct t as [| | | | | |t|t|t|s]; cbn [dec_step].
    - destruct w; try (constructor; fail); constructor; [exact R|]. apply rel_same. constructor.
    - destruct w; try (constructor; fail); try (constructor; exact R). destruct (int64b q); constructor. apply rel_same. constructor.
    - destruct w; try (constructor; fail); constructor; [exact R|]. apply rel_same. constructor.
    - destruct w; try (constructor; fail); constructor; [exact R|]. apply rel_same. constructor.
    - constructor. apply rel_same. constructor.
    - constructor.
    - assert (X : rel t (match a with VPtr v => v | _ => zero T LVL t end) (match b with VPtr v => v | _ => zero T LVL t end)).
      { inversion A; subst.
        - apply rel_zero; [exact Kt|]. inversion B; subst; [apply zero_is_typed; exact Kt|assumption].
        - inversion E as [? ? Z| | | | | | | | ]; subst; [inversion Z|]. inversion B; subst. split; [assumption|]. split; assumption. }
      assert (Y : agree (rel (TPtr t)) (match same t (match a with VPtr v => v | _ => zero T LVL t end) with Some v => Some (VPtr v) | None => None end)
                                       (match same t (match b with VPtr v => v | _ => zero T LVL t end) with Some v => Some (VPtr v) | None => None end)).
      { destruct (M t _ _ Kt X) as [|x y (X1 & X2 & X3)]; constructor. split; [constructor; exact X1|]. split; [constructor; exact X2|]. apply ex_ptr. exact X3. }
      destruct w; try exact Y. constructor. apply rel_same. constructor.
    - destruct w; try (constructor; fail); [constructor; apply rel_same; constructor|].
      assert (X : agree (fun l l' => (forall v, In v l -> typed t v) /\ (forall v, In v l' -> typed t v) /\ Forall2 extends l l')
        (dec_elems T t l (match a with VArr l => l | _ => [] end)) (dec_elems T t l (match b with VArr l => l | _ => [] end))).
      { apply elems_mono; [exact Kt|exact W| | |].
        - inversion A; subst; [intros ? []|assumption].
        - inversion B; subst; [intros ? []|assumption].
        - inversion A; subst; [left; reflexivity|]. inversion E as [? ? Z| | | | | | | | ]; subst; [inversion Z|]. right. assumption. }
      destruct X as [|x y (X1 & X2 & X3)]; constructor. split; [constructor; exact X1|]. split; [constructor; exact X2|]. apply ex_arr. exact X3.
    - destruct w; try (constructor; fail); [constructor; apply rel_same; constructor|].
      assert (X : rel (TMap t) (VMap (match a with VMap m => m | _ => [] end)) (VMap (match b with VMap m => m | _ => [] end))).
      { inversion A; subst.
        - inversion B; subst; (split; [constructor; intros ? ? G; discriminate G|]).
          + split; [constructor; intros ? ? G; discriminate G|apply ex_refl].
          + split; [assumption|]. apply ex_map. intros ? ? G; discriminate G.
        - inversion E as [? ? Z| | | | | | | | ]; subst; [inversion Z|]. exact R. }
      destruct (entries_mono t Kt ms (proj1 W) _ _ X); constructor. assumption.
    - destruct (get s T) as [[vals|fs ps d]|] eqn:G; [| |constructor].
      + match goal with |- context [match ?o with Some s => if in_list s vals then _ else _ | None => _ end] => destruct o as [x|] end; [|constructor].
        destruct (in_list x vals); constructor. apply rel_same. econstructor. exact G.
      + inversion A as [| | | | | | | | | | | |n1 v1 s1 G1|n1 fs1 ps1 d1 l1 G1 F1]; subst; [congruence|].
        inversion B as [| | | | | | | | | | | |n2 v2 s2 G2|n2 fs2 ps2 d2 l2 G2 F2]; subst; [congruence|].
        destruct (ent_mono s fs ps d w same G W M _ _ (srel_of _ _ _ _ _ _ G R)) as [|x y X]; constructor.
        exact (rel_of _ _ _ _ _ _ G X).
  Qed.

  Lemma levels_mono f : (forall s, dmono s -> dmono (f s)) -> forall n, dmono (levels f n).
  Proof. intros H. induction n as [|n IH]; cbn [levels]; [intros t a b _ _; constructor|]. apply H. exact IH. Qed.

  Lemma dec_indep j : j <> JNull -> indep (D j).
  Proof. intros N v v'. destruct j; try congruence; reflexivity. Qed.

  Lemma dec_mono : forall j, no_null K j -> dmono (D j).
  Proof.
    induction j as [|b|q|s|l IH|m IH] using json_ind'; intros NN; cbn [dec]; apply levels_mono; intros s0 M0; apply step_mono; try exact M0; cbn [wmono]; try exact I.
    - inversion NN as [| | | |? H|]; subst. intros d I. apply in_map_iff in I. destruct I as (x & <- & I). rewrite Forall_forall in IH. apply IH; auto.
    - inversion NN as [| | | | |? H1 H2]; subst. rewrite Forall_forall in IH. split.
      + intros a I. apply in_map_iff in I. destruct I as ([k x] & <- & I). cbn [fst snd]. apply (IH (k, x) I). eauto.
      + intros a q I Iq Fo. apply in_map_iff in I. destruct I as ([k x] & <- & I). cbn [fst snd] in *. apply dec_indep. intros ->. exact (H1 q k Iq Fo I).
  Qed.

  Theorem used_agree t j old : known t = true -> no_null K j -> typed t old ->
    agree (rel t) (unmarshal T rnd t j) (unmarshal_over T rnd t j old).
  Proof. intros Kt NN To. unfold unmarshal, unmarshal_over. apply dec_mono; [exact NN|exact Kt|]. apply rel_zero; assumption. Qed.
End Used.
