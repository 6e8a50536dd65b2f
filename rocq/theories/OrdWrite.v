(* Values that are the same up to the order of maps are written the same up to
   the order of members; what is read has no repeated keys. *)
From Coq Require Import Permutation Lia.
From Verif Require Import Str SMap Json CodecModel CodecSpec CodecProofs CodecWrite OrdModel OrdSpec OrdProofs.

Notation vss := (Forall2 vsame).

Definition rmem (a b : string * json) : Prop := fst a = fst b /\ reordered (snd a) (snd b).

Lemma ro_app m1 m1' m2 m2' : reordered (JObj m1) (JObj m1') -> reordered (JObj m2) (JObj m2') -> reordered (JObj (m1 ++ m2)) (JObj (m1' ++ m2')).
Proof.
  intros H1 H2. inversion H1 as [| | | | |a b c P1 F1]; subst. inversion H2 as [| | | | |a' b' c' P2 F2']; subst.
  apply ro_obj with (b ++ b'); [apply Permutation_app; assumption|apply Forall2_app; assumption].
Qed.
Lemma ro_members m m' : Forall2 rmem m m' -> reordered (JObj m) (JObj m').
Proof. intros F. apply ro_obj with m; [reflexivity|exact F]. Qed.

(* ---------- marshalUnion ---------- *)

Lemma hollow_ro j j' : reordered j j' -> match j with JNull | JObj [] => true | _ => false end = match j' with JNull | JObj [] => true | _ => false end.
Proof.
  intros H. inversion H as [| | | | |m m1 m' P F]; subst; try reflexivity. destruct m as [|x m].
  - apply Permutation_nil in P. subst. inversion F. reflexivity.
  - destruct m' as [|x' m']; [|reflexivity]. inversion F; subst. apply Permutation_sym, Permutation_nil in P. discriminate P.
Qed.
Lemma hollows_ro l l' : Forall2 reordered l l' ->
  forallb (fun p => match p with JNull | JObj [] => true | _ => false end) l = forallb (fun p => match p with JNull | JObj [] => true | _ => false end) l'.
Proof. induction 1 as [|a b l l' H F IH]; [reflexivity|]. cbn [forallb]. rewrite (hollow_ro _ _ H), IH. reflexivity. Qed.

Lemma union_rel : forall l l', Forall2 reordered l l' -> forall acc acc', reordered (JObj acc) (JObj acc') -> agree reordered (junion_loop l acc) (junion_loop l' acc').
Proof.
  induction 1 as [|a b l l' H F IH]; intros acc acc' R; cbn [junion_loop]; [constructor; exact R|].
  assert (E : match acc with [] => true | _ => false end = match acc' with [] => true | _ => false end) by (pose proof (hollow_ro _ _ R) as X; destruct acc, acc'; try discriminate X; reflexivity).
  pose proof H as H0. inversion H as [| | | | |m m1 m' P F']; subst; [apply IH; exact R| | | | |apply IH; apply ro_app; assumption];
    destruct acc, acc'; try discriminate E; try constructor; rewrite (hollows_ro _ _ F); match goal with |- context [if ?c then _ else _] => destruct c end; constructor; exact H0.
Qed.

(* ---------- values ---------- *)

Definition erel (e e' : encoder) : Prop := forall t, agree reordered (e t) (e' t).
Definition fvr (a b : val * encoder) : Prop := vsame (fst a) (fst b) /\ erel (snd a) (snd b).

Lemma empty_rel v v' : vsame v v' -> is_empty v = is_empty v'.
Proof.
  intros H. inversion H as [| | | |j j' R|v0 v1 R|l l' F|l l' F|m m' HN HS]; subst; try reflexivity.
  - cbn. inversion R; subst; reflexivity.
  - inversion F; subst; reflexivity.
  - destruct m as [|[k v] m], m' as [|[k' v'] m']; try reflexivity.
    + specialize (HN k' eq_refl). cbn [get] in HN. rewrite String.eqb_refl in HN. discriminate HN.
    + destruct (HS k v) as (w & A & _); [cbn [get]; rewrite String.eqb_refl; reflexivity|]. discriminate A.
Qed.

Lemma fields_enc fs : forall vs vs', Forall2 fvr vs vs' -> agree (Forall2 rmem) (enc_fields fs vs) (enc_fields fs vs').
Proof.
  induction fs as [|f fs IH]; intros vs vs' F; destruct F as [|[v e] [v' e'] vs vs' [V E] F]; cbn [enc_fields]; try constructor; try constructor.
  destruct (f_key f) as [k|]; [|apply IH; exact F]. cbn [fst snd] in V, E. rewrite (empty_rel _ _ V). destruct (f_omit f && is_empty v'); [apply IH; exact F|].
  destruct (agree_case _ _ _ (E (f_ty f))) as [[-> ->]|(j & j' & -> & -> & R)]; [constructor|].
  destruct (IH _ _ F) as [|m m' M]; constructor. constructor; [split; [reflexivity|exact R]|exact M].
Qed.
Lemma part_enc fs p vs vs' : Forall2 fvr vs vs' -> agree reordered (enc_part fs vs p) (enc_part fs vs' p).
Proof.
  intros F. destruct p as [m| |i]; cbn [enc_part].
  - constructor. apply ro_refl.
  - destruct (fields_enc fs _ _ F) as [|m m' M]; constructor. apply ro_members. exact M.
  - destruct (nth_error fs i) as [f|]; [|constructor]. destruct (nth_error vs i) as [[v e]|] eqn:E.
    + destruct (nth_F2 _ _ _ _ _ F E) as ([v' e'] & -> & _ & R). apply R.
    + rewrite (nth_F2_None _ _ _ _ F E). constructor.
Qed.
Lemma seq_rel {A B} (R : B -> B -> Prop) (f g : A -> option B) l : (forall x, In x l -> agree R (f x) (g x)) -> agree (Forall2 R) (seq_opt (map f l)) (seq_opt (map g l)).
Proof.
  induction l as [|x l IH]; intros H; cbn [map seq_opt]; [constructor; constructor|].
  destruct (agree_case _ _ _ (H x (or_introl eq_refl))) as [[-> ->]|(a & b & -> & -> & Rab)]; [constructor|].
  destruct IH as [|r r' RR]; [intros y I; apply H; right; exact I|constructor|]. constructor. constructor; assumption.
Qed.
Lemma seq_F2 {A B} (R : B -> B -> Prop) (f : A -> option B) l l' : Forall2 (fun x y => agree R (f x) (f y)) l l' -> agree (Forall2 R) (seq_opt (map f l)) (seq_opt (map f l')).
Proof.
  induction 1 as [|x y l l' H F IH]; cbn [map seq_opt]; [constructor; constructor|].
  destruct (agree_case _ _ _ H) as [[-> ->]|(a & b & -> & -> & Rab)]; [constructor|]. destruct IH; constructor. constructor; assumption.
Qed.
(* All or nothing, in any order. *)
Lemma seq_perm {A B} (f : A -> option B) l l' : Permutation l l' -> agree (@Permutation B) (seq_opt (map f l)) (seq_opt (map f l')).
Proof.
  induction 1 as [|x l l' P IH|x y l|l1 l2 l3 P1 IH1 P2 IH2]; cbn [map seq_opt].
  - constructor. reflexivity.
  - destruct (f x); [|constructor]. destruct IH; constructor. constructor. assumption.
  - destruct (f x), (f y); try constructor. destruct (seq_opt (map f l)); constructor. apply perm_swap.
  - eapply agree_trans; [|exact IH1|exact IH2]. intros a b c. apply perm_trans.
Qed.

(* Maps without repeated keys that are the same hold the same entries. *)
Lemma same_perm : forall m m', NoDup (map fst m) -> NoDup (map fst m') -> vsame (VMap m) (VMap m') ->
  exists m1, Permutation m' m1 /\ Forall2 (fun a b => fst a = fst b /\ vsame (snd a) (snd b)) m m1.
Proof.
  induction m as [|[k v] m IH]; intros m' N N' S.
  - destruct m' as [|[k' v'] m']; [exists []; split; constructor|]. pose proof (vs_get _ _ k' S) as G. cbn [get] in G. rewrite String.eqb_refl in G. inversion G.
  - pose proof (vs_get _ _ k S) as G. cbn [get] in G. rewrite String.eqb_refl in G. inversion G as [|x v' R E1 E2]; subst. symmetry in E2.
    pose proof (get_In _ _ _ E2) as I. destruct (in_split _ _ I) as (a & b & ->).
    assert (P : Permutation (a ++ (k, v') :: b) ((k, v') :: a ++ b)) by (apply Permutation_sym, Permutation_middle).
    assert (N2 : NoDup (map fst ((k, v') :: a ++ b))) by (eapply Permutation_NoDup; [apply Permutation_map; exact P|exact N']).
    cbn [map fst] in N, N2. inversion N as [|x l NI N1]; subst. inversion N2 as [|x l NI2 N3]; subst.
    destruct (IH (a ++ b) N1 N3) as (m1 & A & B).
    + apply vs_of_get. intros q. pose proof (vs_get _ _ q S) as Gq. rewrite (get_perm q _ _ P N') in Gq. cbn [get] in Gq. destruct (String.eqb q k) eqn:Eq; [|exact Gq].
      apply String.eqb_eq in Eq. subst q. assert (X : get k m = None) by (apply get_None; exact NI). assert (Y : get k (a ++ b) = None) by (apply get_None; exact NI2). rewrite X, Y. constructor.
    + exists ((k, v') :: m1). split; [transitivity ((k, v') :: a ++ b); [exact P|constructor; exact A]|]. constructor; [split; [reflexivity|exact R]|exact B].
Qed.

Lemma enc_rel T : forall v v', vsame v v' -> single v -> single v' -> erel (enc T v) (enc T v').
Proof.
  induction v as [|s|q|b|j|v IH|l IH|m IH|l IH] using val_ind'; intros v' S Sv Sv' t; inversion S as [| | | |j0 j' R|v0 v1 R|l0 l' F|l0 l' F|m0 m' HN HS]; subst; cbn [enc];
    try (apply agree_refl; apply ro_refl).
  - destruct t; constructor. exact R.
  - destruct t; try constructor. inversion Sv; subst. inversion Sv'; subst. apply IH; assumption.
  - destruct t as [| | | | | | |t| |]; try constructor. inversion Sv as [| | | | | |l0 X| |]; subst. inversion Sv' as [| | | | | |l0 X'| |]; subst. rewrite Forall_forall in IH.
    assert (A : agree (Forall2 reordered) (seq_opt (map (fun v => enc T v t) l)) (seq_opt (map (fun v => enc T v t) l'))).
    { apply seq_F2. clear S Sv Sv'. induction F as [|x y l l' H F IHF]; constructor; [|apply IHF; [intros z I; apply IH; right; exact I|intros z I; apply X; right; exact I|intros z I; apply X'; right; exact I]].
      apply IH; [left; reflexivity|exact H|apply X; left; reflexivity|apply X'; left; reflexivity]. }
    destruct A; constructor. constructor. assumption.
  - destruct t as [| | | | | | | |t|]; try constructor. inversion Sv as [| | | | | | | |m0 N X]; subst. inversion Sv' as [| | | | | | | |m0 N' X']; subst. rewrite Forall_forall in IH.
    set (f := fun kv : string * val => match enc T (snd kv) t with Some j => Some (fst kv, j) | None => None end).
    destruct (same_perm m m' N N' S) as (m1 & P & F).
    assert (A1 : agree (Forall2 rmem) (seq_opt (map f m)) (seq_opt (map f m1))).
    { apply seq_F2. assert (X1 : forall k v, In (k, v) m1 -> single v) by (intros k v I; apply (X' k); eapply Permutation_in; [apply Permutation_sym; exact P|exact I]).
      clear - IH X X1 F. induction F as [|[k x] [k' y] l l' [E H] F IHF]; constructor; [|apply IHF; [intros z I; apply IH; right; exact I|intros q z I; apply (X q); right; exact I|intros q z I; apply (X1 q); right; exact I]].
      unfold f. cbn [fst snd] in *. subst k'. destruct (agree_case _ _ _ (IH (k, x) (or_introl eq_refl) y H (X k x (or_introl eq_refl)) (X1 k y (or_introl eq_refl)) t)) as [[A B]|(j & j' & A & B & R)]; cbn [snd] in A; rewrite A, B; constructor. split; [reflexivity|exact R]. }
    pose proof (seq_perm f m' m1 P) as A2.
    inversion A1 as [E1 E2|ms ms1 M E1 E2]; rewrite <- E2 in A2; inversion A2 as [E3 E4|ms' ms2 Q E3 E4]; constructor; subst.
    destruct (perm_F2_r _ _ _ _ (Permutation_sym Q) M) as (ms3 & B1 & B2). apply ro_obj with ms3; assumption.
  - destruct t as [| | | | | | | | |n]; try constructor. destruct (get n T) as [[vals|fs ps d]|]; try constructor. inversion Sv as [| | | | | | |l0 X|]; subst. inversion Sv' as [| | | | | | |l0 X'|]; subst. rewrite Forall_forall in IH.
    assert (FV : Forall2 fvr (map (fun v => (v, enc T v)) l) (map (fun v => (v, enc T v)) l')).
    { clear S Sv Sv'. induction F as [|x y l l' H F IHF]; cbn [map]; constructor; [|apply IHF; [intros z I; apply IH; right; exact I|intros z I; apply X; right; exact I|intros z I; apply X'; right; exact I]].
      split; [exact H|]. intros t. apply IH; [left; reflexivity|exact H|apply X; left; reflexivity|apply X'; left; reflexivity]. }
    assert (A : agree (Forall2 reordered) (seq_opt (map (enc_part fs (map (fun v => (v, enc T v)) l)) ps)) (seq_opt (map (enc_part fs (map (fun v => (v, enc T v)) l')) ps))).
    { apply seq_rel. intros p _. apply part_enc. exact FV. }
    destruct A as [|js js' JS]; [constructor|]. apply union_rel; [exact JS|apply ro_refl].
Qed.

(* ---------- what is read has no repeated keys ---------- *)

Lemma dedup_incl {A} (l : list (string * A)) x : In x (dedup l) -> In x l.
Proof. induction l as [|y l IH]; cbn [dedup]; [auto|]. destruct (in_list (fst y) (map fst l)); [right; auto|]. intros [->|I]; [left; reflexivity|right; auto]. Qed.

Lemma canon_distinct rnd : forall j, distinct (canon rnd j).
Proof.
  induction j as [|b|q|s|l IH|m IH] using json_ind'; cbn [canon]; constructor.
  - rewrite Forall_forall in IH. intros x I. apply in_map_iff in I. destruct I as (y & <- & Iy). exact (IH y Iy).
  - apply dedup_nodup.
  - rewrite Forall_forall in IH. intros k x I. apply dedup_incl, in_map_iff in I. destruct I as (y & E & Iy). injection E as _ <-. exact (IH y Iy).
Qed.

Definition dsg (d : decoder) : Prop := forall t v v', single v -> d t v = Some v' -> single v'.
Notation allsg := (Forall single).

Lemma zero_single T : forall n t, single (zero T n t).
Proof.
  induction n as [|n IH]; destruct t; cbn [zero]; try solve [repeat constructor]. destruct (get n0 T) as [[vals|fs ps d]|]; constructor.
  intros v I. apply in_map_iff in I. destruct I as (f & <- & _). apply IH.
Qed.
Lemma set_all {A} (P : A -> Prop) i x l : P x -> Forall P l -> Forall P (set_nth i x l).
Proof. intros H. revert i. induction l as [|y l IH]; intros [|i] F; cbn [set_nth]; try constructor; inversion F; subst; auto. Qed.
Lemma nth_all {A} (P : A -> Prop) i x l : Forall P l -> nth_error l i = Some x -> P x.
Proof. intros F E. rewrite Forall_forall in F. apply F. eapply nth_error_In. exact E. Qed.
Lemma put_single k v m : single v -> single (VMap m) -> single (VMap (put k v m)).
Proof.
  intros V M. inversion M as [| | | | | | | |m0 N X]; subst. constructor; [apply NoDup_put; exact N|].
  intros q w I. apply In_get in I; [|apply NoDup_put; exact N]. rewrite get_put in I. destruct (String.eqb q k); [injection I as <-; exact V|].
  apply get_In in I. exact (X q w I).
Qed.

Definition msg (a : string * (json * decoder)) : Prop := dsg (snd (snd a)).

Lemma fields_single fs : forall ms vs vs', Forall msg ms -> allsg vs -> dec_fields fs ms vs = Some vs' -> allsg vs'.
Proof.
  induction ms as [|[k [j d]] ms IH]; intros vs vs' M V E; cbn [dec_fields] in E; [injection E as <-; exact V|]. inversion M as [|x l D M']; subst.
  destruct (find_field fs k) as [i|]; [|eauto]. destruct (nth_error fs i) as [f|]; [|discriminate E]. destruct (nth_error vs i) as [v|] eqn:Ev; [|discriminate E].
  destruct (d (f_ty f) v) as [v'|] eqn:Ed; [|discriminate E]. apply (IH _ _ M') in E; [exact E|]. apply set_all; [|exact V]. exact (D _ _ _ (nth_all _ _ _ _ V Ev) Ed).
Qed.
Lemma embed_single fs same : dsg same -> forall is vs vs', allsg vs -> dec_embed same fs is vs = Some vs' -> allsg vs'.
Proof.
  intros D. induction is as [|i is IH]; intros vs vs' V E; cbn [dec_embed] in E; [injection E as <-; exact V|]. destruct (nth_error fs i) as [f|]; [|discriminate E]. destruct (nth_error vs i) as [v|] eqn:Ev; [|discriminate E].
  destruct (same (f_ty f) v) as [v'|] eqn:Ed; [|discriminate E]. apply IH in E; [exact E|]. apply set_all; [|exact V]. exact (D _ _ _ (nth_all _ _ _ _ V Ev) Ed).
Qed.
Lemma alts_single fs same : dsg same -> forall is vs n, allsg vs -> allsg (fst (dec_alts same fs is vs n)).
Proof.
  intros D. induction is as [|i is IH]; intros vs n V; cbn [dec_alts]; [exact V|]. destruct (nth_error fs i) as [f|]; [|exact V]. destruct (nth_error vs i) as [v|] eqn:Ev; [|exact V].
  destruct (same (f_ty f) v) as [v'|] eqn:Ed; apply IH; (apply set_all; [|exact V]); [|constructor]. exact (D _ _ _ (nth_all _ _ _ _ V Ev) Ed).
Qed.
Lemma store_single T fs i k d vs vs' : dsg d -> allsg vs -> store T fs i k d vs = Some vs' -> allsg vs'.
Proof.
  intros D V E. rewrite store_eq in E. destruct (nth_error fs i) as [f|]; [|discriminate E]. destruct (nth_error vs i) as [v|] eqn:Ev; [|discriminate E].
  destruct (f_ty f) as [| | | | | | | |t|]; try discriminate E. destruct (d t (zero T LVL t)) as [w|] eqn:Ed; [|discriminate E]. injection E as <-.
  apply set_all; [|exact V]. apply put_single; [exact (D _ _ _ (zero_single T LVL t) Ed)|]. pose proof (nth_all _ _ _ _ V Ev) as S. destruct v; cbn [entries]; try exact S; constructor; try constructor; intros ? ? [].
Qed.
Lemma pats_single T fs k d : dsg d -> forall ps vs vs', allsg vs -> store_pats T fs ps k d vs = Some vs' -> allsg vs'.
Proof.
  intros D. induction ps as [|[p i] ps IH]; intros vs vs' V E; cbn [store_pats] in E; [injection E as <-; exact V|]. destruct (matches p k); [|eauto].
  destruct (store T fs i k d vs) as [us|] eqn:Es; [|discriminate E]. apply IH in E; [exact E|]. exact (store_single _ _ _ _ _ _ _ D V Es).
Qed.
Lemma each_single f : (forall k d vs vs', dsg d -> allsg vs -> f k d vs = Some vs' -> allsg vs') -> forall ms vs vs', Forall msg ms -> allsg vs -> each f ms vs = Some vs' -> allsg vs'.
Proof.
  intros H. induction ms as [|[k [j d]] ms IH]; intros vs vs' M V E; cbn [each] in E; [injection E as <-; exact V|]. inversion M as [|x l D M']; subst.
  destruct (f k d vs) as [us|] eqn:Es; [|discriminate E]. apply (IH us vs' M'); [|exact E]. exact (H k d vs us D V Es).
Qed.
Lemma fix_single ms : forall fx vs, allsg vs -> allsg (dec_fix fx ms vs).
Proof.
  induction fx as [|[i k] fx IH]; intros vs V; cbn [dec_fix]; [exact V|]. apply IH. destruct (nth_error vs i) as [[]|]; try exact V. destruct (raw_has ms k); [|exact V]. apply set_all; [|exact V]. repeat constructor.
Qed.
Lemma filter_all {A} (P : A -> Prop) f l : Forall P l -> Forall P (filter f l).
Proof. rewrite !Forall_forall. intros H x I. apply filter_In in I. apply H. exact (proj1 I). Qed.
Definition wsg (w : jview) : Prop := match w with SArr l => Forall dsg l | SObj m => Forall msg m | _ => True end.
Lemma raw_single w : wsg w -> Forall msg (raw_map w).
Proof. destruct w; cbn; try (intros _; constructor). intros H. apply Forall_forall. intros x I. rewrite Forall_forall in H. apply H. apply dedup_incl. exact I. Qed.

Lemma order_all {A} (P : A -> Prop) l l' : Permutation l l' -> Forall P l -> Forall P l'.
Proof. intros H F. eapply Permutation_Forall; eassumption. Qed.
Lemma ent_single T o n j same w fs d vs vs' : fair o -> dsg same -> wsg w -> allsg vs -> dec_ent_o T o n j same w fs d vs = Some vs' -> allsg vs'.
Proof.
  intros FO D W V E. unfold dec_ent_o in E. destruct (forallb _ (d_not d)); [|discriminate E].
  destruct (if d_struct d then dec_struct w fs vs else Some vs) as [us|] eqn:Es; [|discriminate E].
  assert (U : allsg us).
  { destruct (d_struct d); [|injection Es as <-; exact V]. destruct w; cbn [dec_struct] in Es; try discriminate Es; [injection Es as <-; exact V|]. exact (fields_single fs _ _ _ W V Es). }
  destruct (dec_embed same fs (d_embed d) us) as [ws|] eqn:Ee; [|discriminate E]. apply (embed_single fs same D) in Ee; [|exact U].
  pose proof (alts_single fs same D (d_oneof d) ws 0 Ee) as A. destruct (dec_alts same fs (d_oneof d) ws 0) as [zs z]. cbn [fst] in A.
  destruct (match d_oneof d with [] => true | _ => (z =? 1)%nat end); [|discriminate E]. unfold dec_raw_o in E. destruct (raw_checks d (raw_map w) && lower_checks d zs); [|discriminate E].
  rewrite pats_each in E. destruct (each _ _ _) as [ys|] eqn:Ey in E; [|discriminate E].
  pose proof (raw_single w W) as RW.
  apply each_single in Ey; [|intros k dd xs xs' Dd X Ex; exact (pats_single T fs k dd Dd _ _ _ X Ex)|eapply order_all; [apply FO|]; apply filter_all; exact RW|apply fix_single; exact A].
  destruct (d_addl d) as [|i is]; [destruct (d_closed d && _); [discriminate E|injection E as <-; exact Ey]|].
  rewrite addl_each in E. apply each_single in E; [exact E| |eapply order_all; [apply FO|]; apply filter_all, filter_all; exact RW|exact Ey]. intros k dd xs xs' Dd X Ex. exact (store_single T fs i k dd xs xs' Dd X Ex).
Qed.

Lemma entries_single T t : forall ms m m', Forall msg ms -> single (VMap m) -> dec_entries T t ms m = Some m' -> single (VMap m').
Proof.
  induction ms as [|[k [j d]] ms IH]; intros m m' M S E; cbn [dec_entries] in E; [injection E as <-; exact S|]. inversion M as [|x l D M']; subst.
  destruct (d t (zero T LVL t)) as [v|] eqn:Ed; [|discriminate E]. apply (IH (put k v m) m' M'); [|exact E]. apply put_single; [exact (D _ _ _ (zero_single T LVL t) Ed)|exact S].
Qed.
Lemma elems_single T t : forall ds os vs, Forall dsg ds -> Forall single os -> dec_elems T t ds os = Some vs -> Forall single vs.
Proof.
  induction ds as [|d ds IH]; intros os vs D S E; cbn [dec_elems] in E; [injection E as <-; constructor|]. inversion D; subst.
  assert (HD : single (hd (zero T LVL t) os)) by (destruct S; [apply zero_single|assumption]).
  assert (TL : Forall single (tl os)) by (destruct S; [constructor|assumption]).
  destruct (d t _) as [v|] eqn:Ed; [|discriminate E]. destruct (dec_elems T t ds _) as [us|] eqn:Ee; [|discriminate E]. injection E as <-. constructor; [|eapply IH; eauto].
  match goal with X : dsg d |- _ => exact (X _ _ _ HD Ed) end.
Qed.

Lemma step_single T rnd o j w same : fair o -> wsg w -> dsg same -> dsg (dec_step_o T rnd o j w same).
Proof.
  intros FO W D t v v' S E. destruct t as [| | | | | |t|t|t|n]; cbn [dec_step_o] in E.
  1,3,4: destruct w; try discriminate E; injection E as <-; try exact S; constructor.
  - destruct w; try discriminate E; [injection E as <-; exact S|]. destruct (int64b q); [injection E as <-; constructor|discriminate E].
  - injection E as <-. constructor. apply canon_distinct.
  - discriminate E.
  - assert (Z : single (match v with VPtr x => x | _ => zero T LVL t end)) by (destruct v; try apply zero_single; inversion S; subst; assumption).
    pose proof (fun u => D t _ u Z) as Dt.
    destruct w; try (injection E as <-; constructor); (destruct (same t _) as [u|]; [injection E as <-; constructor; apply Dt; reflexivity|discriminate E]).
  - destruct w; try discriminate E; [injection E as <-; constructor|]. destruct (dec_elems T t l _) as [us|] eqn:Ee; [|discriminate E]. injection E as <-. constructor. apply Forall_forall.
    refine (elems_single T t _ _ _ W _ Ee). destruct v; try constructor. apply Forall_forall. inversion S; subst; assumption.
  - destruct w; try discriminate E; [injection E as <-; constructor|]. fold (entries v) in E. destruct (dec_entries T t ms (entries v)) as [m|] eqn:Ee; [|discriminate E]. injection E as <-.
    apply entries_single in Ee; [exact Ee|exact W|]. destruct v; cbn [entries]; try exact S; constructor; try constructor; intros ? ? [].
  - destruct (get n T) as [[vals|fs ps d]|]; [| |discriminate E].
    + destruct (match w with SStr s => Some s | SNull => Some "" | _ => None end) as [s|]; [|discriminate E]. destruct (in_list s vals); [injection E as <-; constructor|discriminate E].
    + destruct v as [| | | | | | | |vs]; try discriminate E. destruct (dec_ent_o T o n j same w fs d vs) as [us|] eqn:Ee; [|discriminate E]. injection E as <-.
      apply ent_single in Ee; [constructor; apply Forall_forall; exact Ee|exact FO|exact D|exact W|]. apply Forall_forall. inversion S; subst; assumption.
Qed.
Lemma levels_single f : (forall s, dsg s -> dsg (f s)) -> forall n, dsg (levels f n).
Proof. intros H. induction n as [|n IH]; cbn [levels]; [intros t v v' _ E; discriminate E|apply H; exact IH]. Qed.
Lemma dec_single T rnd o : fair o -> forall j, dsg (dec_o T rnd o j).
Proof.
  intros FO. induction j as [|b|q|s|l IH|m IH] using json_ind'; cbn [dec_o]; apply levels_single; intros sm D; apply step_single; try exact FO; try exact D; try exact I; cbn [wsg].
  - apply Forall_forall. intros x Ix. apply in_map_iff in Ix. destruct Ix as (y & <- & Iy). rewrite Forall_forall in IH. apply IH. exact Iy.
  - apply Forall_forall. intros x Ix. apply in_map_iff in Ix. destruct Ix as (y & <- & Iy). rewrite Forall_forall in IH. exact (IH y Iy).
Qed.

Theorem read_single_o T rnd o t j v : fair o -> unmarshal_o T rnd o t j = Some v -> single v.
Proof. intros FO. exact (dec_single T rnd o FO j t _ v (zero_single T LVL t)). Qed.
Theorem read_single T rnd t j v : unmarshal T rnd t j = Some v -> single v.
Proof. intros E. apply (read_single_o T rnd as_given t j v fair_given). unfold unmarshal_o. rewrite dec_given. exact E. Qed.

(* ---------- reading and writing ---------- *)

Theorem write_same T t v v' : single v -> single v' -> vsame v v' -> agree reordered (marshal T t v) (marshal T t v').
Proof. intros S S' R. exact (enc_rel T v v' R S S' t). Qed.

Theorem rewrite_same T rnd t j j' v : distinct j -> unambiguous T t j -> reordered j j' -> unmarshal T rnd t j = Some v ->
  exists v', unmarshal T rnd t j' = Some v' /\ vsame v v' /\ agree reordered (marshal T t v) (marshal T t v').
Proof.
  intros D N R E. pose proof (members_free T rnd t j j' D N R) as A. rewrite E in A. inversion A as [|x v' S E1 E2]; subst. exists v'. split; [reflexivity|]. split; [exact S|].
  apply write_same; [exact (read_single _ _ _ _ _ E)|exact (read_single _ _ _ _ _ (eq_sym E2))|exact S].
Qed.

Lemma wf_single T rnd dv ex : forall v t, wf T rnd dv ex t v -> single v.
Proof.
  induction v as [|s|q|b|j|v IH|l IH|m IH|l IH] using val_ind'; intros t W; inversion W; subst; constructor; try assumption.
  - eapply clean_distinct; eassumption.
  - eauto.
  - intros v I. rewrite Forall_forall in IH. eauto.
  - intros k v I. rewrite Forall_forall in IH. apply (IH (k, v) I t0). eauto.
  - intros v I. rewrite Forall_forall in IH. destruct (In_nth_error _ _ I) as (i & E).
    match goal with L : length fs = length l, X : forall i f v, _ -> _ -> wf _ _ _ _ _ _ |- _ =>
      destruct (nth_error fs i) as [f|] eqn:Ef; [exact (IH v I _ (X i f v Ef E))|apply nth_error_None in Ef; assert (i < length l) by (apply nth_error_Some; congruence); lia] end.
Qed.
