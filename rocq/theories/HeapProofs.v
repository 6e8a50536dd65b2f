(* Proofs about builder methods on memory. *)
From Coq Require Import Lia.
From Verif Require Import Str SMap Json CodecModel CodecTables CodecProofs CodecStrict BuildModel BuildTables BuildSpec BuildProofs UsedSpec UsedProofs HeapModel HeapSpec.

Scheme ht_ind := Induction for holds_tree Sort Prop
  with hl_ind := Induction for holds_trees Sort Prop
  with he_ind := Induction for holds_entries Sort Prop.
Combined Scheme holds_ind from ht_ind, hl_ind, he_ind.

Definition same (h h' : heap) (F : list loc) : Prop := forall l, In l F -> nth_error h' l = nth_error h l.
Lemma same_incl h h' F G : incl G F -> same h h' F -> same h h' G.
Proof. intros I S l H. apply S. apply I. exact H. Qed.

Lemma frames h h' :
  (forall w v F, holds_tree h w v F -> same h h' F -> holds_tree h' w v F) /\
  (forall ws vs F, holds_trees h ws vs F -> same h h' F -> holds_trees h' ws vs F) /\
  (forall ms m F, holds_entries h ms m F -> same h h' F -> holds_entries h' ms m F).
Proof.
  apply (holds_ind h
    (fun w v F _ => same h h' F -> holds_tree h' w v F)
    (fun ws vs F _ => same h h' F -> holds_trees h' ws vs F)
    (fun ms m F _ => same h h' F -> holds_entries h' ms m F)); intros; try constructor.
  - eapply ht_ptr; [rewrite H0; [exact e|left; reflexivity]|]. apply H. intros x X. apply H0. right. exact X.
  - eapply ht_arr; [rewrite H0; [exact e|left; reflexivity]|]. apply H. intros x X. apply H0. right. exact X.
  - eapply ht_map; [rewrite H0; [exact e|left; reflexivity]|]. apply H. intros x X. apply H0. right. exact X.
  - apply H. exact H0.
  - apply H. intros x X. apply H1. apply in_or_app. left. exact X.
  - apply H0. intros x X. apply H1. apply in_or_app. right. exact X.
  - apply H. intros x X. apply H1. apply in_or_app. left. exact X.
  - apply H0. intros x X. apply H1. apply in_or_app. right. exact X.
Qed.
Lemma frame h h' w v F : holds_tree h w v F -> same h h' F -> holds_tree h' w v F.
Proof. apply (proj1 (frames h h')). Qed.
Lemma frame_list h h' ws vs F : holds_trees h ws vs F -> same h h' F -> holds_trees h' ws vs F.
Proof. apply (proj1 (proj2 (frames h h'))). Qed.
Lemma frame_entries h h' ms m F : holds_entries h ms m F -> same h h' F -> holds_entries h' ms m F.
Proof. apply (proj2 (proj2 (frames h h'))). Qed.

Lemma bounds h :
  (forall w v F, holds_tree h w v F -> forall l, In l F -> l < length h) /\
  (forall ws vs F, holds_trees h ws vs F -> forall l, In l F -> l < length h) /\
  (forall ms m F, holds_entries h ms m F -> forall l, In l F -> l < length h).
Proof.
  apply (holds_ind h
    (fun w v F _ => forall l, In l F -> l < length h)
    (fun ws vs F _ => forall l, In l F -> l < length h)
    (fun ms m F _ => forall l, In l F -> l < length h)); try (intros; contradiction).
  1-3: intros; match goal with X : In _ (_ :: _) |- _ => destruct X as [<-|X] end; [apply nth_error_Some; congruence|auto].
  - intros. auto.
  - intros. apply in_app_or in H1. destruct H1; auto.
  - intros. apply in_app_or in H1. destruct H1; auto.
Qed.
Lemma bound h w v F l : holds_tree h w v F -> In l F -> l < length h.
Proof. intros H. apply (proj1 (bounds h) w v F H). Qed.

Lemma arguments_frame h h' lw lv A : arguments h lw lv A -> same h h' A -> arguments h' lw lv A.
Proof.
  induction 1; intros S; constructor; auto.
  - eapply frame; [eassumption|]. intros x X. apply S. apply in_or_app. left. exact X.
  - apply IHarguments. intros x X. apply S. apply in_or_app. right. exact X.
  - eapply frame; [eassumption|]. intros x X. apply S. apply in_or_app. left. exact X.
  - apply IHarguments. intros x X. apply S. apply in_or_app. right. exact X.
Qed.
Lemma arguments_bound h lw lv A l : arguments h lw lv A -> In l A -> l < length h.
Proof. induction 1; intros I; auto; [destruct I| |]; apply in_app_or in I; destruct I as [I|I]; auto; eapply bound; eassumption. Qed.

(* ---------- lists ---------- *)

Lemma nd_app {A} (l r : list A) : NoDup (l ++ r) <-> NoDup l /\ NoDup r /\ (forall x, In x l -> ~ In x r).
Proof.
  induction l as [|a l IH]; cbn [app].
  - split; [intros N; split; [constructor|split; [exact N|intros x []]]|intros (_ & N & _); exact N].
  - rewrite !NoDup_cons_iff, IH, in_app_iff. cbn [In]. firstorder (subst; auto).
Qed.
Ltac nd := rewrite ?NoDup_cons_iff, ?nd_app, ?in_app_iff in *; cbn [In] in *;
  repeat match goal with H : _ /\ _ |- _ => destruct H end;
  repeat match goal with |- _ /\ _ => split | |- NoDup _ => assumption | |- forall _, _ => intros ? | |- ~ _ => intros ? end;
  rewrite ?in_app_iff in *.

Ltac ndx x := unfold incl in *;
  repeat match goal with H : forall y, In y _ -> _ |- _ => specialize (H x) end; rewrite ?in_app_iff in *; cbn [In] in *; try tauto; try (intuition (subst; auto; lia)).

Lemma nth_ext {A} : forall (l r : list A), (forall j, nth_error l j = nth_error r j) -> l = r.
Proof.
  induction l as [|a l IH]; intros [|b r] H; [reflexivity|discriminate (H 0)|discriminate (H 0)|].
  f_equal; [pose proof (H 0) as E; injection E as E; exact E|]. apply IH. intros j. exact (H (S j)).
Qed.

Lemma updated_is i (w : val) vs vs' : updated i w vs vs' -> i < length vs /\ vs' = set_nth i w vs.
Proof.
  intros (L & E & O). assert (I : i < length vs) by (rewrite <- L; apply nth_error_Some; congruence). split; [exact I|].
  destruct (set_updated i w vs I) as (L2 & E2 & O2).
  apply nth_ext. intros j. destruct (Nat.eq_dec j i) as [->|N]; [congruence|]. rewrite O, O2 by exact N. reflexivity.
Qed.

Lemma focus h : forall ws vs F, holds_trees h ws vs F -> forall i w, nth_error ws i = Some w ->
  exists v A G B, nth_error vs i = Some v /\ holds_tree h w v G /\ F = A ++ G ++ B /\
    forall h' w' v' G', same h h' (A ++ B) -> holds_tree h' w' v' G' -> holds_trees h' (set_nth i w' ws) (set_nth i v' vs) (A ++ G' ++ B).
Proof.
  induction 1 as [|w0 v0 F0 ws vs G0 Hw Hs IH]; intros i w E; [destruct i; discriminate|]. destruct i as [|i].
  - injection E as <-. exists v0, [], F0, G0. split; [reflexivity|]. split; [exact Hw|]. split; [reflexivity|].
    intros h' w' v' G' S H'. cbn [set_nth app]. apply hl_cons; [exact H'|]. eapply frame_list; [exact Hs|exact S].
  - cbn in E. destruct (IH i w E) as (v & A & G & B & Ev & Hv & -> & K). exists v, (F0 ++ A), G, B. split; [exact Ev|]. split; [exact Hv|].
    split; [rewrite app_assoc; reflexivity|]. intros h' w' v' G' S H'. cbn [set_nth]. rewrite <- app_assoc. apply hl_cons.
    + eapply frame; [exact Hw|]. intros x X. apply S. rewrite !in_app_iff. auto.
    + apply K; [|exact H']. intros x X. apply S. rewrite !in_app_iff in *. tauto.
Qed.
Lemma trees_length h ws vs F : holds_trees h ws vs F -> length ws = length vs.
Proof. induction 1; cbn; congruence. Qed.

Lemma entries_put h w x G : holds_tree h w x G -> forall key ms m F, holds_entries h ms m F ->
  exists F', holds_entries h (put key w ms) (put key x m) F' /\ incl F' (F ++ G) /\ (NoDup (F ++ G) -> NoDup F').
Proof.
  intros Hx key. induction 1 as [|k w0 v0 F0 ws vs G0 Hw Hs IH].
  - exists (G ++ []). split; [cbn [put]; apply he_cons; [exact Hx|apply he_nil]|]. rewrite app_nil_r. split; [apply incl_refl|auto].
  - cbn [put]. destruct (String.eqb key k).
    + exists (G ++ G0). split; [apply he_cons; assumption|]. split.
      * intros l I. ndx l.
      * intros N. nd. ndx x0.
    + destruct IH as (F' & H' & I' & N'). exists (F0 ++ F'). split; [apply he_cons; assumption|]. split.
      * intros l I. ndx l.
      * intros N. nd.
        -- apply N'. nd. ndx x0.
        -- ndx x0.
Qed.

(* ---------- places ---------- *)

Lemma sub_app : forall p q w u, sub w p = Some u -> sub w (p ++ q) = sub u q.
Proof.
  induction p as [|i p IH]; intros q w u E; [injection E as ->; reflexivity|].
  cbn [sub app] in *. destruct w; try discriminate. destruct (nth_error ws i); [|discriminate]. apply IH. exact E.
Qed.
Lemma sub_one w ws i : w = HStruct ws -> sub w [i] = nth_error ws i.
Proof. intros ->. cbn [sub]. destruct (nth_error ws i); reflexivity. Qed.
Lemma upd_ok : forall p w u x, sub w p = Some u -> exists w', upd w p x = Some w' /\ sub w' p = Some x.
Proof.
  induction p as [|i p IH]; intros w u x E; [exists x; split; reflexivity|]. cbn [sub upd] in *. destruct w; try discriminate.
  destruct (nth_error ws i) as [w0|] eqn:N; [|discriminate]. destruct (IH w0 u x E) as (w' & E' & S'). rewrite E'. eexists. split; [reflexivity|].
  cbn [sub]. rewrite nth_set_same; [exact S'|]. apply nth_error_Some. congruence.
Qed.
Lemma set_same {A} : forall i (x : A) l, nth_error l i = Some x -> set_nth i x l = l.
Proof. induction i as [|i IH]; intros x [|y l] E; try discriminate; cbn in *; [congruence|]. rewrite IH by exact E. reflexivity. Qed.
Lemma set_set {A} : forall i (x y : A) l, set_nth i x (set_nth i y l) = set_nth i x l.
Proof. induction i as [|i IH]; intros x y [|z l]; cbn; try reflexivity. rewrite IH. reflexivity. Qed.
Lemma upd_same : forall p w u, sub w p = Some u -> upd w p u = Some w.
Proof.
  induction p as [|i p IH]; intros w u E; [cbn in *; congruence|]. cbn [sub upd] in *. destruct w; try discriminate.
  destruct (nth_error ws i) as [w0|] eqn:N; [|discriminate]. rewrite (IH _ _ E). rewrite set_same by exact N. reflexivity.
Qed.
Lemma upd_upd : forall p w x y w1, upd w p x = Some w1 -> upd w1 p y = upd w p y.
Proof.
  induction p as [|i p IH]; intros w x y w1 E; [reflexivity|]. cbn [upd] in E. destruct w; try discriminate.
  destruct (nth_error ws i) as [w0|] eqn:N; [|discriminate]. destruct (upd w0 p x) as [w2|] eqn:U; [|discriminate]. injection E as <-.
  cbn [upd]. rewrite nth_set_same by (apply nth_error_Some; congruence). rewrite N, (IH _ _ _ _ U). destruct (upd w0 p y); [|reflexivity].
  rewrite set_set. reflexivity.
Qed.
Lemma upd_app : forall p q w u x, sub w p = Some u -> upd w (p ++ q) x = match upd u q x with Some y => upd w p y | None => None end.
Proof.
  induction p as [|i p IH]; intros q w u x E; [injection E as ->; cbn; destruct (upd u q x); reflexivity|].
  cbn [sub upd app] in *. destruct w; try discriminate. destruct (nth_error ws i) as [w0|]; [|destruct (upd u q x); discriminate].
  rewrite (IH _ _ _ _ E). destruct (upd u q x); reflexivity.
Qed.

Lemma read_sub h a w q : read h a = Some w -> read h (fst a, snd a ++ q) = sub w q.
Proof. unfold read. cbn [fst snd]. destruct (nth_error h (fst a)) as [[o|]|]; try discriminate. intros E. apply sub_app. exact E. Qed.
Lemma read_lt h a w : read h a = Some w -> fst a < length h.
Proof. unfold read. intros E. apply nth_error_Some. destruct (nth_error h (fst a)); [discriminate|discriminate E]. Qed.

(* The only change to the object of [a] is that the part at [a] is [w]. *)
Definition replaced (h h' : heap) (a : addr) (w : hval) : Prop :=
  forall o, nth_error h (fst a) = Some (OVal o) -> exists o', upd o (snd a) w = Some o' /\ nth_error h' (fst a) = Some (OVal o').
Lemma replaced_read h h' a w0 w : read h a = Some w0 -> replaced h h' a w -> read h' a = Some w.
Proof.
  unfold read. intros E R. destruct (nth_error h (fst a)) as [[o|]|] eqn:N; try discriminate. destruct (R o N) as (o' & U & N'). rewrite N'.
  destruct (upd_ok _ _ _ w E) as (o2 & U2 & S2). congruence.
Qed.
Lemma replaced_trans h h1 h2 a w1 w2 : replaced h h1 a w1 -> replaced h1 h2 a w2 -> replaced h h2 a w2.
Proof.
  intros R1 R2 o N. destruct (R1 o N) as (o1 & U1 & N1). destruct (R2 o1 N1) as (o2 & U2 & N2). exists o2. split; [|exact N2].
  rewrite <- U2. symmetry. exact (upd_upd _ _ _ _ _ U1).
Qed.
Lemma replaced_same h h' a w : read h a = Some w -> nth_error h' (fst a) = nth_error h (fst a) -> replaced h h' a w.
Proof.
  intros E S o N. exists o. split; [|congruence]. apply upd_same. unfold read in E. rewrite N in E. exact E.
Qed.
Lemma replaced_field h h' a ws i x : read h a = Some (HStruct ws) -> replaced h h' (fst a, snd a ++ [i]) x -> i < length ws ->
  replaced h h' a (HStruct (set_nth i x ws)).
Proof.
  intros E R L o N. destruct (R o N) as (o' & U & N'). cbn [fst snd] in *. exists o'. split; [|exact N'].
  unfold read in E. rewrite N in E. rewrite (upd_app _ _ _ _ _ E) in U. cbn [upd] in U. destruct (nth_error ws i) eqn:X; [exact U|discriminate].
Qed.
Lemma write_field h a ws i x : read h a = Some (HStruct ws) -> i < length ws ->
  exists h', write h (fst a, snd a ++ [i]) x = Some h' /\ length h' = length h /\ (forall l, l <> fst a -> nth_error h' l = nth_error h l) /\
    replaced h h' a (HStruct (set_nth i x ws)).
Proof.
  intros E L. pose proof (read_lt _ _ _ E) as Lt. unfold read in E. unfold write. cbn [fst snd].
  destruct (nth_error h (fst a)) as [[o|]|] eqn:N; try discriminate. rewrite (upd_app _ _ _ _ _ E). cbn [upd].
  destruct (nth_error ws i) eqn:X; [|apply nth_error_None in X; lia]. destruct (upd_ok _ _ _ (HStruct (set_nth i x ws)) E) as (o' & U & S). rewrite U.
  eexists. split; [reflexivity|]. split; [apply length_set|]. split; [intros l NE; apply nth_set_other; exact NE|].
  intros o2 N2. rewrite N in N2. injection N2 as <-. exists o'. split; [exact U|]. apply nth_set_same. exact Lt.
Qed.

(* ---------- what a chain does ---------- *)

Lemma nd_swap {A} (l : A) X G Y G' : NoDup (l :: X ++ G ++ Y) -> NoDup G' -> ~ In l G' -> (forall x, In x G' -> ~ In x (X ++ Y)) -> NoDup (l :: X ++ G' ++ Y).
Proof.
  rewrite !NoDup_cons_iff, !nd_app, !in_app_iff. intros (NL & NX & (NG & NY & D1) & D2) N' NL' D.
  split; [tauto|]. split; [exact NX|]. split.
  - split; [exact N'|]. split; [exact NY|]. intros x I J. apply (D x I). apply in_or_app. right. exact J.
  - intros x I J. apply in_app_or in J. destruct J as [J|J]; [apply (D x J); apply in_or_app; left; exact I|].
    apply (D2 x I). apply in_or_app. right. exact J.
Qed.

(* The part at [a], of the objects F, becomes [w'], which holds the tree [v'];
   the arguments are of the objects A. *)
Definition effect (h h' : heap) (a : addr) (F A : list loc) (w' : hval) (v' : val) (F' : list loc) : Prop :=
  replaced h h' a w' /\ holds_tree h' w' v' F' /\ NoDup (fst a :: F') /\ (forall l, In l F' -> In l (F ++ A) \/ length h <= l) /\
  length h <= length h' /\ (forall l, l < length h -> l <> fst a -> ~ In l (F ++ A) -> nth_error h' l = nth_error h l).

Lemma effect_trans h h1 h2 a F G A w1 v1 F1 w2 v2 F2 : (forall l, In l A -> l < length h) ->
  effect h h1 a F G w1 v1 F1 -> effect h1 h2 a F1 A w2 v2 F2 -> effect h h2 a F (G ++ A) w2 v2 F2.
Proof.
  intros LA (R1 & H1 & N1 & I1 & L1 & K1) (R2 & H2 & N2 & I2 & L2 & K2).
  split; [exact (replaced_trans _ _ _ _ _ _ R1 R2)|]. split; [exact H2|]. split; [exact N2|]. split; [|split; [lia|]].
  - intros l I. destruct (I2 l I) as [X|X]; [|right; lia]. apply in_app_or in X. destruct X as [X|X].
    + destruct (I1 l X) as [Y|Y]; [left; rewrite !in_app_iff in *; tauto|right; exact Y].
    + left. rewrite !in_app_iff. tauto.
  - intros l Lt Ne NI. rewrite K2; [apply K1; auto|lia|exact Ne|].
    + intros X. apply NI. rewrite !in_app_iff in *. tauto.
    + intros X. apply in_app_or in X. destruct X as [X|X]; [|apply NI; rewrite !in_app_iff; tauto].
      destruct (I1 l X) as [Y|Y]; [apply NI; rewrite !in_app_iff in *; tauto|lia].
Qed.

(* The part is a field of a struct. *)
Lemma effect_sel h h' a ws i X G Y A w' v' vs' G' : read h a = Some (HStruct ws) -> i < length ws ->
  NoDup (fst a :: (X ++ G ++ Y) ++ A) -> (forall l, In l (X ++ Y) -> l < length h) ->
  (forall h' w' v' G', same h h' (X ++ Y) -> holds_tree h' w' v' G' -> holds_trees h' (set_nth i w' ws) (vs' v') (X ++ G' ++ Y)) ->
  effect h h' (fst a, snd a ++ [i]) G A w' v' G' ->
  effect h h' a (X ++ G ++ Y) A (HStruct (set_nth i w' ws)) (VStruct (vs' v')) (X ++ G' ++ Y).
Proof.
  intros E L N B K (R1 & H1 & N1 & I1 & L1 & K1). cbn [fst] in *.
  split; [exact (replaced_field _ _ _ _ _ _ E R1 L)|]. split; [apply ht_struct; apply K; [|exact H1]|split; [|split; [|split]]].
  - intros l I. apply K1; [apply B; exact I| |].
    + intros ->. nd. ndx (fst a).
    + intros J. nd. ndx l.
  - assert (forall l, In l G' -> ~ In l (X ++ Y)) as D.
    { intros l I J. destruct (I1 l I) as [Z|Z]; [nd; ndx l|]. apply B in J. lia. }
    apply (nd_swap _ _ G); [|inversion N1; assumption|inversion N1; assumption|exact D].
    rewrite app_comm_cons in N. apply nd_app in N. apply N.
  - intros l I. specialize (I1 l). rewrite !in_app_iff in *. tauto.
  - exact L1.
  - intros l Lt Ne NI. apply K1; auto. intros J. apply NI. rewrite !in_app_iff in *. tauto.
Qed.

(* The part is behind a reference in a field of a struct. *)
Lemma effect_ref h h' a ws i X l1 o F1 Y A w' v' vs' F1' r u : read h a = Some (HStruct ws) -> nth_error ws i = Some r ->
  nth_error h l1 = Some (OVal o) ->
  NoDup (fst a :: (X ++ (l1 :: F1) ++ Y) ++ A) -> (forall l, In l (X ++ Y) -> l < length h) ->
  (forall h' w' v' G', same h h' (X ++ Y) -> holds_tree h' w' v' G' -> holds_trees h' (set_nth i w' ws) (vs' v') (X ++ G' ++ Y)) ->
  (nth_error h' l1 = Some (OVal w') -> holds_tree h' w' v' F1' -> holds_tree h' r u (l1 :: F1')) ->
  effect h h' (l1, []) F1 A w' v' F1' ->
  effect h h' a (X ++ (l1 :: F1) ++ Y) A (HStruct ws) (VStruct (vs' u)) (X ++ (l1 :: F1') ++ Y).
Proof.
  intros E Er Eo N B K M (R1 & H1 & N1 & I1 & L1 & K1). cbn [fst snd] in *.
  pose proof (read_lt _ _ _ E) as La. assert (Ll : l1 < length h) by (apply nth_error_Some; congruence).
  assert (Na : fst a <> l1 /\ ~ In (fst a) (F1 ++ A) /\ (forall l, In l (X ++ Y) -> l <> fst a /\ l <> l1 /\ ~ In l (F1 ++ A))).
  { rewrite NoDup_cons_iff, !nd_app in N. rewrite !in_app_iff in N. destruct N as (N0 & (NX & ((NF & NY & D1) & D2)) & NA & D3).
    cbn [In] in *. split; [intros Q; apply N0; auto|]. split; [rewrite in_app_iff; tauto|]. intros l I.
    specialize (D1 l). specialize (D2 l). specialize (D3 l). rewrite !in_app_iff in *. cbn [In] in *.
    split; [intros ->; tauto|]. split; [intros ->; tauto|tauto]. }
  destruct Na as (Na1 & Na2 & Na3).
  assert (Nl : nth_error h' l1 = Some (OVal w')).
  { destruct (R1 o Eo) as (o' & U & N'). injection U as <-. exact N'. }
  split; [|split; [|split; [|split; [|split]]]].
  - apply replaced_same; [exact E|]. apply K1; auto.
  - apply ht_struct. rewrite <- (set_same i r ws Er). apply K; [|exact (M Nl H1)]. intros l I. destruct (Na3 l I) as (Q1 & Q2 & Q3). apply K1; auto.
  - assert (D : forall x, In x (l1 :: F1') -> ~ In x (X ++ Y)).
    { intros x I J. destruct (Na3 x J) as (Q1 & Q2 & Q3). destruct I as [<-|I]; [apply Q2; reflexivity|].
      destruct (I1 x I) as [Z|Z]; [exact (Q3 Z)|]. apply B in J. lia. }
    apply (nd_swap _ _ (l1 :: F1)); [|exact N1| |exact D].
    + rewrite app_comm_cons in N. apply nd_app in N. apply N.
    + intros [Q|Q]; [apply Na1; symmetry; exact Q|]. destruct (I1 _ Q) as [Z|Z]; [exact (Na2 Z)|lia].
  - intros l I. rewrite !in_app_iff in *. cbn [In] in *. destruct I as [I|[[I|I]|I]]; try (left; tauto).
    destruct (I1 l I) as [Z|Z]; [|right; exact Z]. apply in_app_or in Z. left. tauto.
  - exact L1.
  - intros l Lt Ne NI. apply K1; [exact Lt| |].
    + intros ->. apply NI. rewrite !in_app_iff. cbn [In]. tauto.
    + intros J. apply NI. rewrite !in_app_iff in *. cbn [In]. tauto.
Qed.

Lemma nth_ext_lt (h ext : heap) l : l < length h -> nth_error (h ++ ext) l = nth_error h l.
Proof. intros L. apply nth_error_app1. exact L. Qed.
Lemma extend_tree h ext w v F : holds_tree h w v F -> holds_tree (h ++ ext) w v F.
Proof. intros H. eapply frame; [exact H|]. intros l I. apply nth_ext_lt. eapply bound; eassumption. Qed.
Lemma focus_val h ws vs F i v : holds_trees h ws vs F -> nth_error vs i = Some v ->
  exists w X G Y, nth_error ws i = Some w /\ holds_tree h w v G /\ F = X ++ G ++ Y /\
    forall h' w' v' G', same h h' (X ++ Y) -> holds_tree h' w' v' G' -> holds_trees h' (set_nth i w' ws) (set_nth i v' vs) (X ++ G' ++ Y).
Proof.
  intros H E. destruct (nth_error ws i) as [w|] eqn:W.
  - destruct (focus h ws vs F H i w W) as (v2 & X & G & Y & E2 & R). rewrite E in E2. injection E2 as <-. exists w, X, G, Y. split; [reflexivity|]. exact R.
  - apply nth_error_None in W. rewrite (trees_length _ _ _ _ H) in W. apply nth_error_None in W. congruence.
Qed.
Lemma trees_bound h ws vs F l : holds_trees h ws vs F -> In l F -> l < length h.
Proof. intros H. apply (proj1 (proj2 (bounds h)) ws vs F H). Qed.

(* r.F = x, after objects were made. *)
Lemma assign_effect h ext a ws vs F i x v G G' : read h a = Some (HStruct ws) -> holds_trees h ws vs F -> i < length vs ->
  NoDup (fst a :: F ++ G) -> holds_tree (h ++ ext) x v G' -> NoDup G' -> (forall l, In l G' -> In l G \/ length h <= l) ->
  exists h1 F1, write (h ++ ext) (fst a, snd a ++ [i]) x = Some h1 /\ length h1 = length (h ++ ext) /\
    (forall l, l <> fst a -> nth_error h1 l = nth_error (h ++ ext) l) /\
    effect h h1 a F G (HStruct (set_nth i x ws)) (VStruct (set_nth i v vs)) F1.
Proof.
  intros E Hs L N Hx N' I'. pose proof (read_lt _ _ _ E) as La. rewrite <- (trees_length _ _ _ _ Hs) in L.
  assert (E' : read (h ++ ext) a = Some (HStruct ws)) by (unfold read in *; rewrite nth_ext_lt by exact La; exact E).
  destruct (write_field (h ++ ext) a ws i x E' L) as (h1 & W & L1 & K1 & R1).
  destruct (nth_error ws i) as [w0|] eqn:W0; [|apply nth_error_None in W0; lia].
  destruct (focus h ws vs F Hs i w0 W0) as (v0 & X & G0 & Y & E0 & H0 & -> & K).
  assert (NI : ~ In (fst a) G').
  { intros J. destruct (I' _ J) as [Z|Z]; [|lia]. rewrite NoDup_cons_iff, !in_app_iff in N. tauto. }
  exists h1, (X ++ G' ++ Y). split; [exact W|]. split; [exact L1|]. split; [exact K1|].
  split; [|split; [|split; [|split; [|split]]]].
  - intros o No. apply R1. rewrite nth_ext_lt by exact La. exact No.
  - apply ht_struct. apply K.
    + intros l I. rewrite K1.
      * apply nth_ext_lt. eapply trees_bound; [exact Hs|]. rewrite !in_app_iff in *. tauto.
      * intros ->. rewrite NoDup_cons_iff, !in_app_iff in N. rewrite in_app_iff in I. tauto.
    + eapply frame; [exact Hx|]. intros l I. apply K1. intros ->. exact (NI I).
  - apply (nd_swap _ _ G0); [|exact N'|exact NI|].
    + rewrite app_comm_cons in N. apply nd_app in N. apply N.
    + intros l I J. destruct (I' l I) as [Z|Z].
      * rewrite NoDup_cons_iff, (nd_app (X ++ G0 ++ Y)) in N. destruct N as (_ & _ & _ & D). apply (D l); [rewrite !in_app_iff in *; tauto|exact Z].
      * assert (l < length h); [|lia]. eapply trees_bound; [exact Hs|]. rewrite !in_app_iff in *. tauto.
  - intros l I. rewrite !in_app_iff in *. specialize (I' l). tauto.
  - rewrite L1, app_length. lia.
  - intros l Lt Ne NIl. rewrite K1 by exact Ne. apply nth_ext_lt. exact Lt.
Qed.

(* r.F[key] = x *)
Lemma item_effect h a ws vs F i m x v G key : read h a = Some (HStruct ws) -> holds_trees h ws vs F -> nth_error vs i = Some (VMap m) ->
  holds_tree h x v G -> NoDup (fst a :: F ++ G) ->
  exists lm ms F1, nth_error ws i = Some (HMap lm) /\ nth_error h lm = Some (OMap ms) /\
    effect h (set_nth lm (OMap (put key x ms)) h) a F G (HStruct ws) (VStruct (set_nth i (VMap (put key v m)) vs)) F1.
Proof.
  intros E Hs Ev Hx N. pose proof (read_lt _ _ _ E) as La.
  destruct (focus_val h ws vs F i _ Hs Ev) as (w & X & G0 & Y & Ew & Hw & -> & K).
  inversion Hw as [| | | | | | |lm ms m0 G1 El He|]; subst. exists lm, ms.
  destruct (entries_put h x v G Hx key ms m G1 He) as (G2 & He2 & I2 & N2).
  rewrite NoDup_cons_iff, !nd_app in N. destruct N as (N0 & (NX & ((NF & NY & D1) & D2)) & NA & D3).
  rewrite NoDup_cons_iff in NF. destruct NF as (NF0 & NF1). rewrite !in_app_iff in N0. cbn [In] in N0.
  assert (Llm : lm < length h) by (apply nth_error_Some; congruence).
  assert (NG : ~ In lm (G1 ++ G)).
  { rewrite in_app_iff. intros [J|J]; [exact (NF0 J)|]. apply (D3 lm); [rewrite !in_app_iff; cbn [In]; tauto|exact J]. }
  assert (Na : lm <> fst a) by (intros Q; apply N0; rewrite Q; tauto).
  assert (NG12 : NoDup (G1 ++ G)).
  { apply nd_app. split; [exact NF1|]. split; [exact NA|]. intros l I. apply D3. rewrite !in_app_iff. cbn [In]. tauto. }
  exists (X ++ (lm :: G2) ++ Y). split; [exact Ew|]. split; [exact El|].
  split; [|split; [|split; [|split; [|split]]]].
  - apply replaced_same; [exact E|]. apply nth_set_other. auto.
  - apply ht_struct. rewrite <- (set_same i _ ws Ew). apply K.
    + intros l I. apply nth_set_other. intros ->. apply in_app_or in I. destruct I as [I|I].
      * apply (D2 lm I). rewrite !in_app_iff. cbn [In]. tauto.
      * apply (D1 lm); [left; reflexivity|exact I].
    + eapply ht_map; [apply nth_set_same; exact Llm|]. eapply frame_entries; [exact He2|]. intros l I. apply nth_set_other. intros ->. apply NG. apply I2. exact I.
  - apply (nd_swap _ _ (lm :: G1)).
    + rewrite NoDup_cons_iff, !nd_app, !in_app_iff. cbn [In]. split; [tauto|]. split; [exact NX|]. split; [|exact D2].
      split; [constructor; assumption|]. split; assumption.
    + constructor; [|apply N2; exact NG12]. intros J. apply NG. apply I2. exact J.
    + intros [J|J]; [exact (Na J)|]. apply I2 in J. rewrite in_app_iff in J. tauto.
    + intros l I J. apply in_app_or in J. destruct I as [<-|I].
      * destruct J as [J|J]; [apply (D2 lm J); rewrite in_app_iff; cbn [In]; tauto|apply (D1 lm); [left; reflexivity|exact J]].
      * apply I2 in I. apply in_app_or in I. destruct I as [I|I].
        -- destruct J as [J|J]; [apply (D2 l J); rewrite in_app_iff; cbn [In]; tauto|apply (D1 l); [right; exact I|exact J]].
        -- apply (D3 l); [rewrite !in_app_iff; tauto|exact I].
  - intros l I. left. specialize (I2 l). rewrite !in_app_iff in *. cbn [In] in *. tauto.
  - rewrite length_set. lia.
  - intros l Lt Ne NIl. apply nth_set_other. intros ->. apply NIl. rewrite !in_app_iff. cbn [In]. tauto.
Qed.

(* ---------- zero values ---------- *)

Lemma flat_zero T h : forall k t, holds_tree h (flat (zero T k t)) (zero T k t) [].
Proof.
  induction k as [|k IH]; intros t; destruct t; cbn [zero flat]; try constructor.
  destruct (get n T) as [[vals|fs parts d]|]; cbn [flat]; try constructor.
  induction fs as [|f fs IHf]; cbn [map]; [constructor|]. apply (hl_cons h _ _ [] _ _ []); [apply IH|exact IHf].
Qed.

(* ---------- the methods ---------- *)

Lemma pack_of P : In P packages -> In (p_types P, p_meths P) packs.
Proof. intros [<-|[<-|[]]]; [left|right; left]; reflexivity. Qed.

(* Fields of other types have no such methods. *)
Definition absent (o : option meth) : bool := match o with None => true | Some _ => false end.
Definition plain_checks (T : list (string * ent)) (M : list (string * list (string * meth))) (n : string) (f : field) : bool :=
  (negb (is_skip (f_ty f)) || absent (method M n ("With" ^^ f_name f))) &&
  (match f_ty f with TMap _ => true | _ => absent (method M n ("With" ^^ f_name f ^^ "Item")) end) &&
  (match f_ty f with
   | TPtr (TNamed s) => match get s T with Some (EStruct _ _ _) => true | _ => absent (method M n (f_name f ^^ "Ens")) end
   | _ => absent (method M n (f_name f ^^ "Ens"))
   end).
Definition all_plain (T : list (string * ent)) (M : list (string * list (string * meth))) : bool :=
  forallb (fun ne => match snd ne with EStruct fs _ _ => forallb (plain_checks T M (fst ne)) fs | _ => true end) T.
Lemma plain30 : all_plain T30 M30 = true. Proof. vm_compute. reflexivity. Qed.
Lemma plain31 : all_plain T31 M31 = true. Proof. vm_compute. reflexivity. Qed.

Section Shapes.
  Variable T : list (string * ent).
  Variable M : list (string * list (string * meth)).
  Hypothesis HP : In (T, M) packs.
  Variables (n : string) (fs : list field) (parts : list part) (d : dprog).
  Hypothesis G : get n T = Some (EStruct fs parts d).
  Variables (i : nat) (f : field).
  Hypothesis Ef : nth_error fs i = Some f.

  Lemma plain_field : plain_checks T M n f = true.
  Proof.
    assert (X : all_plain T M = true) by (destruct HP as [Q|[Q|[]]]; injection Q as <- <-; [exact plain30|exact plain31]).
    unfold all_plain in X. rewrite forallb_forall in X. specialize (X _ (get_In_pair _ _ _ G)). cbn [fst snd] in X.
    rewrite forallb_forall in X. exact (X f (nth_error_In _ _ Ef)).
  Qed.

  Lemma shape_with b : method M n ("With" ^^ f_name f) = Some b ->
    exists a e, b = mkMeth (Some a) [SAssign (f_name f) e] RSelf /\ (e = EVal /\ f_ty f = a \/ e = EAddr /\ f_ty f = TPtr a).
  Proof.
    intros E. pose proof (field_checks T M HP n fs parts d G i f Ef) as C. apply andb_prop in C. destruct C as [C _]. apply andb_prop in C. destruct C as [C _].
    apply orb_prop in C. destruct C as [C|C].
    - exfalso. pose proof plain_field as X. unfold plain_checks in X. rewrite C, E in X. discriminate X.
    - unfold setter_ok in C. rewrite E in C. destruct b as [[a|] [|[g e| |] [|]] [|]]; try discriminate C.
      apply andb_prop in C. destruct C as [Cg C]. apply String.eqb_eq in Cg. subst g. exists a, e. split; [reflexivity|].
      apply orb_prop in C. destruct C as [C|C]; apply andb_prop in C; destruct C as [Ce Ct]; apply exp_eqb_eq in Ce; apply CodecStrict.ty_eqb_eq in Ct; auto.
  Qed.
  Lemma shape_set b a : method M n ("With" ^^ f_name f) = Some b -> m_val b = Some a ->
    exists e, b = mkMeth (Some a) [SAssign (f_name f) e] RSelf /\ (e = EVal /\ f_ty f = a \/ e = EAddr /\ f_ty f = TPtr a).
  Proof. intros E Ea. destruct (shape_with b E) as (a0 & e & -> & C). cbn in Ea. injection Ea as ->. exists e. auto. Qed.
  Lemma shape_item t : f_ty f = TMap t ->
    method M n ("With" ^^ f_name f ^^ "Item") = Some (mkMeth (Some t) [SIfNil (f_name f) (f_name f) (EMake (TMap t)); SItem (f_name f)] RSelf).
  Proof.
    intros Et. pose proof (field_checks T M HP n fs parts d G i f Ef) as C. apply andb_prop in C. destruct C as [C _]. apply andb_prop in C. destruct C as [_ C].
    unfold item_ok in C. rewrite Et in C.
    destruct (method M n ("With" ^^ f_name f ^^ "Item")) as [[[a|] [|[|g g' e|] [|[| |g''] [|]]] [|]]|] eqn:E; try discriminate C.
    rewrite !andb_true_iff in C. destruct C as [[[[C1 C2] C3] C4] C5]. apply String.eqb_eq in C1, C2, C3. apply CodecStrict.ty_eqb_eq in C4. apply exp_eqb_eq in C5.
    subst. reflexivity.
  Qed.
  Lemma shape_ens s fs' parts' d' : f_ty f = TPtr (TNamed s) -> get s T = Some (EStruct fs' parts' d') ->
    method M n (f_name f ^^ "Ens") = Some (mkMeth None [SIfNil (f_name f) (f_name f) (ENew s)] (RField (f_name f))).
  Proof.
    intros Et Gs. pose proof (field_checks T M HP n fs parts d G i f Ef) as C. apply andb_prop in C. destruct C as [_ C]. unfold ens_ok in C. rewrite Et, Gs in C.
    destruct (method M n (f_name f ^^ "Ens")) as [[[a|] [|[|g g' e|] [|]] [|g'']]|] eqn:E; try discriminate C.
    rewrite !andb_true_iff in C. destruct C as [[[C1 C2] C3] C4]. apply String.eqb_eq in C1, C2, C3. apply exp_eqb_eq in C4. subst. reflexivity.
  Qed.
End Shapes.

(* ---------- chains ---------- *)

Section Chain.
  Variable P : package.
  Hypothesis HP : In P packages.
  Notation T := (p_types P).
  Notation M := (p_meths P).

  Lemma has_field_at n f i t : has_field P n f i t -> exists fs parts d fd, get n T = Some (EStruct fs parts d) /\ nth_error fs i = Some fd /\
    f_name fd = f /\ f_ty fd = t /\ position f fs = Some i /\ type_of fs f = Some t.
  Proof.
    intros (fs & parts & d & fd & E & N & Ef & Et). exists fs, parts, d, fd. pose proof (here T M (pack_of P HP) n fs parts d E i fd N) as H.
    rewrite Ef in H. repeat split; auto. unfold type_of. rewrite H, N, Et. reflexivity.
  Qed.

  Lemma with_effect n f i t b ta x xv w h a ws vs F G : has_field P n f i t -> method M n ("With" ^^ f) = Some b -> m_val b = Some ta ->
    holds t ta xv w -> read h a = Some (HStruct ws) -> holds_trees h ws vs F -> i < length vs -> holds_tree h x xv G -> NoDup (fst a :: F ++ G) ->
    exists h1 w1 F1, hmove T M n (With f x) a h = Some (n, (h1, a)) /\ effect h h1 a F G w1 (VStruct (set_nth i w vs)) F1.
  Proof.
    intros HF E Ea Hw R Hs L Hx N. destruct (has_field_at n f i t HF) as (fs & parts & d & fd & Eg & Ei & Ef & Et & Ep & Ety). subst f t.
    destruct (shape_set T M (pack_of P HP) n fs parts d Eg i fd Ei b ta E Ea) as (e & -> & Ce).
    assert (NG : NoDup G) by (rewrite NoDup_cons_iff, nd_app in N; tauto).
    unfold hmove. rewrite Eg, Ety, E. unfold hcall, hexec_all, hexec, hassign, place. cbn [m_body m_ret]. rewrite Ep.
    destruct Ce as [[-> Et]|[-> Et]]; cbn [heval].
    - assert (w = xv) as ->. { destruct Hw as [[_ Hw]|[Q _]]; [exact Hw|]. exfalso. rewrite Et in Q. clear - Q. revert Q. induction ta; intros Q; try discriminate. injection Q as Q. auto. }
      destruct (assign_effect h [] a ws vs F i x xv G G R Hs L N) as (h1 & F1 & W & _ & _ & Ef1); [rewrite app_nil_r; exact Hx|exact NG|auto|].
      rewrite app_nil_r in W. rewrite W. eexists. eexists. eexists. split; [reflexivity|exact Ef1].
    - assert (w = VPtr xv) as ->. { destruct Hw as [[Q _]|[_ Hw]]; [|exact Hw]. exfalso. rewrite Et in Q. clear - Q. symmetry in Q. revert Q. induction ta; intros Q; try discriminate. injection Q as Q. auto. }
      destruct (assign_effect h [OVal x] a ws vs F i (HPtr (length h, [])) (VPtr xv) G (length h :: G) R Hs L N) as (h1 & F1 & W & _ & _ & Ef1).
      + eapply ht_ptr; [rewrite nth_error_app2, Nat.sub_diag by lia; reflexivity|]. apply extend_tree. exact Hx.
      + constructor; [|exact NG]. intros I. assert (length h < length h) by (eapply bound; eassumption). lia.
      + intros l [<-|I]; auto.
      + rewrite W. eexists. eexists. eexists. split; [reflexivity|exact Ef1].
  Qed.

  Lemma item_move n f i t key x xv v m h a ws vs F G : has_field P n f i (TMap t) -> nth_error vs i = Some v -> holds_map v m ->
    read h a = Some (HStruct ws) -> holds_trees h ws vs F -> holds_tree h x xv G -> NoDup (fst a :: F ++ G) ->
    exists h1 w1 F1, hmove T M n (Item f key x) a h = Some (n, (h1, a)) /\ effect h h1 a F G w1 (VStruct (set_nth i (VMap (put key xv m)) vs)) F1.
  Proof.
    intros HF Ev Hm R Hs Hx N. destruct (has_field_at n f i _ HF) as (fs & parts & d & fd & Eg & Ei & Ef & Et & Ep & Ety). subst f.
    pose proof (shape_item T M (pack_of P HP) n fs parts d Eg i fd Ei t Et) as E.
    unfold hmove. rewrite Eg, Ety, E. unfold hcall. cbn [m_body m_ret hexec_all]. unfold hexec, hassign, place. rewrite Ep.
    destruct (focus_val h ws vs F i _ Hs Ev) as (w & X & G0 & Y & Ew & Hw & EF & _).
    rewrite (read_sub h a _ [i] R), (sub_one _ ws i eq_refl), Ew.
    destruct Hm as [[-> ->]| ->].
    - inversion Hw; subst w G0. cbn [heval]. assert (L : i < length vs) by (apply nth_error_Some; congruence).
      destruct (assign_effect h [OMap []] a ws vs F i (HMap (length h)) (VMap []) [] [length h] R Hs L) as (h1 & F1 & W & L1 & K1 & Ef1).
      + rewrite app_nil_r. rewrite app_comm_cons in N. apply nd_app in N. apply N.
      + eapply ht_map; [rewrite nth_error_app2, Nat.sub_diag by lia; reflexivity|apply he_nil].
      + repeat constructor. intros [].
      + intros l [<-|[]]. auto.
      + rewrite W. pose proof Ef1 as (Rp & Hs1 & N1 & I1 & Lh & Kh). inversion Hs1 as [| | | | | | | |ws1 vs1 F1' Hs1']; subst.
        pose proof (replaced_read _ _ _ _ _ R Rp) as R1.
        assert (Hx1 : holds_tree h1 x xv G).
        { eapply frame; [exact Hx|]. intros l I. apply Kh; [exact (bound _ _ _ _ _ Hx I)| |].
          - intros ->. rewrite NoDup_cons_iff, !in_app_iff in N. tauto.
          - rewrite app_nil_r. intros J. rewrite NoDup_cons_iff, (nd_app (X ++ [] ++ Y)) in N. destruct N as (_ & _ & _ & D). exact (D l J I). }
        destruct (item_effect h1 a _ _ F1 i [] x xv G key R1 Hs1') as (lm & ms & F2 & E1 & E2 & Ef2).
        * rewrite nth_set_same by exact L. reflexivity.
        * exact Hx1.
        * rewrite app_comm_cons. apply nd_app. split; [exact N1|]. rewrite NoDup_cons_iff, (nd_app (X ++ [] ++ Y)) in N. destruct N as (N0 & _ & NG & D).
          split; [exact NG|]. intros l [<-|I] J; [apply N0; rewrite !in_app_iff; tauto|]. destruct (I1 l I) as [Z|Z].
          -- rewrite app_nil_r in Z. exact (D l Z J).
          -- pose proof (bound _ _ _ _ _ Hx J). lia.
        * rewrite (read_sub h1 a _ [i] R1), (sub_one _ _ i eq_refl), E1, E2. rewrite set_set in Ef2. eexists. eexists. eexists. split; [reflexivity|].
          refine (effect_trans h h1 _ a _ [] G _ _ _ _ _ _ _ Ef1 Ef2). intros l I. exact (bound _ _ _ _ _ Hx I).
    - destruct (item_effect h a ws vs F i m x xv G key R Hs Ev Hx N) as (lm & ms & F2 & E1 & E2 & Ef2).
      rewrite Ew in E1. injection E1 as ->. rewrite (read_sub h a _ [i] R), (sub_one _ _ i eq_refl), Ew, E2. eexists. eexists. eexists. split; [reflexivity|exact Ef2].
  Qed.

  Definition chain_works (n : string) (lv : list (move val)) (v v' : val) : Prop := forall h a lw w F A,
    read h a = Some w -> holds_tree h w v F -> arguments h lw lv A -> NoDup (fst a :: F ++ A) ->
    exists h' r w' F', hchain T M n lw a h = Some (h', r) /\ effect h h' a F A w' v' F'.

  Lemma deref_effect s lv w0 w0' h a ws vs F A i lw : chain_works s lv w0 w0' -> read h a = Some (HStruct ws) -> holds_trees h ws vs F ->
    nth_error vs i = Some (VPtr w0) -> arguments h lw lv A -> NoDup (fst a :: F ++ A) ->
    exists l1 h' r F', nth_error ws i = Some (HPtr (l1, [])) /\ hchain T M s lw (l1, []) h = Some (h', r) /\
      effect h h' a F A (HStruct ws) (VStruct (set_nth i (VPtr w0') vs)) F'.
  Proof.
    intros IH R Hs Ev Ar N.
    destruct (focus_val h ws vs F i _ Hs Ev) as (wi & X & G & Y & Ew & Hwi & -> & K).
    inversion Hwi as [| | | | |l1 w1 v1 G1 El Hw1| | |]; subst.
    destruct (IH h (l1, []) lw w1 G1 A) as (h' & r & w' & G' & Ec & Ee).
    + unfold read. cbn [fst snd]. rewrite El. reflexivity.
    + exact Hw1.
    + exact Ar.
    + cbn [fst]. rewrite NoDup_cons_iff, !nd_app, !in_app_iff in N. rewrite app_comm_cons, nd_app.
      destruct N as (N0 & (NX & (NG & NY & D1) & D2) & NA & D3). split; [exact NG|]. split; [exact NA|].
      intros x I. apply D3. rewrite !in_app_iff. tauto.
    + exists l1, h', r, (X ++ (l1 :: G') ++ Y). split; [exact Ew|]. split; [exact Ec|].
      apply (effect_ref h h' a ws i X l1 w1 G1 Y A w' w0' (fun v => set_nth i v vs) G' (HPtr (l1, [])) (VPtr w0')); auto.
      * intros l0 I. eapply trees_bound; [exact Hs|]. rewrite !in_app_iff in *. tauto.
      * intros E1 E2. eapply ht_ptr; eassumption.
  Qed.

  Lemma chain_effect : forall n lv v v', edited P n lv v v' -> chain_works n lv v v'.
  Proof.
    induction 1 as [n v|n f i s l vs w0 w0' vs' HF Ev Ed IH U|n f i s l vs w0 w0' vs' HF Ev Ed IH U
      |n f i s k l vs es w0 w0' es' vs' HF Ev Ek Ed IH Uk U|n f i t b ta l xv wv vs vs' v' HF Em Ea Hw L U Ed IH
      |n f i t key l xv v m vs vs' v' HF Ev Hm U Ed IH|n f i s l vs w0 w0' vs' HF HS Ev Ed IH U];
      intros h a lw w F A R H Ar N.
    - inversion Ar; subst. exists h, a, w, F. split; [reflexivity|]. split; [apply replaced_same; [exact R|reflexivity]|]. split; [exact H|].
      rewrite app_nil_r in N. split; [exact N|]. split; [intros x I; left; rewrite app_nil_r; exact I|]. split; [lia|reflexivity].
    - inversion Ar as [|f0 lw0 lv0 A0 Ar0| | | | |]; subst. inversion H as [| | | | | | | |ws vs0 F0 Hs]; subst.
      destruct (updated_is _ _ _ _ U) as (Li & ->).
      destruct (focus_val h ws vs F i _ Hs Ev) as (wi & X & G & Y & Ew & Hwi & -> & K).
      destruct (has_field_at n f i _ HF) as (fs & parts & d & fd & Eg & Ei & Ef & Et & Ep & Ety).
      destruct (IH h (fst a, snd a ++ [i]) lw0 wi G A) as (h' & r & w' & G' & Ec & Ee).
      + rewrite (read_sub h a _ [i] R), (sub_one _ _ i eq_refl). exact Ew.
      + exact Hwi.
      + exact Ar0.
      + cbn [fst]. rewrite NoDup_cons_iff, !nd_app, !in_app_iff in N. rewrite NoDup_cons_iff, nd_app, in_app_iff.
        destruct N as (N0 & (NX & (NG & NY & D1) & D2) & NA & D3). split; [tauto|]. split; [exact NG|]. split; [exact NA|].
        intros x I. apply D3. rewrite !in_app_iff. tauto.
      + exists h', r, (HStruct (set_nth i w' ws)), (X ++ G' ++ Y). split.
        * cbn [hchain]. unfold hmove, place. rewrite Eg, Ety, Ep. exact Ec.
        * apply (effect_sel h h' a ws i X G Y A w' w0' (fun v => set_nth i v vs) G' R); auto.
          -- rewrite (trees_length _ _ _ _ Hs). exact Li.
          -- intros l0 I. eapply trees_bound; [exact Hs|]. rewrite !in_app_iff in *. tauto.
    - inversion Ar as [| |f0 lw0 lv0 A0 Ar0| | | |]; subst. inversion H as [| | | | | | | |ws vs0 F0 Hs]; subst.
      destruct (updated_is _ _ _ _ U) as (Li & ->).
      destruct (has_field_at n f i _ HF) as (fs & parts & d & fd & Eg & Ei & Ef & Et & Ep & Ety).
      destruct (deref_effect s l w0 w0' h a ws vs F A i lw0 IH R Hs Ev Ar0 N) as (l1 & h' & r & F' & Ew & Ec & Ee).
      exists h', r, (HStruct ws), F'. split; [|exact Ee].
      cbn [hchain]. unfold hmove, place. rewrite Eg, Ety, Ep, (read_sub h a _ [i] R), (sub_one _ _ i eq_refl), Ew. exact Ec.
    - inversion Ar as [| | |f0 k0 lw0 lv0 A0 Ar0| | |]; subst. inversion H as [| | | | | | | |ws vs0 F0 Hs]; subst.
      destruct (updated_is _ _ _ _ U) as (Li & ->). destruct (updated_is _ _ _ _ Uk) as (Lk & ->).
      destruct (focus_val h ws vs F i _ Hs Ev) as (wi & X & G & Y & Ew & Hwi & -> & K).
      inversion Hwi as [| | | | | |l1 wes v1 G1 El Hes| |]; subst.
      destruct (focus_val h wes es G1 k _ Hes Ek) as (wk & X1 & Gk & Y1 & Ewk & Hwk & -> & Kk).
      destruct (has_field_at n f i _ HF) as (fs & parts & d & fd & Eg & Ei & Ef & Et & Ep & Ety).
      assert (Rk : read h (l1, [k]) = Some wk) by (unfold read; cbn [fst snd]; rewrite El; rewrite (sub_one _ _ k eq_refl); exact Ewk).
      assert (R1 : read h (l1, []) = Some (HStruct wes)) by (unfold read; cbn [fst snd]; rewrite El; reflexivity).
      pose proof N as N'. rewrite NoDup_cons_iff, !nd_app, !in_app_iff in N. destruct N as (N0 & (NX & (NG & NY & D1) & D2) & NA & D3).
      assert (NGA : NoDup (l1 :: (X1 ++ Gk ++ Y1) ++ A)).
      { rewrite app_comm_cons, nd_app. split; [exact NG|]. split; [exact NA|]. intros x I. apply D3. rewrite !in_app_iff. tauto. }
      destruct (IH h (l1, [k]) lw0 wk Gk A) as (h' & r & w' & G' & Ec & Ee).
      + exact Rk.
      + exact Hwk.
      + exact Ar0.
      + cbn [fst]. clear - NGA. rewrite NoDup_cons_iff, !nd_app, !in_app_iff in NGA. rewrite NoDup_cons_iff, nd_app, in_app_iff.
        destruct NGA as (N0 & (NX & (NG & NY & D1) & D2) & NA & D3). split; [tauto|]. split; [exact NG|]. split; [exact NA|].
        intros x I. apply D3. rewrite !in_app_iff. tauto.
      + exists h', r, (HStruct ws), (X ++ (l1 :: (X1 ++ G' ++ Y1)) ++ Y). split.
        * cbn [hchain]. unfold hmove, place. rewrite Eg, Ety, Ep, (read_sub h a _ [i] R), (sub_one _ _ i eq_refl), Ew. cbv beta iota. unfold loc in *. rewrite Rk. exact Ec.
        * apply (effect_ref h h' a ws i X l1 (HStruct wes) (X1 ++ Gk ++ Y1) Y A (HStruct (set_nth k w' wes)) (VStruct (set_nth k w0' es))
                   (fun v => set_nth i v vs) (X1 ++ G' ++ Y1) (HArr l1) (VArr (set_nth k w0' es))); auto.
          -- intros l0 I. eapply trees_bound; [exact Hs|]. rewrite !in_app_iff in *. tauto.
          -- intros E1 E2. inversion E2; subst. eapply ht_arr; eassumption.
          -- apply (effect_sel h h' (l1, []) wes k X1 Gk Y1 A w' w0' (fun v => set_nth k v es) G' R1); auto.
             ++ rewrite (trees_length _ _ _ _ Hes). exact Lk.
             ++ intros l0 I. eapply trees_bound; [exact Hes|]. rewrite !in_app_iff in *. tauto.
    - inversion Ar as [| | | | |f0 x v0 G lw0 lv0 A0 Hx Ar0|]; subst. inversion H as [| | | | | | | |ws vs0 F0 Hs]; subst.
      destruct (updated_is _ _ _ _ U) as (Li & ->).
      assert (NFG : NoDup (fst a :: F ++ G)) by (rewrite app_assoc, app_comm_cons in N; apply nd_app in N; apply N).
      destruct (with_effect n f i t b ta x xv wv h a ws vs F G HF Em Ea Hw R Hs Li Hx NFG) as (h1 & w1 & F1 & E1 & Ef1).
      pose proof Ef1 as (Rp & H1 & N1 & I1 & L1 & K1).
      assert (SA : same h h1 A0).
      { intros l0 I. rewrite app_assoc, app_comm_cons, nd_app in N. destruct N as (_ & _ & D). apply K1; [eapply arguments_bound; eassumption| |].
        - intros ->. apply (D (fst a)); [left; reflexivity|exact I].
        - intros J. apply (D l0); [right; exact J|exact I]. }
      destruct (IH h1 a lw0 w1 F1 A0) as (h' & r & w' & F' & Ec & Ee).
      + exact (replaced_read _ _ _ _ _ R Rp).
      + exact H1.
      + exact (arguments_frame _ _ _ _ _ Ar0 SA).
      + rewrite app_assoc, app_comm_cons, nd_app in N. destruct N as (_ & NA & D). rewrite app_comm_cons, nd_app. split; [exact N1|]. split; [exact NA|].
        intros l0 [<-|I] J; [apply (D (fst a)); [left; reflexivity|exact J]|]. destruct (I1 l0 I) as [Z|Z]; [apply (D l0); [right; exact Z|exact J]|].
        pose proof (arguments_bound _ _ _ _ _ Ar0 J). lia.
      + exists h', r, w', F'. split; [cbn [hchain]; rewrite E1; exact Ec|].
        refine (effect_trans h h1 h' a F G A0 _ _ _ _ _ _ _ Ef1 Ee). intros l0 I. eapply arguments_bound; eassumption.
    - inversion Ar as [| | | | | |f0 k0 x v0 G lw0 lv0 A0 Hx Ar0]; subst. inversion H as [| | | | | | | |ws vs0 F0 Hs]; subst.
      destruct (updated_is _ _ _ _ U) as (Li & ->).
      assert (NFG : NoDup (fst a :: F ++ G)) by (rewrite app_assoc, app_comm_cons in N; apply nd_app in N; apply N).
      destruct (item_move n f i t key x xv v m h a ws vs F G HF Ev Hm R Hs Hx NFG) as (h1 & w1 & F1 & E1 & Ef1).
      pose proof Ef1 as (Rp & H1 & N1 & I1 & L1 & K1).
      assert (SA : same h h1 A0).
      { intros l0 I. rewrite app_assoc, app_comm_cons, nd_app in N. destruct N as (_ & _ & D). apply K1; [eapply arguments_bound; eassumption| |].
        - intros ->. apply (D (fst a)); [left; reflexivity|exact I].
        - intros J. apply (D l0); [right; exact J|exact I]. }
      destruct (IH h1 a lw0 w1 F1 A0) as (h' & r & w' & F' & Ec & Ee).
      + exact (replaced_read _ _ _ _ _ R Rp).
      + exact H1.
      + exact (arguments_frame _ _ _ _ _ Ar0 SA).
      + rewrite app_assoc, app_comm_cons, nd_app in N. destruct N as (_ & NA & D). rewrite app_comm_cons, nd_app. split; [exact N1|]. split; [exact NA|].
        intros l0 [<-|I] J; [apply (D (fst a)); [left; reflexivity|exact J]|]. destruct (I1 l0 I) as [Z|Z]; [apply (D l0); [right; exact Z|exact J]|].
        pose proof (arguments_bound _ _ _ _ _ Ar0 J). lia.
      + exists h', r, w', F'. split; [cbn [hchain]; rewrite E1; exact Ec|].
        refine (effect_trans h h1 h' a F G A0 _ _ _ _ _ _ _ Ef1 Ee). intros l0 I. eapply arguments_bound; eassumption.
    - inversion Ar as [| | | |f0 lw0 lv0 A0 Ar0| |]; subst. inversion H as [| | | | | | | |ws vs0 F0 Hs]; subst.
      destruct (updated_is _ _ _ _ U) as (Li & ->). destruct HS as (fs' & parts' & d' & Gs).
      destruct (has_field_at n f i _ HF) as (fs & parts & d & fd & Eg & Ei & Ef & Et & Ep & Ety). subst f.
      pose proof (shape_ens T M (pack_of P HP) n fs parts d Eg i fd Ei s fs' parts' d' Et Gs) as Em.
      destruct Ev as [Ev|[Ev ->]].
      + destruct (deref_effect s l w0 w0' h a ws vs F A i lw0 IH R Hs Ev Ar0 N) as (l1 & h' & r & F' & Ew & Ec & Ee).
        exists h', r, (HStruct ws), F'. split; [|exact Ee].
        cbn [hchain]. unfold hmove, hcall. rewrite Eg, Em. cbn [m_body m_ret hexec_all]. unfold hexec, place.
        rewrite Ety, Ep, !(read_sub h a _ [i] R), (sub_one _ _ i eq_refl), Ew, (read_sub h a _ [i] R), (sub_one _ _ i eq_refl), Ew. exact Ec.
      + destruct (focus_val h ws vs F i _ Hs Ev) as (wi & X & G & Y & Ew & Hwi & EF & _). inversion Hwi; subst wi G.
        destruct (assign_effect h [OVal (flat (zero T LVL (TNamed s)))] a ws vs F i (HPtr (length h, [])) (VPtr (zero T LVL (TNamed s))) [] [length h] R Hs Li)
          as (h1 & F1 & W & L1 & K1 & Ef1).
        * rewrite app_nil_r. rewrite app_comm_cons in N. apply nd_app in N. apply N.
        * eapply ht_ptr; [rewrite nth_error_app2, Nat.sub_diag by lia; reflexivity|]. apply flat_zero.
        * repeat constructor. intros [].
        * intros l0 [<-|[]]. auto.
        * pose proof Ef1 as (Rp & H1 & N1 & I1 & Lh & Kh). inversion H1 as [| | | | | | | |ws1 vs1 F1' Hs1]; subst.
          pose proof (replaced_read _ _ _ _ _ R Rp) as R1.
          rewrite app_comm_cons, nd_app in N. destruct N as (NF & NA & D).
          assert (SA : same h h1 A).
          { intros l0 I. apply Kh; [eapply arguments_bound; eassumption| |].
            - intros ->. apply (D (fst a)); [left; reflexivity|exact I].
            - rewrite app_nil_r. intros J. apply (D l0); [right; exact J|exact I]. }
          destruct (deref_effect s l (zero T LVL (TNamed s)) w0' h1 a (set_nth i (HPtr (length h, [])) ws) (set_nth i (VPtr (zero T LVL (TNamed s))) vs) F1 A i lw0 IH R1 Hs1)
            as (l1 & h' & r & F' & Ew1 & Ec & Ee).
          -- apply nth_set_same. exact Li.
          -- exact (arguments_frame _ _ _ _ _ Ar0 SA).
          -- rewrite app_comm_cons, nd_app. split; [exact N1|]. split; [exact NA|].
             intros l0 [<-|I] J; [apply (D (fst a)); [left; reflexivity|exact J]|].
             destruct (I1 l0 I) as [Z|Z]; [apply (D l0); [right; rewrite app_nil_r in Z; exact Z|exact J]|].
             pose proof (arguments_bound _ _ _ _ _ Ar0 J). lia.
          -- exists h', r, (HStruct (set_nth i (HPtr (length h, [])) ws)), F'. split.
             ++ cbn [hchain]. unfold hmove, hcall. rewrite Eg, Em. cbn [m_body m_ret hexec_all]. unfold hexec, hassign, place. cbn [heval].
                rewrite Ety, Ep, (read_sub h a _ [i] R), (sub_one _ _ i eq_refl), Ew, W, (read_sub h1 a _ [i] R1), (sub_one _ _ i eq_refl), Ew1. exact Ec.
             ++ rewrite set_set in Ee. apply (effect_trans h h1 h' a _ [] A _ _ _ _ _ _) with (2 := Ef1) (3 := Ee). intros l0 I. eapply arguments_bound; eassumption.
  Qed.
End Chain.

(* ---------- chains on values of a Go type ---------- *)

Section Total.
  Variable P : package.
  Hypothesis HP : In P packages.
  Notation T := (p_types P).
  Notation M := (p_meths P).

  Lemma zero_struct s : struct_type P s -> typed T (TNamed s) (zero T LVL (TNamed s)).
  Proof.
    intros (fs & parts & d & G). apply zero_typed_ok. apply get_In_pair in G.
    assert (C : forallb (fun e => zero_typed T LVL (TNamed (fst e))) T = true) by (destruct HP as [<-|[<-|[]]]; vm_compute; reflexivity).
    rewrite forallb_forall in C. exact (C _ G).
  Qed.

  Lemma Forall2_nth {A B} (R : A -> B -> Prop) l r : Forall2 R l r -> forall i x, nth_error l i = Some x -> exists y, nth_error r i = Some y /\ R x y.
  Proof. induction 1; intros [|i] z E; try discriminate; cbn in *; [injection E as ->; eauto|eauto]. Qed.
  Lemma Forall2_set {A B} (R : A -> B -> Prop) l r : Forall2 R l r -> forall i x y, nth_error l i = Some x -> R x y -> Forall2 R l (set_nth i y r).
  Proof. induction 1; intros [|i] z w E Q; try discriminate; cbn in *; [injection E as ->; constructor; auto|constructor; eauto]. Qed.
  Lemma Forall2_len {A B} (R : A -> B -> Prop) l r : Forall2 R l r -> length l = length r.
  Proof. induction 1; cbn; congruence. Qed.

  Lemma chain_total : forall n l, chained P n l -> forall v, typed T (TNamed n) v -> exists v', edited P n l v v' /\ typed T (TNamed n) v'.
  Proof.
    induction 1 as [n|n f i s l HF HS C IH|n f i t b a x l HF Em Ea Hx C IH|n f i t key x l HF Hx C IH|n f i s l HF HS C IH]; intros v Tv.
    - exists v. split; [apply ed_done|exact Tv].
    - destruct HF as (fs & parts & d & fd & Eg & Ei & Ef & Et). inversion Tv as [| | | | | | | | | | | |n0 vals s0 E|n0 fs0 ps0 d0 vs E F2]; subst; [congruence|].
      rewrite Eg in E. injection E as <- <- <-. destruct (Forall2_nth _ _ _ F2 i fd Ei) as (w & Ew & Tw). rewrite Et in Tw.
      destruct (IH w Tw) as (w' & Ed & Tw'). exists (VStruct (set_nth i w' vs)). split.
      + apply (ed_sel P n (f_name fd) i s l vs w w'); auto; [exists fs, parts, d, fd; auto|]. apply set_updated. apply nth_error_Some. congruence.
      + apply (ty_struct T n fs parts d); [exact Eg|]. apply (Forall2_set _ _ _ F2 i fd); [exact Ei|]. rewrite Et. exact Tw'.
    - pose proof HF as (fs & parts & d & fd & Eg & Ei & Ef & Et). inversion Tv as [| | | | | | | | | | | |n0 vals s0 E|n0 fs0 ps0 d0 vs E F2]; subst; [congruence|].
      rewrite Eg in E. injection E as <- <- <-. destruct (Forall2_nth _ _ _ F2 i fd Ei) as (w & Ew & Tw).
      assert (Li : i < length vs) by (apply nth_error_Some; congruence).
      assert (Hw : exists wv, holds (f_ty fd) a x wv /\ typed T (f_ty fd) wv).
      { destruct (shape_set T M (pack_of P HP) n fs parts d Eg i fd Ei b a Em Ea) as (e & _ & [[_ Q]|[_ Q]]); rewrite Q; [exists x; split; [left; auto|exact Hx]|exists (VPtr x); split; [right; auto|apply ty_ptr; exact Hx]]. }
      destruct Hw as (wv & Hwv & Twv).
      destruct (IH (VStruct (set_nth i wv vs))) as (v' & Ed & Tv').
      + apply (ty_struct T n fs parts d); [exact Eg|]. apply (Forall2_set _ _ _ F2 i fd); [exact Ei|exact Twv].
      + exists v'. split; [|exact Tv']. apply (ed_with P n (f_name fd) i (f_ty fd) b a l x wv vs (set_nth i wv vs)); auto. apply set_updated. exact Li.
    - pose proof HF as (fs & parts & d & fd & Eg & Ei & Ef & Et). inversion Tv as [| | | | | | | | | | | |n0 vals s0 E|n0 fs0 ps0 d0 vs E F2]; subst; [congruence|].
      rewrite Eg in E. injection E as <- <- <-. destruct (Forall2_nth _ _ _ F2 i fd Ei) as (w & Ew & Tw). rewrite Et in Tw.
      assert (Li : i < length vs) by (apply nth_error_Some; congruence).
      assert (Hm : exists m, holds_map w m /\ forall k u, get k m = Some u -> typed T t u).
      { inversion Tw; subst; [exists []; split; [left; auto|discriminate]|exists m; split; [right; auto|assumption]]. }
      destruct Hm as (m & Hm & Tm).
      destruct (IH (VStruct (set_nth i (VMap (put key x m)) vs))) as (v' & Ed & Tv').
      + apply (ty_struct T n fs parts d); [exact Eg|]. apply (Forall2_set _ _ _ F2 i fd); [exact Ei|]. rewrite Et. apply ty_map. intros k u Gk.
        destruct (String.eqb_spec k key) as [->|Nk]; [rewrite get_put_same in Gk; injection Gk as <-; exact Hx|].
        rewrite get_put_other in Gk by exact Nk. eauto.
      + exists v'. split; [|exact Tv']. apply (ed_item P n (f_name fd) i t key l x w m vs (set_nth i (VMap (put key x m)) vs)); auto. apply set_updated. exact Li.
    - pose proof HF as (fs & parts & d & fd & Eg & Ei & Ef & Et). inversion Tv as [| | | | | | | | | | | |n0 vals s0 E|n0 fs0 ps0 d0 vs E F2]; subst; [congruence|].
      rewrite Eg in E. injection E as <- <- <-. destruct (Forall2_nth _ _ _ F2 i fd Ei) as (w & Ew & Tw). rewrite Et in Tw.
      assert (Li : i < length vs) by (apply nth_error_Some; congruence).
      assert (Hw : exists u, (nth_error vs i = Some (VPtr u) \/ nth_error vs i = Some VNil /\ u = zero T LVL (TNamed s)) /\ typed T (TNamed s) u).
      { inversion Tw; subst; [exists (zero T LVL (TNamed s)); split; [right; auto|apply zero_struct; exact HS]|exists v; split; [left; exact Ew|assumption]]. }
      destruct Hw as (u & Hu & Tu). destruct (IH u Tu) as (u' & Ed & Tu'). exists (VStruct (set_nth i (VPtr u') vs)). split.
      + apply (ed_ens P n (f_name fd) i s l vs u u'); auto. apply set_updated. exact Li.
      + apply (ty_struct T n fs parts d); [exact Eg|]. apply (Forall2_set _ _ _ F2 i fd); [exact Ei|]. rewrite Et. apply ty_ptr. exact Tu'.
  Qed.
End Total.

(* ---------- what a link of a chain changes ---------- *)

Section Sharing.
  Variable P : package.
  Hypothesis HP : In P packages.
  Notation T := (p_types P).
  Notation M := (p_meths P).

  Lemma write_only h b y h' : write h b y = Some h' -> length h' = length h /\ (forall l, l <> fst b -> nth_error h' l = nth_error h l).
  Proof.
    unfold write. destruct (nth_error h (fst b)) as [[o|]|]; try discriminate. destruct (upd o (snd b) y) as [o'|]; [|discriminate].
    intros E. injection E as <-. split; [apply length_set|]. intros l N. apply nth_set_other. exact N.
  Qed.
  Lemma assign_only fs x a f e h h' : hassign T fs x a f e h = Some h' -> length h <= length h' /\
    (forall l, l < length h -> l <> fst a -> nth_error h' l = nth_error h l).
  Proof.
    unfold hassign, place. destruct (position f fs) as [i|]; [|discriminate].
    assert (X : exists ext, fst (heval T x e h) = h ++ ext) by (destruct e; cbn [heval fst]; [exists []; rewrite app_nil_r; reflexivity|eexists; reflexivity|eexists; reflexivity|eexists; reflexivity]).
    destruct X as (ext & X). destruct (heval T x e h) as [h1 w]. cbn [fst] in X. subst h1. intros W. apply write_only in W. destruct W as (L & K).
    rewrite app_length in L. split; [lia|]. intros l Lt N. rewrite K by exact N. apply nth_ext_lt. exact Lt.
  Qed.

  Lemma type_field fs f t : type_of fs f = Some t -> exists i fd, position f fs = Some i /\ nth_error fs i = Some fd /\ f_name fd = f /\ f_ty fd = t.
  Proof.
    unfold type_of. destruct (position f fs) as [i|] eqn:Ep; [|discriminate]. destruct (nth_error fs i) as [fd|] eqn:Ei; [|discriminate].
    intros E. injection E as E. exists i, fd. split; [reflexivity|]. split; [exact Ei|]. split; [|exact E].
    revert i Ep Ei. induction fs as [|f0 fs IH]; intros i Ep Ei; [discriminate|]. cbn [position] in Ep. destruct (String.eqb_spec (f_name f0) f) as [Q|Q].
    - injection Ep as <-. cbn in Ei. injection Ei as <-. exact Q.
    - destruct (position f fs) as [j|]; [|discriminate]. injection Ep as <-. cbn in Ei. apply (IH j); auto.
  Qed.

  Lemma move_only n m a h s h' r : hmove T M n m a h = Some (s, (h', r)) -> length h <= length h' /\
    forall l, l < length h -> ~ touches P n h a m l -> nth_error h' l = nth_error h l.
  Proof.
    intros E.
    assert (Q : forall l, ~ touches P n h a m l -> l <> fst a) by (intros l NT ->; apply NT; apply to_receiver).
    unfold hmove in E. destruct (get n T) as [[vals|fs parts d]|] eqn:Eg; try discriminate.
    destruct m as [f|f|f k|f x|f key x|f].
    - destruct (place fs a f); [|discriminate]. destruct (type_of fs f) as [[]|]; try discriminate. injection E as <- <- <-. split; [lia|auto].
    - destruct (match place fs a f with Some b => read h b | None => None end) as [[]|]; try discriminate.
      destruct (type_of fs f) as [[| | | | | |[]| | |]|]; try discriminate. injection E as <- <- <-. split; [lia|auto].
    - destruct (match place fs a f with Some b => read h b | None => None end) as [[]|]; try discriminate.
      destruct (read h (l, [k])); [|discriminate].
      destruct (type_of fs f) as [[| | | | | | |[]| |]|]; try discriminate. injection E as <- <- <-. split; [lia|auto].
    - destruct (type_of fs f) as [t|] eqn:Et; [|discriminate]. destruct (type_field fs f t Et) as (i & fd & Ep & Ei & Ef & _). subst f.
      destruct (method M n ("With" ^^ f_name fd)) as [b|] eqn:Em; [|discriminate].
      destruct (shape_with T M (pack_of P HP) n fs parts d Eg i fd Ei b Em) as (ta & e & -> & _).
      unfold hcall in E. cbn [m_body m_ret hexec_all hexec] in E. destruct (hassign T fs x a (f_name fd) e h) as [h1|] eqn:Ea; [|discriminate].
      injection E as <- <- <-. destruct (assign_only _ _ _ _ _ _ _ Ea) as (L & K). split; [exact L|auto].
    - destruct (type_of fs f) as [t|] eqn:Et; [|discriminate]. destruct (type_field fs f t Et) as (i & fd & Ep & Ei & Ef & Eft). subst f t.
      destruct (method M n ("With" ^^ f_name fd ^^ "Item")) as [b|] eqn:Em; [|discriminate].
      pose proof (plain_field T M (pack_of P HP) n fs parts d Eg i fd Ei) as C. unfold plain_checks in C. rewrite Em in C.
      destruct (f_ty fd) as [| | | | | |t|t|t|s0] eqn:Ety; try (rewrite !andb_false_r in C; discriminate C). clear C.
      pose proof (shape_item T M (pack_of P HP) n fs parts d Eg i fd Ei t Ety) as Em'. rewrite Em in Em'. injection Em' as ->.
      unfold hcall in E. cbn [m_body m_ret hexec_all] in E. unfold hexec in E.
      destruct (place fs a (f_name fd)) as [p|] eqn:Epl; [|discriminate].
      assert (Hp : p = (fst a, snd a ++ [i])) by (unfold place in Epl; rewrite Ep in Epl; injection Epl as <-; reflexivity).
      destruct (read h p) as [w|] eqn:Rp; [|discriminate].
      destruct (match w with HNil => hassign T fs x a (f_name fd) (EMake (TMap t)) h | _ => Some h end) as [h1|] eqn:E1; [|discriminate].
      assert (K1 : length h <= length h1 /\ forall l, l < length h -> l <> fst a -> nth_error h1 l = nth_error h l).
      { destruct w; try (injection E1 as <-; split; [lia|auto]). exact (assign_only _ _ _ _ _ _ _ E1). }
      destruct (read h1 p) as [[| | | | | | |lm|]|] eqn:Rp1; try discriminate.
      destruct (nth_error h1 lm) as [[|ms]|] eqn:El; try discriminate. injection E as <- <- <-. rewrite length_set. split; [apply K1|].
      intros l Lt NT. destruct (Nat.eq_dec l lm) as [->|Ne].
      + exfalso. destruct w as [| | | | | | |l0|].
        * unfold hassign in E1. rewrite Epl in E1. cbn [heval] in E1. subst p. unfold write in E1. cbn [fst snd] in E1.
          pose proof (read_lt _ _ _ Rp) as La. cbn [fst] in La.
          destruct (nth_error (h ++ [OMap []]) (fst a)) as [[o|]|] eqn:No; try discriminate.
          destruct (upd o (snd a ++ [i]) (HMap (length h))) as [o'|] eqn:U; [|discriminate]. injection E1 as <-.
          unfold read in Rp1, Rp. cbn [fst snd] in *. rewrite nth_set_same in Rp1 by (rewrite app_length; cbn [length]; lia).
          rewrite nth_ext_lt in No by exact La. rewrite No in Rp. destruct (upd_ok _ _ _ (HMap (length h)) Rp) as (o2 & U2 & S2). assert (o2 = o') by congruence. subst o2.
          rewrite S2 in Rp1. injection Rp1 as <-. lia.
        * injection E1 as <-. congruence.
        * injection E1 as <-. congruence.
        * injection E1 as <-. congruence.
        * injection E1 as <-. congruence.
        * injection E1 as <-. congruence.
        * injection E1 as <-. congruence.
        * injection E1 as <-. rewrite Rp in Rp1. injection Rp1 as ->. apply NT. rewrite Hp in Rp. apply (to_map P n h a (f_name fd) i (TMap t)); [|exact Rp]. exists fs, parts, d, fd. auto.
        * injection E1 as <-. congruence.
      + rewrite nth_set_other by exact Ne. apply K1; auto.
    - destruct (method M n (f ^^ "Ens")) as [b|] eqn:Em; [|discriminate].
      destruct (hcall T fs "" HNil b a h) as [[h1 r1]|] eqn:Ec; [|discriminate].
      destruct (type_of fs f) as [[| | | | | |[| | | | | | | | |s0]| | |]|] eqn:Et; try discriminate. injection E as <- <- <-.
      destruct (type_field fs f _ Et) as (i & fd & Ep & Ei & Ef & Eft). subst f.
      pose proof (plain_field T M (pack_of P HP) n fs parts d Eg i fd Ei) as C. unfold plain_checks in C. rewrite Em, Eft in C.
      destruct (get s0 T) as [[|fs' parts' d']|] eqn:Gs; try (cbn [absent] in C; rewrite !andb_false_r in C; discriminate C). clear C.
      pose proof (shape_ens T M (pack_of P HP) n fs parts d Eg i fd Ei s0 fs' parts' d' Eft Gs) as Em'. rewrite Em in Em'. injection Em' as ->.
      unfold hcall in Ec. cbn [m_body m_ret hexec_all] in Ec. unfold hexec in Ec.
      destruct (place fs a (f_name fd)) as [p|] eqn:Epl; [|discriminate].
      destruct (read h p) as [w|] eqn:Rp; [|discriminate].
      destruct (match w with HNil => hassign T fs HNil a (f_name fd) (ENew s0) h | _ => Some h end) as [h2|] eqn:E1; [|discriminate].
      assert (K1 : length h <= length h2 /\ forall l, l < length h -> l <> fst a -> nth_error h2 l = nth_error h l).
      { destruct w; try (injection E1 as <-; split; [lia|auto]). exact (assign_only _ _ _ _ _ _ _ E1). }
      destruct (read h2 p) as [[]|]; try discriminate. injection Ec as <- <-. split; [apply K1|]. intros l Lt NT. apply K1; auto.
  Qed.

  (* Setters change the object of the receiver only. *)
  Lemma setters_only n : forall l, sets_fields l -> forall a h h' r, hchain T M n l a h = Some (h', r) ->
    length h <= length h' /\ r = a /\ forall l0, l0 < length h -> l0 <> fst a -> nth_error h' l0 = nth_error h l0.
  Proof.
    induction l as [|m l IH]; intros S a h h' r E; [cbn in E; injection E as <- <-; split; [lia|auto]|].
    destruct (S m (or_introl eq_refl)) as (f & x & ->). cbn [hchain] in E. destruct (hmove T M n (With f x) a h) as [[n1 [h1 a1]]|] eqn:E1; [|discriminate].
    destruct (move_only n _ a h n1 h1 a1 E1) as (L1 & K1).
    assert (a1 = a /\ n1 = n) as [-> ->].
    { unfold hmove in E1. destruct (get n T) as [[vals|fs parts d]|] eqn:Eg; try discriminate.
      destruct (type_of fs f) as [t|] eqn:Et; [|discriminate]. destruct (type_field fs f t Et) as (i & fd & Ep & Ei & Ef & _). subst f.
      destruct (method M n ("With" ^^ f_name fd)) as [b|] eqn:Em; [|discriminate].
      destruct (shape_with T M (pack_of P HP) n fs parts d Eg i fd Ei b Em) as (ta & e & -> & _).
      unfold hcall in E1. cbn [m_body m_ret hexec_all hexec] in E1. destruct (hassign T fs x a (f_name fd) e h) as [h2|]; [|discriminate].
      injection E1 as <- <- <-. auto. }
    destruct (IH (fun m I => S m (or_intror I)) a h1 h' r E) as (L2 & -> & K2). split; [lia|]. split; [reflexivity|].
    intros l0 Lt Ne. rewrite K2 by (auto; lia). apply K1; [exact Lt|]. intros X. inversion X; subst; auto.
  Qed.
End Sharing.

(* ---------- the statements ---------- *)

Section Variables_.
  Variable P : package.
  Hypothesis HP : In P packages.
  Let T := p_types P. Let M := p_meths P.

  Lemma chain_variable n lv v v' : edited P n lv v v' -> forall h l F lw A, variable h l v F -> arguments h lw lv A -> NoDup (l :: F ++ A) ->
    exists h' r F', hchain T M n lw (l, []) h = Some (h', r) /\ variable h' l v' F' /\
      (forall l0, In l0 F' -> In l0 (F ++ A) \/ length h <= l0) /\
      (forall w u G, holds_tree h w u G -> (forall x, In x G -> ~ In x (l :: F ++ A)) -> holds_tree h' w u G).
  Proof.
    intros Ed h l F lw A (w & El & Hw & N0) Ar N.
    assert (R : read h (l, []) = Some w) by (unfold read; cbn [fst snd]; rewrite El; reflexivity).
    destruct (chain_effect P HP n lv v v' Ed h (l, []) lw w F A R Hw Ar N) as (h' & r & w' & F' & Ec & R1 & H1 & N1 & I1 & L1 & K1).
    exists h', r, F'. split; [exact Ec|]. cbn [fst] in *. split; [|split; [exact I1|]].
    - exists w'. split; [|split; [exact H1|exact N1]].
      pose proof (replaced_read _ _ _ _ _ R R1) as X. unfold read in X. cbn [fst snd] in X. destruct (nth_error h' l) as [[o|]|]; try discriminate.
      cbn [sub] in X. congruence.
    - intros w0 u G Hu D. apply (frame h); [exact Hu|]. intros x I. apply K1.
      + exact (bound _ _ _ _ _ Hu I).
      + intros ->. apply (D _ I). left. reflexivity.
      + intros X. apply (D _ I). right. exact X.
  Qed.

  Lemma move_tree n m a h s h' r : hmove T M n m a h = Some (s, (h', r)) ->
    forall w v F, holds_tree h w v F -> (forall l, In l F -> ~ touches P n h a m l) -> holds_tree h' w v F.
  Proof.
    intros E w v F H D. destruct (move_only P HP n m a h s h' r E) as (L & K). apply (frame h); [exact H|]. intros l I. apply K; [|auto].
    exact (bound _ _ _ _ _ H I).
  Qed.

  Lemma copy_kept n h w lc h0 l h' r : copied h w = (h0, lc) -> sets_fields l -> hchain T M n l (lc, []) h0 = Some (h', r) ->
    forall w0 v F, holds_tree h w0 v F -> holds_tree h' w0 v F.
  Proof.
    intros E S C w0 v F H. injection E as <- <-. destruct (setters_only P HP n l S _ _ _ _ C) as (L & _ & K). cbn [fst] in K.
    apply (frame h); [exact H|]. intros x I. pose proof (bound _ _ _ _ _ H I) as B. rewrite K; [apply nth_ext_lt; exact B| |].
    - rewrite app_length. lia.
    - unfold loc in *. lia.
  Qed.

  Lemma argument_kept n f x y v v' h l F G lv : edited P n [With f y] v v' -> variable h l v F -> nth_error h lv = Some (OVal x) -> holds_tree h x y G ->
    NoDup (l :: F ++ G) -> ~ In lv (l :: F ++ G) ->
    exists h1 r F1, hchain T M n [With f x] (l, []) h = Some (h1, r) /\ variable h1 l v' F1 /\
      forall s l2 h2 r2, sets_fields l2 -> hchain T M s l2 (lv, []) h1 = Some (h2, r2) -> variable h2 l v' F1.
  Proof.
    intros Ed V Elv Hx N D.
    destruct (chain_variable n _ v v' Ed h l F [With f x] G V) as (h1 & r & F1 & Ec & V1 & I1 & _).
    { replace G with (G ++ []) by apply app_nil_r. constructor; [exact Hx|constructor]. }
    { exact N. }
    exists h1, r, F1. split; [exact Ec|]. split; [exact V1|]. intros s l2 h2 r2 S C.
    destruct (setters_only P HP s l2 S _ _ _ _ C) as (L & _ & K). cbn [fst] in K. destruct V1 as (w1 & E1 & H1 & N1).
    assert (Ll : l < length h1) by (apply nth_error_Some; congruence).
    exists w1. split; [|split; [|exact N1]].
    - rewrite K; [exact E1|exact Ll|]. intros ->. apply D. left. reflexivity.
    - apply (frame h1); [exact H1|]. intros z I. apply K; [exact (bound _ _ _ _ _ H1 I)|]. intros ->. destruct (I1 _ I) as [X|X].
      + apply D. right. exact X.
      + assert (lv < length h) by (apply nth_error_Some; congruence). unfold loc in *. lia.
  Qed.
End Variables_.
