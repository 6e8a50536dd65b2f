(* ToJSONSchema and the iteration order of maps. *)
From Coq Require Import Permutation Lia.
From Verif Require Import Str SMap Json SchemaModel SchemaSpec SchemaProofs SchemaRefs SchemaRefs2.

Lemma Forall2_in_l {A C} (R R' : A -> C -> Prop) l l' :
  Forall2 R l l' -> (forall x y, In x l -> R x y -> R' x y) -> Forall2 R' l l'.
Proof. induction 1; intros H'; constructor; auto; [apply H'; simpl; auto|]. apply IHForall2. intros. apply H'; simpl; auto. Qed.

Lemma flat_perm {A C} (f g : A -> list C) (R : A -> A -> Prop) l l' :
  Forall2 R l l' -> (forall x y, In x l -> R x y -> Permutation (f x) (g y)) -> Permutation (flat_map f l) (flat_map g l').
Proof.
  induction 1; intros H'; simpl; auto. apply Permutation_app; [apply H'; simpl; auto|].
  apply IHForall2. intros. apply H'; simpl; auto.
Qed.

Lemma opt_perm {A} (f : A -> list string) (R : A -> A -> Prop) x x' :
  perm_opt R x x' -> (forall s t, x = Some s -> R s t -> Permutation (f s) (f t)) ->
  Permutation (opt_names f x) (opt_names f x').
Proof. destruct 1; intros H'; simpl; auto. Qed.

Lemma map_perm {A} (f : A -> list string) (R : A -> A -> Prop) m m' :
  same_entries R m m' -> (forall k s t, In (k, s) m -> R s t -> Permutation (f s) (f t)) ->
  Permutation (map_names f m) (map_names f m').
Proof.
  intros (m1 & P & F) H. unfold map_names. transitivity (flat_map (fun kv => f (snd kv)) m1).
  - apply Permutation_flat_map. exact P.
  - eapply flat_perm; [exact F|]. intros [k x] [k' y] I [E R1]. cbn in *. eapply H; [|exact R1].
    eapply Permutation_in; [apply Permutation_sym; exact P | exact I].
Qed.

Lemma osame_refs o : forall o', osame o o' -> Permutation (orefs o) (orefs o').
Proof.
  induction o as [|r|a nt al on an it pr ad Hnt Hal Hon Han Hit Hpr Had] using osor_ind'; intros o' S.
  - inversion S; subst. constructor.
  - inversion S; subst. apply Permutation_refl.
  - inversion S as [| |? ? nt' ? al' ? on' ? an' ? it' ? pr' ? ad' S1 S2 S3 S4 S5 S6 S7]; subst.
    rewrite Forall_forall in Hal, Hon, Han, Hpr. cbn [orefs].
    repeat apply Permutation_app.
    + eapply opt_perm; eauto.
    + eapply flat_perm; eauto.
    + eapply flat_perm; eauto.
    + eapply flat_perm; eauto.
    + eapply opt_perm; eauto.
    + eapply map_perm; eauto. intros k s t I R. apply (Hpr (k, s) I t R).
    + destruct S7 as [|b x y P]; [constructor|]. destruct P as [|x y P]; destruct b; try constructor. eapply Had; eauto.
Qed.

Lemma perm_opt_map {A C} (f : A -> C) (R : A -> A -> Prop) (R' : C -> C -> Prop) x x' :
  perm_opt R x x' -> (forall s t, x = Some s -> R s t -> R' (f s) (f t)) -> perm_opt R' (option_map f x) (option_map f x').
Proof. destruct 1; intros H'; simpl; constructor; auto. Qed.

Lemma Forall2_map2 {A C} (f : A -> C) (R : A -> A -> Prop) (R' : C -> C -> Prop) l l' :
  Forall2 R l l' -> (forall s t, In s l -> R s t -> R' (f s) (f t)) -> Forall2 R' (map f l) (map f l').
Proof.
  induction 1; intros H'; simpl; constructor; [apply H'; simpl; auto|]. apply IHForall2. intros. apply H'; simpl; auto.
Qed.

Lemma same_entries_map {A C} (f : A -> C) (R : A -> A -> Prop) (R' : C -> C -> Prop) (m m' : smap A) :
  same_entries R m m' -> (forall k s t, In (k, s) m -> R s t -> R' (f s) (f t)) ->
  same_entries R' (map (fun kv => (fst kv, f (snd kv))) m) (map (fun kv => (fst kv, f (snd kv))) m').
Proof.
  intros (m1 & P & F) H. exists (map (fun kv => (fst kv, f (snd kv))) m1). split.
  - apply Permutation_map. exact P.
  - eapply Forall2_map2; [exact F|]. intros [k s] [k' t] I [E X]. cbn in *. split; auto. eapply H; [|exact X].
    eapply Permutation_in; [apply Permutation_sym; exact P | exact I].
Qed.

Lemma same_empty {A} (R : A -> A -> Prop) : same_entries R [] [].
Proof. exists []. split; constructor. Qed.

Lemma osame_conv o : forall o', osame o o' -> jsame (conv o) (conv o').
Proof.
  induction o as [|r|a nt al on an it pr ad Hnt Hal Hon Han Hit Hpr Had] using osor_ind'; intros o' S.
  - inversion S; subst. cbn [conv]. constructor; try constructor. apply same_empty.
  - inversion S; subst. cbn [conv]. constructor; try constructor. apply same_empty.
  - inversion S as [| |? ? nt' ? al' ? on' ? an' ? it' ? pr' ? ad' S1 S2 S3 S4 S5 S6 S7]; subst.
    rewrite Forall_forall in Hal, Hon, Han, Hpr. cbn [conv]. constructor.
    + eapply perm_opt_map; eauto.
    + eapply Forall2_map2; eauto.
    + eapply Forall2_map2; eauto.
    + eapply Forall2_map2; eauto.
    + eapply perm_opt_map; eauto.
    + constructor.
    + eapply same_entries_map; eauto. intros k s t I R. apply (Hpr (k, s) I t R).
    + destruct S7 as [|b x y P]; [constructor|]. destruct b as [b|].
      * constructor. constructor.
      * destruct P as [|x y P]; constructor. eapply Had; eauto.
Qed.

Lemma jsame_refs s : forall s', jsame s s' -> Permutation (jrefs s) (jrefs s').
Proof.
  induction s as [|b|a r nt al on an it tu pr ad ot Hnt Hal Hon Han Hit Htu Hpr Had _] using jsob_ind'; intros s' S.
  - inversion S; subst. constructor.
  - inversion S; subst. constructor.
  - inversion S as [| |? ? ? nt' ? al' ? on' ? an' ? it' ? tu' ? pr' ? ad' ? S1 S2 S3 S4 S5 S6 S7 S8]; subst.
    cbn [jrefs]. destruct r as [r|]; [apply Permutation_refl|].
    rewrite Forall_forall in *.
    repeat apply Permutation_app.
    + eapply opt_perm; eauto.
    + eapply flat_perm; eauto.
    + eapply flat_perm; eauto.
    + eapply flat_perm; eauto.
    + eapply opt_perm; eauto.
    + eapply flat_perm; eauto.
    + eapply map_perm; eauto. intros k s t I R. apply (Hpr (k, s) I t R).
    + eapply opt_perm; eauto.
Qed.

Lemma comp30_same cs cs' d : same_comps30 cs cs' -> osame (comp30 cs d) (comp30 cs' d).
Proof.
  intros H. unfold comp30, oenv. destruct H as [|m m' H]; [constructor|]. destruct (H d); [constructor|auto].
Qed.

(* Two results over graphs that agree. *)
Lemma results_same (G G' : string -> list string) (body body' : string -> jsob) L L' root js0 js0' N N' js js' defs defs' :
  (forall d, Permutation (G d) (G' d)) -> (forall d, reach G L d -> jsame (body d) (body' d)) -> Permutation L L' ->
  jsame js0 js0' -> (forall n, root = Some (local n) -> L = [n] /\ L' = [n]) ->
  (forall x, In x N <-> reach G L x) -> (forall x, In x N' <-> reach G' L' x) ->
  ((exists n, root = Some (local n) /\ is_inlined G body n N js defs) \/
   ((forall n, root = Some (local n) -> exists d, reach G L d /\ In n (G d)) /\ js = js0 /\
    forall x, get x defs = if mem x N then Some (body x) else None)) ->
  ((exists n, root = Some (local n) /\ is_inlined G' body' n N' js' defs') \/
   ((forall n, root = Some (local n) -> exists d, reach G' L' d /\ In n (G' d)) /\ js' = js0' /\
    forall x, get x defs' = if mem x N' then Some (body' x) else None)) ->
  jsame js js' /\ same_maps jsame defs defs'.
Proof.
  intros HG HB HL HJ HR RN RN' H H'.
  assert (RR : forall x, reach G L x <-> reach G' L' x).
  { intros x. split; apply reach_perm; intros y.
    - apply Permutation_in; auto.
    - intros z. apply Permutation_in; auto.
    - apply Permutation_in, Permutation_sym; auto.
    - intros z. apply Permutation_in, Permutation_sym; auto. }
  assert (MM : forall x, mem x N = mem x N').
  { intros x. destruct (mem x N) eqn:E.
    - symmetry. apply mem_In, RN', RR, RN, mem_In. exact E.
    - destruct (mem x N') eqn:E'; auto. apply mem_In, RN', RR, RN, mem_In in E'. congruence. }
  assert (NB : forall x, mem x N = true -> jsame (body x) (body' x)).
  { intros x E. apply HB, RN, mem_In. exact E. }
  destruct H as [(n & E & Hi & -> & Hd)|(Hn & -> & Hd)], H' as [(n' & E' & Hi' & -> & Hd')|(Hn' & -> & Hd')].
  - assert (n = n') by (apply local_inj; congruence). subst n'. destruct (HR n E) as [-> ->].
    split; [apply HB; constructor; simpl; auto|].
    intros x. rewrite Hd, Hd', MM. destruct (String.eqb x n); [constructor|].
    destruct (mem x N') eqn:X; constructor. apply NB. rewrite MM. exact X.
  - exfalso. destruct (Hn' n E) as (d & Rd & I). destruct (HR n E) as [-> ->]. apply (Hi d); [apply RR; exact Rd|].
    eapply Permutation_in; [apply Permutation_sym, HG|exact I].
  - exfalso. destruct (Hn n' E') as (d & Rd & I). destruct (HR n' E') as [-> ->]. apply (Hi' d); [apply RR; exact Rd|].
    eapply Permutation_in; [apply HG|exact I].
  - split; auto. intros x. rewrite Hd, Hd', MM. destruct (mem x N') eqn:X; constructor. apply NB. rewrite MM. exact X.
Qed.

Lemma order30 o o' cs cs' : osame o o' -> same_comps30 cs cs' ->
  same_result (to_json_schema30 o cs) (to_json_schema30 o' cs').
Proof.
  intros S C. unfold same_result.
  destruct (to_json_schema30 o cs) as [[js defs]| |] eqn:E.
  - destruct (to_json_schema30 o' cs') as [[js' defs']| |] eqn:E'.
    + assert (ER : match o with ORef r => Some r | _ => None end = match o' with ORef r => Some r | _ => None end)
        by (destruct S; reflexivity).
      apply toj30_result in E as (N & D & R & H). apply toj30_result in E' as (N' & D' & R' & H').
      eapply results_same with (G := G30 cs) (G' := G30 cs') (body := body30 cs) (body' := body30 cs') (root := root30 o) (js0 := conv o) (js0' := conv o').
      * intros d. apply osame_refs, comp30_same. exact C.
      * intros d _. apply osame_conv, comp30_same. exact C.
      * apply osame_refs. exact S.
      * apply osame_conv. exact S.
      * intros n En. destruct S; try discriminate. cbn [root30] in En. assert (r = local n) by congruence. subst r.
        cbn [orefs]. rewrite ref_names_local. auto.
      * exact R.
      * exact R'.
      * destruct H as [(n & -> & H)|(H1 & H2)]; [left|right].
        -- exists n. auto.
        -- split; auto. intros n En. apply H1. destruct o; try discriminate. cbn [root30] in En. congruence.
      * destruct H' as [(n & -> & H')|(H1 & H2)]; [left|right].
        -- exists n. inversion S; subst. auto.
        -- split; auto. intros n En. apply H1. destruct S; try discriminate. cbn [root30] in En. congruence.
    + apply toj30_panic in E' as (-> & n & M). inversion C; subst.
      assert (X : to_json_schema30 o None = Panic); [|congruence].
      apply toj30_panic. split; auto. exists n. apply orefs_mentions. apply orefs_mentions in M.
      eapply Permutation_in; [apply Permutation_sym, osame_refs; exact S|exact M].
    + destruct (toj30_fuel (enough cs') o' cs' (le_n _)) as [X _]. apply X. exact E'.
  - apply toj30_panic in E as (-> & n & M). inversion C; subst.
    assert (X : to_json_schema30 o' None = Panic); [|rewrite X; exact I].
    apply toj30_panic. split; auto. exists n. apply orefs_mentions. apply orefs_mentions in M.
    eapply Permutation_in; [apply osame_refs; exact S|exact M].
  - destruct (toj30_fuel (enough cs) o cs (le_n _)) as [X _]. apply X. exact E.
Qed.

Lemma jsame_refl s : jsame s s.
Proof.
  induction s as [|b|a r nt al on an it tu pr ad ot Hnt Hal Hon Han Hit Htu Hpr Had _] using jsob_ind'; [constructor|constructor|].
  assert (FF : forall l, Forall (fun x => jsame x x) l -> Forall2 jsame l l) by (induction 1; constructor; auto).
  constructor; auto.
  - destruct nt; constructor; auto.
  - destruct it; constructor; auto.
  - exists pr. split; auto. clear - Hpr. induction Hpr; constructor; auto.
  - destruct ad; constructor; auto.
Qed.

Section Order31.
  Variables (nil_map : option jsob).
  Hypothesis nil_ok : forall s, nil_map = Some s -> jrefs s = [].

  Lemma comp31_same cs cs' d : same_comps31 cs cs' -> perm_opt jsame (comp31 nil_map cs d) (comp31 nil_map cs' d).
  Proof.
    intros H. unfold comp31. destruct H as [|m m' H]; [constructor|].
    destruct (H d); auto. destruct nil_map; constructor. apply jsame_refl.
  Qed.

  Lemma G31_same cs cs' d : same_comps31 cs cs' -> Permutation (G31 nil_map cs d) (G31 nil_map cs' d).
  Proof.
    intros H. apply (comp31_same _ _ d) in H. unfold G31. destruct H; [constructor|]. apply jsame_refs. auto.
  Qed.

  Lemma panic_same s s' cs cs' : jsame s s' -> same_comps31 cs cs' ->
    to_json_schema31 nil_map s cs = Panic -> to_json_schema31 nil_map s' cs' = Panic.
  Proof.
    intros S C E. apply (toj31_panic nil_map cs nil_ok) in E as (x & R & B). apply (toj31_panic nil_map cs' nil_ok).
    exists x. split.
    - eapply reach_perm; [| |exact R].
      + intros y. apply Permutation_in, jsame_refs. exact S.
      + intros d y. apply Permutation_in, G31_same. exact C.
    - pose proof (comp31_same _ _ x C) as P. rewrite B in P. inversion P. reflexivity.
  Qed.
End Order31.

(* jsame and same_comps31 are symmetric. *)
Lemma Forall2_sym_in {A} (R : A -> A -> Prop) l l' :
  Forall2 R l l' -> (forall x y, In x l -> R x y -> R y x) -> Forall2 R l' l.
Proof.
  induction 1; intros H'; constructor; [apply H'; simpl; auto|]. apply IHForall2. intros. apply H'; simpl; auto.
Qed.

Lemma perm_opt_sym {A} (R : A -> A -> Prop) x x' :
  perm_opt R x x' -> (forall s t, x = Some s -> R s t -> R t s) -> perm_opt R x' x.
Proof. destruct 1; intros H'; constructor; auto. Qed.

Lemma Forall2_perm {A C} (R : A -> C -> Prop) l l' : Forall2 R l l' -> forall m', Permutation l' m' ->
  exists m, Permutation l m /\ Forall2 R m m'.
Proof.
  intros F m' P. revert l F. induction P as [|x l1 l2 P IH|x y l1|l1 l2 l3 P1 IH1 P2 IH2]; intros l F.
  - inversion F; subst. exists []. split; constructor.
  - inversion F as [|a b la lb Rab Fab]; subst. destruct (IH la Fab) as (m & Pm & Fm). exists (a :: m). split; constructor; auto.
  - inversion F as [|a b la lb Rab Fab]; subst. inversion Fab as [|a2 b2 la2 lb2 Rab2 Fab2]; subst.
    exists (a2 :: a :: la2). split; [apply perm_swap|]. constructor; auto.
  - destruct (IH1 l F) as (m & Pm & Fm). destruct (IH2 m Fm) as (m2 & Pm2 & Fm2). exists m2. split; auto.
    eapply Permutation_trans; eauto.
Qed.

Lemma same_entries_sym {A} (R : A -> A -> Prop) m m' :
  same_entries R m m' -> (forall k s t, In (k, s) m -> R s t -> R t s) -> same_entries R m' m.
Proof.
  intros (m1 & P & F) H.
  assert (F' : Forall2 (fun x y => fst x = fst y /\ R (snd x) (snd y)) m' m1).
  { assert (H1 : forall k s t, In (k, s) m1 -> R s t -> R t s).
    { intros k s t I. apply (H k). eapply Permutation_in; [apply Permutation_sym; exact P|exact I]. }
    clear - F H1. induction F as [|[k x] [k' y] l l' [E X] _ IH]; constructor.
    - cbn in *. split; auto. apply (H1 k); simpl; auto.
    - apply IH. intros k0 s t I. apply (H1 k0). simpl. auto. }
  destruct (Forall2_perm _ _ _ F' m (Permutation_sym P)) as (m2 & P2 & F2). exists m2. auto.
Qed.

Lemma jsame_sym s : forall s', jsame s s' -> jsame s' s.
Proof.
  induction s as [|b|a r nt al on an it tu pr ad ot Hnt Hal Hon Han Hit Htu Hpr Had _] using jsob_ind'; intros s' S.
  - inversion S; subst. constructor.
  - inversion S; subst. constructor.
  - inversion S as [| |? ? ? nt' ? al' ? on' ? an' ? it' ? tu' ? pr' ? ad' ? S1 S2 S3 S4 S5 S6 S7 S8]; subst.
    rewrite Forall_forall in *. constructor.
    + eapply perm_opt_sym; eauto.
    + eapply Forall2_sym_in; eauto.
    + eapply Forall2_sym_in; eauto.
    + eapply Forall2_sym_in; eauto.
    + eapply perm_opt_sym; eauto.
    + eapply Forall2_sym_in; eauto.
    + eapply same_entries_sym; eauto. intros k s t I. apply (Hpr (k, s) I).
    + eapply perm_opt_sym; eauto.
Qed.

Lemma same_comps31_sym cs cs' : same_comps31 cs cs' -> same_comps31 cs' cs.
Proof.
  intros H. destruct H as [|m m' H]; constructor. intros k. apply perm_opt_sym with (1 := H k).
  intros s t _ P. apply perm_opt_sym with (1 := P). intros x y _. apply jsame_sym.
Qed.

Lemma order31 nil_map s s' cs cs' : (forall s, nil_map = Some s -> jrefs s = []) ->
  jsame s s' -> same_comps31 cs cs' ->
  same_result (to_json_schema31 nil_map s cs) (to_json_schema31 nil_map s' cs').
Proof.
  intros nil_ok S C. unfold same_result.
  destruct (to_json_schema31 nil_map s cs) as [[js defs]| |] eqn:E.
  - destruct (to_json_schema31 nil_map s' cs') as [[js' defs']| |] eqn:E'.
    + apply (toj31_result _ _ nil_ok) in E as (N & D & R & B & H).
      apply (toj31_result _ _ nil_ok) in E' as (N' & D' & R' & B' & H').
      assert (ER : root31 s' = root31 s) by (destruct S; reflexivity). rewrite ER in H'.
      eapply results_same with (G := G31 nil_map cs) (G' := G31 nil_map cs') (body := body31 nil_map cs) (body' := body31 nil_map cs') (root := root31 s) (js0 := ens s) (js0' := ens s').
      * intros d. apply G31_same; auto.
      * intros d Rd. pose proof (comp31_same nil_map nil_ok _ _ d C) as P. unfold body31. destruct P; [constructor|auto].
      * apply jsame_refs. exact S.
      * destruct S; cbn [ens]; [apply jsame_refl|constructor|constructor; auto].
      * intros n En. destruct S; try discriminate. cbn [root31] in En. subst r.
        cbn [jrefs]. rewrite ref_names_local. auto.
      * exact R.
      * exact R'.
      * exact H.
      * exact H'.
    + apply (panic_same nil_map nil_ok s' s cs' cs) in E'; [congruence| |].
      * apply jsame_sym. exact S.
      * apply same_comps31_sym. exact C.
    + destruct (toj31_fuel nil_map cs' nil_ok (enough cs') s' (le_n _)) as [X _]. apply X. exact E'.
  - rewrite (panic_same nil_map nil_ok s s' cs cs' S C E). exact I.
  - destruct (toj31_fuel nil_map cs nil_ok (enough cs) s (le_n _)) as [X _]. apply X. exact E.
Qed.
