(* Lemmas about the conversion of schemas and the meaning of schemas. *)
From Coq Require Import Permutation Lia.
From Verif Require Import Str SMap Json SchemaModel SchemaSpec.

(* ------------------------------------------------------------------ *)
(* Induction                                                            *)

Section JInd.
  Variable P : jsob -> Prop.
  Hypothesis Hz : P JSZero.
  Hypothesis Hb : forall b, P (JSBool b).
  Hypothesis Ho : forall a r nt al on an it tu pr ad ot,
    (forall s, nt = Some s -> P s) -> Forall P al -> Forall P on -> Forall P an -> (forall s, it = Some s -> P s) ->
    Forall P tu -> Forall (fun kv => P (snd kv)) pr -> (forall s, ad = Some s -> P s) ->
    Forall (fun kv => P (snd kv)) ot -> P (JSObj a r nt al on an it tu pr ad ot).

  Fixpoint jsob_ind' (s : jsob) : P s.
  Proof.
    pose (lst := fix lst (l : list jsob) : Forall P l :=
            match l with [] => Forall_nil _ | x :: l' => Forall_cons x (jsob_ind' x) (lst l') end).
    pose (mp := fix mp (l : smap jsob) : Forall (fun kv => P (snd kv)) l :=
            match l with [] => Forall_nil _ | x :: l' => Forall_cons x (jsob_ind' (snd x)) (mp l') end).
    destruct s as [|b|a r nt al on an it tu pr ad ot].
    - exact Hz.
    - apply Hb.
    - apply Ho.
      + intros s E. destruct nt as [x|]; [|discriminate]. injection E as <-. exact (jsob_ind' x).
      + exact (lst al).
      + exact (lst on).
      + exact (lst an).
      + intros s E. destruct it as [x|]; [|discriminate]. injection E as <-. exact (jsob_ind' x).
      + exact (lst tu).
      + exact (mp pr).
      + intros s E. destruct ad as [x|]; [|discriminate]. injection E as <-. exact (jsob_ind' x).
      + exact (mp ot).
  Defined.
End JInd.

Section OInd.
  Variable P : osor -> Prop.
  Hypothesis Hn : P ONone.
  Hypothesis Hr : forall r, P (ORef r).
  Hypothesis Ho : forall a nt al on an it pr ad,
    (forall s, nt = Some s -> P s) -> Forall P al -> Forall P on -> Forall P an -> (forall s, it = Some s -> P s) ->
    Forall (fun kv => P (snd kv)) pr -> (forall b s, ad = Some (Addl b (Some s)) -> P s) ->
    P (OSch a nt al on an it pr ad).

  Fixpoint osor_ind' (s : osor) : P s.
  Proof.
    pose (lst := fix lst (l : list osor) : Forall P l :=
            match l with [] => Forall_nil _ | x :: l' => Forall_cons x (osor_ind' x) (lst l') end).
    pose (mp := fix mp (l : smap osor) : Forall (fun kv => P (snd kv)) l :=
            match l with [] => Forall_nil _ | x :: l' => Forall_cons x (osor_ind' (snd x)) (mp l') end).
    destruct s as [|r|a nt al on an it pr ad].
    - exact Hn.
    - apply Hr.
    - apply Ho.
      + intros s E. destruct nt as [x|]; [|discriminate]. injection E as <-. exact (osor_ind' x).
      + exact (lst al).
      + exact (lst on).
      + exact (lst an).
      + intros s E. destruct it as [x|]; [|discriminate]. injection E as <-. exact (osor_ind' x).
      + exact (mp pr).
      + intros b s E. destruct ad as [[b' [x|]]|]; try discriminate. injection E as _ <-. exact (osor_ind' x).
  Defined.
End OInd.

(* ------------------------------------------------------------------ *)
(* Small facts                                                          *)

Lemma all_opt_Some {A C} (f : A -> option C) l r : all_opt f l = Some r -> Forall2 (fun x y => f x = Some y) l r.
Proof.
  revert r. induction l as [|x l IH]; simpl; intros r H.
  - injection H as <-. constructor.
  - destruct (f x) eqn:E; [|discriminate]. destruct (all_opt f l) eqn:E2; [|discriminate].
    injection H as <-. constructor; auto.
Qed.

Lemma all_props_Some {A C} (f : A -> option C) l r :
  all_props f l = Some r -> Forall2 (fun x y => fst x = fst y /\ f (snd x) = Some (snd y)) l r.
Proof.
  revert r. induction l as [|[k x] l IH]; simpl; intros r H.
  - injection H as <-. constructor.
  - destruct (f x) eqn:E; [|discriminate]. destruct (all_props f l) eqn:E2; [|discriminate].
    injection H as <-. constructor; auto.
Qed.

Lemma opt_opt_Some {A C} (f : A -> option C) x r :
  opt_opt f x = Some r -> (x = None /\ r = None) \/ exists a b, x = Some a /\ r = Some b /\ f a = Some b.
Proof.
  destruct x as [a|]; simpl; intros H.
  - destruct (f a) eqn:E; [|discriminate]. injection H as <-. right. eauto.
  - injection H as <-. auto.
Qed.

Lemma all_opt_None {A C} (f : A -> option C) l : all_opt f l = None <-> exists x, In x l /\ f x = None.
Proof.
  induction l as [|x l IH]; simpl.
  - split; [discriminate|]. intros [x [[] _]].
  - destruct (f x) eqn:E.
    + destruct (all_opt f l).
      * split; [discriminate|]. intros (y & [->| I] & F); [congruence|].
        assert (Some l0 = None) by (apply IH; eauto). discriminate.
      * split; auto. intros _. destruct IH as [IH _]. destruct IH as (y & I & F); auto. eauto.
    + split; auto. intros _. eauto.
Qed.

Lemma all_props_None {A C} (f : A -> option C) l : all_props f l = None <-> exists k x, In (k, x) l /\ f x = None.
Proof.
  induction l as [|[k x] l IH]; simpl.
  - split; [discriminate|]. intros [k [x [[] _]]].
  - destruct (f x) eqn:E.
    + destruct (all_props f l).
      * split; [discriminate|]. intros (k' & y & [H|I] & F); [congruence|].
        assert (Some s = None) by (apply IH; eauto). discriminate.
      * split; auto. intros _. destruct IH as [IH _]. destruct IH as (k' & y & I & F); eauto.
    + split; auto. intros _. eauto.
Qed.

Lemma opt_opt_None {A C} (f : A -> option C) x : opt_opt f x = None <-> exists a, x = Some a /\ f a = None.
Proof.
  destruct x as [a|]; simpl.
  - destruct (f a) eqn:E; split; eauto; try discriminate. intros (b & H & F). congruence.
  - split; [discriminate|]. intros (b & H & F). discriminate.
Qed.

(* ------------------------------------------------------------------ *)
(* FromJSONSchema panics exactly at a zero SchemaOrBool                  *)

(* What is stored for additionalProperties. *)
Definition from_addl (ad : option jsob) : option (option (addl osor)) :=
  match ad with
  | None => Some None
  | Some (JSBool b) => Some (Some (Addl (Some b) None))
  | Some x => match from_js x with Some y => Some (Some (Addl None (Some y))) | None => None end
  end.

Lemma from_js_obj a nt al on an it tu pr ad ot :
  from_js (JSObj a None nt al on an it tu pr ad ot) =
  match opt_opt from_js nt, all_opt from_js on, all_opt from_js an, all_opt from_js al,
        from_addl ad, opt_opt from_js it, all_props from_js pr with
  | Some nt, Some on, Some an, Some al, Some ad, Some it, Some pr => Some (OSch (from_attrs a) nt al on an it pr ad)
  | _, _, _, _, _, _, _ => None
  end.
Proof.
  cbn [from_js]. unfold from_addl.
  destruct (opt_opt from_js nt), (all_opt from_js on), (all_opt from_js an), (all_opt from_js al); reflexivity.
Qed.

Lemma from_addl_None ad : from_addl ad = None <-> exists s, ad = Some s /\ from_js s = None.
Proof.
  destruct ad as [[|b|a r nt al on an it tu pr ad ot]|]; unfold from_addl.
  - split; eauto.
  - split; [discriminate|]. intros (s & H & F). injection H as <-. discriminate.
  - destruct (from_js _) eqn:E; split; eauto; try discriminate. intros (s & H & F). injection H as <-. congruence.
  - split; [discriminate|]. intros (s & H & F). discriminate.
Qed.

Lemma from_js_None s : from_js s = None <-> zero_met s.
Proof.
  split.
  - induction s as [|b|a r nt al on an it tu pr ad ot Hnt Hal Hon Han Hit _ Hpr Had _] using jsob_ind'.
    + constructor.
    + discriminate.
    + destruct r as [r|]; [discriminate|]. rewrite from_js_obj. intros H.
      rewrite Forall_forall in *.
      destruct (opt_opt from_js nt) eqn:E1.
      2:{ apply opt_opt_None in E1 as (x & -> & F). constructor. apply Hnt; auto. }
      destruct (all_opt from_js on) eqn:E2.
      2:{ apply all_opt_None in E2 as (x & I & F). eapply zm_one; eauto. }
      destruct (all_opt from_js an) eqn:E3.
      2:{ apply all_opt_None in E3 as (x & I & F). eapply zm_any; eauto. }
      destruct (all_opt from_js al) eqn:E4.
      2:{ apply all_opt_None in E4 as (x & I & F). eapply zm_all; eauto. }
      destruct (from_addl ad) eqn:E5.
      2:{ apply from_addl_None in E5 as (x & -> & F). constructor. apply Had; auto. }
      destruct (opt_opt from_js it) eqn:E6.
      2:{ apply opt_opt_None in E6 as (x & -> & F). constructor. apply Hit; auto. }
      destruct (all_props from_js pr) eqn:E7; [discriminate|].
      apply all_props_None in E7 as (k & x & I & F). eapply zm_prop; eauto. apply (Hpr (k, x)); auto.
  - induction 1; try reflexivity; rewrite from_js_obj.
    + rewrite (proj2 (opt_opt_None _ _)); eauto.
    + rewrite (proj2 (all_opt_None from_js al)); eauto.
      destruct (opt_opt from_js nt), (all_opt from_js on), (all_opt from_js an); reflexivity.
    + rewrite (proj2 (all_opt_None from_js on)); eauto.
      destruct (opt_opt from_js nt); reflexivity.
    + rewrite (proj2 (all_opt_None from_js an)); eauto.
      destruct (opt_opt from_js nt), (all_opt from_js on); reflexivity.
    + rewrite (proj2 (opt_opt_None from_js (Some s))); eauto.
      destruct (opt_opt from_js nt), (all_opt from_js on), (all_opt from_js an), (all_opt from_js al), (from_addl ad); reflexivity.
    + rewrite (proj2 (all_props_None from_js pr)); eauto.
      destruct (opt_opt from_js nt), (all_opt from_js on), (all_opt from_js an), (all_opt from_js al), (from_addl ad),
        (opt_opt from_js it); reflexivity.
    + rewrite (proj2 (from_addl_None (Some s))); eauto.
      destruct (opt_opt from_js nt), (all_opt from_js on), (all_opt from_js an), (all_opt from_js al); reflexivity.
Qed.

Lemma expressible_no_zero s : expressible s -> ~ zero_met s.
Proof.
  intros H Z. revert H. induction Z; intros H'; inversion H'; subst; eauto.
Qed.

(* ------------------------------------------------------------------ *)
(* Meaning under related schemas                                         *)

Lemma vall_F2 {A C} (R : A -> C -> Prop) (f : A -> option bool) (g : C -> option bool) l l' :
  Forall2 R l l' -> (forall x y, In x l -> R x y -> f x = g y) -> vall f l = vall g l'.
Proof.
  induction 1; simpl; intros H'; auto. rewrite (H' x y); auto. rewrite IHForall2; auto.
Qed.

Lemma vcount_F2 {A C} (R : A -> C -> Prop) (f : A -> option bool) (g : C -> option bool) l l' :
  Forall2 R l l' -> (forall x y, In x l -> R x y -> f x = g y) -> vcount f l = vcount g l'.
Proof.
  induction 1; simpl; intros H'; auto. rewrite (H' x y); auto. rewrite IHForall2; auto.
Qed.

Lemma vall_ext {A} (f g : A -> option bool) l : (forall x, In x l -> f x = g x) -> vall f l = vall g l.
Proof. induction l as [|x l IH]; simpl; intros H; auto. rewrite H, IH; auto. Qed.

Lemma none_F2 {A C} (R : A -> C -> Prop) l l' : Forall2 R l l' -> none l = none l'.
Proof. destruct 1; reflexivity. Qed.

Lemma vprops_F2 {S T} (f : S -> json -> option bool) (g : T -> json -> option bool) ps ps' m :
  Forall2 (fun x y => fst x = fst y /\ forall v, f (snd x) v = g (snd y) v) ps ps' ->
  vprops f ps m = vprops g ps' m.
Proof.
  intros H. unfold vprops. eapply vall_F2; [exact H|]. intros x y _ [E F]. apply vall_ext. intros kv _. rewrite E.
  destruct (String.eqb (fst y) (fst kv)); auto.
Qed.

Lemma has_F2 {S T} (R : string * S -> string * T -> Prop) ps ps' k :
  Forall2 (fun x y => fst x = fst y /\ R x y) ps ps' -> has k ps = has k ps'.
Proof.
  unfold has. induction 1 as [|[k1 x] [k2 y] l l' [E _] H IH]; simpl; auto. simpl in E. subst.
  destruct (String.eqb k k2); auto.
Qed.

Lemma vaddl_F2 {S T} (R : string * S -> string * T -> Prop) (f g : json -> option bool) ps ps' m :
  Forall2 (fun x y => fst x = fst y /\ R x y) ps ps' -> (forall v, f v = g v) -> vaddl f ps m = vaddl g ps' m.
Proof.
  intros H E. unfold vaddl. apply vall_ext. intros kv _. rewrite (has_F2 _ _ _ _ H), E. reflexivity.
Qed.

(* ------------------------------------------------------------------ *)
(* FromJSONSchema and attributes                                         *)

Lemma is_null_type t v : t <> "null" -> type_ok t v = true -> is_null v = false.
Proof.
  intros N H. destruct v; simpl in *; auto. apply String.eqb_eq in H. contradiction.
Qed.

Lemma type_null v : type_ok "null" v = is_null v.
Proof. destruct v; reflexivity. Qed.

Lemma mem_cons x y l : mem x (y :: l) = String.eqb x y || mem x l.
Proof. reflexivity. Qed.

Lemma from_many ts : forall t acc,
  (forall u, In u ts -> u = "null" \/ u = t) -> t <> "null" ->
  fst (fold_left (fun acc t => check_nullable t acc) ts acc) = (if mem t ts then Some t else fst acc) /\
  snd (fold_left (fun acc t => check_nullable t acc) ts acc) = (if mem "null" ts then Some true else snd acc).
Proof.
  induction ts as [|u ts IH]; intros t acc H N; [split; reflexivity|].
  assert (I : u = "null" \/ u = t) by (apply H; simpl; auto).
  assert (H' : forall u, In u ts -> u = "null" \/ u = t) by (intros; apply H; simpl; auto).
  cbn [fold_left]. rewrite !mem_cons.
  destruct (IH t (check_nullable u acc) H' N) as [B1 B2]. rewrite B1, B2. clear IH B1 B2. unfold check_nullable.
  assert (E : String.eqb t "null" = false) by (apply String.eqb_neq; auto).
  assert (E' : String.eqb "null" t = false) by (apply String.eqb_neq; auto).
  destruct I as [->| ->]; rewrite ?String.eqb_refl, ?E, ?E'; cbn [orb fst snd].
  - split; [reflexivity|]. destruct (mem "null" ts); reflexivity.
  - split; [|reflexivity]. destruct (mem t ts); reflexivity.
Qed.

Lemma mem_In x l : mem x l = true <-> In x l.
Proof.
  unfold mem. rewrite existsb_exists. split.
  - intros (y & I & E). apply String.eqb_eq in E. subst. auto.
  - intros I. exists x. rewrite String.eqb_refl. auto.
Qed.

Lemma from_type_ok t v :
  exp_type t -> otype_ok (fst (from_type t)) (snd (from_type t)) v = jtype_ok t v.
Proof.
  unfold otype_ok. destruct t as [|t|ts]; simpl; auto.
  - intros N. unfold check_nullable. destruct (String.eqb t "null") eqn:E; [apply String.eqb_eq in E; contradiction|].
    simpl. rewrite orb_false_r. reflexivity.
  - intros (t & N & I & H).
    destruct (from_many ts t (None, None) H N) as [A B]. rewrite A, B.
    rewrite (proj2 (mem_In t ts) I). simpl.
    destruct (mem "null" ts) eqn:E; simpl.
    + apply mem_In in E. destruct (type_ok t v || is_null v) eqn:T.
      * symmetry. apply existsb_exists. apply orb_true_iff in T as [T|T]; eauto.
      * symmetry. apply not_true_iff_false. intros X. apply existsb_exists in X as (u & Iu & Tu).
        apply orb_false_iff in T as [T1 T2]. destruct (H u Iu) as [->| ->]; [rewrite type_null in Tu|]; congruence.
    + rewrite orb_false_r. destruct (type_ok t v) eqn:T.
      * symmetry. apply existsb_exists. eauto.
      * symmetry. apply not_true_iff_false. intros X. apply existsb_exists in X as (u & Iu & Tu).
        destruct (H u Iu) as [->| ->]; [|congruence]. apply mem_In in Iu. congruence.
Qed.

Lemma Qle_bool_compat_r q m e : (m == e)%Q -> Qle_bool q m = Qle_bool q e.
Proof.
  intros E. destruct (Qle_bool q e) eqn:B.
  - apply Qle_bool_iff. rewrite E. apply Qle_bool_iff. auto.
  - apply not_true_iff_false. intros X. apply Qle_bool_iff in X. rewrite E in X. apply Qle_bool_iff in X. congruence.
Qed.
Lemma Qle_bool_compat_l q m e : (m == e)%Q -> Qle_bool m q = Qle_bool e q.
Proof.
  intros E. destruct (Qle_bool e q) eqn:B.
  - apply Qle_bool_iff. rewrite E. apply Qle_bool_iff. auto.
  - apply not_true_iff_false. intros X. apply Qle_bool_iff in X. rewrite E in X. apply Qle_bool_iff in X. congruence.
Qed.

Lemma Qlt_bool_iff x y : Qlt_bool x y = true <-> (x < y)%Q.
Proof.
  unfold Qlt_bool. rewrite negb_true_iff. split.
  - intros H. apply Qnot_le_lt. intros L. apply Qle_bool_iff in L. congruence.
  - intros H. apply not_true_iff_false. intros L. apply Qle_bool_iff in L. apply (Qlt_not_le _ _ H L).
Qed.

Lemma lt_and_le x y : Qlt_bool x y = Qle_bool x y && Qlt_bool x y.
Proof.
  destruct (Qlt_bool x y) eqn:E; [|rewrite andb_false_r; reflexivity].
  apply Qlt_bool_iff in E. rewrite (proj2 (Qle_bool_iff x y) (Qlt_le_weak _ _ E)). reflexivity.
Qed.

Lemma from_max_ok mx ex q :
  exp_bound mx ex ->
  if_set mx (fun m => if is_true (match ex with Some _ => Some true | None => None end) then Qlt_bool q m else Qle_bool q m)
  = if_set mx (fun m => Qle_bool q m) && if_set ex (fun m => Qlt_bool q m).
Proof.
  intros H. destruct ex as [e|]; simpl in *.
  - destruct H as (m & -> & E). simpl. rewrite lt_and_le. f_equal. unfold Qlt_bool. f_equal.
    apply Qle_bool_compat_l. auto.
  - destruct mx; simpl; rewrite ?andb_true_r; reflexivity.
Qed.
Lemma from_min_ok mn ex q :
  exp_bound mn ex ->
  if_set mn (fun m => if is_true (match ex with Some _ => Some true | None => None end) then Qlt_bool m q else Qle_bool m q)
  = if_set mn (fun m => Qle_bool m q) && if_set ex (fun m => Qlt_bool m q).
Proof.
  intros H. destruct ex as [e|]; simpl in *.
  - destruct H as (m & -> & E). simpl. rewrite lt_and_le. f_equal. unfold Qlt_bool. f_equal.
    apply Qle_bool_compat_r. auto.
  - destruct mn; simpl; rewrite ?andb_true_r; reflexivity.
Qed.

Lemma non_zero_ok z : match non_zero z with Some x => x | None => 0%Z end = z.
Proof. unfold non_zero. destruct (Z.eqb_spec z 0); auto. Qed.

Lemma from_attrs_ok O a v : exp_attrs a -> oattrs_ok O (from_attrs a) v = jattrs_ok O a v.
Proof.
  intros (T & M & N & _). unfold oattrs_ok, jattrs_ok, from_attrs.
  rewrite <- (from_type_ok _ v T). destruct (from_type (ja_type a)) as [ty nu]. cbn.
  rewrite !non_zero_ok. f_equal. f_equal.
  destruct v; simpl; auto. rewrite from_max_ok, from_min_ok, andb_assoc; auto.
Qed.

(* ------------------------------------------------------------------ *)
(* FromJSONSchema keeps the meaning                                      *)

Lemma zero_le_nat n : (0 <=? Z.of_nat n)%Z = true.
Proof. apply Z.leb_le. lia. Qed.

Lemma oa0_ok O v : oattrs_ok O oa0 v = true.
Proof. destruct v; unfold oattrs_ok, common, size; cbn -[Z.leb Z.of_nat]; rewrite ?zero_le_nat; reflexivity. Qed.

Lemma ja0_ok O v : jattrs_ok O ja0 v = true.
Proof. destruct v; unfold jattrs_ok, common, size; cbn -[Z.leb Z.of_nat]; rewrite ?zero_le_nat; reflexivity. Qed.

Lemma attrs_only O rs a v : omeaning O rs (sch0 a) v = Some (oattrs_ok O a v).
Proof. unfold sch0. cbn. rewrite andb_true_r. reflexivity. Qed.

Lemma from_bool_meaning O rs b v : omeaning O rs (from_bool b) v = Some b.
Proof.
  destruct b; unfold from_bool.
  - rewrite attrs_only, oa0_ok. reflexivity.
  - cbn. rewrite oa0_ok. reflexivity.
Qed.

Lemma vaddl_const {S} b (ps : smap S) m :
  vaddl (fun _ => Some b) ps m = Some (forallb (fun kv => has (fst kv) ps || b) m).
Proof.
  unfold vaddl. induction m as [|kv m IH]; [reflexivity|]. cbn [vall forallb]. rewrite IH.
  destruct (has (fst kv) ps); reflexivity.
Qed.

Lemma from_meaning O rs s : expressible s -> forall o, from_js s = Some o ->
  forall v, omeaning O rs o v = jmeaning O rs s v.
Proof.
  induction s as [|b|a r nt al on an it tu pr ad ot Hnt Hal Hon Han Hit _ Hpr Had _] using jsob_ind';
    intros X o H v.
  - discriminate.
  - injection H as <-. apply from_bool_meaning.
  - destruct r as [r|].
    + cbn [from_js] in H. injection H as <-. destruct (is_true (ja_deprecated a)); cbn [jmeaning].
      * unfold with_allof_deprecated. cbn. rewrite oa0_ok.
        replace (oattrs_ok O _ v) with true; [|symmetry; apply oa0_ok].
        cbn. destruct (rs r v) as [b|]; cbn; [rewrite !andb_true_r|]; reflexivity.
      * reflexivity.
    + inversion X as [| |? ? ? ? ? ? ? ? EA X1 X2 X3 X4 X5 X6 X7]; subst.
      rewrite from_js_obj in H.
      destruct (opt_opt from_js nt) as [nt'|] eqn:E1; [|discriminate].
      destruct (all_opt from_js on) as [on'|] eqn:E2; [|discriminate].
      destruct (all_opt from_js an) as [an'|] eqn:E3; [|discriminate].
      destruct (all_opt from_js al) as [al'|] eqn:E4; [|discriminate].
      destruct (from_addl ad) as [ad'|] eqn:E5; [|discriminate].
      destruct (opt_opt from_js it) as [it'|] eqn:E6; [|discriminate].
      destruct (all_props from_js pr) as [pr'|] eqn:E7; [|discriminate].
      injection H as <-. cbn [omeaning jmeaning].
      rewrite (proj2 (proj2 (proj2 EA))). cbn [none andb negb].
      rewrite Forall_forall in Hal, Hon, Han, Hpr.
      rewrite from_attrs_ok by exact EA. f_equal.
      apply all_opt_Some in E2, E3, E4. apply all_props_Some in E7.
      assert (P7 : Forall2 (fun x y => fst x = fst y /\ forall v, jmeaning O rs (snd x) v = omeaning O rs (snd y) v) pr pr').
      { clear - E7 Hpr X6. induction E7 as [|x y l l' [E F] _ IH]; constructor.
        - split; auto. intros v. symmetry. apply Hpr; simpl; auto. destruct x as [k x]. apply (X6 k). simpl. auto.
        - apply IH; intros; [apply Hpr|eapply X6]; simpl; eauto. }
      f_equal; [|f_equal; [|f_equal; [|f_equal; [|f_equal; [|f_equal]]]]].
      * apply opt_opt_Some in E1 as [[-> ->]|(x & y & -> & -> & F)]; [reflexivity|]. cbn [vopt]. f_equal. apply Hnt; auto.
      * symmetry. eapply vall_F2; [exact E4|]. intros x y I F. symmetry. apply Hal; auto.
      * rewrite (none_F2 _ _ _ E2). f_equal. symmetry. eapply vcount_F2; [exact E2|]. intros x y I F. symmetry. apply Hon; auto.
      * rewrite (none_F2 _ _ _ E3). f_equal. symmetry. eapply vcount_F2; [exact E3|]. intros x y I F. symmetry. apply Han; auto.
      * apply opt_opt_Some in E6 as [[-> ->]|(x & y & -> & -> & F)]; [reflexivity|]. cbn [vopt].
        apply vall_ext. intros e _. apply Hit; auto.
      * symmetry. apply vprops_F2. exact P7.
      * destruct ad as [s|]; [|injection E5 as <-; reflexivity]. cbn [vopt].
        assert (G : forall y, from_js s = Some y ->
                  vaddl (fun x => omeaning O rs y x) pr' (members v) = vaddl (fun x => jmeaning O rs s x) pr (members v)).
        { intros y F. symmetry. eapply vaddl_F2; [exact P7|]. intros e. symmetry. apply Had; auto. }
        destruct s as [|b|]; unfold from_addl in E5.
        -- discriminate.
        -- injection E5 as <-. symmetry. eapply vaddl_F2; [exact P7|]. reflexivity.
        -- destruct (from_js _) as [y|] eqn:F; [|discriminate]. injection E5 as <-. apply G. reflexivity.
Qed.

(* ------------------------------------------------------------------ *)
(* Defined meanings stay when references mean more                        *)

Definition ole {A : Type} (x y : option A) : Prop := forall a, x = Some a -> y = Some a.

Lemma ole_refl {A} (x : option A) : ole x x.
Proof. intros a H. exact H. Qed.

Lemma ole_anti {A} (x y : option A) : ole x y -> ole y x -> x = y.
Proof.
  intros H1 H2. destruct x as [a|].
  - symmetry. apply H1. reflexivity.
  - destruct y as [b|]; [apply H2|]; reflexivity.
Qed.

Lemma vand_mono x x' y y' : ole x x' -> ole y y' -> ole (vand x y) (vand x' y').
Proof.
  intros Hx Hy r H. destruct x as [a|], y as [b|]; try discriminate. rewrite (Hx a), (Hy b); auto.
Qed.

Lemma vnot_mono x x' : ole x x' -> ole (vnot x) (vnot x').
Proof. intros Hx r H. destruct x as [a|]; try discriminate. rewrite (Hx a); auto. Qed.

Lemma vall_cons {A} (f : A -> option bool) x l : vall f (x :: l) = vand (f x) (vall f l).
Proof. reflexivity. Qed.

Lemma vall_mono {A} (f g : A -> option bool) l : (forall x, In x l -> ole (f x) (g x)) -> ole (vall f l) (vall g l).
Proof.
  induction l as [|x l IH]; intros H.
  - apply ole_refl.
  - rewrite !vall_cons. apply vand_mono; [apply H; simpl; auto|]. apply IH. intros y I. apply H. simpl. auto.
Qed.

Lemma vcount_cons {A} (f : A -> option bool) x l :
  vcount f (x :: l) = match f x, vcount f l with Some a, Some n => Some (if a then S n else n) | _, _ => None end.
Proof. reflexivity. Qed.

Lemma vcount_mono {A} (f g : A -> option bool) l : (forall x, In x l -> ole (f x) (g x)) -> ole (vcount f l) (vcount g l).
Proof.
  induction l as [|x l IH]; intros H.
  - apply ole_refl.
  - rewrite !vcount_cons. intros r E. destruct (f x) as [a|] eqn:F; [|discriminate].
    destruct (vcount f l) as [b|] eqn:V; [|discriminate].
    rewrite (H x (or_introl eq_refl) a F).
    rewrite (IH (fun y I => H y (or_intror I)) b eq_refl). exact E.
Qed.

Lemma vopt_mono {A} (f g : A -> option bool) x : (forall a, x = Some a -> ole (f a) (g a)) -> ole (vopt f x) (vopt g x).
Proof. destruct x; intros H; [apply H; auto|apply ole_refl]. Qed.

Lemma vone_mono n n' l : ole n n' -> ole (vone n l) (vone n' l).
Proof. intros H r E. destruct n as [a|]; [|discriminate]. rewrite (H a); auto. Qed.
Lemma vany_mono n n' l : ole n n' -> ole (vany n l) (vany n' l).
Proof. intros H r E. destruct n as [a|]; [|discriminate]. rewrite (H a); auto. Qed.

Lemma vprops_mono {S} (f g : S -> json -> option bool) ps m :
  (forall k s, In (k, s) ps -> forall v, ole (f s v) (g s v)) -> ole (vprops f ps m) (vprops g ps m).
Proof.
  intros H. apply vall_mono. intros [k s] I. apply vall_mono. intros kv _. cbn [fst snd].
  destruct (String.eqb k (fst kv)); [eapply H; eauto | apply ole_refl].
Qed.

Lemma vaddl_mono {S} (f g : json -> option bool) (ps : smap S) m :
  (forall v, ole (f v) (g v)) -> ole (vaddl f ps m) (vaddl g ps m).
Proof.
  intros H. apply vall_mono. intros kv _. destruct (has (fst kv) ps); [apply ole_refl | apply H].
Qed.

Lemma jmeaning_mono O rs rs' s : (forall r v, ole (rs r v) (rs' r v)) ->
  forall v, ole (jmeaning O rs s v) (jmeaning O rs' s v).
Proof.
  intros HR. induction s as [|b|a r nt al on an it tu pr ad ot Hnt Hal Hon Han Hit _ Hpr Had _] using jsob_ind'; intros v.
  - apply ole_refl.
  - apply ole_refl.
  - destruct r as [r|]; [apply HR|]. cbn [jmeaning].
    destruct (negb _); [apply ole_refl|]. rewrite Forall_forall in Hal, Hon, Han, Hpr.
    repeat apply vand_mono.
    + apply ole_refl.
    + apply vopt_mono. intros s E. apply vnot_mono. auto.
    + apply vall_mono. auto.
    + apply vone_mono, vcount_mono. auto.
    + apply vany_mono, vcount_mono. auto.
    + apply vopt_mono. intros s E. apply vall_mono. auto.
    + apply vprops_mono. intros k s I. apply (Hpr (k, s) I).
    + apply vopt_mono. intros s E. apply vaddl_mono. auto.
Qed.

Lemma omeaning_mono O rs rs' s : (forall r v, ole (rs r v) (rs' r v)) ->
  forall v, ole (omeaning O rs s v) (omeaning O rs' s v).
Proof.
  intros HR. induction s as [|r|a nt al on an it pr ad Hnt Hal Hon Han Hit Hpr Had] using osor_ind'; intros v.
  - apply ole_refl.
  - apply HR.
  - cbn [omeaning]. rewrite Forall_forall in Hal, Hon, Han, Hpr.
    repeat apply vand_mono.
    + apply ole_refl.
    + apply vopt_mono. intros s E. apply vnot_mono. auto.
    + apply vall_mono. auto.
    + apply vone_mono, vcount_mono. auto.
    + apply vany_mono, vcount_mono. auto.
    + apply vopt_mono. intros s E. apply vall_mono. auto.
    + apply vprops_mono. intros k s I. apply (Hpr (k, s) I).
    + destruct ad as [[[b|] [s|]]|]; try apply ole_refl. apply vaddl_mono. intros x. eapply Had; eauto.
Qed.

Lemma omeaning_ext O rs rs' s v : (forall r v, rs r v = rs' r v) -> omeaning O rs s v = omeaning O rs' s v.
Proof. intros H. apply ole_anti; apply omeaning_mono; intros r w; rewrite H; apply ole_refl. Qed.

(* Following more references. *)
Lemma jfollow_more O env n : forall m r v, n <= m ->
  ole (follow (jmeaning O) O env n r v) (follow (jmeaning O) O env m r v).
Proof.
  induction n as [|n IH]; intros m r v L.
  - destruct m; cbn [follow]; change schemas_at with components_schemas; [apply ole_refl|]. destruct (has_prefix components_schemas r); [|apply ole_refl].
    intros a H. discriminate.
  - destruct m as [|m]; [lia|]. cbn [follow]; change schemas_at with components_schemas. destruct (has_prefix components_schemas r); [|apply ole_refl].
    destruct (env _) as [s|]; [|apply ole_refl]. apply jmeaning_mono. intros r' v'. apply IH. lia.
Qed.

Lemma ofollow_more O env n : forall m r v, n <= m ->
  ole (follow (omeaning O) O env n r v) (follow (omeaning O) O env m r v).
Proof.
  induction n as [|n IH]; intros m r v L.
  - destruct m; cbn [follow]; change schemas_at with components_schemas; [apply ole_refl|]. destruct (has_prefix components_schemas r); [|apply ole_refl].
    intros a H. discriminate.
  - destruct m as [|m]; [lia|]. cbn [follow]; change schemas_at with components_schemas. destruct (has_prefix components_schemas r); [|apply ole_refl].
    destruct (env _) as [s|]; [|apply ole_refl]. apply omeaning_mono. intros r' v'. apply IH. lia.
Qed.

Lemma jsays_fun O env s v b b' : jsays O env s v b -> jsays O env s v b' -> b = b'.
Proof.
  intros [n H] [m H']. assert (E : forall k, n <= k -> m <= k -> b = b').
  - intros k L1 L2. eapply jmeaning_mono in H; [|intros; apply jfollow_more; exact L1].
    eapply jmeaning_mono in H'; [|intros; apply jfollow_more; exact L2]. congruence.
  - apply (E (n + m)); lia.
Qed.

Lemma osays_fun O env s v b b' : osays O env s v b -> osays O env s v b' -> b = b'.
Proof.
  intros [n H] [m H']. assert (E : forall k, n <= k -> m <= k -> b = b').
  - intros k L1 L2. eapply omeaning_mono in H; [|intros; apply ofollow_more; exact L1].
    eapply omeaning_mono in H'; [|intros; apply ofollow_more; exact L2]. congruence.
  - apply (E (n + m)); lia.
Qed.

(* Definitions and their conversions. *)
Lemma from_follow O jenv oenv : converted jenv oenv -> forall n r v,
  follow (omeaning O) O oenv n r v = follow (jmeaning O) O jenv n r v.
Proof.
  intros C. induction n as [|n IH]; intros r v; cbn [follow]; change schemas_at with components_schemas.
  - reflexivity.
  - destruct (has_prefix components_schemas r); [|reflexivity].
    specialize (C (trim_prefix components_schemas r)). destruct (jenv _) as [s|].
    + destruct C as [X F]. destruct (oenv _) as [o|].
      * rewrite <- (from_meaning O _ s X o F). apply omeaning_ext. exact IH.
      * apply from_js_None in F. apply expressible_no_zero in X. contradiction.
    + rewrite C. reflexivity.
Qed.

Lemma from_keeps O jenv oenv s o : converted jenv oenv -> expressible s -> from_js s = Some o ->
  forall n v, omeaning O (follow (omeaning O) O oenv n) o v = jmeaning O (follow (jmeaning O) O jenv n) s v.
Proof.
  intros C X F n v. rewrite <- (from_meaning O _ s X o F). apply omeaning_ext. intros. apply from_follow. exact C.
Qed.

Lemma from_says O jenv oenv s : converted jenv oenv -> expressible s ->
  exists o, from_js s = Some o /\ forall v b, osays O oenv o v b <-> jsays O jenv s v b.
Proof.
  intros C X. destruct (from_js s) as [o|] eqn:F.
  - exists o. split; auto. intros v b. split; intros [n H]; exists n.
    + rewrite <- (from_keeps O jenv oenv s o); auto.
    + rewrite (from_keeps O jenv oenv s o); auto.
  - apply from_js_None in F. apply expressible_no_zero in X. contradiction.
Qed.

(* ------------------------------------------------------------------ *)
(* Exclusive bounds                                                      *)

Lemma jattr_meaning O rs a v : ja_more a = [] -> jmeaning O rs (jattr_schema a) v = Some (jattrs_ok O a v).
Proof. intros E. unfold jattr_schema. cbn [jmeaning]. rewrite E. cbn. rewrite andb_true_r. reflexivity. Qed.

Lemma max_kept_iff O rs mx e :
  (forall q, omeaning O rs (sch0 (from_attrs (max_attrs mx (Some e)))) (JNum q)
             = jmeaning O rs (jattr_schema (max_attrs mx (Some e))) (JNum q))
  <-> exp_bound mx (Some e).
Proof.
  split.
  - intros H. unfold exp_bound.
    assert (G : forall q, if_set mx (fun m => Qlt_bool q m) = if_set mx (fun m => Qle_bool q m) && Qlt_bool q e).
    { intros q. specialize (H q). rewrite attrs_only, jattr_meaning in H by reflexivity.
      injection H as H. unfold oattrs_ok, jattrs_ok, common in H. cbn in H. rewrite !andb_true_r in H. exact H. }
    clear H. destruct mx as [m|]; cbn [if_set] in G.
    + exists m. split; auto.
      destruct (Q_dec m e) as [[L|L]|L]; auto; exfalso.
      * specialize (G m). assert (A : Qlt_bool m m = false).
        { apply not_true_iff_false. intros X. apply Qlt_bool_iff in X. apply (Qlt_irrefl _ X). }
        rewrite A, (proj2 (Qlt_bool_iff m e) L) in G.
        rewrite (proj2 (Qle_bool_iff m m) (Qle_refl m)) in G. discriminate.
      * specialize (G e). rewrite (proj2 (Qlt_bool_iff e m) L) in G.
        assert (A : Qlt_bool e e = false).
        { apply not_true_iff_false. intros X. apply Qlt_bool_iff in X. apply (Qlt_irrefl _ X). }
        rewrite A, andb_false_r in G. discriminate.
    + exfalso. specialize (G e). assert (A : Qlt_bool e e = false).
      { apply not_true_iff_false. intros X. apply Qlt_bool_iff in X. apply (Qlt_irrefl _ X). }
      rewrite A in G. discriminate.
  - intros X q. rewrite attrs_only, jattr_meaning by reflexivity. f_equal. apply from_attrs_ok.
    repeat split; auto.
Qed.

Lemma min_kept_iff O rs mn e :
  (forall q, omeaning O rs (sch0 (from_attrs (min_attrs mn (Some e)))) (JNum q)
             = jmeaning O rs (jattr_schema (min_attrs mn (Some e))) (JNum q))
  <-> exp_bound mn (Some e).
Proof.
  split.
  - intros H. unfold exp_bound.
    assert (G : forall q, if_set mn (fun m => Qlt_bool m q) = if_set mn (fun m => Qle_bool m q) && Qlt_bool e q).
    { intros q. specialize (H q). rewrite attrs_only, jattr_meaning in H by reflexivity.
      injection H as H. unfold oattrs_ok, jattrs_ok, common in H. cbn in H. rewrite !andb_true_r in H. exact H. }
    clear H.
    assert (A : forall x, Qlt_bool x x = false).
    { intros x. apply not_true_iff_false. intros X. apply Qlt_bool_iff in X. apply (Qlt_irrefl _ X). }
    destruct mn as [m|]; cbn [if_set] in G.
    + exists m. split; auto.
      destruct (Q_dec m e) as [[L|L]|L]; auto; exfalso.
      * specialize (G e). rewrite (proj2 (Qlt_bool_iff m e) L), A, andb_false_r in G. discriminate.
      * specialize (G m). rewrite A, (proj2 (Qlt_bool_iff e m) L) in G.
        rewrite (proj2 (Qle_bool_iff m m) (Qle_refl m)) in G. discriminate.
    + exfalso. specialize (G e). rewrite A in G. discriminate.
  - intros X q. rewrite attrs_only, jattr_meaning by reflexivity. f_equal. apply from_attrs_ok.
    repeat split; auto.
Qed.

(* ------------------------------------------------------------------ *)
(* ToJSONSchema keeps the meaning                                        *)

Lemma to_type_ok t nu v :
  (is_true nu = true -> t <> None) ->
  let ty := match t with Some t => add_type t JTNone | None => JTNone end in
  jtype_ok (if is_true nu then add_type "null" ty else ty) v = otype_ok t nu v.
Proof.
  intros H. unfold otype_ok. destruct t as [t|]; cbn [if_set].
  - cbv zeta. cbn [add_type]. destruct (is_true nu).
    + cbn [add_type]. destruct (String.eqb t "null") eqn:E.
      * apply String.eqb_eq in E. subst. cbn [jtype_ok]. rewrite type_null. destruct (is_null v); reflexivity.
      * cbn [jtype_ok existsb]. rewrite type_null, orb_false_r. reflexivity.
    + cbn [jtype_ok]. rewrite orb_false_r. reflexivity.
  - destruct (is_true nu); [exfalso; apply H; auto | reflexivity].
Qed.

Lemma to_attrs_ok O a v :
  (is_true (oa_nullable a) = true -> oa_type a <> None) -> jattrs_ok O (to_attrs a) v = oattrs_ok O a v.
Proof.
  intros H. unfold oattrs_ok, jattrs_ok, to_attrs. cbn. rewrite to_type_ok by exact H. f_equal. f_equal.
  destruct v; cbn [on_num]; auto.
  destruct (is_true (oa_exmax a)), (is_true (oa_exmin a)), (oa_max a), (oa_min a); cbn [if_set];
    rewrite ?andb_true_r; reflexivity.
Qed.

Lemma Forall2_map {A C} (f : A -> C) (R : A -> C -> Prop) l : (forall x, In x l -> R x (f x)) -> Forall2 R l (map f l).
Proof. induction l; simpl; intros H; constructor; auto. Qed.

Lemma conv_meaning O rs o : nullable_typed o -> forall v, jmeaning O rs (conv o) v = omeaning O rs o v.
Proof.
  induction o as [|r|a nt al on an it pr ad Hnt Hal Hon Han Hit Hpr Had] using osor_ind'; intros X v.
  - cbn. rewrite ja0_ok. reflexivity.
  - reflexivity.
  - inversion X as [| |? ? ? ? ? ? ? ? X0 X1 X2 X3 X4 X5 X6 X7]; subst.
    cbn [conv jmeaning omeaning]. cbn [none andb negb ja_more to_attrs].
    rewrite to_attrs_ok by exact X0. rewrite Forall_forall in Hal, Hon, Han, Hpr.
    assert (P7 : Forall2 (fun x y => fst x = fst y /\ forall v, omeaning O rs (snd x) v = jmeaning O rs (snd y) v)
                   pr (map (fun kv => (fst kv, conv (snd kv))) pr)).
    { apply Forall2_map. intros [k s] I. split; auto. intros w. symmetry. apply (Hpr (k, s) I). eapply X6; eauto. }
    f_equal. f_equal; [|f_equal; [|f_equal; [|f_equal; [|f_equal; [|f_equal]]]]].
    + destruct nt as [s|]; [|reflexivity]. cbn [vopt option_map]. f_equal. auto.
    + symmetry. apply vall_F2 with (R := fun x y => y = conv x); [apply Forall2_map; auto|].
      intros x y I ->. symmetry. auto.
    + assert (F : Forall2 (fun x y => y = conv x) on (map conv on)) by (apply Forall2_map; auto).
      rewrite (none_F2 _ _ _ F). f_equal. symmetry. eapply vcount_F2; [exact F|].
      intros x y I ->. symmetry. auto.
    + assert (F : Forall2 (fun x y => y = conv x) an (map conv an)) by (apply Forall2_map; auto).
      rewrite (none_F2 _ _ _ F). f_equal. symmetry. eapply vcount_F2; [exact F|].
      intros x y I ->. symmetry. auto.
    + destruct it as [s|]; [|reflexivity]. cbn [vopt option_map]. apply vall_ext. auto.
    + symmetry. apply vprops_F2. exact P7.
    + destruct ad as [[[b|] [s|]]|]; cbn [vopt]; auto.
      * symmetry. eapply vaddl_F2; [exact P7|]. reflexivity.
      * symmetry. eapply vaddl_F2; [exact P7|]. reflexivity.
      * symmetry. eapply vaddl_F2; [exact P7|]. intros w. symmetry. eapply Had; eauto.
Qed.

(* ------------------------------------------------------------------ *)
(* There and back                                                        *)

Lemma norm_bound_fst m ex : fst (norm_bound m ex) = if is_true ex then None else m.
Proof. unfold norm_bound. destruct (is_true ex); reflexivity. Qed.
Lemma norm_bound_snd m ex :
  snd (norm_bound m ex) = match (if is_true ex then m else None) with Some _ => Some true | None => None end.
Proof. unfold norm_bound. destruct (is_true ex), m; reflexivity. Qed.
Lemma norm_min_eq z : norm_min z = non_zero (match z with Some z => z | None => 0%Z end).
Proof. destruct z as [[| |]|]; reflexivity. Qed.
Lemma example_eq {A} (e : option A) :
  match (match e with Some x => [x] | None => [] end) with x :: _ => Some x | [] => None end = e.
Proof. destruct e; reflexivity. Qed.

Lemma norm_type_eq t nu :
  from_type (let ty := match t with Some t => add_type t JTNone | None => JTNone end in
             if is_true nu then add_type "null" ty else ty) = norm_type t nu.
Proof.
  unfold norm_type. destruct (is_true nu), t as [t|]; cbn [orb]; try reflexivity.
  - cbn [add_type]. destruct (String.eqb t "null") eqn:E.
    + apply String.eqb_eq in E. subst. reflexivity.
    + cbn [from_type fold_left check_nullable]. unfold check_nullable. rewrite E. reflexivity.
  - cbn [add_type from_type]. unfold check_nullable. destruct (String.eqb t "null") eqn:E; reflexivity.
Qed.

Lemma from_to_attrs a : from_attrs (to_attrs a) = norm_attrs a.
Proof.
  unfold norm_attrs. rewrite !norm_bound_fst, !norm_bound_snd, !norm_min_eq, <- norm_type_eq.
  unfold from_attrs, to_attrs.
  cbn [ja_gotype ja_title ja_desc ja_type ja_multiple ja_max ja_exmax ja_min ja_exmin ja_maxlen ja_minlen ja_pattern
       ja_maxitems ja_minitems ja_unique ja_maxprops ja_minprops ja_required ja_enum ja_format ja_default ja_examples
       ja_readonly ja_writeonly ja_deprecated ja_extra ja_more].
  rewrite example_eq. destruct (from_type _) as [ty nu]. reflexivity.
Qed.

Lemma all_opt_map {A C D} (f : A -> C) (g : C -> option D) (h : A -> D) l :
  (forall x, In x l -> g (f x) = Some (h x)) -> all_opt g (map f l) = Some (map h l).
Proof.
  induction l as [|x l IH]; intros H; [reflexivity|]. cbn [map all_opt]. rewrite H by (simpl; auto).
  fold (all_opt g). rewrite IH; auto. intros y I. apply H. simpl. auto.
Qed.

Lemma all_props_map {A C D} (f : A -> C) (g : C -> option D) (h : A -> D) (l : smap A) :
  (forall k x, In (k, x) l -> g (f x) = Some (h x)) ->
  all_props g (map (fun kv => (fst kv, f (snd kv))) l) = Some (map (fun kv => (fst kv, h (snd kv))) l).
Proof.
  induction l as [|[k x] l IH]; intros H; [reflexivity|]. cbn [map all_props fst snd].
  rewrite (H k x) by (simpl; auto). fold (all_props g). rewrite IH; auto. intros k' y I. apply (H k' y). simpl. auto.
Qed.

Lemma from_conv o : from_js (conv o) = Some (norm o).
Proof.
  induction o as [|r|a nt al on an it pr ad Hnt Hal Hon Han Hit Hpr Had] using osor_ind'.
  - reflexivity.
  - reflexivity.
  - rewrite Forall_forall in Hal, Hon, Han, Hpr. cbn [conv]. rewrite from_js_obj, from_to_attrs.
    rewrite (all_opt_map conv from_js norm on), (all_opt_map conv from_js norm an), (all_opt_map conv from_js norm al) by auto.
    rewrite (all_props_map conv from_js norm pr) by (intros k x I; apply (Hpr (k, x) I)).
    replace (opt_opt from_js (option_map conv nt)) with (Some (option_map norm nt)).
    2:{ destruct nt as [s|]; [|reflexivity]. cbn. rewrite Hnt; auto. }
    replace (opt_opt from_js (option_map conv it)) with (Some (option_map norm it)).
    2:{ destruct it as [s|]; [|reflexivity]. cbn. rewrite Hit; auto. }
    cbn [norm]. destruct ad as [[[b|] [s|]]|]; cbn [from_addl]; auto.
    specialize (Had None s eq_refl). destruct s as [|r|]; cbn [conv] in *; rewrite Had; reflexivity.
Qed.

Lemma map_id_in {A} (f : A -> A) l : (forall x, In x l -> f x = x) -> map f l = l.
Proof. induction l; simpl; intros H; auto. rewrite H, IHl; auto. Qed.

Lemma filter_id {A} (f : A -> bool) l : (forall x, In x l -> f x = true) -> filter f l = l.
Proof. induction l; simpl; intros H; auto. rewrite H, IHl; auto. Qed.

Lemma norm_type_plain t nu : t <> Some "null" -> nu <> Some false -> norm_type t nu = (t, nu).
Proof.
  intros T N. unfold norm_type.
  assert (E : match t with Some t => String.eqb t "null" | None => false end = false).
  { destruct t as [t|]; auto. apply String.eqb_neq. congruence. }
  rewrite E. destruct t as [t|]; [rewrite E|]; destruct nu as [[|]|]; cbn; congruence.
Qed.

Lemma norm_min_plain z : z <> Some 0%Z -> norm_min z = z.
Proof. destruct z as [[| |]|]; cbn; congruence. Qed.

Lemma norm_attrs_plain a : plain_attrs a -> norm_attrs a = a.
Proof.
  intros (T & N & X1 & X2 & M1 & M2 & M3 & X & R). unfold norm_attrs.
  rewrite X1, X2, norm_type_plain, !norm_min_plain by auto.
  rewrite filter_id by (intros [k v] I; apply (X k v I)).
  destruct a. cbn in *. subst. reflexivity.
Qed.

Lemma norm_plain o : plain o -> norm o = o.
Proof.
  induction o as [|r|a nt al on an it pr ad Hnt Hal Hon Han Hit Hpr Had] using osor_ind'; intros X.
  - inversion X.
  - reflexivity.
  - inversion X as [|? ? ? ? ? ? ? ? X0 X1 X2 X3 X4 X5 X6 X7]; subst. rewrite Forall_forall in Hal, Hon, Han, Hpr.
    cbn [norm]. rewrite norm_attrs_plain by auto. rewrite !map_id_in; auto.
    + f_equal.
      * destruct nt as [s|]; cbn; auto. rewrite Hnt; auto.
      * destruct it as [s|]; cbn; auto. rewrite Hit; auto.
      * destruct X7 as [->|[(b & ->)|(s & -> & P)]]; auto. rewrite (Had None s); auto.
    + intros [k s] I. cbn. f_equal. apply (Hpr (k, s) I). eapply X6; eauto.
Qed.
