(* Proofs about FromJSONSchema on used receivers. *)
From Verif Require Import Str SMap Json SchemaModel ReuseModel ReuseSpec.

Lemma either_or {A} (new old : option A) : either new old (or_old new old).
Proof. destruct new; reflexivity. Qed.
Lemma either_or_list {A} (new old : list A) : either_list new old (or_old_list new old).
Proof. split; destruct new; cbn [or_old_list]; congruence. Qed.
Lemma or_old_twice {A} (new old : option A) : or_old new (or_old new old) = or_old new old.
Proof. destruct new; reflexivity. Qed.
Lemma or_old_list_twice {A} (new old : list A) : or_old_list new (or_old_list new old) = or_old_list new old.
Proof. destruct new; reflexivity. Qed.

(* ---------- types ---------- *)

Definition types_into (t : jtype) (acc : option string * option bool) : option string * option bool :=
  match t with
  | JTNone => acc
  | JTOne t => check_nullable t acc
  | JTMany ts => fold_left (fun acc t => check_nullable t acc) ts acc
  end.
Lemma nullable_over t a b : check_nullable t (or_old (fst a) (fst b), or_old (snd a) (snd b)) =
  (or_old (fst (check_nullable t a)) (fst b), or_old (snd (check_nullable t a)) (snd b)).
Proof. unfold check_nullable. destruct a as [x y]. cbn [fst snd]. destruct (String.eqb t "null"); reflexivity. Qed.
Lemma fold_over : forall ts a b, fold_left (fun acc t => check_nullable t acc) ts (or_old (fst a) (fst b), or_old (snd a) (snd b)) =
  (or_old (fst (fold_left (fun acc t => check_nullable t acc) ts a)) (fst b), or_old (snd (fold_left (fun acc t => check_nullable t acc) ts a)) (snd b)).
Proof. induction ts as [|t ts IH]; intros a b; [reflexivity|]. cbn [fold_left]. rewrite nullable_over. apply IH. Qed.
Lemma types_over t b : types_into t b = (or_old (fst (from_type t)) (fst b), or_old (snd (from_type t)) (snd b)).
Proof.
  destruct t as [|t|ts]; cbn [types_into from_type].
  - destruct b; reflexivity.
  - rewrite <- (nullable_over t (None, None) b). destruct b; reflexivity.
  - rewrite <- (fold_over ts (None, None) b). destruct b; reflexivity.
Qed.
Lemma types_into_split t x y : match t with
  | JTNone => (x, y) | JTOne t => check_nullable t (x, y) | JTMany ts => fold_left (fun acc t => check_nullable t acc) ts (x, y) end = types_into t (x, y).
Proof. destruct t; reflexivity. Qed.

(* ---------- extensions ---------- *)

Definition put_x (l : smap json) (m : smap json) : smap json :=
  fold_left (fun m kv => if has_prefix "x-" (fst kv) then put (fst kv) (snd kv) m else m) l m.
Lemma put_x_get : forall l m k, NoDup (keys l) ->
  either (get k (filter (fun kv => has_prefix "x-" (fst kv)) l)) (get k m) (get k (put_x l m)).
Proof.
  induction l as [|[k0 v0] l IH]; intros m k N; [reflexivity|]. cbn [keys map fst] in N. apply NoDup_cons_iff in N. destruct N as [N0 N].
  unfold put_x. cbn [fold_left filter fst snd]. destruct (has_prefix "x-" k0) eqn:E; [|exact (IH m k N)].
  specialize (IH (put k0 v0 m) k N). unfold put_x in IH. cbn [get]. destruct (String.eqb k k0) eqn:Ek.
  - apply String.eqb_eq in Ek. subst k0. assert (G : get k (filter (fun kv => has_prefix "x-" (fst kv)) l) = None).
    { clear -N0. induction l as [|[k1 v1] l IH]; [reflexivity|]. cbn [filter fst]. cbn [map fst In] in N0.
      destruct (has_prefix "x-" k1); [|apply IH; intuition]. cbn [get]. replace (String.eqb k k1) with false; [apply IH; intuition|]. symmetry. apply String.eqb_neq. intuition. }
    rewrite G in IH. cbn [either] in *. rewrite IH. apply get_put_same.
  - rewrite get_put_other in IH by (intros ->; rewrite String.eqb_refl in Ek; discriminate Ek). exact IH.
Qed.
Lemma put_known {A} k (v : A) : forall m, get k m = Some v -> put k v m = m.
Proof.
  induction m as [|[k' v'] m IH]; cbn [get put]; [discriminate|]. destruct (String.eqb k k') eqn:E.
  - apply String.eqb_eq in E. subst. intros H. injection H as ->. reflexivity.
  - intros H. rewrite (IH H). reflexivity.
Qed.
Lemma put_x_known : forall l m, (forall k v, In (k, v) l -> has_prefix "x-" k = true -> get k m = Some v) -> put_x l m = m.
Proof.
  induction l as [|[k v] l IH]; intros m H; [reflexivity|]. unfold put_x. cbn [fold_left fst snd]. destruct (has_prefix "x-" k) eqn:E.
  - rewrite (put_known k v m (H k v (or_introl eq_refl) E)). apply IH. intros. apply H; [right|]; assumption.
  - apply IH. intros. apply H; [right|]; assumption.
Qed.
Lemma get_filter (l : smap json) k v : NoDup (keys l) -> In (k, v) l -> has_prefix "x-" k = true ->
  get k (filter (fun kv => has_prefix "x-" (fst kv)) l) = Some v.
Proof.
  induction l as [|[k0 v0] l IH]; intros N I P; [destruct I|]. cbn [keys map fst] in N. apply NoDup_cons_iff in N. destruct N as [N0 N].
  cbn [filter fst]. destruct I as [E|I].
  - injection E as -> ->. rewrite P. cbn [get]. rewrite String.eqb_refl. reflexivity.
  - destruct (has_prefix "x-" k0); [|exact (IH N I P)]. cbn [get]. destruct (String.eqb k k0) eqn:E; [|exact (IH N I P)].
    apply String.eqb_eq in E. subst k0. exfalso. apply N0. apply in_map_iff. exists (k, v). auto.
Qed.
Lemma put_x_twice l m : NoDup (keys l) -> put_x l (put_x l m) = put_x l m.
Proof.
  intros N. apply put_x_known. intros k v I P. pose proof (put_x_get l m k N) as E. rewrite (get_filter l k v N I P) in E. exact E.
Qed.
Lemma put_x_fresh : forall l m, NoDup (keys l) -> (forall k, In k (keys l) -> ~ In k (keys m)) ->
  put_x l m = m ++ filter (fun kv => has_prefix "x-" (fst kv)) l.
Proof.
  induction l as [|[k v] l IH]; intros m N D; [unfold put_x; cbn; rewrite app_nil_r; reflexivity|]. cbn [keys map fst] in N. apply NoDup_cons_iff in N. destruct N as [N0 N].
  unfold put_x. cbn [fold_left filter fst snd]. destruct (has_prefix "x-" k).
  - assert (P : forall m, ~ In k (keys m) -> put k v m = m ++ [(k, v)]).
    { clear. induction m as [|[k' v'] m IH]; intros H; [reflexivity|]. cbn [keys map fst In] in H. cbn [put]. replace (String.eqb k k') with false; [rewrite IH by tauto; reflexivity|].
      symmetry. apply String.eqb_neq. intuition. }
    rewrite (P m (D k (or_introl eq_refl))). transitivity ((m ++ [(k, v)]) ++ filter (fun kv => has_prefix "x-" (fst kv)) l); [|rewrite <- app_assoc; reflexivity].
    apply IH; [exact N|]. intros k' I I'. unfold keys in I'. rewrite map_app, in_app_iff in I'. destruct I' as [I'|[<-|[]]]; [exact (D k' (or_intror I) I')|exact (N0 I)].
  - apply IH; [exact N|]. intros k' I. apply D. right. exact I.
Qed.

(* ---------- the conversion ---------- *)

Lemma into_attrs_types a o : into_attrs a o =
  mkOA (ja_gotype a) (ja_title a) (ja_desc a) (or_old (fst (from_type (ja_type a))) (oa_type o)) (or_old (snd (from_type (ja_type a))) (oa_nullable o)) (ja_multiple a)
    (match ja_exmax a with Some _ => ja_max a | None => or_old (ja_max a) (oa_max o) end)
    (match ja_exmax a with Some _ => Some true | None => oa_exmax o end)
    (match ja_exmin a with Some _ => ja_min a | None => or_old (ja_min a) (oa_min o) end)
    (match ja_exmin a with Some _ => Some true | None => oa_exmin o end)
    (ja_maxlen a) (or_old (non_zero (ja_minlen a)) (oa_minlen o)) (ja_pattern a)
    (ja_maxitems a) (or_old (non_zero (ja_minitems a)) (oa_minitems o)) (ja_unique a)
    (ja_maxprops a) (or_old (non_zero (ja_minprops a)) (oa_minprops o)) (ja_required a) (ja_enum a) (ja_format a) (ja_default a)
    (or_old (match ja_examples a with x :: _ => Some x | [] => None end) (oa_example o))
    (ja_readonly a) (ja_writeonly a) (ja_deprecated a) (put_x (ja_extra a) (oa_x o)) (oa_more o).
Proof. unfold into_attrs. rewrite types_into_split, types_over. reflexivity. Qed.
Lemma from_attrs_types a : from_attrs a =
  mkOA (ja_gotype a) (ja_title a) (ja_desc a) (fst (from_type (ja_type a))) (snd (from_type (ja_type a))) (ja_multiple a)
    (ja_max a) (match ja_exmax a with Some _ => Some true | None => None end)
    (ja_min a) (match ja_exmin a with Some _ => Some true | None => None end)
    (ja_maxlen a) (non_zero (ja_minlen a)) (ja_pattern a)
    (ja_maxitems a) (non_zero (ja_minitems a)) (ja_unique a)
    (ja_maxprops a) (non_zero (ja_minprops a)) (ja_required a) (ja_enum a) (ja_format a) (ja_default a)
    (match ja_examples a with x :: _ => Some x | [] => None end)
    (ja_readonly a) (ja_writeonly a) (ja_deprecated a)
    (filter (fun kv => has_prefix "x-" (fst kv)) (ja_extra a)) [].
Proof. unfold from_attrs. destruct (from_type (ja_type a)). reflexivity. Qed.

Lemma attrs_zero a : NoDup (keys (ja_extra a)) -> into_attrs a oa0 = from_attrs a.
Proof.
  intros N. rewrite into_attrs_types, from_attrs_types. cbn [oa0 oa_type oa_nullable oa_max oa_exmax oa_min oa_exmin oa_minlen oa_minitems oa_minprops oa_example oa_x oa_more].
  rewrite (put_x_fresh (ja_extra a) [] N (fun _ _ X => X)). assert (O : forall A (x : option A), or_old x None = x) by (intros A [|]; reflexivity).
  rewrite !O. f_equal; [destruct (ja_exmax a)|destruct (ja_exmin a)]; reflexivity.
Qed.

Ltac bool_part := cbn [into_js from_js from_bool].

(* The parts that come from schemas inside. *)
Lemma into_split a nt al on an it tu pr ad ot r :
  (from_js (JSObj a None nt al on an it tu pr ad ot) = None /\ into_js (JSObj a None nt al on an it tu pr ad ot) r = None) \/
  exists nt' al' on' an' it' pr' ad',
    from_js (JSObj a None nt al on an it tu pr ad ot) = Some (OSch (from_attrs a) nt' al' on' an' it' pr' ad') /\
    forall r, into_js (JSObj a None nt al on an it tu pr ad ot) r =
      Some (mkSlot (Some (mkSch (into_attrs a (h_attrs (schema_ens r))) (or_old nt' (h_not (schema_ens r))) (or_old_list al' (h_allof (schema_ens r)))
                                    (or_old_list on' (h_oneof (schema_ens r))) (or_old_list an' (h_anyof (schema_ens r))) (or_old it' (h_items (schema_ens r)))
                                    (or_old_list pr' (h_props (schema_ens r))) (or_old ad' (h_addl (schema_ens r))))) (sl_ref r)).
Proof.
  cbn [from_js into_js]. destruct (opt_opt from_js nt) as [nt'|]; [|left; auto]. destruct (all_opt from_js on) as [on'|]; [|left; auto].
  destruct (all_opt from_js an) as [an'|]; [|left; auto]. destruct (all_opt from_js al) as [al'|]; [|left; auto]. cbv zeta.
  set (ad0 := match ad with None => Some None | Some JSZero => _ | Some (JSBool b) => _ | Some (JSObj _ _ _ _ _ _ _ _ _ _ _) => _ end).
  destruct ad0 as [ad'|]; [|left; auto]. destruct (opt_opt from_js it) as [it'|]; [|left; auto]. destruct (all_props from_js pr) as [pr'|]; [|left; auto].
  right. exists nt', al', on', an', it', pr', ad'. split; reflexivity.
Qed.

Lemma into_panics s r : into_js s r = None <-> from_js s = None.
Proof.
  destruct s as [|b|a [x|] nt al on an it tu pr ad ot].
  - split; reflexivity.
  - split; discriminate.
  - split; discriminate.
  - destruct (into_split a nt al on an it tu pr ad ot r) as [[E1 E2]|(nt' & al' & on' & an' & it' & pr' & ad' & E1 & E2)]; rewrite E1, E2; split; auto; discriminate.
Qed.

Lemma into_overlay a nt al on an it tu pr ad ot r f : NoDup (keys (ja_extra a)) ->
  from_js (JSObj a None nt al on an it tu pr ad ot) = Some (as_osor f) ->
  exists res, into_js (JSObj a None nt al on an it tu pr ad ot) r = Some (mkSlot (Some res) (sl_ref r)) /\ overlay f (schema_ens r) res.
Proof.
  intros N E. destruct (into_split a nt al on an it tu pr ad ot r) as [[E1 _]|(nt' & al' & on' & an' & it' & pr' & ad' & E1 & E2)]; rewrite E1 in E; [discriminate E|].
  rewrite E2. eexists. split; [reflexivity|]. destruct f as [fa fn fl fo fy fi fp fd]. unfold as_osor in E. cbn [h_attrs h_not h_allof h_oneof h_anyof h_items h_props h_addl] in E.
  injection E as <- <- <- <- <- <- <- <-. set (o := schema_ens r). clearbody o. destruct o as [oa on0 oal oon oan oit opr oad].
  constructor; cbn [h_attrs h_not h_allof h_oneof h_anyof h_items h_props h_addl]; rewrite ?into_attrs_types, ?from_attrs_types;
    cbn [oa_gotype oa_title oa_desc oa_type oa_nullable oa_multiple oa_max oa_exmax oa_min oa_exmin oa_maxlen oa_minlen oa_pattern oa_maxitems oa_minitems oa_unique
         oa_maxprops oa_minprops oa_required oa_enum oa_format oa_default oa_example oa_readonly oa_writeonly oa_deprecated oa_x oa_more];
    try reflexivity; try apply either_or; try apply either_or_list.
  - destruct (ja_exmax a); reflexivity.
  - destruct (ja_exmin a); reflexivity.
  - destruct (ja_exmax a); [reflexivity|apply either_or].
  - destruct (ja_exmin a); [reflexivity|apply either_or].
  - intros k. apply put_x_get. exact N.
Qed.

(* No keyword twice among the extensions, as in a Go map. *)
Definition extra_distinct (s : jsob) : Prop :=
  match s with JSObj a _ _ _ _ _ _ _ _ _ _ => NoDup (keys (ja_extra a)) | _ => True end.

Lemma into_fresh s o : extra_distinct s -> from_js s = Some o ->
  exists r, into_js s slot_zero = Some r /\ view r = o /\ (sl_sch r = None \/ sl_ref r = None).
Proof.
  intros N E. destruct s as [|b|a [x|] nt al on an it tu pr ad ot].
  - discriminate E.
  - injection E as <-. eexists. split; [reflexivity|]. split; [destruct b; reflexivity|right; reflexivity].
  - cbn [from_js] in E. injection E as <-. eexists. split; [reflexivity|]. destruct (is_true (ja_deprecated a)); split; try reflexivity; cbn; auto.
  - destruct (into_split a nt al on an it tu pr ad ot slot_zero) as [[E1 _]|(nt' & al' & on' & an' & it' & pr' & ad' & E1 & E2)]; rewrite E1 in E; [discriminate E|].
    rewrite E2. eexists. split; [reflexivity|]. split; [|right; reflexivity]. injection E as <-.
    unfold view, as_osor, slot_zero, schema_ens, sch_zero. cbn [sl_ref sl_sch h_attrs h_not h_allof h_oneof h_anyof h_items h_props h_addl]. rewrite (attrs_zero a N).
    f_equal; try (match goal with |- or_old ?x None = _ => destruct x; reflexivity end); match goal with |- or_old_list ?x [] = _ => destruct x; reflexivity end.
Qed.

Lemma into_twice s r r' : extra_distinct s -> into_js s r = Some r' -> into_js s r' = Some r'.
Proof.
  intros N E. destruct s as [|b|a [x|] nt al on an it tu pr ad ot].
  - discriminate E.
  - cbn [into_js] in *. injection E as <-. destruct b; reflexivity.
  - cbn [into_js] in *. injection E as <-. destruct (is_true (ja_deprecated a)); reflexivity.
  - destruct (into_split a nt al on an it tu pr ad ot r) as [[_ E1]|(nt' & al' & on' & an' & it' & pr' & ad' & _ & E2)]; [rewrite E1 in E; discriminate E|].
    rewrite E2 in E. injection E as <-. rewrite E2. set (o := schema_ens r). clearbody o. cbn [schema_ens sl_sch sl_ref h_attrs h_not h_allof h_oneof h_anyof h_items h_props h_addl].
    rewrite !or_old_twice, !or_old_list_twice. do 3 f_equal. rewrite !into_attrs_types.
    cbn [oa_gotype oa_title oa_desc oa_type oa_nullable oa_multiple oa_max oa_exmax oa_min oa_exmin oa_maxlen oa_minlen oa_pattern oa_maxitems oa_minitems oa_unique
         oa_maxprops oa_minprops oa_required oa_enum oa_format oa_default oa_example oa_readonly oa_writeonly oa_deprecated oa_x oa_more].
    rewrite !or_old_twice, (put_x_twice _ _ N). destruct (ja_exmax a), (ja_exmin a); rewrite ?or_old_twice; reflexivity.
Qed.

Lemma either_said {A} (new old res : option A) : said new old -> either new old res -> res = new.
Proof. unfold said, either. destruct new; [auto|]. intros S ->. destruct old; [exfalso; apply S; discriminate || reflexivity|reflexivity]. Qed.
Lemma either_said_list {A} (new old res : list A) : said_list new old -> either_list new old res -> res = new.
Proof. unfold said_list, either_list. intros S [H1 H2]. destruct new; [|apply H1; discriminate]. rewrite (H2 eq_refl). destruct old; [reflexivity|]. exfalso. apply S; discriminate || reflexivity. Qed.

Lemma covers_same f o res : covers f o -> overlay f o res -> oa_more (h_attrs f) = [] ->
  res = mkSch (mkOA (oa_gotype (h_attrs f)) (oa_title (h_attrs f)) (oa_desc (h_attrs f)) (oa_type (h_attrs f)) (oa_nullable (h_attrs f)) (oa_multiple (h_attrs f))
    (oa_max (h_attrs f)) (oa_exmax (h_attrs f)) (oa_min (h_attrs f)) (oa_exmin (h_attrs f)) (oa_maxlen (h_attrs f)) (oa_minlen (h_attrs f)) (oa_pattern (h_attrs f))
    (oa_maxitems (h_attrs f)) (oa_minitems (h_attrs f)) (oa_unique (h_attrs f)) (oa_maxprops (h_attrs f)) (oa_minprops (h_attrs f)) (oa_required (h_attrs f)) (oa_enum (h_attrs f))
    (oa_format (h_attrs f)) (oa_default (h_attrs f)) (oa_example (h_attrs f)) (oa_readonly (h_attrs f)) (oa_writeonly (h_attrs f)) (oa_deprecated (h_attrs f))
    (oa_x (h_attrs res)) (oa_more (h_attrs f))) (h_not f) (h_allof f) (h_oneof f) (h_anyof f) (h_items f) (h_props f) (h_addl f).
Proof.
  intros C O M. destruct C, O. destruct res as [ra rn rl ro ry ri rp rd], ra as [a1 a2 a3 a4 a5 a6 a7 a8 a9 a10 a11 a12 a13 a14 a15 a16 a17 a18 a19 a20 a21 a22 a23 a24 a25 a26 a27 a28]. cbn [h_attrs h_not h_allof h_oneof h_anyof h_items h_props h_addl
         oa_gotype oa_title oa_desc oa_type oa_nullable oa_multiple oa_max oa_exmax oa_min oa_exmin oa_maxlen oa_minlen oa_pattern oa_maxitems oa_minitems oa_unique
         oa_maxprops oa_minprops oa_required oa_enum oa_format oa_default oa_example oa_readonly oa_writeonly oa_deprecated oa_x oa_more] in *.
  assert (X7 : a7 = oa_max (h_attrs f)) by (destruct (oa_exmax (h_attrs f)); [exact ov_max|]; destruct co_max as [S|X]; [exact (either_said _ _ _ S ov_max)|destruct (X eq_refl)]).
  assert (X9 : a9 = oa_min (h_attrs f)) by (destruct (oa_exmin (h_attrs f)); [exact ov_min|]; destruct co_min as [S|X]; [exact (either_said _ _ _ S ov_min)|destruct (X eq_refl)]).
  apply (either_said _ _ _ co_type) in ov_type. apply (either_said _ _ _ co_nullable) in ov_nullable. apply (either_said _ _ _ co_exmax) in ov_exmax. apply (either_said _ _ _ co_exmin) in ov_exmin.
  apply (either_said _ _ _ co_minlen) in ov_minlen. apply (either_said _ _ _ co_minitems) in ov_minitems. apply (either_said _ _ _ co_minprops) in ov_minprops. apply (either_said _ _ _ co_example) in ov_example.
  apply (either_said _ _ _ co_not) in ov_not. apply (either_said _ _ _ co_items) in ov_items. apply (either_said _ _ _ co_addl) in ov_addl.
  apply (either_said_list _ _ _ co_allof) in ov_allof. apply (either_said_list _ _ _ co_oneof) in ov_oneof. apply (either_said_list _ _ _ co_anyof) in ov_anyof. apply (either_said_list _ _ _ co_props) in ov_props.
  rewrite co_more in ov_more. rewrite M. clear - X7 X9 ov_gotype ov_title ov_desc ov_multiple ov_maxlen ov_pattern ov_maxitems ov_unique ov_maxprops ov_required ov_enum ov_format ov_default
    ov_readonly ov_writeonly ov_deprecated ov_type ov_nullable ov_exmax ov_exmin ov_minlen ov_minitems ov_minprops ov_example ov_not ov_items ov_addl ov_allof ov_oneof ov_anyof ov_props ov_more.
  subst. reflexivity.
Qed.

Lemma into_covered a nt al on an it tu pr ad ot r f : NoDup (keys (ja_extra a)) -> sl_ref r = None ->
  from_js (JSObj a None nt al on an it tu pr ad ot) = Some (as_osor f) -> covers f (schema_ens r) ->
  into_js (JSObj a None nt al on an it tu pr ad ot) r = Some (mkSlot (Some f) None).
Proof.
  intros N R E C. destruct (into_overlay a nt al on an it tu pr ad ot r f N E) as (res & Ei & O). rewrite Ei, R. f_equal. f_equal. f_equal.
  assert (M : oa_more (h_attrs f) = []) .
  { destruct (into_split a nt al on an it tu pr ad ot r) as [[E1 _]|(nt' & al' & on' & an' & it' & pr' & ad' & E1 & _)]; rewrite E1 in E; [discriminate E|].
    injection E as <- _ _ _ _ _ _ _. rewrite from_attrs_types. reflexivity. }
  assert (X : oa_x (h_attrs res) = oa_x (h_attrs f)).
  { destruct (into_split a nt al on an it tu pr ad ot r) as [[E1 _]|(nt' & al' & on' & an' & it' & pr' & ad' & E1 & E2)]; rewrite E1 in E; [discriminate E|].
    rewrite E2 in Ei. injection Ei as <-. injection E as <- _ _ _ _ _ _ _. cbn [h_attrs]. rewrite into_attrs_types, from_attrs_types. cbn [oa_x]. rewrite (co_x _ _ C).
    apply (put_x_fresh (ja_extra a) [] N). intros k _ []. }
  rewrite (covers_same f (schema_ens r) res C O M), X. destruct f as [fa ? ? ? ? ? ? ?], fa. reflexivity.
Qed.
