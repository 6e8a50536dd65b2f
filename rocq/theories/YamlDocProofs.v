(* Documents through YAML: proofs. *)
From Coq Require Import Permutation Lia.
From Verif Require Import Str SMap Json YamlModel YamlSpec YamlProofs YamlDocModel YamlDocSpec.
From Verif Require Import CodecModel CodecTables CodecSpec CodecObjSpec CodecProofs CodecRT CodecStrict CodecWrite CodecCheck OrdModel OrdSpec OrdProofs OrdWrite OrdCheck OrdShape.

Lemma insert_perm {A} (x : string * A) l : Permutation (x :: l) (insert_key x l).
Proof.
  induction l as [|y l IH]; cbn [insert_key]; [reflexivity|]. destruct (String.leb (fst x) (fst y)); [reflexivity|].
  transitivity (y :: x :: l); [apply perm_swap|constructor; exact IH].
Qed.
Lemma sort_perm {A} (l : list (string * A)) : Permutation l (sort_keys l).
Proof. induction l as [|x l IH]; cbn [sort_keys fold_right]; [reflexivity|]. transitivity (x :: sort_keys l); [constructor; exact IH|apply insert_perm]. Qed.

Lemma seq_F2' {A B C} (R : B -> C -> Prop) (f : A -> option C) l l' : Forall2 (fun x y => exists z, f y = Some z /\ R x z) l l' ->
  exists zs, seq_opt (map f l') = Some zs /\ Forall2 R l zs.
Proof.
  induction 1 as [|x y l l' (z & E & H) F (zs & IH & FZ)]; cbn [map seq_opt]; [exists []; split; constructor|].
  rewrite E, IH. exists (z :: zs). split; [reflexivity|constructor; assumption].
Qed.

Lemma load_json sprint : forall j y, CodecSpec.distinct j -> loads sprint j y -> exists j', json_of (convert sprint y) = Some j' /\ reordered j j'.
Proof.
  induction j as [|b|q|s|l IH|m IH] using json_ind'; intros y D H; inversion H as [| | | |l0 l' F|m0 m1 y0 P F]; subst; cbn [convert json_of];
    try (eexists; split; [reflexivity|constructor]).
  - inversion D as [| | | |l0 D'|]; subst. rewrite Forall_forall in IH.
    destruct (seq_F2' reordered json_of l (map (convert sprint) l')) as (zs & E & FZ).
    + clear H D. induction F as [|x y l l' H F IHF]; cbn [map]; constructor.
      * apply IH; [left; reflexivity|apply D'; left; reflexivity|exact H].
      * apply IHF; [intros z I; apply IH; right; exact I|intros z I; apply D'; right; exact I].
    + rewrite E. exists (JArr zs). split; [reflexivity|constructor; exact FZ].
  - inversion D as [| | | | |m0 N D']; subst. rewrite Forall_forall in IH.
    assert (Ek : map fst m1 = map (fun kv => key_name sprint (fst kv)) y0) by (clear - F; induction F as [|a b l l' [E _] F IHF]; [reflexivity|]; cbn [map]; rewrite E, IHF; reflexivity).
    change (exists j', json_of (convert sprint (YMapI y0)) = Some j' /\ reordered (JObj m) j').
    rewrite convert_nodup by (rewrite <- Ek; eapply Permutation_NoDup; [apply Permutation_map; exact P|exact N]).
    cbn [json_of].
    destruct (seq_F2' (fun a b => fst a = fst b /\ reordered (snd a) (snd b)) (fun kv : string * yval => match json_of (snd kv) with Some j => Some (fst kv, j) | None => None end)
                m1 (YamlProofs.entries sprint y0)) as (zs & E & FZ).
    + assert (IH1 : forall a, In a m1 -> forall y, CodecSpec.distinct (snd a) -> loads sprint (snd a) y -> exists j', json_of (convert sprint y) = Some j' /\ reordered (snd a) j')
        by (intros a I; apply IH; eapply Permutation_in; [apply Permutation_sym; exact P|exact I]).
      assert (D1 : forall k j, In (k, j) m1 -> CodecSpec.distinct j) by (intros k j I; apply (D' k); eapply Permutation_in; [apply Permutation_sym; exact P|exact I]).
      clear - IH1 D1 F. unfold YamlProofs.entries. induction F as [|[k x] [k' y] l l' [E H] F IHF]; cbn [map]; constructor.
      * cbn [fst snd] in *. destruct (IH1 (k, x) (or_introl eq_refl) y (D1 k x (or_introl eq_refl)) H) as (j' & A & B). cbn [snd] in A. rewrite A. exists (key_name sprint k', j'). split; [reflexivity|]. split; [exact E|exact B].
      * apply IHF; [intros a I; apply IH1; right; exact I|intros q z I; apply (D1 q); right; exact I].
    + rewrite E. exists (JObj (sort_keys zs)). split; [reflexivity|].
      apply ro_trans with (JObj zs); [apply ro_obj with m1; assumption|]. apply ro_obj with (sort_keys zs); [apply sort_perm|]. apply F2_refl. apply Forall_forall. intros x _. split; [reflexivity|apply ro_refl].
Qed.

(* Reading YAML is reading JSON. *)
Theorem yaml_is_json T rnd sprint j y : CodecSpec.distinct j -> unambiguous T (TNamed "Spec") j -> loads sprint j y ->
  agree vsame (unmarshal T rnd (TNamed "Spec") j) (unmarshal_yaml T rnd sprint y).
Proof.
  intros D N L. destruct (load_json sprint j y D L) as (j' & E & R). unfold unmarshal_yaml. rewrite E. apply members_free; assumption.
Qed.

Lemma canon_id rnd : forall j, CodecSpec.distinct j -> floats rnd j -> canon rnd j = j.
Proof.
  induction j as [|b|q|s|l IH|m IH] using json_ind'; intros D F; cbn [canon]; try reflexivity.
  - inversion F; subst. congruence.
  - f_equal. inversion D as [| | | |l0 D'|]; subst. inversion F as [| | | |l0 F'|]; subst. rewrite Forall_forall in IH. clear D F. induction l as [|x l IHl]; [reflexivity|]. cbn [map]. f_equal; [apply IH; [left; reflexivity|apply D'; left; reflexivity|apply F'; left; reflexivity]|].
    apply IHl; [intros z I; apply IH; right; exact I|intros z I; apply D'; right; exact I|intros z I; apply F'; right; exact I].
  - f_equal. inversion D as [| | | | |m0 N D']; subst. inversion F as [| | | | |m0 F']; subst. rewrite Forall_forall in IH.
    rewrite dedup_same by (rewrite map_map; exact N). clear N D F. induction m as [|[k x] m IHm]; [reflexivity|]. cbn [map fst snd]. f_equal.
    + f_equal. apply (IH (k, x)); [left; reflexivity|apply (D' k); left; reflexivity|apply (F' k); left; reflexivity].
    + apply IHm; [intros z I; apply IH; right; exact I|intros q z I; apply (D' q); right; exact I|intros q z I; apply (F' q); right; exact I].
Qed.

Lemma write_yaml T rnd v m : marshal T (TNamed "Spec") v = Some (JObj m) -> CodecSpec.distinct (JObj m) -> floats rnd (JObj m) -> marshal_yaml T rnd v = Some m.
Proof.
  intros E D F. unfold marshal_yaml. rewrite E. pose proof (canon_id rnd (JObj m) D F) as C. inversion D as [| | | | |m0 N D']; subst. rewrite ordered_nodup by exact N.
  cbn [canon] in C. rewrite dedup_same in C by (rewrite map_map; exact N). injection C as C. rewrite C. reflexivity.
Qed.

(* ---------- strip ---------- *)

Lemma strip_fields_rel dv fs : forall i (l l' : list (val * (ty -> val))), Forall2 (fun a b => vsame (fst a) (fst b) /\ forall t, vsame (snd a t) (snd b t)) l l' ->
  Forall2 vsame (strip_fields dv i fs l) (strip_fields dv i fs l').
Proof.
  induction fs as [|f fs IH]; intros i l l' F.
  - cbn [strip_fields]. induction F as [|a b l l' [A _] F IHF]; cbn [map]; constructor; assumption.
  - destruct F as [|a b l l' [A B] F]; cbn [strip_fields map]; constructor; [destruct (dv i); [apply vs_refl|apply B]|apply IH; exact F].
Qed.
Lemma strip_rel T dv : forall v v', vsame v v' -> forall t, vsame (strip T dv v t) (strip T dv v' t).
Proof.
  induction v as [|s|q|b|j|v IH|l IH|m IH|l IH] using val_ind'; intros v' S t; inversion S as [| | | |j0 j' R|v0 v1 R|l0 l' F|l0 l' F|m0 m' HN HS]; subst; cbn [strip]; try exact S.
  - destruct t; try exact S. constructor. apply IH. exact R.
  - destruct t; try exact S. constructor. rewrite Forall_forall in IH. clear S. induction F as [|x y l l' H F IHF]; cbn [map]; constructor; [apply IH; [left; reflexivity|exact H]|apply IHF; intros z I; apply IH; right; exact I].
  - destruct t as [| | | | | | | |t|]; try exact S. rewrite Forall_forall in IH.
    assert (G : forall k (mm : list (string * val)), get k (map (fun kw => (fst kw, strip T dv (snd kw) t)) mm) = option_map (fun w => strip T dv w t) (get k mm)).
    { intros k mm. induction mm as [|[k' w] mm IHm]; [reflexivity|]. cbn [map fst snd get]. destruct (String.eqb k k'); [reflexivity|exact IHm]. }
    apply vs_of_get. intros k. rewrite !G. destruct (get k m) as [v|] eqn:E; cbn [option_map].
    + destruct (HS k v E) as (w & -> & R). cbn [option_map]. constructor. apply (IH (k, v)); [apply get_In; exact E|exact R].
    + rewrite (HN k E). constructor.
  - destruct t as [| | | | | | | | |n]; try exact S. destruct (get n T) as [[vals|fs ps d]|]; try exact S. constructor. rewrite Forall_forall in IH. apply strip_fields_rel.
    clear S. induction F as [|x y l l' H F IHF]; cbn [map]; constructor; [|apply IHF; intros z I; apply IH; right; exact I]. cbn [fst snd]. split; [exact H|]. intros t. apply IH; [left; reflexivity|exact H].
Qed.

(* ---------- round trips ---------- *)

Theorem yaml_round30 rnd v m : wf T30 rnd derived30 extra30 (TNamed "Spec") v -> marshal T30 (TNamed "Spec") v = Some (JObj m) ->
  floats rnd (JObj m) ->
  marshal_yaml T30 rnd v = Some m /\
  forall sprint y, loads sprint (JObj m) y -> exists v', unmarshal_yaml T30 rnd sprint y = Some v' /\ vsame v (strip T30 derived30 v' (TNamed "Spec")).
Proof.
  intros W E F. pose proof (distinct30 rnd "Spec" v _ W E) as D. pose proof (written_unambiguous30 rnd "Spec" v _ W E) as N. split; [apply write_yaml; assumption|]. intros sprint y L.
  destruct (roundtrip30 rnd "Spec" v (wf_known _ _ _ _ _ _ W) W) as (j & v0 & E1 & E2 & E3). rewrite E in E1. injection E1 as <-.
  pose proof (yaml_is_json T30 rnd sprint _ y D N L) as A. rewrite E2 in A. inversion A as [|x v' S X1 X2]; subst. exists v'. split; [reflexivity|].
  apply strip_rel. exact S.
Qed.
Theorem yaml_round31 rnd v m : wf T31 rnd derived31 extra31 (TNamed "Spec") v -> marshal T31 (TNamed "Spec") v = Some (JObj m) ->
  floats rnd (JObj m) ->
  marshal_yaml T31 rnd v = Some m /\
  forall sprint y, loads sprint (JObj m) y -> exists v', unmarshal_yaml T31 rnd sprint y = Some v' /\ vsame v v'.
Proof.
  intros W E F. pose proof (distinct31 rnd "Spec" v _ W E) as D. pose proof (written_unambiguous31 rnd "Spec" v _ W E) as N. split; [apply write_yaml; assumption|]. intros sprint y L.
  destruct (exact31 rnd "Spec" v W) as (j & E1 & E2). rewrite E in E1. injection E1 as <-.
  pose proof (yaml_is_json T31 rnd sprint _ y D N L) as A. rewrite E2 in A. inversion A as [|x v' S X1 X2]; subst. exists v'. split; [reflexivity|exact S].
Qed.

(* ---------- integers ---------- *)

Definition sizedv (q : Q) : val :=
  VStruct [VStr "3.0.3"; VStruct [VStr "t"; VNil; VNil; VNil; VNil; VStr "1"; VNil]; VNil; VNil; VNil; VNil; VStruct [VNil; VNil];
    VPtr (VStruct [VPtr (VStruct [VMap [("A", VStruct [VPtr (VStruct (repeat VNil 6 ++ VPtr (VNum q) :: repeat VNil 30)); VNil])]]); VNil; VNil; VNil; VNil; VNil; VNil; VNil; VNil; VNil]);
    VNil].
Lemma sized_53 : sized_spec (inject_Z (2 ^ 53 + 1)) (sizedv (inject_Z (2 ^ 53 + 1))).
Proof. split; [intros rnd; apply wfi30_ok; vm_compute; reflexivity|vm_compute; reflexivity]. Qed.
Lemma sized_53' : sized_spec (inject_Z (2 ^ 53)) (sizedv (inject_Z (2 ^ 53))).
Proof. split; [intros rnd; apply wfi30_ok; vm_compute; reflexivity|vm_compute; reflexivity]. Qed.
Lemma sized_63 : sized_spec (inject_Z (2 ^ 63 - 1)) (sizedv (inject_Z (2 ^ 63 - 1))).
Proof. split; [intros rnd; apply wfi30_ok; vm_compute; reflexivity|vm_compute; reflexivity]. Qed.

Lemma sized_yaml rnd q v : sized_spec q v -> marshal_yaml T30 rnd v = Some (match sized (rnd q) with JObj m => m | _ => [] end).
Proof. intros [_ E]. unfold marshal_yaml. rewrite E. reflexivity. Qed.

Theorem yaml_integers : forall rnd, rnd (inject_Z (2 ^ 53 + 1)) = inject_Z (2 ^ 53) -> rnd (inject_Z (2 ^ 63 - 1)) = inject_Z (2 ^ 63) ->
  exists v w u, sized_spec (inject_Z (2 ^ 53 + 1)) v /\ sized_spec (inject_Z (2 ^ 53)) w /\ v <> w /\ marshal_yaml T30 rnd v = marshal_yaml T30 idq w /\
    sized_spec (inject_Z (2 ^ 63 - 1)) u /\
    exists m, marshal_yaml T30 rnd u = Some m /\ forall sprint y, loads sprint (JObj m) y -> unmarshal_yaml T30 rnd sprint y = None.
Proof.
  intros rnd E53 E63. exists (sizedv (inject_Z (2 ^ 53 + 1))), (sizedv (inject_Z (2 ^ 53))), (sizedv (inject_Z (2 ^ 63 - 1))).
  split; [exact sized_53|]. split; [exact sized_53'|]. split; [intros X; vm_compute in X; discriminate X|].
  split; [rewrite (sized_yaml rnd _ _ sized_53), (sized_yaml idq _ _ sized_53'), E53; reflexivity|].
  split; [exact sized_63|]. exists (match sized (inject_Z (2 ^ 63)) with JObj m => m | _ => [] end).
  split; [rewrite (sized_yaml rnd _ _ sized_63), E63; reflexivity|]. intros sprint y L.
  assert (A : agree vsame (unmarshal T30 rnd (TNamed "Spec") (sized (inject_Z (2 ^ 63)))) (unmarshal_yaml T30 rnd sprint y)).
  { apply yaml_is_json; [apply distinctb_ok; vm_compute; reflexivity|apply plainly_unambiguous; apply variantsb_ok; vm_compute; reflexivity|exact L]. }
  assert (N : unmarshal T30 rnd (TNamed "Spec") (sized (inject_Z (2 ^ 63))) = None) by (vm_compute; reflexivity).
  rewrite N in A. inversion A. reflexivity.
Qed.
