(* Reflectors with the same contents give the same document. *)
From Coq Require Import Permutation.
From Verif Require Import Str SMap Json PathModel Types RegistryModel ReflectModel ReflectSpec SchemaModel CodecModel CodecTables CodecSpec
  ReadModel ReadSpec ReadProofs ReadRun ReadProps OrdSpec OrdProofs OrdWrite SeqSpec.

Lemma get_map_val {A} (f : A -> val) k (m : smap A) : get k (map (fun kv => (fst kv, f (snd kv))) m) = option_map f (get k m).
Proof. induction m as [|[k' x] m IH]; [reflexivity|]. cbn [map get fst snd]. destruct (String.eqb k k'); [reflexivity|exact IH]. Qed.

Lemma mapv_same {A} (R : A -> A -> Prop) (f : A -> val) (m m' : smap A) : (forall a b, R a b -> vsame (f a) (f b)) ->
  (forall k, same_opt R (get k m) (get k m')) -> vsame (mapv f m) (mapv f m').
Proof.
  intros HR H.
  assert (V : vsame (VMap (map (fun kv => (fst kv, f (snd kv))) m)) (VMap (map (fun kv => (fst kv, f (snd kv))) m'))).
  { constructor.
    - intros k G. rewrite get_map_val in *. specialize (H k). unfold same_opt in H. destruct (get k m); [discriminate G|].
      destruct (get k m'); [contradiction|reflexivity].
    - intros k v G. rewrite get_map_val in G. specialize (H k). unfold same_opt in H. destruct (get k m) as [a|]; [|discriminate G].
      injection G as <-. rewrite get_map_val. destruct (get k m') as [b|]; [|contradiction]. exists (f b). split; [reflexivity|]. exact (HR _ _ H). }
  destruct m as [|[k x] m], m' as [|[k' x'] m']; cbn [mapv]; [constructor| | |exact V]; exfalso.
  - specialize (H k'). cbn [get] in H. rewrite String.eqb_refl in H. exact H.
  - specialize (H k). cbn [get] in H. rewrite String.eqb_refl in H. exact H.
Qed.

Lemma map_eq_opt {A} (m m' : smap A) : map_eq m m' -> forall k, same_opt eq (get k m) (get k m').
Proof. intros H k. rewrite (H k). unfold same_opt. destruct (get k m'); [reflexivity|exact I]. Qed.
Lemma mapv_eq {A} (f : A -> val) (m m' : smap A) : map_eq m m' -> vsame (mapv f m) (mapv f m').
Proof. intros H. apply (mapv_same eq); [intros a b ->; apply vs_refl|exact (map_eq_opt _ _ H)]. Qed.
Lemma map_eq_nil {A} (m m' : smap A) : map_eq m m' -> (m = [] <-> m' = []).
Proof.
  intros H. destruct m as [|[k x] m], m' as [|[k' x'] m']; split; intros E; try reflexivity; try discriminate E.
  - specialize (H k'). cbn [get] in H. rewrite String.eqb_refl in H. discriminate H.
  - specialize (H k). cbn [get] in H. rewrite String.eqb_refl in H. discriminate H.
Qed.

Lemma F2_refl l : Forall2 vsame l l.
Proof. induction l; constructor; auto. apply vs_refl. Qed.

Lemma doc30_same {Sch} (sv : Sch -> val) base r r' : same_refl30 r r' -> vsame (document30 sv base r) (document30 sv base r').
Proof.
  intros [[HP _] HC]. unfold document30, spec30. constructor. apply set_F2; [apply set_F2; [apply F2_refl|]|].
  - unfold components30. pose proof (map_eq_nil _ _ HC) as N. pose proof (mapv_eq sv _ _ HC) as HV.
    destruct (r30_comps r) as [|kv c], (r30_comps r') as [|kv' c'].
    + apply vs_refl.
    + destruct N as [N _]. discriminate (N eq_refl).
    + destruct N as [_ N]. discriminate (N eq_refl).
    + assert (V : vsame (VPtr (VStruct [mapv sv (kv :: c)])) (VPtr (VStruct [mapv sv (kv' :: c')]))) by (apply vs_ptr, vs_struct; constructor; [exact HV|constructor]).
      destruct (nth 7 base VNil) as [| | | | |v| | |]; try (constructor; constructor; constructor; [exact V|apply F2_refl]).
      destruct v; try (constructor; constructor; constructor; [exact V|apply F2_refl]).
      constructor. constructor. apply set_F2; [apply F2_refl|exact V].
  - unfold paths30v. constructor. constructor; [|repeat constructor]. apply (mapv_same same_item30); [|exact HP].
    intros a b [H _]. unfold pathitem30. constructor. repeat (constructor; [first [constructor|apply mapv_eq; exact H]|]). constructor.
Qed.

Lemma doc31_same base r r' : same_refl31 r r' -> vsame (document31 base r) (document31 base r').
Proof.
  intros [(HP & HW & _) HC]. unfold document31, spec31. constructor. apply set_F2; [apply set_F2; [apply set_F2; [apply F2_refl|]|]|].
  - unfold components31. cbv zeta. pose proof (map_eq_nil _ _ HC) as N.
    pose proof (mapv_eq (fun s : sch31 => VMap (map (fun kv => (fst kv, VAny (snd kv))) s)) _ _ HC) as HV.
    destruct (r31_comps r) as [|kv c], (r31_comps r') as [|kv' c'].
    + apply vs_refl.
    + destruct N as [N _]. discriminate (N eq_refl).
    + destruct N as [_ N]. discriminate (N eq_refl).
    + destruct (nth 6 base VNil) as [| | | | |v| | |]; try (constructor; constructor; constructor; [exact HV|apply F2_refl]).
      destruct v; try (constructor; constructor; constructor; [exact HV|apply F2_refl]).
      constructor. constructor. apply set_F2; [apply F2_refl|exact HV].
  - apply mapv_eq. exact HW.
  - unfold same_opt in HP. destruct (sp31_items (r31_paths r)) as [m|], (sp31_items (r31_paths r')) as [m'|]; try contradiction; [|constructor].
    cbn [optv]. constructor. unfold paths31v. constructor. constructor; [|repeat constructor]. apply mapv_eq. exact HP.
Qed.

Lemma calls30_run {J Sch} (B : backend J Sch) : forall l r, fst (calls30 B r l) = rrun30 B r l.
Proof.
  unfold rrun30. induction l as [|oc l IH]; intros r; [reflexivity|]. cbn [calls30 fold_left]. unfold rstep30 at 2.
  destruct (reflector_add30 B r oc) as [[r1 oc1] a]. cbn [fst]. rewrite <- (IH r1). destruct (calls30 B r1 l). reflexivity.
Qed.
Lemma calls31_run {J Sch} (B : backend J Sch) : forall l r, fst (calls31 B r l) = rrun31 B r l.
Proof.
  unfold rrun31. induction l as [|[h oc] l IH]; intros r; [reflexivity|]. cbn [calls31 fold_left]. unfold rstep31 at 2. cbn [fst snd].
  destruct h.
  - destruct (reflector_webhook31 B r oc) as [[r1 oc1] a]. cbn [fst]. rewrite <- (IH r1). destruct (calls31 B r1 l). reflexivity.
  - destruct (reflector_add31 B r oc) as [[r1 oc1] a]. cbn [fst]. rewrite <- (IH r1). destruct (calls31 B r1 l). reflexivity.
Qed.

Lemma single30 rnd {J Sch} (sv : Sch -> val) (B : backend J Sch) base r l :
  good_backend (good30 rnd sv) B -> wf T30 rnd derived30 extra30 (TNamed "Spec") (VStruct base) -> new30 r ->
  Forall (good_call30 rnd (good30 rnd sv) (good30 rnd sv) styles30 B) l -> single (document30 sv base (fst (calls30 B r l))).
Proof.
  intros GB W [N1 N2] F. rewrite calls30_run.
  assert (D0 : doc_ok30 rnd Sch sv (r30_paths r)) by (split; rewrite N1; [apply each_nil|intros k []]).
  assert (C0 : comps_ok30 rnd Sch sv (r30_comps r)) by (rewrite N2; split; [apply each_nil|intros k []]).
  destruct (run_keep30 rnd sv B GB l F r D0 C0) as [D C].
  apply (wf_single T30 rnd derived30 extra30 _ (TNamed "Spec")). apply wf_spec30; assumption.
Qed.
Lemma single31 rnd {J} (B : backend J sch31) base r l :
  good_backend (good31 rnd) B -> wf T31 rnd derived31 extra31 (TNamed "Spec") (VStruct base) -> new31 r ->
  Forall (good_call31 rnd (good31 rnd) (good_header31 rnd) styles31 B) l -> single (document31 base (fst (calls31 B r l))).
Proof.
  intros GB W (N1 & N2 & N3) F. rewrite calls31_run.
  assert (D0 : doc_ok31 rnd (r31_paths r)).
  { split; [|rewrite N2; apply each_nil]. intros m E. destruct N1 as [N1|N1]; rewrite N1 in E; [discriminate E|]. injection E as <-.
    split; [apply each_nil|intros k []]. }
  assert (C0 : comps_ok31 rnd (r31_comps r)) by (unfold comps_ok31; rewrite N3; apply each_nil).
  destruct (run_keep31 rnd B GB l F r D0 C0) as [D C].
  apply (wf_single T31 rnd derived31 extra31 _ (TNamed "Spec")). apply wf_spec31; assumption.
Qed.
