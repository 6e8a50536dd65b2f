From Coq Require Import ZArith Lia.
From Verif Require Import Str SMap Json PathSpec Types RegistryModel RegistrySpec ReflectModel ReflectSpec ReflectProofs BodySpec BodyComps
  SchemaModel CodecModel CodecTables CodecSpec CodecProofs ReadModel ReadSpec.

(* ------------------------------------------------------------------ *)
(* Structs                                                              *)

Section Wf.
  Variable T : list (string * ent).
  Variable rnd : Q -> Q.
  Variable derived : string -> bool.
  Variable extra : string -> list val -> bool.
  Notation wf := (wf T rnd derived extra).

  (* field_ok by computation on everything but the value *)
  Definition pat_ok (i : nat) (v : val) (ps : list (pat * nat)) : Prop :=
    fold_right (fun p P => (if Nat.eqb (snd p) i then ~ hollow v /\ (forall k, In k (map_keys v) -> legal (fst p) k) else True) /\ P) True ps.
  Definition fok (dv : bool) (d : dprog) (i : nat) (f : field) (v : val) : Prop :=
    (if f_omit f then ~ hollow v else True) /\ pat_ok i v (d_pats d) /\
    (if existsb (Nat.eqb i) (d_addl d) then False else True) /\
    (if dv && existsb (Nat.eqb i) (d_embed d ++ d_oneof d) then v = VNil else True).

  Lemma existsb_nat i l : In i l -> existsb (Nat.eqb i) l = true.
  Proof. intros I. apply existsb_exists. exists i. split; [exact I|apply Nat.eqb_refl]. Qed.

  Lemma fok_ok n d i f v : fok (derived n) d i f v -> field_ok derived n d i f v.
  Proof.
    intros (A & P & C & D). constructor.
    - intros O. rewrite O in A. exact A.
    - intros p I. unfold pat_ok in P. induction (d_pats d) as [|x l IH]; [destruct I|]. cbn [fold_right] in P. destruct P as [P1 P2].
      destruct I as [->|I]; [|auto]. cbn [snd fst] in P1. rewrite Nat.eqb_refl in P1. exact P1.
    - intros I. rewrite (existsb_nat _ _ I) in C. destruct C.
    - intros E I. rewrite E, (existsb_nat _ _ I) in D. exact D.
  Qed.

  Fixpoint fields_good (dv : bool) (d : dprog) (i : nat) (fs : list field) (vs : list val) : Prop :=
    match fs, vs with
    | [], [] => True
    | f :: fs, v :: vs => (wf (f_ty f) v /\ fok dv d i f v) /\ fields_good dv d (S i) fs vs
    | _, _ => False
    end.

  Lemma fields_good_nth dv d : forall fs vs i0, fields_good dv d i0 fs vs -> length fs = length vs /\
    forall i f v, nth_error fs i = Some f -> nth_error vs i = Some v -> wf (f_ty f) v /\ fok dv d (i0 + i) f v.
  Proof.
    induction fs as [|f fs IH]; intros [|v vs] i0 H; cbn [fields_good] in H; try destruct H.
    - split; [reflexivity|]. intros [|i] f v E; discriminate E.
    - destruct (IH vs (S i0) H0) as [L N]. split; [cbn [length]; congruence|]. intros [|i] g w E1 E2; cbn [nth_error] in E1, E2.
      + injection E1 as <-. injection E2 as <-. rewrite Nat.add_0_r. exact H.
      + rewrite <- Nat.add_succ_comm. exact (N i g w E1 E2).
  Qed.

  Lemma wf_make n dv fs parts d vs : get n T = Some (EStruct fs parts d) -> derived n = dv -> fields_good dv d 0 fs vs ->
    (dv = false -> d_oneof d <> [] -> one_alt d vs) -> extra n vs = true -> wf (TNamed n) (VStruct vs).
  Proof.
    intros G <- F O E. apply fields_good_nth in F. destruct F as [L F]. econstructor; eauto.
    - intros i f v E1 E2. exact (proj1 (F i f v E1 E2)).
    - intros i f v E1 E2. apply fok_ok. exact (proj2 (F i f v E1 E2)).
  Qed.

  (* ---------- parts ---------- *)

  Lemma wf_optv {A} (f : A -> val) t x : if_some (fun a => wf t (f a)) x -> wf (TPtr t) (optv f x).
  Proof. destruct x as [a|]; intros H; cbn [optv]; constructor. apply H. reflexivity. Qed.
  Lemma wf_listv {A} (f : A -> val) t l : Forall (fun a => wf t (f a)) l -> wf (TArr t) (listv f l).
  Proof.
    intros H. unfold listv. assert (W : wf (TArr t) (VArr (map f l))).
    { constructor. intros v I. apply in_map_iff in I. destruct I as (a & <- & I). rewrite Forall_forall in H. auto. }
    destruct l; [constructor|exact W].
  Qed.
  Lemma keys_map {A C} (f : A -> C) (m : smap A) : map fst (map (fun kv => (fst kv, f (snd kv))) m) = keys m.
  Proof. unfold keys. rewrite map_map. reflexivity. Qed.
  Lemma wf_vmap {A} (f : A -> val) t m : each (fun a => wf t (f a)) m -> wf (TMap t) (VMap (map (fun kv => (fst kv, f (snd kv))) m)).
  Proof.
    intros [N H]. constructor; [rewrite keys_map; exact N|]. intros k v I. apply in_map_iff in I. destruct I as ((k' & a) & E & I).
    cbn [fst snd] in E. injection E as <- <-. exact (H _ _ I).
  Qed.
  Lemma wf_mapv {A} (f : A -> val) t m : each (fun a => wf t (f a)) m -> wf (TMap t) (mapv f m).
  Proof. intros H. apply wf_vmap in H. unfold mapv. destruct m; [constructor|exact H]. Qed.

  Lemma wf_strv x : wf (TPtr TStr) (strv x). Proof. apply wf_optv. intros a _. constructor. Qed.
  Lemma wf_boolv x : wf (TPtr TBool) (boolv x). Proof. apply wf_optv. intros a _. constructor. Qed.
  Lemma wf_strs l : wf (TArr TStr) (listv VStr l). Proof. apply wf_listv. apply Forall_forall. intros x _. constructor. Qed.

  Lemma solid_nil : ~ hollow VNil. Proof. intros [E|E]; discriminate E. Qed.
  Lemma solid_optv {A} (f : A -> val) x : ~ hollow (optv f x).
  Proof. destruct x; intros [E|E]; discriminate E. Qed.
  Lemma solid_listv {A} (f : A -> val) l : ~ hollow (listv f l).
  Proof. destruct l; intros [E|E]; discriminate E. Qed.
  Lemma solid_mapv {A} (f : A -> val) m : ~ hollow (mapv f m).
  Proof. destruct m; intros [E|E]; discriminate E. Qed.
  Lemma mapv_keys {A} (f : A -> val) m k : In k (map_keys (mapv f m)) -> In k (keys m).
  Proof. unfold mapv. destruct m as [|x m]; [intros []|]. cbn [map_keys]. rewrite keys_map. auto. Qed.
  Lemma nil_keys k : ~ In k (map_keys VNil). Proof. intros []. Qed.

  Lemma set_nth_length {A} (x : A) : forall l i, length (set_nth i x l) = length l.
  Proof. induction l as [|y l IH]; intros [|i]; cbn [set_nth length]; auto. Qed.
  Lemma set_nth_at {A} (x : A) : forall l i, i < length l -> nth_error (set_nth i x l) i = Some x.
  Proof. induction l as [|y l IH]; intros [|i] L; cbn [set_nth length nth_error] in *; try lia; [reflexivity|apply IH; lia]. Qed.
  Lemma set_nth_off {A} (x : A) : forall l i j, j <> i -> nth_error (set_nth i x l) j = nth_error l j.
  Proof. induction l as [|y l IH]; intros [|i] [|j] N; cbn [set_nth nth_error]; try reflexivity; try congruence. apply IH. congruence. Qed.

  (* A field of a struct is replaced. *)
  Lemma wf_set n fs parts d l i f v : wf (TNamed n) (VStruct l) -> get n T = Some (EStruct fs parts d) ->
    (derived n = false -> d_oneof d = []) -> nth_error fs i = Some f -> wf (f_ty f) v -> fok (derived n) d i f v ->
    extra n (set_nth i v l) = true -> wf (TNamed n) (VStruct (set_nth i v l)).
  Proof.
    intros W G O Ef Wv Fv E. apply fok_ok in Fv. inversion W as [| | | | | | | | | | | | |n' fs' parts' d' vs' G' L F1 F2 F3 F4]; subst.
    rewrite G in G'. injection G' as <- <- <-.
    assert (Li : i < length l) by (rewrite <- L; apply nth_error_Some; congruence).
    econstructor; [exact G|rewrite set_nth_length; exact L| | |intros Dn NE; contradiction (NE (O Dn))|exact E].
    - intros j g w Eg Ew. destruct (Nat.eq_dec j i) as [->|N].
      + rewrite set_nth_at in Ew by exact Li. injection Ew as <-. rewrite Ef in Eg. injection Eg as <-. exact Wv.
      + rewrite set_nth_off in Ew by exact N. exact (F1 j g w Eg Ew).
    - intros j g w Eg Ew. destruct (Nat.eq_dec j i) as [->|N].
      + rewrite set_nth_at in Ew by exact Li. injection Ew as <-. rewrite Ef in Eg. injection Eg as <-. exact Fv.
      + rewrite set_nth_off in Ew by exact N. exact (F2 j g w Eg Ew).
  Qed.
  Lemma wf_field n fs parts d l i f : wf (TNamed n) (VStruct l) -> get n T = Some (EStruct fs parts d) ->
    nth_error fs i = Some f -> wf (f_ty f) (nth i l VNil) /\ field_ok derived n d i f (nth i l VNil).
  Proof.
    intros W G Ef. inversion W as [| | | | | | | | | | | | |n' fs' parts' d' vs' G' L F1 F2 F3 F4]; subst.
    rewrite G in G'. injection G' as <- <- <-.
    assert (Li : i < length l) by (rewrite <- L; apply nth_error_Some; congruence).
    pose proof (nth_error_nth' l VNil Li) as En. split; [exact (F1 i f _ Ef En)|exact (F2 i f _ Ef En)].
  Qed.
  Lemma wf_named_struct n fs parts d v : wf (TNamed n) v -> get n T = Some (EStruct fs parts d) -> exists l, v = VStruct l.
  Proof. intros W G. inversion W as [| | | | | | | | | | | |n' vals x G' I'|n' fs' parts' d' vs' G' L F1 F2 F3 F4]; subst; [congruence|eauto]. Qed.

  Lemma one_left d v : d_oneof d = [0; 1] -> one_alt d [VPtr v; VNil].
  Proof.
    intros E. exists 0, v. rewrite E. split; [left; reflexivity|]. split; [reflexivity|]. intros k [<-|[<-|[]]] N; [congruence|reflexivity].
  Qed.
  Lemma one_right d v : d_oneof d = [0; 1] -> one_alt d [VNil; VPtr v].
  Proof.
    intros E. exists 1, v. rewrite E. split; [right; left; reflexivity|]. split; [reflexivity|]. intros k [<-|[<-|[]]] N; [reflexivity|congruence].
  Qed.
End Wf.

#[export] Hint Resolve solid_nil solid_optv solid_listv solid_mapv wf_strv wf_boolv wf_strs : wfdb.
#[export] Hint Constructors wf : wfdb.

(* One struct: the fields one by one, leaving what is not trivial. *)
Ltac wstep :=
  lazymatch goal with
  | |- _ /\ _ => split; wstep
  | |- True => exact I
  | |- fok (?f ?n) ?d ?i ?g ?v => let b := eval vm_compute in (f n) in change (fok b d i g v); wstep
  | |- fok _ _ _ _ _ =>
      unfold fok, pat_ok; cbn [f_omit d_pats d_addl d_embed d_oneof fst snd fold_right existsb app Nat.eqb andb orb]; wstep
  | |- ~ hollow _ => first [apply solid_nil | apply solid_optv | apply solid_listv | apply solid_mapv | idtac]
  | |- VNil = VNil => reflexivity
  | |- forall k, In k (map_keys VNil) -> _ => intros ? []
  | |- wf _ _ _ _ _ _ => cbn [f_ty]; solve [auto with wfdb] || idtac
  | |- _ => idtac
  end.
Ltac wstruct :=
  eapply wf_make; [vm_compute; reflexivity|vm_compute; reflexivity|cbn [fields_good]; wstep
                  |let X := fresh "X" in intros _ X; try (exfalso; apply X; reflexivity)|try reflexivity].

Section W30.
  Variable rnd : Q -> Q.
  Notation wf30 := (wf T30 rnd derived30 extra30).

  Lemma wf_ref30 n r : In n ["ParameterReference"; "ResponseReference"; "RequestBodyReference"; "SchemaReference"] -> wf30 (TNamed n) (ref30 r).
  Proof. intros [<-|[<-|[<-|[<-|[]]]]]; unfold ref30; wstruct. Qed.

  Variable Sch : Type.
  Variable sv : Sch -> val.
  Definition sgood (s : Sch) : Prop := wf30 (TNamed "SchemaOrRef") (sv s).

  Lemma each_imp {A} (P Q : A -> Prop) (m : smap A) : (forall a, P a -> Q a) -> each P m -> each Q m.
  Proof. intros I [N H]. split; [exact N|]. intros k x X. exact (I _ (H k x X)). Qed.
  Lemma if_some_imp {A} (P Q : A -> Prop) (x : option A) : (forall a, P a -> Q a) -> if_some P x -> if_some Q x.
  Proof. intros I H a E. exact (I _ (H a E)). Qed.

  Lemma wf_media30 m : good_media sgood m -> wf30 (TNamed "MediaType") (media30 sv m).
  Proof. intros [S R]. unfold media30. wstruct. apply wf_optv. exact S. Qed.

  Lemma wf_contents m : each (good_media sgood) m -> wf30 (TMap (TNamed "MediaType")) (mapv (media30 sv) m).
  Proof. intros H. apply wf_mapv. exact (each_imp _ _ _ wf_media30 H). Qed.

  Lemma in_list_ok s l : in_list s l = true <-> In s l.
  Proof.
    unfold in_list. rewrite existsb_exists. split; [intros (x & I & E)|intros I; exists s; split; [exact I|apply String.eqb_refl]].
    apply String.eqb_eq in E. subst. exact I.
  Qed.

  Lemma wf_param30 p : good_param sgood styles30 p -> wf30 (TNamed "Parameter") (param30 sv p).
  Proof.
    intros (L & RQ & ST & S & C & X & R). unfold param30. wstruct.
    - econstructor; [vm_compute; reflexivity|]. clear - L. unfold locations in L. cbn [In] in *. tauto.
    - apply wf_optv. exact S.
    - apply wf_contents. exact C.
    - match goal with |- extra30 _ ?vs = true => change (extra30 "Parameter" vs) with
        (xorb (is_nil (optv sv (p_schema p))) (is_nil (mapv (media30 sv) (p_content p))) &&
          ((String.eqb (p_in p) "path" && match boolv (p_required p) with VPtr (VBool true) => true | _ => false end &&
            nil_or_one_of (strv (p_style p)) ["matrix"; "label"; "simple"]) ||
           (String.eqb (p_in p) "query" && nil_or_one_of (strv (p_style p)) ["form"; "spaceDelimited"; "pipeDelimited"; "deepObject"]) ||
           (String.eqb (p_in p) "header" && nil_or_one_of (strv (p_style p)) ["simple"]) ||
           (String.eqb (p_in p) "cookie" && nil_or_one_of (strv (p_style p)) ["form"])))%bool end.
      apply andb_true_iff. split.
      + destruct (p_schema p) as [s|], (p_content p) as [|c m]; try reflexivity; exfalso.
        * assert (E : @Some Sch s = None) by (apply X; discriminate). discriminate E.
        * apply (proj1 X); reflexivity.
      + assert (N : forall l, styles30 (p_in p) = l -> nil_or_one_of (strv (p_style p)) l = true).
        { intros l <-. destruct (p_style p) as [s|]; [|reflexivity]. apply in_list_ok. exact (ST s eq_refl). }
        destruct L as [L|[L|[L|[L|[]]]]]; rewrite <- L in *.
        * rewrite (N ["form"; "spaceDelimited"; "pipeDelimited"; "deepObject"] eq_refl). reflexivity.
        * rewrite (RQ eq_refl), (N ["matrix"; "label"; "simple"] eq_refl). reflexivity.
        * rewrite (N ["form"] eq_refl). rewrite !orb_true_r. reflexivity.
        * rewrite (N ["simple"] eq_refl). rewrite !orb_true_r. reflexivity.
  Qed.

  Lemma wf_por30 x : good_por sgood styles30 x -> wf30 (TNamed "ParameterOrRef") (por30 sv x).
  Proof.
    intros [(p & -> & G)|(r & ->)]; unfold por30; cbn [por_ref por_param optv]; wstruct.
    - constructor. apply wf_param30. exact G.
    - apply one_right. reflexivity.
    - constructor. apply wf_ref30. cbn. tauto.
    - apply one_left. reflexivity.
  Qed.

  Lemma wf_hor30 h : good_header_obj sgood h -> wf30 (TNamed "HeaderOrRef") (hor30 sv h).
  Proof.
    intros (s & E & G). unfold hor30. wstruct; [|apply one_right; reflexivity]. constructor. unfold header30. rewrite E. wstruct.
    apply wf_optv. intros a Ea. injection Ea as <-. exact G.
  Qed.

  Lemma wf_ror30 x : good_ror sgood sgood x -> wf30 (TNamed "ResponseOrRef") (ror30 sv x).
  Proof.
    intros [(r & -> & H & C & R)|(r & ->)]; unfold ror30; cbn [ror_ref ror_resp optv]; wstruct.
    - constructor. unfold response30. wstruct.
      + apply wf_mapv. exact (each_imp _ _ _ wf_hor30 H).
      + apply wf_contents. exact C.
    - apply one_right. reflexivity.
    - constructor. apply wf_ref30. cbn. tauto.
    - apply one_left. reflexivity.
  Qed.

  Lemma wf_rbor30 x : good_rbor sgood x -> wf30 (TNamed "RequestBodyOrRef") (rbor30 sv x).
  Proof.
    intros [(r & -> & C & R)|(r & ->)]; unfold rbor30; cbn [rbor_ref rbor_body optv]; wstruct.
    - constructor. unfold rbody30. wstruct. apply wf_contents. exact C.
    - apply one_right. reflexivity.
    - constructor. apply wf_ref30. cbn. tauto.
    - apply one_left. reflexivity.
  Qed.

  Lemma wf_responses30 rs : good_responses sgood sgood rs -> wf30 (TNamed "Responses") (responses30 sv rs).
  Proof.
    intros (D & M & K). unfold responses30. wstruct.
    - apply wf_optv. exact (if_some_imp _ _ _ wf_ror30 D).
    - apply wf_mapv. exact (each_imp _ _ _ wf_ror30 M).
    - intros k I. apply K. exact (mapv_keys _ _ _ I).
  Qed.

  Lemma wf_security T dv ex l : Forall (fun m : smap (list string) => NoDup (keys m)) l ->
    wf T rnd dv ex (TArr (TMap (TArr TStr))) (listv securityv l).
  Proof.
    intros H. apply wf_listv. eapply Forall_impl; [|exact H]. intros m N. unfold securityv.
    apply (wf_vmap _ _ _ _ (fun l => VArr (map VStr l))). split; [exact N|]. intros k x _. constructor. intros v I. apply in_map_iff in I. destruct I as (s & <- & _). constructor.
  Qed.

  Lemma wf_anys T dv ex m : each (clean rnd) m -> wf T rnd dv ex (TMap TAny) (mapv VAny m).
  Proof. intros H. apply wf_mapv. apply (each_imp (clean rnd)); [|exact H]. intros j C. constructor. exact C. Qed.

  Lemma wf_operation30 o : good_op30 rnd sgood sgood styles30 o -> wf30 (TNamed "Operation") (operation30 sv o).
  Proof.
    intros (P & Bd & Rs & Se & Ex & K & R). unfold operation30. wstruct.
    - apply wf_listv. eapply Forall_impl; [|exact P]. apply wf_por30.
    - apply wf_optv. exact (if_some_imp _ _ _ wf_rbor30 Bd).
    - apply wf_responses30. exact Rs.
    - apply wf_security. exact Se.
    - apply wf_anys. exact Ex.
    - intros k I. apply K. exact (mapv_keys _ _ _ I).
  Qed.

  (* ---------- documents ---------- *)

  Definition item_ok30 (i : pitem30 Sch) : Prop :=
    each (good_op30 rnd sgood sgood styles30) (pi_ops i) /\ (forall k, In k (keys (pi_ops i)) -> legal PatMethod k) /\ pi30_rest i = JNull.
  Definition doc_ok30 (s : paths30 Sch) : Prop :=
    each item_ok30 (sp30_items s) /\ forall k, In k (keys (sp30_items s)) -> legal PatSlash k.
  Definition comps_ok30 (c : smap Sch) : Prop := each sgood c /\ forall k, In k (keys c) -> legal PatName k.

  Lemma wf_pathitem30 i : item_ok30 i -> wf30 (TNamed "PathItem") (pathitem30 sv i).
  Proof.
    intros (O & K & R). unfold pathitem30. wstruct.
    - apply wf_mapv. exact (each_imp _ _ _ wf_operation30 O).
    - intros k I. apply K. exact (mapv_keys _ _ _ I).
  Qed.
  Lemma wf_paths30 s : doc_ok30 s -> wf30 (TNamed "Paths") (paths30v sv s).
  Proof.
    intros (O & K). unfold paths30v. wstruct.
    - apply wf_mapv. exact (each_imp _ _ _ wf_pathitem30 O).
    - intros k I. apply K. exact (mapv_keys _ _ _ I).
  Qed.

  Lemma wf_schemas30 c : comps_ok30 c -> wf30 (TNamed "ComponentsSchemas") (VStruct [mapv sv c]).
  Proof.
    intros (O & K). wstruct.
    - apply wf_mapv. exact O.
    - intros k I. apply K. exact (mapv_keys _ _ _ I).
  Qed.

  Lemma wf_components30 cs c : wf30 (TPtr (TNamed "Components")) cs -> comps_ok30 c ->
    wf30 (TPtr (TNamed "Components")) (components30 sv cs c).
  Proof.
    intros W C. assert (S : wf30 (TPtr (TNamed "ComponentsSchemas")) (VPtr (VStruct [mapv sv c]))) by (constructor; apply wf_schemas30; exact C).
    unfold components30. destruct c as [|kv c]; [exact W|]. inversion W as [| | | | | |t| | |t v Wv| | | |]; subst.
    - constructor. wstruct. intros [E|E]; discriminate E.
    - destruct (wf_named_struct _ _ _ _ "Components" _ _ _ _ Wv ltac:(vm_compute; reflexivity)) as (l & ->).
      constructor. eapply wf_set; [exact Wv|vm_compute; reflexivity|reflexivity|reflexivity|exact S| |reflexivity].
      wstep. intros [E|E]; discriminate E.
  Qed.

  Lemma wf_spec30 base s c : wf30 (TNamed "Spec") (VStruct base) -> doc_ok30 s -> comps_ok30 c ->
    wf30 (TNamed "Spec") (spec30 sv base s c).
  Proof.
    intros W D C. unfold spec30.
    assert (W7 : wf30 (TPtr (TNamed "Components")) (nth 7 base VNil)) by (exact (proj1 (wf_field _ _ _ _ "Spec" _ _ _ _ 7 _ W ltac:(vm_compute; reflexivity) eq_refl))).
    pose proof (wf_components30 _ _ W7 C) as WC.
    assert (W' : wf30 (TNamed "Spec") (VStruct (set_nth 7 (components30 sv (nth 7 base VNil) c) base))).
    { eapply wf_set; [exact W|vm_compute; reflexivity|reflexivity|reflexivity|exact WC| |reflexivity].
      wstep. inversion WC as [| | | | | |t| | |t v Wv| | | |]; intros [E|E]; discriminate E. }
    eapply wf_set; [exact W'|vm_compute; reflexivity|reflexivity|reflexivity|apply wf_paths30; exact D| |reflexivity].
    wstep.
  Qed.
End W30.

Section W31.
  Variable rnd : Q -> Q.
  Notation wf31 := (wf T31 rnd derived31 extra31).
  Notation good := (good31 rnd).
  Notation goodh := (good_header31 rnd).

  Lemma wf_ref31 r : wf31 (TNamed "Reference") (ref31 r).
  Proof. unfold ref31. wstruct. Qed.

  Lemma wf_schema31 x : if_some good x -> wf31 (TMap TAny) (schema31 x).
  Proof. intros G. destruct x as [s|]; cbn [schema31]; [|constructor]. apply wf_anys. exact (G s eq_refl). Qed.
  Lemma solid_schema31 x : ~ hollow (schema31 x).
  Proof. destruct x as [s|]; cbn [schema31]; [apply solid_mapv|apply solid_nil]. Qed.

  Lemma wf_media31 m : good_media good m -> wf31 (TNamed "MediaType") (media31 m).
  Proof. intros [S R]. unfold media31. wstruct; [apply wf_schema31; exact S|apply solid_schema31]. Qed.

  Lemma wf_contents31 m : each (good_media good) m -> wf31 (TMap (TNamed "MediaType")) (mapv media31 m).
  Proof. intros H. apply wf_mapv. exact (each_imp _ _ _ wf_media31 H). Qed.

  Lemma wf_param31 p : good_param good styles31 p -> wf31 (TNamed "Parameter") (param31 p).
  Proof.
    intros (L & RQ & ST & S & C & X & R). unfold param31. wstruct.
    - econstructor; [vm_compute; reflexivity|]. clear - L. unfold locations in L. cbn [In] in *. tauto.
    - apply wf_schema31. exact S.
    - apply solid_schema31.
    - apply wf_contents31. exact C.
    - apply wf_optv. intros a E. econstructor; [vm_compute; reflexivity|]. pose proof (ST a E) as I. clear - I. cbn [In styles31] in *. tauto.
  Qed.

  Lemma wf_por31 x : good_por good styles31 x -> wf31 (TNamed "ParameterOrReference") (por31 x).
  Proof.
    intros [(p & -> & G)|(r & ->)]; unfold por31; cbn [por_ref por_param optv]; wstruct.
    - constructor. apply wf_param31. exact G.
    - apply one_right. reflexivity.
    - constructor. apply wf_ref31.
    - apply one_left. reflexivity.
  Qed.

  Lemma wf_hor31 h : good_header_obj goodh h -> wf31 (TNamed "HeaderOrReference") (hor31 h).
  Proof.
    intros (s & E & G & N). unfold hor31. wstruct; [|apply one_right; reflexivity]. constructor. unfold header31. rewrite E. wstruct.
    - apply wf_schema31. intros a Ea. injection Ea as <-. exact G.
    - destruct s as [|kv s]; [congruence|reflexivity].
  Qed.

  Lemma wf_ror31 x : good_ror good goodh x -> wf31 (TNamed "ResponseOrReference") (ror31 x).
  Proof.
    intros [(r & -> & H & C & R)|(r & ->)]; unfold ror31; cbn [ror_ref ror_resp optv]; wstruct.
    - constructor. unfold response31. wstruct.
      + apply wf_mapv. exact (each_imp _ _ _ wf_hor31 H).
      + apply wf_contents31. exact C.
    - apply one_right. reflexivity.
    - constructor. apply wf_ref31.
    - apply one_left. reflexivity.
  Qed.

  Lemma wf_rbor31 x : good_rbor good x -> wf31 (TNamed "RequestBodyOrReference") (rbor31 x).
  Proof.
    intros [(r & -> & C & R)|(r & ->)]; unfold rbor31; cbn [rbor_ref rbor_body optv]; wstruct.
    - constructor. unfold rbody31. wstruct. apply wf_contents31. exact C.
    - apply one_right. reflexivity.
    - constructor. apply wf_ref31.
    - apply one_left. reflexivity.
  Qed.

  Lemma wf_responses31 rs : good_responses good goodh rs -> wf31 (TNamed "Responses") (responses31 rs).
  Proof.
    intros (D & M & K). unfold responses31. wstruct.
    - apply wf_optv. exact (if_some_imp _ _ _ wf_ror31 D).
    - apply wf_mapv. exact (each_imp _ _ _ wf_ror31 M).
    - intros k I. apply K. exact (mapv_keys _ _ _ I).
  Qed.

  Lemma wf_operation31 o : good_op31 rnd good goodh styles31 o -> wf31 (TNamed "Operation") (operation31 o).
  Proof.
    intros (P & Bd & Rs & Se & Ex & K & R). unfold operation31. wstruct.
    - apply wf_listv. eapply Forall_impl; [|exact P]. apply wf_por31.
    - apply wf_optv. exact (if_some_imp _ _ _ wf_rbor31 Bd).
    - apply wf_optv. exact (if_some_imp _ _ _ wf_responses31 Rs).
    - apply wf_security. exact Se.
    - apply wf_anys. exact Ex.
    - intros k I. apply K. exact (mapv_keys _ _ _ I).
  Qed.

  Definition item_ok31 (i : pitem31 sch31) : Prop :=
    Forall (if_some (good_op31 rnd good goodh styles31))
      [pi_get i; pi_put i; pi_post i; pi_delete i; pi_options i; pi_head i; pi_patch i; pi_trace i] /\ pi31_rest i = JNull.
  Definition doc_ok31 (s : paths31 sch31) : Prop :=
    (forall m, sp31_items s = Some m -> each item_ok31 m /\ forall k, In k (keys m) -> legal PatSlash k) /\
    each item_ok31 (sp31_webhooks s).
  Definition comps_ok31 (c : smap sch31) : Prop := each good c.

  Lemma wf_pathitem31 i : item_ok31 i -> wf31 (TNamed "PathItem") (pathitem31 i).
  Proof.
    intros [O R]. rewrite Forall_forall in O.
    assert (H : forall x, In x [pi_get i; pi_put i; pi_post i; pi_delete i; pi_options i; pi_head i; pi_patch i; pi_trace i] ->
      wf31 (TPtr (TNamed "Operation")) (optv operation31 x)).
    { intros x I. apply wf_optv. exact (if_some_imp _ _ _ wf_operation31 (O x I)). }
    cbn [In] in H. unfold pathitem31. wstruct; apply H; tauto.
  Qed.
  Lemma wf_paths31 m : each item_ok31 m -> (forall k, In k (keys m) -> legal PatSlash k) -> wf31 (TNamed "Paths") (paths31v m).
  Proof.
    intros O K. unfold paths31v. wstruct.
    - apply wf_mapv. exact (each_imp _ _ _ wf_pathitem31 O).
    - intros k I. apply K. exact (mapv_keys _ _ _ I).
  Qed.
  Lemma wf_hook31 i : item_ok31 i -> wf31 (TNamed "PathItemOrReference") (hook31v i).
  Proof. intros O. unfold hook31v. wstruct; [constructor; apply wf_pathitem31; exact O|apply one_right; reflexivity]. Qed.

  Lemma wf_components31 cs c : wf31 (TPtr (TNamed "Components")) cs -> comps_ok31 c ->
    wf31 (TPtr (TNamed "Components")) (components31 cs c).
  Proof.
    intros W C. unfold components31. set (f := fun s : sch31 => VMap (map (fun kv => (fst kv, VAny (snd kv))) s)).
    assert (S : wf31 (TMap (TMap TAny)) (mapv f c)).
    { apply wf_mapv. apply (each_imp good); [|exact C]. intros s G. apply wf_vmap. apply (each_imp (clean rnd)); [|exact G].
      intros j Cj. constructor. exact Cj. }
    cbv zeta. destruct c as [|kv c]; [exact W|]. inversion W as [| | | | | |t| | |t v Wv| | | |]; subst.
    - constructor. wstruct.
    - destruct (wf_named_struct _ _ _ _ "Components" _ _ _ _ Wv ltac:(vm_compute; reflexivity)) as (l & ->).
      constructor. eapply wf_set; [exact Wv|vm_compute; reflexivity|reflexivity|reflexivity|exact S|wstep|reflexivity].
  Qed.

  Lemma wf_spec31 base s c : wf31 (TNamed "Spec") (VStruct base) -> doc_ok31 s -> comps_ok31 c ->
    wf31 (TNamed "Spec") (spec31 base s c).
  Proof.
    intros W [D H] C. unfold spec31.
    assert (W6 : wf31 (TPtr (TNamed "Components")) (nth 6 base VNil)) by (exact (proj1 (wf_field _ _ _ _ "Spec" _ _ _ _ 6 _ W ltac:(vm_compute; reflexivity) eq_refl))).
    pose proof (wf_components31 _ _ W6 C) as WC.
    assert (W' : wf31 (TNamed "Spec") (VStruct (set_nth 6 (components31 (nth 6 base VNil) c) base))).
    { eapply wf_set; [exact W|vm_compute; reflexivity|reflexivity|reflexivity|exact WC|wstep|reflexivity].
      inversion WC as [| | | | | |t| | |t v Wv| | | |]; intros [E|E]; discriminate E. }
    assert (W'' : wf31 (TNamed "Spec") (VStruct (set_nth 5 (mapv hook31v (sp31_webhooks s)) (set_nth 6 (components31 (nth 6 base VNil) c) base)))).
    { eapply wf_set; [exact W'|vm_compute; reflexivity|reflexivity|reflexivity|apply wf_mapv; exact (each_imp _ _ _ wf_hook31 H)|wstep|reflexivity]. }
    eapply wf_set; [exact W''|vm_compute; reflexivity|reflexivity|reflexivity|apply wf_optv; intros m E; destruct (D m E) as [D1 D2]; apply wf_paths31; [exact D1|exact D2]|wstep|reflexivity].
  Qed.
End W31.
