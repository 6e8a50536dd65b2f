(* Lemmas about following references in ToJSONSchema. *)
From Coq Require Import Permutation Lia.
From Verif Require Import Str SMap Json SchemaModel SchemaSpec SchemaProofs.

(* ------------------------------------------------------------------ *)
(* Local references                                                      *)

Lemma local_prefix n : has_prefix components_schemas (local n) = true.
Proof. apply prefix_app. Qed.

Lemma sdrop_app p s : sdrop (String.length p) (p ^^ s) = s.
Proof. induction p; simpl; auto. Qed.

Lemma local_trim n : trim_prefix components_schemas (local n) = n.
Proof. unfold trim_prefix. rewrite local_prefix. apply sdrop_app. Qed.

Lemma local_of r : has_prefix components_schemas r = true -> r = local (trim_prefix components_schemas r).
Proof. intros H. unfold trim_prefix. rewrite H. apply prefix_split. exact H. Qed.

Lemma local_inj a b : local a = local b -> a = b.
Proof. intros H. rewrite <- (local_trim a), <- (local_trim b), H. reflexivity. Qed.

Definition ref_names (r : string) : list string :=
  if has_prefix components_schemas r then [trim_prefix components_schemas r] else [].

Lemma ref_names_local n : ref_names (local n) = [n].
Proof. unfold ref_names. rewrite local_prefix, local_trim. reflexivity. Qed.

Lemma ref_names_In n r : In n (ref_names r) <-> r = local n.
Proof.
  split.
  - unfold ref_names. destruct (has_prefix components_schemas r) eqn:E; [|intros []].
    intros [<-|[]]. apply local_of. exact E.
  - intros ->. rewrite ref_names_local. simpl. auto.
Qed.

Definition opt_names {A : Type} (f : A -> list string) (x : option A) : list string :=
  match x with Some a => f a | None => [] end.
Definition map_names {A : Type} (f : A -> list string) (m : smap A) : list string := flat_map (fun kv => f (snd kv)) m.

(* Names referred to, in the order of the conversion. *)
Fixpoint orefs (o : osor) : list string :=
  match o with
  | ONone => []
  | ORef r => ref_names r
  | OSch a nt al on an it pr ad =>
      opt_names orefs nt ++ flat_map orefs al ++ flat_map orefs on ++ flat_map orefs an ++ opt_names orefs it ++
      map_names orefs pr ++
      match ad with Some (Addl None (Some s)) => orefs s | _ => [] end
  end.

Fixpoint jrefs (s : jsob) : list string :=
  match s with
  | JSZero | JSBool _ => []
  | JSObj _ (Some r) _ _ _ _ _ _ _ _ _ => ref_names r
  | JSObj _ None nt al on an it tu pr ad _ =>
      opt_names jrefs nt ++ flat_map jrefs al ++ flat_map jrefs on ++ flat_map jrefs an ++ opt_names jrefs it ++
      flat_map jrefs tu ++ map_names jrefs pr ++ opt_names jrefs ad
  end.

Lemma in_opt_names {A} (f : A -> list string) x n : In n (opt_names f x) <-> exists s, x = Some s /\ In n (f s).
Proof.
  destruct x as [a|]; simpl; split.
  - eauto.
  - intros (s & E & I). injection E as <-. auto.
  - intros [].
  - intros (s & E & I). discriminate.
Qed.

Lemma in_map_names {A} (f : A -> list string) (m : smap A) n :
  In n (map_names f m) <-> exists k s, In (k, s) m /\ In n (f s).
Proof.
  unfold map_names. rewrite in_flat_map. split.
  - intros ([k s] & I & J). eauto.
  - intros (k & s & I & J). exists (k, s). auto.
Qed.

Lemma orefs_mentions n o : In n (orefs o) <-> omentions n o.
Proof.
  split.
  - induction o as [|r|a nt al on an it pr ad Hnt Hal Hon Han Hit Hpr Had] using osor_ind'.
    + intros [].
    + intros I. apply ref_names_In in I. subst. constructor.
    + rewrite Forall_forall in Hal, Hon, Han, Hpr. cbn [orefs]. rewrite !in_app_iff.
      rewrite !in_flat_map, !in_opt_names, in_map_names.
      intros [(s & E & I)|[(s & E & I)|[(s & E & I)|[(s & E & I)|[(s & E & I)|[(k & s & E & I)|I]]]]]].
      * subst. eapply om_child; [apply oc_not|]. auto.
      * eapply om_child; [eapply oc_all; eauto|]. auto.
      * eapply om_child; [eapply oc_one; eauto|]. auto.
      * eapply om_child; [eapply oc_any; eauto|]. auto.
      * subst. eapply om_child; [apply oc_items|]. auto.
      * eapply om_child; [eapply oc_prop; eauto|]. apply (Hpr (k, s) E I).
      * destruct ad as [[[b|] [s|]]|]; try destruct I. eapply om_child; [apply oc_addl|]. eapply Had; eauto.
  - induction 1 as [|s t C M IH].
    + rewrite (ref_names_local n : orefs (ORef (local n)) = [n]). simpl. auto.
    + destruct C; cbn [orefs]; rewrite !in_app_iff, ?in_flat_map, ?in_opt_names, ?in_map_names.
      * left. eauto.
      * right. left. eauto.
      * do 2 right. left. eauto.
      * do 3 right. left. eauto.
      * do 4 right. left. eauto.
      * do 5 right. left. eauto.
      * do 6 right. auto.
Qed.

Lemma conv_mentions n o : jmentions n (conv o) <-> In n (orefs o).
Proof.
  split.
  - remember (conv o) as s eqn:E. intros M. revert o E. induction M as [|s t C M IH]; intros o E.
    + destruct o as [|r|]; try discriminate. cbn [conv] in E. inversion E; subst. cbn [orefs].
      rewrite ref_names_local. simpl. auto.
    + destruct o as [|r|a nt al on an it pr ad].
      * cbn in E. subst. inversion C; subst; contradiction.
      * cbn in E. subst. inversion C; subst; contradiction.
      * cbn [conv] in E. subst. cbn [orefs]. rewrite !in_app_iff, ?in_flat_map, ?in_opt_names, ?in_map_names.
        inversion C; subst.
        -- destruct nt as [x|]; [|discriminate]. match goal with H : _ = _ |- _ => cbn in H; injection H as -> end. left. eauto.
        -- match goal with H : In _ (map conv al) |- _ => apply in_map_iff in H as (x & <- & I) end. right. left. eauto.
        -- match goal with H : In _ (map conv on) |- _ => apply in_map_iff in H as (x & <- & I) end. do 2 right. left. eauto.
        -- match goal with H : In _ (map conv an) |- _ => apply in_map_iff in H as (x & <- & I) end. do 3 right. left. eauto.
        -- destruct it as [x|]; [|discriminate]. match goal with H : _ = _ |- _ => cbn in H; injection H as -> end.
           do 4 right. left. eauto.
        -- contradiction.
        -- match goal with H : In _ (map _ pr) |- _ => apply in_map_iff in H as ([k' x] & E & I) end.
           injection E as <- <-. do 5 right. left. eauto.
        -- do 6 right. destruct ad as [[[b|] [x|]]|]; try discriminate;
             match goal with H : Some _ = Some _ |- _ => injection H as -> end.
           ++ inversion M; subst. match goal with H : jchild (JSBool _) _ |- _ => inversion H end.
           ++ inversion M; subst. match goal with H : jchild (JSBool _) _ |- _ => inversion H end.
           ++ auto.
        -- contradiction.
  - rewrite orefs_mentions. induction 1 as [|s t C M IH].
    + constructor.
    + destruct C; cbn [conv option_map]; (eapply jm_child; [|exact IH]).
      * apply jc_not.
      * apply jc_all. apply in_map. auto.
      * apply jc_one. apply in_map. auto.
      * apply jc_any. apply in_map. auto.
      * apply jc_items.
      * eapply jc_prop. apply in_map_iff. exists (k, s). auto.
      * apply jc_addl.
Qed.

(* In 3.1 this needs a schema without other keywords. *)
Lemma jrefs_mentions n s : In n (jrefs s) -> jmentions n s.
Proof.
  induction s as [|b|a r nt al on an it tu pr ad ot Hnt Hal Hon Han Hit Htu Hpr Had _] using jsob_ind'.
  - intros [].
  - intros [].
  - destruct r as [r|].
    + intros I. apply ref_names_In in I. subst. constructor.
    + rewrite Forall_forall in *. cbn [jrefs]. rewrite !in_app_iff.
      rewrite !in_flat_map, !in_opt_names, in_map_names.
      intros [(s & E & I)|[(s & E & I)|[(s & E & I)|[(s & E & I)|[(s & E & I)|[(s & E & I)|[(k & s & E & I)|(s & E & I)]]]]]]].
      * subst. eapply jm_child; [apply jc_not|]. auto.
      * eapply jm_child; [eapply jc_all; eauto|]. auto.
      * eapply jm_child; [eapply jc_one; eauto|]. auto.
      * eapply jm_child; [eapply jc_any; eauto|]. auto.
      * subst. eapply jm_child; [apply jc_items|]. auto.
      * eapply jm_child; [eapply jc_tuple; eauto|]. auto.
      * eapply jm_child; [eapply jc_prop; eauto|]. apply (Hpr (k, s) E I).
      * subst. eapply jm_child; [apply jc_addl|]. auto.
Qed.

Lemma mentions_jrefs n s : entered s -> jmentions n s -> In n (jrefs s).
Proof.
  intros X M. revert X. induction M as [|s t C M IH]; intros X.
  - cbn [jrefs]. rewrite ref_names_local. simpl. auto.
  - inversion X as [| |a r|a nt al on an it tu pr ad X1]; subst.
    + inversion C.
    + inversion C.
    + inversion C; subst; contradiction.
    + specialize (IH (X1 t C)). cbn [jrefs]. rewrite !in_app_iff, ?in_flat_map, ?in_opt_names, ?in_map_names.
      inversion C; subst.
      * left. eauto.
      * right. left. eauto.
      * do 2 right. left. eauto.
      * do 3 right. left. eauto.
      * do 4 right. left. eauto.
      * do 5 right. left. eauto.
      * do 6 right. left. eauto.
      * do 7 right. eauto.
      * contradiction.
Qed.

(* ------------------------------------------------------------------ *)
(* The conversion is the context-free conversion plus visiting the names  *)

Lemma iter_app {A} (f : A -> ctx -> res ctx) l l' c : iter_list f (l ++ l') c = bind (iter_list f l c) (iter_list f l').
Proof.
  revert c. induction l as [|x l IH]; intros c; [reflexivity|]. simpl. destruct (f x c); simpl; auto.
Qed.

Lemma bind_bind {A C D} (x : res A) (f : A -> res C) (g : C -> res D) :
  bind (bind x f) g = bind x (fun a => bind (f a) g).
Proof. destruct x; reflexivity. Qed.

Lemma bind_ext {A C} (x : res A) (f g : A -> res C) : (forall a, f a = g a) -> bind x f = bind x g.
Proof. intros H. destruct x; simpl; auto. Qed.

Section Visit.
  Variable f : string -> ctx -> res ctx.
  Notation visit := (iter_list f).

  Lemma map_list_visit (l : list osor) :
    Forall (fun o => forall c, tjs f o c = bind (visit (orefs o) c) (fun c => Ok (conv o, c))) l ->
    forall c, map_list (tjs f) l c = bind (visit (flat_map orefs l) c) (fun c => Ok (map conv l, c)).
  Proof.
    induction 1 as [|o l H _ IH]; intros c; [reflexivity|]. cbn [map_list flat_map map]. fold (map_list (tjs f)).
    rewrite H, iter_app, !bind_bind. apply bind_ext. intros c1. cbn [bind fst snd].
    rewrite IH, bind_bind. reflexivity.
  Qed.

  Lemma map_props_visit (l : smap osor) :
    Forall (fun kv => forall c, tjs f (snd kv) c = bind (visit (orefs (snd kv)) c) (fun c => Ok (conv (snd kv), c))) l ->
    forall c, map_props (tjs f) l c
      = bind (visit (map_names orefs l) c) (fun c => Ok (map (fun kv => (fst kv, conv (snd kv))) l, c)).
  Proof.
    induction 1 as [|[k o] l H _ IH]; intros c; [reflexivity|]. unfold map_names. cbn [map_props flat_map map fst snd].
    fold (map_props (tjs f)). fold (map_names orefs l). cbn [snd] in H.
    rewrite H, iter_app, !bind_bind. apply bind_ext. intros c1. cbn [bind fst snd].
    rewrite IH, bind_bind. reflexivity.
  Qed.

  Lemma map_opt_visit (x : option osor) :
    (forall o, x = Some o -> forall c, tjs f o c = bind (visit (orefs o) c) (fun c => Ok (conv o, c))) ->
    forall c, map_opt (tjs f) x c = bind (visit (opt_names orefs x) c) (fun c => Ok (option_map conv x, c)).
  Proof.
    intros H c. destruct x as [o|]; [|reflexivity]. cbn [map_opt opt_names option_map]. rewrite H by auto.
    rewrite bind_bind. reflexivity.
  Qed.

  Lemma tjs_visit o : forall c, tjs f o c = bind (visit (orefs o) c) (fun c => Ok (conv o, c)).
  Proof.
    induction o as [|r|a nt al on an it pr ad Hnt Hal Hon Han Hit Hpr Had] using osor_ind'; intros c.
    - reflexivity.
    - cbn [tjs orefs conv]. unfold ref_names. destruct (has_prefix components_schemas r); [|reflexivity].
      cbn [iter_list]. destruct (f _ c); reflexivity.
    - cbn [tjs orefs conv].
      rewrite !iter_app. rewrite (map_opt_visit nt Hnt). rewrite !bind_bind. apply bind_ext. intros c1. cbn [bind fst snd].
      rewrite (map_list_visit al Hal), iter_app, !bind_bind. apply bind_ext. intros c2. cbn [bind fst snd].
      rewrite (map_list_visit on Hon), iter_app, !bind_bind. apply bind_ext. intros c3. cbn [bind fst snd].
      rewrite (map_list_visit an Han), iter_app, !bind_bind. apply bind_ext. intros c4. cbn [bind fst snd].
      rewrite (map_opt_visit it Hit), iter_app, !bind_bind. apply bind_ext. intros c5. cbn [bind fst snd].
      rewrite (map_props_visit pr Hpr), iter_app, !bind_bind. apply bind_ext. intros c6. cbn [bind fst snd].
      destruct ad as [[[b|] [s|]]|]; cbn [iter_list bind fst snd]; auto.
      rewrite (Had None s eq_refl), !bind_bind. reflexivity.
  Qed.

  Lemma iter_list_visit (l : list jsob) :
    Forall (fun s => forall c, find_refs f s c = visit (jrefs s) c) l ->
    forall c, iter_list (find_refs f) l c = visit (flat_map jrefs l) c.
  Proof.
    induction 1 as [|o l H _ IH]; intros c; [reflexivity|]. cbn [iter_list flat_map]. fold (iter_list (find_refs f)).
    rewrite H, iter_app. apply bind_ext. exact IH.
  Qed.

  Lemma iter_props_visit (l : smap jsob) :
    Forall (fun kv => forall c, find_refs f (snd kv) c = visit (jrefs (snd kv)) c) l ->
    forall c, iter_props (find_refs f) l c = visit (map_names jrefs l) c.
  Proof.
    induction 1 as [|[k o] l H _ IH]; intros c; [reflexivity|]. unfold map_names. cbn [iter_props flat_map snd].
    fold (iter_props (find_refs f)). fold (map_names jrefs l). cbn [snd] in H. rewrite H, iter_app. apply bind_ext. exact IH.
  Qed.

  Lemma iter_opt_visit (x : option jsob) :
    (forall s, x = Some s -> forall c, find_refs f s c = visit (jrefs s) c) ->
    forall c, iter_opt (find_refs f) x c = visit (opt_names jrefs x) c.
  Proof. intros H c. destruct x as [o|]; [|reflexivity]. cbn [iter_opt opt_names]. auto. Qed.

  Lemma find_visit s : forall c, find_refs f s c = visit (jrefs s) c.
  Proof.
    induction s as [|b|a r nt al on an it tu pr ad ot Hnt Hal Hon Han Hit Htu Hpr Had _] using jsob_ind'; intros c.
    - reflexivity.
    - reflexivity.
    - destruct r as [r|].
      + cbn [find_refs jrefs]. unfold ref_names. destruct (has_prefix components_schemas r); [|reflexivity].
        cbn [iter_list]. destruct (f _ c); reflexivity.
      + cbn [find_refs jrefs]. rewrite iter_app, (iter_opt_visit nt Hnt). apply bind_ext. intros c1.
        rewrite iter_app, (iter_list_visit al Hal). apply bind_ext. intros c2.
        rewrite iter_app, (iter_list_visit on Hon). apply bind_ext. intros c3.
        rewrite iter_app, (iter_list_visit an Han). apply bind_ext. intros c4.
        rewrite iter_app, (iter_opt_visit it Hit). apply bind_ext. intros c5.
        rewrite iter_app, (iter_list_visit tu Htu). apply bind_ext. intros c6.
        rewrite iter_app, (iter_props_visit pr Hpr). apply bind_ext. intros c7.
        apply iter_opt_visit. exact Had.
  Qed.
End Visit.

(* ------------------------------------------------------------------ *)
(* Visiting a graph of names                                             *)

Definition occ (x : string) (l : list string) : nat := count_occ string_dec l x.
Fixpoint sum_occ (G : string -> list string) (x : string) (N : list string) : nat :=
  match N with [] => 0 | d :: N' => occ x (G d) + sum_occ G x N' end.

Inductive reach (G : string -> list string) (L : list string) : string -> Prop :=
| rc_here x : In x L -> reach G L x
| rc_via d x : reach G L d -> In x (G d) -> reach G L x.

Lemma sum_occ_app G x N N' : sum_occ G x (N ++ N') = sum_occ G x N + sum_occ G x N'.
Proof. induction N; simpl; lia. Qed.

Lemma occ_app x l l' : occ x (l ++ l') = occ x l + occ x l'.
Proof. apply count_occ_app. Qed.

Lemma reach_incl G L L' x : (forall y, In y L -> reach G L' y) -> reach G L x -> reach G L' x.
Proof. intros H R. induction R; [auto|]. eapply rc_via; eauto. Qed.

Section Graph.
  Variable G : string -> list string.       (* names a component refers to *)
  Variable good : string -> bool.           (* its lookup does not panic *)
  Variable pre body : string -> jsob.       (* stored before and after *)
  Variable fin : string -> ctx -> ctx.
  Hypothesis fin_refs : forall name c x, get name (c_refs c) = Some (pre name) ->
    get x (c_refs (fin name c)) = if String.eqb x name then Some (body name) else get x (c_refs c).
  Hypothesis fin_count : forall name c, c_count (fin name c) = c_count c.
  Variable K : list string.
  Hypothesis G_K : forall d, ~ In d K -> G d = [].

  Fixpoint dfs (fuel : nat) (name : string) (c : ctx) : res ctx :=
    match fuel with
    | O => OutOfFuel
    | S n =>
        bind (if has name (c_refs c) then Ok c
              else if good name
                   then bind (iter_list (dfs n) (G name) (set_ref name (pre name) c)) (fun c => Ok (fin name c))
                   else Panic)
             (fun c => Ok (bump name c))
    end.

  (* What a successful visit of L does. *)
  Definition visited (L : list string) (c c' : ctx) : Prop :=
    exists N, NoDup N /\ (forall x, In x N -> has x (c_refs c) = false) /\
      (forall x, get x (c_refs c') = if mem x N then Some (body x) else get x (c_refs c)) /\
      (forall x, In x L -> has x (c_refs c') = true) /\
      (forall d x, In d N -> In x (G d) -> has x (c_refs c') = true) /\
      (forall x, count_of x c' = count_of x c + occ x L + sum_occ G x N) /\
      (forall x, In x N -> reach G L x /\ good x = true).

  Lemma visited_has L c c' x : visited L c c' -> has x (c_refs c) = true -> has x (c_refs c') = true.
  Proof.
    intros (N & _ & _ & V & _) H. unfold has in *. rewrite V. destruct (mem x N); auto.
  Qed.

  Ltac parts := split; [|split; [|split; [|split; [|split; [|split]]]]].

  Lemma visited_nil c : visited [] c c.
  Proof.
    exists []. parts; simpl; try tauto.
    - constructor.
    - intros x. lia.
  Qed.

  Lemma visited_app L L' c c1 c2 : visited L c c1 -> visited L' c1 c2 -> visited (L ++ L') c c2.
  Proof.
    intros V1 V2.
    destruct V1 as (N1 & D1 & F1 & G1 & I1 & C1 & O1 & R1). destruct V2 as (N2 & D2 & F2 & G2 & I2 & C2 & O2 & R2).
    assert (M1 : forall x, has x (c_refs c) = true -> has x (c_refs c1) = true).
    { intros x H. unfold has in *. rewrite G1. destruct (mem x N1); auto. }
    assert (M2 : forall x, has x (c_refs c1) = true -> has x (c_refs c2) = true).
    { intros x H. unfold has in *. rewrite G2. destruct (mem x N2); auto. }
    assert (N1c1 : forall x, In x N1 -> has x (c_refs c1) = true).
    { intros x I. unfold has. rewrite G1. rewrite (proj2 (mem_In x N1) I). reflexivity. }
    exists (N1 ++ N2). parts.
    - clear - D1 D2 F2 N1c1. induction D1 as [|x N1 H D IH]; simpl; auto. constructor.
      + rewrite in_app_iff. intros [I|I]; [tauto|]. specialize (N1c1 x (or_introl eq_refl)).
        rewrite (F2 x I) in N1c1. discriminate.
      + apply IH. intros y I. apply N1c1. simpl. auto.
    - intros x I. apply in_app_iff in I as [I|I]; auto.
      destruct (has x (c_refs c)) eqn:E; auto. apply M1 in E. rewrite F2 in E; auto.
    - intros x. rewrite G2, G1. unfold mem. rewrite existsb_app. fold (mem x N1). fold (mem x N2).
      destruct (mem x N1) eqn:E1, (mem x N2) eqn:E2; reflexivity.
    - intros x I. apply in_app_iff in I as [I|I]; auto.
    - intros d x I J. apply in_app_iff in I as [I|I]; eauto.
    - intros x. rewrite O2, O1, occ_app, sum_occ_app. lia.
    - intros x I. apply in_app_iff in I as [I|I]; [apply R1 in I as [I B]|apply R2 in I as [I B]]; split; auto;
        (eapply reach_incl; [|exact I]); intros y J; constructor; apply in_app_iff; auto.
  Qed.

  Lemma count_bump x name c : count_of x (bump name c) = count_of x c + (if String.eqb x name then 1 else 0).
  Proof.
    unfold count_of, bump. cbn [c_count]. rewrite get_put. destruct (String.eqb x name) eqn:E.
    - apply String.eqb_eq in E. subst. fold (count_of name c). lia.
    - destruct (get x (c_count c)); lia.
  Qed.

  Lemma occ_one x name : occ x [name] = if String.eqb x name then 1 else 0.
  Proof.
    unfold occ. simpl. destruct (string_dec name x).
    - subst. rewrite String.eqb_refl. reflexivity.
    - destruct (String.eqb x name) eqn:E; auto. apply String.eqb_eq in E. congruence.
  Qed.

  Lemma iter_visited n : (forall name c c', dfs n name c = Ok c' -> visited [name] c c') ->
    forall L c c', iter_list (dfs n) L c = Ok c' -> visited L c c'.
  Proof.
    intros H. induction L as [|x L IH]; simpl; intros c c' E.
    - injection E as <-. apply visited_nil.
    - destruct (dfs n x c) as [c1| |] eqn:E1; try discriminate. simpl in E.
      apply (visited_app [x] L c c1 c'); auto.
  Qed.

  Lemma dfs_visited n : forall name c c', dfs n name c = Ok c' -> visited [name] c c'.
  Proof.
    induction n as [|n IH]; intros name c c' E; [discriminate|]. cbn [dfs] in E.
    destruct (has name (c_refs c)) eqn:H.
    - simpl in E. injection E as <-. exists []. parts; try (simpl; tauto).
      + constructor.
      + intros x [<-|[]]. exact H.
      + intros x. rewrite count_bump, occ_one. cbn [sum_occ]. lia.
    - destruct (good name) eqn:Hg; [|discriminate].
      destruct (iter_list (dfs n) (G name) (set_ref name (pre name) c)) as [c2| |] eqn:E2; try discriminate.
      simpl in E. injection E as <-.
      apply (iter_visited n IH) in E2. destruct E2 as (N & D & F & Gt & I & C & O & R).
      assert (Nn : ~ In name N).
      { intros X. apply F in X. unfold set_ref in X. cbn [c_refs] in X. unfold has in X. rewrite get_put_same in X. discriminate. }
      assert (P2 : get name (c_refs c2) = Some (pre name)).
      { rewrite Gt. destruct (mem name N) eqn:X; [apply mem_In in X; contradiction|].
        unfold set_ref. cbn [c_refs]. apply get_put_same. }
      assert (M2 : forall x, has x (c_refs c2) = true -> has x (c_refs (bump name (fin name c2))) = true).
      { intros x X. unfold has in *. cbn [bump c_refs]. rewrite fin_refs by exact P2. destruct (String.eqb x name); auto. }
      exists (name :: N). parts.
      + constructor; auto.
      + intros x [<-|X]; auto. apply F in X. unfold has, set_ref in *. cbn [c_refs] in X.
        rewrite get_put in X. destruct (String.eqb x name) eqn:E; [discriminate|]. exact X.
      + intros x. cbn [bump c_refs]. rewrite fin_refs by exact P2. rewrite mem_cons.
        destruct (String.eqb x name) eqn:E.
        * apply String.eqb_eq in E. subst. reflexivity.
        * cbn [orb]. rewrite Gt. destruct (mem x N); auto. unfold set_ref. cbn [c_refs]. rewrite get_put, E. reflexivity.
      + intros x [<-|[]]. apply M2. unfold has. rewrite P2. reflexivity.
      + intros d x [<-|X] J; apply M2; eauto.
      + intros x. rewrite count_bump, occ_one. unfold count_of at 1. rewrite fin_count. fold (count_of x c2).
        rewrite O. cbn [sum_occ]. unfold count_of at 1. unfold set_ref. cbn [c_count]. fold (count_of x c). lia.
      + intros x [<-|X].
        * split; auto. constructor. simpl. auto.
        * apply R in X as [X B]. split; auto. eapply reach_incl; [|exact X].
          intros y J. eapply rc_via; [|exact J]. constructor. simpl. auto.
  Qed.

  (* Names that are still to be expanded. *)
  Definition todo (c : ctx) : nat := List.length (filter (fun k => negb (has k (c_refs c))) K).

  Lemma filter_len {A} (f g : A -> bool) l : (forall x, In x l -> f x = true -> g x = true) ->
    List.length (filter f l) <= List.length (filter g l).
  Proof.
    induction l as [|x l IH]; simpl; intros H; auto.
    assert (List.length (filter f l) <= List.length (filter g l)) by (apply IH; intros; apply H; auto).
    destruct (f x) eqn:E.
    - rewrite (H x (or_introl eq_refl) E). simpl. lia.
    - destruct (g x); simpl; lia.
  Qed.

  Lemma filter_all {A} (f : A -> bool) l : List.length (filter f l) <= List.length l.
  Proof. induction l as [|x l IH]; simpl; auto. destruct (f x); simpl; lia. Qed.

  Lemma filter_len_lt {A} (f g : A -> bool) l y : (forall x, In x l -> f x = true -> g x = true) ->
    In y l -> f y = false -> g y = true -> List.length (filter f l) < List.length (filter g l).
  Proof.
    induction l as [|x l IH]; simpl; intros H I F Gy; [contradiction|].
    assert (L : List.length (filter f l) <= List.length (filter g l)) by (apply filter_len; intros; apply H; auto).
    destruct I as [->|I].
    - rewrite F, Gy. simpl. lia.
    - assert (List.length (filter f l) < List.length (filter g l)) by (apply IH; auto).
      destruct (f x) eqn:E.
      + rewrite (H x (or_introl eq_refl) E). simpl. lia.
      + destruct (g x); simpl; lia.
  Qed.

  Lemma todo_le L c c' : visited L c c' -> todo c' <= todo c.
  Proof.
    intros V. apply filter_len. intros x _. rewrite !negb_true_iff. intros H.
    destruct (has x (c_refs c)) eqn:E; auto. rewrite (visited_has _ _ _ _ V E) in H. discriminate.
  Qed.

  Lemma iter_fuel n : (forall name c, 1 + todo c <= n -> dfs n name c <> OutOfFuel) ->
    forall L c, 1 + todo c <= n -> iter_list (dfs n) L c <> OutOfFuel.
  Proof.
    intros H. induction L as [|x L IH]; simpl; intros c F; [discriminate|].
    destruct (dfs n x c) as [c1| |] eqn:E; simpl; try discriminate.
    - apply IH. apply dfs_visited in E. apply todo_le in E. lia.
    - apply H in E; auto.
  Qed.

  Lemma dfs_fuel n : forall name c, 1 + todo c <= n -> dfs n name c <> OutOfFuel.
  Proof.
    induction n as [|n IH]; intros name c F; [lia|]. cbn [dfs].
    destruct (has name (c_refs c)) eqn:H; [discriminate|].
    destruct (good name); [|discriminate].
    destruct (in_dec string_dec name K) as [I|I].
    - assert (T : todo (set_ref name (pre name) c) < todo c).
      { eapply filter_len_lt with (y := name); auto.
        - intros x _. rewrite !negb_true_iff. unfold has, set_ref. cbn [c_refs]. rewrite get_put.
          destruct (String.eqb x name); [discriminate|auto].
        - unfold has, set_ref. cbn [c_refs]. rewrite get_put_same. reflexivity.
        - rewrite H. reflexivity. }
      pose proof (iter_fuel n IH (G name) (set_ref name (pre name) c)) as X.
      destruct (iter_list (dfs n) (G name) (set_ref name (pre name) c)); simpl; try discriminate.
      apply X; auto. lia.
    - rewrite (G_K name I). simpl. discriminate.
  Qed.

  (* A panic comes from a name that is reachable. *)
  Lemma iter_panic n : (forall name c, dfs n name c = Panic -> exists x, reach G [name] x /\ good x = false) ->
    forall L c, iter_list (dfs n) L c = Panic -> exists x, reach G L x /\ good x = false.
  Proof.
    intros H. induction L as [|x L IH]; simpl; intros c E; [discriminate|].
    destruct (dfs n x c) as [c1| |] eqn:E1; simpl in E; try discriminate.
    - apply IH in E as (y & R & B). exists y. split; auto. eapply reach_incl; [|exact R]. intros z I. constructor. simpl. auto.
    - apply H in E1 as (y & R & B). exists y. split; auto. eapply reach_incl; [|exact R].
      intros z [<-|[]]. constructor. simpl. auto.
  Qed.

  Lemma dfs_panic n : forall name c, dfs n name c = Panic -> exists x, reach G [name] x /\ good x = false.
  Proof.
    induction n as [|n IH]; intros name c E; [discriminate|]. cbn [dfs] in E.
    destruct (has name (c_refs c)) eqn:H; [discriminate|].
    destruct (good name) eqn:Hg.
    - destruct (iter_list (dfs n) (G name) (set_ref name (pre name) c)) as [c1| |] eqn:E1; try discriminate.
      apply (iter_panic n IH) in E1 as (y & R & B). exists y. split; auto. eapply reach_incl; [|exact R].
      intros z I. eapply rc_via; [|exact I]. constructor. simpl. auto.
    - exists name. split; auto. constructor. simpl. auto.
  Qed.

  (* From the start. *)
  Record complete (L : list string) (c : ctx) (N : list string) : Prop := mkComplete {
    cp_nodup : NoDup N;
    cp_reach : forall x, In x N <-> reach G L x;
    cp_refs : forall x, get x (c_refs c) = if mem x N then Some (body x) else None;
    cp_count : forall x, count_of x c = occ x L + sum_occ G x N;
    cp_good : forall x, reach G L x -> good x = true }.

  Lemma visit_result n L : S (List.length K) <= n ->
    match iter_list (dfs n) L ctx0 with
    | Ok c => exists N, complete L c N
    | Panic => exists x, reach G L x /\ good x = false
    | OutOfFuel => False
    end.
  Proof.
    intros F. destruct (iter_list (dfs n) L ctx0) as [c| |] eqn:E.
    - apply (iter_visited n (dfs_visited n)) in E. destruct E as (N & D & _ & Gt & I & C & O & R).
      assert (Gt' : forall x, get x (c_refs c) = if mem x N then Some (body x) else None) by (intros x; rewrite Gt; reflexivity).
      assert (HN : forall x, has x (c_refs c) = true -> In x N).
      { intros x H. unfold has in H. rewrite Gt' in H. destruct (mem x N) eqn:M; [apply mem_In; auto|discriminate]. }
      assert (RN : forall x, reach G L x -> In x N).
      { intros x X. induction X; eauto. }
      exists N. split; auto.
      + intros x. split; auto. intros X. apply R in X. tauto.
      + intros x X. apply RN in X. apply R in X. tauto.
    - apply (iter_panic n (dfs_panic n)) in E. exact E.
    - revert E. apply (iter_fuel n (dfs_fuel n)). unfold todo.
      pose proof (filter_all (fun k => negb (has k (c_refs ctx0))) K). lia.
  Qed.
End Graph.

Lemma sum_occ_zero G x N : sum_occ G x N = 0 <-> forall d, In d N -> ~ In x (G d).
Proof.
  induction N as [|d N IH]; simpl; split; intros H.
  - tauto.
  - reflexivity.
  - intros e [<-|I].
    + intros X. apply (count_occ_In string_dec) in X. fold (occ x (G d)) in X. lia.
    + apply IH; auto. lia.
  - assert (sum_occ G x N = 0) by (apply IH; auto).
    assert (occ x (G d) = 0); [|lia]. unfold occ. apply count_occ_not_In. auto.
Qed.

Lemma sum_occ_perm G x N N' : Permutation N N' -> sum_occ G x N = sum_occ G x N'.
Proof. induction 1; simpl; lia. Qed.

Lemma occ_perm x l l' : Permutation l l' -> occ x l = occ x l'.
Proof. intros P. apply Permutation_count_occ. exact P. Qed.

Lemma sum_occ_ext G G' x N : (forall d, Permutation (G d) (G' d)) -> sum_occ G x N = sum_occ G' x N.
Proof. intros H. induction N as [|d N IH]; simpl; auto. rewrite (occ_perm x _ _ (H d)). lia. Qed.

Lemma reach_perm G G' L L' x : (forall y, In y L -> In y L') -> (forall d y, In y (G d) -> In y (G' d)) ->
  reach G L x -> reach G' L' x.
Proof. intros H1 H2 R. induction R; [constructor; auto | eapply rc_via; eauto]. Qed.
