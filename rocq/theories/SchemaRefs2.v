(* Lemmas about the result of ToJSONSchema. *)
From Coq Require Import Permutation Lia.
From Verif Require Import Str SMap Json SchemaModel SchemaSpec SchemaProofs SchemaRefs.

Lemma iter_ext {A} (f g : A -> ctx -> res ctx) l c : (forall x c, f x c = g x c) -> iter_list f l c = iter_list g l c.
Proof.
  intros H. revert c. induction l as [|x l IH]; intros c; [reflexivity|]. simpl. rewrite H. apply bind_ext. exact IH.
Qed.

Lemma get_del {A} k x (m : smap A) : get x (del k m) = if String.eqb x k then None else get x m.
Proof.
  unfold del. induction m as [|[k' v] m IH]; simpl.
  - destruct (String.eqb x k); reflexivity.
  - destruct (String.eqb k k') eqn:E; simpl.
    + rewrite IH. apply String.eqb_eq in E. subst. destruct (String.eqb x k'); reflexivity.
    + rewrite IH. destruct (String.eqb x k') eqn:E2; auto. apply String.eqb_eq in E2. subst.
      rewrite String.eqb_sym, E. reflexivity.
Qed.

(* More fuel changes nothing. *)
Section More.
  Variables (G : string -> list string) (good : string -> bool) (pre : string -> jsob) (fin : string -> ctx -> ctx).
  Notation dfs := (dfs G good pre fin).

  Lemma dfs_more n : forall name c, dfs n name c <> OutOfFuel -> forall m, n <= m -> dfs m name c = dfs n name c.
  Proof.
    induction n as [|n IH]; intros name c H m L; [contradiction H; reflexivity|].
    destruct m as [|m]; [lia|]. cbn [SchemaRefs.dfs] in *.
    destruct (has name (c_refs c)); auto. destruct (good name); auto.
    assert (E : forall l c, iter_list (dfs n) l c <> OutOfFuel -> iter_list (dfs m) l c = iter_list (dfs n) l c).
    { induction l as [|x l IHl]; intros c0 H0; [reflexivity|]. simpl in *.
      destruct (dfs n x c0) as [c1| |] eqn:E.
      - rewrite (IH x c0), E by (rewrite ?E; try discriminate; lia). simpl. auto.
      - rewrite (IH x c0), E by (rewrite ?E; try discriminate; lia). reflexivity.
      - contradiction H0. reflexivity. }
    rewrite E; auto. intros X. rewrite X in H. apply H. reflexivity.
  Qed.

  Lemma iter_more n l c : iter_list (dfs n) l c <> OutOfFuel -> forall m, n <= m ->
    iter_list (dfs m) l c = iter_list (dfs n) l c.
  Proof.
    revert c. induction l as [|x l IHl]; intros c0 H0 m L; [reflexivity|]. simpl in *.
    destruct (dfs n x c0) as [c1| |] eqn:E.
    - rewrite (dfs_more n x c0), E by (rewrite ?E; try discriminate; lia). simpl. apply IHl; auto.
    - rewrite (dfs_more n x c0), E by (rewrite ?E; try discriminate; lia). reflexivity.
    - contradiction H0. reflexivity.
  Qed.
End More.

(* ------------------------------------------------------------------ *)
(* The end of ToJSONSchema, common to both packages                        *)

Definition finish (root : option string) (js : jsob) (c : ctx) : res result :=
  match root with
  | Some r =>
      let dst := trim_prefix components_schemas r in
      if count_of dst c =? 1
      then match get dst (c_refs c) with
           | Some js => Ok (js, del dst (c_refs c))
           | None => Ok (JSZero, c_refs c)
           end
      else Ok (js, c_refs c)
  | None => Ok (js, c_refs c)
  end.

(* The root reference is inlined. *)
Definition is_inlined (G : string -> list string) (body : string -> jsob) (n : string) (N : list string) (js : jsob) (defs : smap jsob) : Prop :=
  (forall d, reach G [n] d -> ~ In n (G d)) /\ js = body n /\
  forall x, get x defs = if String.eqb x n then None else if mem x N then Some (body x) else None.

Lemma finish_local G good body n c N js0 js defs :
  complete G good body [n] c N -> finish (Some (local n)) js0 c = Ok (js, defs) ->
  is_inlined G body n N js defs \/
  ((exists d, reach G [n] d /\ In n (G d)) /\ js = js0 /\ forall x, get x defs = if mem x N then Some (body x) else None).
Proof.
  intros [D R Gt C Gd] H. cbn [finish] in H. rewrite local_trim in H.
  assert (In0 : In n N) by (apply R; constructor; simpl; auto).
  rewrite C in H. assert (O1 : occ n [n] = 1) by (unfold occ; simpl; destruct (string_dec n n); congruence).
  rewrite O1, Gt, (proj2 (mem_In n N) In0) in H.
  destruct (sum_occ G n N) as [|k] eqn:E.
  - simpl in H. injection H as <- <-. left. split; [|split].
    + rewrite sum_occ_zero in E. intros d X. apply E. apply R. exact X.
    + reflexivity.
    + intros x. rewrite get_del, Gt. reflexivity.
  - simpl in H. injection H as <- <-. right. split; [|split]; auto.
    destruct (Exists_dec (fun d => In n (G d)) N) as [X|X].
    + intros d. apply in_dec. apply string_dec.
    + apply Exists_exists in X as (d & I & J). exists d. split; auto. apply R. exact I.
    + exfalso. assert (Z : sum_occ G n N = 0); [|congruence]. apply sum_occ_zero.
      intros d I J. apply X. apply Exists_exists. eauto.
Qed.

Lemma finish_foreign G good body L r c N js0 js defs :
  has_prefix components_schemas r = false -> complete G good body L c N -> L = [] ->
  finish (Some r) js0 c = Ok (js, defs) -> js = js0 /\ forall x, get x defs = if mem x N then Some (body x) else None.
Proof.
  intros P [D R Gt C Gd] -> H. cbn [finish] in H. rewrite C in H.
  assert (E : N = []).
  { destruct N as [|x N]; auto. assert (X : reach G [] x) by (apply R; simpl; auto).
    exfalso. clear - X. induction X; auto. }
  subst N. simpl in H. injection H as <- <-. auto.
Qed.

Lemma finish_total root js c : exists x, finish root js c = Ok x.
Proof.
  unfold finish. destruct root as [r|]; eauto. destruct (_ =? 1); eauto. destruct (get _ _); eauto.
Qed.

(* ------------------------------------------------------------------ *)
(* 3.0                                                                   *)

Definition G30 (cs : comps30) (d : string) : list string := orefs (comp30 cs d).
Definition good30 (cs : comps30) (_ : string) : bool := match cs with Some _ => true | None => false end.
Definition body30 (cs : comps30) (d : string) : jsob := conv (comp30 cs d).
Definition fin30 (cs : comps30) (d : string) (c : ctx) : ctx := set_ref d (body30 cs d) c.
Definition dfs30 (cs : comps30) : nat -> string -> ctx -> res ctx := dfs (G30 cs) (good30 cs) (fun _ => JSZero) (fin30 cs).

Lemma on_ref30_dfs cs n : forall name c, on_ref30 n cs name c = dfs30 cs n name c.
Proof.
  unfold dfs30. induction n as [|n IH]; intros name c; [reflexivity|]. cbn [on_ref30 dfs].
  destruct (has name (c_refs c)); [reflexivity|]. destruct cs as [m|]; [|reflexivity]. cbn [good30].
  rewrite tjs_visit. rewrite !bind_bind. unfold G30. cbn [comp30]. rewrite (iter_ext _ _ _ _ IH).
  apply bind_ext. intros c1. reflexivity.
Qed.

Lemma fin30_refs cs name c x : get name (c_refs c) = Some JSZero ->
  get x (c_refs (fin30 cs name c)) = if String.eqb x name then Some (body30 cs name) else get x (c_refs c).
Proof. intros _. unfold fin30, set_ref. cbn [c_refs]. apply get_put. Qed.

Lemma G30_K cs d : ~ In d (match cs with Some m => keys m | None => [] end) -> G30 cs d = [].
Proof.
  unfold G30, comp30, oenv. destruct cs as [m|]; intros H; [|reflexivity].
  apply get_None in H. rewrite H. reflexivity.
Qed.

Definition root30 (o : osor) : option string := match o with ORef r => Some r | _ => None end.

Lemma toj30_eq n o cs :
  to_json_schema30_fuel n o cs = bind (iter_list (dfs30 cs n) (orefs o) ctx0) (fun c => finish (root30 o) (conv o) c).
Proof.
  unfold to_json_schema30_fuel. rewrite tjs_visit, bind_bind. rewrite (iter_ext _ _ _ _ (on_ref30_dfs cs n)).
  apply bind_ext. intros c. cbn [bind]. destruct o; reflexivity.
Qed.

Lemma visit30 cs n L : enough cs <= n ->
  match iter_list (dfs30 cs n) L ctx0 with
  | Ok c => exists N, complete (G30 cs) (good30 cs) (body30 cs) L c N
  | Panic => exists x, reach (G30 cs) L x /\ good30 cs x = false
  | OutOfFuel => False
  end.
Proof.
  intros H. unfold dfs30.
  apply visit_result with (K := match cs with Some m => keys m | None => [] end).
  - apply fin30_refs.
  - reflexivity.
  - apply G30_K.
  - destruct cs as [m|]; simpl in *; [|lia]. unfold keys. rewrite map_length. lia.
Qed.

Lemma toj30_fuel n o cs : enough cs <= n ->
  to_json_schema30_fuel n o cs <> OutOfFuel /\ to_json_schema30_fuel n o cs = to_json_schema30 o cs.
Proof.
  intros L. unfold to_json_schema30. rewrite !toj30_eq.
  assert (N0 : iter_list (dfs30 cs (enough cs)) (orefs o) ctx0 <> OutOfFuel).
  { pose proof (visit30 cs (enough cs) (orefs o) (le_n _)) as V. intros X. rewrite X in V. exact V. }
  assert (E : iter_list (dfs30 cs n) (orefs o) ctx0 = iter_list (dfs30 cs (enough cs)) (orefs o) ctx0)
    by (apply iter_more; auto).
  rewrite E. split; auto.
  destruct (iter_list (dfs30 cs (enough cs)) (orefs o) ctx0) as [c| |]; simpl; try discriminate; auto.
  destruct (finish_total (root30 o) (conv o) c) as [x ->]. discriminate.
Qed.

Lemma reach_nil G x : ~ reach G [] x.
Proof. intros R. induction R; auto. Qed.

Lemma toj30_panic o cs : to_json_schema30 o cs = Panic <-> cs = None /\ exists n, omentions n o.
Proof.
  unfold to_json_schema30. rewrite toj30_eq. pose proof (visit30 cs (enough cs) (orefs o) (le_n _)) as V.
  destruct (iter_list (dfs30 cs (enough cs)) (orefs o) ctx0) as [c| |] eqn:E; simpl.
  - destruct (finish_total (root30 o) (conv o) c) as [x ->]. split; [discriminate|].
    intros [-> [n M]]. apply orefs_mentions in M. destruct V as [N [_ _ _ _ Gd]].
    specialize (Gd n (rc_here _ _ _ M)). discriminate.
  - split; auto. intros _. destruct V as (x & R & B). destruct cs; [discriminate|]. split; auto.
    destruct (orefs o) as [|n l] eqn:Eo; [exfalso; eapply reach_nil; eauto|]. exists n. apply orefs_mentions.
    rewrite Eo. simpl. auto.
  - destruct V.
Qed.

(* What the result is. *)
Lemma toj30_result o cs js defs : to_json_schema30 o cs = Ok (js, defs) ->
  exists N, NoDup N /\ (forall x, In x N <-> reach (G30 cs) (orefs o) x) /\
    ((exists n, o = ORef (local n) /\ is_inlined (G30 cs) (body30 cs) n N js defs) \/
     ((forall n, o = ORef (local n) -> exists d, reach (G30 cs) (orefs o) d /\ In n (G30 cs d)) /\ js = conv o /\
      forall x, get x defs = if mem x N then Some (body30 cs x) else None)).
Proof.
  unfold to_json_schema30. rewrite toj30_eq. pose proof (visit30 cs (enough cs) (orefs o) (le_n _)) as V.
  destruct (iter_list (dfs30 cs (enough cs)) (orefs o) ctx0) as [c| |] eqn:E; simpl; try discriminate.
  destruct V as [N V]. intros H. exists N. split; [apply (cp_nodup _ _ _ _ _ _ V)|].
  split; [apply (cp_reach _ _ _ _ _ _ V)|].
  destruct o as [|r|a nt al on an it pr ad]; cbn [root30] in H.
  - right. injection H as <- <-. split; [discriminate|]. split; auto. apply (cp_refs _ _ _ _ _ _ V).
  - destruct (has_prefix components_schemas r) eqn:P.
    + apply local_of in P. rewrite P in *. clear P. set (n := trim_prefix components_schemas r) in *. clearbody n.
      cbn [orefs] in *. rewrite ref_names_local in *.
      destruct (finish_local _ _ _ _ _ _ _ _ _ V H) as [X|(X & Y & Z)].
      * left. eauto.
      * right. split; [|split]; auto. intros n' En. assert (En' : n = n') by (apply local_inj; congruence). subst n'. auto.
    + right. cbn [orefs] in V. unfold ref_names in V. rewrite P in V.
      destruct (finish_foreign _ _ _ _ _ _ _ _ _ _ P V eq_refl H) as [Y Z]. split; auto.
      intros n En. assert (En' : r = local n) by congruence. rewrite En', local_prefix in P. discriminate.
  - right. cbn [finish] in H. injection H as <- <-. split; [discriminate|]. split; auto. apply (cp_refs _ _ _ _ _ _ V).
Qed.

(* Reachability in terms of the specification. *)
Lemma reach30 cs o x : reach (G30 cs) (orefs o) x <-> reachable omentions (oenv cs) o x.
Proof.
  split.
  - induction 1 as [x I|d x R IH I].
    + constructor. apply orefs_mentions. exact I.
    + unfold G30, comp30, oenv in I. destruct cs as [m|]; [|destruct I].
      destruct (get d m) as [t|] eqn:E; [|destruct I].
      eapply re_via; [exact IH| |apply orefs_mentions; exact I]. exact E.
  - induction 1 as [x I|x d t R IH E I].
    + constructor. apply orefs_mentions. exact I.
    + eapply rc_via; [exact IH|]. unfold G30, comp30, oenv. unfold oenv in E. destruct cs as [m|]; [|discriminate].
      rewrite E. apply orefs_mentions. exact I.
Qed.

Lemma G30_mentions cs d n : In n (G30 cs d) <-> exists t, oenv cs d = Some t /\ omentions n t.
Proof.
  unfold G30, comp30, oenv. destruct cs as [m|].
  - destruct (get d m) as [t|].
    + rewrite orefs_mentions. split; eauto. intros (t' & E & M). congruence.
    + split; [intros []|]. intros (t' & E & M). discriminate.
  - split; [intros []|]. intros (t' & E & M). discriminate.
Qed.

(* ------------------------------------------------------------------ *)
(* 3.1                                                                   *)

Section V31.
  Variable nil_map : option jsob.
  Variable cs : comps31.

  Local Notation comp31 := (comp31 nil_map cs).
  Definition G31 (d : string) : list string := match comp31 d with Some s => jrefs s | None => [] end.
  Definition good31 (d : string) : bool := match comp31 d with Some _ => true | None => false end.
  Definition body31 (d : string) : jsob := match comp31 d with Some s => s | None => JSZero end.
  Definition dfs31 : nat -> string -> ctx -> res ctx := dfs G31 good31 body31 (fun _ c => c).

  Lemma bind_ret {A} (x : res A) : bind x (fun a => Ok a) = x.
  Proof. destruct x; reflexivity. Qed.

  Lemma on_ref31_dfs n : forall name c, on_ref31 n nil_map cs name c = dfs31 n name c.
  Proof.
    unfold dfs31. induction n as [|n IH]; intros name c; [reflexivity|]. cbn [on_ref31 dfs].
    destruct (has name (c_refs c)); [reflexivity|].
    assert (M : forall k : jsob -> res ctx,
      match cs with None => Panic | Some m => match component31 nil_map m name with None => Panic | Some s => k s end end
      = match comp31 name with None => Panic | Some s => k s end) by (intros k; unfold comp31; destruct cs; reflexivity).
    rewrite M. clear M.
    destruct (comp31 name) as [s|] eqn:E.
    - assert (E1 : good31 name = true) by (unfold good31; rewrite E; reflexivity).
      assert (E2 : G31 name = jrefs s) by (unfold G31; rewrite E; reflexivity).
      assert (E3 : body31 name = s) by (unfold body31; rewrite E; reflexivity).
      rewrite E1, E2, E3, bind_ret, find_visit, (iter_ext _ _ _ _ IH). reflexivity.
    - assert (E1 : good31 name = false) by (unfold good31; rewrite E; reflexivity).
      rewrite E1. reflexivity.
  Qed.

  Hypothesis nil_ok : forall s, nil_map = Some s -> jrefs s = [].

  Lemma G31_K d : ~ In d (match cs with Some m => keys m | None => [] end) -> G31 d = [].
  Proof.
    unfold G31, comp31. destruct cs as [m|]; intros H; [|reflexivity].
    apply get_None in H. rewrite H. destruct nil_map; auto.
  Qed.

  Definition root31 (s : jsob) : option string := match s with JSObj _ r _ _ _ _ _ _ _ _ _ => r | _ => None end.
  Definition ens (s : jsob) : jsob := match s with JSZero => JSObj ja0 None None [] [] [] None [] [] None [] | _ => s end.

  Lemma toj31_eq n s :
    to_json_schema31_fuel n nil_map s cs = bind (iter_list (dfs31 n) (jrefs s) ctx0) (fun c => finish (root31 s) (ens s) c).
  Proof.
    unfold to_json_schema31_fuel. rewrite find_visit. rewrite (iter_ext _ _ _ _ (on_ref31_dfs n)).
    apply bind_ext. intros c. destruct s as [| |a [r|] nt al on an it tu pr ad ot]; reflexivity.
  Qed.

  Lemma visit31 n L : enough cs <= n ->
    match iter_list (dfs31 n) L ctx0 with
    | Ok c => exists N, complete G31 good31 body31 L c N
    | Panic => exists x, reach G31 L x /\ good31 x = false
    | OutOfFuel => False
    end.
  Proof.
    intros H. unfold dfs31.
    apply visit_result with (K := match cs with Some m => keys m | None => [] end).
    - intros name c x E. destruct (String.eqb x name) eqn:X; auto. apply String.eqb_eq in X. subst. exact E.
    - reflexivity.
    - apply G31_K.
    - destruct cs as [m|]; simpl in *; [|lia]. unfold keys. rewrite map_length. lia.
  Qed.

  Lemma toj31_fuel n s : enough cs <= n ->
    to_json_schema31_fuel n nil_map s cs <> OutOfFuel /\ to_json_schema31_fuel n nil_map s cs = to_json_schema31 nil_map s cs.
  Proof.
    intros L. unfold to_json_schema31. rewrite !toj31_eq.
    assert (N0 : iter_list (dfs31 (enough cs)) (jrefs s) ctx0 <> OutOfFuel).
    { pose proof (visit31 (enough cs) (jrefs s) (le_n _)) as V. intros X. rewrite X in V. exact V. }
    assert (E : iter_list (dfs31 n) (jrefs s) ctx0 = iter_list (dfs31 (enough cs)) (jrefs s) ctx0)
      by (apply iter_more; auto).
    rewrite E. split; auto.
    destruct (iter_list (dfs31 (enough cs)) (jrefs s) ctx0) as [c| |]; simpl; try discriminate; auto.
    destruct (finish_total (root31 s) (ens s) c) as [x ->]. discriminate.
  Qed.

  Lemma toj31_panic s : to_json_schema31 nil_map s cs = Panic <-> exists x, reach G31 (jrefs s) x /\ comp31 x = None.
  Proof.
    unfold to_json_schema31. rewrite toj31_eq. pose proof (visit31 (enough cs) (jrefs s) (le_n _)) as V.
    destruct (iter_list (dfs31 (enough cs)) (jrefs s) ctx0) as [c| |] eqn:E; simpl.
    - destruct (finish_total (root31 s) (ens s) c) as [x ->]. split; [discriminate|].
      intros (x0 & R & B). destruct V as [N [_ _ _ _ Gd]]. apply Gd in R. unfold good31 in R. rewrite B in R. discriminate.
    - split; auto. intros _. destruct V as (x & R & B). exists x. split; auto. unfold good31 in B.
      destruct (comp31 x); [discriminate|auto].
    - destruct V.
  Qed.

  Lemma toj31_result s js defs : to_json_schema31 nil_map s cs = Ok (js, defs) ->
    exists N, NoDup N /\ (forall x, In x N <-> reach G31 (jrefs s) x) /\
      (forall x, reach G31 (jrefs s) x -> comp31 x = Some (body31 x)) /\
      ((exists n, root31 s = Some (local n) /\ is_inlined G31 body31 n N js defs) \/
       ((forall n, root31 s = Some (local n) -> exists d, reach G31 (jrefs s) d /\ In n (G31 d)) /\ js = ens s /\
        forall x, get x defs = if mem x N then Some (body31 x) else None)).
  Proof.
    unfold to_json_schema31. rewrite toj31_eq. pose proof (visit31 (enough cs) (jrefs s) (le_n _)) as V.
    destruct (iter_list (dfs31 (enough cs)) (jrefs s) ctx0) as [c| |] eqn:E; simpl; try discriminate.
    destruct V as [N V]. intros H. exists N. split; [apply (cp_nodup _ _ _ _ _ _ V)|].
    split; [apply (cp_reach _ _ _ _ _ _ V)|].
    split.
    { intros x R. apply (cp_good _ _ _ _ _ _ V) in R. unfold good31, body31 in *. destruct (comp31 x); [auto|discriminate]. }
    destruct s as [| |a [r|] nt al on an it tu pr ad ot]; cbn [root31] in H.
    - right. injection H as <- <-. split; [discriminate|]. split; auto. apply (cp_refs _ _ _ _ _ _ V).
    - right. injection H as <- <-. split; [discriminate|]. split; auto. apply (cp_refs _ _ _ _ _ _ V).
    - destruct (has_prefix components_schemas r) eqn:P.
      + apply local_of in P. rewrite P in *. clear P. set (n := trim_prefix components_schemas r) in *. clearbody n.
        cbn [jrefs root31] in *. rewrite ref_names_local in *.
        destruct (finish_local _ _ _ _ _ _ _ _ _ V H) as [X|(X & Y & Z)].
        * left. eauto.
        * right. split; [|split]; auto. intros n' En. assert (En' : n = n') by (apply local_inj; congruence). subst n'. auto.
      + right. cbn [jrefs] in V. unfold ref_names in V. rewrite P in V.
        destruct (finish_foreign _ _ _ _ _ _ _ _ _ _ P V eq_refl H) as [Y Z]. split; auto.
        intros n En. cbn [root31] in En. assert (En' : r = local n) by congruence. rewrite En', local_prefix in P. discriminate.
    - right. cbn [finish] in H. injection H as <- <-. split; [discriminate|]. split; auto. apply (cp_refs _ _ _ _ _ _ V).
  Qed.
End V31.

(* ------------------------------------------------------------------ *)
(* ToJSONSchema keeps the meaning                                        *)

(* Only the references that occur matter. *)
Lemma omeaning_mono_in O rs rs' s :
  (forall n v, In n (orefs s) -> ole (rs (local n) v) (rs' (local n) v)) ->
  (forall r v, has_prefix components_schemas r = false -> rs r v = rs' r v) ->
  forall v, ole (omeaning O rs s v) (omeaning O rs' s v).
Proof.
  intros HR HE. revert HR.
  induction s as [|r|a nt al on an it pr ad Hnt Hal Hon Han Hit Hpr Had] using osor_ind'; intros HR v.
  - apply ole_refl.
  - cbn [omeaning]. destruct (has_prefix components_schemas r) eqn:P.
    + rewrite (local_of r P). apply HR. cbn [orefs]. apply ref_names_In. apply local_of. exact P.
    + rewrite HE by exact P. apply ole_refl.
  - cbn [omeaning]. rewrite Forall_forall in Hal, Hon, Han, Hpr.
    assert (M : forall n t, ochild (OSch a nt al on an it pr ad) t -> In n (orefs t) -> In n (orefs (OSch a nt al on an it pr ad))).
    { intros n t C I. apply orefs_mentions. eapply om_child; [exact C|]. apply orefs_mentions. exact I. }
    repeat apply vand_mono.
    + apply ole_refl.
    + apply vopt_mono. intros s E. apply vnot_mono. apply Hnt; auto. intros n w I. apply HR. eapply M; [|exact I]. subst. apply oc_not.
    + apply vall_mono. intros s E. apply Hal; auto. intros n w I. apply HR. eapply M; [|exact I]. apply oc_all. auto.
    + apply vone_mono, vcount_mono. intros s E. apply Hon; auto. intros n w I. apply HR. eapply M; [|exact I]. apply oc_one. auto.
    + apply vany_mono, vcount_mono. intros s E. apply Han; auto. intros n w I. apply HR. eapply M; [|exact I]. apply oc_any. auto.
    + apply vopt_mono. intros s E. apply vall_mono. intros x _. apply Hit; auto. intros n w I. apply HR. eapply M; [|exact I]. subst. apply oc_items.
    + apply vprops_mono. intros k s E. apply (Hpr (k, s) E). intros n w I. apply HR. eapply M; [|exact I]. eapply oc_prop. exact E.
    + destruct ad as [[[b|] [s|]]|]; try apply ole_refl. apply vaddl_mono. intros x. eapply Had; eauto.
      intros n w I. apply HR. eapply M; [|exact I]. apply oc_addl.
Qed.

Lemma comp30_oenv cs d o : oenv cs d = Some o -> comp30 cs d = o.
Proof. unfold comp30, oenv. destruct cs as [m|]; [|discriminate]. intros ->. reflexivity. Qed.

(* Definitions that agree with the components on a closed set of names. *)
Section Agree.
  Variables (O : oracle) (cs : comps30) (defs : smap jsob) (S : string -> Prop).
  Hypothesis typed : forall d s, oenv cs d = Some s -> nullable_typed s.
  Hypothesis agree : forall d, S d -> get d defs = Some (body30 cs d).
  Hypothesis closed : forall d n, S d -> In n (G30 cs d) -> S n.

  Let of := follow (omeaning O) O (oenv cs).
  Let jf := follow (jmeaning O) O (fun n => get n defs).

  Lemma follow_ext_foreign n m r v : has_prefix components_schemas r = false -> of n r v = jf m r v.
  Proof. intros P. unfold of, jf. destruct n, m; cbn [follow]; change schemas_at with components_schemas; rewrite P; reflexivity. Qed.

  Lemma agree_follow n : forall d v, S d -> ole (of n (local d) v) (jf n (local d) v).
  Proof.
    induction n as [|n IH]; intros d v Sd.
    - unfold of. cbn [follow]; change schemas_at with components_schemas. rewrite local_prefix. intros a E. discriminate.
    - unfold of, jf. cbn [follow]; change schemas_at with components_schemas. rewrite local_prefix, local_trim. rewrite (agree d Sd).
      destruct (oenv cs d) as [o|] eqn:E; [|intros a X; discriminate].
      unfold body30. rewrite (comp30_oenv _ _ _ E). rewrite conv_meaning by (eapply typed; exact E).
      apply omeaning_mono_in.
      + intros x w I. apply IH. apply (closed d); auto. unfold G30. rewrite (comp30_oenv _ _ _ E). exact I.
      + intros r w P. apply (follow_ext_foreign n n r w P).
  Qed.

  Hypothesis present : forall d, S d -> oenv cs d <> None.

  Lemma agree_follow_back n : forall d v, S d -> ole (jf n (local d) v) (of n (local d) v).
  Proof.
    induction n as [|n IH]; intros d v Sd.
    - unfold jf. cbn [follow]; change schemas_at with components_schemas. rewrite local_prefix. intros a E. discriminate.
    - unfold of, jf. cbn [follow]; change schemas_at with components_schemas. rewrite local_prefix, local_trim. rewrite (agree d Sd).
      destruct (oenv cs d) as [o|] eqn:E; [|exfalso; eapply present; eauto].
      unfold body30. rewrite (comp30_oenv _ _ _ E). rewrite conv_meaning by (eapply typed; exact E).
      apply omeaning_mono_in.
      + intros x w I. apply IH. apply (closed d); auto. unfold G30. rewrite (comp30_oenv _ _ _ E). exact I.
      + intros r w P. symmetry. apply (follow_ext_foreign n n r w P).
  Qed.
End Agree.

Lemma nullable_none : nullable_typed ONone.
Proof. constructor. Qed.

Lemma comp30_typed cs d : (forall d s, oenv cs d = Some s -> nullable_typed s) -> nullable_typed (comp30 cs d).
Proof.
  intros H. unfold comp30, oenv. destruct cs as [m|]; [|constructor].
  destruct (get d m) as [o|] eqn:E; [|constructor]. apply (H d). exact E.
Qed.

Lemma toj30_says O o cs js defs :
  nullable_typed o -> (forall d s, oenv cs d = Some s -> nullable_typed s) ->
  to_json_schema30 o cs = Ok (js, defs) ->
  forall v b, osays O (oenv cs) o v b -> jsays O (fun n => get n defs) js v b.
Proof.
  intros To Tc H v b [n Hn].
  apply toj30_result in H as (N & D & R & [(nm & -> & Hin & -> & Hd)|(_ & -> & Hd)]).
  - (* inlined *)
    cbn [omeaning] in Hn. destruct n as [|n].
    { cbn [follow] in Hn; change schemas_at with components_schemas in Hn. rewrite local_prefix in Hn. discriminate. }
    cbn [follow] in Hn; change schemas_at with components_schemas in Hn. rewrite local_prefix, local_trim in Hn.
    destruct (oenv cs nm) as [o|] eqn:E; [|discriminate].
    assert (Ec : comp30 cs nm = o).
    { unfold comp30, oenv in *. destruct cs; [rewrite E; auto|discriminate]. }
    exists n. unfold body30. rewrite Ec. rewrite conv_meaning by (eapply Tc; exact E).
    revert Hn. apply omeaning_mono_in.
    + intros d w I.
      apply (agree_follow O cs defs (fun d => In d N /\ d <> nm)).
      * exact Tc.
      * intros x [I1 I2]. rewrite Hd. apply String.eqb_neq in I2. rewrite I2, (proj2 (mem_In x N) I1). reflexivity.
      * intros x y [I1 I2] J. apply R in I1. split.
        -- apply R. eapply rc_via; eauto.
        -- intros ->. cbn [orefs] in I1. rewrite ref_names_local in I1. apply (Hin x I1 J).
      * assert (Rn : reach (G30 cs) [nm] nm) by (constructor; simpl; auto).
        split.
        -- apply R. cbn [orefs]. rewrite ref_names_local. eapply rc_via; [exact Rn|]. unfold G30. rewrite Ec. exact I.
        -- intros ->. apply (Hin nm Rn). unfold G30. rewrite Ec. exact I.
    + intros r w P. apply (follow_ext_foreign O cs defs n n r w P).
  - exists n. rewrite conv_meaning by exact To. revert Hn. apply omeaning_mono_in.
    + intros d w I. apply (agree_follow O cs defs (fun d => In d N)).
      * exact Tc.
      * intros x I1. rewrite Hd, (proj2 (mem_In x N) I1). reflexivity.
      * intros x y I1 J. apply R. eapply rc_via; [apply R; exact I1|exact J].
      * apply R. constructor. exact I.
    + intros r w P. apply (follow_ext_foreign O cs defs n n r w P).
Qed.

Lemma toj30_says_back O o cs js defs :
  nullable_typed o -> (forall d s, oenv cs d = Some s -> nullable_typed s) ->
  (forall d, reachable omentions (oenv cs) o d -> oenv cs d <> None) ->
  to_json_schema30 o cs = Ok (js, defs) ->
  forall v b, jsays O (fun n => get n defs) js v b -> osays O (oenv cs) o v b.
Proof.
  intros To Tc Pr H v b [n Hn].
  assert (Pr' : forall d, reach (G30 cs) (orefs o) d -> oenv cs d <> None) by (intros d R; apply Pr, reach30; exact R).
  apply toj30_result in H as (N & D & R & [(nm & -> & Hin & -> & Hd)|(_ & -> & Hd)]).
  - exists (S n). cbn [omeaning follow]; change schemas_at with components_schemas. rewrite local_prefix, local_trim.
    assert (Rn : reach (G30 cs) [nm] nm) by (constructor; simpl; auto).
    cbn [orefs] in *. rewrite ref_names_local in *.
    destruct (oenv cs nm) as [o|] eqn:E; [|exfalso; eapply Pr'; eauto].
    assert (Ec : comp30 cs nm = o).
    { unfold comp30, oenv in *. destruct cs; [rewrite E; auto|discriminate]. }
    unfold body30 in Hn. rewrite Ec in Hn. rewrite conv_meaning in Hn by (eapply Tc; exact E).
    revert Hn. apply omeaning_mono_in.
    + intros d w I.
      apply (agree_follow_back O cs defs (fun d => In d N /\ d <> nm)).
      * exact Tc.
      * intros x [I1 I2]. rewrite Hd. apply String.eqb_neq in I2. rewrite I2, (proj2 (mem_In x N) I1). reflexivity.
      * intros x y [I1 I2] J. apply R in I1. split.
        -- apply R. eapply rc_via; eauto.
        -- intros ->. apply (Hin x I1 J).
      * intros x [I1 _]. apply Pr', R. exact I1.
      * split.
        -- apply R. eapply rc_via; [exact Rn|]. unfold G30. rewrite Ec. exact I.
        -- intros ->. apply (Hin nm Rn). unfold G30. rewrite Ec. exact I.
    + intros r w P. symmetry. apply (follow_ext_foreign O cs defs n n r w P).
  - exists n. rewrite conv_meaning in Hn by exact To. revert Hn. apply omeaning_mono_in.
    + intros d w I. apply (agree_follow_back O cs defs (fun d => In d N)).
      * exact Tc.
      * intros x I1. rewrite Hd, (proj2 (mem_In x N) I1). reflexivity.
      * intros x y I1 J. apply R. eapply rc_via; [apply R; exact I1|exact J].
      * intros x I1. apply Pr', R. exact I1.
      * apply R. constructor. exact I.
    + intros r w P. symmetry. apply (follow_ext_foreign O cs defs n n r w P).
Qed.

(* ------------------------------------------------------------------ *)
(* Self-contained                                                        *)

Lemma toj30_closed o cs js defs n : to_json_schema30 o cs = Ok (js, defs) ->
  jmentions n js \/ (exists d s, get d defs = Some s /\ jmentions n s) ->
  get n defs = Some (conv (comp30 cs n)).
Proof.
  intros H M. apply toj30_result in H as (N & D & R & [(nm & -> & Hin & -> & Hd)|(_ & -> & Hd)]).
  - cbn [orefs] in R. rewrite ref_names_local in R.
    assert (X : exists d, reach (G30 cs) [nm] d /\ In n (G30 cs d)).
    { destruct M as [M|(d & s & E & M)].
      - exists nm. split; [constructor; simpl; auto|]. apply conv_mentions. exact M.
      - rewrite Hd in E. destruct (String.eqb d nm); [discriminate|]. destruct (mem d N) eqn:I; [|discriminate].
        injection E as <-. exists d. split; [apply R, mem_In; exact I|]. apply conv_mentions. exact M. }
    destruct X as (d & Rd & J). rewrite Hd. destruct (String.eqb n nm) eqn:E.
    + apply String.eqb_eq in E. subst. exfalso. apply (Hin d Rd J).
    + assert (I : In n N) by (apply R; eapply rc_via; eauto). rewrite (proj2 (mem_In n N) I). reflexivity.
  - rewrite Hd. assert (I : In n N).
    { destruct M as [M|(d & s & E & M)].
      - apply R. constructor. apply conv_mentions. exact M.
      - rewrite Hd in E. destruct (mem d N) eqn:I; [|discriminate]. injection E as <-.
        apply R. eapply rc_via; [apply R, mem_In; exact I|]. apply conv_mentions. exact M. }
    rewrite (proj2 (mem_In n N) I). reflexivity.
Qed.

(* Nothing else is attached. *)
Lemma toj30_minimal o cs js defs n s : to_json_schema30 o cs = Ok (js, defs) -> get n defs = Some s ->
  reachable omentions (oenv cs) o n /\ s = conv (comp30 cs n).
Proof.
  intros H E. rewrite <- reach30. apply toj30_result in H as (N & D & R & [(nm & -> & Hin & -> & Hd)|(_ & -> & Hd)]).
  - rewrite Hd in E. destruct (String.eqb n nm); [discriminate|]. destruct (mem n N) eqn:I; [|discriminate].
    injection E as <-. split; [apply R, mem_In; exact I | reflexivity].
  - rewrite Hd in E. destruct (mem n N) eqn:I; [|discriminate].
    injection E as <-. split; [apply R, mem_In; exact I | reflexivity].
Qed.

Section Closed31.
  Variables (nil_map : option jsob) (cs : comps31).
  Hypothesis nil_ok : forall s, nil_map = Some s -> jrefs s = [].

  Lemma toj31_closed s js defs n : to_json_schema31 nil_map s cs = Ok (js, defs) ->
    entered s -> (forall d t, reach (G31 nil_map cs) (jrefs s) d -> comp31 nil_map cs d = Some t -> entered t) ->
    jmentions n js \/ (exists d t, get d defs = Some t /\ jmentions n t) ->
    exists t, comp31 nil_map cs n = Some t /\ get n defs = Some t.
  Proof.
    intros H Es Ec M.
    apply (toj31_result nil_map cs nil_ok) in H as (N & D & R & B & [(nm & Hr & Hin & -> & Hd)|(_ & -> & Hd)]).
    - assert (L : jrefs s = [nm]).
      { destruct s as [| |a r nt al on an it tu pr ad ot]; try discriminate. cbn [root31] in Hr. subst r.
        cbn [jrefs]. apply ref_names_local. }
      rewrite L in *.
      assert (X : exists d, reach (G31 nil_map cs) [nm] d /\ In n (G31 nil_map cs d)).
      { assert (In0 : reach (G31 nil_map cs) [nm] nm) by (constructor; simpl; auto).
        destruct M as [M|(d & t & E & M)].
        - exists nm. split; auto. unfold G31. rewrite (B nm In0). apply mentions_jrefs; auto. apply (Ec nm); auto.
        - rewrite Hd in E. destruct (String.eqb d nm); [discriminate|]. destruct (mem d N) eqn:I; [|discriminate].
          injection E as <-. assert (Rd : reach (G31 nil_map cs) [nm] d) by (apply R, mem_In; exact I).
          exists d. split; auto. unfold G31. rewrite (B d Rd). apply mentions_jrefs; auto. apply (Ec d); auto. }
      destruct X as (d & Rd & J).
      assert (Rn : reach (G31 nil_map cs) [nm] n) by (eapply rc_via; eauto).
      exists (body31 nil_map cs n). split; [apply B; exact Rn|].
      rewrite Hd. destruct (String.eqb n nm) eqn:E.
      + apply String.eqb_eq in E. subst. exfalso. apply (Hin d Rd J).
      + rewrite (proj2 (mem_In n N) (proj2 (R n) Rn)). reflexivity.
    - assert (Rn : reach (G31 nil_map cs) (jrefs s) n).
      { destruct M as [M|(d & t & E & M)].
        - constructor. apply mentions_jrefs; auto. destruct s; auto. cbn [ens] in M.
          inversion M; subst. match goal with C : jchild _ _ |- _ => inversion C; subst; contradiction end.
        - rewrite Hd in E. destruct (mem d N) eqn:I; [|discriminate]. injection E as <-.
          assert (Rd : reach (G31 nil_map cs) (jrefs s) d) by (apply R, mem_In; exact I).
          eapply rc_via; [exact Rd|]. unfold G31. rewrite (B d Rd). apply mentions_jrefs; auto. apply (Ec d); auto. }
      exists (body31 nil_map cs n). split; [apply B; exact Rn|]. rewrite Hd.
      rewrite (proj2 (mem_In n N) (proj2 (R n) Rn)). reflexivity.
  Qed.

  Lemma toj31_minimal s js defs n t : to_json_schema31 nil_map s cs = Ok (js, defs) -> get n defs = Some t ->
    reach (G31 nil_map cs) (jrefs s) n /\ comp31 nil_map cs n = Some t.
  Proof.
    intros H E.
    apply (toj31_result nil_map cs nil_ok) in H as (N & D & R & B & [(nm & Hr & Hin & -> & Hd)|(_ & -> & Hd)]);
      rewrite Hd in E.
    - destruct (String.eqb n nm); [discriminate|]. destruct (mem n N) eqn:I; [|discriminate].
      injection E as <-. assert (Rn := proj1 (R n) (proj1 (mem_In n N) I)). auto.
    - destruct (mem n N) eqn:I; [|discriminate].
      injection E as <-. assert (Rn := proj1 (R n) (proj1 (mem_In n N) I)). auto.
  Qed.

  (* Reachable in the sense of the specification, for schemas that are entered. *)
  Lemma reach31_sub s x : reach (G31 nil_map cs) (jrefs s) x -> reachable jmentions (comp31 nil_map cs) s x.
  Proof.
    induction 1 as [x I|d x R IH I].
    - constructor. apply jrefs_mentions. exact I.
    - unfold G31 in I. destruct (comp31 nil_map cs d) as [t|] eqn:E; [|destruct I].
      eapply re_via; eauto. apply jrefs_mentions. exact I.
  Qed.

  Lemma reach31 s x : entered s -> (forall d t, comp31 nil_map cs d = Some t -> entered t) ->
    reach (G31 nil_map cs) (jrefs s) x <-> reachable jmentions (comp31 nil_map cs) s x.
  Proof.
    intros Es Ec. split; [apply reach31_sub|].
    induction 1 as [x I|x d t R IH E I].
    - constructor. apply mentions_jrefs; auto.
    - eapply rc_via; [exact IH|]. unfold G31. rewrite E. apply mentions_jrefs; eauto.
  Qed.
End Closed31.
