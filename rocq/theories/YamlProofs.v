(* Lemmas about YamlModel. *)
From Coq Require Import Permutation.
From Verif Require Import Str SMap Json YamlModel YamlSpec.

(* ------------------------------------------------------------------ *)
(* Key order                                                            *)

(* More fuel does not change a result. *)
Lemma skip_more n :
  (forall d, skip_value n d <> SkipFuel -> forall k, skip_value (n + k) d = skip_value n d) /\
  (forall d, skip_loop n d <> SkipFuel -> forall k, skip_loop (n + k) d = skip_loop n d).
Proof.
  induction n as [|n [IHv IHl]]; [split; intros d H; exfalso; apply H; reflexivity|]. split; intros d H k.
  - cbn [Nat.add skip_value] in *. destruct d as [|[] d]; auto.
  - cbn [Nat.add skip_loop] in *. destruct (skip_value n d) eqn:E; try congruence;
      (rewrite IHv; [rewrite E; auto | rewrite E; discriminate]).
Qed.

(* Enough fuel for every list of tokens; what is left is shorter. *)
Lemma skip_enough n :
  (forall d, 2 * List.length d + 1 <= n ->
     match skip_value n d with
     | SkipFuel => False
     | SkipErr => True
     | SkipOk r | SkipUnterminated r => List.length r < List.length d
     end) /\
  (forall d, 2 * List.length d + 2 <= n ->
     match skip_loop n d with
     | SkipFuel | SkipUnterminated _ => False
     | SkipErr => True
     | SkipOk r => List.length r < List.length d
     end).
Proof.
  induction n as [|n [IHv IHl]]; [split; intros d H; lia|]. split; intros d H.
  - cbn [skip_value]. destruct d as [|t d]; [exact I|]. cbn [List.length] in H.
    assert (L : 2 * List.length d + 2 <= n) by lia. specialize (IHl d L).
    destruct t; cbn [List.length]; try lia;
      destruct (skip_loop n d); try contradiction; auto; lia.
  - cbn [skip_loop]. assert (L : 2 * List.length d + 1 <= n) by lia. specialize (IHv d L).
    destruct (skip_value n d) as [r|r| |]; auto.
    assert (L2 : 2 * List.length r + 2 <= n) by lia. specialize (IHl r L2).
    destruct (skip_loop n r); auto. lia.
Qed.

Lemma keys_enough n : forall d ks, 2 * List.length d + 1 <= n -> keys_loop n d ks <> KeysFuel.
Proof.
  induction n as [|n IH]; intros d ks H; [lia|]. cbn [keys_loop]. destruct d as [|t d]; [discriminate|].
  cbn [List.length] in H. assert (L : 2 * List.length d + 1 <= n) by lia.
  pose proof (proj1 (skip_enough n) d L) as V.
  destruct t; try discriminate; destruct (skip_value n d); try discriminate; try contradiction; apply IH; lia.
Qed.

Lemma object_keys_total d : object_keys d <> KeysFuel.
Proof.
  destruct d as [|[] d]; try discriminate. cbn [object_keys]. apply keys_enough. cbn [List.length]. lia.
Qed.

Lemma skip_loop_string n s d : skip_loop (S (S n)) (TString s :: d) = skip_loop (S n) d.
Proof. reflexivity. Qed.

(* A value is skipped exactly. *)
Lemma skip_exact_big j : forall rest, exists n, skip_value n (tokens j ++ rest) = SkipOk rest.
Proof.
  induction j as [| | | |l IH|m IH] using json_ind'; intros rest; try (exists 1; reflexivity).
  - assert (L : forall l0, Forall (fun j => forall rest, exists n, skip_value n (tokens j ++ rest) = SkipOk rest) l0 ->
              exists n, skip_loop n (flat_map tokens l0 ++ TCloseArr :: rest) = SkipOk rest).
    { induction 1 as [|x l0 Hx Hl IHl].
      - exists 2. reflexivity.
      - destruct (Hx (flat_map tokens l0 ++ TCloseArr :: rest)) as [n1 E1]. destruct IHl as [n2 E2].
        exists (S (n1 + n2)). cbn [flat_map skip_loop]. rewrite <- app_assoc.
        rewrite (proj1 (skip_more n1)) by (rewrite E1; discriminate). rewrite E1.
        rewrite Nat.add_comm, (proj2 (skip_more n2)) by (rewrite E2; discriminate). exact E2. }
    destruct (L l IH) as [n E]. exists (S n). cbn [tokens app skip_value]. rewrite <- app_assoc. exact E.
  - assert (L : forall m0, Forall (fun kv => forall rest, exists n, skip_value n (tokens (snd kv) ++ rest) = SkipOk rest) m0 ->
              exists n, skip_loop n (flat_map (fun kv : string * json => TString (fst kv) :: tokens (snd kv)) m0 ++ TCloseObj :: rest) = SkipOk rest).
    { induction 1 as [|x l Hx Hl IHl].
      - exists 2. reflexivity.
      - destruct (Hx (flat_map (fun kv => TString (fst kv) :: tokens (snd kv)) l ++ TCloseObj :: rest)) as [n1 E1].
        destruct IHl as [n2 E2].
        exists (S (S (n1 + n2))). cbn [flat_map]. rewrite <- app_assoc. cbn [app].
        rewrite skip_loop_string. cbn [skip_loop].
        rewrite (proj1 (skip_more n1)) by (rewrite E1; discriminate). rewrite E1.
        rewrite Nat.add_comm, (proj2 (skip_more n2)) by (rewrite E2; discriminate). exact E2. }
    destruct (L m IH) as [n E]. exists (S n). cbn [tokens app skip_value]. rewrite <- app_assoc. exact E.
Qed.

Lemma skip_exact j rest n : 2 * List.length (tokens j ++ rest) + 1 <= n -> skip_value n (tokens j ++ rest) = SkipOk rest.
Proof.
  intros H. destruct (skip_exact_big j rest) as [k E].
  rewrite <- E. rewrite <- (proj1 (skip_more n) (tokens j ++ rest)) with (k := k).
  - rewrite Nat.add_comm, (proj1 (skip_more k)); auto. rewrite E. discriminate.
  - pose proof (proj1 (skip_enough n) _ H) as V. intros X. rewrite X in V. exact V.
Qed.

Lemma keys_exact m : forall rest n ks,
  2 * List.length (flat_map (fun kv => TString (fst kv) :: tokens (snd kv)) m ++ TCloseObj :: rest) + 1 <= n ->
  keys_loop n (flat_map (fun kv => TString (fst kv) :: tokens (snd kv)) m ++ TCloseObj :: rest) ks = KeysOk (ks ++ map fst m).
Proof.
  induction m as [|[k v] m IH]; intros rest n ks H.
  - destruct n as [|n]; [cbn in H; lia|]. cbn. rewrite app_nil_r. reflexivity.
  - cbn [flat_map fst snd] in *. rewrite <- app_assoc in *. cbn [app] in *. cbn [List.length] in H.
    destruct n as [|n]; [lia|]. cbn [keys_loop]. rewrite skip_exact by lia.
    rewrite IH.
    + cbn [map fst]. rewrite <- app_assoc. reflexivity.
    + rewrite app_length in H. lia.
Qed.

Lemma object_keys_exact m rest : object_keys (tokens (JObj m) ++ rest) = KeysOk (map fst m).
Proof.
  cbn [tokens app object_keys]. rewrite <- app_assoc. cbn [app]. rewrite keys_exact; [reflexivity|]. cbn [List.length]. lia.
Qed.

Lemma put_last {A} (m : list (string * A)) : forall acc k,
  get k (fold_left (fun acc kv => put (fst kv) (snd kv) acc) m acc) = match last_of k m with Some v => Some v | None => get k acc end.
Proof.
  induction m as [|[k' v] m IH]; intros acc k; [reflexivity|]. cbn [fold_left last_of fst snd]. rewrite IH.
  destruct (last_of k m); [reflexivity|]. rewrite get_put. destruct (String.eqb k k'); reflexivity.
Qed.

Lemma last_of_In {A} k (m : list (string * A)) : In k (map fst m) -> last_of k m <> None.
Proof.
  induction m as [|[k' v] m IH]; [intros []|]. cbn [map fst last_of]. intros [->|I].
  - destruct (last_of k m); [discriminate|]. rewrite String.eqb_refl. discriminate.
  - apply IH in I. destruct (last_of k m); congruence.
Qed.

Lemma last_of_nodup {A} k v (m : list (string * A)) : NoDup (map fst m) -> In (k, v) m -> last_of k m = Some v.
Proof.
  induction m as [|[k' v'] m IH]; [intros _ []|]. cbn [map fst last_of]. intros N I. inversion N as [|? ? N1 N2]; subst.
  destruct I as [E|I].
  - injection E as -> ->. destruct (last_of k m) eqn:E; [|rewrite String.eqb_refl; reflexivity].
    exfalso. apply N1. clear - E. induction m as [|[k' v'] m IH]; [discriminate|]. cbn [last_of] in E. cbn [map fst].
    destruct (last_of k m); [right; apply IH; exact E|]. destruct (String.eqb k k') eqn:X; [|discriminate].
    apply String.eqb_eq in X. left. auto.
  - rewrite (IH N2 I). reflexivity.
Qed.

Lemma ordered_exact m : exists l, ordered_map (JObj m) = Some l /\ map fst l = map fst m /\
  forall k v, In (k, v) l -> last_of k m = Some v.
Proof.
  unfold ordered_map. cbn [decode_map]. pose proof (object_keys_exact m []) as E. rewrite app_nil_r in E. rewrite E.
  eexists. split; [reflexivity|]. split.
  - rewrite map_map. cbn [fst]. apply map_id.
  - intros k v I. apply in_map_iff in I as (x & X & I). injection X as -> <-. rewrite put_last. cbn [get].
    apply last_of_In in I. destruct (last_of k m); [reflexivity|congruence].
Qed.

Lemma ordered_nodup m : NoDup (map fst m) -> ordered_map (JObj m) = Some m.
Proof.
  intros N. destruct (ordered_exact m) as (l & -> & K & V). f_equal.
  assert (X : forall k v, In (k, v) l -> In (k, v) m).
  { intros k v I. apply V in I as L. assert (In k (map fst m)) by (rewrite <- K; apply (in_map fst) in I; exact I).
    apply in_map_iff in H as ([k' v'] & <- & I'). cbn in L |- *. rewrite (last_of_nodup _ _ _ N I') in L. congruence. }
  clear V. revert m N K X. induction l as [|[k v] l IH]; intros [|[k' v'] m] N K X; try discriminate; [reflexivity|].
  cbn [map fst] in K. injection K as -> K. inversion N as [|? ? N1 N2]; subst.
  assert (v = v').
  { destruct (X k' v (or_introl eq_refl)) as [E|I]; [congruence|]. exfalso. apply N1. apply (in_map fst) in I. exact I. }
  subst v'. f_equal. apply IH; auto. intros k w I.
  destruct (X k w (or_intror I)) as [E|I']; [|exact I']. exfalso. injection E as -> ->.
  apply N1. rewrite <- K. apply (in_map fst) in I. exact I.
Qed.

Lemma ordered_only_objects j : (forall m, j <> JObj m) -> ordered_map j = None.
Proof. destruct j; intros H; try reflexivity. exfalso. apply (H m). reflexivity. Qed.

(* ------------------------------------------------------------------ *)
(* Map keys                                                             *)

Section YInd.
  Variable P : yval -> Prop.
  Hypothesis Ho : forall j, P (YOther j).
  Hypothesis Hs : forall l, Forall P l -> P (YSlice l).
  Hypothesis Hi : forall m, Forall (fun kv => P (snd kv)) m -> P (YMapI m).
  Hypothesis Hm : forall m, Forall (fun kv => P (snd kv)) m -> P (YMapS m).

  Fixpoint yval_ind' (v : yval) : P v :=
    match v with
    | YOther j => Ho j
    | YSlice l => Hs l ((fix go l : Forall P l := match l with [] => Forall_nil _ | x :: r => Forall_cons _ (yval_ind' x) (go r) end) l)
    | YMapI m => Hi m ((fix go m : Forall (fun kv => P (snd kv)) m :=
                          match m with [] => Forall_nil _ | x :: r => Forall_cons _ (yval_ind' (snd x)) (go r) end) m)
    | YMapS m => Hm m ((fix go m : Forall (fun kv => P (snd kv)) m :=
                          match m with [] => Forall_nil _ | x :: r => Forall_cons _ (yval_ind' (snd x)) (go r) end) m)
    end.
End YInd.

Section Convert.
  Variable sprint : nat -> string.
  Notation conv := (convert sprint).
  Notation name := (key_name sprint).

  Definition entries (m : list (ykey * yval)) : list (string * yval) := map (fun kv => (name (fst kv), conv (snd kv))) m.

  Lemma convert_mapi m : conv (YMapI m) = YMapS (fold_left (fun acc kv => put (fst kv) (snd kv) acc) (entries m) []).
  Proof.
    cbn [convert]. f_equal. generalize (@nil (string * yval)). induction m as [|[k v] m IH]; intros acc; [reflexivity|].
    cbn [entries map fold_left fst snd]. apply IH.
  Qed.

  Lemma fold_put_nodup (es : list (string * yval)) : forall acc, NoDup (map fst acc ++ map fst es) ->
    fold_left (fun acc kv => put (fst kv) (snd kv) acc) es acc = acc ++ es.
  Proof.
    induction es as [|[k v] es IH]; intros acc N; cbn [fold_left fst snd]; [rewrite app_nil_r; reflexivity|].
    assert (P : put k v acc = acc ++ [(k, v)]).
    { assert (K : ~ In k (map fst acc)).
      { cbn [map fst] in N. apply NoDup_remove_2 in N. intros I. apply N. apply in_or_app. auto. }
      clear - K. induction acc as [|[k' v'] acc IH]; [reflexivity|]. cbn [put app]. cbn [map fst] in K.
      destruct (String.eqb k k') eqn:E; [apply String.eqb_eq in E; subst; exfalso; apply K; left; reflexivity|].
      rewrite IH; [reflexivity|]. intros I. apply K. right. exact I. }
    rewrite P, IH; [rewrite <- app_assoc; reflexivity|]. rewrite map_app. cbn [map fst] in *. rewrite <- app_assoc. exact N.
  Qed.

  Lemma entries_keys m : map fst (entries m) = map (fun kv => name (fst kv)) m.
  Proof. unfold entries. rewrite map_map. reflexivity. Qed.

  Lemma convert_nodup m : NoDup (map (fun kv => name (fst kv)) m) -> conv (YMapI m) = YMapS (entries m).
  Proof. intros N. rewrite convert_mapi. rewrite fold_put_nodup; [reflexivity|]. rewrite entries_keys. exact N. Qed.

  Lemma in_fold_put (es : list (string * yval)) : forall acc k v,
    In (k, v) (fold_left (fun acc kv => put (fst kv) (snd kv) acc) es acc) -> In (k, v) acc \/ In (k, v) es.
  Proof.
    induction es as [|[k' v'] es IH]; intros acc k v I; cbn [fold_left fst snd] in *; [auto|].
    apply IH in I as [I|I]; [|right; right; exact I].
    assert (X : In (k, v) acc \/ (k, v) = (k', v')).
    { clear - I. induction acc as [|[k2 v2] acc IH]; cbn [put] in I.
      - destruct I as [E|[]]. auto.
      - destruct (String.eqb k' k2).
        + destruct I as [E|I]; [auto|left; right; exact I].
        + destruct I as [E|I]; [left; left; exact E|]. apply IH in I as [I|I]; [left; right; exact I|auto]. }
    destruct X as [X|X]; [auto|]. right. left. auto.
  Qed.

  Lemma convert_string_keyed v : string_keyed (conv v).
  Proof.
    induction v as [j|l IH|m IH|m IH] using yval_ind'; try (rewrite Forall_forall in IH).
    - constructor.
    - cbn [convert]. constructor. intros v I. apply in_map_iff in I as (x & <- & I). auto.
    - rewrite convert_mapi. constructor. intros k v I. apply in_fold_put in I as [[]|I].
      unfold entries in I. apply in_map_iff in I as (x & E & I). injection E as <- <-. apply (IH x I).
    - cbn [convert]. constructor. intros k v I. apply in_map_iff in I as (x & E & I). injection E as <- <-. apply (IH x I).
  Qed.

  Lemma convert_printed v : distinct sprint v -> printed sprint v (conv v).
  Proof.
    induction v as [j|l IH|m IH|m IH] using yval_ind'; intros D; try (rewrite Forall_forall in IH).
    - constructor.
    - cbn [convert]. constructor. inversion D as [|? D1| |]; subst. induction l as [|x l IHl]; [constructor|].
      cbn [map]. constructor; [apply IH; [left; reflexivity|apply D1; left; reflexivity]|].
      apply IHl; [|constructor|]; intros; [apply IH; [right|]; auto|apply D1; right; auto|apply D1; right; auto].
    - inversion D as [| |? N D1|]; subst. rewrite convert_nodup by exact N. constructor. clear N D.
      unfold entries. induction m as [|[k x] m IHm]; [constructor|]. cbn [map fst snd]. constructor.
      + cbn [fst snd]. split; [reflexivity|]. apply (IH (k, x)); [left; reflexivity|]. apply (D1 k). left. reflexivity.
      + apply IHm; intros; [apply IH; [right|]; auto|]. apply (D1 k0). right. auto.
    - cbn [convert]. constructor. inversion D as [| | |? D1]; subst. clear D.
      induction m as [|[k x] m IHm]; [constructor|]. cbn [map fst snd]. constructor.
      + cbn [fst snd]. split; [reflexivity|]. apply (IH (k, x)); [left; reflexivity|]. apply (D1 k). left. reflexivity.
      + apply IHm; intros; [apply IH; [right|]; auto|]. apply (D1 k0). right. auto.
  Qed.

  (* Without the condition: the last entry of a name. *)
  Lemma convert_last m k : exists m', conv (YMapI m) = YMapS m' /\
    get k m' = last_of k (map (fun kv => (name (fst kv), conv (snd kv))) m).
  Proof.
    eexists. split; [apply convert_mapi|]. rewrite put_last. cbn [get]. unfold entries. destruct (last_of _ _); reflexivity.
  Qed.

  Lemma map_conv_same (A : Type) (f : A -> string) (m m1 m' : list (A * yval)) :
    Permutation m m1 -> Forall2 (fun x y => fst x = fst y /\ ysame (snd x) (snd y)) m1 m' ->
    (forall x w, In x m -> ysame (snd x) w -> ysame (conv (snd x)) (conv w)) ->
    ysame (YMapS (map (fun kv => (f (fst kv), conv (snd kv))) m)) (YMapS (map (fun kv => (f (fst kv), conv (snd kv))) m')).
  Proof.
    intros P F H. apply ys_maps with (m1 := map (fun kv => (f (fst kv), conv (snd kv))) m1); [apply Permutation_map; exact P|].
    assert (H1 : forall x w, In x m1 -> ysame (snd x) w -> ysame (conv (snd x)) (conv w)).
    { intros x w I. apply H. eapply Permutation_in; [apply Permutation_sym; exact P|exact I]. }
    clear - F H1. induction F as [|x y l l' [E X] _ IH]; cbn [map]; constructor.
    - cbn [fst snd]. rewrite E. split; auto. apply H1; [left; reflexivity|exact X].
    - apply IH. intros z w I. apply H1. right. exact I.
  Qed.

  Lemma convert_order v : forall w, distinct sprint v -> ysame v w -> ysame (conv v) (conv w).
  Proof.
    induction v as [j|l IH|m IH|m IH] using yval_ind'; intros w D S; try (rewrite Forall_forall in IH).
    - inversion S; subst. constructor.
    - inversion S as [|? l' F| |]; subst. cbn [convert]. constructor. inversion D as [|? D1| |]; subst. clear S D.
      induction F as [|x y l l' X F IHF]; cbn [map]; constructor.
      + apply IH; [left; reflexivity|apply D1; left; reflexivity|exact X].
      + apply IHF; intros; [apply IH; [right|..]; auto|apply D1; right; auto].
    - inversion S as [| |? m1 m' P F|]; subst. inversion D as [| |? N D1|]; subst.
      assert (N' : NoDup (map (fun kv => name (fst kv)) m')).
      { replace (map (fun kv => name (fst kv)) m') with (map (fun kv => name (fst kv)) m1).
        - eapply Permutation_NoDup; [apply Permutation_map; exact P|exact N].
        - clear - F. induction F as [|x y l l' [E _] _ IH]; cbn [map]; [reflexivity|]. rewrite E, IH. reflexivity. }
      rewrite !convert_nodup by assumption. unfold entries. eapply (map_conv_same ykey name); eauto.
      intros [k x] w I X. apply IH; auto. apply (D1 k). exact I.
    - inversion S as [| | |? m1 m' P F]; subst. inversion D as [| | |? D1]; subst. cbn [convert].
      eapply (map_conv_same string (fun s => s)); eauto. intros [k x] w I X. apply IH; auto. apply (D1 k). exact I.
  Qed.
End Convert.

Lemma convert_order_needed : exists sprint v w, ysame v w /\ ~ ysame (convert sprint v) (convert sprint w).
Proof.
  exists (fun _ => "1").
  exists (YMapI [(KString "1", YOther (JBool true)); (KOther 0, YOther (JBool false))]).
  exists (YMapI [(KOther 0, YOther (JBool false)); (KString "1", YOther (JBool true))]).
  split.
  - eapply ys_mapi; [apply perm_swap|]. repeat constructor.
  - vm_compute. intros H. inversion H as [| | |? m1 ? P F]; subst. apply Permutation_length_1_inv in P. subst.
    inversion F as [|? ? ? ? [_ X] _]; subst. inversion X.
Qed.
