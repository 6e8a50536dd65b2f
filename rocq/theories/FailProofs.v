(* Proofs about failed readings. *)
From Coq Require Import Lia.
From Verif Require Import Str SMap Json CodecModel CodecSpec OrdModel OrdSpec UsedSpec FailModel FailSpec.

(* ---------- what holders of old copies see ---------- *)

Fixpoint look_list (vs : list val) (l : list seen) {struct l} : list val :=
  match l, vs with s :: l, v :: vs => look v s :: look_list vs l | _, _ => vs end.
Fixpoint after_list (l l' : list seen) {struct l} : list seen :=
  match l, l' with s :: l, s' :: l' => after s s' :: after_list l l' | [], _ => l' | _, [] => l end.
Lemma look_struct vs l : look (VStruct vs) (Fields l) = VStruct (look_list vs l).
Proof. reflexivity. Qed.
Lemma after_fields l l' : after (Fields l) (Fields l') = Fields (after_list l l').
Proof. reflexivity. Qed.

Fixpoint held_refl (v : val) : held v v.
Proof.
  destruct v as [|s|q|b|j|v|l|m|l]; try constructor; auto.
  induction l as [|v l IH]; constructor; auto.
Defined.
Lemma held_trans : forall a b c, held a b -> held b c -> held a c.
Proof.
  fix IH 1. intros a b c H1 H2. destruct a as [|s|q|b0|j|v|l|m|l]; inversion H1; subst; inversion H2; subst; try constructor; auto.
  - etransitivity; eassumption.
  - rename H0 into F1, H3 into F2. clear - IH F1 F2. revert l' l'0 F1 F2. induction l as [|v l IHl]; intros l' l'' F1 F2; inversion F1; subst; inversion F2; subst; constructor; eauto.
Qed.

(* The old value [o] as it is seen. *)
Inductive kept : val -> val -> seen -> Prop :=
| k_same o v : held o v -> kept o v Same
| k_was o v w : held o w -> kept o v (Was w)
| k_fields os vs l : length vs = length l -> Forall2 (fun o c => kept o (fst c) (snd c)) os (combine vs l) -> kept (VStruct os) (VStruct vs) (Fields l).

Lemma fields_inv os vs l : kept (VStruct os) (VStruct vs) (Fields l) -> length vs = length l /\ Forall2 (fun o c => kept o (fst c) (snd c)) os (combine vs l).
Proof. intros H. inversion H; subst. split; assumption. Qed.

Lemma F2_combine (P : val -> val -> seen -> Prop) : forall os vs l, length vs = length l -> Forall2 (fun o c => P o (fst c) (snd c)) os (combine vs l) ->
  length os = length vs.
Proof.
  induction os as [|o os IH]; intros [|v vs] [|s l] L F; cbn [combine length] in *; try discriminate; inversion F; subst; [reflexivity|].
  f_equal. eapply IH; [|eassumption]. lia.
Qed.

(* ... is one that it held. *)
Lemma kept_look_held : forall s o v w, kept o v s -> held v w -> held o (look w s).
Proof.
  fix IH 1. intros s o v w K H. destruct s as [|u|l].
  - inversion K as [o' v' Hk| |]; subst. exact (held_trans _ _ _ Hk H).
  - inversion K as [|o' v' w' Hw|]; subst. exact Hw.
  - inversion K as [| |os vs l0 L F E1 E2 E3]; subst. inversion H as [| | | | | | | |x ws F' E1 E2]; subst. rewrite look_struct. constructor.
    clear K H. revert os vs ws L F F'. induction l as [|s l IHl]; intros os [|v vs] ws L F F'; cbn [combine length] in *; try discriminate; inversion F; subst; inversion F'; subst;
      cbn [look_list]; constructor.
    + cbn [fst snd] in *. eapply IH; eassumption.
    + eapply IHl; [|eassumption|eassumption]. lia.
Qed.
Lemma kept_look s o v : kept o v s -> held o (look v s).
Proof. intros K. exact (kept_look_held s o v v K (held_refl v)). Qed.
Lemma kept_held : forall s o v w, kept o v s -> held v w -> kept o w s.
Proof.
  fix IH 1. intros s o v w K H. destruct s as [|u|l].
  - inversion K as [o' v' Hk| |]; subst. constructor. exact (held_trans _ _ _ Hk H).
  - inversion K as [|o' v' w' Hw|]; subst. constructor. exact Hw.
  - inversion K as [| |os vs l0 L F E1 E2 E3]; subst. inversion H as [| | | | | | | |x ws F' E1 E2]; subst.
    assert (X : length ws = length l /\ Forall2 (fun o c => kept o (fst c) (snd c)) os (combine ws l)); [|destruct X; constructor; assumption].
    clear K H. revert os vs ws L F F'. induction l as [|s l IHl]; intros os [|v vs] ws L F F'; cbn [combine length] in *; try discriminate; inversion F; subst; inversion F'; subst.
    + split; [reflexivity|constructor].
    + destruct (IHl l0 vs l') as [A B]; [lia|assumption|assumption|]. cbn [length combine]. split; [lia|]. constructor; [|exact B].
      cbn [fst snd] in *. eapply IH; eassumption.
Qed.
Lemma held_kept : forall s o v w, held o v -> kept v w s -> kept o w s.
Proof.
  fix IH 1. intros s o v w H K. destruct s as [|u|l].
  - inversion K as [o' v' Hk| |]; subst. constructor. exact (held_trans _ _ _ H Hk).
  - inversion K as [|o' v' w' Hw|]; subst. constructor. exact (held_trans _ _ _ H Hw).
  - inversion K as [| |vs ws l0 L F E1 E2 E3]; subst. inversion H as [| | | | | | | |os x F' E1 E2]; subst. constructor; [exact L|].
    clear K H. revert os vs ws L F F'. induction l as [|s l IHl]; intros os vs [|w ws] L F F'; cbn [combine length] in *; try discriminate; inversion F; subst; inversion F'; subst;
      constructor.
    + cbn [fst snd] in *. eapply IH; eassumption.
    + eapply IHl; [|eassumption|eassumption]. lia.
Qed.
(* One reading after the other. *)
Lemma kept_after : forall s o v n s', kept o v s -> kept v n s' -> kept o n (after s s').
Proof.
  fix IH 1. intros s o v n s' K K'. destruct s as [|u|l].
  - inversion K as [o' v' Hk| |]; subst. exact (held_kept _ _ _ _ Hk K').
  - inversion K as [|o' v' w' Hw|]; subst. constructor. exact Hw.
  - destruct s' as [|w|l'].
    + cbn [after]. inversion K' as [x y H| |]; subst. eapply kept_held; eassumption.
    + cbn [after]. inversion K' as [|x y z H|]; subst. constructor. exact (kept_look_held (Fields l) o v w K H).
    + inversion K as [| |os vs l0 L F E1 E2 E3]; subst. inversion K' as [| |vs0 ns l0 L' F' E1 E2 E3]; subst. rewrite after_fields.
      assert (X : length ns = length (after_list l l') /\ Forall2 (fun o c => kept o (fst c) (snd c)) os (combine ns (after_list l l'))); [|destruct X; constructor; assumption].
      clear K K'. revert os vs ns l' L L' F F'. induction l as [|s l IHl]; intros os [|v vs] ns l' L L' F F'; cbn [combine length] in *; try discriminate;
        inversion F; subst; destruct ns as [|n ns], l' as [|s' l']; cbn [combine length] in *; try discriminate; inversion F'; subst.
      * split; [reflexivity|constructor].
      * destruct (IHl l0 vs ns l') as [A B]; [lia|lia|assumption|assumption|]. cbn [after_list length combine]. split; [lia|]. constructor; [|exact B].
        cbn [fst snd] in *. eapply IH; eassumption.
Qed.
Lemma kept_fresh : forall v, kept v v (fresh v).
Proof.
  fix IH 1. intros v. destruct v as [|s|q|b|j|v|l|m|l]; cbn [fresh]; try (constructor; apply held_refl).
  assert (X : length l = length (map fresh l) /\ Forall2 (fun o c => kept o (fst c) (snd c)) l (combine l (map fresh l))); [|destruct X; constructor; assumption].
  induction l as [|v l [A B]]; cbn [map length combine]; [split; constructor|]. split; [congruence|]. constructor; [apply IH|assumption].
Qed.

(* ---------- every reading ---------- *)

Section Kept.
  Variable T : list (string * ent).
  Variable rnd : Q -> Q.
  Variable p : picks.
  Variable M : list string.

  Definition keeping (d : fdecoder) : Prop := forall t v, let r := d t v in kept v (fst (fst r)) (snd (fst r)).
  Definition cells_kept (os : list val) (cs : list cell) : Prop := Forall2 (fun o c => kept o (fst c) (snd c)) os cs.

  Lemma set_kept os cs i c o : cells_kept os cs -> nth_error os i = Some o -> kept o (fst c) (snd c) -> cells_kept os (set_nth i c cs).
  Proof.
    intros F. revert i. induction F as [|x y os cs K F IH]; intros i N Kc; [destruct i; discriminate N|].
    destruct i as [|i]; cbn [set_nth nth_error] in *; [injection N as <-; constructor; assumption|]. constructor; [exact K|]. exact (IH i N Kc).
  Qed.
  Lemma cell_at os cs i c : cells_kept os cs -> nth_error cs i = Some c -> exists o, nth_error os i = Some o /\ kept o (fst c) (snd c).
  Proof.
    intros F. revert i. induction F as [|x y os cs K F IH]; intros i N; [destruct i; discriminate N|].
    destruct i as [|i]; cbn [nth_error] in *; [injection N as <-; eauto|apply IH; exact N].
  Qed.
  Lemma read_kept o c d t : keeping d -> kept o (fst c) (snd c) -> kept o (fst (read_cell c (d t (fst c)))) (snd (read_cell c (d t (fst c)))).
  Proof. intros D K. unfold read_cell. cbn [fst snd]. eapply kept_after; [exact K|apply D]. Qed.
  Lemma assign_kept o c v : kept o (fst c) (snd c) -> kept o (fst (assign c v)) (snd (assign c v)).
  Proof. intros K. unfold assign. cbn [fst snd]. eapply kept_after; [exact K|]. constructor. apply held_refl. Qed.

  Lemma fields_kept os fs ms : (forall m, In m ms -> keeping (snd (snd m))) -> forall cs, cells_kept os cs -> cells_kept os (fst (fd_fields fs ms cs)).
  Proof.
    induction ms as [|[k [j d]] ms IH]; intros D cs F; cbn [fd_fields]; [exact F|].
    assert (D' : forall m, In m ms -> keeping (snd (snd m))) by (intros m I; apply D; right; exact I).
    destruct (find_field fs k) as [i|]; [|exact (IH D' cs F)].
    destruct (nth_error fs i) as [f|]; [|exact F]. destruct (nth_error cs i) as [c|] eqn:N; [|exact F]. cbv zeta.
    assert (F' : cells_kept os (set_nth i (read_cell c (d (f_ty f) (fst c))) cs)).
    { destruct (cell_at os cs i c F N) as (o & No & K). eapply set_kept; [exact F|exact No|]. apply read_kept; [exact (D _ (or_introl eq_refl))|exact K]. }
    pose proof (IH D' _ F') as X. destruct (snd (d (f_ty f) (fst c))); cbn [fst]; try exact F';
      destruct (fd_fields fs ms _); exact X.
  Qed.
  Definition wkeeping (w : fview) : Prop :=
    match w with FObj ms => forall m, In m ms -> keeping (snd (snd m)) | FArr ds => forall d, In d ds -> keeping d | _ => True end.
  Lemma struct_kept os fs w cs : wkeeping w -> cells_kept os cs -> cells_kept os (fst (fd_struct w fs cs)).
  Proof. intros W F. destruct w; try exact F. cbn [fd_struct]. apply fields_kept; assumption. Qed.
  Lemma embed_kept os same fs : keeping same -> forall is cs, cells_kept os cs -> cells_kept os (fst (fd_embed same fs is cs)).
  Proof.
    intros D. induction is as [|i is IH]; intros cs F; cbn [fd_embed]; [exact F|].
    destruct (nth_error fs i) as [f|]; [|exact F]. destruct (nth_error cs i) as [c|] eqn:N; [|exact F]. cbv zeta.
    assert (F' : cells_kept os (set_nth i (read_cell c (same (f_ty f) (fst c))) cs)).
    { destruct (cell_at os cs i c F N) as (o & No & K). eapply set_kept; [exact F|exact No|]. apply read_kept; assumption. }
    destruct (fine _); [apply IH; exact F'|exact F'].
  Qed.
  Lemma alts_kept os same fs : keeping same -> forall is cs n, cells_kept os cs -> cells_kept os (fst (fd_alts same fs is cs n)).
  Proof.
    intros D. induction is as [|i is IH]; intros cs n F; cbn [fd_alts]; [exact F|].
    destruct (nth_error fs i) as [f|]; [|exact F]. destruct (nth_error cs i) as [c|] eqn:N; [|exact F]. cbv zeta.
    destruct (cell_at os cs i c F N) as (o & No & K).
    destruct (fine _); apply IH; (eapply set_kept; [exact F|exact No|]); [apply read_kept; assumption|apply assign_kept; apply read_kept; assumption].
  Qed.

  Lemma keys_put {A} k (x : A) m q : In q (map fst m) -> In q (map fst (put k x m)).
  Proof.
    induction m as [|[k' y] m IH]; cbn [put map fst In]; [tauto|]. intros I.
    destruct (String.eqb k k') eqn:E; cbn [map fst In].
    - apply String.eqb_eq in E. subst. tauto.
    - tauto.
  Qed.
  Lemma store_kept os fs i k d cs : cells_kept os cs -> cells_kept os (fst (fd_store T fs i k d cs)).
  Proof.
    intros F. unfold fd_store. destruct (nth_error fs i) as [f|]; [|exact F]. destruct (nth_error cs i) as [c|] eqn:N; [|exact F].
    destruct (f_ty f); try exact F. cbv zeta. destruct (cell_at os cs i c F N) as (o & No & K).
    set (c' := match fst c with VMap _ => c | _ => assign c (VMap []) end).
    assert (K' : kept o (fst c') (snd c')) by (clear -K; pose proof (assign_kept o c (VMap []) K); unfold c'; destruct c as [v s]; cbn [fst snd] in *; destruct v; assumption).
    assert (E' : exists m, fst c' = VMap m) by (unfold c'; destruct (fst c) eqn:E; cbn [assign fst]; eauto).
    destruct E' as [m E']. destruct (fine _); cbn [fst]; (eapply set_kept; [exact F|exact No|]); [|exact K'].
    cbn [fst snd]. eapply kept_held; [exact K'|]. rewrite E'. constructor. intros q. apply keys_put.
  Qed.
  Lemma store_pats_kept os fs k d : forall ps cs, cells_kept os cs -> cells_kept os (fst (fd_store_pats T fs ps k d cs)).
  Proof.
    induction ps as [|[x i] ps IH]; intros cs F; cbn [fd_store_pats]; [exact F|]. destruct (matches x k); [|exact (IH cs F)].
    pose proof (store_kept os fs i k d cs F) as F'. destruct (fd_store T fs i k d cs) as [cs' []]; [apply IH; exact F'|exact F'].
  Qed.
  Lemma pats_kept os fs ps : forall ms cs, cells_kept os cs -> cells_kept os (fst (fd_pats T fs ps ms cs)).
  Proof.
    induction ms as [|[k [j d]] ms IH]; intros cs F; cbn [fd_pats]; [exact F|].
    pose proof (store_pats_kept os fs k d ps cs F) as F'. destruct (fd_store_pats T fs ps k d cs) as [cs' []]; [apply IH; exact F'|exact F'].
  Qed.
  Lemma addl_kept os fs i : forall ms cs, cells_kept os cs -> cells_kept os (fst (fd_addl T fs i ms cs)).
  Proof.
    induction ms as [|[k [j d]] ms IH]; intros cs F; cbn [fd_addl]; [exact F|].
    pose proof (store_kept os fs i k d cs F) as F'. destruct (fd_store T fs i k d cs) as [cs' []]; [apply IH; exact F'|exact F'].
  Qed.
  Lemma fix_kept os raw : forall fx cs, cells_kept os cs -> cells_kept os (fd_fix fx raw cs).
  Proof.
    induction fx as [|[i k] fx IH]; intros cs F; cbn [fd_fix]; [exact F|]. apply IH.
    destruct (nth_error cs i) as [[[] s]|] eqn:N; try exact F. destruct (raw_has _ k); [|exact F].
    destruct (cell_at os cs i _ F N) as (o & No & K). eapply set_kept; [exact F|exact No|]. apply assign_kept. exact K.
  Qed.
  Lemma raw_kept os n j fs d w cs : cells_kept os cs -> cells_kept os (fst (fd_raw T p n j fs d w cs)).
  Proof.
    intros F. unfold fd_raw. cbv zeta. destruct (raw_checks _ _ && _); [|exact F].
    match goal with |- context [fd_pats ?a ?b ?c ?x ?y] => pose proof (pats_kept os b c x y (fix_kept os (fraw_map w) (d_fix d) cs F)) as F'; destruct (fd_pats a b c x y) as [cs' []] end; [|exact F'].
    destruct (d_addl d); [exact F'|]. apply addl_kept. exact F'.
  Qed.
  Lemma ent_kept os n j same w fs d cs : keeping same -> wkeeping w -> cells_kept os cs -> cells_kept os (fst (fd_ent T p n j same w fs d cs)).
  Proof.
    intros D W F. unfold fd_ent. destruct (forallb _ _); [|exact F].
    assert (F1 : cells_kept os (fst (if d_struct d then fd_struct w fs cs else (cs, Fine)))) by (destruct (d_struct d); [apply struct_kept; assumption|exact F]).
    destruct (if d_struct d then fd_struct w fs cs else (cs, Fine)) as [cs1 st]. cbn [fst] in F1. destruct (fine st); [|exact F1].
    pose proof (embed_kept os same fs D (d_embed d) cs1 F1) as F2. destruct (fd_embed same fs (d_embed d) cs1) as [cs2 []]; [|exact F2].
    pose proof (alts_kept os same fs D (d_oneof d) cs2 0 F2) as F3. destruct (fd_alts same fs (d_oneof d) cs2 0) as [cs3 valid]. cbn [fst] in F3.
    destruct (match d_oneof d with [] => true | _ => valid =? 1 end); [apply raw_kept; exact F3|exact F3].
  Qed.

  Lemma elems_kept t : forall ds olds, length (snd (fst (fd_elems T t ds olds))) = length olds.
  Proof.
    induction ds as [|d ds IH]; intros olds; cbn [fd_elems]; [reflexivity|]. cbv zeta.
    specialize (IH (tl olds)). destruct (snd (d t (hd (zero T LVL t) olds))); try (destruct (fd_elems T t ds (tl olds)) as [[vs os] st]);
      cbn [fst snd] in *; destruct olds; cbn [app length tl] in *; congruence.
  Qed.
  Lemma entries_kept t : forall ms m q, In q (map fst m) -> In q (map fst (fst (fd_entries T t ms m))).
  Proof.
    induction ms as [|[k [j d]] ms IH]; intros m q I; cbn [fd_entries]; [exact I|]. cbv zeta.
    pose proof (IH (put k (fst (fst (d t (zero T LVL t)))) m) q (keys_put _ _ _ _ I)) as X.
    destruct (snd (d t (zero T LVL t))); cbn [fst]; try exact I; destruct (fd_entries T t ms _); exact X.
  Qed.

  Lemma start_kept vs : cells_kept vs (map (fun v => (v, fresh v)) vs).
  Proof. induction vs; cbn [map]; constructor; [apply kept_fresh|assumption]. Qed.
  Lemma cells_fields os cs : cells_kept os cs -> kept (VStruct os) (VStruct (map fst cs)) (Fields (map snd cs)).
  Proof.
    intros F. constructor; [rewrite !map_length; reflexivity|]. induction F; cbn [map combine]; constructor; assumption.
  Qed.
  Lemma cells_held os cs : cells_kept os cs -> held (VStruct os) (VStruct (map (fun c => look (fst c) (snd c)) cs)).
  Proof. intros F. constructor. induction F; cbn [map]; constructor; [apply kept_look|]; assumption. Qed.

  Lemma step_kept j w same : keeping same -> wkeeping w -> keeping (fd_step T rnd p M j w same).
  Proof.
    intros D W t v. cbv zeta.
    assert (KF : forall st, kept v (fst (fst (keeps v st))) (snd (fst (keeps v st)))) by (intros st; apply kept_fresh).
    assert (KW : forall n st, kept v (fst (fst (n, Was v, st : status))) (snd (fst (n, Was v, st)))) by (intros n st; constructor; apply held_refl).
    destruct t as [| | | | | |t|t|t|n]; cbn [fd_step].
    - destruct w; auto.
    - destruct w; auto. destruct (int64b q); auto.
    - destruct w; auto.
    - destruct w; auto.
    - auto.
    - auto.
    - destruct w; auto; destruct v; cbv zeta; auto; constructor; constructor.
    - destruct w as [| | | |[|d ds]|]; auto. destruct v as [| | | | | |l| |]; try (destruct (fd_elems T t (d :: ds) []) as [[vs os] st]; apply KW).
      pose proof (elems_kept t (d :: ds) l) as E. destruct (fd_elems T t (d :: ds) l) as [[vs os] st]. cbn [fst snd] in *. constructor. constructor. congruence.
    - destruct w as [| | | | |ms]; auto. destruct v as [| | | | | | |m|]; try (destruct (fd_entries T t ms []) as [m' st]; apply KW).
      pose proof (entries_kept t ms m) as E. destruct (fd_entries T t ms m) as [m' st]. cbn [fst snd] in *. constructor. constructor. exact E.
    - destruct (get n T) as [[vals|fs ps d]|]; auto.
      + destruct w; auto; match goal with |- context [in_list ?a vals] => destruct (in_list a vals) end; auto.
      + destruct v as [| | | | | | | |vs]; auto. destruct (in_list n M).
        * pose proof (struct_kept vs fs w _ W (start_kept vs)) as F. destruct (fd_struct w fs _) as [cs st]. cbn [fst snd] in *. apply cells_fields. exact F.
        * pose proof (ent_kept vs n j same w fs d _ D W (start_kept vs)) as F. destruct (fd_ent T p n j same w fs d _) as [cs []]; cbn [fst] in F.
          -- apply cells_fields. exact F.
          -- destruct (d_struct d); cbn [fst snd]; [constructor; apply cells_held; exact F|apply cells_fields; exact F].
  Qed.
  Lemma levels_kept f : (forall s, keeping s -> keeping (f s)) -> forall n, keeping (flevels f n).
  Proof. intros F. induction n as [|n IH]; cbn [flevels]; [intros t v; apply kept_fresh|apply F; exact IH]. Qed.
  Lemma fdec_kept : forall j, keeping (fdec T rnd p M j).
  Proof.
    fix IH 1. intros j. destruct j as [|b|q|s|l|m]; cbn [fdec]; apply levels_kept; intros same D; apply step_kept; try exact D; try exact I.
    - cbn [wkeeping]. induction l as [|x l IHl]; cbn [map In]; [intros d []|]. intros d [<-|X]; [apply IH|apply IHl; exact X].
    - cbn [wkeeping]. induction m as [|[k x] m IHm]; cbn [map In]; [intros d []|]. intros d [<-|X]; [cbn [fst snd]; apply IH|apply IHm; exact X].
  Qed.

  Lemma unlevel f n : flevels f (S n) = f (flevels f n).
  Proof. reflexivity. Qed.
  (* A failed reading of an entity whose method works on a copy. *)
  Lemma failed_held j n old : (forall fs ps d, get n T = Some (EStruct fs ps d) -> in_list n M = false /\ d_struct d = true) ->
    snd (fdec T rnd p M j (TNamed n) old) <> Fine -> held old (fst (fst (fdec T rnd p M j (TNamed n) old))).
  Proof.
    intros C NF. pose proof (fdec_kept j (TNamed n) old) as K. cbv zeta in K.
    assert (X : exists w same, fdec T rnd p M j = fd_step T rnd p M j w same /\ keeping same /\ wkeeping w).
    { pose (w := match j with JNull => FNull | JBool b => FBool b | JNum q => FNum q | JStr s => FStr s | JArr l => FArr (map (fdec T rnd p M) l)
                 | JObj m => FObj (map (fun kv => (fst kv, (snd kv, fdec T rnd p M (snd kv)))) m) end).
      assert (W : wkeeping w).
      { destruct j as [|b|q|s|l|m]; try exact I; cbn [w wkeeping]; intros d X; apply in_map_iff in X; destruct X as (x & <- & _); apply fdec_kept. }
      assert (E : fdec T rnd p M j = flevels (fd_step T rnd p M j w) LVL) by (unfold w; destruct j; cbn [fdec]; reflexivity).
      exists w, (flevels (fd_step T rnd p M j w) 9). split; [rewrite E; exact (unlevel _ 9)|]. split; [|exact W].
      apply levels_kept. intros s D. apply step_kept; assumption. }
    destruct X as (w & same & E & D & W). rewrite E in NF |- *. clear K E.
    cbn [fd_step] in NF |- *. destruct (get n T) as [[vals|fs ps d]|] eqn:G; [| |apply held_refl].
    - destruct w; try (apply held_refl); match goal with |- context [in_list ?a vals] => destruct (in_list a vals) end; cbn [snd] in NF; try (destruct (NF eq_refl)); apply held_refl.
    - destruct (C _ _ _ eq_refl) as [C1 C2]. destruct old as [| | | | | | | |vs]; try apply held_refl. rewrite C1 in NF |- *.
      pose proof (ent_kept vs n j same w fs d _ D W (start_kept vs)) as F. destruct (fd_ent T p n j same w fs d _) as [cs []]; cbn [fst] in F.
      + destruct (NF eq_refl).
      + rewrite C2. cbn [fst]. apply cells_held. exact F.
  Qed.
End Kept.

Lemma alone_held : forall v w, alone v -> held v w -> w = v.
Proof.
  fix IH 1. intros v w A H. destruct v as [|s|q|b|j|v|l|m|l]; inversion H; subst; inversion A; subst; try reflexivity.
  f_equal. clear - IH H1 H2. rename H1 into F, H2 into A'. revert l' F A'. induction l as [|v l IHl]; intros l' F A'; inversion F; subst; [reflexivity|].
  f_equal; [apply IH; [apply A'; left; reflexivity|assumption]|]. apply IHl; [assumption|intros x I; apply A'; right; exact I].
Qed.
Lemma alone_zero T : forall n t, alone (zero T n t).
Proof.
  induction n as [|n IH]; intros t; destruct t; cbn [zero]; try constructor.
  destruct (get n0 T) as [[vals|fs ps d]|]; constructor. intros v I. apply in_map_iff in I. destruct I as (f & <- & _). apply IH.
Qed.
