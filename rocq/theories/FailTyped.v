(* A failed reading leaves a value of the type. *)
From Coq Require Import Lia.
From Verif Require Import Str SMap Json CodecModel CodecSpec CodecProofs OrdModel OrdSpec OrdProofs UsedSpec UsedProofs FailModel FailSpec FailProofs.

Section Typed.
  Variable T : list (string * ent).
  Variable rnd : Q -> Q.
  Variable p : picks.
  Variable M : list string.
  Variable K : list string.
  Hypothesis CH : used_checks T K = true.
  Notation known := (known T).
  Notation typed := (typed T).

  Definition sees (t : ty) (s : seen) : Prop := forall v, typed t v -> typed t (look v s).
  Definition ctyped (f : field) (c : cell) : Prop := typed (f_ty f) (fst c) /\ sees (f_ty f) (snd c).
  Definition cells_typed : list field -> list cell -> Prop := Forall2 ctyped.
  Definition typing (d : fdecoder) : Prop := forall t v, known t = true -> typed t v -> let r := d t v in typed t (fst (fst r)) /\ sees t (snd (fst r)).

  Lemma look_after : forall a b v, look v (after a b) = look (look v b) a.
  Proof.
    fix IH 1. intros a b v. destruct a as [|w|l]; [reflexivity|reflexivity|]. destruct b as [|w|l']; [reflexivity|reflexivity|]. rewrite after_fields.
    destruct v as [| | | | | | | |vs]; try reflexivity. rewrite !look_struct. f_equal. revert l' vs.
    induction l as [|s l IHl]; intros l' vs; [reflexivity|]. destruct l' as [|s' l']; [reflexivity|]. destruct vs as [|v vs]; [reflexivity|].
    cbn [after_list look_list]. f_equal; [apply IH|apply IHl].
  Qed.
  Lemma sees_after t a b : sees t a -> sees t b -> sees t (after a b).
  Proof. intros A B v Tv. rewrite look_after. apply A. apply B. exact Tv. Qed.
  Lemma sees_same t : sees t Same. Proof. intros v Tv. exact Tv. Qed.
  Lemma sees_was t w : typed t w -> sees t (Was w). Proof. intros Tw v _. exact Tw. Qed.
  Lemma sees_fields n fs ps d l : get n T = Some (EStruct fs ps d) -> Forall2 (fun f s => sees (f_ty f) s) fs l -> sees (TNamed n) (Fields l).
  Proof.
    intros G F v Tv. inversion Tv as [| | | | | | | | | | | |n0 vals s G' E1 E2|n0 fs' ps' d' vs G' F' E1 E2]; subst; [congruence|]. rewrite G in G'. injection G' as <- <- <-.
    rewrite look_struct. eapply ty_struct; [exact G|]. clear Tv G. revert vs F'. induction F as [|f s fs l S F IH]; intros vs F'; inversion F'; subst; cbn [look_list]; constructor; auto.
  Qed.
  Lemma sees_fresh : forall v t, typed t v -> sees t (fresh v).
  Proof.
    induction v as [|s|q|b|j|v IH|l IH|m IH|l IH] using val_ind'; intros t Tv; cbn [fresh]; try (apply sees_same); try (apply sees_was; exact Tv).
    inversion Tv as [| | | | | | | | | | | | |n0 fs' ps' d' vs G' F' E1 E2]; subst. eapply sees_fields; [exact G'|]. clear Tv G'.
    revert fs' F'. induction l as [|v l IHl]; intros fs F'; inversion F'; subst; cbn [map]; constructor; inversion IH; subst; auto.
  Qed.

  Lemma set_typed fs cs i c f : cells_typed fs cs -> nth_error fs i = Some f -> ctyped f c -> cells_typed fs (set_nth i c cs).
  Proof.
    intros F. revert i. induction F as [|x y fs cs C F IH]; intros i N Cc; [destruct i; discriminate N|].
    destruct i as [|i]; cbn [set_nth nth_error] in *; [injection N as <-; constructor; assumption|]. constructor; [exact C|]. exact (IH i N Cc).
  Qed.
  Lemma cell_typed fs cs i f c : cells_typed fs cs -> nth_error fs i = Some f -> nth_error cs i = Some c -> ctyped f c.
  Proof. intros F. exact (F2_nth2 ctyped fs cs F i f c). Qed.
  Lemma read_typed f c d : typing d -> known (f_ty f) = true -> ctyped f c -> ctyped f (read_cell c (d (f_ty f) (fst c))).
  Proof. intros D Kn (A & B). destruct (D (f_ty f) (fst c) Kn A) as (X & Y). split; [exact X|]. cbn [read_cell snd]. apply sees_after; assumption. Qed.
  Lemma assign_typed f c v : typed (f_ty f) v -> ctyped f c -> ctyped f (assign c v).
  Proof. intros Tv (A & B). split; [exact Tv|]. cbn [assign snd]. apply sees_after; [exact B|]. apply sees_was. exact A. Qed.

  Section Ent.
    Variable n : string.
    Variable fs : list field.
    Variable ps : list part.
    Variable d : dprog.
    Hypothesis G : get n T = Some (EStruct fs ps d).
    Lemma Kn i f : nth_error fs i = Some f -> known (f_ty f) = true.
    Proof. exact (ch_known T K CH n fs ps d i f G). Qed.

    Lemma fields_typed ms : (forall m, In m ms -> typing (snd (snd m))) -> forall cs, cells_typed fs cs -> cells_typed fs (fst (fd_fields fs ms cs)).
    Proof.
      induction ms as [|[k [j e]] ms IH]; intros D cs F; cbn [fd_fields]; [exact F|].
      assert (D' : forall m, In m ms -> typing (snd (snd m))) by (intros m I; apply D; right; exact I).
      destruct (find_field fs k) as [i|]; [|exact (IH D' cs F)].
      destruct (nth_error fs i) as [f|] eqn:Nf; [|exact F]. destruct (nth_error cs i) as [c|] eqn:N; [|exact F]. cbv zeta.
      assert (F' : cells_typed fs (set_nth i (read_cell c (e (f_ty f) (fst c))) cs)).
      { eapply set_typed; [exact F|exact Nf|]. apply read_typed; [exact (D _ (or_introl eq_refl))|exact (Kn i f Nf)|]. eapply cell_typed; eassumption. }
      pose proof (IH D' _ F') as X. destruct (snd (e (f_ty f) (fst c))); cbn [fst]; try exact F'; destruct (fd_fields fs ms _); exact X.
    Qed.
    Definition wtyping (w : fview) : Prop :=
      match w with FObj ms => forall m, In m ms -> typing (snd (snd m)) | FArr ds => forall e, In e ds -> typing e | _ => True end.
    Lemma struct_typed w cs : wtyping w -> cells_typed fs cs -> cells_typed fs (fst (fd_struct w fs cs)).
    Proof. intros W F. destruct w; try exact F. cbn [fd_struct]. apply fields_typed; assumption. Qed.
    Lemma embed_typed same : typing same -> forall is cs, cells_typed fs cs -> cells_typed fs (fst (fd_embed same fs is cs)).
    Proof.
      intros D. induction is as [|i is IH]; intros cs F; cbn [fd_embed]; [exact F|].
      destruct (nth_error fs i) as [f|] eqn:Nf; [|exact F]. destruct (nth_error cs i) as [c|] eqn:N; [|exact F]. cbv zeta.
      assert (F' : cells_typed fs (set_nth i (read_cell c (same (f_ty f) (fst c))) cs)).
      { eapply set_typed; [exact F|exact Nf|]. apply read_typed; [exact D|exact (Kn i f Nf)|]. eapply cell_typed; eassumption. }
      destruct (fine _); [apply IH; exact F'|exact F'].
    Qed.
    Lemma alts_typed same : typing same -> forall is, (forall i, In i is -> In i (d_oneof d)) -> forall cs z, cells_typed fs cs -> cells_typed fs (fst (fd_alts same fs is cs z)).
    Proof.
      intros D. induction is as [|i is IH]; intros Is cs z F; cbn [fd_alts]; [exact F|].
      destruct (nth_error fs i) as [f|] eqn:Nf; [|exact F]. destruct (nth_error cs i) as [c|] eqn:N; [|exact F]. cbv zeta.
      pose proof (read_typed f c same D (Kn i f Nf) (cell_typed _ _ _ _ _ F Nf N)) as R.
      destruct (fine _); apply IH; try (intros x I; apply Is; right; exact I); (eapply set_typed; [exact F|exact Nf|]); [exact R|].
      apply assign_typed; [|exact R]. apply coll_nil. exact (ch_oneof T K CH n fs ps d i f G (Is i (or_introl eq_refl)) Nf).
    Qed.
    Lemma put_typed k t x v m : typed t x -> typed (TMap t) v -> v = VMap m -> typed (TMap t) (VMap (put k x m)).
    Proof.
      intros X Tv ->. constructor. intros k' u E. destruct (string_dec k' k) as [->|NE]; [rewrite get_put_same in E; injection E as <-; exact X|].
      rewrite get_put_other in E by exact NE. inversion Tv; subst; eauto.
    Qed.
    Lemma store_typed i k e cs : typing e -> cells_typed fs cs -> cells_typed fs (fst (fd_store T fs i k e cs)).
    Proof.
      intros D F. unfold fd_store. destruct (nth_error fs i) as [f|] eqn:Nf; [|exact F]. destruct (nth_error cs i) as [c|] eqn:N; [|exact F].
      destruct (f_ty f) as [| | | | | | | |t|] eqn:Et; try exact F. cbv zeta. pose proof (cell_typed _ _ _ _ _ F Nf N) as C.
      set (c' := match fst c with VMap _ => c | _ => assign c (VMap []) end).
      assert (C' : ctyped f c').
      { assert (A : ctyped f (assign c (VMap []))) by (apply assign_typed; [rewrite Et; constructor; intros k' u E; discriminate E|exact C]). unfold c'. destruct (fst c); assumption. }
      assert (E' : exists m, fst c' = VMap m) by (unfold c'; destruct (fst c) eqn:E; cbn [assign fst]; eauto).
      destruct E' as [m E']. rewrite E'. pose proof (Kn i f Nf) as Kf. rewrite Et in Kf. cbn [UsedProofs.known] in Kf. destruct (D t (zero T LVL t) Kf (zero_is_typed T K CH t Kf)) as (X & _).
      destruct (fine _); cbn [fst]; (eapply set_typed; [exact F|exact Nf|]); [|exact C']. destruct C' as (A & B). split; [|exact B].
      cbn [fst]. rewrite Et in *. eapply put_typed; eassumption.
    Qed.
    Lemma store_pats_typed k e : typing e -> forall pp cs, cells_typed fs cs -> cells_typed fs (fst (fd_store_pats T fs pp k e cs)).
    Proof.
      intros D. induction pp as [|[x i] pp IH]; intros cs F; cbn [fd_store_pats]; [exact F|]. destruct (matches x k); [|exact (IH cs F)].
      pose proof (store_typed i k e cs D F) as F'. destruct (fd_store T fs i k e cs) as [cs' []]; [apply IH; exact F'|exact F'].
    Qed.
    Lemma pats_typed pp : forall ms, (forall m, In m ms -> typing (snd (snd m))) -> forall cs, cells_typed fs cs -> cells_typed fs (fst (fd_pats T fs pp ms cs)).
    Proof.
      induction ms as [|[k [j e]] ms IH]; intros D cs F; cbn [fd_pats]; [exact F|].
      pose proof (store_pats_typed k e (D _ (or_introl eq_refl)) pp cs F) as F'. destruct (fd_store_pats T fs pp k e cs) as [cs' []]; [|exact F'].
      apply IH; [intros m I; apply D; right; exact I|exact F'].
    Qed.
    Lemma addl_typed i : forall ms, (forall m, In m ms -> typing (snd (snd m))) -> forall cs, cells_typed fs cs -> cells_typed fs (fst (fd_addl T fs i ms cs)).
    Proof.
      induction ms as [|[k [j e]] ms IH]; intros D cs F; cbn [fd_addl]; [exact F|].
      pose proof (store_typed i k e cs (D _ (or_introl eq_refl)) F) as F'. destruct (fd_store T fs i k e cs) as [cs' []]; [|exact F'].
      apply IH; [intros m I; apply D; right; exact I|exact F'].
    Qed.
    Lemma fix_typed raw : forall fx, (forall ik, In ik fx -> In ik (d_fix d)) -> forall cs, cells_typed fs cs -> cells_typed fs (fd_fix fx raw cs).
    Proof.
      induction fx as [|[i k] fx IH]; intros I cs F; cbn [fd_fix]; [exact F|]. apply IH; [intros x X; apply I; right; exact X|].
      destruct (nth_error cs i) as [[[] s]|] eqn:N; try exact F. destruct (raw_has _ k); [|exact F].
      destruct (nth_error fs i) as [f|] eqn:Nf.
      - pose proof (ch_fix T K CH n fs ps d i k f G (I _ (or_introl eq_refl)) Nf) as Et.
        eapply set_typed; [exact F|exact Nf|]. apply assign_typed; [rewrite Et; constructor; constructor|]. exact (cell_typed _ _ _ _ _ F Nf N).
      - apply nth_error_None in Nf. apply nth_some_lt in N. assert (L : length fs = length cs) by (clear - F; induction F; cbn [length]; congruence). lia.
    Qed.
    Lemma in_arrange {A} pk (l : list A) x : In x (arrange pk l) -> In x l.
    Proof.
      unfold arrange. intros I. apply in_flat_map in I. destruct I as (i & _ & I). destruct (nth_error l i) eqn:E; [|destruct I]. destruct I as [<-|[]]. eapply nth_error_In. exact E.
    Qed.
    Lemma in_dedup {A} (l : list (string * A)) x : In x (dedup l) -> In x l.
    Proof. induction l as [|y l IH]; cbn [dedup]; [tauto|]. destruct (in_list _ _); cbn [In]; intuition. Qed.
    Lemma raw_typed j w cs : wtyping w -> cells_typed fs cs -> cells_typed fs (fst (fd_raw T p n j fs d w cs)).
    Proof.
      intros W F. unfold fd_raw. cbv zeta. destruct (raw_checks _ _ && _); [|exact F].
      assert (R : forall m, In m (fraw_map w) -> typing (snd (snd m))) by (intros m I; destruct w; try destruct I; apply W; apply in_dedup; exact I).
      assert (R1 : forall m, In m (fraw_rest d (fraw_map w)) -> typing (snd (snd m))) by (intros m I; apply R; apply filter_In in I; apply I).
      assert (R2 : forall m, In m (fraw_left d (fraw_rest d (fraw_map w))) -> typing (snd (snd m))) by (intros m I; apply R1; apply filter_In in I; apply I).
      match goal with |- context [fd_pats ?a ?b ?c ?x ?y] => assert (F' : cells_typed fs (fst (fd_pats a b c x y)));
        [apply pats_typed; [intros m I; apply R1; eapply in_arrange; exact I|apply fix_typed; [auto|exact F]]|destruct (fd_pats a b c x y) as [cs' []]] end; [|exact F'].
      destruct (d_addl d); [exact F'|]. apply addl_typed; [intros m I; apply R2; eapply in_arrange; exact I|exact F'].
    Qed.
    Lemma ent_typed j same w cs : typing same -> wtyping w -> cells_typed fs cs -> cells_typed fs (fst (fd_ent T p n j same w fs d cs)).
    Proof.
      intros D W F. unfold fd_ent. destruct (forallb _ _); [|exact F].
      assert (F1 : cells_typed fs (fst (if d_struct d then fd_struct w fs cs else (cs, Fine)))) by (destruct (d_struct d); [apply struct_typed; assumption|exact F]).
      destruct (if d_struct d then fd_struct w fs cs else (cs, Fine)) as [cs1 st]. cbn [fst] in F1. destruct (fine st); [|exact F1].
      pose proof (embed_typed same D (d_embed d) cs1 F1) as F2. destruct (fd_embed same fs (d_embed d) cs1) as [cs2 []]; [|exact F2].
      pose proof (alts_typed same D (d_oneof d) (fun i I => I) cs2 0 F2) as F3. destruct (fd_alts same fs (d_oneof d) cs2 0) as [cs3 valid]. cbn [fst] in F3.
      destruct (match d_oneof d with [] => true | _ => valid =? 1 end); [apply raw_typed; assumption|exact F3].
    Qed.
    Lemma start_typed vs : Forall2 (fun f v => typed (f_ty f) v) fs vs -> cells_typed fs (map (fun v => (v, fresh v)) vs).
    Proof. clear G. induction 1; cbn [map]; constructor; [|assumption]. split; [assumption|]. apply sees_fresh. assumption. Qed.
    Lemma cells_struct cs : cells_typed fs cs -> typed (TNamed n) (VStruct (map fst cs)) /\ sees (TNamed n) (Fields (map snd cs)).
    Proof.
      intros F. split; [eapply ty_struct; [exact G|]|eapply sees_fields; [exact G|]]; clear G; induction F as [|f c fs' cs (A & B) F IH]; cbn [map]; constructor; assumption.
    Qed.
    Lemma cells_look cs : cells_typed fs cs -> typed (TNamed n) (VStruct (map (fun c => look (fst c) (snd c)) cs)).
    Proof. intros F. eapply ty_struct; [exact G|]. clear G. induction F as [|f c fs' cs (A & B) F IH]; cbn [map]; constructor; [apply B; exact A|assumption]. Qed.
  End Ent.

  Lemma elems_typed t : known t = true -> forall ds, (forall e, In e ds -> typing e) -> forall olds, (forall v, In v olds -> typed t v) ->
    (forall v, In v (fst (fst (fd_elems T t ds olds))) -> typed t v) /\ (forall v, In v (snd (fst (fd_elems T t ds olds))) -> typed t v).
  Proof.
    intros Kt. induction ds as [|e ds IH]; intros D olds O; cbn [fd_elems]; [split; [intros v []|exact O]|]. cbv zeta.
    assert (H : typed t (hd (zero T LVL t) olds)) by (destruct olds as [|o olds]; cbn [hd]; [exact (zero_is_typed T K CH t Kt)|apply O; left; reflexivity]).
    assert (Tl : forall v, In v (tl olds) -> typed t v) by (intros v I; apply O; destruct olds; [destruct I|right; exact I]).
    destruct (D e (or_introl eq_refl) t _ Kt H) as (X & _). destruct (IH (fun x I => D x (or_intror I)) (tl olds) Tl) as (A & B).
    assert (S : forall v, In v (match olds with [] => [] | _ => [fst (fst (e t (hd (zero T LVL t) olds)))] end) -> typed t v).
    { intros v I. destruct olds; [destruct I|]. destruct I as [<-|[]]. exact X. }
    destruct (snd (e t (hd (zero T LVL t) olds))); try (destruct (fd_elems T t ds (tl olds)) as [[vs os] st]); cbn [fst snd] in *;
      (split; [intros v [<-|I]; auto|intros v I; apply in_app_iff in I; destruct I; auto]).
  Qed.
  Lemma entries_typed t : known t = true -> forall ms, (forall m, In m ms -> typing (snd (snd m))) -> forall m, (forall k v, get k m = Some v -> typed t v) ->
    forall k v, get k (fst (fd_entries T t ms m)) = Some v -> typed t v.
  Proof.
    intros Kt. induction ms as [|[k [j e]] ms IH]; intros D m O; cbn [fd_entries]; [exact O|]. cbv zeta.
    destruct (D _ (or_introl eq_refl) t _ Kt (zero_is_typed T K CH t Kt)) as (X & _). cbn [snd] in X.
    assert (O' : forall q v, get q (put k (fst (fst (e t (zero T LVL t)))) m) = Some v -> typed t v).
    { intros q v E. destruct (string_dec q k) as [->|NE]; [rewrite get_put_same in E; injection E as <-; exact X|]. rewrite get_put_other in E by exact NE. eauto. }
    pose proof (IH (fun x I => D x (or_intror I)) _ O') as Y. destruct (snd (e t (zero T LVL t))); cbn [fst]; try exact O; destruct (fd_entries T t ms _); exact Y.
  Qed.

  Lemma step_typed j w same : typing same -> wtyping w -> typing (fd_step T rnd p M j w same).
  Proof.
    intros D W t v Kt Tv. cbv zeta.
    assert (KF : forall st, typed t (fst (fst (keeps v st))) /\ sees t (snd (fst (keeps v st)))) by (intros st; split; [exact Tv|apply sees_fresh; exact Tv]).
    assert (KW : forall x st, typed t x -> typed t (fst (fst (x, Was v, st : status))) /\ sees t (snd (fst (x, Was v, st)))) by (intros x st X; split; [exact X|apply sees_was; exact Tv]).
    destruct t as [| | | | | |t|t|t|n]; cbn [fd_step].
    - destruct w; auto. apply KW. constructor.
    - destruct w; auto. destruct (int64b q); auto. apply KW. constructor.
    - destruct w; auto. apply KW. constructor.
    - destruct w; auto. apply KW. constructor.
    - apply KW. constructor.
    - auto.
    - cbn [UsedProofs.known] in Kt. pose proof (D t _ Kt (zero_is_typed T K CH t Kt)) as (Z & _).
      assert (P : typed (TPtr t) (VPtr (fst (fst (same t (zero T LVL t)))))) by (constructor; exact Z).
      destruct w; try (apply KW; constructor); destruct v; cbv zeta; try (apply KW; exact P); (split; [|apply sees_same]); cbn [fst snd]; constructor;
        inversion Tv; subst; apply D; assumption.
    - cbn [UsedProofs.known] in Kt. destruct w as [| | | |[|e ds]|]; auto; try (apply KW; constructor; intros x []); try (apply KW; constructor; fail).
      cbn [wtyping] in W. pose proof (elems_typed t Kt (e :: ds) W [] (fun x I => match I with end)) as (Z & _).
      destruct v as [| | | | | |l| |]; try (destruct (fd_elems T t (e :: ds) []) as [[vs os] st]; apply KW; constructor; exact Z).
      assert (O : forall x, In x l -> typed t x) by (inversion Tv; subst; assumption).
      destruct (elems_typed t Kt (e :: ds) W l O) as (A & B). destruct (fd_elems T t (e :: ds) l) as [[vs os] st]. cbn [fst snd] in *.
      split; [constructor; exact A|]. apply sees_was. constructor. exact B.
    - cbn [UsedProofs.known] in Kt. destruct w as [| | | | |ms]; auto; try (apply KW; constructor; fail).
      cbn [wtyping] in W. pose proof (entries_typed t Kt ms W [] (fun k x I => match I : None = Some x in _ = o return match o with Some _ => typed t x | None => True end with eq_refl => Logic.I end)) as Z.
      destruct v as [| | | | | | |m|]; try (destruct (fd_entries T t ms []) as [m' st]; apply KW; constructor; exact Z).
      assert (O : forall k x, get k m = Some x -> typed t x) by (inversion Tv; subst; assumption).
      pose proof (entries_typed t Kt ms W m O) as A. destruct (fd_entries T t ms m) as [m' st]. cbn [fst snd] in *.
      split; [constructor; exact A|apply sees_same].
    - destruct (get n T) as [[vals|fs ps d]|] eqn:G; auto.
      + destruct w; auto; match goal with |- context [in_list ?a vals] => destruct (in_list a vals) end; auto; apply KW; econstructor; exact G.
      + destruct v as [| | | | | | | |vs]; auto.
        assert (F0 : Forall2 (fun f x => typed (f_ty f) x) fs vs).
        { inversion Tv as [| | | | | | | | | | | | |n0 fs' ps' d' vs' G' F' E1 E2]; subst. rewrite G in G'. injection G' as <- <- <-. exact F'. }
        pose proof (start_typed fs vs F0) as S. destruct (in_list n M).
        * pose proof (struct_typed n fs ps d G w _ W S) as F. destruct (fd_struct w fs _) as [cs st]. cbn [fst snd] in *. exact (cells_struct n fs ps d G cs F).
        * pose proof (ent_typed n fs ps d G j same w _ D W S) as F. destruct (fd_ent T p n j same w fs d _) as [cs []]; cbn [fst] in F.
          -- exact (cells_struct n fs ps d G cs F).
          -- destruct (d_struct d); cbn [fst snd]; [|exact (cells_struct n fs ps d G cs F)]. pose proof (cells_look n fs ps d G cs F) as X. split; [exact X|apply sees_was; exact X].
  Qed.
  Lemma levels_typed f : (forall s, typing s -> typing (f s)) -> forall n, typing (flevels f n).
  Proof. intros F. induction n as [|n IH]; cbn [flevels]; [intros t v _ Tv; split; [exact Tv|apply sees_fresh; exact Tv]|apply F; exact IH]. Qed.
  Lemma fdec_typed : forall j, typing (fdec T rnd p M j).
  Proof.
    fix IH 1. intros j. destruct j as [|b|q|s|l|m]; cbn [fdec]; apply levels_typed; intros same D; apply step_typed; try exact D; try exact I.
    - cbn [wtyping]. induction l as [|x l IHl]; cbn [map In]; [intros d []|]. intros d [<-|X]; [apply IH|apply IHl; exact X].
    - cbn [wtyping]. induction m as [|[k x] m IHm]; cbn [map In]; [intros d []|]. intros d [<-|X]; [cbn [fst snd]; apply IH|apply IHm; exact X].
  Qed.
  Lemma reading_typed t j old : known t = true -> typed t old -> typed t (fst (reading T rnd p M t j old)).
  Proof. intros Kt Tv. unfold reading. cbv zeta. cbn [fst]. exact (proj1 (fdec_typed j t old Kt Tv)). Qed.
End Typed.
