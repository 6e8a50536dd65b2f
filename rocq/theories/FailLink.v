(* What FailModel.v reads without error is what OrdModel.v reads. *)
From Coq Require Import Lia.
From Verif Require Import Str SMap Json CodecModel CodecSpec OrdModel OrdSpec FailModel FailSpec.

Definition res (r : val * seen * status) : option val := if fine (snd r) then Some (fst (fst r)) else None.
Definition linked (fd : fdecoder) (d : decoder) : Prop := forall t v, d t v = res (fd t v).
Definition mlinked (m : string * (json * fdecoder)) (m' : string * (json * decoder)) : Prop :=
  fst m = fst m' /\ fst (snd m) = fst (snd m') /\ linked (snd (snd m)) (snd (snd m')).
Definition wlinked (w : fview) (w' : jview) : Prop :=
  match w, w' with
  | FNull, SNull => True
  | FBool b, SBool b' => b = b'
  | FNum q, SNum q' => q = q'
  | FStr s, SStr s' => s = s'
  | FArr l, SArr l' => Forall2 linked l l'
  | FObj m, SObj m' => Forall2 mlinked m m'
  | _, _ => False
  end.
Definition okc (r : list cell * bool) : option (list val) := if snd r then Some (map fst (fst r)) else None.

Lemma F2_arrange {A B} (R : A -> B -> Prop) l l' : Forall2 R l l' -> forall p, Forall2 R (arrange p l) (arrange p l').
Proof.
  intros F p. unfold arrange. induction p as [|i p IH]; cbn [flat_map]; [constructor|]. apply Forall2_app; [|exact IH].
  clear IH. revert i. induction F as [|x y l l' H F IH]; intros i; destruct i; cbn [nth_error]; try constructor; auto.
Qed.
Lemma F2_len {A B} (R : A -> B -> Prop) l l' : Forall2 R l l' -> length l = length l'.
Proof. induction 1; cbn [length]; congruence. Qed.
Lemma F2_filter {A B} (R : A -> B -> Prop) f g l l' : (forall x y, R x y -> f x = g y) -> Forall2 R l l' -> Forall2 R (filter f l) (filter g l').
Proof. intros E F. induction F as [|x y l l' H F IH]; cbn [filter]; [constructor|]. rewrite (E x y H). destruct (g y); [constructor|]; assumption. Qed.
Lemma mlinked_keys ms ms' : Forall2 mlinked ms ms' -> map fst ms = map fst ms'.
Proof. induction 1 as [|x y l l' (E & _) F IH]; cbn [map]; congruence. Qed.
Lemma F2_dedup ms ms' : Forall2 mlinked ms ms' -> Forall2 mlinked (dedup ms) (dedup ms').
Proof.
  induction 1 as [|x y l l' H F IH]; cbn [dedup]; [constructor|]. destruct H as (E & H). rewrite (mlinked_keys _ _ F), E.
  destruct (in_list (fst y) (map fst l')); [exact IH|]. constructor; [split; assumption|exact IH].
Qed.
Lemma set_map {A B} (f : A -> B) i x l : map f (set_nth i x l) = set_nth i (f x) (map f l).
Proof. revert i. induction l as [|y l IH]; intros [|i]; cbn [set_nth map]; try reflexivity. f_equal. apply IH. Qed.
Lemma nth_map {A B} (f : A -> B) i l : nth_error (map f l) i = option_map f (nth_error l i).
Proof. revert i. induction l as [|y l IH]; intros [|i]; cbn [nth_error map option_map]; try reflexivity. apply IH. Qed.
Lemma set_get {A} (x : A) i l : nth_error l i = Some x -> set_nth i x l = l.
Proof. revert i. induction l as [|y l IH]; intros [|i] E; cbn [nth_error set_nth] in *; try discriminate; [congruence|f_equal; auto]. Qed.

(* A struct without UnmarshalJSON. *)
Definition no_program (d : dprog) : bool :=
  d_struct d && negb (d_closed d) &&
  match d_not d, d_embed d, d_oneof d, d_require d, d_xor d with [], [], [], [], [] => true | _, _, _, _, _ => false end &&
  match d_const d, d_notconst d, d_absent d, d_lower d with [], [], [], [] => true | _, _, _, _ => false end &&
  match d_fix d, d_pats d, d_addl d with [], [], [] => true | _, _, _ => false end.

Section Link.
  Variable T : list (string * ent).
  Variable rnd : Q -> Q.
  Variable p : picks.
  Variable M : list string.
  Variable o : order.
  Hypothesis o_ok : forall n i j l, o n i j l = order_of p n i j l.
  Hypothesis M_ok : forall n fs ps d, get n T = Some (EStruct fs ps d) -> in_list n M = true -> no_program d = true.

  Lemma fields_link fs ms ms' : Forall2 mlinked ms ms' -> forall cs,
    dec_fields fs ms' (map fst cs) = (let (cs', st) := fd_fields fs ms cs in if fine st then Some (map fst cs') else None).
  Proof.
    induction 1 as [|[k [j d]] [k' [j' d']] ms ms' (E1 & E2 & L) F IH]; intros cs; cbn [fd_fields dec_fields]; [reflexivity|].
    cbn [fst snd] in *. subst k'. destruct (find_field fs k) as [i|]; [|apply IH].
    destruct (nth_error fs i) as [f|]; [|reflexivity]. rewrite nth_map. unfold cell in *. destruct (nth_error cs i) as [c|]; cbn [option_map]; [|reflexivity].
    rewrite L. unfold res. specialize (IH (set_nth i (read_cell c (d (f_ty f) (fst c))) cs)). rewrite set_map in IH. cbn [read_cell fst] in IH. cbv zeta.
    destruct (snd (d (f_ty f) (fst c))); cbn [fine].
    - rewrite IH. unfold read_cell. destruct (fd_fields fs ms _) as [cs' st]. reflexivity.
    - destruct (fd_fields fs ms _) as [cs' []]; reflexivity.
    - reflexivity.
  Qed.
  Lemma struct_link fs w w' cs : wlinked w w' ->
    dec_struct w' fs (map fst cs) = (let (cs', st) := fd_struct w fs cs in if fine st then Some (map fst cs') else None).
  Proof. destruct w, w'; intros W; cbn [wlinked] in W; try contradiction; try subst; try reflexivity. apply fields_link. exact W. Qed.
  Lemma embed_link fs same same' : linked same same' -> forall is cs, dec_embed same' fs is (map fst cs) = okc (fd_embed same fs is cs).
  Proof.
    intros L. induction is as [|i is IH]; intros cs; cbn [dec_embed fd_embed]; [reflexivity|].
    destruct (nth_error fs i) as [f|]; [|reflexivity]. rewrite nth_map. unfold cell in *. destruct (nth_error cs i) as [c|]; cbn [option_map]; [|reflexivity].
    rewrite L. unfold res. cbv zeta. destruct (fine _); [|reflexivity]. rewrite <- IH, set_map. reflexivity.
  Qed.
  Lemma alts_link fs same same' : linked same same' -> forall is cs n,
    dec_alts same' fs is (map fst cs) n = (map fst (fst (fd_alts same fs is cs n)), snd (fd_alts same fs is cs n)).
  Proof.
    intros L. induction is as [|i is IH]; intros cs n; cbn [dec_alts fd_alts]; [reflexivity|].
    destruct (nth_error fs i) as [f|]; [|reflexivity]. rewrite nth_map. unfold cell in *. destruct (nth_error cs i) as [c|]; cbn [option_map]; [|reflexivity].
    rewrite L. unfold res. cbv zeta. destruct (fine _); rewrite <- IH, set_map; reflexivity.
  Qed.
  Lemma store_link fs i k d d' : linked d d' -> forall cs, store T fs i k d' (map fst cs) = okc (fd_store T fs i k d cs).
  Proof.
    intros L cs. unfold store, fd_store. destruct (nth_error fs i) as [f|]; [|reflexivity]. rewrite nth_map. unfold cell in *.
    destruct (nth_error cs i) as [c|]; cbn [option_map]; [|reflexivity]. destruct (f_ty f); try reflexivity. rewrite L. unfold res. cbv zeta.
    destruct (fine _); [|reflexivity]. unfold okc. cbn [fst snd]. rewrite set_map. cbn [fst]. do 3 f_equal.
    destruct (fst c) eqn:E; cbn [assign fst]; rewrite ?E; reflexivity.
  Qed.
  Lemma store_pats_link fs k d d' : linked d d' -> forall ps cs, store_pats T fs ps k d' (map fst cs) = okc (fd_store_pats T fs ps k d cs).
  Proof.
    intros L. induction ps as [|[x i] ps IH]; intros cs; cbn [store_pats fd_store_pats]; [reflexivity|]. destruct (matches x k); [|apply IH].
    rewrite (store_link fs i k d d' L cs). destruct (fd_store T fs i k d cs) as [cs' []]; [exact (IH cs')|reflexivity].
  Qed.
  Lemma pats_link fs ps ms ms' : Forall2 mlinked ms ms' -> forall cs, dec_pats T fs ps ms' (map fst cs) = okc (fd_pats T fs ps ms cs).
  Proof.
    induction 1 as [|[k [j d]] [k' [j' d']] ms ms' (E1 & E2 & L) F IH]; intros cs; cbn [fd_pats dec_pats]; [reflexivity|]. cbn [fst snd] in *. subst k'.
    rewrite (store_pats_link fs k d d' L ps cs). destruct (fd_store_pats T fs ps k d cs) as [cs' []]; [exact (IH cs')|reflexivity].
  Qed.
  Lemma addl_link fs i ms ms' : Forall2 mlinked ms ms' -> forall cs, dec_addl T fs i ms' (map fst cs) = okc (fd_addl T fs i ms cs).
  Proof.
    induction 1 as [|[k [j d]] [k' [j' d']] ms ms' (E1 & E2 & L) F IH]; intros cs; cbn [fd_addl dec_addl]; [reflexivity|]. cbn [fst snd] in *. subst k'.
    rewrite (store_link fs i k d d' L cs). destruct (fd_store T fs i k d cs) as [cs' []]; [exact (IH cs')|reflexivity].
  Qed.
  Lemma has_link ms ms' k : Forall2 mlinked ms ms' -> raw_has (bare ms) k = raw_has ms' k.
  Proof. intros F. unfold raw_has. f_equal. rewrite <- (mlinked_keys _ _ F). unfold bare. rewrite map_map. reflexivity. Qed.
  Lemma is_link ms ms' k c : Forall2 mlinked ms ms' -> raw_is (bare ms) k c = raw_is ms' k c.
  Proof.
    intros F. unfold raw_is. induction F as [|[x [j d]] [x' [j' d']] ms ms' (E1 & E2 & _) F IH]; cbn [bare map get fst snd]; [reflexivity|].
    cbn [fst snd] in *. subst x' j'. destruct (String.eqb k x); [reflexivity|exact IH].
  Qed.
  Lemma checks_link d ms ms' : Forall2 mlinked ms ms' -> raw_checks d (bare ms) = raw_checks d ms'.
  Proof.
    intros F. unfold raw_checks. assert (G : forall A (f g : A -> bool) l, (forall x, f x = g x) -> forallb f l = forallb g l).
    { intros A f g l E. induction l as [|x l IH]; cbn [forallb]; [reflexivity|]. rewrite E, IH. reflexivity. }
    f_equal; [f_equal; [f_equal; [f_equal|]|]|]; apply G; intros x; rewrite ?(has_link _ _ _ F), ?(is_link _ _ _ _ F); reflexivity.
  Qed.
  Lemma fix_link ms ms' : Forall2 mlinked ms ms' -> forall fx cs, dec_fix fx ms' (map fst cs) = map fst (fd_fix fx ms cs).
  Proof.
    intros F. induction fx as [|[i k] fx IH]; intros cs; cbn [dec_fix fd_fix]; [reflexivity|]. rewrite <- IH. f_equal. rewrite nth_map. unfold cell in *.
    destruct (nth_error cs i) as [[v s]|]; cbn [option_map fst]; [|reflexivity]. destruct v; try reflexivity.
    rewrite (has_link _ _ _ F). destruct (raw_has ms' k); [|reflexivity]. rewrite set_map. reflexivity.
  Qed.
  Lemma raw_link n j fs d w w' cs : wlinked w w' -> dec_raw_o T o n j fs d w' (map fst cs) = okc (fd_raw T p n j fs d w cs).
  Proof.
    intros W. assert (R : Forall2 mlinked (fraw_map w) (raw_map w')) by (destruct w, w'; cbn [wlinked] in W; try contradiction; try subst; try constructor; apply F2_dedup; exact W).
    unfold dec_raw_o, fd_raw. cbv zeta. rewrite (checks_link d _ _ R). destruct (raw_checks d (raw_map w') && _); [|reflexivity].
    assert (R1 : Forall2 mlinked (fraw_rest d (fraw_map w)) (raw_rest d (raw_map w'))) by (apply F2_filter; [intros x y (E & _); rewrite E; reflexivity|exact R]).
    assert (R2 : Forall2 mlinked (fraw_left d (fraw_rest d (fraw_map w))) (raw_left d (raw_rest d (raw_map w')))) by (apply F2_filter; [intros x y (E & _); rewrite E; reflexivity|exact R1]).
    rewrite (fix_link _ _ R). rewrite !o_ok. unfold order_of. rewrite <- (F2_len _ _ _ R1), <- (F2_len _ _ _ R2).
    rewrite (pats_link fs (d_pats d) _ _ (F2_arrange _ _ _ R1 (p n 0 j (length (fraw_rest d (fraw_map w))))) (fd_fix (d_fix d) (fraw_map w) cs)).
    destruct (fd_pats T fs (d_pats d) _ _) as [cs' []]; cbn [okc fst snd]; [|reflexivity]. destruct (d_addl d) as [|i l].
    - unfold okc. cbn [fst snd]. destruct R2; destruct (d_closed d); reflexivity.
    - apply (addl_link fs i _ _ (F2_arrange _ _ _ R2 _)).
  Qed.
  Lemma ent_link n j same same' w w' fs d cs : linked same same' -> wlinked w w' ->
    dec_ent_o T o n j same' w' fs d (map fst cs) = okc (fd_ent T p n j same w fs d cs).
  Proof.
    intros L W. unfold dec_ent_o, fd_ent.
    assert (E : forallb (fun t => match same' t (zero T LVL t) with None => true | Some _ => false end) (d_not d) = forallb (fun t => negb (fine (snd (same t (zero T LVL t))))) (d_not d)).
    { induction (d_not d) as [|t l IH]; cbn [forallb]; [reflexivity|]. rewrite IH. f_equal. rewrite L. unfold res. destruct (fine _); reflexivity. }
    rewrite E. clear E. destruct (forallb _ _); [|reflexivity].
    assert (E1 : forall cs1 : list cell,
      match dec_embed same' fs (d_embed d) (map fst cs1) with
      | Some vs => let (vs, valid) := dec_alts same' fs (d_oneof d) vs 0 in
          if match d_oneof d with [] => true | _ => (valid =? 1)%nat end then dec_raw_o T o n j fs d w' vs else None
      | None => None
      end = okc (let (cs, ok) := fd_embed same fs (d_embed d) cs1 in
        if ok then
          let (cs, valid) := fd_alts same fs (d_oneof d) cs 0 in
          if match d_oneof d with [] => true | _ => (valid =? 1)%nat end then fd_raw T p n j fs d w cs else (cs, false)
        else (cs, false))).
    { intros cs1. rewrite (embed_link fs same same' L). destruct (fd_embed same fs (d_embed d) cs1) as [cs2 []]; cbn [okc fst snd]; [|reflexivity].
      rewrite (alts_link fs same same' L). destruct (fd_alts same fs (d_oneof d) cs2 0) as [cs3 valid]. cbn [fst snd].
      destruct (match d_oneof d with [] => true | _ => (valid =? 1)%nat end); [apply raw_link; exact W|reflexivity]. }
    destruct (d_struct d); [|apply E1]. rewrite (struct_link fs w w' cs W). destruct (fd_struct w fs cs) as [cs1 st]. destruct (fine st); [apply E1|reflexivity].
  Qed.
  Lemma elems_link t ds ds' : Forall2 linked ds ds' -> forall olds,
    dec_elems T t ds' olds = (let '(vs, _, st) := fd_elems T t ds olds in if fine st then Some vs else None).
  Proof.
    induction 1 as [|d d' ds ds' L F IH]; intros olds; cbn [dec_elems fd_elems]; [reflexivity|]. rewrite L, IH. unfold res. cbv zeta.
    destruct (snd (d t (hd (zero T LVL t) olds))); cbn [fine]; [|destruct (fd_elems T t ds (tl olds)) as [[vs os] []]; reflexivity|reflexivity].
    destruct (fd_elems T t ds (tl olds)) as [[vs os] st]. cbn [worse]. destruct (fine st); reflexivity.
  Qed.
  Lemma entries_link t ms ms' : Forall2 mlinked ms ms' -> forall m,
    dec_entries T t ms' m = (let (m', st) := fd_entries T t ms m in if fine st then Some m' else None).
  Proof.
    induction 1 as [|[k [j d]] [k' [j' d']] ms ms' (E1 & E2 & L) F IH]; intros m; cbn [dec_entries fd_entries]; [reflexivity|]. cbn [fst snd] in *. subst k'.
    rewrite L. unfold res. cbv zeta. specialize (IH (put k (fst (fst (d t (zero T LVL t)))) m)). destruct (snd (d t (zero T LVL t))); cbn [fine]; [|destruct (fd_entries T t ms _) as [m' []]; reflexivity|reflexivity].
    rewrite IH. destruct (fd_entries T t ms _) as [m' st]. reflexivity.
  Qed.
  Lemma pats_none fs ms vs : dec_pats T fs [] ms vs = Some vs.
  Proof. induction ms as [|[k [j d]] ms IH]; cbn [dec_pats store_pats]; [reflexivity|exact IH]. Qed.
  Lemma program_none n j same w fs d vs : no_program d = true -> dec_ent_o T o n j same w fs d vs = dec_struct w fs vs.
  Proof.
    destruct d as [d1 d2 d3 d4 d5 d6 d7 d8 d9 d10 d11 d12 d13 d14 d15]. unfold no_program. cbn [d_not d_struct d_embed d_oneof d_require d_xor d_const d_notconst d_absent d_lower d_fix d_known d_pats d_addl d_closed].
    destruct d2; [|discriminate]. destruct d15; [discriminate|]. destruct d1; [|discriminate]. destruct d3; [|discriminate]. destruct d4; [|discriminate].
    destruct d5; [|discriminate]. destruct d6; [|discriminate]. destruct d7; [|discriminate]. destruct d8; [|discriminate]. destruct d9; [|discriminate].
    destruct d10; [|discriminate]. destruct d11; [|discriminate]. destruct d13; [|discriminate]. destruct d14; [|discriminate]. intros _.
    unfold dec_ent_o, dec_raw_o, raw_checks, lower_checks. cbn [d_not d_struct d_embed d_oneof d_require d_xor d_const d_notconst d_absent d_lower d_fix d_known d_pats d_addl d_closed forallb dec_embed dec_alts andb dec_fix].
    destruct (dec_struct w fs vs); [|reflexivity]. cbv zeta. rewrite pats_none. reflexivity.
  Qed.
  Lemma fst_start vs : map fst (map (fun v => (v, fresh v)) vs) = vs.
  Proof. rewrite map_map. cbn [fst]. apply map_id. Qed.
  Lemma step_link j w w' same same' : linked same same' -> wlinked w w' -> linked (fd_step T rnd p M j w same) (dec_step_o T rnd o j w' same').
  Proof.
    intros L W t v. destruct t as [| | | | | |t|t|t|n]; cbn [fd_step dec_step_o].
    - destruct w, w'; cbn [wlinked] in W; try contradiction; try subst; reflexivity.
    - destruct w, w'; cbn [wlinked] in W; try contradiction; try subst; try reflexivity. match goal with |- context [int64b ?a] => destruct (int64b a) end; reflexivity.
    - destruct w, w'; cbn [wlinked] in W; try contradiction; try subst; reflexivity.
    - destruct w, w'; cbn [wlinked] in W; try contradiction; try subst; reflexivity.
    - reflexivity.
    - reflexivity.
    - destruct w, w'; cbn [wlinked] in W; try contradiction; try subst; try reflexivity; destruct v; rewrite L; unfold res; cbn [fst snd]; destruct (fine _); reflexivity.
    - destruct w as [| | | |ds|], w' as [| | | |ds'|]; cbn [wlinked] in W; try contradiction; try subst; try reflexivity. cbn in W. destruct ds as [|d ds]; [inversion W; subst; destruct v; reflexivity|].
      destruct v; rewrite (elems_link t _ _ W); destruct (fd_elems T t (d :: ds) _) as [[vs os] st]; unfold res; cbn [fst snd]; destruct (fine st); reflexivity.
    - destruct w as [| | | | |ms], w' as [| | | | |ms']; cbn [wlinked] in W; try contradiction; try subst; try reflexivity. cbn in W.
      destruct v; rewrite (entries_link t _ _ W); destruct (fd_entries T t ms _) as [m' st]; unfold res; cbn [fst snd]; destruct (fine st); reflexivity.
    - destruct (get n T) as [[vals|fs ps d]|] eqn:G; [| |reflexivity].
      + destruct w, w'; cbn [wlinked] in W; try contradiction; try subst; try reflexivity; match goal with |- context [in_list ?a vals] => destruct (in_list a vals) end; reflexivity.
      + destruct v as [| | | | | | | |vs]; try reflexivity. destruct (in_list n M) eqn:EM.
        * rewrite (program_none n j same' w' fs d vs (M_ok _ _ _ _ G EM)). rewrite <- (fst_start vs) at 1. rewrite (struct_link fs w w' _ W).
          destruct (fd_struct w fs _) as [cs st]. unfold res. cbn [fst snd]. destruct (fine st); reflexivity.
        * rewrite <- (fst_start vs) at 1. rewrite (ent_link n j same same' w w' fs d _ L W). destruct (fd_ent T p n j same w fs d _) as [cs []]; cbn [okc fst snd]; [reflexivity|].
          destruct (d_struct d); reflexivity.
  Qed.
  Lemma levels_link f f' : (forall s s', linked s s' -> linked (f s) (f' s')) -> forall n, linked (flevels f n) (levels f' n).
  Proof. intros F. induction n as [|n IH]; cbn [flevels levels]; [intros t v; reflexivity|apply F; exact IH]. Qed.
  Lemma fdec_link : forall j, linked (fdec T rnd p M j) (dec_o T rnd o j).
  Proof.
    fix IH 1. intros j. destruct j as [|b|q|s|l|m]; cbn [fdec dec_o]; apply levels_link; intros same same' L; apply step_link; try exact L; try reflexivity; try exact I.
    - cbn [wlinked]. induction l as [|x l IHl]; cbn [map]; constructor; [apply IH|exact IHl].
    - cbn [wlinked]. induction m as [|[k x] m IHm]; cbn [map]; constructor; [|exact IHm]. split; [reflexivity|]. split; [reflexivity|]. apply IH.
  Qed.
  Lemma reading_link t j old v : reading T rnd p M t j old = (v, true) <-> dec_o T rnd o j t old = Some v.
  Proof.
    rewrite (fdec_link j t old). unfold reading, res. cbv zeta. destruct (fine _); split; intros E; try discriminate; congruence.
  Qed.
  Lemma reading_fails t j old : snd (reading T rnd p M t j old) = false <-> dec_o T rnd o j t old = None.
  Proof. rewrite (fdec_link j t old). unfold reading, res. cbv zeta. cbn [snd]. destruct (fine _); split; intros E; try discriminate; reflexivity. Qed.
End Link.

Lemma arrange_seq {A} (l : list A) : arrange (seq 0 (length l)) l = l.
Proof.
  enough (H : forall h, arrange (seq (length h) (length l)) (h ++ l) = l) by exact (H []).
  induction l as [|x l IH]; intros h; cbn [length seq arrange flat_map]; [reflexivity|].
  rewrite nth_error_app2, PeanoNat.Nat.sub_diag by constructor. cbn [nth_error app]. f_equal.
  specialize (IH (h ++ [x])). rewrite <- app_assoc, app_length, PeanoNat.Nat.add_1_r in IH. exact IH.
Qed.
