(* json.Marshal with the limit of depth writes what json.Marshal without it writes,
   or fails. *)
From Coq Require Import NArith ZArith Ascii Lia Bool Permutation.
From Verif Require Import Str SMap Json CodecModel CodecTables CodecSpec CodecProofs UnionModel YamlDocModel.
From Verif Require Import OrdModel OrdSpec OrdProofs TextModel TextSpec TextProofs BytesSpec BytesModel BytesProofs BytesDocs BytesSound.
From Verif Require Import ScanModel ScanSpec ScanProofs DepthModel.

(* ---------- depth ---------- *)

Lemma max_le : forall l n, (forall x, In x l -> (x <= n)%nat) <-> (fold_right Nat.max 0%nat l <= n)%nat.
Proof.
  intros l n. induction l as [|a l IH]; cbn [fold_right]; [split; [lia|intros _ x []]|]. split.
  - intros H. assert (a <= n)%nat by (apply H; left; reflexivity). assert (fold_right Nat.max 0%nat l <= n)%nat by (apply (proj1 IH); intros x I; apply H; right; exact I). lia.
  - intros H x [<-|I]; [lia|]. apply (proj2 IH); [lia|exact I].
Qed.
Lemma depth_in_arr : forall l j, In j l -> (depth j < depth (JArr l))%nat.
Proof. intros l j I. cbn [depth]. apply Nat.lt_succ_r. apply (proj2 (max_le _ _) (le_n _)). apply in_map. exact I. Qed.
Lemma depth_in_obj : forall m k j, In (k, j) m -> (depth j < depth (JObj m))%nat.
Proof. intros m k j I. cbn [depth]. apply Nat.lt_succ_r. apply (proj2 (max_le _ _) (le_n _)). exact (in_map (fun kv => depth (snd kv)) m (k, j) I). Qed.
Lemma depth_obj_le : forall m m', (forall kv, In kv m -> In kv m') -> (depth (JObj m) <= depth (JObj m'))%nat.
Proof.
  intros m m' H. cbn [depth]. apply le_n_S. apply max_le. intros x I. apply in_map_iff in I. destruct I as (kv & <- & I).
  apply (proj2 (max_le _ _) (le_n _)). apply (in_map (fun kv => depth (snd kv))). apply H. exact I.
Qed.

Lemma depth_jmap f g : forall j, depth (jmap f g j) = depth j.
Proof.
  induction j as [|b|q|s|l IH|m IH] using json_ind'; cbn [jmap depth]; try reflexivity; rewrite map_map; f_equal; f_equal; rewrite Forall_forall in IH.
  - apply map_ext_in. exact IH.
  - apply map_ext_in. intros [k j] I. exact (IH _ I).
Qed.
Lemma max_perm : forall l l', Permutation l l' -> fold_right Nat.max 0%nat l = fold_right Nat.max 0%nat l'.
Proof. intros l l' P. induction P; cbn [fold_right]; lia. Qed.
Lemma depth_reordered : forall j j', reordered j j' -> depth j = depth j'.
Proof.
  induction j as [|b|q|s|l IH|m IH] using json_ind'; intros j' R; inversion R as [| | | |l1 l2 F|m0 m1 m' P F]; subst; cbn [depth]; try reflexivity; f_equal.
  - f_equal. clear R. rewrite Forall_forall in IH. induction F as [|x y l l' E F IHl]; cbn [map]; [reflexivity|]. f_equal; [apply IH; [left; reflexivity|exact E]|].
    apply IHl. intros z I. apply IH. right. exact I.
  - rewrite (max_perm _ _ (Permutation_map (fun kv => depth (snd kv)) P)). f_equal.
    assert (G : forall kv, In kv m1 -> forall j', reordered (snd kv) j' -> depth (snd kv) = depth j').
    { rewrite Forall_forall in IH. intros kv I. apply IH. apply (Permutation_in _ (Permutation_sym P)). exact I. }
    clear R P IH. induction F as [|x y l l' E F IHl]; cbn [map]; [reflexivity|]. f_equal; [apply G; [left; reflexivity|exact (proj2 E)]|].
    apply IHl. intros z I. apply G. right. exact I.
Qed.

Lemma shallow_le : forall a b, (depth a <= Nat.max 1 (depth b))%nat -> shallow b -> shallow a.
Proof. intros a b H B. unfold shallow in *. lia. Qed.

(* The parts of a union are not deeper than the union. *)
Lemma union_depth : forall ps acc j, junion_loop ps acc = Some j ->
  (depth (JObj acc) <= Nat.max 1 (depth j))%nat /\ forall p, In p ps -> (depth p <= Nat.max 1 (depth j))%nat.
Proof.
  induction ps as [|p ps IH]; intros acc j E; cbn [junion_loop] in E.
  { injection E as <-. split; [lia|intros p []]. }
  assert (Alone : (match acc with [] => if forallb (fun p => match p with JNull | JObj [] => true | _ => false end) ps then Some p else None | _ :: _ => None end) = Some j ->
     (depth (JObj acc) <= Nat.max 1 (depth j))%nat /\ forall q, In q (p :: ps) -> (depth q <= Nat.max 1 (depth j))%nat).
  { destruct acc; [|discriminate]. destruct (forallb _ ps) eqn:F; [|discriminate]. intros X. injection X as <-. split; [cbn [depth map fold_right]; lia|].
    intros q [<-|I]; [lia|]. rewrite forallb_forall in F. specialize (F q I). destruct q as [| | | | |[|]]; try discriminate F; cbn [depth map fold_right]; lia. }
  destruct p as [|b|q|s|l|m]; try exact (Alone E).
  - destruct (IH _ _ E) as [A B]. split; [exact A|]. intros q [<-|I]; [cbn [depth]; lia|exact (B q I)].
  - destruct (IH _ _ E) as [A B]. split; [|intros q [<-|I]; [|exact (B q I)]].
    + pose proof (depth_obj_le acc (acc ++ m) (fun kv I => in_or_app _ _ _ (or_introl I))). lia.
    + pose proof (depth_obj_le m (acc ++ m) (fun kv I => in_or_app _ _ _ (or_intror I))). lia.
Qed.

(* ---------- lists of texts ---------- *)

Lemma seq_text_ok : forall l r, seq_text l = Texts r -> forall x, In x l -> exists s, x = UOk s.
Proof.
  induction l as [|x l IH]; intros r E y I; [destruct I|]. cbn [seq_text] in E. destruct x as [s| |]; try discriminate E.
  destruct (seq_text l) as [r'| |] eqn:E'; try discriminate E. destruct I as [<-|I]; [exists s; reflexivity|exact (IH r' eq_refl y I)].
Qed.
Lemma bracket_ok : forall o c r s, bracket o c r = UOk s -> exists l, r = Texts l.
Proof. intros o c [l| |] s E; try discriminate E. exists l. reflexivity. Qed.
Lemma seq_opt_ok {A} : forall (l : list (option A)) r, seq_opt l = Some r -> forall x, In x l -> exists a, x = Some a /\ In a r.
Proof.
  induction l as [|x l IH]; intros r E y I; [destruct I|]. cbn [seq_opt] in E. destruct x as [a|]; [|discriminate E]. destruct (seq_opt l) as [r'|] eqn:E'; [|discriminate E].
  injection E as <-. destruct I as [<-|I]; [exists a; split; [reflexivity|left; reflexivity]|]. destruct (IH r' eq_refl y I) as (b & -> & Ib). exists b. split; [reflexivity|right; exact Ib].
Qed.
Lemma union_loop_ok : forall l r o s, union_loop (map part_text l) r o = UOk s -> forall x, In x l -> exists s', x = UOk s'.
Proof.
  induction l as [|x l IH]; intros r o s E y I; [destruct I|]. cbn [map union_loop part_text] in E. destruct x as [j| |]; cbn [part_text] in E; [|discriminate E|discriminate E].
  destruct I as [<-|I]; [exists j; reflexivity|]. destruct (String.eqb j "{}"); [exact (IH _ _ _ E y I)|]. destruct (String.eqb j "null"); [exact (IH _ _ _ E y I)|].
  destruct j as [|c j1]; [discriminate E|]. destruct (negb (Ascii.eqb c "{")).
  - destruct (_ && _)%bool in E; [exact (IH _ _ _ E y I)|discriminate E].
  - destruct (negb o); [discriminate E|exact (IH _ _ _ E y I)].
Qed.
Lemma member_ok : forall st k r s, member_text st k r = UOk s -> exists s', r = UOk s'.
Proof. intros st k [s'| |] s E; try discriminate E. exists s'. reflexivity. Qed.

(* ---------- what is written under the limit is written without ---------- *)

Definition refines (x y : ures) : Prop := forall s, x = UOk s -> y = UOk s.
Lemma refines_seq : forall l l' r, Forall2 refines l l' -> seq_text l = Texts r -> seq_text l' = Texts r.
Proof.
  intros l l' r F. revert r. induction F as [|x y l l' R F IH]; intros r E; [exact E|]. cbn [seq_text] in *. destruct x as [s| |]; try discriminate E.
  rewrite (R s eq_refl). destruct (seq_text l) as [r'| |]; try discriminate E. rewrite (IH r' eq_refl). exact E.
Qed.
Lemma refines_bracket : forall o c l l', Forall2 refines l l' -> refines (bracket o c (seq_text l)) (bracket o c (seq_text l')).
Proof. intros o c l l' F s E. destruct (bracket_ok _ _ _ _ E) as [r Er]. rewrite (refines_seq l l' r F Er). rewrite Er in E. exact E. Qed.
Lemma refines_member : forall st k x y, refines x y -> refines (member_text st k x) (member_text st k y).
Proof. intros st k x y R s E. destruct (member_ok _ _ _ _ E) as [s' ->]. rewrite (R s' eq_refl). exact E. Qed.
Lemma refines_union : forall l l', Forall2 refines l l' -> forall r o, refines (union_loop (map part_text l) r o) (union_loop (map part_text l') r o).
Proof.
  intros l l' F. induction F as [|x y l l' R F IH]; intros r o s E; [exact E|].
  destruct (union_loop_ok (x :: l) r o s E x (or_introl eq_refl)) as [sx ->]. rewrite (R sx eq_refl). cbn [map union_loop part_text] in *.
  destruct (String.eqb sx "{}"); [exact (IH _ _ _ E)|]. destruct (String.eqb sx "null"); [exact (IH _ _ _ E)|].
  destruct sx as [|c j1]; [discriminate E|]. destruct (negb (Ascii.eqb c "{")).
  - destruct (_ && _)%bool in E |- *; [exact (IH _ _ _ E)|discriminate E].
  - destruct (negb o); [discriminate E|exact (IH _ _ _ E)].
Qed.
Lemma refines_refl : forall x, refines x x.
Proof. intros x s E. exact E. Qed.
Lemma refines_map {A} (f g : A -> ures) : forall l, (forall x, In x l -> refines (f x) (g x)) -> Forall2 refines (map f l) (map g l).
Proof. induction l as [|x l IH]; intros H; cbn [map]; constructor; [apply H; left; reflexivity|apply IH; intros y I; apply H; right; exact I]. Qed.

Section Limit.
  Variable T : list (string * ent).
  Variable num_text : Q -> string.
  Variable str_text : string -> string.
  Notation deep := (enc_deep T num_text str_text).
  Notation plain := (enc_text T num_text str_text).

  Lemma refines_fields : forall fs l, (forall v, In v l -> forall t, refines (deep v t) (plain v t)) ->
    Forall2 refines (text_fields str_text fs (map (fun v => (v, deep v)) l)) (text_fields str_text fs (map (fun v => (v, plain v)) l)).
  Proof.
    induction fs as [|f fs IH]; intros [|v l] H; cbn [map text_fields]; try (constructor; [apply refines_refl|constructor]); [constructor|].
    assert (R : forall w, In w l -> forall t, refines (deep w t) (plain w t)) by (intros w I; apply H; right; exact I).
    destruct (f_key f) as [k|]; [|apply IH; exact R]. destruct (f_omit f && is_empty v)%bool; [apply IH; exact R|].
    constructor; [|apply IH; exact R]. apply refines_member. apply H. left. reflexivity.
  Qed.
  Lemma refines_part : forall fs l p, (forall v, In v l -> forall t, refines (deep v t) (plain v t)) ->
    refines (text_part num_text str_text fs (map (fun v => (v, deep v)) l) p) (text_part num_text str_text fs (map (fun v => (v, plain v)) l) p).
  Proof.
    intros fs l [m| |i] H; cbn [text_part]; [apply refines_refl|apply refines_bracket, refines_fields, H|].
    rewrite !nth_error_map. destruct (nth_error fs i) as [f|]; [|apply refines_refl]. destruct (nth_error l i) as [v|] eqn:E; [|apply refines_refl]. cbn [option_map].
    apply H. exact (nth_error_In _ _ E).
  Qed.
  Lemma compact_refines : forall r, refines (compact r) r.
  Proof. intros [s| |] s' E; cbn [compact] in E; try discriminate E. destruct (check_valid s); [exact E|discriminate E]. Qed.

  Theorem deep_refines : forall v t, refines (deep v t) (plain v t).
  Proof.
    induction v as [|s|q|b|j|v IH|l IH|m IH|l IH] using val_ind'; intros t; try apply refines_refl; cbn [enc_deep enc_text].
    - destruct t; try apply refines_refl. apply IH.
    - destruct t; try apply refines_refl. rewrite Forall_forall in IH. apply refines_bracket, refines_map. intros x I. apply (IH x I).
    - destruct t; try apply refines_refl. rewrite Forall_forall in IH. apply refines_bracket. rewrite (sort_map (fun v => deep v t)), (sort_map (fun v => plain v t)), !map_map. apply refines_map. intros x I. cbn [fst snd].
      apply refines_member. apply IH. apply (Permutation_in _ (Permutation_sym (sort_permutes m))). exact I.
    - destruct t as [| | | | | | | | |n]; try apply refines_refl. destruct (get n T) as [[vals|fs ps d]|]; try apply refines_refl. rewrite Forall_forall in IH.
      assert (R : refines (marshal_union (map (fun p => part_text (text_part num_text str_text fs (map (fun v => (v, deep v)) l) p)) ps))
                          (marshal_union (map (fun p => part_text (text_part num_text str_text fs (map (fun v => (v, plain v)) l) p)) ps))).
      { unfold marshal_union. rewrite <- !(map_map (text_part num_text str_text fs _) part_text). apply refines_union, refines_map. intros p _. apply refines_part. exact IH. }
      cbn zeta. destruct (has_method ps); [|exact R]. intros s E. apply R. apply (compact_refines _ _ E).
  Qed.

  (* ---------- what is not too deep is written ---------- *)

  Lemma same_fields : forall fs l m r, enc_fields fs (map (fun v => (v, CodecModel.enc T v)) l) = Some m ->
    seq_text (text_fields str_text fs (map (fun v => (v, plain v)) l)) = Texts r ->
    (forall v, In v l -> forall t s j, plain v t = UOk s -> CodecModel.enc T v t = Some j -> (exists k, In (k, j) m) -> deep v t = UOk s) ->
    text_fields str_text fs (map (fun v => (v, deep v)) l) = text_fields str_text fs (map (fun v => (v, plain v)) l).
  Proof.
    induction fs as [|f fs IH]; intros [|v l] m r E S H; cbn [map enc_fields text_fields] in *; try reflexivity.
    destruct (f_key f) as [k|]; [|apply (IH l m r E S); intros w I; apply H; right; exact I].
    destruct (f_omit f && is_empty v)%bool; [apply (IH l m r E S); intros w I; apply H; right; exact I|].
    destruct (CodecModel.enc T v (f_ty f)) as [j|] eqn:Ej; [|discriminate E]. destruct (enc_fields fs _) as [m'|] eqn:Em; [|discriminate E]. injection E as <-.
    destruct (seq_text_ok _ _ S _ (or_introl eq_refl)) as [s1 M]. destruct (member_ok _ _ _ _ M) as [s' Es].
    f_equal.
    - rewrite Es, (H v (or_introl eq_refl) _ _ _ Es Ej (ex_intro _ k (or_introl eq_refl))). reflexivity.
    - cbn [seq_text] in S. rewrite M in S. destruct (seq_text (text_fields str_text fs _)) as [r'| |] eqn:S'; try discriminate S.
      apply (IH l m' r' Em S'). intros w I t s j2 E1 E2 [k' I']. apply (H w (or_intror I) t s j2 E1 E2). exists k'. right. exact I'.
  Qed.

  Variable reads : forall t v s j, single v -> plain v t = UOk s -> CodecModel.enc T v t = Some j -> check_valid s = (N.of_nat (depth j) <=? max_depth)%N.

  Theorem deep_written : forall v, single v -> forall t s j, plain v t = UOk s -> CodecModel.enc T v t = Some j -> shallow j -> deep v t = UOk s.
  Proof.
    induction v as [|s|q|b|j|v IH|l IH|m IH|l IH] using val_ind'; intros Sg t s0 j0 E J Sh; try exact E; inversion Sg as [| | | | |? Sv|? Sl|? Sl|? Nd Sm]; subst; cbn [enc_deep].
    - destruct t; try discriminate E. exact (IH Sv t s0 j0 E J Sh).
    - destruct t as [| | | | | |t|t|t|n]; try discriminate E. cbn [enc_text CodecModel.enc] in E, J. rewrite Forall_forall in IH.
      rewrite (map_ext_in _ (fun v => plain v t)); [exact E|]. intros v I. destruct (bracket_ok _ _ _ _ E) as [r Er].
      destruct (seq_text_ok _ _ Er _ (in_map (fun v => plain v t) _ _ I)) as [s' Es]. destruct (seq_opt _) as [js|] eqn:Js; [|discriminate J]. injection J as <-.
      destruct (seq_opt_ok _ _ Js _ (in_map (fun v => CodecModel.enc T v t) _ _ I)) as (j & Ej & Ij). rewrite Es. apply (IH v I (Sl v I) t s' j Es Ej).
      apply (shallow_le _ (JArr js)); [pose proof (depth_in_arr js j Ij); lia|exact Sh].
    - destruct t as [| | | | | |t|t|t|n]; try discriminate E. cbn [enc_text CodecModel.enc] in E, J. rewrite Forall_forall in IH.
      rewrite (map_ext_in _ (fun kv => (fst kv, plain (snd kv) t))); [exact E|]. intros [k v] I. cbn [fst snd]. f_equal. destruct (bracket_ok _ _ _ _ E) as [r Er].
      rewrite (sort_map (fun v => plain v t)), map_map in Er.
      destruct (seq_text_ok _ _ Er _ (in_map (fun kv => member_text str_text (fst kv) (plain (snd kv) t)) _ _ (Permutation_in _ (sort_permutes m) I))) as [s1 M]. destruct (member_ok _ _ _ _ M) as [s' Es].
      destruct (seq_opt _) as [js|] eqn:Js; [|discriminate J]. injection J as <-.
      destruct (seq_opt_ok _ _ Js _ (in_map _ _ _ I)) as ([k' j] & Ej & Ij). cbn [fst snd] in Ej, Es. destruct (CodecModel.enc T v t) as [j1|] eqn:E1; [|discriminate Ej]. injection Ej as <- <-.
      rewrite Es. apply (IH (k, v) I (Sm k v I) t s' j1 Es E1). apply (shallow_le _ (JObj js)); [pose proof (depth_in_obj js k j1 Ij); lia|exact Sh].
    - destruct t as [| | | | | |t|t|t|n]; try discriminate E. pose proof (reads (TNamed n) (VStruct l) s0 j0 Sg E J) as Rd. cbn [enc_text CodecModel.enc] in E, J. rewrite Forall_forall in IH.
      destruct (get n T) as [[vals|fs ps d]|]; try discriminate E. destruct (seq_opt _) as [js|] eqn:Js; [|discriminate J].
      destruct (union_depth js [] j0 J) as [_ Un]. cbn zeta.
      assert (P : map (fun p => part_text (text_part num_text str_text fs (map (fun v => (v, deep v)) l) p)) ps =
                  map (fun p => part_text (text_part num_text str_text fs (map (fun v => (v, plain v)) l) p)) ps).
      { apply map_ext_in. intros p I. f_equal. unfold marshal_union in E. rewrite <- (map_map (text_part num_text str_text fs _) part_text) in E.
        destruct (union_loop_ok _ _ _ _ E _ (in_map _ _ _ I)) as [sp Ep]. destruct (seq_opt_ok _ _ Js _ (in_map _ _ _ I)) as (jp & Ejp & Ijp). specialize (Un jp Ijp).
        destruct p as [m| |i]; cbn [text_part enc_part] in *; [reflexivity| |].
        - destruct (enc_fields fs _) as [m|] eqn:Em; [|discriminate Ejp]. injection Ejp as <-. destruct (bracket_ok _ _ _ _ Ep) as [r Er]. f_equal. f_equal.
          apply (same_fields fs l m r Em Er). intros v Iv t s j E1 E2 [k Ik]. apply (IH v Iv (Sl v Iv) t s j E1 E2).
          apply (shallow_le _ j0); [pose proof (depth_in_obj m k j Ik); lia|exact Sh].
        - rewrite !nth_error_map. rewrite nth_error_map in Ep, Ejp. destruct (nth_error fs i) as [f|]; [|discriminate Ejp]. destruct (nth_error l i) as [v|] eqn:Ev; [|discriminate Ejp]. cbn [option_map] in *.
          apply nth_error_In in Ev. rewrite Ep. apply (IH v Ev (Sl v Ev) _ _ jp Ep Ejp). apply (shallow_le _ j0); [exact Un|exact Sh]. }
      rewrite P, E. destruct (has_method ps); [|reflexivity]. cbn [compact]. rewrite Rd. unfold shallow in Sh. apply N.leb_le in Sh. unfold max_depth. rewrite Sh. reflexivity.
  Qed.
End Limit.

(* ---------- errors ---------- *)

Definition cut (x y : ures) : Prop := forall s, y = UOk s -> x = UOk s \/ x = UErr.
Lemma cut_seq : forall l l', Forall2 cut l l' -> forall r, seq_text l' = Texts r -> seq_text l = Texts r \/ seq_text l = TErr.
Proof.
  intros l l' F. induction F as [|x y l l' R F IH]; intros r E; [left; exact E|]. cbn [seq_text] in *. destruct y as [s| |]; try discriminate E.
  destruct (R s eq_refl) as [->| ->]; [|right; reflexivity]. destruct (seq_text l') as [r'| |]; try discriminate E. destruct (IH r' eq_refl) as [->| ->]; [left; exact E|right; reflexivity].
Qed.
Lemma cut_bracket : forall o c l l', Forall2 cut l l' -> cut (bracket o c (seq_text l)) (bracket o c (seq_text l')).
Proof. intros o c l l' F s E. destruct (bracket_ok _ _ _ _ E) as [r Er]. rewrite Er in E. destruct (cut_seq l l' F r Er) as [->| ->]; [left; exact E|right; reflexivity]. Qed.
Lemma cut_member : forall st k x y, cut x y -> cut (member_text st k x) (member_text st k y).
Proof. intros st k x y R s E. destruct (member_ok _ _ _ _ E) as [s' ->]. destruct (R s' eq_refl) as [->| ->]; [left; exact E|right; reflexivity]. Qed.
Lemma cut_union : forall l l', Forall2 cut l l' -> forall r o, cut (union_loop (map part_text l) r o) (union_loop (map part_text l') r o).
Proof.
  intros l l' F. induction F as [|x y l l' R F IH]; intros r o s E; [left; exact E|].
  destruct (union_loop_ok (y :: l') r o s E y (or_introl eq_refl)) as [sx ->]. destruct (R sx eq_refl) as [->| ->]; [|right; reflexivity]. cbn [map union_loop part_text] in *.
  destruct (String.eqb sx "{}"); [exact (IH _ _ _ E)|]. destruct (String.eqb sx "null"); [exact (IH _ _ _ E)|].
  destruct sx as [|c j1]; [discriminate E|]. destruct (negb (Ascii.eqb c "{")).
  - destruct (_ && _)%bool in E |- *; [exact (IH _ _ _ E)|discriminate E].
  - destruct (negb o); [discriminate E|exact (IH _ _ _ E)].
Qed.
Lemma cut_refl : forall x, cut x x.
Proof. intros x s E. left. exact E. Qed.
Lemma cut_map {A} (f g : A -> ures) : forall l, (forall x, In x l -> cut (f x) (g x)) -> Forall2 cut (map f l) (map g l).
Proof. induction l as [|x l IH]; intros H; cbn [map]; constructor; [apply H; left; reflexivity|apply IH; intros y I; apply H; right; exact I]. Qed.

Section Errors.
  Variable T : list (string * ent).
  Variable num_text : Q -> string.
  Variable str_text : string -> string.
  Notation deep := (enc_deep T num_text str_text).
  Notation plain := (enc_text T num_text str_text).

  Lemma cut_fields : forall fs l, (forall v, In v l -> forall t, cut (deep v t) (plain v t)) ->
    Forall2 cut (text_fields str_text fs (map (fun v => (v, deep v)) l)) (text_fields str_text fs (map (fun v => (v, plain v)) l)).
  Proof.
    induction fs as [|f fs IH]; intros [|v l] H; cbn [map text_fields]; try (constructor; [apply cut_refl|constructor]); [constructor|].
    assert (R : forall w, In w l -> forall t, cut (deep w t) (plain w t)) by (intros w I; apply H; right; exact I).
    destruct (f_key f) as [k|]; [|apply IH; exact R]. destruct (f_omit f && is_empty v)%bool; [apply IH; exact R|].
    constructor; [|apply IH; exact R]. apply cut_member. apply H. left. reflexivity.
  Qed.
  Theorem deep_cut : forall v t, cut (deep v t) (plain v t).
  Proof.
    induction v as [|s|q|b|j|v IH|l IH|m IH|l IH] using val_ind'; intros t; try apply cut_refl; cbn [enc_deep enc_text].
    - destruct t; try apply cut_refl. apply IH.
    - destruct t; try apply cut_refl. rewrite Forall_forall in IH. apply cut_bracket, cut_map. intros x I. apply (IH x I).
    - destruct t; try apply cut_refl. rewrite Forall_forall in IH. apply cut_bracket. rewrite (sort_map (fun v => deep v t)), (sort_map (fun v => plain v t)), !map_map. apply cut_map. intros x I. cbn [fst snd].
      apply cut_member. apply IH. apply (Permutation_in _ (Permutation_sym (sort_permutes m))). exact I.
    - destruct t as [| | | | | | | | |n]; try apply cut_refl. destruct (get n T) as [[vals|fs ps d]|]; try apply cut_refl. rewrite Forall_forall in IH.
      assert (R : cut (marshal_union (map (fun p => part_text (text_part num_text str_text fs (map (fun v => (v, deep v)) l) p)) ps))
                      (marshal_union (map (fun p => part_text (text_part num_text str_text fs (map (fun v => (v, plain v)) l) p)) ps))).
      { unfold marshal_union. rewrite <- !(map_map (text_part num_text str_text fs _) part_text). apply cut_union, cut_map. intros p _.
        destruct p as [m| |i]; cbn [text_part]; [apply cut_refl|apply cut_bracket, cut_fields, IH|].
        rewrite !nth_error_map. destruct (nth_error fs i) as [f|]; [|apply cut_refl]. destruct (nth_error l i) as [v|] eqn:E; [|apply cut_refl]. cbn [option_map].
        apply IH. exact (nth_error_In _ _ E). }
      cbn zeta. destruct (has_method ps); [|exact R]. intros s E. destruct (R s E) as [->| ->]; [|right; reflexivity]. cbn [compact]. destruct (check_valid s); [left|right]; reflexivity.
  Qed.
End Errors.

(* ---------- both packages ---------- *)

Definition method (T : list (string * ent)) (n : string) : bool :=
  match get n T with Some (EStruct _ ps _) => has_method ps | _ => false end.

Section Both.
  Variables (T : list (string * ent)) (rnd : Q -> Q) (num_text : Q -> string).
  Hypothesis OK : numbers_ok rnd num_text.
  Hypothesis NL : numless T = true.
  Hypothesis PP : plain_parts T = true.

  Lemma depth_read : forall t v s j, single v -> enc_text T num_text quote v t = UOk s -> CodecModel.enc T v t = Some j ->
    check_valid s = (N.of_nat (depth j) <=? max_depth)%N.
  Proof.
    intros t v s j Sg E J. destruct (bytes_repaired rnd num_text T OK NL PP t v s Sg E) as (f & g & j1 & j' & _ & _ & M & R & _ & P).
    unfold marshal in M. rewrite J in M. injection M as <-. rewrite check_valid_parse, P, depth_jmap, <- (depth_reordered _ _ R). reflexivity.
  Qed.

  Lemma json_iff n v s : method T n = true -> single v ->
    marshal_json T num_text quote (TNamed n) v = UOk s <->
    marshal_text T num_text quote (TNamed n) v = UOk s /\ exists j, marshal T (TNamed n) v = Some j /\ shallow j.
  Proof.
    intros Mt Sg. unfold marshal_json, marshal_text, marshal. split.
    - intros E. pose proof (deep_refines T num_text quote v (TNamed n) s E) as P. split; [exact P|].
      destruct (bytes_repaired rnd num_text T OK NL PP (TNamed n) v s Sg P) as (f & g & j & j' & _ & _ & M & _). unfold marshal in M. exists j. split; [exact M|].
      pose proof (depth_read (TNamed n) v s j Sg P M) as C.
      assert (V : check_valid s = true).
      { destruct v as [|x|q|b|jj|w|l|m|l]; try discriminate P.
        - cbn [enc_text] in P. destruct (get n T) as [[vals|fs ps d]|] eqn:G; try discriminate P. unfold method in Mt. rewrite G in Mt. discriminate Mt.
        - cbn [enc_deep] in E. unfold method in Mt. destruct (get n T) as [[vals|fs ps d]|]; try discriminate E. cbn zeta in E. rewrite Mt in E. unfold compact in E.
          destruct (marshal_union _) as [s'| |]; try discriminate E. destruct (check_valid s') eqn:V; [|discriminate E]. injection E as <-. exact V. }
      rewrite V in C. symmetry in C. apply N.leb_le in C. exact C.
    - intros [E (j & J & Sh)]. exact (deep_written T num_text quote depth_read v Sg (TNamed n) s j E J Sh).
  Qed.
  Lemma json_error n v j : method T n = true -> single v -> marshal T (TNamed n) v = Some j -> ~ shallow j -> marshal_json T num_text quote (TNamed n) v = UErr.
  Proof.
    intros Mt Sg J Sh. pose proof (text_is_json T num_text quote (quote_ok rnd num_text OK) NL PP (TNamed n) v Sg) as X. unfold marshal_text in X.
    destruct (enc_text T num_text quote v (TNamed n)) as [s| |] eqn:E; [|congruence|destruct X].
    destruct (deep_cut T num_text quote v (TNamed n) s E) as [D|D]; [|exact D]. destruct Sh.
    destruct (proj1 (json_iff n v s Mt Sg) D) as [_ (j1 & J1 & S1)]. rewrite J in J1. injection J1 as <-. exact S1.
  Qed.
  Lemma json_reads n v s : method T n = true -> single v -> marshal_json T num_text quote (TNamed n) v = UOk s -> check_valid s = true.
  Proof.
    intros Mt Sg E. destruct (proj1 (json_iff n v s Mt Sg) E) as [P (j & J & Sh)]. rewrite (depth_read _ v s j Sg P J). apply N.leb_le. exact Sh.
  Qed.
End Both.

Lemma scanner_exact s : check_valid s = true <-> exists s' j, repaired s s' /\ text_in true s' j /\ shallow j.
Proof.
  rewrite check_valid_parse. split.
  - destruct (parse s) as [j|] eqn:P; [|discriminate]. intros L. apply N.leb_le in L. apply parse_exact in P. destruct P as (s' & R & X). exists s', j. auto.
  - intros (s' & j & R & X & L). assert (P : parse s = Some j) by (apply parse_exact; exists s'; auto). rewrite P. apply N.leb_le. exact L.
Qed.
Lemma json_exact T rnd o t s v : unmarshal_json T rnd o t s = Some v <->
  exists s' j, repaired s s' /\ text_in true s' j /\ shallow j /\ unmarshal_o T rnd o t j = Some v.
Proof.
  unfold unmarshal_json. rewrite check_valid_parse. split.
  - destruct (parse s) as [j|] eqn:P; [|discriminate]. destruct (N.leb_spec (N.of_nat (depth j)) max_depth) as [L|L]; [|discriminate].
    unfold unmarshal_bytes. rewrite P. intros U. apply parse_exact in P. destruct P as (s' & R & X). exists s', j. auto.
  - intros (s' & j & R & X & L & U). assert (P : parse s = Some j) by (apply parse_exact; exists s'; auto). unfold unmarshal_bytes. rewrite P.
    unfold shallow in L. apply N.leb_le in L. unfold max_depth. rewrite L. exact U.
Qed.

(* A list in a list in a list. *)
Fixpoint nest (n : nat) (j : json) : json := match n with O => j | S n => JArr [nest n j] end.
Lemma nest_depth n j : depth (nest n j) = (n + depth j)%nat.
Proof. induction n as [|n IH]; [reflexivity|]. cbn [nest depth map fold_right]. rewrite IH. lia. Qed.
