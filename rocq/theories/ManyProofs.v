(* Reflectors do not influence one another unless contexts are mixed. *)
From Coq Require Import Lia.
From Verif Require Import Str SMap Json PathModel Types RegistryModel ReflectModel ShareModel ManyModel ManySpec.

Lemma nth_update {A} (f : A -> A) k (l : list A) n :
  nth_error (update f k l) n = if n =? k then option_map f (nth_error l n) else nth_error l n.
Proof.
  revert k n. induction l as [|x l IH]; intros k n.
  - destruct k, n; cbn; try reflexivity; destruct (n =? k); reflexivity.
  - destruct k, n; cbn [update nth_error Nat.eqb option_map]; auto.
Qed.

Lemma update_length {A} (f : A -> A) k (l : list A) : length (update f k l) = length l.
Proof. revert k. induction l; destruct k; cbn [update length]; congruence. Qed.

Lemma nth_replace {A} (x : A) k (l : list A) n :
  nth_error (replace k x l) n = if n =? k then option_map (fun _ => x) (nth_error l n) else nth_error l n.
Proof.
  revert k n. induction l as [|y l IH]; intros k n.
  - destruct k, n; cbn; try reflexivity; destruct (n =? k); reflexivity.
  - destruct k, n; cbn [replace nth_error Nat.eqb option_map]; auto.
Qed.

Lemma replace_length {A} (x : A) k (l : list A) : length (replace k x l) = length l.
Proof. revert k. induction l; destruct k; cbn [replace length]; congruence. Qed.

Lemma nth_last {A} (l : list A) x n y : nth_error (l ++ [x]) n = Some y ->
  (n < length l /\ nth_error l n = Some y) \/ (n = length l /\ y = x).
Proof.
  intros H. destruct (Nat.lt_ge_cases n (length l)) as [L|L].
  - rewrite nth_error_app1 in H by auto. auto.
  - rewrite nth_error_app2 in H by auto. right. destruct (n - length l) as [|d] eqn:D; cbn in H; [|destruct d; discriminate H].
    injection H as <-. split; [lia|reflexivity].
Qed.

Section Proofs.
  Context {J3 S3 J1 S1 : Type}.
  Variable B3 : backend J3 S3.
  Variable B1 : backend J1 S1.
  Variable rs0 : list (reflector S3 S1).
  Notation call := (call J3 S3 J1 S1).
  Notation world := (world J3 S3 J1 S1).
  Notation V := (is_31 rs0).

  Definition ver (r : reflector S3 S1) : bool := match r with R30 _ => false | R31 _ => true end.

  (* The versions of the reflectors stay. *)
  Definition same_versions (rs rs' : list (reflector S3 S1)) : Prop := map ver rs = map ver rs'.

  Lemma update_versions f k rs : (forall r, nth_error rs k = Some r -> ver (f r) = ver r) ->
    same_versions (update f k rs) rs.
  Proof.
    unfold same_versions. revert k. induction rs as [|r rs IH]; intros k H; [destruct k; reflexivity|].
    destruct k; cbn [update map].
    - rewrite (H r eq_refl). reflexivity.
    - rewrite IH; auto.
  Qed.

  Lemma versions_nth rs rs' n r : same_versions rs rs' -> nth_error rs n = Some r ->
    exists r', nth_error rs' n = Some r' /\ ver r' = ver r.
  Proof.
    unfold same_versions. intros E H. apply (map_nth_error ver) in H. rewrite E in H.
    rewrite nth_error_map in H. destruct (nth_error rs' n) as [r'|]; [|discriminate H].
    injection H as H. exists r'. split; [reflexivity|exact H].
  Qed.

  Lemma version_of rs j r : same_versions rs rs0 -> nth_error rs j = Some r -> V j = ver r.
  Proof.
    intros E H. destruct (versions_nth _ _ _ _ E H) as (r' & H' & Q). unfold is_31. rewrite H'.
    rewrite <- Q. destruct r'; reflexivity.
  Qed.

  Lemma through30_versions oc links (rs : list (reflector S3 S1)) : same_versions (through30 (J3 := J3) oc links rs) rs.
  Proof.
    unfold through30. revert rs. induction links as [|l links IH]; intros rs; [reflexivity|].
    cbn [fold_left]. unfold same_versions in *. rewrite IH. apply update_versions. intros [r|r] _; reflexivity.
  Qed.
  Lemma through31_versions oc links (rs : list (reflector S3 S1)) : same_versions (through31 (J1 := J1) oc links rs) rs.
  Proof.
    unfold through31. revert rs. induction links as [|l links IH]; intros rs; [reflexivity|].
    cbn [fold_left]. unfold same_versions in *. rewrite IH. apply update_versions. intros [r|r] _; reflexivity.
  Qed.

  (* Each document is changed on its own. *)
  Lemma update_local f k (rs rs' : list (reflector S3 S1)) n : nth_error rs n = nth_error rs' n ->
    nth_error (update f k rs) n = nth_error (update f k rs') n.
  Proof. intros E. rewrite !nth_update, E. reflexivity. Qed.
  Lemma through30_local oc links (rs rs' : list (reflector S3 S1)) n : nth_error rs n = nth_error rs' n ->
    nth_error (through30 (J3 := J3) oc links rs) n = nth_error (through30 oc links rs') n.
  Proof.
    unfold through30. revert rs rs'. induction links as [|l links IH]; intros rs rs' E; [exact E|].
    cbn [fold_left]. apply IH, update_local, E.
  Qed.
  Lemma through31_local oc links (rs rs' : list (reflector S3 S1)) n : nth_error rs n = nth_error rs' n ->
    nth_error (through31 (J1 := J1) oc links rs) n = nth_error (through31 oc links rs') n.
  Proof.
    unfold through31. revert rs rs'. induction links as [|l links IH]; intros rs rs' E; [exact E|].
    cbn [fold_left]. apply IH, update_local, E.
  Qed.

  (* Documents that are not linked stay. *)
  Lemma through30_other oc links (rs : list (reflector S3 S1)) k n : Forall (fun l => fst l = k) links -> n <> k ->
    nth_error (through30 (J3 := J3) oc links rs) n = nth_error rs n.
  Proof.
    unfold through30. intros F N. revert rs. induction F as [|l links E F IH]; intros rs; [reflexivity|].
    cbn [fold_left]. rewrite IH, nth_update, E. apply Nat.eqb_neq in N. rewrite N. reflexivity.
  Qed.
  Lemma through31_other oc links (rs : list (reflector S3 S1)) k n : Forall (fun l => fst l = k) links -> n <> k ->
    nth_error (through31 (J1 := J1) oc links rs) n = nth_error rs n.
  Proof.
    unfold through31. intros F N. revert rs. induction F as [|l links E F IH]; intros rs; [reflexivity|].
    cbn [fold_left]. rewrite IH, nth_update, E. apply Nat.eqb_neq in N. rewrite N. reflexivity.
  Qed.

  (* A context and the reflector that made it. *)
  Definition fits (m : option nat) (h : handle J3 S3 J1 S1) : Prop :=
    match h with
    | K30 _ ls => exists k, m = Some k /\ V k = false /\ Forall (fun l => fst l = k) ls
    | K31 _ ls => exists k, m = Some k /\ V k = true /\ Forall (fun l => fst l = k) ls
    | KOther => True
    end.

  Record good (ms : list (option nat)) (w : world) : Prop := mkGood {
    g_versions : same_versions (m_refls w) rs0;
    g_length : length (m_ctxs w) = length ms;
    g_fits : forall i h m, nth_error (m_ctxs w) i = Some h -> nth_error ms i = Some m -> fits m h }.

  Lemma good_refl ms w j r : good ms w -> nth_error (m_refls w) j = Some r -> V j = ver r.
  Proof. intros G. apply version_of, G. Qed.

  Lemma good_maker ms w i h : good ms w -> nth_error (m_ctxs w) i = Some h -> exists m, nth_error ms i = Some m /\ fits m h.
  Proof.
    intros G H. destruct (nth_error ms i) as [m|] eqn:E.
    - exists m. split; [reflexivity|]. exact (g_fits _ _ G i h m H E).
    - apply nth_error_None in E. rewrite <- (g_length _ _ G) in E. apply nth_error_None in E. congruence.
  Qed.

  (* A context that is accepted was made by the same reflector. *)
  Lemma accepted30 ms w j i r oc ls : good ms w -> own_context V ms j i ->
    nth_error (m_refls w) j = Some (R30 r) -> nth_error (m_ctxs w) i = Some (K30 oc ls) ->
    nth_error ms i = Some (Some j) /\ Forall (fun l => fst l = j) ls /\ V j = false.
  Proof.
    intros G O HR HC. destruct (good_maker _ _ _ _ G HC) as (m & M & k & -> & Vk & F).
    pose proof (good_refl _ _ _ _ G HR) as Vj. cbn [ver] in Vj.
    assert (k = j) as -> by (apply O; congruence). auto.
  Qed.
  Lemma accepted31 ms w j i r oc ls : good ms w -> own_context V ms j i ->
    nth_error (m_refls w) j = Some (R31 r) -> nth_error (m_ctxs w) i = Some (K31 oc ls) ->
    nth_error ms i = Some (Some j) /\ Forall (fun l => fst l = j) ls /\ V j = true.
  Proof.
    intros G O HR HC. destruct (good_maker _ _ _ _ G HC) as (m & M & k & -> & Vk & F).
    pose proof (good_refl _ _ _ _ G HR) as Vj. cbn [ver] in Vj.
    assert (k = j) as -> by (apply O; congruence). auto.
  Qed.

  (* What a call of AddOperation or AddWebhook does, apart from refusing. *)
  Definition accepts (hook : bool) (j i : nat) (w : world) : Prop :=
    (exists r oc ls, nth_error (m_refls w) j = Some (R30 r) /\ nth_error (m_ctxs w) i = Some (K30 oc ls) /\ hook = false) \/
    (exists r oc ls, nth_error (m_refls w) j = Some (R31 r) /\ nth_error (m_ctxs w) i = Some (K31 oc ls)).

  Lemma give_cases hook j i w : accepts hook j i w \/ fst (give B3 B1 hook j i w) = w.
  Proof.
    unfold give, accepts. destruct (nth_error (m_refls w) j) as [[r|r]|]; [| |right; reflexivity];
      (destruct (nth_error (m_ctxs w) i) as [[oc ls|oc ls|]|]; try (right; reflexivity)).
    - destruct hook; [right; reflexivity|]. left. left. exists r, oc, ls. auto.
    - left. right. exists r, oc, ls. auto.
  Qed.

  Lemma give_good hook ms w j i : good ms w -> own_context V ms j i -> good ms (fst (give B3 B1 hook j i w)).
  Proof.
    intros G O. destruct (give_cases hook j i w) as [[(r & oc & ls & HR & HC & ->)|(r & oc & ls & HR & HC)]|E];
      [| |rewrite E; exact G].
    - destruct (accepted30 _ _ _ _ _ _ _ G O HR HC) as (M & F & Vj).
      unfold give. rewrite HR, HC. unfold give30. destruct (reflector_add30 B3 r oc) as [[r' oc'] a]. cbn [fst].
      constructor; cbn [m_refls m_ctxs].
      + unfold same_versions. etransitivity; [apply through30_versions|]. etransitivity; [apply update_versions|apply G].
        intros x X. rewrite HR in X. injection X as <-. reflexivity.
      + rewrite replace_length. apply G.
      + intros n h m H Hm. rewrite nth_replace in H. destruct (n =? i) eqn:Ni; [|exact (g_fits _ _ G n h m H Hm)].
        apply Nat.eqb_eq in Ni. subst n. rewrite HC in H. injection H as <-. rewrite M in Hm. injection Hm as <-.
        exists j. split; [reflexivity|]. split; [exact Vj|].
        destruct a; auto. apply Forall_app. split; [|repeat constructor].
        apply Forall_forall. intros l L. apply filter_In in L. destruct L as [L _]. rewrite Forall_forall in F. auto.
    - destruct (accepted31 _ _ _ _ _ _ _ G O HR HC) as (M & F & Vj).
      unfold give. rewrite HR, HC. unfold give31.
      destruct (if hook then _ else _) as [[r' oc'] a]. cbn [fst].
      constructor; cbn [m_refls m_ctxs].
      + unfold same_versions. etransitivity; [apply through31_versions|]. etransitivity; [apply update_versions|apply G].
        intros x X. rewrite HR in X. injection X as <-. reflexivity.
      + rewrite replace_length. apply G.
      + intros n h m H Hm. rewrite nth_replace in H. destruct (n =? i) eqn:Ni; [|exact (g_fits _ _ G n h m H Hm)].
        apply Nat.eqb_eq in Ni. subst n. rewrite HC in H. injection H as <-. rewrite M in Hm. injection Hm as <-.
        exists j. split; [reflexivity|]. split; [exact Vj|].
        destruct a; auto. apply Forall_app. split; [|repeat constructor].
        apply Forall_forall. intros l L. apply filter_In in L. destruct L as [L _]. rewrite Forall_forall in F. auto.
  Qed.

  Lemma good_push ms w m h rs : good ms w -> same_versions rs rs0 -> fits m h -> good (ms ++ [m]) (mkMany rs (m_ctxs w ++ [h])).
  Proof.
    intros G E F. constructor; cbn [m_refls m_ctxs].
    - exact E.
    - rewrite !app_length, (g_length _ _ G). reflexivity.
    - intros i h' m' H H'. apply nth_last in H. apply nth_last in H'. rewrite (g_length _ _ G) in H.
      destruct H as [[L H]|[L ->]], H' as [[L' H']|[L' ->]]; try lia; auto.
      exact (g_fits _ _ G i h' m' H H').
  Qed.

  Lemma make_good ms w j mt p : good ms w -> good (ms ++ [Some j]) (make j mt p w).
  Proof.
    intros G. unfold make. destruct (nth_error (m_refls w) j) as [[r|r]|] eqn:HR.
    - apply good_push; [exact G|apply G|]. destruct (new_context30 r mt p); [|exact I].
      exists j. split; [reflexivity|]. split; [exact (good_refl _ _ _ _ G HR)|constructor].
    - destruct (new_context31 r mt p) as [r' oc]. apply good_push; [exact G| |].
      + unfold same_versions. etransitivity; [apply update_versions|apply G].
        intros x X. rewrite HR in X. injection X as <-. reflexivity.
      + destruct oc; [|exact I]. exists j. split; [reflexivity|]. split; [exact (good_refl _ _ _ _ G HR)|constructor].
    - apply good_push; [exact G|apply G|exact I].
  Qed.

  Lemma change_good ms w c i : good ms w -> good ms (mkMany (m_refls w) (update (change c) i (m_ctxs w))).
  Proof.
    intros G. constructor; cbn [m_refls m_ctxs].
    - apply G.
    - rewrite update_length. apply G.
    - intros n h m H Hm. rewrite nth_update in H. destruct (n =? i); [|exact (g_fits _ _ G n h m H Hm)].
      destruct (nth_error (m_ctxs w) n) as [h'|] eqn:E; [|discriminate H]. injection H as <-.
      pose proof (g_fits _ _ G n h' m E Hm) as F. destruct c, h'; exact F.
  Qed.

  Lemma step_good ms w c : good ms w -> (forall j i, c = Give j i \/ c = GiveHook j i -> own_context V ms j i) ->
    good (ms ++ maker c) (step B3 B1 w c).
  Proof.
    intros G O. destruct c; cbn [maker step]; rewrite ?app_nil_r.
    - apply make_good, G.
    - apply good_push; [exact G|apply G|exact I].
    - apply change_good, G.
    - apply change_good, G.
    - apply change_good, G.
    - apply give_good; auto.
    - apply give_good; auto.
  Qed.

  (* Two worlds that look the same to the j-th reflector. *)
  Record alike (j : nat) (ms : list (option nat)) (w w' : world) : Prop := mkAlike {
    a_refl : nth_error (m_refls w) j = nth_error (m_refls w') j;
    a_ctxs : forall i, nth_error ms i = Some (Some j) -> nth_error (m_ctxs w) i = nth_error (m_ctxs w') i }.

  (* Calls to other reflectors are not seen. *)
  Lemma give_other hook j ms w w' k i : good ms w -> own_context V ms k i -> k <> j -> alike j ms w w' ->
    alike j ms (fst (give B3 B1 hook k i w)) w'.
  Proof.
    intros G O N A. destruct (give_cases hook k i w) as [[(r & oc & ls & HR & HC & ->)|(r & oc & ls & HR & HC)]|E];
      [| |rewrite E; exact A].
    - destruct (accepted30 _ _ _ _ _ _ _ G O HR HC) as (M & F & _).
      unfold give. rewrite HR, HC. unfold give30. destruct (reflector_add30 B3 r oc) as [[r' oc'] a]. cbn [fst].
      constructor; cbn [m_refls m_ctxs].
      + rewrite (through30_other _ _ _ k) by auto. rewrite nth_update. apply Nat.neq_sym, Nat.eqb_neq in N. rewrite N. apply A.
      + intros n Hn. rewrite nth_replace. destruct (n =? i) eqn:Ni; [|apply A, Hn].
        apply Nat.eqb_eq in Ni. congruence.
    - destruct (accepted31 _ _ _ _ _ _ _ G O HR HC) as (M & F & _).
      unfold give. rewrite HR, HC. unfold give31. destruct (if hook then _ else _) as [[r' oc'] a]. cbn [fst].
      constructor; cbn [m_refls m_ctxs].
      + rewrite (through31_other _ _ _ k) by auto. rewrite nth_update. apply Nat.neq_sym, Nat.eqb_neq in N. rewrite N. apply A.
      + intros n Hn. rewrite nth_replace. destruct (n =? i) eqn:Ni; [|apply A, Hn].
        apply Nat.eqb_eq in Ni. congruence.
  Qed.

  (* A context that is not accepted in one world is not accepted in the
     other. *)
  Lemma accepts_alike hook j ms w w' i : good ms w -> own_context V ms j i -> alike j ms w w' ->
    accepts hook j i w -> accepts hook j i w'.
  Proof.
    intros G O A [(r & oc & ls & HR & HC & ->)|(r & oc & ls & HR & HC)].
    - destruct (accepted30 _ _ _ _ _ _ _ G O HR HC) as (M & _).
      left. exists r, oc, ls. rewrite <- (a_refl _ _ _ _ A), <- (a_ctxs _ _ _ _ A i M). auto.
    - destruct (accepted31 _ _ _ _ _ _ _ G O HR HC) as (M & _).
      right. exists r, oc, ls. rewrite <- (a_refl _ _ _ _ A), <- (a_ctxs _ _ _ _ A i M). auto.
  Qed.

  Lemma alike_sym j ms w w' : alike j ms w w' -> alike j ms w' w.
  Proof. intros A. constructor; [symmetry; apply A|]. intros i H. symmetry. apply A, H. Qed.

  Lemma refused hook j i w : ~ accepts hook j i w -> give B3 B1 hook j i w =
    (w, match nth_error (m_refls w) j, nth_error (m_ctxs w) i with
        | Some (R30 _), Some _ => if hook then None else Some Wrong
        | Some (R31 _), Some _ => Some Wrong
        | _, _ => None
        end).
  Proof.
    intros N. unfold give. destruct (nth_error (m_refls w) j) as [[r|r]|] eqn:HR; [| |reflexivity];
      (destruct (nth_error (m_ctxs w) i) as [[oc ls|oc ls|]|] eqn:HC; try reflexivity).
    - destruct hook; [reflexivity|]. destruct N. left. exists r, oc, ls. auto.
    - destruct N. right. exists r, oc, ls. auto.
  Qed.

  Lemma accepts_dec hook j i w : accepts hook j i w \/ ~ accepts hook j i w.
  Proof.
    unfold accepts. destruct (nth_error (m_refls w) j) as [[r|r]|] eqn:HR;
      (destruct (nth_error (m_ctxs w) i) as [[oc ls|oc ls|]|] eqn:HC); destruct hook;
      try (right; intros [(? & ? & ? & X & Y & Z)|(? & ? & ? & X & Y)]; discriminate);
      left; (left; exists r, oc, ls; repeat split; reflexivity) || (right; exists r, oc, ls; split; reflexivity).
  Qed.

  Lemma give_same hook j ms w w' i : good ms w -> good ms w' -> own_context V ms j i -> alike j ms w w' ->
    alike j ms (fst (give B3 B1 hook j i w)) (fst (give B3 B1 hook j i w')) /\
    outcome B3 B1 hook j i w = outcome B3 B1 hook j i w'.
  Proof.
    intros G G' O A. unfold outcome. destruct (accepts_dec hook j i w) as [X|X].
    - destruct X as [(r & oc & ls & HR & HC & ->)|(r & oc & ls & HR & HC)].
      + destruct (accepted30 _ _ _ _ _ _ _ G O HR HC) as (M & _).
        pose proof HR as HR'. rewrite (a_refl _ _ _ _ A) in HR'. pose proof HC as HC'. rewrite (a_ctxs _ _ _ _ A i M) in HC'.
        unfold give. rewrite HR, HC, HR', HC'. unfold give30. destruct (reflector_add30 B3 r oc) as [[r' oc'] a].
        cbn [fst snd]. split; [|reflexivity]. constructor; cbn [m_refls m_ctxs].
        * apply through30_local, update_local, A.
        * intros n Hn. rewrite !nth_replace, (a_ctxs _ _ _ _ A n Hn). reflexivity.
      + destruct (accepted31 _ _ _ _ _ _ _ G O HR HC) as (M & _).
        pose proof HR as HR'. rewrite (a_refl _ _ _ _ A) in HR'. pose proof HC as HC'. rewrite (a_ctxs _ _ _ _ A i M) in HC'.
        unfold give. rewrite HR, HC, HR', HC'. unfold give31. destruct (if hook then _ else _) as [[r' oc'] a].
        cbn [fst snd]. split; [|reflexivity]. constructor; cbn [m_refls m_ctxs].
        * apply through31_local, update_local, A.
        * intros n Hn. rewrite !nth_replace, (a_ctxs _ _ _ _ A n Hn). reflexivity.
    - assert (X' : ~ accepts hook j i w').
      { intros H. apply X. exact (accepts_alike hook j ms w' w i G' O (alike_sym _ _ _ _ A) H). }
      rewrite (refused _ _ _ _ X), (refused _ _ _ _ X'). cbn [fst snd]. split; [exact A|].
      rewrite (a_refl _ _ _ _ A).
      assert (N : forall u v, good ms u -> good ms v -> nth_error (m_ctxs u) i = None -> nth_error (m_ctxs v) i = None).
      { intros u v U W H. apply nth_error_None. rewrite (g_length _ _ W), <- (g_length _ _ U). apply nth_error_None, H. }
      destruct (nth_error (m_refls w') j) as [[r|r]|]; [| |reflexivity];
        (destruct (nth_error (m_ctxs w) i) eqn:C; destruct (nth_error (m_ctxs w') i) eqn:C'; try reflexivity;
         [rewrite (N w' w G' G C') in C; discriminate C|rewrite (N w w' G G' C) in C'; discriminate C']).
  Qed.

  Lemma alike_push j ms m w w' rs rs' h h' : good ms w -> good ms w' -> alike j ms w w' ->
    nth_error rs j = nth_error rs' j -> (m = Some j -> h = h') ->
    alike j (ms ++ [m]) (mkMany rs (m_ctxs w ++ [h])) (mkMany rs' (m_ctxs w' ++ [h'])).
  Proof.
    intros G G' A E H. constructor; cbn [m_refls m_ctxs]; [exact E|].
    intros i Hi. apply nth_last in Hi. destruct Hi as [[L Hi]|[-> Hm]].
    - rewrite !nth_error_app1 by (rewrite (g_length _ _ G) || rewrite (g_length _ _ G'); exact L). apply A, Hi.
    - rewrite <- (g_length _ _ G) at 1. rewrite <- (g_length _ _ G').
      rewrite !nth_error_app2, !Nat.sub_diag by auto. cbn [nth_error]. rewrite H; auto.
  Qed.

  Lemma make_alike j ms w w' k mt p : good ms w -> good ms w' -> alike j ms w w' ->
    alike j (ms ++ [Some k]) (make k mt p w) (make k mt p w').
  Proof.
    intros G G' A. destruct (Nat.eq_dec k j) as [->|N].
    - unfold make. rewrite (a_refl _ _ _ _ A). destruct (nth_error (m_refls w') j) as [[r|r]|] eqn:HR.
      + apply alike_push; auto. apply A.
      + destruct (new_context31 r mt p) as [r' oc]. apply alike_push; auto. apply update_local, A.
      + apply alike_push; auto. apply A.
    - assert (X : forall u : world, exists rs h, make k mt p u = mkMany rs (m_ctxs u ++ [h]) /\ nth_error rs j = nth_error (m_refls u) j).
      { intros u. unfold make. destruct (nth_error (m_refls u) k) as [[r|r]|].
        - do 2 eexists. split; reflexivity.
        - destruct (new_context31 r mt p) as [r' oc]. do 2 eexists. split; [reflexivity|]. rewrite nth_update.
          apply Nat.neq_sym, Nat.eqb_neq in N. rewrite N. reflexivity.
        - do 2 eexists. split; reflexivity. }
      destruct (X w) as (rs & h & -> & E), (X w') as (rs' & h' & -> & E').
      apply alike_push; auto.
      + rewrite E, E'. apply A.
      + intros Q. injection Q as Q. congruence.
  Qed.

  Lemma change_alike j ms w w' c i : alike j ms w w' ->
    alike j ms (mkMany (m_refls w) (update (change c) i (m_ctxs w))) (mkMany (m_refls w') (update (change c) i (m_ctxs w'))).
  Proof.
    intros A. constructor; cbn [m_refls m_ctxs]; [apply A|]. intros n Hn. rewrite !nth_update, (a_ctxs _ _ _ _ A n Hn). reflexivity.
  Qed.

  Lemma own_prefix ms ms' j i : own_context V (ms ++ ms') j i -> own_context V ms j i.
  Proof.
    intros O k H. apply O. rewrite nth_error_app1; [exact H|]. apply nth_error_Some. congruence.
  Qed.

  Lemma run_alike j l : forall ms w w', good ms w -> good ms w' -> alike j ms w w' ->
    (forall c k i, In c l -> c = Give k i \/ c = GiveHook k i -> own_context V (ms ++ makers l) k i) ->
    good (ms ++ makers l) (fold_left (step B3 B1) l w) /\
    good (ms ++ makers l) (fold_left (step B3 B1) (only j l) w') /\
    alike j (ms ++ makers l) (fold_left (step B3 B1) l w) (fold_left (step B3 B1) (only j l) w').
  Proof.
    induction l as [|c l IH]; intros ms w w' G G' A O.
    - cbn. rewrite app_nil_r. auto.
    - assert (O1 : forall k i, c = Give k i \/ c = GiveHook k i -> own_context V ms k i).
      { intros k i Q. apply own_prefix with (ms' := makers (c :: l)). apply (O c); [left; reflexivity|exact Q]. }
      cbn [fold_left makers flat_map]. fold (makers l). rewrite app_assoc.
      assert (O2 : forall c' k i, In c' l -> c' = Give k i \/ c' = GiveHook k i -> own_context V ((ms ++ maker c) ++ makers l) k i).
      { intros c' k i Hc Q. rewrite <- app_assoc. apply (O c'); [right; exact Hc|exact Q]. }
      unfold only. cbn [filter]. destruct (concerns j c) eqn:C.
      + cbn [fold_left]. apply IH; auto using step_good.
        destruct c; cbn [maker step]; rewrite ?app_nil_r.
        * apply make_alike; auto.
        * apply alike_push; auto. apply A.
        * apply change_alike, A.
        * apply change_alike, A.
        * apply change_alike, A.
        * cbn [concerns] in C. apply Nat.eqb_eq in C. subst j0. apply (give_same false j ms); auto.
        * cbn [concerns] in C. apply Nat.eqb_eq in C. subst j0. apply (give_same true j ms); auto.
      + destruct c; cbn [concerns] in C; try discriminate C; apply Nat.eqb_neq in C; cbn [maker] in O2 |- *;
          rewrite ?app_nil_r in O2 |- *; apply IH; auto; try apply give_good; auto; cbn [step]; apply give_other; auto.
  Qed.

  Lemma start_good : good [] (mkMany rs0 []).
  Proof. constructor; cbn [m_refls m_ctxs]; [reflexivity|reflexivity|]. intros [|i] h m H; discriminate H. Qed.

  Theorem independent j l : no_mixing V l ->
    nth_error (m_refls (run B3 B1 rs0 l)) j = nth_error (m_refls (run B3 B1 rs0 (only j l))) j /\
    (forall hook i, own_context V (makers l) j i ->
      outcome B3 B1 hook j i (run B3 B1 rs0 l) = outcome B3 B1 hook j i (run B3 B1 rs0 (only j l))).
  Proof.
    intros N. destruct (run_alike j l [] (mkMany rs0 []) (mkMany rs0 []) start_good start_good) as (G & G' & A).
    - constructor; reflexivity.
    - exact N.
    - split; [apply A|]. intros hook i O. exact (proj2 (give_same hook j _ _ _ i G G' O A)).
  Qed.

  (* ------------------------------------------------------------------ *)
  (* Contexts of the wrong type, whatever was mixed before                 *)

  Definition kind (m : option nat) (h : handle J3 S3 J1 S1) : Prop :=
    match h with
    | K30 _ _ => exists k, m = Some k /\ V k = false
    | K31 _ _ => exists k, m = Some k /\ V k = true
    | KOther => True
    end.
  Record kinds (ms : list (option nat)) (w : world) : Prop := mkKinds {
    k_versions : same_versions (m_refls w) rs0;
    k_length : length (m_ctxs w) = length ms;
    k_kind : forall i h m, nth_error (m_ctxs w) i = Some h -> nth_error ms i = Some m -> kind m h }.

  Lemma kinds_push ms w m h rs : kinds ms w -> same_versions rs rs0 -> kind m h -> kinds (ms ++ [m]) (mkMany rs (m_ctxs w ++ [h])).
  Proof.
    intros G E F. constructor; cbn [m_refls m_ctxs].
    - exact E.
    - rewrite !app_length, (k_length _ _ G). reflexivity.
    - intros i h' m' H H'. apply nth_last in H. apply nth_last in H'. rewrite (k_length _ _ G) in H.
      destruct H as [[L H]|[L ->]], H' as [[L' H']|[L' ->]]; try lia; auto.
      exact (k_kind _ _ G i h' m' H H').
  Qed.

  Lemma kinds_replace ms w rs i h h' : kinds ms w -> same_versions rs rs0 -> nth_error (m_ctxs w) i = Some h ->
    (forall m, kind m h -> kind m h') -> kinds ms (mkMany rs (replace i h' (m_ctxs w))).
  Proof.
    intros G E H K. constructor; cbn [m_refls m_ctxs].
    - exact E.
    - rewrite replace_length. apply G.
    - intros n x m X Hm. rewrite nth_replace in X. destruct (n =? i) eqn:Ni; [|exact (k_kind _ _ G n x m X Hm)].
      apply Nat.eqb_eq in Ni. subst n. rewrite H in X. injection X as <-. apply K. exact (k_kind _ _ G i h m H Hm).
  Qed.

  Lemma step_kinds ms w c : kinds ms w -> kinds (ms ++ maker c) (step B3 B1 w c).
  Proof.
    intros G. assert (Gv := k_versions _ _ G).
    assert (CH : forall c i, kinds ms (mkMany (m_refls w) (update (change c) i (m_ctxs w)))).
    { intros c' i. constructor; cbn [m_refls m_ctxs]; [exact Gv|rewrite update_length; apply G|].
      intros n h m H Hm. rewrite nth_update in H. destruct (n =? i); [|exact (k_kind _ _ G n h m H Hm)].
      destruct (nth_error (m_ctxs w) n) as [h'|] eqn:E; [|discriminate H]. injection H as <-.
      pose proof (k_kind _ _ G n h' m E Hm) as F. destruct c', h'; exact F. }
    assert (GV : forall hook j i, kinds ms (fst (give B3 B1 hook j i w))).
    { intros hook j i. destruct (give_cases hook j i w) as [[(r & oc & ls & HR & HC & ->)|(r & oc & ls & HR & HC)]|E];
        [| |rewrite E; exact G].
      - unfold give. rewrite HR, HC. unfold give30. destruct (reflector_add30 B3 r oc) as [[r' oc'] a]. cbn [fst].
        eapply kinds_replace; [exact G| |exact HC|].
        + unfold same_versions. etransitivity; [apply through30_versions|]. etransitivity; [apply update_versions|exact Gv].
          intros x X. rewrite HR in X. injection X as <-. reflexivity.
        + intros m K. exact K.
      - unfold give. rewrite HR, HC. unfold give31. destruct (if hook then _ else _) as [[r' oc'] a]. cbn [fst].
        eapply kinds_replace; [exact G| |exact HC|].
        + unfold same_versions. etransitivity; [apply through31_versions|]. etransitivity; [apply update_versions|exact Gv].
          intros x X. rewrite HR in X. injection X as <-. reflexivity.
        + intros m K. exact K. }
    destruct c; cbn [maker step]; rewrite ?app_nil_r; auto.
    - unfold make. destruct (nth_error (m_refls w) j) as [[r|r]|] eqn:HR.
      + apply kinds_push; [exact G|exact Gv|]. destruct (new_context30 r method path); [|exact I].
        exists j. split; [reflexivity|exact (version_of _ _ _ Gv HR)].
      + destruct (new_context31 r method path) as [r' oc]. apply kinds_push; [exact G| |].
        * unfold same_versions. etransitivity; [apply update_versions|exact Gv].
          intros x X. rewrite HR in X. injection X as <-. reflexivity.
        * destruct oc; [|exact I]. exists j. split; [reflexivity|exact (version_of _ _ _ Gv HR)].
      + apply kinds_push; [exact G|exact Gv|exact I].
    - apply kinds_push; [exact G|exact Gv|exact I].
  Qed.

  Lemma run_kinds l : forall ms w, kinds ms w -> kinds (ms ++ makers l) (fold_left (step B3 B1) l w).
  Proof.
    induction l as [|c l IH]; intros ms w G; [cbn; rewrite app_nil_r; exact G|].
    cbn [fold_left makers flat_map]. fold (makers l). rewrite app_assoc. apply IH, step_kinds, G.
  Qed.

  Theorem wrong_type l j i m hook : j < length rs0 -> nth_error (makers l) i = Some m ->
    (forall k, m = Some k -> V k <> V j) -> (hook = true -> V j = true) ->
    give B3 B1 hook j i (run B3 B1 rs0 l) = (run B3 B1 rs0 l, Some Wrong).
  Proof.
    intros L Hm NV HV.
    assert (G : kinds (makers l) (run B3 B1 rs0 l)).
    { apply (run_kinds l [] (mkMany rs0 [])). constructor; cbn [m_refls m_ctxs]; [reflexivity|reflexivity|].
      intros [|n] h x H; discriminate H. }
    set (w := run B3 B1 rs0 l) in *. clearbody w.
    assert (HC : exists h, nth_error (m_ctxs w) i = Some h).
    { destruct (nth_error (m_ctxs w) i) as [h|] eqn:E; [exists h; reflexivity|].
      apply nth_error_None in E. rewrite (k_length _ _ G) in E. apply nth_error_None in E. congruence. }
    destruct HC as (h & HC). pose proof (k_kind _ _ G i h m HC Hm) as K.
    assert (HR : exists r, nth_error (m_refls w) j = Some r).
    { destruct (nth_error (m_refls w) j) as [r|] eqn:E; [exists r; reflexivity|].
      apply nth_error_None in E. assert (X : length (m_refls w) = length rs0).
      { rewrite <- (map_length ver (m_refls w)), (k_versions _ _ G), map_length. reflexivity. }
      rewrite X in E. lia. }
    destruct HR as (r & HR). pose proof (version_of _ _ _ (k_versions _ _ G) HR) as Vj.
    rewrite refused.
    - rewrite HR, HC. destruct r; [|reflexivity]. destruct hook; [|reflexivity].
      rewrite (HV eq_refl) in Vj. discriminate Vj.
    - intros [(r1 & oc & ls & HR1 & HC1 & _)|(r1 & oc & ls & HR1 & HC1)]; rewrite HR in HR1; injection HR1 as ->;
        rewrite HC in HC1; injection HC1 as ->; destruct K as (k & -> & Vk); apply (NV k eq_refl); rewrite Vk, Vj; reflexivity.
  Qed.

  Theorem hook_refused l j i : V j = false -> fst (give B3 B1 true j i (run B3 B1 rs0 l)) = run B3 B1 rs0 l.
  Proof.
    intros Vj.
    assert (G : kinds (makers l) (run B3 B1 rs0 l)).
    { apply (run_kinds l [] (mkMany rs0 [])). constructor; cbn [m_refls m_ctxs]; [reflexivity|reflexivity|].
      intros [|n] h x H; discriminate H. }
    destruct (give_cases true j i (run B3 B1 rs0 l)) as [[(r & oc & ls & _ & _ & X)|(r & oc & ls & HR & _)]|E];
      [discriminate X| |exact E].
    rewrite (version_of _ _ _ (k_versions _ _ G) HR) in Vj. discriminate Vj.
  Qed.
End Proofs.
