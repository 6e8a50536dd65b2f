(* A program with one reflector: ManyModel says what ShareModel says. *)
From Coq Require Import Lia.
From Verif Require Import Str SMap Json PathModel Types RegistryModel ReflectModel ShareModel ManyModel.

Section Alone.
  Variables J3 S3 J1 S1 : Type.
  Variable B3 : backend J3 S3.
  Variable B1 : backend J1 S1.
  Notation call := (call J3 S3 J1 S1).

  (* The calls on the only reflector. *)
  Definition call30 (e : event J3 S3) : call :=
    match e with
    | New m p => Make 0 m p
    | Fill i req resp => Fill30 i req resp
    | Set_ i a => Attr i a
    | Add i => Give 0 i
    | Hook i => GiveHook 0 i
    end.
  Definition call31 (e : event J1 S1) : call :=
    match e with
    | New m p => Make 0 m p
    | Fill i req resp => Fill31 i req resp
    | Set_ i a => Attr i a
    | Add i => Give 0 i
    | Hook i => GiveHook 0 i
    end.

  (* How many contexts are asked for. *)
  Definition asks {J S} (e : event J S) : nat := match e with New _ _ => 1 | _ => 0 end.
  Definition asked {J S} (l : list (event J S)) : nat := list_sum (map asks l).

  Lemma replace_length {A} (l : list A) i x : length (replace i x l) = length l.
  Proof. revert i. induction l as [|y l IH]; intros [|i]; cbn; auto. Qed.

  (* ---------- openapi3 ---------- *)

  Definition link30 (x : option shared30) : list (nat * shared30) := match x with Some s => [(0, s)] | None => [] end.
  Definition h30 (x : ctx30 J3 S3) : handle J3 S3 J1 S1 := K30 (x30_oc x) (link30 (x30_link x)).
  Definition same30 (w : world30 J3 S3) (v : world J3 S3 J1 S1) : Prop := v = mkMany [R30 (w30_refl w)] (map h30 (w30_ctx w)).

  Lemma map_replace {A B} (f : A -> B) l i x : map f (replace i x l) = replace i (f x) (map f l).
  Proof. revert i. induction l as [|y l IH]; intros [|i]; cbn; try reflexivity. f_equal. apply IH. Qed.
  Lemma update_replace {A} (f : A -> A) l i x : nth_error l i = Some x -> update f i l = replace i (f x) l.
  Proof. revert i. induction l as [|y l IH]; intros [|i] E; cbn in *; try discriminate; [injection E as ->; reflexivity|]. f_equal. apply IH. exact E. Qed.
  Lemma update_none {A} (f : A -> A) l i : nth_error l i = None -> update f i l = l.
  Proof. revert i. induction l as [|y l IH]; intros [|i] E; cbn in *; try discriminate; try reflexivity. f_equal. apply IH. exact E. Qed.

  Lemma give30_alone x r :
    let '(r', x', a) := add30 B3 x r in
    give30 B3 0 r (x30_oc x) (link30 (x30_link x)) [R30 r : reflector S3 S1] = ([R30 r'], h30 x', a : add_result).
  Proof.
    unfold add30, give30. destruct (reflector_add30 B3 r (x30_oc x)) as [[r1 oc] a]. destruct x as [oc0 [s|]]; cbn [x30_link x30_oc link30 update].
    - unfold ManyModel.through30, h30. cbn. destruct a; reflexivity.
    - unfold ManyModel.through30, h30. cbn. destruct a; reflexivity.
  Qed.

  Lemma step30_length w e : length (w30_ctx (step30 B3 w e)) <= length (w30_ctx w) + asks e.
  Proof.
    destruct e as [m p|i q p|i a|i|i]; cbn [step30 asks].
    - destruct (new_context30 _ _ _); cbn [w30_ctx]; rewrite ?app_length; cbn; lia.
    - destruct (nth_error _ _); cbn [w30_ctx]; rewrite ?replace_length; lia.
    - destruct (nth_error _ _); cbn [w30_ctx]; rewrite ?replace_length; lia.
    - destruct (nth_error _ _) as [x|]; [|lia]. destruct (add30 B3 x (w30_refl w)) as [[? ?] ?]. cbn [w30_ctx]; rewrite ?replace_length; lia.
    - lia.
  Qed.

  Lemma step30_same w v e : same30 w v -> length (w30_ctx (step30 B3 w e)) = length (w30_ctx w) + asks e ->
    same30 (step30 B3 w e) (ManyModel.step B3 B1 v (call30 e)).
  Proof.
    intros -> L. destruct w as [r xs]. unfold same30. destruct e as [m p|i q p|i a|i|i]; cbn [step30 ManyModel.step call30 w30_refl w30_ctx asks] in *.
    - unfold make. cbn [m_refls nth_error m_ctxs]. destruct (new_context30 r m p) as [oc|]; cbn [w30_ctx w30_refl] in *; [|lia]. rewrite map_app. reflexivity.
    - cbn [m_refls m_ctxs]. destruct (nth_error xs i) as [x|] eqn:E; cbn [w30_ctx w30_refl] in *.
      + rewrite (update_replace _ _ i (h30 x)) by (rewrite nth_error_map, E; reflexivity). rewrite map_replace. reflexivity.
      + rewrite update_none by (rewrite nth_error_map, E; reflexivity). reflexivity.
    - cbn [m_refls m_ctxs]. destruct (nth_error xs i) as [x|] eqn:E; cbn [w30_ctx w30_refl] in *.
      + rewrite (update_replace _ _ i (h30 x)) by (rewrite nth_error_map, E; reflexivity). rewrite map_replace. reflexivity.
      + rewrite update_none by (rewrite nth_error_map, E; reflexivity). reflexivity.
    - unfold give. cbn [m_refls m_ctxs nth_error]. rewrite nth_error_map. destruct (nth_error xs i) as [x|] eqn:E; cbn [option_map]; [|reflexivity].
      unfold h30 at 1. pose proof (give30_alone x r) as G. destruct (add30 B3 x r) as [[r' x'] a]. rewrite G. cbn [fst w30_ctx w30_refl]. rewrite map_replace. reflexivity.
    - unfold give. cbn [m_refls m_ctxs nth_error]. rewrite nth_error_map. destruct (nth_error xs i) as [x|] eqn:E; cbn [option_map]; reflexivity.
  Qed.

  Lemma run30_length l w : length (w30_ctx (run30 B3 w l)) <= length (w30_ctx w) + asked l.
  Proof.
    revert w. unfold asked. induction l as [|e l IH]; intros w; cbn [run30 fold_left map list_sum fold_right]; [unfold run30; cbn; lia|].
    pose proof (IH (step30 B3 w e)) as H. pose proof (step30_length w e). unfold run30 in *. cbn [fold_left]. unfold list_sum in *. cbn [fold_right]. lia.
  Qed.

  Lemma run30_same l w v : same30 w v -> length (w30_ctx (run30 B3 w l)) = length (w30_ctx w) + asked l ->
    same30 (run30 B3 w l) (fold_left (ManyModel.step B3 B1) (map call30 l) v).
  Proof.
    revert w v. induction l as [|e l IH]; intros w v S L; [exact S|]. cbn [map fold_left]. change (run30 B3 w (e :: l)) with (run30 B3 (step30 B3 w e) l) in *.
    assert (A : asked (e :: l) = asks e + asked l) by reflexivity. rewrite A in L.
    pose proof (run30_length l (step30 B3 w e)) as H1. pose proof (step30_length w e) as H2. apply IH; [apply step30_same; [exact S|]|]; lia.
  Qed.

  Lemma alone30 r l : let w := run30 B3 (mkWorld30 r []) l in let v := ManyModel.run B3 B1 [R30 r] (map call30 l) in
    length (w30_ctx w) = asked l ->
    m_refls v = [R30 (w30_refl w)] /\ forall i, outcome B3 B1 false 0 i v = option_map Result (outcome30 B3 w i).
  Proof.
    intros w v L. assert (Sm : same30 w v) by (apply run30_same; [reflexivity|exact L]). clearbody w v. unfold same30 in Sm. subst v. split; [reflexivity|]. intros i.
    unfold outcome, outcome30, give. cbn [m_refls m_ctxs nth_error]. rewrite nth_error_map. destruct (nth_error (w30_ctx w) i) as [x|]; [|reflexivity].
    cbn [option_map]. unfold h30 at 1. pose proof (give30_alone x (w30_refl w)) as G. destruct (add30 B3 x (w30_refl w)) as [[r' x'] a]. rewrite G. reflexivity.
  Qed.

  (* ---------- openapi31 ---------- *)

  Definition plain31 (x : option shared31) : list (nat * (bool * shared31)) := match x with Some s => [(0, (false, s))] | None => [] end.
  Definition hook31 (x : option shared31) : list (nat * (bool * shared31)) := match x with Some s => [(0, (true, s))] | None => [] end.
  Inductive h31 : ctx31 J1 S1 -> handle J3 S3 J1 S1 -> Prop :=
  | h31_ph oc a b : h31 (mkCtx31 oc a b) (K31 oc (plain31 a ++ hook31 b))
  | h31_hp oc a b : h31 (mkCtx31 oc a b) (K31 oc (hook31 b ++ plain31 a)).
  Definition same31 (w : world31 J1 S1) (v : world J3 S3 J1 S1) : Prop :=
    m_refls v = [R31 (w31_refl w)] /\ Forall2 h31 (w31_ctx w) (m_ctxs v).

  Lemma commute f g p m p' m' (s : paths31 S1) : touch31 f p m (touch_hook31 g p' m' s) = touch_hook31 g p' m' (touch31 f p m s).
  Proof.
    unfold touch31, touch_hook31. destruct s as [it wh rest]; cbn [sp31_items sp31_webhooks sp31_rest].
    destruct (get p' wh) as [i|] eqn:G; cbn [sp31_items]; destruct it as [it|]; cbn; rewrite ?G; try reflexivity;
      destruct (get p it) as [k|]; cbn; rewrite ?G; reflexivity.
  Qed.

  Lemma give31_alone hook x oc links r : h31 x (K31 oc links) ->
    let '(r', x', a) := add31 B1 hook x r in
    exists k, give31 B1 hook 0 r oc links [R31 r : reflector S3 S1] = ([R31 r'], k, a : add_result) /\ h31 x' k.
  Proof.
    intros H. inversion H as [oc' a b E1 E2|oc' a b E1 E2]; subst; clear H; unfold add31, give31; cbn [x31_oc];
    destruct (if hook then reflector_webhook31 B1 r oc else reflector_add31 B1 r oc) as [[r1 oc1] res];
    set (oc2 := match res with AOk => set_op oc1 (own31 (oc_op oc1)) | _ => oc1 end);
    unfold ShareModel.through31; cbn [x31_link x31_hook]; destruct r1 as [ps cs]; cbn [r31_paths r31_comps];
    destruct a as [a|], b as [b|], hook, res; unfold ManyModel.through31; cbn; rewrite ?commute; eexists; (split; [reflexivity|]);
    try exact (h31_ph _ _ _); try exact (h31_hp _ _ _);
    first [exact (h31_ph oc2 (Some _) (Some _))|exact (h31_hp oc2 (Some _) (Some _))|exact (h31_ph oc2 (Some _) None)|exact (h31_ph oc2 None (Some _))|exact (h31_ph oc2 None None)].
  Qed.

  Lemma step31_length w e : length (w31_ctx (step31 B1 w e)) <= length (w31_ctx w) + asks e.
  Proof.
    destruct e as [m p|i q p|i a|i|i]; cbn [step31 asks].
    - destruct (new_context31 _ _ _) as [? [?|]]; cbn [w31_ctx]; rewrite ?app_length; cbn; lia.
    - destruct (nth_error _ _); cbn [w31_ctx]; rewrite ?replace_length; lia.
    - destruct (nth_error _ _); cbn [w31_ctx]; rewrite ?replace_length; lia.
    - destruct (nth_error _ _) as [x|]; [|lia]. destruct (add31 B1 false x (w31_refl w)) as [[? ?] ?]. cbn [w31_ctx]; rewrite ?replace_length; lia.
    - destruct (nth_error _ _) as [x|]; [|lia]. destruct (add31 B1 true x (w31_refl w)) as [[? ?] ?]. cbn [w31_ctx]; rewrite ?replace_length; lia.
  Qed.

  Lemma f2_nth {A B} (R : A -> B -> Prop) l m i : Forall2 R l m ->
    match nth_error l i, nth_error m i with Some x, Some y => R x y | None, None => True | _, _ => False end.
  Proof. intros F. revert i. induction F as [|x y l m Rxy F IH]; intros [|i]; cbn; auto. apply IH. Qed.
  Lemma f2_replace {A B} (R : A -> B -> Prop) l m i x y : Forall2 R l m -> R x y -> Forall2 R (replace i x l) (replace i y m).
  Proof. intros F Rxy. revert i. induction F as [|x' y' l m R' F IH]; intros [|i]; cbn; constructor; auto. Qed.

  Lemma give_same hook w v i : same31 w v ->
    same31 (match nth_error (w31_ctx w) i with
            | Some x => let '(r, x, _) := add31 B1 hook x (w31_refl w) in mkWorld31 r (replace i x (w31_ctx w))
            | None => w
            end) (fst (give B3 B1 hook 0 i v)) /\
    snd (give B3 B1 hook 0 i v) = option_map Result (outcome31 B1 hook w i).
  Proof.
    intros [R F]. destruct v as [rs ks]. cbn [m_refls m_ctxs] in *. subst rs. unfold give, outcome31. cbn [m_refls m_ctxs nth_error].
    pose proof (f2_nth _ _ _ i F) as N. destruct (nth_error (w31_ctx w) i) as [x|], (nth_error ks i) as [k|]; try destruct N.
    - pose proof (give31_alone hook _ _ _ (w31_refl w) (h31_ph oc a b)) as G. destruct (add31 B1 hook (mkCtx31 oc a b) (w31_refl w)) as [[r' x'] res].
      destruct G as (k & -> & H). split; [split; [reflexivity|apply f2_replace; assumption]|reflexivity].
    - pose proof (give31_alone hook _ _ _ (w31_refl w) (h31_hp oc a b)) as G. destruct (add31 B1 hook (mkCtx31 oc a b) (w31_refl w)) as [[r' x'] res].
      destruct G as (k & -> & H). split; [split; [reflexivity|apply f2_replace; assumption]|reflexivity].
    - split; [split; [reflexivity|exact F]|reflexivity].
  Qed.

  Lemma step31_same w v e : same31 w v -> length (w31_ctx (step31 B1 w e)) = length (w31_ctx w) + asks e ->
    same31 (step31 B1 w e) (ManyModel.step B3 B1 v (call31 e)).
  Proof.
    intros Sm L. destruct e as [m p|i q p|i a|i|i]; cbn [step31 ManyModel.step call31 asks] in *; try apply (give_same _ w v i Sm).
    - destruct Sm as [R F]. destruct v as [rs ks]. cbn [m_refls m_ctxs] in *. subst rs. unfold make. cbn [m_refls nth_error m_ctxs].
      destruct (new_context31 (w31_refl w) m p) as [r' [oc|]]; cbn [w31_ctx w31_refl] in *; [|lia]. split; [reflexivity|]. cbn [m_ctxs w31_ctx].
      apply Forall2_app; [exact F|]. constructor; [exact (h31_ph oc None None)|constructor].
    - destruct Sm as [R F]. destruct v as [rs ks]. cbn [m_refls m_ctxs] in *. subst rs. pose proof (f2_nth _ _ _ i F) as N.
      destruct (nth_error (w31_ctx w) i) as [x|] eqn:E, (nth_error ks i) as [k|] eqn:E'; try destruct N.
      + split; [reflexivity|]. cbn [m_ctxs w31_ctx]. rewrite (update_replace _ _ i _ E'). apply f2_replace; [exact F|]. exact (h31_ph _ a b).
      + split; [reflexivity|]. cbn [m_ctxs w31_ctx]. rewrite (update_replace _ _ i _ E'). apply f2_replace; [exact F|]. exact (h31_hp _ a b).
      + split; [reflexivity|]. cbn [m_ctxs w31_ctx]. rewrite (update_none _ _ i E'). exact F.
    - destruct Sm as [R F]. destruct v as [rs ks]. cbn [m_refls m_ctxs] in *. subst rs. pose proof (f2_nth _ _ _ i F) as N.
      destruct (nth_error (w31_ctx w) i) as [x|] eqn:E, (nth_error ks i) as [k|] eqn:E'; try destruct N.
      + split; [reflexivity|]. cbn [m_ctxs w31_ctx]. rewrite (update_replace _ _ i _ E'). apply f2_replace; [exact F|]. exact (h31_ph _ a0 b).
      + split; [reflexivity|]. cbn [m_ctxs w31_ctx]. rewrite (update_replace _ _ i _ E'). apply f2_replace; [exact F|]. exact (h31_hp _ a0 b).
      + split; [reflexivity|]. cbn [m_ctxs w31_ctx]. rewrite (update_none _ _ i E'). exact F.
  Qed.

  Lemma run31_length l w : length (w31_ctx (run31 B1 w l)) <= length (w31_ctx w) + asked l.
  Proof.
    revert w. induction l as [|e l IH]; intros w; [unfold run31, asked; cbn; lia|].
    change (run31 B1 w (e :: l)) with (run31 B1 (step31 B1 w e) l). assert (A : asked (e :: l) = asks e + asked l) by reflexivity. rewrite A.
    pose proof (IH (step31 B1 w e)). pose proof (step31_length w e). lia.
  Qed.

  Lemma run31_same l w v : same31 w v -> length (w31_ctx (run31 B1 w l)) = length (w31_ctx w) + asked l ->
    same31 (run31 B1 w l) (fold_left (ManyModel.step B3 B1) (map call31 l) v).
  Proof.
    revert w v. induction l as [|e l IH]; intros w v Sm L; [exact Sm|]. cbn [map fold_left]. change (run31 B1 w (e :: l)) with (run31 B1 (step31 B1 w e) l) in *.
    assert (A : asked (e :: l) = asks e + asked l) by reflexivity. rewrite A in L.
    pose proof (run31_length l (step31 B1 w e)) as H1. pose proof (step31_length w e) as H2. apply IH; [apply step31_same; [exact Sm|]|]; lia.
  Qed.

  Lemma alone31 r l : let w := run31 B1 (mkWorld31 r []) l in let v := ManyModel.run B3 B1 [R31 r] (map call31 l) in
    length (w31_ctx w) = asked l ->
    m_refls v = [R31 (w31_refl w)] /\ forall hook i, outcome B3 B1 hook 0 i v = option_map Result (outcome31 B1 hook w i).
  Proof.
    intros w v L. assert (Sm : same31 w v) by (apply run31_same; [split; [reflexivity|constructor]|exact L]).
    split; [exact (proj1 Sm)|]. intros hook i. exact (proj2 (give_same hook w v i Sm)).
  Qed.
End Alone.
Arguments call30 {J3 S3 J1 S1}. Arguments call31 {J3 S3 J1 S1}.
