(* Reading the same document twice: proofs. *)
From Coq Require Import Lia.
From Verif Require Import Str SMap Json CodecModel CodecSpec CodecProofs OrdSpec OrdProofs UsedSpec UsedProofs.
From Verif Require CodecMembers CodecStrict.

Section Checks2.
  Variable T : list (string * ent).

  (* No two fields have keys that fold to the same. *)
  Fixpoint apart_from (q : string) (fs : list field) : bool :=
    match fs with
    | [] => true
    | f :: fs => match f_key f with Some q' => negb (String.eqb (fold_key q) (fold_key q')) | None => true end && apart_from q fs
    end.
  Fixpoint keys_apart (fs : list field) : bool :=
    match fs with
    | [] => true
    | f :: fs => match f_key f with Some q => apart_from q fs | None => true end && keys_apart fs
    end.

  Definition keyed (fs : list field) (i : nat) : bool :=
    match nth_error fs i with Some f => match f_key f with Some _ => true | None => false end | None => false end.
  Definition inb (i : nat) (l : list nat) : bool := existsb (Nat.eqb i) l.
  Fixpoint nodupb (l : list nat) : bool := match l with [] => true | i :: l => negb (inb i l) && nodupb l end.

  Definition twice_ok (e : string * ent) : bool :=
    match snd e with
    | EEnum _ => true
    | EStruct fs _ d =>
        let whole := d_embed d ++ d_oneof d in
        let maps := map snd (d_pats d) ++ d_addl d in
        nodupb whole &&
        forallb (fun i => negb (keyed fs i) && negb (inb i maps) && (i <? length fs)%nat &&
                           match nth_error fs i with Some f => match f_ty f with TMap _ => false | _ => true end && lvl_ok T (pred LVL) (f_ty f) && lvl_ok T LVL (f_ty f) | None => true end) whole &&
        forallb (fun i => negb (keyed fs i)) maps &&
        forallb (fun ik => keyed fs (fst ik)) (d_fix d) &&
        forallb (fun ik => match find_field fs (snd ik) with Some i => Nat.eqb i (fst ik) | None => false end) (d_fix d) &&
        keys_apart fs &&
        lvl_ok T (pred LVL) (TNamed (fst e)) && lvl_ok T LVL (TNamed (fst e))
    end.
  Definition twice_checks : bool := forallb twice_ok T.
End Checks2.

Lemma inb_In i l : inb i l = true <-> In i l.
Proof.
  unfold inb. rewrite existsb_exists. split; [intros (x & I & E); apply Nat.eqb_eq in E; congruence|]. intros I. exists i. split; [exact I|apply Nat.eqb_refl].
Qed.
Lemma inb_false i l : inb i l = false -> ~ In i l.
Proof. intros H I. apply inb_In in I. congruence. Qed.
Lemma nodupb_ok : forall l, nodupb l = true -> NoDup l.
Proof.
  induction l as [|i l IH]; intros H; cbn [nodupb] in H; constructor; rewrite andb_true_iff in H; destruct H as [A B].
  - apply negb_true_iff in A. apply inb_false. exact A.
  - auto.
Qed.
Lemma put_id {A} (k : string) (v : A) : forall m, get k m = Some v -> put k v m = m.
Proof.
  induction m as [|[k' v'] m IH]; intros H; cbn [get put] in *; [discriminate|].
  destruct (String.eqb k k') eqn:E; [apply String.eqb_eq in E; congruence|]. f_equal. auto.
Qed.
Lemma nth_eq_list {A} : forall (l l' : list A), (forall i, nth_error l i = nth_error l' i) -> l = l'.
Proof.
  induction l as [|x l IH]; intros [|y l'] H; [reflexivity|specialize (H 0); discriminate|specialize (H 0); discriminate|].
  f_equal; [specialize (H 0); cbn in H; congruence|]. apply IH. intros i. exact (H (S i)).
Qed.

Lemma NoDup_app_l {A} (a b : list A) : NoDup (a ++ b) -> NoDup a.
Proof. induction a as [|x a IH]; cbn [app]; intros H; [constructor|]. inversion H; subst. constructor; [|auto]. intros I. match goal with h : ~ In _ _ |- _ => apply h end. apply in_or_app. left. exact I. Qed.
Lemma NoDup_app_r {A} (a b : list A) : NoDup (a ++ b) -> NoDup b.
Proof. induction a as [|x a IH]; cbn [app]; intros H; [exact H|]. inversion H; auto. Qed.
Lemma NoDup_disj {A} (x : A) (a b : list A) : NoDup (a ++ b) -> In x a -> In x b -> False.
Proof.
  induction a as [|y a IH]; cbn [app]; intros H I J; [destruct I|]. inversion H; subst. destruct I as [->|I]; [|auto].
  match goal with h : ~ In _ _ |- _ => apply h end. apply in_or_app. right. exact J.
Qed.
Definition option_nat_dec (a b : option nat) : {a = b} + {a <> b}.
Proof. decide equality. apply Nat.eq_dec. Defined.

Section Twice.
  Variable T : list (string * ent).
  Variable rnd : Q -> Q.
  Variable K : list string.
  Hypothesis CH : used_checks T K = true.
  Hypothesis CH2 : twice_checks T = true.

  Notation known := (known T).
  Notation typed := (typed T).
  Notation dmono := (dmono T).
  Notation D := (dec T rnd).

  Definition dstab (d : decoder) : Prop := forall t a v, known t = true -> typed t a -> d t a = Some v -> d t v = Some v.
  (* [null] clears a pointer whatever it points to. *)
  Definition dnil (d : decoder) : Prop := forall t a b, d (TPtr t) a = Some VNil -> d (TPtr t) b = Some VNil.

  Lemma mono_any d t a b v : dmono d -> known t = true -> typed t a -> typed t b -> d t a = Some v ->
    typed t v /\ exists w, d t b = Some w /\ typed t w.
  Proof.
    intros M Kt A B E. pose proof (M t _ a Kt (rel_zero T K CH t a Kt A)) as X. rewrite E in X.
    pose proof (M t _ b Kt (rel_zero T K CH t b Kt B)) as Y. destruct (d t (zero T LVL t)) as [z|]; [|inversion X].
    inversion X as [|? ? (_ & R & _)]; subst. inversion Y as [|? ? (_ & R' & _)]; subst. eauto.
  Qed.
  Lemma mono_none d t a b : dmono d -> known t = true -> typed t a -> typed t b -> d t a = None -> d t b = None.
  Proof.
    intros M Kt A B E. destruct (d t b) as [v|] eqn:F; [|reflexivity]. destruct (mono_any d t b a v M Kt B A F) as (_ & w & X & _). congruence.
  Qed.

  (* ---------- maps of further members ---------- *)

  Definition op := (nat * (string * decoder))%type.
  Fixpoint run (fs : list field) (ops : list op) (vs : list val) : option (list val) :=
    match ops with
    | [] => Some vs
    | (i, (k, d)) :: ops => match store T fs i k d vs with Some us => run fs ops us | None => None end
    end.
  Lemma run_app fs : forall a b vs, run fs (a ++ b) vs = match run fs a vs with Some us => run fs b us | None => None end.
  Proof. induction a as [|[i [k d]] a IH]; intros b vs; cbn [run app]; [reflexivity|]. destruct (store T fs i k d vs); [apply IH|reflexivity]. Qed.

  Definition pat_ops (ps : list (pat * nat)) (m : string * (json * decoder)) : list op :=
    map (fun p => (snd p, (fst m, snd (snd m)))) (filter (fun p => matches (fst p) (fst m)) ps).
  Lemma store_pats_run fs k x d : forall ps vs, store_pats T fs ps k d vs = run fs (pat_ops ps (k, (x, d))) vs.
  Proof.
    induction ps as [|[p i] ps IH]; intros vs; cbn [store_pats]; unfold pat_ops; cbn [filter fst snd]; [reflexivity|].
    destruct (matches p k); [|apply IH]. cbn [map run fst snd]. destruct (store T fs i k d vs); [apply IH|reflexivity].
  Qed.
  Lemma pats_run fs ps : forall ms vs, dec_pats T fs ps ms vs = run fs (flat_map (pat_ops ps) ms) vs.
  Proof.
    induction ms as [|[k [x d]] ms IH]; intros vs; cbn [dec_pats flat_map]; [reflexivity|].
    rewrite run_app, <- (store_pats_run fs k x d). destruct (store_pats T fs ps k d vs); [apply IH|reflexivity].
  Qed.
  Lemma addl_run fs i : forall ms vs, dec_addl T fs i ms vs = run fs (map (fun m => (i, (fst m, snd (snd m)))) ms) vs.
  Proof.
    induction ms as [|[k [x d]] ms IH]; intros vs; cbn [dec_addl map run fst snd]; [reflexivity|]. destruct (store T fs i k d vs); [apply IH|reflexivity].
  Qed.

  Definition stored (fs : list field) (o : op) (vs : list val) : Prop :=
    exists f t v m, nth_error fs (fst o) = Some f /\ f_ty f = TMap t /\ snd (snd o) t (zero T LVL t) = Some v /\
      nth_error vs (fst o) = Some (VMap m) /\ get (fst (snd o)) m = Some v.

  Lemma store_inv fs i k d vs us : store T fs i k d vs = Some us ->
    exists f t v old, nth_error fs i = Some f /\ f_ty f = TMap t /\ d t (zero T LVL t) = Some v /\ nth_error vs i = Some old /\
      us = set_nth i (VMap (put k v (match old with VMap m => m | _ => [] end))) vs.
  Proof.
    unfold store. intros H. destruct (nth_error fs i) as [f|]; [|discriminate]. destruct (nth_error vs i) as [old|]; [|discriminate].
    destruct (f_ty f) as [| | | | | | | |t|] eqn:Tf; try discriminate. destruct (d t (zero T LVL t)) as [v|] eqn:E; [|discriminate].
    injection H as <-. exists f, t, v, old. repeat (split; [assumption || reflexivity|]). reflexivity.
  Qed.
  Lemma store_stored fs i k d vs us : store T fs i k d vs = Some us -> stored fs (i, (k, d)) us.
  Proof.
    intros H. destruct (store_inv _ _ _ _ _ _ H) as (f & t & v & old & N & Tf & E & V & ->).
    exists f, t, v, (put k v (match old with VMap m => m | _ => [] end)). cbn [fst snd].
    split; [exact N|]. split; [exact Tf|]. split; [exact E|]. split; [apply nth_set_same; eapply nth_some_lt; eauto|apply get_put_same].
  Qed.
  Lemma store_keeps fs o i k d vs us : (k = fst (snd o) -> d = snd (snd o)) -> stored fs o vs -> store T fs i k d vs = Some us -> stored fs o us.
  Proof.
    intros Eq (f & t & v & m & N & Tf & E & V & G) H. destruct (store_inv _ _ _ _ _ _ H) as (f' & t' & v' & old & N' & Tf' & E' & V' & ->).
    destruct o as [i0 [k0 d0]]. cbn [fst snd] in *. destruct (Nat.eq_dec i0 i) as [->|NE].
    - rewrite V in V'. injection V' as <-. rewrite N in N'. injection N' as <-. rewrite Tf in Tf'. injection Tf' as <-.
      exists f, t, v, (put k v' m). cbn [fst snd]. split; [exact N|]. split; [exact Tf|]. split; [exact E|].
      split; [apply nth_set_same; eapply nth_some_lt; eauto|]. rewrite get_put. destruct (String.eqb k0 k) eqn:Q; [|exact G].
      apply String.eqb_eq in Q. subst k0. rewrite (Eq eq_refl) in E'. congruence.
    - exists f, t, v, m. cbn [fst snd]. split; [exact N|]. split; [exact Tf|]. split; [exact E|]. split; [|exact G]. rewrite nth_set_other by exact NE. exact V.
  Qed.
  Lemma stored_again fs i k d vs : stored fs (i, (k, d)) vs -> store T fs i k d vs = Some vs.
  Proof.
    intros (f & t & v & m & N & Tf & E & V & G). cbn [fst snd] in *. unfold store. rewrite N, V, Tf, E. f_equal.
    rewrite (put_id _ _ _ G). apply set_id. exact V.
  Qed.
  Lemma run_keeps fs o : forall ops vs us, (forall p, In p ops -> fst (snd p) = fst (snd o) -> snd (snd p) = snd (snd o)) ->
    stored fs o vs -> run fs ops vs = Some us -> stored fs o us.
  Proof.
    induction ops as [|[i [k d]] ops IH]; intros vs us Eq S R; cbn [run] in R; [congruence|].
    destruct (store T fs i k d vs) as [ws|] eqn:E; [|discriminate].
    eapply IH; [intros; apply Eq; [right|]; assumption| |exact R]. eapply store_keeps; [|exact S|exact E].
    intros Q. exact (Eq _ (or_introl eq_refl) Q).
  Qed.
  Lemma run_stored fs : forall ops vs us, (forall p q, In p ops -> In q ops -> fst (snd p) = fst (snd q) -> snd (snd p) = snd (snd q)) ->
    run fs ops vs = Some us -> forall o, In o ops -> stored fs o us.
  Proof.
    induction ops as [|[i [k d]] ops IH]; intros vs us Eq R o I; cbn [run] in R; [destruct I|].
    destruct (store T fs i k d vs) as [ws|] eqn:E; [|discriminate]. destruct I as [<-|I].
    - eapply run_keeps; [|eapply store_stored; exact E|exact R]. intros p Ip Q. apply Eq; [right; exact Ip|left; reflexivity|exact Q].
    - eapply IH; [|exact R|exact I]. intros; apply Eq; [right|right|]; assumption.
  Qed.
  Lemma run_again fs vs : forall ops, (forall o, In o ops -> stored fs o vs) -> run fs ops vs = Some vs.
  Proof.
    induction ops as [|[i [k d]] ops IH]; intros H; cbn [run]; [reflexivity|].
    rewrite stored_again by (apply H; left; reflexivity). apply IH. intros; apply H; right; assumption.
  Qed.
  Lemma run_other fs i : forall ops vs us, ~ In i (map fst ops) -> run fs ops vs = Some us -> nth_error us i = nth_error vs i.
  Proof.
    induction ops as [|[i0 [k d]] ops IH]; intros vs us NI R; cbn [run map fst] in *; [congruence|].
    destruct (store T fs i0 k d vs) as [ws|] eqn:E; [|discriminate]. rewrite (IH ws us (fun h => NI (or_intror h)) R).
    destruct (store_inv _ _ _ _ _ _ E) as (f & t & v & old & _ & _ & _ & _ & ->). apply nth_set_other. intros ->. apply NI. left. reflexivity.
  Qed.

  (* ---------- the null that is a value ---------- *)

  Definition phi (fx : list (nat * string)) (raw : members) (i : nat) (v : val) : val :=
    match v with
    | VNil => if existsb (fun ik => Nat.eqb (fst ik) i && raw_has raw (snd ik)) fx then VPtr (VAny JNull) else VNil
    | _ => v
    end.
  Lemma phi_id fx raw i v : phi fx raw i (phi fx raw i v) = phi fx raw i v.
  Proof. destruct v; cbn [phi]; try reflexivity. destruct (existsb _ fx) eqn:E; cbn [phi]; [reflexivity|]. rewrite E. reflexivity. Qed.
  Lemma fix_nth raw : forall fx vs i, nth_error (dec_fix fx raw vs) i = option_map (phi fx raw i) (nth_error vs i).
  Proof.
    induction fx as [|[i0 k] fx IH]; intros vs i; cbn [dec_fix].
    - destruct (nth_error vs i) as [[]|]; reflexivity.
    - rewrite IH. destruct (Nat.eq_dec i0 i) as [->|NE].
      + destruct (nth_error vs i) as [v|] eqn:V; [|rewrite V; reflexivity].
        destruct v; try (rewrite V; reflexivity). cbn [option_map phi existsb fst snd]. rewrite Nat.eqb_refl. cbn [andb].
        destruct (raw_has raw k); [|rewrite V; reflexivity]. rewrite nth_set_same by (eapply nth_some_lt; eauto). reflexivity.
      + assert (X : nth_error (match nth_error vs i0 with Some VNil => if raw_has raw k then set_nth i0 (VPtr (VAny JNull)) vs else vs | _ => vs end) i = nth_error vs i).
        { destruct (nth_error vs i0) as [[]|]; try reflexivity. destruct (raw_has raw k); [|reflexivity]. apply nth_set_other. congruence. }
        rewrite X. destruct (nth_error vs i) as [v|]; [|reflexivity]. destruct v; try reflexivity. cbn [option_map phi existsb fst snd].
        apply Nat.eqb_neq in NE. rewrite NE. reflexivity.
  Qed.
  Lemma phi_unkeyed fs fx raw i v : forallb (fun ik => keyed fs (fst ik)) fx = true -> keyed fs i = false -> phi fx raw i v = v.
  Proof.
    intros C U. destruct v; try reflexivity. cbn [phi]. destruct (existsb _ fx) eqn:E; [|reflexivity].
    apply existsb_exists in E. destruct E as (ik & I & E). rewrite andb_true_iff in E. destruct E as [E _]. apply Nat.eqb_eq in E. subst i.
    rewrite forallb_forall in C. rewrite (C _ I) in U. discriminate.
  Qed.

  (* ---------- members and fields ---------- *)

  Definition targets (fs : list field) (ms : members) : Prop :=
    forall pre m post m' i, ms = pre ++ m :: post -> In m' post -> find_field fs (fst m) = Some i -> find_field fs (fst m') = Some i -> False.

  Lemma targets_tl fs m ms : targets fs (m :: ms) -> targets fs ms.
  Proof. intros H pre a post b i E I F F'. subst ms. exact (H (m :: pre) a post b i eq_refl I F F'). Qed.

  Lemma fields_other fs i : forall ms vs us, (forall m, In m ms -> find_field fs (fst m) <> Some i) -> dec_fields fs ms vs = Some us ->
    nth_error us i = nth_error vs i.
  Proof.
    induction ms as [|[k [x d]] ms IH]; intros vs us H E; cbn [dec_fields] in E; [congruence|].
    assert (H' : forall m, In m ms -> find_field fs (fst m) <> Some i) by (intros; apply H; right; assumption).
    specialize (H _ (or_introl eq_refl)). cbn [fst] in H. destruct (find_field fs k) as [i0|]; [|eauto].
    destruct (nth_error fs i0) as [f|]; [|discriminate]. destruct (nth_error vs i0) as [v|]; [|discriminate]. destruct (d (f_ty f) v) as [w|]; [|discriminate].
    rewrite (IH _ _ H' E). apply nth_set_other. congruence.
  Qed.
  Lemma fields_at fs i : forall ms vs us m, targets fs ms -> In m ms -> find_field fs (fst m) = Some i -> dec_fields fs ms vs = Some us ->
    exists f v w, nth_error fs i = Some f /\ nth_error vs i = Some v /\ snd (snd m) (f_ty f) v = Some w /\ nth_error us i = Some w.
  Proof.
    induction ms as [|[k [x d]] ms IH]; intros vs us m Tg I F E; [destruct I|]. cbn [dec_fields] in E.
    destruct I as [<-|I].
    - cbn [fst] in F. rewrite F in E. destruct (nth_error fs i) as [f|] eqn:N; [|discriminate]. destruct (nth_error vs i) as [v|] eqn:V; [|discriminate].
      destruct (d (f_ty f) v) as [w|] eqn:W; [|discriminate]. exists f, v, w. split; [reflexivity|]. split; [reflexivity|]. split; [exact W|].
      rewrite (fields_other fs i ms (set_nth i w vs) us); [apply nth_set_same; eapply nth_some_lt; eauto| |exact E].
      intros m' I' F'. exact (Tg [] (k, (x, d)) ms m' i eq_refl I' F F').
    - pose proof (targets_tl _ _ _ Tg) as Tg'. destruct (find_field fs k) as [i0|] eqn:F0; [|eauto].
      destruct (nth_error fs i0) as [f0|]; [|discriminate]. destruct (nth_error vs i0) as [v0|] eqn:V0; [|discriminate].
      destruct (d (f_ty f0) v0) as [w0|]; [|discriminate].
      destruct (IH _ _ _ Tg' I F E) as (f & v & w & N & V & W & U). exists f, v, w. split; [exact N|]. split; [|split; assumption].
      rewrite nth_set_other in V; [exact V|]. intros ->. exact (Tg [] (k, (x, d)) ms m i0 eq_refl I F0 F).
  Qed.

  Lemma embed_at same fs i : forall is vs us, NoDup is -> In i is -> dec_embed same fs is vs = Some us ->
    exists f v w, nth_error fs i = Some f /\ nth_error vs i = Some v /\ same (f_ty f) v = Some w /\ nth_error us i = Some w.
  Proof.
    induction is as [|i0 is IH]; intros vs us ND I E; [destruct I|]. inversion ND as [|? ? NI ND']; subst. cbn [dec_embed] in E.
    destruct (nth_error fs i0) as [f0|] eqn:N0; [|discriminate]. destruct (nth_error vs i0) as [v0|] eqn:V0; [|discriminate].
    destruct (same (f_ty f0) v0) as [w0|] eqn:W0; [|discriminate]. destruct I as [->|I].
    - exists f0, v0, w0. split; [exact N0|]. split; [exact V0|]. split; [exact W0|].
      rewrite (embed_other _ _ _ _ _ _ NI E). apply nth_set_same. eapply nth_some_lt; eauto.
    - destruct (IH _ _ ND' I E) as (f & v & w & N & V & W & U). exists f, v, w. split; [exact N|]. split; [|split; assumption].
      rewrite nth_set_other in V; [exact V|]. intros ->. contradiction.
  Qed.
  Lemma alts_at same fs i f v : forall is vs z, length vs = length fs -> NoDup is -> In i is -> nth_error fs i = Some f -> nth_error vs i = Some v ->
    (forall i', In i' is -> i' < length fs) ->
    nth_error (fst (dec_alts same fs is vs z)) i = Some (match same (f_ty f) v with Some w => w | None => VNil end).
  Proof.
    induction is as [|i0 is IH]; intros vs z L ND I N V B; [destruct I|]. inversion ND as [|? ? NI ND']; subst. cbn [dec_alts].
    assert (B0 : i0 < length fs) by (apply B; left; reflexivity).
    destruct (nth_lt_some fs i0 B0) as (f0 & N0). rewrite N0. rewrite <- L in B0. destruct (nth_lt_some vs i0 B0) as (v0 & V0). rewrite V0.
    destruct I as [->|I].
    - rewrite N in N0. injection N0 as <-. rewrite V in V0. injection V0 as <-.
      destruct (same (f_ty f) v) as [w|]; rewrite alts_other by exact NI; apply nth_set_same; exact B0.
    - assert (NE : i <> i0) by (intros ->; contradiction).
      destruct (same (f_ty f0) v0) as [w|]; apply IH; auto; try (rewrite length_set; exact L); try (rewrite nth_set_other by exact NE; exact V); intros; apply B; right; assumption.
  Qed.
  Lemma ch2 n fs ps d : get n T = Some (EStruct fs ps d) ->
    NoDup (d_embed d ++ d_oneof d) /\
    (forall i, In i (d_embed d ++ d_oneof d) -> keyed fs i = false /\ ~ In i (map snd (d_pats d) ++ d_addl d) /\ i < length fs) /\
    (forall i, In i (map snd (d_pats d) ++ d_addl d) -> keyed fs i = false) /\
    forallb (fun ik => keyed fs (fst ik)) (d_fix d) = true /\
    (forall i k, In (i, k) (d_fix d) -> find_field fs k = Some i) /\
    (forall i f t, In i (d_embed d ++ d_oneof d) -> nth_error fs i = Some f -> f_ty f <> TMap t /\ lvl_ok T (pred LVL) (f_ty f) = true /\ lvl_ok T LVL (f_ty f) = true) /\
    keys_apart fs = true /\
    lvl_ok T (pred LVL) (TNamed n) = true /\ lvl_ok T LVL (TNamed n) = true.
  Proof.
    intros G. apply get_In in G. unfold twice_checks in CH2. rewrite forallb_forall in CH2. specialize (CH2 _ G). unfold twice_ok in CH2. cbn [fst snd] in CH2.
    apply andb_prop in CH2. destruct CH2 as [X LV2]. apply andb_prop in X. destruct X as [X LV].
    apply andb_prop in X. destruct X as [X KA]. apply andb_prop in X. destruct X as [X F]. apply andb_prop in X. destruct X as [X E].
    apply andb_prop in X. destruct X as [X C]. apply andb_prop in X. destruct X as [A B]. rewrite forallb_forall in B, C, F.
    split; [apply nodupb_ok; exact A|]. split; [|split; [|split; [exact E|split; [|split; [|split; [exact KA|split; [exact LV|exact LV2]]]]]]].
    - intros i I. specialize (B i I). apply andb_prop in B. destruct B as [B _]. apply andb_prop in B. destruct B as [B B3]. apply andb_prop in B. destruct B as [B1 B2]. apply negb_true_iff in B1, B2. apply Nat.ltb_lt in B3.
      split; [exact B1|]. split; [apply inb_false; exact B2|exact B3].
    - intros i I. apply negb_true_iff. auto.
    - intros i k I. specialize (F _ I). cbn [fst snd] in F. destruct (find_field fs k) as [i'|]; [|discriminate]. apply Nat.eqb_eq in F. congruence.
    - intros i f t I N. specialize (B i I). apply andb_prop in B. destruct B as [_ B]. rewrite N in B. apply andb_prop in B. destruct B as [B B3]. apply andb_prop in B. destruct B as [B1 B2].
      split; [intros Tf; rewrite Tf in B1; discriminate|]. split; [exact B2|exact B3].
  Qed.

  Definition wstab (w : jview) : Prop :=
    match w with
    | SArr ds => forall d, In d ds -> dstab d
    | SObj ms => (forall m, In m ms -> dstab (snd (snd m)) /\ dnil (snd (snd m))) /\ NoDup (map fst ms) /\
                 (forall n fs ps d, get n T = Some (EStruct fs ps d) -> targets fs ms)
    | _ => True
    end.

  Lemma find_keyed fs k i : find_field fs k = Some i -> keyed fs i = true.
  Proof. intros H. destruct (find_field_fold _ _ _ H) as (f & q & N & Kf & _). unfold keyed. rewrite N, Kf. reflexivity. Qed.

  Lemma struct_keep w fs i vs us : keyed fs i = false -> dec_struct w fs vs = Some us -> nth_error us i = nth_error vs i.
  Proof.
    intros U E. destruct w as [| | | | |ms]; cbn [dec_struct] in E; try discriminate; [congruence|].
    eapply fields_other; [|exact E]. intros m _ F. rewrite (find_keyed _ _ _ F) in U. discriminate.
  Qed.

  Definition raw_ops (d : dprog) (w : jview) : list op :=
    flat_map (pat_ops (d_pats d)) (raw_rest d (raw_map w)) ++
    match d_addl d with i :: _ => map (fun m => (i, (fst m, snd (snd m)))) (raw_left d (raw_rest d (raw_map w))) | [] => [] end.

  Lemma dec_raw_run fs d w vs us : dec_raw T fs d w vs = Some us ->
    raw_checks d (raw_map w) = true /\ lower_checks d vs = true /\
    run fs (raw_ops d w) (dec_fix (d_fix d) (raw_map w) vs) = Some us.
  Proof.
    unfold dec_raw, raw_ops. intros H. destruct (raw_checks d (raw_map w)); [|discriminate]. destruct (lower_checks d vs); [|discriminate].
    cbn [andb] in H. split; [reflexivity|]. split; [reflexivity|]. rewrite run_app, <- pats_run.
    destruct (dec_pats T fs (d_pats d) (raw_rest d (raw_map w)) (dec_fix (d_fix d) (raw_map w) vs)) as [xs|]; [|discriminate].
    destruct (d_addl d) as [|i is]; cbn [run].
    - match goal with h : (if ?b then None else _) = _ |- _ => destruct b; [discriminate|exact h] end.
    - rewrite <- addl_run. exact H.
  Qed.
  Lemma dec_raw_of fs d w vs ws us : dec_raw T fs d w ws = Some us -> raw_checks d (raw_map w) = true -> lower_checks d vs = true ->
    forall xs, run fs (raw_ops d w) (dec_fix (d_fix d) (raw_map w) vs) = Some xs -> dec_raw T fs d w vs = Some xs.
  Proof.
    unfold dec_raw, raw_ops. intros H R L xs. rewrite R, L in *. cbn [andb] in *. rewrite run_app, <- pats_run.
    destruct (lower_checks d ws); [|discriminate].
    destruct (dec_pats T fs (d_pats d) (raw_rest d (raw_map w)) (dec_fix (d_fix d) (raw_map w) vs)) as [ys|]; [|discriminate].
    destruct (dec_pats T fs (d_pats d) (raw_rest d (raw_map w)) (dec_fix (d_fix d) (raw_map w) ws)) as [zs|]; [|discriminate].
    destruct (d_addl d) as [|i is]; cbn [run].
    - match goal with h : (if ?b then None else _) = _ |- _ => destruct b; [discriminate|auto] end.
    - rewrite <- addl_run. auto.
  Qed.

  Lemma ops_fst d w i : In i (map fst (raw_ops d w)) -> In i (map snd (d_pats d) ++ d_addl d).
  Proof.
    unfold raw_ops. rewrite map_app, !in_app_iff. intros [I|I]; [left|right].
    - apply in_map_iff in I. destruct I as (o & <- & I). apply in_flat_map in I. destruct I as (m & _ & I). unfold pat_ops in I.
      apply in_map_iff in I. destruct I as (p & <- & I). cbn [fst]. apply filter_In in I. apply in_map. apply I.
    - destruct (d_addl d) as [|i0 is]; [destruct I|]. rewrite map_map in I. cbn [fst] in I. apply in_map_iff in I. destruct I as (m & <- & _). left. reflexivity.
  Qed.
  Lemma ops_raw d w o : In o (raw_ops d w) -> exists m, In m (raw_map w) /\ snd o = (fst m, snd (snd m)).
  Proof.
    unfold raw_ops. rewrite in_app_iff. intros [I|I].
    - apply in_flat_map in I. destruct I as (m & Im & I). unfold pat_ops in I. apply in_map_iff in I. destruct I as (p & <- & _).
      unfold raw_rest in Im. apply filter_In in Im. exists m. split; [apply Im|reflexivity].
    - destruct (d_addl d) as [|i is]; [destruct I|]. apply in_map_iff in I. destruct I as (m & <- & Im). unfold raw_left, raw_rest in Im.
      rewrite !filter_In in Im. exists m. split; [apply Im|reflexivity].
  Qed.
  Lemma nodup_key {A} (ms : list (string * A)) a b : NoDup (map fst ms) -> In a ms -> In b ms -> fst a = fst b -> a = b.
  Proof.
    induction ms as [|c ms IH]; intros ND I J E; [destruct I|]. inversion ND as [|? ? NI ND']; subst.
    destruct I as [->|I]; destruct J as [->|J]; auto.
    - exfalso. apply NI. rewrite E. apply in_map. exact J.
    - exfalso. apply NI. rewrite <- E. apply in_map. exact I.
  Qed.
  Lemma ops_same d w p q : In p (raw_ops d w) -> In q (raw_ops d w) -> fst (snd p) = fst (snd q) -> snd (snd p) = snd (snd q).
  Proof.
    intros I J E. destruct (ops_raw _ _ _ I) as (m & Im & Em). destruct (ops_raw _ _ _ J) as (m' & Im' & Em'). rewrite Em, Em' in *. cbn [fst snd] in *.
    assert (ND : NoDup (map fst (raw_map w))) by (destruct w; cbn [raw_map map]; try constructor; apply dedup_ND).
    rewrite (nodup_key _ m m' ND Im Im' E). reflexivity.
  Qed.

  Definition sty (fs : list field) (vs : list val) : Prop := srel T fs vs vs.

  Lemma ent_twice n fs ps d w same vs ws zs : get n T = Some (EStruct fs ps d) -> wmono T K w -> wstab w -> dmono same -> dstab same ->
    sty fs vs -> dec_ent T same w fs d vs = Some ws -> sty fs ws -> dec_ent T same w fs d ws = Some zs -> zs = ws.
  Proof.
    intros G W St M Sa Tv E1 Tw E2.
    assert (Kn : forall i f, nth_error fs i = Some f -> known (f_ty f) = true) by (intros; eapply (ch_known T K CH); eauto).
    destruct (ch2 n fs ps d G) as (ND & Wh & Mp & Fx & _).
    unfold dec_ent in E1, E2.
    match type of E1 with (if ?b then _ else _) = _ => destruct b; [|discriminate] end.
    destruct (if d_struct d then dec_struct w fs vs else Some vs) as [us|] eqn:F1; [|discriminate].
    destruct (if d_struct d then dec_struct w fs ws else Some ws) as [us'|] eqn:F2; [|discriminate].
    destruct (dec_embed same fs (d_embed d) us) as [es|] eqn:B1; [|discriminate].
    destruct (dec_embed same fs (d_embed d) us') as [es'|] eqn:B2; [|discriminate].
    (* lengths and types of what is between *)
    assert (Su : sty fs us).
    { destruct (d_struct d); [|injection F1 as <-; exact Tv]. pose proof (struct_mono T K fs w Kn W vs vs Tv) as X. rewrite F1 in X. inversion X; assumption. }
    assert (Su' : sty fs us').
    { destruct (d_struct d); [|injection F2 as <-; exact Tw]. pose proof (struct_mono T K fs w Kn W ws ws Tw) as X. rewrite F2 in X. inversion X; assumption. }
    assert (Se : sty fs es) by (pose proof (embed_mono T fs same M Kn (d_embed d) us us Su) as X; rewrite B1 in X; inversion X; assumption).
    assert (Se' : sty fs es') by (pose proof (embed_mono T fs same M Kn (d_embed d) us' us' Su') as X; rewrite B2 in X; inversion X; assumption).
    destruct (dec_alts same fs (d_oneof d) es 0) as [as1 z1] eqn:A1. destruct (dec_alts same fs (d_oneof d) es' 0) as [as2 z2] eqn:A2.
    match type of E1 with (if ?b then _ else _) = _ => destruct b; [|discriminate] end.
    match type of E2 with (if ?b then _ else _) = _ => destruct b; [|discriminate] end.
    destruct (dec_raw_run _ _ _ _ _ E1) as (RC & L1 & R1). destruct (dec_raw_run _ _ _ _ _ E2) as (_ & L2 & R2).
    assert (EQ : dec_fix (d_fix d) (raw_map w) as2 = ws).
    { apply nth_eq_list. intros i. rewrite fix_nth.
      destruct (in_dec Nat.eq_dec i (d_embed d)) as [Ie|Ne].
      - (* embedded *)
        destruct (Wh i (in_or_app _ _ _ (or_introl Ie))) as (U & NM & Bd).
        assert (No : ~ In i (d_oneof d)) by (intros Io; revert ND Ie Io; apply NoDup_disj).
        assert (N1 : nth_error ws i = nth_error es i).
        { rewrite (run_other fs i _ _ _ (fun h => NM (ops_fst _ _ _ h)) R1), fix_nth. change as1 with (fst (as1, z1)). rewrite <- A1, alts_other by exact No.
          destruct (nth_error es i); cbn [option_map]; [|reflexivity]. rewrite (phi_unkeyed fs) by assumption. reflexivity. }
        change as2 with (fst (as2, z2)). rewrite <- A2, alts_other by exact No.
        destruct (embed_at _ _ _ _ _ _ (NoDup_app_l _ _ ND) Ie B1) as (f & v & x & N & V & S1 & X).
        destruct (embed_at _ _ _ _ _ _ (NoDup_app_l _ _ ND) Ie B2) as (f' & v' & x' & N' & V' & S2 & X').
        rewrite N in N'. injection N' as <-. rewrite X'. cbn [option_map]. rewrite (phi_unkeyed fs) by assumption. rewrite N1, X. f_equal.
        assert (v' = x).
        { assert (Z : nth_error us' i = nth_error ws i) by (destruct (d_struct d); [eapply struct_keep; eauto|congruence]). congruence. }
        subst v'. assert (Tx : typed (f_ty f) v) by (destruct Su as (_ & _ & Su); apply (Su i f v v N V V)).
        rewrite (Sa _ _ _ (Kn _ _ N) Tx S1) in S2. congruence.
      - destruct (in_dec Nat.eq_dec i (d_oneof d)) as [Io|No].
        + (* an alternative *)
          destruct (Wh i (in_or_app _ _ _ (or_intror Io))) as (U & NM & Bd).
          destruct (nth_lt_some fs i Bd) as (f & N).
          destruct (srel_get T fs es es i f Se N) as (v & v0 & V & V0 & Rv). rewrite V in V0. injection V0 as <-.
          destruct (srel_get T fs es' es' i f Se' N) as (v' & v0 & V' & V0 & Rv'). rewrite V' in V0. injection V0 as <-.
          assert (Bo : forall i', In i' (d_oneof d) -> i' < length fs) by (intros i' I'; apply (Wh i' (in_or_app _ _ _ (or_intror I')))).
          pose proof (alts_at same fs i f v (d_oneof d) es 0 (proj1 Se) (NoDup_app_r _ _ ND) Io N V Bo) as X1. rewrite A1 in X1. cbn [fst] in X1.
          pose proof (alts_at same fs i f v' (d_oneof d) es' 0 (proj1 Se') (NoDup_app_r _ _ ND) Io N V' Bo) as X2. rewrite A2 in X2. cbn [fst] in X2.
          assert (N1 : nth_error ws i = nth_error as1 i).
          { rewrite (run_other fs i _ _ _ (fun h => NM (ops_fst _ _ _ h)) R1), fix_nth. destruct (nth_error as1 i); cbn [option_map]; [|reflexivity].
            rewrite (phi_unkeyed fs) by assumption. reflexivity. }
          rewrite X2. cbn [option_map]. rewrite (phi_unkeyed fs) by assumption. rewrite N1, X1. f_equal.
          assert (Z : nth_error es' i = nth_error ws i).
          { rewrite (embed_other _ _ _ _ _ _ Ne B2). destruct (d_struct d); [eapply struct_keep; eauto|congruence]. }
          assert (v' = match same (f_ty f) v with Some w => w | None => VNil end) by congruence.
          destruct (same (f_ty f) v) as [x|] eqn:S1.
          * subst v'. rewrite (Sa _ _ _ (Kn _ _ N) (proj1 Rv) S1). reflexivity.
          * rewrite (mono_none same (f_ty f) v v' M (Kn _ _ N) (proj1 Rv) (proj1 Rv') S1). reflexivity.
        + (* other fields *)
          change as2 with (fst (as2, z2)). rewrite <- A2, alts_other, (embed_other _ _ _ _ _ _ Ne B2) by exact No.
          assert (A1' : nth_error as1 i = nth_error us i).
          { change as1 with (fst (as1, z1)). rewrite <- A1, alts_other, (embed_other _ _ _ _ _ _ Ne B1) by exact No. reflexivity. }
          destruct (keyed fs i) eqn:Ky.
          * assert (NM : ~ In i (map fst (raw_ops d w))) by (intros h; apply ops_fst in h; rewrite (Mp i h) in Ky; discriminate).
            pose proof (run_other fs i _ _ _ NM R1) as N1. rewrite fix_nth, A1' in N1.
            assert (same_case : nth_error us' i = nth_error ws i -> option_map (phi (d_fix d) (raw_map w) i) (nth_error us' i) = nth_error ws i).
            { intros Z. rewrite Z, N1. destruct (nth_error us i); cbn [option_map]; [|reflexivity]. rewrite phi_id. reflexivity. }
            destruct (d_struct d); [|apply same_case; congruence].
            destruct w as [| | | | |ms]; cbn [dec_struct] in F1, F2; try discriminate; [apply same_case; congruence|].
            destruct St as (Sm & NDm & Tg). specialize (Tg n fs ps d G).
            destruct (in_dec (fun a b => option_nat_dec a b) (Some i) (map (fun m => find_field fs (fst m)) ms)) as [It|Nt].
            -- apply in_map_iff in It. destruct It as (m & Fm & Im).
               destruct (fields_at fs i ms vs us m Tg Im Fm F1) as (f & v & x & N & V & S1 & X).
               destruct (fields_at fs i ms ws us' m Tg Im Fm F2) as (f' & v' & x' & N' & V' & S2 & X').
               rewrite N in N'. injection N' as <-. rewrite X in N1. cbn [option_map] in N1. rewrite N1 in V'. injection V' as <-.
               rewrite X', N1. cbn [option_map]. f_equal.
               assert (Tx : typed (f_ty f) v) by (destruct Tv as (_ & _ & Tv); apply (Tv i f v v N V V)).
               destruct (Sm m Im) as [Sd Nd].
               destruct x; cbn [phi] in S2; try (rewrite (Sd _ _ _ (Kn _ _ N) Tx S1) in S2; injection S2 as <-; reflexivity).
               match type of S2 with context [existsb ?g ?l] => destruct (existsb g l) eqn:Ex end.
               ++ pose proof Ex as Ex'. apply existsb_exists in Ex. destruct Ex as ([i1 k1] & I1 & Ex). rewrite andb_true_iff in Ex. cbn [fst snd] in Ex. destruct Ex as [Ex _]. apply Nat.eqb_eq in Ex. subst i1.
                  pose proof (ch_fix T K CH n fs ps d i k1 f G I1 N) as Tf. rewrite Tf in *. rewrite (Nd _ _ _ S1) in S2. injection S2 as <-. reflexivity.
               ++ rewrite (Sd _ _ _ (Kn _ _ N) Tx S1) in S2. injection S2 as <-. reflexivity.
            -- apply same_case. eapply fields_other; [|exact F2]. intros m Im Fm. apply Nt. apply in_map_iff. exists m. split; [exact Fm|exact Im].
          * assert (Z : nth_error us' i = nth_error ws i) by (destruct (d_struct d); [eapply struct_keep; eauto|congruence]).
            rewrite Z. destruct (nth_error ws i); cbn [option_map]; [|reflexivity]. rewrite (phi_unkeyed fs) by assumption. reflexivity. }
    rewrite EQ in R2. rewrite run_again in R2; [congruence|]. eapply run_stored; [|exact R1]. intros; eapply ops_same; eauto.
  Qed.

  Lemma elems_twice t : known t = true -> forall ds, (forall d, In d ds -> dstab d) -> forall os vs, (forall o, In o os -> typed t o) ->
    dec_elems T t ds os = Some vs -> dec_elems T t ds vs = Some vs.
  Proof.
    intros Kt. induction ds as [|d ds IH]; intros Sd os vs To E; cbn [dec_elems] in E; [injection E as <-; reflexivity|].
    destruct (d t (hd (zero T LVL t) os)) as [v|] eqn:Ev; [|discriminate]. destruct (dec_elems T t ds (tl os)) as [l|] eqn:El; [|discriminate].
    injection E as <-. cbn [dec_elems hd tl].
    assert (Th : typed t (hd (zero T LVL t) os)) by (destruct os; [apply (zero_is_typed T K CH); exact Kt|apply To; left; reflexivity]).
    rewrite (Sd d (or_introl eq_refl) t _ _ Kt Th Ev).
    rewrite (IH (fun d h => Sd d (or_intror h)) (tl os) l); [reflexivity| |exact El]. intros o I. apply To. destruct os; [destruct I|right; exact I].
  Qed.

  Lemma entries_get t k : forall ms m m', ~ In k (map fst ms) -> dec_entries T t ms m = Some m' -> get k m' = get k m.
  Proof.
    induction ms as [|[k0 [x d]] ms IH]; intros m m' NI E; cbn [dec_entries map fst] in *; [congruence|].
    destruct (d t (zero T LVL t)) as [v|]; [|discriminate]. rewrite (IH _ _ (fun h => NI (or_intror h)) E).
    apply get_put_other. intros ->. apply NI. left. reflexivity.
  Qed.
  Lemma entries_at t k x d : forall ms m m', NoDup (map fst ms) -> In (k, (x, d)) ms -> dec_entries T t ms m = Some m' ->
    exists v, d t (zero T LVL t) = Some v /\ get k m' = Some v.
  Proof.
    induction ms as [|[k0 [x0 d0]] ms IH]; intros m m' ND I E; [destruct I|]. inversion ND as [|? ? NI ND']; subst. cbn [dec_entries] in E.
    destruct (d0 t (zero T LVL t)) as [v|] eqn:Ev; [|discriminate]. destruct I as [I|I]; [|eauto].
    injection I as -> -> ->. exists v. split; [exact Ev|]. rewrite (entries_get t k ms _ _ NI E). apply get_put_same.
  Qed.
  Lemma entries_id t m' : forall ms, (forall k x d, In (k, (x, d)) ms -> exists v, d t (zero T LVL t) = Some v /\ get k m' = Some v) ->
    dec_entries T t ms m' = Some m'.
  Proof.
    induction ms as [|[k [x d]] ms IH]; intros H; cbn [dec_entries]; [reflexivity|].
    destruct (H k x d (or_introl eq_refl)) as (v & -> & G). rewrite (put_id _ _ _ G). apply IH. intros; eapply H; right; eassumption.
  Qed.

  Lemma sty_of n fs ps d vs : get n T = Some (EStruct fs ps d) -> typed (TNamed n) (VStruct vs) -> sty fs vs.
  Proof. intros G H. eapply srel_of; [exact G|]. apply rel_same. exact H. Qed.

  Lemma step_twice j w same : wmono T K w -> wstab w -> dmono same -> dstab same -> dstab (dec_step T rnd j w same).
  Proof.
    intros W St M Sa t a v Kt Ta E. pose proof (step_mono T rnd K CH j w same W M) as SM.
    pose proof (mono_any _ t a a v SM Kt Ta Ta E) as (Tv & _). pose proof (mono_any _ t a v v SM Kt Ta Tv E) as (_ & v2 & E2 & _).
    destruct t as [| | | | | |t|t|t|s]; cbn [dec_step] in *.
    - destruct w; congruence.
    - destruct w; congruence.
    - destruct w; congruence.
    - destruct w; congruence.
    - exact E.
    - discriminate.
    - assert (X : forall x, (match same t (match a with VPtr v => v | _ => zero T LVL t end) with Some v => Some (VPtr v) | None => None end) = Some x ->
                            match same t (match x with VPtr v => v | _ => zero T LVL t end) with Some v => Some (VPtr v) | None => None end = Some x).
      { intros x Ex. destruct (same t (match a with VPtr v => v | _ => zero T LVL t end)) as [y|] eqn:Ey; [|discriminate]. injection Ex as <-.
        rewrite (Sa t _ y Kt) with (2 := Ey); [reflexivity|]. inversion Ta; subst; [apply (zero_is_typed T K CH); exact Kt|assumption]. }
      destruct w; auto.
    - destruct w; try congruence. destruct (dec_elems T t l (match a with VArr l => l | _ => [] end)) as [l1|] eqn:El; [|discriminate]. injection E as <-.
      rewrite (elems_twice t Kt l St _ l1) with (2 := El); [reflexivity|]. inversion Ta; subst; [intros ? []|assumption].
    - destruct w; try congruence. destruct (dec_entries T t ms (match a with VMap m => m | _ => [] end)) as [m1|] eqn:Em; [|discriminate]. injection E as <-.
      rewrite entries_id; [reflexivity|]. intros k x d I. eapply entries_at; [apply St|exact I|exact Em].
    - destruct (get s T) as [[vals|fs ps d]|] eqn:G; [exact E| |discriminate].
      destruct a as [| | | | | | | |vs]; try discriminate. destruct (dec_ent T same w fs d vs) as [ws|] eqn:E1; [|discriminate]. injection E as <-.
      destruct (dec_ent T same w fs d ws) as [zs|] eqn:E3; [|discriminate]. f_equal. f_equal.
      eapply ent_twice; [exact G|exact W|exact St|exact M|exact Sa| |exact E1| |exact E3]; eapply sty_of; eauto.
  Qed.

  Lemma dec_nil j : dnil (D j).
  Proof.
    intros t a b. assert (X : forall (w : jview) s, w <> SNull -> dec_step T rnd j w s (TPtr t) a = Some VNil -> dec_step T rnd j w s (TPtr t) b = Some VNil).
    { intros w s NE. cbn [dec_step]. destruct w; try congruence; match goal with |- context [match ?o with Some _ => _ | None => _ end] => destruct o; discriminate end. }
    destruct j; cbn [dec levels LVL]; try (apply X; discriminate). reflexivity.
  Qed.

  Lemma dec_twice : forall j, no_null K j -> distinct j -> no_variants (field_keys T) j -> dstab (D j).
  Proof.
    assert (LV : forall j w, wmono T K w -> wstab w -> forall n, dmono (levels (dec_step T rnd j w) n) /\ dstab (levels (dec_step T rnd j w) n)).
    { intros j w W St. induction n as [|n [IH1 IH2]]; cbn [levels].
      - split; [intros t a b _ _; constructor|intros t a v _ _ E; discriminate].
      - split; [apply (step_mono T rnd K CH); assumption|apply step_twice; assumption]. }
    induction j as [|b|q|s|l IH|m IH] using json_ind'; intros NN Di NV; cbn [dec]; apply LV; try exact I; cbn [wmono wstab].
    - intros d I. apply in_map_iff in I. destruct I as (x & <- & I). apply (dec_mono T rnd K CH). inversion NN; auto.
    - intros d I. apply in_map_iff in I. destruct I as (x & <- & I). rewrite Forall_forall in IH. inversion NN; subst. inversion Di; subst. inversion NV; subst. auto.
    - inversion NN as [| | | | |? N1 N2]; subst. split.
      + intros a I. apply in_map_iff in I. destruct I as ([k x] & <- & I). cbn [fst snd]. apply (dec_mono T rnd K CH). eauto.
      + intros a q I Iq Fo. apply in_map_iff in I. destruct I as ([k x] & <- & I). cbn [fst snd] in *. apply dec_indep. intros ->. exact (N1 q k Iq Fo I).
    - inversion NN as [| | | | |? N1 N2]; subst. inversion Di as [| | | | |? D1 D2]; subst. inversion NV as [| | | | |? V1 V2]; subst. rewrite Forall_forall in IH. split; [|split].
      + intros a I. apply in_map_iff in I. destruct I as ([k x] & <- & I). cbn [fst snd]. split; [|apply dec_nil]. apply (IH (k, x) I); eauto.
      + rewrite map_map. exact D1.
      + intros n fs ps d G pre a post b i E I F F'.
        destruct (find_field_fold _ _ _ F) as (f & q & N & Kf & Fo). destruct (find_field_fold _ _ _ F') as (f' & q' & N' & Kf' & Fo').
        rewrite N in N'. injection N' as <-. rewrite Kf in Kf'. injection Kf' as <-.
        assert (MK : map fst m = map fst (pre ++ a :: post)) by (rewrite <- E, map_map; reflexivity).
        assert (Q : fst a = fst b).
        { apply (V1 q); [eapply field_keys_In; [exact G|eapply nth_error_In; exact N|exact Kf]| | |exact Fo|exact Fo']; rewrite MK; apply in_map; apply in_or_app; right; [left; reflexivity|right; exact I]. }
        rewrite MK, map_app in D1. cbn [map] in D1. apply NoDup_remove_2 in D1. apply D1. apply in_or_app. right. rewrite Q. apply in_map. exact I.
  Qed.

  Theorem twice t j old v : known t = true -> no_null K j -> distinct j -> no_variants (field_keys T) j -> typed t old ->
    unmarshal_over T rnd t j old = Some v -> unmarshal_over T rnd t j v = Some v.
  Proof. intros Kt NN Di NV To E. exact (dec_twice j NN Di NV t old v Kt To E). Qed.

  (* ---------- what is kept ---------- *)

  Lemma run_entry fs i k : forall ops vs us, (forall o, In o ops -> fst (snd o) <> k) -> run fs ops vs = Some us -> forall old, nth_error vs i = Some old ->
    exists new, nth_error us i = Some new /\ get k (entries_of new) = get k (entries_of old).
  Proof.
    induction ops as [|[i0 [k0 d]] ops IH]; intros vs us NI R old V; cbn [run] in R; [injection R as <-; eauto|].
    destruct (store T fs i0 k0 d vs) as [ws|] eqn:E; [|discriminate].
    assert (NI' : forall o, In o ops -> fst (snd o) <> k) by (intros; apply NI; right; assumption).
    destruct (store_inv _ _ _ _ _ _ E) as (f & t & v & old0 & N & Tf & Ev & V0 & ->). destruct (Nat.eq_dec i i0) as [->|NE].
    - rewrite V in V0. injection V0 as <-. assert (X := nth_set_same (VMap (put k0 v (match old with VMap m => m | _ => [] end))) i0 vs (nth_some_lt _ _ _ V)).
      destruct (IH _ _ NI' R _ X) as (new & Nw & Gw). exists new. split; [exact Nw|]. rewrite Gw. cbn [entries_of].
      rewrite get_put_other; [reflexivity|]. intros Q. exact (NI _ (or_introl eq_refl) (eq_sym Q)).
    - apply (IH _ _ NI' R). rewrite nth_set_other by exact NE. exact V.
  Qed.

  Lemma ent_kept n fs ps d same w vs ws : get n T = Some (EStruct fs ps d) -> dec_ent T same w fs d vs = Some ws ->
    let ms := match w with SObj ms => map fst ms | _ => [] end in
    (forall i f q, nth_error fs i = Some f -> f_key f = Some q -> (forall k, In k ms -> fold_key k <> fold_key q) -> nth_error ws i = nth_error vs i) /\
    (forall i f t k old, nth_error fs i = Some f -> f_key f = None -> f_ty f = TMap t -> ~ In k ms -> nth_error vs i = Some old ->
      exists new, nth_error ws i = Some new /\ get k (entries_of new) = get k (entries_of old)).
  Proof.
    intros G E ms. destruct (ch2 n fs ps d G) as (ND & Wh & Mp & Fx & Fk & Nm & _). unfold dec_ent in E.
    match type of E with (if ?b then _ else _) = _ => destruct b; [|discriminate] end.
    destruct (if d_struct d then dec_struct w fs vs else Some vs) as [us|] eqn:F1; [|discriminate].
    destruct (dec_embed same fs (d_embed d) us) as [es|] eqn:B1; [|discriminate].
    destruct (dec_alts same fs (d_oneof d) es 0) as [as1 z1] eqn:A1.
    match type of E with (if ?b then _ else _) = _ => destruct b; [|discriminate] end.
    destruct (dec_raw_run _ _ _ _ _ E) as (RC & L1 & R1).
    assert (RK : forall k, In k (map fst (raw_map w)) -> In k ms).
    { intros k I. unfold ms. destruct w; cbn [raw_map map] in I; try destruct I. apply dedup_keys. exact I. }
    assert (A2 : forall i, ~ In i (d_embed d ++ d_oneof d) -> nth_error as1 i = nth_error us i).
    { intros i NI. change as1 with (fst (as1, z1)). rewrite <- A1, alts_other, (embed_other _ _ _ _ _ _ (fun h => NI (in_or_app _ _ _ (or_introl h))) B1); [reflexivity|].
      intros h. apply NI. apply in_or_app. right. exact h. }
    split.
    - intros i f q N Kf Ab. assert (Ky : keyed fs i = true) by (unfold keyed; rewrite N, Kf; reflexivity).
      assert (NM : ~ In i (map fst (raw_ops d w))) by (intros h; apply ops_fst in h; rewrite (Mp i h) in Ky; discriminate).
      assert (NW : ~ In i (d_embed d ++ d_oneof d)) by (intros h; destruct (Wh i h) as (X & _); congruence).
      rewrite (run_other fs i _ _ _ NM R1), fix_nth, (A2 i NW).
      assert (U : nth_error us i = nth_error vs i).
      { destruct (d_struct d); [|congruence]. destruct w as [| | | | |l]; cbn [dec_struct] in F1; try discriminate; [congruence|].
        eapply fields_other; [|exact F1]. intros m Im Fm. destruct (find_field_fold _ _ _ Fm) as (f' & q' & N' & Kf' & Fo).
        rewrite N in N'. injection N' as <-. rewrite Kf in Kf'. injection Kf' as <-. exact (Ab (fst m) (in_map fst _ _ Im) Fo). }
      rewrite U. destruct (nth_error vs i) as [v|]; cbn [option_map]; [|reflexivity]. f_equal.
      destruct v; try reflexivity. cbn [phi]. destruct (existsb _ (d_fix d)) eqn:Ex; [|reflexivity].
      apply existsb_exists in Ex. destruct Ex as ([i1 k1] & I1 & Ex). rewrite andb_true_iff in Ex. cbn [fst snd] in Ex. destruct Ex as [Ex Hk].
      apply Nat.eqb_eq in Ex. subst i1. pose proof (Fk i k1 I1) as Ff. destruct (find_field_fold _ _ _ Ff) as (f' & q' & N' & Kf' & Fo).
      rewrite N in N'. injection N' as <-. rewrite Kf in Kf'. injection Kf' as <-. exfalso. apply (Ab k1); [|exact Fo].
      apply RK. unfold raw_has in Hk. apply CodecProofs.in_list_In in Hk. exact Hk.
    - intros i f t k old N Kf Tf NI V. assert (U : keyed fs i = false) by (unfold keyed; rewrite N, Kf; reflexivity).
      assert (NW : ~ In i (d_embed d ++ d_oneof d)) by (intros h; exact (proj1 (Nm i f t h N) Tf)).
      assert (V1 : nth_error (dec_fix (d_fix d) (raw_map w) as1) i = Some old).
      { rewrite fix_nth, (A2 i NW). assert (Z : nth_error us i = nth_error vs i) by (destruct (d_struct d); [eapply struct_keep; eauto|congruence]).
        rewrite Z, V. cbn [option_map]. rewrite (phi_unkeyed fs) by assumption. reflexivity. }
      eapply run_entry; [|exact R1|exact V1]. intros o Io Q. destruct (ops_raw _ _ _ Io) as (m & Im & Em). rewrite Em in Q. cbn [fst] in Q.
      apply NI. apply RK. rewrite <- Q. apply in_map. exact Im.
  Qed.

  Theorem kept n fs ps d j vs v : get n T = Some (EStruct fs ps d) -> unmarshal_over T rnd (TNamed n) j (VStruct vs) = Some v ->
    (forall i f q, nth_error fs i = Some f -> f_key f = Some q -> (forall k x, In (k, x) (members_of j) -> fold_key k <> fold_key q) ->
      field_at v i = nth_error vs i) /\
    (forall i f t k old, nth_error fs i = Some f -> f_key f = None -> f_ty f = TMap t -> ~ In k (map fst (members_of j)) -> nth_error vs i = Some old ->
      exists new, field_at v i = Some new /\ get k (entries_of new) = get k (entries_of old)).
  Proof.
    intros G E. unfold unmarshal_over in E.
    assert (X : exists same ws, v = VStruct ws /\ dec_ent T same (view (D) j) fs d vs = Some ws).
    { destruct j; cbn [dec levels LVL dec_step] in E; rewrite G in E;
        match type of E with match ?o with Some _ => _ | None => _ end = _ => destruct o as [ws|] eqn:Ew; [|discriminate] end;
        injection E as <-; eexists; exists ws; (split; [reflexivity|exact Ew]). }
    destruct X as (same & ws & -> & Ew). destruct (ent_kept n fs ps d same _ vs ws G Ew) as [A B]. cbn [field_at].
    assert (MS : match view D j with SObj ms => map fst ms | _ => [] end = map fst (members_of j)).
    { destruct j; cbn [view members_of]; try reflexivity. rewrite map_map. reflexivity. }
    rewrite MS in A, B. split.
    - intros i f q N Kf H. apply (A i f q N Kf). intros k I. apply in_map_iff in I. destruct I as ([k0 x] & <- & I). cbn [fst]. eauto.
    - exact B.
  Qed.

  (* ---------- what is merged ---------- *)

  Lemma apart_from_ok q : forall fs, apart_from q fs = true -> forall i f q', nth_error fs i = Some f -> f_key f = Some q' -> fold_key q <> fold_key q'.
  Proof.
    induction fs as [|f0 fs IH]; intros H [|i] f q' N Kf; cbn in N; try discriminate; cbn [apart_from] in H; rewrite andb_true_iff in H; destruct H as [H1 H2].
    - injection N as ->. rewrite Kf in H1. apply negb_true_iff in H1. apply String.eqb_neq in H1. exact H1.
    - eauto.
  Qed.
  Lemma keys_apart_ok : forall fs, keys_apart fs = true -> forall i i' f f' q q', nth_error fs i = Some f -> nth_error fs i' = Some f' ->
    f_key f = Some q -> f_key f' = Some q' -> fold_key q = fold_key q' -> i = i'.
  Proof.
    induction fs as [|f0 fs IH]; intros H [|i] [|i'] f f' q q' N N' Kf Kf' Fo; cbn in N, N'; try discriminate; cbn [keys_apart] in H; rewrite andb_true_iff in H; destruct H as [H1 H2].
    - reflexivity.
    - injection N as ->. rewrite Kf in H1. exfalso. exact (apart_from_ok q fs H1 i' f' q' N' Kf' Fo).
    - injection N' as ->. rewrite Kf' in H1. exfalso. exact (apart_from_ok q' fs H1 i f q N Kf (eq_sym Fo)).
    - f_equal. exact (IH H2 i i' f f' q q' N N' Kf Kf' Fo).
  Qed.
  Lemma find_apart fs i f q k : keys_apart fs = true -> nth_error fs i = Some f -> f_key f = Some q -> fold_key k = fold_key q -> find_field fs k = Some i.
  Proof.
    intros KA N Kf Fo. destruct (find_field fs k) as [i'|] eqn:F.
    - destruct (find_field_fold _ _ _ F) as (f' & q' & N' & Kf' & Fo'). f_equal. eapply (keys_apart_ok fs KA i' i); eauto. congruence.
    - exfalso. exact (find_field_none fs k F i f q N Kf Fo).
  Qed.

  Lemma fields_app fs : forall a b vs, dec_fields fs (a ++ b) vs = match dec_fields fs a vs with Some us => dec_fields fs b us | None => None end.
  Proof.
    induction a as [|[k [x d]] a IH]; intros b vs; cbn [dec_fields app]; [reflexivity|]. destruct (find_field fs k); [|apply IH].
    destruct (nth_error fs n); [|reflexivity]. destruct (nth_error vs n); [|reflexivity]. destruct (d (f_ty f) v); [apply IH|reflexivity].
  Qed.
  Lemma fields_once fs i : forall ms vs us m, In m ms -> NoDup (map fst ms) ->
    (forall m', In m' ms -> find_field fs (fst m') = Some i -> fst m' = fst m) -> find_field fs (fst m) = Some i -> dec_fields fs ms vs = Some us ->
    exists f v w, nth_error fs i = Some f /\ nth_error vs i = Some v /\ snd (snd m) (f_ty f) v = Some w /\ nth_error us i = Some w.
  Proof.
    intros ms vs us m I ND Un F E. apply in_split in I. destruct I as (pre & post & ->).
    rewrite map_app in ND. cbn [map] in ND. apply NoDup_remove_2 in ND.
    assert (P1 : forall m', In m' pre -> find_field fs (fst m') <> Some i).
    { intros m' I' F'. apply ND. apply in_or_app. left. rewrite <- (Un m' (in_or_app pre (m :: post) m' (or_introl I')) F'). apply in_map. exact I'. }
    assert (P2 : forall m', In m' post -> find_field fs (fst m') <> Some i).
    { intros m' I' F'. apply ND. apply in_or_app. right. rewrite <- (Un m' (in_or_app pre (m :: post) m' (or_intror (or_intror I'))) F'). apply in_map. exact I'. }
    rewrite fields_app in E. destruct (dec_fields fs pre vs) as [xs|] eqn:E1; [|discriminate].
    pose proof (fields_other fs i pre vs xs P1 E1) as O1. destruct m as [k [x d]]. cbn [dec_fields fst snd] in *. rewrite F in E.
    destruct (nth_error fs i) as [f|]; [|discriminate]. destruct (nth_error xs i) as [v|] eqn:V; [|discriminate].
    destruct (d (f_ty f) v) as [w|] eqn:W; [|discriminate]. exists f, v, w. split; [reflexivity|]. split; [congruence|]. split; [exact W|].
    rewrite (fields_other fs i post _ us P2 E). apply nth_set_same. eapply nth_some_lt; eauto.
  Qed.

  Theorem merged n fs ps d M vs v i f q k x : get n T = Some (EStruct fs ps d) -> d_struct d = true -> unmarshal_over T rnd (TNamed n) (JObj M) (VStruct vs) = Some v ->
    nth_error fs i = Some f -> f_key f = Some q -> NoDup (map fst M) -> In (k, x) M -> fold_key k = fold_key q ->
    (forall k' x', In (k', x') M -> fold_key k' = fold_key q -> k' = k) ->
    exists old new, nth_error vs i = Some old /\ unmarshal_over T rnd (f_ty f) x old = Some new /\
      (field_at v i = Some new \/ new = VNil /\ f_ty f = TPtr TAny /\ field_at v i = Some (VPtr (VAny JNull))).
  Proof.
    intros G Ds E N Kf ND I Fo Un. destruct (ch2 n fs ps d G) as (NDw & Wh & Mp & Fx & Fk & Nm & KA & _).
    assert (Ky : keyed fs i = true) by (unfold keyed; rewrite N, Kf; reflexivity).
    unfold unmarshal_over in E. cbn [dec levels LVL dec_step] in E. rewrite G in E.
    match type of E with match ?o with Some _ => _ | None => _ end = _ => destruct o as [ws|] eqn:Ew; [|discriminate] end. injection E as <-. cbn [field_at].
    unfold dec_ent in Ew. rewrite Ds in Ew.
    match type of Ew with (if ?b then _ else _) = _ => destruct b; [|discriminate] end. cbn [dec_struct] in Ew.
    match type of Ew with context [dec_fields fs ?m vs] => set (ms := m) in * end.
    destruct (dec_fields fs ms vs) as [us|] eqn:F1; [|discriminate].
    match type of Ew with context [dec_embed ?s fs _ us] => set (same := s) in * end.
    destruct (dec_embed same fs (d_embed d) us) as [es|] eqn:B1; [|discriminate].
    destruct (dec_alts same fs (d_oneof d) es 0) as [as1 z1] eqn:A1.
    match type of Ew with (if ?b then _ else _) = _ => destruct b; [|discriminate] end.
    destruct (dec_raw_run _ _ _ _ _ Ew) as (_ & _ & R1).
    assert (FF : find_field fs k = Some i) by (eapply find_apart; eauto).
    destruct (fields_once fs i ms vs us (k, (x, D x))) as (f' & old & new & N' & V & S1 & U); [| | |exact FF|exact F1|].
    - unfold ms. apply in_map_iff. exists (k, x). split; [reflexivity|exact I].
    - unfold ms. rewrite map_map. exact ND.
    - intros m' I' F'. unfold ms in I'. apply in_map_iff in I'. destruct I' as ([k' x'] & <- & I'). cbn [fst] in *.
      destruct (find_field_fold _ _ _ F') as (f' & q' & N' & Kf' & Fo'). rewrite N in N'. injection N' as <-. rewrite Kf in Kf'. injection Kf' as <-. eauto.
    - rewrite N in N'. injection N' as <-. cbn [snd] in S1. exists old, new. split; [exact V|]. split; [exact S1|].
      assert (NM : ~ In i (map fst (raw_ops d (SObj ms)))) by (intros h; apply ops_fst in h; rewrite (Mp i h) in Ky; discriminate).
      assert (NW : ~ In i (d_embed d ++ d_oneof d)) by (intros h; destruct (Wh i h) as (X & _); congruence).
      rewrite (run_other fs i _ _ _ NM R1), fix_nth. change as1 with (fst (as1, z1)).
      rewrite <- A1, alts_other, (embed_other _ _ _ _ _ _ (fun h => NW (in_or_app _ _ _ (or_introl h))) B1), U by (intros h; apply NW; apply in_or_app; right; exact h).
      cbn [option_map]. destruct new; try (left; reflexivity). cbn [phi]. destruct (existsb _ (d_fix d)) eqn:Ex; [|left; reflexivity]. right.
      apply existsb_exists in Ex. destruct Ex as ([i1 k1] & I1 & Ex). rewrite andb_true_iff in Ex. cbn [fst snd] in Ex. destruct Ex as [Ex _]. apply Nat.eqb_eq in Ex. subst i1.
      split; [reflexivity|]. split; [|reflexivity]. eapply (ch_fix T K CH); eauto.
  Qed.

  Lemma view_mono j : no_null K j -> wmono T K (view D j).
  Proof.
    destruct j as [|b|q|s|l|m]; intros NN; cbn [view wmono]; try exact I.
    - intros d I. apply in_map_iff in I. destruct I as (x & <- & I). apply (dec_mono T rnd K CH). inversion NN; auto.
    - inversion NN as [| | | | |? N1 N2]; subst. split.
      + intros a I. apply in_map_iff in I. destruct I as ([k x] & <- & I). cbn [fst snd]. apply (dec_mono T rnd K CH). eauto.
      + intros a q I Iq Fo. apply in_map_iff in I. destruct I as ([k x] & <- & I). cbn [fst snd] in *. apply dec_indep. intros ->. exact (N1 q k Iq Fo I).
  Qed.
  Lemma at_succ j l : at_ T rnd j (S l) = dec_step T rnd j (view D j) (at_ T rnd j l).
  Proof. reflexivity. Qed.
  Lemma at_S j : at_ T rnd j LVL = dec_step T rnd j (view D j) (at_ T rnd j (pred LVL)).
  Proof. exact (at_succ j (pred LVL)). Qed.

  (* Embedded values and alternatives are read from the whole document. *)
  Theorem whole n fs ps d j vs v i f : get n T = Some (EStruct fs ps d) -> typed (TNamed n) (VStruct vs) -> no_null K j ->
    unmarshal_over T rnd (TNamed n) j (VStruct vs) = Some v -> nth_error fs i = Some f ->
    (In i (d_oneof d) -> exists old, nth_error vs i = Some old /\
       field_at v i = Some (match unmarshal_over T rnd (f_ty f) j old with Some w => w | None => VNil end)) /\
    (In i (d_embed d) -> exists old w, nth_error vs i = Some old /\ unmarshal_over T rnd (f_ty f) j old = Some w /\ field_at v i = Some w).
  Proof.
    intros G Ty NN E N. pose proof (view_mono j NN) as W. destruct (ch2 n fs ps d G) as (NDw & Wh & Mp & Fx & Fk & Nm & KA & LV & LV2).
    assert (Kn : forall i f, nth_error fs i = Some f -> known (f_ty f) = true) by (intros; eapply (ch_known T K CH); eauto).
    pose proof (sty_of n fs ps d vs G Ty) as Tv.
    assert (X : exists ws, v = VStruct ws /\ dec_ent T (at_ T rnd j (pred LVL)) (view D j) fs d vs = Some ws).
    { unfold unmarshal_over in E. rewrite (dec_at T rnd) in E. rewrite at_S in E. cbn [dec_step] in E. rewrite G in E.
      match type of E with match ?o with Some _ => _ | None => _ end = _ => destruct o as [ws|] eqn:Ew; [|discriminate] end.
      injection E as <-. exists ws. split; reflexivity. }
    destruct X as (ws & -> & Ew). cbn [field_at]. unfold dec_ent in Ew.
    assert (M : dmono (at_ T rnd j (pred LVL))).
    { unfold at_. apply (levels_mono T). intros s Ms. apply (step_mono T rnd K CH); assumption. }
    set (same := at_ T rnd j (pred LVL)) in *. set (w := view D j) in *.
    match type of Ew with (if ?b then _ else _) = _ => destruct b; [|discriminate] end.
    destruct (if d_struct d then dec_struct w fs vs else Some vs) as [us|] eqn:F1; [|discriminate].
    destruct (dec_embed same fs (d_embed d) us) as [es|] eqn:B1; [|discriminate].
    assert (Su : sty fs us).
    { destruct (d_struct d); [|injection F1 as <-; exact Tv]. pose proof (struct_mono T K fs w Kn W vs vs Tv) as X. rewrite F1 in X. inversion X; assumption. }
    assert (Se : sty fs es) by (pose proof (embed_mono T fs same M Kn (d_embed d) us us Su) as X; rewrite B1 in X; inversion X; assumption).
    destruct (dec_alts same fs (d_oneof d) es 0) as [as1 z1] eqn:A1.
    match type of Ew with (if ?b then _ else _) = _ => destruct b; [|discriminate] end.
    destruct (dec_raw_run _ _ _ _ _ Ew) as (_ & _ & R1).
    assert (Kp : In i (d_embed d ++ d_oneof d) -> nth_error ws i = nth_error as1 i /\ nth_error us i = nth_error vs i /\
                 forall old, same (f_ty f) old = unmarshal_over T rnd (f_ty f) j old).
    { intros I. destruct (Wh i I) as (U & NM & Bd). split; [|split].
      - rewrite (run_other fs i _ _ _ (fun h => NM (ops_fst _ _ _ h)) R1), fix_nth. destruct (nth_error as1 i); cbn [option_map]; [|reflexivity].
        rewrite (phi_unkeyed fs) by assumption. reflexivity.
      - destruct (d_struct d); [eapply struct_keep; eauto|congruence].
      - intros old. destruct (Nm i f TStr I N) as (_ & Q1 & Q2). unfold unmarshal_over. rewrite (dec_at T rnd). unfold same. apply CodecStrict.level_irr; assumption. }
    split.
    - intros Io. destruct (Kp (in_or_app _ _ _ (or_intror Io))) as (K1 & K2 & K3).
      assert (Ne : ~ In i (d_embed d)) by (intros Ie; exact (NoDup_disj i _ _ NDw Ie Io)).
      destruct (srel_get T fs vs vs i f Tv N) as (old & old' & V & _ & _). exists old. split; [exact V|].
      assert (Bo : forall i', In i' (d_oneof d) -> i' < length fs) by (intros i' I'; apply (Wh i' (in_or_app _ _ _ (or_intror I')))).
      assert (V2 : nth_error es i = Some old) by (rewrite (embed_other _ _ _ _ _ _ Ne B1); congruence).
      pose proof (alts_at same fs i f old (d_oneof d) es 0 (proj1 Se) (NoDup_app_r _ _ NDw) Io N V2 Bo) as X1. rewrite A1 in X1. cbn [fst] in X1.
      rewrite K1, X1, K3. reflexivity.
    - intros Ie. destruct (Kp (in_or_app _ _ _ (or_introl Ie))) as (K1 & K2 & K3).
      assert (No : ~ In i (d_oneof d)) by (intros Io; exact (NoDup_disj i _ _ NDw Ie Io)).
      destruct (embed_at _ _ _ _ _ _ (NoDup_app_l _ _ NDw) Ie B1) as (f' & old & x & N' & V & S1 & X). rewrite N in N'. injection N' as <-.
      exists old, x. split; [congruence|]. split; [rewrite <- K3; exact S1|]. rewrite K1. change as1 with (fst (as1, z1)). rewrite <- A1, alts_other by exact No. exact X.
  Qed.

  Theorem pointer n e j old : get n T = Some e -> (forall vals, e <> EEnum vals) ->
    unmarshal_over T rnd (TPtr (TNamed n)) j old =
    match j with
    | JNull => Some VNil
    | _ => match unmarshal_over T rnd (TNamed n) j (match old with VPtr u => u | _ => zero T LVL (TNamed n) end) with Some w => Some (VPtr w) | None => None end
    end.
  Proof.
    intros G NE. destruct e as [vals|fs ps d]; [exfalso; exact (NE vals eq_refl)|]. destruct (ch2 n fs ps d G) as (_ & _ & _ & _ & _ & _ & _ & LV & LV2).
    unfold unmarshal_over. rewrite !(dec_at T rnd). assert (L : LVL = S (pred LVL)) by reflexivity. rewrite L at 1. rewrite CodecMembers.at_ptr.
    rewrite (CodecStrict.level_irr T rnd j (pred LVL) (TNamed n) LVL _ LV LV2). reflexivity.
  Qed.

  Theorem elements t l old v : unmarshal_over T rnd (TArr t) (JArr l) old = Some v ->
    exists vs, v = VArr vs /\ length vs = length l /\
      forall i x u, nth_error l i = Some x -> nth_error vs i = Some u ->
        unmarshal_over T rnd t x (match old with VArr os => nth i os (zero T LVL t) | _ => zero T LVL t end) = Some u.
  Proof.
    intros E. unfold unmarshal_over in *. cbn [dec levels LVL dec_step] in E.
    match type of E with match ?o with Some _ => _ | None => _ end = _ => destruct o as [vs|] eqn:Ev; [|discriminate] end. injection E as <-. exists vs. split; [reflexivity|].
    assert (X : forall l os vs, dec_elems T t (map D l) os = Some vs -> length vs = length l /\ forall i x u, nth_error l i = Some x -> nth_error vs i = Some u -> D x t (nth i os (zero T LVL t)) = Some u).
    { clear. induction l as [|x l IH]; intros os vs E; cbn [map dec_elems] in E.
      - injection E as <-. split; [reflexivity|]. intros [|i] x u N; discriminate N.
      - destruct (D x t (hd (zero T LVL t) os)) as [v|] eqn:Ev; [|discriminate]. destruct (dec_elems T t (map D l) (tl os)) as [us|] eqn:Eu; [|discriminate].
        injection E as <-. destruct (IH _ _ Eu) as [L P]. split; [cbn [length]; congruence|]. intros [|i] y u N N'; cbn [nth_error] in N, N'.
        + injection N as <-. injection N' as <-. destruct os; exact Ev.
        + specialize (P i y u N N'). destruct os as [|o os]; [|exact P]. cbn [tl] in P. destruct i; exact P. }
    destruct (X _ _ _ Ev) as [L P]. split; [exact L|]. intros i x u N N'. specialize (P i x u N N'). destruct old; try exact P; destruct i; exact P.
  Qed.

  Theorem map_kept t j m v : unmarshal_over T rnd (TMap t) j (VMap m) = Some v -> j <> JNull ->
    (forall k, ~ In k (map fst (members_of j)) -> get k (entries_of v) = get k m) /\
    (distinct j -> forall k x, In (k, x) (members_of j) -> exists u, unmarshal T rnd t x = Some u /\ get k (entries_of v) = Some u).
  Proof.
    intros E NN. unfold unmarshal_over in E. destruct j as [|b|q|s|l|ms]; cbn [dec levels LVL dec_step] in E; try discriminate; [congruence|].
    match type of E with match ?o with Some _ => _ | None => _ end = _ => destruct o as [m'|] eqn:Em; [|discriminate] end. injection E as <-. cbn [members_of entries_of].
    split.
    - intros k NI. eapply entries_get; [|exact Em]. rewrite map_map. exact NI.
    - intros Di k x I. inversion Di as [| | | | |? D1 D2]; subst. unfold unmarshal. eapply (entries_at t k x (D x)); [| |exact Em].
      + rewrite map_map. exact D1.
      + apply in_map_iff. exists (k, x). split; [reflexivity|exact I].
  Qed.
End Twice.
