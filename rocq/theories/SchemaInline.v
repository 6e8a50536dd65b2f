(* When the root reference is inlined, and what converts back. *)
From Coq Require Import Permutation.
From Verif Require Import Str SMap Json SchemaModel SchemaSpec SchemaProofs SchemaRefs SchemaRefs2.

Lemma inline30 n cs js defs : to_json_schema30 (ORef (local n)) cs = Ok (js, defs) ->
  ((forall d s, reachable omentions (oenv cs) (ORef (local n)) d -> oenv cs d = Some s -> ~ omentions n s) ->
   js = conv (comp30 cs n) /\ get n defs = None) /\
  ((exists d s, reachable omentions (oenv cs) (ORef (local n)) d /\ oenv cs d = Some s /\ omentions n s) ->
   js = JSObj ja0 (Some (local n)) None [] [] [] None [] [] None [] /\ get n defs = Some (conv (comp30 cs n))).
Proof.
  intros H. apply toj30_result in H as (N & D & R & H).
  destruct H as [(m & E & Hi & -> & Hd)|(Hn & -> & Hd)].
  - assert (n = m) by (apply local_inj; congruence). subst m. split.
    + intros _. split; auto. rewrite Hd, String.eqb_refl. reflexivity.
    + intros (d & s & Rd & Ed & M). exfalso. apply (Hi d).
      * apply reach30 in Rd. cbn [orefs] in Rd. rewrite ref_names_local in Rd. exact Rd.
      * apply G30_mentions. eauto.
  - specialize (Hn n eq_refl). split.
    + intros X. exfalso. destruct Hn as (d & Rd & I). apply G30_mentions in I as (t & Et & M).
      apply (X d t); auto. apply reach30. exact Rd.
    + intros _. split; auto. rewrite Hd. replace (mem n N) with true; auto. symmetry. apply mem_In, R.
      cbn [orefs]. rewrite ref_names_local. constructor. simpl. auto.
Qed.

(* Which reference counts: every reference, under whatever keyword. *)
Lemma inline31 nil_map cs a n nt al on an it tu pr ad ot js defs :
  (forall s, nil_map = Some s -> jrefs s = []) ->
  (forall d t, comp31 nil_map cs d = Some t -> entered t) ->
  let root := JSObj a (Some (local n)) nt al on an it tu pr ad ot in
  let R := reachable jmentions (comp31 nil_map cs) (JSObj a (Some (local n)) None [] [] [] None [] [] None []) in
  to_json_schema31 nil_map root cs = Ok (js, defs) ->
  exists t, comp31 nil_map cs n = Some t /\
  ((forall d s, R d -> comp31 nil_map cs d = Some s -> ~ jmentions n s) -> js = t /\ get n defs = None) /\
  ((exists d s, R d /\ comp31 nil_map cs d = Some s /\ jmentions n s) -> js = root /\ get n defs = Some t).
Proof.
  intros nil_ok Ec root R H.
  assert (RR : forall x, reach (G31 nil_map cs) [n] x <-> R x).
  { intros x. unfold R. rewrite <- (reach31 nil_map cs); auto; [|constructor]. cbn [jrefs]. rewrite ref_names_local. reflexivity. }
  apply (toj31_result _ _ nil_ok) in H as (N & D & RN & B & H). unfold root in *. cbn [jrefs root31] in *.
  rewrite ref_names_local in *.
  assert (R0 : reach (G31 nil_map cs) [n] n) by (constructor; simpl; auto).
  exists (body31 nil_map cs n). split; [apply B; exact R0|].
  destruct H as [(m & E & Hi & -> & Hd)|(Hn & -> & Hd)].
  - assert (n = m) by (apply local_inj; congruence). subst m. split.
    + intros _. split; auto. rewrite Hd, String.eqb_refl. reflexivity.
    + intros (d & s & Rd & Ed & M). exfalso. apply RR in Rd. apply (Hi d Rd). unfold G31. rewrite Ed.
      apply mentions_jrefs; eauto.
  - specialize (Hn n eq_refl). split.
    + intros X. exfalso. destruct Hn as (d & Rd & I). unfold G31 in I.
      destruct (comp31 nil_map cs d) as [t|] eqn:Et; [|destruct I].
      apply (X d t); auto; [apply RR; exact Rd|]. apply jrefs_mentions. exact I.
    + intros _. split; auto. rewrite Hd. replace (mem n N) with true; auto. symmetry. apply mem_In, RN. exact R0.
Qed.

(* Converting the result back. *)
Lemma back30 o cs js defs : to_json_schema30 o cs = Ok (js, defs) ->
  (from_js js = Some (norm o) \/ exists n, o = ORef (local n) /\ from_js js = Some (norm (comp30 cs n))) /\
  (forall n s, get n defs = Some s -> from_js s = Some (norm (comp30 cs n))).
Proof.
  intros H. split.
  - apply toj30_result in H as (N & D & R & [(m & -> & Hi & -> & Hd)|(Hn & -> & Hd)]).
    + right. exists m. split; auto. apply from_conv.
    + left. apply from_conv.
  - intros n s E. destruct (toj30_minimal _ _ _ _ _ _ H E) as [_ ->]. apply from_conv.
Qed.

Lemma back30_plain o cs js defs : to_json_schema30 o cs = Ok (js, defs) ->
  plain o -> (forall n, reachable omentions (oenv cs) o n -> plain (comp30 cs n)) ->
  (from_js js = Some o \/ exists n, o = ORef (local n) /\ from_js js = oenv cs n) /\
  (forall n s, get n defs = Some s -> from_js s = oenv cs n).
Proof.
  intros H P C. destruct (back30 o cs js defs H) as [A B].
  assert (X : forall n, reachable omentions (oenv cs) o n -> Some (norm (comp30 cs n)) = oenv cs n).
  { intros n Rn. specialize (C n Rn). rewrite norm_plain by exact C. revert C. unfold comp30, oenv.
    destruct cs as [m|]; [|intros Y; inversion Y]. destruct (get n m); [reflexivity|intros Y; inversion Y]. }
  split.
  - destruct A as [A|(n & -> & A)]; [left|right].
    + rewrite A, norm_plain; auto.
    + exists n. split; auto. rewrite A. apply X. constructor. constructor.
  - intros n s E. rewrite (B n s E). apply X. eapply toj30_minimal; eauto.
Qed.
