(* The objects of the two packages say what the records have. *)
From Verif Require Import Str SMap Json Types RegistryModel RegistrySpec ReflectModel SchemaModel CodecModel CodecTables CodecSpec CodecProofs CodecEnc
  CodecRound CodecCheck CodecRT CodecStrict CodecMembers ReadModel SaySpec SayProofs.

(* ---------- openapi3 ---------- *)

Section Say30.
  Variable rnd : Q -> Q.
  Context {Sch : Type}.
  Variable sv : Sch -> val.
  Notation wf := (CodecSpec.wf T30 rnd derived30 extra30).
  Definition sj30 (s : Sch) : option json := enc T30 (sv s) (TNamed "SchemaOrRef").

  Ltac obj W n M TL F := 
    destruct (object T30 rnd derived30 extra30 ok30 n _ _ _ _ eq_refl ltac:(vm_compute; reflexivity) W) as (M & ? & TL & F);
    exists M; split; [assumption|].
  Ltac fld TL i := cbn [at_key]; rewrite (T_field _ _ _ _ _ TL i _ _ _ eq_refl eq_refl eq_refl); cbn [f_omit f_ty].

  Lemma media30_says m : wf (TNamed "MediaType") (media30 sv m) -> exists M, enc T30 (media30 sv m) (TNamed "MediaType") = Some (JObj M) /\ says_media sj30 m (JObj M).
  Proof. intros W. obj W "MediaType" M TL F. unfold says_media. fld TL 0. apply opt_member. Qed.
  Lemma media30_says' m : wf (TNamed "MediaType") (media30 sv m) -> exists j, enc T30 (media30 sv m) (TNamed "MediaType") = Some j /\ says_media sj30 m j.
  Proof. intros W. destruct (media30_says m W) as (M & A & B). eauto. Qed.

  Lemma param30_says p : wf (TNamed "Parameter") (param30 sv p) -> exists M, enc T30 (param30 sv p) (TNamed "Parameter") = Some (JObj M) /\ says_param sj30 true p (JObj M).
  Proof.
    intros W. obj W "Parameter" M TL F. constructor.
    - fld TL 0. reflexivity.
    - fld TL 1. specialize (F 1 _ _ eq_refl eq_refl). cbn [f_ty] in F. cbn [andb]. inversion F; subst. cbn [enc].
      match goal with H : get "ParameterIn" T30 = _ |- _ => rewrite H end.
      match goal with H : In _ _ |- _ => apply in_list_In in H; rewrite H end. reflexivity.
    - fld TL 2. apply str_member.
    - fld TL 3. apply bool_member.
    - fld TL 4. apply bool_member.
    - fld TL 6. apply str_member.
    - fld TL 7. apply bool_member.
    - fld TL 9. apply opt_member.
    - fld TL 10. apply map_member with (rnd := rnd) (derived := derived30) (extra := extra30); [exact (F 10 _ _ eq_refl eq_refl)|exact media30_says'].
    - intros _. split; [fld TL 5; apply bool_member|fld TL 8; apply bool_member].
  Qed.

  Lemma header30_says h : wf (TNamed "Header") (header30 sv h) -> exists M, enc T30 (header30 sv h) (TNamed "Header") = Some (JObj M) /\ says_header sj30 true h (JObj M).
  Proof.
    intros W. obj W "Header" M TL F. constructor.
    - fld TL 0. apply str_member.
    - fld TL 1. apply bool_member.
    - fld TL 2. apply bool_member.
    - fld TL 4. apply bool_member.
    - fld TL 6. apply opt_member.
    - intros _. split; [fld TL 3; apply bool_member|fld TL 5; apply bool_member].
  Qed.
  Lemma hor30_says h : wf (TNamed "HeaderOrRef") (hor30 sv h) -> exists j, enc T30 (hor30 sv h) (TNamed "HeaderOrRef") = Some j /\ says_header sj30 true h j.
  Proof.
    intros W. change (hor30 sv h) with (VStruct [optv ref30 None; optv (header30 sv) (Some h)]) in *.
    destruct (choice T30 rnd derived30 extra30 (says_header sj30 true) (header30 sv) ref30 "HeaderOrRef" _ _ _ _ _ (Some h) None
      eq_refl eq_refl eq_refl eq_refl eq_refl W ltac:(intros r; vm_compute; reflexivity) header30_says) as (j & E & O & _). eauto.
  Qed.

  Lemma response30_says r : wf (TNamed "Response") (response30 sv r) -> exists M, enc T30 (response30 sv r) (TNamed "Response") = Some (JObj M) /\ says_response sj30 true r (JObj M).
  Proof.
    intros W. obj W "Response" M TL F. constructor.
    - fld TL 0. reflexivity.
    - fld TL 1. apply map_member with (rnd := rnd) (derived := derived30) (extra := extra30); [exact (F 1 _ _ eq_refl eq_refl)|exact hor30_says].
    - fld TL 2. apply map_member with (rnd := rnd) (derived := derived30) (extra := extra30); [exact (F 2 _ _ eq_refl eq_refl)|exact media30_says'].
  Qed.
  Lemma body30_says b : wf (TNamed "RequestBody") (rbody30 sv b) -> exists M, enc T30 (rbody30 sv b) (TNamed "RequestBody") = Some (JObj M) /\ says_body sj30 b (JObj M).
  Proof.
    intros W. obj W "RequestBody" M TL F. constructor.
    - fld TL 0. apply str_member.
    - fld TL 1. apply map_member with (rnd := rnd) (derived := derived30) (extra := extra30); [exact (F 1 _ _ eq_refl eq_refl)|exact media30_says'].
  Qed.

  Lemma por30_says x : wf (TNamed "ParameterOrRef") (por30 sv x) -> exists j, enc T30 (por30 sv x) (TNamed "ParameterOrRef") = Some j /\ says_por sj30 true x j.
  Proof.
    intros W. exact (choice T30 rnd derived30 extra30 (says_param sj30 true) (param30 sv) ref30 "ParameterOrRef" _ _ _ _ _ (por_param x) (por_ref x)
      eq_refl eq_refl eq_refl eq_refl eq_refl W ltac:(intros r; vm_compute; reflexivity) param30_says).
  Qed.
  Lemma ror30_says x : wf (TNamed "ResponseOrRef") (ror30 sv x) -> exists j, enc T30 (ror30 sv x) (TNamed "ResponseOrRef") = Some j /\ says_ror sj30 true x j.
  Proof.
    intros W. exact (choice T30 rnd derived30 extra30 (says_response sj30 true) (response30 sv) ref30 "ResponseOrRef" _ _ _ _ _ (ror_resp x) (ror_ref x)
      eq_refl eq_refl eq_refl eq_refl eq_refl W ltac:(intros r; vm_compute; reflexivity) response30_says).
  Qed.
  Lemma rbor30_says x : wf (TNamed "RequestBodyOrRef") (rbor30 sv x) -> exists j, enc T30 (rbor30 sv x) (TNamed "RequestBodyOrRef") = Some j /\ says_rbor sj30 x j.
  Proof.
    intros W. exact (choice T30 rnd derived30 extra30 (says_body sj30) (rbody30 sv) ref30 "RequestBodyOrRef" _ _ _ _ _ (rbor_body x) (rbor_ref x)
      eq_refl eq_refl eq_refl eq_refl eq_refl W ltac:(intros r; vm_compute; reflexivity) body30_says).
  Qed.

  Lemma responses30_says rs : wf (TNamed "Responses") (responses30 sv rs) ->
    exists M, enc T30 (responses30 sv rs) (TNamed "Responses") = Some (JObj M) /\ says_responses sj30 true rs (JObj M).
  Proof.
    intros W. obj W "Responses" M TL F. constructor.
    - fld TL 0. apply both_member with (rnd := rnd) (derived := derived30) (extra := extra30); [exact (F 0 _ _ eq_refl eq_refl)|exact ror30_says].
    - intros k N. cbn [at_key]. rewrite (T_map _ _ _ _ _ TL 1 _ (TNamed "ResponseOrRef") _ k eq_refl eq_refl eq_refl).
      + apply map_get with (rnd := rnd) (derived := derived30) (extra := extra30); [exact (F 1 _ _ eq_refl eq_refl)|exact ror30_says].
      + right. left. reflexivity.
      + intros i' I N'. destruct I as [I|[I|[I|[]]]]; try discriminate I; injection I as <-; [congruence|reflexivity].
      + intros [I|[]]. congruence.
      + intros [].
  Qed.

  Lemma operation30_says o : wf (TNamed "Operation") (operation30 sv o) ->
    exists j, enc T30 (operation30 sv o) (TNamed "Operation") = Some j /\ says_op30 sj30 true o j.
  Proof.
    intros W. destruct (object T30 rnd derived30 extra30 ok30 "Operation" _ _ _ _ eq_refl ltac:(vm_compute; reflexivity) W) as (M & E & TL & F).
    exists (JObj M). split; [exact E|]. constructor.
    - fld TL 0. apply strs_member.
    - fld TL 1. apply str_member.
    - fld TL 2. apply str_member.
    - fld TL 4. apply str_member.
    - fld TL 5. apply list_member with (rnd := rnd) (derived := derived30) (extra := extra30); [exact (F 5 _ _ eq_refl eq_refl)|exact por30_says].
    - fld TL 6. apply both_member with (rnd := rnd) (derived := derived30) (extra := extra30); [exact (F 6 _ _ eq_refl eq_refl)|exact rbor30_says].
    - fld TL 7. cbn [andb both]. destruct (responses30_says (op_responses o) (F 7 _ _ eq_refl eq_refl)) as (Mr & -> & S). exact S.
    - fld TL 9. apply bool_member.
    - fld TL 10. apply security_member.
    - intros k [<-|[<-|[<-|[]]]]; [fld TL 3|fld TL 8|fld TL 11]; reflexivity.
    - intros k N. cbn [at_key]. rewrite (T_map _ _ _ _ _ TL 12 _ TAny _ k eq_refl eq_refl eq_refl).
      + apply any_get.
      + right. left. reflexivity.
      + intros i' I N'. destruct I as [I|[I|[]]]; try discriminate I; injection I as <-; congruence.
      + exact N.
      + intros [].
  Qed.

  Definition says_item30 (i : pitem30 Sch) (j : json) : Prop := forall method, both (says_op30 sj30 true) (get method (pi_ops i)) (at_key method j).

  Lemma pathitem30_says i : wf (TNamed "PathItem") (pathitem30 sv i) -> exists j, enc T30 (pathitem30 sv i) (TNamed "PathItem") = Some j /\ says_item30 i j.
  Proof.
    intros W. pose proof W as W'. destruct (wf_inv T30 rnd derived30 extra30 _ _ W') as [(vals & s & G' & _)|(fs' & parts' & d' & vs' & Ws & Ev)]; [discriminate G'|].
    pose proof (W_get _ _ _ _ _ _ _ _ _ Ws) as G. injection G as <- <- <-. injection Ev as <-.
    destruct (object T30 rnd derived30 extra30 ok30 "PathItem" _ _ _ _ eq_refl ltac:(vm_compute; reflexivity) W) as (M & E & TL & F).
    exists (JObj M). split; [exact E|]. intros k. destruct (in_list k ["$ref"; "summary"; "description"; "servers"; "parameters"]) eqn:K.
    - apply in_list_In in K.
      assert (X : get k (pi_ops i) = None).
      { apply get_notin. intros I. pose proof (fo_pat _ _ _ _ _ _ (W_ok _ _ _ _ _ _ _ _ _ Ws 5 _ _ eq_refl eq_refl) PatMethod ltac:(left; reflexivity)) as [_ L].
        assert (I' : In k (map_keys (mapv (operation30 sv) (pi_ops i)))).
        { destruct (pi_ops i) as [|x m]; [destruct I|]. cbn [mapv map_keys]. rewrite map_map. exact I. }
        specialize (L k I'). destruct K as [<-|[<-|[<-|[<-|[<-|[]]]]]]; inversion L; subst; cbn [In] in *; intuition discriminate. }
      rewrite X. destruct K as [<-|[<-|[<-|[<-|[<-|[]]]]]]; [fld TL 0|fld TL 1|fld TL 2|fld TL 3|fld TL 4]; exact I.
    - cbn [at_key]. rewrite (T_map _ _ _ _ _ TL 5 _ (TNamed "Operation") _ k eq_refl eq_refl eq_refl).
      + apply map_get with (rnd := rnd) (derived := derived30) (extra := extra30); [exact (F 5 _ _ eq_refl eq_refl)|exact operation30_says].
      + right. left. reflexivity.
      + intros i' I N'. destruct I as [I|[I|[I|[]]]]; try discriminate I; injection I as <-; [congruence|reflexivity].
      + intros I. apply in_list_In in I. cbn in I. cbn in K. congruence.
      + intros [].
  Qed.

  Lemma paths30_says s : wf (TNamed "Paths") (paths30v sv s) -> exists j, enc T30 (paths30v sv s) (TNamed "Paths") = Some j /\
    forall path, both says_item30 (get path (sp30_items s)) (at_key path j).
  Proof.
    intros W. destruct (object T30 rnd derived30 extra30 ok30 "Paths" _ _ _ _ eq_refl ltac:(vm_compute; reflexivity) W) as (M & E & TL & F).
    exists (JObj M). split; [exact E|]. intros k. cbn [at_key]. rewrite (T_map _ _ _ _ _ TL 0 _ (TNamed "PathItem") _ k eq_refl eq_refl eq_refl).
    + apply map_get with (rnd := rnd) (derived := derived30) (extra := extra30); [exact (F 0 _ _ eq_refl eq_refl)|exact pathitem30_says].
    + left. reflexivity.
    + intros i' I N'. destruct I as [I|[I|[]]]; try discriminate I; injection I as <-; [congruence|reflexivity].
    + intros [].
    + intros [].
  Qed.

  Lemma nth_set {A} : forall n (x : A) l, n < length l -> nth_error (set_nth n x l) n = Some x.
  Proof. induction n as [|n IH]; intros x [|y l] L; cbn in *; try (inversion L; fail); [reflexivity|]. apply IH. apply le_S_n. exact L. Qed.
  Lemma len_set {A} : forall n (x : A) l, length (set_nth n x l) = length l.
  Proof. induction n as [|n IH]; intros x [|y l]; cbn; auto. Qed.

  Lemma sj30_some a : wf (TNamed "SchemaOrRef") (sv a) -> exists j, enc T30 (sv a) (TNamed "SchemaOrRef") = Some j /\ sj30 a = Some j.
  Proof.
    intros Wa. destruct (enc_total T30 rnd derived30 extra30 ok30 _ (sv a) (Nat.lt_succ_diag_r _) (TNamed "SchemaOrRef") Wa eq_refl) as [ja Ea].
    exists ja. split; exact Ea.
  Qed.

  Lemma nth_set_other {A} : forall n m (x : A) l, m <> n -> nth_error (set_nth n x l) m = nth_error l m.
  Proof. induction n as [|n IH]; intros [|m] x [|y l] N; cbn; try reflexivity; [congruence|]. apply IH. congruence. Qed.

  Lemma spec30_says base s c : length base = 9 -> wf (TNamed "Spec") (spec30 sv base s c) ->
    exists j, enc T30 (spec30 sv base s c) (TNamed "Spec") = Some j /\
      (forall path method, both (says_op30 sj30 true) (doc30 s path method) (at_keys ["paths"; path; method] j)) /\
      (forall name x, get name c = Some x -> exists jx, at_keys ["components"; "schemas"; name] j = Some jx /\ sj30 x = Some jx).
  Proof.
    intros L W. destruct (object T30 rnd derived30 extra30 ok30 "Spec" _ _ _ _ eq_refl ltac:(vm_compute; reflexivity) W) as (M & E & TL & F).
    exists (JObj M). split; [exact E|]. split.
    { intros path method.
    assert (Ev : nth_error (set_nth 6 (paths30v sv s) (set_nth 7 (components30 sv (nth 7 base VNil) c) base)) 6 = Some (paths30v sv s)).
    { apply nth_set. rewrite len_set, L. repeat constructor. }
    cbn [at_keys at_key]. rewrite (T_field _ _ _ _ _ TL 6 _ _ _ eq_refl eq_refl Ev). cbn [f_omit f_ty andb].
    destruct (paths30_says s (F 6 _ _ eq_refl Ev)) as (j & -> & S). specialize (S path). unfold doc30.
    destruct (get path (sp30_items s)) as [i|], (at_key path j) as [ji|]; cbn [both] in S; try contradiction; [|exact I].
    specialize (S method). destruct (get method (pi_ops i)), (at_key method ji); exact S. }
    intros name x Gx.
    assert (Ev : nth_error (set_nth 6 (paths30v sv s) (set_nth 7 (components30 sv (nth 7 base VNil) c) base)) 7 = Some (components30 sv (nth 7 base VNil) c)).
    { rewrite nth_set_other by discriminate. apply nth_set. rewrite L. repeat constructor. }
    pose proof (F 7 _ _ eq_refl Ev) as Wc. cbn [f_ty] in Wc.
    assert (C : exists l, components30 sv (nth 7 base VNil) c = VPtr (VStruct (VPtr (VStruct [mapv sv c]) :: l))).
    { destruct c as [|x0 c]; [discriminate Gx|]. unfold components30 in *. destruct (nth 7 base VNil) as [| | | | |w| | |]; try (eexists; reflexivity).
      destruct w as [| | | | | | | |l]; try (eexists; reflexivity). destruct l as [|y l]; [|eexists; reflexivity].
      exfalso. cbn [set_nth] in Wc. inversion Wc as [| | | | | | | | |? ? W1| | | |]; subst.
      inversion W1 as [| | | | | | | | | | | | |? ? ? ? ? G1 L1]; subst. vm_compute in G1. injection G1 as <- <- <-. discriminate L1. }
    destruct C as (l & C). rewrite C in *. cbn [at_keys at_key]. rewrite (T_field _ _ _ _ _ TL 7 _ _ _ eq_refl eq_refl Ev). cbn [f_omit f_ty andb CodecModel.is_empty].
    assert (W1 : wf (TNamed "Components") (VStruct (VPtr (VStruct [mapv sv c]) :: l))) by (inversion Wc; assumption).
    destruct (object T30 rnd derived30 extra30 ok30 "Components" _ _ _ _ eq_refl ltac:(vm_compute; reflexivity) W1) as (M1 & E1 & TL1 & F1).
    rewrite enc_ptr, E1. cbn [at_key]. rewrite (T_field _ _ _ _ _ TL1 0 _ _ _ eq_refl eq_refl eq_refl). cbn [f_omit f_ty andb CodecModel.is_empty].
    pose proof (F1 0 _ _ eq_refl eq_refl) as W2. cbn [f_ty] in W2.
    assert (W3 : wf (TNamed "ComponentsSchemas") (VStruct [mapv sv c])) by (inversion W2; assumption).
    destruct (object T30 rnd derived30 extra30 ok30 "ComponentsSchemas" _ _ _ _ eq_refl ltac:(vm_compute; reflexivity) W3) as (M2 & E2 & TL2 & F2).
    rewrite enc_ptr, E2. cbn [at_key]. rewrite (T_map _ _ _ _ _ TL2 0 _ (TNamed "SchemaOrRef") _ name eq_refl eq_refl eq_refl).
    + pose proof (map_get T30 rnd derived30 extra30 (fun a j => sj30 a = Some j) sv (TNamed "SchemaOrRef") c name (F2 0 _ _ eq_refl eq_refl)) as H.
      rewrite Gx in H. cbn [both] in H. destruct (match get name _ with Some w => enc T30 w (TNamed "SchemaOrRef") | None => None end) as [jx|].
      * exists jx. split; [reflexivity|]. apply H. exact sj30_some.
      * exfalso. apply H. exact sj30_some.
    + left. reflexivity.
    + intros i' I N'. destruct I as [I|[]]; injection I as <-; congruence.
    + intros [].
    + intros [].
  Qed.
End Say30.

Lemma whole30 rnd {Sch} (sv : Sch -> val) base s c : length base = 9 -> wf T30 rnd derived30 extra30 (TNamed "Spec") (VStruct base) ->
  wf T30 rnd derived30 extra30 (TNamed "Spec") (spec30 sv base s c) ->
  exists j0 j, marshal T30 (TNamed "Spec") (VStruct base) = Some j0 /\ marshal T30 (TNamed "Spec") (spec30 sv base s c) = Some j /\
    (forall path method, both (says_op30 (fun s => marshal T30 (TNamed "SchemaOrRef") (sv s)) true) (doc30 s path method) (at_keys ["paths"; path; method] j)) /\
    (forall name x, get name c = Some x -> exists i, at_keys ["components"; "schemas"; name] j = Some i /\ marshal T30 (TNamed "SchemaOrRef") (sv x) = Some i) /\
    (forall k, k <> "paths" -> k <> "components" -> at_key k j = at_key k j0).
Proof.
  intros L W Wd. destruct (spec30_says rnd sv base s c L Wd) as (j & E & P1 & P2).
  destruct (object T30 rnd derived30 extra30 ok30 "Spec" _ _ _ _ eq_refl ltac:(vm_compute; reflexivity) W) as (M0 & E0 & T0 & _).
  destruct (object T30 rnd derived30 extra30 ok30 "Spec" _ _ _ _ eq_refl ltac:(vm_compute; reflexivity) Wd) as (M & E' & TL & _).
  exists (JObj M0), j. split; [exact E0|]. split; [exact E|]. split; [exact P1|]. split; [exact P2|]. intros k K1 K2.
  assert (j = JObj M) as -> by (unfold spec30 in E, E'; congruence). cbn [at_key].
  eapply (rest_same T30 _ _ _ _ M M0 8 TL T0); [rewrite !len_set; exact L|exact L|reflexivity|reflexivity|reflexivity|right; left; reflexivity| |reflexivity|].
  - intros i [I|[I|[]]]; [discriminate I|]. injection I as <-. reflexivity.
  - intros i g Eg Hk. rewrite !nth_set_other; [reflexivity| |]; intros ->; cbn in Eg; injection Eg as <-; cbn [f_key] in Hk; destruct Hk as [Hk|Hk]; congruence.
Qed.
