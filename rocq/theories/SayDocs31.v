(* The same for openapi31. *)
From Verif Require Import Str SMap Json Types RegistryModel RegistrySpec ReflectModel SchemaModel CodecModel CodecTables CodecSpec CodecProofs CodecEnc
  CodecRound CodecCheck CodecRT CodecStrict CodecMembers ReadModel SaySpec SayProofs SayDocs.

(* An empty map is not written. *)
Definition sj31 (s : sch31) : option json := match s with [] => None | _ => Some (JObj s) end.

Section Say31.
  Variable rnd : Q -> Q.
  Notation wf := (CodecSpec.wf T31 rnd derived31 extra31).

  Ltac obj W n M TL F := 
    destruct (object T31 rnd derived31 extra31 ok31 n _ _ _ _ eq_refl ltac:(vm_compute; reflexivity) W) as (M & ? & TL & F);
    exists M; split; [assumption|].
  Ltac fld TL i := cbn [at_key]; rewrite (T_field _ _ _ _ _ TL i _ _ _ eq_refl eq_refl eq_refl); cbn [f_omit f_ty].
  Ltac maps F i H := apply map_member with (rnd := rnd) (derived := derived31) (extra := extra31); [exact (F i _ _ eq_refl eq_refl)|exact H].

  Ltac slotm TL F i H := fld TL i; apply both_member with (rnd := rnd) (derived := derived31) (extra := extra31); [exact (F i _ _ eq_refl eq_refl)|exact H].

  Lemma any_map (m : list (string * json)) :
    seq_opt (map (fun kv => match enc T31 (snd kv) TAny with Some j => Some (fst kv, j) | None => None end) (map (fun kv => (fst kv, VAny (snd kv))) m)) = Some m.
  Proof. induction m as [|[k j] m IH]; [reflexivity|]. cbn [map seq_opt fst snd enc] in *. rewrite IH. reflexivity. Qed.
  Lemma schema_member x : (if true && CodecModel.is_empty (schema31 x) then None else enc T31 (schema31 x) (TMap TAny)) = schema_m sj31 x.
  Proof.
    destruct x as [[|e s]|]; [reflexivity| |reflexivity]. change (schema31 (Some (e :: s))) with (VMap (map (fun kv => (fst kv, VAny (snd kv))) (e :: s))).
    rewrite enc_map, any_map. reflexivity.
  Qed.
  Lemma enum_some n vals s : get n T31 = Some (EEnum vals) -> wf (TNamed n) (VStr s) -> enc T31 (VStr s) (TNamed n) = Some (JStr s).
  Proof. intros G W. inversion W as [| | | | | | | | | | | |? vs ? G' I|]; subst. cbn [enc]. rewrite G'. apply in_list_In in I. rewrite I. reflexivity. Qed.

  Lemma media31_says m : wf (TNamed "MediaType") (media31 m) -> exists j, enc T31 (media31 m) (TNamed "MediaType") = Some j /\ says_media sj31 m j.
  Proof.
    intros W. destruct (object T31 rnd derived31 extra31 ok31 "MediaType" _ _ _ _ eq_refl ltac:(vm_compute; reflexivity) W) as (M & E & TL & F).
    exists (JObj M). split; [exact E|]. unfold says_media. fld TL 0. apply schema_member.
  Qed.

  Lemma param31_says p : wf (TNamed "Parameter") (param31 p) -> exists M, enc T31 (param31 p) (TNamed "Parameter") = Some (JObj M) /\ says_param sj31 false p (JObj M).
  Proof.
    intros W. obj W "Parameter" M TL F. constructor.
    - fld TL 0. reflexivity.
    - fld TL 1. cbn [andb]. eapply enum_some; [reflexivity|]. exact (F 1 _ _ eq_refl eq_refl).
    - fld TL 2. apply str_member.
    - fld TL 3. apply bool_member.
    - fld TL 4. apply bool_member.
    - fld TL 7. pose proof (F 7 _ _ eq_refl eq_refl) as W7. cbn [f_ty] in W7. destruct (p_style p) as [s|]; [|reflexivity].
      cbn [strv optv CodecModel.is_empty andb str_m option_map] in *. rewrite enc_ptr. eapply enum_some; [reflexivity|]. inversion W7; assumption.
    - fld TL 8. apply bool_member.
    - fld TL 5. apply schema_member.
    - fld TL 6. maps F 6 media31_says.
    - discriminate.
  Qed.

  Lemma header31_says h : wf (TNamed "Header") (header31 h) -> exists M, enc T31 (header31 h) (TNamed "Header") = Some (JObj M) /\ says_header sj31 false h (JObj M).
  Proof.
    intros W. obj W "Header" M TL F. constructor.
    - fld TL 0. apply str_member.
    - fld TL 1. apply bool_member.
    - fld TL 2. apply bool_member.
    - fld TL 7. apply bool_member.
    - fld TL 3. apply schema_member.
    - discriminate.
  Qed.
  Lemma hor31_says h : wf (TNamed "HeaderOrReference") (hor31 h) -> exists j, enc T31 (hor31 h) (TNamed "HeaderOrReference") = Some j /\ says_header sj31 false h j.
  Proof.
    intros W. change (hor31 h) with (VStruct [optv ref31 None; optv header31 (Some h)]) in *.
    destruct (choice T31 rnd derived31 extra31 (says_header sj31 false) header31 ref31 "HeaderOrReference" _ _ _ _ _ (Some h) None
      eq_refl eq_refl eq_refl eq_refl eq_refl W ltac:(intros r; vm_compute; reflexivity) header31_says) as (j & E & O & _). eauto.
  Qed.

  Lemma response31_says r : wf (TNamed "Response") (response31 r) -> exists M, enc T31 (response31 r) (TNamed "Response") = Some (JObj M) /\ says_response sj31 false r (JObj M).
  Proof.
    intros W. obj W "Response" M TL F. constructor.
    - fld TL 0. reflexivity.
    - fld TL 1. maps F 1 hor31_says.
    - fld TL 2. maps F 2 media31_says.
  Qed.
  Lemma body31_says b : wf (TNamed "RequestBody") (rbody31 b) -> exists M, enc T31 (rbody31 b) (TNamed "RequestBody") = Some (JObj M) /\ says_body sj31 b (JObj M).
  Proof.
    intros W. obj W "RequestBody" M TL F. constructor.
    - fld TL 0. apply str_member.
    - fld TL 1. maps F 1 media31_says.
  Qed.

  Lemma por31_says x : wf (TNamed "ParameterOrReference") (por31 x) -> exists j, enc T31 (por31 x) (TNamed "ParameterOrReference") = Some j /\ says_por sj31 false x j.
  Proof.
    intros W. exact (choice T31 rnd derived31 extra31 (says_param sj31 false) param31 ref31 "ParameterOrReference" _ _ _ _ _ (por_param x) (por_ref x)
      eq_refl eq_refl eq_refl eq_refl eq_refl W ltac:(intros r; vm_compute; reflexivity) param31_says).
  Qed.
  Lemma ror31_says x : wf (TNamed "ResponseOrReference") (ror31 x) -> exists j, enc T31 (ror31 x) (TNamed "ResponseOrReference") = Some j /\ says_ror sj31 false x j.
  Proof.
    intros W. exact (choice T31 rnd derived31 extra31 (says_response sj31 false) response31 ref31 "ResponseOrReference" _ _ _ _ _ (ror_resp x) (ror_ref x)
      eq_refl eq_refl eq_refl eq_refl eq_refl W ltac:(intros r; vm_compute; reflexivity) response31_says).
  Qed.
  Lemma rbor31_says x : wf (TNamed "RequestBodyOrReference") (rbor31 x) -> exists j, enc T31 (rbor31 x) (TNamed "RequestBodyOrReference") = Some j /\ says_rbor sj31 x j.
  Proof.
    intros W. exact (choice T31 rnd derived31 extra31 (says_body sj31) rbody31 ref31 "RequestBodyOrReference" _ _ _ _ _ (rbor_body x) (rbor_ref x)
      eq_refl eq_refl eq_refl eq_refl eq_refl W ltac:(intros r; vm_compute; reflexivity) body31_says).
  Qed.

  Lemma responses31_says rs : wf (TNamed "Responses") (responses31 rs) ->
    exists j, enc T31 (responses31 rs) (TNamed "Responses") = Some j /\ says_responses sj31 false rs j.
  Proof.
    intros W. destruct (object T31 rnd derived31 extra31 ok31 "Responses" _ _ _ _ eq_refl ltac:(vm_compute; reflexivity) W) as (M & E & TL & F).
    exists (JObj M). split; [exact E|]. constructor.
    - fld TL 0. apply both_member with (rnd := rnd) (derived := derived31) (extra := extra31); [exact (F 0 _ _ eq_refl eq_refl)|exact ror31_says].
    - intros k N. cbn [at_key]. rewrite (T_map _ _ _ _ _ TL 1 _ (TNamed "ResponseOrReference") _ k eq_refl eq_refl eq_refl).
      + apply map_get with (rnd := rnd) (derived := derived31) (extra := extra31); [exact (F 1 _ _ eq_refl eq_refl)|exact ror31_says].
      + right. left. reflexivity.
      + intros i' I N'. destruct I as [I|[I|[I|[]]]]; try discriminate I; injection I as <-; [congruence|reflexivity].
      + intros [I|[]]. congruence.
      + intros [].
  Qed.

  Lemma operation31_says o : wf (TNamed "Operation") (operation31 o) ->
    exists j, enc T31 (operation31 o) (TNamed "Operation") = Some j /\ says_op31 sj31 false o j.
  Proof.
    intros W. destruct (object T31 rnd derived31 extra31 ok31 "Operation" _ _ _ _ eq_refl ltac:(vm_compute; reflexivity) W) as (M & E & TL & F).
    exists (JObj M). split; [exact E|]. constructor.
    - fld TL 0. apply strs_member.
    - fld TL 1. apply str_member.
    - fld TL 2. apply str_member.
    - fld TL 4. apply str_member.
    - fld TL 5. apply list_member with (rnd := rnd) (derived := derived31) (extra := extra31); [exact (F 5 _ _ eq_refl eq_refl)|exact por31_says].
    - fld TL 6. apply both_member with (rnd := rnd) (derived := derived31) (extra := extra31); [exact (F 6 _ _ eq_refl eq_refl)|exact rbor31_says].
    - fld TL 7. apply both_member with (rnd := rnd) (derived := derived31) (extra := extra31); [exact (F 7 _ _ eq_refl eq_refl)|exact responses31_says].
    - fld TL 9. apply bool_member.
    - fld TL 10. apply security_member.
    - intros k [<-|[<-|[<-|[]]]]; [fld TL 3|fld TL 8|fld TL 11]; reflexivity.
    - intros k N. cbn [at_key]. rewrite (T_map _ _ _ _ _ TL 12 _ TAny _ k eq_refl eq_refl eq_refl).
      + apply any_get.
      + right. left. reflexivity.
      + intros i' I N'. destruct I as [I|[I|[]]]; try discriminate I; injection I as <-; congruence.
      + exact N.
      + intros [].
  Qed.

  Definition says_item31 (i : pitem31 sch31) (j : json) : Prop := forall method, both (says_op31 sj31 false) (slot i method) (at_key method j).

  Lemma pathitem31_says i : wf (TNamed "PathItem") (pathitem31 i) -> exists M, enc T31 (pathitem31 i) (TNamed "PathItem") = Some (JObj M) /\ says_item31 i (JObj M).
  Proof.
    intros W. obj W "PathItem" M TL F. intros k.
    destruct (in_list k ["summary"; "description"; "servers"; "parameters"; "get"; "put"; "post"; "delete"; "options"; "head"; "patch"; "trace"]) eqn:K.
    - apply in_list_In in K. cbn [In] in K. repeat (destruct K as [<-|K]); [..|destruct K].
      + change (slot i "summary") with (@None (op31 sch31)). fld TL 0. exact I.
      + change (slot i "description") with (@None (op31 sch31)). fld TL 1. exact I.
      + change (slot i "servers") with (@None (op31 sch31)). fld TL 2. exact I.
      + change (slot i "parameters") with (@None (op31 sch31)). fld TL 3. exact I.
      + change (slot i "get") with (pi_get i). slotm TL F 4 operation31_says.
      + change (slot i "put") with (pi_put i). slotm TL F 5 operation31_says.
      + change (slot i "post") with (pi_post i). slotm TL F 6 operation31_says.
      + change (slot i "delete") with (pi_delete i). slotm TL F 7 operation31_says.
      + change (slot i "options") with (pi_options i). slotm TL F 8 operation31_says.
      + change (slot i "head") with (pi_head i). slotm TL F 9 operation31_says.
      + change (slot i "patch") with (pi_patch i). slotm TL F 10 operation31_says.
      + change (slot i "trace") with (pi_trace i). slotm TL F 11 operation31_says.
    - assert (N : slot i k = None).
      { unfold slot. cbn [in_list existsb] in K. repeat (apply orb_false_elim in K; let H := fresh "H" in destruct K as [H K]).
        repeat match goal with H : String.eqb k _ = false |- _ => rewrite H; clear H end. reflexivity. }
      rewrite N. cbn [at_key]. rewrite (T_map _ _ _ _ _ TL 12 _ TAny _ k eq_refl eq_refl eq_refl).
      + exact I.
      + right. left. reflexivity.
      + intros i' I N'. destruct I as [I|[I|[]]]; try discriminate I; injection I as <-; congruence.
      + intros I. apply in_list_In in I. cbn in I. cbn in K. congruence.
      + intros [].
  Qed.

  Lemma pathitem31_says' i : wf (TNamed "PathItem") (pathitem31 i) -> exists j, enc T31 (pathitem31 i) (TNamed "PathItem") = Some j /\ says_item31 i j.
  Proof. intros W. destruct (pathitem31_says i W) as (M & A & B). eauto. Qed.
  Lemma hook31_says i : wf (TNamed "PathItemOrReference") (hook31v i) -> exists j, enc T31 (hook31v i) (TNamed "PathItemOrReference") = Some j /\ says_item31 i j.
  Proof.
    intros W. change (hook31v i) with (VStruct [optv ref31 None; optv pathitem31 (Some i)]) in *.
    destruct (choice T31 rnd derived31 extra31 says_item31 pathitem31 ref31 "PathItemOrReference" _ _ _ _ _ (Some i) None
      eq_refl eq_refl eq_refl eq_refl eq_refl W ltac:(intros r; vm_compute; reflexivity) pathitem31_says) as (j & E & O & _). eauto.
  Qed.

  Lemma paths31_says m : wf (TNamed "Paths") (paths31v m) -> exists j, enc T31 (paths31v m) (TNamed "Paths") = Some j /\
    forall path, both says_item31 (get path m) (at_key path j).
  Proof.
    intros W. destruct (object T31 rnd derived31 extra31 ok31 "Paths" _ _ _ _ eq_refl ltac:(vm_compute; reflexivity) W) as (M & E & TL & F).
    exists (JObj M). split; [exact E|]. intros k. cbn [at_key]. rewrite (T_map _ _ _ _ _ TL 0 _ (TNamed "PathItem") _ k eq_refl eq_refl eq_refl).
    + apply map_get with (rnd := rnd) (derived := derived31) (extra := extra31); [exact (F 0 _ _ eq_refl eq_refl)|exact pathitem31_says'].
    + left. reflexivity.
    + intros i' I N'. destruct I as [I|[I|[]]]; try discriminate I; injection I as <-; [congruence|reflexivity].
    + intros [].
    + intros [].
  Qed.

  Lemma spec31_says base s c : length base = 11 -> wf (TNamed "Spec") (spec31 base s c) ->
    exists j, enc T31 (spec31 base s c) (TNamed "Spec") = Some j /\
      (forall path method, both (says_op31 sj31 false) (doc31 s path method) (at_keys ["paths"; path; method] j)) /\
      (forall name method, both (says_op31 sj31 false) (hook31 s name method) (at_keys ["webhooks"; name; method] j)) /\
      (forall name x, get name c = Some x -> at_keys ["components"; "schemas"; name] j = Some (JObj x)).
  Proof.
    intros L W. destruct (object T31 rnd derived31 extra31 ok31 "Spec" _ _ _ _ eq_refl ltac:(vm_compute; reflexivity) W) as (M & E & TL & F).
    exists (JObj M). split; [exact E|]. split; [|split].
    - intros path method.
      assert (Ev : nth_error (set_nth 4 (optv paths31v (sp31_items s)) (set_nth 5 (mapv hook31v (sp31_webhooks s)) (set_nth 6 (components31 (nth 6 base VNil) c) base))) 4 =
        Some (optv paths31v (sp31_items s))) by (apply nth_set; rewrite !len_set, L; repeat constructor).
      cbn [at_keys at_key]. rewrite (T_field _ _ _ _ _ TL 4 _ _ _ eq_refl eq_refl Ev). cbn [f_omit f_ty].
      pose proof (F 4 _ _ eq_refl Ev) as W4. cbn [f_ty] in W4. unfold doc31. destruct (sp31_items s) as [m|]; [|exact I].
      cbn [optv CodecModel.is_empty andb] in *. rewrite enc_ptr. destruct (paths31_says m ltac:(inversion W4; assumption)) as (j & -> & S). specialize (S path).
      destruct (get path m) as [i|], (at_key path j) as [ji|]; cbn [both] in S; try contradiction; [|exact I].
      specialize (S method). destruct (slot i method), (at_key method ji); exact S.
    - intros name method.
      assert (Ev : nth_error (set_nth 4 (optv paths31v (sp31_items s)) (set_nth 5 (mapv hook31v (sp31_webhooks s)) (set_nth 6 (components31 (nth 6 base VNil) c) base))) 5 =
        Some (mapv hook31v (sp31_webhooks s))) by (rewrite nth_set_other by discriminate; apply nth_set; rewrite !len_set, L; repeat constructor).
      cbn [at_keys at_key]. rewrite (T_field _ _ _ _ _ TL 5 _ _ _ eq_refl eq_refl Ev). cbn [f_omit f_ty].
      pose proof (map_member T31 rnd derived31 extra31 says_item31 hook31v _ (sp31_webhooks s) true (F 5 _ _ eq_refl Ev) hook31_says) as H.
      destruct (if true && _ then None else _) as [jw|]; unfold hook31, map_m in *; destruct (sp31_webhooks s) as [|x m]; try (destruct H; discriminate); [| |exact I|].
      + destruct H as [H|H]; [discriminate H|]. injection H as ->. exact I.
      + destruct H as (Mw & H & B). injection H as ->. cbn [at_key]. specialize (B name).
        destruct (get name (x :: m)) as [i|], (get name Mw) as [ji|]; cbn [both] in B; try contradiction; [|exact I].
        specialize (B method). destruct (slot i method), (at_key method ji); exact B.
      + destruct H as (Mw & H & B). discriminate H.
    - intros name x Gx.
      assert (Ev : nth_error (set_nth 4 (optv paths31v (sp31_items s)) (set_nth 5 (mapv hook31v (sp31_webhooks s)) (set_nth 6 (components31 (nth 6 base VNil) c) base))) 6 =
        Some (components31 (nth 6 base VNil) c)) by (rewrite !nth_set_other by discriminate; apply nth_set; rewrite L; repeat constructor).
      pose proof (F 6 _ _ eq_refl Ev) as Wc. cbn [f_ty] in Wc.
      set (g := fun s : sch31 => VMap (map (fun kv => (fst kv, VAny (snd kv))) s)).
      assert (C : exists l, components31 (nth 6 base VNil) c = VPtr (VStruct (mapv g c :: l))).
      { destruct c as [|x0 c]; [discriminate Gx|]. unfold components31 in *. destruct (nth 6 base VNil) as [| | | | |w| | |]; try (eexists; reflexivity).
        destruct w as [| | | | | | | |l]; try (eexists; reflexivity). destruct l as [|y l]; [|eexists; reflexivity].
        exfalso. cbn [set_nth] in Wc. inversion Wc as [| | | | | | | | |? ? W1| | | |]; subst.
        inversion W1 as [| | | | | | | | | | | | |? ? ? ? ? G1 L1]; subst. vm_compute in G1. injection G1 as <- <- <-. discriminate L1. }
      destruct C as (l & C). rewrite C in *. cbn [at_keys at_key]. rewrite (T_field _ _ _ _ _ TL 6 _ _ _ eq_refl eq_refl Ev). cbn [f_omit f_ty andb CodecModel.is_empty].
      assert (W1 : wf (TNamed "Components") (VStruct (mapv g c :: l))) by (inversion Wc; assumption).
      destruct (object T31 rnd derived31 extra31 ok31 "Components" _ _ _ _ eq_refl ltac:(vm_compute; reflexivity) W1) as (M1 & E1 & TL1 & F1).
      rewrite enc_ptr, E1. cbn [at_key]. rewrite (T_field _ _ _ _ _ TL1 0 _ _ _ eq_refl eq_refl eq_refl). cbn [f_omit f_ty].
      assert (Hs : forall a, wf (TMap TAny) (g a) -> exists j, enc T31 (g a) (TMap TAny) = Some j /\ j = JObj a).
      { intros a _. exists (JObj a). split; [|reflexivity]. unfold g. rewrite enc_map, any_map. reflexivity. }
      pose proof (map_member T31 rnd derived31 extra31 (fun (a : sch31) j => j = JObj a) g _ c true (F1 0 _ _ eq_refl eq_refl) Hs) as H.
      destruct c as [|x0 c]; [discriminate Gx|]. destruct H as (Mw & H & B). cbn [f_ty] in H. rewrite H. cbn [at_key]. specialize (B name).
      rewrite Gx in B. cbn [both] in B. destruct (get name Mw); [|contradiction]. subst. reflexivity.
  Qed.
End Say31.

Lemma whole31 rnd base s c : length base = 11 -> wf T31 rnd derived31 extra31 (TNamed "Spec") (VStruct base) ->
  wf T31 rnd derived31 extra31 (TNamed "Spec") (spec31 base s c) ->
  exists j0 j, marshal T31 (TNamed "Spec") (VStruct base) = Some j0 /\ marshal T31 (TNamed "Spec") (spec31 base s c) = Some j /\
    (forall path method, both (says_op31 sj31 false) (doc31 s path method) (at_keys ["paths"; path; method] j)) /\
    (forall name method, both (says_op31 sj31 false) (hook31 s name method) (at_keys ["webhooks"; name; method] j)) /\
    (forall name x, get name c = Some x -> at_keys ["components"; "schemas"; name] j = Some (JObj x)) /\
    (forall k, k <> "paths" -> k <> "webhooks" -> k <> "components" -> at_key k j = at_key k j0).
Proof.
  intros L W Wd. destruct (spec31_says rnd base s c L Wd) as (j & E & P1 & P2 & P3).
  destruct (object T31 rnd derived31 extra31 ok31 "Spec" _ _ _ _ eq_refl ltac:(vm_compute; reflexivity) W) as (M0 & E0 & T0 & _).
  destruct (object T31 rnd derived31 extra31 ok31 "Spec" _ _ _ _ eq_refl ltac:(vm_compute; reflexivity) Wd) as (M & E' & TL & _).
  exists (JObj M0), j. split; [exact E0|]. split; [exact E|]. split; [exact P1|]. split; [exact P2|]. split; [exact P3|]. intros k K1 K2 K3.
  assert (j = JObj M) as -> by (unfold spec31 in E, E'; congruence). cbn [at_key].
  eapply (rest_same T31 _ _ _ _ M M0 10 TL T0); [rewrite !len_set; exact L|exact L|reflexivity|reflexivity|reflexivity|right; left; reflexivity| |reflexivity|].
  - intros i [I|[I|[]]]; [discriminate I|]. injection I as <-. reflexivity.
  - intros i g Eg Hk. rewrite !nth_set_other; [reflexivity| | |]; intros ->; cbn in Eg; injection Eg as <-; cbn [f_key] in Hk; destruct Hk as [Hk|Hk]; congruence.
Qed.
