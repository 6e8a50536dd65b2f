(* The schemas of openapi3 that are made of JSON schemas are well formed. *)
From Coq Require Import ZArith Lia.
From Verif Require Import Str SMap Json Types RegistryModel ReflectModel SchemaModel CodecModel CodecTables CodecSpec CodecProofs
  ReadModel ReadSpec ReadProofs.

Lemma each_empty {A} (P : A -> Prop) : each P [].
Proof. split; [constructor|]. intros k x []. Qed.

Section S.
  Variable rnd : Q -> Q.
  Notation wf30 := (wf T30 rnd derived30 extra30).
  Notation ok o := (wf30 (TNamed "SchemaOrRef") (schemav o)).

  (* Members of a schema that hold no schemas. *)
  Record oattrs_ok (a : oattrs) : Prop := {
    ok_type : if_some (fun t => In t ["array"; "boolean"; "integer"; "number"; "object"; "string"]) (oa_type a);
    ok_multiple : if_some (fun q => rnd q = q) (oa_multiple a);
    ok_max : if_some (fun q => rnd q = q) (oa_max a);
    ok_min : if_some (fun q => rnd q = q) (oa_min a);
    ok_maxlen : if_some int64 (oa_maxlen a);
    ok_minlen : if_some int64 (oa_minlen a);
    ok_maxitems : if_some int64 (oa_maxitems a);
    ok_minitems : if_some int64 (oa_minitems a);
    ok_maxprops : if_some int64 (oa_maxprops a);
    ok_minprops : if_some int64 (oa_minprops a);
    ok_enum : Forall (clean rnd) (oa_enum a);
    ok_default : if_some (clean rnd) (oa_default a);
    ok_example : if_some (clean rnd) (oa_example a);
    ok_x : each (clean rnd) (oa_x a) /\ forall k, In k (keys (oa_x a)) -> legal PatX k }.

  Lemma wf_numv x : if_some (fun q => rnd q = q) x -> wf30 (TPtr TFloat) (numv x).
  Proof. intros H. apply wf_optv. intros q E. constructor. exact (H q E). Qed.
  Lemma wf_intv x : if_some int64 x -> wf30 (TPtr TInt) (intv x).
  Proof. intros H. apply wf_optv. intros q E. constructor. exact (H q E). Qed.
  Lemma wf_anyv x : if_some (clean rnd) x -> wf30 (TPtr TAny) (anyv x).
  Proof. intros H. apply wf_optv. intros q E. constructor. exact (H q E). Qed.

  Lemma wf_osch a nt al on an it pr ad : oattrs_ok a ->
    if_some (fun o => ok o) nt -> Forall (fun o => ok o) al -> Forall (fun o => ok o) on -> Forall (fun o => ok o) an ->
    if_some (fun o => ok o) it -> each (fun o => ok o) pr ->
    if_some (fun x => exists b, x = Addl (Some b) None \/ exists s, x = Addl None (Some s) /\ ok s) ad ->
    ok (OSch a nt al on an it pr ad).
  Proof.
    intros A N1 L1 L2 L3 N2 P AD. cbn [schemav]. wstruct; [|apply one_left; reflexivity]. constructor. destruct A.
    wstruct; try (apply wf_numv; assumption); try (apply wf_intv; assumption); try (apply wf_anyv; assumption);
      try (apply wf_optv; assumption); try (apply wf_listv; assumption); try (apply wf_mapv; assumption).
    - apply wf_listv. eapply Forall_impl; [|exact ok_enum0]. intros j C. constructor. exact C.
    - apply wf_optv. intros t E. econstructor; [vm_compute; reflexivity|]. exact (ok_type0 t E).
    - destruct ad as [x|]; [|constructor]. destruct (AD x eq_refl) as (b & [->|(s & -> & W)]); constructor; wstruct.
      + apply one_right. reflexivity.
      + constructor. exact W.
      + apply one_left. reflexivity.
    - destruct ad as [[b s]|]; intros [E|E]; discriminate E.
    - apply wf_anys. exact (proj1 ok_x0).
    - intros k I. apply (proj2 ok_x0). exact (mapv_keys _ _ _ I).
  Qed.

  Lemma oa0_ok : oattrs_ok oa0.
  Proof.
    constructor; try (intros ? E; discriminate E); try apply Forall_nil. split; [apply each_empty|intros k []].
  Qed.

  (* ---------- conversion ---------- *)

  Definition type_ok (x : option string) : Prop := if_some (fun t => In t ["array"; "boolean"; "integer"; "number"; "object"; "string"]) x.
  Lemma check_ok t acc : js_type t -> type_ok (fst acc) -> type_ok (fst (check_nullable t acc)).
  Proof.
    intros T A. unfold check_nullable. destruct (String.eqb_spec t "null") as [->|N]; [exact A|]. intros x E. injection E as <-.
    unfold js_type in T. cbn [In] in T |- *. intuition congruence.
  Qed.
  Lemma from_type_ok t : match t with JTNone => True | JTOne t => js_type t | JTMany ts => Forall js_type ts end ->
    type_ok (fst (from_type t)).
  Proof.
    assert (Z : type_ok (fst (@None string, @None bool))) by (intros x E; discriminate E).
    destruct t as [|t|ts]; cbn [from_type]; intros H; [exact Z|apply check_ok; assumption|].
    revert Z. generalize (@None string, @None bool). induction H as [|t ts T H IH]; intros acc A; cbn [fold_left]; [exact A|].
    apply IH. apply check_ok; assumption.
  Qed.

  Lemma non_zero_ok z : int64 z -> if_some int64 (non_zero z).
  Proof. intros H. unfold non_zero. destruct (z =? 0)%Z; intros x E; [discriminate E|injection E as <-; exact H]. Qed.

  Lemma keys_filter {A} (f : string * A -> bool) m : NoDup (keys m) -> NoDup (keys (filter f m)).
  Proof.
    unfold keys. induction m as [|kv m IH]; intros N; cbn [filter map]; [constructor|]. inversion N as [|x y N1 N2]; subst.
    destruct (f kv); cbn [map]; [|auto]. constructor; [|auto]. intros I. apply N1. apply in_map_iff in I. destruct I as (kv' & E & I).
    apply filter_In in I. rewrite <- E. apply in_map. apply I.
  Qed.

  Lemma from_attrs_ok a : attrs_ok rnd a -> oattrs_ok (from_attrs a).
  Proof.
    intros [ao_type0 F1 F2 F3 I1 I2 I3 I4 I5 I6 C1 C2 ao_examples0 ao_extra0]. unfold from_attrs. pose proof (from_type_ok _ ao_type0) as T. destruct (from_type (ja_type a)) as [ty nu].
    constructor; cbn [oa_type oa_multiple oa_max oa_min oa_maxlen oa_minlen oa_maxitems oa_minitems oa_maxprops oa_minprops oa_enum
      oa_default oa_example oa_x]; try assumption; try (apply non_zero_ok; assumption).
    - destruct (ja_examples a) as [|x l]; intros y E; [discriminate E|]. injection E as <-. inversion ao_examples0; assumption.
    - destruct ao_extra0 as [N C]. split; [split; [apply keys_filter; exact N|]|].
      + intros k x I. apply filter_In in I. exact (C _ _ (proj1 I)).
      + intros k I. unfold keys in I. apply in_map_iff in I. destruct I as ((k' & x) & <- & I). apply filter_In in I. cbn [fst] in *.
        destruct I as [_ P]. apply matches_legal. exact P.
  Qed.

  Lemma all_opt_ok {A C} (f : A -> option C) (P : C -> Prop) l r : all_opt f l = Some r ->
    (forall x y, In x l -> f x = Some y -> P y) -> Forall P r.
  Proof.
    revert r. induction l as [|x l IH]; intros r H I; cbn [all_opt] in H; [injection H as <-; constructor|].
    destruct (f x) as [y|] eqn:E; [|discriminate]. fold (all_opt f l) in H. destruct (all_opt f l) as [r'|]; [|discriminate].
    injection H as <-. constructor; [apply (I x); [left; reflexivity|exact E]|]. apply IH; [reflexivity|].
    intros x' y' I'. apply I. right. exact I'.
  Qed.
  Lemma all_props_ok {A C} (f : A -> option C) (P : C -> Prop) (m : smap A) r : all_props f m = Some r -> NoDup (keys m) ->
    (forall k x y, In (k, x) m -> f x = Some y -> P y) -> each P r /\ keys r = keys m.
  Proof.
    revert r. induction m as [|[k x] m IH]; intros r H N I; cbn [all_props] in H.
    - injection H as <-. split; [apply each_empty|reflexivity].
    - destruct (f x) as [y|] eqn:E; [|discriminate]. fold (all_props f m) in H. destruct (all_props f m) as [r'|]; [|discriminate].
      injection H as <-. unfold keys in N. cbn [map fst] in N. inversion N as [|a b N1 N2]; subst.
      destruct (IH r' eq_refl N2) as [[N' E'] K]; [intros k' x' y' I'; apply (I k'); right; exact I'|].
      assert (KK : keys ((k, y) :: r') = keys ((k, x) :: m)) by (unfold keys in *; cbn [map fst]; congruence).
      split; [|exact KK]. split; [rewrite KK; exact N|]. intros k' z [Z|Z]; [injection Z as <- <-; apply (I k x); [left; reflexivity|exact E]|].
      exact (E' _ _ Z).
  Qed.
  Lemma opt_opt_ok {A C} (f : A -> option C) (P : C -> Prop) x r : opt_opt f x = Some r ->
    (forall a y, x = Some a -> f a = Some y -> P y) -> if_some P r.
  Proof.
    unfold opt_opt. destruct x as [a|]; intros H I; [|injection H as <-; intros y E; discriminate E].
    destruct (f a) as [y|] eqn:E; [|discriminate]. injection H as <-. intros z Z. injection Z as <-. exact (I a y eq_refl E).
  Qed.

  Lemma sch0_ok a : oattrs_ok a -> ok (sch0 a).
  Proof.
    intros A. apply wf_osch; [exact A|..]; try apply Forall_nil; try apply each_empty; intros x E; discriminate E.
  Qed.
  Lemma oref_ok r : ok (ORef r).
  Proof. cbn [schemav]. wstruct; [|apply one_right; reflexivity]. constructor. apply wf_ref30. right. right. right. left. reflexivity. Qed.

  Lemma from_js_ok j : js_ok rnd j -> forall o, from_js j = Some o -> ok o.
  Proof.
    assert (E0 : @each osor (fun o => ok o) []) by (apply each_empty).
    assert (N0 : forall P : osor -> Prop, if_some P None) by (intros P x E; discriminate E).
    assert (A0 : forall P : addl osor -> Prop, if_some P None) by (intros P x E; discriminate E).
    induction 1 as [|b|a r nt al on an it tu pr ad ot|a nt al on an it tu pr ad ot A L HL Op HO ND P HP]; intros o H; cbn [from_js] in H.
    - discriminate H.
    - injection H as <-. unfold from_bool. destruct b; [apply sch0_ok; exact oa0_ok|].
      apply wf_osch; try apply Forall_nil; try apply N0; try apply A0; try exact oa0_ok; try apply E0.
      intros x E. injection E as <-. apply sch0_ok. exact oa0_ok.
    - injection H as <-. destruct (is_true _); [|apply oref_ok]. unfold with_allof_deprecated.
      apply wf_osch; try apply N0; try apply A0; try exact oa0_ok; try apply E0; try apply Forall_nil.
      apply Forall_cons; [|apply Forall_cons; [apply oref_ok|apply Forall_nil]]. apply sch0_ok. destruct oa0_ok. constructor; assumption.
    - destruct (opt_opt from_js nt) as [nt'|] eqn:E1; [|discriminate H]. destruct (all_opt from_js on) as [on'|] eqn:E2; [|discriminate H].
      destruct (all_opt from_js an) as [an'|] eqn:E3; [|discriminate H]. destruct (all_opt from_js al) as [al'|] eqn:E4; [|discriminate H].
      cbv zeta in H.
      match type of H with context [match ?x with Some _ => match opt_opt _ _ with _ => _ end | None => _ end] => destruct x as [ad'|] eqn:E5; [|discriminate H] end.
      destruct (opt_opt from_js it) as [it'|] eqn:E6; [|discriminate H]. destruct (all_props from_js pr) as [pr'|] eqn:E7; [|discriminate H].
      injection H as <-. apply wf_osch.
      + apply from_attrs_ok. exact A.
      + apply (opt_opt_ok _ _ _ _ E1). intros x y -> X. apply (HO x); [left; reflexivity|exact X].
      + apply (all_opt_ok _ _ _ _ E4). intros x y I X. apply (HL x); [apply in_or_app; left; exact I|exact X].
      + apply (all_opt_ok _ _ _ _ E2). intros x y I X. apply (HL x); [apply in_or_app; right; apply in_or_app; left; exact I|exact X].
      + apply (all_opt_ok _ _ _ _ E3). intros x y I X. apply (HL x); [apply in_or_app; right; apply in_or_app; right; exact I|exact X].
      + apply (opt_opt_ok _ _ _ _ E6). intros x y -> X. apply (HO x); [right; left; reflexivity|exact X].
      + apply (all_props_ok _ _ _ _ E7 ND). intros k x y I X. exact (HP k x I y X).
      + intros x X. destruct ad as [j|]; [|injection E5 as <-; discriminate X].
        assert (K : match from_js j with Some y => Some (Some (Addl (@None bool) (Some y))) | None => None end = Some ad' ->
                  exists b, x = Addl (Some b) None \/ exists s, x = Addl None (Some s) /\ ok s).
        { destruct (from_js j) as [y|] eqn:EJ; [|discriminate]. intros Y. injection Y as <-. injection X as <-.
          exists true. right. exists y. split; [reflexivity|]. apply (HO j); [right; right; left; reflexivity|exact EJ]. }
        destruct j as [|b|]; [exact (K E5)| |exact (K E5)]. injection E5 as <-. injection X as <-. exists b. left. reflexivity.
  Qed.

  Lemma unnull_ok o : ok o -> ok (unnull30 o).
  Proof.
    destruct o as [|r|a nt al on an it pr ad]; cbn [unnull30]; auto. intros W. cbn [schemav] in *.
    assert (W1 := proj1 (wf_field _ _ _ _ "SchemaOrRef" _ _ _ _ 0 _ W ltac:(vm_compute; reflexivity) eq_refl)).
    cbn [f_ty nth] in W1. inversion W1 as [| | | | | | | | |t v Wv| | | |]; subst.
    match type of Wv with wf _ _ _ _ _ (VStruct ?l) =>
      assert (W2 : wf30 (TNamed "Schema") (VStruct (set_nth 27 VNil l)))
        by (eapply wf_set; [exact Wv|vm_compute; reflexivity|reflexivity|reflexivity|constructor|wstep|reflexivity]) end.
    cbn [set_nth] in W2. wstruct. all: first [apply one_left; reflexivity|constructor; exact W2].
  Qed.

  Lemma string_ok f : ok (string30 f).
  Proof.
    apply sch0_ok. destruct oa0_ok. constructor; try assumption. intros t E. injection E as <-. cbn [In]. tauto.
  Qed.

  Lemma backend30_ok {J} (schema : J -> jsob) : (forall j, js_ok rnd (schema j)) -> good_backend (good30 rnd schemav) (backend30 schema).
  Proof.
    intros JO. split; [|split].
    - intros j o H. cbn [backend30 b_conv] in H. destruct (from_js (schema j)) as [x|] eqn:E; [|discriminate]. injection H as <-.
      exact (from_js_ok _ (JO j) _ E).
    - exact unnull_ok.
    - exact string_ok.
  Qed.
End S.
