(* What parameters and HTTP security schemes get at their end. *)
From Coq Require Import Lia.
From Verif Require Import Str SMap Json CodecModel CodecTables CodecSpec CodecProofs CodecEnc CodecRound CodecDis CodecRT CodecObjSpec CodecStrict CodecMembers CodecConstr CodecParams CodecWrite AgainSpec AgainProofs.

Section Tail.
  Variable rnd : Q -> Q.
  Notation um := (unmarshal T30 rnd).

  (* No other member is taken for [k]. *)
  Definition alone (M : list (string * json)) (fs : list field) (k : string) : Prop :=
    forall k', In k' (map fst M) -> find_field fs k' = Some 0 -> k' = k.

  Lemma any_open b k name M v : get b T30 = Some (EStruct [mkField name TAny (Some k) false] [PStruct] (Build_dprog [] true [] [] [k] [] [] [] [] [] [] [] [] [] false)) ->
    ty_good T30 (TNamed b) = true -> NoDup (map fst M) -> alone M [mkField name TAny (Some k) false] k ->
    um (TNamed b) (JObj M) = Some v -> exists y, In (k, y) M /\ v = VStruct [VAny (canon rnd y)].
  Proof.
    intros G TG N A E.
    assert (R := accept_raw T30 rnd b _ _ _ M v G TG N E). destruct R as (R1 & _). specialize (R1 k (or_introl eq_refl)). apply key_pair in R1. destruct R1 as [y Iy].
    destruct (plain_open T30 rnd b _ _ _ M v G TG ltac:(repeat split) E) as (vs0 & vs & -> & L0 & Z0 & D). cbn [d_struct] in D.
    assert (K : map fst (mview T30 rnd M) = map fst M) by apply mview_keys.
    assert (F : find_field [mkField name TAny (Some k) false] k = Some 0). { unfold find_field, find_at. cbn [f_key]. rewrite String.eqb_refl. reflexivity. }
    destruct (dec_fields_at _ k (dec T30 rnd y) 0 _ _ _ D) as [H _]; [rewrite K; exact N|exact F|rewrite K; exact A|].
    destruct (H y) as (f & v0 & w & Ef & Ev0 & Ed & Ew); [apply mview_In; auto|]. cbn [nth_error] in Ef. injection Ef as <-. cbn [f_ty] in Ed.
    assert (X : dec T30 rnd y TAny v0 = Some (VAny (canon rnd y))) by (rewrite (dec_at T30 rnd); destruct LVL_S as [l' ->]; reflexivity).
    rewrite X in Ed. injection Ed as <-. exists y. split; [exact Iy|]. f_equal.
    assert (L : length vs = length vs0).
    { clear -D. revert vs0 vs D. induction (mview T30 rnd M) as [|[k1 [j1 d1]] ms IH]; intros vs0 vs D; cbn [dec_fields] in D; [congruence|].
      destruct (find_field _ k1) as [i|]; [|auto]. destruct (nth_error _ i); [|discriminate]. destruct (nth_error vs0 i) as [x|]; [|discriminate]. destruct (d1 _ x); [|discriminate].
      apply IH in D. rewrite length_set in D. exact D. }
    cbn [length] in L0. destruct vs as [|a [|? ?]]; cbn [length] in L; try lia. cbn [nth_error] in Ew. congruence.
  Qed.

  (* A parameter in path or query. *)
  Lemma styled_open b en vals consts req M v : get b T30 = Some (EStruct [mkField "Style" (TPtr (TNamed en)) (Some "style") true] [PConst consts; PStruct]
      (Build_dprog [] true [] [] req [] consts [] [] [] [] [] [] [] false)) ->
    get en T30 = Some (EEnum vals) -> ty_good T30 (TNamed b) = true -> NoDup (map fst M) ->
    alone M [mkField "Style" (TPtr (TNamed en)) (Some "style") true] "style" -> ~ In ("style", JNull) M ->
    um (TNamed b) (JObj M) = Some v ->
    exists e, enc T30 v (TNamed b) = Some (JObj (consts ++ e)) /\ (~ In "style" (map fst M) /\ e = [] \/ exists s, In ("style", s) M /\ e = [("style", s)]).
  Proof.
    intros G Ge TG N A NN E.
    destruct (plain_open T30 rnd b _ _ _ M v G TG ltac:(repeat split) E) as (vs0 & vs & -> & L0 & Z0 & D). cbn [d_struct] in D.
    assert (K : map fst (mview T30 rnd M) = map fst M) by apply mview_keys.
    set (fs := [mkField "Style" (TPtr (TNamed en)) (Some "style") true]) in *.
    assert (F : find_field fs "style" = Some 0) by reflexivity.
    assert (L : length vs = length vs0).
    { clear -D. revert vs0 vs D. induction (mview T30 rnd M) as [|[k1 [j1 d1]] ms IH]; intros vs0 vs D; cbn [dec_fields] in D; [congruence|].
      destruct (find_field _ k1) as [i|]; [|auto]. destruct (nth_error fs i); [|discriminate]. destruct (nth_error vs0 i) as [x|]; [|discriminate]. destruct (d1 _ x); [|discriminate].
      apply IH in D. rewrite length_set in D. exact D. }
    cbn [length fs] in L0. destruct vs0 as [|v0 [|? ?]]; cbn [length] in L0; try discriminate. destruct vs as [|a [|? ?]]; try discriminate L. clear L L0.
    assert (V0 : v0 = VNil). { destruct (Z0 0 _ v0 eq_refl eq_refl) as (k & _ & ->). apply zero_ptr. }
    assert (EN : forall m, enc_fields fs (encs T30 [a]) = Some m -> enc T30 (VStruct [a]) (TNamed b) = Some (JObj (consts ++ m))).
    { intros m Em. rewrite (enc_struct T30 _ _ _ _ _ G). cbn [map enc_part]. fold fs. rewrite Em. cbn [seq_opt]. rewrite junion_objs; [cbn [map concat objs]; rewrite app_nil_r; reflexivity|].
      intros j [<-|[<-|[]]]; right; eauto. }
    assert (Hs : forall y, dec_fields fs (mview T30 rnd M) [v0] = Some [a] -> (In ("style", y) M -> exists w, dec T30 rnd y (TPtr (TNamed en)) v0 = Some w /\ a = w) /\ (~ In "style" (map fst M) -> a = v0)).
    { intros y D'. destruct (dec_fields_at fs "style" (dec T30 rnd y) 0 _ _ _ D') as [H1 H2]; [rewrite K; exact N|exact F|rewrite K; exact A|]. split.
      - intros Iy. destruct (H1 y) as (f & v & w & Ef & Ev & Ed & Ew); [apply mview_In; auto|]. cbn [nth_error fs] in Ef, Ev, Ew. injection Ef as <-. injection Ev as <-. injection Ew as <-. eauto.
      - intros Ni. rewrite K in H2. specialize (H2 Ni). cbn [nth_error] in H2. congruence. }
    destruct (in_dec string_dec "style" (map fst M)) as [I|I].
    - apply key_pair in I. destruct I as [y Iy]. destruct (Hs y D) as [H _]. destruct (H Iy) as (w & Ed & ->).
      assert (W : y = JNull \/ exists s, y = JStr s /\ w = VPtr (VStr s) /\ in_list s vals = true).
      { rewrite (dec_at T30 rnd) in Ed. assert (LL : LVL = S (S 8)) by reflexivity. rewrite LL in Ed. rewrite at_ptr in Ed.
        destruct y; try (left; reflexivity); right; rewrite (at_enum T30 rnd _ _ _ _ _ Ge) in Ed; try discriminate Ed.
        destruct (in_list s vals) eqn:Is; [|discriminate]. injection Ed as <-. eauto. }
      destruct W as [->|(s & -> & -> & Is)]; [contradiction|].
      exists [("style", JStr s)]. split; [|right; eauto]. apply EN. cbn [enc_fields encs map fs f_key f_omit is_empty andb f_ty enc]. rewrite Ge, Is. reflexivity.
    - destruct (Hs JNull D) as [_ H]. rewrite (H I), V0 in EN. exists []. split; [|left; auto]. rewrite (H I), V0. apply EN. reflexivity.
  Qed.

  Lemma xor_open s M v : NoDup (map fst M) -> distinct (JObj M) -> sdesc s M ->
    exact_check s [mkField "Schema" TAny (Some "schema") false] = true -> exact_check s [mkField "Content" TAny (Some "content") false] = true ->
    um (TNamed "SchemaXORContent") (JObj M) = Some v ->
    exists k y, In k ["schema"; "content"] /\ In (k, y) M /\ enc T30 v (TNamed "SchemaXORContent") = Some (JObj [(k, rounded rnd y)]).
  Proof.
    intros N Dj SD C1 C2 E.
    assert (Al : forall f k, f_key f = Some k -> exact_check s [f] = true -> alone M [f] k).
    { intros f k Ek C k' I F. pose proof (exact_ok s _ M SD C k' 0 _ I F eq_refl) as X. congruence. }
    assert (Dy : forall k y, In (k, y) M -> distinct y). { inversion Dj; subst. assumption. }
    edestruct (union_values T30 rnd "SchemaXORContent") as [V C]; [vm_compute; reflexivity|apply union_ok; vm_compute; reflexivity|vm_compute; reflexivity| |exact E|].
    { intros f [<-|[<-|[]]]; vm_compute; reflexivity. }
    subst v. clear E. cbn [map f_ty] in C |- *.
    destruct (um (TPtr (TNamed "HasSchema")) (JObj M)) as [x|] eqn:E1; destruct (um (TPtr (TNamed "HasContent")) (JObj M)) as [x'|] eqn:E2;
      cbn [filter is_some length] in C; try discriminate C; cbn [or_nil].
    - apply ptr_obj in E1; [|vm_compute; reflexivity]. destruct E1 as (w & -> & E1).
      eapply any_open in E1; [|vm_compute; reflexivity|vm_compute; reflexivity|exact N|apply Al; [reflexivity|exact C1]]. destruct E1 as (y & Iy & ->).
      exists "schema", y. split; [left; reflexivity|]. split; [exact Iy|]. rewrite (canon_rounded rnd y (Dy _ _ Iy)). reflexivity.
    - apply ptr_obj in E2; [|vm_compute; reflexivity]. destruct E2 as (w & -> & E2).
      eapply any_open in E2; [|vm_compute; reflexivity|vm_compute; reflexivity|exact N|apply Al; [reflexivity|exact C2]]. destruct E2 as (y & Iy & ->).
      exists "content", y. split; [right; left; reflexivity|]. split; [exact Iy|]. rewrite (canon_rounded rnd y (Dy _ _ Iy)). reflexivity.
  Qed.

  Lemma one_enc b i fs parts d vs w e f : get b T30 = Some (EStruct fs parts d) -> pure_union fs parts d = true -> length fs = length vs ->
    In i (d_oneof d) -> nth_error vs i = Some (VPtr w) -> (forall k, In k (d_oneof d) -> k <> i -> nth_error vs k = Some VNil) ->
    nth_error fs i = Some f -> enc T30 (VPtr w) (f_ty f) = Some (JObj e) -> enc T30 (VStruct vs) (TNamed b) = Some (JObj e).
  Proof.
    intros G U L I Ei Ek Ef Ee. eapply union_enc; [exact G|apply union_ok; exact U|exact L|exact I|exact Ei|exact Ek|exact Ef|exact Ee|discriminate].
  Qed.

  Lemma loc_open s M v : NoDup (map fst M) -> sdesc s M ->
    exact_check s [mkField "Style" (TPtr (TNamed "PathParameterStyle")) (Some "style") true] = true ->
    exact_check s [mkField "Style" (TPtr (TNamed "QueryParameterStyle")) (Some "style") true] = true ->
    In "in" (map fst M) -> ~ In ("style", JNull) M ->
    um (TNamed "ParameterLocation") (JObj M) = Some v ->
    exists i r st, In ("in", JStr i) M /\ r = (if String.eqb i "path" then [("required", JBool true)] else []) /\ incl r M /\ style_again M i st /\
      enc T30 v (TNamed "ParameterLocation") = Some (JObj (("in", JStr i) :: r ++ st)).
  Proof.
    intros N SD C1 C2 Hin NN E.
    assert (Al : forall f k, f_key f = Some k -> exact_check s [f] = true -> alone M [f] k).
    { intros f k Ek C k' I F. pose proof (exact_ok s _ M SD C k' 0 _ I F eq_refl) as X. congruence. }
    edestruct (union_values T30 rnd "ParameterLocation") as [V C]; [vm_compute; reflexivity|apply union_ok; vm_compute; reflexivity|vm_compute; reflexivity| |exact E|].
    { intros f [<-|[<-|[<-|[<-|[]]]]]; vm_compute; reflexivity. }
    subst v. clear E. cbn [map f_ty] in C |- *.
    destruct (um (TPtr (TNamed "PathParameter")) (JObj M)) as [x|] eqn:E1; destruct (um (TPtr (TNamed "QueryParameter")) (JObj M)) as [x2|] eqn:E2;
    destruct (um (TPtr (TNamed "HeaderParameter")) (JObj M)) as [x3|] eqn:E3; destruct (um (TPtr (TNamed "CookieParameter")) (JObj M)) as [x4|] eqn:E4;
      cbn [filter is_some length] in C; try discriminate C; cbn [or_nil]; clear C.
    - apply ptr_obj in E1; [|vm_compute; reflexivity]. destruct E1 as (w & -> & E1).
      destruct (loc_styles rnd M w "PathParameter" "path" N (or_introl eq_refl) E1 Hin) as (I1 & I2 & _).
      eapply styled_open in E1; [|vm_compute; reflexivity|vm_compute; reflexivity|vm_compute; reflexivity|exact N|apply Al; [reflexivity|exact C1]|exact NN].
      destruct E1 as (e & Ee & He). exists "path", [("required", JBool true)], e. split; [exact I1|]. split; [reflexivity|].
      split; [intros y [<-|[]]; exact (I2 eq_refl)|]. split.
      + destruct He as [[Ns ->]|(st & Is & ->)]; [apply style_none; [left; reflexivity|exact Ns]|apply style_kept; [left; reflexivity|exact Is]].
      + eapply (one_enc "ParameterLocation" 0); [vm_compute; reflexivity|vm_compute; reflexivity|reflexivity|left; reflexivity|reflexivity| |reflexivity|].
        * intros k Ik Nk. cbn [In d_oneof] in Ik. destruct Ik as [<-|[<-|[<-|[<-|[]]]]]; congruence || reflexivity.
        * cbn [enc f_ty]. exact Ee.
    - apply ptr_obj in E2; [|vm_compute; reflexivity]. destruct E2 as (w & -> & E2).
      destruct (loc_styles rnd M w "QueryParameter" "query" N (or_intror (or_introl eq_refl)) E2 Hin) as (I1 & _ & _).
      eapply styled_open in E2; [|vm_compute; reflexivity|vm_compute; reflexivity|vm_compute; reflexivity|exact N|apply Al; [reflexivity|exact C2]|exact NN].
      destruct E2 as (e & Ee & He). exists "query", [], e. split; [exact I1|]. split; [reflexivity|].
      split; [intros y []|]. split.
      + destruct He as [[Ns ->]|(st & Is & ->)]; [apply style_none; [right; left; reflexivity|exact Ns]|apply style_kept; [right; left; reflexivity|exact Is]].
      + eapply (one_enc "ParameterLocation" 1); [vm_compute; reflexivity|vm_compute; reflexivity|reflexivity|right; left; reflexivity|reflexivity| |reflexivity|].
        * intros k Ik Nk. cbn [In d_oneof] in Ik. destruct Ik as [<-|[<-|[<-|[<-|[]]]]]; congruence || reflexivity.
        * cbn [enc f_ty]. exact Ee.
    - apply ptr_obj in E3; [|vm_compute; reflexivity]. destruct E3 as (w & -> & E3).
      destruct (loc_styles rnd M w "HeaderParameter" "header" N (or_intror (or_intror (or_introl eq_refl))) E3 Hin) as (I1 & _ & _).
      assert (R := accept_raw T30 rnd "HeaderParameter" _ _ _ M w eq_refl eq_refl N E3). cbn [d_const] in R. destruct R as (_ & _ & R3 & _).
      eapply plain_open in E3; [|vm_compute; reflexivity|vm_compute; reflexivity|repeat split]. destruct E3 as (vs0 & vs & -> & L0 & _ & D). cbn [d_struct] in D. injection D as <-.
      destruct vs0; [|discriminate L0]. exists "header", [], [("style", JStr "simple")]. split; [exact I1|]. split; [reflexivity|].
      split; [intros y []|]. split; [|vm_compute; reflexivity]. apply style_header. intros I. apply key_pair in I. destruct I as [y Iy].
      rewrite <- (R3 "style" (JStr "simple") y); [exact Iy|right; left; reflexivity|exact Iy].
    - apply ptr_obj in E4; [|vm_compute; reflexivity]. destruct E4 as (w & -> & E4).
      destruct (loc_styles rnd M w "CookieParameter" "cookie" N (or_intror (or_intror (or_intror (or_introl eq_refl)))) E4 Hin) as (I1 & _ & _).
      assert (R := accept_raw T30 rnd "CookieParameter" _ _ _ M w eq_refl eq_refl N E4). cbn [d_const] in R. destruct R as (_ & _ & R3 & _).
      eapply plain_open in E4; [|vm_compute; reflexivity|vm_compute; reflexivity|repeat split]. destruct E4 as (vs0 & vs & -> & L0 & _ & D). cbn [d_struct] in D. injection D as <-.
      destruct vs0; [|discriminate L0]. exists "cookie", [], [("style", JStr "form")]. split; [exact I1|]. split; [reflexivity|].
      split; [intros y []|]. split; [|vm_compute; reflexivity]. apply style_cookie. intros I. apply key_pair in I. destruct I as [y Iy].
      rewrite <- (R3 "style" (JStr "form") y); [exact Iy|right; left; reflexivity|exact Iy].
  Qed.

  Notation wfs := (CodecEnc.wfs T30 rnd derived30 extra30).

  Lemma parameter_end fs parts d vs M vs' : wfs "Parameter" fs parts d vs -> M = obj_of T30 fs parts vs -> um (TNamed "Parameter") (JObj M) = Some (VStruct vs') ->
    parts = [PStruct; PField 15; PField 13; PField 14] /\ seg T30 fs vs (PField 13) = [] /\ seg T30 fs vs (PField 14) = [] /\
    exists e13 e14, enc_part fs (encs T30 vs') (PField 13) = Some (JObj e13) /\ enc_part fs (encs T30 vs') (PField 14) = Some (JObj e14) /\
      parameter_again rnd M (e13 ++ e14).
  Proof.
    intros W EM U. pose proof (W_get _ _ _ _ _ _ _ _ _ W) as G. vm_compute in G. injection G as <- <- <-. split; [reflexivity|].
    match type of W with CodecEnc.wfs _ _ _ _ _ ?fs ?parts ?d _ =>
      assert (Jb : joined T30 derived30 "Parameter" fs parts d = true) by (vm_compute; reflexivity) end.
    pose proof (obj_descr T30 rnd derived30 extra30 _ _ _ _ _ (ok30) W Jb) as DS.
    pose proof (shape_ok T30 rnd derived30 extra30 (ok30) _ _ _ _ _ W Jb) as SD. rewrite <- EM in DS, SD.
    pose proof (W_ok _ _ _ _ _ _ _ _ _ W) as Wo. pose proof (W_len _ _ _ _ _ _ _ _ _ W) as L. pose proof (W_field _ _ _ _ _ _ _ _ _ W) as Wf.
    pose proof (D_nodup _ _ _ _ _ DS) as N.
    assert (Dj : distinct (JObj M)).
    { apply (distinct30 rnd "Parameter" (VStruct vs)).
      - eapply wf_struct; try exact (W_get _ _ _ _ _ _ _ _ _ W); try exact L; try exact Wf; try exact Wo; [intros X; discriminate X|exact (W_extra _ _ _ _ _ _ _ _ _ W)].
      - apply joined_ok in Jb. rewrite EM. exact (proj2 (encodes T30 rnd derived30 extra30 (ok30) _ _ _ _ _ W Jb)). }
    assert (Nil : forall i, In i [13; 14] -> nth_error vs i = Some VNil).
    { intros i Ii. destruct (nth_lt_some vs i) as [v Ev]. { rewrite <- L. destruct Ii as [<-|[<-|[]]]; vm_compute; lia. }
      rewrite Ev. f_equal. destruct Ii as [<-|[<-|[]]]; [pose proof (Wo 13 _ v eq_refl Ev) as O|pose proof (Wo 14 _ v eq_refl Ev) as O]; (apply (fo_derived _ _ _ _ _ _ O); [reflexivity|cbn; auto]). }
    split. { unfold seg. erewrite part_field; [|reflexivity|exact (Nil 13 (or_introl eq_refl))]. reflexivity. }
    split. { unfold seg. erewrite part_field; [|reflexivity|exact (Nil 14 (or_intror (or_introl eq_refl)))]. reflexivity. }
    assert (NN : ~ In ("style", JNull) M).
    { intros I. destruct (nth_lt_some vs 6) as [v Ev]; [rewrite <- L; vm_compute; lia|].
      pose proof (Wf 6 _ v eq_refl Ev) as W6. cbn [f_ty] in W6. destruct (wf_ptr_inv _ _ _ _ _ _ W6) as [->|(w & -> & Ww)].
      - apply (D_omit _ _ _ _ _ DS 6 _ "style" VNil eq_refl eq_refl Ev eq_refl). apply keys_In with JNull. exact I.
      - inversion Ww; subst. destruct (D_field _ _ _ _ _ DS 6 _ "style" _ eq_refl eq_refl Ev eq_refl) as (j & Ej & Ij). cbn in Ej. injection Ej as <-.
        pose proof (nodup_eq _ _ _ _ N I Ij). discriminate. }
    assert (Hin : In "in" (map fst M)) by (apply (D_require _ _ _ _ _ DS); cbn; auto).
    assert (E13 : exists vs1 w, VStruct vs' = VStruct vs1 /\ nth_error vs1 13 = Some (VPtr w) /\ um (TNamed "SchemaXORContent") (JObj M) = Some w).
    { eapply accept_embed with (i := 13) (3 := N) (12 := U); [vm_compute; reflexivity|vm_compute; reflexivity| | | |reflexivity|reflexivity|reflexivity|vm_compute; reflexivity|].
      - cbn. repeat constructor. intros [].
      - cbn. auto.
      - cbn. repeat constructor; cbn; intuition discriminate.
      - cbn. intuition discriminate. }
    assert (E14 : exists vs1 w, VStruct vs' = VStruct vs1 /\ nth_error vs1 14 = Some (VPtr w) /\ um (TNamed "ParameterLocation") (JObj M) = Some w).
    { eapply accept_embed with (i := 14) (3 := N) (12 := U); [vm_compute; reflexivity|vm_compute; reflexivity| | | |reflexivity|reflexivity|reflexivity|vm_compute; reflexivity|].
      - cbn. repeat constructor. intros [].
      - cbn. auto.
      - cbn. repeat constructor; cbn; intuition discriminate.
      - cbn. intuition discriminate. }
    destruct E13 as (vs1 & w13 & X & V13 & U13). injection X as <-. destruct E14 as (vs1 & w14 & X & V14 & U14). injection X as <-.
    destruct (xor_open _ M w13 N Dj SD ltac:(vm_compute; reflexivity) ltac:(vm_compute; reflexivity) U13) as (k & y & Ik & Iy & Ek).
    destruct (loc_open _ M w14 N SD ltac:(vm_compute; reflexivity) ltac:(vm_compute; reflexivity) Hin NN U14) as (i & r & st & Ii & Er & Ir & Hs & Ei).
    exists [(k, rounded rnd y)], (("in", JStr i) :: r ++ st). split; [|split].
    - erewrite part_field; [|reflexivity|exact V13]. exact Ek.
    - erewrite part_field; [|reflexivity|exact V14]. exact Ei.
    - cbn [app]. apply parameter_tail; assumption.
  Qed.

  Lemma two_alts (same : decoder) fs a b fa fb vs : nth_error fs a = Some fa -> nth_error fs b = Some fb -> a <> b ->
    nth_error vs a = Some VNil -> nth_error vs b = Some VNil ->
    dec_alts same fs [a; b] vs 0 =
    (set_nth b (or_nil (same (f_ty fb) VNil)) (set_nth a (or_nil (same (f_ty fa) VNil)) vs), (Nat.b2n (is_some (same (f_ty fb) VNil)) + Nat.b2n (is_some (same (f_ty fa) VNil)))%nat).
  Proof.
    intros Ea Eb Nab Va Vb. cbn [dec_alts]. rewrite Ea, Va. destruct (same (f_ty fa) VNil) as [x|]; rewrite Eb, nth_set_other by congruence; rewrite Vb; destruct (same (f_ty fb) VNil); reflexivity.
  Qed.

  Lemma pair_split {A B} (a c : A) (b d : B) : (a, b) = (c, d) -> a = c /\ b = d.
  Proof. intros E. split; congruence. Qed.

  Lemma http_end fs parts d vs M vs' : wfs "HTTPSecurityScheme" fs parts d vs -> M = obj_of T30 fs parts vs -> um (TNamed "HTTPSecurityScheme") (JObj M) = Some (VStruct vs') ->
    parts = [PConst [("type", JStr "http")]; PStruct; PField 5; PField 3; PField 4] /\ seg T30 fs vs (PField 3) = [] /\ seg T30 fs vs (PField 4) = [] /\
    exists j3 j4, enc_part fs (encs T30 vs') (PField 3) = Some j3 /\ enc_part fs (encs T30 vs') (PField 4) = Some j4 /\
      (j3 = JNull \/ exists m, j3 = JObj m) /\ (j4 = JNull \/ exists m, j4 = JObj m) /\ http_again M (objs j3 ++ objs j4).
  Proof.
    intros W EM U. pose proof (W_get _ _ _ _ _ _ _ _ _ W) as G. vm_compute in G. injection G as <- <- <-. split; [reflexivity|].
    match type of W with CodecEnc.wfs _ _ _ _ _ ?fs ?parts ?d _ =>
      assert (Jb : joined T30 derived30 "HTTPSecurityScheme" fs parts d = true) by (vm_compute; reflexivity) end.
    pose proof (obj_descr T30 rnd derived30 extra30 _ _ _ _ _ (ok30) W Jb) as DS. rewrite <- EM in DS.
    pose proof (W_ok _ _ _ _ _ _ _ _ _ W) as Wo. pose proof (W_len _ _ _ _ _ _ _ _ _ W) as L. pose proof (W_field _ _ _ _ _ _ _ _ _ W) as Wf.
    pose proof (D_nodup _ _ _ _ _ DS) as N.
    assert (Nil : forall i, In i [3; 4] -> nth_error vs i = Some VNil).
    { intros i Ii. destruct (nth_lt_some vs i) as [v Ev]. { rewrite <- L. destruct Ii as [<-|[<-|[]]]; vm_compute; lia. }
      rewrite Ev. f_equal. destruct Ii as [<-|[<-|[]]]; [pose proof (Wo 3 _ v eq_refl Ev) as O|pose proof (Wo 4 _ v eq_refl Ev) as O]; (apply (fo_derived _ _ _ _ _ _ O); [reflexivity|cbn; auto]). }
    split. { unfold seg. erewrite part_field; [|reflexivity|exact (Nil 3 (or_introl eq_refl))]. reflexivity. }
    split. { unfold seg. erewrite part_field; [|reflexivity|exact (Nil 4 (or_intror (or_introl eq_refl)))]. reflexivity. }
    assert (Sc : exists s, In ("scheme", JStr s) M).
    { destruct (nth_lt_some vs 0) as [v Ev]; [rewrite <- L; vm_compute; lia|]. pose proof (Wf 0 _ v eq_refl Ev) as W0. cbn [f_ty] in W0. inversion W0; subst v.
      destruct (D_field _ _ _ _ _ DS 0 _ "scheme" (VStr s) eq_refl eq_refl Ev eq_refl) as (j & Ej & I). cbn in Ej. injection Ej as <-. eauto. }
    destruct Sc as [sc Isc].
    eapply alts_open in U; [|vm_compute; reflexivity|vm_compute; reflexivity|exact N| |reflexivity|discriminate|].
    2: { cbn. repeat constructor. intros []. }
    2: { cbn [d_oneof]. intros i f [<-|[<-|[]]] Ef; vm_compute in Ef; injection Ef as <-; (split; [reflexivity|eexists; split; [reflexivity|vm_compute; reflexivity]]). }
    destruct U as (vs1 & vs2 & vs3 & same & X & A & L2 & Hs & Hv). injection X as <-. cbn [d_oneof] in A, Hs.
    destruct (Hs 3 _ (or_introl eq_refl) eq_refl) as [V3 S3]. destruct (Hs 4 _ (or_intror (or_introl eq_refl)) eq_refl) as [V4 S4]. cbn [f_ty] in S3, S4.
    assert (Hv3 : nth_error vs' 3 = nth_error vs3 3) by (apply Hv; cbn; intuition discriminate).
    assert (Hv4 : nth_error vs' 4 = nth_error vs3 4) by (apply Hv; cbn; intuition discriminate). clear Hv Hs.
    assert (Lv : 4 < length vs2) by (rewrite <- L2; vm_compute; lia).
    erewrite two_alts in A; [|reflexivity|reflexivity|discriminate|exact V3|exact V4]. cbn [f_ty] in A. rewrite S3, S4 in A.
    destruct (um (TPtr (TNamed "Bearer")) (JObj M)) as [x3|] eqn:E3; destruct (um (TPtr (TNamed "NonBearer")) (JObj M)) as [x4|] eqn:E4;
      cbn [or_nil is_some Nat.b2n Nat.add] in A; apply pair_split in A; destruct A as [A A2]; try discriminate A2.
    - (* bearer *)
      apply ptr_obj in E3; [|vm_compute; reflexivity]. destruct E3 as (w & -> & E3).
      assert (R := accept_raw T30 rnd "Bearer" _ _ _ M w eq_refl eq_refl N E3). cbn [d_const] in R. destruct R as (_ & _ & R3 & _).
      eapply plain_open in E3; [|vm_compute; reflexivity|vm_compute; reflexivity|repeat split]. destruct E3 as (vs0 & vs1 & -> & L0 & _ & D). cbn [d_struct] in D. injection D as <-.
      destruct vs0; [|discriminate L0].
      rewrite <- A, nth_set_other, nth_set_same in Hv3 by (discriminate || lia). rewrite <- A, nth_set_same in Hv4 by (rewrite length_set; lia).
      exists (JObj [("scheme", JStr "bearer")]), JNull. split; [erewrite part_field; [|reflexivity|exact Hv3]; vm_compute; reflexivity|].
      split; [erewrite part_field; [|reflexivity|exact Hv4]; reflexivity|]. split; [eauto|]. split; [auto|]. cbn [objs app]. apply http_bearer.
      rewrite <- (R3 "scheme" (JStr "bearer") (JStr sc)); [exact Isc|left; reflexivity|exact Isc].
    - (* other *)
      apply ptr_obj in E4; [|vm_compute; reflexivity]. destruct E4 as (w & -> & E4).
      assert (NB : sc <> "bearer").
      { intros ->. eapply open_named in E4; [|vm_compute; reflexivity|vm_compute; reflexivity]. destruct E4 as (l & vs0 & vs1 & _ & _ & _ & _ & D & _).
        rewrite dec_ent_raw in D; [discriminate|]. apply dec_raw_checks. rewrite raw_mview by exact N.
        unfold raw_checks. cbn [d_require d_xor d_const d_notconst d_absent forallb fst snd]. rewrite (raw_is_In T30 rnd M _ _ _ N Isc). reflexivity. }
      eapply plain_open in E4; [|vm_compute; reflexivity|vm_compute; reflexivity|repeat split]. destruct E4 as (vs0 & vs1 & -> & L0 & Z0 & D). cbn [d_struct] in D. injection D as <-.
      destruct vs0 as [|z [|? ?]]; try discriminate L0. pose proof (Z0 0 _ z eq_refl eq_refl) as Hz. apply zero_ptr_nil in Hz. subst z.
      rewrite <- A, nth_set_other, nth_set_same in Hv3 by (discriminate || lia). rewrite <- A, nth_set_same in Hv4 by (rewrite length_set; lia).
      exists JNull, (JObj []). split; [erewrite part_field; [|reflexivity|exact Hv3]; reflexivity|].
      split; [erewrite part_field; [|reflexivity|exact Hv4]; vm_compute; reflexivity|]. split; [auto|]. split; [eauto|]. cbn [objs app]. eapply http_other; eassumption.
  Qed.
End Tail.
