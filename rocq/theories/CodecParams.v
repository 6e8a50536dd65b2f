(* Parameters, headers and links: what belongs together. *)
From Verif Require Import Str SMap Json CodecModel CodecTables CodecSpec CodecProofs CodecEnc CodecRound CodecDis CodecRT CodecObjSpec CodecStrict CodecMembers CodecConstr.

(* The locations of a parameter and the styles of each, OpenAPI 3.0.3, Parameter
   Object and Style Values. *)
Definition styles30 : list (string * list string) :=
  [("path", ["matrix"; "label"; "simple"]); ("query", ["form"; "spaceDelimited"; "pipeDelimited"; "deepObject"]);
   ("header", ["simple"]); ("cookie", ["form"])].

(* The Go field of a location. *)
Definition location_field : list (string * string) :=
  [("path", "PathParameter"); ("query", "QueryParameter"); ("header", "HeaderParameter"); ("cookie", "CookieParameter")].

(* A value of ParameterLocation that has the alternative of a location and no other one. *)
Definition located (i : string) (w : val) : Prop :=
  exists ws a, w = VStruct ws /\ forall i' x, In (i', x) location_field ->
    exists t, by_name x (fields_of T30 "ParameterLocation") ws = Some (t, if String.eqb i' i then VPtr a else VNil).

Section Params.
  Variable rnd : Q -> Q.

  Lemma enum_ptr T j n vals old w : get n T = Some (EEnum vals) -> dec T rnd j (TPtr (TNamed n)) old = Some w ->
    j = JNull \/ exists s, j = JStr s /\ In s vals.
  Proof.
    intros G E. rewrite (dec_at T rnd) in E. assert (L : LVL = S (S 8)) by reflexivity. rewrite L in E. rewrite at_ptr in E.
    destruct j; try (left; reflexivity); right; rewrite (at_enum T rnd _ _ _ _ _ G) in E; try discriminate E.
    destruct (in_list s vals) eqn:I; [|discriminate]. exists s. split; [reflexivity|]. apply in_list_In. exact I.
  Qed.

  Lemma loc_styles M w n i : NoDup (map fst M) -> In (i, n) location_field -> unmarshal T30 rnd (TNamed n) (JObj M) = Some w -> In "in" (map fst M) ->
    In ("in", JStr i) M /\ (i = "path" -> In ("required", JBool true) M) /\
    (forall j, In ("style", j) M -> j = JNull /\ (i = "path" \/ i = "query") \/ exists s ss, j = JStr s /\ In (i, ss) styles30 /\ In s ss).
  Proof.
    intros N I E Hin. apply key_pair in Hin. destruct Hin as [ji Iin]. unfold location_field in I. cbn [In] in I.
    destruct I as [I|[I|[I|[I|[]]]]]; injection I as <- <-.
    - assert (R := accept_raw T30 rnd "PathParameter" _ _ _ M w eq_refl eq_refl N E). cbn [d_require d_xor d_const] in R. destruct R as (R1 & _ & R3 & _).
      split; [|split].
      + rewrite <- (R3 "in" (JStr "path") ji); [exact Iin|left; reflexivity|exact Iin].
      + intros _. specialize (R1 "required" (or_introl eq_refl)). apply key_pair in R1. destruct R1 as [j Ij].
        rewrite <- (R3 "required" (JBool true) j); [exact Ij|right; left; reflexivity|exact Ij].
      + intros j Ij. destruct (accept_member T30 rnd "PathParameter" _ _ _ M w "style" j 0 eq_refl eq_refl eq_refl Ij eq_refl E) as (f & o & v & Ef & D).
        cbn [nth_error] in Ef. injection Ef as <-. cbn [f_ty] in D. destruct (enum_ptr T30 j "PathParameterStyle" _ o v eq_refl D) as [->|(s & -> & Is)]; [left; auto|].
        right. exists s. eexists. split; [reflexivity|]. split; [left; reflexivity|]. cbn [In] in Is |- *. tauto.
    - assert (R := accept_raw T30 rnd "QueryParameter" _ _ _ M w eq_refl eq_refl N E). cbn [d_require d_xor d_const] in R. destruct R as (R1 & _ & R3 & _).
      split; [|split].
      + rewrite <- (R3 "in" (JStr "query") ji); [exact Iin|left; reflexivity|exact Iin].
      + discriminate.
      + intros j Ij. destruct (accept_member T30 rnd "QueryParameter" _ _ _ M w "style" j 0 eq_refl eq_refl eq_refl Ij eq_refl E) as (f & o & v & Ef & D).
        cbn [nth_error] in Ef. injection Ef as <-. cbn [f_ty] in D. destruct (enum_ptr T30 j "QueryParameterStyle" _ o v eq_refl D) as [->|(s & -> & Is)]; [left; auto|].
        right. exists s. eexists. split; [reflexivity|]. split; [right; left; reflexivity|]. cbn [In] in Is |- *. tauto.
    - assert (R := accept_raw T30 rnd "HeaderParameter" _ _ _ M w eq_refl eq_refl N E). cbn [d_require d_xor d_const] in R. destruct R as (R1 & _ & R3 & _).
      split; [|split].
      + rewrite <- (R3 "in" (JStr "header") ji); [exact Iin|left; reflexivity|exact Iin].
      + discriminate.
      + intros j Ij. right. exists "simple". eexists. split; [apply (R3 "style"); [right; left; reflexivity|exact Ij]|]. split; [right; right; left; reflexivity|left; reflexivity].
    - assert (R := accept_raw T30 rnd "CookieParameter" _ _ _ M w eq_refl eq_refl N E). cbn [d_require d_xor d_const] in R. destruct R as (R1 & _ & R3 & _).
      split; [|split].
      + rewrite <- (R3 "in" (JStr "cookie") ji); [exact Iin|left; reflexivity|exact Iin].
      + discriminate.
      + intros j Ij. right. exists "form". eexists. split; [apply (R3 "style"); [right; left; reflexivity|exact Ij]|]. split; [right; right; right; left; reflexivity|left; reflexivity].
  Qed.

  Lemma xor_content M v : NoDup (map fst M) -> unmarshal T30 rnd (TNamed "SchemaXORContent") (JObj M) = Some v ->
    (In "schema" (map fst M) <-> ~ In "content" (map fst M)).
  Proof.
    intros N E. split.
    - intros H1 H2. assert (X := accept_not T30 rnd "SchemaXORContent" _ _ _ M v (TNamed "SchemaXORContentNot") eq_refl eq_refl (or_introl eq_refl) eq_refl E).
      destruct (accept_any T30 rnd "SchemaXORContentNot" _ _ _ M eq_refl eq_refl) as [w W]; try reflexivity.
      + intros f [<-|[<-|[]]]; reflexivity.
      + intros k [<-|[<-|[]]]; assumption.
      + congruence.
    - intros H2. destruct (accept_alt T30 rnd "SchemaXORContent" _ _ _ M v eq_refl eq_refl eq_refl) as (i & f & m & w & I & Ef & Et & U).
      + discriminate.
      + cbn [d_oneof]. constructor; [intros [X|[]]; discriminate X|]. constructor; [intros []|constructor].
      + intros i f [<-|[<-|[]]] Ef; cbn [nth_error] in Ef; injection Ef as <-; eexists; repeat split; reflexivity.
      + exact E.
      + destruct I as [<-|[<-|[]]]; cbn [nth_error] in Ef; injection Ef as <-; cbn [f_ty] in Et; injection Et as <-.
        * destruct (accept_raw T30 rnd "HasSchema" _ _ _ M w eq_refl eq_refl N U) as (R1 & _). apply R1. left. reflexivity.
        * exfalso. apply H2. destruct (accept_raw T30 rnd "HasContent" _ _ _ M w eq_refl eq_refl N U) as (R1 & _). apply R1. left. reflexivity.
  Qed.

  Lemma location M v : NoDup (map fst M) -> unmarshal T30 rnd (TNamed "ParameterLocation") (JObj M) = Some v -> In "in" (map fst M) ->
    exists i, located i v /\ In ("in", JStr i) M /\ (i = "path" -> In ("required", JBool true) M) /\
    (forall j, In ("style", j) M -> j = JNull /\ (i = "path" \/ i = "query") \/ exists s ss, j = JStr s /\ In (i, ss) styles30 /\ In s ss) /\
    In i (map fst styles30).
  Proof.
    intros N E H. apply (choice T30 rnd "ParameterLocation" (map (fun n => TPtr (TNamed n)) ["PathParameter"; "QueryParameter"; "HeaderParameter"; "CookieParameter"])) in E; [|vm_compute; reflexivity].
    destruct E as (l & t & r & w & Es & U & _ & ->).
    assert (P : forall n, lvl_ok T30 LVL (TPtr (TNamed n)) = true -> lvl_ok T30 LVL (TNamed n) = true -> unmarshal T30 rnd (TPtr (TNamed n)) (JObj M) = Some w ->
      exists w', w = VPtr w' /\ unmarshal T30 rnd (TNamed n) (JObj M) = Some w').
    { intros n L1 L2 X. unfold unmarshal in X. rewrite (dec_at T30 rnd) in X. destruct LVL_S as [k Lk]. rewrite Lk in X at 1. rewrite at_ptr in X. cbv iota in X.
      rewrite zero_ptr in X. cbv iota in X. rewrite Lk in L1. cbn [lvl_ok] in L1. destruct (CodecProofs.at_ T30 rnd (JObj M) k _ _) as [w'|] eqn:A; [|discriminate]. injection X as <-.
      exists w'. split; [reflexivity|]. rewrite <- A. symmetry. apply at_unmarshal; assumption. }
    cbn [map] in Es.
    assert (Go : forall i n, In (i, n) location_field -> t = TPtr (TNamed n) -> lvl_ok T30 LVL (TPtr (TNamed n)) = true -> lvl_ok T30 LVL (TNamed n) = true ->
      (forall a, w = VPtr a -> located i (VStruct (map (fun _ => VNil) l ++ w :: map (fun _ => VNil) r))) ->
      In i (map fst styles30) -> 
      exists i, located i (VStruct (map (fun _ => VNil) l ++ w :: map (fun _ => VNil) r)) /\ In ("in", JStr i) M /\ (i = "path" -> In ("required", JBool true) M) /\
      (forall j, In ("style", j) M -> j = JNull /\ (i = "path" \/ i = "query") \/ exists s ss, j = JStr s /\ In (i, ss) styles30 /\ In s ss) /\
      In i (map fst styles30)).
    { intros i n I -> L1 L2 Lo Ii. destruct (P n L1 L2 U) as (w' & Ew & U'). destruct (loc_styles M w' n i N I U' H) as (R1 & R2 & R3).
      exists i. split; [exact (Lo w' Ew)|]. auto. }
    destruct l as [|t1 l]; [|destruct l as [|t2 l]; [|destruct l as [|t3 l]; [|destruct l as [|t4 l]; [|exfalso; cbn [List.app] in Es; injection Es as _ _ _ _ Es; exact (app_cons_not_nil _ _ _ Es)]]]];
      cbn [List.app] in Es.
    - injection Es as <- <-. apply (Go "path" "PathParameter"); try reflexivity; try (vm_compute; tauto).
      intros a ->. eexists _, a. split; [reflexivity|]. intros i x [X|[X|[X|[X|[]]]]]; injection X as <- <-; eexists; reflexivity.
    - injection Es as <- <- <-. apply (Go "query" "QueryParameter"); try reflexivity; try (vm_compute; tauto).
      intros a ->. eexists _, a. split; [reflexivity|]. intros i x [X|[X|[X|[X|[]]]]]; injection X as <- <-; eexists; reflexivity.
    - injection Es as <- <- <- <-. apply (Go "header" "HeaderParameter"); try reflexivity; try (vm_compute; tauto).
      intros a ->. eexists _, a. split; [reflexivity|]. intros i x [X|[X|[X|[X|[]]]]]; injection X as <- <-; eexists; reflexivity.
    - injection Es as <- <- <- <- <-. apply (Go "cookie" "CookieParameter"); try reflexivity; try (vm_compute; tauto).
      intros a ->. eexists _, a. split; [reflexivity|]. intros i x [X|[X|[X|[X|[]]]]]; injection X as <- <-; eexists; reflexivity.
  Qed.

  Lemma parameter M v : NoDup (map fst M) -> unmarshal T30 rnd (TNamed "Parameter") (JObj M) = Some v ->
    exists i vs, v = VStruct vs /\ In i (map fst styles30) /\ In ("in", JStr i) M /\
      (exists t w, by_name "Location" (fields_of T30 "Parameter") vs = Some (t, VPtr w) /\ located i w) /\
      (i = "path" -> In ("required", JBool true) M) /\
      (forall j, In ("style", j) M -> j = JNull /\ (i = "path" \/ i = "query") \/ exists s ss, j = JStr s /\ In (i, ss) styles30 /\ In s ss) /\
      (In "schema" (map fst M) <-> ~ In "content" (map fst M)).
  Proof.
    intros N E.
    assert (Hin : In "in" (map fst M)).
    { destruct (accept_raw T30 rnd "Parameter" _ _ _ M v eq_refl eq_refl N E) as (R1 & _). apply R1. right. left. reflexivity. }
    assert (NE : NoDup [13; 14]) by (constructor; [intros [X|[]]; discriminate X|constructor; [intros []|constructor]]).
    destruct (accept_embed T30 rnd "Parameter" _ _ _ M v 13 (nth 13 (fields_of T30 "Parameter") (mkField "" TAny None false)) (TNamed "SchemaXORContent") eq_refl eq_refl N) as (vs & w & -> & _ & U1);
      [cbn [d_pats map snd]; constructor; [intros []|constructor]|left; reflexivity|exact NE|reflexivity|reflexivity|reflexivity|reflexivity|vm_compute; intuition discriminate|exact E|].
    destruct (accept_embed T30 rnd "Parameter" _ _ _ M (VStruct vs) 14 (nth 14 (fields_of T30 "Parameter") (mkField "" TAny None false)) (TNamed "ParameterLocation") eq_refl eq_refl N) as (vs' & w' & Ev & V & U2);
      [cbn [d_pats map snd]; constructor; [intros []|constructor]|right; left; reflexivity|exact NE|reflexivity|reflexivity|reflexivity|reflexivity|vm_compute; intuition discriminate|exact E|].
    injection Ev as <-. destruct (location M w' N U2 Hin) as (i & L & I1 & I2 & I3 & I4). exists i, vs. split; [reflexivity|]. split; [exact I4|]. split; [exact I1|].
    split; [|split; [exact I2|split; [exact I3|exact (xor_content M w N U1)]]].
    exists (TPtr (TNamed "ParameterLocation")), w'. split; [|exact L].
    apply (by_name_at "Location" (fields_of T30 "Parameter") vs 14 (nth 14 (fields_of T30 "Parameter") (mkField "" TAny None false))); [reflexivity|reflexivity|exact V].
  Qed.

  Lemma link30 M v : NoDup (map fst M) -> unmarshal T30 rnd (TNamed "Link") (JObj M) = Some v ->
    ~ (In "operationId" (map fst M) /\ In "operationRef" (map fst M)).
  Proof.
    intros N E [H1 H2]. assert (X := accept_not T30 rnd "Link" _ _ _ M v (TNamed "LinkNot") eq_refl eq_refl (or_introl eq_refl) eq_refl E).
    destruct (accept_any T30 rnd "LinkNot" _ _ _ M eq_refl eq_refl) as [w W]; try reflexivity.
    - intros f [<-|[<-|[]]]; reflexivity.
    - intros k [<-|[<-|[]]]; assumption.
    - congruence.
  Qed.

  Lemma header31 M v : NoDup (map fst M) -> unmarshal T31 rnd (TNamed "Header") (JObj M) = Some v ->
    (In "schema" (map fst M) <-> ~ In "content" (map fst M)) /\ (forall j, In ("style", j) M -> j = JStr "simple").
  Proof.
    intros N E. destruct (accept_raw T31 rnd "Header" _ _ _ M v eq_refl eq_refl N E) as (_ & R2 & R3 & _). split.
    - apply R2. left. reflexivity.
    - intros j Ij. exact (R3 "style" (JStr "simple") j (or_introl eq_refl) Ij).
  Qed.
  Lemma header30 M v : NoDup (map fst M) -> unmarshal T30 rnd (TNamed "Header") (JObj M) = Some v ->
    forall j, In ("style", j) M -> j = JStr "simple".
  Proof.
    intros N E j Ij. destruct (accept_raw T30 rnd "Header" _ _ _ M v eq_refl eq_refl N E) as (_ & _ & R3 & _).
    exact (R3 "style" (JStr "simple") j (or_introl eq_refl) Ij).
  Qed.

  (* A bearer format only with the bearer scheme. *)
  Lemma bearer30 M v : NoDup (map fst M) -> unmarshal T30 rnd (TNamed "HTTPSecurityScheme") (JObj M) = Some v ->
    In "bearerFormat" (map fst M) -> In ("scheme", JStr "bearer") M.
  Proof.
    intros N E H. destruct (accept_raw T30 rnd "HTTPSecurityScheme" _ _ _ M v eq_refl eq_refl N E) as (R1 & _).
    specialize (R1 "scheme" (or_introl eq_refl)). apply key_pair in R1. destruct R1 as [j Ij].
    destruct (accept_alt T30 rnd "HTTPSecurityScheme" _ _ _ M v eq_refl eq_refl eq_refl) as (i & f & m & w & I & Ef & Et & U).
    - discriminate.
    - cbn [d_oneof]. constructor; [intros [X|[]]; discriminate X|]. constructor; [intros []|constructor].
    - intros i f [<-|[<-|[]]] Ef; cbn [nth_error] in Ef; injection Ef as <-; eexists; repeat split; reflexivity.
    - exact E.
    - destruct I as [<-|[<-|[]]]; cbn [nth_error] in Ef; injection Ef as <-; cbn [f_ty] in Et; injection Et as <-.
      + destruct (accept_raw T30 rnd "Bearer" _ _ _ M w eq_refl eq_refl N U) as (_ & _ & R3 & _). rewrite <- (R3 "scheme" (JStr "bearer") j (or_introl eq_refl) Ij). exact Ij.
      + exfalso. destruct (accept_raw T30 rnd "NonBearer" _ _ _ M w eq_refl eq_refl N U) as (_ & _ & _ & R4). exact (R4 "bearerFormat" (or_introl eq_refl) H).
  Qed.
End Params.
