(* Theorems about the meaning of the schemas that the 3.0 reflector documents. *)
From Coq Require Import ZArith Lia.
From Verif Require Import Str SMap Json PathModel PathSpec PathProofs PathProps Types RegistryModel RegistrySpec RegistryProofs
  ReflectModel ReflectSpec ReflectProofs ReflectProps BodySpec BodyProps SchemaModel SchemaSpec SchemaProps ReadModel ReadSpec ReadProps MeanSpec.

Section Lemmas.
  Context {J : Type}.
  Variable schema : J -> jsob.
  Notation B := (backend30 schema).

  Lemma conv_means j o : b_conv B j = Ret o -> means (schema j) o.
  Proof.
    cbn [backend30 b_conv]. destruct (from_js (schema j)) as [x|] eqn:E; intros H; [|discriminate H]. injection H as ->.
    intros X O jenv oenv C v b. destruct (C29_same_values O jenv oenv (schema j) C X) as (o' & E' & S).
    rewrite E in E'. injection E' as <-. apply S.
  Qed.

  Lemma unnull_values O env o v b : v <> JNull -> osays O env (unnull30 o) v b <-> osays O env o v b.
  Proof.
    intros N. unfold osays, says. destruct o as [|r|a nt al on an it pr ad]; [reflexivity..|].
    assert (E : forall rs, omeaning O rs (unnull30 (OSch a nt al on an it pr ad)) v = omeaning O rs (OSch a nt al on an it pr ad) v).
    { intros rs. cbn [unnull30 omeaning]. do 2 f_equal. unfold oattrs_ok.
      cbn [oa_type oa_nullable oa_max oa_exmax oa_min oa_exmin oa_multiple oa_maxlen oa_minlen oa_pattern oa_maxitems oa_minitems oa_unique
           oa_maxprops oa_minprops oa_required oa_enum oa_format].
      assert (Z : is_null v = false) by (destruct v; [contradiction|reflexivity..]).
      replace (otype_ok (oa_type a) (oa_nullable a) v) with (otype_ok (oa_type a) None v); [reflexivity|].
      unfold otype_ok, if_set. destruct (oa_type a) as [t|]; [|reflexivity]. rewrite Z, !andb_false_r. reflexivity. }
    split; intros (n & H); exists n; [rewrite <- E|rewrite E]; exact H.
  Qed.

  Lemma unnull_not o : not_nullable (unnull30 o).
  Proof. intros a nt al on an it pr ad E. destruct o; try discriminate E. injection E as <- _ _ _ _ _ _ _. reflexivity. Qed.

  Lemma conv_means_non_null j o : b_conv B j = Ret o -> means_non_null (schema j) (unnull30 o).
  Proof. intros H X O jenv oenv C v b N. rewrite unnull_values by exact N. apply (conv_means j o H X O jenv oenv C). Qed.
End Lemmas.

(* ---------- C82: what documented schemas accept ---------- *)

Definition c82_param {J} (schema : J -> jsob) (f : string * prop J) (x : por osor) : Prop :=
  exists p, x = mkPor (Some p) None /\
    (json_encoded (snd f) -> p_schema p = None /\ exists j o, pr_json (snd f) = Ret j /\
       p_content p = [("application/json", mkMedia (Some o) JNull)] /\ means (schema j) o) /\
    (~ json_encoded (snd f) -> p_content p = [] /\ exists o, p_schema p = Some o /\
       (pr_ptr (snd f) = true -> means (schema (pr_schema (snd f))) o) /\
       (pr_ptr (snd f) = false -> means_non_null (schema (pr_schema (snd f))) o /\ not_nullable o)).

Theorem C82_parameters : forall (J : Type) (schema : J -> jsob) cl v,
  documented (backend30 schema) cl v ->
  exists new, vw_params v = vw_params (c_view cl) ++ new /\
    Forall2 (c82_param schema) (flat_map param_fields (c_req cl)) new.
Proof.
  intros J schema cl v D. destruct (C22_parameters _ _ _ cl v D) as (new & E & F & _). exists new. split; [exact E|].
  clear - F. induction F as [|f x fs xs (p & t & ds & R) F IH]; [apply Forall2_nil|]. apply Forall2_cons; [|exact IH].
  destruct R as (-> & _ & _ & _ & _ & _ & _ & _ & _ & _ & _ & _ & _ & R1 & R2). exists p. split; [reflexivity|]. split.
  - intros JE. destruct (R1 JE) as (N & j & s & E1 & E2 & E3). split; [exact N|]. exists j, s. split; [exact E1|]. split; [exact E3|].
    apply conv_means. exact E2.
  - intros JE. destruct (R2 JE) as (N & s & E1 & E2). split; [exact N|]. rewrite E2. eexists. split; [reflexivity|].
    split; intros P; rewrite P.
    + apply conv_means. exact E1.
    + split; [apply conv_means_non_null; exact E1|apply unnull_not].
Qed.

Theorem C82_response : forall (J : Type) (schema : J -> jsob) cl v k l1 cu l2 ct,
  documented (backend30 schema) cl v -> c_method cl <> "head" -> units_of k (c_resp cl) (l1 ++ cu :: l2) ->
  (forall x, In x (l1 ++ cu :: l2) -> cu_custom_resp x = None) ->
  json_shown cu ct -> ~ tag_shown cu ct -> (forall x, In x l2 -> ~ contributes x ct) ->
  exists j o rest, snd (v_json cu) = Ret j /\
    get ct (content_before (vw_responses v) k) = Some (mkMedia (Some o) rest) /\
    means_non_null (schema j) o /\ not_nullable o.
Proof.
  intros J schema cl v k l1 cu l2 ct D M U NC JS NT L.
  destruct (C73_json_schema _ _ _ cl v k l1 cu l2 ct D M U NC JS NT L) as (j & s & rest & E1 & E2 & E3).
  exists j, (unnull30 s), rest. split; [exact E1|]. split; [exact E3|]. split; [apply conv_means_non_null; exact E2|apply unnull_not].
Qed.

Theorem C82_header : forall (J : Type) (schema : J -> jsob) cl v k l1 cu l2 n q,
  documented (backend30 schema) cl v -> units_of k (c_resp cl) (l1 ++ cu :: l2) ->
  (forall x, In x (l1 ++ cu :: l2) -> cu_custom_resp x = None) ->
  cu_nil cu = false -> (forall x, In x l2 -> cu_nil x = true) -> last_named (fst (v_headers cu)) n q ->
  exists h o, get n (headers_before (vw_responses v) k) = Some h /\ h_schema h = Some o /\ means (schema (pr_schema q)) o.
Proof.
  intros J schema cl v k l1 cu l2 n q D U NC N L Q.
  destruct (C74_header _ _ _ cl v k l1 cu l2 n D U NC N L) as (H & _).
  destruct (H q Q) as (h & G & (t & s & d & _ & E & _ & _ & _ & _ & _ & _ & _ & S)).
  exists h, s. split; [exact G|]. split; [exact S|]. apply conv_means. exact E.
Qed.

(* The body of a structure, under the media type that is its own. *)
Theorem C82_body : forall (J : Type) (schema : J -> jsob) cl v l1 cu l2 ct,
  documented (backend30 schema) cl v -> (forall x, In x (c_req cl) -> cu_custom_req x = None) ->
  c_req cl = l1 ++ cu :: l2 -> body_type (c_method cl) cu ct ->
  (forall x, In x l2 -> ~ body_type (c_method cl) x ct) ->
  In (cu_ctype cu) [""; "application/json"; "application/x-www-form-urlencoded"; "multipart/form-data"] ->
  (cu_ctype cu = "" -> ~ In ct (v_content_tags cu)) ->
  exists j defs o, snd (v_body cu (if String.eqb ct "application/json" then "json" else "formData")) = Ret (j, defs) /\
    get ct (body_content (vw_body v)) = Some (mkMedia (Some o) JNull) /\ means (schema j) o.
Proof.
  intros J schema cl v l1 cu l2 ct D NC R BT L IC NT.
  pose proof (C75_media _ _ _ cl v l1 cu l2 ct D NC R BT L) as G. inversion G.
  - contradiction.
  - exfalso. apply NT; assumption.
  - destruct H3 as (j & defs & s & E1 & E2 & E3). subst ct. exists j, defs, s. split; [exact E1|]. split; [congruence|]. apply conv_means. exact E2.
  - destruct H3 as (j & defs & s & E1 & E2 & E3). exists j, defs, s.
    split; [destruct H1 as [(_ & ->)|(_ & ->)]; exact E1|]. split; [congruence|]. apply conv_means. exact E2.
Qed.

(* Bodies without a structure are texts. *)
Theorem C82_plain : forall (J : Type) (schema : J -> jsob) O oenv format v b,
  osays O oenv (b_string (backend30 schema) format) v b <-> b = is_text O format v.
Proof.
  intros J schema O oenv format v b. unfold osays, says.
  assert (E : forall rs, omeaning O rs (string30 format) v = Some (is_text O format v)).
  { intros rs. unfold string30, sch0. cbn [omeaning vopt vall vcount vone vany none vprops vand]. unfold oattrs_ok, otype_ok, common.
    cbn [oa_type oa_nullable oa_max oa_exmax oa_min oa_exmin oa_multiple oa_maxlen oa_minlen oa_pattern oa_maxitems oa_minitems oa_unique
         oa_maxprops oa_minprops oa_required oa_enum oa_format].
    assert (Z : forall n, (0 <=? Z.of_nat n)%Z = true) by (intros n; apply Z.leb_le; lia).
    destruct v; cbn [on_num on_str on_arr on_obj]; unfold if_set, size; rewrite ?Z; destruct format as [|c f]; cbn;
      rewrite ?andb_true_r; reflexivity. }
  cbn [backend30 b_string]. split.
  - intros (n & H). rewrite E in H. congruence.
  - intros ->. exists 0. apply E.
Qed.

Lemma rd_doc30 oc o' : made30 oc -> snd (reflector_add30 (backend30 rd_schema) rd_refl30 oc) = AOk ->
  doc30 (r30_paths (fst (fst (reflector_add30 (backend30 rd_schema) rd_refl30 oc)))) (oc_path oc) (oc_method oc) = Some o' ->
  documented (backend30 rd_schema) (mkCall (oc_method oc) (oc_req oc) (oc_resp oc) (view30 (oc_op oc))) (view30 o').
Proof.
  intros M A D. destruct (reflector_add30 (backend30 rd_schema) rd_refl30 oc) as [[r' oc'] a] eqn:E. simpl in *. subst a.
  eapply doc_30; eauto.
Qed.

(* A JSON body. *)
Definition rd_body : cunit bool osor :=
  mkCU false "" "" 0 false "" false None None false false false false false (fun t => String.eqb t "json") (Ret false)
    (fun _ => ([], Ret (false, [("Item", true)]))) (fun _ => ([], Ret false)) [] (Ret false) ([], Err) ([], Err).

Lemma rd_expressible b : expressible (rd_schema b).
Proof.
  destruct b; apply exp_obj; try (intros k s X; destruct X; fail); try (intros s X; first [discriminate X|destruct X; fail]).
  - split; [exists "string"; split; [discriminate|]; split; [left; reflexivity|]; intros u [<-|[<-|[]]]; auto|].
    split; [exact I|]. split; [exact I|reflexivity].
  - split; [discriminate|]. split; [exact I|]. split; [exact I|reflexivity].
  - intros s X. injection X as <-. apply exp_ref.
Qed.

Example C82_example : exists cl v, documented (backend30 rd_schema) cl v /\
  flat_map param_fields (c_req cl) = [("query", rd_prop "ids" "csv"); ("path", rd_prop "id" "")] /\
  units_of (KStatus "404") (c_resp cl) ([] ++ [rd_response 404]) /\ json_shown (J := bool) (Sch := osor) (rd_response 404) "application/json" /\
  last_named (fst (v_headers (J := bool) (Sch := osor) (rd_response 404))) "X-A" (rd_prop "X-A" "") /\
  c_req cl = [rd_request "" "csv"] ++ [rd_body] /\ body_type (c_method cl) rd_body "application/json" /\
  forall b, expressible (rd_schema b).
Proof.
  eexists. eexists. split; [apply (rd_doc30 (rd_oc30 "put" "/a/{id}" [rd_request "" "csv"; rd_body] [rd_response 404]));
    [rd_made|vm_compute; reflexivity|vm_compute; reflexivity]|].
  split; [reflexivity|].
  split; [apply uo_take; [apply fu_code; [reflexivity|discriminate|simpl; lia|exact (itoa_numeral 404)]|constructor]|].
  split; [split; [reflexivity|]; split; [discriminate|]; right; split; [exact (before_semicolon_base "")|reflexivity]|].
  split; [exists [], []; split; [reflexivity|]; split; [reflexivity|]; split; [reflexivity|intros x []]|].
  split; [reflexivity|]. split; [|exact rd_expressible].
  apply bt_json; [left; reflexivity|]. split; [left; intros [E|[E|[E|E]]]; discriminate E|].
  split; [intros [E|E]; discriminate E|left; reflexivity].
Qed.

(* ---------- C83: what component schemas accept ---------- *)

(* The definitions reported in a call: each name stands for one definition. *)
Definition reports {J} (schema : J -> jsob) (D : string -> option J) (oc : opctx J osor (responses osor)) : Prop :=
  forall n j, call_def (oc_method oc) (oc_req oc) (oc_resp oc) n j -> D n = Some j /\ expressible (schema j).

Definition components (r : refl30 osor) (n : string) : option osor := get n (r30_comps r).
Definition definitions {J} (schema : J -> jsob) (D : string -> option J) (r : refl30 osor) (n : string) : option jsob :=
  match components r n with Some _ => option_map schema (D n) | None => None end.

Theorem C83_converted : forall (J : Type) (schema : J -> jsob) D r l,
  new30 r -> Forall made30 l -> Forall (reports schema D) l ->
  let r' := rrun30 (backend30 schema) r l in converted (definitions schema D r') (components r').
Proof.
  intros J schema D r l [_ N] M R.
  assert (X : forall l r, Forall made30 l -> Forall (reports schema D) l ->
    (forall n s, components r n = Some s -> exists j, D n = Some j /\ expressible (schema j) /\ from_js (schema j) = Some s) ->
    forall n s, components (rrun30 (backend30 schema) r l) n = Some s ->
      exists j, D n = Some j /\ expressible (schema j) /\ from_js (schema j) = Some s).
  { clear. induction l as [|oc l IH]; intros r M R I; [exact I|]. inversion M as [|? ? M1 M2]; inversion R as [|? ? R1 R2]; subst.
    unfold rrun30. cbn [fold_left]. apply IH; [exact M2|exact R2|]. intros n s G. unfold rstep30 in G.
    destruct (reflector_add30 (backend30 schema) r oc) as [[r' oc'] a] eqn:E. cbn [fst] in G.
    destruct (C77_origin_30 _ _ _ r oc r' oc' a n s M1 E G) as [G'|(j & C & S)]; [apply I; exact G'|].
    destruct (R1 n j C) as [D1 D2]. exists j. split; [exact D1|]. split; [exact D2|].
    cbn [backend30 b_conv] in S. destruct (from_js (schema j)); [congruence|discriminate S]. }
  cbv zeta. intros n. unfold definitions. destruct (components _ n) as [s|] eqn:G; [|reflexivity].
  apply X in G; [|exact M|exact R|]. 2: { intros m t H. unfold components in H. rewrite N in H. discriminate H. }
  destruct G as (j & -> & E & F). split; [exact E|exact F].
Qed.

Theorem C83_meaning : forall (J : Type) (schema : J -> jsob) D r l O n o,
  new30 r -> Forall made30 l -> Forall (reports schema D) l ->
  let r' := rrun30 (backend30 schema) r l in components r' n = Some o ->
  exists j, D n = Some j /\ same_values O (definitions schema D r') (components r') (schema j) o.
Proof.
  intros J schema D r l O n o N M R r' G. pose proof (C83_converted J schema D r l N M R) as C. fold r' in C. cbv zeta in C.
  pose proof (C n) as Cn. unfold definitions in Cn. rewrite G in Cn. destruct (D n) as [j|] eqn:E; [|discriminate Cn].
  destruct Cn as [X F]. exists j. split; [reflexivity|]. intros v b.
  destruct (C29_same_values O _ _ (schema j) C X) as (o' & F' & S). rewrite F in F'. injection F' as <-. apply S.
Qed.

Example C83_example :
  let D n := if String.eqb n "Item" then Some true else if String.eqb n "Out" then Some false else None in
  let calls := [rd_oc30 "put" "/a/{id}" [rd_request "" "csv"] [rd_response 404]; rd_oc30 "put" "/a/{id}" [rd_request "" ""] [rd_response 200]] in
  new30 rd_refl30 /\ Forall made30 calls /\ Forall (reports rd_schema D) calls /\
  let r := rrun30 (backend30 rd_schema) rd_refl30 calls in
  (exists o, components r "Out" = Some o) /\
  jsays ex_oracle (definitions rd_schema D r) (rd_schema false) (JArr [JStr "text"; JNull]) true /\
  jsays ex_oracle (definitions rd_schema D r) (rd_schema false) (JArr [JBool true]) false.
Proof.
  cbv zeta. split; [split; reflexivity|]. split; [repeat (apply Forall_cons; [rd_made|]); apply Forall_nil|].
  split; [|split; [eexists; vm_compute; reflexivity|split; exists 2; vm_compute; reflexivity]].
  assert (X : forall m qc st n j, call_def m [rd_request (Sch := osor) "" qc] [rd_response st] n j -> n = "Item" /\ j = true \/ n = "Out" /\ j = false).
  { intros m qc st n j [(cu & [<-|[]] & D)|(cu & [<-|[]] & D)]; inversion D; subst.
    - cbn [In locations] in *. destruct H1 as [<-|[<-|[<-|[<-|[]]]]]; cbn in H2; try tauto;
        destruct H2 as [E|H2]; try discriminate E; try (injection E as <- <-); try tauto. destruct H2 as [E|[]]; discriminate E.
    - rewrite rd_fields in H. destruct H as [E|[E|[]]]; injection E as _ <-; cbn in H1; tauto.
    - discriminate H1.
    - discriminate H1.
    - destruct H2 as [E|[]]. injection E as <- <-. auto. }
  repeat (apply Forall_cons; [intros n j C; apply X in C; split; [|apply rd_expressible]; destruct C as [[-> ->]|[-> ->]]; reflexivity|]).
  apply Forall_nil.
Qed.

(* ---------- assumptions ---------- *)

Print Assumptions C82_parameters.
Print Assumptions C82_response.
Print Assumptions C82_header.
Print Assumptions C82_body.
Print Assumptions C82_plain.
Print Assumptions C83_converted.
Print Assumptions C83_meaning.
