(* Theorems about the JSON codecs of the entity types (C41-C43, C60-C66).
   [rnd] is the rounding of numbers to float64.  [wf], [strip] and the tables of
   objects are in CodecSpec.v and CodecObjSpec.v. *)
From Verif Require Import Str SMap Json CodecModel CodecTables CodecSpec CodecObjSpec CodecProofs CodecRT CodecStrict CodecWrite CodecCheck CodecDocs.

(* ---------- C41 ---------- *)

(* A well formed value of any type of the package can be written, and what is
   read back is the value, with the derived members of parameters and HTTP
   security schemes filled in. *)
Theorem C41_roundtrip : forall rnd n v, wf T30 rnd derived30 extra30 (TNamed n) v ->
  exists j v', marshal T30 (TNamed n) v = Some j /\ unmarshal T30 rnd (TNamed n) j = Some v' /\ strip T30 derived30 v' (TNamed n) = v.
Proof. intros rnd n v W. exact (roundtrip30 rnd n v (wf_known _ _ _ _ _ _ W) W). Qed.

(* Values without such members come back as they were. *)
Theorem C41_identity : forall rnd n v, wf T30 rnd derived30 extra30 (TNamed n) v -> underived T30 derived30 v (TNamed n) = true ->
  exists j, marshal T30 (TNamed n) v = Some j /\ unmarshal T30 rnd (TNamed n) j = Some v.
Proof. exact again30. Qed.

(* Different documents are written differently. *)
Theorem C41_injective : forall rnd n v w j, wf T30 rnd derived30 extra30 (TNamed n) v -> wf T30 rnd derived30 extra30 (TNamed n) w ->
  marshal T30 (TNamed n) v = Some j -> marshal T30 (TNamed n) w = Some j -> v = w.
Proof. exact inj30. Qed.

(* A document with all kinds of entities. *)
Example C41_document : exists v' v, unmarshal T30 idq (TNamed "Spec") doc30 = Some v' /\ strip T30 derived30 v' (TNamed "Spec") = v /\
  wf T30 idq derived30 extra30 (TNamed "Spec") v /\ v' <> v.
Proof.
  destruct (unmarshal T30 idq (TNamed "Spec") doc30) as [v'|] eqn:E; [|vm_compute in E; discriminate E].
  exists v', (strip T30 derived30 v' (TNamed "Spec")). split; [reflexivity|]. split; [reflexivity|].
  vm_compute in E. injection E as <-. split; [apply wfb30_ok; vm_compute; reflexivity|]. intros X. vm_compute in X. discriminate X.
Qed.
Example C41_underived : exists v, unmarshal T30 idq (TNamed "Components") (JObj [("schemas", JObj [("A", JObj [("type", JStr "string")])])]) = Some v /\
  wf T30 idq derived30 extra30 (TNamed "Components") v /\ underived T30 derived30 v (TNamed "Components") = true.
Proof. eexists. split; [vm_compute; reflexivity|]. split; [apply wfb30_ok; vm_compute; reflexivity|vm_compute; reflexivity]. Qed.

(* ---------- C42 ---------- *)

Theorem C42_roundtrip : forall rnd n v, wf T31 rnd derived31 extra31 (TNamed n) v ->
  exists j, marshal T31 (TNamed n) v = Some j /\ unmarshal T31 rnd (TNamed n) j = Some v.
Proof. exact exact31. Qed.

Example C42_document : exists v, unmarshal T31 idq (TNamed "Spec") doc31 = Some v /\ wf T31 idq derived31 extra31 (TNamed "Spec") v.
Proof.
  destruct (unmarshal T31 idq (TNamed "Spec") doc31) as [v|] eqn:E; [|vm_compute in E; discriminate E].
  exists v. split; [reflexivity|]. vm_compute in E. injection E as <-. apply wfb31_ok. vm_compute. reflexivity.
Qed.

(* ---------- C43 ---------- *)

(* The objects of 3.0 with fixed and pattern fields are those of [objects30]. *)
Lemma objects30_ok n o : In (n, o) objects30 -> obj_check T30 (n, o) = true /\ closed_check T30 (n, o) = true.
Proof.
  assert (C : forallb (fun no => obj_check T30 no && closed_check T30 no) objects30 = true) by (vm_compute; reflexivity).
  rewrite forallb_forall in C. intros I. apply andb_true_iff. exact (C _ I).
Qed.

(* A required key is missing. *)
Theorem C43_required : forall rnd n o k M, In (n, o) objects30 -> In k (o_req o) -> ~ In k (map fst M) ->
  unmarshal T30 rnd (TNamed n) (JObj M) = None.
Proof. intros rnd n o k M I. exact (obj_required T30 rnd n o k M (proj1 (objects30_ok n o I))). Qed.

(* There is a key that is no fixed key and not of the form of a pattern key. *)
Theorem C43_unknown : forall rnd n o k M, In (n, o) objects30 -> In k (map fst M) -> ~ In k (o_keys o) ->
  (forall p x, In (p, x) (o_pats o) -> ~ legal p k) -> unmarshal T30 rnd (TNamed n) (JObj M) = None.
Proof.
  intros rnd n o k M I Ik NK NP. apply (obj_unknown T30 rnd n o k M (proj1 (objects30_ok n o I)) (proj2 (objects30_ok n o I)) Ik NK).
  intros p x Ip. apply not_true_iff_false. rewrite matches_legal. exact (NP p x Ip).
Qed.

(* Otherwise every member is kept. *)
Theorem C43_kept : forall rnd n o M v, In (n, o) objects30 -> NoDup (map fst M) -> unmarshal T30 rnd (TNamed n) (JObj M) = Some v ->
  exists vs, v = VStruct vs /\ forall k j, In (k, j) M -> kept T30 rnd n o vs k j.
Proof.
  intros rnd n o M v I N E. destruct (objects30_ok n o I) as [C Cl]. destruct (closed_apart T30 rnd n o M v C Cl N E) as [A K].
  destruct (obj_kept T30 rnd n o M v C N A E) as (vs & -> & H). exists vs. split; [reflexivity|]. intros k j Ik. apply (H k j Ik). apply K. exact (in_map fst _ _ Ik).
Qed.

(* A value of a choice is accepted if exactly one alternative accepts it. *)
Theorem C43_choice : forall rnd n ts j v, In (n, ts) choices30 -> (unmarshal T30 rnd (TNamed n) j = Some v <-> chosen T30 rnd ts j v).
Proof.
  intros rnd n ts j v I. apply choice.
  assert (C : forallb (choice_check T30) choices30 = true) by (vm_compute; reflexivity). rewrite forallb_forall in C. exact (C _ I).
Qed.

Example C43_required_case : unmarshal T30 idq (TNamed "Info") (JObj [("title", JStr "t")]) = None /\
  unmarshal T30 idq (TNamed "Info") (JObj [("title", JStr "t"); ("version", JStr "v")]) <> None.
Proof. split; [vm_compute; reflexivity|vm_compute; discriminate]. Qed.
Example C43_unknown_case : unmarshal T30 idq (TNamed "Tag") (JObj [("name", JStr "t"); ("descr", JStr "v")]) = None /\
  unmarshal T30 idq (TNamed "Tag") (JObj [("name", JStr "t"); ("x-descr", JStr "v")]) <> None /\
  unmarshal T30 idq (TNamed "Responses") (JObj [("600", JObj [("description", JStr "d")])]) = None /\
  unmarshal T30 idq (TNamed "Responses") (JObj [("5XX", JObj [("description", JStr "d")])]) <> None.
Proof. repeat split; try (vm_compute; reflexivity); vm_compute; discriminate. Qed.
Example C43_choice_case : (exists v, unmarshal T30 idq (TNamed "SchemaOrRef") (JObj [("$ref", JStr "r")]) = Some v) /\
  unmarshal T30 idq (TNamed "SchemaOrRef") (JObj [("$ref", JStr "r"); ("type", JStr "string")]) = None.
Proof. split; [eexists|]; vm_compute; reflexivity. Qed.

(* ---------- C60 ---------- *)

(* An empty list of security requirements, which for an operation says that the
   requirements of the document do not hold, is not written. *)
Theorem C60_empty_security_refuted :
  (exists vs j v', unmarshal T30 idq (TNamed "Operation") (JObj [("security", JArr []); ("responses", JObj [])]) = Some (VStruct vs) /\
     fieldv T30 "Operation" "Security" vs = VArr [] /\ marshal T30 (TNamed "Operation") (VStruct vs) = Some j /\
     j = JObj [("responses", JObj [])] /\ unmarshal T30 idq (TNamed "Operation") j = Some v' /\ v' <> VStruct vs) /\
  (exists vs j v', unmarshal T31 idq (TNamed "Operation") (JObj [("security", JArr [])]) = Some (VStruct vs) /\
     fieldv T31 "Operation" "Security" vs = VArr [] /\ marshal T31 (TNamed "Operation") (VStruct vs) = Some j /\
     j = JObj [] /\ unmarshal T31 idq (TNamed "Operation") j = Some v' /\ v' <> VStruct vs).
Proof.
  split; eexists _, _, _; (split; [vm_compute; reflexivity|]); (split; [vm_compute; reflexivity|]); (split; [vm_compute; reflexivity|]);
    (split; [vm_compute; reflexivity|]); (split; [vm_compute; reflexivity|]); intros X; vm_compute in X; discriminate X.
Qed.

(* ---------- C61 ---------- *)

Lemma objects31_ok n o : In (n, o) objects31 -> obj_check T31 (n, o) = true.
Proof.
  assert (C : forallb (obj_check T31) objects31 = true) by (vm_compute; reflexivity).
  rewrite forallb_forall in C. intros I. exact (C _ I).
Qed.

Theorem C61_required : forall rnd n o k M, In (n, o) objects31 -> In k (o_req o) -> ~ In k (map fst M) ->
  unmarshal T31 rnd (TNamed n) (JObj M) = None.
Proof. intros rnd n o k M I. exact (obj_required T31 rnd n o k M (objects31_ok n o I)). Qed.

(* Fixed keys and pattern keys are kept, if no two keys of the object are the
   same up to case. *)
Theorem C61_kept : forall rnd n o M v, In (n, o) objects31 -> NoDup (map fst M) ->
  (forall k k', In k (map fst M) -> In k' (map fst M) -> fold_key k = fold_key k' -> k = k') ->
  unmarshal T31 rnd (TNamed n) (JObj M) = Some v ->
  exists vs, v = VStruct vs /\ forall k j, In (k, j) M ->
    In k (o_keys o) \/ (exists p x, In (p, x) (o_pats o) /\ legal p k) -> kept T31 rnd n o vs k j.
Proof. intros rnd n o M v I N F. exact (obj_kept T31 rnd n o M v (objects31_ok n o I) N (fold_apart T31 n M F)). Qed.

Theorem C61_choice : forall rnd n ts j v, In (n, ts) choices31 -> (unmarshal T31 rnd (TNamed n) j = Some v <-> chosen T31 rnd ts j v).
Proof.
  intros rnd n ts j v I. apply choice.
  assert (C : forallb (choice_check T31) choices31 = true) by (vm_compute; reflexivity). rewrite forallb_forall in C. exact (C _ I).
Qed.

(* Other keys are dropped without a word, and so is a key of the specification
   if there is another one that differs only in case. *)
Theorem C61_unknown_refuted : exists k v, k = "descr" /\
  unmarshal T31 idq (TNamed "Tag") (JObj [("name", JStr "t"); (k, JStr "x")]) = Some v /\
  unmarshal T31 idq (TNamed "Tag") (JObj [("name", JStr "t")]) = Some v.
Proof. eexists _, _. split; [reflexivity|]. split; vm_compute; reflexivity. Qed.
Theorem C61_case_refuted : exists v,
  unmarshal T31 idq (TNamed "Tag") (JObj [("name", JStr "t"); ("Name", JStr "u")]) = Some v /\
  unmarshal T31 idq (TNamed "Tag") (JObj [("name", JStr "u")]) = Some v.
Proof. eexists. split; vm_compute; reflexivity. Qed.

Example C61_kept_case : exists vs, unmarshal T31 idq (TNamed "Tag") (JObj [("name", JStr "t"); ("x-a", JNull)]) = Some (VStruct vs) /\
  kept T31 idq "Tag" (plain ["name"] ["name"; "description"; "externalDocs"]) vs "x-a" JNull.
Proof.
  eexists. split; [vm_compute; reflexivity|]. right. right. exists PatX, "MapOfAnything", TAny. eexists _, _. split; [left; reflexivity|]. split; [exact (legal_x "a")|].
  split; [vm_compute; reflexivity|]. split; vm_compute; reflexivity.
Qed.

(* ---------- C62 ---------- *)

(* No example object of a 3.1 document can be read at all: a constraint that
   "anything" must not hold. *)
Theorem C62_example_refuted : forall rnd j, unmarshal T31 rnd (TNamed "Example") j = None.
Proof.
  intros rnd j. unfold unmarshal. rewrite (dec_at T31 rnd). unfold CodecProofs.at_, LVL. cbn [levels].
  unfold dec_step at 1. replace (get "Example" T31) with (Some e31_Example) by (vm_compute; reflexivity). unfold e31_Example at 1.
  destruct (zero T31 _ _); try reflexivity.
Qed.

(* References where the other alternative takes them too. *)
Theorem C62_references_refuted :
  unmarshal T31 idq (TNamed "PathItemOrReference") (JObj [("$ref", JStr "r")]) = None /\
  unmarshal T31 idq (TNamed "LinkOrReference") (JObj [("$ref", JStr "r")]) = None /\
  unmarshal T31 idq (TNamed "ResponseOrReference") (JObj [("$ref", JStr "r"); ("description", JStr "d")]) = None.
Proof. repeat split; vm_compute; reflexivity. Qed.

(* The styles of path and header parameters. *)
Theorem C62_styles_refuted : forall s, In s ["matrix"; "label"; "simple"] ->
  unmarshal T31 idq (TNamed "Parameter") (JObj [("name", JStr "n"); ("in", JStr "path"); ("required", JBool true); ("style", JStr s)]) = None.
Proof. intros s [<-|[<-|[<-|[]]]]; vm_compute; reflexivity. Qed.

(* Boolean schemas; link parameters that are no strings. *)
Theorem C62_values_refuted : forall b,
  unmarshal T31 idq (TNamed "MediaType") (JObj [("schema", JBool b)]) = None /\
  unmarshal T31 idq (TNamed "Components") (JObj [("schemas", JObj [("A", JBool b)])]) = None /\
  unmarshal T31 idq (TNamed "Link") (JObj [("operationId", JStr "i"); ("parameters", JObj [("A", JBool b)])]) = None.
Proof. intros b. repeat split; vm_compute; reflexivity. Qed.

(* Keys of the specification that are read and lost. *)
Theorem C62_lost_keys_refuted :
  unmarshal T31 idq (TNamed "Link") (JObj [("operationId", JStr "i"); ("server", JObj [("url", JStr "u")])]) =
    unmarshal T31 idq (TNamed "Link") (JObj [("operationId", JStr "i")]) /\
  unmarshal T31 idq (TNamed "Parameter") (JObj [("name", JStr "n"); ("in", JStr "query"); ("allowReserved", JBool true); ("allowEmptyValue", JBool true)]) =
    unmarshal T31 idq (TNamed "Parameter") (JObj [("name", JStr "n"); ("in", JStr "query")]) /\
  unmarshal T31 idq (TNamed "PathItem") (JObj [("$ref", JStr "r")]) = unmarshal T31 idq (TNamed "PathItem") (JObj []) /\
  unmarshal T31 idq (TNamed "Components") (JObj [("x-a", JStr "r")]) = unmarshal T31 idq (TNamed "Components") (JObj []) /\
  unmarshal T31 idq (TNamed "Encoding") (JObj [("x-a", JStr "r")]) = unmarshal T31 idq (TNamed "Encoding") (JObj []) /\
  (forall n, In n ["Link"; "Parameter"; "PathItem"; "Components"; "Encoding"] -> exists M v, unmarshal T31 idq (TNamed n) (JObj M) = Some v).
Proof.
  do 5 (split; [vm_compute; reflexivity|]).
  intros n [<-|[<-|[<-|[<-|[<-|[]]]]]]; [exists []|exists [("name", JStr "n"); ("in", JStr "query")]|exists []|exists []|exists []]; eexists; vm_compute; reflexivity.
Qed.

(* ---------- C63 ---------- *)

(* No object in the JSON text of a well formed value has a key twice. *)
Theorem C63_distinct : forall rnd n v j,
  wf T30 rnd derived30 extra30 (TNamed n) v /\ marshal T30 (TNamed n) v = Some j \/
  wf T31 rnd derived31 extra31 (TNamed n) v /\ marshal T31 (TNamed n) v = Some j -> distinct j.
Proof. intros rnd n v j [[W E]|[W E]]; [exact (distinct30 rnd n v j W E)|exact (distinct31 rnd n v j W E)]. Qed.

(* It is an object with the required keys and no others than those of the
   specification. *)
Theorem C63_keys30 : forall rnd n o v, In (n, o) (objects30 ++ sections30) -> wf T30 rnd derived30 extra30 (TNamed n) v ->
  exists M, marshal T30 (TNamed n) v = Some (JObj M) /\ (forall k, In k (o_req o) -> In k (map fst M)) /\
    (forall k, In k (map fst M) -> In k (o_keys o) \/ exists p x, In (p, x) (o_pats o) /\ legal p k).
Proof. exact emitted30. Qed.
Theorem C63_keys31 : forall rnd n o v, In (n, o) objects31 -> n <> "SecurityScheme" -> wf T31 rnd derived31 extra31 (TNamed n) v ->
  exists M, marshal T31 (TNamed n) v = Some (JObj M) /\ (forall k, In k (o_req o) -> In k (map fst M)) /\
    (forall k, In k (map fst M) -> In k (o_keys o) \/ exists p x, In (p, x) (o_pats o) /\ legal p k).
Proof. exact emitted31. Qed.

(* ---------- C64 ---------- *)

(* Only objects are accepted for objects with fixed fields; null only if nothing
   is required. *)
Theorem C64_kind30 : forall rnd n o j, In (n, o) objects30 -> n <> "Paths" -> j <> JNull -> (forall M, j <> JObj M) ->
  unmarshal T30 rnd (TNamed n) j = None.
Proof.
  intros rnd n o j I N1. apply not_struct.
  assert (C : forallb (fun no => in_list (fst no) ["Paths"] || is_struct T30 (fst no)) objects30 = true) by (vm_compute; reflexivity).
  rewrite forallb_forall in C. specialize (C _ I). apply orb_true_iff in C. destruct C as [C|C]; [|exact C].
  apply in_list_In in C. destruct C as [C|[]]; cbn [fst] in C; congruence.
Qed.
Theorem C64_kind31 : forall rnd n o j, In (n, o) objects31 -> n <> "Paths" -> j <> JNull -> (forall M, j <> JObj M) ->
  unmarshal T31 rnd (TNamed n) j = None.
Proof.
  intros rnd n o j I N1. apply not_struct.
  assert (C : forallb (fun no => in_list (fst no) ["Paths"] || is_struct T31 (fst no)) objects31 = true) by (vm_compute; reflexivity).
  rewrite forallb_forall in C. specialize (C _ I). apply orb_true_iff in C. destruct C as [C|C]; [|exact C].
  apply in_list_In in C. destruct C as [C|[]]; cbn [fst] in C; congruence.
Qed.
Theorem C64_null : forall rnd n o k,
  (In (n, o) objects30 -> In k (o_req o) -> unmarshal T30 rnd (TNamed n) JNull = None) /\
  (In (n, o) objects31 -> In k (o_req o) -> unmarshal T31 rnd (TNamed n) JNull = None).
Proof.
  intros rnd n o k. split; intros I.
  - exact (null_required T30 rnd n o k (proj1 (objects30_ok n o I))).
  - exact (null_required T31 rnd n o k (objects31_ok n o I)).
Qed.

(* Objects with pattern fields only are read from anything. *)
Theorem C64_kind_refuted : forall n, In n ("Paths" :: "Callback" :: map fst sections30) ->
  exists v, unmarshal T30 idq (TNamed n) (JNum 5) = Some v /\ unmarshal T30 idq (TNamed n) (JArr [JStr "a"]) = Some v /\
    unmarshal T30 idq (TNamed n) (JObj []) = Some v.
Proof.
  assert (C : forallb (fun n => match unmarshal T30 idq (TNamed n) (JNum 5), unmarshal T30 idq (TNamed n) (JArr [JStr "a"]), unmarshal T30 idq (TNamed n) (JObj []) with
                                | Some (VStruct a), Some (VStruct b), Some (VStruct c) => forallb is_nil (a ++ b ++ c) && Nat.eqb (length a) (length b) && Nat.eqb (length a) (length c)
                                | _, _, _ => false end) ("Paths" :: "Callback" :: map fst sections30) = true) by (vm_compute; reflexivity).
  rewrite forallb_forall in C. intros n I. specialize (C n I).
  destruct (unmarshal T30 idq (TNamed n) (JNum 5)) as [[]|]; try discriminate C. destruct (unmarshal T30 idq (TNamed n) (JArr [JStr "a"])) as [[]|]; try discriminate C.
  destruct (unmarshal T30 idq (TNamed n) (JObj [])) as [[]|]; try discriminate C. rewrite !andb_true_iff, !Nat.eqb_eq in C. destruct C as [[C L1] L2].
  assert (E : forall a b : list val, length a = length b -> forallb is_nil a = true -> forallb is_nil b = true -> a = b).
  { clear. induction a as [|x a IH]; intros [|y b] L A B; try discriminate L; [reflexivity|]. cbn [forallb] in A, B. apply andb_true_iff in A, B.
    destruct A as [A1 A2], B as [B1 B2]. destruct x; try discriminate A1. destruct y; try discriminate B1. f_equal. apply IH; auto. }
  rewrite !forallb_app, !andb_true_iff in C. destruct C as (C1 & C2 & C3).
  rewrite <- (E l l0 L1 C1 C2), <- (E l l1 L2 C1 C3). eexists. split; [reflexivity|]. split; reflexivity.
Qed.

(* ---------- C65 ---------- *)

(* The sections of components keep all entries with a legal name, *)
Theorem C65_sections : forall rnd n o M v, In (n, o) sections30 -> NoDup (map fst M) -> unmarshal T30 rnd (TNamed n) (JObj M) = Some v ->
  exists vs, v = VStruct vs /\ forall k j, In (k, j) M -> legal PatName k -> kept T30 rnd n o vs k j.
Proof.
  intros rnd n o M v I N E.
  assert (C : forallb (fun no => obj_check T30 no && match fields_of T30 (fst no) with [f] => negb (match f_key f with Some _ => true | None => false end) | _ => false end &&
    match o_pats (snd no) with [(PatName, _)] => true | _ => false end) sections30 = true) by (vm_compute; reflexivity).
  rewrite forallb_forall in C. specialize (C _ I). cbn [fst snd] in C. rewrite !andb_true_iff in C. destruct C as [[C F] P].
  assert (A : apart T30 n M).
  { intros k k' i _ _ K. exfalso. destruct (fields_of T30 n) as [|f [|? ?]]; try discriminate F. unfold find_field in K. cbn [find_at] in K.
    destruct (f_key f); [discriminate F|]. discriminate K. }
  destruct (obj_kept T30 rnd n o M v C N A E) as (vs & -> & H). exists vs. split; [reflexivity|]. intros k j Ik Lk. apply (H k j Ik). right.
  destruct (o_pats o) as [|[p x] l]; [discriminate P|]. destruct p; try discriminate P. exists PatName, x. split; [left; reflexivity|exact Lk].
Qed.
(* and drop the others without an error. *)
Theorem C65_illegal_names_refuted : forall n, In n (map fst sections30) -> exists v,
  unmarshal T30 idq (TNamed n) (JObj [("a b", JObj [("$ref", JStr "r")])]) = Some v /\ unmarshal T30 idq (TNamed n) (JObj []) = Some v.
Proof.
  intros n I. unfold sections30 in I. cbn [map fst In] in I.
  repeat (destruct I as [<-|I]; [eexists; split; vm_compute; reflexivity|]). destruct I.
Qed.
(* A callback keeps every key: extensions apart from expressions. *)
Theorem C65_callbacks : forall rnd M v, NoDup (map fst M) ->
  (unmarshal T30 rnd (TNamed "Callback") (JObj M) = Some v -> exists vs, v = VStruct vs /\ forall k j, In (k, j) M ->
     (legal PatX k -> exists m w, by_name "MapOfAnything" (fields_of T30 "Callback") vs = Some (TMap TAny, VMap m) /\ get k m = Some w /\ unmarshal T30 rnd TAny j = Some w) /\
     (~ legal PatX k -> exists m w, by_name "AdditionalProperties" (fields_of T30 "Callback") vs = Some (TMap (TNamed "PathItem"), VMap m) /\
        get k m = Some w /\ unmarshal T30 rnd (TNamed "PathItem") j = Some w)) /\
  (unmarshal T31 rnd (TNamed "Callbacks") (JObj M) = Some v -> exists vs, v = VStruct vs /\ forall k j, In (k, j) M ->
     (legal PatX k -> exists m w, by_name "MapOfAnything" (fields_of T31 "Callbacks") vs = Some (TMap TAny, VMap m) /\ get k m = Some w /\ unmarshal T31 rnd TAny j = Some w) /\
     (~ legal PatX k -> exists m w, by_name "AdditionalProperties" (fields_of T31 "Callbacks") vs = Some (TMap (TNamed "PathItemOrReference"), VMap m) /\
        get k m = Some w /\ unmarshal T31 rnd (TNamed "PathItemOrReference") j = Some w)).
Proof.
  intros rnd M v N. split; intros E.
  - apply (addl_kept T30 rnd "Callback" PatX "MapOfAnything" "AdditionalProperties" (TNamed "PathItem") TAny M v); [vm_compute; reflexivity|exact N|exact E].
  - apply (addl_kept T31 rnd "Callbacks" PatX "MapOfAnything" "AdditionalProperties" (TNamed "PathItemOrReference") TAny M v); [vm_compute; reflexivity|exact N|exact E].
Qed.

Example C65_sections_case : exists v, unmarshal T30 idq (TNamed "ComponentsSchemas") (JObj [("a.B-1", JObj [("$ref", JStr "r")])]) = Some v /\
  unmarshal T30 idq (TNamed "ComponentsSchemas") (JObj []) <> Some v.
Proof. eexists. split; [vm_compute; reflexivity|vm_compute; discriminate]. Qed.
Example C65_callbacks_case : exists v, unmarshal T30 idq (TNamed "Callback") (JObj [("{$url}", JObj []); ("x-a", JNull)]) = Some v.
Proof. eexists. vm_compute. reflexivity. Qed.

(* ---------- C66 ---------- *)

(* 3.1: what is read from a written document is written the same way again. *)
Theorem C66_again31 : forall rnd n v j v', wf T31 rnd derived31 extra31 (TNamed n) v -> marshal T31 (TNamed n) v = Some j ->
  unmarshal T31 rnd (TNamed n) j = Some v' -> marshal T31 (TNamed n) v' = Some j.
Proof. intros rnd n v j v' W E D. destruct (exact31 rnd n v W) as (j' & E' & D'). congruence. Qed.
(* 3.0: the same without parameters and HTTP security schemes. *)
Theorem C66_again30_partial : forall rnd n v j v', wf T30 rnd derived30 extra30 (TNamed n) v -> underived T30 derived30 v (TNamed n) = true ->
  marshal T30 (TNamed n) v = Some j -> unmarshal T30 rnd (TNamed n) j = Some v' -> marshal T30 (TNamed n) v' = Some j.
Proof. intros rnd n v j v' W U E D. destruct (again30 rnd n v W U) as (j' & E' & D'). congruence. Qed.
(* With them the derived members are written next to the others: keys appear twice. *)
Theorem C66_duplicate_keys_refuted :
  (exists v j v' M, wf T30 idq derived30 extra30 (TNamed "Parameter") v /\ marshal T30 (TNamed "Parameter") v = Some j /\
     unmarshal T30 idq (TNamed "Parameter") j = Some v' /\ marshal T30 (TNamed "Parameter") v' = Some (JObj M) /\ ~ NoDup (map fst M)) /\
  (exists v j v' M, wf T30 idq derived30 extra30 (TNamed "HTTPSecurityScheme") v /\ marshal T30 (TNamed "HTTPSecurityScheme") v = Some j /\
     unmarshal T30 idq (TNamed "HTTPSecurityScheme") j = Some v' /\ marshal T30 (TNamed "HTTPSecurityScheme") v' = Some (JObj M) /\ ~ NoDup (map fst M)).
Proof.
  split.
  - destruct (unmarshal T30 idq (TNamed "Parameter") (JObj [("name", JStr "q"); ("in", JStr "query"); ("schema", JObj [])])) as [v'|] eqn:E; [|vm_compute in E; discriminate E].
    exists (strip T30 derived30 v' (TNamed "Parameter")). vm_compute in E. injection E as <-. eexists _, _, _.
    split; [apply wfb30_ok; vm_compute; reflexivity|]. split; [vm_compute; reflexivity|]. split; [vm_compute; reflexivity|]. split; [vm_compute; reflexivity|].
    rewrite <- nodups_ok. vm_compute. discriminate.
  - destruct (unmarshal T30 idq (TNamed "HTTPSecurityScheme") (JObj [("type", JStr "http"); ("scheme", JStr "bearer")])) as [v'|] eqn:E; [|vm_compute in E; discriminate E].
    exists (strip T30 derived30 v' (TNamed "HTTPSecurityScheme")). vm_compute in E. injection E as <-. eexists _, _, _.
    split; [apply wfb30_ok; vm_compute; reflexivity|]. split; [vm_compute; reflexivity|]. split; [vm_compute; reflexivity|]. split; [vm_compute; reflexivity|].
    rewrite <- nodups_ok. vm_compute. discriminate.
Qed.

(* ---------- assumptions ---------- *)

Print Assumptions C41_roundtrip.
Print Assumptions C41_identity.
Print Assumptions C41_injective.
Print Assumptions C42_roundtrip.
Print Assumptions C43_required.
Print Assumptions C43_unknown.
Print Assumptions C43_kept.
Print Assumptions C43_choice.
Print Assumptions C60_empty_security_refuted.
Print Assumptions C61_required.
Print Assumptions C61_kept.
Print Assumptions C61_choice.
Print Assumptions C61_unknown_refuted.
Print Assumptions C61_case_refuted.
Print Assumptions C62_example_refuted.
Print Assumptions C62_references_refuted.
Print Assumptions C62_styles_refuted.
Print Assumptions C62_values_refuted.
Print Assumptions C62_lost_keys_refuted.
Print Assumptions C63_distinct.
Print Assumptions C63_keys30.
Print Assumptions C63_keys31.
Print Assumptions C64_kind30.
Print Assumptions C64_kind31.
Print Assumptions C64_null.
Print Assumptions C64_kind_refuted.
Print Assumptions C65_sections.
Print Assumptions C65_illegal_names_refuted.
Print Assumptions C65_callbacks.
Print Assumptions C66_again31.
Print Assumptions C66_again30_partial.
Print Assumptions C66_duplicate_keys_refuted.
