(* Theorems about single members of the JSON form of entities (C67-C70).  The
   types and enumerations of the specifications are in CodecTypeSpec.v. *)
From Verif Require Import Str SMap Json CodecModel CodecTables CodecSpec CodecObjSpec CodecTypeSpec CodecProofs CodecStrict CodecCheck CodecMembers CodecProps.

(* ---------- C67 ---------- *)

(* Every member of a written object is a constant of its type, the encoding of
   the field of that name, or of an entry of the map for its pattern; every field
   that is not nil and every entry is written; nil fields are not, unless
   required. *)
Theorem C67_members30 : forall rnd n o v, In (n, o) (objects30 ++ sections30) -> wf T30 rnd derived30 extra30 (TNamed n) v ->
  exists vs M, v = VStruct vs /\ marshal T30 (TNamed n) v = Some (JObj M) /\
    (forall k j, In (k, j) M -> written T30 n o vs k j) /\
    (forall k name t w, In k (o_keys o) -> spelled k name -> by_name name (fields_of T30 n) vs = Some (t, w) ->
       (w <> VNil -> In k (map fst M)) /\ (w = VNil -> ~ In k (o_req o) -> ~ In k (map fst M))) /\
    (forall p name t m k w, In (p, (name, t)) (o_pats o) -> by_name name (fields_of T30 n) vs = Some (TMap t, VMap m) -> In (k, w) m ->
       In k (map fst M)).
Proof. exact members30. Qed.
Theorem C67_members31 : forall rnd n o v, In (n, o) objects31 -> n <> "SecurityScheme" -> wf T31 rnd derived31 extra31 (TNamed n) v ->
  exists vs M, v = VStruct vs /\ marshal T31 (TNamed n) v = Some (JObj M) /\
    (forall k j, In (k, j) M -> written T31 n o vs k j) /\
    (forall k name t w, In k (o_keys o) -> spelled k name -> by_name name (fields_of T31 n) vs = Some (t, w) ->
       (w <> VNil -> In k (map fst M)) /\ (w = VNil -> ~ In k (o_req o) -> ~ In k (map fst M))) /\
    (forall p name t m k w, In (p, (name, t)) (o_pats o) -> by_name name (fields_of T31 n) vs = Some (TMap t, VMap m) -> In (k, w) m ->
       In k (map fst M)).
Proof. exact members31. Qed.

Example C67_tag : exists vs, wf T30 idq derived30 extra30 (TNamed "Tag") (VStruct vs) /\
  marshal T30 (TNamed "Tag") (VStruct vs) = Some (JObj [("name", JStr "t"); ("description", JStr "d"); ("x-a", JNull)]).
Proof.
  exists [VStr "t"; VPtr (VStr "d"); VNil; VMap [("x-a", VAny JNull)]]. split; [apply wfb30_ok; vm_compute; reflexivity|vm_compute; reflexivity].
Qed.
(* A required map that is nil is written as null. *)
Example C67_null_content : exists vs, wf T31 idq derived31 extra31 (TNamed "RequestBody") (VStruct vs) /\
  marshal T31 (TNamed "RequestBody") (VStruct vs) = Some (JObj [("content", JNull)]).
Proof. exists [VNil; VNil; VNil; VNil]. split; [apply wfb31_ok; vm_compute; reflexivity|vm_compute; reflexivity]. Qed.

(* ---------- C68 ---------- *)

(* In an accepted object the members have the types of the specification, or are
   null. *)
Theorem C68_read30 : forall rnd n o ms k t M j v, In (n, o) objects30 -> In (n, ms) types30 -> In (k, t) ms -> NoDup (map fst M) -> In (k, j) M ->
  unmarshal T30 rnd (TNamed n) (JObj M) = Some v -> j = JNull \/ exists w, unmarshal T30 rnd t j = Some w.
Proof.
  intros rnd n o ms k t M j v I J K N Ik E. destruct (C43_kept rnd n o M v I N E) as (vs & _ & H).
  exact (kept_typed T30 rnd n o ms k t vs j (tables_check_ok _ _ _ _ _ _ tables30 I J) K (H k j Ik)).
Qed.
Theorem C68_read31 : forall rnd n o ms k t M j v, In (n, o) objects31 -> In (n, ms) types31 -> In (k, t) ms -> NoDup (map fst M) -> In (k, j) M ->
  (forall k k', In k (map fst M) -> In k' (map fst M) -> fold_key k = fold_key k' -> k = k') ->
  unmarshal T31 rnd (TNamed n) (JObj M) = Some v -> j = JNull \/ exists w, unmarshal T31 rnd t j = Some w.
Proof.
  intros rnd n o ms k t M j v I J K N Ik F E. destruct (C61_kept rnd n o M v I N F E) as (vs & _ & H).
  apply (kept_typed T31 rnd n o ms k t vs j (tables_check_ok _ _ _ _ _ _ tables31 I J) K). apply (H k j Ik). left.
  assert (C : forallb (fun no => forallb (fun nm => if String.eqb (fst no) (fst nm) then forallb (fun kt => in_list (fst kt) (o_keys (snd no))) (snd nm) else true) types31) objects31 = true)
    by (vm_compute; reflexivity).
  rewrite forallb_forall in C. specialize (C _ I). rewrite forallb_forall in C. specialize (C _ J). cbn [fst snd] in C. rewrite String.eqb_refl in C.
  rewrite forallb_forall in C. apply in_list_In. exact (C _ K).
Qed.

(* The simple types accept exactly these JSON values. *)
Theorem C68_simple : forall T rnd j v,
  (unmarshal T rnd TStr j = Some v <-> (exists s, j = JStr s /\ v = VStr s) \/ j = JNull /\ v = VStr "") /\
  (unmarshal T rnd TBool j = Some v <-> (exists b, j = JBool b /\ v = VBool b) \/ j = JNull /\ v = VBool false) /\
  (unmarshal T rnd TFloat j = Some v <-> (exists q, j = JNum q /\ v = VNum (rnd q)) \/ j = JNull /\ v = VNum 0) /\
  (unmarshal T rnd TInt j = Some v <-> (exists z, (- 2 ^ 63 <= z < 2 ^ 63)%Z /\ j = JNum (z # 1) /\ v = VNum (z # 1)) \/ j = JNull /\ v = VNum 0).
Proof. exact simple_types. Qed.

(* Lists and maps are read element by element. *)
Theorem C68_list : forall T rnd t j v, unmarshal T rnd (TArr t) j = Some v <->
  j = JNull /\ v = VNil \/ exists l vs, j = JArr l /\ v = VArr vs /\ Forall2 (fun x w => unmarshal T rnd t x = Some w) l vs.
Proof. exact list_type. Qed.
Theorem C68_map : forall T rnd t M v, NoDup (map fst M) -> unmarshal T rnd (TMap t) (JObj M) = Some v ->
  exists m, v = VMap m /\ (forall k j, In (k, j) M -> exists w, get k m = Some w /\ unmarshal T rnd t j = Some w) /\
    (forall k, get k m <> None -> In k (map fst M)).
Proof. exact map_type. Qed.

(* All members have a type in the tables, except the headers of a 3.0 encoding. *)
Theorem C68_complete :
  (forall n o k, In (n, o) objects30 -> In k (o_keys o) -> (n, k) <> ("Encoding", "headers") -> exists ms t, In (n, ms) types30 /\ In (k, t) ms) /\
  (forall n o k, In (n, o) objects31 -> In k (o_keys o) -> exists ms t, In (n, ms) types31 /\ In (k, t) ms).
Proof. split; [exact types30_complete|exact types31_complete]. Qed.

Example C68_list_case : unmarshal T30 idq (TArr TInt) (JArr [JNum 1; JNum 2]) = Some (VArr [VNum 1; VNum 2]) /\
  unmarshal T30 idq (TArr TInt) (JArr [JNum 1; JStr "2"]) = None /\
  unmarshal T30 idq (TMap TBool) (JObj [("a", JBool true); ("b", JNull)]) = Some (VMap [("a", VBool true); ("b", VBool false)]).
Proof. repeat split; vm_compute; reflexivity. Qed.
Example C68_case : unmarshal T30 idq (TNamed "Schema") (JObj [("maxLength", JNum (1 # 2))]) = None /\
  unmarshal T30 idq (TNamed "Schema") (JObj [("maxLength", JNum 2)]) <> None /\
  unmarshal T30 idq (TNamed "Info") (JObj [("title", JStr "t"); ("version", JNum 1)]) = None.
Proof. split; [vm_compute; reflexivity|]. split; [vm_compute; discriminate|vm_compute; reflexivity]. Qed.

(* ---------- C69 ---------- *)

Theorem C69_read : forall rnd n vals j v,
  (In (n, vals) enums30 -> (unmarshal T30 rnd (TNamed n) j = Some v <-> exists s, In s vals /\ j = JStr s /\ v = VStr s)) /\
  (In (n, vals) enums31 -> (unmarshal T31 rnd (TNamed n) j = Some v <-> exists s, In s vals /\ j = JStr s /\ v = VStr s)).
Proof.
  intros rnd n vals j v. split; intros I; apply enumeration.
  - assert (C : forallb (enum_check T30) enums30 = true) by (vm_compute; reflexivity). rewrite forallb_forall in C. exact (C _ I).
  - assert (C : forallb (enum_check T31) enums31 = true) by (vm_compute; reflexivity). rewrite forallb_forall in C. exact (C _ I).
Qed.
Theorem C69_written : forall n vals j s,
  (In (n, vals) enums30 -> (marshal T30 (TNamed n) (VStr s) = Some j <-> In s vals /\ j = JStr s)) /\
  (In (n, vals) enums31 -> (marshal T31 (TNamed n) (VStr s) = Some j <-> In s vals /\ j = JStr s)).
Proof.
  intros n vals j s. split; intros I; apply enumeration_written.
  - assert (C : forallb (enum_check T30) enums30 = true) by (vm_compute; reflexivity). rewrite forallb_forall in C. exact (C _ I).
  - assert (C : forallb (enum_check T31) enums31 = true) by (vm_compute; reflexivity). rewrite forallb_forall in C. exact (C _ I).
Qed.
Example C69_case : unmarshal T30 idq (TNamed "ParameterIn") (JStr "body") = None /\ unmarshal T30 idq (TNamed "ParameterIn") (JStr "cookie") = Some (VStr "cookie").
Proof. split; vm_compute; reflexivity. Qed.

(* ---------- C70 ---------- *)

(* References to headers in an encoding, extensions of an encoding, a bearer
   format for the scheme "Bearer" in other case. *)
Theorem C70_encoding_refuted : forall r,
  unmarshal T30 idq (TNamed "Encoding") (JObj [("headers", JObj [("A", JObj [("$ref", JStr r)])])]) = None /\
  unmarshal T30 idq (TNamed "Encoding") (JObj [("x-a", JStr r)]) = None.
Proof. intros r. split; vm_compute; reflexivity. Qed.
Theorem C70_bearer_refuted :
  unmarshal T30 idq (TNamed "SecurityScheme") (JObj [("type", JStr "http"); ("scheme", JStr "Bearer"); ("bearerFormat", JStr "JWT")]) = None /\
  unmarshal T30 idq (TNamed "SecurityScheme") (JObj [("type", JStr "http"); ("scheme", JStr "bearer"); ("bearerFormat", JStr "JWT")]) <> None.
Proof. split; [vm_compute; reflexivity|vm_compute; discriminate]. Qed.

(* ---------- assumptions ---------- *)

Print Assumptions C67_members30.
Print Assumptions C67_members31.
Print Assumptions C68_read30.
Print Assumptions C68_read31.
Print Assumptions C68_simple.
Print Assumptions C68_list.
Print Assumptions C68_map.
Print Assumptions C68_complete.
Print Assumptions C69_read.
Print Assumptions C69_written.
Print Assumptions C70_encoding_refuted.
Print Assumptions C70_bearer_refuted.
