(* Theorems about members of an object that belong together (C71, C72).  The
   proofs are in CodecConstr.v and CodecParams.v. *)
From Verif Require Import Str SMap Json CodecModel CodecTables CodecSpec CodecObjSpec CodecStrict CodecCheck CodecParams.

(* ---------- C71 ---------- *)

(* A parameter of 3.0 that is read has a location, and the value says which one;
   a path parameter is required; the style is one of the location; there is
   exactly one of schema and content. *)
Theorem C71_parameter : forall rnd M v, NoDup (map fst M) -> unmarshal T30 rnd (TNamed "Parameter") (JObj M) = Some v ->
  exists i vs, v = VStruct vs /\ In i (map fst styles30) /\ In ("in", JStr i) M /\
    (exists t w, by_name "Location" (fields_of T30 "Parameter") vs = Some (t, VPtr w) /\ located i w) /\
    (i = "path" -> In ("required", JBool true) M) /\
    (forall j, In ("style", j) M -> j = JNull /\ (i = "path" \/ i = "query") \/ exists s ss, j = JStr s /\ In (i, ss) styles30 /\ In s ss) /\
    (In "schema" (map fst M) <-> ~ In "content" (map fst M)).
Proof. exact parameter. Qed.

(* A link of 3.0 names its operation in one way at most. *)
Theorem C71_link : forall rnd M v, NoDup (map fst M) -> unmarshal T30 rnd (TNamed "Link") (JObj M) = Some v ->
  ~ (In "operationId" (map fst M) /\ In "operationRef" (map fst M)).
Proof. exact link30. Qed.

(* A bearer format only with the bearer scheme. *)
Theorem C71_bearer : forall rnd M v, NoDup (map fst M) -> unmarshal T30 rnd (TNamed "HTTPSecurityScheme") (JObj M) = Some v ->
  In "bearerFormat" (map fst M) -> In ("scheme", JStr "bearer") M.
Proof. exact bearer30. Qed.

(* The only style of a header. *)
Theorem C71_header_style : forall rnd M v j, NoDup (map fst M) -> In ("style", j) M ->
  unmarshal T30 rnd (TNamed "Header") (JObj M) = Some v \/ unmarshal T31 rnd (TNamed "Header") (JObj M) = Some v -> j = JStr "simple".
Proof.
  intros rnd M v j N I [E|E].
  - exact (header30 rnd M v N E j I).
  - exact (proj2 (header31 rnd M v N E) j I).
Qed.

(* A header of 3.1 has exactly one of schema and content. *)
Theorem C71_header31 : forall rnd M v, NoDup (map fst M) -> unmarshal T31 rnd (TNamed "Header") (JObj M) = Some v ->
  (In "schema" (map fst M) <-> ~ In "content" (map fst M)).
Proof. intros rnd M v N E. exact (proj1 (header31 rnd M v N E)). Qed.

Example C71_case :
  let read := fun T n M => match unmarshal T idq (TNamed n) (JObj M) with Some _ => true | None => false end in
  let par := fun l => ("name", JStr "n") :: l in
  read T30 "Parameter" (par [("in", JStr "path"); ("required", JBool true); ("schema", JObj []); ("style", JStr "label")]) = true /\
  read T30 "Parameter" (par [("in", JStr "query"); ("content", JObj []); ("style", JNull)]) = true /\
  read T30 "Parameter" (par [("in", JStr "path"); ("schema", JObj [])]) = false /\
  read T30 "Parameter" (par [("in", JStr "query"); ("schema", JObj []); ("content", JObj [])]) = false /\
  read T30 "Parameter" (par [("in", JStr "cookie"); ("schema", JObj []); ("style", JStr "simple")]) = false /\
  read T30 "Link" [("operationId", JStr "i")] = true /\
  read T30 "Link" [("operationId", JStr "i"); ("operationRef", JStr "r")] = false /\
  read T30 "HTTPSecurityScheme" [("type", JStr "http"); ("scheme", JStr "bearer"); ("bearerFormat", JStr "f")] = true /\
  read T30 "HTTPSecurityScheme" [("type", JStr "http"); ("scheme", JStr "basic"); ("bearerFormat", JStr "f")] = false /\
  read T30 "Header" [("style", JStr "simple")] = true /\ read T30 "Header" [("style", JStr "form")] = false /\
  read T31 "Header" [("schema", JObj [])] = true /\ read T31 "Header" [] = false.
Proof. vm_compute. repeat split. Qed.

(* ---------- C72 ---------- *)

(* Nothing of this is checked for parameters, links and security schemes of 3.1;
   headers of 3.0 may have both or none of schema and content; nobody checks
   that there is no example beside examples. *)
Theorem C72_unchecked_refuted :
  let read := fun T n M => exists v, unmarshal T idq (TNamed n) (JObj M) = Some v in
  let par := fun l => ("name", JStr "n") :: l in
  read T31 "Parameter" (par [("in", JStr "path"); ("required", JBool false); ("schema", JObj []); ("content", JObj [])]) /\
  read T31 "Parameter" (par [("in", JStr "query")]) /\
  read T31 "Parameter" (par [("in", JStr "header"); ("style", JStr "deepObject")]) /\
  read T31 "Link" [("operationId", JStr "i"); ("operationRef", JStr "r")] /\
  read T31 "License" [("name", JStr "n"); ("identifier", JStr "i"); ("url", JStr "u")] /\
  read T31 "SecurityScheme" [("type", JStr "http"); ("scheme", JStr "basic"); ("bearerFormat", JStr "f")] /\
  read T30 "Header" [("schema", JObj []); ("content", JObj [])] /\ read T30 "Header" [] /\
  read T30 "Link" [] /\
  read T30 "Parameter" (par [("in", JStr "query"); ("schema", JObj []); ("example", JNull); ("examples", JObj [])]) /\
  read T30 "MediaType" [("example", JNull); ("examples", JObj [])] /\
  read T30 "Example" [("value", JNull); ("externalValue", JStr "u")].
Proof. do 11 (split; [eexists; vm_compute; reflexivity|]). eexists. vm_compute. reflexivity. Qed.

Print Assumptions C71_parameter.
Print Assumptions C71_link.
Print Assumptions C71_bearer.
Print Assumptions C71_header_style.
Print Assumptions C71_header31.
Print Assumptions C72_unchecked_refuted.
