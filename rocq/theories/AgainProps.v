(* C66, OpenAPI 3.0: what is written when a written document is read and
   written again.  [again] and what parameters and HTTP security schemes get at
   their end are in AgainSpec.v. *)
From Verif Require Import Str SMap Json CodecModel CodecTables CodecSpec CodecObjSpec CodecProofs CodecRT CodecStrict CodecWrite CodecCheck CodecDocs AgainSpec AgainMain.

(* At every depth: the same members with the same values in the same order, but
   for the ends of parameters and HTTP security schemes. *)
Theorem C66_again30 : forall rnd n v j v', wf T30 rnd derived30 extra30 (TNamed n) v -> marshal T30 (TNamed n) v = Some j ->
  unmarshal T30 rnd (TNamed n) j = Some v' -> exists j', marshal T30 (TNamed n) v' = Some j' /\ again rnd j j'.
Proof. exact again30. Qed.

(* A parameter always gets an end. *)
Theorem C66_parameter_again : forall rnd v m v', wf T30 rnd derived30 extra30 (TNamed "Parameter") v ->
  marshal T30 (TNamed "Parameter") v = Some (JObj m) -> unmarshal T30 rnd (TNamed "Parameter") (JObj m) = Some v' ->
  exists e, marshal T30 (TNamed "Parameter") v' = Some (JObj (m ++ e)) /\ parameter_again rnd m e.
Proof. exact parameter30. Qed.

(* An HTTP security scheme gets one if it is a bearer scheme. *)
Theorem C66_http_again : forall rnd v m v', wf T30 rnd derived30 extra30 (TNamed "HTTPSecurityScheme") v ->
  marshal T30 (TNamed "HTTPSecurityScheme") v = Some (JObj m) -> unmarshal T30 rnd (TNamed "HTTPSecurityScheme") (JObj m) = Some v' ->
  exists e, marshal T30 (TNamed "HTTPSecurityScheme") v' = Some (JObj (m ++ e)) /\ http_again m e.
Proof. exact http30. Qed.

(* [rep rnd n v j1 j2 v2]: [v] is written as [j1], read, written as [j2], and read as [v2]. *)
Definition rep (rnd : Q -> Q) (n : string) (v : val) (j1 j2 : json) (v2 : val) : Prop :=
  exists v1, marshal T30 (TNamed n) v = Some j1 /\ unmarshal T30 rnd (TNamed n) j1 = Some v1 /\
    marshal T30 (TNamed n) v1 = Some j2 /\ unmarshal T30 rnd (TNamed n) j2 = Some v2.

(* A header parameter without style has one after that. *)
Theorem C66_style_refuted : exists v m m' v2, wf T30 idq derived30 extra30 (TNamed "Parameter") v /\ rep idq "Parameter" v (JObj m) (JObj m') v2 /\
  ~ In "style" (map fst m) /\ In ("style", JStr "simple") m' /\ strip T30 derived30 v2 (TNamed "Parameter") <> v.
Proof.
  destruct (unmarshal T30 idq (TNamed "Parameter") (JObj [("name", JStr "q"); ("in", JStr "header"); ("schema", JObj [])])) as [v'|] eqn:E; [|vm_compute in E; discriminate E].
  exists (strip T30 derived30 v' (TNamed "Parameter")). vm_compute in E. injection E as <-. eexists _, _, _.
  split; [apply wfb30_ok; vm_compute; reflexivity|]. split.
  { eexists. split; [vm_compute; reflexivity|]. split; [vm_compute; reflexivity|]. split; [vm_compute; reflexivity|]. vm_compute; reflexivity. }
  split; [intros [X|[X|[X|[]]]]; discriminate X|]. split; [do 5 right; left; reflexivity|]. vm_compute. discriminate.
Qed.

(* With a rounding that changes 2^53+1, as that to float64 does, the maximal
   length 2^53+1 in the schema of a parameter is 2^53 after that. *)
Definition rnd53 (q : Q) : Q := if Qeq_bool q (9007199254740993 # 1) then 9007199254740992 # 1 else q.
Theorem C66_rounded_refuted : exists v j1 j2 v2, wf T30 rnd53 derived30 extra30 (TNamed "Parameter") v /\ rep rnd53 "Parameter" v j1 j2 v2 /\
  strip T30 derived30 v2 (TNamed "Parameter") <> v.
Proof.
  destruct (unmarshal T30 rnd53 (TNamed "Parameter") (JObj [("name", JStr "q"); ("in", JStr "query"); ("schema", JObj [("maxLength", JNum (9007199254740993 # 1))])])) as [v'|] eqn:E; [|vm_compute in E; discriminate E].
  exists (strip T30 derived30 v' (TNamed "Parameter")). vm_compute in E. injection E as <-. eexists _, _, _.
  split; [apply (wfb_ok rnd53 (fun _ => false) (fun q H => False_ind _ (Bool.diff_false_true H)) T30 derived30 extra30 _ _ _ (le_n _)); vm_compute; reflexivity|]. split.
  { eexists. split; [vm_compute; reflexivity|]. split; [vm_compute; reflexivity|]. split; [vm_compute; reflexivity|]. vm_compute; reflexivity. }
  vm_compute. discriminate.
Qed.

(* Cases. *)
Definition again_of (n : string) (j : json) : option json :=
  match unmarshal T30 idq (TNamed n) j with Some v => marshal T30 (TNamed n) v | None => None end.
Example C66_parameter_case :
  again_of "Parameter" (JObj [("name", JStr "id"); ("in", JStr "path"); ("required", JBool true); ("style", JStr "label"); ("schema", JObj [("type", JStr "string")])]) =
  Some (JObj [("name", JStr "id"); ("in", JStr "path"); ("required", JBool true); ("style", JStr "label"); ("schema", JObj [("type", JStr "string")]);
              ("schema", JObj [("type", JStr "string")]); ("in", JStr "path"); ("required", JBool true); ("style", JStr "label")]).
Proof. vm_compute. reflexivity. Qed.
Example C66_http_case :
  again_of "HTTPSecurityScheme" (JObj [("type", JStr "http"); ("scheme", JStr "bearer"); ("x-a", JNull)]) =
    Some (JObj [("type", JStr "http"); ("scheme", JStr "bearer"); ("x-a", JNull); ("scheme", JStr "bearer")]) /\
  again_of "HTTPSecurityScheme" (JObj [("type", JStr "http"); ("scheme", JStr "basic")]) = Some (JObj [("type", JStr "http"); ("scheme", JStr "basic")]).
Proof. split; vm_compute; reflexivity. Qed.
(* Inside a document. *)
Example C66_operation_case :
  again_of "Operation" (JObj [("parameters", JArr [JObj [("name", JStr "c"); ("in", JStr "cookie"); ("schema", JObj [])]]); ("responses", JObj [])]) =
  Some (JObj [("parameters", JArr [JObj [("name", JStr "c"); ("in", JStr "cookie"); ("schema", JObj []); ("schema", JObj []); ("in", JStr "cookie"); ("style", JStr "form")]]); ("responses", JObj [])]).
Proof. vm_compute. reflexivity. Qed.

(* ---------- assumptions ---------- *)

Print Assumptions C66_again30.
Print Assumptions C66_parameter_again.
Print Assumptions C66_http_again.
Print Assumptions C66_style_refuted.
Print Assumptions C66_rounded_refuted.
