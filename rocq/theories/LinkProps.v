(* Theorems about references instead of contents (C103).  The proofs are in
   LinkProofs.v. *)
From Coq Require Import ZArith Lia.
From Verif Require Import Str SMap Json PathModel PathSpec PathProofs PathProps SchemaModel Types RegistryModel RegistrySpec ReflectModel ReflectSpec
  ReflectProofs ReflectProps BodySpec BodyProps CodecModel CodecTables CodecSpec ReadModel CodecCheck ReadProps LinkModel LinkProofs.

(* ---------- C103 ---------- *)

(* If the last unit of a response has a reference, the response is this reference
   and nothing else, whatever the other units are. *)
Theorem C103_response : forall (J Sch : Type) (B : backend J Sch) cl v k l ref cu,
  documented B cl v -> units_of k (c_resp cl) (l ++ [with_reference ref cu]) ->
  filed (vw_responses v) k = Some (mkRor None (Some ref)).
Proof. intros J Sch B. exact (response_reference B). Qed.

(* Units after a reference start a new response: of the units before nothing is
   left, nor is the reference. *)
Theorem C103_response_anew : forall (J Sch : Type) (B : backend J Sch) cl v k l1 ref cu l2,
  documented B cl v -> units_of k (c_resp cl) (l1 ++ with_reference ref cu :: l2) -> l2 <> [] ->
  (forall x, In x l2 -> cu_custom_resp x = None) ->
  exists r, filed (vw_responses v) k = Some (mkRor (Some r) None) /\
    described B (c_method cl) l2 "" (rs_desc r) /\
    (c_method cl <> "head" -> forall ct, responses_media B ct l2 None (get ct (rs_content r))) /\
    (c_method cl = "head" -> rs_content r = []).
Proof. intros J Sch B. exact (response_after_reference B). Qed.

(* The request body is the reference if the unit or one before has a body and no
   unit after has one. *)
Theorem C103_request : forall (J Sch : Type) (B : backend J Sch) cl v l1 ref cu l2,
  documented B cl v -> c_req cl = l1 ++ with_reference ref cu :: l2 ->
  vw_body (c_view cl) <> None \/ (exists x ct, In x (l1 ++ [cu]) /\ body_type (c_method cl) x ct) ->
  (forall x, In x l2 -> cu_custom_req x = None /\ forall ct, ~ body_type (c_method cl) x ct) ->
  vw_body v = Some (mkRbor None (Some ref)).
Proof. intros J Sch B. exact (request_reference B). Qed.

(* If no unit has a body there is none, and references of units are lost. *)
Theorem C103_request_lost : forall (J Sch : Type) (B : backend J Sch) cl v,
  documented B cl v -> vw_body (c_view cl) = None -> (forall x ct, In x (c_req cl) -> ~ body_type (c_method cl) x ct) -> vw_body v = None.
Proof. intros J Sch B. exact (reference_lost B). Qed.

(* How references are written. *)
Theorem C103_written30 : forall (Sch : Type) (sv : Sch -> val) ref,
  marshal T30 (TNamed "ResponseOrRef") (ror30 sv (mkRor None (Some ref))) = Some (JObj [("$ref", JStr ref)]) /\
  marshal T30 (TNamed "RequestBodyOrRef") (rbor30 sv (mkRbor None (Some ref))) = Some (JObj [("$ref", JStr ref)]).
Proof. intros. split; vm_compute; reflexivity. Qed.
Theorem C103_written31 : forall ref,
  marshal T31 (TNamed "ResponseOrReference") (ror31 (mkRor None (Some ref))) = Some (JObj [("$ref", JStr ref)]) /\
  marshal T31 (TNamed "RequestBodyOrReference") (rbor31 (mkRbor None (Some ref))) = Some (JObj [("$ref", JStr ref)]).
Proof. intros. split; vm_compute; reflexivity. Qed.

Definition ex_ref_unit (status : Z) : cunit string string := with_reference "#/components/responses/E" (ex_response status "" "" []).
Example C103_response_case : exists cl v, documented (ex_backend false) cl v /\
  units_of (KStatus "404") (c_resp cl) ([ex_response 404 "text/csv" "no" []] ++ [ex_ref_unit 404]) /\
  rs_map (vw_responses v) = [("404", mkRor None (Some "#/components/responses/E"))].
Proof.
  ex_call ex_doc30 (ex_oc30 "get" "/x" [] [ex_response 404 "text/csv" "no" []; ex_ref_unit 404]).
  split; [|vm_compute; reflexivity]. cbn [c_resp ex_oc30 oc_resp app].
  apply uo_take; [apply fu_code; [reflexivity|discriminate|simpl; lia|exact (itoa_numeral 404)]|].
  apply uo_take; [apply fu_code; [reflexivity|discriminate|simpl; lia|exact (itoa_numeral 404)]|]. constructor.
Qed.

Example C103_response_anew_case : exists cl v, documented (ex_backend false) cl v /\
  units_of (KStatus "404") (c_resp cl) ([ex_response 404 "text/csv" "no" []] ++ ex_ref_unit 404 :: [ex_response 404 "" "yes" []]) /\
  rs_map (vw_responses v) = [("404", mkRor (Some (mkResp "yes" [] [("application/json", mkMedia (Some "resp") JNull)] JNull)) None)].
Proof.
  ex_call ex_doc30 (ex_oc30 "get" "/x" [] [ex_response 404 "text/csv" "no" []; ex_ref_unit 404; ex_response 404 "" "yes" []]).
  split; [|vm_compute; reflexivity]. cbn [c_resp ex_oc30 oc_resp app].
  do 3 (apply uo_take; [apply fu_code; [reflexivity|discriminate|simpl; lia|exact (itoa_numeral 404)]|]). constructor.
Qed.

Example C103_request_case : exists cl v, documented (ex_backend false) cl v /\
  c_req cl = [ex_csv_body] ++ with_reference "#/b" (ex_json_body "d") :: [] /\ body_type (c_method cl) (ex_json_body "d") "application/json" /\
  vw_body v = Some (mkRbor None (Some "#/b")).
Proof.
  ex_call ex_doc30 (ex_oc30 "post" "/x" [ex_csv_body; with_reference "#/b" (ex_json_body "d")] []).
  split; [reflexivity|]. split; [exact ex_json_type|vm_compute; reflexivity].
Qed.

(* AddReqStructure(nil, WithReference(ref)) documents no request body. *)
Definition nothing_unit {Sch} : cunit string Sch :=
  mkCU true "" "" 0 false "" false None None false false false false false
    (fun _ => false) (Ret false) (fun _ => ([], Err)) (fun _ => ([], Ret false)) [] (Ret false) ([], Err) ([], Err).
Theorem C103_request_lost_refuted : exists cl v, documented (ex_backend false) cl v /\
  c_req cl = [with_reference "#/components/requestBodies/B" nothing_unit] /\ vw_body v = None.
Proof.
  ex_call ex_doc30 (ex_oc30 "post" "/x" [with_reference "#/components/requestBodies/B" nothing_unit] []). split; reflexivity.
Qed.

(* A unit with a body after a unit with a reference gives a body that is both, in a
   document that cannot be read. *)
Definition text_unit {Sch} (ct : string) : cunit bool Sch :=
  mkCU true ct "" 0 false "" false None None false false false false false
    (fun _ => false) (Ret false) (fun _ => ([], Err)) (fun _ => ([], Ret false)) [] (Ret false) ([], Err) ([], Err).
Definition mixed_units {Sch} : list (cunit bool Sch) :=
  [with_reference "#/components/requestBodies/B" (text_unit "text/csv"); text_unit "text/plain"].
Theorem C103_mixed_refuted_30 : exists v, accepted30 (rd_oc30 "post" "/a" mixed_units []) v /\ forall rnd, rejected30 rnd v.
Proof. rd_rejected. Qed.
Theorem C103_mixed_refuted_31 : exists v, accepted31 rd_backend31 (rd_oc31 "post" "/a" mixed_units []) v /\ forall rnd, rejected31 rnd v.
Proof. rd_rejected. Qed.
(* Each of the units alone gives a document that is read. *)
Example C103_mixed_case : forall u, In u (@mixed_units osor) ->
  exists v, accepted30 (rd_oc30 "post" "/a" [u] []) v /\ readable30 idq v.
Proof.
  intros u [<- |[<- |[]]]; eexists; (split; [split; [rd_made|split; [reflexivity|split; [vm_compute; reflexivity|reflexivity]]]|]);
    do 2 eexists; (split; [vm_compute; reflexivity|]); (split; [vm_compute; reflexivity|]); vm_compute; reflexivity.
Qed.

(* ---------- assumptions ---------- *)

Print Assumptions C103_response.
Print Assumptions C103_response_anew.
Print Assumptions C103_request.
Print Assumptions C103_request_lost.
Print Assumptions C103_written30.
Print Assumptions C103_written31.
Print Assumptions C103_request_lost_refuted.
Print Assumptions C103_mixed_refuted_30.
Print Assumptions C103_mixed_refuted_31.
