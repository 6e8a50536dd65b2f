(* Theorems about the bytes of the documents that reflectors build (C108). *)
From Coq Require Import Permutation ZArith Lia.
From Verif Require Import Str SMap Json PathModel PathProofs Types RegistryModel ReflectModel ReflectSpec SchemaModel CodecModel CodecTables CodecSpec CodecProofs CodecCheck
  CodecProps ReadModel ReadSpec ReadProofs ReadRun ReadSchemas ReadProps OrdModel OrdSpec OrdProofs OrdWrite UnionModel UnionSpec TextModel TextSpec TextProofs TextProps
  SeqSpec SeqProofs SeqCalls SeqDocs SeqProps RoundProofs BytesSpec BytesModel BytesProofs BytesDocs BytesSound BytesProps.

Lemma document_wf30 rnd {J Sch} (sv : Sch -> val) (B : backend J Sch) base r l :
  good_backend (good30 rnd sv) B -> wf T30 rnd derived30 extra30 (TNamed "Spec") (VStruct base) -> new30 r ->
  Forall (good_call30 rnd (good30 rnd sv) (good30 rnd sv) styles30 B) l -> wf T30 rnd derived30 extra30 (TNamed "Spec") (document30 sv base (rrun30 B r l)).
Proof.
  intros GB W [N1 N2] F.
  assert (D0 : doc_ok30 rnd Sch sv (r30_paths r)) by (split; rewrite N1; [apply each_nil|intros k []]).
  assert (C0 : comps_ok30 rnd Sch sv (r30_comps r)) by (rewrite N2; split; [apply each_nil|intros k []]).
  destruct (run_keep30 rnd sv B GB l F r D0 C0) as [D C]. apply wf_spec30; assumption.
Qed.
Lemma document_wf31 rnd {J} (B : backend J sch31) base r l :
  good_backend (good31 rnd) B -> wf T31 rnd derived31 extra31 (TNamed "Spec") (VStruct base) -> new31 r ->
  Forall (good_call31 rnd (good31 rnd) (good_header31 rnd) styles31 B) l -> wf T31 rnd derived31 extra31 (TNamed "Spec") (document31 base (rrun31 B r l)).
Proof.
  intros GB W (N1 & N2 & N3) F.
  assert (D0 : doc_ok31 rnd (r31_paths r)).
  { split; [|rewrite N2; apply each_nil]. intros m E. destruct N1 as [N1|N1]; rewrite N1 in E; [discriminate E|]. injection E as <-.
    split; [apply each_nil|intros k []]. }
  assert (C0 : comps_ok31 rnd (r31_comps r)) by (unfold comps_ok31; rewrite N3; apply each_nil).
  destruct (run_keep31 rnd B GB l F r D0 C0) as [D C]. apply wf_spec31; assumption.
Qed.

(* ---------- C108 ---------- *)

(* Whatever the calls were, the document is written, as a JSON text of characters
   that may stand in HTML, with the strings of the document but for bytes that
   belong to no character. *)
Theorem C108_written30 : forall rnd num_text (J Sch : Type) (sv : Sch -> val) (B : backend J Sch) base r l,
  numbers_ok rnd num_text -> good_backend (good30 rnd sv) B -> wf T30 rnd derived30 extra30 (TNamed "Spec") (VStruct base) -> new30 r ->
  Forall (good_call30 rnd (good30 rnd sv) (good30 rnd sv) styles30 B) l ->
  exists s f g j j', marshal_text T30 num_text quote (TNamed "Spec") (document30 sv base (rrun30 B r l)) = UOk s /\ harmless s /\
    (forall x, repaired x (f x)) /\ (forall q, rnd q = q \/ (exists z, q = inject_Z z /\ (-2 ^ 63 <= z < 2 ^ 63)%Z) -> g q = q) /\
    marshal T30 (TNamed "Spec") (document30 sv base (rrun30 B r l)) = Some j /\ reordered j j' /\ text s (jmap f g j').
Proof.
  intros rnd nt J Sch sv B base r l OK GB W N F. pose proof (document_wf30 rnd sv B base r l GB W N F) as Wd.
  destruct (round30_json nt quote rnd as_given "Spec" _ (quote_ok rnd nt OK) fair_given Wd) as (s & j0 & j & M & R & E & _).
  pose proof (wf_single _ _ _ _ _ _ Wd) as S. destruct (C104_any30 rnd nt _ _ _ OK S E) as (f & g & j1 & j' & F1 & G & M1 & R1 & X & _).
  exists s, f, g, j1, j'. split; [exact E|]. split; [exact (C105_harmless30 rnd nt _ _ _ OK S E)|]. auto.
Qed.
Theorem C108_written31 : forall rnd num_text (J : Type) (B : backend J sch31) base r l,
  numbers_ok rnd num_text -> good_backend (good31 rnd) B -> wf T31 rnd derived31 extra31 (TNamed "Spec") (VStruct base) -> new31 r ->
  Forall (good_call31 rnd (good31 rnd) (good_header31 rnd) styles31 B) l ->
  exists s f g j j', marshal_text T31 num_text quote (TNamed "Spec") (document31 base (rrun31 B r l)) = UOk s /\ harmless s /\
    (forall x, repaired x (f x)) /\ (forall q, rnd q = q \/ (exists z, q = inject_Z z /\ (-2 ^ 63 <= z < 2 ^ 63)%Z) -> g q = q) /\
    marshal T31 (TNamed "Spec") (document31 base (rrun31 B r l)) = Some j /\ reordered j j' /\ text s (jmap f g j').
Proof.
  intros rnd nt J B base r l OK GB W N F. pose proof (document_wf31 rnd B base r l GB W N F) as Wd.
  destruct (round31_json nt quote rnd as_given "Spec" _ (quote_ok rnd nt OK) fair_given Wd) as (s & j0 & j & M & R & E & _).
  pose proof (wf_single _ _ _ _ _ _ Wd) as S. destruct (C104_any31 rnd nt _ _ _ OK S E) as (f & g & j1 & j' & F1 & G & M1 & R1 & X & _).
  exists s, f, g, j1, j'. split; [exact E|]. split; [exact (C105_harmless31 rnd nt _ _ _ OK S E)|]. auto.
Qed.

(* If its strings are UTF-8, these bytes are read as the document. *)
Theorem C108_read30 : forall rnd num_text (J Sch : Type) (sv : Sch -> val) (B : backend J Sch) base r l o,
  numbers_ok rnd num_text -> good_backend (good30 rnd sv) B -> wf T30 rnd derived30 extra30 (TNamed "Spec") (VStruct base) -> new30 r ->
  Forall (good_call30 rnd (good30 rnd sv) (good30 rnd sv) styles30 B) l -> utf8_val (document30 sv base (rrun30 B r l)) -> fair o ->
  exists s v', marshal_text T30 num_text quote (TNamed "Spec") (document30 sv base (rrun30 B r l)) = UOk s /\
    unmarshal_bytes T30 rnd o (TNamed "Spec") s = Some v' /\ vsame (document30 sv base (rrun30 B r l)) (strip T30 derived30 v' (TNamed "Spec")).
Proof. intros rnd nt J Sch sv B base r l o OK GB W N F U FO. exact (C104_bytes30 rnd nt o "Spec" _ OK FO (document_wf30 rnd sv B base r l GB W N F) U). Qed.
Theorem C108_read31 : forall rnd num_text (J : Type) (B : backend J sch31) base r l o,
  numbers_ok rnd num_text -> good_backend (good31 rnd) B -> wf T31 rnd derived31 extra31 (TNamed "Spec") (VStruct base) -> new31 r ->
  Forall (good_call31 rnd (good31 rnd) (good_header31 rnd) styles31 B) l -> utf8_val (document31 base (rrun31 B r l)) -> fair o ->
  exists s v', marshal_text T31 num_text quote (TNamed "Spec") (document31 base (rrun31 B r l)) = UOk s /\
    unmarshal_bytes T31 rnd o (TNamed "Spec") s = Some v' /\ vsame (document31 base (rrun31 B r l)) v' /\
    marshal_text T31 num_text quote (TNamed "Spec") v' = UOk s.
Proof. intros rnd nt J B base r l o OK GB W N F U FO. exact (C104_bytes31 rnd nt o "Spec" _ OK FO (document_wf31 rnd B base r l GB W N F) U). Qed.

(* Neither the order of the calls nor that of the definitions is seen in the
   bytes, and so not in what is read from them. *)
Theorem C108_order30 : forall rnd num_text (J Sch : Type) (sv : Sch -> val) (B : backend J Sch) meaning base r l l1 l' o,
  numbers_ok rnd num_text -> good_backend (good30 rnd sv) B -> wf T30 rnd derived30 extra30 (TNamed "Spec") (VStruct base) -> new30 r ->
  Forall (good_call30 rnd (good30 rnd sv) (good30 rnd sv) styles30 B) l -> Forall (good_call30 rnd (good30 rnd sv) (good30 rnd sv) styles30 B) l' ->
  Forall (call_agrees B meaning) l -> NoDup (map place30 l) -> Permutation l l1 -> Forall2 call_varies l1 l' ->
  utf8_val (document30 sv base (rrun30 B r l)) -> fair o ->
  exists s v', marshal_text T30 num_text quote (TNamed "Spec") (document30 sv base (rrun30 B r l')) = UOk s /\
    unmarshal_bytes T30 rnd o (TNamed "Spec") s = Some v' /\ vsame (document30 sv base (rrun30 B r l)) (strip T30 derived30 v' (TNamed "Spec")).
Proof.
  intros rnd nt J Sch sv B meaning base r l l1 l' o OK GB W N F F' A ND P V U FO. destruct (C108_read30 rnd nt J Sch sv B base r l o OK GB W N F U FO) as (s & v' & E & R & S).
  exists s, v'. split; [|split; assumption]. rewrite <- E. symmetry. rewrite <- !calls30_run.
  exact (C99_bytes30 nt quote rnd J Sch sv base B meaning r l l1 l' (quote_ok rnd nt OK) GB W N F F' A ND P V).
Qed.
Theorem C108_order31 : forall rnd num_text (J : Type) (B : backend J sch31) meaning base r l l1 l' o,
  numbers_ok rnd num_text -> good_backend (good31 rnd) B -> wf T31 rnd derived31 extra31 (TNamed "Spec") (VStruct base) -> new31 r ->
  Forall (good_call31 rnd (good31 rnd) (good_header31 rnd) styles31 B) l -> Forall (good_call31 rnd (good31 rnd) (good_header31 rnd) styles31 B) l' ->
  Forall (fun x => call_agrees B meaning (snd x)) l -> NoDup (map place31 l) -> Permutation l l1 ->
  Forall2 (fun x x' => fst x' = fst x /\ call_varies (snd x) (snd x')) l1 l' ->
  utf8_val (document31 base (rrun31 B r l)) -> fair o ->
  exists s v', marshal_text T31 num_text quote (TNamed "Spec") (document31 base (rrun31 B r l')) = UOk s /\
    unmarshal_bytes T31 rnd o (TNamed "Spec") s = Some v' /\ vsame (document31 base (rrun31 B r l)) v'.
Proof.
  intros rnd nt J B meaning base r l l1 l' o OK GB W N F F' A ND P V U FO. destruct (C108_read31 rnd nt J B base r l o OK GB W N F U FO) as (s & v' & E & R & S & _).
  exists s, v'. split; [|split; assumption]. rewrite <- E. symmetry. rewrite <- !calls31_run.
  exact (C99_bytes31 nt quote rnd J base B meaning r l l1 l' (quote_ok rnd nt OK) GB W N F F' A ND P V).
Qed.

(* Two calls of each reflector, as in C78_example and C79_example; the bytes of
   their documents, which are read. *)
Definition wr_calls30 : list (opctx bool osor (responses osor)) :=
  [rd_oc30 "get" "/a/{id}" [rd_request "" "multi"] [rd_response 404]; rd_oc30 "put" "/a/{id}" [rd_request "" "pipes"] [rd_response 5]].
Definition wr_calls31 : list (bool * opctx bool sch31 (option (responses sch31))) :=
  [(false, rd_oc31 "get" "/a/{id}" [rd_request "" "multi"] [rd_response 404]); (true, rd_oc31 "post" "/a/{id}" [rd_request "csv" "csv"] [rd_response 200])].
Example C108_example30 :
  let d := document30 schemav rd_base30 (rrun30 (backend30 rd_schema) rd_refl30 wr_calls30) in
  numbers_ok whole whole_text /\ good_backend (good30 whole schemav) (backend30 rd_schema) /\
  wf T30 whole derived30 extra30 (TNamed "Spec") (VStruct rd_base30) /\ new30 rd_refl30 /\
  Forall (good_call30 whole (good30 whole schemav) (good30 whole schemav) styles30 (backend30 rd_schema)) wr_calls30 /\ utf8_val d /\
  exists s, marshal_text T30 whole_text quote (TNamed "Spec") d = UOk s /\ unmarshal_bytes T30 whole as_given (TNamed "Spec") s <> None.
Proof.
  cbv zeta. split; [exact whole_ok|]. split; [apply backend30_ok; apply rd_schema_ok|]. split; [apply wfi30_ok; vm_compute; reflexivity|]. split; [split; reflexivity|]. split.
  - unfold wr_calls30. repeat (apply Forall_cons; [apply rd_call30; [rd_made|apply matches_legal; reflexivity|lia]|]). apply Forall_nil.
  - split; [apply val_utf8_ok; vm_compute; reflexivity|]. eexists. split; [vm_compute; reflexivity|]. vm_compute. discriminate.
Qed.
Example C108_example31 :
  let d := document31 rd_base31 (rrun31 rd_backend31 rd_refl31 wr_calls31) in
  numbers_ok whole whole_text /\ good_backend (good31 whole) rd_backend31 /\
  wf T31 whole derived31 extra31 (TNamed "Spec") (VStruct rd_base31) /\ new31 rd_refl31 /\
  Forall (good_call31 whole (good31 whole) (good_header31 whole) styles31 rd_backend31) wr_calls31 /\ utf8_val d /\
  exists s, marshal_text T31 whole_text quote (TNamed "Spec") d = UOk s /\ unmarshal_bytes T31 whole as_given (TNamed "Spec") s <> None.
Proof.
  cbv zeta. split; [exact whole_ok|]. split; [apply rd_backend31_ok; reflexivity|]. split; [apply wfi31_ok; vm_compute; reflexivity|].
  split; [repeat split; left; reflexivity|]. split.
  - unfold wr_calls31. repeat (apply Forall_cons; [apply rd_call31; [reflexivity|rd_made|intros _; apply matches_legal; reflexivity|lia]|]). apply Forall_nil.
  - split; [apply val_utf8_ok; vm_compute; reflexivity|]. eexists. split; [vm_compute; reflexivity|]. vm_compute. discriminate.
Qed.

(* ---------- assumptions ---------- *)

Print Assumptions C108_written30.
Print Assumptions C108_written31.
Print Assumptions C108_read30.
Print Assumptions C108_read31.
Print Assumptions C108_order30.
Print Assumptions C108_order31.
