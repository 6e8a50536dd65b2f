(* Theorems about the depth of documents (C114): json.Unmarshal reads nothing that is
   nested more than 10000 deep, and json.Marshal does not write it.  [method T n]: the
   type has a MarshalJSON of its own. *)
From Coq Require Import NArith ZArith Ascii Lia.
From Verif Require Import Str SMap Json CodecModel CodecTables CodecSpec CodecProofs CodecCheck UnionModel UnionSpec.
From Verif Require Import OrdModel OrdSpec OrdProofs OrdWrite OrdCheck TextModel TextSpec TextProofs RoundProofs BytesSpec BytesModel BytesProofs BytesDocs BytesSound BytesProps.
From Verif Require Import ScanModel ScanSpec ScanProofs DepthModel DepthProofs.

(* The scanner accepts exactly the texts of JSON (halves of surrogate pairs
   allowed) that are not too deep. *)
Theorem C114_scanner : forall s, check_valid s = true <-> exists s' j, repaired s s' /\ text_in true s' j /\ shallow j.
Proof. exact scanner_exact. Qed.

(* Reading. *)
Theorem C114_read30 : forall rnd o t s v, unmarshal_json T30 rnd o t s = Some v <->
  exists s' j, repaired s s' /\ text_in true s' j /\ shallow j /\ unmarshal_o T30 rnd o t j = Some v.
Proof. intros. apply json_exact. Qed.
Theorem C114_read31 : forall rnd o t s v, unmarshal_json T31 rnd o t s = Some v <->
  exists s' j, repaired s s' /\ text_in true s' j /\ shallow j /\ unmarshal_o T31 rnd o t j = Some v.
Proof. intros. apply json_exact. Qed.

(* Writing: an entity that is not too deep is written and read back. *)
Theorem C114_written30 : forall rnd num_text o n v j, numbers_ok rnd num_text -> fair o -> method T30 n = true ->
  wf T30 rnd derived30 extra30 (TNamed n) v -> utf8_val v -> marshal T30 (TNamed n) v = Some j -> shallow j ->
  exists s v', marshal_json T30 num_text quote (TNamed n) v = UOk s /\
    unmarshal_json T30 rnd o (TNamed n) s = Some v' /\ vsame v (strip T30 derived30 v' (TNamed n)).
Proof.
  intros rnd nt o n v j OK F Mt W U J Sh. destruct (bytes_read30 rnd nt OK o n v F W U) as (s & v' & E & R & V). exists s, v'.
  pose proof (wf_single _ _ _ _ _ _ W) as Sg.
  assert (D : marshal_json T30 nt quote (TNamed n) v = UOk s) by (apply (proj2 (json_iff T30 rnd nt OK numless_30 plain_30 n v s Mt Sg)); split; [exact E|exists j; split; assumption]).
  split; [exact D|]. split; [|exact V]. unfold unmarshal_json. rewrite (json_reads T30 rnd nt OK numless_30 plain_30 n v s Mt Sg D). exact R.
Qed.
Theorem C114_written31 : forall rnd num_text o n v j, numbers_ok rnd num_text -> fair o -> method T31 n = true ->
  wf T31 rnd derived31 extra31 (TNamed n) v -> utf8_val v -> marshal T31 (TNamed n) v = Some j -> shallow j ->
  exists s v', marshal_json T31 num_text quote (TNamed n) v = UOk s /\
    unmarshal_json T31 rnd o (TNamed n) s = Some v' /\ vsame v v'.
Proof.
  intros rnd nt o n v j OK F Mt W U J Sh. destruct (bytes_read31 rnd nt OK o n v F W U) as (s & v' & E & R & V & _). exists s, v'.
  pose proof (wf_single _ _ _ _ _ _ W) as Sg.
  assert (D : marshal_json T31 nt quote (TNamed n) v = UOk s) by (apply (proj2 (json_iff T31 rnd nt OK numless_31 plain_31 n v s Mt Sg)); split; [exact E|exists j; split; assumption]).
  split; [exact D|]. split; [|exact V]. unfold unmarshal_json. rewrite (json_reads T31 rnd nt OK numless_31 plain_31 n v s Mt Sg D). exact R.
Qed.
(* One that is too deep gives an error. *)
Theorem C114_refused30 : forall rnd num_text n v j, numbers_ok rnd num_text -> method T30 n = true -> single v ->
  marshal T30 (TNamed n) v = Some j -> ~ shallow j -> marshal_json T30 num_text quote (TNamed n) v = UErr.
Proof. intros rnd nt n v j OK. exact (json_error T30 rnd nt OK numless_30 plain_30 n v j). Qed.
Theorem C114_refused31 : forall rnd num_text n v j, numbers_ok rnd num_text -> method T31 n = true -> single v ->
  marshal T31 (TNamed n) v = Some j -> ~ shallow j -> marshal_json T31 num_text quote (TNamed n) v = UErr.
Proof. intros rnd nt n v j OK. exact (json_error T31 rnd nt OK numless_31 plain_31 n v j). Qed.
(* What is written is what is written without the limit, a text that is not too
   deep. *)
Theorem C114_readable30 : forall rnd num_text n v s, numbers_ok rnd num_text -> method T30 n = true -> single v ->
  marshal_json T30 num_text quote (TNamed n) v = UOk s -> marshal_text T30 num_text quote (TNamed n) v = UOk s /\ exists j, text s j /\ shallow j.
Proof.
  intros rnd nt n v s OK Mt Sg E. destruct (proj1 (json_iff T30 rnd nt OK numless_30 plain_30 n v s Mt Sg) E) as [P (j & J & Sh)]. split; [exact P|].
  destruct (bytes_repaired rnd nt T30 OK numless_30 plain_30 _ v s Sg P) as (f & g & j1 & j' & _ & _ & M & R & X & _). rewrite J in M. injection M as <-.
  exists (jmap f g j'). split; [exact X|]. unfold shallow. rewrite depth_jmap, <- (depth_reordered _ _ R). exact Sh.
Qed.
Theorem C114_readable31 : forall rnd num_text n v s, numbers_ok rnd num_text -> method T31 n = true -> single v ->
  marshal_json T31 num_text quote (TNamed n) v = UOk s -> marshal_text T31 num_text quote (TNamed n) v = UOk s /\ exists j, text s j /\ shallow j.
Proof.
  intros rnd nt n v s OK Mt Sg E. destruct (proj1 (json_iff T31 rnd nt OK numless_31 plain_31 n v s Mt Sg) E) as [P (j & J & Sh)]. split; [exact P|].
  destruct (bytes_repaired rnd nt T31 OK numless_31 plain_31 _ v s Sg P) as (f & g & j1 & j' & _ & _ & M & R & X & _). rewrite J in M. injection M as <-.
  exists (jmap f g j'). split; [exact X|]. unfold shallow. rewrite depth_jmap, <- (depth_reordered _ _ R). exact Sh.
Qed.

(* MarshalJSON called by hand is not checked: an extension nested 10000 deep is
   written, and the text is not read.  json.Marshal gives an error. *)
Definition limit : nat := N.to_nat 10000.
Lemma method_info30 nt title k j : marshal_method T30 nt quote "Info" (info30 title [(k, VAny j)]) = marshal_text T30 nt quote (TNamed "Info") (info30 title [(k, VAny j)]).
Proof. reflexivity. Qed.
Lemma method_info31 nt title k j : marshal_method T31 nt quote "Info" (info31 title [(k, VAny j)]) = marshal_text T31 nt quote (TNamed "Info") (info31 title [(k, VAny j)]).
Proof. reflexivity. Qed.
Lemma info_json30 title k j : marshal T30 (TNamed "Info") (info30 title [(k, VAny j)]) = Some (JObj [("title", JStr title); ("version", JStr "1"); (k, j)]).
Proof. reflexivity. Qed.
Lemma info_json31 title k j : marshal T31 (TNamed "Info") (info31 title [(k, VAny j)]) = Some (JObj [("title", JStr title); ("version", JStr "1"); (k, j)]).
Proof. reflexivity. Qed.
Lemma too_deep title k : ~ shallow (JObj [("title", JStr title); ("version", JStr "1"); (k, nest limit JNull)]).
Proof. unfold shallow. cbn [depth map fold_right snd]. rewrite nest_depth. unfold limit. cbn [depth]. lia. Qed.
Lemma deep_valid n : json_utf8 (nest n JNull) = true.
Proof. induction n as [|n IH]; [reflexivity|]. cbn [nest json_utf8 forallb]. rewrite IH. reflexivity. Qed.
Definition deep_info30 : val := info30 "t" [("x-a", VAny (nest limit JNull))].
Definition deep_info31 : val := info31 "t" [("x-a", VAny (nest limit JNull))].
Theorem C114_method_refuted30 : exists rnd num_text v, numbers_ok rnd num_text /\ wf T30 rnd derived30 extra30 (TNamed "Info") v /\ utf8_val v /\
  marshal_json T30 num_text quote (TNamed "Info") v = UErr /\
  exists s, marshal_method T30 num_text quote "Info" v = UOk s /\ forall o, fair o ->
    unmarshal_bytes T30 rnd o (TNamed "Info") s <> None /\ unmarshal_json T30 rnd o (TNamed "Info") s = None.
Proof.
  exists whole, whole_text, deep_info30. assert (W : wf T30 whole derived30 extra30 (TNamed "Info") deep_info30) by (apply wfi30_ok; vm_compute; reflexivity).
  assert (U : utf8_val deep_info30) by (apply val_utf8_ok; vm_compute; reflexivity). split; [exact whole_ok|]. split; [exact W|]. split; [exact U|].
  pose proof (wf_single _ _ _ _ _ _ W) as Sg. split; [exact (C114_refused30 whole whole_text "Info" deep_info30 _ whole_ok eq_refl Sg (info_json30 _ _ _) (too_deep _ _))|].
  unfold deep_info30 at 1. rewrite method_info30. fold deep_info30.
  destruct (bytes_read30 whole whole_text whole_ok as_given "Info" deep_info30 fair_given W U) as (s & v' & E & _). exists s. split; [exact E|]. intros o F.
  split.
  - destruct (bytes_read30 whole whole_text whole_ok o "Info" deep_info30 F W U) as (s1 & v1 & E1 & R1 & _). rewrite E in E1. injection E1 as <-. rewrite R1. discriminate.
  - unfold unmarshal_json. rewrite (depth_read T30 whole whole_text whole_ok numless_30 plain_30 _ _ _ _ Sg E (info_json30 _ _ _)).
    destruct (N.leb_spec (N.of_nat (depth (JObj [("title", JStr "t"); ("version", JStr "1"); ("x-a", nest limit JNull)]))) max_depth) as [L|L]; [destruct (too_deep "t" "x-a" L)|reflexivity].
Qed.
Theorem C114_method_refuted31 : exists rnd num_text v, numbers_ok rnd num_text /\ wf T31 rnd derived31 extra31 (TNamed "Info") v /\ utf8_val v /\
  marshal_json T31 num_text quote (TNamed "Info") v = UErr /\
  exists s, marshal_method T31 num_text quote "Info" v = UOk s /\ forall o, fair o ->
    unmarshal_bytes T31 rnd o (TNamed "Info") s <> None /\ unmarshal_json T31 rnd o (TNamed "Info") s = None.
Proof.
  exists whole, whole_text, deep_info31. assert (W : wf T31 whole derived31 extra31 (TNamed "Info") deep_info31) by (apply wfi31_ok; vm_compute; reflexivity).
  assert (U : utf8_val deep_info31) by (apply val_utf8_ok; vm_compute; reflexivity). split; [exact whole_ok|]. split; [exact W|]. split; [exact U|].
  pose proof (wf_single _ _ _ _ _ _ W) as Sg. split; [exact (C114_refused31 whole whole_text "Info" deep_info31 _ whole_ok eq_refl Sg (info_json31 _ _ _) (too_deep _ _))|].
  unfold deep_info31 at 1. rewrite method_info31. fold deep_info31.
  destruct (bytes_read31 whole whole_text whole_ok as_given "Info" deep_info31 fair_given W U) as (s & v' & E & _). exists s. split; [exact E|]. intros o F.
  split.
  - destruct (bytes_read31 whole whole_text whole_ok o "Info" deep_info31 F W U) as (s1 & v1 & E1 & R1 & _). rewrite E in E1. injection E1 as <-. rewrite R1. discriminate.
  - unfold unmarshal_json. rewrite (depth_read T31 whole whole_text whole_ok numless_31 plain_31 _ _ _ _ Sg E (info_json31 _ _ _)).
    destruct (N.leb_spec (N.of_nat (depth (JObj [("title", JStr "t"); ("version", JStr "1"); ("x-a", nest limit JNull)]))) max_depth) as [L|L]; [destruct (too_deep "t" "x-a" L)|reflexivity].
Qed.

(* ---------- examples ---------- *)

(* The document itself and its extensions: one level less, and it is written. *)
Definition edge_info30 : val := info30 "t" [("x-a", VAny (nest (pred limit) JNull))].
Example C114_edge : numbers_ok whole whole_text /\ fair as_given /\ method T30 "Info" = true /\ method T30 "Spec" = true /\ method T31 "Spec" = true /\
  wf T30 whole derived30 extra30 (TNamed "Info") edge_info30 /\ utf8_val edge_info30 /\
  exists j, marshal T30 (TNamed "Info") edge_info30 = Some j /\ shallow j.
Proof.
  split; [exact whole_ok|]. split; [exact fair_given|]. split; [reflexivity|]. split; [reflexivity|]. split; [reflexivity|].
  split; [apply wfi30_ok; vm_compute; reflexivity|]. split; [apply val_utf8_ok; vm_compute; reflexivity|]. eexists. split; [apply info_json30|].
  unfold shallow. cbn [depth map fold_right snd]. rewrite nest_depth. unfold limit. cbn [depth]. lia.
Qed.
(* Texts that the scanner accepts and that it does not. *)
Example C114_scanned :
  map check_valid ["{""a"":[1,-0.5e+3,null],""b"":{}} "; "[[[]]]"; """\ud800"""; "[1,]"; "{""a"" 1}"; "01"; "1."; "[}"; "tru"; ""; "{} x"; """" ^^ byte 10 ^^ """"] =
  [true; true; true; false; false; false; false; false; false; false; false; false].
Proof. vm_compute. reflexivity. Qed.

(* ---------- assumptions ---------- *)

Print Assumptions C114_scanner.
Print Assumptions C114_read30.
Print Assumptions C114_read31.
Print Assumptions C114_written30.
Print Assumptions C114_written31.
Print Assumptions C114_refused30.
Print Assumptions C114_refused31.
Print Assumptions C114_readable30.
Print Assumptions C114_readable31.
Print Assumptions C114_method_refuted30.
Print Assumptions C114_method_refuted31.
