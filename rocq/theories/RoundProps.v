(* Theorems about documents that this package has written itself (C94): no
   condition on the names of members is left.
   [rnd] is the rounding of numbers to float64. *)
From Verif Require Import Str SMap Json CodecModel CodecTables CodecSpec CodecCheck CodecRT UnionModel UnionSpec.
From Verif Require Import OrdModel OrdSpec OrdProofs OrdWrite OrdCheck OrdShape YamlDocProofs TextModel TextSpec TextProofs RoundProofs TextProps.

(* ---------- C94 ---------- *)

(* The value that MarshalJSON writes is one in which no member competes with
   another for a field: the premise of C89, C90, C91 and C93. *)
Theorem C94_written_unambiguous30 : forall rnd n v j, wf T30 rnd derived30 extra30 (TNamed n) v -> marshal T30 (TNamed n) v = Some j -> unambiguous T30 (TNamed n) j.
Proof. exact written_unambiguous30. Qed.
Theorem C94_written_unambiguous31 : forall rnd n v j, wf T31 rnd derived31 extra31 (TNamed n) v -> marshal T31 (TNamed n) v = Some j -> unambiguous T31 (TNamed n) j.
Proof. exact written_unambiguous31. Qed.

(* An entity is written as bytes; they are a text of a value which, with its
   members in whatever order and Go running over its maps in whatever order, is
   read as the entity; and that entity, for 3.1, is written as the same bytes. *)
Theorem C94_round_trip30 : forall num_text str_text rnd o n v, texts_ok num_text str_text -> fair o -> wf T30 rnd derived30 extra30 (TNamed n) v ->
  exists s j, marshal_text T30 num_text str_text (TNamed n) v = UOk s /\ jtext (fun s q => s = num_text q) (fun s x => s = str_text x) s j /\
  forall j', reordered j j' -> exists v', unmarshal_o T30 rnd o (TNamed n) j' = Some v' /\ vsame v (strip T30 derived30 v' (TNamed n)).
Proof. exact round30. Qed.
Theorem C94_round_trip31 : forall num_text str_text rnd o n v, texts_ok num_text str_text -> fair o -> wf T31 rnd derived31 extra31 (TNamed n) v ->
  exists s j, marshal_text T31 num_text str_text (TNamed n) v = UOk s /\ jtext (fun s q => s = num_text q) (fun s x => s = str_text x) s j /\
  forall j', reordered j j' -> exists v', unmarshal_o T31 rnd o (TNamed n) j' = Some v' /\ vsame v v' /\ marshal_text T31 num_text str_text (TNamed n) v' = UOk s.
Proof. exact round31. Qed.

(* Not so the bytes of 3.0: what is read of a parameter holds its members twice,
   once in the fields of the location, and it is written so. *)
Theorem C94_bytes30_refuted : exists v j v' s s', wf T30 idq derived30 extra30 (TNamed "Parameter") v /\ marshal T30 (TNamed "Parameter") v = Some j /\
  unmarshal T30 idq (TNamed "Parameter") j = Some v' /\
  marshal_text T30 zero_num plain_str (TNamed "Parameter") v = UOk s /\ marshal_text T30 zero_num plain_str (TNamed "Parameter") v' = UOk s' /\ s <> s'.
Proof.
  set (j := JObj [("name", JStr "id"); ("in", JStr "path"); ("required", JBool true); ("schema", JObj [])]).
  destruct (unmarshal T30 idq (TNamed "Parameter") j) as [v'|] eqn:E; [|vm_compute in E; discriminate E].
  exists (strip T30 derived30 v' (TNamed "Parameter")), j, v'. eexists. eexists.
  vm_compute in E. injection E as <-.
  split; [apply wfb30_ok; vm_compute; reflexivity|]. split; [vm_compute; reflexivity|]. split; [vm_compute; reflexivity|].
  split; [vm_compute; reflexivity|]. split; [vm_compute; reflexivity|]. intros X. discriminate X.
Qed.

(* A document with names that differ in case where the package lets a user
   choose them, and the same backwards. *)
Example C94_example :
  let j := JObj [("openapi", JStr "3.1.0"); ("info", JObj [("title", JStr "t"); ("version", JStr "1")]);
                 ("paths", JObj [("/a", JObj [("get", JObj [("callbacks", JObj [("summary", JObj []); ("Summary", JObj [])])])]); ("/A", JObj [])]);
                 ("components", JObj [("schemas", JObj [("Type", JObj [("type", JStr "string")]); ("type", JObj [("Type", JNull)])])]);
                 ("x-a", JNull)] in
  exists v v', wf T31 idq derived31 extra31 (TNamed "Spec") v /\ marshal T31 (TNamed "Spec") v = Some j /\
    reordered j (backwards j) /\ unmarshal T31 idq (TNamed "Spec") (backwards j) = Some v' /\ v <> v' /\ vsame v v'.
Proof.
  cbv zeta. set (j := JObj _).
  destruct (unmarshal T31 idq (TNamed "Spec") j) as [v|] eqn:E; [|vm_compute in E; discriminate E].
  destruct (unmarshal T31 idq (TNamed "Spec") (backwards j)) as [v'|] eqn:E'; [|vm_compute in E'; discriminate E'].
  assert (V : wfb31 "Spec" v = true /\ marshal T31 (TNamed "Spec") v = Some j) by (vm_compute in E; injection E as <-; split; vm_compute; reflexivity).
  destruct V as [V M]. apply wfb31_ok in V. exists v, v'. split; [exact V|]. split; [exact M|]. split; [apply ro_backwards|]. split; [reflexivity|].
  split; [intros <-; rewrite <- E' in E; vm_compute in E; discriminate E|].
  pose proof (OrdProofs.members_free T31 idq (TNamed "Spec") j (backwards j) (CodecWrite.distinct31 idq "Spec" v _ V M) (C94_written_unambiguous31 idq "Spec" v _ V M) (ro_backwards j)) as A.
  rewrite E, E' in A. inversion A; subst. assumption.
Qed.

(* ---------- assumptions ---------- *)

Print Assumptions C94_written_unambiguous30.
Print Assumptions C94_written_unambiguous31.
Print Assumptions C94_round_trip30.
Print Assumptions C94_round_trip31.
Print Assumptions C94_bytes30_refuted.
