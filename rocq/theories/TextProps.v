(* Theorems about the bytes that MarshalJSON writes (C92, C93). *)
From Verif Require Import Str SMap Json CodecModel CodecTables CodecSpec CodecCheck UnionModel UnionSpec YamlDocModel.
From Verif Require Import OrdModel OrdSpec OrdProofs OrdWrite OrdCheck TextModel TextSpec TextProofs.

(* ---------- C92 ---------- *)

(* The bytes are a text, without white space, of the JSON value that the other
   chapters speak of, up to the order of the members of maps; MarshalJSON fails
   exactly if there is no such value, and never panics. *)
Theorem C92_text30 : forall num_text str_text t v, texts_ok num_text str_text -> single v ->
  match marshal_text T30 num_text str_text t v with
  | UOk s => exists j j', marshal T30 t v = Some j /\ reordered j j' /\ jtext (fun s q => s = num_text q) (fun s x => s = str_text x) s j'
  | UErr => marshal T30 t v = None
  | UPanic => False
  end.
Proof. intros nt st t v OK S. exact (text_is_json T30 nt st OK numless_30 plain_30 t v S). Qed.
Theorem C92_text31 : forall num_text str_text t v, texts_ok num_text str_text -> single v ->
  match marshal_text T31 num_text str_text t v with
  | UOk s => exists j j', marshal T31 t v = Some j /\ reordered j j' /\ jtext (fun s q => s = num_text q) (fun s x => s = str_text x) s j'
  | UErr => marshal T31 t v = None
  | UPanic => False
  end.
Proof. intros nt st t v OK S. exact (text_is_json T31 nt st OK numless_31 plain_31 t v S). Qed.

(* ---------- C93 ---------- *)

(* The same entity gives the same bytes, in whatever order its maps were
   filled. *)
Theorem C93_same30 : forall num_text str_text t v v', texts_ok num_text str_text -> single v -> single v' -> vsame v v' ->
  marshal_text T30 num_text str_text t v = marshal_text T30 num_text str_text t v'.
Proof. intros nt st t v v' OK. exact (text_same T30 nt st OK numless_30 plain_30 t v v'). Qed.
Theorem C93_same31 : forall num_text str_text t v v', texts_ok num_text str_text -> single v -> single v' -> vsame v v' ->
  marshal_text T31 num_text str_text t v = marshal_text T31 num_text str_text t v'.
Proof. intros nt st t v v' OK. exact (text_same T31 nt st OK numless_31 plain_31 t v v'). Qed.

(* Reading a document and writing it again: the bytes do not depend on the order
   of the members, nor on the iteration orders while reading. *)
Theorem C93_read30 : forall num_text str_text rnd o o' t j j' v, texts_ok num_text str_text -> fair o -> fair o' ->
  CodecSpec.distinct j -> unambiguous T30 t j -> reordered j j' -> unmarshal_o T30 rnd o t j = Some v ->
  exists v', unmarshal_o T30 rnd o' t j' = Some v' /\ marshal_text T30 num_text str_text t v = marshal_text T30 num_text str_text t v'.
Proof. intros nt st rnd o o' t j j' v OK. exact (read_text T30 nt st OK numless_30 plain_30 rnd o o' t j j' v). Qed.
Theorem C93_read31 : forall num_text str_text rnd o o' t j j' v, texts_ok num_text str_text -> fair o -> fair o' ->
  CodecSpec.distinct j -> unambiguous T31 t j -> reordered j j' -> unmarshal_o T31 rnd o t j = Some v ->
  exists v', unmarshal_o T31 rnd o' t j' = Some v' /\ marshal_text T31 num_text str_text t v = marshal_text T31 num_text str_text t v'.
Proof. intros nt st rnd o o' t j j' v OK. exact (read_text T31 nt st OK numless_31 plain_31 rnd o o' t j j' v). Qed.

Definition plain_str (x : string) : string := String """" (x ^^ String """" "").
Definition zero_num (q : Q) : string := "0".
Lemma plain_ok : texts_ok zero_num plain_str.
Proof. constructor; [intros q; exists "0"%char, ""; split; [reflexivity|cbn; auto]|intros x; exists x; reflexivity]. Qed.

(* The extensions of an Info object, filled in two orders; the text has them in
   alphabetical order after the other members. *)
Example C92_example :
  let info m := VStruct [VStr "t"; VNil; VNil; VNil; VNil; VStr "1"; VMap m] in
  let v := info [("x-b", VAny (JObj [("d", JNull); ("c", JNum 0)])); ("x-a", VAny (JBool true))] in
  let v' := info [("x-a", VAny (JBool true)); ("x-b", VAny (JObj [("c", JNum 0); ("d", JNull)]))] in
  single v /\ single v' /\ vsame v v' /\ v <> v' /\
  marshal_text T30 zero_num plain_str (TNamed "Info") v = UOk "{""title"":""t"",""version"":""1"",""x-a"":true,""x-b"":{""c"":0,""d"":null}}" /\
  marshal_text T30 zero_num plain_str (TNamed "Info") v' = marshal_text T30 zero_num plain_str (TNamed "Info") v.
Proof.
  cbv zeta.
  assert (S : forall m, NoDup (map fst m) -> (forall k v, In (k, v) m -> single v) -> single (VStruct [VStr "t"; VNil; VNil; VNil; VNil; VStr "1"; VMap m])).
  { intros m N H. constructor. intros x I. cbn [In] in I. repeat (destruct I as [<-|I]; [constructor; assumption|]). destruct I. }
  split; [apply S; [repeat constructor; cbn; intuition discriminate|]|].
  { intros k v [E|[E|[]]]; injection E as <- <-; constructor; apply distinctb_ok; reflexivity. }
  split; [apply S; [repeat constructor; cbn; intuition discriminate|]|].
  { intros k v [E|[E|[]]]; injection E as <- <-; constructor; apply distinctb_ok; reflexivity. }
  split; [|split; [intros X; discriminate X|split; vm_compute; reflexivity]].
  constructor. do 6 (constructor; [constructor|]). constructor; [|constructor]. constructor.
  - intros k G. cbn [get] in G |- *. destruct (String.eqb k "x-b"), (String.eqb k "x-a"); try discriminate G; reflexivity.
  - intros k v G. cbn [get] in G |- *. destruct (String.eqb k "x-b") eqn:E1; [apply String.eqb_eq in E1; subst k|destruct (String.eqb k "x-a"); [|discriminate G]]; injection G as <-.
    + eexists. split; [reflexivity|]. constructor. apply (ro_rev [("d", JNull); ("c", JNum 0)]).
    + eexists. split; [reflexivity|]. constructor. constructor.
Qed.

(* A parameter of 3.0: constants, choices and the union of four parts. *)
Example C92_example_parts :
  exists v, unmarshal T30 idq (TNamed "Parameter") (JObj [("required", JBool true); ("in", JStr "path"); ("schema", JObj []); ("name", JStr "id")]) = Some v /\ single v /\
    marshal_text T30 zero_num plain_str (TNamed "Parameter") v =
    UOk "{""name"":""id"",""in"":""path"",""required"":true,""schema"":{},""schema"":{},""in"":""path"",""required"":true}".
Proof.
  destruct (unmarshal T30 idq (TNamed "Parameter") (JObj [("required", JBool true); ("in", JStr "path"); ("schema", JObj []); ("name", JStr "id")])) as [v|] eqn:E; [|vm_compute in E; discriminate E].
  exists v. split; [reflexivity|]. split; [exact (read_single _ _ _ _ _ E)|]. vm_compute in E. injection E as <-. vm_compute. reflexivity.
Qed.

(* ---------- assumptions ---------- *)

Print Assumptions C92_text30.
Print Assumptions C92_text31.
Print Assumptions C93_same30.
Print Assumptions C93_same31.
Print Assumptions C93_read30.
Print Assumptions C93_read31.
