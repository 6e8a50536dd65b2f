(* Theorems about the builder methods (C86, C87, C88).  The proofs are in
   BuildProofs.v and BuildWrite.v. *)
From Verif Require Import Str SMap Json CodecModel CodecTables CodecSpec CodecObjSpec CodecTypeSpec BuildModel BuildTables BuildSpec BuildWrite.

(* ---------- C86 ---------- *)

(* With<Field> sets this field, as it is or by a pointer, and nothing else. *)
Theorem C86_setter : forall P n fs parts d i f, In P packages -> get n (p_types P) = Some (EStruct fs parts d) -> nth_error fs i = Some f -> f_ty f <> TSkip ->
  exists b a, method (p_meths P) n ("With" ^^ f_name f) = Some b /\ m_val b = Some a /\
    forall vs x key, length vs = length fs -> exists w vs', holds (f_ty f) a x w /\ call (p_types P) fs key x b vs = Some (vs', None) /\ updated i w vs vs'.
Proof. exact field_set. Qed.

(* With<Field>Item sets one entry of a map, also of a nil one. *)
Theorem C86_item : forall P n fs parts d i f t, In P packages -> get n (p_types P) = Some (EStruct fs parts d) -> nth_error fs i = Some f -> f_ty f = TMap t ->
  exists b, method (p_meths P) n ("With" ^^ f_name f ^^ "Item") = Some b /\ m_val b = Some t /\
    forall vs x key v m, nth_error vs i = Some v -> holds_map v m -> exists m' vs',
      call (p_types P) fs key x b vs = Some (vs', None) /\ updated i (VMap m') vs vs' /\
      get key m' = Some x /\ forall k, k <> key -> get k m' = get k m.
Proof. exact field_item. Qed.

(* <Field>Ens keeps and returns what is there, or stores and returns a new zero value. *)
Theorem C86_ensure : forall P n fs parts d i f s fs' parts' d', In P packages -> get n (p_types P) = Some (EStruct fs parts d) -> nth_error fs i = Some f ->
  f_ty f = TPtr (TNamed s) -> get s (p_types P) = Some (EStruct fs' parts' d') ->
  exists b, method (p_meths P) n (f_name f ^^ "Ens") = Some b /\ m_val b = None /\ forall vs x key,
    (forall w, nth_error vs i = Some (VPtr w) -> call (p_types P) fs key x b vs = Some (vs, Some (VPtr w))) /\
    (nth_error vs i = Some VNil -> exists w vs', call (p_types P) fs key x b vs = Some (vs', Some (VPtr w)) /\
       updated i (VPtr w) vs vs' /\ w = zero (p_types P) LVL (TNamed s)).
Proof. exact field_ensured. Qed.

(* There are no other methods. *)
Theorem C86_only : forall P n ms name b, In P packages -> In (n, ms) (p_meths P) -> In (name, b) ms ->
  exists fs parts d f, get n (p_types P) = Some (EStruct fs parts d) /\ In f fs /\
    (name = "With" ^^ f_name f \/ name = "With" ^^ f_name f ^^ "Item" \/ name = f_name f ^^ "Ens").
Proof. exact only_builders. Qed.

(* The order of calls for different fields does not matter, of two calls for the
   same field the last one counts. *)
Theorem C86_order : forall P n fs parts d i f b i' f' b', In P packages -> get n (p_types P) = Some (EStruct fs parts d) ->
  nth_error fs i = Some f -> f_ty f <> TSkip -> method (p_meths P) n ("With" ^^ f_name f) = Some b ->
  nth_error fs i' = Some f' -> f_ty f' <> TSkip -> method (p_meths P) n ("With" ^^ f_name f') = Some b' ->
  forall vs x x' key vs1 vs2, call (p_types P) fs key x b vs = Some (vs1, None) -> call (p_types P) fs key x' b' vs = Some (vs2, None) ->
    exists vs', call (p_types P) fs key x' b' vs1 = Some (vs', None) /\
      (i <> i' -> call (p_types P) fs key x b vs2 = Some (vs', None)) /\ (i = i' -> vs' = vs2).
Proof. exact field_order. Qed.

Definition zero_of (P : package) (n : string) : list val :=
  match zero (p_types P) LVL (TNamed n) with VStruct vs => vs | _ => [] end.
(* A chain of calls. *)
Fixpoint chain (P : package) (n : string) (calls : list (string * (string * val))) (vs : list val) : option (list val) :=
  match calls with
  | [] => Some vs
  | (name, (key, x)) :: calls =>
      match method (p_meths P) n name with
      | Some b => match call (p_types P) (fields_of (p_types P) n) key x b vs with Some (vs, None) => chain P n calls vs | _ => None end
      | None => None
      end
  end.
Definition written (P : package) (n : string) (calls : list (string * (string * val))) : option json :=
  match chain P n calls (zero_of P n) with Some vs => marshal (p_types P) (TNamed n) (VStruct vs) | None => None end.

Example C86_example :
  written v30 "Info" [("WithTitle", ("", VStr "API")); ("WithVersion", ("", VStr "1")); ("WithDescription", ("", VStr ""));
    ("WithMapOfAnythingItem", ("x-a", VAny (JBool true))); ("WithTitle", ("", VStr "Pets"))] =
  Some (JObj [("title", JStr "Pets"); ("description", JStr ""); ("version", JStr "1"); ("x-a", JBool true)]).
Proof. vm_compute. reflexivity. Qed.

(* ---------- C87 ---------- *)

(* For every member of an object of the specification, except constants, there is
   a method that takes a value of its type.  Afterwards the member is there with
   this value (it can be missing only if the value is an empty list or map and
   the member is not required), and the others are as before. *)
Theorem C87_member : forall P n o ms k t, In P packages -> In (n, o) (p_objects P) -> In (n, ms) (p_members P) -> In (k, t) ms -> ~ In k (map fst (o_const o)) ->
  exists name b, spelled k name /\ method (p_meths P) n ("With" ^^ name) = Some b /\ m_val b = Some t /\
    forall vs x key, length vs = length (fields_of (p_types P) n) -> exists vs', call (p_types P) (fields_of (p_types P) n) key x b vs = Some (vs', None) /\
      forall j, unused (p_types P) k (fields_of (p_types P) n) vs -> marshal (p_types P) t x = Some j ->
        (forall r, marshal (p_types P) (TNamed n) (VStruct vs') = Some r -> exists es, r = JObj es /\
           (under_key k es = [j] \/ ~ In k (o_req o) /\ blank x /\ under_key k es = [])) /\
        (forall es, marshal (p_types P) (TNamed n) (VStruct vs) = Some (JObj es) -> exists es', marshal (p_types P) (TNamed n) (VStruct vs') = Some (JObj es') /\
           forall k', k' <> k -> under_key k' es' = under_key k' es).
Proof. exact member_set. Qed.

(* Entries of members that are maps. *)
Theorem C87_entry : forall P n o ms k t, In P packages -> In (n, o) (p_objects P) -> In (n, ms) (p_members P) -> In (k, TMap t) ms -> ~ In k (map fst (o_const o)) ->
  exists name b, spelled k name /\ method (p_meths P) n ("With" ^^ name ^^ "Item") = Some b /\ m_val b = Some t /\
    forall vs x key v m, by_name name (fields_of (p_types P) n) vs = Some (TMap t, v) -> holds_map v m -> exists vs',
      call (p_types P) (fields_of (p_types P) n) key x b vs = Some (vs', None) /\
      forall j entries es, NoDup (map fst m) -> unused (p_types P) k (fields_of (p_types P) n) vs -> marshal (p_types P) t x = Some j ->
        marshal (p_types P) (TMap t) (VMap m) = Some (JObj entries) ->
        marshal (p_types P) (TNamed n) (VStruct vs) = Some (JObj es) ->
        exists es' entries', marshal (p_types P) (TNamed n) (VStruct vs') = Some (JObj es') /\
          under_key k es' = [JObj entries'] /\ (forall k', k' <> k -> under_key k' es' = under_key k' es) /\
          under_key key entries' = [j] /\ (forall key', key' <> key -> under_key key' entries' = under_key key' entries).
Proof. exact entry_set. Qed.

(* Members with pattern keys: paths, status codes, extensions, components. *)
Theorem C87_pattern : forall P n o p name t, In P packages -> In (n, o) (p_objects P) -> In (p, (name, t)) (o_pats o) ->
  exists b, method (p_meths P) n ("With" ^^ name ^^ "Item") = Some b /\ m_val b = Some t /\
    forall vs x key v m, by_name name (fields_of (p_types P) n) vs = Some (TMap t, v) -> holds_map v m -> exists vs',
      call (p_types P) (fields_of (p_types P) n) key x b vs = Some (vs', None) /\
      forall j es, NoDup (map fst m) -> legal p key -> unused_but (p_types P) (Some name) key (fields_of (p_types P) n) vs -> marshal (p_types P) t x = Some j ->
        marshal (p_types P) (TNamed n) (VStruct vs) = Some (JObj es) ->
        exists es', marshal (p_types P) (TNamed n) (VStruct vs') = Some (JObj es') /\
          under_key key es' = [j] /\ forall k', k' <> key -> under_key k' es' = under_key k' es.
Proof. exact pattern_set. Qed.

(* Without the condition on the key: an entry of a pattern map can hide a member. *)
Theorem C87_unchecked_key_refuted :
  written v31 "Info" [("WithTitle", ("", VStr "API")); ("WithVersion", ("", VStr "1")); ("WithMapOfAnythingItem", ("title", VAny (JNum 5)))] =
  Some (JObj [("title", JStr "API"); ("version", JStr "1"); ("title", JNum 5)]).
Proof. vm_compute. reflexivity. Qed.

Example C87_example :
  let ref := VStruct [VStr "#/components/responses/E"] in
  written v30 "Operation" [("WithID", ("", VStr "get")); ("WithTags", ("", VArr [VStr "a"; VStr "b"])); ("WithDeprecated", ("", VBool false));
      ("WithResponses", ("", VStruct [VNil; VMap [("404", VStruct [VPtr ref; VNil])]; VNil])); ("WithServers", ("", VArr [])); ("WithMapOfAnythingItem", ("x-a", VAny JNull))] =
    Some (JObj [("tags", JArr [JStr "a"; JStr "b"]); ("operationId", JStr "get");
      ("responses", JObj [("404", JObj [("$ref", JStr "#/components/responses/E")])]); ("deprecated", JBool false); ("x-a", JNull)]) /\
  unused T30 "operationId" (fields_of T30 "Operation") (zero_of v30 "Operation").
Proof.
  split; [vm_compute; reflexivity|].
  vm_compute. repeat (split; [intros ? ? ? H; try discriminate|]); try exact I; injection H as <-; left; reflexivity.
Qed.

(* ---------- C88 ---------- *)

(* A choice set to one alternative is written as this alternative. *)
Theorem C88_choice : forall P n ts a, In P packages -> In (n, ts) (p_choices P) -> In (TPtr a) ts ->
  exists b, method (p_meths P) n ("With" ^^ alt_name a) = Some b /\ m_val b = Some a /\
    forall vs x key, length vs = length (fields_of (p_types P) n) -> (forall v, In v vs -> v = VNil) -> exists vs',
      call (p_types P) (fields_of (p_types P) n) key x b vs = Some (vs', None) /\
      forall j, marshal (p_types P) a x = Some j -> marshal (p_types P) (TNamed n) (VStruct vs') = Some j.
Proof. exact choice_set. Qed.

(* The other alternative is not removed: both are written. *)
Theorem C88_replaces_refuted :
  let ref := VStruct [VStr "#/components/responses/E"] in
  let resp := VStruct [VStr "text"; VNil; VNil; VNil; VNil] in
  written v30 "ResponseOrRef" [("WithResponseReference", ("", ref)); ("WithResponse", ("", resp))] =
    Some (JObj [("$ref", JStr "#/components/responses/E"); ("description", JStr "text")]) /\
  marshal T30 (TNamed "Response") resp = Some (JObj [("description", JStr "text")]).
Proof. vm_compute. split; reflexivity. Qed.

Example C88_example :
  written v30 "SchemaAdditionalProperties" [("WithBool", ("", VBool false))] = Some (JBool false) /\
  (forall v, In v (zero_of v30 "SchemaAdditionalProperties") -> v = VNil).
Proof. split; [vm_compute; reflexivity|]. vm_compute. intros v [H|[H|[]]]; symmetry; exact H. Qed.

(* ---------- assumptions ---------- *)

Print Assumptions C86_setter.
Print Assumptions C86_item.
Print Assumptions C86_ensure.
Print Assumptions C86_only.
Print Assumptions C86_order.
Print Assumptions C87_member.
Print Assumptions C87_entry.
Print Assumptions C87_pattern.
Print Assumptions C87_unchecked_key_refuted.
Print Assumptions C88_choice.
Print Assumptions C88_replaces_refuted.
