(* C97: reading a document into an entity that is in use. *)
From Verif Require Import Str SMap Json CodecModel CodecTables CodecSpec OrdSpec OrdCheck UsedSpec UsedProofs UsedTwice.

Lemma used30 : used_checks T30 [] = true. Proof. vm_compute. reflexivity. Qed.
Lemma used31 : used_checks T31 ["scheme"] = true. Proof. vm_compute. reflexivity. Qed.
Lemma twice30 : twice_checks T30 = true. Proof. vm_compute. reflexivity. Qed.
Lemma twice31 : twice_checks T31 = true. Proof. vm_compute. reflexivity. Qed.

Lemma no_null_nil : forall j, no_null [] j.
Proof.
  induction j as [|b|q|s|l IH|m IH] using json_ind'; constructor; try (intros q k []).
  - rewrite Forall_forall in IH. exact IH.
  - rewrite Forall_forall in IH. intros k j I. exact (IH (k, j) I).
Qed.
Lemma known_of T n e : get n T = Some e -> known T (TNamed n) = true.
Proof. intros G. cbn [known]. rewrite G. reflexivity. Qed.

Lemma accepts T rnd K n e j old : used_checks T K = true -> get n T = Some e -> no_null K j -> typed T (TNamed n) old ->
  match unmarshal T rnd (TNamed n) j, unmarshal_over T rnd (TNamed n) j old with
  | None, None => True
  | Some v, Some w => typed T (TNamed n) w /\ extends v w
  | _, _ => False
  end.
Proof.
  intros C G NN To. destruct (used_agree T rnd K C (TNamed n) j old (known_of T n e G) NN To) as [|x y (_ & B & E)]; auto.
Qed.

(* What is accepted does not depend on what the entity holds, and what the
   document says is in the result. *)
Theorem C97_document_wins30 : forall rnd n e j old,
  get n T30 = Some e -> typed T30 (TNamed n) old ->
  match unmarshal T30 rnd (TNamed n) j, unmarshal_over T30 rnd (TNamed n) j old with
  | None, None => True
  | Some v, Some w => typed T30 (TNamed n) w /\ extends v w
  | _, _ => False
  end.
Proof. intros rnd n e j old G To. exact (accepts T30 rnd [] n e j old used30 G (no_null_nil j) To). Qed.

Theorem C97_document_wins31 : forall rnd n e j old,
  get n T31 = Some e -> typed T31 (TNamed n) old -> no_null ["scheme"] j ->
  match unmarshal T31 rnd (TNamed n) j, unmarshal_over T31 rnd (TNamed n) j old with
  | None, None => True
  | Some v, Some w => typed T31 (TNamed n) w /\ extends v w
  | _, _ => False
  end.
Proof. intros rnd n e j old G To NN. exact (accepts T31 rnd ["scheme"] n e j old used31 G NN To). Qed.

(* Fields that no member of the document names keep their values, and so do
   entries of the maps of further members. *)
Theorem C97_kept30 : forall rnd n fs ps d j vs v,
  get n T30 = Some (EStruct fs ps d) -> unmarshal_over T30 rnd (TNamed n) j (VStruct vs) = Some v ->
  (forall i f q, nth_error fs i = Some f -> f_key f = Some q ->
     (forall k x, In (k, x) (members_of j) -> fold_key k <> fold_key q) -> field_at v i = nth_error vs i) /\
  (forall i f t k old, nth_error fs i = Some f -> f_key f = None -> f_ty f = TMap t ->
     ~ In k (map fst (members_of j)) -> nth_error vs i = Some old ->
     exists new, field_at v i = Some new /\ get k (entries_of new) = get k (entries_of old)).
Proof. intros rnd n fs ps d j vs v. exact (kept T30 rnd twice30 n fs ps d j vs v). Qed.

Theorem C97_kept31 : forall rnd n fs ps d j vs v,
  get n T31 = Some (EStruct fs ps d) -> unmarshal_over T31 rnd (TNamed n) j (VStruct vs) = Some v ->
  (forall i f q, nth_error fs i = Some f -> f_key f = Some q ->
     (forall k x, In (k, x) (members_of j) -> fold_key k <> fold_key q) -> field_at v i = nth_error vs i) /\
  (forall i f t k old, nth_error fs i = Some f -> f_key f = None -> f_ty f = TMap t ->
     ~ In k (map fst (members_of j)) -> nth_error vs i = Some old ->
     exists new, field_at v i = Some new /\ get k (entries_of new) = get k (entries_of old)).
Proof. intros rnd n fs ps d j vs v. exact (kept T31 rnd twice31 n fs ps d j vs v). Qed.

(* A field that one member names is read over its old value; pointers to
   entities are followed, so that what they point to is merged as well; null
   clears them.  (A null for an interface{} field that knows null is a pointer to
   nil.)  Alternatives and embedded values are read over their old values from
   the whole document, alternatives that do not fit are cleared.  ([d_struct]:
   UnmarshalJSON reads the members; all types but NonBearer of 3.0, whose method
   only checks them.) *)
Theorem C97_merged30 : forall rnd n fs ps d M vs v i f q k x,
  get n T30 = Some (EStruct fs ps d) -> d_struct d = true -> unmarshal_over T30 rnd (TNamed n) (JObj M) (VStruct vs) = Some v ->
  nth_error fs i = Some f -> f_key f = Some q -> NoDup (map fst M) -> In (k, x) M -> fold_key k = fold_key q ->
  (forall k' x', In (k', x') M -> fold_key k' = fold_key q -> k' = k) ->
  exists old new, nth_error vs i = Some old /\ unmarshal_over T30 rnd (f_ty f) x old = Some new /\
    (field_at v i = Some new \/ new = VNil /\ f_ty f = TPtr TAny /\ field_at v i = Some (VPtr (VAny JNull))).
Proof. intros rnd n fs ps d M vs v i f q k x. exact (merged T30 rnd [] used30 twice30 n fs ps d M vs v i f q k x). Qed.

Theorem C97_pointers30 : forall rnd n fs ps d j old, get n T30 = Some (EStruct fs ps d) ->
  unmarshal_over T30 rnd (TPtr (TNamed n)) j old =
  match j with
  | JNull => Some VNil
  | _ => match unmarshal_over T30 rnd (TNamed n) j (match old with VPtr u => u | _ => zero T30 LVL (TNamed n) end) with
         | Some w => Some (VPtr w)
         | None => None
         end
  end.
Proof. intros rnd n fs ps d j old G. refine (pointer T30 rnd twice30 n _ j old G _). discriminate. Qed.

Theorem C97_choices30 : forall rnd n fs ps d j vs v i f,
  get n T30 = Some (EStruct fs ps d) -> typed T30 (TNamed n) (VStruct vs) ->
  unmarshal_over T30 rnd (TNamed n) j (VStruct vs) = Some v -> nth_error fs i = Some f ->
  (In i (d_oneof d) -> exists old, nth_error vs i = Some old /\
     field_at v i = Some (match unmarshal_over T30 rnd (f_ty f) j old with Some w => w | None => VNil end)) /\
  (In i (d_embed d) -> exists old w, nth_error vs i = Some old /\ unmarshal_over T30 rnd (f_ty f) j old = Some w /\ field_at v i = Some w).
Proof. intros rnd n fs ps d j vs v i f G Ty. exact (whole T30 rnd [] used30 twice30 n fs ps d j vs v i f G Ty (no_null_nil j)). Qed.

Theorem C97_merged31 : forall rnd n fs ps d M vs v i f q k x,
  get n T31 = Some (EStruct fs ps d) -> d_struct d = true -> unmarshal_over T31 rnd (TNamed n) (JObj M) (VStruct vs) = Some v ->
  nth_error fs i = Some f -> f_key f = Some q -> NoDup (map fst M) -> In (k, x) M -> fold_key k = fold_key q ->
  (forall k' x', In (k', x') M -> fold_key k' = fold_key q -> k' = k) ->
  exists old new, nth_error vs i = Some old /\ unmarshal_over T31 rnd (f_ty f) x old = Some new /\
    (field_at v i = Some new \/ new = VNil /\ f_ty f = TPtr TAny /\ field_at v i = Some (VPtr (VAny JNull))).
Proof. intros rnd n fs ps d M vs v i f q k x. exact (merged T31 rnd ["scheme"] used31 twice31 n fs ps d M vs v i f q k x). Qed.

Theorem C97_pointers31 : forall rnd n fs ps d j old, get n T31 = Some (EStruct fs ps d) ->
  unmarshal_over T31 rnd (TPtr (TNamed n)) j old =
  match j with
  | JNull => Some VNil
  | _ => match unmarshal_over T31 rnd (TNamed n) j (match old with VPtr u => u | _ => zero T31 LVL (TNamed n) end) with
         | Some w => Some (VPtr w)
         | None => None
         end
  end.
Proof. intros rnd n fs ps d j old G. refine (pointer T31 rnd twice31 n _ j old G _). discriminate. Qed.

Theorem C97_choices31 : forall rnd n fs ps d j vs v i f,
  get n T31 = Some (EStruct fs ps d) -> typed T31 (TNamed n) (VStruct vs) -> no_null ["scheme"] j ->
  unmarshal_over T31 rnd (TNamed n) j (VStruct vs) = Some v -> nth_error fs i = Some f ->
  (In i (d_oneof d) -> exists old, nth_error vs i = Some old /\
     field_at v i = Some (match unmarshal_over T31 rnd (f_ty f) j old with Some w => w | None => VNil end)) /\
  (In i (d_embed d) -> exists old w, nth_error vs i = Some old /\ unmarshal_over T31 rnd (f_ty f) j old = Some w /\ field_at v i = Some w).
Proof. intros rnd n fs ps d j vs v i f G Ty NN. exact (whole T31 rnd ["scheme"] used31 twice31 n fs ps d j vs v i f G Ty NN). Qed.

(* Lists: element by element over the old elements; the list has the length of
   the document's. *)
Theorem C97_lists : forall T rnd t l old v, unmarshal_over T rnd (TArr t) (JArr l) old = Some v ->
  exists vs, v = VArr vs /\ length vs = length l /\
    forall i x u, nth_error l i = Some x -> nth_error vs i = Some u ->
      unmarshal_over T rnd t x (match old with VArr os => nth i os (zero T LVL t) | _ => zero T LVL t end) = Some u.
Proof. intros T rnd t l old v. exact (elements T rnd t l old v). Qed.

Theorem C97_null : forall T rnd t old,
  unmarshal_over T rnd (TPtr t) JNull old = Some VNil /\
  unmarshal_over T rnd (TArr t) JNull old = Some VNil /\
  unmarshal_over T rnd (TMap t) JNull old = Some VNil.
Proof. intros T rnd t old. split; [reflexivity|]. split; reflexivity. Qed.

(* Plain maps: entries that are not named are kept, the others are read as into
   a new variable: they are replaced, not merged. *)
Theorem C97_maps : forall T rnd t j m v,
  unmarshal_over T rnd (TMap t) j (VMap m) = Some v -> j <> JNull ->
  (forall k, ~ In k (map fst (members_of j)) -> get k (entries_of v) = get k m) /\
  (distinct j -> forall k x, In (k, x) (members_of j) ->
     exists u, unmarshal T rnd t x = Some u /\ get k (entries_of v) = Some u).
Proof. intros T rnd t j m v. exact (map_kept T rnd t j m v). Qed.

(* Reading the same document again changes nothing. *)
Theorem C97_twice30 : forall rnd n e j old v,
  get n T30 = Some e -> typed T30 (TNamed n) old -> distinct j -> no_variants (field_keys T30) j ->
  unmarshal_over T30 rnd (TNamed n) j old = Some v -> unmarshal_over T30 rnd (TNamed n) j v = Some v.
Proof. intros rnd n e j old v G To Di NV. exact (twice T30 rnd [] used30 twice30 (TNamed n) j old v (known_of T30 n e G) (no_null_nil j) Di NV To). Qed.

Theorem C97_twice31 : forall rnd n e j old v,
  get n T31 = Some e -> typed T31 (TNamed n) old -> no_null ["scheme"] j -> distinct j -> no_variants (field_keys T31) j ->
  unmarshal_over T31 rnd (TNamed n) j old = Some v -> unmarshal_over T31 rnd (TNamed n) j v = Some v.
Proof. intros rnd n e j old v G To NN Di NV. exact (twice T31 rnd ["scheme"] used31 twice31 (TNamed n) j old v (known_of T31 n e G) NN Di NV To). Qed.

(* ---------- a concrete case ---------- *)

Lemma read_typed T rnd K n e j v : used_checks T K = true -> get n T = Some e -> no_null K j -> unmarshal T rnd (TNamed n) j = Some v -> typed T (TNamed n) v.
Proof.
  intros C G NN E. pose proof (accepts T rnd K n e j _ C G NN (zero_is_typed T K C (TNamed n) (known_of T n e G))) as H. unfold unmarshal_over in H. unfold unmarshal in *.
  rewrite E in H. apply H.
Qed.

Definition same_num (q : Q) : Q := q.
Definition info_before : json := JObj [("title", JStr "Old"); ("description", JStr "kept"); ("version", JStr "1"); ("contact", JObj [("name", JStr "A"); ("email", JStr "a@b.c")]); ("x-a", JNum 1); ("x-b", JNum 2)].
Definition info_patch : json := JObj [("title", JStr "New"); ("version", JStr "2"); ("contact", JObj [("name", JStr "B")]); ("x-b", JObj [("deep", JNull)])].
Definition info_after : json := JObj [("title", JStr "New"); ("description", JStr "kept"); ("version", JStr "2"); ("contact", JObj [("name", JStr "B"); ("email", JStr "a@b.c")]); ("x-a", JNum 1); ("x-b", JObj [("deep", JNull)])].

(* The hypotheses hold, the result is read, written, and read again. *)
Example C97_example30 :
  match get "Info" T30, unmarshal T30 same_num (TNamed "Info") info_before with
  | Some _, Some old =>
      typed T30 (TNamed "Info") old /\ distinct info_patch /\ no_variants (field_keys T30) info_patch /\
      match unmarshal_over T30 same_num (TNamed "Info") info_patch old with
      | Some v => unmarshal_over T30 same_num (TNamed "Info") info_patch v = Some v /\
                  unmarshal T30 same_num (TNamed "Info") info_after = Some v /\
                  unmarshal T30 same_num (TNamed "Info") info_patch <> Some v
      | None => False
      end
  | _, _ => False
  end.
Proof.
  destruct (get "Info" T30) as [e|] eqn:G; [|vm_compute in G; discriminate].
  destruct (unmarshal T30 same_num (TNamed "Info") info_before) as [old|] eqn:E; [|vm_compute in E; discriminate].
  split; [exact (read_typed T30 same_num [] "Info" e _ old used30 G (no_null_nil _) E)|].
  split; [apply distinctb_ok; vm_compute; reflexivity|]. split; [apply variantsb_ok; vm_compute; reflexivity|].
  vm_compute in E. injection E as <-. vm_compute. split; [reflexivity|]. split; [reflexivity|]. discriminate.
Qed.

(* For documents without [null] under the keys. *)
Fixpoint no_nullb (K : list string) (j : json) : bool :=
  match j with
  | JArr l => forallb (no_nullb K) l
  | JObj m =>
      forallb (fun kv => no_nullb K (snd kv) &&
                 match snd kv with JNull => negb (in_list (fold_key (fst kv)) (map fold_key K)) | _ => true end) m
  | _ => true
  end.
Lemma no_nullb_ok K : forall j, no_nullb K j = true -> no_null K j.
Proof.
  induction j as [|b|q|s|l IH|m IH] using json_ind'; intros H; cbn [no_nullb] in H; constructor; rewrite forallb_forall in H; rewrite Forall_forall in IH.
  - auto.
  - intros q k Iq Fo I. specialize (H _ I). cbn [fst snd no_nullb] in H. cbn [andb] in H. apply negb_true_iff in H. apply CodecProofs.in_list_false in H.
    apply H. rewrite Fo. apply in_map. exact Iq.
  - intros k j I. apply (IH (k, j) I). specialize (H _ I). rewrite andb_true_iff in H. apply H.
Qed.

Definition comp_before : json := JObj
  [("schemas", JObj [("A", JObj [("type", JStr "string"); ("title", JStr "gone")]); ("B", JObj [("type", JStr "integer")])]);
   ("securitySchemes", JObj [("h", JObj [("type", JStr "http"); ("scheme", JStr "basic"); ("description", JStr "gone")]); ("i", JObj [("type", JStr "http"); ("scheme", JStr "basic")])]);
   ("x-a", JNum 1)].
Definition comp_patch : json := JObj
  [("securitySchemes", JObj [("h", JObj [("type", JStr "http"); ("scheme", JStr "bearer")])]);
   ("schemas", JObj [("A", JObj [("type", JStr "number")]); ("C", JObj [])])].
Definition comp_after : json := JObj
  [("schemas", JObj [("A", JObj [("type", JStr "number")]); ("B", JObj [("type", JStr "integer")]); ("C", JObj [])]);
   ("securitySchemes", JObj [("h", JObj [("type", JStr "http"); ("scheme", JStr "bearer")]); ("i", JObj [("type", JStr "http"); ("scheme", JStr "basic")])]);
   ("x-a", JNum 1)].

Example C97_example31 :
  match get "Components" T31, unmarshal T31 same_num (TNamed "Components") comp_before with
  | Some _, Some old =>
      typed T31 (TNamed "Components") old /\ no_null ["scheme"] comp_patch /\ distinct comp_patch /\ no_variants (field_keys T31) comp_patch /\
      match unmarshal_over T31 same_num (TNamed "Components") comp_patch old with
      | Some v => unmarshal_over T31 same_num (TNamed "Components") comp_patch v = Some v /\
                  unmarshal T31 same_num (TNamed "Components") comp_after = Some v /\
                  unmarshal T31 same_num (TNamed "Components") comp_patch <> Some v
      | None => False
      end
  | _, _ => False
  end.
Proof.
  destruct (get "Components" T31) as [e|] eqn:G; [|vm_compute in G; discriminate].
  destruct (unmarshal T31 same_num (TNamed "Components") comp_before) as [old|] eqn:E; [|vm_compute in E; discriminate].
  split; [apply (read_typed T31 same_num ["scheme"] "Components" e comp_before old used31 G); [apply no_nullb_ok; vm_compute; reflexivity|exact E]|].
  split; [apply no_nullb_ok; vm_compute; reflexivity|].
  split; [apply distinctb_ok; vm_compute; reflexivity|]. split; [apply variantsb_ok; vm_compute; reflexivity|].
  vm_compute in E. injection E as <-. vm_compute. split; [reflexivity|]. split; [reflexivity|]. discriminate.
Qed.

(* A member that is absent leaves the old value, and so does a null for a field
   that is not a pointer: the result is not what a new entity would be. *)
Theorem C97_fresh_refuted :
  exists old v, unmarshal_over T30 same_num (TNamed "Info") (JObj [("title", JNull); ("version", JStr "2")]) old = Some v /\
    typed T30 (TNamed "Info") old /\
    unmarshal T30 same_num (TNamed "Info") (JObj [("title", JNull); ("version", JStr "2")]) <> Some v /\
    field_at v 0 = Some (VStr "Old") /\ field_at v 1 = Some (VPtr (VStr "kept")).
Proof.
  destruct (get "Info" T30) as [e|] eqn:G; [|vm_compute in G; discriminate].
  destruct (unmarshal T30 same_num (TNamed "Info") info_before) as [old|] eqn:E; [|vm_compute in E; discriminate].
  exists old. pose proof (read_typed T30 same_num [] "Info" e _ old used30 G (no_null_nil _) E) as Ty.
  destruct (unmarshal_over T30 same_num (TNamed "Info") (JObj [("title", JNull); ("version", JStr "2")]) old) as [v|] eqn:F.
  - exists v. split; [reflexivity|]. split; [exact Ty|]. vm_compute in E. injection E as <-. vm_compute in F. injection F as <-.
    split; [vm_compute; discriminate|]. split; vm_compute; reflexivity.
  - vm_compute in E. injection E as <-. vm_compute in F. discriminate.
Qed.

(* In 3.1 a null scheme is read by what the entity held before: a document that
   a new entity does not accept is accepted. *)
Theorem C97_null_scheme31_refuted :
  exists n j old, typed T31 (TNamed n) old /\ unmarshal T31 same_num (TNamed n) j = None /\ unmarshal_over T31 same_num (TNamed n) j old <> None.
Proof.
  destruct (get "SecuritySchemeHTTPBearer" T31) as [e|] eqn:G; [|vm_compute in G; discriminate].
  destruct (unmarshal T31 same_num (TNamed "SecuritySchemeHTTPBearer") (JObj [("type", JStr "http"); ("scheme", JStr "Bearer")])) as [old|] eqn:E; [|vm_compute in E; discriminate].
  exists "SecuritySchemeHTTPBearer", (JObj [("type", JStr "http"); ("scheme", JNull)]), old.
  split; [refine (read_typed T31 same_num ["scheme"] "SecuritySchemeHTTPBearer" e _ old used31 G _ E); apply no_nullb_ok; vm_compute; reflexivity|].
  split; [vm_compute; reflexivity|]. vm_compute in E. injection E as <-. vm_compute. discriminate.
Qed.

(* A choice: the reference is cleared, the schema read as a new one; and a
   schema over a schema is merged. *)
Example C97_choice_example :
  let t := TNamed "SchemaOrRef" in
  match unmarshal T30 same_num t (JObj [("$ref", JStr "#/components/schemas/A")]),
        unmarshal T30 same_num t (JObj [("type", JStr "string"); ("title", JStr "kept")]) with
  | Some ref, Some sch =>
      unmarshal_over T30 same_num t (JObj [("type", JStr "object")]) ref = unmarshal T30 same_num t (JObj [("type", JStr "object")]) /\
      unmarshal_over T30 same_num t (JObj [("type", JStr "object")]) sch = unmarshal T30 same_num t (JObj [("title", JStr "kept"); ("type", JStr "object")])
  | _, _ => False
  end.
Proof. vm_compute. split; reflexivity. Qed.

(* ---------- assumptions ---------- *)

Print Assumptions C97_document_wins30.
Print Assumptions C97_document_wins31.
Print Assumptions C97_kept30.
Print Assumptions C97_kept31.
Print Assumptions C97_merged30.
Print Assumptions C97_pointers30.
Print Assumptions C97_choices30.
Print Assumptions C97_merged31.
Print Assumptions C97_pointers31.
Print Assumptions C97_choices31.
Print Assumptions C97_lists.
Print Assumptions C97_null.
Print Assumptions C97_maps.
Print Assumptions C97_twice30.
Print Assumptions C97_twice31.
Print Assumptions C97_fresh_refuted.
Print Assumptions C97_null_scheme31_refuted.
