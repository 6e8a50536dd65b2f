(* Theorems about FromJSONSchema (openapi3) on a receiver that holds a schema
   already (C106). *)
From Verif Require Import Str SMap Json SchemaModel SchemaSpec SchemaProofs ReadModel CodecModel CodecTables CodecCheck ReuseModel ReuseSpec ReuseProofs.
Require Import Verif.SchemaProps.

(* ---------- C106 ---------- *)

(* Keywords are replaced one by one: some always, most only if the new schema
   has them; a reference stays. *)
Theorem C106_overlay : forall a nt al on an it tu pr ad ot r f, NoDup (keys (ja_extra a)) ->
  from_js (JSObj a None nt al on an it tu pr ad ot) = Some (as_osor f) ->
  exists res, into_js (JSObj a None nt al on an it tu pr ad ot) r = Some (mkSlot (Some res) (sl_ref r)) /\
    overlay f (match sl_sch r with Some h => h | None => sch_zero end) res.
Proof. exact into_overlay. Qed.

(* It panics on the same schemas as with a fresh receiver, and a fresh receiver
   gets what C29 to C33 speak of. *)
Theorem C106_panics : forall s r, into_js s r = None <-> from_js s = None.
Proof. exact into_panics. Qed.
Theorem C106_fresh : forall s o, extra_distinct s -> from_js s = Some o ->
  exists r, into_js s slot_zero = Some r /\ view r = o /\ (sl_sch r = None \/ sl_ref r = None).
Proof. exact into_fresh. Qed.

(* Converting a schema again into the same receiver changes nothing. *)
Theorem C106_twice : forall s r r', extra_distinct s -> into_js s r = Some r' -> into_js s r' = Some r'.
Proof. exact into_twice. Qed.

(* Nothing of an old schema is left if the new one has every keyword that the
   old one could leave. *)
Theorem C106_covered : forall a nt al on an it tu pr ad ot r f, NoDup (keys (ja_extra a)) -> sl_ref r = None ->
  from_js (JSObj a None nt al on an it tu pr ad ot) = Some (as_osor f) ->
  covers f (match sl_sch r with Some h => h | None => sch_zero end) ->
  into_js (JSObj a None nt al on an it tu pr ad ot) r = Some (mkSlot (Some f) None).
Proof. exact into_covered. Qed.

(* A reference is seen whatever the receiver held. *)
Theorem C106_reference : forall a x nt al on an it tu pr ad ot r, ja_deprecated a <> Some true ->
  exists r', into_js (JSObj a (Some x) nt al on an it tu pr ad ot) r = Some r' /\ view r' = ORef x.
Proof.
  intros a x nt al on an it tu pr ad ot r D. exists (mkSlot (sl_sch r) (Some x)). split; [|reflexivity]. cbn [into_js].
  replace (is_true (ja_deprecated a)) with false; [reflexivity|]. destruct (ja_deprecated a) as [[|]|]; [congruence|reflexivity|reflexivity].
Qed.

(* In general a used receiver does not get the meaning of the schema: an
   exclusive bound is left behind, *)
Definition ru_exclusive : jsob := jattr_schema (max_attrs (Some 5%Q) (Some 5%Q)).
Definition ru_maximum : jsob := jattr_schema (max_attrs (Some 5%Q) None).
Theorem C106_refuted_bound : exists O s s' r r' v, into_js s slot_zero = Some r /\ into_js s' r = Some r' /\
  jsays O (fun _ => None) s' v true /\ osays O (fun _ => None) (view r') v false.
Proof.
  exists ex_oracle, ru_exclusive, ru_maximum. eexists. eexists. exists (JNum 5%Q). split; [vm_compute; reflexivity|]. split; [vm_compute; reflexivity|].
  split; exists 0; vm_compute; reflexivity.
Qed.
(* the schema true changes nothing at all, *)
Theorem C106_refuted_true : forall s r, into_js (JSBool true) (mkSlot (Some s) r) = Some (mkSlot (Some s) r).
Proof. reflexivity. Qed.
(* a reference hides every schema that is converted later, *)
Theorem C106_refuted_reference : forall x s o, from_js s = Some o ->
  (forall a y nt al on an it tu pr ad ot, s = JSObj a (Some y) nt al on an it tu pr ad ot -> ja_deprecated a = Some true) ->
  forall h, exists r', into_js s (mkSlot h (Some x)) = Some r' /\ view r' = ORef x.
Proof.
  intros x s o E D h. destruct (into_js s (mkSlot h (Some x))) as [r'|] eqn:Ei; [|apply into_panics in Ei; congruence]. exists r'. split; [reflexivity|].
  destruct s as [|b|a [y|] nt al on an it tu pr ad ot].
  - discriminate E.
  - cbn [into_js] in Ei. injection Ei as <-. reflexivity.
  - cbn [into_js] in Ei. rewrite (D _ _ _ _ _ _ _ _ _ _ _ eq_refl) in Ei. injection Ei as <-. reflexivity.
  - destruct (into_split a nt al on an it tu pr ad ot (mkSlot h (Some x))) as [[E1 _]|(nt' & al' & on' & an' & it' & pr' & ad' & _ & E2)]; [congruence|].
    rewrite E2 in Ei. injection Ei as <-. reflexivity.
Qed.
(* and a reference after a schema gives an object with both, which is written and
   cannot be read. *)
Theorem C106_refuted_written : forall rnd, exists s s' r r' j, into_js s slot_zero = Some r /\ into_js s' r = Some r' /\
  marshal T30 (TNamed "SchemaOrRef") (slotv r') = Some j /\ unmarshal T30 rnd (TNamed "SchemaOrRef") j = None.
Proof.
  intros rnd. exists (jattr_schema (mkJA None (Some "t") None JTNone None None None None None None 0 None None 0 None None 0 [] [] None None [] None None None [] [])),
    (JSObj ja0 (Some "#/components/schemas/A") None [] [] [] None [] [] None []). eexists. eexists. eexists.
  split; [vm_compute; reflexivity|]. split; [vm_compute; reflexivity|]. split; [vm_compute; reflexivity|]. vm_compute. reflexivity.
Qed.

(* A schema over another: the title goes, the type stays, properties are
   replaced as a whole, extensions are joined. *)
Example C106_example :
  let s := JSObj (mkJA None (Some "t") None (JTMany ["object"; "null"]) None None None None None None 0 None None 0 None None 0 [] [] None None [] None None None [("x-a", JNull); ("y", JNull)] [])
                 None None [] [] [] None [] [("p", JSBool true)] None [] in
  let s' := JSObj (mkJA None None None JTNone None None None None None None 3 None None 0 None None 0 [] [] None None [] None None None [("x-b", JNull)] [])
                  None None [] [] [] None [] [("q", JSBool false)] None [] in
  exists r r' h, into_js s slot_zero = Some r /\ into_js s' r = Some r' /\ r' = mkSlot (Some h) None /\
    oa_title (h_attrs h) = None /\ oa_type (h_attrs h) = Some "object" /\ oa_nullable (h_attrs h) = Some true /\ oa_minlen (h_attrs h) = Some 3%Z /\
    keys (h_props h) = ["q"] /\ keys (oa_x (h_attrs h)) = ["x-a"; "x-b"].
Proof.
  cbv zeta. eexists. eexists. eexists. split; [vm_compute; reflexivity|]. split; [vm_compute; reflexivity|]. split; [reflexivity|].
  split; [reflexivity|]. split; [reflexivity|]. split; [reflexivity|]. split; [reflexivity|]. split; reflexivity.
Qed.

(* The bounds of C106_refuted_bound in the other order are covered. *)
Example C106_covered_case : exists r f, into_js ru_maximum slot_zero = Some r /\ sl_ref r = None /\ from_js ru_exclusive = Some (as_osor f) /\
  covers f (match sl_sch r with Some h => h | None => sch_zero end) /\ into_js ru_exclusive r = Some (mkSlot (Some f) None).
Proof.
  eexists. eexists (mkSch (from_attrs (max_attrs (Some 5%Q) (Some 5%Q))) None [] [] [] None [] None). split; [vm_compute; reflexivity|]. split; [reflexivity|]. split; [vm_compute; reflexivity|].
  split; [|vm_compute; reflexivity]. constructor; cbn; unfold said, said_list; try (left; intros _; discriminate); try (left; intros X; exact X); try congruence.
Qed.

(* ---------- assumptions ---------- *)

Print Assumptions C106_overlay.
Print Assumptions C106_panics.
Print Assumptions C106_fresh.
Print Assumptions C106_twice.
Print Assumptions C106_covered.
Print Assumptions C106_reference.
Print Assumptions C106_refuted_bound.
Print Assumptions C106_refuted_true.
Print Assumptions C106_refuted_reference.
Print Assumptions C106_refuted_written.
