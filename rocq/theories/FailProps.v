(* C109: what a failed reading leaves behind. *)
From Coq Require Import Permutation.
From Verif Require Import Str SMap Json CodecModel CodecTables CodecSpec OrdModel OrdSpec OrdCheck OrdProofs OrdProps UsedSpec UsedProofs UsedProps FailModel FailSpec FailProofs FailLink FailTyped.

Definition checks (T : list (string * ent)) (M L : list string) : bool :=
  forallb (fun e => match snd e with
    | EEnum _ => true
    | EStruct _ _ d => (if in_list (fst e) M then no_program d else true) && (in_list (fst e) L || negb (in_list (fst e) M) && d_struct d)
    end) T.
Lemma checks30 : checks T30 bare30 in_place30 = true. Proof. vm_compute. reflexivity. Qed.
Lemma checks31 : checks T31 bare31 in_place31 = true. Proof. vm_compute. reflexivity. Qed.
Lemma checks_at T M L n fs ps d : checks T M L = true -> get n T = Some (EStruct fs ps d) ->
  (in_list n M = true -> no_program d = true) /\ (in_list n L = false -> in_list n M = false /\ d_struct d = true).
Proof.
  intros C G. unfold checks in C. rewrite forallb_forall in C. specialize (C _ (get_In _ _ _ G)). cbn [fst snd] in C. apply andb_prop in C. destruct C as (A & B).
  split; [intros E; rewrite E in A; exact A|]. intros E. rewrite E in B. cbn [orb] in B. apply andb_prop in B. destruct B as (B & ->). split; [|reflexivity].
  destruct (in_list n M); [discriminate|reflexivity].
Qed.

Lemma accepts_as T M L rnd p t j : checks T M L = true -> fair (order_of p) ->
  agree vsame (let (v, ok) := reading T rnd p M t j (zero T LVL t) in if ok then Some v else None) (unmarshal T rnd t j).
Proof.
  intros C F. assert (MO : forall n fs ps d, get n T = Some (EStruct fs ps d) -> in_list n M = true -> no_program d = true) by (intros n fs ps d G; exact (proj1 (checks_at T M L n fs ps d C G))).
  pose proof (C90_iteration T rnd (order_of p) as_given t j F fair_given) as A. unfold as_given in A. rewrite C90_as_given in A.
  destruct (reading T rnd p M t j (zero T LVL t)) as [v []] eqn:E.
  - apply (reading_link T rnd p M (order_of p) (fun _ _ _ _ => eq_refl) MO) in E. unfold unmarshal_o in A. rewrite E in A. exact A.
  - assert (E1 : snd (reading T rnd p M t j (zero T LVL t)) = false) by (rewrite E; reflexivity). apply (reading_fails T rnd p M (order_of p) (fun _ _ _ _ => eq_refl) MO) in E1. unfold unmarshal_o in A. rewrite E1 in A. exact A.
Qed.
Definition in_order : picks := fun _ _ _ n => seq 0 n.
Lemma over_as T M L rnd t j old : checks T M L = true ->
  (let (v, ok) := reading T rnd in_order M t j old in if ok then Some v else None) = unmarshal_over T rnd t j old.
Proof.
  intros C. assert (MO : forall n fs ps d, get n T = Some (EStruct fs ps d) -> in_list n M = true -> no_program d = true) by (intros n fs ps d G; exact (proj1 (checks_at T M L n fs ps d C G))).
  assert (O : forall n i j l, (fun _ _ _ l => l) n i j l = order_of in_order n i j l) by (intros n i k l; unfold order_of, in_order; symmetry; apply arrange_seq).
  pose proof (f_equal (fun d => d j t old) (dec_given T rnd)) as G. cbv beta in G. unfold unmarshal_over. rewrite <- G.
  destruct (reading T rnd in_order M t j old) as [v []] eqn:E; symmetry.
  - apply (reading_link T rnd in_order M _ O MO). exact E.
  - apply (reading_fails T rnd in_order M _ O MO). rewrite E. reflexivity.
Qed.
Lemma left_held T M L rnd p n e j old : checks T M L = true -> get n T = Some e -> in_list n L = false ->
  snd (reading T rnd p M (TNamed n) j old) = false -> held old (fst (reading T rnd p M (TNamed n) j old)).
Proof.
  intros C G NL F. unfold reading in *. cbv zeta in *. cbn [fst snd] in *. apply failed_held.
  - intros fs ps d G'. exact (proj2 (checks_at T M L n fs ps d C G') NL).
  - intros E. rewrite E in F. discriminate.
Qed.

(* Errors: a document is an error exactly if the other chapters say so. *)
Theorem C109_accepts30 : forall rnd p t j, fair (order_of p) ->
  agree vsame (let (v, ok) := reading T30 rnd p bare30 t j (zero T30 LVL t) in if ok then Some v else None) (unmarshal T30 rnd t j).
Proof. intros rnd p t j. exact (accepts_as T30 bare30 in_place30 rnd p t j checks30). Qed.
Theorem C109_accepts31 : forall rnd p t j, fair (order_of p) ->
  agree vsame (let (v, ok) := reading T31 rnd p bare31 t j (zero T31 LVL t) in if ok then Some v else None) (unmarshal T31 rnd t j).
Proof. intros rnd p t j. exact (accepts_as T31 bare31 in_place31 rnd p t j checks31). Qed.

(* The same of an entity that is in use (loops in the order of the document). *)
Theorem C109_accepts_used30 : forall rnd t j old,
  (let (v, ok) := reading T30 rnd in_order bare30 t j old in if ok then Some v else None) = unmarshal_over T30 rnd t j old.
Proof. intros rnd t j old. exact (over_as T30 bare30 in_place30 rnd t j old checks30). Qed.
Theorem C109_accepts_used31 : forall rnd t j old,
  (let (v, ok) := reading T31 rnd in_order bare31 t j old in if ok then Some v else None) = unmarshal_over T31 rnd t j old.
Proof. intros rnd t j old. exact (over_as T31 bare31 in_place31 rnd t j old checks31). Qed.

(* After an error every text, number and flag of the entity is what it was, no
   pointer, list or map has been replaced, set or dropped. *)
Theorem C109_held30 : forall rnd p n e j old new, get n T30 = Some e -> ~ In n in_place30 ->
  reading T30 rnd p bare30 (TNamed n) j old = (new, false) -> held old new.
Proof.
  intros rnd p n e j old new G NL E. pose proof (left_held T30 bare30 in_place30 rnd p n e j old checks30 G) as H. rewrite E in H. apply H; [|reflexivity].
  destruct (in_list n in_place30) eqn:I; [|reflexivity]. destruct NL. apply in_list_In. exact I.
Qed.
Theorem C109_held31 : forall rnd p n e j old new, get n T31 = Some e -> ~ In n in_place31 ->
  reading T31 rnd p bare31 (TNamed n) j old = (new, false) -> held old new.
Proof.
  intros rnd p n e j old new G NL E. pose proof (left_held T31 bare31 in_place31 rnd p n e j old checks31 G) as H. rewrite E in H. apply H; [|reflexivity].
  destruct (in_list n in_place31) eqn:I; [|reflexivity]. destruct NL. apply in_list_In. exact I.
Qed.

(* So an entity without pointers, lists and maps is as before; a new one is. *)
Theorem C109_unchanged30 : forall rnd p n e j old new, get n T30 = Some e -> ~ In n in_place30 -> alone old ->
  reading T30 rnd p bare30 (TNamed n) j old = (new, false) -> new = old.
Proof. intros rnd p n e j old new G NL A E. exact (alone_held old new A (C109_held30 rnd p n e j old new G NL E)). Qed.
Theorem C109_unchanged31 : forall rnd p n e j old new, get n T31 = Some e -> ~ In n in_place31 -> alone old ->
  reading T31 rnd p bare31 (TNamed n) j old = (new, false) -> new = old.
Proof. intros rnd p n e j old new G NL A E. exact (alone_held old new A (C109_held31 rnd p n e j old new G NL E)). Qed.

(* Documents tried on a new entity until one is read: those before it leave no
   trace. *)
Fixpoint tries (T : list (string * ent)) (rnd : Q -> Q) (p : picks) (M : list string) (t : ty) (js : list json) (v : val) : val :=
  match js with
  | [] => v
  | j :: js => let (v, ok) := reading T rnd p M t j v in if ok then v else tries T rnd p M t js v
  end.
Lemma tries_skip T rnd p M t old : forall bad j js, (forall b, In b bad -> reading T rnd p M t b old = (old, false)) ->
  tries T rnd p M t (bad ++ j :: js) old = tries T rnd p M t (j :: js) old.
Proof.
  induction bad as [|b bad IH]; intros j js H; [reflexivity|]. cbn [app tries]. rewrite (H b (or_introl eq_refl)). apply IH. intros x I. apply H. right. exact I.
Qed.
Theorem C109_retry30 : forall rnd p n e bad j js, get n T30 = Some e -> ~ In n in_place30 ->
  let t := TNamed n in let new := zero T30 LVL t in
  (forall b, In b bad -> snd (reading T30 rnd p bare30 t b new) = false) ->
  tries T30 rnd p bare30 t (bad ++ j :: js) new = tries T30 rnd p bare30 t (j :: js) new.
Proof.
  intros rnd p n e bad j js G NL t new H. apply tries_skip. intros b I. specialize (H b I). destruct (reading T30 rnd p bare30 t b new) as [v ok] eqn:E. cbn [snd] in H. subst ok.
  rewrite (C109_unchanged30 rnd p n e b new v G NL (alone_zero T30 LVL t) E). reflexivity.
Qed.
Theorem C109_retry31 : forall rnd p n e bad j js, get n T31 = Some e -> ~ In n in_place31 ->
  let t := TNamed n in let new := zero T31 LVL t in
  (forall b, In b bad -> snd (reading T31 rnd p bare31 t b new) = false) ->
  tries T31 rnd p bare31 t (bad ++ j :: js) new = tries T31 rnd p bare31 t (j :: js) new.
Proof.
  intros rnd p n e bad j js G NL t new H. apply tries_skip. intros b I. specialize (H b I). destruct (reading T31 rnd p bare31 t b new) as [v ok] eqn:E. cbn [snd] in H. subst ok.
  rewrite (C109_unchanged31 rnd p n e b new v G NL (alone_zero T31 LVL t) E). reflexivity.
Qed.

(* What is behind a pointer of a used entity is changed by a document that is
   refused: the url of the documentation of a tag. *)
Definition tag_old := JObj [("name", JStr "pets"); ("externalDocs", JObj [("url", JStr "https://old")])].
Definition tag_bad := JObj [("name", JStr "cats"); ("externalDocs", JObj [("url", JStr "https://new")]); ("description", JNum 1)].
Theorem C109_used_refuted30 : forall rnd, exists old new url url',
  unmarshal T30 rnd (TNamed "Tag") tag_old = Some old /\ reading T30 rnd in_order bare30 (TNamed "Tag") tag_bad old = (new, false) /\
  new <> old /\ url <> url' /\
  marshal T30 (TNamed "Tag") old = Some (JObj [("name", JStr "pets"); ("externalDocs", JObj [("url", JStr url)])]) /\
  marshal T30 (TNamed "Tag") new = Some (JObj [("name", JStr "pets"); ("externalDocs", JObj [("url", JStr url')])]).
Proof.
  intros rnd. do 2 eexists. exists "https://old", "https://new". split; [vm_compute; reflexivity|]. split; [vm_compute; reflexivity|].
  split; [intros E; discriminate E|]. split; [intros E; discriminate E|]. split; vm_compute; reflexivity.
Qed.
Theorem C109_used_refuted31 : forall rnd, exists old new url url',
  unmarshal T31 rnd (TNamed "Tag") tag_old = Some old /\ reading T31 rnd in_order bare31 (TNamed "Tag") tag_bad old = (new, false) /\
  new <> old /\ url <> url' /\
  marshal T31 (TNamed "Tag") old = Some (JObj [("name", JStr "pets"); ("externalDocs", JObj [("url", JStr url)])]) /\
  marshal T31 (TNamed "Tag") new = Some (JObj [("name", JStr "pets"); ("externalDocs", JObj [("url", JStr url')])]).
Proof.
  intros rnd. do 2 eexists. exists "https://old", "https://new". split; [vm_compute; reflexivity|]. split; [vm_compute; reflexivity|].
  split; [intros E; discriminate E|]. split; [intros E; discriminate E|]. split; vm_compute; reflexivity.
Qed.

(* Types that are read in place keep what was read before the error, new ones
   as well: sets of paths, choices that more than one alternative fits, and
   types that encoding/json reads. *)
Theorem C109_paths_refuted : forall rnd, exists new,
  reading T30 rnd in_order bare30 (TNamed "Paths") (JObj [("/a", JObj []); ("nowhere", JObj [])]) (zero T30 LVL (TNamed "Paths")) = (new, false) /\
  marshal T30 (TNamed "Paths") new = Some (JObj [("/a", JObj [])]).
Proof. intros rnd. eexists. split; vm_compute; reflexivity. Qed.
Theorem C109_choice_refuted : forall rnd, exists new,
  reading T31 rnd in_order bare31 (TNamed "SecuritySchemeOrReference") (JObj [("$ref", JStr "#/a"); ("type", JStr "mutualTLS")])
    (zero T31 LVL (TNamed "SecuritySchemeOrReference")) = (new, false) /\ new <> zero T31 LVL (TNamed "SecuritySchemeOrReference").
Proof. intros rnd. eexists. split; [vm_compute; reflexivity|]. vm_compute. intros E. discriminate E. Qed.
Theorem C109_components_refuted : forall rnd, exists new,
  reading T31 rnd in_order bare31 (TNamed "Components") (JObj [("schemas", JObj [("A", JObj [])]); ("responses", JNum 1)])
    (zero T31 LVL (TNamed "Components")) = (new, false) /\
  marshal T31 (TNamed "Components") new = Some (JObj [("schemas", JObj [("A", JObj [])])]).
Proof. intros rnd. eexists. split; vm_compute; reflexivity. Qed.

(* Whatever has been tried before, and left behind, in whatever order of the
   loops: a document is read if a new entity reads it, and what it says is in
   the entity then. *)
Definition tried (T : list (string * ent)) (rnd : Q -> Q) (p : picks) (M : list string) (t : ty) (js : list json) : val :=
  fold_left (fun v j => fst (reading T rnd p M t j v)) js (zero T LVL t).
Lemma tried_typed T rnd p M K n e js : used_checks T K = true -> get n T = Some e -> typed T (TNamed n) (tried T rnd p M (TNamed n) js).
Proof.
  intros C G. pose proof (known_of T n e G) as Kn. unfold tried.
  enough (H : forall v, typed T (TNamed n) v -> typed T (TNamed n) (fold_left (fun v j => fst (reading T rnd p M (TNamed n) j v)) js v)) by (apply H; exact (zero_is_typed T K C _ Kn)).
  induction js as [|j js IH]; intros v Tv; cbn [fold_left]; [exact Tv|]. apply IH. exact (reading_typed T rnd p M K C (TNamed n) j v Kn Tv).
Qed.
Theorem C109_still_fits30 : forall rnd p n e js j, get n T30 = Some e ->
  let t := TNamed n in
  match unmarshal T30 rnd t j, reading T30 rnd in_order bare30 t j (tried T30 rnd p bare30 t js) with
  | Some v, (w, ok) => ok = true /\ extends v w
  | None, (_, ok) => ok = false
  end.
Proof.
  intros rnd p n e js j G t. pose proof (C97_document_wins30 rnd n e j _ G (tried_typed T30 rnd p bare30 [] n e js used30 G)) as H.
  fold t in H. rewrite <- C109_accepts_used30 in H. destruct (reading T30 rnd in_order bare30 t j (tried T30 rnd p bare30 t js)) as [w []]; destruct (unmarshal T30 rnd t j); try contradiction; [split; [reflexivity|apply H]|reflexivity].
Qed.
Theorem C109_still_fits31 : forall rnd p n e js j, get n T31 = Some e -> no_null ["scheme"] j ->
  let t := TNamed n in
  match unmarshal T31 rnd t j, reading T31 rnd in_order bare31 t j (tried T31 rnd p bare31 t js) with
  | Some v, (w, ok) => ok = true /\ extends v w
  | None, (_, ok) => ok = false
  end.
Proof.
  intros rnd p n e js j G NN t. pose proof (C97_document_wins31 rnd n e j _ G (tried_typed T31 rnd p bare31 ["scheme"] n e js used31 G) NN) as H.
  fold t in H. rewrite <- C109_accepts_used31 in H. destruct (reading T31 rnd in_order bare31 t j (tried T31 rnd p bare31 t js)) as [w []]; destruct (unmarshal T31 rnd t j); try contradiction; [split; [reflexivity|apply H]|reflexivity].
Qed.

(* Documents with an error at their end, and one after them that is read. *)
Definition no_round (q : Q) : Q := q.
Definition backwards : picks := fun _ _ _ n => rev (seq 0 n).
Definition spec_bad := JObj [("openapi", JStr "3.0.3"); ("info", JObj [("title", JStr "a"); ("version", JStr "1")]); ("tags", JArr [JObj [("name", JStr "t")]]); ("paths", JObj [("nowhere", JObj [])])].
Definition spec_bad31 := JObj [("openapi", JStr "3.1.0"); ("info", JObj [("title", JStr "a"); ("version", JStr "1")]); ("servers", JArr [JObj [("url", JStr "u")]]); ("tags", JNum 1)].
Definition spec_good (v : string) := JObj [("openapi", JStr v); ("info", JObj [("title", JStr "b"); ("version", JStr "2")]); ("paths", JObj [])].
Example C109_example30 :
  fair (order_of backwards) /\ (exists e, get "Spec" T30 = Some e) /\ ~ In "Spec" in_place30 /\
  snd (reading T30 no_round backwards bare30 (TNamed "Spec") spec_bad (zero T30 LVL (TNamed "Spec"))) = false /\
  snd (reading T30 no_round backwards bare30 (TNamed "Spec") JNull (zero T30 LVL (TNamed "Spec"))) = false /\
  Some (tries T30 no_round backwards bare30 (TNamed "Spec") [spec_bad; JNull; spec_good "3.0.3"] (zero T30 LVL (TNamed "Spec"))) =
    unmarshal T30 no_round (TNamed "Spec") (spec_good "3.0.3").
Proof.
  split. { intros n i j l. unfold order_of, backwards, arrange. rewrite flat_map_concat_map, map_rev. rewrite <- (arrange_seq l) at 1. unfold arrange. rewrite flat_map_concat_map.
    generalize (map (fun i => match nth_error l i with Some x => [x] | None => [] end) (seq 0 (length l))). intros c. induction c as [|x c IH]; cbn [concat rev]; [constructor|].
    rewrite concat_app. cbn [concat]. rewrite app_nil_r. rewrite Permutation_app_comm. apply Permutation_app; [exact IH|reflexivity]. }
  split; [eexists; vm_compute; reflexivity|]. split; [intros I; vm_compute in I; repeat (destruct I as [I|I]; [discriminate I|]); exact I|].
  split; [vm_compute; reflexivity|]. split; vm_compute; reflexivity.
Qed.
Example C109_example31 :
  (exists e, get "Spec" T31 = Some e) /\ ~ In "Spec" in_place31 /\ no_null ["scheme"] (spec_good "3.1.0") /\
  snd (reading T31 no_round backwards bare31 (TNamed "Spec") spec_bad31 (zero T31 LVL (TNamed "Spec"))) = false /\
  Some (tries T31 no_round backwards bare31 (TNamed "Spec") [spec_bad31; spec_good "3.1.0"] (zero T31 LVL (TNamed "Spec"))) =
    unmarshal T31 no_round (TNamed "Spec") (spec_good "3.1.0").
Proof.
  split; [eexists; vm_compute; reflexivity|]. split; [intros I; vm_compute in I; repeat (destruct I as [I|I]; [discriminate I|]); exact I|].
  split; [apply no_nullb_ok; vm_compute; reflexivity|].
  split; [vm_compute; reflexivity|]. vm_compute; reflexivity.
Qed.


(* What is behind pointers and in lists and maps, after an error: elements and
   entries before it are those of the document; an entry of the wrong JSON type
   is stored empty; an entry whose own method fails is not, and reading ends
   there. *)
Definition after_failure (T : list (string * ent)) (M : list string) (n : string) (old bad : json) : option (bool * option json) :=
  match unmarshal T no_round (TNamed n) old with
  | Some v => let (w, ok) := reading T no_round in_order M (TNamed n) bad v in Some (ok, marshal T (TNamed n) w)
  | None => None
  end.
Definition server (u : string) : json := JObj [("url", JStr u)].
Example C109_left30 :
  after_failure T30 bare30 "Operation" (JObj [("responses", JObj []); ("servers", JArr [server "a"; server "b"; server "c"])])
    (JObj [("servers", JArr [server "x"; JObj [("url", JNum 1)]; server "z"]); ("responses", JObj [])]) =
  Some (false, Some (JObj [("responses", JObj []); ("servers", JArr [server "x"; server "b"; server "c"])])) /\
  after_failure T30 bare30 "Discriminator" (JObj [("propertyName", JStr "p"); ("mapping", JObj [("a", JStr "1"); ("b", JStr "2")])])
    (JObj [("propertyName", JStr "q"); ("mapping", JObj [("a", JNum 1); ("b", JStr "3"); ("c", JStr "4")])]) =
  Some (false, Some (JObj [("propertyName", JStr "p"); ("mapping", JObj [("a", JStr ""); ("b", JStr "3"); ("c", JStr "4")])])) /\
  after_failure T30 bare30 "Server" (JObj [("url", JStr "u"); ("variables", JObj [("a", JObj [("default", JStr "1")])])])
    (JObj [("url", JStr "v"); ("variables", JObj [("b", JObj [("default", JStr "2")]); ("a", JObj [("default", JNum 3)]); ("c", JObj [("default", JStr "4")])])]) =
  Some (false, Some (JObj [("url", JStr "u"); ("variables", JObj [("a", JObj [("default", JStr "1")]); ("b", JObj [("default", JStr "2")])])])).
Proof. split; [vm_compute; reflexivity|]. split; vm_compute; reflexivity. Qed.

Definition jget (k : string) (j : json) : option json := match j with JObj l => get k l | _ => None end.
(* Entries of maps and elements of lists of an entity in use are those of the
   refused document as far as it was read. *)
Theorem C109_entries_refuted30 : exists n old bad a b x y z,
  after_failure T30 bare30 n old bad = Some (false, Some (JObj [a; ("mapping", x)])) /\
  after_failure T30 bare30 n old old = Some (true, Some (JObj [b; ("mapping", y)])) /\ a = b /\ x <> y /\
  bad = JObj [("propertyName", JStr "q"); ("mapping", z)] /\ old = JObj [b; ("mapping", y)] /\
  (exists s, jget "c" x = Some (JStr s) /\ jget "c" z = Some (JStr s)) /\ jget "c" y = None.
Proof.
  exists "Discriminator", (JObj [("propertyName", JStr "p"); ("mapping", JObj [("a", JStr "1"); ("b", JStr "2")])]),
    (JObj [("propertyName", JStr "q"); ("mapping", JObj [("a", JNum 1); ("b", JStr "3"); ("c", JStr "4")])]).
  do 5 eexists. split; [vm_compute; reflexivity|]. split; [vm_compute; reflexivity|]. split; [reflexivity|].
  split; [discriminate|]. split; [reflexivity|]. split; [reflexivity|]. split; [exists "4"; split; reflexivity|reflexivity].
Qed.
Theorem C109_elements_refuted30 : exists n old bad l l',
  after_failure T30 bare30 n old old = Some (true, Some (JObj [("responses", JObj []); ("servers", JArr l)])) /\
  after_failure T30 bare30 n old bad = Some (false, Some (JObj [("responses", JObj []); ("servers", JArr l')])) /\
  l <> l' /\ tl l = tl l'.
Proof.
  exists "Operation", (JObj [("responses", JObj []); ("servers", JArr [server "a"; server "b"; server "c"])]),
    (JObj [("servers", JArr [server "x"; JObj [("url", JNum 1)]; server "z"]); ("responses", JObj [])]).
  do 2 eexists. split; [vm_compute; reflexivity|]. split; [vm_compute; reflexivity|]. split; [discriminate|reflexivity].
Qed.

(* ---------- assumptions ---------- *)

Print Assumptions C109_accepts30.
Print Assumptions C109_accepts31.
Print Assumptions C109_accepts_used30.
Print Assumptions C109_accepts_used31.
Print Assumptions C109_held30.
Print Assumptions C109_held31.
Print Assumptions C109_unchanged30.
Print Assumptions C109_unchanged31.
Print Assumptions C109_retry30.
Print Assumptions C109_retry31.
Print Assumptions C109_used_refuted30.
Print Assumptions C109_used_refuted31.
Print Assumptions C109_paths_refuted.
Print Assumptions C109_choice_refuted.
Print Assumptions C109_components_refuted.
Print Assumptions C109_still_fits30.
Print Assumptions C109_still_fits31.
Print Assumptions C109_entries_refuted30.
Print Assumptions C109_elements_refuted30.
