(* Theorems about the order in which operations are added and definitions are
   reported (C99). *)
From Coq Require Import Permutation Lia.
From Verif Require Import Str SMap Json PathModel Types RegistryModel ReflectModel ReflectSpec SchemaModel CodecModel CodecTables CodecSpec CodecProofs CodecCheck
  CodecProps ReadModel ReadSpec ReadProps OrdSpec UnionModel TextModel TextSpec TextProps SeqSpec SeqProofs SeqCalls SeqDocs.

(* ---------- the calls in another order ---------- *)

(* Operations at different places, whose definitions of one name mean the same:
   each call has the same result and completes the same operation, and the
   reflectors have the same contents. *)
Theorem C99_calls30 : forall (J Sch : Type) (B : backend J Sch) meaning r l l',
  comps_agree meaning (r30_comps r) -> Forall (call_agrees B meaning) l -> Forall made30 l -> NoDup (map place30 l) -> Permutation l l' ->
  same_refl30 (fst (calls30 B r l)) (fst (calls30 B r l')) /\
  Permutation (combine l (snd (calls30 B r l))) (combine l' (snd (calls30 B r l'))).
Proof. intros J Sch B meaning. exact (calls30_perm B meaning). Qed.
Theorem C99_calls31 : forall (J Sch : Type) (B : backend J Sch) meaning r l l',
  comps_agree meaning (r31_comps r) -> Forall (fun x => call_agrees B meaning (snd x)) l -> Forall (fun x => made31 (snd x)) l ->
  NoDup (map place31 l) -> Permutation l l' ->
  same_refl31 (fst (calls31 B r l)) (fst (calls31 B r l')) /\
  Permutation (combine l (snd (calls31 B r l))) (combine l' (snd (calls31 B r l'))).
Proof. intros J Sch B meaning. exact (calls31_perm B meaning). Qed.

(* ---------- the definitions in another order ---------- *)

Theorem C99_definitions30 : forall (J Sch : Type) (B : backend J Sch) meaning r r' l l',
  comps_agree meaning (r30_comps r) -> Forall (call_agrees B meaning) l -> Forall made30 l -> same_refl30 r r' -> Forall2 call_varies l l' ->
  same_refl30 (fst (calls30 B r l)) (fst (calls30 B r' l')) /\ snd (calls30 B r l) = snd (calls30 B r' l').
Proof. intros J Sch B meaning. exact (calls30_vary B meaning). Qed.
Theorem C99_definitions31 : forall (J Sch : Type) (B : backend J Sch) meaning r r' l l',
  comps_agree meaning (r31_comps r) -> Forall (fun x => call_agrees B meaning (snd x)) l -> Forall (fun x => made31 (snd x)) l -> same_refl31 r r' ->
  Forall2 (fun x x' => fst x' = fst x /\ call_varies (snd x) (snd x')) l l' ->
  same_refl31 (fst (calls31 B r l)) (fst (calls31 B r' l')) /\ snd (calls31 B r l) = snd (calls31 B r' l').
Proof. intros J Sch B meaning. exact (calls31_vary B meaning). Qed.

(* ---------- the document ---------- *)

Theorem C99_document30 : forall (J Sch : Type) (sv : Sch -> val) base (B : backend J Sch) meaning r l l1 l',
  comps_agree meaning (r30_comps r) -> Forall (call_agrees B meaning) l -> Forall made30 l -> NoDup (map place30 l) ->
  Permutation l l1 -> Forall2 call_varies l1 l' ->
  vsame (document30 sv base (fst (calls30 B r l))) (document30 sv base (fst (calls30 B r l'))).
Proof.
  intros J Sch sv base B meaning r l l1 l' O A M ND P V. apply doc30_same. destruct (calls30_perm B meaning r l l1 O A M ND P) as [E1 _].
  destruct (calls30_vary B meaning r r l1 l' O (Permutation_Forall P A) (Permutation_Forall P M) (eqv30_refl r) V) as [E2 _].
  exact (eqv30_trans _ _ _ E1 E2).
Qed.
Theorem C99_document31 : forall (J : Type) base (B : backend J sch31) meaning r l l1 l',
  comps_agree meaning (r31_comps r) -> Forall (fun x => call_agrees B meaning (snd x)) l -> Forall (fun x => made31 (snd x)) l ->
  NoDup (map place31 l) -> Permutation l l1 -> Forall2 (fun x x' => fst x' = fst x /\ call_varies (snd x) (snd x')) l1 l' ->
  vsame (document31 base (fst (calls31 B r l))) (document31 base (fst (calls31 B r l'))).
Proof.
  intros J base B meaning r l l1 l' O A M ND P V. apply doc31_same. destruct (calls31_perm B meaning r l l1 O A M ND P) as [E1 _].
  destruct (calls31_vary B meaning r r l1 l' O (Permutation_Forall P A) (Permutation_Forall P M) (eqv31_refl r) V) as [E2 _].
  exact (eqv31_trans _ _ _ E1 E2).
Qed.

(* The bytes of the document. *)
Theorem C99_bytes30 : forall num_text str_text rnd (J Sch : Type) (sv : Sch -> val) base (B : backend J Sch) meaning r l l1 l',
  texts_ok num_text str_text -> good_backend (good30 rnd sv) B -> wf T30 rnd derived30 extra30 (TNamed "Spec") (VStruct base) -> new30 r ->
  Forall (good_call30 rnd (good30 rnd sv) (good30 rnd sv) styles30 B) l -> Forall (good_call30 rnd (good30 rnd sv) (good30 rnd sv) styles30 B) l' ->
  Forall (call_agrees B meaning) l -> NoDup (map place30 l) -> Permutation l l1 -> Forall2 call_varies l1 l' ->
  marshal_text T30 num_text str_text (TNamed "Spec") (document30 sv base (fst (calls30 B r l))) =
  marshal_text T30 num_text str_text (TNamed "Spec") (document30 sv base (fst (calls30 B r l'))).
Proof.
  intros nt st rnd J Sch sv base B meaning r l l1 l' OK GB W N G G' A ND P V.
  apply C93_same30; [exact OK|eapply single30; eassumption|eapply single30; eassumption|].
  apply (C99_document30 _ _ sv base B meaning r l l1 l'); try assumption.
  - destruct N as [_ N]. rewrite N. intros n s E. discriminate E.
  - eapply Forall_impl; [|exact G]. intros oc H. exact (proj1 H).
Qed.
Theorem C99_bytes31 : forall num_text str_text rnd (J : Type) base (B : backend J sch31) meaning r l l1 l',
  texts_ok num_text str_text -> good_backend (good31 rnd) B -> wf T31 rnd derived31 extra31 (TNamed "Spec") (VStruct base) -> new31 r ->
  Forall (good_call31 rnd (good31 rnd) (good_header31 rnd) styles31 B) l -> Forall (good_call31 rnd (good31 rnd) (good_header31 rnd) styles31 B) l' ->
  Forall (fun x => call_agrees B meaning (snd x)) l -> NoDup (map place31 l) -> Permutation l l1 ->
  Forall2 (fun x x' => fst x' = fst x /\ call_varies (snd x) (snd x')) l1 l' ->
  marshal_text T31 num_text str_text (TNamed "Spec") (document31 base (fst (calls31 B r l))) =
  marshal_text T31 num_text str_text (TNamed "Spec") (document31 base (fst (calls31 B r l'))).
Proof.
  intros nt st rnd J base B meaning r l l1 l' OK GB W N G G' A ND P V.
  apply C93_same31; [exact OK|eapply single31; eassumption|eapply single31; eassumption|].
  apply (C99_document31 _ base B meaning r l l1 l'); try assumption.
  - destruct N as (_ & _ & N). rewrite N. intros n s E. discriminate E.
  - eapply Forall_impl; [|exact G]. intros oc H. exact (proj1 H).
Qed.

(* ---------- where the order matters ---------- *)

(* A JSON response whose reflection reports the definitions. *)
Definition sq_response {Sch} (status : Z) (defs : list (string * bool)) : cunit bool Sch :=
  mkCU false "" "" status false "" false None None false false false false false (fun _ => false) (Ret false)
    (fun _ => ([], Err)) (fun _ => ([], Ret false)) [] (Ret true) (defs, Ret true) ([], Ret None).
Definition sq_strict : backend bool sch31 :=
  mkBackend (fun b : bool => if b then Ret (ReadProps.rd_map b) else Err) (fun _ => None) (fun s => s) (fun _ _ => Ret None) (fun _ => [("type", JStr "string")]) true.

(* Two operations with different definitions of one name: the one added first
   decides what the name means. *)
Theorem C99_names30_refuted : exists (l l' : list (call30 bool osor)),
  Forall made30 l /\ NoDup (map place30 l) /\ Permutation l l' /\
  let r := calls30 (backend30 rd_schema) rd_refl30 l in let r' := calls30 (backend30 rd_schema) rd_refl30 l' in
  map snd (snd r) = [AOk; AOk] /\ map snd (snd r') = [AOk; AOk] /\ get "Out" (r30_comps (fst r)) <> get "Out" (r30_comps (fst r')).
Proof.
  exists [rd_oc30 "get" "/a" [] [sq_response 200 [("Out", true)]]; rd_oc30 "get" "/b" [] [sq_response 200 [("Out", false)]]],
         [rd_oc30 "get" "/b" [] [sq_response 200 [("Out", false)]]; rd_oc30 "get" "/a" [] [sq_response 200 [("Out", true)]]].
  split; [repeat (apply Forall_cons; [rd_made|]); apply Forall_nil|]. split; [repeat constructor; cbn; intuition discriminate|].
  split; [apply perm_swap|]. cbv zeta. split; [vm_compute; reflexivity|]. split; [vm_compute; reflexivity|]. vm_compute. discriminate.
Qed.
Theorem C99_names31_refuted : exists (l l' : list (call31 bool sch31)),
  Forall (fun x => made31 (snd x)) l /\ NoDup (map place31 l) /\ Permutation l l' /\
  let r := calls31 rd_backend31 rd_refl31 l in let r' := calls31 rd_backend31 rd_refl31 l' in
  map snd (snd r) = [AOk; AOk] /\ map snd (snd r') = [AOk; AOk] /\ get "Out" (r31_comps (fst r)) <> get "Out" (r31_comps (fst r')).
Proof.
  exists [(false, rd_oc31 "get" "/a" [] [sq_response 200 [("Out", true)]]); (false, rd_oc31 "get" "/b" [] [sq_response 200 [("Out", false)]])],
         [(false, rd_oc31 "get" "/b" [] [sq_response 200 [("Out", false)]]); (false, rd_oc31 "get" "/a" [] [sq_response 200 [("Out", true)]])].
  split; [repeat (apply Forall_cons; [cbn [snd]; rd_made|]); apply Forall_nil|]. split; [repeat constructor; cbn; intuition discriminate|].
  split; [apply perm_swap|]. cbv zeta. split; [vm_compute; reflexivity|]. split; [vm_compute; reflexivity|]. vm_compute. discriminate.
Qed.

(* One operation with a definition that cannot be converted: what is left in the
   document depends on the iteration order of the definitions. *)
Theorem C99_failing_refuted : exists (oc oc' : opctx bool sch31 (option (responses sch31))),
  made31 oc /\ call_varies oc oc' /\
  let r := calls31 sq_strict rd_refl31 [(false, oc)] in let r' := calls31 sq_strict rd_refl31 [(false, oc')] in
  map snd (snd r) = map snd (snd r') /\ map snd (snd r) <> [AOk] /\ keys (r31_comps (fst r)) <> keys (r31_comps (fst r')).
Proof.
  exists (rd_oc31 "get" "/a" [] [sq_response 200 [("A", true); ("B", false)]]), (rd_oc31 "get" "/a" [] [sq_response 200 [("B", false); ("A", true)]]).
  split; [rd_made|]. split.
  - constructor; try reflexivity; [constructor|]. constructor; [|constructor].
    constructor; try reflexivity.
    + intros tag. split; [reflexivity|]. cbn. constructor.
    + intros loc. split; [exact (es_end [] [] (Permutation_refl _))|reflexivity].
    + cbn. split; [apply perm_swap|reflexivity].
  - cbv zeta. split; [vm_compute; reflexivity|]. split; vm_compute; discriminate.
Qed.

(* Two operations at one place: the first one stays. *)
Theorem C99_places_refuted : exists (l l' : list (call30 bool osor)) meaning,
  Forall made30 l /\ Forall (call_agrees (backend30 rd_schema) meaning) l /\ Permutation l l' /\
  ~ same_refl30 (fst (calls30 (backend30 rd_schema) rd_refl30 l)) (fst (calls30 (backend30 rd_schema) rd_refl30 l')).
Proof.
  exists [rd_oc30 "get" "/a" [] [sq_response 200 []]; rd_oc30 "get" "/a" [] [sq_response 404 []]],
         [rd_oc30 "get" "/a" [] [sq_response 404 []]; rd_oc30 "get" "/a" [] [sq_response 200 []]], (fun _ => ONone).
  split; [repeat (apply Forall_cons; [rd_made|]); apply Forall_nil|]. split; [|split; [apply perm_swap|]].
  - repeat (apply Forall_cons; [|]); try apply Forall_nil; (split; [intros cu n j []|]); intros cu n j [<-|[]] H; exfalso; destruct H;
      cbn in *; try contradiction; try discriminate.
  - intros [[H _] _]. specialize (H "/a"). vm_compute in H. destruct H as [H _]. specialize (H "get"). vm_compute in H. discriminate H.
Qed.

(* ---------- examples ---------- *)

Definition sq_meaning30 (n : string) : osor :=
  match from_js (rd_schema (String.eqb n "Item" || String.eqb n "A")) with Some o => o | None => ONone end.
Definition sq_meaning31 (n : string) : sch31 := ReadProps.rd_map (String.eqb n "Item" || String.eqb n "A").

Lemma sq_reports {Sch} (cu : cunit bool Sch) n j :
  In cu [rd_request "" "multi"; rd_request "" "pipes"; rd_response 404; rd_response 200; sq_response 200 [("A", true); ("B", false)]] ->
  reports cu n j -> (n, j) = ("Item", true) \/ (n, j) = ("A", true) \/ (n, j) = ("Out", false) \/ (n, j) = ("B", false).
Proof.
  intros I H.
  assert (L : forall cf loc, In (EDef n j) (fst (v_params (rd_request (Sch := Sch) "" cf) loc)) -> (n, j) = ("Item", true)).
  { intros cf loc. cbn [rd_request v_params]. destruct (String.eqb loc "path"); [|destruct (String.eqb loc "query")]; cbn [fst In]; intros X.
    - destruct X as [X|[]]; discriminate X.
    - destruct X as [X|[X|[]]]; [injection X as <- <-; reflexivity|discriminate X].
    - destruct X. }
  assert (L' : forall cf loc q, In (EProp q) (fst (v_params (rd_request (Sch := Sch) "" cf) loc)) -> pr_json_defs q = []).
  { intros cf loc q. cbn [rd_request v_params]. destruct (String.eqb loc "path"); [|destruct (String.eqb loc "query")]; cbn [fst In]; intros X.
    - destruct X as [X|[]]; injection X as <-; reflexivity.
    - destruct X as [X|[X|[]]]; [discriminate X|injection X as <-; reflexivity].
    - destruct X. }
  destruct I as [<-|[<-|[<-|[<-|[<-|[]]]]]]; destruct H as [loc H|loc q H H'|tag s defs H H'|H];
    try (left; exact (L _ _ H)); try (rewrite (L' _ _ _ H) in H'; destruct H'); try discriminate H; cbn in H; try contradiction.
  - destruct H as [H|[]]. injection H as <- <-. tauto.
  - destruct H as [H|[]]. injection H as <- <-. tauto.
  - destruct H as [H|[H|[]]]; injection H as <- <-; tauto.
Qed.

Lemma sq_good30 defs : incl (map fst defs) ["A"; "B"] ->
  good_call30 idq (good30 idq schemav) (good30 idq schemav) styles30 (backend30 rd_schema) (rd_oc30 "get" "/b" [] [sq_response 200 defs]).
Proof.
  intros S. split; [rd_made|]. split; [apply matches_legal; reflexivity|]. split; [exact (rd_op30 idq)|]. split.
  - split; [apply Forall_nil|split].
    + apply Forall_cons; [|apply Forall_nil]. split; [right; cbn; lia|]. split; [intros q s [] |discriminate].
    + intros l1 cu l2 ct E _. destruct l1; discriminate E.
  - intros n j D. assert (I : In n ["A"; "B"]).
    { destruct D as [(cu & [] & _)|(cu & [<-|[]] & D)]; inversion D; subst; try discriminate. apply S. apply in_map_iff. exists (n, j). auto. }
    destruct I as [<-|[<-|[]]]; apply matches_legal; reflexivity.
Qed.

Definition sq_calls30 (defs : list (string * bool)) : list (call30 bool osor) :=
  [rd_oc30 "get" "/a/{id}" [rd_request "" "multi"] [rd_response 404]; rd_oc30 "put" "/a/{id}" [rd_request "" "pipes"] [rd_response 200];
   rd_oc30 "get" "/b" [] [sq_response 200 defs]].

Example C99_example30 :
  let l := sq_calls30 [("A", true); ("B", false)] in let l' := rev (sq_calls30 [("B", false); ("A", true)]) in
  Forall (good_call30 idq (good30 idq schemav) (good30 idq schemav) styles30 (backend30 rd_schema)) l /\
  Forall (good_call30 idq (good30 idq schemav) (good30 idq schemav) styles30 (backend30 rd_schema)) l' /\
  Forall (call_agrees (backend30 rd_schema) sq_meaning30) l /\ NoDup (map place30 l) /\
  (exists l1, Permutation l l1 /\ Forall2 call_varies l1 l') /\
  map snd (snd (calls30 (backend30 rd_schema) rd_refl30 l)) = [AOk; AOk; AOk] /\
  fst (calls30 (backend30 rd_schema) rd_refl30 l) <> fst (calls30 (backend30 rd_schema) rd_refl30 l') /\
  exists text, marshal_text T30 zero_num plain_str (TNamed "Spec") (document30 schemav rd_base30 (fst (calls30 (backend30 rd_schema) rd_refl30 l'))) = UOk text /\
    marshal_text T30 zero_num plain_str (TNamed "Spec") (document30 schemav rd_base30 (fst (calls30 (backend30 rd_schema) rd_refl30 l))) = UOk text.
Proof.
  cbv zeta.
  assert (G : forall defs, incl (map fst defs) ["A"; "B"] -> Forall (good_call30 idq (good30 idq schemav) (good30 idq schemav) styles30 (backend30 rd_schema)) (sq_calls30 defs)).
  { intros defs I. unfold sq_calls30. do 2 (apply Forall_cons; [apply rd_call30; [rd_made|apply matches_legal; reflexivity|lia]|]).
    apply Forall_cons; [|apply Forall_nil]. apply sq_good30. exact I. }
  split; [apply G; intros x H; exact H|]. split; [apply Forall_rev; apply G; intros x [H|[H|[]]]; subst; cbn; tauto|].
  split; [|split; [repeat constructor; cbn; intuition discriminate|]].
  - assert (A : forall cus, incl cus [rd_request "" "multi"; rd_request "" "pipes"; rd_response 404; rd_response 200; sq_response 200 [("A", true); ("B", false)]] ->
      units_agree (backend30 rd_schema) sq_meaning30 cus).
    { intros cus I cu n j Icu H. destruct (sq_reports cu n j (I cu Icu) H) as [E|[E|[E|E]]]; injection E as -> ->; reflexivity. }
    unfold sq_calls30. repeat (apply Forall_cons; [split; apply A; intros x I; cbn in *; intuition|]). apply Forall_nil.
  - split; [|split; [vm_compute; reflexivity|split; [vm_compute; discriminate|]]].
    + exists (rev (sq_calls30 [("A", true); ("B", false)])). split; [apply Permutation_rev|].
      unfold sq_calls30. cbn [rev app]. constructor; [|constructor; [apply varies_refl_call|constructor; [apply varies_refl_call|constructor]]].
      constructor; try reflexivity; [constructor|]. constructor; [|constructor]. constructor; try reflexivity.
      * intros tag. split; [reflexivity|]. cbn. constructor.
      * intros loc. split; [exact (es_end [] [] (Permutation_refl _))|reflexivity].
      * cbn. split; [apply perm_swap|reflexivity].
    + eexists. split; vm_compute; reflexivity.
Qed.

Definition sq_calls31 (defs : list (string * bool)) : list (call31 bool sch31) :=
  [(false, rd_oc31 "get" "/a/{id}" [rd_request "" "multi"] [rd_response 404]); (true, rd_oc31 "put" "/a/{id}" [rd_request "" "pipes"] [rd_response 200]);
   (false, rd_oc31 "get" "/b" [] [sq_response 200 defs])].

Example C99_example31 :
  let l := sq_calls31 [("A", true); ("B", false)] in let l' := rev (sq_calls31 [("B", false); ("A", true)]) in
  Forall (good_call31 idq (good31 idq) (good_header31 idq) styles31 rd_backend31) l /\
  Forall (good_call31 idq (good31 idq) (good_header31 idq) styles31 rd_backend31) l' /\
  Forall (fun x => call_agrees rd_backend31 sq_meaning31 (snd x)) l /\ NoDup (map place31 l) /\
  (exists l1, Permutation l l1 /\ Forall2 (fun x x' => fst x' = fst x /\ call_varies (snd x) (snd x')) l1 l') /\
  map snd (snd (calls31 rd_backend31 rd_refl31 l)) = [AOk; AOk; AOk] /\
  fst (calls31 rd_backend31 rd_refl31 l) <> fst (calls31 rd_backend31 rd_refl31 l').
Proof.
  cbv zeta.
  assert (G : forall defs, Forall (good_call31 idq (good31 idq) (good_header31 idq) styles31 rd_backend31) (sq_calls31 defs)).
  { intros defs. unfold sq_calls31. do 2 (apply Forall_cons; [apply rd_call31; [reflexivity|rd_made|intros _; apply matches_legal; reflexivity|lia]|]).
    apply Forall_cons; [|apply Forall_nil]. split; [cbn [snd]; rd_made|]. split; [intros _; apply matches_legal; reflexivity|]. split; [exact (rd_op31 idq)|].
    split; [apply Forall_nil|]. split.
    - apply Forall_cons; [|apply Forall_nil]. split; [right; cbn; lia|]. split; [intros q s []|discriminate].
    - intros l1 cu l2 ct E _. destruct l1; discriminate E. }
  split; [apply G|]. split; [apply Forall_rev; apply G|].
  split; [|split; [repeat constructor; cbn; intuition discriminate|]].
  - assert (A : forall cus, incl cus [rd_request "" "multi"; rd_request "" "pipes"; rd_response 404; rd_response 200; sq_response 200 [("A", true); ("B", false)]] ->
      units_agree rd_backend31 sq_meaning31 cus).
    { intros cus I cu n j Icu H. destruct (sq_reports cu n j (I cu Icu) H) as [E|[E|[E|E]]]; injection E as -> ->; reflexivity. }
    unfold sq_calls31. repeat (apply Forall_cons; [split; apply A; intros x I; cbn in *; intuition|]). apply Forall_nil.
  - split; [|split; [vm_compute; reflexivity|vm_compute; discriminate]].
    exists (rev (sq_calls31 [("A", true); ("B", false)])). split; [apply Permutation_rev|].
    unfold sq_calls31. cbn [rev app]. constructor; [|repeat (constructor; [split; [reflexivity|apply varies_refl_call]|]); constructor].
    split; [reflexivity|]. constructor; try reflexivity; [constructor|]. constructor; [|constructor]. constructor; try reflexivity.
    * intros tag. split; [reflexivity|]. cbn. constructor.
    * intros loc. split; [exact (es_end [] [] (Permutation_refl _))|reflexivity].
    * cbn. split; [apply perm_swap|reflexivity].
Qed.
