(* Theorems about builder methods on memory (C101, C102).  The proofs are in
   HeapProofs.v. *)
From Verif Require Import Str SMap Json CodecModel CodecTables CodecSpec BuildModel BuildTables BuildSpec BuildProofs UsedSpec HeapModel HeapSpec HeapProofs.

(* ---------- C101 ---------- *)

(* A chain that starts from a variable edits the document in this variable, all
   other values in memory stay. *)
Theorem C101_chain : forall P n lv v v', In P packages -> edited P n lv v v' ->
  forall h l F lw A, variable h l v F -> arguments h lw lv A -> NoDup (l :: F ++ A) ->
  exists h' r F', hchain (p_types P) (p_meths P) n lw (l, []) h = Some (h', r) /\ variable h' l v' F' /\
    (forall l0, In l0 F' -> In l0 (F ++ A) \/ length h <= l0) /\
    (forall w u G, holds_tree h w u G -> (forall x, In x G -> ~ In x (l :: F ++ A)) -> holds_tree h' w u G).
Proof. intros P n lv v v' HP Ed. exact (chain_variable P HP n lv v v' Ed). Qed.

(* Chains of selections of structs and of builder calls work for all values. *)
Theorem C101_total : forall P n l v, In P packages -> chained P n l -> typed (p_types P) (TNamed n) v ->
  exists v', edited P n l v v' /\ typed (p_types P) (TNamed n) v'.
Proof. intros P n l v HP C. exact (chain_total P HP n l C v). Qed.

(* ---------- C102 ---------- *)

(* A link changes the object with the receiver and the map that gets an entry. *)
Theorem C102_one_place : forall P n m a h s h' r, In P packages -> hmove (p_types P) (p_meths P) n m a h = Some (s, (h', r)) ->
  forall w v F, holds_tree h w v F -> (forall l, In l F -> ~ touches P n h a m l) -> holds_tree h' w v F.
Proof. intros P n m a h s h' r HP. exact (move_tree P HP n m a h s h' r). Qed.

(* Setters on a copy of a value change nothing that was there. *)
Theorem C102_copy : forall P n h w lc h0 l h' r, In P packages -> copied h w = (h0, lc) -> sets_fields l ->
  hchain (p_types P) (p_meths P) n l (lc, []) h0 = Some (h', r) ->
  forall w0 v F, holds_tree h w0 v F -> holds_tree h' w0 v F.
Proof. intros P n h w lc h0 l h' r HP. exact (copy_kept P HP n h w lc h0 l h' r). Qed.

(* Setters on a value that was an argument do not change the document. *)
Theorem C102_argument : forall P n f x y v v' h l F G lv, In P packages -> edited P n [With f y] v v' ->
  variable h l v F -> nth_error h lv = Some (OVal x) -> holds_tree h x y G -> NoDup (l :: F ++ G) -> ~ In lv (l :: F ++ G) ->
  exists h1 r F1, hchain (p_types P) (p_meths P) n [With f x] (l, []) h = Some (h1, r) /\ variable h1 l v' F1 /\
    forall s l2 h2 r2, sets_fields l2 -> hchain (p_types P) (p_meths P) s l2 (lv, []) h1 = Some (h2, r2) -> variable h2 l v' F1.
Proof. intros P n f x y v v' h l F G lv HP. exact (argument_kept P HP n f x y v v' h l F G lv). Qed.

(* ---------- cases ---------- *)

Ltac at_field := do 4 eexists; split; [reflexivity|]; split; [reflexivity|]; split; reflexivity.
Ltac set_at := split; [reflexivity|]; split; [reflexivity|]; let j := fresh "j" in let H := fresh "H" in
  intros j H; do 10 (destruct j as [|j]; [try reflexivity; exfalso; apply H; reflexivity|]); reflexivity.

(* spec.WithOpenapi("3.0.3").ComponentsEns().SecuritySchemesEns().WithMapOfSecuritySchemeOrRefValuesItem("key", s)
   for a new spec, where s refers to another scheme. *)
Definition new_spec : val := zero T30 LVL (TNamed "Spec").
Definition ref_scheme : val := VStruct [VPtr (VStruct [VStr "#/components/securitySchemes/other"]); VNil].
Definition memory : heap := [OVal (flat new_spec); OVal (HStruct [HStr "#/components/securitySchemes/other"])].
Definition secured : val := VStruct
  [VStr "3.0.3"; VStruct [VStr ""; VNil; VNil; VNil; VNil; VStr ""; VNil]; VNil; VNil; VNil; VNil; VStruct [VNil; VNil];
   VPtr (VStruct [VNil; VNil; VNil; VNil; VNil; VNil; VPtr (VStruct [VMap [("key", ref_scheme)]]); VNil; VNil; VNil]); VNil].
Definition secure (A : Type) (o : A) (s : A) : list (move A) :=
  [With "Openapi" o; Ens "Components"; Ens "SecuritySchemes"; Item "MapOfSecuritySchemeOrRefValues" "key" s].
Example C101_scheme_case :
  edited v30 "Spec" (secure val (VStr "3.0.3") ref_scheme) new_spec secured /\
  variable memory 0 new_spec [] /\
  arguments memory (secure hval (HStr "3.0.3") (HStruct [HPtr (1, []); HNil])) (secure val (VStr "3.0.3") ref_scheme) [1] /\
  NoDup ([0] ++ [1]) /\
  marshal T30 (TNamed "Spec") secured = Some (JObj [("openapi", JStr "3.0.3"); ("info", JObj [("title", JStr ""); ("version", JStr "")]); ("paths", JObj []);
    ("components", JObj [("securitySchemes", JObj [("key", JObj [("$ref", JStr "#/components/securitySchemes/other")])])])]).
Proof.
  split; [|split; [|split; [|split]]].
  - unfold secure. eapply ed_with with (i := 0) (t := TStr) (a := TStr) (w := VStr "3.0.3"); [at_field|reflexivity|reflexivity|left; auto|vm_compute; repeat constructor|apply set_updated; vm_compute; repeat constructor|].
    eapply ed_ens with (i := 7) (s := "Components") (w := zero T30 LVL (TNamed "Components")); [at_field|eexists _, _, _; reflexivity|right; split; reflexivity| |set_at].
    eapply ed_ens with (i := 6) (s := "ComponentsSecuritySchemes") (w := zero T30 LVL (TNamed "ComponentsSecuritySchemes")); [at_field|eexists _, _, _; reflexivity|right; split; reflexivity| |set_at].
    eapply ed_item with (i := 0) (v := VNil) (m := []); [at_field|reflexivity|left; auto|apply set_updated; vm_compute; repeat constructor|]. apply ed_done.
  - exists (flat new_spec). split; [reflexivity|]. split; [apply flat_zero|]. constructor; [intros []|constructor].
  - unfold secure. change [1] with ([] ++ ([1] ++ []) ++ []). apply ar_with; [constructor|]. apply ar_ens. apply ar_ens. 
    apply ar_item; [|constructor]. apply ht_struct. apply (hl_cons _ _ _ [1] _ _ []); [|apply (hl_cons _ _ _ [] _ _ []); constructor].
    apply (ht_ptr _ 1 (HStruct [HStr "#/components/securitySchemes/other"]) _ []); [reflexivity|]. apply ht_struct. apply (hl_cons _ _ _ [] _ _ []); constructor.
  - repeat constructor; cbn; intuition discriminate.
  - vm_compute. reflexivity.
Qed.

(* spec.Info.WithTitle("API").WithDescription("text").ContactEns().WithName("me") for 3.1. *)
Definition describe (A : Type) (s : string -> A) : list (move A) :=
  [Sel "Info"; With "Title" (s "API"); With "Description" (s "text"); Ens "Contact"; With "Name" (s "me")].
Example C101_info_case :
  chained v31 "Spec" (describe val VStr) /\ typed T31 (TNamed "Spec") (zero T31 LVL (TNamed "Spec")) /\
  exists h r, hchain T31 M31 "Spec" (describe hval HStr) (0, []) [OVal (flat (zero T31 LVL (TNamed "Spec")))] = Some (h, r) /\
    read h (0, [1; 0]) = Some (HStr "API") /\ read h r = Some (HStruct [HPtr (3, []); HNil; HNil; HNil]) /\ read h (3, []) = Some (HStr "me").
Proof.
  split; [|split].
  - unfold describe. eapply ch_sel with (i := 1) (s := "Info"); [at_field|do 3 eexists; reflexivity|].
    eapply ch_with with (i := 0) (t := TStr) (a := TStr); [at_field|reflexivity|reflexivity|constructor|].
    eapply ch_with with (i := 2) (t := TPtr TStr) (a := TStr); [at_field|reflexivity|reflexivity|constructor|].
    eapply ch_ens with (i := 4) (s := "Contact"); [at_field|do 3 eexists; reflexivity|].
    eapply ch_with with (i := 0) (t := TPtr TStr) (a := TStr); [at_field|reflexivity|reflexivity|constructor|]. apply ch_nil.
  - apply (zero_struct v31 (or_intror (or_introl eq_refl))). do 3 eexists. reflexivity.
  - do 2 eexists. split; [vm_compute; reflexivity|]. vm_compute. repeat split.
Qed.

(* A server in a variable, a copy of it, and a document. *)
Definition server (u : string) : val := VStruct [VStr u; VNil; VNil; VNil].
Definition hserver (u : string) (m : hval) : hval := HStruct [HStr u; HNil; HNil; m].
Example C102_copy_case :
  sets_fields [With "URL" (HStr "/b"); With "Description" (HStr "text")] /\
  holds_tree [OVal (hserver "/a" HNil)] (hserver "/a" HNil) (server "/a") [] /\
  copied [OVal (hserver "/a" HNil)] (hserver "/a" HNil) = ([OVal (hserver "/a" HNil); OVal (hserver "/a" HNil)], 1) /\
  hchain T30 M30 "Server" [With "URL" (HStr "/b"); With "Description" (HStr "text")] (1, []) [OVal (hserver "/a" HNil); OVal (hserver "/a" HNil)] =
    Some ([OVal (hserver "/a" HNil); OVal (HStruct [HStr "/b"; HPtr (2, []); HNil; HNil]); OVal (HStr "text")], (1, [])).
Proof.
  split; [intros m [<-|[<-|[]]]; eauto|]. split; [|split; vm_compute; reflexivity].
  apply ht_struct. repeat (apply (hl_cons _ _ _ [] _ _ []); [constructor|]). constructor.
Qed.

(* info in a variable, spec.WithInfo(info), then info.WithTitle(...). *)
Definition hinfo (t : string) (c : hval) : hval := HStruct [HStr t; HNil; HNil; c; HNil; HStr "1"; HNil].
Definition vinfo (t : string) (c : val) : val := VStruct [VStr t; VNil; VNil; c; VNil; VStr "1"; VNil].
Definition with_info (i : val) : val := VStruct [VStr ""; i; VNil; VNil; VNil; VNil; VStruct [VNil; VNil]; VNil; VNil].
Example C102_argument_case :
  edited v30 "Spec" [With "Info" (vinfo "API" VNil)] new_spec (with_info (vinfo "API" VNil)) /\
  variable [OVal (flat new_spec); OVal (hinfo "API" HNil)] 0 new_spec [] /\
  holds_tree [OVal (flat new_spec); OVal (hinfo "API" HNil)] (hinfo "API" HNil) (vinfo "API" VNil) [] /\
  exists h1 h2 r1 r2, hchain T30 M30 "Spec" [With "Info" (hinfo "API" HNil)] (0, []) [OVal (flat new_spec); OVal (hinfo "API" HNil)] = Some (h1, r1) /\
    hchain T30 M30 "Info" [With "Title" (HStr "Other")] (1, []) h1 = Some (h2, r2) /\
    read h2 (0, [1; 0]) = Some (HStr "API") /\ read h2 (1, [0]) = Some (HStr "Other").
Proof.
  split; [|split; [|split]].
  - eapply ed_with with (i := 1) (t := TNamed "Info") (a := TNamed "Info") (w := vinfo "API" VNil);
      [at_field|reflexivity|reflexivity|left; auto|vm_compute; repeat constructor|apply set_updated; vm_compute; repeat constructor|]. apply ed_done.
  - exists (flat new_spec). split; [reflexivity|]. split; [apply flat_zero|]. constructor; [intros []|constructor].
  - apply ht_struct. repeat (apply (hl_cons _ _ _ [] _ _ []); [constructor|]). constructor.
  - do 4 eexists. split; [vm_compute; reflexivity|]. split; [vm_compute; reflexivity|]. vm_compute. split; reflexivity.
Qed.

(* An entry set on a copy changes the map of the original: of all objects in
   memory the call touches the copy and this map. *)
Definition shared : heap := [OVal (hserver "/a" (HMap 1)); OMap [("x-a", HAny (JNum 1))]].
Definition server_with (m : list (string * val)) : val := VStruct [VStr "/a"; VNil; VNil; VMap m].
Lemma server_variable h m ms : holds_entries h ms m [] -> forall l, l <> 0 -> nth_error h 0 = Some (OVal (hserver "/a" (HMap l))) -> nth_error h l = Some (OMap ms) ->
  variable h 0 (server_with m) [l].
Proof.
  intros H l Ne E0 E1. exists (hserver "/a" (HMap l)). split; [exact E0|]. split.
  - apply ht_struct. apply (hl_cons _ _ _ [] _ _ [l]); [constructor|]. apply (hl_cons _ _ _ [] _ _ [l]); [constructor|]. apply (hl_cons _ _ _ [] _ _ [l]); [constructor|].
    apply (hl_cons _ _ _ [l] _ _ []); [|constructor]. eapply ht_map; eassumption.
  - constructor; [intros [X|[]]; exact (Ne X)|]. constructor; [intros []|constructor].
Qed.
Theorem C102_copied_map_refuted : exists h h0 h' w lc r v v' F, variable h 0 v F /\ nth_error h 0 = Some (OVal w) /\ copied h w = (h0, lc) /\
  hchain T30 M30 "Server" [Item "MapOfAnything" "x-b" (HAny (JNum 2))] (lc, []) h0 = Some (h', r) /\ variable h' 0 v' F /\ v' <> v.
Proof.
  exists shared. do 5 eexists. exists (server_with [("x-a", VAny (JNum 1))]), (server_with [("x-a", VAny (JNum 1)); ("x-b", VAny (JNum 2))]), [1].
  split; [apply (server_variable _ _ [("x-a", HAny (JNum 1))]); [apply (he_cons _ _ _ _ [] _ _ []); constructor|discriminate|reflexivity|reflexivity]|].
  split; [reflexivity|]. split; [reflexivity|]. split; [vm_compute; reflexivity|]. split; [|discriminate].
  apply (server_variable _ _ [("x-a", HAny (JNum 1)); ("x-b", HAny (JNum 2))]); [|discriminate|reflexivity|reflexivity].
  apply (he_cons _ _ _ _ [] _ _ []); [constructor|]. apply (he_cons _ _ _ _ [] _ _ []); constructor.
Qed.
Example C102_one_place_case : exists s h' r, hmove T30 M30 "Server" (Item "MapOfAnything" "x-b" (HAny (JNum 2))) (0, []) shared = Some (s, (h', r)) /\
  touches v30 "Server" shared (0, []) (Item "MapOfAnything" "x-b" (HAny (JNum 2))) 0 /\
  touches v30 "Server" shared (0, []) (Item "MapOfAnything" "x-b" (HAny (JNum 2))) 1 /\
  (forall l, touches v30 "Server" shared (0, []) (Item "MapOfAnything" "x-b" (HAny (JNum 2))) l -> l = 0 \/ l = 1).
Proof.
  do 3 eexists. split; [vm_compute; reflexivity|]. split; [apply to_receiver|]. split.
  - eapply to_map with (i := 3); [at_field|reflexivity].
  - intros l H. inversion H as [|f i t key x l0 HF R]; [left; reflexivity|]. right. subst. destruct HF as (fs & parts & d & fd & Eg & Ei & Ef & _).
    injection Eg as <- <- <-. destruct i as [|[|[|[|i]]]]; cbn in Ei.
    1-3: injection Ei as <-; discriminate Ef.
    + cbn in R. injection R as <-. reflexivity.
    + destruct i; discriminate Ei.
Qed.

(* The elements of a slice that was an argument are those of the document. *)
Definition with_servers (l : list val) : val :=
  VStruct [VStr ""; VStruct [VStr ""; VNil; VNil; VNil; VNil; VStr ""; VNil]; VNil; VArr l; VNil; VNil; VStruct [VNil; VNil]; VNil; VNil].
Lemma servers_variable h u : nth_error h 0 = Some (OVal (HStruct [HStr ""; HStruct [HStr ""; HNil; HNil; HNil; HNil; HStr ""; HNil]; HNil; HArr 1; HNil; HNil; HStruct [HNil; HNil]; HNil; HNil])) ->
  nth_error h 1 = Some (OVal (HStruct [hserver u HNil])) -> variable h 0 (with_servers [server u]) [1].
Proof.
  intros E0 E1. eexists. split; [exact E0|]. split; [|constructor; [intros [X|[]]; discriminate X|constructor; [intros []|constructor]]].
  apply ht_struct. apply (hl_cons _ _ _ [] _ _ [1]); [constructor|]. apply (hl_cons _ _ _ [] _ _ [1]).
  { apply ht_struct. repeat (apply (hl_cons _ _ _ [] _ _ []); [constructor|]). constructor. }
  apply (hl_cons _ _ _ [] _ _ [1]); [constructor|]. apply (hl_cons _ _ _ [1] _ _ []).
  - eapply ht_arr; [exact E1|]. apply (hl_cons _ _ _ [] _ _ []); [|constructor]. apply ht_struct. repeat (apply (hl_cons _ _ _ [] _ _ []); [constructor|]). constructor.
  - apply (hl_cons _ _ _ [] _ _ []); [constructor|]. apply (hl_cons _ _ _ [] _ _ []); [constructor|]. apply (hl_cons _ _ _ [] _ _ []).
    { apply ht_struct. repeat (apply (hl_cons _ _ _ [] _ _ []); [constructor|]). constructor. }
    repeat (apply (hl_cons _ _ _ [] _ _ []); [constructor|]). constructor.
Qed.
Theorem C102_argument_slice_refuted : exists h h1 h2 r1 r2 v v1 v2 F, variable h 0 v F /\
  hchain T30 M30 "Spec" [With "Servers" (HArr 1)] (0, []) h = Some (h1, r1) /\ variable h1 0 v1 [1] /\
  hchain T30 M30 "Server" [With "URL" (HStr "/b")] (1, [0]) h1 = Some (h2, r2) /\ variable h2 0 v2 [1] /\ v2 <> v1.
Proof.
  exists [OVal (flat new_spec); OVal (HStruct [hserver "/a" HNil])]. do 4 eexists. exists new_spec, (with_servers [server "/a"]), (with_servers [server "/b"]), [].
  split. { exists (flat new_spec). split; [reflexivity|]. split; [apply flat_zero|]. constructor; [intros []|constructor]. }
  split; [vm_compute; reflexivity|]. split; [apply servers_variable; reflexivity|].
  split; [vm_compute; reflexivity|]. split; [apply servers_variable; reflexivity|]. discriminate.
Qed.

(* What a pointer of an argument points to is part of the document. *)
Lemma info_variable h c : nth_error h 0 = Some (OVal (HStruct [HStr ""; hinfo "API" (HPtr (2, [])); HNil; HNil; HNil; HNil; HStruct [HNil; HNil]; HNil; HNil])) ->
  forall w F, nth_error h 2 = Some (OVal w) -> holds_tree h w c F -> NoDup (0 :: 2 :: F) -> variable h 0 (with_info (vinfo "API" (VPtr c))) (2 :: F).
Proof.
  intros E0 w F E2 H N. eexists. split; [exact E0|]. split; [|exact N]. replace (2 :: F) with ([] ++ (2 :: F) ++ []) by (cbn; rewrite app_nil_r; reflexivity).
  apply ht_struct. apply hl_cons; [constructor|]. apply hl_cons.
  { replace (2 :: F) with ([] ++ [] ++ [] ++ (2 :: F) ++ []) by (cbn; rewrite app_nil_r; reflexivity). apply ht_struct.
    do 3 (apply hl_cons; [constructor|]). apply hl_cons; [eapply ht_ptr; eassumption|]. repeat (apply (hl_cons _ _ _ [] _ _ []); [constructor|]). constructor. }
  do 4 (apply (hl_cons _ _ _ [] _ _ []); [constructor|]). apply (hl_cons _ _ _ [] _ _ []).
  { apply ht_struct. repeat (apply (hl_cons _ _ _ [] _ _ []); [constructor|]). constructor. }
  repeat (apply (hl_cons _ _ _ [] _ _ []); [constructor|]). constructor.
Qed.
Theorem C102_argument_pointer_refuted : exists h h1 h2 x r1 r2 v v1 v2 F F2, variable h 0 v F /\ nth_error h 1 = Some (OVal x) /\
  hchain T30 M30 "Spec" [With "Info" x] (0, []) h = Some (h1, r1) /\ variable h1 0 v1 [2] /\
  hchain T30 M30 "Info" [Ens "Contact"; With "Name" (HStr "me")] (1, []) h1 = Some (h2, r2) /\ variable h2 0 v2 F2 /\ v2 <> v1.
Proof.
  exists [OVal (flat new_spec); OVal (hinfo "API" (HPtr (2, []))); OVal (HStruct [HNil; HNil; HNil; HNil])]. do 5 eexists.
  exists new_spec, (with_info (vinfo "API" (VPtr (VStruct [VNil; VNil; VNil; VNil])))), (with_info (vinfo "API" (VPtr (VStruct [VPtr (VStr "me"); VNil; VNil; VNil])))), [], [2; 3].
  split. { exists (flat new_spec). split; [reflexivity|]. split; [apply flat_zero|]. constructor; [intros []|constructor]. }
  split; [reflexivity|]. split; [vm_compute; reflexivity|]. split.
  { eapply info_variable; [reflexivity|reflexivity| |repeat constructor; cbn; intuition discriminate].
    apply ht_struct. repeat (apply (hl_cons _ _ _ [] _ _ []); [constructor|]). constructor. }
  split; [vm_compute; reflexivity|]. split; [|discriminate].
  eapply info_variable; [reflexivity|reflexivity| |repeat constructor; cbn; intuition discriminate].
  apply ht_struct. apply (hl_cons _ _ _ [3] _ _ []); [eapply ht_ptr; [reflexivity|constructor]|]. repeat (apply (hl_cons _ _ _ [] _ _ []); [constructor|]). constructor.
Qed.

(* ---------- assumptions ---------- *)

Print Assumptions C101_chain.
Print Assumptions C101_total.
Print Assumptions C102_one_place.
Print Assumptions C102_copy.
Print Assumptions C102_argument.
Print Assumptions C102_copied_map_refuted.
Print Assumptions C102_argument_slice_refuted.
Print Assumptions C102_argument_pointer_refuted.
