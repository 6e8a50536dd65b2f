(* Theorems about the schemas that operations show and the references in them. *)
From Coq Require Import ZArith Lia.
From Verif Require Import Str SMap Json PathModel PathSpec PathProofs PathProps Types RegistryModel RegistrySpec RegistryProofs
  ReflectModel ReflectSpec ReflectProofs ReflectProofs2 ReflectComps ReflectProps BodySpec BodyProofs BodyComps BodyProps
  SchemaModel SchemaProofs ReadModel ReadProps RefSpec RefProofs.

(* ---------- C84: where the schemas of an operation come from ---------- *)

Theorem C84_origin : forall (J Sch : Type) (B : backend J Sch) cl v s,
  documented B cl v -> (forall cu, In cu (c_req cl ++ c_resp cl) -> customs_keep cu) -> shows v s ->
  shows (c_view cl) s \/ made_of B (c_method cl) (c_req cl) (c_resp cl) s.
Proof.
  intros J Sch B cl v s D K S. apply (documented_shows B cl v s D); [| |exact S]; apply Forall_forall; intros cu I; apply K, in_or_app; auto.
Qed.

(* ---------- C85: no reference leads nowhere ---------- *)

Lemma all_opt_in {A C} (f : A -> option C) l l' y : all_opt f l = Some l' -> In y l' -> exists x, In x l /\ f x = Some y.
Proof.
  revert l'. induction l as [|a l IH]; cbn [all_opt]; intros l' H I; [injection H as <-; destruct I|].
  destruct (f a) as [b|] eqn:E; [|discriminate]. fold (@all_opt A C f) in H. destruct (all_opt f l) as [r|]; [|discriminate]. injection H as <-.
  destruct I as [<-|I]; [exists a; split; [left; reflexivity|exact E]|]. destruct (IH r eq_refl I) as (x & Ix & Ex). exists x. split; [right; exact Ix|exact Ex].
Qed.
Lemma all_props_in {A C} (f : A -> option C) l l' k y : all_props f l = Some l' -> In (k, y) l' -> exists x, In (k, x) l /\ f x = Some y.
Proof.
  revert l'. induction l as [|[k0 a] l IH]; cbn [all_props]; intros l' H I; [injection H as <-; destruct I|].
  destruct (f a) as [b|] eqn:E; [|discriminate]. fold (@all_props A C f) in H. destruct (all_props f l) as [r|]; [|discriminate]. injection H as <-.
  destruct I as [X|I]; [injection X as <- <-; exists a; split; [left; reflexivity|exact E]|].
  destruct (IH r eq_refl I) as (x & Ix & Ex). exists x. split; [right; exact Ix|exact Ex].
Qed.
Lemma opt_opt_in {A C} (f : A -> option C) x y : opt_opt f x = Some (Some y) -> exists a, x = Some a /\ f a = Some y.
Proof. destruct x as [a|]; cbn [opt_opt]; [|discriminate]. destruct (f a) eqn:E; [|discriminate]. intros H. injection H as <-. eauto. Qed.

Lemma plain_refers_not a n : ~ o_refers (sch0 a) n.
Proof. intros H. inversion H; subst; repeat match goal with X : In _ [] |- _ => destruct X end. Qed.

Lemma from_js_refers s : forall o n, from_js s = Some o -> o_refers o n -> j_refers s n.
Proof.
  induction s as [|b|a r nt al on an it tu pr ad ot Hnt Hal Hon Han Hit Htu Hpr Had _] using jsob_ind'; intros o n H R.
  - discriminate H.
  - cbn [from_js] in H. injection H as <-. exfalso. destruct b; [exact (plain_refers_not _ _ R)|].
    inversion R; subst; repeat match goal with X : In _ [] |- _ => destruct X end. match goal with X : o_refers (sch0 _) _ |- _ => exact (plain_refers_not _ _ X) end.
  - destruct r as [r|].
    + cbn [from_js] in H. injection H as <-. destruct (is_true (ja_deprecated a)).
      * unfold with_allof_deprecated in R. inversion R; subst; repeat match goal with X : In _ [] |- _ => destruct X end.
        match goal with X : In _ _ |- _ => destruct X as [<-|[<-|[]]] end; [exfalso; eapply plain_refers_not; eassumption|].
        match goal with X : o_refers (ORef _) _ |- _ => inversion X; subst end. apply jr_ref.
      * inversion R; subst. apply jr_ref.
    + cbn [from_js] in H. rewrite Forall_forall in Hal, Hon, Han, Hpr.
      destruct (opt_opt from_js nt) as [nt'|] eqn:E1; [|discriminate H].
      destruct (all_opt from_js on) as [on'|] eqn:E2; [|discriminate H].
      destruct (all_opt from_js an) as [an'|] eqn:E3; [|discriminate H].
      destruct (all_opt from_js al) as [al'|] eqn:E4; [|discriminate H]. cbv zeta in H.
      match type of H with match ?x with _ => _ end = _ => destruct x as [ad'|] eqn:E5 end; [|discriminate H].
      destruct (opt_opt from_js it) as [it'|] eqn:E6; [|discriminate H].
      destruct (all_props from_js pr) as [pr'|] eqn:E7; [|discriminate H]. injection H as <-.
      inversion R; clear R; subst.
      * apply opt_opt_in in E1. destruct E1 as (x0 & -> & F). apply jr_not. match goal with X : o_refers _ n |- _ => exact (Hnt x0 eq_refl x n F X) end.
      * match goal with X : In _ _, Y : o_refers _ n |- _ => rename X into IX, Y into RX end. destruct (all_opt_in _ _ _ _ E4 IX) as (x0 & I & F). eapply jr_all; [exact I|]. exact (Hal x0 I x n F RX).
      * match goal with X : In _ _, Y : o_refers _ n |- _ => rename X into IX, Y into RX end. destruct (all_opt_in _ _ _ _ E2 IX) as (x0 & I & F). eapply jr_one; [exact I|]. exact (Hon x0 I x n F RX).
      * match goal with X : In _ _, Y : o_refers _ n |- _ => rename X into IX, Y into RX end. destruct (all_opt_in _ _ _ _ E3 IX) as (x0 & I & F). eapply jr_any; [exact I|]. exact (Han x0 I x n F RX).
      * apply opt_opt_in in E6. destruct E6 as (x0 & -> & F). apply jr_items. match goal with X : o_refers _ n |- _ => exact (Hit x0 eq_refl x n F X) end.
      * match goal with X : In _ _, Y : o_refers _ n |- _ => rename X into IX, Y into RX end. destruct (all_props_in _ _ _ _ _ E7 IX) as (x0 & I & F). eapply jr_prop; [exact I|]. exact (Hpr (k, x0) I x n F RX).
      * destruct ad as [[|b0|a0 r0 nt0 al0 on0 an0 it0 tu0 pr0 ad0 ot0]|]; try discriminate E5.
        destruct (from_js (JSObj a0 r0 nt0 al0 on0 an0 it0 tu0 pr0 ad0 ot0)) as [y|] eqn:F; [|discriminate E5].
        injection E5 as <- <-. apply jr_addl. match goal with X : o_refers _ n |- _ => exact (Had _ eq_refl y n F X) end.
Qed.

(* The conversions of the 3.0 reflector add no references. *)
Theorem C85_conversion_30 : forall (J : Type) (schema : J -> jsob),
  adds_no_references (fun j => j_refers (schema j)) o_refers (backend30 schema).
Proof.
  intros J schema. split; [|split].
  - intros j s n. cbn [backend30 b_conv]. destruct (from_js (schema j)) as [o|] eqn:E; [|discriminate]. intros X R. injection X as <-.
    exact (from_js_refers _ _ _ E R).
  - intros s n R. cbn [backend30 b_unnull] in R. destruct s as [|r|a nt al on an it pr ad]; try exact R.
    cbn [unnull30] in R. inversion R; subst; [eapply or_not|eapply or_all|eapply or_one|eapply or_any|eapply or_items|eapply or_prop|eapply or_addl]; eassumption.
  - intros f n. apply plain_refers_not.
Qed.

Section Resolve.
  Context {J Sch : Type}.
  Variable mj : J -> string -> Prop.
  Variable ms : Sch -> string -> Prop.
  Variable B : backend J Sch.
  Hypothesis AR : adds_no_references mj ms B.

  Lemma resolves_grows c c' s : grows c c' -> resolves ms c s -> resolves ms c' s.
  Proof.
    intros G R n M. destruct (R n M) as [t T]. apply keys_some. apply G. exact (some_keys _ _ _ T).
  Qed.

  (* What a successful call documents. *)
  Lemma documented_resolves cl v c : documented B cl v -> openapi_method (c_method cl) ->
    (forall s n, shows (c_view cl) s -> ~ ms s n) -> (forall cu, In cu (c_req cl ++ c_resp cl) -> whole_unit mj B cu) ->
    (forall n j, call_def (c_method cl) (c_req cl) (c_resp cl) n j -> In n (keys c)) ->
    forall s, shows v s -> resolves ms c s.
  Proof.
    intros D OM N W R s S n M.
    destruct (C84_origin _ _ _ _ _ _ D (fun cu I => proj2 (proj2 (proj2 (proj2 (W cu I))))) S) as [X|X]; [destruct (N s n X M)|].
    destruct (shown_reported mj ms B AR _ _ _ _ _ OM W X M) as [j CD]. apply keys_some. exact (R n j CD).
  Qed.

  Lemma step_sound30 r oc : made30 oc -> whole_call mj ms B (fun x => x) oc -> sound30 ms r -> sound30 ms (rstep30 B r oc).
  Proof.
    intros M [N W] [C D]. unfold rstep30. destruct (reflector_add30 B r oc) as [[r' oc'] a] eqn:E. cbn [fst].
    pose proof (made30_ok oc M) as (OM & _).
    assert (G : grows (r30_comps r) (r30_comps r')) by (pose proof E as E0; apply add30_cases in E0; apply E0).
    split.
    - unfold reflector_add30 in E. destruct (setup_oc30 B (r30_comps r) oc) as [[c o] x] eqn:S.
      apply (setup_oc_closed mj ms B AR) in S; [|exact W].
      destruct x; [destruct (add_operation30 _ _ _ _)|..]; injection E as <- <- <-; exact (S C).
    - assert (OLD : forall p m o s, doc30 (r30_paths r) p m = Some o -> shows (view30 o) s -> resolves ms (r30_comps r') s)
        by (intros p m o s Do S; exact (resolves_grows _ _ _ G (D p m o s Do S))).
      assert (AD : a = AOk \/ a <> AOk) by (destruct a; [left; reflexivity|right; discriminate..]). destruct AD as [->|NA].
      + destruct (C15_success_adds_one_30 _ _ _ _ _ _ _ M E) as (_ & o & A1 & A2 & _). intros p m o' s Do S.
        destruct (String.eqb_spec p (oc_path oc)) as [->|NP]; [destruct (String.eqb_spec m (oc_method oc)) as [->|NM]|].
        * refine (documented_resolves _ _ _ (doc_30 B r oc r' oc' o' M E Do) OM N W _ s S). cbn [c_method c_req c_resp].
          intros n j CD. exact (proj1 (C77_registered_30 _ _ _ _ _ _ _ n j M E CD)).
        * rewrite A2 in Do by congruence. exact (OLD _ _ _ _ Do S).
        * rewrite A2 in Do by congruence. exact (OLD _ _ _ _ Do S).
      + destruct (C26_failure_30 _ _ _ _ _ _ _ _ E NA) as [-> _]. exact OLD.
  Qed.

  Lemma step_sound31 r a : made31 (snd a) -> whole_call mj ms B ens (snd a) -> sound31 ms r -> sound31 ms (rstep31 B r a).
  Proof.
    destruct a as [hook oc]. cbn [fst snd]. intros M [N W] (C & D & H). unfold rstep31. cbn [fst snd].
    pose proof (made31_ok oc M) as (OM & _). destruct hook.
    - destruct (reflector_webhook31 B r oc) as [[r' oc'] a] eqn:E. cbn [fst].
      pose proof E as E0. apply hook31_cases in E0. destruct E0 as [G CS]. split.
      { unfold reflector_webhook31 in E. destruct (setup_oc31 B (r31_comps r) oc) as [[c o] x] eqn:S.
        apply (setup_oc_closed mj ms B AR) in S; [|exact W].
        destruct x; [destruct (add_webhook31 _ _ _ _)|..]; injection E as <- <- <-; exact (S C). }
      assert (OLD : forall p m o s, doc31 (r31_paths r) p m = Some o -> shows (view31 o) s -> resolves ms (r31_comps r') s)
        by (intros p m o s Do S; exact (resolves_grows _ _ _ G (D p m o s Do S))).
      assert (OLDH : forall p m o s, hook31 (r31_paths r) p m = Some o -> shows (view31 o) s -> resolves ms (r31_comps r') s)
        by (intros p m o s Do S; exact (resolves_grows _ _ _ G (H p m o s Do S))).
      destruct CS as [(_ & ->)|(-> & o & A)]; [split; assumption|].
      apply webhook_cases in A.
      destruct A as [(i & _ & _ & X)|[(_ & _ & _ & X)|(m & pi & _ & OM' & MI & _ & SI & _ & SW & _ & SL)]]; [discriminate X..|].
      split.
      + intros p m' o' s Do. unfold doc31 in Do. rewrite SI in Do. apply (OLD p m' o' s). exact Do.
      + intros p m' o' s Do S. destruct (String.eqb_spec p (oc_path oc)) as [->|NP].
        * assert (EM : m' = oc_method oc).
          { unfold hook31 in Do. rewrite SW, get_put_same, SL in Do. destruct (String.eqb_spec m' m) as [->|]; [|discriminate Do].
            apply (lower_of_method _ _ OM') in MI. rewrite (to_lower_fix _ OM) in MI. symmetry. exact MI. }
          subst m'. refine (documented_resolves _ _ _ (doc_hook B r oc r' oc' o' M E Do) OM N W _ s S). cbn [c_method c_req c_resp].
          intros n j CD. exact (proj1 (C77_registered_31 _ _ _ _ _ _ _ n j M (or_intror E) CD)).
        * unfold hook31 in Do. rewrite SW, get_put in Do. apply String.eqb_neq in NP. rewrite NP in Do. apply (OLDH p m' o' s); [exact Do|exact S].
    - destruct (reflector_add31 B r oc) as [[r' oc'] a] eqn:E. cbn [fst].
      pose proof E as E0. apply add31_cases' in E0; [|apply (made31_ok oc M)]. destruct E0 as [G CS]. split.
      { unfold reflector_add31 in E. destruct (setup_oc31 B (r31_comps r) oc) as [[c o] x] eqn:S.
        apply (setup_oc_closed mj ms B AR) in S; [|exact W].
        destruct x; [destruct (add_operation31 _ _ _ _)|..]; injection E as <- <- <-; exact (S C). }
      assert (OLD : forall p m o s, doc31 (r31_paths r) p m = Some o -> shows (view31 o) s -> resolves ms (r31_comps r') s)
        by (intros p m o s Do S; exact (resolves_grows _ _ _ G (D p m o s Do S))).
      assert (OLDH : forall p m o s, hook31 (r31_paths r) p m = Some o -> shows (view31 o) s -> resolves ms (r31_comps r') s)
        by (intros p m o s Do S; exact (resolves_grows _ _ _ G (H p m o s Do S))).
      destruct CS as [(_ & S1 & _ & _ & S4)|(-> & _)].
      + split; [intros p m o s Do; rewrite S4 in Do; exact (OLD p m o s Do)|].
        intros p m o s Do. apply (OLDH p m o s). unfold hook31 in *. rewrite <- S1. exact Do.
      + destruct (C15_success_adds_one_31 _ _ _ _ _ _ _ M E) as (_ & o & A1 & A2 & _ & A4 & _). split.
        * intros p m o' s Do S.
          destruct (String.eqb_spec p (oc_path oc)) as [->|NP]; [destruct (String.eqb_spec m (oc_method oc)) as [->|NM]|].
          -- refine (documented_resolves _ _ _ (doc_31 B r oc r' oc' o' M E Do) OM N W _ s S). cbn [c_method c_req c_resp].
             intros n j CD. exact (proj1 (C77_registered_31 _ _ _ _ _ _ _ n j M (or_introl E) CD)).
          -- rewrite A2 in Do by congruence. exact (OLD _ _ _ _ Do S).
          -- rewrite A2 in Do by congruence. exact (OLD _ _ _ _ Do S).
        * intros p m o' s Do. apply (OLDH p m o' s). unfold hook31 in *. rewrite <- A4. exact Do.
  Qed.
End Resolve.

(* In any history of calls, failing ones included. *)
Theorem C85_history_30 : forall (J Sch : Type) (B : backend J Sch) mj ms l r,
  adds_no_references mj ms B -> Forall made30 l -> Forall (whole_call mj ms B (fun x => x)) l ->
  sound30 ms r -> sound30 ms (rrun30 B r l).
Proof.
  intros J Sch B mj ms l r AR. revert r. unfold rrun30. induction l as [|oc l IH]; intros r M W S; cbn [fold_left]; [exact S|].
  inversion M as [|? ? M1 M2]; inversion W as [|? ? W1 W2]; subst. apply IH; [exact M2|exact W2|]. exact (step_sound30 mj ms B AR r oc M1 W1 S).
Qed.

Theorem C85_history_31 : forall (J Sch : Type) (B : backend J Sch) mj ms l r,
  adds_no_references mj ms B -> Forall (fun a => made31 (snd a)) l -> Forall (fun a => whole_call mj ms B ens (snd a)) l ->
  sound31 ms r -> sound31 ms (rrun31 B r l).
Proof.
  intros J Sch B mj ms l r AR. revert r. unfold rrun31. induction l as [|oc l IH]; intros r M W S; cbn [fold_left]; [exact S|].
  inversion M as [|? ? M1 M2]; inversion W as [|? ? W1 W2]; subst. apply IH; [exact M2|exact W2|]. exact (step_sound31 mj ms B AR r oc M1 W1 S).
Qed.

(* A list of items in the body and in the response, a path parameter and a header. *)
Definition rf_request {Sch} : cunit bool Sch :=
  mkCU false "" "" 0 false "" false None None false false false false false (fun t => String.eqb t "json") (Ret false)
    (fun _ => ([], Ret (false, [("Item", true)])))
    (fun loc => if String.eqb loc "path" then ([EProp (rd_prop "id" "")], Ret false) else ([], Ret false))
    [] (Ret false) ([], Err) ([], Err).
Definition rf_response {Sch} : cunit bool Sch :=
  mkCU false "" "" 200 false "" false None None false false false false false (fun _ => false) (Ret false)
    (fun _ => ([], Err)) (fun _ => ([], Ret false)) [] (Ret true)
    ([("List", false); ("Item", true)], Ret false) ([rd_prop "X-A" ""], Ret None).

Definition rf_map (b : bool) : sch31 :=
  if b then [("type", JStr "string")]
  else [("type", JStr "array"); ("items", JObj [("$ref", JStr "#/components/schemas/Item")])].
Definition rf_backend31 : backend bool sch31 :=
  mkBackend (fun b => Ret (rf_map b)) (fun _ => None) (fun s => s) (fun _ _ => Ret None) (fun _ => [("type", JStr "string")]) true.

Lemma rf_true30 n : ~ j_refers (rd_schema true) n.
Proof. intros H. inversion H; repeat match goal with X : In _ [] |- _ => destruct X end. Qed.
Lemma rf_false30 n : j_refers (rd_schema false) n -> n = "Item".
Proof.
  intros H. inversion H; repeat match goal with X : In _ [] |- _ => destruct X end; subst.
  match goal with X : j_refers _ _ |- _ => inversion X; repeat match goal with X : In _ [] |- _ => destruct X end; subst end.
  reflexivity.
Qed.
Ltac rf_inv H := inversion H; clear H; subst;
  repeat match goal with
         | X : In _ [] |- _ => destruct X
         | X : In _ (_ :: _) |- _ => destruct X as [X|X]
         | X : (_, _) = (_, _) |- _ => inversion X; clear X; subst
         end.
Lemma rf_string n s : ~ map_refers [("type", JStr s)] n.
Proof. unfold map_refers. intros H. rf_inv H. match goal with X : json_refers _ _ |- _ => rf_inv X end. Qed.
Lemma rf_false31 n : map_refers (rf_map false) n -> n = "Item".
Proof.
  unfold map_refers, rf_map. intros H. rf_inv H; match goal with X : json_refers _ _ |- _ => rf_inv X end; [reflexivity|].
  match goal with X : json_refers _ _ |- _ => rf_inv X end.
Qed.
Lemma rf_adds : adds_no_references (fun b => map_refers (rf_map b)) map_refers rf_backend31.
Proof.
  split; [|split].
  - intros j s n E R. injection E as <-. exact R.
  - intros s n R. exact R.
  - intros f n. apply rf_string.
Qed.

Lemma rf_whole {Sch} (B : backend bool Sch) mj cu : (forall b, exists s, b_conv B b = Ret s) ->
  (forall n, ~ mj true n) -> (forall n, mj false n -> n = "Item") ->
  In cu [rf_request; rf_response] -> whole_unit mj B cu.
Proof.
  intros C N1 N2 I.
  assert (CV : forall defs, convertible B defs) by (intros defs n j _; apply C).
  assert (CP : forall js defs, (exists j, In ("Item", j) defs) -> complete mj js defs).
  { intros js defs (j & D) x n _ M. destruct x; [destruct (N1 n M)|]. apply N2 in M. subst n. exact (in_map fst _ _ D). }
  assert (C0 : forall js, (forall j, In j js -> j = true) -> complete mj js []).
  { intros js A x n Ix M. rewrite app_nil_r in Ix. rewrite (A x Ix) in M. destruct (N1 n M). }
  destruct I as [<-|[<-|[]]]; (split; [|split; [|split; [split|split]]]).
  - intros loc. cbn [rf_request v_params]. destruct (String.eqb loc "path").
    + exists [rd_prop "id" ""], []. split; [reflexivity|]. split; [apply C0; intros j [<-|[]]; reflexivity|]. split; [apply CV|].
      intros q [<-|[]] JE. destruct JE as [X|[X _]]; discriminate X.
    + exists [], []. split; [reflexivity|]. split; [apply C0; intros j []|]. split; [apply CV|]. intros q [].
  - intros tag j defs E. cbn [rf_request v_body snd] in E. injection E as <- <-. split; [|apply CV]. apply CP. exists true. left. reflexivity.
  - apply C0. intros j [].
  - apply CV.
  - intros q n [].
  - split; discriminate.
  - intros loc. exists [], []. split; [reflexivity|]. split; [apply C0; intros j []|]. split; [apply CV|]. intros q [].
  - intros tag j defs E. discriminate E.
  - apply CP. exists true. right. left. reflexivity.
  - apply CV.
  - intros q n [<-|[]]. apply N1.
  - split; discriminate.
Qed.

Example C84_example : exists cl v, documented (backend30 rd_schema) cl v /\
  (forall cu, In cu (c_req cl ++ c_resp cl) -> customs_keep cu) /\
  forall b, exists s, from_js (rd_schema b) = Some s /\ (shows v s \/ shows v (unnull30 s)).
Proof.
  exists (mkCall "put" [rf_request] [rf_response] (view30 zero_op30)).
  assert (M : made30 (rd_oc30 "put" "/a/{id}" [rf_request] [rf_response])) by rd_made.
  destruct (reflector_add30 (backend30 rd_schema) rd_refl30 (rd_oc30 "put" "/a/{id}" [rf_request] [rf_response])) as [[r' oc'] a] eqn:E.
  assert (A : a = AOk) by (change a with (snd (r', oc', a)); rewrite <- E; vm_compute; reflexivity). subst a.
  destruct (doc30 (r30_paths r') "/a/{id}" "put") as [o|] eqn:D.
  2: { apply (f_equal (fun x => r30_paths (fst (fst x)))) in E. cbn [fst] in E. rewrite <- E in D. vm_compute in D. discriminate D. }
  exists (view30 o). split; [exact (doc_30 (backend30 rd_schema) rd_refl30 (rd_oc30 "put" "/a/{id}" [rf_request] [rf_response]) r' oc' o M E D)|].
  split; [intros cu [<-|[<-|[]]]; split; discriminate|].
  apply (f_equal (fun x => r30_paths (fst (fst x)))) in E. cbn [fst] in E. rewrite <- E in D. vm_compute in D. injection D as <-.
  intros [|]; (eexists; split; [vm_compute; reflexivity|]).
  - right. left. eexists. split; [left; reflexivity|]. eexists. split; [reflexivity|]. left. reflexivity.
  - left. right. left. eexists. split; [reflexivity|]. eexists. split; [reflexivity|]. eexists. eexists. split; [left; reflexivity|reflexivity].
Qed.

Lemma no_shows30 {Sch} s : ~ shows (view30 (zero_op30 (Sch := Sch))) s.
Proof. intros [(x & [] & _)|[(x & X & _)|(x & [X|(k & [])] & _)]]; discriminate X. Qed.
Lemma no_shows31 {Sch} s : ~ shows (view31 (zero_op31 (Sch := Sch))) s.
Proof. intros [(x & [] & _)|[(x & X & _)|(x & [X|(k & [])] & _)]]; discriminate X. Qed.

Example C85_example_30 :
  let calls := [rd_oc30 "put" "/a/{id}" [rf_request] [rf_response]; rd_oc30 "put" "/a/{id}" [rf_request] [];  (* documented already *)
                rd_oc30 "post" "/b" [] [rf_response]] in
  let ms := o_refers in let mj j := j_refers (rd_schema j) in
  adds_no_references mj ms (backend30 rd_schema) /\ Forall made30 calls /\
  Forall (whole_call mj ms (backend30 rd_schema) (fun x => x)) calls /\ sound30 ms rd_refl30 /\
  let r := rrun30 (backend30 rd_schema) rd_refl30 calls in
  (exists o s, doc30 (r30_paths r) "/b" "post" = Some o /\ shows (view30 o) s /\ o_refers s "Item") /\
  (exists s, get "List" (r30_comps r) = Some s /\ o_refers s "Item") /\ keys (r30_comps r) = ["Item"; "List"].
Proof.
  cbv zeta. split; [apply C85_conversion_30|]. split; [repeat (apply Forall_cons; [rd_made|]); apply Forall_nil|].
  assert (W : forall m p req resp, (forall cu, In cu (req ++ resp) -> In cu [rf_request; rf_response]) ->
    whole_call (fun j => j_refers (rd_schema j)) o_refers (backend30 rd_schema) (fun x => x) (rd_oc30 m p req resp)).
  { intros m p req resp I. split; [intros s n S; destruct (no_shows30 s S)|]. intros cu Ic.
    apply rf_whole; [intros [|]; eexists; vm_compute; reflexivity|exact rf_true30|exact rf_false30|exact (I cu Ic)]. }
  split; [repeat (apply Forall_cons; [apply W; intros cu X; cbn [app In] in *; tauto|]); apply Forall_nil|].
  split; [split; [intros n s X; discriminate X|intros p m o s X; discriminate X]|].
  assert (R : o_refers (ORef "#/components/schemas/Item") "Item") by exact (or_ref "Item").
  split; [|split; [|vm_compute; reflexivity]].
  - eexists. eexists. split; [vm_compute; reflexivity|]. split.
    + right. right. eexists. split; [right; eexists; left; reflexivity|]. eexists. split; [reflexivity|]. left.
      eexists. eexists. split; [left; reflexivity|reflexivity].
    + apply or_items. exact R.
  - eexists. split; [vm_compute; reflexivity|]. apply or_items. exact R.
Qed.

Example C85_example_31 :
  let calls := [(false, rd_oc31 "put" "/a/{id}" [rf_request] [rf_response]); (true, rd_oc31 "post" "hook" [] [rf_response])] in
  let mj b := map_refers (rf_map b) in
  adds_no_references mj map_refers rf_backend31 /\ Forall (fun a => made31 (snd a)) calls /\
  Forall (fun a => whole_call mj map_refers rf_backend31 ens (snd a)) calls /\ sound31 map_refers rd_refl31 /\
  let r := rrun31 rf_backend31 rd_refl31 calls in
  (exists o s, hook31 (r31_paths r) "hook" "post" = Some o /\ shows (view31 o) s /\ map_refers s "Item") /\
  keys (r31_comps r) = ["Item"; "List"].
Proof.
  cbv zeta. split; [exact rf_adds|]. split; [repeat (apply Forall_cons; [rd_made|]); apply Forall_nil|].
  assert (W : forall m p req resp, (forall cu, In cu (req ++ resp) -> In cu [rf_request; rf_response]) ->
    whole_call (fun b => map_refers (rf_map b)) map_refers rf_backend31 ens (rd_oc31 m p req resp)).
  { intros m p req resp I. split; [intros s n S; destruct (no_shows31 s S)|]. intros cu Ic.
    apply rf_whole; [intros b; eexists; reflexivity|intros n; apply rf_string|exact rf_false31|exact (I cu Ic)]. }
  split; [repeat (apply Forall_cons; [apply W; intros cu X; cbn [app In snd] in *; tauto|]); apply Forall_nil|].
  split; [split; [intros n s X; discriminate X|split; intros p m o s X; discriminate X]|].
  split; [|vm_compute; reflexivity].
  eexists. exists (rf_map false). split; [vm_compute; reflexivity|]. split.
  - right. right. eexists. split; [right; eexists; left; reflexivity|]. eexists. split; [reflexivity|]. left.
    eexists. eexists. split; [left; reflexivity|reflexivity].
  - apply (sr_obj "items" (JObj [("$ref", JStr "#/components/schemas/Item")])); [right; left; reflexivity|].
    apply sr_ref. left. reflexivity.
Qed.

(* ---------- assumptions ---------- *)

Print Assumptions C84_origin.
Print Assumptions C85_conversion_30.
Print Assumptions C85_history_30.
Print Assumptions C85_history_31.
