(* Lemmas about marshalUnion. *)
From Verif Require Import Str Json UnionModel UnionSpec.

Lemma set_last_app c s d : set_last c (s ^^ String d "") = s ^^ String c "".
Proof.
  induction s as [|x s IH]; [reflexivity|]. cbn [String.append set_last]. rewrite IH.
  destruct (s ^^ String d "") eqn:E; [|reflexivity]. destruct s; discriminate.
Qed.

Section Grammar.
  Variable num_text : string -> Q -> Prop.
  Variable str_text : string -> string -> Prop.
  Notation members := (members_text num_text str_text).

  Lemma members_app s m : members s m -> forall s' m', members s' m' -> members (s ^^ "," ^^ s') (m ++ m').
  Proof.
    induction 1 as [k key s v K T|k key s v s1 m K T M IH]; intros s' m' M'.
    - replace ((k ^^ ":" ^^ s) ^^ "," ^^ s') with (k ^^ ":" ^^ s ^^ "," ^^ s').
      + apply m_more; auto.
      + rewrite !app_assoc_s. reflexivity.
    - replace ((k ^^ ":" ^^ s ^^ "," ^^ s1) ^^ "," ^^ s') with (k ^^ ":" ^^ s ^^ "," ^^ (s1 ^^ "," ^^ s')).
      + cbn [app]. apply m_more; auto.
      + rewrite !app_assoc_s. reflexivity.
  Qed.

  Lemma members_nonempty s m : members s m -> exists c s', s = String c s' /\ m <> [].
  Proof. destruct 1 as [[|c k] ?|[|c k] ?]; cbn; repeat eexists; discriminate. Qed.

  Lemma length_wrap s : 1 <? String.length ("{" ^^ s ^^ "}") = true.
  Proof. apply Nat.ltb_lt. cbn [String.append String.length]. rewrite length_app_s. cbn [String.length]. lia. Qed.

  (* State of the loop after some members. *)
  Inductive so_far : string -> list (string * json) -> Prop :=
  | sf_none : so_far "{" []
  | sf_some s m : members s m -> so_far ("{" ^^ s ^^ "}") m.

  Lemma loop_objects parts ms : Forall2 (contributes num_text str_text) parts ms ->
    forall r m0, so_far r m0 ->
    exists out, union_loop parts r true = UOk out /\ jtext num_text str_text out (JObj (m0 ++ concat ms)).
  Proof.
    induction 1 as [|p m parts ms C _ IH]; intros r m0 R.
    - cbn [union_loop concat]. rewrite app_nil_r. eexists. split; [reflexivity|]. destruct R as [|s m M].
      + apply t_obj0.
      + pose proof (length_wrap s) as L. apply Nat.ltb_lt in L.
        replace (String.length ("{" ^^ s ^^ "}") =? 1) with false by (symmetry; apply Nat.eqb_neq; lia).
        cbn [andb]. apply t_obj. exact M.
    - cbn [concat]. destruct C as [| |s m M].
      + cbn [union_loop]. change (String.eqb "null" "{}") with false. change (String.eqb "null" "null") with true.
        apply IH. exact R.
      + cbn [union_loop]. change (String.eqb "{}" "{}") with true. apply IH. exact R.
      + destruct (members_nonempty _ _ M) as (c & s' & -> & N).
        assert (E1 : String.eqb ("{" ^^ String c s' ^^ "}") "{}" = false).
        { apply String.eqb_neq. intros E. cbn in E. injection E as E1 E2. destruct s'; discriminate. }
        assert (E2 : String.eqb ("{" ^^ String c s' ^^ "}") "null" = false) by reflexivity.
        cbn [union_loop]. rewrite E1, E2. change ("{" ^^ String c s' ^^ "}") with (String "{" (String c s' ^^ "}")).
        cbn match. change (Ascii.eqb "{" "{") with true. cbn [negb].
        rewrite app_assoc. apply IH. destruct R as [|s0 m0 M0].
        * change (1 <? String.length "{") with false. apply sf_some. exact M.
        * rewrite length_wrap. rewrite <- (app_assoc_s "{" s0 "}"). rewrite set_last_app.
          replace ((("{" ^^ s0) ^^ String "," "") ^^ String c s' ^^ "}") with ("{" ^^ (s0 ^^ "," ^^ String c s') ^^ "}").
          -- apply sf_some. apply members_app; auto.
          -- rewrite !app_assoc_s. reflexivity.
  Qed.

  Lemma union_objects parts ms : Forall2 (contributes num_text str_text) parts ms ->
    exists out, marshal_union parts = UOk out /\ jtext num_text str_text out (JObj (concat ms)).
  Proof. intros H. apply (loop_objects _ _ H "{" []). constructor. Qed.
End Grammar.

(* Parts that are not live do not matter. *)
Lemma loop_live parts : forall r b, union_loop parts r b = union_loop (filter live parts) r b.
Proof.
  induction parts as [|[|j] parts IH]; intros r b; [reflexivity| |].
  - reflexivity.
  - cbn [filter live]. destruct (String.eqb j "{}") eqn:E1; [cbn [orb negb union_loop]; rewrite E1; apply IH|].
    destruct (String.eqb j "null") eqn:E2; [cbn [orb negb union_loop]; rewrite E1, E2; apply IH|].
    cbn [orb negb union_loop]. rewrite E1, E2. destruct j as [|c j]; [reflexivity|].
    rewrite !IH. reflexivity.
Qed.

(* After a value that is no object, only equal texts of one byte may follow. *)
Lemma loop_other parts : forall r out, union_loop parts r false = UOk out -> out = r /\ Forall (fun p => live p = false \/ (p = EncOk r /\ String.length r = 1)) parts.
Proof.
  induction parts as [|[|j] parts IH]; intros r out H.
  - cbn in H. injection H as <-. auto.
  - discriminate.
  - cbn [union_loop] in H. cbn [live].
    destruct (String.eqb j "{}") eqn:E1; [apply IH in H as [-> H]; split; auto; constructor; auto; left; cbn [live]; rewrite E1; reflexivity|].
    destruct (String.eqb j "null") eqn:E2; [apply IH in H as [-> H]; split; auto; constructor; auto; left; cbn [live]; rewrite E1, E2; reflexivity|].
    destruct j as [|c j]; [discriminate|]. destruct (Ascii.eqb c "{"); [discriminate|].
    cbn [negb orb] in H. destruct ((String.length r =? 1) && String.eqb r (String c j)) eqn:E; [|discriminate].
    apply andb_true_iff in E as [L E]. apply Nat.eqb_eq in L. apply String.eqb_eq in E. subst r.
    apply IH in H as [-> H]. auto.
Qed.

Lemma wrap_len r j : String.length r >= 1 -> String.length j >= 1 -> String.length (r ^^ j) =? 1 = false.
Proof. intros. rewrite length_app_s. apply Nat.eqb_neq. lia. Qed.

Lemma set_last_len c s : String.length (set_last c s) = String.length s.
Proof. induction s as [|x s IH]; [reflexivity|]. cbn [set_last]. destruct s; [reflexivity|]. cbn [String.length]. rewrite IH. reflexivity. Qed.

(* Once there are members, a live part that is no object is an error. *)
Lemma loop_some parts : forall r out, String.length r > 1 -> union_loop parts r true = UOk out ->
  forall p, In p parts -> live p = true -> object_like p = true.
Proof.
  induction parts as [|[|j] parts IH]; intros r out L H p I Lp; [destruct I|discriminate|].
  cbn [union_loop] in H. destruct I as [<-|I].
  - cbn [live] in Lp. destruct (String.eqb j "{}"); [discriminate|]. destruct (String.eqb j "null"); [discriminate|].
    destruct j as [|c j]; [discriminate|]. cbn [object_like]. destruct (Ascii.eqb c "{"); [reflexivity|]. cbn [negb] in H.
    replace (String.length r =? 1) with false in H by (symmetry; apply Nat.eqb_neq; lia). discriminate.
  - destruct (String.eqb j "{}"); [eapply IH; eauto|]. destruct (String.eqb j "null"); [eapply IH; eauto|].
    destruct j as [|c j]; [discriminate|]. destruct (Ascii.eqb c "{"); cbn [negb] in H.
    + replace (1 <? String.length r) with true in H by (symmetry; apply Nat.ltb_lt; lia).
      eapply IH; [|exact H| |]; auto. rewrite length_app_s, set_last_len. lia.
    + replace (String.length r =? 1) with false in H by (symmetry; apply Nat.eqb_neq; lia). discriminate.
Qed.

(* A result means: all live parts are objects, or they are one and the same
   text that is no object (more than one only if it is one byte long). *)
Lemma union_kinds parts out : marshal_union parts = UOk out -> (forall p, In p parts -> p <> EncOk "{") ->
  (forall p, In p parts -> live p = true -> object_like p = true) \/
  (Forall (fun p => live p = false \/ p = EncOk out) parts /\ object_like (EncOk out) = false).
Proof.
  unfold marshal_union. induction parts as [|[|j] parts IH]; intros H W.
  - left. intros p [].
  - discriminate.
  - assert (W' : forall p, In p parts -> p <> EncOk "{") by (intros p I; apply W; right; exact I).
    specialize (W _ (or_introl eq_refl)). cbn [union_loop] in H.
    destruct (String.eqb j "{}") eqn:E1.
    { destruct (IH H W') as [X|[X Y]].
      - left. intros p [<-|I] L; [cbn [live] in L; rewrite E1 in L; discriminate|auto].
      - right. split; auto. constructor; auto. left. cbn [live]. rewrite E1. reflexivity. }
    destruct (String.eqb j "null") eqn:E2.
    { destruct (IH H W') as [X|[X Y]].
      - left. intros p [<-|I] L; [cbn [live] in L; rewrite E1, E2 in L; discriminate|auto].
      - right. split; auto. constructor; auto. left. cbn [live]. rewrite E1, E2. reflexivity. }
    destruct j as [|c j]; [discriminate|]. destruct (Ascii.eqb c "{") eqn:Ec; cbn [negb] in H.
    + left. intros p [<-|I] L; [exact Ec|]. change (1 <? String.length "{") with false in H.
      destruct j as [|d j].
      * apply Ascii.eqb_eq in Ec. subst c. congruence.
      * eapply loop_some; [|exact H|exact I|exact L]. cbn. lia.
    + cbn [andb orb String.length Nat.eqb] in H. apply loop_other in H as [-> F]. right. split; [|exact Ec].
      constructor; auto. eapply Forall_impl; [|exact F]. intros p [X|[X _]]; auto.
Qed.

(* One part that is no object. *)
Lemma union_single parts1 parts2 c j : Ascii.eqb c "{" = false -> live (EncOk (String c j)) = true ->
  (forall p, In p (parts1 ++ parts2) -> live p = false) ->
  marshal_union (parts1 ++ EncOk (String c j) :: parts2) = UOk (String c j).
Proof.
  intros Ec L H. unfold marshal_union. rewrite loop_live, filter_app.
  assert (F : forall l, (forall p, In p l -> live p = false) -> filter live l = []).
  { induction l as [|p l IH]; intros X; [reflexivity|]. cbn [filter]. rewrite X by (left; reflexivity). apply IH. intros; apply X; right; auto. }
  cbn [filter]. rewrite L, !F; [|intros; apply H, in_or_app; auto|intros; apply H, in_or_app; auto].
  cbn [app union_loop]. cbn [live] in L. apply negb_true_iff, orb_false_iff in L as [-> ->]. rewrite Ec. reflexivity.
Qed.

Lemma union_no_panic parts : (forall p, In p parts -> p <> EncOk "") -> marshal_union parts <> UPanic.
Proof.
  unfold marshal_union. generalize "{". generalize true. induction parts as [|[|j] parts IH]; intros b r H; [discriminate|discriminate|].
  assert (H' : forall p, In p parts -> p <> EncOk "") by (intros p I; apply H; right; exact I).
  specialize (IH). cbn [union_loop]. destruct (String.eqb j "{}"); [apply IH; exact H'|].
  destruct (String.eqb j "null"); [apply IH; exact H'|].
  destruct j as [|c j]; [exfalso; apply (H (EncOk "")); [left|]; reflexivity|].
  destruct (negb (Ascii.eqb c "{")).
  - destruct ((String.length r =? 1) && (b || String.eqb r (String c j))); [apply IH; exact H'|discriminate].
  - destruct (negb b); [discriminate|]. apply IH; exact H'.
Qed.

Lemma union_mixed parts p q : In p parts -> In q parts -> (forall p, In p parts -> p <> EncOk "{" /\ p <> EncOk "") ->
  live p = true -> live q = true -> object_like p = true -> object_like q = false -> marshal_union parts = UErr.
Proof.
  intros Ip Iq W Lp Lq Op Oq. destruct (marshal_union parts) as [out| |] eqn:E; [|reflexivity|].
  - exfalso. destruct (union_kinds _ _ E) as [H|[H O]].
    + intros x I. apply W; exact I.
    + rewrite (H _ Iq Lq) in Oq. discriminate.
    + rewrite Forall_forall in H. destruct (H _ Ip) as [X| ->]; congruence.
  - exfalso. revert E. apply union_no_panic. intros x I. apply W; exact I.
Qed.
