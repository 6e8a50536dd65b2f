(* Theorems about what functions of the user see while an operation is added
   (C98).  A function called during reflection asks openapi.OperationCtx. *)
From Coq Require Import ZArith.
From Verif Require Import Str SMap Json PathModel Types RegistryModel ReflectModel ReflectProps.
From Verif Require Import HookModel HookSpec HookProofs.


(* Every answer is the right one for the reflection it is given in, whatever
   state the context was in before. *)
Lemma add30_run : forall (J Sch : Type) (B : backend J Sch) r x, exists req resp r' oc' e log,
  Forall2 reported (x_request x) req /\ Forall2 reported (x_response x) resp /\
  (forall now, exists left, h_add30 B r (mkHctx (x_oc x) (x_request x) (x_response x) now) = (r', oc', e, (log, left))) /\
  (exists oc'', reflector_add30 B r (with_units (x_oc x) req resp) = (r', oc'', e) /\ oc_op oc'' = oc_op oc') /\
  Forall right log /\ call_answers (oc_method (x_oc x)) (x_request x) (x_response x) log.
Proof.
  intros J Sch B r x.
  destruct (setup_sim J Sch B (fun rs => rs) (fun rs => rs) (r30_comps r) (x_oc x) (x_request x) (x_response x))
    as (req & resp & c & o & e & log & V1 & V2 & T & G & K1 & K2).
  exists req, resp.
  assert (RV : Forall right (rev log)).
  { apply Forall_forall. intros a Ha. apply in_rev in Ha. rewrite Forall_forall in K1. exact (K1 a Ha). }
  unfold h_add30, reflector_add30, setup_oc30. rewrite G. unfold answers. cbn [x_oc].
  destruct e as [|e|].
  - destruct (add_operation30 (r30_paths r) (oc_method (x_oc x)) (oc_path (x_oc x)) o) as [p e] eqn:EA.
    eexists _, _, _, (rev log). split; [exact V1|]. split; [exact V2|]. split; [|split; [|split; [exact RV|exact K2]]].
    + intros now. destruct (T now) as (now' & E). exists now'. rewrite E, EA. reflexivity.
    + unfold with_units. cbn [oc_method oc_path]. rewrite EA. eexists. split; reflexivity.
  - eexists _, _, _, (rev log). split; [exact V1|]. split; [exact V2|]. split; [|split; [|split; [exact RV|exact K2]]].
    + intros now. destruct (T now) as (now' & E). exists now'. rewrite E. reflexivity.
    + eexists. split; reflexivity.
  - eexists _, _, _, (rev log). split; [exact V1|]. split; [exact V2|]. split; [|split; [|split; [exact RV|exact K2]]].
    + intros now. destruct (T now) as (now' & E). exists now'. rewrite E. reflexivity.
    + eexists. split; reflexivity.
Qed.

Definition plain31 {J Sch} (B : backend J Sch) (webhook : bool) :=
  if webhook then reflector_webhook31 B else reflector_add31 B.

Lemma add31_run : forall (J Sch : Type) (B : backend J Sch) webhook r x, exists req resp r' oc' e log,
  Forall2 reported (x_request x) req /\ Forall2 reported (x_response x) resp /\
  (forall now, exists left, h_add31 B webhook r (mkHctx (x_oc x) (x_request x) (x_response x) now) = (r', oc', e, (log, left))) /\
  (exists oc'', plain31 B webhook r (with_units (x_oc x) req resp) = (r', oc'', e) /\ oc_op oc'' = oc_op oc') /\
  Forall right log /\ call_answers (oc_method (x_oc x)) (x_request x) (x_response x) log.
Proof.
  intros J Sch B webhook r x.
  destruct (setup_sim J Sch B ens Some (r31_comps r) (x_oc x) (x_request x) (x_response x))
    as (req & resp & c & o & e & log & V1 & V2 & T & G & K1 & K2).
  exists req, resp.
  assert (RV : Forall right (rev log)).
  { apply Forall_forall. intros a Ha. apply in_rev in Ha. rewrite Forall_forall in K1. exact (K1 a Ha). }
  unfold h_add31, plain31. unfold answers. cbn [x_oc].
  destruct e as [|e|].
  - destruct ((if webhook then add_webhook31 else add_operation31) (r31_paths r) (oc_method (x_oc x)) (oc_path (x_oc x)) o) as [p e] eqn:EA.
    eexists _, _, _, (rev log). split; [exact V1|]. split; [exact V2|]. split; [|split; [|split; [exact RV|exact K2]]].
    + intros now. destruct (T now) as (now' & E). exists now'. rewrite E, EA. reflexivity.
    + destruct webhook; unfold reflector_webhook31, reflector_add31, setup_oc31; rewrite G; unfold with_units;
        cbn [oc_method oc_path]; rewrite EA; eexists; split; reflexivity.
  - eexists _, _, _, (rev log). split; [exact V1|]. split; [exact V2|]. split; [|split; [|split; [exact RV|exact K2]]].
    + intros now. destruct (T now) as (now' & E). exists now'. rewrite E. reflexivity.
    + destruct webhook; unfold reflector_webhook31, reflector_add31, setup_oc31; rewrite G; eexists; split; reflexivity.
  - eexists _, _, _, (rev log). split; [exact V1|]. split; [exact V2|]. split; [|split; [|split; [exact RV|exact K2]]].
    + intros now. destruct (T now) as (now' & E). exists now'. rewrite E. reflexivity.
    + destruct webhook; unfold reflector_webhook31, reflector_add31, setup_oc31; rewrite G; eexists; split; reflexivity.
Qed.

Lemma hctx_eta {J Sch R} (x : hctx J Sch R) : mkHctx (x_oc x) (x_request x) (x_response x) (x_state x) = x.
Proof. destruct x; reflexivity. Qed.

(* Every answer is the right one. *)
Theorem C98_answers30 : forall (J Sch : Type) (B : backend J Sch) r x r' oc' e log left,
  h_add30 B r x = (r', oc', e, (log, left)) -> Forall right log.
Proof.
  intros J Sch B r x r' oc' e log left H. destruct (add30_run J Sch B r x) as (req & resp & r1 & oc1 & e1 & l1 & _ & _ & T & _ & K & _).
  destruct (T (x_state x)) as (lf & E). rewrite hctx_eta, H in E. inversion E; subst. exact K.
Qed.
Theorem C98_answers31 : forall (J Sch : Type) (B : backend J Sch) webhook r x r' oc' e log left,
  h_add31 B webhook r x = (r', oc', e, (log, left)) -> Forall right log.
Proof.
  intros J Sch B wh r x r' oc' e log left H. destruct (add31_run J Sch B wh r x) as (req & resp & r1 & oc1 & e1 & l1 & _ & _ & T & _ & K & _).
  destruct (T (x_state x)) as (lf & E). rewrite hctx_eta, H in E. inversion E; subst. exact K.
Qed.

(* The order of the answers, and what has to be the case for each. *)
Theorem C98_order30 : forall (J Sch : Type) (B : backend J Sch) r x r' oc' e log left,
  h_add30 B r x = (r', oc', e, (log, left)) -> call_answers (oc_method (x_oc x)) (x_request x) (x_response x) log.
Proof.
  intros J Sch B r x r' oc' e log left H. destruct (add30_run J Sch B r x) as (req & resp & r1 & oc1 & e1 & l1 & _ & _ & T & _ & _ & K).
  destruct (T (x_state x)) as (lf & E). rewrite hctx_eta, H in E. inversion E; subst. exact K.
Qed.
Theorem C98_order31 : forall (J Sch : Type) (B : backend J Sch) webhook r x r' oc' e log left,
  h_add31 B webhook r x = (r', oc', e, (log, left)) -> call_answers (oc_method (x_oc x)) (x_request x) (x_response x) log.
Proof.
  intros J Sch B wh r x r' oc' e log left H. destruct (add31_run J Sch B wh r x) as (req & resp & r1 & oc1 & e1 & l1 & _ & _ & T & _ & _ & K).
  destruct (T (x_state x)) as (lf & E). rewrite hctx_eta, H in E. inversion E; subst. exact K.
Qed.

(* The document is that of the plain pipeline for what the reflections report
   when given the right answers: functions of the user that ask, and keep state,
   do not change anything else. *)
Theorem C98_document30 : forall (J Sch : Type) (B : backend J Sch) r x r' oc' e log left,
  h_add30 B r x = (r', oc', e, (log, left)) ->
  exists req resp oc'', Forall2 reported (x_request x) req /\ Forall2 reported (x_response x) resp /\
    reflector_add30 B r (with_units (x_oc x) req resp) = (r', oc'', e) /\ oc_op oc'' = oc_op oc'.
Proof.
  intros J Sch B r x r' oc' e log left H. destruct (add30_run J Sch B r x) as (req & resp & r1 & oc1 & e1 & l1 & V1 & V2 & T & (oc2 & G & O) & _).
  destruct (T (x_state x)) as (lf & E). rewrite hctx_eta, H in E. inversion E; subst. exists req, resp, oc2. auto.
Qed.
Theorem C98_document31 : forall (J Sch : Type) (B : backend J Sch) webhook r x r' oc' e log left,
  h_add31 B webhook r x = (r', oc', e, (log, left)) ->
  exists req resp oc'', Forall2 reported (x_request x) req /\ Forall2 reported (x_response x) resp /\
    (if webhook then reflector_webhook31 B else reflector_add31 B) r (with_units (x_oc x) req resp) = (r', oc'', e) /\
    oc_op oc'' = oc_op oc'.
Proof.
  intros J Sch B wh r x r' oc' e log left H. destruct (add31_run J Sch B wh r x) as (req & resp & r1 & oc1 & e1 & l1 & V1 & V2 & T & (oc2 & G & O) & _).
  destruct (T (x_state x)) as (lf & E). rewrite hctx_eta, H in E. inversion E; subst. exists req, resp, oc2. auto.
Qed.

(* The state of the context before the call does not matter. *)
Theorem C98_earlier30 : forall (J Sch : Type) (B : backend J Sch) r oc req resp s1 s2 r' oc' e log left,
  h_add30 B r (mkHctx oc req resp s1) = (r', oc', e, (log, left)) ->
  exists left', h_add30 B r (mkHctx oc req resp s2) = (r', oc', e, (log, left')).
Proof.
  intros J Sch B r oc req resp s1 s2 r' oc' e log left H.
  destruct (add30_run J Sch B r (mkHctx oc req resp s1)) as (a & b & r1 & oc1 & e1 & l1 & _ & _ & T & _).
  destruct (T s1) as (lf & E). cbn [x_oc x_request x_response] in E. rewrite H in E. inversion E; subst. exact (T s2).
Qed.
Theorem C98_earlier31 : forall (J Sch : Type) (B : backend J Sch) webhook r oc req resp s1 s2 r' oc' e log left,
  h_add31 B webhook r (mkHctx oc req resp s1) = (r', oc', e, (log, left)) ->
  exists left', h_add31 B webhook r (mkHctx oc req resp s2) = (r', oc', e, (log, left')).
Proof.
  intros J Sch B wh r oc req resp s1 s2 r' oc' e log left H.
  destruct (add31_run J Sch B wh r (mkHctx oc req resp s1)) as (a & b & r1 & oc1 & e1 & l1 & _ & _ & T & _).
  destruct (T s1) as (lf & E). cbn [x_oc x_request x_response] in E. rewrite H in E. inversion E; subst. exact (T s2).
Qed.

(* After a successful call with a response structure the context still says that
   response headers are processed. *)
Theorem C98_left30 : forall (J Sch : Type) (B : backend J Sch) r x r' oc' log left,
  h_add30 B r x = (r', oc', AOk, (log, left)) ->
  (exists h, In h (x_response x) /\ cu_nil (h_unit h) = false) -> left = (true, "header").
Proof.
  intros J Sch B r x r' oc' log left H Hx. unfold h_add30 in H.
  destruct (h_setup B (fun rs => rs) (fun rs => rs) (r30_comps r) x) as [[[c o] [|e|]] t] eqn:E; try discriminate H.
  rewrite <- (setup_leaves _ _ _ _ _ _ _ _ _ _ E Hx).
  destruct (add_operation30 _ _ _ _) as [p e]. inversion H. reflexivity.
Qed.
Theorem C98_left31 : forall (J Sch : Type) (B : backend J Sch) webhook r x r' oc' log left,
  h_add31 B webhook r x = (r', oc', AOk, (log, left)) ->
  (exists h, In h (x_response x) /\ cu_nil (h_unit h) = false) -> left = (true, "header").
Proof.
  intros J Sch B wh r x r' oc' log left H Hx. unfold h_add31 in H.
  destruct (h_setup B ens Some (r31_comps r) x) as [[[c o] [|e|]] t] eqn:E; try discriminate H.
  rewrite <- (setup_leaves _ _ _ _ _ _ _ _ _ _ E Hx).
  destruct ((if wh then add_webhook31 else add_operation31) _ _ _ _) as [p e]. inversion H. reflexivity.
Qed.

(* The states that can be seen: seven. *)
Lemma states_of : forall (J Sch : Type) m (req resp : list (hunit J Sch)) log o p,
  call_answers m req resp log -> Forall right log -> In o log -> o_seen o = Some p ->
  In p [(false, "body"); (false, "query"); (false, "path"); (false, "cookie"); (false, "header"); (true, "body"); (true, "header")].
Proof.
  intros J Sch m req resp log o p (n & k & l1 & l2 & -> & A & A' & _) R Ho Hs.
  rewrite Forall_forall in R. specialize (R o Ho). unfold right in R. rewrite Hs in R.
  assert (W : In (o_what o) [WProbe; WBody "formData"; WBody "json"; WParams "query"; WField "query"; WParams "path"; WField "path";
                WParams "cookie"; WField "cookie"; WParams "header"; WField "header"; WHasJSON; WJSON; WHeaders]).
  { apply in_app_or in Ho. destruct Ho as [Ho|Ho].
    - clear A' R. induction A as [|h hs n' la lb P A IH]; [destruct Ho|]. apply in_app_or in Ho. destruct Ho as [Ho|Ho]; [|exact (IH Ho)].
      destruct P as [f q p' c d j F1 F2 F3 F4 F5 F6 _ _ _ _].
      repeat (apply in_app_or in Ho; destruct Ho as [Ho|Ho]);
        [apply F1 in Ho|apply F2 in Ho|apply F3 in Ho|apply F4 in Ho|apply F5 in Ho|apply F6 in Ho];
        destruct Ho as [<-|[<-|[]]]; cbn [In]; tauto.
    - clear A R. induction A' as [|h hs n' la lb P A IH]; [destruct Ho|]. apply in_app_or in Ho. destruct Ho as [Ho|Ho]; [|exact (IH Ho)].
      destruct P as [a b d F1 F2 F3 _ _].
      repeat (apply in_app_or in Ho; destruct Ho as [Ho|Ho]); [apply F1 in Ho|apply F2 in Ho|apply F3 in Ho];
        destruct Ho as [<-|[]]; cbn [In]; tauto. }
  clear -R W. destruct o as [w s]. cbn [o_what] in *. inversion R; subst; cbn [In] in W |- *; try tauto;
    repeat (destruct W as [W|W]; [inversion W; subst; tauto|]); destruct W.
Qed.

(* What does not happen: bodies of GET, HEAD, DELETE and TRACE, bodies of
   responses to HEAD. *)
Lemma no_body_of : forall (J Sch : Type) m (req resp : list (hunit J Sch)) log o tag,
  call_answers m req resp log -> In (to_upper m) ["GET"; "HEAD"; "DELETE"; "TRACE"] ->
  (forall h, In h req -> v_force_body (h_unit h) = false) -> In o log -> o_what o <> WBody tag.
Proof.
  intros J Sch m req resp log o tag (n & k & l1 & l2 & -> & A & A' & _) Hm Hf Ho Ew.
  apply in_app_or in Ho. destruct Ho as [Ho|Ho].
  - clear A'. induction A as [|h hs n' la lb P A IH]; [destruct Ho|]. apply in_app_or in Ho. destruct Ho as [Ho|Ho].
    + specialize (Hf h (or_introl eq_refl)). destruct P as [f q p' c d j F1 F2 F3 F4 F5 F6 NB _ _ _].
      assert (Z : f ++ j = []).
      { destruct (f ++ j) as [|y l]; [reflexivity|]. rewrite NB in Hf; [discriminate|discriminate|exact Hm]. }
      apply app_eq_nil in Z. destruct Z as [-> ->]. cbn [app] in Ho. rewrite app_nil_r in Ho.
      repeat (apply in_app_or in Ho; destruct Ho as [Ho|Ho]); [apply F2 in Ho|apply F3 in Ho|apply F4 in Ho|apply F5 in Ho];
        rewrite Ew in Ho; destruct Ho as [X|[X|[]]]; discriminate X.
    + apply IH; [|exact Ho]. intros h' Hi. apply Hf. right. exact Hi.
  - clear A. induction A' as [|h hs n' la lb P A IH]; [destruct Ho|]. apply in_app_or in Ho. destruct Ho as [Ho|Ho]; [|exact (IH Ho)].
    destruct P as [a b d F1 F2 F3 _ _].
    repeat (apply in_app_or in Ho; destruct Ho as [Ho|Ho]); [apply F1 in Ho|apply F2 in Ho|apply F3 in Ho];
      rewrite Ew in Ho; destruct Ho as [X|[]]; discriminate X.
Qed.
Lemma head_of : forall (J Sch : Type) (req resp : list (hunit J Sch)) m log o,
  call_answers m req resp log -> to_upper m = "HEAD" -> In o log -> o_what o <> WJSON /\ o_what o <> WHasJSON.
Proof.
  intros J Sch req resp m log o (n & k & l1 & l2 & -> & A & A' & _) Hm Ho.
  apply in_app_or in Ho. destruct Ho as [Ho|Ho].
  - clear A'. induction A as [|h hs n' la lb P A IH]; [destruct Ho|]. apply in_app_or in Ho. destruct Ho as [Ho|Ho]; [|exact (IH Ho)].
    destruct P as [f q p' c d j F1 F2 F3 F4 F5 F6 _ _ _ _].
    repeat (apply in_app_or in Ho; destruct Ho as [Ho|Ho]);
      [apply F1 in Ho|apply F2 in Ho|apply F3 in Ho|apply F4 in Ho|apply F5 in Ho|apply F6 in Ho];
      destruct Ho as [<-|[<-|[]]]; split; discriminate.
  - clear A. induction A' as [|h hs n' la lb P A IH]; [destruct Ho|]. apply in_app_or in Ho. destruct Ho as [Ho|Ho]; [|exact (IH Ho)].
    destruct P as [a b d F1 F2 F3 NH _].
    assert (Z : a ++ b = []).
    { destruct (a ++ b) as [|y l]; [reflexivity|]. exfalso. apply NH; [discriminate|exact Hm]. }
    apply app_eq_nil in Z. destruct Z as [-> ->]. cbn [app] in Ho. apply F3 in Ho. destruct Ho as [<-|[]]. split; discriminate.
Qed.

Theorem C98_states30 : forall (J Sch : Type) (B : backend J Sch) r x r' oc' e log left o p,
  h_add30 B r x = (r', oc', e, (log, left)) -> In o log -> o_seen o = Some p ->
  In p [(false, "body"); (false, "query"); (false, "path"); (false, "cookie"); (false, "header"); (true, "body"); (true, "header")].
Proof. intros. eapply states_of; eauto using C98_order30, C98_answers30. Qed.
Theorem C98_states31 : forall (J Sch : Type) (B : backend J Sch) webhook r x r' oc' e log left o p,
  h_add31 B webhook r x = (r', oc', e, (log, left)) -> In o log -> o_seen o = Some p ->
  In p [(false, "body"); (false, "query"); (false, "path"); (false, "cookie"); (false, "header"); (true, "body"); (true, "header")].
Proof. intros. eapply states_of; eauto using C98_order31, C98_answers31. Qed.

Theorem C98_no_body30 : forall (J Sch : Type) (B : backend J Sch) r x r' oc' e log left o tag,
  h_add30 B r x = (r', oc', e, (log, left)) -> In (to_upper (oc_method (x_oc x))) ["GET"; "HEAD"; "DELETE"; "TRACE"] ->
  (forall h, In h (x_request x) -> v_force_body (h_unit h) = false) -> In o log -> o_what o <> WBody tag.
Proof. intros. eapply no_body_of; eauto using C98_order30. Qed.
Theorem C98_no_body31 : forall (J Sch : Type) (B : backend J Sch) webhook r x r' oc' e log left o tag,
  h_add31 B webhook r x = (r', oc', e, (log, left)) -> In (to_upper (oc_method (x_oc x))) ["GET"; "HEAD"; "DELETE"; "TRACE"] ->
  (forall h, In h (x_request x) -> v_force_body (h_unit h) = false) -> In o log -> o_what o <> WBody tag.
Proof. intros. eapply no_body_of; eauto using C98_order31. Qed.
Theorem C98_head30 : forall (J Sch : Type) (B : backend J Sch) r x r' oc' e log left o,
  h_add30 B r x = (r', oc', e, (log, left)) -> to_upper (oc_method (x_oc x)) = "HEAD" -> In o log ->
  o_what o <> WJSON /\ o_what o <> WHasJSON.
Proof. intros. eapply head_of; eauto using C98_order30. Qed.
Theorem C98_head31 : forall (J Sch : Type) (B : backend J Sch) webhook r x r' oc' e log left o,
  h_add31 B webhook r x = (r', oc', e, (log, left)) -> to_upper (oc_method (x_oc x)) = "HEAD" -> In o log ->
  o_what o <> WJSON /\ o_what o <> WHasJSON.
Proof. intros. eapply head_of; eauto using C98_order31. Qed.

(* A structure with a query field encoded as JSON, a form field and a response
   with a header; functions of the user ask before and after each field, and
   what they report for the last one depends on the number of answers. *)
Definition ask {E A} (s : session E A) : session E A := Ask (fun _ => s).
Definition ex_field (name : string) : prop string :=
  mkProp true 1 name name false "json" false false [] Err Err (Ret (mkTags None None None None None None None None)).
Definition ex_hunit (status : Z) : hunit string string :=
  mkHU (mkCU false "" "" status false "" false None None false false false false false
          (fun t => String.eqb t "formData") (Ret false) (fun _ => ([], Err)) (fun _ => ([], Err)) [] Err ([], Err) ([], Err))
    (fun tag => ask (Meet KFile (ask (Done (Ret ("form", []))))))
    (fun loc => if String.eqb loc "query"
                then ask (Meet (HProp (ex_field "q") (ask (Meet ("Def", "d") (Done (Ret "js")))) (Done Err)) (ask (Done (Ret false))))
                else Done (Ret false))
    (ask (Done (Ret true)))
    (Ask (fun l => Done (Ret (if length l <? 5 then "short" else "long"))))
    (ask (Meet (ex_field "X-A") (Done (Ret None)))).

Example C98_example : exists r' oc' left,
  h_add30 (ex_backend false) ex_refl30 (mkHctx (ex_oc30 "post" "/x" [] []) [ex_hunit 0] [ex_hunit 200] (true, "nowhere")) =
    (r', oc', AOk,
     ([ mkObs WProbe None; mkObs (WBody "formData") (Some (false, "body")); mkObs (WBody "formData") (Some (false, "body"));
        mkObs (WParams "query") (Some (false, "query")); mkObs (WField "query") (Some (false, "query"));
        mkObs (WParams "query") (Some (false, "query"));
        mkObs WHasJSON None; mkObs WJSON (Some (true, "body")); mkObs WHeaders (Some (true, "header")) ], left)) /\
  map (fun p => option_map p_name (por_param p)) (op_params (oc_op oc')) = [Some "q"] /\ left = (true, "header") /\
  match get "200" (rs_map (op_responses (oc_op oc'))) with
  | Some x => option_map (fun r => map fst (rs_content r)) (ror_resp x) | None => None end = Some ["application/json"].
Proof. eexists _, _, _. split; [vm_compute; reflexivity|]. split; [vm_compute; reflexivity|]. split; vm_compute; reflexivity. Qed.

(* ---------- assumptions ---------- *)

Print Assumptions C98_answers30.
Print Assumptions C98_answers31.
Print Assumptions C98_order30.
Print Assumptions C98_order31.
Print Assumptions C98_document30.
Print Assumptions C98_document31.
Print Assumptions C98_earlier30.
Print Assumptions C98_earlier31.
Print Assumptions C98_left30.
Print Assumptions C98_left31.
Print Assumptions C98_states30.
Print Assumptions C98_states31.
Print Assumptions C98_no_body30.
Print Assumptions C98_no_body31.
Print Assumptions C98_head30.
Print Assumptions C98_head31.
