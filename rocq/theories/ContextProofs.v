(* Proofs for contexts, document setters and the deprecated form. *)
From Coq Require Import ZArith Lia.
From Verif Require Import Str SMap Json PathModel Types PathSpec PathProofs RegistryModel RegistrySpec RegistryProofs ReflectModel ContextModel ContextSpec.

(* ---------- histories ---------- *)

Section Histories.
  Context {S K A : Type}.
  Variable step : S -> K -> S.
  Variable sets : K -> A -> Prop.
  Variable g : S -> A.
  Hypothesis set_same : forall s k v, sets k v -> g (step s k) = v.
  Hypothesis set_other : forall s k, (forall v, ~ sets k v) -> g (step s k) = g s.
  Hypothesis set_dec : forall k, (exists v, sets k v) \/ (forall v, ~ sets k v).

  Lemma observed_history : forall l s, observed sets (g s) l (g (fold_left step l s)).
  Proof.
    intros l. induction l as [|k l IH] using rev_ind; intros s; simpl.
    - apply ob_same. intros k v [].
    - rewrite fold_left_app. simpl. destruct (set_dec k) as [[v Hv]|N].
      + rewrite (set_same _ _ _ Hv). apply ob_last; [exact Hv|]. intros k' v' [].
      + rewrite (set_other _ _ N). destruct (IH s) as [l' H|l1 k1 l2 v H1 H2].
        * apply ob_same. intros k' v [I|[<-|[]]]%in_app_or; [apply H; exact I|apply N].
        * rewrite <- app_assoc. simpl. apply ob_last; [exact H1|].
          intros k' v' [I|[<-|[]]]%in_app_or; [apply H2; exact I|apply N].
  Qed.
End Histories.

Section Contexts.
  Context {V X : Type}.
  Variable preparer : V -> option (cunit_in V -> cunit_in V).
  Notation calls := (ctx_calls (X := X) preparer).

  Lemma getters l (c : context V X) :
    observed sets_tags (get_tags c) l (get_tags (calls c l)) /\
    observed sets_summary (get_summary c) l (get_summary (calls c l)) /\
    observed sets_description (get_description c) l (get_description (calls c l)) /\
    observed sets_id (get_id c) l (get_id (calls c l)) /\
    observed sets_deprecated (is_deprecated c) l (is_deprecated (calls c l)) /\
    observed sets_method (x_method c) l (x_method (calls c l)) /\
    observed sets_path (x_path c) l (x_path (calls c l)) /\
    observed sets_processing_in (x_processing_in c) l (x_processing_in (calls c l)) /\
    observed sets_processing_response (x_processing_resp c) l (x_processing_resp (calls c l)).
  Proof.
    unfold ctx_calls.
    repeat split; match goal with |- observed ?sets (?g c) _ _ => apply (observed_history (ctx_call preparer) sets g) end.
    all: try (intros s k v H; rewrite H; reflexivity).
    all: try (intros s k H; destruct k; try reflexivity; exfalso; apply (H _ eq_refl)).
    all: intros k; destruct k; try (right; intros ? ?; discriminate); left; eexists; reflexivity.
  Qed.

  Lemma security l (c : context V X) :
    exists ls, Forall2 adds_security l ls /\ i_security (x_info (calls c l)) = i_security (x_info c) ++ concat ls.
  Proof.
    revert c. induction l as [|k l IH]; intros c.
    - exists []. split; [constructor|]. simpl. rewrite app_nil_r. reflexivity.
    - unfold ctx_calls in *. simpl fold_left. destruct (IH (ctx_call preparer c k)) as (ls & F & E). rewrite E.
      assert (H : exists x, adds_security k x /\ i_security (x_info (ctx_call preparer c k)) = i_security (x_info c) ++ x).
      { destruct k as [ | | | | |n [s|]| | | | | | ];
          try (exists []; split; [constructor; intros; discriminate|symmetry; apply app_nil_r]);
          eexists; split; try constructor; reflexivity. }
      destruct H as (x & A & E'). exists (x :: ls). split; [constructor; assumption|].
      rewrite E', <- app_assoc. reflexivity.
  Qed.

  Lemma options_fold fs : forall u, options_applied (V := V) fs u (fold_left (fun u f => f u) fs u).
  Proof. induction fs as [|f fs IH]; intros u; simpl; constructor. apply IH. Qed.

  Lemma make_unit_ok s fs : exists u, unit_for preparer s u /\ options_applied fs u (make_unit preparer s fs).
  Proof.
    unfold make_unit. destruct s as [v|]; [destruct (preparer v) as [f|] eqn:E|]; eexists; split; try apply options_fold.
    - apply uf_prepared. exact E.
    - apply uf_plain. exact E.
    - apply uf_nil.
  Qed.

  Lemma units l (c : context V X) :
    (exists ls, Forall2 (adds_request preparer) l ls /\ x_req (calls c l) = x_req c ++ concat ls) /\
    (exists ls, Forall2 (adds_response preparer) l ls /\ x_resp (calls c l) = x_resp c ++ concat ls).
  Proof.
    revert c. induction l as [|k l IH]; intros c.
    - split; exists []; (split; [constructor|]); simpl; rewrite app_nil_r; reflexivity.
    - unfold ctx_calls in *. simpl fold_left. destruct (IH (ctx_call preparer c k)) as [(l1 & F1 & E1) (l2 & F2 & E2)].
      rewrite E1, E2. split.
      + assert (H : exists x, adds_request preparer k x /\ x_req (ctx_call preparer c k) = x_req c ++ x).
        { destruct k; try (exists []; split; [constructor; intros; discriminate|symmetry; apply app_nil_r]).
          destruct (make_unit_ok s options) as (u & U & O). eexists. split; [econstructor; eassumption|reflexivity]. }
        destruct H as (x & A & E). exists (x :: l1). split; [constructor; assumption|].
        rewrite E, <- app_assoc. reflexivity.
      + assert (H : exists x, adds_response preparer k x /\ x_resp (ctx_call preparer c k) = x_resp c ++ x).
        { destruct k; try (exists []; split; [constructor; intros; discriminate|symmetry; apply app_nil_r]).
          destruct (make_unit_ok s options) as (u & U & O). eexists. split; [econstructor; eassumption|reflexivity]. }
        destruct H as (x & A & E). exists (x :: l2). split; [constructor; assumption|].
        rewrite E, <- app_assoc. reflexivity.
  Qed.

  Lemma others l (c : context V X) :
    i_ext (x_info (calls c l)) = i_ext (x_info c) /\ i_rest (x_info (calls c l)) = i_rest (x_info c).
  Proof.
    revert c. induction l as [|k l IH]; intros c; [split; reflexivity|]. unfold ctx_calls in *. simpl fold_left.
    destruct (IH (ctx_call preparer c k)) as [E1 E2]. rewrite E1, E2. destruct k; split; reflexivity.
  Qed.

  Lemma forbidden (c : context V X) loc :
    unknown_forbidden c loc = true <-> get ("x-forbid-unknown-" ^^ loc) (i_ext (x_info c)) = Some (JBool true).
  Proof.
    unfold unknown_forbidden, x_forbid_unknown. destruct (get _ _) as [[]|]; split; intros H; try discriminate; try congruence.
  Qed.

  (* field mappings *)
  Lemma mapping_same loc m (u : cunit_in V) : m <> [] -> field_mapping (set_field_mapping loc m u) loc = m.
  Proof.
    intros N. unfold field_mapping, set_field_mapping. destruct m as [|p m]; [congruence|].
    cbn [u_mapping]. rewrite get_put_same. reflexivity.
  Qed.
  Lemma mapping_other loc loc' m (u : cunit_in V) : loc <> loc' ->
    field_mapping (set_field_mapping loc m u) loc' = field_mapping u loc'.
  Proof.
    intros N. unfold field_mapping, set_field_mapping. destruct m as [|p m]; [reflexivity|].
    cbn [u_mapping]. rewrite get_put_other by congruence. reflexivity.
  Qed.
  Lemma mapping_set loc m (u : cunit_in V) : field_mapping u loc = [] -> field_mapping (set_field_mapping loc m u) loc = m.
  Proof.
    intros E. destruct m as [|p m]; [exact E|]. apply mapping_same. discriminate.
  Qed.
End Contexts.

(* ---------- documents ---------- *)

Lemma secure30_ok d k :
  (exists s, scheme_of30 (secure30 d k) (secured k) = Some s /\ stands_for30 k s) /\
  (forall n, n <> secured k -> scheme_of30 (secure30 d k) n = scheme_of30 d n) /\
  same_rest30 d (secure30 d k).
Proof.
  assert (P : forall n s, scheme_of30 (put_scheme30 d n s) n = Some s /\
    (forall n', n' <> n -> scheme_of30 (put_scheme30 d n s) n' = scheme_of30 d n') /\ same_rest30 d (put_scheme30 d n s)).
  { intros n s. unfold scheme_of30, put_scheme30, same_rest30. destruct d as [i [[[m|] r]|] rest]; cbn [d_components c3_security d_info d_rest c3_rest];
      (split; [apply get_put_same|]); (split; [intros n' N; rewrite get_put_other by congruence; reflexivity|]);
      (split; [reflexivity|split; [reflexivity|eexists; split; [reflexivity|reflexivity]]]). }
  destruct k as [n x|n f l x|n f x]; unfold secure30, secured, basic30, apikey_30, bearer30.
  - destruct (P n (mkSor30 None (Some (mkScheme30 None (Some (mkHttp30 "basic" None (Some x) JNull)) None None)))) as (A & C & D).
    split; [|split; assumption]. eexists. split; [exact A|]. constructor; reflexivity.
  - destruct (P n (mkSor30 None (Some (mkScheme30 (Some (mkKey30 f l (Some x) JNull)) None None None)))) as (A & C & D).
    split; [|split; assumption]. eexists. split; [exact A|]. constructor; reflexivity.
  - match goal with |- context [put_scheme30 d n ?s] => destruct (P n s) as (A & C & D) end.
    split; [|split; assumption]. eexists. split; [exact A|].
    destruct (String.eqb_spec f "") as [->|N]; constructor; cbn; try reflexivity; congruence.
Qed.

Lemma secure31_ok d k :
  (exists s, scheme_of31 (secure31 d k) (secured k) = Some s /\ stands_for31 k s) /\
  (forall n, n <> secured k -> scheme_of31 (secure31 d k) n = scheme_of31 d n) /\
  same_rest31 d (secure31 d k).
Proof.
  assert (P : forall n s, scheme_of31 (put_scheme31 d n s) n = Some s /\
    (forall n', n' <> n -> scheme_of31 (put_scheme31 d n s) n' = scheme_of31 d n') /\ same_rest31 d (put_scheme31 d n s)).
  { intros n s. unfold scheme_of31, put_scheme31, same_rest31. destruct d as [i [[m r]|] rest]; cbn [d_components c1_security d_info d_rest c1_rest];
      (split; [apply get_put_same|]); (split; [intros n' N; rewrite get_put_other by congruence; reflexivity|]);
      (split; [reflexivity|split; [reflexivity|eexists; split; [reflexivity|reflexivity]]]). }
  destruct k as [n x|n f l x|n f x]; unfold secure31, secured, basic31, apikey_31, bearer31.
  - match goal with |- context [put_scheme31 d n ?s] => destruct (P n s) as (A & C & D) end.
    split; [|split; assumption]. eexists. split; [exact A|]. constructor; try reflexivity. repeat split; reflexivity.
  - match goal with |- context [put_scheme31 d n ?s] => destruct (P n s) as (A & C & D) end.
    split; [|split; assumption]. eexists. split; [exact A|]. constructor; try reflexivity. repeat split; reflexivity.
  - match goal with |- context [put_scheme31 d n ?s] => destruct (P n s) as (A & C & D) end.
    split; [|split; assumption]. eexists. split; [exact A|].
    destruct (String.eqb_spec f "") as [->|N]; (eapply s31_bearer; try reflexivity; cbn; try congruence); repeat split; reflexivity.
Qed.

(* After a history the scheme of a name is that of the last call for it. *)
Lemma secure30_history n : forall l d,
  observed (fun k s => secured k = n /\ exists x, s = Some x /\ stands_for30 k x) (scheme_of30 d n) l
    (scheme_of30 (fold_left secure30 l d) n).
Proof.
  (* stands_for30 determines the scheme *)
  assert (U : forall k x y, stands_for30 k x -> stands_for30 k y -> x = y).
  { intros k x y Hx Hy. destruct Hx; inversion Hy; subst;
      repeat match goal with h : http30 |- _ => destruct h | a : apikey30 |- _ => destruct a end; cbn in *; subst; try reflexivity.
    destruct (String.eqb_spec f "") as [->|N];
      repeat match goal with H : "" = "" -> _ |- _ => specialize (H eq_refl) | H : _ <> "" -> _ |- _ => first [specialize (H N)|clear H] | H : _ = "" -> _ |- _ => clear H end;
      subst; reflexivity. }
  intros l d. apply (observed_history secure30 _ (fun d => scheme_of30 d n)).
  - intros s k v (E & x & -> & Hx). destruct (secure30_ok s k) as ((y & Hy & Sy) & _ & _). rewrite <- E, Hy. f_equal. eapply U; eassumption.
  - intros s k N. destruct (secure30_ok s k) as ((y & Hy & Sy) & O & _). apply O. intros ->.
    apply (N (Some y)). split; [reflexivity|]. exists y. auto.
  - intros k. destruct (String.eqb_spec (secured k) n) as [E|NE].
    + left. destruct (secure30_ok (mkDoc (mkDocInfo "" "" None JNull) None JNull) k) as ((y & _ & Sy) & _ & _).
      exists (Some y). split; [exact E|]. eauto.
    + right. intros v (E & _). contradiction.
Qed.

Lemma secure31_history n : forall l d,
  observed (fun k s => secured k = n /\ exists x, s = Some x /\ stands_for31 k x) (scheme_of31 d n) l
    (scheme_of31 (fold_left secure31 l d) n).
Proof.
  assert (U : forall k x y, stands_for31 k x -> stands_for31 k y -> x = y).
  { intros k x y Hx Hy. destruct Hx; inversion Hy; subst;
      repeat match goal with s : scheme31 |- _ => destruct s | b : bearer_member |- _ => destruct b | H : no_other31 _ |- _ => destruct H as (? & ? & ? & ?) end;
      cbn in *; subst; try reflexivity.
    repeat match goal with H : Some _ = Some _ |- _ => injection H as H; cbn in *; subst end.
    destruct (String.eqb_spec f "") as [->|N];
      repeat match goal with H : "" = "" -> _ |- _ => specialize (H eq_refl) | H : _ <> "" -> _ |- _ => first [specialize (H N)|clear H] | H : _ = "" -> _ |- _ => clear H end;
      subst; reflexivity. }
  intros l d. apply (observed_history secure31 _ (fun d => scheme_of31 d n)).
  - intros s k v (E & x & -> & Hx). destruct (secure31_ok s k) as ((y & Hy & Sy) & _ & _). rewrite <- E, Hy. f_equal. eapply U; eassumption.
  - intros s k N. destruct (secure31_ok s k) as ((y & Hy & Sy) & O & _). apply O. intros ->.
    apply (N (Some y)). split; [reflexivity|]. exists y. auto.
  - intros k. destruct (String.eqb_spec (secured k) n) as [E|NE].
    + left. destruct (secure31_ok (mkDoc (mkDocInfo "" "" None JNull) None JNull) k) as ((y & _ & Sy) & _ & _).
      exists (Some y). split; [exact E|]. eauto.
    + right. intros v (E & _). contradiction.
Qed.

Lemma info_history {C} l (d : doc C) :
  observed (fun k s => k = ITitle s) (title d) l (title (fold_left info_call l d)) /\
  observed (fun k s => k = IVersion s) (version d) l (version (fold_left info_call l d)) /\
  observed (fun k s => k = IDescription s) (description d) l (description (fold_left info_call l d)) /\
  d_components (fold_left info_call l d) = d_components d /\ d_rest (fold_left info_call l d) = d_rest d /\
  di_rest (d_info (fold_left info_call l d)) = di_rest (d_info d).
Proof.
  split; [|split; [|split]].
  1-3: match goal with |- observed ?sets (?g ?d) _ _ => apply (observed_history info_call sets g) end.
  all: try (intros s k v H; rewrite H; reflexivity).
  all: try (intros s k H; destruct k; try reflexivity; exfalso; apply (H _ eq_refl)).
  1-3: intros k; destruct k; try (right; intros ? ?; discriminate); left; eexists; reflexivity.
  revert d. induction l as [|k l IH]; intros d; [repeat split; reflexivity|]. simpl fold_left.
  destruct (IH (info_call d k)) as (E1 & E2 & E3). rewrite E1, E2, E3. destruct k; repeat split; reflexivity.
Qed.

(* ---------- references ---------- *)

Lemma drop_app p s : drop (String.length p) (p ^^ s) = s.
Proof. induction p as [|c p IH]; [destruct s; reflexivity|exact IH]. Qed.
Lemma prefix_true p s : String.prefix p s = true <-> exists s', s = p ^^ s'.
Proof.
  revert s. induction p as [|c p IH]; intros s.
  - split; [intros _; exists s; reflexivity|]. destruct s; reflexivity.
  - destruct s as [|d s]; cbn [String.prefix].
    + split; [discriminate|]. intros [s' E]. discriminate.
    + destruct (ascii_dec c d) as [->|N].
      * rewrite IH. split; intros [s' E]; exists s'.
        -- rewrite E. reflexivity.
        -- cbn in E. congruence.
      * split; [discriminate|]. intros [s' E]. cbn in E. congruence.
Qed.

Lemma resolve_ok {Sch T} (to_json : Sch -> out T) c ref :
  (forall name s, ref = "#/components/schemas/" ^^ name -> get name c = Some s ->
     resolve_ref to_json c ref = match to_json s with Ret t => Ret (Some t) | Err => Err | Panic => Panic end) /\
  ((forall name, ref = "#/components/schemas/" ^^ name -> get name c = None) -> resolve_ref to_json c ref = Ret None).
Proof.
  unfold resolve_ref. change "#/components/schemas/" with schemas_prefix. split.
  - intros name s -> G. assert (P : String.prefix schemas_prefix (schemas_prefix ^^ name) = true)
      by (apply prefix_true; eauto). rewrite P, drop_app, G. reflexivity.
  - intros N. destruct (String.prefix schemas_prefix ref) eqn:P; [|reflexivity].
    apply prefix_true in P. destruct P as [name ->]. rewrite drop_app, (N _ eq_refl). reflexivity.
Qed.

(* ---------- deprecated form ---------- *)

Section Deprecated.
  Context {V O : Type}.
  Variable preparer : V -> option (cunit_in V -> cunit_in V).

  Lemma plain_unit s fs : plain preparer s ->
    make_unit preparer s fs = fold_left (fun u f => f u) fs (mkUnit s "" "" 0 false "" None []).
  Proof.
    intros P. unfold make_unit. destruct s as [v|]; [rewrite (P v eq_refl)|]; reflexivity.
  Qed.

  Lemma unit_kept (loc : string) m (u : cunit_in V) :
    u_struct (set_field_mapping loc m u) = u_struct u /\ u_ctype (set_field_mapping loc m u) = u_ctype u /\
    u_status (set_field_mapping loc m u) = u_status u.
  Proof. destruct m; repeat split; reflexivity. Qed.

  Lemma round_trip (c : depctx V O) : plain preparer (d_input c) -> plain preparer (d_output c) ->
    from_op_ctx (O := O) (fst (to_op_ctx preparer c)) =
    mkDep None (d_input c) (d_method c) (d_query c) (d_path c) (d_cookie c) (d_header c) (d_form c)
      (d_output c) (d_status c) (d_ctype c) (d_resp_header c) (d_proc_resp c) (d_proc_in c).
  Proof.
    intros P1 P2. unfold to_op_ctx, from_op_ctx. cbn [fst n_req n_resp n_method n_proc_resp n_proc_in].
    rewrite (plain_unit _ _ P1), (plain_unit _ _ P2).
    cbn [fold_left d_op d_input d_method d_query d_path d_cookie d_header d_form d_output d_status d_ctype d_resp_header d_proc_resp d_proc_in].
    repeat match goal with
    | |- context [u_struct (set_field_mapping ?l ?m ?u)] => rewrite (proj1 (unit_kept l m u))
    | |- context [u_ctype (set_field_mapping ?l ?m ?u)] => rewrite (proj1 (proj2 (unit_kept l m u)))
    | |- context [u_status (set_field_mapping ?l ?m ?u)] => rewrite (proj2 (proj2 (unit_kept l m u)))
    end.
    repeat (rewrite mapping_set; [|repeat (rewrite mapping_other by discriminate); reflexivity]
            || rewrite mapping_other by discriminate).
    reflexivity.
  Qed.

  (* What the deprecated form shows of a context. *)
  Lemma view (x : ictx V) :
    let c := from_op_ctx (O := O) x in
    d_op c = None /\ d_method c = n_method x /\ d_proc_resp c = n_proc_resp x /\ d_proc_in c = n_proc_in x /\
    (forall u l, n_req x = u :: l -> d_input c = u_struct u /\ d_query c = field_mapping u "query" /\ d_path c = field_mapping u "path" /\
       d_cookie c = field_mapping u "cookie" /\ d_header c = field_mapping u "header" /\ d_form c = field_mapping u "formData") /\
    (n_req x = [] -> d_input c = None /\ d_query c = [] /\ d_path c = [] /\ d_cookie c = [] /\ d_header c = [] /\ d_form c = []) /\
    (forall u l, n_resp x = u :: l -> d_output c = u_struct u /\ d_status c = u_status u /\ d_ctype c = u_ctype u /\
       d_resp_header c = field_mapping u "header") /\
    (n_resp x = [] -> d_output c = None /\ d_status c = 0%Z /\ d_ctype c = "" /\ d_resp_header c = []).
  Proof.
    unfold from_op_ctx. destruct (n_req x) as [|u l]; destruct (n_resp x) as [|u' l']; cbn;
      repeat split; intros; try discriminate; try congruence;
      repeat match goal with H : _ :: _ = _ :: _ |- _ => injection H; intros; subst end; reflexivity.
  Qed.
End Deprecated.

Section Flows.
  Variables V J Sch : Type.
  Variable B : backend J Sch.
  Variable preparer : V -> option (cunit_in V -> cunit_in V).
  Variable report : cunit_in V -> cunit J Sch.

  (* The method matters only in upper case. *)
  Lemma request_method m m' : to_upper m = to_upper m' ->
    forall cus (st : comps Sch * op30 Sch), setup_request B cus m st = setup_request B cus m' st.
  Proof.
    intros E cus. induction cus as [|cu cus IH]; intros st; [reflexivity|]. cbn [setup_request].
    assert (U : request_unit B cu m st = request_unit B cu m' st).
    { unfold request_unit, request_content, parse_request_body, body_wanted, safe_method. rewrite E. reflexivity. }
    rewrite U. destruct (request_unit B cu m' st) as [st' [[]| |]]; [apply IH|reflexivity..].
  Qed.

  Lemma response_method m m' : String.eqb (to_upper m) "HEAD" = String.eqb (to_upper m') "HEAD" ->
    forall cus (st : comps Sch * responses Sch), setup_response B cus m st = setup_response B cus m' st.
  Proof.
    intros E cus. induction cus as [|cu cus IH]; intros st; [reflexivity|]. cbn [setup_response].
    assert (U : response_unit B cu m st = response_unit B cu m' st).
    { unfold response_unit, fill_response. rewrite E. reflexivity. }
    rewrite U. destruct (response_unit B cu m' st) as [st' [[]| |]]; [apply IH|reflexivity..].
  Qed.

  (* The deprecated calls and the units of a context. *)
  Lemma set_request_eq input method (st : comps Sch * op30 Sch) :
    set_request V J Sch B preparer report input method st = setup_request B [report (make_unit preparer input [])] method st.
  Proof. reflexivity. Qed.
  Lemma set_response_eq output status cs (o : op30 Sch) : plain preparer output ->
    set_json_response V J Sch B preparer report output status (cs, o) =
    match setup_response B [report (make_unit preparer output [with_status status])] "" (cs, op_responses o) with
    | ((cs, rs), e) => ((cs, set_responses o rs), e)
    end.
  Proof.
    intros P. unfold set_json_response, dep_setup_response, to_op_ctx. cbn [fst n_resp n_method d_method d_output d_status d_ctype d_resp_header].
    rewrite !(plain_unit _ _ _ P). reflexivity.
  Qed.

  Lemma dep_request (c : depctx V unit) st : plain preparer (d_input c) ->
    exists u, dep_setup_request V J Sch B preparer report c st = setup_request B [report u] (d_method c) st /\
      u_struct u = d_input c /\ u_ctype u = "" /\ u_format u = "" /\ u_desc u = "" /\ u_custom u = None /\
      field_mapping u "query" = d_query c /\ field_mapping u "path" = d_path c /\ field_mapping u "cookie" = d_cookie c /\
      field_mapping u "header" = d_header c /\ field_mapping u "formData" = d_form c.
  Proof.
    intros P. unfold dep_setup_request, to_op_ctx. cbn [fst n_req n_method map]. eexists. split; [reflexivity|].
    rewrite (plain_unit _ _ _ P). cbn [fold_left].
    repeat match goal with |- _ /\ _ => split end.
    1-5: destruct (d_form c), (d_path c), (d_cookie c), (d_query c), (d_header c); reflexivity.
    all: repeat (rewrite mapping_set; [|repeat (rewrite mapping_other by discriminate); reflexivity]
            || rewrite mapping_other by discriminate); reflexivity.
  Qed.

  Lemma dep_response (c : depctx V unit) cs (o : op30 Sch) : plain preparer (d_output c) ->
    exists u, dep_setup_response V J Sch B preparer report c (cs, o) =
        (let '((cs', rs), e) := setup_response B [report u] (d_method c) (cs, op_responses o) in ((cs', set_responses o rs), e)) /\
      u_struct u = d_output c /\ u_ctype u = d_ctype c /\ u_status u = d_status c /\ u_default u = false /\ u_format u = "" /\
      u_desc u = "" /\ u_custom u = None /\ field_mapping u "header" = d_resp_header c.
  Proof.
    intros P. unfold dep_setup_response, to_op_ctx. cbn [fst n_resp n_method map]. eexists. split; [reflexivity|].
    rewrite (plain_unit _ _ _ P). cbn [fold_left].
    repeat match goal with |- _ /\ _ => split end; destruct (d_resp_header c); reflexivity.
  Qed.

  Lemma flows r method path input output status m ps : plain preparer output ->
    sanitize_method_path method path = Some (m, path, ps) -> to_upper method = to_upper m -> m <> "head" ->
    forall r', old_flow V J Sch B preparer report r method path input output status = Some r' <->
               new_flow V J Sch B preparer report r method path input output status = Some r'.
  Proof.
    intros P S UP NH r'. unfold old_flow, new_flow, new_context30. rewrite S.
    assert (LM : to_lower method = m) by (unfold sanitize_method_path in S; destruct (mem _ _); [|discriminate]; congruence).
    assert (OM : openapi_method m) by (destruct (parses_total path) as [l Hl]; apply (sanitize_some _ _ _ _ _ _ Hl S)).
    assert (NU : String.eqb (to_upper "") "HEAD" = String.eqb (to_upper m) "HEAD")
      by (destruct OM as [->|[->|[->|[->|[->|[->|[->| ->]]]]]]]; try reflexivity; congruence).
    assert (LL : to_lower m = m) by (apply to_lower_fix; exact OM).
    assert (S' : sanitize_method_path m path = Some (m, path, ps))
      by (eapply sanitize_canon; exact S).
    rewrite set_request_eq, (request_method _ _ UP).
    destruct (get m (pi_ops (item30 (r30_paths r) path))) as [x|] eqn:G.
    - split; [|discriminate].
      destruct (setup_request B _ m (r30_comps r, zero_op30)) as [[cs o] [[]| |]]; [|discriminate..].
      match goal with |- context [set_json_response V J Sch B preparer report output status ?x] =>
        destruct (set_json_response V J Sch B preparer report output status x) as [[cs' o'] [[]| |]] end; [|discriminate..].
      unfold add_operation30. rewrite LM, G. discriminate.
    - unfold reflector_add30, setup_oc30, setup_oc. unfold op30, comps in *. cbn [oc_method oc_path oc_req oc_resp oc_op oc_params].
      match goal with |- context [setup_request B ?l m ?x] => destruct (setup_request B l m x) as [[cs o] [[]| |]] eqn:E1 end;
        [|cbn; split; discriminate..].
      rewrite set_response_eq by exact P. rewrite (response_method _ _ NU).
      destruct (setup_response B _ m (cs, op_responses o)) as [[cs' rs] e] eqn:E2.
      unfold add_operation30, setup_operation30, op30, comps in *. rewrite LM, LL, G, S'. cbn [run_setups].
      assert (PR' : forall rs' : responses Sch, op_params (set_responses (set_responses o rs) rs') = op_params o) by reflexivity.
      destruct (validate_path_params (op_params o) ps) as [|e0 es] eqn:VP; cbn [map n_resp].
      + match goal with |- context [setup_response B ?l m ?x] =>
          replace (setup_response B l m x) with ((cs', rs), e) by (symmetry; exact E2) end.
        destruct e as [[]| |]; [|split; discriminate..]. rewrite PR', VP. reflexivity.
      + destruct e as [[]| |]; [|split; discriminate..]. rewrite PR', VP. split; discriminate.
  Qed.
End Flows.
