(* The order in which operations are added and definitions are reported: the
   specification. *)
From Coq Require Import Permutation.
From Verif Require Import Str SMap Json PathModel Types RegistryModel ReflectModel ReflectSpec.

Section Spec.
  Context {J Sch : Type}.
  Notation cunit := (cunit J Sch).
  Notation prop := (prop J).

  (* A definition that some reflection of the unit reports. *)
  Inductive reports (cu : cunit) (n : string) (j : J) : Prop :=
  | rp_event loc : In (EDef n j) (fst (v_params cu loc)) -> reports cu n j
  | rp_field loc q : In (EProp q) (fst (v_params cu loc)) -> In (n, j) (pr_json_defs q) -> reports cu n j
  | rp_body tag s defs : snd (v_body cu tag) = Ret (s, defs) -> In (n, j) defs -> reports cu n j
  | rp_json : In (n, j) (fst (v_json cu)) -> reports cu n j.

  (* Definitions of the same name become the same component schema: [meaning]
     gives it for every name. *)
  Definition units_agree (B : backend J Sch) (meaning : string -> Sch) (cus : list cunit) : Prop :=
    forall cu n j, In cu cus -> reports cu n j -> b_conv B j = Ret (meaning n).
  Definition comps_agree (meaning : string -> Sch) (c : smap Sch) : Prop :=
    forall n s, get n c = Some s -> s = meaning n.
  Definition call_agrees {R} (B : backend J Sch) (meaning : string -> Sch) (oc : opctx J Sch R) : Prop :=
    units_agree B meaning (oc_req oc) /\ units_agree B meaning (oc_resp oc).

  (* The same reports with definitions in another order, as the reflection
     library, which keeps them in a map, may give them: those at the end of a
     reflection, those of a field encoded as JSON, those of a body. *)
  Record prop_varies (q q' : prop) : Prop := {
    pv_processed : pr_processed q' = pr_processed q;
    pv_depth : pr_depth q' = pr_depth q;
    pv_name : pr_name q' = pr_name q;
    pv_schema : pr_schema q' = pr_schema q;
    pv_ptr : pr_ptr q' = pr_ptr q;
    pv_cf : pr_cf q' = pr_cf q;
    pv_tag_json : pr_tag_json q' = pr_tag_json q;
    pv_tag_in : pr_tag_in q' = pr_tag_in q;
    pv_defs : Permutation (pr_json_defs q) (pr_json_defs q');
    pv_json : pr_json q' = pr_json q;
    pv_plain : pr_plain q' = pr_plain q;
    pv_tags : pr_tags q' = pr_tags q }.

  Inductive event_varies : pevent J -> pevent J -> Prop :=
  | ev_prop q q' : prop_varies q q' -> event_varies (EProp q) (EProp q')
  | ev_def n j : event_varies (EDef n j) (EDef n j).
  Inductive events_vary : list (pevent J) -> list (pevent J) -> Prop :=
  | es_end defs defs' : Permutation defs defs' ->
      events_vary (map (fun d => EDef (fst d) (snd d)) defs) (map (fun d => EDef (fst d) (snd d)) defs')
  | es_step e e' es es' : event_varies e e' -> events_vary es es' -> events_vary (e :: es) (e' :: es').

  Inductive body_varies : out (J * list (string * J)) -> out (J * list (string * J)) -> Prop :=
  | bv_ret j defs defs' : Permutation defs defs' -> body_varies (Ret (j, defs)) (Ret (j, defs'))
  | bv_err : body_varies Err Err
  | bv_panic : body_varies Panic Panic.

  Record unit_varies (cu cu' : cunit) : Prop := {
    uv_nil : cu_nil cu' = cu_nil cu;
    uv_ctype : cu_ctype cu' = cu_ctype cu;
    uv_format : cu_format cu' = cu_format cu;
    uv_status : cu_status cu' = cu_status cu;
    uv_default : cu_default cu' = cu_default cu;
    uv_desc : cu_desc cu' = cu_desc cu;
    uv_form_mapping : cu_form_mapping cu' = cu_form_mapping cu;
    uv_custom_req : cu_custom_req cu' = cu_custom_req cu;
    uv_custom_resp : cu_custom_resp cu' = cu_custom_resp cu;
    uv_force_body : v_force_body cu' = v_force_body cu;
    uv_force_json : v_force_json cu' = v_force_json cu;
    uv_slice : v_slice cu' = v_slice cu;
    uv_embedded : v_embedded_slice cu' = v_embedded_slice cu;
    uv_struct : v_struct cu' = v_struct cu;
    uv_tagged : forall t, v_tagged cu' t = v_tagged cu t;
    uv_without : v_without_tags cu' = v_without_tags cu;
    uv_body : forall tag, fst (v_body cu' tag) = fst (v_body cu tag) /\ body_varies (snd (v_body cu tag)) (snd (v_body cu' tag));
    uv_params : forall loc, events_vary (fst (v_params cu loc)) (fst (v_params cu' loc)) /\
                  snd (v_params cu' loc) = snd (v_params cu loc);
    uv_content_tags : v_content_tags cu' = v_content_tags cu;
    uv_has_json : v_has_json cu' = v_has_json cu;
    uv_json : Permutation (fst (v_json cu)) (fst (v_json cu')) /\ snd (v_json cu') = snd (v_json cu);
    uv_headers : v_headers cu' = v_headers cu }.

  (* The same call up to this. *)
  Record call_varies {R} (oc oc' : opctx J Sch R) : Prop := {
    cv_method : oc_method oc' = oc_method oc;
    cv_path : oc_path oc' = oc_path oc;
    cv_op : oc_op oc' = oc_op oc;
    cv_params : oc_params oc' = oc_params oc;
    cv_req : Forall2 unit_varies (oc_req oc) (oc_req oc');
    cv_resp : Forall2 unit_varies (oc_resp oc) (oc_resp oc') }.

  (* A sequence of calls: the reflector at the end, and for each call the
     operation of its context afterwards and the result. *)
  Definition call30 := opctx J Sch (responses Sch).
  Fixpoint calls30 (B : backend J Sch) (r : refl30 Sch) (l : list call30) : refl30 Sch * list (op30 Sch * add_result) :=
    match l with
    | [] => (r, [])
    | oc :: l' => let '(r1, oc1, a) := reflector_add30 B r oc in
                  let (r2, t) := calls30 B r1 l' in (r2, (oc_op oc1, a) :: t)
    end.
  (* the flag selects AddWebhook *)
  Definition call31 := (bool * opctx J Sch (option (responses Sch)))%type.
  Fixpoint calls31 (B : backend J Sch) (r : refl31 Sch) (l : list call31) : refl31 Sch * list (op31 Sch * add_result) :=
    match l with
    | [] => (r, [])
    | (hook, oc) :: l' => let '(r1, oc1, a) := (if hook then reflector_webhook31 B else reflector_add31 B) r oc in
                          let (r2, t) := calls31 B r1 l' in (r2, (oc_op oc1, a) :: t)
    end.

  (* Where a call puts its operation. *)
  Definition place30 (oc : call30) : string * string := (oc_path oc, oc_method oc).
  Definition place31 (a : call31) : bool * string * string :=
    if fst a then (true, oc_path (snd a), "") else (false, oc_path (snd a), oc_method (snd a)).

  (* The same reflector: the same paths with the same methods with the same
     operations, the same webhooks, the same component schemas. *)
  Definition same_opt {A} (R : A -> A -> Prop) (x y : option A) : Prop :=
    match x, y with Some a, Some b => R a b | None, None => True | _, _ => False end.
  Definition same_item30 (i i' : pitem30 Sch) : Prop := map_eq (pi_ops i) (pi_ops i') /\ pi30_rest i = pi30_rest i'.
  Definition same_paths30 (s s' : paths30 Sch) : Prop :=
    (forall p, same_opt same_item30 (get p (sp30_items s)) (get p (sp30_items s'))) /\ sp30_rest s = sp30_rest s'.
  Definition same_refl30 (r r' : refl30 Sch) : Prop :=
    same_paths30 (r30_paths r) (r30_paths r') /\ map_eq (r30_comps r) (r30_comps r').
  Definition same_paths31 (s s' : paths31 Sch) : Prop :=
    same_opt map_eq (sp31_items s) (sp31_items s') /\ map_eq (sp31_webhooks s) (sp31_webhooks s') /\ sp31_rest s = sp31_rest s'.
  Definition same_refl31 (r r' : refl31 Sch) : Prop :=
    same_paths31 (r31_paths r) (r31_paths r') /\ map_eq (r31_comps r) (r31_comps r').
End Spec.
Arguments call30 : clear implicits. Arguments call31 : clear implicits.
