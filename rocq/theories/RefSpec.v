(* The schemas that an operation shows, where they come from, and whether the
   references in them lead anywhere. *)
From Verif Require Import Str SMap Json Types RegistryModel RegistrySpec ReflectModel ReflectSpec BodySpec SchemaModel.

Section Spec.
  Context {J Sch : Type}.
  Notation cunit := (cunit J Sch).
  Notation prop := (prop J).

  (* ------------------------------------------------------------------ *)
  (* What an operation shows                                              *)

  Definition media_shows (m : smap (media Sch)) (s : Sch) : Prop := exists k x, In (k, x) m /\ mt_schema x = Some s.
  Definition param_shows (x : por Sch) (s : Sch) : Prop :=
    exists p, por_param x = Some p /\ (p_schema p = Some s \/ media_shows (p_content p) s).
  Definition body_shows (x : rbor Sch) (s : Sch) : Prop := exists b, rbor_body x = Some b /\ media_shows (rb_content b) s.
  Definition headers_show (m : smap (header Sch)) (s : Sch) : Prop := exists k h, In (k, h) m /\ h_schema h = Some s.
  Definition response_shows (x : ror Sch) (s : Sch) : Prop :=
    exists r, ror_resp x = Some r /\ (media_shows (rs_content r) s \/ headers_show (rs_headers r) s).
  Definition responses_show (rs : responses Sch) (s : Sch) : Prop :=
    exists x, (rs_default rs = Some x \/ exists k, In (k, x) (rs_map rs)) /\ response_shows x s.

  Definition shows (v : view Sch) (s : Sch) : Prop :=
    (exists x, In x (vw_params v) /\ param_shows x s) \/
    (exists x, vw_body v = Some x /\ body_shows x s) \/
    responses_show (vw_responses v) s.

  (* Customizations of a unit that add no schemas. *)
  Definition customs_keep (cu : cunit) : Prop :=
    (forall f x s, cu_custom_req cu = Some f -> body_shows (f x) s -> body_shows x s) /\
    (forall f x s, cu_custom_resp cu = Some f -> response_shows (f x) s -> response_shows x s).

  (* ------------------------------------------------------------------ *)
  (* Where schemas come from                                              *)

  (* The schemas that the reflection library reports in a call, besides the
     definitions. *)
  Inductive call_schema (m : string) (req resp : list cunit) : J -> Prop :=
  | cs_param cu loc q : In cu req -> In (loc, q) (param_fields cu) -> ~ json_encoded q -> call_schema m req resp (pr_schema q)
  | cs_param_json cu loc q j : In cu req -> In (loc, q) (param_fields cu) -> json_encoded q -> pr_json q = Ret j ->
      call_schema m req resp j
  | cs_body_json cu j defs : In cu req -> In (cu_ctype cu) [""; "application/json"] -> wants_json m cu ->
      snd (v_body cu "json") = Ret (j, defs) -> call_schema m req resp j
  | cs_body_form cu j defs : In cu req ->
      In (cu_ctype cu) [""; "application/x-www-form-urlencoded"; "multipart/form-data"] -> wants_form m cu ->
      snd (v_body cu "formData") = Ret (j, defs) -> call_schema m req resp j
  | cs_json cu j : In cu resp -> m <> "head" -> cu_nil cu = false -> v_has_json cu <> Ret false -> snd (v_json cu) = Ret j ->
      call_schema m req resp j
  | cs_header cu q : In cu resp -> cu_nil cu = false -> In q (fst (v_headers cu)) -> considered q = true ->
      call_schema m req resp (pr_schema q).

  (* The formats of bodies without a structure. *)
  Definition call_format (req resp : list cunit) (f : string) : Prop :=
    f = "" \/ exists cu, In cu (req ++ resp) /\ f = cu_format cu.

  (* A schema made from what is reported in a call. *)
  Definition made_of (B : backend J Sch) (m : string) (req resp : list cunit) (s : Sch) : Prop :=
    (exists j t, call_schema m req resp j /\ b_conv B j = Ret t /\ (s = t \/ s = b_unnull B t)) \/
    (exists f, call_format req resp f /\ s = b_string B f).

  (* ------------------------------------------------------------------ *)
  (* References                                                           *)

  (* [mj j n]: the JSON schema [j] refers to the definition [n];
     [ms s n]: the schema [s] refers to the component [n]. *)
  Variable mj : J -> string -> Prop.
  Variable ms : Sch -> string -> Prop.

  (* Conversion adds no references. *)
  Definition adds_no_references (B : backend J Sch) : Prop :=
    (forall j s n, b_conv B j = Ret s -> ms s n -> mj j n) /\
    (forall s n, ms (b_unnull B s) n -> ms s n) /\
    (forall f n, ~ ms (b_string B f) n).

  (* All references of [s] lead to a component. *)
  Definition resolves (c : smap Sch) (s : Sch) : Prop := forall n, ms s n -> exists t, get n c = Some t.
  Definition closed (c : smap Sch) : Prop := forall n s, get n c = Some s -> resolves c s.

  (* A reflection reports all definitions that its schemas refer to. *)
  Definition complete (js : list J) (defs : list (string * J)) : Prop :=
    forall j n, In j (js ++ map snd defs) -> mj j n -> In n (map fst defs).

  Definition convertible (B : backend J Sch) (defs : list (string * J)) : Prop :=
    forall n j, In (n, j) defs -> exists s, b_conv B j = Ret s.

  (* The reflection of a structure: properties are reported before definitions. *)
  Definition whole_params (B : backend J Sch) (es : list (pevent J)) : Prop :=
    exists qs defs, es = map EProp qs ++ map (fun d => EDef (fst d) (snd d)) defs /\
      complete (map pr_schema qs) defs /\ convertible B defs /\
      forall q, In q qs -> json_encoded q ->
        complete (match pr_json q with Ret j => [j] | _ => [] end) (pr_json_defs q) /\ convertible B (pr_json_defs q).

  Definition whole_unit (B : backend J Sch) (cu : cunit) : Prop :=
    (forall loc, whole_params B (fst (v_params cu loc))) /\
    (forall tag j defs, snd (v_body cu tag) = Ret (j, defs) -> complete [j] defs /\ convertible B defs) /\
    (complete (match snd (v_json cu) with Ret j => [j] | _ => [] end) (fst (v_json cu)) /\ convertible B (fst (v_json cu))) /\
    (forall q n, In q (fst (v_headers cu)) -> ~ mj (pr_schema q) n) /\
    customs_keep cu.

  (* A call: nothing is said about the operation but that it refers to nothing
     before the call. *)
  Definition whole_call {R} (B : backend J Sch) (f : R -> responses Sch) (oc : opctx J Sch R) : Prop :=
    (forall s n, shows (view_of f (oc_op oc)) s -> ~ ms s n) /\
    forall cu, In cu (oc_req oc ++ oc_resp oc) -> whole_unit B cu.
End Spec.

(* ------------------------------------------------------------------ *)
(* References in schemas                                                 *)

Inductive o_refers : osor -> string -> Prop :=
| or_ref n : o_refers (ORef ("#/components/schemas/" ^^ n)) n
| or_not a x al on an it pr ad n : o_refers x n -> o_refers (OSch a (Some x) al on an it pr ad) n
| or_all a nt x al on an it pr ad n : In x al -> o_refers x n -> o_refers (OSch a nt al on an it pr ad) n
| or_one a nt al x on an it pr ad n : In x on -> o_refers x n -> o_refers (OSch a nt al on an it pr ad) n
| or_any a nt al on x an it pr ad n : In x an -> o_refers x n -> o_refers (OSch a nt al on an it pr ad) n
| or_items a nt al on an x pr ad n : o_refers x n -> o_refers (OSch a nt al on an (Some x) pr ad) n
| or_prop a nt al on an it k x pr ad n : In (k, x) pr -> o_refers x n -> o_refers (OSch a nt al on an it pr ad) n
| or_addl a nt al on an it pr b x n : o_refers x n -> o_refers (OSch a nt al on an it pr (Some (Addl b (Some x)))) n.

Inductive j_refers : jsob -> string -> Prop :=
| jr_ref a n nt al on an it tu pr ad ot : j_refers (JSObj a (Some ("#/components/schemas/" ^^ n)) nt al on an it tu pr ad ot) n
| jr_not a r x al on an it tu pr ad ot n : j_refers x n -> j_refers (JSObj a r (Some x) al on an it tu pr ad ot) n
| jr_all a r nt x al on an it tu pr ad ot n : In x al -> j_refers x n -> j_refers (JSObj a r nt al on an it tu pr ad ot) n
| jr_one a r nt al x on an it tu pr ad ot n : In x on -> j_refers x n -> j_refers (JSObj a r nt al on an it tu pr ad ot) n
| jr_any a r nt al on x an it tu pr ad ot n : In x an -> j_refers x n -> j_refers (JSObj a r nt al on an it tu pr ad ot) n
| jr_items a r nt al on an x tu pr ad ot n : j_refers x n -> j_refers (JSObj a r nt al on an (Some x) tu pr ad ot) n
| jr_prop a r nt al on an it tu k x pr ad ot n : In (k, x) pr -> j_refers x n -> j_refers (JSObj a r nt al on an it tu pr ad ot) n
| jr_addl a r nt al on an it tu pr x ot n : j_refers x n -> j_refers (JSObj a r nt al on an it tu pr (Some x) ot) n.

(* A reference anywhere in a JSON value. *)
Inductive json_refers : json -> string -> Prop :=
| sr_ref l n : In ("$ref", JStr ("#/components/schemas/" ^^ n)) l -> json_refers (JObj l) n
| sr_obj k x l n : In (k, x) l -> json_refers x n -> json_refers (JObj l) n
| sr_arr x l n : In x l -> json_refers x n -> json_refers (JArr l) n.
Definition map_refers (s : smap json) (n : string) : Prop := json_refers (JObj s) n.

(* ------------------------------------------------------------------ *)
(* Documents                                                             *)

(* No reference of the document leads nowhere. *)
Definition sound30 {Sch} (ms : Sch -> string -> Prop) (r : refl30 Sch) : Prop :=
  closed ms (r30_comps r) /\
  forall p m o s, doc30 (r30_paths r) p m = Some o -> shows (view30 o) s -> resolves ms (r30_comps r) s.
Definition sound31 {Sch} (ms : Sch -> string -> Prop) (r : refl31 Sch) : Prop :=
  closed ms (r31_comps r) /\
  (forall p m o s, doc31 (r31_paths r) p m = Some o -> shows (view31 o) s -> resolves ms (r31_comps r) s) /\
  (forall p m o s, hook31 (r31_paths r) p m = Some o -> shows (view31 o) s -> resolves ms (r31_comps r) s).
