(* Specification of the walkers. *)
From Coq Require Import Permutation.
From Verif Require Import Str SMap Json SchemaModel Types ReflectModel ReflectSpec WalkModel.

(* Canonical header names: a name made of the bytes allowed in header names has
   its first letter and the letters after hyphens in upper case, the other
   letters in lower case; any other name is left alone. *)
Definition lowers := "abcdefghijklmnopqrstuvwxyz".
Definition uppers := "ABCDEFGHIJKLMNOPQRSTUVWXYZ".
Fixpoint occurs (c : ascii) (s : string) : Prop :=
  match s with EmptyString => False | String d s => c = d \/ occurs c s end.
Definition name_bytes := "!#$%&'*+-.^_`|~0123456789" ^^ lowers ^^ uppers.
Definition recased (from to : string) (c c' : ascii) : Prop :=
  (exists i, String.get i from = Some c /\ String.get i to = Some c') \/ (~ occurs c from /\ c' = c).
Inductive title_case : bool -> string -> string -> Prop :=
| tc_nil b : title_case b "" ""
| tc_up c c' s s' : recased lowers uppers c c' -> title_case (Ascii.eqb c "-") s s' -> title_case true (String c s) (String c' s')
| tc_low c c' s s' : recased uppers lowers c c' -> title_case (Ascii.eqb c "-") s s' -> title_case false (String c s) (String c' s').
Inductive canonical : string -> string -> Prop :=
| cn_name s s' : (forall c, occurs c s -> occurs c name_bytes) -> title_case true s s' -> canonical s s'
| cn_other s c : occurs c s -> ~ occurs c name_bytes -> canonical s s.

(* What a walker is going to do: the next call, or a panic. *)
Notation slot := (out scall).

(* Doing it, one call after the other: the first answer that is not nil ends
   the walk. *)
Inductive executes (cb : list scall -> scall -> answer) : list scall -> list slot -> list scall -> wres -> Prop :=
| ex_end t : executes cb t [] t WOk
| ex_nil t x plan t' r : cb t x = CNil -> executes cb (t ++ [x]) plan t' r -> executes cb t (Ret x :: plan) t' r
| ex_err t x plan e : cb t x = CErr e -> executes cb t (Ret x :: plan) (t ++ [x]) (WCall e)
| ex_panic t x plan : cb t x = CPanic -> executes cb t (Ret x :: plan) (t ++ [x]) WPanic
| ex_stuck t plan : executes cb t (Panic :: plan) t WPanic.

Definition flag (o : option bool) (b : bool) : Prop := b = true <-> o = Some true.

Section Plans.
  Variable Sch : Type.
  Variable to_json : comps Sch -> option Sch -> out js.
  Variable c : comps Sch.

  (* A call with the JSON schema of a schema, if the conversion gives one. *)
  Inductive schema_slot (loc name : string) (req : bool) (s : option Sch) : slot -> Prop :=
  | ss_ret j : to_json c s = Ret j -> schema_slot loc name req s (Ret (mkSCall loc name (Some j) req))
  | ss_panic : (forall j, to_json c s <> Ret j) -> schema_slot loc name req s Panic.

  (* Parameters: the schema, or the schema of the JSON content, or nothing. *)
  Inductive param_slot : por Sch -> slot -> Prop :=
  | ps_schema x p s b sl : por_param x = Some p -> p_schema p = Some s -> flag (p_required p) b ->
      schema_slot (p_in p) (p_name p) b (Some s) sl -> param_slot x sl
  | ps_content x p m s b sl : por_param x = Some p -> p_schema p = None -> get "application/json" (p_content p) = Some m ->
      mt_schema m = Some s -> flag (p_required p) b ->
      schema_slot (p_in p) (p_name p) b (Some s) sl -> param_slot x sl
  | ps_none x p b : por_param x = Some p -> p_schema p = None ->
      (forall m, get "application/json" (p_content p) = Some m -> mt_schema m = None) -> flag (p_required p) b ->
      param_slot x (Ret (mkSCall (p_in p) (p_name p) None b)).

  (* A form field; it gets the extra properties and the referenced definitions
     of the form, and keeps everything else. *)
  Inductive form_call (required : list string) (extra : smap json) (defs : smap jsob) : string * jsob -> scall -> Prop :=
  | fc_obj n b v1 v2 v3 v4 v5 v6 v7 v8 v9 v10 v11 v12 v13 v14 v15 v16 v17 v18 v19 v20 v21 v22 v23 v24 v25 e m r nt al on an it tu pr ad ot :
      (b = true <-> In n required) -> extra <> [] \/ defs <> [] ->
      let field x := JSObj (mkJA v1 v2 v3 v4 v5 v6 v7 v8 v9 v10 v11 v12 v13 v14 v15 v16 v17 v18 v19 v20 v21 v22 v23 v24 v25 x m)
                       r nt al on an it tu pr ad ot in
      form_call required extra defs (n, field e) (mkSCall "formData" n (Some (JsObj (field extra) defs)) b)
  | fc_plain n a r nt al on an it tu pr ad ot b : (b = true <-> In n required) -> extra = [] -> defs = [] ->
      form_call required extra defs (n, JSObj a r nt al on an it tu pr ad ot)
        (mkSCall "formData" n (Some (JsObj (JSObj a r nt al on an it tu pr ad ot) [])) b)
  | fc_bool n p b : (b = true <-> In n required) -> p = JSZero \/ (exists x, p = JSBool x) ->
      form_call required extra defs (n, p) (mkSCall "formData" n (Some (JsBool p)) b).

  (* Fields, required fields and extra properties of a form. *)
  Inductive form_of : jsob -> smap jsob -> list string -> smap json -> Prop :=
  | fo_obj v1 v2 v3 v4 v5 v6 v7 v8 v9 v10 v11 v12 v13 v14 v15 v16 v17 rq v19 v20 v21 v22 v23 v24 v25 e m r nt al on an it tu pr ad ot :
      form_of (JSObj (mkJA v1 v2 v3 v4 v5 v6 v7 v8 v9 v10 v11 v12 v13 v14 v15 v16 v17 rq v19 v20 v21 v22 v23 v24 v25 e m)
                 r nt al on an it tu pr ad ot) pr rq e
  | fo_bool s : s = JSZero \/ (exists b, s = JSBool b) -> form_of s [] [] [].

  (* The slots for one media type of a request body. *)
  Inductive body_slots : string * media Sch -> list slot -> Prop :=
  | bs_panic ct m : (forall j, to_json c (mt_schema m) <> Ret j) -> body_slots (ct, m) [Panic]
  | bs_json m j : to_json c (mt_schema m) = Ret j ->
      body_slots ("application/json", m) [Ret (mkSCall "body" "body" (Some j) false)]
  | bs_form m s defs props required extra props' l :
      to_json c (mt_schema m) = Ret (JsObj s defs) -> form_of s props required extra -> Permutation props props' ->
      Forall2 (form_call required extra defs) props' l -> body_slots ("application/x-www-form-urlencoded", m) (map Ret l)
  | bs_form_bool m b : to_json c (mt_schema m) = Ret (JsBool b) -> body_slots ("application/x-www-form-urlencoded", m) [Panic]
  | bs_other ct m j : to_json c (mt_schema m) = Ret j -> ct <> "application/json" -> ct <> "application/x-www-form-urlencoded" ->
      body_slots (ct, m) [].

  (* The plan of a request: the parameters in order, then the media types of
     the body in any order. *)
  Definition request_plan {R} (o : operation Sch R) (plan : list slot) : Prop :=
    exists pl ms bls, Forall2 param_slot (op_params o) pl /\ Permutation (body_content (op_body o)) ms /\
      Forall2 body_slots ms bls /\ plan = pl ++ concat bls.

  (* Responses: the headers with a schema, then the media types with a schema. *)
  Inductive header_slots : string * header Sch -> list slot -> Prop :=
  | hs_none n h : h_schema h = None -> header_slots (n, h) []
  | hs_some n n' h s b sl : h_schema h = Some s -> canonical n n' -> flag (h_required h) b ->
      schema_slot "header" n' b (Some s) sl -> header_slots (n, h) [sl].
  Inductive content_slots : string * media Sch -> list slot -> Prop :=
  | cs_none ct m : mt_schema m = None -> content_slots (ct, m) []
  | cs_some ct m s sl : mt_schema m = Some s -> schema_slot "body" "body" false (Some s) sl -> content_slots (ct, m) [sl].
  Definition response_plan (r : response Sch) (plan : list slot) : Prop :=
    exists hs hls ms mls, Permutation (rs_headers r) hs /\ Forall2 header_slots hs hls /\
      Permutation (rs_content r) ms /\ Forall2 content_slots ms mls /\ plan = concat hls ++ concat mls.
End Plans.

(* A call for a property of a structure that becomes a parameter. *)
Definition field_call {J Sch} (B : backend J Sch) (to_json : comps Sch -> option Sch -> out js) (c : comps Sch)
    (f : string * prop J) (k : scall) : Prop :=
  exists t, pr_tags (snd f) = Ret t /\
    k_in k = fst f /\
    k_name k = match t_name t with Some n => n | None => pr_name (snd f) end /\
    (k_required k = true <-> fst f = "path" \/ t_required t = Some true) /\
    exists j s, k_schema k = Some j /\ to_json c (Some s) = Ret j /\
      ((json_encoded (snd f) /\ exists d, pr_json (snd f) = Ret d /\ b_conv B d = Ret s) \/
       (~ json_encoded (snd f) /\ exists s0, b_conv B (pr_schema (snd f)) = Ret s0 /\
          s = if pr_ptr (snd f) then s0 else b_unnull B s0)).

(* The calls among the events of a walk. *)
Fixpoint calls_of {O} (l : list (event O)) : list scall :=
  match l with [] => [] | ECall x :: l => x :: calls_of l | EDone _ :: l => calls_of l end.

(* &Operation{} of either package. *)
Definition fresh_op {Sch R} (o : operation Sch R) : Prop := op_params o = [] /\ op_body o = None.

(* Every map is iterated over completely, in any order. *)
Definition iterates (range : forall A, smap A -> list (string * A)) : Prop := forall A m, Permutation m (range A m).

(* The calls in a location. *)
Definition calls_in (loc : string) (l : list scall) : list scall := filter (fun k => String.eqb (k_in k) loc) l.
