(* What a user observes of the registry and what coherence means. *)
From Verif Require Import Str SMap Json PathSpec Types RegistryModel.

Section Spec.
  Context {Sch : Type}.

  (* (name, location) of the inline parameters. *)
  Fixpoint inline (ps : list (por Sch)) : list (string * string) :=
    match ps with
    | [] => []
    | p :: ps' => match por_param p with
                  | Some q => (p_name q, p_in q) :: inline ps'
                  | None => inline ps'
                  end
    end.

  (* The four locations OpenAPI knows. *)
  Definition legal_loc (i : string) : Prop :=
    i = "path" \/ i = "query" \/ i = "header" \/ i = "cookie".

  Definition legal_params (ps : list (por Sch)) : Prop :=
    forall n i, In (n, i) (inline ps) -> legal_loc i.

  (* The inline parameters are pairwise different and the path parameters are
     exactly the placeholders. *)
  Definition params_match (placeholders : list string) (ps : list (por Sch)) : Prop :=
    NoDup (inline ps) /\
    (forall n, In n placeholders <-> In (n, "path") (inline ps)).

  (* A path without constraints in its placeholders. *)
  Definition clean (path : string) : Prop :=
    forall l, parses path l -> map strip l = l.

  (* The documented operation for a path and a canonical method. *)
  Definition doc30 (s : paths30 Sch) (path method : string) : option (op30 Sch) :=
    match get path (sp30_items s) with
    | Some i => get method (pi_ops i)
    | None => None
    end.

  Definition slot (p : pitem31 Sch) (m : string) : option (op31 Sch) :=
    if String.eqb m "get" then pi_get p
    else if String.eqb m "put" then pi_put p
    else if String.eqb m "post" then pi_post p
    else if String.eqb m "delete" then pi_delete p
    else if String.eqb m "options" then pi_options p
    else if String.eqb m "head" then pi_head p
    else if String.eqb m "patch" then pi_patch p
    else if String.eqb m "trace" then pi_trace p
    else None.

  Definition doc31 (s : paths31 Sch) (path method : string) : option (op31 Sch) :=
    match sp31_items s with
    | Some m => match get path m with Some i => slot i method | None => None end
    | None => None
    end.

  Definition hook31 (s : paths31 Sch) (name method : string) : option (op31 Sch) :=
    match get name (sp31_webhooks s) with Some i => slot i method | None => None end.

  (* The other members of a path item. *)
  Definition item_rest30 (s : paths30 Sch) (path : string) : json :=
    match get path (sp30_items s) with Some i => pi30_rest i | None => JNull end.
  Definition item_rest31 (s : paths31 Sch) (path : string) : json :=
    match sp31_items s with
    | Some m => match get path m with Some i => pi31_rest i | None => JNull end
    | None => JNull
    end.

  (* The responses an added operation ends up with: those given, or one 204. *)
  Definition no_responses (r : responses Sch) : Prop := rs_map r = [] /\ rs_default r = None.

  Definition response_204 : responses Sch :=
    mkResps None [("204", mkRor (Some (mkResp "No Content" [] [] JNull)) None)].

  Definition responses_after (r r' : responses Sch) : Prop :=
    (no_responses r -> r' = response_204) /\ (~ no_responses r -> r' = r).

  (* [o'] is [o] with the default response rule applied and nothing else changed. *)
  Definition completed30 (o o' : op30 Sch) : Prop :=
    responses_after (op_responses o) (op_responses o') /\
    o' = set_responses o (op_responses o').

  Definition completed31 (o o' : op31 Sch) : Prop :=
    exists r', op_responses o' = Some r' /\
      responses_after (match op_responses o with Some r => r | None => mkResps None [] end) r' /\
      o' = set_responses o (Some r').

  (* Histories of AddOperation calls; failing calls are part of the history. *)
  Definition call30 := (string * string * op30 Sch)%type.
  Definition call31 := (string * string * op31 Sch)%type.

  Definition step30 (s : paths30 Sch) (c : call30) : paths30 Sch :=
    match c with (m, p, o) => fst (add_operation30 s m p o) end.
  Definition run30 (s : paths30 Sch) (cs : list call30) : paths30 Sch := fold_left step30 cs s.

  Definition step31 (s : paths31 Sch) (c : call31) : paths31 Sch :=
    match c with (m, p, o) => fst (add_operation31 s m p o) end.
  Definition run31 (s : paths31 Sch) (cs : list call31) : paths31 Sch := fold_left step31 cs s.

  (* A new document. *)
  Definition empty30 (s : paths30 Sch) : Prop := sp30_items s = [].
  Definition empty31 (s : paths31 Sch) : Prop := sp31_items s = None \/ sp31_items s = Some [].

  (* Coherence of one documented operation. *)
  Definition coherent (path method : string) (ps : list (por Sch)) (r : option (responses Sch)) : Prop :=
    openapi_method method /\ clean path /\
    (forall l, parses path l -> params_match (names l) ps) /\
    exists r', r = Some r' /\ ~ no_responses r'.

  (* Setup functions run in order, each succeeding. *)
  Inductive applied {Op : Type} : list (setup Op) -> Op -> Op -> Prop :=
  | applied_nil o : applied [] o o
  | applied_cons f fs o o1 o2 : f o = (o1, false) -> applied fs o1 o2 -> applied (f :: fs) o o2.

  (* The operation a setup function is given. *)
  Definition current30 (s : paths30 Sch) p m : op30 Sch :=
    match doc30 s p m with Some o => o | None => zero_op30 end.
  Definition current31 (s : paths31 Sch) p m : op31 Sch :=
    match doc31 s p m with Some o => o | None => zero_op31 end.

  (* The only difference between two documents is [o] at (p, m). *)
  Definition only_at30 (s s' : paths30 Sch) (p m : string) (o : op30 Sch) : Prop :=
    doc30 s' p m = Some o /\
    (forall p2 m2, (p2, m2) <> (p, m) -> doc30 s' p2 m2 = doc30 s p2 m2) /\
    (forall p2, item_rest30 s' p2 = item_rest30 s p2) /\
    sp30_rest s' = sp30_rest s.
  Definition only_at31 (s s' : paths31 Sch) (p m : string) (o : op31 Sch) : Prop :=
    doc31 s' p m = Some o /\
    (forall p2 m2, (p2, m2) <> (p, m) -> doc31 s' p2 m2 = doc31 s p2 m2) /\
    (forall p2, item_rest31 s' p2 = item_rest31 s p2) /\
    sp31_webhooks s' = sp31_webhooks s /\ sp31_rest s' = sp31_rest s.

  (* Same documented operations, path items, webhooks and other members.  (A
     nil and an empty paths object are not distinguished.) *)
  Definition same31 (s s' : paths31 Sch) : Prop :=
    sp31_webhooks s' = sp31_webhooks s /\ sp31_rest s' = sp31_rest s /\
    (forall p, item_rest31 s' p = item_rest31 s p) /\
    (forall p m, doc31 s' p m = doc31 s p m).

  (* Histories mixing AddOperation and AddWebhook. *)
  Inductive act31 := AAdd (method path : string) (o : op31 Sch)
                   | AHook (method name : string) (o : op31 Sch).
  Definition act_step31 (s : paths31 Sch) (a : act31) : paths31 Sch :=
    match a with
    | AAdd m p o => fst (add_operation31 s m p o)
    | AHook m n o => fst (add_webhook31 s m n o)
    end.
  Definition act_run31 (s : paths31 Sch) (l : list act31) : paths31 Sch := fold_left act_step31 l s.

  (* The same operation in the two packages' types. *)
  Definition same_op (a : op30 Sch) (b : op31 Sch) : Prop :=
    set_responses b tt = set_responses a tt /\
    (op_responses b = Some (op_responses a) \/ op_responses b = None /\ op_responses a = mkResps None []).

  (* Corresponding documents. *)
  Definition corr (s : paths30 Sch) (t : paths31 Sch) : Prop :=
    forall p m,
      (doc30 s p m = None <-> doc31 t p m = None) /\
      (forall a b, doc30 s p m = Some a -> doc31 t p m = Some b -> same_op a b).

  Definition same_call (c : call30) (d : call31) : Prop :=
    match c, d with (m, p, a), (m', p', b) => m = m' /\ p = p' /\ same_op a b end.
End Spec.
