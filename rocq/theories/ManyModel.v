(* Several reflectors, of both versions, and contexts given to any of them.

   openapi3/reflect.go:267-271 and openapi31/reflect.go:233-237: AddOperation
   (and AddWebhook) take every value of the interface openapi.OperationContext
   and refuse those that are not of the type operationContext of the same
   package.  A context does not know the reflector that made it, so another
   reflector of the same version accepts it.  What an accepted context shares
   with a document is as in ShareModel. *)
From Verif Require Import Str SMap Json PathModel Types RegistryModel ReflectModel ShareModel.

(* A reflector of either version. *)
Inductive reflector (S3 S1 : Type) := R30 (r : refl30 S3) | R31 (r : refl31 S1).
Arguments R30 {S3 S1}. Arguments R31 {S3 S1}.

(* A value of openapi.OperationContext: a context of openapi3 or openapi31
   with the reflectors that accepted it (and how, in 3.1: true for AddWebhook)
   and what it shares with their documents, or anything else: nil, a context
   of the user. *)
Inductive handle (J3 S3 J1 S1 : Type) :=
| K30 (oc : opctx J3 S3 (responses S3)) (links : list (nat * shared30))
| K31 (oc : opctx J1 S1 (option (responses S1))) (links : list (nat * (bool * shared31)))
| KOther.
Arguments K30 {J3 S3 J1 S1}. Arguments K31 {J3 S3 J1 S1}. Arguments KOther {J3 S3 J1 S1}.

(* Calls; reflectors and contexts are named by index.  [Make] is
   NewOperationContext (a failing call gives nil), [Foreign] any other way to
   come by a value of the interface. *)
Inductive call (J3 S3 J1 S1 : Type) :=
| Make (j : nat) (method path : string)
| Foreign
| Fill30 (i : nat) (req resp : list (cunit J3 S3))
| Fill31 (i : nat) (req resp : list (cunit J1 S1))
| Attr (i : nat) (a : attributes)
| Give (j i : nat)
| GiveHook (j i : nat).
Arguments Make {J3 S3 J1 S1}. Arguments Foreign {J3 S3 J1 S1}. Arguments Fill30 {J3 S3 J1 S1}.
Arguments Fill31 {J3 S3 J1 S1}. Arguments Attr {J3 S3 J1 S1}. Arguments Give {J3 S3 J1 S1}. Arguments GiveHook {J3 S3 J1 S1}.

Fixpoint update {A : Type} (f : A -> A) (i : nat) (l : list A) : list A :=
  match l, i with
  | [], _ => []
  | x :: l', O => f x :: l'
  | x :: l', S i' => x :: update f i' l'
  end.

(* The error for a context of the wrong type, otherwise what AddOperation
   returns. *)
Inductive given := Wrong | Result (a : add_result).

Section Many.
  Variables J3 S3 J1 S1 : Type.
  Variable B3 : backend J3 S3.
  Variable B1 : backend J1 S1.
  Notation refls := (list (reflector S3 S1)).
  Notation handle := (handle J3 S3 J1 S1).
  Notation call := (call J3 S3 J1 S1).

  Record world := mkMany { m_refls : refls; m_ctxs : list handle }.

  (* A change of the operation in the document of a reflector. *)
  Definition on30 (f : op30 S3 -> op30 S3) (path method : string) (r : reflector S3 S1) : reflector S3 S1 :=
    match r with
    | R30 r => R30 (mkRefl30 (touch30 f path method (r30_paths r)) (r30_comps r))
    | R31 _ => r
    end.
  Definition on31 (hook : bool) (f : op31 S1 -> op31 S1) (path method : string) (r : reflector S3 S1) : reflector S3 S1 :=
    match r with
    | R30 _ => r
    | R31 r => R31 (mkRefl31 ((if hook then touch_hook31 else touch31) f path method (r31_paths r)) (r31_comps r))
    end.

  (* The documents once the operation of an accepted context has changed. *)
  Definition through30 (oc : opctx J3 S3 (responses S3)) (links : list (nat * shared30)) (rs : refls) : refls :=
    fold_left (fun rs l => update (on30 (see30 (snd l) (oc_op oc)) (oc_path oc) (oc_method oc)) (fst l) rs) links rs.
  Definition through31 (oc : opctx J1 S1 (option (responses S1))) (links : list (nat * (bool * shared31))) (rs : refls) : refls :=
    fold_left (fun rs l => update (on31 (fst (snd l)) (see31 (snd (snd l)) (oc_op oc)) (oc_path oc) (oc_method oc)) (fst l) rs)
      links rs.

  (* Reflector.AddOperation of openapi3 (reflect.go:267-286) with the j-th
     reflector. *)
  Definition give30 (j : nat) (r : refl30 S3) (oc : opctx J3 S3 (responses S3)) (links : list (nat * shared30)) (rs : refls)
      : refls * handle * add_result :=
    let '(r, oc, a) := reflector_add30 B3 r oc in
    let rs := through30 oc links (update (fun _ => R30 r) j rs) in
    let links := match a with
                 | AOk => filter (fun l => negb (fst l =? j)) links ++ [(j, shares30 (oc_op oc))]
                 | _ => links
                 end in
    (rs, K30 oc links, a).

  (* AddOperation and AddWebhook of openapi31 (reflect.go:214-252). *)
  Definition give31 (hook : bool) (j : nat) (r : refl31 S1) (oc : opctx J1 S1 (option (responses S1)))
      (links : list (nat * (bool * shared31))) (rs : refls) : refls * handle * add_result :=
    let '(r, oc, a) := (if hook then reflector_webhook31 B1 r oc else reflector_add31 B1 r oc) in
    let oc := match a with AOk => set_op oc (own31 (oc_op oc)) | _ => oc end in
    let rs := through31 oc links (update (fun _ => R31 r) j rs) in
    let links := match a with
                 | AOk => filter (fun l => negb ((fst l =? j) && Bool.eqb (fst (snd l)) hook)) links ++
                          [(j, (hook, shares31 (oc_op oc)))]
                 | _ => links
                 end in
    (rs, K31 oc links, a).

  (* c, ok := oc.(operationContext): openapi3/reflect.go:268-271,
     openapi31/reflect.go:234-237.  openapi3 has no AddWebhook. *)
  Definition give (hook : bool) (j i : nat) (w : world) : world * option given :=
    match nth_error (m_refls w) j, nth_error (m_ctxs w) i with
    | Some (R30 r), Some (K30 oc links) =>
        if hook then (w, None)
        else let '(rs, k, a) := give30 j r oc links (m_refls w) in (mkMany rs (replace i k (m_ctxs w)), Some (Result a))
    | Some (R31 r), Some (K31 oc links) =>
        let '(rs, k, a) := give31 hook j r oc links (m_refls w) in (mkMany rs (replace i k (m_ctxs w)), Some (Result a))
    | Some (R30 _), Some _ => (w, if hook then None else Some Wrong)
    | Some (R31 _), Some _ => (w, Some Wrong)
    | _, _ => (w, None)
    end.

  (* Reflector.NewOperationContext: openapi3/reflect.go:51-76,
     openapi31/reflect.go:51-80 *)
  Definition make (j : nat) (method path : string) (w : world) : world :=
    match nth_error (m_refls w) j with
    | Some (R30 r) =>
        mkMany (m_refls w) (m_ctxs w ++ [match new_context30 r method path with Some oc => K30 oc [] | None => KOther end])
    | Some (R31 r) =>
        let (r, oc) := new_context31 r method path in
        mkMany (update (fun _ => R31 r) j (m_refls w)) (m_ctxs w ++ [match oc with Some oc => K31 oc [] | None => KOther end])
    | None => mkMany (m_refls w) (m_ctxs w ++ [KOther])
    end.

  (* AddReqStructure, AddRespStructure, the setters. *)
  Definition change (c : call) (k : handle) : handle :=
    match c, k with
    | Fill30 _ req resp, K30 oc l => K30 (fill req resp oc) l
    | Fill31 _ req resp, K31 oc l => K31 (fill req resp oc) l
    | Attr _ a, K30 oc l => K30 (set_op oc (set_attributes a (oc_op oc))) l
    | Attr _ a, K31 oc l => K31 (set_op oc (set_attributes a (oc_op oc))) l
    | _, _ => k
    end.

  Definition step (w : world) (c : call) : world :=
    match c with
    | Make j m p => make j m p w
    | Foreign => mkMany (m_refls w) (m_ctxs w ++ [KOther])
    | Fill30 i _ _ | Fill31 i _ _ | Attr i _ => mkMany (m_refls w) (update (change c) i (m_ctxs w))
    | Give j i => fst (give false j i w)
    | GiveHook j i => fst (give true j i w)
    end.
  Definition run (rs : refls) (l : list call) : world := fold_left step l (mkMany rs []).

  (* What AddOperation or AddWebhook of the j-th reflector returns for the i-th
     context. *)
  Definition outcome (hook : bool) (j i : nat) (w : world) : option given := snd (give hook j i w).
End Many.
Arguments mkMany {J3 S3 J1 S1}. Arguments m_refls {J3 S3 J1 S1}. Arguments m_ctxs {J3 S3 J1 S1}.
Arguments on30 {S3 S1}. Arguments on31 {S3 S1}. Arguments through30 {J3 S3 S1}. Arguments through31 {S3 J1 S1}.
Arguments give30 {J3 S3 J1 S1}. Arguments give31 {J3 S3 J1 S1}. Arguments give {J3 S3 J1 S1}. Arguments make {J3 S3 J1 S1}.
Arguments change {J3 S3 J1 S1}. Arguments step {J3 S3 J1 S1}. Arguments run {J3 S3 J1 S1}. Arguments outcome {J3 S3 J1 S1}.
