(* What documented operations share with the contexts they came from.

   AddOperation of both reflectors stores a shallow copy of the operation of
   the context: openapi3/reflect.go:285 and openapi31/reflect.go:251 pass
   [*c.op] by value, openapi3/helper.go:117-121 and openapi31/helper.go:177-182,
   204-215 store that copy.  Pointers and maps inside are then common to the
   document and to the context, so a later call with the same context, which
   runs setupRequest and setupResponse on [c.op] again, also changes the
   document.  ReflectModel takes a context as a value; here contexts are kept
   and may be used again.

   Not shared: what is stored by value (strings behind pointers are replaced,
   never written through: With... of entities.go), and slices, which are only
   appended to ([Parameters], [Security]: the copy keeps its length). *)
From Verif Require Import Str SMap Json PathModel Types RegistryModel ReflectModel.

(* The setters of operationContext (openapi3/reflect.go:136-195,
   openapi31/reflect.go:144-203) change these members of the operation only;
   the result of any sequence of setter calls. *)
Record attributes := mkAttrs {
  at_tags : list string; at_summary : option string; at_desc : option string; at_id : option string;
  at_deprecated : option bool; at_security : list (smap (list string)) }.

(* What happens to a reflector and its contexts; a context is named by its
   index in the order of creation. *)
Inductive event (J Sch : Type) :=
| New (method path : string)                       (* NewOperationContext *)
| Fill (i : nat) (req resp : list (cunit J Sch))   (* AddReqStructure, AddRespStructure *)
| Set_ (i : nat) (a : attributes)                  (* setters *)
| Add (i : nat)                                    (* AddOperation *)
| Hook (i : nat).                                  (* AddWebhook, openapi31 only *)
Arguments New {J Sch}. Arguments Fill {J Sch}. Arguments Set_ {J Sch}. Arguments Add {J Sch}. Arguments Hook {J Sch}.

Definition is_nil {A : Type} (l : list A) : bool := match l with [] => true | _ => false end.
Definition is_some {A : Type} (x : option A) : bool := match x with Some _ => true | None => false end.

Fixpoint replace {A : Type} (i : nat) (x : A) (l : list A) : list A :=
  match l, i with
  | [], _ => []
  | _ :: l', O => x :: l'
  | y :: l', S i' => y :: replace i' x l'
  end.

Section Share.
  Variables J Sch : Type.
  Variable B : backend J Sch.
  Notation cunit := (cunit J Sch).
  Notation responses := (responses Sch).
  Notation ev := (event J Sch).

  Definition set_attributes {R} (a : attributes) (o : operation Sch R) : operation Sch R :=
    mkOp (at_tags a) (at_summary a) (at_desc a) (at_id a) (op_params o) (op_body o) (op_responses o)
         (at_deprecated a) (at_security a) (op_ext o) (op_rest o).

  (* AddReqStructure, AddRespStructure: internal/operation_context.go:75-107 *)
  Definition fill {R} (req resp : list cunit) (oc : opctx J Sch R) : opctx J Sch R :=
    mkOC (oc_method oc) (oc_path oc) (oc_req oc ++ req) (oc_resp oc ++ resp) (oc_op oc) (oc_params oc).

  (* ------------------------------------------------------------------ *)
  (* openapi3                                                              *)

  (* Which parts of the stored copy are the same object as in the context:
     RequestBody is a pointer, Responses a struct with a map and the pointer
     Default, MapOfAnything a map (openapi3/entities.go, type Operation and
     type Responses).  Nil is not shared; the maps are made with their first
     item. *)
  Record shared30 := mkSh30 { h30_body : bool; h30_map : bool; h30_default : bool; h30_ext : bool }.
  Definition shares30 (o : op30 Sch) : shared30 :=
    mkSh30 (is_some (op_body o)) (negb (is_nil (rs_map (op_responses o))))
           (is_some (rs_default (op_responses o))) (negb (is_nil (op_ext o))).

  (* setupResponse replaces Default by a new object around the same Response
     (openapi3/reflect.go:717-725): the stored copy keeps its own ResponseOrRef
     and sees the changes of the Response.  A customising function of a unit
     for the default response is taken to work on that Response (one that
     replaces the pointer would end the sharing). *)
  Definition see_default (d o : option (ror Sch)) : option (ror Sch) :=
    match d, o with
    | Some x, Some y =>
        match ror_resp x, ror_resp y with
        | Some _, Some r => Some (mkRor (Some r) (ror_ref x))
        | _, _ => d
        end
    | _, _ => d
    end.

  (* The stored operation [d] once the operation of the context is [o]. *)
  Definition see30 (s : shared30) (o d : op30 Sch) : op30 Sch :=
    mkOp (op_tags d) (op_summary d) (op_desc d) (op_id d) (op_params d)
         (if h30_body s then op_body o else op_body d)
         (mkResps (if h30_default s then see_default (rs_default (op_responses d)) (rs_default (op_responses o))
                   else rs_default (op_responses d))
                  (if h30_map s then rs_map (op_responses o) else rs_map (op_responses d)))
         (op_deprecated d) (op_security d)
         (if h30_ext s then op_ext o else op_ext d) (op_rest d).

  (* The document with the operation at [path] and [method] changed. *)
  Definition touch30 (f : op30 Sch -> op30 Sch) (path method : string) (s : paths30 Sch) : paths30 Sch :=
    match get path (sp30_items s) with
    | Some i =>
        match get method (pi_ops i) with
        | Some d => mkPaths30 (put path (mkPI30 (put method (f d) (pi_ops i)) (pi30_rest i)) (sp30_items s)) (sp30_rest s)
        | None => s
        end
    | None => s
    end.

  (* A context, and what it shares with the document once it was accepted. *)
  Record ctx30 := mkCtx30 { x30_oc : opctx J Sch responses; x30_link : option shared30 }.
  Record world30 := mkWorld30 { w30_refl : refl30 Sch; w30_ctx : list ctx30 }.

  (* AddOperation with a context that is kept: openapi3/reflect.go:267-286.
     The stored operation is looked up under the path and method of the
     context, where Spec.AddOperation has put it. *)
  Definition add30 (x : ctx30) (r : refl30 Sch) : refl30 Sch * ctx30 * add_result :=
    let '(r, oc, a) := reflector_add30 B r (x30_oc x) in
    let r := match x30_link x with
             | Some s => mkRefl30 (touch30 (see30 s (oc_op oc)) (oc_path oc) (oc_method oc) (r30_paths r)) (r30_comps r)
             | None => r
             end in
    let link := match a with AOk => Some (shares30 (oc_op oc)) | _ => x30_link x end in
    (r, mkCtx30 oc link, a).

  Definition step30 (w : world30) (e : ev) : world30 :=
    let r := w30_refl w in
    let xs := w30_ctx w in
    match e with
    | New m p => match new_context30 r m p with
                 | Some oc => mkWorld30 r (xs ++ [mkCtx30 oc None])
                 | None => w
                 end
    | Fill i req resp => match nth_error xs i with
                         | Some x => mkWorld30 r (replace i (mkCtx30 (fill req resp (x30_oc x)) (x30_link x)) xs)
                         | None => w
                         end
    | Set_ i a => match nth_error xs i with
                  | Some x => mkWorld30 r (replace i (mkCtx30 (set_op (x30_oc x) (set_attributes a (oc_op (x30_oc x))))
                                                             (x30_link x)) xs)
                  | None => w
                  end
    | Add i => match nth_error xs i with
               | Some x => let '(r, x, _) := add30 x r in mkWorld30 r (replace i x xs)
               | None => w
               end
    | Hook _ => w
    end.
  Definition run30 (w : world30) (l : list ev) : world30 := fold_left step30 l w.

  (* What AddOperation with the i-th context returns. *)
  Definition outcome30 (w : world30) (i : nat) : option add_result :=
    match nth_error (w30_ctx w) i with
    | Some x => Some (snd (add30 x (w30_refl w)))
    | None => None
    end.

  (* ------------------------------------------------------------------ *)
  (* openapi31                                                             *)

  (* Responses is a pointer here (openapi31/entities.go, type Operation). *)
  Record shared31 := mkSh31 { h31_body : bool; h31_resp : bool; h31_ext : bool }.
  Definition shares31 (o : op31 Sch) : shared31 :=
    mkSh31 (is_some (op_body o)) (is_some (op_responses o)) (negb (is_nil (op_ext o))).
  Definition see31 (s : shared31) (o d : op31 Sch) : op31 Sch :=
    mkOp (op_tags d) (op_summary d) (op_desc d) (op_id d) (op_params d)
         (if h31_body s then op_body o else op_body d)
         (if h31_resp s then op_responses o else op_responses d)
         (op_deprecated d) (op_security d)
         (if h31_ext s then op_ext o else op_ext d) (op_rest d).

  Definition touch_item31 (f : op31 Sch -> op31 Sch) (method : string) (i : pitem31 Sch) : pitem31 Sch :=
    match pi_operation i method with
    | Some (Some d) => match pi_set_operation i method (Some (f d)) with Some i' => i' | None => i end
    | _ => i
    end.
  Definition touch31 (f : op31 Sch -> op31 Sch) (path method : string) (s : paths31 Sch) : paths31 Sch :=
    match sp31_items s with
    | Some items =>
        match get path items with
        | Some i => set_items31 s (put path (touch_item31 f method i) items)
        | None => s
        end
    | None => s
    end.
  Definition touch_hook31 (f : op31 Sch -> op31 Sch) (name method : string) (s : paths31 Sch) : paths31 Sch :=
    match get name (sp31_webhooks s) with
    | Some i => mkPaths31 (sp31_items s) (put name (touch_item31 f method i) (sp31_webhooks s)) (sp31_rest s)
    | None => s
    end.

  (* The same context can be given to AddOperation and to AddWebhook. *)
  Record ctx31 := mkCtx31 { x31_oc : opctx J Sch (option responses);
                            x31_link : option shared31; x31_hook : option shared31 }.
  Record world31 := mkWorld31 { w31_refl : refl31 Sch; w31_ctx : list ctx31 }.

  (* The operation of the context after Spec.AddOperation or Spec.AddWebhook:
     ResponsesEns and the No Content response (openapi31/helper.go:169-175,
     196-202) work on the copy, and on the Responses of the context if there is
     one. *)
  Definition own31 (o : op31 Sch) : op31 Sch :=
    match op_responses o with Some _ => ensure_response31 o | None => o end.

  Definition through31 (x : ctx31) (oc : opctx J Sch (option responses)) (s : paths31 Sch) : paths31 Sch :=
    let s := match x31_link x with
             | Some h => touch31 (see31 h (oc_op oc)) (oc_path oc) (oc_method oc) s
             | None => s
             end in
    match x31_hook x with
    | Some h => touch_hook31 (see31 h (oc_op oc)) (oc_path oc) (oc_method oc) s
    | None => s
    end.

  (* openapi31/reflect.go:214-252; [hook] selects AddWebhook. *)
  Definition add31 (hook : bool) (x : ctx31) (r : refl31 Sch) : refl31 Sch * ctx31 * add_result :=
    let '(r, oc, a) := (if hook then reflector_webhook31 B r (x31_oc x) else reflector_add31 B r (x31_oc x)) in
    let oc := match a with AOk => set_op oc (own31 (oc_op oc)) | _ => oc end in
    let r := mkRefl31 (through31 x oc (r31_paths r)) (r31_comps r) in
    let made := Some (shares31 (oc_op oc)) in
    let x' := match a with
              | AOk => if hook then mkCtx31 oc (x31_link x) made else mkCtx31 oc made (x31_hook x)
              | _ => mkCtx31 oc (x31_link x) (x31_hook x)
              end in
    (r, x', a).

  Definition step31 (w : world31) (e : ev) : world31 :=
    let r := w31_refl w in
    let xs := w31_ctx w in
    let adds hook i := match nth_error xs i with
                       | Some x => let '(r, x, _) := add31 hook x r in mkWorld31 r (replace i x xs)
                       | None => w
                       end in
    match e with
    | New m p => let (r, oc) := new_context31 r m p in
                 mkWorld31 r (match oc with Some oc => xs ++ [mkCtx31 oc None None] | None => xs end)
    | Fill i req resp => match nth_error xs i with
                         | Some x => mkWorld31 r (replace i (mkCtx31 (fill req resp (x31_oc x)) (x31_link x) (x31_hook x)) xs)
                         | None => w
                         end
    | Set_ i a => match nth_error xs i with
                  | Some x => mkWorld31 r (replace i (mkCtx31 (set_op (x31_oc x) (set_attributes a (oc_op (x31_oc x))))
                                                             (x31_link x) (x31_hook x)) xs)
                  | None => w
                  end
    | Add i => adds false i
    | Hook i => adds true i
    end.
  Definition run31 (w : world31) (l : list ev) : world31 := fold_left step31 l w.

  Definition outcome31 (hook : bool) (w : world31) (i : nat) : option add_result :=
    match nth_error (w31_ctx w) i with
    | Some x => Some (snd (add31 hook x (w31_refl w)))
    | None => None
    end.
End Share.

Arguments set_attributes {Sch R}. Arguments fill {J Sch R}.
Arguments shares30 {Sch}. Arguments see_default {Sch}. Arguments see30 {Sch}. Arguments touch30 {Sch}.
Arguments mkCtx30 {J Sch}. Arguments x30_oc {J Sch}. Arguments x30_link {J Sch}.
Arguments mkWorld30 {J Sch}. Arguments w30_refl {J Sch}. Arguments w30_ctx {J Sch}.
Arguments add30 {J Sch}. Arguments step30 {J Sch}. Arguments run30 {J Sch}. Arguments outcome30 {J Sch}.
Arguments shares31 {Sch}. Arguments see31 {Sch}. Arguments touch_item31 {Sch}. Arguments touch31 {Sch}.
Arguments touch_hook31 {Sch}. Arguments own31 {Sch}. Arguments through31 {J Sch}.
Arguments mkCtx31 {J Sch}. Arguments x31_oc {J Sch}. Arguments x31_link {J Sch}. Arguments x31_hook {J Sch}.
Arguments mkWorld31 {J Sch}. Arguments w31_refl {J Sch}. Arguments w31_ctx {J Sch}.
Arguments add31 {J Sch}. Arguments step31 {J Sch}. Arguments run31 {J Sch}. Arguments outcome31 {J Sch}.
