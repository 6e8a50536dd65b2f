(* What it means that documented operations are kept when contexts are used
   more than once. *)
From Verif Require Import Str SMap Json Types RegistryModel RegistrySpec ReflectModel ReflectSpec ShareModel.

Section Spec.
  Context {J Sch : Type}.

  (* No AddOperation (AddWebhook) with a context that such a call has accepted
     before. *)
  Definition accepted_once30 (B : backend J Sch) (w : world30 J Sch) (l : list (event J Sch)) : Prop :=
    forall l1 i l2 l3, l = l1 ++ Add i :: l2 ++ Add i :: l3 -> outcome30 B (run30 B w l1) i <> Some AOk.
  Definition call31 (e : event J Sch) (hook : bool) (i : nat) : Prop :=
    e = if hook then Hook i else Add i.
  Definition accepted_once31 (B : backend J Sch) (w : world31 J Sch) (l : list (event J Sch)) : Prop :=
    forall l1 e hook e' hook' i l2 l3, call31 e hook i -> call31 e' hook' i -> l = l1 ++ e :: l2 ++ e' :: l3 ->
      outcome31 B hook (run31 B w l1) i <> Some AOk.

  (* What a documented operation keeps in any case: its parameters and its
     attributes, and that there is a request body, a response for a status, an
     extension. *)
  Definition keeps_outline (v v' : view Sch) : Prop :=
    vw_params v' = vw_params v /\ vw_other v' = vw_other v /\
    (vw_body v <> None -> vw_body v' <> None) /\
    (forall k, filed (vw_responses v) k <> None -> filed (vw_responses v') k <> None) /\
    (forall k, In k (keys (vw_ext v)) -> In k (keys (vw_ext v'))).

  (* The parameters in the operation of the i-th context. *)
  Definition ctx_params30 (w : world30 J Sch) (i : nat) : list (por Sch) :=
    match nth_error (w30_ctx w) i with Some x => op_params (oc_op (x30_oc x)) | None => [] end.
  Definition ctx_params31 (w : world31 J Sch) (i : nat) : list (por Sch) :=
    match nth_error (w31_ctx w) i with Some x => op_params (oc_op (x31_oc x)) | None => [] end.
End Spec.
