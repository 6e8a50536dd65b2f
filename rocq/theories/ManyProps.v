(* Theorems about several reflectors, of one or both versions, in one
   program. *)
From Coq Require Import ZArith.
From Verif Require Import Str SMap Json PathModel Types.
From Verif Require Import RegistryModel RegistrySpec ReflectModel ReflectSpec ReflectProps.
From Verif Require Import ShareModel ManyModel ManySpec ManyProofs ManyAlone.

(* ---------- C115: reflectors do not influence one another ---------- *)

(* When no context is given to another reflector of the version of its maker,
   each reflector has the document, and gives the answers, that it would have
   and give if contexts were never given to the others. *)
Theorem C115_independent : forall (J3 S3 J1 S1 : Type) (B3 : backend J3 S3) (B1 : backend J1 S1) rs l j,
  no_mixing (is_31 rs) l ->
  nth_error (m_refls (run B3 B1 rs l)) j = nth_error (m_refls (run B3 B1 rs (only j l))) j /\
  (forall hook i, own_context (is_31 rs) (makers l) j i ->
    outcome B3 B1 hook j i (run B3 B1 rs l) = outcome B3 B1 hook j i (run B3 B1 rs (only j l))).
Proof. intros. apply independent. assumption. Qed.

(* Contexts that did not come from a reflector, that could not be made and
   those of the other version are refused, and nothing changes. *)
Theorem C115_wrong_type : forall (J3 S3 J1 S1 : Type) (B3 : backend J3 S3) (B1 : backend J1 S1) rs l j i m,
  j < length rs -> nth_error (makers l) i = Some m -> (forall k, m = Some k -> is_31 rs k <> is_31 rs j) ->
  let w := run B3 B1 rs l in
  outcome B3 B1 false j i w = Some Wrong /\ step B3 B1 w (Give j i) = w /\
  (is_31 rs j = true -> outcome B3 B1 true j i w = Some Wrong) /\ step B3 B1 w (GiveHook j i) = w.
Proof.
  intros J3 S3 J1 S1 B3 B1 rs l j i m L M N w. unfold outcome, w. cbn [step].
  pose proof (wrong_type B3 B1 rs l j i m false L M N) as A. rewrite A by discriminate.
  split; [reflexivity|]. split; [reflexivity|].
  destruct (is_31 rs j) eqn:V.
  - rewrite (wrong_type B3 B1 rs l j i m true L M) by (rewrite ?V; auto). split; reflexivity.
  - split; [discriminate|]. apply hook_refused. exact V.
Qed.

(* In general: a call on one reflector leaves the documents of the others as
   they are.  False: a context that one reflector has accepted is accepted by
   another one of the same version, and shares its responses with both
   documents. *)
Definition ex_docs30 (w : world string string string string) (j : nat) : option (list string) :=
  match nth_error (m_refls w) j with
  | Some (R30 r) => option_map (fun o => keys (rs_map (op_responses o))) (doc30 (r30_paths r) "/a" "get")
  | _ => None
  end.
Definition ex_docs31 (w : world string string string string) (j : nat) : option (list string) :=
  match nth_error (m_refls w) j with
  | Some (R31 r) => option_map (fun o => keys (rs_map (ens (op_responses o)))) (doc31 (r31_paths r) "/a" "get")
  | _ => None
  end.
Definition ex_mixed30 : list (call string string string string) :=
  [Make 0 "get" "/a"; Fill30 0 [] [ex_response 200 "" "" []]; Give 0 0; Fill30 0 [] [ex_response 404 "" "" []]].
Definition ex_mixed31 : list (call string string string string) :=
  [Make 0 "get" "/a"; Fill31 0 [] [ex_response 200 "" "" []]; Give 0 0; Fill31 0 [] [ex_response 404 "" "" []]].

Theorem C115_mixed_refuted30 : exists (B3 B1 : backend string string) rs l i,
  let w := run B3 B1 rs l in
  let w' := step B3 B1 w (Give 1 i) in
  outcome B3 B1 false 1 i w = Some (Result AOk) /\ nth_error (m_refls w') 0 <> nth_error (m_refls w) 0 /\
  ex_docs30 w 0 = Some ["200"] /\ ex_docs30 w' 0 = Some ["200"; "404"].
Proof.
  exists (ex_backend false), (ex_backend true), [R30 ex_refl30; R30 ex_refl30], ex_mixed30, 0. cbv zeta.
  split; [vm_compute; reflexivity|]. split; [vm_compute; discriminate|]. split; vm_compute; reflexivity.
Qed.

Theorem C115_mixed_refuted31 : exists (B3 B1 : backend string string) rs l i,
  let w := run B3 B1 rs l in
  let w' := step B3 B1 w (Give 1 i) in
  outcome B3 B1 false 1 i w = Some (Result AOk) /\ nth_error (m_refls w') 0 <> nth_error (m_refls w) 0 /\
  ex_docs31 w 0 = Some ["200"] /\ ex_docs31 w' 0 = Some ["200"; "404"].
Proof.
  exists (ex_backend false), (ex_backend true), [R31 ex_refl31; R31 ex_refl31], ex_mixed31, 0. cbv zeta.
  split; [vm_compute; reflexivity|]. split; [vm_compute; discriminate|]. split; vm_compute; reflexivity.
Qed.

(* Also when the second reflector refuses the context, because it has the
   operation already. *)
Theorem C115_failed_refuted30 : exists (B3 B1 : backend string string) rs l i,
  let w := run B3 B1 rs l in
  let w' := step B3 B1 w (Give 1 i) in
  outcome B3 B1 false 1 i w = Some (Result (AFail (AESpec EExists))) /\
  ex_docs30 w 0 = Some ["200"] /\ ex_docs30 w' 0 = Some ["200"; "404"].
Proof.
  exists (ex_backend false), (ex_backend true), [R30 ex_refl30; R30 ex_refl30],
    ([Make 1 "get" "/a"; Give 1 0; Make 0 "get" "/a"; Fill30 1 [] [ex_response 200 "" "" []]; Give 0 1;
      Fill30 1 [] [ex_response 404 "" "" []]]), 1. cbv zeta.
  split; [vm_compute; reflexivity|]. split; vm_compute; reflexivity.
Qed.

(* A program with one reflector has the documents and answers of C95, which
   knows only one: contexts kept, filled, changed and given again. *)
Theorem C115_alone30 : forall (J3 S3 J1 S1 : Type) (B3 : backend J3 S3) (B1 : backend J1 S1) r l,
  let w := run30 B3 (mkWorld30 r []) l in
  let v := run B3 B1 [R30 r] (map call30 l) in
  length (w30_ctx w) = asked l ->
  m_refls v = [R30 (w30_refl w)] /\ forall i, outcome B3 B1 false 0 i v = option_map Result (outcome30 B3 w i).
Proof. intros. apply alone30. assumption. Qed.

Theorem C115_alone31 : forall (J3 S3 J1 S1 : Type) (B3 : backend J3 S3) (B1 : backend J1 S1) r l,
  let w := run31 B1 (mkWorld31 r []) l in
  let v := run B3 B1 [R31 r] (map call31 l) in
  length (w31_ctx w) = asked l ->
  m_refls v = [R31 (w31_refl w)] /\ forall hook i, outcome B3 B1 hook 0 i v = option_map Result (outcome31 B1 hook w i).
Proof. intros. apply alone31. assumption. Qed.

(* Instance: two contexts, one of them given twice. *)
Example C115_alone_example :
  let l := [New "get" "/a"; New "put" "/a"; Fill 0 [] [ex_response 200 "" "" []]; Add 0; Fill 0 [] [ex_response 404 "" "" []];
            Add 0; Add 1] in
  length (w30_ctx (run30 (ex_backend false) (mkWorld30 ex_refl30 []) l)) = asked l /\
  length (w31_ctx (run31 (ex_backend true) (mkWorld31 ex_refl31 []) l)) = asked l /\
  ex_docs30 (run (ex_backend false) (ex_backend true) [R30 ex_refl30] (map call30 l)) 0 = Some ["200"; "404"].
Proof. cbv zeta. split; [vm_compute; reflexivity|]. split; vm_compute; reflexivity. Qed.

(* Instance: reflectors of both versions, each with its own contexts, and
   contexts that go astray. *)
Definition ex_both : list (call string string string string) :=
  [Make 0 "get" "/a"; Make 1 "get" "/a"; Make 2 "get" "/a"; Foreign;
   Fill30 0 [] [ex_response 200 "" "" []]; Fill31 1 [] [ex_response 201 "" "" []];
   Give 0 0; Give 1 0; Give 1 1; Give 0 1; Give 2 2; Give 2 3; GiveHook 1 2; GiveHook 1 1].

Example C115_example :
  let rs := [R30 ex_refl30; R31 ex_refl31; R30 ex_refl30] in
  let w := run (ex_backend false) (ex_backend true) rs ex_both in
  no_mixing (is_31 rs) ex_both /\
  ex_docs30 w 0 = Some ["200"] /\ ex_docs31 w 1 = Some ["201"] /\ ex_docs30 w 2 = Some ["204"] /\
  outcome (ex_backend false) (ex_backend true) false 1 0 w = Some Wrong.
Proof.
  cbv zeta. split; [|split; [|split; [|split]]]; [|vm_compute; reflexivity..].
  intros c j i IN H k. cbn in IN.
  repeat (destruct IN as [<-|IN]; [destruct H as [H|H]; try discriminate H; injection H as <- <-; cbn;
    intros X; try discriminate X; injection X as <-; cbn; intros Y; try discriminate Y; reflexivity|]).
  destruct IN.
Qed.

(* ---------- assumptions ---------- *)

Print Assumptions C115_independent.
Print Assumptions C115_wrong_type.
Print Assumptions C115_mixed_refuted30.
Print Assumptions C115_mixed_refuted31.
Print Assumptions C115_failed_refuted30.
Print Assumptions C115_alone30.
Print Assumptions C115_alone31.
