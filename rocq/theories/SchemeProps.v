(* C63 and C67 for the security schemes of openapi31, whose keys depend on the
   alternative (they are left out of C63_keys31 and C67_members31). *)
From Verif Require Import Str SMap Json CodecModel CodecTables CodecSpec CodecProofs CodecCheck SchemeProofs.

(* The written scheme has a type, the required members of that type and no
   others than those of the specification ([scheme_types]). *)
Theorem C63_scheme31 : forall rnd v, wf T31 rnd derived31 extra31 (TNamed "SecurityScheme") v ->
  exists M t req opt, marshal T31 (TNamed "SecurityScheme") v = Some (JObj M) /\ In (t, (req, opt)) scheme_types /\
    get "type" M = Some (JStr t) /\ (forall k, In k req -> In k (map fst M)) /\
    (forall k, In k (map fst M) -> k = "type" \/ k = "description" \/ In k req \/ In k opt \/ legal PatX k).
Proof. exact scheme_keys31. Qed.

(* Its members are those of the alternative that is set, the description and
   the extensions. *)
Theorem C67_scheme31 : forall rnd v, wf T31 rnd derived31 extra31 (TNamed "SecurityScheme") v ->
  exists vs M i n t w Mw, v = VStruct vs /\ marshal T31 (TNamed "SecurityScheme") v = Some (JObj M) /\
    In (i, (n, t)) scheme_fields /\ nth_error vs i = Some (VPtr w) /\ marshal T31 (TNamed n) w = Some (JObj Mw) /\
    (forall k, In k (map fst Mw) -> get k M = get k Mw) /\
    (forall s, get "description" M = Some (JStr s) <-> nth_error vs 0 = Some (VPtr (VStr s))) /\
    (forall k j, legal PatX k -> (get k M = Some j <-> exists m, nth_error vs 7 = Some (VMap m) /\ In (k, VAny j) m)).
Proof. exact scheme_members31. Qed.

Example C63_scheme_example : exists v, wf T31 idq derived31 extra31 (TNamed "SecurityScheme") v /\
  marshal T31 (TNamed "SecurityScheme") v =
    Some (JObj [("description", JStr "d"); ("x-a", JNull); ("type", JStr "apiKey"); ("name", JStr "n"); ("in", JStr "header")]).
Proof.
  exists (VStruct [VPtr (VStr "d"); VPtr (VStruct [VStr "n"; VStr "header"]); VNil; VNil; VNil; VNil; VNil; VMap [("x-a", VAny JNull)]]).
  split; [apply wfb31_ok; vm_compute; reflexivity|vm_compute; reflexivity].
Qed.

(* ---------- assumptions ---------- *)

Print Assumptions C63_scheme31.
Print Assumptions C67_scheme31.
