(* Theorems about the YAML code (properties C44 and C45). *)
From Coq Require Import Permutation.
From Verif Require Import Str SMap Json YamlModel YamlSpec YamlProofs.

(* ---------- C44 ---------- *)

(* The keys found are the keys of the object, in order, whatever comes after
   the object. *)
Theorem C44_key_order : forall m rest, object_keys (tokens (JObj m) ++ rest) = KeysOk (map fst m).
Proof. exact object_keys_exact. Qed.

(* A value is skipped exactly. *)
Theorem C44_values_skipped : forall j rest n, 2 * List.length (tokens j ++ rest) + 1 <= n ->
  skip_value n (tokens j ++ rest) = SkipOk rest.
Proof. exact skip_exact. Qed.

(* The ordered map handed to the YAML encoder holds the members of the object
   in their order. *)
Theorem C44_members_kept : forall m, NoDup (map fst m) -> ordered_map (JObj m) = Some m.
Proof. exact ordered_nodup. Qed.

(* With repeated names each occurrence gets the last value. *)
Theorem C44_repeated_names : forall m, exists l, ordered_map (JObj m) = Some l /\ map fst l = map fst m /\
  forall k v, In (k, v) l -> last_of k m = Some v.
Proof. exact ordered_exact. Qed.

Theorem C44_only_objects : forall j, (forall m, j <> JObj m) -> ordered_map j = None.
Proof. exact ordered_only_objects. Qed.

(* The search ends on every list of tokens, also those that are no document. *)
Theorem C44_terminates : forall d, object_keys d <> KeysFuel.
Proof. exact object_keys_total. Qed.

Example C44_example :
  let m := [("openapi", JStr "3.0.3"); ("paths", JObj [("/a", JArr [JObj [("x", JNull)]; JArr []])]); ("info", JObj [])] in
  NoDup (map fst m) /\ object_keys (tokens (JObj m)) = KeysOk ["openapi"; "paths"; "info"] /\ ordered_map (JObj m) = Some m /\
  object_keys [TOpenObj; TString "a"; TCloseObj] = KeysErr /\
  ordered_map (JObj [("a", JNull); ("b", JBool true); ("a", JBool false)]) = Some [("a", JBool false); ("b", JBool true); ("a", JBool false)].
Proof.
  cbv zeta. split; [|vm_compute; auto 10].
  repeat constructor; cbn [map fst In]; intros H; repeat (destruct H as [H|H]; try discriminate H); exact H.
Qed.

(* ---------- C45 ---------- *)

Theorem C45_string_keyed : forall sprint v, string_keyed (convert sprint v).
Proof. exact convert_string_keyed. Qed.

(* The converted value is the given one with its keys printed. *)
Theorem C45_keys_printed : forall sprint v, distinct sprint v -> printed sprint v (convert sprint v).
Proof. exact convert_printed. Qed.

(* The iteration order does not matter. *)
Theorem C45_order : forall sprint v w, distinct sprint v -> ysame v w -> ysame (convert sprint v) (convert sprint w).
Proof. exact convert_order. Qed.

(* When two keys print the same, the one met last wins. *)
Theorem C45_last_wins : forall sprint m k, exists m', convert sprint (YMapI m) = YMapS m' /\
  get k m' = last_of k (map (fun kv => (shown sprint (fst kv), convert sprint (snd kv))) m).
Proof. exact convert_last. Qed.

(* The restriction to keys that print differently is needed. *)
Theorem C45_order_matters_for_equal_keys : exists sprint v w, ysame v w /\ ~ ysame (convert sprint v) (convert sprint w).
Proof. exact convert_order_needed. Qed.

Example C45_example :
  let sprint := fun n => match n with 0 => "200" | _ => "true" end in
  let v := YMapI [(KOther 0, YSlice [YMapI [(KOther 1, YOther JNull)]]); (KString "default", YMapS [("a", YMapI [])])] in
  distinct sprint v /\
  convert sprint v = YMapS [("200", YSlice [YMapS [("true", YOther JNull)]]); ("default", YMapS [("a", YMapS [])])].
Proof.
  cbv zeta. split; [|vm_compute; reflexivity].
  apply di_mapi.
  - repeat constructor; cbn [map fst In shown]; intros H; repeat (destruct H as [H|H]; try discriminate H); exact H.
  - intros k v [E|[E|[]]]; injection E as <- <-.
    + apply di_slice. intros v [<-|[]]. apply di_mapi; [repeat constructor; intros []|]. intros k v [E|[]]. injection E as <- <-. constructor.
    + apply di_maps. intros k v [E|[]]. injection E as <- <-. apply di_mapi; [constructor|]. intros k v [].
Qed.

(* ---------- assumptions ---------- *)

Print Assumptions C44_key_order.
Print Assumptions C44_values_skipped.
Print Assumptions C44_members_kept.
Print Assumptions C44_repeated_names.
Print Assumptions C44_only_objects.
Print Assumptions C44_terminates.
Print Assumptions C45_string_keyed.
Print Assumptions C45_keys_printed.
Print Assumptions C45_order.
Print Assumptions C45_last_wins.
Print Assumptions C45_order_matters_for_equal_keys.
