(* How deep arrays and objects are nested in a value. *)
From Coq Require Import NArith.
From Verif Require Import Str Json.

Fixpoint depth (j : json) : nat :=
  match j with
  | JArr l => S (fold_right Nat.max 0 (map depth l))
  | JObj m => S (fold_right Nat.max 0 (map (fun kv => depth (snd kv)) m))
  | _ => 0
  end.

(* The limit of encoding/json: "exceeded max depth" beyond. *)
Definition shallow (j : json) : Prop := (N.of_nat (depth j) <= 10000)%N.
