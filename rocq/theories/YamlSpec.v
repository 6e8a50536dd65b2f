(* Specifications for YamlModel. *)
From Coq Require Import Permutation.
From Verif Require Import Str SMap Json YamlModel.

(* The value of the last member of a name. *)
Fixpoint last_of {A : Type} (k : string) (m : list (string * A)) : option A :=
  match m with
  | [] => None
  | (k', v) :: m => match last_of k m with Some x => Some x | None => if String.eqb k k' then Some v else None end
  end.

(* Only maps with string keys, at every depth. *)
Inductive string_keyed : yval -> Prop :=
| sk_other j : string_keyed (YOther j)
| sk_slice l : (forall v, In v l -> string_keyed v) -> string_keyed (YSlice l)
| sk_map m : (forall k v, In (k, v) m -> string_keyed v) -> string_keyed (YMapS m).

(* The text a key becomes. *)
Definition shown (sprint : nat -> string) (k : ykey) : string :=
  match k with KString s => s | KOther n => sprint n end.

(* The same value with its keys printed, entry by entry. *)
Inductive printed (sprint : nat -> string) : yval -> yval -> Prop :=
| pr_other j : printed sprint (YOther j) (YOther j)
| pr_slice l l' : Forall2 (printed sprint) l l' -> printed sprint (YSlice l) (YSlice l')
| pr_mapi m m' : Forall2 (fun x y => shown sprint (fst x) = fst y /\ printed sprint (snd x) (snd y)) m m' ->
    printed sprint (YMapI m) (YMapS m')
| pr_maps m m' : Forall2 (fun x y => fst x = fst y /\ printed sprint (snd x) (snd y)) m m' ->
    printed sprint (YMapS m) (YMapS m').

(* No two keys of one map print the same. *)
Inductive distinct (sprint : nat -> string) : yval -> Prop :=
| di_other j : distinct sprint (YOther j)
| di_slice l : (forall v, In v l -> distinct sprint v) -> distinct sprint (YSlice l)
| di_mapi m : NoDup (map (fun kv => shown sprint (fst kv)) m) -> (forall k v, In (k, v) m -> distinct sprint v) ->
    distinct sprint (YMapI m)
| di_maps m : (forall k v, In (k, v) m -> distinct sprint v) -> distinct sprint (YMapS m).

(* Equal up to the order in which maps are iterated over. *)
Inductive ysame : yval -> yval -> Prop :=
| ys_other j : ysame (YOther j) (YOther j)
| ys_slice l l' : Forall2 ysame l l' -> ysame (YSlice l) (YSlice l')
| ys_mapi m m1 m' : Permutation m m1 -> Forall2 (fun x y => fst x = fst y /\ ysame (snd x) (snd y)) m1 m' ->
    ysame (YMapI m) (YMapI m')
| ys_maps m m1 m' : Permutation m m1 -> Forall2 (fun x y => fst x = fst y /\ ysame (snd x) (snd y)) m1 m' ->
    ysame (YMapS m) (YMapS m').
