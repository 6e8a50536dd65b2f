(* JSON values.  An object is its list of members in order.  Numbers are
   rationals (every finite float64 and every int64 is one). *)
From Coq Require Export QArith.
From Verif Require Import Str.
Open Scope nat_scope.

Inductive json :=
| JNull
| JBool (b : bool)
| JNum (q : Q)
| JStr (s : string)
| JArr (l : list json)
| JObj (m : list (string * json)).

Section JsonInd.
  Variable P : json -> Prop.
  Hypothesis Hnull : P JNull.
  Hypothesis Hbool : forall b, P (JBool b).
  Hypothesis Hnum : forall q, P (JNum q).
  Hypothesis Hstr : forall s, P (JStr s).
  Hypothesis Harr : forall l, Forall P l -> P (JArr l).
  Hypothesis Hobj : forall m, Forall (fun kv => P (snd kv)) m -> P (JObj m).

  Fixpoint json_ind' (j : json) : P j :=
    match j with
    | JNull => Hnull
    | JBool b => Hbool b
    | JNum q => Hnum q
    | JStr s => Hstr s
    | JArr l => Harr l
        ((fix go l : Forall P l :=
            match l with [] => Forall_nil _ | x :: r => Forall_cons _ (json_ind' x) (go r) end) l)
    | JObj m => Hobj m
        ((fix go m : Forall (fun kv => P (snd kv)) m :=
            match m with [] => Forall_nil _ | x :: r => Forall_cons _ (json_ind' (snd x)) (go r) end) m)
    end.
End JsonInd.
