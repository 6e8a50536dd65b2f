(* Reading a document into an entity that is in use. *)
From Verif Require Import Str SMap Json CodecModel CodecSpec.

Section Typed.
  Variable T : list (string * ent).

  (* The values of a Go type. *)
  Inductive typed : ty -> val -> Prop :=
  | ty_str s : typed TStr (VStr s)
  | ty_bool b : typed TBool (VBool b)
  | ty_int q : typed TInt (VNum q)
  | ty_float q : typed TFloat (VNum q)
  | ty_any j : typed TAny (VAny j)
  | ty_skip : typed TSkip VNil
  | ty_nil t : typed (TPtr t) VNil
  | ty_ptr t v : typed t v -> typed (TPtr t) (VPtr v)
  | ty_no_arr t : typed (TArr t) VNil
  | ty_arr t l : (forall v, In v l -> typed t v) -> typed (TArr t) (VArr l)
  | ty_no_map t : typed (TMap t) VNil
  | ty_map t m : (forall k v, get k m = Some v -> typed t v) -> typed (TMap t) (VMap m)
  | ty_enum n vals s : get n T = Some (EEnum vals) -> typed (TNamed n) (VStr s)
  | ty_struct n fs ps d vs : get n T = Some (EStruct fs ps d) ->
      Forall2 (fun f v => typed (f_ty f) v) fs vs -> typed (TNamed n) (VStruct vs).
End Typed.

(* Values that say nothing. *)
Inductive nothing : val -> Prop :=
| no_nil : nothing VNil
| no_str : nothing (VStr "")
| no_bool : nothing (VBool false)
| no_num : nothing (VNum 0)
| no_any : nothing (VAny JNull)
| no_struct vs : (forall v, In v vs -> nothing v) -> nothing (VStruct vs).

(* The second value says what the first one says, and maybe more: entries of
   maps are the same, lists have the same length. *)
Inductive extends : val -> val -> Prop :=
| ex_nothing v w : nothing v -> extends v w
| ex_str s : extends (VStr s) (VStr s)
| ex_num q : extends (VNum q) (VNum q)
| ex_bool b : extends (VBool b) (VBool b)
| ex_any j : extends (VAny j) (VAny j)
| ex_ptr v w : extends v w -> extends (VPtr v) (VPtr w)
| ex_arr l l' : Forall2 extends l l' -> extends (VArr l) (VArr l')
| ex_map m m' : (forall k v, get k m = Some v -> get k m' = Some v) -> extends (VMap m) (VMap m')
| ex_struct l l' : Forall2 extends l l' -> extends (VStruct l) (VStruct l').

(* No object has a null under one of the keys (whatever the case of its
   letters). *)
Inductive no_null (K : list string) : json -> Prop :=
| nn_null : no_null K JNull
| nn_bool b : no_null K (JBool b)
| nn_num q : no_null K (JNum q)
| nn_str s : no_null K (JStr s)
| nn_arr l : (forall j, In j l -> no_null K j) -> no_null K (JArr l)
| nn_obj m : (forall q k, In q K -> fold_key k = fold_key q -> ~ In (k, JNull) m) ->
    (forall k j, In (k, j) m -> no_null K j) -> no_null K (JObj m).

(* json.Unmarshal(data, &x) for a variable that holds [old]. *)
Definition unmarshal_over (T : list (string * ent)) (rnd : Q -> Q) (t : ty) (j : json) (old : val) : option val :=
  dec T rnd j t old.

(* The entries of a map field. *)
Definition entries_of (v : val) : list (string * val) := match v with VMap m => m | _ => [] end.
Definition field_at (v : val) (i : nat) : option val := match v with VStruct vs => nth_error vs i | _ => None end.
(* The members of a JSON object. *)
Definition members_of (j : json) : list (string * json) := match j with JObj m => m | _ => [] end.
