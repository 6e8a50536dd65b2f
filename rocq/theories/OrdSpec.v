(* JSON values and entity values up to the order of members. *)
From Coq Require Import Permutation.
From Verif Require Import Str SMap Json CodecModel CodecSpec OrdModel.

(* The same JSON value with the members of its objects in another order. *)
Inductive reordered : json -> json -> Prop :=
| ro_null : reordered JNull JNull
| ro_bool b : reordered (JBool b) (JBool b)
| ro_num q : reordered (JNum q) (JNum q)
| ro_str s : reordered (JStr s) (JStr s)
| ro_arr l l' : Forall2 reordered l l' -> reordered (JArr l) (JArr l')
| ro_obj m m1 m' : Permutation m m1 -> Forall2 (fun a b => fst a = fst b /\ reordered (snd a) (snd b)) m1 m' ->
    reordered (JObj m) (JObj m').

(* The same entity: maps have the same keys with the same values. *)
Inductive vsame : val -> val -> Prop :=
| vs_nil : vsame VNil VNil
| vs_str s : vsame (VStr s) (VStr s)
| vs_num q : vsame (VNum q) (VNum q)
| vs_bool b : vsame (VBool b) (VBool b)
| vs_any j j' : reordered j j' -> vsame (VAny j) (VAny j')
| vs_ptr v v' : vsame v v' -> vsame (VPtr v) (VPtr v')
| vs_arr l l' : Forall2 vsame l l' -> vsame (VArr l) (VArr l')
| vs_struct l l' : Forall2 vsame l l' -> vsame (VStruct l) (VStruct l')
| vs_map m m' : (forall k, get k m = None -> get k m' = None) ->
    (forall k v, get k m = Some v -> exists v', get k m' = Some v' /\ vsame v v') -> vsame (VMap m) (VMap m').

(* Both fail, or both give the same. *)
Inductive agree {A} (R : A -> A -> Prop) : option A -> option A -> Prop :=
| ag_none : agree R None None
| ag_some x y : R x y -> agree R (Some x) (Some y).

(* Decoding [snd a] into a variable of type [fst a] decodes [snd b], which is the
   same JSON value or a part of it, into one of type [fst b]. *)
Inductive reads (T : list (string * ent)) : ty * json -> ty * json -> Prop :=
| rd_ptr t j : reads T (TPtr t, j) (t, j)
| rd_arr t l x : In x l -> reads T (TArr t, JArr l) (t, x)
| rd_map t m k x : In (k, x) m -> reads T (TMap t, JObj m) (t, x)
(* a type that must not fit, an embedded struct, an alternative *)
| rd_not n fs ps d t j : get n T = Some (EStruct fs ps d) -> In t (d_not d) -> reads T (TNamed n, j) (t, j)
| rd_part n fs ps d i f j : get n T = Some (EStruct fs ps d) -> In i (d_embed d ++ d_oneof d) -> nth_error fs i = Some f ->
    reads T (TNamed n, j) (f_ty f, j)
(* a member that belongs to a field: names are compared without regard to case *)
| rd_field n fs ps d f q m k x : get n T = Some (EStruct fs ps d) -> In f fs -> f_key f = Some q -> fold_key k = fold_key q ->
    In (k, x) m -> reads T (TNamed n, JObj m) (f_ty f, x)
(* a member that goes into a map of the struct: its name is none of the known
   ones and matches a pattern, or none *)
| rd_entry n fs ps d i f t m k x : get n T = Some (EStruct fs ps d) -> ~ In k (map fst (d_const d)) -> ~ In k (d_known d) ->
    (exists p, In (p, i) (d_pats d) /\ matches p k = true) \/ In i (d_addl d) /\ (forall p i', In (p, i') (d_pats d) -> matches p k = false) ->
    nth_error fs i = Some f -> f_ty f = TMap t -> In (k, x) m -> reads T (TNamed n, JObj m) (t, x).

Inductive reads_all (T : list (string * ent)) (a : ty * json) : ty * json -> Prop :=
| ra_self : reads_all T a a
| ra_step b c : reads_all T a b -> reads T b c -> reads_all T a c.

(* An object where there should be a string: this is always an error. *)
Definition misfit (t : ty) (j : json) : Prop := (t = TStr \/ t = TPtr TStr) /\ exists m, j = JObj m.

(* No object has two members for the same field of the struct it is read into
   (members whose names differ only in case), unless this fails anyway. *)
Definition unambiguous (T : list (string * ent)) (t : ty) (j : json) : Prop :=
  forall n m fs ps d f q k x k' x', reads_all T (t, j) (TNamed n, JObj m) -> get n T = Some (EStruct fs ps d) ->
    In f fs -> f_key f = Some q -> In (k, x) m -> In (k', x') m -> fold_key k = fold_key q -> fold_key k' = fold_key q ->
    k = k' \/ misfit (f_ty f) x \/ misfit (f_ty f) x'.

(* The keys of the fields of a package. *)
Definition field_keys (T : list (string * ent)) : list string :=
  flat_map (fun ne => match snd ne with
                      | EStruct fs _ _ => flat_map (fun f => match f_key f with Some k => [k] | None => [] end) fs
                      | EEnum _ => []
                      end) T.

(* A simpler condition that does not look at types: no object whatsoever has two
   members whose names differ only in case from a key of a field. *)
Inductive no_variants (K : list string) : json -> Prop :=
| nv_null : no_variants K JNull
| nv_bool b : no_variants K (JBool b)
| nv_num q : no_variants K (JNum q)
| nv_str s : no_variants K (JStr s)
| nv_arr l : (forall j, In j l -> no_variants K j) -> no_variants K (JArr l)
| nv_obj m :
    (forall k a b, In k K -> In a (map fst m) -> In b (map fst m) -> fold_key a = fold_key k -> fold_key b = fold_key k -> a = b) ->
    (forall k j, In (k, j) m -> no_variants K j) -> no_variants K (JObj m).

(* An order chosen by the runtime: all members, each once. *)
Definition fair (o : order) : Prop := forall n i j l, Permutation l (o n i j l).

(* Maps without repeated keys, as Go maps are, those in an interface{} as well. *)
Inductive single : val -> Prop :=
| sg_nil : single VNil
| sg_str s : single (VStr s)
| sg_num q : single (VNum q)
| sg_bool b : single (VBool b)
| sg_any j : distinct j -> single (VAny j)
| sg_ptr v : single v -> single (VPtr v)
| sg_arr l : (forall v, In v l -> single v) -> single (VArr l)
| sg_struct l : (forall v, In v l -> single v) -> single (VStruct l)
| sg_map m : NoDup (map fst m) -> (forall k v, In (k, v) m -> single v) -> single (VMap m).
