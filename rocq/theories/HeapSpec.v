(* What memory holds, and what a chain of builder calls does to a document seen
   as a tree. *)
From Verif Require Import Str SMap Json CodecModel BuildModel BuildSpec UsedSpec HeapModel.

(* ---------- the tree that a value in memory stands for ---------- *)

(* With the objects that it is made of.  Pointers are to whole objects. *)
Inductive holds_tree (h : heap) : hval -> val -> list loc -> Prop :=
| ht_nil : holds_tree h HNil VNil []
| ht_str s : holds_tree h (HStr s) (VStr s) []
| ht_num q : holds_tree h (HNum q) (VNum q) []
| ht_bool b : holds_tree h (HBool b) (VBool b) []
| ht_any j : holds_tree h (HAny j) (VAny j) []
| ht_ptr l w v F : nth_error h l = Some (OVal w) -> holds_tree h w v F -> holds_tree h (HPtr (l, [])) (VPtr v) (l :: F)
| ht_arr l ws vs F : nth_error h l = Some (OVal (HStruct ws)) -> holds_trees h ws vs F -> holds_tree h (HArr l) (VArr vs) (l :: F)
| ht_map l ms m F : nth_error h l = Some (OMap ms) -> holds_entries h ms m F -> holds_tree h (HMap l) (VMap m) (l :: F)
| ht_struct ws vs F : holds_trees h ws vs F -> holds_tree h (HStruct ws) (VStruct vs) F
with holds_trees (h : heap) : list hval -> list val -> list loc -> Prop :=
| hl_nil : holds_trees h [] [] []
| hl_cons w v F ws vs G : holds_tree h w v F -> holds_trees h ws vs G -> holds_trees h (w :: ws) (v :: vs) (F ++ G)
with holds_entries (h : heap) : list (string * hval) -> list (string * val) -> list loc -> Prop :=
| he_nil : holds_entries h [] [] []
| he_cons k w v F ws vs G : holds_tree h w v F -> holds_entries h ws vs G -> holds_entries h ((k, w) :: ws) ((k, v) :: vs) (F ++ G).

(* The variable [l] holds the tree; all parts of it are there once. *)
Definition variable (h : heap) (l : loc) (v : val) (F : list loc) : Prop :=
  exists w, nth_error h l = Some (OVal w) /\ holds_tree h w v F /\ NoDup (l :: F).

(* The arguments of a chain as trees, with the objects that they are made of. *)
Inductive arguments (h : heap) : list (move hval) -> list (move val) -> list loc -> Prop :=
| ar_nil : arguments h [] [] []
| ar_sel f ws vs F : arguments h ws vs F -> arguments h (Sel f :: ws) (Sel f :: vs) F
| ar_deref f ws vs F : arguments h ws vs F -> arguments h (Deref f :: ws) (Deref f :: vs) F
| ar_elem f k ws vs F : arguments h ws vs F -> arguments h (Elem f k :: ws) (Elem f k :: vs) F
| ar_ens f ws vs F : arguments h ws vs F -> arguments h (Ens f :: ws) (Ens f :: vs) F
| ar_with f w v G ws vs F : holds_tree h w v G -> arguments h ws vs F -> arguments h (With f w :: ws) (With f v :: vs) (G ++ F)
| ar_item f k w v G ws vs F : holds_tree h w v G -> arguments h ws vs F -> arguments h (Item f k w :: ws) (Item f k v :: vs) (G ++ F).

(* ---------- editing a tree ---------- *)

Section Edit.
  Variable P : package.

  (* The field [f] of the struct type [n] is the one at [i], of type [t]. *)
  Definition has_field (n f : string) (i : nat) (t : ty) : Prop :=
    exists fs parts d fd, get n (p_types P) = Some (EStruct fs parts d) /\ nth_error fs i = Some fd /\ f_name fd = f /\ f_ty fd = t.
  Definition struct_type (n : string) : Prop := exists fs parts d, get n (p_types P) = Some (EStruct fs parts d).

  (* A tree before and after a chain that starts at its root. *)
  Inductive edited : string -> list (move val) -> val -> val -> Prop :=
  | ed_done n v : edited n [] v v
  | ed_sel n f i s l vs w w' vs' : has_field n f i (TNamed s) -> nth_error vs i = Some w ->
      edited s l w w' -> updated i w' vs vs' -> edited n (Sel f :: l) (VStruct vs) (VStruct vs')
  | ed_deref n f i s l vs w w' vs' : has_field n f i (TPtr (TNamed s)) -> nth_error vs i = Some (VPtr w) ->
      edited s l w w' -> updated i (VPtr w') vs vs' -> edited n (Deref f :: l) (VStruct vs) (VStruct vs')
  | ed_elem n f i s k l vs ws w w' ws' vs' : has_field n f i (TArr (TNamed s)) -> nth_error vs i = Some (VArr ws) -> nth_error ws k = Some w ->
      edited s l w w' -> updated k w' ws ws' -> updated i (VArr ws') vs vs' -> edited n (Elem f k :: l) (VStruct vs) (VStruct vs')
  | ed_with n f i t b a l x w vs vs' v' : has_field n f i t -> method (p_meths P) n ("With" ^^ f) = Some b -> m_val b = Some a ->
      holds t a x w -> i < length vs -> updated i w vs vs' -> edited n l (VStruct vs') v' -> edited n (With f x :: l) (VStruct vs) v'
  | ed_item n f i t key l x v m vs vs' v' : has_field n f i (TMap t) -> nth_error vs i = Some v -> holds_map v m ->
      updated i (VMap (put key x m)) vs vs' -> edited n l (VStruct vs') v' -> edited n (Item f key x :: l) (VStruct vs) v'
  | ed_ens n f i s l vs w w' vs' : has_field n f i (TPtr (TNamed s)) -> struct_type s ->
      nth_error vs i = Some (VPtr w) \/ nth_error vs i = Some VNil /\ w = zero (p_types P) LVL (TNamed s) ->
      edited s l w w' -> updated i (VPtr w') vs vs' -> edited n (Ens f :: l) (VStruct vs) (VStruct vs').

  (* Chains of field selections and builder calls with arguments of the right types. *)
  Inductive chained : string -> list (move val) -> Prop :=
  | ch_nil n : chained n []
  | ch_sel n f i s l : has_field n f i (TNamed s) -> struct_type s -> chained s l -> chained n (Sel f :: l)
  | ch_with n f i t b a x l : has_field n f i t -> method (p_meths P) n ("With" ^^ f) = Some b -> m_val b = Some a ->
      typed (p_types P) a x -> chained n l -> chained n (With f x :: l)
  | ch_item n f i t key x l : has_field n f i (TMap t) -> typed (p_types P) t x -> chained n l -> chained n (Item f key x :: l)
  | ch_ens n f i s l : has_field n f i (TPtr (TNamed s)) -> struct_type s -> chained s l -> chained n (Ens f :: l).
End Edit.

(* ---------- values that share objects ---------- *)

(* The objects that a link of a chain may change: the one with the receiver, and
   the map that gets an entry. *)
Inductive touches (P : package) (n : string) (h : heap) (a : addr) : move hval -> loc -> Prop :=
| to_receiver m : touches P n h a m (fst a)
| to_map f i t key x l : has_field P n f i t -> read h (fst a, snd a ++ [i]) = Some (HMap l) -> touches P n h a (Item f key x) l.

(* y := x: a new variable with the same value. *)
Definition copied (h : heap) (w : hval) : heap * loc := (h ++ [OVal w], length h).

(* Calls of With<Field> only. *)
Definition sets_fields (l : list (move hval)) : Prop := forall m, In m l -> exists f x, m = With f x.
