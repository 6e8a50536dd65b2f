(* What schemas mean, and what references they hold: specifications for the
   theorems about SchemaModel. *)
From Coq Require Import Permutation.
From Verif Require Import Str SMap Json SchemaModel.

(* ------------------------------------------------------------------ *)
(* Validation of JSON values                                            *)

(* What is left to the validator, the same on both sides: characters of a
   string, regular expressions, formats, equality of values, and the meaning of
   references to other documents. *)
Record oracle := mkOracle {
  o_len : string -> nat;
  o_re : string -> string -> bool;
  o_fmt : string -> json -> bool;
  o_eq : json -> json -> bool;
  o_ext : string -> json -> option bool }.

Definition is_int (q : Q) : bool := Pos.eqb (Qden (Qred q)) 1.
Definition Qlt_bool (x y : Q) : bool := negb (Qle_bool y x).

Definition type_ok (t : string) (v : json) : bool :=
  match v with
  | JNull => String.eqb t "null"
  | JBool _ => String.eqb t "boolean"
  | JNum q => String.eqb t "number" || (String.eqb t "integer" && is_int q)
  | JStr _ => String.eqb t "string"
  | JArr _ => String.eqb t "array"
  | JObj _ => String.eqb t "object"
  end.

Definition is_null (v : json) : bool := match v with JNull => true | _ => false end.

(* A limit constrains values of one kind only. *)
Definition on_num (v : json) (f : Q -> bool) : bool := match v with JNum q => f q | _ => true end.
Definition on_str (v : json) (f : string -> bool) : bool := match v with JStr s => f s | _ => true end.
Definition on_arr (v : json) (f : list json -> bool) : bool := match v with JArr l => f l | _ => true end.
Definition on_obj (v : json) (f : smap json -> bool) : bool := match v with JObj m => f m | _ => true end.
Definition if_set {A : Type} (x : option A) (f : A -> bool) : bool := match x with Some a => f a | None => true end.
Definition size {A : Type} (l : list A) : Z := Z.of_nat (List.length l).

Fixpoint no_repeat (eq : json -> json -> bool) (l : list json) : bool :=
  match l with [] => true | x :: l' => negb (existsb (eq x) l') && no_repeat eq l' end.

(* Strict conjunction, and strict counting. *)
Definition vall {A : Type} (f : A -> option bool) : list A -> option bool :=
  fix go l := match l with
  | [] => Some true
  | x :: l' => match f x, go l' with Some a, Some b => Some (a && b) | _, _ => None end
  end.
Definition vcount {A : Type} (f : A -> option bool) : list A -> option nat :=
  fix go l := match l with
  | [] => Some 0
  | x :: l' => match f x, go l' with Some a, Some n => Some (if a then S n else n) | _, _ => None end
  end.
Definition vand (x y : option bool) : option bool :=
  match x, y with Some a, Some b => Some (a && b) | _, _ => None end.
Definition vopt {A : Type} (f : A -> option bool) (x : option A) : option bool :=
  match x with Some a => f a | None => Some true end.
Definition vnot (x : option bool) : option bool := match x with Some b => Some (negb b) | None => None end.

(* The keywords that hold no schemas. *)
Section Attrs.
  Variable O : oracle.

  Definition common (v : json) (multiple : option Q) (maxlen : option Z) (minlen : Z) (pattern : option string)
      (maxitems : option Z) (minitems : Z) (unique : option bool) (maxprops : option Z) (minprops : Z)
      (required : list string) (enum : list json) (format : option string) : bool :=
    on_num v (fun q => if_set multiple (fun m => is_int (q / m))) &&
    on_str v (fun s => if_set maxlen (fun n => (Z.of_nat (o_len O s) <=? n)%Z) && (minlen <=? Z.of_nat (o_len O s))%Z &&
                       if_set pattern (fun p => o_re O p s)) &&
    on_arr v (fun l => if_set maxitems (fun n => (size l <=? n)%Z) && (minitems <=? size l)%Z &&
                       if_set unique (fun b => if b then no_repeat (o_eq O) l else true)) &&
    on_obj v (fun m => if_set maxprops (fun n => (size m <=? n)%Z) && (minprops <=? size m)%Z &&
                       forallb (fun k => has k m) required) &&
    match enum with [] => true | _ => existsb (o_eq O v) enum end &&
    if_set format (fun f => o_fmt O f v).

  (* JSON schema, draft 7. *)
  Definition jtype_ok (t : jtype) (v : json) : bool :=
    match t with JTNone => true | JTOne t => type_ok t v | JTMany ts => existsb (fun t => type_ok t v) ts end.

  Definition jattrs_ok (a : jattrs) (v : json) : bool :=
    jtype_ok (ja_type a) v &&
    on_num v (fun q => if_set (ja_max a) (fun m => Qle_bool q m) && if_set (ja_exmax a) (fun m => Qlt_bool q m) &&
                       if_set (ja_min a) (fun m => Qle_bool m q) && if_set (ja_exmin a) (fun m => Qlt_bool m q)) &&
    common v (ja_multiple a) (ja_maxlen a) (ja_minlen a) (ja_pattern a) (ja_maxitems a) (ja_minitems a) (ja_unique a)
      (ja_maxprops a) (ja_minprops a) (ja_required a) (ja_enum a) (ja_format a).

  (* OpenAPI 3.0.3: nullable extends the type given next to it, exclusive
     bounds are flags of maximum and minimum. *)
  Definition otype_ok (t : option string) (nullable : option bool) (v : json) : bool :=
    if_set t (fun t => type_ok t v || (is_true nullable && is_null v)).

  Definition oattrs_ok (a : oattrs) (v : json) : bool :=
    otype_ok (oa_type a) (oa_nullable a) v &&
    on_num v (fun q => if_set (oa_max a) (fun m => if is_true (oa_exmax a) then Qlt_bool q m else Qle_bool q m) &&
                       if_set (oa_min a) (fun m => if is_true (oa_exmin a) then Qlt_bool m q else Qle_bool m q)) &&
    common v (oa_multiple a) (oa_maxlen a) (match oa_minlen a with Some z => z | None => 0%Z end) (oa_pattern a)
      (oa_maxitems a) (match oa_minitems a with Some z => z | None => 0%Z end) (oa_unique a)
      (oa_maxprops a) (match oa_minprops a with Some z => z | None => 0%Z end) (oa_required a) (oa_enum a) (oa_format a).
End Attrs.

Definition members (v : json) : smap json := match v with JObj m => m | _ => [] end.
Definition elements (v : json) : list json := match v with JArr l => l | _ => [] end.

(* A property schema applies to the members of its name; additional properties
   are the members without one. *)
Definition vprops {S : Type} (f : S -> json -> option bool) (ps : smap S) (m : smap json) : option bool :=
  vall (fun p => vall (fun kv => if String.eqb (fst p) (fst kv) then f (snd p) (snd kv) else Some true) m) ps.
Definition vaddl {S : Type} (f : json -> option bool) (ps : smap S) (m : smap json) : option bool :=
  vall (fun kv => if has (fst kv) ps then Some true else f (snd kv)) m.

Definition vone (n : option nat) (l : bool) : option bool :=
  match n with Some n => Some (l || (n =? 1)) | None => None end.
Definition vany (n : option nat) (l : bool) : option bool :=
  match n with Some n => Some (l || (1 <=? n)) | None => None end.
Definition none {A : Type} (l : list A) : bool := match l with [] => true | _ => false end.

(* Meaning of a schema under a meaning of references; undefined for schemas
   with keywords that are not described here. *)
Section Meaning.
  Variable O : oracle.
  Variable rs : string -> json -> option bool.

  Fixpoint jmeaning (s : jsob) (v : json) : option bool :=
    match s with
    | JSZero => None
    | JSBool b => Some b
    | JSObj _ (Some r) _ _ _ _ _ _ _ _ _ => rs r v
    | JSObj a None nt al on an it tu pr ad ot =>
        if negb (none (ja_more a) && none tu && none ot) then None else
        vand (Some (jattrs_ok O a v))
        (vand (vopt (fun s => vnot (jmeaning s v)) nt)
        (vand (vall (fun s => jmeaning s v) al)
        (vand (vone (vcount (fun s => jmeaning s v) on) (none on))
        (vand (vany (vcount (fun s => jmeaning s v) an) (none an))
        (vand (vopt (fun s => vall (fun x => jmeaning s x) (elements v)) it)
        (vand (vprops jmeaning pr (members v))
              (vopt (fun s => vaddl (fun x => jmeaning s x) pr (members v)) ad)))))))
    end.

  Fixpoint omeaning (s : osor) (v : json) : option bool :=
    match s with
    | ONone => Some true
    | ORef r => rs r v
    | OSch a nt al on an it pr ad =>
        vand (Some (oattrs_ok O a v))
        (vand (vopt (fun s => vnot (omeaning s v)) nt)
        (vand (vall (fun s => omeaning s v) al)
        (vand (vone (vcount (fun s => omeaning s v) on) (none on))
        (vand (vany (vcount (fun s => omeaning s v) an) (none an))
        (vand (vopt (fun s => vall (fun x => omeaning s x) (elements v)) it)
        (vand (vprops omeaning pr (members v))
              (match ad with
               | None => Some true
               | Some (Addl (Some b) _) => vaddl (fun _ => Some b) pr (members v)
               | Some (Addl None None) => Some true
               | Some (Addl None (Some s)) => vaddl (fun x => omeaning s x) pr (members v)
               end)))))))
    end.
End Meaning.

(* Where the schemas of a document are. *)
Definition schemas_at : string := "#/components/schemas/".

(* Following at most n references one into another.  A reference to a schema of
   the document goes through [env], any other through the oracle. *)
Section Refs.
  Context {S : Type} (meaning : (string -> json -> option bool) -> S -> json -> option bool).
  Variable O : oracle.
  Variable env : string -> option S.

  Fixpoint follow (n : nat) (r : string) (v : json) : option bool :=
    if has_prefix schemas_at r then
      match n with
      | 0 => None
      | Datatypes.S n => match env (trim_prefix schemas_at r) with
               | Some s => meaning (follow n) s v
               | None => None
               end
      end
    else o_ext O r v.

  (* The schema says b about the value. *)
  Definition says (s : S) (v : json) (b : bool) : Prop := exists n, meaning (follow n) s v = Some b.
End Refs.

Definition jsays (O : oracle) (env : string -> option jsob) := says (jmeaning O) O env.
Definition osays (O : oracle) (env : string -> option osor) := says (omeaning O) O env.

(* ------------------------------------------------------------------ *)
(* Which JSON schemas OpenAPI 3.0 can express                            *)

Definition exp_type (t : jtype) : Prop :=
  match t with
  | JTNone => True
  | JTOne t => t <> "null"
  | JTMany ts => exists t, t <> "null" /\ In t ts /\ forall u, In u ts -> u = "null" \/ u = t
  end.

(* An exclusive bound next to an inclusive bound of the same value. *)
Definition exp_bound (incl excl : option Q) : Prop :=
  match excl with None => True | Some e => exists m, incl = Some m /\ (m == e)%Q end.

Definition exp_attrs (a : jattrs) : Prop :=
  exp_type (ja_type a) /\ exp_bound (ja_max a) (ja_exmax a) /\ exp_bound (ja_min a) (ja_exmin a) /\ ja_more a = [].

Inductive expressible : jsob -> Prop :=
| exp_bool b : expressible (JSBool b)
| exp_ref a r nt al on an it tu pr ad ot : expressible (JSObj a (Some r) nt al on an it tu pr ad ot)
| exp_obj a nt al on an it pr ad :
    exp_attrs a ->
    (forall s, nt = Some s -> expressible s) ->
    (forall s, In s al -> expressible s) ->
    (forall s, In s on -> expressible s) ->
    (forall s, In s an -> expressible s) ->
    (forall s, it = Some s -> expressible s) ->
    (forall k s, In (k, s) pr -> expressible s) ->
    (forall s, ad = Some s -> expressible s) ->
    expressible (JSObj a None nt al on an it [] pr ad []).

(* nullable only next to type, at every depth. *)
Inductive nullable_typed : osor -> Prop :=
| nt_none : nullable_typed ONone
| nt_ref r : nullable_typed (ORef r)
| nt_sch a nt al on an it pr ad :
    (is_true (oa_nullable a) = true -> oa_type a <> None) ->
    (forall s, nt = Some s -> nullable_typed s) ->
    (forall s, In s al -> nullable_typed s) ->
    (forall s, In s on -> nullable_typed s) ->
    (forall s, In s an -> nullable_typed s) ->
    (forall s, it = Some s -> nullable_typed s) ->
    (forall k s, In (k, s) pr -> nullable_typed s) ->
    (forall s, ad = Some (Addl None (Some s)) -> nullable_typed s) ->
    nullable_typed (OSch a nt al on an it pr ad).

(* A SchemaOrBool that is neither is met where FromJSONSchema converts. *)
Inductive zero_met : jsob -> Prop :=
| zm_zero : zero_met JSZero
| zm_not a s al on an it tu pr ad ot : zero_met s -> zero_met (JSObj a None (Some s) al on an it tu pr ad ot)
| zm_all a nt al on an it tu pr ad ot s : In s al -> zero_met s -> zero_met (JSObj a None nt al on an it tu pr ad ot)
| zm_one a nt al on an it tu pr ad ot s : In s on -> zero_met s -> zero_met (JSObj a None nt al on an it tu pr ad ot)
| zm_any a nt al on an it tu pr ad ot s : In s an -> zero_met s -> zero_met (JSObj a None nt al on an it tu pr ad ot)
| zm_items a nt al on an s tu pr ad ot : zero_met s -> zero_met (JSObj a None nt al on an (Some s) tu pr ad ot)
| zm_prop a nt al on an it tu pr ad ot k s : In (k, s) pr -> zero_met s -> zero_met (JSObj a None nt al on an it tu pr ad ot)
| zm_addl a nt al on an it tu pr s ot : zero_met s -> zero_met (JSObj a None nt al on an it tu pr (Some s) ot).

(* ------------------------------------------------------------------ *)
(* What comes back from ToJSONSchema and FromJSONSchema                   *)

Definition norm_type (t : option string) (nullable : option bool) : option string * option bool :=
  let t' := match t with Some t => if String.eqb t "null" then None else Some t | None => None end in
  (t', if is_true nullable || match t with Some t => String.eqb t "null" | None => false end then Some true else None).

(* The bound of an exclusive bound is lost. *)
Definition norm_bound (m : option Q) (ex : option bool) : option Q * option bool :=
  if is_true ex then (None, match m with Some _ => Some true | None => None end) else (m, None).

Definition norm_min (z : option Z) : option Z := match z with Some 0%Z => None | _ => z end.

Definition norm_attrs (a : oattrs) : oattrs :=
  mkOA (oa_gotype a) (oa_title a) (oa_desc a)
    (fst (norm_type (oa_type a) (oa_nullable a))) (snd (norm_type (oa_type a) (oa_nullable a))) (oa_multiple a)
    (fst (norm_bound (oa_max a) (oa_exmax a))) (snd (norm_bound (oa_max a) (oa_exmax a)))
    (fst (norm_bound (oa_min a) (oa_exmin a))) (snd (norm_bound (oa_min a) (oa_exmin a)))
    (oa_maxlen a) (norm_min (oa_minlen a)) (oa_pattern a) (oa_maxitems a) (norm_min (oa_minitems a)) (oa_unique a)
    (oa_maxprops a) (norm_min (oa_minprops a)) (oa_required a) (oa_enum a) (oa_format a) (oa_default a) (oa_example a)
    (oa_readonly a) (oa_writeonly a) (oa_deprecated a)
    (filter (fun kv => has_prefix "x-" (fst kv)) (oa_x a)) [].

Fixpoint norm (o : osor) : osor :=
  match o with
  | ONone => sch0 oa0
  | ORef r => ORef r
  | OSch a nt al on an it pr ad =>
      OSch (norm_attrs a) (option_map norm nt) (map norm al) (map norm on) (map norm an) (option_map norm it)
        (map (fun kv => (fst kv, norm (snd kv))) pr)
        (match ad with
         | None => None
         | Some (Addl (Some b) _) => Some (Addl (Some b) None)
         | Some (Addl None None) => None
         | Some (Addl None (Some s)) => Some (Addl None (Some (norm s)))
         end)
  end.

(* Schemas without the things that do not survive. *)
Definition plain_attrs (a : oattrs) : Prop :=
  oa_type a <> Some "null" /\ oa_nullable a <> Some false /\ oa_exmax a = None /\ oa_exmin a = None /\
  oa_minlen a <> Some 0%Z /\ oa_minitems a <> Some 0%Z /\ oa_minprops a <> Some 0%Z /\
  (forall k v, In (k, v) (oa_x a) -> has_prefix "x-" k = true) /\ oa_more a = [].

Inductive plain : osor -> Prop :=
| pl_ref r : plain (ORef r)
| pl_sch a nt al on an it pr ad :
    plain_attrs a ->
    (forall s, nt = Some s -> plain s) ->
    (forall s, In s al -> plain s) ->
    (forall s, In s on -> plain s) ->
    (forall s, In s an -> plain s) ->
    (forall s, it = Some s -> plain s) ->
    (forall k s, In (k, s) pr -> plain s) ->
    (ad = None \/ (exists b, ad = Some (Addl (Some b) None)) \/ (exists s, ad = Some (Addl None (Some s)) /\ plain s)) ->
    plain (OSch a nt al on an it pr ad).

(* The conversion of one schema, without the context. *)
Fixpoint conv (o : osor) : jsob :=
  match o with
  | ONone => JSObj ja0 None None [] [] [] None [] [] None []
  | ORef r => JSObj ja0 (Some r) None [] [] [] None [] [] None []
  | OSch a nt al on an it pr ad =>
      JSObj (to_attrs a) None (option_map conv nt) (map conv al) (map conv on) (map conv an) (option_map conv it) []
        (map (fun kv => (fst kv, conv (snd kv))) pr)
        (match ad with
         | Some (Addl (Some b) _) => Some (JSBool b)
         | Some (Addl None (Some s)) => Some (conv s)
         | _ => None
         end) []
  end.

(* ------------------------------------------------------------------ *)
(* References                                                            *)

Definition local (n : string) : string := schemas_at ^^ n.

(* The schemas directly under a schema, under whatever keyword. *)
Inductive jchild : jsob -> jsob -> Prop :=
| jc_not a r s al on an it tu pr ad ot : jchild (JSObj a r (Some s) al on an it tu pr ad ot) s
| jc_all a r nt al on an it tu pr ad ot s : In s al -> jchild (JSObj a r nt al on an it tu pr ad ot) s
| jc_one a r nt al on an it tu pr ad ot s : In s on -> jchild (JSObj a r nt al on an it tu pr ad ot) s
| jc_any a r nt al on an it tu pr ad ot s : In s an -> jchild (JSObj a r nt al on an it tu pr ad ot) s
| jc_items a r nt al on an s tu pr ad ot : jchild (JSObj a r nt al on an (Some s) tu pr ad ot) s
| jc_tuple a r nt al on an it tu pr ad ot s : In s tu -> jchild (JSObj a r nt al on an it tu pr ad ot) s
| jc_prop a r nt al on an it tu pr ad ot k s : In (k, s) pr -> jchild (JSObj a r nt al on an it tu pr ad ot) s
| jc_addl a r nt al on an it tu pr s ot : jchild (JSObj a r nt al on an it tu pr (Some s) ot) s
| jc_other a r nt al on an it tu pr ad ot k s : In (k, s) ot -> jchild (JSObj a r nt al on an it tu pr ad ot) s.

(* A reference to the component n occurs somewhere in the schema. *)
Inductive jmentions (n : string) : jsob -> Prop :=
| jm_here a nt al on an it tu pr ad ot : jmentions n (JSObj a (Some (local n)) nt al on an it tu pr ad ot)
| jm_child s t : jchild s t -> jmentions n t -> jmentions n s.

Inductive ochild : osor -> osor -> Prop :=
| oc_not a s al on an it pr ad : ochild (OSch a (Some s) al on an it pr ad) s
| oc_all a nt al on an it pr ad s : In s al -> ochild (OSch a nt al on an it pr ad) s
| oc_one a nt al on an it pr ad s : In s on -> ochild (OSch a nt al on an it pr ad) s
| oc_any a nt al on an it pr ad s : In s an -> ochild (OSch a nt al on an it pr ad) s
| oc_items a nt al on an s pr ad : ochild (OSch a nt al on an (Some s) pr ad) s
| oc_prop a nt al on an it pr ad k s : In (k, s) pr -> ochild (OSch a nt al on an it pr ad) s
| oc_addl a nt al on an it pr s : ochild (OSch a nt al on an it pr (Some (Addl None (Some s)))) s.

Inductive omentions (n : string) : osor -> Prop :=
| om_here : omentions n (ORef (local n))
| om_child s t : ochild s t -> omentions n t -> omentions n s.

(* Components reachable from a schema: mentioned by it, or by a component that
   is reachable. *)
Inductive reachable {S : Type} (mentions : string -> S -> Prop) (comp : string -> option S) (s : S) : string -> Prop :=
| re_here n : mentions n s -> reachable mentions comp s n
| re_via n d t : reachable mentions comp s d -> comp d = Some t -> mentions n t -> reachable mentions comp s n.

(* No keyword but the ones that findReferences enters, and no siblings of $ref. *)
Inductive entered : jsob -> Prop :=
| en_zero : entered JSZero
| en_bool b : entered (JSBool b)
| en_ref a r : entered (JSObj a (Some r) None [] [] [] None [] [] None [])
| en_obj a nt al on an it tu pr ad :
    (forall s, jchild (JSObj a None nt al on an it tu pr ad []) s -> entered s) ->
    entered (JSObj a None nt al on an it tu pr ad []).

(* Equal up to the order of map entries. *)
Inductive perm_opt {A : Type} (R : A -> A -> Prop) : option A -> option A -> Prop :=
| po_none : perm_opt R None None
| po_some x y : R x y -> perm_opt R (Some x) (Some y).

Definition same_entries {A : Type} (R : A -> A -> Prop) (m m' : smap A) : Prop :=
  exists m1, Permutation m m1 /\ Forall2 (fun x y => fst x = fst y /\ R (snd x) (snd y)) m1 m'.

Inductive same_addl {A : Type} (R : A -> A -> Prop) : option (addl A) -> option (addl A) -> Prop :=
| sd_none : same_addl R None None
| sd_some b x y : perm_opt R x y -> same_addl R (Some (Addl b x)) (Some (Addl b y)).

Inductive osame : osor -> osor -> Prop :=
| os_none : osame ONone ONone
| os_ref r : osame (ORef r) (ORef r)
| os_sch a nt nt' al al' on on' an an' it it' pr pr' ad ad' :
    perm_opt osame nt nt' -> Forall2 osame al al' -> Forall2 osame on on' -> Forall2 osame an an' ->
    perm_opt osame it it' -> same_entries osame pr pr' -> same_addl osame ad ad' ->
    osame (OSch a nt al on an it pr ad) (OSch a nt' al' on' an' it' pr' ad').

Inductive jsame : jsob -> jsob -> Prop :=
| js_zero : jsame JSZero JSZero
| js_bool b : jsame (JSBool b) (JSBool b)
| js_obj a r nt nt' al al' on on' an an' it it' tu tu' pr pr' ad ad' ot :
    perm_opt jsame nt nt' -> Forall2 jsame al al' -> Forall2 jsame on on' -> Forall2 jsame an an' ->
    perm_opt jsame it it' -> Forall2 jsame tu tu' -> same_entries jsame pr pr' -> perm_opt jsame ad ad' ->
    jsame (JSObj a r nt al on an it tu pr ad ot) (JSObj a r nt' al' on' an' it' tu' pr' ad' ot).

(* Maps: same keys, related values. *)
Definition same_maps {A : Type} (R : A -> A -> Prop) (m m' : smap A) : Prop :=
  forall k, perm_opt R (get k m) (get k m').

(* ------------------------------------------------------------------ *)
(* Statements                                                            *)

(* Definitions and their conversions. *)
Definition converted (jenv : string -> option jsob) (oenv : string -> option osor) : Prop :=
  forall n, match jenv n with
            | Some s => expressible s /\ from_js s = oenv n
            | None => oenv n = None
            end.

(* Schemas with an upper or a lower bound only. *)
Definition max_attrs (mx ex : option Q) : jattrs :=
  mkJA None None None JTNone None mx ex None None None 0 None None 0 None None 0 [] [] None None [] None None None [] [].
Definition min_attrs (mn ex : option Q) : jattrs :=
  mkJA None None None JTNone None None None mn ex None 0 None None 0 None None 0 [] [] None None [] None None None [] [].
Definition jattr_schema (a : jattrs) : jsob := JSObj a None None [] [] [] None [] [] None [].

(* The components of a document; a missing one is read as the zero value. *)
Definition oenv (cs : comps30) (d : string) : option osor := match cs with Some m => get d m | None => None end.

Definition comp30 (cs : comps30) (d : string) : osor :=
  match oenv cs d with Some o => o | None => ONone end.
Definition comp31 (nil_map : option jsob) (cs : comps31) (d : string) : option jsob :=
  match cs with
  | Some m => match get d m with Some x => x | None => nil_map end
  | None => None
  end.

(* Components up to order. *)
Definition same_comps30 (cs cs' : comps30) : Prop := perm_opt (same_maps osame) cs cs'.
Definition same_comps31 (cs cs' : comps31) : Prop := perm_opt (same_maps (perm_opt jsame)) cs cs'.

Definition same_result (r r' : res result) : Prop :=
  match r, r' with
  | Ok (js, defs), Ok (js', defs') => jsame js js' /\ same_maps jsame defs defs'
  | Panic, Panic => True
  | _, _ => False
  end.
