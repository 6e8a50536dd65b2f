(* The JSON codecs of the generated entity types: openapi3/entities.go and
   openapi31/entities.go.

   Each struct type there has the same kind of UnmarshalJSON and MarshalJSON,
   written out by a generator.  A type is described here by a value of [ent]
   (fields, what is checked, what is joined; the descriptors of all types are in
   CodecTables.v, extracted from the Go text by tools/gen_codec.py), and the two
   functions are interpreters of descriptors.

   encoding/json itself is modelled as far as the generated code uses it, at the
   level of JSON values: struct fields with keys and omitempty, pointers,
   slices, string keyed maps, interface{}, case insensitive matching of keys,
   null, MarshalJSON and UnmarshalJSON methods.  Not modelled here: the text of
   JSON (see TextModel.v and BytesModel.v), values that json.Unmarshal leaves
   behind when it fails (FailModel.v), the slack between length and capacity of a
   slice.

   A Go map is an association list; its order stands for the iteration order. *)
From Verif Require Import Str SMap Json.

(* ---------- types and values ---------- *)

Inductive ty :=
| TStr | TInt | TFloat | TBool       (* string, int64, float64, bool *)
| TAny                               (* interface{} *)
| TSkip                              (* a type without JSON form: reflect.Type *)
| TPtr (t : ty) | TArr (t : ty) | TMap (t : ty)
| TNamed (n : string).

Inductive val :=
| VNil                               (* nil pointer, slice, map *)
| VStr (s : string) | VNum (q : Q) | VBool (b : bool)
| VAny (j : json)                    (* what an interface{} holds; JNull is nil *)
| VPtr (v : val)
| VArr (l : list val)
| VMap (m : list (string * val))
| VStruct (l : list val).            (* fields in order *)

(* Regular expressions of pattern properties: openapi3/entities.go:8575-8581,
   openapi31/entities.go:5674-5678. *)
Inductive pat :=
| PatX        (* ^x- *)
| PatMethod   (* ^(get|put|post|delete|options|head|patch|trace)$ *)
| PatStatus   (* ^[1-5](?:\d{2}|XX)$ *)
| PatSlash    (* ^\/ *)
| PatName.    (* ^[a-zA-Z0-9\.\-_]+$ *)

Definition digit (c : ascii) : bool := in_range 48 57 c.
Definition name_char (c : ascii) : bool :=
  in_range 97 122 c || in_range 65 90 c || digit c || Ascii.eqb c "." || Ascii.eqb c "-" || Ascii.eqb c "_".

Fixpoint all_chars (p : ascii -> bool) (s : string) : bool :=
  match s with EmptyString => true | String c s => p c && all_chars p s end.

Definition in_list (k : string) (l : list string) : bool := existsb (String.eqb k) l.

Definition matches (p : pat) (k : string) : bool :=
  match p with
  | PatX => String.prefix "x-" k
  | PatSlash => String.prefix "/" k
  | PatMethod => in_list k ["get"; "put"; "post"; "delete"; "options"; "head"; "patch"; "trace"]
  | PatStatus =>
      match k with
      | String a (String b (String c EmptyString)) =>
          in_range 49 53 a && ((digit b && digit c) || (Ascii.eqb b "X" && Ascii.eqb c "X"))
      | _ => false
      end
  | PatName => match k with EmptyString => false | _ => all_chars name_char k end
  end.

(* A struct field: Go name, type, JSON key (None: the tag is "-"), omitempty. *)
Record field := mkField { f_name : string; f_ty : ty; f_key : option string; f_omit : bool }.

(* What an UnmarshalJSON does, in the order of the statements.  Fields are
   given by position. *)
Record dprog := {
  d_not : list ty;                       (* var not T; decoding it must fail *)
  d_struct : bool;                       (* json.Unmarshal(data, &ms) *)
  d_embed : list nat;                    (* json.Unmarshal(data, &ms.F) *)
  d_oneof : list nat;                    (* the same, exactly one of them valid *)
  d_require : list string;               (* keys that must be in rawMap *)
  d_xor : list (string * string);        (* exactly one of two keys in rawMap *)
  d_const : list (string * json);        (* if present, must be this; deleted *)
  d_notconst : list (string * json);     (* must not be this *)
  d_absent : list string;                (* must not be present *)
  d_lower : list (nat * string * bool);  (* strings.ToLower(ms.F) == c must be b *)
  d_fix : list (nat * string);           (* nil *interface{} of a present key *)
  d_known : list string;                 (* deleted from rawMap *)
  d_pats : list (pat * nat);             (* pattern properties, to a map field *)
  d_addl : list nat;                     (* all other keys, to a map field *)
  d_closed : bool                        (* error if a key is left *)
}.

(* The arguments of marshalUnion in a MarshalJSON. *)
Inductive part := PConst (m : list (string * json)) | PStruct | PField (i : nat).

Inductive ent :=
| EEnum (vals : list string)
| EStruct (fs : list field) (parts : list part) (d : dprog).

Fixpoint set_nth {A} (i : nat) (x : A) (l : list A) : list A :=
  match i, l with
  | _, [] => []
  | O, _ :: l => x :: l
  | S i, y :: l => y :: set_nth i x l
  end.

(* The members of a list of pairs that are not overridden by a later one with
   the same key: what reading an object into a map keeps. *)
Fixpoint dedup {A} (ms : list (string * A)) : list (string * A) :=
  match ms with
  | [] => []
  | m :: ms => if in_list (fst m) (map fst ms) then dedup ms else m :: dedup ms
  end.

(* encoding/json fold.go: the class of a key under case folding, for comparison
   with ASCII field names: ASCII letters, U+017F (C5 BF) for s, U+212A
   (E2 84 AA) for k. *)
Fixpoint fold_key (s : string) : string :=
  match s with
  | EmptyString => EmptyString
  | String c s1 =>
      match s1 with
      | String d s2 =>
          if Ascii.eqb c "197" && Ascii.eqb d "191" then String "s" (fold_key s2)
          else match s2 with
               | String e s3 =>
                   if Ascii.eqb c "226" && Ascii.eqb d "132" && Ascii.eqb e "170"
                   then String "k" (fold_key s3)
                   else String (lower_byte c) (fold_key s1)
               | EmptyString => String (lower_byte c) (fold_key s1)
               end
      | EmptyString => String (lower_byte c) (fold_key s1)
      end
  end.

(* The position of the first field whose key passes the test. *)
Fixpoint find_at (test : string -> bool) (fs : list field) : option nat :=
  match fs with
  | [] => None
  | f :: fs =>
      if match f_key f with Some k => test k | None => false end then Some O
      else match find_at test fs with Some i => Some (S i) | None => None end
  end.

(* encoding/json decode.go, object: the field for a key is the one with exactly
   this key, else one with the same key under folding. *)
Definition find_field (fs : list field) (k : string) : option nat :=
  match find_at (String.eqb k) fs with
  | Some i => Some i
  | None => find_at (fun k' => String.eqb (fold_key k) (fold_key k')) fs
  end.

Definition int64b (q : Q) : bool :=
  (Qden q =? 1)%positive && (-9223372036854775808 <=? Qnum q)%Z && (Qnum q <=? 9223372036854775807)%Z.

(* How many times a type may refer to another one at the same JSON value. *)
Definition LVL : nat := 10.

(* marshalUnion at the level of JSON values (see C40 for the text): null and
   empty objects are skipped, objects are joined, something that is no object
   must be alone.  (Two equal one byte encodings are joined by marshalUnion; they
   do not arise, see C92.) *)
Fixpoint junion_loop (parts : list json) (acc : list (string * json)) : option json :=
  match parts with
  | [] => Some (JObj acc)
  | JNull :: ps => junion_loop ps acc
  | JObj m :: ps => junion_loop ps (acc ++ m)
  | j :: ps =>
      match acc with
      | [] => if forallb (fun p => match p with JNull | JObj [] => true | _ => false end) ps then Some j else None
      | _ :: _ => None
      end
  end.
Definition junion (parts : list json) : option json := junion_loop parts [].

Fixpoint seq_opt {A} (l : list (option A)) : option (list A) :=
  match l with
  | [] => Some []
  | None :: _ => None
  | Some x :: l => match seq_opt l with Some r => Some (x :: r) | None => None end
  end.

Section Codec.
  (* The types of a package. *)
  Variable T : list (string * ent).
  (* strconv.ParseFloat: the float64 nearest to a number.  (Numbers out of range
     are not rejected.) *)
  Variable rnd : Q -> Q.

  (* The zero value of a type.  Structs held by value are nested at most [n]
     deep. *)
  Fixpoint zero (n : nat) (t : ty) : val :=
    match t with
    | TStr => VStr ""
    | TInt | TFloat => VNum 0
    | TBool => VBool false
    | TAny => VAny JNull
    | TSkip | TPtr _ | TArr _ | TMap _ => VNil
    | TNamed s =>
        match n with
        | O => VNil
        | S n =>
            match get s T with
            | Some (EStruct fs _ _) => VStruct (map (fun f => zero n (f_ty f)) fs)
            | Some (EEnum _) => VStr ""
            | None => VNil
            end
        end
    end.

  (* ---------- encoding ---------- *)

  (* encoding/json encode.go isEmptyValue. *)
  Definition is_empty (v : val) : bool :=
    match v with
    | VNil | VStr EmptyString | VBool false | VAny JNull | VArr [] | VMap [] => true
    | VNum q => Qeq_bool q 0
    | _ => false
    end.

  Definition encoder := ty -> option json.

  (* The members of a struct: fields with a key, empty ones with omitempty left
     out. *)
  Fixpoint enc_fields (fs : list field) (vs : list (val * encoder)) : option (list (string * json)) :=
    match fs, vs with
    | [], [] => Some []
    | f :: fs, (v, e) :: vs =>
        match f_key f with
        | None => enc_fields fs vs
        | Some k =>
            if f_omit f && is_empty v then enc_fields fs vs
            else match e (f_ty f), enc_fields fs vs with
                 | Some j, Some m => Some ((k, j) :: m)
                 | _, _ => None
                 end
        end
    | _, _ => None
    end.

  Definition enc_part (fs : list field) (vs : list (val * encoder)) (p : part) : option json :=
    match p with
    | PConst m => Some (JObj m)
    | PStruct => match enc_fields fs vs with Some m => Some (JObj m) | None => None end
    | PField i =>
        match nth_error fs i, nth_error vs i with
        | Some f, Some (_, e) => e (f_ty f)
        | _, _ => None
        end
    end.

  (* json.Marshal of a value of a type. *)
  Fixpoint enc (v : val) : encoder := fun t =>
    match v with
    | VNil => match t with TPtr _ | TArr _ | TMap _ => Some JNull | _ => None end
    | VStr s =>
        match t with
        | TStr => Some (JStr s)
        | TNamed n =>
            match get n T with
            | Some (EEnum vals) => if in_list s vals then Some (JStr s) else None
            | _ => None
            end
        | _ => None
        end
    | VNum q => match t with TInt | TFloat => Some (JNum q) | _ => None end
    | VBool b => match t with TBool => Some (JBool b) | _ => None end
    | VAny j => match t with TAny => Some j | _ => None end
    | VPtr v => match t with TPtr t => enc v t | _ => None end
    | VArr l =>
        match t with
        | TArr t => match seq_opt (map (fun v => enc v t) l) with Some js => Some (JArr js) | None => None end
        | _ => None
        end
    | VMap m =>
        match t with
        | TMap t =>
            match seq_opt (map (fun kv => match enc (snd kv) t with Some j => Some (fst kv, j) | None => None end) m) with
            | Some ms => Some (JObj ms)
            | None => None
            end
        | _ => None
        end
    | VStruct l =>
        match t with
        | TNamed n =>
            match get n T with
            | Some (EStruct fs parts _) =>
                match seq_opt (map (enc_part fs (map (fun v => (v, enc v)) l)) parts) with
                | Some js => junion js
                | None => None
                end
            | _ => None
            end
        | _ => None
        end
    end.

  (* ---------- decoding ---------- *)

  (* A decoder of one JSON value: type, old value, new value or error. *)
  Definition decoder := ty -> val -> option val.

  (* A JSON value with decoders for what it contains. *)
  Inductive jview :=
  | SNull | SBool (b : bool) | SNum (q : Q) | SStr (s : string)
  | SArr (l : list decoder) | SObj (ms : list (string * (json * decoder))).

  (* What decoding into an empty interface{} gives: objects become maps. *)
  Fixpoint canon (j : json) : json :=
    match j with
    | JNum q => JNum (rnd q)
    | JArr l => JArr (map canon l)
    | JObj m => JObj (dedup (map (fun kv => (fst kv, canon (snd kv))) m))
    | _ => j
    end.

  Definition members := list (string * (json * decoder)).

  (* encoding/json decode.go, object, struct case. *)
  Fixpoint dec_fields (fs : list field) (ms : members) (vs : list val) : option (list val) :=
    match ms with
    | [] => Some vs
    | (k, (_, d)) :: ms =>
        match find_field fs k with
        | None => dec_fields fs ms vs
        | Some i =>
            match nth_error fs i, nth_error vs i with
            | Some f, Some v =>
                match d (f_ty f) v with
                | Some v' => dec_fields fs ms (set_nth i v' vs)
                | None => None
                end
            | _, _ => None
            end
        end
    end.

  (* json.Unmarshal(data, &ms) for a struct without methods. *)
  Definition dec_struct (w : jview) (fs : list field) (vs : list val) : option (list val) :=
    match w with
    | SNull => Some vs
    | SObj ms => dec_fields fs ms vs
    | _ => None
    end.

  (* json.Unmarshal(data, &ms.F), errors returned. *)
  Fixpoint dec_embed (same : decoder) (fs : list field) (is : list nat) (vs : list val) : option (list val) :=
    match is with
    | [] => Some vs
    | i :: is =>
        match nth_error fs i, nth_error vs i with
        | Some f, Some v =>
            match same (f_ty f) v with
            | Some v' => dec_embed same fs is (set_nth i v' vs)
            | None => None
            end
        | _, _ => None
        end
    end.

  (* The oneOf members: the values, and how many were valid. *)
  Fixpoint dec_alts (same : decoder) (fs : list field) (is : list nat) (vs : list val) (valid : nat) : list val * nat :=
    match is with
    | [] => (vs, valid)
    | i :: is =>
        match nth_error fs i, nth_error vs i with
        | Some f, Some v =>
            match same (f_ty f) v with
            | Some v' => dec_alts same fs is (set_nth i v' vs) (S valid)
            | None => dec_alts same fs is (set_nth i VNil vs) valid
            end
        | _, _ => (vs, valid)
        end
    end.

  (* var val T; json.Unmarshal(rawValue, &val); ms.F[key] = val *)
  Definition store (fs : list field) (i : nat) (k : string) (d : decoder) (vs : list val) : option (list val) :=
    match nth_error fs i, nth_error vs i with
    | Some f, Some old =>
        match f_ty f with
        | TMap t =>
            match d t (zero LVL t) with
            | Some v => Some (set_nth i (VMap (put k v (match old with VMap m => m | _ => [] end))) vs)
            | None => None
            end
        | _ => None
        end
    | _, _ => None
    end.

  (* One key of rawMap against the patterns, one after the other. *)
  Fixpoint store_pats (fs : list field) (ps : list (pat * nat)) (k : string) (d : decoder) (vs : list val)
    : option (list val) :=
    match ps with
    | [] => Some vs
    | (p, i) :: ps =>
        if matches p k then
          match store fs i k d vs with
          | Some vs' => store_pats fs ps k d vs'
          | None => None
          end
        else store_pats fs ps k d vs
    end.

  (* for key, rawValue := range rawMap { ... } *)
  Fixpoint dec_pats (fs : list field) (ps : list (pat * nat)) (ms : members) (vs : list val) : option (list val) :=
    match ms with
    | [] => Some vs
    | (k, (_, d)) :: ms =>
        match store_pats fs ps k d vs with
        | Some vs' => dec_pats fs ps ms vs'
        | None => None
        end
    end.

  (* The loop that puts every remaining key into AdditionalProperties. *)
  Fixpoint dec_addl (fs : list field) (i : nat) (ms : members) (vs : list val) : option (list val) :=
    match ms with
    | [] => Some vs
    | (k, (_, d)) :: ms =>
        match store fs i k d vs with
        | Some vs' => dec_addl fs i ms vs'
        | None => None
        end
    end.

  (* rawMap *)
  Definition raw_map (w : jview) : members :=
    match w with SObj ms => dedup ms | _ => [] end.

  Definition json_eqb_scalar (a b : json) : bool :=
    match a, b with
    | JStr s, JStr s' => String.eqb s s'
    | JBool x, JBool y => Bool.eqb x y
    | _, _ => false
    end.

  Definition raw_has (raw : members) (k : string) : bool := in_list k (map fst raw).
  Definition raw_is (raw : members) (k : string) (c : json) : bool :=
    match get k raw with Some (j, _) => json_eqb_scalar j c | None => false end.

  (* The checks of keys in rawMap. *)
  Definition raw_checks (d : dprog) (raw : members) : bool :=
    forallb (raw_has raw) (d_require d) &&
    forallb (fun ab => xorb (raw_has raw (fst ab)) (raw_has raw (snd ab))) (d_xor d) &&
    forallb (fun kc => negb (raw_has raw (fst kc)) || raw_is raw (fst kc) (snd kc)) (d_const d) &&
    forallb (fun kc => negb (raw_is raw (fst kc) (snd kc))) (d_notconst d) &&
    forallb (fun k => negb (raw_has raw k)) (d_absent d).

  Definition lower_checks (d : dprog) (vs : list val) : bool :=
    forallb (fun c => match nth_error vs (fst (fst c)) with
                      | Some (VStr s) => Bool.eqb (String.eqb (to_lower s) (snd (fst c))) (snd c)
                      | _ => false
                      end) (d_lower d).

  (* A nil *interface{} whose key is there becomes a pointer to nil. *)
  Fixpoint dec_fix (fix_ : list (nat * string)) (raw : members) (vs : list val) : list val :=
    match fix_ with
    | [] => vs
    | (i, k) :: rest =>
        dec_fix rest raw
          (match nth_error vs i with
           | Some VNil => if raw_has raw k then set_nth i (VPtr (VAny JNull)) vs else vs
           | _ => vs
           end)
    end.

  Definition matched (d : dprog) (k : string) : bool := existsb (fun p => matches (fst p) k) (d_pats d).

  (* What is left of rawMap when the constants and the known keys are deleted. *)
  Definition raw_rest (d : dprog) (raw : members) : members :=
    filter (fun m => negb (in_list (fst m) (map fst (d_const d))) && negb (in_list (fst m) (d_known d))) raw.

  (* What is left after the patterns. *)
  Definition raw_left (d : dprog) (rest : members) : members :=
    filter (fun m => negb (matched d (fst m))) rest.

  (* From rawMap on. *)
  Definition dec_raw (fs : list field) (d : dprog) (w : jview) (vs : list val) : option (list val) :=
    let raw := raw_map w in
    if raw_checks d raw && lower_checks d vs then
      let rest := raw_rest d raw in
      let left := raw_left d rest in
      match dec_pats fs (d_pats d) rest (dec_fix (d_fix d) raw vs) with
      | None => None
      | Some vs =>
          match d_addl d with
          | i :: _ => dec_addl fs i left vs
          | [] => if d_closed d && negb (match left with [] => true | _ => false end) then None else Some vs
          end
      end
    else None.

  (* An UnmarshalJSON of a struct type.  [same] decodes the same JSON value as
     another type. *)
  Definition dec_ent (same : decoder) (w : jview) (fs : list field) (d : dprog) (vs : list val) : option (list val) :=
    if forallb (fun t => match same t (zero LVL t) with None => true | Some _ => false end) (d_not d) then
      match (if d_struct d then dec_struct w fs vs else Some vs) with
      | None => None
      | Some vs =>
          match dec_embed same fs (d_embed d) vs with
          | None => None
          | Some vs =>
              let (vs, valid) := dec_alts same fs (d_oneof d) vs 0 in
              if match d_oneof d with [] => true | _ => (valid =? 1)%nat end
              then dec_raw fs d w vs
              else None
          end
      end
    else None.

  (* The elements of an array: encoding/json decode.go, array, decodes into the
     elements that the slice has, the zero value after them.  (What is left
     between length and capacity of a slice is taken as zero.) *)
  Fixpoint dec_elems (t : ty) (ds : list decoder) (olds : list val) : option (list val) :=
    match ds with
    | [] => Some []
    | d :: ds =>
        match d t (hd (zero LVL t) olds), dec_elems t ds (tl olds) with
        | Some v, Some vs => Some (v :: vs)
        | _, _ => None
        end
    end.

  (* The entries of a map. *)
  Fixpoint dec_entries (t : ty) (ms : members) (m : list (string * val)) : option (list (string * val)) :=
    match ms with
    | [] => Some m
    | (k, (_, d)) :: ms =>
        match d t (zero LVL t) with
        | Some v => dec_entries t ms (put k v m)
        | None => None
        end
    end.

  (* json.Unmarshal of one JSON value into a variable of a type. *)
  Definition dec_step (j : json) (w : jview) (same : decoder) : decoder := fun t old =>
    match t with
    | TStr => match w with SStr s => Some (VStr s) | SNull => Some old | _ => None end
    | TBool => match w with SBool b => Some (VBool b) | SNull => Some old | _ => None end
    | TFloat => match w with SNum q => Some (VNum (rnd q)) | SNull => Some old | _ => None end
    | TInt =>
        match w with
        | SNum q => if int64b q then Some (VNum q) else None
        | SNull => Some old
        | _ => None
        end
    | TAny => Some (VAny (canon j))
    | TSkip => None
    | TPtr t =>
        match w with
        | SNull => Some VNil
        | _ =>
            match same t (match old with VPtr v => v | _ => zero LVL t end) with
            | Some v => Some (VPtr v)
            | None => None
            end
        end
    | TArr t =>
        match w with
        | SNull => Some VNil
        | SArr ds => match dec_elems t ds (match old with VArr l => l | _ => [] end) with Some vs => Some (VArr vs) | None => None end
        | _ => None
        end
    | TMap t =>
        match w with
        | SNull => Some VNil
        | SObj ms =>
            match dec_entries t ms (match old with VMap m => m | _ => [] end) with
            | Some m => Some (VMap m)
            | None => None
            end
        | _ => None
        end
    | TNamed n =>
        match get n T with
        | Some (EEnum vals) =>
            match (match w with SStr s => Some s | SNull => Some "" | _ => None end) with
            | Some s => if in_list s vals then Some (VStr s) else None
            | None => None
            end
        | Some (EStruct fs _ d) =>
            match old with
            | VStruct vs =>
                match dec_ent same w fs d vs with Some vs => Some (VStruct vs) | None => None end
            | _ => None
            end
        | None => None
        end
    end.

  Fixpoint levels (step : decoder -> decoder) (n : nat) : decoder :=
    match n with
    | O => fun _ _ => None
    | S n => step (levels step n)
    end.

  Definition view (dec : json -> decoder) (j : json) : jview :=
    match j with
    | JNull => SNull
    | JBool b => SBool b
    | JNum q => SNum q
    | JStr s => SStr s
    | JArr l => SArr (map dec l)
    | JObj m => SObj (map (fun kv => (fst kv, (snd kv, dec (snd kv)))) m)
    end.

  Fixpoint dec (j : json) : decoder :=
    levels (dec_step j
      (match j with
       | JNull => SNull
       | JBool b => SBool b
       | JNum q => SNum q
       | JStr s => SStr s
       | JArr l => SArr (map dec l)
       | JObj m => SObj (map (fun kv => (fst kv, (snd kv, dec (snd kv)))) m)
       end)) LVL.

  (* var x T; json.Unmarshal(data, &x) *)
  Definition unmarshal (t : ty) (j : json) : option val := dec j t (zero LVL t).
  (* json.Marshal(x) *)
  Definition marshal (t : ty) (v : val) : option json := enc v t.
End Codec.
