(* What json.Unmarshal and the UnmarshalJSON methods of openapi3/entities.go and
   openapi31/entities.go leave in the receiver, also when they fail.

   CodecModel.v and OrdModel.v say what is read; here every step also gives what
   is in the variable when it has failed.  Most methods work on a copy of the
   receiver, "ms := marshalX" of the receiver, and assign it at their end, for example
   openapi3/entities.go:1230 and 1300; the copy is shallow, so that pointers,
   slices and maps of the receiver are those of the copy, and what is read into
   them is seen in the receiver.  The methods that read no members into fields
   (d_struct = false: choices, for example openapi3/entities.go:2222-2249, and
   sets of pattern properties, 5637-5700) work on the receiver itself, and so
   does encoding/json with the types that have no such method.

   Not modelled: slack between length and capacity of slices; values inside the
   receiver that share memory with each other.  A slice that two members of the
   document name is taken as replaced by the first of them. *)
From Verif Require Import Str SMap Json CodecModel.

(* Error of a step of encoding/json: none; a value of the wrong type, reading
   goes on (decode.go saveError); an error of an UnmarshalJSON method, reading
   stops. *)
Inductive status := Fine | Saved | Stop.
Definition worse (a b : status) : status := match a with Fine => b | Saved => match b with Fine => Saved | _ => b end | Stop => Stop end.
Definition fine (s : status) : bool := match s with Fine => true | _ => false end.

(* What the holder of a shallow copy of a variable's old value sees, in terms of
   what the variable holds now: the same memory, something that the variable has
   no more to do with, or field by field. *)
Inductive seen := Same | Was (v : val) | Fields (l : list seen).

Fixpoint look (v : val) (s : seen) {struct s} : val :=
  match s with
  | Same => v
  | Was w => w
  | Fields l =>
      match v with
      | VStruct vs =>
          VStruct ((fix go (vs : list val) (l : list seen) {struct l} : list val :=
            match l, vs with s :: l, v :: vs => look v s :: go vs l | _, _ => vs end) vs l)
      | _ => v
      end
  end.

(* A variable of which a copy has just been made. *)
Fixpoint fresh (v : val) : seen :=
  match v with
  | VStruct vs => Fields (map fresh vs)
  | VNil | VPtr _ | VArr _ | VMap _ => Same
  | _ => Was v
  end.

(* First b, then a: the holder of an older copy. *)
Fixpoint after (a b : seen) {struct a} : seen :=
  match a with
  | Same => b
  | Was w => Was w
  | Fields l =>
      match b with
      | Same => a
      | Was w => Was (look w a)
      | Fields l' =>
          Fields ((fix go (l l' : list seen) {struct l} : list seen :=
            match l, l' with s :: l, s' :: l' => after s s' :: go l l' | [], _ => l' | _, [] => l end) l l')
      end
  end.

(* The order in which a loop over rawMap takes n members: by type, loop, JSON
   value (see OrdModel.v). *)
Definition picks := string -> nat -> json -> nat -> list nat.
Definition arrange {A} (p : list nat) (l : list A) : list A :=
  flat_map (fun i => match nth_error l i with Some x => [x] | None => [] end) p.

(* Type, old value; new value, what was seen, error. *)
Definition fdecoder := ty -> val -> val * seen * status.
Inductive fview :=
| FNull | FBool (b : bool) | FNum (q : Q) | FStr (s : string)
| FArr (l : list fdecoder) | FObj (ms : list (string * (json * fdecoder))).
Definition fmembers := list (string * (json * fdecoder)).

(* A field of the struct that is read into, and what is seen of it. *)
Definition cell := (val * seen)%type.
Definition read_cell (c : cell) (r : val * seen * status) : cell := (fst (fst r), after (snd c) (snd (fst r))).
(* F = v *)
Definition assign (c : cell) (v : val) : cell := (v, after (snd c) (Was (fst c))).

Section Fail.
  Variable T : list (string * ent).
  Variable rnd : Q -> Q.
  Variable p : picks.
  (* The types that have no UnmarshalJSON: encoding/json reads into their
     fields. *)
  Variable M : list string.

  (* encoding/json decode.go, object, struct case; see dec_fields *)
  Fixpoint fd_fields (fs : list field) (ms : fmembers) (cs : list cell) : list cell * status :=
    match ms with
    | [] => (cs, Fine)
    | (k, (_, d)) :: ms =>
        match find_field fs k with
        | None => fd_fields fs ms cs
        | Some i =>
            match nth_error fs i, nth_error cs i with
            | Some f, Some c =>
                let r := d (f_ty f) (fst c) in
                let cs := set_nth i (read_cell c r) cs in
                match snd r with
                | Stop => (cs, Stop)
                | st => let (cs, st') := fd_fields fs ms cs in (cs, worse st st')
                end
            | _, _ => (cs, Stop)
            end
        end
    end.
  Definition fd_struct (w : fview) (fs : list field) (cs : list cell) : list cell * status :=
    match w with
    | FNull => (cs, Fine)
    | FObj ms => fd_fields fs ms cs
    | _ => (cs, Saved)
    end.

  (* json.Unmarshal(data, &ms.F), errors returned; see dec_embed *)
  Fixpoint fd_embed (same : fdecoder) (fs : list field) (is : list nat) (cs : list cell) : list cell * bool :=
    match is with
    | [] => (cs, true)
    | i :: is =>
        match nth_error fs i, nth_error cs i with
        | Some f, Some c =>
            let r := same (f_ty f) (fst c) in
            let cs := set_nth i (read_cell c r) cs in
            if fine (snd r) then fd_embed same fs is cs else (cs, false)
        | _, _ => (cs, false)
        end
    end.

  (* The alternatives of a choice: those that do not fit become nil; see dec_alts *)
  Fixpoint fd_alts (same : fdecoder) (fs : list field) (is : list nat) (cs : list cell) (valid : nat) : list cell * nat :=
    match is with
    | [] => (cs, valid)
    | i :: is =>
        match nth_error fs i, nth_error cs i with
        | Some f, Some c =>
            let r := same (f_ty f) (fst c) in
            if fine (snd r) then fd_alts same fs is (set_nth i (read_cell c r) cs) (S valid)
            else fd_alts same fs is (set_nth i (assign (read_cell c r) VNil) cs) valid
        | _, _ => (cs, valid)
        end
    end.

  (* if ms.F == nil { ms.F = make(...) }; var val T; json.Unmarshal(rawValue, &val);
     ms.F[key] = val; see store *)
  Definition fd_store (fs : list field) (i : nat) (k : string) (d : fdecoder) (cs : list cell) : list cell * bool :=
    match nth_error fs i, nth_error cs i with
    | Some f, Some c =>
        match f_ty f with
        | TMap t =>
            let c := match fst c with VMap _ => c | _ => assign c (VMap []) end in
            let r := d t (zero T LVL t) in
            if fine (snd r)
            then (set_nth i (VMap (put k (fst (fst r)) (match fst c with VMap m => m | _ => [] end)), snd c) cs, true)
            else (set_nth i c cs, false)
        | _ => (cs, false)
        end
    | _, _ => (cs, false)
    end.
  Fixpoint fd_store_pats (fs : list field) (ps : list (pat * nat)) (k : string) (d : fdecoder) (cs : list cell) : list cell * bool :=
    match ps with
    | [] => (cs, true)
    | (x, i) :: ps =>
        if matches x k then
          let (cs, ok) := fd_store fs i k d cs in
          if ok then fd_store_pats fs ps k d cs else (cs, false)
        else fd_store_pats fs ps k d cs
    end.
  Fixpoint fd_pats (fs : list field) (ps : list (pat * nat)) (ms : fmembers) (cs : list cell) : list cell * bool :=
    match ms with
    | [] => (cs, true)
    | (k, (_, d)) :: ms =>
        let (cs, ok) := fd_store_pats fs ps k d cs in
        if ok then fd_pats fs ps ms cs else (cs, false)
    end.
  Fixpoint fd_addl (fs : list field) (i : nat) (ms : fmembers) (cs : list cell) : list cell * bool :=
    match ms with
    | [] => (cs, true)
    | (k, (_, d)) :: ms =>
        let (cs, ok) := fd_store fs i k d cs in
        if ok then fd_addl fs i ms cs else (cs, false)
    end.

  (* rawMap, and the same without the readers, for the checks of keys and
     constants *)
  Definition fraw_map (w : fview) : fmembers := match w with FObj ms => dedup ms | _ => [] end.
  Definition bare (ms : fmembers) : members := map (fun m => (fst m, (fst (snd m), fun _ _ => None))) ms.
  Definition fraw_rest (d : dprog) (raw : fmembers) : fmembers :=
    filter (fun m => negb (in_list (fst m) (map fst (d_const d))) && negb (in_list (fst m) (d_known d))) raw.
  Definition fraw_left (d : dprog) (rest : fmembers) : fmembers := filter (fun m => negb (matched d (fst m))) rest.

  Fixpoint fd_fix (fix_ : list (nat * string)) (raw : fmembers) (cs : list cell) : list cell :=
    match fix_ with
    | [] => cs
    | (i, k) :: rest =>
        fd_fix rest raw
          (match nth_error cs i with
           | Some (VNil, s) => if raw_has (bare raw) k then set_nth i (assign (VNil, s) (VPtr (VAny JNull))) cs else cs
           | _ => cs
           end)
    end.

  (* From rawMap on; see dec_raw_o *)
  Definition fd_raw (n : string) (j : json) (fs : list field) (d : dprog) (w : fview) (cs : list cell) : list cell * bool :=
    let raw := fraw_map w in
    if raw_checks d (bare raw) && lower_checks d (map fst cs) then
      let rest := fraw_rest d raw in
      let left := fraw_left d rest in
      let (cs, ok) := fd_pats fs (d_pats d) (arrange (p n 0 j (length rest)) rest) (fd_fix (d_fix d) raw cs) in
      if ok then
        match d_addl d with
        | i :: _ => fd_addl fs i (arrange (p n 1 j (length left)) left) cs
        | [] => (cs, negb (d_closed d && negb (match left with [] => true | _ => false end)))
        end
      else (cs, false)
    else (cs, false).

  (* The fields of the copy (or of the receiver, if d_struct is false); see
     dec_ent_o *)
  Definition fd_ent (n : string) (j : json) (same : fdecoder) (w : fview) (fs : list field) (d : dprog) (cs : list cell) : list cell * bool :=
    if forallb (fun t => negb (fine (snd (same t (zero T LVL t))))) (d_not d) then
      let (cs, st) := if d_struct d then fd_struct w fs cs else (cs, Fine) in
      if fine st then
        let (cs, ok) := fd_embed same fs (d_embed d) cs in
        if ok then
          let (cs, valid) := fd_alts same fs (d_oneof d) cs 0 in
          if match d_oneof d with [] => true | _ => (valid =? 1)%nat end then fd_raw n j fs d w cs else (cs, false)
        else (cs, false)
      else (cs, false)
    else (cs, false).

  (* The elements of an array: those that are read, and those that the holder of
     the old slice sees, which is as long as before. *)
  Fixpoint fd_elems (t : ty) (ds : list fdecoder) (olds : list val) : list val * list val * status :=
    match ds with
    | [] => ([], olds, Fine)
    | d :: ds =>
        let r := d t (hd (zero T LVL t) olds) in
        let shown := match olds with [] => [] | _ => [fst (fst r)] end in
        match snd r with
        | Stop => (fst (fst r) :: tl olds, shown ++ tl olds, Stop)
        | st => let '(vs, os, st') := fd_elems t ds (tl olds) in (fst (fst r) :: vs, shown ++ os, worse st st')
        end
    end.

  (* The entries of a map: one that is no value of the type is stored as far as
     it was read. *)
  Fixpoint fd_entries (t : ty) (ms : fmembers) (m : list (string * val)) : list (string * val) * status :=
    match ms with
    | [] => (m, Fine)
    | (k, (_, d)) :: ms =>
        let r := d t (zero T LVL t) in
        match snd r with
        | Stop => (m, Stop)
        | st => let (m, st') := fd_entries t ms (put k (fst (fst r)) m) in (m, worse st st')
        end
    end.

  Definition keeps (old : val) (st : status) : val * seen * status := (old, fresh old, st).

  (* json.Unmarshal of one JSON value into a variable; see dec_step_o *)
  Definition fd_step (j : json) (w : fview) (same : fdecoder) : fdecoder := fun t old =>
    match t with
    | TStr => match w with FStr s => (VStr s, Was old, Fine) | FNull => keeps old Fine | _ => keeps old Saved end
    | TBool => match w with FBool b => (VBool b, Was old, Fine) | FNull => keeps old Fine | _ => keeps old Saved end
    | TFloat => match w with FNum q => (VNum (rnd q), Was old, Fine) | FNull => keeps old Fine | _ => keeps old Saved end
    | TInt =>
        match w with
        | FNum q => if int64b q then (VNum q, Was old, Fine) else keeps old Saved
        | FNull => keeps old Fine
        | _ => keeps old Saved
        end
    | TAny => (VAny (canon rnd j), Was old, Fine)
    | TSkip => keeps old Saved
    | TPtr t =>
        match w with
        | FNull => (VNil, Was old, Fine)
        | _ =>
            match old with
            | VPtr v => let r := same t v in (VPtr (fst (fst r)), Same, snd r)
            | _ => let r := same t (zero T LVL t) in (VPtr (fst (fst r)), Was old, snd r)
            end
        end
    | TArr t =>
        match w with
        | FNull => (VNil, Was old, Fine)
        | FArr [] => (VArr [], Was old, Fine)
        | FArr ds =>
            match old with
            | VArr l => let '(vs, os, st) := fd_elems t ds l in (VArr vs, Was (VArr os), st)
            | _ => let '(vs, _, st) := fd_elems t ds [] in (VArr vs, Was old, st)
            end
        | _ => keeps old Saved
        end
    | TMap t =>
        match w with
        | FNull => (VNil, Was old, Fine)
        | FObj ms =>
            match old with
            | VMap m => let (m, st) := fd_entries t ms m in (VMap m, Same, st)
            | _ => let (m, st) := fd_entries t ms [] in (VMap m, Was old, st)
            end
        | _ => keeps old Saved
        end
    | TNamed n =>
        match get n T with
        | Some (EEnum vals) =>
            match (match w with FStr s => Some s | FNull => Some "" | _ => None end) with
            | Some s => if in_list s vals then (VStr s, Was old, Fine) else keeps old Stop
            | None => keeps old Stop
            end
        | Some (EStruct fs _ d) =>
            match old with
            | VStruct vs =>
                if in_list n M then
                  let (cs, st) := fd_struct w fs (map (fun v => (v, fresh v)) vs) in
                  (VStruct (map fst cs), Fields (map snd cs), st)
                else
                let (cs, ok) := fd_ent n j same w fs d (map (fun v => (v, fresh v)) vs) in
                if ok then (VStruct (map fst cs), Fields (map snd cs), Fine)
                else if d_struct d then
                  let x := VStruct (map (fun c => look (fst c) (snd c)) cs) in (x, Was x, Stop)
                else (VStruct (map fst cs), Fields (map snd cs), Stop)
            | _ => keeps old Stop
            end
        | None => keeps old Stop
        end
    end.

  Fixpoint flevels (step : fdecoder -> fdecoder) (n : nat) : fdecoder :=
    match n with
    | O => fun _ old => keeps old Stop
    | S n => step (flevels step n)
    end.

  Fixpoint fdec (j : json) : fdecoder :=
    flevels (fd_step j
      (match j with
       | JNull => FNull
       | JBool b => FBool b
       | JNum q => FNum q
       | JStr s => FStr s
       | JArr l => FArr (map fdec l)
       | JObj m => FObj (map (fun kv => (fst kv, (snd kv, fdec (snd kv)))) m)
       end)) LVL.

  (* What a variable that held [old] holds after json.Unmarshal(data, &x), and
     whether it returned no error. *)
  Definition reading (t : ty) (j : json) (old : val) : val * bool :=
    let r := fdec j t old in (fst (fst r), fine (snd r)).
End Fail.

(* Components, Encoding and Examples of openapi31/entities.go; every struct of
   openapi3/entities.go has the method. *)
Definition bare30 : list string := [].
Definition bare31 : list string := ["Encoding"; "Examples"; "Components"].
