(* UnmarshalJSON with Go's map iteration order: the loops
   "for key, rawValue := range rawMap" of openapi3/entities.go and
   openapi31/entities.go (for example openapi3/entities.go:160-183) run over the
   members in an order that the runtime chooses.  CodecModel.v takes the order of
   the document; here it is a parameter. *)
From Verif Require Import Str SMap Json CodecModel.

(* The order chosen: by type, loop (0: pattern properties, 1: additional
   properties) and JSON value. *)
Definition order := string -> nat -> json -> members -> members.

Section Order.
  Variable T : list (string * ent).
  Variable rnd : Q -> Q.
  Variable o : order.

  (* From rawMap on. *)
  Definition dec_raw_o (n : string) (j : json) (fs : list field) (d : dprog) (w : jview) (vs : list val) : option (list val) :=
    let raw := raw_map w in
    if raw_checks d raw && lower_checks d vs then
      let rest := raw_rest d raw in
      let left := raw_left d rest in
      match dec_pats T fs (d_pats d) (o n 0 j rest) (dec_fix (d_fix d) raw vs) with
      | None => None
      | Some vs =>
          match d_addl d with
          | i :: _ => dec_addl T fs i (o n 1 j left) vs
          | [] => if d_closed d && negb (match left with [] => true | _ => false end) then None else Some vs
          end
      end
    else None.

  Definition dec_ent_o (n : string) (j : json) (same : decoder) (w : jview) (fs : list field) (d : dprog) (vs : list val) : option (list val) :=
    if forallb (fun t => match same t (zero T LVL t) with None => true | Some _ => false end) (d_not d) then
      match (if d_struct d then dec_struct w fs vs else Some vs) with
      | None => None
      | Some vs =>
          match dec_embed same fs (d_embed d) vs with
          | None => None
          | Some vs =>
              let (vs, valid) := dec_alts same fs (d_oneof d) vs 0 in
              if match d_oneof d with [] => true | _ => (valid =? 1)%nat end
              then dec_raw_o n j fs d w vs
              else None
          end
      end
    else None.

  (* As dec_step of CodecModel.v, but for the struct case. *)
  Definition dec_step_o (j : json) (w : jview) (same : decoder) : decoder := fun t old =>
    match t with
    | TStr => match w with SStr s => Some (VStr s) | SNull => Some old | _ => None end
    | TBool => match w with SBool b => Some (VBool b) | SNull => Some old | _ => None end
    | TFloat => match w with SNum q => Some (VNum (rnd q)) | SNull => Some old | _ => None end
    | TInt =>
        match w with
        | SNum q => if int64b q then Some (VNum q) else None
        | SNull => Some old
        | _ => None
        end
    | TAny => Some (VAny (canon rnd j))
    | TSkip => None
    | TPtr t =>
        match w with
        | SNull => Some VNil
        | _ =>
            match same t (match old with VPtr v => v | _ => zero T LVL t end) with
            | Some v => Some (VPtr v)
            | None => None
            end
        end
    | TArr t =>
        match w with
        | SNull => Some VNil
        | SArr ds => match dec_elems T t ds (match old with VArr l => l | _ => [] end) with Some vs => Some (VArr vs) | None => None end
        | _ => None
        end
    | TMap t =>
        match w with
        | SNull => Some VNil
        | SObj ms =>
            match dec_entries T t ms (match old with VMap m => m | _ => [] end) with
            | Some m => Some (VMap m)
            | None => None
            end
        | _ => None
        end
    | TNamed n =>
        match get n T with
        | Some (EEnum vals) =>
            match (match w with SStr s => Some s | SNull => Some "" | _ => None end) with
            | Some s => if in_list s vals then Some (VStr s) else None
            | None => None
            end
        | Some (EStruct fs _ d) =>
            match old with
            | VStruct vs =>
                match dec_ent_o n j same w fs d vs with Some vs => Some (VStruct vs) | None => None end
            | _ => None
            end
        | None => None
        end
    end.

  Fixpoint dec_o (j : json) : decoder :=
    levels (dec_step_o j
      (match j with
       | JNull => SNull
       | JBool b => SBool b
       | JNum q => SNum q
       | JStr s => SStr s
       | JArr l => SArr (map dec_o l)
       | JObj m => SObj (map (fun kv => (fst kv, (snd kv, dec_o (snd kv)))) m)
       end)) LVL.

  Definition unmarshal_o (t : ty) (j : json) : option val := dec_o j t (zero T LVL t).
End Order.
