(* MarshalJSON at the level of bytes: the generated methods of
   openapi3/entities.go and openapi31/entities.go (for example
   openapi3/entities.go:201-204) call marshalUnion (UnionModel.v) with texts that
   encoding/json has made of the fields.  The descriptors are those of
   CodecModel.v. *)
From Verif Require Import Str SMap Json CodecModel UnionModel YamlDocModel.

(* The results of several calls: all texts, or the first failure. *)
Inductive texts := Texts (l : list string) | TErr | TPanic.
Fixpoint seq_text (l : list ures) : texts :=
  match l with
  | [] => Texts []
  | UErr :: _ => TErr
  | UPanic :: _ => TPanic
  | UOk s :: l => match seq_text l with Texts r => Texts (s :: r) | x => x end
  end.

(* encoding/json encode.go: arrayEncoder, mapEncoder and structEncoder write
   elements and members with commas between them. *)
Definition bracket (o c : string) (r : texts) : ures :=
  match r with
  | Texts l => UOk (o ^^ String.concat "," l ^^ c)
  | TErr => UErr
  | TPanic => UPanic
  end.

(* What marshalUnion gets from json.Marshal for an argument.  A panic in
   MarshalJSON of the argument is written as the empty text: marshalUnion panics
   there. *)
Definition part_text (r : ures) : enc :=
  match r with UOk s => EncOk s | UErr => EncErr | UPanic => EncOk "" end.

Section Text.
  Variable T : list (string * ent).
  (* The texts of numbers and strings: encode.go floatEncoder, intEncoder,
     encodeState.string. *)
  Variable num_text : Q -> string.
  Variable str_text : string -> string.

  (* key, colon, value *)
  Definition member_text (k : string) (r : ures) : ures :=
    match r with UOk s => UOk (str_text k ^^ ":" ^^ s) | x => x end.

  (* json.Marshal of a value held by an interface{}: map keys are sorted. *)
  Fixpoint any_text (j : json) : ures :=
    match j with
    | JNull => UOk "null"
    | JBool b => UOk (if b then "true" else "false")
    | JNum q => UOk (num_text q)
    | JStr s => UOk (str_text s)
    | JArr l => bracket "[" "]" (seq_text (map any_text l))
    | JObj m => bracket "{" "}" (seq_text (map (fun kr => member_text (fst kr) (snd kr)) (sort_keys (map (fun kv => (fst kv, any_text (snd kv))) m))))
    end.

  Definition tencoder := ty -> ures.

  (* structEncoder: fields with a key, empty ones with omitempty left out. *)
  Fixpoint text_fields (fs : list field) (vs : list (val * tencoder)) : list ures :=
    match fs, vs with
    | [], [] => []
    | f :: fs, (v, e) :: vs =>
        match f_key f with
        | None => text_fields fs vs
        | Some k => if f_omit f && is_empty v then text_fields fs vs else member_text k (e (f_ty f)) :: text_fields fs vs
        end
    | _, _ => [UErr]
    end.

  (* The constants are texts (json.RawMessage). *)
  Definition text_part (fs : list field) (vs : list (val * tencoder)) (p : part) : ures :=
    match p with
    | PConst m => bracket "{" "}" (seq_text (map (fun kv => member_text (fst kv) (any_text (snd kv))) m))
    | PStruct => bracket "{" "}" (seq_text (text_fields fs vs))
    | PField i =>
        match nth_error fs i, nth_error vs i with
        | Some f, Some (_, e) => e (f_ty f)
        | _, _ => UErr
        end
    end.

  (* json.Marshal of a value of a type.  (A method's output is copied; values
     that are not of the type do not exist in Go.) *)
  Fixpoint enc_text (v : val) : tencoder := fun t =>
    match v with
    | VNil => match t with TPtr _ | TArr _ | TMap _ => UOk "null" | _ => UErr end
    | VStr s =>
        match t with
        | TStr => UOk (str_text s)
        | TNamed n =>
            match get n T with
            | Some (EEnum vals) => if in_list s vals then UOk (str_text s) else UErr
            | _ => UErr
            end
        | _ => UErr
        end
    | VNum q => match t with TInt | TFloat => UOk (num_text q) | _ => UErr end
    | VBool b => match t with TBool => UOk (if b then "true" else "false") | _ => UErr end
    | VAny j => match t with TAny => any_text j | _ => UErr end
    | VPtr v => match t with TPtr t => enc_text v t | _ => UErr end
    | VArr l => match t with TArr t => bracket "[" "]" (seq_text (map (fun v => enc_text v t) l)) | _ => UErr end
    | VMap m =>
        match t with
        | TMap t => bracket "{" "}" (seq_text (map (fun kr => member_text (fst kr) (snd kr)) (sort_keys (map (fun kv => (fst kv, enc_text (snd kv) t)) m))))
        | _ => UErr
        end
    | VStruct l =>
        match t with
        | TNamed n =>
            match get n T with
            | Some (EStruct fs parts _) => marshal_union (map (fun p => part_text (text_part fs (map (fun v => (v, enc_text v)) l) p)) parts)
            | _ => UErr
            end
        | _ => UErr
        end
    end.

  Definition marshal_text (t : ty) (v : val) : ures := enc_text v t.
End Text.
