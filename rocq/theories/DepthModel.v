(* json.Marshal of entities with the check of what MarshalJSON methods return:
   encode.go marshalerEncoder calls compact, which runs the scanner (ScanModel.v) over
   the text.  Otherwise as TextModel.v. *)
From Verif Require Import Str SMap Json CodecModel UnionModel YamlDocModel TextModel ScanModel.

(* compact (indent.go): the text without white space (there is none), or the error
   of the scanner. *)
Definition compact (r : ures) : ures :=
  match r with UOk s => if check_valid s then UOk s else UErr | x => x end.

(* Types whose only part is their struct have no MarshalJSON in
   openapi3/entities.go and openapi31/entities.go (for example openapi3/entities.go:3272-3274,
   HasSchema); encoding/json writes their fields. *)
Definition has_method (parts : list part) : bool :=
  match parts with [PStruct] => false | _ => true end.

Section Depth.
  Variable T : list (string * ent).
  Variable num_text : Q -> string.
  Variable str_text : string -> string.

  (* json.Marshal of a value of a type.  (The strings that MarshalJSON of an
     enumeration returns are not deep.) *)
  Fixpoint enc_deep (v : val) : tencoder := fun t =>
    match v with
    | VPtr v => match t with TPtr t => enc_deep v t | _ => UErr end
    | VArr l => match t with TArr t => bracket "[" "]" (seq_text (map (fun v => enc_deep v t) l)) | _ => UErr end
    | VMap m =>
        match t with
        | TMap t => bracket "{" "}" (seq_text (map (fun kr => member_text str_text (fst kr) (snd kr)) (sort_keys (map (fun kv => (fst kv, enc_deep (snd kv) t)) m))))
        | _ => UErr
        end
    | VStruct l =>
        match t with
        | TNamed n =>
            match get n T with
            | Some (EStruct fs parts _) =>
                let r := marshal_union (map (fun p => part_text (text_part num_text str_text fs (map (fun v => (v, enc_deep v)) l) p)) parts) in
                if has_method parts then compact r else r
            | _ => UErr
            end
        | _ => UErr
        end
    | _ => enc_text T num_text str_text v t
    end.
  Definition marshal_json (t : ty) (v : val) : ures := enc_deep v t.

  (* x.MarshalJSON() called by the user: for example openapi3/entities.go:201-204 *)
  Definition marshal_method (n : string) (v : val) : ures :=
    match v, get n T with
    | VStruct l, Some (EStruct fs parts _) =>
        marshal_union (map (fun p => part_text (text_part num_text str_text fs (map (fun v => (v, enc_deep v)) l) p)) parts)
    | _, _ => UErr
    end.
End Depth.
