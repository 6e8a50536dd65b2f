(* Spec.MarshalYAML and Spec.UnmarshalYAML: openapi3/yaml.go:12-45,
   openapi31/yaml.go:12-45 (the same code).  yaml.Marshal and yaml.Unmarshal are
   not modelled: writing ends with the ordered map given to yaml.Marshal, reading
   begins with the value that yaml.Unmarshal has made.  YamlDocSpec.v says what
   is assumed to happen between them. *)
From Verif Require Import Str SMap Json CodecModel YamlModel.

(* encoding/json encode.go: the keys of a map are sorted. *)
Fixpoint insert_key {A} (x : string * A) (l : list (string * A)) : list (string * A) :=
  match l with
  | [] => [x]
  | y :: l' => if String.leb (fst x) (fst y) then x :: l else y :: insert_key x l'
  end.
Definition sort_keys {A} (l : list (string * A)) : list (string * A) := fold_right insert_key [] l.

(* json.Marshal of a value as yaml.Unmarshal makes them; maps with keys that are
   no strings are an error. *)
Fixpoint json_of (y : yval) : option json :=
  match y with
  | YOther j => Some j
  | YSlice l => match seq_opt (map json_of l) with Some js => Some (JArr js) | None => None end
  | YMapI _ => None
  | YMapS m =>
      match seq_opt (map (fun kv => match json_of (snd kv) with Some j => Some (fst kv, j) | None => None end) m) with
      | Some ms => Some (JObj (sort_keys ms))
      | None => None
      end
  end.

Section Doc.
  Variable T : list (string * ent).
  Variable rnd : Q -> Q.

  (* MarshalYAML: lines 31-45.  Numbers become float64 when the JSON text is
     read into interface{} values. *)
  Definition marshal_yaml (v : val) : option (list (string * json)) :=
    match marshal T (TNamed "Spec") v with
    | None => None
    | Some j =>
        match ordered_map j with
        | None => None
        | Some l => Some (map (fun kv => (fst kv, canon rnd (snd kv))) l)
        end
    end.

  (* UnmarshalYAML: lines 13-29, into an empty Spec. *)
  Definition unmarshal_yaml (sprint : nat -> string) (y : yval) : option val :=
    match json_of (convert sprint y) with
    | None => None
    | Some j => unmarshal T rnd (TNamed "Spec") j
    end.
End Doc.
