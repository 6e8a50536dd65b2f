(* openapi3/yaml.go and openapi31/yaml.go (the same code). *)
From Verif Require Import Str SMap Json.

(* ------------------------------------------------------------------ *)
(* Output: key order                                                    *)

(* json.Token: a delimiter, a string, or another literal. *)
Inductive token := TOpenArr | TCloseArr | TOpenObj | TCloseObj | TString (s : string) | TOther.

(* A json.Decoder is the list of the tokens that are left; after them Token
   returns an error (the end of the input, or a syntax error). *)
Inductive skip_res := SkipOk (rest : list token) | SkipUnterminated (rest : list token) | SkipErr | SkipFuel.

(* skipValue: lines 106-128 *)
Fixpoint skip_value (fuel : nat) (d : list token) : skip_res :=
  match fuel with
  | 0 => SkipFuel
  | S n =>
      match d with
      | [] => SkipErr
      | (TOpenArr | TOpenObj) :: d => skip_loop n d
      | (TCloseArr | TCloseObj) :: d => SkipUnterminated d
      | _ :: d => SkipOk d
      end
  end
(* the loop of lines 114-122 *)
with skip_loop (fuel : nat) (d : list token) : skip_res :=
  match fuel with
  | 0 => SkipFuel
  | S n =>
      match skip_value n d with
      | SkipOk d => skip_loop n d
      | SkipUnterminated d => SkipOk d
      | SkipErr => SkipErr
      | SkipFuel => SkipFuel
      end
  end.

Inductive keys_res := KeysOk (ks : list string) | KeysErr | KeysFuel.

(* The loop of objectKeys: lines 83-101.  A key followed by an unexpected
   closing delimiter is an error. *)
Fixpoint keys_loop (fuel : nat) (d : list token) (ks : list string) : keys_res :=
  match fuel with
  | 0 => KeysFuel
  | S n =>
      match d with
      | [] => KeysErr
      | TCloseObj :: _ => KeysOk ks
      | t :: d =>
          let ks := match t with TString s => ks ++ [s] | _ => ks end in
          match skip_value n d with
          | SkipOk d => keys_loop n d ks
          | SkipUnterminated _ | SkipErr => KeysErr
          | SkipFuel => KeysFuel
          end
      end
  end.

(* objectKeys: lines 71-102 *)
Definition object_keys (d : list token) : keys_res :=
  match d with
  | TOpenObj :: d' => keys_loop (2 * List.length d) d' []
  | _ => KeysErr
  end.

(* json.Unmarshal into map[string]interface{}: the last member of a name wins;
   null leaves the map nil, other values are errors. *)
Definition decode_map (j : json) : option (smap json) :=
  match j with
  | JObj m => Some (fold_left (fun acc kv => put (fst kv) (snd kv) acc) m [])
  | JNull => Some []
  | _ => None
  end.

(* The tokens of a document. *)
Fixpoint tokens (j : json) : list token :=
  match j with
  | JNull | JBool _ | JNum _ => [TOther]
  | JStr s => [TString s]
  | JArr l => TOpenArr :: flat_map tokens l ++ [TCloseArr]
  | JObj m => TOpenObj :: flat_map (fun kv => TString (fst kv) :: tokens (snd kv)) m ++ [TCloseObj]
  end.

(* orderedMap.UnmarshalJSON: lines 50-69.  The value of a missing key is nil. *)
Definition ordered_map (j : json) : option (list (string * json)) :=
  match decode_map j with
  | None => None
  | Some m =>
      match object_keys (tokens j) with
      | KeysOk ks => Some (map (fun k => (k, match get k m with Some v => v | None => JNull end)) ks)
      | _ => None
      end
  end.

(* ------------------------------------------------------------------ *)
(* Input: map keys                                                      *)

(* A key of a map[interface{}]interface{}: a string, or something else that
   fmt.Sprint prints. *)
Inductive ykey := KString (s : string) | KOther (n : nat).

(* A decoded YAML value.  [YOther]: everything that is no container. *)
Inductive yval :=
| YOther (j : json)
| YSlice (l : list yval)
| YMapI (m : list (ykey * yval))
| YMapS (m : smap yval).

(* convertMapI2MapS: lines 144-176.  The order of [m] is the order in which Go
   iterates over the map. *)
Section Convert.
  Variable sprint : nat -> string.

  Definition key_name (k : ykey) : string := match k with KString s => s | KOther n => sprint n end.

  Fixpoint convert (v : yval) : yval :=
    match v with
    | YOther j => YOther j
    | YSlice l => YSlice (map convert l)
    | YMapI m => YMapS ((fix go (m : list (ykey * yval)) (acc : smap yval) : smap yval :=
                           match m with
                           | [] => acc
                           | (k, v) :: m => go m (put (key_name k) (convert v) acc)
                           end) m [])
    | YMapS m => YMapS (map (fun kv => (fst kv, convert (snd kv))) m)
    end.
End Convert.
