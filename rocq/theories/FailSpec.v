(* What a failed reading may change. *)
From Verif Require Import Str SMap Json CodecModel OrdModel FailModel.

(* The second value has the scalars, nils and structs of the first one; where
   that has a pointer, a list or a map, so has the second: a list as long, a map
   with no key less. *)
Inductive held : val -> val -> Prop :=
| held_nil : held VNil VNil
| held_str s : held (VStr s) (VStr s)
| held_num q : held (VNum q) (VNum q)
| held_bool b : held (VBool b) (VBool b)
| held_any j : held (VAny j) (VAny j)
| held_ptr v w : held (VPtr v) (VPtr w)
| held_arr l l' : length l = length l' -> held (VArr l) (VArr l')
| held_map m m' : (forall k, In k (map fst m) -> In k (map fst m')) -> held (VMap m) (VMap m')
| held_struct l l' : Forall2 held l l' -> held (VStruct l) (VStruct l').

(* No pointer, list or map is in it. *)
Inductive alone : val -> Prop :=
| al_nil : alone VNil
| al_str s : alone (VStr s)
| al_num q : alone (VNum q)
| al_bool b : alone (VBool b)
| al_any j : alone (VAny j)
| al_struct l : (forall v, In v l -> alone v) -> alone (VStruct l).

(* The order of the loops, as OrdModel.v has it. *)
Definition order_of (p : picks) : order := fun n i j l => arrange (p n i j (length l)) l.

(* The types whose UnmarshalJSON (if they have one) works on the receiver
   itself: choices, sets of entries, and types without fields or methods. *)
Definition in_place30 : list string :=
  ["SchemaOrRef"; "SchemaAdditionalProperties"; "ExampleOrRef"; "SchemaXORContent"; "HeaderParameter"; "CookieParameter"; "ParameterLocation";
   "ParameterOrRef"; "RequestBodyOrRef"; "HeaderOrRef"; "LinkOrRef"; "ResponseOrRef"; "Callback"; "CallbackOrRef"; "Paths"; "ComponentsSchemas";
   "ComponentsResponses"; "ComponentsParameters"; "ComponentsExamples"; "ComponentsRequestBodies"; "ComponentsHeaders"; "Bearer"; "NonBearer";
   "SecurityScheme"; "SecuritySchemeOrRef"; "ComponentsSecuritySchemes"; "ComponentsLinks"; "ComponentsCallbacks"].
Definition in_place31 : list string :=
  ["ExampleOrReference"; "HeaderOrReference"; "EncodingAllOf0"; "ParameterOrReference"; "RequestBodyOrReference"; "LinkOrReference";
   "ResponseOrReference"; "Callbacks"; "PathItemOrReference"; "CallbacksOrReference"; "Paths"; "MutualTLS"; "SecuritySchemeOrReference";
   "Encoding"; "Examples"; "Components"].
