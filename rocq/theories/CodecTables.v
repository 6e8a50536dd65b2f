(* The generated entity types of both packages: their fields with JSON keys, what
   UnmarshalJSON checks and where it puts things, what MarshalJSON joins.
   Written by tools/gen_codec.py from the text of openapi3/entities.go and
   openapi31/entities.go; the comments cite the lines. *)
From Verif Require Import Str Json CodecModel.

(* openapi3/entities.go: type 17-29, UnmarshalJSON 134-199, MarshalJSON 202-204 *)
Definition e30_Spec : ent := EStruct
  [mkField "Openapi" TStr (Some "openapi") false;
   mkField "Info" (TNamed "Info") (Some "info") false;
   mkField "ExternalDocs" (TPtr (TNamed "ExternalDocumentation")) (Some "externalDocs") true;
   mkField "Servers" (TArr (TNamed "Server")) (Some "servers") true;
   mkField "Security" (TArr (TMap (TArr TStr))) (Some "security") true;
   mkField "Tags" (TArr (TNamed "Tag")) (Some "tags") true;
   mkField "Paths" (TNamed "Paths") (Some "paths") false;
   mkField "Components" (TPtr (TNamed "Components")) (Some "components") true;
   mkField "MapOfAnything" (TMap TAny) None false]
  [PStruct; PField 8]
  {| d_not := []; d_struct := true; d_embed := []; d_oneof := [];
     d_require := ["openapi"; "info"; "paths"];
     d_xor := []; d_const := []; d_notconst := []; d_absent := [];
     d_lower := []; d_fix := [];
     d_known := ["openapi"; "info"; "externalDocs"; "servers"; "security"; "tags"; "paths"; "components"];
     d_pats := [(PatX, 8)]; d_addl := []; d_closed := true |}.

(* openapi3/entities.go: type 207-215, UnmarshalJSON 305-370, MarshalJSON 373-375 *)
Definition e30_Info : ent := EStruct
  [mkField "Title" TStr (Some "title") false;
   mkField "Description" (TPtr TStr) (Some "description") true;
   mkField "TermsOfService" (TPtr TStr) (Some "termsOfService") true;
   mkField "Contact" (TPtr (TNamed "Contact")) (Some "contact") true;
   mkField "License" (TPtr (TNamed "License")) (Some "license") true;
   mkField "Version" TStr (Some "version") false;
   mkField "MapOfAnything" (TMap TAny) None false]
  [PStruct; PField 6]
  {| d_not := []; d_struct := true; d_embed := []; d_oneof := [];
     d_require := ["title"; "version"];
     d_xor := []; d_const := []; d_notconst := []; d_absent := [];
     d_lower := []; d_fix := [];
     d_known := ["title"; "description"; "termsOfService"; "contact"; "license"; "version"];
     d_pats := [(PatX, 6)]; d_addl := []; d_closed := true |}.

(* openapi3/entities.go: type 378-383, UnmarshalJSON 429-488, MarshalJSON 491-493 *)
Definition e30_Contact : ent := EStruct
  [mkField "Name" (TPtr TStr) (Some "name") true;
   mkField "URL" (TPtr TStr) (Some "url") true;
   mkField "Email" (TPtr TStr) (Some "email") true;
   mkField "MapOfAnything" (TMap TAny) None false]
  [PStruct; PField 3]
  {| d_not := []; d_struct := true; d_embed := []; d_oneof := [];
     d_require := [];
     d_xor := []; d_const := []; d_notconst := []; d_absent := [];
     d_lower := []; d_fix := [];
     d_known := ["name"; "url"; "email"];
     d_pats := [(PatX, 3)]; d_addl := []; d_closed := true |}.

(* openapi3/entities.go: type 496-500, UnmarshalJSON 543-608, MarshalJSON 611-613 *)
Definition e30_License : ent := EStruct
  [mkField "Name" TStr (Some "name") false;
   mkField "URL" (TPtr TStr) (Some "url") true;
   mkField "MapOfAnything" (TMap TAny) None false]
  [PStruct; PField 2]
  {| d_not := []; d_struct := true; d_embed := []; d_oneof := [];
     d_require := ["name"];
     d_xor := []; d_const := []; d_notconst := []; d_absent := [];
     d_lower := []; d_fix := [];
     d_known := ["name"; "url"];
     d_pats := [(PatX, 2)]; d_addl := []; d_closed := true |}.

(* openapi3/entities.go: type 616-622, UnmarshalJSON 665-730, MarshalJSON 733-735 *)
Definition e30_ExternalDocumentation : ent := EStruct
  [mkField "Description" (TPtr TStr) (Some "description") true;
   mkField "URL" TStr (Some "url") false;
   mkField "MapOfAnything" (TMap TAny) None false]
  [PStruct; PField 2]
  {| d_not := []; d_struct := true; d_embed := []; d_oneof := [];
     d_require := ["url"];
     d_xor := []; d_const := []; d_notconst := []; d_absent := [];
     d_lower := []; d_fix := [];
     d_known := ["description"; "url"];
     d_pats := [(PatX, 2)]; d_addl := []; d_closed := true |}.

(* openapi3/entities.go: type 738-743, UnmarshalJSON 804-869, MarshalJSON 872-874 *)
Definition e30_Server : ent := EStruct
  [mkField "URL" TStr (Some "url") false;
   mkField "Description" (TPtr TStr) (Some "description") true;
   mkField "Variables" (TMap (TNamed "ServerVariable")) (Some "variables") true;
   mkField "MapOfAnything" (TMap TAny) None false]
  [PStruct; PField 3]
  {| d_not := []; d_struct := true; d_embed := []; d_oneof := [];
     d_require := ["url"];
     d_xor := []; d_const := []; d_notconst := []; d_absent := [];
     d_lower := []; d_fix := [];
     d_known := ["url"; "description"; "variables"];
     d_pats := [(PatX, 3)]; d_addl := []; d_closed := true |}.

(* openapi3/entities.go: type 877-882, UnmarshalJSON 932-997, MarshalJSON 1000-1002 *)
Definition e30_ServerVariable : ent := EStruct
  [mkField "Enum" (TArr TStr) (Some "enum") true;
   mkField "Default" TStr (Some "default") false;
   mkField "Description" (TPtr TStr) (Some "description") true;
   mkField "MapOfAnything" (TMap TAny) None false]
  [PStruct; PField 3]
  {| d_not := []; d_struct := true; d_embed := []; d_oneof := [];
     d_require := ["default"];
     d_xor := []; d_const := []; d_notconst := []; d_absent := [];
     d_lower := []; d_fix := [];
     d_known := ["enum"; "default"; "description"];
     d_pats := [(PatX, 3)]; d_addl := []; d_closed := true |}.

(* openapi3/entities.go: type 1005-1010, UnmarshalJSON 1069-1134, MarshalJSON 1137-1139 *)
Definition e30_Tag : ent := EStruct
  [mkField "Name" TStr (Some "name") false;
   mkField "Description" (TPtr TStr) (Some "description") true;
   mkField "ExternalDocs" (TPtr (TNamed "ExternalDocumentation")) (Some "externalDocs") true;
   mkField "MapOfAnything" (TMap TAny) None false]
  [PStruct; PField 3]
  {| d_not := []; d_struct := true; d_embed := []; d_oneof := [];
     d_require := ["name"];
     d_xor := []; d_const := []; d_notconst := []; d_absent := [];
     d_lower := []; d_fix := [];
     d_known := ["name"; "description"; "externalDocs"];
     d_pats := [(PatX, 3)]; d_addl := []; d_closed := true |}.

(* openapi3/entities.go: type 1142-1150, UnmarshalJSON 1227-1303, MarshalJSON 1306-1308 *)
Definition e30_PathItem : ent := EStruct
  [mkField "Ref" (TPtr TStr) (Some "$ref") true;
   mkField "Summary" (TPtr TStr) (Some "summary") true;
   mkField "Description" (TPtr TStr) (Some "description") true;
   mkField "Servers" (TArr (TNamed "Server")) (Some "servers") true;
   mkField "Parameters" (TArr (TNamed "ParameterOrRef")) (Some "parameters") true;
   mkField "MapOfOperationValues" (TMap (TNamed "Operation")) None false;
   mkField "MapOfAnything" (TMap TAny) None false]
  [PStruct; PField 5; PField 6]
  {| d_not := []; d_struct := true; d_embed := []; d_oneof := [];
     d_require := [];
     d_xor := []; d_const := []; d_notconst := []; d_absent := [];
     d_lower := []; d_fix := [];
     d_known := ["$ref"; "summary"; "description"; "servers"; "parameters"];
     d_pats := [(PatMethod, 5); (PatX, 6)]; d_addl := []; d_closed := true |}.

(* openapi3/entities.go: type 1311-1315, UnmarshalJSON 1334-1374 *)
Definition e30_ParameterReference : ent := EStruct
  [mkField "Ref" TStr (Some "$ref") false]
  [PStruct]
  {| d_not := []; d_struct := true; d_embed := []; d_oneof := [];
     d_require := ["$ref"];
     d_xor := []; d_const := []; d_notconst := []; d_absent := [];
     d_lower := []; d_fix := [];
     d_known := ["$ref"];
     d_pats := []; d_addl := []; d_closed := true |}.

(* openapi3/entities.go: type 1377-1394, UnmarshalJSON 1576-1658, MarshalJSON 1661-1663 *)
Definition e30_Parameter : ent := EStruct
  [mkField "Name" TStr (Some "name") false;
   mkField "In" (TNamed "ParameterIn") (Some "in") false;
   mkField "Description" (TPtr TStr) (Some "description") true;
   mkField "Required" (TPtr TBool) (Some "required") true;
   mkField "Deprecated" (TPtr TBool) (Some "deprecated") true;
   mkField "AllowEmptyValue" (TPtr TBool) (Some "allowEmptyValue") true;
   mkField "Style" (TPtr TStr) (Some "style") true;
   mkField "Explode" (TPtr TBool) (Some "explode") true;
   mkField "AllowReserved" (TPtr TBool) (Some "allowReserved") true;
   mkField "Schema" (TPtr (TNamed "SchemaOrRef")) (Some "schema") true;
   mkField "Content" (TMap (TNamed "MediaType")) (Some "content") true;
   mkField "Example" (TPtr TAny) (Some "example") true;
   mkField "Examples" (TMap (TNamed "ExampleOrRef")) (Some "examples") true;
   mkField "SchemaXORContent" (TPtr (TNamed "SchemaXORContent")) None false;
   mkField "Location" (TPtr (TNamed "ParameterLocation")) None false;
   mkField "MapOfAnything" (TMap TAny) None false]
  [PStruct; PField 15; PField 13; PField 14]
  {| d_not := []; d_struct := true; d_embed := [13; 14]; d_oneof := [];
     d_require := ["name"; "in"];
     d_xor := []; d_const := []; d_notconst := []; d_absent := [];
     d_lower := []; d_fix := [(11, "example")];
     d_known := ["name"; "in"; "description"; "required"; "deprecated"; "allowEmptyValue"; "style"; "explode"; "allowReserved"; "schema"; "content"; "example"; "examples"];
     d_pats := [(PatX, 15)]; d_addl := []; d_closed := true |}.

(* openapi3/entities.go: type 1666-1704, UnmarshalJSON 2039-2112, MarshalJSON 2115-2117 *)
Definition e30_Schema : ent := EStruct
  [mkField "Title" (TPtr TStr) (Some "title") true;
   mkField "MultipleOf" (TPtr TFloat) (Some "multipleOf") true;
   mkField "Maximum" (TPtr TFloat) (Some "maximum") true;
   mkField "ExclusiveMaximum" (TPtr TBool) (Some "exclusiveMaximum") true;
   mkField "Minimum" (TPtr TFloat) (Some "minimum") true;
   mkField "ExclusiveMinimum" (TPtr TBool) (Some "exclusiveMinimum") true;
   mkField "MaxLength" (TPtr TInt) (Some "maxLength") true;
   mkField "MinLength" (TPtr TInt) (Some "minLength") true;
   mkField "Pattern" (TPtr TStr) (Some "pattern") true;
   mkField "MaxItems" (TPtr TInt) (Some "maxItems") true;
   mkField "MinItems" (TPtr TInt) (Some "minItems") true;
   mkField "UniqueItems" (TPtr TBool) (Some "uniqueItems") true;
   mkField "MaxProperties" (TPtr TInt) (Some "maxProperties") true;
   mkField "MinProperties" (TPtr TInt) (Some "minProperties") true;
   mkField "Required" (TArr TStr) (Some "required") true;
   mkField "Enum" (TArr TAny) (Some "enum") true;
   mkField "Type" (TPtr (TNamed "SchemaType")) (Some "type") true;
   mkField "Not" (TPtr (TNamed "SchemaOrRef")) (Some "not") true;
   mkField "AllOf" (TArr (TNamed "SchemaOrRef")) (Some "allOf") true;
   mkField "OneOf" (TArr (TNamed "SchemaOrRef")) (Some "oneOf") true;
   mkField "AnyOf" (TArr (TNamed "SchemaOrRef")) (Some "anyOf") true;
   mkField "Items" (TPtr (TNamed "SchemaOrRef")) (Some "items") true;
   mkField "Properties" (TMap (TNamed "SchemaOrRef")) (Some "properties") true;
   mkField "AdditionalProperties" (TPtr (TNamed "SchemaAdditionalProperties")) (Some "additionalProperties") true;
   mkField "Description" (TPtr TStr) (Some "description") true;
   mkField "Format" (TPtr TStr) (Some "format") true;
   mkField "Default" (TPtr TAny) (Some "default") true;
   mkField "Nullable" (TPtr TBool) (Some "nullable") true;
   mkField "Discriminator" (TPtr (TNamed "Discriminator")) (Some "discriminator") true;
   mkField "ReadOnly" (TPtr TBool) (Some "readOnly") true;
   mkField "WriteOnly" (TPtr TBool) (Some "writeOnly") true;
   mkField "Example" (TPtr TAny) (Some "example") true;
   mkField "ExternalDocs" (TPtr (TNamed "ExternalDocumentation")) (Some "externalDocs") true;
   mkField "Deprecated" (TPtr TBool) (Some "deprecated") true;
   mkField "XML" (TPtr (TNamed "XML")) (Some "xml") true;
   mkField "MapOfAnything" (TMap TAny) None false;
   mkField "ReflectType" TSkip None false]
  [PStruct; PField 35]
  {| d_not := []; d_struct := true; d_embed := []; d_oneof := [];
     d_require := [];
     d_xor := []; d_const := []; d_notconst := []; d_absent := [];
     d_lower := []; d_fix := [(26, "default"); (31, "example")];
     d_known := ["title"; "multipleOf"; "maximum"; "exclusiveMaximum"; "minimum"; "exclusiveMinimum"; "maxLength"; "minLength"; "pattern"; "maxItems"; "minItems"; "uniqueItems"; "maxProperties"; "minProperties"; "required"; "enum"; "type"; "not"; "allOf"; "oneOf"; "anyOf"; "items"; "properties"; "additionalProperties"; "description"; "format"; "default"; "nullable"; "discriminator"; "readOnly"; "writeOnly"; "example"; "externalDocs"; "deprecated"; "xml"];
     d_pats := [(PatX, 35)]; d_addl := []; d_closed := true |}.

(* openapi3/entities.go: type 2120-2124, UnmarshalJSON 2143-2183 *)
Definition e30_SchemaReference : ent := EStruct
  [mkField "Ref" TStr (Some "$ref") false]
  [PStruct]
  {| d_not := []; d_struct := true; d_embed := []; d_oneof := [];
     d_require := ["$ref"];
     d_xor := []; d_const := []; d_notconst := []; d_absent := [];
     d_lower := []; d_fix := [];
     d_known := ["$ref"];
     d_pats := []; d_addl := []; d_closed := true |}.

(* openapi3/entities.go: type 2186-2189, UnmarshalJSON 2222-2249, MarshalJSON 2252-2254 *)
Definition e30_SchemaOrRef : ent := EStruct
  [mkField "Schema" (TPtr (TNamed "Schema")) None false;
   mkField "SchemaReference" (TPtr (TNamed "SchemaReference")) None false]
  [PField 0; PField 1]
  {| d_not := []; d_struct := false; d_embed := []; d_oneof := [0; 1];
     d_require := [];
     d_xor := []; d_const := []; d_notconst := []; d_absent := [];
     d_lower := []; d_fix := [];
     d_known := [];
     d_pats := []; d_addl := []; d_closed := false |}.

(* openapi3/entities.go: type 2257-2260, UnmarshalJSON 2284-2311, MarshalJSON 2314-2316 *)
Definition e30_SchemaAdditionalProperties : ent := EStruct
  [mkField "SchemaOrRef" (TPtr (TNamed "SchemaOrRef")) None false;
   mkField "Bool" (TPtr TBool) None false]
  [PField 0; PField 1]
  {| d_not := []; d_struct := false; d_embed := []; d_oneof := [0; 1];
     d_require := [];
     d_xor := []; d_const := []; d_notconst := []; d_absent := [];
     d_lower := []; d_fix := [];
     d_known := [];
     d_pats := []; d_addl := []; d_closed := false |}.

(* openapi3/entities.go: type 2319-2322, UnmarshalJSON 2354-2380 *)
Definition e30_Discriminator : ent := EStruct
  [mkField "PropertyName" TStr (Some "propertyName") false;
   mkField "Mapping" (TMap TStr) (Some "mapping") true]
  [PStruct]
  {| d_not := []; d_struct := true; d_embed := []; d_oneof := [];
     d_require := ["propertyName"];
     d_xor := []; d_const := []; d_notconst := []; d_absent := [];
     d_lower := []; d_fix := [];
     d_known := [];
     d_pats := []; d_addl := []; d_closed := false |}.

(* openapi3/entities.go: type 2383-2390, UnmarshalJSON 2450-2509, MarshalJSON 2512-2514 *)
Definition e30_XML : ent := EStruct
  [mkField "Name" (TPtr TStr) (Some "name") true;
   mkField "Namespace" (TPtr TStr) (Some "namespace") true;
   mkField "Prefix" (TPtr TStr) (Some "prefix") true;
   mkField "Attribute" (TPtr TBool) (Some "attribute") true;
   mkField "Wrapped" (TPtr TBool) (Some "wrapped") true;
   mkField "MapOfAnything" (TMap TAny) None false]
  [PStruct; PField 5]
  {| d_not := []; d_struct := true; d_embed := []; d_oneof := [];
     d_require := [];
     d_xor := []; d_const := []; d_notconst := []; d_absent := [];
     d_lower := []; d_fix := [];
     d_known := ["name"; "namespace"; "prefix"; "attribute"; "wrapped"];
     d_pats := [(PatX, 5)]; d_addl := []; d_closed := true |}.

(* openapi3/entities.go: type 2517-2523, UnmarshalJSON 2607-2673, MarshalJSON 2676-2678 *)
Definition e30_MediaType : ent := EStruct
  [mkField "Schema" (TPtr (TNamed "SchemaOrRef")) (Some "schema") true;
   mkField "Example" (TPtr TAny) (Some "example") true;
   mkField "Examples" (TMap (TNamed "ExampleOrRef")) (Some "examples") true;
   mkField "Encoding" (TMap (TNamed "Encoding")) (Some "encoding") true;
   mkField "MapOfAnything" (TMap TAny) None false]
  [PStruct; PField 4]
  {| d_not := []; d_struct := true; d_embed := []; d_oneof := [];
     d_require := [];
     d_xor := []; d_const := []; d_notconst := []; d_absent := [];
     d_lower := []; d_fix := [(1, "example")];
     d_known := ["schema"; "example"; "examples"; "encoding"];
     d_pats := [(PatX, 4)]; d_addl := []; d_closed := true |}.

(* openapi3/entities.go: type 2681-2685, UnmarshalJSON 2704-2744 *)
Definition e30_ExampleReference : ent := EStruct
  [mkField "Ref" TStr (Some "$ref") false]
  [PStruct]
  {| d_not := []; d_struct := true; d_embed := []; d_oneof := [];
     d_require := ["$ref"];
     d_xor := []; d_const := []; d_notconst := []; d_absent := [];
     d_lower := []; d_fix := [];
     d_known := ["$ref"];
     d_pats := []; d_addl := []; d_closed := true |}.

(* openapi3/entities.go: type 2747-2753, UnmarshalJSON 2806-2872, MarshalJSON 2875-2877 *)
Definition e30_Example : ent := EStruct
  [mkField "Summary" (TPtr TStr) (Some "summary") true;
   mkField "Description" (TPtr TStr) (Some "description") true;
   mkField "Value" (TPtr TAny) (Some "value") true;
   mkField "ExternalValue" (TPtr TStr) (Some "externalValue") true;
   mkField "MapOfAnything" (TMap TAny) None false]
  [PStruct; PField 4]
  {| d_not := []; d_struct := true; d_embed := []; d_oneof := [];
     d_require := [];
     d_xor := []; d_const := []; d_notconst := []; d_absent := [];
     d_lower := []; d_fix := [(2, "value")];
     d_known := ["summary"; "description"; "value"; "externalValue"];
     d_pats := [(PatX, 4)]; d_addl := []; d_closed := true |}.

(* openapi3/entities.go: type 2880-2883, UnmarshalJSON 2916-2943, MarshalJSON 2946-2948 *)
Definition e30_ExampleOrRef : ent := EStruct
  [mkField "ExampleReference" (TPtr (TNamed "ExampleReference")) None false;
   mkField "Example" (TPtr (TNamed "Example")) None false]
  [PField 0; PField 1]
  {| d_not := []; d_struct := false; d_embed := []; d_oneof := [0; 1];
     d_require := [];
     d_xor := []; d_const := []; d_notconst := []; d_absent := [];
     d_lower := []; d_fix := [];
     d_known := [];
     d_pats := []; d_addl := []; d_closed := false |}.

(* openapi3/entities.go: type 2951-2957, UnmarshalJSON 3011-3045 *)
Definition e30_Encoding : ent := EStruct
  [mkField "ContentType" (TPtr TStr) (Some "contentType") true;
   mkField "Headers" (TMap (TNamed "Header")) (Some "headers") true;
   mkField "Style" (TPtr (TNamed "EncodingStyle")) (Some "style") true;
   mkField "Explode" (TPtr TBool) (Some "explode") true;
   mkField "AllowReserved" (TPtr TBool) (Some "allowReserved") true]
  [PStruct]
  {| d_not := []; d_struct := true; d_embed := []; d_oneof := [];
     d_require := [];
     d_xor := []; d_const := []; d_notconst := []; d_absent := [];
     d_lower := []; d_fix := [];
     d_known := ["contentType"; "headers"; "style"; "explode"; "allowReserved"];
     d_pats := []; d_addl := []; d_closed := true |}.

(* openapi3/entities.go: type 3048-3060, UnmarshalJSON 3187-3259, MarshalJSON 3265-3267 *)
Definition e30_Header : ent := EStruct
  [mkField "Description" (TPtr TStr) (Some "description") true;
   mkField "Required" (TPtr TBool) (Some "required") true;
   mkField "Deprecated" (TPtr TBool) (Some "deprecated") true;
   mkField "AllowEmptyValue" (TPtr TBool) (Some "allowEmptyValue") true;
   mkField "Explode" (TPtr TBool) (Some "explode") true;
   mkField "AllowReserved" (TPtr TBool) (Some "allowReserved") true;
   mkField "Schema" (TPtr (TNamed "SchemaOrRef")) (Some "schema") true;
   mkField "Content" (TMap (TNamed "MediaType")) (Some "content") true;
   mkField "Example" (TPtr TAny) (Some "example") true;
   mkField "Examples" (TMap (TNamed "ExampleOrRef")) (Some "examples") true;
   mkField "MapOfAnything" (TMap TAny) None false]
  [PConst [("style", JStr "simple")]; PStruct; PField 10]
  {| d_not := []; d_struct := true; d_embed := []; d_oneof := [];
     d_require := [];
     d_xor := []; d_const := [("style", JStr "simple")]; d_notconst := []; d_absent := [];
     d_lower := []; d_fix := [(8, "example")];
     d_known := ["description"; "required"; "deprecated"; "allowEmptyValue"; "explode"; "allowReserved"; "schema"; "content"; "example"; "examples"; "style"];
     d_pats := [(PatX, 10)]; d_addl := []; d_closed := true |}.

(* openapi3/entities.go: type 3272-3274, UnmarshalJSON 3289-3315 *)
Definition e30_HasSchema : ent := EStruct
  [mkField "Schema" TAny (Some "schema") false]
  [PStruct]
  {| d_not := []; d_struct := true; d_embed := []; d_oneof := [];
     d_require := ["schema"];
     d_xor := []; d_const := []; d_notconst := []; d_absent := [];
     d_lower := []; d_fix := [];
     d_known := [];
     d_pats := []; d_addl := []; d_closed := false |}.

(* openapi3/entities.go: type 3322-3324, UnmarshalJSON 3339-3365 *)
Definition e30_HasContent : ent := EStruct
  [mkField "Content" TAny (Some "content") false]
  [PStruct]
  {| d_not := []; d_struct := true; d_embed := []; d_oneof := [];
     d_require := ["content"];
     d_xor := []; d_const := []; d_notconst := []; d_absent := [];
     d_lower := []; d_fix := [];
     d_known := [];
     d_pats := []; d_addl := []; d_closed := false |}.

(* openapi3/entities.go: type 3370-3373, UnmarshalJSON 3406-3439, MarshalJSON 3442-3444 *)
Definition e30_SchemaXORContent : ent := EStruct
  [mkField "HasSchema" (TPtr (TNamed "HasSchema")) None false;
   mkField "HasContent" (TPtr (TNamed "HasContent")) None false]
  [PField 0; PField 1]
  {| d_not := [TNamed "SchemaXORContentNot"]; d_struct := false; d_embed := []; d_oneof := [0; 1];
     d_require := [];
     d_xor := []; d_const := []; d_notconst := []; d_absent := [];
     d_lower := []; d_fix := [];
     d_known := [];
     d_pats := []; d_addl := []; d_closed := false |}.

(* openapi3/entities.go: type 3447-3450, UnmarshalJSON 3472-3498 *)
Definition e30_SchemaXORContentNot : ent := EStruct
  [mkField "Schema" TAny (Some "schema") false;
   mkField "Content" TAny (Some "content") false]
  [PStruct]
  {| d_not := []; d_struct := true; d_embed := []; d_oneof := [];
     d_require := ["schema"; "content"];
     d_xor := []; d_const := []; d_notconst := []; d_absent := [];
     d_lower := []; d_fix := [];
     d_known := [];
     d_pats := []; d_addl := []; d_closed := false |}.

(* openapi3/entities.go: type 3505-3507, UnmarshalJSON 3522-3560, MarshalJSON 3566-3568 *)
Definition e30_PathParameter : ent := EStruct
  [mkField "Style" (TPtr (TNamed "PathParameterStyle")) (Some "style") true]
  [PConst [("in", JStr "path"); ("required", JBool true)]; PStruct]
  {| d_not := []; d_struct := true; d_embed := []; d_oneof := [];
     d_require := ["required"];
     d_xor := []; d_const := [("in", JStr "path"); ("required", JBool true)]; d_notconst := []; d_absent := [];
     d_lower := []; d_fix := [];
     d_known := [];
     d_pats := []; d_addl := []; d_closed := false |}.

(* openapi3/entities.go: type 3575-3577, UnmarshalJSON 3588-3614, MarshalJSON 3620-3622 *)
Definition e30_QueryParameter : ent := EStruct
  [mkField "Style" (TPtr (TNamed "QueryParameterStyle")) (Some "style") true]
  [PConst [("in", JStr "query")]; PStruct]
  {| d_not := []; d_struct := true; d_embed := []; d_oneof := [];
     d_require := [];
     d_xor := []; d_const := [("in", JStr "query")]; d_notconst := []; d_absent := [];
     d_lower := []; d_fix := [];
     d_known := [];
     d_pats := []; d_addl := []; d_closed := false |}.

(* openapi3/entities.go: type 3629-3629, UnmarshalJSON 3632-3655, MarshalJSON 3661-3663 *)
Definition e30_HeaderParameter : ent := EStruct
  []
  [PConst [("in", JStr "header"); ("style", JStr "simple")]]
  {| d_not := []; d_struct := false; d_embed := []; d_oneof := [];
     d_require := [];
     d_xor := []; d_const := [("in", JStr "header"); ("style", JStr "simple")]; d_notconst := []; d_absent := [];
     d_lower := []; d_fix := [];
     d_known := [];
     d_pats := []; d_addl := []; d_closed := false |}.

(* openapi3/entities.go: type 3670-3670, UnmarshalJSON 3673-3696, MarshalJSON 3702-3704 *)
Definition e30_CookieParameter : ent := EStruct
  []
  [PConst [("in", JStr "cookie"); ("style", JStr "form")]]
  {| d_not := []; d_struct := false; d_embed := []; d_oneof := [];
     d_require := [];
     d_xor := []; d_const := [("in", JStr "cookie"); ("style", JStr "form")]; d_notconst := []; d_absent := [];
     d_lower := []; d_fix := [];
     d_known := [];
     d_pats := []; d_addl := []; d_closed := false |}.

(* openapi3/entities.go: type 3709-3714, UnmarshalJSON 3777-3820, MarshalJSON 3823-3825 *)
Definition e30_ParameterLocation : ent := EStruct
  [mkField "PathParameter" (TPtr (TNamed "PathParameter")) None false;
   mkField "QueryParameter" (TPtr (TNamed "QueryParameter")) None false;
   mkField "HeaderParameter" (TPtr (TNamed "HeaderParameter")) None false;
   mkField "CookieParameter" (TPtr (TNamed "CookieParameter")) None false]
  [PField 0; PField 1; PField 2; PField 3]
  {| d_not := []; d_struct := false; d_embed := []; d_oneof := [0; 1; 2; 3];
     d_require := [];
     d_xor := []; d_const := []; d_notconst := []; d_absent := [];
     d_lower := []; d_fix := [];
     d_known := [];
     d_pats := []; d_addl := []; d_closed := false |}.

(* openapi3/entities.go: type 3828-3831, UnmarshalJSON 3864-3891, MarshalJSON 3894-3896 *)
Definition e30_ParameterOrRef : ent := EStruct
  [mkField "ParameterReference" (TPtr (TNamed "ParameterReference")) None false;
   mkField "Parameter" (TPtr (TNamed "Parameter")) None false]
  [PField 0; PField 1]
  {| d_not := []; d_struct := false; d_embed := []; d_oneof := [0; 1];
     d_require := [];
     d_xor := []; d_const := []; d_notconst := []; d_absent := [];
     d_lower := []; d_fix := [];
     d_known := [];
     d_pats := []; d_addl := []; d_closed := false |}.

(* openapi3/entities.go: type 3899-3913, UnmarshalJSON 4055-4120, MarshalJSON 4123-4125 *)
Definition e30_Operation : ent := EStruct
  [mkField "Tags" (TArr TStr) (Some "tags") true;
   mkField "Summary" (TPtr TStr) (Some "summary") true;
   mkField "Description" (TPtr TStr) (Some "description") true;
   mkField "ExternalDocs" (TPtr (TNamed "ExternalDocumentation")) (Some "externalDocs") true;
   mkField "ID" (TPtr TStr) (Some "operationId") true;
   mkField "Parameters" (TArr (TNamed "ParameterOrRef")) (Some "parameters") true;
   mkField "RequestBody" (TPtr (TNamed "RequestBodyOrRef")) (Some "requestBody") true;
   mkField "Responses" (TNamed "Responses") (Some "responses") false;
   mkField "Callbacks" (TMap (TNamed "CallbackOrRef")) (Some "callbacks") true;
   mkField "Deprecated" (TPtr TBool) (Some "deprecated") true;
   mkField "Security" (TArr (TMap (TArr TStr))) (Some "security") true;
   mkField "Servers" (TArr (TNamed "Server")) (Some "servers") true;
   mkField "MapOfAnything" (TMap TAny) None false]
  [PStruct; PField 12]
  {| d_not := []; d_struct := true; d_embed := []; d_oneof := [];
     d_require := ["responses"];
     d_xor := []; d_const := []; d_notconst := []; d_absent := [];
     d_lower := []; d_fix := [];
     d_known := ["tags"; "summary"; "description"; "externalDocs"; "operationId"; "parameters"; "requestBody"; "responses"; "callbacks"; "deprecated"; "security"; "servers"];
     d_pats := [(PatX, 12)]; d_addl := []; d_closed := true |}.

(* openapi3/entities.go: type 4128-4132, UnmarshalJSON 4151-4191 *)
Definition e30_RequestBodyReference : ent := EStruct
  [mkField "Ref" TStr (Some "$ref") false]
  [PStruct]
  {| d_not := []; d_struct := true; d_embed := []; d_oneof := [];
     d_require := ["$ref"];
     d_xor := []; d_const := []; d_notconst := []; d_absent := [];
     d_lower := []; d_fix := [];
     d_known := ["$ref"];
     d_pats := []; d_addl := []; d_closed := true |}.

(* openapi3/entities.go: type 4194-4199, UnmarshalJSON 4260-4325, MarshalJSON 4328-4330 *)
Definition e30_RequestBody : ent := EStruct
  [mkField "Description" (TPtr TStr) (Some "description") true;
   mkField "Content" (TMap (TNamed "MediaType")) (Some "content") false;
   mkField "Required" (TPtr TBool) (Some "required") true;
   mkField "MapOfAnything" (TMap TAny) None false]
  [PStruct; PField 3]
  {| d_not := []; d_struct := true; d_embed := []; d_oneof := [];
     d_require := ["content"];
     d_xor := []; d_const := []; d_notconst := []; d_absent := [];
     d_lower := []; d_fix := [];
     d_known := ["description"; "content"; "required"];
     d_pats := [(PatX, 3)]; d_addl := []; d_closed := true |}.

(* openapi3/entities.go: type 4333-4336, UnmarshalJSON 4369-4396, MarshalJSON 4399-4401 *)
Definition e30_RequestBodyOrRef : ent := EStruct
  [mkField "RequestBodyReference" (TPtr (TNamed "RequestBodyReference")) None false;
   mkField "RequestBody" (TPtr (TNamed "RequestBody")) None false]
  [PField 0; PField 1]
  {| d_not := []; d_struct := false; d_embed := []; d_oneof := [0; 1];
     d_require := [];
     d_xor := []; d_const := []; d_notconst := []; d_absent := [];
     d_lower := []; d_fix := [];
     d_known := [];
     d_pats := []; d_addl := []; d_closed := false |}.

(* openapi3/entities.go: type 4404-4408, UnmarshalJSON 4466-4542, MarshalJSON 4545-4547 *)
Definition e30_Responses : ent := EStruct
  [mkField "Default" (TPtr (TNamed "ResponseOrRef")) (Some "default") true;
   mkField "MapOfResponseOrRefValues" (TMap (TNamed "ResponseOrRef")) None false;
   mkField "MapOfAnything" (TMap TAny) None false]
  [PStruct; PField 1; PField 2]
  {| d_not := []; d_struct := true; d_embed := []; d_oneof := [];
     d_require := [];
     d_xor := []; d_const := []; d_notconst := []; d_absent := [];
     d_lower := []; d_fix := [];
     d_known := ["default"];
     d_pats := [(PatStatus, 1); (PatX, 2)]; d_addl := []; d_closed := true |}.

(* openapi3/entities.go: type 4550-4554, UnmarshalJSON 4573-4613 *)
Definition e30_ResponseReference : ent := EStruct
  [mkField "Ref" TStr (Some "$ref") false]
  [PStruct]
  {| d_not := []; d_struct := true; d_embed := []; d_oneof := [];
     d_require := ["$ref"];
     d_xor := []; d_const := []; d_notconst := []; d_absent := [];
     d_lower := []; d_fix := [];
     d_known := ["$ref"];
     d_pats := []; d_addl := []; d_closed := true |}.

(* openapi3/entities.go: type 4616-4622, UnmarshalJSON 4712-4777, MarshalJSON 4780-4782 *)
Definition e30_Response : ent := EStruct
  [mkField "Description" TStr (Some "description") false;
   mkField "Headers" (TMap (TNamed "HeaderOrRef")) (Some "headers") true;
   mkField "Content" (TMap (TNamed "MediaType")) (Some "content") true;
   mkField "Links" (TMap (TNamed "LinkOrRef")) (Some "links") true;
   mkField "MapOfAnything" (TMap TAny) None false]
  [PStruct; PField 4]
  {| d_not := []; d_struct := true; d_embed := []; d_oneof := [];
     d_require := ["description"];
     d_xor := []; d_const := []; d_notconst := []; d_absent := [];
     d_lower := []; d_fix := [];
     d_known := ["description"; "headers"; "content"; "links"];
     d_pats := [(PatX, 4)]; d_addl := []; d_closed := true |}.

(* openapi3/entities.go: type 4785-4789, UnmarshalJSON 4808-4848 *)
Definition e30_HeaderReference : ent := EStruct
  [mkField "Ref" TStr (Some "$ref") false]
  [PStruct]
  {| d_not := []; d_struct := true; d_embed := []; d_oneof := [];
     d_require := ["$ref"];
     d_xor := []; d_const := []; d_notconst := []; d_absent := [];
     d_lower := []; d_fix := [];
     d_known := ["$ref"];
     d_pats := []; d_addl := []; d_closed := true |}.

(* openapi3/entities.go: type 4851-4854, UnmarshalJSON 4887-4914, MarshalJSON 4917-4919 *)
Definition e30_HeaderOrRef : ent := EStruct
  [mkField "HeaderReference" (TPtr (TNamed "HeaderReference")) None false;
   mkField "Header" (TPtr (TNamed "Header")) None false]
  [PField 0; PField 1]
  {| d_not := []; d_struct := false; d_embed := []; d_oneof := [0; 1];
     d_require := [];
     d_xor := []; d_const := []; d_notconst := []; d_absent := [];
     d_lower := []; d_fix := [];
     d_known := [];
     d_pats := []; d_addl := []; d_closed := false |}.

(* openapi3/entities.go: type 4922-4926, UnmarshalJSON 4945-4985 *)
Definition e30_LinkReference : ent := EStruct
  [mkField "Ref" TStr (Some "$ref") false]
  [PStruct]
  {| d_not := []; d_struct := true; d_embed := []; d_oneof := [];
     d_require := ["$ref"];
     d_xor := []; d_const := []; d_notconst := []; d_absent := [];
     d_lower := []; d_fix := [];
     d_known := ["$ref"];
     d_pats := []; d_addl := []; d_closed := true |}.

(* openapi3/entities.go: type 4988-4996, UnmarshalJSON 5083-5155, MarshalJSON 5158-5160 *)
Definition e30_Link : ent := EStruct
  [mkField "OperationID" (TPtr TStr) (Some "operationId") true;
   mkField "OperationRef" (TPtr TStr) (Some "operationRef") true;
   mkField "Parameters" (TMap TAny) (Some "parameters") true;
   mkField "RequestBody" (TPtr TAny) (Some "requestBody") true;
   mkField "Description" (TPtr TStr) (Some "description") true;
   mkField "Server" (TPtr (TNamed "Server")) (Some "server") true;
   mkField "MapOfAnything" (TMap TAny) None false]
  [PStruct; PField 6]
  {| d_not := [TNamed "LinkNot"]; d_struct := true; d_embed := []; d_oneof := [];
     d_require := [];
     d_xor := []; d_const := []; d_notconst := []; d_absent := [];
     d_lower := []; d_fix := [(3, "requestBody")];
     d_known := ["operationId"; "operationRef"; "parameters"; "requestBody"; "description"; "server"];
     d_pats := [(PatX, 6)]; d_addl := []; d_closed := true |}.

(* openapi3/entities.go: type 5165-5168, UnmarshalJSON 5190-5216 *)
Definition e30_LinkNot : ent := EStruct
  [mkField "OperationID" TAny (Some "operationId") false;
   mkField "OperationRef" TAny (Some "operationRef") false]
  [PStruct]
  {| d_not := []; d_struct := true; d_embed := []; d_oneof := [];
     d_require := ["operationId"; "operationRef"];
     d_xor := []; d_const := []; d_notconst := []; d_absent := [];
     d_lower := []; d_fix := [];
     d_known := [];
     d_pats := []; d_addl := []; d_closed := false |}.

(* openapi3/entities.go: type 5219-5222, UnmarshalJSON 5255-5282, MarshalJSON 5285-5287 *)
Definition e30_LinkOrRef : ent := EStruct
  [mkField "LinkReference" (TPtr (TNamed "LinkReference")) None false;
   mkField "Link" (TPtr (TNamed "Link")) None false]
  [PField 0; PField 1]
  {| d_not := []; d_struct := false; d_embed := []; d_oneof := [0; 1];
     d_require := [];
     d_xor := []; d_const := []; d_notconst := []; d_absent := [];
     d_lower := []; d_fix := [];
     d_known := [];
     d_pats := []; d_addl := []; d_closed := false |}.

(* openapi3/entities.go: type 5290-5293, UnmarshalJSON 5326-5353, MarshalJSON 5356-5358 *)
Definition e30_ResponseOrRef : ent := EStruct
  [mkField "ResponseReference" (TPtr (TNamed "ResponseReference")) None false;
   mkField "Response" (TPtr (TNamed "Response")) None false]
  [PField 0; PField 1]
  {| d_not := []; d_struct := false; d_embed := []; d_oneof := [0; 1];
     d_require := [];
     d_xor := []; d_const := []; d_notconst := []; d_absent := [];
     d_lower := []; d_fix := [];
     d_known := [];
     d_pats := []; d_addl := []; d_closed := false |}.

(* openapi3/entities.go: type 5361-5365, UnmarshalJSON 5384-5424 *)
Definition e30_CallbackReference : ent := EStruct
  [mkField "Ref" TStr (Some "$ref") false]
  [PStruct]
  {| d_not := []; d_struct := true; d_embed := []; d_oneof := [];
     d_require := ["$ref"];
     d_xor := []; d_const := []; d_notconst := []; d_absent := [];
     d_lower := []; d_fix := [];
     d_known := ["$ref"];
     d_pats := []; d_addl := []; d_closed := true |}.

(* openapi3/entities.go: type 5427-5430, UnmarshalJSON 5467-5518, MarshalJSON 5521-5523 *)
Definition e30_Callback : ent := EStruct
  [mkField "MapOfAnything" (TMap TAny) None false;
   mkField "AdditionalProperties" (TMap (TNamed "PathItem")) None false]
  [PField 0; PField 1]
  {| d_not := []; d_struct := false; d_embed := []; d_oneof := [];
     d_require := [];
     d_xor := []; d_const := []; d_notconst := []; d_absent := [];
     d_lower := []; d_fix := [];
     d_known := [];
     d_pats := [(PatX, 0)]; d_addl := [1]; d_closed := false |}.

(* openapi3/entities.go: type 5526-5529, UnmarshalJSON 5562-5589, MarshalJSON 5592-5594 *)
Definition e30_CallbackOrRef : ent := EStruct
  [mkField "CallbackReference" (TPtr (TNamed "CallbackReference")) None false;
   mkField "Callback" (TPtr (TNamed "Callback")) None false]
  [PField 0; PField 1]
  {| d_not := []; d_struct := false; d_embed := []; d_oneof := [0; 1];
     d_require := [];
     d_xor := []; d_const := []; d_notconst := []; d_absent := [];
     d_lower := []; d_fix := [];
     d_known := [];
     d_pats := []; d_addl := []; d_closed := false |}.

(* openapi3/entities.go: type 5597-5600, UnmarshalJSON 5637-5700, MarshalJSON 5703-5705 *)
Definition e30_Paths : ent := EStruct
  [mkField "MapOfPathItemValues" (TMap (TNamed "PathItem")) None false;
   mkField "MapOfAnything" (TMap TAny) None false]
  [PField 0; PField 1]
  {| d_not := []; d_struct := false; d_embed := []; d_oneof := [];
     d_require := [];
     d_xor := []; d_const := []; d_notconst := []; d_absent := [];
     d_lower := []; d_fix := [];
     d_known := [];
     d_pats := [(PatSlash, 0); (PatX, 1)]; d_addl := []; d_closed := true |}.

(* openapi3/entities.go: type 5708-5719, UnmarshalJSON 5888-5947, MarshalJSON 5950-5952 *)
Definition e30_Components : ent := EStruct
  [mkField "Schemas" (TPtr (TNamed "ComponentsSchemas")) (Some "schemas") true;
   mkField "Responses" (TPtr (TNamed "ComponentsResponses")) (Some "responses") true;
   mkField "Parameters" (TPtr (TNamed "ComponentsParameters")) (Some "parameters") true;
   mkField "Examples" (TPtr (TNamed "ComponentsExamples")) (Some "examples") true;
   mkField "RequestBodies" (TPtr (TNamed "ComponentsRequestBodies")) (Some "requestBodies") true;
   mkField "Headers" (TPtr (TNamed "ComponentsHeaders")) (Some "headers") true;
   mkField "SecuritySchemes" (TPtr (TNamed "ComponentsSecuritySchemes")) (Some "securitySchemes") true;
   mkField "Links" (TPtr (TNamed "ComponentsLinks")) (Some "links") true;
   mkField "Callbacks" (TPtr (TNamed "ComponentsCallbacks")) (Some "callbacks") true;
   mkField "MapOfAnything" (TMap TAny) None false]
  [PStruct; PField 9]
  {| d_not := []; d_struct := true; d_embed := []; d_oneof := [];
     d_require := [];
     d_xor := []; d_const := []; d_notconst := []; d_absent := [];
     d_lower := []; d_fix := [];
     d_known := ["schemas"; "responses"; "parameters"; "examples"; "requestBodies"; "headers"; "securitySchemes"; "links"; "callbacks"];
     d_pats := [(PatX, 9)]; d_addl := []; d_closed := true |}.

(* openapi3/entities.go: type 5955-5957, UnmarshalJSON 5977-6013, MarshalJSON 6016-6018 *)
Definition e30_ComponentsSchemas : ent := EStruct
  [mkField "MapOfSchemaOrRefValues" (TMap (TNamed "SchemaOrRef")) None false]
  [PField 0]
  {| d_not := []; d_struct := false; d_embed := []; d_oneof := [];
     d_require := [];
     d_xor := []; d_const := []; d_notconst := []; d_absent := [];
     d_lower := []; d_fix := [];
     d_known := [];
     d_pats := [(PatName, 0)]; d_addl := []; d_closed := false |}.

(* openapi3/entities.go: type 6021-6023, UnmarshalJSON 6043-6079, MarshalJSON 6082-6084 *)
Definition e30_ComponentsResponses : ent := EStruct
  [mkField "MapOfResponseOrRefValues" (TMap (TNamed "ResponseOrRef")) None false]
  [PField 0]
  {| d_not := []; d_struct := false; d_embed := []; d_oneof := [];
     d_require := [];
     d_xor := []; d_const := []; d_notconst := []; d_absent := [];
     d_lower := []; d_fix := [];
     d_known := [];
     d_pats := [(PatName, 0)]; d_addl := []; d_closed := false |}.

(* openapi3/entities.go: type 6087-6089, UnmarshalJSON 6109-6145, MarshalJSON 6148-6150 *)
Definition e30_ComponentsParameters : ent := EStruct
  [mkField "MapOfParameterOrRefValues" (TMap (TNamed "ParameterOrRef")) None false]
  [PField 0]
  {| d_not := []; d_struct := false; d_embed := []; d_oneof := [];
     d_require := [];
     d_xor := []; d_const := []; d_notconst := []; d_absent := [];
     d_lower := []; d_fix := [];
     d_known := [];
     d_pats := [(PatName, 0)]; d_addl := []; d_closed := false |}.

(* openapi3/entities.go: type 6153-6155, UnmarshalJSON 6175-6211, MarshalJSON 6214-6216 *)
Definition e30_ComponentsExamples : ent := EStruct
  [mkField "MapOfExampleOrRefValues" (TMap (TNamed "ExampleOrRef")) None false]
  [PField 0]
  {| d_not := []; d_struct := false; d_embed := []; d_oneof := [];
     d_require := [];
     d_xor := []; d_const := []; d_notconst := []; d_absent := [];
     d_lower := []; d_fix := [];
     d_known := [];
     d_pats := [(PatName, 0)]; d_addl := []; d_closed := false |}.

(* openapi3/entities.go: type 6219-6221, UnmarshalJSON 6241-6277, MarshalJSON 6280-6282 *)
Definition e30_ComponentsRequestBodies : ent := EStruct
  [mkField "MapOfRequestBodyOrRefValues" (TMap (TNamed "RequestBodyOrRef")) None false]
  [PField 0]
  {| d_not := []; d_struct := false; d_embed := []; d_oneof := [];
     d_require := [];
     d_xor := []; d_const := []; d_notconst := []; d_absent := [];
     d_lower := []; d_fix := [];
     d_known := [];
     d_pats := [(PatName, 0)]; d_addl := []; d_closed := false |}.

(* openapi3/entities.go: type 6285-6287, UnmarshalJSON 6307-6343, MarshalJSON 6346-6348 *)
Definition e30_ComponentsHeaders : ent := EStruct
  [mkField "MapOfHeaderOrRefValues" (TMap (TNamed "HeaderOrRef")) None false]
  [PField 0]
  {| d_not := []; d_struct := false; d_embed := []; d_oneof := [];
     d_require := [];
     d_xor := []; d_const := []; d_notconst := []; d_absent := [];
     d_lower := []; d_fix := [];
     d_known := [];
     d_pats := [(PatName, 0)]; d_addl := []; d_closed := false |}.

(* openapi3/entities.go: type 6351-6355, UnmarshalJSON 6374-6414 *)
Definition e30_SecuritySchemeReference : ent := EStruct
  [mkField "Ref" TStr (Some "$ref") false]
  [PStruct]
  {| d_not := []; d_struct := true; d_embed := []; d_oneof := [];
     d_require := ["$ref"];
     d_xor := []; d_const := []; d_notconst := []; d_absent := [];
     d_lower := []; d_fix := [];
     d_known := ["$ref"];
     d_pats := []; d_addl := []; d_closed := true |}.

(* openapi3/entities.go: type 6417-6422, UnmarshalJSON 6475-6546, MarshalJSON 6552-6554 *)
Definition e30_APIKeySecurityScheme : ent := EStruct
  [mkField "Name" TStr (Some "name") false;
   mkField "In" (TNamed "APIKeySecuritySchemeIn") (Some "in") false;
   mkField "Description" (TPtr TStr) (Some "description") true;
   mkField "MapOfAnything" (TMap TAny) None false]
  [PConst [("type", JStr "apiKey")]; PStruct; PField 3]
  {| d_not := []; d_struct := true; d_embed := []; d_oneof := [];
     d_require := ["type"; "name"; "in"];
     d_xor := []; d_const := [("type", JStr "apiKey")]; d_notconst := []; d_absent := [];
     d_lower := []; d_fix := [];
     d_known := ["name"; "in"; "description"; "type"];
     d_pats := [(PatX, 3)]; d_addl := []; d_closed := true |}.

(* openapi3/entities.go: type 6557-6564, UnmarshalJSON 6646-6740, MarshalJSON 6746-6748 *)
Definition e30_HTTPSecurityScheme : ent := EStruct
  [mkField "Scheme" TStr (Some "scheme") false;
   mkField "BearerFormat" (TPtr TStr) (Some "bearerFormat") true;
   mkField "Description" (TPtr TStr) (Some "description") true;
   mkField "Bearer" (TPtr (TNamed "Bearer")) None false;
   mkField "NonBearer" (TPtr (TNamed "NonBearer")) None false;
   mkField "MapOfAnything" (TMap TAny) None false]
  [PConst [("type", JStr "http")]; PStruct; PField 5; PField 3; PField 4]
  {| d_not := []; d_struct := true; d_embed := []; d_oneof := [3; 4];
     d_require := ["scheme"; "type"];
     d_xor := []; d_const := [("type", JStr "http")]; d_notconst := []; d_absent := [];
     d_lower := []; d_fix := [];
     d_known := ["scheme"; "bearerFormat"; "description"; "type"];
     d_pats := [(PatX, 5)]; d_addl := []; d_closed := true |}.

(* openapi3/entities.go: type 6755-6755, UnmarshalJSON 6758-6775, MarshalJSON 6781-6783 *)
Definition e30_Bearer : ent := EStruct
  []
  [PConst [("scheme", JStr "bearer")]]
  {| d_not := []; d_struct := false; d_embed := []; d_oneof := [];
     d_require := [];
     d_xor := []; d_const := [("scheme", JStr "bearer")]; d_notconst := []; d_absent := [];
     d_lower := []; d_fix := [];
     d_known := [];
     d_pats := []; d_addl := []; d_closed := false |}.

(* openapi3/entities.go: type 6790-6792, UnmarshalJSON 6795-6816 *)
Definition e30_NonBearer : ent := EStruct
  [mkField "Scheme" (TPtr TAny) (Some "scheme") true]
  [PStruct]
  {| d_not := []; d_struct := false; d_embed := []; d_oneof := [];
     d_require := [];
     d_xor := []; d_const := []; d_notconst := [("scheme", JStr "bearer")]; d_absent := ["bearerFormat"];
     d_lower := []; d_fix := [];
     d_known := [];
     d_pats := []; d_addl := []; d_closed := false |}.

(* openapi3/entities.go: type 6825-6829, UnmarshalJSON 6874-6945, MarshalJSON 6951-6953 *)
Definition e30_OAuth2SecurityScheme : ent := EStruct
  [mkField "Flows" (TNamed "OAuthFlows") (Some "flows") false;
   mkField "Description" (TPtr TStr) (Some "description") true;
   mkField "MapOfAnything" (TMap TAny) None false]
  [PConst [("type", JStr "oauth2")]; PStruct; PField 2]
  {| d_not := []; d_struct := true; d_embed := []; d_oneof := [];
     d_require := ["type"; "flows"];
     d_xor := []; d_const := [("type", JStr "oauth2")]; d_notconst := []; d_absent := [];
     d_lower := []; d_fix := [];
     d_known := ["flows"; "description"; "type"];
     d_pats := [(PatX, 2)]; d_addl := []; d_closed := true |}.

(* openapi3/entities.go: type 6956-6962, UnmarshalJSON 7051-7110, MarshalJSON 7113-7115 *)
Definition e30_OAuthFlows : ent := EStruct
  [mkField "Implicit" (TPtr (TNamed "ImplicitOAuthFlow")) (Some "implicit") true;
   mkField "Password" (TPtr (TNamed "PasswordOAuthFlow")) (Some "password") true;
   mkField "ClientCredentials" (TPtr (TNamed "ClientCredentialsFlow")) (Some "clientCredentials") true;
   mkField "AuthorizationCode" (TPtr (TNamed "AuthorizationCodeOAuthFlow")) (Some "authorizationCode") true;
   mkField "MapOfAnything" (TMap TAny) None false]
  [PStruct; PField 4]
  {| d_not := []; d_struct := true; d_embed := []; d_oneof := [];
     d_require := [];
     d_xor := []; d_const := []; d_notconst := []; d_absent := [];
     d_lower := []; d_fix := [];
     d_known := ["implicit"; "password"; "clientCredentials"; "authorizationCode"];
     d_pats := [(PatX, 4)]; d_addl := []; d_closed := true |}.

(* openapi3/entities.go: type 7118-7125, UnmarshalJSON 7187-7252, MarshalJSON 7255-7257 *)
Definition e30_ImplicitOAuthFlow : ent := EStruct
  [mkField "AuthorizationURL" TStr (Some "authorizationUrl") false;
   mkField "RefreshURL" (TPtr TStr) (Some "refreshUrl") true;
   mkField "Scopes" (TMap TStr) (Some "scopes") false;
   mkField "MapOfAnything" (TMap TAny) None false]
  [PStruct; PField 3]
  {| d_not := []; d_struct := true; d_embed := []; d_oneof := [];
     d_require := ["authorizationUrl"; "scopes"];
     d_xor := []; d_const := []; d_notconst := []; d_absent := [];
     d_lower := []; d_fix := [];
     d_known := ["authorizationUrl"; "refreshUrl"; "scopes"];
     d_pats := [(PatX, 3)]; d_addl := []; d_closed := true |}.

(* openapi3/entities.go: type 7260-7267, UnmarshalJSON 7328-7393, MarshalJSON 7396-7398 *)
Definition e30_PasswordOAuthFlow : ent := EStruct
  [mkField "TokenURL" TStr (Some "tokenUrl") false;
   mkField "RefreshURL" (TPtr TStr) (Some "refreshUrl") true;
   mkField "Scopes" (TMap TStr) (Some "scopes") true;
   mkField "MapOfAnything" (TMap TAny) None false]
  [PStruct; PField 3]
  {| d_not := []; d_struct := true; d_embed := []; d_oneof := [];
     d_require := ["tokenUrl"];
     d_xor := []; d_const := []; d_notconst := []; d_absent := [];
     d_lower := []; d_fix := [];
     d_known := ["tokenUrl"; "refreshUrl"; "scopes"];
     d_pats := [(PatX, 3)]; d_addl := []; d_closed := true |}.

(* openapi3/entities.go: type 7401-7408, UnmarshalJSON 7469-7534, MarshalJSON 7537-7539 *)
Definition e30_ClientCredentialsFlow : ent := EStruct
  [mkField "TokenURL" TStr (Some "tokenUrl") false;
   mkField "RefreshURL" (TPtr TStr) (Some "refreshUrl") true;
   mkField "Scopes" (TMap TStr) (Some "scopes") true;
   mkField "MapOfAnything" (TMap TAny) None false]
  [PStruct; PField 3]
  {| d_not := []; d_struct := true; d_embed := []; d_oneof := [];
     d_require := ["tokenUrl"];
     d_xor := []; d_const := []; d_notconst := []; d_absent := [];
     d_lower := []; d_fix := [];
     d_known := ["tokenUrl"; "refreshUrl"; "scopes"];
     d_pats := [(PatX, 3)]; d_addl := []; d_closed := true |}.

(* openapi3/entities.go: type 7542-7552, UnmarshalJSON 7621-7686, MarshalJSON 7689-7691 *)
Definition e30_AuthorizationCodeOAuthFlow : ent := EStruct
  [mkField "AuthorizationURL" TStr (Some "authorizationUrl") false;
   mkField "TokenURL" TStr (Some "tokenUrl") false;
   mkField "RefreshURL" (TPtr TStr) (Some "refreshUrl") true;
   mkField "Scopes" (TMap TStr) (Some "scopes") true;
   mkField "MapOfAnything" (TMap TAny) None false]
  [PStruct; PField 4]
  {| d_not := []; d_struct := true; d_embed := []; d_oneof := [];
     d_require := ["authorizationUrl"; "tokenUrl"];
     d_xor := []; d_const := []; d_notconst := []; d_absent := [];
     d_lower := []; d_fix := [];
     d_known := ["authorizationUrl"; "tokenUrl"; "refreshUrl"; "scopes"];
     d_pats := [(PatX, 4)]; d_addl := []; d_closed := true |}.

(* openapi3/entities.go: type 7694-7700, UnmarshalJSON 7745-7816, MarshalJSON 7822-7824 *)
Definition e30_OpenIDConnectSecurityScheme : ent := EStruct
  [mkField "OpenIDConnectURL" TStr (Some "openIdConnectUrl") false;
   mkField "Description" (TPtr TStr) (Some "description") true;
   mkField "MapOfAnything" (TMap TAny) None false]
  [PConst [("type", JStr "openIdConnect")]; PStruct; PField 2]
  {| d_not := []; d_struct := true; d_embed := []; d_oneof := [];
     d_require := ["type"; "openIdConnectUrl"];
     d_xor := []; d_const := [("type", JStr "openIdConnect")]; d_notconst := []; d_absent := [];
     d_lower := []; d_fix := [];
     d_known := ["openIdConnectUrl"; "description"; "type"];
     d_pats := [(PatX, 2)]; d_addl := []; d_closed := true |}.

(* openapi3/entities.go: type 7827-7832, UnmarshalJSON 7895-7938, MarshalJSON 7941-7943 *)
Definition e30_SecurityScheme : ent := EStruct
  [mkField "APIKeySecurityScheme" (TPtr (TNamed "APIKeySecurityScheme")) None false;
   mkField "HTTPSecurityScheme" (TPtr (TNamed "HTTPSecurityScheme")) None false;
   mkField "OAuth2SecurityScheme" (TPtr (TNamed "OAuth2SecurityScheme")) None false;
   mkField "OpenIDConnectSecurityScheme" (TPtr (TNamed "OpenIDConnectSecurityScheme")) None false]
  [PField 0; PField 1; PField 2; PField 3]
  {| d_not := []; d_struct := false; d_embed := []; d_oneof := [0; 1; 2; 3];
     d_require := [];
     d_xor := []; d_const := []; d_notconst := []; d_absent := [];
     d_lower := []; d_fix := [];
     d_known := [];
     d_pats := []; d_addl := []; d_closed := false |}.

(* openapi3/entities.go: type 7946-7949, UnmarshalJSON 7982-8009, MarshalJSON 8012-8014 *)
Definition e30_SecuritySchemeOrRef : ent := EStruct
  [mkField "SecuritySchemeReference" (TPtr (TNamed "SecuritySchemeReference")) None false;
   mkField "SecurityScheme" (TPtr (TNamed "SecurityScheme")) None false]
  [PField 0; PField 1]
  {| d_not := []; d_struct := false; d_embed := []; d_oneof := [0; 1];
     d_require := [];
     d_xor := []; d_const := []; d_notconst := []; d_absent := [];
     d_lower := []; d_fix := [];
     d_known := [];
     d_pats := []; d_addl := []; d_closed := false |}.

(* openapi3/entities.go: type 8017-8019, UnmarshalJSON 8039-8075, MarshalJSON 8078-8080 *)
Definition e30_ComponentsSecuritySchemes : ent := EStruct
  [mkField "MapOfSecuritySchemeOrRefValues" (TMap (TNamed "SecuritySchemeOrRef")) None false]
  [PField 0]
  {| d_not := []; d_struct := false; d_embed := []; d_oneof := [];
     d_require := [];
     d_xor := []; d_const := []; d_notconst := []; d_absent := [];
     d_lower := []; d_fix := [];
     d_known := [];
     d_pats := [(PatName, 0)]; d_addl := []; d_closed := false |}.

(* openapi3/entities.go: type 8083-8085, UnmarshalJSON 8105-8141, MarshalJSON 8144-8146 *)
Definition e30_ComponentsLinks : ent := EStruct
  [mkField "MapOfLinkOrRefValues" (TMap (TNamed "LinkOrRef")) None false]
  [PField 0]
  {| d_not := []; d_struct := false; d_embed := []; d_oneof := [];
     d_require := [];
     d_xor := []; d_const := []; d_notconst := []; d_absent := [];
     d_lower := []; d_fix := [];
     d_known := [];
     d_pats := [(PatName, 0)]; d_addl := []; d_closed := false |}.

(* openapi3/entities.go: type 8149-8151, UnmarshalJSON 8171-8207, MarshalJSON 8210-8212 *)
Definition e30_ComponentsCallbacks : ent := EStruct
  [mkField "MapOfCallbackOrRefValues" (TMap (TNamed "CallbackOrRef")) None false]
  [PField 0]
  {| d_not := []; d_struct := false; d_embed := []; d_oneof := [];
     d_require := [];
     d_xor := []; d_const := []; d_notconst := []; d_absent := [];
     d_lower := []; d_fix := [];
     d_known := [];
     d_pats := [(PatName, 0)]; d_addl := []; d_closed := false |}.

(* openapi3/entities.go: type 8215, UnmarshalJSON 8241-8264, MarshalJSON 8226-8238 *)
Definition e30_ParameterIn : ent := EEnum ["path"; "query"; "header"; "cookie"].

(* openapi3/entities.go: type 8267, UnmarshalJSON 8297-8322, MarshalJSON 8280-8294 *)
Definition e30_SchemaType : ent := EEnum ["array"; "boolean"; "integer"; "number"; "object"; "string"].

(* openapi3/entities.go: type 8325, UnmarshalJSON 8351-8374, MarshalJSON 8336-8348 *)
Definition e30_EncodingStyle : ent := EEnum ["form"; "spaceDelimited"; "pipeDelimited"; "deepObject"].

(* openapi3/entities.go: type 8377, UnmarshalJSON 8401-8423, MarshalJSON 8387-8398 *)
Definition e30_PathParameterStyle : ent := EEnum ["matrix"; "label"; "simple"].

(* openapi3/entities.go: type 8426, UnmarshalJSON 8452-8475, MarshalJSON 8437-8449 *)
Definition e30_QueryParameterStyle : ent := EEnum ["form"; "spaceDelimited"; "pipeDelimited"; "deepObject"].

(* openapi3/entities.go: type 8478, UnmarshalJSON 8502-8524, MarshalJSON 8488-8499 *)
Definition e30_APIKeySecuritySchemeIn : ent := EEnum ["header"; "query"; "cookie"].

(* All of openapi3/entities.go. *)
Definition T30 : list (string * ent) :=
  [("Spec", e30_Spec);
   ("Info", e30_Info);
   ("Contact", e30_Contact);
   ("License", e30_License);
   ("ExternalDocumentation", e30_ExternalDocumentation);
   ("Server", e30_Server);
   ("ServerVariable", e30_ServerVariable);
   ("Tag", e30_Tag);
   ("PathItem", e30_PathItem);
   ("ParameterReference", e30_ParameterReference);
   ("Parameter", e30_Parameter);
   ("Schema", e30_Schema);
   ("SchemaReference", e30_SchemaReference);
   ("SchemaOrRef", e30_SchemaOrRef);
   ("SchemaAdditionalProperties", e30_SchemaAdditionalProperties);
   ("Discriminator", e30_Discriminator);
   ("XML", e30_XML);
   ("MediaType", e30_MediaType);
   ("ExampleReference", e30_ExampleReference);
   ("Example", e30_Example);
   ("ExampleOrRef", e30_ExampleOrRef);
   ("Encoding", e30_Encoding);
   ("Header", e30_Header);
   ("HasSchema", e30_HasSchema);
   ("HasContent", e30_HasContent);
   ("SchemaXORContent", e30_SchemaXORContent);
   ("SchemaXORContentNot", e30_SchemaXORContentNot);
   ("PathParameter", e30_PathParameter);
   ("QueryParameter", e30_QueryParameter);
   ("HeaderParameter", e30_HeaderParameter);
   ("CookieParameter", e30_CookieParameter);
   ("ParameterLocation", e30_ParameterLocation);
   ("ParameterOrRef", e30_ParameterOrRef);
   ("Operation", e30_Operation);
   ("RequestBodyReference", e30_RequestBodyReference);
   ("RequestBody", e30_RequestBody);
   ("RequestBodyOrRef", e30_RequestBodyOrRef);
   ("Responses", e30_Responses);
   ("ResponseReference", e30_ResponseReference);
   ("Response", e30_Response);
   ("HeaderReference", e30_HeaderReference);
   ("HeaderOrRef", e30_HeaderOrRef);
   ("LinkReference", e30_LinkReference);
   ("Link", e30_Link);
   ("LinkNot", e30_LinkNot);
   ("LinkOrRef", e30_LinkOrRef);
   ("ResponseOrRef", e30_ResponseOrRef);
   ("CallbackReference", e30_CallbackReference);
   ("Callback", e30_Callback);
   ("CallbackOrRef", e30_CallbackOrRef);
   ("Paths", e30_Paths);
   ("Components", e30_Components);
   ("ComponentsSchemas", e30_ComponentsSchemas);
   ("ComponentsResponses", e30_ComponentsResponses);
   ("ComponentsParameters", e30_ComponentsParameters);
   ("ComponentsExamples", e30_ComponentsExamples);
   ("ComponentsRequestBodies", e30_ComponentsRequestBodies);
   ("ComponentsHeaders", e30_ComponentsHeaders);
   ("SecuritySchemeReference", e30_SecuritySchemeReference);
   ("APIKeySecurityScheme", e30_APIKeySecurityScheme);
   ("HTTPSecurityScheme", e30_HTTPSecurityScheme);
   ("Bearer", e30_Bearer);
   ("NonBearer", e30_NonBearer);
   ("OAuth2SecurityScheme", e30_OAuth2SecurityScheme);
   ("OAuthFlows", e30_OAuthFlows);
   ("ImplicitOAuthFlow", e30_ImplicitOAuthFlow);
   ("PasswordOAuthFlow", e30_PasswordOAuthFlow);
   ("ClientCredentialsFlow", e30_ClientCredentialsFlow);
   ("AuthorizationCodeOAuthFlow", e30_AuthorizationCodeOAuthFlow);
   ("OpenIDConnectSecurityScheme", e30_OpenIDConnectSecurityScheme);
   ("SecurityScheme", e30_SecurityScheme);
   ("SecuritySchemeOrRef", e30_SecuritySchemeOrRef);
   ("ComponentsSecuritySchemes", e30_ComponentsSecuritySchemes);
   ("ComponentsLinks", e30_ComponentsLinks);
   ("ComponentsCallbacks", e30_ComponentsCallbacks);
   ("ParameterIn", e30_ParameterIn);
   ("SchemaType", e30_SchemaType);
   ("EncodingStyle", e30_EncodingStyle);
   ("PathParameterStyle", e30_PathParameterStyle);
   ("QueryParameterStyle", e30_QueryParameterStyle);
   ("APIKeySecuritySchemeIn", e30_APIKeySecuritySchemeIn)].

(* openapi31/entities.go: type 17-31, UnmarshalJSON 169-224, MarshalJSON 227-229 *)
Definition e31_Spec : ent := EStruct
  [mkField "Openapi" TStr (Some "openapi") false;
   mkField "Info" (TNamed "Info") (Some "info") false;
   mkField "JSONSchemaDialect" (TPtr TStr) (Some "jsonSchemaDialect") true;
   mkField "Servers" (TArr (TNamed "Server")) (Some "servers") true;
   mkField "Paths" (TPtr (TNamed "Paths")) (Some "paths") true;
   mkField "Webhooks" (TMap (TNamed "PathItemOrReference")) (Some "webhooks") true;
   mkField "Components" (TPtr (TNamed "Components")) (Some "components") true;
   mkField "Security" (TArr (TMap (TArr TStr))) (Some "security") true;
   mkField "Tags" (TArr (TNamed "Tag")) (Some "tags") true;
   mkField "ExternalDocs" (TPtr (TNamed "ExternalDocumentation")) (Some "externalDocs") true;
   mkField "MapOfAnything" (TMap TAny) None false]
  [PStruct; PField 10]
  {| d_not := []; d_struct := true; d_embed := []; d_oneof := [];
     d_require := ["openapi"; "info"];
     d_xor := []; d_const := []; d_notconst := []; d_absent := [];
     d_lower := []; d_fix := [];
     d_known := ["openapi"; "info"; "jsonSchemaDialect"; "servers"; "paths"; "webhooks"; "components"; "security"; "tags"; "externalDocs"];
     d_pats := [(PatX, 10)]; d_addl := []; d_closed := false |}.

(* openapi31/entities.go: type 232-241, UnmarshalJSON 338-393, MarshalJSON 396-398 *)
Definition e31_Info : ent := EStruct
  [mkField "Title" TStr (Some "title") false;
   mkField "Summary" (TPtr TStr) (Some "summary") true;
   mkField "Description" (TPtr TStr) (Some "description") true;
   mkField "TermsOfService" (TPtr TStr) (Some "termsOfService") true;
   mkField "Contact" (TPtr (TNamed "Contact")) (Some "contact") true;
   mkField "License" (TPtr (TNamed "License")) (Some "license") true;
   mkField "Version" TStr (Some "version") false;
   mkField "MapOfAnything" (TMap TAny) None false]
  [PStruct; PField 7]
  {| d_not := []; d_struct := true; d_embed := []; d_oneof := [];
     d_require := ["title"; "version"];
     d_xor := []; d_const := []; d_notconst := []; d_absent := [];
     d_lower := []; d_fix := [];
     d_known := ["title"; "summary"; "description"; "termsOfService"; "contact"; "license"; "version"];
     d_pats := [(PatX, 7)]; d_addl := []; d_closed := false |}.

(* openapi31/entities.go: type 401-406, UnmarshalJSON 452-501, MarshalJSON 504-506 *)
Definition e31_Contact : ent := EStruct
  [mkField "Name" (TPtr TStr) (Some "name") true;
   mkField "URL" (TPtr TStr) (Some "url") true;
   mkField "Email" (TPtr TStr) (Some "email") true;
   mkField "MapOfAnything" (TMap TAny) None false]
  [PStruct; PField 3]
  {| d_not := []; d_struct := true; d_embed := []; d_oneof := [];
     d_require := [];
     d_xor := []; d_const := []; d_notconst := []; d_absent := [];
     d_lower := []; d_fix := [];
     d_known := ["name"; "url"; "email"];
     d_pats := [(PatX, 3)]; d_addl := []; d_closed := false |}.

(* openapi31/entities.go: type 509-514, UnmarshalJSON 564-619, MarshalJSON 622-624 *)
Definition e31_License : ent := EStruct
  [mkField "Name" TStr (Some "name") false;
   mkField "Identifier" (TPtr TStr) (Some "identifier") true;
   mkField "URL" (TPtr TStr) (Some "url") true;
   mkField "MapOfAnything" (TMap TAny) None false]
  [PStruct; PField 3]
  {| d_not := []; d_struct := true; d_embed := []; d_oneof := [];
     d_require := ["name"];
     d_xor := []; d_const := []; d_notconst := []; d_absent := [];
     d_lower := []; d_fix := [];
     d_known := ["name"; "identifier"; "url"];
     d_pats := [(PatX, 3)]; d_addl := []; d_closed := false |}.

(* openapi31/entities.go: type 627-634, UnmarshalJSON 695-750, MarshalJSON 753-755 *)
Definition e31_Server : ent := EStruct
  [mkField "URL" TStr (Some "url") false;
   mkField "Description" (TPtr TStr) (Some "description") true;
   mkField "Variables" (TMap (TNamed "ServerVariable")) (Some "variables") true;
   mkField "MapOfAnything" (TMap TAny) None false]
  [PStruct; PField 3]
  {| d_not := []; d_struct := true; d_embed := []; d_oneof := [];
     d_require := ["url"];
     d_xor := []; d_const := []; d_notconst := []; d_absent := [];
     d_lower := []; d_fix := [];
     d_known := ["url"; "description"; "variables"];
     d_pats := [(PatX, 3)]; d_addl := []; d_closed := false |}.

(* openapi31/entities.go: type 758-763, UnmarshalJSON 813-868, MarshalJSON 871-873 *)
Definition e31_ServerVariable : ent := EStruct
  [mkField "Enum" (TArr TStr) (Some "enum") true;
   mkField "Default" TStr (Some "default") false;
   mkField "Description" (TPtr TStr) (Some "description") true;
   mkField "MapOfAnything" (TMap TAny) None false]
  [PStruct; PField 3]
  {| d_not := []; d_struct := true; d_embed := []; d_oneof := [];
     d_require := ["default"];
     d_xor := []; d_const := []; d_notconst := []; d_absent := [];
     d_lower := []; d_fix := [];
     d_known := ["enum"; "default"; "description"];
     d_pats := [(PatX, 3)]; d_addl := []; d_closed := false |}.

(* openapi31/entities.go: type 876-890, UnmarshalJSON 1071-1120, MarshalJSON 1123-1125 *)
Definition e31_PathItem : ent := EStruct
  [mkField "Summary" (TPtr TStr) (Some "summary") true;
   mkField "Description" (TPtr TStr) (Some "description") true;
   mkField "Servers" (TArr (TNamed "Server")) (Some "servers") true;
   mkField "Parameters" (TArr (TNamed "ParameterOrReference")) (Some "parameters") true;
   mkField "Get" (TPtr (TNamed "Operation")) (Some "get") true;
   mkField "Put" (TPtr (TNamed "Operation")) (Some "put") true;
   mkField "Post" (TPtr (TNamed "Operation")) (Some "post") true;
   mkField "Delete" (TPtr (TNamed "Operation")) (Some "delete") true;
   mkField "Options" (TPtr (TNamed "Operation")) (Some "options") true;
   mkField "Head" (TPtr (TNamed "Operation")) (Some "head") true;
   mkField "Patch" (TPtr (TNamed "Operation")) (Some "patch") true;
   mkField "Trace" (TPtr (TNamed "Operation")) (Some "trace") true;
   mkField "MapOfAnything" (TMap TAny) None false]
  [PStruct; PField 12]
  {| d_not := []; d_struct := true; d_embed := []; d_oneof := [];
     d_require := [];
     d_xor := []; d_const := []; d_notconst := []; d_absent := [];
     d_lower := []; d_fix := [];
     d_known := ["summary"; "description"; "servers"; "parameters"; "get"; "put"; "post"; "delete"; "options"; "head"; "patch"; "trace"];
     d_pats := [(PatX, 12)]; d_addl := []; d_closed := false |}.

(* openapi31/entities.go: type 1128-1134, UnmarshalJSON 1161-1187 *)
Definition e31_Reference : ent := EStruct
  [mkField "Ref" TStr (Some "$ref") false;
   mkField "Summary" (TPtr TStr) (Some "summary") true;
   mkField "Description" (TPtr TStr) (Some "description") true]
  [PStruct]
  {| d_not := []; d_struct := true; d_embed := []; d_oneof := [];
     d_require := ["$ref"];
     d_xor := []; d_const := []; d_notconst := []; d_absent := [];
     d_lower := []; d_fix := [];
     d_known := [];
     d_pats := []; d_addl := []; d_closed := false |}.

(* openapi31/entities.go: type 1190-1203, UnmarshalJSON 1343-1405, MarshalJSON 1408-1410 *)
Definition e31_Parameter : ent := EStruct
  [mkField "Name" TStr (Some "name") false;
   mkField "In" (TNamed "ParameterIn") (Some "in") false;
   mkField "Description" (TPtr TStr) (Some "description") true;
   mkField "Required" (TPtr TBool) (Some "required") true;
   mkField "Deprecated" (TPtr TBool) (Some "deprecated") true;
   mkField "Schema" (TMap TAny) (Some "schema") true;
   mkField "Content" (TMap (TNamed "MediaType")) (Some "content") true;
   mkField "Style" (TPtr (TNamed "ParameterStyle")) (Some "style") true;
   mkField "Explode" (TPtr TBool) (Some "explode") true;
   mkField "Example" (TPtr TAny) (Some "example") true;
   mkField "Examples" (TMap (TNamed "ExampleOrReference")) (Some "examples") true;
   mkField "MapOfAnything" (TMap TAny) None false]
  [PStruct; PField 11]
  {| d_not := []; d_struct := true; d_embed := []; d_oneof := [];
     d_require := ["name"; "in"];
     d_xor := []; d_const := []; d_notconst := []; d_absent := [];
     d_lower := []; d_fix := [(9, "example")];
     d_known := ["name"; "in"; "description"; "required"; "deprecated"; "schema"; "content"; "style"; "explode"; "example"; "examples"];
     d_pats := [(PatX, 11)]; d_addl := []; d_closed := false |}.

(* openapi31/entities.go: type 1413-1419, UnmarshalJSON 1505-1561, MarshalJSON 1564-1566 *)
Definition e31_MediaType : ent := EStruct
  [mkField "Schema" (TMap TAny) (Some "schema") true;
   mkField "Encoding" (TMap (TNamed "Encoding")) (Some "encoding") true;
   mkField "Example" (TPtr TAny) (Some "example") true;
   mkField "Examples" (TMap (TNamed "ExampleOrReference")) (Some "examples") true;
   mkField "MapOfAnything" (TMap TAny) None false]
  [PStruct; PField 4]
  {| d_not := []; d_struct := true; d_embed := []; d_oneof := [];
     d_require := [];
     d_xor := []; d_const := []; d_notconst := []; d_absent := [];
     d_lower := []; d_fix := [(2, "example")];
     d_known := ["schema"; "encoding"; "example"; "examples"];
     d_pats := [(PatX, 4)]; d_addl := []; d_closed := false |}.

(* openapi31/entities.go: type 1569-1575 *)
Definition e31_Encoding : ent := EStruct
  [mkField "ContentType" (TPtr TStr) (Some "contentType") true;
   mkField "Headers" (TMap (TNamed "HeaderOrReference")) (Some "headers") true;
   mkField "Style" (TPtr (TNamed "EncodingStyle")) (Some "style") true;
   mkField "Explode" (TPtr TBool) (Some "explode") true;
   mkField "AllowReserved" (TPtr TBool) (Some "allowReserved") true]
  [PStruct]
  {| d_not := []; d_struct := true; d_embed := []; d_oneof := [];
     d_require := [];
     d_xor := []; d_const := []; d_notconst := []; d_absent := [];
     d_lower := []; d_fix := [];
     d_known := [];
     d_pats := []; d_addl := []; d_closed := false |}.

(* openapi31/entities.go: type 1619-1629, UnmarshalJSON 1744-1814, MarshalJSON 1820-1822 *)
Definition e31_Header : ent := EStruct
  [mkField "Description" (TPtr TStr) (Some "description") true;
   mkField "Required" (TPtr TBool) (Some "required") true;
   mkField "Deprecated" (TPtr TBool) (Some "deprecated") true;
   mkField "Schema" (TMap TAny) (Some "schema") true;
   mkField "Content" (TMap (TNamed "MediaType")) (Some "content") true;
   mkField "Example" (TPtr TAny) (Some "example") true;
   mkField "Examples" (TMap (TNamed "ExampleOrReference")) (Some "examples") true;
   mkField "Explode" (TPtr TBool) (Some "explode") true;
   mkField "MapOfAnything" (TMap TAny) None false]
  [PConst [("style", JStr "simple")]; PStruct; PField 8]
  {| d_not := []; d_struct := true; d_embed := []; d_oneof := [];
     d_require := [];
     d_xor := [("schema", "content")]; d_const := [("style", JStr "simple")]; d_notconst := []; d_absent := [];
     d_lower := []; d_fix := [(5, "example")];
     d_known := ["description"; "required"; "deprecated"; "schema"; "content"; "example"; "examples"; "explode"; "style"];
     d_pats := [(PatX, 8)]; d_addl := []; d_closed := false |}.

(* openapi31/entities.go: type 1825-1831, UnmarshalJSON 1884-1946, MarshalJSON 1949-1951 *)
Definition e31_Example : ent := EStruct
  [mkField "Summary" (TPtr TStr) (Some "summary") true;
   mkField "Description" (TPtr TStr) (Some "description") true;
   mkField "Value" (TPtr TAny) (Some "value") true;
   mkField "ExternalValue" (TPtr TStr) (Some "externalValue") true;
   mkField "MapOfAnything" (TMap TAny) None false]
  [PStruct; PField 4]
  {| d_not := [TAny]; d_struct := true; d_embed := []; d_oneof := [];
     d_require := [];
     d_xor := []; d_const := []; d_notconst := []; d_absent := [];
     d_lower := []; d_fix := [(2, "value")];
     d_known := ["summary"; "description"; "value"; "externalValue"];
     d_pats := [(PatX, 4)]; d_addl := []; d_closed := false |}.

(* openapi31/entities.go: type 1954-1957, UnmarshalJSON 1990-2017, MarshalJSON 2020-2022 *)
Definition e31_ExampleOrReference : ent := EStruct
  [mkField "Reference" (TPtr (TNamed "Reference")) None false;
   mkField "Example" (TPtr (TNamed "Example")) None false]
  [PField 0; PField 1]
  {| d_not := []; d_struct := false; d_embed := []; d_oneof := [0; 1];
     d_require := [];
     d_xor := []; d_const := []; d_notconst := []; d_absent := [];
     d_lower := []; d_fix := [];
     d_known := [];
     d_pats := []; d_addl := []; d_closed := false |}.

(* openapi31/entities.go: type 2025-2028, UnmarshalJSON 2061-2088, MarshalJSON 2091-2093 *)
Definition e31_HeaderOrReference : ent := EStruct
  [mkField "Reference" (TPtr (TNamed "Reference")) None false;
   mkField "Header" (TPtr (TNamed "Header")) None false]
  [PField 0; PField 1]
  {| d_not := []; d_struct := false; d_embed := []; d_oneof := [0; 1];
     d_require := [];
     d_xor := []; d_const := []; d_notconst := []; d_absent := [];
     d_lower := []; d_fix := [];
     d_known := [];
     d_pats := []; d_addl := []; d_closed := false |}.

(* openapi31/entities.go: type 2096-2098, UnmarshalJSON 2118-2154, MarshalJSON 2157-2159 *)
Definition e31_EncodingAllOf0 : ent := EStruct
  [mkField "MapOfAnything" (TMap TAny) None false]
  [PField 0]
  {| d_not := []; d_struct := false; d_embed := []; d_oneof := [];
     d_require := [];
     d_xor := []; d_const := []; d_notconst := []; d_absent := [];
     d_lower := []; d_fix := [];
     d_known := [];
     d_pats := [(PatX, 0)]; d_addl := []; d_closed := false |}.

(* openapi31/entities.go: type 2162-2165 *)
Definition e31_Examples : ent := EStruct
  [mkField "Example" (TPtr TAny) (Some "example") true;
   mkField "Examples" (TMap (TNamed "ExampleOrReference")) (Some "examples") true]
  [PStruct]
  {| d_not := []; d_struct := true; d_embed := []; d_oneof := [];
     d_require := [];
     d_xor := []; d_const := []; d_notconst := []; d_absent := [];
     d_lower := []; d_fix := [];
     d_known := [];
     d_pats := []; d_addl := []; d_closed := false |}.

(* openapi31/entities.go: type 2191-2194, UnmarshalJSON 2227-2254, MarshalJSON 2257-2259 *)
Definition e31_ParameterOrReference : ent := EStruct
  [mkField "Reference" (TPtr (TNamed "Reference")) None false;
   mkField "Parameter" (TPtr (TNamed "Parameter")) None false]
  [PField 0; PField 1]
  {| d_not := []; d_struct := false; d_embed := []; d_oneof := [0; 1];
     d_require := [];
     d_xor := []; d_const := []; d_notconst := []; d_absent := [];
     d_lower := []; d_fix := [];
     d_known := [];
     d_pats := []; d_addl := []; d_closed := false |}.

(* openapi31/entities.go: type 2262-2276, UnmarshalJSON 2423-2472, MarshalJSON 2475-2477 *)
Definition e31_Operation : ent := EStruct
  [mkField "Tags" (TArr TStr) (Some "tags") true;
   mkField "Summary" (TPtr TStr) (Some "summary") true;
   mkField "Description" (TPtr TStr) (Some "description") true;
   mkField "ExternalDocs" (TPtr (TNamed "ExternalDocumentation")) (Some "externalDocs") true;
   mkField "ID" (TPtr TStr) (Some "operationId") true;
   mkField "Parameters" (TArr (TNamed "ParameterOrReference")) (Some "parameters") true;
   mkField "RequestBody" (TPtr (TNamed "RequestBodyOrReference")) (Some "requestBody") true;
   mkField "Responses" (TPtr (TNamed "Responses")) (Some "responses") true;
   mkField "Callbacks" (TMap (TNamed "CallbacksOrReference")) (Some "callbacks") true;
   mkField "Deprecated" (TPtr TBool) (Some "deprecated") true;
   mkField "Security" (TArr (TMap (TArr TStr))) (Some "security") true;
   mkField "Servers" (TArr (TNamed "Server")) (Some "servers") true;
   mkField "MapOfAnything" (TMap TAny) None false]
  [PStruct; PField 12]
  {| d_not := []; d_struct := true; d_embed := []; d_oneof := [];
     d_require := [];
     d_xor := []; d_const := []; d_notconst := []; d_absent := [];
     d_lower := []; d_fix := [];
     d_known := ["tags"; "summary"; "description"; "externalDocs"; "operationId"; "parameters"; "requestBody"; "responses"; "callbacks"; "deprecated"; "security"; "servers"];
     d_pats := [(PatX, 12)]; d_addl := []; d_closed := false |}.

(* openapi31/entities.go: type 2480-2486, UnmarshalJSON 2529-2584, MarshalJSON 2587-2589 *)
Definition e31_ExternalDocumentation : ent := EStruct
  [mkField "Description" (TPtr TStr) (Some "description") true;
   mkField "URL" TStr (Some "url") false;
   mkField "MapOfAnything" (TMap TAny) None false]
  [PStruct; PField 2]
  {| d_not := []; d_struct := true; d_embed := []; d_oneof := [];
     d_require := ["url"];
     d_xor := []; d_const := []; d_notconst := []; d_absent := [];
     d_lower := []; d_fix := [];
     d_known := ["description"; "url"];
     d_pats := [(PatX, 2)]; d_addl := []; d_closed := false |}.

(* openapi31/entities.go: type 2592-2597, UnmarshalJSON 2658-2713, MarshalJSON 2716-2718 *)
Definition e31_RequestBody : ent := EStruct
  [mkField "Description" (TPtr TStr) (Some "description") true;
   mkField "Content" (TMap (TNamed "MediaType")) (Some "content") false;
   mkField "Required" (TPtr TBool) (Some "required") true;
   mkField "MapOfAnything" (TMap TAny) None false]
  [PStruct; PField 3]
  {| d_not := []; d_struct := true; d_embed := []; d_oneof := [];
     d_require := ["content"];
     d_xor := []; d_const := []; d_notconst := []; d_absent := [];
     d_lower := []; d_fix := [];
     d_known := ["description"; "content"; "required"];
     d_pats := [(PatX, 3)]; d_addl := []; d_closed := false |}.

(* openapi31/entities.go: type 2721-2724, UnmarshalJSON 2757-2784, MarshalJSON 2787-2789 *)
Definition e31_RequestBodyOrReference : ent := EStruct
  [mkField "Reference" (TPtr (TNamed "Reference")) None false;
   mkField "RequestBody" (TPtr (TNamed "RequestBody")) None false]
  [PField 0; PField 1]
  {| d_not := []; d_struct := false; d_embed := []; d_oneof := [0; 1];
     d_require := [];
     d_xor := []; d_const := []; d_notconst := []; d_absent := [];
     d_lower := []; d_fix := [];
     d_known := [];
     d_pats := []; d_addl := []; d_closed := false |}.

(* openapi31/entities.go: type 2792-2796, UnmarshalJSON 2854-2920, MarshalJSON 2923-2925 *)
Definition e31_Responses : ent := EStruct
  [mkField "Default" (TPtr (TNamed "ResponseOrReference")) (Some "default") true;
   mkField "MapOfResponseOrReferenceValues" (TMap (TNamed "ResponseOrReference")) None false;
   mkField "MapOfAnything" (TMap TAny) None false]
  [PStruct; PField 1; PField 2]
  {| d_not := []; d_struct := true; d_embed := []; d_oneof := [];
     d_require := [];
     d_xor := []; d_const := []; d_notconst := []; d_absent := [];
     d_lower := []; d_fix := [];
     d_known := ["default"];
     d_pats := [(PatStatus, 1); (PatX, 2)]; d_addl := []; d_closed := false |}.

(* openapi31/entities.go: type 2928-2934, UnmarshalJSON 3024-3079, MarshalJSON 3082-3084 *)
Definition e31_Response : ent := EStruct
  [mkField "Description" TStr (Some "description") false;
   mkField "Headers" (TMap (TNamed "HeaderOrReference")) (Some "headers") true;
   mkField "Content" (TMap (TNamed "MediaType")) (Some "content") true;
   mkField "Links" (TMap (TNamed "LinkOrReference")) (Some "links") true;
   mkField "MapOfAnything" (TMap TAny) None false]
  [PStruct; PField 4]
  {| d_not := []; d_struct := true; d_embed := []; d_oneof := [];
     d_require := ["description"];
     d_xor := []; d_const := []; d_notconst := []; d_absent := [];
     d_lower := []; d_fix := [];
     d_known := ["description"; "headers"; "content"; "links"];
     d_pats := [(PatX, 4)]; d_addl := []; d_closed := false |}.

(* openapi31/entities.go: type 3087-3095, UnmarshalJSON 3182-3238, MarshalJSON 3241-3243 *)
Definition e31_Link : ent := EStruct
  [mkField "OperationRef" (TPtr TStr) (Some "operationRef") true;
   mkField "OperationID" (TPtr TStr) (Some "operationId") true;
   mkField "Parameters" (TMap TStr) (Some "parameters") true;
   mkField "RequestBody" (TPtr TAny) (Some "requestBody") true;
   mkField "Description" (TPtr TStr) (Some "description") true;
   mkField "Body" (TPtr (TNamed "Server")) (Some "body") true;
   mkField "MapOfAnything" (TMap TAny) None false]
  [PStruct; PField 6]
  {| d_not := []; d_struct := true; d_embed := []; d_oneof := [];
     d_require := [];
     d_xor := []; d_const := []; d_notconst := []; d_absent := [];
     d_lower := []; d_fix := [(3, "requestBody")];
     d_known := ["operationRef"; "operationId"; "parameters"; "requestBody"; "description"; "body"];
     d_pats := [(PatX, 6)]; d_addl := []; d_closed := false |}.

(* openapi31/entities.go: type 3246-3249, UnmarshalJSON 3282-3309, MarshalJSON 3312-3314 *)
Definition e31_LinkOrReference : ent := EStruct
  [mkField "Reference" (TPtr (TNamed "Reference")) None false;
   mkField "Link" (TPtr (TNamed "Link")) None false]
  [PField 0; PField 1]
  {| d_not := []; d_struct := false; d_embed := []; d_oneof := [0; 1];
     d_require := [];
     d_xor := []; d_const := []; d_notconst := []; d_absent := [];
     d_lower := []; d_fix := [];
     d_known := [];
     d_pats := []; d_addl := []; d_closed := false |}.

(* openapi31/entities.go: type 3317-3320, UnmarshalJSON 3353-3380, MarshalJSON 3383-3385 *)
Definition e31_ResponseOrReference : ent := EStruct
  [mkField "Reference" (TPtr (TNamed "Reference")) None false;
   mkField "Response" (TPtr (TNamed "Response")) None false]
  [PField 0; PField 1]
  {| d_not := []; d_struct := false; d_embed := []; d_oneof := [0; 1];
     d_require := [];
     d_xor := []; d_const := []; d_notconst := []; d_absent := [];
     d_lower := []; d_fix := [];
     d_known := [];
     d_pats := []; d_addl := []; d_closed := false |}.

(* openapi31/entities.go: type 3388-3391, UnmarshalJSON 3428-3479, MarshalJSON 3482-3484 *)
Definition e31_Callbacks : ent := EStruct
  [mkField "MapOfAnything" (TMap TAny) None false;
   mkField "AdditionalProperties" (TMap (TNamed "PathItemOrReference")) None false]
  [PField 0; PField 1]
  {| d_not := []; d_struct := false; d_embed := []; d_oneof := [];
     d_require := [];
     d_xor := []; d_const := []; d_notconst := []; d_absent := [];
     d_lower := []; d_fix := [];
     d_known := [];
     d_pats := [(PatX, 0)]; d_addl := [1]; d_closed := false |}.

(* openapi31/entities.go: type 3487-3490, UnmarshalJSON 3523-3550, MarshalJSON 3553-3555 *)
Definition e31_PathItemOrReference : ent := EStruct
  [mkField "Reference" (TPtr (TNamed "Reference")) None false;
   mkField "PathItem" (TPtr (TNamed "PathItem")) None false]
  [PField 0; PField 1]
  {| d_not := []; d_struct := false; d_embed := []; d_oneof := [0; 1];
     d_require := [];
     d_xor := []; d_const := []; d_notconst := []; d_absent := [];
     d_lower := []; d_fix := [];
     d_known := [];
     d_pats := []; d_addl := []; d_closed := false |}.

(* openapi31/entities.go: type 3558-3561, UnmarshalJSON 3594-3621, MarshalJSON 3624-3626 *)
Definition e31_CallbacksOrReference : ent := EStruct
  [mkField "Reference" (TPtr (TNamed "Reference")) None false;
   mkField "Callbacks" (TPtr (TNamed "Callbacks")) None false]
  [PField 0; PField 1]
  {| d_not := []; d_struct := false; d_embed := []; d_oneof := [0; 1];
     d_require := [];
     d_xor := []; d_const := []; d_notconst := []; d_absent := [];
     d_lower := []; d_fix := [];
     d_known := [];
     d_pats := []; d_addl := []; d_closed := false |}.

(* openapi31/entities.go: type 3629-3632, UnmarshalJSON 3669-3722, MarshalJSON 3725-3727 *)
Definition e31_Paths : ent := EStruct
  [mkField "MapOfPathItemValues" (TMap (TNamed "PathItem")) None false;
   mkField "MapOfAnything" (TMap TAny) None false]
  [PField 0; PField 1]
  {| d_not := []; d_struct := false; d_embed := []; d_oneof := [];
     d_require := [];
     d_xor := []; d_const := []; d_notconst := []; d_absent := [];
     d_lower := []; d_fix := [];
     d_known := [];
     d_pats := [(PatSlash, 0); (PatX, 1)]; d_addl := []; d_closed := false |}.

(* openapi31/entities.go: type 3730-3741 *)
Definition e31_Components : ent := EStruct
  [mkField "Schemas" (TMap (TMap TAny)) (Some "schemas") true;
   mkField "Responses" (TMap (TNamed "ResponseOrReference")) (Some "responses") true;
   mkField "Parameters" (TMap (TNamed "ParameterOrReference")) (Some "parameters") true;
   mkField "Examples" (TMap (TNamed "ExampleOrReference")) (Some "examples") true;
   mkField "RequestBodies" (TMap (TNamed "RequestBodyOrReference")) (Some "requestBodies") true;
   mkField "Headers" (TMap (TNamed "HeaderOrReference")) (Some "headers") true;
   mkField "SecuritySchemes" (TMap (TNamed "SecuritySchemeOrReference")) (Some "securitySchemes") true;
   mkField "Links" (TMap (TNamed "LinkOrReference")) (Some "links") true;
   mkField "Callbacks" (TMap (TNamed "CallbacksOrReference")) (Some "callbacks") true;
   mkField "PathItems" (TMap (TNamed "PathItemOrReference")) (Some "pathItems") true]
  [PStruct]
  {| d_not := []; d_struct := true; d_embed := []; d_oneof := [];
     d_require := [];
     d_xor := []; d_const := []; d_notconst := []; d_absent := [];
     d_lower := []; d_fix := [];
     d_known := [];
     d_pats := []; d_addl := []; d_closed := false |}.

(* openapi31/entities.go: type 3914-3923, UnmarshalJSON 4049-4159, MarshalJSON 4162-4164 *)
Definition e31_SecurityScheme : ent := EStruct
  [mkField "Description" (TPtr TStr) (Some "description") true;
   mkField "APIKey" (TPtr (TNamed "SecuritySchemeAPIKey")) None false;
   mkField "HTTP" (TPtr (TNamed "SecuritySchemeHTTP")) None false;
   mkField "HTTPBearer" (TPtr (TNamed "SecuritySchemeHTTPBearer")) None false;
   mkField "Oauth2" (TPtr (TNamed "SecuritySchemeOauth2")) None false;
   mkField "Oidc" (TPtr (TNamed "SecuritySchemeOidc")) None false;
   mkField "MutualTLS" (TPtr (TNamed "MutualTLS")) None false;
   mkField "MapOfAnything" (TMap TAny) None false]
  [PStruct; PField 7; PField 1; PField 2; PField 3; PField 4; PField 5; PField 6]
  {| d_not := []; d_struct := true; d_embed := []; d_oneof := [1; 2; 3; 4; 5; 6];
     d_require := ["type"];
     d_xor := []; d_const := []; d_notconst := []; d_absent := [];
     d_lower := []; d_fix := [];
     d_known := ["description"];
     d_pats := [(PatX, 7)]; d_addl := []; d_closed := false |}.

(* openapi31/entities.go: type 4167-4170, UnmarshalJSON 4193-4225, MarshalJSON 4231-4233 *)
Definition e31_SecuritySchemeAPIKey : ent := EStruct
  [mkField "Name" TStr (Some "name") false;
   mkField "In" (TNamed "SecuritySchemeAPIKeyIn") (Some "in") false]
  [PConst [("type", JStr "apiKey")]; PStruct]
  {| d_not := []; d_struct := true; d_embed := []; d_oneof := [];
     d_require := ["type"; "name"; "in"];
     d_xor := []; d_const := [("type", JStr "apiKey")]; d_notconst := []; d_absent := [];
     d_lower := []; d_fix := [];
     d_known := [];
     d_pats := []; d_addl := []; d_closed := false |}.

(* openapi31/entities.go: type 4236-4238, UnmarshalJSON 4254-4290, MarshalJSON 4296-4298 *)
Definition e31_SecuritySchemeHTTP : ent := EStruct
  [mkField "Scheme" TStr (Some "scheme") false]
  [PConst [("type", JStr "http")]; PStruct]
  {| d_not := []; d_struct := true; d_embed := []; d_oneof := [];
     d_require := ["type"; "scheme"];
     d_xor := []; d_const := [("type", JStr "http")]; d_notconst := []; d_absent := [];
     d_lower := [(0, "bearer", false)]; d_fix := [];
     d_known := [];
     d_pats := []; d_addl := []; d_closed := false |}.

(* openapi31/entities.go: type 4301-4306, UnmarshalJSON 4328-4364, MarshalJSON 4370-4372 *)
Definition e31_SecuritySchemeHTTPBearer : ent := EStruct
  [mkField "Scheme" TStr (Some "scheme") false;
   mkField "BearerFormat" (TPtr TStr) (Some "bearerFormat") true]
  [PConst [("type", JStr "http")]; PStruct]
  {| d_not := []; d_struct := true; d_embed := []; d_oneof := [];
     d_require := ["type"; "scheme"];
     d_xor := []; d_const := [("type", JStr "http")]; d_notconst := []; d_absent := [];
     d_lower := [(0, "bearer", true)]; d_fix := [];
     d_known := [];
     d_pats := []; d_addl := []; d_closed := false |}.

(* openapi31/entities.go: type 4375-4377, UnmarshalJSON 4393-4425, MarshalJSON 4431-4433 *)
Definition e31_SecuritySchemeOauth2 : ent := EStruct
  [mkField "Flows" (TNamed "OauthFlows") (Some "flows") false]
  [PConst [("type", JStr "oauth2")]; PStruct]
  {| d_not := []; d_struct := true; d_embed := []; d_oneof := [];
     d_require := ["type"; "flows"];
     d_xor := []; d_const := [("type", JStr "oauth2")]; d_notconst := []; d_absent := [];
     d_lower := []; d_fix := [];
     d_known := [];
     d_pats := []; d_addl := []; d_closed := false |}.

(* openapi31/entities.go: type 4436-4442, UnmarshalJSON 4531-4580, MarshalJSON 4583-4585 *)
Definition e31_OauthFlows : ent := EStruct
  [mkField "Implicit" (TPtr (TNamed "OauthFlowsDefsImplicit")) (Some "implicit") true;
   mkField "Password" (TPtr (TNamed "OauthFlowsDefsPassword")) (Some "password") true;
   mkField "ClientCredentials" (TPtr (TNamed "OauthFlowsDefsClientCredentials")) (Some "clientCredentials") true;
   mkField "AuthorizationCode" (TPtr (TNamed "OauthFlowsDefsAuthorizationCode")) (Some "authorizationCode") true;
   mkField "MapOfAnything" (TMap TAny) None false]
  [PStruct; PField 4]
  {| d_not := []; d_struct := true; d_embed := []; d_oneof := [];
     d_require := [];
     d_xor := []; d_const := []; d_notconst := []; d_absent := [];
     d_lower := []; d_fix := [];
     d_known := ["implicit"; "password"; "clientCredentials"; "authorizationCode"];
     d_pats := [(PatX, 4)]; d_addl := []; d_closed := false |}.

(* openapi31/entities.go: type 4588-4595, UnmarshalJSON 4657-4712, MarshalJSON 4715-4717 *)
Definition e31_OauthFlowsDefsImplicit : ent := EStruct
  [mkField "AuthorizationURL" TStr (Some "authorizationUrl") false;
   mkField "RefreshURL" (TPtr TStr) (Some "refreshUrl") true;
   mkField "Scopes" (TMap TStr) (Some "scopes") false;
   mkField "MapOfAnything" (TMap TAny) None false]
  [PStruct; PField 3]
  {| d_not := []; d_struct := true; d_embed := []; d_oneof := [];
     d_require := ["authorizationUrl"; "scopes"];
     d_xor := []; d_const := []; d_notconst := []; d_absent := [];
     d_lower := []; d_fix := [];
     d_known := ["authorizationUrl"; "refreshUrl"; "scopes"];
     d_pats := [(PatX, 3)]; d_addl := []; d_closed := false |}.

(* openapi31/entities.go: type 4720-4727, UnmarshalJSON 4789-4844, MarshalJSON 4847-4849 *)
Definition e31_OauthFlowsDefsPassword : ent := EStruct
  [mkField "TokenURL" TStr (Some "tokenUrl") false;
   mkField "RefreshURL" (TPtr TStr) (Some "refreshUrl") true;
   mkField "Scopes" (TMap TStr) (Some "scopes") false;
   mkField "MapOfAnything" (TMap TAny) None false]
  [PStruct; PField 3]
  {| d_not := []; d_struct := true; d_embed := []; d_oneof := [];
     d_require := ["tokenUrl"; "scopes"];
     d_xor := []; d_const := []; d_notconst := []; d_absent := [];
     d_lower := []; d_fix := [];
     d_known := ["tokenUrl"; "refreshUrl"; "scopes"];
     d_pats := [(PatX, 3)]; d_addl := []; d_closed := false |}.

(* openapi31/entities.go: type 4852-4859, UnmarshalJSON 4921-4976, MarshalJSON 4979-4981 *)
Definition e31_OauthFlowsDefsClientCredentials : ent := EStruct
  [mkField "TokenURL" TStr (Some "tokenUrl") false;
   mkField "RefreshURL" (TPtr TStr) (Some "refreshUrl") true;
   mkField "Scopes" (TMap TStr) (Some "scopes") false;
   mkField "MapOfAnything" (TMap TAny) None false]
  [PStruct; PField 3]
  {| d_not := []; d_struct := true; d_embed := []; d_oneof := [];
     d_require := ["tokenUrl"; "scopes"];
     d_xor := []; d_const := []; d_notconst := []; d_absent := [];
     d_lower := []; d_fix := [];
     d_known := ["tokenUrl"; "refreshUrl"; "scopes"];
     d_pats := [(PatX, 3)]; d_addl := []; d_closed := false |}.

(* openapi31/entities.go: type 4984-4994, UnmarshalJSON 5064-5119, MarshalJSON 5122-5124 *)
Definition e31_OauthFlowsDefsAuthorizationCode : ent := EStruct
  [mkField "AuthorizationURL" TStr (Some "authorizationUrl") false;
   mkField "TokenURL" TStr (Some "tokenUrl") false;
   mkField "RefreshURL" (TPtr TStr) (Some "refreshUrl") true;
   mkField "Scopes" (TMap TStr) (Some "scopes") false;
   mkField "MapOfAnything" (TMap TAny) None false]
  [PStruct; PField 4]
  {| d_not := []; d_struct := true; d_embed := []; d_oneof := [];
     d_require := ["authorizationUrl"; "tokenUrl"; "scopes"];
     d_xor := []; d_const := []; d_notconst := []; d_absent := [];
     d_lower := []; d_fix := [];
     d_known := ["authorizationUrl"; "tokenUrl"; "refreshUrl"; "scopes"];
     d_pats := [(PatX, 4)]; d_addl := []; d_closed := false |}.

(* openapi31/entities.go: type 5127-5131, UnmarshalJSON 5147-5179, MarshalJSON 5185-5187 *)
Definition e31_SecuritySchemeOidc : ent := EStruct
  [mkField "OpenIDConnectURL" TStr (Some "openIdConnectUrl") false]
  [PConst [("type", JStr "openIdConnect")]; PStruct]
  {| d_not := []; d_struct := true; d_embed := []; d_oneof := [];
     d_require := ["type"; "openIdConnectUrl"];
     d_xor := []; d_const := [("type", JStr "openIdConnect")]; d_notconst := []; d_absent := [];
     d_lower := []; d_fix := [];
     d_known := [];
     d_pats := []; d_addl := []; d_closed := false |}.

(* openapi31/entities.go: type 5192-5192, UnmarshalJSON 5195-5212, MarshalJSON 5218-5220 *)
Definition e31_MutualTLS : ent := EStruct
  []
  [PConst [("type", JStr "mutualTLS")]]
  {| d_not := []; d_struct := false; d_embed := []; d_oneof := [];
     d_require := [];
     d_xor := []; d_const := [("type", JStr "mutualTLS")]; d_notconst := []; d_absent := [];
     d_lower := []; d_fix := [];
     d_known := [];
     d_pats := []; d_addl := []; d_closed := false |}.

(* openapi31/entities.go: type 5223-5226, UnmarshalJSON 5259-5286, MarshalJSON 5289-5291 *)
Definition e31_SecuritySchemeOrReference : ent := EStruct
  [mkField "Reference" (TPtr (TNamed "Reference")) None false;
   mkField "SecurityScheme" (TPtr (TNamed "SecurityScheme")) None false]
  [PField 0; PField 1]
  {| d_not := []; d_struct := false; d_embed := []; d_oneof := [0; 1];
     d_require := [];
     d_xor := []; d_const := []; d_notconst := []; d_absent := [];
     d_lower := []; d_fix := [];
     d_known := [];
     d_pats := []; d_addl := []; d_closed := false |}.

(* openapi31/entities.go: type 5294-5299, UnmarshalJSON 5358-5413, MarshalJSON 5416-5418 *)
Definition e31_Tag : ent := EStruct
  [mkField "Name" TStr (Some "name") false;
   mkField "Description" (TPtr TStr) (Some "description") true;
   mkField "ExternalDocs" (TPtr (TNamed "ExternalDocumentation")) (Some "externalDocs") true;
   mkField "MapOfAnything" (TMap TAny) None false]
  [PStruct; PField 3]
  {| d_not := []; d_struct := true; d_embed := []; d_oneof := [];
     d_require := ["name"];
     d_xor := []; d_const := []; d_notconst := []; d_absent := [];
     d_lower := []; d_fix := [];
     d_known := ["name"; "description"; "externalDocs"];
     d_pats := [(PatX, 3)]; d_addl := []; d_closed := false |}.

(* openapi31/entities.go: type 5421, UnmarshalJSON 5447-5470, MarshalJSON 5432-5444 *)
Definition e31_ParameterIn : ent := EEnum ["query"; "header"; "path"; "cookie"].

(* openapi31/entities.go: type 5473, UnmarshalJSON 5499-5522, MarshalJSON 5484-5496 *)
Definition e31_EncodingStyle : ent := EEnum ["form"; "spaceDelimited"; "pipeDelimited"; "deepObject"].

(* openapi31/entities.go: type 5525, UnmarshalJSON 5551-5574, MarshalJSON 5536-5548 *)
Definition e31_ParameterStyle : ent := EEnum ["form"; "spaceDelimited"; "pipeDelimited"; "deepObject"].

(* openapi31/entities.go: type 5577, UnmarshalJSON 5601-5623, MarshalJSON 5587-5598 *)
Definition e31_SecuritySchemeAPIKeyIn : ent := EEnum ["query"; "header"; "cookie"].

(* All of openapi31/entities.go. *)
Definition T31 : list (string * ent) :=
  [("Spec", e31_Spec);
   ("Info", e31_Info);
   ("Contact", e31_Contact);
   ("License", e31_License);
   ("Server", e31_Server);
   ("ServerVariable", e31_ServerVariable);
   ("PathItem", e31_PathItem);
   ("Reference", e31_Reference);
   ("Parameter", e31_Parameter);
   ("MediaType", e31_MediaType);
   ("Encoding", e31_Encoding);
   ("Header", e31_Header);
   ("Example", e31_Example);
   ("ExampleOrReference", e31_ExampleOrReference);
   ("HeaderOrReference", e31_HeaderOrReference);
   ("EncodingAllOf0", e31_EncodingAllOf0);
   ("Examples", e31_Examples);
   ("ParameterOrReference", e31_ParameterOrReference);
   ("Operation", e31_Operation);
   ("ExternalDocumentation", e31_ExternalDocumentation);
   ("RequestBody", e31_RequestBody);
   ("RequestBodyOrReference", e31_RequestBodyOrReference);
   ("Responses", e31_Responses);
   ("Response", e31_Response);
   ("Link", e31_Link);
   ("LinkOrReference", e31_LinkOrReference);
   ("ResponseOrReference", e31_ResponseOrReference);
   ("Callbacks", e31_Callbacks);
   ("PathItemOrReference", e31_PathItemOrReference);
   ("CallbacksOrReference", e31_CallbacksOrReference);
   ("Paths", e31_Paths);
   ("Components", e31_Components);
   ("SecurityScheme", e31_SecurityScheme);
   ("SecuritySchemeAPIKey", e31_SecuritySchemeAPIKey);
   ("SecuritySchemeHTTP", e31_SecuritySchemeHTTP);
   ("SecuritySchemeHTTPBearer", e31_SecuritySchemeHTTPBearer);
   ("SecuritySchemeOauth2", e31_SecuritySchemeOauth2);
   ("OauthFlows", e31_OauthFlows);
   ("OauthFlowsDefsImplicit", e31_OauthFlowsDefsImplicit);
   ("OauthFlowsDefsPassword", e31_OauthFlowsDefsPassword);
   ("OauthFlowsDefsClientCredentials", e31_OauthFlowsDefsClientCredentials);
   ("OauthFlowsDefsAuthorizationCode", e31_OauthFlowsDefsAuthorizationCode);
   ("SecuritySchemeOidc", e31_SecuritySchemeOidc);
   ("MutualTLS", e31_MutualTLS);
   ("SecuritySchemeOrReference", e31_SecuritySchemeOrReference);
   ("Tag", e31_Tag);
   ("ParameterIn", e31_ParameterIn);
   ("EncodingStyle", e31_EncodingStyle);
   ("ParameterStyle", e31_ParameterStyle);
   ("SecuritySchemeAPIKeyIn", e31_SecuritySchemeAPIKeyIn)].
