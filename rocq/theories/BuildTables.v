(* The builder methods of the generated entity types of both packages: what
   they take and their statements.  Written by tools/gen_build.py from the text of
   openapi3/entities.go and openapi31/entities.go; the comments cite the lines. *)
From Verif Require Import Str Json CodecModel BuildModel.

(* openapi3/entities.go: methods between 32 and 112 *)
Definition b30_Spec : list (string * meth) :=
  [("WithOpenapi", mkMeth (Some TStr) [SAssign "Openapi" (EVal)] RSelf);
   ("WithInfo", mkMeth (Some (TNamed "Info")) [SAssign "Info" (EVal)] RSelf);
   ("WithExternalDocs", mkMeth (Some (TNamed "ExternalDocumentation")) [SAssign "ExternalDocs" (EAddr)] RSelf);
   ("ExternalDocsEns", mkMeth (None) [SIfNil "ExternalDocs" "ExternalDocs" (ENew "ExternalDocumentation")] (RField "ExternalDocs"));
   ("WithServers", mkMeth (Some (TArr (TNamed "Server"))) [SAssign "Servers" (EVal)] RSelf);
   ("WithSecurity", mkMeth (Some (TArr (TMap (TArr TStr)))) [SAssign "Security" (EVal)] RSelf);
   ("WithTags", mkMeth (Some (TArr (TNamed "Tag"))) [SAssign "Tags" (EVal)] RSelf);
   ("WithPaths", mkMeth (Some (TNamed "Paths")) [SAssign "Paths" (EVal)] RSelf);
   ("WithComponents", mkMeth (Some (TNamed "Components")) [SAssign "Components" (EAddr)] RSelf);
   ("ComponentsEns", mkMeth (None) [SIfNil "Components" "Components" (ENew "Components")] (RField "Components"));
   ("WithMapOfAnything", mkMeth (Some (TMap TAny)) [SAssign "MapOfAnything" (EVal)] RSelf);
   ("WithMapOfAnythingItem", mkMeth (Some TAny) [SIfNil "MapOfAnything" "MapOfAnything" (EMake (TMap TAny)); SItem "MapOfAnything"] RSelf)].

(* openapi3/entities.go: methods between 218 and 286 *)
Definition b30_Info : list (string * meth) :=
  [("WithTitle", mkMeth (Some TStr) [SAssign "Title" (EVal)] RSelf);
   ("WithDescription", mkMeth (Some TStr) [SAssign "Description" (EAddr)] RSelf);
   ("WithTermsOfService", mkMeth (Some TStr) [SAssign "TermsOfService" (EAddr)] RSelf);
   ("WithContact", mkMeth (Some (TNamed "Contact")) [SAssign "Contact" (EAddr)] RSelf);
   ("ContactEns", mkMeth (None) [SIfNil "Contact" "Contact" (ENew "Contact")] (RField "Contact"));
   ("WithLicense", mkMeth (Some (TNamed "License")) [SAssign "License" (EAddr)] RSelf);
   ("LicenseEns", mkMeth (None) [SIfNil "License" "License" (ENew "License")] (RField "License"));
   ("WithVersion", mkMeth (Some TStr) [SAssign "Version" (EVal)] RSelf);
   ("WithMapOfAnything", mkMeth (Some (TMap TAny)) [SAssign "MapOfAnything" (EVal)] RSelf);
   ("WithMapOfAnythingItem", mkMeth (Some TAny) [SIfNil "MapOfAnything" "MapOfAnything" (EMake (TMap TAny)); SItem "MapOfAnything"] RSelf)].

(* openapi3/entities.go: methods between 386 and 418 *)
Definition b30_Contact : list (string * meth) :=
  [("WithName", mkMeth (Some TStr) [SAssign "Name" (EAddr)] RSelf);
   ("WithURL", mkMeth (Some TStr) [SAssign "URL" (EAddr)] RSelf);
   ("WithEmail", mkMeth (Some TStr) [SAssign "Email" (EAddr)] RSelf);
   ("WithMapOfAnything", mkMeth (Some (TMap TAny)) [SAssign "MapOfAnything" (EVal)] RSelf);
   ("WithMapOfAnythingItem", mkMeth (Some TAny) [SIfNil "MapOfAnything" "MapOfAnything" (EMake (TMap TAny)); SItem "MapOfAnything"] RSelf)].

(* openapi3/entities.go: methods between 503 and 529 *)
Definition b30_License : list (string * meth) :=
  [("WithName", mkMeth (Some TStr) [SAssign "Name" (EVal)] RSelf);
   ("WithURL", mkMeth (Some TStr) [SAssign "URL" (EAddr)] RSelf);
   ("WithMapOfAnything", mkMeth (Some (TMap TAny)) [SAssign "MapOfAnything" (EVal)] RSelf);
   ("WithMapOfAnythingItem", mkMeth (Some TAny) [SIfNil "MapOfAnything" "MapOfAnything" (EMake (TMap TAny)); SItem "MapOfAnything"] RSelf)].

(* openapi3/entities.go: methods between 625 and 651 *)
Definition b30_ExternalDocumentation : list (string * meth) :=
  [("WithDescription", mkMeth (Some TStr) [SAssign "Description" (EAddr)] RSelf);
   ("WithURL", mkMeth (Some TStr) [SAssign "URL" (EVal)] RSelf);
   ("WithMapOfAnything", mkMeth (Some (TMap TAny)) [SAssign "MapOfAnything" (EVal)] RSelf);
   ("WithMapOfAnythingItem", mkMeth (Some TAny) [SIfNil "MapOfAnything" "MapOfAnything" (EMake (TMap TAny)); SItem "MapOfAnything"] RSelf)].

(* openapi3/entities.go: methods between 746 and 789 *)
Definition b30_Server : list (string * meth) :=
  [("WithURL", mkMeth (Some TStr) [SAssign "URL" (EVal)] RSelf);
   ("WithDescription", mkMeth (Some TStr) [SAssign "Description" (EAddr)] RSelf);
   ("WithVariables", mkMeth (Some (TMap (TNamed "ServerVariable"))) [SAssign "Variables" (EVal)] RSelf);
   ("WithVariablesItem", mkMeth (Some (TNamed "ServerVariable")) [SIfNil "Variables" "Variables" (EMake (TMap (TNamed "ServerVariable"))); SItem "Variables"] RSelf);
   ("WithMapOfAnything", mkMeth (Some (TMap TAny)) [SAssign "MapOfAnything" (EVal)] RSelf);
   ("WithMapOfAnythingItem", mkMeth (Some TAny) [SIfNil "MapOfAnything" "MapOfAnything" (EMake (TMap TAny)); SItem "MapOfAnything"] RSelf)].

(* openapi3/entities.go: methods between 885 and 917 *)
Definition b30_ServerVariable : list (string * meth) :=
  [("WithEnum", mkMeth (Some (TArr TStr)) [SAssign "Enum" (EVal)] RSelf);
   ("WithDefault", mkMeth (Some TStr) [SAssign "Default" (EVal)] RSelf);
   ("WithDescription", mkMeth (Some TStr) [SAssign "Description" (EAddr)] RSelf);
   ("WithMapOfAnything", mkMeth (Some (TMap TAny)) [SAssign "MapOfAnything" (EVal)] RSelf);
   ("WithMapOfAnythingItem", mkMeth (Some TAny) [SIfNil "MapOfAnything" "MapOfAnything" (EMake (TMap TAny)); SItem "MapOfAnything"] RSelf)].

(* openapi3/entities.go: methods between 1013 and 1054 *)
Definition b30_Tag : list (string * meth) :=
  [("WithName", mkMeth (Some TStr) [SAssign "Name" (EVal)] RSelf);
   ("WithDescription", mkMeth (Some TStr) [SAssign "Description" (EAddr)] RSelf);
   ("WithExternalDocs", mkMeth (Some (TNamed "ExternalDocumentation")) [SAssign "ExternalDocs" (EAddr)] RSelf);
   ("ExternalDocsEns", mkMeth (None) [SIfNil "ExternalDocs" "ExternalDocs" (ENew "ExternalDocumentation")] (RField "ExternalDocs"));
   ("WithMapOfAnything", mkMeth (Some (TMap TAny)) [SAssign "MapOfAnything" (EVal)] RSelf);
   ("WithMapOfAnythingItem", mkMeth (Some TAny) [SIfNil "MapOfAnything" "MapOfAnything" (EMake (TMap TAny)); SItem "MapOfAnything"] RSelf)].

(* openapi3/entities.go: methods between 1153 and 1214 *)
Definition b30_PathItem : list (string * meth) :=
  [("WithRef", mkMeth (Some TStr) [SAssign "Ref" (EAddr)] RSelf);
   ("WithSummary", mkMeth (Some TStr) [SAssign "Summary" (EAddr)] RSelf);
   ("WithDescription", mkMeth (Some TStr) [SAssign "Description" (EAddr)] RSelf);
   ("WithServers", mkMeth (Some (TArr (TNamed "Server"))) [SAssign "Servers" (EVal)] RSelf);
   ("WithParameters", mkMeth (Some (TArr (TNamed "ParameterOrRef"))) [SAssign "Parameters" (EVal)] RSelf);
   ("WithMapOfOperationValues", mkMeth (Some (TMap (TNamed "Operation"))) [SAssign "MapOfOperationValues" (EVal)] RSelf);
   ("WithMapOfOperationValuesItem", mkMeth (Some (TNamed "Operation")) [SIfNil "MapOfOperationValues" "MapOfOperationValues" (EMake (TMap (TNamed "Operation"))); SItem "MapOfOperationValues"] RSelf);
   ("WithMapOfAnything", mkMeth (Some (TMap TAny)) [SAssign "MapOfAnything" (EVal)] RSelf);
   ("WithMapOfAnythingItem", mkMeth (Some TAny) [SIfNil "MapOfAnything" "MapOfAnything" (EMake (TMap TAny)); SItem "MapOfAnything"] RSelf)].

(* openapi3/entities.go: methods between 1318 and 1321 *)
Definition b30_ParameterReference : list (string * meth) :=
  [("WithRef", mkMeth (Some TStr) [SAssign "Ref" (EVal)] RSelf)].

(* openapi3/entities.go: methods between 1397 and 1550 *)
Definition b30_Parameter : list (string * meth) :=
  [("WithName", mkMeth (Some TStr) [SAssign "Name" (EVal)] RSelf);
   ("WithIn", mkMeth (Some (TNamed "ParameterIn")) [SAssign "In" (EVal)] RSelf);
   ("WithDescription", mkMeth (Some TStr) [SAssign "Description" (EAddr)] RSelf);
   ("WithRequired", mkMeth (Some TBool) [SAssign "Required" (EAddr)] RSelf);
   ("WithDeprecated", mkMeth (Some TBool) [SAssign "Deprecated" (EAddr)] RSelf);
   ("WithAllowEmptyValue", mkMeth (Some TBool) [SAssign "AllowEmptyValue" (EAddr)] RSelf);
   ("WithStyle", mkMeth (Some TStr) [SAssign "Style" (EAddr)] RSelf);
   ("WithExplode", mkMeth (Some TBool) [SAssign "Explode" (EAddr)] RSelf);
   ("WithAllowReserved", mkMeth (Some TBool) [SAssign "AllowReserved" (EAddr)] RSelf);
   ("WithSchema", mkMeth (Some (TNamed "SchemaOrRef")) [SAssign "Schema" (EAddr)] RSelf);
   ("SchemaEns", mkMeth (None) [SIfNil "Schema" "Schema" (ENew "SchemaOrRef")] (RField "Schema"));
   ("WithContent", mkMeth (Some (TMap (TNamed "MediaType"))) [SAssign "Content" (EVal)] RSelf);
   ("WithContentItem", mkMeth (Some (TNamed "MediaType")) [SIfNil "Content" "Content" (EMake (TMap (TNamed "MediaType"))); SItem "Content"] RSelf);
   ("WithExample", mkMeth (Some TAny) [SAssign "Example" (EAddr)] RSelf);
   ("WithExamples", mkMeth (Some (TMap (TNamed "ExampleOrRef"))) [SAssign "Examples" (EVal)] RSelf);
   ("WithExamplesItem", mkMeth (Some (TNamed "ExampleOrRef")) [SIfNil "Examples" "Examples" (EMake (TMap (TNamed "ExampleOrRef"))); SItem "Examples"] RSelf);
   ("WithSchemaXORContent", mkMeth (Some (TNamed "SchemaXORContent")) [SAssign "SchemaXORContent" (EAddr)] RSelf);
   ("SchemaXORContentEns", mkMeth (None) [SIfNil "SchemaXORContent" "SchemaXORContent" (ENew "SchemaXORContent")] (RField "SchemaXORContent"));
   ("WithLocation", mkMeth (Some (TNamed "ParameterLocation")) [SAssign "Location" (EAddr)] RSelf);
   ("LocationEns", mkMeth (None) [SIfNil "Location" "Location" (ENew "ParameterLocation")] (RField "Location"));
   ("WithMapOfAnything", mkMeth (Some (TMap TAny)) [SAssign "MapOfAnything" (EVal)] RSelf);
   ("WithMapOfAnythingItem", mkMeth (Some TAny) [SIfNil "MapOfAnything" "MapOfAnything" (EMake (TMap TAny)); SItem "MapOfAnything"] RSelf)].

(* openapi3/entities.go: methods between 1707 and 1996 *)
Definition b30_Schema : list (string * meth) :=
  [("WithTitle", mkMeth (Some TStr) [SAssign "Title" (EAddr)] RSelf);
   ("WithMultipleOf", mkMeth (Some TFloat) [SAssign "MultipleOf" (EAddr)] RSelf);
   ("WithMaximum", mkMeth (Some TFloat) [SAssign "Maximum" (EAddr)] RSelf);
   ("WithExclusiveMaximum", mkMeth (Some TBool) [SAssign "ExclusiveMaximum" (EAddr)] RSelf);
   ("WithMinimum", mkMeth (Some TFloat) [SAssign "Minimum" (EAddr)] RSelf);
   ("WithExclusiveMinimum", mkMeth (Some TBool) [SAssign "ExclusiveMinimum" (EAddr)] RSelf);
   ("WithMaxLength", mkMeth (Some TInt) [SAssign "MaxLength" (EAddr)] RSelf);
   ("WithMinLength", mkMeth (Some TInt) [SAssign "MinLength" (EAddr)] RSelf);
   ("WithPattern", mkMeth (Some TStr) [SAssign "Pattern" (EAddr)] RSelf);
   ("WithMaxItems", mkMeth (Some TInt) [SAssign "MaxItems" (EAddr)] RSelf);
   ("WithMinItems", mkMeth (Some TInt) [SAssign "MinItems" (EAddr)] RSelf);
   ("WithUniqueItems", mkMeth (Some TBool) [SAssign "UniqueItems" (EAddr)] RSelf);
   ("WithMaxProperties", mkMeth (Some TInt) [SAssign "MaxProperties" (EAddr)] RSelf);
   ("WithMinProperties", mkMeth (Some TInt) [SAssign "MinProperties" (EAddr)] RSelf);
   ("WithRequired", mkMeth (Some (TArr TStr)) [SAssign "Required" (EVal)] RSelf);
   ("WithEnum", mkMeth (Some (TArr TAny)) [SAssign "Enum" (EVal)] RSelf);
   ("WithType", mkMeth (Some (TNamed "SchemaType")) [SAssign "Type" (EAddr)] RSelf);
   ("WithNot", mkMeth (Some (TNamed "SchemaOrRef")) [SAssign "Not" (EAddr)] RSelf);
   ("NotEns", mkMeth (None) [SIfNil "Not" "Not" (ENew "SchemaOrRef")] (RField "Not"));
   ("WithAllOf", mkMeth (Some (TArr (TNamed "SchemaOrRef"))) [SAssign "AllOf" (EVal)] RSelf);
   ("WithOneOf", mkMeth (Some (TArr (TNamed "SchemaOrRef"))) [SAssign "OneOf" (EVal)] RSelf);
   ("WithAnyOf", mkMeth (Some (TArr (TNamed "SchemaOrRef"))) [SAssign "AnyOf" (EVal)] RSelf);
   ("WithItems", mkMeth (Some (TNamed "SchemaOrRef")) [SAssign "Items" (EAddr)] RSelf);
   ("ItemsEns", mkMeth (None) [SIfNil "Items" "Items" (ENew "SchemaOrRef")] (RField "Items"));
   ("WithProperties", mkMeth (Some (TMap (TNamed "SchemaOrRef"))) [SAssign "Properties" (EVal)] RSelf);
   ("WithPropertiesItem", mkMeth (Some (TNamed "SchemaOrRef")) [SIfNil "Properties" "Properties" (EMake (TMap (TNamed "SchemaOrRef"))); SItem "Properties"] RSelf);
   ("WithAdditionalProperties", mkMeth (Some (TNamed "SchemaAdditionalProperties")) [SAssign "AdditionalProperties" (EAddr)] RSelf);
   ("AdditionalPropertiesEns", mkMeth (None) [SIfNil "AdditionalProperties" "AdditionalProperties" (ENew "SchemaAdditionalProperties")] (RField "AdditionalProperties"));
   ("WithDescription", mkMeth (Some TStr) [SAssign "Description" (EAddr)] RSelf);
   ("WithFormat", mkMeth (Some TStr) [SAssign "Format" (EAddr)] RSelf);
   ("WithDefault", mkMeth (Some TAny) [SAssign "Default" (EAddr)] RSelf);
   ("WithNullable", mkMeth (Some TBool) [SAssign "Nullable" (EAddr)] RSelf);
   ("WithDiscriminator", mkMeth (Some (TNamed "Discriminator")) [SAssign "Discriminator" (EAddr)] RSelf);
   ("DiscriminatorEns", mkMeth (None) [SIfNil "Discriminator" "Discriminator" (ENew "Discriminator")] (RField "Discriminator"));
   ("WithReadOnly", mkMeth (Some TBool) [SAssign "ReadOnly" (EAddr)] RSelf);
   ("WithWriteOnly", mkMeth (Some TBool) [SAssign "WriteOnly" (EAddr)] RSelf);
   ("WithExample", mkMeth (Some TAny) [SAssign "Example" (EAddr)] RSelf);
   ("WithExternalDocs", mkMeth (Some (TNamed "ExternalDocumentation")) [SAssign "ExternalDocs" (EAddr)] RSelf);
   ("ExternalDocsEns", mkMeth (None) [SIfNil "ExternalDocs" "ExternalDocs" (ENew "ExternalDocumentation")] (RField "ExternalDocs"));
   ("WithDeprecated", mkMeth (Some TBool) [SAssign "Deprecated" (EAddr)] RSelf);
   ("WithXML", mkMeth (Some (TNamed "XML")) [SAssign "XML" (EAddr)] RSelf);
   ("XMLEns", mkMeth (None) [SIfNil "XML" "XML" (ENew "XML")] (RField "XML"));
   ("WithMapOfAnything", mkMeth (Some (TMap TAny)) [SAssign "MapOfAnything" (EVal)] RSelf);
   ("WithMapOfAnythingItem", mkMeth (Some TAny) [SIfNil "MapOfAnything" "MapOfAnything" (EMake (TMap TAny)); SItem "MapOfAnything"] RSelf)].

(* openapi3/entities.go: methods between 2127 and 2130 *)
Definition b30_SchemaReference : list (string * meth) :=
  [("WithRef", mkMeth (Some TStr) [SAssign "Ref" (EVal)] RSelf)].

(* openapi3/entities.go: methods between 2192 and 2219 *)
Definition b30_SchemaOrRef : list (string * meth) :=
  [("WithSchema", mkMeth (Some (TNamed "Schema")) [SAssign "Schema" (EAddr)] RSelf);
   ("SchemaEns", mkMeth (None) [SIfNil "Schema" "Schema" (ENew "Schema")] (RField "Schema"));
   ("WithSchemaReference", mkMeth (Some (TNamed "SchemaReference")) [SAssign "SchemaReference" (EAddr)] RSelf);
   ("SchemaReferenceEns", mkMeth (None) [SIfNil "SchemaReference" "SchemaReference" (ENew "SchemaReference")] (RField "SchemaReference"))].

(* openapi3/entities.go: methods between 2263 and 2281 *)
Definition b30_SchemaAdditionalProperties : list (string * meth) :=
  [("WithSchemaOrRef", mkMeth (Some (TNamed "SchemaOrRef")) [SAssign "SchemaOrRef" (EAddr)] RSelf);
   ("SchemaOrRefEns", mkMeth (None) [SIfNil "SchemaOrRef" "SchemaOrRef" (ENew "SchemaOrRef")] (RField "SchemaOrRef"));
   ("WithBool", mkMeth (Some TBool) [SAssign "Bool" (EAddr)] RSelf)].

(* openapi3/entities.go: methods between 2325 and 2345 *)
Definition b30_Discriminator : list (string * meth) :=
  [("WithPropertyName", mkMeth (Some TStr) [SAssign "PropertyName" (EVal)] RSelf);
   ("WithMapping", mkMeth (Some (TMap TStr)) [SAssign "Mapping" (EVal)] RSelf);
   ("WithMappingItem", mkMeth (Some TStr) [SIfNil "Mapping" "Mapping" (EMake (TMap TStr)); SItem "Mapping"] RSelf)].

(* openapi3/entities.go: methods between 2393 and 2437 *)
Definition b30_XML : list (string * meth) :=
  [("WithName", mkMeth (Some TStr) [SAssign "Name" (EAddr)] RSelf);
   ("WithNamespace", mkMeth (Some TStr) [SAssign "Namespace" (EAddr)] RSelf);
   ("WithPrefix", mkMeth (Some TStr) [SAssign "Prefix" (EAddr)] RSelf);
   ("WithAttribute", mkMeth (Some TBool) [SAssign "Attribute" (EAddr)] RSelf);
   ("WithWrapped", mkMeth (Some TBool) [SAssign "Wrapped" (EAddr)] RSelf);
   ("WithMapOfAnything", mkMeth (Some (TMap TAny)) [SAssign "MapOfAnything" (EVal)] RSelf);
   ("WithMapOfAnythingItem", mkMeth (Some TAny) [SIfNil "MapOfAnything" "MapOfAnything" (EMake (TMap TAny)); SItem "MapOfAnything"] RSelf)].

(* openapi3/entities.go: methods between 2526 and 2595 *)
Definition b30_MediaType : list (string * meth) :=
  [("WithSchema", mkMeth (Some (TNamed "SchemaOrRef")) [SAssign "Schema" (EAddr)] RSelf);
   ("SchemaEns", mkMeth (None) [SIfNil "Schema" "Schema" (ENew "SchemaOrRef")] (RField "Schema"));
   ("WithExample", mkMeth (Some TAny) [SAssign "Example" (EAddr)] RSelf);
   ("WithExamples", mkMeth (Some (TMap (TNamed "ExampleOrRef"))) [SAssign "Examples" (EVal)] RSelf);
   ("WithExamplesItem", mkMeth (Some (TNamed "ExampleOrRef")) [SIfNil "Examples" "Examples" (EMake (TMap (TNamed "ExampleOrRef"))); SItem "Examples"] RSelf);
   ("WithEncoding", mkMeth (Some (TMap (TNamed "Encoding"))) [SAssign "Encoding" (EVal)] RSelf);
   ("WithEncodingItem", mkMeth (Some (TNamed "Encoding")) [SIfNil "Encoding" "Encoding" (EMake (TMap (TNamed "Encoding"))); SItem "Encoding"] RSelf);
   ("WithMapOfAnything", mkMeth (Some (TMap TAny)) [SAssign "MapOfAnything" (EVal)] RSelf);
   ("WithMapOfAnythingItem", mkMeth (Some TAny) [SIfNil "MapOfAnything" "MapOfAnything" (EMake (TMap TAny)); SItem "MapOfAnything"] RSelf)].

(* openapi3/entities.go: methods between 2688 and 2691 *)
Definition b30_ExampleReference : list (string * meth) :=
  [("WithRef", mkMeth (Some TStr) [SAssign "Ref" (EVal)] RSelf)].

(* openapi3/entities.go: methods between 2756 and 2794 *)
Definition b30_Example : list (string * meth) :=
  [("WithSummary", mkMeth (Some TStr) [SAssign "Summary" (EAddr)] RSelf);
   ("WithDescription", mkMeth (Some TStr) [SAssign "Description" (EAddr)] RSelf);
   ("WithValue", mkMeth (Some TAny) [SAssign "Value" (EAddr)] RSelf);
   ("WithExternalValue", mkMeth (Some TStr) [SAssign "ExternalValue" (EAddr)] RSelf);
   ("WithMapOfAnything", mkMeth (Some (TMap TAny)) [SAssign "MapOfAnything" (EVal)] RSelf);
   ("WithMapOfAnythingItem", mkMeth (Some TAny) [SIfNil "MapOfAnything" "MapOfAnything" (EMake (TMap TAny)); SItem "MapOfAnything"] RSelf)].

(* openapi3/entities.go: methods between 2886 and 2913 *)
Definition b30_ExampleOrRef : list (string * meth) :=
  [("WithExampleReference", mkMeth (Some (TNamed "ExampleReference")) [SAssign "ExampleReference" (EAddr)] RSelf);
   ("ExampleReferenceEns", mkMeth (None) [SIfNil "ExampleReference" "ExampleReference" (ENew "ExampleReference")] (RField "ExampleReference"));
   ("WithExample", mkMeth (Some (TNamed "Example")) [SAssign "Example" (EAddr)] RSelf);
   ("ExampleEns", mkMeth (None) [SIfNil "Example" "Example" (ENew "Example")] (RField "Example"))].

(* openapi3/entities.go: methods between 2960 and 2998 *)
Definition b30_Encoding : list (string * meth) :=
  [("WithContentType", mkMeth (Some TStr) [SAssign "ContentType" (EAddr)] RSelf);
   ("WithHeaders", mkMeth (Some (TMap (TNamed "Header"))) [SAssign "Headers" (EVal)] RSelf);
   ("WithHeadersItem", mkMeth (Some (TNamed "Header")) [SIfNil "Headers" "Headers" (EMake (TMap (TNamed "Header"))); SItem "Headers"] RSelf);
   ("WithStyle", mkMeth (Some (TNamed "EncodingStyle")) [SAssign "Style" (EAddr)] RSelf);
   ("WithExplode", mkMeth (Some TBool) [SAssign "Explode" (EAddr)] RSelf);
   ("WithAllowReserved", mkMeth (Some TBool) [SAssign "AllowReserved" (EAddr)] RSelf)].

(* openapi3/entities.go: methods between 3063 and 3168 *)
Definition b30_Header : list (string * meth) :=
  [("WithDescription", mkMeth (Some TStr) [SAssign "Description" (EAddr)] RSelf);
   ("WithRequired", mkMeth (Some TBool) [SAssign "Required" (EAddr)] RSelf);
   ("WithDeprecated", mkMeth (Some TBool) [SAssign "Deprecated" (EAddr)] RSelf);
   ("WithAllowEmptyValue", mkMeth (Some TBool) [SAssign "AllowEmptyValue" (EAddr)] RSelf);
   ("WithExplode", mkMeth (Some TBool) [SAssign "Explode" (EAddr)] RSelf);
   ("WithAllowReserved", mkMeth (Some TBool) [SAssign "AllowReserved" (EAddr)] RSelf);
   ("WithSchema", mkMeth (Some (TNamed "SchemaOrRef")) [SAssign "Schema" (EAddr)] RSelf);
   ("SchemaEns", mkMeth (None) [SIfNil "Schema" "Schema" (ENew "SchemaOrRef")] (RField "Schema"));
   ("WithContent", mkMeth (Some (TMap (TNamed "MediaType"))) [SAssign "Content" (EVal)] RSelf);
   ("WithContentItem", mkMeth (Some (TNamed "MediaType")) [SIfNil "Content" "Content" (EMake (TMap (TNamed "MediaType"))); SItem "Content"] RSelf);
   ("WithExample", mkMeth (Some TAny) [SAssign "Example" (EAddr)] RSelf);
   ("WithExamples", mkMeth (Some (TMap (TNamed "ExampleOrRef"))) [SAssign "Examples" (EVal)] RSelf);
   ("WithExamplesItem", mkMeth (Some (TNamed "ExampleOrRef")) [SIfNil "Examples" "Examples" (EMake (TMap (TNamed "ExampleOrRef"))); SItem "Examples"] RSelf);
   ("WithMapOfAnything", mkMeth (Some (TMap TAny)) [SAssign "MapOfAnything" (EVal)] RSelf);
   ("WithMapOfAnythingItem", mkMeth (Some TAny) [SIfNil "MapOfAnything" "MapOfAnything" (EMake (TMap TAny)); SItem "MapOfAnything"] RSelf)].

(* openapi3/entities.go: methods between 3277 and 3280 *)
Definition b30_HasSchema : list (string * meth) :=
  [("WithSchema", mkMeth (Some TAny) [SAssign "Schema" (EVal)] RSelf)].

(* openapi3/entities.go: methods between 3327 and 3330 *)
Definition b30_HasContent : list (string * meth) :=
  [("WithContent", mkMeth (Some TAny) [SAssign "Content" (EVal)] RSelf)].

(* openapi3/entities.go: methods between 3376 and 3403 *)
Definition b30_SchemaXORContent : list (string * meth) :=
  [("WithHasSchema", mkMeth (Some (TNamed "HasSchema")) [SAssign "HasSchema" (EAddr)] RSelf);
   ("HasSchemaEns", mkMeth (None) [SIfNil "HasSchema" "HasSchema" (ENew "HasSchema")] (RField "HasSchema"));
   ("WithHasContent", mkMeth (Some (TNamed "HasContent")) [SAssign "HasContent" (EAddr)] RSelf);
   ("HasContentEns", mkMeth (None) [SIfNil "HasContent" "HasContent" (ENew "HasContent")] (RField "HasContent"))].

(* openapi3/entities.go: methods between 3453 and 3462 *)
Definition b30_SchemaXORContentNot : list (string * meth) :=
  [("WithSchema", mkMeth (Some TAny) [SAssign "Schema" (EVal)] RSelf);
   ("WithContent", mkMeth (Some TAny) [SAssign "Content" (EVal)] RSelf)].

(* openapi3/entities.go: methods between 3510 and 3513 *)
Definition b30_PathParameter : list (string * meth) :=
  [("WithStyle", mkMeth (Some (TNamed "PathParameterStyle")) [SAssign "Style" (EAddr)] RSelf)].

(* openapi3/entities.go: methods between 3580 and 3583 *)
Definition b30_QueryParameter : list (string * meth) :=
  [("WithStyle", mkMeth (Some (TNamed "QueryParameterStyle")) [SAssign "Style" (EAddr)] RSelf)].

(* openapi3/entities.go: methods between 3717 and 3774 *)
Definition b30_ParameterLocation : list (string * meth) :=
  [("WithPathParameter", mkMeth (Some (TNamed "PathParameter")) [SAssign "PathParameter" (EAddr)] RSelf);
   ("PathParameterEns", mkMeth (None) [SIfNil "PathParameter" "PathParameter" (ENew "PathParameter")] (RField "PathParameter"));
   ("WithQueryParameter", mkMeth (Some (TNamed "QueryParameter")) [SAssign "QueryParameter" (EAddr)] RSelf);
   ("QueryParameterEns", mkMeth (None) [SIfNil "QueryParameter" "QueryParameter" (ENew "QueryParameter")] (RField "QueryParameter"));
   ("WithHeaderParameter", mkMeth (Some (TNamed "HeaderParameter")) [SAssign "HeaderParameter" (EAddr)] RSelf);
   ("HeaderParameterEns", mkMeth (None) [SIfNil "HeaderParameter" "HeaderParameter" (ENew "HeaderParameter")] (RField "HeaderParameter"));
   ("WithCookieParameter", mkMeth (Some (TNamed "CookieParameter")) [SAssign "CookieParameter" (EAddr)] RSelf);
   ("CookieParameterEns", mkMeth (None) [SIfNil "CookieParameter" "CookieParameter" (ENew "CookieParameter")] (RField "CookieParameter"))].

(* openapi3/entities.go: methods between 3834 and 3861 *)
Definition b30_ParameterOrRef : list (string * meth) :=
  [("WithParameterReference", mkMeth (Some (TNamed "ParameterReference")) [SAssign "ParameterReference" (EAddr)] RSelf);
   ("ParameterReferenceEns", mkMeth (None) [SIfNil "ParameterReference" "ParameterReference" (ENew "ParameterReference")] (RField "ParameterReference"));
   ("WithParameter", mkMeth (Some (TNamed "Parameter")) [SAssign "Parameter" (EAddr)] RSelf);
   ("ParameterEns", mkMeth (None) [SIfNil "Parameter" "Parameter" (ENew "Parameter")] (RField "Parameter"))].

(* openapi3/entities.go: methods between 3916 and 4031 *)
Definition b30_Operation : list (string * meth) :=
  [("WithTags", mkMeth (Some (TArr TStr)) [SAssign "Tags" (EVal)] RSelf);
   ("WithSummary", mkMeth (Some TStr) [SAssign "Summary" (EAddr)] RSelf);
   ("WithDescription", mkMeth (Some TStr) [SAssign "Description" (EAddr)] RSelf);
   ("WithExternalDocs", mkMeth (Some (TNamed "ExternalDocumentation")) [SAssign "ExternalDocs" (EAddr)] RSelf);
   ("ExternalDocsEns", mkMeth (None) [SIfNil "ExternalDocs" "ExternalDocs" (ENew "ExternalDocumentation")] (RField "ExternalDocs"));
   ("WithID", mkMeth (Some TStr) [SAssign "ID" (EAddr)] RSelf);
   ("WithParameters", mkMeth (Some (TArr (TNamed "ParameterOrRef"))) [SAssign "Parameters" (EVal)] RSelf);
   ("WithRequestBody", mkMeth (Some (TNamed "RequestBodyOrRef")) [SAssign "RequestBody" (EAddr)] RSelf);
   ("RequestBodyEns", mkMeth (None) [SIfNil "RequestBody" "RequestBody" (ENew "RequestBodyOrRef")] (RField "RequestBody"));
   ("WithResponses", mkMeth (Some (TNamed "Responses")) [SAssign "Responses" (EVal)] RSelf);
   ("WithCallbacks", mkMeth (Some (TMap (TNamed "CallbackOrRef"))) [SAssign "Callbacks" (EVal)] RSelf);
   ("WithCallbacksItem", mkMeth (Some (TNamed "CallbackOrRef")) [SIfNil "Callbacks" "Callbacks" (EMake (TMap (TNamed "CallbackOrRef"))); SItem "Callbacks"] RSelf);
   ("WithDeprecated", mkMeth (Some TBool) [SAssign "Deprecated" (EAddr)] RSelf);
   ("WithSecurity", mkMeth (Some (TArr (TMap (TArr TStr)))) [SAssign "Security" (EVal)] RSelf);
   ("WithServers", mkMeth (Some (TArr (TNamed "Server"))) [SAssign "Servers" (EVal)] RSelf);
   ("WithMapOfAnything", mkMeth (Some (TMap TAny)) [SAssign "MapOfAnything" (EVal)] RSelf);
   ("WithMapOfAnythingItem", mkMeth (Some TAny) [SIfNil "MapOfAnything" "MapOfAnything" (EMake (TMap TAny)); SItem "MapOfAnything"] RSelf)].

(* openapi3/entities.go: methods between 4135 and 4138 *)
Definition b30_RequestBodyReference : list (string * meth) :=
  [("WithRef", mkMeth (Some TStr) [SAssign "Ref" (EVal)] RSelf)].

(* openapi3/entities.go: methods between 4202 and 4245 *)
Definition b30_RequestBody : list (string * meth) :=
  [("WithDescription", mkMeth (Some TStr) [SAssign "Description" (EAddr)] RSelf);
   ("WithContent", mkMeth (Some (TMap (TNamed "MediaType"))) [SAssign "Content" (EVal)] RSelf);
   ("WithContentItem", mkMeth (Some (TNamed "MediaType")) [SIfNil "Content" "Content" (EMake (TMap (TNamed "MediaType"))); SItem "Content"] RSelf);
   ("WithRequired", mkMeth (Some TBool) [SAssign "Required" (EAddr)] RSelf);
   ("WithMapOfAnything", mkMeth (Some (TMap TAny)) [SAssign "MapOfAnything" (EVal)] RSelf);
   ("WithMapOfAnythingItem", mkMeth (Some TAny) [SIfNil "MapOfAnything" "MapOfAnything" (EMake (TMap TAny)); SItem "MapOfAnything"] RSelf)].

(* openapi3/entities.go: methods between 4339 and 4366 *)
Definition b30_RequestBodyOrRef : list (string * meth) :=
  [("WithRequestBodyReference", mkMeth (Some (TNamed "RequestBodyReference")) [SAssign "RequestBodyReference" (EAddr)] RSelf);
   ("RequestBodyReferenceEns", mkMeth (None) [SIfNil "RequestBodyReference" "RequestBodyReference" (ENew "RequestBodyReference")] (RField "RequestBodyReference"));
   ("WithRequestBody", mkMeth (Some (TNamed "RequestBody")) [SAssign "RequestBody" (EAddr)] RSelf);
   ("RequestBodyEns", mkMeth (None) [SIfNil "RequestBody" "RequestBody" (ENew "RequestBody")] (RField "RequestBody"))].

(* openapi3/entities.go: methods between 4411 and 4457 *)
Definition b30_Responses : list (string * meth) :=
  [("WithDefault", mkMeth (Some (TNamed "ResponseOrRef")) [SAssign "Default" (EAddr)] RSelf);
   ("DefaultEns", mkMeth (None) [SIfNil "Default" "Default" (ENew "ResponseOrRef")] (RField "Default"));
   ("WithMapOfResponseOrRefValues", mkMeth (Some (TMap (TNamed "ResponseOrRef"))) [SAssign "MapOfResponseOrRefValues" (EVal)] RSelf);
   ("WithMapOfResponseOrRefValuesItem", mkMeth (Some (TNamed "ResponseOrRef")) [SIfNil "MapOfResponseOrRefValues" "MapOfResponseOrRefValues" (EMake (TMap (TNamed "ResponseOrRef"))); SItem "MapOfResponseOrRefValues"] RSelf);
   ("WithMapOfAnything", mkMeth (Some (TMap TAny)) [SAssign "MapOfAnything" (EVal)] RSelf);
   ("WithMapOfAnythingItem", mkMeth (Some TAny) [SIfNil "MapOfAnything" "MapOfAnything" (EMake (TMap TAny)); SItem "MapOfAnything"] RSelf)].

(* openapi3/entities.go: methods between 4557 and 4560 *)
Definition b30_ResponseReference : list (string * meth) :=
  [("WithRef", mkMeth (Some TStr) [SAssign "Ref" (EVal)] RSelf)].

(* openapi3/entities.go: methods between 4625 and 4696 *)
Definition b30_Response : list (string * meth) :=
  [("WithDescription", mkMeth (Some TStr) [SAssign "Description" (EVal)] RSelf);
   ("WithHeaders", mkMeth (Some (TMap (TNamed "HeaderOrRef"))) [SAssign "Headers" (EVal)] RSelf);
   ("WithHeadersItem", mkMeth (Some (TNamed "HeaderOrRef")) [SIfNil "Headers" "Headers" (EMake (TMap (TNamed "HeaderOrRef"))); SItem "Headers"] RSelf);
   ("WithContent", mkMeth (Some (TMap (TNamed "MediaType"))) [SAssign "Content" (EVal)] RSelf);
   ("WithContentItem", mkMeth (Some (TNamed "MediaType")) [SIfNil "Content" "Content" (EMake (TMap (TNamed "MediaType"))); SItem "Content"] RSelf);
   ("WithLinks", mkMeth (Some (TMap (TNamed "LinkOrRef"))) [SAssign "Links" (EVal)] RSelf);
   ("WithLinksItem", mkMeth (Some (TNamed "LinkOrRef")) [SIfNil "Links" "Links" (EMake (TMap (TNamed "LinkOrRef"))); SItem "Links"] RSelf);
   ("WithMapOfAnything", mkMeth (Some (TMap TAny)) [SAssign "MapOfAnything" (EVal)] RSelf);
   ("WithMapOfAnythingItem", mkMeth (Some TAny) [SIfNil "MapOfAnything" "MapOfAnything" (EMake (TMap TAny)); SItem "MapOfAnything"] RSelf)].

(* openapi3/entities.go: methods between 4792 and 4795 *)
Definition b30_HeaderReference : list (string * meth) :=
  [("WithRef", mkMeth (Some TStr) [SAssign "Ref" (EVal)] RSelf)].

(* openapi3/entities.go: methods between 4857 and 4884 *)
Definition b30_HeaderOrRef : list (string * meth) :=
  [("WithHeaderReference", mkMeth (Some (TNamed "HeaderReference")) [SAssign "HeaderReference" (EAddr)] RSelf);
   ("HeaderReferenceEns", mkMeth (None) [SIfNil "HeaderReference" "HeaderReference" (ENew "HeaderReference")] (RField "HeaderReference"));
   ("WithHeader", mkMeth (Some (TNamed "Header")) [SAssign "Header" (EAddr)] RSelf);
   ("HeaderEns", mkMeth (None) [SIfNil "Header" "Header" (ENew "Header")] (RField "Header"))].

(* openapi3/entities.go: methods between 4929 and 4932 *)
Definition b30_LinkReference : list (string * meth) :=
  [("WithRef", mkMeth (Some TStr) [SAssign "Ref" (EVal)] RSelf)].

(* openapi3/entities.go: methods between 4999 and 5069 *)
Definition b30_Link : list (string * meth) :=
  [("WithOperationID", mkMeth (Some TStr) [SAssign "OperationID" (EAddr)] RSelf);
   ("WithOperationRef", mkMeth (Some TStr) [SAssign "OperationRef" (EAddr)] RSelf);
   ("WithParameters", mkMeth (Some (TMap TAny)) [SAssign "Parameters" (EVal)] RSelf);
   ("WithParametersItem", mkMeth (Some TAny) [SIfNil "Parameters" "Parameters" (EMake (TMap TAny)); SItem "Parameters"] RSelf);
   ("WithRequestBody", mkMeth (Some TAny) [SAssign "RequestBody" (EAddr)] RSelf);
   ("WithDescription", mkMeth (Some TStr) [SAssign "Description" (EAddr)] RSelf);
   ("WithServer", mkMeth (Some (TNamed "Server")) [SAssign "Server" (EAddr)] RSelf);
   ("ServerEns", mkMeth (None) [SIfNil "Server" "Server" (ENew "Server")] (RField "Server"));
   ("WithMapOfAnything", mkMeth (Some (TMap TAny)) [SAssign "MapOfAnything" (EVal)] RSelf);
   ("WithMapOfAnythingItem", mkMeth (Some TAny) [SIfNil "MapOfAnything" "MapOfAnything" (EMake (TMap TAny)); SItem "MapOfAnything"] RSelf)].

(* openapi3/entities.go: methods between 5171 and 5180 *)
Definition b30_LinkNot : list (string * meth) :=
  [("WithOperationID", mkMeth (Some TAny) [SAssign "OperationID" (EVal)] RSelf);
   ("WithOperationRef", mkMeth (Some TAny) [SAssign "OperationRef" (EVal)] RSelf)].

(* openapi3/entities.go: methods between 5225 and 5252 *)
Definition b30_LinkOrRef : list (string * meth) :=
  [("WithLinkReference", mkMeth (Some (TNamed "LinkReference")) [SAssign "LinkReference" (EAddr)] RSelf);
   ("LinkReferenceEns", mkMeth (None) [SIfNil "LinkReference" "LinkReference" (ENew "LinkReference")] (RField "LinkReference"));
   ("WithLink", mkMeth (Some (TNamed "Link")) [SAssign "Link" (EAddr)] RSelf);
   ("LinkEns", mkMeth (None) [SIfNil "Link" "Link" (ENew "Link")] (RField "Link"))].

(* openapi3/entities.go: methods between 5296 and 5323 *)
Definition b30_ResponseOrRef : list (string * meth) :=
  [("WithResponseReference", mkMeth (Some (TNamed "ResponseReference")) [SAssign "ResponseReference" (EAddr)] RSelf);
   ("ResponseReferenceEns", mkMeth (None) [SIfNil "ResponseReference" "ResponseReference" (ENew "ResponseReference")] (RField "ResponseReference"));
   ("WithResponse", mkMeth (Some (TNamed "Response")) [SAssign "Response" (EAddr)] RSelf);
   ("ResponseEns", mkMeth (None) [SIfNil "Response" "Response" (ENew "Response")] (RField "Response"))].

(* openapi3/entities.go: methods between 5368 and 5371 *)
Definition b30_CallbackReference : list (string * meth) :=
  [("WithRef", mkMeth (Some TStr) [SAssign "Ref" (EVal)] RSelf)].

(* openapi3/entities.go: methods between 5433 and 5464 *)
Definition b30_Callback : list (string * meth) :=
  [("WithMapOfAnything", mkMeth (Some (TMap TAny)) [SAssign "MapOfAnything" (EVal)] RSelf);
   ("WithMapOfAnythingItem", mkMeth (Some TAny) [SIfNil "MapOfAnything" "MapOfAnything" (EMake (TMap TAny)); SItem "MapOfAnything"] RSelf);
   ("WithAdditionalProperties", mkMeth (Some (TMap (TNamed "PathItem"))) [SAssign "AdditionalProperties" (EVal)] RSelf);
   ("WithAdditionalPropertiesItem", mkMeth (Some (TNamed "PathItem")) [SIfNil "AdditionalProperties" "AdditionalProperties" (EMake (TMap (TNamed "PathItem"))); SItem "AdditionalProperties"] RSelf)].

(* openapi3/entities.go: methods between 5532 and 5559 *)
Definition b30_CallbackOrRef : list (string * meth) :=
  [("WithCallbackReference", mkMeth (Some (TNamed "CallbackReference")) [SAssign "CallbackReference" (EAddr)] RSelf);
   ("CallbackReferenceEns", mkMeth (None) [SIfNil "CallbackReference" "CallbackReference" (ENew "CallbackReference")] (RField "CallbackReference"));
   ("WithCallback", mkMeth (Some (TNamed "Callback")) [SAssign "Callback" (EAddr)] RSelf);
   ("CallbackEns", mkMeth (None) [SIfNil "Callback" "Callback" (ENew "Callback")] (RField "Callback"))].

(* openapi3/entities.go: methods between 5603 and 5634 *)
Definition b30_Paths : list (string * meth) :=
  [("WithMapOfPathItemValues", mkMeth (Some (TMap (TNamed "PathItem"))) [SAssign "MapOfPathItemValues" (EVal)] RSelf);
   ("WithMapOfPathItemValuesItem", mkMeth (Some (TNamed "PathItem")) [SIfNil "MapOfPathItemValues" "MapOfPathItemValues" (EMake (TMap (TNamed "PathItem"))); SItem "MapOfPathItemValues"] RSelf);
   ("WithMapOfAnything", mkMeth (Some (TMap TAny)) [SAssign "MapOfAnything" (EVal)] RSelf);
   ("WithMapOfAnythingItem", mkMeth (Some TAny) [SIfNil "MapOfAnything" "MapOfAnything" (EMake (TMap TAny)); SItem "MapOfAnything"] RSelf)].

(* openapi3/entities.go: methods between 5722 and 5871 *)
Definition b30_Components : list (string * meth) :=
  [("WithSchemas", mkMeth (Some (TNamed "ComponentsSchemas")) [SAssign "Schemas" (EAddr)] RSelf);
   ("SchemasEns", mkMeth (None) [SIfNil "Schemas" "Schemas" (ENew "ComponentsSchemas")] (RField "Schemas"));
   ("WithResponses", mkMeth (Some (TNamed "ComponentsResponses")) [SAssign "Responses" (EAddr)] RSelf);
   ("ResponsesEns", mkMeth (None) [SIfNil "Responses" "Responses" (ENew "ComponentsResponses")] (RField "Responses"));
   ("WithParameters", mkMeth (Some (TNamed "ComponentsParameters")) [SAssign "Parameters" (EAddr)] RSelf);
   ("ParametersEns", mkMeth (None) [SIfNil "Parameters" "Parameters" (ENew "ComponentsParameters")] (RField "Parameters"));
   ("WithExamples", mkMeth (Some (TNamed "ComponentsExamples")) [SAssign "Examples" (EAddr)] RSelf);
   ("ExamplesEns", mkMeth (None) [SIfNil "Examples" "Examples" (ENew "ComponentsExamples")] (RField "Examples"));
   ("WithRequestBodies", mkMeth (Some (TNamed "ComponentsRequestBodies")) [SAssign "RequestBodies" (EAddr)] RSelf);
   ("RequestBodiesEns", mkMeth (None) [SIfNil "RequestBodies" "RequestBodies" (ENew "ComponentsRequestBodies")] (RField "RequestBodies"));
   ("WithHeaders", mkMeth (Some (TNamed "ComponentsHeaders")) [SAssign "Headers" (EAddr)] RSelf);
   ("HeadersEns", mkMeth (None) [SIfNil "Headers" "Headers" (ENew "ComponentsHeaders")] (RField "Headers"));
   ("WithSecuritySchemes", mkMeth (Some (TNamed "ComponentsSecuritySchemes")) [SAssign "SecuritySchemes" (EAddr)] RSelf);
   ("SecuritySchemesEns", mkMeth (None) [SIfNil "SecuritySchemes" "SecuritySchemes" (ENew "ComponentsSecuritySchemes")] (RField "SecuritySchemes"));
   ("WithLinks", mkMeth (Some (TNamed "ComponentsLinks")) [SAssign "Links" (EAddr)] RSelf);
   ("LinksEns", mkMeth (None) [SIfNil "Links" "Links" (ENew "ComponentsLinks")] (RField "Links"));
   ("WithCallbacks", mkMeth (Some (TNamed "ComponentsCallbacks")) [SAssign "Callbacks" (EAddr)] RSelf);
   ("CallbacksEns", mkMeth (None) [SIfNil "Callbacks" "Callbacks" (ENew "ComponentsCallbacks")] (RField "Callbacks"));
   ("WithMapOfAnything", mkMeth (Some (TMap TAny)) [SAssign "MapOfAnything" (EVal)] RSelf);
   ("WithMapOfAnythingItem", mkMeth (Some TAny) [SIfNil "MapOfAnything" "MapOfAnything" (EMake (TMap TAny)); SItem "MapOfAnything"] RSelf)].

(* openapi3/entities.go: methods between 5960 and 5974 *)
Definition b30_ComponentsSchemas : list (string * meth) :=
  [("WithMapOfSchemaOrRefValues", mkMeth (Some (TMap (TNamed "SchemaOrRef"))) [SAssign "MapOfSchemaOrRefValues" (EVal)] RSelf);
   ("WithMapOfSchemaOrRefValuesItem", mkMeth (Some (TNamed "SchemaOrRef")) [SIfNil "MapOfSchemaOrRefValues" "MapOfSchemaOrRefValues" (EMake (TMap (TNamed "SchemaOrRef"))); SItem "MapOfSchemaOrRefValues"] RSelf)].

(* openapi3/entities.go: methods between 6026 and 6040 *)
Definition b30_ComponentsResponses : list (string * meth) :=
  [("WithMapOfResponseOrRefValues", mkMeth (Some (TMap (TNamed "ResponseOrRef"))) [SAssign "MapOfResponseOrRefValues" (EVal)] RSelf);
   ("WithMapOfResponseOrRefValuesItem", mkMeth (Some (TNamed "ResponseOrRef")) [SIfNil "MapOfResponseOrRefValues" "MapOfResponseOrRefValues" (EMake (TMap (TNamed "ResponseOrRef"))); SItem "MapOfResponseOrRefValues"] RSelf)].

(* openapi3/entities.go: methods between 6092 and 6106 *)
Definition b30_ComponentsParameters : list (string * meth) :=
  [("WithMapOfParameterOrRefValues", mkMeth (Some (TMap (TNamed "ParameterOrRef"))) [SAssign "MapOfParameterOrRefValues" (EVal)] RSelf);
   ("WithMapOfParameterOrRefValuesItem", mkMeth (Some (TNamed "ParameterOrRef")) [SIfNil "MapOfParameterOrRefValues" "MapOfParameterOrRefValues" (EMake (TMap (TNamed "ParameterOrRef"))); SItem "MapOfParameterOrRefValues"] RSelf)].

(* openapi3/entities.go: methods between 6158 and 6172 *)
Definition b30_ComponentsExamples : list (string * meth) :=
  [("WithMapOfExampleOrRefValues", mkMeth (Some (TMap (TNamed "ExampleOrRef"))) [SAssign "MapOfExampleOrRefValues" (EVal)] RSelf);
   ("WithMapOfExampleOrRefValuesItem", mkMeth (Some (TNamed "ExampleOrRef")) [SIfNil "MapOfExampleOrRefValues" "MapOfExampleOrRefValues" (EMake (TMap (TNamed "ExampleOrRef"))); SItem "MapOfExampleOrRefValues"] RSelf)].

(* openapi3/entities.go: methods between 6224 and 6238 *)
Definition b30_ComponentsRequestBodies : list (string * meth) :=
  [("WithMapOfRequestBodyOrRefValues", mkMeth (Some (TMap (TNamed "RequestBodyOrRef"))) [SAssign "MapOfRequestBodyOrRefValues" (EVal)] RSelf);
   ("WithMapOfRequestBodyOrRefValuesItem", mkMeth (Some (TNamed "RequestBodyOrRef")) [SIfNil "MapOfRequestBodyOrRefValues" "MapOfRequestBodyOrRefValues" (EMake (TMap (TNamed "RequestBodyOrRef"))); SItem "MapOfRequestBodyOrRefValues"] RSelf)].

(* openapi3/entities.go: methods between 6290 and 6304 *)
Definition b30_ComponentsHeaders : list (string * meth) :=
  [("WithMapOfHeaderOrRefValues", mkMeth (Some (TMap (TNamed "HeaderOrRef"))) [SAssign "MapOfHeaderOrRefValues" (EVal)] RSelf);
   ("WithMapOfHeaderOrRefValuesItem", mkMeth (Some (TNamed "HeaderOrRef")) [SIfNil "MapOfHeaderOrRefValues" "MapOfHeaderOrRefValues" (EMake (TMap (TNamed "HeaderOrRef"))); SItem "MapOfHeaderOrRefValues"] RSelf)].

(* openapi3/entities.go: methods between 6358 and 6361 *)
Definition b30_SecuritySchemeReference : list (string * meth) :=
  [("WithRef", mkMeth (Some TStr) [SAssign "Ref" (EVal)] RSelf)].

(* openapi3/entities.go: methods between 6425 and 6457 *)
Definition b30_APIKeySecurityScheme : list (string * meth) :=
  [("WithName", mkMeth (Some TStr) [SAssign "Name" (EVal)] RSelf);
   ("WithIn", mkMeth (Some (TNamed "APIKeySecuritySchemeIn")) [SAssign "In" (EVal)] RSelf);
   ("WithDescription", mkMeth (Some TStr) [SAssign "Description" (EAddr)] RSelf);
   ("WithMapOfAnything", mkMeth (Some (TMap TAny)) [SAssign "MapOfAnything" (EVal)] RSelf);
   ("WithMapOfAnythingItem", mkMeth (Some TAny) [SIfNil "MapOfAnything" "MapOfAnything" (EMake (TMap TAny)); SItem "MapOfAnything"] RSelf)].

(* openapi3/entities.go: methods between 6567 and 6629 *)
Definition b30_HTTPSecurityScheme : list (string * meth) :=
  [("WithScheme", mkMeth (Some TStr) [SAssign "Scheme" (EVal)] RSelf);
   ("WithBearerFormat", mkMeth (Some TStr) [SAssign "BearerFormat" (EAddr)] RSelf);
   ("WithDescription", mkMeth (Some TStr) [SAssign "Description" (EAddr)] RSelf);
   ("WithBearer", mkMeth (Some (TNamed "Bearer")) [SAssign "Bearer" (EAddr)] RSelf);
   ("BearerEns", mkMeth (None) [SIfNil "Bearer" "Bearer" (ENew "Bearer")] (RField "Bearer"));
   ("WithNonBearer", mkMeth (Some (TNamed "NonBearer")) [SAssign "NonBearer" (EAddr)] RSelf);
   ("NonBearerEns", mkMeth (None) [SIfNil "NonBearer" "NonBearer" (ENew "NonBearer")] (RField "NonBearer"));
   ("WithMapOfAnything", mkMeth (Some (TMap TAny)) [SAssign "MapOfAnything" (EVal)] RSelf);
   ("WithMapOfAnythingItem", mkMeth (Some TAny) [SIfNil "MapOfAnything" "MapOfAnything" (EMake (TMap TAny)); SItem "MapOfAnything"] RSelf)].

(* openapi3/entities.go: methods between 6819 and 6822 *)
Definition b30_NonBearer : list (string * meth) :=
  [("WithScheme", mkMeth (Some TAny) [SAssign "Scheme" (EAddr)] RSelf)].

(* openapi3/entities.go: methods between 6832 and 6858 *)
Definition b30_OAuth2SecurityScheme : list (string * meth) :=
  [("WithFlows", mkMeth (Some (TNamed "OAuthFlows")) [SAssign "Flows" (EVal)] RSelf);
   ("WithDescription", mkMeth (Some TStr) [SAssign "Description" (EAddr)] RSelf);
   ("WithMapOfAnything", mkMeth (Some (TMap TAny)) [SAssign "MapOfAnything" (EVal)] RSelf);
   ("WithMapOfAnythingItem", mkMeth (Some TAny) [SIfNil "MapOfAnything" "MapOfAnything" (EMake (TMap TAny)); SItem "MapOfAnything"] RSelf)].

(* openapi3/entities.go: methods between 6965 and 7039 *)
Definition b30_OAuthFlows : list (string * meth) :=
  [("WithImplicit", mkMeth (Some (TNamed "ImplicitOAuthFlow")) [SAssign "Implicit" (EAddr)] RSelf);
   ("ImplicitEns", mkMeth (None) [SIfNil "Implicit" "Implicit" (ENew "ImplicitOAuthFlow")] (RField "Implicit"));
   ("WithPassword", mkMeth (Some (TNamed "PasswordOAuthFlow")) [SAssign "Password" (EAddr)] RSelf);
   ("PasswordEns", mkMeth (None) [SIfNil "Password" "Password" (ENew "PasswordOAuthFlow")] (RField "Password"));
   ("WithClientCredentials", mkMeth (Some (TNamed "ClientCredentialsFlow")) [SAssign "ClientCredentials" (EAddr)] RSelf);
   ("ClientCredentialsEns", mkMeth (None) [SIfNil "ClientCredentials" "ClientCredentials" (ENew "ClientCredentialsFlow")] (RField "ClientCredentials"));
   ("WithAuthorizationCode", mkMeth (Some (TNamed "AuthorizationCodeOAuthFlow")) [SAssign "AuthorizationCode" (EAddr)] RSelf);
   ("AuthorizationCodeEns", mkMeth (None) [SIfNil "AuthorizationCode" "AuthorizationCode" (ENew "AuthorizationCodeOAuthFlow")] (RField "AuthorizationCode"));
   ("WithMapOfAnything", mkMeth (Some (TMap TAny)) [SAssign "MapOfAnything" (EVal)] RSelf);
   ("WithMapOfAnythingItem", mkMeth (Some TAny) [SIfNil "MapOfAnything" "MapOfAnything" (EMake (TMap TAny)); SItem "MapOfAnything"] RSelf)].

(* openapi3/entities.go: methods between 7128 and 7171 *)
Definition b30_ImplicitOAuthFlow : list (string * meth) :=
  [("WithAuthorizationURL", mkMeth (Some TStr) [SAssign "AuthorizationURL" (EVal)] RSelf);
   ("WithRefreshURL", mkMeth (Some TStr) [SAssign "RefreshURL" (EAddr)] RSelf);
   ("WithScopes", mkMeth (Some (TMap TStr)) [SAssign "Scopes" (EVal)] RSelf);
   ("WithScopesItem", mkMeth (Some TStr) [SIfNil "Scopes" "Scopes" (EMake (TMap TStr)); SItem "Scopes"] RSelf);
   ("WithMapOfAnything", mkMeth (Some (TMap TAny)) [SAssign "MapOfAnything" (EVal)] RSelf);
   ("WithMapOfAnythingItem", mkMeth (Some TAny) [SIfNil "MapOfAnything" "MapOfAnything" (EMake (TMap TAny)); SItem "MapOfAnything"] RSelf)].

(* openapi3/entities.go: methods between 7270 and 7313 *)
Definition b30_PasswordOAuthFlow : list (string * meth) :=
  [("WithTokenURL", mkMeth (Some TStr) [SAssign "TokenURL" (EVal)] RSelf);
   ("WithRefreshURL", mkMeth (Some TStr) [SAssign "RefreshURL" (EAddr)] RSelf);
   ("WithScopes", mkMeth (Some (TMap TStr)) [SAssign "Scopes" (EVal)] RSelf);
   ("WithScopesItem", mkMeth (Some TStr) [SIfNil "Scopes" "Scopes" (EMake (TMap TStr)); SItem "Scopes"] RSelf);
   ("WithMapOfAnything", mkMeth (Some (TMap TAny)) [SAssign "MapOfAnything" (EVal)] RSelf);
   ("WithMapOfAnythingItem", mkMeth (Some TAny) [SIfNil "MapOfAnything" "MapOfAnything" (EMake (TMap TAny)); SItem "MapOfAnything"] RSelf)].

(* openapi3/entities.go: methods between 7411 and 7454 *)
Definition b30_ClientCredentialsFlow : list (string * meth) :=
  [("WithTokenURL", mkMeth (Some TStr) [SAssign "TokenURL" (EVal)] RSelf);
   ("WithRefreshURL", mkMeth (Some TStr) [SAssign "RefreshURL" (EAddr)] RSelf);
   ("WithScopes", mkMeth (Some (TMap TStr)) [SAssign "Scopes" (EVal)] RSelf);
   ("WithScopesItem", mkMeth (Some TStr) [SIfNil "Scopes" "Scopes" (EMake (TMap TStr)); SItem "Scopes"] RSelf);
   ("WithMapOfAnything", mkMeth (Some (TMap TAny)) [SAssign "MapOfAnything" (EVal)] RSelf);
   ("WithMapOfAnythingItem", mkMeth (Some TAny) [SIfNil "MapOfAnything" "MapOfAnything" (EMake (TMap TAny)); SItem "MapOfAnything"] RSelf)].

(* openapi3/entities.go: methods between 7555 and 7604 *)
Definition b30_AuthorizationCodeOAuthFlow : list (string * meth) :=
  [("WithAuthorizationURL", mkMeth (Some TStr) [SAssign "AuthorizationURL" (EVal)] RSelf);
   ("WithTokenURL", mkMeth (Some TStr) [SAssign "TokenURL" (EVal)] RSelf);
   ("WithRefreshURL", mkMeth (Some TStr) [SAssign "RefreshURL" (EAddr)] RSelf);
   ("WithScopes", mkMeth (Some (TMap TStr)) [SAssign "Scopes" (EVal)] RSelf);
   ("WithScopesItem", mkMeth (Some TStr) [SIfNil "Scopes" "Scopes" (EMake (TMap TStr)); SItem "Scopes"] RSelf);
   ("WithMapOfAnything", mkMeth (Some (TMap TAny)) [SAssign "MapOfAnything" (EVal)] RSelf);
   ("WithMapOfAnythingItem", mkMeth (Some TAny) [SIfNil "MapOfAnything" "MapOfAnything" (EMake (TMap TAny)); SItem "MapOfAnything"] RSelf)].

(* openapi3/entities.go: methods between 7703 and 7729 *)
Definition b30_OpenIDConnectSecurityScheme : list (string * meth) :=
  [("WithOpenIDConnectURL", mkMeth (Some TStr) [SAssign "OpenIDConnectURL" (EVal)] RSelf);
   ("WithDescription", mkMeth (Some TStr) [SAssign "Description" (EAddr)] RSelf);
   ("WithMapOfAnything", mkMeth (Some (TMap TAny)) [SAssign "MapOfAnything" (EVal)] RSelf);
   ("WithMapOfAnythingItem", mkMeth (Some TAny) [SIfNil "MapOfAnything" "MapOfAnything" (EMake (TMap TAny)); SItem "MapOfAnything"] RSelf)].

(* openapi3/entities.go: methods between 7835 and 7892 *)
Definition b30_SecurityScheme : list (string * meth) :=
  [("WithAPIKeySecurityScheme", mkMeth (Some (TNamed "APIKeySecurityScheme")) [SAssign "APIKeySecurityScheme" (EAddr)] RSelf);
   ("APIKeySecuritySchemeEns", mkMeth (None) [SIfNil "APIKeySecurityScheme" "APIKeySecurityScheme" (ENew "APIKeySecurityScheme")] (RField "APIKeySecurityScheme"));
   ("WithHTTPSecurityScheme", mkMeth (Some (TNamed "HTTPSecurityScheme")) [SAssign "HTTPSecurityScheme" (EAddr)] RSelf);
   ("HTTPSecuritySchemeEns", mkMeth (None) [SIfNil "HTTPSecurityScheme" "HTTPSecurityScheme" (ENew "HTTPSecurityScheme")] (RField "HTTPSecurityScheme"));
   ("WithOAuth2SecurityScheme", mkMeth (Some (TNamed "OAuth2SecurityScheme")) [SAssign "OAuth2SecurityScheme" (EAddr)] RSelf);
   ("OAuth2SecuritySchemeEns", mkMeth (None) [SIfNil "OAuth2SecurityScheme" "OAuth2SecurityScheme" (ENew "OAuth2SecurityScheme")] (RField "OAuth2SecurityScheme"));
   ("WithOpenIDConnectSecurityScheme", mkMeth (Some (TNamed "OpenIDConnectSecurityScheme")) [SAssign "OpenIDConnectSecurityScheme" (EAddr)] RSelf);
   ("OpenIDConnectSecuritySchemeEns", mkMeth (None) [SIfNil "OpenIDConnectSecurityScheme" "OpenIDConnectSecurityScheme" (ENew "OpenIDConnectSecurityScheme")] (RField "OpenIDConnectSecurityScheme"))].

(* openapi3/entities.go: methods between 7952 and 7979 *)
Definition b30_SecuritySchemeOrRef : list (string * meth) :=
  [("WithSecuritySchemeReference", mkMeth (Some (TNamed "SecuritySchemeReference")) [SAssign "SecuritySchemeReference" (EAddr)] RSelf);
   ("SecuritySchemeReferenceEns", mkMeth (None) [SIfNil "SecuritySchemeReference" "SecuritySchemeReference" (ENew "SecuritySchemeReference")] (RField "SecuritySchemeReference"));
   ("WithSecurityScheme", mkMeth (Some (TNamed "SecurityScheme")) [SAssign "SecurityScheme" (EAddr)] RSelf);
   ("SecuritySchemeEns", mkMeth (None) [SIfNil "SecurityScheme" "SecurityScheme" (ENew "SecurityScheme")] (RField "SecurityScheme"))].

(* openapi3/entities.go: methods between 8022 and 8036 *)
Definition b30_ComponentsSecuritySchemes : list (string * meth) :=
  [("WithMapOfSecuritySchemeOrRefValues", mkMeth (Some (TMap (TNamed "SecuritySchemeOrRef"))) [SAssign "MapOfSecuritySchemeOrRefValues" (EVal)] RSelf);
   ("WithMapOfSecuritySchemeOrRefValuesItem", mkMeth (Some (TNamed "SecuritySchemeOrRef")) [SIfNil "MapOfSecuritySchemeOrRefValues" "MapOfSecuritySchemeOrRefValues" (EMake (TMap (TNamed "SecuritySchemeOrRef"))); SItem "MapOfSecuritySchemeOrRefValues"] RSelf)].

(* openapi3/entities.go: methods between 8088 and 8102 *)
Definition b30_ComponentsLinks : list (string * meth) :=
  [("WithMapOfLinkOrRefValues", mkMeth (Some (TMap (TNamed "LinkOrRef"))) [SAssign "MapOfLinkOrRefValues" (EVal)] RSelf);
   ("WithMapOfLinkOrRefValuesItem", mkMeth (Some (TNamed "LinkOrRef")) [SIfNil "MapOfLinkOrRefValues" "MapOfLinkOrRefValues" (EMake (TMap (TNamed "LinkOrRef"))); SItem "MapOfLinkOrRefValues"] RSelf)].

(* openapi3/entities.go: methods between 8154 and 8168 *)
Definition b30_ComponentsCallbacks : list (string * meth) :=
  [("WithMapOfCallbackOrRefValues", mkMeth (Some (TMap (TNamed "CallbackOrRef"))) [SAssign "MapOfCallbackOrRefValues" (EVal)] RSelf);
   ("WithMapOfCallbackOrRefValuesItem", mkMeth (Some (TNamed "CallbackOrRef")) [SIfNil "MapOfCallbackOrRefValues" "MapOfCallbackOrRefValues" (EMake (TMap (TNamed "CallbackOrRef"))); SItem "MapOfCallbackOrRefValues"] RSelf)].

Definition M30 : list (string * list (string * meth)) :=
  [("Spec", b30_Spec);
   ("Info", b30_Info);
   ("Contact", b30_Contact);
   ("License", b30_License);
   ("ExternalDocumentation", b30_ExternalDocumentation);
   ("Server", b30_Server);
   ("ServerVariable", b30_ServerVariable);
   ("Tag", b30_Tag);
   ("PathItem", b30_PathItem);
   ("ParameterReference", b30_ParameterReference);
   ("Parameter", b30_Parameter);
   ("Schema", b30_Schema);
   ("SchemaReference", b30_SchemaReference);
   ("SchemaOrRef", b30_SchemaOrRef);
   ("SchemaAdditionalProperties", b30_SchemaAdditionalProperties);
   ("Discriminator", b30_Discriminator);
   ("XML", b30_XML);
   ("MediaType", b30_MediaType);
   ("ExampleReference", b30_ExampleReference);
   ("Example", b30_Example);
   ("ExampleOrRef", b30_ExampleOrRef);
   ("Encoding", b30_Encoding);
   ("Header", b30_Header);
   ("HasSchema", b30_HasSchema);
   ("HasContent", b30_HasContent);
   ("SchemaXORContent", b30_SchemaXORContent);
   ("SchemaXORContentNot", b30_SchemaXORContentNot);
   ("PathParameter", b30_PathParameter);
   ("QueryParameter", b30_QueryParameter);
   ("ParameterLocation", b30_ParameterLocation);
   ("ParameterOrRef", b30_ParameterOrRef);
   ("Operation", b30_Operation);
   ("RequestBodyReference", b30_RequestBodyReference);
   ("RequestBody", b30_RequestBody);
   ("RequestBodyOrRef", b30_RequestBodyOrRef);
   ("Responses", b30_Responses);
   ("ResponseReference", b30_ResponseReference);
   ("Response", b30_Response);
   ("HeaderReference", b30_HeaderReference);
   ("HeaderOrRef", b30_HeaderOrRef);
   ("LinkReference", b30_LinkReference);
   ("Link", b30_Link);
   ("LinkNot", b30_LinkNot);
   ("LinkOrRef", b30_LinkOrRef);
   ("ResponseOrRef", b30_ResponseOrRef);
   ("CallbackReference", b30_CallbackReference);
   ("Callback", b30_Callback);
   ("CallbackOrRef", b30_CallbackOrRef);
   ("Paths", b30_Paths);
   ("Components", b30_Components);
   ("ComponentsSchemas", b30_ComponentsSchemas);
   ("ComponentsResponses", b30_ComponentsResponses);
   ("ComponentsParameters", b30_ComponentsParameters);
   ("ComponentsExamples", b30_ComponentsExamples);
   ("ComponentsRequestBodies", b30_ComponentsRequestBodies);
   ("ComponentsHeaders", b30_ComponentsHeaders);
   ("SecuritySchemeReference", b30_SecuritySchemeReference);
   ("APIKeySecurityScheme", b30_APIKeySecurityScheme);
   ("HTTPSecurityScheme", b30_HTTPSecurityScheme);
   ("NonBearer", b30_NonBearer);
   ("OAuth2SecurityScheme", b30_OAuth2SecurityScheme);
   ("OAuthFlows", b30_OAuthFlows);
   ("ImplicitOAuthFlow", b30_ImplicitOAuthFlow);
   ("PasswordOAuthFlow", b30_PasswordOAuthFlow);
   ("ClientCredentialsFlow", b30_ClientCredentialsFlow);
   ("AuthorizationCodeOAuthFlow", b30_AuthorizationCodeOAuthFlow);
   ("OpenIDConnectSecurityScheme", b30_OpenIDConnectSecurityScheme);
   ("SecurityScheme", b30_SecurityScheme);
   ("SecuritySchemeOrRef", b30_SecuritySchemeOrRef);
   ("ComponentsSecuritySchemes", b30_ComponentsSecuritySchemes);
   ("ComponentsLinks", b30_ComponentsLinks);
   ("ComponentsCallbacks", b30_ComponentsCallbacks)].

(* openapi31/entities.go: methods between 34 and 146 *)
Definition b31_Spec : list (string * meth) :=
  [("WithOpenapi", mkMeth (Some TStr) [SAssign "Openapi" (EVal)] RSelf);
   ("WithInfo", mkMeth (Some (TNamed "Info")) [SAssign "Info" (EVal)] RSelf);
   ("WithJSONSchemaDialect", mkMeth (Some TStr) [SAssign "JSONSchemaDialect" (EAddr)] RSelf);
   ("WithServers", mkMeth (Some (TArr (TNamed "Server"))) [SAssign "Servers" (EVal)] RSelf);
   ("WithPaths", mkMeth (Some (TNamed "Paths")) [SAssign "Paths" (EAddr)] RSelf);
   ("PathsEns", mkMeth (None) [SIfNil "Paths" "Paths" (ENew "Paths")] (RField "Paths"));
   ("WithWebhooks", mkMeth (Some (TMap (TNamed "PathItemOrReference"))) [SAssign "Webhooks" (EVal)] RSelf);
   ("WithWebhooksItem", mkMeth (Some (TNamed "PathItemOrReference")) [SIfNil "Webhooks" "Webhooks" (EMake (TMap (TNamed "PathItemOrReference"))); SItem "Webhooks"] RSelf);
   ("WithComponents", mkMeth (Some (TNamed "Components")) [SAssign "Components" (EAddr)] RSelf);
   ("ComponentsEns", mkMeth (None) [SIfNil "Components" "Components" (ENew "Components")] (RField "Components"));
   ("WithSecurity", mkMeth (Some (TArr (TMap (TArr TStr)))) [SAssign "Security" (EVal)] RSelf);
   ("WithTags", mkMeth (Some (TArr (TNamed "Tag"))) [SAssign "Tags" (EVal)] RSelf);
   ("WithExternalDocs", mkMeth (Some (TNamed "ExternalDocumentation")) [SAssign "ExternalDocs" (EAddr)] RSelf);
   ("ExternalDocsEns", mkMeth (None) [SIfNil "ExternalDocs" "ExternalDocs" (ENew "ExternalDocumentation")] (RField "ExternalDocs"));
   ("WithMapOfAnything", mkMeth (Some (TMap TAny)) [SAssign "MapOfAnything" (EVal)] RSelf);
   ("WithMapOfAnythingItem", mkMeth (Some TAny) [SIfNil "MapOfAnything" "MapOfAnything" (EMake (TMap TAny)); SItem "MapOfAnything"] RSelf)].

(* openapi31/entities.go: methods between 244 and 318 *)
Definition b31_Info : list (string * meth) :=
  [("WithTitle", mkMeth (Some TStr) [SAssign "Title" (EVal)] RSelf);
   ("WithSummary", mkMeth (Some TStr) [SAssign "Summary" (EAddr)] RSelf);
   ("WithDescription", mkMeth (Some TStr) [SAssign "Description" (EAddr)] RSelf);
   ("WithTermsOfService", mkMeth (Some TStr) [SAssign "TermsOfService" (EAddr)] RSelf);
   ("WithContact", mkMeth (Some (TNamed "Contact")) [SAssign "Contact" (EAddr)] RSelf);
   ("ContactEns", mkMeth (None) [SIfNil "Contact" "Contact" (ENew "Contact")] (RField "Contact"));
   ("WithLicense", mkMeth (Some (TNamed "License")) [SAssign "License" (EAddr)] RSelf);
   ("LicenseEns", mkMeth (None) [SIfNil "License" "License" (ENew "License")] (RField "License"));
   ("WithVersion", mkMeth (Some TStr) [SAssign "Version" (EVal)] RSelf);
   ("WithMapOfAnything", mkMeth (Some (TMap TAny)) [SAssign "MapOfAnything" (EVal)] RSelf);
   ("WithMapOfAnythingItem", mkMeth (Some TAny) [SIfNil "MapOfAnything" "MapOfAnything" (EMake (TMap TAny)); SItem "MapOfAnything"] RSelf)].

(* openapi31/entities.go: methods between 409 and 441 *)
Definition b31_Contact : list (string * meth) :=
  [("WithName", mkMeth (Some TStr) [SAssign "Name" (EAddr)] RSelf);
   ("WithURL", mkMeth (Some TStr) [SAssign "URL" (EAddr)] RSelf);
   ("WithEmail", mkMeth (Some TStr) [SAssign "Email" (EAddr)] RSelf);
   ("WithMapOfAnything", mkMeth (Some (TMap TAny)) [SAssign "MapOfAnything" (EVal)] RSelf);
   ("WithMapOfAnythingItem", mkMeth (Some TAny) [SIfNil "MapOfAnything" "MapOfAnything" (EMake (TMap TAny)); SItem "MapOfAnything"] RSelf)].

(* openapi31/entities.go: methods between 517 and 549 *)
Definition b31_License : list (string * meth) :=
  [("WithName", mkMeth (Some TStr) [SAssign "Name" (EVal)] RSelf);
   ("WithIdentifier", mkMeth (Some TStr) [SAssign "Identifier" (EAddr)] RSelf);
   ("WithURL", mkMeth (Some TStr) [SAssign "URL" (EAddr)] RSelf);
   ("WithMapOfAnything", mkMeth (Some (TMap TAny)) [SAssign "MapOfAnything" (EVal)] RSelf);
   ("WithMapOfAnythingItem", mkMeth (Some TAny) [SIfNil "MapOfAnything" "MapOfAnything" (EMake (TMap TAny)); SItem "MapOfAnything"] RSelf)].

(* openapi31/entities.go: methods between 637 and 680 *)
Definition b31_Server : list (string * meth) :=
  [("WithURL", mkMeth (Some TStr) [SAssign "URL" (EVal)] RSelf);
   ("WithDescription", mkMeth (Some TStr) [SAssign "Description" (EAddr)] RSelf);
   ("WithVariables", mkMeth (Some (TMap (TNamed "ServerVariable"))) [SAssign "Variables" (EVal)] RSelf);
   ("WithVariablesItem", mkMeth (Some (TNamed "ServerVariable")) [SIfNil "Variables" "Variables" (EMake (TMap (TNamed "ServerVariable"))); SItem "Variables"] RSelf);
   ("WithMapOfAnything", mkMeth (Some (TMap TAny)) [SAssign "MapOfAnything" (EVal)] RSelf);
   ("WithMapOfAnythingItem", mkMeth (Some TAny) [SIfNil "MapOfAnything" "MapOfAnything" (EMake (TMap TAny)); SItem "MapOfAnything"] RSelf)].

(* openapi31/entities.go: methods between 766 and 798 *)
Definition b31_ServerVariable : list (string * meth) :=
  [("WithEnum", mkMeth (Some (TArr TStr)) [SAssign "Enum" (EVal)] RSelf);
   ("WithDefault", mkMeth (Some TStr) [SAssign "Default" (EVal)] RSelf);
   ("WithDescription", mkMeth (Some TStr) [SAssign "Description" (EAddr)] RSelf);
   ("WithMapOfAnything", mkMeth (Some (TMap TAny)) [SAssign "MapOfAnything" (EVal)] RSelf);
   ("WithMapOfAnythingItem", mkMeth (Some TAny) [SIfNil "MapOfAnything" "MapOfAnything" (EMake (TMap TAny)); SItem "MapOfAnything"] RSelf)].

(* openapi31/entities.go: methods between 893 and 1051 *)
Definition b31_PathItem : list (string * meth) :=
  [("WithSummary", mkMeth (Some TStr) [SAssign "Summary" (EAddr)] RSelf);
   ("WithDescription", mkMeth (Some TStr) [SAssign "Description" (EAddr)] RSelf);
   ("WithServers", mkMeth (Some (TArr (TNamed "Server"))) [SAssign "Servers" (EVal)] RSelf);
   ("WithParameters", mkMeth (Some (TArr (TNamed "ParameterOrReference"))) [SAssign "Parameters" (EVal)] RSelf);
   ("WithGet", mkMeth (Some (TNamed "Operation")) [SAssign "Get" (EAddr)] RSelf);
   ("GetEns", mkMeth (None) [SIfNil "Get" "Get" (ENew "Operation")] (RField "Get"));
   ("WithPut", mkMeth (Some (TNamed "Operation")) [SAssign "Put" (EAddr)] RSelf);
   ("PutEns", mkMeth (None) [SIfNil "Put" "Put" (ENew "Operation")] (RField "Put"));
   ("WithPost", mkMeth (Some (TNamed "Operation")) [SAssign "Post" (EAddr)] RSelf);
   ("PostEns", mkMeth (None) [SIfNil "Post" "Post" (ENew "Operation")] (RField "Post"));
   ("WithDelete", mkMeth (Some (TNamed "Operation")) [SAssign "Delete" (EAddr)] RSelf);
   ("DeleteEns", mkMeth (None) [SIfNil "Delete" "Delete" (ENew "Operation")] (RField "Delete"));
   ("WithOptions", mkMeth (Some (TNamed "Operation")) [SAssign "Options" (EAddr)] RSelf);
   ("OptionsEns", mkMeth (None) [SIfNil "Options" "Options" (ENew "Operation")] (RField "Options"));
   ("WithHead", mkMeth (Some (TNamed "Operation")) [SAssign "Head" (EAddr)] RSelf);
   ("HeadEns", mkMeth (None) [SIfNil "Head" "Head" (ENew "Operation")] (RField "Head"));
   ("WithPatch", mkMeth (Some (TNamed "Operation")) [SAssign "Patch" (EAddr)] RSelf);
   ("PatchEns", mkMeth (None) [SIfNil "Patch" "Patch" (ENew "Operation")] (RField "Patch"));
   ("WithTrace", mkMeth (Some (TNamed "Operation")) [SAssign "Trace" (EAddr)] RSelf);
   ("TraceEns", mkMeth (None) [SIfNil "Trace" "Trace" (ENew "Operation")] (RField "Trace"));
   ("WithMapOfAnything", mkMeth (Some (TMap TAny)) [SAssign "MapOfAnything" (EVal)] RSelf);
   ("WithMapOfAnythingItem", mkMeth (Some TAny) [SIfNil "MapOfAnything" "MapOfAnything" (EMake (TMap TAny)); SItem "MapOfAnything"] RSelf)].

(* openapi31/entities.go: methods between 1137 and 1152 *)
Definition b31_Reference : list (string * meth) :=
  [("WithRef", mkMeth (Some TStr) [SAssign "Ref" (EVal)] RSelf);
   ("WithSummary", mkMeth (Some TStr) [SAssign "Summary" (EAddr)] RSelf);
   ("WithDescription", mkMeth (Some TStr) [SAssign "Description" (EAddr)] RSelf)].

(* openapi31/entities.go: methods between 1206 and 1319 *)
Definition b31_Parameter : list (string * meth) :=
  [("WithName", mkMeth (Some TStr) [SAssign "Name" (EVal)] RSelf);
   ("WithIn", mkMeth (Some (TNamed "ParameterIn")) [SAssign "In" (EVal)] RSelf);
   ("WithDescription", mkMeth (Some TStr) [SAssign "Description" (EAddr)] RSelf);
   ("WithRequired", mkMeth (Some TBool) [SAssign "Required" (EAddr)] RSelf);
   ("WithDeprecated", mkMeth (Some TBool) [SAssign "Deprecated" (EAddr)] RSelf);
   ("WithSchema", mkMeth (Some (TMap TAny)) [SAssign "Schema" (EVal)] RSelf);
   ("WithSchemaItem", mkMeth (Some TAny) [SIfNil "Schema" "Schema" (EMake (TMap TAny)); SItem "Schema"] RSelf);
   ("WithContent", mkMeth (Some (TMap (TNamed "MediaType"))) [SAssign "Content" (EVal)] RSelf);
   ("WithContentItem", mkMeth (Some (TNamed "MediaType")) [SIfNil "Content" "Content" (EMake (TMap (TNamed "MediaType"))); SItem "Content"] RSelf);
   ("WithStyle", mkMeth (Some (TNamed "ParameterStyle")) [SAssign "Style" (EAddr)] RSelf);
   ("WithExplode", mkMeth (Some TBool) [SAssign "Explode" (EAddr)] RSelf);
   ("WithExample", mkMeth (Some TAny) [SAssign "Example" (EAddr)] RSelf);
   ("WithExamples", mkMeth (Some (TMap (TNamed "ExampleOrReference"))) [SAssign "Examples" (EVal)] RSelf);
   ("WithExamplesItem", mkMeth (Some (TNamed "ExampleOrReference")) [SIfNil "Examples" "Examples" (EMake (TMap (TNamed "ExampleOrReference"))); SItem "Examples"] RSelf);
   ("WithMapOfAnything", mkMeth (Some (TMap TAny)) [SAssign "MapOfAnything" (EVal)] RSelf);
   ("WithMapOfAnythingItem", mkMeth (Some TAny) [SIfNil "MapOfAnything" "MapOfAnything" (EMake (TMap TAny)); SItem "MapOfAnything"] RSelf)].

(* openapi31/entities.go: methods between 1422 and 1493 *)
Definition b31_MediaType : list (string * meth) :=
  [("WithSchema", mkMeth (Some (TMap TAny)) [SAssign "Schema" (EVal)] RSelf);
   ("WithSchemaItem", mkMeth (Some TAny) [SIfNil "Schema" "Schema" (EMake (TMap TAny)); SItem "Schema"] RSelf);
   ("WithEncoding", mkMeth (Some (TMap (TNamed "Encoding"))) [SAssign "Encoding" (EVal)] RSelf);
   ("WithEncodingItem", mkMeth (Some (TNamed "Encoding")) [SIfNil "Encoding" "Encoding" (EMake (TMap (TNamed "Encoding"))); SItem "Encoding"] RSelf);
   ("WithExample", mkMeth (Some TAny) [SAssign "Example" (EAddr)] RSelf);
   ("WithExamples", mkMeth (Some (TMap (TNamed "ExampleOrReference"))) [SAssign "Examples" (EVal)] RSelf);
   ("WithExamplesItem", mkMeth (Some (TNamed "ExampleOrReference")) [SIfNil "Examples" "Examples" (EMake (TMap (TNamed "ExampleOrReference"))); SItem "Examples"] RSelf);
   ("WithMapOfAnything", mkMeth (Some (TMap TAny)) [SAssign "MapOfAnything" (EVal)] RSelf);
   ("WithMapOfAnythingItem", mkMeth (Some TAny) [SIfNil "MapOfAnything" "MapOfAnything" (EMake (TMap TAny)); SItem "MapOfAnything"] RSelf)].

(* openapi31/entities.go: methods between 1578 and 1616 *)
Definition b31_Encoding : list (string * meth) :=
  [("WithContentType", mkMeth (Some TStr) [SAssign "ContentType" (EAddr)] RSelf);
   ("WithHeaders", mkMeth (Some (TMap (TNamed "HeaderOrReference"))) [SAssign "Headers" (EVal)] RSelf);
   ("WithHeadersItem", mkMeth (Some (TNamed "HeaderOrReference")) [SIfNil "Headers" "Headers" (EMake (TMap (TNamed "HeaderOrReference"))); SItem "Headers"] RSelf);
   ("WithStyle", mkMeth (Some (TNamed "EncodingStyle")) [SAssign "Style" (EAddr)] RSelf);
   ("WithExplode", mkMeth (Some TBool) [SAssign "Explode" (EAddr)] RSelf);
   ("WithAllowReserved", mkMeth (Some TBool) [SAssign "AllowReserved" (EAddr)] RSelf)].

(* openapi31/entities.go: methods between 1632 and 1727 *)
Definition b31_Header : list (string * meth) :=
  [("WithDescription", mkMeth (Some TStr) [SAssign "Description" (EAddr)] RSelf);
   ("WithRequired", mkMeth (Some TBool) [SAssign "Required" (EAddr)] RSelf);
   ("WithDeprecated", mkMeth (Some TBool) [SAssign "Deprecated" (EAddr)] RSelf);
   ("WithSchema", mkMeth (Some (TMap TAny)) [SAssign "Schema" (EVal)] RSelf);
   ("WithSchemaItem", mkMeth (Some TAny) [SIfNil "Schema" "Schema" (EMake (TMap TAny)); SItem "Schema"] RSelf);
   ("WithContent", mkMeth (Some (TMap (TNamed "MediaType"))) [SAssign "Content" (EVal)] RSelf);
   ("WithContentItem", mkMeth (Some (TNamed "MediaType")) [SIfNil "Content" "Content" (EMake (TMap (TNamed "MediaType"))); SItem "Content"] RSelf);
   ("WithExample", mkMeth (Some TAny) [SAssign "Example" (EAddr)] RSelf);
   ("WithExamples", mkMeth (Some (TMap (TNamed "ExampleOrReference"))) [SAssign "Examples" (EVal)] RSelf);
   ("WithExamplesItem", mkMeth (Some (TNamed "ExampleOrReference")) [SIfNil "Examples" "Examples" (EMake (TMap (TNamed "ExampleOrReference"))); SItem "Examples"] RSelf);
   ("WithExplode", mkMeth (Some TBool) [SAssign "Explode" (EAddr)] RSelf);
   ("WithMapOfAnything", mkMeth (Some (TMap TAny)) [SAssign "MapOfAnything" (EVal)] RSelf);
   ("WithMapOfAnythingItem", mkMeth (Some TAny) [SIfNil "MapOfAnything" "MapOfAnything" (EMake (TMap TAny)); SItem "MapOfAnything"] RSelf)].

(* openapi31/entities.go: methods between 1834 and 1872 *)
Definition b31_Example : list (string * meth) :=
  [("WithSummary", mkMeth (Some TStr) [SAssign "Summary" (EAddr)] RSelf);
   ("WithDescription", mkMeth (Some TStr) [SAssign "Description" (EAddr)] RSelf);
   ("WithValue", mkMeth (Some TAny) [SAssign "Value" (EAddr)] RSelf);
   ("WithExternalValue", mkMeth (Some TStr) [SAssign "ExternalValue" (EAddr)] RSelf);
   ("WithMapOfAnything", mkMeth (Some (TMap TAny)) [SAssign "MapOfAnything" (EVal)] RSelf);
   ("WithMapOfAnythingItem", mkMeth (Some TAny) [SIfNil "MapOfAnything" "MapOfAnything" (EMake (TMap TAny)); SItem "MapOfAnything"] RSelf)].

(* openapi31/entities.go: methods between 1960 and 1987 *)
Definition b31_ExampleOrReference : list (string * meth) :=
  [("WithReference", mkMeth (Some (TNamed "Reference")) [SAssign "Reference" (EAddr)] RSelf);
   ("ReferenceEns", mkMeth (None) [SIfNil "Reference" "Reference" (ENew "Reference")] (RField "Reference"));
   ("WithExample", mkMeth (Some (TNamed "Example")) [SAssign "Example" (EAddr)] RSelf);
   ("ExampleEns", mkMeth (None) [SIfNil "Example" "Example" (ENew "Example")] (RField "Example"))].

(* openapi31/entities.go: methods between 2031 and 2058 *)
Definition b31_HeaderOrReference : list (string * meth) :=
  [("WithReference", mkMeth (Some (TNamed "Reference")) [SAssign "Reference" (EAddr)] RSelf);
   ("ReferenceEns", mkMeth (None) [SIfNil "Reference" "Reference" (ENew "Reference")] (RField "Reference"));
   ("WithHeader", mkMeth (Some (TNamed "Header")) [SAssign "Header" (EAddr)] RSelf);
   ("HeaderEns", mkMeth (None) [SIfNil "Header" "Header" (ENew "Header")] (RField "Header"))].

(* openapi31/entities.go: methods between 2101 and 2115 *)
Definition b31_EncodingAllOf0 : list (string * meth) :=
  [("WithMapOfAnything", mkMeth (Some (TMap TAny)) [SAssign "MapOfAnything" (EVal)] RSelf);
   ("WithMapOfAnythingItem", mkMeth (Some TAny) [SIfNil "MapOfAnything" "MapOfAnything" (EMake (TMap TAny)); SItem "MapOfAnything"] RSelf)].

(* openapi31/entities.go: methods between 2168 and 2188 *)
Definition b31_Examples : list (string * meth) :=
  [("WithExample", mkMeth (Some TAny) [SAssign "Example" (EAddr)] RSelf);
   ("WithExamples", mkMeth (Some (TMap (TNamed "ExampleOrReference"))) [SAssign "Examples" (EVal)] RSelf);
   ("WithExamplesItem", mkMeth (Some (TNamed "ExampleOrReference")) [SIfNil "Examples" "Examples" (EMake (TMap (TNamed "ExampleOrReference"))); SItem "Examples"] RSelf)].

(* openapi31/entities.go: methods between 2197 and 2224 *)
Definition b31_ParameterOrReference : list (string * meth) :=
  [("WithReference", mkMeth (Some (TNamed "Reference")) [SAssign "Reference" (EAddr)] RSelf);
   ("ReferenceEns", mkMeth (None) [SIfNil "Reference" "Reference" (ENew "Reference")] (RField "Reference"));
   ("WithParameter", mkMeth (Some (TNamed "Parameter")) [SAssign "Parameter" (EAddr)] RSelf);
   ("ParameterEns", mkMeth (None) [SIfNil "Parameter" "Parameter" (ENew "Parameter")] (RField "Parameter"))].

(* openapi31/entities.go: methods between 2279 and 2403 *)
Definition b31_Operation : list (string * meth) :=
  [("WithTags", mkMeth (Some (TArr TStr)) [SAssign "Tags" (EVal)] RSelf);
   ("WithSummary", mkMeth (Some TStr) [SAssign "Summary" (EAddr)] RSelf);
   ("WithDescription", mkMeth (Some TStr) [SAssign "Description" (EAddr)] RSelf);
   ("WithExternalDocs", mkMeth (Some (TNamed "ExternalDocumentation")) [SAssign "ExternalDocs" (EAddr)] RSelf);
   ("ExternalDocsEns", mkMeth (None) [SIfNil "ExternalDocs" "ExternalDocs" (ENew "ExternalDocumentation")] (RField "ExternalDocs"));
   ("WithID", mkMeth (Some TStr) [SAssign "ID" (EAddr)] RSelf);
   ("WithParameters", mkMeth (Some (TArr (TNamed "ParameterOrReference"))) [SAssign "Parameters" (EVal)] RSelf);
   ("WithRequestBody", mkMeth (Some (TNamed "RequestBodyOrReference")) [SAssign "RequestBody" (EAddr)] RSelf);
   ("RequestBodyEns", mkMeth (None) [SIfNil "RequestBody" "RequestBody" (ENew "RequestBodyOrReference")] (RField "RequestBody"));
   ("WithResponses", mkMeth (Some (TNamed "Responses")) [SAssign "Responses" (EAddr)] RSelf);
   ("ResponsesEns", mkMeth (None) [SIfNil "Responses" "Responses" (ENew "Responses")] (RField "Responses"));
   ("WithCallbacks", mkMeth (Some (TMap (TNamed "CallbacksOrReference"))) [SAssign "Callbacks" (EVal)] RSelf);
   ("WithCallbacksItem", mkMeth (Some (TNamed "CallbacksOrReference")) [SIfNil "Callbacks" "Callbacks" (EMake (TMap (TNamed "CallbacksOrReference"))); SItem "Callbacks"] RSelf);
   ("WithDeprecated", mkMeth (Some TBool) [SAssign "Deprecated" (EAddr)] RSelf);
   ("WithSecurity", mkMeth (Some (TArr (TMap (TArr TStr)))) [SAssign "Security" (EVal)] RSelf);
   ("WithServers", mkMeth (Some (TArr (TNamed "Server"))) [SAssign "Servers" (EVal)] RSelf);
   ("WithMapOfAnything", mkMeth (Some (TMap TAny)) [SAssign "MapOfAnything" (EVal)] RSelf);
   ("WithMapOfAnythingItem", mkMeth (Some TAny) [SIfNil "MapOfAnything" "MapOfAnything" (EMake (TMap TAny)); SItem "MapOfAnything"] RSelf)].

(* openapi31/entities.go: methods between 2489 and 2515 *)
Definition b31_ExternalDocumentation : list (string * meth) :=
  [("WithDescription", mkMeth (Some TStr) [SAssign "Description" (EAddr)] RSelf);
   ("WithURL", mkMeth (Some TStr) [SAssign "URL" (EVal)] RSelf);
   ("WithMapOfAnything", mkMeth (Some (TMap TAny)) [SAssign "MapOfAnything" (EVal)] RSelf);
   ("WithMapOfAnythingItem", mkMeth (Some TAny) [SIfNil "MapOfAnything" "MapOfAnything" (EMake (TMap TAny)); SItem "MapOfAnything"] RSelf)].

(* openapi31/entities.go: methods between 2600 and 2643 *)
Definition b31_RequestBody : list (string * meth) :=
  [("WithDescription", mkMeth (Some TStr) [SAssign "Description" (EAddr)] RSelf);
   ("WithContent", mkMeth (Some (TMap (TNamed "MediaType"))) [SAssign "Content" (EVal)] RSelf);
   ("WithContentItem", mkMeth (Some (TNamed "MediaType")) [SIfNil "Content" "Content" (EMake (TMap (TNamed "MediaType"))); SItem "Content"] RSelf);
   ("WithRequired", mkMeth (Some TBool) [SAssign "Required" (EAddr)] RSelf);
   ("WithMapOfAnything", mkMeth (Some (TMap TAny)) [SAssign "MapOfAnything" (EVal)] RSelf);
   ("WithMapOfAnythingItem", mkMeth (Some TAny) [SIfNil "MapOfAnything" "MapOfAnything" (EMake (TMap TAny)); SItem "MapOfAnything"] RSelf)].

(* openapi31/entities.go: methods between 2727 and 2754 *)
Definition b31_RequestBodyOrReference : list (string * meth) :=
  [("WithReference", mkMeth (Some (TNamed "Reference")) [SAssign "Reference" (EAddr)] RSelf);
   ("ReferenceEns", mkMeth (None) [SIfNil "Reference" "Reference" (ENew "Reference")] (RField "Reference"));
   ("WithRequestBody", mkMeth (Some (TNamed "RequestBody")) [SAssign "RequestBody" (EAddr)] RSelf);
   ("RequestBodyEns", mkMeth (None) [SIfNil "RequestBody" "RequestBody" (ENew "RequestBody")] (RField "RequestBody"))].

(* openapi31/entities.go: methods between 2799 and 2845 *)
Definition b31_Responses : list (string * meth) :=
  [("WithDefault", mkMeth (Some (TNamed "ResponseOrReference")) [SAssign "Default" (EAddr)] RSelf);
   ("DefaultEns", mkMeth (None) [SIfNil "Default" "Default" (ENew "ResponseOrReference")] (RField "Default"));
   ("WithMapOfResponseOrReferenceValues", mkMeth (Some (TMap (TNamed "ResponseOrReference"))) [SAssign "MapOfResponseOrReferenceValues" (EVal)] RSelf);
   ("WithMapOfResponseOrReferenceValuesItem", mkMeth (Some (TNamed "ResponseOrReference")) [SIfNil "MapOfResponseOrReferenceValues" "MapOfResponseOrReferenceValues" (EMake (TMap (TNamed "ResponseOrReference"))); SItem "MapOfResponseOrReferenceValues"] RSelf);
   ("WithMapOfAnything", mkMeth (Some (TMap TAny)) [SAssign "MapOfAnything" (EVal)] RSelf);
   ("WithMapOfAnythingItem", mkMeth (Some TAny) [SIfNil "MapOfAnything" "MapOfAnything" (EMake (TMap TAny)); SItem "MapOfAnything"] RSelf)].

(* openapi31/entities.go: methods between 2937 and 3008 *)
Definition b31_Response : list (string * meth) :=
  [("WithDescription", mkMeth (Some TStr) [SAssign "Description" (EVal)] RSelf);
   ("WithHeaders", mkMeth (Some (TMap (TNamed "HeaderOrReference"))) [SAssign "Headers" (EVal)] RSelf);
   ("WithHeadersItem", mkMeth (Some (TNamed "HeaderOrReference")) [SIfNil "Headers" "Headers" (EMake (TMap (TNamed "HeaderOrReference"))); SItem "Headers"] RSelf);
   ("WithContent", mkMeth (Some (TMap (TNamed "MediaType"))) [SAssign "Content" (EVal)] RSelf);
   ("WithContentItem", mkMeth (Some (TNamed "MediaType")) [SIfNil "Content" "Content" (EMake (TMap (TNamed "MediaType"))); SItem "Content"] RSelf);
   ("WithLinks", mkMeth (Some (TMap (TNamed "LinkOrReference"))) [SAssign "Links" (EVal)] RSelf);
   ("WithLinksItem", mkMeth (Some (TNamed "LinkOrReference")) [SIfNil "Links" "Links" (EMake (TMap (TNamed "LinkOrReference"))); SItem "Links"] RSelf);
   ("WithMapOfAnything", mkMeth (Some (TMap TAny)) [SAssign "MapOfAnything" (EVal)] RSelf);
   ("WithMapOfAnythingItem", mkMeth (Some TAny) [SIfNil "MapOfAnything" "MapOfAnything" (EMake (TMap TAny)); SItem "MapOfAnything"] RSelf)].

(* openapi31/entities.go: methods between 3098 and 3168 *)
Definition b31_Link : list (string * meth) :=
  [("WithOperationRef", mkMeth (Some TStr) [SAssign "OperationRef" (EAddr)] RSelf);
   ("WithOperationID", mkMeth (Some TStr) [SAssign "OperationID" (EAddr)] RSelf);
   ("WithParameters", mkMeth (Some (TMap TStr)) [SAssign "Parameters" (EVal)] RSelf);
   ("WithParametersItem", mkMeth (Some TStr) [SIfNil "Parameters" "Parameters" (EMake (TMap TStr)); SItem "Parameters"] RSelf);
   ("WithRequestBody", mkMeth (Some TAny) [SAssign "RequestBody" (EAddr)] RSelf);
   ("WithDescription", mkMeth (Some TStr) [SAssign "Description" (EAddr)] RSelf);
   ("WithBody", mkMeth (Some (TNamed "Server")) [SAssign "Body" (EAddr)] RSelf);
   ("BodyEns", mkMeth (None) [SIfNil "Body" "Body" (ENew "Server")] (RField "Body"));
   ("WithMapOfAnything", mkMeth (Some (TMap TAny)) [SAssign "MapOfAnything" (EVal)] RSelf);
   ("WithMapOfAnythingItem", mkMeth (Some TAny) [SIfNil "MapOfAnything" "MapOfAnything" (EMake (TMap TAny)); SItem "MapOfAnything"] RSelf)].

(* openapi31/entities.go: methods between 3252 and 3279 *)
Definition b31_LinkOrReference : list (string * meth) :=
  [("WithReference", mkMeth (Some (TNamed "Reference")) [SAssign "Reference" (EAddr)] RSelf);
   ("ReferenceEns", mkMeth (None) [SIfNil "Reference" "Reference" (ENew "Reference")] (RField "Reference"));
   ("WithLink", mkMeth (Some (TNamed "Link")) [SAssign "Link" (EAddr)] RSelf);
   ("LinkEns", mkMeth (None) [SIfNil "Link" "Link" (ENew "Link")] (RField "Link"))].

(* openapi31/entities.go: methods between 3323 and 3350 *)
Definition b31_ResponseOrReference : list (string * meth) :=
  [("WithReference", mkMeth (Some (TNamed "Reference")) [SAssign "Reference" (EAddr)] RSelf);
   ("ReferenceEns", mkMeth (None) [SIfNil "Reference" "Reference" (ENew "Reference")] (RField "Reference"));
   ("WithResponse", mkMeth (Some (TNamed "Response")) [SAssign "Response" (EAddr)] RSelf);
   ("ResponseEns", mkMeth (None) [SIfNil "Response" "Response" (ENew "Response")] (RField "Response"))].

(* openapi31/entities.go: methods between 3394 and 3425 *)
Definition b31_Callbacks : list (string * meth) :=
  [("WithMapOfAnything", mkMeth (Some (TMap TAny)) [SAssign "MapOfAnything" (EVal)] RSelf);
   ("WithMapOfAnythingItem", mkMeth (Some TAny) [SIfNil "MapOfAnything" "MapOfAnything" (EMake (TMap TAny)); SItem "MapOfAnything"] RSelf);
   ("WithAdditionalProperties", mkMeth (Some (TMap (TNamed "PathItemOrReference"))) [SAssign "AdditionalProperties" (EVal)] RSelf);
   ("WithAdditionalPropertiesItem", mkMeth (Some (TNamed "PathItemOrReference")) [SIfNil "AdditionalProperties" "AdditionalProperties" (EMake (TMap (TNamed "PathItemOrReference"))); SItem "AdditionalProperties"] RSelf)].

(* openapi31/entities.go: methods between 3493 and 3520 *)
Definition b31_PathItemOrReference : list (string * meth) :=
  [("WithReference", mkMeth (Some (TNamed "Reference")) [SAssign "Reference" (EAddr)] RSelf);
   ("ReferenceEns", mkMeth (None) [SIfNil "Reference" "Reference" (ENew "Reference")] (RField "Reference"));
   ("WithPathItem", mkMeth (Some (TNamed "PathItem")) [SAssign "PathItem" (EAddr)] RSelf);
   ("PathItemEns", mkMeth (None) [SIfNil "PathItem" "PathItem" (ENew "PathItem")] (RField "PathItem"))].

(* openapi31/entities.go: methods between 3564 and 3591 *)
Definition b31_CallbacksOrReference : list (string * meth) :=
  [("WithReference", mkMeth (Some (TNamed "Reference")) [SAssign "Reference" (EAddr)] RSelf);
   ("ReferenceEns", mkMeth (None) [SIfNil "Reference" "Reference" (ENew "Reference")] (RField "Reference"));
   ("WithCallbacks", mkMeth (Some (TNamed "Callbacks")) [SAssign "Callbacks" (EAddr)] RSelf);
   ("CallbacksEns", mkMeth (None) [SIfNil "Callbacks" "Callbacks" (ENew "Callbacks")] (RField "Callbacks"))].

(* openapi31/entities.go: methods between 3635 and 3666 *)
Definition b31_Paths : list (string * meth) :=
  [("WithMapOfPathItemValues", mkMeth (Some (TMap (TNamed "PathItem"))) [SAssign "MapOfPathItemValues" (EVal)] RSelf);
   ("WithMapOfPathItemValuesItem", mkMeth (Some (TNamed "PathItem")) [SIfNil "MapOfPathItemValues" "MapOfPathItemValues" (EMake (TMap (TNamed "PathItem"))); SItem "MapOfPathItemValues"] RSelf);
   ("WithMapOfAnything", mkMeth (Some (TMap TAny)) [SAssign "MapOfAnything" (EVal)] RSelf);
   ("WithMapOfAnythingItem", mkMeth (Some TAny) [SIfNil "MapOfAnything" "MapOfAnything" (EMake (TMap TAny)); SItem "MapOfAnything"] RSelf)].

(* openapi31/entities.go: methods between 3744 and 3911 *)
Definition b31_Components : list (string * meth) :=
  [("WithSchemas", mkMeth (Some (TMap (TMap TAny))) [SAssign "Schemas" (EVal)] RSelf);
   ("WithSchemasItem", mkMeth (Some (TMap TAny)) [SIfNil "Schemas" "Schemas" (EMake (TMap (TMap TAny))); SItem "Schemas"] RSelf);
   ("WithResponses", mkMeth (Some (TMap (TNamed "ResponseOrReference"))) [SAssign "Responses" (EVal)] RSelf);
   ("WithResponsesItem", mkMeth (Some (TNamed "ResponseOrReference")) [SIfNil "Responses" "Responses" (EMake (TMap (TNamed "ResponseOrReference"))); SItem "Responses"] RSelf);
   ("WithParameters", mkMeth (Some (TMap (TNamed "ParameterOrReference"))) [SAssign "Parameters" (EVal)] RSelf);
   ("WithParametersItem", mkMeth (Some (TNamed "ParameterOrReference")) [SIfNil "Parameters" "Parameters" (EMake (TMap (TNamed "ParameterOrReference"))); SItem "Parameters"] RSelf);
   ("WithExamples", mkMeth (Some (TMap (TNamed "ExampleOrReference"))) [SAssign "Examples" (EVal)] RSelf);
   ("WithExamplesItem", mkMeth (Some (TNamed "ExampleOrReference")) [SIfNil "Examples" "Examples" (EMake (TMap (TNamed "ExampleOrReference"))); SItem "Examples"] RSelf);
   ("WithRequestBodies", mkMeth (Some (TMap (TNamed "RequestBodyOrReference"))) [SAssign "RequestBodies" (EVal)] RSelf);
   ("WithRequestBodiesItem", mkMeth (Some (TNamed "RequestBodyOrReference")) [SIfNil "RequestBodies" "RequestBodies" (EMake (TMap (TNamed "RequestBodyOrReference"))); SItem "RequestBodies"] RSelf);
   ("WithHeaders", mkMeth (Some (TMap (TNamed "HeaderOrReference"))) [SAssign "Headers" (EVal)] RSelf);
   ("WithHeadersItem", mkMeth (Some (TNamed "HeaderOrReference")) [SIfNil "Headers" "Headers" (EMake (TMap (TNamed "HeaderOrReference"))); SItem "Headers"] RSelf);
   ("WithSecuritySchemes", mkMeth (Some (TMap (TNamed "SecuritySchemeOrReference"))) [SAssign "SecuritySchemes" (EVal)] RSelf);
   ("WithSecuritySchemesItem", mkMeth (Some (TNamed "SecuritySchemeOrReference")) [SIfNil "SecuritySchemes" "SecuritySchemes" (EMake (TMap (TNamed "SecuritySchemeOrReference"))); SItem "SecuritySchemes"] RSelf);
   ("WithLinks", mkMeth (Some (TMap (TNamed "LinkOrReference"))) [SAssign "Links" (EVal)] RSelf);
   ("WithLinksItem", mkMeth (Some (TNamed "LinkOrReference")) [SIfNil "Links" "Links" (EMake (TMap (TNamed "LinkOrReference"))); SItem "Links"] RSelf);
   ("WithCallbacks", mkMeth (Some (TMap (TNamed "CallbacksOrReference"))) [SAssign "Callbacks" (EVal)] RSelf);
   ("WithCallbacksItem", mkMeth (Some (TNamed "CallbacksOrReference")) [SIfNil "Callbacks" "Callbacks" (EMake (TMap (TNamed "CallbacksOrReference"))); SItem "Callbacks"] RSelf);
   ("WithPathItems", mkMeth (Some (TMap (TNamed "PathItemOrReference"))) [SAssign "PathItems" (EVal)] RSelf);
   ("WithPathItemsItem", mkMeth (Some (TNamed "PathItemOrReference")) [SIfNil "PathItems" "PathItems" (EMake (TMap (TNamed "PathItemOrReference"))); SItem "PathItems"] RSelf)].

(* openapi31/entities.go: methods between 3926 and 4036 *)
Definition b31_SecurityScheme : list (string * meth) :=
  [("WithDescription", mkMeth (Some TStr) [SAssign "Description" (EAddr)] RSelf);
   ("WithAPIKey", mkMeth (Some (TNamed "SecuritySchemeAPIKey")) [SAssign "APIKey" (EAddr)] RSelf);
   ("APIKeyEns", mkMeth (None) [SIfNil "APIKey" "APIKey" (ENew "SecuritySchemeAPIKey")] (RField "APIKey"));
   ("WithHTTP", mkMeth (Some (TNamed "SecuritySchemeHTTP")) [SAssign "HTTP" (EAddr)] RSelf);
   ("HTTPEns", mkMeth (None) [SIfNil "HTTP" "HTTP" (ENew "SecuritySchemeHTTP")] (RField "HTTP"));
   ("WithHTTPBearer", mkMeth (Some (TNamed "SecuritySchemeHTTPBearer")) [SAssign "HTTPBearer" (EAddr)] RSelf);
   ("HTTPBearerEns", mkMeth (None) [SIfNil "HTTPBearer" "HTTPBearer" (ENew "SecuritySchemeHTTPBearer")] (RField "HTTPBearer"));
   ("WithOauth2", mkMeth (Some (TNamed "SecuritySchemeOauth2")) [SAssign "Oauth2" (EAddr)] RSelf);
   ("Oauth2Ens", mkMeth (None) [SIfNil "Oauth2" "Oauth2" (ENew "SecuritySchemeOauth2")] (RField "Oauth2"));
   ("WithOidc", mkMeth (Some (TNamed "SecuritySchemeOidc")) [SAssign "Oidc" (EAddr)] RSelf);
   ("OidcEns", mkMeth (None) [SIfNil "Oidc" "Oidc" (ENew "SecuritySchemeOidc")] (RField "Oidc"));
   ("WithMutualTLS", mkMeth (Some (TNamed "MutualTLS")) [SAssign "MutualTLS" (EAddr)] RSelf);
   ("MutualTLSEns", mkMeth (None) [SIfNil "MutualTLS" "MutualTLS" (ENew "MutualTLS")] (RField "MutualTLS"));
   ("WithMapOfAnything", mkMeth (Some (TMap TAny)) [SAssign "MapOfAnything" (EVal)] RSelf);
   ("WithMapOfAnythingItem", mkMeth (Some TAny) [SIfNil "MapOfAnything" "MapOfAnything" (EMake (TMap TAny)); SItem "MapOfAnything"] RSelf)].

(* openapi31/entities.go: methods between 4173 and 4182 *)
Definition b31_SecuritySchemeAPIKey : list (string * meth) :=
  [("WithName", mkMeth (Some TStr) [SAssign "Name" (EVal)] RSelf);
   ("WithIn", mkMeth (Some (TNamed "SecuritySchemeAPIKeyIn")) [SAssign "In" (EVal)] RSelf)].

(* openapi31/entities.go: methods between 4241 and 4244 *)
Definition b31_SecuritySchemeHTTP : list (string * meth) :=
  [("WithScheme", mkMeth (Some TStr) [SAssign "Scheme" (EVal)] RSelf)].

(* openapi31/entities.go: methods between 4309 and 4318 *)
Definition b31_SecuritySchemeHTTPBearer : list (string * meth) :=
  [("WithScheme", mkMeth (Some TStr) [SAssign "Scheme" (EVal)] RSelf);
   ("WithBearerFormat", mkMeth (Some TStr) [SAssign "BearerFormat" (EAddr)] RSelf)].

(* openapi31/entities.go: methods between 4380 and 4383 *)
Definition b31_SecuritySchemeOauth2 : list (string * meth) :=
  [("WithFlows", mkMeth (Some (TNamed "OauthFlows")) [SAssign "Flows" (EVal)] RSelf)].

(* openapi31/entities.go: methods between 4445 and 4519 *)
Definition b31_OauthFlows : list (string * meth) :=
  [("WithImplicit", mkMeth (Some (TNamed "OauthFlowsDefsImplicit")) [SAssign "Implicit" (EAddr)] RSelf);
   ("ImplicitEns", mkMeth (None) [SIfNil "Implicit" "Implicit" (ENew "OauthFlowsDefsImplicit")] (RField "Implicit"));
   ("WithPassword", mkMeth (Some (TNamed "OauthFlowsDefsPassword")) [SAssign "Password" (EAddr)] RSelf);
   ("PasswordEns", mkMeth (None) [SIfNil "Password" "Password" (ENew "OauthFlowsDefsPassword")] (RField "Password"));
   ("WithClientCredentials", mkMeth (Some (TNamed "OauthFlowsDefsClientCredentials")) [SAssign "ClientCredentials" (EAddr)] RSelf);
   ("ClientCredentialsEns", mkMeth (None) [SIfNil "ClientCredentials" "ClientCredentials" (ENew "OauthFlowsDefsClientCredentials")] (RField "ClientCredentials"));
   ("WithAuthorizationCode", mkMeth (Some (TNamed "OauthFlowsDefsAuthorizationCode")) [SAssign "AuthorizationCode" (EAddr)] RSelf);
   ("AuthorizationCodeEns", mkMeth (None) [SIfNil "AuthorizationCode" "AuthorizationCode" (ENew "OauthFlowsDefsAuthorizationCode")] (RField "AuthorizationCode"));
   ("WithMapOfAnything", mkMeth (Some (TMap TAny)) [SAssign "MapOfAnything" (EVal)] RSelf);
   ("WithMapOfAnythingItem", mkMeth (Some TAny) [SIfNil "MapOfAnything" "MapOfAnything" (EMake (TMap TAny)); SItem "MapOfAnything"] RSelf)].

(* openapi31/entities.go: methods between 4598 and 4641 *)
Definition b31_OauthFlowsDefsImplicit : list (string * meth) :=
  [("WithAuthorizationURL", mkMeth (Some TStr) [SAssign "AuthorizationURL" (EVal)] RSelf);
   ("WithRefreshURL", mkMeth (Some TStr) [SAssign "RefreshURL" (EAddr)] RSelf);
   ("WithScopes", mkMeth (Some (TMap TStr)) [SAssign "Scopes" (EVal)] RSelf);
   ("WithScopesItem", mkMeth (Some TStr) [SIfNil "Scopes" "Scopes" (EMake (TMap TStr)); SItem "Scopes"] RSelf);
   ("WithMapOfAnything", mkMeth (Some (TMap TAny)) [SAssign "MapOfAnything" (EVal)] RSelf);
   ("WithMapOfAnythingItem", mkMeth (Some TAny) [SIfNil "MapOfAnything" "MapOfAnything" (EMake (TMap TAny)); SItem "MapOfAnything"] RSelf)].

(* openapi31/entities.go: methods between 4730 and 4773 *)
Definition b31_OauthFlowsDefsPassword : list (string * meth) :=
  [("WithTokenURL", mkMeth (Some TStr) [SAssign "TokenURL" (EVal)] RSelf);
   ("WithRefreshURL", mkMeth (Some TStr) [SAssign "RefreshURL" (EAddr)] RSelf);
   ("WithScopes", mkMeth (Some (TMap TStr)) [SAssign "Scopes" (EVal)] RSelf);
   ("WithScopesItem", mkMeth (Some TStr) [SIfNil "Scopes" "Scopes" (EMake (TMap TStr)); SItem "Scopes"] RSelf);
   ("WithMapOfAnything", mkMeth (Some (TMap TAny)) [SAssign "MapOfAnything" (EVal)] RSelf);
   ("WithMapOfAnythingItem", mkMeth (Some TAny) [SIfNil "MapOfAnything" "MapOfAnything" (EMake (TMap TAny)); SItem "MapOfAnything"] RSelf)].

(* openapi31/entities.go: methods between 4862 and 4905 *)
Definition b31_OauthFlowsDefsClientCredentials : list (string * meth) :=
  [("WithTokenURL", mkMeth (Some TStr) [SAssign "TokenURL" (EVal)] RSelf);
   ("WithRefreshURL", mkMeth (Some TStr) [SAssign "RefreshURL" (EAddr)] RSelf);
   ("WithScopes", mkMeth (Some (TMap TStr)) [SAssign "Scopes" (EVal)] RSelf);
   ("WithScopesItem", mkMeth (Some TStr) [SIfNil "Scopes" "Scopes" (EMake (TMap TStr)); SItem "Scopes"] RSelf);
   ("WithMapOfAnything", mkMeth (Some (TMap TAny)) [SAssign "MapOfAnything" (EVal)] RSelf);
   ("WithMapOfAnythingItem", mkMeth (Some TAny) [SIfNil "MapOfAnything" "MapOfAnything" (EMake (TMap TAny)); SItem "MapOfAnything"] RSelf)].

(* openapi31/entities.go: methods between 4997 and 5046 *)
Definition b31_OauthFlowsDefsAuthorizationCode : list (string * meth) :=
  [("WithAuthorizationURL", mkMeth (Some TStr) [SAssign "AuthorizationURL" (EVal)] RSelf);
   ("WithTokenURL", mkMeth (Some TStr) [SAssign "TokenURL" (EVal)] RSelf);
   ("WithRefreshURL", mkMeth (Some TStr) [SAssign "RefreshURL" (EAddr)] RSelf);
   ("WithScopes", mkMeth (Some (TMap TStr)) [SAssign "Scopes" (EVal)] RSelf);
   ("WithScopesItem", mkMeth (Some TStr) [SIfNil "Scopes" "Scopes" (EMake (TMap TStr)); SItem "Scopes"] RSelf);
   ("WithMapOfAnything", mkMeth (Some (TMap TAny)) [SAssign "MapOfAnything" (EVal)] RSelf);
   ("WithMapOfAnythingItem", mkMeth (Some TAny) [SIfNil "MapOfAnything" "MapOfAnything" (EMake (TMap TAny)); SItem "MapOfAnything"] RSelf)].

(* openapi31/entities.go: methods between 5134 and 5137 *)
Definition b31_SecuritySchemeOidc : list (string * meth) :=
  [("WithOpenIDConnectURL", mkMeth (Some TStr) [SAssign "OpenIDConnectURL" (EVal)] RSelf)].

(* openapi31/entities.go: methods between 5229 and 5256 *)
Definition b31_SecuritySchemeOrReference : list (string * meth) :=
  [("WithReference", mkMeth (Some (TNamed "Reference")) [SAssign "Reference" (EAddr)] RSelf);
   ("ReferenceEns", mkMeth (None) [SIfNil "Reference" "Reference" (ENew "Reference")] (RField "Reference"));
   ("WithSecurityScheme", mkMeth (Some (TNamed "SecurityScheme")) [SAssign "SecurityScheme" (EAddr)] RSelf);
   ("SecuritySchemeEns", mkMeth (None) [SIfNil "SecurityScheme" "SecurityScheme" (ENew "SecurityScheme")] (RField "SecurityScheme"))].

(* openapi31/entities.go: methods between 5302 and 5343 *)
Definition b31_Tag : list (string * meth) :=
  [("WithName", mkMeth (Some TStr) [SAssign "Name" (EVal)] RSelf);
   ("WithDescription", mkMeth (Some TStr) [SAssign "Description" (EAddr)] RSelf);
   ("WithExternalDocs", mkMeth (Some (TNamed "ExternalDocumentation")) [SAssign "ExternalDocs" (EAddr)] RSelf);
   ("ExternalDocsEns", mkMeth (None) [SIfNil "ExternalDocs" "ExternalDocs" (ENew "ExternalDocumentation")] (RField "ExternalDocs"));
   ("WithMapOfAnything", mkMeth (Some (TMap TAny)) [SAssign "MapOfAnything" (EVal)] RSelf);
   ("WithMapOfAnythingItem", mkMeth (Some TAny) [SIfNil "MapOfAnything" "MapOfAnything" (EMake (TMap TAny)); SItem "MapOfAnything"] RSelf)].

Definition M31 : list (string * list (string * meth)) :=
  [("Spec", b31_Spec);
   ("Info", b31_Info);
   ("Contact", b31_Contact);
   ("License", b31_License);
   ("Server", b31_Server);
   ("ServerVariable", b31_ServerVariable);
   ("PathItem", b31_PathItem);
   ("Reference", b31_Reference);
   ("Parameter", b31_Parameter);
   ("MediaType", b31_MediaType);
   ("Encoding", b31_Encoding);
   ("Header", b31_Header);
   ("Example", b31_Example);
   ("ExampleOrReference", b31_ExampleOrReference);
   ("HeaderOrReference", b31_HeaderOrReference);
   ("EncodingAllOf0", b31_EncodingAllOf0);
   ("Examples", b31_Examples);
   ("ParameterOrReference", b31_ParameterOrReference);
   ("Operation", b31_Operation);
   ("ExternalDocumentation", b31_ExternalDocumentation);
   ("RequestBody", b31_RequestBody);
   ("RequestBodyOrReference", b31_RequestBodyOrReference);
   ("Responses", b31_Responses);
   ("Response", b31_Response);
   ("Link", b31_Link);
   ("LinkOrReference", b31_LinkOrReference);
   ("ResponseOrReference", b31_ResponseOrReference);
   ("Callbacks", b31_Callbacks);
   ("PathItemOrReference", b31_PathItemOrReference);
   ("CallbacksOrReference", b31_CallbacksOrReference);
   ("Paths", b31_Paths);
   ("Components", b31_Components);
   ("SecurityScheme", b31_SecurityScheme);
   ("SecuritySchemeAPIKey", b31_SecuritySchemeAPIKey);
   ("SecuritySchemeHTTP", b31_SecuritySchemeHTTP);
   ("SecuritySchemeHTTPBearer", b31_SecuritySchemeHTTPBearer);
   ("SecuritySchemeOauth2", b31_SecuritySchemeOauth2);
   ("OauthFlows", b31_OauthFlows);
   ("OauthFlowsDefsImplicit", b31_OauthFlowsDefsImplicit);
   ("OauthFlowsDefsPassword", b31_OauthFlowsDefsPassword);
   ("OauthFlowsDefsClientCredentials", b31_OauthFlowsDefsClientCredentials);
   ("OauthFlowsDefsAuthorizationCode", b31_OauthFlowsDefsAuthorizationCode);
   ("SecuritySchemeOidc", b31_SecuritySchemeOidc);
   ("SecuritySchemeOrReference", b31_SecuritySchemeOrReference);
   ("Tag", b31_Tag)].
