(* The types of the members of the objects of the OpenAPI specifications, and the
   enumerations.  Written from the specifications. *)
From Verif Require Import Str Json CodecModel.

Local Notation str := TStr.
Local Notation boolean := TBool.
Local Notation integer := TInt.
Local Notation number := TFloat.
Local Notation anything := TAny.
Local Notation "'listof' t" := (TArr t) (at level 9, t at level 9).
Local Notation "'mapof' t" := (TMap t) (at level 9, t at level 9).
Local Notation "'#' n" := (TNamed n) (at level 8, n at level 0).
Local Notation security := (TArr (TMap (TArr TStr))).
Definition all_str (l : list string) : list (string * ty) := map (fun k => (k, str)) l.
Definition all_bool (l : list string) : list (string * ty) := map (fun k => (k, boolean)) l.

(* OpenAPI 3.0.3.  Where the specification has "X Object | Reference Object" the
   package has the type XOrRef.  Not listed: the headers of an encoding, where
   the package does not allow references (see CodecProps.v). *)
Definition types30 : list (string * list (string * ty)) :=
  [("Spec", [("openapi", str); ("info", #"Info"); ("servers", listof #"Server"); ("paths", #"Paths"); ("components", #"Components");
      ("security", security); ("tags", listof #"Tag"); ("externalDocs", #"ExternalDocumentation")]);
   ("Info", all_str ["title"; "description"; "termsOfService"; "version"] ++ [("contact", #"Contact"); ("license", #"License")]);
   ("Contact", all_str ["name"; "url"; "email"]);
   ("License", all_str ["name"; "url"]);
   ("Server", all_str ["url"; "description"] ++ [("variables", mapof #"ServerVariable")]);
   ("ServerVariable", all_str ["default"; "description"] ++ [("enum", listof str)]);
   ("Components", [("schemas", #"ComponentsSchemas"); ("responses", #"ComponentsResponses"); ("parameters", #"ComponentsParameters");
      ("examples", #"ComponentsExamples"); ("requestBodies", #"ComponentsRequestBodies"); ("headers", #"ComponentsHeaders");
      ("securitySchemes", #"ComponentsSecuritySchemes"); ("links", #"ComponentsLinks"); ("callbacks", #"ComponentsCallbacks")]);
   ("PathItem", all_str ["$ref"; "summary"; "description"] ++ [("servers", listof #"Server"); ("parameters", listof #"ParameterOrRef")]);
   ("Operation", all_str ["summary"; "description"; "operationId"] ++
      [("tags", listof str); ("externalDocs", #"ExternalDocumentation"); ("parameters", listof #"ParameterOrRef");
       ("requestBody", #"RequestBodyOrRef"); ("responses", #"Responses"); ("callbacks", mapof #"CallbackOrRef");
       ("deprecated", boolean); ("security", security); ("servers", listof #"Server")]);
   ("ExternalDocumentation", all_str ["description"; "url"]);
   ("Parameter", all_str ["name"; "description"; "style"] ++
      all_bool ["required"; "deprecated"; "allowEmptyValue"; "explode"; "allowReserved"] ++
      [("in", #"ParameterIn"); ("schema", #"SchemaOrRef"); ("example", anything); ("examples", mapof #"ExampleOrRef");
       ("content", mapof #"MediaType")]);
   ("RequestBody", [("description", str); ("content", mapof #"MediaType"); ("required", boolean)]);
   ("MediaType", [("schema", #"SchemaOrRef"); ("example", anything); ("examples", mapof #"ExampleOrRef"); ("encoding", mapof #"Encoding")]);
   ("Encoding", [("contentType", str); ("style", #"EncodingStyle"); ("explode", boolean); ("allowReserved", boolean)]);
   ("Responses", [("default", #"ResponseOrRef")]);
   ("Response", [("description", str); ("headers", mapof #"HeaderOrRef"); ("content", mapof #"MediaType"); ("links", mapof #"LinkOrRef")]);
   ("Example", [("summary", str); ("description", str); ("value", anything); ("externalValue", str)]);
   ("Link", all_str ["operationRef"; "operationId"; "description"] ++
      [("parameters", mapof anything); ("requestBody", anything); ("server", #"Server")]);
   ("Header", ("description", str) :: all_bool ["required"; "deprecated"; "allowEmptyValue"; "explode"; "allowReserved"] ++
      [("style", str); ("schema", #"SchemaOrRef"); ("example", anything); ("examples", mapof #"ExampleOrRef"); ("content", mapof #"MediaType")]);
   ("Tag", [("name", str); ("description", str); ("externalDocs", #"ExternalDocumentation")]);
   ("Schema", all_str ["title"; "pattern"; "description"; "format"] ++
      map (fun k => (k, number)) ["multipleOf"; "maximum"; "minimum"] ++
      map (fun k => (k, integer)) ["maxLength"; "minLength"; "maxItems"; "minItems"; "maxProperties"; "minProperties"] ++
      all_bool ["exclusiveMaximum"; "exclusiveMinimum"; "uniqueItems"; "nullable"; "readOnly"; "writeOnly"; "deprecated"] ++
      map (fun k => (k, listof #"SchemaOrRef")) ["allOf"; "oneOf"; "anyOf"] ++
      [("required", listof str); ("enum", listof anything); ("type", #"SchemaType"); ("not", #"SchemaOrRef"); ("items", #"SchemaOrRef");
       ("properties", mapof #"SchemaOrRef"); ("additionalProperties", #"SchemaAdditionalProperties"); ("default", anything);
       ("discriminator", #"Discriminator"); ("xml", #"XML"); ("externalDocs", #"ExternalDocumentation"); ("example", anything)]);
   ("XML", all_str ["name"; "namespace"; "prefix"] ++ all_bool ["attribute"; "wrapped"]);
   ("APIKeySecurityScheme", [("type", str); ("name", str); ("in", #"APIKeySecuritySchemeIn"); ("description", str)]);
   ("HTTPSecurityScheme", all_str ["type"; "scheme"; "bearerFormat"; "description"]);
   ("OAuth2SecurityScheme", [("type", str); ("flows", #"OAuthFlows"); ("description", str)]);
   ("OpenIDConnectSecurityScheme", all_str ["type"; "openIdConnectUrl"; "description"]);
   ("OAuthFlows", [("implicit", #"ImplicitOAuthFlow"); ("password", #"PasswordOAuthFlow"); ("clientCredentials", #"ClientCredentialsFlow");
      ("authorizationCode", #"AuthorizationCodeOAuthFlow")]);
   ("ImplicitOAuthFlow", all_str ["authorizationUrl"; "refreshUrl"] ++ [("scopes", mapof str)]);
   ("PasswordOAuthFlow", all_str ["tokenUrl"; "refreshUrl"] ++ [("scopes", mapof str)]);
   ("ClientCredentialsFlow", all_str ["tokenUrl"; "refreshUrl"] ++ [("scopes", mapof str)]);
   ("AuthorizationCodeOAuthFlow", all_str ["authorizationUrl"; "tokenUrl"; "refreshUrl"] ++ [("scopes", mapof str)]);
   ("SchemaReference", all_str ["$ref"]); ("ParameterReference", all_str ["$ref"]); ("ExampleReference", all_str ["$ref"]);
   ("RequestBodyReference", all_str ["$ref"]); ("ResponseReference", all_str ["$ref"]); ("HeaderReference", all_str ["$ref"]);
   ("LinkReference", all_str ["$ref"]); ("CallbackReference", all_str ["$ref"]); ("SecuritySchemeReference", all_str ["$ref"])].

(* OpenAPI 3.1.0.  Schemas are JSON objects that the package does not look into
   (boolean schemas are not allowed, see CodecProps.v); the link parameters are
   strings in the package. *)
Definition types31 : list (string * list (string * ty)) :=
  [("Spec", [("openapi", str); ("info", #"Info"); ("jsonSchemaDialect", str); ("servers", listof #"Server"); ("paths", #"Paths");
      ("webhooks", mapof #"PathItemOrReference"); ("components", #"Components"); ("security", security); ("tags", listof #"Tag");
      ("externalDocs", #"ExternalDocumentation")]);
   ("Info", all_str ["title"; "summary"; "description"; "termsOfService"; "version"] ++ [("contact", #"Contact"); ("license", #"License")]);
   ("Contact", all_str ["name"; "url"; "email"]);
   ("License", all_str ["name"; "identifier"; "url"]);
   ("Server", all_str ["url"; "description"] ++ [("variables", mapof #"ServerVariable")]);
   ("ServerVariable", all_str ["default"; "description"] ++ [("enum", listof str)]);
   ("Components", [("schemas", mapof (mapof anything)); ("responses", mapof #"ResponseOrReference"); ("parameters", mapof #"ParameterOrReference");
      ("examples", mapof #"ExampleOrReference"); ("requestBodies", mapof #"RequestBodyOrReference"); ("headers", mapof #"HeaderOrReference");
      ("securitySchemes", mapof #"SecuritySchemeOrReference"); ("links", mapof #"LinkOrReference"); ("callbacks", mapof #"CallbacksOrReference");
      ("pathItems", mapof #"PathItemOrReference")]);
   ("PathItem", all_str ["summary"; "description"] ++ [("servers", listof #"Server"); ("parameters", listof #"ParameterOrReference")] ++
      map (fun k => (k, #"Operation")) ["get"; "put"; "post"; "delete"; "options"; "head"; "patch"; "trace"]);
   ("Operation", all_str ["summary"; "description"; "operationId"] ++
      [("tags", listof str); ("externalDocs", #"ExternalDocumentation"); ("parameters", listof #"ParameterOrReference");
       ("requestBody", #"RequestBodyOrReference"); ("responses", #"Responses"); ("callbacks", mapof #"CallbacksOrReference");
       ("deprecated", boolean); ("security", security); ("servers", listof #"Server")]);
   ("ExternalDocumentation", all_str ["description"; "url"]);
   ("Parameter", all_str ["name"; "description"] ++ all_bool ["required"; "deprecated"; "explode"] ++
      [("in", #"ParameterIn"); ("style", #"ParameterStyle"); ("schema", mapof anything); ("example", anything);
       ("examples", mapof #"ExampleOrReference"); ("content", mapof #"MediaType")]);
   ("RequestBody", [("description", str); ("content", mapof #"MediaType"); ("required", boolean)]);
   ("MediaType", [("schema", mapof anything); ("example", anything); ("examples", mapof #"ExampleOrReference"); ("encoding", mapof #"Encoding")]);
   ("Encoding", [("contentType", str); ("headers", mapof #"HeaderOrReference"); ("style", #"EncodingStyle"); ("explode", boolean);
      ("allowReserved", boolean)]);
   ("Responses", [("default", #"ResponseOrReference")]);
   ("Response", [("description", str); ("headers", mapof #"HeaderOrReference"); ("content", mapof #"MediaType"); ("links", mapof #"LinkOrReference")]);
   ("Link", all_str ["operationRef"; "operationId"; "description"] ++
      [("parameters", mapof str); ("requestBody", anything); ("body", #"Server")]);
   ("Header", ("description", str) :: all_bool ["required"; "deprecated"; "explode"] ++
      [("style", str); ("schema", mapof anything); ("example", anything); ("examples", mapof #"ExampleOrReference"); ("content", mapof #"MediaType")]);
   ("Tag", [("name", str); ("description", str); ("externalDocs", #"ExternalDocumentation")]);
   ("Reference", all_str ["$ref"; "summary"; "description"]);
   ("OauthFlows", [("implicit", #"OauthFlowsDefsImplicit"); ("password", #"OauthFlowsDefsPassword");
      ("clientCredentials", #"OauthFlowsDefsClientCredentials"); ("authorizationCode", #"OauthFlowsDefsAuthorizationCode")]);
   ("OauthFlowsDefsImplicit", all_str ["authorizationUrl"; "refreshUrl"] ++ [("scopes", mapof str)]);
   ("OauthFlowsDefsPassword", all_str ["tokenUrl"; "refreshUrl"] ++ [("scopes", mapof str)]);
   ("OauthFlowsDefsClientCredentials", all_str ["tokenUrl"; "refreshUrl"] ++ [("scopes", mapof str)]);
   ("OauthFlowsDefsAuthorizationCode", all_str ["authorizationUrl"; "tokenUrl"; "refreshUrl"] ++ [("scopes", mapof str)]);
   ("SecurityScheme", all_str ["description"]);
   ("SecuritySchemeAPIKey", [("type", str); ("name", str); ("in", #"SecuritySchemeAPIKeyIn")]);
   ("SecuritySchemeHTTP", all_str ["type"; "scheme"]);
   ("SecuritySchemeHTTPBearer", all_str ["type"; "scheme"; "bearerFormat"]);
   ("SecuritySchemeOauth2", [("type", str); ("flows", #"OauthFlows")]);
   ("SecuritySchemeOidc", all_str ["type"; "openIdConnectUrl"])].

(* Enumerations.  The styles of 3.1 parameters are those of query parameters. *)
Definition enums30 : list (string * list string) :=
  [("ParameterIn", ["query"; "header"; "path"; "cookie"]);
   ("SchemaType", ["string"; "number"; "integer"; "boolean"; "array"; "object"]);
   ("EncodingStyle", ["form"; "spaceDelimited"; "pipeDelimited"; "deepObject"]);
   ("PathParameterStyle", ["simple"; "label"; "matrix"]);
   ("QueryParameterStyle", ["form"; "spaceDelimited"; "pipeDelimited"; "deepObject"]);
   ("APIKeySecuritySchemeIn", ["query"; "header"; "cookie"])].
Definition enums31 : list (string * list string) :=
  [("ParameterIn", ["query"; "header"; "path"; "cookie"]);
   ("EncodingStyle", ["form"; "spaceDelimited"; "pipeDelimited"; "deepObject"]);
   ("ParameterStyle", ["form"; "spaceDelimited"; "pipeDelimited"; "deepObject"]);
   ("SecuritySchemeAPIKeyIn", ["query"; "header"; "cookie"])].
