(* The objects of the OpenAPI specifications as tables: required keys, fixed
   keys, constant keys, pattern keys and where they go.  Written from the
   specifications and the doc comments of the Go types, not from the decoders. *)
From Verif Require Import Str SMap Json CodecModel CodecTables CodecSpec.

Record obj := mkObj {
  o_req : list string;                      (* required keys *)
  o_keys : list string;                     (* fixed keys *)
  o_const : list (string * json);           (* fixed keys with one possible value, not stored *)
  o_pats : list (pat * (string * ty))       (* pattern keys: Go field that collects them, type of a value *)
}.

Definition ext : list (pat * (string * ty)) := [(PatX, ("MapOfAnything", TAny))].
Definition plain (req keys : list string) : obj := mkObj req keys [] ext.
Definition ref30 : obj := mkObj ["$ref"] ["$ref"] [] [].
Definition is_str (k s : string) : list (string * json) := [(k, JStr s)].

(* OpenAPI 3.0 *)
Definition objects30 : list (string * obj) :=
  [("Spec", plain ["openapi"; "info"; "paths"]
      ["openapi"; "info"; "externalDocs"; "servers"; "security"; "tags"; "paths"; "components"]);
   ("Info", plain ["title"; "version"] ["title"; "description"; "termsOfService"; "contact"; "license"; "version"]);
   ("Contact", plain [] ["name"; "url"; "email"]);
   ("License", plain ["name"] ["name"; "url"]);
   ("ExternalDocumentation", plain ["url"] ["description"; "url"]);
   ("Server", plain ["url"] ["url"; "description"; "variables"]);
   ("ServerVariable", plain ["default"] ["enum"; "default"; "description"]);
   ("Tag", plain ["name"] ["name"; "description"; "externalDocs"]);
   ("Paths", mkObj [] [] [] ((PatSlash, ("MapOfPathItemValues", TNamed "PathItem")) :: ext));
   ("PathItem", mkObj [] ["$ref"; "summary"; "description"; "servers"; "parameters"] []
      ((PatMethod, ("MapOfOperationValues", TNamed "Operation")) :: ext));
   ("Operation", plain ["responses"]
      ["tags"; "summary"; "description"; "externalDocs"; "operationId"; "parameters"; "requestBody"; "responses";
       "callbacks"; "deprecated"; "security"; "servers"]);
   ("Parameter", plain ["name"; "in"]
      ["name"; "in"; "description"; "required"; "deprecated"; "allowEmptyValue"; "style"; "explode"; "allowReserved";
       "schema"; "content"; "example"; "examples"]);
   ("RequestBody", plain ["content"] ["description"; "content"; "required"]);
   ("MediaType", plain [] ["schema"; "example"; "examples"; "encoding"]);
   ("Encoding", mkObj [] ["contentType"; "headers"; "style"; "explode"; "allowReserved"] [] []);
   ("Responses", mkObj [] ["default"] [] ((PatStatus, ("MapOfResponseOrRefValues", TNamed "ResponseOrRef")) :: ext));
   ("Response", plain ["description"] ["description"; "headers"; "content"; "links"]);
   ("Header", mkObj []
      ["description"; "required"; "deprecated"; "allowEmptyValue"; "style"; "explode"; "allowReserved"; "schema"; "content";
       "example"; "examples"] (is_str "style" "simple") ext);
   ("Example", plain [] ["summary"; "description"; "value"; "externalValue"]);
   ("Link", plain [] ["operationId"; "operationRef"; "parameters"; "requestBody"; "description"; "server"]);
   ("Schema", plain []
      ["title"; "multipleOf"; "maximum"; "exclusiveMaximum"; "minimum"; "exclusiveMinimum"; "maxLength"; "minLength"; "pattern";
       "maxItems"; "minItems"; "uniqueItems"; "maxProperties"; "minProperties"; "required"; "enum"; "type"; "not"; "allOf";
       "oneOf"; "anyOf"; "items"; "properties"; "additionalProperties"; "description"; "format"; "default"; "nullable";
       "discriminator"; "readOnly"; "writeOnly"; "example"; "externalDocs"; "deprecated"; "xml"]);
   ("XML", plain [] ["name"; "namespace"; "prefix"; "attribute"; "wrapped"]);
   ("Components", plain []
      ["schemas"; "responses"; "parameters"; "examples"; "requestBodies"; "headers"; "securitySchemes"; "links"; "callbacks"]);
   ("APIKeySecurityScheme", mkObj ["type"; "name"; "in"] ["type"; "name"; "in"; "description"] (is_str "type" "apiKey") ext);
   ("HTTPSecurityScheme", mkObj ["type"; "scheme"] ["type"; "scheme"; "bearerFormat"; "description"] (is_str "type" "http") ext);
   ("OAuth2SecurityScheme", mkObj ["type"; "flows"] ["type"; "flows"; "description"] (is_str "type" "oauth2") ext);
   ("OpenIDConnectSecurityScheme",
      mkObj ["type"; "openIdConnectUrl"] ["type"; "openIdConnectUrl"; "description"] (is_str "type" "openIdConnect") ext);
   ("OAuthFlows", plain [] ["implicit"; "password"; "clientCredentials"; "authorizationCode"]);
   ("ImplicitOAuthFlow", plain ["authorizationUrl"; "scopes"] ["authorizationUrl"; "refreshUrl"; "scopes"]);
   ("PasswordOAuthFlow", plain ["tokenUrl"] ["tokenUrl"; "refreshUrl"; "scopes"]);
   ("ClientCredentialsFlow", plain ["tokenUrl"] ["tokenUrl"; "refreshUrl"; "scopes"]);
   ("AuthorizationCodeOAuthFlow", plain ["authorizationUrl"; "tokenUrl"] ["authorizationUrl"; "tokenUrl"; "refreshUrl"; "scopes"]);
   ("SchemaReference", ref30); ("ParameterReference", ref30); ("ExampleReference", ref30); ("RequestBodyReference", ref30);
   ("ResponseReference", ref30); ("HeaderReference", ref30); ("LinkReference", ref30); ("CallbackReference", ref30);
   ("SecuritySchemeReference", ref30)].

(* The sections of the components of 3.0: legal names only. *)
Definition sections30 : list (string * obj) :=
  map (fun s => (fst s, mkObj [] [] [] [(PatName, snd s)]))
    [("ComponentsSchemas", ("MapOfSchemaOrRefValues", TNamed "SchemaOrRef"));
     ("ComponentsResponses", ("MapOfResponseOrRefValues", TNamed "ResponseOrRef"));
     ("ComponentsParameters", ("MapOfParameterOrRefValues", TNamed "ParameterOrRef"));
     ("ComponentsExamples", ("MapOfExampleOrRefValues", TNamed "ExampleOrRef"));
     ("ComponentsRequestBodies", ("MapOfRequestBodyOrRefValues", TNamed "RequestBodyOrRef"));
     ("ComponentsHeaders", ("MapOfHeaderOrRefValues", TNamed "HeaderOrRef"));
     ("ComponentsSecuritySchemes", ("MapOfSecuritySchemeOrRefValues", TNamed "SecuritySchemeOrRef"));
     ("ComponentsLinks", ("MapOfLinkOrRefValues", TNamed "LinkOrRef"));
     ("ComponentsCallbacks", ("MapOfCallbackOrRefValues", TNamed "CallbackOrRef"))].

(* OpenAPI 3.1: what the package has of the specification. *)
Definition objects31 : list (string * obj) :=
  [("Spec", plain ["openapi"; "info"]
      ["openapi"; "info"; "jsonSchemaDialect"; "servers"; "paths"; "webhooks"; "components"; "security"; "tags"; "externalDocs"]);
   ("Info", plain ["title"; "version"]
      ["title"; "summary"; "description"; "termsOfService"; "contact"; "license"; "version"]);
   ("Contact", plain [] ["name"; "url"; "email"]);
   ("License", plain ["name"] ["name"; "identifier"; "url"]);
   ("Server", plain ["url"] ["url"; "description"; "variables"]);
   ("ServerVariable", plain ["default"] ["enum"; "default"; "description"]);
   ("Paths", mkObj [] [] [] ((PatSlash, ("MapOfPathItemValues", TNamed "PathItem")) :: ext));
   ("PathItem", plain []
      ["summary"; "description"; "servers"; "parameters"; "get"; "put"; "post"; "delete"; "options"; "head"; "patch"; "trace"]);
   ("Operation", plain []
      ["tags"; "summary"; "description"; "externalDocs"; "operationId"; "parameters"; "requestBody"; "responses";
       "callbacks"; "deprecated"; "security"; "servers"]);
   ("ExternalDocumentation", plain ["url"] ["description"; "url"]);
   ("Parameter", plain ["name"; "in"]
      ["name"; "in"; "description"; "required"; "deprecated"; "schema"; "content"; "style"; "explode"; "example"; "examples"]);
   ("RequestBody", plain ["content"] ["description"; "content"; "required"]);
   ("MediaType", plain [] ["schema"; "encoding"; "example"; "examples"]);
   ("Encoding", mkObj [] ["contentType"; "headers"; "style"; "explode"; "allowReserved"] [] []);
   ("Responses", mkObj [] ["default"] [] ((PatStatus, ("MapOfResponseOrReferenceValues", TNamed "ResponseOrReference")) :: ext));
   ("Response", plain ["description"] ["description"; "headers"; "content"; "links"]);
   ("Header", mkObj [] ["description"; "required"; "deprecated"; "schema"; "content"; "style"; "explode"; "example"; "examples"]
      (is_str "style" "simple") ext);
   ("Link", plain [] ["operationRef"; "operationId"; "parameters"; "requestBody"; "description"; "body"]);
   ("Components", mkObj []
      ["schemas"; "responses"; "parameters"; "examples"; "requestBodies"; "headers"; "securitySchemes"; "links"; "callbacks";
       "pathItems"] [] []);
   ("Reference", mkObj ["$ref"] ["$ref"; "summary"; "description"] [] []);
   ("Tag", plain ["name"] ["name"; "description"; "externalDocs"]);
   ("OauthFlows", plain [] ["implicit"; "password"; "clientCredentials"; "authorizationCode"]);
   ("OauthFlowsDefsImplicit", plain ["authorizationUrl"; "scopes"] ["authorizationUrl"; "refreshUrl"; "scopes"]);
   ("OauthFlowsDefsPassword", plain ["tokenUrl"; "scopes"] ["tokenUrl"; "refreshUrl"; "scopes"]);
   ("OauthFlowsDefsClientCredentials", plain ["tokenUrl"; "scopes"] ["tokenUrl"; "refreshUrl"; "scopes"]);
   ("OauthFlowsDefsAuthorizationCode", plain ["authorizationUrl"; "tokenUrl"; "scopes"]
      ["authorizationUrl"; "tokenUrl"; "refreshUrl"; "scopes"]);
   ("SecurityScheme", plain ["type"] ["description"]);
   ("SecuritySchemeAPIKey", mkObj ["type"; "name"; "in"] ["type"; "name"; "in"] (is_str "type" "apiKey") []);
   ("SecuritySchemeHTTP", mkObj ["type"; "scheme"] ["type"; "scheme"] (is_str "type" "http") []);
   ("SecuritySchemeHTTPBearer", mkObj ["type"; "scheme"] ["type"; "scheme"; "bearerFormat"] (is_str "type" "http") []);
   ("SecuritySchemeOauth2", mkObj ["type"; "flows"] ["type"; "flows"] (is_str "type" "oauth2") []);
   ("SecuritySchemeOidc", mkObj ["type"; "openIdConnectUrl"] ["type"; "openIdConnectUrl"] (is_str "type" "openIdConnect") [])].

(* The choices: exactly one of some types. *)
Definition choices30 : list (string * list ty) :=
  let n := fun l => map (fun s => TPtr (TNamed s)) l in
  [("SchemaOrRef", n ["Schema"; "SchemaReference"]);
   ("SchemaAdditionalProperties", [TPtr (TNamed "SchemaOrRef"); TPtr TBool]);
   ("ParameterOrRef", n ["ParameterReference"; "Parameter"]);
   ("ExampleOrRef", n ["ExampleReference"; "Example"]);
   ("RequestBodyOrRef", n ["RequestBodyReference"; "RequestBody"]);
   ("ResponseOrRef", n ["ResponseReference"; "Response"]);
   ("HeaderOrRef", n ["HeaderReference"; "Header"]);
   ("LinkOrRef", n ["LinkReference"; "Link"]);
   ("CallbackOrRef", n ["CallbackReference"; "Callback"]);
   ("SecuritySchemeOrRef", n ["SecuritySchemeReference"; "SecurityScheme"]);
   ("SecurityScheme", n ["APIKeySecurityScheme"; "HTTPSecurityScheme"; "OAuth2SecurityScheme"; "OpenIDConnectSecurityScheme"])].
Definition choices31 : list (string * list ty) :=
  let n := fun l => map (fun s => TPtr (TNamed s)) l in
  [("ParameterOrReference", n ["Reference"; "Parameter"]);
   ("ExampleOrReference", n ["Reference"; "Example"]);
   ("RequestBodyOrReference", n ["Reference"; "RequestBody"]);
   ("ResponseOrReference", n ["Reference"; "Response"]);
   ("HeaderOrReference", n ["Reference"; "Header"]);
   ("LinkOrReference", n ["Reference"; "Link"]);
   ("CallbacksOrReference", n ["Reference"; "Callbacks"]);
   ("PathItemOrReference", n ["Reference"; "PathItem"]);
   ("SecuritySchemeOrReference", n ["Reference"; "SecurityScheme"])].

Section Kept.
  Variable T : list (string * ent).
  Variable rnd : Q -> Q.

  (* The Go name of the field for a fixed key. *)
  Definition spelled (k name : string) : Prop :=
    k = "$ref" /\ name = "Ref" \/ k = "operationId" /\ name = "ID" \/ to_lower k = to_lower name.
  (* The type and the value of the field with a name. *)
  Fixpoint by_name (name : string) (fs : list field) (vs : list val) : option (ty * val) :=
    match fs, vs with
    | f :: fs, v :: vs => if String.eqb (f_name f) name then Some (f_ty f, v) else by_name name fs vs
    | _, _ => None
    end.
  Definition fields_of (n : string) : list field :=
    match get n T with Some (EStruct fs _ _) => fs | _ => [] end.

  (* The fields [vs] of a [n] hold the member [k : j] of its object. *)
  Definition kept (n : string) (o : obj) (vs : list val) (k : string) (j : json) : Prop :=
    (exists c, In (k, c) (o_const o) /\ j = c) \/
    (exists name t w, spelled k name /\ by_name name (fields_of n) vs = Some (t, w) /\
       (unmarshal T rnd t j = Some w \/ t = TPtr TAny /\ j = JNull /\ w = VPtr (VAny JNull))) \/
    (exists p name t m w, In (p, (name, t)) (o_pats o) /\ legal p k /\
       by_name name (fields_of n) vs = Some (TMap t, VMap m) /\ get k m = Some w /\ unmarshal T rnd t j = Some w).

  (* Exactly one of [ts] accepts [j]: a struct with one field for each of them
     that holds what this one gives and nil otherwise. *)
  Definition chosen (ts : list ty) (j : json) (v : val) : Prop :=
    exists l t r w, ts = l ++ t :: r /\ unmarshal T rnd t j = Some w /\
      (forall t', In t' (l ++ r) -> unmarshal T rnd t' j = None) /\
      v = VStruct (map (fun _ => VNil) l ++ w :: map (fun _ => VNil) r).
End Kept.
