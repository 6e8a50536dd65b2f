import json
P=[]
def p(title, statement, quantifier, why, anchors):
    P.append(dict(id="C%02d"%(len(P)+1), title=title, statement=statement, quantifier=quantifier, why_tests_cant=why, anchors=anchors))

p("HTTP method normalisation",
  "SanitizeMethodPath (and hence Spec.AddOperation, Spec.SetupOperation and Reflector.NewOperationContext in both packages) succeeds exactly when the lower-cased method is one of get, put, post, delete, options, head, patch, trace, and then returns that lower-cased method; every other method string is an error and returns no path.",
  "every method string and every path pattern", "the set of method strings is infinite; tests only try 'bar', 'GET' and similar",
  ["operation.go:SanitizeMethodPath"])
p("Path cleaning removes exactly the placeholder constraints",
  "The clean path returned for a pattern is the pattern with the ':constraint' part of every well formed {name:constraint} placeholder removed and every other byte kept in place and in order, even though the code edits the whole string with 'replace first occurrence'.",
  "every path pattern (any byte string, including nested, repeated and unbalanced braces)", "the code uses strings.Replace on the full text, so correctness depends on which occurrence is hit first; tests try eleven well behaved patterns",
  ["operation.go:SanitizeMethodPath", "operation.go:regexFindPathParameter"])
p("Reported placeholder names",
  "The list of placeholder names returned for a pattern is exactly the names of its placeholders, left to right; each name is non-empty and contains neither '}' nor ':', and each {name} literally occurs in the clean path.",
  "every path pattern", "needs a scan argument over all byte strings",
  ["operation.go:SanitizeMethodPath"])
p("Sanitising is idempotent",
  "Sanitising an already sanitised (method, path) pair returns the same method, path and placeholder names; in particular Spec.AddOperation applied to a path that came from Reflector.NewOperationContext does not rename it again.",
  "every method and path pattern accepted once", "idempotence is a statement over all strings",
  ["operation.go:SanitizeMethodPath", "openapi3/reflect.go:NewOperationContext", "openapi31/reflect.go:NewOperationContext"])
p("Constraint text does not matter",
  "Two patterns that differ only in the constraint text of their placeholders get the same clean path and the same placeholder names, so they denote the same entry of paths.",
  "every pair of patterns with equal literal segments and placeholder names", "relational property over pairs of inputs",
  ["operation.go:SanitizeMethodPath"])
p("Path parameters match placeholders (3.0)",
  "openapi3 Spec.AddOperation/SetupOperation accept an operation exactly when (a) no two inline parameters have the same name and location, (b) every placeholder of the path has an inline 'in: path' parameter and (c) every inline 'in: path' parameter has a placeholder.",
  "every parameter list, every path", "quantifies over all parameter lists and names (including names that collide when glued to the location)",
  ["openapi3/helper.go:validatePathParams"])
p("Path parameters match placeholders (3.1)",
  "The same acceptance condition for openapi31 Spec.AddOperation and SetupOperation.",
  "every parameter list, every path", "as C06",
  ["openapi31/helper.go:validatePathParams"])
p("AddOperation never replaces an operation (3.0)",
  "A successful openapi3 Spec.AddOperation leaves every operation that was already documented in place and unchanged; adding a second operation for the same method and path is an error.",
  "every specification state, method, path and operation; and every history of calls", "histories are unbounded; the existence check uses a different key than the store, which only shows for particular pairs of patterns",
  ["openapi3/helper.go:AddOperation", "openapi3/helper.go:SetupOperation"])
p("AddOperation never replaces an operation (3.1)",
  "The same for openapi31 Spec.AddOperation.",
  "every specification state, method, path and operation; and every history of calls", "as C08",
  ["openapi31/helper.go:AddOperation", "openapi31/helper.go:SetupOperation"])
p("Frame of AddOperation",
  "A successful AddOperation/SetupOperation for (method, path) changes only the entry of that method under the clean path: every other method of that path item and every other path, and all other parts of the document, stay the same, and the new entry is the operation given (3.0: after setup functions; 3.1: likewise).",
  "every specification state and call, both packages", "frame conditions range over all other keys of an unbounded map",
  ["openapi3/helper.go:SetupOperation", "openapi31/helper.go:SetupOperation", "openapi31/helper.go:PathItem.SetOperation"])
p("Failed additions are atomic (3.0)",
  "If openapi3 Spec.AddOperation or Spec.SetupOperation returns an error, the documented paths are exactly as before the call.",
  "every specification state and every failing call", "every error return at every state",
  ["openapi3/helper.go:SetupOperation", "openapi3/helper.go:AddOperation"])
p("Failed additions are atomic (3.1)",
  "If openapi31 Spec.AddOperation, Spec.SetupOperation or Spec.AddWebhook returns an error, the documented paths and webhooks are exactly as before the call.",
  "every specification state and every failing call", "needs aliasing of *Operation to be taken into account",
  ["openapi31/helper.go:SetupOperation", "openapi31/helper.go:AddOperation", "openapi31/helper.go:AddWebhook"])
p("Reachable documents are coherent",
  "After any sequence of Spec.AddOperation calls starting from an empty document, every documented operation sits under one of the eight lower-case methods, under a clean path, has no duplicate (name, location) parameter, and its path parameters are exactly the path's placeholders.",
  "every finite history of calls (succeeding or failing), both packages", "invariant over unbounded histories",
  ["openapi3/helper.go", "openapi31/helper.go"])
p("Webhook registration",
  "openapi31 Spec.AddWebhook accepts exactly the eight methods (any case), refuses a name that is already a webhook, whatever the method, and otherwise stores a path item holding only the given operation under that name and touches nothing else; hence in any history the first registration of a name wins.",
  "every document state, webhook name, method and operation; every history", "histories and names are unbounded",
  ["openapi31/helper.go:AddWebhook"])
p("Reflector.AddOperation never replaces an operation",
  "For both reflectors, adding an operation context whose (method, clean path) is already documented is an error, and a successful call with a context that was not accepted before leaves every other documented operation unchanged (for contexts that are used again see C95).",
  "every reflector state, every context created by NewOperationContext, every reflected structure; every history", "the check key and the store key coincide only because sanitising is idempotent",
  ["openapi3/reflect.go:AddOperation", "openapi31/reflect.go:AddOperation"])
p("Default response",
  "An operation accepted by Reflector.AddOperation always has at least one response; if no response structure was added and none was present, it is exactly one 204 response described 'No Content'; if some were added, no 204 is invented.",
  "every operation context", "all lists of response units",
  ["openapi3/reflect.go:AddOperation", "openapi3/reflect.go:setupResponse", "openapi31/reflect.go:setupOC"])
p("Response key of a content unit",
  "A response unit is filed under 'default' if it is the default one, under 'NXX' when its HTTPStatus N is 1..5, under '200' when it has no status, and under the decimal status in all other cases; two different statuses never share a key except 0 with 200.",
  "every content unit and every integer status", "infinite status range; injectivity is relational",
  ["openapi3/reflect.go:setupResponse", "openapi31/reflect.go:setupResponse"])
p("Units of one status are merged",
  "Several response units with the same status produce one response whose content types are the union of the units' content types; no unit removes a content type contributed by an earlier unit with another content type.",
  "every list of response units", "all lists, all orders",
  ["openapi3/reflect.go:setupResponse", "openapi31/reflect.go:setupResponse"])
p("Response headers of merged units",
  "When several units share a status, headers documented by an earlier unit are still documented after a later one is processed.",
  "every list of response units", "depends on pairs of units",
  ["openapi3/reflect.go:parseResponseHeader", "openapi31/reflect.go:parseResponseHeader"])
p("HEAD responses have no content",
  "No response of an operation created for method HEAD carries content that was derived from response structures.",
  "every operation context with method HEAD", "all contexts",
  ["openapi3/reflect.go:setupResponse", "openapi3/reflect.go:parseJSONResponse", "openapi31/reflect.go:parseJSONResponse"])
p("Response description",
  "Every inline response produced by Reflector.AddOperation has as description: the last non-empty unit description for that status, otherwise the description already there, otherwise the description found in the reflected body or header structure, otherwise the standard text of the status (no status is read as 200; a status class or the default response has no standard text).",
  "every operation context", "all lists of units",
  ["openapi3/reflect.go:setupResponse", "openapi31/reflect.go:setupResponse"])
p("Parameters collected from structures",
  "The parameters that Reflector.AddOperation adds for a request structure are, in the order query, path, cookie, header, one per tagged top-level property, each with the location of its tag, never two with the same name and location; path parameters are always required.",
  "every request structure (any reflection result), every operation context", "all reflection results",
  ["openapi3/reflect.go:parseParametersIn", "openapi31/reflect.go:parseParametersIn"])
p("Collection formats",
  "An array parameter's collectionFormat tag is rendered with the documented style/explode pair: csv -> form/false, ssv -> spaceDelimited/false, pipes -> pipeDelimited/false, multi -> form/true, and no other property gets an explode set this way.",
  "every reflected property", "all tag values",
  ["openapi3/reflect.go:parseParametersIn", "openapi31/reflect.go:parseParametersIn"])
p("No request body for safe methods",
  "For GET, HEAD, DELETE and TRACE no request body is derived from a request structure unless the structure forces it, has fields tagged with a content type, or the unit has a content type for which no structure is reflected.",
  "every request structure, every such operation context", "all structures",
  ["internal/json_schema.go:ReflectRequestBody", "openapi3/reflect.go:parseRequestBody", "openapi31/reflect.go:parseRequestBody"])
p("File uploads are multipart",
  "If a form structure contains a file upload, its schema is filed under multipart/form-data and not under application/x-www-form-urlencoded; if it has none, the converse.",
  "every request structure", "all structures",
  ["openapi3/reflect.go:parseRequestBody", "openapi31/reflect.go:parseRequestBody"])
p("Failing reflection keeps the documented paths",
  "If Reflector.AddOperation is called with a context that was not accepted before (see C95) and returns an error then the documented paths (and webhooks) are unchanged, while component schemas can only grow: no component present before is removed.",
  "every reflector state, every context and every failing reflection", "every error position in the pipeline",
  ["openapi3/reflect.go:AddOperation", "openapi31/reflect.go:AddOperation"])
p("Component names are legal",
  "Every component name the reflectors derive from a definition name consists only of letters, digits, '.', '-' and '_', a legal name is kept as it is, and sanitising is idempotent.",
  "every definition name", "all strings",
  ["openapi3/reflect.go:sanitizeDefName", "openapi3/reflect.go:collectDefinition", "internal/json_schema.go:sanitizeDefName"])
p("Different definitions get different component names",
  "Two different definition names never end up as the same component name.",
  "every pair of definition names", "relational over pairs",
  ["internal/json_schema.go:sanitizeDefName"])
p("FromJSONSchema keeps the meaning of supported schemas",
  "For schemas that use only keywords OpenAPI 3.0 has (no exclusive bounds, at most one non-null type, no boolean 'false'/const/patternProperties and the like) the OpenAPI schema produced by SchemaOrRef.FromJSONSchema accepts exactly the same JSON values as the JSON schema, also through (possibly cyclic) references.",
  "every such schema, every set of definitions, every JSON value", "recursive schemas, unbounded values",
  ["openapi3/jsonschema.go:FromJSONSchema"])
p("FromJSONSchema keeps exclusive bounds",
  "A JSON schema with exclusiveMaximum or exclusiveMinimum is converted into an OpenAPI schema that accepts exactly the same numbers.",
  "every schema with exclusive bounds, every number", "a pair of numbers around the bound is needed",
  ["openapi3/jsonschema.go:FromJSONSchema"])
p("ToJSONSchema keeps the meaning of schemas",
  "For OpenAPI 3.0 schemas (nullable only next to type) the JSON schema produced by SchemaOrRef.ToJSONSchema accepts exactly the same JSON values, also through (possibly cyclic) references.",
  "every such schema, every component map, every JSON value", "recursive schemas, unbounded values",
  ["openapi3/jsonschema.go:ToJSONSchema", "openapi3/jsonschema.go:toJSONSchema"])
p("Schema conversions round-trip",
  "Converting an OpenAPI 3.0 schema to JSON schema and back with ToJSONSchema/FromJSONSchema yields the same schema, except for the keywords that the conversion documents as unsupported.",
  "every schema in the supported set", "structural induction over schemas",
  ["openapi3/jsonschema.go"])
p("FromJSONSchema is total on well formed schemas",
  "FromJSONSchema panics exactly when a SchemaOrBool with neither a boolean nor an object is met where it is converted; on all other schemas it returns.",
  "every JSON schema", "all schema trees",
  ["openapi3/jsonschema.go:FromJSONSchema"])
p("ToJSONSchema terminates on cyclic components (3.0)",
  "ToJSONSchema returns for every schema and every component map, including mutually recursive components.",
  "every schema, every component map", "non-termination cannot be tested",
  ["openapi3/jsonschema.go:toJSONSchema"])
p("ToJSONSchema terminates on cyclic components (3.1)",
  "The same for openapi31.ToJSONSchema.",
  "every schema, every component map", "non-termination cannot be tested",
  ["openapi31/jsonschema.go:ToJSONSchema", "openapi31/jsonschema.go:findReferences"])
p("ToJSONSchema output is self-contained (3.0)",
  "Every local reference '#/components/schemas/N' that occurs anywhere in the schema returned by ToJSONSchema, including inside its attached definitions, has an attached definition N, and that definition is the conversion of component N.",
  "every schema, every component map", "closure over an arbitrary reference graph",
  ["openapi3/jsonschema.go:ToJSONSchema"])
p("ToJSONSchema output is self-contained (3.1)",
  "The same for openapi31.ToJSONSchema.",
  "every schema, every component map", "closure over an arbitrary reference graph",
  ["openapi31/jsonschema.go:ToJSONSchema", "openapi31/jsonschema.go:findReferences"])
p("ToJSONSchema does not depend on map order",
  "The result of ToJSONSchema (schema, set of attached definitions, whether the root is inlined) is the same for every iteration order of the Go maps involved.",
  "every pair of iteration orders", "Go randomises map iteration; a test sees one order",
  ["openapi3/jsonschema.go:toJSONSchema", "openapi31/jsonschema.go:findReferences"])
p("Root references are inlined only when safe",
  "When the schema passed to ToJSONSchema is a reference, the result is the referenced component itself without an attached copy exactly if nothing reachable refers to it again; otherwise the reference and its definition are kept.",
  "every schema, every component map", "arbitrary reference graph",
  ["openapi3/jsonschema.go:ToJSONSchema", "openapi31/jsonschema.go:ToJSONSchema"])
p("Union marshalling concatenates objects",
  "The JSON produced for an entity that is assembled from several parts is a well formed JSON object whose members are the members of the parts, in order; empty and null parts contribute nothing.",
  "every list of parts whose encodings are JSON objects, null or empty objects", "all byte strings",
  ["openapi3/entities.go:marshalUnion", "openapi31/entities.go:marshalUnion"])
p("JSON round trip (3.0)",
  "Every well formed value of every entity type of openapi3 can be encoded, and decoding the result gives back the same value, except that decoding also fills members that repeat others (SchemaXORContent and Location of a Parameter, Bearer and NonBearer of an HTTPSecurityScheme); different values have different encodings. Well formed: map keys are legal for their place (status codes, methods, component names, paths, x- extensions), unions hold exactly one alternative, no list or map is empty without being nil where it would be omitted, parameters and links are consistent.",
  "every well formed entity value of every generated type", "the entity types are recursive and there are about seventy of them",
  ["openapi3/entities.go"])
p("JSON round trip (3.1)",
  "Every well formed value of every entity type of openapi31 can be encoded, and decoding the result gives back exactly the same value. Well formed as for 3.0; values that no JSON text decodes to (see the property on reading 3.1 documents) are left out.",
  "every well formed entity value of every generated type", "as C41",
  ["openapi31/entities.go"])
p("Strict decoding (3.0)",
  "Decoding an OpenAPI 3.0 object fails when a required key is missing or when a key is neither a key of the specification, nor a legal pattern key, nor an x- extension; no member of an accepted object (without repeated keys) is dropped: its decoded value is in the field that carries its name, or in the map of pattern keys; where the specification offers alternatives, exactly those values are accepted that exactly one alternative accepts.",
  "every JSON value, every generated entity type with closed properties", "all JSON values",
  ["openapi3/entities.go"])
p("YAML output keeps the key order of the JSON object",
  "The top-level key order computed for MarshalYAML is exactly the order of the keys in the JSON document, whatever the nesting of the values, and values are skipped exactly.",
  "every JSON object", "arbitrary nesting",
  ["openapi3/yaml.go:objectKeys", "openapi3/yaml.go:skipValue", "openapi31/yaml.go"])
p("YAML input becomes string-keyed",
  "The value handed to the JSON decoder by UnmarshalYAML contains only string-keyed maps at every depth, and equals the YAML value with keys printed; the result does not depend on map iteration order as long as no two keys of one map print the same.",
  "every YAML value, every iteration order", "map order and arbitrary nesting",
  ["openapi3/yaml.go:convertMapI2MapS", "openapi31/yaml.go:convertMapI2MapS"])
p("Request walker visits each parameter once",
  "WalkRequestJSONSchemas calls the parameter callback exactly once per documented parameter, in document order, with the parameter's name, location and required flag (true for path), then, in any order, once per form field and once for the JSON body; it stops at the first callback error and returns it.",
  "every content unit, every callback behaviour", "all callback behaviours (including failing at any point)",
  ["openapi3/walk_schema.go", "openapi31/walk_schema.go"])
p("Walkers call done exactly once",
  "WalkRequestJSONSchemas and WalkResponseJSONSchemas call the done function exactly once on every return path, including errors, after all schema callbacks.",
  "every content unit and callback behaviour", "every error position",
  ["openapi3/walk_schema.go", "openapi31/walk_schema.go"])
p("Response walker is total",
  "WalkResponseJSONSchemas returns (with or without an error) for every content unit.",
  "every content unit", "needs a particular combination of unit fields",
  ["openapi3/walk_schema.go:WalkResponseJSONSchemas", "openapi31/walk_schema.go:WalkResponseJSONSchemas"])
p("Operation context getters and setters",
  "On the operation contexts of both packages each setter is observed by its getter (setting an empty text or false clears), setting one attribute does not change another, and AddSecurity appends requirements in call order with non-null scopes.",
  "every sequence of setter calls", "sequences of calls",
  ["openapi3/reflect.go:operationContext", "openapi31/reflect.go:operationContext", "internal/operation_context.go"])
p("Security scheme registration",
  "Each security setter stores under the given name a scheme with exactly the given data, replaces only that name, and keeps the other schemes and the rest of the document.",
  "every document and every argument", "frame property over unbounded maps",
  ["openapi3/helper.go:SetHTTPBasicSecurity", "openapi31/helper.go:SetHTTPBasicSecurity"])
p("3.0 and 3.1 agree",
  "Spec.AddOperation of the two packages accept and reject the same calls with the same error, starting from corresponding documents, and corresponding documents remain corresponding.",
  "every history of calls", "relational property of two programs over histories",
  ["openapi3/helper.go", "openapi31/helper.go"])
p("Deprecated entry points agree",
  "The deprecated SetRequest/SetupRequest/SetJSONResponse/SetupResponse of openapi3 change the operation exactly as the same structures do through an operation context, and a context survives the conversion to the deprecated form and back.",
  "every operation and content unit", "relational property over all inputs",
  ["openapi3/reflect_deprecated.go", "openapi3/reflect.go:toOpCtx", "openapi3/reflect.go:fromOpCtx"])
p("Unknown parameters are forbidden where the structure says so",
  "An operation accepted by Reflector.AddOperation carries the extension x-forbid-unknown-<location> = true for exactly the locations in which a request structure forbids unknown parameters (besides extensions already there), and no other extension changes.",
  "every operation context and request structure", "all reflection results and all extension names",
  ["openapi3/reflect.go:parseParametersIn", "openapi31/reflect.go:parseParametersIn"])
p("Reflection leaves the other operation members alone",
  "Reflector.AddOperation and AddWebhook keep tags, summary, description, id, deprecation, security and the remaining members of the operation of the context.",
  "every operation context and reflection result", "frame property",
  ["openapi3/reflect.go:AddOperation", "openapi31/reflect.go:setupOC"])
p("Existing component schemas are not replaced",
  "Reflector.AddOperation and AddWebhook leave every component schema that is already in the document as it is, whether the call succeeds or not.",
  "every reflector state, every context and reflection result", "depends on a collision between a component and a definition reported by a later call",
  ["openapi3/reflect.go:collectDefinition", "openapi3/reflect.go:parseRequestBody", "openapi31/reflect.go:parseRequestBody"])
p("Every reported definition is registered",
  "After a successful Reflector.AddOperation or AddWebhook every definition that reflection reports for the parameters of the request structures and for the JSON responses is a component of the document, so references to it resolve.",
  "every reflector state, every context and reflection result", "all reflection results",
  ["openapi3/reflect.go:collectDefinition", "openapi31/reflect.go:collectDefinition"])
p("Response walker visits each header and body once",
  "WalkResponseJSONSchemas calls the callback exactly once per documented header with a schema, with the canonical header name and the required flag, then exactly once per media type with a schema; it stops at the first callback error and returns it.",
  "every response content unit, every callback and every map iteration order", "map iteration order and callback errors at every position",
  ["openapi3/walk_schema.go:WalkResponseJSONSchemas", "openapi31/walk_schema.go:WalkResponseJSONSchemas"])
p("Document information getters and setters",
  "Title, Version and Description of a document show the argument of the last call of their setters (or what was there before); no other member of the document changes.",
  "every document and every sequence of setter calls", "sequences of calls, frame property",
  ["openapi3/helper.go:SetTitle", "openapi31/helper.go:SetTitle"])
p("Resolving references to component schemas",
  "ResolveJSONSchemaRef finds exactly the texts #/components/schemas/<name> for which the document has a component schema <name>, and returns the JSON schema of that component.",
  "every reference text and every document", "all reference texts, also with further slashes",
  ["openapi3/reflect.go:ResolveJSONSchemaRef", "openapi31/reflect.go:ResolveJSONSchemaRef"])
p("Explicitly empty lists survive",
  "An operation or document read with an empty list of security requirements (no security, as opposed to the inherited one) is written with that empty list again.",
  "every document", "depends on the difference of nil and empty lists in every entity type",
  ["openapi3/entities.go:Operation", "openapi31/entities.go:Operation"])
p("Strict decoding (3.1)",
  "Decoding an OpenAPI 3.1 object fails when a required key is missing; every member whose key is one of the specification, an x- extension or another legal pattern key is kept; unknown keys and keys that differ only in case are reported or kept; where the specification offers alternatives, exactly those values are accepted that exactly one alternative accepts.",
  "every JSON value, every generated entity type", "all JSON values",
  ["openapi31/entities.go"])
p("Every valid 3.1 document can be read",
  "The 3.1 package reads every document that the OpenAPI 3.1 specification allows, without losing members.",
  "every valid document", "all documents; the constraints are in generated code",
  ["openapi31/entities.go:Example.UnmarshalJSON", "openapi31/entities.go:PathItemOrReference", "openapi31/entities.go:ParameterStyle"])
p("Encoded entities are well formed objects",
  "The JSON text of a well formed entity of either version is a JSON object in which no key occurs twice at any depth, which has every required key of the specification and no key other than those of the specification, legal pattern keys and x- extensions.",
  "every well formed entity value of every generated type", "recursive types, several encodings are concatenated byte-wise",
  ["openapi3/entities.go", "openapi31/entities.go", "openapi31/entities.go:marshalUnion"])
p("JSON values of the wrong kind are rejected",
  "Decoding an entity that is an object in the specification fails for numbers, strings, booleans and arrays, and for null if a key is required.",
  "every JSON value, every generated entity type", "all JSON values",
  ["openapi3/entities.go", "openapi31/entities.go"])
p("Component sections and callbacks keep their entries",
  "Reading a section of components (schemas, responses, parameters, ...) keeps every entry with a legal name and does not silently drop others; reading a callback keeps every entry, extensions in their own map.",
  "every JSON object", "all JSON objects and all names",
  ["openapi3/entities.go:ComponentsSchemas.UnmarshalJSON", "openapi3/entities.go:Callback.UnmarshalJSON", "openapi31/entities.go:Callbacks.UnmarshalJSON"])
p("Reading and writing again gives the same text",
  "Encoding a well formed value, decoding the result and encoding it again gives the same JSON. For 3.0 parameters and HTTP security schemes are different, and what they get is exactly known: a parameter has at its end its schema or content once more (numbers as float64), its location, for a path parameter that it is required, and its style - header and cookie parameters get a style even if they had none; a bearer scheme says so twice. Everything else in the document stays the same, at every depth.",
  "every well formed entity value of every generated type", "recursive types",
  ["openapi3/entities.go:Parameter.MarshalJSON", "openapi3/entities.go:HTTPSecurityScheme.MarshalJSON", "openapi31/entities.go"])
p("Members are the encodings of the fields of the same name",
  "In the JSON object of a well formed entity each member is a constant of its type, the encoding of the field with that name, or of an entry of the map for pattern keys and extensions; every field that is not nil and every such entry is written; a nil field is not written unless its key is required.",
  "every well formed entity value of every generated type", "about five hundred fields in recursive types",
  ["openapi3/entities.go", "openapi31/entities.go"])
p("Members have the types of the specification",
  "An object is only accepted if each fixed member is null or a value of the type the specification gives (string, boolean, integer, number, list, map, or another entity).",
  "every JSON object, every generated entity type, every key", "all JSON values",
  ["openapi3/entities.go", "openapi31/entities.go"])
p("Enumerations",
  "The enumerated types (parameter locations, schema types, styles, places of API keys) are read from and written as exactly the strings of the specification.",
  "every JSON value, every string", "all strings",
  ["openapi3/entities.go:ParameterIn", "openapi31/entities.go:ParameterIn"])
p("Every valid 3.0 document can be read",
  "The 3.0 package reads every document that the OpenAPI 3.0.3 specification allows.",
  "every valid document", "all documents; the constraints are in generated code",
  ["openapi3/entities.go:Encoding", "openapi3/entities.go:HTTPSecurityScheme"])
p("Parameters, links and security schemes of 3.0 are consistent",
  "A 3.0 parameter is only read if it has a known location (and the value read says which one), if path parameters are required, if the style is one of those for the location, and if there is exactly one of schema and content; a link names its operation in at most one way; a bearer format comes only with the bearer scheme; a header of either version has style simple; a header of 3.1 has exactly one of schema and content.",
  "every JSON object without repeated keys", "all JSON objects; four generated types decode the same bytes",
  ["openapi3/entities.go:Parameter.UnmarshalJSON", "openapi3/entities.go:ParameterLocation.UnmarshalJSON", "openapi3/entities.go:SchemaXORContent.UnmarshalJSON", "openapi3/entities.go:Link.UnmarshalJSON", "openapi31/entities.go:Header.UnmarshalJSON"])
p("Every constraint between members is checked",
  "Either package rejects objects that violate a constraint of the specification between members (schema and content, example and examples, value and externalValue, operationId and operationRef, identifier and url, style and location, required path parameters).",
  "every JSON object", "all JSON objects",
  ["openapi3/entities.go:Header.UnmarshalJSON", "openapi3/entities.go:MediaType.UnmarshalJSON", "openapi31/entities.go:Parameter.UnmarshalJSON", "openapi31/entities.go:Link.UnmarshalJSON"])
p("Contents of documented responses",
  "After a successful call the media types of a response hold exactly what the units filed under its key give, in order: the JSON schema of the structure under the content type of the unit (application/json by default), a string for each contentType tag (in 3.0 only if nothing is there), a string of the given format for the content type if nothing is there.",
  "every sequence of response units, every reflection result, every operation before the call", "all sequences of units and reflection results; the units write into one map",
  ["openapi3/reflect.go:parseJSONResponse", "openapi3/reflect.go:parseRawResponseBody", "openapi3/reflect.go:ensureResponseContentType", "openapi31/reflect.go:setupResponse"])
p("Contents of response headers",
  "Each header of a response shows the description, required, deprecated, explode and (3.0) allow flags of the last considered property of its name in the last unit with a structure, with the tags before the schema, and the converted schema; no other header is there.",
  "every reflection result", "all sequences of properties and tags",
  ["openapi3/reflect.go:parseResponseHeader", "openapi31/reflect.go:parseResponseHeader"])
p("Contents of request bodies",
  "A request body exists after a successful call exactly if there was one or a unit documents a media type; each media type holds what the last unit documenting it gives (reflected JSON or form schema, string for contentType tags, string of the format for other content types); other media types and a body no unit is about are kept.",
  "every sequence of request units, every reflection result, every method", "all sequences of units and reflection results",
  ["openapi3/reflect.go:setupRequest", "openapi3/reflect.go:parseRequestBody", "internal/json_schema.go:ReflectRequestBody", "openapi31/reflect.go:setupRequest"])
p("Description of the request body",
  "The description of a request body is the last non-empty description of a unit processed when the body exists; without such a unit it is kept.",
  "every sequence of request units", "all sequences of units",
  ["openapi3/reflect.go:setupRequest", "openapi31/reflect.go:setupRequest"])
p("Component schemas come from the reported definitions",
  "After a call, successful or not, each component schema is as before or the conversion of a definition of that name reported for the units of the call; after success every reported definition (parameters, JSON encoded parameters, bodies, JSON responses) is a component, and a new one is its conversion if the reports agree.",
  "every reflector state, context and reflection result", "all states and reflection results",
  ["openapi3/reflect.go:collectDefinition", "openapi3/reflect.go:parseRequestBody", "openapi31/reflect.go:collectDefinition", "openapi31/reflect.go:parseRequestBody"])
p("Documents of the 3.0 reflector can be read back",
  "Whatever operations are added to a 3.0 reflector, failing calls included, the document can be encoded and decoding gives the same document, if paths begin with a slash, statuses are those of HTTP, the styles asked for suit the parameters, component names are legal and JSON schemas hold JSON values.",
  "every sequence of AddOperation calls, every reflection result, every JSON schema", "all histories of calls and all schemas; pipeline, schema conversion and codec have to agree on several dozen constraints",
  ["openapi3/reflect.go:AddOperation", "openapi3/jsonschema.go:FromJSONSchema", "openapi3/entities.go:Spec.MarshalJSON", "openapi3/entities.go:Spec.UnmarshalJSON"])
p("Documents of the 3.1 reflector can be read back",
  "Whatever operations and webhooks are added to a 3.1 reflector, failing calls included, the document can be encoded and decoding gives exactly the same document, if paths begin with a slash, statuses are those of HTTP and header schemas are not empty.",
  "every sequence of AddOperation and AddWebhook calls, every reflection result", "all histories of calls and all schemas",
  ["openapi31/reflect.go:AddOperation", "openapi31/reflect.go:AddWebhook", "openapi31/entities.go:Spec.MarshalJSON", "openapi31/entities.go:Spec.UnmarshalJSON"])
p("Reflectors accept only what can be read back",
  "If AddOperation succeeds, the document of the reflector can be encoded and decoded again without loss.",
  "every context, both packages", "all contexts",
  ["openapi3/reflect.go:AddOperation", "openapi3/reflect.go:parseParametersIn", "openapi31/reflect.go:AddOperation"])
p("Styles suit the location of a parameter",
  "The style that a reflector gives a parameter is one the specification allows for the location of the parameter.",
  "every reflection result, both packages", "all combinations of locations and tags",
  ["openapi3/reflect.go:parseParametersIn", "openapi31/reflect.go:parseParametersIn"])
p("Documented schemas mean what the structures say",
  "In a 3.0 document the schema of a parameter, header, request body or JSON response accepts exactly the values that the reflected JSON schema of the structure accepts (for parameters that are no pointers and for JSON responses: the same values but null, and the schema is not nullable), if OpenAPI 3.0 can express the JSON schema; bodies without structure accept exactly the texts of the given format.",
  "every call, every reflection result, every JSON value, every meaning of formats and patterns", "all calls, schemas and values; pipeline and schema conversion have to agree",
  ["openapi3/reflect.go:parseParametersIn", "openapi3/reflect.go:parseRequestBody", "openapi3/reflect.go:parseJSONResponse", "openapi3/jsonschema.go:FromJSONSchema"])
p("Component schemas mean what the definitions say",
  "After any sequence of calls, failing ones included, each component schema of a 3.0 document accepts exactly the values that the JSON schema definition of that name accepts, references followed, if the calls report one definition per name.",
  "every sequence of AddOperation calls, every JSON value, cyclic definitions included", "all histories of calls, recursive schemas and values",
  ["openapi3/reflect.go:collectDefinition", "openapi3/jsonschema.go:FromJSONSchema"])
p("Every documented schema comes from the call",
  "Each schema shown by a documented operation (parameters, media types, headers) was shown by the operation before the call, or is the conversion of a schema reported for a unit of the call, or is the text schema of a unit; nothing from other calls or operations leaks in.",
  "every context, every reflection result, every operation before the call", "all contexts and reflection results",
  ["openapi3/reflect.go:AddOperation", "openapi31/reflect.go:AddOperation", "openapi31/reflect.go:AddWebhook"])
p("No reference leads nowhere",
  "After any sequence of AddOperation and AddWebhook calls, failing ones included, every schema reference in operations, webhooks and component schemas names a component schema of the document, if each reflection reports the definitions that its schemas refer to.",
  "every sequence of calls, both packages, every reflection result", "all histories of calls, in which failing calls leave components behind",
  ["openapi3/reflect.go:collectDefinition", "openapi3/reflect.go:AddOperation", "openapi31/reflect.go:collectDefinition", "openapi31/reflect.go:AddWebhook", "openapi3/jsonschema.go:FromJSONSchema"])
p("Builder methods set exactly their field",
  "For every struct type of both packages: With<Field> stores its argument (by value or by pointer) in that field and changes no other field; With<Field>Item sets one entry of a map and keeps the others, also when the map is nil; <Field>Ens returns what the field points to, after storing a new zero value if it is nil, and never replaces existing content. There are no other builder methods. Calls for different fields commute; of two calls for one field the last one counts.",
  "every type, field, method and receiver of both packages", "709 generated methods over arbitrary receivers",
  ["openapi3/entities.go:WithTitle", "openapi3/entities.go:WithMapOfAnythingItem", "openapi3/entities.go:ComponentsEns", "openapi31/entities.go:WithPaths", "openapi31/entities.go:PathsEns"])
p("Every member of an OpenAPI object can be built and is what is written",
  "For every object of the OpenAPI 3.0 and 3.1 specifications and every member that is not a constant there is a With method that takes a value of the member's type; after the call the JSON that is written has that member with the encoding of the value (left out only if the value is an empty list or map and the member not required), all other members are as before. The same for entries of members that are maps and for pattern keys (paths, status codes, extensions, component names) through With...Item. Not true for keys that do not match the pattern: an extension called \"title\" hides the title.",
  "every object, member, argument and receiver", "the cross product of types, members, receivers and arguments, and JSON written as the union of several parts",
  ["openapi3/entities.go:WithID", "openapi3/entities.go:MarshalJSON", "openapi31/entities.go:WithID", "openapi31/entities.go:MarshalJSON", "openapi3/entities.go:WithMapOfPathItemValuesItem"])
p("A choice built with one alternative is written as that alternative",
  "For every choice type (XOrRef, XOrReference, security schemes, additionalProperties): With<Alternative> on an empty choice makes it marshal to exactly the JSON of the argument. It does not replace another alternative that was set before: both are merged into one object.",
  "every choice type, alternative and argument", "all arguments, and the merge of alternatives in MarshalJSON",
  ["openapi3/entities.go:ResponseOrRef", "openapi3/entities.go:WithResponseReference", "openapi31/entities.go:ParameterOrReference", "openapi3/entities.go:marshalUnion"])
p("The order of the members of a document does not matter",
  "Two JSON documents that differ only in the order of object members, at any depth, are both accepted or both rejected by UnmarshalJSON of every type of both packages; the entities are the same up to the order of map entries, and are written as the same JSON up to the order of members. Not true for objects with a repeated member or with two names that differ only in case from a known key: there the last one counts. A member is taken for a known key exactly if the names have the same letters, upper or lower case, the long s (U+017F) being an s and the Kelvin sign (U+212A) a k.",
  "every type, JSON document and permutation of its members", "all documents and all permutations at all depths",
  ["openapi3/entities.go:Spec.UnmarshalJSON", "openapi31/entities.go:Spec.UnmarshalJSON", "openapi3/entities.go:PathItem.UnmarshalJSON", "openapi31/entities.go:Info.UnmarshalJSON"])
p("Decoding does not depend on map iteration",
  "UnmarshalJSON runs over Go maps of raw members (pattern keys, extensions, additional properties), whose order the runtime chooses anew every time: for every document and any two choices of orders both runs succeed with the same entity or both fail. Entities with the same map entries are written as the same JSON up to the order of members.",
  "every type, JSON document and iteration order at every step", "iteration orders are not under the control of a test",
  ["openapi3/entities.go:Paths.UnmarshalJSON", "openapi3/entities.go:Schema.UnmarshalJSON", "openapi31/entities.go:Responses.UnmarshalJSON"])
p("YAML documents are the JSON documents",
  "UnmarshalYAML of YAML that says the same as a JSON document (keys may be numbers or booleans, members in any order) gives the entity that UnmarshalJSON gives. MarshalYAML of an entity, read back by UnmarshalYAML, gives the same entity. Not true for integers of more than 53 bits: MarshalYAML rounds them to float64, so maxLength 2^53+1 changes and 2^63-1 cannot be read back.",
  "every entity and every YAML value, both packages", "all documents, all orders and all keys",
  ["openapi3/yaml.go:UnmarshalYAML", "openapi3/yaml.go:MarshalYAML", "openapi31/yaml.go:UnmarshalYAML", "openapi31/yaml.go:MarshalYAML", "openapi3/yaml.go:convertMapI2MapS"])
p("The bytes of a document are the JSON of the entity",
  "For every type of both packages, the bytes that MarshalJSON returns are a JSON text without white space of the JSON value of the entity (the members of maps in alphabetical order of their keys); it fails exactly if the entity has no JSON value, and never panics. In particular joining the texts of several parts (constants, fields, embedded alternatives, maps) with commas never gives something that is no JSON.",
  "every type and entity of both packages, every spelling of numbers and strings", "all entities; the joining works on bytes and looks only at the first ones",
  ["openapi3/entities.go:marshalUnion", "openapi3/entities.go:MarshalJSON", "openapi31/entities.go:marshalUnion", "openapi31/entities.go:MarshalJSON"])
p("The bytes of a document are determined by the entity",
  "Two entities that differ only in the order in which their maps were filled give the same bytes. Reading a document and writing it gives bytes that depend neither on the order of the members of the document nor on the iteration orders of the runtime while reading.",
  "every type, entity, document, permutation of its members and iteration order", "map orders are random and not under the control of a test",
  ["openapi3/entities.go:MarshalJSON", "openapi31/entities.go:MarshalJSON", "openapi3/entities.go:Paths.UnmarshalJSON", "openapi31/entities.go:Responses.UnmarshalJSON"])
p("A document written by the package is read back from any order",
  "Every entity of both packages is written by MarshalJSON as bytes that are a text of a JSON value in which no two members compete for one field; with the members of its objects in any order, at any depth, and whatever order the runtime runs over maps, UnmarshalJSON gives the entity back (up to the order of map entries), and for 3.1 MarshalJSON then gives the same bytes. Not true of the bytes for 3.0: a parameter that was read is written with its members twice.",
  "every type, entity, permutation of members and iteration order", "all entities, all permutations at all depths, and names chosen by the user that differ only in case from keys of the package",
  ["openapi3/entities.go:MarshalJSON", "openapi3/entities.go:UnmarshalJSON", "openapi31/entities.go:MarshalJSON", "openapi31/entities.go:UnmarshalJSON", "openapi3/entities.go:Parameter.UnmarshalJSON"])
p("Documented operations and the contexts they came from",
  "AddOperation and AddWebhook store a shallow copy of the operation of the context. As long as no context is used after it was accepted, a documented operation (or webhook) is never changed by later calls of NewOperationContext, the setters, AddReqStructure, AddRespStructure, AddOperation and AddWebhook, and a failing call changes no operation. However contexts are used, a documented operation stays documented and keeps its parameters, tags, id, summary, description, deprecation, security, the presence of its body and of every response and extension, and a call never changes an operation under another path or method. Not true in general: AddOperation with a context that was accepted before fails with \"already exists\" and still changes the documented responses, and AddWebhook with a context that AddOperation has accepted changes the operation under the path; extensions that such a call adds are in the document if the operation had some when it was accepted, else not.",
  "every reflection result and every history of calls with any number of contexts", "sharing of maps and pointers between document and context shows only in histories that use a context again",
  ["openapi3/reflect.go:AddOperation", "openapi31/reflect.go:AddOperation", "openapi31/reflect.go:AddWebhook", "openapi3/helper.go:AddOperation", "openapi31/helper.go:AddOperation", "openapi31/helper.go:AddWebhook"])
p("A context whose parameters were added cannot be used again",
  "Once a call of AddOperation or AddWebhook with a context has put a parameter into its operation, whether the call was accepted or failed later (say at a response), every later AddOperation or AddWebhook with that context fails, whatever is done in between: contexts with parameters are good for one attempt.",
  "every state, every reflection result and every history after the call", "all histories after the first attempt",
  ["openapi3/reflect.go:AddOperation", "openapi3/reflect.go:parseParametersIn", "openapi31/reflect.go:AddOperation", "openapi31/reflect.go:AddWebhook", "openapi31/reflect.go:parseParametersIn"])
p("Reading a document into an entity that is not empty",
  "UnmarshalJSON into an entity that already holds something (defaults, an earlier document): whether the document is accepted does not depend on what the entity held, and the result says everything the document says, as read into a new entity: the same scalars, lists and map entries. Fields that no member of the document names keep their values; a field that a member names is read over its old value, through pointers to entities, so nested entities are merged, and null clears pointers, lists and maps; lists are read element by element over the old ones and get the length of the document's; entries of maps that the document does not name are kept, those it names are replaced, not merged; of the alternatives of a choice those that do not fit are cleared. Reading the same document once more changes nothing. The result is in general not that of reading into a new entity, and a null leaves a field that is not a pointer as it was; so in 3.1 a null scheme of an HTTP security scheme is judged by the scheme held before.",
  "every type of both packages, every entity of it and every JSON document", "all pairs of old entities and documents at all depths",
  ["openapi3/entities.go:UnmarshalJSON", "openapi31/entities.go:UnmarshalJSON", "openapi3/entities.go:Spec.UnmarshalJSON", "openapi31/entities.go:Components", "openapi31/entities.go:SecuritySchemeHTTPBearer.UnmarshalJSON"])
p("What functions called during reflection see of the operation",
  "While Reflector.AddOperation or AddWebhook reflects a structure, jsonschema-go may call functions of the user (exposers, preparers, interceptors) that ask openapi.OperationCtx. The answer is the operation context, and its IsProcessingResponse and ProcessingIn say what is being reflected: request and \"body\" for request bodies, form bodies included; request and the location for parameters, also while the type of a parameter is reflected on its own; response and \"body\", response and \"header\". There is no context while it is only probed whether a request or response has content. Nothing else is ever seen (in particular never \"formData\"), whatever the context was used for before. Requests are reflected before responses; within a request the order is form, query, path, cookie, header, json; no body for GET, HEAD, DELETE and TRACE unless forced; no response body for HEAD. Asking changes nothing in the document: it is that for what the reflections report when given these answers. After a call with a response structure the context keeps saying that response headers are processed.",
  "every reflector, context and its earlier use, every structure and every behaviour of the functions, which may depend on all answers so far", "functions are chosen by the user, called at any place of any reflection, and the state is shared by all reflections of the call",
  ["openapi3/reflect.go:AddOperation", "openapi31/reflect.go:AddOperation", "openapi31/reflect.go:AddWebhook", "openapi3/reflect.go:parseParametersIn", "openapi31/reflect.go:parseParametersIn", "operation.go:OperationCtx", "operation.go:WithOperationCtx"])
p("The order of the calls does not matter",
  "Operations (and webhooks) with different paths or methods may be added in any order: every call has the same result and completes the same operation, and the reflector ends with the same paths, webhooks and component schemas, so the document is the same and MarshalJSON writes the same bytes. The same holds for the order in which the definitions found by a reflection are reported, which follows the iteration over a map and so is random. Both hold if definitions of one name are the same wherever they are reported and can be converted. Otherwise the order matters: of two definitions of one name the first stays, and if one of several definitions cannot be converted, those left in the document depend on the iteration order.",
  "every reflector, every list of contexts made by NewOperationContext, every permutation of it, every reflection result and every permutation of the definitions in it", "all permutations of any number of calls; iteration orders are random and not under the control of a test",
  ["openapi3/reflect.go:AddOperation", "openapi31/reflect.go:AddOperation", "openapi31/reflect.go:AddWebhook", "openapi3/reflect.go:collectDefinition", "openapi31/reflect.go:collectDefinition", "openapi3/reflect.go:parseJSONResponse", "openapi31/reflect.go:parseJSONResponse"])
p("Schemas given to walker callbacks mean what the structures say",
  "The schemas that WalkRequestJSONSchemas and WalkResponseJSONSchemas pass to the callback can be used on their own: with the definitions that they carry, they accept exactly the values that the JSON schema of the structure accepts and reject those that it rejects (where it says something). This holds for every parameter, for the JSON body, for every field of a form without files (one call per field, marked as required exactly if the form requires it), for the JSON body of a response and for its headers (one call per header name, spelled canonically). In 3.0 schemas must be expressible in OpenAPI 3.0, and for parameters that are not pointers and for response bodies the null value is left out of the comparison (nullable is dropped there). Walks can follow one another: a walk leaves component schemas that are conversions of definitions. The fields of a form whose definition refers to itself are not visited.",
  "every structure, JSON schema and set of definitions, every method, content type, callback, map iteration order and value, every component schemas before", "the meaning of schemas for all values; recursion through definitions",
  ["openapi3/walk_schema.go:WalkRequestJSONSchemas", "openapi31/walk_schema.go:WalkRequestJSONSchemas", "openapi3/walk_schema.go:WalkResponseJSONSchemas", "openapi31/walk_schema.go:WalkResponseJSONSchemas", "openapi3/walk_schema.go:provideFormDataSchemas", "openapi31/walk_schema.go:provideFormDataSchemas", "openapi3/jsonschema.go:ToJSONSchema", "openapi31/jsonschema.go:ToJSONSchema"])
p("Chains of builder calls write into the document they start from",
  "spec.ComponentsEns().SecuritySchemesEns().With...Item(name, scheme), spec.Info.WithTitle(title).WithVersion(v) and the like: a chain of field selections (structs held by value, behind pointers, elements of slices), With<Field>, With<Field>Item and <Field>Ens that starts from a variable changes the document in this variable in memory, exactly as the edit of the document seen as a tree says: structures that <Field>Ens creates or returns are the ones of the document, not copies. No other value in memory changes. With arguments of the right types such chains never panic (through nil pointers or nil maps) and keep the document well typed, whatever it holds.",
  "every chain of any length, every document in memory and every arguments, both packages", "all chains on all documents; a method that worked on a copy, or a nil map, would show only for some of them",
  ["openapi3/entities.go:ComponentsEns", "openapi3/entities.go:WithMapOfSecuritySchemeOrRefValuesItem", "openapi31/entities.go:ComponentsEns", "openapi31/entities.go:WithSecuritySchemesItem", "openapi3/entities.go:WithTitle"])
p("What builder calls change when values share objects",
  "A call changes the object that the receiver is part of and, for With<Field>Item, the map that gets the entry; no other object in memory. So With<Field> calls on a copy of an entity (y := x) leave everything as it was, in particular x; and an entity that was passed to With<Field> can be used further: With<Field> calls on it do not change the document. Not true for what is shared through maps, slices and pointers: With<Field>Item on a copy adds the entry to the original too, changing an element of a slice that was passed (spec.WithServers(servers...)) changes the document, and so does a chain through a pointer of an entity that was passed.",
  "every memory, entity, copy and chain of calls, both packages", "sharing shows only in later calls on values that look independent",
  ["openapi3/entities.go:WithServers", "openapi3/entities.go:WithMapOfAnythingItem", "openapi3/entities.go:WithInfo", "openapi31/entities.go:WithServers", "openapi31/entities.go:WithInfo", "openapi31/entities.go:ContactEns"])
p("References instead of contents",
  "WithReference(ref): if the last response structure of a status has a reference, the documented response is this reference and nothing else, written as {\"$ref\": ref}, whatever structures were given for the status before; structures after it start a new response, in which nothing of the earlier ones and no reference is left. The request body is the reference if the structure or one before has a body and none after has one. Not true in two cases: the reference of a request structure without a body is dropped silently (no request body is documented), and a request structure with a body after one with a reference gives a request body that has both \"$ref\" and \"content\"; both packages write this document and cannot read it.",
  "every reflection result, method, status and list of request and response structures", "all lists of structures of all kinds for one operation",
  ["operation.go:WithReference", "openapi3/helper.go:SetReference", "openapi31/helper.go:SetReference", "openapi3/reflect.go:setupRequest", "openapi31/reflect.go:setupRequest", "openapi3/reflect.go:setupResponse", "openapi31/reflect.go:setupResponse"])
p("Bytes of documents are read as the entities they were written from",
  "For every entity of either package whose strings are UTF-8, the bytes of MarshalJSON (with the escapes of encoding/json for quotes, control characters, <, >, & and U+2028/U+2029, numbers as decimals, keys of maps in order) are accepted by UnmarshalJSON and give the entity again; the entity read by 3.1 is written as the same bytes. Any other JSON text of the same document - white space, escapes, surrogate pairs, exponents, order of members - is read as the same entity. With strings that are not UTF-8 nothing but these strings can differ; but then they do: MarshalJSON reports no error, the bytes are replaced by U+FFFD, and two map keys that differ in such bytes become one (an extension is lost).",
  "every entity of the tables of both packages, every string, every order of map iteration, every JSON text (RFC 8259) of a document", "all strings and all spellings of a JSON text",
  ["openapi3/entities.go:MarshalJSON", "openapi3/entities.go:UnmarshalJSON", "openapi31/entities.go:MarshalJSON", "openapi31/entities.go:UnmarshalJSON", "openapi3/entities.go:marshalUnion", "openapi31/entities.go:marshalUnion"])
p("Documents are UTF-8 and can stand in HTML",
  "Whatever the strings of an entity hold - descriptions, names, extensions, bytes that are not UTF-8 - the bytes that MarshalJSON writes are UTF-8 and contain none of <, >, &, U+2028, U+2029, so that a document can be put into a script element of an HTML page (as Swagger UI pages do) without ending it.",
  "every entity (with maps without repeated keys), every string in it", "all strings in all places of a document",
  ["openapi3/entities.go:MarshalJSON", "openapi31/entities.go:MarshalJSON", "openapi3/entities.go:marshalUnion", "openapi31/entities.go:marshalUnion"])
p("A schema loaded into a used receiver mixes with what was there",
  "FromJSONSchema of openapi3 on a SchemaOrRef that holds a schema already panics on exactly the schemas it panics on with a fresh one, and replaces keyword by keyword: title, description, format, pattern, required, enum, default, deprecated, readOnly, writeOnly, uniqueItems, multipleOf and the upper limits always (also by nothing); type, nullable, bounds, lower limits, example, not, items, properties, additionalProperties, allOf, oneOf, anyOf only if the new schema has them; extensions are joined. Loading the same schema twice is loading it once, and nothing of the old schema is left if the new one has every keyword of the second group that the old one has. In general the receiver does not get the meaning of the schema: an exclusive bound stays, the schema true changes nothing, a reference hides all schemas loaded later, and a reference after a schema gives an object that MarshalJSON writes and UnmarshalJSON rejects.",
  "every JSON schema, every state of the receiver", "all pairs of schemas and receivers",
  ["openapi3/jsonschema.go:FromJSONSchema", "openapi3/jsonschema.go:fromBool", "openapi3/jsonschema.go:checkNullable", "openapi3/jsonschema.go:fromSchemaArray"])
p("What is not a JSON text is not read",
  "UnmarshalJSON (through json.Unmarshal) of every entity of both packages accepts exactly the JSON texts of RFC 8259 whose value it accepts - nothing before or after the document, no leading zeros, trailing commas, comments, single quotes, raw control characters, unknown escapes or bare words - with two liberties: bytes in strings that belong to no UTF-8 character, and escapes of half a surrogate pair, are read as U+FFFD. A text stands for one value only.",
  "every byte sequence, every entity type of both packages, every order of map iteration (nesting of more than 10000 arrays and objects aside)", "all byte sequences",
  ["openapi3/entities.go:UnmarshalJSON", "openapi31/entities.go:UnmarshalJSON"])
p("The bytes of a reflected document are read back as it",
  "Whatever AddOperation and AddWebhook calls were made on a reflector, in whatever order of calls and of collected definitions, json.Marshal of its Spec gives JSON text in UTF-8 without <, > or &; its strings are those of the document with bytes that belong to no UTF-8 character replaced; and if all strings are UTF-8, json.Unmarshal of that text gives the document again (3.1: whose bytes are the same again), also when the calls were made in another order.",
  "every list of operation contexts whose methods, statuses, paths and definition names are legal, every backend that gives good schemas, every spec to start from, every order of calls and of map iteration", "compositions of all calls with all spellings of their documents",
  ["openapi3/reflect.go:AddOperation", "openapi31/reflect.go:AddOperation", "openapi31/reflect.go:AddWebhook", "openapi3/entities.go:MarshalJSON", "openapi31/entities.go:MarshalJSON"])
p("What a failed reading leaves in the entity",
  "If UnmarshalJSON returns an error, an entity that was new is as new (all types but choices, sets of named entries and the few types without the method), so that after any number of documents that do not fit the next one is read as into a new entity; an entity in use keeps all texts, numbers and flags, and no pointer, list or map of it is set, replaced or dropped; and whatever has been tried before, a document is read exactly if a new entity reads it, and what it says is in the entity then. An entity in use is not left unchanged altogether: what is behind its pointers, in its lists and maps may be that of the refused document.",
  "every JSON value, every type of both entities.go, every value that the entity holds, every order of the loops over members, every sequence of documents tried before", "failures at every point of every document, values before them, histories",
  ["openapi3/entities.go:UnmarshalJSON", "openapi31/entities.go:UnmarshalJSON"])
p("The operations of a document are those of the accepted calls",
  "The document that a reflector builds has an operation at a path (or under a webhook) and method exactly if some AddOperation (AddWebhook) call for it was accepted, and the tags, summary, description, identifier, deprecation and security of the operation are those set in the context of that call; no two calls are accepted for one place.",
  "every sequence of calls on a new reflector, refused ones included, every context and reflection result, both packages", "histories of any length; refused calls in between",
  ["openapi3/reflect.go:AddOperation", "openapi31/reflect.go:AddOperation", "openapi31/reflect.go:AddWebhook", "openapi3/helper.go:AddOperation", "openapi31/helper.go:AddOperation"])
p("Operation identifiers are unique",
  "No two operations of a reflected document have the same operationId, as OpenAPI demands.",
  "every sequence of calls on a new reflector, both packages", "pairs of operations of histories of any length",
  ["openapi3/reflect.go:SetID", "openapi31/reflect.go:SetID", "openapi3/helper.go:AddOperation", "openapi31/helper.go:AddOperation"])
p("Path templates are unique",
  "No two paths of a reflected document differ in the names of placeholders only (OpenAPI takes them as identical).",
  "every sequence of calls on a new reflector, both packages", "pairs of paths of histories of any length",
  ["operation.go:SanitizeMethodPath", "openapi3/helper.go:AddOperation", "openapi31/helper.go:AddOperation"])
p("Required security schemes are declared",
  "Every security scheme that an operation of a reflected document requires (AddSecurity) is among the security schemes of the document.",
  "every sequence of calls on a new reflector and of registrations of security schemes, both packages", "histories of any length, names of any form",
  ["openapi3/reflect.go:AddSecurity", "openapi31/reflect.go:AddSecurity", "openapi3/helper.go:SetHTTPBasicSecurity", "openapi31/helper.go:SetHTTPBasicSecurity"])
p("Nothing is written that is too deep to be read",
  "encoding/json reads no text with arrays and objects nested more than 10000 deep. json.Marshal of an entity gives a text that json.Unmarshal reads back as the entity, or an error if and only if the entity is nested deeper than that; json.Unmarshal accepts exactly the JSON texts within the limit. Calling MarshalJSON of the entity itself gives the same.",
  "every entity of every type with a MarshalJSON, every byte string, both packages", "values of any depth, in extensions, examples, schemas of schemas; all texts",
  ["openapi3/entities.go:MarshalJSON", "openapi31/entities.go:MarshalJSON", "openapi3/entities.go:marshalUnion", "openapi31/entities.go:marshalUnion"])
p("Reflectors do not influence one another",
  "A program may use several reflectors of both versions. As long as contexts are given only to the reflector that made them, each reflector documents and answers what it would if the others were never given anything. A context of the other version, one that could not be made, or one of the user is refused and changes nothing.",
  "every number of reflectors of either version, every sequence of calls on them and on their contexts", "calls of several reflectors may be interleaved in any way; contexts are kept and share memory with documents",
  ["openapi3/reflect.go:AddOperation", "openapi31/reflect.go:AddOperation", "openapi31/reflect.go:AddWebhook", "openapi31/reflect.go:setupOC", "openapi3/reflect.go:NewOperationContext", "openapi31/reflect.go:NewOperationContext"])
p("The written document says what its operations are",
  "In the JSON of a reflected document the object under paths (webhooks), path and method has exactly the tags, summary, description, operationId, deprecation, security requirements, extensions, parameters, request body and responses of the documented operation, under the keys of OpenAPI and with their names, places, styles, flags, status codes, content types, headers and schemas; there is such an object exactly if there is an operation; component schemas are found under their names; all other members of the document are as without the operations.",
  "every sequence of calls that fits the specification on a new reflector, every document they start from, every path, method, name and key, both packages; and every well formed operation built by hand", "documents of any size; absence of other members; every combination of optional fields",
  ["openapi3/entities.go:MarshalJSON", "openapi31/entities.go:MarshalJSON", "openapi3/reflect.go:AddOperation", "openapi31/reflect.go:AddOperation", "openapi31/reflect.go:AddWebhook"])
with open('/verif/properties.jsonl','w') as f:
    for x in P: f.write(json.dumps(x)+"\n")
print(len(P))
