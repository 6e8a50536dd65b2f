{
 "notes": {
  "C01": "method_is is an independent relation (ASCII case plus the two non-ASCII runes that lower-case into ASCII).",
  "C02": "parses is the unique left-to-right reading of a pattern as literals and placeholders; every byte string has one.",
  "C06": "Parameter locations are assumed to be the four legal ones (hypothesis legal_params); with other locations name+location keys can collide.",
  "C07": "As C06.",
  "C08": "False as stated: the existence check uses the path as written, the store uses the clean path. Refuted; proved for paths without constraints and histories of such calls, and replacement is shown to happen only through constraints.",
  "C09": "As C08.",
  "C10": "Successful calls, both packages, AddOperation and SetupOperation.",
  "C11": "Full: the state is equal after a failing call.",
  "C12": "False as stated: 3.1 writes through a pointer before validating. Refuted for AddOperation and SetupOperation; proved for webhooks, for AddOperation on clean paths, for SetupOperation of new operations; the damage of a failing AddOperation is shown to be one operation at the clean path. same31 does not distinguish nil from empty paths.",
  "C13": "3.0: all histories. 3.1: refuted when failing calls have constraints in the path, proved for clean paths.",
  "C14": "Histories mix AddOperation and AddWebhook.",
  "C51": "Same result for every valid method; for invalid methods both fail but the error can differ (refuted with U+017F). Documents stay corresponding on clean paths; refuted otherwise (consequence of C12).",
  "C15": "Contexts are those made by NewOperationContext of any state of the reflector (made30/made31), with arbitrary content afterwards. Contexts are values here, that is each call has its own context; contexts used again are in C95.",
  "C16": "documented quantifies over successful AddOperation of both packages and AddWebhook.",
  "C17": "files_under uses the standard library's decimal reader, not the model's printer.",
  "C18": "Units with a custom response (customizing function) of that status are excluded.",
  "C19": "False as stated: parseResponseHeader assigns the whole header map. Refuted; the headers are exactly those of the last unit with a structure.",
  "C21": "described is a left fold of the rule for one unit.",
  "C23": "collectionFormat rule for parameters that are not objects and have no style/explode tag of their own.",
  "C25": "For the last request unit; a single unit leaves the other form type as it was.",
  "C26": "3.1: same31 (nil and empty paths are the same) for contexts made by NewOperationContext. Contexts are values here: a context that was accepted before shares memory with the document, see C95.",
  "C28": "False as stated: refuted by a collision, and the second definition is lost. Collisions are characterised.",
  "C55": "False as stated: definitions attached to a request body schema overwrite components (openapi3/reflect.go:412-418). Refuted; proved for names that are not among these definitions.",
  "C56": "Definitions of request bodies are attached to the schema and are stored by parseRequestBody; see C55.",
  "C29": "expressible says which JSON schemas OpenAPI 3.0 can express (exclusive bounds only next to an equal inclusive bound). says is a partial function of the value (C29_says_one), following any number of references.",
  "C30": "False as stated: refuted. The numbers are kept exactly if the inclusive bound stands next to the exclusive one with the same value.",
  "C31": "Restricted to nullable next to type as the statement says; C31_untyped_nullable shows that the restriction is needed. The converse direction needs the reachable components to exist.",
  "C32": "False as stated: the value of an exclusive bound is lost. What comes back is norm of the schema for every schema; plain schemas come back unchanged.",
  "C33": "Full.",
  "C34": "Full; also when it panics.",
  "C35": "Hypothesis: the decoding of a missing (nil) component holds no references.",
  "C36": "conv is the conversion of one schema; C31 and C32 say what it does.",
  "C37": "False as stated for references under patternProperties and other keywords that findReferences does not enter, and next to $ref. Proved for schemas and components without these.",
  "C38": "osame and jsame: equal up to the order of map entries at every depth.",
  "C39": "3.1: components in the form that findReferences enters (see C37).",
  "C40": "Byte level. The texts of numbers and strings are arbitrary (parameters of the grammar jtext).",
  "C44": "Token level: the json.Decoder is the list of tokens of the document.",
  "C45": "Keys that are not strings are numbered, fmt.Sprint is an arbitrary function. C45_order_matters_for_equal_keys shows that the restriction in the statement is needed.",
  "C46": "The fields of a multipart form are never visited (C46_multipart_fields_refuted); everything else is proved. ToJSONSchema is an arbitrary function that may panic (C100 puts the actual one in its place), map iteration order is arbitrary.",
  "C47": "done is called once after all calls also when a callback or the conversion panics (it is deferred).",
  "C48": "False for units of the default response (C48_total_refuted, C48_default_units_panic); proved for the others when no customising function is given.",
  "C57": "For units that are not the default response (see C48) and have no customising function.",
  "C49": "Contexts are values; slices handed over by the caller are not shared.",
  "C50": "Members the setters do not touch are opaque values.",
  "C52": "Proved for values that do not prepare their own content unit, methods other than HEAD and paths without constraints. Refuted: the operation is lost on the way back (C52_operation_lost_refuted), SetJSONResponse documents a body for HEAD (C52_head_refuted), the status a self-preparing value gives is overwritten (C52_prepared_status_refuted).",
  "C59": "The conversion (ToJSONSchema, FromSimpleMap) is an arbitrary function here; see C29-C39.",
  "C41": "Tables of all entity types are extracted from entities.go by tools/gen_codec.py; wf is independent of the codec and has a computed instance (doc30, a document with all kinds of entities). rnd is any idempotent-on-the-value rounding to float64. JSON at the level of values, not of text.",
  "C42": "As C41 with doc31. Example objects, references to links and path items and response references with a description are not well formed here because no JSON decodes to them: C62.",
  "C43": "For the objects of the table objects30 (all entity types with fixed or pattern fields, keys written down from the specification); Discriminator, Reference and free-form types are open.",
  "C60": "False: omitempty drops the list (openapi3/entities.go Operation.Security, openapi31 likewise). Refuted for both.",
  "C61": "Required keys, kept keys and alternatives are proved; unknown keys are dropped silently and keys that differ only in case replace each other (refuted).",
  "C62": "False in several ways: no Example object can be read (the 'not' constraint is satisfied by everything), references to path items and links match both alternatives, response references with a description too, styles matrix/label/simple are rejected, some keys are lost.",
  "C63": "marshalUnion itself is C40; here the joined members. SecurityScheme of 3.1 has no fixed shape (its parts are alternatives): C63_scheme31 instead of C63_keys31.",
  "C64": "Proved for all objects with fixed fields; refuted for objects that have pattern fields only (paths, callbacks, component sections), which accept anything.",
  "C65": "Legal names and callbacks proved; illegal names are dropped silently (refuted).",
  "C66": "3.1 proved. 3.0 refuted as stated: keys occur twice, a header parameter gets a style (C66_style_refuted) and an integer in the schema of a parameter can change (C66_rounded_refuted). C66_again30 says for every type and every depth what the second text is; C66_parameter_again and C66_http_again give the added members exactly.",
  "C67": "spelled relates keys to Go names (case-insensitively, $ref/Ref, operationId/ID). A required map that is nil is written as null (Example C67_null_content). SecurityScheme of 3.1 is C67_scheme31: its members come from the alternative.",
  "C68": "types30/types31 are written from the specifications; complete except for the headers of a 3.0 encoding (see C70). For 3.1 keys must not differ in case only (see C61).",
  "C69": "The style of a 3.1 parameter is restricted to the styles of query parameters (see C62).",
  "C70": "False: an encoding accepts neither references to headers nor extensions, and a bearerFormat is rejected unless the scheme is spelled 'bearer'.",
  "C71": "A style of null is accepted for path and query parameters (Go leaves the pointer nil); the theorem says so.",
  "C72": "False: the 3.1 package checks none of this for parameters, links, licenses and security schemes; the 3.0 package not for headers, example/examples and value/externalValue. What is checked is C71.",
  "C73": "responses_media is the exact description unit by unit; C73_json_schema and C73_plain are its usual cases. Units with a customisation function are excluded.",
  "C74": "C19 shows that headers of earlier units are replaced, not merged.",
  "C75": "gives/body_type state which media types a unit documents; units with a customisation function are excluded.",
  "C76": "A description given by a unit that is processed before a body exists is not shown.",
  "C77": "Together with C55 and C56: what C55 refutes (replacement) is bounded by C77_origin: the new value is the conversion of a definition reported for a request body.",
  "C78": "Pipeline, FromJSONSchema and codec together. C78_reflected has the conversion of the package in it; C78_readable allows any conversion that gives well formed schemas. Decoding fills members that are derived from others (location and schema/content of a parameter); they are compared after stripping these, as in C41. The conditions on calls (good_call30) are about the input only; C80 shows that they are needed.",
  "C79": "The conversion to map[string]interface{} (ToSimpleMap) is any function to well formed maps. The style condition holds by itself (C79_styles).",
  "C80": "False: 3.0 accepts a path parameter with a collectionFormat, a status of 600, a path without slash, and cannot read the document it writes; 3.1 loses the response and the path silently and cannot read a header with an empty schema. C78 and C79 are the positive results.",
  "C81": "False for path parameters of both packages (collectionFormat gives form, which only query and cookie allow); proved for query parameters without a style tag.",
  "C82": "C29 (meaning of FromJSONSchema) carried through the pipeline. Expressible and converted as in C29. The reading of schemas is that of SchemaSpec, with formats and patterns as an oracle.",
  "C83": "The history gives the environment that C29 and C82 need (converted). Definitions reported under one name have to agree; C55 shows what happens if they do not.",
  "C84": "For customizations that add no schemas. Any backend, so both packages.",
  "C85": "Conditions on calls (whole_call): operations refer to nothing before the call, properties are reported before definitions (the order of the reflection library), reflections report all definitions they refer to and these can be converted; header schemas are inlined. C85_conversion_30 shows that FromJSONSchema adds no references; for 3.1 the schemas are copied, the theorem allows any backend with that property.",
  "C86": "The methods are extracted from the Go text by tools/gen_build.py. Values are not shared in the model: writing through the pointer that an Ens method returns is not modelled.",
  "C87": "Condition: fields without a key of their own (pattern maps, choices) write null or an object without the key. C87_unchecked_key_refuted: without it a pattern map can write a fixed key a second time.",
  "C88": "C88_replaces_refuted: setting an alternative does not clear the others, the JSON has the members of both.",
  "C89": "Premise unambiguous: where a struct is read, no two members fold to the key of one of its fields (map keys, examples and extensions are exempt, and so is an object where the field is a string: reading it fails anyway). C94 shows that all documents written by the package meet it. C89_variants_refuted and C89_repeated_refuted show that it cannot be dropped.",
  "C90": "Every step of every decoder may take its own order. C90_as_given links this decoder to the one of the other chapters.",
  "C91": "What yaml.v2 makes of a text is a YAML value; only that it says the same as the JSON (relation loads) is assumed. Numbers are float64 on the way out (premise floats); C91_integers_refuted shows what happens to others. For C91_reads_as_json the document is unambiguous as in C89; the round trips need no such premise (C94).",
  "C92": "The texts of numbers and strings are any functions that give something beginning with a digit or minus sign, or something in quotes (texts_ok). Copying of a method's output by encoding/json (compact, HTML escaping) is taken as the identity. The equal one byte case of marshalUnion is shown not to arise.",
  "C93": "As C92. Sorting of map keys is that of encoding/json, by bytes.",
  "C94": "Entities are the well formed ones of C41 and C42. C94_bytes30_refuted shows why the last part is only claimed for 3.1. texts_ok as for C92.",
  "C95": "accepted_once30/31: no call with a context that was accepted before. C95_reused_30_refuted, C95_reused_31_refuted and C95_webhook_31_refuted show what happens otherwise. Worlds start without contexts and with any reflector. The three places of sharing of 3.0 (body, responses, extensions) and of 3.1 are by reading entities.go.",
  "C96": "From any world, reachable or not. ctx_params30/31: the parameters in the operation of the context.",
  "C97": "typed: values of the Go type. extends: the same scalars, lists element by element, map entries equal, pointers and structs member by member; a zero value says nothing. C97_twice30/31 for documents without repeated members and without members that differ only in case from a key. 3.1: no member 'scheme' is null; C97_null_scheme31_refuted and C97_fresh_refuted show why. Aliasing of the old value and slack between length and capacity of slices are not modelled.",
  "C98": "A reflection is a session: it reports fields and definitions and asks at any point; what it does next may depend on all answers of the call so far. The outcome of the two probes of body structures (v_without_tags) is fixed, so functions asked there may only observe. Functions that change the context themselves, and functions of the reflector's default options at the time they are applied, are not modelled.",
  "C99": "Refuted without the hypothesis on definitions: C99_names30_refuted, C99_names31_refuted (two definitions of one name), C99_failing_refuted (a definition that cannot be converted, 3.1), and for two operations at one place C99_places_refuted. The bytes are for documents that start without operations and meet the conditions of C78/C79.",
  "C100": "Forms whose definition refers to itself are refuted (C100_recursive_form30_refuted, C100_recursive_form31_refuted: the fields are not visited). The rest is proved for both versions with the actual ToJSONSchema; for 3.1 decoding a schema map is assumed to give the schema that was converted (keeps31).",
  "C101": "The starting document and the arguments are trees in memory (no part of them is there twice); slices are whole arrays; interface{} values are constants. Chains through nil pointers or past the end of slices (Deref, Elem) are not edits.",
  "C102": "Refuted for shared maps, slices and pointers: C102_copied_map_refuted, C102_argument_slice_refuted, C102_argument_pointer_refuted. C102_one_place, C102_copy and C102_argument are proved for any memory.",
  "C103": "Refuted for requests: C103_request_lost_refuted (a unit without a body) and C103_mixed_refuted_30/31 (a body after a reference; the document is written and not read). The rest is proved for any units before and after; units after a response reference have no Customize of their own in C103_response_anew. Of a reference the model has the $ref only.",
  "C104": "Refuted for strings that are not UTF-8: C104_invalid_refuted_30/31. Texts of numbers are any decimals with numbers_ok (an instance is proved: whole_ok); strings are encoded and decoded by a model of encoding/json, and the grammar of texts is that of RFC 8259 (BytesSpec.v).",
  "C105": "Proved for whatever bytes the strings hold; single: no map has a key twice, as in Go.",
  "C106": "That a used receiver gets the meaning of the schema is refuted: C106_refuted_bound, C106_refuted_true, C106_refuted_reference, C106_refuted_written. C106_covered is the case where it does; schemas inside are converted with fresh receivers, as in the code.",
  "C107": "Both directions: every text is read (induction on the grammar) and what is read is a text (induction on the calls of the parser); the parser is a model of encoding/json without its limit of depth.",
  "C108": "C78/C79 (documents are well formed) with C99 (the order of calls is not seen) and C104/C105 (bytes); the hypotheses on calls are those of C78 and C79, which C80 shows to be needed.",
  "C109": "The reading that \"leaves the entity unchanged\" is refuted for entities in use and for types that are read in place (C109_used_refuted30/31, C109_paths_refuted, C109_choice_refuted, C109_components_refuted); what holds instead is C109_held, C109_unchanged, C109_retry and C109_still_fits. C109_accepts ties the model with failures to the one of C41-C108. Memory shared inside the receiver and slack of slices are not modelled. C109_still_fits31 leaves out a null security scheme name, as C97 does.",
  "C111": "Refuted: nothing checks identifiers (C111_ids_refuted30/31). C111_ids30/31 say exactly when the document has unique ones: if and only if the accepted calls have. In 3.1 webhooks are included.",
  "C112": "Refuted: /a/{id} and /a/{key} are both accepted (C112_templates_refuted30/31). C112_templates30/31 say exactly when the document has unique templates.",
  "C113": "Refuted: a name that nobody registered is accepted (C113_schemes_refuted30/31). C113_schemes30/31 say exactly when all names are declared, for any registrations of SetHTTPBasicSecurity, SetAPIKeySecurity, SetHTTPBearerTokenSecurity.",
  "C114": "Proved for json.Marshal. Refuted for MarshalJSON called by hand (C114_method_refuted30/31): the outermost text is not checked, an extension nested 10000 deep is written and cannot be read. The scanner of encoding/json is modelled state by state; C114_scanner says that it accepts exactly the grammar of BytesSpec within the limit.",
  "C115": "Proved for contexts that stay with their reflector. Refuted when a context is given to a second reflector of the same version (C115_mixed_refuted30/31, C115_failed_refuted30): it is accepted, and changes the document of the first one, also when the second one refuses it in the end. C115_alone30/31: with one reflector the program does what it does in the model of C95.",
  "C116": "The hypotheses are those of C78 and C79: reflected schemas, statuses, paths and styles are those of the specification. Schemas of 3.0 are stated member by member in C116_schema30 (schema_doc); the discriminator, xml and externalDocs of a schema are nil in all schemas that are converted, and not in the model of schemas."
 },
 "not_applicable": {},
 "force_partial": []
}