{
 "claims": [
  {
   "property": "C01",
   "status": "proved",
   "theorems": [
    "C01_method_accepted",
    "C01_method_error",
    "C01_canonical_method_unique"
   ],
   "note": "method_is is an independent relation (ASCII case plus the two non-ASCII runes that lower-case into ASCII)."
  },
  {
   "property": "C02",
   "status": "proved",
   "theorems": [
    "C02_pattern_reading",
    "C02_clean_path"
   ],
   "note": "parses is the unique left-to-right reading of a pattern as literals and placeholders; every byte string has one."
  },
  {
   "property": "C03",
   "status": "proved",
   "theorems": [
    "C03_placeholder_names",
    "C03_names_in_clean_path"
   ],
   "note": ""
  },
  {
   "property": "C04",
   "status": "proved",
   "theorems": [
    "C04_idempotent"
   ],
   "note": ""
  },
  {
   "property": "C05",
   "status": "proved",
   "theorems": [
    "C05_constraints_do_not_matter"
   ],
   "note": ""
  },
  {
   "property": "C06",
   "status": "proved",
   "theorems": [
    "C06_add_accepts_30",
    "C06_setup_accepts_30"
   ],
   "note": "Parameter locations are assumed to be the four legal ones (hypothesis legal_params); with other locations name+location keys can collide."
  },
  {
   "property": "C07",
   "status": "proved",
   "theorems": [
    "C07_add_accepts_31",
    "C07_setup_accepts_31"
   ],
   "note": "As C06."
  },
  {
   "property": "C08",
   "status": "partial",
   "theorems": [
    "C08_second_is_error",
    "C08_never_replaces_refuted",
    "C08_replaces_only_through_constraints",
    "C08_never_replaces_partial",
    "C08_history_partial"
   ],
   "note": "False as stated: the existence check uses the path as written, the store uses the clean path. Refuted; proved for paths without constraints and histories of such calls, and replacement is shown to happen only through constraints."
  },
  {
   "property": "C09",
   "status": "partial",
   "theorems": [
    "C09_second_is_error",
    "C09_never_replaces_refuted",
    "C09_never_replaces_partial",
    "C09_history_partial"
   ],
   "note": "As C08."
  },
  {
   "property": "C10",
   "status": "proved",
   "theorems": [
    "C10_add_frame_30",
    "C10_setup_frame_30",
    "C10_add_frame_31",
    "C10_setup_frame_31"
   ],
   "note": "Successful calls, both packages, AddOperation and SetupOperation."
  },
  {
   "property": "C11",
   "status": "proved",
   "theorems": [
    "C11_add_atomic_30",
    "C11_setup_atomic_30"
   ],
   "note": "Full: the state is equal after a failing call."
  },
  {
   "property": "C12",
   "status": "partial",
   "theorems": [
    "C12_add_atomic_31_refuted",
    "C12_setup_atomic_31_refuted",
    "C12_add_atomic_31_partial",
    "C12_setup_atomic_31_partial",
    "C12_damage_is_local",
    "C12_webhook_atomic_31"
   ],
   "note": "False as stated: 3.1 writes through a pointer before validating. Refuted for AddOperation and SetupOperation; proved for webhooks, for AddOperation on clean paths, for SetupOperation of new operations; the damage of a failing AddOperation is shown to be one operation at the clean path. same31 does not distinguish nil from empty paths."
  },
  {
   "property": "C13",
   "status": "partial",
   "theorems": [
    "C13_coherent_30",
    "C13_coherent_31_partial",
    "C13_coherent_31_refuted"
   ],
   "note": "3.0: all histories. 3.1: refuted when failing calls have constraints in the path, proved for clean paths."
  },
  {
   "property": "C14",
   "status": "proved",
   "theorems": [
    "C14_webhook_accepts",
    "C14_webhook_effect",
    "C14_first_registration_wins"
   ],
   "note": "Histories mix AddOperation and AddWebhook."
  },
  {
   "property": "C15",
   "status": "proved",
   "theorems": [
    "C15_documented_twice_fails_30",
    "C15_documented_twice_fails_31",
    "C15_success_adds_one_30",
    "C15_success_adds_one_31",
    "C15_history_30",
    "C15_history_31",
    "C15_history_webhooks",
    "C15_context_30",
    "C15_context_31"
   ],
   "note": "Contexts are those made by NewOperationContext of any state of the reflector (made30/made31), with arbitrary content afterwards. Contexts are values here, that is each call has its own context; contexts used again are in C95."
  },
  {
   "property": "C16",
   "status": "proved",
   "theorems": [
    "C16_has_response",
    "C16_no_units_204",
    "C16_keys",
    "C16_other_keys_untouched"
   ],
   "note": "documented quantifies over successful AddOperation of both packages and AddWebhook."
  },
  {
   "property": "C17",
   "status": "proved",
   "theorems": [
    "C17_one_key",
    "C17_filed",
    "C17_shared_key"
   ],
   "note": "files_under uses the standard library's decimal reader, not the model's printer."
  },
  {
   "property": "C18",
   "status": "proved",
   "theorems": [
    "C18_content_union",
    "C18_others_untouched"
   ],
   "note": "Units with a custom response (customizing function) of that status are excluded."
  },
  {
   "property": "C19",
   "status": "partial",
   "theorems": [
    "C19_headers_accumulate_refuted",
    "C19_last_unit_partial",
    "C19_no_structure_partial"
   ],
   "note": "False as stated: parseResponseHeader assigns the whole header map. Refuted; the headers are exactly those of the last unit with a structure."
  },
  {
   "property": "C20",
   "status": "proved",
   "theorems": [
    "C20_head_no_content"
   ],
   "note": ""
  },
  {
   "property": "C21",
   "status": "proved",
   "theorems": [
    "C21_description",
    "C21_last_given",
    "C21_status_text",
    "C21_phrase"
   ],
   "note": "described is a left fold of the rule for one unit."
  },
  {
   "property": "C22",
   "status": "proved",
   "theorems": [
    "C22_parameters",
    "C22_path_required"
   ],
   "note": ""
  },
  {
   "property": "C23",
   "status": "proved",
   "theorems": [
    "C23_collection_formats"
   ],
   "note": "collectionFormat rule for parameters that are not objects and have no style/explode tag of their own."
  },
  {
   "property": "C24",
   "status": "proved",
   "theorems": [
    "C24_no_body"
   ],
   "note": ""
  },
  {
   "property": "C25",
   "status": "proved",
   "theorems": [
    "C25_form_body"
   ],
   "note": "For the last request unit; a single unit leaves the other form type as it was."
  },
  {
   "property": "C26",
   "status": "proved",
   "theorems": [
    "C26_failure_30",
    "C26_failure_31",
    "C26_failure_webhook",
    "C26_components_grow_30",
    "C26_components_grow_31"
   ],
   "note": "3.1: same31 (nil and empty paths are the same) for contexts made by NewOperationContext. Contexts are values here: a context that was accepted before shares memory with the document, see C95."
  },
  {
   "property": "C27",
   "status": "proved",
   "theorems": [
    "C27_legal_part",
    "C27_names_are_legal",
    "C27_legal_names_kept",
    "C27_idempotent",
    "C27_form_names"
   ],
   "note": ""
  },
  {
   "property": "C28",
   "status": "partial",
   "theorems": [
    "C28_different_names_refuted",
    "C28_second_definition_lost_refuted",
    "C28_collisions_partial",
    "C28_legal_names_differ_partial",
    "C28_form_and_json_partial"
   ],
   "note": "False as stated: refuted by a collision, and the second definition is lost. Collisions are characterised."
  },
  {
   "property": "C29",
   "status": "proved",
   "theorems": [
    "C29_same_values",
    "C29_same_steps",
    "C29_says_one"
   ],
   "note": "expressible says which JSON schemas OpenAPI 3.0 can express (exclusive bounds only next to an equal inclusive bound). says is a partial function of the value (C29_says_one), following any number of references."
  },
  {
   "property": "C30",
   "status": "partial",
   "theorems": [
    "C30_refuted",
    "C30_max_partial",
    "C30_min_partial"
   ],
   "note": "False as stated: refuted. The numbers are kept exactly if the inclusive bound stands next to the exclusive one with the same value."
  },
  {
   "property": "C31",
   "status": "proved",
   "theorems": [
    "C31_same_values",
    "C31_same_values_back",
    "C31_untyped_nullable"
   ],
   "note": "Restricted to nullable next to type as the statement says; C31_untyped_nullable shows that the restriction is needed. The converse direction needs the reachable components to exist."
  },
  {
   "property": "C32",
   "status": "partial",
   "theorems": [
    "C32_round_trip_partial",
    "C32_plain_partial",
    "C32_refuted"
   ],
   "note": "False as stated: the value of an exclusive bound is lost. What comes back is norm of the schema for every schema; plain schemas come back unchanged."
  },
  {
   "property": "C33",
   "status": "proved",
   "theorems": [
    "C33_panics_exactly",
    "C33_expressible"
   ],
   "note": "Full."
  },
  {
   "property": "C34",
   "status": "proved",
   "theorems": [
    "C34_terminates",
    "C34_panics_exactly"
   ],
   "note": "Full; also when it panics."
  },
  {
   "property": "C35",
   "status": "proved",
   "theorems": [
    "C35_terminates",
    "C35_panics_only",
    "C35_panics_exactly"
   ],
   "note": "Hypothesis: the decoding of a missing (nil) component holds no references."
  },
  {
   "property": "C36",
   "status": "proved",
   "theorems": [
    "C36_self_contained",
    "C36_minimal"
   ],
   "note": "conv is the conversion of one schema; C31 and C32 say what it does."
  },
  {
   "property": "C37",
   "status": "partial",
   "theorems": [
    "C37_self_contained_partial",
    "C37_minimal",
    "C37_keyword_refuted",
    "C37_sibling_refuted"
   ],
   "note": "False as stated for references under patternProperties and other keywords that findReferences does not enter, and next to $ref. Proved for schemas and components without these."
  },
  {
   "property": "C38",
   "status": "proved",
   "theorems": [
    "C38_order_30",
    "C38_order_31"
   ],
   "note": "osame and jsame: equal up to the order of map entries at every depth."
  },
  {
   "property": "C39",
   "status": "proved",
   "theorems": [
    "C39_inlined_30",
    "C39_inlined_31"
   ],
   "note": "3.1: components in the form that findReferences enters (see C37)."
  },
  {
   "property": "C40",
   "status": "proved",
   "theorems": [
    "C40_union_of_objects",
    "C40_one_kind",
    "C40_single",
    "C40_no_panic",
    "C40_mixed"
   ],
   "note": "Byte level. The texts of numbers and strings are arbitrary (parameters of the grammar jtext)."
  },
  {
   "property": "C41",
   "status": "proved",
   "theorems": [
    "C41_roundtrip",
    "C41_identity",
    "C41_injective"
   ],
   "note": "Tables of all entity types are extracted from entities.go by tools/gen_codec.py; wf is independent of the codec and has a computed instance (doc30, a document with all kinds of entities). rnd is any idempotent-on-the-value rounding to float64. JSON at the level of values, not of text."
  },
  {
   "property": "C42",
   "status": "proved",
   "theorems": [
    "C42_roundtrip"
   ],
   "note": "As C41 with doc31. Example objects, references to links and path items and response references with a description are not well formed here because no JSON decodes to them: C62."
  },
  {
   "property": "C43",
   "status": "proved",
   "theorems": [
    "C43_required",
    "C43_unknown",
    "C43_kept",
    "C43_choice"
   ],
   "note": "For the objects of the table objects30 (all entity types with fixed or pattern fields, keys written down from the specification); Discriminator, Reference and free-form types are open."
  },
  {
   "property": "C44",
   "status": "proved",
   "theorems": [
    "C44_key_order",
    "C44_values_skipped",
    "C44_members_kept",
    "C44_repeated_names",
    "C44_only_objects",
    "C44_terminates"
   ],
   "note": "Token level: the json.Decoder is the list of tokens of the document."
  },
  {
   "property": "C45",
   "status": "proved",
   "theorems": [
    "C45_string_keyed",
    "C45_keys_printed",
    "C45_order",
    "C45_last_wins",
    "C45_order_matters_for_equal_keys"
   ],
   "note": "Keys that are not strings are numbered, fmt.Sprint is an arbitrary function. C45_order_matters_for_equal_keys shows that the restriction in the statement is needed."
  },
  {
   "property": "C46",
   "status": "partial",
   "theorems": [
    "C46_follows_the_document",
    "C46_parameters",
    "C46_bodies",
    "C46_stops_at_first_error",
    "C46_returned_error",
    "C46_failed_setup",
    "C46_multipart_fields_refuted"
   ],
   "note": "The fields of a multipart form are never visited (C46_multipart_fields_refuted); everything else is proved. ToJSONSchema is an arbitrary function that may panic (C100 puts the actual one in its place), map iteration order is arbitrary."
  },
  {
   "property": "C47",
   "status": "proved",
   "theorems": [
    "C47_request_done",
    "C47_response_done"
   ],
   "note": "done is called once after all calls also when a callback or the conversion panics (it is deferred)."
  },
  {
   "property": "C48",
   "status": "partial",
   "theorems": [
    "C48_total_refuted",
    "C48_default_units_panic",
    "C48_total_partial"
   ],
   "note": "False for units of the default response (C48_total_refuted, C48_default_units_panic); proved for the others when no customising function is given."
  },
  {
   "property": "C49",
   "status": "proved",
   "theorems": [
    "C49_getters",
    "C49_security",
    "C49_units",
    "C49_other_members",
    "C49_unknown_parameters",
    "C49_unset",
    "C49_field_mapping"
   ],
   "note": "Contexts are values; slices handed over by the caller are not shared."
  },
  {
   "property": "C50",
   "status": "proved",
   "theorems": [
    "C50_scheme_stored30",
    "C50_scheme_stored31",
    "C50_last_call30",
    "C50_last_call31"
   ],
   "note": "Members the setters do not touch are opaque values."
  },
  {
   "property": "C51",
   "status": "partial",
   "theorems": [
    "C51_same_result",
    "C51_bad_methods_fail_in_both",
    "C51_same_error_refuted",
    "C51_histories_correspond_partial",
    "C51_histories_correspond_refuted"
   ],
   "note": "Same result for every valid method; for invalid methods both fail but the error can differ (refuted with U+017F). Documents stay corresponding on clean paths; refuted otherwise (consequence of C12)."
  },
  {
   "property": "C52",
   "status": "partial",
   "theorems": [
    "C52_setup_request",
    "C52_setup_response",
    "C52_set_request",
    "C52_set_json_response",
    "C52_set_string_response",
    "C52_same_document",
    "C52_round_trip_partial",
    "C52_view",
    "C52_operation_lost_refuted",
    "C52_prepared_status_refuted",
    "C52_head_refuted"
   ],
   "note": "Proved for values that do not prepare their own content unit, methods other than HEAD and paths without constraints. Refuted: the operation is lost on the way back (C52_operation_lost_refuted), SetJSONResponse documents a body for HEAD (C52_head_refuted), the status a self-preparing value gives is overwritten (C52_prepared_status_refuted)."
  },
  {
   "property": "C53",
   "status": "proved",
   "theorems": [
    "C53_forbid_unknown"
   ],
   "note": ""
  },
  {
   "property": "C54",
   "status": "proved",
   "theorems": [
    "C54_other_members_kept"
   ],
   "note": ""
  },
  {
   "property": "C55",
   "status": "partial",
   "theorems": [
    "C55_components_unchanged_refuted",
    "C55_components_unchanged_30_partial",
    "C55_components_unchanged_31_partial"
   ],
   "note": "False as stated: definitions attached to a request body schema overwrite components (openapi3/reflect.go:412-418). Refuted; proved for names that are not among these definitions."
  },
  {
   "property": "C56",
   "status": "proved",
   "theorems": [
    "C56_definitions_registered_30",
    "C56_definitions_registered_31"
   ],
   "note": "Definitions of request bodies are attached to the schema and are stored by parseRequestBody; see C55."
  },
  {
   "property": "C57",
   "status": "proved",
   "theorems": [
    "C57_follows_the_document",
    "C57_one_response",
    "C57_stops_at_first_error"
   ],
   "note": "For units that are not the default response (see C48) and have no customising function."
  },
  {
   "property": "C58",
   "status": "proved",
   "theorems": [
    "C58_document_information",
    "C58_unset"
   ],
   "note": ""
  },
  {
   "property": "C59",
   "status": "proved",
   "theorems": [
    "C59_resolution"
   ],
   "note": "The conversion (ToJSONSchema, FromSimpleMap) is an arbitrary function here; see C29-C39."
  },
  {
   "property": "C60",
   "status": "partial",
   "theorems": [
    "C60_empty_security_refuted"
   ],
   "note": "False: omitempty drops the list (openapi3/entities.go Operation.Security, openapi31 likewise). Refuted for both."
  },
  {
   "property": "C61",
   "status": "partial",
   "theorems": [
    "C61_required",
    "C61_kept",
    "C61_choice",
    "C61_unknown_refuted",
    "C61_case_refuted"
   ],
   "note": "Required keys, kept keys and alternatives are proved; unknown keys are dropped silently and keys that differ only in case replace each other (refuted)."
  },
  {
   "property": "C62",
   "status": "partial",
   "theorems": [
    "C62_example_refuted",
    "C62_references_refuted",
    "C62_styles_refuted",
    "C62_values_refuted",
    "C62_lost_keys_refuted"
   ],
   "note": "False in several ways: no Example object can be read (the 'not' constraint is satisfied by everything), references to path items and links match both alternatives, response references with a description too, styles matrix/label/simple are rejected, some keys are lost."
  },
  {
   "property": "C63",
   "status": "proved",
   "theorems": [
    "C63_distinct",
    "C63_keys30",
    "C63_keys31",
    "C63_scheme31"
   ],
   "note": "marshalUnion itself is C40; here the joined members. SecurityScheme of 3.1 has no fixed shape (its parts are alternatives): C63_scheme31 instead of C63_keys31."
  },
  {
   "property": "C64",
   "status": "partial",
   "theorems": [
    "C64_kind30",
    "C64_kind31",
    "C64_null",
    "C64_kind_refuted"
   ],
   "note": "Proved for all objects with fixed fields; refuted for objects that have pattern fields only (paths, callbacks, component sections), which accept anything."
  },
  {
   "property": "C65",
   "status": "partial",
   "theorems": [
    "C65_sections",
    "C65_illegal_names_refuted",
    "C65_callbacks"
   ],
   "note": "Legal names and callbacks proved; illegal names are dropped silently (refuted)."
  },
  {
   "property": "C66",
   "status": "partial",
   "theorems": [
    "C66_again30",
    "C66_parameter_again",
    "C66_http_again",
    "C66_style_refuted",
    "C66_rounded_refuted",
    "C66_again31",
    "C66_again30_partial",
    "C66_duplicate_keys_refuted"
   ],
   "note": "3.1 proved. 3.0 refuted as stated: keys occur twice, a header parameter gets a style (C66_style_refuted) and an integer in the schema of a parameter can change (C66_rounded_refuted). C66_again30 says for every type and every depth what the second text is; C66_parameter_again and C66_http_again give the added members exactly."
  },
  {
   "property": "C67",
   "status": "proved",
   "theorems": [
    "C67_members30",
    "C67_members31",
    "C67_scheme31"
   ],
   "note": "spelled relates keys to Go names (case-insensitively, $ref/Ref, operationId/ID). A required map that is nil is written as null (Example C67_null_content). SecurityScheme of 3.1 is C67_scheme31: its members come from the alternative."
  },
  {
   "property": "C68",
   "status": "proved",
   "theorems": [
    "C68_read30",
    "C68_read31",
    "C68_simple",
    "C68_list",
    "C68_map",
    "C68_complete"
   ],
   "note": "types30/types31 are written from the specifications; complete except for the headers of a 3.0 encoding (see C70). For 3.1 keys must not differ in case only (see C61)."
  },
  {
   "property": "C69",
   "status": "proved",
   "theorems": [
    "C69_read",
    "C69_written"
   ],
   "note": "The style of a 3.1 parameter is restricted to the styles of query parameters (see C62)."
  },
  {
   "property": "C70",
   "status": "partial",
   "theorems": [
    "C70_encoding_refuted",
    "C70_bearer_refuted"
   ],
   "note": "False: an encoding accepts neither references to headers nor extensions, and a bearerFormat is rejected unless the scheme is spelled 'bearer'."
  },
  {
   "property": "C71",
   "status": "proved",
   "theorems": [
    "C71_parameter",
    "C71_link",
    "C71_bearer",
    "C71_header_style",
    "C71_header31"
   ],
   "note": "A style of null is accepted for path and query parameters (Go leaves the pointer nil); the theorem says so."
  },
  {
   "property": "C72",
   "status": "partial",
   "theorems": [
    "C72_unchecked_refuted"
   ],
   "note": "False: the 3.1 package checks none of this for parameters, links, licenses and security schemes; the 3.0 package not for headers, example/examples and value/externalValue. What is checked is C71."
  },
  {
   "property": "C73",
   "status": "proved",
   "theorems": [
    "C73_media",
    "C73_json_schema",
    "C73_plain"
   ],
   "note": "responses_media is the exact description unit by unit; C73_json_schema and C73_plain are its usual cases. Units with a customisation function are excluded."
  },
  {
   "property": "C74",
   "status": "proved",
   "theorems": [
    "C74_header"
   ],
   "note": "C19 shows that headers of earlier units are replaced, not merged."
  },
  {
   "property": "C75",
   "status": "proved",
   "theorems": [
    "C75_media",
    "C75_others_kept",
    "C75_body_present",
    "C75_body_untouched"
   ],
   "note": "gives/body_type state which media types a unit documents; units with a customisation function are excluded."
  },
  {
   "property": "C76",
   "status": "proved",
   "theorems": [
    "C76_description",
    "C76_description_kept"
   ],
   "note": "A description given by a unit that is processed before a body exists is not shown."
  },
  {
   "property": "C77",
   "status": "proved",
   "theorems": [
    "C77_origin_30",
    "C77_origin_31",
    "C77_registered_30",
    "C77_registered_31"
   ],
   "note": "Together with C55 and C56: what C55 refutes (replacement) is bounded by C77_origin: the new value is the conversion of a definition reported for a request body."
  },
  {
   "property": "C78",
   "status": "proved",
   "theorems": [
    "C78_readable",
    "C78_reflected",
    "C78_schema",
    "C78_style_tag"
   ],
   "note": "Pipeline, FromJSONSchema and codec together. C78_reflected has the conversion of the package in it; C78_readable allows any conversion that gives well formed schemas. Decoding fills members that are derived from others (location and schema/content of a parameter); they are compared after stripping these, as in C41. The conditions on calls (good_call30) are about the input only; C80 shows that they are needed."
  },
  {
   "property": "C79",
   "status": "proved",
   "theorems": [
    "C79_readable",
    "C79_styles"
   ],
   "note": "The conversion to map[string]interface{} (ToSimpleMap) is any function to well formed maps. The style condition holds by itself (C79_styles)."
  },
  {
   "property": "C80",
   "status": "partial",
   "theorems": [
    "C80_refuted_style",
    "C80_refuted_status",
    "C80_refuted_path",
    "C80_refuted_status_31",
    "C80_refuted_path_31",
    "C80_refuted_header_31"
   ],
   "note": "False: 3.0 accepts a path parameter with a collectionFormat, a status of 600, a path without slash, and cannot read the document it writes; 3.1 loses the response and the path silently and cannot read a header with an empty schema. C78 and C79 are the positive results."
  },
  {
   "property": "C81",
   "status": "partial",
   "theorems": [
    "C81_query_partial",
    "C81_refuted_30",
    "C81_refuted_31"
   ],
   "note": "False for path parameters of both packages (collectionFormat gives form, which only query and cookie allow); proved for query parameters without a style tag."
  },
  {
   "property": "C82",
   "status": "proved",
   "theorems": [
    "C82_parameters",
    "C82_response",
    "C82_header",
    "C82_body",
    "C82_plain"
   ],
   "note": "C29 (meaning of FromJSONSchema) carried through the pipeline. Expressible and converted as in C29. The reading of schemas is that of SchemaSpec, with formats and patterns as an oracle."
  },
  {
   "property": "C83",
   "status": "proved",
   "theorems": [
    "C83_converted",
    "C83_meaning"
   ],
   "note": "The history gives the environment that C29 and C82 need (converted). Definitions reported under one name have to agree; C55 shows what happens if they do not."
  },
  {
   "property": "C84",
   "status": "proved",
   "theorems": [
    "C84_origin"
   ],
   "note": "For customizations that add no schemas. Any backend, so both packages."
  },
  {
   "property": "C85",
   "status": "proved",
   "theorems": [
    "C85_conversion_30",
    "C85_history_30",
    "C85_history_31"
   ],
   "note": "Conditions on calls (whole_call): operations refer to nothing before the call, properties are reported before definitions (the order of the reflection library), reflections report all definitions they refer to and these can be converted; header schemas are inlined. C85_conversion_30 shows that FromJSONSchema adds no references; for 3.1 the schemas are copied, the theorem allows any backend with that property."
  },
  {
   "property": "C86",
   "status": "proved",
   "theorems": [
    "C86_setter",
    "C86_item",
    "C86_ensure",
    "C86_only",
    "C86_order"
   ],
   "note": "The methods are extracted from the Go text by tools/gen_build.py. Values are not shared in the model: writing through the pointer that an Ens method returns is not modelled."
  },
  {
   "property": "C87",
   "status": "partial",
   "theorems": [
    "C87_member",
    "C87_entry",
    "C87_pattern",
    "C87_unchecked_key_refuted"
   ],
   "note": "Condition: fields without a key of their own (pattern maps, choices) write null or an object without the key. C87_unchecked_key_refuted: without it a pattern map can write a fixed key a second time."
  },
  {
   "property": "C88",
   "status": "partial",
   "theorems": [
    "C88_choice",
    "C88_replaces_refuted"
   ],
   "note": "C88_replaces_refuted: setting an alternative does not clear the others, the JSON has the members of both."
  },
  {
   "property": "C89",
   "status": "partial",
   "theorems": [
    "C89_same_name30",
    "C89_same_name31",
    "C89_members",
    "C89_rewritten",
    "C89_plain",
    "C89_variants_refuted",
    "C89_repeated_refuted"
   ],
   "note": "Premise unambiguous: where a struct is read, no two members fold to the key of one of its fields (map keys, examples and extensions are exempt, and so is an object where the field is a string: reading it fails anyway). C94 shows that all documents written by the package meet it. C89_variants_refuted and C89_repeated_refuted show that it cannot be dropped."
  },
  {
   "property": "C90",
   "status": "proved",
   "theorems": [
    "C90_iteration",
    "C90_as_given",
    "C90_members",
    "C90_written",
    "C90_read_single"
   ],
   "note": "Every step of every decoder may take its own order. C90_as_given links this decoder to the one of the other chapters."
  },
  {
   "property": "C91",
   "status": "partial",
   "theorems": [
    "C91_reads_as_json",
    "C91_round_trip30",
    "C91_round_trip31",
    "C91_integers_refuted"
   ],
   "note": "What yaml.v2 makes of a text is a YAML value; only that it says the same as the JSON (relation loads) is assumed. Numbers are float64 on the way out (premise floats); C91_integers_refuted shows what happens to others. For C91_reads_as_json the document is unambiguous as in C89; the round trips need no such premise (C94)."
  },
  {
   "property": "C92",
   "status": "proved",
   "theorems": [
    "C92_text30",
    "C92_text31"
   ],
   "note": "The texts of numbers and strings are any functions that give something beginning with a digit or minus sign, or something in quotes (texts_ok). Copying of a method's output by encoding/json (compact, HTML escaping) is taken as the identity. The equal one byte case of marshalUnion is shown not to arise."
  },
  {
   "property": "C93",
   "status": "proved",
   "theorems": [
    "C93_same30",
    "C93_same31",
    "C93_read30",
    "C93_read31"
   ],
   "note": "As C92. Sorting of map keys is that of encoding/json, by bytes."
  },
  {
   "property": "C94",
   "status": "partial",
   "theorems": [
    "C94_written_unambiguous30",
    "C94_written_unambiguous31",
    "C94_round_trip30",
    "C94_round_trip31",
    "C94_bytes30_refuted"
   ],
   "note": "Entities are the well formed ones of C41 and C42. C94_bytes30_refuted shows why the last part is only claimed for 3.1. texts_ok as for C92."
  },
  {
   "property": "C95",
   "status": "partial",
   "theorems": [
    "C95_own_context_30",
    "C95_own_context_31",
    "C95_own_failure_30",
    "C95_own_failure_31",
    "C95_outline_30",
    "C95_outline_31",
    "C95_elsewhere_30",
    "C95_elsewhere_31",
    "C95_reused_30_refuted",
    "C95_reused_31_refuted",
    "C95_webhook_31_refuted",
    "C95_extensions_30_refuted",
    "C95_extensions_31_refuted"
   ],
   "note": "accepted_once30/31: no call with a context that was accepted before. C95_reused_30_refuted, C95_reused_31_refuted and C95_webhook_31_refuted show what happens otherwise. Worlds start without contexts and with any reflector. The three places of sharing of 3.0 (body, responses, extensions) and of 3.1 are by reading entities.go."
  },
  {
   "property": "C96",
   "status": "proved",
   "theorems": [
    "C96_spoilt_30",
    "C96_spoilt_31"
   ],
   "note": "From any world, reachable or not. ctx_params30/31: the parameters in the operation of the context."
  },
  {
   "property": "C97",
   "status": "partial",
   "theorems": [
    "C97_document_wins30",
    "C97_document_wins31",
    "C97_kept30",
    "C97_kept31",
    "C97_merged30",
    "C97_pointers30",
    "C97_choices30",
    "C97_merged31",
    "C97_pointers31",
    "C97_choices31",
    "C97_lists",
    "C97_null",
    "C97_maps",
    "C97_twice30",
    "C97_twice31",
    "C97_fresh_refuted",
    "C97_null_scheme31_refuted"
   ],
   "note": "typed: values of the Go type. extends: the same scalars, lists element by element, map entries equal, pointers and structs member by member; a zero value says nothing. C97_twice30/31 for documents without repeated members and without members that differ only in case from a key. 3.1: no member 'scheme' is null; C97_null_scheme31_refuted and C97_fresh_refuted show why. Aliasing of the old value and slack between length and capacity of slices are not modelled."
  },
  {
   "property": "C98",
   "status": "proved",
   "theorems": [
    "C98_answers30",
    "C98_answers31",
    "C98_order30",
    "C98_order31",
    "C98_document30",
    "C98_document31",
    "C98_earlier30",
    "C98_earlier31",
    "C98_left30",
    "C98_left31",
    "C98_states30",
    "C98_states31",
    "C98_no_body30",
    "C98_no_body31",
    "C98_head30",
    "C98_head31"
   ],
   "note": "A reflection is a session: it reports fields and definitions and asks at any point; what it does next may depend on all answers of the call so far. The outcome of the two probes of body structures (v_without_tags) is fixed, so functions asked there may only observe. Functions that change the context themselves, and functions of the reflector's default options at the time they are applied, are not modelled."
  },
  {
   "property": "C99",
   "status": "partial",
   "theorems": [
    "C99_calls30",
    "C99_calls31",
    "C99_definitions30",
    "C99_definitions31",
    "C99_document30",
    "C99_document31",
    "C99_bytes30",
    "C99_bytes31",
    "C99_names30_refuted",
    "C99_names31_refuted",
    "C99_failing_refuted",
    "C99_places_refuted"
   ],
   "note": "Refuted without the hypothesis on definitions: C99_names30_refuted, C99_names31_refuted (two definitions of one name), C99_failing_refuted (a definition that cannot be converted, 3.1), and for two operations at one place C99_places_refuted. The bytes are for documents that start without operations and meet the conditions of C78/C79."
  },
  {
   "property": "C100",
   "status": "partial",
   "theorems": [
    "C100_parameters30",
    "C100_parameters31",
    "C100_body30",
    "C100_body31",
    "C100_form30",
    "C100_form31",
    "C100_response30",
    "C100_response31",
    "C100_headers30",
    "C100_headers31",
    "C100_walks_again",
    "C100_recursive_form30_refuted",
    "C100_recursive_form31_refuted"
   ],
   "note": "Forms whose definition refers to itself are refuted (C100_recursive_form30_refuted, C100_recursive_form31_refuted: the fields are not visited). The rest is proved for both versions with the actual ToJSONSchema; for 3.1 decoding a schema map is assumed to give the schema that was converted (keeps31)."
  },
  {
   "property": "C101",
   "status": "proved",
   "theorems": [
    "C101_chain",
    "C101_total"
   ],
   "note": "The starting document and the arguments are trees in memory (no part of them is there twice); slices are whole arrays; interface{} values are constants. Chains through nil pointers or past the end of slices (Deref, Elem) are not edits."
  },
  {
   "property": "C102",
   "status": "partial",
   "theorems": [
    "C102_one_place",
    "C102_copy",
    "C102_argument",
    "C102_copied_map_refuted",
    "C102_argument_slice_refuted",
    "C102_argument_pointer_refuted"
   ],
   "note": "Refuted for shared maps, slices and pointers: C102_copied_map_refuted, C102_argument_slice_refuted, C102_argument_pointer_refuted. C102_one_place, C102_copy and C102_argument are proved for any memory."
  },
  {
   "property": "C103",
   "status": "partial",
   "theorems": [
    "C103_response",
    "C103_response_anew",
    "C103_request",
    "C103_request_lost",
    "C103_written30",
    "C103_written31",
    "C103_request_lost_refuted",
    "C103_mixed_refuted_30",
    "C103_mixed_refuted_31"
   ],
   "note": "Refuted for requests: C103_request_lost_refuted (a unit without a body) and C103_mixed_refuted_30/31 (a body after a reference; the document is written and not read). The rest is proved for any units before and after; units after a response reference have no Customize of their own in C103_response_anew. Of a reference the model has the $ref only."
  },
  {
   "property": "C104",
   "status": "partial",
   "theorems": [
    "C104_bytes30",
    "C104_bytes31",
    "C104_spelling30",
    "C104_spelling31",
    "C104_any30",
    "C104_any31",
    "C104_repaired",
    "C104_invalid_refuted_30",
    "C104_invalid_refuted_31"
   ],
   "note": "Refuted for strings that are not UTF-8: C104_invalid_refuted_30/31. Texts of numbers are any decimals with numbers_ok (an instance is proved: whole_ok); strings are encoded and decoded by a model of encoding/json, and the grammar of texts is that of RFC 8259 (BytesSpec.v)."
  },
  {
   "property": "C105",
   "status": "proved",
   "theorems": [
    "C105_harmless30",
    "C105_harmless31",
    "C105_utf8_30",
    "C105_utf8_31"
   ],
   "note": "Proved for whatever bytes the strings hold; single: no map has a key twice, as in Go."
  },
  {
   "property": "C106",
   "status": "partial",
   "theorems": [
    "C106_overlay",
    "C106_panics",
    "C106_fresh",
    "C106_twice",
    "C106_covered",
    "C106_reference",
    "C106_refuted_bound",
    "C106_refuted_true",
    "C106_refuted_reference",
    "C106_refuted_written"
   ],
   "note": "That a used receiver gets the meaning of the schema is refuted: C106_refuted_bound, C106_refuted_true, C106_refuted_reference, C106_refuted_written. C106_covered is the case where it does; schemas inside are converted with fresh receivers, as in the code."
  },
  {
   "property": "C107",
   "status": "proved",
   "theorems": [
    "C107_exact30",
    "C107_exact31",
    "C107_one"
   ],
   "note": "Both directions: every text is read (induction on the grammar) and what is read is a text (induction on the calls of the parser); the parser is a model of encoding/json without its limit of depth."
  },
  {
   "property": "C108",
   "status": "proved",
   "theorems": [
    "C108_written30",
    "C108_written31",
    "C108_read30",
    "C108_read31",
    "C108_order30",
    "C108_order31"
   ],
   "note": "C78/C79 (documents are well formed) with C99 (the order of calls is not seen) and C104/C105 (bytes); the hypotheses on calls are those of C78 and C79, which C80 shows to be needed."
  },
  {
   "property": "C109",
   "status": "partial",
   "theorems": [
    "C109_accepts30",
    "C109_accepts31",
    "C109_accepts_used30",
    "C109_accepts_used31",
    "C109_held30",
    "C109_held31",
    "C109_unchanged30",
    "C109_unchanged31",
    "C109_retry30",
    "C109_retry31",
    "C109_used_refuted30",
    "C109_used_refuted31",
    "C109_paths_refuted",
    "C109_choice_refuted",
    "C109_components_refuted",
    "C109_still_fits30",
    "C109_still_fits31",
    "C109_entries_refuted30",
    "C109_elements_refuted30"
   ],
   "note": "The reading that \"leaves the entity unchanged\" is refuted for entities in use and for types that are read in place (C109_used_refuted30/31, C109_paths_refuted, C109_choice_refuted, C109_components_refuted); what holds instead is C109_held, C109_unchanged, C109_retry and C109_still_fits. C109_accepts ties the model with failures to the one of C41-C108. Memory shared inside the receiver and slack of slices are not modelled. C109_still_fits31 leaves out a null security scheme name, as C97 does."
  },
  {
   "property": "C110",
   "status": "proved",
   "theorems": [
    "C110_documented30",
    "C110_documented31",
    "C110_once30",
    "C110_once31"
   ],
   "note": ""
  },
  {
   "property": "C111",
   "status": "partial",
   "theorems": [
    "C111_ids30",
    "C111_ids31",
    "C111_ids_refuted30",
    "C111_ids_refuted31"
   ],
   "note": "Refuted: nothing checks identifiers (C111_ids_refuted30/31). C111_ids30/31 say exactly when the document has unique ones: if and only if the accepted calls have. In 3.1 webhooks are included."
  },
  {
   "property": "C112",
   "status": "partial",
   "theorems": [
    "C112_templates30",
    "C112_templates31",
    "C112_templates_refuted30",
    "C112_templates_refuted31"
   ],
   "note": "Refuted: /a/{id} and /a/{key} are both accepted (C112_templates_refuted30/31). C112_templates30/31 say exactly when the document has unique templates."
  },
  {
   "property": "C113",
   "status": "partial",
   "theorems": [
    "C113_schemes30",
    "C113_schemes31",
    "C113_schemes_refuted30",
    "C113_schemes_refuted31"
   ],
   "note": "Refuted: a name that nobody registered is accepted (C113_schemes_refuted30/31). C113_schemes30/31 say exactly when all names are declared, for any registrations of SetHTTPBasicSecurity, SetAPIKeySecurity, SetHTTPBearerTokenSecurity."
  },
  {
   "property": "C114",
   "status": "partial",
   "theorems": [
    "C114_scanner",
    "C114_read30",
    "C114_read31",
    "C114_written30",
    "C114_written31",
    "C114_refused30",
    "C114_refused31",
    "C114_readable30",
    "C114_readable31",
    "C114_method_refuted30",
    "C114_method_refuted31"
   ],
   "note": "Proved for json.Marshal. Refuted for MarshalJSON called by hand (C114_method_refuted30/31): the outermost text is not checked, an extension nested 10000 deep is written and cannot be read. The scanner of encoding/json is modelled state by state; C114_scanner says that it accepts exactly the grammar of BytesSpec within the limit."
  },
  {
   "property": "C115",
   "status": "partial",
   "theorems": [
    "C115_independent",
    "C115_wrong_type",
    "C115_mixed_refuted30",
    "C115_mixed_refuted31",
    "C115_failed_refuted30",
    "C115_alone30",
    "C115_alone31"
   ],
   "note": "Proved for contexts that stay with their reflector. Refuted when a context is given to a second reflector of the same version (C115_mixed_refuted30/31, C115_failed_refuted30): it is accepted, and changes the document of the first one, also when the second one refuses it in the end. C115_alone30/31: with one reflector the program does what it does in the model of C95."
  },
  {
   "property": "C116",
   "status": "proved",
   "theorems": [
    "C116_document30",
    "C116_document31",
    "C116_operation30",
    "C116_operation31",
    "C116_schema30",
    "C116_converted30",
    "C116_components30"
   ],
   "note": "The hypotheses are those of C78 and C79: reflected schemas, statuses, paths and styles are those of the specification. Schemas of 3.0 are stated member by member in C116_schema30 (schema_doc); the discriminator, xml and externalDocs of a schema are nil in all schemas that are converted, and not in the model of schemas."
  }
 ]
}
