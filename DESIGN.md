# Formal model of swaggest/openapi-go: design

Everything is in `rocq/theories`, Coq 8.16.1, standard library only.

## Layout

* `*Model.v`: the Go code as total, computable Gallina functions. Every definition cites
  file and lines in `/repo`. No proofs.
* `*Spec.v`: small independent specifications that the theorems are stated with.
* `*Proofs.v`: lemmas.
* `*Props.v`: the theorems only (`Theorem … exact lemma.`), one `Example` per theorem that meets
  its hypotheses, and `Print Assumptions`.

## Conventions

* Go `string` is a byte string: Coq `string` (list of 8-bit `ascii`).
* A Go map is an association list. Where the code iterates over a map the iteration order is the order
  of the list, and order independence is a theorem over permutations, not an assumption.
* Errors are values, a nil dereference is an explicit `Panic` outcome; nothing is totalised by a default.
* Recursion that Go bounds by a visited set is modelled with explicit fuel and a theorem that the fuel
  always suffices.
* The libraries that are not in the repository (`jsonschema-go` reflection, `refl`, `encoding/json`
  scanning, `yaml.v2`) are parameters (a record of functions over which theorems quantify), or are
  described by a documented value-level contract.

## Plan per property

| id | model | proof |
|----|-------|-------|
| C01–C05 | `PathModel`: lower-casing at byte level, the placeholder regexp as a deterministic matcher, FindAll scan, `strings.Replace(…,1)` loop | segment decomposition of a pattern; loop invariant "done prefix contains no match, rest untouched" |
| C06–C07 | `Spec30Model`, `Spec31Model`: `validatePathParams` | set characterisation, injectivity of name++in for legal locations |
| C08–C13, C15 | the registry as a state machine | case analysis, invariants over histories, refutations for C08/C09 (raw path key) and C12 (in place mutation) |
| C14 | webhooks map of the 3.1 registry | as above |
| C16–C26, C53–C56, C73–C77 | `ReflectModel`: operation pipeline over a reflection oracle | induction over content units and over the callback events; C19 and C55 are refuted; `BodySpec` states the contents of bodies, responses, headers and components |
| C27–C28 | `sanitizeDefName` as the regexp replacement on byte strings | induction; C28 refuted by a collision |
| C29–C33 | `SchemaModel`: JSON schema and OpenAPI schema trees, both conversions; `SchemaSpec`: validation semantics of both sides | nested induction on schemas, fuel on references only; C30 refuted |
| C34–C39 | the conversion context with visited set and counters | visited set measure; characterisation of the context by the reachability relation; C37 partial/refuted for keywords `findReferences` does not enter |
| C40 | `UnionModel`: byte level `marshalUnion` | printing function for JSON objects |
| C41–C43, C60–C72 | `CodecModel`: interpreter for generated Marshal/UnmarshalJSON, tables extracted from `entities.go` by `tools/` | generic theorem plus computed side conditions of the tables |
| C44–C45 | `YamlModel` | induction over token streams / YAML values |
| C46–C48, C57 | `WalkModel` | traces of callbacks; C48 refuted for default units |
| C49–C52, C58, C59 | `ContextModel`: context records, security setters, relational proof 3.0/3.1, deprecated API | case analysis, simulation |
| C78–C81 | `ReadModel`: the document of a reflector as a value of the entity types; `ReadSpec`: conditions on calls | well-formedness (`wf` of the codecs) as an invariant of histories (`ReadRun`), of the schema conversion (`ReadSchemas`), and of whole documents (`ReadProofs`), then C41/C42; C80 and C81 refuted by computed documents |
| C82–C83 | `MeanSpec`: same values as the JSON schema (readings of `SchemaSpec`) | C22, C73–C75 give the schema that is shown, C29 its meaning; C83: invariant of histories that every component is the conversion of its definition |
| C84–C85 | `RefSpec`: the schemas an operation shows, their references, complete reflections | C84: origin as an invariant of the pipeline; C85: closed components as an invariant of histories (each group of definitions is complete), operations through C84 and C77 |
| C86–C88 | `BuildModel`: interpreter for the statements of the With…/…Item/…Ens methods, `BuildTables` extracted from `entities.go` by `tools/gen_build.py`; `BuildSpec`: one field changed, values under a key | generic lemmas for fields, parts of a struct and map entries; computed side conditions of the tables (every method, every member of the specification tables) |
| C89–C90 | `OrdModel`: the decoder with an arbitrary iteration order at every step; `OrdSpec`: JSON and entities up to order | one relational proof for two decoders on two reorderings (`OrdProofs`), relational proof for the encoder (`OrdWrite`); C89 refuted for names that differ in case or repeat |
| C91 | `YamlDocModel`: `MarshalYAML` and `UnmarshalYAML` of a document; `YamlDocSpec`: YAML values that say the same as JSON | C45 gives the converted value, C89 the order, C41/C42 the round trip; refuted for integers beyond float64 |
| C92–C93 | `TextModel`: `MarshalJSON` of all types at the level of bytes, through `marshalUnion` of `UnionModel`; `TextSpec`: texts of numbers and strings | C40 for each union; an entity whose maps are sorted is written as its JSON value, sorting is a reordering (C90) and takes entities that are the same to one entity |
| C94 | `OrdShape`: for each type the keys that are written, and the pairs (type written, type read) that occur | every value written has the shape of its type (induction on values); a computed set of pairs, closed under going to members, in which no two written keys can fold to one field read (`checks30`, `checks31`); then C89, C92, C93 |
| C95–C96 | `ShareModel`: reflector and all contexts, with what each accepted context shares with the document; `ShareSpec`: outline of an operation, contexts accepted once | invariant over histories (a linked context and its documented operation agree on what they share; no two contexts are linked to one place); C96: parameters of a context only grow, a duplicate is refused |
| C97 | `UsedSpec`: values of a Go type, what a value says, `unmarshal_over` | decoding is monotone in the old value (`UsedProofs`: relational proof of the decoder with itself over two old values); reading twice is reading once, field by field through the phases of `UnmarshalJSON` (`UsedTwice`); refuted for equality with a fresh read and for a null scheme of 3.1 |
| C98 | `HookModel`: the pipeline of `ReflectModel` where reflections are sessions that report and ask `openapi.OperationCtx`; `HookSpec`: the right answer for each kind of reflection, order of answers | simulation of the plain pipeline stage by stage: for every session there are reports, independent of the earlier state, with which the plain pipeline does the same |
| C99 | `SeqSpec`: sequences of calls with their results, the same call with definitions in another order, the same contents of two reflectors | what a call adds to the components and its result do not depend on the components there (stage by stage, for both orders at once); calls at different places commute; permutations by induction; documents with equal maps have the same bytes (C93) |
| C100 | `TellSpec`: a schema with the definitions it carries accepts and rejects the same values as the JSON schema under the definitions of the document | `TellModel` puts the actual `ToJSONSchema` into `WalkModel`; closure of the definitions under references (`TellSchemas`), meaning of the conversions (C28–C31), names of fields and headers (`TellProofs`); recursive forms refuted |
| C101, C102 | `HeapSpec`: the tree that a value in memory stands for, with the objects it is made of; editing a tree; objects that a call may change | separation by hand: what a chain does to the part at a place and to the objects of it (`effect`), by induction on the edit; shapes of all methods by computed checks of the tables; refutations by computed memories |
| C103 | `ReflectSpec` (`documented`, `units_of`, `filed`), `BodySpec` (`body_type`, `described`, `responses_media`) | induction on the units around the reference, from the lemmas of C53–C56 and C73–C77; refutations by computed documents with the codec |
| C104 | `BytesSpec` (`text`, `literal`, `chars`, `numeral`: RFC 8259; `utf8`, `valid`: RFC 3629; `numbers_ok`) | the scanner reads every text of the grammar (induction on it), `quote` gives a literal of the string (decode of UTF-8 is an inverse of its definition), then C94; refutations by computed bytes |
| C105 | `BytesSpec` (`harmless`, `valid`) | closure of the property under concatenation over `TextSpec.jtext`, and case analysis of `quote` by rune |
| C106 | `ReuseSpec` (`overlay`, `covers`) | the steps of `into_js` beside those of `from_js`, keyword by keyword; refutations by computed receivers |
| C107 | `BytesSpec` (`text_in true`: RFC 8259 with lone surrogate escapes; `repaired`) | soundness of each reading function by length of the input or number of calls, completeness from C104, uniqueness of `repaired` |
| C108 | those of C78, C99, C104 and C105 | composition: reflected documents are well formed, so their bytes are as C104 and C105 say |
| C109 | `FailModel` | every reader returns the new value, what a holder of a shallow copy made before sees (`seen`), and the error; invariant `kept` (what is seen has the old scalars and shape) by nested induction on the JSON value and the levels of named types; link to `OrdModel` member by member; typing is kept by failures as well |
| C110 | `ReflectModel` (`calls30`, `calls31` of `SeqSpec`) | one invariant for both packages: a step leaves every place as it is, or fills an empty place with what the context says (`step_ok`); induction on the history |
| C111-C113 | `ReflectModel`, `ContextModel` | the quoted rules of the OpenAPI specification, each equivalent to the same rule about the accepted calls by C110; refuted by histories that are accepted |
| C66 (3.0) | `CodecModel`, `CodecTables` | `again` of `AgainSpec`, independent of the model; induction on the size of the value with `strip v' = v` (C41); parameters and HTTP security schemes by looking at how their choices are read (`AgainTail`); their fields contain no further ones (`free_closed`) |
| C114 | `ScanModel`: the scanner of encoding/json with its stack; `DepthModel`: json.Marshal with `compact` of what methods return | the scanner simulated by the recursive reader of `BytesModel` (one equation per state; strings, numbers, then values with the stack as induction hypothesis), bytes and characters the same to it; writing by induction on the value: parts of a union are not deeper than the union |
| C115 | `ManyModel`: a list of reflectors of both versions and a list of contexts, each with the reflectors that accepted it | two runs, with and without the calls on other reflectors, are alike for one reflector: its state and the contexts it made are the same; contexts are linked to their maker only. With one reflector the model is that of C95 (`ManyAlone`, simulation) |
| C116 | `SaySpec` (keys of OpenAPI, values of the records of `Types.v`) | one lemma about the members of any well formed struct (`object`: those of its fields, those of its one map), applied type by type from the parameter to the document; `ReadModel` is used only as the value that is written. The schemas of 3.0 have their own specification, `schema_doc` in `SaySchema`, a function to JSON; induction on the schema |

## Trusted base

* Coq 8.16.1: the kernel and `vm_compute`. `Print Assumptions` reports "Closed under the global context"
  for every theorem: no axioms, not even of the standard library. No plugins, no functors.
* That the Gallina functions in `*Model.v` (and the first halves of `DefName.v`) say what the cited Go code
  does. This is by reading; the Go code was not run.
* Contracts of code outside the repository, listed per file below.

## What is modelled

| file | code | left out or simplified |
|------|------|------------------------|
| `PathModel` | operation.go `SanitizeMethodPath` (61-89), the placeholder regexp, `strings.ToLower`, `strings.Replace` | lower-casing outside ASCII is described only by the two runes that lower-case into ASCII; other runes keep the method invalid anyway |
| `RegistryModel` | openapi3/helper.go and openapi31/helper.go: `validatePathParams`, `SetupOperation`, `AddOperation`, `AddWebhook`, `PathItem.SetOperation/Operation` | operations are values; the one aliasing that matters (3.1 hands out the pointer it stores) is modelled by writing back even on failure |
| `ReflectModel` | openapi3/reflect.go and openapi31/reflect.go: `NewOperationContext`, `AddOperation`, `AddWebhook`, `setupRequest`, `parseRequestBody`, `parseParameters(In)`, `setupResponse`, `parseJSONResponse`, `parseResponseHeader`, `collectDefinition`; internal/json_schema.go `ReflectRequestBody`, `ReflectJSONResponse`, `ReflectParametersIn`, `ReflectResponseHeader` | see below |
| `HookModel` | the pipeline of `ReflectModel` with operation.go `OperationCtx`, `WithOperationCtx` (state `IsProcessingResponse`, `ProcessingIn` of internal/operation_context.go, set before each reflection) | functions of the user ask and report, they do not change the context; the probes of body structures have a fixed outcome |
| `ShareModel` | the same calls with contexts that are kept: `operationContext` setters, `AddReqStructure`, `AddRespStructure`, the copy `*c.op` in `AddOperation` and `AddWebhook` | which members of an operation are pointers or maps is by reading entities.go; a customising function of a default response works on the response given to it |
| `ManyModel` | the same for several reflectors of both packages at once, with the type assertion `oc.(operationContext)` in openapi3/reflect.go 268-271 and openapi31/reflect.go 234-237 | one document per reflector (two reflectors with the same `Spec` pointer are not modelled) |
| `DefName` | internal/json_schema.go `sanitizeDefName`, the two `InterceptDefName` options | type names come from jsonschema-go |
| `SchemaModel` | openapi3/jsonschema.go (all of it), openapi31/jsonschema.go `ToJSONSchema`, `findReferences` | see below |
| `UnionModel` | `marshalUnion` of both entities.go, on bytes | `json.Marshal` of a part is data: a text or an error |
| `YamlModel` | openapi3/yaml.go and openapi31/yaml.go: `objectKeys`, `skipValue`, `orderedMap.UnmarshalJSON`, `convertMapI2MapS` | a `json.Decoder` is the list of tokens of the document; `yaml.Marshal`/`yaml.Unmarshal` themselves are not modelled; keys other than strings are numbers with an arbitrary printing function |
| `WalkModel` | openapi3/walk_schema.go and openapi31/walk_schema.go on top of `ReflectModel`; `http.CanonicalHeaderKey` | `ToJSONSchema` is an arbitrary function that may panic (its actual definition is put in place in `TellModel`); schemas given to callbacks are concrete, with the fields that `provideFormDataSchemas` reads and writes; the callback and the map iteration order are arbitrary; header references put there by customising functions are not modelled |
| `ContextModel` | operation.go `ContentUnit`, internal/operation_context.go, `operationContext` of both reflect.go, the document setters of both helper.go (`SetTitle`… `SetHTTPBearerTokenSecurity`), `ResolveJSONSchemaRef`, openapi3/reflect_deprecated.go, `toOpCtx`, `fromOpCtx` | contexts are values; what reflection reports about a unit depends on the unit only (not on the whole context) |
| `CodecModel`, `CodecTables` | all of openapi3/entities.go and openapi31/entities.go that encodes or decodes: `UnmarshalJSON` and `MarshalJSON` of every type, as two interpreters over a descriptor per type; `CodecTables` is generated from the Go text by `tools/gen_codec.py` | encoding/json at the level of JSON values (keys and omitempty, pointers, slices, maps, interface{}, case-insensitive keys, null, methods); not the text of JSON (see `TextModel`, `BytesModel`), not what is left behind by a failing decode (see `FailModel`), not values that share pointers, not the slack between length and capacity of a slice that is decoded into; rounding to float64 is an arbitrary function |
| `FailModel` | `UnmarshalJSON` of every type of both entities.go and encoding/json's decoding as they act on the receiver when they fail: work on a shallow copy or in place, errors that stop and errors that are saved until the end, elements and entries stored before the error | not memory shared between parts of the receiver, not slack of slices; a slice that two members of one object name is taken as replaced by the first |
| `BuildModel`, `BuildTables` | all builder methods of openapi3/entities.go and openapi31/entities.go (`With<Field>`, `With<Field>Item`, `<Field>Ens`), as an interpreter over the statements of each method; `BuildTables` is generated from the Go text by `tools/gen_build.py`, which stops at a statement it does not know | values are copied, not shared; see `HeapModel` for sharing |
| `HeapModel` | the same methods on a memory of objects: pointers, maps and slices are references, `&val` and `make` allocate, structs are held in place; selections of fields, pointers and elements between calls; copying of variables | slices are whole arrays (no sub-slices, no spare capacity: `append` is not among the statements of the methods); what an interface{} holds is a constant; pointers to local variables are to whole objects when a value is read as a tree |
| `LinkModel` | openapi3/helper.go, openapi31/helper.go `SetReference`; operation.go `WithReference` | a 3.1 reference has a `$ref` only (no summary, description) |
| `OrdModel` | the loops `for key, rawValue := range rawMap` of all `UnmarshalJSON`; otherwise as `CodecModel` | the order of each loop is a function of its place and contents |
| `YamlDocModel` | openapi3/yaml.go and openapi31/yaml.go: `Spec.MarshalYAML`, `Spec.UnmarshalYAML` (with `convertMapI2MapS` and `orderedMap` as in `YamlModel`) | the text of YAML: `yaml.Marshal` writes the value given to it, `yaml.Unmarshal` gives a value that says the same (`loads`); anchors, tags, dates and spellings such as `yes` are not modelled |
| `ReuseModel` | openapi3/jsonschema.go:182-364 (`FromJSONSchema`, `fromBool`, `checkNullable`, `fromSchemaArray`) on a receiver that was used before | schemas inside are converted by `SchemaModel` (fresh receivers, as in the code); pointers shared by two schemas |
| `TextModel` | `MarshalJSON` of all types (openapi3/entities.go, openapi31/entities.go) with `marshalUnion` as in `UnionModel`; of encoding/json the encoders of arrays, maps (sorted keys), structs and interface{} | spelling of numbers and strings (any functions with `texts_ok`); `compact` of the output of methods (taken as copying); white space in constants |
| `BytesModel` | encoding/json of the Go standard library (not in /repo): appendString with HTML escapes, the scanner and unquote; unicode/utf8 decode and encode; used by `MarshalJSON` and `UnmarshalJSON` of all types | recursive descent instead of the state machine of scanner.go and no limit of depth (both in `ScanModel`, proved to accept the same within the limit); spelling of numbers (any function with `numbers_ok`); a float64 stands for the shortest decimal that is rounded to it |
| `ScanModel` | encoding/json of the Go standard library (not in /repo): scanner.go, every state function, `pushParseState`, `popParseState`, `eof`, `checkValid` with maxNestingDepth; `json.Unmarshal` | messages and offsets of errors; the scanner is run once over the whole text (the methods run it again over parts, which are less deep) |
| `DepthModel` | `json.Marshal` of entities: marshalerEncoder with `compact` (encode.go, indent.go of the standard library) around `MarshalJSON` of all types (openapi3/entities.go, openapi31/entities.go) | there is no white space to remove; strings of enumerations are not checked |
| `ReadModel` | which entity value the records of the other models stand for (`Spec` of both entities.go down to schemas), `unnull30` and `string30` (openapi3/reflect.go 343-359, 470-472), the backend of 3.0 with `FromJSONSchema` | nil and empty maps or lists are not told apart in the records, an empty one is nil; `Nullable`, `Deprecated` act on the schema as a value |

Reflection. What `jsonschema-go` and `refl` report about a Go structure is data: a content unit
(`cunit`) carries the list of callback events (definitions and properties, in order) and the outcome (value, error,
panic) for every reflection the code asks for, and theorems quantify over all of it. The code of this repository
that runs inside the callbacks (which property is considered, which tags are read, which parameter is made, what
is stored when) is modelled. Schemas are an abstract type with the operations the pipeline performs on it
(`backend`). Content units whose customising function is set are modelled by the response it returns.
In `ReflectModel` contexts and reflectors are values. `ShareModel` adds what an accepted context shares with the
document; sharing that the user makes (one slice or map passed to two contexts, writes through
`OperationExposer.Operation()`) is not modelled, nor are `SetMethod` and `SetPathPattern` of
internal/operation_context.go, which are not in the `OperationContext` interface.

Map iteration: components and responses are looked up by key. The reflection library keeps the definitions it
found in a map; the lists of definitions of a unit stand for one iteration over it, and C99 proves that the order of
these lists is irrelevant (under its hypotheses).

Schemas. Both schema languages are trees; numbers are rationals (Go float64 values are rationals; NaN and
infinities cannot be written in JSON). `FromJSONSchema` is modelled on a fresh receiver, as every caller in the
repository uses it; `ReuseModel` (C106) has it on a used one. 3.1 schemas are `map[string]interface{}`: `ToJSONSchema` is modelled from the decoded schema
on, the decoding of each component (value or error) is data, and so is the decoding of a missing component, which
is only assumed to hold no references. Schemas under keywords that the code does not look at are kept in `others`, the
remaining keywords in `ja_more`. Pointers shared between the result and the input are not modelled.
Validation (`SchemaSpec`): the meaning of a schema is a function from JSON values to bool, undefined when more
references have to be followed than allowed or when a reference points to nothing; "says b" is existence of a number of
steps. Regular expressions, formats, string length, equality of values and foreign references are an oracle shared by
both sides. Keywords outside the listed ones make the meaning undefined.

Codecs. `CodecSpec` says what a well formed value is and `CodecObjSpec` lists, from the text of the OpenAPI
specification, the required, fixed and pattern keys of every object, `CodecTypeSpec` the types of the keys and the enumerations; neither uses the interpreters. The generic theorems
(`CodecRT`, `CodecStrict`, `CodecWrite`) are proved for every table that passes boolean checks, which are computed for the
two tables. The nesting of named types inside one another without a container is bounded by a level count; that it
suffices is part of the checks, the depth of values is not bounded. `CodecDocs` has one document per version with all kinds of entities (generated from
`tools/docs/`), used as instance of the hypotheses.
