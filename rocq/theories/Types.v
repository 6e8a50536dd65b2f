(* The OpenAPI objects that the registry (helper.go) and the reflection
   pipeline (reflect.go) of both packages read and write.  [Sch] is the schema
   type: SchemaOrRef in openapi3, map[string]interface{} in openapi31.
   Members of the Go structs that no modelled function touches are kept
   together in an opaque [..._rest] field, so that frame properties cover
   them. *)
From Verif Require Import Str SMap Json.

Section Types.
  Variable Sch : Type.

  (* openapi3/entities.go MediaType, openapi31/entities.go MediaType. *)
  Record media := mkMedia {
    mt_schema : option Sch;
    mt_rest : json }.

  (* openapi3/entities.go:1377-1395 Parameter, openapi31/entities.go Parameter. *)
  Record param := mkParam {
    p_name : string;
    p_in : string;
    p_desc : option string;
    p_required : option bool;
    p_deprecated : option bool;
    p_allow_empty : option bool;
    p_style : option string;
    p_explode : option bool;
    p_allow_reserved : option bool;
    p_schema : option Sch;
    p_content : smap media;
    p_rest : json }.

  (* ParameterOrRef / ParameterOrReference: two pointers. *)
  Record por := mkPor { por_param : option param; por_ref : option string }.

  (* Header. *)
  Record header := mkHeader {
    h_desc : option string;
    h_required : option bool;
    h_deprecated : option bool;
    h_allow_empty : option bool;
    h_explode : option bool;
    h_allow_reserved : option bool;
    h_schema : option Sch }.

  (* Response; headers are header objects only (the pipeline never writes
     header references). *)
  Record response := mkResp {
    rs_desc : string;
    rs_headers : smap header;
    rs_content : smap media;
    rs_rest : json }.

  (* ResponseOrRef / ResponseOrReference: two pointers. *)
  Record ror := mkRor { ror_resp : option response; ror_ref : option string }.

  (* RequestBody and RequestBodyOrRef / RequestBodyOrReference. *)
  Record rbody := mkRbody {
    rb_desc : option string;
    rb_content : smap media;
    rb_rest : json }.
  Record rbor := mkRbor { rbor_body : option rbody; rbor_ref : option string }.

  (* Responses. *)
  Record responses := mkResps { rs_default : option ror; rs_map : smap ror }.

  (* Operation; [R] is [responses] in 3.0 (a struct) and [option responses] in
     3.1 (a pointer). *)
  Record operation (R : Type) := mkOp {
    op_tags : list string;
    op_summary : option string;
    op_desc : option string;
    op_id : option string;
    op_params : list por;
    op_body : option rbor;
    op_responses : R;
    op_deprecated : option bool;
    op_security : list (smap (list string));
    op_ext : smap json;
    op_rest : json }.
End Types.

Arguments mt_schema {Sch}. Arguments mt_rest {Sch}. Arguments mkMedia {Sch}.
Arguments p_name {Sch}. Arguments p_in {Sch}. Arguments p_desc {Sch}.
Arguments p_required {Sch}. Arguments p_deprecated {Sch}. Arguments p_allow_empty {Sch}.
Arguments p_style {Sch}. Arguments p_explode {Sch}. Arguments p_allow_reserved {Sch}.
Arguments p_schema {Sch}. Arguments p_content {Sch}. Arguments p_rest {Sch}.
Arguments mkParam {Sch}.
Arguments por_param {Sch}. Arguments por_ref {Sch}. Arguments mkPor {Sch}.
Arguments h_desc {Sch}. Arguments h_required {Sch}. Arguments h_deprecated {Sch}.
Arguments h_allow_empty {Sch}. Arguments h_explode {Sch}. Arguments h_allow_reserved {Sch}.
Arguments h_schema {Sch}. Arguments mkHeader {Sch}.
Arguments rs_desc {Sch}. Arguments rs_headers {Sch}. Arguments rs_content {Sch}.
Arguments rs_rest {Sch}. Arguments mkResp {Sch}.
Arguments ror_resp {Sch}. Arguments ror_ref {Sch}. Arguments mkRor {Sch}.
Arguments rb_desc {Sch}. Arguments rb_content {Sch}. Arguments rb_rest {Sch}. Arguments mkRbody {Sch}.
Arguments rbor_body {Sch}. Arguments rbor_ref {Sch}. Arguments mkRbor {Sch}.
Arguments rs_default {Sch}. Arguments rs_map {Sch}. Arguments mkResps {Sch}.
Arguments op_tags {Sch R}. Arguments op_summary {Sch R}. Arguments op_desc {Sch R}.
Arguments op_id {Sch R}. Arguments op_params {Sch R}. Arguments op_body {Sch R}.
Arguments op_responses {Sch R}. Arguments op_deprecated {Sch R}. Arguments op_security {Sch R}.
Arguments op_ext {Sch R}. Arguments op_rest {Sch R}. Arguments mkOp {Sch R}.
