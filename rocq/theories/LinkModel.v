(* References instead of contents. *)
From Verif Require Import Str SMap Json Types ReflectModel.

Section Reference.
  Context {J Sch : Type}.
  Notation cunit := (cunit J Sch).

  (* ResponseOrRef.SetReference: openapi3/helper.go:215-218; ResponseOrReference
     openapi31/helper.go:309-312.  Of a reference the record has the "$ref". *)
  Definition response_set_reference (ref : string) (x : ror Sch) : ror Sch :=
    let x := mkRor (ror_resp x) (Some ref) in
    mkRor None (ror_ref x).

  (* RequestBodyOrRef.SetReference: openapi3/helper.go:221-224; RequestBodyOrReference
     openapi31/helper.go:315-318 *)
  Definition body_set_reference (ref : string) (x : rbor Sch) : rbor Sch :=
    let x := mkRbor (rbor_body x) (Some ref) in
    mkRbor None (rbor_ref x).

  (* The content unit after WithReference(ref): operation.go:66-72.  The function
     gets a ContentOrReference of either kind. *)
  Definition with_reference (ref : string) (cu : cunit) : cunit :=
    mkCU (cu_nil cu) (cu_ctype cu) (cu_format cu) (cu_status cu) (cu_default cu) (cu_desc cu) (cu_form_mapping cu)
      (Some (body_set_reference ref)) (Some (response_set_reference ref))
      (v_force_body cu) (v_force_json cu) (v_slice cu) (v_embedded_slice cu) (v_struct cu) (v_tagged cu) (v_without_tags cu)
      (v_body cu) (v_params cu) (v_content_tags cu) (v_has_json cu) (v_json cu) (v_headers cu).
End Reference.
