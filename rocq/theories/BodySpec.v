(* What the request bodies, responses, headers and components of a documented
   operation contain. *)
From Coq Require Import ZArith.
From Verif Require Import Str SMap Json PathSpec Types RegistryModel RegistrySpec ReflectModel ReflectSpec.

Section Spec.
  Context {J Sch : Type}.
  Variable B : backend J Sch.
  Notation cunit := (cunit J Sch).
  Notation prop := (prop J).

  (* A body that is a string of a format. *)
  Definition plain (format : string) : media Sch := mkMedia (Some (b_string B format)) JNull.

  Definition rest_of (m : option (media Sch)) : json := match m with Some m => mt_rest m | None => JNull end.

  (* ------------------------------------------------------------------ *)
  (* Responses                                                            *)

  (* [ct] is the media type under which the JSON body of a unit is shown. *)
  Definition json_shown (cu : cunit) (ct : string) : Prop :=
    cu_nil cu = false /\ v_has_json cu <> Ret false /\
    ((base_type (cu_ctype cu) ct /\ ct <> "") \/ (base_type (cu_ctype cu) "" /\ ct = "application/json")).
  Definition tag_shown (cu : cunit) (ct : string) : Prop := cu_nil cu = false /\ In ct (v_content_tags cu).
  Definition type_shown (cu : cunit) (ct : string) : Prop := base_type (cu_ctype cu) ct /\ ct <> "".

  (* The entry of a media type after a unit, given the one before: the JSON
     schema replaces the schema, a contentType tag gives a string (in 3.0 only
     if nothing is there), the content type of the unit gives a string of the
     format of the unit if nothing is there. *)
  Definition response_media (cu : cunit) (ct : string) (before after : option (media Sch)) : Prop :=
    exists m1 m2,
      (json_shown cu ct -> exists j s, snd (v_json cu) = Ret j /\ b_conv B j = Ret s /\
         m1 = Some (mkMedia (Some (b_unnull B s)) (rest_of before))) /\
      (~ json_shown cu ct -> m1 = before) /\
      (tag_shown cu ct -> m2 = if b_v31 B then Some (plain "") else or_else m1 (Some (plain ""))) /\
      (~ tag_shown cu ct -> m2 = m1) /\
      (type_shown cu ct -> after = or_else m2 (Some (plain (cu_format cu)))) /\
      (~ type_shown cu ct -> after = m2).

  (* ... after several units *)
  Inductive responses_media (ct : string) : list cunit -> option (media Sch) -> option (media Sch) -> Prop :=
  | rm_nil m : responses_media ct [] m m
  | rm_cons cu l m m1 m2 : response_media cu ct m m1 -> responses_media ct l m1 m2 ->
      responses_media ct (cu :: l) m m2.

  (* The header documented for a property. *)
  Definition renders_header (q : prop) (h : header Sch) : Prop :=
    exists t s d, pr_tags q = Ret t /\ b_conv B (pr_schema q) = Ret s /\ b_deprecated B (pr_schema q) s = Ret d /\
      h_desc h = or_else (t_desc t) (b_desc B (pr_schema q)) /\
      h_required h = t_required t /\
      h_deprecated h = or_else (t_deprecated t) d /\
      h_explode h = t_explode t /\
      h_allow_empty h = (if b_v31 B then None else t_allow_empty t) /\
      h_allow_reserved h = (if b_v31 B then None else t_allow_reserved t) /\
      h_schema h = Some s.

  (* [q] is the last property that becomes the header [n]. *)
  Definition last_named (qs : list prop) (n : string) (q : prop) : Prop :=
    exists l1 l2, qs = l1 ++ q :: l2 /\ considered q = true /\ pr_name q = n /\
      forall x, In x l2 -> considered x = true -> pr_name x <> n.

  (* ------------------------------------------------------------------ *)
  (* Requests                                                             *)

  Definition may_have_body (m : string) (cu : cunit) : Prop := ~ bodyless m \/ v_force_body cu = true.

  (* The structure is documented as a JSON body. *)
  Definition wants_json (m : string) (cu : cunit) : Prop :=
    may_have_body m cu /\
    (v_tagged cu "formData" = true \/ v_tagged cu "form" = true -> v_force_json cu = true \/ v_struct cu = true) /\
    (v_tagged cu "json" = true \/ v_struct cu = true \/ v_slice cu = true \/ v_embedded_slice cu = true \/
     v_without_tags cu = Ret true).
  Definition wants_form (m : string) (cu : cunit) : Prop := may_have_body m cu /\ form_structure cu.

  Definition form_type (cu : cunit) (ct : string) : Prop :=
    (has_file cu /\ ct = "multipart/form-data") \/ (~ has_file cu /\ ct = "application/x-www-form-urlencoded").

  Definition reflected_body (cu : cunit) (tag : string) (after : option (media Sch)) : Prop :=
    exists j defs s, snd (v_body cu tag) = Ret (j, defs) /\ b_conv B j = Ret s /\ after = Some (mkMedia (Some s) JNull).

  (* What a request unit gives under a media type. *)
  Inductive gives (m : string) (cu : cunit) (ct : string) : option (media Sch) -> Prop :=
  | gv_other : ~ In (cu_ctype cu) [""; "application/json"; "application/x-www-form-urlencoded"; "multipart/form-data"] ->
      ct = cu_ctype cu -> gives m cu ct (Some (plain (cu_format cu)))
  | gv_tag : cu_ctype cu = "" -> cu_nil cu = false -> In ct (v_content_tags cu) -> gives m cu ct (Some (plain ""))
  | gv_json x : In (cu_ctype cu) [""; "application/json"] -> wants_json m cu -> ct = "application/json" ->
      (cu_ctype cu = "" -> cu_nil cu = false -> ~ In ct (v_content_tags cu)) ->
      reflected_body cu "json" x -> gives m cu ct x
  | gv_form x : In (cu_ctype cu) [""; "application/x-www-form-urlencoded"; "multipart/form-data"] ->
      wants_form m cu -> form_type cu ct ->
      (cu_ctype cu = "" -> cu_nil cu = false -> ~ In ct (v_content_tags cu)) ->
      reflected_body cu "formData" x -> gives m cu ct x.

  (* The media types a request unit documents. *)
  Inductive body_type (m : string) (cu : cunit) : string -> Prop :=
  | bt_other : ~ In (cu_ctype cu) [""; "application/json"; "application/x-www-form-urlencoded"; "multipart/form-data"] ->
      body_type m cu (cu_ctype cu)
  | bt_tag ct : cu_ctype cu = "" -> cu_nil cu = false -> In ct (v_content_tags cu) -> body_type m cu ct
  | bt_json : In (cu_ctype cu) [""; "application/json"] -> wants_json m cu -> body_type m cu "application/json"
  | bt_form ct : In (cu_ctype cu) [""; "application/x-www-form-urlencoded"; "multipart/form-data"] ->
      wants_form m cu -> form_type cu ct -> body_type m cu ct.

  (* The description of the body: the last one given with or after the first
     media type. *)
  Definition body_desc (b : option (rbor Sch)) : option string :=
    match b with
    | Some x => match rbor_body x with Some y => rb_desc y | None => None end
    | None => None
    end.
  Definition has_body (b : option (rbor Sch)) : Prop := exists x y, b = Some x /\ rbor_body x = Some y.

  (* ------------------------------------------------------------------ *)
  (* Components                                                           *)

  (* Definitions reported while the units of a call are reflected. *)
  Inductive request_def (m : string) (cu : cunit) : string -> J -> Prop :=
  | rd_param loc n j : structuredb cu = true -> v_slice cu = false -> In loc locations ->
      In (EDef n j) (fst (v_params cu loc)) -> request_def m cu n j
  | rd_json loc q n j : In (loc, q) (param_fields cu) -> json_encoded q -> In (n, j) (pr_json_defs q) ->
      request_def m cu n j
  | rd_body_json n j j0 defs : In (cu_ctype cu) [""; "application/json"] -> wants_json m cu ->
      snd (v_body cu "json") = Ret (j0, defs) -> In (n, j) defs -> request_def m cu n j
  | rd_body_form n j j0 defs : In (cu_ctype cu) [""; "application/x-www-form-urlencoded"; "multipart/form-data"] ->
      wants_form m cu -> snd (v_body cu "formData") = Ret (j0, defs) -> In (n, j) defs -> request_def m cu n j.
  Inductive response_def (m : string) (cu : cunit) : string -> J -> Prop :=
  | sd_json n j : m <> "head" -> cu_nil cu = false -> v_has_json cu <> Ret false -> In (n, j) (fst (v_json cu)) ->
      response_def m cu n j.

  (* The definitions of a call. *)
  Definition call_def (m : string) (req resp : list cunit) (n : string) (j : J) : Prop :=
    (exists cu, In cu req /\ request_def m cu n j) \/ (exists cu, In cu resp /\ response_def m cu n j).
End Spec.
