(* Specification for contexts, document setters and the deprecated form. *)
From Coq Require Import ZArith.
From Verif Require Import Str SMap Json PathModel Types RegistryModel ReflectModel ContextModel.

(* ---------- histories of calls ---------- *)

(* The value after a history: that of the last call that sets it, or the one
   before. *)
Inductive observed {K A : Type} (sets : K -> A -> Prop) (before : A) : list K -> A -> Prop :=
| ob_same l : (forall k v, In k l -> ~ sets k v) -> observed sets before l before
| ob_last l1 k l2 v : sets k v -> (forall k' v', In k' l2 -> ~ sets k' v') -> observed sets before (l1 ++ k :: l2) v.

Section Contexts.
  Context {V : Type}.
  Notation ccall := (ccall V).
  Definition sets_tags (k : ccall) v := k = SetTags v.
  Definition sets_summary (k : ccall) v := k = SetSummary v.
  Definition sets_description (k : ccall) v := k = SetDescription v.
  Definition sets_id (k : ccall) v := k = SetID v.
  Definition sets_deprecated (k : ccall) v := k = SetDeprecated v.
  Definition sets_method (k : ccall) v := k = SetMethod v.
  Definition sets_path (k : ccall) v := k = SetPathPattern v.
  Definition sets_processing_in (k : ccall) v := k = SetProcessingIn v.
  Definition sets_processing_response (k : ccall) v := k = SetProcessingResponse v.

  (* What a call adds to the requirements: one requirement with one name; its
     scopes are a list, never nil. *)
  Inductive adds_security : ccall -> list (smap (option (list string))) -> Prop :=
  | as_scopes n l : adds_security (AddSecurity n (Some l)) [[(n, Some l)]]
  | as_nil n : adds_security (AddSecurity n None) [[(n, Some [])]]
  | as_other k : (forall n l, k <> AddSecurity n l) -> adds_security k [].

  (* A content unit: what the value prepares, or the value itself; then the
     options in order. *)
  Inductive options_applied : list (cunit_in V -> cunit_in V) -> cunit_in V -> cunit_in V -> Prop :=
  | oa_nil u : options_applied [] u u
  | oa_cons f fs u u' : options_applied fs (f u) u' -> options_applied (f :: fs) u u'.
  Variable preparer : V -> option (cunit_in V -> cunit_in V).
  Inductive unit_for : option V -> cunit_in V -> Prop :=
  | uf_nil : unit_for None (mkUnit None "" "" 0 false "" None [])
  | uf_plain v : preparer v = None -> unit_for (Some v) (mkUnit (Some v) "" "" 0 false "" None [])
  | uf_prepared v f : preparer v = Some f -> unit_for (Some v) (f (mkUnit None "" "" 0 false "" None [])).
  Inductive adds_request : ccall -> list (cunit_in V) -> Prop :=
  | ar_add s fs u u' : unit_for s u -> options_applied fs u u' -> adds_request (AddReq s fs) [u']
  | ar_other k : (forall s fs, k <> AddReq s fs) -> adds_request k [].
  Inductive adds_response : ccall -> list (cunit_in V) -> Prop :=
  | ap_add s fs u u' : unit_for s u -> options_applied fs u u' -> adds_response (AddResp s fs) [u']
  | ap_other k : (forall s fs, k <> AddResp s fs) -> adds_response k [].
End Contexts.

(* ---------- security schemes ---------- *)

(* The schemes of a document. *)
Definition scheme_of30 (d : doc components30) (name : string) : option sor30 :=
  match d_components d with
  | Some c => match c3_security c with Some m => get name m | None => None end
  | None => None
  end.
Definition scheme_of31 (d : doc components31) (name : string) : option sor31 :=
  match d_components d with Some c => get name (c1_security c) | None => None end.

(* Everything but the security schemes is as before; missing components are
   like empty ones. *)
Definition same_rest30 (d d' : doc components30) : Prop :=
  d_info d' = d_info d /\ d_rest d' = d_rest d /\
  exists c', d_components d' = Some c' /\
    c3_rest c' = match d_components d with Some c => c3_rest c | None => JNull end.
Definition same_rest31 (d d' : doc components31) : Prop :=
  d_info d' = d_info d /\ d_rest d' = d_rest d /\
  exists c', d_components d' = Some c' /\
    c1_rest c' = match d_components d with Some c => c1_rest c | None => JNull end.

(* What a setter is called for, and the scheme it stands for: a scheme and no
   reference, with the given members and no other. *)
Definition secured (k : scall_sec) : string :=
  match k with SBasic n _ => n | SKey n _ _ _ => n | SBearer n _ _ => n end.
Inductive stands_for30 : scall_sec -> sor30 -> Prop :=
| s3_basic n d h : ht_scheme h = "basic" -> ht_format h = None -> ht_desc h = Some d -> ht_rest h = JNull ->
    stands_for30 (SBasic n d) (mkSor30 None (Some (mkScheme30 None (Some h) None None)))
| s3_key n f l d a : ak_name a = f -> ak_in a = l -> ak_desc a = Some d -> ak_rest a = JNull ->
    stands_for30 (SKey n f l d) (mkSor30 None (Some (mkScheme30 (Some a) None None None)))
| s3_bearer n f d h : ht_scheme h = "bearer" -> (f <> "" -> ht_format h = Some f) -> (f = "" -> ht_format h = None) ->
    ht_desc h = Some d -> ht_rest h = JNull ->
    stands_for30 (SBearer n f d) (mkSor30 None (Some (mkScheme30 None (Some h) None None))).
Definition no_other31 (s : scheme31) : Prop := s1_oauth s = None /\ s1_oidc s = None /\ s1_tls s = None /\ s1_ext s = [].
Inductive stands_for31 : scall_sec -> sor31 -> Prop :=
| s31_basic n d s : s1_desc s = Some d -> s1_http s = Some "basic" -> s1_apikey s = None -> s1_bearer s = None -> no_other31 s ->
    stands_for31 (SBasic n d) (mkSor31 None (Some s))
| s31_key n f l d s : s1_desc s = Some d -> s1_apikey s = Some (f, l) -> s1_http s = None -> s1_bearer s = None -> no_other31 s ->
    stands_for31 (SKey n f l d) (mkSor31 None (Some s))
| s31_bearer n f d s b : s1_desc s = Some d -> s1_bearer s = Some b -> be_scheme b = "bearer" ->
    (f <> "" -> be_format b = Some f) -> (f = "" -> be_format b = None) ->
    s1_http s = None -> s1_apikey s = None -> no_other31 s ->
    stands_for31 (SBearer n f d) (mkSor31 None (Some s)).

(* ---------- document information ---------- *)

Inductive icall := ITitle (s : string) | IVersion (s : string) | IDescription (s : string).
Definition info_call {C} (d : doc C) (k : icall) : doc C :=
  match k with ITitle s => set_title s d | IVersion s => set_version s d | IDescription s => set_description s d end.

(* ---------- deprecated form ---------- *)

(* A value that does not prepare its own content unit. *)
Definition plain {V} (preparer : V -> option (cunit_in V -> cunit_in V)) (s : option V) : Prop :=
  forall v, s = Some v -> preparer v = None.
