(* SchemaOrRef.FromJSONSchema on a receiver that may have been used before:
   openapi3/jsonschema.go:182-364.  SchemaModel.from_js is the same code on a
   fresh one; the schemas inside are converted with fresh receivers. *)
From Verif Require Import Str SMap Json SchemaModel ReadModel CodecModel.

(* Schema: openapi3/entities.go:1666-1704, as in SchemaModel.OSch *)
Record sch := mkSch {
  h_attrs : oattrs;
  h_not : option osor;
  h_allof : list osor;
  h_oneof : list osor;
  h_anyof : list osor;
  h_items : option osor;
  h_props : smap osor;
  h_addl : option (addl osor) }.
(* SchemaOrRef: openapi3/entities.go:2186-2189 *)
Record slot := mkSlot { sl_sch : option sch; sl_ref : option string }.

(* Schema{}, SchemaOrRef{} *)
Definition sch_zero : sch := mkSch oa0 None [] [] [] None [] None.
Definition slot_zero : slot := mkSlot None None.

(* What toJSONSchema makes of it: the reference comes first
   (openapi3/jsonschema.go:49-70). *)
Definition as_osor (h : sch) : osor := OSch (h_attrs h) (h_not h) (h_allof h) (h_oneof h) (h_anyof h) (h_items h) (h_props h) (h_addl h).
Definition view (r : slot) : osor :=
  match sl_ref r, sl_sch r with
  | Some x, _ => ORef x
  | None, Some h => as_osor h
  | None, None => ONone
  end.

(* if s.Schema == nil { s.Schema = &Schema{} }: jsonschema.go:209-211, 353-355 *)
Definition schema_ens (r : slot) : sch := match sl_sch r with Some h => h | None => sch_zero end.

(* x = new, unless it is nil or empty *)
Definition or_old {A : Type} (new old : option A) : option A := match new with Some _ => new | None => old end.
Definition or_old_list {A : Type} (new old : list A) : list A := match new with [] => old | _ => new end.

(* jsonschema.go:213-325 without the schemas *)
Definition into_attrs (a : jattrs) (o : oattrs) : oattrs :=
  let (ty, nu) := match ja_type a with                                                        (* 237-245, 328-334 *)
                  | JTNone => (oa_type o, oa_nullable o)
                  | JTOne t => check_nullable t (oa_type o, oa_nullable o)
                  | JTMany ts => fold_left (fun acc t => check_nullable t acc) ts (oa_type o, oa_nullable o)
                  end in
  mkOA (ja_gotype a) (ja_title a) (ja_desc a) ty nu (ja_multiple a)                          (* 213, 225-226, 297 *)
    (match ja_exmax a with Some _ => ja_max a | None => or_old (ja_max a) (oa_max o) end)    (* 263-268 *)
    (match ja_exmax a with Some _ => Some true | None => oa_exmax o end)
    (match ja_exmin a with Some _ => ja_min a | None => or_old (ja_min a) (oa_min o) end)    (* 270-275 *)
    (match ja_exmin a with Some _ => Some true | None => oa_exmin o end)
    (ja_maxlen a) (or_old (non_zero (ja_minlen a)) (oa_minlen o)) (ja_pattern a)             (* 285-289, 299 *)
    (ja_maxitems a) (or_old (non_zero (ja_minitems a)) (oa_minitems o)) (ja_unique a)        (* 279-283, 313 *)
    (ja_maxprops a) (or_old (non_zero (ja_minprops a)) (oa_minprops o)) (ja_required a) (ja_enum a) (ja_format a) (ja_default a)
    (or_old (match ja_examples a with x :: _ => Some x | [] => None end) (oa_example o))     (* 231-233 *)
    (ja_readonly a) (ja_writeonly a) (ja_deprecated a)
    (fold_left (fun m kv => if has_prefix "x-" (fst kv) then put (fst kv) (snd kv) m else m) (ja_extra a) (oa_x o))  (* 315-325 *)
    (oa_more o).

(* [None]: nil dereference of TypeObject, here or inside. *)
Definition into_js (s : jsob) (r : slot) : option slot :=
  match s with
  | JSZero => None
  | JSBool b =>
      let h := schema_ens r in
      Some (mkSlot (Some (if b then h else mkSch (h_attrs h) (Some (sch0 oa0)) (h_allof h) (h_oneof h) (h_anyof h) (h_items h) (h_props h) (h_addl h))) (sl_ref r))
  | JSObj a (Some x) _ _ _ _ _ _ _ _ _ =>
      Some (if is_true (ja_deprecated a)
            then mkSlot (Some (mkSch oa0 None
                   [ sch0 (mkOA None None None None None None None None None None None None None None None None None None [] [] None None None
                             None None (Some true) [] []); ORef x ] [] [] None [] None)) (sl_ref r)
            else mkSlot (sl_sch r) (Some x))
  | JSObj a None nt al on an it _ pr ad _ =>
      let h := schema_ens r in
      match opt_opt from_js nt, all_opt from_js on, all_opt from_js an, all_opt from_js al with
      | Some nt, Some on, Some an, Some al =>
          let ad' := match ad with
                     | None => Some None
                     | Some (JSBool b) => Some (Some (Addl (Some b) None))
                     | Some x => match from_js x with Some y => Some (Some (Addl None (Some y))) | None => None end
                     end in
          match ad', opt_opt from_js it, all_props from_js pr with
          | Some ad, Some it, Some pr =>
              Some (mkSlot (Some (mkSch (into_attrs a (h_attrs h)) (or_old nt (h_not h)) (or_old_list al (h_allof h))
                                    (or_old_list on (h_oneof h)) (or_old_list an (h_anyof h)) (or_old it (h_items h))
                                    (or_old_list pr (h_props h)) (or_old ad (h_addl h)))) (sl_ref r))
          | _, _, _ => None
          end
      | _, _, _, _ => None
      end
  end.

(* The receiver as a value of the entity type. *)
Definition slotv (r : slot) : val :=
  match sl_sch r with
  | Some h => match schemav (as_osor h) with VStruct (x :: _) => VStruct [x; optv ref30 (sl_ref r)] | v => v end
  | None => VStruct [VNil; optv ref30 (sl_ref r)]
  end.
