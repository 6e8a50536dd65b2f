(* Which keywords a receiver of FromJSONSchema has afterwards, in terms of the
   schema that a fresh receiver gets and of the one that was there before. *)
From Verif Require Import Str SMap Json SchemaModel ReuseModel.

Definition either {A : Type} (new old res : option A) : Prop :=
  match new with Some _ => res = new | None => res = old end.
Definition either_list {A : Type} (new old res : list A) : Prop :=
  (new <> [] -> res = new) /\ (new = [] -> res = old).

(* [f] over [o] *)
Record overlay (f o res : sch) : Prop := {
  (* always those of the new schema, also if it has none *)
  ov_gotype : oa_gotype (h_attrs res) = oa_gotype (h_attrs f);
  ov_title : oa_title (h_attrs res) = oa_title (h_attrs f);
  ov_desc : oa_desc (h_attrs res) = oa_desc (h_attrs f);
  ov_multiple : oa_multiple (h_attrs res) = oa_multiple (h_attrs f);
  ov_maxlen : oa_maxlen (h_attrs res) = oa_maxlen (h_attrs f);
  ov_pattern : oa_pattern (h_attrs res) = oa_pattern (h_attrs f);
  ov_maxitems : oa_maxitems (h_attrs res) = oa_maxitems (h_attrs f);
  ov_unique : oa_unique (h_attrs res) = oa_unique (h_attrs f);
  ov_maxprops : oa_maxprops (h_attrs res) = oa_maxprops (h_attrs f);
  ov_required : oa_required (h_attrs res) = oa_required (h_attrs f);
  ov_enum : oa_enum (h_attrs res) = oa_enum (h_attrs f);
  ov_format : oa_format (h_attrs res) = oa_format (h_attrs f);
  ov_default : oa_default (h_attrs res) = oa_default (h_attrs f);
  ov_readonly : oa_readonly (h_attrs res) = oa_readonly (h_attrs f);
  ov_writeonly : oa_writeonly (h_attrs res) = oa_writeonly (h_attrs f);
  ov_deprecated : oa_deprecated (h_attrs res) = oa_deprecated (h_attrs f);
  (* the old ones if the new schema has none *)
  ov_type : either (oa_type (h_attrs f)) (oa_type (h_attrs o)) (oa_type (h_attrs res));
  ov_nullable : either (oa_nullable (h_attrs f)) (oa_nullable (h_attrs o)) (oa_nullable (h_attrs res));
  ov_exmax : either (oa_exmax (h_attrs f)) (oa_exmax (h_attrs o)) (oa_exmax (h_attrs res));
  ov_exmin : either (oa_exmin (h_attrs f)) (oa_exmin (h_attrs o)) (oa_exmin (h_attrs res));
  ov_minlen : either (oa_minlen (h_attrs f)) (oa_minlen (h_attrs o)) (oa_minlen (h_attrs res));
  ov_minitems : either (oa_minitems (h_attrs f)) (oa_minitems (h_attrs o)) (oa_minitems (h_attrs res));
  ov_minprops : either (oa_minprops (h_attrs f)) (oa_minprops (h_attrs o)) (oa_minprops (h_attrs res));
  ov_example : either (oa_example (h_attrs f)) (oa_example (h_attrs o)) (oa_example (h_attrs res));
  ov_not : either (h_not f) (h_not o) (h_not res);
  ov_items : either (h_items f) (h_items o) (h_items res);
  ov_addl : either (h_addl f) (h_addl o) (h_addl res);
  ov_allof : either_list (h_allof f) (h_allof o) (h_allof res);
  ov_oneof : either_list (h_oneof f) (h_oneof o) (h_oneof res);
  ov_anyof : either_list (h_anyof f) (h_anyof o) (h_anyof res);
  ov_props : either_list (h_props f) (h_props o) (h_props res);
  (* so too the bounds, unless the new one is exclusive *)
  ov_max : match oa_exmax (h_attrs f) with Some _ => oa_max (h_attrs res) = oa_max (h_attrs f)
           | None => either (oa_max (h_attrs f)) (oa_max (h_attrs o)) (oa_max (h_attrs res)) end;
  ov_min : match oa_exmin (h_attrs f) with Some _ => oa_min (h_attrs res) = oa_min (h_attrs f)
           | None => either (oa_min (h_attrs f)) (oa_min (h_attrs o)) (oa_min (h_attrs res)) end;
  (* extensions one by one *)
  ov_x : forall k, either (get k (oa_x (h_attrs f))) (get k (oa_x (h_attrs o))) (get k (oa_x (h_attrs res)));
  (* discriminator, externalDocs, xml *)
  ov_more : oa_more (h_attrs res) = oa_more (h_attrs o) }.

(* The new schema has every keyword that the old one could leave behind. *)
Definition said {A : Type} (new old : option A) : Prop := old <> None -> new <> None.
Definition said_list {A : Type} (new old : list A) : Prop := old <> [] -> new <> [].
Record covers (f o : sch) : Prop := {
  co_type : said (oa_type (h_attrs f)) (oa_type (h_attrs o));
  co_nullable : said (oa_nullable (h_attrs f)) (oa_nullable (h_attrs o));
  co_max : said (oa_max (h_attrs f)) (oa_max (h_attrs o)) \/ oa_exmax (h_attrs f) <> None;
  co_exmax : said (oa_exmax (h_attrs f)) (oa_exmax (h_attrs o));
  co_min : said (oa_min (h_attrs f)) (oa_min (h_attrs o)) \/ oa_exmin (h_attrs f) <> None;
  co_exmin : said (oa_exmin (h_attrs f)) (oa_exmin (h_attrs o));
  co_minlen : said (oa_minlen (h_attrs f)) (oa_minlen (h_attrs o));
  co_minitems : said (oa_minitems (h_attrs f)) (oa_minitems (h_attrs o));
  co_minprops : said (oa_minprops (h_attrs f)) (oa_minprops (h_attrs o));
  co_example : said (oa_example (h_attrs f)) (oa_example (h_attrs o));
  co_not : said (h_not f) (h_not o);
  co_items : said (h_items f) (h_items o);
  co_addl : said (h_addl f) (h_addl o);
  co_allof : said_list (h_allof f) (h_allof o);
  co_oneof : said_list (h_oneof f) (h_oneof o);
  co_anyof : said_list (h_anyof f) (h_anyof o);
  co_props : said_list (h_props f) (h_props o);
  co_x : oa_x (h_attrs o) = [];
  co_more : oa_more (h_attrs o) = [] }.
