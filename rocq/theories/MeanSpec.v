(* What the schemas of a 3.0 document mean, compared with the JSON schemas that
   the reflection library reports for Go structures. *)
From Verif Require Import Str SMap Json SchemaModel SchemaSpec ReflectModel ReflectSpec BodySpec ReadModel.

(* Both schemas say the same about every value. *)
Definition same_values (O : oracle) (jenv : string -> option jsob) (oenv : string -> option osor) (j : jsob) (o : osor) : Prop :=
  forall v b, osays O oenv o v b <-> jsays O jenv j v b.
(* ... about every value but null. *)
Definition same_non_null (O : oracle) (jenv : string -> option jsob) (oenv : string -> option osor) (j : jsob) (o : osor) : Prop :=
  forall v b, v <> JNull -> (osays O oenv o v b <-> jsays O jenv j v b).

(* For JSON schemas that OpenAPI 3.0 can express, in a document whose component
   schemas are the conversions of the definitions. *)
Definition means (j : jsob) (o : osor) : Prop :=
  expressible j -> forall O jenv oenv, converted jenv oenv -> same_values O jenv oenv j o.
Definition means_non_null (j : jsob) (o : osor) : Prop :=
  expressible j -> forall O jenv oenv, converted jenv oenv -> same_non_null O jenv oenv j o.

Definition not_nullable (o : osor) : Prop := forall a nt al on an it pr ad, o = OSch a nt al on an it pr ad -> oa_nullable a = None.

(* A text of the given format. *)
Definition is_text (O : oracle) (format : string) (v : json) : bool :=
  match v with JStr _ => String.eqb format "" || o_fmt O format v | _ => false end.
