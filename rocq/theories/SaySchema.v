(* The JSON of the schemas of openapi3. *)
From Verif Require Import Str SMap Json SchemaModel SchemaProofs CodecModel CodecTables CodecSpec CodecProofs CodecEnc
  CodecRound CodecCheck CodecRT CodecStrict CodecMembers ReadModel SaySpec SayProofs.

(* ---------- the specification ---------- *)

(* Members with a value. *)
Fixpoint given (l : list (string * option json)) : list (string * json) :=
  match l with
  | [] => []
  | (k, Some j) :: l => (k, j) :: given l
  | (_, None) :: l => given l
  end.
Definition arr_m {A : Type} (f : A -> json) (l : list A) : option json := match l with [] => None | _ => Some (JArr (map f l)) end.
Definition obj_m {A : Type} (f : A -> json) (m : smap A) : option json :=
  match m with [] => None | _ => Some (JObj (map (fun kv => (fst kv, f (snd kv))) m)) end.
Definition num_m (x : option Q) : option json := option_map JNum x.
Definition int_m (x : option Z) : option json := option_map (fun z => JNum (inject_Z z)) x.

(* https://spec.openapis.org/oas/v3.0.3#schema-object *)
Fixpoint schema_doc (o : osor) : json :=
  match o with
  | ONone => JObj []
  | ORef r => JObj [("$ref", JStr r)]
  | OSch a nt al on an it pr ad =>
      JObj (given
        [("title", str_m (oa_title a)); ("multipleOf", num_m (oa_multiple a)); ("maximum", num_m (oa_max a));
         ("exclusiveMaximum", bool_m (oa_exmax a)); ("minimum", num_m (oa_min a)); ("exclusiveMinimum", bool_m (oa_exmin a));
         ("maxLength", int_m (oa_maxlen a)); ("minLength", int_m (oa_minlen a)); ("pattern", str_m (oa_pattern a));
         ("maxItems", int_m (oa_maxitems a)); ("minItems", int_m (oa_minitems a)); ("uniqueItems", bool_m (oa_unique a));
         ("maxProperties", int_m (oa_maxprops a)); ("minProperties", int_m (oa_minprops a));
         ("required", arr_m JStr (oa_required a)); ("enum", arr_m (fun j => j) (oa_enum a)); ("type", str_m (oa_type a));
         ("not", option_map schema_doc nt); ("allOf", arr_m schema_doc al); ("oneOf", arr_m schema_doc on);
         ("anyOf", arr_m schema_doc an); ("items", option_map schema_doc it); ("properties", obj_m schema_doc pr);
         ("additionalProperties",
           match ad with
           | Some (Addl _ (Some s)) => Some (schema_doc s)
           | Some (Addl (Some b) None) => Some (JBool b)
           | _ => None
           end);
         ("description", str_m (oa_desc a)); ("format", str_m (oa_format a)); ("default", oa_default a);
         ("nullable", bool_m (oa_nullable a)); ("readOnly", bool_m (oa_readonly a)); ("writeOnly", bool_m (oa_writeonly a));
         ("example", oa_example a); ("deprecated", bool_m (oa_deprecated a))] ++ oa_x a)
  end.

(* ---------- proofs ---------- *)

Section Proofs.
  Variable rnd : Q -> Q.
  Notation T := T30.
  Notation wf := (CodecSpec.wf T30 rnd derived30 extra30).

  Definition mem (v : val) (t : ty) (x : option json) : Prop :=
    if CodecModel.is_empty v then x = None else exists j, enc T v t = Some j /\ x = Some j.

  Lemma given_cons k x l : given ((k, x) :: l) = match x with Some j => (k, j) :: given l | None => given l end.
  Proof. destruct x; reflexivity. Qed.

  Lemma ef_step name t k v x l fs vs : mem v t x -> enc_fields fs (encs T vs) = Some (given l) ->
    enc_fields (mkField name t (Some k) true :: fs) (encs T (v :: vs)) = Some (given ((k, x) :: l)).
  Proof.
    unfold mem. intros H E. cbn [encs map enc_fields f_key f_omit f_ty andb]. change (map (fun v => (v, enc T v)) vs) with (encs T vs). rewrite given_cons.
    destruct (CodecModel.is_empty v); [subst x; exact E|]. destruct H as (j & -> & ->). rewrite E. reflexivity.
  Qed.
  Lemma ef_nil name t k l fs vs : enc_fields fs (encs T vs) = Some (given l) ->
    enc_fields (mkField name t (Some k) true :: fs) (encs T (VNil :: vs)) = Some (given l).
  Proof. intros E. exact E. Qed.
  Lemma ef_skip name t o v l fs vs : enc_fields fs (encs T vs) = Some (given l) ->
    enc_fields (mkField name t None o :: fs) (encs T (v :: vs)) = Some (given l).
  Proof. intros E. exact E. Qed.

  Lemma m_str x : mem (strv x) (TPtr TStr) (str_m x).
  Proof. destruct x; cbn; eauto. Qed.
  Lemma m_bool x : mem (boolv x) (TPtr TBool) (bool_m x).
  Proof. destruct x; cbn; eauto. Qed.
  Lemma m_num x : mem (numv x) (TPtr TFloat) (num_m x).
  Proof. destruct x; cbn; eauto. Qed.
  Lemma m_int x : mem (intv x) (TPtr TInt) (int_m x).
  Proof. destruct x; cbn; eauto. Qed.
  Lemma m_any x : mem (anyv x) (TPtr TAny) x.
  Proof. destruct x; cbn; eauto. Qed.

  Lemma m_list {A} (f : A -> val) (g : A -> json) t l : (forall a, In a l -> enc T (f a) t = Some (g a)) -> mem (listv f l) (TArr t) (arr_m g l).
  Proof.
    intros H. destruct l as [|a l]; [reflexivity|]. unfold mem. cbn [listv map CodecModel.is_empty]. exists (JArr (map g (a :: l))). split; [|reflexivity].
    change (f a :: map f l) with (map f (a :: l)). rewrite enc_arr.
    assert (E : seq_opt (map (fun v => enc T v t) (map f (a :: l))) = Some (map g (a :: l))).
    { revert H. generalize (a :: l). clear. intros l H. induction l as [|b l IH]; [reflexivity|]. cbn [map seq_opt]. rewrite (H b (or_introl eq_refl)).
      rewrite IH; [reflexivity|]. intros c I. apply H. right. exact I. }
    rewrite E. reflexivity.
  Qed.
  Lemma m_map {A} (f : A -> val) (g : A -> json) t (m : smap A) : (forall k a, In (k, a) m -> enc T (f a) t = Some (g a)) -> mem (mapv f m) (TMap t) (obj_m g m).
  Proof.
    intros H. destruct m as [|x m]; [reflexivity|]. unfold mem. change (mapv f (x :: m)) with (VMap (map (fun kv => (fst kv, f (snd kv))) (x :: m))).
    change (CodecModel.is_empty (VMap (map (fun kv => (fst kv, f (snd kv))) (x :: m)))) with false. cbv iota.
    exists (JObj (map (fun kv => (fst kv, g (snd kv))) (x :: m))). split; [|reflexivity]. rewrite enc_map.
    assert (E : seq_opt (map (fun kv => match enc T (snd kv) t with Some j => Some (fst kv, j) | None => None end) (map (fun kv => (fst kv, f (snd kv))) (x :: m))) =
      Some (map (fun kv => (fst kv, g (snd kv))) (x :: m))).
    { revert H. generalize (x :: m). clear. intros m H. induction m as [|[k b] m IH]; [reflexivity|]. cbn [map seq_opt fst snd]. rewrite (H k b (or_introl eq_refl)).
      rewrite IH; [reflexivity|]. intros k' c I. apply (H k'). right. exact I. }
    rewrite E. reflexivity.
  Qed.
  Lemma m_opt {A} (f : A -> val) (g : A -> json) t x : (forall a, x = Some a -> enc T (f a) t = Some (g a)) -> mem (optv f x) (TPtr t) (option_map g x).
  Proof. intros H. destruct x as [a|]; [|reflexivity]. unfold mem. cbn. rewrite (H a eq_refl). eauto. Qed.

  Lemma wfs_of n fs parts d vs : get n T = Some (EStruct fs parts d) -> wf (TNamed n) (VStruct vs) -> wfs T rnd derived30 extra30 n fs parts d vs.
  Proof.
    intros G W. destruct (wf_inv T rnd derived30 extra30 n _ W) as [(vals & s & G' & _)|(fs' & parts' & d' & vs' & Ws & E)]; [congruence|].
    injection E as <-. pose proof (W_get _ _ _ _ _ _ _ _ _ Ws) as G'. rewrite G in G'. injection G' as <- <- <-. exact Ws.
  Qed.

  Lemma doc_obj o : exists M, schema_doc o = JObj M.
  Proof. destruct o; eexists; reflexivity. Qed.

  Lemma wf_list {A} (f : A -> val) t l : wf (TArr t) (listv f l) -> forall a, In a l -> wf t (f a).
  Proof. intros W a I. destruct l as [|b l]; [destruct I|]. cbn [listv] in W. inversion W as [| | | | | | | | | |? ? F| | |]; subst. apply F. apply (in_map f) in I. exact I. Qed.
  Lemma wf_mapi {A} (f : A -> val) t (m : smap A) : wf (TMap t) (mapv f m) -> forall k a, In (k, a) m -> wf t (f a).
  Proof.
    intros W k a I. destruct m as [|b m]; [destruct I|]. cbn [mapv] in W. inversion W as [| | | | | | | | | | |? ? N F| |]; subst. apply (F k).
    change (In (k, f a) (map (fun kv => (fst kv, f (snd kv))) (b :: m))). apply in_map_iff. exists (k, a). auto.
  Qed.

  Lemma schema_says o : wf (TNamed "SchemaOrRef") (schemav o) -> enc T (schemav o) (TNamed "SchemaOrRef") = Some (schema_doc o).
  Proof.
    induction o as [|r|a nt al on an it pr ad Hnt Hal Hon Han Hit Hpr Had] using osor_ind'; intros W.
    - exfalso. pose proof (wfs_of "SchemaOrRef" _ _ _ _ eq_refl W) as Ws. destruct (W_alt _ _ _ _ _ _ _ _ _ Ws eq_refl) as (i & w & Ii & Ei & _); [discriminate|].
      destruct Ii as [<-|[<-|[]]]; discriminate Ei.
    - reflexivity.
    - rewrite Forall_forall in Hal, Hon, Han, Hpr.
      cbn [schemav] in W |- *. pose proof (wfs_of "SchemaOrRef" _ _ _ _ eq_refl W) as Wo. pose proof (W_field _ _ _ _ _ _ _ _ _ Wo 0 _ _ eq_refl eq_refl) as W0. cbn [f_ty] in W0.
      match type of W0 with CodecSpec.wf _ _ _ _ _ (VPtr (VStruct ?l)) => set (vs := l) in * end.
      assert (W1 : wf (TNamed "Schema") (VStruct vs)) by (inversion W0; assumption).
      pose proof (wfs_of "Schema" _ _ _ _ eq_refl W1) as Ws. pose proof (W_field _ _ _ _ _ _ _ _ _ Ws) as F. clear Wo W W0.
      assert (E : enc T (VStruct vs) (TNamed "Schema") = Some (schema_doc (OSch a nt al on an it pr ad))).
      { rewrite (enc_struct T "Schema" _ _ _ _ eq_refl). cbn [map enc_part].
        match goal with |- context [enc_fields ?fs (encs T vs)] => assert (EF : enc_fields fs (encs T vs) = Some (given (
          [("title", str_m (oa_title a)); ("multipleOf", num_m (oa_multiple a)); ("maximum", num_m (oa_max a));
         ("exclusiveMaximum", bool_m (oa_exmax a)); ("minimum", num_m (oa_min a)); ("exclusiveMinimum", bool_m (oa_exmin a));
         ("maxLength", int_m (oa_maxlen a)); ("minLength", int_m (oa_minlen a)); ("pattern", str_m (oa_pattern a));
         ("maxItems", int_m (oa_maxitems a)); ("minItems", int_m (oa_minitems a)); ("uniqueItems", bool_m (oa_unique a));
         ("maxProperties", int_m (oa_maxprops a)); ("minProperties", int_m (oa_minprops a));
         ("required", arr_m JStr (oa_required a)); ("enum", arr_m (fun j => j) (oa_enum a)); ("type", str_m (oa_type a));
         ("not", option_map schema_doc nt); ("allOf", arr_m schema_doc al); ("oneOf", arr_m schema_doc on);
         ("anyOf", arr_m schema_doc an); ("items", option_map schema_doc it); ("properties", obj_m schema_doc pr);
         ("additionalProperties",
           match ad with
           | Some (Addl _ (Some s)) => Some (schema_doc s)
           | Some (Addl (Some b) None) => Some (JBool b)
           | _ => None
           end);
         ("description", str_m (oa_desc a)); ("format", str_m (oa_format a)); ("default", oa_default a);
         ("nullable", bool_m (oa_nullable a)); ("readOnly", bool_m (oa_readonly a)); ("writeOnly", bool_m (oa_writeonly a));
         ("example", oa_example a); ("deprecated", bool_m (oa_deprecated a))]))) end.
        { unfold vs. do 14 (apply ef_step; [first [apply m_str|apply m_num|apply m_bool|apply m_int]|]).
          apply ef_step; [apply m_list; reflexivity|]. apply ef_step; [apply m_list; reflexivity|].
          apply ef_step.
          { pose proof (F 16 _ _ eq_refl eq_refl) as W16. cbn [f_ty] in W16. unfold str_m. apply m_opt. intros t Et. rewrite Et in W16. cbn [strv optv] in W16.
            inversion W16 as [| | | | | | | | |? ? Wt| | | |]; subst. inversion Wt as [| | | | | | | | | | | |? vs' ? G' I|]; subst. cbn [enc]. rewrite G'. apply in_list_In in I. rewrite I. reflexivity. }
          apply ef_step.
          { apply m_opt. intros x Ex. apply (Hnt x Ex). pose proof (F 17 _ _ eq_refl eq_refl) as Wx. cbn [f_ty] in Wx. rewrite Ex in Wx. inversion Wx; assumption. }
          apply ef_step. { apply m_list. intros x I. apply (Hal x I). exact (wf_list schemav _ _ (F 18 _ _ eq_refl eq_refl) x I). }
          apply ef_step. { apply m_list. intros x I. apply (Hon x I). exact (wf_list schemav _ _ (F 19 _ _ eq_refl eq_refl) x I). }
          apply ef_step. { apply m_list. intros x I. apply (Han x I). exact (wf_list schemav _ _ (F 20 _ _ eq_refl eq_refl) x I). }
          apply ef_step.
          { apply m_opt. intros x Ex. apply (Hit x Ex). pose proof (F 21 _ _ eq_refl eq_refl) as Wx. cbn [f_ty] in Wx. rewrite Ex in Wx. inversion Wx; assumption. }
          apply ef_step. { apply m_map. intros k x I. apply (Hpr (k, x) I). exact (wf_mapi schemav _ _ (F 22 _ _ eq_refl eq_refl) k x I). }
          apply ef_step.
          { pose proof (F 23 _ _ eq_refl eq_refl) as Wx. cbn [f_ty] in Wx. destruct ad as [[b s]|]; [|reflexivity].
            assert (Wa : wf (TNamed "SchemaAdditionalProperties") (VStruct [optv schemav s; boolv b])) by (inversion Wx; assumption).
            pose proof (wfs_of "SchemaAdditionalProperties" _ _ _ _ eq_refl Wa) as Wsa. destruct (W_alt _ _ _ _ _ _ _ _ _ Wsa eq_refl) as (i & w & Ii & Ei & Oth); [discriminate|].
            unfold mem. cbn [CodecModel.is_empty]. rewrite enc_ptr, (enc_struct T "SchemaAdditionalProperties" _ _ _ _ eq_refl). cbn [map enc_part encs nth_error f_ty].
            destruct Ii as [<-|[<-|[]]].
            - pose proof (Oth 1 ltac:(right; left; reflexivity) ltac:(discriminate)) as O1. cbn in O1, Ei. destruct b; [discriminate O1|]. destruct s as [s|]; [|discriminate Ei].
              cbn [optv boolv] in *. rewrite enc_ptr. pose proof (W_field _ _ _ _ _ _ _ _ _ Wsa 0 _ _ eq_refl eq_refl) as Wf0. cbn [f_ty] in Wf0.
              rewrite (Had None s eq_refl) by (inversion Wf0; assumption). destruct (doc_obj s) as [Md ->]. eexists. split; reflexivity.
            - pose proof (Oth 0 ltac:(left; reflexivity) ltac:(discriminate)) as O1. cbn in O1, Ei. destruct s; [discriminate O1|]. destruct b as [b|]; [|discriminate Ei].
              cbn. eexists. split; reflexivity. }
          do 4 (apply ef_step; [first [apply m_str|apply m_any|apply m_bool]|]). apply ef_nil.
          do 3 (apply ef_step; [first [apply m_str|apply m_any|apply m_bool]|]). apply ef_nil.
          apply ef_step; [apply m_bool|]. apply ef_nil. apply ef_skip. apply ef_skip. reflexivity. }
        rewrite EF. clear EF. change (nth_error (encs T vs) 35) with (Some (mapv VAny (oa_x a), enc T (mapv VAny (oa_x a)))).
        cbn [nth_error f_ty].
        assert (EX : enc T (mapv VAny (oa_x a)) (TMap TAny) = Some (match oa_x a with [] => JNull | _ => JObj (oa_x a) end)).
        { destruct (oa_x a) as [|x m]; [reflexivity|]. destruct (m_map VAny (fun j => j) TAny (x :: m) ltac:(reflexivity)) as (j & E1 & E2).
          rewrite E1, <- E2. unfold obj_m. f_equal. f_equal. clear. generalize (x :: m). intros l. induction l as [|[k j] l IH]; [reflexivity|]. cbn [map fst snd]. rewrite IH. reflexivity. }
        rewrite EX. cbn [schema_doc]. match goal with |- context [given ?l] => generalize (given l) end. intros G. clear.
        destruct (oa_x a) as [|x m]; cbn [seq_opt]; unfold junion; cbn [junion_loop app]; [rewrite app_nil_r|]; reflexivity. }
      rewrite (enc_struct T "SchemaOrRef" _ _ _ _ eq_refl). cbn [map enc_part encs nth_error f_ty]. rewrite enc_ptr, E. destruct (doc_obj (OSch a nt al on an it pr ad)) as [Md ->]. reflexivity.
  Qed.
End Proofs.
