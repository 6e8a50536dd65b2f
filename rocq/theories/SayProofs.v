(* The members that the values of ReadModel.v are written with. *)
From Coq Require Import Lia.
From Verif Require Import Str SMap Json Types RegistryModel RegistrySpec ReflectModel SchemaModel CodecModel CodecTables CodecSpec CodecProofs CodecEnc
  CodecRound CodecCheck CodecMembers ReadModel SaySpec.

Lemma get_In {A} k (x : A) : forall M, get k M = Some x -> In (k, x) M.
Proof.
  induction M as [|[k' y] M IH]; [discriminate|]. cbn [get]. destruct (String.eqb k k') eqn:E; intros H.
  - apply String.eqb_eq in E. left. congruence.
  - right. auto.
Qed.
Lemma get_notin {A} k (M : list (string * A)) : ~ In k (map fst M) -> get k M = None.
Proof. intros N. destruct (get k M) as [x|] eqn:E; [|reflexivity]. destruct N. exact (in_map fst _ _ (get_In _ _ _ E)). Qed.

Section Obj.
  Variable T : list (string * ent).
  Variable rnd : Q -> Q.
  Variable derived : string -> bool.
  Variable extra : string -> list val -> bool.
  Notation wf := (CodecSpec.wf T rnd derived extra).
  Hypothesis Hok : forall n fs parts d vs, get n T = Some (EStruct fs parts d) -> extra n vs = true ->
    ent_ok T fs d = true /\ (pure_union fs parts d = true /\ derived n = false \/ joined T derived n fs parts d = true).

  (* Of a struct: the members of its fields, and those of the one map that is
     not nil. *)
  Record tells (fs : list field) (parts : list part) (vs : list val) (M : list (string * json)) : Prop := {
    T_field : forall i f k v, nth_error fs i = Some f -> f_key f = Some k -> nth_error vs i = Some v ->
      get k M = if f_omit f && CodecModel.is_empty v then None else enc T v (f_ty f);
    T_map : forall i f t v k, nth_error fs i = Some f -> f_ty f = TMap t -> nth_error vs i = Some v -> In (PField i) parts ->
      (forall i', In (PField i') parts -> i' <> i -> nth_error vs i' = Some VNil) ->
      ~ In k (fkeys fs) -> ~ In k (map fst (const_members parts)) ->
      get k M = match get k (mapof v) with Some w => enc T w t | None => None end }.

  Lemma entries_get t k : forall m M, entries T t m M ->
    get k M = match get k m with Some w => enc T w t | None => None end.
  Proof.
    induction 1 as [|[k1 w] [k2 j] m M [E1 E2] F IH]; [reflexivity|]. cbn [fst snd] in *. subst k2. cbn [get].
    destruct (String.eqb k k1); [congruence|exact IH].
  Qed.

  Lemma object n fs parts d vs : get n T = Some (EStruct fs parts d) -> joined T derived n fs parts d = true -> wf (TNamed n) (VStruct vs) ->
    exists M, enc T (VStruct vs) (TNamed n) = Some (JObj M) /\ tells fs parts vs M /\
      (forall i f v, nth_error fs i = Some f -> nth_error vs i = Some v -> wf (f_ty f) v).
  Proof.
    intros G Jb W. destruct (wf_inv T rnd derived extra n _ W) as [(vals & s & G' & _)|(fs' & parts' & d' & vs' & Ws & E)]; [congruence|].
    injection E as <-. pose proof (W_get _ _ _ _ _ _ _ _ _ Ws) as G'. rewrite G in G'. injection G' as <- <- <-.
    pose proof Jb as J. apply joined_ok in J. destruct (encodes T rnd derived extra Hok n fs parts d vs Ws J) as [JN EE].
    pose proof (seg_nodup T rnd derived extra Hok n fs parts d vs Ws J JN) as SN.
    destruct (Hok n fs parts d vs G (W_extra _ _ _ _ _ _ _ _ _ Ws)) as [OK _].
    assert (D : descr T fs d vs (obj_of T fs parts vs)) by (eapply descr_joined; eassumption).
    exists (obj_of T fs parts vs). split; [exact EE|]. split; [|exact (W_field _ _ _ _ _ _ _ _ _ Ws)]. constructor.
    - intros i f k v Ef Ek Ev. destruct (f_omit f && CodecModel.is_empty v) eqn:O.
      + apply get_notin. exact (D_omit _ _ _ _ _ D i f k v Ef Ek Ev O).
      + destruct (D_field _ _ _ _ _ D i f k v Ef Ek Ev O) as (j & -> & I). exact (get_of_In k j _ (D_nodup _ _ _ _ _ D) I).
    - intros i f t v k Ef Et Ev Ip Oth NF NC. pose proof (D_nodup _ _ _ _ _ D) as N.
      pose proof (seg_map T rnd derived extra n fs parts d vs Ws JN i f t v Ip Ef Ev Et) as EN.
      rewrite <- (entries_get t k _ _ EN).
      destruct (get k (seg T fs vs (PField i))) as [j|] eqn:Gs.
      + apply (get_of_In k j _ N). unfold obj_of. apply in_concat_seg. exists (PField i). split; [exact Ip|exact (get_In _ _ _ Gs)].
      + destruct (get k (obj_of T fs parts vs)) as [j|] eqn:Go; [|reflexivity]. exfalso. apply get_In in Go. unfold obj_of in Go.
        apply in_concat_seg in Go. destruct Go as (p & Ipp & I). destruct p as [m| |i'].
        * apply NC. rewrite seg_const in I. unfold const_members. rewrite flat_map_concat_map. apply in_map_iff. exists (k, j). split; [reflexivity|].
          apply in_concat. exists m. split; [|exact I]. apply in_map_iff. exists (PConst m). split; [reflexivity|exact Ipp].
        * apply (seg_struct_In T derived extra) in I; [|apply JN; exact Ipp]. destruct I as (i' & f' & v' & A & _ & B & _). apply NF. apply fkeys_In. eauto.
        * destruct (Nat.eq_dec i' i) as [->|NE].
          -- assert (In k (map fst (seg T fs vs (PField i)))) as X by exact (in_map fst _ _ I).
             assert (N' : NoDup (map fst (seg T fs vs (PField i)))) by (apply SN; exact Ip).
             pose proof (get_of_In k j _ N' I). congruence.
          -- specialize (Oth i' Ipp NE). destruct (nth_error fs i') as [f'|] eqn:Ef'.
             ++ unfold seg in I. rewrite (part_field T _ _ _ _ _ Ef' Oth) in I. destruct (f_ty f'); cbn [enc objs] in I; contradiction.
             ++ apply nth_error_None in Ef'. pose proof (W_len _ _ _ _ _ _ _ _ _ Ws) as L. rewrite L in Ef'. apply nth_error_None in Ef'. congruence.
  Qed.

  Lemma enc_ptr v t : enc T (VPtr v) (TPtr t) = enc T v t.
  Proof. reflexivity. Qed.

  (* A pointer field with omitempty. *)
  Lemma opt_member {A} (g : A -> val) (x : option A) t :
    (if true && CodecModel.is_empty (optv g x) then None else enc T (optv g x) (TPtr t)) = match x with Some a => enc T (g a) t | None => None end.
  Proof. destruct x; reflexivity. Qed.
  Lemma str_member x : (if true && CodecModel.is_empty (strv x) then None else enc T (strv x) (TPtr TStr)) = str_m x.
  Proof. destruct x; reflexivity. Qed.
  Lemma bool_member x : (if true && CodecModel.is_empty (boolv x) then None else enc T (boolv x) (TPtr TBool)) = bool_m x.
  Proof. destruct x; reflexivity. Qed.

  Lemma enc_arr l t : enc T (VArr l) (TArr t) = match seq_opt (map (fun v => enc T v t) l) with Some js => Some (JArr js) | None => None end.
  Proof. reflexivity. Qed.
  Lemma enc_map m t : enc T (VMap m) (TMap t) =
    match seq_opt (map (fun kv => match enc T (snd kv) t with Some j => Some (fst kv, j) | None => None end) m) with Some M => Some (JObj M) | None => None end.
  Proof. reflexivity. Qed.
  Lemma seq_map_JStr l : seq_opt (map (fun v => enc T v TStr) (map VStr l)) = Some (map JStr l).
  Proof. induction l as [|a l IH]; [reflexivity|]. cbn [map seq_opt enc] in *. rewrite IH. reflexivity. Qed.
  Lemma strs_member l : (if true && CodecModel.is_empty (listv VStr l) then None else enc T (listv VStr l) (TArr TStr)) = strs_m l.
  Proof.
    destruct l as [|a l]; [reflexivity|]. cbn [listv map CodecModel.is_empty andb]. change (VStr a :: map VStr l) with (map VStr (a :: l)).
    rewrite enc_arr, seq_map_JStr. reflexivity.
  Qed.

  Lemma enc_requirement m : enc T (securityv m) (TMap (TArr TStr)) = Some (requirement m).
  Proof.
    unfold securityv, requirement. rewrite enc_map.
    assert (E : seq_opt (map (fun kv => match enc T (snd kv) (TArr TStr) with Some j => Some (fst kv, j) | None => None end)
                  (map (fun kv : string * list string => (fst kv, VArr (map VStr (snd kv)))) m)) =
                Some (map (fun kv => (fst kv, JArr (map JStr (snd kv)))) m)).
    { induction m as [|[k l] m IH]; [reflexivity|]. cbn [map seq_opt fst snd]. rewrite enc_arr, seq_map_JStr, IH. reflexivity. }
    rewrite E. reflexivity.
  Qed.
  Lemma security_member l : (if true && CodecModel.is_empty (listv securityv l) then None else enc T (listv securityv l) (TArr (TMap (TArr TStr)))) = security_m l.
  Proof.
    destruct l as [|a l]; [reflexivity|]. cbn [listv CodecModel.is_empty map andb].
    assert (E : forall l, seq_opt (map (fun v => enc T v (TMap (TArr TStr))) (map securityv l)) = Some (map requirement l)).
    { induction l0 as [|b l0 IH]; [reflexivity|]. cbn [map seq_opt]. rewrite enc_requirement, IH. reflexivity. }
    change (securityv a :: map securityv l) with (map securityv (a :: l)). rewrite enc_arr, E. reflexivity.
  Qed.

  (* Lists and maps of objects. *)
  Lemma list_member {A} (R : A -> json -> Prop) (g : A -> val) t (l : list A) : wf (TArr t) (listv g l) ->
    (forall a, wf t (g a) -> exists j, enc T (g a) t = Some j /\ R a j) ->
    list_m R l (if true && CodecModel.is_empty (listv g l) then None else enc T (listv g l) (TArr t)).
  Proof.
    intros W H. destruct l as [|a l]; [reflexivity|]. cbn [listv map CodecModel.is_empty andb list_m].
    assert (F : forall v, In v (map g (a :: l)) -> wf t v) by (cbn [listv] in W; inversion W; subst; assumption).
    change (g a :: map g l) with (map g (a :: l)).
    assert (X : exists js, seq_opt (map (fun v => enc T v t) (map g (a :: l))) = Some js /\ Forall2 R (a :: l) js).
    { revert F. generalize (a :: l). clear - H. intros l. induction l as [|b l IH]; intros F; [exists []; split; [reflexivity|constructor]|].
      destruct (H b) as (j & E & Rj); [apply F; left; reflexivity|]. destruct IH as (js & Es & Fs); [intros x I; apply F; right; exact I|].
      exists (j :: js). cbn [map seq_opt]. rewrite E, Es. split; [reflexivity|constructor; assumption]. }
    destruct X as (js & E & F2). exists js. split; [|exact F2].
    rewrite enc_arr, E. reflexivity.
  Qed.

  Lemma map_entries {A} (R : A -> json -> Prop) (g : A -> val) t : forall (m : smap A),
    (forall k v, In (k, v) (map (fun kv => (fst kv, g (snd kv))) m) -> wf t v) ->
    (forall a, wf t (g a) -> exists j, enc T (g a) t = Some j /\ R a j) ->
    exists M, seq_opt (map (fun kv => match enc T (snd kv) t with Some j => Some (fst kv, j) | None => None end)
        (map (fun kv => (fst kv, g (snd kv))) m)) = Some M /\ forall k, both R (get k m) (get k M).
  Proof.
    intros m F H. induction m as [|[k a] m IH]; [exists []; split; [reflexivity|intros k; exact I]|].
    destruct (H a) as (j & E & Rj); [apply (F k); left; reflexivity|]. destruct IH as (M & EM & B); [intros k' v I; apply (F k'); right; exact I|].
    exists ((k, j) :: M). cbn [map seq_opt fst snd]. rewrite E, EM. split; [reflexivity|]. intros k'. cbn [get].
    destruct (String.eqb k' k); [exact Rj|apply B].
  Qed.

  Lemma map_member {A} (R : A -> json -> Prop) (g : A -> val) t (m : smap A) omit : wf (TMap t) (mapv g m) ->
    (forall a, wf t (g a) -> exists j, enc T (g a) t = Some j /\ R a j) ->
    map_m R m (if omit && CodecModel.is_empty (mapv g m) then None else enc T (mapv g m) (TMap t)).
  Proof.
    intros W H. destruct m as [|x m]; [cbn; destruct omit; cbn; auto|].
    assert (F : forall k v, In (k, v) (map (fun kv => (fst kv, g (snd kv))) (x :: m)) -> wf t v) by (cbn [mapv] in W; inversion W; subst; assumption).
    destruct (map_entries R g t (x :: m) F H) as (M & E & B). change (mapv g (x :: m)) with (VMap (map (fun kv => (fst kv, g (snd kv))) (x :: m))).
    change (CodecModel.is_empty (VMap (map (fun kv => (fst kv, g (snd kv))) (x :: m)))) with false. rewrite andb_false_r. cbn [map_m].
    exists M. split; [|exact B]. rewrite enc_map, E. reflexivity.
  Qed.

  (* The entry of a map of objects that are members of the struct itself. *)
  Lemma map_get {A} (R : A -> json -> Prop) (g : A -> val) t (m : smap A) k : wf (TMap t) (mapv g m) ->
    (forall a, wf t (g a) -> exists j, enc T (g a) t = Some j /\ R a j) ->
    both R (get k m) (match get k (mapof (mapv g m)) with Some w => enc T w t | None => None end).
  Proof.
    intros W H. assert (E : get k (mapof (mapv g m)) = option_map g (get k m)).
    { destruct m as [|x m]; [reflexivity|]. cbn [mapv mapof]. generalize (x :: m). clear. intros m. induction m as [|[k' y] m IH]; [reflexivity|].
      cbn [map get fst snd]. destruct (String.eqb k k'); [reflexivity|exact IH]. }
    rewrite E. destruct (get k m) as [a|] eqn:G; cbn [option_map both]; [|exact I].
    destruct (H a) as (j & -> & Rj); [|exact Rj]. destruct m as [|x m]; [discriminate G|]. cbn [mapv] in W. inversion W as [| | | | | | | | | | |? ? ? F| |]; subst.
    apply (F k). apply get_In in G. change (In (k, g a) (map (fun kv => (fst kv, g (snd kv))) (x :: m))). apply in_map_iff. exists (k, a). split; [reflexivity|exact G].
  Qed.

  Lemma any_get k (m : smap json) : match get k (mapof (mapv VAny m)) with Some w => enc T w TAny | None => None end = get k m.
  Proof.
    assert (E : get k (mapof (mapv VAny m)) = option_map VAny (get k m)).
    { destruct m as [|x m]; [reflexivity|]. cbn [mapv mapof]. generalize (x :: m). clear. intros m. induction m as [|[k' y] m IH]; [reflexivity|].
      cbn [map get fst snd]. destruct (String.eqb k k'); [reflexivity|exact IH]. }
    rewrite E. destruct (get k m); reflexivity.
  Qed.

  Lemma both_member {A} (R : A -> json -> Prop) (g : A -> val) t (x : option A) : wf (TPtr t) (optv g x) ->
    (forall a, wf t (g a) -> exists j, enc T (g a) t = Some j /\ R a j) ->
    both R x (if true && CodecModel.is_empty (optv g x) then None else enc T (optv g x) (TPtr t)).
  Proof.
    intros W H. destruct x as [a|]; [|exact I]. cbn [optv CodecModel.is_empty andb both]. rewrite enc_ptr.
    destruct (H a) as (j & -> & Rj); [inversion W; assumption|exact Rj].
  Qed.

  (* An object or a reference. *)
  Lemma choice {A} (R : A -> json -> Prop) (g : A -> val) (h : string -> val) n f0 f1 t0 t1 d (x : option A) (ref : option string) :
    get n T = Some (EStruct [f0; f1] [PField 0; PField 1] d) -> f_ty f0 = TPtr t0 -> f_ty f1 = TPtr t1 -> derived n = false -> d_oneof d = [0; 1] ->
    wf (TNamed n) (VStruct [optv h ref; optv g x]) ->
    (forall r, enc T (h r) t0 = Some (JObj [("$ref", JStr r)])) ->
    (forall a, wf t1 (g a) -> exists M, enc T (g a) t1 = Some (JObj M) /\ R a (JObj M)) ->
    exists j, enc T (VStruct [optv h ref; optv g x]) (TNamed n) = Some j /\ or_ref R x ref j.
  Proof.
    intros G E0 E1 Dn Od W Hr H. destruct (wf_inv T rnd derived extra n _ W) as [(vals & s & G' & _)|(fs' & parts' & d' & vs' & Ws & E)]; [congruence|].
    injection E as <-. pose proof (W_get _ _ _ _ _ _ _ _ _ Ws) as G'. rewrite G in G'. injection G' as <- <- <-.
    destruct (W_alt _ _ _ _ _ _ _ _ _ Ws Dn) as (i & w & Ii & Ei & Oth); [rewrite Od; discriminate|]. rewrite Od in Ii, Oth.
    pose proof (W_field _ _ _ _ _ _ _ _ _ Ws 1 f1 (optv g x) eq_refl eq_refl) as W1. rewrite E1 in W1.
    rewrite (enc_struct T n _ _ _ _ G). cbn [map enc_part encs nth_error]. rewrite E0, E1. destruct Ii as [<-|[<-|[]]].
    - specialize (Oth 1 ltac:(right; left; reflexivity) ltac:(discriminate)). cbn in Oth, Ei. destruct x; [discriminate Oth|]. destruct ref as [r|]; [|discriminate Ei].
      cbn [optv] in *. rewrite enc_ptr, Hr. exists (JObj [("$ref", JStr r)]). split; [reflexivity|]. cbn. eauto.
    - specialize (Oth 0 ltac:(left; reflexivity) ltac:(discriminate)). cbn in Oth, Ei. destruct ref; [discriminate Oth|]. destruct x as [a|]; [|discriminate Ei].
      cbn [optv] in *. rewrite enc_ptr. destruct (H a) as (M & -> & RM); [inversion W1; assumption|]. exists (JObj M). split; [reflexivity|]. split; [exact RM|reflexivity].
  Qed.
End Obj.

(* Two structs of a type that differ in some fields only. *)
Section Rest.
  Variable T : list (string * ent).
  Lemma rest_same fs parts vs ws M N e : tells T fs parts vs M -> tells T fs parts ws N -> length vs = length fs -> length ws = length fs ->
    forall f t, nth_error fs e = Some f -> f_ty f = TMap t -> f_key f = None -> In (PField e) parts -> (forall i, In (PField i) parts -> i = e) -> const_members parts = [] ->
    forall k, (forall i g, nth_error fs i = Some g -> f_key g = Some k \/ i = e -> nth_error vs i = nth_error ws i) -> get k M = get k N.
  Proof.
    intros TM TN Lv Lw f t Ef Et Ek Ip Only NC k H. destruct (in_dec string_dec k (fkeys fs)) as [I|I].
    - apply fkeys_In in I. destruct I as (i & g & Eg & Egk). destruct (nth_error vs i) as [v|] eqn:Ev.
      + rewrite (T_field _ _ _ _ _ TM i g k v Eg Egk Ev), (T_field _ _ _ _ _ TN i g k v Eg Egk); [reflexivity|]. rewrite <- (H i g Eg (or_introl Egk)). exact Ev.
      + apply nth_error_None in Ev. rewrite Lv in Ev. apply nth_error_None in Ev. congruence.
    - destruct (nth_error vs e) as [v|] eqn:Ev.
      + assert (Ew : nth_error ws e = Some v) by (rewrite <- (H e f Ef (or_intror eq_refl)); exact Ev).
        assert (X : forall xs i', In (PField i') parts -> i' <> e -> nth_error xs i' = Some VNil) by (intros xs i' Ii N'; destruct (N' (Only i' Ii))).
        rewrite (T_map _ _ _ _ _ TM e f t v k Ef Et Ev Ip (X vs) I), (T_map _ _ _ _ _ TN e f t v k Ef Et Ew Ip (X ws) I); try reflexivity; rewrite NC; intros [].
      + apply nth_error_None in Ev. rewrite Lv in Ev. apply nth_error_None in Ev. congruence.
  Qed.
End Rest.
