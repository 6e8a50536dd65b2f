(* Proofs about the builder methods. *)
From Coq Require Import Lia.
From Verif Require Import Str SMap Json CodecModel CodecTables CodecObjSpec CodecProofs CodecEnc CodecRound CodecDis CodecRT CodecStrict CodecCheck CodecWrite CodecMembers CodecSpec CodecTypeSpec BuildModel BuildTables BuildSpec.

Definition packs : list (list (string * ent) * list (string * list (string * meth))) := [(T30, M30); (T31, M31)].

Definition exp_eqb (a b : exp) : bool :=
  match a, b with
  | EVal, EVal | EAddr, EAddr => true
  | EMake t, EMake u => ty_eqb t u
  | ENew n, ENew m => String.eqb n m
  | _, _ => false
  end.
Definition oty_eqb (a b : option ty) : bool :=
  match a, b with Some t, Some u => ty_eqb t u | None, None => true | _, _ => false end.

Definition is_skip (t : ty) : bool := match t with TSkip => true | _ => false end.

Definition setter_ok (M : list (string * list (string * meth))) (n : string) (f : field) : bool :=
  match method M n ("With" ^^ f_name f) with
  | Some (mkMeth (Some t) [SAssign g e] RSelf) =>
      String.eqb g (f_name f) && (exp_eqb e EVal && ty_eqb (f_ty f) t || exp_eqb e EAddr && ty_eqb (f_ty f) (TPtr t))
  | _ => false
  end.
Definition item_ok (M : list (string * list (string * meth))) (n : string) (f : field) : bool :=
  match f_ty f with
  | TMap t =>
      match method M n ("With" ^^ f_name f ^^ "Item") with
      | Some (mkMeth (Some u) [SIfNil g g' e; SItem g''] RSelf) =>
          String.eqb g (f_name f) && String.eqb g' (f_name f) && String.eqb g'' (f_name f) && ty_eqb t u && exp_eqb e (EMake (TMap t))
      | _ => false
      end
  | _ => true
  end.
Definition ens_ok (T : list (string * ent)) (M : list (string * list (string * meth))) (n : string) (f : field) : bool :=
  match f_ty f with
  | TPtr (TNamed s) =>
      match get s T with
      | Some (EStruct _ _ _) =>
          match method M n (f_name f ^^ "Ens") with
          | Some (mkMeth None [SIfNil g g' e] (RField g'')) =>
              String.eqb g (f_name f) && String.eqb g' (f_name f) && String.eqb g'' (f_name f) && exp_eqb e (ENew s)
          | _ => false
          end
      | _ => true
      end
  | _ => true
  end.
Definition known_ok (T : list (string * ent)) (M : list (string * list (string * meth))) : bool :=
  forallb (fun nl => match get (fst nl) T with
                     | Some (EStruct fs _ _) =>
                         forallb (fun m => existsb (fun f => in_list (fst m) ["With" ^^ f_name f; "With" ^^ f_name f ^^ "Item"; f_name f ^^ "Ens"]) fs) (snd nl)
                     | _ => false
                     end) M.
Definition ent_builds (T : list (string * ent)) (M : list (string * list (string * meth))) (ne : string * ent) : bool :=
  match snd ne with
  | EEnum _ => true
  | EStruct fs _ _ =>
      nodups (map f_name fs) &&
      forallb (fun f => (is_skip (f_ty f) || setter_ok M (fst ne) f) && item_ok M (fst ne) f && ens_ok T M (fst ne) f) fs
  end.


Lemma checks30 : forallb (ent_builds T30 M30) T30 = true. Proof. vm_compute. reflexivity. Qed.
Lemma checks31 : forallb (ent_builds T31 M31) T31 = true. Proof. vm_compute. reflexivity. Qed.
Lemma known30 : known_ok T30 M30 = true. Proof. vm_compute. reflexivity. Qed.
Lemma known31 : known_ok T31 M31 = true. Proof. vm_compute. reflexivity. Qed.

Lemma get_In_pair {A} n (l : list (string * A)) x : get n l = Some x -> In (n, x) l.
Proof.
  induction l as [|[k v] l IH]; intros H; [discriminate H|]. cbn [get] in H. destruct (String.eqb n k) eqn:E.
  - injection H as <-. apply String.eqb_eq in E. subst k. left. reflexivity.
  - right. apply IH. exact H.
Qed.

Lemma builds T M n fs parts d : In (T, M) packs -> get n T = Some (EStruct fs parts d) -> ent_builds T M (n, EStruct fs parts d) = true.
Proof.
  intros I G. apply get_In_pair in G. destruct I as [E|[E|[]]]; injection E as <- <-.
  - pose proof checks30 as C. rewrite forallb_forall in C. exact (C _ G).
  - pose proof checks31 as C. rewrite forallb_forall in C. exact (C _ G).
Qed.

Lemma position_nodup : forall fs i f, NoDup (map f_name fs) -> nth_error fs i = Some f -> position (f_name f) fs = Some i.
Proof.
  induction fs as [|f0 fs IH]; intros i f N E; [destruct i; discriminate|]. cbn [map] in N. inversion N as [|x l NI N']; subst.
  destruct i as [|i].
  - cbn in E. injection E as ->. cbn [position]. rewrite String.eqb_refl. reflexivity.
  - cbn in E. cbn [position]. destruct (String.eqb (f_name f0) (f_name f)) eqn:X.
    + exfalso. apply String.eqb_eq in X. apply NI. rewrite X. apply in_map. eapply nth_error_In. exact E.
    + rewrite (IH i f N' E). reflexivity.
Qed.

Lemma exp_eqb_eq a b : exp_eqb a b = true -> a = b.
Proof.
  destruct a, b; cbn [exp_eqb]; intros H; try discriminate H; try reflexivity.
  - apply ty_eqb_eq in H. congruence.
  - apply String.eqb_eq in H. congruence.
Qed.

Lemma set_updated i w vs : i < length vs -> updated i w vs (set_nth i w vs).
Proof.
  intros L. split; [apply length_set|]. split; [apply nth_set_same; exact L|]. intros j N. apply nth_set_other. exact N.
Qed.

Section One.
  Variable T : list (string * ent).
  Variable M : list (string * list (string * meth)).
  Hypothesis HP : In (T, M) packs.
  Variables (n : string) (fs : list field) (parts : list part) (d : dprog).
  Hypothesis G : get n T = Some (EStruct fs parts d).
  Variables (i : nat) (f : field).
  Hypothesis Ef : nth_error fs i = Some f.

  Lemma here : position (f_name f) fs = Some i.
  Proof.
    pose proof (builds _ _ _ _ _ _ HP G) as C. unfold ent_builds in C. cbn [snd fst] in C. apply andb_prop in C. destruct C as [C _].
    apply position_nodup; [apply nodups_ok; exact C|exact Ef].
  Qed.
  Lemma field_checks : (is_skip (f_ty f) || setter_ok M n f) && item_ok M n f && ens_ok T M n f = true.
  Proof.
    pose proof (builds _ _ _ _ _ _ HP G) as C. unfold ent_builds in C. cbn [snd fst] in C. apply andb_prop in C. destruct C as [_ C].
    rewrite forallb_forall in C. apply C. eapply nth_error_In. exact Ef.
  Qed.

  Lemma setter : f_ty f <> TSkip -> exists b a, method M n ("With" ^^ f_name f) = Some b /\ m_val b = Some a /\
    forall vs x key, exists w, holds (f_ty f) a x w /\ call T fs key x b vs = Some (set_nth i w vs, None).
  Proof.
    intros NS. pose proof field_checks as C. apply andb_prop in C. destruct C as [C _]. apply andb_prop in C. destruct C as [C _].
    apply orb_prop in C. destruct C as [C|C]; [exfalso; destruct (f_ty f); try discriminate C; congruence|].
    unfold setter_ok in C. destruct (method M n ("With" ^^ f_name f)) as [[[a|] [|[g e| |] [|]] [|]]|] eqn:E; try discriminate C.
    apply andb_prop in C. destruct C as [Cg C]. apply String.eqb_eq in Cg. subst g.
    exists (mkMeth (Some a) [SAssign (f_name f) e] RSelf), a. split; [reflexivity|]. split; [reflexivity|].
    intros vs x key. unfold call, assign. cbn [m_body exec_all exec m_ret]. unfold assign. rewrite here.
    apply orb_prop in C. destruct C as [C|C]; apply andb_prop in C; destruct C as [Ce Ct]; apply exp_eqb_eq in Ce; apply ty_eqb_eq in Ct; subst e;
      cbn [eval]; eexists; (split; [|reflexivity]); [left|right]; split; auto.
  Qed.

  Lemma item_setter t : f_ty f = TMap t -> exists b, method M n ("With" ^^ f_name f ^^ "Item") = Some b /\ m_val b = Some t /\
    forall vs x key m, i < length vs -> nth_error vs i = Some VNil /\ m = [] \/ nth_error vs i = Some (VMap m) ->
      call T fs key x b vs = Some (set_nth i (VMap (put key x m)) vs, None).
  Proof.
    intros Et. pose proof field_checks as C. apply andb_prop in C. destruct C as [C _]. apply andb_prop in C. destruct C as [_ C].
    unfold item_ok in C. rewrite Et in C.
    destruct (method M n ("With" ^^ f_name f ^^ "Item")) as [[[a|] [|[|g g' e|] [|[| |g''] [|]]] [|]]|] eqn:E; try discriminate C.
    rewrite !andb_true_iff in C. destruct C as [[[[C1 C2] C3] C4] C5]. apply String.eqb_eq in C1, C2, C3. apply ty_eqb_eq in C4. apply exp_eqb_eq in C5.
    subst g g' g'' a e. eexists. split; [reflexivity|]. split; [reflexivity|]. intros vs x key m L V.
    unfold call. cbn [m_body exec_all m_ret]. unfold exec, load, assign. rewrite here. destruct V as [[V ->]|V]; rewrite V.
    - cbn [eval]. rewrite nth_set_same by exact L. f_equal. f_equal. clear. revert vs. induction i as [|i' IH]; intros [|v vs]; cbn; try reflexivity.
      rewrite IH. reflexivity.
    - rewrite V. reflexivity.
  Qed.

  Lemma ens_getter s fs' parts' d' : f_ty f = TPtr (TNamed s) -> get s T = Some (EStruct fs' parts' d') ->
    exists b, method M n (f_name f ^^ "Ens") = Some b /\ m_val b = None /\ forall vs x key,
      (forall w, nth_error vs i = Some (VPtr w) -> call T fs key x b vs = Some (vs, Some (VPtr w))) /\
      (nth_error vs i = Some VNil ->
         call T fs key x b vs = Some (set_nth i (VPtr (zero T LVL (TNamed s))) vs, Some (VPtr (zero T LVL (TNamed s))))).
  Proof.
    intros Et Gs. pose proof field_checks as C. apply andb_prop in C. destruct C as [_ C]. unfold ens_ok in C. rewrite Et, Gs in C.
    destruct (method M n (f_name f ^^ "Ens")) as [[[a|] [|[|g g' e|] [|]] [|g'']]|] eqn:E; try discriminate C.
    rewrite !andb_true_iff in C. destruct C as [[[C1 C2] C3] C4]. apply String.eqb_eq in C1, C2, C3. apply exp_eqb_eq in C4. subst g g' g'' e.
    eexists. split; [reflexivity|]. split; [reflexivity|]. intros vs x key. unfold call. cbn [m_body exec_all m_ret].
    unfold exec, load, assign. rewrite here. split.
    - intros w V. rewrite V. rewrite V. reflexivity.
    - intros V. rewrite V. cbn [eval]. rewrite nth_set_same; [reflexivity|]. apply nth_error_Some. rewrite V. discriminate.
  Qed.
End One.

(* ---------- what is written ---------- *)

Definition keys_of (fs : list field) : list string := flat_map (fun f => match f_key f with Some k => [k] | None => [] end) fs.
Definition pairs (T : list (string * ent)) (vs : list val) : list (val * encoder) := map (fun v => (v, enc T v)) vs.

Lemma under_app k a b : under_key k (a ++ b) = under_key k a ++ under_key k b.
Proof. unfold under_key. rewrite filter_app, map_app. reflexivity. Qed.
Lemma under_none k ms : ~ In k (map fst ms) -> under_key k ms = [].
Proof.
  induction ms as [|[k' j] ms IH]; intros N; [reflexivity|]. unfold under_key. cbn [filter fst]. destruct (String.eqb k' k) eqn:E.
  - exfalso. apply String.eqb_eq in E. apply N. left. exact E.
  - apply IH. intros I. apply N. right. exact I.
Qed.

Section Fields.
  Variable T : list (string * ent).

  Lemma fields_keys : forall fs vs m, enc_fields fs (pairs T vs) = Some m -> forall k, In k (map fst m) -> In k (keys_of fs).
  Proof.
    induction fs as [|f fs IH]; intros [|v vs] m E k I; cbn [pairs map] in E; try discriminate E.
    - injection E as <-. destruct I.
    - unfold keys_of. cbn [flat_map]. apply in_or_app. cbn [enc_fields] in E. destruct (f_key f) as [k0|].
      + destruct (f_omit f && is_empty v).
        * right. eapply IH; eassumption.
        * destruct (enc T v (f_ty f)) as [j|]; [|discriminate E]. destruct (enc_fields fs (map _ vs)) as [m0|] eqn:E0; [|discriminate E].
          injection E as <-. destruct I as [<-|I]; [left; left; reflexivity|right; eapply IH; eassumption].
      + right. eapply IH; eassumption.
  Qed.

  Lemma fields_at : forall fs vs i f k w m, NoDup (keys_of fs) -> nth_error fs i = Some f -> f_key f = Some k ->
    nth_error vs i = Some w -> enc_fields fs (pairs T vs) = Some m ->
    f_omit f && is_empty w = true /\ under_key k m = [] \/
    f_omit f && is_empty w = false /\ exists j, enc T w (f_ty f) = Some j /\ under_key k m = [j].
  Proof.
    induction fs as [|f0 fs IH]; intros [|v vs] i f k w m N Ef Ek Ev E; try (destruct i; discriminate).
    cbn [pairs map enc_fields] in E. unfold keys_of in N. cbn [flat_map] in N. destruct i as [|i].
    - cbn in Ef, Ev. injection Ef as ->. injection Ev as ->. rewrite Ek in E, N. cbn [app] in N. inversion N as [|x l NI N']; subst.
      destruct (f_omit f && is_empty w).
      + left. split; [reflexivity|]. apply under_none. intros I. apply NI. exact (fields_keys _ _ _ E _ I).
      + right. split; [reflexivity|]. destruct (enc T w (f_ty f)) as [j|]; [|discriminate E].
        destruct (enc_fields fs (map _ vs)) as [m0|] eqn:E0; [|discriminate E]. injection E as <-. exists j. split; [reflexivity|].
        unfold under_key. cbn [filter fst]. rewrite String.eqb_refl. cbn [map snd]. f_equal. apply under_none. intros I. apply NI. exact (fields_keys _ _ _ E0 _ I).
    - cbn in Ef, Ev.
      assert (Ik : In k (keys_of fs)).
      { unfold keys_of. apply in_flat_map. exists f. split; [eapply nth_error_In; exact Ef|]. rewrite Ek. left. reflexivity. }
      destruct (f_key f0) as [k0|].
      + cbn [app] in N. inversion N as [|x l NI N']; subst. destruct (f_omit f0 && is_empty v); [eapply IH; eassumption|].
        destruct (enc T v (f_ty f0)) as [j0|]; [|discriminate E]. destruct (enc_fields fs (map _ vs)) as [m0|] eqn:E0; [|discriminate E]. injection E as <-.
        assert (K : String.eqb k0 k = false) by (apply String.eqb_neq; intros ->; contradiction).
        unfold under_key. cbn [filter fst]. rewrite K. exact (IH vs i f k w m0 N' Ef Ek Ev E0).
      + eapply IH; eassumption.
  Qed.

  (* Changing one field. *)
  Lemma fields_set : forall fs vs i f k w j m, NoDup (keys_of fs) -> nth_error fs i = Some f -> f_key f = Some k ->
    enc T w (f_ty f) = Some j -> enc_fields fs (pairs T vs) = Some m ->
    exists m', enc_fields fs (pairs T (set_nth i w vs)) = Some m' /\ forall k', k' <> k -> under_key k' m' = under_key k' m.
  Proof.
    induction fs as [|f0 fs IH]; intros [|v vs] i f k w j m N Ef Ek Ej E; try (destruct i; discriminate).
    cbn [pairs map enc_fields] in E. unfold keys_of in N. cbn [flat_map] in N. destruct i as [|i]; cbn [set_nth pairs map enc_fields].
    - cbn in Ef. injection Ef as ->. rewrite Ek in E |- *. rewrite Ej.
      assert (C : forall ms x k', k' <> k -> under_key k' ((k, x) :: ms) = under_key k' ms).
      { intros ms x k' D. unfold under_key. cbn [filter fst]. destruct (String.eqb k k') eqn:X; [apply String.eqb_eq in X; congruence|reflexivity]. }
      assert (X : exists m0, enc_fields fs (map (fun v => (v, enc T v)) vs) = Some m0 /\ forall k', k' <> k -> under_key k' m = under_key k' m0).
      { destruct (f_omit f && is_empty v); [exists m; split; [exact E|reflexivity]|]. destruct (enc T v (f_ty f)); [|discriminate E].
        destruct (enc_fields fs (map _ vs)) as [m0|]; [|discriminate E]. injection E as <-. exists m0. split; [reflexivity|]. intros k' D. apply C. exact D. }
      destruct X as (m0 & E0 & U). rewrite E0. destruct (f_omit f && is_empty w); eexists; (split; [reflexivity|]); intros k' D; rewrite U by exact D;
        [reflexivity|apply C; exact D].
    - cbn in Ef. destruct (f_key f0) as [k0|].
      + cbn [app] in N. inversion N as [|x l NI N']; subst. destruct (f_omit f0 && is_empty v); [eapply IH; eassumption|].
        destruct (enc T v (f_ty f0)) as [j0|]; [|discriminate E]. destruct (enc_fields fs (map _ vs)) as [m0|] eqn:E0; [|discriminate E]. injection E as <-.
        destruct (IH vs i f k w j m0 N' Ef Ek Ej E0) as (m' & E' & U). unfold pairs in E'. rewrite E'. eexists. split; [reflexivity|].
        intros k' D. unfold under_key. cbn [filter fst]. destruct (String.eqb k0 k'); cbn [map]; [f_equal|]; apply U; exact D.
      + eapply IH; eassumption.
  Qed.

  Lemma fields_unkeyed : forall fs vs i f w, nth_error fs i = Some f -> f_key f = None ->
    enc_fields fs (pairs T (set_nth i w vs)) = enc_fields fs (pairs T vs).
  Proof.
    induction fs as [|f0 fs IH]; intros [|v vs] i f w Ef Ek; try (destruct i; try discriminate; reflexivity).
    destruct i as [|i]; cbn [set_nth pairs map enc_fields].
    - cbn in Ef. injection Ef as ->. rewrite Ek. reflexivity.
    - cbn in Ef. specialize (IH vs i f w Ef Ek). unfold pairs in IH. rewrite IH. reflexivity.
  Qed.
End Fields.

Lemma map_entries T t : forall (m : list (string * val)) (ms : list (string * json)),
  seq_opt (map (fun kv => match enc T (snd kv) t with Some j => Some (fst kv, j) | None => None end) m) = Some ms -> map fst ms = map fst m.
Proof.
  induction m as [|[k v] m IH]; intros ms E; cbn [map seq_opt fst snd] in E; [injection E as <-; reflexivity|].
  destruct (enc T v t) as [j|]; [|discriminate E]. destruct (seq_opt _) as [ms0|]; [|discriminate E]. injection E as <-. cbn [map fst].
  rewrite (IH ms0 eq_refl). reflexivity.
Qed.

Lemma map_put T t key x j : enc T x t = Some j -> forall (m : list (string * val)) (ms : list (string * json)), NoDup (map fst m) ->
  seq_opt (map (fun kv => match enc T (snd kv) t with Some j => Some (fst kv, j) | None => None end) m) = Some ms ->
  exists ms', seq_opt (map (fun kv => match enc T (snd kv) t with Some j => Some (fst kv, j) | None => None end) (put key x m)) = Some ms' /\
    under_key key ms' = [j] /\ forall k', k' <> key -> under_key k' ms' = under_key k' ms.
Proof.
  intros Ej. induction m as [|[k v] m IH]; intros ms N E.
  - cbn [put map seq_opt fst snd]. rewrite Ej. eexists. split; [reflexivity|]. cbn in E. injection E as <-. unfold under_key. cbn [filter fst].
    rewrite String.eqb_refl. split; [reflexivity|]. intros k' D. destruct (String.eqb key k') eqn:X; [apply String.eqb_eq in X; congruence|reflexivity].
  - cbn [map seq_opt fst snd] in E, N. inversion N as [|y l NI N']; subst.
    destruct (enc T v t) as [jv|] eqn:Ev; [|discriminate E]. destruct (seq_opt (map _ m)) as [ms0|] eqn:E0; [|discriminate E]. injection E as <-.
    cbn [put]. destruct (String.eqb key k) eqn:X.
    + apply String.eqb_eq in X. subst k. cbn [map seq_opt fst snd]. rewrite Ej, E0. eexists. split; [reflexivity|]. split.
      * unfold under_key. cbn [filter fst]. rewrite String.eqb_refl. cbn [map snd]. f_equal. apply under_none. rewrite (map_entries T t m ms0 E0). exact NI.
      * intros k' D. unfold under_key. cbn [filter fst]. destruct (String.eqb key k') eqn:X; [apply String.eqb_eq in X; congruence|reflexivity].
    + destruct (IH ms0 N' eq_refl) as (ms' & E' & U & O). cbn [map seq_opt fst snd]. rewrite Ev, E'. eexists. split; [reflexivity|]. split.
      * unfold under_key. cbn [filter fst]. rewrite String.eqb_sym, X. exact U.
      * intros k' D. unfold under_key. cbn [filter fst]. destruct (String.eqb k k'); cbn [map]; [f_equal|]; apply O; exact D.
Qed.

Definition part_struct (p : part) : bool := match p with PStruct => true | _ => false end.
Definition part_field (i : nat) (p : part) : bool := match p with PField k => Nat.eqb k i | _ => false end.
Definition once {A} (q : A -> bool) (l : list A) : bool := Nat.eqb (length (filter q l)) 1.

(* A struct with fields of its own: written once, the other parts are constants
   and fields without a key. *)
Definition parts_ok (fs : list field) (parts : list part) : bool :=
  nodups (keys_of fs) && (once part_struct parts || match keys_of fs with [] => true | _ => false end) &&
  forallb (fun p => match p with
                    | PConst m => forallb (fun kj => negb (in_list (fst kj) (keys_of fs))) m
                    | PStruct => true
                    | PField i => match nth_error fs i with Some f => match f_key f with None => true | _ => false end | None => false end
                    end) parts.

Lemma sum_once {A B} (q : A -> bool) (r : list B) : forall l, once q l = true -> concat (map (fun p => if q p then r else []) l) = r.
Proof.
  unfold once. induction l as [|p l IH]; intros H; [discriminate H|]. cbn [filter] in H. cbn [map concat]. destruct (q p).
  - cbn [length] in H. apply Nat.eqb_eq in H. injection H as H. apply length_zero_iff_nil in H.
    replace (concat (map (fun p => if q p then r else []) l)) with (@nil B); [apply app_nil_r|]. clear IH. induction l as [|p' l IH]; [reflexivity|].
    cbn [filter] in H. cbn [map concat]. destruct (q p'); [discriminate H|]. exact (IH H).
  - apply IH. exact H.
Qed.

Lemma contributions k (g : part -> option json) (c : part -> list json) : forall parts js, Forall2 (fun p j => g p = Some j) parts js ->
  (forall p j, In p parts -> g p = Some j -> under_key k (objs j) = c p) -> under_key k (concat (map objs js)) = concat (map c parts).
Proof.
  intros parts js F. induction F as [|p j parts js E F IH]; intros H; [reflexivity|]. cbn [map concat]. rewrite under_app.
  rewrite (H p j (or_introl eq_refl) E), IH; [reflexivity|]. intros p' j' I. apply H. right. exact I.
Qed.

Section Struct.
  Variable T : list (string * ent).
  Variables (n : string) (fs : list field) (parts : list part) (d : dprog).
  Hypothesis G : get n T = Some (EStruct fs parts d).
  Hypothesis P : parts_ok fs parts = true.

  Lemma P_nodup : NoDup (keys_of fs).
  Proof. unfold parts_ok in P. apply andb_prop in P. destruct P as [A _]. apply andb_prop in A. apply nodups_ok. apply A. Qed.
  Lemma P_once k : In k (keys_of fs) -> once part_struct parts = true.
  Proof.
    intros I. unfold parts_ok in P. apply andb_prop in P. destruct P as [A _]. apply andb_prop in A. destruct A as [_ A].
    apply orb_prop in A. destruct A as [A|A]; [exact A|]. destruct (keys_of fs); [destruct I|discriminate A].
  Qed.
  Lemma P_const m kj : In (PConst m) parts -> In kj m -> ~ In (fst kj) (keys_of fs).
  Proof.
    intros I J. unfold parts_ok in P. apply andb_prop in P. destruct P as [_ A]. rewrite forallb_forall in A. specialize (A _ I). cbn in A.
    rewrite forallb_forall in A. specialize (A _ J). intros X. apply in_list_In in X. rewrite X in A. discriminate A.
  Qed.
  Lemma P_field i : In (PField i) parts -> exists f, nth_error fs i = Some f /\ f_key f = None.
  Proof.
    intros I. unfold parts_ok in P. apply andb_prop in P. destruct P as [_ A]. rewrite forallb_forall in A. specialize (A _ I). cbn in A.
    destruct (nth_error fs i) as [f|]; [|discriminate A]. exists f. split; [reflexivity|]. destruct (f_key f); [discriminate A|reflexivity].
  Qed.

  Lemma enc_struct vs : enc T (VStruct vs) (TNamed n) =
    match seq_opt (map (enc_part fs (pairs T vs)) parts) with Some js => junion js | None => None end.
  Proof. cbn [enc]. rewrite G. reflexivity. Qed.

  (* Fields without a key write null or an object. *)
  Definition plain_fields (vs : list val) : Prop :=
    forall i f v r, nth_error fs i = Some f -> f_key f = None -> nth_error vs i = Some v -> enc T v (f_ty f) = Some r -> r = JNull \/ exists es, r = JObj es.

  Lemma unused_at k vs i f v r : unused T k fs vs -> nth_error fs i = Some f -> f_key f = None -> nth_error vs i = Some v -> enc T v (f_ty f) = Some r ->
    r = JNull \/ exists es, r = JObj es /\ under_key k es = [].
  Proof.
    clear G P. revert vs i. induction fs as [|f0 l IH]; intros [|v0 vs] i U Ef Ek Ev Er; try (destruct i; discriminate).
    destruct U as [U0 U]. destruct i as [|i]; cbn in Ef, Ev.
    - injection Ef as ->. injection Ev as ->. exact (U0 Ek ltac:(discriminate) r Er).
    - exact (IH vs i U Ef Ek Ev Er).
  Qed.
  Lemma unused_plain k vs : unused T k fs vs -> plain_fields vs.
  Proof.
    intros U i f v r Ef Ek Ev Er. destruct (unused_at k vs i f v r U Ef Ek Ev Er) as [H|(es & H & _)]; [left; exact H|right; exists es; exact H].
  Qed.

  Lemma parts_objs vs js : plain_fields vs -> Forall2 (fun p j => enc_part fs (pairs T vs) p = Some j) parts js ->
    forall j, In j js -> j = JNull \/ exists m, j = JObj m.
  Proof.
    intros PF F j I. assert (H : exists p, In p parts /\ enc_part fs (pairs T vs) p = Some j).
    { clear - F I. induction F as [|p j0 l js E F IH]; [destruct I|]. destruct I as [<-|I]; [exists p; split; [left; reflexivity|exact E]|].
      destruct (IH I) as (p' & A & B). exists p'. split; [right; exact A|exact B]. }
    destruct H as (p & Ip & E). destruct p as [m| |i]; cbn [enc_part] in E.
    - injection E as <-. right. eauto.
    - destruct (enc_fields fs (pairs T vs)); [|discriminate E]. injection E as <-. right. eauto.
    - destruct (P_field i Ip) as (f & Ef & Ek). rewrite Ef in E. unfold pairs in E. rewrite nth_error_map in E.
      destruct (nth_error vs i) as [v|] eqn:Ev; [|discriminate E]. cbn [option_map] in E. exact (PF i f v j Ef Ek Ev E).
  Qed.

  Lemma enc_plain vs : plain_fields vs -> forall r, enc T (VStruct vs) (TNamed n) = Some r <->
    exists js, Forall2 (fun p j => enc_part fs (pairs T vs) p = Some j) parts js /\ r = JObj (concat (map objs js)).
  Proof.
    intros PF r. rewrite enc_struct. split.
    - destruct (seq_opt _) as [js|] eqn:E; [|discriminate]. apply seq_opt_Forall2 in E. intros H. exists js. split; [exact E|].
      rewrite junion_objs in H by (eapply parts_objs; eassumption). injection H as <-. reflexivity.
    - intros (js & F & ->). rewrite (Forall2_seq_opt _ _ _ F). apply junion_objs. eapply parts_objs; eassumption.
  Qed.

  (* What the parts other than the struct give for the key of a field. *)
  Lemma others_silent k vs p j : In k (keys_of fs) -> unused T k fs vs -> In p parts -> enc_part fs (pairs T vs) p = Some j ->
    part_struct p = false -> under_key k (objs j) = [].
  Proof.
    intros Ik U Ip E S. destruct p as [m| |i]; cbn [enc_part] in E; [|discriminate S|].
    - injection E as <-. cbn [objs]. apply under_none. intros X. apply in_map_iff in X. destruct X as (kj & <- & J). exact (P_const m kj Ip J Ik).
    - destruct (P_field i Ip) as (f & Ef & Ek). rewrite Ef in E. unfold pairs in E. rewrite nth_error_map in E.
      destruct (nth_error vs i) as [v|] eqn:Ev; [|discriminate E]. cbn [option_map] in E.
      destruct (unused_at k vs i f v j U Ef Ek Ev E) as [->|(es & -> & K)]; [reflexivity|exact K].
  Qed.

  Lemma in_keys i f k : nth_error fs i = Some f -> f_key f = Some k -> In k (keys_of fs).
  Proof.
    intros Ef Ek. unfold keys_of. apply in_flat_map. exists f. split; [eapply nth_error_In; exact Ef|]. rewrite Ek. left. reflexivity.
  Qed.

  (* The member of a field. *)
  Lemma member i f k w vs r : nth_error fs i = Some f -> f_key f = Some k -> nth_error vs i = Some w -> unused T k fs vs ->
    enc T (VStruct vs) (TNamed n) = Some r ->
    exists ms, r = JObj ms /\
      (f_omit f && is_empty w = true /\ under_key k ms = [] \/
       f_omit f && is_empty w = false /\ exists j, enc T w (f_ty f) = Some j /\ under_key k ms = [j]).
  Proof.
    intros Ef Ek Ev U E. apply (enc_plain vs (unused_plain k vs U)) in E. destruct E as (js & F & ->). eexists. split; [reflexivity|].
    assert (X : exists m, enc_fields fs (pairs T vs) = Some m).
    { assert (I : In PStruct parts).
      { pose proof (P_once k (in_keys i f k Ef Ek)) as O. unfold once in O. destruct (filter part_struct parts) as [|p l] eqn:E; [discriminate O|].
        assert (I : In p (filter part_struct parts)) by (rewrite E; left; reflexivity). apply filter_In in I. destruct I as [I S]. destruct p; try discriminate S. exact I. }
      clear - F I. induction F as [|p j l js E F IH]; [destruct I|]. destruct I as [->|I]; [|exact (IH I)]. cbn [enc_part] in E.
      destruct (enc_fields fs (pairs T vs)) as [m|]; [exists m; reflexivity|discriminate E]. }
    destruct X as (m & Em). pose proof (fields_at T fs vs i f k w m P_nodup Ef Ek Ev Em) as R.
    rewrite (contributions k (enc_part fs (pairs T vs)) (fun p => if part_struct p then under_key k m else []) parts js F).
    - rewrite sum_once by exact (P_once k (in_keys i f k Ef Ek)). exact R.
    - intros p j Ip Ep. destruct (part_struct p) eqn:S.
      + destruct p; try discriminate S. cbn [enc_part] in Ep. rewrite Em in Ep. injection Ep as <-. reflexivity.
      + eapply others_silent; try eassumption. eapply in_keys; eassumption.
  Qed.

  (* Setting a field changes nothing else. *)
  Lemma set_member i f k w j vs ms : nth_error fs i = Some f -> f_key f = Some k -> enc T w (f_ty f) = Some j -> plain_fields vs ->
    plain_fields (set_nth i w vs) ->
    enc T (VStruct vs) (TNamed n) = Some (JObj ms) ->
    exists ms', enc T (VStruct (set_nth i w vs)) (TNamed n) = Some (JObj ms') /\ forall k', k' <> k -> under_key k' ms' = under_key k' ms.
  Proof.
    intros Ef Ek Ej U U' E. apply (enc_plain vs U) in E. destruct E as (js & F & Er). injection Er as ->.
    assert (H : exists js', Forall2 (fun p j => enc_part fs (pairs T (set_nth i w vs)) p = Some j) parts js' /\
      forall k', k' <> k -> under_key k' (concat (map objs js')) = under_key k' (concat (map objs js))).
    { assert (PF : forall i', In (PField i') parts -> i' <> i).
      { intros i' I ->. destruct (P_field i I) as (f' & A & B). congruence. }
      clear - P F Ef Ek Ej PF. pose proof P_nodup as N. clear P. induction F as [|p j0 l js E F IH]; [exists []; split; [apply Forall2_nil|reflexivity]|].
      destruct IH as (js' & F' & O); [intros i' I; apply PF; right; exact I|].
      assert (H : exists j1, enc_part fs (pairs T (set_nth i w vs)) p = Some j1 /\ forall k', k' <> k -> under_key k' (objs j1) = under_key k' (objs j0)).
      { destruct p as [m| |i']; cbn [enc_part] in *.
        - exists j0. split; [exact E|reflexivity].
        - destruct (enc_fields fs (pairs T vs)) as [m|] eqn:Em; [|discriminate E]. injection E as <-.
          destruct (fields_set T fs vs i f k w j m N Ef Ek Ej Em) as (m' & Em' & Om). rewrite Em'. eexists. split; [reflexivity|]. exact Om.
        - exists j0. split; [|reflexivity]. unfold pairs in *. rewrite nth_error_map in *. rewrite nth_set_other; [exact E|].
          apply PF. left. reflexivity. }
      destruct H as (j1 & E1 & O1). exists (j1 :: js'). split; [apply Forall2_cons; assumption|]. intros k' D. cbn [map concat].
      rewrite !under_app, O1, O by exact D. reflexivity. }
    destruct H as (js' & F' & O). exists (concat (map objs js')). split; [|exact O]. apply (enc_plain _ U'). exists js'. split; [exact F'|reflexivity].
  Qed.

  (* Setting an entry of a map. *)
  Lemma set_item i f t key x j vs ms m : nth_error fs i = Some f -> f_key f = None -> f_ty f = TMap t -> once (part_field i) parts = true ->
    ~ In key (keys_of fs) -> (forall c kj, In (PConst c) parts -> In kj c -> fst kj <> key) ->
    nth_error vs i = Some VNil /\ m = [] \/ nth_error vs i = Some (VMap m) -> NoDup (map fst m) ->
    unused T key fs (set_nth i VNil vs) -> enc T x t = Some j -> enc T (VStruct vs) (TNamed n) = Some (JObj ms) ->
    exists ms', enc T (VStruct (set_nth i (VMap (put key x m)) vs)) (TNamed n) = Some (JObj ms') /\
      under_key key ms' = [j] /\ forall k', k' <> key -> under_key k' ms' = under_key k' ms.
  Proof.
    intros Ef Ek Et On NK NC V ND U Ej E.
    assert (L : i < length vs) by (apply nth_error_Some; destruct V as [[V _]|V]; rewrite V; discriminate).
    assert (PV : plain_fields vs).
    { intros i' f' v' r A B C R. destruct (Nat.eq_dec i' i) as [->|D].
      - rewrite Ef in A. injection A as <-. rewrite Et in R. destruct V as [[V _]|V]; rewrite V in C; injection C as <-; cbn [enc] in R;
          [injection R as <-; left; reflexivity|]. destruct (seq_opt _); [|discriminate R]. injection R as <-. right. eauto.
      - eapply (unused_plain key _ U i' f' v' r A B); [|exact R]. rewrite nth_set_other by exact D. exact C. }
    assert (PW : plain_fields (set_nth i (VMap (put key x m)) vs)).
    { intros i' f' v' r A B C R. destruct (Nat.eq_dec i' i) as [->|D].
      - rewrite Ef in A. injection A as <-. rewrite Et in R. rewrite nth_set_same in C by exact L. injection C as <-. cbn [enc] in R.
        destruct (seq_opt _); [|discriminate R]. injection R as <-. right. eauto.
      - rewrite nth_set_other in C by exact D. exact (PV i' f' v' r A B C R). }
    apply (enc_plain vs PV) in E. destruct E as (js & F & Er). injection Er as ->.
    assert (Em : forall jv, enc_part fs (pairs T vs) (PField i) = Some jv ->
      exists j1, enc_part fs (pairs T (set_nth i (VMap (put key x m)) vs)) (PField i) = Some j1 /\
        under_key key (objs j1) = [j] /\ forall k', k' <> key -> under_key k' (objs j1) = under_key k' (objs jv)).
    { intros jv A. cbn [enc_part] in *. rewrite Ef in *. unfold pairs in *. rewrite nth_error_map in *. rewrite nth_set_same by exact L.
      rewrite Et in *. destruct V as [[V ->]|V]; rewrite V in A; cbn [option_map enc] in *.
      - injection A as <-. cbn [put map seq_opt fst snd]. rewrite Ej. eexists. split; [reflexivity|]. cbn [objs]. unfold under_key. cbn [filter fst].
        rewrite String.eqb_refl. split; [reflexivity|]. intros k' D. destruct (String.eqb key k') eqn:X; [apply String.eqb_eq in X; congruence|reflexivity].
      - destruct (seq_opt (map _ m)) as [m1|] eqn:E1; [|discriminate A]. injection A as <-.
        destruct (map_put T t key x j Ej m m1 ND E1) as (m2 & E2 & A2 & B2). rewrite E2. eexists. split; [reflexivity|]. cbn [objs]. split; assumption. }
    assert (H : exists js', Forall2 (fun p j => enc_part fs (pairs T (set_nth i (VMap (put key x m)) vs)) p = Some j) parts js' /\
      forall k', k' <> key -> under_key k' (concat (map objs js')) = under_key k' (concat (map objs js))).
    { clear - F Em Ef Ek. induction F as [|p j0 l js E F IH]; [exists []; split; [apply Forall2_nil|reflexivity]|].
      destruct IH as (js' & F' & O).
      assert (H : exists j1, enc_part fs (pairs T (set_nth i (VMap (put key x m)) vs)) p = Some j1 /\ forall k', k' <> key -> under_key k' (objs j1) = under_key k' (objs j0)).
      { destruct p as [c| |i'].
        - exists j0. split; [exact E|reflexivity].
        - exists j0. split; [|reflexivity]. cbn [enc_part] in *. rewrite (fields_unkeyed T fs vs i f _ Ef Ek). exact E.
        - destruct (Nat.eq_dec i' i) as [->|D].
          + destruct (Em _ E) as (j1 & A & _ & B). exists j1. split; assumption.
          + exists j0. split; [|reflexivity]. cbn [enc_part] in *. unfold pairs in *. rewrite nth_error_map in *. rewrite nth_set_other by exact D. exact E. }
      destruct H as (j1 & E1 & O1). exists (j1 :: js'). split; [apply Forall2_cons; assumption|]. intros k' D. cbn [map concat].
      rewrite !under_app, O1, O by exact D. reflexivity. }
    destruct H as (js' & F' & O). exists (concat (map objs js')). split; [apply (enc_plain _ PW); exists js'; split; [exact F'|reflexivity]|]. split; [|exact O].
    rewrite (contributions key (enc_part fs (pairs T (set_nth i (VMap (put key x m)) vs))) (fun p => if part_field i p then [j] else []) parts js' F').
    - apply sum_once. exact On.
    - intros p j1 Ip Ep. destruct (part_field i p) eqn:S.
      + destruct p as [| |i']; try discriminate S. cbn in S. apply Nat.eqb_eq in S. subst i'.
        assert (X : exists jv, enc_part fs (pairs T vs) (PField i) = Some jv).
        { clear - F Ip. induction F as [|p j0 l js E F IH]; [destruct Ip|]. destruct Ip as [->|Ip]; [exists j0; exact E|exact (IH Ip)]. }
        destruct X as (jv & Ejv). destruct (Em _ Ejv) as (j2 & A & B & _). rewrite A in Ep. injection Ep as <-. exact B.
      + destruct p as [c| |i']; cbn [enc_part] in Ep.
        * injection Ep as <-. apply under_none. intros X. apply in_map_iff in X. destruct X as (kj & X & J). exact (NC c kj Ip J X).
        * destruct (enc_fields fs (pairs T _)) as [m1|] eqn:E1; [|discriminate Ep]. injection Ep as <-. apply under_none. intros X. apply NK.
          exact (fields_keys T _ _ _ E1 _ X).
        * destruct (P_field i' Ip) as (f' & Ef' & Ek'). rewrite Ef' in Ep. unfold pairs in Ep. rewrite nth_error_map in Ep.
          assert (D : i' <> i) by (intros ->; cbn in S; rewrite Nat.eqb_refl in S; discriminate S).
          rewrite nth_set_other in Ep by exact D. destruct (nth_error vs i') as [v|] eqn:Ev; [|discriminate Ep]. cbn [option_map] in Ep.
          destruct (unused_at key (set_nth i VNil vs) i' f' v j1 U Ef' Ek') as [->|(es & -> & K)]; [|exact Ep|reflexivity|exact K].
          rewrite nth_set_other by exact D. exact Ev.
  Qed.
End Struct.

