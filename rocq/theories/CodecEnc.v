(* The encodings of well formed values: which members they have. *)
From Coq Require Import Lia.
From Verif Require Import Str SMap Json CodecModel CodecSpec CodecProofs.

(* ---------- classes of keys ---------- *)

Inductive kclass := KFin (l : list string) | KPat (p : pat) | KRest (ps : list pat).

Definition in_class (c : kclass) (k : string) : Prop :=
  match c with
  | KFin l => In k l
  | KPat p => matches p k = true
  | KRest ps => forall p, In p ps -> matches p k = false
  end.

Definition fkeys (fs : list field) : list string :=
  flat_map (fun f => match f_key f with Some k => [k] | None => [] end) fs.

Lemma fkeys_In fs k : In k (fkeys fs) <-> exists i f, nth_error fs i = Some f /\ f_key f = Some k.
Proof.
  unfold fkeys. rewrite in_flat_map. split.
  - intros (f & I & K). apply In_nth_error in I. destruct I as [i E]. exists i, f. split; [exact E|].
    destruct (f_key f); [|destruct K]. destruct K as [->|[]]. reflexivity.
  - intros (i & f & E & K). exists f. split; [eapply nth_error_In; exact E|]. rewrite K. left. reflexivity.
Qed.

Definition pat_eqb (p q : pat) : bool :=
  match p, q with
  | PatX, PatX | PatMethod, PatMethod | PatStatus, PatStatus | PatSlash, PatSlash | PatName, PatName => true
  | _, _ => false
  end.
Lemma pat_eqb_eq p q : pat_eqb p q = true -> p = q.
Proof. destruct p, q; cbn; congruence. Qed.

Definition methods := ["get"; "put"; "post"; "delete"; "options"; "head"; "patch"; "trace"].

Definition pdis (p q : pat) : bool :=
  negb (pat_eqb p q) && negb (pat_eqb p PatName) && negb (pat_eqb q PatName).

Lemma pdis_ok p q k : pdis p q = true -> matches p k = true -> matches q k = false.
Proof.
  assert (A : matches PatX k = true -> exists r, k = "x-" ^^ r) by (apply prefix_iff).
  assert (B : matches PatSlash k = true -> exists r, k = "/" ^^ r) by (apply prefix_iff).
  assert (C : matches PatMethod k = true -> In k methods).
  { cbn [matches]. apply in_list_In. }
  destruct p, q; cbn [pdis pat_eqb negb andb]; try discriminate; intros _ H.
  all: try (apply A in H; destruct H as [r ->]; cbn; destruct r as [|? []]; reflexivity).
  all: try (apply B in H; destruct H as [r ->]; cbn; destruct r as [|? [|? []]]; reflexivity).
  all: try (apply C in H; cbn in H; repeat (destruct H as [<-|H]; [reflexivity|]); destruct H).
  all: apply not_true_iff_false; intros H2.
  - apply A in H2. destruct H2 as [r ->]. cbn in H. destruct r as [|? []]; discriminate.
  - apply C in H2. cbn in H2. repeat (destruct H2 as [<-|H2]; [discriminate|]). destruct H2.
  - apply B in H2. destruct H2 as [r ->]. cbn in H. destruct r as [|? [|? []]]; discriminate.
Qed.

Definition class_dis (c c' : kclass) : bool :=
  match c, c' with
  | KFin l, KFin l' => forallb (fun k => negb (in_list k l')) l
  | KFin l, KPat p | KPat p, KFin l => forallb (fun k => negb (matches p k)) l
  | KPat p, KPat q => pdis p q
  | KPat p, KRest ps | KRest ps, KPat p => existsb (pat_eqb p) ps
  | KFin l, KRest ps | KRest ps, KFin l => match l with [] => true | _ => false end
  | KRest _, KRest _ => false
  end.

Lemma class_dis_ok c c' k : class_dis c c' = true -> in_class c k -> in_class c' k -> False.
Proof.
  destruct c as [l|p|ps], c' as [l'|p'|ps']; cbn [class_dis in_class]; intros H A B.
  - rewrite forallb_forall in H. specialize (H k A). apply negb_true_iff, in_list_false in H. auto.
  - rewrite forallb_forall in H. specialize (H k A). rewrite B in H. discriminate.
  - destruct l; [destruct A|discriminate].
  - rewrite forallb_forall in H. specialize (H k B). rewrite A in H. discriminate.
  - rewrite (pdis_ok _ _ _ H A) in B. discriminate.
  - apply existsb_exists in H. destruct H as (q & I & E). apply pat_eqb_eq in E. subst q.
    rewrite (B p I) in A. discriminate.
  - destruct l'; [destruct B|discriminate].
  - apply existsb_exists in H. destruct H as (q & I & E). apply pat_eqb_eq in E. subst q.
    rewrite (A p' I) in B. discriminate.
  - discriminate.
Qed.

(* No key of the class is taken for a field. *)
Definition is_none {A} (o : option A) : bool := match o with None => true | Some _ => false end.

Definition pat_free (p : pat) (fs : list field) : bool :=
  match p with
  | PatMethod => forallb (fun k => is_none (find_field fs k)) methods
  | PatName => match fkeys fs with [] => true | _ => false end
  | PatX => forallb (fun k => negb (String.prefix "x-" (fold_key k))) (fkeys fs)
  | PatSlash => forallb (fun k => negb (String.prefix "/" (fold_key k))) (fkeys fs)
  | PatStatus => forallb (fun k => negb (match fold_key k with String c _ => in_range 49 53 c | _ => false end)) (fkeys fs)
  end.

Definition class_free (c : kclass) (fs : list field) : bool :=
  match c with
  | KFin l => forallb (fun k => is_none (find_field fs k)) l
  | KPat p => pat_free p fs
  | KRest _ => match fkeys fs with [] => true | _ => false end
  end.

Lemma find_free fs k : (forall k', In k' (fkeys fs) -> fold_key k <> fold_key k') -> find_field fs k = None.
Proof.
  intros H. destruct (find_field fs k) as [i|] eqn:E; [|reflexivity].
  destruct (find_field_some _ _ _ E) as (f & k' & Ef & Ek & F). exfalso. apply (H k'); [|exact F].
  apply fkeys_In. eauto.
Qed.

Lemma prefix_nil s : String.prefix "" s = true.
Proof. destruct s; reflexivity. Qed.

Lemma fold_x r : String.prefix "x-" (fold_key ("x-" ^^ r)) = true.
Proof.
  destruct r as [|a [|b r]]; try reflexivity.
  change (String.prefix "" (fold_key (String a (String b r))) = true). apply prefix_nil.
Qed.
Lemma fold_slash r : String.prefix "/" (fold_key ("/" ^^ r)) = true.
Proof.
  destruct r as [|a [|b r]]; try reflexivity.
  change (String.prefix "" (fold_key (String a (String b r))) = true). apply prefix_nil.
Qed.

Lemma in_range_digit c : in_range 49 53 c = true -> In c ["1"; "2"; "3"; "4"; "5"]%char.
Proof.
  unfold in_range. rewrite andb_true_iff, !Nat.leb_le. intros [H1 H2].
  assert (E : c = ascii_of_nat (nat_of_ascii c)) by (symmetry; apply ascii_nat_embedding).
  remember (nat_of_ascii c) as n. clear Heqn.
  assert (X : n = 49 \/ n = 50 \/ n = 51 \/ n = 52 \/ n = 53) by lia.
  destruct X as [->|[->|[->|[->| ->]]]]; subst c; cbn; auto 6.
Qed.

Lemma fold_status k : matches PatStatus k = true -> match fold_key k with String c _ => in_range 49 53 c | _ => false end = true.
Proof.
  cbn [matches]. intros H. destruct k as [|a [|b [|c [|d k]]]]; try discriminate.
  apply andb_true_iff in H. destruct H as [H _]. apply in_range_digit in H. cbn in H.
  repeat (destruct H as [<-|H]; [reflexivity|]). destruct H.
Qed.

Lemma class_free_ok c fs k : class_free c fs = true -> in_class c k -> find_field fs k = None.
Proof.
  destruct c as [l|p|ps]; cbn [class_free in_class]; intros H A.
  - rewrite forallb_forall in H. specialize (H k A). destruct (find_field fs k); [discriminate|reflexivity].
  - destruct p; cbn [pat_free] in H.
    + apply find_free. intros k' I E. rewrite forallb_forall in H. specialize (H k' I). rewrite <- E in H.
      cbn [matches] in A. apply prefix_iff in A. destruct A as [r ->]. rewrite fold_x in H. discriminate.
    + rewrite forallb_forall in H. cbn [matches] in A. apply in_list_In in A. specialize (H k A).
      destruct (find_field fs k); [discriminate|reflexivity].
    + apply find_free. intros k' I E. rewrite forallb_forall in H. specialize (H k' I). rewrite <- E in H.
      rewrite (fold_status k A) in H. discriminate.
    + apply find_free. intros k' I E. rewrite forallb_forall in H. specialize (H k' I). rewrite <- E in H.
      cbn [matches] in A. apply prefix_iff in A. destruct A as [r ->]. rewrite fold_slash in H. discriminate.
    + apply find_free. intros k' I. destruct (fkeys fs); [destruct I|discriminate].
  - apply find_free. intros k' I. destruct (fkeys fs); [destruct I|discriminate].
Qed.

(* Every key of the class is known, a constant, or of a pattern. *)
Definition class_covered (d : dprog) (c : kclass) : bool :=
  match c with
  | KFin l => forallb (fun k => gone d k || matched d k) l
  | KPat p => existsb (fun q => pat_eqb p (fst q)) (d_pats d)
  | KRest _ => false
  end.
Lemma class_covered_ok d c k : class_covered d c = true -> in_class c k -> gone d k || matched d k = true.
Proof.
  destruct c as [l|p|ps]; cbn [class_covered in_class]; intros H A.
  - rewrite forallb_forall in H. auto.
  - apply existsb_exists in H. destruct H as (q & I & E). apply pat_eqb_eq in E. subst p.
    apply orb_true_iff. right. unfold matched. apply existsb_exists. exists q. auto.
  - discriminate.
Qed.

(* No key of the class goes to the map of pattern [p]. *)
Definition class_unsel (d : dprog) (p : pat) (c : kclass) : bool :=
  match c with
  | KFin l => forallb (fun k => gone d k || negb (matches p k)) l
  | KPat q => pdis q p
  | KRest ps => existsb (pat_eqb p) ps
  end.
Lemma class_unsel_ok d p c k : class_unsel d p c = true -> in_class c k -> gone d k = false -> matches p k = false.
Proof.
  destruct c as [l|q|ps]; cbn [class_unsel in_class]; intros H A G.
  - rewrite forallb_forall in H. specialize (H k A). rewrite G in H. cbn in H. apply negb_true_iff. exact H.
  - exact (pdis_ok _ _ _ H A).
  - apply existsb_exists in H. destruct H as (q & I & E). apply pat_eqb_eq in E. subst q. exact (A p I).
Qed.

(* ---------- lists of members ---------- *)

Lemma concat_filter {A B} (g : B -> bool) (s : A -> list B) l : filter g (concat (map s l)) = concat (map (fun x => filter g (s x)) l).
Proof. induction l as [|x l IH]; cbn; [reflexivity|]. rewrite filter_app, IH. reflexivity. Qed.

Lemma concat_one {A B} (code : A -> nat) (s : A -> list B) x0 : forall l,
  NoDup (map code l) -> In x0 l -> (forall x, In x l -> code x <> code x0 -> s x = []) ->
  (forall x, In x l -> code x = code x0 -> x = x0) -> concat (map s l) = s x0.
Proof.
  induction l as [|x l IH]; intros N I H U; [destruct I|]. cbn [map concat]. cbn [map] in N. inversion N as [|? ? NI N']; subst.
  destruct (Nat.eq_dec (code x) (code x0)) as [E|E].
  - assert (x = x0) by (apply U; [left; reflexivity|exact E]). subst x.
    replace (concat (map s l)) with (@nil B); [apply app_nil_r|]. symmetry.
    assert (Z : forall y, In y l -> s y = []).
    { intros y Iy. apply H; [right; exact Iy|]. intros Ey. apply NI. rewrite <- Ey. apply in_map. exact Iy. }
    clear - Z. induction l as [|y l IH]; cbn; [reflexivity|]. rewrite Z by (left; reflexivity). apply IH.
    intros z Iz. apply Z. right. exact Iz.
  - destruct I as [->|I]; [congruence|]. rewrite H by (auto; left; reflexivity). cbn. apply IH; auto.
    + intros y Iy. apply H. right. exact Iy.
    + intros y Iy. apply U. right. exact Iy.
Qed.

Lemma concat_none {A B} (s : A -> list B) l : (forall x, In x l -> s x = []) -> concat (map s l) = [].
Proof.
  induction l as [|x l IH]; cbn; intros H; [reflexivity|]. rewrite H by (left; reflexivity). apply IH.
  intros y Iy. apply H. right. exact Iy.
Qed.

Lemma NoDup_app_intro {A} (l1 l2 : list A) : NoDup l1 -> NoDup l2 -> (forall x, In x l1 -> In x l2 -> False) -> NoDup (l1 ++ l2).
Proof.
  induction l1 as [|x l1 IH]; cbn; intros N1 N2 H; [exact N2|]. inversion N1 as [|? ? NI N']; subst. constructor.
  - rewrite in_app_iff. intros [I|I]; [exact (NI I)|]. exact (H x (or_introl eq_refl) I).
  - apply IH; auto. intros y I1 I2. exact (H y (or_intror I1) I2).
Qed.

Lemma NoDup_app_l {A} (l1 l2 : list A) : NoDup (l1 ++ l2) -> NoDup l1.
Proof.
  induction l1 as [|x l1 IH]; cbn; intros N; [constructor|]. inversion N as [|? ? NI N']; subst. constructor; [|auto].
  intros I. apply NI. apply in_app_iff. auto.
Qed.
Lemma NoDup_app_r {A} (l1 l2 : list A) : NoDup (l1 ++ l2) -> NoDup l2.
Proof. induction l1 as [|x l1 IH]; cbn; intros N; [exact N|]. inversion N; subst. auto. Qed.

Lemma forallb_filter_id {A} (g : A -> bool) l : filter g l = l <-> forallb g l = true.
Proof.
  induction l as [|x l IH]; cbn; [tauto|]. destruct (g x) eqn:E; cbn.
  - split; [intros H; injection H as H; apply IH; exact H|intros H; f_equal; apply IH; exact H].
  - split; [|discriminate]. intros H. exfalso. assert (L : length (filter g l) <= length l).
    { clear. induction l as [|y l IH]; cbn; [lia|]. destruct (g y); cbn; lia. }
    rewrite H in L. cbn in L. lia.
Qed.

Lemma concat_nodup {A B} (code : A -> nat) (s : A -> list (string * B)) : forall l,
  NoDup (map code l) -> (forall x, In x l -> NoDup (map fst (s x))) ->
  (forall x y k, In x l -> In y l -> code x <> code y -> In k (map fst (s x)) -> In k (map fst (s y)) -> False) ->
  NoDup (map fst (concat (map s l))).
Proof.
  induction l as [|x l IH]; intros N H D; cbn; [constructor|]. cbn [map] in N. inversion N as [|? ? NI N']; subst.
  rewrite map_app. apply NoDup_app_intro.
  - apply H. left. reflexivity.
  - apply IH; auto.
    + intros y Iy. apply H. right. exact Iy.
    + intros y z k Iy Iz. apply D; right; assumption.
  - intros k I1 I2. apply in_map_iff in I2. destruct I2 as ([k' b] & E & I2). cbn in E. subst k'.
    apply in_concat in I2. destruct I2 as (m & Im & I2). apply in_map_iff in Im. destruct Im as (y & <- & Iy).
    refine (D x y k (or_introl eq_refl) (or_intror Iy) _ I1 _).
    + intros E. apply NI. rewrite E. apply in_map. exact Iy.
    + change k with (fst (k, b)). apply in_map. exact I2.
Qed.

Lemma in_concat_seg {A B} (s : A -> list (string * B)) l k b :
  In (k, b) (concat (map s l)) <-> exists x, In x l /\ In (k, b) (s x).
Proof.
  rewrite in_concat. split.
  - intros (m & Im & I). apply in_map_iff in Im. destruct Im as (x & <- & Ix). eauto.
  - intros (x & Ix & I). exists (s x). split; [apply in_map; exact Ix|exact I].
Qed.

Lemma in_concat_key {A B} (s : A -> list (string * B)) l k :
  In k (map fst (concat (map s l))) <-> exists x, In x l /\ In k (map fst (s x)).
Proof.
  split.
  - intros I. apply in_map_iff in I. destruct I as ([k' b] & E & I). cbn in E. subst k'.
    apply in_concat_seg in I. destruct I as (x & Ix & I). exists x. split; [exact Ix|].
    change k with (fst (k, b)). apply in_map. exact I.
  - intros (x & Ix & I). apply in_map_iff in I. destruct I as ([k' b] & E & I). cbn in E. subst k'.
    change k with (fst (k, b)). apply in_map. apply in_concat_seg. eauto.
Qed.

(* ---------- marshalUnion ---------- *)

Definition objs (j : json) : list (string * json) := match j with JObj m => m | _ => [] end.

Lemma junion_objs_loop : forall js acc, (forall j, In j js -> j = JNull \/ exists m, j = JObj m) ->
  junion_loop js acc = Some (JObj (acc ++ concat (map objs js))).
Proof.
  induction js as [|j js IH]; intros acc H; cbn [junion_loop map concat].
  - rewrite app_nil_r. reflexivity.
  - destruct (H j (or_introl eq_refl)) as [->|[m ->]]; cbn [objs app].
    + apply IH. intros j' I. apply H. right. exact I.
    + rewrite IH by (intros j' I; apply H; right; exact I). rewrite app_assoc. reflexivity.
Qed.
Lemma junion_objs js : (forall j, In j js -> j = JNull \/ exists m, j = JObj m) ->
  junion js = Some (JObj (concat (map objs js))).
Proof. intros H. unfold junion. rewrite junion_objs_loop by exact H. reflexivity. Qed.

Lemma junion_loop_notnull : forall js acc j, junion_loop js acc = Some j -> j <> JNull.
Proof.
  induction js as [|j0 js IH]; intros acc j; cbn [junion_loop].
  - intros H. injection H as <-. discriminate.
  - destruct j0; try (apply IH); destruct acc; try discriminate;
      destruct (forallb _ js); try discriminate; intros H; injection H as <-; discriminate.
Qed.

Lemma junion_nulls js : (forall j, In j js -> j = JNull) -> junion_loop js [] = Some (JObj []).
Proof.
  intros H. rewrite junion_objs_loop by (intros j I; left; apply H; exact I). cbn. f_equal. f_equal.
  apply concat_none. intros j I. rewrite (H j I). reflexivity.
Qed.

(* Exactly one part that is not null. *)
Lemma junion_one : forall l1 j l2, (forall j', In j' (l1 ++ l2) -> j' = JNull) -> j <> JNull -> junion (l1 ++ j :: l2) = Some j.
Proof.
  unfold junion. induction l1 as [|x l1 IH]; intros j l2 H N; cbn [app junion_loop].
  - destruct j; try congruence.
    + replace (forallb _ l2) with true; [reflexivity|]. symmetry. apply forallb_forall. intros x I. rewrite (H x I). reflexivity.
    + replace (forallb _ l2) with true; [reflexivity|]. symmetry. apply forallb_forall. intros x I. rewrite (H x I). reflexivity.
    + replace (forallb _ l2) with true; [reflexivity|]. symmetry. apply forallb_forall. intros x I. rewrite (H x I). reflexivity.
    + replace (forallb _ l2) with true; [reflexivity|]. symmetry. apply forallb_forall. intros x I. rewrite (H x I). reflexivity.
    + rewrite junion_objs_loop by (intros x I; left; apply H; exact I).
      replace (concat (map objs l2)) with (@nil (string * json)); [rewrite app_nil_r; reflexivity|].
      symmetry. apply concat_none. intros x I. rewrite (H x I). reflexivity.
  - rewrite (H x (or_introl eq_refl)). apply IH; [|exact N]. intros y I. apply H. right. exact I.
Qed.

(* ---------- descriptors ---------- *)

Definition code (p : part) : nat := match p with PConst _ => 0 | PStruct => 1 | PField i => S (S i) end.
Definition simple_parts (parts : list part) : bool :=
  forallb (fun p => match p with PField _ => false | _ => true end) parts.
Definition const_members (parts : list part) : list (string * json) :=
  flat_map (fun p => match p with PConst m => m | _ => [] end) parts.
Definition nullb {A} (l : list A) : bool := match l with [] => true | _ => false end.
Fixpoint nodups (l : list string) : bool :=
  match l with [] => true | x :: l => negb (in_list x l) && nodups l end.

Lemma nullb_nil {A} (l : list A) : nullb l = true -> l = [].
Proof. destruct l; [reflexivity|discriminate]. Qed.
Lemma nodups_NoDup l : nodups l = true -> NoDup l.
Proof.
  induction l as [|x l IH]; cbn; intros H; constructor; apply andb_true_iff in H; destruct H as [H1 H2].
  - apply in_list_false. apply negb_true_iff. exact H1.
  - auto.
Qed.

Fixpoint encodable (t : ty) : bool :=
  match t with TSkip => false | TPtr t | TArr t | TMap t => encodable t | _ => true end.

Fixpoint nats_eqb (l r : list nat) : bool :=
  match l, r with
  | [], [] => true
  | x :: l, y :: r => (x =? y)%nat && nats_eqb l r
  | _, _ => false
  end.
Lemma nats_eqb_eq : forall l r, nats_eqb l r = true -> l = r.
Proof.
  induction l as [|x l IH]; intros [|y r]; cbn; try discriminate; [reflexivity|].
  rewrite andb_true_iff, Nat.eqb_eq. intros [-> H]. rewrite (IH _ H). reflexivity.
Qed.

(* The keys that are always there. *)
Definition always (fs : list field) (parts : list part) : list string :=
  map fst (const_members parts) ++ fkeys (filter (fun f => negb (f_omit f)) fs).

(* A type that is nothing but a choice of pointers. *)
Definition pure_union (fs : list field) (parts : list part) (d : dprog) : bool :=
  negb (d_struct d) && nullb (d_embed d) && negb (nullb (d_oneof d)) &&
  nats_eqb (d_oneof d) (seq 0 (length fs)) && nats_eqb (map code parts) (map (fun i => S (S i)) (d_oneof d)) &&
  nullb (d_require d) && nullb (d_xor d) && nullb (d_const d) && nullb (d_notconst d) && nullb (d_absent d) &&
  nullb (d_lower d) && nullb (d_fix d) && nullb (d_pats d) && nullb (d_addl d) && negb (d_closed d) &&
  forallb (fun f => is_none (f_key f) && match f_ty f with TPtr (TNamed _) | TPtr TBool => true | _ => false end) fs.

Section Ent.
  Variable T : list (string * ent).
  Variable rnd : Q -> Q.
  Variable derived : string -> bool.
  Variable extra : string -> list val -> bool.
  Notation wf := (CodecSpec.wf T rnd derived extra).

  Definition encs (vs : list val) : list (val * encoder) := map (fun v => (v, enc T v)) vs.

  Definition alt_ent (t : ty) : option (list field * list part * dprog) :=
    match t with
    | TPtr (TNamed n) =>
        match get n T with Some (EStruct fs parts d) => Some (fs, parts, d) | _ => None end
    | _ => None
    end.

  Definition class_of (n : string) (fs : list field) (d : dprog) (p : part) : option kclass :=
    match p with
    | PConst m => Some (KFin (map fst m))
    | PStruct => Some (KFin (fkeys fs))
    | PField i =>
        match nth_error fs i with
        | None => None
        | Some f =>
            if special_pos d i then
              if derived n then match f_ty f with TPtr _ => Some (KFin []) | _ => None end
              else match alt_ent (f_ty f) with
                   | Some (bfs, bparts, bd) =>
                       if simple_parts bparts then Some (KFin (map fst (const_members bparts) ++ fkeys bfs)) else None
                   | None => None
                   end
            else match f_ty f with
                 | TMap t =>
                     if encodable t then
                       match find (fun pi => (snd pi =? i)%nat) (d_pats d) with
                       | Some (p, _) => Some (KPat p)
                       | None => if existsb (Nat.eqb i) (d_addl d) then Some (KRest (map fst (d_pats d))) else None
                       end
                     else None
                 | _ => None
                 end
        end
    end.

  Definition class_test (n : string) (fs : list field) (d : dprog) (test : kclass -> bool) (p : part) : bool :=
    match class_of n fs d p with Some c => test c | None => false end.

  (* A part that is one of the alternatives. *)
  Definition alt_part (n : string) (d : dprog) (p : part) : bool :=
    negb (derived n) && existsb (fun i => (code p =? S (S i))%nat) (d_oneof d).

  Definition has_part (q : nat) (parts : list part) : bool := existsb (fun p => (code p =? q)%nat) parts.

  (* A type whose encoding joins objects. *)
  Definition joined (n : string) (fs : list field) (parts : list part) (d : dprog) : bool :=
    nodupb (map code parts) && nodups (fkeys fs) && nodups (map fst (const_members parts)) &&
    (nullb (fkeys fs) || has_part 1 parts) &&
    forallb (fun f => is_none (f_key f) || encodable (f_ty f)) fs &&
    forallb (class_test n fs d (fun _ => true)) parts &&
    forallb (fun p => forallb (fun q => (code p =? code q)%nat || (alt_part n d p && alt_part n d q) ||
      class_test n fs d (fun c => class_test n fs d (class_dis c) q) p) parts) parts &&
    forallb (fun p => (code p =? 1)%nat || class_test n fs d (fun c => class_free c fs) p) parts &&
    (* constants and required keys *)
    forallb (fun kc => existsb (fun kc' => String.eqb (fst kc) (fst kc') && json_eqb_scalar (snd kc) (snd kc')) (const_members parts)) (d_const d) &&
    forallb (fun k => in_list k (always fs parts) ||
      negb (derived n) && negb (nullb (d_oneof d)) &&
      forallb (fun i => match nth_error fs i with
                        | Some f => match alt_ent (f_ty f) with Some (bfs, bparts, _) => in_list k (always bfs bparts) | None => false end
                        | None => false
                        end) (d_oneof d)) (d_require d) &&
    (* maps *)
    forallb (fun pi => has_part (S (S (snd pi))) parts &&
      forallb (fun k => negb (matches (fst pi) k)) (map fst (d_const d) ++ d_known d) &&
      forallb (fun q => (code q =? S (S (snd pi)))%nat || class_test n fs d (class_unsel d (fst pi)) q) parts) (d_pats d) &&
    forallb (fun i => has_part (S (S i)) parts && nullb (d_const d) && nullb (d_known d) &&
      forallb (fun q => (code q =? S (S i))%nat || class_test n fs d (class_covered d) q) parts) (d_addl d) &&
    (negb (d_closed d) || negb (nullb (d_addl d)) || forallb (class_test n fs d (class_covered d)) parts) &&
    (* alternatives *)
    (derived n || nullb (d_embed d)) && nodupb (d_oneof d) &&
    (derived n || forallb (fun i => has_part (S (S i)) parts &&
      match nth_error fs i with
      | Some f =>
          match alt_ent (f_ty f) with
          | Some (bfs, bparts, bd) =>
              simple_parts bparts && (nullb (fkeys bfs) || has_part 1 bparts) &&
              nullb (d_embed bd) && nullb (d_oneof bd) && nullb (d_not bd) && nullb (d_pats bd) && nullb (d_addl bd) &&
              negb (d_closed bd) && nullb (d_xor bd) && nullb (d_notconst bd) && nullb (d_absent bd) &&
              forallb (fun q => alt_part n d q ||
                                class_test n fs d (fun c => class_free c bfs) q) parts
          | None => false
          end
      | None => false
      end) (d_oneof d)).

  (* ---------- fields ---------- *)

  Lemma enc_fields_ok : forall fs vs, length fs = length vs ->
    (forall i f k v, nth_error fs i = Some f -> nth_error vs i = Some v -> f_key f = Some k -> f_omit f && is_empty v = false ->
       exists j, enc T v (f_ty f) = Some j) ->
    exists m, enc_fields fs (encs vs) = Some m.
  Proof.
    induction fs as [|f fs IH]; intros [|v vs] L H; try discriminate; [exists []; reflexivity|].
    destruct (IH vs) as [m Em]; [cbn in L; lia| |].
    { intros i f' k v' A B. apply (H (S i) f' k v' A B). }
    cbn [encs map enc_fields]. fold (encs vs). rewrite Em. destruct (f_key f) as [k|] eqn:K; [|eauto].
    destruct (f_omit f && is_empty v) eqn:O; [eauto|].
    destruct (H 0 f k v eq_refl eq_refl K O) as [j Ej]. rewrite Ej. eauto.
  Qed.

  Lemma enc_fields_In : forall fs vs m, enc_fields fs (encs vs) = Some m -> forall k j,
    In (k, j) m <-> exists i f v, nth_error fs i = Some f /\ nth_error vs i = Some v /\ f_key f = Some k /\
                     f_omit f && is_empty v = false /\ enc T v (f_ty f) = Some j.
  Proof.
    induction fs as [|f fs IH]; intros [|v vs] m E k j; try discriminate.
    - injection E as <-. split; [intros []|]. intros (i & f & v & A & _). destruct i; discriminate.
    - cbn [encs map enc_fields] in E. fold (encs vs) in E.
      assert (Skip : forall m', enc_fields fs (encs vs) = Some m' ->
                (In (k, j) m' <-> exists i f' v', i <> 0 /\ nth_error (f :: fs) i = Some f' /\ nth_error (v :: vs) i = Some v' /\
                    f_key f' = Some k /\ f_omit f' && is_empty v' = false /\ enc T v' (f_ty f') = Some j)).
      { intros m' E'. rewrite (IH vs m' E'). split.
        - intros (i & f' & v' & A). exists (S i), f', v'. split; [discriminate|exact A].
        - intros (i & f' & v' & N & A). destruct i as [|i]; [congruence|]. exists i, f', v'. exact A. }
      destruct (f_key f) as [k0|] eqn:K.
      + destruct (f_omit f && is_empty v) eqn:O.
        * rewrite (Skip m E). split; intros (i & f' & v' & A).
          -- exists i, f', v'. tauto.
          -- exists i, f', v'. split; [|exact A]. intros ->. destruct A as (A1 & A2 & _ & A4 & _). cbn in A1, A2. congruence.
        * destruct (enc T v (f_ty f)) as [j0|] eqn:Ej; [|discriminate]. destruct (enc_fields fs (encs vs)) as [m'|] eqn:E'; [|discriminate].
          injection E as <-. cbn [In]. rewrite (Skip m' eq_refl). split.
          -- intros [X|(i & f' & v' & A)].
             ++ injection X as -> ->. exists 0, f, v. auto.
             ++ exists i, f', v'. tauto.
          -- intros (i & f' & v' & A). destruct i as [|i].
             ++ left. destruct A as (A1 & A2 & A3 & _ & A5). cbn in A1, A2. congruence.
             ++ right. exists (S i), f', v'. split; [discriminate|exact A].
      + rewrite (Skip m E). split; intros (i & f' & v' & A).
        * exists i, f', v'. tauto.
        * exists i, f', v'. split; [|exact A]. intros ->. destruct A as (A1 & A2 & A3 & _). cbn in A1, A2. congruence.
  Qed.

  Lemma enc_fields_nodup : forall fs vs m, enc_fields fs (encs vs) = Some m -> NoDup (fkeys fs) -> NoDup (map fst m).
  Proof.
    induction fs as [|f fs IH]; intros [|v vs] m E N; try discriminate.
    - injection E as <-. constructor.
    - cbn [encs map enc_fields] in E. fold (encs vs) in E. unfold fkeys in N. cbn [flat_map] in N. fold (fkeys fs) in N.
      destruct (f_key f) as [k0|] eqn:K.
      + cbn [app] in N. inversion N as [|? ? NI N']; subst. destruct (f_omit f && is_empty v); [eapply IH; eassumption|].
        destruct (enc T v (f_ty f)) as [j0|]; [|discriminate]. destruct (enc_fields fs (encs vs)) as [m'|] eqn:E'; [|discriminate].
        injection E as <-. cbn. constructor; [|eapply IH; eassumption].
        intros I. apply NI. apply in_map_iff in I. destruct I as ([k j] & X & I). cbn in X. subst k0.
        apply (enc_fields_In _ _ _ E') in I. destruct I as (i & f' & v' & A & _ & B & _). apply fkeys_In. eauto.
      + eapply IH; eassumption.
  Qed.

  (* ---------- parts ---------- *)

  Definition seg (fs : list field) (vs : list val) (p : part) : list (string * json) :=
    match enc_part fs (encs vs) p with Some j => objs j | None => [] end.

  Definition joins (fs : list field) (vs : list val) (p : part) : Prop :=
    exists j, enc_part fs (encs vs) p = Some j /\ (j = JNull \/ exists m, j = JObj m).

  Lemma enc_struct n fs parts d vs : get n T = Some (EStruct fs parts d) ->
    enc T (VStruct vs) (TNamed n) = match seq_opt (map (enc_part fs (encs vs)) parts) with Some js => junion js | None => None end.
  Proof. intros G. cbn [enc]. rewrite G. reflexivity. Qed.

  Lemma enc_joins n fs parts d vs : get n T = Some (EStruct fs parts d) -> (forall p, In p parts -> joins fs vs p) ->
    enc T (VStruct vs) (TNamed n) = Some (JObj (concat (map (seg fs vs) parts))).
  Proof.
    intros G H. rewrite (enc_struct _ _ _ _ _ G).
    assert (X : exists js, seq_opt (map (enc_part fs (encs vs)) parts) = Some js /\ map objs js = map (seg fs vs) parts /\
                 (forall j, In j js -> j = JNull \/ exists m, j = JObj m)).
    { clear G. induction parts as [|p parts IH]; [exists []; cbn; tauto|].
      destruct IH as (js & E & M & K); [intros q I; apply H; right; exact I|].
      destruct (H p (or_introl eq_refl)) as (j & Ej & Kj). exists (j :: js). cbn [map seq_opt]. rewrite Ej, E.
      split; [reflexivity|]. split.
      - f_equal; [unfold seg; rewrite Ej; reflexivity|exact M].
      - intros j' [<-|I]; auto. }
    destruct X as (js & E & M & K). rewrite E, (junion_objs _ K), M. reflexivity.
  Qed.

  Lemma nth_encs vs i v : nth_error vs i = Some v -> nth_error (encs vs) i = Some (v, enc T v).
  Proof. intros E. unfold encs. rewrite nth_error_map, E. reflexivity. Qed.

  Lemma part_field fs vs i f v : nth_error fs i = Some f -> nth_error vs i = Some v ->
    enc_part fs (encs vs) (PField i) = enc T v (f_ty f).
  Proof. intros E1 E2. cbn [enc_part]. rewrite E1, (nth_encs _ _ _ E2). reflexivity. Qed.

  Lemma simple_obj n fs parts d ws j : get n T = Some (EStruct fs parts d) -> simple_parts parts = true ->
    enc T (VStruct ws) (TNamed n) = Some j ->
    (forall p, In p parts -> joins fs ws p) /\ j = JObj (concat (map (seg fs ws) parts)).
  Proof.
    intros G S E.
    assert (J : forall p, In p parts -> joins fs ws p).
    { rewrite (enc_struct _ _ _ _ _ G) in E. destruct (seq_opt (map (enc_part fs (encs ws)) parts)) as [js|] eqn:Es; [|discriminate].
      apply seq_opt_Forall2 in Es. intros p I. apply In_nth_error in I. destruct I as [i Ei].
      destruct (F2_nth _ _ _ Es i p Ei) as (jp & _ & Ep). exists jp. split; [exact Ep|]. right.
      unfold simple_parts in S. rewrite forallb_forall in S. specialize (S p (nth_error_In _ _ Ei)).
      destruct p; [| |discriminate]; cbn [enc_part] in Ep.
      - injection Ep as <-. eauto.
      - destruct (enc_fields fs (encs ws)); [|discriminate]. injection Ep as <-. eauto. }
    split; [exact J|]. rewrite (enc_joins _ _ _ _ _ G J) in E. congruence.
  Qed.

  Lemma enc_named_notnull n v j : enc T v (TNamed n) = Some j -> j <> JNull.
  Proof.
    destruct v; cbn [enc]; try discriminate.
    - destruct (get n T) as [[vals|]|]; try discriminate. destruct (in_list s vals); [|discriminate]. intros H. injection H as <-. discriminate.
    - destruct (get n T) as [[vals|fs parts d]|]; try discriminate. destruct (seq_opt _); [|discriminate].
      apply junion_loop_notnull.
  Qed.

  (* ---------- sizes ---------- *)

  Fixpoint vsize (v : val) : nat :=
    match v with
    | VPtr v => S (vsize v)
    | VArr l => S (list_sum (map vsize l))
    | VMap m => S (list_sum (map (fun kv => vsize (snd kv)) m))
    | VStruct l => S (list_sum (map vsize l))
    | _ => 1
    end.

  Lemma sum_In {A} (g : A -> nat) x : forall l, In x l -> g x <= list_sum (map g l).
  Proof. induction l as [|y l IH]; cbn; intros H; [destruct H|]. destruct H as [->|H]; [lia|]. specialize (IH H). unfold list_sum in IH. lia. Qed.

  Lemma vsize_arr v l : In v l -> vsize v < vsize (VArr l).
  Proof. intros I. cbn [vsize]. pose proof (sum_In vsize v l I). lia. Qed.
  Lemma vsize_map k v m : In (k, v) m -> vsize v < vsize (VMap m).
  Proof. intros I. cbn [vsize]. pose proof (sum_In (fun kv => vsize (snd kv)) (k, v) m I). cbn [snd] in *. lia. Qed.
  Lemma vsize_struct i v l : nth_error l i = Some v -> vsize v < vsize (VStruct l).
  Proof. intros E. apply nth_error_In in E. cbn [vsize]. pose proof (sum_In vsize v l E). lia. Qed.
  Lemma vsize_ptr v : vsize v < vsize (VPtr v).
  Proof. cbn [vsize]. lia. Qed.

  (* ---------- every well formed value has an encoding ---------- *)

  Hypothesis Hok : forall n fs parts d vs, get n T = Some (EStruct fs parts d) -> extra n vs = true ->
    ent_ok T fs d = true /\ (pure_union fs parts d = true /\ derived n = false \/ joined n fs parts d = true).

  Record wfs (n : string) (fs : list field) (parts : list part) (d : dprog) (vs : list val) : Prop := {
    W_get : get n T = Some (EStruct fs parts d);
    W_len : length fs = length vs;
    W_field : forall i f v, nth_error fs i = Some f -> nth_error vs i = Some v -> wf (f_ty f) v;
    W_ok : forall i f v, nth_error fs i = Some f -> nth_error vs i = Some v -> field_ok derived n d i f v;
    W_alt : derived n = false -> d_oneof d <> [] -> one_alt d vs;
    W_extra : extra n vs = true
  }.

  Lemma wf_inv n v : wf (TNamed n) v ->
    (exists vals s, get n T = Some (EEnum vals) /\ In s vals /\ v = VStr s) \/
    (exists fs parts d vs, wfs n fs parts d vs /\ v = VStruct vs).
  Proof.
    intros W. inversion W; subst.
    - left. eauto.
    - right. exists fs, parts, d, vs. split; [|reflexivity]. constructor; assumption.
  Qed.

  Lemma wf_ptr_inv t v : wf (TPtr t) v -> v = VNil \/ exists w, v = VPtr w /\ wf t w.
  Proof. intros W. inversion W; subst; eauto. Qed.
  Lemma wf_map_inv t v : wf (TMap t) v -> v = VNil \/ exists m, v = VMap m /\ NoDup (map fst m) /\ (forall k w, In (k, w) m -> wf t w).
  Proof. intros W. inversion W; subst; eauto 6. Qed.

  (* The checks of [joined], one by one. *)
  Record joinedP (n : string) (fs : list field) (parts : list part) (d : dprog) : Prop := {
    J_codes : NoDup (map code parts);
    J_fkeys : NoDup (fkeys fs);
    J_consts : NoDup (map fst (const_members parts));
    J_struct : fkeys fs = [] \/ In PStruct parts;
    J_encf : forall i f k, nth_error fs i = Some f -> f_key f = Some k -> encodable (f_ty f) = true;
    J_class : forall p, In p parts -> exists c, class_of n fs d p = Some c;
    J_dis : forall p q c c', In p parts -> In q parts -> code p <> code q -> alt_part n d p && alt_part n d q = false ->
      class_of n fs d p = Some c -> class_of n fs d q = Some c' -> class_dis c c' = true;
    J_free : forall p c, In p parts -> p <> PStruct -> class_of n fs d p = Some c -> class_free c fs = true;
    J_dconst : forall k c, In (k, c) (d_const d) -> In (k, c) (const_members parts) /\ json_eqb_scalar c c = true;
    J_require : forall k, In k (d_require d) -> In k (always fs parts) \/
      derived n = false /\ d_oneof d <> [] /\
      forall i, In i (d_oneof d) -> exists f bfs bparts bd, nth_error fs i = Some f /\
        alt_ent (f_ty f) = Some (bfs, bparts, bd) /\ In k (always bfs bparts);
    J_pats : forall p i, In (p, i) (d_pats d) -> In (PField i) parts /\
      (forall k, gone d k = true -> matches p k = false) /\
      (forall q c, In q parts -> code q <> S (S i) -> class_of n fs d q = Some c -> class_unsel d p c = true);
    J_addl : forall i, In i (d_addl d) -> In (PField i) parts /\ d_const d = [] /\ d_known d = [] /\
      (forall q c, In q parts -> code q <> S (S i) -> class_of n fs d q = Some c -> class_covered d c = true);
    J_closed : d_closed d = true -> d_addl d = [] ->
      forall q c, In q parts -> class_of n fs d q = Some c -> class_covered d c = true;
    J_embed : derived n = false -> d_embed d = [];
    J_oneof : NoDup (d_oneof d);
    J_alts : derived n = false -> forall i, In i (d_oneof d) -> exists f bfs bparts bd,
      In (PField i) parts /\ nth_error fs i = Some f /\ alt_ent (f_ty f) = Some (bfs, bparts, bd) /\
      simple_parts bparts = true /\ (fkeys bfs = [] \/ In PStruct bparts) /\
      d_embed bd = [] /\ d_oneof bd = [] /\ d_not bd = [] /\ d_pats bd = [] /\ d_addl bd = [] /\
      d_closed bd = false /\ d_xor bd = [] /\ d_notconst bd = [] /\ d_absent bd = [] /\
      (forall q c, In q parts -> alt_part n d q = false -> class_of n fs d q = Some c -> class_free c bfs = true)
  }.

  Lemma has_struct parts : has_part 1 parts = true -> In PStruct parts.
  Proof.
    intros H. apply existsb_exists in H. destruct H as (p & I & E). apply Nat.eqb_eq in E. destruct p; cbn in E; try discriminate. exact I.
  Qed.
  Lemma has_field i parts : has_part (S (S i)) parts = true -> In (PField i) parts.
  Proof.
    intros H. apply existsb_exists in H. destruct H as (p & I & E). apply Nat.eqb_eq in E. destruct p; cbn in E; try discriminate.
    injection E as ->. exact I.
  Qed.

  Lemma test_class n fs d test p c : class_test n fs d test p = true -> class_of n fs d p = Some c -> test c = true.
  Proof. unfold class_test. intros H E. rewrite E in H. exact H. Qed.

  Lemma eqb_scalar_eq a b : json_eqb_scalar a b = true -> a = b.
  Proof.
    destruct a, b; cbn; try discriminate.
    - intros H. apply eqb_prop in H. congruence.
    - intros H. apply String.eqb_eq in H. congruence.
  Qed.

  Lemma or_l a b : a = false -> a || b = true -> b = true.
  Proof. intros ->. auto. Qed.
  Lemma neq_eqb a b : a <> b -> (a =? b)%nat = false.
  Proof. apply Nat.eqb_neq. Qed.

  Lemma joined_ok n fs parts d : joined n fs parts d = true -> joinedP n fs parts d.
  Proof.
    unfold joined. rewrite !andb_true_iff.
    intros [[[[[[[[[[[[[[[H1 H2] H3] H4] H5] H6] H7] H8] H9] H10] H11] H12] H13] H14] H14'] H15].
    rewrite forallb_forall in H5, H6, H7, H8, H9, H10, H11, H12.
    constructor.
    - apply nodupb_NoDup. exact H1.
    - apply nodups_NoDup. exact H2.
    - apply nodups_NoDup. exact H3.
    - apply orb_true_iff in H4. destruct H4 as [H4|H4]; [left; apply nullb_nil; exact H4|right; apply has_struct; exact H4].
    - intros i f k E K. specialize (H5 f (nth_error_In _ _ E)). rewrite K in H5. exact H5.
    - intros p I. specialize (H6 p I). unfold class_test in H6. destruct (class_of n fs d p); [eauto|discriminate].
    - intros p q c c' Ip Iq N A Ep Eq. specialize (H7 p Ip). rewrite forallb_forall in H7. specialize (H7 q Iq).
      rewrite (neq_eqb _ _ N), A in H7. cbn [orb] in H7. pose proof (test_class _ _ _ _ _ _ H7 Ep) as X.
      exact (test_class _ _ _ _ _ _ X Eq).
    - intros p c Ip N E. specialize (H8 p Ip). apply orb_true_iff in H8. destruct H8 as [H8|H8].
      + apply Nat.eqb_eq in H8. destruct p; cbn in H8; try discriminate. congruence.
      + exact (test_class _ _ _ _ _ _ H8 E).
    - intros k c I. specialize (H9 _ I). apply existsb_exists in H9. destruct H9 as ([k' c'] & I' & E). cbn [fst snd] in E.
      apply andb_true_iff in E. destruct E as [E1 E2]. apply String.eqb_eq in E1. subst k'.
      pose proof (eqb_scalar_eq _ _ E2). subst c'. auto.
    - intros k I. specialize (H10 _ I). apply orb_true_iff in H10. destruct H10 as [X|X]; [left; apply in_list_In; exact X|right].
      rewrite !andb_true_iff in X. destruct X as [[X1 X2] X3]. split; [apply negb_true_iff; exact X1|]. split.
      { intros E. rewrite E in X2. discriminate. }
      rewrite forallb_forall in X3. intros i Ii. specialize (X3 i Ii). destruct (nth_error fs i) as [f|]; [|discriminate].
      destruct (alt_ent (f_ty f)) as [[[bfs bparts] bd]|] eqn:Ea; [|discriminate]. exists f, bfs, bparts, bd.
      split; [reflexivity|]. split; [exact Ea|]. apply in_list_In. exact X3.
    - intros p i I. specialize (H11 _ I). cbn [fst snd] in H11. rewrite !andb_true_iff in H11. destruct H11 as [[X1 X2] X3].
      rewrite forallb_forall in X2, X3. split; [apply has_field; exact X1|]. split.
      + intros k G. unfold gone in G. apply negb_true_iff. apply X2. apply in_app_iff. apply orb_true_iff in G.
        rewrite !in_list_In in G. exact G.
      + intros q c Iq N E. specialize (X3 q Iq). rewrite (neq_eqb _ _ N) in X3. exact (test_class _ _ _ _ _ _ X3 E).
    - intros i I. specialize (H12 _ I). rewrite !andb_true_iff in H12. destruct H12 as [[[X1 X2] X3] X4]. rewrite forallb_forall in X4.
      split; [apply has_field; exact X1|]. split; [apply nullb_nil; exact X2|]. split; [apply nullb_nil; exact X3|].
      intros q c Iq N E. specialize (X4 q Iq). rewrite (neq_eqb _ _ N) in X4. exact (test_class _ _ _ _ _ _ X4 E).
    - intros C A q c Iq E. rewrite C, A in H13. cbn [negb nullb orb] in H13. rewrite forallb_forall in H13.
      exact (test_class _ _ _ _ _ _ (H13 q Iq) E).
    - intros D. rewrite D in H14. apply nullb_nil. exact H14.
    - apply nodupb_NoDup. exact H14'.
    - intros D i I. rewrite D in H15. cbn [orb] in H15. rewrite forallb_forall in H15. specialize (H15 i I).
      apply andb_true_iff in H15. destruct H15 as [X1 X].
      destruct (nth_error fs i) as [f|] eqn:Ef; [|discriminate]. destruct (alt_ent (f_ty f)) as [[[bfs bparts] bd]|] eqn:Ea; [|discriminate].
      rewrite !andb_true_iff in X. destruct X as [[[[[[[[[[[Y1 Y2] Y3] Y4] Y5] Y6] Y7] Y8] Y9] Y10] Y11] Y12].
      rewrite forallb_forall in Y12.
      exists f, bfs, bparts, bd. split; [apply has_field; exact X1|]. split; [reflexivity|]. split; [exact Ea|]. split; [exact Y1|].
      split. { apply orb_true_iff in Y2. destruct Y2 as [Y2|Y2]; [left; apply nullb_nil; exact Y2|right; apply has_struct; exact Y2]. }
      do 5 (split; [apply nullb_nil; assumption|]). split; [apply negb_true_iff; exact Y8|].
      do 3 (split; [apply nullb_nil; assumption|]).
      intros q c Iq N E. specialize (Y12 q Iq). rewrite N in Y12. exact (test_class _ _ _ _ _ _ Y12 E).
  Qed.

  (* The parts of a joined type join, if what is inside has encodings. *)
  Lemma parts_join n fs parts d vs : wfs n fs parts d vs -> joinedP n fs parts d ->
    (forall i f v, nth_error fs i = Some f -> nth_error vs i = Some v -> encodable (f_ty f) = true -> exists j, enc T v (f_ty f) = Some j) ->
    forall p, In p parts -> joins fs vs p.
  Proof.
    intros W J IH p I. destruct p as [m| |i].
    - exists (JObj m). split; [reflexivity|]. right. eauto.
    - destruct (enc_fields_ok fs vs (W_len _ _ _ _ _ W)) as [m Em].
      { intros i f k v Ef Ev K _. eapply IH; try eassumption. eapply J_encf; eassumption. }
      exists (JObj m). cbn [enc_part]. rewrite Em. split; [reflexivity|]. right. eauto.
    - destruct (J_class _ _ _ _ J _ I) as [c Ec]. cbn [class_of] in Ec.
      destruct (nth_error fs i) as [f|] eqn:Ef; [|discriminate].
      destruct (nth_lt_some vs i) as [v Ev]. { rewrite <- (W_len _ _ _ _ _ W). eapply nth_some_lt. eassumption. }
      unfold joins. rewrite (part_field _ _ _ _ _ Ef Ev).
      pose proof (W_field _ _ _ _ _ W i f v Ef Ev) as Wv. pose proof (W_ok _ _ _ _ _ W i f v Ef Ev) as Ov.
      destruct (special_pos d i) eqn:Si.
      + destruct (derived n) eqn:Dn.
        * rewrite (fo_derived _ _ _ _ _ _ Ov Dn) by (apply special_pos_In; exact Si).
          destruct (f_ty f); try discriminate. exists JNull. auto.
        * destruct (alt_ent (f_ty f)) as [[[bfs bparts] bd]|] eqn:Ea; [|discriminate].
          destruct (simple_parts bparts) eqn:Sp; [|discriminate].
          unfold alt_ent in Ea. destruct (f_ty f) as [| | | | | |[| | | | | | | | |b]| | |] eqn:Et; try discriminate.
          destruct (get b T) as [[|bfs' bparts' bd']|] eqn:Gb; try discriminate. injection Ea as -> -> ->.
          destruct (wf_ptr_inv _ _ Wv) as [->|(w & -> & Ww)].
          { exists JNull. auto. }
          destruct (IH i f (VPtr w) Ef Ev) as [j Ej]. { rewrite Et. reflexivity. }
          rewrite Et in Ej. exists j. split; [exact Ej|]. right. cbn [enc] in Ej.
          destruct (wf_inv _ _ Ww) as [(vals & s & G & _)|(fs' & parts' & d' & ws & W' & ->)]; [congruence|].
          destruct (simple_obj _ _ _ _ _ _ Gb Sp Ej) as [_ ->]. eauto.
      + destruct (f_ty f) as [| | | | | | | |t|] eqn:Et; try discriminate. destruct (encodable t) eqn:En; [|discriminate].
        destruct (wf_map_inv _ _ Wv) as [->|(m & -> & _ & Wm)].
        { exists JNull. auto. }
        destruct (IH i f (VMap m) Ef Ev) as [j Ej]. { rewrite Et. exact En. }
        rewrite Et in Ej. exists j. split; [exact Ej|]. right. cbn [enc] in Ej.
        destruct (seq_opt _); [|discriminate]. injection Ej as <-. eauto.
  Qed.

  (* The facts of [pure_union]. *)
  Record unionP (fs : list field) (parts : list part) (d : dprog) : Prop := {
    U_struct : d_struct d = false;
    U_embed : d_embed d = [];
    U_oneof : d_oneof d = seq 0 (length fs);
    U_some : d_oneof d <> [];
    U_parts : parts = map PField (d_oneof d);
    U_require : d_require d = []; U_xor : d_xor d = []; U_const : d_const d = []; U_notconst : d_notconst d = [];
    U_absent : d_absent d = []; U_lower : d_lower d = []; U_fix : d_fix d = []; U_pats : d_pats d = []; U_addl : d_addl d = [];
    U_closed : d_closed d = false;
    U_field : forall i f, nth_error fs i = Some f -> f_key f = None /\ (f_ty f = TPtr TBool \/ exists n, f_ty f = TPtr (TNamed n))
  }.

  Lemma union_ok fs parts d : pure_union fs parts d = true -> unionP fs parts d.
  Proof.
    unfold pure_union. rewrite !andb_true_iff.
    intros [[[[[[[[[[[[[[[H1 H2] H3] H4] H5] H6] H7] H8] H9] H10] H11] H12] H13] H14] H15] H16].
    constructor; try (apply nullb_nil; assumption); try (apply negb_true_iff; assumption).
    - apply nats_eqb_eq. exact H4.
    - intros E. rewrite E in H3. discriminate.
    - apply nats_eqb_eq in H5. clear - H5. revert parts H5. induction (d_oneof d) as [|i l IH]; intros [|p parts] H; try discriminate; [reflexivity|].
      cbn [map] in *. injection H as E H. rewrite (IH _ H). destruct p; cbn in E; try discriminate. injection E as ->. reflexivity.
    - rewrite forallb_forall in H16. intros i f E. specialize (H16 f (nth_error_In _ _ E)). apply andb_true_iff in H16. destruct H16 as [A B].
      split; [destruct (f_key f); [discriminate|reflexivity]|].
      destruct (f_ty f) as [| | | | | |[| | | | | | | | |b]| | |]; try discriminate; eauto.
  Qed.

  (* The encoding of a choice is the encoding of the alternative. *)
  Lemma union_enc n fs parts d vs i w f j : get n T = Some (EStruct fs parts d) -> unionP fs parts d -> length fs = length vs ->
    In i (d_oneof d) -> nth_error vs i = Some (VPtr w) ->
    (forall k, In k (d_oneof d) -> k <> i -> nth_error vs k = Some VNil) ->
    nth_error fs i = Some f -> enc T (VPtr w) (f_ty f) = Some j -> j <> JNull ->
    enc T (VStruct vs) (TNamed n) = Some j.
  Proof.
    intros G U L I Ei Ek Ef Ej N. rewrite (enc_struct _ _ _ _ _ G). rewrite (U_parts _ _ _ U).
    pose proof (in_split i (d_oneof d) I) as (o1 & o2 & Eo).
    assert (ND : NoDup (o1 ++ i :: o2)). { rewrite <- Eo, (U_oneof _ _ _ U). apply seq_NoDup. }
    apply NoDup_remove_2 in ND.
    assert (Z : forall o, incl o (o1 ++ o2) -> seq_opt (map (enc_part fs (encs vs)) (map PField o)) = Some (map (fun _ => JNull) o)).
    { induction o as [|k o IH]; intros S; [reflexivity|]. cbn [map seq_opt].
      assert (Ik : In k (o1 ++ o2)) by (apply S; left; reflexivity).
      assert (Io : In k (d_oneof d)). { rewrite Eo. apply in_app_iff. apply in_app_iff in Ik. cbn. tauto. }
      assert (Ev : nth_error vs k = Some VNil). { apply Ek; [exact Io|]. intros ->. exact (ND Ik). }
      destruct (nth_lt_some fs k) as [fk Efk]. { rewrite L. eapply nth_some_lt. eassumption. }
      rewrite (part_field _ _ _ _ _ Efk Ev).
      assert (Enc : enc T VNil (f_ty fk) = Some JNull).
      { destruct (U_field _ _ _ U _ _ Efk) as [_ [-> |[b ->]]]; reflexivity. }
      rewrite Enc, IH; [reflexivity|]. intros x Ix. apply S. right. exact Ix. }
    assert (E : seq_opt (map (enc_part fs (encs vs)) (map PField (d_oneof d))) = Some (map (fun _ => JNull) o1 ++ j :: map (fun _ => JNull) o2)).
    { rewrite Eo. clear - Z Ef Ei Ej. induction o1 as [|k o1 IH]; cbn [app map seq_opt].
      - rewrite (part_field _ _ _ _ _ Ef Ei), Ej. rewrite Z; [reflexivity|apply incl_refl].
      - pose proof (Z [k]) as Zk. cbn [map seq_opt] in Zk. destruct (enc_part fs (encs vs) (PField k)) as [x|].
        + specialize (Zk (fun y h => match h with or_introl e => or_introl e | or_intror f => match f with end end)). injection Zk as ->.
          rewrite IH; [reflexivity|]. intros o S. apply Z. intros y Iy. right. apply S. exact Iy.
        + specialize (Zk (fun y h => match h with or_introl e => or_introl e | or_intror f => match f with end end)). discriminate. }
    rewrite E. apply junion_one; [|exact N]. intros j' Ij. apply in_app_iff in Ij. destruct Ij as [Ij|Ij]; apply in_map_iff in Ij; destruct Ij as (x & <- & _); reflexivity.
  Qed.

  Lemma enc_total : forall m v, vsize v < m -> forall t, wf t v -> encodable t = true -> exists j, enc T v t = Some j.
  Proof.
    induction m as [|m IH]; intros v S t W En; [lia|].
    destruct W as [s|b|q _|q _|j _| |t|t|t|t v W|t l Wl|t mp N Wm|n vals s G I|n fs parts d vs G L Wf Of A X]; try (eexists; reflexivity).
    - discriminate.
    - cbn [enc]. eapply IH; [|exact W|exact En]. pose proof (vsize_ptr v). lia.
    - cbn [enc].
      assert (E : exists js, seq_opt (map (fun v => enc T v t) l) = Some js).
      { assert (Sl : forall v, In v l -> vsize v < m) by (intros v I; pose proof (vsize_arr v l I); lia). clear S.
        induction l as [|v l IHl]; [exists []; reflexivity|]. cbn [map seq_opt].
        destruct (IH v (Sl v (or_introl eq_refl)) t (Wl v (or_introl eq_refl)) En) as [j ->].
        destruct IHl as [js ->]; [intros; apply Wl; right; assumption|intros; apply Sl; right; assumption|]. eauto. }
      destruct E as [js ->]. eauto.
    - cbn [enc].
      assert (E : exists js, seq_opt (map (fun kv => match enc T (snd kv) t with Some j => Some (fst kv, j) | None => None end) mp) = Some js).
      { assert (Sl : forall k v, In (k, v) mp -> vsize v < m) by (intros k v I; pose proof (vsize_map k v mp I); lia). clear S N.
        induction mp as [|[k v] l IHl]; [exists []; reflexivity|]. cbn [map seq_opt fst snd].
        destruct (IH v (Sl k v (or_introl eq_refl)) t (Wm k v (or_introl eq_refl)) En) as [j ->].
        destruct IHl as [js ->]; [intros; eapply Wm; right; eassumption|intros; eapply Sl; right; eassumption|]. eauto. }
      destruct E as [js ->]. eauto.
    - cbn [enc]. rewrite G. apply in_list_In in I. rewrite I. eauto.
    - assert (W : wfs n fs parts d vs) by (constructor; assumption).
      assert (IHf : forall i f v, nth_error fs i = Some f -> nth_error vs i = Some v -> encodable (f_ty f) = true -> exists j, enc T v (f_ty f) = Some j).
      { intros i f v Ef Ev Enf. apply (IH v); [|eapply Wf; eassumption|exact Enf]. pose proof (vsize_struct i v vs Ev). lia. }
      destruct (Hok n fs parts d vs G X) as [_ [[U Dn]|J]].
      + apply union_ok in U. destruct (A Dn (U_some _ _ _ U)) as (i & w & I & Ei & Ek).
        destruct (nth_lt_some fs i) as [f Ef]. { rewrite L. eapply nth_some_lt. eassumption. }
        destruct (IHf i f _ Ef Ei) as [j Ej]. { destruct (U_field _ _ _ U _ _ Ef) as [_ [-> |[b ->]]]; reflexivity. }
        exists j. eapply union_enc; try eassumption.
        destruct (U_field _ _ _ U _ _ Ef) as [_ [Et|[b Et]]]; rewrite Et in Ej; cbn [enc] in Ej.
        * destruct w; cbn in Ej; try discriminate. injection Ej as <-. discriminate.
        * eapply enc_named_notnull. exact Ej.
      + apply joined_ok in J. eexists. eapply enc_joins; [exact G|]. eapply parts_join; eassumption.
  Qed.

  (* ---------- the members of an encoding ---------- *)

  Definition obj_of (fs : list field) (parts : list part) (vs : list val) : list (string * json) :=
    concat (map (seg fs vs) parts).

  Lemma seg_const fs vs m : seg fs vs (PConst m) = m.
  Proof. reflexivity. Qed.

  Lemma seg_struct fs vs : joins fs vs PStruct -> exists m, enc_fields fs (encs vs) = Some m /\ seg fs vs PStruct = m.
  Proof.
    intros (j & E & _). unfold seg. cbn [enc_part] in *. destruct (enc_fields fs (encs vs)) as [m|]; [|discriminate].
    exists m. auto.
  Qed.

  Lemma seg_struct_In fs vs k j : joins fs vs PStruct -> In (k, j) (seg fs vs PStruct) <->
    exists i f v, nth_error fs i = Some f /\ nth_error vs i = Some v /\ f_key f = Some k /\
      f_omit f && is_empty v = false /\ enc T v (f_ty f) = Some j.
  Proof. intros J. destruct (seg_struct fs vs J) as (m & E & ->). apply enc_fields_In. exact E. Qed.

  Lemma key_pair {A} k (M : list (string * A)) : In k (map fst M) -> exists v, In (k, v) M.
  Proof. intros I. apply in_map_iff in I. destruct I as ([k' v] & E & I). cbn in E. subst. eauto. Qed.

  Lemma simple_keys_class fs parts vs k : (forall p, In p parts -> joins fs vs p) -> simple_parts parts = true ->
    In k (map fst (obj_of fs parts vs)) -> In k (map fst (const_members parts) ++ fkeys fs).
  Proof.
    intros J S I. unfold obj_of in I. apply in_concat_key in I. destruct I as (p & Ip & I). apply in_app_iff.
    unfold simple_parts in S. rewrite forallb_forall in S. specialize (S p Ip). destruct p; [| |discriminate].
    - left. rewrite seg_const in I. apply key_pair in I. destruct I as [v I]. apply keys_In with v. unfold const_members.
      apply in_flat_map. exists (PConst m). auto.
    - right. apply key_pair in I. destruct I as [v I]. apply seg_struct_In in I; [|apply J; exact Ip].
      destruct I as (i & f & v' & A & _ & B & _). apply fkeys_In. eauto.
  Qed.

  Lemma always_In fs parts vs k : length fs = length vs -> (forall p, In p parts -> joins fs vs p) ->
    (fkeys fs = [] \/ In PStruct parts) -> In k (always fs parts) -> In k (map fst (obj_of fs parts vs)).
  Proof.
    intros L J S I. unfold obj_of. apply in_concat_key. unfold always in I. apply in_app_iff in I. destruct I as [I|I].
    - apply key_pair in I. destruct I as [v I]. unfold const_members in I. apply in_flat_map in I. destruct I as (p & Ip & I).
      destruct p; try destruct I. exists (PConst m). split; [exact Ip|]. rewrite seg_const. eapply keys_In. exact I.
    - apply fkeys_In in I. destruct I as (i0 & f & E & K). apply nth_error_In in E. apply filter_In in E. destruct E as [If O].
      apply In_nth_error in If. destruct If as [i Ef]. apply negb_true_iff in O.
      assert (Is : In PStruct parts).
      { destruct S as [S|S]; [|exact S]. exfalso. assert (X : In k (fkeys fs)) by (apply fkeys_In; eauto). rewrite S in X. exact X. }
      exists PStruct. split; [exact Is|]. destruct (nth_lt_some vs i) as [v Ev]. { rewrite <- L. eapply nth_some_lt. eassumption. }
      destruct (seg_struct fs vs (J _ Is)) as (m & Em & Es).
      destruct (enc_fields_ok fs vs L) as [m' Em'].
      { intros i' f' k' v' A B C D. destruct (J _ Is) as (j & Ej & _). cbn [enc_part] in Ej. rewrite Em in Ej.
        clear - Em A B C D. revert fs vs m Em A B. induction i' as [|i' IH]; intros [|f fs] [|v vs] m Em A B; try discriminate.
        - cbn in A, B. injection A as ->. injection B as ->. cbn [encs map enc_fields] in Em. rewrite C, D in Em.
          destruct (enc T v' (f_ty f')); [eauto|discriminate].
        - cbn [encs map enc_fields] in Em. fold (encs vs) in Em. cbn in A, B.
          destruct (f_key f); [|eapply IH; eassumption]. destruct (f_omit f && is_empty v); [eapply IH; eassumption|].
          destruct (enc T v (f_ty f)); [|discriminate]. destruct (enc_fields fs (encs vs)) as [m'|] eqn:E'; [|discriminate].
          eapply IH; eassumption. }
      assert (X : exists j, enc T v (f_ty f) = Some j).
      { clear - Em Ef Ev K O. revert fs vs m Em Ef Ev. induction i as [|i' IH]; intros [|f0 fs] [|v0 vs] m Em A B; try discriminate.
        - cbn in A, B. injection A as ->. injection B as ->. cbn [encs map enc_fields] in Em. rewrite K, O in Em. cbn [andb] in Em.
          destruct (enc T v (f_ty f)); [eauto|discriminate].
        - cbn [encs map enc_fields] in Em. fold (encs vs) in Em. cbn in A, B.
          destruct (f_key f0); [|eapply IH; eassumption]. destruct (f_omit f0 && is_empty v0); [eapply IH; eassumption|].
          destruct (enc T v0 (f_ty f0)); [|discriminate]. destruct (enc_fields fs (encs vs)) as [m'|] eqn:E'; [|discriminate].
          eapply IH; eassumption. }
      destruct X as [j Ej]. apply keys_In with j. apply seg_struct_In; [apply J; exact Is|].
      exists i, f, v. rewrite O. auto 6.
  Qed.

  Lemma alt_ent_inv t x : alt_ent t = Some x -> exists b, t = TPtr (TNamed b) /\
    get b T = Some (EStruct (fst (fst x)) (snd (fst x)) (snd x)).
  Proof.
    unfold alt_ent. destruct t as [| | | | | |[| | | | | | | | |b]| | |]; try discriminate.
    destruct (get b T) as [[|fs parts d]|] eqn:G; try discriminate. intros H. injection H as <-. exists b. auto.
  Qed.

  (* An alternative of simple form. *)
  Lemma seg_alt fs vs i f w b bfs bparts bd : nth_error fs i = Some f -> nth_error vs i = Some (VPtr w) ->
    f_ty f = TPtr (TNamed b) -> get b T = Some (EStruct bfs bparts bd) -> simple_parts bparts = true ->
    wf (TNamed b) w -> joins fs vs (PField i) ->
    exists ws, w = VStruct ws /\ wfs b bfs bparts bd ws /\ (forall p, In p bparts -> joins bfs ws p) /\
      seg fs vs (PField i) = obj_of bfs bparts ws /\ enc T w (TNamed b) = Some (JObj (obj_of bfs bparts ws)).
  Proof.
    intros Ef Ev Et G S Ww (j & Ej & _).
    destruct (wf_inv _ _ Ww) as [(vals & s & G' & _)|(fs' & parts' & d' & ws & W' & ->)]; [congruence|].
    pose proof (W_get _ _ _ _ _ W') as G'. rewrite G in G'. injection G' as <- <- <-.
    rewrite (part_field _ _ _ _ _ Ef Ev), Et in Ej. cbn [enc] in Ej.
    change (enc T (VStruct ws) (TNamed b) = Some j) in Ej.
    destruct (simple_obj _ _ _ _ _ _ G S Ej) as [J ->].
    exists ws. split; [reflexivity|]. split; [exact W'|]. split; [exact J|]. split; [|exact Ej].
    unfold seg. rewrite (part_field _ _ _ _ _ Ef Ev), Et. change (enc T (VPtr (VStruct ws)) (TPtr (TNamed b))) with (enc T (VStruct ws) (TNamed b)).
    rewrite Ej. reflexivity.
  Qed.

  Lemma enc_map_entries t v j : nil_or_map v \/ v = VMap [] -> enc T v (TMap t) = Some j -> entries T t (mapof v) (objs j).
  Proof.
    intros N E. assert (X : v = VNil \/ exists m, v = VMap m) by (destruct N as [[->|(m & -> & _)]| ->]; eauto).
    destruct X as [->|(m & ->)]; cbn [enc] in E.
    - injection E as <-. constructor.
    - destruct (seq_opt _) as [ms|] eqn:Es; [|discriminate]. injection E as <-. cbn [mapof objs].
      apply seq_opt_Forall2 in Es. unfold entries. clear - Es. induction Es as [|[k w] [k' j'] l r H F IH]; constructor; [|exact IH].
      cbn [fst snd] in *. destruct (enc T w t); [|discriminate]. injection H as <- <-. auto.
  Qed.

  Lemma entries_keys t m M : entries T t m M -> map fst M = map fst m.
  Proof. induction 1 as [|a b l r [A _] F IH]; cbn; congruence. Qed.

  Section Joined.
    Variables (n : string) (fs : list field) (parts : list part) (d : dprog) (vs : list val).
    Hypothesis W : wfs n fs parts d vs.
    Hypothesis J : joinedP n fs parts d.
    Hypothesis OK : ent_ok T fs d = true.
    Hypothesis JN : forall p, In p parts -> joins fs vs p.

    Lemma field_of_part i : In (PField i) parts -> exists f v, nth_error fs i = Some f /\ nth_error vs i = Some v.
    Proof.
      intros I. destruct (J_class _ _ _ _ J _ I) as [c Ec]. cbn [class_of] in Ec.
      destruct (nth_error fs i) as [f|] eqn:Ef; [|discriminate].
      destruct (nth_lt_some vs i) as [v Ev]. { rewrite <- (W_len _ _ _ _ _ W). eapply nth_some_lt. eassumption. }
      eauto.
    Qed.

    (* A map. *)
    Lemma seg_map i f t v : In (PField i) parts -> nth_error fs i = Some f -> nth_error vs i = Some v -> f_ty f = TMap t ->
      entries T t (mapof v) (seg fs vs (PField i)).
    Proof.
      intros I Ef Ev Et. destruct (JN _ I) as (j & Ej & _). unfold seg. rewrite Ej. rewrite (part_field _ _ _ _ _ Ef Ev), Et in Ej.
      apply enc_map_entries; [|exact Ej]. pose proof (W_field _ _ _ _ _ W i f v Ef Ev) as Wv. rewrite Et in Wv.
      destruct (wf_map_inv _ _ Wv) as [->|(m & -> & _)]; [left; left; reflexivity|].
      destruct m as [|x m]; [right; reflexivity|left; right; eexists; split; [reflexivity|discriminate]].
    Qed.

    Lemma find_pats i p x : find (fun pi => (snd pi =? i)%nat) (d_pats d) = Some (p, x) -> In (p, i) (d_pats d).
    Proof. intros H. apply find_some in H. destruct H as [I E]. cbn in E. apply Nat.eqb_eq in E. subst. exact I. Qed.

    Lemma seg_class p c k : In p parts -> class_of n fs d p = Some c -> In k (map fst (seg fs vs p)) -> in_class c k.
    Proof.
      intros Ip Ec Ik. destruct p as [m| |i].
      - cbn [class_of] in Ec. injection Ec as <-. exact Ik.
      - cbn [class_of] in Ec. injection Ec as <-. apply key_pair in Ik. destruct Ik as [j Ik].
        apply seg_struct_In in Ik; [|apply JN; exact Ip]. destruct Ik as (i & f & v & A & _ & B & _). cbn [in_class]. apply fkeys_In. eauto.
      - destruct (field_of_part i Ip) as (f & v & Ef & Ev). cbn [class_of] in Ec. rewrite Ef in Ec.
        pose proof (W_field _ _ _ _ _ W i f v Ef Ev) as Wv. pose proof (W_ok _ _ _ _ _ W i f v Ef Ev) as Ov.
        destruct (special_pos d i) eqn:Si.
        + destruct (derived n) eqn:Dn.
          * exfalso. rewrite (fo_derived _ _ _ _ _ _ Ov Dn) in Ev by (apply special_pos_In; exact Si).
            unfold seg in Ik. rewrite (part_field _ _ _ _ _ Ef Ev) in Ik. destruct (f_ty f); try discriminate. exact Ik.
          * destruct (alt_ent (f_ty f)) as [[[bfs bparts] bd]|] eqn:Ea; [|discriminate].
            destruct (simple_parts bparts) eqn:Sp; [|discriminate]. injection Ec as <-.
            destruct (alt_ent_inv _ _ Ea) as (b & Et & Gb). cbn [fst snd] in Gb. rewrite Et in Wv.
            destruct (wf_ptr_inv _ _ Wv) as [->|(w & -> & Ww)].
            { exfalso. unfold seg in Ik. rewrite (part_field _ _ _ _ _ Ef Ev), Et in Ik. exact Ik. }
            destruct (seg_alt fs vs i f w b bfs bparts bd Ef Ev Et Gb Sp Ww (JN _ Ip)) as (ws & _ & _ & Jb & Es & _).
            rewrite Es in Ik. cbn [in_class]. eapply simple_keys_class; eassumption.
        + destruct (f_ty f) as [| | | | | | | |t|] eqn:Et; try discriminate. destruct (encodable t) eqn:En; [|discriminate].
          pose proof (entries_keys _ _ _ (seg_map i f t v Ip Ef Ev Et)) as EK. rewrite EK in Ik.
          assert (Im : In k (map_keys v)). { unfold map_keys. unfold mapof in Ik. destruct v; auto. }
          destruct (find _ (d_pats d)) as [[p x]|] eqn:Fp.
          * injection Ec as <-. apply find_pats in Fp. cbn [in_class]. apply matches_legal. exact (proj2 (fo_pat _ _ _ _ _ _ Ov p Fp) k Im).
          * destruct (existsb (Nat.eqb i) (d_addl d)) eqn:Ad; [|discriminate]. injection Ec as <-.
            apply existsb_exists in Ad. destruct Ad as (x & Ia & Ex). apply Nat.eqb_eq in Ex. subst x.
            cbn [in_class]. intros p I. apply in_map_iff in I. destruct I as ([p' x] & E & I). cbn in E. subst p'.
            apply not_true_iff_false. rewrite matches_legal. exact (proj2 (fo_addl _ _ _ _ _ _ Ov Ia) k p x Im I).
    Qed.

    (* At most one alternative has members. *)
    Lemma alt_one p q k k' : In p parts -> In q parts -> alt_part n d p && alt_part n d q = true -> code p <> code q ->
      In k (map fst (seg fs vs p)) -> In k' (map fst (seg fs vs q)) -> False.
    Proof.
      intros Ip Iq A N Ik Ik'. unfold alt_part in A. rewrite !andb_true_iff in A. destruct A as [[Dn Ap] [_ Aq]].
      apply negb_true_iff in Dn. apply existsb_exists in Ap, Aq. destruct Ap as (a & Ia & Ea). destruct Aq as (b & Ib & Eb).
      apply Nat.eqb_eq in Ea, Eb. destruct p as [| |a']; cbn in Ea; try discriminate. destruct q as [| |b']; cbn in Eb; try discriminate.
      injection Ea as ->. injection Eb as ->. cbn [code] in N.
      assert (O : d_oneof d <> []) by (intros E; rewrite E in Ia; destruct Ia).
      destruct (W_alt _ _ _ _ _ W Dn O) as (i & w & Ii & Ei & Ek).
      assert (Nil : forall x kk, In x (d_oneof d) -> x <> i -> In (PField x) parts -> In kk (map fst (seg fs vs (PField x))) -> False).
      { intros x kk Ix Nx Ipx Ikk. pose proof (Ek x Ix Nx) as Ex. destruct (J_alts _ _ _ _ J Dn x Ix) as (f & bfs & bparts & bd & _ & Ef & Ea & _).
        destruct (alt_ent_inv _ _ Ea) as (bb & Et & _). unfold seg in Ikk. rewrite (part_field _ _ _ _ _ Ef Ex), Et in Ikk. exact Ikk. }
      destruct (Nat.eq_dec a i) as [->|Na].
      - apply (Nil b k' Ib); auto.
      - apply (Nil a k Ia); auto.
    Qed.

    Lemma seg_dis p q k : In p parts -> In q parts -> code p <> code q -> In k (map fst (seg fs vs p)) -> In k (map fst (seg fs vs q)) -> False.
    Proof.
      intros Ip Iq N A B. destruct (alt_part n d p && alt_part n d q) eqn:E.
      - eapply alt_one; [exact Ip|exact Iq|exact E|exact N|exact A|exact B].
      - destruct (J_class _ _ _ _ J _ Ip) as [c Ec]. destruct (J_class _ _ _ _ J _ Iq) as [c' Ec'].
        exact (class_dis_ok c c' k (J_dis _ _ _ _ J p q c c' Ip Iq N E Ec Ec') (seg_class p c k Ip Ec A) (seg_class q c' k Iq Ec' B)).
    Qed.

    Lemma part_key k : In k (map fst (obj_of fs parts vs)) -> exists p c, In p parts /\ In k (map fst (seg fs vs p)) /\ class_of n fs d p = Some c /\ in_class c k.
    Proof.
      intros I. unfold obj_of in I. apply in_concat_key in I. destruct I as (p & Ip & I). destruct (J_class _ _ _ _ J _ Ip) as [c Ec].
      exists p, c. split; [exact Ip|]. split; [exact I|]. split; [exact Ec|]. eapply seg_class; eassumption.
    Qed.

    Lemma keyed_find i f k : nth_error fs i = Some f -> f_key f = Some k -> find_field fs k = Some i.
    Proof.
      intros Ef Ek. unfold ent_ok in OK. rewrite !andb_true_iff in OK. destruct OK as [[[[[[OKf _] _] _] _] _] _].
      pose proof (fields_check_nth T fs d fs 0 OKf i f Ef) as FC. cbn in FC. unfold field_check in FC. rewrite Ek in FC. rewrite !andb_true_iff in FC.
      destruct FC as [_ [[[[A _] _] _] _]]. destruct (find_field fs k) as [i'|]; [|discriminate]. apply Nat.eqb_eq in A. congruence.
    Qed.

    Lemma map_type i : In i (map snd (d_pats d) ++ d_addl d) -> exists f t, nth_error fs i = Some f /\ f_ty f = TMap t /\ special_pos d i = false.
    Proof.
      intros I. unfold ent_ok in OK. rewrite !andb_true_iff in OK. destruct OK as [[[[[[_ _] _] OKm] _] _] _].
      rewrite forallb_forall in OKm. specialize (OKm i I). unfold map_pos in OKm. apply andb_true_iff in OKm. destruct OKm as [S X].
      destruct (nth_error fs i) as [f|]; [|discriminate]. exists f. destruct (f_key f); [discriminate|].
      destruct (f_ty f) as [| | | | | | | |t|]; try discriminate. exists t. split; [reflexivity|]. split; [reflexivity|]. apply negb_true_iff. exact S.
    Qed.

    Lemma code_inj p q : In p parts -> In q parts -> code p = code q -> p = q.
    Proof.
      intros Ip Iq E. pose proof (J_codes _ _ _ _ J) as N. clear - Ip Iq E N. induction parts as [|x l IH]; [destruct Ip|].
      cbn [map] in N. inversion N as [|? ? NI N']; subst. destruct Ip as [Xp|Ip]; destruct Iq as [Xq|Iq].
      - congruence.
      - exfalso. apply NI. rewrite Xp, E. apply in_map. exact Iq.
      - exfalso. apply NI. rewrite Xq, <- E. apply in_map. exact Ip.
      - auto.
    Qed.

    Lemma descr_joined (ND : forall p, In p parts -> NoDup (map fst (seg fs vs p))) : descr T fs d vs (obj_of fs parts vs).
    Proof.
      constructor.
      - apply concat_nodup with (code := code); [exact (J_codes _ _ _ _ J)|exact ND|]. intros p q k. apply seg_dis.
      - intros i f k v Ef Ek Ev O I. destruct (part_key k I) as (p & c & Ip & Ik & Ec & Kc).
        destruct p as [m| |i'].
        + pose proof (keyed_find i f k Ef Ek) as X. rewrite (class_free_ok _ _ _ (J_free _ _ _ _ J _ _ Ip ltac:(discriminate) Ec) Kc) in X. discriminate.
        + apply key_pair in Ik. destruct Ik as [j Ik]. apply seg_struct_In in Ik; [|apply JN; exact Ip].
          destruct Ik as (i' & f' & v' & A & B & C & D & _). pose proof (keyed_find i f k Ef Ek) as X. rewrite (keyed_find i' f' k A C) in X.
          injection X as ->. congruence.
        + pose proof (keyed_find i f k Ef Ek) as X. rewrite (class_free_ok _ _ _ (J_free _ _ _ _ J _ _ Ip ltac:(discriminate) Ec) Kc) in X. discriminate.
      - intros i f k v Ef Ek Ev O.
        assert (Is : In PStruct parts).
        { destruct (J_struct _ _ _ _ J) as [S|S]; [|exact S]. exfalso. assert (X : In k (fkeys fs)) by (apply fkeys_In; eauto). rewrite S in X. exact X. }
        destruct (seg_struct fs vs (JN _ Is)) as (m & Em & Es).
        assert (X : exists j, enc T v (f_ty f) = Some j).
        { clear - Em Ef Ev Ek O. revert fs vs m Em Ef Ev. induction i as [|i' IH]; intros [|f0 fs] [|v0 vs] m Em A B; try discriminate.
          - cbn in A, B. injection A as ->. injection B as ->. cbn [encs map enc_fields] in Em. rewrite Ek, O in Em.
            destruct (enc T v (f_ty f)); [eauto|discriminate].
          - cbn [encs map enc_fields] in Em. fold (encs vs) in Em. cbn in A, B.
            destruct (f_key f0); [|eapply IH; eassumption]. destruct (f_omit f0 && is_empty v0); [eapply IH; eassumption|].
            destruct (enc T v0 (f_ty f0)); [|discriminate]. destruct (enc_fields fs (encs vs)) as [m'|] eqn:E'; [|discriminate].
            eapply IH; eassumption. }
        destruct X as [j Ej]. exists j. split; [exact Ej|]. unfold obj_of. apply in_concat_seg. exists PStruct. split; [exact Is|].
        apply seg_struct_In; [apply JN; exact Is|]. exists i, f, v. auto 6.
      - intros k i f I F Ef. destruct (part_key k I) as (p & c & Ip & Ik & Ec & Kc).
        assert (Z : p <> PStruct -> f_key f = Some k).
        { intros Np. rewrite (class_free_ok _ _ _ (J_free _ _ _ _ J _ _ Ip Np Ec) Kc) in F. discriminate. }
        destruct p as [m| |i']; try (apply Z; discriminate).
        apply key_pair in Ik. destruct Ik as [j Ik]. apply seg_struct_In in Ik; [|apply JN; exact Ip].
        destruct Ik as (i' & f' & v' & A & B & C & _). rewrite (keyed_find i' f' k A C) in F. injection F as ->. congruence.
      - intros k c I. destruct (J_dconst _ _ _ _ J k c I) as [I' E]. split; [|exact E]. unfold const_members in I'. apply in_flat_map in I'.
        destruct I' as (p & Ip & I'). destruct p; try destruct I'. unfold obj_of. apply in_concat_seg. exists (PConst m). auto.
      - intros k I. destruct (J_require _ _ _ _ J k I) as [A|(Dn & O & A)].
        + apply always_In; auto; [exact (W_len _ _ _ _ _ W)|exact (J_struct _ _ _ _ J)].
        + destruct (W_alt _ _ _ _ _ W Dn O) as (i & w & Ii & Ei & _).
          destruct (A i Ii) as (f & bfs & bparts & bd & Ef & Ea & Ia).
          destruct (J_alts _ _ _ _ J Dn i Ii) as (f' & bfs' & bparts' & bd' & Ip & Ef' & Ea' & Sp & St & _).
          assert (f' = f) by congruence. subst f'. rewrite Ea in Ea'. injection Ea' as <- <- <-.
          destruct (alt_ent_inv _ _ Ea) as (b & Et & Gb). cbn [fst snd] in Gb.
          pose proof (W_field _ _ _ _ _ W i f _ Ef Ei) as Wv. rewrite Et in Wv.
          destruct (wf_ptr_inv _ _ Wv) as [|(w' & Ew & Ww)]; [discriminate|]. injection Ew as <-.
          destruct (seg_alt fs vs i f w b bfs bparts bd Ef Ei Et Gb Sp Ww (JN _ Ip)) as (ws & _ & Wb & Jb & Es & _).
          unfold obj_of. apply in_concat_key. exists (PField i). split; [exact Ip|]. rewrite Es.
          apply always_In; auto. exact (W_len _ _ _ _ _ Wb).
      - intros p i f t v I Ef Et Ev. destruct (J_pats _ _ _ _ J p i I) as (Ip & G & U).
        replace (sel_pat d p (obj_of fs parts vs)) with (seg fs vs (PField i)); [eapply seg_map; eassumption|].
        unfold sel_pat, obj_of. rewrite !concat_filter. symmetry.
        erewrite (concat_one code _ (PField i)).
        + destruct (map_type i) as (f' & t' & Ef' & Et' & Si). { apply in_app_iff. left. change i with (snd (p, i)). apply in_map. exact I. }
          assert (K : forall kj, In kj (seg fs vs (PField i)) -> matches p (fst kj) = true).
          { intros [k j] Ik. pose proof (W_ok _ _ _ _ _ W i f v Ef Ev) as Ov. apply matches_legal. apply (proj2 (fo_pat _ _ _ _ _ _ Ov p I)).
            apply keys_In in Ik. rewrite (entries_keys _ _ _ (seg_map i f t v Ip Ef Ev Et)) in Ik. unfold map_keys. unfold mapof in Ik. destruct v; auto. }
          assert (X1 : filter (fun kj => negb (gone d (fst kj))) (seg fs vs (PField i)) = seg fs vs (PField i)).
          { apply forallb_filter_id. rewrite forallb_forall. intros kj Ik. apply negb_true_iff. destruct (gone d (fst kj)) eqn:Gk; [|reflexivity].
               specialize (K kj Ik). rewrite (G _ Gk) in K. discriminate. }
          rewrite X1. apply forallb_filter_id. rewrite forallb_forall. exact K.
        + exact (J_codes _ _ _ _ J).
        + exact Ip.
        + intros q Iq Nq. cbn [code] in Nq. destruct (J_class _ _ _ _ J _ Iq) as [c Ec].
          destruct (filter _ _) as [|[k j] r] eqn:Fq; [reflexivity|]. exfalso.
          assert (X : In (k, j) ((k, j) :: r)) by (left; reflexivity). rewrite <- Fq in X. apply filter_In in X. destruct X as [X Mk].
          apply filter_In in X. destruct X as [X Gk]. cbn [fst] in *. apply negb_true_iff in Gk.
          rewrite (class_unsel_ok d p c k (U q c Iq Nq Ec)) in Mk; [discriminate| |exact Gk].
          eapply seg_class; try eassumption. eapply keys_In. exact X.
        + intros q Iq E. apply code_inj; auto.
      - intros i f t v I Ef Et Ev. destruct (J_addl _ _ _ _ J i I) as (Ip & Dc & Dk & U).
        replace (sel_left d (obj_of fs parts vs)) with (seg fs vs (PField i)); [eapply seg_map; eassumption|].
        unfold sel_left, obj_of. rewrite !concat_filter. symmetry.
        erewrite (concat_one code _ (PField i)).
        + assert (K : forall kj, In kj (seg fs vs (PField i)) -> matched d (fst kj) = false).
          { intros [k j] Ik. pose proof (W_ok _ _ _ _ _ W i f v Ef Ev) as Ov. cbn [fst].
            apply not_true_iff_false. intros Mk. unfold matched in Mk. apply existsb_exists in Mk. destruct Mk as ([p x] & Ipx & Mk). cbn [fst] in Mk.
            apply matches_legal in Mk. revert Mk. apply (proj2 (fo_addl _ _ _ _ _ _ Ov I) k p x); [|exact Ipx].
            apply keys_In in Ik. rewrite (entries_keys _ _ _ (seg_map i f t v Ip Ef Ev Et)) in Ik. unfold map_keys. unfold mapof in Ik. destruct v; auto. }
          assert (X1 : filter (fun kj => negb (gone d (fst kj))) (seg fs vs (PField i)) = seg fs vs (PField i)).
          { apply forallb_filter_id. rewrite forallb_forall. intros kj Ik. unfold gone. rewrite Dc, Dk. reflexivity. }
          rewrite X1. apply forallb_filter_id. rewrite forallb_forall. intros kj Ik. rewrite (K kj Ik). reflexivity.
        + exact (J_codes _ _ _ _ J).
        + exact Ip.
        + intros q Iq Nq. cbn [code] in Nq. destruct (J_class _ _ _ _ J _ Iq) as [c Ec].
          destruct (filter _ _) as [|[k j] r] eqn:Fq; [reflexivity|]. exfalso.
          assert (X : In (k, j) ((k, j) :: r)) by (left; reflexivity). rewrite <- Fq in X. apply filter_In in X. destruct X as [X Mk].
          apply filter_In in X. destruct X as [X Gk]. cbn [fst] in *. apply negb_true_iff in Gk, Mk.
          assert (Z : gone d k || matched d k = true).
          { eapply class_covered_ok; [exact (U q c Iq Nq Ec)|]. eapply seg_class; try eassumption. eapply keys_In. exact X. }
          rewrite Gk, Mk in Z. discriminate.
        + intros q Iq E. apply code_inj; auto.
      - intros C A. unfold sel_left, obj_of. rewrite !concat_filter. apply concat_none. intros q Iq.
        destruct (J_class _ _ _ _ J _ Iq) as [c Ec].
        destruct (filter _ _) as [|[k j] r] eqn:Fq; [reflexivity|]. exfalso.
        assert (X : In (k, j) ((k, j) :: r)) by (left; reflexivity). rewrite <- Fq in X. apply filter_In in X. destruct X as [X Mk].
        apply filter_In in X. destruct X as [X Gk]. cbn [fst] in *. apply negb_true_iff in Gk, Mk.
        assert (Z : gone d k || matched d k = true).
        { eapply class_covered_ok; [exact (J_closed _ _ _ _ J C A q c Iq Ec)|]. eapply seg_class; try eassumption. eapply keys_In. exact X. }
        rewrite Gk, Mk in Z. discriminate.
    Qed.

    Lemma seg_nodup_simple p : In p parts -> match p with PField _ => False | _ => True end -> NoDup (map fst (seg fs vs p)).
    Proof.
      intros Ip S. destruct p as [m| |]; [| |destruct S].
      - rewrite seg_const. pose proof (J_consts _ _ _ _ J) as N. clear - Ip N. induction parts as [|q l IH]; [destruct Ip|].
        unfold const_members in N. cbn [flat_map] in N. fold (const_members l) in N. rewrite map_app in N.
        destruct Ip as [->|Ip]; [eapply NoDup_app_l; exact N|]. apply IH; [exact Ip|]. eapply NoDup_app_r; exact N.
      - destruct (seg_struct fs vs (JN _ Ip)) as (m & Em & ->). eapply enc_fields_nodup; [exact Em|exact (J_fkeys _ _ _ _ J)].
    Qed.
  End Joined.
End Ent.
