(* What the builder methods do to the JSON that is written: proofs. *)
From Coq Require Import Lia.
From Verif Require Import Str SMap Json CodecModel CodecTables CodecObjSpec CodecProofs CodecEnc CodecRound CodecDis CodecRT CodecStrict CodecCheck CodecWrite CodecMembers CodecSpec CodecTypeSpec BuildModel BuildTables BuildSpec BuildProofs.

Definition blank_ty (t : ty) : bool := match t with TArr _ | TMap _ => true | _ => false end.

(* A member [k] of an object of type [n], with values of type [t], can be set. *)
Definition memb_at (M : list (string * list (string * meth))) (n k : string) (t : ty) (req : bool) (fs : list field) (i : nat) : bool :=
  match nth_error fs i with
  | Some f =>
      match f_key f with
      | Some k' =>
          String.eqb k k' && spelledb k (f_name f) && negb (f_omit f && req) && negb (is_skip (f_ty f)) &&
          (negb (f_omit f) || blank_ty (f_ty f) || ty_eqb (f_ty f) (TPtr t)) &&
          match method M n ("With" ^^ f_name f) with
          | Some b => match m_val b with Some a => ty_eqb a t | None => false end
          | None => false
          end
      | None => false
      end
  | None => false
  end.
Definition memb (P : package) (n k : string) (t : ty) (req : bool) : bool :=
  match get n (p_types P) with
  | Some (EStruct fs parts _) => parts_ok fs parts && existsb (memb_at (p_meths P) n k t req fs) (seq 0 (length fs))
  | _ => false
  end.
Definition membs_ok (P : package) : bool :=
  forallb (fun no => forallb (fun nm => negb (String.eqb (fst no) (fst nm)) ||
    forallb (fun kt => in_list (fst kt) (map fst (o_const (snd no))) || memb P (fst no) (fst kt) (snd kt) (in_list (fst kt) (o_req (snd no)))) (snd nm)) (p_members P)) (p_objects P).

Definition pat_at (p : pat) (name : string) (t : ty) (fs : list field) (parts : list part) (i : nat) : bool :=
  match nth_error fs i with
  | Some f =>
      String.eqb (f_name f) name && match f_key f with None => true | _ => false end && ty_eqb (f_ty f) (TMap t) &&
      once (part_field i) parts && forallb (fun k => negb (matches p k)) (keys_of fs) &&
      forallb (fun q => match q with PConst c => forallb (fun kj => negb (matches p (fst kj))) c | _ => true end) parts
  | None => false
  end.
Definition pats_ok (P : package) : bool :=
  forallb (fun no => match get (fst no) (p_types P) with
    | Some (EStruct fs parts _) => parts_ok fs parts &&
        forallb (fun pt => existsb (pat_at (fst pt) (fst (snd pt)) (snd (snd pt)) fs parts) (seq 0 (length fs))) (o_pats (snd no))
    | _ => false
    end) (p_objects P).

Definition alt_at (t : ty) (fs : list field) (parts : list part) (i : nat) : bool :=
  match nth_error fs i with
  | Some f => String.eqb (f_name f) (alt_name t) && ty_eqb (f_ty f) (TPtr t) && once (part_field i) parts
  | None => false
  end.
Definition field_part (n : nat) (p : part) : bool := match p with PField i => Nat.ltb i n | _ => false end.
Definition is_ptr (t : ty) : bool := match t with TPtr _ => true | _ => false end.
Definition choice_ok (P : package) : bool :=
  forallb (fun nt => match get (fst nt) (p_types P) with
    | Some (EStruct fs parts _) =>
        forallb (field_part (length fs)) parts && forallb (fun f => is_ptr (f_ty f)) fs &&
        forallb (fun t => match t with
                          | TPtr a => match a with TNamed _ | TBool => true | _ => false end &&
                              match method (p_meths P) (fst nt) ("With" ^^ alt_name a) with
                              | Some b => match m_val b with Some a' => ty_eqb a' a | None => false end | None => false end &&
                              existsb (alt_at a fs parts) (seq 0 (length fs))
                          | _ => false end) (snd nt)
    | _ => false
    end) (p_choices P).

Lemma membs30 : membs_ok v30 = true. Proof. vm_compute. reflexivity. Qed.
Lemma membs31 : membs_ok v31 = true. Proof. vm_compute. reflexivity. Qed.
Lemma pats30 : pats_ok v30 = true. Proof. vm_compute. reflexivity. Qed.
Lemma pats31 : pats_ok v31 = true. Proof. vm_compute. reflexivity. Qed.
Lemma choice30 : choice_ok v30 = true. Proof. vm_compute. reflexivity. Qed.
Lemma choice31 : choice_ok v31 = true. Proof. vm_compute. reflexivity. Qed.

Lemma packs_of P : In P packages -> In (p_types P, p_meths P) packs.
Proof. intros [<-|[<-|[]]]; [left|right; left]; reflexivity. Qed.
Lemma membs_of P : In P packages -> membs_ok P = true.
Proof. intros [<-|[<-|[]]]; [exact membs30|exact membs31]. Qed.
Lemma pats_of P : In P packages -> pats_ok P = true.
Proof. intros [<-|[<-|[]]]; [exact pats30|exact pats31]. Qed.
Lemma choice_of P : In P packages -> choice_ok P = true.
Proof. intros [<-|[<-|[]]]; [exact choice30|exact choice31]. Qed.

Lemma unused_set T k name i f w : forall fs vs, nth_error fs i = Some f -> f_key f <> None \/ Some (f_name f) = name -> unused_but T name k fs vs -> unused_but T name k fs (set_nth i w vs).
Proof.
  induction i as [|i IH]; intros [|f0 fs] [|v vs] Ef Ek U; try discriminate; cbn [set_nth unused_but] in *; try exact U.
  - cbn in Ef. injection Ef as ->. destruct U as [_ U]. split; [intros X Y; destruct Ek; congruence|exact U].
  - destruct U as [U0 U]. split; [exact U0|]. exact (IH fs vs Ef Ek U).
Qed.

Lemma unused_without T k i f : forall fs vs, NoDup (map f_name fs) -> nth_error fs i = Some f -> unused_but T (Some (f_name f)) k fs vs -> unused T k fs (set_nth i VNil vs).
Proof.
  unfold unused. induction i as [|i IH]; intros [|f0 fs] [|v vs] N Ef U; try discriminate; cbn [set_nth unused_but] in *; try exact I.
  - cbn in Ef. injection Ef as ->. destruct U as [_ U]. split; [intros _ _ r R; left; cbn [marshal enc] in R; unfold marshal in R; cbn [enc] in R; destruct (f_ty f); try discriminate R; injection R as <-; reflexivity|].
    inversion N as [|x l NI N']; subst. clear N N'.
    revert vs U. induction fs as [|f1 fs IH]; intros [|v1 vs] U; cbn [unused_but] in *; try exact I. destruct U as [U1 U]. split.
    + intros X _. apply U1; [exact X|]. intros E. injection E as E. apply NI. left. exact E.
    + apply IH; [|exact U]. intros I. apply NI. right. exact I.
  - cbn in Ef. inversion N as [|x l NI N']; subst. destruct U as [U0 U]. split.
    + intros X _. apply U0; [exact X|]. intros E. injection E as E. apply NI. rewrite E. apply in_map. eapply nth_error_In. exact Ef.
    + exact (IH fs vs N' Ef U).
Qed.

Lemma holds_enc T t a x w j : holds t a x w -> enc T x a = Some j -> enc T w t = Some j.
Proof. intros [[-> ->]|[-> ->]] E; exact E. Qed.

Lemma fields_get T n fs parts d : get n T = Some (EStruct fs parts d) -> fields_of T n = fs.
Proof. unfold fields_of. intros ->. reflexivity. Qed.

Lemma memb_parts P n o ms k t : In P packages -> In (n, o) (p_objects P) -> In (n, ms) (p_members P) -> In (k, t) ms -> ~ In k (map fst (o_const o)) ->
  exists fs parts d i f b, get n (p_types P) = Some (EStruct fs parts d) /\ parts_ok fs parts = true /\
    nth_error fs i = Some f /\ f_key f = Some k /\ spelled k (f_name f) /\ f_ty f <> TSkip /\
    method (p_meths P) n ("With" ^^ f_name f) = Some b /\ m_val b = Some t /\ (In k (o_req o) -> f_omit f = false) /\
    (f_omit f = true -> blank_ty (f_ty f) = true \/ f_ty f = TPtr t).
Proof.
  intros HP Io Im Ik Nc. pose proof (membs_of P HP) as C. unfold membs_ok in C. rewrite forallb_forall in C. specialize (C _ Io).
  rewrite forallb_forall in C. specialize (C _ Im). cbn [fst snd] in C. rewrite String.eqb_refl in C. cbn [negb orb] in C.
  rewrite forallb_forall in C. specialize (C _ Ik). cbn [fst snd] in C. apply orb_prop in C. destruct C as [C|C]; [apply in_list_In in C; contradiction|].
  unfold memb in C. destruct (get n (p_types P)) as [[vals|fs parts d]|] eqn:G; try discriminate C.
  apply andb_prop in C. destruct C as [Cp C]. apply existsb_exists in C. destruct C as (i & _ & C). unfold memb_at in C.
  destruct (nth_error fs i) as [f|] eqn:Ef; [|discriminate C]. destruct (f_key f) as [k'|] eqn:Ek; [|discriminate C].
  rewrite !andb_true_iff in C. destruct C as [[[[[C1 C2] C3] C4] C5] C6]. apply String.eqb_eq in C1. subst k'.
  destruct (method (p_meths P) n ("With" ^^ f_name f)) as [b|] eqn:Eb; [|discriminate C6].
  destruct (m_val b) as [a|] eqn:Ea; [|discriminate C6]. apply ty_eqb_eq in C6. subst a.
  exists fs, parts, d, i, f, b. split; [reflexivity|]. split; [exact Cp|]. split; [exact Ef|]. split; [exact Ek|]. split; [apply spelledb_ok; exact C2|].
  split; [intros X; rewrite X in C4; discriminate C4|]. split; [exact Eb|]. split; [exact Ea|]. split.
  - intros I. apply in_list_In in I. rewrite I in C3. destruct (f_omit f); [discriminate C3|reflexivity].
  - intros O. rewrite O in C5. cbn [negb orb] in C5. apply orb_prop in C5. destruct C5 as [C5|C5]; [left; exact C5|right; apply ty_eqb_eq; exact C5].
Qed.

Lemma empty_blank T w t j : is_empty w = true -> blank_ty t = true -> enc T w t = Some j -> blank w.
Proof.
  unfold blank. intros E B J. destruct w; destruct t; try discriminate B; cbn [enc] in J; try discriminate J; try (left; reflexivity).
  all: match goal with |- context [VArr ?l] => destruct l; [right; left; reflexivity|discriminate E] | |- context [VMap ?l] => destruct l; [right; right; reflexivity|discriminate E] end.
Qed.

Theorem member_set P n o ms k t : In P packages -> In (n, o) (p_objects P) -> In (n, ms) (p_members P) -> In (k, t) ms -> ~ In k (map fst (o_const o)) ->
  exists name b, spelled k name /\ method (p_meths P) n ("With" ^^ name) = Some b /\ m_val b = Some t /\
    forall vs x key, length vs = length (fields_of (p_types P) n) -> exists vs', call (p_types P) (fields_of (p_types P) n) key x b vs = Some (vs', None) /\
      forall j, unused (p_types P) k (fields_of (p_types P) n) vs -> marshal (p_types P) t x = Some j ->
        (forall r, marshal (p_types P) (TNamed n) (VStruct vs') = Some r -> exists es, r = JObj es /\
           (under_key k es = [j] \/ ~ In k (o_req o) /\ blank x /\ under_key k es = [])) /\
        (forall es, marshal (p_types P) (TNamed n) (VStruct vs) = Some (JObj es) -> exists es', marshal (p_types P) (TNamed n) (VStruct vs') = Some (JObj es') /\
           forall k', k' <> k -> under_key k' es' = under_key k' es).
Proof.
  intros HP Io Im Ik Nc. destruct (memb_parts P n o ms k t HP Io Im Ik Nc) as (fs & parts & d & i & f & b & G & Cp & Ef & Ek & Sp & Ns & Eb & Ea & Rq & Om).
  exists (f_name f), b. split; [exact Sp|]. split; [exact Eb|]. split; [exact Ea|]. rewrite (fields_get _ _ _ _ _ G).
  intros vs x key L. destruct (setter _ _ (packs_of P HP) n fs parts d G i f Ef Ns) as (b' & a & Eb' & Ea' & S).
  rewrite Eb in Eb'. injection Eb' as <-. rewrite Ea in Ea'. injection Ea' as <-. destruct (S vs x key) as (w & Hw & Ec).
  exists (set_nth i w vs). split; [exact Ec|]. intros j U Ej. unfold marshal in *. pose proof (holds_enc _ _ _ _ _ _ Hw Ej) as Ew.
  assert (Li : i < length vs) by (rewrite L; apply nth_error_Some; rewrite Ef; discriminate).
  assert (U' : unused (p_types P) k fs (set_nth i w vs)) by (apply (unused_set _ k None i f w fs vs Ef); [left; rewrite Ek; discriminate|exact U]).
  split.
  - intros r Er. destruct (member _ n fs parts d G Cp i f k w (set_nth i w vs) r Ef Ek (nth_set_same _ _ _ Li) U' Er) as (es & -> & [[O K]|[O (j' & Ej' & K)]]).
    + exists es. split; [reflexivity|]. right. apply andb_prop in O. destruct O as [O1 O2]. split; [intros I; rewrite (Rq I) in O1; discriminate O1|].
      split; [|exact K]. destruct (Om O1) as [B|B].
      * pose proof (empty_blank _ _ _ _ O2 B Ew) as Bw. destruct Hw as [[_ ->]|[X _]]; [exact Bw|rewrite X in B; discriminate B].
      * destruct Hw as [[X ->]|[_ ->]]; [|discriminate O2]. rewrite B in X. exfalso. clear - X. assert (H : forall u, TPtr u <> u) by (induction u; congruence). exact (H t X).
    + exists es. split; [reflexivity|]. left. rewrite Ew in Ej'. injection Ej' as <-. exact K.
  - intros es E. eapply (set_member _ n fs parts d G Cp i f k w j vs es Ef Ek Ew); [| |exact E].
    + exact (unused_plain (p_types P) fs k vs U).
    + exact (unused_plain (p_types P) fs k _ U').
Qed.

Lemma by_name_nth name : forall fs vs t v, by_name name fs vs = Some (t, v) -> exists i f, nth_error fs i = Some f /\ f_name f = name /\ f_ty f = t /\ nth_error vs i = Some v.
Proof.
  induction fs as [|f fs IH]; intros [|v0 vs] t v E; cbn [by_name] in E; try discriminate E. destruct (String.eqb (f_name f) name) eqn:X.
  - injection E as <- <-. apply String.eqb_eq in X. exists 0, f. repeat split; try reflexivity. exact X.
  - destruct (IH vs t v E) as (i & f' & A & B). exists (S i), f'. split; [exact A|exact B].
Qed.

Lemma names_nodup P n fs parts d : In P packages -> get n (p_types P) = Some (EStruct fs parts d) -> NoDup (map f_name fs).
Proof.
  intros HP G. pose proof (builds _ _ _ _ _ _ (packs_of P HP) G) as C. unfold ent_builds in C. cbn [snd fst] in C. apply andb_prop in C.
  destruct C as [C _]. apply nodups_ok. exact C.
Qed.

Lemma by_name_at fs vs i f name t v : NoDup (map f_name fs) -> nth_error fs i = Some f -> f_name f = name -> by_name name fs vs = Some (t, v) -> f_ty f = t /\ nth_error vs i = Some v.
Proof.
  intros N Ef En E. destruct (by_name_nth name fs vs t v E) as (i' & f' & Ef' & En' & Et' & Ev').
  pose proof (position_nodup fs i f N Ef) as A. pose proof (position_nodup fs i' f' N Ef') as B. rewrite En in A. rewrite En' in B. rewrite A in B. injection B as <-.
  rewrite Ef in Ef'. injection Ef' as <-. split; assumption.
Qed.

Theorem pattern_set P n o p name t : In P packages -> In (n, o) (p_objects P) -> In (p, (name, t)) (o_pats o) ->
  exists b, method (p_meths P) n ("With" ^^ name ^^ "Item") = Some b /\ m_val b = Some t /\
    forall vs x key v m, by_name name (fields_of (p_types P) n) vs = Some (TMap t, v) -> holds_map v m -> exists vs',
      call (p_types P) (fields_of (p_types P) n) key x b vs = Some (vs', None) /\
      forall j es, NoDup (map fst m) -> legal p key -> unused_but (p_types P) (Some name) key (fields_of (p_types P) n) vs -> marshal (p_types P) t x = Some j ->
        marshal (p_types P) (TNamed n) (VStruct vs) = Some (JObj es) ->
        exists es', marshal (p_types P) (TNamed n) (VStruct vs') = Some (JObj es') /\
          under_key key es' = [j] /\ forall k', k' <> key -> under_key k' es' = under_key k' es.
Proof.
  intros HP Io Ip. pose proof (pats_of P HP) as C. unfold pats_ok in C. rewrite forallb_forall in C. specialize (C _ Io). cbn [fst snd] in C.
  destruct (get n (p_types P)) as [[vals|fs parts d]|] eqn:G; try discriminate C. apply andb_prop in C. destruct C as [Cp C].
  rewrite forallb_forall in C. specialize (C _ Ip). cbn [fst snd] in C. apply existsb_exists in C. destruct C as (i & _ & C). unfold pat_at in C.
  destruct (nth_error fs i) as [f|] eqn:Ef; [|discriminate C]. rewrite !andb_true_iff in C. destruct C as [[[[[C1 C2] C3] C4] C5] C6].
  apply String.eqb_eq in C1. apply ty_eqb_eq in C3. destruct (f_key f) as [|] eqn:Ek; [discriminate C2|].
  destruct (item_setter _ _ (packs_of P HP) n fs parts d G i f Ef t C3) as (b & Eb & Ea & S). rewrite C1 in Eb.
  exists b. split; [exact Eb|]. split; [exact Ea|]. rewrite (fields_get _ _ _ _ _ G). intros vs x key v m Bn V.
  destruct (by_name_at fs vs i f name _ v (names_nodup P n fs parts d HP G) Ef C1 Bn) as [_ Ev].
  assert (L : i < length vs) by (apply nth_error_Some; rewrite Ev; discriminate).
  assert (V' : nth_error vs i = Some VNil /\ m = [] \/ nth_error vs i = Some (VMap m)) by (destruct V as [[-> ->]| ->]; [left; split; [exact Ev|reflexivity]|right; exact Ev]).
  exists (set_nth i (VMap (put key x m)) vs). split; [exact (S vs x key m L V')|]. intros j es ND Lg U Ej E. unfold marshal in *.
  apply matches_legal in Lg.
  eapply (set_item _ n fs parts d G Cp i f t key x j vs es m Ef Ek C3 C4); try eassumption.
  - intros I. rewrite forallb_forall in C5. specialize (C5 _ I). rewrite Lg in C5. discriminate C5.
  - intros c kj I J X. rewrite forallb_forall in C6. specialize (C6 _ I). cbn in C6. rewrite forallb_forall in C6. specialize (C6 _ J). rewrite X, Lg in C6. discriminate C6.
  - apply (unused_without _ key i f fs vs (names_nodup P n fs parts d HP G) Ef). rewrite C1. exact U.
Qed.

Lemma put_nonempty {A} k (x : A) m : put k x m <> [].
Proof. destruct m as [|[k' v'] m]; cbn [put]; [discriminate|]. destruct (String.eqb k k'); discriminate. Qed.

(* Entries of a member that is a map. *)
Theorem entry_set P n o ms k t : In P packages -> In (n, o) (p_objects P) -> In (n, ms) (p_members P) -> In (k, TMap t) ms -> ~ In k (map fst (o_const o)) ->
  exists name b, spelled k name /\ method (p_meths P) n ("With" ^^ name ^^ "Item") = Some b /\ m_val b = Some t /\
    forall vs x key v m, by_name name (fields_of (p_types P) n) vs = Some (TMap t, v) -> holds_map v m -> exists vs',
      call (p_types P) (fields_of (p_types P) n) key x b vs = Some (vs', None) /\
      forall j entries es, NoDup (map fst m) -> unused (p_types P) k (fields_of (p_types P) n) vs -> marshal (p_types P) t x = Some j ->
        marshal (p_types P) (TMap t) (VMap m) = Some (JObj entries) ->
        marshal (p_types P) (TNamed n) (VStruct vs) = Some (JObj es) ->
        exists es' entries', marshal (p_types P) (TNamed n) (VStruct vs') = Some (JObj es') /\
          under_key k es' = [JObj entries'] /\ (forall k', k' <> k -> under_key k' es' = under_key k' es) /\
          under_key key entries' = [j] /\ (forall key', key' <> key -> under_key key' entries' = under_key key' entries).
Proof.
  intros HP Io Im Ik Nc. destruct (memb_parts P n o ms k (TMap t) HP Io Im Ik Nc) as (fs & parts & d & i & f & b0 & G & Cp & Ef & Ek & Sp & Ns & Eb0 & Ea0 & Rq & Om).
  destruct (setter _ _ (packs_of P HP) n fs parts d G i f Ef Ns) as (b' & a & Eb' & Ea' & S0).
  rewrite Eb0 in Eb'. injection Eb' as <-. rewrite Ea0 in Ea'. injection Ea' as <-.
  exists (f_name f).
  assert (C : f_ty f = TMap t \/ f_ty f = TPtr (TMap t)) by (destruct (S0 [] VNil "") as (w & [[X _]|[X _]] & _); [left|right]; exact X).
  destruct C as [Et|Et].
  - destruct (item_setter _ _ (packs_of P HP) n fs parts d G i f Ef t Et) as (b & Eb & Ea & S).
    exists b. split; [exact Sp|]. split; [exact Eb|]. split; [exact Ea|]. rewrite (fields_get _ _ _ _ _ G). intros vs x key v m Bn V.
    destruct (by_name_at fs vs i f (f_name f) _ v (names_nodup P n fs parts d HP G) Ef eq_refl Bn) as [_ Ev].
    assert (L : i < length vs) by (apply nth_error_Some; rewrite Ev; discriminate).
    assert (V' : nth_error vs i = Some VNil /\ m = [] \/ nth_error vs i = Some (VMap m)) by (destruct V as [[-> ->]| ->]; [left; split; [exact Ev|reflexivity]|right; exact Ev]).
    exists (set_nth i (VMap (put key x m)) vs). split; [exact (S vs x key m L V')|]. intros j entries es ND U Ej Em E. unfold marshal in *.
    cbn [enc] in Em. destruct (seq_opt (map _ m)) as [es0|] eqn:E0; [|discriminate Em]. injection Em as <-.
    destruct (map_put _ t key x j Ej m es0 ND E0) as (entries' & E1 & A1 & B1).
    assert (Ew : enc (p_types P) (VMap (put key x m)) (f_ty f) = Some (JObj entries')) by (rewrite Et; cbn [enc]; rewrite E1; reflexivity).
    assert (U' : unused (p_types P) k fs (set_nth i (VMap (put key x m)) vs)) by (apply (unused_set _ k None i f _ fs vs Ef); [left; rewrite Ek; discriminate|exact U]).
    destruct (set_member _ n fs parts d G Cp i f k _ _ vs es Ef Ek Ew (unused_plain (p_types P) fs k vs U) (unused_plain (p_types P) fs k _ U') E) as (es' & E' & O).
    exists es', entries'. split; [exact E'|]. split; [|split; [exact O|split; [exact A1|exact B1]]].
    destruct (member _ n fs parts d G Cp i f k _ _ _ Ef Ek (nth_set_same _ _ _ L) U' E') as (es2 & X & [[Oe _]|[_ (j' & Ej' & K)]]); injection X as <-.
    + exfalso. apply andb_prop in Oe. destruct Oe as [_ Oe]. pose proof (put_nonempty key x m). cbn [is_empty] in Oe. destruct (put key x m); [congruence|discriminate Oe].
    + rewrite Ew in Ej'. injection Ej' as <-. exact K.
  - exfalso. clear - HP G Ef Et. destruct HP as [<-|[<-|[]]].
    + assert (X : forallb (fun ne => match snd ne with EStruct fs _ _ => forallb (fun f => match f_ty f with TPtr (TMap _) => false | _ => true end) fs | _ => true end) T30 = true) by (vm_compute; reflexivity).
      rewrite forallb_forall in X. specialize (X _ (get_In_pair _ _ _ G)). cbn in X. rewrite forallb_forall in X. specialize (X _ (nth_error_In _ _ Ef)). rewrite Et in X. discriminate X.
    + assert (X : forallb (fun ne => match snd ne with EStruct fs _ _ => forallb (fun f => match f_ty f with TPtr (TMap _) => false | _ => true end) fs | _ => true end) T31 = true) by (vm_compute; reflexivity).
      rewrite forallb_forall in X. specialize (X _ (get_In_pair _ _ _ G)). cbn in X. rewrite forallb_forall in X. specialize (X _ (nth_error_In _ _ Ef)). rewrite Et in X. discriminate X.
Qed.

Lemma split_once {A} (q : A -> bool) : forall l, once q l = true -> exists l1 p l2, l = l1 ++ p :: l2 /\ q p = true /\ forall p', In p' (l1 ++ l2) -> q p' = false.
Proof.
  unfold once. induction l as [|p l IH]; intros H; [discriminate H|]. cbn [filter] in H. destruct (q p) eqn:E.
  - cbn [length] in H. apply Nat.eqb_eq in H. injection H as H. apply length_zero_iff_nil in H. exists [], p, l. split; [reflexivity|]. split; [exact E|].
    intros p' I. destruct (q p') eqn:X; [|reflexivity]. assert (Y : In p' (filter q l)) by (apply filter_In; split; assumption). rewrite H in Y. destruct Y.
  - destruct (IH H) as (l1 & p0 & l2 & -> & A1 & A2). exists (p :: l1), p0, l2. split; [reflexivity|]. split; [exact A1|].
    intros p' [<-|I]; [exact E|]. apply A2. exact I.
Qed.

Lemma alt_notnull T x a j : match a with TNamed _ | TBool => true | _ => false end = true -> enc T x a = Some j -> j <> JNull.
Proof.
  destruct a as [| | | | | | | | |name]; intros H E; try discriminate H.
  - destruct x; cbn [enc] in E; try discriminate E. injection E as <-. discriminate.
  - destruct x; cbn [enc] in E; try discriminate E.
    + destruct (get name T) as [[vals|]|]; try discriminate E. destruct (in_list s vals); [|discriminate E]. injection E as <-. discriminate.
    + destruct (get name T) as [[vals|fs parts d]|]; try discriminate E. destruct (seq_opt _); [|discriminate E]. exact (junion_loop_notnull _ _ _ E).
Qed.

Theorem choice_set P n ts a : In P packages -> In (n, ts) (p_choices P) -> In (TPtr a) ts ->
  exists b, method (p_meths P) n ("With" ^^ alt_name a) = Some b /\ m_val b = Some a /\
    forall vs x key, length vs = length (fields_of (p_types P) n) -> (forall v, In v vs -> v = VNil) -> exists vs',
      call (p_types P) (fields_of (p_types P) n) key x b vs = Some (vs', None) /\
      forall j, marshal (p_types P) a x = Some j -> marshal (p_types P) (TNamed n) (VStruct vs') = Some j.
Proof.
  intros HP In_ Ia. pose proof (choice_of P HP) as C. unfold choice_ok in C. rewrite forallb_forall in C. specialize (C _ In_). cbn [fst snd] in C.
  destruct (get n (p_types P)) as [[vals|fs parts d]|] eqn:G; try discriminate C. rewrite !andb_true_iff in C. destruct C as [[Cp Cf] C].
  rewrite forallb_forall in C. specialize (C _ Ia). cbv beta iota in C. rewrite !andb_true_iff in C. destruct C as [[Ck Cm] C].
  apply existsb_exists in C. destruct C as (i & _ & C). unfold alt_at in C. destruct (nth_error fs i) as [f|] eqn:Ef; [|discriminate C].
  rewrite !andb_true_iff in C. destruct C as [[C1 C2] C3]. apply String.eqb_eq in C1. apply ty_eqb_eq in C2.
  assert (Ns : f_ty f <> TSkip) by (rewrite C2; discriminate).
  destruct (setter _ _ (packs_of P HP) n fs parts d G i f Ef Ns) as (b & a' & Eb & Ea & S). rewrite C1 in Eb. rewrite Eb, Ea in Cm. apply ty_eqb_eq in Cm. subst a'.
  exists b. split; [exact Eb|]. split; [exact Ea|]. rewrite (fields_get _ _ _ _ _ G). intros vs x key L N. destruct (S vs x key) as (w & Hw & Ec).
  exists (set_nth i w vs). split; [exact Ec|]. intros j Ej. unfold marshal in *.
  assert (W : w = VPtr x).
  { destruct Hw as [[X _]|[_ X]]; [|exact X]. exfalso. rewrite C2 in X. assert (H : forall u, TPtr u <> u) by (induction u; congruence). exact (H a X). }
  assert (Li : i < length vs) by (rewrite L; apply nth_error_Some; rewrite Ef; discriminate).
  rewrite (enc_struct _ n fs parts d G).
  assert (E : seq_opt (map (enc_part fs (pairs (p_types P) (set_nth i w vs))) parts) = Some (map (fun p => if part_field i p then j else JNull) parts)).
  { apply Forall2_seq_opt. clear C3 G. induction parts as [|p parts IH]; [apply Forall2_nil|]. cbn [forallb] in Cp. apply andb_prop in Cp. destruct Cp as [C0 Cp].
    apply Forall2_cons; [|exact (IH Cp)]. destruct p as [ | |k]; try discriminate C0. cbn [field_part] in C0. apply Nat.ltb_lt in C0. cbn [enc_part part_field].
    unfold pairs. rewrite nth_error_map. destruct (Nat.eqb k i) eqn:X.
    - apply Nat.eqb_eq in X. subst k. rewrite Ef, nth_set_same by exact Li. cbn [option_map]. rewrite C2, W. exact Ej.
    - apply Nat.eqb_neq in X. rewrite nth_set_other by exact X. destruct (nth_error fs k) as [f'|] eqn:Ef'; [|apply nth_error_None in Ef'; lia].
      destruct (nth_error vs k) as [v|] eqn:Ev; [|apply nth_error_None in Ev; lia]. cbn [option_map]. rewrite (N v (nth_error_In _ _ Ev)).
      rewrite forallb_forall in Cf. specialize (Cf _ (nth_error_In _ _ Ef')). cbn [enc]. destruct (f_ty f'); try discriminate Cf. reflexivity. }
  rewrite E. destruct (split_once _ _ C3) as (l1 & p & l2 & Es & Ep & Eo). rewrite Es, map_app. cbn [map]. rewrite Ep.
  apply junion_one; [|exact (alt_notnull _ _ _ _ Ck Ej)]. intros j' I. rewrite <- map_app in I. apply in_map_iff in I. destruct I as (p' & <- & I).
  rewrite (Eo p' I). reflexivity.
Qed.

(* ---------- fields ---------- *)

Theorem field_set P n fs parts d i f : In P packages -> get n (p_types P) = Some (EStruct fs parts d) -> nth_error fs i = Some f -> f_ty f <> TSkip ->
  exists b a, method (p_meths P) n ("With" ^^ f_name f) = Some b /\ m_val b = Some a /\
    forall vs x key, length vs = length fs -> exists w vs', holds (f_ty f) a x w /\ call (p_types P) fs key x b vs = Some (vs', None) /\ updated i w vs vs'.
Proof.
  intros HP G Ef Ns. destruct (setter _ _ (packs_of P HP) n fs parts d G i f Ef Ns) as (b & a & Eb & Ea & S).
  exists b, a. split; [exact Eb|]. split; [exact Ea|]. intros vs x key L. destruct (S vs x key) as (w & Hw & Ec).
  exists w, (set_nth i w vs). split; [exact Hw|]. split; [exact Ec|]. apply set_updated. rewrite L. apply nth_error_Some. rewrite Ef. discriminate.
Qed.

Theorem field_item P n fs parts d i f t : In P packages -> get n (p_types P) = Some (EStruct fs parts d) -> nth_error fs i = Some f -> f_ty f = TMap t ->
  exists b, method (p_meths P) n ("With" ^^ f_name f ^^ "Item") = Some b /\ m_val b = Some t /\
    forall vs x key v m, nth_error vs i = Some v -> holds_map v m -> exists m' vs',
      call (p_types P) fs key x b vs = Some (vs', None) /\ updated i (VMap m') vs vs' /\
      get key m' = Some x /\ forall k, k <> key -> get k m' = get k m.
Proof.
  intros HP G Ef Et. destruct (item_setter _ _ (packs_of P HP) n fs parts d G i f Ef t Et) as (b & Eb & Ea & S).
  exists b. split; [exact Eb|]. split; [exact Ea|]. intros vs x key v m Ev V.
  assert (L : i < length vs) by (apply nth_error_Some; rewrite Ev; discriminate).
  exists (put key x m), (set_nth i (VMap (put key x m)) vs). split.
  - apply S; [exact L|]. destruct V as [[-> ->]| ->]; [left; split; [exact Ev|reflexivity]|right; exact Ev].
  - split; [apply set_updated; exact L|]. split; [apply get_put_same|]. intros k D. apply get_put_other. exact D.
Qed.

Theorem field_ensured P n fs parts d i f s fs' parts' d' : In P packages -> get n (p_types P) = Some (EStruct fs parts d) -> nth_error fs i = Some f ->
  f_ty f = TPtr (TNamed s) -> get s (p_types P) = Some (EStruct fs' parts' d') ->
  exists b, method (p_meths P) n (f_name f ^^ "Ens") = Some b /\ m_val b = None /\ forall vs x key,
    (forall w, nth_error vs i = Some (VPtr w) -> call (p_types P) fs key x b vs = Some (vs, Some (VPtr w))) /\
    (nth_error vs i = Some VNil -> exists w vs', call (p_types P) fs key x b vs = Some (vs', Some (VPtr w)) /\
       updated i (VPtr w) vs vs' /\ w = zero (p_types P) LVL (TNamed s)).
Proof.
  intros HP G Ef Et Gs. destruct (ens_getter _ _ (packs_of P HP) n fs parts d G i f Ef s fs' parts' d' Et Gs) as (b & Eb & Ea & S).
  exists b. split; [exact Eb|]. split; [exact Ea|]. intros vs x key. destruct (S vs x key) as [S1 S2]. split; [exact S1|].
  intros V. eexists _, _. split; [exact (S2 V)|]. split; [|reflexivity]. apply set_updated. apply nth_error_Some. rewrite V. discriminate.
Qed.

Theorem only_builders P n ms name b : In P packages -> In (n, ms) (p_meths P) -> In (name, b) ms ->
  exists fs parts d f, get n (p_types P) = Some (EStruct fs parts d) /\ In f fs /\
    (name = "With" ^^ f_name f \/ name = "With" ^^ f_name f ^^ "Item" \/ name = f_name f ^^ "Ens").
Proof.
  intros HP In_ Ib. assert (K : known_ok (p_types P) (p_meths P) = true) by (destruct HP as [<-|[<-|[]]]; [exact known30|exact known31]).
  unfold known_ok in K. rewrite forallb_forall in K. specialize (K _ In_). cbn [fst snd] in K.
  destruct (get n (p_types P)) as [[|fs parts d]|]; try discriminate K. rewrite forallb_forall in K. specialize (K _ Ib).
  apply existsb_exists in K. destruct K as (f & If & K). apply in_list_In in K. exists fs, parts, d, f. split; [reflexivity|]. split; [exact If|].
  destruct K as [K|[K|[K|[]]]]; auto.
Qed.

Lemma set_nth_comm {A} : forall i i' (w w' : A) vs, i <> i' -> set_nth i w (set_nth i' w' vs) = set_nth i' w' (set_nth i w vs).
Proof.
  induction i as [|i IH]; intros [|i'] w w' [|v vs] N; cbn [set_nth]; try reflexivity; try congruence. f_equal. apply IH. congruence.
Qed.
Lemma set_nth_twice {A} : forall i (w w' : A) vs, set_nth i w (set_nth i w' vs) = set_nth i w vs.
Proof. induction i as [|i IH]; intros w w' [|v vs]; cbn [set_nth]; try reflexivity. f_equal. apply IH. Qed.

(* The setters of a type, in any order; the last call for a field counts. *)
Theorem field_order P n fs parts d i f b i' f' b' : In P packages -> get n (p_types P) = Some (EStruct fs parts d) ->
  nth_error fs i = Some f -> f_ty f <> TSkip -> method (p_meths P) n ("With" ^^ f_name f) = Some b ->
  nth_error fs i' = Some f' -> f_ty f' <> TSkip -> method (p_meths P) n ("With" ^^ f_name f') = Some b' ->
  forall vs x x' key vs1 vs2, call (p_types P) fs key x b vs = Some (vs1, None) -> call (p_types P) fs key x' b' vs = Some (vs2, None) ->
    exists vs', call (p_types P) fs key x' b' vs1 = Some (vs', None) /\
      (i <> i' -> call (p_types P) fs key x b vs2 = Some (vs', None)) /\ (i = i' -> vs' = vs2).
Proof.
  intros HP G Ef Ns Eb Ef' Ns' Eb' vs x x' key vs1 vs2 C1 C2.
  destruct (setter _ _ (packs_of P HP) n fs parts d G i f Ef Ns) as (b0 & a & E0 & Ea & S). rewrite Eb in E0. injection E0 as <-.
  destruct (setter _ _ (packs_of P HP) n fs parts d G i' f' Ef' Ns') as (b0 & a' & E0 & Ea' & S'). rewrite Eb' in E0. injection E0 as <-.
  assert (H : forall t u y w1 w2, holds t u y w1 -> holds t u y w2 -> w1 = w2).
  { intros t u y w1 w2 [[A ->]|[A ->]] [[B ->]|[B ->]]; try reflexivity; exfalso; rewrite A in B; assert (X : forall u, TPtr u <> u) by (induction u0; congruence); [exact (X u (eq_sym B))|exact (X u B)]. }
  destruct (S vs x key) as (w & Hw & Cw). rewrite Cw in C1. injection C1 as <-. destruct (S' vs x' key) as (w' & Hw' & Cw'). rewrite Cw' in C2. injection C2 as <-.
  destruct (S' (set_nth i w vs) x' key) as (w1 & Hw1 & Cw1). rewrite <- (H _ _ _ _ _ Hw' Hw1) in Cw1. exists (set_nth i' w' (set_nth i w vs)). split; [exact Cw1|]. split.
  - intros N. destruct (S (set_nth i' w' vs) x key) as (w2 & Hw2 & Cw2). rewrite <- (H _ _ _ _ _ Hw Hw2) in Cw2. rewrite Cw2. rewrite set_nth_comm by exact N. reflexivity.
  - intros <-. apply set_nth_twice.
Qed.
