(* MarshalJSON at the level of bytes: proofs. *)
From Coq Require Import Permutation Lia.
From Verif Require Import Str SMap Json CodecModel CodecTables CodecSpec CodecProofs UnionModel UnionSpec UnionProofs YamlDocModel.
From Verif Require Import OrdModel OrdSpec OrdProofs OrdWrite TextModel TextSpec.

(* ---------- the order of strings ---------- *)

Lemma acmp_N a b : Ascii.compare a b = N.compare (N_of_ascii a) (N_of_ascii b).
Proof. reflexivity. Qed.
Lemma acmp_eq a b : Ascii.compare a b = Eq -> a = b.
Proof. rewrite acmp_N. intros H. apply N.compare_eq in H. rewrite <- (ascii_N_embedding a), <- (ascii_N_embedding b), H. reflexivity. Qed.
Lemma acmp_refl a : Ascii.compare a a = Eq.
Proof. rewrite acmp_N. apply N.compare_refl. Qed.
Lemma scmp_trans : forall a b c, String.compare a b = Lt -> String.compare b c = Lt -> String.compare a c = Lt.
Proof.
  induction a as [|x a IH]; intros [|y b] [|z c] H1 H2; cbn [String.compare] in *; try discriminate; try reflexivity.
  destruct (Ascii.compare x y) eqn:E1; [|clear H1|discriminate].
  - apply acmp_eq in E1. subst y. destruct (Ascii.compare x z); try assumption; try reflexivity. eapply IH; eassumption.
  - destruct (Ascii.compare y z) eqn:E2; [|clear H2|discriminate].
    + apply acmp_eq in E2. subst z. rewrite E1. reflexivity.
    + rewrite acmp_N in E1, E2. apply N.compare_lt_iff in E1. apply N.compare_lt_iff in E2. assert (E : Ascii.compare x z = Lt) by (rewrite acmp_N; apply N.compare_lt_iff; exact (N.lt_trans _ _ _ E1 E2)). rewrite E. reflexivity.
Qed.
Lemma sleb_trans a b c : String.leb a b = true -> String.leb b c = true -> String.leb a c = true.
Proof.
  unfold String.leb. intros H1 H2. destruct (String.compare a b) eqn:E1; [|clear H1|discriminate].
  - apply String.compare_eq_iff in E1. subst b. exact H2.
  - destruct (String.compare b c) eqn:E2; [|clear H2|discriminate].
    + apply String.compare_eq_iff in E2. subst c. rewrite E1. reflexivity.
    + rewrite (scmp_trans _ _ _ E1 E2). reflexivity.
Qed.
Lemma sleb_not a b : String.leb a b = false -> String.leb b a = true.
Proof. intros H. destruct (String.leb_total a b) as [X|X]; [congruence|exact X]. Qed.

(* ---------- sorting ---------- *)

Section Sorting.
  Context {A : Type}.
  Implicit Types (x y : string * A) (l : list (string * A)).

  Lemma insert_comm x y : fst x <> fst y -> forall l, insert_key x (insert_key y l) = insert_key y (insert_key x l).
  Proof.
    assert (W : forall x y, String.leb (fst x) (fst y) = true -> String.leb (fst y) (fst x) = false -> forall l, insert_key x (insert_key y l) = insert_key y (insert_key x l)).
    { clear x y. intros x y L G. induction l as [|z l IH]; cbn [insert_key]; [rewrite L, G; reflexivity|].
      destruct (String.leb (fst y) (fst z)) eqn:Y.
      - rewrite (sleb_trans _ _ _ L Y). cbn [insert_key]. rewrite L, G, Y. reflexivity.
      - destruct (String.leb (fst x) (fst z)) eqn:X; cbn [insert_key]; rewrite ?X, ?G, ?Y; [reflexivity|]. rewrite IH. reflexivity. }
    intros N l. destruct (String.leb (fst x) (fst y)) eqn:E.
    - apply W; [exact E|]. destruct (String.leb (fst y) (fst x)) eqn:E'; [|reflexivity]. exfalso. apply N. apply String.leb_antisym; assumption.
    - symmetry. apply W; [apply sleb_not; exact E|exact E].
  Qed.
  Lemma sort_perm l l' : Permutation l l' -> NoDup (map fst l) -> sort_keys l = sort_keys l'.
  Proof.
    induction 1 as [|x l l' P IH|x y l|l1 l2 l3 P1 IH1 P2 IH2]; intros N; [reflexivity| | |].
    - cbn [sort_keys fold_right]. fold (sort_keys l). fold (sort_keys l'). cbn [map] in N. inversion N; subst. rewrite IH by assumption. reflexivity.
    - cbn [sort_keys fold_right]. apply insert_comm. cbn [map] in N. inversion N as [|a b NI _]; subst. intros E. apply NI. left. symmetry. exact E.
    - rewrite IH1 by exact N. apply IH2. eapply Permutation_NoDup; [apply Permutation_map; exact P1|exact N].
  Qed.
  Lemma insert_perm x l : Permutation (x :: l) (insert_key x l).
  Proof.
    induction l as [|y l IH]; cbn [insert_key]; [reflexivity|]. destruct (String.leb (fst x) (fst y)); [reflexivity|].
    transitivity (y :: x :: l); [apply perm_swap|constructor; exact IH].
  Qed.
  Lemma sort_permutes l : Permutation l (sort_keys l).
  Proof. induction l as [|x l IH]; cbn [sort_keys fold_right]; [reflexivity|]. fold (sort_keys l). transitivity (x :: sort_keys l); [constructor; exact IH|apply insert_perm]. Qed.
End Sorting.
Lemma insert_map {A B} (g : A -> B) (x : string * A) l :
  insert_key (fst x, g (snd x)) (map (fun kv => (fst kv, g (snd kv))) l) = map (fun kv => (fst kv, g (snd kv))) (insert_key x l).
Proof. induction l as [|y l IH]; cbn [insert_key map fst snd]; [reflexivity|]. destruct (String.leb (fst x) (fst y)); cbn [map fst snd]; [reflexivity|]. rewrite IH. reflexivity. Qed.
Lemma sort_map {A B} (g : A -> B) (l : list (string * A)) :
  sort_keys (map (fun kv => (fst kv, g (snd kv))) l) = map (fun kv => (fst kv, g (snd kv))) (sort_keys l).
Proof.
  induction l as [|x l IH]; cbn [sort_keys fold_right map]; [reflexivity|]. fold (sort_keys (map (fun kv => (fst kv, g (snd kv))) l)). fold (sort_keys l).
  rewrite IH. apply insert_map.
Qed.

(* ---------- values with all maps sorted ---------- *)

Fixpoint sortj (j : json) : json :=
  match j with
  | JArr l => JArr (map sortj l)
  | JObj m => JObj (sort_keys (map (fun kv => (fst kv, sortj (snd kv))) m))
  | _ => j
  end.
Fixpoint vsort (v : val) : val :=
  match v with
  | VAny j => VAny (sortj j)
  | VPtr v => VPtr (vsort v)
  | VArr l => VArr (map vsort l)
  | VMap m => VMap (sort_keys (map (fun kv => (fst kv, vsort (snd kv))) m))
  | VStruct l => VStruct (map vsort l)
  | _ => v
  end.

Lemma keys_map {A B} (g : A -> B) (m : list (string * A)) : map fst (map (fun kv => (fst kv, g (snd kv))) m) = map fst m.
Proof. rewrite map_map. reflexivity. Qed.

Lemma sortj_ro : forall j, reordered j (sortj j).
Proof.
  induction j as [|b|q|s|l IH|m IH] using json_ind'; cbn [sortj]; try apply ro_refl.
  - constructor. rewrite Forall_forall in IH. induction l as [|x l IHl]; cbn [map]; constructor; [apply IH; left; reflexivity|apply IHl; intros y I; apply IH; right; exact I].
  - rewrite sort_map. apply ro_obj with (sort_keys m); [apply sort_permutes|].
    assert (F : Forall (fun kv : string * json => reordered (snd kv) (sortj (snd kv))) (sort_keys m)) by (eapply Permutation_Forall; [apply sort_permutes|exact IH]).
    clear IH. induction F as [|x l H F IHl]; cbn [map]; constructor; [split; [reflexivity|exact H]|exact IHl].
Qed.
Lemma vsort_same : forall v, single v -> vsame v (vsort v).
Proof.
  induction v as [|s|q|b|j|v IH|l IH|m IH|l IH] using val_ind'; intros S; cbn [vsort]; try constructor; inversion S; subst.
  - apply sortj_ro.
  - apply IH. assumption.
  - rewrite Forall_forall in IH. clear S. induction l as [|x l IHl]; cbn [map]; constructor; [apply IH; [left; reflexivity|apply H0; left; reflexivity]|apply IHl; [intros y I; apply IH; right; exact I|intros y I; apply H0; right; exact I]].
  - intros k G. apply get_None. apply get_None in G. intros I. apply G. assert (I' : In k (map fst (map (fun kv => (fst kv, vsort (snd kv))) m))) by (eapply Permutation_in; [apply Permutation_sym, Permutation_map, sort_permutes|exact I]). rewrite keys_map in I'. exact I'.
  - intros k v G. assert (N : NoDup (map fst (map (fun kv => (fst kv, vsort (snd kv))) m))) by (rewrite keys_map; assumption).
    rewrite <- (get_perm k _ _ (sort_permutes _) N). exists (vsort v). pose proof (get_In _ _ _ G) as I. split.
    + apply In_get; [exact N|]. apply in_map_iff. exists (k, v). split; [reflexivity|exact I].
    + rewrite Forall_forall in IH. exact (IH (k, v) I (H1 k v I)).
  - rewrite Forall_forall in IH. clear S. induction l as [|x l IHl]; cbn [map]; constructor; [apply IH; [left; reflexivity|apply H0; left; reflexivity]|apply IHl; [intros y I; apply IH; right; exact I|intros y I; apply H0; right; exact I]].
Qed.
Lemma sortj_distinct : forall j, distinct j -> distinct (sortj j).
Proof.
  induction j as [|b|q|s|l IH|m IH] using json_ind'; intros D; cbn [sortj]; try exact D; rewrite Forall_forall in IH; inversion D as [| | | |l0 H|m0 N H]; subst; constructor.
  - intros x I. apply in_map_iff in I. destruct I as (y & <- & I). apply IH; [exact I|apply H; exact I].
  - eapply Permutation_NoDup; [apply Permutation_map, sort_permutes|]. rewrite keys_map. exact N.
  - intros k x I. assert (I' : In (k, x) (map (fun kv => (fst kv, sortj (snd kv))) m)) by (eapply Permutation_in; [apply Permutation_sym, sort_permutes|exact I]).
    apply in_map_iff in I'. destruct I' as ([k' y] & E & I'). cbn [fst snd] in E. injection E as -> <-. exact (IH (k, y) I' (H k y I')).
Qed.
Lemma vsort_single : forall v, single v -> single (vsort v).
Proof.
  induction v as [|s|q|b|j|v IH|l IH|m IH|l IH] using val_ind'; intros S; cbn [vsort]; try exact S; inversion S; subst; constructor; try rewrite Forall_forall in IH.
  - apply sortj_distinct. assumption.
  - auto.
  - intros x I. apply in_map_iff in I. destruct I as (y & <- & I). auto.
  - eapply Permutation_NoDup; [apply Permutation_map, sort_permutes|]. rewrite keys_map. assumption.
  - intros k x I. assert (I' : In (k, x) (map (fun kv => (fst kv, vsort (snd kv))) m)) by (eapply Permutation_in; [apply Permutation_sym, sort_permutes|exact I]).
    apply in_map_iff in I'. destruct I' as ([k' y] & E & I'). cbn [fst snd] in E. injection E as -> <-. exact (IH (k, y) I' (H1 k y I')).
  - intros x I. apply in_map_iff in I. destruct I as (y & <- & I). auto.
Qed.

(* The sorted value does not depend on the order. *)
Lemma sortj_same : forall j j', distinct j -> reordered j j' -> sortj j = sortj j'.
Proof.
  induction j as [|b|q|s|l IH|m IH] using json_ind'; intros j' D R; inversion R as [| | | |l1 l2 F|m0 m1 m' P F]; subst; cbn [sortj]; try reflexivity; inversion D as [| | | |l0 H|m2 N H]; subst; f_equal.
  - clear R D. rewrite Forall_forall in IH. induction F as [|x y l l' E F IHl]; cbn [map]; [reflexivity|]. f_equal; [apply IH; [left; reflexivity|apply H; left; reflexivity|exact E]|].
    apply IHl; [intros z I; apply IH; right; exact I|intros z I; apply H; right; exact I].
  - rewrite (sort_perm _ (map (fun kv => (fst kv, sortj (snd kv))) m1)); [|apply Permutation_map; exact P|rewrite keys_map; exact N]. f_equal.
    assert (H' : forall x, In x m1 -> In x m) by (intros x I; eapply Permutation_in; [apply Permutation_sym; exact P|exact I]).
    rewrite Forall_forall in IH. clear R D P N. induction F as [|[k x] [k' y] l l' [E1 E2] F IHl]; cbn [map]; [reflexivity|]. cbn [fst snd] in *. subst k'. f_equal.
    + f_equal. apply (IH (k, x)); [apply H'; left; reflexivity|apply (H k), H'; left; reflexivity|exact E2].
    + apply IHl. intros z I. apply H'. right. exact I.
Qed.
Lemma vsort_canonical : forall v v', single v -> single v' -> vsame v v' -> vsort v = vsort v'.
Proof.
  induction v as [|s|q|b|j|v IH|l IH|m IH|l IH] using val_ind'; intros v' S S' R; inversion R as [| | | |j0 j' RJ|v0 v1 RV|l0 l' F|l0 l' F|m0 m' HN HS]; subst; cbn [vsort]; try reflexivity; inversion S; subst; inversion S'; subst; f_equal.
  - apply sortj_same; assumption.
  - apply IH; assumption.
  - clear S S' R. rewrite Forall_forall in IH. induction F as [|x y l l' E F IHl]; cbn [map]; [reflexivity|]. f_equal; [apply IH; [left; reflexivity|apply H0; left; reflexivity|apply H1; left; reflexivity|exact E]|].
    apply IHl; [intros z I; apply IH; right; exact I|intros z I; apply H0; right; exact I|intros z I; apply H1; right; exact I].
  - destruct (same_perm m m' H0 H2 R) as (m1 & P & F). symmetry. rewrite (sort_perm _ (map (fun kv => (fst kv, vsort (snd kv))) m1)); [|apply Permutation_map; exact P|rewrite keys_map; assumption]. f_equal.
    assert (H' : forall x, In x m1 -> In x m') by (intros x I; eapply Permutation_in; [apply Permutation_sym; exact P|exact I]).
    rewrite Forall_forall in IH. clear S S' R P HN HS H0 H2. induction F as [|[k x] [k' y] l l' [E1 E2] F IHl]; cbn [map]; [reflexivity|]. cbn [fst snd] in *. subst k'. f_equal.
    + f_equal. symmetry. apply (IH (k, x)); [left; reflexivity|apply (H1 k); left; reflexivity|apply (H3 k), H'; left; reflexivity|exact E2].
    + apply IHl; [intros z I; apply IH; right; exact I|intros q z I; apply (H1 q); right; exact I|intros z I; apply H'; right; exact I].
  - clear S S' R. rewrite Forall_forall in IH. induction F as [|x y l l' E F IHl]; cbn [map]; [reflexivity|]. f_equal; [apply IH; [left; reflexivity|apply H0; left; reflexivity|apply H1; left; reflexivity|exact E]|].
    apply IHl; [intros z I; apply IH; right; exact I|intros z I; apply H0; right; exact I|intros z I; apply H1; right; exact I].
Qed.

(* ---------- no numbers at the top ---------- *)

(* Types that are never written as a number. *)
Fixpoint no_num (t : ty) : bool :=
  match t with
  | TInt | TFloat | TAny => false
  | TPtr t => no_num t
  | _ => true
  end.
Definition numless (T : list (string * ent)) : bool :=
  forallb (fun ne => match snd ne with
                     | EEnum _ => true
                     | EStruct fs ps _ => forallb (fun p => match p with PField i => match nth_error fs i with Some f => no_num (f_ty f) | None => true end | _ => true end) ps
                     end) T.
Lemma numless_30 : numless T30 = true.
Proof. vm_compute. reflexivity. Qed.
Lemma numless_31 : numless T31 = true.
Proof. vm_compute. reflexivity. Qed.

Lemma union_from : forall js acc j, junion_loop js acc = Some j -> (exists m, j = JObj m) \/ In j js.
Proof.
  induction js as [|x js IH]; intros acc j E; cbn [junion_loop] in E; [injection E as <-; left; eexists; reflexivity|].
  destruct x as [|b|q|s|l|m]; try (destruct (IH _ _ E) as [X|X]; [left; exact X|right; right; exact X]);
    (destruct acc; [|discriminate E]; destruct (forallb _ js); [|discriminate E]; injection E as <-; right; left; reflexivity).
Qed.
Lemma seq_in {A} (l : list (option A)) : forall r x, seq_opt l = Some r -> In x r -> In (Some x) l.
Proof.
  induction l as [|[a|] l IH]; intros r x E I; cbn [seq_opt] in E; [injection E as <-; destruct I| |discriminate E].
  destruct (seq_opt l) as [r'|]; [|discriminate E]. injection E as <-. destruct I as [->|I]; [left; reflexivity|right; apply (IH r'); [reflexivity|exact I]].
Qed.
Lemma enc_nonum T : numless T = true -> forall v t j, no_num t = true -> CodecModel.enc T v t = Some j -> forall q, j <> JNum q.
Proof.
  intros NL. induction v as [|s|q|b|j|v IH|l IH|m IH|l IH] using val_ind'; intros t r N E q0; cbn [CodecModel.enc] in E; destruct t as [| | | | | |t|t|t|n]; try discriminate E; try discriminate N; try (injection E as <-; discriminate).
  - destruct (get n T) as [[vals|]|]; try discriminate E. destruct (in_list s vals); [|discriminate E]. injection E as <-. discriminate.
  - exact (IH t r N E q0).
  - destruct (seq_opt _); [|discriminate E]. injection E as <-. discriminate.
  - destruct (seq_opt _); [|discriminate E]. injection E as <-. discriminate.
  - destruct (get n T) as [[vals|fs ps d]|] eqn:G; try discriminate E. destruct (seq_opt _) as [js|] eqn:Q; [|discriminate E].
    destruct (union_from js [] r E) as [(m & ->)|I]; [discriminate|]. apply (seq_in _ _ _ Q) in I. apply in_map_iff in I. destruct I as (p & Ep & Ip).
    unfold numless in NL. rewrite forallb_forall in NL. specialize (NL _ (get_In _ _ _ G)). cbn [snd] in NL. rewrite forallb_forall in NL. specialize (NL p Ip).
    destruct p as [m| |i]; cbn [enc_part] in Ep; [injection Ep as <-; discriminate|destruct (enc_fields fs _); [injection Ep as <-; discriminate|discriminate Ep]|].
    destruct (nth_error fs i) as [f|] eqn:Ef; [|discriminate Ep]. destruct (nth_error (map _ l) i) as [[v e]|] eqn:Ev; [|discriminate Ep].
    rewrite nth_error_map in Ev. destruct (nth_error l i) as [w|] eqn:Ew; [|discriminate Ev]. cbn [option_map] in Ev. injection Ev as <- <-.
    rewrite Forall_forall in IH. exact (IH w (nth_error_In _ _ Ew) (f_ty f) r NL Ep q0).
Qed.

(* ---------- the text of a value ---------- *)

Section Show.
  Variable T : list (string * ent).
  Variable num_text : Q -> string.
  Variable str_text : string -> string.
  Hypothesis OK : texts_ok num_text str_text.

  (* The text of a JSON value, members in the order given. *)
  Fixpoint show (j : json) : string :=
    match j with
    | JNull => "null"
    | JBool b => if b then "true" else "false"
    | JNum q => num_text q
    | JStr s => str_text s
    | JArr l => "[" ^^ String.concat "," (map show l) ^^ "]"
    | JObj m => "{" ^^ String.concat "," (map (fun kv => str_text (fst kv) ^^ ":" ^^ show (snd kv)) m) ^^ "}"
    end.
  Notation shown_as := (jtext (fun s q => s = num_text q) (fun s x => s = str_text x)).

  Lemma concat_cons a b l : String.concat "," (a :: b :: l) = a ^^ "," ^^ String.concat "," (b :: l).
  Proof. reflexivity. Qed.
  Lemma show_text : forall j, shown_as (show j) j.
  Proof.
    induction j as [|b|q|s|l IH|m IH] using json_ind'; cbn [show]; [constructor|destruct b; constructor|constructor; reflexivity|constructor; reflexivity| |].
    - destruct l as [|x l]; [apply t_arr0|]. apply t_arr. revert x IH. induction l as [|y l IHl]; intros x IH; inversion IH as [|a b H F]; subst.
      + constructor. exact H.
      + cbn [map]. rewrite concat_cons. apply e_more; [exact H|]. apply IHl. exact F.
    - destruct m as [|x m]; [apply t_obj0|]. apply t_obj. revert x IH. induction m as [|y m IHm]; intros [k x] IH; inversion IH as [|a b H F]; subst; cbn [fst snd] in *.
      + cbn [map String.concat fst snd]. constructor; [reflexivity|exact H].
      + cbn [map]. rewrite concat_cons. cbn [fst snd]. rewrite !app_assoc_s. apply m_more; [reflexivity|exact H|]. apply IHm. exact F.
  Qed.

  Definition pack (o : option json) : ures := match o with Some j => UOk (show j) | None => UErr end.

  Lemma seq_show {A} (f : A -> option json) l :
    seq_text (map (fun x => pack (f x)) l) = match seq_opt (map f l) with Some js => Texts (map show js) | None => TErr end.
  Proof. induction l as [|x l IH]; cbn [map seq_text seq_opt]; [reflexivity|]. destruct (f x); cbn [pack]; [|reflexivity]. rewrite IH. destruct (seq_opt (map f l)); reflexivity. Qed.
  Definition mshow (kv : string * json) : string := str_text (fst kv) ^^ ":" ^^ show (snd kv).
  Lemma mseq_show {A} (f : A -> option json) (l : list (string * A)) :
    seq_text (map (fun x => member_text str_text (fst x) (pack (f (snd x)))) l) =
    match seq_opt (map (fun kv => match f (snd kv) with Some j => Some (fst kv, j) | None => None end) l) with Some ms => Texts (map mshow ms) | None => TErr end.
  Proof.
    induction l as [|x l IH]; cbn [map seq_text seq_opt]; [reflexivity|]. destruct (f (snd x)); cbn [pack member_text]; [|reflexivity]. rewrite IH.
    destruct (seq_opt _); reflexivity.
  Qed.

  Lemma any_show : forall j, any_text num_text str_text j = UOk (show (sortj j)).
  Proof.
    induction j as [|b|q|s|l IH|m IH] using json_ind'; cbn [any_text sortj show]; try reflexivity.
    - rewrite (map_ext_Forall _ (fun j => pack (Some (sortj j)))) by (eapply Forall_impl; [|exact IH]; intros a H; exact H).
      rewrite (seq_show (fun j => Some (sortj j))). assert (E : seq_opt (map (fun j => Some (sortj j)) l) = Some (map sortj l)).
      { clear IH. induction l as [|x l IHl]; cbn [map seq_opt]; [reflexivity|]. rewrite IHl. reflexivity. }
      rewrite E. reflexivity.
    - rewrite (map_ext_Forall (fun kv => (fst kv, any_text num_text str_text (snd kv))) (fun kv => (fst kv, (fun j => pack (Some (sortj j))) (snd kv)))) by (eapply Forall_impl; [|exact IH]; intros a H; cbn beta; f_equal; exact H).
      rewrite (sort_map (fun j => pack (Some (sortj j)))), (sort_map sortj), map_map. cbn [fst snd].
      rewrite (mseq_show (fun j => Some (sortj j))). assert (E : forall l : list (string * json), seq_opt (map (fun kv => Some (fst kv, sortj (snd kv))) l) = Some (map (fun kv => (fst kv, sortj (snd kv))) l)).
      { induction l as [|x l IHl]; cbn [map seq_opt]; [reflexivity|]. rewrite IHl. reflexivity. }
      rewrite E. reflexivity.
  Qed.

  Lemma empty_sort v : is_empty (vsort v) = is_empty v.
  Proof.
    destruct v as [|s|q|b|j|v|l|m|l]; cbn [vsort]; try reflexivity.
    - destruct j; reflexivity.
    - destruct l; reflexivity.
    - destruct m as [|x m]; [reflexivity|]. cbn [map]. destruct (sort_keys _) eqn:E; [|reflexivity]. pose proof (sort_permutes ((fst x, vsort (snd x)) :: map (fun kv => (fst kv, vsort (snd kv))) m)) as P. rewrite E in P. apply Permutation_sym, Permutation_nil in P. discriminate P.
  Qed.

  Lemma fields_show fs : forall vs us, Forall2 (fun v u => is_empty (fst u) = is_empty (fst v) /\ forall t, snd v t = pack (snd u t)) vs us ->
    seq_text (text_fields str_text fs vs) = match enc_fields fs us with Some m => Texts (map mshow m) | None => TErr end.
  Proof.
    induction fs as [|f fs IH]; intros vs us F; destruct F as [|[v e] [u g] vs us [E1 E2] F]; cbn [text_fields enc_fields fst snd] in *; try reflexivity.
    destruct (f_key f) as [k|]; [|apply IH; exact F]. rewrite E1. destruct (f_omit f && is_empty v); [apply IH; exact F|]. cbn [seq_text]. rewrite E2.
    destruct (g (f_ty f)) as [j|]; cbn [pack member_text]; [|reflexivity]. rewrite (IH _ _ F). destruct (enc_fields fs us); reflexivity.
  Qed.

  (* ---------- marshalUnion ---------- *)

  Lemma show_obj_cons x m : show (JObj (x :: m)) = "{" ^^ String.concat "," (map mshow (x :: m)) ^^ "}".
  Proof. reflexivity. Qed.
  Lemma mshow_head x : exists r, mshow x = String """" r.
  Proof. unfold mshow. destruct (to_str _ _ OK (fst x)) as (r & ->). eexists. reflexivity. Qed.
  Lemma concat_head x m : exists r, String.concat "," (map mshow (x :: m)) = String """" r.
  Proof. destruct (mshow_head x) as (r & E). destruct m as [|y m]; cbn [map String.concat]; rewrite E; eexists; reflexivity. Qed.
  Lemma concat_app x m y m' : String.concat "," (map mshow ((x :: m) ++ y :: m')) = String.concat "," (map mshow (x :: m)) ^^ "," ^^ String.concat "," (map mshow (y :: m')).
  Proof.
    revert x. induction m as [|z m IH]; intros x; [reflexivity|]. change ((x :: z :: m) ++ y :: m') with (x :: ((z :: m) ++ y :: m')).
    cbn [map]. change (map mshow ((z :: m) ++ y :: m')) with (mshow z :: map mshow (m ++ y :: m')). rewrite !concat_cons.
    change (mshow z :: map mshow (m ++ y :: m')) with (map mshow ((z :: m) ++ y :: m')). rewrite IH. rewrite !app_assoc_s. reflexivity.
  Qed.

  Lemma num_head q : exists c r, num_text q = String c r /\ Ascii.eqb c "{" = false /\ Ascii.eqb c "n" = false.
  Proof. destruct (to_num _ _ OK q) as (c & r & E & I). exists c, r. split; [exact E|]. cbn in I. repeat (destruct I as [<-|I]; [split; reflexivity|]). destruct I. Qed.

  (* A value that is neither null nor an object. *)
  Definition scalar (j : json) : bool := match j with JNull | JObj _ => false | _ => true end.
  Lemma scalar_head j : scalar j = true -> exists c r, show j = String c r /\ Ascii.eqb c "{" = false /\ Ascii.eqb c "n" = false.
  Proof.
    destruct j as [|b|q|s|l|m]; try discriminate; intros _; cbn [show].
    - destruct b; repeat eexists.
    - apply num_head.
    - destruct (to_str _ _ OK s) as (r & ->). repeat eexists.
    - repeat eexists.
  Qed.
  Lemma scalar_length j : scalar j = true -> (forall q, j <> JNum q) -> String.length (show j) =? 1 = false.
  Proof.
    destruct j as [|b|q|s|l|m]; try discriminate; intros _ N; cbn [show].
    - destruct b; reflexivity.
    - exfalso. apply (N q). reflexivity.
    - destruct (to_str _ _ OK s) as (r & ->). cbn [String.length]. apply Nat.eqb_neq. rewrite length_app_s. cbn [String.length]. lia.
    - cbn [String.append String.length]. rewrite length_app_s. cbn [String.length]. apply Nat.eqb_neq. lia.
  Qed.

  Definition encj (o : option json) : enc := match o with Some j => EncOk (show j) | None => EncErr end.
  (* The text so far. *)
  Definition sofar (acc : list (string * json)) : string := match acc with [] => "{" | _ => show (JObj acc) end.

  Lemma step_hollow j ps r b : match j with JNull | JObj [] => true | _ => false end = true -> union_loop (EncOk (show j) :: ps) r b = union_loop ps r b.
  Proof. destruct j as [| | | | |[|x m]]; try discriminate; intros _; reflexivity. Qed.
  Lemma step_scalar j ps r b : scalar j = true ->
    union_loop (EncOk (show j) :: ps) r b = if (String.length r =? 1) && (b || String.eqb r (show j)) then union_loop ps (show j) false else UErr.
  Proof.
    intros S. destruct (scalar_head j S) as (c & s & E & C1 & C2). rewrite E. cbn [union_loop].
    assert (E1 : String.eqb (String c s) "{}" = false) by (cbn [String.eqb]; rewrite C1; reflexivity).
    assert (E2 : String.eqb (String c s) "null" = false) by (cbn [String.eqb]; rewrite C2; reflexivity).
    rewrite E1, E2, C1. reflexivity.
  Qed.
  Lemma obj_text x m : exists s', show (JObj (x :: m)) = String "{" (String """" s' ^^ "}") /\ String.concat "," (map mshow (x :: m)) = String """" s'.
  Proof. destruct (concat_head x m) as (r & E). exists r. split; [|exact E]. rewrite show_obj_cons, E. reflexivity. Qed.
  Lemma step_object x m ps acc :
    union_loop (EncOk (show (JObj (x :: m))) :: ps) (sofar acc) true = union_loop ps (sofar (acc ++ x :: m)) true.
  Proof.
    destruct (obj_text x m) as (s' & E & C). rewrite E. cbn [union_loop].
    assert (E1 : String.eqb (String "{" (String """" s' ^^ "}")) "{}" = false) by reflexivity.
    assert (E2 : String.eqb (String "{" (String """" s' ^^ "}")) "null" = false) by reflexivity.
    rewrite E1, E2. cbn match. change (Ascii.eqb "{" "{") with true. cbn [negb]. f_equal. destruct acc as [|y acc].
    - cbn [sofar app]. change (1 <? String.length "{") with false. cbn iota. rewrite E. reflexivity.
    - change (sofar ((y :: acc) ++ x :: m)) with (show (JObj (y :: (acc ++ x :: m)))). rewrite show_obj_cons. change (y :: acc ++ x :: m) with ((y :: acc) ++ x :: m). rewrite concat_app, C.
      cbn [sofar]. rewrite show_obj_cons, length_wrap. rewrite <- (app_assoc_s "{" _ "}"). rewrite set_last_app. rewrite !app_assoc_s. reflexivity.
  Qed.
  Lemma step_object_late x m ps r : union_loop (EncOk (show (JObj (x :: m))) :: ps) r false = UErr.
  Proof. destruct (obj_text x m) as (s' & E & C). rewrite E. reflexivity. Qed.

  (* After a value that is no object. *)
  Lemma loop_late r : forall os, String.length r =? 1 = false ->
    union_loop (map encj os) r false = match seq_opt os with
                                      | Some js => if forallb (fun p => match p with JNull | JObj [] => true | _ => false end) js then UOk r else UErr
                                      | None => UErr
                                      end.
  Proof.
    induction os as [|[j|] os IH]; intros L; cbn [map encj seq_opt]; [reflexivity| |reflexivity].
    destruct (match j with JNull | JObj [] => true | _ => false end) eqn:H.
    - rewrite step_hollow by exact H. rewrite IH by exact L. destruct (seq_opt os); [|reflexivity]. cbn [forallb]. rewrite H. reflexivity.
    - assert (E : union_loop (EncOk (show j) :: map encj os) r false = UErr).
      { destruct j as [| | | | |[|x m]]; try discriminate H; try (rewrite step_scalar by reflexivity; rewrite L; reflexivity). apply step_object_late. }
      rewrite E. destruct (seq_opt os); [|reflexivity]. cbn [forallb]. rewrite H. reflexivity.
  Qed.

  Lemma loop_show : forall os acc, (forall q, ~ In (Some (JNum q)) os) ->
    union_loop (map encj os) (sofar acc) true = match seq_opt os with Some js => pack (junion_loop js acc) | None => UErr end.
  Proof.
    induction os as [|[j|] os IH]; intros acc N; cbn [map encj seq_opt]; [|  |reflexivity].
    - cbn [union_loop junion_loop pack]. destruct acc as [|x acc]; [reflexivity|]. cbn [sofar]. rewrite show_obj_cons. pose proof (length_wrap (String.concat "," (map mshow (x :: acc)))) as L. apply Nat.ltb_lt in L.
      replace (String.length ("{" ^^ String.concat "," (map mshow (x :: acc)) ^^ "}") =? 1) with false by (symmetry; apply Nat.eqb_neq; lia). reflexivity.
    - assert (N' : forall q, ~ In (Some (JNum q)) os) by (intros q I; apply (N q); right; exact I).
      destruct j as [|b|q|s|l|m].
      + rewrite step_hollow by reflexivity. rewrite IH by exact N'. destruct (seq_opt os); reflexivity.
      + rewrite step_scalar by reflexivity. destruct acc as [|x acc].
        * change ((String.length (sofar []) =? 1) && (true || String.eqb (sofar []) (show (JBool b)))) with true. cbn iota.
          rewrite loop_late by (apply scalar_length; [reflexivity|discriminate]). destruct (seq_opt os) as [js|]; [|reflexivity]. cbn [junion_loop]. destruct (forallb _ js); reflexivity.
        * replace (String.length (sofar (x :: acc)) =? 1) with false; [cbn [andb]; destruct (seq_opt os); reflexivity|].
          symmetry. cbn [sofar]. rewrite show_obj_cons. pose proof (length_wrap (String.concat "," (map mshow (x :: acc)))) as L. apply Nat.ltb_lt in L. apply Nat.eqb_neq. lia.
      + exfalso. apply (N q). left. reflexivity.
      + rewrite step_scalar by reflexivity. destruct acc as [|x acc].
        * change ((String.length (sofar []) =? 1) && (true || String.eqb (sofar []) (show (JStr s)))) with true. cbn iota.
          rewrite loop_late by (apply scalar_length; [reflexivity|discriminate]). destruct (seq_opt os) as [js|]; [|reflexivity]. cbn [junion_loop]. destruct (forallb _ js); reflexivity.
        * replace (String.length (sofar (x :: acc)) =? 1) with false; [cbn [andb]; destruct (seq_opt os); reflexivity|].
          symmetry. cbn [sofar]. rewrite show_obj_cons. pose proof (length_wrap (String.concat "," (map mshow (x :: acc)))) as L. apply Nat.ltb_lt in L. apply Nat.eqb_neq. lia.
      + rewrite step_scalar by reflexivity. destruct acc as [|x acc].
        * change ((String.length (sofar []) =? 1) && (true || String.eqb (sofar []) (show (JArr l)))) with true. cbn iota.
          rewrite loop_late by (apply scalar_length; [reflexivity|discriminate]). destruct (seq_opt os) as [js|]; [|reflexivity]. cbn [junion_loop]. destruct (forallb _ js); reflexivity.
        * replace (String.length (sofar (x :: acc)) =? 1) with false; [cbn [andb]; destruct (seq_opt os); reflexivity|].
          symmetry. cbn [sofar]. rewrite show_obj_cons. pose proof (length_wrap (String.concat "," (map mshow (x :: acc)))) as L. apply Nat.ltb_lt in L. apply Nat.eqb_neq. lia.
      + destruct m as [|x m]; [rewrite step_hollow by reflexivity; rewrite IH by exact N'; destruct (seq_opt os) as [js|]; [cbn [junion_loop]; rewrite app_nil_r; reflexivity|reflexivity]|].
        rewrite step_object. rewrite IH by exact N'. destruct (seq_opt os); reflexivity.
  Qed.
  Lemma union_show os : (forall q, ~ In (Some (JNum q)) os) ->
    marshal_union (map encj os) = match seq_opt os with Some js => pack (junion js) | None => UErr end.
  Proof. exact (loop_show os []). Qed.

  (* ---------- the encoder ---------- *)

  Variable NL : numless T = true.
  (* Constants are in order and hold scalars. *)
  Definition plain_part (p : part) : bool := match p with PConst m => forallb (fun kv => match snd kv with JStr _ | JBool _ => true | _ => false end) m | _ => true end.
  Definition plain_parts (T : list (string * ent)) : bool := forallb (fun ne => match snd ne with EStruct _ ps _ => forallb plain_part ps | _ => true end) T.
  Variable PP : plain_parts T = true.

  Lemma const_show m : forallb (fun kv => match snd kv with JStr _ | JBool _ => true | _ => false end) m = true ->
    seq_text (map (fun kv => member_text str_text (fst kv) (any_text num_text str_text (snd kv))) m) = Texts (map mshow m).
  Proof.
    induction m as [|[k v] m IH]; intros H; cbn [map seq_text]; [reflexivity|]. cbn [forallb snd fst] in *. apply Bool.andb_true_iff in H. destruct H as [H1 H2].
    rewrite any_show. cbn [member_text]. rewrite IH by exact H2. destruct v; try discriminate H1; reflexivity.
  Qed.
  Lemma part_show fs p vs us : plain_part p = true -> Forall2 (fun v u => is_empty (fst u) = is_empty (fst v) /\ forall t, snd v t = pack (snd u t)) vs us ->
    text_part num_text str_text fs vs p = pack (enc_part fs us p).
  Proof.
    intros PL F. destruct p as [m| |i]; cbn [text_part enc_part].
    - rewrite const_show by exact PL. reflexivity.
    - rewrite (fields_show fs _ _ F). destruct (enc_fields fs us); reflexivity.
    - destruct (nth_error fs i) as [f|]; [|reflexivity]. clear PL. revert i. induction F as [|[v e] [u g] vs us [E1 E2] F IH]; intros [|i]; cbn [nth_error]; try reflexivity; [exact (E2 (f_ty f))|apply IH].
  Qed.

  Lemma text_show : forall v t, enc_text T num_text str_text v t = pack (CodecModel.enc T (vsort v) t).
  Proof.
    induction v as [|s|q|b|j|v IH|l IH|m IH|l IH] using val_ind'; intros t; cbn [enc_text vsort CodecModel.enc].
    - destruct t; reflexivity.
    - destruct t; try reflexivity. destruct (get n T) as [[vals|]|]; try reflexivity. destruct (in_list s vals); reflexivity.
    - destruct t; reflexivity.
    - destruct t; reflexivity.
    - destruct t; try reflexivity. apply any_show.
    - destruct t; try reflexivity. apply IH.
    - destruct t as [| | | | | | |t| |]; try reflexivity. rewrite (map_ext_Forall _ (fun v => pack (CodecModel.enc T (vsort v) t))) by (eapply Forall_impl; [|exact IH]; intros v H; apply H).
      rewrite (seq_show (fun v => CodecModel.enc T (vsort v) t)). rewrite map_map. destruct (seq_opt _); reflexivity.
    - destruct t as [| | | | | | | |t|]; try reflexivity.
      rewrite (map_ext_Forall (fun kv => (fst kv, enc_text T num_text str_text (snd kv) t)) (fun kv => (fst kv, (fun v => pack (CodecModel.enc T (vsort v) t)) (snd kv)))) by (eapply Forall_impl; [|exact IH]; intros a H; cbn beta; f_equal; apply H).
      rewrite (sort_map (fun v => pack (CodecModel.enc T (vsort v) t))), (sort_map vsort), !map_map. cbn [fst snd]. rewrite (mseq_show (fun v => CodecModel.enc T (vsort v) t)). destruct (seq_opt _); reflexivity.
    - destruct t as [| | | | | | | | |n]; try reflexivity. destruct (get n T) as [[vals|fs ps d]|] eqn:G; try reflexivity.
      set (us := map (fun v => (v, CodecModel.enc T v)) (map vsort l)).
      assert (F : Forall2 (fun v u => is_empty (fst u) = is_empty (fst v) /\ forall t, snd v t = pack (snd u t)) (map (fun v => (v, enc_text T num_text str_text v)) l) us).
      { unfold us. clear us. induction IH as [|x l H F IHl]; cbn [map]; constructor; [split; [apply empty_sort|exact H]|exact IHl]. }
      assert (PL : forall p, In p ps -> plain_part p = true).
      { unfold plain_parts in PP. rewrite forallb_forall in PP. specialize (PP _ (get_In _ _ _ G)). cbn [snd] in PP. rewrite forallb_forall in PP. exact PP. }
      rewrite (map_ext_in _ (fun p => encj (enc_part fs us p))); [|intros p I; rewrite (part_show fs p _ _ (PL p I) F); unfold part_text, pack, encj; destruct (enc_part fs us p); reflexivity].
      rewrite <- (map_map (enc_part fs us) encj). rewrite union_show.
      + destruct (seq_opt _); reflexivity.
      + intros q I. apply in_map_iff in I. destruct I as (p & E & Ip). pose proof NL as NL'. unfold numless in NL'. rewrite forallb_forall in NL'. specialize (NL' _ (get_In _ _ _ G)). cbn [snd] in NL'. rewrite forallb_forall in NL'. specialize (NL' p Ip).
        destruct p as [m| |i]; cbn [enc_part] in E; [discriminate E|destruct (enc_fields fs us); discriminate E|]. destruct (nth_error fs i) as [f|]; [|discriminate E].
        destruct (nth_error us i) as [[u e]|] eqn:Ev; [|discriminate E]. unfold us in Ev. rewrite nth_error_map in Ev. destruct (nth_error (map vsort l) i) as [w|]; [|discriminate Ev]. injection Ev as <- <-.
        exact (enc_nonum T NL w (f_ty f) (JNum q) NL' E q eq_refl).
  Qed.

  (* ---------- the theorems ---------- *)

  Theorem text_is_json t v : single v ->
    match marshal_text T num_text str_text t v with
    | UOk s => exists j j', marshal T t v = Some j /\ reordered j j' /\ shown_as s j'
    | UErr => marshal T t v = None
    | UPanic => False
    end.
  Proof.
    intros S. unfold marshal_text. rewrite text_show. pose proof (write_same T t v (vsort v) S (vsort_single v S) (vsort_same v S)) as A. unfold marshal in *.
    destruct (agree_case _ _ _ A) as [[E E']|(j & j' & E & E' & R)]; rewrite E'; cbn [pack]; [exact E|]. exists j, j'. split; [exact E|]. split; [exact R|apply show_text].
  Qed.
  Theorem text_same t v v' : single v -> single v' -> vsame v v' -> marshal_text T num_text str_text t v = marshal_text T num_text str_text t v'.
  Proof. intros S S' R. unfold marshal_text. rewrite !text_show, (vsort_canonical v v' S S' R). reflexivity. Qed.
  Theorem read_text rnd o o' t j j' v : fair o -> fair o' -> distinct j -> unambiguous T t j -> reordered j j' -> unmarshal_o T rnd o t j = Some v ->
    exists v', unmarshal_o T rnd o' t j' = Some v' /\ marshal_text T num_text str_text t v = marshal_text T num_text str_text t v'.
  Proof.
    intros FO FO' D N R E. pose proof (members_order_free T rnd o o' t j j' FO FO' D N R) as A. destruct (agree_case _ _ _ A) as [[E1 _]|(x & v' & E1 & E2 & S)]; [congruence|].
    rewrite E in E1. injection E1 as <-. exists v'. split; [exact E2|]. apply text_same; [exact (read_single_o _ _ _ _ _ _ FO E)|exact (read_single_o _ _ _ _ _ _ FO' E2)|exact S].
  Qed.
End Show.
Lemma plain_30 : plain_parts T30 = true.
Proof. vm_compute. reflexivity. Qed.
Lemma plain_31 : plain_parts T31 = true.
Proof. vm_compute. reflexivity. Qed.
