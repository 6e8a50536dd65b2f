(* Proofs about the bytes of documents: what is written is read. *)
From Coq Require Import NArith ZArith Ascii Lia.
From Coq Require Qcanon.
From Verif Require Import Str SMap Json CodecModel CodecTables CodecSpec CodecProofs UnionModel UnionSpec OrdModel OrdSpec OrdProofs.
From Verif Require Import OrdWrite OrdShape YamlDocProofs TextModel TextSpec TextProofs RoundProofs BytesSpec BytesModel BytesProofs.

(* ---------- strings ---------- *)

Lemma between_iff a x b : between a x b = true <-> (a <= x <= b)%N.
Proof. unfold between. rewrite Bool.andb_true_iff, !N.leb_le. reflexivity. Qed.

Lemma decode_scalar l c : In (Some c) (decode l) -> scalar c.
Proof.
  assert (S2 : forall a b x, seq2 a b = Some x -> scalar x).
  { intros a b x H. unfold seq2 in H. destruct (between 194 a 223 && tail b) eqn:E; [|discriminate]. injection H as <-.
    apply andb_prop in E. destruct E as [E1 E2]. unfold tail in E2. apply between_iff in E1. apply between_iff in E2. unfold scalar. lia. }
  assert (S3 : forall a b c x, seq3 a b c = Some x -> scalar x).
  { intros a b d x H. unfold seq3 in H. destruct (_ && _ && _) eqn:E; [|discriminate]. injection H as <-.
    apply andb_prop in E. destruct E as [E E3]. apply andb_prop in E. destruct E as [E1 E2]. unfold tail in E3.
    apply between_iff in E1. apply between_iff in E2. apply between_iff in E3. unfold scalar.
    destruct (N.eqb_spec a 224), (N.eqb_spec a 237); lia. }
  assert (S4 : forall a b c d x, seq4 a b c d = Some x -> scalar x).
  { intros a b d e x H. unfold seq4 in H. destruct (_ && _ && _ && _) eqn:E; [|discriminate]. injection H as <-.
    apply andb_prop in E. destruct E as [E E4]. apply andb_prop in E. destruct E as [E E3]. apply andb_prop in E. destruct E as [E1 E2]. unfold tail in *.
    apply between_iff in E1. apply between_iff in E2. apply between_iff in E3. apply between_iff in E4. unfold scalar.
    destruct (N.eqb_spec a 240), (N.eqb_spec a 244); lia. }
  remember (length l) as n eqn:L. assert (L' : length l <= n) by lia. clear L. revert l L'. induction n as [|n IH]; intros l L H.
  { destruct l; [destruct H|cbn [length] in L; lia]. }
  destruct l as [|a l1]; [destruct H|]. cbn [length] in L. cbn [decode] in H.
  destruct (N.ltb_spec a 128) as [A|A].
  { destruct H as [H|H]; [injection H as <-; unfold scalar; lia|]. apply (IH l1); [lia|exact H]. }
  assert (R : In (Some c) (None :: decode l1) -> scalar c) by (intros [X|X]; [discriminate X|apply (IH l1); [lia|exact X]]).
  destruct l1 as [|b l2]; [destruct H as [H|[]]; discriminate H|].
  destruct (seq2 a b) as [x|] eqn:E2; [destruct H as [H|H]; [injection H as <-; exact (S2 _ _ _ E2)|apply (IH l2); [cbn [length] in L; lia|exact H]]|].
  destruct l2 as [|d l3]; [exact (R H)|].
  destruct (seq3 a b d) as [x|] eqn:E3; [destruct H as [H|H]; [injection H as <-; exact (S3 _ _ _ _ E3)|apply (IH l3); [cbn [length] in L; lia|exact H]]|].
  destruct l3 as [|e l4]; [exact (R H)|].
  destruct (seq4 a b d e) as [x|] eqn:E4; [destruct H as [H|H]; [injection H as <-; exact (S4 _ _ _ _ _ E4)|apply (IH l4); [cbn [length] in L; lia|exact H]]|].
  exact (R H).
Qed.

(* What a string becomes: bytes that belong to no character are replaced. *)
Definition repair (s : string) : string :=
  unbytes (flat_map (fun r => encode (match r with Some c => c | None => 65533%N end)) (decode (bytes s))).

Lemma quote_repair s : literal (quote s) (repair s).
Proof.
  exists (unbytes (flat_map quote_rune (decode (bytes s)))). split.
  - unfold repair. pose proof (decode_scalar (bytes s)) as D. induction (decode (bytes s)) as [|r l IH]; [constructor|].
    cbn [flat_map]. rewrite !unbytes_app. assert (C : chars (unbytes (flat_map quote_rune l)) (unbytes (flat_map (fun r => encode (match r with Some c => c | None => 65533%N end)) l))).
    { apply IH. intros c I. apply D. right. exact I. }
    rewrite unbytes_encode. destruct r as [c|]; [apply quote_chars; [apply D; left; reflexivity|exact C]|].
    apply (ch_u "fffd" 65533); [|unfold scalar; lia|exact C].
    change 65533%N with (((15 * 16 + 15) * 16 + 15) * 16 + 13)%N. constructor; left; reflexivity.
  - unfold quote. cbn [unbytes]. rewrite unbytes_app. reflexivity.
Qed.

Lemma repair_same s : valid s -> repair s = s.
Proof.
  unfold repair. induction 1 as [|c s S _ IH]; [reflexivity|]. rewrite bytes_app, bytes_utf8, decode_encode by exact S. cbn [flat_map]. rewrite unbytes_app, unbytes_encode, IH. reflexivity.
Qed.

Lemma repair_valid s : valid (repair s).
Proof.
  unfold repair. pose proof (decode_scalar (bytes s)) as D. induction (decode (bytes s)) as [|r l IH]; [constructor|].
  cbn [flat_map]. rewrite unbytes_app, unbytes_encode. constructor; [destruct r as [c|]; [apply D; left; reflexivity|unfold scalar; lia]|]. apply IH. intros c I. apply D. right. exact I.
Qed.

Lemma literal_of s x : literal s x -> exists r, s = String """" (r ^^ String """" "").
Proof. intros (b & _ & ->). exists b. reflexivity. Qed.

(* ---------- numbers ---------- *)

Lemma digits_first s v n : digits s v n -> exists c r, s = String c r /\ In c (list_ascii_of_string "-0123456789").
Proof.
  assert (A : forall c d, digit c d -> In c (list_ascii_of_string "-0123456789")).
  { intros c d [P H]. set (k := Z.to_nat d) in *. clearbody k. do 10 (destruct k as [|k]; [injection H as <-; cbn; auto 20|]). discriminate H. }
  induction 1 as [c d D|s v n c d _ (a & r & -> & I) D]; [exists c, ""; split; [reflexivity|exact (A _ _ D)]|].
  exists a, (r ^^ String c ""). split; [reflexivity|exact I].
Qed.
Lemma numeral_first s q : numeral s q -> exists c r, s = String c r /\ In c (list_ascii_of_string "-0123456789").
Proof.
  intros H. destruct H as [i z f q e x Hi _ _|i z f q e x Hi _ _]; [|eexists _, _; split; [reflexivity|cbn; auto]].
  destruct Hi as [|c s v n D _]; [eexists _, _; split; [reflexivity|cbn; auto]|]. destruct (digits_first _ _ _ D) as (c0 & r & E & I). injection E as <- <-.
  eexists _, _. split; [reflexivity|exact I].
Qed.

Lemma quote_ok rnd num_text : numbers_ok rnd num_text -> texts_ok num_text quote.
Proof.
  intros [H]. constructor.
  - intros q. destruct (H q) as (q' & N & _). exact (numeral_first _ _ N).
  - intros x. exact (literal_of _ _ (quote_repair x)).
Qed.

(* ---------- texts ---------- *)

Scheme jtext_mut := Minimality for jtext Sort Prop
  with elements_text_mut := Minimality for elements_text Sort Prop
  with members_text_mut := Minimality for members_text Sort Prop.

Lemma nil_app_s s : "" ^^ s = s.
Proof. reflexivity. Qed.

Lemma jtext_text num_text str_text f g : (forall q, numeral (num_text q) (g q)) -> (forall x, literal (str_text x) (f x)) ->
  forall s j, jtext (fun s q => s = num_text q) (fun s x => s = str_text x) s j -> text s (jmap f g j).
Proof.
  intros N L s j. apply (jtext_mut (fun s q => s = num_text q) (fun s x => s = str_text x) (fun s j => text s (jmap f g j))
    (fun s l => elements s (map (jmap f g) l)) (fun s m => members s (map (fun kv => (f (fst kv), jmap f g (snd kv))) m))); clear s j.
  - constructor.
  - constructor.
  - constructor.
  - intros s q ->. cbn [jmap]. apply x_num, N.
  - intros s x ->. cbn [jmap]. apply x_str, L.
  - apply (x_arr0 ""). constructor.
  - intros s l _ H. cbn [jmap]. apply x_arr. exact H.
  - apply (x_obj0 ""). constructor.
  - intros s m _ H. cbn [jmap]. apply x_obj. exact H.
  - intros s v _ H. cbn [map]. apply xe_one. exact H.
  - intros s v s' l _ H _ H'. cbn [map]. apply xe_more; assumption.
  - intros k key s v -> _ H. cbn [map fst snd]. apply (xm_one "" (str_text key) "" (f key)); [constructor|apply L|constructor|exact H].
  - intros k key s v s' m -> _ H _ H'. cbn [map fst snd]. apply (xm_more "" (str_text key) "" (f key)); [constructor|apply L|constructor|exact H|exact H'].
Qed.

Lemma jmap_id f g (S : string -> Prop) (N : Q -> Prop) : (forall s, S s -> f s = s) -> (forall q, N q -> g q = q) -> forall j, all_json S N j -> jmap f g j = j.
Proof.
  intros F G. induction j as [|b|q|s|l IH|m IH] using json_ind'; intros A; cbn [jmap]; inversion A; subst; try reflexivity.
  - f_equal. auto.
  - f_equal. auto.
  - f_equal. rewrite <- (map_id l) at 2. apply map_ext_in. intros j I. rewrite Forall_forall in IH. apply IH; [exact I|]. match goal with H : forall j, In j l -> _ |- _ => exact (H j I) end.
  - f_equal. rewrite <- (map_id m) at 2. apply map_ext_in. intros [k j] I. cbn [fst snd]. rewrite Forall_forall in IH.
    match goal with H : forall k j, In (k, j) m -> _ |- _ => destruct (H k j I) as [K J] end. rewrite (F k K). f_equal. exact (IH (k, j) I J).
Qed.

Lemma F2_In_r {A B} (R : A -> B -> Prop) l l' b : Forall2 R l l' -> In b l' -> exists a, In a l /\ R a b.
Proof.
  induction 1 as [|x y l l' H _ IH]; intros []; [subst; exists x; split; [left; reflexivity|exact H]|]. destruct IH as (a & I & J); [assumption|]. exists a. split; [right; exact I|exact J].
Qed.
Lemma all_reordered S N : forall j j', reordered j j' -> all_json S N j -> all_json S N j'.
Proof.
  induction j as [|b|q|s|l IH|m IH] using json_ind'; intros j' R A; inversion R; subst; try exact A.
  - constructor. intros x I. inversion A; subst. match goal with H : Forall2 _ _ _ |- _ => destruct (F2_In_r _ _ _ _ H I) as (y & Iy & Ry) end.
    rewrite Forall_forall in IH. apply (IH y Iy x Ry). auto.
  - constructor. intros k x I. inversion A; subst. match goal with H : Forall2 _ _ _ |- _ => destruct (F2_In_r _ _ _ _ H I) as ([k0 y] & Iy & Ek & Ry) end.
    cbn [fst snd] in *. subst k0. match goal with H : Permutation.Permutation _ _ |- _ => pose proof (Permutation.Permutation_in _ (Permutation.Permutation_sym H) Iy) as Im end.
    match goal with H : forall k j, In (k, j) m -> _ |- _ => destruct (H k y Im) as [K J] end. split; [exact K|]. rewrite Forall_forall in IH. exact (IH (k, y) Im x Ry J).
Qed.

(* ---------- strings of what is written ---------- *)

(* Keys and constants of the types. *)
Definition asciib (s : string) : bool := forallb (fun a => N_of_ascii a <? 128)%N (list_ascii_of_string s).
Fixpoint json_ascii (j : json) : bool :=
  match j with
  | JNum _ => false
  | JStr s => asciib s
  | JArr l => forallb json_ascii l
  | JObj m => forallb (fun kv => asciib (fst kv) && json_ascii (snd kv)) m
  | _ => true
  end.
Definition ascii_types (T : list (string * ent)) : bool :=
  forallb (fun ne => match snd ne with
                     | EEnum _ => true
                     | EStruct fs ps _ =>
                         forallb (fun f => match f_key f with Some k => asciib k | None => true end) fs &&
                         forallb (fun p => match p with PConst m => json_ascii (JObj m) | _ => true end) ps
                     end) T.
Lemma ascii_30 : ascii_types T30 = true.
Proof. vm_compute. reflexivity. Qed.
Lemma ascii_31 : ascii_types T31 = true.
Proof. vm_compute. reflexivity. Qed.

Lemma ascii_valid s : asciib s = true -> valid s.
Proof.
  unfold asciib. induction s as [|a s IH]; [constructor|]. cbn [list_ascii_of_string forallb]. intros H. apply andb_prop in H. destruct H as [H1 H2].
  assert (E : String a s = utf8 (N_of_ascii a) ^^ s) by (unfold utf8; rewrite H1; unfold byte; rewrite ascii_N_embedding; reflexivity).
  rewrite E. apply N.ltb_lt in H1. constructor; [unfold scalar; lia|apply IH; exact H2].
Qed.
Lemma json_ascii_all N j : json_ascii j = true -> all_json valid N j.
Proof.
  induction j as [|b|q|s|l IH|m IH] using json_ind'; cbn [json_ascii]; intros H; try discriminate H; constructor.
  - apply ascii_valid. exact H.
  - intros j I. rewrite forallb_forall in H. rewrite Forall_forall in IH. exact (IH j I (H j I)).
  - intros k j I. rewrite forallb_forall in H. specialize (H (k, j) I). apply andb_prop in H. cbn [fst snd] in H. rewrite Forall_forall in IH. split; [apply ascii_valid, H|exact (IH (k, j) I (proj2 H))].
Qed.

Lemma seq_In {A} (l : list (option A)) r x : seq_opt l = Some r -> In x r -> In (Some x) l.
Proof.
  revert r. induction l as [|[y|] l IH]; intros r H I; cbn [seq_opt] in H; [injection H as <-; destruct I| |discriminate H].
  destruct (seq_opt l) as [r'|]; [|discriminate H]. injection H as <-. destruct I as [<-|I]; [left; reflexivity|right; exact (IH r' eq_refl I)].
Qed.

Lemma union_all S N : forall ps acc j, junion_loop ps acc = Some j -> (forall p, In p ps -> all_json S N p) -> all_json S N (JObj acc) -> all_json S N j.
Proof.
  assert (App : forall a b, all_json S N (JObj a) -> all_json S N (JObj b) -> all_json S N (JObj (a ++ b))).
  { intros a b A B. inversion A; subst. inversion B; subst. constructor. intros k j I. apply in_app_or in I. destruct I; auto. }
  induction ps as [|p ps IH]; intros acc j H P A; cbn [junion_loop] in H; [injection H as <-; exact A|].
  assert (P' : forall q, In q ps -> all_json S N q) by (intros q I; apply P; right; exact I).
  assert (Pp : all_json S N p) by (apply P; left; reflexivity).
  destruct p as [|b|q|s|l|m];
    try (destruct acc; [|discriminate H]; match type of H with (if ?b then _ else _) = _ => destruct b; [injection H as <-; exact Pp|discriminate H] end).
  - exact (IH _ _ H P' A).
  - exact (IH _ _ H P' (App _ _ A Pp)).
Qed.

Section Enc.
  Variable T : list (string * ent).
  Hypothesis AT : ascii_types T = true.
  Variable N : Q -> Prop.

  Lemma fields_all : forall fs vs m, (forall f k, In f fs -> f_key f = Some k -> valid k) ->
    (forall v e, In (v, e) vs -> forall t j, e t = Some j -> all_json valid N j) ->
    enc_fields fs vs = Some m -> all_json valid N (JObj m).
  Proof.
    induction fs as [|f fs IH]; intros vs m K V H; destruct vs as [|[v e] vs]; cbn [enc_fields] in H; try discriminate H.
    - injection H as <-. constructor. intros k j [].
    - assert (K' : forall f0 k, In f0 fs -> f_key f0 = Some k -> valid k) by (intros f0 k I; apply K; right; exact I).
      assert (V' : forall v0 e0, In (v0, e0) vs -> forall t j, e0 t = Some j -> all_json valid N j) by (intros v0 e0 I; apply (V v0 e0); right; exact I).
      destruct (f_key f) as [k|] eqn:Ek; [|exact (IH vs m K' V' H)].
      destruct (f_omit f && is_empty v); [exact (IH vs m K' V' H)|].
      destruct (e (f_ty f)) as [j|] eqn:Ee; [|discriminate H]. destruct (enc_fields fs vs) as [m'|] eqn:Em; [|discriminate H]. injection H as <-.
      specialize (IH vs m' K' V' Em). inversion IH; subst. constructor. intros k0 j0 [I|I]; [injection I as <- <-|auto].
      split; [exact (K f k (or_introl eq_refl) Ek)|exact (V v e (or_introl eq_refl) _ _ Ee)].
  Qed.

  Lemma enc_all : forall v, all_val valid N v -> forall t j, CodecModel.enc T v t = Some j -> all_json valid N j.
  Proof.
    induction v as [|s|q|b|j0|v IH|l IH|m IH|l IH] using val_ind'; intros A t j H; inversion A; subst; cbn [CodecModel.enc] in H; destruct t as [| | | | | |t|t|t|n]; try discriminate H.
    - injection H as <-; constructor.
    - injection H as <-; constructor.
    - injection H as <-; constructor.
    - injection H as <-; constructor; assumption.
    - destruct (get n T) as [[vals|]|]; try discriminate H.
      destruct (in_list s vals); [injection H as <-; constructor; assumption|discriminate H].
    - injection H as <-; constructor; assumption.
    - injection H as <-; constructor; assumption.
    - injection H as <-; constructor.
    - injection H as <-; assumption.
    - exact (IH H1 _ _ H).
    - destruct (seq_opt _) as [js|] eqn:E; [|discriminate H]. injection H as <-. constructor. intros j I.
      pose proof (seq_In _ _ _ E I) as I2. apply in_map_iff in I2. destruct I2 as (v & Ev & Iv). rewrite Forall_forall in IH. exact (IH v Iv (H1 v Iv) _ _ Ev).
    - destruct (seq_opt _) as [js|] eqn:E; [|discriminate H]. injection H as <-. constructor. intros k j I.
      pose proof (seq_In _ _ _ E I) as I2. apply in_map_iff in I2. destruct I2 as ([k0 v] & Ev & Iv). cbn [fst snd] in Ev.
      destruct (CodecModel.enc T v t) as [j'|] eqn:Ej; [|discriminate Ev]. injection Ev as -> ->. destruct (H1 k v Iv) as [K V]. split; [exact K|].
      rewrite Forall_forall in IH. exact (IH (k, v) Iv V _ _ Ej).
    - destruct (get n T) as [[|fs ps d]|] eqn:G; try discriminate H.
      destruct (seq_opt _) as [js|] eqn:E; [|discriminate H]. unfold junion in H. apply (union_all valid N js [] j H); [|constructor; intros k x []].
      intros p I. pose proof (seq_In _ _ _ E I) as I2. apply in_map_iff in I2. destruct I2 as (pt & Ep & Ip).
      unfold ascii_types in AT. rewrite forallb_forall in AT. specialize (AT _ (get_In _ _ _ G)). cbn [snd] in AT. apply andb_prop in AT. destruct AT as [AK AC].
      rewrite forallb_forall in AK, AC. rewrite Forall_forall in IH.
      assert (V : forall v e, In (v, e) (map (fun v => (v, CodecModel.enc T v)) l) -> forall t j, e t = Some j -> all_json valid N j).
      { intros v e Iv t0 j0 E0. apply in_map_iff in Iv. destruct Iv as (v0 & X & Iv). injection X as <- <-. exact (IH v0 Iv (H1 v0 Iv) _ _ E0). }
      destruct pt as [m| |i]; cbn [enc_part] in Ep.
      + injection Ep as <-. apply json_ascii_all. exact (AC _ Ip).
      + destruct (enc_fields _ _) as [m|] eqn:Em; [|discriminate Ep]. injection Ep as <-. apply (fields_all _ _ _ (fun f k If Ek => ascii_valid k ltac:(pose proof (AK f If) as X; rewrite Ek in X; exact X)) V Em).
      + destruct (nth_error fs i) as [f|]; [|discriminate Ep]. destruct (nth_error (map _ l) i) as [[v e]|] eqn:Ei; [|discriminate Ep]. exact (V v e (nth_error_In _ _ Ei) _ _ Ep).
  Qed.
End Enc.

(* ---------- what is written is read ---------- *)

Definition exact_number (rnd : Q -> Q) (q : Q) : Prop := rnd q = q \/ exists z, q = inject_Z z /\ (-2 ^ 63 <= z < 2 ^ 63)%Z.

Lemma clean_numbers rnd : forall j, clean rnd j -> all_json valid (fun _ => True) j -> all_json valid (exact_number rnd) j.
Proof.
  induction j as [|b|q|s|l IH|m IH] using json_ind'; intros C A; inversion C; subst; inversion A; subst; constructor; auto.
  - left. assumption.
  - intros j I. rewrite Forall_forall in IH. auto.
  - intros k j I. rewrite Forall_forall in IH. match goal with H : forall k j, In (k, j) m -> valid k /\ _ |- _ => destruct (H k j I) as [K J] end.
    split; [exact K|]. apply (IH (k, j) I); [|exact J]. match goal with H : forall k j, In (k, j) m -> clean rnd j |- _ => exact (H k j I) end.
Qed.

Lemma wf_numbers T rnd derived extra : forall t v, wf T rnd derived extra t v -> utf8_val v -> all_val valid (exact_number rnd) v.
Proof.
  unfold utf8_val. induction 1 as [s|b|z Z|q R|j C| | | | |t v _ IH|t l _ IH|t m _ _ IH|n vals s G I|n fs parts d vs G L _ IH _ _ _]; intros A; inversion A; subst; constructor; auto.
  - right. exists z. auto.
  - left. exact R.
  - apply clean_numbers; assumption.
  - intros k v I. match goal with H : forall k v, In (k, v) m -> _ |- _ => destruct (H k v I) as [K V] end. split; [exact K|exact (IH k v I V)].
  - intros v I. apply In_nth_error in I. destruct I as (i & Ei). destruct (nth_error fs i) as [f|] eqn:Ef.
    + apply (IH i f v Ef Ei). match goal with H : forall v, In v vs -> _ |- _ => exact (H v (nth_error_In _ _ Ei)) end.
    + apply nth_error_None in Ef. pose proof (proj1 (nth_error_Some vs i) ltac:(congruence)) as X. lia.
Qed.

Section Numbers.
  Variable rnd : Q -> Q.
  Variable num_text : Q -> string.
  Hypothesis OK : numbers_ok rnd num_text.

  (* The number that a text is read as. *)
  Definition seen (q : Q) : Q := match parse (num_text q) with Some (JNum q') => q' | _ => 0%Q end.
  Lemma seen_numeral q : numeral (num_text q) (seen q).
  Proof. destruct OK as [N]. destruct (N q) as (q' & Nq & _). unfold seen. rewrite (text_parse false _ _ (x_num _ _ Nq)). exact Nq. Qed.
  Lemma seen_exact q : exact_number rnd q -> seen q = q.
  Proof. intros E. destruct OK as [N]. destruct (N q) as (q' & Nq & X). unfold seen. rewrite (text_parse false _ _ (x_num _ _ Nq)). exact (X E). Qed.

  Lemma bytes_parse s j : jtext (fun s q => s = num_text q) (fun s x => s = quote x) s j -> parse s = Some (jmap repair seen j).
  Proof. intros H. apply (text_parse false). exact (jtext_text num_text quote repair seen seen_numeral quote_repair s j H). Qed.

  Lemma bytes_any T : numless T = true -> plain_parts T = true -> forall t v s, single v -> marshal_text T num_text quote t v = UOk s ->
    exists g j j', (forall q, exact_number rnd q -> g q = q) /\
      marshal T t v = Some j /\ reordered j j' /\ text s (jmap repair g j') /\ parse s = Some (jmap repair g j').
  Proof.
    intros NL PP t v s S E. pose proof (text_is_json T num_text quote (quote_ok rnd num_text OK) NL PP t v S) as X. rewrite E in X. destruct X as (j & j' & M & R & J).
    exists seen, j, j'. split; [exact seen_exact|]. split; [exact M|]. split; [exact R|]. split; [|exact (bytes_parse s j' J)].
    exact (jtext_text num_text quote repair seen seen_numeral quote_repair s j' J).
  Qed.

  Lemma bytes_exact T : ascii_types T = true -> forall derived extra t v s j0 j,
    wf T rnd derived extra t v -> utf8_val v -> marshal T t v = Some j0 -> reordered j0 j ->
    jtext (fun s q => s = num_text q) (fun s x => s = quote x) s j -> parse s = Some j.
  Proof.
    intros AT derived extra t v s j0 j W U M R J. rewrite (bytes_parse _ _ J). f_equal.
    apply (jmap_id repair seen valid (exact_number rnd) repair_same seen_exact). apply (all_reordered _ _ _ _ R).
    apply (enc_all T AT (exact_number rnd) v (wf_numbers _ _ _ _ _ _ W U) t). exact M.
  Qed.

  Lemma bytes_read30 o n v : fair o -> wf T30 rnd derived30 extra30 (TNamed n) v -> utf8_val v ->
    exists s v', marshal_text T30 num_text quote (TNamed n) v = UOk s /\ unmarshal_bytes T30 rnd o (TNamed n) s = Some v' /\ vsame v (strip T30 derived30 v' (TNamed n)).
  Proof.
    intros FO W U. destruct (round30_json num_text quote rnd o n v (quote_ok rnd num_text OK) FO W) as (s & j0 & j & M & R & E & J & H).
    pose proof (bytes_exact T30 ascii_30 _ _ _ _ _ _ _ W U M R J) as P. destruct (H j (ro_refl j)) as (v' & E1 & E2).
    exists s, v'. split; [exact E|]. unfold unmarshal_bytes. rewrite P. auto.
  Qed.
  Lemma bytes_read31 o n v : fair o -> wf T31 rnd derived31 extra31 (TNamed n) v -> utf8_val v ->
    exists s v', marshal_text T31 num_text quote (TNamed n) v = UOk s /\ unmarshal_bytes T31 rnd o (TNamed n) s = Some v' /\ vsame v v' /\
      marshal_text T31 num_text quote (TNamed n) v' = UOk s.
  Proof.
    intros FO W U. destruct (round31_json num_text quote rnd o n v (quote_ok rnd num_text OK) FO W) as (s & j0 & j & M & R & E & J & H).
    pose proof (bytes_exact T31 ascii_31 _ _ _ _ _ _ _ W U M R J) as P. destruct (H j (ro_refl j)) as (v' & E1 & E2 & E3).
    exists s, v'. split; [exact E|]. unfold unmarshal_bytes. rewrite P. auto.
  Qed.
End Numbers.

(* ---------- characters ---------- *)

Lemma harmless_app a b : harmless a -> harmless b -> harmless (a ^^ b).
Proof. intros A B. induction A as [|c s S N _ IH]; [exact B|]. rewrite app_assoc_s. constructor; assumption. Qed.
Lemma harmless_ascii a s : (N_of_ascii a < 128)%N -> ~ In (N_of_ascii a) [60; 62; 38]%N -> harmless s -> harmless (String a s).
Proof.
  intros L N H. assert (E : String a s = utf8 (N_of_ascii a) ^^ s) by (unfold utf8; apply N.ltb_lt in L; rewrite L; unfold byte; rewrite ascii_N_embedding; reflexivity).
  rewrite E. constructor; [unfold scalar; lia| |exact H]. intros [I|[I|[I|[I|[I|[]]]]]]; try (apply N; rewrite <- I; cbn; auto); rewrite <- I in L; vm_compute in L; discriminate L.
Qed.
Lemma harmless_valid s : harmless s -> valid s.
Proof. induction 1; constructor; assumption. Qed.

Ltac plain_chars := repeat (apply harmless_ascii; [reflexivity|intros I; vm_compute in I; intuition discriminate|]); try constructor.

Lemma closed_text num_text str_text (P : string -> Prop) : (forall a b, P a -> P b -> P (a ^^ b)) ->
  (forall q, P (num_text q)) -> (forall x, P (str_text x)) -> (forall a, In a ["null"; "true"; "false"; "["; "]"; "{"; "}"; ","; ":"] -> P a) ->
  forall s j, jtext (fun s q => s = num_text q) (fun s x => s = str_text x) s j -> P s.
Proof.
  intros A N S C s0 j0. apply (jtext_mut (fun s q => s = num_text q) (fun s x => s = str_text x) (fun s _ => P s) (fun s _ => P s) (fun s _ => P s)); clear s0 j0.
  - apply C; cbn; auto 20.
  - apply C; cbn; auto 20.
  - apply C; cbn; auto 20.
  - intros s q ->. apply N.
  - intros s x ->. apply S.
  - apply (A "[" "]"); apply C; cbn; auto 20.
  - intros s l _ H. apply A; [apply C; cbn; auto 20|apply A; [exact H|apply C; cbn; auto 20]].
  - apply (A "{" "}"); apply C; cbn; auto 20.
  - intros s m _ H. apply A; [apply C; cbn; auto 20|apply A; [exact H|apply C; cbn; auto 20]].
  - intros s v _ H. exact H.
  - intros s v s' l _ H _ H'. apply A; [exact H|apply A; [apply C; cbn; auto 20|exact H']].
  - intros k key s v -> _ H. apply A; [apply S|apply A; [apply C; cbn; auto 20|exact H]].
  - intros k key s v s' m -> _ H _ H'. apply A; [apply S|apply A; [apply C; cbn; auto 20|apply A; [exact H|apply A; [apply C; cbn; auto 20|exact H']]]].
Qed.

Lemma harmless_digits s v n : digits s v n -> harmless s.
Proof.
  assert (A : forall c d, digit c d -> harmless (String c "")).
  { intros c d [P H]. set (k := Z.to_nat d) in *. clearbody k. do 10 (destruct k as [|k]; [injection H as <-; plain_chars|]). discriminate H. }
  induction 1 as [c d D|s v n c d _ IH D]; [exact (A _ _ D)|apply harmless_app; [exact IH|exact (A _ _ D)]].
Qed.
Lemma harmless_numeral s0 q0 : numeral s0 q0 -> harmless s0.
Proof.
  assert (I0 : forall i z, integral i z -> harmless i) by (intros i z H; destruct H as [|c s v n D _]; [plain_chars|exact (harmless_digits _ _ _ D)]).
  assert (F0 : forall f x, fraction f x -> harmless f) by (intros f x H; destruct H as [|s v n D]; [constructor|apply harmless_app; [plain_chars|exact (harmless_digits _ _ _ D)]]).
  assert (E0 : forall e x, exponent e x -> harmless e).
  { intros e x H. destruct H as [|e p s v n Ie Ip D|e s v n Ie D]; [constructor| |]; cbn [In] in *;
      (apply harmless_app; [destruct Ie as [<-|[<-|[]]]; plain_chars|]); (apply harmless_app; [|exact (harmless_digits _ _ _ D)]); [destruct Ip as [<-|[<-|[]]]; plain_chars|plain_chars]. }
  intros H. destruct H as [i z f x e y Hi Hf He|i z f x e y Hi Hf He]; [|apply harmless_app; [plain_chars|]];
    (apply harmless_app; [exact (I0 _ _ Hi)|apply harmless_app; [exact (F0 _ _ Hf)|exact (E0 _ _ He)]]).
Qed.

Lemma harmless_hex d : (d < 16)%N -> harmless (byte (hex d)).
Proof.
  intros H. replace d with (N.of_nat (N.to_nat d)) in * by apply N2Nat.id. set (n := N.to_nat d) in *. clearbody n.
  do 16 (destruct n as [|n]; [unfold byte; plain_chars|]). lia.
Qed.
Lemma harmless_quote x : harmless (quote x).
Proof.
  unfold quote. cbn [unbytes]. rewrite unbytes_app. apply (harmless_app """"); [plain_chars|]. apply harmless_app; [|plain_chars].
  pose proof (decode_scalar (bytes x)) as D. induction (decode (bytes x)) as [|r l IH]; [constructor|]. cbn [flat_map]. rewrite unbytes_app.
  apply harmless_app; [|apply IH; intros c I; apply D; right; exact I]. destruct r as [c|]; [|plain_chars].
  assert (S : scalar c) by (apply D; left; reflexivity). clear -S. cbn [quote_rune]. destruct (N.ltb_spec c 128) as [L|L].
  - destruct (N.eqb_spec c 92) as [->|N1]; [plain_chars|]. destruct (N.eqb_spec c 34) as [->|N2]; [plain_chars|]. cbn [orb].
    destruct (N.eqb_spec c 8) as [->|N3]; [plain_chars|]. destruct (N.eqb_spec c 12) as [->|N4]; [plain_chars|].
    destruct (N.eqb_spec c 10) as [->|N5]; [plain_chars|]. destruct (N.eqb_spec c 13) as [->|N6]; [plain_chars|]. destruct (N.eqb_spec c 9) as [->|N7]; [plain_chars|].
    destruct ((c <? 32) || (c =? 60) || (c =? 62) || (c =? 38))%N eqn:E.
    + change (unbytes [92; 117; 48; 48; hex (c / 16); hex (c mod 16)]%N) with ("\u00" ^^ byte (hex (c / 16)) ^^ byte (hex (c mod 16))).
      apply harmless_app; [plain_chars|]. apply harmless_app; apply harmless_hex; lia.
    + rewrite !Bool.orb_false_iff in E. destruct E as (((E1 & E2) & E3) & E4). apply N.eqb_neq in E2, E3, E4.
      replace (unbytes [c]) with (utf8 c ^^ "") by (unfold utf8; replace (c <? 128)%N with true by (symmetry; apply N.ltb_lt; exact L); reflexivity).
      constructor; [exact S| |constructor]. cbn [In]. lia.
  - destruct (N.eqb_spec c 8232) as [->|N1]; [plain_chars|]. destruct (N.eqb_spec c 8233) as [->|N2]; [plain_chars|]. cbn [orb].
    rewrite unbytes_encode, <- (app_nil_s (utf8 c)). constructor; [exact S| |constructor]. cbn [In]. lia.
Qed.

Lemma bytes_harmless rnd num_text T : numbers_ok rnd num_text -> numless T = true -> plain_parts T = true ->
  forall t v s, single v -> marshal_text T num_text quote t v = UOk s -> harmless s.
Proof.
  intros OK NL PP t v s S E. pose proof (text_is_json T num_text quote (quote_ok rnd num_text OK) NL PP t v S) as X. rewrite E in X. destruct X as (j & j' & _ & _ & J).
  apply (closed_text num_text quote harmless harmless_app) with (j := j'); [| |intros a I; cbn [In] in I; repeat (destruct I as [<-|I]; [plain_chars|]); destruct I|exact J].
  - intros q. destruct OK as [N]. destruct (N q) as (q' & H & _). exact (harmless_numeral _ _ H).
  - exact harmless_quote.
Qed.

(* ---------- an instance ---------- *)

(* Texts of integers; float64 rounded down to one.  Only for examples: that
   [numbers_ok] can be met. *)
Fixpoint decimal (f : nat) (n : N) : string :=
  match f with
  | O => ""
  | S f => let d := String (ascii_of_N (48 + n mod 10)) "" in if (n <? 10)%N then d else decimal f (n / 10) ^^ d
  end.
Definition int_text (z : Z) : string :=
  match z with Z0 => "0" | Zpos p => decimal (Pos.size_nat p) (Npos p) | Zneg p => "-" ^^ decimal (Pos.size_nat p) (Npos p) end.
Definition whole_text (q : Q) : string := if (Qden q =? 1)%positive then int_text (Qnum q) else "0".
Definition whole (q : Q) : Q := inject_Z (Qnum q / Zpos (Qden q)).

Lemma digit_of d : (d < 10)%N -> digit (ascii_of_N (48 + d)) (Z.of_N d).
Proof.
  intros H. split; [lia|]. replace d with (N.of_nat (N.to_nat d)) in * by apply N2Nat.id. set (n := N.to_nat d) in *. clearbody n.
  do 10 (destruct n as [|n]; [reflexivity|]). lia.
Qed.
Lemma decimal_digits : forall f n, (n < 2 ^ N.of_nat f)%N -> f <> O -> exists k, digits (decimal f n) (Z.of_N n) k.
Proof.
  induction f as [|f IH]; intros n H F; [congruence|]. clear F. cbn [decimal]. destruct (N.ltb_spec n 10) as [L|L].
  - exists 1%nat. rewrite (N.mod_small n 10 L). constructor. exact (digit_of n L).
  - assert (B : (n / 10 < 2 ^ N.of_nat f)%N).
    { rewrite Nnat.Nat2N.inj_succ, N.pow_succ_r' in H. apply N.div_lt_upper_bound; lia. }
    destruct f as [|f']; [cbn in H; lia|]. destruct (IH (n / 10)%N B ltac:(discriminate)) as (k & D). exists (S k).
    assert (Ez : Z.of_N n = (10 * Z.of_N (n / 10) + Z.of_N (n mod 10))%Z) by (rewrite (N.div_mod' n 10) at 1; lia).
    rewrite Ez. apply dg_more; [exact D|]. apply digit_of. apply N.mod_lt. discriminate.
Qed.
Lemma decimal_first : forall f n, (0 < n < 2 ^ N.of_nat f)%N -> exists c s, decimal f n = String c s /\ c <> "0"%char.
Proof.
  induction f as [|f IH]; intros n H; [cbn in H; lia|]. cbn [decimal]. destruct (N.ltb_spec n 10) as [L|L].
  - eexists. eexists. split; [reflexivity|]. rewrite (N.mod_small n 10 L). replace n with (N.of_nat (N.to_nat n)) in * by apply N2Nat.id. set (m := N.to_nat n) in *. clearbody m.
    destruct m as [|m]; [lia|]. do 9 (destruct m as [|m]; [discriminate|]). lia.
  - assert (B : (0 < n / 10 < 2 ^ N.of_nat f)%N).
    { rewrite Nnat.Nat2N.inj_succ, N.pow_succ_r' in H. split; [apply N.div_str_pos; lia|apply N.div_lt_upper_bound; lia]. }
    destruct (IH (n / 10)%N B) as (c & s & E & N). rewrite E. exists c. eexists. split; [reflexivity|exact N].
Qed.
Lemma size_bound p : (Npos p < 2 ^ N.of_nat (Pos.size_nat p))%N.
Proof.
  induction p as [p IH|p IH|]; cbn [Pos.size_nat]; [| |reflexivity]; rewrite Nnat.Nat2N.inj_succ, N.pow_succ_r'; lia.
Qed.
Lemma decimal_integral p : integral (decimal (Pos.size_nat p) (Npos p)) (Zpos p).
Proof.
  destruct (decimal_first (Pos.size_nat p) (Npos p)) as (c & s & E & N); [split; [reflexivity|apply size_bound]|].
  destruct (decimal_digits (Pos.size_nat p) (Npos p) (size_bound p)) as (k & D); [destruct p; discriminate|].
  rewrite E in D |- *. exact (in_digits c s _ k D N).
Qed.
Lemma int_numeral z : numeral (int_text z) (inject_Z z).
Proof.
  assert (Q1 : forall a, Qred ((inject_Z a + 0) * Qpower 10 0) = inject_Z a).
  { intros a. transitivity (Qred (inject_Z a)); [apply Qred_complete; cbn [Qpower]; ring|]. apply Qcanon.Qred_identity. cbn [inject_Z Qnum Qden]. apply Z.gcd_1_r. }
  destruct z as [|p|p].
  - change (int_text 0) with ("0" ^^ "" ^^ ""). rewrite <- Q1. apply nu_plus; constructor.
  - cbn [int_text]. rewrite <- (app_nil_s (decimal _ _)). change (decimal (Pos.size_nat p) (N.pos p) ^^ "") with (decimal (Pos.size_nat p) (N.pos p) ^^ "" ^^ "").
    rewrite <- Q1. apply nu_plus; [apply decimal_integral|constructor|constructor].
  - cbn [int_text]. rewrite <- (app_nil_s (decimal _ _)). change (decimal (Pos.size_nat p) (N.pos p) ^^ "") with (decimal (Pos.size_nat p) (N.pos p) ^^ "" ^^ "").
    assert (E : inject_Z (Zneg p) = Qred (- ((inject_Z (Zpos p) + 0) * Qpower 10 0))).
    { transitivity (Qred (inject_Z (Zneg p))); [symmetry; apply Qcanon.Qred_identity; cbn [inject_Z Qnum Qden]; apply Z.gcd_1_r|].
      apply Qred_complete. change (inject_Z (Z.neg p)) with (- inject_Z (Z.pos p))%Q. cbn [Qpower]. ring. }
    rewrite E. apply nu_minus; [apply decimal_integral|constructor|constructor].
Qed.
Lemma whole_ok : numbers_ok whole whole_text.
Proof.
  constructor. intros [n d]. unfold whole_text, whole. cbn [Qden Qnum]. destruct (Pos.eqb_spec d 1) as [->|N].
  - exists (inject_Z n). split; [apply int_numeral|reflexivity].
  - exists (inject_Z 0). split; [exact (int_numeral 0)|]. intros [X|(z & X & _)]; exfalso; apply N; injection X; auto.
Qed.

(* Documents of literals in examples. *)
Lemma repaired_valid s : repair s = s -> valid s.
Proof. intros <-. apply repair_valid. Qed.
Fixpoint json_utf8 (j : json) : bool :=
  match j with
  | JStr s => String.eqb (repair s) s
  | JArr l => forallb json_utf8 l
  | JObj m => forallb (fun kv => String.eqb (repair (fst kv)) (fst kv) && json_utf8 (snd kv)) m
  | _ => true
  end.
Fixpoint val_utf8 (v : val) : bool :=
  match v with
  | VStr s => String.eqb (repair s) s
  | VAny j => json_utf8 j
  | VPtr v => val_utf8 v
  | VArr l | VStruct l => forallb val_utf8 l
  | VMap m => forallb (fun kv => String.eqb (repair (fst kv)) (fst kv) && val_utf8 (snd kv)) m
  | _ => true
  end.
Lemma json_utf8_ok j : json_utf8 j = true -> all_json valid (fun _ => True) j.
Proof.
  induction j as [|b|q|s|l IH|m IH] using json_ind'; cbn [json_utf8]; intros H; constructor; try exact I.
  - apply repaired_valid, String.eqb_eq, H.
  - intros j J. rewrite forallb_forall in H. rewrite Forall_forall in IH. auto.
  - intros k j J. rewrite forallb_forall in H. specialize (H (k, j) J). apply andb_prop in H. cbn [fst snd] in H. rewrite Forall_forall in IH.
    split; [apply repaired_valid, String.eqb_eq, H|exact (IH (k, j) J (proj2 H))].
Qed.
Lemma val_utf8_ok v : val_utf8 v = true -> utf8_val v.
Proof.
  unfold utf8_val. induction v as [|s|q|b|j|v IH|l IH|m IH|l IH] using val_ind'; cbn [val_utf8]; intros H; constructor; try exact I; auto.
  - apply repaired_valid, String.eqb_eq, H.
  - apply json_utf8_ok, H.
  - intros v J. rewrite forallb_forall in H. rewrite Forall_forall in IH. auto.
  - intros k j J. rewrite forallb_forall in H. specialize (H (k, j) J). apply andb_prop in H. cbn [fst snd] in H. rewrite Forall_forall in IH.
    split; [apply repaired_valid, String.eqb_eq, H|exact (IH (k, j) J (proj2 H))].
  - intros v J. rewrite forallb_forall in H. rewrite Forall_forall in IH. auto.
Qed.
