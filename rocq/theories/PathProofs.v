From Verif Require Import Str PathModel PathSpec.

(* ---------- characters ---------- *)

Lemma no_char_sforall c s : no_char c s <-> sforall (fun d => negb (Ascii.eqb d c)) s = true.
Proof.
  unfold no_char. induction s as [|d s IH]; simpl.
  - split; auto. intros _ [|x a] b; discriminate.
  - rewrite andb_true_iff, negb_true_iff, Ascii.eqb_neq, <- IH. split.
    + intros H. split.
      * intros ->. apply (H "" s). reflexivity.
      * intros a b E. apply (H (String d a) b). simpl. congruence.
    + intros [Hd H] [|x a] b E; simpl in E; injection E as -> E; [congruence|].
      apply (H a b). exact E.
Qed.

Lemma name_chars_iff n :
  sforall name_char n = true <-> no_char "}" n /\ no_char ":" n.
Proof.
  rewrite !no_char_sforall. unfold name_char. induction n; simpl; [tauto|].
  rewrite !andb_true_iff, IHn. tauto.
Qed.

Lemma re_chars_iff n : sforall re_char n = true <-> no_char "}" n.
Proof. rewrite no_char_sforall. reflexivity. Qed.

Definition con_of (re : string) : option string :=
  match re with EmptyString => None | String _ r => Some r end.

Definition mk_match (n : string) (con : option string) : pmatch :=
  {| m_all := ph_text n con; m_name := n;
     m_re := match con with None => "" | Some r => ":" ^^ r end |}.

Ltac sapp := repeat (progress (simpl; rewrite ?app_assoc_s)).

Lemma match_here_some n con r : wf_ph n con ->
  match_here (ph_text n con ^^ r) = Some (mk_match n con).
Proof.
  intros (Hn & H1 & H2 & Hc). unfold match_here, mk_match.
  assert (Hs : sforall name_char n = true) by (apply name_chars_iff; auto).
  destruct con as [re|]; simpl in Hc.
  - destruct Hc as [Hre Hre2]. apply re_chars_iff in Hre2.
    assert (E : ph_text n (Some re) ^^ r = String "{" (n ^^ String ":" (re ^^ String "}" r))) by (sapp; reflexivity).
    rewrite E.
    rewrite (span_exact name_char n (String ":" (re ^^ String "}" r))); auto.
    destruct n as [|c n]; [congruence|]. simpl is_empty. cbn iota.
    rewrite (span_exact re_char re (String "}" r)); auto.
    destruct re as [|c' re]; [congruence|]. reflexivity.
  - assert (E : ph_text n None ^^ r = String "{" (n ^^ String "}" r)) by (sapp; reflexivity).
    rewrite E.
    rewrite (span_exact name_char n (String "}" r)); auto.
    destruct n as [|c n]; [congruence|]. reflexivity.
Qed.

Lemma match_here_inv s m : match_here s = Some m ->
  exists n con r, wf_ph n con /\ s = ph_text n con ^^ r /\ m = mk_match n con.
Proof.
  unfold match_here. destruct s as [|c s]; [discriminate|].
  destruct (Ascii.eqb c "{") eqn:Ec; [|discriminate]. apply Ascii.eqb_eq in Ec. subst c.
  destruct (span name_char s) as [g1 r1] eqn:E1.
  pose proof (span_app _ _ _ _ E1) as A1.
  pose proof (span_forall _ _ _ _ E1) as F1. apply name_chars_iff in F1 as [F1 F1'].
  pose proof (span_stop _ _ _ _ E1) as S1.
  destruct (is_empty g1) eqn:G1; [discriminate|].
  assert (N1 : g1 <> "") by (intros ->; discriminate).
  destruct r1 as [|d r2]; [discriminate|].
  destruct (Ascii.eqb d "}") eqn:Ed.
  - apply Ascii.eqb_eq in Ed. subst d. intros H. injection H as <-.
    exists g1, None, r2. repeat split; auto. subst s. simpl. rewrite app_assoc_s. reflexivity.
  - destruct (span re_char r2) as [g2 r3] eqn:E2.
    pose proof (span_app _ _ _ _ E2) as A2.
    pose proof (span_forall _ _ _ _ E2) as F2. apply re_chars_iff in F2.
    pose proof (span_stop _ _ _ _ E2) as S2.
    destruct (is_empty g2) eqn:G2; [discriminate|].
    assert (N2 : g2 <> "") by (intros ->; discriminate).
    destruct r3 as [|e r4]; [discriminate|]. intros H. injection H as <-.
    assert (d = ":"%char) as ->.
    { unfold name_char in S1. rewrite Ed in S1. simpl in S1.
      apply negb_false_iff in S1. apply Ascii.eqb_eq in S1. exact S1. }
    assert (e = "}"%char) as ->.
    { unfold re_char in S2. apply negb_false_iff, Ascii.eqb_eq in S2. exact S2. }
    exists g1, (Some g2), r4. repeat split; auto.
    subst s r2. simpl. rewrite !app_assoc_s. simpl. rewrite !app_assoc_s. reflexivity.
Qed.

Lemma match_here_none s : match_here s = None <-> no_ph_here s.
Proof.
  split.
  - intros H n con r W ->. rewrite (match_here_some n con r W) in H. discriminate.
  - intros H. destruct (match_here s) as [m|] eqn:E; auto.
    apply match_here_inv in E as (n & con & r & W & -> & _). exfalso. eapply H; eauto.
Qed.

Lemma mk_match_inj n con n' con' : wf_ph n con -> wf_ph n' con' ->
  mk_match n con = mk_match n' con' -> n = n' /\ con = con'.
Proof.
  intros W W' H. assert (Hn := f_equal m_name H). assert (Hr := f_equal m_re H). simpl in *.
  split; auto. destruct con, con'; simpl in Hr; try congruence; injection Hr as ->; auto.
Qed.

Lemma ph_text_unique n con r n' con' r' : wf_ph n con -> wf_ph n' con' ->
  ph_text n con ^^ r = ph_text n' con' ^^ r' -> n = n' /\ con = con' /\ r = r'.
Proof.
  intros W W' E.
  pose proof (match_here_some n con r W) as M.
  rewrite E, (match_here_some n' con' r' W') in M.
  assert (n = n' /\ con = con') as [-> ->].
  { apply mk_match_inj; auto. congruence. }
  split; auto. split; auto. apply app_inv_head_s in E. exact E.
Qed.

(* ---------- find_all computes the parse ---------- *)

Definition seg_match (x : seg) : list pmatch :=
  match x with Lit _ => [] | Ph n con => [mk_match n con] end.

Lemma find_all_skip p : forall r, find_all_from (String.length p) (p ^^ r) = find_all_from 0 r.
Proof.
  induction p as [|c p IH]; intros r; [reflexivity|].
  simpl. apply IH.
Qed.

Lemma ph_text_cons n con : exists t, ph_text n con = String "{" t.
Proof. destruct con; simpl; eauto. Qed.

Lemma find_all_parses s l : parses s l -> find_all s = flat_map seg_match l.
Proof.
  unfold find_all. induction 1 as [|n con s l W H IH|c s l N H IH]; [reflexivity| |].
  - pose proof (match_here_some n con s W) as M.
    destruct (ph_text_cons n con) as [t Et].
    rewrite Et in M |- *. change ((String "{" t) ^^ s) with (String "{" (t ^^ s)) in *.
    cbn [find_all_from]. rewrite M. simpl seg_match. cbn [app flat_map].
    change (m_all (mk_match n con)) with (ph_text n con). rewrite Et.
    simpl String.length. simpl pred. rewrite find_all_skip, IH. reflexivity.
  - apply match_here_none in N. cbn [find_all_from]. rewrite N. simpl. exact IH.
Qed.

Lemma parses_total : forall s, exists l, parses s l.
Proof.
  intros s. remember (String.length s) as k eqn:E.
  revert s E. induction k as [k IH] using lt_wf_ind. intros s ->.
  destruct s as [|c s]; [exists []; constructor|].
  destruct (match_here (String c s)) as [m|] eqn:M.
  - apply match_here_inv in M as (n & con & r & W & E & _).
    destruct (IH (String.length r)) with (s := r) as [l Hl]; auto.
    { rewrite E, length_app_s. destruct (ph_text_cons n con) as [t ->]. simpl. lia. }
    exists (Ph n con :: l). rewrite E. constructor; auto.
  - apply match_here_none in M.
    destruct (IH (String.length s)) with (s := s) as [l Hl]; auto.
    exists (Lit c :: l). constructor; auto.
Qed.

Lemma parses_unique s l : parses s l -> forall l', parses s l' -> l = l'.
Proof.
  assert (NE : forall n con r, ph_text n con ^^ r <> "").
  { intros n con r. destruct (ph_text_cons n con) as [t ->]. discriminate. }
  induction 1 as [|n con s l W H IH|c s l N H IH]; intros l' P.
  - inversion P as [|n' con' s' l2 W' P' E|]; auto. exfalso. eapply NE; eauto.
  - remember (ph_text n con ^^ s) as u eqn:Eu.
    destruct P as [|n' con' s' l2 W' P'|c' s' l2 N' P'].
    + exfalso. symmetry in Eu. eapply NE; eauto.
    + apply ph_text_unique in Eu as (-> & -> & ->); auto. f_equal. auto.
    + exfalso. eapply N'; eauto.
  - remember (String c s) as u eqn:Eu.
    destruct P as [|n' con' s' l2 W' P'|c' s' l2 N' P'].
    + discriminate.
    + exfalso. symmetry in Eu. eapply N; eauto.
    + injection Eu as -> ->. f_equal. auto.
Qed.

Lemma parses_render s l : parses s l -> s = render l.
Proof. induction 1; simpl; congruence. Qed.

Lemma parses_wf s l : parses s l -> forall n con, In (Ph n con) l -> wf_ph n con.
Proof.
  induction 1; simpl; intros n' con' I; [tauto| |].
  - destruct I as [I|I]; [injection I as <- <-; auto | eauto].
  - destruct I as [I|I]; [discriminate | eauto].
Qed.

(* ---------- changing constraints keeps the parse ---------- *)

(* [same_shape l l']: equal up to constraints. *)
Definition same_shape (l l' : list seg) : Prop := map strip l = map strip l'.

(* Decision of [match_here] for a literal '{', made before the next
   placeholder. *)
Fixpoint lit_prefix (l : list seg) : string * list seg :=
  match l with
  | Lit c :: l' => let (a, b) := lit_prefix l' in (String c a, b)
  | _ => ("", l)
  end.

Lemma lit_prefix_render l : forall a b, lit_prefix l = (a, b) -> render l = a ^^ render b.
Proof.
  induction l as [|x l IH]; simpl; intros a b H.
  - injection H as <- <-. reflexivity.
  - destruct x as [c|n con].
    + destruct (lit_prefix l) as [u v] eqn:E. injection H as <- <-. simpl.
      rewrite (IH _ _ eq_refl). reflexivity.
    + injection H as <- <-. reflexivity.
Qed.

Lemma lit_prefix_tail l : forall a b, lit_prefix l = (a, b) ->
  match b with Lit _ :: _ => False | _ => True end.
Proof.
  induction l as [|x l IH]; simpl; intros a b H.
  - injection H as <- <-. exact I.
  - destruct x as [c|n con].
    + destruct (lit_prefix l) as [u v] eqn:E. injection H as <- <-. eapply IH; eauto.
    + injection H as <- <-. exact I.
Qed.

Lemma lit_prefix_same l : forall l' a b, same_shape l l' -> lit_prefix l = (a, b) ->
  exists b', lit_prefix l' = (a, b') /\ same_shape b b'.
Proof.
  unfold same_shape. induction l as [|x l IH]; intros [|y l'] a b S; simpl in *; intros H;
    try discriminate.
  - injection H as <- <-. eauto.
  - injection S as Sx S. destruct x as [c|n con], y as [c'|n' con']; try discriminate.
    + injection Sx as ->. destruct (lit_prefix l) as [u v] eqn:E. injection H as <- <-.
      destruct (IH l' u v S eq_refl) as (b' & -> & S'). eauto.
    + injection Sx as ->. injection H as <- <-. exists (Ph n' con' :: l').
      split; auto. simpl. congruence.
Qed.

(* A '{' followed by literal bytes L and then by a placeholder is not the
   beginning of a placeholder: then this is decided within L. *)
Lemma brace_local L n con r n' con' r' :
  wf_ph n con -> wf_ph n' con' ->
  no_ph_here (String "{" (L ^^ ph_text n con ^^ r)) ->
  no_ph_here (String "{" (L ^^ ph_text n' con' ^^ r')).
Proof.
  intros W W' H. apply match_here_none. apply match_here_none in H.
  destruct W as (Wn & Wn1 & Wn2 & Wc). destruct W' as (Wn' & Wn1' & Wn2' & Wc').
  assert (Hn : sforall name_char n = true) by (apply name_chars_iff; auto).
  destruct (span name_char L) as [g1 r1] eqn:E1.
  pose proof (span_app _ _ _ _ E1) as A1.
  pose proof (span_forall _ _ _ _ E1) as F1.
  pose proof (span_stop _ _ _ _ E1) as S1.
  destruct r1 as [|d r1].
  - (* all of L is name bytes: the first text would match *)
    exfalso. rewrite app_nil_r_s in A1. subst g1.
    assert (W2 : wf_ph (L ^^ "{" ^^ n) con).
    { assert (X : sforall name_char (L ^^ "{" ^^ n) = true).
      { rewrite sforall_app, F1. simpl. rewrite Hn. reflexivity. }
      apply name_chars_iff in X as [X1 X2].
      repeat split; auto. destruct L; discriminate. }
    assert (E : String "{" (L ^^ ph_text n con ^^ r) = ph_text (L ^^ "{" ^^ n) con ^^ r).
    { destruct con; simpl; rewrite ?app_assoc_s; simpl; rewrite ?app_assoc_s; reflexivity. }
    rewrite E, (match_here_some _ con r W2) in H. discriminate.
  - subst L. unfold match_here in *.
    change (Ascii.eqb "{" "{") with true in *. cbn iota in *.
    rewrite app_assoc_s in *. simpl in H |- *.
    rewrite (span_exact name_char g1 (String d (r1 ^^ ph_text n con ^^ r))) in H by auto.
    rewrite (span_exact name_char g1 (String d (r1 ^^ ph_text n' con' ^^ r'))) by auto.
    destruct (is_empty g1) eqn:G1; [reflexivity|].
    destruct (Ascii.eqb d "}"); [discriminate|].
    destruct (span re_char r1) as [g2 r2] eqn:E2.
    pose proof (span_app _ _ _ _ E2) as A2.
    pose proof (span_forall _ _ _ _ E2) as F2.
    pose proof (span_stop _ _ _ _ E2) as S2.
    destruct r2 as [|e r2].
    + (* no '}' in the rest of L: the first text would match *)
      exfalso. rewrite app_nil_r_s in A2. subst g2.
      assert (P : exists t u, ph_text n con = String "{" (t ^^ "}" ^^ u) /\ sforall re_char t = true).
      { destruct con as [re|].
        - exists (n ^^ ":" ^^ re), "". simpl. rewrite !app_assoc_s. split; auto.
          rewrite sforall_app. simpl. apply andb_true_iff. split.
          + apply re_chars_iff. auto.
          + destruct Wc as [_ Wc]. apply re_chars_iff. auto.
        - exists n, "". simpl. split; auto. apply re_chars_iff. auto. }
      destruct P as (t & u & Pt & Ft). rewrite Pt in H. simpl in H.
      replace (r1 ^^ String "{" ((t ^^ String "}" u) ^^ r))
        with ((r1 ^^ String "{" t) ^^ String "}" (u ^^ r)) in H
        by (sapp; reflexivity).
      rewrite (span_exact re_char (r1 ^^ String "{" t) (String "}" (u ^^ r))) in H.
      * destruct (is_empty (r1 ^^ String "{" t)) eqn:Z; [|discriminate].
        apply is_empty_true in Z. destruct r1; discriminate.
      * rewrite sforall_app, F2. simpl. exact Ft.
      * reflexivity.
    + subst r1. rewrite app_assoc_s in *. simpl in H |- *.
      rewrite (span_exact re_char g2 (String e (r2 ^^ ph_text n con ^^ r))) in H by auto.
      rewrite (span_exact re_char g2 (String e (r2 ^^ ph_text n' con' ^^ r'))) by auto.
      destruct (is_empty g2); [reflexivity | discriminate].
Qed.

Lemma not_brace_no_ph c s : c <> "{"%char -> no_ph_here (String c s).
Proof.
  intros N n con r W E. destruct (ph_text_cons n con) as [t Et]. rewrite Et in E.
  injection E as E _. congruence.
Qed.

Lemma same_shape_parses s l : parses s l ->
  forall l', same_shape l l' -> (forall n con, In (Ph n con) l' -> wf_ph n con) ->
  parses (render l') l'.
Proof.
  induction 1 as [|n con s l W H IH|c s l N H IH]; intros [|y l'] S WF; try discriminate S.
  - constructor.
  - injection S as Sx S. destruct y as [c'|n' con']; [discriminate|]. injection Sx as <-.
    simpl. constructor; [apply WF; simpl; auto|]. apply IH; auto.
    intros; apply WF; simpl; auto.
  - injection S as Sx S. destruct y as [c'|n' con']; [|discriminate]. injection Sx as <-.
    simpl. constructor; [|apply IH; auto; intros; apply WF; simpl; auto].
    destruct (Ascii.eqb c "{") eqn:Ec.
    2:{ apply Ascii.eqb_neq in Ec. apply not_brace_no_ph. exact Ec. }
    apply Ascii.eqb_eq in Ec. subst c.
    pose proof (parses_render _ _ H) as R. subst s.
    destruct (lit_prefix l) as [L b] eqn:EL.
    destruct (lit_prefix_same _ _ _ _ S EL) as (b' & EL' & Sb).
    rewrite (lit_prefix_render _ _ _ EL) in N.
    rewrite (lit_prefix_render _ _ _ EL').
    pose proof (lit_prefix_tail _ _ _ EL) as T.
    destruct b as [|[cb|nb conb] b]; [|contradiction|].
    + destruct b' as [|]; [|discriminate Sb]. exact N.
    + destruct b' as [|[cb'|nb' conb'] b']; try discriminate Sb.
      assert (WFl : forall (L : string) l a b, lit_prefix l = (a, b) ->
                    forall x, In x b -> In x l).
      { clear. intros _. induction l as [|x l IH]; simpl; intros a b E y I.
        - injection E as <- <-. auto.
        - destruct x as [c|].
          + destruct (lit_prefix l) as [u v] eqn:E'. injection E as <- <-. eauto.
          + injection E as <- <-. auto. }
      simpl in N |- *.
      apply (brace_local L nb conb (render b) nb' conb' (render b')); auto.
      * eapply parses_wf; [exact H|]. eapply (WFl ""); [exact EL|]. simpl; auto.
      * apply WF. right. eapply (WFl ""); [exact EL'|]. simpl; auto.
Qed.

Lemma strip_idem x : strip (strip x) = strip x.
Proof. destruct x; reflexivity. Qed.

Lemma same_shape_strip l : same_shape l (map strip l).
Proof. unfold same_shape. rewrite map_map. apply map_ext. intros; symmetry; apply strip_idem. Qed.

Lemma strip_wf l : (forall n con, In (Ph n con) l -> wf_ph n con) ->
  forall n con, In (Ph n con) (map strip l) -> wf_ph n con.
Proof.
  intros H n con I. apply in_map_iff in I as (x & E & I).
  destruct x as [c|n' con']; [discriminate|]. injection E as <- <-.
  destruct (H _ _ I) as (? & ? & ? & ?). repeat split; auto.
Qed.

(* ---------- the replace loop ---------- *)

(* [m] does not occur in [A ^^ X] at a position inside [A]. *)
Definition occ_free (m A X : string) : Prop :=
  forall A1 A2, A = A1 ^^ A2 -> A2 <> "" -> String.prefix m (A2 ^^ X) = false.

Lemma occ_free_app m A B X : occ_free m A (B ^^ X) -> occ_free m B X -> occ_free m (A ^^ B) X.
Proof.
  intros HA HB. revert HA. induction A as [|c A IH]; simpl; intros HA; [exact HB|].
  intros A1 A2 E N.
  destruct A1 as [|d A1]; simpl in E.
  - subst A2. simpl. rewrite app_assoc_s. apply (HA "" (String c A)); auto. discriminate.
  - injection E as -> E. apply (IH (fun A3 A4 E3 N4 => HA (String d A3) A4 (f_equal (String d) E3) N4) A1 A2 E N).
Qed.

Lemma replace_first_at m A B new : m <> "" -> occ_free m A (m ^^ B) ->
  replace_first (A ^^ m ^^ B) m new = A ^^ new ^^ B.
Proof.
  intros Nm. induction A as [|c A IH]; intros H.
  - change ("" ^^ m ^^ B) with (m ^^ B). change ("" ^^ new ^^ B) with (new ^^ B).
    destruct (m ^^ B) as [|c s] eqn:E.
    + destruct m; [congruence | discriminate].
    + cbn [replace_first]. rewrite <- E, prefix_app, sdrop_app. reflexivity.
  - pose proof (H "" (String c A) eq_refl ltac:(discriminate)) as P.
    change ((String c A) ^^ m ^^ B) with (String c (A ^^ m ^^ B)) in P |- *.
    change ((String c A) ^^ new ^^ B) with (String c (A ^^ new ^^ B)).
    cbn [replace_first]. rewrite P. f_equal. apply IH. intros A1 A2 E N. apply (H (String c A1) A2); simpl; congruence.
Qed.

(* No constrained placeholder text occurs inside {n}. *)
Lemma occ_free_plain n k re X : sforall name_char n = true -> wf_ph k (Some re) ->
  occ_free (ph_text k (Some re)) (n ^^ "}") X.
Proof.
  intros Hn W A1 A2 E N. destruct (String.prefix _ _) eqn:P; auto. exfalso.
  apply prefix_iff in P as [r P].
  assert (M : match_here (A2 ^^ X) = Some (mk_match k (Some re))).
  { rewrite P. apply match_here_some. exact W. }
  (* A2 is a non-empty suffix of n} *)
  assert (S : exists t, A2 = t ^^ "}" /\ sforall name_char t = true).
  { clear - E N Hn. revert A1 E. induction n as [|c n IH]; simpl in *; intros A1 E.
    - destruct A1 as [|d A1]; simpl in E; [exists ""; subst; auto|].
      injection E as _ E. destruct A1; simpl in E; [congruence|discriminate].
    - apply andb_true_iff in Hn as [Hc Hn].
      destruct A1 as [|d A1]; simpl in E.
      + exists (String c n). subst A2. split; auto. simpl. rewrite Hc. exact Hn.
      + injection E as _ E. apply (IH Hn A1 E). }
  destruct S as (t & -> & Ht).
  destruct t as [|c t]; [discriminate M|].
  simpl in Ht. apply andb_true_iff in Ht as [Hc Ht].
  destruct (Ascii.eqb c "{") eqn:Ec.
  - apply Ascii.eqb_eq in Ec. subst c. destruct t as [|c t].
    + discriminate M.
    + assert (W1 : wf_ph (String c t) None).
      { apply name_chars_iff in Ht as [? ?]. repeat split; auto; discriminate. }
      pose proof (match_here_some (String c t) None X W1) as M1. simpl in M1, M.
      rewrite M1 in M. discriminate M.
  - simpl in M. rewrite Ec in M. discriminate M.
Qed.

Lemma occ_free_ph_plain n k re X : wf_ph n None -> wf_ph k (Some re) ->
  occ_free (ph_text k (Some re)) (ph_text n None) X.
Proof.
  intros Wn W. assert (Hn : sforall name_char n = true).
  { destruct Wn as (? & ? & ? & ?). apply name_chars_iff. auto. }
  intros A1 A2 E N. simpl in E. destruct A1 as [|d A1]; simpl in E.
  - subst A2. destruct (String.prefix _ _) eqn:P; auto. exfalso.
    apply prefix_iff in P as [r P].
    change (String "{" (n ^^ "}")) with (ph_text n None) in P.
    apply ph_text_unique in P as (_ & P & _); auto. discriminate.
  - injection E as _ E. eapply occ_free_plain; eauto.
Qed.

(* The text already processed contains no occurrence of the next match. *)
Lemma occ_free_done done rest k re :
  (forall x, In x done -> strip x = x) ->
  parses (render (done ++ rest)) (done ++ rest) -> wf_ph k (Some re) ->
  occ_free (ph_text k (Some re)) (render done) (render rest).
Proof.
  intros Hs. revert Hs. induction done as [|x done IH]; simpl; intros Hs P W.
  - intros A1 A2 E N. destruct A1, A2; discriminate || congruence.
  - pose proof (Hs x (or_introl eq_refl)) as Hx.
    assert (Hs' : forall x, In x done -> strip x = x) by (intros; apply Hs; auto).
    assert (R : render (done ++ rest) = render done ^^ render rest).
    { clear. induction done; simpl; auto. rewrite IHdone, app_assoc_s. reflexivity. }
    destruct x as [c|n con]; simpl in *.
    + inversion P as [| |c' s' l' N' P']; subst.
      apply (occ_free_app _ (String c "") (render done)); [|apply IH; auto].
      intros A1 A2 E NE.
      destruct A1 as [|d A1]; simpl in E.
      * subst A2. rewrite R in N'. destruct (String.prefix _ _) eqn:Q; auto. exfalso.
        apply prefix_iff in Q as [r Q]. exact (N' _ _ _ W Q).
      * injection E as _ E. destruct A1; simpl in E; [congruence|discriminate].
    + injection Hx as <-. inversion P as [|n' con' s' l' W' P' E1 E2|]; subst.
      apply occ_free_app; [apply occ_free_ph_plain; auto|].
      apply IH; auto. clear - E1 P'. apply app_inv_head_s with (a := "{" ^^ n ^^ "}") in E1.
      rewrite <- E1. exact P'.
Qed.

Lemma clean_path_parses_gen rest : forall done,
  (forall x, In x done -> strip x = x) ->
  parses (render (done ++ rest)) (done ++ rest) ->
  clean_path (render (done ++ rest)) (flat_map seg_match rest) = render (done ++ map strip rest).
Proof.
  unfold clean_path. induction rest as [|x rest IH]; intros done Hs P; simpl.
  - reflexivity.
  - rewrite fold_left_app.
    assert (E : done ++ x :: rest = (done ++ [x]) ++ rest) by (rewrite <- app_assoc; reflexivity).
    assert (E2 : done ++ strip x :: map strip rest = (done ++ [strip x]) ++ map strip rest)
      by (rewrite <- app_assoc; reflexivity).
    assert (R : forall a b, render (a ++ b) = render a ^^ render b).
    { clear. induction a; simpl; intros; auto. rewrite IHa, app_assoc_s. reflexivity. }
    assert (Pstrip : parses (render ((done ++ [strip x]) ++ rest)) ((done ++ [strip x]) ++ rest)).
    { eapply same_shape_parses; [exact P| |].
      - unfold same_shape. rewrite !map_app. simpl. rewrite strip_idem, <- app_assoc. reflexivity.
      - intros n con I. pose proof (parses_wf _ _ P) as W.
        rewrite !in_app_iff in I. simpl in I. destruct I as [[I|[I|[]]]|I].
        + apply W. apply in_or_app. auto.
        + destruct x as [c|n' con']; [discriminate|]. injection I as <- <-.
          destruct (W n' con') as (? & ? & ? & ?); [apply in_or_app; simpl; auto|].
          repeat split; auto.
        + apply W. apply in_or_app. simpl; auto. }
    assert (Hs2 : forall y, In y (done ++ [strip x]) -> strip y = y).
    { intros y I. apply in_app_or in I as [I|[<-|[]]]; [auto|apply strip_idem]. }
    rewrite E2, <- (IH _ Hs2 Pstrip). f_equal.
    destruct x as [c|n [re|]]; simpl.
    + rewrite <- app_assoc. reflexivity.
    + unfold clean_step. cbn [m_re mk_match is_empty String.append]. cbn iota.
      assert (W : wf_ph n (Some re)).
      { apply (parses_wf _ _ P). apply in_or_app. simpl; auto. }
      rewrite (R done (Ph n (Some re) :: rest)), !R. simpl render.
      rewrite app_nil_r_s.
      change (m_all (mk_match n (Some re))) with (ph_text n (Some re)).
      change (m_name (mk_match n (Some re))) with n.
      rewrite (replace_first_at (ph_text n (Some re)) (render done) (render rest)).
      * simpl. rewrite ?app_assoc_s. simpl. rewrite ?app_assoc_s. reflexivity.
      * discriminate.
      * apply (occ_free_done done (Ph n (Some re) :: rest)); auto.
    + unfold clean_step. cbn [m_re mk_match is_empty]. cbn iota. rewrite <- app_assoc. reflexivity.
Qed.

Lemma clean_path_parses s l : parses s l ->
  clean_path s (find_all s) = render (map strip l).
Proof.
  intros P. rewrite (find_all_parses _ _ P).
  pose proof (parses_render _ _ P) as R. subst s.
  apply (clean_path_parses_gen l []); auto. simpl; tauto.
Qed.

Lemma names_matches l : map m_name (flat_map seg_match l) = names l.
Proof. induction l as [|[c|n con] l IH]; simpl; auto. unfold names in *. simpl. congruence. Qed.

Lemma names_strip l : names (map strip l) = names l.
Proof. induction l as [|[c|n con] l IH]; simpl; auto. unfold names in *. simpl. congruence. Qed.

Lemma parses_strip s l : parses s l -> parses (render (map strip l)) (map strip l).
Proof.
  intros P. eapply same_shape_parses; [exact P|apply same_shape_strip|].
  apply strip_wf. apply (parses_wf _ _ P).
Qed.

(* ---------- methods ---------- *)

Lemma http_methods_iff m : mem m http_methods = true <-> openapi_method m.
Proof.
  rewrite mem_In. unfold openapi_method. simpl. intuition congruence.
Qed.

Lemma sanitize_spec m p l : parses p l ->
  sanitize_method_path m p =
    if mem (to_lower m) http_methods
    then Some (to_lower m, render (map strip l), names l) else None.
Proof.
  intros P. unfold sanitize_method_path.
  rewrite (clean_path_parses _ _ P), (find_all_parses _ _ P), names_matches. reflexivity.
Qed.

Lemma lower_byte_upper n : 65 <= n <= 90 -> lower_byte (ascii_of_nat n) = ascii_of_nat (n + 32).
Proof.
  intros H. unfold lower_byte, is_upper, in_range. rewrite nat_ascii_embedding by lia.
  destruct (65 <=? n) eqn:E1; destruct (n <=? 90) eqn:E2; simpl; auto;
    apply Nat.leb_gt in E1 || apply Nat.leb_gt in E2; lia.
Qed.

Lemma lower_byte_cases c :
  (is_upper c = false /\ lower_byte c = c) \/
  (exists n, 65 <= n <= 90 /\ c = ascii_of_nat n /\ lower_byte c = ascii_of_nat (n + 32)).
Proof.
  unfold lower_byte. destruct (is_upper c) eqn:E; [right|left; auto].
  unfold is_upper, in_range in E. apply andb_true_iff in E as [E1 E2].
  apply Nat.leb_le in E1. apply Nat.leb_le in E2.
  exists (nat_of_ascii c). rewrite ascii_nat_embedding. auto.
Qed.

Lemma lower_byte_method c s : method_is s (to_lower s) ->
  method_is (String c s) (String (lower_byte c) (to_lower s)).
Proof.
  intros H. destruct (lower_byte_cases c) as [[_ ->]|(n & Hn & -> & ->)].
  - constructor; auto.
  - constructor; auto.
Qed.

Lemma to_lower_method : forall s, method_is s (to_lower s).
Proof.
  intros s. remember (String.length s) as k eqn:E. revert s E.
  induction k as [k IH] using lt_wf_ind. intros s ->.
  destruct s as [|c s1]; [constructor|]. cbn [to_lower].
  destruct s1 as [|d s2].
  - apply lower_byte_method. constructor.
  - destruct (Ascii.eqb c "196" && Ascii.eqb d "176") eqn:E1.
    + apply andb_true_iff in E1 as [E1 E2]. apply Ascii.eqb_eq in E1. apply Ascii.eqb_eq in E2. subst.
      constructor. apply (IH (String.length s2)); simpl; auto; lia.
    + destruct s2 as [|e s3].
      * apply (lower_byte_method c (String d "")). apply (IH 1); simpl; auto; lia.
      * destruct (Ascii.eqb c "226" && Ascii.eqb d "132" && Ascii.eqb e "170") eqn:E2.
        -- apply andb_true_iff in E2 as [E2 E4]. apply andb_true_iff in E2 as [E2 E3].
           apply Ascii.eqb_eq in E2. apply Ascii.eqb_eq in E3. apply Ascii.eqb_eq in E4. subst.
           constructor. apply (IH (String.length s3)); simpl; auto; lia.
        -- apply (lower_byte_method c (String d (String e s3))).
           apply (IH (String.length (String d (String e s3)))); simpl; auto; lia.
Qed.

(* Lower-case ASCII texts are fixed by to_lower and are the only canonical
   forms that matter. *)
Lemma to_lower_ascii c s : Ascii.eqb c "196" = false -> Ascii.eqb c "226" = false ->
  to_lower (String c s) = String (lower_byte c) (to_lower s).
Proof.
  intros E1 E2. cbn [to_lower]. destruct s as [|d s2]; auto. rewrite E1, E2. simpl.
  destruct s2; auto.
Qed.

Lemma eqb_ascii_of_nat n k : n < 256 -> k < 256 -> n <> k ->
  Ascii.eqb (ascii_of_nat n) (ascii_of_nat k) = false.
Proof.
  intros. apply Ascii.eqb_neq. intros E. apply (f_equal nat_of_ascii) in E.
  rewrite !nat_ascii_embedding in E by lia. contradiction.
Qed.

Lemma method_is_lower s t : method_is s t -> sforall is_lower t = true -> to_lower s = t.
Proof.
  induction 1 as [|c s t H IH|n s t Hn H IH|s t H IH|s t H IH]; intros L.
  - reflexivity.
  - cbn [sforall] in L. apply andb_true_iff in L as [Lc L].
    unfold is_lower, in_range in Lc. apply andb_true_iff in Lc as [Lc1 Lc2].
    apply Nat.leb_le in Lc1. apply Nat.leb_le in Lc2.
    rewrite to_lower_ascii.
    + rewrite (IH L). f_equal. unfold lower_byte, is_upper, in_range.
      destruct (65 <=? nat_of_ascii c); simpl; auto.
      destruct (nat_of_ascii c <=? 90) eqn:E; auto. apply Nat.leb_le in E. lia.
    + apply Ascii.eqb_neq. intros ->. vm_compute in Lc2. lia.
    + apply Ascii.eqb_neq. intros ->. vm_compute in Lc2. lia.
  - cbn [sforall] in L. apply andb_true_iff in L as [_ L].
    rewrite to_lower_ascii.
    + rewrite (IH L), lower_byte_upper; auto.
    + change "196"%char with (ascii_of_nat 196). apply eqb_ascii_of_nat; lia.
    + change "226"%char with (ascii_of_nat 226). apply eqb_ascii_of_nat; lia.
  - cbn [sforall] in L. apply andb_true_iff in L as [_ L]. rewrite <- (IH L). reflexivity.
  - cbn [sforall] in L. apply andb_true_iff in L as [_ L]. rewrite <- (IH L). reflexivity.
Qed.

Lemma openapi_method_lower m : openapi_method m -> sforall is_lower m = true.
Proof. unfold openapi_method. intuition; subst; reflexivity. Qed.

Lemma lower_of_method m c : openapi_method c -> (to_lower m = c <-> method_is m c).
Proof.
  intros H. split.
  - intros <-. apply to_lower_method.
  - intros M. apply method_is_lower; auto. apply openapi_method_lower. auto.
Qed.

Lemma to_lower_fix m : openapi_method m -> to_lower m = m.
Proof. unfold openapi_method. intuition; subst; reflexivity. Qed.

(* ---------- to_lower is idempotent ---------- *)

Definition starts (p s : string) : bool := String.prefix p s.

Lemma lower_byte_high x c : lower_byte x = c -> 127 < nat_of_ascii c -> x = c.
Proof.
  intros <- H. destruct (lower_byte_cases x) as [[_ ->]|(k & Hk & -> & E2)]; auto.
  rewrite E2 in H. rewrite nat_ascii_embedding in H by lia. lia.
Qed.

Lemma lower_byte_idem x : lower_byte (lower_byte x) = lower_byte x.
Proof.
  destruct (lower_byte_cases x) as [[_ E]|(k & Hk & -> & E2)]; [rewrite !E; reflexivity|].
  rewrite E2. unfold lower_byte, is_upper, in_range.
  rewrite nat_ascii_embedding by lia.
  destruct (k + 32 <=? 90) eqn:Q; [apply Nat.leb_le in Q; lia|].
  rewrite andb_false_r. reflexivity.
Qed.

Inductive lower_view : string -> string -> Prop :=
| lv_nil : lower_view "" ""
| lv_dotted s : lower_view (String "196" (String "176" s)) (String "i" (to_lower s))
| lv_kelvin s : lower_view (String "226" (String "132" (String "170" s))) (String "k" (to_lower s))
| lv_other c s :
    (forall t, String c s <> String "196" (String "176" t)) ->
    (forall t, String c s <> String "226" (String "132" (String "170" t))) ->
    lower_view (String c s) (String (lower_byte c) (to_lower s)).

Lemma to_lower_view s : lower_view s (to_lower s).
Proof.
  destruct s as [|c s1]; [constructor|]. cbn [to_lower].
  destruct s1 as [|d s2]; [constructor; intros t E; discriminate|].
  destruct (Ascii.eqb c "196" && Ascii.eqb d "176") eqn:E1.
  - apply andb_true_iff in E1 as [E1 E2]. apply Ascii.eqb_eq in E1. apply Ascii.eqb_eq in E2. subst.
    constructor.
  - assert (A : forall t, String c (String d s2) <> String "196" (String "176" t)).
    { intros t E. injection E as -> -> _. discriminate E1. }
    destruct s2 as [|e s3]; [constructor; auto; intros t E; discriminate|].
    destruct (Ascii.eqb c "226" && Ascii.eqb d "132" && Ascii.eqb e "170") eqn:E2.
    + apply andb_true_iff in E2 as [E2 E4]. apply andb_true_iff in E2 as [E2 E3].
      apply Ascii.eqb_eq in E2. apply Ascii.eqb_eq in E3. apply Ascii.eqb_eq in E4. subst.
      constructor.
    + constructor; auto. intros t E. injection E as -> -> -> _. discriminate E2.
Qed.

Lemma to_lower_other c s :
  (forall t, String c s <> String "196" (String "176" t)) ->
  (forall t, String c s <> String "226" (String "132" (String "170" t))) ->
  to_lower (String c s) = String (lower_byte c) (to_lower s).
Proof.
  intros A B. pose proof (to_lower_view (String c s)) as V.
  remember (String c s) as u eqn:Eu. remember (to_lower u) as v eqn:Ev.
  destruct V as [|t|t|c' s' A' B'].
  - discriminate.
  - exfalso. apply (A t). reflexivity.
  - exfalso. apply (B t). reflexivity.
  - injection Eu as -> ->. reflexivity.
Qed.

Lemma to_lower_head c u r : 127 < nat_of_ascii c -> to_lower r = String c u ->
  exists r', r = String c r' /\ u = to_lower r'.
Proof.
  intros Hc E. pose proof (to_lower_view r) as V. rewrite E in V.
  inversion V as [|s E1 E2|s E1 E2|c' s A B E1 E2]; subst.
  - cbn in Hc. lia.
  - cbn in Hc. lia.
  - exists s. split; auto. f_equal. apply lower_byte_high; auto.
Qed.

Lemma to_lower_idem : forall s, to_lower (to_lower s) = to_lower s.
Proof.
  intros s. remember (String.length s) as k eqn:E0. revert s E0.
  induction k as [k IH] using lt_wf_ind. intros s ->.
  pose proof (to_lower_view s) as V. inversion V as [E|t E1 E2|t E1 E2|c t A B E1 E2].
  - reflexivity.
  - subst s. rewrite <- E2. rewrite to_lower_ascii by reflexivity. f_equal.
    apply (IH (String.length t)); simpl; auto; lia.
  - subst s. rewrite <- E2. rewrite to_lower_ascii by reflexivity. f_equal.
    apply (IH (String.length t)); simpl; auto; lia.
  - subst s. rewrite (to_lower_other c t A B). rewrite to_lower_other.
    + rewrite lower_byte_idem. f_equal. apply (IH (String.length t)); simpl; auto; lia.
    + intros u F. injection F as F1 F2. apply lower_byte_high in F1; [|cbn; lia].
      apply to_lower_head in F2 as (r' & -> & _); [|cbn; lia]. subst c. apply (A r'). reflexivity.
    + intros u F. injection F as F1 F2. apply lower_byte_high in F1; [|cbn; lia].
      apply to_lower_head in F2 as (r' & -> & F3); [|cbn; lia].
      symmetry in F3. apply to_lower_head in F3 as (r2 & -> & _); [|cbn; lia].
      subst c. apply (B r2). reflexivity.
Qed.

(* Deciding readings of literal patterns; used in examples only. *)
Definition wf_phb (n : string) (con : option string) : bool :=
  negb (is_empty n) && sforall name_char n &&
  match con with None => true | Some r => negb (is_empty r) && sforall re_char r end.

Lemma wf_phb_ok n con : wf_phb n con = true -> wf_ph n con.
Proof.
  unfold wf_phb. rewrite !andb_true_iff. intros [[A B] C]. apply name_chars_iff in B as [B1 B2].
  repeat split; auto.
  - destruct n; [discriminate A | discriminate].
  - destruct con as [r|]; simpl; auto. apply andb_true_iff in C as [C D]. split.
    + destruct r; [discriminate C | discriminate].
    + apply re_chars_iff. exact D.
Qed.

Lemma parses_ph_c s n con r l : wf_phb n con = true -> s = ph_text n con ^^ r -> parses r l ->
  parses s (Ph n con :: l).
Proof. intros W -> P. constructor; auto. apply wf_phb_ok. exact W. Qed.

Lemma parses_lit_c c s l : match_here (String c s) = None -> parses s l -> parses (String c s) (Lit c :: l).
Proof. intros M P. constructor; auto. apply match_here_none. exact M. Qed.

Ltac solve_parses :=
  repeat first [ apply P_nil
               | apply parses_lit_c; [reflexivity|]
               | eapply parses_ph_c; [reflexivity | reflexivity |] ].
