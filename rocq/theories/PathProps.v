(* Theorems about openapi.SanitizeMethodPath (operation.go:178-204). *)
From Verif Require Import Str PathModel PathSpec PathProofs.

(* Every pattern has exactly one reading as literals and placeholders. *)
Lemma reading_exists_unique path : exists l, parses path l /\ forall l', parses path l' -> l' = l.
Proof.
  destruct (parses_total path) as [l Hl]. exists l. split; auto.
  intros l' H. symmetry. eapply parses_unique; eauto.
Qed.

Theorem C02_pattern_reading : forall path,
  exists l, parses path l /\ render l = path /\ forall l', parses path l' -> l' = l.
Proof.
  intros path. destruct (reading_exists_unique path) as (l & H & U).
  exists l. split; auto. split; auto. symmetry. apply parses_render. exact H.
Qed.

Theorem C01_method_accepted : forall method path m p ps,
  sanitize_method_path method path = Some (m, p, ps) ->
  openapi_method m /\ method_is method m.
Proof.
  intros method path m p ps H. destruct (parses_total path) as [l Hl].
  rewrite (sanitize_spec _ _ _ Hl) in H.
  destruct (mem (to_lower method) http_methods) eqn:E; [|discriminate].
  apply http_methods_iff in E. injection H as <- <- <-. split; auto. apply to_lower_method.
Qed.

Theorem C01_method_error : forall method path,
  sanitize_method_path method path = None <->
  ~ exists m, openapi_method m /\ method_is method m.
Proof.
  intros method path. destruct (parses_total path) as [l Hl].
  rewrite (sanitize_spec _ _ _ Hl). destruct (mem (to_lower method) http_methods) eqn:E.
  - split; [discriminate|]. intros N. exfalso. apply N.
    exists (to_lower method). split; [apply http_methods_iff; auto | apply to_lower_method].
  - split; auto. intros _ (m & Hm & M). apply (lower_of_method method m Hm) in M. subst m.
    apply http_methods_iff in Hm. congruence.
Qed.

Theorem C01_canonical_method_unique : forall method m m',
  openapi_method m -> openapi_method m' -> method_is method m -> method_is method m' -> m = m'.
Proof.
  intros method m m' H H' M M'. apply (lower_of_method method m H) in M.
  apply (lower_of_method method m' H') in M'. congruence.
Qed.

Example C01_example_ascii :
  sanitize_method_path "PoSt" "/a" = Some ("post", "/a", []) /\
  sanitize_method_path "LINK" "/a" = None.
Proof. split; reflexivity. Qed.

(* The Unicode rule is real: "OPT" U+0130 "ONS" is accepted as options. *)
Example C01_example_unicode :
  sanitize_method_path (String.append "OPT" (String "196" (String "176" "ONS"))) "/a"
    = Some ("options", "/a", []).
Proof. reflexivity. Qed.

Theorem C02_clean_path : forall method path l m p ps,
  parses path l -> sanitize_method_path method path = Some (m, p, ps) ->
  p = render (map strip l).
Proof.
  intros method path l m p ps Hl H. rewrite (sanitize_spec _ _ _ Hl) in H.
  destruct (mem (to_lower method) http_methods); [|discriminate]. congruence.
Qed.

Example C02_example :
  exists l, parses "/{a:[0-9]+}/{b}{a:[0-9]+}/{x:}{y" l /\
  names l = ["a"; "b"; "a"] /\
  sanitize_method_path "GET" "/{a:[0-9]+}/{b}{a:[0-9]+}/{x:}{y"
    = Some ("get", "/{a}/{b}{a}/{x:}{y", ["a"; "b"; "a"]).
Proof.
  destruct (C02_pattern_reading "/{a:[0-9]+}/{b}{a:[0-9]+}/{x:}{y") as (l & P & _).
  exists l. split; auto.
  assert (E : sanitize_method_path "GET" "/{a:[0-9]+}/{b}{a:[0-9]+}/{x:}{y"
    = Some ("get", "/{a}/{b}{a}/{x:}{y", ["a"; "b"; "a"])) by reflexivity.
  split; auto. rewrite (sanitize_spec _ _ _ P) in E.
  change (mem (to_lower "GET") http_methods) with true in E. cbv iota in E. congruence.
Qed.

Theorem C03_placeholder_names : forall method path l m p ps,
  parses path l -> sanitize_method_path method path = Some (m, p, ps) ->
  ps = names l.
Proof.
  intros method path l m p ps Hl H. rewrite (sanitize_spec _ _ _ Hl) in H.
  destruct (mem (to_lower method) http_methods); [|discriminate]. congruence.
Qed.

Lemma names_in_render l n : In n (names l) ->
  exists a b, render (map strip l) = a ^^ "{" ^^ n ^^ "}" ^^ b.
Proof.
  induction l as [|[c|k con] l IH]; simpl; intros I; [tauto| |].
  - destruct (IH I) as (a & b & ->). exists (String c a), b. reflexivity.
  - destruct I as [<-|I].
    + exists "", (render (map strip l)). simpl. rewrite app_assoc_s. reflexivity.
    + destruct (IH I) as (a & b & ->). exists (ph_text k None ^^ a), b.
      sapp. reflexivity.
Qed.

Lemma names_wf l : (forall n con, In (Ph n con) l -> wf_ph n con) ->
  forall n, In n (names l) -> n <> "" /\ no_char "}" n /\ no_char ":" n.
Proof.
  intros W n I. unfold names in I. apply in_flat_map in I as (x & Ix & In').
  destruct x as [c|k con]; simpl in In'; [tauto|]. destruct In' as [<-|[]].
  destruct (W _ _ Ix) as (? & ? & ? & _). auto.
Qed.

Theorem C03_names_in_clean_path : forall method path m p ps n,
  sanitize_method_path method path = Some (m, p, ps) -> In n ps ->
  n <> "" /\ no_char "}" n /\ no_char ":" n /\
  exists a b, p = a ^^ "{" ^^ n ^^ "}" ^^ b.
Proof.
  intros method path m p ps n H I. destruct (parses_total path) as [l Hl].
  pose proof (C02_clean_path _ _ _ _ _ _ Hl H) as ->.
  pose proof (C03_placeholder_names _ _ _ _ _ _ Hl H) as ->.
  destruct (names_wf l (parses_wf _ _ Hl) n I) as (? & ? & ?).
  repeat split; auto. apply names_in_render. exact I.
Qed.

Example C03_example :
  exists m p, sanitize_method_path "get" "/{month:\d+}-{day}" = Some (m, p, ["month"; "day"]) /\
  p = "/{month}-" ^^ "{" ^^ "day" ^^ "}" ^^ "".
Proof. eexists; eexists; split; reflexivity. Qed.

Theorem C04_idempotent : forall method path m p ps,
  sanitize_method_path method path = Some (m, p, ps) ->
  sanitize_method_path m p = Some (m, p, ps).
Proof.
  intros method path m p ps H. destruct (parses_total path) as [l Hl].
  pose proof (C01_method_accepted _ _ _ _ _ H) as [Hm _].
  pose proof (C02_clean_path _ _ _ _ _ _ Hl H) as ->.
  pose proof (C03_placeholder_names _ _ _ _ _ _ Hl H) as ->.
  rewrite (sanitize_spec m _ _ (parses_strip _ _ Hl)).
  rewrite (to_lower_fix m Hm). apply http_methods_iff in Hm as ->.
  rewrite map_map, names_strip, (map_ext _ _ strip_idem). reflexivity.
Qed.

Example C04_example :
  sanitize_method_path "Get" "/u/{id:[^/]+}" = Some ("get", "/u/{id}", ["id"]) /\
  sanitize_method_path "get" "/u/{id}" = Some ("get", "/u/{id}", ["id"]).
Proof. split; reflexivity. Qed.

(* Two patterns with the same literals and placeholder names, and any legal
   constraint texts, are sanitised to the same result. *)
Theorem C05_constraints_do_not_matter : forall method path1 l1 l2,
  parses path1 l1 -> map strip l1 = map strip l2 ->
  (forall n con, In (Ph n con) l2 -> wf_con con) ->
  sanitize_method_path method path1 = sanitize_method_path method (render l2).
Proof.
  intros method path1 l1 l2 P S W.
  assert (W2 : forall n con, In (Ph n con) l2 -> wf_ph n con).
  { intros n con I. assert (I' : In (Ph n None) (map strip l1)).
    { rewrite S. apply in_map_iff. exists (Ph n con). auto. }
    apply (strip_wf l1 (parses_wf _ _ P)) in I' as (? & ? & ? & _).
    repeat split; eauto. }
  rewrite (sanitize_spec _ _ _ P), (sanitize_spec _ _ _ (same_shape_parses _ _ P _ S W2)).
  rewrite S. rewrite <- (names_strip l1), <- (names_strip l2), S. reflexivity.
Qed.

Example C05_example :
  sanitize_method_path "get" "/{a:x}/{b}" = sanitize_method_path "get" "/{a}/{b:[a-z]+}".
Proof. reflexivity. Qed.

Print Assumptions C01_method_accepted.
Print Assumptions C01_method_error.
Print Assumptions C01_canonical_method_unique.
Print Assumptions C02_pattern_reading.
Print Assumptions C02_clean_path.
Print Assumptions C03_placeholder_names.
Print Assumptions C03_names_in_clean_path.
Print Assumptions C04_idempotent.
Print Assumptions C05_constraints_do_not_matter.
