(* Documents that this package has written itself: proofs. *)
From Verif Require Import Str SMap Json CodecModel CodecTables CodecSpec CodecObjSpec CodecProofs CodecRT CodecStrict CodecWrite CodecCheck UnionModel UnionSpec.
From Verif Require Import OrdModel OrdSpec OrdProofs OrdWrite OrdCheck OrdShape YamlDocProofs TextModel TextSpec TextProofs.

Lemma round30_json num_text str_text rnd o n v : texts_ok num_text str_text -> fair o -> wf T30 rnd derived30 extra30 (TNamed n) v ->
  exists s j0 j, marshal T30 (TNamed n) v = Some j0 /\ reordered j0 j /\ marshal_text T30 num_text str_text (TNamed n) v = UOk s /\ jtext (fun s q => s = num_text q) (fun s x => s = str_text x) s j /\
  forall j', reordered j j' -> exists v', unmarshal_o T30 rnd o (TNamed n) j' = Some v' /\ vsame v (strip T30 derived30 v' (TNamed n)).
Proof.
  intros OK FO W. destruct (roundtrip30 rnd n v (wf_known _ _ _ _ _ _ W) W) as (j & v0 & E1 & E2 & E3).
  pose proof (text_is_json T30 num_text str_text OK numless_30 plain_30 (TNamed n) v (wf_single _ _ _ _ _ _ W)) as X.
  destruct (marshal_text T30 num_text str_text (TNamed n) v) as [s| |]; [|rewrite E1 in X; discriminate X|destruct X].
  destruct X as (j1 & j2 & E & R & J). rewrite E1 in E. injection E as <-. exists s, j, j2. split; [exact E1|]. split; [exact R|]. split; [reflexivity|]. split; [exact J|].
  intros j' R'. pose proof (members_order_free T30 rnd as_given o (TNamed n) j j' fair_given FO (distinct30 rnd n v _ W E1) (written_unambiguous30 rnd n v _ W E1) (ro_trans _ _ _ R R')) as A.
  unfold unmarshal_o in A at 1. rewrite dec_given in A. fold (unmarshal T30 rnd (TNamed n) j) in A. rewrite E2 in A. inversion A as [|x v' S X1 X2]; subst.
  exists v'. split; [reflexivity|]. apply strip_rel. exact S.
Qed.
Lemma round31_json num_text str_text rnd o n v : texts_ok num_text str_text -> fair o -> wf T31 rnd derived31 extra31 (TNamed n) v ->
  exists s j0 j, marshal T31 (TNamed n) v = Some j0 /\ reordered j0 j /\ marshal_text T31 num_text str_text (TNamed n) v = UOk s /\ jtext (fun s q => s = num_text q) (fun s x => s = str_text x) s j /\
  forall j', reordered j j' -> exists v', unmarshal_o T31 rnd o (TNamed n) j' = Some v' /\ vsame v v' /\ marshal_text T31 num_text str_text (TNamed n) v' = UOk s.
Proof.
  intros OK FO W. destruct (exact31 rnd n v W) as (j & E1 & E2).
  pose proof (text_is_json T31 num_text str_text OK numless_31 plain_31 (TNamed n) v (wf_single _ _ _ _ _ _ W)) as X.
  destruct (marshal_text T31 num_text str_text (TNamed n) v) as [s| |] eqn:ES; [|rewrite E1 in X; discriminate X|destruct X].
  destruct X as (j1 & j2 & E & R & J). rewrite E1 in E. injection E as <-. exists s, j, j2. split; [exact E1|]. split; [exact R|]. split; [reflexivity|]. split; [exact J|].
  intros j' R'. pose proof (members_order_free T31 rnd as_given o (TNamed n) j j' fair_given FO (distinct31 rnd n v _ W E1) (written_unambiguous31 rnd n v _ W E1) (ro_trans _ _ _ R R')) as A.
  unfold unmarshal_o in A at 1. rewrite dec_given in A. fold (unmarshal T31 rnd (TNamed n) j) in A. rewrite E2 in A. inversion A as [|x v' S X1 X2]; subst.
  exists v'. split; [reflexivity|]. split; [exact S|]. rewrite <- ES. symmetry.
  apply (text_same T31 num_text str_text OK numless_31 plain_31); [exact (wf_single _ _ _ _ _ _ W)|exact (read_single_o _ _ _ _ _ _ FO (eq_sym X2))|exact S].
Qed.
Lemma round30 num_text str_text rnd o n v : texts_ok num_text str_text -> fair o -> wf T30 rnd derived30 extra30 (TNamed n) v ->
  exists s j, marshal_text T30 num_text str_text (TNamed n) v = UOk s /\ jtext (fun s q => s = num_text q) (fun s x => s = str_text x) s j /\
  forall j', reordered j j' -> exists v', unmarshal_o T30 rnd o (TNamed n) j' = Some v' /\ vsame v (strip T30 derived30 v' (TNamed n)).
Proof. intros OK FO W. destruct (round30_json num_text str_text rnd o n v OK FO W) as (s & j0 & j & _ & _ & H). exists s, j. exact H. Qed.
Lemma round31 num_text str_text rnd o n v : texts_ok num_text str_text -> fair o -> wf T31 rnd derived31 extra31 (TNamed n) v ->
  exists s j, marshal_text T31 num_text str_text (TNamed n) v = UOk s /\ jtext (fun s q => s = num_text q) (fun s x => s = str_text x) s j /\
  forall j', reordered j j' -> exists v', unmarshal_o T31 rnd o (TNamed n) j' = Some v' /\ vsame v v' /\ marshal_text T31 num_text str_text (TNamed n) v' = UOk s.
Proof. intros OK FO W. destruct (round31_json num_text str_text rnd o n v OK FO W) as (s & j0 & j & _ & _ & H). exists s, j. exact H. Qed.
