(* Proofs of C63 and C67 for the security schemes of openapi31, which are written as a
   description and extensions together with the members of one of six
   alternatives (openapi31/entities.go, type SecurityScheme). *)
From Coq Require Import QArith Lia.
From Verif Require Import Str SMap Json CodecModel CodecTables CodecSpec CodecObjSpec CodecProofs CodecRT CodecStrict CodecWrite CodecCheck.

(* The types of security schemes in the OpenAPI specification (4.8.27), with
   their required and optional members besides type and description. *)
Definition scheme_types : list (string * (list string * list string)) :=
  [("apiKey", (["name"; "in"], [])); ("http", (["scheme"], ["bearerFormat"])); ("mutualTLS", ([], []));
   ("oauth2", (["flows"], [])); ("openIdConnect", (["openIdConnectUrl"], []))].

(* The fields of SecurityScheme for the alternatives. *)
Definition scheme_fields : list (nat * (string * string)) :=
  [(1, ("SecuritySchemeAPIKey", "apiKey")); (2, ("SecuritySchemeHTTP", "http")); (3, ("SecuritySchemeHTTPBearer", "http"));
   (4, ("SecuritySchemeOauth2", "oauth2")); (5, ("SecuritySchemeOidc", "openIdConnect")); (6, ("MutualTLS", "mutualTLS"))].

Lemma const_first T n fs c d v M : get n T = Some (EStruct fs [PConst c; PStruct] d) ->
  marshal T (TNamed n) v = Some (JObj M) -> exists m, M = (c ++ m)%list.
Proof.
  intros G. unfold marshal. destruct v; cbn [enc]; try discriminate; rewrite G; try discriminate.
  cbn [map enc_part seq_opt]. destruct (enc_fields fs _) as [m|]; [|discriminate].
  unfold junion. cbn [junion_loop app]. intros E. injection E as <-. eauto.
Qed.

(* What is written for an alternative. *)
Lemma alternative rnd i n t w : In (i, (n, t)) scheme_fields -> wf T31 rnd derived31 extra31 (TNamed n) w ->
  exists M req opt, marshal T31 (TNamed n) w = Some (JObj M) /\ In (t, (req, opt)) scheme_types /\
    get "type" M = Some (JStr t) /\ (forall k, In k req -> In k (map fst M)) /\
    (forall k, In k (map fst M) -> k = "type" \/ In k req \/ In k opt).
Proof.
  intros I W.
  assert (X : forall o c, In (n, o) objects31 -> n <> "SecurityScheme" -> o_pats o = [] ->
    (exists fs d, get n T31 = Some (EStruct fs [PConst [("type", JStr t)]; PStruct] d)) -> o_keys o = c ->
    exists M, marshal T31 (TNamed n) w = Some (JObj M) /\ get "type" M = Some (JStr t) /\
      (forall k, In k (o_req o) -> In k (map fst M)) /\ (forall k, In k (map fst M) -> In k c)).
  { intros o c O N P (fs & d & G) <-. destruct (emitted31 rnd n o w O N W) as (M & E & R & K).
    exists M. split; [exact E|]. split; [|split; [exact R|]].
    - destruct (const_first _ _ _ _ _ _ _ G E) as (m & ->). reflexivity.
    - intros k H. destruct (K k H) as [H'|(p & x & H' & _)]; [exact H'|]. rewrite P in H'. destruct H'. }
  destruct I as [I|[I|[I|[I|[I|[I|[]]]]]]]; injection I as <- <- <-.
  - destruct (X (mkObj ["type"; "name"; "in"] ["type"; "name"; "in"] (is_str "type" "apiKey") []) ["type"; "name"; "in"])
      as (M & E & Ty & R & K); try reflexivity; try discriminate; [vm_compute; tauto|do 2 eexists; reflexivity|].
    exists M, ["name"; "in"], []. split; [exact E|]. split; [vm_compute; tauto|]. split; [exact Ty|]. split.
    + intros k H. apply R. cbn in *. tauto.
    + intros k H. apply K in H. cbn in *. intuition congruence.
  - destruct (X (mkObj ["type"; "scheme"] ["type"; "scheme"] (is_str "type" "http") []) ["type"; "scheme"])
      as (M & E & Ty & R & K); try reflexivity; try discriminate; [vm_compute; tauto|do 2 eexists; reflexivity|].
    exists M, ["scheme"], ["bearerFormat"]. split; [exact E|]. split; [vm_compute; tauto|]. split; [exact Ty|]. split.
    + intros k H. apply R. cbn in *. tauto.
    + intros k H. apply K in H. cbn in *. intuition congruence.
  - destruct (X (mkObj ["type"; "scheme"] ["type"; "scheme"; "bearerFormat"] (is_str "type" "http") []) ["type"; "scheme"; "bearerFormat"])
      as (M & E & Ty & R & K); try reflexivity; try discriminate; [vm_compute; tauto|do 2 eexists; reflexivity|].
    exists M, ["scheme"], ["bearerFormat"]. split; [exact E|]. split; [vm_compute; tauto|]. split; [exact Ty|]. split.
    + intros k H. apply R. cbn in *. tauto.
    + intros k H. apply K in H. cbn in *. intuition congruence.
  - destruct (X (mkObj ["type"; "flows"] ["type"; "flows"] (is_str "type" "oauth2") []) ["type"; "flows"])
      as (M & E & Ty & R & K); try reflexivity; try discriminate; [vm_compute; tauto|do 2 eexists; reflexivity|].
    exists M, ["flows"], []. split; [exact E|]. split; [vm_compute; tauto|]. split; [exact Ty|]. split.
    + intros k H. apply R. cbn in *. tauto.
    + intros k H. apply K in H. cbn in *. intuition congruence.
  - destruct (X (mkObj ["type"; "openIdConnectUrl"] ["type"; "openIdConnectUrl"] (is_str "type" "openIdConnect") []) ["type"; "openIdConnectUrl"])
      as (M & E & Ty & R & K); try reflexivity; try discriminate; [vm_compute; tauto|do 2 eexists; reflexivity|].
    exists M, ["openIdConnectUrl"], []. split; [exact E|]. split; [vm_compute; tauto|]. split; [exact Ty|]. split.
    + intros k H. apply R. cbn in *. tauto.
    + intros k H. apply K in H. cbn in *. intuition congruence.
  - exists [("type", JStr "mutualTLS")], [], [].
    inversion W as [| | | | | | | | | | | |n0 vals s G' _ E1 E2|n0 fs parts d vs G' L _ _ _ _ E1 E2]; subst; [discriminate G'|].
    injection G' as <- <- <-. destruct vs; [|discriminate L].
    split; [reflexivity|]. split; [vm_compute; tauto|]. split; [reflexivity|]. split; [intros k []|].
    intros k [<-|[]]. auto.
Qed.

Lemma scheme_inv rnd v : wf T31 rnd derived31 extra31 (TNamed "SecurityScheme") v ->
  exists d x i n t w Md Mx, In (i, (n, t)) scheme_fields /\ wf T31 rnd derived31 extra31 (TNamed n) w /\
    (exists vs, v = VStruct vs /\ nth_error vs 0 = Some d /\ nth_error vs 7 = Some x /\ nth_error vs i = Some (VPtr w) /\
       (forall k y, nth_error vs k = Some y -> k <> 0 -> k <> 7 -> k <> i -> y = VNil)) /\
    (d = VNil /\ Md = [] \/ exists s, d = VPtr (VStr s) /\ Md = [("description", JStr s)]) /\
    (x = VNil /\ Mx = [] \/ exists m, x = VMap m /\ Mx = map (fun kv => (fst kv, match snd kv with VAny j => j | _ => JNull end)) m /\
       (forall k, In k (map fst m) -> legal PatX k) /\ NoDup (map fst m)) /\
    (forall M, marshal T31 (TNamed n) w = Some (JObj M) -> marshal T31 (TNamed "SecurityScheme") v = Some (JObj (Md ++ Mx ++ M))).
Proof.
  intros W. inversion W as [| | | | | | | | | | | |n0 vals s G' _ E1 E2|n0 fs parts d vs G L F O A X E1 E2]; subst; [discriminate G'|].
  injection G as <- <- <-.
  destruct vs as [|d [|a1 [|a2 [|a3 [|a4 [|a5 [|a6 [|x [|]]]]]]]]]; try discriminate L. clear L X.
  specialize (A eq_refl ltac:(discriminate)). destruct A as (i & w & Ii & Hi & Hn). cbn [d_oneof] in Ii, Hn.
  assert (Wd := F 0 _ _ eq_refl eq_refl). assert (Wx := F 7 _ _ eq_refl eq_refl). cbn [f_ty] in Wd, Wx.
  assert (Wi := F i). assert (Ox := fo_pat _ _ _ _ _ _ (O 7 _ _ eq_refl eq_refl) PatX (or_introl eq_refl)).
  clear F O W.
  exists d, x, i.
  assert (D : exists Md, (d = VNil /\ Md = [] \/ exists s, d = VPtr (VStr s) /\ Md = [("description", JStr s)]) /\
    forall r, enc_fields [mkField "Description" (TPtr TStr) (Some "description") true] [(d, enc T31 d)] = Some r -> r = Md).
  { inversion Wd as [| | | | | |t' E1 E2| | |t' v' Wv E1 E2| | | |]; subst.
    - exists []. split; [left; auto|]. cbn. intros r E. injection E as <-. reflexivity.
    - inversion Wv; subst. exists [("description", JStr s)]. split; [right; eauto|]. cbn. intros r E. injection E as <-. reflexivity. }
  destruct D as (Md & D & _).
  assert (Y : exists Mx, (x = VNil /\ Mx = [] \/ exists m, x = VMap m /\ Mx = map (fun kv => (fst kv, match snd kv with VAny j => j | _ => JNull end)) m /\
       (forall k, In k (map fst m) -> legal PatX k) /\ NoDup (map fst m)) /\
     (enc T31 x (TMap TAny) = Some JNull /\ Mx = [] \/ enc T31 x (TMap TAny) = Some (JObj Mx))).
  { inversion Wx as [| | | | | | | |t' E1 E2| | |t' m ND Wm E1 E2| |]; subst.
    - exists []. split; left; auto.
    - exists (map (fun kv => (fst kv, match snd kv with VAny j => j | _ => JNull end)) m). split.
      + right. exists m. split; [reflexivity|]. split; [reflexivity|]. split; [apply Ox|exact ND].
      + right. cbn [enc]. assert (S : seq_opt (map (fun kv => match enc T31 (snd kv) TAny with Some j => Some (fst kv, j) | None => None end) m) =
          Some (map (fun kv => (fst kv, match snd kv with VAny j => j | _ => JNull end)) m)).
        { clear - Wm. induction m as [|[k v] m IH]; [reflexivity|]. cbn [map seq_opt fst snd].
          assert (V := Wm k v (or_introl eq_refl)). inversion V; subst. cbn [enc]. rewrite IH; [reflexivity|].
          intros k' v' IN. apply (Wm k'). right. exact IN. }
        rewrite S. reflexivity. }
  destruct Y as (Mx & Y & EX).
  cbn [In] in Ii.
  assert (Z : forall k y, k <> i -> In k [1; 2; 3; 4; 5; 6] -> nth_error [d; a1; a2; a3; a4; a5; a6; x] k = Some y -> y = VNil).
  { intros k y N I' E. rewrite (Hn k I' N) in E. injection E as <-. reflexivity. }
  assert (Q : forall k y, nth_error [d; a1; a2; a3; a4; a5; a6; x] k = Some y -> k <> 0 -> k <> 7 -> k <> i -> y = VNil).
  { intros k y E K0 K7 Ki. apply (Z k y Ki); [|exact E].
    assert (K : k < 8) by (apply nth_error_Some with (l := [d; a1; a2; a3; a4; a5; a6; x]); congruence). cbn. lia. }
  clear Hn Z.
  destruct Ii as [<-|[<-|[<-|[<-|[<-|[<-|[]]]]]]]; cbn [nth_error] in Hi; injection Hi as ->;
    specialize (Wi _ _ eq_refl eq_refl); cbn [f_ty] in Wi; inversion Wi; subst;
    repeat match goal with y : val |- _ => match goal with H : forall k0 y0, nth_error ?l k0 = Some y0 -> _ |- _ =>
       first [ assert (y = VNil) by (apply (H 1 y); [reflexivity|discriminate..]) | assert (y = VNil) by (apply (H 2 y); [reflexivity|discriminate..])
             | assert (y = VNil) by (apply (H 3 y); [reflexivity|discriminate..]) | assert (y = VNil) by (apply (H 4 y); [reflexivity|discriminate..])
             | assert (y = VNil) by (apply (H 5 y); [reflexivity|discriminate..]) | assert (y = VNil) by (apply (H 6 y); [reflexivity|discriminate..])];
       subst y end end;
    do 3 eexists; exists Md, Mx; (split; [cbn; tauto|]); (split; [eassumption|]); (split; [eexists; repeat split; try reflexivity; exact Q|]);
    (split; [exact D|]); (split; [exact Y|]); intros M E; unfold marshal in *; cbn [enc];
    (change (get "SecurityScheme" T31) with (Some e31_SecurityScheme)); unfold e31_SecurityScheme; cbn [map enc_part nth_error f_ty seq_opt enc];
    rewrite E; destruct D as [[-> ->]|(s & -> & ->)]; destruct EX as [[EX ->]|EX]; rewrite ?EX; cbn; rewrite ?app_nil_r; reflexivity.
Qed.

(* The keys of an extension are no keys of a scheme. *)
Lemma x_key k : legal PatX k -> In k ["type"; "description"; "name"; "in"; "scheme"; "bearerFormat"; "flows"; "openIdConnectUrl"] -> False.
Proof. intros L. inversion L; subst. cbn. intros H. repeat (destruct H as [H|H]; [discriminate H|]). exact H. Qed.

Lemma alternative_keys req opt t : In (t, (req, opt)) scheme_types -> forall k, k = "type" \/ In k req \/ In k opt ->
  In k ["type"; "name"; "in"; "scheme"; "bearerFormat"; "flows"; "openIdConnectUrl"].
Proof.
  intros I k. cbn in I.
  destruct I as [I|[I|[I|[I|[I|[]]]]]]; injection I as <- <- <-; cbn; intuition.
Qed.

Lemma get_app_left {A} k (l r : list (string * A)) : ~ In k (map fst l) -> get k (l ++ r) = get k r.
Proof.
  induction l as [|[k' x] l IH]; intros N; [reflexivity|]. cbn [app get]. cbn [map fst In] in N.
  destruct (String.eqb_spec k k') as [->|]; [tauto|]. apply IH. tauto.
Qed.
Lemma get_app_found {A} k (l r : list (string * A)) x : get k l = Some x -> get k (l ++ r) = Some x.
Proof.
  induction l as [|[k' y] l IH]; [discriminate|]. cbn [app get]. destruct (String.eqb k k'); auto.
Qed.

Lemma get_none {A} k (l : list (string * A)) : get k l = None -> ~ In k (map fst l).
Proof.
  induction l as [|[k' y] l IH]; [intros _ []|]. cbn [get map fst In]. destruct (String.eqb_spec k k'); [discriminate|].
  intros E [H|H]; [congruence|]. exact (IH E H).
Qed.

Lemma scheme_keys31 rnd v : wf T31 rnd derived31 extra31 (TNamed "SecurityScheme") v ->
  exists M t req opt, marshal T31 (TNamed "SecurityScheme") v = Some (JObj M) /\ In (t, (req, opt)) scheme_types /\
    get "type" M = Some (JStr t) /\ (forall k, In k req -> In k (map fst M)) /\
    (forall k, In k (map fst M) -> k = "type" \/ k = "description" \/ In k req \/ In k opt \/ legal PatX k).
Proof.
  intros W. destruct (scheme_inv rnd v W) as (d & x & i & n & t & w & Md & Mx & I & Ww & _ & D & X & E).
  destruct (alternative rnd i n t w I Ww) as (M & req & opt & EM & IT & Ty & R & K).
  exists (Md ++ Mx ++ M)%list, t, req, opt. split; [exact (E M EM)|]. split; [exact IT|].
  assert (KD : forall k, In k (map fst Md) -> k = "description").
  { intros k H. destruct D as [[_ ->]|(s & _ & ->)]; [destruct H|]. destruct H as [<-|[]]. reflexivity. }
  assert (KX : forall k, In k (map fst Mx) -> legal PatX k).
  { intros k H. destruct X as [[_ ->]|(m & _ & -> & L & _)]; [destruct H|]. apply L. rewrite map_map in H. exact H. }
  split; [|split].
  - rewrite get_app_left; [|intros H; apply KD in H; discriminate H].
    rewrite get_app_left; [exact Ty|]. intros H. apply KX in H. apply (x_key _ H). cbn. tauto.
  - intros k H. rewrite !map_app. apply in_or_app. right. apply in_or_app. right. apply R, H.
  - intros k H. rewrite !map_app in H. apply in_app_or in H. destruct H as [H|H]; [apply KD in H; auto|].
    apply in_app_or in H. destruct H as [H|H]; [apply KX in H; auto|]. apply K in H. tauto.
Qed.

(* The members are those of the fields. *)
Lemma scheme_members31 rnd v : wf T31 rnd derived31 extra31 (TNamed "SecurityScheme") v ->
  exists vs M i n t w Mw, v = VStruct vs /\ marshal T31 (TNamed "SecurityScheme") v = Some (JObj M) /\
    In (i, (n, t)) scheme_fields /\ nth_error vs i = Some (VPtr w) /\ marshal T31 (TNamed n) w = Some (JObj Mw) /\
    (forall k, In k (map fst Mw) -> get k M = get k Mw) /\
    (forall s, get "description" M = Some (JStr s) <-> nth_error vs 0 = Some (VPtr (VStr s))) /\
    (forall k j, legal PatX k -> (get k M = Some j <-> exists m, nth_error vs 7 = Some (VMap m) /\ In (k, VAny j) m)).
Proof.
  intros W. assert (W0 := W). destruct (scheme_inv rnd v W) as (d & x & i & n & t & w & Md & Mx & I & Ww & (vs & -> & V0 & V7 & Vi & _) & D & X & E).
  destruct (alternative rnd i n t w I Ww) as (M & req & opt & EM & IT & Ty & R & K).
  exists vs, (Md ++ Mx ++ M)%list, i, n, t, w, M. split; [reflexivity|]. split; [exact (E M EM)|]. split; [exact I|]. split; [exact Vi|].
  split; [exact EM|].
  assert (KD : forall k, In k (map fst Md) -> k = "description").
  { intros k H. destruct D as [[_ ->]|(s & _ & ->)]; [destruct H|]. destruct H as [<-|[]]. reflexivity. }
  assert (KX : forall k, In k (map fst Mx) -> legal PatX k).
  { intros k H. destruct X as [[_ ->]|(m & _ & -> & L & _)]; [destruct H|]. apply L. rewrite map_map in H. exact H. }
  assert (KM : forall k, In k (map fst M) -> In k ["type"; "name"; "in"; "scheme"; "bearerFormat"; "flows"; "openIdConnectUrl"]).
  { intros k H. exact (alternative_keys _ _ _ IT k (K k H)). }
  assert (NM : forall k, ~ In k (map fst M) -> get k M = None).
  { clear. induction M as [|[k' y] M IH]; intros k N; [reflexivity|]. cbn [get map fst In] in *.
    destruct (String.eqb_spec k k') as [->|]; [tauto|]. apply IH. tauto. }
  split; [|split].
  - intros k H. apply KM in H. rewrite get_app_left.
    + apply get_app_left. intros H'. apply KX in H'. apply (x_key _ H'). cbn in H |- *. tauto.
    + intros H'. apply KD in H'. subst k. cbn in H. repeat (destruct H as [H|H]; [discriminate H|]). exact H.
  - intros s. rewrite V0. destruct D as [[-> ->]|(s' & -> & ->)].
    + cbn [app]. rewrite get_app_left, NM; [split; discriminate| |].
      * intros H. apply KM in H. cbn in H. repeat (destruct H as [H|H]; [discriminate H|]). exact H.
      * intros H. apply KX in H. apply (x_key _ H). cbn. tauto.
    + cbn [app get String.eqb Ascii.eqb Bool.eqb]. split; intros H; injection H as <-; reflexivity.
  - intros k j L. rewrite V7, get_app_left; [|intros H; apply KD in H; subst k; apply (x_key _ L); cbn; tauto].
    destruct X as [[-> ->]|(m & -> & -> & Lm & ND)].
    + cbn [app]. rewrite NM; [split; [discriminate|intros (m & H & _); discriminate H]|].
      intros H. apply KM in H. apply (x_key _ L). cbn in H |- *. tauto.
    + assert (A : forall m', (forall kv, In kv m' -> exists j, snd kv = VAny j) -> NoDup (map fst m') ->
        (get k (map (fun kv => (fst kv, match snd kv with VAny j => j | _ => JNull end)) m') = Some j <-> In (k, VAny j) m')).
      { clear. intros m'. induction m' as [|[k' y] m' IH]; intros H N; [split; [discriminate|intros []]|].
        cbn [map fst snd get]. inversion N as [|? ? N1 N2]; subst. destruct (H (k', y) (or_introl eq_refl)) as (j' & Ej). cbn [snd] in Ej. subst y.
        destruct (String.eqb_spec k k') as [->|NE].
        - split.
          + intros Q. injection Q as ->. left. reflexivity.
          + intros [Q|Q]; [injection Q as ->; reflexivity|]. destruct N1. exact (in_map fst _ _ Q).
        - rewrite IH; [|intros kv Q; apply H; right; exact Q|exact N2]. split; [intros Q; right; exact Q|].
          intros [Q|Q]; [injection Q as -> _; contradiction|exact Q]. }
      assert (VA : forall kv, In kv m -> exists j, snd kv = VAny j).
      { inversion W0 as [| | | | | | | | | | | |? ? ? G'|? fs parts dd vs' G Ln F]; subst.
        injection G as <- <- <-. assert (F7 := F 7 _ _ eq_refl V7). cbn [f_ty] in F7.
        inversion F7 as [| | | | | | | | | | |t' m' ND' Wm| |]; subst. intros [k' y] Q. specialize (Wm k' y Q). inversion Wm; subst. eexists. reflexivity. }
      split.
      * intros H. exists m. split; [reflexivity|]. apply (A m VA ND).
        destruct (get k (map (fun kv => (fst kv, match snd kv with VAny j => j | _ => JNull end)) m)) as [j'|] eqn:Q.
        -- rewrite (get_app_found _ _ _ _ Q) in H. exact H.
        -- exfalso. rewrite get_app_left in H.
           ++ rewrite NM in H; [discriminate H|]. intros H'. apply KM in H'. apply (x_key _ L). cbn in H' |- *. tauto.
           ++ exact (get_none _ _ Q).
      * intros (m' & Q & IN). injection Q as <-. apply get_app_found, (A m VA ND), IN.
Qed.
