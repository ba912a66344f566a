(** * C18-C24: consequences of the tree round trip; termination and exceptions of decode. *)
From Coq Require Import ZArith List Bool Lia ZifyBool ZifyNat.
From Verif Require Import PyBase Classes Values Codec SpecBER SpecSMI SpecTree Bits ProofsInt ProofsOid ProofsScalar ProofsText ProofsTree.
Import ListNotations.
Open Scope Z_scope.
Ltac Zify.zify_post_hook ::= Z.div_mod_to_equations.

(** ** encode never fails on meaningful values *)
Lemma kind_not_base c k : kind_of c = Some k -> c <> CAsn1Object.
Proof. intros H ->. discriminate. Qed.
Lemma encode_total cfg v : forall t, tree_of v = Some t -> wf cfg t -> exists os, encode v = Ok os.
Proof.
  induction v using val_ind'; intros t T W; try discriminate.
  - cbn [tree_of] in T. destruct (kind_of c) as [k|] eqn:K; [|discriminate].
    destruct (int_encode_total z) as (os & E & _). cbn [encode]. rewrite E. cbn [bind].
    destruct (tlv_total c os (kind_not_base c k K)) as (a & L & E' & _). eauto.
  - destruct v; try discriminate. cbn [tree_of] in T. destruct (kind_of c) as [k|] eqn:K; [|discriminate].
    cbn [encode]. destruct (tlv_total c s (kind_not_base c k K)) as (a & L & E' & _). eauto.
  - destruct l as [l|]; [|discriminate]. inversion T; subst. cbn [wf] in W. destruct l as [|a [|b r]]; try contradiction.
    destruct W as (Ha & Hb & Hab & Hr). destruct (oid_roundtrip_value a b r Ha ltac:(lia) Hr) as (os & E & _).
    cbn [encode]. rewrite E. cbn [bind]. destruct (tlv_total CObjectID os ltac:(discriminate)) as (x & L & E' & _). eauto.
  - cbn [tree_of] in T. destruct (kind_of c) as [k|] eqn:K; [|discriminate].
    cbn [encode]. destruct (tlv_total c [] (kind_not_base c k K)) as (a & L & E' & _). eauto.
  - rewrite tree_of_seq in T. destruct (kind_of c) as [k|] eqn:K; [|discriminate]. destruct (seq_kind k); [|discriminate].
    destruct (trees_of l) as [ts|] eqn:Ts; [|discriminate]. inversion T; subst. apply wf_seq in W as [W _].
    assert (EL : exists os, encode_list l = Ok os).
    { clear T K. revert ts Ts W. induction H as [|x l Hx Hl IH]; intros ts Ts W; [exists []; reflexivity|].
      apply trees_cons_inv in Ts as (a & b & -> & Ta & Tb). inversion W as [|? ? Wa Wb]; subst.
      destruct (Hx a Ta Wa) as [oa Ea]. destruct (IH b Tb Wb) as [ob Eb]. exists (oa ++ ob). cbn [encode_list]. rewrite Ea, Eb. reflexivity. }
    destruct EL as [os E]. rewrite encode_seq, E. cbn [bind]. destruct (tlv_total c os (kind_not_base c k K)) as (a & L & E' & _). eauto.
Qed.

(** ** C18 *)
Lemma height_pos t : (1 <= height t)%nat.
Proof. destruct t; cbn; lia. Qed.
Lemma roundtrip cfg v t : tree_of v = Some t -> wf cfg t -> classes_ok v = true ->
  exists os, encode v = Ok os /\ (zlen os < 256 ^ 126 -> exists w, tree_of w = Some t /\
    forall depth, (height t <= depth)%nat -> decode (reg_of cfg) depth os = Ok [w]).
Proof.
  intros T W C. destruct (encode_total cfg v t T W) as [os E]. exists os. split; [exact E|]. intros L.
  destruct (rt_all cfg v t os T W C E L) as (w & Tw & D). exists w. split; [exact Tw|].
  intros depth Hd. pose proof (height_pos t). destruct depth as [|d]; [lia|].
  specialize (D d Hd []). rewrite app_nil_r in D. rewrite (decode_cons _ _ _ _ _ D). reflexivity.
Qed.

(** ** C19 *)
Lemma decode_concat cfg vs oss : Forall2 (fun v o => encode v = Ok o) vs oss -> forall ts,
  trees_of vs = Some ts -> Forall (wf cfg) ts -> Forall (fun v => classes_ok v = true) vs -> zlen (concat oss) < 256 ^ 126 ->
  exists ws, trees_of ws = Some ts /\ forall depth, (1 <= depth)%nat -> Forall (fun t => (height t <= depth)%nat) ts -> forall rest,
    decode (reg_of cfg) depth (concat oss ++ rest) = (rs <- decode (reg_of cfg) depth rest ;; Ok (ws ++ rs)).
Proof.
  intros F ts T W C L.
  assert (E : encode_list vs = Ok (concat oss)).
  { clear -F. induction F as [|v o vs oss Hv F IH]; [reflexivity|]. cbn [encode_list concat]. rewrite Hv, IH. reflexivity. }
  destruct (rt_list cfg vs) with (ts := ts) (os := concat oss) as (ws & Tws & D); auto.
  - apply Forall_forall. intros x _. apply rt_all.
  - rewrite forallb_forall. rewrite Forall_forall in C. exact C.
  - exists ws. split; [exact Tws|]. intros depth H1 Hd rest. destruct depth as [|d]; [lia|]. apply D.
    clear -Hd. unfold max_height. induction Hd; cbn [fold_right]; lia.
Qed.

(** ** C20 *)
Lemma encode_is_tlv v c os : class_of v = Some c -> encode v = Ok os -> exists contents, tlv c contents = Ok os.
Proof.
  destruct v; cbn [class_of]; intros H E; inversion H; subst.
  - cbn [encode] in E. destruct (integer_encodeContents z) as [x|]; cbn [bind] in E; [|discriminate]. eauto.
  - cbn [encode] in E. destruct v; try discriminate. eauto.
  - cbn [encode] in E. destruct (oid_encodeContents l) as [x|]; cbn [bind] in E; [|discriminate]. eauto.
  - cbn [encode] in E. eauto.
  - rewrite encode_seq in E. destruct (encode_list l) as [x|]; cbn [bind] in E; [|discriminate]. eauto.
Qed.
Lemma encodeLength_decode n L rest : 0 <= n < 256 ^ 127 -> encodeLength n = Ok L -> decodeLength (L ++ rest) = Ok (n, rest).
Proof.
  intros H E. destruct (encodeLength_spec n H) as (L' & E' & LO). rewrite E in E'. inversion E'; subst. apply decodeLength_octets. exact LO.
Qed.
Lemma prefix_free v w a s : is_asn1 v = true -> is_asn1 w = true -> encode v = Ok a -> encode w = Ok (a ++ s) ->
  zlen (a ++ s) < 256 ^ 127 -> s = [].
Proof.
  intros Hv Hw Ea Eb L.
  assert (exists c, class_of v = Some c) as [c Cv] by (unfold is_asn1, isinstance in Hv; destruct (class_of v); [eauto|discriminate]).
  assert (exists c, class_of w = Some c) as [d Cw] by (unfold is_asn1, isinstance in Hw; destruct (class_of w); [eauto|discriminate]).
  destruct (encode_is_tlv v c a Cv Ea) as [x Tx]. destruct (encode_is_tlv w d _ Cw Eb) as [y Ty].
  pose proof (tlv_length _ _ _ Tx). pose proof (tlv_length _ _ _ Ty). rewrite zlen_app in *. pose proof (zlen_nonneg s).
  pose proof (zlen_nonneg x). pose proof (zlen_nonneg y).
  destruct (tlv_inv _ _ _ Tx) as (t & L1 & -> & _ & _ & E1 & _). destruct (tlv_inv _ _ _ Ty) as (t2 & L2 & E & _ & _ & E2 & _).
  cbn [app] in E. inversion E; subst t2. rewrite <- app_assoc in H6.
  pose proof (encodeLength_decode (zlen x) L1 (x ++ s) ltac:(lia) E1) as D1.
  pose proof (encodeLength_decode (zlen y) L2 y ltac:(lia) E2) as D2. rewrite H6 in D1. rewrite D1 in D2. inversion D2 as [[Hl Hx]].
  apply (f_equal zlen) in Hx. rewrite zlen_app in Hx. destruct s; [reflexivity|]. rewrite zlen_cons in Hx. pose proof (zlen_nonneg s). lia.
Qed.
Lemma injective cfg v w a t u : encode v = Ok a -> encode w = Ok a -> zlen a < 256 ^ 126 ->
  tree_of v = Some t -> wf cfg t -> classes_ok v = true -> tree_of w = Some u -> wf cfg u -> classes_ok w = true -> t = u.
Proof.
  intros Ev Ew L Tv Wv Cv Tw Ww Cw.
  destruct (rt_all cfg v t a Tv Wv Cv Ev L) as (v' & Tv' & Dv). destruct (rt_all cfg w u a Tw Ww Cw Ew L) as (w' & Tw' & Dw).
  specialize (Dv (Nat.max (height t) (height u)) ltac:(lia) []). specialize (Dw (Nat.max (height t) (height u)) ltac:(lia) []).
  rewrite Dv in Dw. inversion Dw; subst. congruence.
Qed.

(** ** C21 *)
Definition allowed (r : bool) (e : exn) : Prop :=
  match e with
  | IndexError | ValueError | TypeError | NotImplementedError | PDUError => True
  | RecursionError => r = true
  | _ => False
  end.
(** No None inside. *)
Fixpoint clean (v : val) : bool :=
  match v with
  | VNone | VOid None => false
  | VPyList l | VSeq _ l => forallb clean l
  | VOct _ w => clean w
  | _ => true
  end.
Definition goodv (r : bool) (x : res val) : Prop := match x with Ok v => clean v = true | Err e => allowed r e end.
Definition goodl (r : bool) (x : res (list val)) : Prop := match x with Ok l => forallb clean l = true | Err e => allowed r e end.

Lemma integer_decode_err s e : integer_decodeContents s = Err e -> e = IndexError.
Proof.
  unfold integer_decodeContents. destruct s; [intros H; inversion H; reflexivity|].
  destruct (Z.land z 128 =? 128); [destruct (dec_neg_loop _ _ _)|]; discriminate.
Qed.
Lemma oid_group_loop_err bytes : forall v e, oid_group_loop v bytes = Err e -> e = IndexError.
Proof.
  induction bytes as [|b r IH]; intros v e; cbn [oid_group_loop]; [intros H; inversion H; reflexivity|].
  destruct (Z.land b 128 =? 128); [apply IH|discriminate].
Qed.
Lemma oid_group_loop_shrinks bytes : forall v x r, oid_group_loop v bytes = Ok (x, r) -> (length r < length bytes)%nat.
Proof.
  induction bytes as [|b bs IH]; intros v x r; cbn [oid_group_loop]; [discriminate|].
  destruct (Z.land b 128 =? 128); intros H; [apply IH in H; cbn; lia|inversion H; subst; cbn; lia].
Qed.
Lemma oid_loop_err fuel : forall bytes e, (length bytes <= fuel)%nat -> oid_loop fuel bytes = Err e -> e = IndexError.
Proof.
  induction fuel as [|f IH]; intros bytes e L; destruct bytes as [|b r]; cbn [oid_loop]; try discriminate; [cbn in L; lia|].
  destruct (Z.land b 128 =? 128).
  - destruct (oid_group_loop _ r) as [[x r']|e'] eqn:G; cbn [bind].
    + pose proof (oid_group_loop_shrinks _ _ _ _ G). destruct (oid_loop f r') eqn:E; cbn [bind]; [discriminate|].
      intros H0. inversion H0; subst. apply (IH r'); [cbn in L; lia|assumption].
    + intros H. inversion H; subst. apply oid_group_loop_err in G. exact G.
  - destruct (oid_loop f r) eqn:E; cbn [bind]; [discriminate|]. intros H. inversion H; subst. apply (IH r); [cbn in L; lia|assumption].
Qed.
Lemma oid_decode_err s e r : oid_decodeContents s = Err e -> allowed r e.
Proof.
  unfold oid_decodeContents. destruct s as [|b s]; [intros H; inversion H; exact I|].
  destruct (b <? 128); [|intros H; inversion H; exact I].
  destruct (oid_loop (length s) s) eqn:E; cbn [bind]; [discriminate|]. intros H; inversion H; subst.
  apply oid_loop_err in E; [subst; exact I|lia].
Qed.

Lemma clean_nth l : forallb clean l = true -> forall n x, nth_error l n = Some x -> clean x = true.
Proof. intros H n x E. rewrite forallb_forall in H. apply H. eapply nth_error_In; eauto. Qed.
Lemma py_index_good r l i : forallb clean l = true -> goodv r (py_index l i).
Proof.
  intros H. unfold py_index. destruct (_ || _); [exact I|]. destruct (nth_error l _) eqn:E; [|exact I].
  exact (clean_nth l H _ _ E).
Qed.
Lemma py_getitem_good r v i : clean v = true -> goodv r (py_getitem v i).
Proof.
  destruct v; cbn [clean py_getitem]; intros H; try exact I; try discriminate.
  - unfold py_index. destruct (_ || _); [exact I|]. destruct (nth_error s _); [reflexivity|exact I].
  - apply py_index_good. exact H.
  - destruct l as [l|]; [|discriminate]. unfold py_index. destruct (_ || _); [exact I|]. destruct (nth_error l _); [reflexivity|exact I].
  - apply py_index_good. exact H.
Qed.
Lemma py_iter_good r v : clean v = true -> goodl r (py_iter v).
Proof.
  destruct v; cbn [clean py_iter]; intros H; try exact I; try discriminate; try exact H.
  - cbn [goodl]. apply forallb_forall. intros x Hx. apply in_map_iff in Hx as (y & <- & _). reflexivity.
  - destruct l as [l|]; [|discriminate]. cbn [goodl]. apply forallb_forall. intros x Hx. apply in_map_iff in Hx as (y & <- & _). reflexivity.
Qed.
Lemma varbind_init_good r c n v : clean n = true -> clean v = true -> goodv r (varbind_init c n v).
Proof.
  intros Hn Hv. unfold varbind_init. destruct (_ && _); [exact I|]. destruct (_ && _); [exact I|]. cbn. rewrite Hn, Hv. reflexivity.
Qed.
Lemma build_varbind_good r c item : clean item = true -> goodv r (build_varbind c item).
Proof.
  intros H. unfold build_varbind. pose proof (py_getitem_good r item 0 H) as G0. destruct (py_getitem item 0) as [n|e]; cbn [bind goodv] in *; [|exact G0].
  pose proof (py_getitem_good r item 1 H) as G1. destruct (py_getitem item 1) as [v|e]; cbn [bind goodv] in *; [|exact G1].
  apply varbind_init_good; assumption.
Qed.
Lemma mapM_good r (f : val -> res val) l : (forall x, clean x = true -> goodv r (f x)) -> forallb clean l = true -> goodl r (mapM f l).
Proof.
  intros Hf. induction l as [|x l IH]; cbn [mapM forallb]; intros H; [reflexivity|]. apply andb_prop in H as [H1 H2].
  pose proof (Hf x H1) as G. destruct (f x) as [y|e]; cbn [bind goodv goodl] in *; [|exact G].
  specialize (IH H2). destruct (mapM f l) as [ys|e]; cbn [bind goodl] in *; [|exact IH]. cbn [forallb]. rewrite G, IH. reflexivity.
Qed.
Lemma py_int_err v e r : clean v = true -> (forall s, v <> VPyStr s) -> py_int v = Err e -> allowed r e.
Proof. destruct v; cbn [py_int]; intros _ N H; try discriminate; try (inversion H; exact I). exfalso. apply (N s). reflexivity. Qed.
Lemma int_init_good r c z : goodv r (integer_init c (VPyInt z)).
Proof. unfold integer_init. destruct (_ && _); [reflexivity|exact I]. Qed.
Lemma appends_good r ct items : forallb clean items = true -> forall acc, forallb clean acc = true -> goodl r (sequenceof_appends ct acc items).
Proof.
  induction items as [|x items IH]; cbn [forallb sequenceof_appends]; intros H acc Ha; [exact Ha|]. apply andb_prop in H as [H1 H2].
  unfold sequenceof_append. destruct (negb _); cbn [bind]; [exact I|]. apply IH; [exact H2|]. rewrite forallb_app, Ha. cbn. rewrite H1. reflexivity.
Qed.
Lemma sequenceof_init_good r c ct v : clean v = true -> goodv r (sequenceof_init c ct v).
Proof.
  intros H. unfold sequenceof_init. destruct (truthy v); [|reflexivity].
  pose proof (py_iter_good r v H) as G. destruct (py_iter v) as [items|e]; cbn [bind goodl goodv] in *; [|exact G].
  pose proof (appends_good r ct items G [] eq_refl) as G2. destruct (sequenceof_appends ct [] items) as [l|e]; cbn [bind goodl goodv clean] in *; exact G2.
Qed.
(** A plain str only occurs inside OctetStrings. *)
Fixpoint nostr (v : val) : bool :=
  match v with
  | VPyStr _ => false
  | VPyList l | VSeq _ l => forallb nostr l
  | _ => true
  end.
Ltac chain := match goal with
  | |- goodv _ (bind ?x _) => let G := fresh "G" in
      assert (G : goodv _ x) by (try apply int_init_good; try (apply sequenceof_init_good; assumption); eauto);
      destruct x; cbn [bind goodv] in G |- *; [|exact G]
  end.
Lemma py_len_seq c l : py_len (VSeq c l) = Ok (zlen l).
Proof. reflexivity. Qed.
Lemma pdu_init_good r c a b d vl : clean vl = true -> (exists n, py_len vl = Ok n) ->
  goodv r (pdu_init c (VPyInt a) (VPyInt b) (VPyInt d) vl).
Proof.
  intros H [n Hn]. unfold pdu_init. destruct (issubclass c CPDU_v2).
  - unfold pdu_v2_init. cbn [gt_max_bindings bind]. destruct (max_bindings <? d); [exact I|].
    pose proof (int_init_good r CInteger32 a) as G1. destruct (integer_init CInteger32 _) eqn:E1; cbn [bind goodv] in *; [|exact G1].
    pose proof (int_init_good r CErrorStatus_v2 b) as G2. destruct (integer_init CErrorStatus_v2 _) eqn:E2; cbn [bind goodv] in *; [|exact G2].
    pose proof (int_init_good r CInteger d) as G3. destruct (integer_init CInteger _) eqn:E3; cbn [bind goodv] in *; [|exact G3].
    unfold varbindlist_v2_init. rewrite Hn. cbn [bind]. destruct (max_bindings <? n); cbn [bind]; [exact I|].
    pose proof (sequenceof_init_good r CVarBindList_v2 CVarBind vl H) as G4. destruct (sequenceof_init _ _ vl); cbn [bind goodv] in *; [|exact G4].
    cbn [clean forallb]. rewrite G1, G2, G3, G4. reflexivity.
  - unfold pdu_v1_init.
    pose proof (int_init_good r CInteger a) as G1. destruct (integer_init CInteger _) eqn:E1; cbn [bind goodv] in *; [|exact G1].
    pose proof (int_init_good r CErrorStatus b) as G2. destruct (integer_init CErrorStatus _) eqn:E2; cbn [bind goodv] in *; [|exact G2].
    pose proof (int_init_good r CInteger d) as G3. destruct (integer_init CInteger (VPyInt d)) eqn:E3; cbn [bind goodv] in *; [|exact G3].
    pose proof (sequenceof_init_good r CVarBindList CVarBind vl H) as G4. unfold varbindlist_init. destruct (sequenceof_init _ _ vl); cbn [bind goodv] in *; [|exact G4].
    cbn [clean forallb]. rewrite G1, G2, G3, G4. reflexivity.
Qed.
Lemma bulk_init_good r c a b d vl : clean vl = true -> (exists n, py_len vl = Ok n) ->
  goodv r (bulkpdu_init c (VPyInt a) (VPyInt b) (VPyInt d) vl).
Proof.
  intros H [n Hn]. unfold bulkpdu_init. cbn [gt_max_bindings bind]. destruct (max_bindings <? b); [exact I|]. cbn [bind].
  destruct (max_bindings <? d); [exact I|].
  pose proof (int_init_good r CInteger32 a) as G1. destruct (integer_init CInteger32 _) eqn:E1; cbn [bind goodv] in *; [|exact G1].
  pose proof (int_init_good r CInteger b) as G2. destruct (integer_init CInteger (VPyInt b)) eqn:E2; cbn [bind goodv] in *; [|exact G2].
  pose proof (int_init_good r CInteger d) as G3. destruct (integer_init CInteger (VPyInt d)) eqn:E3; cbn [bind goodv] in *; [|exact G3].
  unfold varbindlist_v2_init. rewrite Hn. cbn [bind]. destruct (max_bindings <? n); cbn [bind]; [exact I|].
  pose proof (sequenceof_init_good r CVarBindList_v2 CVarBind vl H) as G4. destruct (sequenceof_init _ _ vl); cbn [bind goodv] in *; [|exact G4].
  cbn [clean forallb]. rewrite G1, G2, G3, G4. reflexivity.
Qed.
(** py_int on a decoded object: OctetStrings hold their text in [.value]; a bare str is
    never an element of a decoded list. *)
Definition deco (v : val) : bool := clean v && match class_of v with Some _ => true | None => false end.
Definition goodd (r : bool) (x : res val) : Prop := match x with Ok v => deco v = true | Err e => allowed r e end.
Definition gooddl (r : bool) (x : res (list val)) : Prop := match x with Ok l => forallb deco l = true | Err e => allowed r e end.
Lemma deco_clean l : forallb deco l = true -> forallb clean l = true.
Proof. rewrite !forallb_forall. intros H x Hx. specialize (H x Hx). unfold deco in H. apply andb_prop in H. tauto. Qed.
Lemma py_int_deco r v : deco v = true -> match py_int v with Ok _ => True | Err e => allowed r e end.
Proof. destruct v; cbn [py_int]; intros H; try exact I; discriminate. Qed.

Lemma pdu_of_objects_good r c objs : forallb deco objs = true -> goodv r (pdu_of_objects c objs).
Proof.
  intros H. unfold pdu_of_objects. destruct objs as [|o0 [|o1 [|o2 [|o3 [|o4 objs]]]]]; try exact I.
  pose proof (deco_clean _ H) as Hc. cbn [forallb] in H, Hc. repeat rewrite andb_true_iff in H. repeat rewrite andb_true_iff in Hc.
  destruct H as (D0 & D1 & D2 & D3 & _). destruct Hc as (C0 & C1 & C2 & C3 & _).
  pose proof (py_iter_good r o3 C3) as G. destruct (py_iter o3) as [items|e]; cbn [bind goodl] in *; [|exact G].
  pose proof (mapM_good r (build_varbind CVarBind) items (build_varbind_good r CVarBind) G) as GM.
  destruct (mapM _ items) as [vbs|e]; cbn [bind goodl] in *; [|exact GM].
  pose proof (py_int_deco r o0 D0). destruct (py_int o0); cbn [bind goodv]; [|assumption].
  pose proof (py_int_deco r o1 D1). destruct (py_int o1); cbn [bind goodv]; [|assumption].
  pose proof (py_int_deco r o2 D2). destruct (py_int o2); cbn [bind goodv]; [|assumption].
  apply pdu_init_good; [exact GM|eexists; reflexivity].
Qed.
Lemma bulk_of_objects_good r c objs : forallb deco objs = true -> goodv r (bulkpdu_of_objects c objs).
Proof.
  intros H. unfold bulkpdu_of_objects. destruct objs as [|o0 [|o1 [|o2 [|o3 [|o4 objs]]]]]; try exact I.
  pose proof (deco_clean _ H) as Hc. cbn [forallb] in H, Hc. repeat rewrite andb_true_iff in H. repeat rewrite andb_true_iff in Hc.
  destruct H as (D0 & D1 & D2 & D3 & _). destruct Hc as (C0 & C1 & C2 & C3 & _).
  pose proof (py_iter_good r o3 C3) as G. destruct (py_iter o3) as [items|e]; cbn [bind goodl] in *; [|exact G].
  pose proof (mapM_good r (build_varbind CVarBind_v2) items (build_varbind_good r CVarBind_v2) G) as GM.
  destruct (mapM _ items) as [vbs|e]; cbn [bind goodl] in *; [|exact GM].
  pose proof (py_int_deco r o0 D0). destruct (py_int o0); cbn [bind goodv]; [|assumption].
  pose proof (py_int_deco r o1 D1). destruct (py_int o1); cbn [bind goodv]; [|assumption].
  pose proof (py_int_deco r o2 D2). destruct (py_int o2); cbn [bind goodv]; [|assumption].
  apply bulk_init_good; [exact GM|eexists; reflexivity].
Qed.
Lemma trap_of_objects_good r objs : forallb deco objs = true -> goodv r (trappdu_of_objects objs).
Proof.
  intros H. unfold trappdu_of_objects. destruct objs as [|o0 [|o1 [|o2 [|o3 [|o4 [|o5 [|o6 objs]]]]]]]; try exact I.
  pose proof (deco_clean _ H) as Hc. cbn [forallb] in H, Hc. repeat rewrite andb_true_iff in H. repeat rewrite andb_true_iff in Hc.
  destruct H as (D0 & D1 & D2 & D3 & D4 & D5 & _). destruct Hc as (C0 & C1 & C2 & C3 & C4 & C5 & _).
  pose proof (py_iter_good r o5 C5) as G. destruct (py_iter o5) as [items|e]; cbn [bind goodl] in *; [|exact G].
  pose proof (mapM_good r (build_varbind CVarBind) items (build_varbind_good r CVarBind) G) as GM.
  destruct (mapM _ items) as [vbs|e]; cbn [bind goodl] in *; [|exact GM].
  pose proof (py_int_deco r o2 D2). destruct (py_int o2); cbn [bind goodv]; [|assumption].
  pose proof (int_init_good r CGenericTrap a) as G1. destruct (integer_init _ _); cbn [bind goodv] in *; [|exact G1].
  cbn [clean forallb trappdu_init]. rewrite C0, C1, G1, C3, C4, GM. reflexivity.
Qed.

Lemma reg_has_method cfg t c : reg_get (reg_of cfg) t = Some c -> decode_method c <> None.
Proof.
  assert (H : forall r, forallb (fun p => match decode_method (snd p) with Some _ => true | None => false end) r = true ->
              reg_get r t = Some c -> decode_method c <> None).
  { induction r as [|[j e] r IH]; cbn [forallb reg_get fst snd]; [discriminate|].
    destruct (Z.eqb_spec j t); intros F E.
    - inversion E; subst. destruct (decode_method c); [discriminate|discriminate].
    - apply andb_prop in F. apply IH; tauto. }
  apply H. destruct cfg; vm_compute; reflexivity.
Qed.
Lemma pdu_init_seq c a b d e v : pdu_init c a b d e = Ok v -> exists k l, v = VSeq k l.
Proof.
  unfold pdu_init, pdu_v2_init, pdu_v1_init. destruct (issubclass c CPDU_v2); intros H;
  repeat match type of H with
    | bind ?x _ = _ => destruct x; cbn [bind] in H; [|discriminate]
    | (if ?x then _ else _) = _ => destruct x; [discriminate|]
    end; inversion H; eauto.
Qed.
Lemma goodv_seq r x : goodv r x -> (forall v, x = Ok v -> exists c l, v = VSeq c l) -> goodd r x.
Proof.
  destruct x as [v|e]; cbn [goodv goodd]; [|auto]. intros H K. destruct (K v eq_refl) as (c & l & ->).
  unfold deco. rewrite H. reflexivity.
Qed.
Lemma decodeContents_good r dec c data : decode_method c <> None -> gooddl r (dec data) -> goodd r (decodeContents dec c data).
Proof.
  intros Hm Hd. unfold decodeContents. destruct (decode_method c) as [m|]; [|contradiction]. destruct m.
  - destruct (integer_decodeContents data) eqn:E; cbn [bind]; [reflexivity|]. apply integer_decode_err in E. subst. exact I.
  - reflexivity.
  - destruct (oid_decodeContents data) eqn:E; cbn [bind]; [reflexivity|]. eapply oid_decode_err; eassumption.
  - destruct data; [reflexivity|exact I].
  - destruct (dec data) as [l|e]; cbn [bind gooddl] in *; [|exact Hd]. unfold goodd, deco; cbn [clean]. rewrite (deco_clean _ Hd). reflexivity.
  - reflexivity.
  - unfold counter_decodeContents. destruct (integer_decodeContents data) eqn:E; cbn [bind]; [destruct (_ <? 0); reflexivity|].
    apply integer_decode_err in E. subst. exact I.
  - destruct (dec data) as [l|e]; cbn [bind gooddl] in *; [|exact Hd]. apply goodv_seq; [apply pdu_of_objects_good; exact Hd|].
    intros v H. unfold pdu_of_objects in H. destruct l as [|o0 [|o1 [|o2 [|o3 [|o4 l]]]]]; try discriminate.
    repeat match type of H with bind ?x _ = _ => destruct x; cbn [bind] in H; [|discriminate] end. eapply pdu_init_seq; eassumption.
  - destruct (dec data) as [l|e]; cbn [bind gooddl] in *; [|exact Hd]. apply goodv_seq; [apply trap_of_objects_good; exact Hd|].
    intros v H. unfold trappdu_of_objects in H. destruct l as [|o0 [|o1 [|o2 [|o3 [|o4 [|o5 [|o6 l]]]]]]]; try discriminate.
    repeat match type of H with bind ?x _ = _ => destruct x; cbn [bind] in H; [|discriminate] end. inversion H. eexists; eexists; reflexivity.
  - destruct (dec data) as [l|e]; cbn [bind gooddl] in *; [|exact Hd]. apply goodv_seq; [apply bulk_of_objects_good; exact Hd|].
    intros v H. unfold bulkpdu_of_objects in H. destruct l as [|o0 [|o1 [|o2 [|o3 [|o4 l]]]]]; try discriminate.
    unfold bulkpdu_init in H.
    repeat match type of H with
    | bind ?x _ = _ => destruct x; cbn [bind] in H; [|discriminate]
    | (if ?x then _ else _) = _ => destruct x; [discriminate|]
    end. inversion H. eexists; eexists; reflexivity.
Qed.
Lemma decodeTag_err s e : decodeTag s = Err e -> e = IndexError.
Proof.
  unfold decodeTag. destruct s as [|b s]; [intros H; inversion H; reflexivity|]. destruct (_ =? _); [|discriminate].
  generalize 0. induction s as [|c s IH]; intros a; cbn [decodeTag_loop]; [intros H; inversion H; reflexivity|].
  destruct (_ =? 0); [discriminate|apply IH].
Qed.
Lemma decodeLength_err s e : decodeLength s = Err e -> e = IndexError.
Proof.
  unfold decodeLength. destruct s as [|b s]; [intros H; inversion H; reflexivity|]. destruct (negb _); [|discriminate].
  generalize (Z.to_nat (Z.land b 0x7F)) as k. intros k. generalize 0. revert s. induction k as [|k IH]; intros s a; cbn [decodeLength_loop]; [discriminate|].
  destruct s as [|c s]; [intros H; inversion H; reflexivity|apply IH].
Qed.
Lemma decode_one_good cfg r dec s : (forall s', (length s' + 2 <= length s)%nat -> gooddl r (dec s')) ->
  match decode_one (reg_of cfg) dec s with Ok (o, _) => deco o = true | Err e => allowed r e end.
Proof.
  intros H. unfold decode_one. destruct (decodeTag s) as [[t s1]|e] eqn:E1; cbn [bind]; [|apply decodeTag_err in E1; subst; exact I].
  destruct (decodeLength s1) as [[n s2]|e] eqn:E2; cbn [bind]; [|apply decodeLength_err in E2; subst; exact I].
  destruct (reg_get (reg_of cfg) t) as [c|] eqn:R; [|exact I].
  pose proof (decodeTag_shrinks _ _ _ E1). pose proof (decodeLength_shrinks _ _ _ E2). pose proof (ztake_length n s2).
  pose proof (decodeContents_good r dec c (ztake n s2) (reg_has_method cfg t c R) (H (ztake n s2) ltac:(lia))) as G.
  destruct (decodeContents dec c (ztake n s2)); cbn [bind goodd] in *; exact G.
Qed.
Lemma decode_loop_good cfg r dec fuel : forall s, (length s <= fuel)%nat ->
  (forall s', (length s' + 2 <= length s)%nat -> gooddl r (dec s')) -> gooddl r (decode_loop (reg_of cfg) dec fuel s).
Proof.
  induction fuel as [|f IH]; intros s L H; destruct s as [|b s]; try reflexivity; [cbn in L; lia|]. cbn [decode_loop].
  pose proof (decode_one_good cfg r dec (b :: s) H) as G.
  destruct (decode_one (reg_of cfg) dec (b :: s)) as [[o rest]|e] eqn:E; cbn [bind]; [|exact G].
  destruct (decode_one_inv _ _ _ _ _ E) as (_ & _ & _ & _ & _ & _ & _ & _ & _ & _ & Lr & _).
  assert (GL : gooddl r (decode_loop (reg_of cfg) dec f rest)).
  { apply IH; [cbn in *; lia|]. intros s' Hs. apply H. lia. }
  destruct (decode_loop (reg_of cfg) dec f rest) as [os|e]; cbn [bind gooddl forallb] in *; [|exact GL]. rewrite G, GL. reflexivity.
Qed.
Lemma decode_good cfg r depth : forall s, (r = true \/ (length s < 2 * depth)%nat) -> gooddl r (decode (reg_of cfg) depth s).
Proof.
  induction depth as [|d IH]; intros s H; [destruct H as [->|H]; [reflexivity|lia]|].
  cbn [decode]. apply decode_loop_good; [lia|]. intros s' Hs. apply IH. destruct H; [left; assumption|right; lia].
Qed.

Lemma decode_exceptions cfg depth s : (exists l, decode (reg_of cfg) depth s = Ok l) \/
  (exists e, decode (reg_of cfg) depth s = Err e /\ In e [IndexError; ValueError; TypeError; NotImplementedError; PDUError; RecursionError]).
Proof.
  pose proof (decode_good cfg true depth s (or_introl eq_refl)) as G.
  destruct (decode (reg_of cfg) depth s) as [l|e]; [left; eauto|right; exists e; split; [reflexivity|]].
  cbn [gooddl] in G. destruct e; cbn in G; try contradiction; cbn; tauto.
Qed.
Lemma decode_no_recursion cfg depth s : (length s < 2 * depth)%nat -> decode (reg_of cfg) depth s <> Err RecursionError.
Proof.
  intros H E. pose proof (decode_good cfg false depth s (or_intror H)) as G. rewrite E in G. discriminate.
Qed.

(** Nested sequences exhaust any budget. *)
Fixpoint nest (n : nat) : val := match n with O => VSeq CSequence [] | S m => VSeq CSequence [nest m] end.
Lemma encodeLength_short n L : 0 <= n < 2 ^ 32 -> encodeLength n = Ok L -> zlen L <= 5.
Proof.
  intros H E. destruct (encodeLength_spec n) as (L' & E' & LO); [split; [lia|]; apply Z.lt_trans with (2 ^ 32); [lia|reflexivity]|].
  rewrite E in E'. inversion E'; subst. destruct LO as [[_ ->]|(_ & ds & -> & B & _)]; [cbn; lia|].
  rewrite zlen_cons. pose proof (be_of_len n ds 4 B). change (256 ^ 4) with (2 ^ 32) in *. lia.
Qed.
Lemma encode_nest n : exists os, encode (nest n) = Ok os /\ (6 * (Z.of_nat n + 1) < 2 ^ 32 -> zlen os <= 6 * (Z.of_nat n + 1)).
Proof.
  induction n as [|n (os & E & B)].
  - exists [48; 0]. split; [reflexivity|]. intros; cbn; lia.
  - change (nest (S n)) with (VSeq CSequence [nest n]). rewrite encode_seq. cbn [encode_list]. rewrite E. cbn [bind]. rewrite app_nil_r.
    destruct (tlv_total CSequence os ltac:(discriminate)) as (t & L & ET & _ & EL & _). exists (t :: L ++ os). split; [exact ET|].
    rewrite zlen_cons, zlen_app.
    intros H. specialize (B ltac:(lia)). pose proof (zlen_nonneg os). pose proof (encodeLength_short (zlen os) L ltac:(lia) EL). lia.
Qed.
Lemma nest_exhausts cfg n os : encode (nest n) = Ok os -> zlen os < 256 ^ 127 -> decode (reg_of cfg) (S n) os = Err RecursionError.
Proof.
  revert os. induction n as [|n IH]; intros os E L.
  - inversion E; subst. destruct cfg; reflexivity.
  - change (nest (S n)) with (VSeq CSequence [nest n]) in E. rewrite encode_seq in E. cbn [encode_list] in E.
    destruct (encode (nest n)) as [inner|] eqn:EI; cbn [bind] in E; [|discriminate]. rewrite app_nil_r in E.
    pose proof (tlv_length _ _ _ E) as TL.
    pose proof (decode_one_tlv CSequence inner os 48 E eq_refl ltac:(lia)) as D.
    destruct (basic_decodable cfg KSequence DSequence eq_refl) as (d & R & Kd & Md & _).
    specialize (IH inner eq_refl ltac:(lia)). specialize (D (reg_of cfg) (decode (reg_of cfg) (S n)) []).
    rewrite app_nil_r in D. change (kind_octet KSequence) with 48 in R. rewrite R in D. unfold decodeContents in D. rewrite Md, IH in D. cbn [bind] in D.
    change (decode (reg_of cfg) (S (S n)) os) with (decode_loop (reg_of cfg) (decode (reg_of cfg) (S n)) (length os) os).
    destruct os as [|b os]; [exfalso; pose proof (zlen_nonneg inner); change (zlen (@nil Z)) with 0 in TL; lia|].
    cbn [length decode_loop]. rewrite D. reflexivity.
Qed.
Lemma nest_tree n : exists t, tree_of (nest n) = Some t /\ height t = S (S n) /\ (forall cfg, wf cfg t) /\ classes_ok (nest n) = true.
Proof.
  induction n as [|n (t & T & H & W & C)].
  - exists (TSeq KSequence []). repeat split.
  - exists (TSeq KSequence [t]). change (nest (S n)) with (VSeq CSequence [nest n]). split; [|split; [|split]].
    + apply vbl_tree; [reflexivity|]. apply trees_of_cons; [exact T|reflexivity].
    + cbn [height fold_right]. rewrite H. lia.
    + intros cfg. apply wf_seq. split; [constructor; [apply W|constructor]|exact I].
    + cbn [classes_ok forallb]. rewrite C. reflexivity.
Qed.
Lemma recursion_witness cfg budget : 6 * Z.of_nat (S budget) < 2 ^ 32 -> exists v os t,
  tree_of v = Some t /\ wf cfg t /\ encode v = Ok os /\ zlen os <= 6 * Z.of_nat (S budget) /\
  decode (reg_of cfg) (S budget) os = Err RecursionError /\
  exists w, tree_of w = Some t /\ decode (reg_of cfg) (S (S budget)) os = Ok [w].
Proof.
  intros H. destruct (encode_nest budget) as (os & E & B). destruct (nest_tree budget) as (t & T & Ht & W & C).
  exists (nest budget), os, t. specialize (B ltac:(lia)).
  assert (2 ^ 32 < 256 ^ 126) by reflexivity. pose proof pow_126_127.
  repeat split; auto; try lia.
  - apply nest_exhausts; [exact E|lia].
  - destruct (roundtrip cfg (nest budget) t T (W cfg) C) as (os' & E' & D). rewrite E in E'. inversion E'; subst os'.
    destruct (D ltac:(lia)) as (w & Tw & Dw). exists w. split; [exact Tw|]. apply Dw. lia.
Qed.

(** ** C22 *)
Lemma truncated reg dec t n L data rest : Z.land t 31 <> 31 -> ber_length n L -> zlen data <= n ->
  ber_length (zlen data) rest ->
  decode_one reg dec (t :: L ++ data) = decode_one reg dec (t :: rest ++ data).
Proof.
  intros Ht HL Hn HR. unfold decode_one. rewrite !decodeTag_single by exact Ht. cbn [bind].
  rewrite (ber_length_decode n L data HL), (ber_length_decode (zlen data) rest data HR). cbn [bind].
  rewrite !ztake_all, !zdrop_all by lia. reflexivity.
Qed.
Lemma octets_prefix_accepted cfg s k d : 0 <= k < zlen s -> zlen s < 256 ^ 127 ->
  exists os c, encode (VOct COctetString (VPyStr s)) = Ok os /\
    decode (reg_of cfg) (S d) (ztake (zlen os - (zlen s - k)) os) = Ok [VOct c (VPyStr (ztake k s))] /\
    decode (reg_of cfg) (S d) os = Ok [VOct c (VPyStr s)].
Proof.
  intros Hk Hs. destruct (tlv_total COctetString s ltac:(discriminate)) as (t & L & E & Hi & EL & NL).
  destruct (basic_decodable cfg KOctetString DOctetString eq_refl) as (c & R & Kd & Md & _).
  exists (t :: L ++ s), c. cbn [encode]. split; [exact E|]. inversion Hi; subst t.
  assert (A : forall x, zlen x <= zlen s -> decode (reg_of cfg) (S d) (4 :: L ++ x) = Ok [VOct c (VPyStr x)]).
  { intros x Hx. assert (D : decode_one (reg_of cfg) (decode (reg_of cfg) d) (4 :: L ++ x) = Ok (VOct c (VPyStr x), [])).
    { unfold decode_one. rewrite decodeTag_single by (vm_compute; discriminate). cbn [bind].
      rewrite (encodeLength_decode (zlen s) L x) by (try exact EL; pose proof (zlen_nonneg s); lia). cbn [bind].
      change (kind_octet KOctetString) with 4 in R. rewrite R, ztake_all, zdrop_all by lia.
      unfold decodeContents. rewrite Md. reflexivity. }
    rewrite (decode_cons _ _ _ _ _ D). reflexivity. }
  split; [|apply A; lia].
  assert (TK : ztake (zlen (4 :: L ++ s) - (zlen s - k)) (4 :: L ++ s) = 4 :: L ++ ztake k s).
  { pose proof (ztake_app (4 :: L ++ ztake k s) (zdrop k s)) as X. cbn [app] in X. rewrite <- app_assoc, ztake_zdrop in X.
    etransitivity; [|exact X]. f_equal. rewrite !zlen_cons, !zlen_app, (ztake_length_eq k s) by lia. lia. }
  change tn_OctetString with 4. rewrite TK. apply A. rewrite ztake_length_eq by lia. lia.
Qed.

(** ** C23 *)
Lemma decodeTag_loop_group g : b128_group g -> forall v s, decodeTag_loop v (g ++ s) = Ok (v * 128 ^ Z.of_nat (length g) + b128_value g, s).
Proof.
  induction 1 as [b Hb|b r Hb Hr IH]; intros v s; cbn [app decodeTag_loop length b128_value].
  - rewrite land_127, land_128_octet, lor_shiftl_7 by (apply Z.mod_pos_bound; lia) || lia.
    destruct (Z.ltb_spec b 128); [|lia]. change (0 =? 0) with true. cbv iota. change (Z.of_nat 1) with 1.
    change (Z.of_nat 0) with 0. rewrite Z.pow_1_r, Z.pow_0_r. do 2 f_equal. lia.
  - rewrite land_127, land_128_octet, lor_shiftl_7 by (apply Z.mod_pos_bound; lia) || lia.
    destruct (Z.ltb_spec b 128); [lia|]. change (128 =? 0) with false. cbv iota.
    rewrite IH. rewrite Nat2Z.inj_succ, Z.pow_succ_r by lia. do 2 f_equal. ring.
Qed.
Lemma decode_loop_congr reg dec b1 s1 b2 s2 : decode_one reg dec (b1 :: s1) = decode_one reg dec (b2 :: s2) ->
  decode_loop reg dec (length (b1 :: s1)) (b1 :: s1) = decode_loop reg dec (length (b2 :: s2)) (b2 :: s2).
Proof.
  intros E. cbn [length decode_loop]. rewrite E. destruct (decode_one reg dec (b2 :: s2)) as [[o rest]|] eqn:E2; cbn [bind]; [|reflexivity].
  destruct (decode_one_inv _ _ _ _ _ E) as (_ & _ & _ & _ & _ & _ & _ & _ & _ & _ & L1 & _).
  destruct (decode_one_inv _ _ _ _ _ E2) as (_ & _ & _ & _ & _ & _ & _ & _ & _ & _ & L2 & _).
  rewrite (decode_loop_fuel _ _ (length s1) (length s2) rest) by (cbn in *; lia). reflexivity.
Qed.
Lemma high_tag_alias reg h g t s depth : Z.land h 31 = 31 -> b128_group g -> b128_value g = t -> Z.land t 31 <> 31 ->
  decode reg depth (h :: g ++ s) = decode reg depth (t :: s).
Proof.
  intros Hh Hg Hv Ht. destruct depth as [|d]; [reflexivity|]. apply decode_loop_congr.
  unfold decode_one. rewrite (decodeTag_single t) by exact Ht. unfold decodeTag. rewrite Hh. change (31 =? 0x1F) with true. cbv iota.
  rewrite decodeTag_loop_group by exact Hg. rewrite Z.mul_0_l, Z.add_0_l, Hv. reflexivity.
Qed.

(** ** C24 *)
Lemma encodeIdentifier_loop_diverges fuel : forall n, 0 <= n -> encodeIdentifier_loop fuel n = Err OutOfFuel.
Proof.
  induction fuel as [|f IH]; intros n Hn; cbn [encodeIdentifier_loop]; destruct (Z.eqb_spec n (-1)); try lia; [reflexivity|].
  rewrite IH; [reflexivity|]. apply Z.shiftr_nonneg. exact Hn.
Qed.
Lemma encodeIdentifier_diverges fuel tc tf n : 31 <= n -> 0 <= Z.lor (Z.lor tc tf) 31 <= 1114111 ->
  encodeIdentifier fuel tc tf (Some n) = Err OutOfFuel.
Proof.
  intros Hn Hc. unfold encodeIdentifier. destruct (Z.ltb_spec n 0x1F); [lia|].
  rewrite (proj2 (py_chr_ok _ _) (conj eq_refl Hc)). cbn [bind]. rewrite encodeIdentifier_loop_diverges by lia. reflexivity.
Qed.
