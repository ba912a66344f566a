(** * Lemmas for the BER tree codec (C18-C24). *)
From Coq Require Import ZArith List Bool Lia ZifyBool ZifyNat.
From Verif Require Import PyBase Classes Values Codec SpecBER SpecSMI SpecTree Bits ProofsInt ProofsOid ProofsScalar ProofsText.
Import ListNotations.
Open Scope Z_scope.
Ltac Zify.zify_post_hook ::= Z.div_mod_to_equations.

(** Induction on values, with the induction hypothesis for all elements. *)
Section ValInd.
  Variable P : val -> Prop.
  Hypothesis HNone : P VNone.
  Hypothesis HPyInt : forall z, P (VPyInt z).
  Hypothesis HPyStr : forall s, P (VPyStr s).
  Hypothesis HPyList : forall l, Forall P l -> P (VPyList l).
  Hypothesis HInt : forall c z, P (VInt c z).
  Hypothesis HOct : forall c v, P v -> P (VOct c v).
  Hypothesis HOid : forall l, P (VOid l).
  Hypothesis HNull : forall c, P (VNull c).
  Hypothesis HSeq : forall c l, Forall P l -> P (VSeq c l).
  Fixpoint val_ind' (v : val) : P v :=
    match v with
    | VNone => HNone
    | VPyInt z => HPyInt z
    | VPyStr s => HPyStr s
    | VPyList l => HPyList l ((fix go l : Forall P l := match l with [] => Forall_nil _ | x :: r => Forall_cons _ (val_ind' x) (go r) end) l)
    | VInt c z => HInt c z
    | VOct c w => HOct c w (val_ind' w)
    | VOid l => HOid l
    | VNull c => HNull c
    | VSeq c l => HSeq c l ((fix go l : Forall P l := match l with [] => Forall_nil _ | x :: r => Forall_cons _ (val_ind' x) (go r) end) l)
    end.
End ValInd.

Lemma encode_seq c l : encode (VSeq c l) = (contents <- encode_list l ;; tlv c contents).
Proof. cbn [encode]. f_equal. Qed.
Lemma tree_of_seq c l : tree_of (VSeq c l) =
  match kind_of c with
  | Some k => if seq_kind k then match trees_of l with Some ts => Some (TSeq k ts) | None => None end else None
  | None => None
  end.
Proof. reflexivity. Qed.
Lemma wf_seq cfg k l : wf cfg (TSeq k l) <-> Forall (wf cfg) l /\
      match k with
      | KSequence => True
      | KTrapV1 => available cfg k = true /\ trap_shape l
      | _ => available cfg k = true /\ request_shape l
      end.
Proof.
  assert (E : (fix all (l : list tree) : Prop := match l with [] => True | x :: r => wf cfg x /\ all r end) l <-> Forall (wf cfg) l).
  { induction l as [|x r IH]; [split; constructor|]. rewrite Forall_cons_iff, IH. reflexivity. }
  cbn [wf]. rewrite E. reflexivity.
Qed.

(** ** tlv *)
Lemma encodeLength_total n : 0 <= n -> exists L, encodeLength n = Ok L /\ L <> [].
Proof.
  intros Hn. unfold encodeLength. destruct (n <? 127); [eexists; split; [reflexivity|discriminate]|].
  destruct (encodeLength_loop_spec (S (Z.to_nat (Z.log2 n))) n [] 0 Hn) as (ds & E & _); [right; lia|].
  rewrite E. cbn [bind]. eexists; split; [reflexivity|discriminate].
Qed.
Lemma identifier_total c : c <> CAsn1Object -> exists t, class_identifier c = Ok [t].
Proof. intros H. destruct c; try contradiction; eexists; vm_compute; reflexivity. Qed.
Lemma identifier_single c i : class_identifier c = Ok i -> exists t, i = [t] /\ Z.land t 31 <> 31 /\ 0 <= t < 256.
Proof.
  destruct c; vm_compute class_identifier; intros H; try discriminate; inversion H; subst;
    eexists; (split; [reflexivity|split; [vm_compute; discriminate|lia]]).
Qed.
Lemma tlv_total c contents : c <> CAsn1Object -> exists t L, tlv c contents = Ok (t :: L ++ contents) /\
  class_identifier c = Ok [t] /\ encodeLength (zlen contents) = Ok L /\ L <> [].
Proof.
  intros H. destruct (identifier_total c H) as [t E]. destruct (encodeLength_total (zlen contents) (zlen_nonneg _)) as (L & EL & N).
  exists t, L. unfold tlv. rewrite E, EL. cbn [bind app]. auto.
Qed.
Lemma tlv_inv c contents os : tlv c contents = Ok os -> exists t L, os = t :: L ++ contents /\
  class_identifier c = Ok [t] /\ Z.land t 31 <> 31 /\ encodeLength (zlen contents) = Ok L /\ L <> [].
Proof.
  unfold tlv. intros H. destruct (class_identifier c) as [i|] eqn:E; cbn [bind] in H; [|discriminate].
  destruct (identifier_single c i E) as (t & -> & Hl & _).
  destruct (encodeLength_total (zlen contents) (zlen_nonneg _)) as (L & EL & N).
  rewrite EL in H. cbn [bind app] in H. inversion H; subst. exists t, L. auto.
Qed.

Lemma decodeTag_single t s : Z.land t 31 <> 31 -> decodeTag (t :: s) = Ok (t, s).
Proof. intros H. unfold decodeTag. destruct (Z.eqb_spec (Z.land t 0x1F) 0x1F); [contradiction|reflexivity]. Qed.

Lemma pow_126_127 : 256 ^ 126 < 256 ^ 127.
Proof. apply Z.pow_lt_mono_r; lia. Qed.

(** Reading back one tag-length-value. *)
Lemma decode_one_tlv c contents os t : tlv c contents = Ok os -> class_identifier c = Ok [t] -> zlen contents < 256 ^ 127 ->
  forall reg dec rest, decode_one reg dec (os ++ rest) =
    match reg_get reg t with
    | None => Err ValueError
    | Some d => o <- decodeContents dec d contents ;; Ok (o, rest)
    end.
Proof.
  intros H Hi Hl reg dec rest. destruct (tlv_inv _ _ _ H) as (t' & L & -> & Hi' & Ht & EL & _).
  rewrite Hi in Hi'. inversion Hi'; subst t'.
  unfold decode_one. cbn [app]. rewrite decodeTag_single by exact Ht. cbn [bind].
  rewrite <- app_assoc.
  destruct (encodeLength_spec (zlen contents)) as (L' & EL' & LO); [pose proof (zlen_nonneg contents); lia|].
  rewrite EL in EL'. inversion EL'; subst L'. rewrite (decodeLength_octets _ _ _ LO). cbn [bind].
  rewrite ztake_app, zdrop_app. reflexivity.
Qed.

Lemma tlv_length c contents os : tlv c contents = Ok os -> 2 + zlen contents <= zlen os.
Proof.
  intros H. destruct (tlv_inv _ _ _ H) as (t & L & -> & _ & _ & _ & N). rewrite zlen_cons, zlen_app.
  destruct L; [contradiction|]. rewrite zlen_cons. pose proof (zlen_nonneg L). lia.
Qed.

(** ** Fuel of the decode loop *)
Lemma decodeTag_shrinks s t r : decodeTag s = Ok (t, r) -> (length r < length s)%nat.
Proof.
  unfold decodeTag. destruct s as [|b s]; [discriminate|]. destruct (Z.land b 0x1F =? 0x1F); [|intros H; inversion H; subst; cbn; lia].
  cbn [length]. generalize 0. revert t r. induction s as [|c s IH]; intros t r a; cbn [decodeTag_loop]; [discriminate|].
  destruct (Z.land c 0x80 =? 0); intros H; [inversion H; subst; cbn; lia|]. apply IH in H. cbn [length]. lia.
Qed.
Lemma decodeLength_shrinks s n r : decodeLength s = Ok (n, r) -> (length r < length s)%nat.
Proof.
  unfold decodeLength. destruct s as [|b s]; [discriminate|].
  destruct (negb (Z.land b 0x80 =? 0)); [|intros H; inversion H; subst; cbn; lia].
  cbn [length]. generalize (Z.to_nat (Z.land b 0x7F)) as k. intros k. generalize 0. revert s n r.
  induction k as [|k IH]; intros s n r a; cbn [decodeLength_loop]; [intros H; inversion H; subst; lia|].
  destruct s as [|c s]; [discriminate|]. intros H. apply IH in H. cbn [length]. lia.
Qed.
Lemma decode_one_inv reg dec s o rest : decode_one reg dec s = Ok (o, rest) ->
  exists t n s1 s2 c, decodeTag s = Ok (t, s1) /\ decodeLength s1 = Ok (n, s2) /\ reg_get reg t = Some c /\
    decodeContents dec c (ztake n s2) = Ok o /\ rest = zdrop n s2 /\ (length rest + 2 <= length s)%nat /\
    (length (ztake n s2) + 2 <= length s)%nat.
Proof.
  unfold decode_one. destruct (decodeTag s) as [[t s1]|] eqn:E1; cbn [bind]; [|discriminate].
  destruct (decodeLength s1) as [[n s2]|] eqn:E2; cbn [bind]; [|discriminate].
  destruct (reg_get reg t) as [c|] eqn:E3; [|discriminate].
  destruct (decodeContents dec c (ztake n s2)) as [o'|] eqn:E4; cbn [bind]; [|discriminate].
  intros H. inversion H; subst. exists t, n, s1, s2, c.
  pose proof (decodeTag_shrinks _ _ _ E1). pose proof (decodeLength_shrinks _ _ _ E2).
  pose proof (zdrop_length n s2). pose proof (ztake_length n s2). repeat split; auto; lia.
Qed.
Lemma decode_loop_fuel reg dec : forall f g s, (length s <= f)%nat -> (length s <= g)%nat ->
  decode_loop reg dec f s = decode_loop reg dec g s.
Proof.
  induction f as [|f IH]; intros g s Hf Hg.
  - destruct s; [destruct g; reflexivity|cbn in Hf; lia].
  - destruct s as [|b s]; [destruct g; reflexivity|]. destruct g as [|g]; [cbn in Hg; lia|].
    cbn [decode_loop]. destruct (decode_one reg dec (b :: s)) as [[o rest]|] eqn:E; cbn [bind]; [|reflexivity].
    destruct (decode_one_inv _ _ _ _ _ E) as (_ & _ & _ & _ & _ & _ & _ & _ & _ & _ & L & _).
    rewrite (IH g rest) by (cbn in *; lia). reflexivity.
Qed.
(** decode of a stream whose first object is known *)
Lemma decode_cons reg d s o rest : decode_one reg (decode reg d) s = Ok (o, rest) ->
  decode reg (S d) s = (os <- decode reg (S d) rest ;; Ok (o :: os)).
Proof.
  intros E. destruct (decode_one_inv _ _ _ _ _ E) as (_ & _ & _ & _ & _ & _ & _ & _ & _ & _ & L & _).
  cbn [decode]. destruct s as [|b s]; [cbn in L; lia|]. cbn [length decode_loop]. rewrite E. cbn [bind].
  rewrite (decode_loop_fuel _ _ (length s) (length rest) rest) by (cbn in *; lia). reflexivity.
Qed.

(** ** Round trip of one value *)
Lemma int_survives_eq v : int_survives v <-> int_domain v.
Proof. reflexivity. Qed.
Lemma written_right_iff c : written_right c = negb (miswritten c).
Proof. destruct c; reflexivity. Qed.

Definition basic_meth (k : kind) : option dmeth :=
  match k with
  | KInteger | KGauge32 | KTimeTicks => Some DInteger
  | KCounter32 => Some DCounter
  | KOctetString => Some DOctetString
  | KIpAddress => Some DIPAddress
  | KNull => Some DNull
  | KObjectID => Some DObjectID
  | KSequence => Some DSequence
  | _ => None
  end.
Lemma basic_decodable cfg k m : basic_meth k = Some m ->
  exists d, reg_get (reg_of cfg) (kind_octet k) = Some d /\ kind_of d = Some k /\ decode_method d = Some m /\
            (m = DObjectID -> d = CObjectID).
Proof.
  destruct cfg, k; cbn [basic_meth]; intros H; inversion H; subst;
    (eexists; split; [vm_compute; reflexivity|split; [reflexivity|split; [reflexivity|intros; reflexivity || discriminate]]]).
Qed.
Definition pdu_meth (k : kind) : option dmeth :=
  match k with
  | KGet | KGetNext | KResponse | KSet | KInform | KTrapV2 | KReport => Some DPDU
  | KGetBulk => Some DBulkPDU
  | KTrapV1 => Some DTrapPDU
  | _ => None
  end.
Lemma pdu_decodable cfg k : available cfg k = true -> exists d m,
  reg_get (reg_of cfg) (kind_octet k) = Some d /\ kind_of d = Some k /\ decode_method d = Some m /\ pdu_meth k = Some m /\
  (k = KTrapV1 -> d = CTrapPDU).
Proof.
  destruct cfg, k; cbn [available]; intros H; try discriminate;
    (eexists; eexists; split; [vm_compute; reflexivity|split; [reflexivity|split; [vm_compute; reflexivity|
      split; [reflexivity|intros; reflexivity || discriminate]]]]).
Qed.
Lemma seq_kind_cls c k : kind_of c = Some k -> seq_kind k = true -> k <> KSequence -> pdu_meth k <> None.
Proof. destruct c; cbn; intros H S N; inversion H; subst; try discriminate; contradiction. Qed.

(** *** Trees of lists *)
Lemma trees_cons_inv x l ts : trees_of (x :: l) = Some ts -> exists a b, ts = a :: b /\ tree_of x = Some a /\ trees_of l = Some b.
Proof.
  cbn [trees_of]. destruct (tree_of x), (trees_of l); intros H; inversion H; subst; eauto.
Qed.
Lemma trees_of_cons x l a b : tree_of x = Some a -> trees_of l = Some b -> trees_of (x :: l) = Some (a :: b).
Proof. intros H1 H2. cbn [trees_of]. rewrite H1, H2. reflexivity. Qed.
Lemma trees_inv_cons l a b : trees_of l = Some (a :: b) -> exists x r, l = x :: r /\ tree_of x = Some a /\ trees_of r = Some b.
Proof.
  destruct l as [|x r]; [discriminate|]. intros H. apply trees_cons_inv in H as (a' & b' & E & H1 & H2).
  inversion E; subst. eauto.
Qed.
Lemma trees_inv_nil l : trees_of l = Some [] -> l = [].
Proof. destruct l as [|x r]; [reflexivity|]. intros H. apply trees_cons_inv in H as (? & ? & E & _). discriminate. Qed.
Lemma trees_length l ts : trees_of l = Some ts -> length ts = length l.
Proof.
  revert ts. induction l as [|x l IH]; intros ts H; [inversion H; reflexivity|].
  apply trees_cons_inv in H as (a & b & -> & _ & H). cbn [length]. f_equal. apply IH. exact H.
Qed.

(** Inversion of tree_of by the shape of the tree. *)
Lemma tree_int_inv w k z : tree_of w = Some (TInt k z) -> exists c, w = VInt c z /\ kind_of c = Some k.
Proof.
  destruct w as [| | | |c x|c v|l|c|c l]; cbn [tree_of]; try discriminate.
  - destruct (kind_of c) as [k'|] eqn:E; [|discriminate]. destruct (int_kind k'); [|discriminate].
    intros H; inversion H; subst. eauto.
  - destruct v; try discriminate. destruct (kind_of c); [|discriminate]. destruct (oct_kind _); discriminate.
  - destruct l; discriminate.
  - destruct (kind_of c); [|discriminate]. destruct (null_kind _); discriminate.
  - destruct (kind_of c); [|discriminate]. destruct (seq_kind _); [|discriminate]. fold trees_of.
    match goal with |- match ?x with _ => _ end = _ -> _ => destruct x end; discriminate.
Qed.
Lemma tree_oid_inv w l : tree_of w = Some (TOid l) -> w = VOid (Some l).
Proof.
  destruct w as [| | | |c x|c v|o|c|c m]; cbn [tree_of]; try discriminate.
  - destruct (kind_of c) as [k'|] eqn:E; [|discriminate]. destruct (int_kind k'); discriminate.
  - destruct v; try discriminate. destruct (kind_of c); [|discriminate]. destruct (oct_kind _); discriminate.
  - destruct o; [|discriminate]. intros H; inversion H; subst. reflexivity.
  - destruct (kind_of c); [|discriminate]. destruct (null_kind _); discriminate.
  - destruct (kind_of c); [|discriminate]. destruct (seq_kind _); [|discriminate].
    match goal with |- match ?x with _ => _ end = _ -> _ => destruct x end; discriminate.
Qed.
Lemma tree_seq_inv w k ts : tree_of w = Some (TSeq k ts) -> exists c l, w = VSeq c l /\ kind_of c = Some k /\
  seq_kind k = true /\ trees_of l = Some ts.
Proof.
  destruct w as [| | | |c x|c v|o|c|c m].
  5:{ cbn [tree_of]. destruct (kind_of c) as [k'|] eqn:E; [|discriminate]. destruct (int_kind k'); discriminate. }
  5:{ cbn [tree_of]. destruct v; try discriminate. destruct (kind_of c); [|discriminate]. destruct (oct_kind _); discriminate. }
  6:{ cbn [tree_of]. destruct (kind_of c); [|discriminate]. destruct (null_kind _); discriminate. }
  6:{ rewrite tree_of_seq. destruct (kind_of c) as [k'|] eqn:E; [|discriminate]. destruct (seq_kind k') eqn:S; [|discriminate].
      destruct (trees_of m) eqn:T; [|discriminate]. intros H; inversion H; subst. exists c, m. auto. }
  all: cbn [tree_of]; try discriminate. destruct o; discriminate.
Qed.
Lemma tree_class w t : tree_of w = Some t -> is_asn1 w = true.
Proof.
  assert (A : forall c, issubclass c CAsn1Object = true) by (intros c; destruct c; reflexivity).
  unfold is_asn1, isinstance. destruct w; cbn [tree_of class_of]; try discriminate; intros _; apply A.
Qed.

(** *** Rebuilding PDUs *)
Definition is_vb (c : cls) (v : val) : Prop := exists n w, v = VSeq c [n; w].
Lemma build_varbind_ok vb item a : vb = CVarBind \/ vb = CVarBind_v2 -> tree_of item = Some a -> binding a ->
  exists o, build_varbind vb item = Ok o /\ tree_of o = Some a /\ is_vb vb o.
Proof.
  intros Hvb Ht (l & tv & ->). apply tree_seq_inv in Ht as (c & items & -> & _ & _ & T).
  apply trees_inv_cons in T as (n & r & -> & Tn & T). apply trees_inv_cons in T as (v & r' & -> & Tv & T).
  apply trees_inv_nil in T as ->. apply tree_oid_inv in Tn as ->.
  unfold build_varbind. cbn [py_getitem]. change (py_index [VOid (Some l); v] 0) with (Ok (VOid (Some l))).
  change (py_index [VOid (Some l); v] 1) with (Ok v). cbn [bind]. unfold varbind_init.
  replace (isinstance (VOid (Some l)) CObjectID) with true by reflexivity. cbn [negb]. rewrite andb_false_r.
  rewrite (tree_class v tv Tv). cbn [negb]. rewrite andb_false_r. eexists. split; [reflexivity|].
  split; [|eexists; eexists; reflexivity]. rewrite tree_of_seq.
  replace (kind_of vb) with (Some KSequence) by (destruct Hvb as [->| ->]; reflexivity). change (seq_kind KSequence) with true. cbv iota.
  rewrite (trees_of_cons _ _ (TOid l) [tv]); [reflexivity|reflexivity|]. apply trees_of_cons; [exact Tv|reflexivity].
Qed.
Lemma build_varbinds vb items bs : vb = CVarBind \/ vb = CVarBind_v2 -> trees_of items = Some bs -> Forall binding bs ->
  exists os, mapM (build_varbind vb) items = Ok os /\ trees_of os = Some bs /\ Forall (is_vb vb) os.
Proof.
  intros Hvb. revert bs. induction items as [|x items IH]; intros bs T F.
  - inversion T; subst. exists []. repeat split; constructor.
  - apply trees_cons_inv in T as (a & b & -> & Tx & T). inversion F as [|? ? Fa Fb]; subst.
    destruct (build_varbind_ok vb x a Hvb Tx Fa) as (o & E & To & Io).
    destruct (IH b T Fb) as (os & E' & Tos & Ios). exists (o :: os). cbn [mapM]. rewrite E, E'. cbn [bind].
    split; [reflexivity|]. split; [apply trees_of_cons; assumption|constructor; assumption].
Qed.
Lemma appends_vb vb os : vb = CVarBind \/ vb = CVarBind_v2 -> Forall (is_vb vb) os ->
  forall acc, sequenceof_appends CVarBind acc os = Ok (acc ++ os).
Proof.
  intros Hvb. induction 1 as [|x os (n & w & ->) F IH]; intros acc; cbn [sequenceof_appends].
  - rewrite app_nil_r. reflexivity.
  - unfold sequenceof_append. replace (isinstance (VSeq vb [n; w]) CVarBind) with true by (destruct Hvb as [->| ->]; reflexivity).
    cbn [negb bind]. rewrite IH, <- app_assoc. reflexivity.
Qed.
Lemma sequenceof_init_vb vb cl os value : vb = CVarBind \/ vb = CVarBind_v2 -> Forall (is_vb vb) os ->
  value = VPyList os \/ (exists c, value = VSeq c os) -> sequenceof_init cl CVarBind value = Ok (VSeq cl os).
Proof.
  intros Hvb F Hv. unfold sequenceof_init.
  assert (T : truthy value = match os with [] => false | _ => true end) by (destruct Hv as [->|(c & ->)]; reflexivity).
  assert (I : py_iter value = Ok os) by (destruct Hv as [->|(c & ->)]; reflexivity).
  rewrite T, I. destruct os as [|x os]; [reflexivity|]. cbn [bind]. rewrite (appends_vb vb) by assumption. reflexivity.
Qed.
Lemma in32_ok c z : in32 z -> c = CInteger \/ c = CErrorStatus \/ c = CErrorStatus_v2 \/ c = CInteger32 \/ c = CGenericTrap ->
  integer_init c (VPyInt z) = Ok (VInt c z).
Proof.
  unfold in32. intros H [->|[->|[->|[->| ->]]]];
    match goal with |- integer_init ?c _ = _ => unfold integer_init; change (MINVAL c) with (-2147483648) end;
    match goal with |- context [MAXVAL ?c] => let m := eval vm_compute in (MAXVAL c) in change (MAXVAL c) with m end.
  all: match goal with |- (if ?b then _ else _) = _ => replace b with true by lia end; reflexivity.
Qed.
Lemma gt_max_ok z : in32 z -> gt_max_bindings (VPyInt z) = Ok false.
Proof. unfold in32, gt_max_bindings, max_bindings. intros H. destruct (Z.ltb_spec 2147483647 z); [lia|reflexivity]. Qed.

Lemma trees_request k d r e i vl bs : kind_of d = Some k -> seq_kind k = true ->
  forall c0 c1 c2, kind_of c0 = Some KInteger -> kind_of c1 = Some KInteger -> kind_of c2 = Some KInteger ->
  tree_of vl = Some (TSeq KSequence bs) ->
  tree_of (VSeq d [VInt c0 r; VInt c1 e; VInt c2 i; vl]) =
    Some (TSeq k [TInt KInteger r; TInt KInteger e; TInt KInteger i; TSeq KSequence bs]).
Proof.
  intros Hk Hs c0 c1 c2 H0 H1 H2 Hv. rewrite tree_of_seq, Hk, Hs. cbn [trees_of].
  rewrite Hv. cbn [tree_of]. rewrite H0, H1, H2. reflexivity.
Qed.
Lemma vbl_tree c os bs : kind_of c = Some KSequence -> trees_of os = Some bs -> tree_of (VSeq c os) = Some (TSeq KSequence bs).
Proof. intros H T. rewrite tree_of_seq, H. change (seq_kind KSequence) with true. cbv iota. rewrite T. reflexivity. Qed.

Lemma request_inv ws ts : trees_of ws = Some ts -> request_shape ts ->
  exists c0 r c1 e c2 i c3 items bs,
    ws = [VInt c0 r; VInt c1 e; VInt c2 i; VSeq c3 items] /\
    ts = [TInt KInteger r; TInt KInteger e; TInt KInteger i; TSeq KSequence bs] /\
    trees_of items = Some bs /\ in32 r /\ in32 e /\ in32 i /\ Forall binding bs /\ zlen items <= 2 ^ 31 - 1.
Proof.
  intros T (r & e & i & bs & -> & Hr & He & Hi & F & L).
  apply trees_inv_cons in T as (x0 & l0 & -> & T0 & T). apply tree_int_inv in T0 as (c0 & -> & _).
  apply trees_inv_cons in T as (x1 & l1 & -> & T1 & T). apply tree_int_inv in T1 as (c1 & -> & _).
  apply trees_inv_cons in T as (x2 & l2 & -> & T2 & T). apply tree_int_inv in T2 as (c2 & -> & _).
  apply trees_inv_cons in T as (x3 & l3 & -> & T3 & T). apply tree_seq_inv in T3 as (c3 & items & -> & _ & _ & T3).
  apply trees_inv_nil in T as ->. exists c0, r, c1, e, c2, i, c3, items, bs. repeat split; auto.
  all: try (unfold in32 in *; lia). rewrite (trees_length _ _ T3) in L. exact L.
Qed.

Lemma pdu_rebuild d k ws ts : kind_of d = Some k -> seq_kind k = true -> decode_method d = Some DPDU ->
  trees_of ws = Some ts -> request_shape ts ->
  exists w, pdu_of_objects d ws = Ok w /\ tree_of w = Some (TSeq k ts).
Proof.
  intros Hk Hs Hm T R. destruct (request_inv _ _ T R) as (c0 & r & c1 & e & c2 & i & c3 & items & bs & -> & -> & Ti & Hr & He & Hi & F & L).
  cbn [pdu_of_objects py_iter bind py_int].
  destruct (build_varbinds CVarBind items bs (or_introl eq_refl) Ti F) as (os & E & To & Io).
  rewrite E. cbn [bind]. unfold pdu_init. destruct (issubclass d CPDU_v2).
  - unfold pdu_v2_init. rewrite gt_max_ok by exact Hi. cbn [bind].
    rewrite (in32_ok CInteger32 r), (in32_ok CErrorStatus_v2 e), (in32_ok CInteger i) by tauto. cbn [bind].
    unfold varbindlist_v2_init. cbn [py_len bind].
    assert (Lo : zlen os <= 2147483647).
    { unfold zlen in *. rewrite <- (trees_length _ _ To), (trees_length _ _ Ti). lia. }
    unfold max_bindings. destruct (Z.ltb_spec 2147483647 (zlen os)); [lia|].
    rewrite (sequenceof_init_vb CVarBind CVarBindList_v2 os) by eauto. cbn [bind]. eexists; split; [reflexivity|].
    apply (trees_request k d) with (c0 := CInteger32) (c1 := CErrorStatus_v2) (c2 := CInteger); auto.
    apply vbl_tree; auto.
  - unfold pdu_v1_init. rewrite (in32_ok CInteger r), (in32_ok CErrorStatus e), (in32_ok CInteger i) by tauto. cbn [bind].
    unfold varbindlist_init. rewrite (sequenceof_init_vb CVarBind CVarBindList os) by eauto. cbn [bind]. eexists; split; [reflexivity|].
    apply (trees_request k d) with (c0 := CInteger) (c1 := CErrorStatus) (c2 := CInteger); auto.
    apply vbl_tree; auto.
Qed.
Lemma bulk_rebuild d k ws ts : kind_of d = Some k -> seq_kind k = true ->
  trees_of ws = Some ts -> request_shape ts ->
  exists w, bulkpdu_of_objects d ws = Ok w /\ tree_of w = Some (TSeq k ts).
Proof.
  intros Hk Hs T R. destruct (request_inv _ _ T R) as (c0 & r & c1 & e & c2 & i & c3 & items & bs & -> & -> & Ti & Hr & He & Hi & F & L).
  cbn [bulkpdu_of_objects py_iter bind py_int].
  destruct (build_varbinds CVarBind_v2 items bs (or_intror eq_refl) Ti F) as (os & E & To & Io).
  rewrite E. cbn [bind]. unfold bulkpdu_init. rewrite !gt_max_ok by assumption. cbn [bind].
  rewrite (in32_ok CInteger32 r), (in32_ok CInteger e), (in32_ok CInteger i) by tauto. cbn [bind].
  unfold varbindlist_v2_init. cbn [py_len bind].
  assert (Lo : zlen os <= 2147483647).
  { unfold zlen in *. rewrite <- (trees_length _ _ To), (trees_length _ _ Ti). lia. }
  unfold max_bindings. destruct (Z.ltb_spec 2147483647 (zlen os)); [lia|].
  rewrite (sequenceof_init_vb CVarBind_v2 CVarBindList_v2 os) by eauto. cbn [bind]. eexists; split; [reflexivity|].
  apply (trees_request k d) with (c0 := CInteger32) (c1 := CInteger) (c2 := CInteger); auto.
  apply vbl_tree; auto.
Qed.
Lemma trap_rebuild ws ts : trees_of ws = Some ts -> trap_shape ts ->
  exists w, trappdu_of_objects ws = Ok w /\ tree_of w = Some (TSeq KTrapV1 ts).
Proof.
  intros T (ent & ag & g & sp & tk & bs & -> & Hg & F).
  apply trees_inv_cons in T as (x0 & l0 & -> & T0 & T).
  apply trees_inv_cons in T as (x1 & l1 & -> & T1 & T).
  apply trees_inv_cons in T as (x2 & l2 & -> & T2 & T). apply tree_int_inv in T2 as (c2 & -> & _).
  apply trees_inv_cons in T as (x3 & l3 & -> & T3 & T).
  apply trees_inv_cons in T as (x4 & l4 & -> & T4 & T).
  apply trees_inv_cons in T as (x5 & l5 & -> & T5 & T). apply tree_seq_inv in T5 as (c5 & items & -> & _ & _ & T5).
  apply trees_inv_nil in T as ->. cbn [trappdu_of_objects py_iter bind].
  destruct (build_varbinds CVarBind items bs (or_introl eq_refl) T5 F) as (os & E & To & Io).
  rewrite E. cbn [bind py_int]. rewrite (in32_ok CGenericTrap g) by tauto. cbn [bind]. eexists; split; [reflexivity|].
  unfold trappdu_init. rewrite tree_of_seq. change (kind_of CTrapPDU) with (Some KTrapV1). change (seq_kind KTrapV1) with true. cbv iota.
  rewrite (trees_of_cons x0 _ ent [ag; TInt KInteger g; sp; tk; TSeq KSequence bs]); [reflexivity|exact T0|].
  apply trees_of_cons; [exact T1|]. apply trees_of_cons; [reflexivity|]. apply trees_of_cons; [exact T3|].
  apply trees_of_cons; [exact T4|]. apply trees_of_cons; [|reflexivity]. apply vbl_tree; [reflexivity|exact To].
Qed.

(** *** The main induction *)
Definition rt (cfg : config) (v : val) : Prop := forall t os,
  tree_of v = Some t -> wf cfg t -> classes_ok v = true -> encode v = Ok os -> zlen os < 256 ^ 126 ->
  exists w, tree_of w = Some t /\ forall d, (height t <= S d)%nat -> forall rest,
    decode_one (reg_of cfg) (decode (reg_of cfg) d) (os ++ rest) = Ok (w, rest).

Lemma encode_list_cons_inv x l os : encode_list (x :: l) = Ok os -> exists a b, os = a ++ b /\ encode x = Ok a /\ encode_list l = Ok b.
Proof.
  cbn [encode_list]. destruct (encode x) as [a|]; cbn [bind]; [|discriminate]. destruct (encode_list l) as [b|]; cbn [bind]; [|discriminate].
  intros H; inversion H; subst; eauto.
Qed.

Definition max_height (ts : list tree) : nat := fold_right (fun x n => Nat.max (height x) n) 1%nat ts.

Lemma rt_list cfg l : Forall (rt cfg) l -> forall ts os, trees_of l = Some ts -> Forall (wf cfg) ts ->
  forallb classes_ok l = true -> encode_list l = Ok os -> zlen os < 256 ^ 126 ->
  exists ws, trees_of ws = Some ts /\ forall d, (max_height ts <= S d)%nat -> forall rest,
    decode (reg_of cfg) (S d) (os ++ rest) = (rs <- decode (reg_of cfg) (S d) rest ;; Ok (ws ++ rs)).
Proof.
  induction 1 as [|x l Hx Hl IH]; intros ts os T W C E L.
  - inversion T; subst. inversion E; subst. exists []. split; [reflexivity|]. intros d Hd rest. cbn [app].
    destruct (decode (reg_of cfg) (S d) rest); reflexivity.
  - apply trees_cons_inv in T as (a & b & -> & Ta & Tb). inversion W as [|? ? Wa Wb]; subst.
    cbn [forallb] in C. apply andb_prop in C as [Ca Cb].
    apply encode_list_cons_inv in E as (oa & ob & -> & Ea & Eb).
    rewrite zlen_app in L. pose proof (zlen_nonneg oa). pose proof (zlen_nonneg ob).
    destruct (Hx a oa Ta Wa Ca Ea ltac:(lia)) as (w & Tw & Dw).
    destruct (IH b ob Tb Wb Cb Eb ltac:(lia)) as (ws & Tws & Dws).
    exists (w :: ws). split; [apply trees_of_cons; assumption|]. intros d Hd rest.
    cbn [max_height fold_right] in Hd. rewrite <- app_assoc.
    rewrite (decode_cons _ _ _ w (ob ++ rest)) by (apply Dw; lia).
    rewrite Dws by (unfold max_height; lia). destruct (decode (reg_of cfg) (S d) rest); reflexivity.
Qed.

Lemma counter_decode_nonneg os v : octet_string os -> os <> [] -> twos_value os = v -> 0 <= v -> counter_decodeContents os = Ok v.
Proof. intros Ho N T V. rewrite counter_decode_spec by assumption. rewrite T. destruct (Z.ltb_spec v 0); [lia|reflexivity]. Qed.

Lemma written_identifier c k : kind_of c = Some k -> written_right c = true -> class_identifier c = Ok [kind_octet k].
Proof. intros K W. apply identifier_right; [exact K|]. rewrite written_right_iff in W. destruct (miswritten c); [discriminate|reflexivity]. Qed.

Lemma rt_int cfg c z : rt cfg (VInt c z).
Proof.
  intros t os T W C E L. cbn [tree_of] in T. destruct (kind_of c) as [k|] eqn:K; [|discriminate].
  destruct (int_kind k) eqn:I; [|discriminate]. inversion T; subst. cbn [classes_ok] in C.
  cbn [encode] in E. destruct (integer_encodeContents z) as [contents|] eqn:EC; cbn [bind] in E; [|discriminate].
  pose proof (tlv_length _ _ _ E) as TL. pose proof pow_126_127.
  pose proof (decode_one_tlv c contents os _ E (written_identifier c k K C) ltac:(lia)) as D.
  assert (S : int_survives z).
  { cbn [wf] in W. destruct k; try contradiction; try exact W. left. lia. }
  destruct (int_encode_shortest z contents S EC) as (Ho & Hs & Ht & _).
  assert (N : contents <> []) by (intros ->; exact Hs).
  assert (Hb : exists m, basic_meth k = Some m /\ (m = DInteger \/ (m = DCounter /\ 0 <= z))).
  { cbn [wf] in W. destruct k; try contradiction; cbn [basic_meth]; eauto. }
  destruct Hb as (m & Hm & Hc). destruct (basic_decodable cfg k m Hm) as (d & R & Kd & Md & _).
  exists (VInt d z). split; [cbn [tree_of]; rewrite Kd, I; reflexivity|]. intros dd _ rest. rewrite D, R.
  unfold decodeContents. rewrite Md. destruct Hc as [->|[-> Hz]].
  - rewrite integer_decode_spec by assumption. rewrite Ht. reflexivity.
  - rewrite (counter_decode_nonneg contents z) by assumption. reflexivity.
Qed.
Lemma rt_oct cfg c v : rt cfg (VOct c v).
Proof.
  intros t os T W C E L. destruct v as [| |s| | | | | |]; try discriminate. cbn [tree_of] in T.
  destruct (kind_of c) as [k|] eqn:K; [|discriminate].
  destruct (oct_kind k) eqn:I; [|discriminate]. inversion T; subst. cbn [classes_ok] in C. cbn [encode] in E.
  pose proof (tlv_length _ _ _ E) as TL. pose proof pow_126_127.
  pose proof (decode_one_tlv c s os _ E (written_identifier c k K C) ltac:(lia)) as D.
  cbn [wf] in W.
  assert (Hb : exists m, basic_meth k = Some m /\ (m = DOctetString \/ m = DIPAddress)) by (destruct W as [->| ->]; cbn; eauto).
  destruct Hb as (m & Hm & Hc). destruct (basic_decodable cfg k m Hm) as (d & R & Kd & Md & _).
  exists (VOct d (VPyStr s)). split; [cbn [tree_of]; rewrite Kd, I; reflexivity|]. intros dd _ rest. rewrite D, R.
  unfold decodeContents. rewrite Md. destruct Hc as [->| ->]; reflexivity.
Qed.
Lemma rt_oid cfg o : rt cfg (VOid o).
Proof.
  intros t os T W C E L. destruct o as [l|]; [|discriminate]. cbn [tree_of] in T. inversion T; subst.
  cbn [wf] in W. destruct l as [|a [|b rest0]]; try contradiction. cbn [oid_survives] in W. destruct W as (Ha & Hb & Hab & Hr).
  cbn [encode] in E. destruct (oid_roundtrip_value a b rest0 Ha ltac:(lia) Hr) as (contents & EC & _ & DC).
  rewrite EC in E. cbn [bind] in E.
  pose proof (tlv_length _ _ _ E) as TL. pose proof pow_126_127.
  pose proof (decode_one_tlv CObjectID contents os _ E (written_identifier CObjectID KObjectID eq_refl eq_refl) ltac:(lia)) as D.
  destruct (basic_decodable cfg KObjectID DObjectID eq_refl) as (d & R & Kd & Md & _).
  exists (VOid (Some (a :: b :: rest0))). split; [reflexivity|]. intros dd _ rest. rewrite D, R.
  unfold decodeContents. rewrite Md, DC. destruct (Z.ltb_spec (a * 40 + b) 128); [|lia]. cbn [bind].
  repeat f_equal; lia.
Qed.
Lemma rt_null cfg c : rt cfg (VNull c).
Proof.
  intros t os T W C E L. cbn [tree_of] in T. destruct (kind_of c) as [k|] eqn:K; [|discriminate].
  destruct (null_kind k) eqn:I; [|discriminate]. inversion T; subst. cbn [classes_ok] in C. cbn [wf] in W. subst k. cbn [encode] in E.
  pose proof (decode_one_tlv c [] os _ E (written_identifier c KNull K C) ltac:(cbn; lia)) as D.
  destruct (basic_decodable cfg KNull DNull eq_refl) as (d & R & Kd & Md & _).
  exists (VNull d). split; [cbn [tree_of]; rewrite Kd; reflexivity|]. intros dd _ rest. rewrite D, R.
  unfold decodeContents. rewrite Md. reflexivity.
Qed.
Lemma rt_seq cfg c l : Forall (rt cfg) l -> rt cfg (VSeq c l).
Proof.
  intros F t os T W C E L. rewrite tree_of_seq in T. destruct (kind_of c) as [k|] eqn:K; [|discriminate].
  destruct (seq_kind k) eqn:I; [|discriminate]. destruct (trees_of l) as [ts|] eqn:Ts; [|discriminate]. inversion T; subst.
  cbn [classes_ok] in C. apply andb_prop in C as [C Cl].
  rewrite encode_seq in E. destruct (encode_list l) as [contents|] eqn:EC; cbn [bind] in E; [|discriminate].
  pose proof (tlv_length _ _ _ E) as TL. pose proof pow_126_127.
  pose proof (decode_one_tlv c contents os _ E (written_identifier c k K C) ltac:(lia)) as D.
  apply wf_seq in W as [Wl Ws].
  destruct (rt_list cfg l F ts contents Ts Wl Cl EC ltac:(lia)) as (ws & Tws & Dws).
  assert (DD : forall d, (height (TSeq k ts) <= S d)%nat -> decode (reg_of cfg) d contents = Ok ws).
  { intros d Hd. cbn [height] in Hd. fold (max_height ts) in Hd.
    assert (1 <= max_height ts)%nat by (clear; unfold max_height; induction ts; cbn; lia).
    destruct d as [|d]; [lia|]. specialize (Dws d ltac:(lia) []). rewrite app_nil_r in Dws. rewrite Dws.
    cbn [decode length decode_loop bind]. rewrite app_nil_r. reflexivity. }
  destruct k; try discriminate.
  { (* SEQUENCE *)
    destruct (basic_decodable cfg KSequence DSequence eq_refl) as (d & R & Kd & Md & _).
    exists (VSeq d ws). split; [apply vbl_tree; assumption|]. intros dd Hd rest. rewrite D, R.
    unfold decodeContents. rewrite Md, (DD dd Hd). reflexivity. }
  all: destruct Ws as [Av Sh]; destruct (pdu_decodable cfg _ Av) as (d & m & R & Kd & Md & Pm & Pt);
       cbn [pdu_meth] in Pm; inversion Pm; subst m.
  all: try (destruct (pdu_rebuild d _ ws ts Kd eq_refl Md Tws Sh) as (w & Ew & Tw);
       exists w; split; [exact Tw|]; intros dd Hd rest; rewrite D, R; unfold decodeContents; rewrite Md, (DD dd Hd);
       cbn [bind]; rewrite Ew; reflexivity).
  - destruct (trap_rebuild ws ts Tws Sh) as (w & Ew & Tw).
    exists w. split; [exact Tw|]. intros dd Hd rest. rewrite D, R. unfold decodeContents. rewrite Md, (DD dd Hd).
    cbn [bind]. rewrite Ew. reflexivity.
  - destruct (bulk_rebuild d _ ws ts Kd eq_refl Tws Sh) as (w & Ew & Tw).
    exists w. split; [exact Tw|]. intros dd Hd rest. rewrite D, R. unfold decodeContents. rewrite Md, (DD dd Hd).
    cbn [bind]. rewrite Ew. reflexivity.
Qed.
Lemma rt_all cfg v : rt cfg v.
Proof.
  induction v using val_ind'; try (intros t os T; discriminate).
  - apply rt_int.
  - apply rt_oct.
  - apply rt_oid.
  - apply rt_null.
  - apply rt_seq. assumption.
Qed.
