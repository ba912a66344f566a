(** * Encodings cut off at the end are read without complaint. *)
From Coq Require Import ZArith List Bool Lia ZifyBool ZifyNat.
From Verif Require Import PyBase Classes Values Codec SpecBER SpecSMI SpecTree SpecWire SpecMsg SpecCut Bits ProofsInt ProofsOid ProofsScalar ProofsText ProofsTree ProofsDecode ProofsWire ProofsMsg ProofsReceive ProofsBound.
Import ListNotations.
Open Scope Z_scope.

Lemma decode_one_over tag c n L : Z.land tag 31 <> 31 -> zlen c <= n -> ber_length n L -> forall reg dec,
  decode_one reg dec (tag :: L ++ c) = match reg_get reg tag with
    | None => Err ValueError
    | Some d => o <- decodeContents dec d c ;; Ok (o, [])
    end.
Proof.
  intros Ht Hn HL reg dec. unfold decode_one. rewrite decodeTag_single by exact Ht. cbn [bind]. rewrite (ber_length_decode _ _ _ HL). cbn [bind]. rewrite ztake_all, zdrop_all by exact Hn. reflexivity.
Qed.
Lemma zlen_prefix {A} (a b : list A) : zlen a <= Z.of_nat (length (a ++ b)).
Proof. rewrite app_length. unfold zlen. lia. Qed.
(** ** A cut encoding is a beginning of an encoding *)
Lemma wires_app strict ts a us b : wires strict ts a -> wires strict us b -> wires strict (ts ++ us) (a ++ b).
Proof. induction 1 as [|t ts x y W _ IH]; intros H; [exact H|]. rewrite <- app_assoc. cbn [app]. constructor; auto. Qed.
Lemma cut_prefix strict t os t' os' : cut strict t os t' os' -> wire strict t os /\ exists rest, os = os' ++ rest.
Proof.
  induction 1 as [k c1 c2 L I O N S B|k s1 s2 L I B|l l' c1 c2 L O O' B|k ts us a b L I Wa Wb B|k ts t t' us a b b' c L I Wa C (IHw & rest & ->) Wc B].
  - split; [econstructor; eauto|exists c2; rewrite <- !app_comm_cons, <- app_assoc; reflexivity]; [intros E; apply app_eq_nil in E; tauto|exists L; split; [exact B|reflexivity]].
  - split; [econstructor; eauto; exists L; split; [exact B|reflexivity]|exists s2; rewrite <- !app_comm_cons, <- app_assoc; reflexivity].
  - split; [econstructor; eauto; exists L; split; [exact B|reflexivity]|exists c2; rewrite <- !app_comm_cons, <- app_assoc; reflexivity].
  - split; [|exists b; rewrite <- !app_comm_cons, <- app_assoc; reflexivity]. econstructor; [exact I|apply wires_app; eassumption|exists L; split; [exact B|reflexivity]].
  - split.
    + econstructor; [exact I| |exists L; split; [exact B|reflexivity]]. apply wires_app; [exact Wa|constructor; assumption].
    + exists (rest ++ c). rewrite <- !app_comm_cons, <- !app_assoc. reflexivity.
Qed.
(** ** Reading one *)
Lemma seq_contents cfg k ts ws : seq_kind k = true -> readable cfg (TSeq k ts) -> trees_of ws = Some ts ->
  exists d w, reg_get (reg_of cfg) (kind_octet k) = Some d /\ tree_of w = Some (TSeq k ts) /\ forall dec c, dec c = Ok ws -> decodeContents dec d c = Ok w.
Proof.
  intros I R Tws. apply readable_seq in R as [_ Rs]. destruct k; try discriminate.
  { destruct (basic_decodable cfg KSequence DSequence eq_refl) as (d & Rg & Kd & Md & _). exists d, (VSeq d ws). split; [exact Rg|]. split; [apply vbl_tree; assumption|]. intros dec c E. unfold decodeContents. rewrite Md, E. reflexivity. }
  all: destruct Rs as [Av Sh]; destruct (pdu_decodable cfg _ Av) as (d & m & Rg & Kd & Md & Pm & Pt); cbn [pdu_meth] in Pm; inversion Pm; subst m; exists d.
  all: try (destruct (pdu_rebuild d _ ws ts Kd eq_refl Md Tws Sh) as (w & Ew & Tw); exists w; split; [exact Rg|]; split; [exact Tw|]; intros dec c E; unfold decodeContents; rewrite Md, E; cbn [bind]; rewrite Ew; reflexivity).
  + destruct (trap_rebuild ws ts Tws Sh) as (w & Ew & Tw). exists w. split; [exact Rg|]. split; [exact Tw|]. intros dec c E. unfold decodeContents. rewrite Md, E. cbn [bind]. rewrite Ew. reflexivity.
  + destruct (bulk_rebuild d _ ws ts Kd eq_refl Tws Sh) as (w & Ew & Tw). exists w. split; [exact Rg|]. split; [exact Tw|]. intros dec c E. unfold decodeContents. rewrite Md, E. cbn [bind]. rewrite Ew. reflexivity.
Qed.
Lemma wires_reads cfg strict ts a : wires strict ts a -> reads_all cfg ts a.
Proof.
  induction 1 as [|t ts x y W _ Hb].
  - intros _. exists []. split; [reflexivity|]. intros d _ rest. cbn [app]. destruct (decode (reg_of cfg) (S d) rest); reflexivity.
  - intros R. inversion R as [|? ? Ra Rb]; subst. destruct (wire_reads cfg strict t x W Ra) as (w & Tw & Dw). destruct (Hb Rb) as (ws & Tws & Dws). exists (w :: ws). split; [apply trees_of_cons; assumption|]. intros d Hd rest.
    cbn [max_height fold_right] in Hd. rewrite <- app_assoc. rewrite (decode_cons _ _ _ w (y ++ rest)) by (apply Dw; lia). rewrite Dws by (unfold max_height; lia). destruct (decode (reg_of cfg) (S d) rest); reflexivity.
Qed.
Lemma trees_of_app a b x y : trees_of a = Some x -> trees_of b = Some y -> trees_of (a ++ b) = Some (x ++ y).
Proof.
  revert x. induction a as [|v a IH]; intros x H K; [injection H as <-; exact K|]. cbn [trees_of] in H. destruct (tree_of v) as [t|] eqn:E; [|discriminate]. destruct (trees_of a) as [ts|] eqn:E2; [|discriminate]. injection H as <-.
  cbn [app]. apply trees_of_cons; [exact E|]. apply IH; [reflexivity|exact K].
Qed.
Lemma max_height_app a b : max_height (a ++ b) = Nat.max (max_height a) (max_height b).
Proof.
  assert (P : forall l, (1 <= max_height l)%nat) by (intros l; unfold max_height; induction l; cbn; lia).
  induction a as [|t a IH]; [pose proof (P b); cbn [app]; change (max_height []) with 1%nat; lia|]. cbn [app]. change (max_height (t :: a ++ b)) with (Nat.max (height t) (max_height (a ++ b))). change (max_height (t :: a)) with (Nat.max (height t) (max_height a)). lia.
Qed.
Theorem cut_reads cfg strict t os t' os' : cut strict t os t' os' -> readable cfg t' -> exists w, tree_of w = Some t' /\
  forall d, (height t' <= S d)%nat -> decode_one (reg_of cfg) (decode (reg_of cfg) d) os' = Ok (w, []).
Proof.
  induction 1 as [k c1 c2 L I O N S B|k s1 s2 L I B|l l' c1 c2 L O O' B|k ts us a b L I Wa Wb B|k ts t t' us a b b' c L I Wa C IH Wc B]; intros R.
  - pose proof (fun reg dec => decode_one_over _ c1 _ L (kind_octet_low k) (zlen_prefix c1 c2) B reg dec) as D. cbn [readable] in R. apply Forall_app in O as [O _].
    assert (M : exists m, read_meth k = Some m /\ read_available cfg k = true /\ (m = DInteger \/ (m = DCounter /\ 0 <= twos_value c1))).
    { destruct k; try contradiction; cbn [read_meth basic_meth read_available]; eauto 7. destruct R as (R & N1 & N2). exists DCounter. split; [reflexivity|]. split; [destruct cfg; try reflexivity; contradiction|auto]. }
    destruct M as (m & M1 & M2 & M3). destruct (read_decodable cfg k m M1 M2) as (d & Rg & Kd & Md).
    exists (VInt d (twos_value c1)). split; [cbn [tree_of]; rewrite Kd, I; reflexivity|]. intros dd _. rewrite D, Rg. unfold decodeContents. rewrite Md. destruct M3 as [->|[-> Hz]].
    + rewrite integer_decode_spec by assumption. reflexivity.
    + rewrite (counter_decode_nonneg c1 (twos_value c1)) by auto. reflexivity.
  - pose proof (fun reg dec => decode_one_over _ s1 _ L (kind_octet_low k) (zlen_prefix s1 s2) B reg dec) as D.
    assert (M : exists m, read_meth k = Some m /\ read_available cfg k = true /\ (m = DOctetString \/ m = DIPAddress)) by (destruct k; try discriminate; cbn [read_meth basic_meth read_available]; eauto 7).
    destruct M as (m & M1 & M2 & M3). destruct (read_decodable cfg k m M1 M2) as (d & Rg & Kd & Md).
    exists (VOct d (VPyStr s1)). split; [cbn [tree_of]; rewrite Kd, I; reflexivity|]. intros dd _. rewrite D, Rg. unfold decodeContents. rewrite Md. destruct M3 as [->| ->]; reflexivity.
  - pose proof (fun reg dec => decode_one_over 6 c1 _ L ltac:(vm_compute; discriminate) (zlen_prefix c1 c2) B reg dec) as D. cbn [readable] in R.
    destruct (read_decodable cfg KObjectID DObjectID eq_refl eq_refl) as (d & Rg & Kd & Md). change (kind_octet KObjectID) with 6 in Rg. exists (VOid (Some l')). split; [reflexivity|]. intros dd _. rewrite D, Rg.
    unfold decodeContents. rewrite Md, (oid_contents_decode strict l' c1 O' R). reflexivity.
  - pose proof (fun reg dec => decode_one_over _ a _ L (kind_octet_low k) (zlen_prefix a b) B reg dec) as D. pose proof (proj1 (proj1 (readable_seq _ _ _) R)) as Rl. destruct (wires_reads cfg strict ts a Wa Rl) as (ws & Tws & Dws).
    destruct (seq_contents cfg k ts ws I R Tws) as (d & w & Rg & Tw & E). exists w. split; [exact Tw|]. intros dd Hd. rewrite D, Rg, E; [reflexivity|]. cbn [height] in Hd. fold (max_height ts) in Hd.
    assert (1 <= max_height ts)%nat by (clear; unfold max_height; induction ts; cbn; lia). destruct dd as [|dd]; [lia|]. specialize (Dws dd ltac:(lia) []). rewrite app_nil_r in Dws. rewrite Dws. cbn [decode length decode_loop bind]. rewrite app_nil_r. reflexivity.
  - assert (Hlen : zlen (a ++ b') <= Z.of_nat (length (a ++ b ++ c))). { destruct (cut_prefix _ _ _ _ _ C) as (_ & rest & ->). rewrite !app_length. unfold zlen. rewrite app_length. lia. }
    pose proof (fun reg dec => decode_one_over _ (a ++ b') _ L (kind_octet_low k) Hlen B reg dec) as D. pose proof (proj1 (proj1 (readable_seq _ _ _) R)) as Rl. apply Forall_app in Rl as [Rl Rt]. inversion Rt as [|? ? Rt' _]; subst.
    destruct (wires_reads cfg strict ts a Wa Rl) as (ws & Tws & Dws). destruct (IH Rt') as (x & Tx & Dx).
    assert (T2 : trees_of (ws ++ [x]) = Some (ts ++ [t'])) by (apply trees_of_app; [exact Tws|apply trees_of_cons; [exact Tx|reflexivity]]).
    destruct (seq_contents cfg k (ts ++ [t']) (ws ++ [x]) I R T2) as (d & w & Rg & Tw & E). exists w. split; [exact Tw|]. intros dd Hd. rewrite D, Rg, E; [reflexivity|]. cbn [height] in Hd. fold (max_height (ts ++ [t'])) in Hd.
    rewrite max_height_app in Hd. change (max_height [t']) with (Nat.max (height t') 1) in Hd. destruct dd as [|dd]; [lia|]. rewrite Dws by lia. rewrite (decode_cons _ _ _ _ _ (Dx dd ltac:(lia))). cbn [decode length decode_loop bind]. reflexivity.
Qed.
Theorem cut_decodes cfg strict t os t' os' : cut strict t os t' os' -> readable cfg t' -> exists w, tree_of w = Some t' /\
  forall depth, (height t' <= depth)%nat -> decode (reg_of cfg) depth os' = Ok [w].
Proof.
  intros C R. destruct (cut_reads cfg strict t os t' os' C R) as (w & Tw & D). exists w. split; [exact Tw|]. intros depth Hd. pose proof (height_pos t'). destruct depth as [|d]; [lia|].
  rewrite (decode_cons _ _ _ _ _ (D d Hd)). destruct d; reflexivity.
Qed.
Theorem cut_message cfg strict t os ver com pdu os' : cut strict t os (message_tree ver com pdu) os' -> readable cfg pdu ->
  exists v0 v1 v2, tree_of v0 = Some (TInt KInteger ver) /\ tree_of v1 = Some (TOct KOctetString com) /\ tree_of v2 = Some pdu /\
  forall c depth, (S (height pdu) <= depth)%nat -> message_decode (reg_of cfg) depth c (DStr os') = Ok (mkMsg c v0 v1 v2 []).
Proof.
  intros C R. destruct (cut_decodes cfg strict _ _ _ _ C) as (w & Tw & D).
  { apply readable_seq. split; [|exact Logic.I]. constructor; [exact Logic.I|]. constructor; [reflexivity|]. constructor; [exact R|constructor]. }
  apply tree_seq_inv in Tw as (k & l & -> & _ & _ & T). apply trees_inv_cons in T as (v0 & l0 & -> & T0 & T). apply trees_inv_cons in T as (v1 & l1 & -> & T1 & T). apply trees_inv_cons in T as (v2 & l2 & -> & T2 & T). apply trees_inv_nil in T as ->.
  exists v0, v1, v2. repeat split; auto. intros c depth Hd. unfold message_decode, decode_data. rewrite D; [reflexivity|]. pose proof (height_pos pdu). unfold message_tree. cbn [height fold_right]. lia.
Qed.
(** ** Cutting octets off the end *)
Lemma wires_split strict ts us c : wires strict (ts ++ us) c -> exists a b, c = a ++ b /\ wires strict ts a /\ wires strict us b.
Proof.
  revert c. induction ts as [|t ts IH]; intros c W; [exists [], c; repeat split; [constructor|exact W]|]. cbn [app] in W. inversion W as [|? ? x y Wx Wy]; subst. destruct (IH y Wy) as (a & b & -> & A & B). exists (x ++ a), b.
  split; [apply app_assoc|]. split; [constructor; assumption|exact B].
Qed.
Definition clips (Q : list Z -> Prop) (strict : bool) (t t' : tree) : Prop :=
  forall os, wire strict t os -> exists os' rest, os = os' ++ rest /\ Q rest /\ cut strict t os t' os'.
Lemma firstn_cut {A} (x y : list A) : firstn (length (x ++ y) - length y) (x ++ y) = x.
Proof. rewrite app_length. replace (length x + length y - length y)%nat with (length x) by lia. rewrite firstn_app, Nat.sub_diag, firstn_all. apply app_nil_r. Qed.
Lemma clips_seq Q strict k ts t t' : clips Q strict t t' -> clips Q strict (TSeq k (ts ++ [t])) (TSeq k (ts ++ [t'])).
Proof.
  intros H os W. inversion W as [| | | |? ? c ? I Ws (L & B & Eo)]; subst. destruct (wires_split _ _ _ _ Ws) as (a & b & -> & A & Wb). inversion Wb as [|? ? x y Wx Wy]; subst. inversion Wy; subst. rewrite app_nil_r in *.
  destruct (H x Wx) as (x' & rest & E & Hq & C). exists (kind_octet k :: L ++ a ++ x'), rest. split; [rewrite E, <- !app_comm_cons, <- !app_assoc; reflexivity|]. split; [exact Hq|].
  pose proof (cut_inside strict k ts t t' [] a x x' [] L I A C (wires_nil strict)) as X. rewrite app_nil_r in X. exact (X B).
Qed.
Lemma clips_oct strict k s1 s2 : clips (eq s2) strict (TOct k (s1 ++ s2)) (TOct k s1).
Proof.
  intros os W. inversion W as [|? ? ? I (L & B & ->)| | |]; subst. exists (kind_octet k :: L ++ s1), s2. split; [rewrite <- app_comm_cons, <- app_assoc; reflexivity|]. split; [reflexivity|]. constructor; assumption.
Qed.
Lemma clips_after strict k ts us : clips (wires strict us) strict (TSeq k (ts ++ us)) (TSeq k ts).
Proof.
  intros os W. inversion W as [| | | |? ? c ? I Ws (L & B & Eo)]; subst. destruct (wires_split _ _ _ _ Ws) as (a & b & -> & A & Wb). exists (kind_octet k :: L ++ a), b.
  split; [rewrite <- app_comm_cons, <- app_assoc; reflexivity|]. split; [exact Wb|]. constructor; assumption.
Qed.
Lemma twos_cut c1 c2 : octet_string (c1 ++ c2) -> c1 <> [] -> twos_value (c1 ++ c2) / 256 ^ zlen c2 = twos_value c1.
Proof.
  intros O N. destruct c1 as [|b c1]; [contradiction N; reflexivity|]. apply Forall_app in O as [_ O2]. pose proof (be_value_bound c2 O2) as B. assert (P : 0 < 256 ^ zlen c2) by (apply Z.pow_pos_nonneg; unfold zlen; lia).
  unfold twos_value. cbn [app]. rewrite app_comm_cons, Bits.be_value_app, app_length. change (Z.of_nat (length c2)) with (zlen c2). rewrite Nat2Z.inj_add, Z.pow_add_r by lia. change (Z.of_nat (length c2)) with (zlen c2).
  symmetry. apply (Z.div_unique_pos _ _ _ (be_value c2)); [exact B|]. destruct (b <? 128); ring.
Qed.
Lemma clips_int strict k z j : 256 ^ Z.of_nat j <= z -> clips (fun rest => length rest = j) strict (TInt k z) (TInt k (z / 256 ^ Z.of_nat j)).
Proof.
  intros Hz os W. inversion W as [? c ? I O N S (L & B & Eo)| | | |]; subst. assert (Hj : (j < length c)%nat).
  { destruct (twos_bound c O) as [Hb| ->]; [|contradiction N; reflexivity]. assert (H : 256 ^ Z.of_nat j < 256 ^ zlen c) by lia. apply Z.pow_lt_mono_r_iff in H; unfold zlen in *; lia. }
  pose proof (firstn_skipn (length c - j) c) as Ec. assert (Ln : length (skipn (length c - j) c) = j) by (rewrite skipn_length; lia).
  assert (Nn : firstn (length c - j) c <> []) by (intros E; apply (f_equal (@length Z)) in E; rewrite firstn_length in E; cbn in E; lia).
  set (c1 := firstn (length c - j) c) in *. set (c2 := skipn (length c - j) c) in *. clearbody c1 c2. subst c. assert (Zj : Z.of_nat j = zlen c2) by (unfold zlen; lia). rewrite Zj, twos_cut by assumption.
  exists (kind_octet k :: L ++ c1), c2. split; [rewrite <- app_comm_cons, <- app_assoc; reflexivity|]. split; [exact Ln|]. constructor; assumption.
Qed.
Lemma clips_message Q strict ver com k r e i bs name v v' : clips Q strict v v' ->
  clips Q strict (message_tree ver com (request_tree k r e i (bs ++ [(name, v)]))) (message_tree ver com (request_tree k r e i (bs ++ [(name, v')]))).
Proof.
  intros H. unfold message_tree, request_tree. rewrite !map_app. cbn [map]. unfold binding_tree at 2 4. cbn [fst snd].
  apply (clips_seq Q strict KSequence [_; _]). apply (clips_seq Q strict k [_; _; _]). apply (clips_seq Q strict KSequence (map binding_tree bs)). apply (clips_seq Q strict KSequence [_]). exact H.
Qed.
Lemma clips_bindings strict ver com k r e i bs cs : clips (wires strict (map binding_tree cs)) strict
  (message_tree ver com (request_tree k r e i (bs ++ cs))) (message_tree ver com (request_tree k r e i bs)).
Proof.
  unfold message_tree, request_tree. rewrite !map_app. apply (clips_seq _ strict KSequence [_; _]). apply (clips_seq _ strict k [_; _; _]). apply clips_after.
Qed.
Lemma request_same cfg k r e i bs bs' : readable cfg (request_tree k r e i bs) -> (length bs' <= length bs)%nat -> Forall (readable cfg) (map binding_tree bs') -> 
  seq_kind k = true -> k <> KSequence -> k <> KTrapV1 -> readable cfg (request_tree k r e i bs').
Proof.
  intros R Le F I N1 N2. assert (Fb : Forall binding (map binding_tree bs')) by (apply Forall_forall; intros t H; apply in_map_iff in H as ((n & v) & <- & _); exists n, v; reflexivity). unfold request_tree in *. apply readable_seq in R as [Rl Rs]. apply readable_seq. assert (G : available cfg k = true /\ request_shape [TInt KInteger r; TInt KInteger e; TInt KInteger i; TSeq KSequence (map binding_tree bs)]) by (destruct k; try contradiction; try discriminate; exact Rs).
  destruct G as [Av (r0 & e0 & i0 & bs0 & E & Hr & He & Hi & Hb & Hlen)]. injection E as <- <- <- <-. split.
  - inversion Rl as [|? ? R1 Rl1]; subst. inversion Rl1 as [|? ? R2 Rl2]; subst. inversion Rl2 as [|? ? R3 Rl3]; subst. constructor; [exact R1|]. constructor; [exact R2|]. constructor; [exact R3|]. constructor; [|constructor]. apply readable_seq. split; [exact F|exact Logic.I].
  - assert (Sh : request_shape [TInt KInteger r; TInt KInteger e; TInt KInteger i; TSeq KSequence (map binding_tree bs')]). { exists r, e, i, (map binding_tree bs'). repeat split; try assumption; try apply Hr; try apply He; try apply Hi. rewrite map_length in *. lia. }
    destruct k; try contradiction; try discriminate; split; assumption.
Qed.
(** ** Handed to a manager *)
Lemma cut_reads_as cfg strict t os ver com pdu os' : cut strict t os (message_tree ver com pdu) os' -> readable cfg pdu -> reads_as cfg ver com pdu os'.
Proof.
  intros C R. destruct (cut_decodes cfg strict _ _ _ _ C) as (w & Tw & D).
  { apply readable_seq. split; [|exact Logic.I]. constructor; [exact Logic.I|]. constructor; [reflexivity|]. constructor; [exact R|constructor]. }
  apply tree_seq_inv in Tw as (k & l & -> & K & _ & T). apply trees_inv_cons in T as (v0 & l0 & -> & T0 & T). apply trees_inv_cons in T as (v1 & l1 & -> & T1 & T). apply trees_inv_cons in T as (v2 & l2 & -> & T2 & T). apply trees_inv_nil in T as ->.
  pose proof T0 as T0'. apply tree_of_int in T0' as (cv & -> & _).
  assert (D' : forall depth, (S (height pdu) <= depth)%nat -> decode (reg_of cfg) depth os' = Ok [VSeq k [VInt cv ver; v1; v2]]).
  { intros depth Hd. apply D. pose proof (height_pos pdu). unfold message_tree. cbn [height fold_right]. lia. }
  exists cv, v1, v2. split; [exact T0|]. split; [exact T1|]. split; [exact T2|]. split.
  - specialize (D' _ (le_n _)). apply decode_regd in D'. inversion D' as [|? ? RO _]; subst.
    apply regd_plain in RO; [|assumption]. inversion RO as [|? ? _ F1]; subst. inversion F1 as [|? ? _ F2]; subst. inversion F2; assumption.
  - intros mc depth Hd. unfold message_decode, decode_data. rewrite D' by assumption. reflexivity.
Qed.
Lemma clipped_message Q cfg strict t ver com pdu os : clips Q strict t (message_tree ver com pdu) -> wire strict t os -> readable cfg pdu ->
  exists os' rest, os = os' ++ rest /\ Q rest /\
  (exists v0 v1 v2, tree_of v0 = Some (TInt KInteger ver) /\ tree_of v1 = Some (TOct KOctetString com) /\ tree_of v2 = Some pdu /\
  forall c depth, (S (height pdu) <= depth)%nat -> message_decode (reg_of cfg) depth c (DStr os') = Ok (mkMsg c v0 v1 v2 [])).
Proof. intros C W R. destruct (C os W) as (os' & rest & E & Hq & K). exists os', rest. split; [exact E|]. split; [exact Hq|]. exact (cut_message _ _ _ _ _ _ _ _ K R). Qed.
(** The last value of a request-shaped PDU may change, and its last bindings may go. *)
Lemma request_last cfg k r e i bs name v v' : readable cfg (request_tree k r e i (bs ++ [(name, v)])) -> readable cfg v' ->
  seq_kind k = true -> k <> KSequence -> k <> KTrapV1 -> readable cfg (request_tree k r e i (bs ++ [(name, v')])).
Proof.
  intros R Rv I N1 N2. eapply request_same; try eassumption; [rewrite !app_length; cbn; lia|].
  unfold request_tree in R. apply readable_seq in R as [R _]. inversion R as [|? ? _ R1]; subst. inversion R1 as [|? ? _ R2]; subst. inversion R2 as [|? ? _ R3]; subst. inversion R3 as [|? ? R4 _]; subst.
  apply readable_seq in R4 as [R4 _]. rewrite map_app in *. apply Forall_app in R4 as [A B]. apply Forall_app. split; [exact A|]. cbn [map] in *. inversion B as [|? ? B1 _]; subst. constructor; [|constructor].
  unfold binding_tree in *. cbn [fst snd] in *. apply readable_seq in B1 as [B1 _]. inversion B1 as [|? ? B2 _]; subst. apply readable_seq. split; [|exact Logic.I]. constructor; [exact B2|]. constructor; [exact Rv|constructor].
Qed.
Lemma request_first cfg k r e i bs cs : readable cfg (request_tree k r e i (bs ++ cs)) -> seq_kind k = true -> k <> KSequence -> k <> KTrapV1 -> readable cfg (request_tree k r e i bs).
Proof.
  intros R I N1 N2. eapply request_same; try eassumption; [rewrite !app_length; cbn; lia|].
  unfold request_tree in R. apply readable_seq in R as [R _]. inversion R as [|? ? _ R1]; subst. inversion R1 as [|? ? _ R2]; subst. inversion R2 as [|? ? _ R3]; subst. inversion R3 as [|? ? R4 _]; subst.
  apply readable_seq in R4 as [R4 _]. rewrite map_app in *. apply Forall_app in R4 as [A _]. exact A.
Qed.
