(** * The encoder conforms to [SpecWire], and the decoder reads every conforming encoding. *)
From Coq Require Import ZArith List Bool Lia ZifyBool ZifyNat.
From Verif Require Import PyBase Classes Values Codec SpecBER SpecSMI SpecTree SpecWire Bits ProofsInt ProofsOid ProofsScalar ProofsText ProofsTree ProofsDecode.
Import ListNotations.
Open Scope Z_scope.
Ltac Zify.zify_post_hook ::= Z.div_mod_to_equations.

Lemma readable_seq cfg k l : readable cfg (TSeq k l) <-> Forall (readable cfg) l /\
      match k with
      | KSequence => True
      | KTrapV1 => available cfg k = true /\ trap_shape l
      | _ => available cfg k = true /\ request_shape l
      end.
Proof.
  assert (E : (fix all (l : list tree) : Prop := match l with [] => True | x :: r => readable cfg x /\ all r end) l <-> Forall (readable cfg) l).
  { induction l as [|x r IH]; [split; constructor|]. rewrite Forall_cons_iff, IH. reflexivity. }
  cbn [readable]. rewrite E. reflexivity.
Qed.

(** ** Reading *)
Lemma b128_long b r : b128_group (b :: r) -> r <> [] -> b <> 128 -> 128 <= b128_value (b :: r).
Proof.
  intros H N M. inversion H as [? Hb|? ? Hb Hr]; subst; [contradiction|]. cbn [b128_value].
  pose proof (b128_value_nonneg r). assert (1 <= b mod 128) by lia.
  assert (128 ^ 1 <= 128 ^ Z.of_nat (length r)) by (apply Z.pow_le_mono_r; [lia|]; destruct r; [contradiction|cbn [length]; lia]).
  rewrite Z.pow_1_r in *. nia.
Qed.
Lemma oid_contents_decode strict l c : oid_contents strict l c -> oid_survives l -> oid_decodeContents c = Ok l.
Proof.
  destruct l as [|a [|b rest]]; try contradiction. intros (g & gs & -> & G & M & V & F) (Ha & Hb & Hab & Hr).
  assert (E : g = [a * 40 + b]).
  { destruct g as [|x [|y r]]; [inversion G| |].
    - inversion G as [? Hx|? ? Hx Hy]; subst; [|inversion Hy]. cbn [b128_value length] in V.
      change (Z.of_nat 0) with 0 in V. rewrite Z.pow_0_r, Z.mod_small in V by lia. f_equal. lia.
    - pose proof (b128_long x (y :: r) G ltac:(discriminate) M). lia. }
  subst g. cbn [app]. unfold oid_decodeContents. destruct (Z.ltb_spec (a * 40 + b) 128); [|lia].
  assert (FG : Forall b128_group gs /\ map b128_value gs = rest).
  { clear -F. induction F as [|x y gs l (A & _ & B) F [IH1 IH2]]; [split; constructor|]. split; [constructor; assumption|cbn [map]; congruence]. }
  destruct FG as [FG FV].
  pose proof (oid_loop_spec gs FG (length (concat gs)) []) as O. rewrite app_nil_r in O.
  rewrite O by (auto; constructor). cbn [bind]. rewrite FV. do 2 f_equal; [lia|f_equal; lia].
Qed.
Lemma decode_one_octets tag c os : Z.land tag 31 <> 31 -> tlv_octets tag c os -> forall reg dec rest,
  decode_one reg dec (os ++ rest) = match reg_get reg tag with
    | None => Err ValueError
    | Some d => o <- decodeContents dec d c ;; Ok (o, rest)
    end.
Proof.
  intros Ht (L & HL & ->) reg dec rest. unfold decode_one. cbn [app]. rewrite decodeTag_single by exact Ht. cbn [bind].
  rewrite <- app_assoc, (ber_length_decode _ _ _ HL). cbn [bind]. change (Z.of_nat (length c)) with (zlen c).
  rewrite ztake_app, zdrop_app. reflexivity.
Qed.
Lemma kind_octet_low k : Z.land (kind_octet k) 31 <> 31.
Proof. destruct k; vm_compute; discriminate. Qed.

Definition read_meth (k : kind) : option dmeth :=
  match k with
  | KCounter64 => Some DCounter
  | KOpaque => Some DOctetString
  | KNoSuchObject | KNoSuchInstance | KEndOfMibView => Some DNull
  | _ => basic_meth k
  end.
Definition read_available (cfg : config) (k : kind) : bool :=
  match k with
  | KCounter64 => match cfg with Only1155 | Upto1157 => false | _ => true end
  | KNoSuchObject | KNoSuchInstance | KEndOfMibView => match cfg with Upto1905 => true | _ => false end
  | _ => true
  end.
Lemma read_decodable cfg k m : read_meth k = Some m -> read_available cfg k = true ->
  exists d, reg_get (reg_of cfg) (kind_octet k) = Some d /\ kind_of d = Some k /\ decode_method d = Some m.
Proof.
  destruct cfg, k; cbn [read_meth basic_meth read_available]; intros H A; try discriminate; inversion H; subst;
    (eexists; split; [vm_compute; reflexivity|split; reflexivity]).
Qed.

Definition reads (cfg : config) (t : tree) (os : list Z) : Prop := readable cfg t ->
  exists w, tree_of w = Some t /\ forall d, (height t <= S d)%nat -> forall rest,
    decode_one (reg_of cfg) (decode (reg_of cfg) d) (os ++ rest) = Ok (w, rest).
Definition reads_all (cfg : config) (ts : list tree) (os : list Z) : Prop := Forall (readable cfg) ts ->
  exists ws, trees_of ws = Some ts /\ forall d, (max_height ts <= S d)%nat -> forall rest,
    decode (reg_of cfg) (S d) (os ++ rest) = (rs <- decode (reg_of cfg) (S d) rest ;; Ok (ws ++ rs)).

Lemma wire_reads cfg strict : forall t os, wire strict t os -> reads cfg t os.
Proof.
  apply (wire_mut strict (reads cfg) (reads_all cfg)).
  - (* integers *)
    intros k c os I Ho N _ T R. pose proof (decode_one_octets _ _ _ (kind_octet_low k) T) as D. cbn [readable] in R.
    assert (M : exists m, read_meth k = Some m /\ read_available cfg k = true /\ (m = DInteger \/ (m = DCounter /\ 0 <= twos_value c))).
    { destruct k; try contradiction; cbn [read_meth basic_meth read_available]; eauto 7.
      destruct R as (R & N1 & N2). exists DCounter. split; [reflexivity|]. split; [destruct cfg; try reflexivity; contradiction|auto]. }
    destruct M as (m & M1 & M2 & M3). destruct (read_decodable cfg k m M1 M2) as (d & Rg & Kd & Md).
    exists (VInt d (twos_value c)). split; [cbn [tree_of]; rewrite Kd, I; reflexivity|]. intros dd _ rest. rewrite D, Rg.
    unfold decodeContents. rewrite Md. destruct M3 as [->|[-> Hz]].
    + rewrite integer_decode_spec by assumption. reflexivity.
    + rewrite (counter_decode_nonneg c (twos_value c)) by auto. reflexivity.
  - (* strings *)
    intros k s os I T R. pose proof (decode_one_octets _ _ _ (kind_octet_low k) T) as D.
    assert (M : exists m, read_meth k = Some m /\ read_available cfg k = true /\ (m = DOctetString \/ m = DIPAddress))
      by (destruct k; try discriminate; cbn [read_meth basic_meth read_available]; eauto 7).
    destruct M as (m & M1 & M2 & M3). destruct (read_decodable cfg k m M1 M2) as (d & Rg & Kd & Md).
    exists (VOct d (VPyStr s)). split; [cbn [tree_of]; rewrite Kd, I; reflexivity|]. intros dd _ rest. rewrite D, Rg.
    unfold decodeContents. rewrite Md. destruct M3 as [->| ->]; reflexivity.
  - (* identifiers *)
    intros l c os O T R. change 0x06 with (kind_octet KObjectID) in T.
    pose proof (decode_one_octets _ _ _ (kind_octet_low KObjectID) T) as D. cbn [readable] in R.
    destruct (read_decodable cfg KObjectID DObjectID eq_refl eq_refl) as (d & Rg & Kd & Md).
    exists (VOid (Some l)). split; [reflexivity|]. intros dd _ rest. rewrite D, Rg.
    unfold decodeContents. rewrite Md, (oid_contents_decode strict l c O R). reflexivity.
  - (* nulls *)
    intros k os I T R. pose proof (decode_one_octets _ _ _ (kind_octet_low k) T) as D. cbn [readable] in R.
    assert (M : read_meth k = Some DNull /\ read_available cfg k = true).
    { destruct R as [->|[_ ->]]; [split; reflexivity|]. destruct k; try discriminate; split; reflexivity. }
    destruct M as (M1 & M2). destruct (read_decodable cfg k DNull M1 M2) as (d & Rg & Kd & Md).
    exists (VNull d). split; [cbn [tree_of]; rewrite Kd, I; reflexivity|]. intros dd _ rest. rewrite D, Rg.
    unfold decodeContents. rewrite Md. reflexivity.
  - (* constructed *)
    intros k ts contents os I _ IH T R. pose proof (decode_one_octets _ _ _ (kind_octet_low k) T) as D.
    apply readable_seq in R as [Rl Rs]. destruct (IH Rl) as (ws & Tws & Dws).
    assert (DD : forall d, (height (TSeq k ts) <= S d)%nat -> decode (reg_of cfg) d contents = Ok ws).
    { intros d Hd. cbn [height] in Hd. fold (max_height ts) in Hd.
      assert (1 <= max_height ts)%nat by (clear; unfold max_height; induction ts; cbn; lia).
      destruct d as [|d]; [lia|]. specialize (Dws d ltac:(lia) []). rewrite app_nil_r in Dws. rewrite Dws.
      cbn [decode length decode_loop bind]. rewrite app_nil_r. reflexivity. }
    destruct k; try discriminate.
    { destruct (basic_decodable cfg KSequence DSequence eq_refl) as (d & Rg & Kd & Md & _).
      exists (VSeq d ws). split; [apply vbl_tree; assumption|]. intros dd Hd rest. rewrite D, Rg.
      unfold decodeContents. rewrite Md, (DD dd Hd). reflexivity. }
    all: destruct Rs as [Av Sh]; destruct (pdu_decodable cfg _ Av) as (d & m & Rg & Kd & Md & Pm & Pt);
         cbn [pdu_meth] in Pm; inversion Pm; subst m.
    all: try (destruct (pdu_rebuild d _ ws ts Kd eq_refl Md Tws Sh) as (w & Ew & Tw);
         exists w; split; [exact Tw|]; intros dd Hd rest; rewrite D, Rg; unfold decodeContents; rewrite Md, (DD dd Hd);
         cbn [bind]; rewrite Ew; reflexivity).
    + destruct (trap_rebuild ws ts Tws Sh) as (w & Ew & Tw).
      exists w. split; [exact Tw|]. intros dd Hd rest. rewrite D, Rg. unfold decodeContents. rewrite Md, (DD dd Hd).
      cbn [bind]. rewrite Ew. reflexivity.
    + destruct (bulk_rebuild d _ ws ts Kd eq_refl Tws Sh) as (w & Ew & Tw).
      exists w. split; [exact Tw|]. intros dd Hd rest. rewrite D, Rg. unfold decodeContents. rewrite Md, (DD dd Hd).
      cbn [bind]. rewrite Ew. reflexivity.
  - intros _. exists []. split; [reflexivity|]. intros d _ rest. cbn [app]. destruct (decode (reg_of cfg) (S d) rest); reflexivity.
  - intros t ts a b _ Ha _ Hb R. inversion R as [|? ? Ra Rb]; subst. destruct (Ha Ra) as (w & Tw & Dw). destruct (Hb Rb) as (ws & Tws & Dws).
    exists (w :: ws). split; [apply trees_of_cons; assumption|]. intros d Hd rest.
    cbn [max_height fold_right] in Hd. rewrite <- app_assoc.
    rewrite (decode_cons _ _ _ w (b ++ rest)) by (apply Dw; lia).
    rewrite Dws by (unfold max_height; lia). destruct (decode (reg_of cfg) (S d) rest); reflexivity.
Qed.
Lemma interop cfg strict t os : wire strict t os -> readable cfg t -> exists w, tree_of w = Some t /\
  forall depth, (height t <= depth)%nat -> decode (reg_of cfg) depth os = Ok [w].
Proof.
  intros W R. destruct (wire_reads cfg strict t os W R) as (w & Tw & D). exists w. split; [exact Tw|].
  intros depth Hd. pose proof (height_pos t). destruct depth as [|d]; [lia|].
  specialize (D d Hd []). rewrite app_nil_r in D. rewrite (decode_cons _ _ _ _ _ D). reflexivity.
Qed.
Lemma wire_unambiguous cfg s1 s2 t u os : wire s1 t os -> wire s2 u os -> readable cfg t -> readable cfg u -> t = u.
Proof.
  intros W1 W2 R1 R2. destruct (interop cfg s1 t os W1 R1) as (w & Tw & D1). destruct (interop cfg s2 u os W2 R2) as (w' & Tw' & D2).
  specialize (D1 (Nat.max (height t) (height u)) ltac:(lia)). specialize (D2 (Nat.max (height t) (height u)) ltac:(lia)).
  rewrite D1 in D2. inversion D2; subst. congruence.
Qed.

(** ** Writing *)
(** Values whose written form is standard: as [wf], but identifiers may have any arcs X.690
    allows. *)
Lemma tlv_writes c k contents os : kind_of c = Some k -> written_right c = true -> tlv c contents = Ok os ->
  zlen contents < 256 ^ 126 -> tlv_octets (kind_octet k) contents os.
Proof.
  intros K W E L. destruct (tlv_inv _ _ _ E) as (t & Lo & -> & Hi & _ & EL & _).
  rewrite (written_identifier c k K W) in Hi. inversion Hi; subst t.
  destruct (length_legal (zlen contents)) as (L' & EL' & B & _); [pose proof (zlen_nonneg contents); lia|].
  rewrite EL in EL'. inversion EL'; subst. exists L'. split; [exact B|reflexivity].
Qed.
Definition writes (cfg : config) (v : val) : Prop := forall t os,
  tree_of v = Some t -> wf cfg t -> classes_ok v = true -> encode v = Ok os -> zlen os < 256 ^ 126 -> wire true t os.
Lemma writes_list cfg l : Forall (writes cfg) l -> forall ts os, trees_of l = Some ts -> Forall (wf cfg) ts ->
  forallb classes_ok l = true -> encode_list l = Ok os -> zlen os < 256 ^ 126 -> wires true ts os.
Proof.
  induction 1 as [|x l Hx Hl IH]; intros ts os T W C E L.
  - inversion T; subst. inversion E; subst. constructor.
  - apply trees_cons_inv in T as (a & b & -> & Ta & Tb). inversion W as [|? ? Wa Wb]; subst.
    cbn [forallb] in C. apply andb_prop in C as [Ca Cb].
    apply encode_list_cons_inv in E as (oa & ob & -> & Ea & Eb).
    rewrite zlen_app in L. pose proof (zlen_nonneg oa). pose proof (zlen_nonneg ob). constructor.
    + apply Hx; auto; lia.
    + apply IH; auto; lia.
Qed.
Lemma writes_all cfg v : writes cfg v.
Proof.
  induction v using val_ind'; try (intros t os T; discriminate).
  - intros t os T W C E L. cbn [tree_of] in T. destruct (kind_of c) as [k|] eqn:K; [|discriminate].
    destruct (int_kind k) eqn:I; [|discriminate]. inversion T; subst. cbn [classes_ok] in C.
    cbn [encode] in E. destruct (integer_encodeContents z) as [contents|] eqn:EC; cbn [bind] in E; [|discriminate].
    pose proof (tlv_length _ _ _ E) as TL.
    assert (S : int_survives z).
    { cbn [wf] in W. destruct k; try contradiction; try exact W. left. lia. }
    destruct (int_encode_shortest z contents S EC) as (Ho & Hs & Ht & _). rewrite <- Ht.
    apply wire_int with (c := contents); auto; [intros ->; exact Hs|]. apply (tlv_writes c); auto; lia.
  - intros t os T W C E L. destruct v as [| |s| | | | | |]; try discriminate. cbn [tree_of] in T.
    destruct (kind_of c) as [k|] eqn:K; [|discriminate].
    destruct (oct_kind k) eqn:I; [|discriminate]. inversion T; subst. cbn [classes_ok] in C. cbn [encode] in E.
    pose proof (tlv_length _ _ _ E) as TL. constructor; [exact I|]. apply (tlv_writes c); auto; lia.
  - intros t os T W C E L. destruct l as [l|]; [|discriminate]. cbn [tree_of] in T. inversion T; subst.
    cbn [wf] in W. destruct l as [|a [|b rest0]]; try contradiction. cbn [oid_survives] in W. destruct W as (Ha & Hb & Hab & Hr).
    cbn [encode] in E. cbn [oid_encodeContents mapM] in E.
    destruct (encode_subid_spec (a * 40 + b) ltac:(lia)) as (g & EG & G & M & V & _).
    destruct (mapM_encode_subid rest0 Hr) as (gs & E' & F). rewrite EG, E' in E. cbn [bind concat] in E.
    pose proof (tlv_length _ _ _ E) as TL. apply wire_oid with (c := g ++ concat gs).
    + exists g, gs. repeat split; auto. clear -F. induction F as [|x y gs l (A & B & D) F IH]; constructor; auto.
    + apply (tlv_writes CObjectID KObjectID); auto; lia.
  - intros t os T W C E L. cbn [tree_of] in T. destruct (kind_of c) as [k|] eqn:K; [|discriminate].
    destruct (null_kind k) eqn:I; [|discriminate]. inversion T; subst. cbn [classes_ok] in C. cbn [encode] in E.
    constructor; [exact I|]. apply (tlv_writes c); auto. reflexivity.
  - intros t os T W C E L. rewrite tree_of_seq in T. destruct (kind_of c) as [k|] eqn:K; [|discriminate].
    destruct (seq_kind k) eqn:I; [|discriminate]. destruct (trees_of l) as [ts|] eqn:Ts; [|discriminate]. inversion T; subst.
    cbn [classes_ok] in C. apply andb_prop in C as [C Cl].
    rewrite encode_seq in E. destruct (encode_list l) as [contents|] eqn:EC; cbn [bind] in E; [|discriminate].
    pose proof (tlv_length _ _ _ E) as TL. apply wf_seq in W as [Wl _].
    apply wire_seq with (c := contents); auto; [|apply (tlv_writes c); auto; lia].
    apply (writes_list cfg l); auto; lia.
Qed.
Lemma wf_readable cfg : forall v t, tree_of v = Some t -> wf cfg t -> readable cfg t.
Proof.
  induction v using val_ind'; intros t T W; try discriminate.
  - cbn [tree_of] in T. destruct (kind_of c) as [k|]; [|discriminate]. destruct (int_kind k); [|discriminate]. inversion T; subst.
    cbn [wf readable] in *. destruct k; auto; contradiction.
  - destruct v; try discriminate. cbn [tree_of] in T. destruct (kind_of c) as [k|]; [|discriminate]. destruct (oct_kind k) eqn:I; [|discriminate]. inversion T; subst.
    exact I.
  - destruct l; [|discriminate]. inversion T; subst. exact W.
  - cbn [tree_of] in T. destruct (kind_of c) as [k|]; [|discriminate]. destruct (null_kind k); [|discriminate]. inversion T; subst. left. exact W.
  - rewrite tree_of_seq in T. destruct (kind_of c) as [k|]; [|discriminate]. destruct (seq_kind k); [|discriminate].
    destruct (trees_of l) as [ts|] eqn:Ts; [|discriminate]. inversion T; subst. apply wf_seq in W as [Wl Ws]. apply readable_seq. split; [|exact Ws].
    clear T Ws. revert ts Ts Wl. induction H as [|x l Hx Hl IH]; intros ts Ts Wl; [inversion Ts; constructor|].
    apply trees_cons_inv in Ts as (a & b & -> & Ta & Tb). inversion Wl; subst. constructor; [apply Hx; assumption|apply IH; assumption].
Qed.
