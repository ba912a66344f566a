(** * Proofs about the sizes of encodings. *)
From Coq Require Import ZArith List Bool Lia.
From Verif Require Import PyBase Classes Values Codec SpecBER SpecSMI SpecTree SpecWire SpecSize.
From Verif Require Import Bits ProofsInt ProofsOid ProofsTree ProofsDecode ProofsWire.
Import ListNotations.
Open Scope Z_scope.

Lemma ber_length_bound n L : ber_length n L -> 0 <= n < 256 ^ 126.
Proof.
  intros [[-> H]|(ds & -> & Hl & O & <-)].
  - split; [lia|]. eapply Z.le_lt_trans; [apply H|]. change 127 with (256 ^ 1 - 129). pose proof (Z.pow_le_mono_r 256 1 126). lia.
  - pose proof (be_value_bound ds O). pose proof (Z.pow_le_mono_r 256 (Z.of_nat (length ds)) 126). lia.
Qed.
Lemma pow126 : 2 * 256 ^ 126 < 256 ^ 127.
Proof. replace (256 ^ 127) with (256 * 256 ^ 126) by (change 127 with (Z.succ 126); rewrite Z.pow_succ_r; lia). pose proof (pow256_pos 126). lia. Qed.
Lemma length_le2 n n' L L' : 0 <= n <= 2 * n' -> encodeLength n = Ok L -> ber_length n' L' -> zlen L <= 2 * zlen L'.
Proof.
  intros Hn E B. pose proof (ber_length_bound _ _ B) as Bd. pose proof pow126.
  destruct (encodeLength_spec n) as (x & Ex & S); [lia|]. rewrite E in Ex. injection Ex as <-.
  destruct S as [[H1 ->]|(H1 & ds & -> & Bo & Hl)].
  - destruct B as [[-> _]|(ds & -> & _)]; rewrite ?zlen_cons; cbn [zlen length Z.of_nat]; pose proof (zlen_nonneg (@nil Z)); try pose proof (zlen_nonneg ds); lia.
  - rewrite zlen_cons. destruct B as [[-> H']|(ds' & -> & Hl' & O' & V')].
    + pose proof (be_of_len n ds 1 Bo ltac:(lia) ltac:(lia)). change (zlen [n']) with 1. lia.
    + rewrite zlen_cons. unfold zlen in *. pose proof (be_value_bound ds' O').
      pose proof (be_of_len n ds (Z.of_nat (length ds') + 1) Bo ltac:(lia)) as K. unfold zlen in K. rewrite pow256_succ in K by lia. pose proof (pow256_pos (Z.of_nat (length ds')) ltac:(lia)). lia.
Qed.
Lemma length_le1 n n' L L' : 0 <= n <= n' -> n <> 127 -> encodeLength n = Ok L -> ber_length n' L' -> zlen L <= zlen L'.
Proof.
  intros Hn N E B. pose proof (ber_length_bound _ _ B) as Bd. pose proof pow126.
  destruct (encodeLength_spec n) as (x & Ex & S); [lia|]. rewrite E in Ex. injection Ex as <-.
  destruct S as [[H1 ->]|(H1 & ds & -> & Bo & Hl)].
  - destruct B as [[-> _]|(ds & -> & _)]; rewrite ?zlen_cons; pose proof (zlen_nonneg (@nil Z)); try pose proof (zlen_nonneg ds); change (zlen (@nil Z)) with 0; lia.
  - rewrite zlen_cons. destruct B as [[-> H']|(ds' & -> & Hl' & O' & V')]; [lia|].
    rewrite zlen_cons. unfold zlen in *. pose proof (be_value_bound ds' O').
    pose proof (be_of_len n ds (Z.of_nat (length ds')) Bo ltac:(lia) ltac:(lia)) as K. unfold zlen in K. lia.
Qed.
Lemma tlv_size c contents os : tlv c contents = Ok os -> exists L, encodeLength (zlen contents) = Ok L /\ zlen os = 1 + zlen L + zlen contents.
Proof. intros E. destruct (tlv_inv _ _ _ E) as (t & L & -> & _ & _ & EL & _). exists L. rewrite zlen_cons, zlen_app. split; [exact EL|lia]. Qed.
Lemma tlv_octets_size t c os : tlv_octets t c os -> exists L, ber_length (zlen c) L /\ zlen os = 1 + zlen L + zlen c.
Proof. intros (L & B & ->). exists L. rewrite zlen_cons, zlen_app. split; [exact B|lia]. Qed.
Lemma tlv_le2 cl c os t c' os' : tlv cl c = Ok os -> tlv_octets t c' os' -> zlen c <= 2 * zlen c' -> zlen os <= 2 * zlen os'.
Proof.
  intros E T H. destruct (tlv_size _ _ _ E) as (L & EL & ->). destruct (tlv_octets_size _ _ _ T) as (L' & B & ->).
  pose proof (length_le2 _ _ _ _ (conj (zlen_nonneg c) H) EL B). lia.
Qed.
Lemma tlv_127 cl c os : tlv cl c = Ok os -> zlen c = 127 -> zlen os = 130.
Proof. intros E H. destruct (tlv_size _ _ _ E) as (L & EL & ->). rewrite H in *. vm_compute in EL. injection EL as <-. reflexivity. Qed.
Lemma tlv_le1 cl c os t c' os' : tlv cl c = Ok os -> tlv_octets t c' os' -> zlen c <= zlen c' -> zlen os <> 130 -> zlen os <= zlen os'.
Proof.
  intros E T H N. destruct (tlv_size _ _ _ E) as (L & EL & Sz). destruct (tlv_octets_size _ _ _ T) as (L' & B & ->).
  assert (zlen c <> 127) by (intros X; apply N, (tlv_127 _ _ _ E X)).
  pose proof (length_le1 _ _ _ _ (conj (zlen_nonneg c) H) ltac:(assumption) EL B). lia.
Qed.

(** Groups of identifiers. *)
Lemma b128_upper g : b128_group g -> b128_value g < 128 ^ Z.of_nat (length g).
Proof.
  induction 1 as [b H|b r H G IH]; cbn [b128_value length].
  - rewrite Z.mod_small by lia. change (Z.of_nat 0) with 0. change (Z.of_nat 1) with 1. lia.
  - rewrite Nat2Z.inj_succ, Z.pow_succ_r by lia. pose proof (Z.mod_pos_bound b 128). nia.
Qed.
Lemma b128_lower g : b128_group g -> b128_minimal g -> (2 <= length g)%nat -> 128 ^ (Z.of_nat (length g) - 1) <= b128_value g.
Proof.
  intros G M L. inversion G as [b H|b r H R]; subst; [cbn in L; lia|]. cbn in M. cbn [b128_value length].
  replace (Z.of_nat (S (length r)) - 1) with (Z.of_nat (length r)) by lia.
  assert (1 <= b mod 128) by (replace b with (b - 128 + 1 * 128) by lia; rewrite Z.mod_add by lia; rewrite Z.mod_small by lia; lia).
  pose proof (b128_value_nonneg r). pose proof (pow128_pos (Z.of_nat (length r)) ltac:(lia)). nia.
Qed.
Lemma group_shortest g h : b128_group g -> b128_minimal g -> b128_group h -> b128_value g = b128_value h -> (length g <= length h)%nat.
Proof.
  intros G M Hh E. destruct (le_lt_dec (length g) (length h)) as [|N]; [assumption|exfalso].
  pose proof (b128_upper h Hh). assert (length h <> 0%nat) by (inversion Hh; discriminate).
  pose proof (b128_lower g G M ltac:(lia)). pose proof (Z.pow_le_mono_r 128 (Z.of_nat (length h)) (Z.of_nat (length g) - 1)). lia.
Qed.
Lemma groups_shortest gs l : Forall2 (fun g x => b128_group g /\ b128_minimal g /\ b128_value g = x) gs l ->
  forall strict hs, Forall2 (fun g x => b128_group g /\ (strict = true -> b128_minimal g) /\ b128_value g = x) hs l ->
  zlen (concat gs) <= zlen (concat hs).
Proof.
  induction 1 as [|g x gs l (G & M & V) F IH]; intros strict hs Hh; inversion Hh as [|h y hs' l' (G' & _ & V') F']; subst; cbn [concat]; [lia|].
  rewrite !zlen_app. specialize (IH _ _ F'). pose proof (group_shortest g h G M G' ltac:(congruence)). unfold zlen in *. lia.
Qed.

(** ** All values *)
Lemma wires_list_inv strict ts os : wires strict ts os -> exists oss, os = concat oss /\ Forall2 (wire strict) ts oss.
Proof. induction 1 as [|t ts a b W _ (oss & -> & F)]; [exists []; split; [reflexivity|constructor]|exists (a :: oss); split; [reflexivity|constructor; assumption]]. Qed.
Definition sized (cfg : config) (v : val) : Prop := forall t os strict os',
  tree_of v = Some t -> wf cfg t -> encode v = Ok os -> wire strict t os' ->
  zlen os <= 2 * zlen os' /\ ((forall w ow, part w v -> encode w = Ok ow -> zlen ow <> 130) -> zlen os <= zlen os').
Lemma list_sized cfg l : Forall (sized cfg) l -> forall ts os strict os', trees_of l = Some ts -> Forall (wf cfg) ts -> encode_list l = Ok os -> wires strict ts os' ->
  zlen os <= 2 * zlen os' /\ ((forall x w ow, In x l -> part w x -> encode w = Ok ow -> zlen ow <> 130) -> zlen os <= zlen os').
Proof.
  induction 1 as [|x l Hx Hl IH]; intros ts os strict os' T W E Wi.
  - injection T as <-. injection E as <-. inversion Wi; subst. split; [|intros _]; reflexivity.
  - apply trees_cons_inv in T as (a & b & -> & Ta & Tb). inversion W as [|? ? Wa Wb]; subst.
    apply encode_list_cons_inv in E as (oa & ob & -> & Ea & Eb). inversion Wi as [|? ? wa wb Wia Wib]; subst.
    destruct (Hx _ _ _ _ Ta Wa Ea Wia) as [A1 A2]. destruct (IH _ _ _ _ Tb Wb Eb Wib) as [B1 B2].
    rewrite !zlen_app. split; [lia|]. intros N. specialize (A2 (fun w ow => N x w ow (or_introl eq_refl))).
    specialize (B2 (fun y w ow I => N y w ow (or_intror I))). lia.
Qed.
Lemma all_sized cfg v : sized cfg v.
Proof.
  induction v using val_ind'; try (intros t os strict os' T; discriminate).
  - intros t os strict os' T W E Wi. cbn [tree_of] in T. destruct (kind_of c) as [k|] eqn:K; [|discriminate].
    destruct (int_kind k) eqn:I; [|discriminate]. injection T as <-.
    cbn [encode] in E. destruct (integer_encodeContents z) as [contents|] eqn:EC; cbn [bind] in E; [|discriminate].
    assert (S : int_survives z). { cbn [wf] in W. destruct k; try contradiction; try exact W. left. lia. }
    destruct (int_encode_shortest z contents S EC) as (_ & _ & _ & Sh).
    assert (X : exists c' t', tlv_octets t' c' os' /\ zlen contents <= zlen c'). { inversion Wi; subst. eauto 6. }
    destruct X as (c' & t' & T' & Le). pose proof (zlen_nonneg c'). split; [apply (tlv_le2 _ _ _ _ _ _ E T'); lia|].
    intros N. apply (tlv_le1 _ _ _ _ _ _ E T' Le). apply (N (VInt c z)); [constructor|]. cbn [encode]. rewrite EC. exact E.
  - intros t os strict os' T W E Wi. destruct v as [| |s| | | | | |]; try discriminate. cbn [tree_of] in T.
    destruct (kind_of c) as [k|] eqn:K; [|discriminate]. destruct (oct_kind k) eqn:I; [|discriminate]. injection T as <-. cbn [encode] in E.
    assert (X : exists t', tlv_octets t' s os') by (inversion Wi; subst; eauto). destruct X as (t' & T'). pose proof (zlen_nonneg s).
    split; [apply (tlv_le2 _ _ _ _ _ _ E T'); lia|]. intros N. apply (tlv_le1 _ _ _ _ _ _ E T'); [lia|]. apply (N (VOct c (VPyStr s))); [constructor|exact E].
  - intros t os strict os' T W E Wi. destruct l as [l|]; [|discriminate]. cbn [tree_of] in T. injection T as <-.
    cbn [wf] in W. destruct l as [|a [|b rest0]]; try contradiction. cbn [oid_survives] in W. destruct W as (Ha & Hb & Hab & Hr).
    pose proof E as E0. cbn [encode] in E. cbn [oid_encodeContents mapM] in E.
    destruct (encode_subid_spec (a * 40 + b) ltac:(lia)) as (g & EG & G & M & V & _).
    destruct (mapM_encode_subid rest0 Hr) as (gs & E' & F). rewrite EG, E' in E. cbn [bind concat] in E.
    assert (X : exists c', tlv_octets 6 c' os' /\ zlen (g ++ concat gs) <= zlen c').
    { inversion Wi as [| |? c' ? OC T'| |]; subst. exists c'. split; [exact T'|]. destruct OC as (g' & gs' & -> & G' & M' & V' & F').
      rewrite !zlen_app. pose proof (group_shortest g g' G M G' ltac:(congruence)). pose proof (groups_shortest _ _ F _ _ F'). unfold zlen in *. lia. }
    destruct X as (c' & T' & Le). pose proof (zlen_nonneg c'). split; [apply (tlv_le2 _ _ _ _ _ _ E T'); lia|].
    intros N. apply (tlv_le1 _ _ _ _ _ _ E T' Le). apply (N (VOid (Some (a :: b :: rest0)))); [constructor|exact E0].
  - intros t os strict os' T W E Wi. cbn [tree_of] in T. destruct (kind_of c) as [k|] eqn:K; [|discriminate].
    destruct (null_kind k) eqn:I; [|discriminate]. injection T as <-. cbn [encode] in E.
    assert (X : exists t', tlv_octets t' [] os') by (inversion Wi; subst; eauto). destruct X as (t' & T').
    split; [apply (tlv_le2 _ _ _ _ _ _ E T'); cbn; lia|]. intros N. apply (tlv_le1 _ _ _ _ _ _ E T'); [lia|]. apply (N (VNull c)); [constructor|exact E].
  - intros t os strict os' T W E Wi. rewrite tree_of_seq in T. destruct (kind_of c) as [k|] eqn:K; [|discriminate].
    destruct (seq_kind k) eqn:I; [|discriminate]. destruct (trees_of l) as [ts|] eqn:Ts; [|discriminate]. injection T as <-.
    pose proof E as E0. rewrite encode_seq in E. destruct (encode_list l) as [contents|] eqn:EC; cbn [bind] in E; [|discriminate].
    apply wf_seq in W as [Wl _].
    assert (X : exists c' t', tlv_octets t' c' os' /\ wires strict ts c') by (inversion Wi; subst; eauto). destruct X as (c' & t' & T' & Wis).
    destruct (list_sized cfg l ltac:(assumption) _ _ _ _ Ts Wl EC Wis) as [A1 A2].
    split; [apply (tlv_le2 _ _ _ _ _ _ E T' A1)|]. intros N. apply (tlv_le1 _ _ _ _ _ _ E T').
    + apply A2. intros x w ow Ix P. apply N. econstructor; eassumption.
    + apply (N (VSeq c l)); [constructor|exact E0].
Qed.
