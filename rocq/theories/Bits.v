(** Bit-level lemmas used by the codec proofs. *)
From Coq Require Import ZArith List Bool Lia.
From Coq Require Import ZifyBool ZifyNat.
From Verif Require Import PyBase SpecBER.
Import ListNotations.
Open Scope Z_scope.
Ltac Zify.zify_post_hook ::= Z.div_mod_to_equations.

Lemma land_255 x : Z.land x 255 = x mod 256.
Proof. exact (Z.land_ones x 8 ltac:(lia)). Qed.
Lemma land_127 x : Z.land x 127 = x mod 128.
Proof. exact (Z.land_ones x 7 ltac:(lia)). Qed.
Lemma land_31 x : Z.land x 31 = x mod 32.
Proof. exact (Z.land_ones x 5 ltac:(lia)). Qed.
Lemma shiftr_8 x : Z.shiftr x 8 = x / 256.
Proof. exact (Z.shiftr_div_pow2 x 8 ltac:(lia)). Qed.
Lemma shiftr_7 x : Z.shiftr x 7 = x / 128.
Proof. exact (Z.shiftr_div_pow2 x 7 ltac:(lia)). Qed.
Lemma shiftl_8 x : Z.shiftl x 8 = x * 256.
Proof. exact (Z.shiftl_mul_pow2 x 8 ltac:(lia)). Qed.
Lemma shiftl_7 x : Z.shiftl x 7 = x * 128.
Proof. exact (Z.shiftl_mul_pow2 x 7 ltac:(lia)). Qed.

Lemma lor_disjoint_add (n a b : Z) : 0 <= n -> 0 <= b < 2 ^ n ->
  Z.lor (Z.shiftl a n) b = a * 2 ^ n + b.
Proof.
  intros Hn Hb.
  rewrite <- Z.shiftl_mul_pow2 by lia.
  assert (H : Z.land (Z.shiftl a n) b = 0).
  { apply Z.bits_inj'. intros i Hi. rewrite Z.land_spec, Z.bits_0.
    destruct (Z.ltb_spec i n).
    - rewrite Z.shiftl_spec_low by lia. reflexivity.
    - assert (Z.testbit b i = false) as ->; [|apply andb_false_r].
      destruct (Z.eq_dec b 0) as [->|Hb0]; [apply Z.bits_0|].
      apply Z.bits_above_log2; [lia|].
      apply Z.log2_lt_pow2; [lia|].
      eapply Z.lt_le_trans; [apply Hb|]. apply Z.pow_le_mono_r; lia. }
  rewrite <- (Z.lxor_lor _ _ H). symmetry. apply Z.add_nocarry_lxor. exact H.
Qed.
Lemma lor_shiftl_8 a b : 0 <= b < 256 -> Z.lor (Z.shiftl a 8) b = a * 256 + b.
Proof. intros H. apply (lor_disjoint_add 8); lia. Qed.
Lemma lor_shiftl_7 a b : 0 <= b < 128 -> Z.lor (Z.shiftl a 7) b = a * 128 + b.
Proof. intros H. apply (lor_disjoint_add 7); lia. Qed.

Lemma lor_128 b : 0 <= b < 128 -> Z.lor 128 b = 128 + b.
Proof. intros H. apply (lor_disjoint_add 7 1 b); lia. Qed.
Lemma lor_128' b : 0 <= b < 128 -> Z.lor b 128 = 128 + b.
Proof. intros H. rewrite Z.lor_comm. apply lor_128; lia. Qed.

(** Finite sweep over octets, lifted. *)
Fixpoint zrange (n : nat) (start : Z) : list Z :=
  match n with O => [] | S k => start :: zrange k (start + 1) end.
Lemma zrange_in n : forall s x, s <= x < s + Z.of_nat n -> In x (zrange n s).
Proof.
  induction n as [|n IH]; intros s x H; [lia|]. cbn [zrange].
  destruct (Z.eq_dec s x) as [->|]; [left; reflexivity|right]. apply IH. lia.
Qed.
Lemma octet_sweep (P : Z -> bool) :
  forallb P (zrange 256 0) = true -> forall b, 0 <= b < 256 -> P b = true.
Proof. intros H b Hb. rewrite forallb_forall in H. apply H. apply zrange_in. lia. Qed.

Lemma land_128_octet b : 0 <= b < 256 -> Z.land b 128 = if b <? 128 then 0 else 128.
Proof.
  intros H. apply Z.eqb_eq.
  apply (octet_sweep (fun b => Z.land b 128 =? (if b <? 128 then 0 else 128))); [vm_compute; reflexivity|lia].
Qed.
(** Bit 7 of any integer (used for non-octet characters too). *)
Lemma land_128 x : Z.land x 128 = if Z.testbit x 7 then 128 else 0.
Proof.
  apply Z.bits_inj'. intros n Hn. rewrite Z.land_spec.
  change 128 with (2 ^ 7).
  rewrite Z.pow2_bits_eqb by lia.
  destruct (Z.eqb_spec 7 n) as [<-|Hne].
  - rewrite andb_true_r. destruct (Z.testbit x 7); [reflexivity|rewrite Z.bits_0; reflexivity].
  - rewrite andb_false_r. destruct (Z.testbit x 7); [|rewrite Z.bits_0; reflexivity].
    symmetry. rewrite Z.pow2_bits_eqb by lia. apply Z.eqb_neq. exact Hne.
Qed.

(** Lists *)
Lemma be_value_app l m : be_value (l ++ m) = be_value l * 256 ^ Z.of_nat (length m) + be_value m.
Proof.
  induction l as [|b r IH]; cbn [be_value app]; [lia|].
  rewrite IH, app_length, Nat2Z.inj_add, Z.pow_add_r by lia. ring.
Qed.
Lemma be_value_bound l : octet_string l -> 0 <= be_value l < 256 ^ Z.of_nat (length l).
Proof.
  induction 1 as [|b r Hb Hr IH]; cbn [be_value length]; [cbn; lia|].
  rewrite Nat2Z.inj_succ, Z.pow_succ_r by lia. nia.
Qed.
Lemma pow256_pos k : 0 <= k -> 0 < 256 ^ k.
Proof. intros. apply Z.pow_pos_nonneg; lia. Qed.
Lemma pow128_pos k : 0 <= k -> 0 < 128 ^ k.
Proof. intros. apply Z.pow_pos_nonneg; lia. Qed.

Lemma ztake_app {A} (l m : list A) : ztake (zlen l) (l ++ m) = l.
Proof.
  unfold zlen. induction l as [|x r IH]; cbn [app length ztake].
  - destruct m; reflexivity.
  - destruct (Z.leb_spec (Z.of_nat (S (length r))) 0); [lia|].
    f_equal. replace (Z.of_nat (S (length r)) - 1) with (Z.of_nat (length r)) by lia. exact IH.
Qed.
Lemma zdrop_app {A} (l m : list A) : zdrop (zlen l) (l ++ m) = m.
Proof.
  unfold zlen. induction l as [|x r IH]; cbn [app length].
  - destruct m; reflexivity.
  - cbn [zdrop]. destruct (Z.leb_spec (Z.of_nat (S (length r))) 0); [lia|].
    replace (Z.of_nat (S (length r)) - 1) with (Z.of_nat (length r)) by lia. exact IH.
Qed.
Lemma ztake_all {A} (l : list A) n : zlen l <= n -> ztake n l = l.
Proof.
  unfold zlen. revert n; induction l as [|x r IH]; intros n H; [reflexivity|].
  cbn [ztake length] in *. destruct (Z.leb_spec n 0); [lia|]. f_equal. apply IH. lia.
Qed.
Lemma zdrop_all {A} (l : list A) n : zlen l <= n -> zdrop n l = [].
Proof.
  unfold zlen. revert n; induction l as [|x r IH]; intros n H; [reflexivity|].
  cbn [zdrop length] in *. destruct (Z.leb_spec n 0); [lia|]. apply IH. lia.
Qed.
Lemma ztake_zdrop {A} n (l : list A) : ztake n l ++ zdrop n l = l.
Proof.
  revert n; induction l as [|x r IH]; intros n; [reflexivity|].
  cbn [ztake zdrop]. destruct (n <=? 0); [reflexivity|]. cbn. f_equal. apply IH.
Qed.
Lemma zdrop_length {A} n (l : list A) : (length (zdrop n l) <= length l)%nat.
Proof.
  revert n; induction l as [|x r IH]; intros n; [reflexivity|].
  cbn [zdrop]. destruct (n <=? 0); [reflexivity|]. cbn [length]. specialize (IH (n-1)). lia.
Qed.
Lemma ztake_length {A} n (l : list A) : (length (ztake n l) <= length l)%nat.
Proof.
  revert n; induction l as [|x r IH]; intros n; [reflexivity|].
  cbn [ztake]. destruct (n <=? 0); cbn [length]; [lia|]. specialize (IH (n-1)). lia.
Qed.
Lemma ztake_length_eq {A} n (l : list A) : 0 <= n <= zlen l -> zlen (ztake n l) = n.
Proof.
  unfold zlen. revert n; induction l as [|x r IH]; intros n H; cbn [ztake length] in *; [lia|].
  destruct (Z.leb_spec n 0); cbn [length]; [lia|]. specialize (IH (n-1)). lia.
Qed.
Lemma zlen_app {A} (l m : list A) : zlen (l ++ m) = zlen l + zlen m.
Proof. unfold zlen. rewrite app_length. lia. Qed.
Lemma zlen_nonneg {A} (l : list A) : 0 <= zlen l.
Proof. unfold zlen. lia. Qed.
Lemma zlen_cons {A} (x : A) l : zlen (x :: l) = 1 + zlen l.
Proof. unfold zlen. cbn [length]. lia. Qed.
