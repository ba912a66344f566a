(** Proofs about length octets and integer contents. *)
From Coq Require Import ZArith List Bool Lia.
From Coq Require Import ZifyBool ZifyNat.
From Verif Require Import PyBase Classes Values Codec SpecBER Bits.
Import ListNotations.
Open Scope Z_scope.
Ltac Zify.zify_post_hook ::= Z.div_mod_to_equations.

(** ** Shift loops *)

(** Octets of a non-negative number. *)
Definition be_of (n : Z) (ds : list Z) : Prop :=
  octet_string ds /\ be_value ds = n /\
  (0 < n -> 256 ^ (zlen ds - 1) <= n) /\ (n = 0 -> ds = []).

Lemma octet_app l m : octet_string l -> octet_string m -> octet_string (l ++ m).
Proof. intros. apply Forall_app; split; assumption. Qed.

Lemma be_value_snoc l b : be_value (l ++ [b]) = be_value l * 256 + b.
Proof. rewrite be_value_app. cbn [be_value length]. change (256 ^ Z.of_nat 1) with 256. cbn. ring. Qed.

Lemma pow256_succ k : 0 <= k -> 256 ^ (k + 1) = 256 * 256 ^ k.
Proof. intros. rewrite Z.pow_add_r by lia. change (256 ^ 1) with 256. ring. Qed.

Lemma be_of_snoc n ds : 0 < n -> be_of (n / 256) ds -> be_of n (ds ++ [n mod 256]).
Proof.
  intros Hn (Ho & Hv & Hm & Hz). repeat split.
  - apply octet_app; [assumption|]. constructor; [|constructor]. apply Z.mod_pos_bound; lia.
  - rewrite be_value_snoc, Hv. pose proof (Z.div_mod n 256). lia.
  - intros _. rewrite zlen_app. change (zlen [n mod 256]) with 1.
    replace (zlen ds + 1 - 1) with (zlen ds) by lia.
    destruct (Z.eq_dec (n / 256) 0) as [E|E].
    + rewrite (Hz E). cbn. lia.
    + assert (Hp : 0 < n / 256) by (apply Z.div_str_pos; split; [lia|]; apply Z.nlt_ge; intros L; apply E; apply Z.div_small; lia).
      specialize (Hm Hp).
      destruct ds as [|d ds']; [cbn in Hv; lia|].
      rewrite zlen_cons in *. pose proof (zlen_nonneg ds').
      replace (1 + zlen ds') with ((1 + zlen ds' - 1) + 1) by lia.
      rewrite pow256_succ by lia. lia.
  - lia.
Qed.

Lemma fuel_div256 n f : 0 < n -> (Z.to_nat (Z.log2 n) < S f)%nat -> n / 256 = 0 \/ (Z.to_nat (Z.log2 (n / 256)) < f)%nat.
Proof.
  intros Hn Hf. destruct (Z.eq_dec (n / 256) 0) as [E|E]; [left; exact E|right].
  assert (Hp : 0 < n / 256) by (assert (0 <= n / 256) by (apply Z.div_pos; lia); lia).
  assert (Z.log2 (n / 256) = Z.log2 n - 8).
  { rewrite <- shiftr_8. rewrite Z.log2_shiftr by lia.
    assert (8 <= Z.log2 n) by (change 8 with (Z.log2 256); apply Z.log2_le_mono; lia). lia. }
  assert (0 <= Z.log2 (n/256)) by apply Z.log2_nonneg. lia.
Qed.

Lemma encodeLength_loop_spec fuel : forall n acc k,
  0 <= n -> (n = 0 \/ (Z.to_nat (Z.log2 n) < fuel)%nat) ->
  exists ds, encodeLength_loop fuel n acc k = Ok (ds ++ acc, k + zlen ds) /\ be_of n ds.
Proof.
  induction fuel as [|f IH]; intros n acc k Hn Hf; cbn [encodeLength_loop].
  - destruct Hf as [->|Hf]; [|lia]. cbn [Z.gtb Z.compare].
    exists []. split; [cbn; do 2 f_equal; lia|]. repeat split; auto; cbn; try lia. constructor.
  - destruct (Z.gtb_spec n 0) as [Hp|Hp].
    + rewrite shiftr_8, land_255.
      destruct (IH (n / 256) (n mod 256 :: acc) (k + 1)) as (ds & E & B).
      * apply Z.div_pos; lia.
      * destruct Hf as [->|Hf]; [lia|]. apply fuel_div256; [lia|exact Hf].
      * exists (ds ++ [n mod 256]). split.
        -- rewrite E. rewrite <- app_assoc. cbn [app]. do 2 f_equal. rewrite zlen_app. cbn. lia.
        -- apply be_of_snoc; assumption.
    + assert (n = 0) by lia. subst n. exists []. split; [cbn; do 2 f_equal; lia|].
      repeat split; auto; cbn; try lia. constructor.
Qed.

Lemma int_loop_pos fuel : forall n acc,
  0 <= n -> (n = 0 \/ (Z.to_nat (Z.log2 n) < fuel)%nat) ->
  exists ds, int_bytes_loop 0 fuel n acc = Ok (ds ++ acc) /\ be_of n ds.
Proof.
  induction fuel as [|f IH]; intros n acc Hn Hf; cbn [int_bytes_loop].
  - destruct Hf as [->|Hf]; [|lia]. cbn.
    exists []. split; [reflexivity|]. repeat split; auto; cbn; try lia. constructor.
  - destruct (Z.eqb_spec n 0) as [Hp|Hp].
    + subst n. exists []. split; [reflexivity|].
      repeat split; auto; cbn; try lia. constructor.
    + rewrite shiftr_8, land_255.
      destruct (IH (n / 256) (n mod 256 :: acc)) as (ds & E & B).
      * apply Z.div_pos; lia.
      * destruct Hf as [->|Hf]; [lia|]. apply fuel_div256; [lia|exact Hf].
      * exists (ds ++ [n mod 256]). split.
        -- rewrite E. rewrite <- app_assoc. reflexivity.
        -- apply be_of_snoc; [lia|assumption].
Qed.

(** Octets written for a negative number by the loop that stops at -1. *)
Definition neg_of (n : Z) (ds : list Z) : Prop :=
  octet_string ds /\ be_value ds = n + 256 ^ zlen ds /\
  (n < -1 -> n < - 256 ^ (zlen ds - 1)) /\ (n = -1 -> ds = []).

Lemma neg_of_snoc n ds : n < -1 -> neg_of (n / 256) ds -> neg_of n (ds ++ [n mod 256]).
Proof.
  intros Hn (Ho & Hv & Hm & Hz). repeat split.
  - apply octet_app; [assumption|]. constructor; [|constructor]. apply Z.mod_pos_bound; lia.
  - rewrite be_value_snoc, Hv, zlen_app. change (zlen [n mod 256]) with 1.
    rewrite pow256_succ by apply zlen_nonneg. pose proof (Z.div_mod n 256). lia.
  - intros _. rewrite zlen_app. change (zlen [n mod 256]) with 1.
    replace (zlen ds + 1 - 1) with (zlen ds) by lia.
    destruct (Z.eq_dec (n / 256) (-1)) as [E|E].
    + rewrite (Hz E). cbn. lia.
    + assert (Hp : n / 256 < -1) by lia.
      specialize (Hm Hp).
      destruct ds as [|d ds']; [cbn in Hv; lia|].
      rewrite zlen_cons in *. pose proof (zlen_nonneg ds').
      replace (1 + zlen ds') with ((1 + zlen ds' - 1) + 1) by lia.
      rewrite pow256_succ by lia. lia.
  - lia.
Qed.

Lemma log2_neg_div n f : n < -1 -> (Z.to_nat (Z.log2 (Z.abs n)) < S f)%nat ->
  n / 256 = -1 \/ (Z.to_nat (Z.log2 (Z.abs (n / 256))) < f)%nat.
Proof.
  intros Hn Hf. destruct (Z.eq_dec (n / 256) (-1)) as [E|E]; [left; exact E|right].
  assert (Hp : n / 256 < -1) by lia.
  (* |n/256| <= |n| / 256 + 1 < |n| / 2 *)
  assert (H2 : 2 * Z.abs (n / 256) <= Z.abs n) by lia.
  assert (Z.log2 (2 * Z.abs (n / 256)) <= Z.log2 (Z.abs n)) by (apply Z.log2_le_mono; lia).
  rewrite Z.log2_double in H by lia.
  assert (0 <= Z.log2 (Z.abs (n/256))) by apply Z.log2_nonneg. lia.
Qed.

Lemma int_loop_neg fuel : forall n acc,
  n <= -1 -> (n = -1 \/ (Z.to_nat (Z.log2 (Z.abs n)) < fuel)%nat) ->
  exists ds, int_bytes_loop (-1) fuel n acc = Ok (ds ++ acc) /\ neg_of n ds.
Proof.
  induction fuel as [|f IH]; intros n acc Hn Hf; cbn [int_bytes_loop].
  - destruct Hf as [->|Hf]; [|lia]. cbn.
    exists []. split; [reflexivity|]. repeat split; auto; cbn; try lia. constructor.
  - destruct (Z.eqb_spec n (-1)) as [Hp|Hp].
    + subst n. exists []. split; [reflexivity|].
      repeat split; auto; cbn; try lia. constructor.
    + rewrite shiftr_8, land_255.
      destruct (IH (n / 256) (n mod 256 :: acc)) as (ds & E & B).
      * lia.
      * destruct Hf as [->|Hf]; [lia|]. apply log2_neg_div; [lia|exact Hf].
      * exists (ds ++ [n mod 256]). split.
        -- rewrite E. rewrite <- app_assoc. reflexivity.
        -- apply neg_of_snoc; [lia|assumption].
Qed.

(** ** Length octets *)

Lemma decodeLength_loop_spec ds : forall acc rest, octet_string ds ->
  decodeLength_loop (length ds) acc (ds ++ rest) = Ok (acc * 256 ^ zlen ds + be_value ds, rest).
Proof.
  unfold zlen. induction ds as [|d ds IH]; intros acc rest H; cbn [length decodeLength_loop app be_value].
  - cbn. do 2 f_equal. lia.
  - inversion H as [|? ? Hd Hds]; subst. rewrite lor_shiftl_8 by assumption.
    rewrite IH by assumption. do 2 f_equal.
    rewrite Nat2Z.inj_succ, Z.pow_succ_r by lia. ring.
Qed.

Lemma decodeLength_long ds rest : octet_string ds -> zlen ds <= 127 ->
  decodeLength ((128 + zlen ds) :: ds ++ rest) = Ok (be_value ds, rest).
Proof.
  intros Ho Hl. pose proof (zlen_nonneg ds).
  unfold decodeLength.
  rewrite land_128_octet by lia. destruct (Z.ltb_spec (128 + zlen ds) 128); [lia|].
  cbn [Z.eqb negb]. rewrite land_127.
  replace ((128 + zlen ds) mod 128) with (zlen ds) by lia.
  unfold zlen at 1. rewrite Nat2Z.id, decodeLength_loop_spec by assumption.
  do 2 f_equal.
Qed.

Lemma decodeLength_short n rest : 0 <= n < 128 -> decodeLength (n :: rest) = Ok (n, rest).
Proof.
  intros H. unfold decodeLength. rewrite land_128_octet by lia.
  destruct (Z.ltb_spec n 128); [|lia]. reflexivity.
Qed.

(** The octets chosen by the encoder. *)
Definition length_octets (n : Z) (os : list Z) : Prop :=
  (0 <= n < 127 /\ os = [n]) \/
  (127 <= n /\ exists ds, os = (128 + zlen ds) :: ds /\ be_of n ds /\ 1 <= zlen ds <= 127).

Lemma be_of_len n ds k : be_of n ds -> 0 <= k -> 0 <= n < 256 ^ k -> zlen ds <= k.
Proof.
  intros (Ho & Hv & Hm & Hz) Hk Hn.
  destruct (Z.eq_dec n 0) as [E|E]; [rewrite (Hz E); cbn; lia|].
  specialize (Hm ltac:(lia)).
  destruct (Z.le_gt_cases (zlen ds) k); [assumption|].
  assert (256 ^ k <= 256 ^ (zlen ds - 1)) by (apply Z.pow_le_mono_r; lia). lia.
Qed.
Lemma be_of_nonempty n ds : be_of n ds -> 0 < n -> 1 <= zlen ds.
Proof.
  intros (Ho & Hv & _) Hn. destruct ds; [cbn in Hv; lia|]. rewrite zlen_cons.
  pose proof (zlen_nonneg ds). lia.
Qed.

Lemma encodeLength_spec n : 0 <= n < 256 ^ 127 -> exists os, encodeLength n = Ok os /\ length_octets n os.
Proof.
  intros Hn. unfold encodeLength. destruct (Z.ltb_spec n 127).
  - exists [n]. rewrite land_255, Z.mod_small by lia. split; [reflexivity|]. left. split; [lia|reflexivity].
  - destruct (encodeLength_loop_spec (S (Z.to_nat (Z.log2 n))) n [] 0) as (ds & E & B); [lia|right; lia|].
    rewrite E. cbn [bind]. rewrite app_nil_r, Z.add_0_l.
    pose proof (be_of_len n ds 127 B ltac:(lia) ltac:(lia)).
    pose proof (be_of_nonempty n ds B ltac:(lia)).
    exists ((128 + zlen ds) :: ds). split.
    + rewrite lor_128' by lia. rewrite land_255, Z.mod_small by lia. reflexivity.
    + right. split; [lia|]. exists ds. auto.
Qed.

Lemma decodeLength_octets n os rest : length_octets n os -> decodeLength (os ++ rest) = Ok (n, rest).
Proof.
  intros [[Hn ->]|(Hn & ds & -> & (Ho & Hv & _) & Hl)].
  - apply decodeLength_short; lia.
  - cbn [app]. rewrite decodeLength_long by (assumption || lia). rewrite Hv. reflexivity.
Qed.

Lemma length_octets_ber n os : n < 256 ^ 126 -> length_octets n os -> ber_length n os.
Proof.
  intros Hb [[Hn ->]|(Hn & ds & -> & B & Hl)]; [left; split; [reflexivity|lia]|right].
  exists ds. destruct B as (Ho & Hv & Hm & Hz).
  assert (zlen ds <= 126).
  { apply (be_of_len n); [repeat split; auto|lia|lia]. }
  unfold zlen in *. repeat split; auto; lia.
Qed.

Lemma ber_length_decode n os rest : ber_length n os -> decodeLength (os ++ rest) = Ok (n, rest).
Proof.
  intros [[-> Hn]|(ds & -> & Hl & Ho & Hv)].
  - apply decodeLength_short; lia.
  - cbn [app]. change (Z.of_nat (length ds)) with (zlen ds) in *.
    rewrite decodeLength_long by (assumption || lia). rewrite Hv. reflexivity.
Qed.

(** ** Integer contents *)

Lemma dec_pos_loop_spec l : forall v, octet_string l ->
  dec_pos_loop v l = v * 256 ^ zlen l + be_value l.
Proof.
  unfold zlen. induction l as [|b r IH]; intros v H; cbn [dec_pos_loop be_value length]; [cbn; lia|].
  inversion H as [|? ? Hb Hr]; subst. rewrite lor_shiftl_8 by assumption. rewrite IH by assumption.
  rewrite Nat2Z.inj_succ, Z.pow_succ_r by lia. ring.
Qed.
Lemma dec_neg_loop_spec l : forall n v, octet_string l ->
  dec_neg_loop n v l = (n * 256 ^ zlen l, v * 256 ^ zlen l + be_value l).
Proof.
  unfold zlen. induction l as [|b r IH]; intros n v H; cbn [dec_neg_loop be_value length]; [cbn; f_equal; lia|].
  inversion H as [|? ? Hb Hr]; subst. rewrite lor_shiftl_8 by assumption. rewrite IH by assumption.
  rewrite shiftl_8, Nat2Z.inj_succ, Z.pow_succ_r by lia. f_equal; ring.
Qed.

Lemma integer_decode_spec l : octet_string l -> l <> [] -> integer_decodeContents l = Ok (twos_value l).
Proof.
  intros H Hne. destruct l as [|b r]; [contradiction|].
  inversion H as [|? ? Hb Hr]; subst. cbn [integer_decodeContents twos_value be_value length].
  rewrite land_128_octet by assumption.
  destruct (Z.ltb_spec b 128).
  - cbn [Z.eqb]. rewrite dec_pos_loop_spec by assumption. f_equal. unfold zlen. lia.
  - cbn [Z.eqb Pos.eqb]. rewrite dec_neg_loop_spec by assumption. f_equal. unfold zlen.
    rewrite land_127, Nat2Z.inj_succ, Z.pow_succ_r by lia.
    replace (b mod 128) with (b - 128) by lia. ring.
Qed.

Lemma fold_reduce l : forall v, octet_string l ->
  fold_left (fun x y => Z.lor (Z.shiftl x 8) y) l v = v * 256 ^ zlen l + be_value l.
Proof.
  unfold zlen. induction l as [|b r IH]; intros v H; cbn [fold_left be_value length]; [cbn; lia|].
  inversion H as [|? ? Hb Hr]; subst. rewrite lor_shiftl_8 by assumption. rewrite IH by assumption.
  rewrite Nat2Z.inj_succ, Z.pow_succ_r by lia. ring.
Qed.

Lemma twos1_spec l : octet_string l -> l <> [] -> decodeTwosInteger1 l = Ok (twos_value l).
Proof.
  intros H Hne. destruct l as [|b r]; [contradiction|].
  pose proof H as H'. inversion H as [|? ? Hb Hr]; subst.
  unfold decodeTwosInteger1, twos_value. rewrite land_128_octet by assumption.
  destruct (Z.ltb_spec b 128).
  - cbn [Z.eqb negb]. rewrite fold_reduce by assumption. f_equal. lia.
  - cbn [Z.eqb negb]. cbn [fold_left]. change (Z.lor (Z.shiftl 0 8) (-1)) with (-1).
    change (fold_left ?f r (Z.lor (Z.shiftl (-1) 8) b)) with (fold_left f (b :: r) (-1)).
    rewrite fold_reduce by assumption. f_equal. unfold zlen. lia.
Qed.
Lemma twos2_spec l : octet_string l -> l <> [] -> decodeTwosInteger2 l = Ok (twos_value l).
Proof. exact (integer_decode_spec l). Qed.
Lemma twos3_spec l : octet_string l -> l <> [] -> decodeTwosInteger3 l = Ok (twos_value l).
Proof.
  intros H Hne. destruct l as [|b r]; [contradiction|].
  pose proof H as H'. inversion H as [|? ? Hb Hr]; subst.
  unfold decodeTwosInteger3, twos_value. rewrite land_128_octet by assumption.
  destruct (Z.ltb_spec b 128).
  - cbn [Z.eqb negb]. rewrite dec_pos_loop_spec by assumption. f_equal. lia.
  - cbn [Z.eqb negb]. rewrite land_127. replace (b mod 128) with (b - 128) by lia.
    rewrite dec_neg_loop_spec by (constructor; [lia|assumption]).
    f_equal. rewrite shiftr_8. rewrite zlen_cons. unfold zlen. cbn [be_value length].
    replace (1 + Z.of_nat (length r)) with (Z.of_nat (length r) + 1) by lia.
    rewrite pow256_succ by lia.
    replace (128 * (256 * 256 ^ Z.of_nat (length r))) with (128 * 256 ^ Z.of_nat (length r) * 256) by ring.
    rewrite Z.div_mul by lia.
    rewrite Nat2Z.inj_succ, Z.pow_succ_r by lia. ring.
Qed.

(** Value of [0 :: ds] and of [ds]. *)
Lemma twos_value_zero ds : octet_string ds -> twos_value (0 :: ds) = be_value ds.
Proof. intros. cbn [twos_value be_value]. change (0 <? 128) with true. cbn. lia. Qed.

Lemma head_bound b r n : be_value (b :: r) = n -> octet_string (b :: r) ->
  b * 256 ^ zlen r <= n < (b + 1) * 256 ^ zlen r.
Proof.
  intros Hv H. inversion H as [|? ? Hb Hr]; subst. cbn [be_value]. pose proof (be_value_bound r Hr).
  unfold zlen. lia.
Qed.

Lemma encode_nonneg_ok v : 0 <= v -> exists os, integer_encodeContents v = Ok os /\
  octet_string os /\ twos_value os = v /\ shortest_form os.
Proof.
  intros Hv. unfold integer_encodeContents.
  destruct (Z.eqb_spec v 0) as [->|H0].
  { exists [0]. repeat split; auto. repeat constructor; lia. }
  destruct (Z.eqb_spec v (-1)); [lia|]. destruct (Z.gtb_spec v 0); [|lia].
  destruct (int_loop_pos (int_fuel v) v []) as (ds & E & Hbe); [lia| |].
  { right. unfold int_fuel. rewrite Z.abs_eq by lia. lia. }
  rewrite E. cbn [bind]. rewrite app_nil_r.
  pose proof (be_of_nonempty _ _ Hbe ltac:(lia)) as Hne.
  destruct Hbe as (Ho & Hval & Hm & Hz). specialize (Hm ltac:(lia)).
  destruct ds as [|b r]; [cbn in Hne; lia|].
  pose proof (Forall_inv Ho) as Hb; pose proof (Forall_inv_tail Ho) as Hr; cbv beta in Hb.
  rewrite land_128_octet by assumption.
  pose proof (head_bound b r v Hval Ho) as Hh.
  rewrite zlen_cons in Hm. replace (1 + zlen r - 1) with (zlen r) in Hm by lia.
  pose proof (pow256_pos (zlen r) (zlen_nonneg r)) as Hp.
  destruct (Z.ltb_spec b 128).
  - exists (b :: r). cbn [Z.eqb negb]. repeat split; auto.
    + unfold twos_value. destruct (Z.ltb_spec b 128); [|lia]. lia.
    + assert (1 <= b) by nia. destruct r as [|b1 r]; [exact I|]. cbn. lia.
  - exists (0 :: b :: r). cbn [Z.eqb negb]. repeat split; auto.
    + constructor; [lia|assumption].
    + rewrite twos_value_zero by assumption. exact Hval.
    + cbn. lia.
    + cbn. lia.
Qed.

Definition int_domain (v : Z) : Prop :=
  -1 <= v \/ exists k, 1 <= k /\ - 2 ^ (8 * k - 1) <= v < - 256 ^ (k - 1).

Lemma pow_2_256 k : 1 <= k -> 256 ^ k = 2 * 2 ^ (8 * k - 1).
Proof.
  intros. change 256 with (2 ^ 8). rewrite <- Z.pow_mul_r by lia.
  replace (8 * k) with (1 + (8 * k - 1)) at 1 by lia. rewrite Z.pow_add_r by lia. reflexivity.
Qed.
Lemma pow_2_128 k : 1 <= k -> 2 ^ (8 * k - 1) = 128 * 256 ^ (k - 1).
Proof.
  intros. replace (8 * k - 1) with (7 + 8 * (k - 1)) by lia.
  rewrite Z.pow_add_r by lia. rewrite (Z.pow_mul_r 2 8) by lia. reflexivity.
Qed.

(** What is written for v < -1: k octets (-256^k <= v < -256^(k-1)); if the top bit
    is set they are the two's complement form, otherwise a zero octet is put in
    front and the value read back is v + 256^k. *)
Lemma encode_neg v : v < -1 -> exists k os, 1 <= k /\ - 256 ^ k <= v < - 256 ^ (k - 1) /\
  integer_encodeContents v = Ok os /\ octet_string os /\
  ((- 2 ^ (8 * k - 1) <= v /\ twos_value os = v /\ shortest_form os /\ zlen os = k) \/
   (v < - 2 ^ (8 * k - 1) /\ twos_value os = v + 256 ^ k /\ zlen os = k + 1)).
Proof.
  intros Hv. unfold integer_encodeContents.
  destruct (Z.eqb_spec v 0); [lia|]. destruct (Z.eqb_spec v (-1)); [lia|]. destruct (Z.gtb_spec v 0); [lia|].
  destruct (int_loop_neg (int_fuel v) v []) as (ds & E & Ho & Hval & Hm & Hz); [lia|right; unfold int_fuel; lia|].
  rewrite E. cbn [bind]. rewrite app_nil_r. specialize (Hm ltac:(lia)).
  destruct ds as [|b r]; [cbn in Hval; lia|].
  pose proof (Forall_inv Ho) as Hb; pose proof (Forall_inv_tail Ho) as Hr; cbv beta in Hb.
  exists (zlen (b :: r)).
  pose proof (be_value_bound _ Ho) as Hbb. change (Z.of_nat (length (b :: r))) with (zlen (b :: r)) in Hbb.
  pose proof (head_bound b r _ Hval Ho) as Hh.
  pose proof (zlen_nonneg r) as Hr0.
  rewrite land_128_octet by assumption.
  assert (Hk : 1 <= zlen (b :: r)) by (rewrite zlen_cons; lia).
  pose proof (pow_2_128 (zlen (b :: r)) Hk) as Hp128.
  pose proof (pow_2_256 (zlen (b :: r)) Hk) as Hp256.
  rewrite zlen_cons in *. replace (1 + zlen r - 1) with (zlen r) in * by lia.
  pose proof (pow256_pos (zlen r) Hr0) as Hp.
  destruct (Z.ltb_spec b 128).
  - exists (0 :: b :: r). cbn [Z.eqb negb]. repeat split; auto; try lia.
    + constructor; [lia|assumption].
    + right. rewrite twos_value_zero by assumption. rewrite Hval. rewrite !zlen_cons. repeat split; nia.
  - exists (b :: r). cbn [Z.eqb negb]. repeat split; auto; try lia.
    left. repeat split.
    + nia.
    + unfold twos_value. destruct (Z.ltb_spec b 128); [lia|]. rewrite Hval.
      change (Z.of_nat (length (b :: r))) with (zlen (b :: r)). rewrite zlen_cons. lia.
    + destruct r as [|b1 r]; [exact I|]. inversion Hr as [|? ? Hb1 Hr1]; subst.
      cbn [shortest_form]. split; [lia|]. intros [-> H1].
      (* then v >= -128*256^(k-2), against v < -256^(k-1) *)
      cbn [be_value length] in Hval. unfold zlen in *. cbn [length] in *.
      rewrite Nat2Z.inj_succ, Z.pow_succ_r in * by lia.
      pose proof (be_value_bound _ Hr1).
      pose proof (pow256_pos (Z.of_nat (length r)) ltac:(lia)).
      replace (1 + Z.succ (Z.of_nat (length r))) with (Z.of_nat (length r) + 2) in Hval by lia.
      rewrite Z.pow_add_r in Hval by lia. change (256 ^ 2) with 65536 in Hval. nia.
    + rewrite zlen_cons. reflexivity.
Qed.

Lemma pow256_mono a b : 0 <= a <= b -> 256 ^ a <= 256 ^ b.
Proof. intros. apply Z.pow_le_mono_r; lia. Qed.

Lemma octave_unique v k j : 1 <= k -> 1 <= j ->
  - 256 ^ k <= v < - 256 ^ (k - 1) -> - 256 ^ j <= v < - 256 ^ (j - 1) -> k = j.
Proof.
  intros Hk Hj H1 H2. destruct (Z.lt_trichotomy k j) as [L|[E|L]]; [|exact E|].
  - pose proof (pow256_mono k (j - 1) ltac:(lia)). lia.
  - pose proof (pow256_mono j (k - 1) ltac:(lia)). lia.
Qed.

Lemma int_roundtrip_iff v :
  (os <- integer_encodeContents v ;; integer_decodeContents os) = Ok v <-> int_domain v.
Proof.
  destruct (Z.le_gt_cases 0 v) as [Hv|Hv].
  - destruct (encode_nonneg_ok v Hv) as (os & E & Ho & Ht & Hs). rewrite E. cbn [bind].
    rewrite integer_decode_spec by (auto; intros ->; exact Hs).
    rewrite Ht. split; intros; [left; lia|reflexivity].
  - destruct (Z.eq_dec v (-1)) as [->|Hne].
    { split; intros; [left; lia|reflexivity]. }
    destruct (encode_neg v ltac:(lia)) as (k & os & Hk & Hr & E & Ho & D). rewrite E. cbn [bind].
    assert (os <> []).
    { intros ->. destruct D as [(_ & _ & _ & L)|(_ & _ & L)]; cbn in L; lia. }
    rewrite integer_decode_spec by auto.
    pose proof (pow256_pos k ltac:(lia)).
    destruct D as [(Hb & Ht & _)|(Hb & Ht & _)]; rewrite Ht.
    + split; [intros _; right; exists k; lia|reflexivity].
    + split; [intros Heq; inversion Heq; lia|].
      intros [L|(j & Hj & Hjr)]; [lia|].
      assert (Hjr' : - 256 ^ j <= v < - 256 ^ (j - 1)).
      { pose proof (pow_2_256 j Hj). assert (0 < 2 ^ (8 * j - 1)) by (apply Z.pow_pos_nonneg; lia). lia. }
      assert (k = j) by (apply (octave_unique v); assumption). subst j. lia.
Qed.

(** Any octet string with value v is at least as long as the shortest form. *)
Lemma twos_value_range l : octet_string l -> l <> [] ->
  - 2 ^ (8 * zlen l - 1) <= twos_value l < 2 ^ (8 * zlen l - 1).
Proof.
  intros H Hne. destruct l as [|b r]; [contradiction|].
  inversion H as [|? ? Hb Hr]; subst.
  pose proof (head_bound b r _ eq_refl H) as Hh.
  assert (Hk : 1 <= zlen (b :: r)) by (rewrite zlen_cons; pose proof (zlen_nonneg r); lia).
  pose proof (pow_2_128 _ Hk) as P1. pose proof (pow_2_256 _ Hk) as P2.
  unfold twos_value. change (Z.of_nat (length (b :: r))) with (zlen (b :: r)).
  rewrite zlen_cons in *. replace (1 + zlen r - 1) with (zlen r) in * by lia.
  pose proof (pow256_pos (zlen r) (zlen_nonneg r)).
  destruct (Z.ltb_spec b 128); nia.
Qed.

Lemma shortest_lower l : octet_string l -> shortest_form l -> 2 <= zlen l ->
  twos_value l < - 2 ^ (8 * (zlen l - 1) - 1) \/ 2 ^ (8 * (zlen l - 1) - 1) <= twos_value l.
Proof.
  intros H Hs Hl. destruct l as [|b [|b1 r]]; [contradiction|cbn in Hl; lia|].
  inversion H as [|? ? Hb Hr]; subst. inversion Hr as [|? ? Hb1 Hr1]; subst.
  cbn [shortest_form] in Hs. unfold twos_value. cbn [be_value length].
  change (Z.of_nat (S (S (length r)))) with (zlen (b :: b1 :: r)).
  rewrite !zlen_cons in *. pose proof (zlen_nonneg r) as Hr0.
  pose proof (be_value_bound r Hr1) as Hbr. unfold zlen in *.
  rewrite Nat2Z.inj_succ, Z.pow_succ_r by lia.
  replace (1 + (1 + Z.of_nat (length r)) - 1) with (Z.of_nat (length r) + 1) by lia.
  rewrite pow_2_128 by lia. replace (Z.of_nat (length r) + 1 - 1) with (Z.of_nat (length r)) by lia.
  replace (1 + (1 + Z.of_nat (length r))) with (Z.of_nat (length r) + 2) by lia.
  rewrite Z.pow_add_r by lia. change (256 ^ 2) with 65536.
  pose proof (pow256_pos (Z.of_nat (length r)) ltac:(lia)).
  destruct (Z.ltb_spec b 128); nia.
Qed.

Lemma shortest_is_shortest l m : octet_string l -> shortest_form l -> octet_string m -> m <> [] ->
  twos_value m = twos_value l -> zlen l <= zlen m.
Proof.
  intros Hl Hs Hm Hne E.
  destruct (Z.le_gt_cases (zlen l) (zlen m)) as [L|L]; [exact L|].
  assert (Hm1 : 1 <= zlen m) by (destruct m; [contradiction|rewrite zlen_cons; pose proof (zlen_nonneg m); lia]).
  pose proof (shortest_lower l Hl Hs ltac:(lia)) as Hd.
  pose proof (twos_value_range m Hm Hne) as Hr.
  assert (2 ^ (8 * zlen m - 1) <= 2 ^ (8 * (zlen l - 1) - 1)) by (apply Z.pow_le_mono_r; lia).
  lia.
Qed.

(** ** Statements used by the property files *)

Lemma length_roundtrip n rest : 0 <= n < 256 ^ 127 ->
  exists os, encodeLength n = Ok os /\ decodeLength (os ++ rest) = Ok (n, rest).
Proof.
  intros H. destruct (encodeLength_spec n H) as (os & E & L). exists os. split; [exact E|].
  apply decodeLength_octets. exact L.
Qed.

Lemma be_of_head n d ds : be_of n (d :: ds) -> 0 < n -> d <> 0.
Proof.
  intros (Ho & Hv & Hm & _) Hn ->. specialize (Hm Hn).
  rewrite zlen_cons in Hm. replace (1 + zlen ds - 1) with (zlen ds) in Hm by lia.
  cbn [be_value] in Hv. pose proof (be_value_bound ds (Forall_inv_tail Ho)). unfold zlen in Hm. lia.
Qed.

Lemma length_legal n : 0 <= n < 256 ^ 126 -> exists os, encodeLength n = Ok os /\ ber_length n os /\
  match os with
  | [] => False
  | [b] => n < 127 /\ b = n
  | _ :: d :: _ => 127 <= n /\ d <> 0
  end.
Proof.
  intros H. assert (0 <= n < 256 ^ 127).
  { change (256 ^ 127) with (256 * 256 ^ 126). pose proof (pow256_pos 126 ltac:(lia)). lia. }
  destruct (encodeLength_spec n ltac:(assumption)) as (os & E & L). exists os. split; [exact E|].
  split; [apply length_octets_ber; [lia|exact L]|].
  destruct L as [[Hn ->]|(Hn & ds & -> & B & Hl)]; [split; [lia|reflexivity]|].
  destruct ds as [|d ds]; [cbn in Hl; lia|]. split; [lia|]. apply (be_of_head n d ds); [exact B|lia].
Qed.

(** The integer contents written for every int. *)
Lemma int_encode_total v : exists os, integer_encodeContents v = Ok os /\ octet_string os /\ os <> [].
Proof.
  destruct (Z.le_gt_cases 0 v) as [Hv|Hv].
  - destruct (encode_nonneg_ok v Hv) as (os & E & Ho & _ & Hs). exists os. repeat split; auto. intros ->; exact Hs.
  - destruct (Z.eq_dec v (-1)) as [->|Hne].
    { exists [255]. repeat split; [constructor; [lia|constructor]|discriminate]. }
    destruct (encode_neg v ltac:(lia)) as (k & os & Hk & Hr & E & Ho & D).
    exists os. repeat split; auto. intros ->. destruct D as [(_ & _ & _ & L)|(_ & _ & L)]; cbn in L; lia.
Qed.

Lemma int_encode_shortest v os : int_domain v -> integer_encodeContents v = Ok os ->
  octet_string os /\ shortest_form os /\ twos_value os = v /\
  forall other, octet_string other -> other <> [] -> twos_value other = v -> zlen os <= zlen other.
Proof.
  intros D E.
  assert (H : octet_string os /\ shortest_form os /\ twos_value os = v).
  { destruct (Z.le_gt_cases 0 v) as [Hv|Hv].
    - destruct (encode_nonneg_ok v Hv) as (os' & E' & Ho & Ht & Hs). rewrite E in E'. inversion E'; subst. auto.
    - destruct (Z.eq_dec v (-1)) as [->|Hne].
      { inversion E; subst. repeat split. constructor; [lia|constructor]. }
      destruct (encode_neg v ltac:(lia)) as (k & os' & Hk & Hr & E' & Ho & [(A & B & C & _)|(A & B & C)]).
      + rewrite E in E'. inversion E'; subst. auto.
      + exfalso. apply int_roundtrip_iff in D. rewrite E' in D. cbn [bind] in D.
        rewrite integer_decode_spec in D; [|assumption|intros ->; cbn in C; lia].
        pose proof (pow256_pos k ltac:(lia)). inversion D. lia. }
  destruct H as (Ho & Hs & Ht). repeat split; auto.
  intros other Hoo Hne Hv. apply shortest_is_shortest; auto. congruence.
Qed.

Lemma int_roundtrip_bad v : ~ int_domain v -> exists k os, 1 <= k /\
  - 256 ^ k <= v < - 2 ^ (8 * k - 1) /\ integer_encodeContents v = Ok os /\
  integer_decodeContents os = Ok (v + 256 ^ k) /\ 0 <= v + 256 ^ k.
Proof.
  intros ND. destruct (Z.le_gt_cases (-1) v) as [L|L]; [exfalso; apply ND; left; exact L|].
  destruct (encode_neg v ltac:(lia)) as (k & os & Hk & Hr & E & Ho & [(A & B & C & _)|(A & B & C)]).
  - exfalso. apply ND. right. exists k. lia.
  - exists k, os. repeat split; auto; try lia. rewrite integer_decode_spec; [congruence|assumption|].
    intros ->. cbn in C; lia.
Qed.

Lemma int_bad_32bit v : - 2147483648 <= v <= 2147483647 ->
  (~ int_domain v <-> (-256 <= v <= -129) \/ (-65536 <= v <= -32769) \/ (-16777216 <= v <= -8388609)).
Proof.
  intros Hv. split.
  - intros ND. destruct (int_roundtrip_bad v ND) as (k & os & Hk & Hr & _).
    assert (k = 1 \/ k = 2 \/ k = 3 \/ 4 <= k) as [->|[->|[->|H4]]] by lia.
    + cbn in Hr. lia.
    + cbn in Hr. lia.
    + cbn in Hr. lia.
    + exfalso. assert (P : 2 ^ 31 <= 2 ^ (8 * k - 1)) by (apply Z.pow_le_mono_r; lia).
      change (2 ^ 31) with 2147483648 in P. lia.
  - intros Hc [L|(k & Hk & Hr)]; [lia|].
    assert (k = 1 \/ k = 2 \/ k = 3 \/ 4 <= k) as [->|[->|[->|H4]]] by lia.
    + cbn in Hr. lia.
    + cbn in Hr. lia.
    + cbn in Hr. lia.
    + assert (P : 256 ^ 3 <= 256 ^ (k - 1)) by (apply Z.pow_le_mono_r; lia).
      change (256 ^ 3) with 16777216 in P. lia.
Qed.

Lemma int_roundtrip_witness : exists v, -2147483648 <= v <= 2147483647 /\
  (os <- integer_encodeContents v ;; integer_decodeContents os) = Ok 127 /\ v = -129.
Proof. exists (-129). split; [lia|split; reflexivity]. Qed.
