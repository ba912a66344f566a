(** * getSysUptime: rounding, and what it makes of /proc/uptime. *)
From Coq Require Import ZArith List Bool Lia.
From Verif Require Import PyBase SpecNumber SpecUptime Uptime ProofsNumber.
Import ListNotations.
Open Scope Z_scope.

Lemma pos_pow_pos e : 0 < pos_pow e.
Proof. apply Z.pow_pos_nonneg; lia. Qed.
Lemma neg_pow_pos e : 0 < neg_pow e.
Proof. apply Z.pow_pos_nonneg; lia. Qed.
Lemma pow_step e : pos_pow (e - 1) * neg_pow e * 2 = pos_pow e * neg_pow (e - 1).
Proof.
  unfold pos_pow, neg_pow. destruct (Z.le_gt_cases e 0) as [H|H].
  - replace (Z.max (e - 1) 0) with 0 by lia. replace (Z.max e 0) with 0 by lia. replace (Z.max (- (e - 1)) 0) with (Z.max (- e) 0 + 1) by lia. rewrite Z.pow_add_r by lia. lia.
  - replace (Z.max (- (e - 1)) 0) with 0 by lia. replace (Z.max (- e) 0) with 0 by lia. replace (Z.max e 0) with (Z.max (e - 1) 0 + 1) by lia. rewrite Z.pow_add_r by lia. lia.
Qed.
Lemma pow_split e : 2 ^ Z.max e 0 * 2 ^ Z.max (- e) 0 = 2 ^ Z.abs e.
Proof. rewrite <- Z.pow_add_r by lia. f_equal. lia. Qed.
(** The quotient scaled by the exponent has 53 bits. *)
Lemma exponent_range n d : 0 < n -> 0 < d -> 2 ^ 52 * (d * pos_pow (exponent n d)) <= n * neg_pow (exponent n d) < 2 ^ 53 * (d * pos_pow (exponent n d)).
Proof.
  intros Hn Hd. unfold exponent. set (e := Z.log2 n - Z.log2 d - 52). destruct (Z.log2_spec n Hn) as [N1 N2]. destruct (Z.log2_spec d Hd) as [D1 D2].
  pose proof (Z.log2_nonneg n) as Ln. pose proof (Z.log2_nonneg d) as Ld. rewrite Z.pow_succ_r in N2, D2 by lia.
  pose proof (pos_pow_pos e) as Pp. pose proof (neg_pow_pos e) as Pn.
  assert (Q : 2 ^ Z.log2 n * neg_pow e = 2 ^ 52 * (2 ^ Z.log2 d * pos_pow e)).
  { unfold pos_pow, neg_pow. destruct (Z.le_gt_cases e 0) as [H|H].
    - rewrite (Z.max_r e 0), (Z.max_l (- e) 0), Z.pow_0_r, Z.mul_1_r by lia. rewrite <- !Z.pow_add_r by lia. f_equal. unfold e. lia.
    - rewrite (Z.max_l e 0), (Z.max_r (- e) 0), Z.pow_0_r, Z.mul_1_r by lia. rewrite <- !Z.pow_add_r by lia. f_equal. unfold e. lia. }
  assert (U : n * neg_pow e < 2 ^ 53 * (d * pos_pow e)).
  { apply Z.lt_le_trans with (2 * 2 ^ Z.log2 n * neg_pow e); [apply Z.mul_lt_mono_pos_r; assumption|]. replace (2 * 2 ^ Z.log2 n * neg_pow e) with (2 * (2 ^ Z.log2 n * neg_pow e)) by ring. rewrite Q.
    change (2 ^ 53) with (2 * 2 ^ 52). assert (2 ^ Z.log2 d * pos_pow e <= d * pos_pow e) by (apply Z.mul_le_mono_nonneg_r; lia). lia. }
  assert (L : 2 ^ 51 * (d * pos_pow e) < n * neg_pow e).
  { apply Z.lt_le_trans with (2 ^ Z.log2 n * neg_pow e); [|apply Z.mul_le_mono_nonneg_r; lia]. rewrite Q. change (2 ^ 52) with (2 ^ 51 * 2). assert (d * pos_pow e < 2 * 2 ^ Z.log2 d * pos_pow e) by (apply Z.mul_lt_mono_pos_r; assumption). lia. }
  destruct (Z.ltb_spec (n * neg_pow e) (2 ^ 52 * (d * pos_pow e))) as [H|H]; [|split; assumption].
  pose proof (pow_step e) as S. pose proof (pos_pow_pos (e - 1)) as Pp'. pose proof (neg_pow_pos (e - 1)) as Pn'. change (2 ^ 53) with (2 * 2 ^ 52) in *. change (2 ^ 52) with (2 * 2 ^ 51) in *.
  set (a := pos_pow e) in *. set (b := neg_pow e) in *. set (a' := pos_pow (e - 1)) in *. set (b' := neg_pow (e - 1)) in *. clearbody a b a' b'. clear N1 N2 D1 D2 Q U.
  (* a' b 2 = a b' *)
  split.
  - apply (Z.mul_le_mono_pos_r _ _ b); [assumption|]. replace (n * b' * b) with ((n * b) * b') by ring. replace (2 * 2 ^ 51 * (d * a') * b) with (2 ^ 51 * (d * a) * b') by (replace (2 * 2 ^ 51 * (d * a') * b) with (2 ^ 51 * d * (a' * b * 2)) by ring; rewrite S; ring).
    apply Z.mul_le_mono_nonneg_r; lia.
  - apply (Z.mul_lt_mono_pos_r b); [assumption|]. replace (n * b' * b) with ((n * b) * b') by ring. replace (2 * (2 * 2 ^ 51) * (d * a') * b) with (2 * 2 ^ 51 * (d * a) * b') by (replace (2 * (2 * 2 ^ 51) * (d * a') * b) with (2 * 2 ^ 51 * d * (a' * b * 2)) by ring; rewrite S; ring).
    apply Z.mul_lt_mono_pos_r; assumption.
Qed.
Lemma half_even_near n d : 0 < d -> 2 * Z.abs (half_even n d * d - n) <= d /\ (2 * Z.abs (half_even n d * d - n) = d -> Z.even (half_even n d) = true).
Proof.
  intros Hd. unfold half_even. pose proof (Z.div_mod n d ltac:(lia)) as E. pose proof (Z.mod_pos_bound n d Hd) as B. set (q := n / d) in *. set (r := n mod d) in *. clearbody q r.
  destruct (Z.ltb_spec (2 * r) d); [split; [|intros]; nia|]. destruct (Z.ltb_spec d (2 * r)); [split; [|intros]; nia|]. destruct (Z.even q) eqn:Ev; (split; [nia|intros _]); [exact Ev|]. rewrite Z.even_add, Ev. reflexivity.
Qed.
Theorem to_double_nearest n d : 0 < n -> 0 < d -> nearest_double n d (fm (to_double n d)) (fe (to_double n d)).
Proof.
  intros Hn Hd. unfold to_double. destruct (Z.eqb_spec n 0) as [->|_]; [lia|]. cbn [fm fe]. unfold nearest_double. fold (pos_pow (exponent n d)) (neg_pow (exponent n d)).
  split; [apply exponent_range; assumption|]. apply half_even_near. pose proof (pos_pow_pos (exponent n d)). nia.
Qed.
(** The value, as a fraction. *)
Definition num (x : dbl) : Z := fm x * pos_pow (fe x).
Definition den (x : dbl) : Z := neg_pow (fe x).
Lemma den_pos x : 0 < den x. Proof. apply neg_pow_pos. Qed.
Lemma rounding_error n d : 0 <= n -> 0 < d -> 2 ^ 53 * Z.abs (num (to_double n d) * d - n * den (to_double n d)) <= n * den (to_double n d) /\ 0 <= num (to_double n d).
Proof.
  intros Hn Hd. destruct (Z.eq_dec n 0) as [->|H0]; [cbn; lia|]. destruct (to_double_nearest n d ltac:(lia) Hd) as ((L & _) & E & _). fold (pos_pow (fe (to_double n d))) (neg_pow (fe (to_double n d))) in *. unfold num, den.
  set (m := fm (to_double n d)) in *. set (p := pos_pow (fe (to_double n d))) in *. set (q := neg_pow (fe (to_double n d))) in *. assert (0 < p) by apply pos_pow_pos. assert (0 < q) by apply neg_pow_pos. clearbody m p q.
  replace (m * (d * p)) with (m * p * d) in E by ring. change (2 ^ 53) with (2 ^ 52 * 2). split; [nia|]. assert (0 <= m * (d * p)) by (replace (m * (d * p)) with (m * p * d) by ring; nia). nia.
Qed.
(** Whole numbers below 2^53 are doubles. *)
Lemma exact_double k d : 0 <= k < 2 ^ 53 -> 0 < d -> num (to_double (k * d) d) = k * den (to_double (k * d) d).
Proof.
  intros Hk Hd. destruct (Z.eq_dec k 0) as [->|H0]; [reflexivity|]. assert (Hn : 0 < k * d) by nia. pose proof (exponent_range _ _ Hn Hd) as [L _]. unfold to_double. destruct (Z.eqb_spec (k * d) 0) as [E|_]; [lia|]. unfold num, den. cbn [fm fe].
  set (e := exponent (k * d) d) in *. clearbody e. assert (He : e <= 0).
  { destruct (Z.le_gt_cases e 0) as [He|He]; [exact He|]. exfalso. unfold pos_pow, neg_pow in L. rewrite Z.max_l, Z.max_r, Z.pow_0_r, Z.mul_1_r in L by lia. assert (2 <= 2 ^ e) by (change 2 with (2 ^ 1) at 1; apply Z.pow_le_mono_r; lia). change (2 ^ 53) with (2 ^ 52 * 2) in Hk. nia. }
  assert (P : pos_pow e = 1) by (unfold pos_pow; rewrite Z.max_r by lia; reflexivity). rewrite P, !Z.mul_1_r. unfold half_even. replace (k * d * neg_pow e) with (k * neg_pow e * d) by ring. rewrite Z.div_mul, Z.mod_mul by lia. destruct (Z.ltb_spec (2 * 0) d); [reflexivity|lia].
Qed.
(** ** n / 100 as a double, times 100, cut off *)
Definition hundredths (n : Z) : Z := num (times100 (to_double n 100)) / den (times100 (to_double n 100)).
Lemma hundredths_close n : 0 <= n < 2 ^ 51 -> n - 1 <= hundredths n <= n.
Proof.
  intros Hn. unfold hundredths, times100. fold (num (to_double n 100)) (den (to_double n 100)). destruct (rounding_error n 100 ltac:(lia) ltac:(lia)) as [E1 P1]. pose proof (den_pos (to_double n 100)) as Q1.
  set (p := num (to_double n 100)) in *. set (q := den (to_double n 100)) in *. clearbody p q. destruct (rounding_error (p * 100) q ltac:(lia) Q1) as [E2 P2]. pose proof (den_pos (to_double (p * 100) q)) as Q2.
  set (p' := num (to_double (p * 100) q)) in *. set (q' := den (to_double (p * 100) q)) in *. clearbody p' q'.
  destruct (Z.eq_dec n 0) as [->|H0].
  { assert (p = 0) as -> by nia. assert (p' = 0) as -> by nia. rewrite Z.div_0_l by lia. lia. }
  assert (B : (n - 1) * q' <= p' < (n + 1) * q').
  { set (K := 2 ^ 53) in *. assert (HK : K = 9007199254740992) by reflexivity. assert (HN : n < 2251799813685248) by (apply Hn). clearbody K. subst K.
    (* multiply by q K K *)
    assert (U1 : 9007199254740992 * (p * 100) <= 9007199254740993 * (n * q)) by lia. assert (L1 : 9007199254740991 * (n * q) <= 9007199254740992 * (p * 100)) by lia.
    assert (U2 : 9007199254740992 * (p' * q) <= 9007199254740993 * (p * 100 * q')) by lia. assert (L2 : 9007199254740991 * (p * 100 * q') <= 9007199254740992 * (p' * q)) by lia.
    assert (U : 9007199254740992 * 9007199254740992 * (p' * q) <= 9007199254740993 * 9007199254740993 * (n * q' * q)) by nia.
    assert (L : 9007199254740991 * 9007199254740991 * (n * q' * q) <= 9007199254740992 * 9007199254740992 * (p' * q)) by nia. clear U1 L1 U2 L2 E1 E2 P1 P2.
    assert (U' : 9007199254740992 * 9007199254740992 * p' <= 9007199254740993 * 9007199254740993 * (n * q')) by nia.
    assert (L' : 9007199254740991 * 9007199254740991 * (n * q') <= 9007199254740992 * 9007199254740992 * p') by nia. clear U L.
    assert (n * q' <= 2251799813685247 * q') by nia. split; nia. }
  split; [apply Z.div_le_lower_bound; lia|]. apply Z.lt_succ_r. apply Z.div_lt_upper_bound; lia.
Qed.
Lemma hundredths_whole k : 0 <= k -> 100 * k < 2 ^ 53 -> hundredths (100 * k) = 100 * k.
Proof.
  intros Hk H. unfold hundredths, times100. fold (num (to_double (100 * k) 100)) (den (to_double (100 * k) 100)). pose proof (den_pos (to_double (100 * k) 100)) as Q. replace (100 * k) with (k * 100) in * by ring. rewrite (exact_double k 100) by lia.
  set (q := den (to_double (k * 100) 100)) in *. clearbody q. replace (k * q * 100) with (k * 100 * q) by ring. rewrite exact_double by lia. apply Z.div_mul. pose proof (den_pos (to_double (k * 100 * q) q)). lia.
Qed.
Lemma not_inf n d : 0 <= n -> 0 < d -> n < 2 ^ 1000 * d -> is_inf (to_double n d) = false.
Proof.
  intros Hn Hd H. destruct (rounding_error n d Hn Hd) as [E _]. unfold is_inf. fold (num (to_double n d)) (den (to_double n d)). pose proof (den_pos (to_double n d)) as Q. set (p := num (to_double n d)) in *. set (q := den (to_double n d)) in *. clearbody p q.
  apply Z.leb_gt. assert (p * d <= 2 * (n * q)). { assert (1 <= 2 ^ 53) by lia. nia. } assert (n * q < 2 ^ 1000 * d * q) by nia. assert (p * d < 2 ^ 1001 * q * d) by (change (2 ^ 1001) with (2 * 2 ^ 1000); nia). assert (p < 2 ^ 1001 * q) by nia. apply Z.lt_le_trans with (2 ^ 1001 * q); [assumption|]. apply Z.mul_le_mono_nonneg_r; [lia|]. apply Z.pow_le_mono_r; lia.
Qed.
(** ** The text *)
Lemma digit_facts c : 48 <= c <= 57 -> is_digit c = true /\ is_space c = false /\ (c =? 95) = false.
Proof.
  intros H. assert (C : c = 48 \/ c = 49 \/ c = 50 \/ c = 51 \/ c = 52 \/ c = 53 \/ c = 54 \/ c = 55 \/ c = 56 \/ c = 57) by lia. repeat destruct C as [->|C]; try (subst c); repeat split; reflexivity.
Qed.
Lemma word_digits ds r : Forall (fun c => 48 <= c <= 57) ds -> word (ds ++ r) = ds ++ word r.
Proof. induction 1 as [|c l H F IH]; [reflexivity|]. cbn. rewrite (proj1 (proj2 (digit_facts c H))), IH. reflexivity. Qed.
Lemma drop_digits ds r : Forall (fun c => 48 <= c <= 57) ds -> forall b, ds <> [] -> drop_underscores b (ds ++ r) = (s <- drop_underscores true r ;; Ok (ds ++ s)).
Proof.
  induction 1 as [|c l H F IH]; intros b N; [contradiction N; reflexivity|]. destruct (digit_facts c H) as (D & _ & U). cbn [app drop_underscores]. rewrite U, D. destruct l as [|c' l]; [cbn [app]; destruct (drop_underscores true r); reflexivity|].
  rewrite IH by discriminate. destruct (drop_underscores true r); reflexivity.
Qed.
Lemma span_all ds r : Forall (fun c => 48 <= c <= 57) ds -> match r with c :: _ => is_digit c = false | [] => True end -> span_digits (ds ++ r) = (ds, r).
Proof.
  intros F N. induction F as [|c l H F IH]; [destruct r as [|c r]; [reflexivity|cbn; rewrite N; reflexivity]|]. cbn. rewrite (proj1 (digit_facts c H)), IH. reflexivity.
Qed.
Lemma digits_app a b : digits_to_int (a ++ b) = fold_left (fun x c => x * 10 + (c - 48)) b (digits_to_int a).
Proof. apply fold_left_app. Qed.
Lemma digits_same s : digits_to_int s = digits_value s.
Proof. unfold digits_to_int, digits_value. generalize 0. induction s as [|c s IH]; intros a; [reflexivity|]. cbn [fold_left]. rewrite IH. f_equal. lia. Qed.
Lemma says_hundredths text n : says_uptime text n -> 0 <= n /\ (n < 2 ^ 900 -> getSysUptime (Ok text) = hundredths n).
Proof.
  intros (secs & c1 & c2 & idle & -> & [Sn Sd] & [_ Cd] & ->). inversion Cd as [|? ? H1 Cd']; subst. inversion Cd' as [|? ? H2 _]; subst.
  assert (V : 0 <= digits_value secs). { assert (G : forall l a, Forall (fun c => 48 <= c <= 57) l -> 0 <= a -> 0 <= fold_left (fun a c => 10 * a + (c - 48)) l a) by (clear; intros l; induction l as [|c l IH]; intros a F A; [exact A|]; inversion F; subst; cbn [fold_left]; apply IH; [assumption|lia]). apply G; [exact Sd|lia]. }
  assert (Cv : digits_value [c1; c2] = 10 * (c1 - 48) + (c2 - 48)) by (unfold digits_value; cbn [fold_left]; lia).
  destruct (digit_facts c1 H1) as (D1 & S1 & U1). destruct (digit_facts c2 H2) as (D2 & S2 & U2). split; [rewrite Cv; lia|]. intros Big.
  destruct secs as [|c0 secs]; [contradiction Sn; reflexivity|]. pose proof Sd as Sd0. inversion Sd0 as [|? ? H0 Sd1]; subst. destruct (digit_facts c0 H0) as (D0 & S0 & U0).
  unfold getSysUptime. cbn [bind]. unfold first_word. replace (lstrip is_space ((c0 :: secs) ++ [46; c1; c2] ++ 32 :: idle)) with ((c0 :: secs) ++ [46; c1; c2] ++ 32 :: idle) by (cbn [app lstrip]; rewrite S0; reflexivity).
  replace (match (c0 :: secs) ++ [46; c1; c2] ++ 32 :: idle with [] => Err IndexError | s' => Ok (word s') end) with (Ok (word ((c0 :: secs) ++ [46; c1; c2] ++ 32 :: idle))) by reflexivity. cbn [bind].
  rewrite word_digits by exact Sd. replace (word ([46; c1; c2] ++ 32 :: idle)) with [46; c1; c2] by (cbn; rewrite S1, S2; reflexivity).
  unfold py_float. rewrite drop_digits by (exact Sd || discriminate). replace (drop_underscores true [46; c1; c2]) with (Ok [46; c1; c2]) by (cbn; rewrite U1; cbn; rewrite U2; reflexivity). cbn [bind].
  replace (take_sign ((c0 :: secs) ++ [46; c1; c2])) with (false, (c0 :: secs) ++ [46; c1; c2]).
  2:{ cbn [app]. clear - H0. assert (C : c0 = 48 \/ c0 = 49 \/ c0 = 50 \/ c0 = 51 \/ c0 = 52 \/ c0 = 53 \/ c0 = 54 \/ c0 = 55 \/ c0 = 56 \/ c0 = 57) by lia. repeat destruct C as [C|C]; subst; reflexivity. }
  rewrite span_all by (exact Sd || reflexivity). replace (span_digits [c1; c2]) with ([c1; c2], @nil Z) by (cbn; rewrite D1, D2; reflexivity). cbn [app exponent_part bind].
  change (c0 :: secs ++ [c1; c2]) with ((c0 :: secs) ++ [c1; c2]).
  replace (0 - zlen [c1; c2]) with (-2) by reflexivity. change (Z.max (-2) 0) with 0. change (10 ^ Z.max (- -2) 0) with 100. rewrite Z.pow_0_r, Z.mul_1_r, digits_app, digits_same. cbn [fold_left].
  replace ((digits_value (c0 :: secs) * 10 + (c1 - 48)) * 10 + (c2 - 48)) with (100 * digits_value (c0 :: secs) + digits_value [c1; c2]) by (rewrite Cv; ring).
  set (n := 100 * digits_value (c0 :: secs) + digits_value [c1; c2]) in *. assert (Hn : 0 <= n) by (unfold n; rewrite Cv; lia). clearbody n.
  assert (P9 : 2 ^ 900 <= 2 ^ 990) by (apply Z.pow_le_mono_r; lia). assert (P10 : 2 ^ 1000 = 1024 * 2 ^ 990) by reflexivity.
  rewrite not_inf by lia. unfold int_of. unfold times100 at 1. fold (num (to_double n 100)) (den (to_double n 100)). destruct (rounding_error n 100 Hn ltac:(lia)) as [E1 P1]. rewrite not_inf; [reflexivity|lia|apply den_pos|].
  pose proof (den_pos (to_double n 100)). set (p := num (to_double n 100)) in *. set (q := den (to_double n 100)) in *. clearbody p q. nia.
Qed.
