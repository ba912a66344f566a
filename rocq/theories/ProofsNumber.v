(** * Lemmas about numbers as text (C13, C16, C54, C60). *)
From Coq Require Import ZArith List Bool Lia ZifyBool ZifyNat.
From Verif Require Import PyBase Classes Values Codec SpecBER Bits ProofsText SpecNumber.
Import ListNotations.
Open Scope Z_scope.

Definition accum (a : Z) (s : str) : Z := fold_left (fun a c => 10 * a + (c - 48)) s a.
Lemma accum_app a s t : accum a (s ++ t) = accum (accum a s) t.
Proof. apply fold_left_app. Qed.
Definition tailed (groups : list str) : str := concat (map (fun x => [95] ++ x) groups).
Lemma int_digits_ok s : forall a f z, int_digits s a f = Ok z <->
  exists d groups, (f = false -> d <> []) /\ Forall digit d /\ Forall digit_string groups /\ s = d ++ tailed groups /\ z = accum a (d ++ concat groups).
Proof.
  induction s as [|c s IH]; intros a f z.
  - cbn [int_digits]. split.
    + destruct f; [|discriminate]. intros H. injection H as <-. exists [], []. split; [discriminate|]. repeat split; constructor.
    + intros (d & groups & F & D & G & E & ->). destruct d; [|discriminate]. destruct groups; [|discriminate]. destruct f; [reflexivity|]. elim F; reflexivity.
  - cbn [int_digits]. destruct (is_digit c) eqn:Dc.
    + assert (Hc : digit c) by (unfold is_digit, digit in *; lia). rewrite IH. split.
      * intros (d & groups & _ & D & G & -> & ->). exists (c :: d), groups. split; [discriminate|]. split; [constructor; assumption|]. split; [exact G|]. split; [reflexivity|].
        cbn [app accum fold_left]. unfold accum. f_equal. lia.
      * intros (d & groups & F & D & G & E & ->). destruct d as [|x d].
        -- destruct groups as [|g groups]; [discriminate|]. cbn in E. injection E as -> _. discriminate Dc.
        -- injection E as <- ->. inversion D; subst. exists d, groups. split; [discriminate|]. split; [assumption|]. split; [exact G|]. split; [reflexivity|].
           cbn [app accum fold_left]. unfold accum. f_equal. lia.
    + destruct ((c =? 95) && f) eqn:U.
      * apply andb_prop in U as [U ->]. apply Z.eqb_eq in U as ->. rewrite IH. split.
        -- intros (d & groups & F & D & G & -> & ->). exists [], (d :: groups). split; [discriminate|]. split; [constructor|]. split; [constructor; [split; [apply F; reflexivity|exact D]|exact G]|]. split; reflexivity.
        -- intros (d & groups & F & D & G & E & ->). destruct d as [|x d]; [|injection E as <- _; inversion D as [|? ? X]; subst; unfold digit in X; lia].
           destruct groups as [|g groups]; [discriminate|]. cbn [tailed map concat app] in E. injection E as ->. inversion G as [|? ? [N D'] G']; subst.
           exists g, groups. split; [intros _; exact N|]. split; [exact D'|]. split; [exact G'|]. split; [reflexivity|]. reflexivity.
      * split; [discriminate|]. intros (d & groups & F & D & G & E & ->). exfalso. destruct d as [|x d].
        -- destruct groups as [|g groups]; [discriminate|]. cbn in E. injection E as -> _. rewrite Z.eqb_refl in U. cbn in U. subst f. apply F; reflexivity.
        -- injection E as <- _. inversion D as [|? ? X]; subst. unfold is_digit, digit in *. lia.
Qed.
Lemma lstrip_split p s : exists b, s = b ++ lstrip p s /\ Forall (fun x => p x = true) b.
Proof.
  induction s as [|x s (b & E & F)]; [exists []; split; [reflexivity|constructor]|]. cbn [lstrip]. destruct (p x) eqn:P.
  - exists (x :: b). split; [cbn; congruence|constructor; assumption].
  - exists []. split; [reflexivity|constructor].
Qed.
Lemma strip_split p s : exists b a, s = b ++ strip p s ++ a /\ Forall (fun x => p x = true) b /\ Forall (fun x => p x = true) a.
Proof.
  destruct (lstrip_split p s) as (b & E & F). destruct (lstrip_split p (rev (lstrip p s))) as (a & E2 & F2).
  exists b, (rev a). split; [|split; [exact F|apply Forall_rev; exact F2]]. unfold strip. 
  rewrite <- rev_app_distr, <- E2, rev_involutive. exact E.
Qed.
Lemma is_ws_blank c : is_ws c = true <-> blank c.
Proof. unfold is_ws, blank. lia. Qed.
Lemma last_digit d groups : digit_string d -> Forall digit_string groups -> digit (last (d ++ tailed groups) 0).
Proof.
  intros [N D] G. revert d N D. induction G as [|g groups [Ng Dg] G IH]; intros d N D.
  - cbn [tailed map concat]. rewrite app_nil_r. rewrite Forall_forall in D. apply D. apply last_in. exact N.
  - assert (X : d ++ tailed (g :: groups) = (d ++ [95]) ++ (g ++ tailed groups)) by (cbn [tailed map concat]; rewrite <- !app_assoc; reflexivity).
    rewrite X. specialize (IH g Ng Dg). assert (Y : g ++ tailed groups <> []) by (intros A; apply app_eq_nil in A; tauto).
    destruct (exists_last Y) as (l & x & E). rewrite E in *. rewrite last_last in IH. rewrite app_assoc, last_last. exact IH.
Qed.
Theorem int_of_str_ok s z : py_int_of_str s = Ok z <-> int_text s z.
Proof.
  unfold py_int_of_str. split.
  - destruct (strip_split is_ws s) as (b & a & E & Fb & Fa). destruct (strip is_ws s) as [|c r] eqn:St; [discriminate|].
    assert (Fb' : Forall blank b) by (eapply Forall_impl; [|exact Fb]; intros x; apply is_ws_blank).
    assert (Fa' : Forall blank a) by (eapply Forall_impl; [|exact Fa]; intros x; apply is_ws_blank).
    assert (X : forall body v, int_digits body 0 false = Ok v -> exists groups, body = separated [95] groups /\ groups <> [] /\ Forall digit_string groups /\ v = digits_value (concat groups)).
    { intros body v H. apply int_digits_ok in H as (d & groups & N & D & G & -> & ->). exists (d :: groups). split; [reflexivity|]. split; [discriminate|]. split; [constructor; [split; auto|exact G]|reflexivity]. }
    destruct (Z.eqb_spec c 45) as [->|N1]; [|destruct (Z.eqb_spec c 43) as [->|N2]]; intros H.
    + destruct (int_digits r 0 false) as [v|] eqn:I; [|discriminate]. injection H as <-. destruct (X _ _ I) as (groups & -> & Ng & G & ->).
      exists b, [45], (-1), groups, a. split; [exact E|]. split; [exact Fb'|]. split; [exact Fa'|]. split; [constructor|]. split; [exact Ng|]. split; [exact G|lia].
    + destruct (X _ _ H) as (groups & -> & Ng & G & ->). exists b, [43], 1, groups, a. split; [exact E|]. split; [exact Fb'|]. split; [exact Fa'|]. split; [constructor|]. split; [exact Ng|]. split; [exact G|lia].
    + destruct (X _ _ H) as (groups & Q & Ng & G & ->). rewrite Q in E. exists b, [], 1, groups, a. split; [exact E|]. split; [exact Fb'|]. split; [exact Fa'|]. split; [constructor|]. split; [exact Ng|]. split; [exact G|lia].
  - intros (b & sg & u & groups & a & -> & Fb & Fa & S & N & G & ->). destruct groups as [|g groups]; [contradiction|]. inversion G as [|? ? Gg G']; subst.
    assert (I : int_digits (separated [95] (g :: groups)) 0 false = Ok (digits_value (concat (g :: groups)))).
    { apply int_digits_ok. exists g, groups. destruct Gg as [Ng Dg]. split; [intros _; exact Ng|]. split; [exact Dg|]. split; [exact G'|]. split; reflexivity. }
    assert (L : digit (last (separated [95] (g :: groups)) 0)) by (apply last_digit; assumption).
    assert (Hd : exists c r, separated [95] (g :: groups) = c :: r /\ digit c).
    { destruct Gg as [Ng Dg]. destruct g as [|c g]; [contradiction|]. inversion Dg; subst. exists c. eexists. split; [reflexivity|assumption]. }
    destruct Hd as (c & r & Q & Dc). 
    assert (St : strip is_ws (b ++ (sg ++ separated [95] (g :: groups)) ++ a) = sg ++ separated [95] (g :: groups)).
    { apply strip_surround; [|eapply Forall_impl; [|exact Fb]; intros x; apply is_ws_blank|eapply Forall_impl; [|exact Fa]; intros x; apply is_ws_blank].
      rewrite Q in *. assert (Lw : forall pre, is_ws (last (pre ++ c :: r) 0) = false).
      { intros pre. assert (Y : c :: r <> []) by discriminate. destruct (exists_last Y) as (l & x & E). rewrite E in *. rewrite last_last in L. rewrite app_assoc, last_last. apply digit_not_ws. exact L. }
      split; [destruct S; discriminate|]. split; [destruct S; [apply digit_not_ws; exact Dc|reflexivity|reflexivity]|apply Lw]. }
    rewrite <- app_assoc in St. rewrite St, Q in *. unfold digit in Dc. destruct S; cbn [app].
    + destruct (Z.eqb_spec c 45); [lia|]. destruct (Z.eqb_spec c 43); [lia|]. rewrite I, Z.mul_1_l. reflexivity.
    + change (43 =? 45) with false. change (43 =? 43) with true. cbv iota. rewrite I, Z.mul_1_l. reflexivity.
    + change (45 =? 45) with true. cbv iota. rewrite I. cbn [bind]. replace (-1 * digits_value (concat (g :: groups))) with (- digits_value (concat (g :: groups))) by lia. reflexivity.
Qed.
Lemma int_digits_err s : forall a f e, int_digits s a f = Err e -> e = ValueError.
Proof.
  induction s as [|c s IH]; intros a f e; cbn [int_digits]; [destruct f; [discriminate|intros H; injection H as <-; reflexivity]|].
  destruct (is_digit c); [apply IH|]. destruct ((c =? 95) && f); [apply IH|]. intros H; injection H as <-; reflexivity.
Qed.
Lemma int_of_str_err s e : py_int_of_str s = Err e -> e = ValueError.
Proof.
  unfold py_int_of_str. destruct (strip is_ws s) as [|c r]; [intros H; injection H as <-; reflexivity|].
  destruct (c =? 45); [destruct (int_digits r 0 false) as [v|e'] eqn:I; [discriminate|]; cbn [bind]; intros H; injection H as <-; eapply int_digits_err; exact I|].
  destruct (c =? 43); apply int_digits_err.
Qed.
(** A text has one value. *)
Lemma int_text_fun s a b : int_text s a -> int_text s b -> a = b.
Proof. rewrite <- !int_of_str_ok. congruence. Qed.

(** ** Decimal *)
Lemma dec_digits_value fuel : forall n acc, 0 <= n -> (Z.to_nat (Z.log2 n) < fuel)%nat ->
  exists ds, dec_digits fuel n acc = ds ++ acc /\ digit_string ds /\ digits_value ds = n /\ (hd 0 ds = 48 -> ds = [48]).
Proof.
  induction fuel as [|fu IH]; intros n acc Hn Hf; [lia|]. cbn [dec_digits].
  assert (Hm : 0 <= n mod 10 < 10) by (apply Z.mod_pos_bound; lia). destruct (Z.ltb_spec n 10).
  - exists [48 + n mod 10]. split; [reflexivity|]. split; [split; [discriminate|constructor; [lia|constructor]]|]. rewrite Z.mod_small by lia. split; [unfold digits_value; cbn [fold_left]; lia|]. cbn [hd]. intros ->. reflexivity.
  - destruct (IH (n / 10) (48 + n mod 10 :: acc)) as (ds & E & D & V & Hh).
    + apply Z.div_pos; lia.
    + assert (Z.log2 (n / 10) <= Z.log2 (n / 2)) by (apply Z.log2_le_mono; apply Z.div_le_compat_l; lia).
      assert (Z.log2 (n / 2) = Z.log2 n - 1).
      { change (n / 2) with (n / 2 ^ 1). rewrite <- Z.shiftr_div_pow2, Z.log2_shiftr by lia.
        apply Z.max_r. change 1 with (Z.log2 2). pose proof (Z.log2_le_mono 2 n). lia. }
      pose proof (Z.log2_nonneg (n / 10)). lia.
    + exists (ds ++ [48 + n mod 10]). rewrite E, <- app_assoc. split; [reflexivity|]. destruct D as [Nd D]. split; [split|split].
      * intros A. apply app_eq_nil in A. tauto.
      * apply Forall_app. split; [exact D|]. constructor; [lia|constructor].
      * unfold digits_value in *. rewrite fold_left_app, V. cbn [fold_left]. pose proof (Z.div_mod n 10). lia.
      * destruct ds as [|c ds]; [contradiction|]. cbn [hd app] in *. intros ->. specialize (Hh eq_refl). injection Hh as ->. cbn in V. pose proof (Z.div_mod n 10). lia.
Qed.
Lemma digits_value_pos d : digit_string d -> hd 0 d <> 48 -> 10 ^ (zlen d - 1) <= digits_value d < 10 ^ zlen d.
Proof.
  intros [N D]. induction d as [|c d IH] using rev_ind; [contradiction|]. intros H. clear N. apply Forall_app in D as [D Dc]. inversion Dc as [|? ? Hc _]; subst.
  unfold digits_value. rewrite fold_left_app. cbn [fold_left]. fold (digits_value d). unfold zlen. rewrite app_length. cbn [length].
  destruct d as [|x d].
  - cbn in *. lia.
  - specialize (IH ltac:(discriminate) D H). unfold zlen in IH. replace (Z.of_nat (length (x :: d) + 1) - 1) with (Z.of_nat (length (x :: d))) by lia.
    replace (Z.of_nat (length (x :: d) + 1)) with (Z.succ (Z.of_nat (length (x :: d)))) by lia. rewrite Z.pow_succ_r by lia.
    replace (Z.of_nat (length (x :: d))) with (Z.succ (Z.of_nat (length (x :: d)) - 1)) at 1 by lia. rewrite Z.pow_succ_r by (cbn [length]; lia). lia.
Qed.
Lemma digits_unique : forall d e, Forall digit d -> Forall digit e -> length d = length e -> digits_value d = digits_value e -> d = e.
Proof.
  induction d as [|c d IH] using rev_ind; intros e Hd He L V.
  - destruct e; [reflexivity|discriminate].
  - destruct e as [|y e _] using rev_ind; [rewrite app_length in L; cbn in L; lia|].
    apply Forall_app in Hd as [Hd Hc]. apply Forall_app in He as [He Hy]. inversion Hc as [|? ? C _]; inversion Hy as [|? ? Y _]; subst. unfold digit in *.
    unfold digits_value in V. rewrite !fold_left_app in V. cbn [fold_left] in V. fold (digits_value d) (digits_value e) in V.
    rewrite !app_length in L. cbn in L. rewrite (IH e Hd He ltac:(lia) ltac:(lia)). f_equal. f_equal. lia.
Qed.
Lemma decimal_str z : decimal z (py_str_of_int z).
Proof.
  unfold decimal, py_str_of_int, py_str_of_nat. destruct (Z.ltb_spec z 0).
  - destruct (dec_digits_value (S (Z.to_nat (Z.log2 (- z)))) (- z) [] ltac:(lia) ltac:(lia)) as (ds & E & D & V & Hh). rewrite app_nil_r in E. exists ds. rewrite E. repeat split; try apply D; auto. lia.
  - destruct (dec_digits_value (S (Z.to_nat (Z.log2 z))) z [] ltac:(lia) ltac:(lia)) as (ds & E & D & V & Hh). rewrite app_nil_r in E. exists ds. rewrite E. repeat split; try apply D; auto. lia.
Qed.
Lemma digits_fun d e : digit_string d -> digit_string e -> (hd 0 d = 48 -> d = [48]) -> (hd 0 e = 48 -> e = [48]) -> digits_value d = digits_value e -> d = e.
Proof.
  intros Dd De Hd He V.
  assert (P : forall x, digit_string x -> hd 0 x <> 48 -> 1 <= digits_value x).
  { intros x [N D] H. pose proof (digits_value_pos x (conj N D) H). assert (1 <= 10 ^ (zlen x - 1)); [|lia]. destruct x; [contradiction|]. unfold zlen. cbn [length]. pose proof (Z.pow_pos_nonneg 10 (Z.of_nat (S (length x)) - 1)). lia. }
  destruct (Z.eq_dec (hd 0 d) 48) as [H1|H1], (Z.eq_dec (hd 0 e) 48) as [H2|H2].
  - rewrite (Hd H1), (He H2). reflexivity.
  - rewrite (Hd H1) in *. pose proof (P e De H2). change (digits_value [48]) with 0 in V. lia.
  - rewrite (He H2) in *. pose proof (P d Dd H1). change (digits_value [48]) with 0 in V. lia.
  - pose proof (digits_value_pos d Dd H1) as A. pose proof (digits_value_pos e De H2) as B. rewrite V in A.
    assert (zlen d = zlen e). { 
      assert (0 <= zlen d - 1) by (destruct Dd as [N _]; destruct d; [contradiction|unfold zlen; cbn [length]; lia]).
      assert (0 <= zlen e - 1) by (destruct De as [N _]; destruct e; [contradiction|unfold zlen; cbn [length]; lia]).
      destruct (Z.lt_trichotomy (zlen d) (zlen e)) as [X|[X|X]]; [|exact X|].
      - pose proof (Z.pow_le_mono_r 10 (zlen d) (zlen e - 1)). lia.
      - pose proof (Z.pow_le_mono_r 10 (zlen e) (zlen d - 1)). lia. }
    apply digits_unique; [apply Dd|apply De|unfold zlen in *; lia|exact V].
Qed.
Theorem decimal_iff z s : decimal z s <-> s = py_str_of_int z.
Proof.
  split; [|intros ->; apply decimal_str]. intros (d & D & Hh & V & ->). destruct (decimal_str z) as (e & E & He & Ve & ->).
  rewrite (digits_fun d e) by (assumption || congruence). reflexivity.
Qed.

(** ** Identifiers and addresses *)
Lemma py_join_separated c l : py_join c l = separated [c] l.
Proof.
  destruct l as [|x l]; [reflexivity|]. cbn [separated]. revert x. induction l as [|y l IH]; intros x; [cbn; rewrite app_nil_r; reflexivity|].
  change (py_join c (x :: y :: l)) with (x ++ c :: py_join c (y :: l)). rewrite IH. reflexivity.
Qed.
Lemma join_split c s : py_join c (py_split c s) = s.
Proof.
  induction s as [|x s IH]; [reflexivity|]. cbn [py_split]. destruct (Z.eqb_spec x c) as [->|N].
  - destruct (py_split c s) eqn:E; [destruct s as [|y s]; cbn in E; [discriminate|destruct (y =? c); [discriminate|destruct (py_split c s); discriminate]]|]. cbn [py_join app] in *. congruence.
  - destruct (py_split c s) as [|h t] eqn:E; [cbn in IH; subst s; discriminate E|]. destruct t; cbn [py_join app] in *; congruence.
Qed.
Lemma int_text_chars s z c : int_text s z -> In c s -> c <> 46.
Proof.
  intros (b & sg & u & groups & a & -> & Fb & Fa & S & N & G & _) I ->. rewrite !in_app_iff in I. rewrite !Forall_forall in *. 
  assert (D : forall g, In g groups -> In 46 g -> False) by (intros g Ig I46; destruct (G g Ig) as [_ D]; rewrite Forall_forall in D; specialize (D _ I46); lia).
  destruct I as [I|[I|[I|I]]].
  - specialize (Fb _ I). unfold blank in Fb. lia.
  - destruct S; cbn in I; lia.
  - destruct groups as [|g groups]; [contradiction|]. cbn [separated] in I. apply in_app_iff in I as [I|I]; [eapply D; [left; reflexivity|exact I]|].
    apply in_concat in I as (x & Ix & I). apply in_map_iff in Ix as (g' & <- & Ig). cbn in I. destruct I as [I|I]; [discriminate|]. eapply D; [right; exact Ig|exact I].
  - specialize (Fa _ I). unfold blank in Fa. lia.
Qed.
Lemma int_text_nonempty s z : int_text s z -> s <> [].
Proof.
  intros (b & sg & u & groups & a & -> & _ & _ & _ & N & G & _) E. apply app_eq_nil in E as [_ E]. apply app_eq_nil in E as [_ E]. apply app_eq_nil in E as [E _].
  destruct groups as [|g groups]; [contradiction|]. inversion G as [|? ? [Ng _] _]; subst. cbn [separated] in E. apply app_eq_nil in E as [E _]. contradiction.
Qed.
Lemma split_join_texts parts ns : Forall2 (fun p n => int_text p n) parts ns -> parts <> [] -> py_split 46 (separated [46] parts) = parts.
Proof.
  intros F N. rewrite <- py_join_separated. destruct F as [|p n parts ns P F]; [contradiction|]. clear N. revert p n P. induction F as [|q m parts ns Q F IH]; intros p n P.
  - cbn [py_join]. apply split_nosep. apply Forall_forall. intros x I. eapply int_text_chars; eassumption.
  - change (py_join 46 (p :: q :: parts)) with (p ++ 46 :: py_join 46 (q :: parts)). rewrite split_cons; [rewrite (IH q m Q); reflexivity|].
    apply Forall_forall. intros x I. eapply int_text_chars; eassumption.
Qed.
Lemma mapM_iff {A B} (f : A -> res B) : forall l r, mapM f l = Ok r <-> Forall2 (fun x y => f x = Ok y) l r.
Proof.
  induction l as [|x l IH]; intros r; cbn [mapM].
  - split; [intros H; injection H as <-; constructor|intros H; inversion H; reflexivity].
  - split.
    + destruct (f x) as [y|] eqn:E; [|discriminate]. cbn [bind]. destruct (mapM f l) as [ys|] eqn:M; [|discriminate]. cbn [bind]. intros H. injection H as <-. constructor; [exact E|apply IH; reflexivity].
    + intros H. inversion H as [|? y ? ys E F]; subst. apply IH in F. rewrite E, F. reflexivity.
Qed.
Lemma forall2_weaken {A B} (P Q : A -> B -> Prop) l r : (forall a b, P a b -> Q a b) -> Forall2 P l r -> Forall2 Q l r.
Proof. intros H. induction 1; constructor; auto. Qed.
Theorem oid_text_iff s l : oid_of_str s = Ok l <-> oid_text s l.
Proof.
  unfold oid_of_str. rewrite mapM_iff. split.
  - intros F. destruct (strip_split (Z.eqb 46) s) as (b & a & E & Fb & Fa). exists b, (py_split 46 (strip (Z.eqb 46) s)), a.
    assert (F' : Forall2 (fun p n => int_text p n /\ 0 <= n <= 2 ^ 31 - 1) (py_split 46 (strip (Z.eqb 46) s)) l).
    { eapply forall2_weaken; [|exact F]. intros p n H. cbn beta in H. destruct (py_int_of_str p) as [z|] eqn:I; [|discriminate]. cbn [bind] in H.
      destruct ((z <? 0) || (2147483647 <? z)) eqn:R; [discriminate|]. injection H as <-. split; [apply int_of_str_ok; exact I|lia]. }
    split; [rewrite <- py_join_separated, join_split; exact E|]. split; [eapply Forall_impl; [|exact Fb]; intros x; apply Z.eqb_eq|]. split; [eapply Forall_impl; [|exact Fa]; intros x; apply Z.eqb_eq|].
    split; [|exact F']. intros ->. inversion F' as [X|]. symmetry in X. destruct (strip (Z.eqb 46) s) as [|y t]; cbn in X; [discriminate|]. destruct (y =? 46); [discriminate|]. destruct (py_split 46 t); discriminate.
  - intros (b & parts & a & -> & Fb & Fa & N & F).
    assert (F1 : Forall2 int_text parts l) by (eapply forall2_weaken; [|exact F]; intros ? ? H; apply H).
    assert (Np : parts <> []) by (intros ->; inversion F1; congruence).
    assert (St : strip (Z.eqb 46) (b ++ separated [46] parts ++ a) = separated [46] parts).
    { apply strip_surround; [|eapply Forall_impl; [|exact Fb]; intros x <-; reflexivity|eapply Forall_impl; [|exact Fa]; intros x <-; reflexivity].
      assert (X : forall p n, int_text p n -> forall x, In x p -> (46 =? x) = false) by (intros p n P x I; apply Z.eqb_neq; intros <-; eapply int_text_chars; eauto).
      clear Np F. destruct F1 as [|p n parts ns P F]; [contradiction|]. clear N.
      pose proof (int_text_nonempty _ _ P) as Np. split; [|split].
      - destruct p; [contradiction|discriminate].
      - destruct p as [|x p]; [contradiction|]. cbn. apply (X _ _ P). left. reflexivity.
      - cbn [separated]. revert p n P Np. induction F as [|q m parts ns Q F IH]; intros p n P Np.
        + cbn [map concat]. rewrite app_nil_r. apply (X _ _ P). apply last_in. exact Np.
        + pose proof (int_text_nonempty _ _ Q) as Nq. cbn [map concat]. rewrite <- app_assoc. specialize (IH q m Q Nq).
          assert (Y : q ++ concat (map (fun x => [46] ++ x) parts) <> []) by (intros A; apply app_eq_nil in A; tauto).
          destruct (exists_last Y) as (l0 & x & E). rewrite E in *. rewrite last_last in IH. cbn [app]. change (46 :: l0 ++ [x]) with ((46 :: l0) ++ [x]). rewrite app_assoc, last_last. exact IH. }
    rewrite St, (split_join_texts parts l F1 Np). eapply forall2_weaken; [|exact F]. intros p n [P R]. cbn beta. apply int_of_str_ok in P. rewrite P. cbn [bind].
    replace ((n <? 0) || (2147483647 <? n)) with false by lia. reflexivity.
Qed.
Lemma mapM_err {A B} (f : A -> res B) E : (forall x e, f x = Err e -> e = E) -> forall l e, mapM f l = Err e -> e = E.
Proof.
  intros H. induction l as [|x l IH]; intros e; cbn [mapM]; [discriminate|]. destruct (f x) as [y|e'] eqn:F; cbn [bind]; [|intros X; injection X as <-; eapply H; exact F].
  destruct (mapM f l) as [ys|e'] eqn:M; cbn [bind]; [discriminate|]. intros X. injection X as <-. apply IH. reflexivity.
Qed.
Lemma oid_text_err s e : oid_of_str s = Err e -> e = ValueError.
Proof.
  apply mapM_err. intros x e' H. destruct (py_int_of_str x) as [z|e''] eqn:I; cbn [bind] in H; [|injection H as <-; eapply int_of_str_err; exact I].
  destruct ((z <? 0) || (2147483647 <? z)); [injection H as <-; reflexivity|discriminate].
Qed.
Theorem ip_text_iff c s v : ipaddress_init c (VPyStr s) = Ok v <-> exists l, ip_text s l /\ v = VOct c (VPyStr l).
Proof.
  rewrite ip_accepts. split.
  - intros (p1 & p2 & p3 & p4 & n1 & n2 & n3 & n4 & E & E1 & E2 & E3 & E4 & F & ->). exists [n1; n2; n3; n4]. split; [|reflexivity].
    exists [p1; p2; p3; p4]. split; [rewrite <- py_join_separated, <- E, join_split; reflexivity|]. split; [reflexivity|].
    rewrite !Forall_cons_iff in F. destruct F as (F1 & F2 & F3 & F4 & _). repeat (constructor; [split; [apply int_of_str_ok; assumption|assumption]|]). constructor.
  - intros (l & (parts & E & L & F) & ->). assert (F1 : Forall2 int_text parts l) by (eapply forall2_weaken; [|exact F]; intros ? ? H; apply H).
    assert (Np : parts <> []) by (intros ->; inversion F1; subst; discriminate).
    pose proof (split_join_texts parts l F1 Np) as S. rewrite <- E in S. destruct l as [|n1 [|n2 [|n3 [|n4 [|]]]]]; try discriminate L.
    repeat match goal with F : Forall2 _ _ (_ :: _) |- _ => inversion F; clear F; subst end. repeat match goal with F : Forall2 _ _ [] |- _ => inversion F; clear F; subst end.
    do 8 eexists. split; [exact S|]. repeat match goal with H : _ /\ _ |- _ => destruct H end. repeat (split; [apply int_of_str_ok; eassumption|]). split; [|reflexivity]. rewrite !Forall_cons_iff. repeat (split; [lia|]). constructor.
Qed.
