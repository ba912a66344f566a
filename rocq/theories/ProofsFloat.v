(** * What float() reads is what the grammar of Python says. *)
From Coq Require Import ZArith List Bool Lia.
From Verif Require Import PyBase SpecNumber SpecUptime Uptime ProofsNumber ProofsUptime.
Import ListNotations.
Open Scope Z_scope.

Definition no_digit (r : list Z) : Prop := match r with c :: _ => is_digit c = false | [] => True end.
Definition no_under (r : list Z) : Prop := match r with c :: _ => c <> 95 | [] => True end.
Lemma is_digit_iff c : is_digit c = true <-> 48 <= c <= 57.
Proof. unfold is_digit. rewrite andb_true_iff, !Z.leb_le. tauto. Qed.
Lemma part_facts t ds : digit_part t ds -> Forall (fun c => 48 <= c <= 57) ds /\ ds <> [] /\ exists c r, t = c :: r /\ 48 <= c <= 57.
Proof.
  induction 1 as [c H|c t ds H D (F & N & _)|c t ds H D (F & N & _)]; (split; [constructor; [exact H|assumption || constructor]|split; [discriminate|eexists; eexists; split; [reflexivity|exact H]]]).
Qed.
Lemma drop_part t ds : digit_part t ds -> forall b rest, drop_underscores b (t ++ rest) = (r <- drop_underscores true rest ;; Ok (ds ++ r)).
Proof.
  induction 1 as [c H|c t ds H D IH|c t ds H D IH]; intros b rest; destruct (digit_facts c H) as (Dg & _ & U); cbn [app drop_underscores]; rewrite U, Dg.
  - destruct (drop_underscores true rest); reflexivity.
  - rewrite IH. destruct (drop_underscores true rest); reflexivity.
  - rewrite Z.eqb_refl. destruct (part_facts t ds D) as (_ & _ & c' & r & -> & H'). cbn [app]. rewrite (proj2 (is_digit_iff c') H'). cbn [andb]. rewrite app_comm_cons, IH. destruct (drop_underscores true rest); reflexivity.
Qed.
Lemma drop_other c b r : c <> 95 -> is_digit c = false -> drop_underscores b (c :: r) = (s <- drop_underscores false r ;; Ok (c :: s)).
Proof. intros N D. cbn [drop_underscores]. destruct (Z.eqb_spec c 95); [contradiction|]. rewrite D. reflexivity. Qed.
Lemma drop_any b b' r : no_under r -> drop_underscores b r = drop_underscores b' r.
Proof. intros N. destruct r as [|c r]; [reflexivity|]. cbn in N. cbn [drop_underscores]. destruct (Z.eqb_spec c 95); [contradiction|reflexivity]. Qed.
Lemma drop_nil b s : drop_underscores b s = Ok [] -> s = [].
Proof.
  destruct s as [|c s]; [reflexivity|]. cbn [drop_underscores]. destruct (Z.eqb_spec c 95).
  - destruct s as [|d s]; [discriminate|]. destruct (b && is_digit d) eqn:E; [|discriminate]. intros H. exfalso. cbn [drop_underscores] in H. apply andb_prop in E. destruct E as [_ E].
    apply is_digit_iff in E. destruct (Z.eqb_spec d 95); [lia|]. destruct (drop_underscores (is_digit d) s); discriminate.
  - destruct (drop_underscores (is_digit c) s); discriminate.
Qed.
(** The first character that is left, if no digit, was the first. *)
Lemma drop_head b s c r : drop_underscores b s = Ok (c :: r) -> is_digit c = false -> c <> 95 /\ exists s', s = c :: s' /\ drop_underscores false s' = Ok r.
Proof.
  destruct s as [|x s]; [discriminate|]. cbn [drop_underscores]. destruct (Z.eqb_spec x 95) as [->|N].
  - destruct s as [|d s]; [discriminate|]. destruct (b && is_digit d) eqn:E; [|discriminate]. intros H Dc. exfalso. cbn [drop_underscores] in H. apply andb_prop in E. destruct E as [_ E].
    pose proof (proj1 (is_digit_iff d) E). destruct (Z.eqb_spec d 95); [lia|]. destruct (drop_underscores (is_digit d) s); [|discriminate]. injection H as -> ->. congruence.
  - destruct (drop_underscores (is_digit x) s) as [s'|] eqn:E; [|discriminate]. cbn [bind]. intros H Dc. injection H as -> ->. split; [exact N|]. exists s. rewrite Dc in E. split; [reflexivity|exact E].
Qed.
(** The digits that are left were digits with underscores between. *)
Lemma drop_back ds : Forall (fun c => 48 <= c <= 57) ds -> ds <> [] -> forall b s r, drop_underscores b s = Ok (ds ++ r) -> no_digit r -> no_under s ->
  exists t s', s = t ++ s' /\ digit_part t ds /\ drop_underscores true s' = Ok r.
Proof.
  induction 1 as [|c ds H F IH]; intros N b s r E Nd Nu; [contradiction N; reflexivity|]. destruct s as [|x s]; [discriminate|]. cbn in Nu. cbn [drop_underscores] in E. destruct (Z.eqb_spec x 95); [contradiction|].
  destruct (drop_underscores (is_digit x) s) as [s1|] eqn:E1; [|discriminate]. cbn [bind app] in E. injection E as -> ->. destruct (digit_facts c H) as (Dg & _ & _). rewrite Dg in E1.
  destruct ds as [|c2 ds]; [exists [c], s; split; [reflexivity|]; split; [constructor; exact H|exact E1]|]. destruct s as [|y s]; [discriminate|]. destruct (Z.eq_dec y 95) as [->|Ny].
  - cbn [drop_underscores] in E1. rewrite Z.eqb_refl in E1. destruct s as [|d s]; [discriminate|]. destruct (true && is_digit d) eqn:Ed; [|discriminate]. cbn in Ed. apply is_digit_iff in Ed.
    destruct (IH ltac:(discriminate) false (d :: s) r E1 Nd ltac:(cbn; lia)) as (t & s' & -> & P & R). exists (c :: 95 :: t), s'. split; [reflexivity|]. split; [constructor; assumption|exact R].
  - destruct (IH ltac:(discriminate) true (y :: s) r E1 Nd Ny) as (t & s' & Es & P & R). rewrite Es. exists (c :: t), s'. split; [reflexivity|]. split; [constructor; assumption|exact R].
Qed.
Lemma span_spec s : exists ds r, s = ds ++ r /\ span_digits s = (ds, r) /\ Forall (fun c => 48 <= c <= 57) ds /\ no_digit r.
Proof.
  induction s as [|c s (ds & r & -> & E & F & N)]; [exists [], []; repeat split; constructor|]. cbn [span_digits]. destruct (is_digit c) eqn:D.
  - exists (c :: ds), r. rewrite E. split; [reflexivity|]. split; [reflexivity|]. split; [constructor; [apply is_digit_iff; exact D|exact F]|exact N].
  - exists [], (c :: ds ++ r). repeat split; [constructor|exact D].
Qed.
Lemma sign_drop sg neg : sign_part sg neg -> forall b rest, drop_underscores b (sg ++ rest) = (r <- drop_underscores (match sg with [] => b | _ => false end) rest ;; Ok (sg ++ r)).
Proof. destruct 1; intros b rest; [cbn [app]; destruct (drop_underscores b rest); reflexivity| |]; reflexivity. Qed.
Lemma sign_take sg neg : sign_part sg neg -> forall rest, match rest with c :: _ => c <> 45 /\ c <> 43 | [] => True end -> take_sign (sg ++ rest) = (neg, rest).
Proof.
  destruct 1; intros rest H; try reflexivity. destruct rest as [|c r]; [reflexivity|]. cbn [app]. destruct H as [H1 H2]. unfold take_sign.
  destruct c as [|p|p]; try reflexivity. do 6 (destruct p as [p|p|]; try reflexivity); exfalso; lia.
Qed.
Lemma take_cases s : exists sg neg r, s = sg ++ r /\ take_sign s = (neg, r) /\ sign_part sg neg.
Proof.
  destruct s as [|c r]; [exists [], false, []; repeat split; constructor|]. destruct (Z.eq_dec c 45) as [->|N]; [exists [45], true, r; repeat split; constructor|]. destruct (Z.eq_dec c 43) as [->|N']; [exists [43], false, r; repeat split; constructor|].
  exists [], false, (c :: r). split; [reflexivity|]. split; [|constructor]. apply (sign_take [] false SP_none (c :: r)). split; assumption.
Qed.
Lemma point_cases (r : list Z) : (exists r', r = 46 :: r') \/ (forall A (f : list Z -> A) (d : A), match r with 46 :: r' => f r' | _ => d end = d).
Proof.
  destruct r as [|c r]; [right; reflexivity|]. destruct (Z.eq_dec c 46) as [->|N]; [left; exists r; reflexivity|]. right. intros A f d. destruct c as [|p|p]; try reflexivity. do 6 (destruct p as [p|p|]; try reflexivity); exfalso; lia.
Qed.
(** ** The exponent *)
Lemma exponent_drop et e : exponent_text et e -> forall b, exists s, drop_underscores b et = Ok s /\ exponent_part s = Ok e /\ no_digit s /\ match s with 46 :: _ => False | _ => True end.
Proof.
  destruct 1 as [|c sg neg t ds C S D]; intros b; [exists []; repeat split|]. assert (Dc : is_digit c = false) by (destruct C as [->| ->]; reflexivity). assert (Nc : c <> 95) by lia.
  destruct (part_facts t ds D) as (F & Ne & _). exists (c :: sg ++ ds). split.
  - rewrite drop_other by assumption. rewrite (sign_drop sg neg S). rewrite <- (app_nil_r t), (drop_part t ds D). cbn [drop_underscores bind]. rewrite app_nil_r. reflexivity.
  - split; [|split; [exact Dc|destruct C as [->| ->]; exact Logic.I]]. cbn [exponent_part]. replace ((c =? 101) || (c =? 69)) with true by (destruct C as [->| ->]; reflexivity).
    rewrite (sign_take sg neg S). 2:{ destruct ds as [|d ds]; [exact Logic.I|]. inversion F; subst. lia. }
    rewrite <- (app_nil_r ds) at 1. rewrite span_all by (exact F || exact Logic.I). destruct ds as [|d ds]; [contradiction Ne; reflexivity|]. rewrite digits_same. reflexivity.
Qed.
Lemma exponent_back s s3 e b : drop_underscores b s = Ok s3 -> exponent_part s3 = Ok e -> exponent_text s e.
Proof.
  intros Dr X. destruct s3 as [|c r]; [apply drop_nil in Dr; subst; injection X as <-; constructor|]. cbn [exponent_part] in X. destruct ((c =? 101) || (c =? 69)) eqn:C; [|discriminate].
  assert (Hc : c = 69 \/ c = 101) by (apply orb_prop in C; destruct C as [C|C]; apply Z.eqb_eq in C; auto). assert (Dc : is_digit c = false) by (destruct Hc as [->| ->]; reflexivity).
  destruct (drop_head b s c r Dr Dc) as (_ & s' & -> & E). destruct (take_cases r) as (sg & neg & r1 & -> & Et & S). rewrite Et in X. destruct (span_spec r1) as (ds & r2 & -> & Es & F & Nd). rewrite Es in X.
  destruct ds as [|d ds]; [discriminate|]. destruct r2; [|discriminate]. rewrite app_nil_r in E. injection X as <-. rewrite digits_same.
  assert (G : exists s'', s' = sg ++ s'' /\ no_under s'' /\ exists b', drop_underscores b' s'' = Ok (d :: ds)).
  { inversion F as [|? ? Hd Fd]; subst. destruct S; cbn [app] in E.
    - exists s'. split; [reflexivity|]. split; [|exists false; exact E]. destruct s' as [|y s']; [exact Logic.I|]. cbn. intros ->. cbn in E. destruct s'; discriminate.
    - destruct (drop_head _ _ _ _ E eq_refl) as (_ & s'' & -> & E'). exists s''. split; [reflexivity|]. split; [|exists false; exact E']. destruct s'' as [|y s'']; [exact Logic.I|]. cbn. intros ->. cbn in E'. destruct s''; discriminate.
    - destruct (drop_head _ _ _ _ E eq_refl) as (_ & s'' & -> & E'). exists s''. split; [reflexivity|]. split; [|exists false; exact E']. destruct s'' as [|y s'']; [exact Logic.I|]. cbn. intros ->. cbn in E'. destruct s''; discriminate. }
  destruct G as (s'' & -> & Nu & b' & E'). rewrite <- (app_nil_r (d :: ds)) in E'. destruct (drop_back _ F ltac:(discriminate) _ _ _ E' Logic.I Nu) as (t & s4 & -> & P & R). apply drop_nil in R. subst. rewrite app_nil_r. constructor; assumption.
Qed.
(** ** The whole number *)
Definition the_double (ds : list Z) (x : Z) : dbl := to_double (digits_value ds * 10 ^ Z.max x 0) (10 ^ Z.max (- x) 0).
Lemma false_start s s' : drop_underscores false s = Ok s' -> no_under s.
Proof. destruct s as [|c s]; [intros; exact Logic.I|]. intros E. cbn. intros ->. cbn in E. destruct s; discriminate. Qed.
(** After a mantissa has been read: what the rest of py_float does. *)
Definition rest_of (neg : bool) (s1 : str) : res (bool * dbl) :=
  let '(ip, s2) := span_digits s1 in
  let '(fp, s3) := match s2 with 46 :: r => span_digits r | _ => ([], s2) end in
  match ip ++ fp with
  | [] => Err ValueError
  | _ => ex <- exponent_part s3 ;;
         let x := ex - zlen fp in
         Ok (neg, to_double (digits_to_int (ip ++ fp) * 10 ^ Z.max x 0) (10 ^ Z.max (- x) 0))
  end.
Lemma py_float_eq s : py_float s = (s <- drop_underscores false s ;; let '(neg, s1) := take_sign s in rest_of neg s1).
Proof. reflexivity. Qed.
Lemma rest_point neg ip fp s3 e : Forall (fun c => 48 <= c <= 57) ip -> Forall (fun c => 48 <= c <= 57) fp -> ip ++ fp <> [] -> no_digit s3 -> exponent_part s3 = Ok e ->
  rest_of neg (ip ++ 46 :: fp ++ s3) = Ok (neg, the_double (ip ++ fp) (e - zlen fp)).
Proof.
  intros Fi Ff N Nd E. unfold rest_of. rewrite (span_all ip) by (exact Fi || reflexivity). rewrite (span_all fp) by assumption. destruct (ip ++ fp) as [|c l] eqn:Eq; [contradiction N; reflexivity|]. rewrite E. cbn [bind]. unfold the_double. rewrite digits_same. reflexivity.
Qed.
Lemma rest_plain neg ip s3 e : Forall (fun c => 48 <= c <= 57) ip -> ip <> [] -> no_digit s3 -> match s3 with 46 :: _ => False | _ => True end -> exponent_part s3 = Ok e ->
  rest_of neg (ip ++ s3) = Ok (neg, the_double ip (e - 0)).
Proof.
  intros Fi N Nd Np E. unfold rest_of. rewrite (span_all ip) by assumption. destruct (point_cases s3) as [(r' & ->)|P]; [contradiction Np|]. cbv beta iota. match goal with |- (let '(_, _) := ?m in _) = _ => replace m with (([] : str), s3) by (symmetry; exact (P _ span_digits ([], s3))) end. rewrite app_nil_r. destruct ip as [|c l]; [contradiction N; reflexivity|]. rewrite E. cbn [bind]. unfold the_double. rewrite digits_same. reflexivity.
Qed.
Theorem float_complete w neg ds x : float_text w neg ds x -> py_float w = Ok (neg, the_double ds x).
Proof.
  intros (sg & mt & k & et & e & -> & S & M & X & ->). rewrite py_float_eq.
  assert (G : forall b, exists s1, drop_underscores b (mt ++ et) = Ok s1 /\ rest_of neg s1 = Ok (neg, the_double ds (e - k)) /\ match s1 with c :: _ => c <> 45 /\ c <> 43 | [] => True end).
  { intros b. destruct M as [t ds D|t ds D|t ds D|t ds t' ds' D D'].
    - destruct (exponent_drop et e X true) as (s & Dr & Ex & Nd & Np). destruct (part_facts t ds D) as (F & N & _). exists (ds ++ s). rewrite (drop_part t ds D), Dr. split; [reflexivity|]. split; [apply rest_plain; assumption|].
      destruct ds as [|c ds]; [contradiction N; reflexivity|]. inversion F; subst. cbn. lia.
    - destruct (exponent_drop et e X false) as (s & Dr & Ex & Nd & Np). destruct (part_facts t ds D) as (F & N & _). exists (ds ++ 46 :: [] ++ s). rewrite <- app_assoc, (drop_part t ds D). cbn [app]. rewrite drop_other by (discriminate || reflexivity).
      rewrite Dr. split; [reflexivity|]. split; [|destruct ds as [|c ds]; [contradiction N; reflexivity|]; inversion F; subst; cbn; lia].
      change (46 :: s) with (46 :: [] ++ s). rewrite (rest_point neg ds [] s e); try assumption; [rewrite app_nil_r; reflexivity|constructor|rewrite app_nil_r; exact N].
    - destruct (exponent_drop et e X true) as (s & Dr & Ex & Nd & Np). destruct (part_facts t ds D) as (F & N & _). exists ([] ++ 46 :: ds ++ s). cbn [app]. rewrite drop_other by (discriminate || reflexivity). rewrite (drop_part t ds D), Dr. split; [reflexivity|].
      split; [|cbn; lia]. change (46 :: ds ++ s) with ([] ++ 46 :: ds ++ s). apply (rest_point neg [] ds s e); try assumption. constructor.
    - destruct (exponent_drop et e X true) as (s & Dr & Ex & Nd & Np). destruct (part_facts t ds D) as (F & N & _). destruct (part_facts t' ds' D') as (F' & N' & _). exists (ds ++ 46 :: ds' ++ s). rewrite <- app_assoc, (drop_part t ds D). cbn [app].
      rewrite drop_other by (discriminate || reflexivity). rewrite (drop_part t' ds' D'), Dr. split; [reflexivity|]. split; [|destruct ds as [|c ds]; [contradiction N; reflexivity|]; inversion F; subst; cbn; lia].
      apply (rest_point neg ds ds' s e); try assumption. intros Q; apply app_eq_nil in Q; tauto. }
  rewrite (sign_drop sg neg S). destruct (G (match sg with [] => false | _ => false end)) as (s1 & Dr & R & H). rewrite Dr. cbn [bind]. rewrite (sign_take sg neg S s1 H). exact R.
Qed.
Theorem float_sound w r : py_float w = Ok r -> exists neg ds x, float_text w neg ds x /\ r = (neg, the_double ds x).
Proof.
  rewrite py_float_eq. destruct (drop_underscores false w) as [s|] eqn:E; [|discriminate]. cbn [bind]. destruct (take_cases s) as (sg & neg & s1 & -> & Et & S). rewrite Et. intros R.
  assert (G : exists w1, w = sg ++ w1 /\ drop_underscores false w1 = Ok s1).
  { destruct S; [exists w; split; [reflexivity|exact E]| |]; destruct (drop_head _ _ _ _ E eq_refl) as (_ & w1 & -> & E1); exists w1; split; reflexivity || exact E1. }
  destruct G as (w1 & -> & E1). clear E Et. pose proof (false_start _ _ E1) as Nu. unfold rest_of in R. destruct (span_spec s1) as (ip & s2 & -> & Es & Fi & Nd). rewrite Es in R.
  assert (H : forall ds x r', Ok (neg, to_double (digits_to_int ds * 10 ^ Z.max x 0) (10 ^ Z.max (- x) 0)) = Ok r' -> r' = (neg, the_double ds x)). { intros ds x r' Q. injection Q as <-. rewrite digits_same. reflexivity. }
  assert (Q : exists mt et s3 k fp b, w1 = mt ++ et /\ mantissa_part mt (ip ++ fp) k /\ k = zlen fp /\ drop_underscores b et = Ok s3 /\
    match ip ++ fp with [] => Err ValueError | _ => ex <- exponent_part s3 ;; Ok (neg, to_double (digits_to_int (ip ++ fp) * 10 ^ Z.max (ex - zlen fp) 0) (10 ^ Z.max (- (ex - zlen fp)) 0)) end = Ok r).
  { destruct (point_cases s2) as [(r2 & ->)|P].
    - destruct (span_spec r2) as (fp & s3 & -> & Es2 & Ff & Nd2). rewrite Es2 in R. assert (Dot : forall b s'', drop_underscores b s'' = Ok (46 :: fp ++ s3) -> exists s4, s'' = 46 :: s4 /\ drop_underscores false s4 = Ok (fp ++ s3)).
      { intros b s'' Hd. destruct (drop_head _ _ _ _ Hd eq_refl) as (_ & s4 & -> & Hd'). exists s4. split; [reflexivity|exact Hd']. }
      assert (A : exists pre, (ip = [] /\ pre = [] \/ digit_part pre ip) /\ exists b s'', w1 = pre ++ s'' /\ drop_underscores b s'' = Ok (46 :: fp ++ s3)).
      { destruct ip as [|c ip]; [exists []; split; [left; split; reflexivity|]; exists false, w1; split; [reflexivity|exact E1]|].
        destruct (drop_back _ Fi ltac:(discriminate) _ _ _ E1 ltac:(reflexivity) Nu) as (t & s' & -> & D & E2). exists t. split; [right; exact D|]. exists true, s'. split; [reflexivity|exact E2]. }
      destruct A as (pre & Hp & b & s'' & -> & E2). destruct (Dot _ _ E2) as (s4 & -> & E3). pose proof (false_start _ _ E3) as Nu4.
      destruct fp as [|f fp].
      + destruct Hp as [(-> & ->)|D]; [discriminate|]. exists (pre ++ [46]), s4, s3, 0, [], false. rewrite <- app_assoc. split; [reflexivity|]. split; [rewrite app_nil_r; constructor; exact D|]. split; [reflexivity|]. split; [exact E3|exact R].
      + destruct (drop_back _ Ff ltac:(discriminate) _ _ _ E3 Nd2 Nu4) as (t & s' & -> & D' & E4). destruct Hp as [(-> & ->)|D].
        * exists (46 :: t), s', s3, (zlen (f :: fp)), (f :: fp), true. split; [reflexivity|]. split; [cbn [app]; apply (MP_start t (f :: fp)); exact D'|]. split; [reflexivity|]. split; [exact E4|exact R].
        * exists (pre ++ 46 :: t), s', s3, (zlen (f :: fp)), (f :: fp), true. split; [rewrite <- app_assoc; reflexivity|]. split; [apply (MP_mid pre ip t (f :: fp)); assumption|]. split; [reflexivity|]. split; [exact E4|exact R].
    - match type of R with (let '(_, _) := ?m in _) = _ => replace m with (([] : str), s2) in R by (symmetry; exact (P _ span_digits ([], s2))) end. destruct ip as [|c ip]; [discriminate|]. destruct (drop_back _ Fi ltac:(discriminate) _ _ _ E1 Nd Nu) as (t & s' & -> & D & E2). exists t, s', s2, 0, [], true. split; [reflexivity|]. split; [rewrite app_nil_r; constructor; exact D|].
      split; [reflexivity|]. split; [exact E2|exact R]. }
  destruct Q as (mt & et & s3 & k & fp & b & -> & M & -> & Dr & R'). destruct (exponent_part s3) as [e|] eqn:Ee; [|destruct (ip ++ fp); discriminate]. exists neg, (ip ++ fp), (e - zlen fp). split.
  - exists sg, mt, (zlen fp), et, e. split; [reflexivity|]. split; [exact S|]. split; [exact M|]. split; [exact (exponent_back _ _ _ _ Dr Ee)|reflexivity].
  - apply H. destruct (ip ++ fp); [discriminate|exact R'].
Qed.
(** ** The first word *)
Lemma space_iff c : is_space c = true <-> white c.
Proof.
  unfold is_space, white. rewrite !orb_true_iff, !andb_true_iff, !Z.leb_le, !Z.eqb_eq. cbn [In]. split; intros H; lia.
Qed.
Lemma space_not c : is_space c = false <-> ~ white c.
Proof. rewrite <- space_iff. destruct (is_space c); split; congruence. Qed.
Lemma strip_white b s : Forall white b -> lstrip is_space (b ++ s) = lstrip is_space s.
Proof. induction 1 as [|c b H F IH]; [reflexivity|]. cbn [app lstrip]. rewrite (proj2 (space_iff c) H). exact IH. Qed.
Lemma first_word_iff text w : begins_with text w -> first_word text = Ok w.
Proof.
  intros (b & a & -> & B & N & W & A). unfold first_word. rewrite strip_white by exact B. destruct w as [|c w]; [contradiction N; reflexivity|]. inversion W as [|? ? Hc Hw]; subst. cbn [app lstrip]. rewrite (proj2 (space_not c) Hc).
  f_equal. rewrite app_comm_cons. clear N B b Hc Hw. induction W as [|x l H F IH].
  - destruct a as [|x a]; [reflexivity|]. cbn. rewrite (proj2 (space_iff x) A). reflexivity.
  - cbn [app word]. rewrite (proj2 (space_not x) H). f_equal. exact IH.
Qed.
Lemma blank_word text : Forall white text -> first_word text = Err IndexError.
Proof. intros F. unfold first_word. rewrite <- (app_nil_r text), strip_white by exact F. reflexivity. Qed.
(** Every text is blank or begins with a word. *)
Lemma words text : Forall white text \/ exists w, begins_with text w.
Proof.
  induction text as [|c t [F|(w & b & a & -> & B & N & W & A)]]; [left; constructor| |]; destruct (is_space c) eqn:S.
  - left. constructor; [apply space_iff; exact S|exact F].
  - right. exists [c]. exists [], t. split; [reflexivity|]. split; [constructor|]. split; [discriminate|]. split; [constructor; [apply space_not; exact S|constructor]|]. destruct F; [exact Logic.I|assumption].
  - right. exists w, (c :: b), a. split; [reflexivity|]. split; [constructor; [apply space_iff; exact S|exact B]|]. repeat split; assumption.
  - right. destruct b as [|x b].
    + exists (c :: w), [], a. split; [reflexivity|]. split; [constructor|]. split; [discriminate|]. split; [constructor; [apply space_not; exact S|exact W]|exact A].
    + exists [c], [], (x :: b ++ w ++ a). split; [reflexivity|]. split; [constructor|]. split; [discriminate|]. split; [constructor; [apply space_not; exact S|constructor]|]. inversion B; assumption.
Qed.
(** ** The number that comes out *)
Lemma double_is n d : 0 <= n -> 0 < d -> double_of n d (num (to_double n d)) (den (to_double n d)).
Proof.
  intros Hn Hd. destruct (Z.eq_dec n 0) as [->|H]; [left; repeat split|]. right. split; [lia|]. exists (fm (to_double n d)), (fe (to_double n d)). split; [apply to_double_nearest; lia|]. split; reflexivity.
Qed.
Lemma digits_nonneg ds : Forall (fun c => 48 <= c <= 57) ds -> 0 <= digits_value ds.
Proof.
  unfold digits_value. assert (G : forall a, 0 <= a -> Forall (fun c => 48 <= c <= 57) ds -> 0 <= fold_left (fun a c => 10 * a + (c - 48)) ds a).
  { induction ds as [|c ds IH]; intros a Ha F; [exact Ha|]. inversion F; subst. cbn [fold_left]. apply IH; [lia|assumption]. }
  apply G. lia.
Qed.
Lemma mantissa_digits mt ds k : mantissa_part mt ds k -> Forall (fun c => 48 <= c <= 57) ds.
Proof. destruct 1 as [t ds D|t ds D|t ds D|t ds t' ds' D D']; try apply Forall_app; try split; eapply part_facts; eassumption. Qed.
Lemma inf_iff x : is_inf x = true <-> 2 ^ 1024 * den x <= num x.
Proof. unfold is_inf. fold (num x) (den x). apply Z.leb_le. Qed.
Theorem uptime_number text w neg ds x : begins_with text w -> float_text w neg ds x ->
  hundredths_of neg (digits_value ds * 10 ^ Z.max x 0) (10 ^ Z.max (- x) 0) (getSysUptime (Ok text)).
Proof.
  intros B F. pose proof (float_complete w neg ds x F) as P. unfold getSysUptime. cbn [bind]. rewrite (first_word_iff text w B). cbn [bind]. rewrite P. cbn [bind].
  assert (Hn : 0 <= digits_value ds * 10 ^ Z.max x 0). { destruct F as (? & ? & ? & ? & ? & _ & _ & M & _). apply Z.mul_nonneg_nonneg; [eapply digits_nonneg, mantissa_digits, M|apply Z.pow_nonneg; lia]. }
  assert (Hd : 0 < 10 ^ Z.max (- x) 0) by (apply Z.pow_pos_nonneg; lia). unfold the_double. set (n := digits_value ds * 10 ^ Z.max x 0) in *. set (d := 10 ^ Z.max (- x) 0) in *. clearbody n d.
  exists (num (to_double n d)), (den (to_double n d)). split; [apply double_is; assumption|]. pose proof (inf_iff (to_double n d)) as I1. destruct (is_inf (to_double n d)); [left; split; [apply I1; reflexivity|reflexivity]|].
  right. split. { destruct (Z.lt_ge_cases (num (to_double n d)) (2 ^ 1024 * den (to_double n d))) as [Q|Q]; [exact Q|]. apply I1 in Q. discriminate. }
  unfold times100. fold (num (to_double n d)) (den (to_double n d)). destruct (rounding_error n d Hn Hd) as [_ P0]. pose proof (den_pos (to_double n d)) as Q0. set (v := num (to_double n d)) in *. set (q := den (to_double n d)) in *. clearbody v q.
  exists (num (to_double (v * 100) q)), (den (to_double (v * 100) q)). split; [apply double_is; lia|]. pose proof (inf_iff (to_double (v * 100) q)) as I2. unfold int_of. destruct (is_inf (to_double (v * 100) q)); [left; split; [apply I2; reflexivity|reflexivity]|].
  right. split. { destruct (Z.lt_ge_cases (num (to_double (v * 100) q)) (2 ^ 1024 * den (to_double (v * 100) q))) as [Q|Q]; [exact Q|]. apply I2 in Q. discriminate. } cbn [bind]. destruct neg; reflexivity.
Qed.
Theorem uptime_no_number text w : begins_with text w -> (forall neg ds x, ~ float_text w neg ds x) -> getSysUptime (Ok text) = 0.
Proof.
  intros B N. unfold getSysUptime. cbn [bind]. rewrite (first_word_iff text w B). cbn [bind]. destruct (py_float w) as [r|] eqn:E; [|reflexivity]. destruct (float_sound w r E) as (neg & ds & x & F & _). destruct (N _ _ _ F).
Qed.
(** There is one nearest double, so the text determines the time stamp. *)
Lemma pow_apart e e' : e < e' -> 2 * (2 ^ Z.max e 0 * 2 ^ Z.max (- e') 0) <= 2 ^ Z.max e' 0 * 2 ^ Z.max (- e) 0.
Proof.
  intros H. rewrite <- !Z.pow_add_r by lia. rewrite <- Z.pow_succ_r by lia. apply Z.pow_le_mono_r; lia.
Qed.
Lemma exponents_agree n d m e m' e' : 0 < d -> nearest_double n d m e -> nearest_double n d m' e' -> e <= e'.
Proof.
  intros Hd ((L & U) & _) ((L' & U') & _). destruct (Z.le_gt_cases e e') as [H|H]; [exact H|]. exfalso. pose proof (pow_apart e' e H) as P. change (2 ^ 53) with (2 * 2 ^ 52) in *. set (K := 2 ^ 52) in *. assert (0 < K) by reflexivity. clearbody K.
  assert (0 < 2 ^ Z.max (- e) 0) by (apply Z.pow_pos_nonneg; lia). assert (0 < 2 ^ Z.max (- e') 0) by (apply Z.pow_pos_nonneg; lia).
  set (p := 2 ^ Z.max e 0) in *. set (q := 2 ^ Z.max (- e) 0) in *. set (p' := 2 ^ Z.max e' 0) in *. set (q' := 2 ^ Z.max (- e') 0) in *. clearbody p q p' q'.
  assert (A : K * (d * p) * q' <= n * q * q') by (apply Z.mul_le_mono_nonneg_r; lia). assert (B : n * q' * q < 2 * K * (d * p') * q) by (apply Z.mul_lt_mono_pos_r; lia).
  assert (C : K * d * (2 * (p' * q)) <= K * d * (p * q')) by (apply Z.mul_le_mono_nonneg_l; [nia|exact P]). nia.
Qed.
Lemma nearest_unique n d m e m' e' : 0 < d -> nearest_double n d m e -> nearest_double n d m' e' -> m = m' /\ e = e'.
Proof.
  intros Hd N N'. assert (E : e = e') by (apply Z.le_antisymm; eapply exponents_agree; eassumption). subst e'. split; [|reflexivity]. destruct N as (_ & A & B). destruct N' as (_ & A' & B').
  assert (Hp : 0 < 2 ^ Z.max e 0) by (apply Z.pow_pos_nonneg; lia). assert (HX : 0 < d * 2 ^ Z.max e 0) by nia. set (X := d * 2 ^ Z.max e 0) in *. set (Y := n * 2 ^ Z.max (- e) 0) in *. clearbody X Y.
  destruct (Z.eq_dec m m') as [Q|Q]; [exact Q|]. exfalso. assert (K : m' = m + 1 \/ m = m' + 1) by nia. assert (E1 : 2 * Z.abs (m * X - Y) = X) by (destruct K; subst; nia). assert (E2 : 2 * Z.abs (m' * X - Y) = X) by (destruct K; subst; nia).
  specialize (B E1). specialize (B' E2). destruct K; subst; rewrite Z.even_add in *; rewrite ?B, ?B' in *; discriminate.
Qed.
Lemma double_unique n d v w v' w' : 0 < d -> double_of n d v w -> double_of n d v' w' -> v = v' /\ w = w' /\ 0 < w.
Proof.
  intros Hd [(-> & -> & ->)|(H & m & e & N & -> & ->)] [(H' & -> & ->)|(H' & m' & e' & N' & -> & ->)]; try lia. destruct (nearest_unique _ _ _ _ _ _ Hd N N') as [-> ->]. repeat split. apply Z.pow_pos_nonneg; lia.
Qed.
Theorem hundredths_unique neg n d z z' : 0 < d -> hundredths_of neg n d z -> hundredths_of neg n d z' -> z = z'.
Proof.
  intros Hd (v & w & D & H) (v2 & w2 & D2 & H2). destruct (double_unique _ _ _ _ _ _ Hd D D2) as (<- & <- & Hw). set (B := 2 ^ 1024) in *. clearbody B.
  destruct H as [(? & ->)|(L & v' & w' & E & H)]; destruct H2 as [(? & ->)|(L2 & v2' & w2' & E2 & H2)]; try lia. destruct (double_unique _ _ _ _ _ _ Hw E E2) as (<- & <- & _).
  destruct H as [(? & ->)|(? & ->)]; destruct H2 as [(? & ->)|(? & ->)]; lia.
Qed.
Lemma float_head c w neg ds x : float_text (c :: w) neg ds x -> 43 <= c <= 57.
Proof.
  intros (sg & mt & k & et & e & E & S & M & _). assert (H : exists y r, mt = y :: r /\ 43 <= y <= 57).
  { destruct M as [t ds D|t ds D|t ds D|t ds t' ds' D D']; try (destruct (part_facts t ds D) as (_ & _ & y & r & -> & B); eexists; eexists; split; [reflexivity|lia]). }
  destruct H as (y & r & -> & B). destruct S; injection E as -> _; lia.
Qed.
Lemma uptime_other c r : ~ white c -> ~ 43 <= c <= 57 -> getSysUptime (Ok (c :: r)) = 0.
Proof.
  intros W N. destruct (words (c :: r)) as [F|(w & B)]; [inversion F; contradiction|]. apply (uptime_no_number _ w B). intros neg ds x F. destruct B as (b & a & E & Bw & Ne & _ & _). destruct b as [|y b].
  - destruct w as [|z w]; [contradiction Ne; reflexivity|]. injection E as -> _. apply N. eapply float_head, F.
  - injection E as -> _. inversion Bw; contradiction.
Qed.
