(** * Lemmas for text forms, prefix order and sequence operations (C13-C16). *)
From Coq Require Import ZArith List Bool Lia ZifyBool ZifyNat.
From Verif Require Import PyBase Classes Values Codec SpecBER Bits.
Import ListNotations.
Open Scope Z_scope.
Ltac Zify.zify_post_hook ::= Z.div_mod_to_equations.

(** ** Decimal *)
Definition digit (c : Z) : Prop := 48 <= c <= 57.

Lemma int_digits_digit c r a f : digit c -> int_digits (c :: r) a f = int_digits r (a * 10 + (c - 48)) true.
Proof.
  intros H. cbn [int_digits]. unfold is_digit, digit in *.
  destruct (Z.leb_spec 48 c); [|lia]. destruct (Z.leb_spec c 57); [|lia]. reflexivity.
Qed.

Lemma dec_digits_spec fuel : forall n acc, 0 <= n -> (Z.to_nat (Z.log2 n) < fuel)%nat ->
  exists ds, dec_digits fuel n acc = ds ++ acc /\ ds <> [] /\ Forall digit ds /\
    forall a f rest, int_digits (ds ++ rest) a f = int_digits rest (a * 10 ^ zlen ds + n) true.
Proof.
  induction fuel as [|fu IH]; intros n acc Hn Hf; [lia|]. cbn [dec_digits].
  assert (Hm : 0 <= n mod 10 < 10) by (apply Z.mod_pos_bound; lia).
  destruct (Z.ltb_spec n 10).
  - exists [48 + n mod 10]. repeat split; [discriminate| |].
    + constructor; [unfold digit; lia|constructor].
    + intros a f rest. cbn [app]. rewrite int_digits_digit by (unfold digit; lia).
      f_equal. change (zlen [48 + n mod 10]) with 1. rewrite Z.mod_small by lia. lia.
  - destruct (IH (n / 10) (48 + n mod 10 :: acc)) as (ds & E & Hne & D & V).
    + lia.
    + assert (Z.log2 (n / 10) <= Z.log2 (n / 2)) by (apply Z.log2_le_mono; lia).
      assert (Z.log2 (n / 2) = Z.log2 n - 1).
      { change (n / 2) with (n / 2 ^ 1). rewrite <- Z.shiftr_div_pow2, Z.log2_shiftr by lia.
        apply Z.max_r. change 1 with (Z.log2 2). pose proof (Z.log2_le_mono 2 n). lia. }
      pose proof (Z.log2_nonneg (n / 10)). lia.
    + exists (ds ++ [48 + n mod 10]). rewrite E, <- app_assoc. repeat split.
      * intros A. apply app_eq_nil in A. tauto.
      * apply Forall_app. split; [exact D|]. constructor; [unfold digit; lia|constructor].
      * intros a f rest. rewrite <- app_assoc, V. cbn [app]. rewrite int_digits_digit by (unfold digit; lia).
        f_equal. rewrite zlen_app. change (zlen [48 + n mod 10]) with 1.
        rewrite Z.pow_add_r by (try lia; apply zlen_nonneg). rewrite Z.pow_1_r.
        pose proof (Z.div_mod n 10 ltac:(lia)). lia.
Qed.

Lemma str_of_nat_spec n : 0 <= n -> exists ds, py_str_of_nat n = ds /\ ds <> [] /\ Forall digit ds /\
  forall f, int_digits ds 0 f = Ok n.
Proof.
  intros Hn. unfold py_str_of_nat.
  destruct (dec_digits_spec (S (Z.to_nat (Z.log2 n))) n [] Hn ltac:(lia)) as (ds & E & Hne & D & V).
  rewrite app_nil_r in E. exists ds. repeat split; auto. intros f.
  specialize (V 0 f []). rewrite app_nil_r in V. rewrite V. cbn [int_digits]. reflexivity.
Qed.

Lemma lstrip_id p s : match s with [] => True | x :: _ => p x = false end -> lstrip p s = s.
Proof. destruct s as [|x r]; cbn; [reflexivity|intros ->; reflexivity]. Qed.
Lemma lstrip_app p d s : Forall (fun x => p x = true) d -> lstrip p (d ++ s) = lstrip p s.
Proof. induction 1 as [|x d Hx Hd IH]; cbn [app lstrip]; [reflexivity|]. rewrite Hx. exact IH. Qed.
(** Stripping removes what surrounds a text whose ends are not stripped. *)
Definition ends_clean (p : Z -> bool) (s : str) : Prop :=
  s <> [] /\ p (hd 0 s) = false /\ p (last s 0) = false.
Lemma hd_rev (s : str) : hd 0 (rev s) = last s 0.
Proof.
  destruct s as [|x s] using rev_ind; [reflexivity|]. rewrite rev_app_distr. cbn [rev app hd].
  clear IHs. induction s as [|y s IH]; [reflexivity|]. cbn [app]. destruct (s ++ [x]) eqn:E; [destruct s; discriminate|exact IH].
Qed.
Lemma strip_surround p d1 d2 s : ends_clean p s -> Forall (fun x => p x = true) d1 -> Forall (fun x => p x = true) d2 ->
  strip p (d1 ++ s ++ d2) = s.
Proof.
  intros (Hne & Hh & Hl) H1 H2. unfold strip. rewrite lstrip_app by exact H1.
  rewrite (lstrip_id p (s ++ d2)) by (destruct s; [contradiction|exact Hh]).
  rewrite rev_app_distr, lstrip_app by (apply Forall_rev; exact H2).
  rewrite lstrip_id; [apply rev_involutive|].
  rewrite <- hd_rev in Hl. destruct (rev s); [exact I|exact Hl].
Qed.
Lemma strip_id p s : ends_clean p s -> strip p s = s.
Proof. intros H. pose proof (strip_surround p [] [] s H (Forall_nil _) (Forall_nil _)) as E. rewrite app_nil_r in E. exact E. Qed.

Lemma last_in (s : str) : s <> [] -> In (last s 0) s.
Proof.
  induction s as [|x s IH]; [tauto|intros _]. destruct s as [|y s]; [left; reflexivity|].
  right. apply IH. discriminate.
Qed.
Lemma all_clean p s : s <> [] -> Forall (fun x => p x = false) s -> ends_clean p s.
Proof.
  intros Hne H. rewrite Forall_forall in H. repeat split; [exact Hne| |].
  - apply H. destruct s; [contradiction|left; reflexivity].
  - apply H. apply last_in. exact Hne.
Qed.
Lemma digit_not_ws c : digit c -> is_ws c = false.
Proof. unfold digit, is_ws. lia. Qed.

Lemma parse_print_nat n : 0 <= n -> py_int_of_str (py_str_of_nat n) = Ok n.
Proof.
  intros Hn. destruct (str_of_nat_spec n Hn) as (ds & -> & Hne & D & V).
  unfold py_int_of_str. rewrite strip_id.
  2:{ apply all_clean; [exact Hne|]. eapply Forall_impl; [|exact D]. apply digit_not_ws. }
  destruct ds as [|c r]; [contradiction|]. inversion D as [|? ? Hc Hr]; subst. unfold digit in Hc.
  destruct (Z.eqb_spec c 45); [lia|]. destruct (Z.eqb_spec c 43); [lia|]. apply V.
Qed.
(** int(str(n)) = n *)
Lemma parse_print n : py_int_of_str (py_str_of_int n) = Ok n.
Proof.
  unfold py_str_of_int. destruct (Z.ltb_spec n 0); [|apply parse_print_nat; lia].
  destruct (str_of_nat_spec (- n) ltac:(lia)) as (ds & -> & Hne & D & V).
  unfold py_int_of_str. rewrite strip_id.
  2:{ apply all_clean; [discriminate|]. constructor; [reflexivity|]. eapply Forall_impl; [|exact D]. apply digit_not_ws. }
  change (45 =? 45) with true. cbv iota. rewrite V. cbn [bind]. f_equal. lia.
Qed.
Lemma print_chars n : py_str_of_int n <> [] /\ Forall (fun c => digit c \/ c = 45) (py_str_of_int n).
Proof.
  unfold py_str_of_int. destruct (Z.ltb_spec n 0).
  - destruct (str_of_nat_spec (- n) ltac:(lia)) as (ds & -> & Hne & D & _). split; [discriminate|].
    constructor; [right; reflexivity|]. eapply Forall_impl; [|exact D]. intros; left; assumption.
  - destruct (str_of_nat_spec n ltac:(lia)) as (ds & -> & Hne & D & _). split; [exact Hne|].
    eapply Forall_impl; [|exact D]. intros; left; assumption.
Qed.

(** ** split and join *)
Lemma split_nosep c s : Forall (fun x => x <> c) s -> py_split c s = [s].
Proof.
  induction 1 as [|x s Hx Hs IH]; cbn [py_split]; [reflexivity|].
  destruct (Z.eqb_spec x c); [contradiction|]. rewrite IH. reflexivity.
Qed.
Lemma split_cons c s t : Forall (fun x => x <> c) s -> py_split c (s ++ c :: t) = s :: py_split c t.
Proof.
  induction 1 as [|x s Hx Hs IH]; cbn [py_split app].
  - rewrite Z.eqb_refl. reflexivity.
  - destruct (Z.eqb_spec x c); [contradiction|]. rewrite IH. reflexivity.
Qed.
Lemma split_join c l : l <> [] -> Forall (Forall (fun x => x <> c)) l -> py_split c (py_join c l) = l.
Proof.
  intros Hne H. induction H as [|s l Hs Hl IH]; [contradiction|].
  destruct l as [|t l]; cbn [py_join]; [apply split_nosep; exact Hs|].
  rewrite split_cons by exact Hs. f_equal. apply IH. discriminate.
Qed.
Lemma split_ne c s : py_split c s <> [].
Proof. destruct s as [|x r]; cbn; [discriminate|]. destruct (x =? c); [discriminate|]. destruct (py_split c r); discriminate. Qed.
Lemma mapM_length {A B} (f : A -> res B) l m : mapM f l = Ok m -> length m = length l.
Proof.
  revert m; induction l as [|x r IH]; cbn [mapM]; intros m H; [inversion H; reflexivity|].
  destruct (f x); cbn [bind] in H; [|discriminate]. destruct (mapM f r); cbn [bind] in H; [|discriminate].
  inversion H; subst. cbn [length]. f_equal. apply IH. reflexivity.
Qed.
Lemma mapM_Forall2 {A B} (f : A -> res B) l m : mapM f l = Ok m <-> Forall2 (fun x y => f x = Ok y) l m.
Proof.
  split.
  - revert m; induction l as [|x r IH]; cbn [mapM]; intros m H; [inversion H; constructor|].
    destruct (f x) eqn:E; cbn [bind] in H; [|discriminate]. destruct (mapM f r) eqn:E'; cbn [bind] in H; [|discriminate].
    inversion H; subst. constructor; auto.
  - induction 1 as [|x y l m Hxy F IH]; cbn [mapM]; [reflexivity|]. rewrite Hxy, IH. reflexivity.
Qed.

(** ** ObjectID text *)
Definition dotted (l : list Z) : str := py_join 46 (map py_str_of_int l).

Lemma print_nodot n : Forall (fun x => x <> 46) (py_str_of_int n).
Proof. eapply Forall_impl; [|apply print_chars]. cbv beta. unfold digit. lia. Qed.

Lemma join_ends c l : l <> [] -> Forall (fun s => s <> [] /\ Forall (fun x => x <> c) s) l ->
  ends_clean (Z.eqb c) (py_join c l).
Proof.
  intros Hne H. induction H as [|s l [Hs Hc] Hl IH]; [contradiction|].
  assert (Hs' : ends_clean (Z.eqb c) s).
  { apply all_clean; [exact Hs|]. eapply Forall_impl; [|exact Hc]. cbv beta. lia. }
  destruct l as [|t l]; [exact Hs'|]. change (py_join c (s :: t :: l)) with (s ++ c :: py_join c (t :: l)). specialize (IH ltac:(discriminate)).
  destruct Hs' as (_ & H1 & _). destruct IH as (J1 & _ & J3). repeat split.
  - destruct s; discriminate.
  - destruct s; [contradiction|exact H1].
  - assert (L : forall (a b : str), b <> [] -> last (a ++ b) 0 = last b 0).
    { clear. intros a b Hb. induction a as [|x a IH]; [reflexivity|]. cbn [app].
      destruct (a ++ b) eqn:E; [apply app_eq_nil in E; tauto|]. rewrite <- IH. reflexivity. }
    rewrite L by discriminate.
    change (c :: py_join c (t :: l)) with ([c] ++ py_join c (t :: l)). rewrite L by exact J1. exact J3.
Qed.
Lemma dotted_ends l : l <> [] -> ends_clean (Z.eqb 46) (dotted l).
Proof.
  intros H. apply join_ends; [destruct l; [contradiction|discriminate]|].
  apply Forall_map. apply Forall_forall. intros n _. split; [apply print_chars|apply print_nodot].
Qed.
Lemma dotted_split l : l <> [] -> py_split 46 (dotted l) = map py_str_of_int l.
Proof.
  intros H. apply split_join; [destruct l; [contradiction|discriminate]|].
  apply Forall_map. apply Forall_forall. intros n _. apply print_nodot.
Qed.
Lemma repeat_Forall {A} (P : A -> Prop) x n : P x -> Forall P (repeat x n).
Proof. intros H. induction n; constructor; auto. Qed.

Definition arc_ok (n : Z) : Prop := 0 <= n <= 2147483647.
Lemma oid_text_gen l i j : l <> [] ->
  oid_of_str (repeat 46 i ++ dotted l ++ repeat 46 j) =
  if forallb (fun n => (0 <=? n) && (n <=? 2147483647)) l then Ok l else Err ValueError.
Proof.
  intros Hne. unfold oid_of_str. rewrite strip_surround.
  2:{ apply dotted_ends; exact Hne. } 2,3: apply repeat_Forall; reflexivity.
  rewrite dotted_split by exact Hne. clear Hne.
  induction l as [|n l IH]; cbn [map mapM forallb]; [reflexivity|].
  rewrite parse_print. cbn [bind].
  destruct ((n <? 0) || (0x7FFFFFFF <? n)) eqn:E.
  - replace ((0 <=? n) && (n <=? 2147483647)) with false by lia. reflexivity.
  - replace ((0 <=? n) && (n <=? 2147483647)) with true by lia. cbn [bind andb]. rewrite IH.
    destruct (forallb _ l); reflexivity.
Qed.
Lemma forallb_arc l : forallb (fun n => (0 <=? n) && (n <=? 2147483647)) l = true <-> Forall arc_ok l.
Proof.
  rewrite forallb_forall, Forall_forall. unfold arc_ok. split; intros H x Hx; specialize (H x Hx); lia.
Qed.
Lemma oid_text_ok l i j : l <> [] -> Forall (fun n => 0 <= n <= 2147483647) l ->
  oid_of_str (repeat 46 i ++ py_join 46 (map py_str_of_int l) ++ repeat 46 j) = Ok l.
Proof.
  intros Hne H. pose proof (oid_text_gen l i j Hne) as E. apply forallb_arc in H. rewrite H in E. exact E.
Qed.
Lemma oid_text_self l : (oid_of_str (oid_str (Some l)) = Ok l <-> l <> [] /\ Forall (fun n => 0 <= n <= 2147483647) l)
  /\ (oid_of_str (oid_str (Some l)) = Ok l \/ oid_of_str (oid_str (Some l)) = Err ValueError).
Proof.
  destruct l as [|n l]; [split; [split; [discriminate|tauto]|right; reflexivity]|].
  pose proof (oid_text_gen (n :: l) 1 0 ltac:(discriminate)) as E. cbn [repeat app] in E. rewrite app_nil_r in E.
  unfold oid_str. fold (dotted (n :: l)). rewrite E.
  destruct (forallb _ (n :: l)) eqn:F.
  - split; [|left; reflexivity]. apply forallb_arc in F. split; [intros _; split; [discriminate|exact F]|reflexivity].
  - split; [|right; reflexivity]. split; [discriminate|]. intros [_ K]. apply forallb_arc in K. congruence.
Qed.
Lemma oid_text_sound s l : oid_of_str s = Ok l -> l <> [] /\ Forall (fun n => 0 <= n <= 2147483647) l.
Proof.
  unfold oid_of_str. intros H. split.
  - pose proof (mapM_length _ _ _ H) as L. intros ->. pose proof (split_ne 46 (strip (Z.eqb 46) s)) as N.
    destruct (py_split 46 _); [contradiction|discriminate].
  - apply mapM_Forall2 in H. induction H as [|x y xs ys Hxy F IH]; constructor; [|exact IH].
    destruct (py_int_of_str x); cbn [bind] in Hxy; [|discriminate].
    destruct ((a <? 0) || (0x7FFFFFFF <? a)) eqn:E; [discriminate|]. inversion Hxy; subst. lia.
Qed.

(** ** Prefix order *)
Lemma prefix_loop_spec a : forall b, (length a <= length b)%nat ->
  (oid_prefix_loop a b = true <-> exists s, b = a ++ s).
Proof.
  induction a as [|x a IH]; intros b Hl; cbn [oid_prefix_loop].
  - split; [intros _; exists b; reflexivity|reflexivity].
  - destruct b as [|y b]; [cbn in Hl; lia|]. destruct (Z.eqb_spec x y); cbn [negb].
    + subst. rewrite IH by (cbn in Hl; lia). split; intros [s E]; exists s; [cbn; congruence|inversion E; reflexivity].
    + split; [discriminate|]. intros [s E]. inversion E. congruence.
Qed.
Lemma isPrefixOf_spec a b : exists r, oid_isPrefixOf (VOid (Some a)) (VOid (Some b)) = Ok r /\
  (r = true <-> exists s, b = a ++ s).
Proof.
  cbn [oid_isPrefixOf oid_len opt_or]. unfold zlen. destruct (Z.ltb_spec (Z.of_nat (length b)) (Z.of_nat (length a))).
  - exists false. split; [reflexivity|]. split; [discriminate|]. intros [s E]. subst. rewrite app_length in H. lia.
  - exists (oid_prefix_loop a b). split; [reflexivity|]. apply prefix_loop_spec. lia.
Qed.
Lemma isPrefixOf_true a b : oid_isPrefixOf (VOid (Some a)) (VOid (Some b)) = Ok true <-> exists s, b = a ++ s.
Proof.
  destruct (isPrefixOf_spec a b) as (r & E & H). rewrite E. split.
  - intros K. inversion K; subst. apply H. reflexivity.
  - intros K. apply H in K. congruence.
Qed.
Lemma isPrefixOf_false a b : oid_isPrefixOf (VOid (Some a)) (VOid (Some b)) = Ok false <-> ~ exists s, b = a ++ s.
Proof.
  destruct (isPrefixOf_spec a b) as (r & E & H). rewrite E. split.
  - intros K. inversion K; subst. intros C. apply H in C. discriminate.
  - intros K. destruct r; [exfalso; apply K, H; reflexivity|reflexivity].
Qed.
Lemma isPrefixOf_trans a b c :
  oid_isPrefixOf (VOid (Some a)) (VOid (Some b)) = Ok true ->
  oid_isPrefixOf (VOid (Some b)) (VOid (Some c)) = Ok true ->
  oid_isPrefixOf (VOid (Some a)) (VOid (Some c)) = Ok true.
Proof.
  rewrite !isPrefixOf_true. intros [s ->] [t ->]. exists (s ++ t). rewrite app_assoc. reflexivity.
Qed.
Lemma isPrefixOf_antisym a b :
  oid_isPrefixOf (VOid (Some a)) (VOid (Some b)) = Ok true ->
  oid_isPrefixOf (VOid (Some b)) (VOid (Some a)) = Ok true -> a = b.
Proof.
  rewrite !isPrefixOf_true. intros [s ->] [t E].
  rewrite <- app_assoc in E. rewrite <- (app_nil_r a) in E at 1. apply app_inv_head in E.
  symmetry in E. apply app_eq_nil in E as [-> _]. rewrite app_nil_r. reflexivity.
Qed.
Lemma isPrefixOf_extend a s : oid_isPrefixOf (VOid (Some a)) (VOid (Some (oid_extend a s))) = Ok true.
Proof. apply isPrefixOf_true. exists s. reflexivity. Qed.

(** ** Python sequence operations *)
Lemma py_index_ok {A} (l : list A) i : - zlen l <= i < zlen l ->
  exists pre x post, l = pre ++ x :: post /\ zlen pre = (if i <? 0 then i + zlen l else i) /\ py_index l i = Ok x.
Proof.
  intros H. unfold py_index. set (j := if i <? 0 then i + zlen l else i).
  assert (Hj : 0 <= j < zlen l) by (subst j; destruct (Z.ltb_spec i 0); lia).
  replace ((j <? 0) || (zlen l <=? j)) with false by lia.
  destruct (nth_error l (Z.to_nat j)) as [x|] eqn:E.
  - destruct (nth_error_split _ _ E) as (pre & post & El & Lp). exists pre, x, post.
    repeat split; auto. unfold zlen in *. lia.
  - apply nth_error_None in E. unfold zlen in *. lia.
Qed.
Lemma py_index_bad {A} (l : list A) i : ~ (- zlen l <= i < zlen l) -> py_index l i = Err IndexError.
Proof.
  intros H. unfold py_index. destruct (Z.ltb_spec i 0); [|].
  - replace ((i + zlen l <? 0) || (zlen l <=? i + zlen l)) with true by lia. reflexivity.
  - replace ((i <? 0) || (zlen l <=? i)) with true by lia. reflexivity.
Qed.
Lemma ztake_clip {A} (l : list A) n : zlen l <= n -> ztake n l = l.
Proof. apply ztake_all. Qed.
Lemma zdrop_0 {A} (l : list A) : zdrop 0 l = l.
Proof. destruct l; reflexivity. Qed.
Lemma zdrop_zlen {A} (l : list A) k : 0 <= k <= zlen l -> zlen (zdrop k l) = zlen l - k.
Proof.
  intros H. pose proof (ztake_zdrop k l) as E. apply (f_equal zlen) in E. rewrite zlen_app in E.
  rewrite ztake_length_eq in E by lia. lia.
Qed.
Lemma slice_split {A} (l : list A) k : py_slice l None (Some k) ++ py_slice l (Some k) None = l.
Proof.
  unfold py_slice. cbn [slice_bound]. pose proof (zlen_nonneg l).
  set (b := if k <? 0 then Z.max 0 (k + zlen l) else Z.min k (zlen l)).
  assert (0 <= b <= zlen l) by (subst b; destruct (Z.ltb_spec k 0); lia).
  rewrite zdrop_0, Z.sub_0_r. rewrite (ztake_all (zdrop b l)) by (rewrite zdrop_zlen by lia; lia).
  apply ztake_zdrop.
Qed.
Lemma slice_window {A} (pre mid post : list A) :
  py_slice (pre ++ mid ++ post) (Some (zlen pre)) (Some (zlen pre + zlen mid)) = mid.
Proof.
  unfold py_slice. cbn [slice_bound]. rewrite !zlen_app.
  pose proof (zlen_nonneg pre). pose proof (zlen_nonneg mid). pose proof (zlen_nonneg post).
  destruct (Z.ltb_spec (zlen pre) 0); [lia|]. destruct (Z.ltb_spec (zlen pre + zlen mid) 0); [lia|].
  rewrite !Z.min_l by lia. rewrite zdrop_app.
  replace (zlen pre + zlen mid - zlen pre) with (zlen mid) by lia. apply ztake_app.
Qed.
Lemma slice_all {A} (l : list A) : py_slice l None None = l.
Proof. unfold py_slice. cbn [slice_bound]. rewrite zdrop_0. apply ztake_all. lia. Qed.

Lemma py_delitem_ok {A} (l : list A) i : - zlen l <= i < zlen l ->
  exists pre x post, l = pre ++ x :: post /\ zlen pre = (if i <? 0 then i + zlen l else i) /\
    py_delitem l i = Ok (pre ++ post).
Proof.
  intros H. destruct (py_index_ok l i H) as (pre & x & post & El & Lp & _).
  exists pre, x, post. repeat split; auto. unfold py_delitem. rewrite <- Lp.
  assert (zlen pre < zlen l) by (rewrite El, zlen_app, zlen_cons; pose proof (zlen_nonneg post); lia).
  replace ((zlen pre <? 0) || (zlen l <=? zlen pre)) with false by (pose proof (zlen_nonneg pre); lia).
  f_equal. rewrite El. rewrite ztake_app. f_equal.
  replace (zlen pre + 1) with (zlen (pre ++ [x])) by (rewrite zlen_app; reflexivity).
  change (x :: post) with ([x] ++ post). rewrite app_assoc. apply zdrop_app.
Qed.
Lemma py_delitem_bad {A} (l : list A) i : ~ (- zlen l <= i < zlen l) -> py_delitem l i = Err IndexError.
Proof.
  intros H. unfold py_delitem. destruct (Z.ltb_spec i 0); [|].
  - replace ((i + zlen l <? 0) || (zlen l <=? i + zlen l)) with true by lia. reflexivity.
  - replace ((i <? 0) || (zlen l <=? i)) with true by lia. reflexivity.
Qed.
Lemma mapM_val_to_int l : mapM val_to_int (map VPyInt l) = Ok l.
Proof. induction l as [|x l IH]; cbn [map mapM val_to_int bind]; [reflexivity|]. rewrite IH. reflexivity. Qed.
Lemma oid_copy_eq v : oid_copy v = Ok (VOid v).
Proof. destruct v as [l|]; [|reflexivity]. unfold oid_copy. cbn [oid_init]. rewrite mapM_val_to_int. reflexivity. Qed.

(** ** IPAddress *)
Lemma ip_text_gen c a b d e : 0 <= a <= 1114111 -> 0 <= b <= 1114111 -> 0 <= d <= 1114111 -> 0 <= e <= 1114111 ->
  ipaddress_init c (VPyStr (py_join 46 (map py_str_of_int [a; b; d; e]))) = Ok (VOct c (VPyStr [a; b; d; e])).
Proof.
  intros Ha Hb Hd He. cbn [ipaddress_init]. change (py_join 46 (map py_str_of_int [a; b; d; e])) with (dotted [a; b; d; e]).
  rewrite dotted_split by discriminate. change (zlen (map py_str_of_int [a; b; d; e])) with 4.
  change (negb (4 =? 4)) with false. cbv iota. cbn [map mapM]. rewrite !parse_print. cbn [bind].
  unfold py_chr.
  replace ((a <? -2147483648) || (2147483647 <? a)) with false by lia. replace ((a <? 0) || (1114111 <? a)) with false by lia.
  replace ((b <? -2147483648) || (2147483647 <? b)) with false by lia. replace ((b <? 0) || (1114111 <? b)) with false by lia.
  replace ((d <? -2147483648) || (2147483647 <? d)) with false by lia. replace ((d <? 0) || (1114111 <? d)) with false by lia.
  replace ((e <? -2147483648) || (2147483647 <? e)) with false by lia. replace ((e <? 0) || (1114111 <? e)) with false by lia.
  reflexivity.
Qed.
Lemma py_chr_ok n x : py_chr n = Ok x <-> x = n /\ 0 <= n <= 1114111.
Proof.
  unfold py_chr. destruct ((n <? -2147483648) || (2147483647 <? n)) eqn:E1; [split; [discriminate|lia]|].
  destruct ((n <? 0) || (1114111 <? n)) eqn:E2; [split; [discriminate|lia]|].
  split; [intros H; inversion H; lia|intros [-> _]; reflexivity].
Qed.
Lemma ip_accepts c s v : ipaddress_init c (VPyStr s) = Ok v <->
  exists p1 p2 p3 p4 n1 n2 n3 n4, py_split 46 s = [p1; p2; p3; p4] /\
    py_int_of_str p1 = Ok n1 /\ py_int_of_str p2 = Ok n2 /\ py_int_of_str p3 = Ok n3 /\ py_int_of_str p4 = Ok n4 /\
    Forall (fun n => 0 <= n <= 1114111) [n1; n2; n3; n4] /\ v = VOct c (VPyStr [n1; n2; n3; n4]).
Proof.
  cbn [ipaddress_init]. split.
  - destruct (negb (zlen (py_split 46 s) =? 4)) eqn:L; [discriminate|].
    destruct (py_split 46 s) as [|p1 [|p2 [|p3 [|p4 [|p5 r]]]]]; unfold zlen in L; cbn [length] in L; try lia.
    intros H. destruct (mapM _ _) as [chars|] eqn:M; cbn [bind] in H; [|discriminate].
    apply mapM_Forall2 in M. inversion H; subst v.
    repeat match goal with F : Forall2 _ (_ :: _) _ |- _ => inversion F; clear F; subst end.
    match goal with F : Forall2 _ [] _ |- _ => inversion F; clear F; subst end.
    repeat match goal with F : bind (py_int_of_str ?p) _ = Ok _ |- _ =>
      let n := fresh "n" in let E := fresh "E" in
      destruct (py_int_of_str p) as [n|] eqn:E; cbn [bind] in F; [|discriminate]; apply py_chr_ok in F; destruct F end.
    subst. do 8 eexists. repeat split; eauto.
  - intros (p1 & p2 & p3 & p4 & n1 & n2 & n3 & n4 & E & E1 & E2 & E3 & E4 & F & ->). rewrite E.
    change (negb (zlen [p1; p2; p3; p4] =? 4)) with false. cbv iota. cbn [mapM].
    repeat match goal with F : Forall _ (_ :: _) |- _ => inversion F; clear F; subst end.
    rewrite E1, E2, E3, E4. cbn [bind].
    rewrite (proj2 (py_chr_ok n1 n1)), (proj2 (py_chr_ok n2 n2)), (proj2 (py_chr_ok n3 n3)), (proj2 (py_chr_ok n4 n4)) by auto.
    reflexivity.
Qed.

Lemma ip_encode a b d e : 0 <= a < 256 -> 0 <= b < 256 -> 0 <= d < 256 -> 0 <= e < 256 ->
  exists v, ipaddress_init CIPAddress (VPyStr (py_join 46 (map py_str_of_int [a; b; d; e]))) = Ok v /\
    encode v = Ok [64; 4; a; b; d; e] /\
    v = VOct CIPAddress (VPyStr [a; b; d; e]) /\
    ipaddress_str [a; b; d; e] = py_join 46 (map py_str_of_int [a; b; d; e]).
Proof.
  intros. eexists. split; [apply ip_text_gen; lia|]. repeat split.
Qed.
Lemma isPrefixOf_refl a : oid_isPrefixOf (VOid (Some a)) (VOid (Some a)) = Ok true.
Proof. apply isPrefixOf_true. exists []. rewrite app_nil_r. reflexivity. Qed.
Lemma append_and_copy l x : oid_append l x = l ++ [x] /\
  oid_getitem (oid_append l x) (-1) = Ok x /\ oid_copy (Some l) = Ok (VOid (Some l)).
Proof.
  split; [reflexivity|]. split; [|apply oid_copy_eq].
  unfold oid_getitem, oid_append.
  destruct (py_index_ok (l ++ [x]) (-1)) as (pre & y & post & E & L & I).
  { rewrite zlen_app. pose proof (zlen_nonneg l). change (zlen [x]) with 1. lia. }
  change (-1 <? 0) with true in L. cbv iota in L. rewrite zlen_app in L. change (zlen [x]) with 1 in L.
  rewrite I. f_equal.
  assert (pre = l /\ y :: post = [x]) as [_ K].
  { unfold zlen in L. assert (length pre = length l) as LL by lia. symmetry in E.
    clear -E LL. revert l E LL. induction pre as [|p pre IH]; intros [|q l] E LL; cbn in *; try discriminate; [auto|].
    inversion E; subst. injection LL as LL. destruct (IH l H1 LL). subst. auto. }
  inversion K. reflexivity.
Qed.
