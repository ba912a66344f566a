(** * Lemmas for ObjectID contents (C10-C12). *)
From Coq Require Import ZArith List Bool Lia ZifyBool ZifyNat.
From Verif Require Import PyBase Classes Values Codec SpecBER Bits.
Import ListNotations.
Open Scope Z_scope.
Ltac Zify.zify_post_hook ::= Z.div_mod_to_equations.

Lemma b128_group_nonempty g : b128_group g -> g <> [].
Proof. inversion 1; discriminate. Qed.
Lemma b128_value_nonneg g : 0 <= b128_value g.
Proof.
  induction g as [|b r IH]; cbn [b128_value]; [lia|].
  pose proof (pow128_pos (Z.of_nat (length r)) ltac:(lia)).
  assert (0 <= b mod 128) by (apply Z.mod_pos_bound; lia). nia.
Qed.

Lemma fuel_div128 n f : 0 < n -> (Z.to_nat (Z.log2 n) < S f)%nat -> n / 128 = 0 \/ (Z.to_nat (Z.log2 (n / 128)) < f)%nat.
Proof.
  intros Hn Hf. destruct (Z.eq_dec (n / 128) 0) as [E|E]; [left; exact E|right].
  assert (Hp : 0 < n / 128) by (assert (0 <= n / 128) by (apply Z.div_pos; lia); lia).
  assert (Z.log2 (n / 128) = Z.log2 n - 7).
  { rewrite <- shiftr_7, Z.log2_shiftr by lia. pose proof (Z.log2_nonneg (n/128)).
    apply Z.max_r. assert (128 <= n) by lia. change 7 with (Z.log2 128). pose proof (Z.log2_le_mono 128 n). lia. }
  assert (0 <= Z.log2 (n / 128)) by apply Z.log2_nonneg. lia.
Qed.

Lemma subid_loop_spec fuel : forall n acc,
  0 <= n -> (n = 0 \/ (Z.to_nat (Z.log2 n) < fuel)%nat) -> b128_group acc ->
  exists g, subid_loop fuel n acc = Ok g /\ b128_group g /\
            b128_value g = n * 128 ^ Z.of_nat (length acc) + b128_value acc /\
            (0 < n -> b128_minimal g) /\ (n = 0 -> g = acc).
Proof.
  induction fuel as [|f IH]; intros n acc Hn Hf Hg; cbn [subid_loop].
  - destruct Hf as [->|Hf]; [|lia]. change (0 >? 0) with false. exists acc.
    repeat split; auto; lia.
  - destruct (Z.gtb_spec n 0) as [Hp|Hp].
    2:{ assert (n = 0) as -> by lia. exists acc. repeat split; auto; lia. }
    rewrite shiftr_7, land_127. assert (Hm : 0 <= n mod 128 < 128) by (apply Z.mod_pos_bound; lia).
    rewrite lor_128 by exact Hm.
    destruct (IH (n / 128) (128 + n mod 128 :: acc)) as (g & E & G & V & M & Z0).
    + apply Z.div_pos; lia.
    + destruct Hf as [->|Hf]; [lia|]. apply fuel_div128; assumption.
    + apply b128_more; [lia|exact Hg].
    + exists g. split; [exact E|]. split; [exact G|]. split; [|split; [|lia]].
      * rewrite V. cbn [b128_value length]. rewrite Nat2Z.inj_succ, Z.pow_succ_r by lia.
        replace ((128 + n mod 128) mod 128) with (n mod 128).
        2:{ rewrite Z.add_mod by lia. change (128 mod 128) with 0. rewrite Z.add_0_l, !Z.mod_mod by lia. reflexivity. }
        pose proof (Z.div_mod n 128 ltac:(lia)) as D.
        rewrite D at 3. ring.
      * intros _. destruct (Z.eq_dec (n / 128) 0) as [E0|E0].
        -- rewrite (Z0 E0). unfold b128_minimal. pose proof (Z.div_mod n 128 ltac:(lia)). lia.
        -- apply M. assert (0 <= n / 128) by (apply Z.div_pos; lia). lia.
Qed.

Lemma encode_subid_spec x : 0 <= x -> exists g, encode_subid x = Ok g /\ b128_group g /\ b128_minimal g /\ b128_value g = x
  /\ (x < 128 -> g = [x]) /\ (128 <= x -> match g with b :: _ => 128 <= b | [] => False end).
Proof.
  intros Hx. unfold encode_subid. destruct (Z.ltb_spec x 128).
  - exists [x]. rewrite land_127, Z.mod_small by lia. repeat split; try lia.
    + constructor; lia.
    + cbn; lia.
    + cbn [b128_value length]. cbn. rewrite Z.mod_small by lia. lia.
  - rewrite shiftr_7, land_127. assert (Hm : 0 <= x mod 128 < 128) by (apply Z.mod_pos_bound; lia).
    destruct (subid_loop_spec (S (Z.to_nat (Z.log2 x))) (x / 128) [x mod 128]) as (g & E & G & V & M & _).
    + apply Z.div_pos; lia.
    + right. assert (Z.log2 (x / 128) <= Z.log2 x) by (apply Z.log2_le_mono; lia). lia.
    + constructor; lia.
    + assert (Hq : 0 < x / 128) by lia.
      exists g. repeat split; auto; try lia.
      * rewrite V. cbn [b128_value length]. cbn [Z.of_nat]. rewrite Z.mod_mod, Z.pow_0_r by lia.
        change (128 ^ Z.of_nat 1) with 128. pose proof (Z.div_mod x 128 ltac:(lia)). lia.
      * intros _. inversion G as [b Hb Eg|b r Hb Hr Eg]; [|lia].
        exfalso. subst g. cbn [b128_value length] in V. change (128 ^ Z.of_nat 1) with 128 in V.
        change (Z.of_nat 0) with 0 in V. rewrite Z.pow_0_r, Z.mod_mod in V by lia.
        rewrite (Z.mod_small b) in V by lia. nia.
Qed.

Lemma mapM_encode_subid l : Forall (fun x => 0 <= x) l -> exists gs, mapM encode_subid l = Ok gs /\
  Forall2 (fun g x => b128_group g /\ b128_minimal g /\ b128_value g = x) gs l.
Proof.
  induction 1 as [|x r Hx Hr IH]; cbn [mapM]; [exists []; split; [reflexivity|constructor]|].
  destruct (encode_subid_spec x Hx) as (g & E & G & M & V & _). rewrite E. cbn [bind].
  destruct IH as (gs & E' & F). rewrite E'. cbn [bind]. exists (g :: gs). split; [reflexivity|]. constructor; auto.
Qed.

Lemma oid_encode_conforms l : valid_oid l -> exists os, oid_encodeContents (Some l) = Ok os /\ oid_octets l os.
Proof.
  destruct l as [|a [|b rest]]; cbn [valid_oid]; try contradiction. intros (Ha & Hb & Hab & Hr).
  cbn [oid_encodeContents]. destruct (mapM_encode_subid (a * 40 + b :: rest)) as (gs & E & F).
  { constructor; [lia|exact Hr]. }
  rewrite E. cbn [bind]. exists (concat gs). split; [reflexivity|]. cbn [oid_octets]. exists gs. auto.
Qed.
Lemma oid_encode_short l : (length l < 2)%nat -> oid_encodeContents (Some l) = Err IndexError.
Proof. destruct l as [|a [|b r]]; cbn; intros; reflexivity || lia. Qed.

(** Decoding *)
Lemma group_octet_string g : b128_group g -> octet_string g.
Proof. induction 1; constructor; try lia; auto. Qed.

Lemma oid_group_loop_spec g : b128_group g -> forall v rest,
  oid_group_loop v (g ++ rest) = Ok (v * 128 ^ Z.of_nat (length g) + b128_value g, rest).
Proof.
  induction 1 as [b Hb|b r Hb Hr IH]; intros v rest; cbn [app oid_group_loop length b128_value].
  - rewrite land_127, land_128_octet, lor_shiftl_7 by (apply Z.mod_pos_bound; lia) || lia.
    destruct (Z.ltb_spec b 128); [|lia]. cbn [Z.eqb]. change (Z.of_nat 1) with 1.
    change (Z.of_nat 0) with 0. rewrite Z.pow_1_r, Z.pow_0_r. do 2 f_equal. lia.
  - rewrite land_127, land_128_octet, lor_shiftl_7 by (apply Z.mod_pos_bound; lia) || lia.
    destruct (Z.ltb_spec b 128); [lia|]. change (128 =? 128) with true. cbv iota.
    rewrite IH. rewrite Nat2Z.inj_succ, Z.pow_succ_r by lia. do 2 f_equal. ring.
Qed.
Lemma oid_group_loop_fail t : Forall (fun b => 128 <= b < 256) t -> forall v, oid_group_loop v t = Err IndexError.
Proof.
  induction 1 as [|b r Hb Hr IH]; intros v; cbn [oid_group_loop]; [reflexivity|].
  rewrite land_128_octet by lia. destruct (Z.ltb_spec b 128); [lia|]. apply IH.
Qed.

Lemma oid_loop_spec gs : Forall b128_group gs -> forall fuel t,
  (length (concat gs ++ t) <= fuel)%nat -> Forall (fun b => 128 <= b < 256) t ->
  oid_loop fuel (concat gs ++ t) = match t with [] => Ok (map b128_value gs) | _ => Err IndexError end.
Proof.
  induction 1 as [|g gs Hg Hgs IH]; intros fuel t Hf Ht; cbn [concat app map].
  - destruct t as [|b r]; [destruct fuel; reflexivity|]. destruct fuel as [|f]; [cbn in Hf; lia|].
    cbn [oid_loop]. inversion Ht as [|? ? Hb Hr]; subst. rewrite land_128_octet by lia.
    destruct (Z.ltb_spec b 128); [lia|]. change (128 =? 128) with true. cbv iota.
    rewrite oid_group_loop_fail by assumption. reflexivity.
  - destruct Hg as [b Hb|b r Hb Hr].
    + cbn [app concat] in *. destruct fuel as [|f]; [cbn in Hf; lia|]. cbn [oid_loop].
      rewrite land_128_octet by lia. destruct (Z.ltb_spec b 128); [|lia]. change (0 =? 128) with false. cbv iota.
      rewrite IH by (auto; cbn in Hf; lia). destruct t; [|reflexivity]. cbn [bind b128_value length map].
      do 2 f_equal. change (Z.of_nat 0) with 0. rewrite Z.pow_0_r, Z.mod_small by lia. lia.
    + cbn [app concat] in *. destruct fuel as [|f]; [cbn in Hf; lia|]. cbn [oid_loop].
      rewrite land_128_octet by lia. destruct (Z.ltb_spec b 128); [lia|]. change (128 =? 128) with true. cbv iota.
      rewrite <- app_assoc, oid_group_loop_spec by assumption. cbn [bind].
      rewrite IH; [|cbn in Hf; rewrite <- app_assoc, app_length in Hf; lia|assumption].
      destruct t; [|reflexivity]. cbn [bind b128_value map]. rewrite land_127. reflexivity.
Qed.

(** Every octet string splits into complete groups and an unterminated tail. *)
Lemma split_groups r : octet_string r -> exists gs t, r = concat gs ++ t /\ Forall b128_group gs /\
  Forall (fun b => 128 <= b < 256) t.
Proof.
  induction 1 as [|b r Hb Hr (gs & t & -> & G & T)]; [exists [], []; repeat split; constructor|].
  destruct (Z.ltb_spec b 128).
  - exists ([b] :: gs), t. repeat split; auto. constructor; [constructor; lia|assumption].
  - destruct G as [|g gs Hg Hgs].
    + exists [], (b :: t). repeat split; [constructor|]. constructor; [lia|assumption].
    + exists ((b :: g) :: gs), t. repeat split; auto. constructor; [apply b128_more; [lia|assumption]|assumption].
Qed.

Lemma last_group g : b128_group g -> last g 0 < 128.
Proof.
  induction 1 as [b Hb|b r Hb Hr IH]; [cbn; lia|].
  destruct r; [inversion Hr|exact IH].
Qed.
Lemma last_app_ne {A} (l m : list A) d : m <> [] -> last (l ++ m) d = last m d.
Proof.
  intros Hm. induction l as [|x l IH]; [reflexivity|]. cbn [app].
  destruct (l ++ m) eqn:E; [apply app_eq_nil in E; tauto|]. rewrite <- IH. reflexivity.
Qed.
Lemma last_Forall {A} (P : A -> Prop) l d : Forall P l -> l <> [] -> P (last l d).
Proof.
  induction 1 as [|x l Hx Hl IH]; [tauto|intros _]. destruct l as [|y l]; [exact Hx|].
  change (last (x :: y :: l) d) with (last (y :: l) d). apply IH. discriminate.
Qed.

Lemma unterminated_iff b0 gs t : b0 < 128 -> Forall b128_group gs -> Forall (fun b => 128 <= b < 256) t ->
  (t <> [] <-> 128 <= last (b0 :: concat gs ++ t) 0).
Proof.
  intros Hb G T. split.
  - intros Ht. change (b0 :: concat gs ++ t) with ((b0 :: concat gs) ++ t). rewrite last_app_ne by exact Ht.
    apply (last_Forall (fun b => 128 <= b < 256)) with (d := 0) in T; [lia|exact Ht].
  - intros H ->. rewrite app_nil_r in H.
    enough (last (b0 :: concat gs) 0 < 128) by lia. clear H T. revert b0 Hb.
    induction G as [|g gs Hg Hgs IH]; intros b0 Hb; cbn [concat]; [cbn; lia|].
    pose proof (b128_group_nonempty _ Hg) as Hne.
    change (b0 :: g ++ concat gs) with ((b0 :: g) ++ concat gs).
    destruct (concat gs) as [|c cs] eqn:E.
    + rewrite app_nil_r. change (b0 :: g) with ([b0] ++ g). rewrite last_app_ne by exact Hne. apply last_group. exact Hg.
    + rewrite last_app_ne by discriminate. specialize (IH 0 ltac:(lia)).
      change (0 :: c :: cs) with ([0] ++ c :: cs) in IH. rewrite last_app_ne in IH by discriminate. exact IH.
Qed.

Lemma oid_decode_outcome os : octet_string os ->
  match os with
  | [] => oid_decodeContents os = Err ValueError
  | b0 :: r =>
      (128 <= b0 /\ oid_decodeContents os = Err NotImplementedError) \/
      (b0 < 128 /\ 128 <= last os 0 /\ oid_decodeContents os = Err IndexError) \/
      (b0 < 128 /\ last os 0 < 128 /\ exists groups, r = concat groups /\ Forall b128_group groups /\
         oid_decodeContents os = Ok (b0 / 40 :: b0 mod 40 :: map b128_value groups))
  end.
Proof.
  intros H. destruct os as [|b0 r]; [reflexivity|]. inversion H as [|? ? Hb Hr]; subst.
  destruct (Z.le_gt_cases 128 b0) as [L|L].
  { left. split; [exact L|]. unfold oid_decodeContents. destruct (Z.ltb_spec b0 128); [lia|reflexivity]. }
  right. destruct (split_groups r Hr) as (gs & t & E & G & T).
  pose proof (unterminated_iff b0 gs t L G T) as U. rewrite <- E in U.
  unfold oid_decodeContents. destruct (Z.ltb_spec b0 128); [|lia].
  assert (OL : oid_loop (length r) r = match t with [] => Ok (map b128_value gs) | _ => Err IndexError end).
  { rewrite E. apply oid_loop_spec; auto. }
  rewrite OL.
  destruct t as [|x t].
  - right. split; [lia|]. split; [|exists gs; rewrite app_nil_r in E; repeat split; auto].
    destruct (Z.le_gt_cases 128 (last (b0 :: r) 0)) as [K|K]; [|lia]. apply U in K. contradiction.
  - left. split; [lia|]. split; [apply U; discriminate|reflexivity].
Qed.

(** Round trip. *)
Lemma Forall2_values gs l : Forall2 (fun g x => b128_group g /\ b128_minimal g /\ b128_value g = x) gs l ->
  Forall b128_group gs /\ map b128_value gs = l.
Proof.
  induction 1 as [|g x gs l (G & M & V) F [IH1 IH2]]; [split; constructor|].
  split; [constructor; assumption|]. cbn [map]. congruence.
Qed.

Lemma oid_roundtrip_value a b rest : 0 <= a -> 0 <= b -> Forall (fun x => 0 <= x) rest ->
  exists os, oid_encodeContents (Some (a :: b :: rest)) = Ok os /\ octet_string os /\
  oid_decodeContents os =
    if a * 40 + b <? 128 then Ok ((a * 40 + b) / 40 :: (a * 40 + b) mod 40 :: rest) else Err NotImplementedError.
Proof.
  intros Ha Hb Hr. cbn [oid_encodeContents mapM].
  destruct (encode_subid_spec (a * 40 + b) ltac:(lia)) as (g & E & G & M & V & S1 & S2).
  destruct (mapM_encode_subid rest Hr) as (gs & E' & F). rewrite E, E'. cbn [bind concat].
  exists (g ++ concat gs). split; [reflexivity|].
  pose proof (Forall2_values _ _ F) as [FG FV].
  split.
  { apply Forall_app. split; [apply group_octet_string; exact G|].
    clear -FG. induction FG as [|x l Hx Hl IH]; [constructor|]. cbn. apply Forall_app. split; [apply group_octet_string; exact Hx|exact IH]. }
  destruct (Z.ltb_spec (a * 40 + b) 128) as [L|L].
  - rewrite (S1 L). cbn [app]. unfold oid_decodeContents. destruct (Z.ltb_spec (a * 40 + b) 128); [|lia].
    pose proof (oid_loop_spec gs FG (length (concat gs)) []) as O. rewrite app_nil_r in O.
    rewrite O by (auto; constructor). cbn [bind]. rewrite FV. reflexivity.
  - specialize (S2 L). destruct g as [|c g]; [contradiction|]. cbn [app]. unfold oid_decodeContents.
    destruct (Z.ltb_spec c 128); [lia|reflexivity].
Qed.

Lemma oid_roundtrip_iff a b rest : 0 <= a -> 0 <= b -> Forall (fun x => 0 <= x) rest ->
  ((os <- oid_encodeContents (Some (a :: b :: rest)) ;; oid_decodeContents os) = Ok (a :: b :: rest)
   <-> b < 40 /\ 40 * a + b < 128).
Proof.
  intros Ha Hb Hr. destruct (oid_roundtrip_value a b rest Ha Hb Hr) as (os & E & _ & D). rewrite E. cbn [bind]. rewrite D.
  destruct (Z.ltb_spec (a * 40 + b) 128) as [L|L].
  - split.
    + intros Heq. inversion Heq. lia.
    + intros [H1 H2]. do 3 f_equal; [|f_equal]; lia.
  - split; [discriminate|lia].
Qed.

(** Negative arcs are accepted and written modulo 128. *)
Lemma encode_subid_negative x : x < 0 -> encode_subid x = Ok [x mod 128].
Proof. intros H. unfold encode_subid. destruct (Z.ltb_spec x 128); [|lia]. rewrite land_127. reflexivity. Qed.
Lemma oid_negative_arc a b x rest : 0 <= a -> 0 <= b -> Forall (fun y => 0 <= y) rest -> x < 0 ->
  oid_encodeContents (Some (a :: b :: x :: rest)) = oid_encodeContents (Some (a :: b :: x mod 128 :: rest)).
Proof.
  intros Ha Hb Hr Hx. cbn [oid_encodeContents mapM]. rewrite (encode_subid_negative x) by exact Hx.
  replace (encode_subid (x mod 128)) with (Ok [x mod 128]); [reflexivity|].
  unfold encode_subid. assert (0 <= x mod 128 < 128) by (apply Z.mod_pos_bound; lia).
  destruct (Z.ltb_spec (x mod 128) 128); [|lia]. rewrite land_127, Z.mod_mod by lia. reflexivity.
Qed.
Lemma oid_roundtrip_witness : valid_oid [2; 40; 1] /\ valid_oid [2; 999; 3] /\
  (os <- oid_encodeContents (Some [2; 40; 1]) ;; oid_decodeContents os) = Ok [3; 0; 1] /\
  (os <- oid_encodeContents (Some [2; 999; 3]) ;; oid_decodeContents os) = Err NotImplementedError.
Proof.
  split; [|split; [|split; reflexivity]]; cbn; repeat split; try lia; repeat (apply Forall_cons; [lia|]); constructor.
Qed.
