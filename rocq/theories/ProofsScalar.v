(** * Lemmas for ranges, arithmetic, class table, hex (C05-C09, C17, C31, C51). *)
From Coq Require Import ZArith List Bool Lia ZifyBool ZifyNat.
From Verif Require Import PyBase Classes Values Codec SpecBER SpecSMI Bits ProofsInt.
Import ListNotations.
Open Scope Z_scope.
Ltac Zify.zify_post_hook ::= Z.div_mod_to_equations.

(** ** C05 *)
Lemma range_check c lo hi v : smi_range c = Some (lo, hi) -> c <> CInteger32 ->
  integer_init c (VPyInt v) = if (lo <=? v) && (v <=? hi) then Ok (VInt c v) else Err ValueError.
Proof. intros H N. destruct c; cbn in H; inversion H; subst; try reflexivity. contradiction. Qed.
Lemma range_check_int32 v : integer_init CInteger32 (VPyInt v) =
  if (- 2 ^ 31 <=? v) && (v <=? 2 ^ 31) then Ok (VInt CInteger32 v) else Err ValueError.
Proof. reflexivity. Qed.
Lemma range_check_type c v : (forall z, v <> VPyInt z) -> integer_init c v = Err TypeError.
Proof. intros H. destruct v; try reflexivity. exfalso. apply (H z). reflexivity. Qed.
Lemma decode_bypasses_range v : 0 <= v -> exists os, octet_string os /\ os <> [] /\
  forall dec, decodeContents dec CInteger os = Ok (VInt CInteger v).
Proof.
  intros Hv. destruct (encode_nonneg_ok v Hv) as (os & _ & Ho & Ht & Hs). exists os.
  assert (os <> []) by (intros ->; exact Hs). repeat split; auto. intros dec.
  unfold decodeContents. cbn [decode_method lookup]. change (decode_method CInteger) with (Some DInteger). cbv iota.
  rewrite integer_decode_spec by assumption. rewrite Ht. reflexivity.
Qed.

(** ** C06 *)
Lemma counter_decode_spec os : octet_string os -> os <> [] ->
  counter_decodeContents os = Ok (if twos_value os <? 0 then twos_value os + 2 ^ 32 else twos_value os).
Proof.
  intros H N. unfold counter_decodeContents. rewrite integer_decode_spec by assumption. cbn [bind].
  destruct (twos_value os <? 0); reflexivity.
Qed.
Lemma counter_decode_short os : octet_string os -> 1 <= zlen os <= 4 ->
  counter_decodeContents os = Ok (twos_value os mod 2 ^ 32) /\ 0 <= twos_value os mod 2 ^ 32 < 2 ^ 32.
Proof.
  intros H L. assert (N : os <> []) by (intros ->; cbn in L; lia).
  split; [|apply Z.mod_pos_bound; lia]. rewrite counter_decode_spec by assumption. f_equal.
  pose proof (twos_value_range os H N) as R.
  assert (2 ^ (8 * zlen os - 1) <= 2 ^ 31) by (apply Z.pow_le_mono_r; lia).
  change (2 ^ 31) with 2147483648 in *. change (2 ^ 32) with 4294967296.
  destruct (Z.ltb_spec (twos_value os) 0).
  - rewrite <- (Z.mod_small (twos_value os + 4294967296) 4294967296) by lia.
    rewrite <- (Z.mod_add (twos_value os) 1 4294967296) by lia. f_equal. 
  - rewrite Z.mod_small by lia. reflexivity.
Qed.
Lemma counter_decode_unsigned os : octet_string os -> (zlen os = 4 \/ exists r, os = 0 :: r /\ zlen r = 4) ->
  counter_decodeContents os = Ok (be_value os).
Proof.
  intros H [L|(r & -> & L)].
  - assert (N : os <> []) by (intros ->; cbn in L; lia). rewrite counter_decode_spec by assumption. f_equal.
    unfold twos_value. destruct os as [|b r]; [contradiction|].
    pose proof (be_value_bound _ H) as B. change (Z.of_nat (length (b :: r))) with (zlen (b :: r)) in *. rewrite L in *.
    change (256 ^ 4) with 4294967296 in *. change (2 ^ 32) with 4294967296.
    pose proof (head_bound b r _ eq_refl H) as Hh. rewrite zlen_cons in L.
    replace (zlen r) with 3 in Hh by lia. change (256 ^ 3) with 16777216 in Hh.
    destruct (Z.ltb_spec b 128).
    + rewrite Z.sub_0_r. destruct (Z.ltb_spec (be_value (b :: r)) 0); lia.
    + destruct (Z.ltb_spec (be_value (b :: r) - 4294967296) 0); lia.
  - rewrite counter_decode_spec by (assumption || discriminate).
    pose proof (Forall_inv_tail H) as Hr. rewrite twos_value_zero by exact Hr.
    cbn [be_value]. rewrite Z.mul_0_l, Z.add_0_l. pose proof (be_value_bound r Hr).
    destruct (Z.ltb_spec (be_value r) 0); [lia|reflexivity].
Qed.
(** A Counter64 sent without its leading zero octet is always misread. *)
Lemma counter64_misread os b r : octet_string os -> os = b :: r -> 128 <= b -> zlen os = 8 ->
  exists v, decodeContents (fun _ => Err RecursionError) CCounter64 os = Ok (VInt CCounter64 v) /\ v <> be_value os /\ v < 2 ^ 32.
Proof.
  intros H -> Hb L. unfold decodeContents. change (decode_method CCounter64) with (Some DCounter). cbv iota.
  rewrite counter_decode_spec by (assumption || discriminate). cbn [bind]. eexists. split; [reflexivity|].
  unfold twos_value. change (Z.of_nat (length (b :: r))) with (zlen (b :: r)). rewrite L.
  destruct (Z.ltb_spec b 128); [lia|]. pose proof (be_value_bound _ H) as B.
  change (Z.of_nat (length (b :: r))) with (zlen (b :: r)) in B. rewrite L in B.
  change (256 ^ 8) with 18446744073709551616 in *. change (2 ^ 32) with 4294967296.
  destruct (Z.ltb_spec (be_value (b :: r) - 18446744073709551616) 0); lia.
Qed.

(** ** C07 *)
Definition counter_cls (c : cls) : Prop := c = CCounter \/ c = CCounter32 \/ c = CCounter64.
Definition counter_max (c : cls) : Z := match c with CCounter64 => 2 ^ 64 - 1 | _ => 2 ^ 32 - 1 end.
Lemma counter_max_eq c : counter_cls c -> MAXVAL c = counter_max c.
Proof. intros [->|[->| ->]]; reflexivity. Qed.
Lemma counter_max_pos c : 1 < counter_max c.
Proof. destruct c; cbn; lia. Qed.
Lemma counter_add_step c x n : counter_cls c -> 0 <= x <= counter_max c -> 0 <= n <= counter_max c ->
  counter_add c x n = ((x + n) mod (counter_max c + 1) + (if counter_max c <? x + n then 1 else 0), VNone) /\
  0 <= fst (counter_add c x n) <= counter_max c.
Proof.
  intros H Hx Hn. unfold counter_add. rewrite (counter_max_eq c H). pose proof (counter_max_pos c) as HM.
  generalize dependent (counter_max c). intros M Hx Hn HM.
  destruct (Z.ltb_spec M (x + n)); cbn [fst].
  - split; [|lia]. f_equal.
    replace (x + n) with (x + n - (M + 1) + 1 * (M + 1)) by lia. rewrite Z.mod_add, Z.mod_small by lia. lia.
  - split; [|lia]. f_equal. rewrite Z.mod_small by lia. lia.
Qed.
Definition counter_run (c : cls) (x : Z) (ns : list Z) : Z :=
  fold_left (fun v n => fst (counter_add c v n)) ns x.
Lemma counter_run_spec c ns : counter_cls c -> forall x, 0 <= x <= counter_max c ->
  Forall (fun n => 0 <= n <= counter_max c) ns ->
  0 <= counter_run c x ns <= counter_max c /\
  (exists k, x + fold_right Z.add 0 ns = counter_run c x ns + k * counter_max c) /\
  (counter_run c x ns = 0 <-> x = 0 /\ Forall (fun n => n = 0) ns).
Proof.
  intros H. induction ns as [|n ns IH]; intros x Hx F; cbn [counter_run fold_left fold_right].
  - split; [exact Hx|]. split; [exists 0; lia|]. split; [intros; split; [assumption|constructor]|tauto].
  - inversion F as [|? ? Hn Fr]; subst. destruct (counter_add_step c x n H Hx Hn) as [_ B].
    assert (D : exists j, x + n = fst (counter_add c x n) + j * counter_max c /\ (fst (counter_add c x n) = 0 <-> x = 0 /\ n = 0)).
    { unfold counter_add. rewrite (counter_max_eq c H). pose proof (counter_max_pos c).
      destruct (Z.ltb_spec (counter_max c) (x + n)); cbn [fst]; [exists 1|exists 0]; lia. }
    destruct D as (j & Ej & Z0). destruct (IH _ B Fr) as (B' & (k & Ek) & Z1).
    unfold counter_run in *. split; [exact B'|]. split; [exists (j + k); lia|].
    rewrite Z1, Z0. split.
    + intros [[-> ->] K]. split; [reflexivity|constructor; auto].
    + intros [-> K]. inversion K; subst. auto.
Qed.

(** ** C08 *)
Definition guage_cls (c : cls) : Prop := c = CGuage \/ c = CGuage32.
Definition guage_step (c : cls) (x : Z) (o : gop) : Z :=
  match o with GAdd n => fst (guage_add c x n) | GSub n => fst (guage_sub c x n) end.
Lemma guage_run_spec c ops : guage_cls c -> Forall (fun o => 0 <= gop_operand o) ops -> forall x, 0 <= x <= 2 ^ 32 - 1 ->
  fold_left (guage_step c) ops x = fold_left (sat_step 0 (2 ^ 32 - 1)) ops x /\
  0 <= fold_left (guage_step c) ops x <= 2 ^ 32 - 1.
Proof.
  intros H F. induction F as [|o ops Ho F IH]; intros x Hx; cbn [fold_left]; [split; [reflexivity|exact Hx]|].
  assert (E : guage_step c x o = sat_step 0 (2 ^ 32 - 1) x o /\ 0 <= guage_step c x o <= 2 ^ 32 - 1).
  { assert (MAXVAL c = 2 ^ 32 - 1 /\ MINVAL c = 0) as [M0 M1] by (destruct H as [->| ->]; split; reflexivity).
    destruct o as [n|n]; cbn [gop_operand guage_step sat_step] in *; unfold guage_add, guage_sub, clamp; rewrite ?M0, ?M1; cbn [fst].
    - destruct (Z.ltb_spec (2 ^ 32 - 1) (x + n)); lia.
    - destruct (Z.ltb_spec (x - n) 0); lia. }
  destruct E as [E B]. rewrite E in B |- *. apply IH. exact B.
Qed.
Lemma guage_negative_escapes c x : guage_cls c -> 0 <= x <= 2 ^ 32 - 1 ->
  fst (guage_add c x (- x - 1)) = -1 /\ fst (guage_sub c x (x - 2 ^ 32)) = 2 ^ 32.
Proof.
  intros H Hx. assert (MAXVAL c = 2 ^ 32 - 1 /\ MINVAL c = 0) as [M0 M1] by (destruct H as [->| ->]; split; reflexivity).
  unfold guage_add, guage_sub. rewrite M0, M1. cbn [fst].
  destruct (Z.ltb_spec (2 ^ 32 - 1) (x + (- x - 1))); destruct (Z.ltb_spec (x - (x - 2 ^ 32)) 0); lia.
Qed.

(** ** C09 *)
Definition in_int (v : Z) : bool := (- 2 ^ 31 <=? v) && (v <=? 2 ^ 31 - 1).
Lemma integer_add_spec a b : integer_add CInteger a (VPyInt b) =
  if in_int b && in_int (a + b) then Ok (VInt CInteger (a + b)) else Err ValueError.
Proof.
  unfold integer_add, coerce_operand. change (isinstance (VPyInt b) CInteger) with false. cbv iota.
  rewrite (range_check CInteger _ _ b eq_refl ltac:(discriminate)). unfold in_int.
  destruct ((- 2 ^ 31 <=? b) && (b <=? 2 ^ 31 - 1)); cbn [bind py_int andb]; [|reflexivity].
  rewrite (range_check CInteger _ _ (a + b) eq_refl ltac:(discriminate)). reflexivity.
Qed.
Lemma integer_add_objects a c b : issubclass c CInteger = true -> integer_add CInteger a (VInt c b) =
  if in_int (a + b) then Ok (VInt CInteger (a + b)) else Err ValueError.
Proof.
  intros H. unfold integer_add, coerce_operand. unfold isinstance. cbn [class_of]. rewrite H. cbn [py_int bind].
  rewrite (range_check CInteger _ _ (a + b) eq_refl ltac:(discriminate)). reflexivity.
Qed.
Lemma integer_sub_is_add c a v : integer_sub c a v = integer_add c a v.
Proof. reflexivity. Qed.
Lemma integer_sub_wrong a b : b <> 0 -> integer_sub CInteger a (VPyInt b) <> Ok (VInt CInteger (a - b)).
Proof.
  intros Hb E. rewrite integer_sub_is_add, integer_add_spec in E.
  destruct (in_int b && in_int (a + b)); [|discriminate]. inversion E. lia.
Qed.

(** ** C17 *)
Definition miswritten (c : cls) : bool :=
  match c with
  | CCounter64 | COpaque | CNoSuchObject | CNoSuchInstance | CEndOfMibView | CResponse => true
  | _ => false
  end.
Lemma identifier_right c k : kind_of c = Some k -> miswritten c = false -> class_identifier c = Ok [kind_octet k].
Proof. destruct c; cbn [kind_of miswritten]; intros H M; inversion H; try discriminate; reflexivity. Qed.
Lemma identifier_wrong c k : kind_of c = Some k -> miswritten c = true ->
  exists t, class_identifier c = Ok [t] /\ t <> kind_octet k.
Proof.
  destruct c; cbn [kind_of miswritten]; intros H M; inversion H; try discriminate;
    eexists; (split; [vm_compute; reflexivity|vm_compute; discriminate]).
Qed.
Lemma identifier_exceptions :
  class_identifier CCounter64 = Ok [0x07] /\ class_identifier COpaque = Ok [0x04] /\
  class_identifier CNoSuchObject = Ok [0x05] /\ class_identifier CNoSuchInstance = Ok [0x05] /\
  class_identifier CEndOfMibView = Ok [0x05] /\ class_identifier CResponse = Ok [0xa0] /\
  class_identifier CPDU = Ok [0xb0] /\ class_identifier CPDU_v2 = Ok [0xb0] /\ class_identifier CBulkPDU = Ok [0xb0] /\
  class_identifier CAsn1Object = Err TypeError.
Proof. repeat split. Qed.
Lemma table_right k t c : reg_get (reg_of k) t = Some c -> exists d, kind_of c = Some d /\ kind_octet d = t.
Proof.
  assert (H : forall r, forallb (fun p => match kind_of (snd p) with Some d => kind_octet d =? fst p | None => false end) r = true ->
              reg_get r t = Some c -> exists d, kind_of c = Some d /\ kind_octet d = t).
  { induction r as [|[j e] r IH]; cbn [forallb reg_get fst snd]; [discriminate|].
    destruct (Z.eqb_spec j t); intros F E.
    - inversion E; subst. destruct (kind_of c); [|discriminate]. eexists; split; [reflexivity|lia].
    - apply andb_prop in F. apply IH; tauto. }
  apply H. destruct k; vm_compute; reflexivity.
Qed.
Lemma table_complete d : exists c, reg_get (reg_of Upto1905) (kind_octet d) = Some c /\ kind_of c = Some d.
Proof. destruct d; eexists; split; vm_compute; reflexivity. Qed.
Lemma counter64_undecodable k : reg_get (reg_of k) 0x07 = None.
Proof. destruct k; reflexivity. Qed.
(** The class that comes back for what is written. *)
Lemma written_then_read c k : kind_of c = Some k -> miswritten c = false ->
  exists t d, class_identifier c = Ok [t] /\ reg_get (reg_of Upto1905) t = Some d /\ kind_of d = Some k.
Proof.
  intros H M. exists (kind_octet k). destruct (table_complete k) as (d & E & K). exists d.
  split; [apply identifier_right; assumption|auto].
Qed.

(** ** C31 *)
Lemma hex2_octet b : 0 <= b < 256 -> hex2 b = [hex_digit (b / 16); hex_digit (b mod 16)] /\
  16 * hex_digit_value (hex_digit (b / 16)) + hex_digit_value (hex_digit (b mod 16)) = b.
Proof.
  intros H.
  pose proof (octet_sweep (fun b => (if list_eq_dec Z.eq_dec (hex2 b) [hex_digit (b / 16); hex_digit (b mod 16)] then true else false)
    && (16 * hex_digit_value (hex_digit (b / 16)) + hex_digit_value (hex_digit (b mod 16)) =? b)) ltac:(vm_compute; reflexivity) b H) as S.
  cbv beta in S. apply andb_prop in S as [S1 S2]. destruct (list_eq_dec _ _ _); [|discriminate]. split; [assumption|lia].
Qed.
Lemma hex_roundtrip os : octet_string os -> read_hex (octetsToHex os) = Some os /\ length (octetsToHex os) = (2 * length os)%nat.
Proof.
  induction 1 as [|b r Hb Hr [IH1 IH2]]; cbn [octetsToHex]; [split; reflexivity|].
  destruct (hex2_octet b Hb) as [E V]. rewrite E. cbn [app read_hex length]. rewrite IH1, V, IH2. split; [reflexivity|lia].
Qed.
Lemma hex_injective a b : octet_string a -> octet_string b -> octetsToHex a = octetsToHex b -> a = b.
Proof.
  intros Ha Hb E. destruct (hex_roundtrip a Ha) as [A _]. destruct (hex_roundtrip b Hb) as [B _]. congruence.
Qed.

(** ** C51 *)
Lemma octetstring_v2_never limit s : octetstring_v2_init limit s =
  if (65535 <? zlen s) && Nat.ltb 0 limit then Err ValueError else Err RecursionError.
Proof.
  induction limit as [|n IH]; cbn [octetstring_v2_init]; [rewrite andb_comm; reflexivity|].
  change (Nat.ltb 0 (S n)) with true. rewrite andb_true_r. destruct (65535 <? zlen s) eqn:E; [reflexivity|].
  rewrite IH. reflexivity.
Qed.

(** ** Restatements with inlined drivers, for the property file *)
Lemma counter_smi c M : c = CCounter \/ c = CCounter32 \/ c = CCounter64 -> smi_range c = Some (0, M) ->
  counter_cls c /\ M = counter_max c.
Proof. intros H E. split; [exact H|]. destruct H as [->|[->| ->]]; inversion E; reflexivity. Qed.
Lemma counter_step_prop c M x n : c = CCounter \/ c = CCounter32 \/ c = CCounter64 -> smi_range c = Some (0, M) ->
  0 <= x <= M -> 0 <= n <= M ->
  counter_add c x n = ((x + n) mod (M + 1) + (if M <? x + n then 1 else 0), VNone) /\
  0 <= fst (counter_add c x n) <= M.
Proof. intros H E. destruct (counter_smi c M H E) as [K ->]. apply counter_add_step. exact K. Qed.
Lemma counter_run_prop c M x ns : c = CCounter \/ c = CCounter32 \/ c = CCounter64 -> smi_range c = Some (0, M) ->
  0 <= x <= M -> Forall (fun n => 0 <= n <= M) ns ->
  let final := fold_left (fun v n => fst (counter_add c v n)) ns x in
  0 <= final <= M /\ (exists k, x + fold_right Z.add 0 ns = final + k * M) /\
  (final = 0 <-> x = 0 /\ Forall (fun n => n = 0) ns).
Proof. intros H E Hx F. destruct (counter_smi c M H E) as [K ->]. exact (counter_run_spec c ns K x Hx F). Qed.
Lemma guage_run_prop c ops x : c = CGuage \/ c = CGuage32 -> 0 <= x <= 2 ^ 32 - 1 ->
  Forall (fun o => 0 <= gop_operand o) ops ->
  let run := fold_left (fun v o => match o with GAdd n => fst (guage_add c v n) | GSub n => fst (guage_sub c v n) end) ops x in
  run = fold_left (sat_step 0 (2 ^ 32 - 1)) ops x /\ 0 <= run <= 2 ^ 32 - 1.
Proof. intros H Hx F. exact (guage_run_spec c ops H F x Hx). Qed.
Lemma integer_add_prop a b : integer_add CInteger a (VPyInt b) =
  if ((- 2 ^ 31 <=? b) && (b <=? 2 ^ 31 - 1)) && ((- 2 ^ 31 <=? a + b) && (a + b <=? 2 ^ 31 - 1))
  then Ok (VInt CInteger (a + b)) else Err ValueError.
Proof. exact (integer_add_spec a b). Qed.
Lemma integer_sub_prop a b : integer_sub CInteger a (VPyInt b) =
  if ((- 2 ^ 31 <=? b) && (b <=? 2 ^ 31 - 1)) && ((- 2 ^ 31 <=? a + b) && (a + b <=? 2 ^ 31 - 1))
  then Ok (VInt CInteger (a + b)) else Err ValueError.
Proof. exact (integer_add_spec a b). Qed.
Lemma identifier_right_prop c k : kind_of c = Some k ->
  ~ In c [CCounter64; COpaque; CNoSuchObject; CNoSuchInstance; CEndOfMibView; CResponse] ->
  class_identifier c = Ok [kind_octet k].
Proof.
  intros H N. apply identifier_right; [exact H|]. destruct c; try reflexivity; exfalso; apply N; cbn; tauto.
Qed.
Lemma identifier_wrong_prop c : In c [CCounter64; COpaque; CNoSuchObject; CNoSuchInstance; CEndOfMibView; CResponse] ->
  exists k t, kind_of c = Some k /\ class_identifier c = Ok [t] /\ t <> kind_octet k.
Proof.
  cbn. intros H.
  assert (exists k, kind_of c = Some k) as [k K] by (decompose [or] H; subst; try contradiction; cbn; eauto).
  exists k. destruct (identifier_wrong c k K) as (t & E & N); [|eauto].
  decompose [or] H; subst; try contradiction; reflexivity.
Qed.
Lemma written_then_read_prop c k : kind_of c = Some k ->
  ~ In c [CCounter64; COpaque; CNoSuchObject; CNoSuchInstance; CEndOfMibView; CResponse] ->
  exists t d, class_identifier c = Ok [t] /\ reg_get (reg_of Upto1905) t = Some d /\ kind_of d = Some k.
Proof.
  intros H N. apply written_then_read; [exact H|]. destruct c; try reflexivity; exfalso; apply N; cbn; tauto.
Qed.
Lemma counter64_misread_prop b r : octet_string (b :: r) -> 128 <= b -> zlen (b :: r) = 8 ->
  exists v, decodeContents (fun _ => Err RecursionError) CCounter64 (b :: r) = Ok (VInt CCounter64 v) /\
            v <> be_value (b :: r) /\ v < 2 ^ 32.
Proof. intros H. exact (counter64_misread (b :: r) b r H eq_refl). Qed.
Lemma oct_witness : octetsToOct [64] = octetsToOct [65] /\ octet_string [64; 65].
Proof. split; [reflexivity|]. repeat (apply Forall_cons; [lia|]); constructor. Qed.
Lemma oct_written os : octet_string os -> octetsToOct os = flat_map oct_item os.
Proof.
  induction 1 as [|b r Hb Hr IH]; [reflexivity|]. cbn [octetsToOct flat_map]. rewrite IH.
  assert (E : ztake 4 (py_oct b) ++ [44] = oct_item b).
  { pose proof (octet_sweep (fun b => if list_eq_dec Z.eq_dec (ztake 4 (py_oct b) ++ [44]) (oct_item b) then true else false) ltac:(vm_compute; reflexivity) b Hb) as S.
    cbv beta in S. destruct (list_eq_dec _ _ _); [assumption|discriminate]. }
  rewrite <- E, <- app_assoc. reflexivity.
Qed.
Lemma oct_small a b : Forall (fun x => 0 <= x < 64) a -> Forall (fun x => 0 <= x < 64) b -> octetsToOct a = octetsToOct b -> a = b.
Proof.
  intros Ha Hb. rewrite !oct_written by (eapply Forall_impl; [|eassumption]; intros; cbv beta in *; lia). revert b Hb.
  induction Ha as [|x a Hx Ha IH]; intros [|y b] Hb E; [reflexivity| | |].
  - exfalso. cbn [flat_map] in E. unfold oct_item in E. discriminate E.
  - exfalso. cbn [flat_map] in E. unfold oct_item in E. discriminate E.
  - inversion Hb as [|? ? Hy Hb']; subst. assert (Q : forall x y r s, 0 <= x < 64 -> 0 <= y < 64 -> oct_item x ++ r = oct_item y ++ s -> x = y /\ r = s).
    { clear. intros x y r s Hx Hy E. pose proof (Z.mod_pos_bound x 8). pose proof (Z.mod_pos_bound y 8). unfold oct_item in E. rewrite (proj2 (Z.ltb_lt x 64)), (proj2 (Z.ltb_lt y 64)) in E by lia.
      destruct (Z.ltb_spec x 8) as [A|A], (Z.ltb_spec y 8) as [B|B]; cbn [map app] in E; remember (Z.add 48) as f eqn:F; injection E; intros; subst f.
      - split; [lia|assumption].
      - exfalso. lia.
      - exfalso. lia.
      - split; [|assumption]. pose proof (Z.div_mod x 8). pose proof (Z.div_mod y 8). lia. }
    destruct (Q _ _ _ _ Hx Hy E) as [-> E']. f_equal. apply IH; assumption.
Qed.
