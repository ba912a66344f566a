(** * C05-C09, C17, C31, C51.  Statements only; proofs in ProofsScalar. *)
From Coq Require Import ZArith List Bool Lia.
From Verif Require Import PyBase Classes Values Codec SpecBER SpecSMI ProofsScalar.
Import ListNotations.
Open Scope Z_scope.

(** C05. Constructors accept exactly the SMI range (all classes but Integer32). *)
Theorem C05_range_check : forall c lo hi v, smi_range c = Some (lo, hi) -> c <> CInteger32 ->
  integer_init c (VPyInt v) = if (lo <=? v) && (v <=? hi) then Ok (VInt c v) else Err ValueError.
Proof. exact range_check. Qed.
Print Assumptions C05_range_check.
(** C05. Integer32 accepts one value too many. *)
Theorem C05_range_check_int32 : forall v, integer_init CInteger32 (VPyInt v) =
  if (- 2 ^ 31 <=? v) && (v <=? 2 ^ 31) then Ok (VInt CInteger32 v) else Err ValueError.
Proof. exact range_check_int32. Qed.
Print Assumptions C05_range_check_int32.
Theorem C05_int32_range_refuted : smi_range CInteger32 = Some (- 2 ^ 31, 2 ^ 31 - 1) /\
  integer_init CInteger32 (VPyInt (2 ^ 31)) = Ok (VInt CInteger32 (2 ^ 31)).
Proof. exact (conj eq_refl eq_refl). Qed.
Print Assumptions C05_int32_range_refuted.
(** C05. Anything but a Python int, e.g. another Integer object, is a TypeError. *)
Theorem C05_type_check : forall c v, (forall z, v <> VPyInt z) -> integer_init c v = Err TypeError.
Proof. exact range_check_type. Qed.
Print Assumptions C05_type_check.
(** C05. Decoding bypasses the check: every non-negative number can come out of an Integer. *)
Theorem C05_decode_bypasses_range : forall v, 0 <= v -> exists os, octet_string os /\ os <> [] /\
  forall dec, decodeContents dec CInteger os = Ok (VInt CInteger v).
Proof. exact decode_bypasses_range. Qed.
Print Assumptions C05_decode_bypasses_range.
Example C05_example : integer_init CGuage (VPyInt 4294967295) = Ok (VInt CGuage 4294967295) /\
  integer_init CGuage (VPyInt (-1)) = Err ValueError.
Proof. split; reflexivity. Qed.

(** C06. Counter contents of one to four octets are read modulo 2^32. *)
Theorem C06_counter_decode_mod : forall os, octet_string os -> 1 <= zlen os <= 4 ->
  counter_decodeContents os = Ok (twos_value os mod 2 ^ 32) /\ 0 <= twos_value os mod 2 ^ 32 < 2 ^ 32.
Proof. exact counter_decode_short. Qed.
Print Assumptions C06_counter_decode_mod.
(** C06. Four octets, or five starting with zero, are read as the unsigned number. *)
Theorem C06_counter_decode_unsigned : forall os, octet_string os ->
  (zlen os = 4 \/ exists r, os = 0 :: r /\ zlen r = 4) -> counter_decodeContents os = Ok (be_value os).
Proof. exact counter_decode_unsigned. Qed.
Print Assumptions C06_counter_decode_unsigned.
(** C06. A Counter64 sent in eight octets with the top bit set is always misread. *)
Theorem C06_counter64_misread_refuted : forall b r, octet_string (b :: r) -> 128 <= b -> zlen (b :: r) = 8 ->
  exists v, decodeContents (fun _ => Err RecursionError) CCounter64 (b :: r) = Ok (VInt CCounter64 v) /\
            v <> be_value (b :: r) /\ v < 2 ^ 32.
Proof. exact counter64_misread_prop. Qed.
Print Assumptions C06_counter64_misread_refuted.
(** C06. The repair only works for four octets: a one-octet 200 becomes 2^32-56. *)
Theorem C06_short_counter_refuted : counter_decodeContents [200] = Ok 4294967240 /\ be_value [200] = 200.
Proof. exact (conj eq_refl eq_refl). Qed.
Print Assumptions C06_short_counter_refuted.
Example C06_example : counter_decodeContents [255; 255; 255; 254] = Ok 4294967294.
Proof. reflexivity. Qed.

(** C07. One increment: one more than modulo arithmetic when it wraps; returns None. *)
Theorem C07_counter_step : forall c M x n, c = CCounter \/ c = CCounter32 \/ c = CCounter64 ->
  smi_range c = Some (0, M) -> 0 <= x <= M -> 0 <= n <= M ->
  counter_add c x n = ((x + n) mod (M + 1) + (if M <? x + n then 1 else 0), VNone) /\
  0 <= fst (counter_add c x n) <= M.
Proof. exact counter_step_prop. Qed.
Print Assumptions C07_counter_step.
(** C07. Any sequence of increments counts modulo MAX (not MAX+1) and never returns to zero. *)
Theorem C07_counter_history : forall c M x ns, c = CCounter \/ c = CCounter32 \/ c = CCounter64 ->
  smi_range c = Some (0, M) -> 0 <= x <= M -> Forall (fun n => 0 <= n <= M) ns ->
  let final := fold_left (fun v n => fst (counter_add c v n)) ns x in
  0 <= final <= M /\ (exists k, x + fold_right Z.add 0 ns = final + k * M) /\
  (final = 0 <-> x = 0 /\ Forall (fun n => n = 0) ns).
Proof. exact counter_run_prop. Qed.
Print Assumptions C07_counter_history.
Theorem C07_counter_wrap_refuted : counter_add CCounter (2 ^ 32 - 1) 1 = (1, VNone).
Proof. exact eq_refl. Qed.
Print Assumptions C07_counter_wrap_refuted.
Example C07_example : fold_left (fun v n => fst (counter_add CCounter64 v n)) [5; 2 ^ 64 - 3; 7] 4 = 14.
Proof. reflexivity. Qed.

(** C08. Guage arithmetic is saturating arithmetic, over any history. *)
Theorem C08_guage_saturates : forall c ops x, c = CGuage \/ c = CGuage32 -> 0 <= x <= 2 ^ 32 - 1 ->
  Forall (fun o => 0 <= gop_operand o) ops ->
  let run := fold_left (fun v o => match o with GAdd n => fst (guage_add c v n) | GSub n => fst (guage_sub c v n) end) ops x in
  run = fold_left (sat_step 0 (2 ^ 32 - 1)) ops x /\ 0 <= run <= 2 ^ 32 - 1.
Proof. exact guage_run_prop. Qed.
Print Assumptions C08_guage_saturates.
(** C08. Negative operands leave the range, from every state. *)
Theorem C08_guage_negative_refuted : forall c x, c = CGuage \/ c = CGuage32 -> 0 <= x <= 2 ^ 32 - 1 ->
  fst (guage_add c x (- x - 1)) = -1 /\ fst (guage_sub c x (x - 2 ^ 32)) = 2 ^ 32.
Proof. exact guage_negative_escapes. Qed.
Print Assumptions C08_guage_negative_refuted.
Example C08_example : fold_left (sat_step 0 (2 ^ 32 - 1)) [GAdd (2 ^ 33); GSub 5; GSub (2 ^ 34); GAdd 3] 17 = 3.
Proof. reflexivity. Qed.

(** C09. Addition is right and checked; subtraction adds. *)
Theorem C09_integer_add : forall a b, integer_add CInteger a (VPyInt b) =
  if ((- 2 ^ 31 <=? b) && (b <=? 2 ^ 31 - 1)) && ((- 2 ^ 31 <=? a + b) && (a + b <=? 2 ^ 31 - 1))
  then Ok (VInt CInteger (a + b)) else Err ValueError.
Proof. exact integer_add_prop. Qed.
Print Assumptions C09_integer_add.
Theorem C09_integer_sub_adds : forall a b, integer_sub CInteger a (VPyInt b) =
  if ((- 2 ^ 31 <=? b) && (b <=? 2 ^ 31 - 1)) && ((- 2 ^ 31 <=? a + b) && (a + b <=? 2 ^ 31 - 1))
  then Ok (VInt CInteger (a + b)) else Err ValueError.
Proof. exact integer_sub_prop. Qed.
Print Assumptions C09_integer_sub_adds.
Theorem C09_integer_sub_refuted : forall a b, b <> 0 ->
  integer_sub CInteger a (VPyInt b) <> Ok (VInt CInteger (a - b)).
Proof. exact integer_sub_wrong. Qed.
Print Assumptions C09_integer_sub_refuted.
Example C09_example : integer_add CInteger 3 (VPyInt 4) = Ok (VInt CInteger 7) /\ integer_sub CInteger 3 (VPyInt 4) = Ok (VInt CInteger 7).
Proof. split; reflexivity. Qed.

(** C17. Identifier octets are the standard ones except for six classes. *)
Theorem C17_identifier_right : forall c k, kind_of c = Some k ->
  ~ In c [CCounter64; COpaque; CNoSuchObject; CNoSuchInstance; CEndOfMibView; CResponse] ->
  class_identifier c = Ok [kind_octet k].
Proof. exact identifier_right_prop. Qed.
Print Assumptions C17_identifier_right.
Theorem C17_identifier_refuted : forall c,
  In c [CCounter64; COpaque; CNoSuchObject; CNoSuchInstance; CEndOfMibView; CResponse] ->
  exists k t, kind_of c = Some k /\ class_identifier c = Ok [t] /\ t <> kind_octet k.
Proof. exact identifier_wrong_prop. Qed.
Print Assumptions C17_identifier_refuted.
Theorem C17_identifier_exceptions :
  class_identifier CCounter64 = Ok [0x07] /\ class_identifier COpaque = Ok [0x04] /\
  class_identifier CNoSuchObject = Ok [0x05] /\ class_identifier CNoSuchInstance = Ok [0x05] /\
  class_identifier CEndOfMibView = Ok [0x05] /\ class_identifier CResponse = Ok [0xa0] /\
  class_identifier CPDU = Ok [0xb0] /\ class_identifier CPDU_v2 = Ok [0xb0] /\ class_identifier CBulkPDU = Ok [0xb0] /\
  class_identifier CAsn1Object = Err TypeError.
Proof. exact identifier_exceptions. Qed.
Print Assumptions C17_identifier_exceptions.
(** C17. The decode table maps every octet to a class of the standard kind, whatever has been imported. *)
Theorem C17_table_right : forall k t c, reg_get (reg_of k) t = Some c ->
  exists d, kind_of c = Some d /\ kind_octet d = t.
Proof. exact table_right. Qed.
Print Assumptions C17_table_right.
(** C17. And to which class exactly depends on what has been imported. *)
Theorem C17_table_classes : forall cfg t c, reg_get (reg_of cfg) t = Some c <-> exists k, t = kind_octet k /\ read_class cfg k = Some c.
Proof.
  intros cfg t c. split.
  - intros E. destruct (table_right cfg t c E) as (k & K & T). exists k. split; [symmetry; exact T|]. subst t. destruct cfg, k; cbn in E |- *; try discriminate E; exact E.
  - intros (k & -> & R). destruct cfg, k; cbn in R |- *; try discriminate R; exact R.
Qed.
Print Assumptions C17_table_classes.
(** C17. With everything imported every standard kind can be decoded. *)
Theorem C17_table_complete : forall d, exists c,
  reg_get (reg_of Upto1905) (kind_octet d) = Some c /\ kind_of c = Some d.
Proof. exact table_complete. Qed.
Print Assumptions C17_table_complete.
(** C17. What is written by a class is read back as the same kind. *)
Theorem C17_written_then_read : forall c k, kind_of c = Some k ->
  ~ In c [CCounter64; COpaque; CNoSuchObject; CNoSuchInstance; CEndOfMibView; CResponse] ->
  exists t d, class_identifier c = Ok [t] /\ reg_get (reg_of Upto1905) t = Some d /\ kind_of d = Some k.
Proof. exact written_then_read_prop. Qed.
Print Assumptions C17_written_then_read.
Theorem C17_counter64_undecodable : forall k, reg_get (reg_of k) 0x07 = None.
Proof. exact counter64_undecodable. Qed.
Print Assumptions C17_counter64_undecodable.
Example C17_example : kind_of CVarBind = Some KSequence /\ class_identifier CVarBind = Ok [0x30].
Proof. split; reflexivity. Qed.

(** C31. The hex dump can be read back; the octal dump cannot. *)
Theorem C31_hex_faithful : forall os, octet_string os ->
  read_hex (octetsToHex os) = Some os /\ length (octetsToHex os) = (2 * length os)%nat.
Proof. exact hex_roundtrip. Qed.
Print Assumptions C31_hex_faithful.
Theorem C31_hex_injective : forall a b, octet_string a -> octet_string b -> octetsToHex a = octetsToHex b -> a = b.
Proof. exact hex_injective. Qed.
Print Assumptions C31_hex_injective.
(** C31. The octal dump, exactly: the digit of the ones is lost from 64 on; below 64 nothing is lost. *)
Theorem C31_oct_exact : forall os, octet_string os -> octetsToOct os = flat_map oct_item os.
Proof. exact oct_written. Qed.
Print Assumptions C31_oct_exact.
Theorem C31_oct_injective_below_64 : forall a b, Forall (fun x => 0 <= x < 64) a -> Forall (fun x => 0 <= x < 64) b -> octetsToOct a = octetsToOct b -> a = b.
Proof. exact oct_small. Qed.
Print Assumptions C31_oct_injective_below_64.
Theorem C31_oct_refuted : octetsToOct [64] = octetsToOct [65] /\ octet_string [64; 65].
Proof. exact oct_witness. Qed.
Print Assumptions C31_oct_refuted.
Example C31_example : octetsToHex [10; 255] = [48; 97; 102; 102] /\ octetsToOct [7; 63; 255] = [48; 111; 55; 44; 48; 111; 55; 55; 44; 48; 111; 51; 55; 44].
Proof. split; reflexivity. Qed.

(** C51. rfc1902.OctetString(value) never returns a value. *)
Theorem C51_octetstring_v2 : forall limit s, octetstring_v2_init limit s =
  if (65535 <? zlen s) && Nat.ltb 0 limit then Err ValueError else Err RecursionError.
Proof. exact octetstring_v2_never. Qed.
Print Assumptions C51_octetstring_v2.
