(** * C01-C04: lengths and integers on the wire.  Statements only; proofs in ProofsInt. *)
From Coq Require Import ZArith List Bool Lia.
From Verif Require Import PyBase Codec SpecBER ProofsInt.
Import ListNotations.
Open Scope Z_scope.

(** C01. Length field round trip, for every length that can occur. *)
Theorem C01_length_roundtrip : forall n rest, 0 <= n < 256 ^ 127 ->
  exists os, encodeLength n = Ok os /\ decodeLength (os ++ rest) = Ok (n, rest).
Proof. exact length_roundtrip. Qed.
Print Assumptions C01_length_roundtrip.

(** C01. The octets are a legal X.690 definite length, with the fewest long-form octets. *)
Theorem C01_length_legal : forall n, 0 <= n < 256 ^ 126 ->
  exists os, encodeLength n = Ok os /\ ber_length n os /\
    match os with
    | [] => False
    | [b] => n < 127 /\ b = n
    | _ :: d :: _ => 127 <= n /\ d <> 0
    end.
Proof. exact length_legal. Qed.
Print Assumptions C01_length_legal.

(** C01. Every legal definite length, minimal or not, written by anyone, is read correctly. *)
Theorem C01_length_interop : forall n os rest, ber_length n os ->
  decodeLength (os ++ rest) = Ok (n, rest).
Proof. exact ber_length_decode. Qed.
Print Assumptions C01_length_interop.

Example C01_example : encodeLength 300 = Ok [130; 1; 44] /\ decodeLength [130; 1; 44; 9] = Ok (300, [9])
  /\ ber_length 300 [130; 1; 44].
Proof.
  split; [reflexivity|split; [reflexivity|]]. right. exists [1; 44]. cbn.
  repeat split; try lia. repeat constructor; lia.
Qed.

(** C02. Integer contents decode as two's complement, of any length. *)
Theorem C02_integer_decode : forall os, octet_string os -> os <> [] ->
  integer_decodeContents os = Ok (twos_value os).
Proof. exact integer_decode_spec. Qed.
Print Assumptions C02_integer_decode.

Theorem C02_integer_decode_empty : integer_decodeContents [] = Err IndexError.
Proof. exact eq_refl. Qed.
Print Assumptions C02_integer_decode_empty.

Example C02_example : octet_string [255; 127; 0] /\ integer_decodeContents [255; 127; 0] = Ok (-33024)
  /\ twos_value [255; 127; 0] = -33024.
Proof. split; [repeat constructor; lia|split; reflexivity]. Qed.

(** C03. Exact domain of the integer round trip. *)
Theorem C03_integer_roundtrip_domain : forall v,
  (os <- integer_encodeContents v ;; integer_decodeContents os) = Ok v <->
  (-1 <= v \/ exists k, 1 <= k /\ - 2 ^ (8 * k - 1) <= v < - 256 ^ (k - 1)).
Proof. exact int_roundtrip_iff. Qed.
Print Assumptions C03_integer_roundtrip_domain.

(** C03. Outside it, a non-negative number comes back. *)
Theorem C03_integer_bad_value : forall v,
  ~ (-1 <= v \/ exists k, 1 <= k /\ - 2 ^ (8 * k - 1) <= v < - 256 ^ (k - 1)) ->
  exists k os, 1 <= k /\ - 256 ^ k <= v < - 2 ^ (8 * k - 1) /\ integer_encodeContents v = Ok os /\
    integer_decodeContents os = Ok (v + 256 ^ k) /\ 0 <= v + 256 ^ k.
Proof. exact int_roundtrip_bad. Qed.
Print Assumptions C03_integer_bad_value.

(** C03. For the 32-bit range of the SNMP INTEGER: exactly three bad intervals. *)
Theorem C03_integer_bad_32bit : forall v, - 2147483648 <= v <= 2147483647 ->
  (~ (-1 <= v \/ exists k, 1 <= k /\ - 2 ^ (8 * k - 1) <= v < - 256 ^ (k - 1)) <->
   (-256 <= v <= -129) \/ (-65536 <= v <= -32769) \/ (-16777216 <= v <= -8388609)).
Proof. exact int_bad_32bit. Qed.
Print Assumptions C03_integer_bad_32bit.

(** C03. Inside the domain the octets are the shortest two's complement form. *)
Theorem C03_integer_shortest : forall v os,
  (-1 <= v \/ exists k, 1 <= k /\ - 2 ^ (8 * k - 1) <= v < - 256 ^ (k - 1)) ->
  integer_encodeContents v = Ok os ->
  octet_string os /\ shortest_form os /\ twos_value os = v /\
  forall other, octet_string other -> other <> [] -> twos_value other = v -> zlen os <= zlen other.
Proof. exact int_encode_shortest. Qed.
Print Assumptions C03_integer_shortest.

(** C03. Encoding itself never fails and never loops forever. *)
Theorem C03_integer_encode_total : forall v, exists os,
  integer_encodeContents v = Ok os /\ octet_string os /\ os <> [].
Proof. exact int_encode_total. Qed.
Print Assumptions C03_integer_encode_total.

(** C03. The plain round trip is false. *)
Theorem C03_integer_roundtrip_refuted : exists v, -2147483648 <= v <= 2147483647 /\
  (os <- integer_encodeContents v ;; integer_decodeContents os) = Ok 127 /\ v = -129.
Proof. exact int_roundtrip_witness. Qed.
Print Assumptions C03_integer_roundtrip_refuted.

Example C03_example : integer_encodeContents (-128) = Ok [128] /\ integer_encodeContents (-257) = Ok [254; 255]
  /\ integer_encodeContents 128 = Ok [0; 128].
Proof. repeat split. Qed.

(** C04. The four decoders agree everywhere. *)
Theorem C04_decoders_agree : forall os, octet_string os -> os <> [] ->
  integer_decodeContents os = Ok (twos_value os) /\
  decodeTwosInteger1 os = Ok (twos_value os) /\
  decodeTwosInteger2 os = Ok (twos_value os) /\
  decodeTwosInteger3 os = Ok (twos_value os).
Proof.
  exact (fun os H N => conj (integer_decode_spec os H N)
           (conj (twos1_spec os H N) (conj (twos2_spec os H N) (twos3_spec os H N)))).
Qed.
Print Assumptions C04_decoders_agree.
Theorem C04_decoders_empty : integer_decodeContents [] = Err IndexError /\
  decodeTwosInteger1 [] = Err IndexError /\ decodeTwosInteger2 [] = Err IndexError /\
  decodeTwosInteger3 [] = Err IndexError.
Proof. exact (conj eq_refl (conj eq_refl (conj eq_refl eq_refl))). Qed.
Print Assumptions C04_decoders_empty.
Example C04_example : decodeTwosInteger3 [128; 0; 1] = Ok (-8388607).
Proof. reflexivity. Qed.
