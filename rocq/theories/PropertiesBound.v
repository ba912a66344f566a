(** * C93: what decoding builds is bounded by what it reads.  Statements; proofs in ProofsBound. *)
From Coq Require Import ZArith List Bool Lia.
From Verif Require Import PyBase Classes Values Codec SpecBER SpecNumber SpecSize SpecBound Bits ProofsNumber ProofsBound.
Import ListNotations.
Open Scope Z_scope.

(** C93. Whatever lengths the octets claim: every object decode() returns, at any depth, has taken two octets of its own, every integer a third, every character of a string and every component of an
    identifier but the first one octet more. *)
Theorem C93_bounded : forall reg depth s l, octet_string s -> decode reg depth s = Ok l ->
  2 * sum objects l + sum characters l + sum components l + sum integers l <= zlen s.
Proof.
  intros reg depth s l O E. rewrite <- sum_weight. pose proof (zlen_nonneg s). exact (proj1 (decode_bound (zlen s + 4) reg ltac:(lia) depth s l O ltac:(lia) E)).
Qed.
Print Assumptions C93_bounded.
(** C93. The same for a message: its version, community and data are no bigger than the datagram, less the two octets around them. *)
Theorem C93_message : forall reg depth c s m, octet_string s -> message_decode reg depth c (DStr s) = Ok m -> let l := [m_version m; m_community m; m_data m] in
  2 + 2 * sum objects l + sum characters l + sum components l + sum integers l <= zlen s.
Proof.
  intros reg depth c s m O E. cbn zeta. pose proof (zlen_nonneg s). destruct (message_bound (zlen s + 4) reg depth c s m ltac:(lia) O ltac:(lia) E) as [A _].
  unfold weight in A. unfold sum. cbn [fold_right]. lia.
Qed.
Print Assumptions C93_message.
(** C93. Every integer in what was decoded from n octets is below 256^(n-2) (or 256^4: a Counter adds 2^32 to a negative number), every component of an identifier below 128^(n-2) (or 128^4). *)
Theorem C93_numbers : forall reg depth s l v, octet_string s -> decode reg depth s = Ok l -> In v l -> let k := Z.max 4 (zlen s - 2) in
  (forall c z, part (VInt c z) v -> Z.abs z < 256 ^ k) /\ (forall xs x, part (VOid (Some xs)) v -> In x xs -> 0 <= x < 128 ^ k).
Proof.
  intros reg depth s l v O E I0. cbn zeta. destruct (decode_bound (Z.max 4 (zlen s - 2)) reg ltac:(lia) depth s l O ltac:(lia) E) as [_ B].
  rewrite Forall_forall in B. destruct (B v I0) as [_ S]. split.
  - intros c z P. exact (part_small _ _ _ P S).
  - intros xs x P Ix. assert (Q := part_small _ _ _ P S). cbn [small] in Q. rewrite Forall_forall in Q. auto.
Qed.
Print Assumptions C93_numbers.
(** C93. So CPython's limit on converting integers to text, 4300 digits, cannot be met by anything in a datagram of up to 1787 octets. *)
Theorem C93_digits : forall reg depth s l v, octet_string s -> zlen s <= 1787 -> decode reg depth s = Ok l -> In v l ->
  (forall c z d, part (VInt c z) v -> decimal (Z.abs z) d -> zlen d <= 4300) /\ (forall xs x d, part (VOid (Some xs)) v -> In x xs -> decimal x d -> zlen d <= 4300).
Proof.
  intros reg depth s l v O L E I0. destruct (C93_numbers reg depth s l v O E I0) as [A B].
  assert (K : 0 <= Z.max 4 (zlen s - 2) <= 1785) by lia. split.
  - intros c z d P D. eapply decimal_len; [eapply below256; [apply Z.abs_nonneg|exact K|exact (A c z P)]|discriminate|exact D].
  - intros xs x d P Ix D. eapply decimal_len; [eapply below128; [exact K|exact (B xs x P Ix)]|discriminate|exact D].
Qed.
Print Assumptions C93_digits.
(** C93. It can in a longer one: 1790 octets suffice. *)
Theorem C93_digits_refuted : exists s, octet_string s /\ zlen s = 1790 /\ exists z, (forall cfg depth, exists c, decode (reg_of cfg) (S depth) s = Ok [VInt c z]) /\
  forall d, decimal z d -> 4300 < zlen d.
Proof.
  destruct (big_integer (Z.to_nat 1785)) as (O & L & z & Hz & D); [rewrite Z2Nat.id; [reflexivity|discriminate]|]. eexists. split; [exact O|]. split; [exact L|]. exists z. split; [exact D|].
  intros d De. eapply decimal_long; [eapply Z.le_trans; [exact limit10|exact Hz]|discriminate|exact De].
Qed.
Print Assumptions C93_digits_refuted.
(** C93. A case that meets the hypotheses, with lengths that lie: the octets claim 2^31 octets of contents and have five; a Counter of one octet that becomes 2^32 - 1. *)
Example C93_example : decode (reg_of Upto1905) 5 [48; 132; 128; 0; 0; 0; 4; 127; 104; 105; 33] = Ok [VSeq CSequence [VOct COctetString (VPyStr [104; 105; 33])]] /\
  octet_string [48; 132; 128; 0; 0; 0; 4; 127; 104; 105; 33] /\
  decode (reg_of Upto1905) 5 [65; 1; 255] = Ok [VInt CCounter32 (2 ^ 32 - 1)].
Proof. split; [vm_compute; reflexivity|]. split; [repeat (constructor; [lia|]); constructor|vm_compute; reflexivity]. Qed.
