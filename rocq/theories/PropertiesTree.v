(** * C18-C24: whole values on the wire.  Statements only; proofs in ProofsDecode. *)
From Coq Require Import ZArith List Bool Lia.
From Verif Require Import PyBase Classes Values Codec SpecBER SpecSMI SpecTree ProofsTree ProofsDecode.
Import ListNotations.
Open Scope Z_scope.

(** C18. Round trip: any value tree, any depth and width, any import configuration.  [tree_of]
    (SpecTree) is what the objects denote; [wf] says integers and identifiers lie in the
    domains of C03/C11 and PDUs have their prescribed shape; [classes_ok] excludes the six
    classes of C17 that write a wrong identifier. *)
Theorem C18_roundtrip : forall cfg v t, tree_of v = Some t -> wf cfg t -> classes_ok v = true ->
  exists os, encode v = Ok os /\
    (zlen os < 256 ^ 126 -> exists w, tree_of w = Some t /\
      forall depth, (height t <= depth)%nat -> decode (reg_of cfg) depth os = Ok [w]).
Proof. exact roundtrip. Qed.
Print Assumptions C18_roundtrip.
Definition C18_sample : val :=
  VSeq CSequence [VInt CInteger (-128); VOct COctetString (VPyStr [0; 255]); VOid (Some [1; 3; 6; 300]);
                  VSeq CSequence [VNull CNull; VSeq CSequence [VInt CCounter 4294967295]];
                  VOct CIPAddress (VPyStr [10; 0; 0; 1])].
Example C18_example : exists t, tree_of C18_sample = Some t /\ wf Only1155 t /\ classes_ok C18_sample = true /\
  height t = 4%nat.
Proof.
  eexists. split; [reflexivity|]. split; [|split; reflexivity]. cbn.
  repeat split; try lia; auto.
  - right. exists 1. change (2 ^ (8 * 1 - 1)) with 128. change (256 ^ (1 - 1)) with 1. lia.
  - repeat (apply Forall_cons; [lia|]). constructor.
Qed.

(** C19. Any number of encodings, one after the other, decode to the objects in order; what
    follows is decoded as if it stood alone. *)
Theorem C19_concatenation : forall cfg vs oss, Forall2 (fun v o => encode v = Ok o) vs oss -> forall ts,
  trees_of vs = Some ts -> Forall (wf cfg) ts -> Forall (fun v => classes_ok v = true) vs -> zlen (concat oss) < 256 ^ 126 ->
  exists ws, trees_of ws = Some ts /\ forall depth, (1 <= depth)%nat -> Forall (fun t => (height t <= depth)%nat) ts -> forall rest,
    decode (reg_of cfg) depth (concat oss ++ rest) = (rs <- decode (reg_of cfg) depth rest ;; Ok (ws ++ rs)).
Proof. exact decode_concat. Qed.
Print Assumptions C19_concatenation.
Example C19_example : encode (VInt CInteger 5) = Ok [2; 1; 5] /\ encode (VNull CNull) = Ok [5; 0] /\
  decode (reg_of Upto1157) 1 ([2; 1; 5] ++ [5; 0]) = Ok [VInt CInteger 5; VNull CNull].
Proof. repeat split; reflexivity. Qed.

(** C20. No encoding is a proper prefix of another (any library objects whatever). *)
Theorem C20_prefix_free : forall v w a s, is_asn1 v = true -> is_asn1 w = true ->
  encode v = Ok a -> encode w = Ok (a ++ s) -> zlen (a ++ s) < 256 ^ 127 -> s = [].
Proof. exact prefix_free. Qed.
Print Assumptions C20_prefix_free.
(** C20. Same octets, same value. *)
Theorem C20_injective : forall cfg v w a t u, encode v = Ok a -> encode w = Ok a -> zlen a < 256 ^ 126 ->
  tree_of v = Some t -> wf cfg t -> classes_ok v = true -> tree_of w = Some u -> wf cfg u -> classes_ok w = true -> t = u.
Proof. exact injective. Qed.
Print Assumptions C20_injective.
(** C20. Outside the round-trip domain injectivity fails, even for legal identifiers: 2.40 and 3.0;
    an Opaque and the OctetString with the same contents. *)
Theorem C20_injective_refuted :
  encode (VOid (Some [2; 40])) = encode (VOid (Some [3; 0])) /\
  (forall s, encode (VOct COpaque (VPyStr s)) = encode (VOct COctetString (VPyStr s))) /\
  encode (VNull CNoSuchObject) = encode (VNull CEndOfMibView).
Proof. exact (conj eq_refl (conj (fun _ => eq_refl) eq_refl)). Qed.
Print Assumptions C20_injective_refuted.
Example C20_example : is_asn1 (VNull CNull) = true /\ encode (VNull CNull) = Ok [5; 0].
Proof. split; reflexivity. Qed.

(** C21. Every string: a list of objects, or one of six exceptions.  ([OutOfFuel], which would
    mean a loop still running, is not among them, so every loop terminates.) *)
Theorem C21_terminates : forall cfg depth s,
  (exists l, decode (reg_of cfg) depth s = Ok l) \/
  (exists e, decode (reg_of cfg) depth s = Err e /\
     In e [IndexError; ValueError; TypeError; NotImplementedError; PDUError; RecursionError]).
Proof. exact decode_exceptions. Qed.
Print Assumptions C21_terminates.
(** C21. A string of fewer than 2*budget characters never exhausts the recursion budget. *)
Theorem C21_no_recursion : forall cfg depth s, (length s < 2 * depth)%nat ->
  decode (reg_of cfg) depth s <> Err RecursionError.
Proof. exact decode_no_recursion. Qed.
Print Assumptions C21_no_recursion.
(** C21. Every budget is exhausted by a well-formed value of at most 6 octets per level. *)
Theorem C21_recursion_witness : forall cfg budget, 6 * Z.of_nat (S budget) < 2 ^ 32 -> exists v os t,
  tree_of v = Some t /\ wf cfg t /\ encode v = Ok os /\ zlen os <= 6 * Z.of_nat (S budget) /\
  decode (reg_of cfg) (S budget) os = Err RecursionError /\
  exists w, tree_of w = Some t /\ decode (reg_of cfg) (S (S budget)) os = Ok [w].
Proof. exact recursion_witness. Qed.
Print Assumptions C21_recursion_witness.
(** C21. It is false that malformed input is always reported as ValueError: each of the six occurs. *)
Theorem C21_valueerror_only_refuted :
  decode (reg_of Upto1157) 9 [2] = Err IndexError /\ decode (reg_of Upto1157) 9 [7; 0] = Err ValueError /\
  decode (reg_of Upto1157) 9 [160; 10; 4; 0; 2; 1; 0; 2; 1; 0; 48; 0] = Err TypeError /\
  decode (reg_of Upto1157) 9 [6; 1; 200] = Err NotImplementedError /\
  decode (reg_of Upto1157) 9 [160; 0] = Err PDUError /\ decode (reg_of Upto1157) 1 [48; 2; 5; 0] = Err RecursionError.
Proof. repeat split; reflexivity. Qed.
Print Assumptions C21_valueerror_only_refuted.

(** C22. A declared length larger than what is available is treated as what is available. *)
Theorem C22_truncated : forall reg dec t n L data L', Z.land t 31 <> 31 -> ber_length n L -> zlen data <= n ->
  ber_length (zlen data) L' -> decode_one reg dec (t :: L ++ data) = decode_one reg dec (t :: L' ++ data).
Proof. exact truncated. Qed.
Print Assumptions C22_truncated.
(** C22. Cutting an encoded OctetString anywhere inside its contents is not detected. *)
Theorem C22_cut_accepted_refuted : forall cfg s k d, 0 <= k < zlen s -> zlen s < 256 ^ 127 ->
  exists os c, encode (VOct COctetString (VPyStr s)) = Ok os /\
    decode (reg_of cfg) (S d) (ztake (zlen os - (zlen s - k)) os) = Ok [VOct c (VPyStr (ztake k s))] /\
    decode (reg_of cfg) (S d) os = Ok [VOct c (VPyStr s)].
Proof. exact octets_prefix_accepted. Qed.
Print Assumptions C22_cut_accepted_refuted.
Example C22_example : decode (reg_of Upto1157) 3 [4; 200; 1; 65; 66] = Err IndexError /\
  decode (reg_of Upto1157) 3 [4; 130; 1; 0; 65; 66] = Ok [VOct COctetString (VPyStr [65; 66])].
Proof. split; reflexivity. Qed.

(** C23. A multi-octet identifier is read as if its number were a one-octet identifier. *)
Theorem C23_high_tag_alias : forall reg h g t s depth, Z.land h 31 = 31 -> b128_group g -> b128_value g = t ->
  Z.land t 31 <> 31 -> decode reg depth (h :: g ++ s) = decode reg depth (t :: s).
Proof. exact high_tag_alias. Qed.
Print Assumptions C23_high_tag_alias.
Example C23_example : decode (reg_of Upto1157) 3 [0x1f; 2; 1; 5] = Ok [VInt CInteger 5] /\
  decode (reg_of Upto1157) 3 [0xff; 0x81; 0x20; 11; 2; 1; 0; 2; 1; 0; 2; 1; 0; 48; 0] =
  decode (reg_of Upto1157) 3 [0xa0; 11; 2; 1; 0; 2; 1; 0; 2; 1; 0; 48; 0].
Proof. split; reflexivity. Qed.

(** C24. The identifier loop for tag numbers of 31 and above never ends. *)
Theorem C24_high_tag_diverges : forall iterations tc tf n, 31 <= n -> 0 <= Z.lor (Z.lor tc tf) 31 <= 1114111 ->
  encodeIdentifier iterations tc tf (Some n) = Err OutOfFuel.
Proof. exact encodeIdentifier_diverges. Qed.
Print Assumptions C24_high_tag_diverges.
Example C24_example : 0 <= Z.lor (Z.lor tc_CONTEXT tf_CONSTRUCTED) 31 <= 1114111.
Proof. vm_compute. split; discriminate. Qed.
