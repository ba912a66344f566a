(** * C55-C57, C61, C62: typed containers, primitive contents, pre-encoded components, hashing and dumps.
    Statements only; proofs in ProofsObj. *)
From Coq Require Import ZArith List Bool Lia.
From Verif Require Import PyBase Classes Values Codec Frontend SpecBER SpecSMI SpecTree SpecWire SpecMsg SpecObj ProofsObj.
Import ListNotations.
Open Scope Z_scope.

(** C55. isinstance is the inheritance relation. *)
Theorem C55_isinstance : forall v d, isinstance v d = true <-> instance_of d v.
Proof. exact isinstance_iff. Qed.
Print Assumptions C55_isinstance.
(** C55. append: an instance of the component type goes to the end; anything else is refused with ValueError. *)
Theorem C55_append : forall ct l v,
  (instance_of ct v /\ sequenceof_append ct l v = Ok (l ++ [v])) \/
  (~ instance_of ct v /\ sequenceof_append ct l v = Err ValueError).
Proof. exact append_iff. Qed.
Print Assumptions C55_append.
(** C55. The constructor: every false value is the empty container; a container of components is accepted iff all of
    them are instances, with their order kept, else ValueError; anything else is a TypeError. *)
Theorem C55_construct_false : forall c ct v, falsy v -> sequenceof_init c ct v = Ok (VSeq c []).
Proof. exact init_falsy. Qed.
Print Assumptions C55_construct_false.
Theorem C55_construct : forall c ct v items, components v = Some items ->
  (Forall (instance_of ct) items /\ sequenceof_init c ct v = Ok (VSeq c items)) \/
  (~ Forall (instance_of ct) items /\ sequenceof_init c ct v = Err ValueError).
Proof. exact init_items. Qed.
Print Assumptions C55_construct.
Theorem C55_construct_other : forall c ct v, components v = None -> ~ falsy v -> sequenceof_init c ct v = Err TypeError.
Proof. exact init_other. Qed.
Print Assumptions C55_construct_other.
(** C55. Over any sequence of appends, refused or not, the container holds only instances: the old ones
    followed by the accepted ones. *)
Theorem C55_history : forall ct xs l, Forall (instance_of ct) l ->
  exists ys, append_all ct l xs = l ++ ys /\ Forall (instance_of ct) (l ++ ys) /\
    (forall y, In y ys <-> In y xs /\ instance_of ct y) /\ (Forall (instance_of ct) xs -> ys = xs).
Proof. exact append_history. Qed.
Print Assumptions C55_history.
(** C55. Lists of bindings accept the bindings of both protocol versions and nothing else. *)
Theorem C55_bindings : forall v, instance_of CVarBind v <-> class_of v = Some CVarBind \/ class_of v = Some CVarBind_v2.
Proof. exact varbind_classes. Qed.
Print Assumptions C55_bindings.
Example C55_example : instance_of CInteger (VInt CCounter64 5) /\ ~ instance_of CCounter (VInt CInteger 5) /\
  sequenceof_init CSequenceOf CInteger (VPyList [VInt CCounter64 5; VInt CInteger 1]) =
    Ok (VSeq CSequenceOf [VInt CCounter64 5; VInt CInteger 1]) /\
  sequenceof_init CSequenceOf CInteger (VPyList [VInt CInteger 1; VNull CNull]) = Err ValueError.
Proof.
  repeat split; try reflexivity.
  - apply isinstance_iff. reflexivity.
  - intros H. apply isinstance_iff in H. discriminate.
Qed.

(** C56. Decoding one primitive object: for every kind, every contents octets, with any legal length form, in every
    import configuration, the outcome is the one [primitive_outcome] lists; kinds not in the table are refused. *)
Theorem C56_primitive : forall cfg depth k c os, octet_string c -> primitive_kind k = true -> tlv_octets (kind_octet k) c os ->
  if known cfg k then
    exists r, primitive_outcome k c r /\ match r with
      | Ok t => exists v, decode (reg_of cfg) (S depth) os = Ok [v] /\ tree_of v = Some t
      | Err e => decode (reg_of cfg) (S depth) os = Err e
      end
  else decode (reg_of cfg) (S depth) os = Err ValueError.
Proof. exact primitive_decode. Qed.
Print Assumptions C56_primitive.
(** C56. The outcome is determined by the kind and the contents. *)
Theorem C56_deterministic : forall k c r s, octet_string c -> primitive_outcome k c r -> primitive_outcome k c s -> r = s.
Proof. exact primitive_unique. Qed.
Print Assumptions C56_deterministic.
Example C56_example : tlv_octets (kind_octet KNull) [7] [5; 0x81; 1; 7] /\
  decode (reg_of Upto1157) 1 [5; 0x81; 1; 7] = Err ValueError /\ primitive_outcome KNull [7] (Err ValueError).
Proof.
  split; [|split; [reflexivity|constructor; reflexivity]]. exists [0x81; 1]. split; [|reflexivity].
  right. exists [1]. cbn. repeat split; try lia. repeat constructor; lia.
Qed.

(** C57. Replacing any components, at any depth, by strs holding their encodings does not change the encoding (nor the
    exception). *)
Theorem C57_preencoded : forall x y, preencoded x y -> encode x = encode y.
Proof. exact preencoded_encode. Qed.
Print Assumptions C57_preencoded.
(** C57. What the strs hold is not looked at. *)
Theorem C57_verbatim : forall c ss, encode (VSeq c (map VPyStr ss)) = tlv c (concat ss).
Proof. exact encode_strs. Qed.
Print Assumptions C57_verbatim.
(** C57. So a str is never the OctetString with these characters, and an empty one vanishes: a binding of a name to ''
    is accepted and goes out with the name alone; read back in a PDU it is an IndexError. *)
Theorem C57_empty_value : forall c oid os L, (c = CVarBind \/ c = CVarBind_v2) -> encode (VOid (Some oid)) = Ok os ->
  encodeLength (zlen os) = Ok L ->
  varbind_init c (VOid (Some oid)) (VPyStr []) = Ok (VSeq c [VOid (Some oid); VPyStr []]) /\
  encode (VSeq c [VOid (Some oid); VPyStr []]) = Ok (0x30 :: L ++ os).
Proof. exact varbind_empty_value. Qed.
Print Assumptions C57_empty_value.
Theorem C57_empty_value_refuted : exists pdu os, 
  (vb <- varbind_init CVarBind (VOid (Some [1; 3; 6])) (VPyStr []) ;;
   pdu_init CSet (VPyInt 1) (VPyInt 0) (VPyInt 0) (VPyList [vb])) = Ok pdu /\
  encode pdu = Ok os /\ decode (reg_of Upto1157) 9 os = Err IndexError.
Proof. eexists. eexists. split; [reflexivity|]. split; reflexivity. Qed.
Print Assumptions C57_empty_value_refuted.
(** C57. The other false values are accepted as the value of a binding, but the binding can never be encoded. *)
Theorem C57_false_value : forall c name v, (v = VNone \/ v = VPyInt 0 \/ v = VPyList []) -> is_oid name ->
  varbind_init c name v = Ok (VSeq c [name; v]) /\ forall os, encode (VSeq c [name; v]) <> Ok os.
Proof. exact varbind_none_value. Qed.
Print Assumptions C57_false_value.
Example C57_example : preencoded (VSeq CSequence [VInt CInteger 5; VNull CNull]) (VSeq CSequence [VPyStr [2; 1; 5]; VNull CNull]) /\
  encode (VSeq CSequence [VPyStr [2; 1; 5]; VNull CNull]) = Ok [48; 5; 2; 1; 5; 5; 0] /\
  encode (VOid (Some [1; 3; 6])) = Ok [6; 2; 43; 6].
Proof. split; [|split; reflexivity]. constructor. constructor; [apply pre_str; reflexivity|]. constructor; constructor. Qed.

(** C61. Objects that are equal and hashable hash equal, whatever the hash of ints; only Integers are hashable. *)
Theorem C61_hash_consistent : forall h a b x y, py_eq a b = Ok true ->
  py_hash h a = Some (Ok x) -> py_hash h b = Some (Ok y) -> x = y.
Proof. exact hash_consistent. Qed.
Print Assumptions C61_hash_consistent.
Theorem C61_hashable : forall h v, is_object v -> ((exists x, py_hash h v = Some (Ok x)) <-> exists c z, v = VInt c z).
Proof. exact hash_only_integers. Qed.
Print Assumptions C61_hashable.
Example C61_example : py_eq (VInt CInteger 7) (VInt CCounter64 7) = Ok true /\
  py_hash (fun z => z) (VInt CInteger 7) = Some (Ok 7) /\ py_hash (fun z => z) (VInt CCounter64 7) = Some (Ok 7).
Proof. repeat split. Qed.

(** C62. The hexadecimal and octal dumps of an OctetString can be read back. *)
Theorem C62_hex : forall os, octet_string os -> read_HEX (octetstring_hex os) = Some os /\
  length (octetstring_hex os) = (2 * length os)%nat.
Proof. exact HEX_roundtrip. Qed.
Print Assumptions C62_hex.
Theorem C62_oct : forall os, octet_string os -> read_oct (octetstring_oct os) = Some os.
Proof. exact OCT_roundtrip. Qed.
Print Assumptions C62_oct.
(** C62. Converting to an identifier loses nothing within a type, but values of different types collide. *)
Theorem C62_to_oid : forall v w l, toObjectID v = Ok l -> toObjectID w = Ok l -> 
  match v, w with VInt _ x, VInt _ y => x = y | VOct _ x, VOct _ y => x = y | VOid x, VOid y => x = y | _, _ => True end.
Proof. exact to_oid_faithful. Qed.
Print Assumptions C62_to_oid.
Theorem C62_to_oid_refuted : toObjectID (VInt CInteger 5) = toObjectID (VOct COctetString (VPyStr [5])) /\
  toObjectID (VInt CInteger 5) = Ok [5].
Proof. exact (conj eq_refl eq_refl). Qed.
Print Assumptions C62_to_oid_refuted.
Example C62_example : octetstring_hex [10; 255] = [48; 65; 70; 70] /\ octetstring_oct [10; 255] = [32; 49; 50; 51; 55; 55].
Proof. split; reflexivity. Qed.
