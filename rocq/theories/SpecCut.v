(** * Encodings cut off at the end (C94), written from X.690 like SpecWire; nothing of the model's functions is used. *)
From Coq Require Import ZArith List Bool.
From Verif Require Import SpecBER SpecSMI SpecTree SpecWire SpecMsg.
Import ListNotations.
Open Scope Z_scope.

(** [cut strict t os t' os']: [os] is an encoding of [t], [os'] what is left of it when it stops early: inside the contents of a number (after the first octet), a string or an identifier (after
    a subidentifier), or after some of the components of a sequence, the last of which may be cut itself.  The length fields are left as they are.  [t'] is what the octets that are left say if the
    end is taken for the end of everything. *)
Inductive cut (strict : bool) : tree -> list Z -> tree -> list Z -> Prop :=
| cut_int : forall k c1 c2 L, int_kind k = true -> octet_string (c1 ++ c2) -> c1 <> [] -> (strict = true -> shortest_form (c1 ++ c2)) ->
    ber_length (Z.of_nat (length (c1 ++ c2))) L ->
    cut strict (TInt k (twos_value (c1 ++ c2))) (kind_octet k :: L ++ c1 ++ c2) (TInt k (twos_value c1)) (kind_octet k :: L ++ c1)
| cut_oct : forall k s1 s2 L, oct_kind k = true -> ber_length (Z.of_nat (length (s1 ++ s2))) L ->
    cut strict (TOct k (s1 ++ s2)) (kind_octet k :: L ++ s1 ++ s2) (TOct k s1) (kind_octet k :: L ++ s1)
| cut_oid : forall l l' c1 c2 L, oid_contents strict l (c1 ++ c2) -> oid_contents strict l' c1 -> ber_length (Z.of_nat (length (c1 ++ c2))) L ->
    cut strict (TOid l) (0x06 :: L ++ c1 ++ c2) (TOid l') (0x06 :: L ++ c1)
| cut_after : forall k ts us a b L, seq_kind k = true -> wires strict ts a -> wires strict us b -> ber_length (Z.of_nat (length (a ++ b))) L ->
    cut strict (TSeq k (ts ++ us)) (kind_octet k :: L ++ a ++ b) (TSeq k ts) (kind_octet k :: L ++ a)
| cut_inside : forall k ts t t' us a b b' c L, seq_kind k = true -> wires strict ts a -> cut strict t b t' b' -> wires strict us c ->
    ber_length (Z.of_nat (length (a ++ b ++ c))) L ->
    cut strict (TSeq k (ts ++ t :: us)) (kind_octet k :: L ++ a ++ b ++ c) (TSeq k (ts ++ [t'])) (kind_octet k :: L ++ a ++ b').
(** What may be left of a list of bindings: the first ones, the last of which may have lost the end of its value. *)
Definition shortened (strict : bool) (bs bs' : list (list Z * tree)) : Prop :=
  (exists lost, bs = bs' ++ lost) \/
  (exists first name v v' lost a a', bs = first ++ (name, v) :: lost /\ bs' = first ++ [(name, v')] /\ cut strict v a v' a').
