(** * Specification vocabulary for C55-C57 and C61-C62. *)
From Coq Require Import ZArith List Bool.
From Verif Require Import PyBase Classes Values Codec SpecBER SpecSMI SpecTree SpecMsg.
Import ListNotations.
Open Scope Z_scope.

(** c is d, or its parent class derives from d. *)
Inductive derives : cls -> cls -> Prop :=
| derives_self : forall c, derives c c
| derives_up : forall c p d, parent c = Some p -> derives p d -> derives c d.
(** v is an instance of class d. *)
Definition instance_of (d : cls) (v : val) : Prop := exists c, class_of v = Some c /\ derives c d.

(** The outcome of decoding one primitive object of a kind, from its contents octets: the value X.690 gives, except
    that the two counter types add 2^32 to negative numbers and identifiers are limited to a first octet
    below 128; or the exception. *)
Inductive primitive_outcome : kind -> list Z -> res tree -> Prop :=
| po_int : forall k c, In k [KInteger; KGauge32; KTimeTicks] -> c <> [] -> primitive_outcome k c (Ok (TInt k (twos_value c)))
| po_counter : forall k c, In k [KCounter32; KCounter64] -> c <> [] -> 0 <= twos_value c ->
    primitive_outcome k c (Ok (TInt k (twos_value c)))
| po_counter_neg : forall k c, In k [KCounter32; KCounter64] -> c <> [] -> twos_value c < 0 ->
    primitive_outcome k c (Ok (TInt k (twos_value c + 2 ^ 32)))
| po_int_empty : forall k, int_kind k = true -> primitive_outcome k [] (Err IndexError)
| po_oct : forall k c, oct_kind k = true -> primitive_outcome k c (Ok (TOct k c))
| po_null : forall k, null_kind k = true -> primitive_outcome k [] (Ok (TNull k))
| po_null_contents : forall k b c, null_kind k = true -> primitive_outcome k (b :: c) (Err ValueError)
| po_oid_empty : primitive_outcome KObjectID [] (Err ValueError)
| po_oid_big : forall b c, 128 <= b -> primitive_outcome KObjectID (b :: c) (Err NotImplementedError)
| po_oid_cut : forall b c, b < 128 -> 128 <= last (b :: c) 0 -> primitive_outcome KObjectID (b :: c) (Err IndexError)
| po_oid : forall b groups, b < 128 -> Forall b128_group groups ->
    primitive_outcome KObjectID (b :: concat groups) (Ok (TOid (b / 40 :: b mod 40 :: map b128_value groups))).
Definition primitive_kind (k : kind) : bool :=
  int_kind k || oct_kind k || null_kind k || match k with KObjectID => true | _ => false end.
(** Which primitive kinds the decode table knows once the modules of a configuration are imported. *)
Definition known (cfg : config) (k : kind) : bool :=
  match k, cfg with
  | KCounter64, (Only1155 | Upto1157) => false
  | (KNoSuchObject | KNoSuchInstance | KEndOfMibView), Upto1905 => true
  | (KNoSuchObject | KNoSuchInstance | KEndOfMibView), _ => false
  | _, _ => true
  end.

(** Upper-case hexadecimal digits. *)
Definition HEX_value (c : Z) : Z := if c <? 58 then c - 48 else c - 55.
Fixpoint read_HEX (s : str) : option (list Z) :=
  match s with
  | [] => Some []
  | [_] => None
  | h :: l :: r => match read_HEX r with Some os => Some (16 * HEX_value h + HEX_value l :: os) | None => None end
  end.
(** Three characters per octet, blanks counting as zero. *)
Definition oct_digit (c : Z) : Z := if c =? 32 then 0 else c - 48.
Fixpoint read_oct (s : str) : option (list Z) :=
  match s with
  | [] => Some []
  | a :: b :: c :: r => match read_oct r with Some os => Some (64 * oct_digit a + 8 * oct_digit b + oct_digit c :: os) | None => None end
  | _ => None
  end.

(** y is x with some of its components, at any depth, replaced by strs holding their encodings. *)
Inductive preencoded : val -> val -> Prop :=
| pre_same : forall x, preencoded x x
| pre_str : forall x s, encode x = Ok s -> preencoded x (VPyStr s)
| pre_seq : forall c xs ys, preencoded_list xs ys -> preencoded (VSeq c xs) (VSeq c ys)
with preencoded_list : list val -> list val -> Prop :=
| pre_nil : preencoded_list [] []
| pre_cons : forall x y xs ys, preencoded x y -> preencoded_list xs ys -> preencoded_list (x :: xs) (y :: ys).
Scheme preencoded_mut := Minimality for preencoded Sort Prop with preencoded_list_mut := Minimality for preencoded_list Sort Prop.

(** Appending one after the other, ignoring refusals. *)
Definition append_all (ct : cls) (l : list val) (xs : list val) : list val :=
  fold_left (fun l x => match sequenceof_append ct l x with Ok l' => l' | Err _ => l end) xs l.
