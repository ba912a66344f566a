(** * The BER encoding of an SNMP value, as a relation written from X.690 and the RFCs.

    It uses only [SpecBER], the identifier octets of [SpecSMI] and the abstract values of
    [SpecTree]; no function of the model occurs. *)
From Coq Require Import ZArith List Bool.
From Verif Require Import SpecBER SpecSMI SpecTree.
Import ListNotations.
Open Scope Z_scope.

(** Identifier octet, definite length, contents (X.690 8.1). *)
Definition tlv_octets (tag : Z) (contents os : list Z) : Prop :=
  exists L, ber_length (Z.of_nat (length contents)) L /\ os = tag :: L ++ contents.

(** Contents octets of an identifier: one base-128 group per subidentifier, the first
    being 40*a+b.  [strict] asks for the shortest groups, as X.690 8.19.2 does; the first
    group must be shortest in any case. *)
Definition oid_contents (strict : bool) (l c : list Z) : Prop :=
  match l with
  | a :: b :: rest =>
      exists (g : list Z) (groups : list (list Z)), c = (g ++ concat groups)%list /\ 
        b128_group g /\ b128_minimal g /\ b128_value g = a * 40 + b /\ 
        Forall2 (fun g x => b128_group g /\ (strict = true -> b128_minimal g) /\ b128_value g = x) groups rest
  | _ => False
  end.

(** [wire strict t os]: os is an encoding of the value t.  With [strict] integers and
    subidentifiers must be in shortest form (X.690 8.3.2, 8.19.2); without it they may be padded,
    as some agents do. *)
Inductive wire (strict : bool) : tree -> list Z -> Prop :=
| wire_int : forall k c os, int_kind k = true -> octet_string c -> c <> [] -> (strict = true -> shortest_form c) ->
    tlv_octets (kind_octet k) c os -> wire strict (TInt k (twos_value c)) os
| wire_oct : forall k s os, oct_kind k = true -> tlv_octets (kind_octet k) s os -> wire strict (TOct k s) os
| wire_oid : forall l c os, oid_contents strict l c -> tlv_octets 0x06 c os -> wire strict (TOid l) os
| wire_null : forall k os, null_kind k = true -> tlv_octets (kind_octet k) [] os -> wire strict (TNull k) os
| wire_seq : forall k ts c os, seq_kind k = true -> wires strict ts c -> tlv_octets (kind_octet k) c os ->
    wire strict (TSeq k ts) os
with wires (strict : bool) : list tree -> list Z -> Prop :=
| wires_nil : wires strict [] []
| wires_cons : forall t ts a b, wire strict t a -> wires strict ts b -> wires strict (t :: ts) (a ++ b).
Scheme wire_mut := Minimality for wire Sort Prop with wires_mut := Minimality for wires Sort Prop.

(** Values the library can read: every integer of any size (counters must not be negative),
    every string, all nulls and v2 exception markers, identifiers whose first octet is below 128,
    and PDUs of the prescribed shape, depending on which modules have been imported. *)
Fixpoint readable (cfg : Classes.config) (t : tree) : Prop :=
  match t with
  | TInt k z => match k with
                | KInteger | KGauge32 | KTimeTicks => True
                | KCounter32 => 0 <= z
                | KCounter64 => 0 <= z /\ cfg <> Classes.Only1155 /\ cfg <> Classes.Upto1157
                | _ => False
                end
  | TOct k _ => oct_kind k = true
  | TOid l => oid_survives l
  | TNull k => k = KNull \/ (null_kind k = true /\ cfg = Classes.Upto1905)
  | TSeq k l =>
      (fix all (l : list tree) : Prop := match l with [] => True | x :: r => readable cfg x /\ all r end) l /\
      match k with
      | KSequence => True
      | KTrapV1 => available cfg k = true /\ trap_shape l
      | _ => available cfg k = true /\ request_shape l
      end
  end.

(** [written t os]: os is what the library should write for [t]: an encoding in shortest form - unless it is too long for any length
    field -, and one that is at most twice as long as any encoding of [t] (C79). *)
Definition written (t : tree) (os : list Z) : Prop :=
  (Z.of_nat (length os) < 256 ^ 126 -> wire true t os) /\
  forall strict os', wire strict t os' -> Z.of_nat (length os) <= 2 * Z.of_nat (length os').
