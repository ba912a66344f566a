(** * Independent specification of the SNMP types: what RFC 1155/1157/1902/1905 say about
    value ranges and identifier octets.  The only thing shared with the model is the list
    of class names. *)
From Coq Require Import ZArith List Bool.
From Verif Require Import Classes.
Import ListNotations.
Open Scope Z_scope.

(** The kinds of ASN.1 value SNMP defines, with their identifier octets. *)
Inductive kind :=
| KInteger | KOctetString | KNull | KObjectID | KSequence
| KIpAddress | KCounter32 | KGauge32 | KTimeTicks | KOpaque | KCounter64
| KNoSuchObject | KNoSuchInstance | KEndOfMibView
| KGet | KGetNext | KResponse | KSet | KTrapV1 | KGetBulk | KInform | KTrapV2 | KReport.
Definition kind_octet (k : kind) : Z :=
  match k with
  | KInteger => 0x02 | KOctetString => 0x04 | KNull => 0x05 | KObjectID => 0x06 | KSequence => 0x30
  | KIpAddress => 0x40 | KCounter32 => 0x41 | KGauge32 => 0x42 | KTimeTicks => 0x43 | KOpaque => 0x44
  | KCounter64 => 0x46
  | KNoSuchObject => 0x80 | KNoSuchInstance => 0x81 | KEndOfMibView => 0x82
  | KGet => 0xa0 | KGetNext => 0xa1 | KResponse => 0xa2 | KSet => 0xa3 | KTrapV1 => 0xa4
  | KGetBulk => 0xa5 | KInform => 0xa6 | KTrapV2 => 0xa7 | KReport => 0xa8
  end.
(** Which kind each class of the library is documented to be.  The abstract bases
    Asn1Object, PDU and BulkPDU have none. *)
Definition kind_of (c : cls) : option kind :=
  match c with
  | CAsn1Object | CPDU | CPDU_v2 | CBulkPDU => None
  | CInteger | CInteger32 | CErrorStatus | CErrorStatus_v2 | CGenericTrap => Some KInteger
  | COctetString | COctetString_v2 => Some KOctetString
  | CNull => Some KNull
  | CObjectID => Some KObjectID
  | CSequence | CSequenceOf | CVarBind | CVarBind_v2 | CVarBindList | CVarBindList_v2
  | CMessage | CMessage_v2 => Some KSequence
  | CIPAddress | CNetworkAddress => Some KIpAddress
  | CCounter | CCounter32 => Some KCounter32
  | CGuage | CGuage32 => Some KGauge32
  | CTimeTicks => Some KTimeTicks
  | COpaque => Some KOpaque
  | CCounter64 => Some KCounter64
  | CNoSuchObject => Some KNoSuchObject
  | CNoSuchInstance => Some KNoSuchInstance
  | CEndOfMibView => Some KEndOfMibView
  | CGet | CGet_v2 => Some KGet
  | CGetNext | CGetNext_v2 => Some KGetNext
  | CResponse | CResponse_v2 => Some KResponse
  | CSet | CSet_v2 => Some KSet
  | CTrapPDU => Some KTrapV1
  | CGetBulk => Some KGetBulk
  | CInform => Some KInform
  | CTrapV2 => Some KTrapV2
  | CReport => Some KReport
  end.

(** Which class a value of each kind is read as: that of the newest module imported that has one.  Which of rfc1157, rfc1902, rfc1905 have been imported, besides rfc1155: *)
Definition newer_modules (cfg : config) : bool * bool * bool :=
  match cfg with Only1155 => (false, false, false) | Upto1157 => (true, false, false) | Only1902 => (false, true, false) | With1157And1902 => (true, true, false) | Upto1905 => (true, true, true) end.
Definition read_class (cfg : config) (k : kind) : option cls :=
  let '(rfc1157, rfc1902, rfc1905) := newer_modules cfg in
  match k with
  | KInteger => Some (if rfc1902 then CInteger32 else CInteger)
  | KCounter32 => Some (if rfc1902 then CCounter32 else CCounter)
  | KGauge32 => Some (if rfc1902 then CGuage32 else CGuage)
  | KCounter64 => if rfc1902 then Some CCounter64 else None
  | KOctetString => Some COctetString | KNull => Some CNull | KObjectID => Some CObjectID | KSequence => Some CSequence
  | KIpAddress => Some CIPAddress | KTimeTicks => Some CTimeTicks | KOpaque => Some COpaque
  | KGet => if rfc1157 then Some CGet else None
  | KGetNext => if rfc1157 then Some CGetNext else None
  | KSet => if rfc1157 then Some CSet else None
  | KTrapV1 => if rfc1157 then Some CTrapPDU else None
  | KResponse => if rfc1905 then Some CResponse_v2 else if rfc1157 then Some CResponse else None
  | KGetBulk => if rfc1905 then Some CGetBulk else None
  | KInform => if rfc1905 then Some CInform else None
  | KTrapV2 => if rfc1905 then Some CTrapV2 else None
  | KReport => if rfc1905 then Some CReport else None
  | KNoSuchObject => if rfc1905 then Some CNoSuchObject else None
  | KNoSuchInstance => if rfc1905 then Some CNoSuchInstance else None
  | KEndOfMibView => if rfc1905 then Some CEndOfMibView else None
  end.

(** SMI value ranges of the integer-valued classes. *)
Definition smi_range (c : cls) : option (Z * Z) :=
  match c with
  | CInteger | CInteger32 | CErrorStatus | CErrorStatus_v2 | CGenericTrap => Some (- 2 ^ 31, 2 ^ 31 - 1)
  | CCounter | CCounter32 | CGuage | CGuage32 | CTimeTicks => Some (0, 2 ^ 32 - 1)
  | CCounter64 => Some (0, 2 ^ 64 - 1)
  | _ => None
  end.

(** Saturating arithmetic on [lo, hi]. *)
Definition clamp (lo hi x : Z) : Z := Z.max lo (Z.min hi x).
Inductive gop := GAdd (n : Z) | GSub (n : Z).
Definition gop_operand (o : gop) : Z := match o with GAdd n => n | GSub n => n end.
Definition sat_step (lo hi : Z) (x : Z) (o : gop) : Z :=
  match o with GAdd n => clamp lo hi (x + n) | GSub n => clamp lo hi (x - n) end.

(** Reading two hexadecimal digits per octet. *)
Definition hex_digit_value (c : Z) : Z := if c <? 58 then c - 48 else c - 87.
Fixpoint read_hex (s : list Z) : option (list Z) :=
  match s with
  | [] => Some []
  | [_] => None
  | h :: l :: r =>
      match read_hex r with
      | Some os => Some (16 * hex_digit_value h + hex_digit_value l :: os)
      | None => None
      end
  end.
(** What util.octetsToOct writes of an octet: "0o", at most two octal digits - the first two, so the last one is lost from 64 on - and a comma. *)
Definition oct_item (b : Z) : list Z :=
  [48; 111] ++ map (Z.add 48) (if b <? 8 then [b] else if b <? 64 then [b / 8; b mod 8] else [b / 64; (b / 8) mod 8]) ++ [44].
