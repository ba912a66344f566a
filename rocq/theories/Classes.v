(** * The class table of libsnmp: inheritance, tag attributes, value bounds and
    the decode table [tagDecodeDict].

    Attribute lookup is modelled the way Python does it: each class lists only
    the attributes it assigns itself, and [lookup] walks the MRO (all classes
    here use single inheritance). *)
From Coq Require Import ZArith List Bool.
From Verif Require Import PyBase.
Import ListNotations.
Open Scope Z_scope.

(** Every ASN.1 class of the library.  Suffix [_v2] marks the rfc1902/rfc1905
    class of the same name as an rfc1155/rfc1157 one. *)
Inductive cls :=
(* rfc1155.py *)
| CAsn1Object | CInteger | COctetString | CObjectID | CNull | CSequence
| CSequenceOf | CIPAddress | CNetworkAddress | CCounter | CGuage | CTimeTicks
| COpaque
(* rfc1157.py *)
| CErrorStatus | CVarBind | CVarBindList | CMessage | CPDU | CGet | CGetNext
| CResponse | CSet | CGenericTrap | CTrapPDU
(* rfc1902.py *)
| CInteger32 | CCounter32 | CGuage32 | CCounter64 | COctetString_v2
(* rfc1905.py *)
| CVarBind_v2 | CNoSuchObject | CNoSuchInstance | CEndOfMibView
| CVarBindList_v2 | CMessage_v2 | CErrorStatus_v2 | CPDU_v2 | CBulkPDU
| CGet_v2 | CGetNext_v2 | CResponse_v2 | CSet_v2 | CGetBulk | CInform
| CTrapV2 | CReport.

Definition cls_eq_dec (a b : cls) : {a = b} + {a <> b}.
Proof. decide equality. Defined.
Definition cls_eqb (a b : cls) : bool := if cls_eq_dec a b then true else false.

(** The class statements: rfc1155.py 64,288,513,550,762,785,855,889,943,952,996,
    1033,1065; rfc1157.py 20,58,76,87,133,173-191,197,227; rfc1902.py 27,34,40,46,55;
    rfc1905.py 22,30,36,42,48,58,64,100,137,179-221. *)
Definition parent (c : cls) : option cls :=
  match c with
  | CAsn1Object => None
  | CInteger | COctetString | CObjectID | CNull | CSequence => Some CAsn1Object
  | CSequenceOf => Some CSequence
  | CIPAddress => Some COctetString
  | CNetworkAddress => Some CIPAddress
  | CCounter | CGuage | CTimeTicks => Some CInteger
  | COpaque => Some COctetString
  | CErrorStatus => Some CInteger
  | CVarBind => Some CSequence
  | CVarBindList => Some CSequenceOf
  | CMessage => Some CSequence
  | CPDU => Some CSequence
  | CGet | CGetNext | CResponse | CSet => Some CPDU
  | CGenericTrap => Some CInteger
  | CTrapPDU => Some CSequence
  | CInteger32 => Some CInteger
  | CCounter32 => Some CCounter
  | CGuage32 => Some CGuage
  | CCounter64 => Some CCounter
  | COctetString_v2 => Some COctetString
  | CVarBind_v2 => Some CVarBind
  | CNoSuchObject | CNoSuchInstance | CEndOfMibView => Some CNull
  | CVarBindList_v2 => Some CVarBindList
  | CMessage_v2 => Some CMessage
  | CErrorStatus_v2 => Some CErrorStatus
  | CPDU_v2 => Some CPDU
  | CBulkPDU => Some CSequence
  | CGet_v2 | CGetNext_v2 | CResponse_v2 | CSet_v2 | CInform | CTrapV2 | CReport => Some CPDU_v2
  | CGetBulk => Some CBulkPDU
  end.

(** Method resolution order.  The deepest class (rfc1905.Get) is 5 levels deep. *)
Fixpoint mro_n (n : nat) (c : cls) : list cls :=
  match n with
  | O => [c]
  | S n' => c :: match parent c with None => [] | Some p => mro_n n' p end
  end.
Definition mro (c : cls) : list cls := mro_n 8 c.

(** issubclass(c, d) *)
Definition issubclass (c d : cls) : bool := existsb (cls_eqb d) (mro c).

(** Attribute lookup along the MRO. *)
Fixpoint first_some {A} (own : cls -> option A) (l : list cls) : option A :=
  match l with
  | [] => None
  | c :: r => match own c with Some a => Some a | None => first_some own r end
  end.
Definition lookup {A} (own : cls -> option A) (c : cls) : option A := first_some own (mro c).

(** asnTagClasses, asnTagFormats: rfc1155.py 34-44 *)
Definition tc_UNIVERSAL := 0x00.
Definition tc_APPLICATION := 0x40.
Definition tc_CONTEXT := 0x80.
Definition tf_PRIMITIVE := 0x00.
Definition tf_CONSTRUCTED := 0x20.

(** asnTagNumbers: rfc1155.py 46-61, rfc1157.py 13-17, rfc1902.py 24, rfc1905.py 14-17 *)
Definition tn_Integer := 0x02.
Definition tn_OctetString := 0x04.
Definition tn_Null := 0x05.
Definition tn_ObjectID := 0x06.
Definition tn_Sequence := 0x10.
Definition tn_IPAddress := 0x00.
Definition tn_Counter := 0x01.
Definition tn_Guage := 0x02.
Definition tn_TimeTicks := 0x03.
Definition tn_Get := 0x00.
Definition tn_GetNext := 0x01.
Definition tn_Response := 0x02.
Definition tn_Set := 0x03.
Definition tn_Trap := 0x04.
Definition tn_Counter64 := 0x06.
Definition tn_GetBulk := 0x05.
Definition tn_Inform := 0x06.
Definition tn_TrapV2 := 0x07.
Definition tn_Report := 0x08.

(** asnTagClass assignments: rfc1155.py 73,291,516,553,765,790,860,894,957,1001,1038;
    rfc1157.py 136,230; rfc1902.py 52 (Counter64 assigns a tag *number* here);
    rfc1905.py 103,142. *)
Definition own_tagClass (c : cls) : option Z :=
  match c with
  | CAsn1Object | CInteger | COctetString | CObjectID | CNull | CSequence | CSequenceOf => Some tc_UNIVERSAL
  | CIPAddress | CCounter | CGuage | CTimeTicks => Some tc_APPLICATION
  | CPDU | CTrapPDU | CPDU_v2 | CBulkPDU => Some tc_CONTEXT
  | CCounter64 => Some tn_Counter64
  | _ => None
  end.

(** asnTagFormat assignments: rfc1155.py 74,554,766,791,861,895,958,1002,1039 *)
Definition own_tagFormat (c : cls) : option Z :=
  match c with
  | CAsn1Object | CObjectID | CNull | CIPAddress | CCounter | CGuage | CTimeTicks => Some tf_PRIMITIVE
  | CSequence | CSequenceOf => Some tf_CONSTRUCTED
  | _ => None
  end.

(** asnTagNumber assignments: rfc1155.py 75 (None),292,517,555,767,792,862,896,959,
    1003,1040; rfc1157.py 176,182,188 (Response uses 'Get'),194,231; rfc1905.py 182-224.
    [Some None] is Python's None on Asn1Object. *)
Definition own_tagNumber (c : cls) : option (option Z) :=
  match c with
  | CAsn1Object => Some None
  | CInteger => Some (Some tn_Integer)
  | COctetString => Some (Some tn_OctetString)
  | CObjectID => Some (Some tn_ObjectID)
  | CNull => Some (Some tn_Null)
  | CSequence | CSequenceOf => Some (Some tn_Sequence)
  | CIPAddress => Some (Some tn_IPAddress)
  | CCounter => Some (Some tn_Counter)
  | CGuage => Some (Some tn_Guage)
  | CTimeTicks => Some (Some tn_TimeTicks)
  | CGet => Some (Some tn_Get)
  | CGetNext => Some (Some tn_GetNext)
  | CResponse => Some (Some tn_Get)
  | CSet => Some (Some tn_Set)
  | CTrapPDU => Some (Some tn_Trap)
  | CGet_v2 => Some (Some tn_Get)
  | CGetNext_v2 => Some (Some tn_GetNext)
  | CResponse_v2 => Some (Some tn_Response)
  | CSet_v2 => Some (Some tn_Set)
  | CGetBulk => Some (Some tn_GetBulk)
  | CInform => Some (Some tn_Inform)
  | CTrapV2 => Some (Some tn_TrapV2)
  | CReport => Some (Some tn_Report)
  | _ => None
  end.

Definition opt_or {A} (d : A) (o : option A) : A := match o with Some a => a | None => d end.
(** self.asnTagClass, self.asnTagFormat, self.asnTagNumber.  The defaults are
    unreachable: Asn1Object, at the root of every MRO, assigns all three. *)
Definition tagClass (c : cls) : Z := opt_or 0 (lookup own_tagClass c).
Definition tagFormat (c : cls) : Z := opt_or 0 (lookup own_tagFormat c).
Definition tagNumber (c : cls) : option Z := opt_or None (lookup own_tagNumber c).

(** MINVAL / MAXVAL: rfc1155.py 294-295, 961-962, 1005-1006, 1042-1043;
    rfc1902.py 30-31 (Integer32: MAXVAL = 2147483648), 49-50. *)
Definition own_MINVAL (c : cls) : option Z :=
  match c with
  | CInteger => Some (-2147483648)
  | CCounter | CGuage | CTimeTicks => Some 0
  | CInteger32 => Some (-2147483648)
  | CCounter64 => Some 0
  | _ => None
  end.
Definition own_MAXVAL (c : cls) : option Z :=
  match c with
  | CInteger => Some 2147483647
  | CCounter | CGuage | CTimeTicks => Some 4294967295
  | CInteger32 => Some 2147483648
  | CCounter64 => Some 18446744073709551615
  | _ => None
  end.
Definition MINVAL (c : cls) : Z := opt_or 0 (lookup own_MINVAL c).
Definition MAXVAL (c : cls) : Z := opt_or 0 (lookup own_MAXVAL c).

(** Which decodeContents method a class defines: rfc1155.py 401, 532, 696, 775,
    842, 921, 977; rfc1157.py 153, 255; rfc1905.py 164. *)
Inductive dmeth := DInteger | DOctetString | DObjectID | DNull | DSequence
                 | DIPAddress | DCounter | DPDU | DTrapPDU | DBulkPDU.
Definition own_decodeContents (c : cls) : option dmeth :=
  match c with
  | CInteger => Some DInteger
  | COctetString => Some DOctetString
  | CObjectID => Some DObjectID
  | CNull => Some DNull
  | CSequence => Some DSequence
  | CIPAddress => Some DIPAddress
  | CCounter => Some DCounter
  | CPDU => Some DPDU
  | CTrapPDU => Some DTrapPDU
  | CBulkPDU => Some DBulkPDU
  | _ => None
  end.
Definition decode_method (c : cls) : option dmeth := lookup own_decodeContents c.

(** ** tagDecodeDict *)

(** A Python dict from tag to class; an assignment replaces the old entry. *)
Definition registry := list (Z * cls).
Fixpoint reg_get (r : registry) (t : Z) : option cls :=
  match r with
  | [] => None
  | (k, c) :: rest => if k =? t then Some c else reg_get rest t
  end.
Fixpoint reg_set (r : registry) (t : Z) (c : cls) : registry :=
  match r with
  | [] => [(t, c)]
  | (k, d) :: rest => if k =? t then (k, c) :: rest else (k, d) :: reg_set rest t c
  end.
Definition reg_sets (r : registry) (l : list (Z * cls)) : registry :=
  fold_left (fun r kc => reg_set r (fst kc) (snd kc)) l r.

(** rfc1155.py 1086-1102 *)
Definition reg1155 : registry :=
  [ (0x02, CInteger); (0x04, COctetString); (0x05, CNull); (0x06, CObjectID);
    (0x30, CSequence); (0x40, CIPAddress); (0x41, CCounter); (0x42, CGuage);
    (0x43, CTimeTicks); (0x44, COpaque) ].
(** rfc1157.py 273-277 (state after importing rfc1157; used by v1 alone) *)
Definition reg1157 : registry :=
  reg_sets reg1155 [ (0xa0, CGet); (0xa1, CGetNext); (0xa2, CResponse);
                     (0xa3, CSet); (0xa4, CTrapPDU) ].
(** rfc1902.py 70-73 *)
Definition reg_add1902 (r : registry) : registry :=
  reg_sets r [ (0x02, CInteger32); (0x41, CCounter32); (0x42, CGuage32);
               (0x46, CCounter64) ].
(** rfc1905.py 9-10 import rfc1157, then rfc1902; 234-243 then assign.  This is the
    state used by v2 and snmpmanager, and by v1 too once either is imported. *)
Definition reg1905 : registry :=
  reg_sets (reg_add1902 reg1157)
           [ (0xa2, CResponse_v2); (0xa5, CGetBulk); (0xa6, CInform);
             (0xa7, CTrapV2); (0xa8, CReport); (0x80, CNoSuchObject);
             (0x81, CNoSuchInstance); (0x82, CEndOfMibView) ].

(** The import configurations a program can be in (which of the rfc modules have
    been imported so far; rfc1157 and rfc1902 touch disjoint keys). *)
Inductive config := Only1155 | Upto1157 | Only1902 | With1157And1902 | Upto1905.
Definition reg_of (k : config) : registry :=
  match k with
  | Only1155 => reg1155
  | Upto1157 => reg1157
  | Only1902 => reg_add1902 reg1155
  | With1157And1902 => reg_add1902 reg1157
  | Upto1905 => reg1905
  end.
