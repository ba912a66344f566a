(** * Specification vocabulary for messages and PDUs. *)
From Coq Require Import ZArith List Bool.
From Verif Require Import PyBase Classes Values SpecSMI SpecTree.
Import ListNotations.
Open Scope Z_scope.

(** An SNMP message as an abstract value (RFC 1157 4). *)
Definition message_tree (version : Z) (community : list Z) (pdu : tree) : tree :=
  TSeq KSequence [TInt KInteger version; TOct KOctetString community; pdu].
(** A request or response PDU (RFC 1157 4.1.1), a variable binding, a v1 trap (4.1.6). *)
Definition binding_tree (b : list Z * tree) : tree := TSeq KSequence [TOid (fst b); snd b].
Definition request_tree (k : kind) (requestID status index : Z) (bindings : list (list Z * tree)) : tree :=
  TSeq k [TInt KInteger requestID; TInt KInteger status; TInt KInteger index;
          TSeq KSequence (map binding_tree bindings)].
Definition trap_tree (enterprise agent : list Z) (generic specific ticks : Z) (bindings : list (list Z * tree)) : tree :=
  TSeq KTrapV1 [TOid enterprise; TOct KIpAddress agent; TInt KInteger generic; TInt KInteger specific;
                TInt KTimeTicks ticks; TSeq KSequence (map binding_tree bindings)].

(** The components a Python value shows when subscripted or iterated, if it has any. *)
Definition components (v : val) : option (list val) :=
  match v with
  | VSeq _ l | VPyList l => Some l
  | VOid (Some l) => Some (map VPyInt l)
  | VPyStr s => Some (map (fun c => VPyStr [c]) s)
  | _ => None
  end.

(** What decoding demands of a received variable binding: at least two components; the first
    an ObjectID or a value Python regards as false (an empty sequence, zero); the second any ASN.1
    object or a false value. *)
Definition falsy (v : val) : Prop :=
  match v with
  | VNone | VPyInt 0 | VPyStr [] | VPyList [] | VSeq _ [] | VOid None | VOid (Some []) => True
  | _ => False
  end.
Definition is_oid (v : val) : Prop := class_of v = Some CObjectID.
Definition is_object (v : val) : Prop := class_of v <> None.
Definition accepted_binding (item : val) (name value : val) : Prop :=
  exists extra, components item = Some (name :: value :: extra) /\
    (is_oid name \/ falsy name) /\ (is_object value \/ falsy value).

(** Integer objects of the wire. *)
Definition wire_integer (v : val) (z : Z) : Prop := exists c, v = VInt c z.

(** Forgetting which integer class a number has. *)
Fixpoint erase (v : val) : val :=
  match v with
  | VInt _ z => VInt CInteger z
  | VSeq c l => VSeq c (map erase l)
  | _ => v
  end.
(** Objects holding only objects: strings hold a str. *)
Fixpoint object (v : val) : Prop :=
  match v with
  | VInt _ _ | VNull _ | VOid _ => True
  | VOct _ (VPyStr _) => True
  | VSeq _ l => (fix all (l : list val) : Prop := match l with [] => True | x :: r => object x /\ all r end) l
  | _ => False
  end.
