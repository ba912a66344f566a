(** * Abstract SNMP values: what a Python object denotes, independently of which library
    class represents it and of how it is encoded. *)
From Coq Require Import ZArith List Bool.
From Verif Require Import PyBase Classes Values SpecSMI.
Import ListNotations.
Open Scope Z_scope.

(** An SNMP value: integer-like, string-like, identifier, null, or a constructed value
    (SEQUENCE or PDU) with its components. *)
Inductive tree :=
| TInt (k : kind) (z : Z)
| TOct (k : kind) (s : list Z)
| TOid (l : list Z)
| TNull (k : kind)
| TSeq (k : kind) (l : list tree).

Definition int_kind (k : kind) : bool :=
  match k with KInteger | KCounter32 | KGauge32 | KTimeTicks | KCounter64 => true | _ => false end.
Definition oct_kind (k : kind) : bool :=
  match k with KOctetString | KIpAddress | KOpaque => true | _ => false end.
Definition null_kind (k : kind) : bool :=
  match k with KNull | KNoSuchObject | KNoSuchInstance | KEndOfMibView => true | _ => false end.
Definition request_kind (k : kind) : bool :=
  match k with KGet | KGetNext | KResponse | KSet | KInform | KTrapV2 | KReport => true | _ => false end.
Definition seq_kind (k : kind) : bool :=
  request_kind k || match k with KSequence | KTrapV1 | KGetBulk => true | _ => false end.

(** The abstract value of a Python object of the library. *)
Fixpoint tree_of (v : val) : option tree :=
  match v with
  | VInt c z => match kind_of c with Some k => if int_kind k then Some (TInt k z) else None | None => None end
  | VOct c (VPyStr s) => match kind_of c with Some k => if oct_kind k then Some (TOct k s) else None | None => None end
  | VOid (Some l) => Some (TOid l)
  | VNull c => match kind_of c with Some k => if null_kind k then Some (TNull k) else None | None => None end
  | VSeq c l =>
      match kind_of c with
      | Some k => if seq_kind k then
          match (fix go (l : list val) : option (list tree) :=
                   match l with
                   | [] => Some []
                   | x :: r => match tree_of x, go r with Some a, Some b => Some (a :: b) | _, _ => None end
                   end) l with
          | Some ts => Some (TSeq k ts)
          | None => None
          end else None
      | None => None
      end
  | _ => None
  end.
Fixpoint trees_of (l : list val) : option (list tree) :=
  match l with
  | [] => Some []
  | x :: r => match tree_of x, trees_of r with Some a, Some b => Some (a :: b) | _, _ => None end
  end.

(** Nesting height: the number of nested decode calls the value needs. *)
Fixpoint height (t : tree) : nat :=
  match t with
  | TSeq _ l => S (fold_right (fun x n => Nat.max (height x) n) 1%nat l)
  | _ => 1%nat
  end.

(** Classes whose identifier octet is written wrongly (C17). *)
Definition written_right (c : cls) : bool :=
  match c with
  | CCounter64 | COpaque | CNoSuchObject | CNoSuchInstance | CEndOfMibView | CResponse => false
  | _ => true
  end.
Fixpoint classes_ok (v : val) : bool :=
  match v with
  | VInt c _ | VOct c _ | VNull c => written_right c
  | VSeq c l => written_right c && forallb classes_ok l
  | _ => true
  end.

(** Which PDU kinds are decodable once the modules of a configuration are imported. *)
Definition available (cfg : config) (k : kind) : bool :=
  match cfg, k with
  | (Upto1157 | With1157And1902 | Upto1905), (KGet | KGetNext | KResponse | KSet | KTrapV1) => true
  | Upto1905, (KGetBulk | KInform | KTrapV2 | KReport) => true
  | _, _ => false
  end.

(** Integers and identifiers that survive the wire (C03, C11). *)
Definition int_survives (v : Z) : Prop :=
  -1 <= v \/ exists k, 1 <= k /\ - 2 ^ (8 * k - 1) <= v < - 256 ^ (k - 1).
Definition oid_survives (l : list Z) : Prop :=
  match l with
  | a :: b :: rest => 0 <= a /\ 0 <= b < 40 /\ 40 * a + b < 128 /\ Forall (fun x => 0 <= x) rest
  | _ => False
  end.

Definition in32 (z : Z) : Prop := - 2 ^ 31 <= z <= 2 ^ 31 - 1.
(** A variable binding: a name and a value. *)
Definition binding (t : tree) : Prop := exists l v, t = TSeq KSequence [TOid l; v].
Definition request_shape (l : list tree) : Prop :=
  exists r e i bs, l = [TInt KInteger r; TInt KInteger e; TInt KInteger i; TSeq KSequence bs] /\
    in32 r /\ in32 e /\ in32 i /\ Forall binding bs /\ Z.of_nat (length bs) <= 2 ^ 31 - 1.
Definition trap_shape (l : list tree) : Prop :=
  exists ent ag g sp ts bs, l = [ent; ag; TInt KInteger g; sp; ts; TSeq KSequence bs] /\
    in32 g /\ Forall binding bs.

(** Values that make sense on the wire. *)
Fixpoint wf (cfg : config) (t : tree) : Prop :=
  match t with
  | TInt k z => match k with
                | KInteger | KGauge32 | KTimeTicks => int_survives z
                | KCounter32 => 0 <= z
                | _ => False
                end
  | TOct k _ => k = KOctetString \/ k = KIpAddress
  | TOid l => oid_survives l
  | TNull k => k = KNull
  | TSeq k l =>
      (fix all (l : list tree) : Prop := match l with [] => True | x :: r => wf cfg x /\ all r end) l /\
      match k with
      | KSequence => True
      | KTrapV1 => available cfg k = true /\ trap_shape l
      | _ => available cfg k = true /\ request_shape l
      end
  end.
