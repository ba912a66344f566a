(** * Vocabulary: an agent that serves a table of objects, and a command-line program that talks to it. *)
From Coq Require Import Ascii String ZArith List Bool Sorted.
From Verif Require Import PyBase Classes Values Codec Manager Text Tools SpecSMI SpecTree SpecWire SpecMsg SpecManager SpecText SpecFront SpecTools.
Import ListNotations.
Open Scope Z_scope.
Local Open Scope list_scope.

(** What the agent serves: the value of every object it has. *)
Definition mib := list Z -> option tree.
(** The lexicographic order of names. *)
Fixpoint before (a b : list Z) : Prop :=
  match a, b with
  | [], _ :: _ => True
  | x :: a, y :: b => x < y \/ (x = y /\ before a b)
  | _, [] => False
  end.
(** How it answers one binding of a Get or a GetNext (RFC 1905 4.2.1, 4.2.2): the value of the object, or a marker; the first object
    after the name, or the marker of the end. *)
Definition binding_answer (M : mib) (k : kind) (b b' : list Z * tree) : Prop :=
  match k with
  | KGet => fst b' = fst b /\
            (M (fst b) = Some (snd b') \/ M (fst b) = None /\ (snd b' = TNull KNoSuchObject \/ snd b' = TNull KNoSuchInstance))
  | KGetNext => (before (fst b) (fst b') /\ M (fst b') = Some (snd b') /\
                 forall n, before (fst b) n -> M n <> None -> n = fst b' \/ before (fst b') n) \/
                (b' = (fst b, TNull KEndOfMibView) /\ forall n, before (fst b) n -> M n = None)
  | _ => False
  end.
Definition assign (M : mib) (b : list Z * tree) : mib := fun n => if list_eq_dec Z.eq_dec n (fst b) then Some (snd b) else M n.
(** How it treats a request: the status and bindings of its answer, and what it serves from then on.  A Set either takes effect as a
    whole or is refused with one of the error codes (RFC 1905 4.2.5). *)
Definition treats (M : mib) (k : kind) (bs : list (list Z * tree)) (status : Z) (bs' : list (list Z * tree)) (M' : mib) : Prop :=
  match k with
  | KSet => bs' = bs /\ ((status = 0 /\ forall n, M' n = fold_left assign bs M n) \/ (1 <= status <= 18 /\ forall n, M' n = M n))
  | KGet | KGetNext => status = 0 /\ Forall2 (binding_answer M k) bs bs' /\ forall n, M' n = M n
  | _ => False
  end.
(** [serves M d r M']: [r] is its answer to the datagram [d] - a request with version 1 (SNMPv2c) and any community - while it serves
    [M], and afterwards it serves [M'].  Datagrams are shorter than 65536 octets. *)
Definition serves (M : mib) (d : str * address) (r : reply) (M' : mib) : Prop :=
  exists k id bs com strict, zlen (fst d) < 65536 /\ zlen (r_octets r) < 65536 /\ readable Upto1905 (request_tree k id 0 0 bs) /\
    wire strict (message_tree 1 com (request_tree k id 0 0 bs)) (fst d) /\ answers id r /\ treats M k bs (r_status r) (r_bindings r) M'.

(** What can come to a program that has sent [s]'s datagrams to the agent.  In general: an answer of the agent to any datagram sent so
    far, again and late as well as in time; nothing; or an error of the socket, which may also refuse to send.  If the network is perfect
    ([perfect]): the answer to the last datagram sent, nothing only if none was sent, no errors. *)
Definition honest (perfect : bool) (M : mib) (s : pstate) (o : outside) : Prop :=
  match o with
  | Answers x => perfect = true -> x = Ok tt
  | Finds Nothing => perfect = true -> sent s = []
  | Finds (SocketError _) => perfect = false
  | Finds (Datagram depth os src) => exists d r M', datagram r = o /\ serves M d r M' /\
      if perfect then exists ds, sent s = ds ++ [d] else In d (sent s)
  end.
(** The states of a program that reads only the table [M] of an honest agent. *)
Inductive observed (perfect : bool) (M : mib) (p : program) (args : list str) : pstate -> Prop :=
| observed_start s : runs p Text (Ok tt) args [] s -> observed perfect M p args s
| observed_step s o s' : observed perfect M p args s -> honest perfect M s o -> goes p Text args s [o] s' -> observed perfect M p args s'.

(** [L] are the objects from [name] on, in order. *)
Definition lists (M : mib) (name : list Z) (L : list (list Z * tree)) : Prop :=
  StronglySorted before (map fst L) /\ forall n v, In (n, v) L <-> M n = Some v /\ (n = name \/ before name n).
(** The lines snmpwalk.py prints for an object, and for the end of the table after the object [n]. *)
Definition entry_lines (b : list Z * tree) : list str :=
  match shown (snd b) with Some sv => binding_lines false true (fst b) (snd b) sv | None => [] end.
Definition end_line (n : list Z) : list str := entry_lines (n, TNull KEndOfMibView).
Definition all_lines (name : list Z) (L : list (list Z * tree)) : list str :=
  flat_map entry_lines L ++ end_line (fst (last L (name, TNull KNull))).
(** The objects are of types the library reads and writes correctly (C03, C11, C17, C66). *)
Definition walkable (L : list (list Z * tree)) : Prop :=
  Forall (fun b => oid_survives (fst b) /\ wf Upto1905 (snd b) /\ shown (snd b) <> None) L /\ zlen L < 2 ^ 31 - 1.
(** An object fits into a datagram. *)
Definition handy (b : list Z * tree) : Prop := exists strict os, wire strict (binding_tree b) os /\ zlen os <= 30000.
(** A whole run of a program that asks once: the agent, which serves [M], gets the request and the program gets the answer [r]; then
    the agent serves [M'], and the program is in the state [s]. *)
Definition exchanged (p : program) (args : list str) (M : mib) (r : reply) (M' : mib) (s : pstate) : Prop :=
  exists s0 d x, runs p Text (Ok tt) args asked s0 /\ sent s0 = [d] /\ serves M d r M' /\ goes p Text args s0 [datagram r; Answers x] s.
