(** * Vocabulary for managers behind a network: agents that answer requests, and what the network may do to their
    answers.  Built from the wire format (SpecWire, SpecMsg) and the histories of Manager. *)
From Coq Require Import ZArith List Bool.
From Verif Require Import PyBase Classes Values Codec Manager SpecBER SpecSMI SpecTree SpecWire SpecMsg SpecManager.
Import ListNotations.
Open Scope Z_scope.

(** The PDUs an agent answers (RFC 1157 4.1, RFC 1905 4.2). *)
Definition asking (k : kind) : Prop := In k [KGet; KGetNext; KSet; KGetBulk; KInform].
(** [os'] is a correct answer to [os] as far as identification goes: [os] is a request, [os'] a Response, and both
    have the same request id (RFC 1157 4.1.3).  Version, community, status and bindings are left open. *)
Definition answers (os os' : list Z) : Prop :=
  exists strict strict' ver ver' com com' k id s i bs s' i' bs', asking k /\
    wire strict (message_tree ver com (request_tree k id s i bs)) os /\
    wire strict' (message_tree ver' com' (request_tree KResponse id s' i' bs')) os'.
(** What is not a request is not a request the manager's user disguised as a trap. *)
Definition trap_object (pdu : val) : Prop := exists c l, (c = CTrapPDU \/ c = CTrapV2) /\ pdu = VSeq c l.
(** A history in which all data come from a network of agents: every datagram read from the socket comes from an
    address to which an answered request was sent, before, by this manager (so requests and answers may be lost, delayed
    without limit, repeated and reordered, but not forged), and fitted into a UDP datagram; user code does not call
    receiveData itself, and calls snmpTrap with trap PDUs only. *)
Definition networked (sys : system) (tr : list label) : Prop :=
  (forall tr1 l tr2 st1, tr = tr1 ++ l :: tr2 -> exec sys tr1 = Some st1 ->
     match l with
     | LPoll (Datagram _ os' src) => exists os, In (ESend os src (Ok tt)) (log st1) /\ zlen os < 65536 /\ answers os os'
     | LReceive _ _ _ => False
     | LCall (ATrap _ pdu _ _) => trap_object pdu
     | _ => True
     end).

(** A history of a listener all whose data come from another manager, whose log is [lg], sending to the address [dst]:
    any of its datagrams may arrive, any number of times, in any order, apparently from anywhere, or not at all. *)
Definition relayed (dst : address) (lg : list event) (tr : list label) : Prop :=
  Forall (fun l => match l with
                   | LPoll (Datagram _ os _) => In (ESend os dst (Ok tt)) lg /\ zlen os < 65536
                   | LReceive _ _ _ => False
                   | _ => True
                   end) tr.
