(** * Specification vocabulary for C58-C60. *)
From Coq Require Import ZArith List Bool.
From Verif Require Import PyBase Classes Values Codec Manager SpecSMI SpecTree SpecMsg SpecManager SpecNumber.
Import ListNotations.
Open Scope Z_scope.

(** queue.Empty comes from somewhere else than the queue: from the socket when sending, or, in snmpManager, whose run()
    polls inside the same try statement, from the socket when receiving or from a callback. *)
Definition queue_empty_raised (sys : system) (l : label) : Prop :=
  l = LSend (Err QueueEmpty) \/ (flav sys = FSM /\ (l = LPoll (SocketError QueueEmpty) \/ l = LRaise QueueEmpty)).

(** The queue-empty callback is what runs now. *)
Definition empty_running (st : state) : Prop := exists rest, stack st = FEmpty :: rest.
(** In the execution [tr] the queue-empty callback never returns: it raises (sys.exit() included), or does not come back. *)
Definition empty_never_returns (sys : system) (tr : list label) : Prop :=
  forall tr1 tr2 st, tr = tr1 ++ LReturn :: tr2 -> exec sys tr1 = Some st -> ~ empty_running st.
(** User code never polls nor hands data to receiveData. *)
Definition only_run_receives (sys : system) (tr : list label) : Prop :=
  (forall depth d src, ~ In (LReceive depth d src) tr) /\
  (forall tr1 i tr2 st, tr = tr1 ++ LPoll i :: tr2 -> exec sys tr1 = Some st -> user_runs (stack st) = false).

(** An agent address was given: v1 and v2 test its truth, snmpManager compares with None. *)
Definition address_given (f : flavour) (a : val) : Prop := match f with FSM => a <> VNone | _ => ~ falsy a end.
(** Dotted decimal, as users write identifiers and addresses. *)
Definition dots (l : list Z) : str := py_join 46 (map py_str_of_int l).
(** The letters snmpset.py documents, and the kind of each. *)
Definition letter_kind (letter : Z) : option kind :=
  match letter with
  | 105 (* i *) => Some KInteger
  | 115 (* s *) => Some KOctetString
  | 111 (* o *) => Some KObjectID
  | 116 (* t *) => Some KTimeTicks
  | 97 (* a *) => Some KIpAddress
  | 99 (* c *) => Some KCounter32
  | 67 (* C *) => Some KCounter64
  | _ => None
  end.
(** A text that ObjectID accepts (C13), for a name that survives the wire (C11). *)
Definition names (oid : str) (name : list Z) : Prop := oid_text oid name /\ oid_survives name.
