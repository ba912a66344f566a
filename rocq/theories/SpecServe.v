(** * Vocabulary for C87: datagrams that answer requests, and their delivery. *)
From Coq Require Import ZArith List Bool.
From Verif Require Import PyBase Classes Values Codec SpecSMI SpecTree SpecWire SpecMsg Manager Role Asyn Process SpecManager SpecAsyn.
Import ListNotations.
Open Scope Z_scope.

(** A datagram that waits for manager [v_mgr x_del], and is to be given to its callback [x_cb] as the answer [x_pdu] to its request [x_id]. *)
Record expected := mkExpected { x_del : SpecAsyn.delivery; x_id : Z; x_cb : nat; x_pdu : tree }.
Definition x_mgr (x : expected) : nat := v_mgr (x_del x).
(** It really is: the request waits for its answer with that callback, and the octets are, on the wire, a message - of any community - that
    is an answer with that id; [depth] nested decode calls are enough. *)
Definition expects (w : world) (depth : nat) (x : expected) : Prop :=
  exists sys m strict ver com, man_of w (x_mgr x) = Some (sys, m) /\ importable sys /\ pending m (x_id x) (Cb (x_cb x)) /\
    wire strict (message_tree ver com (x_pdu x)) (v_data (x_del x)) /\ readable (imports sys) (x_pdu x) /\ (S (height (x_pdu x)) <= depth)%nat /\
    answer_to (flav sys) ver (x_pdu x) (x_id x).
(** What is seen when it is delivered: read from the socket, handed to the manager, whose callback is called with the answer and returns. *)
Inductive answered (x : expected) : list wevent -> Prop :=
| answered_with msg : tree_of (m_data msg) = Some (x_pdu x) ->
    answered x (map WA (handed (x_del x)) ++ [WM (x_mgr x) (EInvoke (x_id x) (x_cb x) msg); WM (x_mgr x) (EFinished (x_id x) (Ok tt)); WA (ECbEnd (x_mgr x) (Ok tt))]).
(** The managers are as before, but the requests answered are not pending any more. *)
Definition only_answered (w w' : world) (l : list expected) : Prop :=
  (forall q, ~ In q (map x_mgr l) -> man_of w' q = man_of w q) /\
  forall q sys m, man_of w q = Some (sys, m) -> exists m', man_of w' q = Some (sys, m') /\ nextRequestID m' = nextRequestID m /\ outbound m' = outbound m /\
    forall id cb, pending m' id cb <-> pending m id cb /\ ~ exists x, In x l /\ x_mgr x = q /\ x_id x = id.
(** The schedule: for each datagram the library goes on to the callback, which returns. *)
Definition deliver (depth : nat) (l : list expected) : list wlabel := flat_map (fun _ => [XGoOn depth; XReturn]) l.
(** One request and its answer under run(), among other managers: the call; the loop taking and sending the message, out of descriptor [fd] if it needed one; the datagram
    arriving at socket [s]; the callback returning. *)
Definition request_and_answer (f : flavour) (o : nat) (a : call) (fd : Z) (s : nat) (d : str) (src : addr) (depth : nat) : list wlabel :=
  [XCall o a; XRun o] ++ (match f with FSM => [XGoOn depth; XGoOn depth; XSend opens fd (Ok tt)] | _ => [XSend opens fd (Ok tt); XSend opens fd (Ok tt)] end) ++
  [XArrive s (Ok (d, src)); XGoOn depth; XGoOn depth; XReturn; XGoOn depth].
