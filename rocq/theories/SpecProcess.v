(** * Vocabulary for C82-C85: several SNMP managers in one process. *)
From Coq Require Import ZArith List Bool.
From Verif Require Import PyBase Classes Values Codec Manager Role Asyn Process SpecAsyn SpecNetwork.
Import ListNotations.
Open Scope Z_scope.

(** Everything but how run() and poll() come back to user code. *)
Definition lasting (e : Manager.event) : bool := match e with EResult _ => false | _ => true end.
(** What manager [o] did, in a log of the process. *)
Definition history (o : nat) (wl : list wevent) : list Manager.event :=
  flat_map (fun e => match e with WM p e => if Nat.eqb p o && lasting e then [e] else [] | WA _ => [] end) wl.
(** What asyncore and the kernel did. *)
Definition traffic (wl : list wevent) : list aevent := flat_map (fun e => match e with WA e => [e] | WM _ _ => [] end) wl.
(** [o] is a manager of the process, made in the way [sys]. *)
Definition is_manager (w : world) (o : nat) (sys : system) : Prop := exists m, man_of w o = Some (sys, m).
(** The label [l], of an execution of one manager [o] alone that has the history [h], is something that happened in the process with log
    [wl]: a datagram is one with which asyncore called receiveData of [o], when the history of [o] was [h]; a method call is one that
    user code made on [o]; and user code does not call receiveData. *)
Definition happened (o : nat) (wl : list wevent) (h : list Manager.event) (l : label) : Prop :=
  match l with
  | LPoll (Datagram _ d src) => exists wl1 wl2, wl = wl1 ++ WA (ECb o (Data d src)) :: wl2 /\ history o wl1 = h
  | LCall a => exists r, In (WM o (ECall a r)) wl
  | LReceive _ _ _ => False
  | _ => True
  end.
(** [tr], taken alone, is what [o] saw of a process with log [wl]. *)
Definition seen_by (o : nat) (wl : list wevent) (sys : system) (tr : list label) : Prop :=
  forall tr1 l tr2 st1, tr = tr1 ++ l :: tr2 -> exec sys tr1 = Some st1 -> happened o wl (filter lasting (log st1)) l.
(** A process behind a network of agents: whatever arrives at a socket of a manager answers a request that this manager has sent, before, to
    the address the datagram comes from (as in [networked]: datagrams may be lost, delayed, repeated and reordered, not forged); and
    snmpTrap is called with trap PDUs only. *)
Definition behind_agents (w : world) : Prop :=
  (forall wl1 s d src wl2 o, wlog w = wl1 ++ WA (EArrive s (Ok (d, src))) :: wl2 -> opened_by (traffic (wlog w)) s o ->
     exists os, In (WM o (Manager.ESend os src (Ok tt))) wl1 /\ zlen os < 65536 /\ answers os d) /\
  (forall o dst pdu com ver r, In (WM o (ECall (ATrap dst pdu com ver) r)) (wlog w) -> trap_object pdu).
(** The library cannot do anything: neither user code nor the library has a next step, and it does not wait for a datagram either. *)
Definition waits (w : world) : Prop := exists k, ctl w = WWait :: k.
Definition can_go_on (w : world) : Prop :=
  (forall depth, exists w', wstep w (XGoOn depth) = Some w') \/ (forall op r, exists fd w', wstep w (XSend op fd r) = Some w').
(** Managers are as they were. *)
Definition same_managers (w w' : world) : Prop := forall q, man_of w' q = man_of w q.
(** The one exception that run() of a manager does not let out: an snmpManager polls inside the try and takes queue.Empty for its own
    queue being empty. *)
Definition takes_for_empty (sys : system) (e : exn) : Prop := flav sys = FSM /\ e = QueueEmpty.
(** A response or trap callback is running. *)
Definition in_callback (w : world) : Prop := exists o id k, ctl w = WResp o id :: k \/ ctl w = WTrap o :: k.
(** Nobody calls handle_close(), and response and trap callbacks neither poll nor run nor make managers (queueEmpty callbacks may). *)
Definition calm_process (tr : list wlabel) : Prop :=
  (forall o r, ~ In (XHandleClose o r) tr) /\
  forall tr1 l tr2 w, tr = tr1 ++ l :: tr2 -> wexec tr1 = Some w -> in_callback w -> match l with XPoll _ | XRun _ | XNew _ _ _ _ _ _ _ => False | _ => True end.

(** Why run() or poll() of [p], a manager made in the way [sys], comes back with [r], [wl] having been logged before: poll() has just come back with it (since then,
    datagrams may have arrived); send() of a message has just raised it; encoding a message has; there is no message in what was queued; the queueEmpty callback, called
    before, raises it; or queueEmpty is not callable. *)
Definition arrival (e : wevent) : Prop := exists s x, e = WA (EArrive s x).
Inductive comes_back (sys : system) (wl : list wevent) (p : nat) : res unit -> Prop :=
| back_poll wl0 late r : wl = wl0 ++ WA (EPollEnd p r) :: late -> Forall arrival late -> comes_back sys wl p r
| back_send wl0 msg os dst e : wl = wl0 ++ [WM p (ETake (Some msg) dst); WM p (Manager.ESend os dst (Err e))] -> comes_back sys wl p (Err e)
| back_encode wl0 msg dst e : wl = wl0 ++ [WM p (ETake (Some msg) dst)] -> snd (message_encode msg) = Err e -> comes_back sys wl p (Err e)
| back_none wl0 dst : wl = wl0 ++ [WM p (ETake None dst)] -> comes_back sys wl p (Err AttributeError)
| back_empty n e : queueEmpty sys = Some (Cb n) -> In (WM p (EInvokeEmpty n)) wl -> comes_back sys wl p (Err e)
| back_not_callable : queueEmpty sys = Some NotCallable -> comes_back sys wl p (Err TypeError).
(** How many calls of run() are in progress. *)
Definition running (k : list wframe) : nat := length (filter (fun f => match f with WRun _ _ => true | _ => false end) k).
