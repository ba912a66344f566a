(** * A process with any number of SNMP managers: v1.SNMP, v2.SNMP and snmpManager objects (Manager.v) on the one socket map of
    asyncore (Asyn.v).

    Each manager is an asynrole.Manager whose callback is its own receiveData (v1.py 37, also for v2.SNMP, which inherits
    __init__; snmpmanager.py 53).  poll() of one manager serves the sockets of all; run() of one manager therefore runs callbacks of the others, and these may
    use any manager.  User code - the main part and the callbacks - is nondeterministic.  Simplifications, besides those of Manager and
    Asyn: sockets carry str, as Python 2's did ([Text]; over Python 3's nothing is ever sent, C52); user code calls neither receiveData
    nor send itself. *)
From Coq Require Import ZArith List Bool.
From Verif Require Import PyBase Classes Values Codec Manager Role Asyn.
Import ListNotations.
Open Scope Z_scope.

(** Activations: run() (v1.py 216-236, snmpmanager.py 322-342), receiveData (v1.py 163-208, v2.py 141-190, snmpmanager.py 254-314) and poll()
    (asynrole.py 65-66) in progress.  User code runs if one of the first three is on top, or none is left. *)
Inductive wframe :=
| WResp (o : nat) (id : Z)                  (* a response callback of manager o, called by its receiveData, called by asyncore *)
| WTrap (o : nat)                           (* a trap callback, likewise *)
| WEmpty (o : nat)                          (* queueEmpty of o, called by run() of o *)
| WRun (o : nat) (p : phase)                (* run() of o, about to poll (or polling), or about to send *)
| WGot (o : nat) (d : str) (src : addr)     (* receiveData of o has been called with a datagram *)
| WExc (o : nat) (e : exn)                  (* ... with an exception *)
| WPolled (p : nat) (r : res unit)          (* poll() of p is about to come back *)
| WWait.                                    (* recvfrom waits *)
(** What is observable: of the managers, and of asyncore and the kernel. *)
Inductive wevent := WM (o : nat) (e : Manager.event) | WA (e : aevent).
Record world := mkWorld { asyn : astate; mans : list (option (system * mgr)); ctl : list wframe; wlog : list wevent }.
Definition winit : world := mkWorld ainit [] [] [].
Definition man_of (w : world) (o : nat) : option (system * mgr) := match nth_error (mans w) o with Some x => x | None => None end.
Definition user_code (k : list wframe) : bool := match k with [] | WResp _ _ :: _ | WTrap _ :: _ | WEmpty _ :: _ => true | _ => false end.

(** What asyncore logs in a step (ghost). *)
Definition fresh (A A' : astate) : list wevent := map WA (skipn (length (alog A)) (alog A')).
(** Where asyncore has come to (handle_read and handle_error, asynrole.py 37-61, call cb_fun; asyncore.poll returns): a callback is called, poll() comes back, or recvfrom waits. *)
Definition reached (A : astate) : wframe :=
  match rev (alog A) with
  | ECb o (Data d src) :: _ => WGot o d src
  | ECb o (Exc e) :: _ => WExc o e
  | EPollEnd p r :: _ => WPolled p r
  | _ => WWait
  end.
(** asyncore (Asyn.astep: asynrole.py 37-66 and asyncore.py's read and poll) goes on; [k] is the stack below it. *)
Definition asyncore (w : world) (l : alabel) (k : list wframe) : option world :=
  match astep (asyn w) l with
  | None => None
  | Some A => Some (mkWorld A (mans w) (reached A :: k) (wlog w ++ fresh (asyn w) A))
  end.
(** asyncore does something between two steps of user code (send, handle_close, asynrole.py 34-51; asyncore's close). *)
Definition aside (w : world) (l : alabel) : option world :=
  match astep (asyn w) l with
  | None => None
  | Some A => Some (mkWorld A (mans w) (ctl w) (wlog w ++ fresh (asyn w) A))
  end.
(** The attributes nextRequestID, outbound and callbacks of the manager [o] (v1.py 22-37, snmpmanager.py 40-53) change, logging [es]; the stack becomes [k]. *)
Definition acts (w : world) (o : nat) (sys : system) (m : mgr) (es : list Manager.event) (k : list wframe) : world :=
  mkWorld (asyn w) (upd (mans w) o (Some (sys, m))) k (wlog w ++ map (WM o) es).
(** receiveData of [o] comes back with [r] to handle_read (asynrole.py 37-40) or handle_error (52-61). *)
Definition received_by (w : world) (o : nat) (r : res unit) (k : list wframe) : option world :=
  asyncore w (match r with Ok _ => AReturn | Err e => ARaise e end) k.
(** The handler of queue.Empty in run() of [o] (v1.py 226-234, snmpmanager.py 335-338; Manager.loop_empty). *)
Definition nothing_queued (w : world) (o : nat) (sys : system) (m : mgr) (es : list Manager.event) (k : list wframe) : world :=
  match queueEmpty sys with
  | None => acts w o sys m es (WRun o Polling :: k)
  | Some NotCallable => acts w o sys m (es ++ [EResult (Err TypeError)]) k
  | Some (Cb n) => acts w o sys m (es ++ [EInvokeEmpty n]) (WEmpty o :: WRun o Polling :: k)
  end.
(** An exception inside the try of run() (v1.py 221-226, snmpmanager.py 328-342; Manager.send_called). *)
Definition run_fails (w : world) (o : nat) (sys : system) (m : mgr) (e : exn) (es : list Manager.event) (k : list wframe) : world :=
  match e with QueueEmpty => nothing_queued w o sys m es k | _ => acts w o sys m (es ++ [EResult (Err e)]) k end.
(** run() of v1.SNMP and v2.SNMP takes a message first (v1.py 223) and polls only in the handler of queue.Empty (v1.py 232); that of snmpManager
    polls first (snmpmanager.py 329). *)
Definition loop_start (f : flavour) : phase := match f with FSM => Polling | _ => Sending end.

(** What can happen next. *)
Inductive wlabel :=
| XNew (f : flavour) (imp : config) (qe tc : option cbval) (interface : addr) (op : opening) (fd : Z)   (* user code makes a manager *)
| XCall (o : nat) (a : call)
| XPoll (o : nat)
| XRun (o : nat)
| XClose (o : nat) (r : res unit)
| XHandleClose (o : nat) (r : res unit)
| XReturn | XRaise (e : exn)                       (* the running callback ends *)
| XArrive (s : nat) (x : packet)                   (* the kernel *)
| XSend (op : opening) (fd : Z) (r : res unit)     (* run() takes a message; what the kernel answers *)
| XGoOn (depth : nat).                             (* the library goes on; depth: the recursion the interpreter allows *)

(** One step: the constructor (v1.py 22-37, snmpmanager.py 40-53), the methods (Manager.do_call, with its citations), poll, run, close and
    handle_close, called by user code; the end of a callback (receiveData's del, v1.py 195, v2.py 176, snmpmanager.py 291 and 307); a datagram arriving; run() taking a message and sending it
    (v1.py 223-224, snmpmanager.py 332-333); the library going on: receiveData with data (v1.py 163-208, v2.py 141-190, snmpmanager.py 254-314) or
    an exception (v1.py 167-170), run() polling, poll() coming back to run() or to user code. *)
Definition wstep (w : world) (l : wlabel) : option world :=
  match l with
  | XNew f imp qe tc i op fd =>
      if user_code (ctl w) then
        match astep (asyn w) (ANew (CbPair true) i op fd) with
        | None => None
        | Some A =>
            let made := match rev (alog A) with ENew _ (Ok _) :: _ => Some (mkSys f imp qe tc Text, mgr0) | _ => None end in
            Some (mkWorld A (mans w ++ [made]) (ctl w) (wlog w ++ fresh (asyn w) A))
        end
      else None
  | XCall o a =>
      if user_code (ctl w) then
        match man_of w o with
        | None => None
        | Some (sys, m) =>
            let '(m', r) := do_call (flav sys) a m in
            Some (acts w o sys m' (ECall a r :: map (fun p => EPut (fst p) (snd p)) (skipn (length (outbound m)) (outbound m'))) (ctl w))
        end
      else None
  | XPoll o => if user_code (ctl w) then asyncore w (APoll o) (ctl w) else None
  | XRun o =>
      if user_code (ctl w) then
        match man_of w o with Some (sys, m) => Some (mkWorld (asyn w) (mans w) (WRun o (loop_start (flav sys)) :: ctl w) (wlog w)) | None => None end
      else None
  | XClose o r => if user_code (ctl w) then aside w (AClose o r) else None
  | XHandleClose o r => if user_code (ctl w) then aside w (AHandleClose o r) else None
  | XReturn =>
      match ctl w with
      | WResp o id :: k =>
          match man_of w o with
          | None => None
          | Some (sys, m) => let '(m', r) := after_response (flav sys) m id (Ok tt) in received_by (acts w o sys m' [EFinished id (Ok tt)] (ctl w)) o r k
          end
      | WTrap o :: k => received_by w o (Ok tt) k
      | WEmpty o :: k => Some (mkWorld (asyn w) (mans w) k (wlog w))
      | _ => None
      end
  | XRaise e =>
      match ctl w with
      | WResp o id :: k =>
          match man_of w o with
          | None => None
          | Some (sys, m) => let '(m', r) := after_response (flav sys) m id (Err e) in received_by (acts w o sys m' [EFinished id (Err e)] (ctl w)) o r k
          end
      | WTrap o :: k => match man_of w o with None => None | Some (sys, m) => received_by w o (guard (flav sys) (Err e)) k end
      | WEmpty o :: WRun _ _ :: k => match man_of w o with None => None | Some (sys, m) => Some (acts w o sys m [EResult (Err e)] k) end
      | _ => None
      end
  | XArrive s x =>
      match ctl w with
      | WWait :: k =>
          match aside w (AArrive s x) with
          | Some w' => Some (match astack (asyn w') with FBlocked _ _ :: _ => w' | _ => mkWorld (asyn w') (mans w') (reached (asyn w') :: k) (wlog w') end)
          | None => None
          end
      | _ => aside w (AArrive s x)
      end
  | XSend op fd r =>
      match ctl w with
      | WRun o Sending :: k =>
          match man_of w o with
          | None => None
          | Some (sys, m) =>
              match outbound m with
              | [] => Some (nothing_queued w o sys m [] k)
              | (om, dst) :: q =>
                  let m' := mkMgr (nextRequestID m) q (callbacks m) in
                  match (match om with None => Err AttributeError | Some msg => snd (message_encode msg) end) with
                  | Err e => Some (run_fails w o sys m' e [ETake om dst] k)
                  | Ok os =>
                      match aside w (ASend o os dst op fd r) with
                      | None => None
                      | Some w' =>
                          match rev (alog (asyn w')) with
                          | Asyn.ESend _ (Ok _) :: _ => Some (acts w' o sys m' [ETake om dst; Manager.ESend os dst (Ok tt)] (WRun o (loop_start (flav sys)) :: k))
                          | Asyn.ESend _ (Err e) :: _ => Some (run_fails w' o sys m' e [ETake om dst; Manager.ESend os dst (Err e)] k)
                          | _ => None                      (* does not happen *)
                          end
                      end
                  end
              end
          end
      | _ => None
      end
  | XGoOn depth =>
      match ctl w with
      | WGot o d src :: k =>
          match man_of w o with
          | None => None
          | Some (sys, m) =>
              match receiveData sys m depth (DStr d) with
              | (Done r, _) => received_by w o r k
              | (InvokeResponse id n, Some msg) => Some (acts w o sys m [EInvoke id n msg] (WResp o id :: k))
              | (InvokeTrap n, Some msg) => Some (acts w o sys m [EInvokeTrap n msg] (WTrap o :: k))
              | (_, None) => None                          (* does not happen *)
              end
          end
      | WExc o e :: k => received_by w o (receive_exception e) k
      | WRun o Polling :: k => asyncore w (APoll o) (ctl w)
      | WPolled p r :: WRun o ph :: k =>
          match man_of w o with
          | None => None
          | Some (sys, m) =>
              match r, flav sys with
              | Ok _, _ => Some (mkWorld (asyn w) (mans w) (WRun o Sending :: k) (wlog w))
              | Err QueueEmpty, FSM => Some (nothing_queued w o sys m [] k)
              | Err e, _ => Some (acts w o sys m [EResult (Err e)] k)
              end
          end
      | WPolled p r :: k => match man_of w p with None => None | Some (sys, m) => Some (acts w p sys m [EResult r] k) end
      | _ => None
      end
  end.
Fixpoint wsteps (w : world) (tr : list wlabel) : option world :=
  match tr with [] => Some w | l :: r => match wstep w l with None => None | Some w' => wsteps w' r end end.
Definition wexec (tr : list wlabel) : option world := wsteps winit tr.
