(** * The managers: v1.SNMP, v2.SNMP and snmpmanager.snmpManager, with asynrole.Manager and the
    parts of asyncore they run under.

    A program using a manager is an arbitrary environment: it is described by the list of things
    that happen ([label]): user code (the main program, or a callback while it is running)
    calls a method, a datagram is there when the library polls, a callback returns or raises.
    [step] says what the library does at each of them; library calls in progress are kept on a
    stack, so a callback may itself call any method, poll, receiveData or run, to any depth.

    Simplifications: one manager per process (asyncore's socket map is global, so poll() of one manager
    also serves others: Process.v models that, and C82 proves that each manager lives as here); objects passed to and from the library are not mutated afterwards by the
    user; [callbacks] and [outbound] are touched only by the library; single thread. *)
From Coq Require Import ZArith List Bool.
From Verif Require Import PyBase Classes Values Codec.
Import ListNotations.
Open Scope Z_scope.

Inductive flavour := FV1 | FV2 | FSM.
(** What the user passes as a callback: a callable (with an identity), or something else. *)
Inductive cbval := NotCallable | Cb (n : nat).
Definition address := (str * Z)%type.

(** The attributes of a manager: v1.py 20 and 29-31, snmpmanager.py 38 and 45-47.  [callbacks] is a
    dict; an int key (v1, v2) and an Integer key (snmpManager; Integer.__hash__ and __eq__,
    rfc1155.py 331-339, 354-358) select by number.  A queued message can be None. *)
Record mgr := mkMgr {
  nextRequestID : Z;
  outbound : list (option message * address);
  callbacks : list (Z * cbval) }.
Definition mgr0 : mgr := mkMgr 0 [] [].

(** d[k], d[k] = v, del d[k] *)
Fixpoint dict_get (d : list (Z * cbval)) (k : Z) : option cbval :=
  match d with [] => None | (x, v) :: r => if x =? k then Some v else dict_get r k end.
Fixpoint dict_set (d : list (Z * cbval)) (k : Z) (v : cbval) : list (Z * cbval) :=
  match d with [] => [(k, v)] | (x, w) :: r => if x =? k then (x, v) :: r else (x, w) :: dict_set r k v end.
Fixpoint dict_del (d : list (Z * cbval)) (k : Z) : list (Z * cbval) :=
  match d with [] => [] | (x, w) :: r => if x =? k then r else (x, w) :: dict_del r k end.

(** ** Making and queueing requests *)

(** A method call that may change the manager and may raise. *)
Definition M (A : Type) := mgr -> mgr * res A.
Definition ret {A} (a : A) : M A := fun m => (m, Ok a).
Definition lift {A} (r : res A) : M A := fun m => (m, r).
Definition mbind {A B} (x : M A) (f : A -> M B) : M B :=
  fun m => match x m with (m', Ok a) => f a m' | (m', Err e) => (m', Err e) end.
Notation "x <~ r ;; k" := (mbind r (fun x => k)) (at level 61, r at next level, right associativity).

(** assignRequestID (v1.py 47-52, snmpmanager.py 63-68) *)
Definition assignRequestID : M Z :=
  fun m => (mkMgr (nextRequestID m + 1) (outbound m) (callbacks m), Ok (nextRequestID m)).
(** self.outbound.put((msg, remote)) *)
Definition put (msg : option message) (remote : address) : M unit :=
  fun m => (mkMgr (nextRequestID m) (outbound m ++ [(msg, remote)]) (callbacks m), Ok tt).
(** self.callbacks[id] = callback *)
Definition register (id : Z) (cb : cbval) : M unit :=
  fun m => (mkMgr (nextRequestID m) (outbound m) (dict_set (callbacks m) id cb), Ok tt).

(** The create*PDU methods: assign an id, then build the PDU with the default status and index.
    v1.py 54-62, v2.py 26-34, snmpmanager.py 70-101: with a version other than 1 and 2 the
    last leave [pdu] unassigned. *)
Definition request_pdu (c : cls) (varbindlist : val) : M val :=
  reqID <~ assignRequestID ;; lift (pdu_init c (VPyInt reqID) (VPyInt 0) (VPyInt 0) varbindlist).
Definition request_pdu_version (c1 c2 : cls) (varbindlist : val) (version : Z) : M val :=
  reqID <~ assignRequestID ;;
  if version =? 1 then lift (pdu_init c1 (VPyInt reqID) (VPyInt 0) (VPyInt 0) varbindlist)
  else if version =? 2 then lift (pdu_init c2 (VPyInt reqID) (VPyInt 0) (VPyInt 0) varbindlist)
  else lift (Err UnboundLocalError).
Definition createGetRequestPDU (f : flavour) (varbindlist : val) (version : Z) : M val :=
  match f with
  | FV1 => request_pdu CGet varbindlist
  | FV2 => request_pdu CGet_v2 varbindlist
  | FSM => request_pdu_version CGet CGet_v2 varbindlist version
  end.
Definition createGetNextRequestPDU (f : flavour) (varbindlist : val) (version : Z) : M val :=
  match f with
  | FV1 => request_pdu CGetNext varbindlist
  | FV2 => request_pdu CGetNext_v2 varbindlist
  | FSM => request_pdu_version CGetNext CGetNext_v2 varbindlist version
  end.
(** snmpmanager.py 92-101 (snmpManager only) *)
Definition createSetRequestPDU (varbindlist : val) (version : Z) : M val :=
  request_pdu_version CSet CSet_v2 varbindlist version.

(** rfc1157.Message(community=..., data=pdu), rfc1905.Message(community=..., data=pdu) *)
Definition message_v1 (community pdu : val) : M message := lift (message_init CMessage (VPyInt 0) community pdu).
Definition message_v2 (community pdu : val) : M message := lift (message_init CMessage_v2 (VPyInt 1) community pdu).

(** ObjectID(oid) bound to Null() *)
Definition null_binding (c : cls) (oid : val) : res val :=
  objID <- oid_init oid ;; varbind_init c objID (VNull CNull).
(** createGetRequestMessage: v1.py 64-72; v2.py 36-50 (a list of identifiers); snmpmanager.py 103-124 *)
Definition createGetRequestMessage (f : flavour) (oid community : val) (version : Z) : M message :=
  match f with
  | FV1 =>
      varbindlist <~ lift (vb <- null_binding CVarBind oid ;; varbindlist_init (VPyList [vb])) ;;
      pdu <~ createGetRequestPDU FV1 varbindlist version ;; message_v1 community pdu
  | FV2 =>
      varbindlist <~ lift (oids <- py_iter oid ;; vbs <- mapM (null_binding CVarBind) oids ;;
                           varbindlist_v2_init (VPyList vbs)) ;;
      pdu <~ createGetRequestPDU FV2 varbindlist version ;; message_v2 community pdu
  | FSM =>
      if version =? 1 then
        varbindlist <~ lift (vb <- null_binding CVarBind oid ;; varbindlist_init (VPyList [vb])) ;;
        pdu <~ createGetRequestPDU FSM varbindlist 1 ;; message_v1 community pdu
      else if version =? 2 then
        varbindlist <~ lift (vb <- null_binding CVarBind_v2 oid ;; varbindlist_v2_init (VPyList [vb])) ;;
        pdu <~ createGetRequestPDU FSM varbindlist 2 ;; message_v2 community pdu
      else lift (Err ValueError)
  end.
(** createGetNextRequestMessage: v1.py 74-79; v2.py 52-57 (calls createGetNextRequest, which no class
    defines); snmpmanager.py 126-136 *)
Definition createGetNextRequestMessage (f : flavour) (varbindlist community : val) (version : Z) : M message :=
  match f with
  | FV1 => pdu <~ createGetNextRequestPDU FV1 varbindlist version ;; message_v1 community pdu
  | FV2 => lift (Err AttributeError)
  | FSM => pdu <~ createGetNextRequestPDU FSM varbindlist version ;;
           if version =? 1 then message_v1 community pdu else message_v2 community pdu
  end.

(** tagDecodeDict[valtype](value): calling a class of the table with one argument.  Simplification:
    Sequence(x) for x neither None nor a list is treated as TypeError. *)
Definition construct (c : cls) (value : val) : res val :=
  match c with
  | CInteger | CInteger32 | CCounter | CCounter32 | CGuage | CGuage32 | CTimeTicks | CCounter64 => integer_init c value
  | COctetString | COpaque => Ok (octetstring_init c value)
  | CObjectID => oid_init value
  | CNull | CNoSuchObject | CNoSuchInstance | CEndOfMibView => Err TypeError
  | CSequence => match value with VNone => Ok (VSeq CSequence []) | VPyList l => Ok (VSeq CSequence l) | _ => Err TypeError end
  | CIPAddress => ipaddress_init c value
  | CGet | CGetNext | CResponse | CSet | CResponse_v2 | CInform | CTrapV2 | CReport =>
      pdu_init c value (VPyInt 0) (VPyInt 0) (VPyList [])
  | CGetBulk => bulkpdu_init c value (VPyInt 0) (VPyInt 0) (VPyList [])
  | CTrapPDU => Ok (trappdu_init value VNone VNone VNone VNone VNone)
  | _ => Err TypeError          (* not in the table *)
  end.
Definition typed_value (valtype : Z) (value : val) : res val :=
  match reg_get reg1905 valtype with None => Err KeyError | Some c => construct c value end.
(** snmpManager.createSetRequestMessage (snmpmanager.py 138-159); the version 2 branch passes 1 to
    createSetRequestPDU. *)
Definition createSetRequestMessage (oid : val) (valtype : Z) (value community : val) (version : Z) : M message :=
  if version =? 1 then
    varbindlist <~ lift (objID <- oid_init oid ;; val <- typed_value valtype value ;;
                         vb <- varbind_init CVarBind objID val ;; varbindlist_init (VPyList [vb])) ;;
    pdu <~ createSetRequestPDU varbindlist 1 ;; message_v1 community pdu
  else if version =? 2 then
    varbindlist <~ lift (objID <- oid_init oid ;; val <- typed_value valtype value ;;
                         vb <- varbind_init CVarBind_v2 objID val ;; varbindlist_v2_init (VPyList [vb])) ;;
    pdu <~ createSetRequestPDU varbindlist 1 ;; message_v2 community pdu
  else lift (Err ValueError).

(** msg.data.requestID of a message just made (the first component of its PDU) *)
Definition requestID_of (pdu : val) : res val :=
  match pdu with VSeq _ (r :: _) => Ok r | _ => Err AttributeError end.
(** The common end of snmpGet, snmpGetNext, snmpSet (v1.py 111-116, 126-131, 144-149; v2.py 89-94, 104-109,
    122-127; snmpmanager.py 207-213, 223-228, 240-245). *)
Definition queue_request (msg : message) (remote : address) (cb : cbval) : M val :=
  _ <~ put (Some msg) remote ;;
  r <~ lift (requestID_of (m_data msg)) ;;
  id <~ lift (py_int r) ;;
  _ <~ register id cb ;;
  ret r.
(** snmpGet: v1.py 103-116, v2.py 80-94, snmpmanager.py 199-213 *)
Definition snmpGet (f : flavour) (oid : val) (remote : address) (cb : cbval) (community : val) (version : Z) : M val :=
  msg <~ createGetRequestMessage f oid community version ;; queue_request msg remote cb.
(** snmpGetNext: v1.py 118-131, v2.py 96-109, snmpmanager.py 215-228 *)
Definition snmpGetNext (f : flavour) (varbindlist : val) (remote : address) (cb : cbval) (community : val) (version : Z) : M val :=
  msg <~ createGetNextRequestMessage f varbindlist community version ;; queue_request msg remote cb.
(** snmpSet of v1 and v2: v1.py 133-149 builds a GetNext; v2.py 111-127 uses rfc1157.GetNextRequestPDU,
    which does not exist, after assigning an id. *)
Definition snmpSet_bindings (f : flavour) (varbindlist : val) (remote : address) (cb : cbval) (community : val) : M val :=
  match f with
  | FV1 => pdu <~ request_pdu CGetNext varbindlist ;; msg <~ message_v1 community pdu ;; queue_request msg remote cb
  | FV2 => _ <~ assignRequestID ;; lift (Err AttributeError)
  | FSM => lift (Err TypeError)        (* wrong number of arguments *)
  end.
(** snmpManager.snmpSet (snmpmanager.py 230-245) *)
Definition snmpSet_typed (f : flavour) (oid : val) (valtype : Z) (value : val) (remote : address) (cb : cbval) (community : val) (version : Z) : M val :=
  match f with
  | FSM => msg <~ createSetRequestMessage oid valtype value community version ;; queue_request msg remote cb
  | _ => lift (Err TypeError)
  end.
(** createTrapMessage: v1.py 81-85, v2.py 59-63; snmpmanager.py 161-168 calls a function the modules v1 and
    v2 do not have, and returns None for other versions. *)
Definition createTrapMessage (f : flavour) (pdu community : val) (version : Z) : M (option message) :=
  match f with
  | FV1 => m <~ message_v1 community pdu ;; ret (Some m)
  | FV2 => m <~ message_v2 community pdu ;; ret (Some m)
  | FSM => if (version =? 1) || (version =? 2) then lift (Err AttributeError) else ret None
  end.
(** snmpTrap: v1.py 151-156, v2.py 129-134, snmpmanager.py 247-252 *)
Definition snmpTrap (f : flavour) (remote : address) (trapPDU community : val) (version : Z) : M unit :=
  msg <~ createTrapMessage f trapPDU community version ;; put msg remote.

(** The method calls user code can make. *)
Inductive call :=
| AGet (oid : val) (remote : address) (cb : cbval) (community : val) (version : Z)
| AGetNext (varbindlist : val) (remote : address) (cb : cbval) (community : val) (version : Z)
| ASetBindings (varbindlist : val) (remote : address) (cb : cbval) (community : val)
| ASetTyped (oid : val) (valtype : Z) (value : val) (remote : address) (cb : cbval) (community : val) (version : Z)
| ATrap (remote : address) (trapPDU community : val) (version : Z)
| AAssign
| ACreateGet (oid community : val) (version : Z)
| ACreateGetNext (varbindlist community : val) (version : Z)
| ACreateSet (oid : val) (valtype : Z) (value community : val) (version : Z).
(** What they return. *)
Inductive answer := RVal (v : val) | RMsg (m : message) | RNone.
Definition mmap {A B} (g : A -> B) (x : M A) : M B := fun m => match x m with (m', Ok a) => (m', Ok (g a)) | (m', Err e) => (m', Err e) end.
(** createSetRequestMessage of v1.SNMP and v2.SNMP has an empty body (v1.py 158-161, v2.py 136-139), and other
    parameters. *)
Definition do_call (f : flavour) (a : call) : M answer :=
  match a with
  | AGet oid remote cb com ver => mmap RVal (snmpGet f oid remote cb com ver)
  | AGetNext vbl remote cb com ver => mmap RVal (snmpGetNext f vbl remote cb com ver)
  | ASetBindings vbl remote cb com => mmap RVal (snmpSet_bindings f vbl remote cb com)
  | ASetTyped oid ty v remote cb com ver => mmap RVal (snmpSet_typed f oid ty v remote cb com ver)
  | ATrap remote pdu com ver => mmap (fun _ => RNone) (snmpTrap f remote pdu com ver)
  | AAssign => mmap (fun z => RVal (VPyInt z)) assignRequestID
  | ACreateGet oid com ver => mmap RMsg (createGetRequestMessage f oid com ver)
  | ACreateGetNext vbl com ver => mmap RMsg (createGetNextRequestMessage f vbl com ver)
  | ACreateSet oid ty v com ver =>
      match f with FSM => mmap RMsg (createSetRequestMessage oid ty v com ver) | _ => lift (Err TypeError) end
  end.

(** ** Receiving *)

(** How a manager was made: class, imported modules, the two optional callbacks, and the kind of
    socket: [Real] is Python 3's (sendto takes bytes only, recvfrom returns bytes), [Text] one that
    carries str, as Python 2's did. *)
Inductive transport := Real | Text.
Record system := mkSys {
  flav : flavour; imports : config; queueEmpty : option cbval; trapCallback : option cbval; trans : transport }.

(** What handling a received datagram comes to: finished, or a callback must now run. *)
Inductive action := Done (r : res unit) | InvokeResponse (id : Z) (cb : nat) | InvokeTrap (cb : nat).

(** self.callbacks[id](self, msg), up to the call *)
Definition response_action (m : mgr) (pdu : val) : action :=
  match requestID_of pdu with
  | Err e => Done (Err e)
  | Ok r => match py_int r with
            | Err e => Done (Err e)
            | Ok id => match dict_get (callbacks m) id with
                       | None => Done (Err KeyError)
                       | Some NotCallable => Done (Err TypeError)
                       | Some (Cb n) => InvokeResponse id n
                       end
            end
  end.
(** self.trapCallback(self, msg), up to the call *)
Definition trap_action (sys : system) : action :=
  match trapCallback sys with Some (Cb n) => InvokeTrap n | _ => Done (Err TypeError) end.

(** The "else" branch of the version test (v1.py 184-187, v2.py 165-168, snmpmanager.py 279-282):
    formatting with %d needs a number (an object with __int__); msg.version() needs a callable, which
    an Integer is (rfc1155.py 325-328) and a plain int is not. *)
Definition unknown_version (v : val) : exn :=
  match v with VInt _ _ => ValueError | _ => TypeError end.

(** receiveData after decoding: v1.py 180-202, v2.py 158-183; snmpmanager.py 270-282, handleV1Message 284-298,
    handleV2Message 300-314 (rfc1905.TrapPDU does not exist). *)
Definition dispatch (sys : system) (m : mgr) (msg : message) : action :=
  let data := m_data msg in
  match py_eq (m_version msg) (VPyInt 0), py_eq (m_version msg) (VPyInt 1) with
  | Err e, _ => Done (Err e)
  | Ok is0, is1 =>
      match flav sys with
      | FV1 =>
          if is0 then
            if isinstance data CPDU then response_action m data
            else if isinstance data CTrapPDU then trap_action sys
            else Done (Ok tt)
          else Done (Err (unknown_version (m_version msg)))
      | FV2 =>
          match is0, is1 with
          | true, _ | false, Ok true =>
            if isinstance data CPDU then response_action m data
            else if isinstance data CTrapPDU then trap_action sys
            else Done (Ok tt)
          | false, Ok false => Done (Err (unknown_version (m_version msg)))
          | false, Err e => Done (Err e)
          end
      | FSM =>
          match is0, is1 with
          | true, _ =>
            if isinstance data CPDU then response_action m data
            else if isinstance data CTrapPDU then trap_action sys
            else Done (Ok tt)
          | false, Ok true =>
            if isinstance data CPDU_v2 then response_action m data
            else Done (Err AttributeError)
          | false, Ok false => Done (Err (unknown_version (m_version msg)))
          | false, Err e => Done (Err e)
          end
      end
  end.

(** The class whose decode() is called: v1.py 178, v2.py 156, snmpmanager.py 268. *)
Definition message_class (f : flavour) : cls := match f with FV1 => CMessage | _ => CMessage_v2 end.
(** "except Exception" of receiveData: v2.py 186-190 logs and swallows, v1.py 205-208 re-raises,
    snmpManager has no handler.  SystemExit is not an Exception. *)
Definition guard (f : flavour) (r : res unit) : res unit :=
  match f, r with
  | FV2, Err SystemExit => r
  | FV2, Err _ => Ok tt
  | _, _ => r
  end.
(** receiveData(self, None, (data, src), (None, None, None)), up to the invocation of a callback.
    The second component is the decoded message, if it got that far. *)
Definition receiveData (sys : system) (m : mgr) (depth : nat) (d : data) : action * option message :=
  match message_decode (reg_of (imports sys)) depth (message_class (flav sys)) d with
  | Err e => (Done (guard (flav sys) (Err e)), None)
  | Ok msg => (match dispatch sys m msg with
               | Done r => Done (guard (flav sys) r)
               | a => a
               end, Some msg)
  end.
(** The rest of receiveData once the response callback has finished with [r]: del self.callbacks[id] after
    a normal return (v1.py 192-195, v2.py 173-176, snmpmanager.py 288-291, 304-307). *)
Definition after_response (f : flavour) (m : mgr) (id : Z) (r : res unit) : mgr * res unit :=
  match r with
  | Err e => (m, guard f (Err e))
  | Ok _ => match dict_get (callbacks m) id with
            | None => (m, guard f (Err KeyError))
            | Some _ => (mkMgr (nextRequestID m) (outbound m) (dict_del (callbacks m) id), Ok tt)
            end
  end.

(** receiveData(self, None, (None, None), exc_info): raise exc_type(exc_value), outside the try
    (v1.py 167-170, v2.py 145-148, snmpmanager.py 258-261). *)
Definition receive_exception (e : exn) : res unit := Err e.
(** asynrole.Manager.handle_error (asynrole.py 52-61), called by asyncore.read's "except:" clause.
    ValueError has no subclass among the modelled exceptions. *)
Definition handle_error (e : exn) : res unit :=
  match e with
  | ValueError => receive_exception ValueError
  | _ => Err e
  end.
(** asyncore.read: SystemExit is re-raised without calling handle_error. *)
Definition asyncore_read (r : res unit) : res unit :=
  match r with
  | Ok _ => Ok tt
  | Err SystemExit => Err SystemExit
  | Err e => handle_error e
  end.

(** ** Control *)

(** Library activations in progress.  A callback is running iff one of [FResp], [FTrap],
    [FEmpty] is on top; [FRead] is asyncore.poll reading this manager's socket; [FRun] is run(), about
    to poll or to take a message from the queue. *)
Inductive phase := Polling | Sending.
Inductive frame := FResp (id : Z) | FTrap | FEmpty | FRead | FRun (p : phase).

(** What is observable. *)
Inductive event :=
| ECall (a : call) (r : res answer)              (* a method call and its result *)
| EPut (om : option message) (dst : address)     (* what it appended to the outbound queue *)
| ETake (om : option message) (dst : address)    (* run() takes a message from the queue *)
| EInvoke (id : Z) (cb : nat) (msg : message)    (* a response callback is called *)
| EInvokeTrap (cb : nat) (msg : message)
| EInvokeEmpty (cb : nat)
| EFinished (id : Z) (r : res unit)              (* a response callback returns or raises *)
| ESend (os : str) (dst : address) (r : res unit)  (* sendto is called *)
| EResult (r : res unit).                        (* receiveData, poll or run comes back to user code *)

(** What poll() finds on the socket. *)
Inductive incoming := Nothing | Datagram (depth : nat) (s : str) (src : address) | SocketError (e : exn).

(** What happens next. *)
Inductive label :=
| LCall (a : call)
| LReceive (depth : nat) (d : data) (src : address)   (* user code calls receiveData *)
| LPoll (i : incoming)                 (* user code, or run(), calls poll() *)
| LRun                                 (* user code calls run() *)
| LSend (r : res unit)                 (* run() takes a message; r is the outcome of sendto, if it is called *)
| LReturn                              (* the running callback returns *)
| LRaise (e : exn).                    (* the running callback raises *)

Record state := mkState { man : mgr; stack : list frame; log : list event }.
Definition init : state := mkState mgr0 [] [].

(** User code is running. *)
Definition user_runs (stk : list frame) : bool :=
  match stk with [] | FResp _ :: _ | FTrap :: _ | FEmpty :: _ => true | _ => false end.

(** run() ends by exception, back in user code. *)
Definition run_raises (m : mgr) (e : exn) (rest : list frame) (lg : list event) : state :=
  mkState m rest (lg ++ [EResult (Err e)]).
(** The handler of queue.Empty: v1.py 226-232; snmpmanager.py 336-339. *)
Definition loop_empty (sys : system) (m : mgr) (rest : list frame) (lg : list event) : state :=
  match queueEmpty sys with
  | None => mkState m (FRun Polling :: rest) lg
  | Some NotCallable => run_raises m TypeError rest lg
  | Some (Cb n) => mkState m (FEmpty :: FRun Polling :: rest) (lg ++ [EInvokeEmpty n])
  end.
(** poll() comes back to its caller with [r].  In v1 and v2 it was called inside the queue.Empty handler, so any
    exception leaves run(); in snmpManager inside the try. *)
Definition poll_returns (sys : system) (m : mgr) (r : res unit) (stk : list frame) (lg : list event) : state :=
  match stk with
  | FRun _ :: rest =>
      match r, flav sys with
      | Ok _, _ => mkState m (FRun Sending :: rest) lg
      | Err QueueEmpty, FSM => loop_empty sys m rest lg
      | Err e, _ => run_raises m e rest lg
      end
  | _ => mkState m stk (lg ++ [EResult r])
  end.
(** receiveData comes back to its caller with [r]. *)
Definition receive_returns (sys : system) (m : mgr) (r : res unit) (stk : list frame) (lg : list event) : state :=
  match stk with
  | FRead :: rest => poll_returns sys m (asyncore_read r) rest lg
  | _ => mkState m stk (lg ++ [EResult r])
  end.
(** receiveData is called, by FRead or by user code. *)
Definition receive_called (sys : system) (m : mgr) (depth : nat) (d : data) (stk : list frame) (lg : list event) : state :=
  match receiveData sys m depth d with
  | (Done r, _) => receive_returns sys m r stk lg
  | (InvokeResponse id n, Some msg) => mkState m (FResp id :: stk) (lg ++ [EInvoke id n msg])
  | (InvokeTrap n, Some msg) => mkState m (FTrap :: stk) (lg ++ [EInvokeTrap n msg])
  | (_, None) => mkState m stk lg       (* unreachable: an invocation comes with a message *)
  end.
(** What recvfrom returns for a datagram with these octets. *)
Definition received (t : transport) (s : str) : data := match t with Real => DBytes s | Text => DStr s end.
(** asynrole.Manager.poll (asynrole.py 65-66), handle_read (37-40) *)
Definition poll_called (sys : system) (m : mgr) (i : incoming) (stk : list frame) (lg : list event) : state :=
  match i with
  | Nothing => poll_returns sys m (Ok tt) stk lg
  | SocketError e => poll_returns sys m (asyncore_read (Err e)) stk lg
  | Datagram depth s _ => receive_called sys m depth (received (trans sys) s) (FRead :: stk) lg
  end.
(** role.manager.send on an str: sendto of a Python 3 socket raises TypeError (role.py 40-45). *)
Definition sendto (t : transport) (r : res unit) : res unit := match t with Real => Err TypeError | Text => r end.
(** The two statements in the try of run(): v1.py 223-224, snmpmanager.py 333-334.  v1 and v2 loop back to the same
    place after a send, snmpManager polls first. *)
Definition send_called (sys : system) (m : mgr) (r : res unit) (rest : list frame) (lg : list event) : state :=
  let failed e m lg : state := match e with QueueEmpty => loop_empty sys m rest lg | _ => run_raises m e rest lg end in
  match outbound m with
  | [] => loop_empty sys m rest lg
  | (om, dst) :: q =>
      let m' := mkMgr (nextRequestID m) q (callbacks m) in
      let lg := lg ++ [ETake om dst] in
      match (match om with None => Err AttributeError | Some msg => snd (message_encode msg) end) with
      | Err e => failed e m' lg
      | Ok os =>
          let r' := sendto (trans sys) r in
          let lg' := lg ++ [ESend os dst r'] in
          match r' with
          | Ok _ => mkState m' (FRun (match flav sys with FSM => Polling | _ => Sending end) :: rest) lg'
          | Err e => failed e m' lg'
          end
      end
  end.

(** One step; [None] if the label is not possible in the state. *)
Definition step (sys : system) (st : state) (l : label) : option state :=
  let 'mkState m stk lg := st in
  match l with
  | LCall a => if user_runs stk then
                 let '(m', r) := do_call (flav sys) a m in
                 Some (mkState m' stk (lg ++ ECall a r :: map (fun p => EPut (fst p) (snd p))
                                                            (skipn (length (outbound m)) (outbound m'))))
               else None
  | LReceive depth d _ => if user_runs stk then Some (receive_called sys m depth d stk lg) else None
  | LPoll i => match stk with
               | FRun Polling :: _ => Some (poll_called sys m i stk lg)
               | _ => if user_runs stk then Some (poll_called sys m i stk lg) else None
               end
  | LRun => if user_runs stk then
              Some (mkState m (FRun (match flav sys with FSM => Polling | _ => Sending end) :: stk) lg)
            else None
  | LSend r => match stk with FRun Sending :: rest => Some (send_called sys m r rest lg) | _ => None end
  | LReturn => 
      match stk with
      | FResp id :: rest => let '(m', r) := after_response (flav sys) m id (Ok tt) in
                            Some (receive_returns sys m' r rest (lg ++ [EFinished id (Ok tt)]))
      | FTrap :: rest => Some (receive_returns sys m (Ok tt) rest lg)
      | FEmpty :: rest => Some (mkState m rest lg)
      | _ => None
      end
  | LRaise e =>
      match stk with
      | FResp id :: rest => let '(m', r) := after_response (flav sys) m id (Err e) in
                            Some (receive_returns sys m' r rest (lg ++ [EFinished id (Err e)]))
      | FTrap :: rest => Some (receive_returns sys m (guard (flav sys) (Err e)) rest lg)
      | FEmpty :: FRun _ :: rest => Some (run_raises m e rest lg)
      | _ => None
      end
  end.

(** A whole execution from a fresh manager. *)
Fixpoint steps (sys : system) (st : state) (tr : list label) : option state :=
  match tr with
  | [] => Some st
  | l :: r => match step sys st l with None => None | Some st' => steps sys st' r end
  end.
Definition exec (sys : system) (tr : list label) : option state := steps sys init tr.
