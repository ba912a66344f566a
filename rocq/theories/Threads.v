(** * Several threads using one manager.

    Every thread runs user code, in which it calls methods of the same manager, polls, runs run(), or has callbacks running.
    Simplification: a step of a thread is one access to an attribute shared between threads (one load or store of
    nextRequestID, one subscript operation on callbacks, one put or get on outbound); CPython's global interpreter lock, and
    the lock inside queue.Queue, make each of these atomic (for snmpManager, whose keys are Integer objects, the dict operations
    also run Integer.__hash__ and __eq__; they are taken to be atomic all the same).  Everything else a method does concerns objects of its own. *)
From Coq Require Import ZArith List Bool.
From Verif Require Import PyBase Classes Values Codec Manager.
Import ListNotations.
Open Scope Z_scope.

(** What is left to do of a method call. *)
Inductive prog (A : Type) :=
| PRet (r : res A)
| PLoad (k : Z -> prog A)                                      (* reqID = self.nextRequestID *)
| PAgain (k : Z -> prog A)                                     (* self.nextRequestID += 1, the load *)
| PStore (n : Z) (k : prog A)                                  (* self.nextRequestID += 1, the store *)
| PPut (om : option message) (dst : address) (k : prog A)      (* self.outbound.put((msg, remote)) *)
| PSet (id : Z) (cb : cbval) (k : prog A).                     (* self.callbacks[id] = callback *)
Arguments PRet {A} r.
Arguments PLoad {A} k.
Arguments PAgain {A} k.
Arguments PStore {A} n k.
Arguments PPut {A} om dst k.
Arguments PSet {A} id cb k.

Fixpoint pbind {A B} (x : prog A) (f : A -> prog B) : prog B :=
  match x with
  | PRet (Ok a) => f a
  | PRet (Err e) => PRet (Err e)
  | PLoad k => PLoad (fun z => pbind (k z) f)
  | PAgain k => PAgain (fun z => pbind (k z) f)
  | PStore n k => PStore n (pbind k f)
  | PPut om dst k => PPut om dst (pbind k f)
  | PSet id cb k => PSet id cb (pbind k f)
  end.
Notation "x <+ r ;; k" := (pbind r (fun x => k)) (at level 61, r at next level, right associativity).
Definition plift {A} (r : res A) : prog A := PRet r.

(** The methods again, access by access; the same source lines as their namesakes in [Manager]. *)
(** v1.py 47-52, snmpmanager.py 63-68 *)
Definition passignRequestID : prog Z :=
  PLoad (fun reqID => PAgain (fun n => PStore (n + 1) (PRet (Ok reqID)))).
(** v1.py 54-62, v2.py 26-34, snmpmanager.py 70-101 *)
Definition prequest_pdu (c : cls) (varbindlist : val) : prog val :=
  reqID <+ passignRequestID ;; plift (pdu_init c (VPyInt reqID) (VPyInt 0) (VPyInt 0) varbindlist).
Definition prequest_pdu_version (c1 c2 : cls) (varbindlist : val) (version : Z) : prog val :=
  reqID <+ passignRequestID ;;
  plift (if version =? 1 then pdu_init c1 (VPyInt reqID) (VPyInt 0) (VPyInt 0) varbindlist
         else if version =? 2 then pdu_init c2 (VPyInt reqID) (VPyInt 0) (VPyInt 0) varbindlist
         else Err UnboundLocalError).
Definition pcreatePDU (f : flavour) (c1 c2 : cls) (varbindlist : val) (version : Z) : prog val :=
  match f with
  | FV1 => prequest_pdu c1 varbindlist
  | FV2 => prequest_pdu c2 varbindlist
  | FSM => prequest_pdu_version c1 c2 varbindlist version
  end.
Definition pmessage_v1 (community pdu : val) : prog message := plift (message_init CMessage (VPyInt 0) community pdu).
Definition pmessage_v2 (community pdu : val) : prog message := plift (message_init CMessage_v2 (VPyInt 1) community pdu).
(** v1.py 64-72, v2.py 36-50, snmpmanager.py 103-124 *)
Definition pcreateGetRequestMessage (f : flavour) (oid community : val) (version : Z) : prog message :=
  match f with
  | FV1 =>
      varbindlist <+ plift (vb <- null_binding CVarBind oid ;; varbindlist_init (VPyList [vb])) ;;
      pdu <+ pcreatePDU FV1 CGet CGet_v2 varbindlist version ;; pmessage_v1 community pdu
  | FV2 =>
      varbindlist <+ plift (oids <- py_iter oid ;; vbs <- mapM (null_binding CVarBind) oids ;;
                            varbindlist_v2_init (VPyList vbs)) ;;
      pdu <+ pcreatePDU FV2 CGet CGet_v2 varbindlist version ;; pmessage_v2 community pdu
  | FSM =>
      if version =? 1 then
        varbindlist <+ plift (vb <- null_binding CVarBind oid ;; varbindlist_init (VPyList [vb])) ;;
        pdu <+ pcreatePDU FSM CGet CGet_v2 varbindlist 1 ;; pmessage_v1 community pdu
      else if version =? 2 then
        varbindlist <+ plift (vb <- null_binding CVarBind_v2 oid ;; varbindlist_v2_init (VPyList [vb])) ;;
        pdu <+ pcreatePDU FSM CGet CGet_v2 varbindlist 2 ;; pmessage_v2 community pdu
      else plift (Err ValueError)
  end.
(** v1.py 74-79, v2.py 52-57, snmpmanager.py 126-136 *)
Definition pcreateGetNextRequestMessage (f : flavour) (varbindlist community : val) (version : Z) : prog message :=
  match f with
  | FV1 => pdu <+ pcreatePDU FV1 CGetNext CGetNext_v2 varbindlist version ;; pmessage_v1 community pdu
  | FV2 => plift (Err AttributeError)
  | FSM => pdu <+ pcreatePDU FSM CGetNext CGetNext_v2 varbindlist version ;;
           if version =? 1 then pmessage_v1 community pdu else pmessage_v2 community pdu
  end.
(** snmpmanager.py 138-159 *)
Definition pcreateSetRequestMessage (oid : val) (valtype : Z) (value community : val) (version : Z) : prog message :=
  if version =? 1 then
    varbindlist <+ plift (objID <- oid_init oid ;; val <- typed_value valtype value ;;
                          vb <- varbind_init CVarBind objID val ;; varbindlist_init (VPyList [vb])) ;;
    pdu <+ pcreatePDU FSM CSet CSet_v2 varbindlist 1 ;; pmessage_v1 community pdu
  else if version =? 2 then
    varbindlist <+ plift (objID <- oid_init oid ;; val <- typed_value valtype value ;;
                          vb <- varbind_init CVarBind_v2 objID val ;; varbindlist_v2_init (VPyList [vb])) ;;
    pdu <+ pcreatePDU FSM CSet CSet_v2 varbindlist 1 ;; pmessage_v2 community pdu
  else plift (Err ValueError).
(** v1.py 111-116, 126-131, 144-149; v2.py 89-94, 104-109, 122-127; snmpmanager.py 207-213, 223-228, 240-245: put first, then
    register. *)
Definition pqueue_request (msg : message) (remote : address) (cb : cbval) : prog val :=
  PPut (Some msg) remote
    (r <+ plift (requestID_of (m_data msg)) ;; id <+ plift (py_int r) ;; PSet id cb (PRet (Ok r))).
(** v1.py 81-85, v2.py 59-63, snmpmanager.py 161-168 *)
Definition pcreateTrapMessage (f : flavour) (pdu community : val) (version : Z) : prog (option message) :=
  match f with
  | FV1 => m <+ pmessage_v1 community pdu ;; PRet (Ok (Some m))
  | FV2 => m <+ pmessage_v2 community pdu ;; PRet (Ok (Some m))
  | FSM => if (version =? 1) || (version =? 2) then PRet (Err AttributeError) else PRet (Ok None)
  end.
Definition pmap {A B} (g : A -> B) (x : prog A) : prog B := a <+ x ;; PRet (Ok (g a)).
(** All method calls, as [do_call]. *)
Definition pcall (f : flavour) (a : call) : prog answer :=
  match a with
  | AGet oid remote cb com ver =>
      pmap RVal (msg <+ pcreateGetRequestMessage f oid com ver ;; pqueue_request msg remote cb)
  | AGetNext vbl remote cb com ver =>
      pmap RVal (msg <+ pcreateGetNextRequestMessage f vbl com ver ;; pqueue_request msg remote cb)
  | ASetBindings vbl remote cb com =>
      pmap RVal
        match f with
        | FV1 => pdu <+ prequest_pdu CGetNext vbl ;; msg <+ pmessage_v1 com pdu ;; pqueue_request msg remote cb
        | FV2 => _ <+ passignRequestID ;; PRet (Err AttributeError)
        | FSM => PRet (Err TypeError)
        end
  | ASetTyped oid ty v remote cb com ver =>
      match f with
      | FSM => pmap RVal (msg <+ pcreateSetRequestMessage oid ty v com ver ;; pqueue_request msg remote cb)
      | _ => PRet (Err TypeError)
      end
  | ATrap remote pdu com ver =>
      msg <+ pcreateTrapMessage f pdu com ver ;; PPut msg remote (PRet (Ok RNone))
  | AAssign => pmap (fun z => RVal (VPyInt z)) passignRequestID
  | ACreateGet oid com ver => pmap RMsg (pcreateGetRequestMessage f oid com ver)
  | ACreateGetNext vbl com ver => pmap RMsg (pcreateGetNextRequestMessage f vbl com ver)
  | ACreateSet oid ty v com ver =>
      match f with FSM => pmap RMsg (pcreateSetRequestMessage oid ty v com ver) | _ => PRet (Err TypeError) end
  end.

(** One access. *)
Definition pstep (m : mgr) (p : prog answer) : mgr * prog answer * list event :=
  match p with
  | PRet r => (m, PRet r, [])
  | PLoad k | PAgain k => (m, k (nextRequestID m), [])
  | PStore n k => (mkMgr n (outbound m) (callbacks m), k, [])
  | PPut om dst k => (mkMgr (nextRequestID m) (outbound m ++ [(om, dst)]) (callbacks m), k, [EPut om dst])
  | PSet id cb k => (mkMgr (nextRequestID m) (outbound m) (dict_set (callbacks m) id cb), k, [])
  end.

(** A thread: the method call it is in, if any, and its library activations (as in [Manager.state]). *)
Record thread := mkThread { active : option (call * prog answer); frames : list frame }.
Definition new_thread : thread := mkThread None [].
(** The process.  Threads are numbered; events are logged with the thread. *)
Record tstate := mkTState { shared : mgr; threads : nat -> thread; tlog : list (nat * event) }.
Definition tinit : tstate := mkTState mgr0 (fun _ => new_thread) [].
Definition set_thread (ths : nat -> thread) (t : nat) (th : thread) : nat -> thread :=
  fun u => if Nat.eqb u t then th else ths u.

(** What a schedule says: thread [t] begins a method call, performs the next access of the one it is in, comes back from it,
    or does something else (in each of which there is at most one access: the lookup of the callback, its deletion, or
    outbound.get). *)
Inductive tlabel := TBegin (t : nat) (a : call) | TAccess (t : nat) | TEnd (t : nat) | TDo (t : nat) (l : label).
Definition is_call (l : label) : bool := match l with LCall _ => true | _ => false end.
Definition tstep (sys : system) (st : tstate) (l : tlabel) : option tstate :=
  let 'mkTState m ths lg := st in
  match l with
  | TBegin t a =>
      match active (ths t), user_runs (frames (ths t)) with
      | None, true => Some (mkTState m (set_thread ths t (mkThread (Some (a, pcall (flav sys) a)) (frames (ths t)))) lg)
      | _, _ => None
      end
  | TAccess t =>
      match active (ths t) with
      | Some (_, PRet _) | None => None
      | Some (a, p) =>
          let '(m', p', evs) := pstep m p in
          Some (mkTState m' (set_thread ths t (mkThread (Some (a, p')) (frames (ths t)))) (lg ++ map (pair t) evs))
      end
  | TEnd t =>
      match active (ths t) with
      | Some (a, PRet r) => Some (mkTState m (set_thread ths t (mkThread None (frames (ths t)))) (lg ++ [(t, ECall a r)]))
      | _ => None
      end
  | TDo t l =>
      match active (ths t), is_call l with
      | None, false =>
          match step sys (mkState m (frames (ths t)) []) l with
          | None => None
          | Some st' => Some (mkTState (man st') (set_thread ths t (mkThread None (stack st'))) (lg ++ map (pair t) (log st')))
          end
      | _, _ => None
      end
  end.
Fixpoint tsteps (sys : system) (st : tstate) (tr : list tlabel) : option tstate :=
  match tr with
  | [] => Some st
  | l :: r => match tstep sys st l with None => None | Some st' => tsteps sys st' r end
  end.
Definition texec (sys : system) (tr : list tlabel) : option tstate := tsteps sys tinit tr.
