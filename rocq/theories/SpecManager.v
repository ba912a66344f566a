(** * Vocabulary for histories of a manager: reading the log of observable events. *)
From Coq Require Import ZArith List Bool.
From Verif Require Import PyBase Classes Values Codec Manager SpecSMI SpecTree SpecWire SpecMsg.
Import ListNotations.
Open Scope Z_scope.

(** The callback passed by a call that makes a request. *)
Definition request_callback (a : call) : option cbval :=
  match a with
  | AGet _ _ cb _ _ | AGetNext _ _ cb _ _ | ASetBindings _ _ cb _ | ASetTyped _ _ _ _ cb _ _ => Some cb
  | _ => None
  end.
(** The number in a request id object. *)
Definition id_number (v : val) : option Z := match v with VInt _ z => Some z | _ => None end.
(** The requests that succeeded, oldest first: the id each returned and its callback. *)
Definition issued_by (e : event) : list (Z * cbval) :=
  match e with
  | ECall a (Ok (RVal v)) => match request_callback a, id_number v with Some cb, Some id => [(id, cb)] | _, _ => [] end
  | _ => []
  end.
Definition issued (lg : list event) : list (Z * cbval) := flat_map issued_by lg.
(** Everything queued, everything taken from the queue, and everything handed to the socket. *)
Definition puts (lg : list event) : list (option message * address) :=
  flat_map (fun e => match e with EPut om dst => [(om, dst)] | _ => [] end) lg.
Definition takes (lg : list event) : list (option message * address) :=
  flat_map (fun e => match e with ETake om dst => [(om, dst)] | _ => [] end) lg.
Definition sends (lg : list event) : list (str * address) :=
  flat_map (fun e => match e with ESend os dst _ => [(os, dst)] | _ => [] end) lg.
(** The octets of a queued message. *)
Definition octets_of (p : option message * address) : list (str * address) :=
  match fst p with
  | Some m => match snd (message_encode m) with Ok os => [(os, snd p)] | Err _ => [] end
  | None => []
  end.
(** How often the callback of request [id] was called, and how often it finished. *)
Definition invocations (id : Z) (lg : list event) : nat :=
  length (filter (fun e => match e with EInvoke i _ _ => i =? id | _ => false end) lg).
Definition finishes (id : Z) (lg : list event) : nat :=
  length (filter (fun e => match e with EFinished i _ => i =? id | _ => false end) lg).
Definition normal_finishes (id : Z) (lg : list event) : nat :=
  length (filter (fun e => match e with EFinished i (Ok _) => i =? id | _ => false end) lg).
(** A callback was called, of any kind. *)
Definition is_invocation (e : event) : bool :=
  match e with EInvoke _ _ _ | EInvokeTrap _ _ => true | _ => false end.
(** Request [id] is waiting for its answer, with this callback. *)
Definition pending (m : mgr) (id : Z) (cb : cbval) : Prop := dict_get (callbacks m) id = Some cb.
(** What a Python program can import: v1 needs rfc1157, the others everything. *)
Definition importable (sys : system) : Prop :=
  match flav sys with
  | FV1 => imports sys = Upto1157 \/ imports sys = With1157And1902 \/ imports sys = Upto1905
  | _ => imports sys = Upto1905
  end.

(** A manager can poll now: user code is running and calls poll(), or run() is about to. *)
Definition poll_ready (st : state) : Prop :=
  user_runs (stack st) = true \/ exists rest, stack st = FRun Polling :: rest.
(** The label hands the data [d] to receiveData, with [depth] nested decode calls to spare. *)
Definition delivery (sys : system) (st : state) (l : label) (depth : nat) (d : data) : Prop :=
  match l with
  | LReceive depth' d' _ => depth' = depth /\ d' = d /\ user_runs (stack st) = true
  | LPoll (Datagram depth' s _) => depth' = depth /\ d = received (trans sys) s /\ poll_ready st
  | _ => False
  end.
(** receiveData was over at once, with outcome [r], no callback was called and the manager did not change.
    Called by user code, or through user code's poll(), [r] comes back there; called from run(), an exception
    ends run() and is seen by its caller, and without one run() goes on. *)
Definition came_back (st st' : state) (r : res unit) : Prop :=
  man st' = man st /\
  ((user_runs (stack st) = true /\ stack st' = stack st /\ log st' = log st ++ [EResult r]) \/
   (exists rest, stack st = FRun Polling :: rest /\
      match r with
      | Ok _ => stack st' = FRun Sending :: rest /\ log st' = log st
      | Err e => stack st' = rest /\ log st' = log st ++ [EResult (Err e)]
      end)).
(** The outcome receiveData has when handling ran into exception [e]: v2 swallows it. *)
Definition outcome (f : flavour) (e : exn) : res unit := match f with FV2 => Ok tt | _ => Err e end.

(** The kind of an abstract value. *)
Definition top_kind (t : tree) : kind :=
  match t with TInt k _ | TOct k _ | TNull k | TSeq k _ => k | TOid _ => KObjectID end.
(** What a manager does with a received message, by version number and kind of its data: look for the request
    it answers, call the trap callback, ignore it, or refuse it with an exception. *)
Inductive reaction := Answer | Trap | Ignore | Refuse (e : exn).
Definition plain_reaction (k : kind) : reaction :=
  if request_kind k then Answer else match k with KTrapV1 => Trap | _ => Ignore end.
Definition reaction_to (f : flavour) (version : Z) (k : kind) : reaction :=
  match f with
  | FV1 => if version =? 0 then plain_reaction k else Refuse ValueError
  | FV2 => if (version =? 0) || (version =? 1) then plain_reaction k else Refuse ValueError
  | FSM => if version =? 0 then plain_reaction k
           else if version =? 1 then
             match k with KResponse | KInform | KTrapV2 | KReport => Answer | _ => Refuse AttributeError end
           else Refuse ValueError
  end.
(** A message that is an answer to request [id]. *)
Definition answer_to (f : flavour) (version : Z) (pdu : tree) (id : Z) : Prop :=
  reaction_to f version (top_kind pdu) = Answer /\
  exists k status index bindings, pdu = request_tree k id status index bindings.

(** The ids handed out by a manager, oldest first: by requests that succeed, by assignRequestID, and in
    the messages made by the create...Message methods. *)
Definition handed_by (e : event) : list Z :=
  match e with
  | ECall _ (Ok (RVal (VInt _ z))) | ECall _ (Ok (RVal (VPyInt z))) => [z]
  | ECall _ (Ok (RMsg m)) => match m_data m with VSeq _ (VInt _ z :: _) => [z] | _ => [] end
  | _ => []
  end.
Definition handed_out (lg : list event) : list Z := flat_map handed_by lg.
Definition call_failed (e : event) : Prop := exists a x, e = ECall a (Err x).
Definition failures (lg : list event) : nat :=
  length (filter (fun e => match e with ECall _ (Err _) => true | _ => false end) lg).
(** A queued message that can be written. *)
Definition sendable (p : option message * address) : Prop :=
  exists msg os, fst p = Some msg /\ snd (message_encode msg) = Ok os.

(** int(msg.data.requestID) is [id]. *)
Definition carries (msg : message) (id : Z) : Prop := exists c r rest, m_data msg = VSeq c (r :: rest) /\ py_int r = Ok id.

(** An object that is the number [z], and the versions each manager knows. *)
Definition is_number (v : val) (z : Z) : Prop := v = VPyInt z \/ exists c, v = VInt c z.
Definition known_version (f : flavour) (v : val) : Prop := is_number v 0 \/ (f <> FV1 /\ is_number v 1).

(** receiveData, whose callers in progress are [below], came back with outcome [r], after the events [lg] and with
    manager [m]: to user code, to user code's poll(), or to run(), which goes on, or ends by the exception. *)
Definition receive_over (m : mgr) (below : list frame) (lg : list event) (st' : state) (r : res unit) : Prop :=
  man st' = m /\
  match below with
  | FRead :: FRun _ :: rest =>
      match r with
      | Ok _ => stack st' = FRun Sending :: rest /\ log st' = lg
      | Err e => stack st' = rest /\ log st' = lg ++ [EResult (Err e)]
      end
  | FRead :: user | user => stack st' = user /\ log st' = lg ++ [EResult r]
  end.
(** The callback was called, with frame [f] for it on top, and nothing else has happened yet. *)
Definition callback_runs (st st' : state) (f : frame) (e : event) : Prop :=
  man st' = man st /\ log st' = log st ++ [e] /\ (stack st' = f :: stack st \/ stack st' = f :: FRead :: stack st).

(** ** What a request call asks for *)
(** The greatest id a request can have: rfc1157 ids stop at 2^31-1, rfc1905 ids at 2^31. *)
Definition id_limit (f : flavour) (a : call) : Z :=
  match f, a with
  | FV2, _ => 2 ^ 31
  | FSM, (AGet _ _ _ _ v | AGetNext _ _ _ _ v) => if v =? 2 then 2 ^ 31 else 2 ^ 31 - 1
  | _, _ => 2 ^ 31 - 1
  end.
(** The version number in its message: v1.SNMP speaks SNMPv1 (0), v2.SNMP SNMPv2c (1), snmpManager as told. *)
Definition asked_version (f : flavour) (a : call) : Z :=
  match f, a with
  | FV1, _ => 0
  | FV2, _ => 1
  | FSM, (AGet _ _ _ _ v | AGetNext _ _ _ _ v | ASetTyped _ _ _ _ _ _ v) => v - 1
  | FSM, _ => 0
  end.
Definition asked_kind (a : call) : option kind :=
  match a with
  | AGet _ _ _ _ _ => Some KGet
  | AGetNext _ _ _ _ _ => Some KGetNext
  | ASetBindings _ _ _ _ | ASetTyped _ _ _ _ _ _ _ => Some KSet
  | _ => None
  end.
Definition asked_community (a : call) : option val :=
  match a with
  | AGet _ _ _ com _ | AGetNext _ _ _ com _ | ASetBindings _ _ _ com | ASetTyped _ _ _ _ _ com _ => Some com
  | _ => None
  end.
Definition asked_destination (a : call) : option address :=
  match a with
  | AGet _ dst _ _ _ | AGetNext _ dst _ _ _ | ASetBindings _ dst _ _ | ASetTyped _ _ _ dst _ _ _ => Some dst
  | _ => None
  end.
(** A variable binding object. *)
Definition binds (name value item : val) : Prop := exists c, (c = CVarBind \/ c = CVarBind_v2) /\ item = VSeq c [name; value].
(** The bindings a call asks for: for Get one binding of ObjectID(oid), or in v2 of each identifier of the
    argument, to Null; for GetNext and v1's Set the list given; for snmpManager's Set the
    name with tagDecodeDict[valtype](value). *)
Definition asked_bindings (f : flavour) (a : call) (items : list val) : Prop :=
  match a with
  | AGet oid _ _ _ _ =>
      match f with
      | FV2 => exists oids, components oid = Some oids /\
                 Forall2 (fun o it => exists n, oid_init o = Ok n /\ binds n (VNull CNull) it) oids items
      | _ => exists n it, oid_init oid = Ok n /\ binds n (VNull CNull) it /\ items = [it]
      end
  | AGetNext vbl _ _ _ _ | ASetBindings vbl _ _ _ => components vbl = Some items \/ (falsy vbl /\ items = [])
  | ASetTyped oid ty v _ _ _ _ =>
      exists n w it, oid_init oid = Ok n /\ typed_value ty v = Ok w /\ binds n w it /\ items = [it]
  | _ => False
  end.
(** The identifiers a Get asks for: in v2.SNMP each element of the argument, else the argument. *)
Definition names_of (f : flavour) (oid : val) (names : list (list Z)) : Prop :=
  match f with
  | FV2 => exists oids, components oid = Some oids /\ Forall2 (fun o l => oid_init o = Ok (VOid (Some l))) oids names
  | _ => exists l, oid_init oid = Ok (VOid (Some l)) /\ names = [l]
  end.
(** A list of variable bindings as a user writes it: a list or a VarBindList of VarBind(name, value) objects. *)
Definition binding_list (vbl : val) (bs : list (list Z * val)) : Prop :=
  exists c items, (c = CVarBind \/ c = CVarBind_v2) /\ items = map (fun b => VSeq c [VOid (Some (fst b)); snd b]) bs /\
    (vbl = VPyList items \/ exists d, vbl = VSeq d items).
(** Values that survive the wire, with their abstract forms (as in C25). *)
Definition meaningful (cfg : config) (bs : list (list Z * val)) (tbs : list (list Z * tree)) : Prop :=
  Forall2 (fun b t => fst t = fst b /\ tree_of (snd b) = Some (snd t) /\ classes_ok (snd b) = true /\
                      oid_survives (fst t) /\ wf cfg (snd t)) bs tbs.
(** The call succeeded: it returned the id, queued one message for [dst] whose octets are [t] on the wire,
    registered the callback and changed nothing else. *)
Definition queued (m m' : mgr) (r : res answer) (id : Z) (dst : address) (cb : cbval) (t : tree) : Prop :=
  exists k msg os,
    r = Ok (RVal (VInt k id)) /\ nextRequestID m' = id + 1 /\ outbound m' = outbound m ++ [(Some msg, dst)] /\
    (forall x, dict_get (callbacks m') x = if x =? id then Some cb else dict_get (callbacks m) x) /\
    snd (message_encode msg) = Ok os /\ written t os.

(** One request and its answer under run(): the call, the loop taking and sending the message, the datagram [d], and the
    callback returning. *)
Definition round_trip (f : flavour) (a : call) (d : incoming) : list label :=
  [LCall a; LRun] ++ (match f with FSM => [LPoll Nothing; LSend (Ok tt)] | _ => [LSend (Ok tt); LSend (Ok tt)] end) ++ [LPoll d; LReturn].
