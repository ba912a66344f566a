(** * Specification: objects and values side by side.

    Manager.v treats objects as values.  Here is what it means that a run of that model and a run of the model with objects (Heap.v) are in step,
    and that two states agree. *)
From Coq Require Import ZArith List Bool.
From Verif Require Import PyBase Classes Values Codec Manager Heap SpecHeap.
Import ListNotations.
Open Scope Z_scope.

(** An argument [i] has the value [v] (and is not itself a Message object). *)
Definition arg (h : heap) (i : item) (v : val) : Prop := now h i v /\ plain v.
(** If it is a list, its elements are plain ints. *)
Definition int_list (v : val) : Prop := match v with VPyList l => exists zs, l = map VPyInt zs | _ => True end.
(** What snmpGet takes: an OID, and for v2 something to iterate over that holds OIDs. *)
Definition oids_arg (f : flavour) (v : val) : Prop :=
  match f with FV2 => forall vs, py_iter v = Ok vs -> Forall int_list vs | _ => int_list v end.
(** The method call [a] on objects is the call [va] on values. *)
Inductive call_value (f : flavour) (h : heap) : hcall -> call -> Prop :=
| cv_get oid ov dst cb com cv ver : arg h oid ov -> oids_arg f ov -> arg h com cv -> call_value f h (HGet oid dst cb com ver) (AGet ov dst cb cv ver)
| cv_getnext vbl v dst cb com cv ver : arg h vbl v -> arg h com cv -> call_value f h (HGetNext vbl dst cb com ver) (AGetNext v dst cb cv ver)
| cv_set vbl v dst cb com cv : arg h vbl v -> arg h com cv -> call_value f h (HSetBindings vbl dst cb com) (ASetBindings v dst cb cv)
| cv_typed oid ov ty i v dst cb com cv ver : arg h oid ov -> int_list ov -> arg h i v -> int_list v -> arg h com cv ->
    call_value f h (HSetTyped oid ty i dst cb com ver) (ASetTyped ov ty v dst cb cv ver)
| cv_trap dst pdu p com cv ver : arg h pdu p -> arg h com cv -> call_value f h (HTrap dst pdu com ver) (ATrap dst p cv ver).

(** What a constructor makes of values. *)
Inductive made_of (h : heap) : hcall -> res val -> Prop :=
| mo_pdu c id z vbl v : arg h id z -> (match vbl with Some l => arg h l v | None => v = VPyList [] end) ->
    In c [CGet; CGetNext; CSet; CResponse; CGet_v2; CGetNext_v2; CSet_v2; CResponse_v2; CInform; CTrapV2; CReport] ->
    made_of h (HNewPDU c id vbl) (pdu_init c z (VPyInt 0) (VPyInt 0) v)
| mo_bulk id z vbl v : arg h id z -> (match vbl with Some l => arg h l v | None => v = VPyList [] end) ->
    made_of h (HNewPDU CGetBulk id vbl) (bulkpdu_init CGetBulk z (VPyInt 0) (VPyInt 0) v)
| mo_vbl (two : bool) vbl v : (match vbl with Some l => arg h l v | None => v = VPyList [] end) ->
    made_of h (HNewVarBindList two vbl) (if two then varbindlist_v2_init v else varbindlist_init v)
| mo_varbind c n nv i v : (c = CVarBind \/ c = CVarBind_v2) -> arg h n nv -> arg h i v -> made_of h (HNewVarBind c n i) (varbind_init c nv v)
| mo_oid i v : arg h i v -> int_list v -> made_of h (HNewObjectID i) (oid_init v)
| mo_trap e a g s t v e' a' g' s' t' v' : arg h e e' -> arg h a a' -> arg h g g' -> arg h s s' -> arg h t t' -> arg h v v' ->
    made_of h (HNewTrapPDU e a g s t v) (Ok (trappdu_init e' a' g' s' t' v')).

(** ** Agreement *)

(** The object (or None) [i] is the message [om]. *)
Definition same_message (h : heap) (i : item) (om : option message) : Prop :=
  match om with Some msg => now h i (message_val msg) /\ kind_of (m_cls msg) = KMsg | None => i = INone end.
Definition same_queued (h : heap) (p : item * address) (q : option message * address) : Prop := same_message h (fst p) (fst q) /\ snd p = snd q.
(** An entry of the dict, found under the same number, with the same callback. *)
Definition same_entry (f : flavour) (h : heap) (e : entry) (p : Z * cbval) : Prop :=
  e_hash e = fst p /\ e_cb e = snd p /\ key_num f h (e_key e) = Ok (fst p).
(** Callbacks being run: for a response, the message it was given holds the request id. *)
Definition same_frame (f : flavour) (h : heap) (g : gframe) (fr : frame) : Prop :=
  match g, fr with
  | InResponse m, FResp id => (d <- attr_of h m Adata ;; r <- attr_of h d ArequestID ;; key_num f h r) = Ok id
  | InTrap _, FTrap => True
  | _, _ => False
  end.
Definition is_callback (fr : frame) : bool := match fr with FResp _ | FTrap => true | _ => false end.
(** What encode() gives for what is on the queue. *)
Definition encoded (om : option message) : res str := match om with Some msg => octets_of msg | None => Err AttributeError end.
(** What is seen: messages put on the queue; messages taken from it and encoded (Python may run out of stack on the way); messages delivered. *)
Definition same_event (h : heap) (g : gevent) (e : event) : Prop :=
  match g, e with
  | GQueued m dst, EPut om dst' => same_message h m om /\ dst = dst'
  | GSent m r dst, ETake om dst' => same_message h m om /\ dst = dst' /\ (r = encoded om \/ r = Err RecursionError)
  | GInvoked cb m, EInvoke _ cb' msg | GInvoked cb m, EInvokeTrap cb' msg => same_message h m (Some msg) /\ cb = cb'
  | _, _ => False
  end.
Definition seen_g (g : gevent) : bool := match g with GQueued _ _ | GSent _ _ _ | GInvoked _ _ => true | _ => false end.
Definition seen (e : event) : bool := match e with EPut _ _ | ETake _ _ | EInvoke _ _ _ | EInvokeTrap _ _ => true | _ => false end.
Definition agrees (sys : system) (s : hstate) (st : state) : Prop :=
  h_next s = nextRequestID (man st) /\
  Forall2 (same_entry (flav sys) (hp s)) (h_cbs s) (callbacks (man st)) /\
  Forall2 (same_queued (hp s)) (h_out s) (outbound (man st)) /\
  Forall2 (same_frame (flav sys) (hp s)) (h_stack s) (filter is_callback (stack st)) /\
  Forall2 (same_event (hp s)) (filter seen_g (h_log s)) (filter seen (log st)).

(** ** In step *)

(** One thing that happens, in the two models; something that is only there in one of them leaves the other as it is.  Objects are made and looked at,
    but none is changed. *)
Definition in_step (sys : system) (s : hstate) (st : state) (g : option glabel) (l : option label) : Prop :=
  match g, l with
  | Some (UCall a), Some (LCall va) => call_value (flav sys) (hp s) a va
  | Some (LReceive depth d), Some (Manager.LReceive depth' d' _) => depth = depth' /\ d = d'
  | Some (LReceive depth d), Some (LPoll (Datagram depth' o _)) => depth = depth' /\ d = received (trans sys) o
  | Some (LSend _), Some (Manager.LSend _) => outbound (man st) <> []
  | Some UReturn, Some LReturn => exists fr k, stack st = fr :: k /\ is_callback fr = true
  | Some (URaise e), Some (LRaise e') => e = e' /\ exists fr k, stack st = fr :: k /\ is_callback fr = true
  | Some (UNew _), None | Some (URead _), None => True
  | Some (UCall a), None => exists r, made_of (hp s) a r
  | None, Some LRun | None, Some (LPoll Nothing) | None, Some (LPoll (SocketError _)) => True
  | None, Some (Manager.LSend _) => outbound (man st) = []
  | None, Some LReturn | None, Some (LRaise _) => exists k, stack st = FEmpty :: k
  | _, _ => False
  end.
Definition gmove (sys : system) (s : hstate) (g : option glabel) : option hstate := match g with Some g => gstep sys s g | None => Some s end.
Definition vmove (sys : system) (st : state) (l : option label) : option state := match l with Some l => step sys st l | None => Some st end.
Inductive together (sys : system) : hstate -> state -> list (option glabel * option label) -> hstate -> state -> Prop :=
| tg_nil s st : together sys s st [] s st
| tg_cons s st g l s1 st1 r s2 st2 : in_step sys s st g l -> gmove sys s g = Some s1 -> vmove sys st l = Some st1 -> together sys s1 st1 r s2 st2 ->
    together sys s st ((g, l) :: r) s2 st2.
Definition objects_side (pairs : list (option glabel * option label)) : list glabel := flat_map (fun p => match fst p with Some g => [g] | None => [] end) pairs.
Definition values_side (pairs : list (option glabel * option label)) : list label := flat_map (fun p => match snd p with Some l => [l] | None => [] end) pairs.

(** A step in which user code changes no object: it does not write, and does not append to a VarBindList; what it passes to methods and constructors has
    a value. *)
Definition no_change (sys : system) (s : hstate) (l : glabel) : Prop :=
  match l with
  | UWrite _ _ => False
  | UCall a => (exists va, call_value (flav sys) (hp s) a va) \/ (exists r, made_of (hp s) a r)
  | _ => True
  end.
Inductive unchanging (sys : system) : hstate -> list glabel -> hstate -> Prop :=
| un_nil s : unchanging sys s [] s
| un_cons s l s1 tr s2 : no_change sys s l -> gstep sys s l = Some s1 -> unchanging sys s1 tr s2 -> unchanging sys s (l :: tr) s2.

(** Values that objects can have: the class goes with the contents.  (Message objects are not among them.) *)
Fixpoint proper (v : val) : Prop :=
  match v with
  | VInt c _ => kind_of c = KInt
  | VOct c w => kind_of c = KOct /\ proper w
  | VNull c => kind_of c = KNull
  | VSeq c l => kind_of c = KSeq /\ (fix all (l : list val) : Prop := match l with [] => True | x :: r => proper x /\ all r end) l
  | VPyList l => (fix all (l : list val) : Prop := match l with [] => True | x :: r => proper x /\ all r end) l
  | _ => True
  end.
(** The method calls of Manager.v that are also in Heap.v, with arguments that are values of objects. *)
Definition sound_call (f : flavour) (a : call) : Prop :=
  match a with
  | AGet oid _ _ com _ => proper oid /\ oids_arg f oid /\ proper com
  | AGetNext vbl _ _ com _ | ASetBindings vbl _ _ com => proper vbl /\ proper com
  | ASetTyped oid _ v _ _ com _ => proper oid /\ int_list oid /\ proper v /\ int_list v /\ proper com
  | ATrap _ pdu com _ => proper pdu /\ proper com
  | _ => False
  end.
Definition sound (sys : system) (l : label) : Prop := forall a, l = LCall a -> sound_call (flav sys) a.

(** What a method call gave, in the two models. *)
Definition same_answer (h : heap) (r : res item) (r' : res answer) : Prop :=
  match r, r' with
  | Ok i, Ok (RVal v) => now h i v
  | Ok i, Ok RNone => i = INone
  | Err e, Err e' => e = e'
  | _, _ => False
  end.
(** What a constructor gave. *)
Definition same_result (h : heap) (r : res item) (r' : res val) : Prop :=
  match r, r' with Ok i, Ok v => now h i v | Err e, Err e' => e = e' | _, _ => False end.
