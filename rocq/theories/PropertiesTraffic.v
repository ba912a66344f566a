(** * C43-C47, C49: single requests, traps, a request and its answer, errors.  The vocabulary is in
    SpecManager; proofs are in ProofsCalls, ProofsReceive and ProofsRun. *)
From Coq Require Import ZArith List Bool Lia.
From Verif Require Import PyBase Classes Values Codec Manager SpecBER SpecSMI SpecTree SpecWire SpecMsg SpecManager.
From Verif Require Import ProofsTree ProofsWire ProofsMsg ProofsManager ProofsHistory ProofsReceive ProofsCalls ProofsRun PropertiesManager.
Import ListNotations.
Open Scope Z_scope.

(** C43. Exactly what a successful request does: it returns the next id, appends one message for the given address
    to the queue, registers the given callback under the id, and nothing else.  The message has the asked
    version and community, and a PDU with the id, zero status and index, and the asked bindings; its kind is
    what was asked for, except that v1.SNMP.snmpSet makes a GetNext (C44). *)
Theorem C43_success : forall f a cb m m' v, request_callback a = Some cb -> do_call f a m = (m', Ok v) ->
  exists dst com mc c k kr ke ki cl items msg,
    asked_destination a = Some dst /\ asked_community a = Some com /\
    v = RVal (VInt kr (nextRequestID m)) /\
    msg = mkMsg mc (VInt CInteger (asked_version f a)) (VOct COctetString com)
                (VSeq c [VInt kr (nextRequestID m); VInt ke 0; VInt ki 0; VSeq cl items]) [] /\
    asked_bindings f a items /\ kind_of c = Some k /\
    (asked_kind a = Some k \/ (f = FV1 /\ asked_kind a = Some KSet /\ k = KGetNext)) /\
    nextRequestID m' = nextRequestID m + 1 /\ outbound m' = outbound m ++ [(Some msg, dst)] /\
    (forall x, dict_get (callbacks m') x = if x =? nextRequestID m then Some cb else dict_get (callbacks m) x).
Proof.
  intros f a cb m m' v R H. destruct (call_success _ _ _ _ _ _ R H) as (dst & com & mc & c & kr & ke & ki & cl & items & msg & D & C & V & M & K & B & ->).
  assert (SK : exists k, sent_kind f a = Some k /\ (asked_kind a = Some k \/ (f = FV1 /\ asked_kind a = Some KSet /\ k = KGetNext))).
  { destruct f, a; try discriminate R; cbn; eauto. eexists; split; [reflexivity|]. auto. }
  destruct SK as (k & SK & AK).
  exists dst, com, mc, c, k, kr, ke, ki, cl, items, msg. cbn [nextRequestID outbound callbacks]. rewrite SK in K. repeat split; auto.
  intros x. rewrite dict_get_set, Z.eqb_sym. reflexivity.
Qed.
Print Assumptions C43_success.
Example C43_example : exists m' v, do_call FSM (AGet (VPyStr [49; 46; 51; 46; 54]) ([], 161) (Cb 7) (VPyStr [112]) 2) (mkMgr 41 [] [(3, Cb 1)]) = (m', Ok v).
Proof. eexists; eexists; vm_compute; reflexivity. Qed.

(** C44. snmpManager.snmpSet, in both versions, queues a Set binding the name to the typed value. *)
Theorem C44_manager_set : forall oid ty v dst cb com ver l w t m m' r, ver = 1 \/ ver = 2 ->
  oid_init oid = Ok (VOid (Some l)) -> typed_value ty v = Ok w -> meaningful Upto1905 [(l, w)] [(l, t)] ->
  0 <= nextRequestID m < 2 ^ 31 ->
  do_call FSM (ASetTyped oid ty v dst cb (VPyStr com) ver) m = (m', r) ->
  queued m m' r (nextRequestID m) dst cb (message_tree (ver - 1) com (request_tree KSet (nextRequestID m) 0 0 [(l, t)])).
Proof. exact set_on_wire. Qed.
Print Assumptions C44_manager_set.
(** C44. v1.SNMP.snmpSet queues a GetNext, never a Set. *)
Theorem C44_v1_set_refuted : forall vbl dst cb com bs tbs m m' r, binding_list vbl bs -> meaningful Upto1905 bs tbs ->
  zlen bs <= 2 ^ 31 - 1 -> 0 <= nextRequestID m < 2 ^ 31 ->
  do_call FV1 (ASetBindings vbl dst cb (VPyStr com)) m = (m', r) ->
  queued m m' r (nextRequestID m) dst cb (message_tree 0 com (request_tree KGetNext (nextRequestID m) 0 0 tbs)).
Proof. exact v1_set_on_wire. Qed.
Print Assumptions C44_v1_set_refuted.
Theorem C44_v1_set_kind : forall vbl dst cb com m m' v, do_call FV1 (ASetBindings vbl dst cb com) m = (m', Ok v) ->
  exists msg c items, outbound m' = outbound m ++ [(Some msg, dst)] /\ m_data msg = VSeq c items /\ kind_of c = Some KGetNext.
Proof.
  intros vbl dst cb com m m' v H. destruct (call_success FV1 (ASetBindings vbl dst cb com) cb m m' v eq_refl H) as (dst' & com' & mc & c & kr & ke & ki & cl & items & msg & D & _ & _ & -> & K & _ & ->).
  cbn in D. injection D as <-. do 3 eexists. split; [reflexivity|]. split; [reflexivity|exact K].
Qed.
Print Assumptions C44_v1_set_kind.
(** C44. v2.SNMP: snmpSet and snmpGetNext always raise AttributeError (snmpSet losing an id), and queue nothing. *)
Theorem C44_v2_broken : forall vbl dst cb com ver m,
  do_call FV2 (ASetBindings vbl dst cb com) m = (mkMgr (nextRequestID m + 1) (outbound m) (callbacks m), Err AttributeError) /\
  do_call FV2 (AGetNext vbl dst cb com ver) m = (m, Err AttributeError).
Proof. split; reflexivity. Qed.
Print Assumptions C44_v2_broken.
Example C44_example : oid_init (VPyStr [49; 46; 51; 46; 54]) = Ok (VOid (Some [1; 3; 6])) /\ typed_value 4 (VPyStr [104; 105]) = Ok (VOct COctetString (VPyStr [104; 105])) /\
  meaningful Upto1905 [([1; 3; 6], VOct COctetString (VPyStr [104; 105]))] [([1; 3; 6], TOct KOctetString [104; 105])] /\
  binding_list (VPyList [VSeq CVarBind [VOid (Some [1; 3; 6]); VOct COctetString (VPyStr [104; 105])]]) [([1; 3; 6], VOct COctetString (VPyStr [104; 105]))].
Proof.
  split; [reflexivity|]. split; [reflexivity|]. split.
  - constructor; [|constructor]. cbn. repeat split; try lia; auto. repeat constructor; lia.
  - exists CVarBind. eexists. split; [auto|]. split; [reflexivity|]. left. reflexivity.
Qed.

(** C45. snmpTrap of v1.SNMP and v2.SNMP, with any object as trap: one message with the given community and exactly that
    object as data is queued; no id is used and no callback registered. *)
Theorem C45_trap_queued : forall f dst pdu com ver m, f <> FSM ->
  exists mc, do_call f (ATrap dst pdu com ver) m =
    (mkMgr (nextRequestID m) (outbound m ++ [(Some (mkMsg mc (VInt CInteger (match f with FV1 => 0 | _ => 1 end)) (VOct COctetString com) pdu []), dst)]) (callbacks m), Ok RNone).
Proof. intros f dst pdu com ver m N. destruct f; [exists CMessage; reflexivity|exists CMessage_v2; reflexivity|congruence]. Qed.
Print Assumptions C45_trap_queued.
(** C45. On the wire it is that trap. *)
Theorem C45_trap_on_wire : forall f dst pdu com ver cfg t m m' r, f <> FSM -> tree_of pdu = Some t -> wf cfg t -> classes_ok pdu = true ->
  do_call f (ATrap dst pdu (VPyStr com) ver) m = (m', r) ->
  exists msg os, outbound m' = outbound m ++ [(Some msg, dst)] /\ snd (message_encode msg) = Ok os /\
    written (message_tree (match f with FV1 => 0 | _ => 1 end) com t) os.
Proof.
  intros f dst pdu com ver cfg t m m' r N T W C H. destruct f; [| |congruence]; injection H as <- <-; eexists.
  - destruct (message_writes cfg CMessage 0 com pdu t (mkMsg CMessage (VInt CInteger 0) (VOct COctetString (VPyStr com)) pdu [])) as (os & E & X); auto; [left; lia|].
    exists os. split; [reflexivity|]. auto.
  - destruct (message_writes cfg CMessage_v2 1 com pdu t (mkMsg CMessage_v2 (VInt CInteger 1) (VOct COctetString (VPyStr com)) pdu [])) as (os & E & X); auto; [left; lia|].
    exists os. split; [reflexivity|]. auto.
Qed.
Print Assumptions C45_trap_on_wire.
(** C45. snmpManager.snmpTrap: AttributeError for versions 1 and 2; for any other version an empty message is queued ... *)
Theorem C45_manager_trap : forall dst pdu com ver m, do_call FSM (ATrap dst pdu com ver) m =
  if (ver =? 1) || (ver =? 2) then (m, Err AttributeError)
  else (mkMgr (nextRequestID m) (outbound m ++ [(None, dst)]) (callbacks m), Ok RNone).
Proof. intros. cbn [do_call]. unfold mmap, snmpTrap, mbind. cbn [createTrapMessage]. destruct (_ || _); reflexivity. Qed.
Print Assumptions C45_manager_trap.
(** C45. ... which ends run() with AttributeError when its turn comes, and sends nothing. *)
Theorem C45_empty_message : forall sys m dst q rest lg r, outbound m = (None, dst) :: q ->
  step sys (mkState m (FRun Sending :: rest) lg) (LSend r) =
  Some (mkState (mkMgr (nextRequestID m) q (callbacks m)) rest (lg ++ [ETake None dst; EResult (Err AttributeError)])).
Proof. intros sys m dst q rest lg r O. cbn [step]. unfold send_called. rewrite O. unfold run_raises. rewrite <- app_assoc. reflexivity. Qed.
Print Assumptions C45_empty_message.
Example C45_example : exists st, exec (sample FSM Text) [LCall (ATrap ([], 162) (VNull CNull) (VPyStr []) 3); LRun; LPoll Nothing; LSend (Ok tt)] = Some st /\
  stack st = [] /\ sends (log st) = [].
Proof. eexists; split; [vm_compute; reflexivity|]. split; reflexivity. Qed.

(** C46. The trap callback is called only with a message decoded from received data whose data is an SNMPv1 TrapPDU, in
    version 0 (or 1 for v2.SNMP). *)
Theorem C46_only_traps : forall sys tr st l1 n msg l2, exec sys tr = Some st -> log st = l1 ++ EInvokeTrap n msg :: l2 ->
  trapCallback sys = Some (Cb n) /\ class_of (m_data msg) = Some CTrapPDU /\
  (is_number (m_version msg) 0 \/ (flav sys = FV2 /\ is_number (m_version msg) 1)) /\
  exists tr1 l tr2 st1 depth d, tr = tr1 ++ l :: tr2 /\ exec sys tr1 = Some st1 /\ log st1 = l1 /\ delivery sys st1 l depth d /\
    message_decode (reg_of (imports sys)) depth (message_class (flav sys)) d = Ok msg.
Proof.
  intros sys tr st l1 n msg l2 H L. destruct (trap_event _ _ _ _ _ _ _ H L) as (T & _ & tr1 & l & tr2 & st1 & depth & d & A & B & C & D & E & st2 & S & L2).
  pose proof (invoked_dispatch _ _ _ _ _ _ _ _ D E S L2) as X. cbn iota in X. pose proof (dispatch_invokes sys (man st1) msg) as Y. rewrite X in Y.
  split; [exact T|]. split; [apply Y|]. split; [apply Y|]. exists tr1, l, tr2, st1, depth, d. auto.
Qed.
Print Assumptions C46_only_traps.
(** C46. What each manager does with each well-formed message, by version and kind of PDU (the table [reaction_to]). *)
Theorem C46_reaction : forall sys st l depth strict ver com pdu os, importable sys -> delivery sys st l depth (DStr os) ->
  wire strict (message_tree ver com pdu) os -> readable (imports sys) pdu -> (S (height pdu) <= depth)%nat ->
  exists msg st', tree_of (m_version msg) = Some (TInt KInteger ver) /\ tree_of (m_community msg) = Some (TOct KOctetString com) /\ tree_of (m_data msg) = Some pdu /\
  step sys st l = Some st' /\
  match reaction_to (flav sys) ver (top_kind pdu) with
  | Answer => forall k id status index bindings, pdu = request_tree k id status index bindings ->
                match dict_get (callbacks (man st)) id with
                | Some (Cb n) => callback_runs st st' (FResp id) (EInvoke id n msg)
                | Some NotCallable => came_back st st' (outcome (flav sys) TypeError)
                | None => came_back st st' (outcome (flav sys) KeyError)
                end
  | Trap => match trapCallback sys with
            | Some (Cb n) => callback_runs st st' FTrap (EInvokeTrap n msg)
            | _ => came_back st st' (outcome (flav sys) TypeError)
            end
  | Ignore => came_back st st' (Ok tt)
  | Refuse e => came_back st st' (outcome (flav sys) e)
  end.
Proof. exact message_delivered. Qed.
Print Assumptions C46_reaction.
(** C46. In particular SNMPv1 traps, in version 0, reach the trap callback of each manager; without one, or if it is not
    callable, handling them raises TypeError. *)
Theorem C46_trap_delivered : forall sys st l depth strict com ent agent g s ticks bs os, importable sys -> delivery sys st l depth (DStr os) ->
  wire strict (message_tree 0 com (trap_tree ent agent g s ticks bs)) os -> readable (imports sys) (trap_tree ent agent g s ticks bs) ->
  (S (height (trap_tree ent agent g s ticks bs)) <= depth)%nat ->
  exists msg st', tree_of (m_data msg) = Some (trap_tree ent agent g s ticks bs) /\ tree_of (m_community msg) = Some (TOct KOctetString com) /\
    step sys st l = Some st' /\
    match trapCallback sys with
    | Some (Cb n) => callback_runs st st' FTrap (EInvokeTrap n msg)
    | _ => came_back st st' (match flav sys with FV2 => Ok tt | _ => Err TypeError end)
    end.
Proof.
  intros sys st l depth strict com ent agent g s ticks bs os Im D W R Hd.
  destruct (message_delivered _ _ _ _ _ _ _ _ _ Im D W R Hd) as (msg & st' & T0 & T1 & T2 & S & X).
  replace (reaction_to (flav sys) 0 (top_kind (trap_tree ent agent g s ticks bs))) with Trap in X by (destruct (flav sys); reflexivity).
  exists msg, st'. repeat split; auto.
Qed.
Print Assumptions C46_trap_delivered.
(** C46. Version-1 messages: snmpManager raises AttributeError on all but Response, Inform, SNMPv2 trap and Report. *)
Theorem C46_manager_v2_traps : forall sys st l depth strict com pdu os, flav sys = FSM -> importable sys -> delivery sys st l depth (DStr os) ->
  wire strict (message_tree 1 com pdu) os -> readable (imports sys) pdu -> (S (height pdu) <= depth)%nat ->
  ~ In (top_kind pdu) [KResponse; KInform; KTrapV2; KReport] ->
  exists st', step sys st l = Some st' /\ came_back st st' (Err AttributeError).
Proof.
  intros sys st l depth strict com pdu os F Im D W R Hd N.
  destruct (message_delivered _ _ _ _ _ _ _ _ _ Im D W R Hd) as (msg & st' & T0 & T1 & T2 & S & X). rewrite F in X.
  exists st'. split; [exact S|]. destruct (top_kind pdu); cbn in X, N; try exact X; exfalso; apply N; auto 6.
Qed.
Print Assumptions C46_manager_v2_traps.
Definition sample_trap : tree := trap_tree [1; 3; 6] [10; 0; 0; 1] 6 1 99 [].
Definition sample_trap_octets : list Z := [48; 29; 2; 1; 0; 4; 1; 112; 164; 21; 6; 2; 43; 6; 64; 4; 10; 0; 0; 1; 2; 1; 6; 2; 1; 1; 67; 1; 99; 48; 0].
Example C46_example : wire true (message_tree 0 [112] sample_trap) sample_trap_octets /\ readable Upto1905 sample_trap.
Proof.
  assert (O : oid_survives [1; 3; 6]) by (cbn; repeat split; try lia; repeat constructor; lia).
  assert (S : trap_shape (match sample_trap with TSeq _ l => l | _ => [] end)).
  { do 5 eexists. exists []. split; [reflexivity|]. split; [unfold in32; lia|constructor]. }
  assert (I0 : int_survives 0) by (left; lia). assert (I6 : int_survives 6) by (left; lia).
  assert (I1 : int_survives 1) by (left; lia). assert (I9 : int_survives 99) by (left; lia).
  split.
  - apply (writes_all Upto1905 (VSeq CSequence [VInt CInteger 0; VOct COctetString (VPyStr [112]);
      VSeq CTrapPDU [VOid (Some [1; 3; 6]); VOct CIPAddress (VPyStr [10; 0; 0; 1]); VInt CGenericTrap 6; VInt CInteger 1; VInt CTimeTicks 99; VSeq CVarBindList []]]));
    try reflexivity.
    cbn -[oid_survives int_survives trap_shape]. repeat split; auto; try lia; repeat constructor; lia.
  - cbn -[oid_survives int_survives trap_shape]. repeat split; auto; try lia; repeat constructor; lia.
Qed.

(** C47. The octets queued by snmpGet are, by the independent reading [wire] of X.690, the message asked for: version,
    community, the fresh id, zero status and index, and one binding to Null per identifier. *)
Theorem C47_get_on_wire : forall f oid dst cb com ver names m m' r, (f = FSM -> ver = 1 \/ ver = 2) ->
  names_of f oid names -> Forall oid_survives names -> zlen names <= 2 ^ 31 - 1 -> 0 <= nextRequestID m < 2 ^ 31 ->
  do_call f (AGet oid dst cb (VPyStr com) ver) m = (m', r) ->
  queued m m' r (nextRequestID m) dst cb
    (message_tree (match f with FV1 => 0 | FV2 => 1 | FSM => ver - 1 end) com
                  (request_tree KGet (nextRequestID m) 0 0 (map (fun l => (l, TNull KNull)) names))).
Proof.
  intros f oid dst cb com ver names m m' r V N S L P H. pose proof (get_on_wire f oid dst cb com ver names m m' r V N S L P H) as X.
  destruct f; exact X.
Qed.
Print Assumptions C47_get_on_wire.
(** C47. snmpGetNext of v1.SNMP and snmpManager: the bindings given. *)
Theorem C47_getnext_on_wire : forall f vbl dst cb com ver bs tbs m m' r, f <> FV2 -> (f = FSM -> ver = 1 \/ ver = 2) ->
  binding_list vbl bs -> meaningful Upto1905 bs tbs -> zlen bs <= 2 ^ 31 - 1 -> 0 <= nextRequestID m < 2 ^ 31 ->
  do_call f (AGetNext vbl dst cb (VPyStr com) ver) m = (m', r) ->
  queued m m' r (nextRequestID m) dst cb
    (message_tree (match f with FSM => ver - 1 | _ => 0 end) com (request_tree KGetNext (nextRequestID m) 0 0 tbs)).
Proof.
  intros f vbl dst cb com ver bs tbs m m' r NF V B G L P H. pose proof (getnext_on_wire f vbl dst cb com ver bs tbs m m' r NF V B G L P H) as X.
  destruct f; try exact X. congruence.
Qed.
Print Assumptions C47_getnext_on_wire.
(** C47. End to end, for any request (what its call queues is given by C43, C44 and the two theorems above), in any state of any history with an
    empty queue: the call, run() sending the message, the answer arriving with any community from any address, and the callback
    returning.  What is observed is exactly: the id is returned; the message queued, taken, and sent to its destination, being
    that message on the wire; the callback called once, with the answer; and then the loop goes on with an empty
    queue and the same requests pending as before. *)
Theorem C47_round_trip : forall sys tr st a n dst r m' t strict ver com pdu os' depth src,
  exec sys tr = Some st -> user_runs (stack st) = true -> outbound (man st) = [] ->
  queueEmpty sys = None -> trans sys = Text -> importable sys ->
  do_call (flav sys) a (man st) = (m', r) -> queued (man st) m' r (nextRequestID (man st)) dst (Cb n) t ->
  wire strict (message_tree ver com pdu) os' -> readable (imports sys) pdu -> (S (height pdu) <= depth)%nat ->
  answer_to (flav sys) ver pdu (nextRequestID (man st)) ->
  exists k om os msg st',
    steps sys st (round_trip (flav sys) a (Datagram depth os' src)) = Some st' /\
    log st' = log st ++ [ECall a (Ok (RVal (VInt k (nextRequestID (man st))))); EPut (Some om) dst; ETake (Some om) dst; ESend os dst (Ok tt);
                         EInvoke (nextRequestID (man st)) n msg; EFinished (nextRequestID (man st)) (Ok tt)] /\
    written t os /\
    tree_of (m_version msg) = Some (TInt KInteger ver) /\ tree_of (m_community msg) = Some (TOct KOctetString com) /\ tree_of (m_data msg) = Some pdu /\
    stack st' = FRun Sending :: stack st /\ outbound (man st') = [] /\ nextRequestID (man st') = nextRequestID (man st) + 1 /\
    (forall id cb, pending (man st') id cb <-> pending (man st) id cb).
Proof. intros sys tr st a n dst r m' t strict ver com pdu os' depth src. apply round_trip_runs. Qed.
Print Assumptions C47_round_trip.
(** C47. For snmpGet and a Response to it. *)
Theorem C47_get_answered : forall sys tr st oid dst n com ver names strict ver' com' status index bs os' depth src,
  exec sys tr = Some st -> user_runs (stack st) = true -> outbound (man st) = [] ->
  queueEmpty sys = None -> trans sys = Text -> importable sys ->
  (flav sys = FSM -> ver = 1 \/ ver = 2) -> names_of (flav sys) oid names -> Forall oid_survives names -> zlen names <= 2 ^ 31 - 1 ->
  nextRequestID (man st) < 2 ^ 31 ->
  ver' = 0 \/ (flav sys <> FV1 /\ ver' = 1) ->
  wire strict (message_tree ver' com' (request_tree KResponse (nextRequestID (man st)) status index bs)) os' ->
  readable (imports sys) (request_tree KResponse (nextRequestID (man st)) status index bs) ->
  (S (height (request_tree KResponse (nextRequestID (man st)) status index bs)) <= depth)%nat ->
  exists k om os msg st',
    steps sys st (round_trip (flav sys) (AGet oid dst (Cb n) (VPyStr com) ver) (Datagram depth os' src)) = Some st' /\
    log st' = log st ++ [ECall (AGet oid dst (Cb n) (VPyStr com) ver) (Ok (RVal (VInt k (nextRequestID (man st))))); EPut (Some om) dst; ETake (Some om) dst;
                         ESend os dst (Ok tt); EInvoke (nextRequestID (man st)) n msg; EFinished (nextRequestID (man st)) (Ok tt)] /\
    written (message_tree (match flav sys with FV1 => 0 | FV2 => 1 | FSM => ver - 1 end) com
                          (request_tree KGet (nextRequestID (man st)) 0 0 (map (fun l => (l, TNull KNull)) names))) os /\
    tree_of (m_data msg) = Some (request_tree KResponse (nextRequestID (man st)) status index bs) /\
    stack st' = FRun Sending :: stack st /\ outbound (man st') = [] /\
    (forall id cb, pending (man st') id cb <-> pending (man st) id cb).
Proof.
  intros sys tr st oid dst n com ver names strict ver' com' status index bs os' depth src H U O QE T Im V N SV L P V' W Rd Hd.
  pose proof (i_next _ (exec_inv _ _ _ H)) as P0.
  destruct (do_call (flav sys) (AGet oid dst (Cb n) (VPyStr com) ver) (man st)) as [m' r] eqn:C.
  pose proof (C47_get_on_wire (flav sys) oid dst (Cb n) com ver names _ _ _ V N SV L (conj P0 P) C) as Q.
  assert (An : answer_to (flav sys) ver' (request_tree KResponse (nextRequestID (man st)) status index bs) (nextRequestID (man st))).
  { split; [|eauto]. cbn [top_kind request_tree]. destruct V' as [->|[F ->]]; destruct (flav sys); try reflexivity; congruence. }
  destruct (round_trip_runs _ _ _ _ _ _ _ _ _ _ _ _ _ _ _ src H U O QE T Im C Q W Rd Hd An) as (k & om & os & msg & st' & A & B & D & _ & _ & E & F & G & _ & I).
  exists k, om, os, msg, st'. auto 10.
Qed.
Print Assumptions C47_get_answered.
Example C47_example : names_of FV1 (VPyStr [49; 46; 51; 46; 54]) [[1; 3; 6]] /\ oid_survives [1; 3; 6] /\ importable (sample FV1 Text) /\
  exists st', steps (sample FV1 Text) init (round_trip FV1 (sample_get 7) (Datagram 9 (sample_octets 0 0) ([], 0))) = Some st' /\ stack st' = [FRun Sending].
Proof.
  split; [exists [1; 3; 6]; split; reflexivity|]. split; [cbn; repeat split; try lia; repeat constructor; lia|]. split; [cbn; auto|].
  eexists; split; [vm_compute; reflexivity|reflexivity].
Qed.

(** C49. Whatever goes wrong while polled data are read or handled comes out of poll() as it is: an exception of
    the socket ... *)
Theorem C49_socket_error : forall sys st e, poll_ready st -> (flav sys = FSM -> e <> QueueEmpty) ->
  exists st', step sys st (LPoll (SocketError e)) = Some st' /\ came_back st st' (Err e).
Proof.
  intros sys [m stk lg] e P N. assert (A : asyncore_read (Err e) = Err e) by (destruct e; reflexivity).
  destruct P as [U|(rest & E)]; cbn [stack] in *.
  - exists (mkState m stk (lg ++ [EResult (Err e)])). split; [|split; [reflexivity|left; auto]].
    destruct stk as [|[| | | |[|]] rest]; try discriminate U; cbn [step user_runs poll_called]; rewrite A; reflexivity.
  - subst stk. exists (mkState m rest (lg ++ [EResult (Err e)])). split; [|split; [reflexivity|right; exists rest; auto]].
    cbn [step poll_called]. rewrite A. cbn [poll_returns]. f_equal. destruct (flav sys), e; try reflexivity. exfalso; apply N; reflexivity.
Qed.
Print Assumptions C49_socket_error.
(** C49. ... and a datagram that cannot be decoded: it ends run() of v1.SNMP and snmpManager by the exception its decoding raised, while
    v2.SNMP's goes on. *)
Theorem C49_bad_datagram : forall sys m rest lg depth s src e,
  message_decode (reg_of (imports sys)) depth (message_class (flav sys)) (received (trans sys) s) = Err e ->
  step sys (mkState m (FRun Polling :: rest) lg) (LPoll (Datagram depth s src)) =
  Some (match flav sys with
        | FV2 => mkState m (FRun Sending :: rest) lg
        | _ => mkState m rest (lg ++ [EResult (Err e)])
        end).
Proof.
  intros sys m rest lg depth s src e E.
  destruct (undecodable_outcome sys (mkState m (FRun Polling :: rest) lg) (LPoll (Datagram depth s src)) depth (received (trans sys) s) e) as (st' & S & M & C); [|exact E|].
  - cbn. repeat split. right. eexists; reflexivity.
  - rewrite S. cbn [stack log man] in *. destruct C as [(U & _)|(rest' & R & C)]; [discriminate U|]. injection R as <-. f_equal.
    destruct st' as [m' stk' lg']. cbn in *. subst m'. unfold outcome in C. destruct (flav sys); destruct C as [-> ->]; reflexivity.
Qed.
Print Assumptions C49_bad_datagram.
(** C49. One exception is mistaken: a callback raising queue.Empty under snmpManager.run() does not end it, and looks like
    an empty queue: the queue-empty callback runs although a message is waiting. *)
Theorem C49_mistaken_refuted : exists sys tr st n, exec sys tr = Some st /\ outbound (man st) <> [] /\ flav sys = FSM /\ queueEmpty sys = Some (Cb n) /\
  exists l, log st = l ++ [EFinished 0 (Err QueueEmpty); EInvokeEmpty n].
Proof.
  exists (mkSys FSM Upto1905 (Some (Cb 5)) None Text), [LCall (sample_get 7); LCall (sample_get 8); LRun; LPoll (Datagram 9 (sample_octets 0 0) ([], 0)); LRaise QueueEmpty].
  eexists; exists 5%nat. split; [vm_compute; reflexivity|]. cbn [man outbound log flav queueEmpty]. repeat split; [discriminate|].
  match goal with |- exists l, ?a :: ?b :: ?c :: ?d :: ?e :: _ = _ => exists [a; b; c; d; e]; reflexivity end.
Qed.
Print Assumptions C49_mistaken_refuted.
Example C49_example : message_decode (reg_of (imports (sample FV1 Text))) 9 CMessage (received Text [48; 3; 2]) = Err IndexError.
Proof. vm_compute. reflexivity. Qed.
