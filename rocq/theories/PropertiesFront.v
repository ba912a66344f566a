(** * C58-C60: the queue-empty callback, making traps, and the Set frontend.  Statements only; proofs in ProofsLoop, ProofsFront. *)
From Coq Require Import Ascii String ZArith List Bool Lia.
From Verif Require Import PyBase Classes Values Codec Manager Text Frontend SpecBER SpecSMI SpecTree SpecWire SpecMsg SpecManager SpecNumber SpecFront
  ProofsNumber  ProofsHistory ProofsLoop ProofsFront PropertiesManager.
Import ListNotations.
Open Scope Z_scope.
Local Open Scope list_scope.

(** C58. In any state, whatever happens: the queue-empty callback is called only if it is the one given to the constructor, from run(), and
    when run() looked for a message to send and found none; the only other occasion is that queue.Empty itself was raised by the
    socket or (snmpManager) by a callback. *)
Theorem C58_only_when_empty : forall sys st l st' new n, step sys st l = Some st' -> log st' = log st ++ new -> In (EInvokeEmpty n) new ->
  queueEmpty sys = Some (Cb n) /\ (exists rest, stack st' = FEmpty :: FRun Polling :: rest) /\
  (((exists r, l = LSend r) /\ outbound (man st) = []) \/ queue_empty_raised sys l).
Proof.
  intros sys st l st' new n S L I. destruct (step_empty _ _ _ _ S) as [G H]. destruct (G new n L I) as [Q R]. split; [exact Q|]. split; [exact R|].
  destruct H as [N|[(r & E)|H]]; [elim (N new n L I)|left; eauto|right; exact H].
Qed.
Print Assumptions C58_only_when_empty.
(** C58. And then it is called every time, before anything else happens. *)
Theorem C58_always_when_empty : forall sys m rest lg r n, outbound m = [] -> queueEmpty sys = Some (Cb n) ->
  step sys (mkState m (FRun Sending :: rest) lg) (LSend r) = Some (mkState m (FEmpty :: FRun Polling :: rest) (lg ++ [EInvokeEmpty n])).
Proof. intros sys m rest lg r n O Q. cbn [step]. unfold send_called, loop_empty. rewrite O, Q. reflexivity. Qed.
Print Assumptions C58_always_when_empty.
(** C58. An empty queue does not mean that nothing is outstanding: for every class, in every state of every history in which all
    messages have been sent, with any number of requests still pending, the callback is called after at most one poll; if it
    exits, as those of the bundled programs do, run() ends with the requests still pending. *)
Theorem C58_done_refuted : forall sys tr st n, exec sys tr = Some st -> user_runs (stack st) = true -> outbound (man st) = [] -> queueEmpty sys = Some (Cb n) ->
  exists tr' st', exec sys (tr ++ tr') = Some st' /\ man st' = man st /\ stack st' = stack st /\
    log st' = log st ++ [EInvokeEmpty n; EResult (Err SystemExit)].
Proof.
  intros sys tr st n H U O Q. exists (LRun :: (match flav sys with FSM => [LPoll Nothing] | _ => [] end) ++ [LSend (Ok tt); LRaise SystemExit]).
  exists (mkState (man st) (stack st) (log st ++ [EInvokeEmpty n; EResult (Err SystemExit)])). split; [|repeat split].
  unfold exec. rewrite ProofsHistory.steps_app. unfold exec in H. rewrite H. destruct st as [m stk lg]. cbn [man stack log] in *.
  cbn [steps step app]. rewrite U. destruct (flav sys) eqn:F; cbn [steps step app poll_called poll_returns]; rewrite ?F; cbn [steps step]; unfold send_called, loop_empty; rewrite O, Q; cbn [steps step]; unfold run_raises; rewrite <- app_assoc; reflexivity.
Qed.
Print Assumptions C58_done_refuted.
(** C58. v1.SNMP and v2.SNMP call it before polling.  So if it never returns (it calls sys.exit(), as in snmpget-v1.py and
    snmpget-v2.py), run() never polls: every poll in the history was made by user code ... *)
Theorem C58_never_polls : forall sys tr st, flav sys <> FSM -> queueEmpty sys <> None -> exec sys tr = Some st -> empty_never_returns sys tr ->
  forall tr1 i tr2 st1, tr = tr1 ++ LPoll i :: tr2 -> exec sys tr1 = Some st1 -> user_runs (stack st1) = true.
Proof. exact starved. Qed.
Print Assumptions C58_never_polls.
(** C58. ... and if user code does not receive by itself either, no response or trap callback is ever called, whatever arrives. *)
Theorem C58_never_answered : forall sys tr st, flav sys <> FSM -> queueEmpty sys <> None -> exec sys tr = Some st -> empty_never_returns sys tr ->
  only_run_receives sys tr -> Forall (fun e => is_invocation e = false) (log st).
Proof. exact starved_silent. Qed.
Print Assumptions C58_never_answered.
(** C58. snmpManager mistakes a queue.Empty raised by a user's callback for its own: the exception is lost and the queue-empty
    callback is called although a message is waiting. *)
Theorem C58_mistaken_refuted : exists tr st, exec (mkSys FSM Upto1905 (Some (Cb 9)) None Text) tr = Some st /\
  outbound (man st) <> [] /\ stack st = [FEmpty; FRun Polling] /\ last (log st) (EResult (Ok tt)) = EInvokeEmpty 9.
Proof.
  exists [LCall (sample_get 7); LRun; LPoll Nothing; LSend (Ok tt); LPoll (Datagram 99 (sample_octets 0 0) ([], 161)); LCall (sample_get 8); LRaise QueueEmpty].
  eexists. split; [vm_compute; reflexivity|]. split; [discriminate|]. split; reflexivity.
Qed.
Print Assumptions C58_mistaken_refuted.
Example C58_example : 
  let sys := mkSys FV2 Upto1905 (Some (Cb 9)) None Text in
  let tr := [LCall (AGet (VPyList [VPyStr [49; 46; 51; 46; 54]]) ([], 161) (Cb 7) (VPyStr [112]) 2); LRun; LSend (Ok tt); LSend (Ok tt); LRaise SystemExit] in
  exists st, exec sys tr = Some st /\ empty_never_returns sys tr /\ only_run_receives sys tr /\ pending (man st) 0 (Cb 7) /\
    In (EInvokeEmpty 9) (log st) /\ sends (log st) <> [].
Proof.
  eexists. split; [vm_compute; reflexivity|]. split; [|split; [|split; [reflexivity|split; [cbn; auto 9|discriminate]]]].
  - intros tr1 tr2 st E. exfalso. do 5 (destruct tr1 as [|? tr1]; [discriminate E|injection E as _ E]). destruct tr1; discriminate E.
  - split; [cbn; intuition discriminate|]. intros tr1 i tr2 st E. exfalso. do 5 (destruct tr1 as [|? tr1]; [discriminate E|injection E as _ E]). destruct tr1; discriminate E.
Qed.

(** C59. Exactly when createTrapPDU succeeds, and what it returns.  [up] is the system's uptime in hundredths of a second. *)
Theorem C59_accepts : forall f vbl ver ent agent g s up v, createTrapPDU f vbl ver ent agent g s up = Ok v <->
  (f = FSM -> ver = 1 \/ ver = 2) /\ address_given f agent /\
  exists e a gz sz, oid_init ent = Ok e /\ ipaddress_init CNetworkAddress agent = Ok a /\ g = VPyInt gz /\ in32 gz /\ s = VPyInt sz /\ in32 sz /\
    0 <= up < 2 ^ 32 /\ v = VSeq CTrapPDU [e; a; VInt CGenericTrap gz; VInt CInteger sz; VInt CTimeTicks up; vbl].
Proof. exact trap_accepted. Qed.
Print Assumptions C59_accepts.
(** C59. From text to wire: dotted enterprise and address, numbers and bindings given to createTrapPDU of v1.SNMP or v2.SNMP and the result given to
    snmpTrap queue one message, whose octets are that trap in a message of the class's version. *)
Theorem C59_on_wire : forall f ver l a b c d g s up com dst bs tbs cb m, f <> FSM -> Forall (fun n => 0 <= n <= 2147483647) l -> oid_survives l ->
  Forall (fun n => 0 <= n < 256) [a; b; c; d] -> in32 g -> in32 s -> int_survives g -> int_survives s -> 0 <= up < 2 ^ 32 ->
  meaningful Upto1905 bs tbs -> (cb = CVarBind \/ cb = CVarBind_v2) ->
  exists pdu msg os, createTrapPDU f (VSeq CVarBindList (map (fun b => VSeq cb [VOid (Some (fst b)); snd b]) bs)) ver
      (VPyStr (dots l)) (VPyStr (dots [a; b; c; d])) (VPyInt g) (VPyInt s) up = Ok pdu /\
    do_call f (ATrap dst pdu (VPyStr com) ver) m = (mkMgr (nextRequestID m) (outbound m ++ [(Some msg, dst)]) (callbacks m), Ok RNone) /\
    snd (message_encode msg) = Ok os /\
    written (message_tree (match f with FV1 => 0 | _ => 1 end) com (trap_tree l [a; b; c; d] g s up tbs)) os.
Proof. exact trap_sent. Qed.
Print Assumptions C59_on_wire.
(** C59. The default agent address never works: AttributeError, for any other arguments. *)
Theorem C59_default_address_refuted : forall f vbl ver ent g s up,
  (forall e, oid_init ent = Ok e -> createTrapPDU f vbl ver ent VNone g s up = Err AttributeError) /\
  forall v, createTrapPDU f vbl ver ent VNone g s up <> Ok v.
Proof. exact no_default_address. Qed.
Print Assumptions C59_default_address_refuted.
(** C59. No trap can be made on a system that has been up for 2^32 hundredths of a second (497 days) or more: ValueError. *)
Theorem C59_uptime_refuted : forall f vbl ver ent agent g s up e a, (f = FSM -> ver = 1 \/ ver = 2) -> address_given f agent -> oid_init ent = Ok e ->
  ipaddress_init CNetworkAddress agent = Ok a -> in32 g -> in32 s -> 2 ^ 32 <= up -> createTrapPDU f vbl ver ent agent (VPyInt g) (VPyInt s) up = Err ValueError.
Proof. exact long_uptime. Qed.
Print Assumptions C59_uptime_refuted.
(** C59. An address given as an IPAddress (or OctetString) object is accepted and lost: the trap carries an empty address. *)
Theorem C59_address_object_refuted : forall f vbl ver ent c w g s up v, createTrapPDU f vbl ver ent (VOct c w) g s up = Ok v ->
  exists e g' s' t, v = VSeq CTrapPDU [e; VOct CNetworkAddress (VPyStr []); g'; s'; t; vbl].
Proof. exact address_object_lost. Qed.
Print Assumptions C59_address_object_refuted.
(** C59. Bindings given as a plain list are accepted and queued, but the message cannot be encoded, so run() will end with the exception (C39). *)
Theorem C59_plain_list_refuted : forall f ver l ent agent g s up com dst pdu m m' r, f <> FSM -> createTrapPDU f (VPyList l) ver ent agent g s up = Ok pdu ->
  do_call f (ATrap dst pdu (VPyStr com) ver) m = (m', r) ->
  exists msg e, outbound m' = outbound m ++ [(Some msg, dst)] /\ r = Ok RNone /\ snd (message_encode msg) = Err e.
Proof. exact plain_list_unsendable. Qed.
Print Assumptions C59_plain_list_refuted.
Example C59_example : exists pdu, createTrapPDU FV1 (VSeq CVarBindList []) 1 (VPyStr (text ".1.3.6.1.4"%string)) (VPyStr (text "10.0.0.1"%string)) (VPyInt 6) (VPyInt 0) 12345 = Ok pdu /\
  encode pdu = Ok [164; 24; 6; 4; 43; 6; 1; 4; 64; 4; 10; 0; 0; 1; 2; 1; 6; 2; 1; 0; 67; 2; 48; 57; 48; 0] /\
  (exists v, createTrapPDU FSM (VPyList []) 2 (VPyStr (text "1.3.6"%string)) (VOct CIPAddress (VPyStr [10; 0; 0; 1])) (VPyInt 99) (VPyInt 0) 0 = Ok v).
Proof. eexists. split; [reflexivity|]. split; [reflexivity|]. eexists. reflexivity. Qed.

(** C60. typeSetter knows exactly the seven documented letters, each giving the identifier octet of its kind; anything else is a KeyError. *)
Theorem C60_letters : forall s t, typeSetter s = Ok t <-> exists c k, s = [c] /\ letter_kind c = Some k /\ t = kind_octet k.
Proof. exact type_letters. Qed.
Print Assumptions C60_letters.
Theorem C60_other : forall cb server com oid ty value m, (forall c k, ty = [c] -> letter_kind c <> Some k) ->
  typeSetter ty = Err KeyError /\ snmpset cb server com oid ty value m = (m, Err KeyError).
Proof. intros. split; [apply type_other; assumption|apply set_unknown; assumption]. Qed.
Print Assumptions C60_other.
(** C60. snmpset.py <server> <community> <oid> i <number>: for every text int() reads as a number from -2^31 to 2^31 (C13) it queues the Set of
    that INTEGER for port 161 of the server; for a number outside, or other text, ValueError and nothing happens. *)
Theorem C60_integer : forall cb server com oid l value z m m' r, names oid l -> int_text value z -> - 2 ^ 31 <= z <= 2 ^ 31 -> int_survives z ->
  0 <= nextRequestID m < 2 ^ 31 -> snmpset cb server com oid (text "i"%string) value m = (m', r) ->
  queued m m' r (nextRequestID m) (server, 161) cb (message_tree 1 com (request_tree KSet (nextRequestID m) 0 0 [(l, TInt KInteger z)])).
Proof. exact set_integer. Qed.
Print Assumptions C60_integer.
Theorem C60_integer_refused : forall cb server com oid l value m, names oid l -> (forall z, int_text value z -> ~ (- 2 ^ 31 <= z <= 2 ^ 31)) ->
  snmpset cb server com oid (text "i"%string) value m = (m, Err ValueError).
Proof. exact set_integer_refused. Qed.
Print Assumptions C60_integer_refused.
Theorem C60_string : forall cb server com oid l value m m' r, names oid l -> 0 <= nextRequestID m < 2 ^ 31 ->
  snmpset cb server com oid (text "s"%string) value m = (m', r) ->
  queued m m' r (nextRequestID m) (server, 161) cb (message_tree 1 com (request_tree KSet (nextRequestID m) 0 0 [(l, TOct KOctetString value)])).
Proof. exact set_string. Qed.
Print Assumptions C60_string.
Theorem C60_identifier : forall cb server com oid l value n m m' r, names oid l -> names value n -> 0 <= nextRequestID m < 2 ^ 31 ->
  snmpset cb server com oid (text "o"%string) value m = (m', r) ->
  queued m m' r (nextRequestID m) (server, 161) cb (message_tree 1 com (request_tree KSet (nextRequestID m) 0 0 [(l, TOid n)])).
Proof. exact set_identifier. Qed.
Print Assumptions C60_identifier.
Theorem C60_address : forall cb server com oid l value a m m' r, names oid l -> ip_text value a -> Forall (fun n => 0 <= n < 256) a -> 0 <= nextRequestID m < 2 ^ 31 ->
  snmpset cb server com oid (text "a"%string) value m = (m', r) ->
  queued m m' r (nextRequestID m) (server, 161) cb (message_tree 1 com (request_tree KSet (nextRequestID m) 0 0 [(l, TOct KIpAddress a)])).
Proof. intros cb server com oid l value a m m' r N P _. exact (set_address cb server com oid l value a m m' r N P). Qed.
Print Assumptions C60_address.
(** C60. The letters t, c and C are documented but unusable: the value stays text, so TypeError for every value, and nothing happens. *)
Theorem C60_unusable_refuted : forall cb server com oid l ty value m, names oid l -> In ty [text "t"%string; text "c"%string; text "C"%string] ->
  snmpset cb server com oid ty value m = (m, Err TypeError).
Proof. exact set_unusable. Qed.
Print Assumptions C60_unusable_refuted.
(** C60. enterpriseOID prepends mib-2 (1.3.6.1.2.1), not enterprises (1.3.6.1.4.1); with a leading dot, as identifiers
    are usually written, the result is refused. *)
Theorem C60_enterprise : forall l, l <> [] -> Forall (fun n => 0 <= n <= 2147483647) l ->
  oid_init (VPyStr (enterpriseOID (dots l))) = Ok (VOid (Some ([1; 3; 6; 1; 2; 1] ++ l))).
Proof. exact enterprise_prefix. Qed.
Print Assumptions C60_enterprise.
Theorem C60_enterprise_dot_refuted : forall l, l <> [] -> oid_init (VPyStr (enterpriseOID (46 :: dots l))) = Err ValueError.
Proof. exact enterprise_dot. Qed.
Print Assumptions C60_enterprise_dot_refuted.
Example C60_example : names (text "1.3.6.1.2.1.1.5.0"%string) [1; 3; 6; 1; 2; 1; 1; 5; 0] /\ names (text "..1.3. +6"%string) [1; 3; 6] /\
  int_text (text " -4_2 "%string) (-42) /\ (forall z, ~ int_text (text "4O"%string) z) /\ ip_text (text "10.0.0.255"%string) [10; 0; 0; 255] /\ 
  oid_init (VPyStr (enterpriseOID (text "9.1"%string))) = Ok (VOid (Some [1; 3; 6; 1; 2; 1; 9; 1])).
Proof.
  assert (S : oid_survives [1; 3; 6; 1; 2; 1; 1; 5; 0]) by (cbn; repeat split; try lia; repeat constructor; lia).
  assert (S' : oid_survives [1; 3; 6]) by (cbn; repeat split; try lia; repeat constructor; lia).
  split; [split; [apply oid_text_iff; reflexivity|exact S]|]. split; [split; [apply oid_text_iff; reflexivity|exact S']|].
  split; [apply int_of_str_ok; reflexivity|]. split; [intros z H; apply int_of_str_ok in H; discriminate H|]. split; [|reflexivity].
  assert (X : ipaddress_init CIPAddress (VPyStr (text "10.0.0.255"%string)) = Ok (VOct CIPAddress (VPyStr [10; 0; 0; 255]))) by reflexivity.
  apply ip_text_iff in X as (l & T & E). injection E as <-. exact T.
Qed.
