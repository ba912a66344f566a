(** * C77: managers behind an unreliable network of honest agents.  The vocabulary is in SpecNetwork; proofs are in
    ProofsNetwork. *)
From Coq Require Import ZArith List Bool Lia.
From Verif Require Import PyBase Classes Values Codec Manager SpecBER SpecSMI SpecTree SpecWire SpecMsg SpecManager SpecNetwork.
From Verif Require Import ProofsWire ProofsMsg ProofsManager ProofsHistory ProofsRun ProofsNetwork PropertiesManager PropertiesTraffic.
Import ListNotations.
Open Scope Z_scope.

(** C77. If all datagrams come from agents that answer requests with responses carrying the same request id, then whatever
    the network loses, delays, repeats or reorders, and whatever the user calls in between: a callback only ever runs
    for the answer to the request it was passed to, coming from the address that request was sent to.  The request had
    been queued by that call and sent before. *)
Theorem C77_answers_are_genuine : forall sys tr st l1 id n msg l2, exec sys tr = Some st -> networked sys tr ->
  log st = l1 ++ EInvoke id n msg :: l2 ->
  exists tr1 depth os' dst tr2 st1 l0 a k m l0' os,
    tr = tr1 ++ LPoll (Datagram depth os' dst) :: tr2 /\ exec sys tr1 = Some st1 /\ log st1 = l1 /\
    message_decode (reg_of (imports sys)) depth (message_class (flav sys)) (DStr os') = Ok msg /\
    l1 = l0 ++ ECall a (Ok (RVal (VInt k id))) :: EPut (Some m) dst :: l0' /\
    request_callback a = Some (Cb n) /\ asked_destination a = Some dst /\
    snd (message_encode m) = Ok os /\ In (ESend os dst (Ok tt)) l1 /\ answers os os'.
Proof. exact genuine. Qed.
Print Assumptions C77_answers_are_genuine.
(** C77. And it gets what the agent sent: if the datagram that makes a callback run is an encoding of a message whose PDU
    the library can read, the callback's argument is that message. *)
Theorem C77_content : forall sys tr1 depth os' src st1 st2 id n msg strict ver com pdu,
  exec sys tr1 = Some st1 -> step sys st1 (LPoll (Datagram depth os' src)) = Some st2 -> log st2 = log st1 ++ [EInvoke id n msg] ->
  wire strict (message_tree ver com pdu) os' -> readable (imports sys) pdu ->
  tree_of (m_version msg) = Some (TInt KInteger ver) /\ tree_of (m_community msg) = Some (TOct KOctetString com) /\ tree_of (m_data msg) = Some pdu.
Proof.
  intros sys tr1 depth os' src st1 st2 id n msg strict ver com pdu E S L W R.
  assert (E2 : exec sys (tr1 ++ [LPoll (Datagram depth os' src)]) = Some st2) by (apply (proj2 (steps_snoc sys init tr1 _ st2)); eauto).
  destruct (invoke_event _ _ _ _ _ _ _ _ E2 L) as (tr1' & l & tr2 & st1' & depth' & d & T & E1 & L1 & De & Dm & _ & st3 & S3 & L3).
  assert (tr2 = []) as ->.
  { destruct tr2 as [|y tr2] using rev_ind; [reflexivity|]. exfalso. clear IHtr2. rewrite app_comm_cons, app_assoc in T. apply app_inj_tail in T as [-> _].
    unfold exec in E. rewrite ProofsHistory.steps_app in E. unfold exec in E1. rewrite E1 in E. cbn in E. rewrite S3 in E.
    destruct (steps_log _ _ _ _ E) as (new & X). apply (f_equal (@length _)) in X. rewrite L3, L1, !app_length in X. cbn in X. lia. }
  apply app_inj_tail in T as [<- <-]. destruct De as (-> & -> & _). destruct (trans sys); cbn [received] in Dm; [discriminate Dm|].
  apply (received_content _ _ _ _ _ _ _ _ _ W R Dm).
Qed.
Print Assumptions C77_content.
(** C77. While the agent at an address stays silent (or the network loses what it says), nothing anybody else does makes the
    callback of a request to that address run: the request stays pending. *)
Theorem C77_silence : forall sys tr st a dst cb k id, exec sys tr = Some st -> networked sys tr ->
  (forall depth os, ~ In (LPoll (Datagram depth os dst)) tr) ->
  In (ECall a (Ok (RVal (VInt k id)))) (log st) -> request_callback a = Some cb -> asked_destination a = Some dst ->
  invocations id (log st) = 0%nat /\ pending (man st) id cb.
Proof.
  intros sys tr st a dst cb k id H NW Si I R D.
  assert (Is : In (id, cb) (issued (log st))) by (apply in_flat_map; eexists; split; [exact I|cbn; rewrite R; cbn; auto]).
  assert (Z : invocations id (log st) = 0%nat).
  { destruct (invocations id (log st)) eqn:E; [reflexivity|]. exfalso. destruct (invocations_in id (log st)) as (l1 & x & msg & l2 & L); [lia|].
    destruct (genuine _ _ _ _ _ _ _ _ H NW L) as (tr1 & depth & os' & dst' & tr2 & st1 & l0 & a' & k' & m & l0' & os & -> & E1 & L1 & _ & P & R' & D' & _).
    assert (a' = a) as ->.
    { eapply request_once; [exact H| |exact R'|exact I|exact R]. rewrite L, P. apply in_or_app; left; apply in_or_app; right; left; reflexivity. }
    apply (Si depth os'). replace dst with dst' by congruence. apply in_or_app. right. left. reflexivity. }
  split; [exact Z|]. apply (C35_registered_until_then _ _ _ _ _ H Is).
  pose proof (i_active _ (exec_inv _ _ _ H) id) as A. pose proof (normal_le id (log st)). lia.
Qed.
Print Assumptions C77_silence.

(** C77. An example: two requests to two addresses under run(); the first agent answers twice, and after the callback has
    returned the second copy is refused; the second agent stays silent. *)
Definition other_get (n : nat) : call := AGet (VPyStr [49; 46; 51; 46; 54]) ([120], 161) (Cb n) (VPyStr [112]) 1.
Definition sample_request : list Z := [48; 27; 2; 1; 0; 4; 1; 112; 160; 19; 2; 1; 0; 2; 1; 0; 2; 1; 0; 48; 8; 48; 6; 6; 2; 43; 6; 5; 0].
Definition network_trace : list label :=
  [LCall (sample_get 7); LCall (other_get 8); LRun; LSend (Ok tt); LSend (Ok tt); LSend (Ok tt);
   LPoll (Datagram 9 (sample_octets 0 0) ([], 161)); LReturn; LSend (Ok tt); LPoll (Datagram 9 (sample_octets 0 0) ([], 161))].
Lemma sample_request_wire : wire true (message_tree 0 [112] (request_tree KGet 0 0 0 [([1; 3; 6], TNull KNull)])) sample_request.
Proof.
  apply (writes_all Upto1905 (VSeq CSequence [VInt CInteger 0; VOct COctetString (VPyStr [112]);
      VSeq CGet [VInt CInteger 0; VInt CErrorStatus 0; VInt CInteger 0; VSeq CVarBindList [VSeq CVarBind [VOid (Some [1; 3; 6]); VNull CNull]]]]));
    try reflexivity.
  assert (I0 : int_survives 0) by (left; lia). assert (O : oid_survives [1; 3; 6]) by (cbn; repeat split; try lia; repeat constructor; lia).
  assert (S : request_shape [TInt KInteger 0; TInt KInteger 0; TInt KInteger 0; TSeq KSequence [TSeq KSequence [TOid [1; 3; 6]; TNull KNull]]]).
  { exists 0, 0, 0, [TSeq KSequence [TOid [1; 3; 6]; TNull KNull]]. cbn.
    split; [reflexivity|]. split; [unfold in32; lia|]. split; [unfold in32; lia|]. split; [unfold in32; lia|]. split; [|lia].
    constructor; [|constructor]. eexists; eexists; reflexivity. }
  cbn -[oid_survives int_survives request_shape]. repeat split; auto; try lia; repeat constructor; lia.
Qed.
Lemma sample_answers : answers sample_request (sample_octets 0 0).
Proof.
  exists true, true, 0, 0, [112], [112], KGet, 0, 0, 0, [([1; 3; 6], TNull KNull)], 0, 0, [([1; 3; 6], TInt KInteger 5)].
  split; [cbn; auto|]. split; [exact sample_request_wire|]. exact (proj1 sample_wire).
Qed.
Example C77_example : networked (sample FV1 Text) network_trace /\ exists st l1 msg l2,
  exec (sample FV1 Text) network_trace = Some st /\ log st = l1 ++ EInvoke 0 7 msg :: l2 /\ In (EResult (Err KeyError)) l2 /\
  invocations 1 (log st) = 0%nat /\ pending (man st) 1 (Cb 8).
Proof.
  split.
  - intros tr1 l tr2 st1 E X. unfold network_trace in E.
    do 10 (destruct tr1 as [|? tr1]; [injection E as <- <-; try exact Logic.I;
      (vm_compute in X; injection X as <-; exists sample_request; split; [cbn [log]; repeat (try (left; reflexivity); right)|split; [vm_compute; reflexivity|exact sample_answers]])
      |injection E as <- E]).
    destruct tr1; discriminate.
  - eexists; do 3 eexists; split; [vm_compute; reflexivity|]. cbn [log].
    match goal with |- [?a; ?b; ?c; ?d; ?e; ?f; ?g; ?h; ?i; ?j; ?k] = _ /\ _ =>
      split; [exact (eq_refl : _ = [a; b; c; d; e; f; g; h] ++ _)|] end.
    split; [right; left; reflexivity|]. split; reflexivity.
Qed.

(** C78. A listener whose datagrams all come from one sending manager reports only traps that were passed to that
    manager's snmpTrap for this destination - never a request of it - and reports them as they were: same PDU, same
    community (for every trap that can be written, wf and classes_ok, as in C25). *)
Theorem C78_traps_are_genuine : forall sa tra sta sb trb stb dst l1 n msg l2,
  exec sa tra = Some sta -> exec sb trb = Some stb -> relayed dst (log sta) trb -> log stb = l1 ++ EInvokeTrap n msg :: l2 ->
  exists pdu com ver, In (ECall (ATrap dst pdu com ver) (Ok RNone)) (log sta) /\
    forall t s, com = VPyStr s -> tree_of pdu = Some t -> wf (imports sb) t -> classes_ok pdu = true ->
      tree_of (m_data msg) = Some t /\ tree_of (m_community msg) = Some (TOct KOctetString s).
Proof. exact trap_genuine. Qed.
Print Assumptions C78_traps_are_genuine.
(** C78. And a trap does arrive: the octets v1.SNMP, or v2.SNMP, queues for an SNMPv1 trap, delivered to a manager that is
    polling, run that manager's trap callback with the same trap and community, if the two managers' versions go
    together: v1 to any, v2 to v2 only. *)
Theorem C78_trap_arrives : forall sa m m' r dst pdu com ver ent agent g s ticks bs sb st n depth src, flav sa <> FSM ->
  tree_of pdu = Some (trap_tree ent agent g s ticks bs) -> wf (imports sb) (trap_tree ent agent g s ticks bs) -> classes_ok pdu = true ->
  do_call (flav sa) (ATrap dst pdu (VPyStr com) ver) m = (m', r) ->
  importable sb -> trans sb = Text -> trapCallback sb = Some (Cb n) -> poll_ready st -> (S (height (trap_tree ent agent g s ticks bs)) <= depth)%nat ->
  flav sa = FV1 \/ flav sb = FV2 ->
  exists om os, r = Ok RNone /\ outbound m' = outbound m ++ [(Some om, dst)] /\ snd (message_encode om) = Ok os /\
    (zlen os < 65536 -> exists msg st', step sb st (LPoll (Datagram depth os src)) = Some st' /\
       callback_runs st st' FTrap (EInvokeTrap n msg) /\
       tree_of (m_data msg) = Some (trap_tree ent agent g s ticks bs) /\ tree_of (m_community msg) = Some (TOct KOctetString com)).
Proof.
  intros sa m m' r dst pdu com ver ent agent g s ticks bs sb st n depth src NF Tp W Co C Im Tr Tc Pr Hd V.
  destruct (C45_trap_on_wire _ _ _ _ _ _ _ _ _ _ NF Tp W Co C) as (om & os & O & E & Wi).
  destruct (C45_trap_queued (flav sa) dst pdu (VPyStr com) ver m NF) as (mc & Q). rewrite Q in C. injection C as <- <-.
  exists om, os. split; [reflexivity|]. split; [exact O|]. split; [exact E|]. intros L.
  pose proof (wf_readable (imports sb) _ _ Tp W) as Rd. pose proof (proj1 Wi (small_enough _ L)) as Wi2; clear Wi; rename Wi2 into Wi.
  assert (De : delivery sb st (LPoll (Datagram depth os src)) depth (DStr os)) by (cbn; rewrite Tr; auto).
  destruct (C46_reaction _ _ _ _ _ _ _ _ _ Im De Wi Rd Hd) as (msg & st' & T0 & T1 & T2 & S & X).
  assert (Rx : reaction_to (flav sb) (match flav sa with FV1 => 0 | _ => 1 end) (top_kind (trap_tree ent agent g s ticks bs)) = Trap).
  { cbn [top_kind trap_tree]. destruct V as [-> | ->]; [destruct (flav sb); reflexivity|destruct (flav sa); reflexivity]. }
  rewrite Rx, Tc in X. exists msg, st'. auto.
Qed.
Print Assumptions C78_trap_arrives.
(** C78. An example: v1.SNMP sends a trap and a request to the same address; the listener hears both, the trap twice, and
    reports it twice, and nothing else. *)
Definition trap_object_1 : val :=
  VSeq CTrapPDU [VOid (Some [1; 3; 6]); VOct CIPAddress (VPyStr [10; 0; 0; 1]); VInt CGenericTrap 6; VInt CInteger 1; VInt CTimeTicks 99; VSeq CVarBindList []].
Definition sender_trace : list label :=
  [LCall (ATrap ([], 161) trap_object_1 (VPyStr [112]) 1); LCall (sample_get 7); LRun; LSend (Ok tt); LSend (Ok tt)].
Definition listener_trace (trap get : list Z) : list label :=
  [LPoll (Datagram 9 trap ([], 1)); LReturn; LPoll (Datagram 9 get ([], 1)); LPoll (Datagram 9 trap ([], 1))].
Example C78_example : exists sta stb, exec (sample FV1 Text) sender_trace = Some sta /\
  exec (sample FV2 Text) (listener_trace sample_trap_octets sample_request) = Some stb /\
  relayed ([], 161) (log sta) (listener_trace sample_trap_octets sample_request) /\
  (exists l1 m1 l2, log stb = l1 ++ EInvokeTrap 9 m1 :: l2 /\ exists l3 m2 l4, l2 = l3 ++ EInvokeTrap 9 m2 :: l4 /\ tree_of (m_data m2) = Some sample_trap) /\
  tree_of trap_object_1 = Some sample_trap /\ wf Upto1905 sample_trap /\ classes_ok trap_object_1 = true.
Proof.
  eexists; eexists. split; [vm_compute; reflexivity|]. split; [vm_compute; reflexivity|]. split; [|split; [|split; [reflexivity|split; [|reflexivity]]]].
  - apply Forall_forall. intros l I. cbn in I. repeat (destruct I as [<-|I]; [first [exact Logic.I|split; [cbn [log]; repeat (try (left; reflexivity); right)|vm_compute; reflexivity]]|]). contradiction.
  - cbn [log]. eexists [], _, _. split; [reflexivity|]. eexists [_; _], _, _. split; reflexivity.
  - assert (O : oid_survives [1; 3; 6]) by (cbn; repeat split; try lia; repeat constructor; lia).
    assert (S : trap_shape (match sample_trap with TSeq _ l => l | _ => [] end)).
    { do 5 eexists. exists []. split; [reflexivity|]. split; [unfold in32; lia|constructor]. }
    assert (I6 : int_survives 6) by (left; lia). assert (I1 : int_survives 1) by (left; lia). assert (I9 : int_survives 99) by (left; lia).
    cbn -[oid_survives int_survives trap_shape]. repeat split; auto; try lia; repeat constructor; lia.
Qed.
