(** * C32-C42: histories of a manager.  Statements; the vocabulary is in SpecManager, proofs are in
    ProofsManager, ProofsHistory, ProofsReceive, ProofsCalls and ProofsRun. *)
From Coq Require Import ZArith List Bool Lia Sorted.
From Verif Require Import PyBase Classes Values Codec Manager SpecBER SpecSMI SpecTree SpecWire SpecMsg SpecManager.
From Verif Require Import ProofsTree ProofsWire ProofsMsg ProofsManager ProofsHistory ProofsReceive ProofsCalls ProofsRun.
Import ListNotations.
Open Scope Z_scope.

(** ** Samples: a manager of each class, a request, an answer to it *)
Definition sample (f : flavour) (t : transport) : system := mkSys f Upto1905 None (Some (Cb 9)) t.
Definition sample_get (n : nat) : call :=         (* snmpGet("1.3.6" or ["1.3.6"], ("", 161), callback n, "p") *)
  AGet (VPyStr [49; 46; 51; 46; 54]) ([], 161) (Cb n) (VPyStr [112]) 1.
Definition sample_pdu (id : Z) : tree := request_tree KResponse id 0 0 [([1; 3; 6], TInt KInteger 5)].
Definition sample_octets (version id : Z) : list Z :=
  [48; 28; 2; 1; version; 4; 1; 112; 162; 20; 2; 1; id; 2; 1; 0; 2; 1; 0; 48; 9; 48; 7; 6; 2; 43; 6; 2; 1; 5].
Lemma sample_shape id : in32 id -> request_shape (match sample_pdu id with TSeq _ l => l | _ => [] end).
Proof.
  intros H. exists id, 0, 0, [TSeq KSequence [TOid [1; 3; 6]; TInt KInteger 5]]. cbn.
  split; [reflexivity|]. split; [exact H|]. split; [unfold in32; lia|]. split; [unfold in32; lia|]. split; [|lia].
  constructor; [|constructor]. eexists; eexists; reflexivity.
Qed.
Lemma sample_wire : wire true (message_tree 0 [112] (sample_pdu 0)) (sample_octets 0 0) /\ readable Upto1905 (sample_pdu 0).
Proof.
  assert (O : oid_survives [1; 3; 6]) by (cbn; repeat split; try lia; repeat constructor; lia).
  assert (S : request_shape (match sample_pdu 0 with TSeq _ l => l | _ => [] end)) by (apply sample_shape; unfold in32; lia).
  assert (I0 : int_survives 0) by (left; lia). assert (I5 : int_survives 5) by (left; lia).
  split.
  - apply (writes_all Upto1905 (VSeq CSequence [VInt CInteger 0; VOct COctetString (VPyStr [112]);
      VSeq CResponse_v2 [VInt CInteger32 0; VInt CErrorStatus_v2 0; VInt CInteger 0; VSeq CVarBindList_v2 [VSeq CVarBind_v2 [VOid (Some [1; 3; 6]); VInt CInteger 5]]]]));
    try reflexivity.
    cbn -[oid_survives int_survives request_shape]. repeat split; auto; try lia; repeat constructor; lia.
  - cbn -[oid_survives int_survives request_shape]. repeat split; auto; try lia; repeat constructor; lia.
Qed.

(** C32. Over any history the ids handed out (returned by successful requests and by assignRequestID, or
    inside created messages) are strictly increasing from 0 on; as many are skipped as failing calls lose, at
    most one each; without failing calls they are exactly 0, 1, 2, ... *)
Theorem C32_ids_consecutive : forall sys tr st, exec sys tr = Some st ->
  StronglySorted Z.lt (handed_out (log st)) /\
  Forall (fun id => 0 <= id < Z.of_nat (length (handed_out (log st)) + failures (log st))) (handed_out (log st)) /\
  (Forall (fun e => ~ call_failed e) (log st) ->
   handed_out (log st) = map Z.of_nat (seq 0 (length (handed_out (log st))))).
Proof.
  intros sys tr st H. destruct (exec_hinv _ _ _ H) as [A B C D]. split; [assumption|]. split; [|intros F; apply C; exact F].
  eapply Forall_impl; [|exact A]. cbn. lia.
Qed.
Print Assumptions C32_ids_consecutive.
(** C32. What a successful request queued, right then, is a message carrying the id it returned, and no other
    successful request of the history returned that id. *)
Theorem C32_queued_ids : forall sys tr st l1 a v cb l2, exec sys tr = Some st ->
  log st = l1 ++ ECall a (Ok (RVal v)) :: l2 -> request_callback a = Some cb ->
  exists id msg dst l3, id_number v = Some id /\ l2 = EPut (Some msg) dst :: l3 /\ carries msg id /\
    Forall (fun q => fst q <> id) (issued l1 ++ issued l3).
Proof.
  intros sys tr st l1 a v cb l2 H L R. destruct (call_event _ _ _ _ _ _ _ H L) as (tr1 & tr2 & st1 & st2 & m' & -> & E1 & L1 & C & _ & _ & _ & rest & ->).
  pose proof (requests_call _ _ _ _ _ _ R C) as (msg & remote & c & k & e & i & vbl & X & D & ->). injection X as ->.
  cbn [outbound] in *. rewrite skipn_app_same in *. cbn [map app fst snd] in *.
  exists (nextRequestID (man st1)), msg, remote, rest. split; [reflexivity|]. split; [reflexivity|]. split; [exists c; do 2 eexists; split; [exact D|reflexivity]|].
  pose proof (i_sorted _ (exec_inv _ _ _ H)) as S. rewrite L, issued_app in S.
  replace (issued (ECall a (Ok (RVal (VInt k (nextRequestID (man st1))))) :: EPut (Some msg) remote :: rest)) with ((nextRequestID (man st1), cb) :: issued rest) in S
    by (unfold issued; cbn [flat_map issued_by id_number app]; rewrite R; reflexivity).
  rewrite map_app in S. cbn [map fst] in S. clear -S. revert S. generalize (nextRequestID (man st1)). intros z.
  induction (issued l1) as [|p l IH]; cbn; intros S; inversion S as [|? ? S' F]; subst.
  - rewrite Forall_map in F. eapply Forall_impl; [|exact F]. cbn. lia.
  - constructor; [|apply IH; exact S']. apply Forall_app in F as [_ F]. inversion F; subst. lia.
Qed.
Print Assumptions C32_queued_ids.
Example C32_example : exists st, exec (sample FV1 Text) [LCall (sample_get 7); LCall (AGetNext (VPyInt 5) ([], 161) (Cb 7) (VPyStr []) 1); LCall AAssign; LCall (sample_get 8)] = Some st /\
  handed_out (log st) = [0; 2; 3] /\ failures (log st) = 1%nat /\ issued (log st) = [(0, Cb 7); (3, Cb 8)].
Proof. eexists; split; [vm_compute; reflexivity|]. vm_compute. auto. Qed.

(** C33. A request whose arguments are good enough to succeed in some state succeeds as long as the next id is
    within the limit of its PDU class, and raises ValueError ever after; it then queues nothing (C42). *)
Theorem C33_threshold : forall f a m0 m, request_callback a <> None ->
  (exists m0' v, do_call f a m0 = (m0', Ok v)) -> 0 <= nextRequestID m ->
  if nextRequestID m <=? id_limit f a then exists m' v, do_call f a m = (m', Ok v)
  else snd (do_call f a m) = Err ValueError.
Proof. exact call_threshold. Qed.
Print Assumptions C33_threshold.
(** C33. The limits: 2^31 ids for v1.SNMP, 2^31+1 for v2.SNMP. *)
Theorem C33_limits : forall a, id_limit FV1 a = 2 ^ 31 - 1 /\ id_limit FV2 a = 2 ^ 31 /\
  (id_limit FSM a = 2 ^ 31 - 1 \/ id_limit FSM a = 2 ^ 31).
Proof. intros a. split; [destruct a; reflexivity|]. split; [reflexivity|]. unfold id_limit. destruct a; auto; destruct (_ =? _); auto. Qed.
Print Assumptions C33_limits.
(** C33. For ever: from then on no history makes another request. *)
Theorem C33_forever : forall sys st tr st',
  nextRequestID (man st) > (match flav sys with FV1 => 2 ^ 31 - 1 | _ => 2 ^ 31 end) ->
  steps sys st tr = Some st' -> issued (log st') = issued (log st).
Proof. intros sys st tr st' L H. apply (exhausted sys tr st st'); [unfold last_id; lia|exact H]. Qed.
Print Assumptions C33_forever.
(** C33. The situation arises. *)
Theorem C33_reachable : forall sys n, exists st, exec sys (repeat (LCall AAssign) n) = Some st /\ nextRequestID (man st) = Z.of_nat n /\ stack st = [].
Proof.
  intros sys n. destruct (assign_many sys n mgr0 []) as (lg & E). eexists; split; [exact E|]. split; reflexivity.
Qed.
Print Assumptions C33_reachable.
Example C33_example : exists m' v, do_call FV1 (sample_get 7) mgr0 = (m', Ok v).
Proof. eexists; eexists; vm_compute; reflexivity. Qed.
(** C33. Where a request succeeds and the next one fails. *)
Example C33_example_boundary : exists m v, do_call FV1 (sample_get 7) (mkMgr (2 ^ 31 - 1) [] []) = (m, Ok v) /\
  snd (do_call FV1 (sample_get 7) m) = Err ValueError.
Proof. eexists; eexists; split; [vm_compute; reflexivity|vm_compute; reflexivity]. Qed.

(** C34. In any history: a callback called for a response is called with the message decoded from the data being
    received, which has a version the manager knows and is a PDU, carries the id returned by an earlier request, and is the callback given to that request,
    and to no other request with this id, of which there is none. *)
Theorem C34_response_to_its_request : forall sys tr st l1 id n msg l2, exec sys tr = Some st ->
  log st = l1 ++ EInvoke id n msg :: l2 ->
  carries msg id /\
  (exists l0 a v l0', l1 = l0 ++ ECall a (Ok (RVal v)) :: l0' /\ request_callback a = Some (Cb n) /\ id_number v = Some id) /\
  (forall cb, In (id, cb) (issued (log st)) -> cb = Cb n) /\
  exists tr1 l tr2 st1 depth d, tr = tr1 ++ l :: tr2 /\ exec sys tr1 = Some st1 /\ log st1 = l1 /\
    delivery sys st1 l depth d /\ message_decode (reg_of (imports sys)) depth (message_class (flav sys)) d = Ok msg /\
    known_version (flav sys) (m_version msg) /\ isinstance (m_data msg) CPDU = true.
Proof.
  intros sys tr st l1 id n msg l2 H L. pose proof (exec_inv _ _ _ H) as I. destruct (i_inv _ I _ _ _ _ _ L) as [In1 Ca].
  split; [exact Ca|]. split; [|split].
  - apply in_flat_map in In1 as (e & Ie & In1). apply in_split in Ie as (l0 & l0' & ->).
    destruct e as [a [[v| |]|]| | | | | | | |]; try contradiction. cbn in In1. destruct (request_callback a) as [cb|] eqn:R; [|contradiction].
    destruct (id_number v) as [z|] eqn:Z; [|contradiction]. destruct In1 as [E|[]]. injection E as -> ->. exists l0, a, v, l0'. auto.
  - intros cb X. pose proof (i_sorted _ I) as S. assert (Y : In (id, Cb n) (issued (log st))) by (rewrite L, issued_app; apply in_or_app; auto).
    clear -S X Y. induction (issued (log st)) as [|p l IH]; [contradiction|]. inversion S as [|? ? S' F]; subst.
    rewrite Forall_map, Forall_forall in F. destruct X as [->|X], Y as [E|Y]; auto.
    + injection E as ->; reflexivity.
    + specialize (F _ Y). cbn in F. lia.
    + subst. specialize (F _ X). cbn in F. lia.
  - destruct (invoke_event _ _ _ _ _ _ _ _ H L) as (tr1 & l & tr2 & st1 & depth & d & A & B & C & D & E & _ & st2 & S & L2). exists tr1, l, tr2, st1, depth, d.
    pose proof (invoked_dispatch _ _ _ _ _ _ _ _ D E S L2) as X. cbn iota in X. pose proof (dispatch_invokes sys (man st1) msg) as Y. rewrite X in Y. tauto.
Qed.
Print Assumptions C34_response_to_its_request.
Example C34_example : exists st l1 msg l2, exec (sample FV1 Text) [LCall (sample_get 7); LCall (sample_get 8); LReceive 9 (DStr (sample_octets 0 1)) ([], 0); LReturn] = Some st /\
  log st = l1 ++ EInvoke 1 8 msg :: l2.
Proof.
  eexists; do 3 eexists; split; [vm_compute; reflexivity|]. cbn [log].
  match goal with |- ?a :: ?b :: ?c :: ?d :: _ = _ => exact (eq_refl : _ = [a; b; c; d] ++ _) end.
Qed.

(** C35. Once a callback has returned normally it is never called again in that history. *)
Theorem C35_not_invoked_again : forall sys tr st l1 id l2, exec sys tr = Some st ->
  log st = l1 ++ EFinished id (Ok tt) :: l2 ->
  invocations id l2 = 0%nat /\ (forall cb, ~ pending (man st) id cb).
Proof.
  intros sys tr st l1 id l2 H L. destruct (i_done _ (exec_inv _ _ _ H) _ _ _ L) as (A & B & _). split; [exact A|]. intros cb P. unfold pending in P. congruence.
Qed.
Print Assumptions C35_not_invoked_again.
(** C35. If no callback for [id] is called while one for [id] is still running, at most one returns normally. *)
Theorem C35_completes_once : forall sys tr st id, exec sys tr = Some st ->
  (forall l1 n msg l2, log st = l1 ++ EInvoke id n msg :: l2 -> invocations id l1 = finishes id l1) ->
  (normal_finishes id (log st) <= 1)%nat.
Proof. exact one_normal. Qed.
Print Assumptions C35_completes_once.
(** C35. Until then the request stays registered: it is pending in every later state in which its callback has not
    returned normally. *)
Theorem C35_registered_until_then : forall sys tr st id cb, exec sys tr = Some st -> In (id, cb) (issued (log st)) ->
  (pending (man st) id cb <-> normal_finishes id (log st) = 0%nat).
Proof.
  intros sys tr st id cb H I. split; [apply (pending_not_finished _ _ _ _ _ H)|]. intros N. destruct (exec_settled _ _ _ H _ _ I); [assumption|lia].
Qed.
Print Assumptions C35_registered_until_then.
(** C35. In particular raising an exception leaves the manager as it was. *)
Theorem C35_raise_keeps : forall sys st e st' id rest, stack st = FResp id :: rest -> step sys st (LRaise e) = Some st' -> man st' = man st.
Proof.
  intros sys [m stk lg] e st' id rest E S. cbn in E. subst. cbn [step after_response] in S. injection S as <-.
  destruct (receive_returns_quiet sys m (guard (flav sys) (Err e)) rest (lg ++ [EFinished id (Err e)])) as (q & s & -> & _). reflexivity.
Qed.
Print Assumptions C35_raise_keeps.
(** C35. It is false that a callback completes at most once in every history: if, while it is running, a duplicate
    response is polled, it runs again, and both calls return normally; deleting the entry the second time raises
    KeyError in v1. *)
Theorem C35_once_refuted : exists tr st, exec (sample FV1 Text) tr = Some st /\ normal_finishes 0 (log st) = 2%nat /\
  In (EResult (Err KeyError)) (log st).
Proof.
  exists [LCall (sample_get 7); LReceive 9 (DStr (sample_octets 0 0)) ([], 0); LPoll (Datagram 9 (sample_octets 0 0) ([], 0)); LReturn; LReturn].
  eexists; split; [vm_compute; reflexivity|]. split; [vm_compute; reflexivity|]. cbn. auto 12.
Qed.
Print Assumptions C35_once_refuted.
Example C35_example : exists st l1 l2, exec (sample FV2 Text) [LCall (AGet (VPyList [VPyStr [49; 46; 51]]) ([], 161) (Cb 7) (VPyStr [112]) 1);
    LReceive 9 (DStr (sample_octets 1 0)) ([], 0); LRaise (UserExn 3); LReceive 9 (DStr (sample_octets 1 0)) ([], 0); LReturn; LReceive 9 (DStr (sample_octets 1 0)) ([], 0)] = Some st /\
  log st = l1 ++ EFinished 0 (Ok tt) :: l2 /\ invocations 0 l1 = 2%nat /\ l2 <> [].
Proof.
  eexists; do 2 eexists; split; [vm_compute; reflexivity|]. cbn [log].
  match goal with |- ?a :: ?b :: ?c :: ?d :: ?e :: ?f :: _ = _ /\ _ => split; [exact (eq_refl : _ = [a; b; c; d; e; f] ++ _)|] end.
  split; [vm_compute; reflexivity|discriminate].
Qed.

(** C36. A well-formed answer to a request that is not pending: in every state, through receiveData or poll(), no
    callback is called and nothing changes; v1 and snmpManager raise KeyError, v2 returns. *)
Theorem C36_unsolicited : forall sys st l depth strict ver com pdu os id, importable sys ->
  delivery sys st l depth (DStr os) -> wire strict (message_tree ver com pdu) os -> readable (imports sys) pdu ->
  (S (height pdu) <= depth)%nat -> answer_to (flav sys) ver pdu id -> (forall cb, ~ pending (man st) id cb) ->
  exists st', step sys st l = Some st' /\ came_back st st' (match flav sys with FV2 => Ok tt | _ => Err KeyError end).
Proof.
  intros sys st l depth strict ver com pdu os id Im D W R Hd A N.
  destruct (answer_delivered _ _ _ _ _ _ _ _ _ _ Im D W R Hd A) as (msg & st' & _ & _ & _ & S & X).
  destruct (dict_get (callbacks (man st)) id) as [cb|] eqn:E; [destruct (N cb E)|].
  exists st'. split; [exact S|]. unfold outcome in X. destruct (flav sys); exact X.
Qed.
Print Assumptions C36_unsolicited.
Example C36_example : importable (sample FV1 Text) /\ delivery (sample FV1 Text) init (LPoll (Datagram 9 (sample_octets 0 0) ([], 0))) 9 (DStr (sample_octets 0 0)) /\
  answer_to FV1 0 (sample_pdu 0) 0 /\ (S (height (sample_pdu 0)) <= 9)%nat /\ (forall cb, ~ pending (man init) 0 cb).
Proof.
  split; [cbn; auto|]. split; [cbn; unfold poll_ready; auto|]. split; [split; [reflexivity|]; unfold sample_pdu; eauto|].
  split; [cbn; lia|]. intros cb P. discriminate P.
Qed.

(** C37. Whatever data are received, the manager is as before: no entry is touched before a callback finishes. *)
Theorem C37_receiving_keeps : forall sys st l depth d st', delivery sys st l depth d -> step sys st l = Some st' -> man st' = man st.
Proof.
  intros sys st l depth d st' D S. destruct (delivery_outcome _ _ _ _ _ D) as (s2 & S2 & X). rewrite S in S2. injection S2 as <-.
  destruct X as [[X _]|[(_ & e & _ & _ & X & _)|[(id & n & msg & X & _)|(n & msg & X & _)]]]; exact X.
Qed.
Print Assumptions C37_receiving_keeps.
(** C37. At any step of any history, an entry disappears only when the running callback of that very request returns,
    and appears only by a request call of user code, with the callback given there. *)
Theorem C37_entries : forall sys tr st l st' id cb, exec sys tr = Some st -> step sys st l = Some st' ->
  (pending (man st) id cb -> pending (man st') id cb \/ (l = LReturn /\ exists rest, stack st = FResp id :: rest)) /\
  (pending (man st') id cb -> pending (man st) id cb \/ (exists a, l = LCall a /\ request_callback a = Some cb /\ id = nextRequestID (man st))).
Proof.
  intros sys tr st l st' id cb H S. pose proof (exec_inv _ _ _ H) as I. apply step_effect in S. destruct S as
    [a m m' r stk lg Hc|m stk lg l stk' q L Q SF|m stk lg l stk' i n msg r depth d L D Pd R1 R2 PE SF KK
    |m stk lg l stk' n msg dpt dt L T Pd SF DT KT|m i rest lg r m' r' stk' q l L A Q SF|m om dst q stk lg s qq stk' sr O SS Q SN SF];
    cbn [man stack] in *; auto.
  - pose proof (pending_range _ id cb I) as PR. cbn [man] in PR. unfold pending in *. destruct (request_callback a) as [cb'|] eqn:R.
    + pose proof (requests_call _ _ _ _ _ _ R Hc) as X. destruct r as [v|e].
      * destruct X as (msg & remote & c & k & e & i & vbl & _ & _ & ->). cbn [callbacks]. rewrite dict_get_set. destruct (Z.eqb_spec (nextRequestID m) id) as [<-|N]; [|auto].
        split; intros P; [apply PR in P; lia|]. right. exists a. injection P as <-. auto.
      * destruct X as (_ & -> & _). auto.
    + destruct (other_call _ _ _ _ _ R Hc) as (-> & _). auto.
  - pose proof (i_nodup _ I) as ND. cbn [man] in ND. unfold pending in *.
    destruct L as [[-> ->]|(e & -> & ->)]; cbn in A; [|inversion A; subst; auto].
    destruct (dict_get (callbacks m) i); inversion A; subst; [|auto]. cbn [callbacks]. rewrite dict_get_del by assumption.
    destruct (Z.eqb_spec i id) as [->|N]; [|auto]. split; [|discriminate]. intros _. right. eauto.
Qed.
Print Assumptions C37_entries.
Example C37_example : exists st st', exec (sample FV1 Text) [LCall (sample_get 7); LCall (sample_get 8); LReceive 9 (DStr (sample_octets 0 0)) ([], 0)] = Some st /\
  step (sample FV1 Text) st LReturn = Some st' /\ pending (man st) 0 (Cb 7) /\ (forall cb, ~ pending (man st') 0 cb) /\ pending (man st') 1 (Cb 8).
Proof. eexists; eexists; split; [vm_compute; reflexivity|]. split; [vm_compute; reflexivity|]. vm_compute. repeat split; auto. discriminate. Qed.

(** C38. Any kind of answer, with any community, from any address (the label's source is arbitrary): if its id is
    that of a pending request, the request's callback runs with the decoded message. *)
Theorem C38_no_authentication : forall sys st l depth strict ver com pdu os id n, importable sys ->
  delivery sys st l depth (DStr os) -> wire strict (message_tree ver com pdu) os -> readable (imports sys) pdu ->
  (S (height pdu) <= depth)%nat -> answer_to (flav sys) ver pdu id -> pending (man st) id (Cb n) ->
  exists msg st', step sys st l = Some st' /\ callback_runs st st' (FResp id) (EInvoke id n msg) /\
    tree_of (m_version msg) = Some (TInt KInteger ver) /\ tree_of (m_community msg) = Some (TOct KOctetString com) /\ tree_of (m_data msg) = Some pdu.
Proof.
  intros sys st l depth strict ver com pdu os id n Im D W R Hd A N.
  destruct (answer_delivered _ _ _ _ _ _ _ _ _ _ Im D W R Hd A) as (msg & st' & T0 & T1 & T2 & S & X).
  unfold pending in N. rewrite N in X. exists msg, st'. auto.
Qed.
Print Assumptions C38_no_authentication.
(** C38. The answers are: for v1.SNMP in version 0, and v2.SNMP in versions 0 and 1, every PDU of request shape;
    for snmpManager these in version 0, and Response, Inform, SNMPv2 trap and Report in version 1. *)
Theorem C38_answers : forall f ver k id status index bindings,
  answer_to f ver (request_tree k id status index bindings) id <->
  (In k [KGet; KGetNext; KResponse; KSet; KInform; KTrapV2; KReport] /\ ver = 0) \/
  (In k [KGet; KGetNext; KResponse; KSet; KInform; KTrapV2; KReport] /\ f = FV2 /\ ver = 1) \/
  (In k [KResponse; KInform; KTrapV2; KReport] /\ f = FSM /\ ver = 1).
Proof.
  intros f ver k id s i bs. split.
  - intros [H _]. cbn [top_kind request_tree] in H. unfold reaction_to, plain_reaction in H. destruct (Z.eqb_spec ver 0) as [->|N0].
    + left. split; [|reflexivity]. destruct f, k; cbn in H; try discriminate H; cbn; auto 10.
    + destruct f; cbn in H; [discriminate| |]; (destruct (Z.eqb_spec ver 1) as [->|N1]; [|discriminate]).
      * right. left. destruct k; cbn in H; try discriminate H; cbn; auto 12.
      * right. right. destruct k; cbn in H; try discriminate H; cbn; auto 12.
  - intros H. split; [|eauto 6]. cbn [top_kind request_tree].
    destruct H as [[I ->]|[(I & -> & ->)|(I & -> & ->)]]; cbn in I; [destruct f| |];
    repeat (destruct I as [<-|I]; [reflexivity|]); destruct I.
Qed.
Print Assumptions C38_answers.
Example C38_example : exists st, exec (sample FV1 Text) [LCall (sample_get 7)] = Some st /\ pending (man st) 0 (Cb 7) /\
  delivery (sample FV1 Text) st (LReceive 9 (DStr (sample_octets 0 0)) ([101; 118; 105; 108], 666)) 9 (DStr (sample_octets 0 0)).
Proof. eexists; split; [vm_compute; reflexivity|]. split; [reflexivity|]. cbn. auto. Qed.

(** C39. In any history: what was queued is what was taken from the queue followed by what is still there; and what was
    handed to the socket are the encodings of what was taken, in that order, each once. *)
Theorem C39_fifo : forall sys tr st, exec sys tr = Some st ->
  puts (log st) = takes (log st) ++ outbound (man st) /\ sends (log st) = flat_map octets_of (takes (log st)).
Proof. intros sys tr st H. pose proof (exec_inv _ _ _ H) as I. split; [apply (i_fifo _ I)|apply (i_sent _ I)]. Qed.
Print Assumptions C39_fifo.
(** C39. A message that cannot be encoded or sent is taken, and ends run() by the exception. *)
Theorem C39_failure_ends_run : forall sys m rest lg r om dst q e, outbound m = (om, dst) :: q -> e <> QueueEmpty ->
  (match om with
   | None => e = AttributeError
   | Some msg => match snd (message_encode msg) with Err x => e = x | Ok _ => trans sys = Text /\ r = Err e end
   end) ->
  exists new, step sys (mkState m (FRun Sending :: rest) lg) (LSend r) =
    Some (mkState (mkMgr (nextRequestID m) q (callbacks m)) rest (lg ++ new ++ [EResult (Err e)])) /\
    takes new = [(om, dst)].
Proof.
  intros sys m rest lg r om dst q e O N F. cbn [step]. unfold send_called. rewrite O.
  assert (G : forall m0 lg0, (match e with QueueEmpty => loop_empty sys m0 rest lg0 | _ => run_raises m0 e rest lg0 end) = run_raises m0 e rest lg0) by (intros; destruct e; congruence).
  destruct om as [msg|].
  - destruct (snd (message_encode msg)) as [os|x].
    + destruct F as [-> ->]. cbn [sendto]. rewrite G. exists [ETake (Some msg) dst; ESend os dst (Err e)]. unfold run_raises. rewrite <- !app_assoc. split; reflexivity.
    + subst. rewrite G. exists [ETake (Some msg) dst]. unfold run_raises. rewrite <- !app_assoc. split; reflexivity.
  - subst. exists [ETake None dst]. unfold run_raises. rewrite <- !app_assoc. split; reflexivity.
Qed.
Print Assumptions C39_failure_ends_run.
(** C39. run() does send everything: with a socket that takes text, and if each queued message can be encoded, running the
    loop while nothing else happens empties the queue, sends exactly the queued messages in order, and is still running. *)
Theorem C39_drains : forall sys m rest lg, trans sys = Text -> Forall sendable (outbound m) ->
  exists tr st', steps sys (mkState m (FRun (match flav sys with FSM => Polling | _ => Sending end) :: rest) lg) tr = Some st' /\
    Forall (fun l => l = LPoll Nothing \/ l = LSend (Ok tt)) tr /\
    man st' = mkMgr (nextRequestID m) [] (callbacks m) /\
    stack st' = FRun (match flav sys with FSM => Polling | _ => Sending end) :: rest /\
    sends (log st') = sends lg ++ flat_map octets_of (outbound m).
Proof.
  intros sys m rest lg T F. destruct (flav sys) eqn:E.
  - destruct (drain_v sys rest) with (q := outbound m) (m := m) (lg := lg) as (st' & A & B & C & D); auto; [congruence|].
    eexists; exists st'. split; [exact A|]. split; [|auto]. apply Forall_forall. intros x I. apply repeat_spec in I. auto.
  - destruct (drain_v sys rest) with (q := outbound m) (m := m) (lg := lg) as (st' & A & B & C & D); auto; [congruence|].
    eexists; exists st'. split; [exact A|]. split; [|auto]. apply Forall_forall. intros x I. apply repeat_spec in I. auto.
  - destruct (drain_sm sys rest) with (q := outbound m) (m := m) (lg := lg) as (st' & A & B & C & D); auto.
    eexists; exists st'. split; [exact A|]. split; [|auto]. apply Forall_forall. intros x I. apply in_flat_map in I as (y & _ & [<-|[<-|[]]]); auto.
Qed.
Print Assumptions C39_drains.
Example C39_example : exists st, exec (sample FV1 Text) [LCall (sample_get 7); LCall (sample_get 8)] = Some st /\
  length (outbound (man st)) = 2%nat /\ Forall sendable (outbound (man st)).
Proof.
  eexists; split; [vm_compute; reflexivity|]. split; [reflexivity|]. cbn [man outbound].
  repeat constructor; eexists; eexists; (split; [reflexivity|vm_compute; reflexivity]).
Qed.

(** C40. With a Python 3 socket: every datagram polled is bytes, and rejected: TypeError from v1 and snmpManager,
    swallowed by v2; no callback runs. *)
Theorem C40_datagram_rejected : forall sys st depth s src, trans sys = Real -> poll_ready st ->
  exists st', step sys st (LPoll (Datagram depth s src)) = Some st' /\
    came_back st st' (match flav sys with FV2 => Ok tt | _ => Err TypeError end).
Proof.
  intros sys st depth s src T P.
  destruct (undecodable_outcome sys st (LPoll (Datagram depth s src)) depth (DBytes s) TypeError) as (st' & S & C).
  - cbn. rewrite T. auto.
  - reflexivity.
  - exists st'. split; [exact S|]. unfold outcome in C. destruct (flav sys); exact C.
Qed.
Print Assumptions C40_datagram_rejected.
(** C40. Every message taken from the queue and encoded makes run() raise TypeError. *)
Theorem C40_send_fails : forall sys m rest lg r msg dst q os, trans sys = Real ->
  outbound m = (Some msg, dst) :: q -> snd (message_encode msg) = Ok os ->
  step sys (mkState m (FRun Sending :: rest) lg) (LSend r) =
    Some (mkState (mkMgr (nextRequestID m) q (callbacks m)) rest (lg ++ [ETake (Some msg) dst; ESend os dst (Err TypeError); EResult (Err TypeError)])).
Proof.
  intros sys m rest lg r msg dst q os T O E. cbn [step]. unfold send_called. rewrite O, E, T. cbn [sendto]. unfold run_raises. rewrite <- !app_assoc. reflexivity.
Qed.
Print Assumptions C40_send_fails.
(** C40. So over any history nothing is ever transmitted, and unless user code itself hands text to receiveData, no
    response or trap callback is ever called. *)
Theorem C40_nothing_transmitted : forall sys tr st os dst r, trans sys = Real -> exec sys tr = Some st ->
  In (ESend os dst r) (log st) -> r = Err TypeError.
Proof.
  intros sys tr st os dst r T H I. apply in_split in I as (l1 & l2 & L).
  destruct (steps_event _ _ _ _ _ _ H L) as (tr1 & lb & tr2 & st1 & st2 & n1 & n2 & -> & E1 & S & E2 & L2 & _).
  pose proof S as S'. apply step_effect in S. destruct S as
    [a' m m' r' stk lg Hc|m stk lg l stk' q NL Q SF|m stk lg l stk' i n' msg' r' depth d NL D Pd R1 R2 PE SF KK
    |m stk lg l stk' n' msg' dpt dt NL T' Pd SF DT KT|m i rest lg r' m' r'' stk' q l NL A Q SF|m om dst' q stk lg s qq stk' sr O SS Q SN SF];
    cbn [man log] in *; apply app_inv_head in L2.
  - exfalso. destruct n1 as [|? n1]; [discriminate L2|]. cbn [app] in L2. injection L2 as _ L2. revert L2. apply not_puts. discriminate.
  - exfalso. apply in_quiet in L2; [exact L2|exact Q].
  - exfalso. destruct n1 as [|? [|]]; discriminate L2.
  - exfalso. destruct n1 as [|? [|]]; discriminate L2.
  - exfalso. destruct n1 as [|? n1]; [discriminate L2|]. cbn [app] in L2. injection L2 as _ L2. apply in_quiet in L2; [exact L2|exact Q].
  - destruct stk as [|[| | | |[|]] rest]; try discriminate S'. cbn [step] in S'. unfold send_called in S'. rewrite O, T in S'. cbn [sendto] in S'.
    destruct (match om with None => _ | _ => _ end) as [os'|e]; apply (f_equal (option_map log)) in S'; unfold option_map, run_raises in S'; cbn [log] in S'; apply (f_equal (fun o => match o with Some x => x | None => [] end)) in S'; cbv beta iota in S'.
    + rewrite <- !app_assoc in S'. apply app_inv_head in S'. cbn [app] in S'. rewrite <- S' in L2.
      destruct n1 as [|? [|? [|? n1]]]; cbn [app] in L2; try discriminate L2; [injection L2 as _ _ _ L2 _; symmetry; exact L2|exfalso; apply (f_equal (@length _)) in L2; cbn in L2; rewrite app_length in L2; cbn in L2; lia].
    + exfalso. assert (X : exists qq', ETake om dst' :: s ++ qq = ETake om dst' :: qq' /\ Forall quiet qq').
      { destruct SS as [->|(? & ? & ->)]; [eauto|]. cbn [sends flat_map app] in SN. exfalso.
        destruct om as [msg|]; cbn in SN; [|discriminate]. destruct e; cbn in S'. all: try (rewrite <- !app_assoc in S'; apply app_inv_head in S'; discriminate S').
        destruct (loop_empty_quiet sys (mkMgr (nextRequestID m) q (callbacks m)) rest (lg ++ [ETake (Some msg) dst'])) as (q2 & s2 & E & Q2 & _). rewrite E in S'. cbn [log] in S'.
        rewrite <- !app_assoc in S'. apply app_inv_head in S'. cbn [app] in S'. injection S' as S'. subst q2. inversion Q2; contradiction. }
      destruct X as (qq' & X & Q'). rewrite X in L2. destruct n1 as [|? n1]; [discriminate L2|]. cbn [app] in L2. injection L2 as _ L2. apply in_quiet in L2; [exact L2|exact Q'].
Qed.
Print Assumptions C40_nothing_transmitted.
Theorem C40_no_callbacks : forall sys tr st, trans sys = Real -> exec sys tr = Some st ->
  (forall depth s src, ~ In (LReceive depth (DStr s) src) tr) -> Forall (fun e => is_invocation e = false) (log st).
Proof.
  intros sys tr st T H N. apply Forall_forall. intros e I. apply in_split in I as (l1 & l2 & L).
  assert (X : forall tr1 l tr2 st1 depth d msg, tr = tr1 ++ l :: tr2 -> delivery sys st1 l depth d ->
    message_decode (reg_of (imports sys)) depth (message_class (flav sys)) d = Ok msg -> False).
  { intros tr1 l tr2 st1 depth d msg -> D E. destruct l as [a|depth' d' src|i| |r| |x]; cbn in D; try contradiction.
    - destruct D as (-> & -> & _). destruct d as [s|s]; [|discriminate E]. apply (N depth s src). apply in_elt.
    - destruct i as [|depth' s src|x]; try contradiction. destruct D as (-> & -> & _). rewrite T in E. discriminate E. }
  destruct e; try reflexivity; exfalso.
  - destruct (invoke_event _ _ _ _ _ _ _ _ H L) as (tr1 & l & tr2 & st1 & depth & d & A & _ & _ & D & E & _). eapply X; eauto.
  - destruct (trap_event _ _ _ _ _ _ _ H L) as (_ & _ & tr1 & l & tr2 & st1 & depth & d & A & _ & _ & D & E & _). eapply X; eauto.
Qed.
Print Assumptions C40_no_callbacks.
Example C40_example : exists st, exec (sample FSM Real) [LCall (sample_get 7); LRun; LPoll Nothing; LSend (Ok tt)] = Some st /\
  stack st = [] /\ In (EResult (Err TypeError)) (log st).
Proof. eexists; split; [vm_compute; reflexivity|]. split; [reflexivity|]. cbn. auto 9. Qed.

(** C41. v2.SNMP.receiveData on any data, text or bytes, in any state: it returns normally, or a callback runs ... *)
Theorem C41_v2_never_raises : forall sys st l depth d, flav sys = FV2 -> delivery sys st l depth d ->
  exists st', step sys st l = Some st' /\
    (came_back st st' (Ok tt) \/ exists f e, callback_runs st st' f e /\ is_invocation e = true).
Proof.
  intros sys st l depth d F D. destruct (delivery_outcome _ _ _ _ _ D) as (st' & S & X). exists st'. split; [exact S|].
  destruct X as [X|[(N & _)|[(id & n & msg & X)|(n & msg & X)]]]; [auto|contradiction| |]; right; eauto.
Qed.
Print Assumptions C41_v2_never_raises.
(** C41. ... and when that callback returns, or raises anything but SystemExit (which is not an Exception), receiveData
    returns normally. *)
Theorem C41_v2_callbacks : forall sys tr st f below l st', flav sys = FV2 -> exec sys tr = Some st -> stack st = f :: below ->
  (f = FTrap \/ exists id, f = FResp id) -> (l = LReturn \/ exists e, l = LRaise e /\ e <> SystemExit) ->
  step sys st l = Some st' -> exists finished, receive_over (man st') below (log st ++ finished) st' (Ok tt).
Proof.
  intros sys tr st f below l st' V H SK F L S. pose proof (callback_finishes _ _ _ _ _ _ _ H SK F S) as X. destruct L as [->|(e & -> & N)].
  - destruct X as (r & X & [->|(-> & C & _)]); [eauto|contradiction].
  - rewrite guard_outcome, V in X by exact N. specialize (X ltac:(discriminate)).
    destruct X as [X Y]. eexists. split; [reflexivity|exact Y].
Qed.
Print Assumptions C41_v2_callbacks.
(** C41. v1.SNMP and snmpManager: the exceptions of a callback escape to the caller of receiveData, and from run() ... *)
Theorem C41_others_raise : forall sys tr st f below e st', flav sys <> FV2 -> exec sys tr = Some st -> stack st = f :: below ->
  (f = FTrap \/ exists id, f = FResp id) -> e <> QueueEmpty ->
  step sys st (LRaise e) = Some st' -> exists finished, receive_over (man st) below (log st ++ finished) st' (Err e).
Proof.
  intros sys tr st f below e st' V H SK F N S. pose proof (callback_finishes _ _ _ _ _ _ _ H SK F S) as X. cbn iota in X.
  replace (guard (flav sys) (Err e)) with (@Err unit e) in X by (destruct (flav sys); [reflexivity|contradiction|reflexivity]).
  eexists. apply X. congruence.
Qed.
Print Assumptions C41_others_raise.
(** C41. ... as do those of undecodable data. *)
Theorem C41_undecodable : forall sys st l depth d e, delivery sys st l depth d ->
  message_decode (reg_of (imports sys)) depth (message_class (flav sys)) d = Err e ->
  exists st', step sys st l = Some st' /\ came_back st st' (match flav sys with FV2 => Ok tt | _ => Err e end).
Proof.
  intros sys st l depth d e D E. destruct (undecodable_outcome _ _ _ _ _ _ D E) as (st' & S & C). exists st'. split; [exact S|].
  unfold outcome in C. destruct (flav sys); exact C.
Qed.
Print Assumptions C41_undecodable.
(** C41. It is false that nothing at all escapes from v2.SNMP.receiveData: a callback calling sys.exit() ends the program. *)
Theorem C41_exit_refuted : exists tr st, exec (sample FV2 Text) tr = Some st /\ In (EResult (Err SystemExit)) (log st).
Proof.
  exists [LCall (AGet (VPyList [VPyStr [49; 46; 51]]) ([], 161) (Cb 7) (VPyStr [112]) 1); LReceive 9 (DStr (sample_octets 1 0)) ([], 0); LRaise SystemExit].
  eexists; split; [vm_compute; reflexivity|]. cbn. auto 10.
Qed.
Print Assumptions C41_exit_refuted.
Example C41_example : delivery (sample FV2 Text) init (LReceive 9 (DBytes [48; 0]) ([], 0)) 9 (DBytes [48; 0]) /\
  exists st, exec (sample FV2 Text) [LReceive 9 (DStr [48]) ([], 0); LReceive 9 (DBytes []) ([], 0)] = Some st /\ log st = [EResult (Ok tt); EResult (Ok tt)].
Proof. split; [cbn; auto|]. eexists; split; vm_compute; reflexivity. Qed.

(** C42. A call that raises leaves queue and table as they were; at most one id is lost. *)
Theorem C42_failed_call : forall f a m m' e, do_call f a m = (m', Err e) ->
  outbound m' = outbound m /\ callbacks m' = callbacks m /\
  (nextRequestID m' = nextRequestID m \/ nextRequestID m' = nextRequestID m + 1).
Proof.
  intros f a m m' e H. destruct (request_callback a) as [cb|] eqn:R.
  - exact (requests_call _ _ _ _ _ _ R H).
  - destruct (other_call _ _ _ _ _ R H) as (A & B & [C|(C & _)]); [auto|discriminate].
Qed.
Print Assumptions C42_failed_call.
Example C42_example : do_call FV2 (ASetBindings (VPyList []) ([], 161) (Cb 1) (VPyStr [])) mgr0 = (mkMgr 1 [] [], Err AttributeError) /\
  do_call FV1 (AGet (VPyStr [120]) ([], 161) (Cb 1) (VPyStr []) 1) mgr0 = (mgr0, Err ValueError).
Proof. split; vm_compute; reflexivity. Qed.
