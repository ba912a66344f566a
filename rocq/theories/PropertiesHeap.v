(** * Theorems about shared objects: what is sent when user code changes objects it handed over or got back (C73), what is deleted when a
    callback changes the message it was given, and what changing a request id does (C74), default arguments (C75). *)
From Coq Require Import ZArith List Bool Lia.
From Verif Require Import PyBase Classes Values Codec Manager Heap SpecHeap ProofsHeap ProofsHeapKeep ProofsHeapCall ProofsHeapRun ProofsHeapMake
  ProofsHeapFixed ProofsHeapRecv ProofsHeapEnd ProofsHeapBack ProofsHeapMore ProofsHeapNames.
Import ListNotations.
Open Scope Z_scope.

(** ** Samples *)
Definition hsys (f : flavour) : system := mkSys f Upto1905 None (Some (Cb 9)) Text.
Definition h136 : item := IStr [49; 46; 51; 46; 54].
Definition hget (n : nat) : hcall := HGet h136 ([], 161) (Cb n) (IStr [112]) 1.     (* snmpGet("1.3.6", ("", 161), callback n, "p") *)
Definition answer_octets (id : Z) : list Z :=
  [48; 28; 2; 1; 0; 4; 1; 112; 162; 20; 2; 1; id; 2; 1; 0; 2; 1; 0; 48; 9; 48; 7; 6; 2; 43; 6; 2; 1; 5].
(** o = ObjectID("1.3.6"); n = Null(); vb = VarBind(o, n); l = [vb] *)
Definition bindings_made : list glabel :=
  [UCall (HNewObjectID h136); UNew (PObj CNull []); UCall (HNewVarBind CVarBind (IRef 6%nat) (IRef 7%nat)); UNew (PList [IRef 9%nat])].
Definition s_bindings : hstate := Eval vm_compute in match gexec (hsys FV1) bindings_made with Some s => s | None => h_init end.
Lemma s_bindings_run : gexec (hsys FV1) bindings_made = Some s_bindings. Proof. vm_compute. reflexivity. Qed.
Definition v_binding : val := VSeq CVarBind [VOid (Some [1; 3; 6]); VNull CNull].
Lemma s_bindings_now : all_now (hp s_bindings) [IRef 9%nat] [v_binding].
Proof.
  constructor; [|constructor]. eapply st_seq; [exact Logic.I|reflexivity|reflexivity|reflexivity|exact Logic.I|reflexivity|].
  constructor; [|constructor; [|constructor]].
  - eapply st_arcs; [exact Logic.I|reflexivity|reflexivity|reflexivity|exact Logic.I|reflexivity].
  - eapply st_null; [exact Logic.I|reflexivity|reflexivity].
Qed.
Definition tr_two : list glabel := [UCall (hget 7); UCall (hget 8)].

(** ** C73: what is sent *)
(** C73. snmpGet.  After any history, let the call snmpGet(oid, ...) be one that queues message [msg] when computed from the value [oid] has at
    the call.  It returns a new object [r], and it puts a new object [m] on the outbound queue.  Whatever happens from then on - user code makes, reads
    and changes any objects it knows (among them [oid] and its parts), calls methods, is called back, messages come and go - as long as user code does
    not change the returned object [r], the octets [m] is sent as, if it is ever sent, are those of [msg], and they go to [dst]. *)
Theorem C73_get_fixed : forall sys tr0 s oid ov dst cb com ver msg, gexec sys tr0 = Some s -> has s oid -> now (hp s) oid ov -> plain ov ->
  queues (flav sys) (h_next s) (AGet ov dst cb (VPyStr com) ver) msg dst ->
  exists s1 m r, request_made sys s (HGet oid dst cb (IStr com) ver) dst s1 m r /\
    forall tr s2 o d, gsteps sys s1 tr = Some s2 -> never_written r tr -> In (GSent (IRef m) o d) (h_log s2) ->
      d = dst /\ exists tr1 fuel tr2, tr = tr1 ++ LSend fuel :: tr2 /\ sent_as msg fuel o.
Proof. intros sys tr0 s oid ov dst cb com ver msg E. apply get_sent. eapply good_exec. exact E. Qed.
Print Assumptions C73_get_fixed.
Example C73_get_fixed_example : exists s msg, gexec (hsys FV1) bindings_made = Some s /\ has s (IRef 6%nat) /\ now (hp s) (IRef 6%nat) (VOid (Some [1; 3; 6])) /\
  plain (VOid (Some [1; 3; 6])) /\ queues FV1 (h_next s) (AGet (VOid (Some [1; 3; 6])) ([], 161) (Cb 7) (VPyStr [112]) 1) msg ([], 161) /\
  exists s2, gexec (hsys FV1) (bindings_made ++ [UCall (HGet (IRef 6%nat) ([], 161) (Cb 7) (IStr [112]) 1); URead 6%nat; UWrite 5%nat (PList [IInt 1; IInt 3; IInt 7]); LSend 30]) = Some s2 /\
    exists o, octets_of msg = Ok o /\ In (GSent (IRef 29%nat) (Ok o) ([], 161)) (h_log s2).
Proof.
  eexists. eexists. split; [exact s_bindings_run|]. split; [intros l [<-|[]]; cbn; auto|]. split; [eapply st_arcs; [exact Logic.I|reflexivity|reflexivity|reflexivity|exact Logic.I|reflexivity]|].
  split; [exact Logic.I|]. split; [eexists; eexists; split; vm_compute; reflexivity|]. eexists. split; [vm_compute; reflexivity|]. eexists. split; [vm_compute; reflexivity|]. vm_compute. auto 10.
Qed.
(** C73. snmpManager.snmpSet(oid, type, value, ...), the same: with a value that is used up by the call (a number, str or None, or anything for an
    OBJECT IDENTIFIER) what is sent was fixed at the call. *)
Theorem C73_set_fixed : forall sys tr0 s oid ov ty value v dst cb com ver msg, gexec sys tr0 = Some s -> has s oid -> has s value ->
  now (hp s) oid ov -> now (hp s) value v -> copied ty value -> queues (flav sys) (h_next s) (ASetTyped ov ty v dst cb (VPyStr com) ver) msg dst ->
  exists s1 m r, request_made sys s (HSetTyped oid ty value dst cb (IStr com) ver) dst s1 m r /\
    forall tr s2 o d, gsteps sys s1 tr = Some s2 -> never_written r tr -> In (GSent (IRef m) o d) (h_log s2) ->
      d = dst /\ exists tr1 fuel tr2, tr = tr1 ++ LSend fuel :: tr2 /\ sent_as msg fuel o.
Proof. intros sys tr0 s oid ov ty value v dst cb com ver msg E. apply set_sent. eapply good_exec. exact E. Qed.
Print Assumptions C73_set_fixed.
Example C73_set_fixed_example : copied 4 (IStr [104; 105]) /\ copied 2 (IInt 5) /\ copied 6 (IRef 3%nat) /\ ~ copied 48 (IRef 3%nat) /\
  exists msg, queues FSM 0 (ASetTyped (VPyStr [49; 46; 51; 46; 54]) 4 (VPyStr [104; 105]) ([], 161) (Cb 7) (VPyStr [112]) 1) msg ([], 161).
Proof.
  split; [left; split; reflexivity|]. split; [left; split; reflexivity|]. split; [right; reflexivity|]. split; [intros [[X _]|X]; discriminate X|].
  eexists. eexists. eexists. split; vm_compute; reflexivity.
Qed.
(** C73. snmpGetNext (v1, snmpManager): the list of bindings is copied at the call - [vbs] are the objects in it then - but the VarBind objects in it are
    not.  The octets sent are those of the request with the values these objects have when the message is sent: changes to them made after the call and
    before the sending are sent, and changes to the list are not. *)
Theorem C73_getnext_shares_varbinds : forall sys tr0 s vbl vbs vals0 dst cb com ver msg0, gexec sys tr0 = Some s -> has s vbl -> holds (hp s) vbl vbs ->
  all_now (hp s) (map IRef vbs) vals0 -> queues (flav sys) (h_next s) (AGetNext (VPyList vals0) dst cb (VPyStr com) ver) msg0 dst ->
  exists s1 m r, request_made sys s (HGetNext vbl dst cb (IStr com) ver) dst s1 m r /\
    forall tr s2 o d, gsteps sys s1 tr = Some s2 -> never_written r tr -> In (GSent (IRef m) o d) (h_log s2) ->
      d = dst /\ exists tr1 fuel tr2 sa, tr = tr1 ++ LSend fuel :: tr2 /\ gsteps sys s1 tr1 = Some sa /\
        forall vals msg, all_now (hp sa) (map IRef vbs) vals -> queues (flav sys) (h_next s) (AGetNext (VPyList vals) dst cb (VPyStr com) ver) msg dst -> sent_as msg fuel o.
Proof. intros sys tr0 s vbl vbs vals0 dst cb com ver msg0 E. apply getnext_sent. eapply good_exec. exact E. Qed.
Print Assumptions C73_getnext_shares_varbinds.
(** The binding is changed after the call and before the sending, and the list emptied: what is sent asks for 1.3.7. *)
Example C73_getnext_example : exists s msg0, gexec (hsys FV1) bindings_made = Some s /\ has s (IRef 10%nat) /\ holds (hp s) (IRef 10%nat) [9%nat] /\ all_now (hp s) (map IRef [9%nat]) [v_binding] /\
  queues FV1 (h_next s) (AGetNext (VPyList [v_binding]) ([], 161) (Cb 7) (VPyStr [112]) 1) msg0 ([], 161) /\
  exists s2, gexec (hsys FV1) (bindings_made ++ [UCall (HGetNext (IRef 10%nat) ([], 161) (Cb 7) (IStr [112]) 1); UWrite 10%nat (PList []); URead 6%nat; UWrite 5%nat (PList [IInt 1; IInt 3; IInt 7]); LSend 30]) = Some s2 /\
    exists o msg, In (GSent (IRef 21%nat) (Ok o) ([], 161)) (h_log s2) /\ octets_of msg0 <> Ok o /\ octets_of msg = Ok o /\
      queues FV1 (h_next s) (AGetNext (VPyList [VSeq CVarBind [VOid (Some [1; 3; 7]); VNull CNull]]) ([], 161) (Cb 7) (VPyStr [112]) 1) msg ([], 161).
Proof.
  eexists. eexists. split; [exact s_bindings_run|]. split; [intros l [<-|[]]; cbn; auto|].
  split. { split; [exists 10%nat; split; [reflexivity|left; reflexivity]|]. intros x [<-|[]]. eexists. eexists. split; [reflexivity|left; reflexivity]. }
  split; [exact s_bindings_now|]. split; [eexists; eexists; split; vm_compute; reflexivity|]. eexists. split; [vm_compute; reflexivity|]. eexists. eexists.
  split; [vm_compute; right; right; right; right; left; reflexivity|]. split; [vm_compute; discriminate|].
  split; [|eexists; eexists; split; vm_compute; reflexivity]. vm_compute. reflexivity.
Qed.
(** C73. v1.snmpSet, the same. *)
Theorem C73_v1_set_shares_varbinds : forall sys tr0 s vbl vbs vals0 dst cb com msg0, gexec sys tr0 = Some s -> has s vbl -> holds (hp s) vbl vbs ->
  all_now (hp s) (map IRef vbs) vals0 -> queues (flav sys) (h_next s) (ASetBindings (VPyList vals0) dst cb (VPyStr com)) msg0 dst ->
  exists s1 m r, request_made sys s (HSetBindings vbl dst cb (IStr com)) dst s1 m r /\
    forall tr s2 o d, gsteps sys s1 tr = Some s2 -> never_written r tr -> In (GSent (IRef m) o d) (h_log s2) ->
      d = dst /\ exists tr1 fuel tr2 sa, tr = tr1 ++ LSend fuel :: tr2 /\ gsteps sys s1 tr1 = Some sa /\
        forall vals msg, all_now (hp sa) (map IRef vbs) vals -> queues (flav sys) (h_next s) (ASetBindings (VPyList vals) dst cb (VPyStr com)) msg dst -> sent_as msg fuel o.
Proof. intros sys tr0 s vbl vbs vals0 dst cb com msg0 E. apply setbindings_sent. eapply good_exec. exact E. Qed.
Print Assumptions C73_v1_set_shares_varbinds.
Example C73_v1_set_example : exists msg0, queues FV1 (h_next s_bindings) (ASetBindings (VPyList [v_binding]) ([], 161) (Cb 7) (VPyStr [112])) msg0 ([], 161).
Proof. eexists. eexists. eexists. split; vm_compute; reflexivity. Qed.
(** C73. snmpTrap (v1, v2): the PDU put into the message is the very object handed over: what is sent is what that object is when it is sent. *)
Theorem C73_trap_shared : forall sys tr0 s pdu dst com ver, gexec sys tr0 = Some s -> has s pdu -> flav sys <> FSM ->
  exists s1 m, gstep sys s (UCall (HTrap dst pdu (IStr com) ver)) = Some s1 /\ (length (hp s) <= m < length (hp s1))%nat /\ h_out s1 = h_out s ++ [(IRef m, dst)] /\
    h_log s1 = h_log s ++ [GQueued (IRef m) dst; GReturned (Ok INone)] /\
    forall tr s2 o d, gsteps sys s1 tr = Some s2 -> In (GSent (IRef m) o d) (h_log s2) ->
      d = dst /\ exists tr1 fuel tr2 sa, tr = tr1 ++ LSend fuel :: tr2 /\ gsteps sys s1 tr1 = Some sa /\
        forall v msg, now (hp sa) pdu v -> queues (flav sys) (h_next s) (ATrap dst v (VPyStr com) ver) msg dst -> sent_as msg fuel o.
Proof. intros sys tr0 s pdu dst com ver E. apply trap_sent. eapply good_exec. exact E. Qed.
Print Assumptions C73_trap_shared.
Example C73_trap_example : has s_bindings (IRef 9%nat) /\ now (hp s_bindings) (IRef 9%nat) v_binding /\
  (exists msg, queues FV1 0 (ATrap ([], 162) v_binding (VPyStr [112]) 1) msg ([], 162)) /\
  exists s2 o, gexec (hsys FV1) (bindings_made ++ [UCall (HTrap ([], 162) (IRef 9%nat) (IStr [112]) 1); LSend 30]) = Some s2 /\ In (GSent (IRef 14%nat) (Ok o) ([], 162)) (h_log s2).
Proof.
  split; [intros l [<-|[]]; cbn; auto|]. split; [pose proof s_bindings_now as X; inversion X; assumption|]. split; [eexists; eexists; eexists; split; vm_compute; reflexivity|].
  eexists. eexists. split; [vm_compute; reflexivity|]. vm_compute. auto 10.
Qed.
(** C73. A message is encoded when it is taken from the queue, not before: the octets are those of the value the message object has then, and if it is a
    message object with a value at all, and Python allows enough recursion, they are exactly what encode() gives for that value. *)
Theorem C73_encoded_when_sent : forall sys tr0 s s' fuel, gexec sys tr0 = Some s -> gstep sys s (LSend fuel) = Some s' ->
  exists m dst o, h_out s = (m, dst) :: h_out s' /\ h_log s' = h_log s ++ [GSent m o dst] /\
    (forall os, o = Ok os -> exists v, now (hp s') m v /\ encode v = Ok os) /\
    (forall n c d, m = IRef n -> nth_error (hp s) n = Some (PObj c d) -> kind_of c = KMsg -> forall v, now (hp s) m v -> now (hp s') m v /\ ((vsize v <= fuel)%nat -> o = encode v)).
Proof. intros sys tr0 s s' fuel _. apply send_current. Qed.
Print Assumptions C73_encoded_when_sent.
Example C73_encoded_example : exists s s', gexec (hsys FV1) tr_two = Some s /\ gstep (hsys FV1) s (LSend 30) = Some s' /\ h_out s = (IRef 23%nat, ([], 161)) :: h_out s'.
Proof. eexists. eexists. split; [vm_compute; reflexivity|]. split; vm_compute; reflexivity. Qed.
(** C73. The library changes no existing object, whatever it is asked to do, with two exceptions: append() changes the list of the object it is called
    on, and sending replaces the .value of the message object sent. *)
Theorem C73_calls_change_nothing : forall sys tr0 s l s' x c, gexec sys tr0 = Some s -> gstep sys s l = Some s' ->
  (forall y d, l <> UWrite y d) -> (forall v y, l <> UCall (HAppend v y)) -> nth_error (hp s) x = Some c ->
  nth_error (hp s') x = Some c \/ exists fuel dst q, l = LSend fuel /\ h_out s = (IRef x, dst) :: q.
Proof. intros sys tr0 s l s' x c E. apply library_step. eapply good_exec. exact E. Qed.
Print Assumptions C73_calls_change_nothing.
Theorem C73_append_changes_the_list : forall sys tr0 s v y s' x c, gexec sys tr0 = Some s -> gstep sys s (UCall (HAppend v y)) = Some s' -> nth_error (hp s) x = Some c ->
  nth_error (hp s') x = Some c \/ exists l, attr_of (hp s) v Avalue = Ok (IRef x) /\ c = PList l /\ nth_error (hp s') x = Some (PList (l ++ [y])).
Proof. intros sys tr0 s v y s' x c _. apply append_step. Qed.
Print Assumptions C73_append_changes_the_list.
(** VarBindList([vb]).append(vb): the list handed to the constructor stays as it was, the list's own one grows. *)
Example C73_append_example : exists s', gexec (hsys FV1) (bindings_made ++ [UCall (HNewVarBindList false (Some (IRef 10%nat))); UCall (HAppend (IRef 12%nat) (IRef 9%nat))]) = Some s' /\
  nth_error (hp s') 10 = Some (PList [IRef 9%nat]) /\ nth_error (hp s') 11 = Some (PList [IRef 9%nat; IRef 9%nat]).
Proof. eexists. split; [vm_compute; reflexivity|]. split; reflexivity. Qed.
(** C73. What constructors share and what they copy.  VarBind(name, value) and TrapPDU(...) hold the very objects passed. *)
Theorem C73_varbind_shares : forall sys tr s c n v s' p, gexec sys tr = Some s -> gstep sys s (UCall (HNewVarBind c n v)) = Some s' -> h_log s' = h_log s ++ [GReturned (Ok (IRef p))] ->
  (length (hp s) <= p)%nat /\ attr_of (hp s') (IRef p) AobjectID = Ok n /\ attr_of (hp s') (IRef p) AobjectValue = Ok v /\
  exists l, attr_of (hp s') (IRef p) Avalue = Ok (IRef l) /\ (length (hp s) <= l)%nat /\ nth_error (hp s') l = Some (PList [n; v]).
Proof. intros sys tr s c n v s' p _. apply varbind_shares. Qed.
Print Assumptions C73_varbind_shares.
Theorem C73_trappdu_shares : forall sys tr s e a g sp t v s' p, gexec sys tr = Some s -> gstep sys s (UCall (HNewTrapPDU e a g sp t v)) = Some s' -> h_log s' = h_log s ++ [GReturned (Ok (IRef p))] ->
  (length (hp s) <= p)%nat /\ attr_of (hp s') (IRef p) Aenterprise = Ok e /\ attr_of (hp s') (IRef p) AagentAddr = Ok a /\ attr_of (hp s') (IRef p) AgenericTrap = Ok g /\
  attr_of (hp s') (IRef p) AspecificTrap = Ok sp /\ attr_of (hp s') (IRef p) Atimestamp = Ok t /\ attr_of (hp s') (IRef p) AvarBindList = Ok v /\
  exists l, attr_of (hp s') (IRef p) Avalue = Ok (IRef l) /\ (length (hp s) <= l)%nat /\ nth_error (hp s') l = Some (PList [e; a; g; sp; t; v]).
Proof. intros sys tr s e a g sp t v s' p _. apply trap_shares. Qed.
Print Assumptions C73_trappdu_shares.
(** VarBindList(x) has a list of its own, with the objects [x] holds now; ObjectID(x) has a list of its own, with the arcs of [x]. *)
Theorem C73_varbindlist_copies : forall sys tr s two v s' p, gexec sys tr = Some s -> gstep sys s (UCall (HNewVarBindList two (Some v))) = Some s' -> h_log s' = h_log s ++ [GReturned (Ok (IRef p))] ->
  (length (hp s) <= p)%nat /\ exists l is, attr_of (hp s') (IRef p) Avalue = Ok (IRef l) /\ (length (hp s) <= l)%nat /\ nth_error (hp s') l = Some (PList is) /\
    (h_truthy (hp s) v = Ok false /\ is = [] \/ h_truthy (hp s) v = Ok true /\ elems (hp s) v = Ok is).
Proof. intros sys tr s two v s' p _. apply list_copies. Qed.
Print Assumptions C73_varbindlist_copies.
Theorem C73_objectid_copies : forall sys tr s v s' p, gexec sys tr = Some s -> gstep sys s (UCall (HNewObjectID v)) = Some s' -> h_log s' = h_log s ++ [GReturned (Ok (IRef p))] ->
  (length (hp s) <= p)%nat /\ ((v = INone /\ attr_of (hp s') (IRef p) Avalue = Ok INone) \/
   exists l is, attr_of (hp s') (IRef p) Avalue = Ok (IRef l) /\ (length (hp s) <= l)%nat /\ nth_error (hp s') l = Some (PList is) /\
     forall q, v = IRef q -> nth_error (hp s) q = Some (PList is) \/ exists a, attr_of (hp s) v Avalue = Ok (IRef a) /\ nth_error (hp s) a = Some (PList is)).
Proof. intros sys tr s v s' p _. apply objectid_copies. Qed.
Print Assumptions C73_objectid_copies.
Example C73_constructors_example : exists s1 s2 s3 p1 p2 p3, 
  gstep (hsys FV1) s_bindings (UCall (HNewVarBind CVarBind (IRef 6%nat) (IRef 7%nat))) = Some s1 /\ h_log s1 = h_log s_bindings ++ [GReturned (Ok (IRef p1))] /\
  gstep (hsys FV1) s_bindings (UCall (HNewVarBindList true (Some (IRef 10%nat)))) = Some s2 /\ h_log s2 = h_log s_bindings ++ [GReturned (Ok (IRef p2))] /\
  gstep (hsys FV1) s_bindings (UCall (HNewObjectID (IRef 6%nat))) = Some s3 /\ h_log s3 = h_log s_bindings ++ [GReturned (Ok (IRef p3))].
Proof. do 6 eexists. repeat (split; [vm_compute; reflexivity|]). vm_compute. reflexivity. Qed.
(** append() of something that is not a VarBind raises ValueError and changes nothing. *)
Theorem C73_append_refuses : forall sys tr s v x s', gexec sys tr = Some s -> is_a (hp s) x CVarBind = false -> gstep sys s (UCall (HAppend v x)) = Some s' ->
  hp s' = hp s /\ h_log s' = h_log s ++ [GReturned (Err ValueError)].
Proof. intros sys tr s v x s' _. apply append_refused. Qed.
Print Assumptions C73_append_refuses.
(** C73. The condition on the returned id is needed: snmpGet returns the very object inside the queued message, and changing it changes the request id
    that is sent (here from 0 to 5). *)
Theorem C73_returned_id_shared_refuted : exists s s1 s2 r o1 o2, gexec (hsys FV1) [UCall (hget 7)] = Some s /\ h_log s = [GQueued (IRef 23%nat) ([], 161); GReturned (Ok (IRef r))] /\
  gsteps (hsys FV1) s [LSend 30] = Some s1 /\ h_log s1 = h_log s ++ [GSent (IRef 23%nat) (Ok o1) ([], 161)] /\
  gsteps (hsys FV1) s [UWrite r (PObj CInteger [(Avalue, IInt 5)]); LSend 30] = Some s2 /\ h_log s2 = h_log s ++ [GSent (IRef 23%nat) (Ok o2) ([], 161)] /\
  nth_error o1 12 = Some 0 /\ nth_error o2 12 = Some 5.
Proof. do 6 eexists. split; [vm_compute; reflexivity|]. split; [vm_compute; reflexivity|]. split; [vm_compute; reflexivity|]. split; [vm_compute; reflexivity|]. split; [vm_compute; reflexivity|]. split; [vm_compute; reflexivity|]. split; vm_compute; reflexivity. Qed.
Print Assumptions C73_returned_id_shared_refuted.

(** ** C74: answers *)
(** C74. The message a callback is given is made of new objects only: nothing user code or the library held before is part of it, so two deliveries never
    share an object, and changing a received message changes no other message.  For an answer and for a trap alike. *)
Theorem C74_received_is_new : forall sys tr0 s depth d act msg, gexec sys tr0 = Some s ->
  Manager.receiveData sys (mkMgr (h_next s) [] (e_abs (flav sys) (hp s) (h_cbs s))) depth d = (act, Some msg) -> (forall r, act <> Done r) ->
  exists s1 m cb, gstep sys s (LReceive depth d) = Some s1 /\ h_log s1 = h_log s ++ [GInvoked cb (IRef m)] /\ known s1 = m :: known s /\ (length (hp s) <= m)%nat /\
    stands (fun l => (length (hp s) <= l)%nat) (fun _ _ => False) (hp s1) (IRef m) (message_val msg) /\
    forall x c, nth_error (hp s) x = Some c -> nth_error (hp s1) x = Some c.
Proof. intros sys tr0 s depth d act msg E. apply received_new. Qed.
Print Assumptions C74_received_is_new.
(** C74. The attributes by which a callback looks at the parts of the message it was given - data.requestID, data.varBindList, vb.objectID and so on - are
    the elements of the sequence in the order in which they were received. *)
Theorem C74_received_attributes : forall sys tr0 s depth d act msg, gexec sys tr0 = Some s ->
  Manager.receiveData sys (mkMgr (h_next s) [] (e_abs (flav sys) (hp s) (h_cbs s))) depth d = (act, Some msg) -> (forall r, act <> Done r) ->
  exists s1, gstep sys s (LReceive depth d) = Some s1 /\ forall x c, (length (hp s) <= x)%nat -> nth_error (hp s1) x = Some c -> well_named (hp s1) c.
Proof. intros sys tr0 s depth d act msg _. apply received_named. Qed.
Print Assumptions C74_received_attributes.
(** C74. After any history an answer to request [id] arrives, and the callback is called with the new message object [m], whose PDU is object [p], whose
    request id is object [r].  Whatever happens until the callback returns - the callback may make requests, answers to other requests may come in, their
    callbacks be called - if user code does not change [m], [p] or [r], then on return the entry deleted is the one of [id], if there still is one, and no
    other; otherwise KeyError is raised and no entry is deleted. *)
Theorem C74_own_entry : forall sys tr0 s depth d id cb msg, gexec sys tr0 = Some s ->
  Manager.receiveData sys (mkMgr (h_next s) [] (e_abs (flav sys) (hp s) (h_cbs s))) depth d = (InvokeResponse id cb, Some msg) ->
  exists s1 m p r, gstep sys s (LReceive depth d) = Some s1 /\ h_log s1 = h_log s ++ [GInvoked cb (IRef m)] /\ h_stack s1 = InResponse (IRef m) :: h_stack s /\
    attr_of (hp s1) (IRef m) Adata = Ok (IRef p) /\ attr_of (hp s1) (IRef p) ArequestID = Ok (IRef r) /\
    forall tr s2 s3 k, gsteps sys s1 tr = Some s2 -> never_written m tr -> never_written p tr -> never_written r tr -> h_stack s2 = InResponse (IRef m) :: k -> gstep sys s2 UReturn = Some s3 ->
      match e_get (flav sys) (hp s2) (h_cbs s2) id with
      | Some _ => h_log s3 = h_log s2 ++ [GDeleted id; GReceived (Ok tt)] /\ exists l1 e l2, h_cbs s2 = l1 ++ e :: l2 /\ h_cbs s3 = l1 ++ l2 /\ e_hash e = id
      | None => h_log s3 = h_log s2 ++ [GReceived (guard (flav sys) (Err KeyError))] /\ h_cbs s3 = h_cbs s2
      end.
Proof. intros sys tr0 s depth d id cb msg E. apply own_entry. eapply good_exec. exact E. Qed.
Print Assumptions C74_own_entry.
Definition s_two1 : hstate := Eval vm_compute in match gexec (hsys FV1) tr_two with Some s => s | None => h_init end.
Lemma s_two1_run : gexec (hsys FV1) tr_two = Some s_two1. Proof. vm_compute. reflexivity. Qed.
Example C74_own_entry_example : exists msg s3, Manager.receiveData (hsys FV1) (mkMgr (h_next s_two1) [] (e_abs FV1 (hp s_two1) (h_cbs s_two1))) 9 (DStr (answer_octets 0)) = (InvokeResponse 0 7, Some msg) /\
  gsteps (hsys FV1) s_two1 [LReceive 9 (DStr (answer_octets 0)); UCall (hget 9); UReturn] = Some s3 /\
  map e_hash (h_cbs s3) = [1; 2] /\ In (GDeleted 0) (h_log s3).
Proof. eexists. eexists. split; [vm_compute; reflexivity|]. split; [vm_compute; reflexivity|]. split; [reflexivity|]. vm_compute. auto 20. Qed.
(** C74. The condition is needed: "del self.callbacks[int(msg.data.requestID)]" reads the message after the callback had it.  A callback that changes the
    request id in the message it was given makes the library drop another request's entry: here the answer to request 0 deletes the entry of request 1,
    so that the answer to request 1 is lost and the one to request 0 delivered a second time. *)
Theorem C74_other_entry_refuted : exists s s' s'', gsteps (hsys FV1) s_two1 [LReceive 9 (DStr (answer_octets 0)); URead 58%nat; URead 57%nat; UWrite 46%nat (PObj CInteger32 [(Avalue, IInt 1)]); UReturn] = Some s /\
  map e_hash (h_cbs s_two1) = [0; 1] /\ map e_hash (h_cbs s) = [0] /\
  gstep (hsys FV1) s (LReceive 9 (DStr (answer_octets 1))) = Some s' /\ h_log s' = h_log s ++ [GReceived (Err KeyError)] /\
  gstep (hsys FV1) s (LReceive 9 (DStr (answer_octets 0))) = Some s'' /\ exists m, h_log s'' = h_log s ++ [GInvoked 7 m].
Proof. do 3 eexists. split; [vm_compute; reflexivity|]. split; [reflexivity|]. split; [reflexivity|]. split; [vm_compute; reflexivity|]. split; [vm_compute; reflexivity|]. split; [vm_compute; reflexivity|]. eexists. vm_compute. reflexivity. Qed.
Print Assumptions C74_other_entry_refuted.
(** C74. A request that returns gave back a new number object holding the next request id, and registered the callback under that id; other
    registrations are as before, and the id after it is next. *)
Theorem C74_registered : forall sys tr s a dst cb s1 m r, gexec sys tr = Some s -> request_of a = Some (dst, cb) -> request_made sys s a dst s1 m r ->
  h_next s1 = h_next s + 1 /\ (exists c, now (hp s1) (IRef r) (VInt c (h_next s))) /\
  e_get (flav sys) (hp s1) (h_cbs s1) (h_next s) = Some cb /\ forall n, n <> h_next s -> e_get (flav sys) (hp s1) (h_cbs s1) n = e_get (flav sys) (hp s1) (h_cbs s) n.
Proof. intros sys tr s a dst cb s1 m r E. apply registered. eapply good_exec. exact E. Qed.
Print Assumptions C74_registered.
Definition s_got : hstate := Eval vm_compute in match gstep (hsys FV1) s_bindings (UCall (hget 7)) with Some s => s | None => h_init end.
Example C74_registered_example : exists s1 m r, request_made (hsys FV1) s_bindings (hget 7) ([], 161) s1 m r.
Proof. exists s_got, 29%nat, 19%nat. split; [vm_compute; reflexivity|]. split; [cbn; lia|]. split; [cbn; lia|]. split; reflexivity. Qed.
(** C74. In v1 and v2 nothing user code does to objects touches the registrations: the entry of a request stays, findable under its id, until a
    deletion of that very id. *)
Theorem C74_registrations_v1_v2 : forall sys tr0 s tr s' e ev, flav sys <> FSM -> gexec sys tr0 = Some s -> In e (h_cbs s) -> gsteps sys s tr = Some s' ->
  h_log s' = h_log s ++ ev -> ~ In (GDeleted (e_hash e)) ev -> exists cb, e_get (flav sys) (hp s') (h_cbs s') (e_hash e) = Some cb.
Proof.
  intros sys tr0 s tr s' e ev F E J Es L Nd. assert (Gs : good s) by (eapply good_exec; exact E). destruct (run_entries sys tr s s' e ev Gs Es J L Nd) as (e' & J' & A & B).
  assert (E' : gexec sys (tr0 ++ tr) = Some s') by (unfold gexec in *; eapply gsteps_app; eassumption). rewrite <- A. eapply e_get_matches; [exact J'|]. apply plain_matches. eapply keys_plain; eassumption.
Qed.
Print Assumptions C74_registrations_v1_v2.
Example C74_registrations_example : exists s', gsteps (hsys FV1) s_two1 [UWrite 13%nat (PObj CInteger [(Avalue, IInt 99)]); LReceive 9 (DStr (answer_octets 1)); UReturn] = Some s' /\
  e_get FV1 (hp s') (h_cbs s') 0 = Some (Cb 7) /\ e_get FV1 (hp s') (h_cbs s') 1 = None.
Proof. eexists. split; [vm_compute; reflexivity|]. split; reflexivity. Qed.
(** C74. In snmpManager the key is an object - the one snmpGet etc. return - so this needs that user code does not change it. *)
Theorem C74_registrations_snmpManager : forall sys tr0 s tr s' e ev, flav sys = FSM -> gexec sys tr0 = Some s -> In e (h_cbs s) -> gsteps sys s tr = Some s' ->
  h_log s' = h_log s ++ ev -> ~ In (GDeleted (e_hash e)) ev ->
  exists x, e_key e = IRef x /\ (never_written x (tr0 ++ tr) -> exists cb, e_get FSM (hp s') (h_cbs s') (e_hash e) = Some cb).
Proof.
  intros sys tr0 s tr s' e ev F E J Es L Nd. assert (Gs : good s) by (eapply good_exec; exact E). destruct (run_entries sys tr s s' e ev Gs Es J L Nd) as (e' & J' & A & B).
  assert (E' : gexec sys (tr0 ++ tr) = Some s') by (unfold gexec in *; eapply gsteps_app; eassumption). destruct (keys_manager sys (tr0 ++ tr) F s' E' e' J') as (x & K & M).
  exists x. rewrite <- B. split; [exact K|]. intros NW. rewrite <- A. eapply e_get_matches; [exact J'|]. apply M. exact NW.
Qed.
Print Assumptions C74_registrations_snmpManager.
(** C74. It is needed: if the program changes the id object it got from snmpManager.snmpGet, the answer to that request is no longer delivered. *)
Theorem C74_changed_key_refuted : exists s r s1 s2, gexec (hsys FSM) [UCall (hget 7)] = Some s /\ (exists q, h_log s = [q; GReturned (Ok (IRef r))]) /\
  (exists m, gstep (hsys FSM) s (LReceive 9 (DStr (answer_octets 0))) = Some s1 /\ h_log s1 = h_log s ++ [GInvoked 7 m]) /\
  gsteps (hsys FSM) s [LSend 30; UWrite r (PObj CInteger [(Avalue, IInt 5)]); LReceive 9 (DStr (answer_octets 0))] = Some s2 /\
  (forall m, ~ In (GInvoked 7 m) (h_log s2)) /\ exists o d res, h_log s2 = h_log s ++ [GSent (IRef 23%nat) (Ok o) d; GReceived res].
Proof.
  do 4 eexists. split; [vm_compute; reflexivity|]. split; [eexists; vm_compute; reflexivity|]. split; [eexists; split; vm_compute; reflexivity|]. split; [vm_compute; reflexivity|].
  split; [intros m; vm_compute; intros X; repeat destruct X as [X|X]; try discriminate X; exact X|]. do 3 eexists. vm_compute. reflexivity.
Qed.
Print Assumptions C74_changed_key_refuted.

(** ** C75: default arguments *)
(** C75. The lists that are default arguments of constructors ("value=[]", "varBindList=[]") never escape: after any history each is still the empty
    list, user code holds no reference to it, no object refers to it, and nothing the library queued is it. *)
Theorem C75_defaults_stay_empty : forall sys tr s l, gexec sys tr = Some s -> In (IRef l) [default_vbl; default_pdu; default_vbl2; default_pdu2; default_bulk] ->
  nth_error (hp s) l = Some (PList []) /\ ~ In l (known s) /\ (forall x c, nth_error (hp s) x = Some c -> ~ In l (refs c)) /\ forall q, In q (h_out s) -> fst q <> IRef l.
Proof.
  intros sys tr s l E J. pose proof (good_exec _ _ _ E) as (I & Q & _). assert (L : D l) by (cbn in J; unfold D; repeat destruct J as [J|J]; try injection J as <-; try lia; contradiction).
  split; [apply (i_defaults _ _ I); exact L|]. split; [intros K; apply (i_known _ _ I) in K; tauto|]. split.
  - intros x c N Jr. destruct (proj2 (i_ok _ _ I) x c l N Jr) as [_ A]. specialize (A L). rewrite (i_defaults _ _ I x A) in N. injection N as <-. destruct Jr.
  - intros q Jq Eq. rewrite Forall_forall in Q. destruct (Q q Jq l Eq) as (_ & A & _). contradiction.
Qed.
Print Assumptions C75_defaults_stay_empty.
(** C75. So two objects made without the argument never share a list: the list of each is a new, empty one. *)
Theorem C75_new_lists : forall sys tr s two, gexec sys tr = Some s ->
  exists s' v l, gstep sys s (UCall (HNewVarBindList two None)) = Some s' /\ h_log s' = h_log s ++ [GReturned (Ok (IRef v))] /\ (length (hp s) <= v)%nat /\
    attr_of (hp s') (IRef v) Avalue = Ok (IRef l) /\ (length (hp s) <= l)%nat /\ nth_error (hp s') l = Some (PList []).
Proof.
  intros sys tr s two E. pose proof (good_exec _ _ _ E) as (I & _). apply new_list. apply I.
Qed.
Print Assumptions C75_new_lists.
Theorem C75_new_pdus : forall sys tr s c id, gexec sys tr = Some s -> In c [CGet; CGetNext; CSet; CResponse; CGet_v2; CGetNext_v2; CSet_v2; CResponse_v2; CInform; CTrapV2; CReport; CGetBulk] -> -2 ^ 31 <= id < 2 ^ 31 ->
  exists s' p v l, gstep sys s (UCall (HNewPDU c (IInt id) None)) = Some s' /\ h_log s' = h_log s ++ [GReturned (Ok (IRef p))] /\ (length (hp s) <= p)%nat /\
    attr_of (hp s') (IRef p) AvarBindList = Ok (IRef v) /\ (length (hp s) <= v)%nat /\ attr_of (hp s') (IRef v) Avalue = Ok (IRef l) /\ (length (hp s) <= l)%nat /\ nth_error (hp s') l = Some (PList []).
Proof.
  intros sys tr s c id E. pose proof (good_exec _ _ _ E) as (I & _). apply new_pdu. apply I.
Qed.
Print Assumptions C75_new_pdus.
(** a = VarBindList(); b = VarBindList(); a.append(vb): b stays empty. *)
Example C75_example : exists s, gexec (hsys FV1) (bindings_made ++ [UCall (HNewVarBindList false None); UCall (HNewVarBindList false None); UCall (HAppend (IRef 12%nat) (IRef 9%nat))]) = Some s /\
  nth_error (hp s) 11 = Some (PList [IRef 9%nat]) /\ nth_error (hp s) 13 = Some (PList []) /\ attr_of (hp s) (IRef 14%nat) Avalue = Ok (IRef 13%nat).
Proof. eexists. split; [vm_compute; reflexivity|]. repeat split; reflexivity. Qed.
