(** * Theorems about objects and values: where no object is changed, the model of the manager that treats objects as values (Manager.v) and the one
    that has objects (Heap.v) tell the same story (C76). *)
From Coq Require Import ZArith List Bool Lia.
From Verif Require Import PyBase Classes Values Codec Manager Heap SpecHeap SpecRefine ProofsHeapRun ProofsHeapNames ProofsRefineStep ProofsRefineBoth.
From Verif Require Import PropertiesHeap.
Import ListNotations.
Open Scope Z_scope.

(** C76. Two runs from a new manager, one with objects and one with values, in which the same things happen, agree: they have the same next request id, the
    same messages on the queue in the same order and for the same addresses, the same callbacks registered under the same ids, the same callbacks
    running, and the same messages were queued, were taken from the queue - with the same octets (unless Python ran out of stack encoding an object) - and were handed
    to callbacks, in the same order. *)
Theorem C76_in_step : forall sys pairs s st, together sys h_init init pairs s st -> agrees sys s st.
Proof. intros sys pairs s st. apply together_agrees; [apply good_init|apply init_agrees]. Qed.
Print Assumptions C76_in_step.
(** A request is made, sent, answered; its callback runs and returns. *)
Definition one_request : list glabel := [UCall (hget 7); LSend 30; LReceive 9 (DStr (answer_octets 0)); UReturn].
Definition h_after (n : nat) : hstate := match gexec (hsys FV1) (firstn n one_request) with Some s => s | None => h_init end.
Definition s_1 : hstate := Eval vm_compute in h_after 1.
Definition s_2 : hstate := Eval vm_compute in h_after 2.
Definition s_3 : hstate := Eval vm_compute in h_after 3.
Definition s_request : hstate := Eval vm_compute in h_after 4.
Lemma s_step1 : gstep (hsys FV1) h_init (UCall (hget 7)) = Some s_1. Proof. vm_compute. reflexivity. Qed.
Lemma s_step2 : gstep (hsys FV1) s_1 (LSend 30) = Some s_2. Proof. vm_compute. reflexivity. Qed.
Lemma s_step3 : gstep (hsys FV1) s_2 (LReceive 9 (DStr (answer_octets 0))) = Some s_3. Proof. vm_compute. reflexivity. Qed.
Lemma s_step4 : gstep (hsys FV1) s_3 UReturn = Some s_request. Proof. vm_compute. reflexivity. Qed.
Lemma hget_value n h : call_value FV1 h (hget n) (AGet (VPyStr [49; 46; 51; 46; 54]) ([], 161) (Cb n) (VPyStr [112]) 1).
Proof. constructor; [split; constructor|exact Logic.I|split; constructor]. Qed.
Lemma one_request_unchanging : unchanging (hsys FV1) h_init one_request s_request.
Proof.
  eapply un_cons; [left; eexists; apply hget_value|exact s_step1|]. eapply un_cons; [exact Logic.I|exact s_step2|]. eapply un_cons; [exact Logic.I|exact s_step3|]. eapply un_cons; [exact Logic.I|exact s_step4|]. constructor.
Qed.
(** The two runs side by side: on the side of the values run() is called before the sending, and left by an exception of sendto. *)
Definition one_request_pairs : list (option glabel * option label) :=
  [(Some (UCall (hget 7)), Some (LCall (AGet (VPyStr [49; 46; 51; 46; 54]) ([], 161) (Cb 7) (VPyStr [112]) 1)));
   (None, Some LRun); (Some (LSend 30), Some (Manager.LSend (Ok tt))); (None, Some (Manager.LSend (Ok tt)));
   (Some (LReceive 9 (DStr (answer_octets 0))), Some (LPoll (Datagram 9 (answer_octets 0) ([], 161)))); (Some UReturn, Some LReturn)].
Definition v_after (n : nat) : state := match exec (hsys FV1) (firstn n (values_side one_request_pairs)) with Some st => st | None => init end.
Definition st_1 : state := Eval vm_compute in v_after 1.
Definition st_2 : state := Eval vm_compute in v_after 2.
Definition st_3 : state := Eval vm_compute in v_after 3.
Definition st_4 : state := Eval vm_compute in v_after 4.
Definition st_5 : state := Eval vm_compute in v_after 5.
Definition st_request : state := Eval vm_compute in v_after 6.
Definition msg_sent : message := Eval vm_compute in match outbound (man st_1) with (Some m, _) :: _ => m | _ => mkMsg CMessage VNone VNone VNone [] end.
Definition msg_received : message := Eval vm_compute in match rev (log st_5) with EInvoke _ _ m :: _ => m | _ => mkMsg CMessage VNone VNone VNone [] end.
Example C76_in_step_example : together (hsys FV1) h_init init one_request_pairs s_request st_request /\ callbacks (man st_request) = [] /\ nextRequestID (man st_request) = 1 /\
  stack st_request = [FRun Sending] /\
  (exists m m2, filter seen_g (h_log s_request) = [GQueued m ([], 161); GSent m (octets_of msg_sent) ([], 161); GInvoked 7 m2]) /\
  filter seen (log st_request) = [EPut (Some msg_sent) ([], 161); ETake (Some msg_sent) ([], 161); EInvoke 0 7 msg_received] /\ (exists o, octets_of msg_sent = Ok o) /\
  m_data msg_received = VSeq CResponse_v2 [VInt CInteger32 0; VInt CErrorStatus_v2 0; VInt CInteger 0; VSeq CVarBindList_v2 [VSeq CVarBind [VOid (Some [1; 3; 6]); VInt CInteger32 5]]].
Proof.
  split.
  - eapply (tg_cons _ _ _ _ _ s_1 st_1); [apply hget_value|exact s_step1|vm_compute; reflexivity|]. eapply (tg_cons _ _ _ _ _ s_1 st_2); [exact Logic.I|reflexivity|vm_compute; reflexivity|].
    eapply (tg_cons _ _ _ _ _ s_2 st_3); [discriminate|exact s_step2|vm_compute; reflexivity|]. eapply (tg_cons _ _ _ _ _ s_2 st_4); [reflexivity|reflexivity|vm_compute; reflexivity|].
    eapply (tg_cons _ _ _ _ _ s_3 st_5); [split; reflexivity|exact s_step3|vm_compute; reflexivity|]. eapply (tg_cons _ _ _ _ _ s_request st_request); [exists (FResp 0), [FRead; FRun Polling]; split; reflexivity|exact s_step4|vm_compute; reflexivity|].
    constructor.
  - split; [reflexivity|]. split; [reflexivity|]. split; [reflexivity|]. split; [exists (IRef 23%nat), (IRef 40%nat); vm_compute; reflexivity|]. split; [reflexivity|]. split; [eexists; reflexivity|reflexivity].
Qed.
(** C76. And every run with objects in which user code changes none has such a counterpart, *)
Theorem C76_objects_to_values : forall sys tr s, unchanging sys h_init tr s -> exists pairs st,
  objects_side pairs = tr /\ together sys h_init init pairs s st /\ exec sys (values_side pairs) = Some st /\ agrees sys s st.
Proof.
  intros sys tr s U. destruct (every_run sys _ _ _ U init good_init (init_agrees sys) eq_refl) as (pairs & st & T & O & _).
  exists pairs, st. split; [exact O|]. split; [exact T|]. split; [apply (together_steps _ _ _ _ _ _ T)|apply (C76_in_step _ _ _ _ T)].
Qed.
Print Assumptions C76_objects_to_values.
Example C76_objects_to_values_example : unchanging (hsys FV1) h_init one_request s_request /\ length (h_log s_request) = 6%nat.
Proof. split; [exact one_request_unchanging|reflexivity]. Qed.
(** C76. as has every run with values: what the other theorems say of such runs they say of the code, objects and all. *)
Theorem C76_values_to_objects : forall sys tr st, exec sys tr = Some st -> Forall (sound sys) tr -> exists pairs s,
  values_side pairs = tr /\ together sys h_init init pairs s st /\ gexec sys (objects_side pairs) = Some s /\ agrees sys s st.
Proof.
  intros sys tr st E Sd. destruct (every_value_run sys tr h_init init st good_init (init_agrees sys) Sd E) as (pairs & s & T & V).
  exists pairs, s. split; [exact V|]. split; [exact T|]. split; [apply (together_steps _ _ _ _ _ _ T)|apply (C76_in_step _ _ _ _ T)].
Qed.
Print Assumptions C76_values_to_objects.
(** With an OID that is an object, and a binding list. *)
Definition two_calls : list label := [LCall (AGet (VOid (Some [1; 3; 6])) ([], 161) (Cb 7) (VPyStr [112]) 1); LCall (AGetNext (VPyList [v_binding]) ([], 161) (Cb 8) (VPyStr [112]) 1); LRun; Manager.LSend (Ok tt)].
Definition st_two : state := Eval vm_compute in match exec (hsys FV1) two_calls with Some st => st | None => init end.
Example C76_values_to_objects_example : exists st, exec (hsys FV1) two_calls = Some st /\ length (outbound (man st)) = 1%nat /\ Forall (sound (hsys FV1)) two_calls.
Proof.
  exists st_two. split; [vm_compute; reflexivity|]. split; [reflexivity|].
  constructor; [intros a E; injection E as <-; repeat split|]. constructor; [intros a E; injection E as <-; repeat split|]. constructor; [intros a E; discriminate E|]. constructor; [intros a E; discriminate E|]. constructor.
Qed.
(** C76. What a method called on objects returns is an object of the value that the method gives on the values of its arguments; it raises what that raises. *)
Theorem C76_call : forall sys pairs s st a va s1, together sys h_init init pairs s st -> call_value (flav sys) (hp s) a va -> gstep sys s (UCall a) = Some s1 ->
  exists ev r, h_log s1 = h_log s ++ ev ++ [GReturned r] /\ same_answer (hp s1) r (snd (do_call (flav sys) va (man st))).
Proof. intros sys pairs s st a va s1 T. apply call_result; [eapply together_good; [apply good_init|exact T]|eapply C76_in_step; exact T]. Qed.
Print Assumptions C76_call.
(** The first request of a manager, and one that fails: snmpSet of a v2 manager. *)
Example C76_call_example : call_value FV1 (hp h_init) (hget 7) (AGet (VPyStr [49; 46; 51; 46; 54]) ([], 161) (Cb 7) (VPyStr [112]) 1) /\
  snd (do_call FV1 (AGet (VPyStr [49; 46; 51; 46; 54]) ([], 161) (Cb 7) (VPyStr [112]) 1) (man init)) = Ok (RVal (VInt CInteger 0)) /\
  call_value FV2 (hp h_init) (HSetBindings (IStr [49]) ([], 161) (Cb 7) (IStr [112])) (ASetBindings (VPyStr [49]) ([], 161) (Cb 7) (VPyStr [112])) /\
  snd (do_call FV2 (ASetBindings (VPyStr [49]) ([], 161) (Cb 7) (VPyStr [112])) (man init)) = Err AttributeError.
Proof.
  split; [apply hget_value|].
  split; [vm_compute; reflexivity|]. split; [constructor; split; constructor|reflexivity].
Qed.
(** C76. So do constructors, after any history, changes to objects included; they change no object that was there, and nothing of the manager. *)
Theorem C76_constructors : forall sys tr s a r s1, gexec sys tr = Some s -> made_of (hp s) a r -> gstep sys s (UCall a) = Some s1 ->
  exists r', h_log s1 = h_log s ++ [GReturned r'] /\ same_result (hp s1) r' r /\ (forall l c, nth_error (hp s) l = Some c -> nth_error (hp s1) l = Some c) /\
    h_next s1 = h_next s /\ h_out s1 = h_out s /\ h_cbs s1 = h_cbs s /\ h_stack s1 = h_stack s.
Proof. intros sys tr s a r s1 E. apply made_result. eapply good_exec. exact E. Qed.
Print Assumptions C76_constructors.
(** VarBind(o, n) with the ObjectID and the Null made before, and VarBind("1.3.6", n), which raises. *)
Example C76_constructors_example : made_of (hp s_bindings) (HNewVarBind CVarBind (IRef 6%nat) (IRef 7%nat)) (Ok v_binding) /\ made_of (hp s_bindings) (HNewVarBind CVarBind h136 (IRef 7%nat)) (Err ValueError).
Proof.
  assert (N : arg (hp s_bindings) (IRef 7%nat) (VNull CNull)) by (split; [eapply st_null; [exact Logic.I|reflexivity|reflexivity]|exact Logic.I]). split.
  - refine (mo_varbind _ CVarBind _ (VOid (Some [1; 3; 6])) _ (VNull CNull) (or_introl eq_refl) _ N). split; [|exact Logic.I]. eapply st_arcs; [exact Logic.I|reflexivity|reflexivity|reflexivity|exact Logic.I|reflexivity].
  - refine (mo_varbind _ CVarBind _ (VPyStr [49; 46; 51; 46; 54]) _ (VNull CNull) (or_introl eq_refl) _ N). split; [constructor|exact Logic.I].
Qed.
