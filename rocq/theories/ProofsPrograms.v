(** * Proofs about the command-line programs: whole executions. *)
From Coq Require Import Ascii String ZArith List Bool Lia ZifyBool ZifyNat.
From Verif Require Import PyBase Classes Values Codec Manager Text Frontend Tools.
From Verif Require Import SpecBER SpecSMI SpecTree SpecWire SpecMsg SpecManager SpecText SpecFront.
From Verif Require Import ProofsTree ProofsDecode ProofsWire ProofsMsg ProofsOid ProofsManager ProofsHistory ProofsReceive ProofsCalls ProofsRun ProofsPrint ProofsFront ProofsText.
From Verif Require Import SpecTools ProofsTools.
Import ListNotations.
Open Scope Z_scope.

Lemma runs_reachable p t b args ev s : runs p t b args ev s -> reachable p t args s.
Proof. intros (tr & _ & H & _). exists b, tr. exact H. Qed.
(** The first request of snmpget.py and snmpwalk.py. *)
Lemma get_queued server com oid name m' r : names oid name -> do_call FSM (AGet (VPyStr oid) (server, 161) cb_response (VPyStr com) 2) mgr0 = (m', r) ->
  queued mgr0 m' r 0 (server, 161) (Cb 0) (message_tree 1 com (request_tree KGet 0 0 0 [(name, TNull KNull)])).
Proof.
  intros N H. pose proof (get_on_wire FSM (VPyStr oid) (server, 161) cb_response com 2 [name] mgr0 m' r) as G.
  cbn [nextRequestID mgr0 asked_version map] in G. change (2 - 1) with 1 in G. apply G; auto.
  + exists name. split; [apply names_init; exact N|reflexivity].
  + constructor; [exact (proj2 N)|constructor].
  + cbn. lia.
  + cbn. lia.
Qed.
Lemma get_first p twice hex next server com oid name : tool p twice hex next -> p_main p = get_main -> names oid name ->
  exists s d, runs p Text (Ok tt) [server; com; oid] asked s /\ awaiting s 0 /\ printed s = [] /\ sent s = [d] /\ is_request KGet com (server, 161) 0 [(name, TNull KNull)] d.
Proof.
  intros To M N. destruct (first_request p twice hex next [server; com; oid] (AGet (VPyStr oid) (server, 161) cb_response (VPyStr com) 2) (server, 161)
    (message_tree 1 com (request_tree KGet 0 0 0 [(name, TNull KNull)])) To) as (s & os & R & A & P & S & W).
  - rewrite M. reflexivity.
  - intros m' r H. pose proof (get_on_wire FSM (VPyStr oid) (server, 161) cb_response com 2 [name] mgr0 m' r) as G.
    cbn [nextRequestID mgr0 asked_version map] in G. change (2 - 1) with 1 in G. apply G; auto.
    + exists name. split; [apply names_init; exact N|reflexivity].
    + constructor; [exact (proj2 N)|constructor].
    + cbn. lia.
    + cbn. lia.
  - exists s, (os, (server, 161)). split; [exact R|]. split; [exact A|]. split; [exact P|]. split; [exact S|]. split; [reflexivity|exact W].
Qed.
(** A walk. *)
Lemma walk_goes server com more replies : let args := server :: com :: more in forall s id,
  reachable snmpwalk_py Text args s -> awaiting s id -> good_walk id replies -> id + zlen replies < 2 ^ 31 ->
  exists s' ds, goes snmpwalk_py Text args s (flat_map exchange replies) s' /\ awaiting s' (id + zlen replies) /\
    printed s' = printed s ++ flat_map (first_lines false true) replies /\ sent s' = sent s ++ ds /\ follow_ups com (server, 161) id replies ds.
Proof.
  intros args. induction replies as [|r replies IH]; intros s id Re A G L.
  - exists s, []. cbn [flat_map]. rewrite !app_nil_r. change (zlen (@nil reply)) with 0. rewrite Z.add_0_r.
    split; [|split; [exact A|split; [reflexivity|split; [reflexivity|exact Logic.I]]]]. exists []. split; [reflexivity|]. split; [reflexivity|]. unfold SpecTools.settled. destruct A as (-> & _). exact Logic.I.
  - cbn [good_walk] in G. destruct G as (An & (n & v & (S & (rest & B) & Sh) & Go) & Rs & G).
    assert (ZL : zlen (r :: replies) = zlen replies + 1) by (unfold zlen; cbn [length]; lia). rewrite ZL in *.
    assert (LP : 0 <= zlen replies) by (unfold zlen; lia).
    destruct (shown v) as [sv|] eqn:SV; [|congruence].
    destruct (walk_answer server com more s id r n v rest sv Re A An ltac:(lia) S B SV Go Rs) as (s1 & d & G1 & A1 & P1 & S1 & Q1). fold args in G1.
    destruct (IH s1 (id + 1) (goes_reachable _ _ _ _ _ _ Re G1) A1 G ltac:(lia)) as (s2 & ds & G2 & A2 & P2 & S2 & Q2).
    exists s2, (d :: ds). split; [cbn [flat_map]; eapply goes_trans; [exact G1|exact G2]|]. split; [replace (id + (zlen replies + 1)) with (id + 1 + zlen replies) by lia; exact A2|].
    split; [|split].
    + rewrite P2, P1, <- app_assoc. f_equal. cbn [flat_map]. f_equal. unfold first_lines. rewrite B, SV. reflexivity.
    + rewrite S2, S1, <- app_assoc. reflexivity.
    + cbn [follow_ups]. split; assumption.
Qed.
Lemma walk_whole server com oid name replies : names oid name -> good_walk 0 replies -> zlen replies < 2 ^ 31 ->
  exists s d ds, runs snmpwalk_py Text (Ok tt) [server; com; oid] (asked ++ flat_map exchange replies) s /\ awaiting s (zlen replies) /\
    printed s = flat_map (first_lines false true) replies /\ sent s = d :: ds /\
    is_request KGet com (server, 161) 0 [(name, TNull KNull)] d /\ follow_ups com (server, 161) 0 replies ds.
Proof.
  intros N G L. destruct (get_first _ _ _ _ server com oid name tool_walk eq_refl N) as (s & d & R & A & P & S & Q).
  destruct (walk_goes server com [oid] replies s 0 (runs_reachable _ _ _ _ _ _ R) A G ltac:(lia)) as (s' & ds & G' & A' & P' & S' & Q').
  exists s', d, ds. split; [eapply goes_trans; [exact R|exact G']|]. split; [exact A'|]. split; [rewrite P', P; reflexivity|]. split; [rewrite S', S; reflexivity|]. split; assumption.
Qed.
(** Only the answer to the outstanding request keeps the programs alive. *)
Lemma socket_error_ends p twice hex next args s id e : tool p twice hex next -> awaiting s id ->
  exists s' e', goes p Text args s [Finds (SocketError e)] s' /\ ended s' e' (printed s) (sent s) /\ (e <> QueueEmpty -> e' = e).
Proof.
  intros To A. pose proof To as (F & _ & Q & _ & De & _). destruct (awaiting_state _ _ A) as (cbs & lg0 & tab & out & -> & Pe).
  assert (AR : asyncore_read (Err e) = Err e) by (destruct e; reflexivity).
  assert (D : e = QueueEmpty \/ e <> QueueEmpty) by (destruct e; auto; right; discriminate). destruct D as [->|D].
  - eexists. exists SystemExit. split; [|split; [|congruence]].
    + exists [Some (Finds (SocketError QueueEmpty)); None]. split; [reflexivity|]. split.
      * cbn [psteps]. unfold pstep at 1. cbn [step poll_called stack asyncore_read handle_error poll_returns system_of flav]. rewrite F. unfold loop_empty, system_of. cbn [queueEmpty]. rewrite Q.
        unfold resume at 1. cbn [stack touches]. rewrite De. unfold exit0, pstep. cbn [stack step]. unfold run_raises, resume. cbn [stack log]. rewrite rev_app_distr. cbn [rev app]. reflexivity.
      * exact Logic.I.
    + repeat split. unfold sent, sends. cbn [st_of log]. rewrite !flat_map_app. cbn. rewrite !app_nil_r. reflexivity.
  - eexists. exists e. split; [|split; [|auto]].
    + exists [Some (Finds (SocketError e))]. split; [reflexivity|]. split.
      * assert (PR : poll_returns (system_of p Text) (mkMgr (id + 1) [] cbs) (Err e) [FRun Polling] lg0 = run_raises (mkMgr (id + 1) [] cbs) e [] lg0)
          by (cbn [poll_returns system_of flav]; rewrite F; destruct e; congruence || reflexivity).
        cbn [psteps]. unfold pstep. cbn [step poll_called stack]. rewrite AR, PR. unfold run_raises, resume. cbn [stack log]. rewrite rev_app_distr. cbn [rev app]. reflexivity.
      * exact Logic.I.
    + repeat split. unfold sent, sends. cbn [st_of log]. rewrite !flat_map_app. cbn. rewrite !app_nil_r. reflexivity.
Qed.
Lemma ignored p twice hex next args s id depth octets src om x : tool p twice hex next -> awaiting s id ->
  receiveData (system_of p Text) (man (st_of s)) depth (DStr octets) = (Done (Ok tt), om) ->
  exists s', goes p Text args s [Finds (Datagram depth octets src); Answers x] s' /\ ended s' SystemExit (printed s) (sent s).
Proof.
  intros To A R. destruct (awaiting_state _ _ A) as (cbs & lg0 & tab & out & -> & Pe). cbn [st_of man] in R.
  eexists. split.
  - change [Finds (Datagram depth octets src); Answers x] with ([Finds (Datagram depth octets src)] ++ [Answers x]).
    eapply goes_trans; [|apply (empty_exit p twice hex _ args x (mkMgr (id + 1) [] cbs) lg0 (touches p Text tab (Datagram depth octets src)) out To); reflexivity].
    exists [Some (Finds (Datagram depth octets src))]. split; [reflexivity|]. split; [|exact Logic.I].
    cbn [psteps]. unfold pstep. cbn [step poll_called stack]. unfold receive_called. change (received (trans (system_of p Text)) octets) with (DStr octets). rewrite R.
    cbn [receive_returns asyncore_read poll_returns]. unfold resume. cbn [stack]. reflexivity.
  - repeat split. unfold sent, sends. cbn [st_of log]. rewrite !flat_map_app. cbn. rewrite !app_nil_r. reflexivity.
Qed.
Lemma one_chance p twice hex next args s id i x : tool p twice hex next -> awaiting s id ->
  (exists depth os src msg, i = Datagram depth os src /\ message_decode (reg_of Upto1905) depth CMessage_v2 (DStr os) = Ok msg /\ carries msg id) \/
  exists s' e ev, (ev = [] \/ ev = [Answers x]) /\ goes p Text args s (Finds i :: ev) s' /\ ended s' e (printed s) (sent s).
Proof.
  intros To A. destruct i as [|depth os src|e].
  - right. destruct (silence p twice hex next args s id x To A) as (s' & G & D & P & S). exists s', SystemExit, [Answers x]. split; [auto|]. split; [exact G|]. repeat split; assumption.
  - destruct (receiveData (system_of p Text) (man (st_of s)) depth (DStr os)) as [a om] eqn:R. destruct a as [r|id' n|n].
    + right. destruct (receive_decent _ _ _ _ _ _ R) as [->|(_ & e & -> & De1 & De2)].
      * destruct (ignored p twice hex next args s id depth os src om x To A R) as (s' & G & E). exists s', SystemExit, [Answers x]. auto.
      * destruct (refused p twice hex next args s id depth os src To A e om R De1) as (s' & G & D & P & S). exists s', e, []. split; [auto|]. split; [exact G|]. repeat split; assumption.
    + left. destruct om as [msg|]; [|destruct (receiveData_msg _ _ _ _ _ _ R eq_refl); discriminate].
      exists depth, os, src, msg. split; [reflexivity|]. pose proof To as (F & _). unfold receiveData in R. unfold system_of in R at 1 2. cbn [imports flav] in R. rewrite F in R. cbn [message_class] in R.
      destruct (message_decode _ _ _ _) as [msg'|] eqn:D; [|discriminate R]. split; [congruence|].
      assert (RA : exists r, requestID_of (m_data msg') = Ok r /\ py_int r = Ok id' /\ dict_get (callbacks (man (st_of s))) id' = Some (Cb n)).
      { assert (RA : response_action (man (st_of s)) (m_data msg') = InvokeResponse id' n).
        { assert (X : dispatch (system_of p Text) (man (st_of s)) msg' = InvokeResponse id' n) by (destruct (dispatch (system_of p Text) (man (st_of s)) msg') eqn:Y; congruence).
          unfold dispatch in X. destruct (py_eq_int (m_version msg') 0) as (b0 & E0). destruct (py_eq_int (m_version msg') 1) as (b1 & E1). rewrite E0, E1 in X.
          unfold trap_action, system_of in X. cbn [flav trapCallback] in X. rewrite F in X.
          destruct b0, b1; repeat match type of X with (if ?b then _ else _) = _ => destruct b end; try exact X; try discriminate X; destruct (p_trapCallback p); discriminate X. }
        unfold response_action in RA. destruct (requestID_of (m_data msg')) as [r|]; [|discriminate]. exists r. split; [reflexivity|].
        destruct (py_int r) as [z|]; [|discriminate]. destruct (dict_get _ z) as [[|k]|] eqn:DG; try discriminate. injection RA as <- <-. auto. }
      destruct RA as (r & R1 & R2 & R3). destruct (proj1 (proj2 (proj2 (proj2 (proj2 A))) id' (Cb n)) R3) as [-> _].
      assert (msg = msg') as -> by congruence. unfold requestID_of in R1. unfold carries. destruct (m_data msg') as [| | | | | | | |c [|r' l]]; try discriminate R1. injection R1 as ->. eauto.
    + exfalso. pose proof To as (F & _ & _ & TC & _). unfold receiveData in R. destruct (message_decode _ _ _ _) as [msg'|]; [|discriminate R].
      assert (X : dispatch (system_of p Text) (man (st_of s)) msg' = InvokeTrap n) by (destruct (dispatch (system_of p Text) (man (st_of s)) msg'); congruence).
      unfold dispatch in X. destruct (py_eq_int (m_version msg') 0) as (b0 & E0). destruct (py_eq_int (m_version msg') 1) as (b1 & E1). rewrite E0, E1 in X.
      unfold trap_action, system_of in X. cbn [flav trapCallback] in X. rewrite F, TC in X. unfold response_action in X.
      destruct b0, b1; repeat match type of X with (if ?b then _ else _) = _ => destruct b end; try discriminate X;
      (destruct (requestID_of (m_data msg')) as [r|]; [|discriminate X]); (destruct (py_int r) as [z|]; [|discriminate X]); destruct (dict_get _ z) as [[|k]|]; discriminate X.
  - right. destruct (socket_error_ends p twice hex next args s id e To A) as (s' & e' & G & E & _). exists s', e', []. auto.
Qed.
