(** * C87: whatever waits is delivered by the next poll of anybody, and what is queued is sent.  The vocabulary is in SpecServe (with SpecProcess, SpecAsyn
    and SpecManager); the proofs are in ProofsProcessServe. *)
From Coq Require Import ZArith List Bool Lia.
From Verif Require Import PyBase Classes Values Codec SpecSMI SpecTree SpecWire SpecMsg Manager Role Asyn Process SpecManager SpecNetwork SpecProcess SpecAsyn SpecServe.
From Verif Require Import ProofsAsyn ProofsAsynLog ProofsWire ProofsProcess ProofsProcessStep ProofsProcessStack ProofsProcessLog ProofsProcessMore ProofsProcessClose ProofsManager ProofsProcessServe ProofsProcessTrip PropertiesAsyn PropertiesManager PropertiesTraffic PropertiesProcess.
Import ListNotations.
Open Scope Z_scope.

Lemma made_object tr w o : wexec tr = Some w -> made (traffic (wlog w)) o -> obj (asyn w) o <> None.
Proof. intros E M. destruct (C82_asyncore _ _ E) as (atr & A & L). rewrite <- L in M. eapply made_obj; eassumption. Qed.
Lemma object_manager tr w o : wexec tr = Some w -> obj (asyn w) o <> None -> exists sys m, man_of w o = Some (sys, m).
Proof.
  intros E O. destruct (man_of w o) as [[sys m]|] eqn:M; [eauto|]. apply (s_same _ (wexec_sinv _ _ E)) in M. contradiction.
Qed.
(** C87. If datagrams that answer pending requests wait for any of the managers - at most one each - then one poll() of any manager, called
    wherever user code runs, delivers them all, each to the callback of the manager and the request it answers, as the answer it is (if the callbacks just return);
    poll() returns; these requests, and no others, are not pending any more, and nothing else has changed. *)
Theorem C87_poll : forall tr w p depth l, wexec tr = Some w -> (forall o r, ~ In (XHandleClose o r) tr) -> user_code (ctl w) = true -> made (traffic (wlog w)) p ->
  waiting (asyn w) = map (fun x => as_waiting (x_del x)) l -> Forall (expects w depth) l ->
  exists w' ess, wsteps w (XPoll p :: deliver depth l ++ [XGoOn depth]) = Some w' /\ ctl w' = ctl w /\
    wlog w' = wlog w ++ WA (EPoll p) :: concat ess ++ [WA (EPollEnd p (Ok tt)); WM p (EResult (Ok tt))] /\ Forall2 answered l ess /\ only_answered w w' l.
Proof.
  intros tr w p depth l E N U M W Fx. pose proof (made_object _ _ _ E M) as O. pose proof (below_auser _ _ (atop_user _ _ (s_atop _ (wexec_sinv _ _ E)) U)) as Au.
  destruct (polled tr w p (ctl w) depth l E N Au O W Fx) as (w1 & w2 & ess & S1 & S2 & C2 & L2 & F2 & On). destruct (object_manager _ _ _ E O) as (sys & m & Mp).
  destruct (proj2 On _ _ _ Mp) as (m2 & M2 & _). exists (acts w2 p sys m2 [EResult (Ok tt)] (ctl w)), ess. split; [|split; [reflexivity|split; [|split; [exact F2|]]]].
  - cbn [wsteps]. cbn [wstep]. rewrite U, S1, wsteps_app, S2. cbn [wsteps wstep]. rewrite C2. destruct (ctl w) as [|[| | | | | | |] k]; cbn in U; try discriminate U; rewrite M2; reflexivity.
  - cbn [acts wlog]. rewrite L2, <- app_assoc. cbn [app map]. rewrite <- app_assoc. reflexivity.
  - destruct On as [Na Nb]. assert (Q : forall q, man_of (acts w2 p sys m2 [EResult (Ok tt)] (ctl w)) q = man_of w2 q).
    { intros q. unfold acts. rewrite (ProofsProcessServe.man_upd w2 p sys m2) by exact M2. destruct (Nat.eqb_spec p q) as [<-|_]; [symmetry; exact M2|reflexivity]. }
    split; intros q; rewrite Q; [apply Na|apply Nb].
Qed.
Print Assumptions C87_poll.
(** C87. The same while run() of any manager polls: it goes on with its loop. *)
Theorem C87_run : forall tr w p k depth l, wexec tr = Some w -> (forall o r, ~ In (XHandleClose o r) tr) -> ctl w = WRun p Polling :: k ->
  waiting (asyn w) = map (fun x => as_waiting (x_del x)) l -> Forall (expects w depth) l ->
  exists w' ess, wsteps w (XGoOn depth :: deliver depth l ++ [XGoOn depth]) = Some w' /\ ctl w' = WRun p Sending :: k /\
    wlog w' = wlog w ++ WA (EPoll p) :: concat ess ++ [WA (EPollEnd p (Ok tt))] /\ Forall2 answered l ess /\ only_answered w w' l.
Proof.
  intros tr w p k depth l E N C W Fx. pose proof (wexec_sinv _ _ E) as Si. pose proof (s_atop _ Si) as T. rewrite C in T.
  assert (Au : auser (astack (asyn w)) = true) by (inversion T as [? ? B|? ? ? ? B| | | |]; subst; [apply below_user in B; discriminate B|eapply below_auser; exact B]).
  assert (O : obj (asyn w) p <> None) by (pose proof (s_exist _ Si) as X; rewrite C in X; inversion X as [|? ? X1 _]; subst; apply X1; reflexivity).
  destruct (polled tr w p (ctl w) depth l E N Au O W Fx) as (w1 & w2 & ess & S1 & S2 & C2 & L2 & F2 & On). destruct (object_manager _ _ _ E O) as (sys & m & Mp).
  destruct (proj2 On _ _ _ Mp) as (m2 & M2 & _). exists (mkWorld (asyn w2) (mans w2) (WRun p Sending :: k) (wlog w2)), ess. split; [|split; [reflexivity|split; [exact L2|split; [exact F2|exact On]]]].
  cbn [wsteps]. cbn [wstep]. rewrite C. rewrite C in S1. rewrite S1, wsteps_app, S2. cbn [wsteps wstep]. rewrite C2, C, M2. reflexivity.
Qed.
Print Assumptions C87_run.
(** C87. When run() of a manager with an open socket takes a message that can be encoded, and the kernel sends it, then the octets leave through a socket of that manager to the
    destination given; the message is gone from the queue, and nothing else has changed. *)
Theorem C87_sends : forall tr w o k sys m msg dst q os, wexec tr = Some w -> ctl w = WRun o Sending :: k -> man_of w o = Some (sys, m) -> registered (asyn w) o ->
  outbound m = (Some msg, dst) :: q -> snd (message_encode msg) = Ok os ->
  exists fd s w', wstep w (XSend opens fd (Ok tt)) = Some w' /\ ctl w' = WRun o (loop_start (flav sys)) :: k /\ opened_by (traffic (wlog w)) s o /\
    wlog w' = wlog w ++ [WA (ESentto s os dst); WA (Asyn.ESend o (Ok tt)); WM o (ETake (Some msg) dst); WM o (Manager.ESend os dst (Ok tt))] /\
    man_of w' o = Some (sys, mkMgr (nextRequestID m) q (callbacks m)) /\ forall p, p <> o -> man_of w' p = man_of w p.
Proof.
  intros tr w o k sys m msg dst q os E C M R Q Eo. pose proof (wexec_sinv _ _ E) as Si. pose proof (s_atop _ Si) as T. rewrite C in T.
  assert (Au : auser (astack (asyn w)) = true) by (inversion T as [? ? B|? ? ? ? B| | | |]; subst; [apply below_user in B; discriminate B|eapply below_auser; exact B]).
  destruct (free_descriptor (asyn w)) as [fd Fd]. exists fd. pose proof R as (am & g & s & kk & O & Ro & K & Op & _).
  assert (Sa : exists B, astep (asyn w) (ASend o os dst opens fd (Ok tt)) = Some B) by (cbn [astep]; rewrite Fd; unfold with_obj; rewrite Au, O; eauto).
  destruct Sa as [B Sa]. destruct (C69_send _ _ _ _ _ _ _ _ R Sa) as (s' & am' & O' & Ro' & L). assert (s' = s) as -> by congruence. exists s.
  set (w1 := mkWorld B (mans w) (ctl w) (wlog w ++ fresh (asyn w) B)).
  exists (acts w1 o sys (mkMgr (nextRequestID m) q (callbacks m)) [ETake (Some msg) dst; Manager.ESend os dst (Ok tt)] (WRun o (loop_start (flav sys)) :: k)).
  destruct (C82_asyncore _ _ E) as (atr & A & Lt).
  assert (Lw : fresh (asyn w) B = [WA (ESentto s os dst); WA (Asyn.ESend o (Ok tt))]) by (rewrite (fresh_eq _ _ _ L); reflexivity).
  split; [|split; [reflexivity|split; [|split; [|split]]]].
  - cbn [wstep]. rewrite C, M, Q, Eo. unfold aside. rewrite Sa. cbn [asyn]. rewrite L, rev_app_distr. cbn [rev app]. rewrite C. reflexivity.
  - rewrite <- Lt. destruct (aexec_inv _ _ A) as [I _]. eapply (i_role _ I); eassumption.
  - cbn [acts wlog w1]. rewrite Lw, <- app_assoc. reflexivity.
  - unfold acts. rewrite (ProofsProcessServe.man_upd w1 o sys m) by exact M. rewrite Nat.eqb_refl. reflexivity.
  - intros p N. unfold acts. rewrite (ProofsProcessServe.man_upd w1 o sys m) by exact M. destruct (Nat.eqb_spec o p); [congruence|reflexivity].
Qed.
Print Assumptions C87_sends.
(** C87. One request and its answer among other managers: wherever user code runs, and nothing waits, a manager with an open socket and an empty queue makes a request and
    then enters run(); the message, as C40-C45 describe it, leaves through its own socket; if an answer arrives there, the callback given is called with it,
    exactly once, and the request is not pending any more.  Nothing at all happens to the other managers. *)
Theorem C87_round_trip : forall tr w o sys m a n dst r m' t d src strict ver com pdu depth, wexec tr = Some w -> (forall y x, ~ In (XHandleClose y x) tr) -> user_code (ctl w) = true ->
  man_of w o = Some (sys, m) -> importable sys -> queueEmpty sys = None -> registered (asyn w) o -> waiting (asyn w) = [] -> outbound m = [] ->
  do_call (flav sys) a m = (m', r) -> SpecManager.queued m m' r (nextRequestID m) dst (Cb n) t ->
  wire strict (message_tree ver com pdu) d -> readable (imports sys) pdu -> (S (height pdu) <= depth)%nat -> answer_to (flav sys) ver pdu (nextRequestID m) ->
  exists fd s w' new k om os msg m2, wsteps w (request_and_answer (flav sys) o a fd s d src depth) = Some w' /\ ctl w' = WRun o Sending :: ctl w /\ wlog w' = wlog w ++ new /\
    opened_by (traffic (wlog w)) s o /\ In (WA (ESentto s os dst)) new /\ written t os /\ tree_of (m_data msg) = Some pdu /\
    history o new = [ECall a (Ok (RVal (VInt k (nextRequestID m)))); EPut (Some om) dst; ETake (Some om) dst; Manager.ESend os dst (Ok tt);
                     EInvoke (nextRequestID m) n msg; EFinished (nextRequestID m) (Ok tt)] /\
    man_of w' o = Some (sys, m2) /\ nextRequestID m2 = nextRequestID m + 1 /\ outbound m2 = [] /\ (forall id cb, pending m2 id cb <-> pending m id cb) /\
    forall q, q <> o -> history q new = [] /\ man_of w' q = man_of w q.
Proof.
  intros tr w o sys m a n dst r m' t d src strict ver com pdu depth E N U M Im QE R W O Dc Q Wi Rd H An.
  destruct (follow tr winit w E N) as (atr & A & Nh). pose proof (aexec_sound _ Nh _ A) as S. destruct (free_descriptor (asyn w)) as [fd Fd]. destruct R as (am & g & s & kk & Ob & Ro & K & Op & Kf & J).
  assert (Id : idle (asyn w) o s) by (split; [exists am, kk; rewrite Kf; auto|exact W]).
  destruct (asked_sent tr w o sys m a n dst r m' t fd s depth E U M S Id Fd O QE Dc Q) as (k & om & os & w1 & pre & S1 & C1 & I1 & Sd1 & Au1 & Wr & M1 & Mq1 & L1 & H1 & Hq1 & Sent).
  destruct (arrival (asyn w1) o s (Ok (d, src)) Sd1 Au1 I1) as (B & Sb & Kb & Lb & Wb).
  set (w2 := mkWorld B (mans w1) (ctl w1) (wlog w1 ++ fresh (asyn w1) B)).
  assert (S2 : wstep w1 (XArrive s (Ok (d, src))) = Some w2) by (cbn [wstep]; rewrite C1; unfold aside; rewrite Sb, C1; unfold w2; rewrite C1; reflexivity).
  assert (E2 : wexec (tr ++ asked (flav sys) o a fd depth ++ [XArrive s (Ok (d, src))]) = Some w2).
  { unfold wexec in *. rewrite wsteps_app, E, wsteps_app, S1. cbn [wsteps]. rewrite S2. reflexivity. }
  set (x := mkExpected (mkDelivery o s d src) (nextRequestID m) n pdu).
  destruct Q as (k' & om' & os' & Rq & NX & OB & CB & En & Wq). set (m1 := mkMgr (nextRequestID m') [] (callbacks m')) in *.
  destruct (C87_run (tr ++ asked (flav sys) o a fd depth ++ [XArrive s (Ok (d, src))]) w2 o (ctl w) depth [x]) as (w3 & ess & S3 & C3 & L3 & F3 & [Na Nb]).
  - exact E2.
  - intros y z Jz. apply in_app_or in Jz as [Jz|Jz]; [exact (N _ _ Jz)|]. unfold asked in Jz. destruct (flav sys); cbn in Jz; repeat (destruct Jz as [Jz|Jz]; [discriminate Jz|]); exact Jz.
  - exact C1.
  - exact Wb.
  - constructor; [|constructor]. exists sys, m1, strict, ver, com. split; [exact M1|]. split; [exact Im|]. split; [unfold pending, m1; cbn [callbacks x_id x]; rewrite CB, Z.eqb_refl; reflexivity|]. split; [exact Wi|]. split; [exact Rd|]. split; [exact H|exact An].
  - inversion F3 as [|? es ? ? An3 F4]; subst. inversion F4; subst. destruct An3 as [msg Tm]. destruct (Nb o sys m1 M1) as (m2 & M2 & X1 & X2 & X3).
    assert (Fr : forall cb, ~ pending m (nextRequestID m) cb).
    { intros cb P. destruct (C82_alone _ _ _ _ _ E M) as (tr' & st & Ex & Mn & _). rewrite <- Mn in P. apply pending_range in P; [lia|eapply exec_inv; exact Ex]. }
    exists fd, s, w3. exists (pre ++ fresh (asyn w1) B ++ WA (EPoll o) :: concat [map WA (handed (x_del x)) ++ [WM (x_mgr x) (EInvoke (x_id x) (x_cb x) msg); WM (x_mgr x) (EFinished (x_id x) (Ok tt)); WA (ECbEnd (x_mgr x) (Ok tt))]] ++ [WA (EPollEnd o (Ok tt))]).
    exists k, om, os, msg, m2. rewrite (fresh_eq _ _ _ Lb). cbn [concat map app handed x_del x_mgr x_id x_cb x v_mgr v_sock v_data v_src]. repeat split.
    + unfold request_and_answer. change ([XCall o a; XRun o] ++ ?u ++ ?v) with ([XCall o a; XRun o] ++ (u ++ v)). rewrite app_assoc. fold (asked (flav sys) o a fd depth). rewrite wsteps_app, S1.
      change (wsteps w1 ([XArrive s (Ok (d, src))] ++ (XGoOn depth :: deliver depth [x] ++ [XGoOn depth])) = Some w3). rewrite wsteps_app. cbn [wsteps]. rewrite S2. exact S3.
    + exact C3.
    + rewrite L3. unfold w2. cbn [wlog]. rewrite L1, (fresh_eq _ _ _ Lb). cbn. rewrite <- !app_assoc. reflexivity.
    + destruct (C82_asyncore _ _ E) as (atr' & A' & Lt). rewrite <- Lt. destruct (aexec_inv _ _ A') as [I _]. eapply (i_role _ I); eassumption.
    + apply in_or_app. left. exact Sent.
    + apply Wr.
    + apply Wr.
    + exact Tm.
    + unfold history in *. rewrite flat_map_app, H1. cbn. rewrite Nat.eqb_refl. reflexivity.
    + exact M2.
    + rewrite X1. cbn. exact NX.
    + exact X2.
    + intros P. apply X3 in P as [P Ne]. unfold pending, m1 in P |- *. cbn [callbacks] in P. rewrite CB in P. destruct (Z.eqb_spec id (nextRequestID m)) as [->|_]; [|exact P]. exfalso. apply Ne. exists x. repeat split. left. reflexivity.
    + intros P. apply X3. unfold pending, m1. cbn [callbacks]. rewrite CB. destruct (Z.eqb_spec id (nextRequestID m)) as [->|Ni]; [exfalso; exact (Fr _ P)|]. split; [exact P|]. intros (y & [<-|[]] & _ & Qy). apply Ni. symmetry. exact Qy.
    + rename q into z, H0 into Nq. unfold history in *. rewrite flat_map_app, (Hq1 z Nq). cbn. destruct (Nat.eqb_spec o z); [congruence|reflexivity].
    + rename q into z, H0 into Nq. rewrite Na; [apply Mq1; exact Nq|]. intros [Y|[]]. exact (Nq (eq_sym Y)).
Qed.
Print Assumptions C87_round_trip.
(** *** Examples: the two managers of C82's example, both waiting for an answer to their request 0; and two managers that have done nothing yet *)
Lemma sample_wire_v2 : wire true (message_tree 1 [112] (sample_pdu 0)) (sample_octets 1 0).
Proof.
  assert (O : oid_survives [1; 3; 6]) by (cbn; repeat split; try lia; repeat constructor; lia).
  assert (S : request_shape (match sample_pdu 0 with TSeq _ l => l | _ => [] end)) by (apply sample_shape; unfold in32; lia).
  assert (I0 : int_survives 0) by (left; lia). assert (I5 : int_survives 5) by (left; lia). assert (I1 : int_survives 1) by (left; lia).
  apply (writes_all Upto1905 (VSeq CSequence [VInt CInteger 1; VOct COctetString (VPyStr [112]);
    VSeq CResponse_v2 [VInt CInteger32 0; VInt CErrorStatus_v2 0; VInt CInteger 0; VSeq CVarBindList_v2 [VSeq CVarBind_v2 [VOid (Some [1; 3; 6]); VInt CInteger 5]]]]));
  try reflexivity.
  cbn -[oid_survives int_survives request_shape]. repeat split; auto; try lia; repeat constructor; lia.
Qed.
Definition two_waiting : list wlabel := two_asked ++ [XArrive 1 (Ok (sample_octets 1 0, ([], 161))); XArrive 0 (Ok (sample_octets 0 0, ([], 161)))].
Definition both : list expected :=
  [mkExpected (mkDelivery 0 0 (sample_octets 0 0) ([], 161)) 0 7 (sample_pdu 0); mkExpected (mkDelivery 1 1 (sample_octets 1 0) ([], 161)) 0 8 (sample_pdu 0)].
Lemma two_expected tr qe : (exists m, man_of (world_of tr) 0 = Some (mkSys FV1 Upto1905 qe None Text, m) /\ dict_get (callbacks m) 0 = Some (Cb 7)) ->
  (exists m, man_of (world_of tr) 1 = Some (mkSys FV2 Upto1905 (Some (Cb 5)) None Text, m) /\ dict_get (callbacks m) 0 = Some (Cb 8)) -> Forall (expects (world_of tr) 9) both.
Proof.
  intros (m0 & M0 & P0) (m1 & M1 & P1). constructor; [|constructor; [|constructor]].
  - exists (mkSys FV1 Upto1905 qe None Text), m0, true, 0, [112]. split; [exact M0|]. split; [cbn; auto|]. split; [exact P0|]. split; [exact (proj1 sample_wire)|]. split; [exact (proj2 sample_wire)|]. split; [cbn; lia|]. split; [reflexivity|]. do 4 eexists. reflexivity.
  - exists (mkSys FV2 Upto1905 (Some (Cb 5)) None Text), m1, true, 1, [112]. split; [exact M1|]. split; [reflexivity|]. split; [exact P1|]. split; [exact sample_wire_v2|]. split; [exact (proj2 sample_wire)|]. split; [cbn; lia|]. split; [reflexivity|]. do 4 eexists. reflexivity.
Qed.
Example C87_example_run : wexec two_waiting = Some (world_of two_waiting) /\ (forall o r, ~ In (XHandleClose o r) two_waiting) /\ ctl (world_of two_waiting) = [WRun 0 Polling] /\
  waiting (asyn (world_of two_waiting)) = map (fun x => as_waiting (x_del x)) both /\ Forall (expects (world_of two_waiting) 9) both.
Proof.
  split; [vm_compute; reflexivity|]. split; [intros o r J; repeat (destruct J as [J|J]; [discriminate J|]); destruct J|]. split; [vm_compute; reflexivity|]. split; [vm_compute; reflexivity|].
  eapply two_expected; eexists; (split; [vm_compute; reflexivity|vm_compute; reflexivity]).
Qed.
(** poll() called inside the queueEmpty callback of the first, on the second *)
Definition two_interrupted : list wlabel :=
  [XNew FV1 Upto1905 (Some (Cb 6)) None ([], 0) opens 3; XNew FV2 Upto1905 (Some (Cb 5)) None ([], 0) opens 4;
   XCall 0 (sample_get 7); XCall 1 (AGet (VPyList [VPyStr [49; 46; 51]]) ([], 161) (Cb 8) (VPyStr [112]) 1); XRun 0; XSend opens 5 (Ok tt); XSend opens 5 (Ok tt);
   XArrive 1 (Ok (sample_octets 1 0, ([], 161))); XArrive 0 (Ok (sample_octets 0 0, ([], 161)))].
Example C87_example_poll : wexec two_interrupted = Some (world_of two_interrupted) /\ (forall o r, ~ In (XHandleClose o r) two_interrupted) /\ ctl (world_of two_interrupted) = [WEmpty 0; WRun 0 Polling] /\ user_code (ctl (world_of two_interrupted)) = true /\
  made (traffic (wlog (world_of two_interrupted))) 1 /\
  waiting (asyn (world_of two_interrupted)) = map (fun x => as_waiting (x_del x)) both /\ Forall (expects (world_of two_interrupted) 9) both.
Proof.
  split; [vm_compute; reflexivity|]. split; [intros o r J; repeat (destruct J as [J|J]; [discriminate J|]); destruct J|]. split; [vm_compute; reflexivity|]. split; [vm_compute; reflexivity|]. split; [vm_compute; auto 20|]. split; [vm_compute; reflexivity|].
  eapply two_expected; eexists; (split; [vm_compute; reflexivity|vm_compute; reflexivity]).
Qed.
Definition two_made : list wlabel := [XNew FV2 Upto1905 None None ([], 0) opens 4; XNew FV1 Upto1905 None None ([], 0) opens 3].
Example C87_example_trip : exists sys m' r, wexec two_made = Some (world_of two_made) /\ (forall o r, ~ In (XHandleClose o r) two_made) /\ user_code (ctl (world_of two_made)) = true /\
  man_of (world_of two_made) 1 = Some (sys, mgr0) /\ importable sys /\ queueEmpty sys = None /\ registered (asyn (world_of two_made)) 1 /\ waiting (asyn (world_of two_made)) = [] /\
  do_call (flav sys) (sample_get 7) mgr0 = (m', r) /\ SpecManager.queued mgr0 m' r 0 ([], 161) (Cb 7) (message_tree 0 [112] (request_tree KGet 0 0 0 [([1; 3; 6], TNull KNull)])) /\
  wire true (message_tree 0 [112] (sample_pdu 0)) (sample_octets 0 0) /\ readable (imports sys) (sample_pdu 0) /\ (S (height (sample_pdu 0)) <= 9)%nat /\ answer_to (flav sys) 0 (sample_pdu 0) 0.
Proof.
  exists (mkSys FV1 Upto1905 None None Text). destruct (do_call FV1 (sample_get 7) mgr0) as [m' r] eqn:D. exists m', r.
  split; [vm_compute; reflexivity|]. split; [intros o x J; repeat (destruct J as [J|J]; [discriminate J|]); destruct J|]. split; [vm_compute; reflexivity|]. split; [vm_compute; reflexivity|]. split; [cbn; auto|]. split; [reflexivity|].
  split; [unfold registered; do 4 eexists; vm_compute; repeat split; auto|]. split; [vm_compute; reflexivity|]. split; [exact D|].
  split; [|split; [exact (proj1 sample_wire)|split; [exact (proj2 sample_wire)|split; [cbn; lia|split; [reflexivity|do 4 eexists; reflexivity]]]]].
  refine (C47_get_on_wire FV1 (VPyStr [49; 46; 51; 46; 54]) ([], 161) (Cb 7) [112] 1 [[1; 3; 6]] mgr0 m' r _ _ _ _ _ D).
  - discriminate.
  - eexists. split; vm_compute; reflexivity.
  - constructor; [|constructor]. cbn. repeat split; try lia; repeat constructor; lia.
  - cbn. lia.
  - cbn. lia.
Qed.
