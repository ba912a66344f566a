(** * C82-C86: several SNMP managers in one process.  The vocabulary is in SpecProcess (with SpecManager, SpecAsyn and SpecNetwork); the
    proofs are in ProofsProcess and its successors. *)
From Coq Require Import ZArith List Bool Lia Sorted.
From Verif Require Import PyBase Classes Values Codec Manager Role Asyn Process SpecAsyn SpecManager SpecNetwork SpecProcess.
From Verif Require Import ProofsAsyn ProofsAsynLog ProofsHistory ProofsManager ProofsNetwork ProofsProcess ProofsProcessStep ProofsProcessStack ProofsProcessLog ProofsProcessMore ProofsProcessCalm ProofsProcessClose ProofsProcessCause.
From Verif Require Import PropertiesManager PropertiesTraffic PropertiesNetwork PropertiesAsyn.
Import ListNotations.
Open Scope Z_scope.

(** ** C82: each manager lives as if it were alone *)
(** C82. Whatever the managers of a process do, and whoever polls, each manager is in a state, and has a history, that it could have in an
    execution alone (Manager.exec) with the datagrams of its own sockets and the calls made on it: all of C32-C42 holds of it. *)
Theorem C82_alone : forall tr w o sys m, wexec tr = Some w -> man_of w o = Some (sys, m) ->
  exists tr' st, exec sys tr' = Some st /\ man st = m /\ filter lasting (log st) = history o (wlog w) /\ seen_by o (wlog w) sys tr'.
Proof. intros tr w o sys m E M. exact (proj2 (alone _ _ _ _ _ E M)). Qed.
Print Assumptions C82_alone.
(** C82. What asyncore and the kernel do is an execution of Asyn: all of C69-C72 holds of it. *)
Theorem C82_asyncore : forall tr w, wexec tr = Some w -> exists atr, aexec atr = Some (asyn w) /\ alog (asyn w) = traffic (wlog w).
Proof. intros tr w E. pose proof (wexec_inv _ _ E) as I. destruct (w_asyn _ I) as [atr A]. exists atr. split; [exact A|]. symmetry. apply (w_traffic _ I). Qed.
Print Assumptions C82_asyncore.
(** C82. A response callback of [o] is called only with a message that carries the id of an earlier request made on [o] itself with that
    callback, and that was decoded from a datagram read before from a socket that [o] made - though the other managers use the same ids. *)
Theorem C82_callback : forall tr w wl1 o id n msg wl2, wexec tr = Some w -> wlog w = wl1 ++ WM o (EInvoke id n msg) :: wl2 ->
  carries msg id /\
  (exists a v wl wl', wl1 = wl ++ WM o (ECall a (Ok (RVal v))) :: wl' /\ request_callback a = Some (Cb n) /\ id_number v = Some id) /\
  exists sys s d src depth, is_manager w o sys /\ message_decode (reg_of (imports sys)) depth (message_class (flav sys)) (DStr d) = Ok msg /\
    opened_by (traffic wl1) s o /\ In (WA (ERecv s (Ok (d, src)))) wl1.
Proof.
  intros tr w wl1 o id n msg wl2 E L. destruct (event_alone _ _ _ _ _ _ E L eq_refl) as (sys & m & tr' & st & l1 & l2 & M & T & X & Mn & Ll & H1 & H2 & S).
  destruct (C34_response_to_its_request _ _ _ _ _ _ _ _ X Ll) as (C & (l0 & a & v & l0' & El & R & V) & _ & tr1 & l & tr2 & st1 & depth & d & Et & X1 & L1 & De & Dm & _).
  split; [exact C|]. split.
  - exists a, v. rewrite El, filter_app in H1. cbn in H1. assert (J : In (WM o (ECall a (Ok (RVal v)))) wl1) by (apply history_in; [reflexivity|]; rewrite <- H1; apply in_or_app; right; left; reflexivity).
    apply in_split in J as (wl & wl' & ->). exists wl, wl'. auto.
  - pose proof (S _ _ _ _ Et X1) as Hp. destruct l as [? |? ? ?|[|dp x src|e]| | | |]; try contradiction. cbn in De, Hp. destruct De as (-> & -> & _). rewrite T in Dm. cbn in Dm.
    rewrite L1, H1 in Hp. destruct (came_before _ _ _ _ _ _ _ _ L eq_refl eq_refl Hp) as (a' & b' & Ea & _).
    rewrite Ea, <- app_assoc in L. cbn in L. destruct (heard _ _ _ _ _ _ _ E L) as (s & Op & Rc & _). exists sys, s, x, src, depth. split; [exists m; exact M|]. split; [exact Dm|].
    rewrite Ea, traffic_app. split; [apply opened_more; exact Op|]. apply in_or_app. left. exact Rc.
Qed.
Print Assumptions C82_callback.
(** C82. A trap callback of [o] is the one given to the constructor of [o], called only with a trap decoded from a datagram read before from a socket that [o] made. *)
Theorem C82_trap : forall tr w wl1 o n msg wl2, wexec tr = Some w -> wlog w = wl1 ++ WM o (EInvokeTrap n msg) :: wl2 ->
  exists sys s d src depth, is_manager w o sys /\ trapCallback sys = Some (Cb n) /\ class_of (m_data msg) = Some CTrapPDU /\
    message_decode (reg_of (imports sys)) depth (message_class (flav sys)) (DStr d) = Ok msg /\ opened_by (traffic wl1) s o /\ In (WA (ERecv s (Ok (d, src)))) wl1.
Proof.
  intros tr w wl1 o n msg wl2 E L. destruct (event_alone _ _ _ _ _ _ E L eq_refl) as (sys & m & tr' & st & l1 & l2 & M & T & X & Mn & Ll & H1 & H2 & S).
  destruct (C46_only_traps _ _ _ _ _ _ _ X Ll) as (Tc & Cl & _ & tr1 & l & tr2 & st1 & depth & d & Et & X1 & L1 & De & Dm).
  pose proof (S _ _ _ _ Et X1) as Hp. destruct l as [? |? ? ?|[|dp x src|e]| | | |]; try contradiction. cbn in De, Hp. destruct De as (-> & -> & _). rewrite T in Dm. cbn in Dm.
  rewrite L1, H1 in Hp. destruct (came_before _ _ _ _ _ _ _ _ L eq_refl eq_refl Hp) as (a' & b' & Ea & _).
  rewrite Ea, <- app_assoc in L. cbn in L. destruct (heard _ _ _ _ _ _ _ E L) as (s & Op & Rc & _). exists sys, s, x, src, depth. split; [exists m; exact M|]. split; [exact Tc|]. split; [exact Cl|]. split; [exact Dm|].
  rewrite Ea, traffic_app. split; [apply opened_more; exact Op|]. apply in_or_app. left. exact Rc.
Qed.
Print Assumptions C82_trap.
(** C82. Once a response callback of [o] has returned normally, no callback of [o] is called for that id again, whatever other managers do. *)
Theorem C82_once : forall tr w wl1 o id wl2, wexec tr = Some w -> wlog w = wl1 ++ WM o (EFinished id (Ok tt)) :: wl2 -> forall n msg, ~ In (WM o (EInvoke id n msg)) wl2.
Proof.
  intros tr w wl1 o id wl2 E L n msg J. destruct (event_alone _ _ _ _ _ _ E L eq_refl) as (sys & m & tr' & st & l1 & l2 & M & T & X & Mn & Ll & H1 & H2 & S).
  destruct (C35_not_invoked_again _ _ _ _ _ _ X Ll) as [N _]. apply (history_in o) in J; [|reflexivity]. rewrite <- H2 in J. apply filter_In in J as [J _].
  unfold invocations in N. apply length_zero_iff_nil in N. assert (Q : In (EInvoke id n msg) []) by (rewrite <- N; apply filter_In; split; [exact J|apply Z.eqb_refl]). exact Q.
Qed.
Print Assumptions C82_once.
(** C82. The ids a manager hands out are its own 0, 1, 2, ..., whatever ids others hand out. *)
Theorem C82_ids : forall tr w o, wexec tr = Some w ->
  StronglySorted Z.lt (handed_out (history o (wlog w))) /\
  (Forall (fun e => ~ call_failed e) (history o (wlog w)) -> handed_out (history o (wlog w)) = map Z.of_nat (seq 0 (length (handed_out (history o (wlog w)))))).
Proof.
  intros tr w o E. destruct (man_of w o) as [[sys m]|] eqn:M.
  - destruct (alone _ _ _ _ _ E M) as (T & tr' & st & X & Mn & H & S). destruct (C32_ids_consecutive _ _ _ X) as (A & _ & C). rewrite <- H, handed_lasting. split; [exact A|].
    intros F. apply C. rewrite Forall_forall in F |- *. intros e J. destruct (lasting e) eqn:La; [apply F; apply filter_In; auto|]. destruct e; try discriminate La. intros (? & ? & Q). discriminate Q.
  - pose proof (w_lives _ (wexec_inv _ _ E) o) as Lv. unfold lives in Lv. rewrite M in Lv. destruct Lv as [_ ->]. split; [constructor|reflexivity].
Qed.
Print Assumptions C82_ids.
(** C82. What a manager has taken from its queue is a prefix of what was put there, in order; what it has sent is what it took, encoded. *)
Theorem C82_fifo : forall tr w o sys m, wexec tr = Some w -> man_of w o = Some (sys, m) ->
  puts (history o (wlog w)) = takes (history o (wlog w)) ++ outbound m /\ sends (history o (wlog w)) = flat_map octets_of (takes (history o (wlog w))).
Proof.
  intros tr w o sys m E M. destruct (alone _ _ _ _ _ E M) as (T & tr' & st & X & Mn & H & S). destruct (C39_fifo _ _ _ X) as [A B]. rewrite <- H, puts_lasting, takes_lasting, sends_lasting, <- Mn. auto.
Qed.
Print Assumptions C82_fifo.
(** C82. Every datagram that leaves the process leaves through a socket of the manager whose run() took the message, with its octets, to its destination. *)
Theorem C82_transmitted : forall tr w wl1 s os dst wl2, wexec tr = Some w -> wlog w = wl1 ++ WA (ESentto s os dst) :: wl2 ->
  exists o msg wl3, opened_by (traffic wl1) s o /\ snd (message_encode msg) = Ok os /\
    wl2 = WA (Asyn.ESend o (Ok tt)) :: WM o (ETake (Some msg) dst) :: WM o (Manager.ESend os dst (Ok tt)) :: wl3.
Proof. intros tr w wl1 s os dst wl2 E L. exact (sent_forward _ (wexec_sent _ _ E) _ _ _ _ _ L). Qed.
Print Assumptions C82_transmitted.
Theorem C82_sent : forall tr w wl1 o os dst wl2, wexec tr = Some w -> wlog w = wl1 ++ WM o (Manager.ESend os dst (Ok tt)) :: wl2 ->
  exists wl0 s msg, wl1 = wl0 ++ [WA (ESentto s os dst); WA (Asyn.ESend o (Ok tt)); WM o (ETake (Some msg) dst)] /\ opened_by (traffic wl0) s o /\ snd (message_encode msg) = Ok os.
Proof. intros tr w wl1 o os dst wl2 E L. exact (sent_back _ (wexec_sent _ _ E) _ _ _ _ _ L). Qed.
Print Assumptions C82_sent.
(** *** An example: a v1 manager and a v2 manager both ask with id 0 and both get their own answer, during run() of the first *)
Definition two_asked : list wlabel :=
  [XNew FV1 Upto1905 None None ([], 0) opens 3; XNew FV2 Upto1905 (Some (Cb 5)) None ([], 0) opens 4;
   XCall 0 (sample_get 7); XCall 1 (AGet (VPyList [VPyStr [49; 46; 51]]) ([], 161) (Cb 8) (VPyStr [112]) 1);
   XRun 1; XSend opens 5 (Ok tt); XSend opens 5 (Ok tt); XRaise (UserExn 3);
   XRun 0; XSend opens 5 (Ok tt); XSend opens 5 (Ok tt)].
Definition two_answered : list wlabel :=
  two_asked ++ [XArrive 1 (Ok (sample_octets 1 0, ([], 161))); XArrive 0 (Ok (sample_octets 0 0, ([], 161))); XGoOn 9; XGoOn 9; XReturn; XGoOn 9; XReturn].
Definition world_of (tr : list wlabel) : world := match wexec tr with Some w => w | None => winit end.
Definition callbacks_called (wl : list wevent) : list (nat * Z * nat) := flat_map (fun e => match e with WM o (EInvoke id n _) => [(o, id, n)] | _ => [] end) wl.
Example C82_example : wexec two_answered = Some (world_of two_answered) /\ callbacks_called (wlog (world_of two_answered)) = [(0%nat, 0, 7%nat); (1%nat, 0, 8%nat)] /\
  In (WM 1 (EFinished 0 (Ok tt))) (wlog (world_of two_answered)) /\ handed_out (history 1 (wlog (world_of two_answered))) = [0] /\
  (exists wl1 os wl2, wlog (world_of two_answered) = wl1 ++ WA (ESentto 1 os ([], 161)) :: wl2) /\ exists sys m, man_of (world_of two_answered) 1 = Some (sys, m).
Proof.
  split; [vm_compute; reflexivity|]. split; [vm_compute; reflexivity|]. split; [vm_compute; auto 40|]. split; [vm_compute; reflexivity|]. split; [|vm_compute; eauto].
  eexists (firstn 8 (wlog (world_of two_answered))), _, _. vm_compute. reflexivity.
Qed.

(** ** C83: behind agents, answers are genuine *)
(** C83. If whatever arrives at a manager's sockets answers a request this manager sent before to the source address, then every response
    callback gets an answer to the very request it was registered with, from the address it was sent to - also if other managers poll. *)
Theorem C83_answers_are_genuine : forall tr w wl1 o id n msg wl2, wexec tr = Some w -> behind_agents w -> wlog w = wl1 ++ WM o (EInvoke id n msg) :: wl2 ->
  exists sys depth d dst a k q os, is_manager w o sys /\
    In (WA (ECb o (Data d dst))) wl1 /\ message_decode (reg_of (imports sys)) depth (message_class (flav sys)) (DStr d) = Ok msg /\
    In (WM o (ECall a (Ok (RVal (VInt k id))))) wl1 /\ request_callback a = Some (Cb n) /\ asked_destination a = Some dst /\
    In (WM o (EPut (Some q) dst)) wl1 /\ carries q id /\ snd (message_encode q) = Ok os /\ In (WM o (Manager.ESend os dst (Ok tt))) wl1 /\ answers os d.
Proof.
  intros tr w wl1 o id n msg wl2 E B L. destruct (event_alone _ _ _ _ _ _ E L eq_refl) as (sys & m & tr' & st & l1 & l2 & M & T & X & Mn & Ll & H1 & H2 & S).
  destruct (C77_answers_are_genuine _ _ _ _ _ _ _ _ X (networked_alone _ _ _ _ _ E B S) Ll) as (tr1 & depth & d & dst & tr2 & st1 & l0 & a & k & q & l0' & os & Et & X1 & L1 & Dm & El & R & Ad & En & Is & An).
  pose proof (S _ _ _ _ Et X1) as Hp. cbn in Hp. rewrite L1, H1 in Hp. destruct (came_before _ _ _ _ _ _ _ _ L eq_refl eq_refl Hp) as (a' & b' & Ea & _).
  assert (K : forall e, lasting e = true -> In e l1 -> In (WM o e) wl1).
  { intros e La J. apply history_in; [exact La|]. rewrite <- H1. apply filter_In. auto. }
  exists sys, depth, d, dst, a, k, q, os. split; [exists m; exact M|]. split; [rewrite Ea; apply in_or_app; right; left; reflexivity|]. split; [exact Dm|].
  split; [apply K; [reflexivity|]; rewrite El; apply in_or_app; right; left; reflexivity|]. split; [exact R|]. split; [exact Ad|].
  split; [apply K; [reflexivity|]; rewrite El; apply in_or_app; right; right; left; reflexivity|].
  split.
  { pose proof Ll as Ll'. rewrite El in Ll'. rewrite <- app_assoc in Ll'. cbn in Ll'. destruct (C32_queued_ids _ _ _ _ _ _ _ _ X Ll' R) as (id' & msg' & dst' & l3 & I1 & I2 & I3 & _). injection I2 as <- <- _. cbn in I1. injection I1 as ->. exact I3. }
  split; [exact En|]. split; [apply K; [reflexivity|exact Is]|exact An].
Qed.
Print Assumptions C83_answers_are_genuine.

(** *** An example: two v1 managers ask the same; both answers come, the second manager's answer twice, while the first runs *)
Definition agents_trace : list wlabel :=
  [XNew FV1 Upto1905 None None ([], 0) opens 3; XNew FV1 Upto1905 (Some (Cb 5)) None ([], 0) opens 4; XCall 0 (sample_get 7); XCall 1 (sample_get 8);
   XRun 1; XSend opens 5 (Ok tt); XSend opens 5 (Ok tt); XRaise (UserExn 3); XRun 0; XSend opens 5 (Ok tt); XSend opens 5 (Ok tt);
   XArrive 1 (Ok (sample_octets 0 0, ([], 161))); XArrive 0 (Ok (sample_octets 0 0, ([], 161))); XGoOn 9; XGoOn 9; XReturn; XGoOn 9].
Example C83_example : exists w, wexec agents_trace = Some w /\ behind_agents w /\ callbacks_called (wlog w) = [(0%nat, 0, 7%nat); (1%nat, 0, 8%nat)].
Proof.
  exists (world_of agents_trace). split; [vm_compute; reflexivity|]. split; [|vm_compute; reflexivity]. split.
  - intros wl1 s d src wl2 o E Op. vm_compute in E. assert (Own : o = s).
    { destruct Op as [fd Op]. vm_compute in Op. repeat (destruct Op as [Op|Op]; [first [discriminate Op|injection Op as <- <- _; reflexivity]|]). contradiction. }
    subst o. repeat (destruct wl1 as [|? wl1]; [first [discriminate E|injection E as <- <- <- _; exists sample_request; split; [cbn [In]; auto 30|split; [vm_compute; reflexivity|exact sample_answers]]]|injection E as <- E]).
    destruct wl1; discriminate E.
  - intros o dst pdu com ver r J. vm_compute in J. repeat (destruct J as [J|J]; [discriminate J|]). contradiction.
Qed.

(** ** C84: managers are not isolated from each other's exceptions *)
(** C84. An exception raised in a response callback of a manager [o] (v1.SNMP or snmpManager, or SystemExit in any), while run() of a manager [p] polls - possibly another one -
    ends run() of [p] with that exception (unless [p] is an snmpManager and it is queue.Empty, which it takes for its own queue being empty); nothing
    else changes in any manager: [o] has still not given up the request, and the queue of [p] is as it was. *)
Theorem C84_ends_run : forall tr w o id p k sys m sysp mp e, wexec tr = Some w -> ctl w = WResp o id :: WRun p Polling :: k ->
  man_of w o = Some (sys, m) -> flav sys <> FV2 \/ e = SystemExit -> man_of w p = Some (sysp, mp) -> ~ takes_for_empty sysp e ->
  exists n es w', wsteps w (XRaise e :: repeat (XGoOn 0) n) = Some w' /\ ctl w' = k /\ same_managers w w' /\
    wlog w' = wlog w ++ WM o (EFinished id (Err e)) :: map WA es ++ [WA (EPollEnd p (Err e)); WM p (EResult (Err e))].
Proof.
  intros tr w o id p k sys m sysp mp e E C M F Mp N. destruct (in_poll w o _ p k (wexec_sinv _ _ E) C (or_introl (ex_intro _ id eq_refl))) as ((b & rest & a & S) & _).
  assert (G : guard (flav sys) (Err e) = Err e) by (destruct F as [F| ->]; destruct (flav sys); first [reflexivity|contradiction]).
  set (w0 := acts w o sys m [EFinished id (Err e)] (ctl w)).
  assert (Sm : same_managers w w0) by (apply same_upd; exact M).
  destruct (poll_fails w0 o b p rest a k sysp mp e) as (w1 & n & es & w' & R & W & Ck & Sm' & L); [exact S|rewrite Sm; exact Mp|exact N|].
  exists n, es, w'. split; [cbn [wsteps wstep]; rewrite C, M; unfold after_response; rewrite G; rewrite <- C; fold w0; rewrite R; exact W|].
  split; [exact Ck|]. split; [intros q; rewrite Sm', Sm; reflexivity|]. rewrite L. unfold w0, acts. cbn [wlog map]. rewrite <- app_assoc. reflexivity.
Qed.
Print Assumptions C84_ends_run.
(** C84. The same for a trap callback. *)
Theorem C84_trap_ends_run : forall tr w o p k sys m sysp mp e, wexec tr = Some w -> ctl w = WTrap o :: WRun p Polling :: k ->
  man_of w o = Some (sys, m) -> flav sys <> FV2 \/ e = SystemExit -> man_of w p = Some (sysp, mp) -> ~ takes_for_empty sysp e ->
  exists n es w', wsteps w (XRaise e :: repeat (XGoOn 0) n) = Some w' /\ ctl w' = k /\ same_managers w w' /\
    wlog w' = wlog w ++ map WA es ++ [WA (EPollEnd p (Err e)); WM p (EResult (Err e))].
Proof.
  intros tr w o p k sys m sysp mp e E C M F Mp N. destruct (in_poll w o _ p k (wexec_sinv _ _ E) C (or_intror (or_introl eq_refl))) as ((b & rest & a & S) & _).
  destruct (poll_fails w o b p rest a k sysp mp e S Mp N) as (w1 & n & es & w' & R & W & Ck & Sm' & L). exists n, es, w'.
  assert (G : guard (flav sys) (Err e) = Err e) by (destruct F as [F| ->]; destruct (flav sys); first [reflexivity|contradiction]).
  split; [cbn [wsteps wstep]; rewrite C, M, G, R; exact W|]. auto.
Qed.
Print Assumptions C84_trap_ends_run.
(** C84. So does a datagram for [o] at which its receiveData raises (C41: no v2.SNMP does; for which datagrams the others do, see C28 and C36). *)
Theorem C84_datagram_ends_run : forall tr w o d src p k sys m sysp mp e depth x, wexec tr = Some w -> ctl w = WGot o d src :: WRun p Polling :: k ->
  man_of w o = Some (sys, m) -> receiveData sys m depth (DStr d) = (Done (Err e), x) -> man_of w p = Some (sysp, mp) -> ~ takes_for_empty sysp e ->
  exists n es w', wsteps w (XGoOn depth :: repeat (XGoOn 0) n) = Some w' /\ ctl w' = k /\ same_managers w w' /\
    wlog w' = wlog w ++ map WA es ++ [WA (EPollEnd p (Err e)); WM p (EResult (Err e))].
Proof.
  intros tr w o d src p k sys m sysp mp e depth x E C M Rd Mp N. destruct (in_poll w o _ p k (wexec_sinv _ _ E) C (or_intror (or_intror (ex_intro _ d (ex_intro _ src eq_refl))))) as ((b & rest & a & S) & _).
  destruct (poll_fails w o b p rest a k sysp mp e S Mp N) as (w1 & n & es & w' & R & W & Ck & Sm' & L). exists n, es, w'.
  split; [cbn [wsteps wstep]; rewrite C, M, Rd, R; exact W|]. auto.
Qed.
Print Assumptions C84_datagram_ends_run.
(** C84. An exception, except SystemExit, in a callback of a v2.SNMP does not: poll() goes on as after a normal return. *)
Theorem C84_v2_goes_on : forall tr w o id k sys m e, wexec tr = Some w -> ctl w = WResp o id :: k -> man_of w o = Some (sys, m) -> flav sys = FV2 -> e <> SystemExit ->
  exists w' es A, wstep w (XRaise e) = Some w' /\ same_managers w w' /\ astep (asyn w) AReturn = Some A /\ asyn w' = A /\
    wlog w' = wlog w ++ WM o (EFinished id (Err e)) :: WA (ECbEnd o (Ok tt)) :: map WA es.
Proof.
  intros tr w o id k sys m e E C M F Ne. pose proof (s_atop _ (wexec_sinv _ _ E)) as T. rewrite C in T.
  assert (P : exists b p rest a, astack (asyn w) = FCallback o b :: FPolling p rest :: a) by (inversion T as [? ? B E1 E2| | | | |]; subst; inversion B; subst; eauto 8).
  assert (G : guard FV2 (Err e) = Ok tt) by (destruct e; first [reflexivity|contradiction]).
  destruct P as (b & p & rest & a & S). destruct (ext_log _ _ (ext_serve rest (say (asyn w) (ECbEnd o (Ok tt))) p a)) as [es L].
  eexists; exists es; eexists. split; [cbn [wstep]; rewrite C, M; unfold after_response; rewrite F, G; unfold received_by, asyncore, acts; cbn [astep asyn]; rewrite S; reflexivity|].
  split; [exact (same_upd w o sys m _ _ _ M)|]. split; [cbn [astep]; rewrite S; reflexivity|]. split; [reflexivity|]. cbn [wlog acts].
  rewrite (fresh_eq _ _ (ECbEnd o (Ok tt) :: es)) by (rewrite L; cbn; rewrite <- app_assoc; reflexivity). cbn [map]. rewrite <- app_assoc. reflexivity.
Qed.
Print Assumptions C84_v2_goes_on.
Theorem C84_v2_trap_goes_on : forall tr w o k sys m e, wexec tr = Some w -> ctl w = WTrap o :: k -> man_of w o = Some (sys, m) -> flav sys = FV2 -> e <> SystemExit ->
  exists w' es A, wstep w (XRaise e) = Some w' /\ same_managers w w' /\ astep (asyn w) AReturn = Some A /\ asyn w' = A /\ wlog w' = wlog w ++ WA (ECbEnd o (Ok tt)) :: map WA es.
Proof.
  intros tr w o k sys m e E C M F Ne. pose proof (s_atop _ (wexec_sinv _ _ E)) as T. rewrite C in T.
  assert (P : exists b p rest a, astack (asyn w) = FCallback o b :: FPolling p rest :: a) by (inversion T as [? ? B E1 E2| | | | |]; subst; inversion B; subst; eauto 8).
  assert (G : guard FV2 (Err e) = Ok tt) by (destruct e; first [reflexivity|contradiction]).
  destruct P as (b & p & rest & a & S). destruct (ext_log _ _ (ext_serve rest (say (asyn w) (ECbEnd o (Ok tt))) p a)) as [es L].
  eexists; exists es; eexists. split; [cbn [wstep]; rewrite C, M, F, G; unfold received_by, asyncore; cbn [astep]; rewrite S; reflexivity|].
  split; [intros q; reflexivity|]. split; [cbn [astep]; rewrite S; reflexivity|]. split; [reflexivity|]. cbn [wlog].
  rewrite (fresh_eq _ _ (ECbEnd o (Ok tt) :: es)) by (rewrite L; cbn; rewrite <- app_assoc; reflexivity). reflexivity.
Qed.
Print Assumptions C84_v2_trap_goes_on.
(** C84. Nothing else ends a run() or a poll(): whatever it raises is what the poll() of this manager has just raised, what send() or encoding a message has just raised, what the queueEmpty callback
    raises, AttributeError for a message that is None, or TypeError for a queueEmpty that is not callable; and a poll() called by user code returns when asyncore's does. *)
Theorem C84_causes : forall tr w wl1 p r wl2, wexec tr = Some w -> wlog w = wl1 ++ WM p (EResult r) :: wl2 -> exists sys, is_manager w p sys /\ comes_back sys wl1 p r.
Proof. intros tr w wl1 p r wl2 E L. exact (c_caused _ (wexec_cinv _ _ E) _ _ _ _ L). Qed.
Print Assumptions C84_causes.
(** C84. run() never returns normally: when there is one fewer in progress after a step than before, it has raised. *)
Theorem C84_run_ends : forall w l w', wstep w l = Some w' -> (running (ctl w') < running (ctl w))%nat -> exists o wl e, wlog w' = wl ++ [WM o (EResult (Err e))].
Proof. exact run_ends. Qed.
Print Assumptions C84_run_ends.
(** C84. A queueEmpty that is not callable ends run() with TypeError as soon as the queue is empty, and nothing else changes. *)
Theorem C84_not_callable : forall w o k sys m op fd r, ctl w = WRun o Sending :: k -> man_of w o = Some (sys, m) -> outbound m = [] -> queueEmpty sys = Some NotCallable ->
  exists w', wstep w (XSend op fd r) = Some w' /\ ctl w' = k /\ asyn w' = asyn w /\ same_managers w w' /\ wlog w' = wlog w ++ [WM o (EResult (Err TypeError))].
Proof.
  intros w o k sys m op fd r C M Ob Q. eexists. split; [cbn [wstep]; rewrite C, M, Ob; reflexivity|]. unfold nothing_queued. rewrite Q. split; [reflexivity|]. split; [reflexivity|].
  split; [exact (same_upd w o sys m _ _ _ M)|reflexivity].
Qed.
Print Assumptions C84_not_callable.
(** The hypotheses are met: a manager with such a queueEmpty runs; its queue is empty; run() ends. *)
Definition empty_not_callable : list wlabel := [XNew FV1 Upto1905 (Some NotCallable) None ([], 0) opens 3; XRun 0].
Example C84_example_causes : exists w w' m, wexec empty_not_callable = Some w /\ ctl w = [WRun 0 Sending] /\ man_of w 0 = Some (mkSys FV1 Upto1905 (Some NotCallable) None Text, m) /\ outbound m = [] /\
  wstep w (XSend opens 5 (Ok tt)) = Some w' /\ (running (ctl w') < running (ctl w))%nat /\ exists wl1, wlog w' = wl1 ++ [WM 0 (EResult (Err TypeError))].
Proof. do 3 eexists. split; [vm_compute; reflexivity|]. split; [reflexivity|]. split; [reflexivity|]. split; [reflexivity|]. split; [vm_compute; reflexivity|]. split; [vm_compute; lia|]. eexists (_ :: _ :: []). reflexivity. Qed.
(** C84. It is false that what arrives for one manager leaves the others alone: two octets that are no message, for a manager that nobody runs, end
    run() of another one, whose request stays in its queue. *)
Theorem C84_isolation_refuted : exists tr w, wexec tr = Some w /\ In (WA (EArrive 1 (Ok ([1; 1], ([57], 1))))) (wlog w) /\ opened_by (traffic (wlog w)) 1 1 /\
  (exists e, In (WM 0 (EResult (Err e))) (wlog w)) /\ (forall s x, In (WA (EArrive s x)) (wlog w) -> s = 1%nat) /\ ctl w = [] /\ exists sys m, man_of w 0 = Some (sys, m) /\ length (outbound m) = 1%nat.
Proof.
  exists [XNew FSM Upto1905 None None ([], 0) opens 3; XNew FV1 Upto1905 None None ([], 0) opens 4; XCall 0 (sample_get 7); XArrive 1 (Ok ([1; 1], ([57], 1))); XRun 0; XGoOn 9; XGoOn 9; XGoOn 9; XGoOn 9].
  eexists. split; [vm_compute; reflexivity|]. cbn [wlog ctl]. split; [cbn [In]; auto 30|]. split; [exists 4; cbn; auto|]. split; [eexists; do 30 (try (left; reflexivity); right)|].
  split; [intros s x J; repeat (destruct J as [J|J]; [first [discriminate J|injection J as <- _; reflexivity]|]); contradiction|]. split; [reflexivity|]. do 2 eexists. split; reflexivity.
Qed.
Print Assumptions C84_isolation_refuted.
(** C84. The hypotheses are met: manager 0 is in run() while a callback of manager 1 runs. *)
Definition other_called : list wlabel := two_asked ++ [XArrive 1 (Ok (sample_octets 1 0, ([], 161))); XGoOn 9; XGoOn 9].
Example C84_example : wexec other_called = Some (world_of other_called) /\ ctl (world_of other_called) = [WResp 1 0; WRun 0 Polling] /\
  (exists m, man_of (world_of other_called) 1 = Some (mkSys FV2 Upto1905 (Some (Cb 5)) None Text, m)).
Proof. split; [vm_compute; reflexivity|]. split; [vm_compute; reflexivity|]. eexists. vm_compute. reflexivity. Qed.
Example C84_example_v1 : wexec agents_trace = Some (world_of agents_trace) /\ ctl (world_of agents_trace) = [WResp 1 0; WRun 0 Polling] /\
  (exists m, man_of (world_of agents_trace) 1 = Some (mkSys FV1 Upto1905 (Some (Cb 5)) None Text, m)) /\
  (exists m, man_of (world_of agents_trace) 0 = Some (mkSys FV1 Upto1905 None None Text, m)) /\ ~ takes_for_empty (mkSys FV1 Upto1905 None None Text) (UserExn 4).
Proof. split; [vm_compute; reflexivity|]. split; [vm_compute; reflexivity|]. split; [eexists; vm_compute; reflexivity|]. split; [eexists; vm_compute; reflexivity|]. intros [Q _]. discriminate Q. Qed.

(** ** C85: the library never gets stuck *)
(** C85. In every state some user code runs, or recvfrom waits for a datagram, or the library can go on - whatever the kernel answers. *)
Theorem C85_progress : forall tr w, wexec tr = Some w -> user_code (ctl w) = true \/ waits w \/ can_go_on w.
Proof. exact progress. Qed.
Print Assumptions C85_progress.
(** C85. It waits exactly if asyncore does (C72). *)
Theorem C85_waits : forall tr w, wexec tr = Some w -> (waits w <-> hangs (asyn w)).
Proof.
  intros tr w E. pose proof (s_atop _ (wexec_sinv _ _ E)) as T. split.
  - intros [k C]. rewrite C in T. inversion T as [? ? B| | | | |]; subst; [apply below_user in B; discriminate B|]. do 3 eexists. symmetry. eassumption.
  - intros (o & s & rest & S). rewrite S in T. destruct (atop_blocked _ _ _ _ T) as [k C]. exists k. exact C.
Qed.
Print Assumptions C85_waits.
(** C85. If nobody calls handle_close(), and response and trap callbacks neither poll nor run nor make managers, the process never waits in recvfrom, ... *)
Theorem C85_never_waits : forall tr w, calm_process tr -> wexec tr = Some w -> ~ waits w.
Proof.
  intros tr w Ca E W. apply (C85_waits _ _ E) in W. destruct (calm_inv tr w Ca E) as (_ & atr & A & Nh & Cc). exact (C72_never_hangs _ _ Nh Cc A W).
Qed.
Print Assumptions C85_never_waits.
(** ... so that always user code runs, or the library can go on. *)
Theorem C85_calm_progress : forall tr w, calm_process tr -> wexec tr = Some w -> user_code (ctl w) = true \/ can_go_on w.
Proof. intros tr w Ca E. destruct (C85_progress _ _ E) as [U|[W|G]]; auto. elim (C85_never_waits _ _ Ca E W). Qed.
Print Assumptions C85_calm_progress.
(** C85. A callback that polls can make the process wait, with two managers and one answer each. *)
Theorem C85_waits_refuted : exists tr w, wexec tr = Some w /\ (forall o r, ~ In (XHandleClose o r) tr) /\ waits w.
Proof.
  exists (two_asked ++ [XArrive 1 (Ok (sample_octets 1 0, ([], 161))); XArrive 0 (Ok (sample_octets 0 0, ([], 161))); XGoOn 9; XGoOn 9; XPoll 0; XGoOn 9; XReturn; XGoOn 9; XReturn]).
  eexists. split; [vm_compute; reflexivity|]. split; [intros o r J; repeat (destruct J as [J|J]; [discriminate J|]); contradiction|]. eexists. reflexivity.
Qed.
Print Assumptions C85_waits_refuted.
(** The hypotheses are met by the run of C82_example. *)
Example C85_example : calm_process two_answered /\ wexec two_answered <> None.
Proof.
  split; [|vm_compute; discriminate]. split; [intros o r J; repeat (destruct J as [J|J]; [discriminate J|]); contradiction|].
  intros tr1 l tr2 w E X C. unfold two_answered, two_asked in E. cbn [app] in E.
  do 9 (destruct tr1 as [|? tr1]; [injection E as <- _; try exact Logic.I; vm_compute in X; injection X as <-; destruct C as (? & ? & ? & [C|C]); discriminate C|injection E as <- E]).
  repeat (destruct tr1 as [|? tr1]; [injection E as <- _; exact Logic.I|injection E as <- E]). destruct tr1; discriminate E.
Qed.

(** ** C86: close() of one manager *)
(** C86. After close() of a manager [o] - called from anywhere, also from a callback while some run() polls - and as long as nobody calls handle_close(), no callback
    of [o] is called any more, and whatever its run() takes from the queue is not sent: every send raises OSError - in every continuation, whatever the other managers do. *)
Theorem C86_closed_for_good : forall tr w o r w1 tr2 w2, wexec tr = Some w -> (forall y x, ~ In (XHandleClose y x) (tr ++ tr2)) -> wstep w (XClose o r) = Some w1 -> wsteps w1 tr2 = Some w2 ->
  exists wl, wlog w2 = wlog w1 ++ wl /\ (forall id n msg, ~ In (WM o (EInvoke id n msg)) wl) /\ (forall n msg, ~ In (WM o (EInvokeTrap n msg)) wl) /\
    (forall x, In (WA (Asyn.ESend o x)) wl -> x = Err OSError) /\ forall os dst x, ~ In (WM o (Manager.ESend os dst (Ok x))) wl.
Proof.
  intros tr w o r w1 tr2 w2 E N S E2. destruct (closed_for_good _ _ _ _ _ _ _ E N S E2) as (es & L & A & B & C). exists es. split; [exact L|].
  split; [intros id n msg J; exact (A _ J Logic.I)|]. split; [intros n msg J; exact (A _ J Logic.I)|]. split; [exact B|exact C].
Qed.
Print Assumptions C86_closed_for_good.
(** C86. close() of [o] can be called whenever user code runs, returns there, and leaves the others alone: no manager's queue, ids or callbacks change (not even those of [o]),
    the other managers stay registered with asyncore, and the datagrams waiting for them go on waiting. *)
Theorem C86_others : forall tr w o r, wexec tr = Some w -> (forall y x, ~ In (XHandleClose y x) tr) -> user_code (ctl w) = true -> made (traffic (wlog w)) o ->
  exists w1 x, wstep w (XClose o r) = Some w1 /\ ctl w1 = ctl w /\ same_managers w w1 /\ wlog w1 = wlog w ++ [WA (EClose o x)] /\
    ~ registered (asyn w1) o /\ (forall y, y <> o -> registered (asyn w) y -> registered (asyn w1) y) /\
    waiting (asyn w1) = filter (fun v => negb (Nat.eqb (fst (fst v)) o)) (waiting (asyn w)).
Proof.
  intros tr w o r E N U M. pose proof (wexec_inv _ _ E) as I. destruct (follow tr winit w E N) as (atr & A & Nh).
  assert (Ma : made (alog (asyn w)) o) by (rewrite <- (w_traffic _ I); exact M).
  pose proof (below_auser _ _ (atop_user _ _ (s_atop _ (wexec_sinv _ _ E)) U)) as Au. pose proof (made_obj _ _ _ A Ma) as O.
  assert (Sa : exists B, astep (asyn w) (AClose o r) = Some B) by (cbn [astep]; unfold with_obj; rewrite Au; destruct (obj (asyn w) o); [eauto|contradiction]).
  destruct Sa as [B Sa]. destruct (C71_close _ _ _ _ _ A Nh Sa) as (D1 & D2 & D3 & x & L).
  eexists. exists x. split; [cbn [wstep]; rewrite U; unfold aside; rewrite Sa; reflexivity|]. cbn [ctl wlog asyn]. split; [reflexivity|]. split; [intros q; reflexivity|].
  split; [rewrite (fresh_eq _ _ _ L); reflexivity|]. auto.
Qed.
Print Assumptions C86_others.
(** C86. The hypotheses are met: a callback of manager 1, called while manager 0 runs, closes manager 1 when another datagram waits for it and one waits for manager 0; only the latter is delivered. *)
Definition closed_midway : list wlabel := other_called ++ [XArrive 1 (Ok (sample_octets 1 0, ([], 161))); XArrive 0 (Ok (sample_octets 0 0, ([], 161)))].
Definition after_closing : list wlabel := [XReturn; XGoOn 9; XSend opens 5 (Ok tt); XGoOn 9; XGoOn 9].
Example C86_example : wexec closed_midway = Some (world_of closed_midway) /\ user_code (ctl (world_of closed_midway)) = true /\ made (traffic (wlog (world_of closed_midway))) 1 /\
  (forall y x, ~ In (XHandleClose y x) (closed_midway ++ after_closing)) /\
  exists w1 w2, wstep (world_of closed_midway) (XClose 1 (Ok tt)) = Some w1 /\ wsteps w1 after_closing = Some w2 /\ callbacks_called (wlog w2) = [(1%nat, 0, 8%nat); (0%nat, 0, 7%nat)].
Proof.
  split; [vm_compute; reflexivity|]. split; [vm_compute; reflexivity|]. split; [vm_compute; auto 30|]. split; [intros y x J; repeat (destruct J as [J|J]; [discriminate J|]); contradiction|].
  do 2 eexists. split; [vm_compute; reflexivity|]. split; [vm_compute; reflexivity|]. vm_compute. reflexivity.
Qed.
