(** * Theorems about several asynrole.Managers in one process (C69-C72). *)
From Coq Require Import ZArith List Bool Lia Arith.
From Verif Require Import PyBase Role Asyn SpecAsyn ProofsAsyn ProofsAsynPoll ProofsAsynClose ProofsAsynLog.
Import ListNotations.
Open Scope Z_scope.

Lemma user_ok st : user_runs st -> auser (astack st) = true.
Proof. intros [->|(o & b & k & ->)]; reflexivity. Qed.
Lemma made_obj tr st p : aexec tr = Some st -> made (alog st) p -> obj st p <> None.
Proof. intros E. apply (aexec_log tr st E). Qed.

(** ** C69: constructing and sending *)
(** C69. The constructor with a bad callback raises and leaves no trace: no socket, nothing in asyncore's map, nothing sent. *)
Theorem C69_bad_callback : forall st cb i op fd st', cb <> CbPair true -> astep st (ANew cb i op fd) = Some st' ->
  socks st' = socks st /\ smap st' = smap st /\ (forall o, obj st' o = obj st o) /\
  logged st st' [ENew (length (objs st)) (Err (match cb with CbOther => TypeError | _ => ValueError end))].
Proof.
  intros st cb i op fd st' N E. cbn [astep] in E. destruct (auser (astack st)); [|discriminate]. destruct (fd_free st fd); [|discriminate]. cbn in E. injection E as <-.
  assert (X : forall o M K L S, obj (mkAS S (objs st ++ [None]) M K L) o = obj st o).
  { intros o M K L S. destruct (obj st o) as [m|] eqn:O; [apply obj_grow; auto|]. destruct (obj (mkAS S (objs st ++ [None]) M K L) o) as [m|] eqn:O'; [|reflexivity]. apply obj_grow in O' as [O'|[_ O']]; congruence. }
  unfold anew. destruct cb as [[|]| |]; [congruence|..]; (split; [reflexivity|split; [reflexivity|split; [|reflexivity]]]); intros o; (apply (X o)).
Qed.
Print Assumptions C69_bad_callback.
(** C69. If the system refuses to open the socket the constructor raises that error and the manager is not in the map.  A socket that was created
    before the failing call stays open (until the interpreter finalizes it: C91). *)
Theorem C69_opening_fails : forall st i op fd st' e, astep st (ANew (CbPair true) i op fd) = Some st' ->
  (o_socket op = Err e \/ (o_socket op = Ok tt /\ o_bind op = Err e) \/ (o_socket op = Ok tt /\ o_bind op = Ok tt /\ o_option op = Err e)) ->
  smap st' = smap st /\ obj st' (length (objs st)) = None /\ In (ENew (length (objs st)) (Err e)) (alog st') /\
  socks st' = socks st ++ (match o_socket op with Ok _ => [mkK fd true []] | Err _ => [] end).
Proof.
  intros st i op fd st' e E H. cbn [astep] in E. destruct (auser (astack st)); [|discriminate]. destruct (fd_free st fd); [|discriminate]. cbn in E. injection E as <-.
  assert (X : forall M K L S, obj (mkAS S (objs st ++ [None]) M K L) (length (objs st)) = None).
  { intros M K L S. unfold obj. cbn [objs]. rewrite nth_error_app2, Nat.sub_diag by lia. reflexivity. }
  unfold anew, kopen. destruct H as [H|[[H H1]|[H [H1 H2]]]]; rewrite H, ?H1, ?H2; cbn [say socks smap alog]; rewrite ?app_nil_r;
    (split; [reflexivity|split; [apply X|split; [apply in_or_app; right; left; reflexivity|reflexivity]]]).
Qed.
Print Assumptions C69_opening_fails.
(** C69. Otherwise the constructor returns, and the manager is registered with an empty socket of its own. *)
Theorem C69_opened : forall st i fd st', astep st (ANew (CbPair true) i opens fd) = Some st' ->
  registered st' (length (objs st)) /\ logged st st' [EOpened (length (socks st)) (length (objs st)) fd; ENew (length (objs st)) (Ok tt)] /\
  queued st' (length (socks st)) = [].
Proof.
  intros st i fd st' E. cbn [astep] in E. destruct (auser (astack st)); [|discriminate]. destruct (fd_free st fd); [|discriminate]. cbn in E. injection E as <-.
  split; [|split].
  - exists (mkA (Some (length (socks st))) (length (socks st)) (Some fd) i), fd, (length (socks st)), (mkK fd true []). cbn [say socks smap]. repeat split.
    + unfold obj. cbn [say objs]. rewrite nth_error_app2, Nat.sub_diag by lia. reflexivity.
    + rewrite nth_error_app2, Nat.sub_diag by lia. reflexivity.
    + induction (smap st) as [|[k x] m IH]; cbn; [left; reflexivity|]. destruct (Z.eqb_spec k fd) as [->|]; [left; reflexivity|right; exact IH].
  - unfold logged. cbn [say alog]. rewrite <- app_assoc. reflexivity.
  - unfold queued. cbn [say socks]. rewrite nth_error_app2, Nat.sub_diag by lia. reflexivity.
Qed.
Print Assumptions C69_opened.
(** C69. send() passes the request unchanged to sendto on the manager's own socket, once, and raises what it raises. *)
Theorem C69_send : forall st o q dst op fd r st', registered st o -> astep st (ASend o q dst op fd r) = Some st' ->
  exists s m, obj st o = Some m /\ a_role m = Some s /\ logged st st' (match r with Ok _ => [ESentto s q dst; ESend o r] | Err _ => [ESend o r] end).
Proof.
  intros st o q dst op fd r st' (m & g & s & k & O & R & K & Op & _) E. cbn [astep] in E. destruct (fd_free st fd); [|discriminate]. unfold with_obj in E. destruct (auser (astack st)); [|discriminate]. rewrite O in E. injection E as <-.
  exists s, m. split; [exact O|]. split; [exact R|]. unfold asend, logged. rewrite R, K, Op. destruct r; cbn [say alog]; [rewrite <- app_assoc|]; reflexivity.
Qed.
Print Assumptions C69_send.
(** C69. In every execution, whatever was sent was sent by a send() that returned, of the manager that made that socket. *)
Theorem C69_own_socket : forall tr st pre s q dst post, aexec tr = Some st -> alog st = pre ++ ESentto s q dst :: post ->
  exists o post', post = ESend o (Ok tt) :: post' /\ opened_by pre s o /\ forall o', opened_by (alog st) s o' -> o' = o.
Proof.
  intros tr st pre s q dst post E L. destruct (aexec_log tr st E) as [H _]. destruct (H pre s q dst post L) as (o & p' & -> & Ow). exists o, p'. split; [reflexivity|]. split; [exact Ow|].
  intros o' H'. eapply (i_owner st (proj1 (aexec_inv tr st E)) s); [exact H'|]. rewrite L. apply opened_more. exact Ow.
Qed.
Print Assumptions C69_own_socket.

(** ** C70: delivery *)
(** C70. Nothing is lost, invented, repeated or reordered: what arrived at a socket is what recvfrom has answered on it, followed by what is
    still queued - in every execution. *)
Theorem C70_lossless : forall tr st s, aexec tr = Some st -> arrivals (alog st) s = received (alog st) s ++ queued st s.
Proof. intros tr st s E. apply (i_queue st (proj1 (aexec_inv tr st E))). Qed.
Print Assumptions C70_lossless.
(** C70. Each datagram read is handed at once to the callback of the manager that made the socket, with its data and source ... *)
Theorem C70_handed : forall tr st pre s d a post, aexec tr = Some st -> alog st = pre ++ ERecv s (Ok (d, a)) :: post ->
  exists o post', post = ECb o (Data d a) :: post' /\ opened_by pre s o /\ forall o', opened_by (alog st) s o' -> o' = o.
Proof.
  intros tr st pre s d a post E L. pose proof (proj1 (aexec_inv tr st E)) as I. destruct (ok_log_recv _ (i_log st I) pre s d a post L) as (o & p' & -> & Ow).
  exists o, p'. split; [reflexivity|]. split; [exact Ow|]. intros o' H. eapply (i_owner st I s); [exact H|]. rewrite L. apply opened_more. exact Ow.
Qed.
Print Assumptions C70_handed.
(** ... and no callback gets data that were not just read from a socket of its manager. *)
Theorem C70_only_read : forall tr st pre o d a post, aexec tr = Some st -> alog st = pre ++ ECb o (Data d a) :: post ->
  exists s pre', pre = pre' ++ [ERecv s (Ok (d, a))] /\ opened_by pre' s o.
Proof. intros tr st pre o d a post E L. pose proof (proj1 (aexec_inv tr st E)) as I. eapply ok_log_cb; [exact (i_log st I)|exact L]. Qed.
Print Assumptions C70_only_read.
(** C70. poll() of any manager serves all managers, one datagram each, in the order of the map. *)
Theorem C70_poll_serves_all : forall tr st p l, aexec tr = Some st -> never_handle_close tr -> user_runs st -> made (alog st) p -> waiting st = map as_waiting l ->
  exists st', asteps st (APoll p :: repeat AReturn (length l)) = Some st' /\ astack st' = astack st /\
    logged st st' (EPoll p :: flat_map served l ++ [EPollEnd p (Ok tt)]).
Proof. intros tr st p l E NH U M W. eapply poll_serves; try eassumption; [apply user_ok; exact U|eapply made_obj; eassumption]. Qed.
Print Assumptions C70_poll_serves_all.
(** C70. An exception (not a ValueError) in one manager's callback leaves another manager's poll(); those not yet served keep their data. *)
Theorem C70_interrupted : forall tr st p l1 v l2 e, aexec tr = Some st -> never_handle_close tr -> user_runs st -> made (alog st) p ->
  waiting st = map as_waiting (l1 ++ v :: l2) -> e <> ValueError ->
  exists st', asteps st (APoll p :: repeat AReturn (length l1) ++ [ARaise e]) = Some st' /\ astack st' = astack st /\
    logged st st' (EPoll p :: flat_map served l1 ++ handed v ++ [ECbEnd (v_mgr v) (Err e); EPollEnd p (Err e)]) /\ incl (map as_waiting l2) (waiting st').
Proof. intros tr st p l1 v l2 e E NH U M W N. eapply poll_interrupted; try eassumption; [apply user_ok; exact U|eapply made_obj; eassumption]. Qed.
Print Assumptions C70_interrupted.
(** C70. The same holds for an error of recvfrom. *)
Theorem C70_error : forall tr st p l o s e w, aexec tr = Some st -> never_handle_close tr -> user_runs st -> made (alog st) p ->
  waiting st = map as_waiting l ++ (o, s, Err e) :: w -> e <> ValueError ->
  exists st', asteps st (APoll p :: repeat AReturn (length l)) = Some st' /\ astack st' = astack st /\
    logged st st' (EPoll p :: flat_map served l ++ [ERecv s (Err e); EPollEnd p (Err e)]) /\ incl w (waiting st').
Proof. intros tr st p l o s e w E NH U M W N. eapply poll_error; try eassumption; [apply user_ok; exact U|eapply made_obj; eassumption]. Qed.
Print Assumptions C70_error.
(** C70. A ValueError of a callback comes back to that callback, as (None, None) with the exception, and the others are served. *)
Theorem C70_valueerror : forall tr st p l1 v l2, aexec tr = Some st -> never_handle_close tr -> user_runs st -> made (alog st) p ->
  waiting st = map as_waiting (l1 ++ v :: l2) ->
  exists st', asteps st (APoll p :: repeat AReturn (length l1) ++ ARaise ValueError :: AReturn :: repeat AReturn (length l2)) = Some st' /\ astack st' = astack st /\
    logged st st' (EPoll p :: flat_map served l1 ++ handed v ++ [ECbEnd (v_mgr v) (Err ValueError); ECb (v_mgr v) (Exc ValueError); ECbEnd (v_mgr v) (Ok tt)] ++
      flat_map served l2 ++ [EPollEnd p (Ok tt)]).
Proof. intros tr st p l1 v l2 E NH U M W. eapply poll_valueerror; try eassumption; [apply user_ok; exact U|eapply made_obj; eassumption]. Qed.
Print Assumptions C70_valueerror.
(** C70. If the callback raises again, poll() ends with that exception; those not yet served keep their data. *)
Theorem C70_valueerror_raised : forall tr st p l1 v l2 e, aexec tr = Some st -> never_handle_close tr -> user_runs st -> made (alog st) p ->
  waiting st = map as_waiting (l1 ++ v :: l2) ->
  exists st', asteps st (APoll p :: repeat AReturn (length l1) ++ [ARaise ValueError; ARaise e]) = Some st' /\ astack st' = astack st /\
    logged st st' (EPoll p :: flat_map served l1 ++ handed v ++ [ECbEnd (v_mgr v) (Err ValueError); ECb (v_mgr v) (Exc ValueError); ECbEnd (v_mgr v) (Err e); EPollEnd p (Err e)]) /\
    incl (map as_waiting l2) (waiting st').
Proof. intros tr st p l1 v l2 e E NH U M W. eapply poll_valueerror_raised; try eassumption; [apply user_ok; exact U|eapply made_obj; eassumption]. Qed.
Print Assumptions C70_valueerror_raised.

(** *** An example: three managers; data for the first and the third; the second polls *)
Definition three : list alabel :=
  [ANew (CbPair true) ([48], 0) opens 5; ANew (CbPair true) ([48], 0) opens 6; ANew (CbPair true) ([48], 0) opens 7;
   AArrive 2 (Ok ([1; 2], ([97], 161))); AArrive 0 (Ok ([3], ([98], 161))); AArrive 2 (Ok ([4], ([97], 161)))].
Definition state_of (tr : list alabel) : astate := match aexec tr with Some st => st | None => ainit end.
Definition three_st : astate := Eval vm_compute in state_of three.
Definition three_waiting : list delivery := [mkDelivery 0 0 [3] ([98], 161); mkDelivery 2 2 [1; 2] ([97], 161)].
Example three_meets : exists st, aexec three = Some st /\ never_handle_close three /\ user_runs st /\ made (alog st) 1 /\ waiting st = map as_waiting three_waiting /\ registered st 0 /\ registered st 2.
Proof.
  exists three_st. split; [vm_compute; reflexivity|]. split; [intros o r H; repeat (destruct H as [H|H]; [discriminate|]); destruct H|].
  split; [left; reflexivity|]. split; [cbn; tauto|]. split; [reflexivity|].
  split; (do 4 eexists; split; [reflexivity|]; split; [reflexivity|]; split; [reflexivity|]; split; [reflexivity|]; split; [reflexivity|]; cbn; tauto).
Qed.
Definition three_polled_st : astate := Eval vm_compute in state_of (three ++ [APoll 1; AReturn; AReturn]).
Example three_polled : exists st', aexec (three ++ [APoll 1; AReturn; AReturn]) = Some st' /\
  skipn 9 (alog st') = [EPoll 1; ERecv 0 (Ok ([3], ([98], 161))); ECb 0 (Data [3] ([98], 161)); ECbEnd 0 (Ok tt);
    ERecv 2 (Ok ([1; 2], ([97], 161))); ECb 2 (Data [1; 2] ([97], 161)); ECbEnd 2 (Ok tt); EPollEnd 1 (Ok tt)] /\ queued st' 2 = [Ok ([4], ([97], 161))].
Proof. exists three_polled_st. split; [vm_compute; reflexivity|]. split; reflexivity. Qed.

(** ** C71: closing *)
(** C71. close() of one manager takes exactly that manager out: the others stay registered, with what they have queued. *)
Theorem C71_close : forall tr st o r st', aexec tr = Some st -> never_handle_close tr -> astep st (AClose o r) = Some st' ->
  ~ registered st' o /\ (forall y, y <> o -> registered st y -> registered st' y) /\
  waiting st' = filter (fun w => negb (Nat.eqb (fst (fst w)) o)) (waiting st) /\ exists x, logged st st' [EClose o x].
Proof.
  intros tr st o r st' E NH Es. pose proof (proj1 (aexec_inv tr st E)) as I. pose proof (aexec_sound tr NH st E) as S. pose proof (aexec_enrolled tr st NH E) as En.
  assert (S' : sound st') by (eapply astep_sound; [exact I|exact S|exact Es|discriminate]).
  cbn [astep] in Es. unfold with_obj in Es. destruct (auser (astack st)); [|discriminate]. destruct (obj st o) as [m|] eqn:O; [|discriminate]. injection Es as <-.
  destruct (socket_owner st o m I S O) as [Ow Lt]. destruct (aclose_eff st o m r S En Ow Lt O) as (A & B & C & D & F & G & H).
  assert (Ne : forall y m', y <> o -> obj st y = Some m' -> a_socket m' <> a_socket m) by (intros y m' N J Q; apply N; eapply Ow; eassumption).
  split; [|split; [|split; [|exact H]]].
  - intros (m' & fd & s & k & _ & _ & _ & _ & _ & J). apply B in J as [_ J]. apply J. reflexivity.
  - intros y N (m' & fd & s & k & H1 & H2 & H3 & H4 & H5 & H6). exists m', fd, s, k. split; [rewrite A; destruct (Nat.eqb_spec o y); [congruence|exact H1]|]. split; [exact H2|].
    split; [|split; [exact H4|split; [exact H5|apply B; auto]]]. rewrite D; [exact H3|]. intros ->. pose proof (h_role _ S y m' H1) as R. apply (Ne y m' N H1). congruence.
  - rewrite !waiting_eq, C. assert (Sub : incl (smap st) (smap st)) by apply incl_refl. revert Sub. generalize (smap st) at 1 3 4. induction l as [|[g y] es IH]; intros Sub; [reflexivity|].
    assert (IH' := IH (fun z Z => Sub z (or_intror Z))). cbn [filter snd flat_map]. rewrite filter_app. rewrite <- IH'. clear IH IH'.
    assert (Jy : In (g, y) (smap st)) by (apply Sub; left; reflexivity).
    destruct (Nat.eqb_spec y o) as [->|N]; cbn [negb].
    + destruct (first_cases st g o S Jy) as [[-> _]|(m1 & s & k & x & q & -> & _)]; [reflexivity|]. cbn. rewrite Nat.eqb_refl. reflexivity.
    + cbn [flat_map]. f_equal. destruct (h_map _ S g y Jy) as (m1 & s & k & H1 & H2 & H3 & H4 & H5 & H6 & H7).
      unfold first_of. cbn [snd]. rewrite A, H1, H2. destruct (Nat.eqb_spec o y); [congruence|].
      assert (Q : queued (aclose st o m r) s = queued st s). { unfold queued. rewrite D; [reflexivity|]. intros ->. eapply Ne; eassumption. }
      rewrite H2, Q. destruct (queued st s); [reflexivity|]. cbn. destruct (Nat.eqb_spec y o); [congruence|reflexivity].
Qed.
Print Assumptions C71_close.
(** C71. After close() the manager's callback is never called with data again, and every send() raises OSError - in every continuation. *)
Theorem C71_closed_for_good : forall tr st o r st1 tr2 st2, aexec tr = Some st -> never_handle_close tr -> astep st (AClose o r) = Some st1 ->
  never_handle_close tr2 -> asteps st1 tr2 = Some st2 ->
  exists es, logged st1 st2 es /\ (forall d a, ~ In (ECb o (Data d a)) es) /\ forall x, In (ESend o x) es -> x = Err OSError.
Proof.
  intros tr st o r st1 tr2 st2 E NH E1 NH2 E2. destruct (aexec_inv tr st E) as [I G]. pose proof (aexec_sound tr NH st E) as S. pose proof (aexec_enrolled tr st NH E) as En.
  assert (N1 : forall (y : nat) (x : res unit), AClose o r <> AHandleClose y x) by discriminate.
  destruct (astep_inv _ _ _ I G E1) as [I1 G1]. pose proof (astep_sound _ _ _ I S E1 N1) as S1. pose proof (astep_enrolled _ _ _ I S En E1 N1) as En1.
  assert (Sh : shut o st1).
  { cbn [astep] in E1. unfold with_obj in E1. destruct (auser (astack st)) eqn:U; [|discriminate]. destruct (obj st o) as [m|] eqn:O; [|discriminate]. injection E1 as <-.
    destruct (socket_owner st o m I S O) as [Ow Lt]. destruct (aclose_eff st o m r S En Ow Lt O) as (A & _ & _ & _ & _ & B & _). split.
    - rewrite A, Nat.eqb_refl. eexists. split; reflexivity.
    - apply unblocked_calls. rewrite B. apply user_calls; assumption. }
  destruct (asteps_shut tr2 NH2 st1 st2 o I1 G1 S1 En1 Sh E2) as [(es & L & Q1 & Q2) _]. exists es. split; [exact L|]. split; [exact Q1|exact Q2].
Qed.
Print Assumptions C71_closed_for_good.
(** C71. Closing again does no harm: whatever happened meanwhile, a second close(), or a second handle_close() with no send() in between, returns normally and changes nothing. *)
Theorem C71_close_again : forall st o r st1 r' st2, astep st (AClose o r) = Some st1 -> astep st1 (AClose o r') = Some st2 ->
  logged st1 st2 [EClose o (Ok tt)] /\ socks st2 = socks st1 /\ smap st2 = smap st1 /\ astack st2 = astack st1 /\ forall y, obj st2 y = obj st1 y.
Proof.
  intros st o r st1 r' st2 E1 E2. cbn [astep] in *. unfold with_obj in *. destruct (auser (astack st)); [|discriminate E1]. destruct (obj st o) as [m|] eqn:O; [|discriminate E1].
  assert (F : exists s, obj st1 o = Some (mkA (a_role m) s None (a_interface m)) /\ s = a_socket m /\ forall k, nth_error (socks st1) s = Some k -> k_open k = false).
  { injection E1 as <-. exists (a_socket m). unfold aclose.
    assert (Q : forall st0, objs st0 = objs st -> obj (let '(st3, r3) := kclose (set_obj st0 o (mkA (a_role m) (a_socket m) None (a_interface m))) (a_socket m) r in say st3 (EClose o r3)) o = Some (mkA (a_role m) (a_socket m) None (a_interface m)) /\ a_socket m = a_socket m /\
      forall k, nth_error (socks (let '(st3, r3) := kclose (set_obj st0 o (mkA (a_role m) (a_socket m) None (a_interface m))) (a_socket m) r in say st3 (EClose o r3))) (a_socket m) = Some k -> k_open k = false).
    { intros st0 Ob. set (sx := set_obj st0 o (mkA (a_role m) (a_socket m) None (a_interface m))). assert (Ox : obj sx o = Some (mkA (a_role m) (a_socket m) None (a_interface m))).
      { unfold obj, sx in *. cbn [set_obj objs]. rewrite nth_upd, Nat.eqb_refl, Ob. destruct (nth_error (objs st) o); [reflexivity|discriminate O]. }
      unfold kclose. destruct (nth_error (socks sx) (a_socket m)) as [k|] eqn:K; [destruct (k_open k) eqn:Ko|].
      - split; [unfold set_open; rewrite K; exact Ox|]. split; [reflexivity|]. intros k'. cbn [say socks]. unfold set_open. rewrite K. cbn [socks]. rewrite nth_upd, Nat.eqb_refl, K. intros [= <-]. reflexivity.
      - split; [exact Ox|]. split; [reflexivity|]. intros k'. cbn [say socks]. rewrite K. congruence.
      - split; [exact Ox|]. split; [reflexivity|]. intros k'. cbn [say socks]. rewrite K. discriminate. }
    apply Q. destruct (a_fileno m); reflexivity. }
  destruct F as (s & O1 & _ & C). destruct (auser (astack st1)); [|discriminate E2]. rewrite O1 in E2. injection E2 as <-. unfold aclose. cbn [a_fileno a_role a_socket a_interface]. unfold kclose. cbn [set_obj socks].
  assert (B : forall y, obj (set_obj st1 o (mkA (a_role m) s None (a_interface m))) y = obj st1 y) by (intros y; unfold obj in *; cbn [set_obj objs]; rewrite nth_upd; destruct (Nat.eqb_spec o y) as [<-|]; [destruct (nth_error (objs st1) o); [congruence|discriminate O1]|reflexivity]).
  destruct (nth_error (socks st1) s) as [k|] eqn:K; [rewrite (C k eq_refl)|]; (split; [reflexivity|]); (split; [reflexivity|]); (split; [reflexivity|]); (split; [reflexivity|exact B]).
Qed.
Print Assumptions C71_close_again.
Theorem C71_handle_close_again : forall st o r st1 r' st2, astep st (AHandleClose o r) = Some st1 -> logged st st1 [EClose o (Ok tt)] -> astep st1 (AHandleClose o r') = Some st2 ->
  logged st1 st2 [EClose o (Ok tt)] /\ socks st2 = socks st1 /\ smap st2 = smap st1 /\ astack st2 = astack st1 /\ forall y, obj st2 y = obj st1 y.
Proof.
  intros st o r st1 r' st2 E1 L E2. cbn [astep] in *. unfold with_obj in *. destruct (auser (astack st)); [|discriminate E1]. destruct (obj st o) as [m|] eqn:O; [|discriminate E1].
  assert (F : exists m1, obj st1 o = Some m1 /\ a_role m1 = None).
  { injection E1 as <-. unfold ahandle_close in *. destruct (a_role m) as [s|] eqn:R; [|exists m; split; [exact O|exact R]]. destruct (kclose st s r) as [st0 r0] eqn:K.
    assert (Ob : objs st0 = objs st /\ alog st0 = alog st) by (unfold kclose in K; destruct (nth_error (socks st) s) as [k|] eqn:N; [destruct (k_open k)|]; injection K as <- _; auto; unfold set_open; rewrite N; auto).
    destruct Ob as [Ob Lg]. destruct r0 as [[]|e]; [|exfalso; unfold logged in L; cbn [say alog] in L; rewrite Lg in L; apply app_inv_head in L; discriminate L].
    unfold obj in *. cbn [say set_obj objs]. rewrite nth_upd, Nat.eqb_refl, Ob. destruct (nth_error (objs st) o) as [x|]; [|discriminate O]. eexists. split; reflexivity. }
  destruct F as (m1 & O1 & R1). destruct (auser (astack st1)); [|discriminate E2]. rewrite O1 in E2. injection E2 as <-. unfold ahandle_close. rewrite R1. repeat split; reflexivity.
Qed.
Print Assumptions C71_handle_close_again.
(** C71. A callback may close any manager, also its own, while poll() runs: the poll() goes on and serves those that are left. *)
Theorem C71_close_in_callback : forall tr st p l1 v l2 y r, aexec tr = Some st -> never_handle_close tr -> user_runs st -> made (alog st) p -> made (alog st) y ->
  waiting st = map as_waiting (l1 ++ v :: l2) ->
  let others := filter (fun w => negb (Nat.eqb (v_mgr w) y)) l2 in
  exists st' x, asteps st (APoll p :: repeat AReturn (length l1) ++ AClose y r :: AReturn :: repeat AReturn (length others)) = Some st' /\ astack st' = astack st /\
    logged st st' (EPoll p :: flat_map served l1 ++ handed v ++ [EClose y x; ECbEnd (v_mgr v) (Ok tt)] ++ flat_map served others ++ [EPollEnd p (Ok tt)]).
Proof. intros tr st p l1 v l2 y r E NH U M My W. eapply poll_close_in_callback; try eassumption; [apply user_ok; exact U|eapply made_obj; eassumption|eapply made_obj; eassumption]. Qed.
Print Assumptions C71_close_in_callback.
(** C71. handle_close() of one manager breaks poll() of every manager: until somebody calls close() or the kernel hands out the same
    descriptor again, every poll() raises OSError and no callback is called - in every continuation. *)
Theorem C71_handle_close_breaks_poll : forall tr st o s fd q r st1 tr2 st2 p, aexec tr = Some st -> astack st = [] ->
  (exists m, obj st o = Some m /\ a_role m = Some s) -> nth_error (socks st) s = Some (mkK fd true q) -> In fd (map fst (smap st)) ->
  (forall t k, nth_error (socks st) t = Some k -> k_open k = true -> k_fd k = fd -> t = s) ->
  astep st (AHandleClose o r) = Some st1 -> asteps st1 tr2 = Some st2 -> (forall y x, ~ In (AClose y x) tr2) -> (forall l, In l tr2 -> ~ asks_fd l fd) ->
  (exists es, logged st1 st2 es /\ (forall y x, ~ In (ECb y x) es) /\ (forall t x, ~ In (ERecv t x) es) /\ forall y x, In (EPollEnd y x) es -> x = Err OSError) /\
  (made (alog st2) p -> exists st3, astep st2 (APoll p) = Some st3 /\ logged st2 st3 [EPoll p; EPollEnd p (Err OSError)]).
Proof.
  intros tr st o s fd q r st1 tr2 st2 p E A (m & O & R) K B Un E1 E2 NC NF.
  assert (D : dead fd st1).
  { cbn [astep] in E1. unfold with_obj in E1. rewrite A in E1. cbn [auser] in E1. rewrite O in E1. injection E1 as <-. unfold ahandle_close. rewrite R. unfold kclose. rewrite K. cbn [k_open]. unfold set_open. rewrite K.
    assert (X : forall T L, at_fd (mkAS (upd (socks st) s (mkK fd false q)) T (smap st) (astack st) L) fd = None).
    { intros T L. apply at_fd_descr. cbn [socks]. intros d J Q. apply in_map_iff in J as (k' & <- & J). apply In_nth_error in J as [t J]. rewrite nth_upd, K in J. cbn in Q |- *.
      destruct (Nat.eqb_spec s t) as [Eq|N]; [injection J as J; rewrite <- J in Q; discriminate Q|]. intros F. apply N. symmetry. eapply Un; eassumption. }
    destruct r; (split; [exact A|split; [exact B|]]); cbn [set_obj say socks objs smap astack alog k_fd k_queue]; apply X. }
  destruct (asteps_dead fd tr2 NC NF st1 st2 D E2) as [D2 (es & L & F)]. split; [exists es; auto|].
  intros M. assert (Ex : aexec ((tr ++ [AHandleClose o r]) ++ tr2) = Some st2). { unfold aexec in *. rewrite !asteps_app, E. cbn [asteps]. rewrite E1. exact E2. }
  pose proof (made_obj _ _ p Ex M) as Op. cbn [astep]. unfold with_obj. pose proof D2 as (A2 & _). rewrite A2. cbn [auser]. destruct (obj st2 p) as [m2|]; [|contradiction].
  eexists. split; [reflexivity|]. rewrite (dead_poll fd st2 p D2). unfold logged. cbn [say alog]. rewrite <- app_assoc. reflexivity.
Qed.
Print Assumptions C71_handle_close_breaks_poll.
(** The hypotheses hold of every manager in a run in which handle_close() was not called before. *)
Theorem C71_handle_close_always : forall tr st o, aexec tr = Some st -> never_handle_close tr -> registered st o -> exists s fd q,
  (exists m, obj st o = Some m /\ a_role m = Some s) /\ nth_error (socks st) s = Some (mkK fd true q) /\ In fd (map fst (smap st)) /\
  forall t k, nth_error (socks st) t = Some k -> k_open k = true -> k_fd k = fd -> t = s.
Proof.
  intros tr st o E NH (m & fd & s & k & O & R & K & Op & Fd & J). pose proof (aexec_sound tr NH st E) as S. exists s, fd, (k_queue k). split; [eauto|].
  split; [destruct k as [a b c]; cbn in *; subst; exact K|]. split; [apply in_map_iff; exists (fd, o); auto|]. intros t k' K' Op' Fd'. eapply (h_fds _ S); [exact K'|exact K|exact Op'|exact Op|congruence].
Qed.
Print Assumptions C71_handle_close_always.
(** C71. send() after handle_close() opens a new socket.  With the same descriptor the manager is registered again, and the others still are ... *)
Lemma reopen_state st o m s fd k q dst : user_runs st -> obj st o = Some m -> a_role m = Some s -> nth_error (socks st) s = Some k -> k_open k = true -> 
  forall g, (forall t k', nth_error (socks st) t = Some k' -> k_open k' = true -> k_fd k' = g -> t = s) -> k_fd k = fd ->
  asteps st [AHandleClose o (Ok tt); ASend o q dst opens g (Ok tt)] =
  Some (mkAS (upd (socks st) s (mkK fd false (k_queue k)) ++ [mkK g true []]) (upd (upd (objs st) o (Some (mkA None (a_socket m) (a_fileno m) (a_interface m)))) o (Some (mkA (Some (length (socks st))) (a_socket m) (a_fileno m) (a_interface m))))
     (smap st) (astack st) ((((alog st ++ [EClose o (Ok tt)]) ++ [EOpened (length (socks st)) o g]) ++ [ESentto (length (socks st)) q dst]) ++ [ESend o (Ok tt)])).
Proof.
  intros U O R K Op g Un Fd. pose proof (user_ok _ U) as U'.
  set (m0 := mkA None (a_socket m) (a_fileno m) (a_interface m)).
  set (st1 := mkAS (upd (socks st) s (mkK fd false (k_queue k))) (upd (objs st) o (Some m0)) (smap st) (astack st) (alog st ++ [EClose o (Ok tt)])).
  assert (X1 : astep st (AHandleClose o (Ok tt)) = Some st1).
  { cbn [astep]. unfold with_obj. rewrite U', O. unfold ahandle_close. rewrite R. unfold kclose. rewrite K, Op. unfold set_open. rewrite K, Fd. reflexivity. }
  assert (Fr : fd_free st1 g = true).
  { unfold fd_free. assert (X : at_fd st1 g = None); [|rewrite X; reflexivity].
    apply at_fd_descr. cbn [st1 socks]. intros d J Q. apply in_map_iff in J as (k' & <- & J). apply In_nth_error in J as [t J]. cbn [st1 socks] in J. rewrite nth_upd, K in J. cbn in Q |- *.
    destruct (Nat.eqb_spec s t) as [Eq|N]; [injection J as J; rewrite <- J in Q; discriminate Q|]. intros F. apply N. symmetry. eapply Un; eassumption. }
  assert (O1 : obj st1 o = Some m0).
  { unfold obj in *. cbn [st1 objs]. rewrite nth_upd, Nat.eqb_refl. destruct (nth_error (objs st) o); [reflexivity|discriminate]. }
  cbn [asteps]. rewrite X1. cbn [astep]. rewrite Fr. unfold with_obj. change (astack st1) with (astack st). rewrite U', O1. unfold asend, kopen, opens. cbn [m0 a_role a_socket a_fileno a_interface o_socket o_bind o_option].
  cbn [st1 say set_obj socks objs smap astack alog]. rewrite upd_length. rewrite nth_error_app2 by (rewrite upd_length; lia). rewrite upd_length, Nat.sub_diag. cbn [nth_error k_open]. reflexivity.
Qed.
Theorem C71_reopen_same : forall tr st o q dst fd, aexec tr = Some st -> never_handle_close tr -> user_runs st ->
  (exists m s k, obj st o = Some m /\ a_role m = Some s /\ nth_error (socks st) s = Some k /\ k_open k = true /\ k_fd k = fd /\ In (fd, o) (smap st)) ->
  exists st', asteps st [AHandleClose o (Ok tt); ASend o q dst opens fd (Ok tt)] = Some st' /\ forall y, registered st y -> registered st' y.
Proof.
  intros tr st o q dst fd E NH U (m & s & k & O & R & K & Op & Fd & J). pose proof (aexec_sound tr NH st E) as S. pose proof (proj1 (aexec_inv tr st E)) as I.
  eexists. split; [eapply (reopen_state st o m s fd k); try eassumption; intros t k' K' Op' Fd'; eapply (h_fds _ S); [exact K'|exact K|exact Op'|exact Op|congruence]|].
  assert (Len : (o < length (objs st))%nat) by (eapply obj_length; exact O).
  intros y (m' & g & t & k' & H1 & H2 & H3 & H4 & H5 & H6). destruct (Nat.eq_dec y o) as [->|N].
  - rewrite O in H1. injection H1 as <-. exists (mkA (Some (length (socks st))) (a_socket m) (a_fileno m) (a_interface m)), fd, (length (socks st)), (mkK fd true []). repeat split; cbn [socks smap].
    + unfold obj. cbn [objs]. rewrite nth_upd, Nat.eqb_refl, nth_upd, Nat.eqb_refl. destruct (nth_error (objs st) o) eqn:X; [reflexivity|apply nth_error_None in X; lia].
    + rewrite nth_error_app2 by (rewrite upd_length; lia). rewrite upd_length, Nat.sub_diag. reflexivity.
    + exact J.
  - exists m', g, t, k'. split; [unfold obj in *; cbn [objs]; rewrite !nth_upd; destruct (Nat.eqb_spec o y); [congruence|exact H1]|]. split; [exact H2|]. split; [|auto]. cbn [socks].
    rewrite nth_error_app1 by (rewrite upd_length; apply nth_error_Some; congruence). rewrite nth_upd. destruct (Nat.eqb_spec s t) as [<-|]; [|exact H3].
    exfalso. apply N. eapply (i_owner st I s); eapply (i_role st I); eassumption.
Qed.
Print Assumptions C71_reopen_same.
(** ... with another descriptor the manager's new socket is not in the map, and every poll() raises OSError. *)
Theorem C71_reopen_other : forall tr st o q dst fd g p, aexec tr = Some st -> never_handle_close tr -> astack st = [] -> made (alog st) p ->
  (exists m s k, obj st o = Some m /\ a_role m = Some s /\ nth_error (socks st) s = Some k /\ k_open k = true /\ k_fd k = fd /\ In (fd, o) (smap st)) ->
  (forall t k, nth_error (socks st) t = Some k -> k_open k = true -> k_fd k <> g) -> g <> fd ->
  exists st' st'', asteps st [AHandleClose o (Ok tt); ASend o q dst opens g (Ok tt)] = Some st' /\ astep st' (APoll p) = Some st'' /\ logged st' st'' [EPoll p; EPollEnd p (Err OSError)].
Proof.
  intros tr st o q dst fd g p E NH A M (m & s & k & O & R & K & Op & Fd & J) Fr N. pose proof (aexec_sound tr NH st E) as S.
  pose proof (reopen_state st o m s fd k q dst (or_introl A) O R K Op g (fun t k' K' Op' Fd' => False_ind _ (Fr t k' K' Op' Fd')) Fd) as X.
  match type of X with _ = Some ?z => set (st' := z) in * end. exists st'.
  assert (D : dead fd st').
  { split; [exact A|]. split; [apply in_map_iff; exists (fd, o); auto|]. apply at_fd_descr. unfold st'. cbn [socks]. rewrite map_app. intros d Jd Q. apply in_app_or in Jd as [Jd|[<-|[]]]; [|exact N].
    apply in_map_iff in Jd as (k' & <- & Jd). apply In_nth_error in Jd as [t Jd]. rewrite nth_upd, K in Jd. cbn in Q |- *. destruct (Nat.eqb_spec s t) as [Eq|Ns]; [injection Jd as Jd; rewrite <- Jd in Q; discriminate Q|].
    intros F. apply Ns. eapply (h_fds _ S); [exact K|exact Jd|exact Op|exact Q|congruence]. }
  assert (Ex : aexec (tr ++ [AHandleClose o (Ok tt); ASend o q dst opens g (Ok tt)]) = Some st') by (unfold aexec in *; rewrite asteps_app, E; exact X).
  assert (Op' : obj st' p <> None). { apply (made_obj _ _ p Ex). unfold st', made. cbn [alog]. repeat (apply in_or_app; left). exact M. }
  clearbody st'. eexists. split; [exact X|]. cbn [astep]. unfold with_obj. pose proof D as (A' & _). rewrite A'. cbn [auser]. destruct (obj st' p) as [m2|]; [|contradiction].
  split; [reflexivity|]. rewrite (dead_poll fd st' p D). unfold logged. cbn [say alog]. rewrite <- app_assoc. reflexivity.
Qed.
Print Assumptions C71_reopen_other.
(** C71. close() after handle_close() goes by the number of the descriptor: if a new manager has got it meanwhile, close() takes that one out of the map. *)
Definition stale_run : list alabel :=
  [ANew (CbPair true) ([48], 0) opens 5; AHandleClose 0 (Ok tt); ANew (CbPair true) ([48], 0) opens 5; AArrive 1 (Ok ([1], ([97], 161))); AClose 0 (Ok tt)].
Definition stale_st : astate := Eval vm_compute in state_of stale_run.
Theorem C71_stale_close_refuted : exists tr st, aexec tr = Some st /\ made (alog st) 1 /\ ~ registered st 1 /\
  (forall r, ~ In (AClose 1 r) tr /\ ~ In (AHandleClose 1 r) tr) /\ queued st 1 = [Ok ([1], ([97], 161))] /\
  exists st', astep st (APoll 1) = Some st' /\ logged st st' [EPoll 1; EPollEnd 1 (Ok tt)].
Proof.
  exists stale_run, stale_st. split; [vm_compute; reflexivity|]. split; [cbn; tauto|]. split; [intros (m & fd & s & k & _ & _ & _ & _ & _ & [])|].
  split; [intros r; split; intros H; repeat (destruct H as [H|H]; [discriminate|]); destruct H|]. split; [reflexivity|]. eexists. split; reflexivity.
Qed.
Print Assumptions C71_stale_close_refuted.

(** ** C72: hanging *)
(** C72. If nobody calls handle_close() and callbacks neither poll nor make managers, the process never waits in recvfrom. *)
Theorem C72_never_hangs : forall tr st, never_handle_close tr -> calm_callbacks tr -> aexec tr = Some st -> ~ hangs st.
Proof.
  intros tr st NH Ca E (o & s & rest & H). pose proof (never_hangs tr NH Ca st E) as N. unfold not_hung in N. rewrite H in N. exact N.
Qed.
Print Assumptions C72_never_hangs.
(** C72. While recvfrom waits, nothing but an arrival can happen: no callback returns, no manager sends or polls. *)
Theorem C72_hung : forall st l st', hangs st -> astep st l = Some st' -> exists s x, l = AArrive s x.
Proof.
  intros st l st' (o & s & rest & H) E. destruct l; cbn [astep] in E; unfold with_obj in E; rewrite H in E; cbn in E; try discriminate; try (destruct (fd_free st fd); discriminate). eauto.
Qed.
Print Assumptions C72_hung.
(** To go through the finitely many positions of a concrete run. *)
Ltac positions tr1 H E N L :=
  repeat (destruct tr1 as [|? tr1]; [cbn [app] in H; injection H; intros; subst; try (intros []; fail); vm_compute in E; injection E as <-; elim N; reflexivity|cbn [app] in H; injection H as <- H]); cbn in L; lia.
(** C72. A callback that polls can hang the process, with two managers and one datagram each. *)
Definition nested_run : list alabel :=
  [ANew (CbPair true) ([48], 0) opens 5; ANew (CbPair true) ([48], 0) opens 6; AArrive 0 (Ok ([1], ([97], 161))); AArrive 1 (Ok ([2], ([97], 161)));
   APoll 0; APoll 0; AReturn; AReturn].
Definition nested_st : astate := Eval vm_compute in state_of nested_run.
Theorem C72_nested_poll_refuted : exists tr st, never_handle_close tr /\ callbacks_avoid is_new tr /\ (forall o r, ~ In (AClose o r) tr) /\ aexec tr = Some st /\ hangs st.
Proof.
  exists nested_run, nested_st. split; [intros o r H; repeat (destruct H as [H|H]; [discriminate|]); destruct H|].
  split; [intros tr1 l tr2 st H E N; assert (L : (length tr1 < 8)%nat) by (apply (f_equal (@length _)) in H; rewrite app_length in H; cbn in H; lia); unfold nested_run in H; positions tr1 H E N L|].
  split; [intros o r H; repeat (destruct H as [H|H]; [discriminate|]); destruct H|]. split; [vm_compute; reflexivity|]. do 3 eexists. reflexivity.
Qed.
Print Assumptions C72_nested_poll_refuted.
(** C72. So can a callback that closes a manager and makes a new one, which gets the descriptor that poll() is about to read from. *)
Definition renew_run : list alabel :=
  [ANew (CbPair true) ([48], 0) opens 5; ANew (CbPair true) ([48], 0) opens 6; AArrive 0 (Ok ([1], ([97], 161))); AArrive 1 (Ok ([2], ([97], 161)));
   APoll 0; AClose 1 (Ok tt); ANew (CbPair true) ([48], 0) opens 6; AReturn].
Definition renew_st : astate := Eval vm_compute in state_of renew_run.
Theorem C72_new_manager_refuted : exists tr st, never_handle_close tr /\ callbacks_avoid is_poll tr /\ aexec tr = Some st /\ hangs st.
Proof.
  exists renew_run, renew_st. split; [intros o r H; repeat (destruct H as [H|H]; [discriminate|]); destruct H|].
  split; [intros tr1 l tr2 st H E N; assert (L : (length tr1 < 8)%nat) by (apply (f_equal (@length _)) in H; rewrite app_length in H; cbn in H; lia); unfold renew_run in H; positions tr1 H E N L|].
  split; [vm_compute; reflexivity|]. do 3 eexists. reflexivity.
Qed.
Print Assumptions C72_new_manager_refuted.
(** A run that meets the hypotheses of C72_never_hangs, with callbacks that send and close. *)
Definition calm_run : list alabel := three ++ [APoll 1; ASend 1 [9] ([97], 161) opens 9 (Ok tt); AClose 2 (Ok tt); AReturn].
Example calm_run_meets : never_handle_close calm_run /\ calm_callbacks calm_run /\ aexec calm_run <> None.
Proof.
  split; [intros o r H; repeat (destruct H as [H|H]; [discriminate|]); destruct H|]. split; [|discriminate].
  split; intros tr1 l tr2 st H E N; (assert (L : (length tr1 < 10)%nat) by (apply (f_equal (@length _)) in H; rewrite app_length in H; cbn in H; lia)); unfold calm_run, three in H; positions tr1 H E N L.
Qed.
