(** * Consequences: what holds of a manager alone holds of each of several. *)
From Coq Require Import ZArith List Bool Lia.
From Verif Require Import PyBase Classes Values Codec Manager Role Asyn Process SpecAsyn SpecManager SpecNetwork SpecProcess ProofsAsyn ProofsAsynLog ProofsHistory ProofsManager ProofsNetwork ProofsProcess ProofsProcessStep ProofsProcessStack ProofsProcessLog PropertiesManager PropertiesNetwork.
Import ListNotations.
Open Scope Z_scope.

Lemma filter_split {A} (f : A -> bool) l : forall a e b, filter f l = a ++ e :: b -> exists l1 l2, l = l1 ++ e :: l2 /\ filter f l1 = a /\ filter f l2 = b.
Proof.
  induction l as [|x l IH]; cbn; intros a e b E; [destruct a; discriminate E|]. destruct (f x) eqn:Fx.
  - destruct a as [|y a]; injection E as -> E.
    + exists [], l. auto.
    + destruct (IH _ _ _ E) as (l1 & l2 & -> & H1 & H2). exists (y :: l1), l2. cbn. rewrite Fx, H1. auto.
  - destruct (IH _ _ _ E) as (l1 & l2 & -> & H1 & H2). exists (x :: l1), l2. cbn. rewrite Fx. auto.
Qed.
Lemma alone tr w o sys m : wexec tr = Some w -> man_of w o = Some (sys, m) ->
  trans sys = Text /\ exists tr' st, exec sys tr' = Some st /\ man st = m /\ filter lasting (log st) = history o (wlog w) /\ seen_by o (wlog w) sys tr'.
Proof.
  intros E M. pose proof (w_lives _ (wexec_inv _ _ E) o) as L. unfold lives in L. rewrite M in L. destruct L as (T & tr' & st & X & Mn & _ & H & S). split; [exact T|]. exists tr', st. auto.
Qed.
Lemma history_split o e wl1 wl2 : lasting e = true -> history o (wl1 ++ WM o e :: wl2) = history o wl1 ++ e :: history o wl2.
Proof. intros L. rewrite history_app. cbn. rewrite Nat.eqb_refl, L. reflexivity. Qed.
Lemma did_exist tr w o e wl1 wl2 : wexec tr = Some w -> wlog w = wl1 ++ WM o e :: wl2 -> lasting e = true -> exists sys m, man_of w o = Some (sys, m).
Proof.
  intros E L La. pose proof (w_lives _ (wexec_inv _ _ E) o) as H. unfold lives in H. destruct (man_of w o) as [[sys m]|]; [eauto|]. destruct H as [_ H].
  rewrite L, history_split in H by exact La. destruct (history o wl1); discriminate H.
Qed.
(** Events of a process are events of the manager alone. *)
Lemma event_alone tr w o e wl1 wl2 : wexec tr = Some w -> wlog w = wl1 ++ WM o e :: wl2 -> lasting e = true ->
  exists sys m tr' st l1 l2, man_of w o = Some (sys, m) /\ trans sys = Text /\ exec sys tr' = Some st /\ man st = m /\ log st = l1 ++ e :: l2 /\
    filter lasting l1 = history o wl1 /\ filter lasting l2 = history o wl2 /\ seen_by o (wlog w) sys tr'.
Proof.
  intros E L La. destruct (did_exist _ _ _ _ _ _ E L La) as (sys & m & M). destruct (alone _ _ _ _ _ E M) as (T & tr' & st & X & Mn & H & S).
  pose proof H as H0. rewrite L, history_split in H0 by exact La. destruct (filter_split _ _ _ _ _ H0) as (l1 & l2 & Ll & H1 & H2). exists sys, m, tr', st, l1, l2. repeat (split; [assumption|]). exact S.
Qed.
Lemma flat_lasting {A} (f : Manager.event -> list A) l : (forall r, f (EResult r) = []) -> flat_map f (filter lasting l) = flat_map f l.
Proof.
  intros N. induction l as [|e l IH]; [reflexivity|]. cbn. destruct (lasting e) eqn:L; cbn; rewrite IH; [reflexivity|]. destruct e; try discriminate L. rewrite N. reflexivity.
Qed.
Lemma count_lasting (f : Manager.event -> bool) l : (forall r, f (EResult r) = false) -> length (filter f (filter lasting l)) = length (filter f l).
Proof.
  intros N. induction l as [|e l IH]; [reflexivity|]. cbn. destruct (lasting e) eqn:L; cbn; [destruct (f e); cbn; rewrite IH; reflexivity|]. destruct e; try discriminate L. rewrite N. exact IH.
Qed.
Lemma issued_lasting l : issued (filter lasting l) = issued l. Proof. apply flat_lasting. reflexivity. Qed.
Lemma handed_lasting l : handed_out (filter lasting l) = handed_out l. Proof. apply flat_lasting. reflexivity. Qed.
Lemma puts_lasting l : puts (filter lasting l) = puts l. Proof. apply flat_lasting. reflexivity. Qed.
Lemma takes_lasting l : takes (filter lasting l) = takes l. Proof. apply flat_lasting. reflexivity. Qed.
Lemma sends_lasting l : sends (filter lasting l) = sends l. Proof. apply flat_lasting. reflexivity. Qed.
Lemma failures_lasting l : failures (filter lasting l) = failures l. Proof. apply count_lasting. reflexivity. Qed.
Lemma invocations_lasting id l : invocations id (filter lasting l) = invocations id l. Proof. apply count_lasting. reflexivity. Qed.
Lemma normal_lasting id l : normal_finishes id (filter lasting l) = normal_finishes id l. Proof. apply count_lasting. reflexivity. Qed.
Lemma lasting_in e l : lasting e = true -> (In e (filter lasting l) <-> In e l).
Proof. intros L. rewrite filter_In. tauto. Qed.
Lemma history_in o e wl : lasting e = true -> (In e (history o wl) <-> In (WM o e) wl).
Proof.
  intros L. unfold history. rewrite in_flat_map. split.
  - intros (x & I & H). destruct x as [p y|y]; [|contradiction]. destruct (Nat.eqb p o) eqn:Q; [|contradiction]. apply Nat.eqb_eq in Q. subst p. cbn in H. destruct (lasting y); [|contradiction].
    destruct H as [<-|[]]. exact I.
  - intros I. exists (WM o e). split; [exact I|]. cbn. rewrite Nat.eqb_refl, L. left. reflexivity.
Qed.
(** The datagram came before. *)
Lemma came_before o wl h wl1 e wl2 d src : wl = wl1 ++ WM o e :: wl2 -> lasting e = true -> history o wl1 = h -> 
  (exists a b, wl = a ++ WA (ECb o (Data d src)) :: b /\ history o a = h) -> exists a b, wl1 = a ++ WA (ECb o (Data d src)) :: b /\ history o b = [].
Proof.
  intros -> L H (a & b & E & Ha). destruct (app_eq_app' _ _ _ _ E) as [(l & E1 & E2)|(l & E1 & E2)].
  - destruct l as [|x l]; cbn in E2; [discriminate E2|]. injection E2 as <- ->. exists a, l. split; [exact E1|].
    rewrite E1, history_app, Ha in H. cbn in H. rewrite <- (app_nil_r h) in H at 2. apply app_inv_head in H. exact H.
  - destruct l as [|x l]; cbn in E2; [discriminate E2|]. injection E2 as <- ->. exfalso. rewrite E1, history_split, H in Ha by exact L.
    rewrite <- (app_nil_r h) in Ha at 2. apply app_inv_head in Ha. discriminate Ha.
Qed.
(** A process behind agents. *)
Lemma in_traffic e wl : In e (traffic wl) -> In (WA e) wl.
Proof. unfold traffic. rewrite in_flat_map. intros (x & I & H). destruct x as [p y|y]; [contradiction|]. destruct H as [<-|[]]. exact I. Qed.
Lemma heard tr w wl1 o d src wl2 : wexec tr = Some w -> wlog w = wl1 ++ WA (ECb o (Data d src)) :: wl2 ->
  exists s, opened_by (traffic wl1) s o /\ In (WA (ERecv s (Ok (d, src)))) wl1 /\ In (WA (EArrive s (Ok (d, src)))) wl1.
Proof.
  intros E L. pose proof (wexec_inv _ _ E) as I. destruct (w_asyn _ I) as [atr Ea]. pose proof (w_traffic _ I) as T. rewrite L, traffic_app in T. cbn in T.
  destruct (ok_log_cb _ (i_log _ (proj1 (aexec_inv _ _ Ea))) _ _ _ _ _ (eq_sym T)) as (s & pre' & P & Op). exists s.
  split; [rewrite P; apply opened_more; exact Op|]. split; [apply in_traffic; rewrite P; apply in_or_app; right; left; reflexivity|].
  apply in_traffic. rewrite P. apply in_or_app. left. eapply read_arrived; [exact Ea|]. rewrite <- T. fold (traffic wl1). fold (traffic wl2). rewrite P, <- app_assoc. reflexivity.
Qed.
Lemma networked_alone tr w o sys tr' : wexec tr = Some w -> behind_agents w -> seen_by o (wlog w) sys tr' -> networked sys tr'.
Proof.
  intros E [B1 B2] S tr1 l tr2 st1 T X. specialize (S tr1 l tr2 st1 T X). destruct l as [a|d x s|[|d x s|e]| | | |]; cbn in S; try exact Logic.I.
  - destruct S as [r I]. destruct a; try exact Logic.I. eapply B2; exact I.
  - contradiction.
  - destruct S as (wl1 & wl2 & L & H). destruct (heard _ _ _ _ _ _ _ E L) as (t & Op & _ & Ar). apply in_split in Ar as (u & v & Eu).
    rewrite Eu in L. rewrite <- app_assoc in L. cbn in L.
    assert (Op' : opened_by (traffic (wlog w)) t o) by (rewrite L, app_comm_cons, app_assoc, <- Eu, traffic_app; apply opened_more; exact Op).
    destruct (B1 _ _ _ _ _ _ L Op') as (os & Is & Z & An). exists os. split; [|auto].
    apply (proj1 (lasting_in (Manager.ESend os s (Ok tt)) (log st1) eq_refl)). rewrite <- H. apply history_in; [reflexivity|]. rewrite Eu. apply in_or_app. left. exact Is.
Qed.
(** ** Progress *)
Lemma free_descriptor st : exists fd, fd_free st fd = true.
Proof.
  assert (B : forall l : list ksock, exists b, forall k, In k l -> k_fd k < b).
  { induction l as [|k l [b B]]; [exists 0; contradiction|]. exists (Z.max (k_fd k + 1) b). intros x [<-|I]; [lia|]. specialize (B x I). lia. }
  destruct (B (socks st)) as [b H]. exists b. unfold fd_free, at_fd. destruct (find _ (socks st)) as [k|] eqn:F; [|reflexivity]. apply find_some in F as [I Q].
  apply andb_true_iff in Q as [_ Q]. apply Z.eqb_eq in Q. specialize (H k I). lia.
Qed.
Lemma received_possible w o r k f p rest a : astack (asyn w) = FCallback o f :: FPolling p rest :: a -> exists w', received_by w o r k = Some w'.
Proof. intros S. unfold received_by, asyncore. destruct r as [u|e]; cbn [astep]; rewrite S; eauto. Qed.
Lemma receive_message sys m depth d a : receiveData sys m depth d = (a, None) -> exists r, a = Done r.
Proof. unfold receiveData. destruct (message_decode _ _ _ _); intros E; injection E as <-; [discriminate|eauto]. Qed.
Theorem progress tr w : wexec tr = Some w -> user_code (ctl w) = true \/ waits w \/ can_go_on w.
Proof.
  intros E. pose proof (wexec_inv _ _ E) as I. pose proof (wexec_sinv _ _ E) as J. pose proof (s_atop _ J) as T. pose proof (s_exist _ J) as X.
  assert (Ex : forall o, obj (asyn w) o <> None -> exists sys m, man_of w o = Some (sys, m)).
  { intros o O. destruct (man_of w o) as [[sys m]|] eqn:M; [eauto|]. apply (s_same _ J) in M. contradiction. }
  destruct (ctl w) as [|f k] eqn:C; [auto|]. pose proof (w_shape _ I) as Sh. rewrite C in Sh.
  destruct f as [o id|o|o|o [|]|o d src|o e|p r|]; auto; try (inversion X as [|? ? X1 X2]; subst; specialize (X1 _ eq_refl)).
  - right. right. left. intros depth. inversion T as [? ? B E1 E2|? ? ? ? B| | | |]; subst; [apply below_user in B; discriminate B|]. cbn [wstep]. rewrite C. unfold asyncore. cbn [astep]. unfold with_obj.
    rewrite (below_auser _ _ B). destruct (obj (asyn w) o); [eauto|contradiction].
  - right. right. right. intros op r. inversion T as [? ? B E1 E2|? ? ? ? B| | | |]; subst; [apply below_user in B; discriminate B|]. destruct (Ex o X1) as (sys & m & M).
    destruct (free_descriptor (asyn w)) as [fd Fd]. exists fd. cbn [wstep]. rewrite C, M.
    destruct (outbound m) as [|[om dst] q]; [eauto|]. destruct (match om with None => Err AttributeError | Some msg => snd (message_encode msg) end) as [os|e]; [|eauto].
    unfold aside. destruct (astep (asyn w) (ASend o os dst op fd r)) as [A'|] eqn:St.
    2:{ exfalso. cbn [astep] in St. rewrite Fd in St. unfold with_obj in St. rewrite (below_auser _ _ B) in St. destruct (obj (asyn w) o); [discriminate St|contradiction]. }
    destruct (w_asyn _ I) as [atr Ea]. destruct (asend_log _ _ _ _ _ _ _ _ (proj1 (aexec_inv _ _ Ea)) St) as (es & L & pre & x & _ & H). cbn [asyn]. rewrite L, rev_app_distr.
    destruct x as [u|e]; [destruct H as (s & -> & _)|subst es]; rewrite rev_app_distr; cbn; eauto.
  - right. right. left. intros depth. destruct (Ex o X1) as (sys & m & M). cbn [wstep]. rewrite C, M.
    inversion T as [? ? B E1 E2| |? ? ? ? a p rest P E1 E2| | |]; subst; [apply below_user in B; discriminate B|]. symmetry in E2.
    destruct (receiveData sys m depth (DStr d)) as [x [msg|]] eqn:R; [|destruct (receive_message _ _ _ _ _ R) as [r ->]; eapply received_possible; eauto].
    destruct x; eauto. eapply received_possible; eauto.
  - right. right. left. intros depth. cbn [wstep]. rewrite C. inversion T as [? ? B E1 E2| | |? ? ? a p rest P E1 E2| |]; subst; [apply below_user in B; discriminate B|]. symmetry in E2. eapply received_possible; eauto.
  - right. right. left. intros depth. cbn [wstep]. rewrite C. inversion T as [? ? B E1 E2| | | |? ? ? ? P|]; subst; [apply below_user in B; discriminate B|].
    destruct (Ex p X1) as (sys & m & M).
    inversion P as [? k1 ? B|? ? ? B]; subst.
    + rewrite M. destruct r as [u|e]; [eauto|]. destruct (flav sys); destruct e; eauto.
    + rewrite M. destruct k as [|[| | |o ph| | | |] k]; eauto. apply below_user in B. discriminate B.
  - right. left. exists k. exact C.
Qed.
(** ** An exception reaches run() *)
Lemma fresh_say st e : fresh st (say st e) = [WA e].
Proof. unfold fresh. cbn. rewrite skipn_app, skipn_all, Nat.sub_diag. reflexivity. Qed.
Lemma same_upd w o sys m A k l : man_of w o = Some (sys, m) -> same_managers w (mkWorld A (upd (mans w) o (Some (sys, m))) k l).
Proof. intros M q. rewrite man_upd by congruence. destruct (Nat.eqb_spec o q) as [->|]; auto. Qed.
Lemma ended w p sys m e k depth : man_of w p = Some (sys, m) -> ~ takes_for_empty sys e -> ctl w = WPolled p (Err e) :: WRun p Polling :: k ->
  wstep w (XGoOn depth) = Some (acts w p sys m [EResult (Err e)] k).
Proof.
  intros M N C. cbn [wstep]. rewrite C, M. destruct (flav sys) eqn:F; [destruct e; reflexivity|destruct e; reflexivity|]. destruct e; try reflexivity. exfalso. apply N. split; auto.
Qed.
Lemma poll_fails w o b p rest a k sys m e : astack (asyn w) = FCallback o b :: FPolling p rest :: a -> man_of w p = Some (sys, m) -> ~ takes_for_empty sys e ->
  exists w1 n es w', received_by w o (Err e) (WRun p Polling :: k) = Some w1 /\ wsteps w1 (repeat (XGoOn 0) n) = Some w' /\ ctl w' = k /\ same_managers w w' /\
    wlog w' = wlog w ++ map WA es ++ [WA (EPollEnd p (Err e)); WM p (EResult (Err e))].
Proof.
  intros S M N. unfold received_by, asyncore. cbn [astep]. rewrite S.
  assert (D : forall A es0, alog A = alog (asyn w) ++ es0 ->
    let w1 := mkWorld (poll_end A p a (Err e)) (mans w) (reached (poll_end A p a (Err e)) :: WRun p Polling :: k) (wlog w ++ fresh (asyn w) (poll_end A p a (Err e))) in
    exists es w', wsteps w1 (repeat (XGoOn 0) 1) = Some w' /\ ctl w' = k /\ same_managers w w' /\ wlog w' = wlog w ++ map WA es ++ [WA (EPollEnd p (Err e)); WM p (EResult (Err e))]).
  { intros A es0 L w1. exists es0. assert (C : ctl w1 = WPolled p (Err e) :: WRun p Polling :: k) by (unfold w1, poll_end; cbn [ctl]; rewrite reached_say; reflexivity).
    assert (M1 : man_of w1 p = Some (sys, m)) by exact M.
    eexists. split; [cbn [repeat wsteps]; rewrite (ended w1 p sys m e k 0 M1 N C); reflexivity|]. split; [reflexivity|]. split; [exact (same_upd w p sys m _ _ _ M)|]. unfold acts. cbn [wlog].
    unfold w1. cbn [wlog]. rewrite (fresh_eq _ _ (es0 ++ [EPollEnd p (Err e)])) by (unfold poll_end; cbn; rewrite L, <- app_assoc; reflexivity). rewrite map_app, <- !app_assoc. reflexivity. }
  set (st1 := say (asyn w) (ECbEnd o (Err e))). assert (L1 : alog st1 = alog (asyn w) ++ [ECbEnd o (Err e)]) by reflexivity.
  destruct b.
  - destruct (D st1 _ L1) as (es & w' & H). eexists; exists 1%nat, es, w'. split; [reflexivity|]. exact H.
  - assert (Q : e = ValueError \/ read_error st1 p rest a o e = poll_end st1 p a (Err e)) by (destruct e; auto). destruct Q as [->|Q].
    + set (A := read_error st1 p rest a o ValueError).
      assert (R : reached A = WExc o ValueError) by (unfold A, read_error; rewrite reached_say; reflexivity).
      assert (Sa : astack A = FCallback o true :: FPolling p rest :: a) by reflexivity.
      eexists; exists 2%nat. rewrite R.
      assert (St : forall w2, ctl w2 = WExc o ValueError :: WRun p Polling :: k -> asyn w2 = A -> mans w2 = mans w -> wstep w2 (XGoOn 0) =
        Some (mkWorld (poll_end (say A (ECbEnd o (Err ValueError))) p a (Err ValueError)) (mans w) (reached (poll_end (say A (ECbEnd o (Err ValueError))) p a (Err ValueError)) :: WRun p Polling :: k)
          (wlog w2 ++ fresh A (poll_end (say A (ECbEnd o (Err ValueError))) p a (Err ValueError))))).
      { intros w2 C2 A2 M2. cbn [wstep]. rewrite C2. unfold received_by, receive_exception, asyncore. cbn [astep]. rewrite A2, Sa, M2. reflexivity. }
      assert (Lx : alog (say A (ECbEnd o (Err ValueError))) = alog (asyn w) ++ [ECbEnd o (Err ValueError); ECb o (Exc ValueError); ECbEnd o (Err ValueError)]).
      { cbn. rewrite <- !app_assoc. reflexivity. }
      destruct (D _ _ Lx) as (es & w' & W & H). exists es, w'. split; [reflexivity|]. split; [|exact H].
      change (repeat (XGoOn 0) 2) with (XGoOn 0 :: repeat (XGoOn 0) 1). cbn [wsteps]. rewrite St by reflexivity. cbn [wlog]. rewrite <- W. f_equal. f_equal.
      rewrite <- app_assoc. f_equal. rewrite (fresh_eq (asyn w) A [ECbEnd o (Err ValueError); ECb o (Exc ValueError)]) by (cbn; rewrite <- app_assoc; reflexivity).
      rewrite (fresh_eq A _ [ECbEnd o (Err ValueError); EPollEnd p (Err ValueError)]) by (cbn; rewrite <- !app_assoc; reflexivity).
      rewrite (fresh_eq (asyn w) _ [ECbEnd o (Err ValueError); ECb o (Exc ValueError); ECbEnd o (Err ValueError); EPollEnd p (Err ValueError)]) by (cbn; rewrite <- !app_assoc; reflexivity). reflexivity.
    + destruct (D st1 _ L1) as (es & w' & H). eexists; exists 1%nat, es, w'. split; [rewrite Q; reflexivity|]. exact H.
Qed.
Lemma in_poll w o k0 p k : sinv w -> ctl w = k0 :: WRun p Polling :: k -> ((exists id, k0 = WResp o id) \/ k0 = WTrap o \/ (exists d src, k0 = WGot o d src)) ->
  (exists b rest a, astack (asyn w) = FCallback o b :: FPolling p rest :: a) /\ exists sys m, man_of w p = Some (sys, m).
Proof.
  intros J C K. pose proof (s_atop _ J) as T. rewrite C in T. split.
  - assert (P : exists p' b rest a, polls p' (WRun p Polling :: k) a /\ astack (asyn w) = FCallback o b :: FPolling p' rest :: a).
    { destruct K as [[id ->]|[->|(d & src & ->)]]; inversion T as [? ? B E1 E2| | | | |]; subst; try (inversion B; subst); eauto 8. }
    destruct P as (p' & b & rest & a & P & E). assert (p' = p) as -> by (inversion P as [|? ? ? B]; subst; [reflexivity|]; apply below_user in B; discriminate B). eauto.
  - destruct (man_of w p) as [[sys m]|] eqn:M; [eauto|]. exfalso. apply (s_same _ J) in M. pose proof (s_exist _ J) as X. rewrite C in X. inversion X as [|? ? _ X1]; subst. inversion X1 as [|? ? X2 _]; subst.
    exact (X2 p eq_refl M).
Qed.
