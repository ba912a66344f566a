(** * Every step of a process keeps the invariant of ProofsProcess. *)
From Coq Require Import ZArith List Bool Lia.
From Verif Require Import PyBase Classes Values Codec Manager Role Asyn Process SpecAsyn SpecProcess ProofsAsyn ProofsAsynLog ProofsHistory ProofsProcess.
Import ListNotations.
Open Scope Z_scope.

Lemma aside_inv w l w' : winv w -> aside w l = Some w' -> winv w' /\ ctl w' = ctl w /\ mans w' = mans w /\
  exists A, astep (asyn w) l = Some A /\ asyn w' = A /\ wlog w' = wlog w ++ fresh (asyn w) A.
Proof.
  intros [A B C D F] S. unfold aside in S. destruct (astep (asyn w) l) as [A'|] eqn:E; [|discriminate S]. injection S as <-. split; [|eauto 10].
  constructor; cbn [ctl wlog mans asyn]; [|exact B| |eapply asyn_step; eauto|eapply traffic_step; eauto].
  - intros o. apply lives_log; auto using history_fresh.
  - unfold called in *. cbn [ctl wlog]. destruct (ctl w) as [|[| | | |o d src| | |] k]; try exact Logic.I.
    destruct C as (a & b & E1 & E2). exists a, (b ++ fresh (asyn w) A'). rewrite E1. split; [rewrite <- app_assoc; reflexivity|].
    intros p. rewrite E2, E1, (history_app p _ (fresh _ _)), history_fresh, app_nil_r. reflexivity.
Qed.
Lemma projs_cons o f k : projs o (f :: k) = proj1_frame o f ++ projs o k.
Proof. reflexivity. Qed.
Lemma others_cons o f k : (forall p, p <> o -> proj1_frame p f = []) -> others o (f :: k) k.
Proof. intros H p N. rewrite projs_cons, (H p N). reflexivity. Qed.
Lemma others_push o f k k' : (forall p, p <> o -> proj1_frame p f = []) -> others o k k' -> others o k (f :: k').
Proof. intros H O p N. rewrite projs_cons, (H p N). exact (O p N). Qed.
Lemma others_refl o k : others o k k. Proof. intros p _. reflexivity. Qed.
Lemma others_trans o a b c : others o a b -> others o b c -> others o a c.
Proof. intros A B p N. rewrite (B p N). exact (A p N). Qed.
Ltac other := intros ? ?; cbn; rewrite ?(proj2 (Nat.eqb_neq _ _)) by congruence; reflexivity.

Lemma nothing_inv w o sys m m' es k : winv w -> man_of w o = Some (sys, m) -> lower k -> others o (ctl w) k ->
  (forall wl h, sim o wl sys m (projs o (ctl w)) h -> exists m0 stk0 l, sim o wl sys m0 stk0 h /\ happened o wl h l /\
     forall lg, exists new, step sys (mkState m0 stk0 lg) l = Some (loop_empty sys m' (projs o k) (lg ++ new)) /\ filter lasting new = filter lasting es) ->
  wbase (nothing_queued w o sys m' es k).
Proof.
  intros I M L O H. unfold nothing_queued.
  assert (X : forall wl h, sim o wl sys m (projs o (ctl w)) h -> sim o wl sys m' (after_empty sys (projs o k)) (h ++ filter lasting es ++ empty_events sys)).
  { intros wl h S. destruct (H wl h S) as (m0 & stk0 & l & S0 & A & St). eapply sim_empty; eauto. }
  unfold after_empty, empty_events in X. destruct (queueEmpty sys) as [[|n]|]; (eapply acts_inv; [exact I|exact M| | |]).
  - exact L.
  - exact O.
  - intros wl h S _ _. rewrite filter_app. cbn. rewrite app_nil_r. rewrite <- (app_nil_r (filter lasting es)). apply X. exact S.
  - cbn. split; [eauto|exact L].
  - apply others_push; [other|]. apply others_push; [other|exact O].
  - intros wl h S _ _. rewrite filter_app. cbn. rewrite Nat.eqb_refl. apply X. exact S.
  - exact L.
  - apply others_push; [other|exact O].
  - intros wl h S _ _. rewrite <- (app_nil_r (filter lasting es)). apply X. exact S.
Qed.
(** A failure inside the try of run(). *)
Lemma fails_inv w o sys m m' e es k r : winv w -> man_of w o = Some (sys, m) -> ctl w = WRun o Sending :: k ->
  (forall lg, exists new, send_called sys m r (projs o k) lg =
     match e with QueueEmpty => loop_empty sys m' (projs o k) (lg ++ new) | _ => run_raises m' e (projs o k) (lg ++ new) end /\ filter lasting new = filter lasting es) ->
  wbase (run_fails w o sys m' e es k).
Proof.
  intros I M C H. pose proof (w_shape _ I) as L. rewrite C in L. cbn in L.
  assert (O : others o (ctl w) k) by (rewrite C; apply others_cons; other).
  assert (P : projs o (ctl w) = FRun Sending :: projs o k) by (rewrite C; cbn; rewrite Nat.eqb_refl; reflexivity).
  assert (R : e = QueueEmpty \/ run_fails w o sys m' e es k = acts w o sys m' (es ++ [EResult (Err e)]) k) by (destruct e; auto).
  assert (Q : forall lg, e <> QueueEmpty -> exists new, send_called sys m r (projs o k) lg = run_raises m' e (projs o k) (lg ++ new) /\ filter lasting new = filter lasting es).
  { intros lg N. destruct (H lg) as (new & E & F). exists new. split; [|exact F]. rewrite E. destruct e; try reflexivity. contradiction. }
  destruct R as [->|R].
  - cbn. eapply nothing_inv; eauto. intros wl h S. rewrite P in S. exists m, (FRun Sending :: projs o k), (LSend r). split; [exact S|]. split; [exact Logic.I|].
    intros lg. destruct (H lg) as (new & E & F). exists new. split; [|exact F]. cbn [step]. rewrite E. reflexivity.
  - assert (N : e = QueueEmpty \/ e <> QueueEmpty) by (destruct e; auto; right; discriminate). destruct N as [->|N].
    { cbn. eapply nothing_inv; eauto. intros wl h S. rewrite P in S. exists m, (FRun Sending :: projs o k), (LSend r). split; [exact S|]. split; [exact Logic.I|].
      intros lg. destruct (H lg) as (new & E & F). exists new. split; [|exact F]. cbn [step]. rewrite E. reflexivity. }
    rewrite R. eapply acts_inv; [exact I|exact M|exact L|exact O|]. intros wl h S _ _. rewrite P in S. eapply (sim_step _ _ _ _ _ _ (LSend r)); [exact S|exact Logic.I|].
    intros lg. destruct (Q lg N) as (new & E & F). exists (new ++ [EResult (Err e)]). cbn [step]. rewrite E. unfold run_raises. rewrite app_assoc, !filter_app, F. auto.
Qed.

Lemma step_new w f imp qe tc i op fd w' : winv w -> wstep w (XNew f imp qe tc i op fd) = Some w' -> winv w'.
Proof.
  intros I S. cbn [wstep] in S. destruct (user_code (ctl w)) eqn:U; [|discriminate S]. pose proof (inv_base _ I U) as [A B C D].
  destruct (astep (asyn w) (ANew (CbPair true) i op fd)) as [A'|] eqn:E; [|discriminate S]. injection S as <-. apply base_inv.
  constructor; cbn [ctl wlog mans asyn]; [|exact B|eapply asyn_step; eauto|eapply traffic_step; eauto].
  intros o. pose proof (A o) as L. unfold lives, man_of in *. cbn [ctl wlog mans asyn]. rewrite history_app, history_fresh, app_nil_r.
  set (made := match rev (alog A') with ENew _ (Ok _) :: _ => Some (mkSys f imp qe tc Text, mgr0) | _ => None end).
  destruct (nth_error (mans w) o) as [x|] eqn:N.
  - rewrite nth_error_app1 by (apply nth_error_Some; congruence). rewrite N. destruct x as [[sys m]|]; [apply sim_more|]; exact L.
  - destruct (Nat.eqb o (length (mans w))) eqn:Q.
    + apply Nat.eqb_eq in Q. subst o. rewrite nth_error_app2, Nat.sub_diag by lia. cbn. destruct L as [L1 L2]. rewrite L1, L2.
      unfold made. destruct (rev (alog A')) as [|[| y [|]| | | | | | | | |] ?]; auto. apply sim_new. reflexivity.
    + apply Nat.eqb_neq in Q. apply nth_error_None in N. rewrite nth_error_app2 by lia. destruct (o - length (mans w))%nat eqn:Z; [lia|]. cbn. destruct n; exact L.
Qed.
Lemma step_call w o a w' : winv w -> wstep w (XCall o a) = Some w' -> winv w'.
Proof.
  intros I S. cbn [wstep] in S. destruct (user_code (ctl w)) eqn:U; [|discriminate S]. destruct (man_of w o) as [[sys m]|] eqn:M; [|discriminate S].
  destruct (do_call (flav sys) a m) as [m' r] eqn:C. injection S as <-. apply base_inv. pose proof (inv_base _ I U) as B.
  eapply acts_inv; [exact I|exact M|apply B|apply others_refl|]. intros wl h S W _. eapply (sim_step _ _ _ _ _ _ (LCall a)); [exact S| |].
  - cbn. exists r. rewrite W. apply in_or_app. right. left. reflexivity.
  - intros lg. cbn [step]. rewrite (user_projs o _ (b_lower _ B)), C. eexists. split; reflexivity.
Qed.
Lemma step_poll w o w' : winv w -> wstep w (XPoll o) = Some w' -> winv w'.
Proof.
  intros I S. cbn [wstep] in S. destruct (user_code (ctl w)) eqn:U; [|discriminate S]. eapply asyncore_inv; [apply inv_base; eauto| |exact S]. exact Logic.I.
Qed.
Lemma move_sending w o sys m k : winv w -> man_of w o = Some (sys, m) -> lower k -> others o (ctl w) k ->
  (forall wl h, sim o wl sys m (projs o (ctl w)) h -> sim o wl sys m (projs o k) h) ->
  winv (mkWorld (asyn w) (mans w) (WRun o Sending :: k) (wlog w)).
Proof.
  intros I M L O H. destruct (move_inv _ _ _ _ _ I M L O H) as [A B C D]. constructor; cbn [ctl wlog mans asyn] in *; [|exact L|exact Logic.I|exact C|exact D].
  intros p. specialize (A p). unfold lives, man_of in *. cbn [ctl wlog mans asyn] in *. rewrite projs_cons. cbn [proj1_frame].
  destruct (Nat.eqb o p) eqn:E; [|exact A]. apply Nat.eqb_eq in E. subst p. rewrite M in *. cbn [app]. apply sim_enter; [apply user_projs; exact L|exact A].
Qed.
Lemma step_run w o w' : winv w -> wstep w (XRun o) = Some w' -> winv w'.
Proof.
  intros I S. cbn [wstep] in S. destruct (user_code (ctl w)) eqn:U; [|discriminate S]. destruct (man_of w o) as [[sys m]|] eqn:M; [|discriminate S].
  injection S as <-. pose proof (inv_base _ I U) as B. destruct (loop_start (flav sys)).
  - apply base_inv. eapply move_inv; [exact I|exact M|apply B|apply others_push; [other|apply others_refl]|]. intros wl h S. exact S.
  - eapply move_sending; [exact I|exact M|apply B|apply others_refl|auto].
Qed.
Lemma step_aside w l w' : winv w -> (if user_code (ctl w) then aside w l else None) = Some w' -> winv w'.
Proof. intros I S. destruct (user_code (ctl w)); [|discriminate S]. eapply aside_inv; eauto. Qed.
(** receiveData comes back. *)
Lemma received_inv w o r w' : wbase w -> received_by w o r (ctl w) = Some w' -> winv w'.
Proof. intros B S. unfold received_by in S. eapply asyncore_inv; [exact B| |exact S]. destruct r; exact Logic.I. Qed.
Lemma response_inv w o id r k w' : winv w -> ctl w = WResp o id :: k ->
  match man_of w o with
  | None => None
  | Some (sys, m) => let '(m', r') := after_response (flav sys) m id r in received_by (acts w o sys m' [EFinished id r] (ctl w)) o r' k
  end = Some w' -> winv w'.
Proof.
  intros I C S. destruct (man_of w o) as [[sys m]|] eqn:M; [|discriminate S]. destruct (after_response (flav sys) m id r) as [m' r'] eqn:A.
  pose proof (w_shape _ I) as L. rewrite C in L. cbn in L.
  eapply (received_inv (acts w o sys m' [EFinished id r] k) o r'); [|exact S]. eapply acts_inv; [exact I|exact M|exact L|rewrite C; apply others_cons; other|].
  intros wl h Si _ _. rewrite C in Si. cbn in Si. rewrite Nat.eqb_refl in Si. cbn in Si. fold (projs o k) in Si.
  pose proof (user_projs o k L) as U.
  assert (G : forall lg x, exists new, receive_returns sys m' x (FRead :: projs o k) (lg ++ [EFinished id r]) = mkState m' (projs o k) (lg ++ new) /\ filter lasting new = [EFinished id r]).
  { intros lg x. unfold receive_returns, poll_returns. exists [EFinished id r; EResult (asyncore_read x)]. split; [|reflexivity].
    destruct (projs o k) as [|[| | | |] ?]; try discriminate U; rewrite <- app_assoc; reflexivity. }
  destruct r as [[]|e].
  - eapply (sim_step _ _ _ _ _ _ LReturn); [exact Si|exact Logic.I|]. intros lg. cbn [step]. rewrite A. destruct (G lg r') as (new & E & F). exists new. rewrite E. auto.
  - eapply (sim_step _ _ _ _ _ _ (LRaise e)); [exact Si|exact Logic.I|]. intros lg. cbn [step]. rewrite A. destruct (G lg r') as (new & E & F). exists new. rewrite E. auto.
Qed.
Lemma trap_inv w o r x k w' : winv w -> ctl w = WTrap o :: k -> man_of w o <> None -> received_by w o r k = Some w' ->
  (x = LReturn \/ exists e, x = LRaise e) -> winv w'.
Proof.
  intros I C M S X. destruct (man_of w o) as [[sys m]|] eqn:Mo; [|contradiction]. pose proof (w_shape _ I) as L. rewrite C in L. cbn in L.
  eapply (received_inv (mkWorld (asyn w) (mans w) k (wlog w)) o r); [|exact S]. eapply move_inv; [exact I|exact Mo|exact L|rewrite C; apply others_cons; other|].
  intros wl h Si. rewrite C in Si. cbn in Si. rewrite Nat.eqb_refl in Si. cbn in Si. fold (projs o k) in Si.
  pose proof (user_projs o k L) as U.
  assert (G : forall lg y, exists new, receive_returns sys m y (FRead :: projs o k) lg = mkState m (projs o k) (lg ++ new) /\ filter lasting new = []).
  { intros lg y. unfold receive_returns, poll_returns. exists [EResult (asyncore_read y)]. split; [|reflexivity].
    destruct (projs o k) as [|[| | | |] ?]; try discriminate U; reflexivity. }
  eapply (sim_silent _ _ _ _ _ _ LReturn); [exact Si|exact Logic.I|]. intros lg. cbn [step]. destruct (G lg (Ok tt)) as (new & E & F). exists new. rewrite E. auto.
Qed.
Lemma lower_run o k : lower (WEmpty o :: k) -> exists k', k = WRun o Polling :: k' /\ lower k'.
Proof. cbn. intros [[k' ->] L]. eauto. Qed.
Lemma step_return w w' : winv w -> wstep w XReturn = Some w' -> winv w'.
Proof.
  intros I S. cbn [wstep] in S. destruct (ctl w) as [|[o id|o|o| | | | |] k] eqn:C; try discriminate S.
  - rewrite <- C in S. eapply response_inv; eauto.
  - eapply (trap_inv w o (Ok tt) LReturn); eauto. intros N. pose proof (w_lives _ I o) as L. unfold lives in L. rewrite N in L. destruct L as [L _].
    rewrite C in L. cbn in L. rewrite Nat.eqb_refl in L. discriminate L.
  - injection S as <-. pose proof (w_shape _ I) as L. rewrite C in L. cbn in L. destruct (lower_run _ _ L) as (k' & -> & L').
    destruct (man_of w o) as [[sys m]|] eqn:M.
    2:{ pose proof (w_lives _ I o) as X. unfold lives in X. rewrite M in X. destruct X as [X _]. rewrite C in X. cbn in X. rewrite Nat.eqb_refl in X. discriminate X. }
    apply base_inv. eapply move_inv; [exact I|exact M|exact L'|rewrite C; apply others_cons; other|].
    intros wl h Si. rewrite C in Si. cbn in Si. rewrite Nat.eqb_refl in Si. cbn in *. fold (projs o k') in *. apply sim_leave.
    eapply (sim_silent _ _ _ _ _ _ LReturn); [exact Si|exact Logic.I|]. intros lg. exists []. cbn. rewrite app_nil_r. auto.
Qed.
Lemma step_raise w e w' : winv w -> wstep w (XRaise e) = Some w' -> winv w'.
Proof.
  intros I S. cbn [wstep] in S. destruct (ctl w) as [|[o id|o|o| | | | |] k] eqn:C; try discriminate S.
  - rewrite <- C in S. eapply response_inv; eauto.
  - destruct (man_of w o) as [[sys m]|] eqn:M; [|discriminate S]. eapply (trap_inv w o _ (LRaise e)); eauto. congruence.
  - pose proof (w_shape _ I) as L. rewrite C in L. cbn in L. destruct (lower_run _ _ L) as (k' & -> & L').
    destruct (man_of w o) as [[sys m]|] eqn:M; [|discriminate S]. injection S as <-. apply base_inv.
    eapply acts_inv; [exact I|exact M|exact L'| |].
    + rewrite C. eapply others_trans; apply others_cons; other.
    + intros wl h Si _ _. rewrite C in Si. cbn in *. rewrite Nat.eqb_refl in Si. cbn in *. fold (projs o k') in *.
      eapply (sim_step _ _ _ _ _ _ (LRaise e)); [exact Si|exact Logic.I|]. intros lg. exists [EResult (Err e)]. cbn. auto.
Qed.
Lemma step_arrive w s x w' : winv w -> wstep w (XArrive s x) = Some w' -> winv w'.
Proof.
  intros I S. cbn [wstep] in S.
  assert (G : forall k, ctl w = WWait :: k -> forall w1, aside w (AArrive s x) = Some w1 -> winv w1 /\ winv (mkWorld (asyn w1) (mans w1) (reached (asyn w1) :: k) (wlog w1))).
  { intros k C w1 E. pose proof (aside_inv _ _ _ I E) as (I1 & C1 & _). split; [exact I1|].
    pose proof (w_shape _ I) as L. rewrite C in L. cbn in L.
    assert (B : wbase (mkWorld (asyn w) (mans w) k (wlog w))).
    { destruct I as [J1 J2 J3 J4 J5]. constructor; cbn [ctl wlog mans asyn]; auto. intros o. specialize (J1 o). unfold lives, man_of in *. cbn [ctl wlog mans asyn]. rewrite C in J1. exact J1. }
    assert (X : asyncore (mkWorld (asyn w) (mans w) k (wlog w)) (AArrive s x) k = Some (mkWorld (asyn w1) (mans w1) (reached (asyn w1) :: k) (wlog w1))).
    { unfold asyncore, aside in *. cbn [asyn wlog mans]. destruct (astep (asyn w) (AArrive s x)); [|discriminate E]. injection E as <-. reflexivity. }
    eapply asyncore_inv; [exact B| |exact X]. exact Logic.I. }
  destruct (ctl w) as [|[| | | | | | |] k] eqn:C; try (eapply aside_inv; [exact I|exact S]).
  destruct (aside w (AArrive s x)) as [w1|] eqn:E; [|discriminate S]. injection S as <-. destruct (G k eq_refl w1 eq_refl) as [G1 G2].
  destruct (astack (asyn w1)) as [|[| |] ?]; assumption.
Qed.
Lemma step_send w op fd r w' : winv w -> wstep w (XSend op fd r) = Some w' -> winv w'.
Proof.
  intros I S. cbn [wstep] in S. destruct (ctl w) as [|[| | |o [|]| | | |] k] eqn:C; try discriminate S.
  destruct (man_of w o) as [[sys m]|] eqn:M; [|discriminate S]. pose proof (w_shape _ I) as L. rewrite C in L. cbn in L.
  assert (O : others o (WRun o Sending :: k) k) by (apply others_cons; other).
  assert (P : forall k, projs o (WRun o Sending :: k) = FRun Sending :: projs o k) by (intros k0; cbn; rewrite Nat.eqb_refl; reflexivity).
  pose proof (w_lives _ I o) as Tx. unfold lives in Tx. rewrite M in Tx. destruct Tx as [Tx _].
  destruct (outbound m) as [|[om dst] q] eqn:Ob.
  { injection S as <-. apply base_inv. eapply nothing_inv; [exact I|exact M|exact L|rewrite C; exact O|]. intros wl h Si. rewrite C, P in Si.
    eexists m, _, (LSend r). split; [exact Si|]. split; [exact Logic.I|]. intros lg. exists []. cbn [step]. unfold send_called. rewrite Ob, app_nil_r. auto. }
  set (m' := mkMgr (nextRequestID m) q (callbacks m)) in *.
  destruct (match om with None => Err AttributeError | Some msg => snd (message_encode msg) end) as [os|e] eqn:En.
  2:{ injection S as <-. apply base_inv. eapply (fails_inv _ _ _ _ _ _ _ _ (Ok tt)); [exact I|exact M|exact C|]. intros lg. exists [ETake om dst].
      unfold send_called. rewrite Ob, En. split; reflexivity. }
  destruct (aside w (ASend o os dst op fd r)) as [w1|] eqn:As; [|discriminate S].
  destruct (aside_inv _ _ _ I As) as (I1 & C1 & M1 & A & _ & _ & _).
  assert (Mo : man_of w1 o = Some (sys, m)) by (unfold man_of in *; rewrite M1; exact M).
  destruct (rev (alog (asyn w1))) as [|[| | |y [u|e]| | | | | | |] ?]; try discriminate S; injection S as <-.
  - assert (Si : forall wl h, sim o wl sys m (projs o (ctl w1)) h -> sim o wl sys m' (FRun (match flav sys with FSM => Polling | _ => Sending end) :: projs o k) (h ++ [ETake om dst; Manager.ESend os dst (Ok tt)])).
    { intros wl h Si. rewrite C1, C, P in Si. eapply (sim_step _ _ _ _ _ _ (LSend (Ok tt))); [exact Si|exact Logic.I|]. intros lg. exists [ETake om dst; Manager.ESend os dst (Ok tt)].
      cbn [step]. unfold send_called. rewrite Ob, En, Tx. cbn [sendto]. rewrite <- app_assoc. split; reflexivity. }
    unfold loop_start. destruct (flav sys).
    3:{ apply base_inv. eapply acts_inv; [exact I1|exact Mo|exact L| |].
        - rewrite C1, C. apply others_push; [other|exact O].
        - intros wl h S _ _. apply Si in S. apply sim_leave in S. exact S. }
    all: (constructor; cbn [acts ctl asyn wlog];
      [eapply acts_lives; [exact I1|exact Mo|rewrite C1, C; apply others_push; [other|exact O]|intros wl h S _ _; rewrite P; exact (Si wl h S)]
      |exact L|exact Logic.I|exact (w_asyn _ I1)|rewrite traffic_app, traffic_wm, app_nil_r; exact (w_traffic _ I1)]).
  - apply base_inv. eapply (fails_inv _ _ _ _ _ _ _ _ (Err e)); [exact I1|exact Mo|rewrite C1; exact C|]. intros lg. exists [ETake om dst; Manager.ESend os dst (Err e)].
    unfold send_called. rewrite Ob, En, Tx. cbn [sendto]. rewrite <- app_assoc. split; reflexivity.
Qed.
(** A frame of the library on top goes, and nobody is the wiser. *)
Lemma drop_inv w f k : winv w -> ctl w = f :: k -> lower k -> (forall o, proj1_frame o f = []) -> wbase (mkWorld (asyn w) (mans w) k (wlog w)).
Proof.
  intros [J1 J2 J3 J4 J5] C L F. constructor; cbn [ctl wlog mans asyn]; auto. intros o. specialize (J1 o). unfold lives, man_of in *. cbn [ctl wlog mans asyn].
  rewrite C, projs_cons, (F o) in J1. exact J1.
Qed.
Lemma step_got w o d src k depth w' : winv w -> ctl w = WGot o d src :: k -> wstep w (XGoOn depth) = Some w' -> winv w'.
Proof.
  intros I C S. pose proof (w_shape _ I) as L. rewrite C in L. cbn in L. cbn [wstep] in S. rewrite C in S.
  destruct (man_of w o) as [[sys m]|] eqn:M; [|discriminate S].
  pose proof (drop_inv _ _ _ I C L (fun _ => eq_refl)) as B. set (w0 := mkWorld (asyn w) (mans w) k (wlog w)) in *.
  pose proof (base_inv _ B) as I0.
  pose proof (w_called _ I) as Ca. unfold called in Ca. rewrite C in Ca. destruct Ca as (wl1 & wl2 & E1 & E2).
  assert (Hp : forall es, happened o (wlog w ++ es) (history o (wlog w)) (LPoll (Datagram depth d src))).
  { intros es. apply happened_more. exists wl1, wl2. split; [exact E1|apply E2]. }
  pose proof (w_lives _ I o) as Tx. unfold lives in Tx. rewrite M in Tx. destruct Tx as [Tx _].
  pose proof (user_projs o k L) as U.
  assert (Pl : forall lg, step sys (mkState m (projs o k) lg) (LPoll (Datagram depth d src)) = Some (receive_called sys m depth (DStr d) (FRead :: projs o k) lg)).
  { intros lg. cbn [step poll_called]. rewrite Tx. cbn [Manager.received]. destruct (projs o k) as [|[| | | |] ?]; try discriminate U; reflexivity. }
  unfold receive_called in Pl.
  destruct (receiveData sys m depth (DStr d)) as [[r|id n|n] [msg|]]; try discriminate S.
  - eapply (received_inv w0 o r); [|exact S].
    eapply (move_inv w0 o sys m k I0); [exact M|exact L|apply others_refl|auto].
  - eapply (received_inv w0 o r); [|exact S].
    eapply (move_inv w0 o sys m k I0); [exact M|exact L|apply others_refl|auto].
  - injection S as <-. change (acts w o sys m [EInvoke id n msg] (WResp o id :: k)) with (acts w0 o sys m [EInvoke id n msg] (WResp o id :: k)). apply base_inv.
    eapply acts_inv; [exact I0|exact M|exact L|apply others_push; [other|apply others_refl]|]. intros wl h Si -> ->.
    eapply (sim_step _ _ _ _ _ _ (LPoll (Datagram depth d src))); [exact Si|apply Hp|]. intros lg. cbn [ctl w0]. rewrite Pl. exists [EInvoke id n msg].
    rewrite projs_cons. cbn [proj1_frame]. rewrite Nat.eqb_refl. split; reflexivity.
  - injection S as <-. change (acts w o sys m [EInvokeTrap n msg] (WTrap o :: k)) with (acts w0 o sys m [EInvokeTrap n msg] (WTrap o :: k)). apply base_inv.
    eapply acts_inv; [exact I0|exact M|exact L|apply others_push; [other|apply others_refl]|]. intros wl h Si -> ->.
    eapply (sim_step _ _ _ _ _ _ (LPoll (Datagram depth d src))); [exact Si|apply Hp|]. intros lg. cbn [ctl w0]. rewrite Pl. exists [EInvokeTrap n msg].
    rewrite projs_cons. cbn [proj1_frame]. rewrite Nat.eqb_refl. split; reflexivity.
Qed.
Lemma silent_result w o sys m r k : winv w -> man_of w o = Some (sys, m) -> lower k -> (forall p, projs p k = projs p (ctl w)) -> wbase (acts w o sys m [EResult r] k).
Proof.
  intros I M L P. eapply acts_inv; [exact I|exact M|exact L|intros p _; apply P|]. intros wl h S _ _. rewrite P. cbn. rewrite app_nil_r. exact S.
Qed.
Lemma step_polled w p r k depth w' : winv w -> ctl w = WPolled p r :: k -> wstep w (XGoOn depth) = Some w' -> winv w'.
Proof.
  intros I C S. pose proof (w_shape _ I) as L. rewrite C in L. cbn in L. cbn [wstep] in S. rewrite C in S.
  assert (G : match man_of w p with None => None | Some (sys, m) => Some (acts w p sys m [EResult r] k) end = Some w' -> winv w').
  { intros S'. destruct (man_of w p) as [[sys m]|] eqn:M; [|discriminate S']. injection S' as <-. apply base_inv. apply silent_result; auto. intros q. rewrite C. reflexivity. }
  destruct k as [|[| | |o ph| | | |] k]; try (apply G; exact S). clear G.
  destruct (man_of w o) as [[sys m]|] eqn:M; [|discriminate S]. destruct ph; [|contradiction]. cbn in L.
  assert (Pk : forall q, projs q k = projs q (ctl w)) by (intros q; rewrite C; reflexivity).
  assert (R : forall e, Some (acts w o sys m [EResult (Err e)] k) = Some w' -> winv w') by (intros e X; injection X as <-; apply base_inv; apply silent_result; auto).
  destruct r as [u|e].
  - assert (w' = mkWorld (asyn w) (mans w) (WRun o Sending :: k) (wlog w)) as -> by (destruct (flav sys); congruence).
    eapply move_sending; [exact I|exact M|exact L|intros q _; apply Pk|]. intros wl h Si. rewrite Pk. exact Si.
  - destruct (flav sys) eqn:Fl; try (apply (R e); destruct e; exact S).
    assert (N : e = QueueEmpty \/ e <> QueueEmpty) by (destruct e; auto; right; discriminate). destruct N as [->|N]; [|apply (R e); destruct e; try exact S; contradiction].
    injection S as <-. apply base_inv. eapply nothing_inv; [exact I|exact M|exact L|intros q _; apply Pk|]. intros wl h Si. rewrite <- Pk in Si.
    exists m, (FRun Polling :: projs o k), (LPoll (SocketError QueueEmpty)). split; [|split; [exact Logic.I|]].
    + eapply (sim_silent _ _ _ _ _ _ LRun); [exact Si|exact Logic.I|]. intros lg. exists []. cbn. rewrite (user_projs o k L), Fl, app_nil_r. auto.
    + intros lg. exists []. cbn. rewrite Fl, app_nil_r. auto.
Qed.
Lemma step_goon w depth w' : winv w -> wstep w (XGoOn depth) = Some w' -> winv w'.
Proof.
  intros I S. destruct (ctl w) as [|f k] eqn:C; [cbn [wstep] in S; rewrite C in S; discriminate S|]. pose proof (w_shape _ I) as L. rewrite C in L.
  destruct f as [| | |o [|]|o d src|o e|p r|]; try (cbn [wstep] in S; rewrite C in S; discriminate S).
  - cbn [wstep] in S. rewrite C in S. rewrite <- C in S. eapply asyncore_inv; [| |exact S]; [|exact Logic.I].
    destruct I as [J1 J2 J3 J4 J5]. constructor; auto. rewrite C. exact L.
  - eapply step_got; eauto.
  - cbn [wstep] in S. rewrite C in S. cbn in L. pose proof (drop_inv _ _ _ I C L (fun _ => eq_refl)) as B.
    eapply (received_inv (mkWorld (asyn w) (mans w) k (wlog w)) o (receive_exception e)); [exact B|exact S].
  - eapply step_polled; eauto.
Qed.
Theorem wstep_inv w l w' : winv w -> wstep w l = Some w' -> winv w'.
Proof.
  destruct l; intros I S; eauto using step_new, step_call, step_poll, step_run, step_return, step_raise, step_arrive, step_send, step_goon.
  - eapply step_aside; [exact I|exact S].
  - eapply step_aside; [exact I|exact S].
Qed.
Lemma winv_init : winv winit.
Proof.
  constructor; [|exact Logic.I|exact Logic.I|exists []; reflexivity|reflexivity]. intros o. unfold lives, man_of. destruct o; cbn; auto.
Qed.
Theorem wsteps_inv tr : forall w w', winv w -> wsteps w tr = Some w' -> winv w'.
Proof.
  induction tr as [|l tr IH]; cbn [wsteps]; intros w w' I S; [injection S as <-; exact I|]. destruct (wstep w l) eqn:E; [|discriminate S]. eapply IH; [|exact S]. eapply wstep_inv; eauto.
Qed.
Theorem wexec_inv tr w : wexec tr = Some w -> winv w.
Proof. apply wsteps_inv. exact winv_init. Qed.
