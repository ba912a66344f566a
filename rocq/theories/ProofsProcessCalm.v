(** * A process whose callbacks do not poll never waits in recvfrom. *)
From Coq Require Import ZArith List Bool Lia.
From Verif Require Import PyBase Classes Values Codec Manager Role Asyn Process SpecAsyn SpecProcess ProofsAsyn ProofsAsynPoll ProofsProcess ProofsProcessStep ProofsProcessStack.
Import ListNotations.
Open Scope Z_scope.

Definition allows (w : world) (l : wlabel) (a : alabel) : Prop :=
  match a with
  | APoll o => (l = XPoll o /\ user_code (ctl w) = true) \/ exists k, ctl w = WRun o Polling :: k
  | ANew _ _ _ _ => exists f imp qe tc i op fd, l = XNew f imp qe tc i op fd /\ user_code (ctl w) = true
  | AHandleClose o r => l = XHandleClose o r
  | _ => True
  end.
Definition one_step (w : world) (l : wlabel) (w' : world) : Prop :=
  asyn w' = asyn w \/ exists a, astep (asyn w) a = Some (asyn w') /\ allows w l a.
Lemma asyncore_one w l a k w' w0 : asyncore w a k = Some w' -> asyn w0 = asyn w -> allows w0 l a -> one_step w0 l w'.
Proof. unfold asyncore. intros H E A. destruct (astep (asyn w) a) as [B|] eqn:S; [|discriminate]. injection H as <-. right. exists a. rewrite E. auto. Qed.
Lemma aside_one w l a w' w0 : aside w a = Some w' -> asyn w0 = asyn w -> allows w0 l a -> one_step w0 l w'.
Proof. unfold aside. intros H E A. destruct (astep (asyn w) a) as [B|] eqn:S; [|discriminate]. injection H as <-. right. exists a. rewrite E. auto. Qed.
Lemma received_one w l o r k w' w0 : received_by w o r k = Some w' -> asyn w0 = asyn w -> one_step w0 l w'.
Proof. unfold received_by. intros H E. eapply asyncore_one; [exact H|exact E|]. destruct r; exact Logic.I. Qed.
Lemma nothing_asyn w o sys m es k : asyn (nothing_queued w o sys m es k) = asyn w.
Proof. unfold nothing_queued. destruct (queueEmpty sys) as [[|]|]; reflexivity. Qed.
Lemma fails_asyn w o sys m e es k : asyn (run_fails w o sys m e es k) = asyn w.
Proof. unfold run_fails. destruct e; first [apply nothing_asyn|reflexivity]. Qed.
Lemma wstep_one w l w' : wstep w l = Some w' -> one_step w l w'.
Proof.
  intros H. destruct l; cbn [wstep] in H.
  - destruct (user_code (ctl w)) eqn:U; [|discriminate]. destruct (astep (asyn w) _) as [A|] eqn:S; [|discriminate]. injection H as <-. right. eexists. split; [exact S|]. do 7 eexists. split; [reflexivity|exact U].
  - destruct (user_code (ctl w)); [|discriminate]. destruct (man_of w o) as [[sys m]|]; [|discriminate]. destruct (do_call _ _ _). injection H as <-. left. reflexivity.
  - destruct (user_code (ctl w)) eqn:U; [|discriminate]. eapply asyncore_one; [exact H|reflexivity|]. left. auto.
  - destruct (user_code (ctl w)); [|discriminate]. destruct (man_of w o) as [[sys m]|]; [|discriminate]. injection H as <-. left. reflexivity.
  - destruct (user_code (ctl w)) eqn:U; [|discriminate]. eapply aside_one; [exact H|reflexivity|exact Logic.I].
  - destruct (user_code (ctl w)) eqn:U; [|discriminate]. eapply aside_one; [exact H|reflexivity|reflexivity].
  - destruct (ctl w) as [|[o id|o|o|o ph|o d src|o e|p r|] k]; try discriminate.
    + destruct (man_of w o) as [[sys m]|]; [|discriminate]. destruct (after_response _ _ _ _). eapply received_one; [exact H|reflexivity].
    + eapply received_one; [exact H|reflexivity].
    + injection H as <-. left. reflexivity.
  - destruct (ctl w) as [|[o id|o|o|o ph|o d src|o e'|p r|] k]; try discriminate.
    + destruct (man_of w o) as [[sys m]|]; [|discriminate]. destruct (after_response _ _ _ _). eapply received_one; [exact H|reflexivity].
    + destruct (man_of w o) as [[sys m]|]; [|discriminate]. eapply received_one; [exact H|reflexivity].
    + destruct k as [|[| | |p ph| | | |] k]; try discriminate. destruct (man_of w o) as [[sys m]|]; [|discriminate]. injection H as <-. left. reflexivity.
  - assert (Q : exists w1, aside w (AArrive s x) = Some w1 /\ asyn w' = asyn w1).
    { destruct (ctl w) as [|[o id|o|o|o ph|o d src|o e'|p r|] k]; try (exists w'; split; [exact H|reflexivity]). destruct (aside w (AArrive s x)) as [w1|]; [|discriminate]. exists w1. split; [reflexivity|].
      destruct (astack (asyn w1)) as [|[| |] ?]; injection H as <-; reflexivity. }
    destruct Q as (w1 & Q & E). destruct (aside_one w (XArrive s x) _ _ w Q eq_refl Logic.I) as [L|(a & S & Al)]; [left; congruence|]. right. exists a. rewrite E. auto.
  - destruct (ctl w) as [|[o id|o|o|o [|]|o d src|o e'|p r'|] k]; try discriminate. destruct (man_of w o) as [[sys m]|]; [|discriminate].
    destruct (outbound m) as [|[om dst] q]; [injection H as <-; left; apply nothing_asyn|].
    destruct (match om with None => Err AttributeError | Some msg => snd (message_encode msg) end) as [os|e]; [|injection H as <-; left; apply fails_asyn].
    destruct (aside w (ASend o os dst op fd r)) as [w1|] eqn:A; [|discriminate].
    assert (E : asyn w' = asyn w1) by (destruct (rev (alog (asyn w1))) as [|[] ?]; try discriminate; match type of H with match ?x with _ => _ end = _ => destruct x end; injection H as <-; first [reflexivity|apply fails_asyn]).
    destruct (aside_one w (XSend op fd r) _ _ w A eq_refl Logic.I) as [L|(a & S & Al)]; [left; congruence|]. right. exists a. rewrite E. auto.
  - destruct (ctl w) as [|[o id|o|o|o [|]|o d src|o e'|p r'|] k] eqn:C; try discriminate.
    + eapply asyncore_one; [exact H|reflexivity|]. right. rewrite C. eauto.
    + destruct (man_of w o) as [[sys m]|]; [|discriminate]. destruct (receiveData _ _ _ _) as [[r|id n|n] [msg|]]; try discriminate; try (eapply received_one; [exact H|reflexivity]); injection H as <-; left; reflexivity.
    + eapply received_one; [exact H|reflexivity].
    + assert (P : match man_of w p with None => None | Some (sys, m) => Some (acts w p sys m [EResult r'] k) end = Some w' -> one_step w (XGoOn depth) w') by (intros X; destruct (man_of w p) as [[sys m]|]; [|discriminate]; injection X as <-; left; reflexivity).
      destruct k as [|[| | |o ph| | | |] k]; try exact (P H). destruct (man_of w o) as [[sys m]|]; [|discriminate].
      destruct r' as [u|e]; [injection H as <-; left; reflexivity|]. destruct e; destruct (flav sys); injection H as <-; left; first [apply nothing_asyn|reflexivity].
Qed.
(** ** Callbacks are on top only *)
Definition plain (f : wframe) : Prop := match f with WResp _ _ | WTrap _ => False | _ => True end.
Definition flat_below (k : list wframe) : Prop := Forall plain (tl k).
Lemma plain_tail k : flat_below k -> (forall f k', k = f :: k' -> plain f) -> Forall plain k.
Proof. intros F P. destruct k; constructor; [eapply P; reflexivity|exact F]. Qed.
Lemma below_plain k a : below k a -> Forall plain k -> a = [].
Proof.
  intros B. induction B; intros F; [reflexivity|..]; inversion F as [|? ? F1 F2]; subst; try contradiction. inversion F2; subst. auto.
Qed.
Lemma nothing_ctl w o sys m es k : Forall plain k -> flat_below (ctl (nothing_queued w o sys m es k)).
Proof. intros F. unfold nothing_queued, flat_below. destruct (queueEmpty sys) as [[|]|]; cbn [acts ctl tl]; first [exact F|constructor; [exact Logic.I|exact F]|destruct k; cbn; [constructor|inversion F; assumption]]. Qed.
Lemma plain_flat k : Forall plain k -> flat_below k.
Proof. intros F. destruct F; [constructor|]. assumption. Qed.
Lemma fails_ctl w o sys m e es k : Forall plain k -> flat_below (ctl (run_fails w o sys m e es k)).
Proof. intros F. unfold run_fails. destruct e; first [apply nothing_ctl; exact F|apply plain_flat; exact F]. Qed.
Lemma asyncore_ctl w a k w' : asyncore w a k = Some w' -> Forall plain k -> flat_below (ctl w').
Proof. unfold asyncore. intros H F. destruct (astep (asyn w) a); [|discriminate]. injection H as <-. exact F. Qed.
Lemma aside_ctl w a w' : aside w a = Some w' -> ctl w' = ctl w.
Proof. unfold aside. intros H. destruct (astep (asyn w) a); [|discriminate]. injection H as <-. reflexivity. Qed.
Lemma flat_user w : flat_below (ctl w) -> ~ in_callback w -> Forall plain (ctl w).
Proof. intros F N. apply plain_tail; [exact F|]. intros f k' E. destruct f; try exact Logic.I; exfalso; apply N; unfold in_callback; rewrite E; do 3 eexists; eauto. Unshelve. exact 0. Qed.
Lemma wstep_flat w l w' : flat_below (ctl w) -> (in_callback w -> match l with XPoll _ | XRun _ | XNew _ _ _ _ _ _ _ => False | _ => True end) -> wstep w l = Some w' -> flat_below (ctl w').
Proof.
  intros F N H. pose proof (flat_user w F) as U. assert (T : forall f k, ctl w = f :: k -> Forall plain k) by (intros f k E; unfold flat_below in F; rewrite E in F; exact F).
  destruct l; cbn [wstep] in H; cbv beta iota in N.
  - destruct (user_code (ctl w)); [|discriminate]. destruct (astep (asyn w) _) as [A|]; [|discriminate]. injection H as <-. exact F.
  - destruct (user_code (ctl w)); [|discriminate]. destruct (man_of w o) as [[sys m]|]; [|discriminate]. destruct (do_call _ _ _). injection H as <-. exact F.
  - destruct (user_code (ctl w)); [|discriminate]. eapply asyncore_ctl; [exact H|]. apply U. exact N.
  - destruct (user_code (ctl w)); [|discriminate]. destruct (man_of w o) as [[sys m]|]; [|discriminate]. injection H as <-. apply U. exact N.
  - destruct (user_code (ctl w)); [|discriminate]. apply aside_ctl in H. rewrite H. exact F.
  - destruct (user_code (ctl w)); [|discriminate]. apply aside_ctl in H. rewrite H. exact F.
  - destruct (ctl w) as [|[o id|o|o|o ph|o d src|o e|p r|] k] eqn:C; try discriminate; specialize (T _ _ eq_refl).
    + destruct (man_of w o) as [[sys m]|]; [|discriminate]. destruct (after_response _ _ _ _). eapply asyncore_ctl; [exact H|exact T].
    + eapply asyncore_ctl; [exact H|exact T].
    + injection H as <-. apply plain_flat. exact T.
  - destruct (ctl w) as [|[o id|o|o|o ph|o d src|o e'|p r|] k] eqn:C; try discriminate; specialize (T _ _ eq_refl).
    + destruct (man_of w o) as [[sys m]|]; [|discriminate]. destruct (after_response _ _ _ _). eapply asyncore_ctl; [exact H|exact T].
    + destruct (man_of w o) as [[sys m]|]; [|discriminate]. eapply asyncore_ctl; [exact H|exact T].
    + destruct k as [|[| | |p ph| | | |] k]; try discriminate. destruct (man_of w o) as [[sys m]|]; [|discriminate]. injection H as <-. apply plain_flat. inversion T; assumption.
  - destruct (ctl w) as [|[o id|o|o|o ph|o d src|o e'|p r|] k] eqn:C; try (apply aside_ctl in H; rewrite H, C; exact F). destruct (aside w (AArrive s x)) as [w1|] eqn:A; [|discriminate].
    apply aside_ctl in A. specialize (T _ _ eq_refl). destruct (astack (asyn w1)) as [|[| |] ?]; injection H as <-; first [exact T|rewrite A, C; exact F].
  - destruct (ctl w) as [|[o id|o|o|o [|]|o d src|o e'|p r'|] k] eqn:C; try discriminate. destruct (man_of w o) as [[sys m]|]; [|discriminate]. specialize (T _ _ eq_refl).
    destruct (outbound m) as [|[om dst] q]; [injection H as <-; apply nothing_ctl; exact T|].
    destruct (match om with None => Err AttributeError | Some msg => snd (message_encode msg) end) as [os|e]; [|injection H as <-; apply fails_ctl; exact T].
    destruct (aside w (ASend o os dst op fd r)) as [w1|] eqn:A; [|discriminate].
    destruct (rev (alog (asyn w1))) as [|[] ?]; try discriminate; match type of H with match ?x with _ => _ end = _ => destruct x end; injection H as <-; first [apply fails_ctl; exact T|exact T].
  - destruct (ctl w) as [|[o id|o|o|o [|]|o d src|o e'|p r'|] k] eqn:C; try discriminate; specialize (T _ _ eq_refl).
    + eapply asyncore_ctl; [exact H|]. constructor; [exact Logic.I|exact T].
    + destruct (man_of w o) as [[sys m]|]; [|discriminate]. destruct (receiveData _ _ _ _) as [[r|id n|n] [msg|]]; try discriminate; try (eapply asyncore_ctl; [exact H|exact T]); injection H as <-; exact T.
    + eapply asyncore_ctl; [exact H|exact T].
    + assert (P : match man_of w p with None => None | Some (sys, m) => Some (acts w p sys m [EResult r'] k) end = Some w' -> flat_below (ctl w')) by (intros X; destruct (man_of w p) as [[sys m]|]; [|discriminate]; injection X as <-; apply plain_flat; exact T).
      destruct k as [|[| | |o ph| | | |] k]; try exact (P H). destruct (man_of w o) as [[sys m]|]; [|discriminate]. assert (T' : Forall plain k) by (inversion T; assumption).
      destruct r' as [u|e]; [injection H as <-; exact T'|]. destruct e; destruct (flav sys); injection H as <-; first [apply nothing_ctl; exact T'|apply plain_flat; exact T'].
Qed.
Lemma wsteps_snoc tr : forall w l w', wsteps w (tr ++ [l]) = Some w' <-> exists w1, wsteps w tr = Some w1 /\ wstep w1 l = Some w'.
Proof.
  induction tr as [|x tr IH]; intros w l w'; cbn [app wsteps].
  - split; [intros H; exists w; split; [reflexivity|]; destruct (wstep w l); exact H|intros (w1 & E & H); injection E as <-; rewrite H; reflexivity].
  - destruct (wstep w x) as [w0|]; [apply IH|]. split; [discriminate|]. intros (w1 & E & _). discriminate E.
Qed.
Lemma asteps_snoc tr : forall st l st', asteps st tr = Some st' -> asteps st (tr ++ [l]) = astep st' l.
Proof.
  induction tr as [|x tr IH]; intros st l st' E; cbn [app asteps] in *; [injection E as <-; destruct (astep st l); reflexivity|]. destruct (astep st x) as [s0|]; [|discriminate]. apply IH. exact E.
Qed.
Lemma avoid_snoc bad tr a st : callbacks_avoid bad tr -> aexec tr = Some st -> (astack st <> [] -> ~ bad a) -> callbacks_avoid bad (tr ++ [a]).
Proof.
  intros C X N tr1 l tr2 st1 E X1 S. destruct (rev tr2) as [|y r] eqn:R.
  - assert (tr2 = []) as -> by (rewrite <- (rev_involutive tr2), R; reflexivity). apply app_inj_tail in E as [<- <-]. rewrite X in X1. injection X1 as <-. auto.
  - assert (E2 : tr2 = rev r ++ [y]) by (rewrite <- (rev_involutive tr2), R; reflexivity). rewrite E2, app_comm_cons, app_assoc in E. apply app_inj_tail in E as [-> _]. eapply C; [reflexivity|exact X1|exact S].
Qed.
Theorem calm_inv tr : forall w, calm_process tr -> wexec tr = Some w ->
  flat_below (ctl w) /\ exists atr, aexec atr = Some (asyn w) /\ never_handle_close atr /\ calm_callbacks atr.
Proof.
  induction tr as [|l tr IH] using rev_ind; intros w [H1 H2] E.
  - injection E as <-. split; [constructor|]. exists []. split; [reflexivity|]. split; [intros o r []|]. split; intros [|? ?] ? ? ? Q; discriminate Q.
  - pose proof E as E0. apply wsteps_snoc in E as (w1 & E1 & S).
    destruct (IH w1) as (F & atr & A & Nh & C1 & C2); [split|exact E1|].
    { intros o r J. apply (H1 o r). apply in_or_app. left. exact J. }
    { intros tr1 x tr2 w2 -> X. apply (H2 tr1 x (tr2 ++ [l])); [rewrite <- app_assoc; reflexivity|exact X]. }
    pose proof (H2 tr l [] w1 eq_refl E1) as Hl.
    split; [eapply wstep_flat; eassumption|]. destruct (wstep_one _ _ _ S) as [Q|(a & Sa & Al)]; [exists atr; rewrite Q; split; [exact A|split; [exact Nh|split; assumption]]|].
    exists (atr ++ [a]). split; [unfold aexec in *; rewrite (asteps_snoc _ _ _ _ A); exact Sa|].
    split.
    { intros o r J. apply in_app_or in J as [J|[-> |[]]]; [exact (Nh o r J)|]. cbn in Al. subst l. apply (H1 o r). apply in_or_app. right. left. reflexivity. }
    pose proof (s_atop _ (wexec_sinv _ _ E1)) as T.
    assert (Z : user_code (ctl w1) = true -> ~ in_callback w1 -> astack (asyn w1) = []) by (intros U N; eapply below_plain; [eapply atop_user; eassumption|apply flat_user; assumption]).
    split; (eapply avoid_snoc; [assumption|exact A|]); intros Ne Bad; destruct a; cbn in Bad; try contradiction; apply Ne.
    + cbn in Al. destruct Al as [[-> U]|[k C]]; [apply Z; [exact U|exact Hl]|]. rewrite C in T. inversion T as [? ? B| ? ? ? ? B| | | |]; subst; [apply below_user in B; discriminate B|].
      eapply below_plain; [exact B|]. unfold flat_below in F. rewrite C in F. exact F.
    + cbn in Al. destruct Al as (f & imp & qe & tc & i' & op' & fd' & -> & U). apply Z; [exact U|exact Hl].
Qed.
