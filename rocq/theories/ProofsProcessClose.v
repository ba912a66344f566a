(** * After close() of a manager nothing is delivered to it and nothing sent by it. *)
From Coq Require Import ZArith List Bool Lia.
From Verif Require Import PyBase Classes Values Codec Manager Role Asyn Process SpecAsyn SpecProcess ProofsAsyn ProofsAsynLog ProofsHistory ProofsProcess ProofsProcessStep ProofsProcessStack ProofsProcessLog ProofsProcessCalm PropertiesAsyn.
Import ListNotations.
Open Scope Z_scope.

Lemma follow tr : forall w w', wsteps w tr = Some w' -> (forall o r, ~ In (XHandleClose o r) tr) -> exists atr, asteps (asyn w) atr = Some (asyn w') /\ never_handle_close atr.
Proof.
  induction tr as [|l tr IH]; cbn [wsteps]; intros w w' E N.
  - injection E as <-. exists []. split; [reflexivity|]. intros o r [].
  - destruct (wstep w l) as [w1|] eqn:S; [|discriminate]. destruct (IH w1 w' E) as (atr & A & Nh); [intros o r J; apply (N o r); right; exact J|].
    destruct (wstep_one _ _ _ S) as [Q|(a & Sa & Al)]; [rewrite Q in A; eauto|]. exists (a :: atr). split; [cbn [asteps]; rewrite Sa; exact A|].
    intros o r [-> |J]; [|exact (Nh o r J)]. cbn in Al. subst l. apply (N o r). left. reflexivity.
Qed.
Definition invoking (e : Manager.event) : Prop := match e with EInvoke _ _ _ | EInvokeTrap _ _ => True | _ => False end.
Definition on_top (k : list wframe) (o : nat) : Prop := exists d src k', k = WGot o d src :: k'.
(** What a step logs, and where it leads. *)
Definition explained (w w' : world) : Prop := exists es, wlog w' = wlog w ++ es /\
  (forall o e, In (WM o e) es -> invoking e -> on_top (ctl w) o) /\
  (forall o, on_top (ctl w') o -> ctl w' = ctl w \/ exists d src, In (WA (ECb o (Data d src))) es).
Lemma fresh_wm A A' o e : ~ In (WM o e) (fresh A A').
Proof. unfold fresh. rewrite in_map_iff. intros (x & Q & _). discriminate Q. Qed.
Lemma reached_fresh A l A' o d src : talks l -> astep A l = Some A' -> reached A' = WGot o d src -> In (WA (ECb o (Data d src))) (fresh A A').
Proof.
  intros T S R. destruct (talks_log _ _ _ T S) as (es & L & N). rewrite (fresh_eq _ _ _ L). apply in_map. unfold reached in R. rewrite L, rev_app_distr in R.
  destruct (rev es) as [|x r] eqn:Rv; [exfalso; apply N; rewrite <- (rev_involutive es), Rv; reflexivity|]. cbn in R.
  assert (es = rev r ++ [x]) as -> by (rewrite <- (rev_involutive es), Rv; reflexivity). apply in_or_app. right. left.
  destruct x as [| | | | | |y z| | | |]; try discriminate R. destruct z; try discriminate R. injection R as -> -> ->. reflexivity.
Qed.
Lemma asyncore_explained w0 w l k w' es0 : talks l -> asyncore w l k = Some w' -> wlog w = wlog w0 ++ es0 -> (forall o e, In (WM o e) es0 -> ~ invoking e) -> explained w0 w'.
Proof.
  unfold asyncore. intros T H L N. destruct (astep (asyn w) l) as [A|] eqn:S; [|discriminate]. injection H as <-. exists (es0 ++ fresh (asyn w) A). split; [cbn [wlog]; rewrite L, app_assoc; reflexivity|]. split.
  - intros o e J V. apply in_app_or in J as [J|J]; [elim (N _ _ J V)|elim (fresh_wm _ _ _ _ J)].
  - cbn [ctl]. intros o (d & src & k' & Q). injection Q as Q _. right. exists d, src. apply in_or_app. right. eapply reached_fresh; eassumption.
Qed.
Lemma received_explained w0 w o r k w' es0 : received_by w o r k = Some w' -> wlog w = wlog w0 ++ es0 -> (forall o e, In (WM o e) es0 -> ~ invoking e) -> explained w0 w'.
Proof. unfold received_by. apply asyncore_explained. destruct r; exact Logic.I. Qed.
Lemma acts_explained w0 w o sys m es k es0 : wlog w = wlog w0 ++ es0 -> (forall o e, In (WM o e) es0 -> ~ invoking e) -> (forall e, In e es -> invoking e -> on_top (ctl w0) o) -> (forall p, ~ on_top k p) -> explained w0 (acts w o sys m es k).
Proof.
  intros L N V T. exists (es0 ++ map (WM o) es). split; [unfold acts; cbn [wlog]; rewrite L, app_assoc; reflexivity|]. split.
  - intros p e J X. apply in_app_or in J as [J|J]; [elim (N _ _ J X)|]. apply in_map_iff in J as (y & Q & J). injection Q as <- <-. apply (V _ J X).
  - cbn [ctl acts]. intros p P. elim (T p P).
Qed.
Lemma nil_explained w : wlog w = wlog w ++ ([] : list wevent). Proof. symmetry. apply app_nil_r. Qed.
Lemma no_wm : forall (o : nat) (e : Manager.event), In (WM o e) [] -> ~ invoking e. Proof. intros o e []. Qed.
Lemma lower_top k p : lower k -> ~ on_top k p.
Proof. intros L (d & src & k' & ->). exact L. Qed.
Lemma same_explained w A M k : (forall p, ~ on_top k p) -> explained w (mkWorld A M k (wlog w)).
Proof. intros T. exists []. split; [exact (nil_explained w)|]. split; [intros o e []|]. intros p P. elim (T p P). Qed.
Lemma nothing_explained w0 w o sys m es k es0 : wlog w = wlog w0 ++ es0 -> (forall o e, In (WM o e) es0 -> ~ invoking e) -> (forall e, In e es -> ~ invoking e) -> lower k -> explained w0 (nothing_queued w o sys m es k).
Proof.
  intros L N V T. unfold nothing_queued. destruct (queueEmpty sys) as [[|n]|]; (eapply acts_explained; [exact L|exact N| |]).
  all: try (intros e J X; exfalso; try apply in_app_or in J as [J|[<-|[]]]; [exact (V e J X)|exact X]).
  all: try (intros e J X; exfalso; exact (V e J X)).
  all: try (intros p P; first [exact (lower_top _ _ T P)|destruct P as (? & ? & ? & P); discriminate P]).
Qed.
Lemma fails_explained w0 w o sys m e es k es0 : wlog w = wlog w0 ++ es0 -> (forall o e, In (WM o e) es0 -> ~ invoking e) -> (forall e, In e es -> ~ invoking e) -> lower k -> explained w0 (run_fails w o sys m e es k).
Proof.
  intros L N V T. unfold run_fails. assert (Q : explained w0 (acts w o sys m (es ++ [EResult (Err e)]) k)).
  { eapply acts_explained; [exact L|exact N| |intros p; apply lower_top; exact T]. intros x J X. exfalso. apply in_app_or in J as [J|[<-|[]]]; [exact (V x J X)|exact X]. }
  destruct e; try exact Q. eapply nothing_explained; eassumption.
Qed.
Lemma aside_explained w l w' : aside w l = Some w' -> explained w w'.
Proof.
  unfold aside. intros H. destruct (astep (asyn w) l) as [A|]; [|discriminate]. injection H as <-. exists (fresh (asyn w) A). split; [reflexivity|]. split; [intros o e J; elim (fresh_wm _ _ _ _ J)|]. intros o _. left. reflexivity.
Qed.
Lemma one_wm o e : ~ invoking e -> forall p x, In (WM p x) (map (WM o) [e]) -> ~ invoking x.
Proof. intros N p x [Q|[]]. injection Q as _ <-. exact N. Qed.
Lemma wstep_explained w l w' : winv w -> wstep w l = Some w' -> explained w w'.
Proof.
  intros I H. pose proof (w_shape _ I) as Sh. destruct l; cbn [wstep] in H.
  - destruct (user_code (ctl w)) eqn:U; [|discriminate]. destruct (astep (asyn w) _) as [A|] eqn:S; [|discriminate]. injection H as <-. exists (fresh (asyn w) A). split; [reflexivity|]. split; [intros o e J; elim (fresh_wm _ _ _ _ J)|]. intros o _. left. reflexivity.
  - destruct (user_code (ctl w)) eqn:U; [|discriminate]. destruct (man_of w o) as [[sys m]|]; [|discriminate]. destruct (do_call _ _ _) as [m' r]. injection H as <-. eapply acts_explained; [apply nil_explained|exact no_wm| |intros p; apply lower_top; apply user_lower; assumption].
    intros e [<-|J] X; [contradiction|]. apply in_map_iff in J as (? & <- & _). contradiction.
  - destruct (user_code (ctl w)) eqn:U; [|discriminate]. eapply asyncore_explained; [|exact H|apply nil_explained|exact no_wm]; exact Logic.I.
  - destruct (user_code (ctl w)); [|discriminate]. destruct (man_of w o) as [[sys m]|]; [|discriminate]. injection H as <-. apply same_explained. intros p (? & ? & ? & Q). discriminate Q.
  - destruct (user_code (ctl w)) eqn:U; [|discriminate]. eapply aside_explained; exact H.
  - destruct (user_code (ctl w)) eqn:U; [|discriminate]. eapply aside_explained; exact H.
  - destruct (ctl w) as [|[o id|o|o|o ph|o d src|o e|p r|] k] eqn:C; try discriminate.
    + destruct (man_of w o) as [[sys m]|]; [|discriminate]. destruct (after_response _ _ _ _). eapply received_explained; [exact H|reflexivity|apply one_wm; exact (fun x => x)].
    + eapply received_explained; [exact H|apply nil_explained|exact no_wm].
    + injection H as <-. apply same_explained. intros p. apply lower_top. cbn in Sh. apply Sh.
  - destruct (ctl w) as [|[o id|o|o|o ph|o d src|o e'|p r|] k] eqn:C; try discriminate.
    + destruct (man_of w o) as [[sys m]|]; [|discriminate]. destruct (after_response _ _ _ _). eapply received_explained; [exact H|reflexivity|apply one_wm; exact (fun x => x)].
    + destruct (man_of w o) as [[sys m]|]; [|discriminate]. eapply received_explained; [exact H|apply nil_explained|exact no_wm].
    + destruct (lower_run _ _ Sh) as (k1 & -> & Lo). destruct (man_of w o) as [[sys m]|]; [|discriminate]. injection H as <-. eapply acts_explained; [apply nil_explained|exact no_wm| |intros p; apply lower_top; exact Lo].
      intros x [<-|[]] X. contradiction.
  - assert (Q : aside w (AArrive s x) = Some w' \/ exists k w1, ctl w = WWait :: k /\ aside w (AArrive s x) = Some w1 /\ w' = mkWorld (asyn w1) (mans w1) (reached (asyn w1) :: k) (wlog w1)).
    { destruct (ctl w) as [|[o id|o|o|o ph|o d src|o e'|p r|] k]; auto. destruct (aside w (AArrive s x)) as [w1|]; [|discriminate]. destruct (astack (asyn w1)) as [|[| |] ?]; injection H as <-; eauto 8. }
    destruct Q as [Q|(k & w1 & C & Q & ->)]; [eapply aside_explained; exact Q|]. unfold aside in Q. destruct (astep (asyn w) (AArrive s x)) as [A|] eqn:S; [|discriminate]. injection Q as <-. cbn [asyn mans wlog].
    exists (fresh (asyn w) A). split; [reflexivity|]. split; [intros o e J; elim (fresh_wm _ _ _ _ J)|]. cbn [ctl]. intros o (d & src & k' & Q). injection Q as Q _. right. exists d, src. eapply reached_fresh; [|exact S|exact Q]. exact Logic.I.
  - destruct (ctl w) as [|[o id|o|o|o [|]|o d src|o e'|p r'|] k] eqn:C; try discriminate. destruct (man_of w o) as [[sys m]|]; [|discriminate]. cbn in Sh.
    destruct (outbound m) as [|[om dst] q]; [injection H as <-; eapply nothing_explained; [apply nil_explained|exact no_wm|intros e []|exact Sh]|].
    assert (V1 : forall e, In e [ETake om dst] -> ~ invoking e) by (intros e [<-|[]]; exact (fun x => x)).
    destruct (match om with None => Err AttributeError | Some msg => snd (message_encode msg) end) as [os|e]; [|injection H as <-; eapply fails_explained; [apply nil_explained|exact no_wm|exact V1|exact Sh]].
    destruct (aside w (ASend o os dst op fd r)) as [w1|] eqn:A; [|discriminate].
    assert (L1 : exists es0, wlog w1 = wlog w ++ es0 /\ forall p e, In (WM p e) es0 -> ~ invoking e).
    { unfold aside in A. destruct (astep (asyn w) _) as [B|]; [|discriminate]. injection A as <-. exists (fresh (asyn w) B). split; [reflexivity|]. intros p e J. elim (fresh_wm _ _ _ _ J). }
    destruct L1 as (es0 & L1 & N1).
    destruct (rev (alog (asyn w1))) as [|[] ?]; try discriminate; match type of H with match ?x with _ => _ end = _ => destruct x end; injection H as <-.
    + eapply acts_explained; [exact L1|exact N1|intros e [<-|[<-|[]]] X; contradiction|intros p (? & ? & ? & Q); discriminate Q].
    + eapply fails_explained; [exact L1|exact N1|intros x [<-|[<-|[]]]; exact (fun x => x)|exact Sh].
  - destruct (ctl w) as [|[o id|o|o|o [|]|o d src|o e'|p r'|] k] eqn:C; try discriminate; cbn in Sh.
    + eapply asyncore_explained; [|exact H|apply nil_explained|exact no_wm]; exact Logic.I.
    + destruct (man_of w o) as [[sys m]|]; [|discriminate].
      destruct (receiveData _ _ _ _) as [[r|id n|n] [msg|]]; try discriminate; try (eapply received_explained; [exact H|apply nil_explained|exact no_wm]); injection H as <-;
        (eapply acts_explained; [apply nil_explained|exact no_wm|intros e _ _; rewrite C; do 3 eexists; reflexivity|intros p (? & ? & ? & Q); discriminate Q]).
    + eapply received_explained; [exact H|apply nil_explained|exact no_wm].
    + assert (P : match man_of w p with None => None | Some (sys, m) => Some (acts w p sys m [EResult r'] k) end = Some w' -> explained w w').
      { intros X. destruct (man_of w p) as [[sys m]|]; [|discriminate]. injection X as <-. eapply acts_explained; [apply nil_explained|exact no_wm|intros e [<-|[]] X; contradiction|intros q; apply lower_top; exact Sh]. }
      destruct k as [|[| | |o ph| | | |] k]; try exact (P H). destruct (man_of w o) as [[sys m]|]; [|discriminate]. assert (Lo : lower k) by (destruct ph; [contradiction|exact Sh] || (destruct ph; cbn in Sh; tauto)).
      assert (D : forall e, explained w (acts w o sys m [EResult (Err e)] k)) by (intros e; eapply acts_explained; [apply nil_explained|exact no_wm|intros x [<-|[]] X; contradiction|intros q; apply lower_top; exact Lo]).
      destruct r' as [u|e]; [injection H as <-; apply same_explained; intros q (? & ? & ? & Q); discriminate Q|].
      destruct e; destruct (flav sys); injection H as <-; try apply D. eapply nothing_explained; [apply nil_explained|exact no_wm|intros x []|exact Lo].
Qed.
Lemma wsteps_log tr : forall w w', winv w -> wsteps w tr = Some w' -> exists es, wlog w' = wlog w ++ es.
Proof.
  induction tr as [|l tr IH]; cbn [wsteps]; intros w w' I E; [injection E as <-; exists []; apply nil_explained|].
  destruct (wstep w l) as [w1|] eqn:S; [|discriminate]. destruct (wstep_explained _ _ _ I S) as (es & L & _). destruct (IH w1 w' (wstep_inv _ _ _ I S) E) as [es' L']. exists (es ++ es'). rewrite L', L, app_assoc. reflexivity.
Qed.
(** If asyncore never calls receiveData of [o] with data, no callback of [o] is called. *)
Lemma uncalled o tr : forall w w', winv w -> wsteps w tr = Some w' -> ~ on_top (ctl w) o -> forall es, wlog w' = wlog w ++ es -> (forall d src, ~ In (WA (ECb o (Data d src))) es) ->
  (forall e, In (WM o e) es -> ~ invoking e).
Proof.
  induction tr as [|l tr IH]; cbn [wsteps]; intros w w' I E T es L N e J V.
  - injection E as <-. assert (es = []) as -> by (rewrite (nil_explained w) in L at 1; apply app_inv_head in L; auto). exact J.
  - destruct (wstep w l) as [w1|] eqn:S; [|discriminate]. destruct (wstep_explained _ _ _ I S) as (es1 & L1 & V1 & T1). pose proof (wstep_inv _ _ _ I S) as I1. destruct (wsteps_log _ _ _ I1 E) as [es2 L2].
    assert (Q : es = es1 ++ es2) by (rewrite L2, L1, <- app_assoc in L; apply app_inv_head in L; auto). subst es.
    apply in_app_or in J as [J|J]; [exact (T (V1 _ _ J V))|]. revert e J V. apply (IH w1 w' I1 E); [|exact L2|intros d src J; apply (N d src); apply in_or_app; right; exact J].
    intros P. destruct (T1 _ P) as [Q|(d & src & Q)]; [rewrite Q in P; exact (T P)|]. apply (N d src). apply in_or_app. left. exact Q.
Qed.
Theorem closed_for_good : forall tr w o r w1 tr2 w2, wexec tr = Some w -> (forall y x, ~ In (XHandleClose y x) (tr ++ tr2)) -> wstep w (XClose o r) = Some w1 -> wsteps w1 tr2 = Some w2 ->
  exists es, wlog w2 = wlog w1 ++ es /\ (forall e, In (WM o e) es -> ~ invoking e) /\ (forall x, In (WA (Asyn.ESend o x)) es -> x = Err OSError) /\ forall os dst x, ~ In (WM o (Manager.ESend os dst (Ok x))) es.
Proof.
  intros tr w o r w1 tr2 w2 E N S E2. pose proof (wexec_inv _ _ E) as I. pose proof (wstep_inv _ _ _ I S) as I1. destruct (wsteps_log _ _ _ I1 E2) as [es L].
  destruct (follow tr winit w E) as (atr & A & Nh); [intros y x J; apply (N y x); apply in_or_app; auto|]. destruct (follow tr2 w1 w2 E2) as (atr2 & A2 & Nh2); [intros y x J; apply (N y x); apply in_or_app; auto|].
  pose proof S as S0. cbn [wstep] in S. destruct (user_code (ctl w)) eqn:U; [|discriminate]. unfold aside in S. destruct (astep (asyn w) (AClose o r)) as [B|] eqn:Sa; [|discriminate]. injection S as <-. cbn [asyn] in A2.
  destruct (C71_closed_for_good atr (asyn w) o r B atr2 (asyn w2) A Nh Sa Nh2 A2) as (es' & L' & D1 & D2).
  assert (Q : es' = traffic es).
  { pose proof (w_traffic _ I1) as T1. pose proof (w_traffic _ (wsteps_inv _ _ _ I1 E2)) as T2. cbn [asyn] in T1. rewrite L, traffic_app, T1 in T2. unfold logged in L'. rewrite L' in T2. apply app_inv_head in T2. auto. }
  subst es'. assert (Tr : forall e, In (WA e) es -> In e (traffic es)) by (intros e J; unfold traffic; apply in_flat_map; exists (WA e); split; [exact J|left; reflexivity]).
  assert (Snd : forall x, In (WA (Asyn.ESend o x)) es -> x = Err OSError) by (intros x J; apply D2; apply Tr; exact J).
  exists es. split; [exact L|]. split; [|split; [exact Snd|]].
  - eapply (uncalled o tr2); [exact I1|exact E2| |exact L|intros d src J; apply (D1 d src); apply Tr; exact J].
    cbn [ctl]. apply lower_top. apply user_lower; [apply (w_shape _ I)|exact U].
  - intros os dst x J. apply in_split in J as (a & b & ->). destruct x.
    pose proof (wexec_sent (tr ++ XClose o r :: tr2) w2) as Ws.
    assert (E3 : wexec (tr ++ XClose o r :: tr2) = Some w2).
    { unfold wexec in *. clear - E S0 E2. revert E. generalize winit. induction tr as [|l tr IH]; intros w0 E; cbn [app wsteps] in *; [injection E as ->; rewrite S0; exact E2|]. destruct (wstep w0 l); [|discriminate]. apply IH. exact E. }
    specialize (Ws E3). rewrite app_assoc in L. destruct (sent_back _ Ws _ _ _ _ _ L) as (l0 & s & msg & Ea & _).
    (* the two events before are in [a] *)
    assert (Z : exists a', a = a' ++ [WA (Asyn.ESend o (Ok tt)); WM o (ETake (Some msg) dst)]).
    { cbn [wlog] in Ea. assert (Cl : exists x, fresh (asyn w) B = [WA (EClose o x)]) by (destruct (C71_close atr (asyn w) o r B A Nh Sa) as (_ & _ & _ & x & Lx); exists x; exact (fresh_eq _ _ _ Lx)). destruct Cl as [cx Cl]. rewrite Cl in Ea.
      destruct (rev a) as [|y ra] eqn:Ra; [assert (a = []) as -> by (rewrite <- (rev_involutive a), Ra; reflexivity); rewrite app_nil_r in Ea; change [WA (ESentto s os dst); WA (Asyn.ESend o (Ok tt)); WM o (ETake (Some msg) dst)] with ([WA (ESentto s os dst); WA (Asyn.ESend o (Ok tt))] ++ [WM o (ETake (Some msg) dst)]) in Ea; rewrite app_assoc in Ea; apply app_inj_tail in Ea as [_ Q]; discriminate Q|].
      assert (a = rev ra ++ [y]) as -> by (rewrite <- (rev_involutive a), Ra; reflexivity).
      change [WA (ESentto s os dst); WA (Asyn.ESend o (Ok tt)); WM o (ETake (Some msg) dst)] with ([WA (ESentto s os dst); WA (Asyn.ESend o (Ok tt))] ++ [WM o (ETake (Some msg) dst)]) in Ea. rewrite !app_assoc in Ea. apply app_inj_tail in Ea as [Ea ->].
      destruct (rev (rev ra)) as [|z rz] eqn:Rz; [assert (rev ra = []) as Q by (rewrite <- (rev_involutive (rev ra)), Rz; reflexivity); rewrite Q, app_nil_r in Ea; change [WA (ESentto s os dst); WA (Asyn.ESend o (Ok tt))] with ([WA (ESentto s os dst)] ++ [WA (Asyn.ESend o (Ok tt))]) in Ea; rewrite app_assoc in Ea; apply app_inj_tail in Ea as [_ Q']; discriminate Q'|].
      assert (rev ra = rev rz ++ [z]) as Q by (rewrite <- (rev_involutive (rev ra)), Rz; reflexivity). rewrite Q in Ea |- *.
      change [WA (ESentto s os dst); WA (Asyn.ESend o (Ok tt))] with ([WA (ESentto s os dst)] ++ [WA (Asyn.ESend o (Ok tt))]) in Ea. rewrite !app_assoc in Ea. apply app_inj_tail in Ea as [_ ->].
      exists (rev rz). rewrite <- app_assoc. reflexivity. }
    destruct Z as [a' ->]. assert (X : Ok tt = Err OSError) by (apply Snd; rewrite <- app_assoc; apply in_or_app; right; left; reflexivity). discriminate X.
Qed.
