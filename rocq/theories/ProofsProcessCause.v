(** * Why run() and poll() come back. *)
From Coq Require Import ZArith List Bool Lia.
From Verif Require Import PyBase Classes Values Codec Manager Role Asyn Process SpecAsyn SpecProcess ProofsAsyn ProofsAsynLog ProofsHistory ProofsProcess ProofsProcessStep ProofsProcessStack ProofsProcessLog.
Import ListNotations.
Open Scope Z_scope.

Definition empties (w : world) (k : list wframe) : Prop :=
  Forall (fun f => match f with WEmpty o => exists sys n, is_manager w o sys /\ queueEmpty sys = Some (Cb n) /\ In (WM o (EInvokeEmpty n)) (wlog w) | _ => True end) k.
Definition polled_now (k : list wframe) (wl : list wevent) : Prop :=
  match k with WPolled p r :: _ => exists wl0 late, wl = wl0 ++ WA (EPollEnd p r) :: late /\ Forall arrival late | _ => True end.
Definition caused (w : world) : Prop :=
  forall wl1 p r wl2, wlog w = wl1 ++ WM p (EResult r) :: wl2 -> exists sys, is_manager w p sys /\ comes_back sys wl1 p r.
Definition keeps (w w' : world) : Prop := (forall p sys, is_manager w p sys -> is_manager w' p sys) /\ exists es, wlog w' = wlog w ++ es.
Record cinv (w : world) : Prop := { c_caused : caused w; c_empty : empties w (ctl w); c_polled : polled_now (ctl w) (wlog w) }.

Lemma keeps_refl w : keeps w w.
Proof. split; [auto|]. exists []. symmetry. apply app_nil_r. Qed.
Lemma keeps_trans a b c : keeps a b -> keeps b c -> keeps a c.
Proof. intros [A (x & X)] [B (y & Y)]. split; [auto|]. exists (x ++ y). rewrite Y, X. symmetry. apply app_assoc. Qed.
Lemma empties_more w w' k : keeps w w' -> empties w k -> empties w' k.
Proof.
  intros [K (es & L)]. apply Forall_impl. intros f. destruct f; auto. intros (sys & n & M & Q & J). exists sys, n. split; [auto|]. split; [exact Q|]. rewrite L. apply in_or_app. auto.
Qed.
Lemma caused_more w w' es : caused w -> keeps w w' -> wlog w' = wlog w ++ es ->
  (forall e1 p r e2, es = e1 ++ WM p (EResult r) :: e2 -> exists sys, is_manager w' p sys /\ comes_back sys (wlog w ++ e1) p r) -> caused w'.
Proof.
  intros C [K _] L N wl1 p r wl2 E. rewrite L in E. apply app_eq_app' in E as [(l & E1 & E2)|(l & E1 & E2)].
  - destruct l as [|x l].
    + rewrite app_nil_r in E1. rewrite <- E1. destruct (N [] p r wl2 (eq_sym E2)) as (sys & M & B). rewrite app_nil_r in B. eauto.
    + injection E2 as <- E2. destruct (C _ _ _ _ E1) as (sys & M & B). eauto.
  - rewrite E1. eapply N. exact E2.
Qed.
Lemma caused_wa w w' es : caused w -> keeps w w' -> wlog w' = wlog w ++ map WA es -> caused w'.
Proof.
  intros C K L. eapply caused_more; eauto. intros e1 p r e2 E. exfalso. assert (J : In (WM p (EResult r)) (map WA es)) by (rewrite E; apply in_or_app; right; left; reflexivity).
  apply in_map_iff in J as (x & X & _). discriminate X.
Qed.
Lemma keeps_acts w o sys m0 m es k : man_of w o = Some (sys, m0) -> keeps w (acts w o sys m es k).
Proof.
  intros M. split; [|eexists; reflexivity]. intros p sy [mp Mp]. unfold is_manager, man_of, acts in *. cbn [mans]. rewrite nth_upd. destruct (Nat.eqb_spec o p) as [<-|N]; [|eauto].
  destruct (nth_error (mans w) o) as [x|] eqn:E; [|discriminate M]. subst x. injection Mp as <- <-. eauto.
Qed.
Lemma acts_manager w o sys m0 m es k : man_of w o = Some (sys, m0) -> is_manager (acts w o sys m es k) o sys.
Proof. intros M. apply (keeps_acts _ _ _ _ m es k M). exists m0. exact M. Qed.
(** Managers that say nothing of the kind. *)
Definition no_result (es : list Manager.event) : Prop := forall r, ~ In (EResult r) es.
Lemma caused_acts w o sys m0 m es k : caused w -> man_of w o = Some (sys, m0) -> no_result es -> caused (acts w o sys m es k).
Proof.
  intros C M N. eapply caused_more; [exact C|eapply keeps_acts; exact M|reflexivity|]. intros e1 p r e2 E. exfalso.
  assert (J : In (WM p (EResult r)) (map (WM o) es)) by (rewrite E; apply in_or_app; right; left; reflexivity). apply in_map_iff in J as (x & X & J). injection X as _ ->. exact (N _ J).
Qed.
Lemma caused_snoc w w' p r : caused w -> (forall q sys, is_manager w q sys -> is_manager w' q sys) -> wlog w' = wlog w ++ [WM p (EResult r)] ->
  (exists sys, is_manager w p sys /\ comes_back sys (wlog w) p r) -> caused w'.
Proof.
  intros C K L (sys & M & B). eapply caused_more; [exact C|split; [exact K|eauto]|exact L|]. intros e1 q x e2 E. destruct e1 as [|y e1].
  - injection E as <- <- _. rewrite app_nil_r. eauto.
  - injection E as _ E. destruct e1; discriminate E.
Qed.
Lemma caused_ends w o sys m0 m es r k : caused w -> man_of w o = Some (sys, m0) -> no_result es -> comes_back sys (wlog w ++ map (WM o) es) o r -> caused (acts w o sys m (es ++ [EResult r]) k).
Proof.
  intros C M N B. eapply (caused_snoc (acts w o sys m es k)); [eapply caused_acts; eauto| |cbn; rewrite map_app, app_assoc; reflexivity|].
  - intros q sy H. exact H.
  - exists sys. split; [eapply acts_manager; exact M|exact B].
Qed.
Lemma arrival_poll k wl e : polled_now k wl -> arrival e -> polled_now k (wl ++ [e]).
Proof.
  destruct k as [|[]]; auto. intros (wl0 & late & -> & F) A. exists wl0, (late ++ [e]). split; [rewrite <- app_assoc; reflexivity|]. apply Forall_app. auto.
Qed.
Lemma polled_lower k wl : lower k -> polled_now k wl.
Proof. destruct k as [|[]]; cbn; auto; contradiction. Qed.
(** asyncore goes on. *)
Lemma asyncore_cinv w l k w' : talks l -> caused w -> empties w k -> asyncore w l k = Some w' -> cinv w' /\ keeps w w'.
Proof.
  intros T C Em E. unfold asyncore in E. destruct (astep (asyn w) l) as [A|] eqn:S; [|discriminate E]. injection E as <-. destruct (talks_log _ _ _ T S) as (es & L & Ne).
  set (w' := mkWorld A (mans w) (reached A :: k) (wlog w ++ fresh (asyn w) A)). assert (K : keeps w w') by (split; [auto|eexists; reflexivity]).
  assert (Lw : wlog w' = wlog w ++ map WA es) by (unfold w'; cbn; rewrite (fresh_eq _ _ _ L); reflexivity).
  split; [|exact K]. constructor.
  - eapply caused_wa; eauto.
  - cbn. constructor; [|eapply empties_more; eauto]. unfold reached. destruct (rev (alog A)) as [|[] t]; auto. destruct x; auto.
  - rewrite Lw. cbn [ctl w']. unfold reached. rewrite L, rev_app_distr. destruct es as [|e es _] using rev_ind; [contradiction|]. rewrite rev_app_distr. cbn [rev app].
    destruct e as [| | | | | |o [|]| | |p r| ]; cbn; auto. exists (wlog w ++ map WA es), []. rewrite map_app, app_assoc. auto.
Qed.

Lemma aside_cinv w l w' : cinv w -> user_code (ctl w) = true -> aside w l = Some w' -> cinv w'.
Proof.
  intros [C Em P] U E. unfold aside in E. destruct (astep (asyn w) l) as [A|] eqn:S; [|discriminate E]. injection E as <-. destruct (astep_log _ _ _ S) as (es & L).
  assert (K : keeps w (mkWorld A (mans w) (ctl w) (wlog w ++ fresh (asyn w) A))) by (split; [auto|eexists; reflexivity]). constructor.
  - eapply caused_wa; [exact C|exact K|]. cbn. rewrite (fresh_eq _ _ _ L). reflexivity.
  - eapply empties_more; [exact K|exact Em].
  - cbn. destruct (ctl w) as [|[]]; cbn; auto. discriminate U.
Qed.
Lemma ctl_cinv w k : cinv w -> empties w k -> lower k \/ (exists o, exists k', k = WRun o Sending :: k') -> cinv (mkWorld (asyn w) (mans w) k (wlog w)).
Proof. intros [C Em P] X L. constructor; [exact C|exact X|]. destruct L as [L|(o & k' & ->)]; [apply polled_lower; exact L|exact Logic.I]. Qed.
Lemma acts_cinv w o sys m0 m es k : caused w -> empties w k -> man_of w o = Some (sys, m0) -> no_result es -> (forall p r k', k <> WPolled p r :: k') -> cinv (acts w o sys m es k).
Proof.
  intros C Em M N P. constructor; [eapply caused_acts; eauto|eapply empties_more; [eapply keeps_acts; exact M|exact Em]|]. cbn. destruct k as [|[]]; cbn; auto. exfalso. eapply P. reflexivity.
Qed.
Lemma ends_cinv w o sys m0 m es r k : caused w -> empties w k -> man_of w o = Some (sys, m0) -> no_result es -> (forall p r k', k <> WPolled p r :: k') ->
  comes_back sys (wlog w ++ map (WM o) es) o r -> cinv (acts w o sys m (es ++ [EResult r]) k).
Proof.
  intros C Em M N P B. constructor; [eapply caused_ends; eauto|eapply empties_more; [eapply keeps_acts; exact M|exact Em]|]. cbn. destruct k as [|[]]; cbn; auto. exfalso. eapply P. reflexivity.
Qed.
Lemma lower_polled k : lower k -> forall p r k', k <> WPolled p r :: k'.
Proof. intros L p r k' ->. exact L. Qed.
Lemma empties_cons w f k : (forall o, f <> WEmpty o) -> empties w k -> empties w (f :: k).
Proof. intros N Em. constructor; [|exact Em]. destruct f; auto. exfalso. eapply N. reflexivity. Qed.
Lemma nothing_cinv w o sys m0 m es k : caused w -> empties w k -> man_of w o = Some (sys, m0) -> no_result es -> lower k -> cinv (nothing_queued w o sys m es k).
Proof.
  intros C Em M N L. unfold nothing_queued. destruct (queueEmpty sys) as [[|n]|] eqn:Q.
  - eapply ends_cinv; eauto using lower_polled. apply back_not_callable. exact Q.
  - constructor; [eapply caused_acts; eauto; intros r J; apply in_app_iff in J as [J|[J|[]]]; [exact (N _ J)|discriminate J]| |exact Logic.I].
    cbn [acts ctl]. constructor.
    + exists sys, n. split; [eapply acts_manager; exact M|]. split; [exact Q|]. cbn. rewrite map_app. apply in_or_app. right. apply in_or_app. right. left. reflexivity.
    + apply empties_cons; [discriminate|]. eapply empties_more; [eapply keeps_acts; exact M|exact Em].
  - eapply acts_cinv; eauto; [apply empties_cons; [discriminate|exact Em]|discriminate].
Qed.
Lemma fails_cinv w o sys m0 m e es k : caused w -> empties w k -> man_of w o = Some (sys, m0) -> no_result es -> lower k ->
  comes_back sys (wlog w ++ map (WM o) es) o (Err e) -> cinv (run_fails w o sys m e es k).
Proof.
  intros C Em M N L B. assert (X : e = QueueEmpty \/ run_fails w o sys m e es k = acts w o sys m (es ++ [EResult (Err e)]) k) by (destruct e; auto).
  destruct X as [->|X]; [eapply nothing_cinv; eauto|]. rewrite X. eapply ends_cinv; eauto using lower_polled.
Qed.
Lemma received_cinv w o r k w' : caused w -> empties w k -> received_by w o r k = Some w' -> cinv w'.
Proof. intros C Em E. eapply asyncore_cinv in E as [E _]; eauto. destruct r; exact Logic.I. Qed.
Lemma no_result_one e : (forall r, e <> EResult r) -> no_result [e].
Proof. intros N r [J|[]]. exact (N _ J). Qed.
Theorem wstep_cinv w l w' : winv w -> sinv w -> cinv w -> wstep w l = Some w' -> cinv w'.
Proof.
  intros I J V S. pose proof (w_shape _ I) as Sh. pose proof V as [C Em P]. destruct l as [f imp qe tc i op fd|o a|o|o|o r|o r| |e|s x|op fd r|depth]; cbn [wstep] in S.
  - destruct (user_code (ctl w)) eqn:U; [|discriminate S]. destruct (astep (asyn w) _) as [A|] eqn:T; [|discriminate S]. injection S as <-.
    set (mm := match rev (alog A) with Asyn.ENew _ (Ok _) :: _ => _ | _ => None end). set (w' := mkWorld _ _ _ _).
    assert (K : keeps w w').
    { split; [|eexists; reflexivity]. intros p sys [m M]. exists m. unfold man_of, w' in *. cbn [mans]. destruct (nth_error (mans w) p) as [x|] eqn:E; [|discriminate M].
      rewrite nth_error_app1; [rewrite E; exact M|]. apply nth_error_Some. congruence. }
    destruct (astep_log _ _ _ T) as (es & L). constructor.
    + eapply caused_wa; [exact C|exact K|]. cbn. rewrite (fresh_eq _ _ _ L). reflexivity.
    + eapply empties_more; [exact K|exact Em].
    + cbn. destruct (ctl w) as [|[]]; cbn; auto. discriminate U.
  - destruct (user_code (ctl w)) eqn:U; [|discriminate S]. destruct (man_of w o) as [[sys m]|] eqn:M; [|discriminate S]. destruct (do_call (flav sys) a m) as [m' r] eqn:D. injection S as <-.
    eapply acts_cinv; eauto.
    + intros x [Q|Q]; [discriminate Q|]. apply in_map_iff in Q as (y & Q & _). discriminate Q.
    + intros p x k' E. rewrite E in U. discriminate U.
  - destruct (user_code (ctl w)); [|discriminate S]. eapply asyncore_cinv in S as [S _]; eauto. exact Logic.I.
  - destruct (user_code (ctl w)) eqn:U; [|discriminate S]. destruct (man_of w o) as [[sys m]|]; [|discriminate S]. injection S as <-.
    constructor; [exact C|apply empties_cons; [discriminate|exact Em]|exact Logic.I].
  - destruct (user_code (ctl w)) eqn:U; [|discriminate S]. eapply aside_cinv; eauto.
  - destruct (user_code (ctl w)) eqn:U; [|discriminate S]. eapply aside_cinv; eauto.
  - destruct (ctl w) as [|[o id|o|o|o [|]|o d src|o e|p r|] k] eqn:Ct; try discriminate S.
    + destruct (man_of w o) as [[sys m]|] eqn:M; [|discriminate S]. destruct (after_response (flav sys) m id (Ok tt)) as [m' r] eqn:A.
      inversion Em as [|? ? _ Ek]; subst. eapply received_cinv; [| |exact S].
      * eapply caused_acts; eauto. apply no_result_one. discriminate.
      * eapply empties_more; [eapply keeps_acts; exact M|exact Ek].
    + inversion Em as [|? ? _ Ek]; subst. eapply received_cinv; eauto.
    + injection S as <-. inversion Em as [|? ? _ Ek]; subst. apply ctl_cinv; auto. left. apply Sh.
  - destruct (ctl w) as [|[o id|o|o|o [|]|o d src|o x|p r|] k] eqn:Ct; try discriminate S.
    + destruct (man_of w o) as [[sys m]|] eqn:M; [|discriminate S]. destruct (after_response (flav sys) m id (Err e)) as [m' r] eqn:A.
      inversion Em as [|? ? _ Ek]; subst. eapply received_cinv; [| |exact S].
      * eapply caused_acts; eauto. apply no_result_one. discriminate.
      * eapply empties_more; [eapply keeps_acts; exact M|exact Ek].
    + destruct (man_of w o) as [[sys m]|] eqn:M; [|discriminate S]. inversion Em as [|? ? _ Ek]; subst. eapply received_cinv; eauto.
    + destruct k as [|[| | |p ph| | | |] k]; try discriminate S. destruct (man_of w o) as [[sys m]|] eqn:M; [|discriminate S]. injection S as <-.
      inversion Em as [|? ? He Ek]; subst. destruct He as (sy & n & [m1 M1] & Q & Jn). inversion Ek as [|? ? _ Ek']; subst. rewrite M in M1. injection M1 as <- <-.
      change ([EResult (Err e)]) with ([] ++ [EResult (Err e)]). eapply ends_cinv; eauto.
      * intros r [].
      * apply lower_polled. cbn in Sh. destruct Sh as [_ Sh]. destruct ph; [exact Sh|contradiction].
      * cbn. rewrite app_nil_r. eapply back_empty; eauto.
  - (* a datagram arrives *)
    assert (G : forall A es k, astep (asyn w) (AArrive s x) = Some A -> empties w k -> alog A = alog (asyn w) ++ es -> polled_now k (wlog w ++ map WA es) -> cinv (mkWorld A (mans w) k (wlog w ++ fresh (asyn w) A))).
    { intros A es k T Ek L Pk. assert (K : keeps w (mkWorld A (mans w) k (wlog w ++ fresh (asyn w) A))) by (split; [auto|eexists; reflexivity]). rewrite (fresh_eq _ _ _ L) in *. constructor.
      - eapply caused_wa; [exact C|exact K|reflexivity].
      - eapply empties_more; [exact K|exact Ek].
      - exact Pk. }
    unfold aside in S. destruct (astep (asyn w) (AArrive s x)) as [A|] eqn:T.
    2:{ destruct (ctl w) as [|[]]; discriminate S. }
    destruct (arrive_log _ _ _ _ T) as (es & L & F).
    assert (W : (exists k, ctl w = WWait :: k) \/ (Some (mkWorld A (mans w) (ctl w) (wlog w ++ fresh (asyn w) A)) = Some w' /\ forall k, ctl w <> WWait :: k)).
    { destruct (ctl w) as [|[]]; eauto; right; split; try exact S; discriminate. }
    destruct W as [[k Ct]|[S' Nw]].
    + rewrite Ct in *. inversion Em as [|? ? _ Ek]; subst. cbn [asyn mans ctl wlog] in S.
      assert (Q : Some (mkWorld A (mans w) (WWait :: k) (wlog w ++ fresh (asyn w) A)) = Some w' \/ Some (mkWorld A (mans w) (reached A :: k) (wlog w ++ fresh (asyn w) A)) = Some w').
      { destruct (astack A) as [|[| |] ?]; auto. }
      destruct Q as [Q|Q]; injection Q as <-.
      * eapply G; eauto.
      * eapply G; [reflexivity| |exact L|].
        -- apply empties_cons; [|exact Ek]. intros o. unfold reached. destruct (rev (alog A)) as [|[| | | | | |y [d z|z]| | | |] t]; discriminate.
        -- unfold reached. rewrite L, rev_app_distr. destruct es as [|e es _] using rev_ind; [exact Logic.I|]. cbn [rev]. rewrite rev_app_distr. cbn [rev app].
           destruct e as [| | | | | |o [|]| | |p r| ]; cbn; auto. exists (wlog w ++ WA (EArrive s x) :: map WA es), []. rewrite map_app, <- app_assoc. cbn. split; [reflexivity|constructor].
    + injection S' as <-. eapply G; eauto. destruct (ctl w) as [|[| | | | | |p r|] k] eqn:Ct; try exact Logic.I.
      assert (Es : es = []).
      { pose proof (s_atop _ J) as T1. rewrite Ct in T1. inversion T1 as [? ? B| | | |? ? ? ? Po|]; subst; [apply below_user in B; discriminate B|]. apply polls_auser in Po.
        cbn [astep] in T. destruct (nth_error (socks (asyn w)) s) as [ks|] eqn:N; [|discriminate T]. destruct (k_open ks); [|discriminate T].
        assert (Q : alog A = alog (asyn w) ++ [EArrive s x]).
        { destruct (astack (asyn w)) as [|[| |] ?]; cbn in Po; try discriminate Po; injection T as <-; unfold set_queue; cbn; rewrite N; reflexivity. }
        rewrite Q in L. apply app_inv_head in L. injection L as <-. reflexivity. }
      subst es. apply (arrival_poll (WPolled p r :: k)); [exact P|]. exists s, x. reflexivity.
  - destruct (ctl w) as [|[o id|o|o|o [|]|o d src|o x|p y|] k] eqn:Ct; try discriminate S.
    destruct (man_of w o) as [[sys m]|] eqn:M; [|discriminate S]. cbn in Sh. inversion Em as [|? ? _ Ek]; subst.
    destruct (outbound m) as [|[om dst] q] eqn:Ob.
    { injection S as <-. eapply nothing_cinv; eauto. intros y []. }
    destruct (match om with None => Err AttributeError | Some msg => snd (message_encode msg) end) as [os|e] eqn:En.
    2:{ injection S as <-. eapply fails_cinv; eauto; [apply no_result_one; discriminate|]. destruct om as [msg|].
        - eapply back_encode; [reflexivity|exact En].
        - injection En as <-. eapply back_none. reflexivity. }
    unfold aside in S. destruct (astep (asyn w) (ASend o os dst op fd r)) as [A|] eqn:T; [|discriminate S]. destruct (astep_log _ _ _ T) as (es & L).
    set (w1 := mkWorld A (mans w) (WRun o Sending :: k) (wlog w ++ fresh (asyn w) A)) in *. rewrite Ct in S. fold w1 in S.
    assert (K : keeps w w1) by (split; [auto|eexists; reflexivity]).
    assert (C1 : caused w1) by (eapply caused_wa; [exact C|exact K|]; cbn; rewrite (fresh_eq _ _ _ L); reflexivity).
    assert (M1 : man_of w1 o = Some (sys, m)) by exact M. assert (E1 : empties w1 k) by (eapply empties_more; eauto). clearbody w1.
    destruct (rev (alog (asyn w1))) as [|[| | |y [u|e]| | | | | | |] t]; try discriminate S; injection S as <-.
    + eapply acts_cinv; eauto; [apply empties_cons; [discriminate|exact E1]| |discriminate]. intros z [Q|[Q|[]]]; discriminate Q.
    + destruct om as [msg|]; [|discriminate En]. eapply fails_cinv; eauto; [intros z [Q|[Q|[]]]; discriminate Q|]. eapply back_send. reflexivity.
  - destruct (ctl w) as [|[o id|o|o|o [|]|o d src|o x|p r|] k] eqn:Ct; try discriminate S.
    + eapply asyncore_cinv in S as [S _]; eauto.
    + destruct (man_of w o) as [[sys m]|] eqn:M; [|discriminate S]. inversion Em as [|? ? _ Ek]; subst. destruct (receiveData sys m depth (DStr d)) as [act om] eqn:R.
      assert (Ac : forall e f, no_result [e] -> (forall y, f <> WEmpty y) -> (forall p r, f <> WPolled p r) -> cinv (acts w o sys m [e] (f :: k))).
      { intros e f N Nf Np. eapply acts_cinv; eauto; [apply empties_cons; [exact Nf|exact Ek]|]. intros p r k' E. injection E as E _. exact (Np _ _ E). }
      destruct act as [r|id n|n]; [eapply received_cinv; eauto| |]; (destruct om as [msg|]; [|discriminate S]); injection S as <-; apply Ac; try discriminate; apply no_result_one; discriminate.
    + inversion Em as [|? ? _ Ek]; subst. eapply received_cinv; eauto.
    + inversion Em as [|? ? _ Ek]; subst. destruct P as (wl0 & late & Lg & F).
      assert (Bk : forall sys y, y = p -> comes_back sys (wlog w ++ map (WM y) []) y r) by (intros sys y ->; cbn; rewrite app_nil_r; eapply back_poll; eauto).
      assert (Ru : forall y ph k1, k = WRun y ph :: k1 -> y = p).
      { intros y ph k1 ->. pose proof (s_atop _ J) as T. rewrite Ct in T. inversion T as [? ? B| | | |? ? ? ? Po|]; subst; [apply below_user in B; discriminate B|].
        inversion Po as [|? ? ? B]; subst; [reflexivity|]. apply below_user in B. discriminate B. }
      destruct k as [|f k1] eqn:Ek1.
      { destruct (man_of w p) as [[sys m]|] eqn:M; [|discriminate S]. injection S as <-. change ([EResult r]) with ([] ++ [EResult r]). eapply ends_cinv; eauto; [intros y []|discriminate]. }
      assert (Lk : lower (f :: k1)) by exact Sh.
      assert (G : (exists y ph, f = WRun y ph) \/ match man_of w p with None => None | Some (sys, m) => Some (acts w p sys m [EResult r] (f :: k1)) end = Some w') by (destruct f; eauto).
      destruct G as [(y & ph & ->)|G].
      2:{ destruct (man_of w p) as [[sys m]|] eqn:M; [|discriminate G]. injection G as <-. change ([EResult r]) with ([] ++ [EResult r]). eapply ends_cinv; eauto; [intros y []|apply lower_polled; exact Lk]. }
      rewrite (Ru _ _ _ eq_refl) in *. inversion Ek as [|? ? _ Ek2]; subst. destruct (man_of w p) as [[sys m]|] eqn:M; [|discriminate S].
      assert (Lk1 : lower k1) by (destruct ph; [exact Lk|contradiction]).
      assert (R : forall e, r = Err e -> Some (acts w p sys m [EResult (Err e)] k1) = Some w' -> cinv w').
      { intros e -> Y. injection Y as <-. change ([EResult (Err e)]) with ([] ++ [EResult (Err e)]). eapply ends_cinv; eauto; [intros y0 []|apply lower_polled; exact Lk1]. }
      destruct r as [u|e].
      * assert (w' = mkWorld (asyn w) (mans w) (WRun p Sending :: k1) (wlog w)) as -> by (destruct (flav sys); congruence).
        apply ctl_cinv; auto; [apply empties_cons; [discriminate|exact Ek2]|right; eauto].
      * destruct (flav sys); try (apply (R e); [reflexivity|]; destruct e; exact S).
        assert (N : e = QueueEmpty \/ e <> QueueEmpty) by (destruct e; auto; right; discriminate). destruct N as [->|N]; [|apply (R e); [reflexivity|]; destruct e; try exact S; contradiction].
        injection S as <-. eapply nothing_cinv; eauto. intros y0 [].
Qed.
Theorem wexec_cinv tr w : wexec tr = Some w -> cinv w.
Proof.
  unfold wexec. assert (G : forall tr w w', winv w -> sinv w -> cinv w -> wsteps w tr = Some w' -> cinv w').
  { induction tr0 as [|l tr0 IH]; cbn [wsteps]; intros u w' I J V S; [injection S as <-; exact V|]. destruct (wstep u l) eqn:E; [|discriminate S].
    eapply IH; [eapply wstep_inv; eauto|eapply wstep_sinv; eauto|eapply wstep_cinv; eauto|exact S]. }
  apply G; [exact winv_init|exact sinv_init|]. constructor; [|constructor|exact Logic.I]. intros wl1 p r wl2 E. destruct wl1; discriminate E.
Qed.

(** ** run() comes back with an exception only *)
Lemma running_cons f k : running (f :: k) = ((match f with WRun _ _ => 1 | _ => 0 end) + running k)%nat.
Proof. destruct f; reflexivity. Qed.
Lemma running_reached A k : running (reached A :: k) = running k.
Proof. rewrite running_cons. unfold reached. destruct (rev (alog A)) as [|[| | | | | |y [d z|z]| | | |] t]; reflexivity. Qed.
Definition raised_last (w' : world) (o : nat) : Prop := exists wl e, wlog w' = wl ++ [WM o (EResult (Err e))].
Lemma running_asyncore w l k w' : asyncore w l k = Some w' -> running (ctl w') = running k.
Proof. unfold asyncore. destruct (astep (asyn w) l); [|discriminate]. intros E. injection E as <-. apply running_reached. Qed.
Lemma running_aside w l w' : aside w l = Some w' -> ctl w' = ctl w.
Proof. unfold aside. destruct (astep (asyn w) l); [|discriminate]. intros E. injection E as <-. reflexivity. Qed.
Lemma raised_acts w o sys m es e k : raised_last (acts w o sys m (es ++ [EResult (Err e)]) k) o.
Proof. exists (wlog w ++ map (WM o) es), e. cbn. rewrite map_app, app_assoc. reflexivity. Qed.
Lemma raised_nothing w o sys m es k : (running (ctl (nothing_queued w o sys m es k)) <= running k)%nat -> raised_last (nothing_queued w o sys m es k) o.
Proof.
  unfold nothing_queued. destruct (queueEmpty sys) as [[|n]|]; intros H; [apply raised_acts| |]; exfalso; unfold running in H; cbn in H; lia.
Qed.
Lemma raised_fails w o sys m e es k : (running (ctl (run_fails w o sys m e es k)) <= running k)%nat -> raised_last (run_fails w o sys m e es k) o.
Proof. assert (X : e = QueueEmpty \/ run_fails w o sys m e es k = acts w o sys m (es ++ [EResult (Err e)]) k) by (destruct e; auto). destruct X as [->|X]; [apply raised_nothing|]. rewrite X. intros _. apply raised_acts. Qed.
Theorem run_ends w l w' : wstep w l = Some w' -> (running (ctl w') < running (ctl w))%nat -> exists o, raised_last w' o.
Proof.
  intros S H. destruct l as [f imp qe tc i op fd|o a|o|o|o r|o r| |e|s x|op fd r|depth]; cbn [wstep] in S.
  - destruct (user_code (ctl w)); [|discriminate S]. destruct (astep (asyn w) _); [|discriminate S]. injection S as <-. cbn [acts ctl] in H. lia.
  - destruct (user_code (ctl w)); [|discriminate S]. destruct (man_of w o) as [[sys m]|]; [|discriminate S]. destruct (do_call (flav sys) a m). injection S as <-. cbn [acts ctl] in H. lia.
  - destruct (user_code (ctl w)); [|discriminate S]. rewrite (running_asyncore _ _ _ _ S) in H. lia.
  - destruct (user_code (ctl w)); [|discriminate S]. destruct (man_of w o) as [[sys m]|]; [|discriminate S]. injection S as <-. cbn [ctl] in H. rewrite running_cons in H. lia.
  - destruct (user_code (ctl w)); [|discriminate S]. rewrite (running_aside _ _ _ S) in H. lia.
  - destruct (user_code (ctl w)); [|discriminate S]. rewrite (running_aside _ _ _ S) in H. lia.
  - destruct (ctl w) as [|[o id|o|o|o [|]|o d src|o e|p r|] k]; try discriminate S; rewrite running_cons in H.
    + destruct (man_of w o) as [[sys m]|]; [|discriminate S]. destruct (after_response (flav sys) m id (Ok tt)). rewrite (running_asyncore _ _ _ _ S) in H. lia.
    + rewrite (running_asyncore _ _ _ _ S) in H. lia.
    + injection S as <-. cbn [acts ctl] in H. lia.
  - destruct (ctl w) as [|[o id|o|o|o [|]|o d src|o x|p r|] k]; try discriminate S; rewrite running_cons in H.
    + destruct (man_of w o) as [[sys m]|]; [|discriminate S]. destruct (after_response (flav sys) m id (Err e)). rewrite (running_asyncore _ _ _ _ S) in H. lia.
    + destruct (man_of w o) as [[sys m]|]; [|discriminate S]. rewrite (running_asyncore _ _ _ _ S) in H. lia.
    + destruct k as [|[| | |p ph| | | |] k]; try discriminate S. destruct (man_of w o) as [[sys m]|]; [|discriminate S]. injection S as <-. exists o. apply (raised_acts w o sys m []).
  - exfalso. unfold aside in S. destruct (astep (asyn w) (AArrive s x)) as [A|].
    2:{ destruct (ctl w) as [|[]]; discriminate S. }
    assert (Q : ctl w' = ctl w \/ exists k, ctl w = WWait :: k /\ ctl w' = reached A :: k).
    { clear H. unfold aside in S. destruct (ctl w) as [|f k]; [|destruct f]; cbn [asyn mans ctl wlog] in S; try (inversion S; subst; left; reflexivity).
      destruct (astack A) as [|[| |] ?]; inversion S; subst; cbn; eauto. }
    destruct Q as [Q|(k & Q & Q')]; [rewrite Q in H; lia|]. rewrite Q, Q', running_reached, running_cons in H. lia.
  - destruct (ctl w) as [|[o id|o|o|o [|]|o d src|o x|p y|] k] eqn:Ct; try discriminate S.
    destruct (man_of w o) as [[sys m]|]; [|discriminate S]. rewrite running_cons in H. destruct (outbound m) as [|[om dst] q].
    { injection S as <-. exists o. apply raised_nothing. lia. }
    destruct (match om with None => Err AttributeError | Some msg => snd (message_encode msg) end) as [os|e].
    2:{ injection S as <-. exists o. apply raised_fails. lia. }
    destruct (aside w (ASend o os dst op fd r)) as [w1|]; [|discriminate S].
    destruct (rev (alog (asyn w1))) as [|[| | |y [u|e]| | | | | | |] t]; try discriminate S; injection S as <-.
    + cbn [acts ctl] in H. rewrite running_cons in H. lia.
    + exists o. apply raised_fails. lia.
  - destruct (ctl w) as [|[o id|o|o|o [|]|o d src|o x|p r|] k] eqn:Ct; try discriminate S; rewrite running_cons in H.
    + rewrite (running_asyncore _ _ _ _ S), running_cons in H. lia.
    + destruct (man_of w o) as [[sys m]|]; [|discriminate S]. destruct (receiveData sys m depth (DStr d)) as [act om].
      destruct act as [r|id n|n]; [rewrite (running_asyncore _ _ _ _ S) in H; lia| |]; (destruct om as [msg|]; [|discriminate S]); injection S as <-; cbn [acts ctl] in H; rewrite running_cons in H; lia.
    + rewrite (running_asyncore _ _ _ _ S) in H. lia.
    + assert (Q : (exists y ph k1, k = WRun y ph :: k1) \/ match man_of w p with None => None | Some (sys, m) => Some (acts w p sys m [EResult r] k) end = Some w') by (destruct k as [|[]]; eauto).
      destruct Q as [(y & ph & k1 & ->)|Q].
      2:{ destruct (man_of w p) as [[sys m]|]; [|discriminate Q]. injection Q as <-. cbn [acts ctl] in H. lia. }
      destruct (man_of w y) as [[sys m]|]; [|discriminate S]. rewrite running_cons in H. destruct r as [u|e].
      * assert (w' = mkWorld (asyn w) (mans w) (WRun y Sending :: k1) (wlog w)) as -> by (destruct (flav sys); congruence). cbn [ctl] in H. rewrite running_cons in H. lia.
      * assert (Q : w' = acts w y sys m [EResult (Err e)] k1 \/ w' = nothing_queued w y sys m [] k1) by (destruct (flav sys), e; try (left; congruence); right; congruence).
        exists y. destruct Q as [->| ->]; [apply (raised_acts w y sys m [])|]. apply raised_nothing. lia.
Qed.
