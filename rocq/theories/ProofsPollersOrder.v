(** * One poll() at a time: callbacks get the datagrams in the order in which they arrived, one after the other. *)
From Coq Require Import ZArith List Bool Lia.
From Verif Require Import PyBase Role Asyn SpecAsyn Pollers SpecPollers ProofsAsyn ProofsPollers ProofsPollersLog ProofsPollersServe.
Import ListNotations.
Open Scope Z_scope.

Definition pending (k : list pframe) (o : nat) : list packet :=
  match k with mkF _ _ (Got o' _ (Ok x)) :: _ => if Nat.eqb o' o then [Ok x] else [] | _ => [] end.
Definition ordered (st : pstate) : Prop := exists u, (forall v, v <> u -> p_stack st v = []) /\ (length (p_stack st u) <= 1)%nat /\
  forall o, handed (all_events (p_log st)) o ++ pending (p_stack st u) o = datagrams (received (all_events (p_log st)) o).
Lemma handed_app a b o : handed (a ++ b) o = handed a o ++ handed b o.
Proof. apply flat_map_app. Qed.
Lemma datagrams_app a b : datagrams (a ++ b) = datagrams a ++ datagrams b.
Proof. apply filter_app. Qed.
Lemma received_silent es o : Forall silent es -> received es o = [].
Proof. intros F. apply (silent_none es F o). Qed.
Lemma ordered_goes st st1 t k es : (forall v, v <> t -> p_stack st1 v = []) -> (length k <= 1)%nat -> p_log st1 = p_log st ->
  (forall o, (handed (all_events (p_log st)) o ++ handed es o) ++ pending k o = datagrams (received (all_events (p_log st)) o) ++ datagrams (received es o)) -> ordered (goes st1 t k es).
Proof.
  intros V L Lg H. exists t. rewrite goes_stack, Nat.eqb_refl. split; [intros v N; rewrite goes_stack; destruct (Nat.eqb_spec v t); [contradiction|apply V; assumption]|]. split; [exact L|].
  intros o. cbn [goes p_log]. rewrite Lg, all_app, all_mine, handed_app, received_app, datagrams_app. apply H.
Qed.
Lemma ordered_fails st t p rest o e es : (forall v, v <> t -> p_stack st v = []) -> (forall i, handed es i = [] /\ received es i = []) -> (forall i, handed (all_events (p_log st)) i = datagrams (received (all_events (p_log st)) i)) -> ordered (read_fails st t p rest [] o e es).
Proof.
  intros V He H. assert (X : forall k y, (length k <= 1)%nat -> handed [y] = handed [] -> (forall i, pending k i = []) -> (forall i, handed [y] i = [] /\ received [y] i = []) -> ordered (goes st t k (es ++ [y]))).
  { intros k y L _ Pn Hy. apply (ordered_goes st); [exact V|exact L|reflexivity|]. intros i. rewrite handed_app, received_app, datagrams_app, Pn. destruct (He i) as [-> ->]. destruct (Hy i) as [-> ->]. cbn. rewrite !app_nil_r. apply H. }
  unfold read_fails. destruct e; apply X; cbn; auto.
Qed.
Lemma ordered_other st st' u : p_stack st' = p_stack st -> (forall v, v <> u -> p_stack st v = []) -> (length (p_stack st u) <= 1)%nat ->
  (forall o, handed (all_events (p_log st)) o ++ pending (p_stack st u) o = datagrams (received (all_events (p_log st)) o)) ->
  (exists es, p_log st' = p_log st ++ es /\ forall o, handed (all_events es) o = [] /\ received (all_events es) o = []) -> ordered st'.
Proof.
  intros Es V L H (es & Lg & N). exists u. rewrite Es. split; [exact V|]. split; [exact L|]. intros o. rewrite Lg, all_app, handed_app, received_app. destruct (N o) as [-> ->]. rewrite !app_nil_r. apply H.
Qed.
Lemma ordered_step st l st' : shape st -> ordered st -> (forall t p, l = PPoll t p -> forall u, p_stack st u = []) -> pstep st l = Some st' -> ordered st'.
Proof.
  intros Sh (u & V & L & H) One E. destruct l as [t fd|t o r|t p|t|t|t e|s x]; cbn [pstep] in E.
  - destruct (free (p_stack st t)); [|discriminate E]. destruct (open_at st fd); [discriminate E|]. injection E as <-. exists u. unfold pnew. cbn [goes p_stack p_log]. destruct (Nat.eqb_spec u t) as [<-|Ne].
    + split; [intros v N; destruct (Nat.eqb_spec v u); [contradiction|auto]|]. split; [exact L|]. intros i. rewrite all_app, handed_app, received_app. cbn. rewrite !app_nil_r. apply H.
    + split; [intros v N; destruct (Nat.eqb_spec v t) as [->|]; auto|]. split; [exact L|]. intros i. rewrite all_app, handed_app, received_app. cbn. rewrite !app_nil_r. apply H.
  - destruct (free (p_stack st t)); [|discriminate E]. destruct (nth_error (p_mans st) o) as [m|]; [|discriminate E]. injection E as <-.
    assert (P : forall v, p_stack (pclose st t o m r) v = p_stack st v) by (intros v; unfold pclose; destruct (nth_error (p_socks st) (g_sock m)) as [k|]; [destruct (k_open k)|]; rewrite goes_stack; cbn [p_stack set_sock]; destruct (Nat.eqb_spec v t) as [->|]; reflexivity).
    assert (Lg : exists r', p_log (pclose st t o m r) = p_log st ++ [(Some t, EClose o r')]) by (unfold pclose; destruct (nth_error (p_socks st) (g_sock m)) as [k|]; [destruct (k_open k)|]; cbn; eauto).
    destruct Lg as [r' Lg]. exists u. rewrite P. split; [intros v N; rewrite P; auto|]. split; [exact L|]. intros i. rewrite Lg, all_app, handed_app, received_app. cbn. rewrite !app_nil_r. apply H.
  - destruct (free (p_stack st t)); [|discriminate E]. destruct (nth_error (p_mans st) p) as [m|]; [|discriminate E]. injection E as <-. specialize (One t p eq_refl). rewrite !One in *. apply (ordered_goes st); [intros; apply One|cbn; lia|reflexivity|].
    intros i. specialize (H i). cbn in H |- *. rewrite !app_nil_r in *. exact H.
  - unfold pgo in E. destruct (p_stack st t) as [|[p rest ph] k] eqn:K; [discriminate E|]. assert (u = t) as -> by (destruct (Nat.eq_dec u t) as [e|e]; [exact e|]; rewrite (V t) in K by congruence; discriminate K).
    rewrite K in *. cbn in L. destruct k; [|cbn in L; lia]. clear L.
    assert (X : forall k es, (length k <= 1)%nat -> Forall silent es -> (forall i, handed es i ++ pending k i = pending [mkF p rest ph] i) -> ordered (goes st t k es)).
    { intros k es L F Pe. apply (ordered_goes st); [exact V|exact L|reflexivity|]. intros i. rewrite (received_silent es i F), <- app_assoc, Pe, app_nil_r. apply H. }
    assert (Rd : forall o s ks x q, nth_error (p_socks st) s = Some ks -> k_queue ks = x :: q -> s = o -> (forall i, pending [mkF p rest ph] i = []) -> ordered (goes (set_sock st s (mkK (k_fd ks) (k_open ks) q)) t [mkF p rest (Got o s x)] [ERecv s x])).
    { intros o s ks x q N Q -> Pe. apply (ordered_goes st); [exact V|cbn; lia|reflexivity|]. intros i. specialize (H i). rewrite Pe, app_nil_r in H. rewrite <- H. cbn. rewrite app_nil_r. f_equal. destruct x as [y|e]; destruct (Nat.eqb o i); reflexivity. }
    assert (Pt : points st (mkF p rest ph)) by (eapply (sh_points _ Sh); rewrite K; left; reflexivity).
    destruct ph as [fds| |o s|o s|o s x|o b].
    + destruct (forallb _ fds); injection E as <-; apply X; try (cbn; lia); try (repeat constructor; fail); reflexivity.
    + destruct rest as [|fd rest]; [injection E as <-; apply X; try (cbn; lia); try (repeat constructor; fail); reflexivity|]. destruct (map_get (p_map st) fd) as [o|]; [destruct (nth_error (p_mans st) o); [|discriminate E]|]; injection E as <-; apply X; try (cbn; lia); try constructor; reflexivity.
    + destruct (nth_error (p_socks st) s) as [ks|] eqn:N; [|discriminate E]. destruct (k_open ks) eqn:O; [destruct (k_queue ks) as [|x q] eqn:Q|]; injection E as <-.
      * apply X; try (cbn; lia); try constructor; reflexivity.
      * destruct Pt as [_ ->]. rewrite <- O. apply Rd; auto.
      * apply X; try (cbn; lia); try (repeat constructor; fail); reflexivity.
    + destruct (nth_error (p_socks st) s) as [ks|] eqn:N; [|discriminate E]. destruct (k_queue ks) as [|x q] eqn:Q; [discriminate E|]. injection E as <-. destruct Pt as [_ ->]. apply Rd; auto.
    + destruct x as [[d src]|e]; injection E as <-; [apply X; try (cbn; lia); try (repeat constructor; fail); intros i; cbn; rewrite !app_nil_r; reflexivity|]. apply ordered_fails; [exact V|auto|]. intros i. specialize (H i). cbn in H. rewrite app_nil_r in H. exact H.
    + discriminate E.
  - destruct (p_stack st t) as [|[p rest [| | | | |o b]] k] eqn:K; try discriminate E. injection E as <-. assert (u = t) as -> by (destruct (Nat.eq_dec u t) as [e|e]; [exact e|]; rewrite (V t) in K by congruence; discriminate K).
    rewrite K in *. apply (ordered_goes st); [exact V|exact L|reflexivity|]. intros i. cbn. rewrite !app_nil_r. specialize (H i). cbn in H. rewrite app_nil_r in H. exact H.
  - destruct (p_stack st t) as [|[p rest [| | | | |o b]] k] eqn:K; try discriminate E. injection E as <-. assert (u = t) as -> by (destruct (Nat.eq_dec u t) as [e0|e0]; [exact e0|]; rewrite (V t) in K by congruence; discriminate K).
    rewrite K in *. cbn in L. destruct k; [|cbn in L; lia]. assert (H' : forall i, handed (all_events (p_log st)) i = datagrams (received (all_events (p_log st)) i)) by (intros i; specialize (H i); cbn in H; rewrite app_nil_r in H; exact H).
    destruct b; [|apply ordered_fails; auto]. apply (ordered_goes st); [exact V|cbn; lia|reflexivity|]. intros i. cbn. rewrite !app_nil_r. apply H'.
  - destruct (nth_error (p_socks st) s) as [ks|] eqn:N; [|discriminate E]. destruct (k_open ks) eqn:O; [|discriminate E]. injection E as <-. eapply (ordered_other st _ u); [reflexivity|exact V|exact L|exact H|]. eexists. split; [reflexivity|]. auto.
Qed.
Lemma one_poll_prefix tr1 l tr2 : one_poll_at_a_time (tr1 ++ l :: tr2) -> one_poll_at_a_time tr1.
Proof. intros One a t p b st -> X. apply (One a t p (b ++ l :: tr2) st); [rewrite <- app_assoc; reflexivity|exact X]. Qed.
Lemma pexec_ordered tr : forall st, pexec tr = Some st -> one_poll_at_a_time tr -> ordered st.
Proof.
  induction tr as [|l tr IH] using rev_ind; intros st X One.
  - injection X as <-. exists O. cbn. auto.
  - unfold pexec in X. rewrite psteps_app in X. destruct (psteps pinit tr) as [st1|] eqn:X1; [|discriminate X]. cbn in X. destruct (pstep st1 l) as [st2|] eqn:S; [|discriminate X]. injection X as <-.
    eapply ordered_step; [eapply pexec_shape; exact X1|apply IH; [exact X1|eapply one_poll_prefix; exact One]| |exact S]. intros t p ->. eapply (One tr t p []); [reflexivity|exact X1].
Qed.

(** ** What steps log about sockets *)
Definition minor (e : aevent) : Prop := match e with EArrive _ _ | EOpened _ _ _ => False | _ => True end.
Definition tells (st : pstate) (e : aevent) : Prop :=
  match e with EArrive s _ => (s < length (p_socks st))%nat | EOpened s o _ => s = length (p_socks st) /\ o = length (p_mans st) | _ => True end.
Lemma minor_tells st e : minor e -> tells st e.
Proof. destruct e; cbn; tauto. Qed.
Lemma step_tells st l st' : pstep st l = Some st' -> exists es, p_log st' = p_log st ++ es /\ (length (p_socks st) <= length (p_socks st'))%nat /\ Forall (tells st) (all_events es).
Proof.
  intros P.
  assert (Lu : forall s k, length (p_socks (set_sock st s k)) = length (p_socks st)) by (intros; cbn; clear; revert s; induction (p_socks st) as [|a l IH]; intros [|s]; cbn; auto).
  assert (Go : forall st2 t k es, st' = goes st2 t k es -> (length (p_socks st) <= length (p_socks st2))%nat -> p_log st2 = p_log st -> Forall (tells st) es -> exists es, p_log st' = p_log st ++ es /\ (length (p_socks st) <= length (p_socks st'))%nat /\ Forall (tells st) (all_events es)).
  { intros st2 t k es -> L Lg F. cbn [goes p_log]. rewrite Lg. eexists. split; [reflexivity|]. split; [exact L|]. rewrite all_mine. exact F. }
  assert (Fl : forall t p rest k o e es, st' = read_fails st t p rest k o e es -> Forall minor es -> exists es, p_log st' = p_log st ++ es /\ (length (p_socks st) <= length (p_socks st'))%nat /\ Forall (tells st) (all_events es)).
  { intros t p rest k o e es H F. assert (F2 : forall z, minor z -> Forall (tells st) (es ++ [z])) by (intros z Hz; eapply Forall_impl; [apply minor_tells|]; apply Forall_app; split; [exact F|constructor; [exact Hz|constructor]]).
    unfold read_fails in H. destruct e; (eapply Go; [exact H|apply le_n|reflexivity|apply F2; exact Logic.I]). }
  assert (Rd : forall t s k' q k e, minor e -> st' = goes (set_sock st s (mkK k' true q)) t k [e] \/ (exists b, st' = goes (set_sock st s (mkK k' b q)) t k [e]) -> exists es, p_log st' = p_log st ++ es /\ (length (p_socks st) <= length (p_socks st'))%nat /\ Forall (tells st) (all_events es)).
  { intros t s k' q k e Me [H|[b H]]; (eapply Go; [exact H|rewrite Lu; apply le_n|reflexivity|constructor; [apply minor_tells; exact Me|constructor]]). }
  assert (F1 : forall e, minor e -> Forall (tells st) [e]) by (intros e He; constructor; [apply minor_tells; exact He|constructor]).
  destruct l as [u fd|u o r|u p|u|u|u e|s x]; cbn [pstep] in P.
  - destruct (free (p_stack st u)); [|discriminate P]. destruct (open_at st fd); [discriminate P|]. injection P as P. symmetry in P. unfold pnew in P. eapply Go; [exact P|cbn; rewrite app_length; lia|reflexivity|]. repeat constructor.
  - destruct (free (p_stack st u)); [|discriminate P]. destruct (nth_error (p_mans st) o) as [m|]; [|discriminate P]. injection P as P. symmetry in P. unfold pclose in P. destruct (nth_error (p_socks st) (g_sock m)) as [k|]; [destruct (k_open k)|]; (eapply Go; [exact P| |reflexivity|apply F1; exact Logic.I]); try apply le_n.
    rewrite <- (Lu (g_sock m) (mkK (k_fd k) false (k_queue k))). apply le_n.
  - destruct (free (p_stack st u)); [|discriminate P]. destruct (nth_error (p_mans st) p) as [m|]; [|discriminate P]. injection P as P. symmetry in P. eapply Go; [exact P|apply le_n|reflexivity|apply F1; exact Logic.I].
  - unfold pgo in P. destruct (p_stack st u) as [|[p rest ph] k] eqn:K; [discriminate P|].
    destruct ph as [fds| |o s|o s|o s z|o b]; [destruct (forallb _ fds)|destruct rest; [|destruct (map_get (p_map st) z) as [o|]; [destruct (nth_error (p_mans st) o); [|discriminate P]|]]|destruct (nth_error (p_socks st) s) as [ks|]; [|discriminate P]; destruct (k_open ks) eqn:Ko; [destruct (k_queue ks)|]|destruct (nth_error (p_socks st) s) as [ks|]; [|discriminate P]; destruct (k_queue ks); [discriminate P|]|destruct z as [[d src]|e]|discriminate P];
      injection P as P; symmetry in P; first [eapply Rd; [|left; exact P]; exact Logic.I|eapply Rd; [|right; eexists; exact P]; exact Logic.I|eapply Fl; [exact P|]; constructor|eapply Go; [exact P|apply le_n|reflexivity|]; first [apply Forall_nil|apply F1; exact Logic.I]].
  - destruct (p_stack st u) as [|[p rest [| | | | |o b]] k] eqn:K; try discriminate P. injection P as P. symmetry in P. eapply Go; [exact P|apply le_n|reflexivity|apply F1; exact Logic.I].
  - destruct (p_stack st u) as [|[p rest [| | | | |o b]] k] eqn:K; try discriminate P. injection P as P. symmetry in P. destruct b; [eapply Go; [exact P|apply le_n|reflexivity|]; eapply Forall_impl; [apply minor_tells|repeat constructor]|eapply Fl; [exact P|]; repeat constructor].
  - destruct (nth_error (p_socks st) s) as [ks|] eqn:N; [|discriminate P]. destruct (k_open ks); [|discriminate P]. injection P as <-. cbn [p_log set_sock]. eexists. split; [reflexivity|]. split; [rewrite <- (Lu s (mkK (k_fd ks) true (k_queue ks ++ [x]))); apply le_n|]. constructor; [|constructor]. cbn. apply nth_error_Some. congruence.
Qed.
Lemma log_sockets tr st : pexec tr = Some st -> forall e, In e (all_events (p_log st)) -> match e with EArrive s _ => (s < length (p_socks st))%nat | EOpened s o _ => s = o | _ => True end.
Proof.
  revert st. induction tr as [|l tr IH] using rev_ind; intros st X e J; [injection X as <-; contradiction|].
  unfold pexec in X. rewrite psteps_app in X. destruct (psteps pinit tr) as [st0|] eqn:E0; [|discriminate X]. cbn in X. destruct (pstep st0 l) as [st1|] eqn:E1; [|discriminate X]. injection X as ->.
  destruct (step_tells _ _ _ E1) as (es & Lg & L & F). rewrite Lg, all_app in J. apply in_app_or in J as [J|J].
  - specialize (IH _ E0 _ J). destruct e; try exact Logic.I; [exact IH|cbn in *; lia].
  - rewrite Forall_forall in F. specialize (F _ J). destruct e; try exact Logic.I; cbn in F |- *; [|lia]. destruct F as [-> ->]. symmetry. apply (sh_len _ (pexec_shape _ _ E0)).
Qed.
Lemma opened_same tr st s o : pexec tr = Some st -> opened_by (all_events (p_log st)) s o -> s = o.
Proof. intros X [fd J]. exact (log_sockets _ _ X _ J). Qed.
Lemma arrived_opened tr st s x : pexec tr = Some st -> In x (arrivals (all_events (p_log st)) s) -> opened_by (all_events (p_log st)) s s.
Proof.
  intros X A. unfold arrivals in A. apply in_flat_map in A as (e & J & Je). destruct e; try contradiction. destruct (Nat.eqb_spec s0 s) as [->|]; [|contradiction]. pose proof (pexec_shape _ _ X) as Sh. apply (sh_opened _ Sh). rewrite (sh_len _ Sh). exact (log_sockets _ _ X _ J).
Qed.
Lemma read_opened tr st s x t : pexec tr = Some st -> In (ERecv s x) (own t (p_log st)) -> opened_by (all_events (p_log st)) s s.
Proof.
  intros X J. eapply arrived_opened; [exact X|]. rewrite (pexec_conserved _ _ X s). apply in_or_app. left. unfold received. apply in_flat_map. exists (ERecv s x). split; [|rewrite Nat.eqb_refl; left; reflexivity].
  unfold own in J. apply in_flat_map in J as ([u e] & J1 & J2). apply in_map_iff. exists (u, e). split; [|exact J1].
  cbn in J2. destruct u as [u|]; [|contradiction]. destruct (Nat.eqb u t); [|contradiction]. destruct J2 as [J2|[]]. exact J2.
Qed.
