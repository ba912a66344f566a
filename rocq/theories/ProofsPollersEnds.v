(** * How exceptions travel, when several threads poll. *)
From Coq Require Import ZArith List Bool Lia.
From Verif Require Import PyBase Role Asyn SpecAsyn Pollers SpecPollers ProofsAsyn ProofsPollers ProofsPollersLog.
Import ListNotations.
Open Scope Z_scope.

(** ** Without close() every descriptor stays open *)
Definition is_close (e : aevent) : bool := match e with EClose _ _ => true | _ => false end.
Definition unclosed (lg : list pevent) : bool := negb (existsb is_close (all_events lg)).
Lemma unclosed_app a b : unclosed (a ++ b) = true -> unclosed a = true.
Proof. unfold unclosed. rewrite all_app, existsb_app. destruct (existsb is_close (all_events a)); [discriminate|reflexivity]. Qed.
Definition known (st : pstate) (fd : Z) : Prop := exists k, In k (p_socks st) /\ k_fd k = fd.
Definition peaceful (st : pstate) : Prop := unclosed (p_log st) = true ->
  (forall k, In k (p_socks st) -> k_open k = true) /\ (forall t p r fds, In (mkF p r (Select fds)) (p_stack st t) -> forall fd, In fd fds -> known st fd).
Lemma peaceful_open st fd : peaceful st -> unclosed (p_log st) = true -> known st fd -> open_at st fd <> None.
Proof.
  intros P U (k & J & F) N. destruct (P U) as [O _]. apply In_nth_error in J as [i N']. apply (proj1 (open_at_none _ _) N i k N'); [|exact F]. apply O. eapply nth_error_In. exact N'.
Qed.
Definition not_select (f : pframe) : Prop := match f_phase f with Select _ => False | _ => True end.
Lemma peaceful_goes st t k es : peaceful st -> (forall f, In f k -> In f (p_stack st t) \/ not_select f) -> peaceful (goes st t k es).
Proof.
  intros P H U. cbn [goes p_log] in U. apply unclosed_app in U. destruct (P U) as [O S]. split; [exact O|]. intros u p r fds J fd Jf. cbn [goes p_stack] in J. destruct (Nat.eqb_spec u t) as [->|N]; [|exact (S _ _ _ _ J _ Jf)].
  destruct (H _ J) as [J'|J']; [exact (S _ _ _ _ J' _ Jf)|destruct J'].
Qed.
Lemma in_upd {A} (l : list A) s k x : In x (upd l s k) -> In x l \/ x = k.
Proof. intros J. apply In_nth_error in J as [i N]. rewrite nth_upd in N. destruct (Nat.eqb_spec s i) as [->|_]; [destruct (nth_error l i); [injection N as <-; auto|discriminate N]|left; eapply nth_error_In; exact N]. Qed.
Lemma upd_keeps {A} (l : list A) s k x : In x l -> nth_error l s <> Some x -> In x (upd l s k).
Proof.
  intros J N. apply In_nth_error in J as [i Ni]. eapply nth_error_In with (n := i). rewrite nth_upd. destruct (Nat.eqb_spec s i) as [->|_]; [congruence|exact Ni].
Qed.
Lemma upd_there {A} (l : list A) s k x : nth_error l s = Some x -> In k (upd l s k).
Proof. intros N. eapply nth_error_In with (n := s). rewrite nth_upd, Nat.eqb_refl, N. reflexivity. Qed.
Lemma peaceful_sock st s ks q : peaceful st -> nth_error (p_socks st) s = Some ks -> peaceful (set_sock st s (mkK (k_fd ks) (k_open ks) q)).
Proof.
  intros P N U. cbn [set_sock p_log] in U. destruct (P U) as [O S]. cbn [set_sock p_socks p_stack]. split.
  - intros k J. destruct (in_upd _ _ _ _ J) as [J'| ->]; [auto|]. cbn. apply O. eapply nth_error_In. exact N.
  - intros t p r fds J fd Jf. destruct (S _ _ _ _ J _ Jf) as (k & Jk & F). unfold known. cbn [set_sock p_socks]. apply In_nth_error in Jk as [i Ni]. destruct (Nat.eq_dec s i) as [->|Ne].
    + exists (mkK (k_fd ks) (k_open ks) q). split; [eapply upd_there; exact N|]. cbn. congruence.
    + exists k. split; [|exact F]. eapply nth_error_In with (n := i). rewrite nth_upd. destruct (Nat.eqb_spec s i); [contradiction|exact Ni].
Qed.
Lemma peaceful_fails st t p rest k o e es : peaceful st -> (forall f, In f k -> In f (p_stack st t)) -> peaceful (read_fails st t p rest k o e es).
Proof. intros P H. unfold read_fails. destruct e; apply peaceful_goes; try exact P; intros f J; try (left; exact (H f J)). destruct J as [<-|J]; [right; exact Logic.I|left; exact (H f J)]. Qed.
Lemma peaceful_step st l st' : shape st -> peaceful st -> pstep st l = Some st' -> peaceful st'.
Proof.
  intros Sh P E. destruct l as [t fd|t o r|t p|t|t|t e|s x]; cbn [pstep] in E.
  - destruct (free (p_stack st t)); [|discriminate E]. destruct (open_at st fd); [discriminate E|]. injection E as <-. intros U. cbn [pnew goes p_log] in U. apply unclosed_app in U. destruct (P U) as [O S].
    unfold pnew, known. cbn [goes p_socks p_stack]. split.
    + intros k J. apply in_app_iff in J as [J|[<-|[]]]; [auto|reflexivity].
    + intros u p r fds J g Jg. assert (J' : In (mkF p r (Select fds)) (p_stack st u)) by (destruct (Nat.eqb_spec u t) as [->|]; exact J). destruct (S _ _ _ _ J' _ Jg) as (k & Jk & F). exists k. split; [apply in_or_app; left; exact Jk|exact F].
  - destruct (free (p_stack st t)); [|discriminate E]. destruct (nth_error (p_mans st) o) as [m|]; [|discriminate E]. injection E as <-. intros U. exfalso. revert U. unfold pclose, unclosed.
    destruct (nth_error (p_socks st) (g_sock m)) as [k|]; [destruct (k_open k)|]; cbn [goes p_log set_sock]; rewrite all_app, existsb_app; cbn; rewrite orb_true_r; discriminate.
  - destruct (free (p_stack st t)); [|discriminate E]. destruct (nth_error (p_mans st) p) as [m|]; [|discriminate E]. injection E as <-. intros U. cbn [goes p_log] in U. apply unclosed_app in U. destruct (P U) as [O S].
    split; [exact O|]. intros u q r fds J fd Jf. cbn [goes p_stack] in J. destruct (Nat.eqb_spec u t) as [->|N]; [|exact (S _ _ _ _ J _ Jf)]. destruct J as [J|J]; [|exact (S _ _ _ _ J _ Jf)]. injection J as <- <- <-.
    apply in_map_iff in Jf as ([fd' o] & Ef & Jm). cbn in Ef. subst fd'. apply (sh_map _ Sh) in Jm as (m' & M & G). destruct (sh_open _ Sh _ _ _ M G) as (k & N & _ & F). exists k. split; [eapply nth_error_In; exact N|exact F].
  - unfold pgo in E. destruct (p_stack st t) as [|[p rest ph] k] eqn:K; [discriminate E|].
    assert (Ok1 : forall f, In f k -> In f (p_stack st t)) by (intros f J; rewrite K; right; exact J).
    assert (G : forall f es, not_select f -> peaceful (goes st t (f :: k) es)) by (intros f es N; apply peaceful_goes; [exact P|]; intros g [<-|J]; [right; exact N|left; apply Ok1; exact J]).
    assert (G0 : forall es, peaceful (goes st t k es)) by (intros es; apply peaceful_goes; [exact P|]; intros g J; left; apply Ok1; exact J).
    assert (R : forall o s ks x q, nth_error (p_socks st) s = Some ks -> peaceful (goes (set_sock st s (mkK (k_fd ks) (k_open ks) q)) t (mkF p rest (Got o s x) :: k) [ERecv s x])).
    { intros o s ks x q N. apply peaceful_goes; [apply peaceful_sock; assumption|]. intros f [<-|J]; [right; exact Logic.I|left; apply Ok1; exact J]. }
    destruct ph as [fds| |o s|o s|o s x|o b].
    + destruct (forallb _ fds); injection E as <-; [apply G; exact Logic.I|apply G0].
    + destruct rest as [|fd rest]; [injection E as <-; apply G0|]. destruct (map_get (p_map st) fd) as [o|]; [destruct (nth_error (p_mans st) o); [|discriminate E]|]; injection E as <-; apply G; exact Logic.I.
    + destruct (nth_error (p_socks st) s) as [ks|] eqn:N; [|discriminate E]. destruct (k_open ks) eqn:Op; [destruct (k_queue ks) as [|x q]|]; injection E as <-; [apply G; exact Logic.I|rewrite <- Op; apply R; exact N|apply G0].
    + destruct (nth_error (p_socks st) s) as [ks|] eqn:N; [|discriminate E]. destruct (k_queue ks) as [|x q]; [discriminate E|]. injection E as <-. apply R; exact N.
    + destruct x as [[d src]|e]; injection E as <-; [apply G; exact Logic.I|apply peaceful_fails; assumption].
    + discriminate E.
  - destruct (p_stack st t) as [|[p rest [| | | | |o b]] k] eqn:K; try discriminate E. injection E as <-. apply peaceful_goes; [exact P|]. intros f [<-|J]; [right; exact Logic.I|left; rewrite K; right; exact J].
  - destruct (p_stack st t) as [|[p rest [| | | | |o b]] k] eqn:K; try discriminate E. injection E as <-. destruct b; [apply peaceful_goes; [exact P|]; intros f J; left; rewrite K; right; exact J|].
    apply peaceful_fails; [exact P|]. intros f J. rewrite K. right. exact J.
  - destruct (nth_error (p_socks st) s) as [ks|] eqn:N; [|discriminate E]. destruct (k_open ks) eqn:O; [|discriminate E]. injection E as <-. pose proof (peaceful_sock st s ks (k_queue ks ++ [x]) P N) as H. rewrite O in H. intros U. cbn [p_log] in U. apply unclosed_app in U. apply (H U).
Qed.

(** ** Every step tells where an exception comes from and goes to *)
Definition told (o : nat) (e : exn) (b : list aevent) : Prop := exists l3, (exists p, b = EPollEnd p (Err e) :: l3) \/ (e = ValueError /\ b = ECb o (Exc ValueError) :: l3).
Definition caused (lg : list pevent) (l : list aevent) (e : exn) : Prop :=
  (e = OSError /\ unclosed lg = false) \/ (exists l0 s, l = l0 ++ [ERecv s (Err e)]) \/ (exists l0 o, l = l0 ++ [ECbEnd o (Err e)]).
Definition well_told (lg : list pevent) (l es : list aevent) : Prop :=
  (forall a o e b, es = a ++ ECbEnd o (Err e) :: b -> told o e b) /\ (forall a p e b, es = a ++ EPollEnd p (Err e) :: b -> caused lg (l ++ a) e).
Definition quiet (e : aevent) : Prop := match e with ECbEnd _ (Err _) | EPollEnd _ (Err _) => False | _ => True end.
Lemma quiet_told lg l es : Forall quiet es -> well_told lg l es.
Proof. intros F. rewrite Forall_forall in F. split; intros; subst; exfalso; match goal with _ : context [?a ++ ?x :: ?b] |- _ => exact (F x (in_or_app a (x :: b) x (or_intror (or_introl eq_refl)))) end. Qed.
Lemma one_told lg l p e : caused lg l e -> well_told lg l [EPollEnd p (Err e)].
Proof.
  intros C. split.
  - intros a o e' b E. destruct a as [|? a]; [discriminate E|]. destruct a; discriminate E.
  - intros a p' e' b E. destruct a as [|? a]; [|destruct a; discriminate E]. injection E as _ <- _. rewrite app_nil_r. exact C.
Qed.
Lemma two_told lg l o p e : well_told lg l [ECbEnd o (Err e); EPollEnd p (Err e)].
Proof.
  split.
  - intros a o' e' b E. destruct a as [|? [|? a]]; [|discriminate E|destruct a; discriminate E]. injection E as <- <- <-. exists []. left. exists p. reflexivity.
  - intros a p' e' b E. destruct a as [|? [|? a]]; [discriminate E| |destruct a; discriminate E]. injection E as <- _ <- _. right. right. exists l, o. reflexivity.
Qed.
Lemma value_told lg l o : well_told lg l [ECbEnd o (Err ValueError); ECb o (Exc ValueError)].
Proof.
  split.
  - intros a o' e' b E. destruct a as [|? [|? a]]; [|discriminate E|destruct a; discriminate E]. injection E as <- <- <-. exists []. right. auto.
  - intros a p' e' b E. destruct a as [|? [|? a]]; [discriminate E|discriminate E|destruct a; discriminate E].
Qed.
Lemma story_last es o s x : story es (Some (o, s, x)) -> exists l0, es = l0 ++ [ERecv s x].
Proof. intros S. inversion S; subst. eauto. Qed.
Lemma own_step st st1 t k es : p_log st1 = p_log st -> well_told (p_log st) (own t (p_log st)) es ->
  forall u, exists es', own u (p_log (goes st1 t k es)) = own u (p_log st) ++ es' /\ well_told (p_log st) (own u (p_log st)) es'.
Proof.
  intros L W u. rewrite own_goes, L. destruct (Nat.eqb_spec u t) as [->|N]; [exists es; auto|exists []; split; [reflexivity|apply quiet_told; constructor]].
Qed.
Lemma step_told st l st' : shape st -> stories st -> peaceful st -> pstep st l = Some st' ->
  forall u, exists es, own u (p_log st') = own u (p_log st) ++ es /\ well_told (p_log st) (own u (p_log st)) es.
Proof.
  intros Sh S P E. destruct l as [t fd|t o r|t p|t|t|t e|s x]; cbn [pstep] in E.
  - destruct (free (p_stack st t)); [|discriminate E]. destruct (open_at st fd); [discriminate E|]. injection E as <-. unfold pnew. apply own_step; [reflexivity|]. apply quiet_told. repeat constructor.
  - destruct (free (p_stack st t)); [|discriminate E]. destruct (nth_error (p_mans st) o) as [m|]; [|discriminate E]. injection E as <-. unfold pclose.
    destruct (nth_error (p_socks st) (g_sock m)) as [k|]; [destruct (k_open k)|]; (apply own_step; [reflexivity|]; apply quiet_told; repeat constructor).
  - destruct (free (p_stack st t)); [|discriminate E]. destruct (nth_error (p_mans st) p) as [m|]; [|discriminate E]. injection E as <-. apply own_step; [reflexivity|]. apply quiet_told. repeat constructor.
  - unfold pgo in E. destruct (p_stack st t) as [|[p rest ph] k] eqn:K; [discriminate E|]. pose proof (S t) as St. rewrite K in St.
    destruct ph as [fds| |o s|o s|o s x|o b].
    + destruct (forallb _ fds) eqn:F; injection E as <-; (apply own_step; [reflexivity|]); [apply quiet_told; constructor|]. apply one_told. left. split; [reflexivity|].
      destruct (unclosed (p_log st)) eqn:U; [|reflexivity]. exfalso. assert (F' : forallb (fun fd => match open_at st fd with Some _ => true | None => false end) fds = true); [|congruence].
      apply forallb_forall. intros fd J. destruct (open_at st fd) eqn:Op; [reflexivity|]. exfalso. apply (peaceful_open st fd P U); [|exact Op]. apply (proj2 (P U) t p rest fds); [rewrite K; left; reflexivity|exact J].
    + destruct rest as [|fd rest]; [injection E as <-; apply own_step; [reflexivity|]; apply quiet_told; repeat constructor|].
      destruct (map_get (p_map st) fd) as [o|]; [destruct (nth_error (p_mans st) o); [|discriminate E]|]; injection E as <-; (apply own_step; [reflexivity|]; apply quiet_told; repeat constructor).
    + destruct (nth_error (p_socks st) s) as [ks|] eqn:N; [|discriminate E]. destruct (k_open ks) eqn:Op; [destruct (k_queue ks) as [|x q]|]; injection E as <-; try solve [apply own_step; [reflexivity|]; apply quiet_told; repeat constructor].
      cbn [read_fails app]. apply own_step; [reflexivity|]. apply one_told. left. split; [reflexivity|]. destruct (unclosed (p_log st)) eqn:U; [|reflexivity]. rewrite (proj1 (P U) ks (nth_error_In _ _ N)) in Op. discriminate Op.
    + destruct (nth_error (p_socks st) s) as [ks|] eqn:N; [|discriminate E]. destruct (k_queue ks) as [|x q]; [discriminate E|]. injection E as <-. apply own_step; [reflexivity|]. apply quiet_told. repeat constructor.
    + destruct x as [[d src]|e]; injection E as <-; [apply own_step; [reflexivity|]; apply quiet_told; repeat constructor|]. apply story_last in St as [l0 St].
      assert (C : caused (p_log st) (own t (p_log st)) e) by (right; left; exists l0, s; exact St). unfold read_fails. cbn [app]. destruct e; (apply own_step; [reflexivity|]); try (apply one_told; exact C). apply quiet_told. repeat constructor.
    + discriminate E.
  - destruct (p_stack st t) as [|[p rest [| | | | |o b]] k] eqn:K; try discriminate E. injection E as <-. apply own_step; [reflexivity|]. apply quiet_told. repeat constructor.
  - destruct (p_stack st t) as [|[p rest [| | | | |o b]] k] eqn:K; try discriminate E. injection E as <-. destruct b; [apply own_step; [reflexivity|apply two_told]|].
    unfold read_fails. cbn [app]. destruct e; (apply own_step; [reflexivity|]); try apply two_told. apply value_told.
  - destruct (nth_error (p_socks st) s) as [ks|]; [|discriminate E]. destruct (k_open ks); [|discriminate E]. injection E as <-. intros u. exists []. split; [cbn [p_log set_sock]; rewrite own_app; reflexivity|]. apply quiet_told. constructor.
Qed.
Lemma split_app {A} (a b l1 : list A) x l2 : a ++ b = l1 ++ x :: l2 -> (exists r, a = l1 ++ x :: r /\ l2 = r ++ b) \/ (exists r, l1 = a ++ r /\ b = r ++ x :: l2).
Proof.
  revert l1. induction a as [|y a IH]; intros l1 E; [right; exists l1; auto|]. destruct l1 as [|z l1]; cbn in E; injection E as -> E.
  - left. exists a. auto.
  - destruct (IH _ E) as [(r & -> & ->)|(r & -> & ->)]; [left|right]; exists r; auto.
Qed.
Lemma caused_more lg lg' l e : caused lg l e -> caused (lg ++ lg') l e.
Proof. intros [[-> U]|C]; [left|right; exact C]. split; [reflexivity|]. destruct (unclosed (lg ++ lg')) eqn:V; [|reflexivity]. apply unclosed_app in V. congruence. Qed.
Lemma told_join lg lg' l1 l2 : well_told lg [] l1 -> well_told lg l1 l2 -> well_told (lg ++ lg') [] (l1 ++ l2).
Proof.
  intros [A1 B1] [A2 B2]. split.
  - intros a o e b E. apply split_app in E as [(r & E & ->)|(r & -> & E)]; [|exact (A2 _ _ _ _ E)]. destruct (A1 _ _ _ _ E) as (l3 & [(p & ->)|[V ->]]); exists (l3 ++ l2); [left; exists p; reflexivity|right; auto].
  - intros a p e b E. apply split_app in E as [(r & E & ->)|(r & -> & E)]; apply caused_more; [exact (B1 _ _ _ _ E)|exact (B2 _ _ _ _ E)].
Qed.
Lemma log_extends st l st' : pstep st l = Some st' -> exists new, p_log st' = p_log st ++ new.
Proof.
  intros E. assert (F : forall t p rest k o e es, exists new, p_log (read_fails st t p rest k o e es) = p_log st ++ new) by (intros; unfold read_fails; destruct e; eexists; reflexivity).
  destruct l as [t fd|t o r|t p|t|t|t e|s x]; cbn [pstep] in E.
  - destruct (free (p_stack st t)); [|discriminate E]. destruct (open_at st fd); [discriminate E|]. injection E as <-. eexists. reflexivity.
  - destruct (free (p_stack st t)); [|discriminate E]. destruct (nth_error (p_mans st) o) as [m|]; [|discriminate E]. injection E as <-. unfold pclose. destruct (nth_error (p_socks st) (g_sock m)) as [k|]; [destruct (k_open k)|]; eexists; reflexivity.
  - destruct (free (p_stack st t)); [|discriminate E]. destruct (nth_error (p_mans st) p) as [m|]; [|discriminate E]. injection E as <-. eexists. reflexivity.
  - unfold pgo in E. destruct (p_stack st t) as [|[p rest ph] k]; [discriminate E|]. destruct ph as [fds| |o s|o s|o s x|o b].
    + destruct (forallb _ fds); injection E as <-; eexists; reflexivity.
    + destruct rest as [|fd rest]; [injection E as <-; eexists; reflexivity|]. destruct (map_get (p_map st) fd) as [o|]; [destruct (nth_error (p_mans st) o); [|discriminate E]|]; injection E as <-; eexists; reflexivity.
    + destruct (nth_error (p_socks st) s) as [ks|]; [|discriminate E]. destruct (k_open ks); [destruct (k_queue ks)|]; injection E as <-; eexists; reflexivity.
    + destruct (nth_error (p_socks st) s) as [ks|]; [|discriminate E]. destruct (k_queue ks); [discriminate E|]. injection E as <-. eexists. reflexivity.
    + destruct x as [[d src]|e]; injection E as <-; [eexists; reflexivity|apply F].
    + discriminate E.
  - destruct (p_stack st t) as [|[p rest [| | | | |o b]] k]; try discriminate E. injection E as <-. eexists. reflexivity.
  - destruct (p_stack st t) as [|[p rest [| | | | |o b]] k]; try discriminate E. injection E as <-. destruct b; [eexists; reflexivity|apply F].
  - destruct (nth_error (p_socks st) s) as [ks|]; [|discriminate E]. destruct (k_open ks); [|discriminate E]. injection E as <-. eexists. reflexivity.
Qed.
Lemma pexec_told tr st : pexec tr = Some st -> forall u, well_told (p_log st) [] (own u (p_log st)).
Proof.
  assert (H : forall tr st st', shape st -> stories st -> peaceful st -> (forall u, well_told (p_log st) [] (own u (p_log st))) -> psteps st tr = Some st' -> forall u, well_told (p_log st') [] (own u (p_log st'))).
  { clear. induction tr as [|l tr IH]; intros st st' Sh S P W E; cbn in E; [injection E as <-; exact W|]. destruct (pstep st l) as [st1|] eqn:Q; [|discriminate E].
    eapply IH; [eapply shape_step; eassumption|eapply stories_step; eassumption|eapply peaceful_step; eassumption| |exact E].
    intros u. destruct (step_told _ _ _ Sh S P Q u) as (es & L & We). destruct (log_extends _ _ _ Q) as [new Ln]. rewrite L, Ln. apply told_join; [apply W|exact We]. }
  apply H; [exact shape_init|intros t; constructor|intros _; split; [intros k []|intros t p r fds []]|]. intros u. apply quiet_told. constructor.
Qed.
