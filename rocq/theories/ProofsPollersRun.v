(** * Several threads that poll: who waits, and what is certain to be read. *)
From Coq Require Import ZArith List Bool Lia.
From Verif Require Import PyBase Role Asyn SpecAsyn Pollers SpecPollers ProofsAsyn ProofsPollers ProofsPollersLog.
Import ListNotations.
Open Scope Z_scope.

(** ** The library can go on, or waits *)
Lemma library_goes_on st t : shape st -> in_library st t -> (exists st', pstep st (PGo t) = Some st') \/ hung st t.
Proof.
  intros Sh L. unfold in_library in L. cbn [pstep]. unfold pgo. destruct (p_stack st t) as [|[p rest ph] k] eqn:K; [discriminate L|]. cbn in L.
  assert (Pt : points st (mkF p rest ph)) by (eapply (sh_points _ Sh); rewrite K; left; reflexivity).
  assert (Sk : forall o, (o < length (p_mans st))%nat -> exists ks, nth_error (p_socks st) o = Some ks) by (intros o Lo; destruct (nth_error (p_socks st) o) eqn:N; [eauto|]; apply nth_error_None in N; rewrite <- (sh_len _ Sh) in N; lia).
  destruct ph as [fds| |o s|o s|o s x|o b]; cbn [points f_phase] in Pt.
  - left. destruct (forallb _ fds); eauto.
  - left. destruct rest as [|fd rest]; [eauto|]. destruct (map_get (p_map st) fd) as [o|] eqn:G; [|eauto]. apply map_get_in in G; [|apply (sh_nodup _ Sh)]. apply (sh_map _ Sh) in G as (m & M & _). rewrite M. eauto.
  - left. destruct Pt as [Lo ->]. destruct (Sk _ Lo) as [ks ->]. destruct (k_open ks); [destruct (k_queue ks)|]; eauto.
  - destruct Pt as [Lo ->]. destruct (Sk _ Lo) as [ks N]. rewrite N. destruct (k_queue ks) as [|x q] eqn:Q; [|left; eauto]. right. exists p, rest, o, o, k. split; [exact K|]. unfold in_kernel. rewrite N. exact Q.
  - left. destruct x as [[d src]|e]; eauto.
  - discriminate L.
Qed.
Lemma arrival_releases st t s x st1 : (exists p rest o k, p_stack st t = mkF p rest (Wait o s) :: k) -> in_kernel st s = [] -> pstep st (PArrive s x) = Some st1 ->
  exists st2, pstep st1 (PGo t) = Some st2 /\ p_log st2 = p_log st1 ++ [(Some t, ERecv s x)] /\ exists o, has_read st2 t o s x.
Proof.
  intros (p & rest & o & k & K) Q E. cbn [pstep] in E. unfold in_kernel in Q. destruct (nth_error (p_socks st) s) as [ks|] eqn:N; [|discriminate E]. destruct (k_open ks); [|discriminate E]. injection E as <-. rewrite Q. cbn [app].
  cbn [pstep]. unfold pgo. cbn [set_sock p_stack p_socks]. rewrite K, nth_upd, Nat.eqb_refl, N. cbn [k_queue k_fd k_open]. eexists. split; [reflexivity|]. split; [reflexivity|]. exists o, p, rest, k. cbn [goes p_stack]. rewrite Nat.eqb_refl. reflexivity.
Qed.

(** ** One at a time: nobody ever waits *)
Definition due (st : pstate) (fd : Z) : Prop := forall o, In (fd, o) (p_map st) -> in_kernel st o <> [].
Definition fine (st : pstate) (f : pframe) : Prop :=
  NoDup (f_rest f) /\ (forall fd, In fd (f_rest f) -> due st fd) /\
  match f_phase f with
  | Select fds => NoDup fds /\ f_rest f = []
  | Recv o s => in_kernel st s <> [] /\ forall k, nth_error (p_socks st) s = Some k -> k_open k = true -> ~ In (k_fd k) (f_rest f)
  | Wait _ _ => False
  | _ => True
  end.
Definition alone (st : pstate) : Prop := exists u, (forall v, v <> u -> p_stack st v = []) /\ match p_stack st u with [] => True | [f] => fine st f | _ => False end.
(** Frames stay fine when queues only grow and the map only shrinks. *)
Lemma fine_more st st' f : fine st f -> (forall o, in_kernel st o <> [] -> in_kernel st' o <> []) -> (forall e, In e (p_map st') -> In e (p_map st)) ->
  (forall s k', nth_error (p_socks st') s = Some k' -> k_open k' = true -> exists k, nth_error (p_socks st) s = Some k /\ k_open k = true /\ k_fd k = k_fd k') -> fine st' f.
Proof.
  intros (A & B & C) Q M S. split; [exact A|]. split; [intros fd J o I; apply Q; eapply B; [exact J|apply M; exact I]|]. destruct (f_phase f); try exact C. destruct C as [C1 C2]. split; [apply Q; exact C1|].
  intros k' N O. destruct (S _ _ N O) as (k & N1 & O1 & <-). eapply C2; eassumption.
Qed.
Lemma has_data_due st fd : shape st -> has_data st fd = true -> due st fd.
Proof.
  intros Sh H o J. apply (sh_map _ Sh) in J as (m & M & G). destruct (sh_open _ Sh _ _ _ M G) as (k & N & O & <-). unfold has_data in H. rewrite (open_at_is _ _ _ Sh N O) in H. unfold in_kernel. rewrite N. destruct (k_queue k); [discriminate H|discriminate].
Qed.
Lemma nodup_filter {A} (f : A -> bool) l : NoDup l -> NoDup (filter f l).
Proof. intros N. induction N as [|x l H N IH]; [constructor|]. cbn. destruct (f x); [|exact IH]. constructor; [|exact IH]. intros J. apply H. apply filter_In in J. apply J. Qed.
Lemma alone_idle st : (forall u, p_stack st u = []) -> alone st.
Proof. intros H. exists O. split; [intros; apply H|]. rewrite H. exact Logic.I. Qed.
Lemma alone_goes st st1 t k es : (forall v, v <> t -> p_stack st1 v = []) -> match k with [] => True | [f] => fine st f | _ => False end -> p_socks st1 = p_socks st -> p_map st1 = p_map st -> alone (goes st1 t k es).
Proof.
  intros V H S M. exists t. cbn [goes p_stack]. split; [intros v N; destruct (Nat.eqb_spec v t); [contradiction|apply V; assumption]|]. rewrite Nat.eqb_refl. destruct k as [|f [|]]; [exact H| |exact H].
  eapply fine_more; [exact H| | |].
  - intros o. unfold in_kernel. cbn [goes p_socks]. rewrite S. exact (fun x => x).
  - intros e. cbn [goes p_map]. rewrite M. exact (fun x => x).
  - intros s k'. cbn [goes p_socks]. rewrite S. eauto.
Qed.
Lemma alone_fails st t p rest o e es : (forall v, v <> t -> p_stack st v = []) -> NoDup rest -> (forall fd, In fd rest -> due st fd) -> alone (read_fails st t p rest [] o e es).
Proof. intros V A B. unfold read_fails. destruct e; apply (alone_goes st); auto; try exact Logic.I. split; [exact A|]. split; [exact B|exact Logic.I]. Qed.
Lemma alone_go st t st' : shape st -> alone st -> pgo st t = Some st' -> alone st'.
Proof.
  intros Sh (u & V & H) E. unfold pgo in E. destruct (p_stack st t) as [|[p rest ph] k] eqn:K; [discriminate E|]. assert (t = u) as -> by (destruct (Nat.eq_dec t u); [assumption|]; rewrite V in K by assumption; discriminate K).
  rewrite K in H. destruct k as [|? ?]; [|contradiction]. destruct H as (A & B & C). cbn [f_rest f_phase] in *.
  destruct ph as [fds| |o s|o s|o s x|o b].
  - destruct C as [Nf _]. destruct (forallb _ fds); injection E as <-; apply (alone_goes st); auto. split; [apply nodup_filter; exact Nf|]. split; [|exact Logic.I]. intros fd J. apply filter_In in J as [_ J]. apply has_data_due; assumption.
  - destruct rest as [|fd rest]; [injection E as <-; apply (alone_goes st); auto|]. inversion A as [|? ? A1 A2]; subst. destruct (map_get (p_map st) fd) as [o|] eqn:G.
    + apply map_get_in in G; [|apply (sh_nodup _ Sh)]. destruct (nth_error (p_mans st) o) as [m|] eqn:M; [|discriminate E]. injection E as <-. rewrite (sh_sock _ Sh _ _ M). apply (alone_goes st); auto. split; [exact A2|]. split; [intros g J; apply B; right; exact J|]. cbn [f_phase f_rest].
      split; [eapply B; [left; reflexivity|exact G]|]. intros ks N O J. apply A1. apply (sh_map _ Sh) in G as (m' & M' & G'). destruct (sh_open _ Sh _ _ _ M' G') as (k2 & N2 & _ & <-). assert (k2 = ks) by congruence. subst. exact J.
    + injection E as <-. apply (alone_goes st); auto. split; [exact A2|]. split; [intros g J; apply B; right; exact J|exact Logic.I].
  - destruct C as [C1 C2]. assert (Pt : s = o) by (pose proof (sh_points _ Sh u (mkF p rest (Recv o s))) as X; rewrite K in X; destruct (X (or_introl eq_refl)); assumption). subst s.
    destruct (nth_error (p_socks st) o) as [ks|] eqn:N; [|discriminate E]. unfold in_kernel in C1. rewrite N in C1. destruct (k_open ks) eqn:O; [destruct (k_queue ks) as [|x q] eqn:Q; [contradiction|]|]; injection E as <-; [|apply (alone_goes st); auto].
    specialize (C2 _ eq_refl O). exists u. cbn [goes p_stack set_sock]. split; [intros v Nv; destruct (Nat.eqb_spec v u); [contradiction|auto]|]. rewrite Nat.eqb_refl. split; [exact A|]. split; [|exact Logic.I].
    intros fd J o' I. cbn [goes p_map set_sock] in I. change (in_kernel (set_sock st o (mkK (k_fd ks) true q)) o' <> []). rewrite kernel_upd by congruence. destruct (Nat.eqb_spec o o') as [<-|_]; [|eapply B; eassumption].
    exfalso. apply C2. apply (sh_map _ Sh) in I as (m' & M' & G'). destruct (sh_open _ Sh _ _ _ M' G') as (k2 & N2 & _ & <-). assert (k2 = ks) by congruence. subst. exact J.
  - destruct C.
  - destruct x as [[d src]|e]; injection E as <-; [|apply alone_fails; assumption]. apply (alone_goes st); auto. split; [exact A|]. split; [exact B|exact Logic.I].
  - discriminate E.
Qed.
Lemma alone_step st l st' : shape st -> alone st -> ((exists t p, l = PPoll t p) \/ (exists t fd, l = PNew t fd) -> forall u, p_stack st u = []) -> pstep st l = Some st' -> alone st'.
Proof.
  intros Sh Al Ex E. destruct l as [t fd|t o r|t p|t|t|t e|s x]; cbn [pstep] in E.
  - specialize (Ex (or_intror (ex_intro _ t (ex_intro _ fd eq_refl)))). destruct (free (p_stack st t)); [|discriminate E]. destruct (open_at st fd); [discriminate E|]. injection E as <-. apply alone_idle. intros u. cbn. rewrite !Ex. destruct (Nat.eqb u t); reflexivity.
  - destruct (free (p_stack st t)); [|discriminate E]. destruct (nth_error (p_mans st) o) as [m|] eqn:M; [|discriminate E]. injection E as <-. destruct Al as (u & V & H).
    assert (Pc : forall v, p_stack (pclose st t o m r) v = p_stack st v).
    { intros v. unfold pclose. destruct (nth_error (p_socks st) (g_sock m)) as [k|]; [destruct (k_open k)|]; cbn [goes p_stack set_sock]; destruct (Nat.eqb_spec v t) as [->|_]; reflexivity. }
    exists u. split; [intros v N; rewrite Pc; auto|]. rewrite Pc. destruct (p_stack st u) as [|f [|]]; [exact H| |exact H]. eapply fine_more; [exact H| | |].
    + intros i. unfold pclose. destruct (nth_error (p_socks st) (g_sock m)) as [k|] eqn:N; [destruct (k_open k)|]; try exact (fun x => x).
      intros Q. change (in_kernel (set_sock (mkP (p_socks st) (upd (p_mans st) o (mkPM (g_sock m) None)) (match g_fileno m with Some fd => map_del (p_map st) fd | None => p_map st end) (p_stack st) (p_log st)) (g_sock m) (mkK (k_fd k) false (k_queue k))) i <> []).
      rewrite kernel_upd by (cbn [p_socks]; congruence). cbn [k_queue]. destruct (Nat.eqb_spec (g_sock m) i) as [<-|_]; [|exact Q]. unfold in_kernel in Q. rewrite N in Q. exact Q.
    + intros [fd i]. assert (Pm : p_map (pclose st t o m r) = match g_fileno m with Some fd => map_del (p_map st) fd | None => p_map st end) by (unfold pclose; destruct (nth_error (p_socks st) (g_sock m)) as [k|]; [destruct (k_open k)|]; reflexivity).
      rewrite Pm. destruct (g_fileno m); [apply map_del_in|exact (fun x => x)].
    + intros i k'. unfold pclose. destruct (nth_error (p_socks st) (g_sock m)) as [k|] eqn:N; [destruct (k_open k) eqn:O|]; cbn [goes set_sock p_socks]; try (eauto; fail).
      rewrite nth_upd, N. destruct (Nat.eqb_spec (g_sock m) i) as [<-|_]; [intros X; injection X as <-; discriminate|eauto].
  - specialize (Ex (or_introl (ex_intro _ t (ex_intro _ p eq_refl)))). destruct (free (p_stack st t)); [|discriminate E]. destruct (nth_error (p_mans st) p); [|discriminate E]. injection E as <-. rewrite Ex. apply (alone_goes st); auto.
    split; [constructor|]. split; [intros fd []|]. cbn. split; [apply (sh_nodup _ Sh)|reflexivity].
  - eapply alone_go; eassumption.
  - destruct (p_stack st t) as [|[p rest [| | | | |o b]] k] eqn:K; try discriminate E. injection E as <-. destruct Al as (u & V & H). assert (t = u) as -> by (destruct (Nat.eq_dec t u); [assumption|]; rewrite V in K by assumption; discriminate K).
    rewrite K in H. destruct k as [|? ?]; [|contradiction]. destruct H as (A & B & _). apply (alone_goes st); auto. split; [exact A|]. split; [exact B|exact Logic.I].
  - destruct (p_stack st t) as [|[p rest [| | | | |o b]] k] eqn:K; try discriminate E. injection E as <-. destruct Al as (u & V & H). assert (t = u) as -> by (destruct (Nat.eq_dec t u); [assumption|]; rewrite V in K by assumption; discriminate K).
    rewrite K in H. destruct k as [|? ?]; [|contradiction]. destruct H as (A & B & _). destruct b; [apply (alone_goes st); auto|apply alone_fails; assumption].
  - destruct (nth_error (p_socks st) s) as [ks|] eqn:N; [|discriminate E]. destruct (k_open ks) eqn:O; [|discriminate E]. injection E as <-. destruct Al as (u & V & H). exists u. cbn [set_sock p_stack]. split; [exact V|].
    destruct (p_stack st u) as [|f [|]]; [exact H| |exact H]. eapply fine_more; [exact H| | |].
    + intros i Q. change (in_kernel (set_sock st s (mkK (k_fd ks) true (k_queue ks ++ [x]))) i <> []). rewrite kernel_upd by congruence. destruct (Nat.eqb s i); [cbn; destruct (k_queue ks); discriminate|exact Q].
    + exact (fun e x => x).
    + intros i k'. cbn [p_socks set_sock]. rewrite nth_upd, N. destruct (Nat.eqb_spec s i) as [<-|_]; [intros X; injection X as <-; intros _; exists ks; auto|eauto].
Qed.
Lemma pexec_alone tr : forall st, pexec tr = Some st -> one_at_a_time tr -> alone st.
Proof.
  induction tr as [|l tr IH] using rev_ind; intros st E Ex; [injection E as <-; apply alone_idle; reflexivity|].
  unfold pexec in E. rewrite psteps_app in E. destruct (psteps pinit tr) as [st0|] eqn:E0; [|discriminate E]. cbn in E. destruct (pstep st0 l) as [st1|] eqn:E1; [|discriminate E]. injection E as ->.
  eapply alone_step; [eapply pexec_shape; exact E0| | |exact E1].
  - apply IH; [exact E0|]. intros tr1 l0 tr2 st2 Q. subst tr. apply (Ex tr1 l0 (tr2 ++ [l])). rewrite <- app_assoc. reflexivity.
  - intros H. eapply (Ex tr l []); [reflexivity|exact E0|exact H].
Qed.
Lemma one_at_a_time_never_hangs tr st t : pexec tr = Some st -> one_at_a_time tr -> ~ hung st t.
Proof.
  intros E Ex (p & rest & o & s & k & K & _). destruct (pexec_alone _ _ E Ex) as (u & V & H). assert (t = u) as -> by (destruct (Nat.eq_dec t u); [assumption|]; rewrite V in K by assumption; discriminate K).
  rewrite K in H. destruct k as [|? ?]; [|contradiction]. destruct H as (_ & _ & []).
Qed.
