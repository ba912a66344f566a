(** * C88, C89: several threads that poll.  The vocabulary is in SpecPollers (with SpecAsyn); the proofs are in ProofsPollers, ProofsPollersLog, ProofsPollersRun,
    ProofsPollersServe, ProofsPollersOrder and ProofsPollersEnds. *)
From Coq Require Import ZArith List Bool Lia.
From Verif Require Import PyBase Role Asyn SpecAsyn Pollers SpecPollers ProofsPollers ProofsPollersLog ProofsPollersRun ProofsPollersServe ProofsPollersOrder ProofsPollersEnds.
Import ListNotations.
Open Scope Z_scope.

(** For the examples: two datagrams, and two threads that poll manager 0. *)
Definition dg1 : packet := Ok ([1], ([97], 161)).
Definition dg2 : packet := Ok ([2], ([98], 161)).
Definition both_poll : list plabel := [PPoll O O; PPoll 1%nat O; PGo O; PGo 1%nat; PGo O; PGo 1%nat].

(** ** C88: delivery *)
(** C88. Whatever threads poll, and however they interleave: every datagram (or error) that the kernel queued for a socket is read exactly once, by one thread, in order of arrival, or is
    still queued. *)
Theorem C88_lossless : forall tr st s, pexec tr = Some st -> arrivals (all_events (p_log st)) s = received (all_events (p_log st)) s ++ in_kernel st s.
Proof. intros tr st s E. apply (pexec_conserved _ _ E). Qed.
Print Assumptions C88_lossless.
(** C88. The next thing a thread does after reading a datagram is to call, itself, the callback of the manager that owns the socket, with that datagram; an error it read goes to the callback (ValueError)
    or out of its poll(). *)
Theorem C88_handed : forall tr st t l1 s x l2, pexec tr = Some st -> own t (p_log st) = l1 ++ ERecv s x :: l2 ->
  exists o, opened_by (all_events (p_log st)) s o /\
    ((l2 = [] /\ has_read st t o s x) \/
     exists l3, match x with Ok (d, src) => l2 = ECb o (Data d src) :: l3 | Err ValueError => l2 = ECb o (Exc ValueError) :: l3 | Err e => exists p, l2 = EPollEnd p (Err e) :: l3 end).
Proof.
  intros tr st t l1 s x l2 E H. pose proof (pexec_shape _ _ E) as Sh. exists s.
  assert (Op : opened_by (all_events (p_log st)) s s) by (eapply read_opened; [exact E|]; rewrite H; apply in_or_app; right; left; reflexivity).
  split; [exact Op|]. destruct (story_read _ _ _ _ _ _ (pexec_stories _ _ E t) H) as [[-> U]|S]; [|right; exact S]. left. split; [reflexivity|].
  destruct (p_stack st t) as [|[p rest ph] k] eqn:K; [discriminate U|]. destruct ph; try discriminate U. cbn in U. injection U as -> -> ->. exists p, rest, k. exact K.
Qed.
Print Assumptions C88_handed.
(** C88. A callback is called with a datagram only by the thread that read it from a socket of that manager, just before. *)
Theorem C88_only_read : forall tr st t l1 o d src l2, pexec tr = Some st -> own t (p_log st) = l1 ++ ECb o (Data d src) :: l2 -> exists s l0, l1 = l0 ++ [ERecv s (Ok (d, src))] /\ opened_by (all_events (p_log st)) s o.
Proof.
  intros tr st t l1 o d src l2 E H. destruct (story_called _ _ _ _ _ _ _ (pexec_stories _ _ E t) H) as [l0 ->]. exists o, l0. split; [reflexivity|]. rewrite <- app_assoc in H. cbn in H.
  destruct (C88_handed _ _ _ _ _ _ _ E H) as (o' & Op & [[L _]|(l3 & L)]); [discriminate L|]. injection L as -> _. exact Op.
Qed.
Print Assumptions C88_only_read.
(** C88. An exception of a callback comes out of the poll() running in the same thread, as the next thing that happens there; only a ValueError is given to the callback of the same manager first. *)
Theorem C88_raised : forall tr st t l1 o e l2, pexec tr = Some st -> own t (p_log st) = l1 ++ ECbEnd o (Err e) :: l2 ->
  exists l3, (exists p, l2 = EPollEnd p (Err e) :: l3) \/ (e = ValueError /\ l2 = ECb o (Exc ValueError) :: l3).
Proof. intros tr st t l1 o e l2 E H. exact (proj1 (pexec_told _ _ E t) _ _ _ _ H). Qed.
Print Assumptions C88_raised.
(** C88. poll() raises nothing else: what it raises is what a callback it called or a recvfrom it made has just raised, or OSError when some manager has been closed. *)
Theorem C88_raises_only : forall tr st t l1 p e l2, pexec tr = Some st -> own t (p_log st) = l1 ++ EPollEnd p (Err e) :: l2 ->
  (exists l0 o, l1 = l0 ++ [ECbEnd o (Err e)]) \/ (exists l0 s, l1 = l0 ++ [ERecv s (Err e)]) \/ (e = OSError /\ exists o r, In (EClose o r) (all_events (p_log st))).
Proof.
  intros tr st t l1 p e l2 E H. destruct (proj2 (pexec_told _ _ E t) _ _ _ _ H) as [[-> U]|[C|C]]; [|right; left; exact C|left; exact C]. right. right. split; [reflexivity|].
  unfold unclosed in U. apply negb_false_iff in U. apply existsb_exists in U as (x & J & X). destruct x; try discriminate X. eauto.
Qed.
Print Assumptions C88_raises_only.
(** C88. A poll() of any manager that returns has seen to it that the first datagram waiting, when it was called, at the socket of any manager in any thread has been read - by this thread or another -
    unless that manager was closed meanwhile. *)
Theorem C88_poll_serves : forall tr0 st t p o s x q tr st', pexec tr0 = Some st -> opened_by (all_events (p_log st)) s o -> listening st o -> in_kernel st s = x :: q ->
  whole_poll st t p tr st' (Ok tt) -> (forall u r, ~ In (PClose u o r) tr) -> exists l, received (all_events (p_log st')) s = received (all_events (p_log st)) s ++ x :: l.
Proof. intros tr0 st t p o s x q tr st' X Op. rewrite (opened_same _ _ _ _ X Op). apply poll_serves with (tr0 := tr0). exact X. Qed.
Print Assumptions C88_poll_serves.
(** C88. Closing a manager again does no harm, in whatever thread and whatever happened meanwhile (the descriptor may be in use by another manager): the kernel is not asked, close() returns normally, and the map and all sockets are as they were. *)
Theorem C88_close_again : forall tr0 st t o r st1 tr st1' t' r' st2, pexec tr0 = Some st -> pstep st (PClose t o r) = Some st1 -> psteps st1 tr = Some st1' -> pstep st1' (PClose t' o r') = Some st2 ->
  all_events (p_log st2) = all_events (p_log st1') ++ [EClose o (Ok tt)] /\ own t' (p_log st2) = own t' (p_log st1') ++ [EClose o (Ok tt)] /\
  p_socks st2 = p_socks st1' /\ p_map st2 = p_map st1' /\ p_mans st2 = p_mans st1' /\ forall u, p_stack st2 u = p_stack st1' u.
Proof. exact pclose_again. Qed.
Print Assumptions C88_close_again.
(** C88. If the user sees to it that poll() is called only while no thread is in poll(), callbacks of a manager get the datagrams in the order in which they arrived, all of them
    but one that has just been read, or is still queued ... *)
Theorem C88_in_order : forall tr st s o, pexec tr = Some st -> one_poll_at_a_time tr -> opened_by (all_events (p_log st)) s o ->
  exists l, datagrams (arrivals (all_events (p_log st)) s) = handed (all_events (p_log st)) o ++ l ++ datagrams (in_kernel st s) /\
    (l = [] \/ exists t x, l = [x] /\ has_read st t o s x).
Proof.
  intros tr st s o E One Op. rewrite (opened_same _ _ _ _ E Op) in *. clear s Op. destruct (pexec_ordered _ _ E One) as (u & V & L & H). exists (pending (p_stack st u) o). rewrite (C88_lossless _ _ o E), datagrams_app, <- H, <- app_assoc. split; [reflexivity|].
  pose proof (pexec_shape _ _ E) as Sh. destruct (p_stack st u) as [|[p rest ph] k] eqn:K; [left; reflexivity|]. destruct ph as [| | | |o' s' [x|e]|]; try (left; reflexivity). cbn. destruct (Nat.eqb_spec o' o) as [->|]; [|left; reflexivity].
  assert (Pt : points st (mkF p rest (Got o s' (Ok x)))) by (eapply (sh_points _ Sh); rewrite K; left; reflexivity). destruct Pt as [_ ->]. right. exists u, (Ok x). split; [reflexivity|]. exists p, rest, k. exact K.
Qed.
Print Assumptions C88_in_order.
(** ... and no two callbacks, of any managers, ever run at the same time. *)
Theorem C88_no_overlap : forall tr st t o t' o', pexec tr = Some st -> one_poll_at_a_time tr -> runs_callback st t o -> runs_callback st t' o' -> t = t' /\ o = o'.
Proof.
  intros tr st t o t' o' E One (f & b & J & F) (f' & b' & J' & F'). destruct (pexec_ordered _ _ E One) as (u & V & L & _).
  assert (Hu : forall v g, In g (p_stack st v) -> v = u) by (intros v g Hg; destruct (Nat.eq_dec v u); [assumption|]; rewrite V in Hg by assumption; contradiction).
  pose proof (Hu _ _ J) as ->. pose proof (Hu _ _ J') as ->. split; [reflexivity|]. destruct (p_stack st u) as [|g [|]]; [contradiction| |cbn in L; lia]. destruct J as [->|[]]. destruct J' as [->|[]]. congruence.
Qed.
Print Assumptions C88_no_overlap.
(** C88. Without that, two callbacks of the same manager can run at the same time ... *)
Theorem C88_overlap_refuted : ~ forall tr st t t' o, pexec tr = Some st -> runs_callback st t o -> runs_callback st t' o -> t = t'.
Proof.
  intros H. destruct (pexec (PNew O 3 :: PArrive O dg1 :: PArrive O dg2 :: both_poll ++ [PGo O; PGo 1%nat; PGo O; PGo 1%nat])) as [st|] eqn:E; [|vm_compute in E; discriminate E].
  assert (O = 1%nat); [|discriminate]. apply (H _ st O 1%nat O E); vm_compute in E; injection E as <-; eexists; exists false; (split; [left; reflexivity|reflexivity]).
Qed.
Print Assumptions C88_overlap_refuted.
(** ... and they can get the datagrams in another order than that of arrival. *)
Theorem C88_order_refuted : exists tr st, pexec tr = Some st /\ arrivals (all_events (p_log st)) O = [dg1; dg2] /\ handed (all_events (p_log st)) O = [dg2; dg1].
Proof.
  destruct (pexec (PNew O 3 :: PArrive O dg1 :: PArrive O dg2 :: both_poll ++ [PGo O; PGo 1%nat; PGo 1%nat; PGo O])) as [st|] eqn:E; [|vm_compute in E; discriminate E].
  exists (PNew O 3 :: PArrive O dg1 :: PArrive O dg2 :: both_poll ++ [PGo O; PGo 1%nat; PGo 1%nat; PGo O]), st. split; [exact E|]. vm_compute in E. injection E as <-. split; reflexivity.
Qed.
Print Assumptions C88_order_refuted.
(** C88. Nor does a callback run in the thread that made the manager, or that polls it: here thread 1, which polls only its own manager, runs the callback of the manager of thread 0, which has
    not polled at all. *)
Theorem C88_foreign_thread_refuted : exists tr st d src, pexec tr = Some st /\ In (ENew O (Ok tt)) (own O (p_log st)) /\ (forall p, ~ In (EPoll p) (own O (p_log st))) /\ ~ In (EPoll O) (own 1%nat (p_log st)) /\
  In (ECb O (Data d src)) (own 1%nat (p_log st)).
Proof.
  destruct (pexec [PNew O 3; PNew 1%nat 4; PArrive O dg1; PPoll 1%nat 1%nat; PGo 1%nat; PGo 1%nat; PGo 1%nat; PGo 1%nat]) as [st|] eqn:E; [|vm_compute in E; discriminate E].
  exists [PNew O 3; PNew 1%nat 4; PArrive O dg1; PPoll 1%nat 1%nat; PGo 1%nat; PGo 1%nat; PGo 1%nat; PGo 1%nat], st, [1], ([97], 161). split; [exact E|]. vm_compute in E. injection E as <-. cbn.
  repeat split; intros; intuition discriminate.
Qed.
Print Assumptions C88_foreign_thread_refuted.

(** The hypotheses are met: thread 0 makes two managers and thread 1 polls the second, while thread 0 polls as well; thread 0 reads what waits at the first, and the
    poll() of thread 1 returns. *)
Definition poll_trace : list plabel := [PPoll O O; PGo O; PGo O; PGo 1%nat; PGo O; PGo O; PReturn O; PGo O; PGo 1%nat; PGo 1%nat; PArrive O dg2; PGo 1%nat; PGo 1%nat; PReturn 1%nat; PGo 1%nat].
Example C88_case : exists st1 st2, pexec [PNew O 3; PNew O 4; PArrive O dg1] = Some st1 /\ listening st1 O /\ in_kernel st1 O = [dg1] /\
  whole_poll st1 1%nat 1%nat poll_trace st2 (Ok tt) /\ received (all_events (p_log st2)) O = [dg1; dg2] /\ handed (all_events (p_log st2)) O = [dg1; dg2].
Proof.
  destruct (pexec [PNew O 3; PNew O 4; PArrive O dg1]) as [st1|] eqn:E1; [|vm_compute in E1; discriminate E1]. exists st1. vm_compute in E1. injection E1 as <-.
  match goal with |- exists st2, _ = _ /\ _ /\ _ /\ whole_poll ?s _ _ _ _ _ /\ _ => destruct (psteps s (PPoll 1 1 :: poll_trace)) as [st2|] eqn:E2; [|vm_compute in E2; discriminate E2] end.
  exists st2. split; [reflexivity|]. split; [exists (mkPM 0 (Some 3)), 3; split; reflexivity|]. split; [reflexivity|]. split; [|vm_compute in E2; injection E2 as <-; split; reflexivity].
  split; [exact E2|]. vm_compute in E2. injection E2 as <-. split; [reflexivity|]. split; [|eexists; apply app_removelast_last with (d := EPoll O); discriminate].
  intros a b sta H Nb X. unfold poll_trace in H.
  do 15 (destruct a as [|? a]; [cbn in H; subst b; cbn in X; injection X as <-; cbn; lia|cbn in H; injection H as <- H]). destruct a as [|? a]; [|discriminate H]. cbn in H. contradiction Nb. symmetry. exact H.
Qed.

(** A callback that raises ValueError is called with it; what it raises then ends the poll(). *)
Example C88_close_case : exists st st1 st1' st2, pexec [PNew O 3; PNew O 4] = Some st /\ pstep st (PClose O O (Err OSError)) = Some st1 /\ psteps st1 [PNew O 3; PPoll O 1%nat; PGo O] = Some st1' /\
  pstep st1' (PClose 1%nat O (Err OSError)) = Some st2 /\ map_get (p_map st2) 3 = Some 2%nat.
Proof. do 4 eexists. split; [vm_compute; reflexivity|]. split; [vm_compute; reflexivity|]. split; [vm_compute; reflexivity|]. split; [vm_compute; reflexivity|]. vm_compute. reflexivity. Qed.
Example C88_raise_case : exists st, pexec [PNew O 3; PArrive O dg1; PPoll 1%nat O; PGo 1%nat; PGo 1%nat; PGo 1%nat; PGo 1%nat; PRaise 1%nat ValueError; PRaise 1%nat KeyError] = Some st /\
  own 1%nat (p_log st) = [EPoll O; ERecv O dg1; ECb O (Data [1] ([97], 161)); ECbEnd O (Err ValueError); ECb O (Exc ValueError); ECbEnd O (Err KeyError); EPollEnd O (Err KeyError)].
Proof. eexists. split; vm_compute; reflexivity. Qed.

(** ** C89: waiting *)
(** C89. In any state, every thread that is in the library can go on, or waits in recvfrom at a socket where nothing is queued. *)
Theorem C89_progress : forall tr st t, pexec tr = Some st -> in_library st t -> (exists st', pstep st (PGo t) = Some st') \/ hung st t.
Proof. intros tr st t E. apply library_goes_on. eapply pexec_shape. exact E. Qed.
Print Assumptions C89_progress.
(** C89. The next datagram at that socket releases a waiting thread: it can read it at once, and will hand it over. *)
Theorem C89_released : forall st t s x st1, (exists p rest o k, p_stack st t = mkF p rest (Wait o s) :: k) -> in_kernel st s = [] -> pstep st (PArrive s x) = Some st1 ->
  exists st2, pstep st1 (PGo t) = Some st2 /\ p_log st2 = p_log st1 ++ [(Some t, ERecv s x)] /\ exists o, has_read st2 t o s x.
Proof. exact arrival_releases. Qed.
Print Assumptions C89_released.
(** C89. If poll() is called, and managers are made, only while no thread is in poll(), no thread ever waits. *)
Theorem C89_one_at_a_time : forall tr st t, pexec tr = Some st -> one_at_a_time tr -> ~ hung st t.
Proof. exact one_at_a_time_never_hangs. Qed.
Print Assumptions C89_one_at_a_time.
(** C89. A call of poll() takes at most 2 + 6n steps of its own thread, n being the managers listening when it is called (if callbacks do not poll again): whatever the other threads do, within that many steps it has returned or
    raised. *)
Theorem C89_bounded : forall tr0 st t p tr st', pexec tr0 = Some st -> psteps st (PPoll t p :: tr) = Some st' -> existsb (polls t) tr = false -> (2 + 6 * length (listeners st) <= length (filter (goes_on t) tr))%nat ->
  exists a b sta r, tr = a ++ b /\ whole_poll st t p a sta r /\ (length (filter (goes_on t) a) <= 2 + 6 * length (listeners st))%nat.
Proof.
  intros tr0 st t p tr st' X E P N. pose proof (map_listeners _ (pexec_shape _ _ X)) as L. destruct (poll_bounded _ _ _ _ _ E P ltac:(lia)) as (a & b & sta & r & -> & W & B). exists a, b, sta, r. split; [reflexivity|]. split; [exact W|]. lia.
Qed.
Print Assumptions C89_bounded.
(** C89. Two threads that poll with one datagram waiting: one of them hangs. *)
Theorem C89_hang_refuted : ~ forall tr st t, pexec tr = Some st -> ~ hung st t.
Proof.
  intros H. destruct (pexec (PNew O 3 :: PArrive O dg1 :: both_poll ++ [PGo O; PGo 1%nat])) as [st|] eqn:E; [|vm_compute in E; discriminate E].
  apply (H _ st 1%nat E). vm_compute in E. injection E as <-. exists O, [], O, O, []. split; reflexivity.
Qed.
Print Assumptions C89_hang_refuted.
(** C89. It is not enough that only one thread at a time polls: if another thread meanwhile closes a manager and makes one, which gets the same descriptor, poll() waits at the new socket. *)
Theorem C89_polls_locked_refuted : ~ forall tr st t, pexec tr = Some st -> one_poll_at_a_time tr -> ~ hung st t.
Proof.
  intros H. destruct (pexec [PNew O 3; PArrive O dg1; PPoll O O; PGo O; PClose 1%nat O (Ok tt); PNew 1%nat 3; PGo O; PGo O]) as [st|] eqn:E; [|vm_compute in E; discriminate E].
  apply (H _ st O E).
  - intros tr1 t p tr2 st1 Q X u. do 8 (destruct tr1 as [|? tr1]; [cbn in Q; try discriminate Q; injection Q as _ _ _; injection X as <-; destruct u; reflexivity|cbn in Q; injection Q as <- Q]). destruct tr1; discriminate Q.
  - vm_compute in E. injection E as <-. exists O, [], 1%nat, 1%nat, []. split; reflexivity.
Qed.
Print Assumptions C89_polls_locked_refuted.
(** The hypotheses are met: in a disciplined run of two threads, each polls when the other is done, both read, and a poll() ends within the bound. *)
Example C89_case : exists st, pexec [PNew O 3; PNew 1%nat 4; PArrive O dg1; PArrive 1%nat dg2; PPoll O O; PGo O; PGo O; PGo O; PGo O; PReturn O; PGo O; PGo O; PGo O; PReturn O; PGo O; PPoll 1%nat O; PGo 1%nat; PGo 1%nat] = Some st /\
  one_at_a_time [PNew O 3; PNew 1%nat 4; PArrive O dg1; PArrive 1%nat dg2; PPoll O O; PGo O; PGo O; PGo O; PGo O; PReturn O; PGo O; PGo O; PGo O; PReturn O; PGo O; PPoll 1%nat O; PGo 1%nat; PGo 1%nat] /\
  handed (all_events (p_log st)) O = [dg1] /\ handed (all_events (p_log st)) 1%nat = [dg2] /\ listeners st = [O; 1%nat].
Proof.
  destruct (pexec [PNew O 3; PNew 1%nat 4; PArrive O dg1; PArrive 1%nat dg2; PPoll O O; PGo O; PGo O; PGo O; PGo O; PReturn O; PGo O; PGo O; PGo O; PReturn O; PGo O; PPoll 1%nat O; PGo 1%nat; PGo 1%nat]) as [st|] eqn:E; [|vm_compute in E; discriminate E].
  exists st. split; [reflexivity|]. split; [|vm_compute in E; injection E as <-; auto]. clear E st. intros tr1 l tr2 st Q X Hl.
  do 18 (destruct tr1 as [|? tr1]; [cbn in Q; injection Q as <- _; first [destruct Hl as [(? & ? & Hl)|(? & ? & Hl)]; discriminate Hl|vm_compute in X; injection X as <-; intros [|[|u]]; reflexivity]|cbn in Q; injection Q as <- Q]). destruct tr1; discriminate Q.
Qed.
