(** * Several threads that poll: a poll() ends, and has served what was waiting. *)
From Coq Require Import ZArith List Bool Lia.
From Verif Require Import PyBase Role Asyn SpecAsyn Pollers SpecPollers ProofsAsyn ProofsPollers ProofsPollersLog.
Import ListNotations.
Open Scope Z_scope.

(** ** What a step does to a thread *)
Definition mu (f : pframe) : nat :=
  match f_phase f with
  | Select fds => 2 + 6 * length fds
  | Serve => 1 + 6 * length (f_rest f)
  | Recv _ _ => 6 + 6 * length (f_rest f)
  | Wait _ _ => 5 + 6 * length (f_rest f)
  | Got _ _ _ => 4 + 6 * length (f_rest f)
  | Calls _ false => 3 + 6 * length (f_rest f)
  | Calls _ true => 2 + 6 * length (f_rest f)
  end%nat.
Definition top_moves (st : pstate) (t : nat) (f : pframe) (k : list pframe) (st' : pstate) : Prop :=
  (exists f', p_stack st' t = f' :: k /\ f_mgr f' = f_mgr f /\ (mu f' < mu f)%nat) \/
  (p_stack st' t = k /\ exists es r, own t (p_log st') = own t (p_log st) ++ es ++ [EPollEnd (f_mgr f) r]).
Lemma goes_stack st t k es u : p_stack (goes st t k es) u = if Nat.eqb u t then k else p_stack st u.
Proof. reflexivity. Qed.
Lemma moves_goes st0 st t f k f' es : f_mgr f' = f_mgr f -> (mu f' < mu f)%nat -> top_moves st0 t f k (goes st t (f' :: k) es).
Proof. intros H1 H2. left. exists f'. rewrite goes_stack, Nat.eqb_refl. auto. Qed.
Lemma ends_goes st t f k es r : top_moves st t f k (goes st t k (es ++ [EPollEnd (f_mgr f) r])).
Proof. right. rewrite goes_stack, Nat.eqb_refl. split; [reflexivity|]. exists es, r. rewrite own_goes, Nat.eqb_refl. reflexivity. Qed.
Lemma moves_fails st t p rest ph k o e es : (2 + 6 * length rest < mu (mkF p rest ph))%nat -> top_moves st t (mkF p rest ph) k (read_fails st t p rest k o e es).
Proof. intros H. unfold read_fails. destruct e; try apply (ends_goes st t (mkF p rest ph)). apply moves_goes; [reflexivity|exact H]. Qed.
Lemma filter_short {A} (f : A -> bool) l : (length (filter f l) <= length l)%nat.
Proof. induction l as [|x l IH]; [apply le_n|]. cbn. destruct (f x); cbn; lia. Qed.
Lemma go_moves st t st' f k : pgo st t = Some st' -> p_stack st t = f :: k -> top_moves st t f k st'.
Proof.
  intros E K. unfold pgo in E. rewrite K in E. destruct f as [p rest ph]. destruct ph as [fds| |o s|o s|o s x|o b].
  - destruct (forallb _ fds); injection E as <-; [apply moves_goes; [reflexivity|]; cbn; pose proof (filter_short (has_data st) fds); lia|apply (ends_goes st t (mkF p rest (Select fds)) k [])].
  - destruct rest as [|fd rest]; [injection E as <-; apply (ends_goes st t (mkF p [] Serve) k [])|]. destruct (map_get (p_map st) fd) as [o|]; [destruct (nth_error (p_mans st) o); [|discriminate E]|]; injection E as <-; apply moves_goes; try reflexivity; cbn; lia.
  - destruct (nth_error (p_socks st) s) as [ks|] eqn:N; [|discriminate E]. destruct (k_open ks) eqn:O; [destruct (k_queue ks) as [|x q] eqn:Q|]; injection E as <-; [apply moves_goes; [reflexivity|cbn; lia]|apply moves_goes; [reflexivity|cbn; lia]|apply (ends_goes st t (mkF p rest (Recv o s)) k [])].
  - destruct (nth_error (p_socks st) s) as [ks|] eqn:N; [|discriminate E]. destruct (k_queue ks) as [|x q] eqn:Q; [discriminate E|]. injection E as <-. apply moves_goes; [reflexivity|cbn; lia].
  - destruct x as [[d src]|e]; injection E as <-; [apply moves_goes; [reflexivity|cbn; lia]|apply moves_fails; cbn; lia].
  - discriminate E.
Qed.
(** A step of thread [t] in its topmost poll() moves that one; a call of poll() puts one on top; anything else leaves it. *)
Lemma stack_step st l st' t : pstep st l = Some st' ->
  (goes_on t l = true -> exists f k, p_stack st t = f :: k /\ top_moves st t f k st') /\
  (goes_on t l = false -> polls t l = false -> p_stack st' t = p_stack st t) /\
  (polls t l = true -> exists p, l = PPoll t p /\ p_stack st' t = mkF p [] (Select (map fst (p_map st))) :: p_stack st t).
Proof.
  intros E. destruct l as [u fd|u o r|u p|u|u|u e|s x]; cbn [goes_on polls].
  - split; [discriminate|]. split; [|discriminate]. intros _ _. cbn [pstep] in E. destruct (free (p_stack st u)); [|discriminate E]. destruct (open_at st fd); [discriminate E|]. injection E as <-. unfold pnew. rewrite goes_stack. cbn [p_stack]. destruct (Nat.eqb_spec t u) as [->|]; reflexivity.
  - split; [discriminate|]. split; [|discriminate]. intros _ _. cbn [pstep] in E. destruct (free (p_stack st u)); [|discriminate E]. destruct (nth_error (p_mans st) o) as [m|]; [|discriminate E]. injection E as <-. unfold pclose.
    destruct (nth_error (p_socks st) (g_sock m)) as [k|]; [destruct (k_open k)|]; rewrite goes_stack; cbn [p_stack set_sock]; destruct (Nat.eqb_spec t u) as [->|]; reflexivity.
  - split; [discriminate|]. cbn [pstep] in E. destruct (free (p_stack st u)); [|discriminate E]. destruct (nth_error (p_mans st) p) as [m|]; [|discriminate E]. injection E as <-. rewrite goes_stack. rewrite (Nat.eqb_sym u t). destruct (Nat.eqb_spec t u) as [->|]; split; try discriminate; eauto.
  - split; [intros H; apply Nat.eqb_eq in H as ->|split; [intros H _|discriminate]]; cbn [pstep] in E.
    + destruct (p_stack st t) as [|f k] eqn:K; [unfold pgo in E; rewrite K in E; discriminate E|]. exists f, k. split; [reflexivity|]. apply (go_moves st t st' f k E K).
    + rewrite Nat.eqb_sym in H. unfold pgo in E. destruct (p_stack st u) as [|[p rest ph] k] eqn:K; [discriminate E|]. unfold read_fails in E.
      destruct ph as [fds| |o s|o s|o s x|o b]; [destruct (forallb _ fds)|destruct rest; [|destruct (map_get (p_map st) z) as [o|]; [destruct (nth_error (p_mans st) o); [|discriminate E]|]]|destruct (nth_error (p_socks st) s) as [ks|]; [|discriminate E]; destruct (k_open ks); [destruct (k_queue ks)|]|destruct (nth_error (p_socks st) s) as [ks|]; [|discriminate E]; destruct (k_queue ks); [discriminate E|]|destruct x as [[d src]|[]]|discriminate E];
      injection E as <-; rewrite goes_stack, H; reflexivity.
  - cbn [pstep] in E. destruct (p_stack st u) as [|[p rest [| | | | |o b]] k] eqn:K; try discriminate E. injection E as <-. split; [intros H; apply Nat.eqb_eq in H as ->|split; [intros H _|discriminate]].
    + exists (mkF p rest (Calls o b)), k. split; [exact K|]. apply moves_goes; [reflexivity|cbn; destruct b; lia].
    + rewrite Nat.eqb_sym in H. rewrite goes_stack, H. reflexivity.
  - cbn [pstep] in E. destruct (p_stack st u) as [|[p rest [| | | | |o b]] k] eqn:K; try discriminate E. injection E as <-. split; [intros H; apply Nat.eqb_eq in H as ->|split; [intros H _|discriminate]].
    + exists (mkF p rest (Calls o b)), k. split; [exact K|]. destruct b; [apply (ends_goes st t (mkF p rest (Calls o true)) k [ECbEnd o (Err e)])|apply moves_fails; cbn; lia].
    + rewrite Nat.eqb_sym in H. destruct b; [|unfold read_fails; destruct e]; rewrite goes_stack, H; reflexivity.
  - split; [discriminate|]. split; [|discriminate]. intros _ _. cbn [pstep] in E. destruct (nth_error (p_socks st) s) as [ks|]; [|discriminate E]. destruct (k_open ks); [|discriminate E]. injection E as <-. reflexivity.
Qed.

(** ** A poll() ends *)
Lemma poll_bounded_from tr : forall st t f k n st', p_stack st t = f :: k -> (mu f <= n)%nat -> psteps st tr = Some st' -> existsb (polls t) tr = false -> (n <= length (filter (goes_on t) tr))%nat ->
  exists a b sta es r, tr = a ++ b /\ psteps st a = Some sta /\ p_stack sta t = k /\ own t (p_log sta) = es ++ [EPollEnd (f_mgr f) r] /\ (length (filter (goes_on t) a) <= n)%nat /\
    (forall a1 b1 st1, a = a1 ++ b1 -> b1 <> [] -> psteps st a1 = Some st1 -> (length k < length (p_stack st1 t))%nat).
Proof.
  induction tr as [|l tr IH]; intros st t f k n st' K M E P N; cbn in N.
  - exfalso. assert (Hm : (1 <= mu f)%nat) by (unfold mu; destruct (f_phase f) as [| | | | |? []]; lia). lia.
  - cbn in E. destruct (pstep st l) as [st1|] eqn:S; [|discriminate E]. cbn in P. apply orb_false_iff in P as [P1 P2]. destruct (stack_step _ _ _ t S) as (H1 & H2 & _). destruct (goes_on t l) eqn:G.
    + destruct (H1 eq_refl) as (f0 & k0 & K0 & Mv). rewrite K in K0. injection K0 as <- <-. destruct Mv as [(f' & K' & Mg & Lt)|(K' & es & r & Own)].
      * destruct n as [|n]; [lia|]. cbn in N. destruct (IH st1 t f' k n st' K' ltac:(lia) E P2 ltac:(lia)) as (a & b & sta & es & r & -> & A & B & C & D & F). exists (l :: a), b, sta, es, r.
        split; [reflexivity|]. split; [cbn; rewrite S; exact A|]. split; [exact B|]. split; [rewrite <- Mg; exact C|]. split; [cbn; rewrite G; cbn; lia|]. intros [|l1 a1] b1 st2 Ea Nb X; [injection X as <-; rewrite K; cbn; lia|]; cbn in Ea; injection Ea as <- Ea; cbn in X; rewrite S in X; eapply F; eassumption.
      * exists [l], tr, st1, (own t (p_log st) ++ es), r. split; [reflexivity|]. split; [cbn; rewrite S; reflexivity|]. split; [exact K'|]. split; [rewrite Own, app_assoc; reflexivity|]. split; [cbn; rewrite G; cbn; unfold mu in M; destruct (f_phase f) as [| | | | |? []]; lia|].
        intros [|l1 a1] b1 st2 Ea Nb X; [injection X as <-; rewrite K; cbn; lia|]. exfalso. apply Nb. cbn in Ea. injection Ea as _ Ea. destruct a1; [symmetry; exact Ea|discriminate Ea].
    + specialize (H2 eq_refl P1). rewrite K in H2. destruct (IH st1 t f k n st' H2 M E P2 N) as (a & b & sta & es & r & -> & A & B & C & D & F). exists (l :: a), b, sta, es, r.
      split; [reflexivity|]. split; [cbn; rewrite S; exact A|]. split; [exact B|]. split; [exact C|]. split; [cbn; rewrite G; exact D|]. intros [|l1 a1] b1 st2 Ea Nb X; [injection X as <-; rewrite K; cbn; lia|]; cbn in Ea; injection Ea as <- Ea; cbn in X; rewrite S in X; eapply F; eassumption.
Qed.
Lemma poll_bounded st t p tr st' : psteps st (PPoll t p :: tr) = Some st' -> existsb (polls t) tr = false -> (2 + 6 * length (p_map st) <= length (filter (goes_on t) tr))%nat ->
  exists a b sta r, tr = a ++ b /\ whole_poll st t p a sta r /\ (length (filter (goes_on t) a) <= 2 + 6 * length (p_map st))%nat.
Proof.
  intros E P N. cbn [psteps] in *. destruct (pstep st (PPoll t p)) as [st1|] eqn:S; [|discriminate E]. destruct (stack_step _ _ _ t S) as (_ & _ & H). destruct (H (Nat.eqb_refl t)) as (p' & Ep & K). injection Ep as <-.
  destruct (poll_bounded_from tr st1 t _ _ (2 + 6 * length (p_map st)) st' K) as (a & b & sta & es & r & -> & A & B & C & D & F); [cbn; rewrite map_length; lia|exact E|exact P|exact N|].
  exists a, b, sta, r. split; [reflexivity|]. split; [|exact D]. split; [cbn [psteps]; rewrite S; exact A|]. split; [exact B|]. split; [|exists es; exact C].
  intros a1 b1 sta1 Ea Nb X. cbn [psteps] in X. rewrite S in X. eapply F; eassumption.
Qed.
Lemma map_listeners st : shape st -> (length (p_map st) <= length (listeners st))%nat.
Proof.
  intros Sh. rewrite <- (map_length snd (p_map st)). apply NoDup_incl_length.
  - assert (N : NoDup (p_map st)) by (eapply NoDup_map_inv; apply (sh_nodup _ Sh)). assert (U : forall fd fd' o, In (fd, o) (p_map st) -> In (fd', o) (p_map st) -> fd = fd').
    { intros fd fd' o J J'. apply (sh_map _ Sh) in J as (m & M & G). apply (sh_map _ Sh) in J' as (m' & M' & G'). congruence. }
    induction (p_map st) as [|[fd o] l IH]; [constructor|]. inversion N as [|? ? Nx Nl]; subst. cbn. constructor; [|apply IH; [exact Nl|intros f1 f2 o1 J1 J2; eapply U; right; eassumption]].
    intros J. apply in_map_iff in J as ([fd' o'] & Eo & J). cbn in Eo. subst o'. assert (fd = fd') as -> by (eapply U; [left; reflexivity|right; exact J]). contradiction.
  - intros o J. apply in_map_iff in J as ([fd o'] & Eo & J). cbn in Eo. subst o'. apply (sh_map _ Sh) in J as (m & M & G). unfold listeners. apply filter_In. split; [apply in_seq; split; [lia|]; cbn; apply nth_error_Some; congruence|]. rewrite M, G. reflexivity.
Qed.

(** ** What a poll() serves *)
Lemma log_grows st l st' : pstep st l = Some st' -> exists es, p_log st' = p_log st ++ es.
Proof.
  intros E. assert (G : forall st1 t k es, p_log st1 = p_log st -> exists es', p_log (goes st1 t k es) = p_log st ++ es') by (intros st1 t k es H; cbn [goes p_log]; rewrite H; eauto).
  assert (F : forall t p rest k o e es, exists es', p_log (read_fails st t p rest k o e es) = p_log st ++ es') by (intros; unfold read_fails; destruct e; apply G; reflexivity).
  destruct l as [u fd|u o r|u p|u|u|u e|s x]; cbn [pstep] in E.
  - destruct (free (p_stack st u)); [|discriminate E]. destruct (open_at st fd); [discriminate E|]. injection E as <-. apply G. reflexivity.
  - destruct (free (p_stack st u)); [|discriminate E]. destruct (nth_error (p_mans st) o) as [m|]; [|discriminate E]. injection E as <-. unfold pclose. destruct (nth_error (p_socks st) (g_sock m)) as [k|]; [destruct (k_open k)|]; apply G; reflexivity.
  - destruct (free (p_stack st u)); [|discriminate E]. destruct (nth_error (p_mans st) p) as [m|]; [|discriminate E]. injection E as <-. apply G. reflexivity.
  - unfold pgo in E. destruct (p_stack st u) as [|[p rest ph] k] eqn:K; [discriminate E|].
    destruct ph as [fds| |o s|o s|o s x|o b]; [destruct (forallb _ fds)|destruct rest; [|destruct (map_get (p_map st) z) as [o|]; [destruct (nth_error (p_mans st) o); [|discriminate E]|]]|destruct (nth_error (p_socks st) s) as [ks|]; [|discriminate E]; destruct (k_open ks); [destruct (k_queue ks)|]|destruct (nth_error (p_socks st) s) as [ks|]; [|discriminate E]; destruct (k_queue ks); [discriminate E|]|destruct x as [[d src]|e]|discriminate E];
      injection E as <-; first [apply G; reflexivity|apply F].
  - destruct (p_stack st u) as [|[p rest [| | | | |o b]] k] eqn:K; try discriminate E. injection E as <-. apply G. reflexivity.
  - destruct (p_stack st u) as [|[p rest [| | | | |o b]] k] eqn:K; try discriminate E. injection E as <-. destruct b; [apply G; reflexivity|apply F].
  - destruct (nth_error (p_socks st) s) as [ks|]; [|discriminate E]. destruct (k_open ks); [|discriminate E]. injection E as <-. cbn. eauto.
Qed.
(** One step: the first datagram in the kernel is read, or still first there. *)
Lemma first_step st l st' o x q : conserved st -> pstep st l = Some st' -> in_kernel st o = x :: q ->
  (exists l', received (all_events (p_log st')) o = received (all_events (p_log st)) o ++ x :: l') \/
  (received (all_events (p_log st')) o = received (all_events (p_log st)) o /\ exists q', in_kernel st' o = x :: q').
Proof.
  intros C E Q. pose proof (conserved_step _ _ _ C E) as C'. destruct (log_grows _ _ _ E) as [es L]. specialize (C o). specialize (C' o). rewrite L, all_app, arrivals_app, received_app, C, Q in C'. rewrite <- !app_assoc in C'. apply app_inv_head in C'.
  rewrite L, all_app, received_app. destruct (received (all_events es) o) as [|y l']; [right; rewrite app_nil_r; split; [reflexivity|]; cbn in C'; eauto|]. cbn in C'. injection C' as -> _. left. eauto.
Qed.
(** Descriptors change hands only by closing. *)
Lemma stays_registered st l st' o m fd : shape st -> pstep st l = Some st' -> nth_error (p_mans st) o = Some m -> g_fileno m = Some fd -> (forall t r, l <> PClose t o r) -> exists m', nth_error (p_mans st') o = Some m' /\ g_fileno m' = Some fd.
Proof.
  intros Sh E M Fd Nc. assert (Same : p_mans st' = p_mans st -> exists m', nth_error (p_mans st') o = Some m' /\ g_fileno m' = Some fd) by (intros ->; eauto).
  destruct l as [u fd'|u o' r|u p|u|u|u e|s x]; cbn [pstep] in E.
  - destruct (free (p_stack st u)); [|discriminate E]. destruct (open_at st fd'); [discriminate E|]. injection E as <-. exists m. split; [|exact Fd]. cbn. rewrite nth_error_app1; [exact M|]. apply nth_error_Some. congruence.
  - destruct (free (p_stack st u)); [|discriminate E]. destruct (nth_error (p_mans st) o') as [m'|] eqn:M'; [|discriminate E]. injection E as <-. assert (No : o' <> o) by (intros ->; exact (Nc u r eq_refl)).
    exists m. split; [|exact Fd]. unfold pclose. destruct (nth_error (p_socks st) (g_sock m')) as [k|]; [destruct (k_open k)|]; cbn [goes p_mans set_sock]; rewrite nth_upd; destruct (Nat.eqb_spec o' o); congruence.
  - destruct (free (p_stack st u)); [|discriminate E]. destruct (nth_error (p_mans st) p) as [m0|]; [|discriminate E]. injection E as <-. apply Same. reflexivity.
  - apply Same. unfold pgo in E. destruct (p_stack st u) as [|[p rest ph] k] eqn:K; [discriminate E|]. unfold read_fails in E.
    destruct ph as [fds| |o1 s|o1 s|o1 s x|o1 b]; [destruct (forallb _ fds)|destruct rest; [|destruct (map_get (p_map st) z) as [o1|]; [destruct (nth_error (p_mans st) o1); [|discriminate E]|]]|destruct (nth_error (p_socks st) s) as [ks|]; [|discriminate E]; destruct (k_open ks); [destruct (k_queue ks)|]|destruct (nth_error (p_socks st) s) as [ks|]; [|discriminate E]; destruct (k_queue ks); [discriminate E|]|destruct x as [[d src]|[]]|discriminate E];
      injection E as <-; reflexivity.
  - destruct (p_stack st u) as [|[p rest [| | | | |o1 b]] k] eqn:K; try discriminate E. injection E as <-. apply Same. reflexivity.
  - destruct (p_stack st u) as [|[p rest [| | | | |o1 b]] k] eqn:K; try discriminate E. injection E as <-. apply Same. destruct b; [reflexivity|]. unfold read_fails. destruct e; reflexivity.
  - destruct (nth_error (p_socks st) s) as [ks|]; [|discriminate E]. destruct (k_open ks); [|discriminate E]. injection E as <-. apply Same. reflexivity.
Qed.
(** A frame that has descriptor [fd] of manager [o] before it. *)
Definition ahead (fd : Z) (o : nat) (f : pframe) : Prop :=
  match f_phase f with Select fds => In fd fds | Recv o' _ | Wait o' _ => In fd (f_rest f) \/ o' = o | _ => In fd (f_rest f) end.
(** The topmost poll(): still ahead of it, or read, or the poll fails. *)
Lemma top_ahead st l st' t f k o m fd x q : shape st -> pstep st l = Some st' -> goes_on t l = true -> p_stack st t = f :: k -> nth_error (p_mans st) o = Some m -> g_fileno m = Some fd -> in_kernel st o = x :: q -> ahead fd o f ->
  (exists f', p_stack st' t = f' :: k /\ ahead fd o f') \/ (exists l', received (all_events (p_log st')) o = received (all_events (p_log st)) o ++ x :: l') \/
  (p_stack st' t = k /\ exists es e, own t (p_log st') = own t (p_log st) ++ es ++ [EPollEnd (f_mgr f) (Err e)]).
Proof.
  intros Sh E G K M Fd Q A.
  assert (Go : forall st1 f' es, ahead fd o f' -> exists f'', p_stack (goes st1 t (f' :: k) es) t = f'' :: k /\ ahead fd o f'') by (intros st1 f' es H; exists f'; rewrite goes_stack, Nat.eqb_refl; auto).
  assert (En : forall es e, p_stack (goes st t k (es ++ [EPollEnd (f_mgr f) (Err e)])) t = k /\ exists es' e', own t (p_log (goes st t k (es ++ [EPollEnd (f_mgr f) (Err e)]))) = own t (p_log st) ++ es' ++ [EPollEnd (f_mgr f) (Err e')])
    by (intros es e; rewrite goes_stack, own_goes, Nat.eqb_refl; eauto).
  assert (Fa : forall o' e es, In fd (f_rest f) -> (exists f', p_stack (read_fails st t (f_mgr f) (f_rest f) k o' e es) t = f' :: k /\ ahead fd o f') \/ (p_stack (read_fails st t (f_mgr f) (f_rest f) k o' e es) t = k /\ exists es' e', own t (p_log (read_fails st t (f_mgr f) (f_rest f) k o' e es)) = own t (p_log st) ++ es' ++ [EPollEnd (f_mgr f) (Err e')])).
  { intros o' e es H. unfold read_fails. destruct e; try (right; apply En). left. apply Go. exact H. }
  assert (Rd : forall s ks y q' k' , nth_error (p_socks st) s = Some ks -> k_queue ks = y :: q' -> s = o -> exists l', received (all_events (p_log (goes (set_sock st s (mkK (k_fd ks) (k_open ks) q')) t k' [ERecv s y]))) o = received (all_events (p_log st)) o ++ x :: l').
  { intros s ks y q' k' N Hq ->. cbn [goes set_sock p_log]. rewrite all_app, all_mine, received_app. cbn. rewrite Nat.eqb_refl. cbn. unfold in_kernel in Q. rewrite N, Hq in Q. injection Q as -> _. eauto. }
  destruct f as [p rest ph]. destruct l as [u fd'|u o' r|u p'|u|u|u e|s x']; cbn [goes_on] in G; try discriminate G; apply Nat.eqb_eq in G as ->; cbn [pstep] in E.
  - pose proof (sh_points _ Sh t (mkF p rest ph)) as Pt. unfold pgo in E. rewrite K in *. specialize (Pt (or_introl eq_refl)). destruct ph as [fds| |o1 s|o1 s|o1 s y|o1 b]; cbn [ahead f_phase f_rest f_mgr points] in *.
    + destruct (forallb _ fds); injection E as <-; [left; apply Go; cbn|right; right; apply (En [] OSError)]. apply filter_In. split; [exact A|].
      destruct (sh_open _ Sh _ _ _ M Fd) as (ks & N & O & <-). unfold has_data. rewrite (open_at_is _ _ _ Sh N O). unfold in_kernel in Q. rewrite N in Q. rewrite Q. reflexivity.
    + destruct rest as [|fd1 rest]; [contradiction|]. destruct (map_get (p_map st) fd1) as [o1|] eqn:Mg.
      * destruct (nth_error (p_mans st) o1) as [m1|]; [|discriminate E]. injection E as <-. left. apply Go. cbn. destruct A as [->|A]; [right|left; exact A].
        apply map_get_in in Mg; [|apply (sh_nodup _ Sh)]. assert (J : In (fd, o) (p_map st)) by (apply (sh_map _ Sh); eauto). apply map_get_in in J; [|apply (sh_nodup _ Sh)]. apply map_get_in in Mg; [|apply (sh_nodup _ Sh)]. congruence.
      * injection E as <-. left. apply Go. cbn. destruct A as [->|A]; [|exact A]. exfalso. assert (J : In (fd, o) (p_map st)) by (apply (sh_map _ Sh); eauto). apply map_get_in in J; [|apply (sh_nodup _ Sh)]. congruence.
    + destruct Pt as [_ ->]. destruct (nth_error (p_socks st) o1) as [ks|] eqn:N; [|discriminate E]. destruct (k_open ks) eqn:O.
      * destruct (k_queue ks) as [|y q'] eqn:Hq; injection E as <-.
        -- left. apply Go. exact A.
        -- destruct A as [A| ->]; [left; apply Go; exact A|right; left; rewrite <- O; eapply Rd; eauto].
      * injection E as <-. right. right. apply (En [] OSError).
    + destruct Pt as [_ ->]. destruct (nth_error (p_socks st) o1) as [ks|] eqn:N; [|discriminate E]. destruct (k_queue ks) as [|y q'] eqn:Hq; [discriminate E|]. injection E as <-. destruct A as [A| ->]; [left; apply Go; exact A|right; left; eapply Rd; eauto].
    + destruct y as [[d src]|e]; injection E as <-; [left; apply Go; exact A|]. destruct (Fa o1 e [] A) as [H|H]; auto.
    + discriminate E.
  - rewrite K in E. destruct ph as [| | | | |o1 b]; try discriminate E. injection E as <-. left. apply Go. exact A.
  - rewrite K in E. destruct ph as [| | | | |o1 b]; try discriminate E. injection E as <-. destruct b; [right; right; apply (En [ECbEnd o1 (Err e)] e)|]. destruct (Fa o1 e [ECbEnd o1 (Err e)] A) as [H|H]; auto.
Qed.

Lemma serves_from tr : forall st t o m fd x q up f k st', shape st -> conserved st -> p_stack st t = up ++ f :: k -> nth_error (p_mans st) o = Some m -> g_fileno m = Some fd -> in_kernel st o = x :: q -> ahead fd o f ->
  psteps st tr = Some st' -> (forall u r, ~ In (PClose u o r) tr) -> p_stack st' t = k -> (forall a b sta, tr = a ++ b -> b <> [] -> psteps st a = Some sta -> (length k < length (p_stack sta t))%nat) ->
  (exists l', received (all_events (p_log st')) o = received (all_events (p_log st)) o ++ x :: l') \/ exists es e, own t (p_log st') = es ++ [EPollEnd (f_mgr f) (Err e)].
Proof.
  assert (Grow : forall tr st st' o, psteps st tr = Some st' -> exists l', received (all_events (p_log st')) o = received (all_events (p_log st)) o ++ l').
  { clear. induction tr as [|l tr IH]; intros st st' o E; cbn in E; [injection E as <-; exists []; rewrite app_nil_r; reflexivity|]. destruct (pstep st l) as [st1|] eqn:S; [|discriminate E]. destruct (IH _ _ o E) as [l' ->]. destruct (log_grows _ _ _ S) as [es ->]. rewrite all_app, received_app, <- app_assoc. eauto. }
  induction tr as [|l tr IH]; intros st t o m fd x q up f k st' Sh C K M Fd Q A E Nc Kend Dur; cbn in E.
  - injection E as <-. exfalso. rewrite K in Kend. apply (f_equal (@length _)) in Kend. rewrite app_length in Kend. cbn in Kend. lia.
  - destruct (pstep st l) as [st1|] eqn:S; [|discriminate E].
    destruct (first_step _ _ _ _ _ _ C S Q) as [[l' R]|[R [q' Q']]]; [left; destruct (Grow _ _ _ o E) as [l2 ->]; rewrite R, <- app_assoc; cbn; eauto|].
    assert (Nl : forall u r, l <> PClose u o r) by (intros u r ->; apply (Nc u r); left; reflexivity).
    destruct (stays_registered _ _ _ _ _ _ Sh S M Fd Nl) as (m' & M' & Fd').
    pose proof (shape_step _ _ _ Sh S) as Sh1. pose proof (conserved_step _ _ _ C S) as C1.
    assert (Nc' : forall u r, ~ In (PClose u o r) tr) by (intros u r J; apply (Nc u r); right; exact J).
    assert (Dur' : forall a b sta, tr = a ++ b -> b <> [] -> psteps st1 a = Some sta -> (length k < length (p_stack sta t))%nat) by (intros a b sta -> Nb Ea; eapply (Dur (l :: a) b); [reflexivity|exact Nb|cbn; rewrite S; exact Ea]).
    assert (Keep : forall up' f', p_stack st1 t = up' ++ f' :: k -> f_mgr f' = f_mgr f -> ahead fd o f' -> (exists l', received (all_events (p_log st')) o = received (all_events (p_log st)) o ++ x :: l') \/ exists es e, own t (p_log st') = es ++ [EPollEnd (f_mgr f) (Err e)]).
    { intros up' f' K' Mg A'. rewrite <- Mg, <- R. eapply (IH st1 t o m' fd x q' up' f' k st'); eauto. }
    destruct (stack_step _ _ _ t S) as (H1 & H2 & H3). destruct (goes_on t l) eqn:G.
    + destruct (H1 eq_refl) as (f0 & k0 & K0 & Mv). rewrite K in K0. destruct up as [|f1 up].
      * cbn in K0. injection K0 as <- <-. cbn in K.
        destruct (top_ahead _ _ _ _ _ _ _ _ _ _ _ Sh S G K M Fd Q A) as [(f' & K' & A')|[[l' R']|(K' & es & e & Own)]].
        -- destruct Mv as [(f2 & K2 & Mg & _)|(K2 & _)]; [|exfalso; rewrite K2 in K'; apply (f_equal (@length _)) in K'; cbn in K'; lia]. rewrite K' in K2. injection K2 as <-. apply (Keep [] f'); assumption.
        -- exfalso. rewrite R in R'. rewrite <- (app_nil_r (received _ o)) in R' at 1. apply app_inv_head in R'. discriminate R'.
        -- right. destruct tr as [|l2 tr]; [injection E as <-; rewrite Own, app_assoc; eauto|]. exfalso. specialize (Dur' [] (l2 :: tr) st1 eq_refl ltac:(discriminate) eq_refl). rewrite K' in Dur'. lia.
      * cbn in K0. injection K0 as <- <-. destruct Mv as [(f' & K' & _)|(K' & _)]; [apply (Keep (f' :: up) f K' eq_refl A)|apply (Keep up f K' eq_refl A)].
    + destruct (polls t l) eqn:Pl.
      * destruct (H3 eq_refl) as (p & _ & K'). rewrite K in K'. apply (Keep (_ :: up) f K' eq_refl A).
      * specialize (H2 eq_refl eq_refl). rewrite K in H2. apply (Keep up f H2 eq_refl A).
Qed.
Lemma poll_serves tr0 st t p o x q tr st' : pexec tr0 = Some st -> listening st o -> in_kernel st o = x :: q -> whole_poll st t p tr st' (Ok tt) -> (forall u r, ~ In (PClose u o r) tr) ->
  exists l, received (all_events (p_log st')) o = received (all_events (p_log st)) o ++ x :: l.
Proof.
  intros X (m & fd & M & Fd) Q (E & Kend & Dur & l0 & Own) Nc. cbn [psteps] in E. destruct (pstep st (PPoll t p)) as [st1|] eqn:S; [|discriminate E].
  pose proof (pexec_shape _ _ X) as Sh. pose proof (pexec_conserved _ _ X) as C.
  destruct (stack_step _ _ _ t S) as (_ & _ & H). destruct (H (Nat.eqb_refl t)) as (p' & Ep & K). injection Ep as <-.
  destruct (first_step _ _ _ _ _ _ C S Q) as [[l' R]|[R [q' Q']]].
  { exfalso. cbn [pstep] in S. destruct (free (p_stack st t)); [|discriminate S]. destruct (nth_error (p_mans st) p); [|discriminate S]. injection S as <-. cbn [goes p_log] in R. rewrite all_app, received_app in R. cbn in R. apply app_inv_head in R. discriminate R. }
  destruct (stays_registered _ _ _ _ _ _ Sh S M Fd ltac:(discriminate)) as (m' & M' & Fd').
  assert (J : In fd (map fst (p_map st))) by (apply (in_map fst) with (x := (fd, o)); apply (sh_map _ Sh); eauto).
  destruct (serves_from tr st1 t o m' fd x q' [] _ (p_stack st t) st' (shape_step _ _ _ Sh S) (conserved_step _ _ _ C S) K M' Fd' Q' J E Nc Kend) as [[l' R']|(es & e & Own')].
  - intros a b sta -> Nb Ea. eapply (Dur a b); [reflexivity|exact Nb|]. cbn [psteps]. rewrite S. exact Ea.
  - exists l'. rewrite R', R. reflexivity.
  - exfalso. rewrite Own in Own'. apply app_inj_tail in Own' as [_ Own']. discriminate Own'.
Qed.
