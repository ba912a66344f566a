(** * Several managers in one process: each of them lives as if alone. *)
From Coq Require Import ZArith List Bool Lia.
From Verif Require Import PyBase Classes Values Codec Manager Role Asyn Process SpecAsyn SpecProcess ProofsAsyn ProofsAsynLog ProofsHistory.
Import ListNotations.
Open Scope Z_scope.

(** ** Lists *)
Lemma history_app o a b : history o (a ++ b) = history o a ++ history o b.
Proof. apply flat_map_app. Qed.
Lemma history_own o es : history o (map (WM o) es) = filter lasting es.
Proof. induction es as [|e es IH]; [reflexivity|]. cbn. rewrite Nat.eqb_refl. cbn. destruct (lasting e); cbn; rewrite <- IH; reflexivity. Qed.
Lemma history_other o p es : p <> o -> history o (map (WM p) es) = [].
Proof. intros N. induction es as [|e es IH]; [reflexivity|]. cbn. apply Nat.eqb_neq in N. rewrite N. exact IH. Qed.
Lemma history_wa o es : history o (map WA es) = [].
Proof. induction es; [reflexivity|assumption]. Qed.
Lemma traffic_app a b : traffic (a ++ b) = traffic a ++ traffic b.
Proof. apply flat_map_app. Qed.
Lemma traffic_wa es : traffic (map WA es) = es.
Proof. induction es as [|e es IH]; [reflexivity|]. cbn. f_equal. exact IH. Qed.
Lemma traffic_wm o es : traffic (map (WM o) es) = [].
Proof. induction es; [reflexivity|assumption]. Qed.

(** ** The stack of one manager *)
Definition proj1_frame (o : nat) (f : wframe) : list frame :=
  match f with
  | WResp p id => if Nat.eqb p o then [FResp id; FRead] else []
  | WTrap p => if Nat.eqb p o then [FTrap; FRead] else []
  | WEmpty p => if Nat.eqb p o then [FEmpty; FRun Polling] else []
  | WRun p Sending => if Nat.eqb p o then [FRun Sending] else []
  | _ => []
  end.
Definition projs (o : nat) (k : list wframe) : list frame := flat_map (proj1_frame o) k.
Fixpoint lower (k : list wframe) : Prop :=
  match k with
  | [] => True
  | WResp _ _ :: k | WTrap _ :: k | WRun _ Polling :: k => lower k
  | WEmpty o :: k => (exists k', k = WRun o Polling :: k') /\ lower k
  | _ => False
  end.
Definition shaped (k : list wframe) : Prop :=
  match k with
  | (WRun _ Sending | WGot _ _ _ | WExc _ _ | WPolled _ _ | WWait) :: k => lower k
  | _ => lower k
  end.
Lemma user_projs o k : lower k -> Manager.user_runs (projs o k) = true.
Proof.
  induction k as [|f k IH]; [reflexivity|]. intros L. unfold projs. cbn [flat_map]. fold (projs o k).
  destruct f as [p id|p|p|p [|]|p d src|p e|p r|]; cbn in L; try contradiction; cbn [proj1_frame].
  - destruct (Nat.eqb p o); [reflexivity|auto].
  - destruct (Nat.eqb p o); [reflexivity|auto].
  - destruct (Nat.eqb p o); [reflexivity|]. apply IH. apply L.
  - apply IH. exact L.
Qed.
Lemma user_lower k : shaped k -> user_code k = true -> lower k.
Proof. destruct k as [|f k]; [trivial|]. destruct f; cbn; try discriminate; auto. Qed.

(** ** Emulation *)
Definition sim (o : nat) (wl : list wevent) (sys : system) (m : mgr) (stk : list frame) (h : list Manager.event) : Prop :=
  trans sys = Text /\ exists tr st, exec sys tr = Some st /\ man st = m /\ stack st = stk /\ filter lasting (log st) = h /\ seen_by o wl sys tr.
Lemma happened_more o wl es h l : happened o wl h l -> happened o (wl ++ es) h l.
Proof.
  destruct l as [a|d x s|[|d x s|e]| | | |]; cbn; try tauto.
  - intros [r I]. exists r. apply in_or_app. auto.
  - intros (a & b & -> & H). exists a, (b ++ es). split; [rewrite <- app_assoc; reflexivity|exact H].
Qed.
Lemma sim_more o wl es sys m stk h : sim o wl sys m stk h -> sim o (wl ++ es) sys m stk h.
Proof.
  intros (T & tr & st & E & M & S & L & F). split; [exact T|]. exists tr, st. repeat split; try assumption.
  intros tr1 l tr2 st1 -> E1. apply happened_more. exact (F tr1 l tr2 st1 eq_refl E1).
Qed.
Lemma sim_new o wl sys : trans sys = Text -> sim o wl sys mgr0 [] [].
Proof. intros T. split; [exact T|]. exists [], init. repeat split. intros tr1 l tr2 st1 E. destruct tr1; discriminate. Qed.
Lemma sim_step o wl sys m stk h l m' stk' h' : sim o wl sys m stk h -> happened o wl h l ->
  (forall lg, exists new, step sys (mkState m stk lg) l = Some (mkState m' stk' (lg ++ new)) /\ filter lasting new = h') ->
  sim o wl sys m' stk' (h ++ h').
Proof.
  intros (T & tr & [m0 k0 lg] & E & M & S & L & F) A H. cbn in M, S, L. subst m0 k0. destruct (H lg) as (new & St & N). split; [exact T|].
  exists (tr ++ [l]), (mkState m' stk' (lg ++ new)). split; [|split; [reflexivity|split; [reflexivity|split; [cbn; rewrite filter_app, L, N; reflexivity|]]]].
  - unfold exec in *. rewrite ProofsHistory.steps_app, E. cbn [steps]. rewrite St. reflexivity.
  - intros tr1 l1 tr2 st1 X E1. destruct tr2 as [|y tr2 _] using rev_ind.
    + apply app_inj_tail in X as [<- <-]. rewrite E in E1. injection E1 as <-. cbn. rewrite L. exact A.
    + rewrite app_comm_cons, app_assoc in X. apply app_inj_tail in X as [X _]. exact (F tr1 l1 tr2 st1 X E1).
Qed.
(** The same, when the events of the step do not last. *)
Lemma sim_silent o wl sys m stk h l m' stk' : sim o wl sys m stk h -> happened o wl h l ->
  (forall lg, exists new, step sys (mkState m stk lg) l = Some (mkState m' stk' (lg ++ new)) /\ filter lasting new = []) ->
  sim o wl sys m' stk' h.
Proof. intros A B C. rewrite <- (app_nil_r h). eapply sim_step; eassumption. Qed.

(** Leaving run(). *)
Lemma sim_leave o wl sys m rest h : sim o wl sys m (FRun Polling :: rest) h -> sim o wl sys m rest h.
Proof.
  intros S. eapply (sim_silent _ _ _ _ _ _ (LPoll (SocketError OSError))); [exact S|exact Logic.I|].
  intros lg. exists [EResult (Err OSError)]. cbn. unfold run_raises. destruct (flav sys); auto.
Qed.
(** Coming to the point where it takes a message. *)
Lemma sim_enter o wl sys m rest h : Manager.user_runs rest = true -> sim o wl sys m rest h -> sim o wl sys m (FRun Sending :: rest) h.
Proof.
  intros U S. destruct (flav sys) eqn:Fl.
  1,2: eapply (sim_silent _ _ _ _ _ _ LRun); [exact S|exact Logic.I|]; intros lg; exists []; cbn; rewrite U, Fl, app_nil_r; auto.
  eapply (sim_silent _ _ _ _ _ _ (LPoll Nothing)); [eapply (sim_silent _ _ _ _ _ _ LRun); [exact S|exact Logic.I|]|exact Logic.I|].
  - intros lg; exists []; cbn; rewrite U, Fl, app_nil_r; auto.
  - intros lg; exists []; cbn; rewrite app_nil_r; auto.
Qed.
(** ... and to the one where it polls: for snmpManager the first. *)
Lemma sim_loop o wl sys m rest h : Manager.user_runs rest = true -> sim o wl sys m rest h ->
  sim o wl sys m (match loop_start (flav sys) with Sending => [FRun Sending] | Polling => [] end ++ rest) h.
Proof. intros U S. unfold loop_start. destruct (flav sys); cbn; auto using sim_enter. Qed.
(** The handler of queue.Empty. *)
Definition after_empty (sys : system) (rest : list frame) : list frame :=
  match queueEmpty sys with Some (Cb n) => FEmpty :: FRun Polling :: rest | _ => rest end.
Definition empty_events (sys : system) : list Manager.event := match queueEmpty sys with Some (Cb n) => [EInvokeEmpty n] | _ => [] end.
Lemma sim_empty o wl sys m stk h l m' rest h' : sim o wl sys m stk h -> happened o wl h l ->
  (forall lg, exists new, step sys (mkState m stk lg) l = Some (loop_empty sys m' rest (lg ++ new)) /\ filter lasting new = h') ->
  sim o wl sys m' (after_empty sys rest) (h ++ h' ++ empty_events sys).
Proof.
  intros S A H. unfold loop_empty, run_raises in H. unfold after_empty, empty_events. destruct (queueEmpty sys) as [[|n]|].
  - rewrite app_nil_r. eapply sim_step; [exact S|exact A|]. intros lg. destruct (H lg) as (new & E & N). exists (new ++ [EResult (Err TypeError)]).
    rewrite filter_app, N, app_assoc. cbn. rewrite app_nil_r. auto.
  - eapply sim_step; [exact S|exact A|]. intros lg. destruct (H lg) as (new & E & N). exists (new ++ [EInvokeEmpty n]).
    rewrite filter_app, N, app_assoc. cbn. auto.
  - rewrite app_nil_r. apply sim_leave. eapply sim_step; [exact S|exact A|]. intros lg. destruct (H lg) as (new & E & N). exists new. auto.
Qed.

(** ** The logs of asyncore *)
Lemma astep_log st l st' : astep st l = Some st' -> exists es, alog st' = alog st ++ es.
Proof.
  intros S. destruct (astep_events _ _ _ S) as [(es & L & _)|[(st1 & (es & L1 & _) & L & _)|(st1 & s & q & dst & o & m & (es & L1 & _) & L & _)]].
  - eauto.
  - rewrite L1, <- app_assoc in L. eauto.
  - rewrite L1, <- app_assoc in L. eauto.
Qed.
Lemma fresh_log A l A' : astep A l = Some A' -> map WA (alog A') = map WA (alog A) ++ fresh A A'.
Proof.
  intros S. destruct (astep_log _ _ _ S) as [es E]. unfold fresh. rewrite E, skipn_app, skipn_all, Nat.sub_diag. cbn. rewrite map_app. reflexivity.
Qed.
Lemma fresh_eq A A' es : alog A' = alog A ++ es -> fresh A A' = map WA es.
Proof. intros E. unfold fresh. rewrite E, skipn_app, skipn_all, Nat.sub_diag. reflexivity. Qed.
Lemma history_fresh o A A' : history o (fresh A A') = [].
Proof. apply history_wa. Qed.
(** Steps of poll() and of callbacks ending say something. *)
Definition talks (l : alabel) : Prop := match l with APoll _ | AReturn | ARaise _ | AArrive _ _ => True | _ => False end.
Lemma ext_log st st' : ext st st' -> exists es, alog st' = alog st ++ es.
Proof. intros (es & L & _). eauto. Qed.
Lemma after_say st e st' : ext (say st e) st' -> exists es, alog st' = alog st ++ es /\ es <> [].
Proof. intros X. destruct (ext_log _ _ X) as [es L]. cbn in L. rewrite <- app_assoc in L. eexists. split; [exact L|discriminate]. Qed.
Lemma talks_log st l st' : talks l -> astep st l = Some st' -> exists es, alog st' = alog st ++ es /\ es <> [].
Proof.
  destruct l as [| |p| | | |e|s x]; try contradiction; intros _ S; cbn [astep] in S.
  - unfold with_obj in S. destruct (auser (astack st)); [|discriminate S]. destruct (obj st p); [|discriminate S]. injection S as <-. unfold apoll.
    destruct (forallb _ _); apply (after_say st (EPoll p)).
    + apply ext_serve.
    + apply (ext_one _ (EPollEnd p (Err OSError))); [reflexivity|exact Logic.I].
  - destruct (astack st) as [|[| |] [|[| |] k]]; try discriminate S. injection S as <-. eapply after_say. apply ext_serve.
  - destruct (astack st) as [|[| |] [|[| |] k]]; try discriminate S. injection S as <-. eapply after_say.
    destruct in_handle_error; [|apply ext_read_error]. eapply ext_one; [reflexivity|exact Logic.I].
  - destruct (nth_error (socks st) s) as [ks|]; [|discriminate S]. destruct (k_open ks); [|discriminate S].
    assert (Q : exists es, alog (set_queue (say st (EArrive s x)) s (k_queue ks ++ [x])) = alog st ++ es /\ es <> []) by (eapply after_say; apply ext_queue).
    destruct (astack st) as [|[| |o s'] [|[| |] k]]; try (injection S as <-; exact Q).
    destruct (Nat.eqb s s'); injection S as <-; [|exact Q]. eapply after_say. apply ext_got.
Qed.
Lemma reached_got A l A' o d src wl : talks l -> astep A l = Some A' -> reached A' = WGot o d src ->
  exists wl1 wl2, wl ++ fresh A A' = wl1 ++ WA (ECb o (Data d src)) :: wl2 /\ forall p, history p wl1 = history p (wl ++ fresh A A').
Proof.
  intros T S R. destruct (talks_log _ _ _ T S) as (es & L & N). rewrite (fresh_eq _ _ _ L).
  destruct es as [|e es _] using rev_ind; [contradiction|]. unfold reached in R. rewrite L, app_assoc, rev_app_distr in R. cbn in R.
  destruct e as [| | | | | |y [x s|x]| | |q r|]; try discriminate R. injection R as -> -> ->.
  exists (wl ++ map WA es), []. rewrite map_app, app_assoc. split; [reflexivity|]. intros p. rewrite !history_app, history_wa. cbn. rewrite !app_nil_r. reflexivity.
Qed.

(** ** The invariant *)
Definition lives (w : world) (o : nat) : Prop :=
  match man_of w o with
  | Some (sys, m) => sim o (wlog w) sys m (projs o (ctl w)) (history o (wlog w))
  | None => projs o (ctl w) = [] /\ history o (wlog w) = []
  end.
Definition called (w : world) : Prop :=
  match ctl w with
  | WGot o d src :: _ => exists wl1 wl2, wlog w = wl1 ++ WA (ECb o (Data d src)) :: wl2 /\ forall p, history p wl1 = history p (wlog w)
  | _ => True
  end.
Record winv (w : world) : Prop := {
  w_lives : forall o, lives w o;
  w_shape : shaped (ctl w);
  w_called : called w;
  w_asyn : exists atr, aexec atr = Some (asyn w);
  w_traffic : traffic (wlog w) = alog (asyn w) }.
(** The part that does not look at the top of the stack. *)
Record wbase (w : world) : Prop := {
  b_lives : forall o, lives w o;
  b_lower : lower (ctl w);
  b_asyn : exists atr, aexec atr = Some (asyn w);
  b_traffic : traffic (wlog w) = alog (asyn w) }.
Lemma lower_shaped k : lower k -> shaped k.
Proof. destruct k as [|[| | |? [|]| | | |] k]; cbn; tauto. Qed.
Lemma lower_called w : lower (ctl w) -> called w.
Proof. unfold called. destruct (ctl w) as [|[| | |? [|]| | | |] k]; cbn; tauto. Qed.
Lemma base_inv w : wbase w -> winv w.
Proof. intros [A B C D]. constructor; auto using lower_shaped, lower_called. Qed.
Lemma inv_base w : winv w -> user_code (ctl w) = true -> wbase w.
Proof. intros [A B C D E] U. constructor; auto using user_lower. Qed.
Lemma asyn_step w l A : (exists atr, aexec atr = Some (asyn w)) -> astep (asyn w) l = Some A -> exists atr, aexec atr = Some A.
Proof. intros [atr E] S. exists (atr ++ [l]). unfold aexec in *. rewrite asteps_app, E. cbn [asteps]. rewrite S. reflexivity. Qed.
Lemma traffic_step w l A : traffic (wlog w) = alog (asyn w) -> astep (asyn w) l = Some A -> traffic (wlog w ++ fresh (asyn w) A) = alog A.
Proof. intros T S. destruct (astep_log _ _ _ S) as [es E]. rewrite traffic_app, T, (fresh_eq _ _ _ E), traffic_wa. symmetry. exact E. Qed.
Lemma lives_log w A o es k : lives w o -> projs o k = projs o (ctl w) -> history o es = [] -> lives (mkWorld A (mans w) k (wlog w ++ es)) o.
Proof.
  unfold lives, man_of. cbn [ctl wlog mans]. intros L P H. rewrite P, history_app, H, app_nil_r. destruct (nth_error (mans w) o) as [[[sys m]|]|]; try exact L.
  apply sim_more. exact L.
Qed.
Lemma aside_base w l w' : wbase w -> aside w l = Some w' -> wbase w' /\ ctl w' = ctl w /\ mans w' = mans w.
Proof.
  intros [A B C D] S. unfold aside in S. destruct (astep (asyn w) l) as [A'|] eqn:E; [|discriminate S]. injection S as <-. split; [|auto].
  constructor; cbn; [|exact B|eapply asyn_step; eauto|eapply traffic_step; eauto]. intros o. apply lives_log; auto using history_fresh.
Qed.
(** asyncore runs on behalf of the stack [ctl w]. *)
Lemma asyncore_inv w l w' : wbase w -> talks l -> asyncore w l (ctl w) = Some w' -> winv w'.
Proof.
  intros [A B C D] T S. unfold asyncore in S. destruct (astep (asyn w) l) as [A'|] eqn:E; [|discriminate S]. injection S as <-.
  assert (R : forall o, projs o (reached A' :: ctl w) = projs o (ctl w)).
  { intros o. unfold reached. destruct (rev (alog A')) as [|[| | | | | |y [x s|x]| | |q r|] ?]; reflexivity. }
  constructor; cbn.
  - intros o. apply lives_log; auto using history_fresh.
  - unfold reached. destruct (rev (alog A')) as [|[| | | | | |y [x s|x]| | |q r|] ?]; exact B.
  - unfold called. cbn. destruct (reached A') eqn:Q; try exact Logic.I. eapply reached_got; eauto.
  - eapply asyn_step; eauto.
  - eapply traffic_step; eauto.
Qed.
Lemma man_upd w o x p l A k : man_of w o <> None -> man_of (mkWorld A (upd (mans w) o (Some x)) k l) p = if Nat.eqb o p then Some x else man_of w p.
Proof.
  unfold man_of. cbn. intros N. rewrite nth_upd. destruct (Nat.eqb o p) eqn:E; [|reflexivity]. destruct (nth_error (mans w) o); [reflexivity|contradiction].
Qed.
Definition others (o : nat) (k k' : list wframe) : Prop := forall p, p <> o -> projs p k' = projs p k.
(** Manager [o] makes a move. *)
Lemma acts_lives w o sys m m' es k : winv w -> man_of w o = Some (sys, m) -> others o (ctl w) k ->
  (forall wl h, sim o wl sys m (projs o (ctl w)) h -> (wl = wlog w ++ map (WM o) es) -> h = history o (wlog w) -> sim o wl sys m' (projs o k) (h ++ filter lasting es)) ->
  forall p, lives (acts w o sys m' es k) p.
Proof.
  intros [A B C D E] M O H p. pose proof (A p) as Lp. unfold acts, lives. rewrite man_upd by congruence. cbn [ctl wlog mans]. rewrite history_app.
  unfold lives in Lp. destruct (Nat.eqb o p) eqn:Q.
  - apply Nat.eqb_eq in Q. subst p. rewrite M in Lp. rewrite history_own. apply H; auto. apply sim_more. exact Lp.
  - apply Nat.eqb_neq in Q. rewrite history_other, app_nil_r by exact Q. rewrite (O p) by congruence.
    destruct (man_of w p) as [[sys' m0]|]; [apply sim_more|]; exact Lp.
Qed.
Lemma acts_inv w o sys m m' es k : winv w -> man_of w o = Some (sys, m) -> lower k -> others o (ctl w) k ->
  (forall wl h, sim o wl sys m (projs o (ctl w)) h -> (wl = wlog w ++ map (WM o) es) -> h = history o (wlog w) -> sim o wl sys m' (projs o k) (h ++ filter lasting es)) ->
  wbase (acts w o sys m' es k).
Proof.
  intros I M L O H. pose proof (acts_lives _ _ _ _ _ _ _ I M O H) as A. destruct I as [_ B C D E].
  constructor; cbn; [exact A|exact L|exact D|rewrite traffic_app, traffic_wm, app_nil_r; exact E].
Qed.
(** ... without a word. *)
Lemma move_inv w o sys m k : winv w -> man_of w o = Some (sys, m) -> lower k -> others o (ctl w) k ->
  (forall wl h, sim o wl sys m (projs o (ctl w)) h -> sim o wl sys m (projs o k) h) ->
  wbase (mkWorld (asyn w) (mans w) k (wlog w)).
Proof.
  intros [A B C D E] M L O H. constructor; cbn; [|exact L|exact D|exact E].
  intros p. pose proof (A p) as Lp. unfold lives, man_of in *. cbn [ctl wlog mans]. destruct (Nat.eqb o p) eqn:Q.
  - apply Nat.eqb_eq in Q. subst p. rewrite M in *. apply H. exact Lp.
  - apply Nat.eqb_neq in Q. rewrite (O p) by congruence. exact Lp.
Qed.
