(** * What each thread does, when several threads poll. *)
From Coq Require Import ZArith List Bool Lia.
From Verif Require Import PyBase Role Asyn SpecAsyn Pollers SpecPollers ProofsAsyn ProofsPollers.
Import ListNotations.
Open Scope Z_scope.

(** ** The story of a thread: it hands over what it has read, at once *)
Definition plain (e : aevent) : Prop := match e with ERecv _ _ | ECb _ (Data _ _) => False | _ => True end.
Inductive story : list aevent -> option (nat * nat * packet) -> Prop :=
| so_nil : story [] None
| so_plain es e : story es None -> plain e -> story (es ++ [e]) None
| so_read es o x : story es None -> story (es ++ [ERecv o x]) (Some (o, o, x))
| so_call es o d src : story es (Some (o, o, Ok (d, src))) -> story (es ++ [ECb o (Data d src)]) None
| so_fail es o e p : story es (Some (o, o, Err e)) -> story (es ++ [match e with ValueError => ECb o (Exc ValueError) | _ => EPollEnd p (Err e) end]) None.
Definition unfinished (k : list pframe) : option (nat * nat * packet) := match k with mkF _ _ (Got o s x) :: _ => Some (o, s, x) | _ => None end.
Definition stories (st : pstate) : Prop := forall t, story (own t (p_log st)) (unfinished (p_stack st t)).

Ltac more Q x := let e := fresh in let q := fresh in destruct x as [[? ?]|e]; [rewrite Q; reflexivity|]; destruct e; try (rewrite Q; reflexivity); destruct Q as [q ->]; exists q; reflexivity.
Lemma story_read es u l1 s x l2 : story es u -> es = l1 ++ ERecv s x :: l2 ->
  (l2 = [] /\ u = Some (s, s, x)) \/ exists l3, match x with Ok (d, src) => l2 = ECb s (Data d src) :: l3 | Err ValueError => l2 = ECb s (Exc ValueError) :: l3 | Err e => exists p, l2 = EPollEnd p (Err e) :: l3 end.
Proof.
  intros S. revert l1 l2. assert (Last : forall (es : list aevent) e l1 a l2, es ++ [e] = l1 ++ a :: l2 -> (l2 = [] /\ a = e /\ l1 = es) \/ exists l3, l2 = l3 ++ [e] /\ es = l1 ++ a :: l3).
  { clear. intros es e l1 a l2 E. destruct (exists_last (l := a :: l2)) as (r & z & Q); [discriminate|]. rewrite Q, app_assoc in E. apply app_inj_tail in E as [E ->]. destruct r as [|b r]; cbn in Q.
    - injection Q as -> ->. left. rewrite app_nil_r in E. auto.
    - injection Q as -> ->. right. exists r. split; [reflexivity|exact E]. }
  induction S as [|es e S IH P|es o y S IH|es o d src S IH|es o e p S IH]; intros l1 l2 E.
  - destruct l1; discriminate E.
  - apply Last in E as [(-> & <- & ->)|(l3 & -> & E)]; [destruct P|]. destruct (IH _ _ E) as [[_ Q]|(l4 & Q)]; [discriminate Q|]. right. exists (l4 ++ [e]).
    more Q x.
  - apply Last in E as [(-> & Q & ->)|(l3 & -> & E)]; [injection Q as -> ->; left; auto|]. destruct (IH _ _ E) as [[_ Q]|(l4 & Q)]; [discriminate Q|]. right. exists (l4 ++ [ERecv o y]).
    more Q x.
  - apply Last in E as [(-> & Q & ->)|(l3 & -> & E)]; [discriminate Q|]. destruct (IH _ _ E) as [[-> Q]|(l4 & Q)].
    + injection Q; intros; subst. right. exists []. reflexivity.
    + right. exists (l4 ++ [ECb o (Data d src)]). more Q x.
  - apply Last in E as [(-> & Q & ->)|(l3 & -> & E)]; [destruct e; discriminate Q|]. destruct (IH _ _ E) as [[-> Q]|(l4 & Q)].
    + injection Q; intros; subst. right. exists []. destruct e; try (exists p); reflexivity.
    + right. eexists (l4 ++ [_]). more Q x.
Qed.
Lemma story_called es u l1 o d src l2 : story es u -> es = l1 ++ ECb o (Data d src) :: l2 -> exists l0, l1 = l0 ++ [ERecv o (Ok (d, src))].
Proof.
  intros S. revert l1 l2. assert (Last : forall (es : list aevent) e l1 a l2, es ++ [e] = l1 ++ a :: l2 -> (l2 = [] /\ a = e /\ l1 = es) \/ exists l3, l2 = l3 ++ [e] /\ es = l1 ++ a :: l3).
  { clear. intros es e l1 a l2 E. destruct (exists_last (l := a :: l2)) as (r & z & Q); [discriminate|]. rewrite Q, app_assoc in E. apply app_inj_tail in E as [E ->]. destruct r as [|b r]; cbn in Q.
    - injection Q as -> ->. left. rewrite app_nil_r in E. auto.
    - injection Q as -> ->. right. exists r. split; [reflexivity|exact E]. }
  induction S as [|es e S IH P|es p y S IH|es p d' src' S IH|es p e q S IH]; intros l1 l2 E.
  - destruct l1; discriminate E.
  - apply Last in E as [(-> & <- & ->)|(l3 & -> & E)]; [destruct P|]. eapply IH. exact E.
  - apply Last in E as [(-> & Q & ->)|(l3 & -> & E)]; [discriminate Q|]. eapply IH. exact E.
  - apply Last in E as [(-> & Q & ->)|(l3 & -> & E)]; [|eapply IH; exact E]. injection Q as -> -> ->. clear IH. remember (Some (p, p, Ok (d', src'))) as u eqn:U. destruct S; try discriminate U. injection U; intros; subst. eauto.
  - apply Last in E as [(-> & Q & ->)|(l3 & -> & E)]; [destruct e; discriminate Q|]. eapply IH. exact E.
Qed.
Lemma own_goes st t k es u : own u (p_log (goes st t k es)) = own u (p_log st) ++ (if Nat.eqb u t then es else []).
Proof. cbn [goes p_log]. rewrite own_app. destruct (Nat.eqb_spec u t) as [->|N]; [rewrite own_mine; reflexivity|rewrite own_other by congruence; reflexivity]. Qed.
Lemma stories_goes st st1 t k es : stories st -> p_log st1 = p_log st -> p_stack st1 = p_stack st -> story (own t (p_log st) ++ es) (unfinished k) -> stories (goes st1 t k es).
Proof.
  intros S L K H u. rewrite own_goes, L. cbn [goes p_stack]. rewrite K. destruct (Nat.eqb_spec u t) as [->|N]; [exact H|]. rewrite app_nil_r. apply S.
Qed.
Lemma story_plain es0 es : story es0 None -> Forall plain es -> story (es0 ++ es) None.
Proof.
  intros S F. revert es0 S. induction F as [|e es P F IH]; intros es0 S; [rewrite app_nil_r; exact S|]. change (e :: es) with ([e] ++ es). rewrite app_assoc. apply IH. constructor; assumption.
Qed.
Lemma calling_unfinished k : Forall calling k -> unfinished k = None.
Proof. intros F. destruct F as [|[p r ph] k (o & b & E) F]; [reflexivity|]. cbn in E. subst. reflexivity. Qed.
Lemma stories_fails st t p rest k o e es : stories st -> Forall calling k -> unfinished (p_stack st t) = None -> Forall plain es -> stories (read_fails st t p rest k o e es).
Proof.
  intros S C U F. pose proof (calling_unfinished _ C) as Uk. specialize (S t) as St. rewrite U in St. unfold read_fails. destruct e; (apply (stories_goes st); [exact S|reflexivity|reflexivity|]); cbn [unfinished]; rewrite ?Uk; apply story_plain; try exact St; apply Forall_app; (split; [exact F|constructor; [exact Logic.I|constructor]]).
Qed.
Lemma stories_go st t st' : shape st -> stories st -> pgo st t = Some st' -> stories st'.
Proof.
  intros Sh S E. unfold pgo in E. destruct (p_stack st t) as [|[p rest ph] k] eqn:K; [discriminate E|]. pose proof (sh_tail _ Sh _ _ _ K) as C. pose proof (calling_unfinished _ C) as Uk.
  assert (Pt : points st (mkF p rest ph)) by (eapply (sh_points _ Sh); rewrite K; left; reflexivity). pose proof (S t) as St. rewrite K in St.
  assert (G : forall k' es, unfinished (mkF p rest ph :: k) = None -> unfinished k' = None -> Forall plain es -> stories (goes st t k' es)).
  { intros k' es U U' F. rewrite U in St. eapply stories_goes; eauto. rewrite U'. apply story_plain; assumption. }
  assert (R : forall o s ks x q, unfinished (mkF p rest ph :: k) = None -> s = o -> stories (goes (set_sock st s (mkK (k_fd ks) (k_open ks) q)) t (mkF p rest (Got o s x) :: k) [ERecv s x])).
  { intros o s ks x q U ->. rewrite U in St. eapply stories_goes; eauto. cbn [unfinished]. apply so_read. exact St. }
  destruct ph as [fds| |o s|o s|o s x|o b]; cbn [points f_phase] in Pt.
  - destruct (forallb _ fds); injection E as <-; apply G; auto; repeat constructor.
  - destruct rest as [|fd rest]; [injection E as <-; apply G; auto; repeat constructor|]. destruct (map_get (p_map st) fd) as [o|]; [destruct (nth_error (p_mans st) o); [|discriminate E]|]; injection E as <-; apply G; auto.
  - destruct Pt as [_ ->]. destruct (nth_error (p_socks st) o) as [ks|] eqn:N; [|discriminate E]. destruct (k_open ks) eqn:O; [destruct (k_queue ks) as [|x q] eqn:Q|]; injection E as <-; [apply G; auto| |apply G; auto; repeat constructor].
    rewrite <- O. apply R; reflexivity.
  - destruct Pt as [_ ->]. destruct (nth_error (p_socks st) o) as [ks|] eqn:N; [|discriminate E]. destruct (k_queue ks) as [|x q] eqn:Q; [discriminate E|]. injection E as <-. apply R; reflexivity.
  - destruct Pt as [_ ->]. cbn [unfinished] in St. destruct x as [[d src]|e]; injection E as <-.
    + eapply stories_goes; eauto. cbn [unfinished]. apply so_call. exact St.
    + assert (H : story (own t (p_log st) ++ [match e with ValueError => ECb o (Exc ValueError) | _ => EPollEnd p (Err e) end]) None) by (apply so_fail; exact St).
      unfold read_fails. destruct e; cbn [app]; (eapply stories_goes; eauto); cbn [unfinished]; rewrite ?Uk; exact H.
  - discriminate E.
Qed.
Lemma free_unfinished k : free k = true -> unfinished k = None.
Proof. destruct k as [|[p r ph] k]; [reflexivity|]. cbn. destruct ph; try reflexivity; discriminate. Qed.
Lemma stories_step st l st' : shape st -> stories st -> pstep st l = Some st' -> stories st'.
Proof.
  intros Sh S E.
  assert (G : forall t k' es, unfinished (p_stack st t) = None -> unfinished k' = None -> Forall plain es -> forall st1, p_log st1 = p_log st -> p_stack st1 = p_stack st -> stories (goes st1 t k' es)).
  { intros t k' es U U' F st1 L K. eapply stories_goes; eauto. specialize (S t). rewrite U in S. rewrite U'. apply story_plain; assumption. }
  destruct l as [t fd|t o r|t p|t|t|t e|s x]; cbn [pstep] in E.
  - destruct (free (p_stack st t)) eqn:Fr; [|discriminate E]. apply free_unfinished in Fr. destruct (open_at st fd) eqn:F; [discriminate E|]. injection E as <-. apply G; auto. repeat constructor.
  - destruct (free (p_stack st t)) eqn:Fr; [|discriminate E]. apply free_unfinished in Fr. destruct (nth_error (p_mans st) o) as [m|] eqn:M; [|discriminate E]. injection E as <-. unfold pclose.
    destruct (nth_error (p_socks st) (g_sock m)) as [k|] eqn:N; [destruct (k_open k)|]; apply G; auto; repeat constructor.
  - destruct (free (p_stack st t)) eqn:Fr; [|discriminate E]. apply free_unfinished in Fr. destruct (nth_error (p_mans st) p) as [m|]; [|discriminate E]. injection E as <-. apply G; auto. repeat constructor.
  - eapply stories_go; eassumption.
  - destruct (p_stack st t) as [|[p rest [| | | | |o b]] k] eqn:K; try discriminate E. injection E as <-. apply G; auto; [rewrite K; reflexivity|repeat constructor].
  - destruct (p_stack st t) as [|[p rest [| | | | |o b]] k] eqn:K; try discriminate E. pose proof (sh_tail _ Sh _ _ _ K) as C. injection E as <-. destruct b.
    + apply G; auto; [rewrite K; reflexivity|apply calling_unfinished; exact C|repeat constructor].
    + apply stories_fails; auto; [rewrite K; reflexivity|repeat constructor].
  - destruct (nth_error (p_socks st) s) as [ks|] eqn:N; [|discriminate E]. destruct (k_open ks) eqn:O; [|discriminate E]. injection E as <-. intros u. cbn [set_sock p_log p_stack]. rewrite own_app. cbn. rewrite app_nil_r. apply S.
Qed.
Lemma pexec_stories tr st : pexec tr = Some st -> stories st.
Proof.
  assert (H : forall tr st st', shape st -> stories st -> psteps st tr = Some st' -> stories st').
  { clear. induction tr as [|l tr IH]; intros st st' Sh S E; cbn in E; [injection E as <-; exact S|]. destruct (pstep st l) as [st1|] eqn:P; [|discriminate E]. eapply IH; [eapply shape_step; eassumption| |exact E]. eapply stories_step; eassumption. }
  apply H; [exact shape_init|]. intros t. constructor.
Qed.
