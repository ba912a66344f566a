(** * Proofs about several threads that poll. *)
From Coq Require Import ZArith List Bool Lia.
From Verif Require Import PyBase Role Asyn SpecAsyn Pollers SpecPollers ProofsAsyn.
Import ListNotations.
Open Scope Z_scope.

Lemma own_app t a b : own t (a ++ b) = own t a ++ own t b.
Proof. apply flat_map_app. Qed.
Lemma own_mine t es : own t (map (pair (Some t)) es) = es.
Proof. induction es as [|e es IH]; [reflexivity|]. cbn. rewrite Nat.eqb_refl. cbn. f_equal. exact IH. Qed.
Lemma own_other t u es : u <> t -> own t (map (pair (Some u)) es) = [].
Proof. intros N. induction es as [|e es IH]; [reflexivity|]. cbn. destruct (Nat.eqb_spec u t); [contradiction|]. exact IH. Qed.
Lemma psteps_app a b st : psteps st (a ++ b) = match psteps st a with Some st' => psteps st' b | None => None end.
Proof. revert st. induction a as [|l a IH]; intros st; [reflexivity|]. cbn. destruct (pstep st l); [apply IH|reflexivity]. Qed.

(** ** The shape of a state *)
Definition calling (f : pframe) : Prop := exists o b, f_phase f = Calls o b.
Definition points (st : pstate) (f : pframe) : Prop :=
  match f_phase f with Recv o s | Wait o s | Got o s _ => (o < length (p_mans st))%nat /\ s = o | _ => True end.
Record shape (st : pstate) : Prop := {
  sh_len : length (p_mans st) = length (p_socks st);
  sh_sock : forall o m, nth_error (p_mans st) o = Some m -> g_sock m = o;
  sh_opened : forall o, (o < length (p_mans st))%nat -> opened_by (all_events (p_log st)) o o;
  sh_nodup : NoDup (map fst (p_map st));
  sh_map : forall fd o, In (fd, o) (p_map st) <-> exists m, nth_error (p_mans st) o = Some m /\ g_fileno m = Some fd;
  sh_open : forall o m fd, nth_error (p_mans st) o = Some m -> g_fileno m = Some fd -> exists k, nth_error (p_socks st) o = Some k /\ k_open k = true /\ k_fd k = fd;
  sh_fd : forall i j k k', nth_error (p_socks st) i = Some k -> nth_error (p_socks st) j = Some k' -> k_open k = true -> k_open k' = true -> k_fd k = k_fd k' -> i = j;
  sh_tail : forall t f k, p_stack st t = f :: k -> Forall calling k;
  sh_points : forall t f, In f (p_stack st t) -> points st f }.

Lemma open_at_none st fd : open_at st fd = None <-> forall i k, nth_error (p_socks st) i = Some k -> k_open k = true -> k_fd k <> fd.
Proof.
  unfold open_at. split.
  - intros F i k N O E. apply nth_error_In in N. apply (find_none _ _ F) in N. rewrite O, E, Z.eqb_refl in N. discriminate N.
  - intros H. destruct (find _ (p_socks st)) as [k|] eqn:F; [|reflexivity]. apply find_some in F as [J E]. apply andb_prop in E as [O E]. apply Z.eqb_eq in E.
    apply In_nth_error in J as [i N]. exfalso. exact (H i k N O E).
Qed.
Lemma open_at_some st fd k : shape st -> open_at st fd = Some k -> exists i, nth_error (p_socks st) i = Some k /\ k_open k = true /\ k_fd k = fd.
Proof. intros S F. unfold open_at in F. apply find_some in F as [J E]. apply andb_prop in E as [O E]. apply Z.eqb_eq in E. apply In_nth_error in J as [i N]. eauto. Qed.
Lemma open_at_is st i k : shape st -> nth_error (p_socks st) i = Some k -> k_open k = true -> open_at st (k_fd k) = Some k.
Proof.
  intros S N O. destruct (open_at st (k_fd k)) as [k'|] eqn:F.
  - destruct (open_at_some _ _ _ S F) as (j & N' & O' & E). assert (j = i) by (eapply (sh_fd _ S); eassumption). congruence.
  - exfalso. apply (proj1 (open_at_none _ _) F i k N O eq_refl).
Qed.
Lemma map_get_in (m : list (Z * nat)) fd o : NoDup (map fst m) -> map_get m fd = Some o <-> In (fd, o) m.
Proof.
  induction m as [|[k x] m IH]; intros N; [split; [discriminate|intros []]|]. inversion N as [|? ? N1 N2]; subst. cbn. destruct (Z.eqb_spec k fd) as [->|E].
  - split; [intros Q; injection Q as ->; left; reflexivity|]. intros [Q|J]; [congruence|]. exfalso. apply N1. change fd with (fst (fd, o)). apply in_map. exact J.
  - rewrite IH by exact N2. split; [right; assumption|]. intros [Q|J]; [congruence|exact J].
Qed.
Lemma map_set_new m fd o : ~ In fd (map fst m) -> map_set m fd o = m ++ [(fd, o)].
Proof.
  induction m as [|[k x] m IH]; intros N; [reflexivity|]. cbn. destruct (Z.eqb_spec k fd) as [->|E]; [exfalso; apply N; left; reflexivity|]. rewrite IH; [reflexivity|].
  intros J. apply N. right. exact J.
Qed.
Lemma map_del_iff m fd k x : NoDup (map fst m) -> In (k, x) (map_del m fd) <-> In (k, x) m /\ k <> fd.
Proof.
  intros N. split.
  - intros J. split; [eapply map_del_in; exact J|]. intros ->. eapply (map_del_not m fd N). change fd with (fst (fd, x)). apply in_map. exact J.
  - intros [J E]. induction m as [|[k' y] m IH]; [exact J|]. inversion N as [|? ? N1 N2]; subst. cbn. destruct (Z.eqb_spec k' fd) as [->|E'].
    + destruct J as [J|J]; [congruence|exact J].
    + destruct J as [J|J]; [left; exact J|right; apply IH; assumption].
Qed.
Lemma opened_more l l' s o : opened_by l s o -> opened_by (l ++ l') s o.
Proof. intros [fd J]. exists fd. apply in_or_app. left. exact J. Qed.
Lemma all_app a b : all_events (a ++ b) = all_events a ++ all_events b.
Proof. apply map_app. Qed.

Lemma shape_goes st t k es : shape st -> (forall f r, k = f :: r -> Forall calling r) -> Forall (points st) k -> shape (goes st t k es).
Proof.
  intros S T P. destruct S as [S1 S2 S3 S4 S5 S6 S7 S8 S9]. constructor; cbn [goes p_socks p_mans p_map p_stack p_log]; auto.
  - intros o L. rewrite all_app. apply opened_more. auto.
  - intros u f r E. destruct (Nat.eqb u t); [eapply T; exact E|eapply S8; exact E].
  - intros u f J. destruct (Nat.eqb u t); [rewrite Forall_forall in P; exact (P f J)|exact (S9 u f J)].
Qed.
Lemma shape_sock st s k q : shape st -> nth_error (p_socks st) s = Some k -> shape (set_sock st s (mkK (k_fd k) (k_open k) q)).
Proof.
  intros S N. destruct S as [S1 S2 S3 S4 S5 S6 S7 S8 S9].
  assert (Q : forall i k', nth_error (upd (p_socks st) s (mkK (k_fd k) (k_open k) q)) i = Some k' -> exists k0, nth_error (p_socks st) i = Some k0 /\ k_open k' = k_open k0 /\ k_fd k' = k_fd k0).
  { intros i k' E. rewrite nth_upd in E. destruct (Nat.eqb_spec s i) as [<-|_]; [rewrite N in E; injection E as <-; eauto|eauto]. }
  constructor; cbn [set_sock p_socks p_mans p_map p_stack p_log]; auto.
  - rewrite upd_length. exact S1.
  - intros o m fd M F. destruct (S6 _ _ _ M F) as (k0 & N0 & O0 & F0). rewrite nth_upd. destruct (Nat.eqb_spec s o) as [<-|_]; [|eauto].
    rewrite N. eexists. split; [reflexivity|]. cbn. assert (k0 = k) by congruence. subst. auto.
  - intros i j k1 k2 N1 N2 O1 O2 E. destruct (Q _ _ N1) as (a & Na & Oa & Fa), (Q _ _ N2) as (b & Nb & Ob & Fb). eapply S7; [exact Na|exact Nb|congruence..].
Qed.
Lemma shape_init : shape pinit.
Proof.
  constructor; cbn [pinit p_socks p_mans p_map p_stack p_log].
  - reflexivity.
  - intros [|o] m E; discriminate E.
  - cbn. lia.
  - constructor.
  - intros fd o. split; [intros []|]. intros (m & E & _). destruct o; discriminate E.
  - intros [|o] m fd E; discriminate E.
  - intros [|i] j k k' E; discriminate E.
  - discriminate.
  - intros t f [].
Qed.
Lemma shape_new st t fd : shape st -> open_at st fd = None -> shape (pnew st t fd).
Proof.
  intros S F. pose proof (proj1 (open_at_none st fd) F) as No. destruct S as [S1 S2 S3 S4 S5 S6 S7 S8 S9].
  assert (Nm : ~ In fd (map fst (p_map st))).
  { intros J. apply in_map_iff in J as ([fd' o] & E & J). cbn in E. subst fd'. apply S5 in J as (m & M & G). destruct (S6 _ _ _ M G) as (k & N & O & Q). exact (No _ _ N O Q). }
  assert (Mn : forall o m, nth_error (p_mans st ++ [mkPM (length (p_socks st)) (Some fd)]) o = Some m -> nth_error (p_mans st) o = Some m \/ (o = length (p_mans st) /\ m = mkPM (length (p_socks st)) (Some fd))).
  { intros o m E. destruct (Nat.lt_ge_cases o (length (p_mans st))) as [L|G]; [rewrite nth_error_app1 in E by exact L; auto|]. rewrite nth_error_app2 in E by exact G.
    destruct (o - length (p_mans st))%nat as [|n] eqn:D; [|destruct n; discriminate E]. injection E as <-. right. split; [lia|reflexivity]. }
  assert (Sn : forall i k, nth_error (p_socks st ++ [mkK fd true []]) i = Some k -> nth_error (p_socks st) i = Some k \/ (i = length (p_socks st) /\ k = mkK fd true [])).
  { intros o m E. destruct (Nat.lt_ge_cases o (length (p_socks st))) as [L|G]; [rewrite nth_error_app1 in E by exact L; auto|]. rewrite nth_error_app2 in E by exact G.
    destruct (o - length (p_socks st))%nat as [|n] eqn:D; [|destruct n; discriminate E]. injection E as <-. right. split; [lia|reflexivity]. }
  unfold pnew. constructor; cbn [goes p_socks p_mans p_map p_stack p_log].
  - rewrite !app_length, S1. reflexivity.
  - intros o m E. destruct (Mn _ _ E) as [E'|[-> ->]]; [auto|]. cbn. auto.
  - intros o L. rewrite all_app. rewrite app_length in L. cbn in L. destruct (Nat.lt_ge_cases o (length (p_mans st))) as [L'|G]; [apply opened_more; auto|].
    assert (o = length (p_mans st)) as -> by lia. exists fd. apply in_or_app. right. cbn. left. rewrite S1. reflexivity.
  - apply map_set_nodup. exact S4.
  - intros g o. rewrite map_set_new by exact Nm. rewrite in_app_iff. split.
    + intros [J|[J|[]]].
      * apply S5 in J as (m & M & G). exists m. split; [|exact G]. rewrite nth_error_app1; [exact M|]. apply nth_error_Some. congruence.
      * injection J as <- <-. eexists. split; [rewrite nth_error_app2 by lia; rewrite Nat.sub_diag; reflexivity|reflexivity].
    + intros (m & M & G). destruct (Mn _ _ M) as [M'|[-> ->]]; [left; apply S5; eauto|]. cbn in G. injection G as <-. right. left. reflexivity.
  - intros o m g M G. destruct (Mn _ _ M) as [M'|[-> ->]].
    + destruct (S6 _ _ _ M' G) as (k & N & R). exists k. split; [|exact R]. rewrite nth_error_app1; [exact N|]. apply nth_error_Some. congruence.
    + cbn in G. injection G as <-. exists (mkK fd true []). split; [|auto]. rewrite S1, nth_error_app2 by lia. rewrite Nat.sub_diag. reflexivity.
  - intros i j k k' Ni Nj Oi Oj E. destruct (Sn _ _ Ni) as [Ni'|[-> ->]], (Sn _ _ Nj) as [Nj'|[-> ->]].
    + eapply S7; eassumption.
    + exfalso. exact (No _ _ Ni' Oi E).
    + exfalso. exact (No _ _ Nj' Oj (eq_sym E)).
    + reflexivity.
  - intros u f r E. destruct (Nat.eqb u t) eqn:Q; eapply S8; exact E.
  - intros u f J. assert (P : points st f) by (destruct (Nat.eqb u t); eapply S9; exact J). unfold points in *. cbn [goes p_mans] in *. rewrite ?app_length. destruct (f_phase f); auto; destruct P; split; auto; lia.
Qed.
Lemma shape_close st t o m r : shape st -> nth_error (p_mans st) o = Some m -> shape (pclose st t o m r).
Proof.
  intros S M. pose proof S as [S1 S2 S3 S4 S5 S6 S7 S8 S9]. pose proof (S2 _ _ M) as Sm.
  set (map1 := match g_fileno m with Some fd => map_del (p_map st) fd | None => p_map st end).
  assert (N1 : NoDup (map fst map1)) by (unfold map1; destruct (g_fileno m); [apply map_del_nodup|]; assumption).
  assert (Mu : forall i m', nth_error (upd (p_mans st) o (mkPM (g_sock m) None)) i = Some m' -> (i = o /\ m' = mkPM (g_sock m) None) \/ (i <> o /\ nth_error (p_mans st) i = Some m')).
  { intros i m' E. rewrite nth_upd in E. destruct (Nat.eqb_spec o i) as [<-|N]; [rewrite M in E; injection E as <-; auto|right; split; [congruence|exact E]]. }
  assert (Mp : forall fd i, In (fd, i) map1 <-> exists m', nth_error (upd (p_mans st) o (mkPM (g_sock m) None)) i = Some m' /\ g_fileno m' = Some fd).
  { intros fd i. assert (D : In (fd, i) map1 <-> In (fd, i) (p_map st) /\ i <> o).
    { unfold map1. destruct (g_fileno m) as [g|] eqn:G.
      - rewrite map_del_iff by exact S4. split; intros [J Ne]; (split; [exact J|]).
        + intros ->. apply Ne. apply S5 in J as (m' & M' & G'). congruence.
        + intros ->. apply Ne. assert (Jo : In (g, o) (p_map st)) by (apply S5; eauto). apply map_get_in in J; [|exact S4]. apply map_get_in in Jo; [|exact S4]. congruence.
      - split; [|tauto]. intros J. split; [exact J|]. intros ->. apply S5 in J as (m' & M' & G'). congruence. }
    rewrite D, S5. split.
    - intros [(m' & M' & G') Ne]. exists m'. split; [|exact G']. rewrite nth_upd. destruct (Nat.eqb_spec o i); [congruence|exact M'].
    - intros (m' & M' & G'). destruct (Mu _ _ M') as [[-> ->]|[Ne M2]]; [discriminate G'|]. split; [eauto|exact Ne]. }
  assert (St : forall u f, In f (p_stack st u) -> points (mkP (p_socks st) (upd (p_mans st) o (mkPM (g_sock m) None)) map1 (p_stack st) (p_log st)) f).
  { intros u f J. specialize (S9 u f J). unfold points in *. cbn [p_mans]. rewrite upd_length. exact S9. }
  assert (Base : forall so, length so = length (p_socks st) -> (forall i k, nth_error so i = Some k -> exists k0, nth_error (p_socks st) i = Some k0 /\ (k_open k = true -> k_open k0 = true) /\ k_fd k = k_fd k0) ->
    (forall i, i <> o -> nth_error so i = nth_error (p_socks st) i) -> shape (mkP so (upd (p_mans st) o (mkPM (g_sock m) None)) map1 (p_stack st) (p_log st))).
  { intros so L Q Qo. constructor; cbn [p_socks p_mans p_map p_stack p_log]; auto.
    - rewrite upd_length. congruence.
    - intros i m' E. destruct (Mu _ _ E) as [[-> ->]|[_ M']]; [exact Sm|auto].
    - intros i Li. rewrite upd_length in Li. auto.
    - intros i m' fd E G. destruct (Mu _ _ E) as [[-> ->]|[Ne M']]; [discriminate G|]. rewrite Qo by exact Ne. eauto.
    - intros i j k k' Ni Nj Oi Oj E. destruct (Q _ _ Ni) as (a & Na & Oa & Fa), (Q _ _ Nj) as (b & Nb & Ob & Fb). eapply S7; [exact Na|exact Nb|auto|auto|congruence]. }
  assert (P : forall so, points (mkP so (upd (p_mans st) o (mkPM (g_sock m) None)) map1 (p_stack st) (p_log st)) = points (mkP (p_socks st) (upd (p_mans st) o (mkPM (g_sock m) None)) map1 (p_stack st) (p_log st))) by reflexivity.
  assert (Go : forall so es, shape (mkP so (upd (p_mans st) o (mkPM (g_sock m) None)) map1 (p_stack st) (p_log st)) -> shape (goes (mkP so (upd (p_mans st) o (mkPM (g_sock m) None)) map1 (p_stack st) (p_log st)) t (p_stack st t) es)).
  { intros so es B. apply shape_goes; [exact B|intros f r' E; eapply S8; exact E|]. apply Forall_forall. intros f J. rewrite P. eapply St. exact J. }
  unfold pclose. fold map1. destruct (nth_error (p_socks st) (g_sock m)) as [k|] eqn:N.
  - destruct (k_open k) eqn:Ok.
    + unfold set_sock. cbn [p_socks p_mans p_map p_stack p_log]. apply Go. apply Base; [apply upd_length| |].
      * intros i k' E. rewrite nth_upd in E. destruct (Nat.eqb_spec (g_sock m) i) as [<-|_]; [rewrite N in E; injection E as <-; exists k; auto|eauto].
      * intros i Ne. rewrite nth_upd. destruct (Nat.eqb_spec (g_sock m) i); [congruence|reflexivity].
    + apply Go. apply Base; [reflexivity|eauto|reflexivity].
  - apply Go. apply Base; [reflexivity|eauto|reflexivity].
Qed.
Lemma points_mans st st' f : length (p_mans st') = length (p_mans st) -> points st f -> points st' f.
Proof. unfold points. intros ->. exact (fun x => x). Qed.
Lemma shape_fails st t p rest k o e es : shape st -> (forall f r, k = f :: r -> Forall calling r) -> Forall calling k -> Forall (points st) k -> shape (read_fails st t p rest k o e es).
Proof.
  intros S T C P. assert (A : shape (goes st t (mkF p rest (Calls o true) :: k) (es ++ [ECb o (Exc ValueError)]))).
  { apply shape_goes; [exact S|intros f r E; injection E as _ <-; exact C|]. constructor; [exact Logic.I|exact P]. }
  unfold read_fails. destruct e; try exact A; apply shape_goes; assumption.
Qed.
Lemma calling_tail k : Forall calling k -> forall f r, k = f :: r -> Forall calling r.
Proof. intros F f r ->. inversion F. assumption. Qed.
Lemma shape_go st t st' : shape st -> pgo st t = Some st' -> shape st'.
Proof.
  intros S E. unfold pgo in E. destruct (p_stack st t) as [|[p rest ph] k] eqn:K; [discriminate E|]. pose proof (sh_tail _ S _ _ _ K) as C. pose proof (calling_tail _ C) as T.
  assert (P : Forall (points st) (mkF p rest ph :: k)) by (apply Forall_forall; intros f J; eapply (sh_points _ S); rewrite K; exact J). inversion P as [|? ? P1 P2]; subst.
  assert (G : forall st1 f es, shape st1 -> length (p_mans st1) = length (p_mans st) -> points st f -> shape (goes st1 t (f :: k) es)).
  { intros st1 f es S1 L Q. apply shape_goes; [exact S1|intros g r X; injection X as _ <-; exact C|]. constructor; [eapply points_mans; eassumption|]. eapply Forall_impl; [|exact P2]. intros g. apply points_mans. exact L. }
  destruct ph as [fds| |o s|o s|o s x|o b].
  - destruct (forallb _ fds); injection E as <-; [apply G; [exact S|reflexivity|exact Logic.I]|apply shape_goes; assumption].
  - destruct rest as [|fd rest]; [injection E as <-; apply shape_goes; assumption|]. destruct (map_get (p_map st) fd) as [o|] eqn:Mg.
    + destruct (nth_error (p_mans st) o) as [m|] eqn:M; [|discriminate E]. injection E as <-. apply G; auto. cbn. split; [apply nth_error_Some; congruence|apply (sh_sock _ S); exact M].
    + injection E as <-. apply G; [exact S|reflexivity|exact Logic.I].
  - destruct (nth_error (p_socks st) s) as [ks|] eqn:N; [|discriminate E]. destruct (k_open ks) eqn:O; [destruct (k_queue ks) as [|x q]|]; injection E as <-.
    + apply G; auto.
    + rewrite <- O. apply G; [apply shape_sock; assumption|reflexivity|exact P1].
    + apply shape_goes; assumption.
  - destruct (nth_error (p_socks st) s) as [ks|] eqn:N; [|discriminate E]. destruct (k_queue ks) as [|x q]; [discriminate E|]. injection E as <-. apply G; [apply shape_sock; assumption|reflexivity|exact P1].
  - destruct x as [[d src]|e]; injection E as <-; [apply G; [exact S|reflexivity|exact Logic.I]|apply shape_fails; assumption].
  - discriminate E.
Qed.
Lemma shape_step st l st' : shape st -> pstep st l = Some st' -> shape st'.
Proof.
  intros S E. destruct l as [t fd|t o r|t p|t|t|t e|s x]; cbn [pstep] in E.
  - destruct (free (p_stack st t)); [|discriminate E]. destruct (open_at st fd) eqn:F; [discriminate E|]. injection E as <-. apply shape_new; assumption.
  - destruct (free (p_stack st t)); [|discriminate E]. destruct (nth_error (p_mans st) o) as [m|] eqn:M; [|discriminate E]. injection E as <-. apply shape_close; assumption.
  - destruct (free (p_stack st t)) eqn:Fr; [|discriminate E]. destruct (nth_error (p_mans st) p) as [m|]; [|discriminate E]. injection E as <-. apply shape_goes; [exact S| |].
    + intros f r X. injection X as _ <-. destruct (p_stack st t) as [|f0 k0] eqn:K; [constructor|]. constructor; [|eapply (sh_tail _ S); exact K]. cbn in Fr. unfold calling. destruct (f_phase f0); try discriminate Fr. eauto.
    + constructor; [exact Logic.I|]. apply Forall_forall. intros f J. eapply (sh_points _ S). exact J.
  - eapply shape_go; eassumption.
  - destruct (p_stack st t) as [|[p rest [| | | | |o b]] k] eqn:K; try discriminate E. injection E as <-. pose proof (sh_tail _ S _ _ _ K) as C. apply shape_goes; [exact S|intros f r X; injection X as _ <-; exact C|].
    constructor; [exact Logic.I|]. apply Forall_forall. intros f J. eapply (sh_points _ S). rewrite K. right. exact J.
  - destruct (p_stack st t) as [|[p rest [| | | | |o b]] k] eqn:K; try discriminate E. pose proof (sh_tail _ S _ _ _ K) as C. pose proof (calling_tail _ C) as T.
    assert (P : Forall (points st) k) by (apply Forall_forall; intros f J; eapply (sh_points _ S); rewrite K; right; exact J).
    injection E as <-. destruct b; [apply shape_goes; assumption|apply shape_fails; assumption].
  - destruct (nth_error (p_socks st) s) as [ks|] eqn:N; [|discriminate E]. destruct (k_open ks) eqn:O; [|discriminate E]. injection E as <-.
    pose proof (shape_sock _ _ _ (k_queue ks ++ [x]) S N) as S'. rewrite O in S'. destruct S' as [S1 S2 S3 S4 S5 S6 S7 S8 S9]. constructor; auto.
    intros o L. cbn [p_log p_mans] in *. rewrite all_app. apply opened_more. apply S3. exact L.
Qed.
Lemma shape_steps tr : forall st st', shape st -> psteps st tr = Some st' -> shape st'.
Proof. induction tr as [|l tr IH]; intros st st' S E; cbn in E; [injection E as <-; exact S|]. destruct (pstep st l) as [st1|] eqn:P; [|discriminate E]. eapply IH; [|exact E]. eapply shape_step; eassumption. Qed.
Lemma pexec_shape tr st : pexec tr = Some st -> shape st.
Proof. apply shape_steps. exact shape_init. Qed.

(** ** Nothing is lost *)
Definition conserved (st : pstate) : Prop := forall s, arrivals (all_events (p_log st)) s = received (all_events (p_log st)) s ++ in_kernel st s.
Definition silent (e : aevent) : Prop := match e with EArrive _ _ | ERecv _ _ => False | _ => True end.
Lemma arrivals_app a b s : arrivals (a ++ b) s = arrivals a s ++ arrivals b s.
Proof. apply flat_map_app. Qed.
Lemma received_app a b s : received (a ++ b) s = received a s ++ received b s.
Proof. apply flat_map_app. Qed.
Lemma all_mine t es : all_events (map (pair (Some t)) es) = es.
Proof. unfold all_events. rewrite map_map. cbn. apply map_id. Qed.
Lemma silent_none es : Forall silent es -> forall s, arrivals es s = [] /\ received es s = [].
Proof. induction 1 as [|e es H F IH]; intros s; [auto|]. destruct (IH s) as [A B]. cbn. fold (arrivals es s) (received es s). rewrite A, B. destruct e; try contradiction; auto. Qed.
Lemma conserved_goes st st1 t k es : conserved st -> Forall silent es -> p_log st1 = p_log st -> (forall s, in_kernel st1 s = in_kernel st s) -> conserved (goes st1 t k es).
Proof.
  intros C F L Q s. cbn [goes p_log]. rewrite L, all_app, all_mine, arrivals_app, received_app. destruct (silent_none es F s) as [-> ->]. rewrite !app_nil_r. rewrite C. change (in_kernel (goes st1 t k es) s) with (in_kernel st1 s). rewrite Q. reflexivity.
Qed.
Lemma kernel_upd st s k i : nth_error (p_socks st) s <> None -> in_kernel (set_sock st s k) i = if Nat.eqb s i then k_queue k else in_kernel st i.
Proof. intros N. unfold in_kernel, set_sock. cbn [p_socks]. rewrite nth_upd. destruct (Nat.eqb_spec s i) as [<-|_]; [|reflexivity]. destruct (nth_error (p_socks st) s); [reflexivity|contradiction]. Qed.
Lemma conserved_recv st s ks x q t k : conserved st -> nth_error (p_socks st) s = Some ks -> k_queue ks = x :: q -> conserved (goes (set_sock st s (mkK (k_fd ks) (k_open ks) q)) t k [ERecv s x]).
Proof.
  intros C N Q i. cbn [goes p_log set_sock]. rewrite all_app, all_mine, arrivals_app, received_app. change (in_kernel (goes ?a t k ?b) i) with (in_kernel a i). fold (set_sock st s (mkK (k_fd ks) (k_open ks) q)).
  change (in_kernel _ i) with (in_kernel (set_sock st s (mkK (k_fd ks) (k_open ks) q)) i). rewrite kernel_upd by congruence. cbn. rewrite app_nil_r, C. destruct (Nat.eqb_spec s i) as [<-|_]; cbn; [|rewrite app_nil_r; reflexivity].
  unfold in_kernel. rewrite N, Q, <- app_assoc. reflexivity.
Qed.
Lemma conserved_fails st t p rest k o e es : conserved st -> Forall silent es -> conserved (read_fails st t p rest k o e es).
Proof. intros C F. unfold read_fails. destruct e; eapply conserved_goes; eauto; apply Forall_app; (split; [exact F|constructor; [exact Logic.I|constructor]]). Qed.
Lemma conserved_go st t st' : conserved st -> pgo st t = Some st' -> conserved st'.
Proof.
  intros C E. unfold pgo in E. destruct (p_stack st t) as [|[p rest ph] k] eqn:K; [discriminate E|].
  assert (G : forall k' es, Forall silent es -> conserved (goes st t k' es)) by (intros; eapply conserved_goes; eauto).
  destruct ph as [fds| |o s|o s|o s x|o b].
  - destruct (forallb _ fds); injection E as <-; apply G; repeat constructor.
  - destruct rest as [|fd rest]; [injection E as <-; apply G; repeat constructor|]. destruct (map_get (p_map st) fd) as [o|]; [destruct (nth_error (p_mans st) o); [|discriminate E]|]; injection E as <-; apply G; constructor.
  - destruct (nth_error (p_socks st) s) as [ks|] eqn:N; [|discriminate E]. destruct (k_open ks) eqn:O; [destruct (k_queue ks) as [|x q] eqn:Q|]; injection E as <-; [apply G; constructor| |apply G; repeat constructor].
    rewrite <- O. apply conserved_recv; assumption.
  - destruct (nth_error (p_socks st) s) as [ks|] eqn:N; [|discriminate E]. destruct (k_queue ks) as [|x q] eqn:Q; [discriminate E|]. injection E as <-. apply conserved_recv; assumption.
  - destruct x as [[d src]|e]; injection E as <-; [apply G; repeat constructor|apply conserved_fails; [exact C|constructor]].
  - discriminate E.
Qed.
Lemma conserved_step st l st' : conserved st -> pstep st l = Some st' -> conserved st'.
Proof.
  intros C E. destruct l as [t fd|t o r|t p|t|t|t e|s x]; cbn [pstep] in E.
  - destruct (free (p_stack st t)); [|discriminate E]. destruct (open_at st fd) eqn:F; [discriminate E|]. injection E as <-. unfold pnew. eapply conserved_goes; [exact C|repeat constructor|reflexivity|].
    intros i. unfold in_kernel. cbn [p_socks]. destruct (Nat.lt_ge_cases i (length (p_socks st))) as [L|Ge]; [rewrite nth_error_app1 by exact L; reflexivity|]. rewrite nth_error_app2 by exact Ge.
    rewrite (proj2 (nth_error_None (p_socks st) i)) by exact Ge. destruct (i - length (p_socks st))%nat as [|[|]]; reflexivity.
  - destruct (free (p_stack st t)); [|discriminate E]. destruct (nth_error (p_mans st) o) as [m|] eqn:M; [|discriminate E]. injection E as <-. unfold pclose. destruct (nth_error (p_socks st) (g_sock m)) as [k|] eqn:N; [destruct (k_open k)|].
    + eapply conserved_goes; [exact C|repeat constructor|reflexivity|]. intros i. rewrite kernel_upd by (cbn; congruence). cbn [k_queue]. destruct (Nat.eqb_spec (g_sock m) i) as [<-|_]; [unfold in_kernel; rewrite N; reflexivity|reflexivity].
    + eapply conserved_goes; [exact C|repeat constructor|reflexivity|reflexivity].
    + eapply conserved_goes; [exact C|repeat constructor|reflexivity|reflexivity].
  - destruct (free (p_stack st t)) eqn:Fr; [|discriminate E]. destruct (nth_error (p_mans st) p) as [m|]; [|discriminate E]. injection E as <-. eapply conserved_goes; [exact C|repeat constructor|reflexivity|reflexivity].
  - eapply conserved_go; eassumption.
  - destruct (p_stack st t) as [|[p rest [| | | | |o b]] k] eqn:K; try discriminate E. injection E as <-. eapply conserved_goes; [exact C|repeat constructor|reflexivity|reflexivity].
  - destruct (p_stack st t) as [|[p rest [| | | | |o b]] k] eqn:K; try discriminate E. injection E as <-. destruct b; [eapply conserved_goes; [exact C|repeat constructor|reflexivity|reflexivity]|apply conserved_fails; [exact C|repeat constructor]].
  - destruct (nth_error (p_socks st) s) as [ks|] eqn:N; [|discriminate E]. destruct (k_open ks) eqn:O; [|discriminate E]. injection E as <-. intros i. cbn [set_sock p_log p_socks p_mans p_map p_stack]. rewrite all_app, arrivals_app, received_app.
    change (in_kernel _ i) with (in_kernel (set_sock st s (mkK (k_fd ks) true (k_queue ks ++ [x]))) i). rewrite kernel_upd by congruence. cbn. rewrite !app_nil_r, C. destruct (Nat.eqb_spec s i) as [<-|_]; [|rewrite app_nil_r; reflexivity].
    unfold in_kernel. rewrite N, app_assoc. reflexivity.
Qed.
Lemma pexec_conserved tr st : pexec tr = Some st -> conserved st.
Proof.
  assert (H : forall tr st st', conserved st -> psteps st tr = Some st' -> conserved st').
  { clear. induction tr as [|l tr IH]; intros st st' S E; cbn in E; [injection E as <-; exact S|]. destruct (pstep st l) as [st1|] eqn:P; [|discriminate E]. eapply IH; [|exact E]. eapply conserved_step; eassumption. }
  apply H. intros [|s]; reflexivity.
Qed.

(** ** Closing again *)
Definition gone (st : pstate) (o : nat) : Prop := nth_error (p_mans st) o = Some (mkPM o None) /\ exists k, nth_error (p_socks st) o = Some k /\ k_open k = false.
Lemma upd_same {A} (l : list A) i x : nth_error l i = Some x -> upd l i x = l.
Proof. revert i. induction l as [|y l IH]; intros [|i] E; try discriminate E; cbn in *; [congruence|]. rewrite IH; auto. Qed.
Lemma gone_goes st t k es o : gone (goes st t k es) o <-> gone st o.
Proof. reflexivity. Qed.
Lemma gone_sock st s ks q o : nth_error (p_socks st) s = Some ks -> gone st o -> gone (set_sock st s (mkK (k_fd ks) (k_open ks) q)) o.
Proof.
  intros N [M (k & K & O)]. split; [exact M|]. cbn. rewrite nth_upd. destruct (Nat.eqb_spec s o) as [->|]; [|eauto]. rewrite K. replace ks with k in * by congruence. eexists. split; [reflexivity|exact O].
Qed.
Lemma gone_close st t o m r : shape st -> nth_error (p_mans st) o = Some m -> gone (pclose st t o m r) o.
Proof.
  intros S M. pose proof (sh_sock _ S _ _ M) as G. unfold pclose. rewrite G.
  assert (U : nth_error (upd (p_mans st) o (mkPM o None)) o = Some (mkPM o None)) by (rewrite nth_upd, Nat.eqb_refl, M; reflexivity).
  destruct (nth_error (p_socks st) o) as [k|] eqn:K.
  - destruct (k_open k) eqn:Ko; apply gone_goes; (split; [exact U|]); cbn [set_sock p_socks].
    + rewrite nth_upd, Nat.eqb_refl, K. eexists. split; reflexivity.
    + eauto.
  - exfalso. assert (L : nth_error (p_mans st) o <> None) by congruence. apply nth_error_Some in L. rewrite (sh_len _ S) in L. apply nth_error_Some in L. contradiction.
Qed.
Lemma gone_step st l st' o : shape st -> gone st o -> pstep st l = Some st' -> gone st' o.
Proof.
  intros S G E. assert (F : forall t p rest k y e es, gone (read_fails st t p rest k y e es) o) by (intros; unfold read_fails; destruct e; exact G).
  destruct l as [t fd|t y r|t p|t|t|t e|s x]; cbn [pstep] in E.
  - destruct (_ && _); [|discriminate E]. injection E as <-. destruct G as [M (k & K & O)]. split; cbn.
    + rewrite nth_error_app1; [exact M|apply nth_error_Some; congruence].
    + exists k. rewrite nth_error_app1; [auto|apply nth_error_Some; congruence].
  - destruct (free _); [|discriminate E]. destruct (nth_error (p_mans st) y) as [m|] eqn:M; [|discriminate E]. injection E as <-.
    destruct (Nat.eqb_spec y o) as [->|N]; [eapply gone_close; eauto|]. pose proof (sh_sock _ S _ _ M) as Gs. apply Nat.eqb_neq in N. destruct G as [Mo (k & K & O)]. unfold pclose. rewrite Gs.
    assert (U : nth_error (upd (p_mans st) y (mkPM y None)) o = Some (mkPM o None)) by (rewrite nth_upd, N; exact Mo).
    destruct (nth_error (p_socks st) y) as [ky|] eqn:Ky; [destruct (k_open ky)|]; apply gone_goes; (split; [exact U|]); cbn [set_sock p_socks]; [rewrite nth_upd, N|exists k|exists k]; eauto.
  - destruct (free _); [|discriminate E]. destruct (nth_error (p_mans st) p); [|discriminate E]. injection E as <-. exact G.
  - unfold pgo in E. destruct (p_stack st t) as [|[p rest ph] k]; [discriminate E|]. destruct ph as [fds| |y s|y s|y s x|y b].
    + destruct (forallb _ fds); injection E as <-; exact G.
    + destruct rest as [|fd rest]; [injection E as <-; exact G|]. destruct (map_get (p_map st) fd) as [y|]; [|injection E as <-; exact G].
      destruct (nth_error (p_mans st) y); [|discriminate E]. injection E as <-. exact G.
    + destruct (nth_error (p_socks st) s) as [ks|] eqn:N; [|discriminate E]. destruct (k_open ks) eqn:Ko; [|injection E as <-; exact G].
      destruct (k_queue ks) as [|x q]; injection E as <-; [exact G|]. rewrite <- Ko. apply gone_goes. apply gone_sock; assumption.
    + destruct (nth_error (p_socks st) s) as [ks|] eqn:N; [|discriminate E]. destruct (k_queue ks) as [|x q]; [discriminate E|]. injection E as <-. apply gone_goes. apply gone_sock; assumption.
    + destruct x as [[d src]|e]; injection E as <-; [exact G|apply F].
    + discriminate E.
  - destruct (p_stack st t) as [|[p rest [| | | | |y b]] k]; try discriminate E. injection E as <-. exact G.
  - destruct (p_stack st t) as [|[p rest [| | | | |y b]] k]; try discriminate E. injection E as <-. destruct b; [exact G|apply F].
  - destruct (nth_error (p_socks st) s) as [ks|] eqn:N; [|discriminate E]. destruct (k_open ks) eqn:Ko; [|discriminate E]. injection E as <-. rewrite <- Ko. exact (gone_sock _ _ _ _ _ N G).
Qed.
Lemma gone_steps o tr : forall st st', shape st -> gone st o -> psteps st tr = Some st' -> gone st' o.
Proof.
  induction tr as [|l tr IH]; cbn; intros st st' S G E; [injection E as <-; exact G|]. destruct (pstep st l) as [s1|] eqn:E1; [|discriminate E].
  eapply IH; [eapply shape_step; eauto|eapply gone_step; eauto|exact E].
Qed.
Lemma pclose_again tr0 st t o r st1 tr st1' t' r' st2 : pexec tr0 = Some st -> pstep st (PClose t o r) = Some st1 -> psteps st1 tr = Some st1' -> pstep st1' (PClose t' o r') = Some st2 ->
  all_events (p_log st2) = all_events (p_log st1') ++ [EClose o (Ok tt)] /\ own t' (p_log st2) = own t' (p_log st1') ++ [EClose o (Ok tt)] /\
  p_socks st2 = p_socks st1' /\ p_map st2 = p_map st1' /\ p_mans st2 = p_mans st1' /\ forall u, p_stack st2 u = p_stack st1' u.
Proof.
  intros E0 E1 Es E2. pose proof (pexec_shape _ _ E0) as S0. pose proof (shape_step _ _ _ S0 E1) as S1.
  assert (G1 : gone st1 o).
  { cbn [pstep] in E1. destruct (free (p_stack st t)); [|discriminate]. destruct (nth_error (p_mans st) o) as [m|] eqn:M; [|discriminate]. injection E1 as <-. eapply gone_close; eauto. }
  destruct (gone_steps _ _ _ _ S1 G1 Es) as [M (k & K & O)]. cbn [pstep] in E2. destruct (free (p_stack st1' t')); [|discriminate E2]. rewrite M in E2. injection E2 as <-.
  unfold pclose. cbn [g_fileno g_sock]. rewrite K, O. cbn [goes p_log p_socks p_map p_mans p_stack]. rewrite (upd_same _ _ _ M), all_app, own_app, all_mine, own_mine.
  repeat (split; [reflexivity|]). intros u. destruct (Nat.eqb_spec u t') as [->|]; reflexivity.
Qed.
