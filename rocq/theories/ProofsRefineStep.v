(** * Objects and values side by side: each step *)
From Coq Require Import ZArith List Bool Lia.
From Verif Require Import PyBase Classes Values Codec Manager Heap SpecHeap SpecRefine.
From Verif Require Import ProofsHeap ProofsHeapKeep ProofsHeapCall ProofsHeapRun ProofsHeapMake ProofsHeapValue ProofsHeapFixed ProofsHeapRecv ProofsHeapEnd ProofsHeapBack.
From Verif Require Import ProofsRefine ProofsRefineCall ProofsRefineRun.
Import ListNotations.
Open Scope Z_scope.

(** ** encode() *)
Definition near {A} (x y : res A) : Prop := x = y \/ x = Err RecursionError.
Lemma near_bind {A B} (x y : res A) (f g : A -> res B) : near x y -> (forall a, near (f a) (g a)) -> near (bind x f) (bind y g).
Proof. intros [->| ->] F; [|right; reflexivity]. destruct y; [apply F|left; reflexivity]. Qed.
Lemma near_refl {A} (x : res A) : near x x. Proof. left. reflexivity. Qed.
Lemma h_encode_near h : (forall i v, now h i v -> forall fuel, near (h_encode fuel h i) (encode v)) /\
  (forall is vs, all_now h is vs -> forall fuel,
     near ((fix go (l : list item) : res str := match l with [] => Ok [] | x :: r => a <- h_encode fuel h x ;; b <- go r ;; Ok (a ++ b) end) is) (encode_list vs)).
Proof.
  apply (stands_both (fun _ => True) (fun _ _ => False) h
    (fun i v _ => forall fuel, near (h_encode fuel h i) (encode v))
    (fun is vs _ => forall fuel, near
     ((fix go (l : list item) : res str := match l with [] => Ok [] | x :: r => a <- h_encode fuel h x ;; b <- go r ;; Ok (a ++ b) end) is) (encode_list vs))).
  - intros [|f]; [right; reflexivity|left; reflexivity].
  - intros z [|f]; [right; reflexivity|left; reflexivity].
  - intros s [|f]; [right; reflexivity|left; reflexivity].
  - intros l v [].
  - intros l is vs _ E _ _ [|f]; [right; reflexivity|]. cbn [h_encode]. rewrite E. left. reflexivity.
  - intros l c d z _ E K A [|f]; [right; reflexivity|]. left. cbn [h_encode encode]. rewrite E, K, (attr_at _ _ _ _ _ _ E A). reflexivity.
  - intros l c d i v _ E K A X IH [|f]; [right; reflexivity|]. left. cbn [h_encode]. rewrite E, K, (attr_at _ _ _ _ _ _ E A). cbn [bind].
    inversion X; subst; try reflexivity; contradiction.
  - intros l c d _ E K A [|f]; [right; reflexivity|]. left. cbn [h_encode]. rewrite E, K, (attr_at _ _ _ _ _ _ E A). reflexivity.
  - intros l c d a zs _ E K A _ E2 [|f]; [right; reflexivity|]. left. cbn [h_encode encode]. rewrite E, K, (attr_at _ _ _ _ _ _ E A). cbn [bind list_at]. rewrite E2. cbn [bind].
    rewrite mapM_int. rewrite (koid c K). reflexivity.
  - intros l c d _ E K [|f]; [right; reflexivity|]. left. cbn [h_encode encode]. rewrite E, K. reflexivity.
  - intros l c d a is vs _ E K A _ E2 X IH [|f]; [right; reflexivity|]. cbn [h_encode encode]. rewrite E, K, (attr_at _ _ _ _ _ _ E A). cbn [bind list_at]. rewrite E2. cbn [bind].
    apply near_bind; [apply IH|intros; apply near_refl].
  - intros l c d a b e vs _ E K A B D X IH [|f]; [right; reflexivity|]. cbn [h_encode encode].
    rewrite E, K, (attr_at _ _ _ _ _ _ E A), (attr_at _ _ _ _ _ _ E B), (attr_at _ _ _ _ _ _ E D). cbn [bind].
    apply near_bind; [apply IH|intros; apply near_refl].
  - intros fuel. left. reflexivity.
  - intros i v is vs X IH1 Y IH2 fuel. cbn [encode_list]. apply near_bind; [apply IH1|]. intros a. apply near_bind; [apply IH2|intros; apply near_refl].
Qed.

Lemma send_message fuel h i om : same_message h i om -> exists h' r, h_encode_message fuel i h = (h', r) /\ grown h h' /\ (r = encoded om \/ r = Err RecursionError).
Proof.
  destruct om as [msg|]; cbn [same_message]; [|intros ->; exists h, (Err AttributeError); split; [reflexivity|]; split; [apply grown_refl|left; reflexivity]].
  intros [V K]. destruct (encode_message_shape fuel i h) as [(e & E)|(n & c & d & v & com & dat & -> & N & A & B & C & E)].
  - exfalso. inversion V; subst; try contradiction; try congruence.
    match goal with X : nth_error h ?l = Some (PObj ?c ?d), A : assoc ?d Aversion = Some _, B : assoc ?d Acommunity = Some _, C : assoc ?d Adata = Some _ |- _ =>
      unfold h_encode_message in E; rewrite X, (attr_at _ _ _ _ _ _ X A), (attr_at _ _ _ _ _ _ X B), (attr_at _ _ _ _ _ _ X C) in E; apply (f_equal fst) in E; cbn [fst] in E; apply (f_equal (@length _)) in E;
      pose proof (lt_of _ _ _ X) as L end.
    rewrite set_cell_len in E; rewrite app_length in *; cbn in *; lia.
  - cbn zeta in E. eexists. eexists. split; [exact E|].
    assert (Kc : kind_of c = KMsg). { inversion V; subst; try contradiction; congruence. }
    assert (G : grown h (set_cell n (PObj c (set_attr Avalue (IRef (length h)) d)) (h ++ [PList [v; com; dat]]))).
    { intros l x Nl. pose proof (nth_ext h [PList [v; com; dat]] _ _ Nl) as N'. pose proof (lt_of _ _ _ N) as L. destruct (Nat.eq_dec l n) as [->|Dn].
      - rewrite N in Nl. injection Nl as <-. eexists. split; [apply set_cell_at; rewrite app_length; lia|]. right. exists c, d, (set_attr Avalue (IRef (length h)) d). repeat split; auto. intros. apply assoc_set. assumption.
      - exists x. split; [|left; reflexivity]. rewrite set_cell_other; [exact N'|rewrite app_length; lia|exact Dn]. }
    split; [exact G|]. cbn [encoded]. rewrite <- encode_message_val. apply (proj1 (h_encode_near _)). eapply grown_now; eassumption.
Qed.

(** ** The value model's control *)
Lemma filter_skip {A} (p : A -> bool) l x : p x = false -> filter p (l ++ [x]) = filter p l.
Proof. intros E. rewrite filter_app. cbn. rewrite E, app_nil_r. reflexivity. Qed.
Lemma filter_keep {A} (p : A -> bool) l x : p x = true -> filter p (l ++ [x]) = filter p l ++ [x].
Proof. intros E. rewrite filter_app. cbn. rewrite E. reflexivity. Qed.
Definition same_view (m : mgr) (stk : list frame) (lg : list event) (st : state) : Prop :=
  man st = m /\ filter is_callback (stack st) = filter is_callback stk /\ filter seen (log st) = filter seen lg.
Ltac view := repeat split; cbn [man stack log filter is_callback]; rewrite ?filter_app; cbn; rewrite ?app_nil_r; try reflexivity.
Lemma view_empty sys m rest lg : same_view m rest lg (loop_empty sys m rest lg).
Proof. unfold loop_empty, run_raises. destruct (queueEmpty sys) as [[|n]|]; view. Qed.
Lemma view_poll sys m r stk lg : same_view m stk lg (poll_returns sys m r stk lg).
Proof.
  unfold poll_returns, run_raises. destruct stk as [|[id| | | |p] stk]; try (view; fail).
  destruct r as [u|e]; [view|]. destruct e; try (view; fail). destruct (flav sys); try (view; fail). exact (view_empty sys m stk lg).
Qed.
Lemma view_receive sys m r stk lg : same_view m stk lg (receive_returns sys m r stk lg).
Proof. unfold receive_returns. destruct stk as [|[id| | | |p] stk]; try (view; fail). exact (view_poll sys m (asyncore_read r) stk lg). Qed.
Lemma receive_only_callbacks sys m m' depth d : callbacks m = callbacks m' -> receiveData sys m depth d = receiveData sys m' depth d.
Proof. intros E. unfold receiveData, dispatch, response_action. rewrite E. reflexivity. Qed.

(** ** Agreement, step by step *)
Lemma agrees_view sys s st st' : agrees sys s st -> same_view (man st) (stack st) (log st) st' -> agrees sys s st'.
Proof. intros (A & B & C & E & F) (X & Y & Z). unfold agrees. rewrite X, Y, Z. auto 10. Qed.
Lemma agrees_heap sys s s' st : agrees sys s st -> grown (hp s) (hp s') -> h_next s' = h_next s -> h_cbs s' = h_cbs s -> h_out s' = h_out s -> h_stack s' = h_stack s -> filter seen_g (h_log s') = filter seen_g (h_log s) ->
  agrees sys s' st.
Proof.
  intros (A & B & C & E & F) G X1 X2 X3 X4 X5. unfold agrees. rewrite X1, X2, X3, X4, X5. split; [exact A|]. split; [eapply F2_grown; [|exact B]; intros; eapply grown_entry; eassumption|].
  split; [eapply F2_grown; [|exact C]; intros; eapply grown_queued; eassumption|]. split; [eapply F2_grown; [|exact E]; intros; eapply grown_frame; eassumption|].
  eapply F2_grown; [|exact F]. intros; eapply grown_event; eassumption.
Qed.
Lemma F2_app_split {A B} (R : A -> B -> Prop) a : forall a' b b', length a = length a' -> Forall2 R (a ++ b) (a' ++ b') -> Forall2 R a a' /\ Forall2 R b b'.
Proof.
  induction a as [|x a IH]; destruct a' as [|y a']; cbn; intros b b' L X; try discriminate; [auto|]. inversion X; subst. injection L as L. match goal with Y : Forall2 R (a ++ b) _ |- _ => destruct (IH _ _ _ L Y) as [P Q] end. split; [constructor; assumption|exact Q].
Qed.
Lemma F2_len {A B} (R : A -> B -> Prop) a b : Forall2 R a b -> length a = length b.
Proof. induction 1; cbn; congruence. Qed.
Lemma skipn_len {A} (a b : list A) : skipn (length a) (a ++ b) = b.
Proof. induction a; [reflexivity|exact IHa]. Qed.
Lemma seen_puts q : filter seen_g (put_events q) = put_events q.
Proof. induction q as [|p q IH]; [reflexivity|]. cbn. unfold put_events in IH. rewrite IH. reflexivity. Qed.
Lemma seen_eputs (q : list (option message * address)) : filter seen (map (fun p => EPut (fst p) (snd p)) q) = map (fun p => EPut (fst p) (snd p)) q.
Proof. induction q as [|p q IH]; [reflexivity|]. cbn. rewrite IH. reflexivity. Qed.
Lemma puts_same h qg qm : Forall2 (same_queued h) qg qm -> Forall2 (same_event h) (put_events qg) (map (fun p => EPut (fst p) (snd p)) qm).
Proof. induction 1 as [|[i d] [om d'] qg qm [A B] _ IH]; [constructor|]. constructor; [|exact IH]. cbn in *. auto. Qed.
Lemma agrees_mrel sys s st : agrees sys s st -> mrel (flav sys) s (man st).
Proof. intros (A & B & C & _). repeat split; assumption. Qed.
Lemma agrees_called {A B} sys s st (R : heap -> A -> B -> Prop) (x : hstate * res A) (y : mgr * res B) lr ev kn :
  agrees sys s st -> gsim (flav sys) R s (man st) x y -> seen_g lr = false -> seen ev = false ->
  agrees sys (g_say [lr] (learn kn (fst x))) (mkState (fst y) (stack st) (log st ++ ev :: map (fun p => EPut (fst p) (snd p)) (skipn (length (outbound (man st))) (outbound (fst y))))).
Proof.
  intros (A0 & B0 & C0 & E0 & F0) (t & qg & qm & X1 & (M1 & M2 & M3) & X3 & X4 & X5 & X6 & X7 & _) Lr Le.
  assert (G : grown (hp s) (hp (fst x))) by (rewrite X1; apply grown_ext).
  assert (Q : Forall2 (same_queued (hp (fst x))) qg qm). { rewrite X3, X4 in M3. apply F2_app_split in M3 as [_ Q]; [exact Q|]. eapply F2_len. exact C0. }
  unfold agrees. cbn [man stack log h_next h_cbs h_out h_stack h_log hp g_say learn]. split; [exact M1|]. split; [exact M2|]. split; [exact M3|].
  split; [rewrite X6; eapply F2_grown; [|exact E0]; intros; eapply grown_frame; eassumption|].
  rewrite X5, X4, skipn_len, filter_skip, !filter_app by exact Lr. cbn [filter]. rewrite Le, seen_puts, seen_eputs. apply Forall2_app; [|apply puts_same; exact Q].
  eapply F2_grown; [|exact F0]. intros; eapply grown_event; eassumption.
Qed.
Lemma agrees_made sys s st (R : heap -> item -> val -> Prop) (x : hstate * res item) (r : res val) lr kn :
  agrees sys s st -> gsim (flav sys) R s (man st) x (lift r (man st)) -> seen_g lr = false -> agrees sys (g_say [lr] (learn kn (fst x))) st.
Proof.
  intros A S Lr. pose proof (agrees_called sys s st R x (lift r (man st)) lr (EResult (Ok tt)) kn A S Lr eq_refl) as (A1 & B1 & C1 & E1 & F1).
  unfold agrees. repeat (split; [assumption|]). cbn [lift fst man stack log] in F1. rewrite skipn_all in F1. cbn [map] in F1. rewrite filter_skip in F1 by reflexivity. exact F1.
Qed.
Lemma key_fresh f h r c id : nth_error h r = Some (PObj c [(Avalue, IInt id)]) -> kind_of c = KInt -> key_num f h (IRef r) = Ok id.
Proof.
  intros N K. unfold key_num, is_a, class_at. rewrite N. replace (issubclass c CInteger) with true by (destruct c; try discriminate K; reflexivity).
  rewrite (attr_at _ _ _ _ Avalue (IInt id) N eq_refl). cbn [bind]. destruct f; reflexivity.
Qed.
Lemma stands_now S h i v : stands S (fun _ _ => False) h i v -> now h i v. Proof. apply stands_weaken. auto. Qed.
Lemma receive_agrees sys s st depth d stk : good s -> agrees sys s st -> filter is_callback stk = filter is_callback (stack st) ->
  agrees sys (g_receive sys depth d s) (receive_called sys (man st) depth d stk (log st)).
Proof.
  intros Gs Ag Hk. pose proof Ag as (A & B & C & E & F).
  assert (Rd : Manager.receiveData sys (mkMgr (h_next s) [] (e_abs (flav sys) (hp s) (h_cbs s))) depth d = receiveData sys (man st) depth d)
    by (apply receive_only_callbacks; cbn; apply same_abs; exact B).
  unfold receive_called. destruct (receiveData sys (man st) depth d) as [[r|id cb|cb] om] eqn:Er.
  - unfold g_receive. rewrite Rd. apply agrees_heap with (s := s); try reflexivity; [|apply grown_refl|apply filter_skip; reflexivity].
    destruct (view_receive sys (man st) r stk (log st)) as (X & Y & Z). apply agrees_view with (st := st); [exact Ag|]. split; [exact X|]. split; [rewrite Y; exact Hk|exact Z].
  - destruct om as [msg|]; [|exfalso; unfold receiveData in Er; destruct (message_decode _ _ _ d); discriminate].
    pose proof Rd as Rd'. destruct (received_fresh sys s depth d id cb msg Gs Rd') as (s1 & m & p & r & E1 & Lg & Sk & Cb & Ou & _ & Lm & Lp & Lr & St & Am & Ap & (c & Nr & Kc) & _ & _).
    destruct (received_new sys s depth d _ msg Rd') as (s1' & m' & cb' & E1' & _ & _ & _ & _ & Kp); [discriminate|]. rewrite E1 in E1'. injection E1' as <-.
    assert (G : grown (hp s) (hp s1)) by (intros l x Nl; exists x; split; [apply Kp; exact Nl|left; reflexivity]).
    assert (Nx : h_next s1 = h_next s). { cbn [gstep] in E1. unfold g_receive in E1. rewrite Rd' in E1. destruct (h_make_message msg (hp s)) as [h0 [i0|]]; injection E1 as <-; reflexivity. }
    cbn [gstep] in E1. injection E1 as E1. rewrite E1. unfold agrees. cbn [man stack log]. rewrite Nx, Cb, Ou, Sk, Lg. split; [exact A|].
    split; [eapply F2_grown; [|exact B]; intros; eapply grown_entry; eassumption|]. split; [eapply F2_grown; [|exact C]; intros; eapply grown_queued; eassumption|].
    split.
    + cbn [filter is_callback]. rewrite Hk. constructor; [|eapply F2_grown; [|exact E]; intros; eapply grown_frame; eassumption].
      cbn [same_frame]. rewrite Am. cbn [bind]. rewrite Ap. cbn [bind]. eapply key_fresh; eassumption.
    + rewrite !filter_keep by reflexivity. apply Forall2_app; [eapply F2_grown; [|exact F]; intros; eapply grown_event; eassumption|].
      constructor; [|constructor]. cbn [same_event]. split; [|reflexivity]. split; [eapply stands_now; exact St|].
      destruct (response_shape _ _ _ _ _ _ _ Er) as (Dc & _). apply fit_message in Dc as (-> & _). apply kind_message.
  - destruct om as [msg|]; [|exfalso; unfold receiveData in Er; destruct (message_decode _ _ _ d); discriminate].
    pose proof Rd as Rd'. destruct (received_new sys s depth d _ msg Rd') as (s1 & m & cb' & E1 & Lg & _ & _ & St & Kp); [discriminate|].
    assert (G : grown (hp s) (hp s1)) by (intros l x Nl; exists x; split; [apply Kp; exact Nl|left; reflexivity]).
    assert (Nx : h_next s1 = h_next s /\ h_cbs s1 = h_cbs s /\ h_out s1 = h_out s /\ (h_log s1 = h_log s ++ [GInvoked cb (IRef m)]) /\ h_stack s1 = InTrap (IRef m) :: h_stack s).
    { cbn [gstep] in E1. unfold g_receive in E1. rewrite Rd' in E1. destruct (h_make_message msg (hp s)) as [h0 [i0|]]; injection E1 as <-; cbn in *.
      - apply app_inj_tail in Lg as [_ Lg]. injection Lg as -> ->. auto 10.
      - exfalso. apply (f_equal (@length _)) in Lg. rewrite app_length in Lg. cbn in Lg. lia. }
    destruct Nx as (Nx & Cb & Ou & Lg' & Sk).
    cbn [gstep] in E1. injection E1 as E1. rewrite E1. unfold agrees. cbn [man stack log]. rewrite Nx, Cb, Ou, Sk, Lg'. split; [exact A|].
    split; [eapply F2_grown; [|exact B]; intros; eapply grown_entry; eassumption|]. split; [eapply F2_grown; [|exact C]; intros; eapply grown_queued; eassumption|].
    split.
    + cbn [filter is_callback]. rewrite Hk. constructor; [exact Logic.I|eapply F2_grown; [|exact E]; intros; eapply grown_frame; eassumption].
    + rewrite !filter_keep by reflexivity. apply Forall2_app; [eapply F2_grown; [|exact F]; intros; eapply grown_event; eassumption|].
      constructor; [|constructor]. cbn [same_event]. split; [|reflexivity]. split; [eapply stands_now; exact St|].
      unfold receiveData in Er. destruct (message_decode _ _ _ d) as [m0|] eqn:Dc; [|discriminate]. injection Er as _ <-. apply fit_message in Dc as (-> & _). apply kind_message.
Qed.
Lemma send_agrees sys s st fuel r m dst q rest h o : agrees sys s st -> h_out s = (m, dst) :: q -> h_encode_message fuel m (hp s) = (h, o) -> filter is_callback rest = filter is_callback (stack st) ->
  agrees sys (mkH h (known s) (h_next s) q (h_cbs s) (h_stack s) (h_log s ++ [GSent m o dst])) (send_called sys (man st) r rest (log st)).
Proof.
  intros (A & B & C & E & F) Ho En Hk. rewrite Ho in C. inversion C as [|x [om dst'] q' qm Sm Cq Eq1 Eq2]; subst. destruct Sm as [Sm Sd]. cbn [fst snd] in Sm, Sd. subst dst'.
  destruct (send_message fuel (hp s) m om Sm) as (h' & o' & En' & G & No). rewrite En in En'. injection En' as <- <-.
  set (m1 := mkMgr (nextRequestID (man st)) qm (callbacks (man st))).
  assert (Base : agrees sys (mkH h (known s) (h_next s) q (h_cbs s) (h_stack s) (h_log s ++ [GSent m o dst])) (mkState m1 rest (log st ++ [ETake om dst]))).
  { unfold agrees. cbn [hp h_next h_cbs h_out h_stack h_log man stack log]. split; [exact A|]. split; [eapply F2_grown; [|exact B]; intros; eapply grown_entry; eassumption|].
    split; [eapply F2_grown; [|exact Cq]; intros; eapply grown_queued; eassumption|]. split; [rewrite Hk; eapply F2_grown; [|exact E]; intros; eapply grown_frame; eassumption|].
    rewrite !filter_keep by reflexivity. apply Forall2_app; [eapply F2_grown; [|exact F]; intros; eapply grown_event; eassumption|]. constructor; [|constructor].
    cbn [same_event]. split; [eapply grown_message; eassumption|]. split; [reflexivity|exact No]. }
  assert (Fail : forall e lg, filter seen lg = filter seen (log st ++ [ETake om dst]) ->
    agrees sys (mkH h (known s) (h_next s) q (h_cbs s) (h_stack s) (h_log s ++ [GSent m o dst])) (match e with QueueEmpty => loop_empty sys m1 rest lg | _ => run_raises m1 e rest lg end)).
  { intros e lg Hl. eapply agrees_view; [exact Base|]. cbn [man stack log]. unfold same_view. rewrite <- Hl. destruct e; try (unfold run_raises; view; fail). apply view_empty. }
  unfold send_called. rewrite <- Eq2. fold m1. cbn zeta.
  destruct (match om with Some msg => snd (message_encode msg) | None => Err AttributeError end) as [os|e]; [|apply Fail; reflexivity].
  destruct (sendto (trans sys) r) as [u|e]; [|apply Fail; apply filter_skip; reflexivity].
  eapply agrees_view; [exact Base|]. cbn [man stack log]. view.
Qed.
Lemma return_agrees sys s st m id k stk rest : agrees sys s st -> h_stack s = InResponse m :: k -> stack st = FResp id :: rest -> filter is_callback stk = filter is_callback rest ->
  agrees sys (g_return (flav sys) m (with_stack k s)) (let '(m', r) := after_response (flav sys) (man st) id (Ok tt) in receive_returns sys m' r stk (log st ++ [EFinished id (Ok tt)])).
Proof.
  intros (A & B & C & E & F) Hs Ht Hk. rewrite Hs, Ht in E. cbn [filter is_callback] in E. inversion E as [|x y l l' Fr Er Eq1 Eq2]; subst. cbn [same_frame] in Fr.
  unfold g_return, after_response. cbn [hp with_stack h_cbs]. rewrite Fr, (same_get _ _ _ _ id B). destruct (dict_get (callbacks (man st)) id) as [cb|].
  - eapply agrees_view with (st := mkState (mkMgr (nextRequestID (man st)) (outbound (man st)) (dict_del (callbacks (man st)) id)) stk (log st ++ [EFinished id (Ok tt)])); [|apply view_receive].
    unfold agrees. cbn [man stack log nextRequestID outbound callbacks]. cbn. rewrite !filter_app. cbn [filter seen_g seen]. rewrite !app_nil_r, Hk. split; [exact A|]. split; [apply same_del; exact B|]. auto.
  - eapply agrees_view with (st := mkState (man st) stk (log st ++ [EFinished id (Ok tt)])); [|apply view_receive].
    unfold agrees. cbn [man stack log]. cbn. rewrite !filter_app. cbn [filter seen_g seen]. rewrite !app_nil_r, Hk. auto 10.
Qed.
Lemma pop_agrees sys s st g k fr rest lg ev : agrees sys s st -> h_stack s = g :: k -> stack st = fr :: rest -> is_callback fr = true -> filter seen lg = filter seen (log st) -> seen_g ev = false ->
  agrees sys (g_say [ev] (with_stack k s)) (mkState (man st) rest lg).
Proof.
  intros (A & B & C & E & F) Hs Ht Hc Hl He. rewrite Hs, Ht in E. cbn [filter] in E. rewrite Hc in E. inversion E; subst.
  unfold agrees. cbn [man stack log]. cbn. rewrite filter_skip by exact He. rewrite Hl. auto 10.
Qed.
Lemma good_move sys s g s' : good s -> gmove sys s g = Some s' -> good s'.
Proof. intros G E. destruct g as [l|]; cbn in E; [eapply good_step; eassumption|injection E as <-; exact G]. Qed.
Lemma step_agrees sys s st g l s1 st1 : good s -> agrees sys s st -> in_step sys s st g l -> gmove sys s g = Some s1 -> vmove sys st l = Some st1 -> agrees sys s1 st1.
Proof.
  intros Gs Ag In Eg Ev. pose proof Gs as ([_ Df _ _] & _). pose proof (agrees_mrel _ _ _ Ag) as Mr. destruct st as [m stk lg].
  destruct g as [[c|x|x c|a|fuel|depth d| |e]|].
  - destruct l; [contradiction|]. cbn in Ev. injection Ev as <-. cbn [gmove gstep] in Eg. destruct (knows s (refs c)); [|discriminate]. injection Eg as <-.
    eapply agrees_heap; [exact Ag|apply grown_ext|reflexivity..].
  - destruct l; [contradiction|]. cbn in Ev. injection Ev as <-. cbn [gmove gstep] in Eg. destruct (knows s [x]); [|discriminate]. destruct (nth_error (hp s) x); [|discriminate]. injection Eg as <-.
    eapply agrees_heap; [exact Ag|apply grown_refl|reflexivity..].
  - destruct l as [[]|]; contradiction.
  - cbn [gmove gstep] in Eg. destruct (knows s _); [|discriminate]. destruct l as [l|].
    + destruct l as [va| | | | | |]; try contradiction. cbn in In. pose proof (g_call_sim (flav sys) s m a va Df Mr In) as Sim.
      cbn [vmove step] in Ev. destruct (user_runs stk); [|discriminate].
      destruct (g_call (flav sys) a s) as [s' r] eqn:Ec. destruct (do_call (flav sys) va m) as [m' r'] eqn:Ed. injection Eg as <-. injection Ev as <-.
      exact (agrees_called sys s (mkState m stk lg) ans_now (s', r) (m', r') (GReturned r) (ECall va r') _ Ag Sim eq_refl eq_refl).
    + cbn in Ev. injection Ev as <-. destruct In as (r & Mo). pose proof (g_made_sim (flav sys) s m a r Df Mr Mo) as Sim.
      destruct (g_call (flav sys) a s) as [s' r'] eqn:Ec. injection Eg as <-.
      exact (agrees_made sys s (mkState m stk lg) now (s', r') r (GReturned r') _ Ag Sim eq_refl).
  - destruct l as [[| | | |r| |]|]; try contradiction. cbn [gmove gstep] in Eg. destruct (h_out s) as [|[mi dst] q] eqn:Ho; [discriminate|].
    destruct (h_encode_message fuel mi (hp s)) as [h o] eqn:En. injection Eg as <-. cbn [vmove step] in Ev. destruct stk as [|[| | | |[]] rest]; try discriminate. injection Ev as <-.
    exact (send_agrees sys s (mkState m (FRun Sending :: rest) lg) fuel r mi dst q rest h o Ag Ho En eq_refl).
  - cbn [gmove gstep] in Eg. injection Eg as <-. destruct l as [[|depth' d' src|[|depth' o src|]| | | |]|]; try contradiction; destruct In as [<- ->].
    + cbn [vmove step] in Ev. destruct (user_runs stk); [|discriminate]. injection Ev as <-. exact (receive_agrees sys s (mkState m stk lg) depth d' stk Gs Ag eq_refl).
    + assert (X : st1 = receive_called sys m depth (received (trans sys) o) (FRead :: stk) lg).
      { cbn [vmove step] in Ev. destruct stk as [|[| | | |[]] rest]; cbn in Ev; try discriminate; injection Ev as <-; reflexivity. }
      rewrite X. exact (receive_agrees sys s (mkState m stk lg) depth _ (FRead :: stk) Gs Ag eq_refl).
  - destruct l as [[| | | | | |]|]; try contradiction. destruct In as (fr & rest & Hs & Hc). cbn in Hs. subst stk. cbn [gmove gstep] in Eg. cbn [vmove step] in Ev.
    pose proof Ag as (_ & _ & _ & E & _). cbn [stack filter] in E. rewrite Hc in E. destruct (h_stack s) as [|g k] eqn:Hg; [discriminate|]. 
    inversion E as [|? ? ? ? Fr _]; subst. destruct fr as [id| | | |]; try discriminate Hc; destruct g as [mi|mi]; try contradiction; injection Eg as <-.
    + pose proof (return_agrees sys s _ mi id k rest rest Ag Hg eq_refl eq_refl) as X. cbn [man log] in X. destruct (after_response (flav sys) m id (Ok tt)) as [m' r]. injection Ev as <-. exact X.
    + injection Ev as <-. apply (agrees_view sys _ (mkState m rest lg)); [|apply view_receive]. exact (pop_agrees sys s _ _ k _ rest lg (GReceived (Ok tt)) Ag Hg eq_refl Hc eq_refl eq_refl).
  - destruct l as [[| | | | | |e']|]; try contradiction. destruct In as (<- & fr & rest & Hs & Hc). cbn in Hs. subst stk. cbn [gmove gstep] in Eg. cbn [vmove step] in Ev.
    pose proof Ag as (_ & _ & _ & E & _). cbn [stack filter] in E. rewrite Hc in E. destruct (h_stack s) as [|g k] eqn:Hg; [discriminate|]. injection Eg as <-.
    destruct fr as [id| | | |]; try discriminate Hc; cbn in Ev; injection Ev as <-.
    + apply (agrees_view sys _ (mkState m rest (lg ++ [EFinished id (Err e)]))); [|apply view_receive]. refine (pop_agrees sys s _ _ k _ rest _ (GReceived (guard (flav sys) (Err e))) Ag Hg eq_refl Hc _ eq_refl). apply filter_skip. reflexivity.
    + apply (agrees_view sys _ (mkState m rest lg)); [|apply view_receive]. exact (pop_agrees sys s _ _ k _ rest lg (GReceived (guard (flav sys) (Err e))) Ag Hg eq_refl Hc eq_refl eq_refl).
  - cbn in Eg. injection Eg as <-. destruct l as [[| |[| |e]| |r| |e]|]; try contradiction; (eapply agrees_view; [exact Ag|]); cbn [man stack log].
    + cbn [vmove step poll_called] in Ev. destruct stk as [|[| | | |[]] rest]; cbn in Ev; try discriminate; injection Ev as <-; try (view; fail).
    + cbn [vmove step poll_called] in Ev.
      assert (X : st1 = poll_returns sys m (asyncore_read (Err e)) stk lg) by (destruct stk as [|[| | | |[]] rest]; cbn [user_runs] in Ev; try discriminate; injection Ev as <-; reflexivity).
      rewrite X. apply view_poll.
    + cbn [vmove step] in Ev. destruct (user_runs stk); [|discriminate]. injection Ev as <-. view.
    + cbn [vmove step] in Ev. cbn in In. destruct stk as [|[| | | |[]] rest]; try discriminate. injection Ev as <-. unfold send_called. rewrite In. exact (view_empty sys m rest lg).
    + destruct In as (k & Hs). cbn in Hs. subst stk. cbn in Ev. injection Ev as <-. view.
    + destruct In as (k & Hs). cbn in Hs. subst stk. cbn in Ev. destruct k as [|[] k]; try discriminate. injection Ev as <-. unfold run_raises. view.
Qed.
Lemma together_agrees sys s st pairs s2 st2 : good s -> agrees sys s st -> together sys s st pairs s2 st2 -> agrees sys s2 st2.
Proof.
  intros G A T. revert G A. induction T as [|s st g l s1 st1 r s2 st2 In Eg Ev T IH]; [auto|]. intros G A.
  apply IH; [eapply good_move; eassumption|eapply step_agrees; eassumption].
Qed.
Lemma init_agrees sys : agrees sys h_init init.
Proof. unfold agrees. cbn. repeat split; constructor. Qed.
