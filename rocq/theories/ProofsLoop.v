(** * The queue-empty callback and the order of polling in run(). *)
From Coq Require Import ZArith List Bool Lia.
From Verif Require Import PyBase Classes Values Codec Manager SpecSMI SpecTree SpecWire SpecMsg SpecManager SpecFront
  ProofsTree ProofsManager ProofsHistory ProofsReceive ProofsRun.
Import ListNotations.
Open Scope Z_scope.

(** ** encode never raises queue.Empty *)
Lemma bind_decent {A B} (x : res A) (k : A -> res B) e : (forall e, x = Err e -> decent e) -> (forall a, x = Ok a -> forall e, k a = Err e -> decent e) ->
  bind x k = Err e -> decent e.
Proof. destruct x as [a|y]; cbn [bind]; intros H K E; [exact (K a eq_refl e E)|injection E as <-; auto]. Qed.
Lemma py_chr_decent z e : py_chr z = Err e -> decent e.
Proof. unfold py_chr. repeat match goal with |- context [if ?b then _ else _] => destruct b end; intros H; try discriminate; injection H as <-; decent. Qed.
Lemma idloop_decent fuel : forall n e, encodeIdentifier_loop fuel n = Err e -> decent e.
Proof.
  induction fuel as [|f IH]; cbn; intros n e; destruct (n =? -1); try discriminate.
  - intros H; injection H as <-; decent.
  - apply bind_decent; [apply IH|discriminate].
Qed.
Lemma class_identifier_decent c e : class_identifier c = Err e -> decent e.
Proof.
  unfold class_identifier, encodeIdentifier. destruct (tagNumber c) as [n|]; [|intros H; injection H as <-; decent].
  destruct (n <? 0x1F).
  - apply bind_decent; [apply py_chr_decent|discriminate].
  - apply bind_decent; [apply py_chr_decent|]. intros a _ e'. apply bind_decent; [apply idloop_decent|discriminate].
Qed.
Lemma lenloop_decent fuel : forall n l k e, encodeLength_loop fuel n l k = Err e -> decent e.
Proof.
  induction fuel as [|f IH]; cbn; intros n l k e; destruct (n >? 0); try discriminate; [|apply IH].
  intros H; injection H as <-; decent.
Qed.
Lemma encodeLength_decent n e : encodeLength n = Err e -> decent e.
Proof.
  unfold encodeLength. destruct (n <? 127); [discriminate|]. apply bind_decent; [apply lenloop_decent|]. intros [a b] _ e'. discriminate.
Qed.
Lemma tlv_decent c s e : tlv c s = Err e -> decent e.
Proof.
  unfold tlv. apply bind_decent; [apply class_identifier_decent|]. intros a _ e'. apply bind_decent; [apply encodeLength_decent|discriminate].
Qed.
Lemma intloop_decent st fuel : forall n l e, int_bytes_loop st fuel n l = Err e -> decent e.
Proof.
  induction fuel as [|f IH]; cbn; intros n l e; destruct (n =? st); try discriminate; [|apply IH].
  intros H; injection H as <-; decent.
Qed.
Lemma integer_contents_decent z e : integer_encodeContents z = Err e -> decent e.
Proof.
  unfold integer_encodeContents. destruct (z =? 0); [discriminate|]. destruct (z =? -1); [discriminate|].
  destruct (z >? 0); (apply bind_decent; [apply intloop_decent|]; intros [|b r] _ e'; [intros H; injection H as <-; decent|destruct (negb _); discriminate]).
Qed.
Lemma mapM_decent {A B} (g : A -> res B) l : (forall x e, g x = Err e -> decent e) -> forall e, mapM g l = Err e -> decent e.
Proof.
  intros G. induction l as [|x l IH]; cbn [mapM]; [discriminate|]. intros e. apply bind_decent; [apply G|]. intros a _ e'. apply bind_decent; [apply IH|discriminate].
Qed.
Lemma subid_loop_decent fuel : forall n l e, subid_loop fuel n l = Err e -> decent e.
Proof.
  induction fuel as [|f IH]; cbn; intros n l e; destruct (n >? 0); try discriminate; [|apply IH].
  intros H; injection H as <-; decent.
Qed.
Lemma encode_subid_decent n e : encode_subid n = Err e -> decent e.
Proof. unfold encode_subid. destruct (n <? 128); [discriminate|apply subid_loop_decent]. Qed.
Lemma oid_contents_decent l e : oid_encodeContents l = Err e -> decent e.
Proof.
  unfold oid_encodeContents. destruct l as [[|a [|b r]]|]; try (intros H; injection H as <-; decent).
  apply bind_decent; [|discriminate]. apply mapM_decent, encode_subid_decent.
Qed.
Lemma encode_decent v : forall e, encode v = Err e -> decent e.
Proof.
  induction v using val_ind'; cbn [encode]; intros e; try discriminate; try (intros X; injection X as <-; decent).
  - apply bind_decent; [apply integer_contents_decent|]. intros a _ e'. apply tlv_decent.
  - destruct v; try (intros X; injection X as <-; decent). apply tlv_decent.
  - apply bind_decent; [apply oid_contents_decent|]. intros a _ e'. apply tlv_decent.
  - apply tlv_decent.
  - apply bind_decent; [|intros a _ e'; apply tlv_decent].
    induction H as [|x l Hx Hl IH]; [discriminate|]. intros e'. apply bind_decent; [exact Hx|]. intros a _ e2. apply bind_decent; [exact IH|discriminate].
Qed.
Lemma encode_list_decent l : forall e, encode_list l = Err e -> decent e.
Proof.
  induction l as [|x l IH]; cbn [encode_list]; [discriminate|]. intros e. apply bind_decent; [apply encode_decent|]. intros a _ e'. apply bind_decent; [exact IH|discriminate].
Qed.
Lemma message_encode_decent m e : snd (message_encode m) = Err e -> decent e.
Proof. unfold message_encode. cbn [snd]. apply bind_decent; [apply encode_list_decent|]. intros a _ e'. apply tlv_decent. Qed.

(** ** When the queue-empty callback is called *)
Definition no_empty (lg : list event) (st : state) : Prop := forall new n, log st = lg ++ new -> ~ In (EInvokeEmpty n) new.
Definition good_empty (sys : system) (lg : list event) (st : state) : Prop := forall new n, log st = lg ++ new -> In (EInvokeEmpty n) new ->
  queueEmpty sys = Some (Cb n) /\ exists rest, stack st = FEmpty :: FRun Polling :: rest.
Lemma no_good sys lg st : no_empty lg st -> good_empty sys lg st.
Proof. intros N new n L I. elim (N new n L I). Qed.
Lemma no_empty_app lg m stk q : (forall n, ~ In (EInvokeEmpty n) q) -> no_empty lg (mkState m stk (lg ++ q)).
Proof. intros Q new n L. cbn [log] in L. apply app_inv_head in L. subst. apply Q. Qed.
Lemma no_empty_same lg m stk : no_empty lg (mkState m stk lg).
Proof. intros new n L. cbn [log] in L. rewrite <- (app_nil_r lg) in L at 1. apply app_inv_head in L. subst. intros []. Qed.
Ltac noempty := first [apply no_empty_same | apply no_empty_app; intros ?; cbn; intuition discriminate].
Lemma loop_empty_good sys m rest lg0 lg : (exists q, lg = lg0 ++ q /\ forall n, ~ In (EInvokeEmpty n) q) -> good_empty sys lg0 (loop_empty sys m rest lg).
Proof.
  intros (q & -> & Q). unfold loop_empty, run_raises. destruct (queueEmpty sys) as [[|k]|] eqn:E.
  - apply no_good. rewrite <- app_assoc. apply no_empty_app. intros n I. apply in_app_or in I as [I|[I|[]]]; [exact (Q n I)|discriminate].
  - intros new n L I. cbn [log] in L. rewrite <- app_assoc in L. apply app_inv_head in L. subst new.
    apply in_app_or in I as [I|[I|[]]]; [elim (Q n I)|]. injection I as ->. cbn [stack]. eauto.
  - apply no_good, no_empty_app, Q.
Qed.
Lemma poll_returns_empty sys m r stk lg : r <> Err QueueEmpty \/ flav sys <> FSM -> no_empty lg (poll_returns sys m r stk lg).
Proof.
  intros R. unfold poll_returns, run_raises. destruct stk as [|[| | | |p] rest]; try noempty.
  destruct r as [u|e]; [noempty|]. destruct (flav sys) eqn:F; destruct e; try noempty. destruct R; congruence.
Qed.
Lemma poll_returns_good sys m r stk lg : good_empty sys lg (poll_returns sys m r stk lg).
Proof.
  destruct (flav sys) eqn:F.
  1, 2: apply no_good, poll_returns_empty; right; congruence.
  destruct r as [u|[]]; try (apply no_good, poll_returns_empty; left; discriminate).
  unfold poll_returns. rewrite F. destruct stk as [|[| | | |p] rest]; try (apply no_good; noempty).
  apply loop_empty_good. exists []. rewrite app_nil_r. auto.
Qed.
Lemma receive_returns_empty sys m r stk lg : r <> Err QueueEmpty \/ flav sys <> FSM -> no_empty lg (receive_returns sys m r stk lg).
Proof.
  intros R. unfold receive_returns. destruct stk as [|[| | | |p] rest]; try noempty. rewrite asyncore_read_id. apply poll_returns_empty, R.
Qed.
Lemma receive_returns_good sys m r stk lg : good_empty sys lg (receive_returns sys m r stk lg).
Proof.
  unfold receive_returns. destruct stk as [|[| | | |p] rest]; try (apply no_good; noempty). apply poll_returns_good.
Qed.
Lemma receive_called_empty sys m depth d stk lg : no_empty lg (receive_called sys m depth d stk lg).
Proof.
  unfold receive_called. destruct (receiveData sys m depth d) as [a om] eqn:E. destruct a as [r|id n|n].
  - apply receive_returns_empty. left. destruct (receive_decent _ _ _ _ _ _ E) as [->|(_ & e & -> & D1 & _)]; congruence.
  - destruct om; noempty.
  - destruct om; noempty.
Qed.
Lemma good_ext sys lg q st : (forall n, ~ In (EInvokeEmpty n) q) -> (exists q2, log st = (lg ++ q) ++ q2) -> good_empty sys (lg ++ q) st -> good_empty sys lg st.
Proof.
  intros Q (q2 & L2) G new n L I. pose proof L as L0. rewrite L2, <- app_assoc in L. apply app_inv_head in L. subst new. apply in_app_or in I as [I|I]; [elim (Q n I)|].
  apply (G q2 n L2 I).
Qed.
Lemma no_ext lg q st : (forall n, ~ In (EInvokeEmpty n) q) -> (exists q2, log st = (lg ++ q) ++ q2) -> no_empty (lg ++ q) st -> no_empty lg st.
Proof.
  intros Q (q2 & L2) G new n L I. pose proof L as L0. rewrite L2, <- app_assoc in L. apply app_inv_head in L. subst new. apply in_app_or in I as [I|I]; [elim (Q n I)|].
  apply (G q2 n L2 I).
Qed.
Lemma receive_returns_ext sys m r stk lg : exists q, log (receive_returns sys m r stk lg) = lg ++ q.
Proof.
  unfold receive_returns. destruct stk as [|[| | | |p] rest]; cbn [log]; eauto.
  destruct (poll_returns_quiet sys m (asyncore_read r) rest lg) as (q & stk' & -> & _). cbn [log]. eauto.
Qed.
Lemma step_empty sys st l st' : step sys st l = Some st' ->
  good_empty sys (log st) st' /\
  (no_empty (log st) st' \/ (exists r, l = LSend r) /\ outbound (man st) = [] \/ queue_empty_raised sys l).
Proof.
  destruct st as [m stk lg]. destruct l as [a|depth d src|i| |r| |e]; cbn [step log man]; intros H.
  - destruct (user_runs stk); [|discriminate]. destruct (do_call _ _ _) as [m' r]. injection H as <-.
    assert (N : no_empty lg (mkState m' stk (lg ++ ECall a r :: map (fun p => EPut (fst p) (snd p)) (skipn (length (outbound m)) (outbound m'))))).
    { apply no_empty_app. intros n [I|I]; [discriminate|]. apply in_map_iff in I as (x & X & _). discriminate. }
    split; [apply no_good, N|left; exact N].
  - destruct (user_runs stk); [|discriminate]. injection H as <-. pose proof (receive_called_empty sys m depth d stk lg) as N. split; [apply no_good, N|auto].
  - assert (X : st' = poll_called sys m i stk lg) by (destruct stk as [|[| | | |[|]] rest]; cbn in H; congruence). clear H. subst st'.
    destruct i as [|depth s src|e]; cbn [poll_called].
    + pose proof (poll_returns_empty sys m (Ok tt) stk lg) as N. split; [apply poll_returns_good|left; apply N; left; discriminate].
    + pose proof (receive_called_empty sys m depth (received (trans sys) s) (FRead :: stk) lg) as N. split; [apply no_good, N|auto].
    + split; [apply poll_returns_good|]. rewrite asyncore_read_id. destruct (flav sys) eqn:F.
      1, 2: left; apply poll_returns_empty; right; congruence.
      destruct e; try (left; apply poll_returns_empty; left; discriminate). right; right. unfold queue_empty_raised. auto.
  - destruct (user_runs stk); [|discriminate]. injection H as <-. split; [apply no_good|left]; noempty.
  - destruct stk as [|[| | | |[|]] rest]; try discriminate H. injection H as <-. unfold send_called.
    destruct (outbound m) as [|[om dst] q] eqn:O.
    + split; [|right; left; eauto]. apply loop_empty_good. exists []. rewrite app_nil_r. auto.
    + destruct (match om with None => Err AttributeError | Some msg => snd (message_encode msg) end) as [os|e] eqn:E.
      * destruct (sendto (trans sys) r) as [u|e] eqn:S.
        -- split; [apply no_good|left]; rewrite <- app_assoc; noempty.
        -- assert (D : e = QueueEmpty \/ e <> QueueEmpty) by (destruct e; auto; right; discriminate). destruct D as [->|D].
           ++ split; [|right; right; left; destruct (trans sys); cbn in S; congruence]. apply loop_empty_good. rewrite <- app_assoc. eexists; split; [reflexivity|].
              intros n [I|[I|[]]]; discriminate.
           ++ assert (N : no_empty lg (match e with QueueEmpty => loop_empty sys (mkMgr (nextRequestID m) q (callbacks m)) rest ((lg ++ [ETake om dst]) ++ [ESend os dst (Err e)])
                 | _ => run_raises (mkMgr (nextRequestID m) q (callbacks m)) e rest ((lg ++ [ETake om dst]) ++ [ESend os dst (Err e)]) end)).
              { destruct e; try congruence; unfold run_raises; rewrite <- !app_assoc; noempty. }
              split; [apply no_good|left]; exact N.
      * assert (D : decent e). { destruct om; [eapply message_encode_decent; exact E|injection E as <-; decent]. }
        assert (N : no_empty lg (match e with QueueEmpty => loop_empty sys (mkMgr (nextRequestID m) q (callbacks m)) rest (lg ++ [ETake om dst])
                 | _ => run_raises (mkMgr (nextRequestID m) q (callbacks m)) e rest (lg ++ [ETake om dst]) end)).
        { destruct D as [D _]. destruct e; try congruence; unfold run_raises; rewrite <- !app_assoc; noempty. }
        split; [apply no_good|left]; exact N.
  - destruct stk as [|[id| | | |p] rest]; try discriminate H.
    + cbn [after_response] in H.
      assert (N : forall m' r', r' <> Err QueueEmpty -> no_empty lg (receive_returns sys m' r' rest (lg ++ [EFinished id (Ok tt)]))).
      { intros m' r' R. apply (no_ext lg [EFinished id (Ok tt)]); [intros n [I|[]]; discriminate|apply receive_returns_ext|apply receive_returns_empty; auto]. }
      destruct (dict_get (callbacks m) id); injection H as <-.
      * split; [apply no_good|left]; apply N; discriminate.
      * split; [apply no_good|left]; apply N; destruct (flav sys); discriminate.
    + injection H as <-. split; [apply no_good|left]; (apply receive_returns_empty; left; discriminate).
    + injection H as <-. split; [apply no_good|left]; noempty.
  - assert (G : e = QueueEmpty /\ flav sys = FSM \/ (e <> QueueEmpty \/ flav sys <> FSM)).
    { destruct e; try (right; left; discriminate). destruct (flav sys); auto; right; right; discriminate. }
    destruct stk as [|[id| | | |p] rest]; try discriminate H.
    + cbn [after_response] in H. injection H as <-. split.
      * apply (good_ext sys lg [EFinished id (Err e)]); [intros n [I|[]]; discriminate|apply receive_returns_ext|apply receive_returns_good].
      * destruct G as [[-> F]|G]; [right; right; unfold queue_empty_raised; auto|left].
        apply (no_ext lg [EFinished id (Err e)]); [intros n [I|[]]; discriminate|apply receive_returns_ext|apply receive_returns_empty].
        destruct G as [G|G]; [left|right; exact G]. destruct (flav sys), e; cbn; congruence.
    + injection H as <-. split; [apply receive_returns_good|]. destruct G as [[-> F]|G]; [right; right; unfold queue_empty_raised; auto|left].
      apply receive_returns_empty. destruct G as [G|G]; [left|right; exact G]. destruct (flav sys), e; cbn; congruence.
    + destruct rest as [|[| | | |p] rest]; try discriminate H. injection H as <-. unfold run_raises. split; [apply no_good|left]; noempty.
Qed.

(** ** A queue-empty callback that never returns keeps v1 and v2 from polling *)
Fixpoint covered (stk : list frame) : Prop :=
  match stk with
  | [] => True
  | FEmpty :: FRun Polling :: r => covered r
  | FRun Polling :: _ => False
  | _ :: r => covered r
  end.
Lemma covered_tail f r : covered (f :: r) -> f <> FEmpty -> covered r.
Proof. destruct f as [| | | |[|]]; cbn; intros; auto; try congruence; contradiction. Qed.
Lemma loop_empty_covered sys m rest lg : queueEmpty sys <> None -> covered rest -> covered (stack (loop_empty sys m rest lg)).
Proof. unfold loop_empty, run_raises. destruct (queueEmpty sys) as [[|n]|]; cbn; congruence. Qed.
Lemma poll_returns_covered sys m r stk lg : queueEmpty sys <> None -> covered stk -> covered (stack (poll_returns sys m r stk lg)).
Proof.
  intros Q C. unfold poll_returns, run_raises. destruct stk as [|[| | | |p] rest]; cbn [stack]; auto.
  assert (C' : covered rest) by (apply covered_tail in C; [exact C|discriminate]).
  destruct r as [u|e]; [cbn; exact C'|]. destruct e, (flav sys); cbn [stack]; auto. apply loop_empty_covered; assumption.
Qed.
Lemma receive_returns_covered sys m r stk lg : queueEmpty sys <> None -> covered stk -> covered (stack (receive_returns sys m r stk lg)).
Proof.
  intros Q C. unfold receive_returns. destruct stk as [|[| | | |p] rest]; cbn [stack]; auto. apply poll_returns_covered; assumption.
Qed.
Lemma receive_called_covered sys m depth d stk lg : queueEmpty sys <> None -> covered stk -> covered (stack (receive_called sys m depth d stk lg)).
Proof.
  intros Q C. unfold receive_called. destruct (receiveData sys m depth d) as [a om]. destruct a as [r|id n|n].
  - apply receive_returns_covered; assumption.
  - destruct om; cbn [stack]; auto.
  - destruct om; cbn [stack]; auto.
Qed.
Lemma step_covered sys st l st' : flav sys <> FSM -> queueEmpty sys <> None -> covered (stack st) -> (l = LReturn -> ~ empty_running st) ->
  step sys st l = Some st' -> covered (stack st').
Proof.
  intros F Q C E. destruct st as [m stk lg]. destruct l as [a|depth d src|i| |r| |e]; cbn [step stack] in *; intros H.
  - destruct (user_runs stk); [|discriminate]. destruct (do_call _ _ _) as [m' r]. injection H as <-. exact C.
  - destruct (user_runs stk); [|discriminate]. injection H as <-. apply receive_called_covered; assumption.
  - assert (X : st' = poll_called sys m i stk lg) by (clear -H; destruct stk as [|[| | | |[|]] rest]; cbn in H; congruence). clear H. subst st'.
    destruct i as [|depth s src|e]; cbn [poll_called]; try (apply poll_returns_covered; assumption).
    apply receive_called_covered; [assumption|]. exact C.
  - destruct (user_runs stk); [|discriminate]. injection H as <-. destruct (flav sys); [exact C|exact C|congruence].
  - destruct stk as [|[| | | |[|]] rest]; try discriminate H. injection H as <-. cbn in C. unfold send_called.
    assert (G : forall e m0 lg0, covered (stack (match e with QueueEmpty => loop_empty sys m0 rest lg0 | _ => run_raises m0 e rest lg0 end))).
    { intros e m0 lg0. destruct e; try exact C. apply loop_empty_covered; assumption. }
    destruct (outbound m) as [|[om dst] q]; [apply loop_empty_covered; assumption|].
    destruct (match om with None => _ | _ => _ end); [|apply G]. destruct (sendto (trans sys) r); [|apply G].
    cbn [stack]. destruct (flav sys); [exact C|exact C|congruence].
  - destruct stk as [|[id| | | |p] rest]; try discriminate H.
    + destruct (after_response _ _ _ _) as [m' r']. injection H as <-. apply receive_returns_covered; assumption.
    + injection H as <-. apply receive_returns_covered; assumption.
    + exfalso. apply E; [reflexivity|]. exists rest. reflexivity.
  - destruct stk as [|[id| | | |p] rest]; try discriminate H.
    + destruct (after_response _ _ _ _) as [m' r']. injection H as <-. apply receive_returns_covered; assumption.
    + injection H as <-. apply receive_returns_covered; assumption.
    + destruct rest as [|[| | | |p] rest]; try discriminate H. injection H as <-. destruct p; exact C.
Qed.
Lemma exec_covered sys tr st : flav sys <> FSM -> queueEmpty sys <> None -> exec sys tr = Some st -> empty_never_returns sys tr -> covered (stack st).
Proof.
  intros F Q. revert st. induction tr as [|l tr IH] using rev_ind; intros st H E.
  - inversion H; subst. exact Logic.I.
  - unfold exec in H. apply steps_snoc in H as (st1 & H & S). eapply step_covered; [exact F|exact Q| | |exact S].
    + apply IH; [exact H|]. intros tr1 tr2 st2 X. apply (E tr1 (tr2 ++ [l]) st2). rewrite X, <- app_assoc. reflexivity.
    + intros ->. apply (E tr [] st1); [reflexivity|exact H].
Qed.
Lemma starved sys tr st : flav sys <> FSM -> queueEmpty sys <> None -> exec sys tr = Some st -> empty_never_returns sys tr ->
  forall tr1 i tr2 st1, tr = tr1 ++ LPoll i :: tr2 -> exec sys tr1 = Some st1 -> user_runs (stack st1) = true.
Proof.
  intros F Q H E tr1 i tr2 st1 -> H1.
  assert (C : covered (stack st1)).
  { eapply exec_covered; eauto. intros a b st2 X. apply (E a (b ++ LPoll i :: tr2) st2). rewrite X, <- app_assoc. reflexivity. }
  unfold exec in H. rewrite (ProofsHistory.steps_app) in H. unfold exec in H1. rewrite H1 in H. cbn [steps] in H.
  destruct (step sys st1 (LPoll i)) as [st2|] eqn:S; [|discriminate]. destruct st1 as [m stk lg]. cbn [stack step] in *.
  destruct stk as [|[| | | |[|]] rest]; try reflexivity; try contradiction; discriminate S.
Qed.
Lemma starved_silent sys tr st : flav sys <> FSM -> queueEmpty sys <> None -> exec sys tr = Some st -> empty_never_returns sys tr ->
  only_run_receives sys tr -> Forall (fun e => is_invocation e = false) (log st).
Proof.
  intros F Q H E [N1 N2]. apply Forall_forall. intros e I. apply in_split in I as (l1 & l2 & L).
  assert (X : forall tr1 l tr2 st1 depth d, tr = tr1 ++ l :: tr2 -> exec sys tr1 = Some st1 -> delivery sys st1 l depth d -> False).
  { intros tr1 l tr2 st1 depth d T Ex D. destruct l as [a|depth' d' src|i| |r| |x]; cbn in D; try contradiction.
    - subst. apply (N1 depth' d' src). apply in_elt.
    - pose proof (starved _ _ _ F Q H E _ _ _ _ T Ex). pose proof (N2 _ _ _ _ T Ex). congruence. }
  destruct e; try reflexivity; exfalso.
  - destruct (invoke_event _ _ _ _ _ _ _ _ H L) as (tr1 & l & tr2 & st1 & depth & d & A & B & _ & D & _). eapply X; eauto.
  - destruct (trap_event _ _ _ _ _ _ _ H L) as (_ & _ & tr1 & l & tr2 & st1 & depth & d & A & B & _ & D & _). eapply X; eauto.
Qed.
