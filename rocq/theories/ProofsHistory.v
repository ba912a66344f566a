(** * Proofs about histories of a manager. *)
From Coq Require Import ZArith List Bool Lia ZifyBool ZifyNat Sorted.
From Verif Require Import PyBase Classes Values Codec Manager SpecManager ProofsManager.
Import ListNotations.
Open Scope Z_scope.

(** ** Executions, from the last step *)
Lemma steps_app sys tr1 : forall tr2 st, steps sys st (tr1 ++ tr2) = match steps sys st tr1 with Some st1 => steps sys st1 tr2 | None => None end.
Proof. induction tr1 as [|l tr1 IH]; cbn; intros; [reflexivity|]. destruct (step sys st l); [apply IH|reflexivity]. Qed.
Lemma steps_snoc sys st tr l st' : steps sys st (tr ++ [l]) = Some st' <-> exists st1, steps sys st tr = Some st1 /\ step sys st1 l = Some st'.
Proof.
  rewrite steps_app. destruct (steps sys st tr) as [st1|]; cbn.
  - destruct (step sys st1 l) eqn:E; split.
    + intros H; inversion H; subst. eauto.
    + intros (s0 & H & F). congruence.
    + discriminate.
    + intros (s0 & H & F). congruence.
  - split; [discriminate|]. intros (s0 & H & _). discriminate.
Qed.
Lemma effect_log sys st l st' : effect sys st l st' -> exists new, log st' = log st ++ new.
Proof. intros H. destruct H; cbn; eauto. Qed.
Lemma step_log sys st l st' : step sys st l = Some st' -> exists new, log st' = log st ++ new.
Proof. intros H. apply step_effect in H. eapply effect_log; exact H. Qed.
Lemma steps_log sys tr : forall st st', steps sys st tr = Some st' -> exists new, log st' = log st ++ new.
Proof.
  induction tr as [|l tr IH]; cbn; intros st st' H.
  - inversion H; subst. exists []. rewrite app_nil_r. reflexivity.
  - destruct (step sys st l) as [st1|] eqn:E; [|discriminate]. apply step_log in E as (n1 & E). apply IH in H as (n2 & H).
    exists (n1 ++ n2). rewrite H, E, app_assoc. reflexivity.
Qed.
(** Every event of the log was appended by some step. *)
Lemma steps_event sys tr : forall st l1 e l2, exec sys tr = Some st -> log st = l1 ++ e :: l2 ->
  exists tr1 lb tr2 st1 st2 n1 n2, tr = tr1 ++ lb :: tr2 /\ exec sys tr1 = Some st1 /\ step sys st1 lb = Some st2 /\
    steps sys st2 tr2 = Some st /\ log st2 = log st1 ++ n1 ++ e :: n2 /\ l1 = log st1 ++ n1.
Proof.
  induction tr as [|l tr IH] using rev_ind; intros st l1 e l2 H L.
  - inversion H; subst. destruct l1; discriminate.
  - unfold exec in H. apply steps_snoc in H as (st1 & H & S). destruct (step_log _ _ _ _ S) as (new & N).
    rewrite N in L. apply app_split in L as [(l2' & -> & E)|(l1' & -> & E)].
    + destruct (IH _ _ _ _ H E) as (tr1 & lb & tr2 & s1 & s2 & n1 & n2 & -> & A & B & C & D & F).
      exists tr1, lb, (tr2 ++ [l]), s1, s2, n1, n2. rewrite <- app_assoc. split; [reflexivity|]. repeat split; auto.
      apply steps_snoc. eauto.
    + exists tr, l, [], st1, st, l1', l2. repeat split; auto. rewrite N, E. reflexivity.
Qed.

(** ** Ids handed out *)
Lemma handed_app a b : handed_out (a ++ b) = handed_out a ++ handed_out b.
Proof. apply flat_map_app. Qed.
Lemma handed_quiet q : Forall quiet q -> handed_out q = [].
Proof. induction 1 as [|e q Q H IH]; [reflexivity|]. destruct e; try contradiction; exact IH. Qed.
Lemma handed_puts l : handed_out (map (fun p => EPut (fst p) (snd p)) l) = [].
Proof. induction l; [reflexivity|]. exact IHl. Qed.
Lemma mmap_msg (x : M message) m m' r : makes x -> mmap RMsg x m = (m', r) ->
  match r with
  | Ok v => exists msg c k tl, v = RMsg msg /\ m_data msg = VSeq c (VInt k (nextRequestID m) :: tl) /\ nextRequestID m' = nextRequestID m + 1
  | Err _ => nextRequestID m' = nextRequestID m \/ nextRequestID m' = nextRequestID m + 1
  end.
Proof.
  intros K H. unfold mmap in H. destruct (x m) as [m1 r1] eqn:E. apply K in E as (_ & _ & N & S).
  destruct r1 as [msg|e]; inversion H; subst; [|assumption].
  destruct S as (N' & c & k & e & i & v & D). eauto 8.
Qed.
Lemma handed_call f a m m' r : do_call f a m = (m', r) ->
  match r with
  | Err _ => handed_by (ECall a r) = [] /\ (nextRequestID m' = nextRequestID m \/ nextRequestID m' = nextRequestID m + 1)
  | Ok _ => (handed_by (ECall a r) = [nextRequestID m] /\ nextRequestID m' = nextRequestID m + 1) \/
            (handed_by (ECall a r) = [] /\ nextRequestID m' = nextRequestID m)
  end.
Proof.
  intros H. destruct (request_callback a) as [cb|] eqn:R.
  - pose proof (requests_call _ _ _ _ _ _ R H) as X. destruct r as [v|e].
    + destruct X as (msg & remote & c & k & e & i & vbl & -> & _ & ->). left. split; reflexivity.
    + split; [reflexivity|]. tauto.
  - assert (MM : forall x, makes x -> mmap RMsg x m = (m', r) -> match r with
  | Err _ => handed_by (ECall a r) = [] /\ (nextRequestID m' = nextRequestID m \/ nextRequestID m' = nextRequestID m + 1)
  | Ok _ => (handed_by (ECall a r) = [nextRequestID m] /\ nextRequestID m' = nextRequestID m + 1) \/
            (handed_by (ECall a r) = [] /\ nextRequestID m' = nextRequestID m)
  end).
    { intros x K X. apply mmap_msg in X; [|exact K]. destruct r as [v|e].
      - destruct X as (msg & c & k & tl & -> & D & N). left. cbn. rewrite D. auto.
      - split; [reflexivity|exact X]. }
    destruct a; cbn in R; try discriminate R; cbn [do_call] in H.
    + unfold mmap, snmpTrap, mbind in H. destruct f; cbn [createTrapMessage] in H.
      * inversion H; subst. right. split; reflexivity.
      * inversion H; subst. right. split; reflexivity.
      * destruct (_ || _); inversion H; subst; [split; auto|]. right. split; reflexivity.
    + inversion H; subst. left. split; reflexivity.
    + eapply MM; [apply makes_get|exact H].
    + eapply MM; [apply makes_getnext|exact H].
    + destruct f; try (inversion H; subst; split; auto; fail). eapply MM; [apply makes_set|exact H].
Qed.
Record hinv (st : state) : Prop := mkH {
  h_range : Forall (fun z => 0 <= z < nextRequestID (man st)) (handed_out (log st));
  h_sorted : StronglySorted Z.lt (handed_out (log st));
  h_dense : Forall (fun e => ~ call_failed e) (log st) -> nextRequestID (man st) = Z.of_nat (length (handed_out (log st))) /\
            handed_out (log st) = map Z.of_nat (seq 0 (length (handed_out (log st))));
  h_count : Z.of_nat (length (handed_out (log st))) <= nextRequestID (man st) <= Z.of_nat (length (handed_out (log st)) + failures (log st)) }.
Lemma failures_app a b : failures (a ++ b) = (failures a + failures b)%nat.
Proof. unfold failures. rewrite filter_app, app_length. reflexivity. Qed.
Lemma seq_snoc n : seq 0 (S n) = seq 0 n ++ [n].
Proof. replace (S n) with (n + 1)%nat by lia. rewrite seq_app. reflexivity. Qed.
Lemma hinv_other st st' new : hinv st -> man st' = man st \/ nextRequestID (man st') = nextRequestID (man st) -> log st' = log st ++ new -> handed_out new = [] -> hinv st'.
Proof.
  intros [A B C D] M L N. assert (M' : nextRequestID (man st') = nextRequestID (man st)) by (destruct M as [->|M]; auto). clear M.
  split; rewrite ?L, ?handed_app, ?N, ?app_nil_r, ?M'; auto.
  - intros F. apply Forall_app in F as [F _]. auto.
  - rewrite failures_app. lia.
Qed.
Lemma hinv_step sys st l st' : 0 <= nextRequestID (man st) -> hinv st -> step sys st l = Some st' -> hinv st'.
Proof.
  intros P I H. apply step_effect in H. destruct H as
    [a m m' r stk lg H|m stk lg l stk' q L Q S|m stk lg l stk' id n msg r depth d L D Pd R1 R2 PE S KK
    |m stk lg l stk' n msg dpt dt L T Pd S DT KT|m id rest lg r m' r' stk' q l L A Q S|m om dst q stk lg s qq stk' sr O SS Q SN S].
  - apply handed_call in H. destruct I as [A B C D]. cbn [man log] in *.
    set (new := ECall a r :: map (fun p => EPut (fst p) (snd p)) (skipn (length (outbound m)) (outbound m'))).
    assert (HN : handed_out new = handed_by (ECall a r)). { unfold new, handed_out. cbn [flat_map]. fold (handed_out (map (fun p => EPut (fst p) (snd p)) (skipn (length (outbound m)) (outbound m')))). rewrite handed_puts. apply app_nil_r. }
    assert (NF : Forall (fun e => ~ call_failed e) (lg ++ new) -> Forall (fun e => ~ call_failed e) lg /\ exists v, r = Ok v).
    { intros F. apply Forall_app in F as [F1 F2]. split; [assumption|]. inversion F2 as [|? ? F3 _]; subst. destruct r as [v|e]; [eauto|]. exfalso. apply F3. exists a, e. reflexivity. }
    assert (NG : failures new = match r with Ok _ => 0%nat | Err _ => 1%nat end).
    { unfold new, failures. cbn [filter]. assert (Z0 : filter (fun e => match e with ECall _ (Err _) => true | _ => false end) (map (fun p => EPut (fst p) (snd p)) (skipn (length (outbound m)) (outbound m'))) = []).
      { generalize (skipn (length (outbound m)) (outbound m')). clear. induction l; [reflexivity|]. exact IHl. }
      destruct r; rewrite Z0; reflexivity. }
    clearbody new.
    assert (K : (handed_by (ECall a r) = [nextRequestID m] /\ nextRequestID m' = nextRequestID m + 1) \/
                (handed_by (ECall a r) = [] /\ (nextRequestID m' = nextRequestID m \/ nextRequestID m' = nextRequestID m + 1))).
    { destruct r; tauto. }
    split; cbn [man log]; rewrite ?handed_app, ?HN.
    + apply Forall_app. split; [eapply Forall_impl; [|exact A]; cbn; intros; lia|].
      destruct K as [[-> K]|[-> K]]; [|constructor]. constructor; [lia|constructor].
    + destruct K as [[-> K]|[-> K]]; [|rewrite app_nil_r; assumption]. apply sorted_snoc; [assumption|].
      eapply Forall_impl; [|exact A]. cbn. intros; lia.
    + intros F. apply NF in F as [F (v & ->)]. destruct (C F) as [C1 C2].
      destruct H as [[-> K']|[-> K']].
      * rewrite app_length. cbn [length]. split; [lia|]. replace (length (handed_out lg) + 1)%nat with (S (length (handed_out lg))) by lia.
        rewrite seq_snoc, map_app. cbn [map]. rewrite <- C1, <- C2. reflexivity.
      * rewrite app_nil_r. split; [lia|assumption].
    + rewrite failures_app, NG, app_length. destruct r as [v|e].
      * destruct H as [[-> K']|[-> K']]; cbn [length]; lia.
      * destruct H as [-> K']. cbn [length]. lia.
  - eapply hinv_other; [exact I|left; reflexivity|reflexivity|apply handed_quiet; assumption].
  - eapply hinv_other; [exact I|left; reflexivity|reflexivity|reflexivity].
  - eapply hinv_other; [exact I|left; reflexivity|reflexivity|reflexivity].
  - eapply hinv_other; [exact I| |reflexivity|].
    + right. cbn [man]. destruct r as [[]|e]; cbn in A; [destruct (dict_get (callbacks m) id)|]; inversion A; reflexivity.
    + unfold handed_out; cbn [flat_map handed_by app]. apply handed_quiet. assumption.
  - eapply hinv_other; [exact I|right; reflexivity|reflexivity|].
    destruct SS as [->|(os & rr & ->)]; exact (handed_quiet qq Q).
Qed.
Lemma exec_hinv sys tr st : exec sys tr = Some st -> hinv st.
Proof.
  revert st. induction tr as [|l tr IH] using rev_ind; intros st H.
  - inversion H; subst. split; cbn; [constructor|constructor|auto|lia].
  - unfold exec in H. apply steps_snoc in H as (st1 & H & S). eapply hinv_step; [|apply IH; exact H|exact S].
    apply (i_next _ (exec_inv sys tr st1 H)).
Qed.

(** ** Requests are pending until their callback returns *)
Lemma normal_app id a b : normal_finishes id (a ++ b) = (normal_finishes id a + normal_finishes id b)%nat.
Proof. unfold normal_finishes. rewrite filter_app, app_length. reflexivity. Qed.
Definition settled (st : state) : Prop := forall id cb, In (id, cb) (issued (log st)) ->
  pending (man st) id cb \/ (1 <= normal_finishes id (log st))%nat.
Lemma settled_other st st' new : settled st -> man st' = man st \/ callbacks (man st') = callbacks (man st) -> log st' = log st ++ new -> issued new = [] -> settled st'.
Proof.
  intros I M L N id cb X. assert (M' : callbacks (man st') = callbacks (man st)) by (destruct M as [->|M]; auto). clear M.
  rewrite L, issued_app, N, app_nil_r in X. destruct (I id cb X) as [P|P].
  - left. unfold pending in *. rewrite M'. exact P.
  - right. rewrite L, normal_app. lia.
Qed.
Lemma issued_call f a m m' r : do_call f a m = (m', r) ->
  (issued_by (ECall a r) = [] /\ callbacks m' = callbacks m) \/
  exists cb, issued_by (ECall a r) = [(nextRequestID m, cb)] /\ callbacks m' = dict_set (callbacks m) (nextRequestID m) cb.
Proof.
  intros H. destruct (request_callback a) as [cb|] eqn:R.
  - pose proof (requests_call _ _ _ _ _ _ R H) as X. destruct r as [v|e].
    + destruct X as (msg & remote & c & k & e & i & vbl & -> & _ & ->). right. exists cb. cbn. rewrite R. split; reflexivity.
    + left. split; [reflexivity|tauto].
  - pose proof (other_call _ _ _ _ _ R H) as (C & _ & _). left. split; [|exact C]. cbn. destruct r as [[]|]; rewrite ?R; reflexivity.
Qed.
Lemma settled_step sys st l st' : inv st -> settled st -> step sys st l = Some st' -> settled st'.
Proof.
  intros I G H. apply step_effect in H. destruct H as
    [a m m' r stk lg H|m stk lg l stk' q L Q S|m stk lg l stk' id n msg r depth d L D Pd R1 R2 PE S KK
    |m stk lg l stk' n msg dpt dt L T Pd S DT KT|m id rest lg r m' r' stk' q l L A Q S|m om dst q stk lg s qq stk' sr O SS Q SN S].
  - apply issued_call in H. intros id cb X. cbn [man log] in *.
    pose proof (i_range _ I) as RG. cbn [man log] in RG. rewrite Forall_forall in RG.
    rewrite issued_app in X. rewrite normal_app.
    replace (issued (ECall a r :: map (fun p => EPut (fst p) (snd p)) (skipn (length (outbound m)) (outbound m')))) with (issued_by (ECall a r)) in X.
    2:{ unfold issued; cbn [flat_map]. pose proof (put_events (skipn (length (outbound m)) (outbound m'))) as [E _]. unfold issued in E. rewrite E, app_nil_r. reflexivity. }
    destruct H as [[IB C]|(cb' & IB & C)]; rewrite IB in X.
    + rewrite app_nil_r in X. destruct (G id cb X) as [P|P]; [left; unfold pending in *; rewrite C; exact P|right; cbn [log] in P; lia].
    + apply in_app_or in X as [X|[X|[]]].
      * destruct (G id cb X) as [P|P]; [|right; cbn [log] in P; lia]. left. unfold pending in *. cbn [man] in P. rewrite C, dict_get_set.
        specialize (RG _ X). cbn in RG. destruct (nextRequestID m =? id) eqn:Z; [lia|exact P].
      * inversion X; subst. left. unfold pending. rewrite C, dict_get_set, Z.eqb_refl. reflexivity.
  - eapply settled_other; [exact G|left; reflexivity|reflexivity|]. apply (quiet_nil q Q).
  - eapply settled_other; [exact G|left; reflexivity|reflexivity|reflexivity].
  - eapply settled_other; [exact G|left; reflexivity|reflexivity|reflexivity].
  - pose proof (i_nodup _ I) as ND. cbn [man] in ND.
    intros i cb X. cbn [man log] in *. rewrite issued_app in X.
    replace (issued (EFinished id r :: q)) with (@nil (Z * cbval)) in X by (symmetry; apply (quiet_nil q Q)).
    rewrite app_nil_r in X. rewrite normal_app.
    destruct (G i cb X) as [P|P]; [|right; cbn [log] in P; lia]. unfold pending in *. cbn [man] in P.
    destruct r as [[]|e]; cbn in A.
    + destruct (id =? i) eqn:Z.
      * right. unfold normal_finishes at 2. cbn [filter]. rewrite Z. cbn. lia.
      * left. destruct (dict_get (callbacks m) id); inversion A; subst; [|exact P]. cbn. rewrite dict_get_del, Z by assumption. exact P.
    + left. inversion A; subst. exact P.
  - eapply settled_other; [exact G|right; reflexivity|reflexivity|].
    destruct SS as [->|(os & rr & ->)]; apply (quiet_nil qq Q).
Qed.
Lemma exec_settled sys tr st : exec sys tr = Some st -> settled st.
Proof.
  revert st. induction tr as [|l tr IH] using rev_ind; intros st H.
  - inversion H; subst. intros id cb [].
  - unfold exec in H. apply steps_snoc in H as (st1 & H & S). eapply settled_step; [|apply IH; exact H|exact S].
    exact (exec_inv sys tr st1 H).
Qed.
Lemma count_split {A} (f : A -> bool) l : (1 <= length (filter f l))%nat -> exists l1 x l2, l = l1 ++ x :: l2 /\ f x = true /\ filter f l1 = [].
Proof.
  induction l as [|y l IH]; cbn; intros H; [lia|]. destruct (f y) eqn:E.
  - exists [], y, l. auto.
  - destruct (IH H) as (l1 & x & l2 & -> & F & G). exists (y :: l1), x, l2. cbn. rewrite E. auto.
Qed.
Lemma normal_split id l : (1 <= normal_finishes id l)%nat -> exists l1 l2, l = l1 ++ EFinished id (Ok tt) :: l2 /\ normal_finishes id l1 = 0%nat.
Proof.
  intros H. apply count_split in H as (l1 & x & l2 & -> & F & G). destruct x as [| | | | | |i [[]|]| |]; try discriminate F. apply Z.eqb_eq in F. subst.
  exists l1, l2. split; [reflexivity|]. unfold normal_finishes. rewrite G. reflexivity.
Qed.
Lemma pending_not_finished sys tr st id cb : exec sys tr = Some st -> pending (man st) id cb -> normal_finishes id (log st) = 0%nat.
Proof.
  intros H P. destruct (normal_finishes id (log st)) eqn:E; [reflexivity|]. exfalso.
  destruct (normal_split id (log st)) as (l1 & l2 & L & _); [lia|].
  destruct (i_done _ (exec_inv sys tr st H) _ _ _ L) as (_ & D & _). unfold pending in P. congruence.
Qed.

(** ** Normal returns *)
Lemma last_invocation id l : (1 <= invocations id l)%nat -> exists p n msg q, l = p ++ EInvoke id n msg :: q /\ invocations id q = 0%nat.
Proof.
  induction l as [|e l IH]; cbn; intros H; [unfold invocations in H; cbn in H; lia|].
  destruct (invocations id l) eqn:E.
  - assert (X : exists n msg, e = EInvoke id n msg).
    { unfold invocations in *. cbn [filter] in H. destruct e; cbn in H; try lia. destruct (id0 =? id) eqn:Z; [|lia]. apply Z.eqb_eq in Z. subst. eauto. }
    destruct X as (n & msg & ->). exists [], n, msg, l. auto.
  - destruct IH as (p & k & msg & q & -> & Q); [lia|]. exists (e :: p), k, msg, q. auto.
Qed.
Lemma one_normal sys tr st id : exec sys tr = Some st ->
  (forall l1 n msg l2, log st = l1 ++ EInvoke id n msg :: l2 -> invocations id l1 = finishes id l1) ->
  (normal_finishes id (log st) <= 1)%nat.
Proof.
  intros H N. pose proof (exec_inv sys tr st H) as I.
  destruct (normal_finishes id (log st)) as [|n] eqn:E; [lia|].
  destruct (normal_split id (log st)) as (l1 & l2 & L & F1); [lia|].
  destruct (i_done _ I _ _ _ L) as (D & _ & _). pose proof (i_active _ I id) as A.
  rewrite L in A. rewrite invocations_app, finishes_app in A.
  replace (invocations id (EFinished id (Ok tt) :: l2)) with (invocations id l2) in A by reflexivity. rewrite D in A.
  assert (Fl : finishes id (EFinished id (Ok tt) :: l2) = S (finishes id l2)). { unfold finishes. cbn [filter]. rewrite Z.eqb_refl. reflexivity. }
  rewrite Fl in A.
  assert (Ge : (invocations id l1 <= finishes id l1 + 1)%nat).
  { destruct (invocations id l1) as [|k] eqn:Ei; [lia|]. destruct (last_invocation id l1) as (p & nn & msg & q & El & Q); [lia|].
    rewrite El in L. rewrite <- app_assoc in L. cbn [app] in L. specialize (N _ _ _ _ L).
    rewrite <- Ei, El, invocations_app, finishes_app.
    assert (Eq : invocations id (EInvoke id nn msg :: q) = 1%nat). { unfold invocations in *. cbn [filter]. rewrite Z.eqb_refl. cbn [length]. lia. }
    rewrite Eq. lia. }
  assert (Z2 : finishes id l2 = 0%nat) by lia.
  assert (Le : forall l, (normal_finishes id l <= finishes id l)%nat).
  { induction l as [|e l IH]; [reflexivity|]. unfold normal_finishes, finishes in *. cbn [filter]. destruct e as [| | | | | |i [[]|]| |]; try exact IH.
    - destruct (i =? id); cbn [length]; lia.
    - destruct (i =? id); cbn [length]; lia. }
  specialize (Le l2). rewrite L, normal_app, F1 in E. unfold normal_finishes in E at 1. cbn [filter] in E. rewrite Z.eqb_refl in E. cbn [length] in E.
  fold (normal_finishes id l2) in E. lia.
Qed.
