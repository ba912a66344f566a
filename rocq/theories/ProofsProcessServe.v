(** * One poll of any manager delivers every waiting answer. *)
From Coq Require Import ZArith List Bool Lia.
From Verif Require Import PyBase Classes Values Codec SpecSMI SpecTree SpecWire SpecMsg Manager Role Asyn Process SpecManager SpecProcess ProofsAsyn ProofsAsynPoll ProofsAsynLog ProofsHistory ProofsManager ProofsMsg ProofsReceive ProofsRun ProofsProcess ProofsProcessStep ProofsProcessStack ProofsProcessLog ProofsProcessMore ProofsProcessCalm ProofsProcessClose SpecAsyn SpecServe.
Import ListNotations.
Open Scope Z_scope.

(** ** asyncore, step by step *)
Fixpoint serving (p : nat) (k : list aframe) (l : list delivery) (A : astate) : Prop :=
  match l with
  | [] => astack A = k /\ reached A = WPolled p (Ok tt)
  | v :: l' => reached A = WGot (v_mgr v) (v_data v) (v_src v) /\
      exists A' next, astep A AReturn = Some A' /\ alog A' = alog A ++ ECbEnd (v_mgr v) (Ok tt) :: next /\
        next = match l' with [] => [EPollEnd p (Ok tt)] | v' :: _ => handed v' end /\ serving p k l' A'
  end.
Definition first_events (p : nat) (l : list delivery) : list aevent := match l with [] => [EPollEnd p (Ok tt)] | v :: _ => handed v end.
Lemma reached_end st p r es : alog st = es ++ [EPollEnd p r] -> reached st = WPolled p r.
Proof. intros L. unfold reached. rewrite L, rev_app_distr. reflexivity. Qed.
Lemma reached_data st o d a es : alog st = es ++ [ECb o (Data d a)] -> reached st = WGot o d a.
Proof. intros L. unfold reached. rewrite L, rev_app_distr. reflexivity. Qed.
Lemma serve_steps p k : forall es st l, sound st -> incl es (smap st) -> NoDup (map fst es) -> flat_map (first_of st) es = map as_waiting l ->
  let A := serve st p (filter (reported st) (map fst es)) k in alog A = alog st ++ first_events p l /\ serving p k l A.
Proof.
  induction es as [|[fd o] es IH]; intros st l S In1 N E A.
  - destruct l; [|discriminate]. cbn in A. subst A. split; [reflexivity|]. split; [reflexivity|]. eapply reached_end. reflexivity.
  - subst A. assert (I : In (fd, o) (smap st)) by (apply In1; left; reflexivity). assert (In2 : incl es (smap st)) by (intros z Z; apply In1; right; exact Z).
    inversion N as [|? ? N1 N2]; subst. cbn [map fst filter flat_map] in *. destruct (first_cases st fd o S I) as [[F R]|(m & s & ks & x & q & F & R & O & Ro & Ns & Op & Q)]; rewrite F in E; rewrite R; cbn [app] in E.
    + apply (IH st l S In2 N2 E).
    + destruct l as [|v l]; [discriminate|]. cbn [map] in E. injection E as Eo Es Ex E. subst o s x.
      cbn [serve]. rewrite (map_get_nodup _ _ _ (h_nodup _ S) I).
      destruct (serve_one st p (filter (reported st) (map fst es)) k fd (v_mgr v) m (v_sock v) ks (v_data v) (v_src v) q S I O Ro Ns Op Q) as (st1 & E1 & Sh & St & Lg & Q1 & Q2).
      rewrite E1. split; [exact Lg|]. cbn [serving]. split; [eapply (reached_data st1 _ _ _ (alog st ++ [ERecv (v_sock v) (Ok (v_data v, v_src v))])); rewrite Lg, <- app_assoc; reflexivity|].
      cbn [astep]. rewrite St. set (st2 := say st1 (ECbEnd (v_mgr v) (Ok tt))).
      assert (Sh2 : same_shape st st2) by exact Sh. assert (S2 : sound st2) by (eapply sound_shape; [exact S|assumption]).
      assert (Q2' : forall t, t <> v_sock v -> queued st2 t = queued st t) by exact Q2.
      destruct (rest_same st st2 fd (v_mgr v) (v_sock v) es S S2 Sh2 I (ex_intro _ m (conj O Ro)) Q2' In2 N1) as [R1 R2].
      rewrite <- R1. destruct (IH st2 l S2) as [C D].
      { destruct Sh2 as (_ & M & _). rewrite M. exact In2. } { exact N2. } { rewrite R2. exact E. }
      eexists. exists (first_events p l). split; [reflexivity|]. split; [rewrite C; unfold st2; cbn [say alog]; rewrite <- app_assoc; reflexivity|]. split; [reflexivity|exact D].
Qed.
Lemma poll_steps st p l : sound st -> auser (astack st) = true -> obj st p <> None -> waiting st = map as_waiting l ->
  exists A, astep st (APoll p) = Some A /\ alog A = alog st ++ EPoll p :: first_events p l /\ serving p (astack st) l A.
Proof.
  intros S U O W. cbn [astep]. unfold with_obj. rewrite U. destruct (obj st p) as [m|]; [|contradiction]. eexists. split; [reflexivity|].
  unfold apoll. rewrite (all_open st S). rewrite <- (reported_say st (EPoll p)).
  destruct (serve_steps p (astack st) (smap st) (say st (EPoll p)) l) as [A B]; [exact (sound_shape _ _ S (shape_say _ _))|apply incl_refl|apply (h_nodup _ S)|exact W|].
  split; [|exact B]. rewrite A. cbn [say alog]. rewrite <- app_assoc. reflexivity.
Qed.
(** Each manager is served once. *)
Lemma waiting_once st l : sound st -> waiting st = map as_waiting l -> NoDup (map v_mgr l).
Proof.
  intros S W. rewrite waiting_eq in W. assert (Q : map v_mgr l = map (fun x => fst (fst x)) (flat_map (first_of st) (smap st))) by (rewrite W, map_map; reflexivity). rewrite Q. clear W Q l.
  pose proof (h_nodup _ S) as N. assert (In1 : incl (smap st) (smap st)) by apply incl_refl. revert N In1. generalize (smap st) at 1 2 4. induction l as [|[fd o] es IH]; intros N In1; [constructor|].
  inversion N as [|? ? N1 N2]; subst. cbn [flat_map]. rewrite map_app. assert (I : In (fd, o) (smap st)) by (apply In1; left; reflexivity). assert (In2 : incl es (smap st)) by (intros z Z; apply In1; right; exact Z).
  specialize (IH N2 In2). destruct (first_cases st fd o S I) as [[F R]|(m & s & ks & x & q & F & R & O & Ro & Ns & Op & Q)]; rewrite F; [exact IH|]. cbn. constructor; [|exact IH].
  intros J. apply in_map_iff in J as ([[o' s'] x'] & Eo & J). cbn in Eo. subst o'. apply in_flat_map in J as ([g y] & J & F'). pose proof (In2 _ J) as Jm.
  destruct (first_cases st g y S Jm) as [[F1 _]|(m1 & s1 & k1 & x1 & q1 & F1 & _)]; rewrite F1 in F'; [destruct F'|]. destruct F' as [F'|[]]. injection F' as -> _ _.
  apply N1. destruct (h_map _ S _ _ I) as (a1 & a2 & a3 & B1 & B2 & _ & B4 & _). destruct (h_map _ S _ _ Jm) as (c1 & c2 & c3 & D1 & D2 & _ & D4 & _).
  assert (fd = g) as -> by congruence. apply in_map_iff. exists (g, o). auto.
Qed.

(** ** The process *)
Definition tidy (w : world) : Prop := forall q sys m, man_of w q = Some (sys, m) -> NoDup (map fst (callbacks m)).
Lemma wexec_tidy tr w : wexec tr = Some w -> tidy w.
Proof.
  intros E q sys m M. destruct (alone _ _ _ _ _ E M) as (_ & tr' & st & X & <- & _). apply (i_nodup _ (exec_inv _ _ _ X)).
Qed.
Lemma expects_receive w depth x : expects w depth x -> exists sys m msg, man_of w (x_mgr x) = Some (sys, m) /\ dict_get (callbacks m) (x_id x) = Some (Cb (x_cb x)) /\
  receiveData sys m depth (DStr (v_data (x_del x))) = (InvokeResponse (x_id x) (x_cb x), Some msg) /\ tree_of (m_data msg) = Some (x_pdu x).
Proof.
  intros (sys & m & strict & ver & com & M & Im & P & W & R & H & RT & k & s & i & bs & E). unfold pending in P.
  destruct (ProofsReceive.receive_message sys m strict ver com (x_pdu x) _ Im W R) as (msg & T0 & T1 & T2 & Rg & Rd). exists sys, m, msg. split; [exact M|]. split; [exact P|]. split; [|exact T2].
  rewrite (Rd depth H), RT. rewrite E in T2, RT. assert (K : request_kind k = true).
  { cbn in RT. unfold reaction_to, plain_reaction in RT. destruct (flav sys); repeat match type of RT with context [if ?b then _ else _] => destruct b end; destruct k; try reflexivity; discriminate RT. }
  destruct (request_object _ _ _ _ _ _ _ K T2 Rg) as (c & kr & rest & Em & _ & _ & _).
  assert (RA : response_action m (m_data msg) = InvokeResponse (x_id x) (x_cb x)) by (rewrite Em; cbn; rewrite P; reflexivity). rewrite RA. reflexivity.
Qed.
Lemma man_upd w o sys m q A k wl : man_of w o = Some (sys, m) -> forall m', man_of (mkWorld A (upd (mans w) o (Some (sys, m'))) k wl) q = if Nat.eqb o q then Some (sys, m') else man_of w q.
Proof.
  intros M m'. unfold man_of in *. cbn [mans]. rewrite nth_upd. destruct (Nat.eqb_spec o q) as [->|N]; [|reflexivity]. destruct (nth_error (mans w) q); [reflexivity|discriminate].
Qed.
Definition without (w w' : world) (l : list expected) : Prop :=
  (forall q, ~ In q (map x_mgr l) -> man_of w' q = man_of w q) /\
  forall q sys m, man_of w q = Some (sys, m) -> exists m', man_of w' q = Some (sys, m') /\ nextRequestID m' = nextRequestID m /\ outbound m' = outbound m /\
    forall id, dict_get (callbacks m') id = if existsb (fun x => Nat.eqb (x_mgr x) q && (x_id x =? id)) l then None else dict_get (callbacks m) id.
Lemma deliver_one depth p k ka x l w : ctl w = WGot (x_mgr x) (v_data (x_del x)) (v_src (x_del x)) :: k -> serving p ka (map x_del (x :: l)) (asyn w) -> expects w depth x -> tidy w ->
  exists w' msg, wsteps w [XGoOn depth; XReturn] = Some w' /\ ctl w' = reached (asyn w') :: k /\ serving p ka (map x_del l) (asyn w') /\ tree_of (m_data msg) = Some (x_pdu x) /\
    wlog w' = wlog w ++ [WM (x_mgr x) (EInvoke (x_id x) (x_cb x) msg); WM (x_mgr x) (EFinished (x_id x) (Ok tt)); WA (ECbEnd (x_mgr x) (Ok tt))] ++ map WA (first_events p (map x_del l)) /\
    without w w' [x] /\ tidy w' /\ forall q, q <> x_mgr x -> man_of w' q = man_of w q.
Proof.
  intros C Sv Ex Td. destruct (expects_receive _ _ _ Ex) as (sys & m & msg & M & G & Rd & T). cbn [map serving] in Sv. destruct Sv as (_ & A' & next & Sa & La & -> & Sv).
  change (v_mgr (x_del x)) with (x_mgr x) in *.
  set (w1 := acts w (x_mgr x) sys m [EInvoke (x_id x) (x_cb x) msg] (WResp (x_mgr x) (x_id x) :: k)).
  assert (S1 : wstep w (XGoOn depth) = Some w1) by (cbn [wstep]; rewrite C, M, Rd; reflexivity).
  assert (M1 : man_of w1 (x_mgr x) = Some (sys, m)) by (unfold w1, acts; rewrite (man_upd w _ sys m) by exact M; rewrite Nat.eqb_refl; reflexivity).
  set (m' := mkMgr (nextRequestID m) (outbound m) (dict_del (callbacks m) (x_id x))).
  set (w2 := acts w1 (x_mgr x) sys m' [EFinished (x_id x) (Ok tt)] (ctl w1)).
  set (w3 := mkWorld A' (mans w2) (reached A' :: k) (wlog w2 ++ fresh (asyn w) A')).
  assert (S2 : wstep w1 XReturn = Some w3).
  { cbn [wstep ctl w1 acts]. change (mkWorld (asyn w) (upd (mans w) (x_mgr x) (Some (sys, m))) (WResp (x_mgr x) (x_id x) :: k) (wlog w ++ map (WM (x_mgr x)) [EInvoke (x_id x) (x_cb x) msg])) with w1. rewrite M1.
    unfold after_response. rewrite G. unfold received_by, asyncore. fold m'. change (asyn (acts w1 (x_mgr x) sys m' [EFinished (x_id x) (Ok tt)] (WResp (x_mgr x) (x_id x) :: k))) with (asyn w). rewrite Sa. reflexivity. }
  assert (Mq : forall q, man_of w3 q = if Nat.eqb (x_mgr x) q then Some (sys, m') else man_of w q).
  { intros q. unfold w3. replace (mans w2) with (upd (mans w1) (x_mgr x) (Some (sys, m'))) by reflexivity. rewrite (man_upd w1 _ sys m) by exact M1. destruct (Nat.eqb_spec (x_mgr x) q) as [_|N]; [reflexivity|]. unfold w1, acts. rewrite (man_upd w _ sys m) by exact M. destruct (Nat.eqb_spec (x_mgr x) q); [congruence|reflexivity]. }
  exists w3, msg. split; [cbn [wsteps]; rewrite S1, S2; reflexivity|]. split; [reflexivity|]. split; [exact Sv|]. split; [exact T|]. split; [|split; [split|split]].
  - unfold w3. cbn [wlog]. rewrite (fresh_eq _ _ _ La). unfold w2, acts, w1, acts. cbn [wlog map]. rewrite <- !app_assoc. cbn [app]. unfold first_events. destruct l; reflexivity.
  - intros q N. rewrite Mq. destruct (Nat.eqb_spec (x_mgr x) q) as [<-|_]; [elim N; left; reflexivity|reflexivity].
  - intros q sys0 m0 M0. rewrite Mq. destruct (Nat.eqb_spec (x_mgr x) q) as [<-|N].
    + rewrite M in M0. injection M0 as <- <-. exists m'. split; [reflexivity|]. split; [reflexivity|]. split; [reflexivity|]. intros id. cbn [existsb]. rewrite Nat.eqb_refl, orb_false_r. cbn [andb m' callbacks]. apply dict_get_del. eapply Td; exact M.
    + exists m0. split; [exact M0|]. split; [reflexivity|]. split; [reflexivity|]. intros id. cbn [existsb]. destruct (Nat.eqb_spec (x_mgr x) q); [contradiction|]. reflexivity.
  - intros q sys0 m0 M0. rewrite Mq in M0. destruct (Nat.eqb_spec (x_mgr x) q) as [<-|N]; [|eapply Td; exact M0]. injection M0 as <- <-. cbn [m' callbacks]. apply dict_del_nodup. eapply Td; exact M.
  - intros q N. rewrite Mq. destruct (Nat.eqb_spec (x_mgr x) q); [congruence|reflexivity].
Qed.
Lemma without_trans w w1 w2 x l : without w w1 [x] -> without w1 w2 l -> without w w2 (x :: l).
Proof.
  intros [N1 A1] [N2 A2]. split; [intros q Nq; rewrite N2, N1; [reflexivity| |]; intros J; apply Nq; [left; destruct J as [J|[]]; exact J|right; exact J]|]. intros q sys m M. destruct (A1 _ _ _ M) as (m1 & M1 & B1 & C1 & D1). destruct (A2 _ _ _ M1) as (m2 & M2 & B2 & C2 & D2).
  exists m2. split; [exact M2|]. split; [congruence|]. split; [congruence|]. intros id. rewrite D2, D1. cbn [existsb]. rewrite orb_false_r. destruct (existsb _ l); destruct (_ && _); reflexivity.
Qed.
Lemma without_nil w w' : mans w' = mans w -> without w w' [].
Proof. intros E. unfold without, man_of. rewrite E. split; [auto|]. intros q sys m M. exists m. auto. Qed.
Lemma without_only w w' l : without w w' l -> only_answered w w' l.
Proof.
  intros [N A]. split; [exact N|]. intros q sys m M. destruct (A _ _ _ M) as (m' & M' & B & C & D). exists m'. split; [exact M'|]. split; [exact B|]. split; [exact C|]. intros id cb. unfold pending. rewrite D.
  destruct (existsb _ l) eqn:Eb.
  - apply existsb_exists in Eb as (x & J & Q). apply andb_true_iff in Q as [Q1 Q2]. apply Nat.eqb_eq in Q1. apply Z.eqb_eq in Q2. split; [discriminate|]. intros [_ Z]. elim Z. eauto.
  - split; [|intros [Z _]; exact Z]. intros Z. split; [exact Z|]. intros (x & J & Q1 & Q2). assert (Y : existsb (fun x => Nat.eqb (x_mgr x) q && (x_id x =? id)) l = true) by (apply existsb_exists; exists x; split; [exact J|]; rewrite Q1, Q2, Nat.eqb_refl, Z.eqb_refl; reflexivity). congruence.
Qed.
Lemma deliver_all depth p k ka : forall l w, ctl w = reached (asyn w) :: k -> serving p ka (map x_del l) (asyn w) -> NoDup (map x_mgr l) -> Forall (expects w depth) l -> tidy w ->
  exists w' ess new, wsteps w (deliver depth l) = Some w' /\ ctl w' = WPolled p (Ok tt) :: k /\ astack (asyn w') = ka /\ wlog w' = wlog w ++ new /\
    map WA (first_events p (map x_del l)) ++ new = concat ess ++ [WA (EPollEnd p (Ok tt))] /\ Forall2 answered l ess /\ without w w' l.
Proof.
  induction l as [|x l IH]; intros w C Sv N Fx Td.
  - destruct Sv as [Sk R]. exists w, [], []. cbn [deliver flat_map wsteps]. split; [reflexivity|]. split; [rewrite C, R; reflexivity|]. split; [exact Sk|]. split; [symmetry; apply app_nil_r|]. split; [reflexivity|]. split; [constructor|]. apply without_nil. reflexivity.
  - inversion N as [|? ? N1 N2]; subst. inversion Fx as [|? ? Hx Hl]; subst. pose proof (proj1 Sv) as Rc. cbn [map] in Rc. rewrite Rc in C.
    destruct (deliver_one depth p k ka x l w C Sv Hx Td) as (w1 & msg & S1 & C1 & Sv1 & T & L1 & W1 & Td1 & Un).
    destruct (IH w1 C1 Sv1 N2) as (w2 & ess & new & S2 & C2 & K2 & L2 & Q & F2 & W2); [|exact Td1|].
    { rewrite Forall_forall in *. intros y J. destruct (Hl y J) as (sys & m & strict & ver & com & M & Rest). exists sys, m, strict, ver, com. split; [|exact Rest]. rewrite Un; [exact M|]. intros E. apply N1. rewrite <- E. apply in_map. exact J. }
    exists w2, ((map WA (handed (x_del x)) ++ [WM (x_mgr x) (EInvoke (x_id x) (x_cb x) msg); WM (x_mgr x) (EFinished (x_id x) (Ok tt)); WA (ECbEnd (x_mgr x) (Ok tt))]) :: ess).
    eexists. split; [|split; [exact C2|split; [exact K2|split; [rewrite L2, L1, <- app_assoc; reflexivity|split; [|split; [constructor; [constructor; exact T|exact F2]|eapply without_trans; eassumption]]]]]].
    + cbn [deliver flat_map app]. cbn [wsteps] in S1. cbn [wsteps]. destruct (wstep w (XGoOn depth)) as [wa|]; [|discriminate]. destruct (wstep wa XReturn) as [wb|]; [|discriminate]. injection S1 as ->. exact S2.
    + cbn [map first_events concat]. rewrite <- !app_assoc. rewrite <- Q. reflexivity.
Qed.
Lemma wsteps_app a b w : wsteps w (a ++ b) = match wsteps w a with Some w' => wsteps w' b | None => None end.
Proof. revert w. induction a as [|l a IH]; intros w; cbn [app wsteps]; [reflexivity|]. destruct (wstep w l); [apply IH|reflexivity]. Qed.
Lemma start_poll w p k l : sound (asyn w) -> auser (astack (asyn w)) = true -> obj (asyn w) p <> None -> waiting (asyn w) = map as_waiting l ->
  exists w1, asyncore w (APoll p) k = Some w1 /\ ctl w1 = reached (asyn w1) :: k /\ mans w1 = mans w /\ serving p (astack (asyn w)) l (asyn w1) /\ wlog w1 = wlog w ++ WA (EPoll p) :: map WA (first_events p l).
Proof.
  intros S U O W. destruct (poll_steps _ _ _ S U O W) as (A & Sa & La & Sv). unfold asyncore. rewrite Sa. eexists. split; [reflexivity|]. cbn [ctl asyn mans wlog]. split; [reflexivity|]. split; [reflexivity|]. split; [exact Sv|].
  rewrite (fresh_eq _ _ _ La). reflexivity.
Qed.
Theorem polled tr w p k depth l : wexec tr = Some w -> (forall y x, ~ In (XHandleClose y x) tr) -> auser (astack (asyn w)) = true -> obj (asyn w) p <> None ->
  waiting (asyn w) = map (fun x => as_waiting (x_del x)) l -> Forall (expects w depth) l ->
  exists w1 w' ess, asyncore w (APoll p) k = Some w1 /\ wsteps w1 (deliver depth l) = Some w' /\ ctl w' = WPolled p (Ok tt) :: k /\
    wlog w' = wlog w ++ WA (EPoll p) :: concat ess ++ [WA (EPollEnd p (Ok tt))] /\ Forall2 answered l ess /\ only_answered w w' l.
Proof.
  intros E N U O W Fx. destruct (follow tr winit w E N) as (atr & A & Nh). pose proof (aexec_sound _ Nh _ A) as S. rewrite <- map_map in W.
  destruct (start_poll w p k (map x_del l) S U O W) as (w1 & S1 & C1 & M1 & Sv & L1).
  assert (Sm : forall q, man_of w1 q = man_of w q) by (intros q; unfold man_of; rewrite M1; reflexivity).
  destruct (deliver_all depth p k (astack (asyn w)) l w1 C1 Sv) as (w' & ess & new & S2 & C2 & K2 & L2 & Q & F2 & W2).
  { pose proof (waiting_once _ _ S W) as Nd. rewrite map_map in Nd. exact Nd. }
  { rewrite Forall_forall in *. intros y J. destruct (Fx y J) as (sys & m & strict & ver & com & M & Rest). exists sys, m, strict, ver, com. split; [rewrite Sm; exact M|exact Rest]. }
  { intros q sys m M. rewrite Sm in M. eapply wexec_tidy; eassumption. }
  exists w1, w', ess. split; [exact S1|]. split; [exact S2|]. split; [exact C2|]. split; [rewrite L2, L1, <- app_assoc; cbn [app]; rewrite Q; reflexivity|]. split; [exact F2|]. apply without_only. destruct W2 as [Na Nb]. split; intros q.
  - intros Z. rewrite <- Sm. apply Na. exact Z.
  - intros sys m Z. apply Nb. rewrite Sm. exact Z.
Qed.
