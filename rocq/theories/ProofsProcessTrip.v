(** * One request and its answer, among other managers. *)
From Coq Require Import ZArith List Bool Lia.
From Verif Require Import PyBase Classes Values Codec SpecSMI SpecTree SpecWire SpecMsg Manager Role Asyn Process SpecManager SpecProcess ProofsAsyn ProofsAsynPoll ProofsAsynLog ProofsHistory ProofsManager ProofsMsg ProofsReceive ProofsRun ProofsProcess ProofsProcessStep ProofsProcessStack ProofsProcessLog ProofsProcessMore ProofsProcessCalm ProofsProcessClose SpecAsyn SpecServe ProofsProcessServe.
Import ListNotations.
Open Scope Z_scope.

(** ** The network side *)
Definition same_net (A B : astate) : Prop := socks B = socks A /\ objs B = objs A /\ smap B = smap A.
(** [o] has the open socket [s], and nobody has a datagram waiting. *)
Definition idle (A : astate) (o s : nat) : Prop :=
  (exists m k, obj A o = Some m /\ a_role m = Some s /\ nth_error (socks A) s = Some k /\ k_open k = true /\ In (k_fd k, o) (smap A)) /\ waiting A = [].
Lemma idle_same A B o s : same_net A B -> idle A o s -> idle B o s.
Proof. intros (S & O & M) [(m & k & H) W]. split; [exists m, k; unfold obj in *; rewrite S, O, M; exact H|]. unfold waiting, obj, queued in *. rewrite O, M, S. exact W. Qed.
Lemma none_reported A : sound A -> waiting A = [] -> forall es, incl es (smap A) -> filter (reported A) (map fst es) = [].
Proof.
  intros S W es. assert (Z : forall e, In e (smap A) -> first_of A e = []).
  { intros e J. destruct (first_of A e) as [|x r] eqn:F; [reflexivity|]. assert (Y : In x (waiting A)) by (rewrite waiting_eq; apply in_flat_map; exists e; split; [exact J|]; rewrite F; left; reflexivity). rewrite W in Y. destruct Y. }
  induction es as [|[fd o] es IH]; intros In1; [reflexivity|]. assert (I : In (fd, o) (smap A)) by (apply In1; left; reflexivity). cbn [map fst filter].
  destruct (first_cases A fd o S I) as [[F R]|(m & s & ks & x & q & F & _)]; [|rewrite (Z _ I) in F; discriminate F]. rewrite R. apply IH. intros z J. apply In1. right. exact J.
Qed.
Lemma quiet_poll A p : sound A -> auser (astack A) = true -> obj A p <> None -> waiting A = [] -> exists B, astep A (APoll p) = Some B /\ same_net A B /\ astack B = astack A /\ alog B = alog A ++ [EPoll p; EPollEnd p (Ok tt)].
Proof.
  intros S U O W. cbn [astep]. unfold with_obj. rewrite U. destruct (obj A p) as [m|]; [|contradiction]. eexists. split; [reflexivity|]. unfold apoll. rewrite (all_open A S), (none_reported A S W _ (incl_refl _)).
  cbn [serve poll_end say socks objs smap astack alog]. split; [repeat split|]. split; [reflexivity|]. cbn. rewrite <- app_assoc. reflexivity.
Qed.
Lemma flat_single {X Y} (f : X -> list Y) (g : X -> Z) l a r : NoDup (map g l) -> In a l -> f a = r -> (forall b, In b l -> g b <> g a -> f b = []) -> flat_map f l = r.
Proof.
  intros N J Fa Z. induction l as [|b l IH]; [destruct J|]. inversion N as [|? ? N1 N2]; subst. cbn [flat_map]. destruct J as [->|J].
  - assert (E : flat_map f l = []).
    { clear IH N. assert (Z' : forall b, In b l -> f b = []) by (intros b Jb; apply Z; [right; exact Jb|intros Q; apply N1; rewrite <- Q; apply in_map; exact Jb]). clear - Z'. induction l as [|c l IH]; [reflexivity|]. cbn. rewrite Z' by (left; reflexivity). apply IH. intros b Jb. apply Z'. right. exact Jb. }
    rewrite E. apply app_nil_r.
  - rewrite (Z b); [|left; reflexivity|intros Q; apply N1; rewrite Q; apply in_map; exact J]. cbn. apply IH; [exact N2|exact J|]. intros c Jc. apply Z. right. exact Jc.
Qed.
Lemma arrival A o s x : sound A -> auser (astack A) = true -> idle A o s -> exists B, astep A (AArrive s x) = Some B /\ astack B = astack A /\ alog B = alog A ++ [EArrive s x] /\ waiting B = [(o, s, x)].
Proof.
  intros S U [(m & k & O & R & K & Op & J) W]. cbn [astep]. rewrite K, Op. set (B := set_queue (say A (EArrive s x)) s (k_queue k ++ [x])).
  assert (E : match astack A with FBlocked o0 s' :: FPolling p rest :: k0 => if Nat.eqb s s' then Some (got (say A (EArrive s x)) p rest k0 o0 s x) else Some B | _ => Some B end = Some B) by (destruct (astack A) as [|[| |] ?]; try reflexivity; discriminate U).
  exists B. split; [exact E|]. assert (Bs : socks B = upd (socks A) s (mkK (k_fd k) (k_open k) (k_queue k ++ [x])) /\ objs B = objs A /\ smap B = smap A /\ astack B = astack A /\ alog B = alog A ++ [EArrive s x]).
  { unfold B, set_queue. cbn [say socks objs smap astack alog]. rewrite K. cbn. auto. }
  destruct Bs as (B1 & B2 & B3 & B4 & B5). split; [exact B4|]. split; [exact B5|]. rewrite waiting_eq, B3.
  assert (Z : forall e, In e (smap A) -> first_of A e = []).
  { intros e Je. destruct (first_of A e) as [|y r] eqn:F; [reflexivity|]. assert (Y : In y (waiting A)) by (rewrite waiting_eq; apply in_flat_map; exists e; split; [exact Je|]; rewrite F; left; reflexivity). rewrite W in Y. destruct Y. }
  apply (flat_single _ fst _ (k_fd k, o)).
  - apply (h_nodup _ S).
  - exact J.
  - pose proof (Z _ J) as Zo. unfold first_of in *. cbn [snd] in *. unfold obj in *. rewrite B2, O in *. rewrite R in *. unfold queued in *. rewrite B1, nth_upd, Nat.eqb_refl, K in *. cbn [k_queue]. destruct (k_queue k); [reflexivity|discriminate Zo].
  - intros [g y] Jy Ng. cbn [fst] in Ng. rewrite <- (Z _ Jy). apply first_same.
    + unfold B. eapply same_trans; [apply shape_say|apply shape_queue].
    + intros m' s' O' R'. unfold queued. rewrite B1, nth_upd. destruct (Nat.eqb_spec s s') as [<-|N]; [|reflexivity]. exfalso. eapply (entries_differ A (k_fd k) o g y); try eassumption; [congruence|reflexivity].
Qed.
Lemma send_step A o s os dst fd : auser (astack A) = true -> idle A o s -> fd_free A fd = true ->
  exists B, astep A (ASend o os dst opens fd (Ok tt)) = Some B /\ same_net A B /\ astack B = astack A /\ alog B = alog A ++ [ESentto s os dst; Asyn.ESend o (Ok tt)].
Proof.
  intros U [(m & k & O & R & K & Op & J) W] F. cbn [astep]. rewrite F. unfold with_obj. rewrite U, O. eexists. split; [reflexivity|]. unfold asend. rewrite R, K, Op. cbn [say socks objs smap astack alog].
  split; [repeat split|]. split; [reflexivity|]. cbn. rewrite <- app_assoc. reflexivity.
Qed.
Lemma free_same A B fd : same_net A B -> fd_free B fd = fd_free A fd.
Proof. intros (S & _ & _). unfold fd_free, at_fd. rewrite S. reflexivity. Qed.

(** ** The process: up to the message being sent *)
Definition asked (f : flavour) (o : nat) (a : call) (fd : Z) (depth : nat) : list wlabel :=
  [XCall o a; XRun o] ++ (match f with FSM => [XGoOn depth; XGoOn depth; XSend opens fd (Ok tt)] | _ => [XSend opens fd (Ok tt); XSend opens fd (Ok tt)] end).
Lemma asked_sent tr w o sys m a n dst r m' t fd s depth : wexec tr = Some w -> user_code (ctl w) = true -> man_of w o = Some (sys, m) -> sound (asyn w) -> idle (asyn w) o s -> fd_free (asyn w) fd = true ->
  outbound m = [] -> queueEmpty sys = None -> do_call (flav sys) a m = (m', r) -> SpecManager.queued m m' r (nextRequestID m) dst (Cb n) t ->
  exists k om os w1 pre, wsteps w (asked (flav sys) o a fd depth) = Some w1 /\ ctl w1 = WRun o Polling :: ctl w /\ idle (asyn w1) o s /\ sound (asyn w1) /\ auser (astack (asyn w1)) = true /\ written t os /\
    man_of w1 o = Some (sys, mkMgr (nextRequestID m') [] (callbacks m')) /\ (forall q, q <> o -> man_of w1 q = man_of w q) /\
    wlog w1 = wlog w ++ pre /\ history o pre = [ECall a (Ok (RVal (VInt k (nextRequestID m)))); EPut (Some om) dst; ETake (Some om) dst; Manager.ESend os dst (Ok tt)] /\
    (forall q, q <> o -> history q pre = []) /\ In (WA (ESentto s os dst)) pre.
Proof.
  intros E U M S Id Fd O QE Dc (k & om & os & R & NX & OB & CB & En & Wi). rewrite O in OB. cbn [app] in OB.
  pose proof (below_auser _ _ (atop_user _ _ (s_atop _ (wexec_sinv _ _ E)) U)) as Au.
  assert (Obj : obj (asyn w) o <> None) by (destruct Id as [(am & kk & Oo & _) _]; congruence).
  set (w1 := mkWorld (asyn w) (upd (mans w) o (Some (sys, m'))) (WRun o (loop_start (flav sys)) :: ctl w) (wlog w ++ [WM o (ECall a r); WM o (EPut (Some om) dst)])).
  assert (S1 : wsteps w [XCall o a; XRun o] = Some w1).
  { cbn [wsteps]. cbn [wstep]. rewrite U, M, Dc, O, OB. cbn [length skipn map fst snd]. cbn [wstep acts ctl]. rewrite U. unfold acts. rewrite (ProofsProcessServe.man_upd w o sys m) by exact M. rewrite Nat.eqb_refl. reflexivity. }
  assert (M1 : forall q, man_of w1 q = if Nat.eqb o q then Some (sys, m') else man_of w q) by (intros q; apply (ProofsProcessServe.man_upd w o sys m); exact M).
  set (m2 := mkMgr (nextRequestID m') [] (callbacks m')).
  (* sending, from any state like that *)
  assert (Send : forall w2, ctl w2 = WRun o Sending :: ctl w -> same_net (asyn w) (asyn w2) -> astack (asyn w2) = astack (asyn w) -> mans w2 = mans w1 ->
    exists w3, wstep w2 (XSend opens fd (Ok tt)) = Some w3 /\ ctl w3 = WRun o (loop_start (flav sys)) :: ctl w /\ same_net (asyn w) (asyn w3) /\ astack (asyn w3) = astack (asyn w) /\
      man_of w3 o = Some (sys, m2) /\ (forall q, q <> o -> man_of w3 q = man_of w q) /\
      wlog w3 = wlog w2 ++ [WA (ESentto s os dst); WA (Asyn.ESend o (Ok tt)); WM o (ETake (Some om) dst); WM o (Manager.ESend os dst (Ok tt))]).
  { intros w2 C2 Sn As Ms. assert (M2 : forall q, man_of w2 q = if Nat.eqb o q then Some (sys, m') else man_of w q) by (intros q; rewrite <- M1; unfold man_of; rewrite Ms; reflexivity).
    destruct (send_step (asyn w2) o s os dst fd) as (B & Sb & Nb & Kb & Lb); [rewrite As; exact Au|eapply idle_same; eassumption|rewrite (free_same _ _ _ Sn); exact Fd|].
    assert (M2o : man_of w2 o = Some (sys, m')) by (rewrite M2, Nat.eqb_refl; reflexivity).
    eexists. split; [cbn [wstep]; rewrite C2, M2o, OB, En; unfold aside; rewrite Sb; cbn [asyn]; rewrite Lb, rev_app_distr; cbn [rev app]; rewrite C2; reflexivity|].
    cbn [acts ctl asyn wlog]. split; [reflexivity|]. split; [destruct Sn as (X1 & X2 & X3), Nb as (Y1 & Y2 & Y3); repeat split; congruence|]. split; [congruence|].
    assert (Mq : forall q A kk wl, man_of (mkWorld A (upd (mans w2) o (Some (sys, m2))) kk wl) q = if Nat.eqb o q then Some (sys, m2) else man_of w2 q) by (intros; apply (ProofsProcessServe.man_upd w2 o sys m'); exact M2o).
    unfold acts. cbn [mans]. fold m2. split; [rewrite Mq, Nat.eqb_refl; reflexivity|]. split; [intros q N; rewrite Mq, M2; destruct (Nat.eqb_spec o q); [congruence|reflexivity]|].
    rewrite (fresh_eq _ _ _ Lb), <- app_assoc. reflexivity. }
  destruct (flav sys) eqn:F.
  1,2: destruct (Send w1) as (w3 & S3 & C3 & N3 & K3 & Mo & Mq & L3); [reflexivity|repeat split|reflexivity|reflexivity|]; cbn [loop_start] in C3;
    exists k, om, os; eexists; eexists; (split; [unfold asked; rewrite wsteps_app, S1; cbn [wsteps]; rewrite S3; cbn [wstep]; rewrite C3, Mo; cbn [outbound m2]; unfold nothing_queued; rewrite QE; reflexivity|]);
    cbn [acts ctl asyn wlog map]; (split; [reflexivity|]); (split; [eapply idle_same; eassumption|]); (split; [eapply sound_shape; [exact S|destruct N3 as (X1 & X2 & X3); repeat split; [exact X2|exact X3|rewrite X1; reflexivity]]|]);
    (split; [rewrite K3; exact Au|]); (split; [exact Wi|]); unfold acts;
    (split; [rewrite (ProofsProcessServe.man_upd w3 o sys m2) by exact Mo; rewrite Nat.eqb_refl; reflexivity|]);
    (split; [intros q N; rewrite (ProofsProcessServe.man_upd w3 o sys m2) by exact Mo; destruct (Nat.eqb_spec o q); [congruence|apply Mq; exact N]|]);
    (split; [rewrite L3, app_nil_r; unfold w1; cbn [wlog]; rewrite <- app_assoc; reflexivity|]); subst r; cbn [app history flat_map lasting]; rewrite !Nat.eqb_refl; cbn;
    (split; [reflexivity|]); (split; [intros q N; destruct (Nat.eqb_spec o q); [congruence|reflexivity]|]); auto.
  destruct (quiet_poll (asyn w1) o) as (B & Sb & Nb & Kb & Lb); [exact S|exact Au|exact Obj|apply Id|].
  set (w2 := mkWorld B (mans w1) (WRun o Sending :: ctl w) (wlog w1 ++ [WA (EPoll o); WA (EPollEnd o (Ok tt))])).
  assert (Mx : forall A kk wl, man_of (mkWorld A (mans w1) kk wl) o = Some (sys, m')) by (intros A kk wl; change (man_of w1 o = Some (sys, m')); rewrite M1, Nat.eqb_refl; reflexivity).
  assert (S2 : wsteps w1 [XGoOn depth; XGoOn depth] = Some w2).
  { assert (C1 : ctl w1 = WRun o Polling :: ctl w) by reflexivity. cbn [wsteps]. cbn [wstep]. rewrite C1. unfold asyncore. rewrite Sb. cbn [wstep ctl].
    rewrite (reached_end B o (Ok tt) (alog (asyn w1) ++ [EPoll o])) by (rewrite Lb, <- app_assoc; reflexivity). rewrite Mx. cbn [asyn mans wlog]. rewrite (fresh_eq _ _ _ Lb). reflexivity. }
  destruct (Send w2) as (w3 & S3 & C3 & N3 & K3 & Mo & Mq & L3); [reflexivity|exact Nb|exact Kb|reflexivity|]. cbn [loop_start] in C3.
  exists k, om, os, w3. eexists. split; [unfold asked; rewrite wsteps_app, S1; change [XGoOn depth; XGoOn depth; XSend opens fd (Ok tt)] with ([XGoOn depth; XGoOn depth] ++ [XSend opens fd (Ok tt)]); rewrite wsteps_app, S2; cbn [wsteps]; rewrite S3; reflexivity|].
  split; [exact C3|]. split; [eapply idle_same; eassumption|]. split; [eapply sound_shape; [exact S|destruct N3 as (X1 & X2 & X3); repeat split; [exact X2|exact X3|rewrite X1; reflexivity]]|].
  split; [rewrite K3; exact Au|]. split; [exact Wi|]. split; [exact Mo|]. split; [exact Mq|].
  split; [rewrite L3; unfold w2, w1; cbn [wlog]; rewrite <- !app_assoc; reflexivity|]. subst r. cbn [app history flat_map lasting]. rewrite !Nat.eqb_refl. cbn. split; [reflexivity|]. split; [intros q N; destruct (Nat.eqb_spec o q); [congruence|reflexivity]|]. auto 10.
Qed.
