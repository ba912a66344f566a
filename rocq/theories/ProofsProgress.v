(** * The command-line programs never get stuck: between two outside events they always come to rest. *)
From Coq Require Import Ascii String ZArith List Bool Lia.
From Verif Require Import PyBase Classes Values Codec Manager Text Frontend Tools.
From Verif Require Import SpecSMI SpecTree SpecWire SpecMsg SpecManager ProofsReceive.
From Verif Require Import SpecTools ProofsTools.
Import ListNotations.
Open Scope Z_scope.

(** States of the manager between two steps of a process. *)
Definition shape (st : state) : Prop :=
  match stack st with
  | [] => exists lg e, log st = lg ++ [EResult (Err e)]
  | [FRun _] => True
  | [FEmpty; FRun Polling] => True
  | [FResp _; FRead; FRun Polling] => exists lg id n msg, log st = lg ++ [EInvoke id n msg]
  | [FTrap; FRead; FRun Polling] => exists lg n msg, log st = lg ++ [EInvokeTrap n msg]
  | _ => False
  end.
(** The same for a process. *)
Definition sound (s : pstate) : Prop :=
  match doing_of s with
  | Own _ => match stack (st_of s) with [] | [FEmpty; FRun Polling] | [FResp _; FRead; FRun Polling] | [FTrap; FRead; FRun Polling] => True | _ => False end
  | Running => exists ph, stack (st_of s) = [FRun ph]
  | Over _ => True
  end.
Lemma resume_sound p args st tab out : shape st -> sound (resume p args st tab out).
Proof.
  unfold shape, sound, resume. cbn [doing_of st_of]. destruct (stack st) as [|f stk].
  - intros (lg & e & ->). rewrite rev_app_distr. exact Logic.I.
  - destruct f as [id| | | |ph].
    + destruct stk as [|[| | | |] [|[| | | |[|]] [|]]]; try contradiction. intros (lg & id' & n & msg & ->). rewrite rev_app_distr. exact Logic.I.
    + destruct stk as [|[| | | |] [|[| | | |[|]] [|]]]; try contradiction. intros (lg & n & msg & ->). rewrite rev_app_distr. exact Logic.I.
    + destruct stk as [|[| | | |[|]] [|]]; try contradiction. intros _. exact Logic.I.
    + contradiction.
    + destruct stk; [|contradiction]. intros _. eauto.
Qed.
Lemma run_raises_shape m e lg : shape (run_raises m e [] lg).
Proof. unfold shape, run_raises. cbn. eauto. Qed.
Lemma loop_empty_shape sys m lg : shape (loop_empty sys m [] lg).
Proof. unfold loop_empty. destruct (queueEmpty sys) as [[|n]|]; [apply run_raises_shape|exact Logic.I|exact Logic.I]. Qed.
Lemma poll_returns_shape sys m r ph lg : shape (poll_returns sys m r [FRun ph] lg).
Proof.
  cbn [poll_returns]. destruct r as [u|e]; [destruct (flav sys); exact Logic.I|].
  pose proof (run_raises_shape m e lg). pose proof (loop_empty_shape sys m lg). destruct e, (flav sys); assumption.
Qed.
Lemma poll_called_shape sys m i lg : shape (poll_called sys m i [FRun Polling] lg).
Proof.
  destruct i as [|depth s src|e]; cbn [poll_called]; try apply poll_returns_shape.
  unfold receive_called. destruct (receiveData sys m depth _) as [[r|id n|n] [msg|]] eqn:R; try (apply poll_returns_shape).
  - unfold shape. cbn. eauto.
  - destruct (receiveData_msg _ _ _ _ _ _ R eq_refl); discriminate.
  - unfold shape. cbn. eauto.
  - destruct (receiveData_msg _ _ _ _ _ _ R eq_refl); discriminate.
Qed.
Lemma send_called_shape sys m r lg : shape (send_called sys m r [] lg).
Proof.
  unfold send_called. destruct (outbound m) as [|[om dst] q]; [apply loop_empty_shape|].
  assert (X : forall e m lg, shape (match e with QueueEmpty => loop_empty sys m [] lg | _ => run_raises m e [] lg end)).
  { intros e m0 lg0. pose proof (run_raises_shape m0 e lg0). pose proof (loop_empty_shape sys m0 lg0). destruct e; assumption. }
  destruct (match om with None => _ | Some msg => _ end) as [os|e]; [|apply X]. destruct (sendto (trans sys) r); [|apply X]. exact Logic.I.
Qed.
(** A process at work can take its next step, and stays sound. *)
Lemma own_step p t args s k : sound s -> doing_of s = Own k -> exists s', pstep p t args s None = Some s' /\ sound s' /\
  match k with Say _ k' => doing_of s' = Own k' | Ask _ k' => doing_of s' = Own k' \/ (exists e, doing_of s' = Own (Stop (Err e))) | Stop _ => True end.
Proof.
  destruct s as [[m stk lg] tab d out]. unfold sound. cbn [doing_of st_of stack]. intros S ->. unfold pstep. destruct k as [l k|a k|r].
  - eexists. split; [reflexivity|]. split; [exact S|reflexivity].
  - cbn [step]. assert (U : user_runs stk = true) by (destruct stk as [|[| | | |] stk]; reflexivity || contradiction). rewrite U.
    destruct (do_call (flav (system_of p t)) a m) as [m' r]. eexists. split; [reflexivity|]. cbn [doing_of stack]. split; [exact S|].
    destruct (snd _); [left; reflexivity|right; eauto].
  - cbn [stack]. destruct stk as [|f stk].
    + destruct r as [[]|e].
      * cbn [step user_runs]. eexists. split; [reflexivity|]. split; [cbn; eauto|exact Logic.I].
      * eexists. split; [reflexivity|]. split; exact Logic.I.
    + destruct f as [id| | | |ph]; try contradiction.
      * destruct stk as [|[| | | |] [|[| | | |[|]] [|]]]; try contradiction. destruct r as [[]|e]; cbn [step].
        -- destruct (after_response (flav (system_of p t)) m id (Ok tt)) as [m' r']. eexists. split; [reflexivity|]. split; [apply resume_sound, poll_returns_shape|exact Logic.I].
        -- destruct (after_response (flav (system_of p t)) m id (Err e)) as [m' r']. eexists. split; [reflexivity|]. split; [apply resume_sound, poll_returns_shape|exact Logic.I].
      * destruct stk as [|[| | | |] [|[| | | |[|]] [|]]]; try contradiction. destruct r as [[]|e]; cbn [step]; (eexists; split; [reflexivity|]; split; [apply resume_sound, poll_returns_shape|exact Logic.I]).
      * destruct stk as [|[| | | |[|]] [|]]; try contradiction. destruct r as [[]|e]; cbn [step]; eexists; (split; [reflexivity|]); (split; [|exact Logic.I]).
        -- apply resume_sound. exact Logic.I.
        -- apply resume_sound, run_raises_shape.
Qed.
Lemma wait_step p t args s o : sound s -> doing_of s = Running -> fits s o -> exists s', pstep p t args s (Some o) = Some s' /\ sound s'.
Proof.
  destruct s as [[m stk lg] tab d out]. cbn [doing_of]. intros _ -> F. unfold fits in F. destruct o as [i|r]; cbn [st_of stack] in F; subst stk; unfold pstep; cbn [stack step].
  - eexists. split; [reflexivity|]. apply resume_sound, poll_called_shape.
  - eexists. split; [reflexivity|]. apply resume_sound, send_called_shape.
Qed.
Lemma pstep_sound p t args s o s' : sound s -> pstep p t args s o = Some s' -> sound s'.
Proof.
  intros S H. destruct (doing_of s) as [k| |e] eqn:D.
  - pose proof (pstep_own _ _ _ _ _ _ _ D H) as ->. destruct (own_step p t args s k S D) as (s2 & H2 & S2 & _). congruence.
  - destruct o as [o|]; [|destruct s as [st tab d out]; cbn in D; subst d; discriminate H].
    assert (F : fits s o).
    { unfold sound in S. rewrite D in S. destruct S as (ph & K). destruct s as [st tab d out]. cbn [doing_of st_of] in *. subst d. unfold pstep in H. unfold fits. cbn [st_of].
      destruct o as [i|r].
      - rewrite K in *. destruct ph; [reflexivity|discriminate H].
      - destruct ph; [|exact K]. destruct st as [m stk lg]. cbn in K. subst stk. discriminate H. }
    destruct (wait_step p t args s o S D F) as (s2 & H2 & S2). congruence.
  - destruct s as [st tab d out]. cbn in D. subst d. destruct o as [[|]|]; discriminate H.
Qed.
Lemma reachable_sound p t args s : reachable p t args s -> sound s.
Proof.
  intros (b & tr & H). unfold prun in H.
  assert (M : sound (start p b args)) by (unfold sound, start; cbn [doing_of st_of]; destruct (match p_interface p with NotTuple => _ | Tuple => _ end); exact Logic.I).
  revert M H. generalize (start p b args). induction tr as [|o tr IH]; intros s0 M H; cbn [psteps] in H; [injection H as <-; exact M|].
  destruct (pstep p t args s0 o) as [s1|] eqn:P; [|discriminate]. apply (IH s1); [eapply pstep_sound; eassumption|exact H].
Qed.
(** Own code always comes to its end.  Its length is that of the script; when a callback has ended, run() goes on, and may find the queue empty and start
    another callback at once: only from a callback's end by queue.Empty. *)
Fixpoint size (k : script) : nat := match k with Say _ k | Ask _ k => S (size k) | Stop _ => 0 end.
Lemma own_ends p t args k : forall s, sound s -> doing_of s = Own k -> exists tr s' r, outsides tr = [] /\ psteps p t args s tr = Some s' /\ sound s' /\ doing_of s' = Own (Stop r) /\ stack (st_of s') = stack (st_of s).
Proof.
  intros s. remember (size k) as n eqn:N. revert k N s. induction n as [n IH] using lt_wf_ind. intros k N s S D. destruct k as [l k|a k|r].
  - destruct (own_step p t args s (Say l k) S D) as (s1 & H1 & S1 & D1). 
    assert (K1 : stack (st_of s1) = stack (st_of s)) by (destruct s as [st tab d out]; cbn in D; subst d; cbn in H1; injection H1 as <-; reflexivity).
    destruct (IH (size k) ltac:(cbn in N; lia) k eq_refl s1 S1 D1) as (tr & s' & r & O & P & S' & D' & K').
    exists (None :: tr), s', r. split; [exact O|]. split; [cbn [psteps]; rewrite H1; exact P|]. split; [exact S'|]. split; [exact D'|congruence].
  - destruct (own_step p t args s (Ask a k) S D) as (s1 & H1 & S1 & D1).
    assert (K1 : stack (st_of s1) = stack (st_of s)).
    { destruct s as [[m stk lg] tab d out]; cbn [doing_of] in D; subst d; cbn [pstep step] in H1. destruct (user_runs stk); [|discriminate]. destruct (do_call _ a m). injection H1 as <-. reflexivity. }
    destruct D1 as [D1|(e & D1)].
    + destruct (IH (size k) ltac:(cbn in N; lia) k eq_refl s1 S1 D1) as (tr & s' & r & O & P & S' & D' & K').
      exists (None :: tr), s', r. split; [exact O|]. split; [cbn [psteps]; rewrite H1; exact P|]. split; [exact S'|]. split; [exact D'|congruence].
    + exists [None], s1, (Err e). split; [reflexivity|]. split; [cbn [psteps]; rewrite H1; reflexivity|]. auto.
  - exists [], s, r. auto.
Qed.
Lemma own_settles p t args s k : sound s -> doing_of s = Own k -> exists s', goes p t args s [] s' /\ sound s'.
Proof.
  intros S D.
  (* the end of the queue-empty callback and of the main part is followed by no callback *)
  assert (E : forall s r, sound s -> doing_of s = Own (Stop r) -> (forall id rest, stack (st_of s) <> FResp id :: rest) -> (forall rest, stack (st_of s) <> FTrap :: rest) ->
     exists s', pstep p t args s None = Some s' /\ settled s').
  { clear s k S D. intros s r S D N1 N2. destruct (own_step p t args s (Stop r) S D) as (s' & H & S' & _). exists s'. split; [exact H|].
    destruct s as [[m stk lg] tab d out]. cbn [doing_of st_of stack] in *. subst d. unfold sound in S. cbn [doing_of st_of stack] in S. unfold pstep in H. cbn [stack] in H.
    destruct stk as [|f stk].
    - destruct r as [[]|e]; cbn [step user_runs] in H; injection H as <-; exact Logic.I.
    - destruct f as [id| | | |ph]; try contradiction; [elim (N1 id stk); reflexivity|elim (N2 stk); reflexivity|].
      destruct stk as [|[| | | |[|]] [|]]; try contradiction. destruct r as [[]|e]; cbn [step] in H; injection H as <-; unfold settled, resume, run_raises; cbn [stack log doing_of]; [exact Logic.I|].
      rewrite rev_app_distr. exact Logic.I. }
  destruct (own_ends p t args k s S D) as (tr1 & s1 & r & O1 & P1 & S1 & D1 & K1).
  destruct (own_step p t args s1 (Stop r) S1 D1) as (s2 & H2 & S2 & _).
  assert (P2 : psteps p t args s (tr1 ++ [None]) = Some s2) by (rewrite (psteps_app _ _ _ _ _ _ _ P1); cbn [psteps]; rewrite H2; reflexivity).
  destruct (doing_of s2) as [k2| |e] eqn:D2.
  2-3: exists s2; split; [|exact S2]; exists (tr1 ++ [None]); split; [rewrite outsides_app, O1; reflexivity|]; split; [exact P2|unfold settled; rewrite D2; exact Logic.I].
  (* only a queue-empty callback can have started *)
  assert (F2 : exists rest, stack (st_of s2) = FEmpty :: rest).
  { destruct s1 as [[m stk lg] tab d out]. cbn [doing_of] in D1. subst d. unfold sound in S1. cbn [doing_of st_of stack] in S1. unfold pstep in H2. cbn [stack] in H2.
    assert (Rs : forall st tb, (forall id rest, stack st <> FResp id :: rest) -> (forall rest, stack st <> FTrap :: rest) -> doing_of (resume p args st tb out) = Own k2 ->
       exists rest, stack (st_of (resume p args st tb out)) = FEmpty :: rest).
    { intros st tb A B X. unfold resume in X |- *. cbn [doing_of st_of] in *. destruct (stack st) as [|[id| | | |] rest]; try discriminate X.
      - destruct (rev (log st)) as [|[] ?]; try discriminate X. destruct r0; discriminate X.
      - elim (A id rest); reflexivity.
      - elim (B rest); reflexivity.
      - eauto. }
    assert (Q : forall m r lg, (forall id rest, stack (poll_returns (system_of p t) m r [FRun Polling] lg) <> FResp id :: rest) /\ (forall rest, stack (poll_returns (system_of p t) m r [FRun Polling] lg) <> FTrap :: rest)).
    { intros m0 r0 lg0. cbn [poll_returns]. unfold loop_empty, run_raises. destruct r0 as [u|e0]; [destruct (flav (system_of p t)); split; discriminate|].
      destruct e0, (flav (system_of p t)), (queueEmpty (system_of p t)) as [[|?]|]; split; discriminate. }
    destruct stk as [|f stk].
    - destruct r as [[]|e]; cbn [step user_runs] in H2; injection H2 as <-; discriminate D2.
    - destruct f as [id| | | |ph]; try contradiction.
      + destruct stk as [|[| | | |] [|[| | | |[|]] [|]]]; try contradiction.
        assert (Y : exists m' r' lg', Some (resume p args (poll_returns (system_of p t) m' r' [FRun Polling] lg') tab out) = Some s2).
        { destruct r as [[]|e]; cbn [step] in H2.
          - destruct (after_response (flav (system_of p t)) m id (Ok tt)) as [m' r']. cbn [receive_returns] in H2. eauto.
          - destruct (after_response (flav (system_of p t)) m id (Err e)) as [m' r']. cbn [receive_returns] in H2. eauto. }
        destruct Y as (m' & r' & lg' & Y). injection Y as <-. apply Rs; [apply Q|apply Q|exact D2].
      + destruct stk as [|[| | | |] [|[| | | |[|]] [|]]]; try contradiction.
        assert (Y : exists m' r' lg', Some (resume p args (poll_returns (system_of p t) m' r' [FRun Polling] lg') tab out) = Some s2).
        { destruct r as [[]|e]; cbn [step receive_returns] in H2; eauto. }
        destruct Y as (m' & r' & lg' & Y). injection Y as <-. apply Rs; [apply Q|apply Q|exact D2].
      + destruct stk as [|[| | | |[|]] [|]]; try contradiction. destruct r as [[]|e]; cbn [step] in H2; injection H2 as <-; unfold resume, run_raises in D2; cbn [stack log doing_of] in D2; [discriminate D2|].
        rewrite rev_app_distr in D2. discriminate D2. }
  destruct (own_ends p t args k2 s2 S2 D2) as (tr3 & s3 & r3 & O3 & P3 & S3 & D3 & K3). destruct F2 as (rest & F2). rewrite F2 in K3.
  destruct (E s3 r3 S3 D3) as (s4 & H4 & S4); [rewrite K3; discriminate|rewrite K3; discriminate|].
  exists s4. split; [|eapply pstep_sound; eassumption]. exists ((tr1 ++ [None]) ++ tr3 ++ [None]). split; [rewrite !outsides_app, O1, O3; reflexivity|]. split; [|exact S4].
  rewrite (psteps_app _ _ _ _ _ _ _ P2), (psteps_app _ _ _ _ _ _ _ P3). cbn [psteps]. rewrite H4. reflexivity.
Qed.
Lemma always_goes p t args s o : reachable p t args s -> doing_of s = Running -> fits s o -> exists s', goes p t args s [o] s'.
Proof.
  intros R D F. pose proof (reachable_sound _ _ _ _ R) as S. destruct (wait_step p t args s o S D F) as (s1 & H1 & S1).
  destruct (doing_of s1) as [k| |e] eqn:D1.
  - destruct (own_settles p t args s1 k S1 D1) as (s2 & (tr & O & P & St) & _). exists s2, (Some o :: tr). split; [change (outsides (Some o :: tr)) with (o :: outsides tr); rewrite O; reflexivity|]. split; [cbn [psteps]; rewrite H1; exact P|exact St].
  - exists s1, [Some o]. split; [reflexivity|]. split; [cbn [psteps]; rewrite H1; reflexivity|unfold settled; rewrite D1; exact Logic.I].
  - exists s1, [Some o]. split; [reflexivity|]. split; [cbn [psteps]; rewrite H1; reflexivity|unfold settled; rewrite D1; exact Logic.I].
Qed.
Lemma always_starts p t b args : exists s, runs p t b args [] s.
Proof.
  assert (S : sound (start p b args)) by (unfold sound, start; cbn [doing_of st_of]; destruct (match p_interface p with NotTuple => _ | Tuple => _ end); exact Logic.I).
  destruct (doing_of (start p b args)) as [k| |e] eqn:D.
  - destruct (own_settles p t args _ k S D) as (s & G & _). exists s. exact G.
  - eexists. exists []. split; [reflexivity|]. split; [reflexivity|]. unfold settled. rewrite D. exact Logic.I.
  - eexists. exists []. split; [reflexivity|]. split; [reflexivity|]. unfold settled. rewrite D. exact Logic.I.
Qed.
Lemma waits p t args s : reachable p t args s -> doing_of s = Running -> (forall i, fits s (Finds i)) \/ (forall r, fits s (Answers r)).
Proof. intros R D. pose proof (reachable_sound _ _ _ _ R) as S. unfold sound in S. rewrite D in S. destruct S as ([|] & K); [left|right]; intros; exact K. Qed.
