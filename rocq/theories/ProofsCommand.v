(** * Proofs about commands. *)
From Coq Require Import ZArith List Bool Lia.
From Verif Require Import PyBase Classes Values Codec Manager Text Tools SpecManager SpecTools CommandLine SpecCommand ProofsManager ProofsPrograms2.
Import ListNotations.
Open Scope Z_scope.

(** A SystemExit after something was sent came out of run(). *)
Definition late (s : pstate) : Prop :=
  match doing_of s with
  | Own _ => stack (st_of s) = [] -> sent s = []
  | Over e => sent s <> [] -> exists pre, log (st_of s) = pre ++ [EResult (Err e)]
  | Running => True
  end.
Lemma resume_late p args st tab out : late (resume p args st tab out).
Proof.
  unfold resume, late. cbn [doing_of st_of]. destruct (stack st) as [|f k] eqn:K.
  - destruct (rev (log st)) as [|e r] eqn:R; [exact I|]. destruct e as [| | | | | | | |x]; try exact I. destruct x as [u|e]; [exact I|]. intros _.
    exists (rev r). rewrite <- (rev_involutive (log st)), R. reflexivity.
  - destruct f; try exact I; try (destruct (rev (log st)) as [|[] ?]); try exact I; discriminate.
Qed.
Lemma puts_sends l : sends (map (fun p : option message * address => EPut (fst p) (snd p)) l) = [].
Proof. induction l as [|x l IH]; [reflexivity|exact IH]. Qed.
Lemma pstep_late p t args s o s' : late s -> pstep p t args s o = Some s' -> late s'.
Proof.
  destruct s as [st tab d out]. intros L E. unfold pstep in E. destruct d as [[l k|a k|r]| |e], o as [[i|x]|]; try discriminate.
  - injection E as <-. exact L.
  - destruct (step (system_of p t) st (LCall a)) as [st'|] eqn:S; [|discriminate]. injection E as <-. unfold late, sent in *. cbn [doing_of st_of] in *. intros K.
    destruct st as [m stk lg]. cbn [step] in S. destruct (user_runs stk); [|discriminate]. destruct (do_call (flav (system_of p t)) a m) as [m' r]. injection S as <-. cbn [stack log] in *.
    rewrite sends_app, (L K). cbn [sends flat_map app]. apply puts_sends.
  - destruct (stack st) as [|f stk] eqn:K.
    + destruct r as [u|e].
      * destruct (step (system_of p t) st LRun); [|discriminate]. injection E as <-. exact I.
      * injection E as <-. unfold late, sent in *. cbn [doing_of st_of] in *. intros N. elim N. apply L. exact K.
    + destruct (step (system_of p t) st _); [|discriminate]. injection E as <-. apply resume_late.
  - destruct (stack st) as [|f stk]; [discriminate|]. destruct f as [id| | | |ph]; try discriminate. destruct ph; [|discriminate]. destruct (step (system_of p t) st (LPoll i)); [|discriminate]. injection E as <-. apply resume_late.
  - destruct (step (system_of p t) st (LSend x)); [|discriminate]. injection E as <-. apply resume_late.
Qed.
Lemma psteps_late p t args tr : forall s s', late s -> psteps p t args s tr = Some s' -> late s'.
Proof. induction tr as [|o tr IH]; intros s s' L E; cbn in E; [injection E as <-; exact L|]. destruct (pstep p t args s o) as [s1|] eqn:E1; [|discriminate]. eapply IH; [eapply pstep_late; eassumption|exact E]. Qed.
Lemma start_late p b args : late (start p b args).
Proof. unfold late, start. cbn [doing_of st_of]. destruct (match p_interface p with Tuple => b | NotTuple => _ end); [reflexivity|]. intros N. elim N. reflexivity. Qed.
Lemma reachable_late p t args s : reachable p t args s -> late s.
Proof. intros (b & tr & E). eapply psteps_late; [apply (start_late p b args)|exact E]. Qed.
Lemma goes_late p t args s ev s' : late s -> goes p t args s ev s' -> late s'.
Proof. intros L (tr & _ & E & _). eapply psteps_late; eassumption. Qed.
(** The status. *)
Lemma status_exit s ls ds : late s -> ended s SystemExit ls ds -> ds <> [] -> exit_status s = Some 0.
Proof.
  intros L (D & _ & S) N. unfold exit_status, late in *. rewrite D in *. rewrite S in L. destruct (L N) as (pre & ->). rewrite rev_app_distr. reflexivity.
Qed.
Lemma status_other s e ls ds : ended s e ls ds -> e <> SystemExit -> exit_status s = Some 1.
Proof. intros (D & _) N. unfold exit_status. rewrite D. destruct e; try reflexivity. contradiction. Qed.
(** Before run() the log has calls only. *)
Lemma status_usage p b args line : p_interface p = Tuple -> b = Ok tt -> p_main p args = usage line -> forall t ev s, runs p t b args ev s -> ended s SystemExit [line] [] -> exit_status s = Some 1.
Proof.
  intros I0 -> M t ev s (tr & _ & E & _) (D & _). unfold start in E. rewrite I0, M in E. unfold usage in E.
  destruct tr as [|[o|] tr]; cbn [psteps pstep] in E; [injection E as <-; discriminate D|discriminate|].
  destruct tr as [|[o|] tr]; cbn [psteps pstep] in E; [injection E as <-; discriminate D|discriminate|]. cbn [stack init] in E.
  destruct tr as [|[o|] tr]; cbn [psteps pstep] in E; [injection E as <-; reflexivity|destruct o; discriminate|discriminate].
Qed.

(** ** The words *)
Lemma given_getopt words args : given words args -> getopt words = Some args.
Proof.
  intros [-> | [-> P]]; [reflexivity|]. destruct args as [|w rest]; [reflexivity|]. destruct P as [-> |P]; [reflexivity|].
  destruct w as [|c w]; [reflexivity|]. cbn [getopt]. destruct (Z.eq_dec c 45) as [-> |N]; [elim (P w); reflexivity|].
  destruct c as [|q|q]; try reflexivity. repeat (destruct q as [q|q|]; try reflexivity). elim N. reflexivity.
Qed.
Lemma given_start p b words args : given words args -> command_start p b words = Started args (start p b args).
Proof. intros G. unfold command_start. rewrite (given_getopt _ _ G). reflexivity. Qed.
Lemma option_start p b w rest : ~ plain_word w -> w <> [dash; dash] -> command_start p b (w :: rest) = Refused.
Proof.
  intros NP ND. unfold command_start. destruct w as [|c w]; [elim NP; right; discriminate|].
  destruct (Z.eq_dec c dash) as [-> |N]; [|elim NP; right; intros r E; injection E as E _; contradiction].
  destruct w as [|c w]; [elim NP; left; reflexivity|]. cbn [getopt dash].
  destruct (Z.eq_dec c dash) as [-> |N]; [destruct w; [elim ND; reflexivity|reflexivity]|].
  destruct c as [|q|q]; try reflexivity. repeat (destruct q as [q|q|]; try reflexivity). destruct w; [elim N; reflexivity|reflexivity].
Qed.
Lemma exits_zero p t b words args ev s ls ds : given words args -> runs p t b args ev s -> ended s SystemExit ls ds -> ds <> [] -> exits p t b words ev ls ds 0.
Proof.
  intros G R E D. unfold exits. rewrite (given_start p b _ _ G). exists s. destruct E as (E1 & E2 & E3). split; [exact R|]. split; [exact E2|]. split; [exact E3|].
  cbn. eapply status_exit; [eapply goes_late; [apply start_late|exact R]|split; [exact E1|split; [exact E2|exact E3]]|exact D].
Qed.
Lemma exits_one p t b words args ev s e ls ds : given words args -> runs p t b args ev s -> ended s e ls ds -> e <> SystemExit -> exits p t b words ev ls ds 1.
Proof.
  intros G R E D. unfold exits. rewrite (given_start p b _ _ G). exists s. assert (E' := E). destruct E as (E1 & E2 & E3). split; [exact R|]. split; [exact E2|]. split; [exact E3|].
  cbn. eapply status_other; eassumption.
Qed.
Lemma exits_usage p t words args line : given words args -> p_interface p = Tuple -> p_main p args = usage line -> exits p t (Ok tt) words [] [line] [] 1.
Proof.
  intros G I0 M. destruct (usage_ends p t args line I0 M) as (s & R & E). unfold exits. rewrite (given_start p (Ok tt) _ _ G). exists s. assert (E' := E). destruct E as (E1 & E2 & E3).
  split; [exact R|]. split; [exact E2|]. split; [exact E3|]. cbn. eapply (status_usage p (Ok tt) args line); try eassumption. reflexivity.
Qed.
