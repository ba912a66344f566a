(** * Proofs about socket histories *)
From Coq Require Import ZArith List Bool Lia Arith.
From Verif Require Import PyBase Role SpecRole.
Import ListNotations.
Open Scope Z_scope.

Lemma closed_app a b : closed (a ++ b) = closed a ++ closed b.
Proof. apply flat_map_app. Qed.
Lemma made_app a b : made (a ++ b) = made a ++ made b.
Proof. apply flat_map_app. Qed.
Lemma newest_app a b : newest (a ++ b) = fold_left (fun o c => match c with SSocket s => Some s | _ => o end) b (newest a).
Proof. apply fold_left_app. Qed.

(** A system call is fine after the calls before it. *)
Definition fine (l1 : list sysevent) (c : sysevent) : Prop :=
  match works_on c with None => True | Some s => newest l1 = Some s /\ ~ In s (closed l1) end.
Inductive all_fine : list sysevent -> Prop :=
| af_nil : all_fine []
| af_snoc l c : all_fine l -> fine l c -> all_fine (l ++ [c]).
Lemma all_fine_at l : all_fine l -> forall l1 c l2, l = l1 ++ c :: l2 -> fine l1 c.
Proof.
  induction 1 as [|l c A IH F]; intros l1 d l2 E; [destruct l1; discriminate|].
  destruct l2 as [|x l2] using rev_ind.
  - apply app_inj_tail in E as [-> ->]. exact F.
  - clear IHl2. rewrite app_comm_cons, app_assoc in E. apply app_inj_tail in E as [E ->]. eapply IH; exact E.
Qed.

Record rinv (st : rstate) : Prop := {
  r_fine : all_fine (calls st);
  r_made : made (calls st) = seq 0 (created st);
  r_closed : Forall (fun s => (s < created st)%nat) (closed (calls st));
  r_once : NoDup (closed (calls st));
  r_sock : forall s, sock (mgr_of st) = Some s -> newest (calls st) = Some s /\ ~ In s (closed (calls st)) /\ (s < created st)%nat }.

Lemma rinv_init i z : rinv (mkRState (role_init i z) 0 []).
Proof. split; cbn; try constructor; discriminate. Qed.
Lemma snoc2 {A} (l : list A) a b : l ++ [a; b] = (l ++ [a]) ++ [b].
Proof. rewrite <- app_assoc. reflexivity. Qed.
(** A call on the current socket, other than close. *)
Lemma rinv_call st c s : rinv st -> sock (mgr_of st) = Some s -> works_on c = Some s -> (forall r, c <> SClose s r) ->
  rinv (mkRState (mgr_of st) (created st) (calls st ++ [c])).
Proof.
  intros [A B C D E] S W N. destruct (E _ S) as (E1 & E2 & E3).
  assert (CN : closed [c] = []) by (destruct c as [| | | | |x r]; try reflexivity; cbn in W; injection W as ->; exfalso; eapply N; reflexivity).
  assert (MN : made [c] = []) by (destruct c; try reflexivity; discriminate).
  split; cbn [mgr_of created calls].
  - apply af_snoc; [assumption|]. unfold fine. rewrite W. auto.
  - rewrite made_app, MN, app_nil_r. assumption.
  - rewrite closed_app, CN, app_nil_r. assumption.
  - rewrite closed_app, CN, app_nil_r. assumption.
  - intros x X. rewrite S in X. injection X as <-. rewrite newest_app, closed_app, CN, app_nil_r. split; [|auto].
    cbn. destruct c; auto; discriminate.
Qed.
Lemma rinv_socket st : rinv st ->
  rinv (mkRState (mkRole (Some (created st)) (interface (mgr_of st)) (socksize (mgr_of st))) (S (created st)) (calls st ++ [SSocket (created st)])).
Proof.
  intros [A B C D E]. split; cbn [mgr_of created calls sock].
  - apply af_snoc; [assumption|]. exact I.
  - rewrite made_app, B, seq_S. reflexivity.
  - rewrite closed_app. cbn. rewrite app_nil_r. eapply Forall_impl; [|exact C]. cbn; lia.
  - rewrite closed_app. cbn. rewrite app_nil_r. assumption.
  - intros s [= <-]. rewrite newest_app, closed_app. cbn. rewrite app_nil_r. split; [reflexivity|]. split; [|lia].
    intros X. rewrite Forall_forall in C. specialize (C _ X). lia.
Qed.
Lemma rinv_open st o : rinv st -> rinv (fst (role_open st o)).
Proof.
  intros I. unfold role_open. destruct st as [m n cs]. destruct (o_socket o); [|exact I].
  pose proof (rinv_socket _ I) as I1. cbn [mgr_of created calls] in I1.
  pose proof (rinv_call _ (SBind n (interface m) (o_bind o)) n I1 eq_refl eq_refl ltac:(discriminate)) as I2. cbn [mgr_of created calls] in I2.
  rewrite snoc2. destruct (o_bind o); [|exact I2].
  exact (rinv_call _ (SOption n (socksize m) (o_option o)) n I2 eq_refl eq_refl ltac:(discriminate)).
Qed.
Lemma rinv_do st o : rinv st -> rinv (fst (role_do st o)).
Proof.
  intros I. destruct o as [o|q dst o r|r|r|]; cbn [role_do]; [apply rinv_open, I| | | |exact I].
  - unfold role_send. assert (X : exists st1 r1, (match sock (mgr_of st) with None => role_open st o | Some _ => (st, Ok RVNone) end) = (st1, r1) /\ rinv st1).
    { destruct (sock (mgr_of st)); [eauto|]. pose proof (rinv_open st o I) as Y. destruct (role_open st o). eauto. }
    destruct X as (st1 & r1 & -> & I1). destruct r1; [|exact I1]. destruct (sock (mgr_of st1)) as [s|] eqn:S; [|exact I1].
    exact (rinv_call _ (SSendto s q dst r) s I1 S eq_refl ltac:(discriminate)).
  - unfold role_read. destruct (sock (mgr_of st)) as [s|] eqn:S; [|exact I].
    exact (rinv_call _ (SRecvfrom s (socksize (mgr_of st)) r) s I S eq_refl ltac:(discriminate)).
  - unfold role_close. destruct (sock (mgr_of st)) as [s|] eqn:S.
    + destruct I as [A B C D E]. destruct (E _ S) as (E1 & E2 & E3).
      assert (F : all_fine (calls st ++ [SClose s r])) by (apply af_snoc; [assumption|unfold fine; cbn; auto]).
      destruct r; split; cbn [fst mgr_of created calls sock]; auto; rewrite ?made_app, ?closed_app; cbn; rewrite ?app_nil_r; auto.
      * apply Forall_app. split; [assumption|]. constructor; [assumption|constructor].
      * apply NoDup_Add with (a := s) (l := closed (calls st)); [|split; assumption].
        rewrite <- (app_nil_r (closed (calls st))) at 1. apply Add_app.
      * discriminate.
      * intros x X. rewrite S in X. injection X as <-. rewrite newest_app. cbn. auto.
    + cbn [fst]. destruct I as [A B C D E]. split; cbn; auto. discriminate.
Qed.
Lemma rinv_run i z ops : rinv (role_run i z ops).
Proof.
  unfold role_run. generalize (rinv_init i z). generalize (mkRState (role_init i z) 0 []). induction ops as [|o ops IH]; intros st I; [exact I|].
  cbn. apply IH, rinv_do, I.
Qed.

(** With discipline at most the current socket is left open. *)
Definition tidy (st : rstate) : Prop := left_open (calls st) = match sock (mgr_of st) with Some s => [s] | None => [] end.
Lemma left_open_call cs c : made [c] = [] -> closed [c] = [] -> left_open (cs ++ [c]) = left_open cs.
Proof. intros M C. unfold left_open. rewrite made_app, closed_app, M, C, !app_nil_r. reflexivity. Qed.
Lemma left_open_socket cs n : made cs = seq 0 n -> Forall (fun s => (s < n)%nat) (closed cs) -> left_open (cs ++ [SSocket n]) = left_open cs ++ [n].
Proof.
  intros M C. unfold left_open. rewrite made_app, closed_app. cbn [closed made flat_map app]. rewrite app_nil_r, filter_app. f_equal.
  cbn. replace (existsb (Nat.eqb n) (closed cs)) with false; [reflexivity|]. symmetry. apply not_true_iff_false. intros X.
  apply existsb_exists in X as (x & X1 & X2). apply Nat.eqb_eq in X2. subst x. rewrite Forall_forall in C. specialize (C _ X1). lia.
Qed.
Lemma left_open_close cs s : left_open cs = [s] -> left_open (cs ++ [SClose s (Ok tt)]) = [].
Proof.
  intros H. unfold left_open in *. rewrite made_app, closed_app. cbn [closed made flat_map app]. rewrite app_nil_r.
  assert (X : forall l, filter (fun x => negb (existsb (Nat.eqb x) (closed cs ++ [s]))) l =
                        filter (fun x => negb (Nat.eqb x s)) (filter (fun x => negb (existsb (Nat.eqb x) (closed cs))) l)).
  { induction l as [|x l IH]; [reflexivity|]. cbn [filter]. rewrite existsb_app. cbn [existsb]. rewrite orb_false_r, negb_orb.
    destruct (existsb (Nat.eqb x) (closed cs)); cbn [negb andb filter]; [exact IH|]. destruct (x =? s)%nat; cbn [negb]; rewrite IH; reflexivity. }
  rewrite X, H. cbn. rewrite Nat.eqb_refl. reflexivity.
Qed.
Lemma tidy_open st o : rinv st -> tidy st -> sock (mgr_of st) = None -> tidy (fst (role_open st o)).
Proof.
  intros I T S. unfold role_open. destruct st as [m n cs]. destruct (o_socket o); [|exact T].
  unfold tidy in *. cbn [mgr_of calls sock created] in *. rewrite S in T.
  pose proof (left_open_socket cs n (r_made _ I) (r_closed _ I)) as L. rewrite T in L. cbn [app] in L.
  destruct (o_bind o); cbn [fst mgr_of calls sock]; rewrite snoc2, ?left_open_call by reflexivity; exact L.
Qed.
Lemma tidy_do st o : rinv st -> tidy st -> match o with ROpen _ => sock (mgr_of st) = None | _ => True end -> tidy (fst (role_do st o)).
Proof.
  intros I T D. destruct o as [o|q dst o r|r|r|]; cbn [role_do]; [apply tidy_open; assumption| | | |exact T].
  - unfold role_send. assert (X : exists st1 r1, (match sock (mgr_of st) with None => role_open st o | Some _ => (st, Ok RVNone) end) = (st1, r1) /\ tidy st1).
    { destruct (sock (mgr_of st)) eqn:S; [eauto|]. pose proof (tidy_open st o I T S) as Y. destruct (role_open st o). eauto. }
    destruct X as (st1 & r1 & -> & T1). destruct r1; [|exact T1]. destruct (sock (mgr_of st1)) as [s|] eqn:S; [|exact T1].
    unfold tidy in *. cbn [fst mgr_of calls]. rewrite left_open_call by reflexivity. exact T1.
  - unfold role_read. destruct (sock (mgr_of st)) as [s|] eqn:S; [|exact T].
    unfold tidy in *. cbn [fst mgr_of calls]. rewrite left_open_call by reflexivity. exact T.
  - unfold role_close. unfold tidy in *. destruct (sock (mgr_of st)) as [s|] eqn:S; [|exact T].
    destruct r as [[]|e]; cbn [fst mgr_of calls sock].
    + apply left_open_close, T.
    + rewrite left_open_call by reflexivity. rewrite S. exact T.
Qed.
Lemma tidy_run i z ops : disciplined (mkRState (role_init i z) 0 []) ops -> tidy (role_run i z ops).
Proof.
  unfold role_run. assert (T : tidy (mkRState (role_init i z) 0 [])) by reflexivity. revert T.
  generalize (rinv_init i z). generalize (mkRState (role_init i z) 0 []). induction ops as [|o ops IH]; intros st I T D; [exact T|].
  destruct D as [D1 D2]. cbn. apply IH; [apply rinv_do, I|apply tidy_do; assumption|exact D2].
Qed.
