(** * What asyncore logs: arrivals come before what is read, and what is sent was sent by a manager. *)
From Coq Require Import ZArith List Bool Lia.
From Verif Require Import PyBase Classes Values Codec Manager Role Asyn Process SpecAsyn SpecProcess ProofsAsyn ProofsAsynLog ProofsHistory ProofsProcess ProofsProcessStep ProofsProcessStack.
Import ListNotations.
Open Scope Z_scope.

Definition indoors (e : aevent) : Prop := match e with ESentto _ _ _ | EArrive _ _ => False | _ => True end.
Definition within (st st' : astate) : Prop := exists es, alog st' = alog st ++ es /\ Forall indoors es.
Lemma within_nil st st' : alog st' = alog st -> within st st'.
Proof. intros E. exists []. rewrite app_nil_r. auto. Qed.
Lemma within_trans a b c : within a b -> within b c -> within a c.
Proof. intros (x & X & P) (y & Y & Q). exists (x ++ y). split; [rewrite Y, X, app_assoc; reflexivity|apply Forall_app; auto]. Qed.
Lemma within_one st e st' : alog st' = alog st ++ [e] -> indoors e -> within st st'.
Proof. intros E H. exists [e]. auto. Qed.
Lemma within_say st e : indoors e -> within st (say st e).
Proof. apply within_one. reflexivity. Qed.
Lemma within_read_error st p rest k y e : within st (read_error st p rest k y e).
Proof. destruct e; eapply within_one; try reflexivity; exact Logic.I. Qed.
Lemma within_got st p rest k y s x : within st (got st p rest k y s x).
Proof. unfold got. eapply within_trans; [apply (within_say st (ERecv s x)); exact Logic.I|]. destruct x as [[d a]|e]; [eapply within_one; [reflexivity|exact Logic.I]|apply within_read_error]. Qed.
Lemma within_queue st s q : within st (set_queue st s q).
Proof. apply within_nil. unfold set_queue. destruct (nth_error (socks st) s); reflexivity. Qed.
Lemma within_serve ready : forall st p k, within st (serve st p ready k).
Proof.
  induction ready as [|fd r IH]; intros st p k; cbn [serve]; [eapply within_one; [reflexivity|exact Logic.I]|].
  destruct (map_get (smap st) fd) as [y|]; [|apply IH]. unfold handle_read. destruct (obj st y) as [m|]; [|apply within_nil; reflexivity]. destruct (a_role m) as [s|]; [|apply within_read_error].
  destruct (nth_error (socks st) s) as [ks|]; [|apply within_nil; reflexivity]. destruct (k_open ks); [|apply within_read_error]. destruct (k_queue ks); [apply within_nil; reflexivity|].
  eapply within_trans; [apply within_queue|apply within_got].
Qed.
Lemma within_kopen st o op fd : within st (fst (fst (kopen st o op fd))).
Proof. unfold kopen. destruct (o_socket op); [eapply within_one; [reflexivity|exact Logic.I]|apply within_nil; reflexivity]. Qed.
(** What sending logs. *)
Definition sending (lg : list aevent) (o : nat) (q : str) (dst : addr) (es : list aevent) : Prop :=
  exists pre (x : res unit), Forall indoors pre /\
    match x with
    | Ok _ => exists s, es = pre ++ [ESentto s q dst; Asyn.ESend o (Ok tt)] /\ opened_by (lg ++ pre) s o
    | Err e => es = pre ++ [Asyn.ESend o (Err e)]
    end.
Lemma asend_log st o q dst op fd r st' : inv st -> astep st (ASend o q dst op fd r) = Some st' -> exists es, alog st' = alog st ++ es /\ sending (alog st) o q dst es.
Proof.
  intros J E. cbn [astep] in E. destruct (fd_free st fd); [|discriminate E]. unfold with_obj in E. destruct (auser (astack st)); [|discriminate E]. destruct (obj st o) as [m|] eqn:O; [|discriminate E]. injection E as <-.
  set (out := fun (st0 : astate) (s : nat) => match nth_error (socks st0) s with Some k => if k_open k then say (match r with Ok _ => say st0 (ESentto s q dst) | Err _ => st0 end) (Asyn.ESend o r) else say st0 (Asyn.ESend o (Err OSError)) | None => st0 end).
  assert (Out : forall st1 s pre, alog st1 = alog st ++ pre -> Forall indoors pre -> opened_by (alog st1) s o -> nth_error (socks st1) s <> None -> exists es, alog (out st1 s) = alog st ++ es /\ sending (alog st) o q dst es).
  { intros st1 s pre L F Op N. unfold out. destruct (nth_error (socks st1) s) as [k|]; [|contradiction]. destruct (k_open k).
    - destruct r as [[]|e]; cbn [say alog]; rewrite L, <- !app_assoc; (eexists; split; [reflexivity|]); exists pre.
      + exists (Ok tt). split; [exact F|]. exists s. rewrite <- L. auto.
      + exists (Err e). auto.
    - cbn [say alog]. rewrite L, <- app_assoc. eexists; split; [reflexivity|]. exists pre, (Err OSError). auto. }
  unfold asend. destruct (a_role m) as [s|] eqn:R.
  - apply (Out st s []); [rewrite app_nil_r; reflexivity|constructor|eapply i_role; eauto|]. apply nth_error_Some. eapply i_opened; [exact J|]. eapply i_role; eauto.
  - unfold kopen. destruct (o_socket op) as [u|e].
    2:{ eexists; split; [reflexivity|]. exists [], (Err e). auto. }
    set (st1 := say _ (EOpened _ _ _)). set (st2 := set_obj st1 o _).
    assert (L : alog st2 = alog st ++ [EOpened (length (socks st)) o fd]) by reflexivity.
    assert (Er : forall e, exists es, alog (say st2 (Asyn.ESend o (Err e))) = alog st ++ es /\ sending (alog st) o q dst es).
    { intros e. cbn [say alog]. rewrite L, <- app_assoc. eexists; split; [reflexivity|]. exists [EOpened (length (socks st)) o fd], (Err e). split; [repeat constructor|reflexivity]. }
    destruct (o_bind op) as [u1|e]; [|apply Er]. destruct (o_option op) as [u2|e]; [|apply Er].
    apply (Out st2 (length (socks st)) [EOpened (length (socks st)) o fd]); auto; [repeat constructor|exists fd; rewrite L; apply in_or_app; right; left; reflexivity|].
    cbn. rewrite nth_error_app2, Nat.sub_diag by lia. discriminate.
Qed.
Lemma astep_within st l st' : astep st l = Some st' -> (forall o q dst op fd r, l <> ASend o q dst op fd r) -> (forall s x, l <> AArrive s x) -> within st st'.
Proof.
  intros E N1 N2. destruct l as [cb i op fd|o q dst op fd r|o|o r|o r| |e|s x]; cbn [astep] in E; try (exfalso; eapply N1; reflexivity); try (exfalso; eapply N2; reflexivity).
  - destruct (_ && _); [|discriminate E]. injection E as <-. unfold anew. pose proof (within_kopen st (length (objs st)) op fd) as K.
    destruct cb as [[|]| |]; try (eapply within_one; [reflexivity|exact Logic.I]).
    destruct (kopen st (length (objs st)) op fd) as [[st1 [s|]] [u|e]]; cbn [fst] in K; (eapply within_trans; [exact K|eapply within_one; [reflexivity|exact Logic.I]]).
  - unfold with_obj in E. destruct (auser (astack st)); [|discriminate]. destruct (obj st o) as [m|]; [|discriminate]. injection E as <-. unfold apoll.
    destruct (forallb _ _); (eapply within_trans; [apply (within_say st (EPoll o)); exact Logic.I|]); [apply within_serve|eapply within_one; [reflexivity|exact Logic.I]].
  - unfold with_obj in E. destruct (auser (astack st)); [|discriminate]. destruct (obj st o) as [m|]; [|discriminate]. injection E as <-. unfold ahandle_close.
    destruct (a_role m) as [s|]; [|apply within_say; exact Logic.I]. pose proof (kclose_log st s r) as [L _]. destruct (kclose st s r) as [st1 r1]. cbn [fst] in L. destruct r1; (eapply within_one; [cbn [say set_obj alog]; rewrite L; reflexivity|exact Logic.I]).
  - unfold with_obj in E. destruct (auser (astack st)); [|discriminate]. destruct (obj st o) as [m|]; [|discriminate]. injection E as <-. unfold aclose.
    match goal with |- context [kclose ?x (a_socket m) r] => set (st2 := x) end. assert (L2 : alog st2 = alog st) by (unfold st2; destruct (a_fileno m); reflexivity). clearbody st2.
    pose proof (kclose_log st2 (a_socket m) r) as [L _]. destruct (kclose st2 (a_socket m) r) as [st1 r1]. cbn [fst] in L. eapply within_one; [cbn [say alog]; rewrite L, L2; reflexivity|exact Logic.I].
  - destruct (astack st) as [|[p0 r0|o ie|o s] [|[p rest|o' ie'|o' s'] k]]; try discriminate. injection E as <-. eapply within_trans; [apply (within_say st (ECbEnd o (Ok tt))); exact Logic.I|apply within_serve].
  - destruct (astack st) as [|[p0 r0|o ie|o s] [|[p rest|o' ie'|o' s'] k]]; try discriminate. injection E as <-. eapply within_trans; [apply (within_say st (ECbEnd o (Err e))); exact Logic.I|].
    destruct ie; [eapply within_one; [reflexivity|exact Logic.I]|apply within_read_error].
Qed.
Lemma arrive_log st s x st' : astep st (AArrive s x) = Some st' -> exists es, alog st' = alog st ++ EArrive s x :: es /\ Forall indoors es.
Proof.
  intros E. cbn [astep] in E. destruct (nth_error (socks st) s) as [ks|]; [|discriminate]. destruct (k_open ks); [|discriminate].
  assert (G : forall st1, within (say st (EArrive s x)) st1 -> exists es, alog st1 = alog st ++ EArrive s x :: es /\ Forall indoors es).
  { intros st1 (es & L & F). cbn in L. rewrite <- app_assoc in L. eauto. }
  destruct (astack st) as [|[p0 r0|o ie|o s0] [|[p rest|o' ie'|o' s'] k]]; try (injection E as <-; apply G; apply within_queue).
  destruct (Nat.eqb s s0); injection E as <-; apply G; [apply within_got|apply within_queue].
Qed.

(** ** What was read had arrived *)
Definition prefix_of {A} (a b : list A) : Prop := exists c, b = a ++ c.
Lemma prefix_trans {A} (a b c : list A) : prefix_of a b -> prefix_of b c -> prefix_of a c.
Proof. intros [x ->] [y ->]. exists (x ++ y). symmetry. apply app_assoc. Qed.
Definition ordered (lg : list aevent) : Prop := forall pre post s, lg = pre ++ post -> prefix_of (received pre s) (arrivals pre s).
Lemma app_eq_app' {A} (a b c d : list A) : a ++ b = c ++ d -> (exists l, a = c ++ l /\ d = l ++ b) \/ (exists l, c = a ++ l /\ b = l ++ d).
Proof.
  revert c. induction a as [|x a IH]; intros c E; [right; exists c; auto|]. destruct c as [|y c]; [left; exists (x :: a); auto|].
  injection E as -> E. destruct (IH _ E) as [(l & -> & ->)|(l & -> & ->)]; [left|right]; exists l; auto.
Qed.
Lemma ordered_step lg a b : ordered lg -> (forall s, received a s = []) -> (forall s, arrivals b s = []) ->
  (forall s, prefix_of (received (lg ++ a ++ b) s) (arrivals (lg ++ a ++ b) s)) -> ordered (lg ++ a ++ b).
Proof.
  intros O A B T pre post s E. destruct (app_eq_app' _ _ _ _ E) as [(l & E1 & E2)|(l & E1 & E2)].
  - apply (O pre l s). exact E1.
  - subst pre. destruct (app_eq_app' _ _ _ _ E2) as [(l' & E3 & E4)|(l' & E3 & E4)].
    + subst a. specialize (A s). rewrite received_app in A. apply app_eq_nil in A as [A _]. rewrite received_app, A, app_nil_r, arrivals_app.
      destruct (O lg [] s) as [c C]; [rewrite app_nil_r; reflexivity|]. exists (c ++ arrivals l s). rewrite C, <- app_assoc. reflexivity.
    + subst l b. specialize (B s). rewrite arrivals_app in B. apply app_eq_nil in B as [_ B]. eapply prefix_trans; [|eapply prefix_trans; [apply (T s)|]].
      * exists (received post s). rewrite !received_app, <- !app_assoc. reflexivity.
      * exists []. rewrite !arrivals_app, B, !app_nil_r. reflexivity.
Qed.
Lemma indoors_arrivals es s : Forall indoors es -> arrivals es s = [].
Proof. induction 1 as [|e es H F IH]; [reflexivity|]. unfold arrivals. cbn. fold (arrivals es s). rewrite IH. destruct e; try reflexivity. contradiction. Qed.
Lemma sending_arrivals lg o q dst es s : sending lg o q dst es -> arrivals es s = [].
Proof.
  intros (pre & [u|e] & F & H); [destruct H as (t & -> & _)|subst es]; rewrite arrivals_app, (indoors_arrivals _ _ F); reflexivity.
Qed.
Lemma aexec_ordered tr : forall st, aexec tr = Some st -> ordered (alog st).
Proof.
  induction tr as [|l tr IH] using rev_ind; intros st E.
  - injection E as <-. intros pre post s H. destruct pre; [exists []; reflexivity|discriminate H].
  - unfold aexec in E. rewrite asteps_app in E. destruct (asteps ainit tr) as [st1|] eqn:E1; [|discriminate E]. cbn [asteps] in E. destruct (astep st1 l) as [st2|] eqn:S; [|discriminate E]. injection E as <-.
    pose proof (IH _ E1) as O.
    assert (J : inv st2) by (apply (aexec_inv (tr ++ [l])); unfold aexec; rewrite asteps_app, E1; cbn [asteps]; rewrite S; reflexivity).
    assert (T : forall s, prefix_of (received (alog st2) s) (arrivals (alog st2) s)) by (intros s; rewrite (i_queue _ J s); exists (queued st2 s); reflexivity).
    assert (C : (exists s x, l = AArrive s x) \/ (forall s x, l <> AArrive s x)) by (destruct l; try (right; discriminate); left; eauto).
    destruct C as [(s & x & ->)|C].
    + destruct (arrive_log _ _ _ _ S) as (es & L & F). change (alog st1 ++ EArrive s x :: es) with (alog st1 ++ [EArrive s x] ++ es) in L. rewrite L in *.
      apply ordered_step; auto. intros t. apply indoors_arrivals. exact F.
    + assert (G : exists es, alog st2 = alog st1 ++ es /\ forall s, arrivals es s = []).
      { assert (D : (exists o q dst op fd r, l = ASend o q dst op fd r) \/ (forall o q dst op fd r, l <> ASend o q dst op fd r)) by (destruct l; try (right; discriminate); left; eauto 10).
        destruct D as [(o & q & dst & op & fd & r & ->)|D].
        - destruct (asend_log _ _ _ _ _ _ _ _ (proj1 (aexec_inv _ _ E1)) S) as (es & L & H). exists es. split; [exact L|]. intros s. eapply sending_arrivals; exact H.
        - destruct (astep_within _ _ _ S D C) as (es & L & F). exists es. split; [exact L|]. intros s. apply indoors_arrivals. exact F. }
      destruct G as (es & L & F). change (alog st1 ++ es) with (alog st1 ++ [] ++ es) in L. rewrite L in *. apply ordered_step; auto.
Qed.
Lemma read_arrived tr st pre s x post : aexec tr = Some st -> alog st = pre ++ ERecv s x :: post -> In (EArrive s x) pre.
Proof.
  intros E L. pose proof (aexec_ordered _ _ E) as O. destruct (O (pre ++ [ERecv s x]) post s) as [c C]; [rewrite L, <- app_assoc; reflexivity|].
  rewrite arrivals_app, received_app in C. cbn in C. rewrite Nat.eqb_refl, app_nil_r in C. cbn in C.
  assert (H : In x (arrivals pre s)) by (rewrite C; apply in_or_app; left; apply in_or_app; right; left; reflexivity).
  unfold arrivals in H. apply in_flat_map in H as (e & I & H). destruct e as [| | | |t y| | | | | |]; try contradiction.
  destruct (Nat.eqb t s) eqn:Q; [|contradiction]. apply Nat.eqb_eq in Q. destruct H as [<-|[]]. subst t. exact I.
Qed.

(** ** What was sent was sent by a manager *)
Definition inside (e : wevent) : Prop := match e with WA (ESentto _ _ _) => False | WM _ (Manager.ESend _ _ (Ok _)) => False | _ => True end.
Inductive sent_log : list wevent -> Prop :=
| sent_nil : sent_log []
| sent_inside wl e : sent_log wl -> inside e -> sent_log (wl ++ [e])
| sent_out wl s o os dst msg : sent_log wl -> opened_by (traffic wl) s o -> snd (message_encode msg) = Ok os ->
    sent_log (wl ++ [WA (ESentto s os dst); WA (Asyn.ESend o (Ok tt)); WM o (ETake (Some msg) dst); WM o (Manager.ESend os dst (Ok tt))]).
Lemma sent_more wl es : sent_log wl -> Forall inside es -> sent_log (wl ++ es).
Proof.
  intros S F. revert wl S. induction F as [|e es H F IH]; intros wl S; [rewrite app_nil_r; exact S|]. change (e :: es) with ([e] ++ es). rewrite app_assoc. apply IH. apply sent_inside; assumption.
Qed.
Lemma snoc_cons' {A} (l pre post : list A) x y : l ++ [x] = pre ++ y :: post -> (post = [] /\ pre = l /\ x = y) \/ exists post', post = post' ++ [x] /\ l = pre ++ y :: post'.
Proof. apply snoc_cons. Qed.
Lemma sent_forward wl : sent_log wl -> forall l1 s os dst l2, wl = l1 ++ WA (ESentto s os dst) :: l2 ->
  exists o msg l3, opened_by (traffic l1) s o /\ snd (message_encode msg) = Ok os /\ l2 = WA (Asyn.ESend o (Ok tt)) :: WM o (ETake (Some msg) dst) :: WM o (Manager.ESend os dst (Ok tt)) :: l3.
Proof.
  induction 1 as [|wl e S IH I|wl s o os dst msg S IH Op En]; intros l1 s0 os0 dst0 l2 E.
  - destruct l1; discriminate E.
  - apply snoc_cons in E as [(-> & -> & ->)|(l2' & -> & E)]; [contradiction|]. destruct (IH _ _ _ _ _ E) as (o & msg & l3 & H1 & H2 & ->). exists o, msg, (l3 ++ [e]). auto.
  - rewrite (app_assoc wl [WA (ESentto s os dst); WA (Asyn.ESend o (Ok tt)); WM o (ETake (Some msg) dst)] [_] : wl ++ [_; _; _; _] = _) in E.
    apply snoc_cons in E as [(_ & _ & E)|(l2' & -> & E)]; [discriminate E|].
    rewrite (app_assoc wl [WA (ESentto s os dst); WA (Asyn.ESend o (Ok tt))] [_] : wl ++ [_; _; _] = _) in E.
    apply snoc_cons in E as [(_ & _ & E)|(l3' & -> & E)]; [discriminate E|].
    rewrite (app_assoc wl [WA (ESentto s os dst)] [_] : wl ++ [_; _] = _) in E.
    apply snoc_cons in E as [(_ & _ & E)|(l4' & -> & E)]; [discriminate E|].
    apply snoc_cons in E as [(-> & -> & E)|(l5' & -> & E)].
    + injection E as <- <- <-. exists o, msg, []. auto.
    + destruct (IH _ _ _ _ _ E) as (o' & msg' & l6 & H1 & H2 & ->). exists o', msg'. eexists. split; [exact H1|]. split; [exact H2|]. cbn. reflexivity.
Qed.
Lemma sent_back wl : sent_log wl -> forall l1 o os dst l2, wl = l1 ++ WM o (Manager.ESend os dst (Ok tt)) :: l2 ->
  exists l0 s msg, l1 = l0 ++ [WA (ESentto s os dst); WA (Asyn.ESend o (Ok tt)); WM o (ETake (Some msg) dst)] /\ opened_by (traffic l0) s o /\ snd (message_encode msg) = Ok os.
Proof.
  induction 1 as [|wl e S IH I|wl s o os dst msg S IH Op En]; intros l1 o0 os0 dst0 l2 E.
  - destruct l1; discriminate E.
  - apply snoc_cons in E as [(-> & -> & ->)|(l2' & -> & E)]; [contradiction|]. eapply IH; exact E.
  - rewrite (app_assoc wl [WA (ESentto s os dst); WA (Asyn.ESend o (Ok tt)); WM o (ETake (Some msg) dst)] [_] : wl ++ [_; _; _; _] = _) in E.
    apply snoc_cons in E as [(-> & -> & E)|(l2' & -> & E)]; [injection E as <- <- <-; exists wl, s, msg; auto|].
    rewrite (app_assoc wl [WA (ESentto s os dst); WA (Asyn.ESend o (Ok tt))] [_] : wl ++ [_; _; _] = _) in E.
    apply snoc_cons in E as [(_ & _ & E)|(l3' & -> & E)]; [discriminate E|].
    rewrite (app_assoc wl [WA (ESentto s os dst)] [_] : wl ++ [_; _] = _) in E.
    apply snoc_cons in E as [(_ & _ & E)|(l4' & -> & E)]; [discriminate E|].
    apply snoc_cons in E as [(_ & _ & E)|(l5' & -> & E)]; [discriminate E|]. eapply IH; exact E.
Qed.
Lemma inside_indoors es : Forall indoors es -> Forall inside (map WA es).
Proof. induction 1 as [|e es H F IH]; [constructor|]. cbn [map]. constructor; [destruct e; cbn in *; tauto|exact IH]. Qed.
Lemma fresh_inside A l A' : astep A l = Some A' -> (forall o q dst op fd r, l <> ASend o q dst op fd r) -> Forall inside (fresh A A').
Proof.
  intros S D. assert (C : (exists s x, l = AArrive s x) \/ (forall s x, l <> AArrive s x)) by (destruct l; try (right; discriminate); left; eauto).
  destruct C as [(s & x & ->)|C].
  - destruct (arrive_log _ _ _ _ S) as (es & L & F). rewrite (fresh_eq _ _ _ L). constructor; [exact Logic.I|apply inside_indoors; exact F].
  - destruct (astep_within _ _ _ S D C) as (es & L & F). rewrite (fresh_eq _ _ _ L). apply inside_indoors. exact F.
Qed.
Lemma asyncore_sent w l k w' : sent_log (wlog w) -> asyncore w l k = Some w' -> (forall o q dst op fd r, l <> ASend o q dst op fd r) -> sent_log (wlog w').
Proof. intros S E D. unfold asyncore in E. destruct (astep (asyn w) l) eqn:St; [|discriminate E]. injection E as <-. cbn. apply sent_more; [exact S|eapply fresh_inside; eauto]. Qed.
Lemma aside_sent w l w' : sent_log (wlog w) -> aside w l = Some w' -> (forall o q dst op fd r, l <> ASend o q dst op fd r) -> sent_log (wlog w').
Proof. intros S E D. unfold aside in E. destruct (astep (asyn w) l) eqn:St; [|discriminate E]. injection E as <-. cbn. apply sent_more; [exact S|eapply fresh_inside; eauto]. Qed.
Definition tame (e : Manager.event) : Prop := match e with Manager.ESend _ _ (Ok _) => False | _ => True end.
Lemma acts_sent w o sys m es k : sent_log (wlog w) -> Forall tame es -> sent_log (wlog (acts w o sys m es k)).
Proof. intros S F. cbn. apply sent_more; [exact S|]. apply Forall_map. eapply Forall_impl; [|exact F]. intros e H. destruct e; try exact H; exact Logic.I. Qed.
Lemma received_sent w o r k w' : sent_log (wlog w) -> received_by w o r k = Some w' -> sent_log (wlog w').
Proof. intros S E. unfold received_by in E. eapply asyncore_sent; [exact S|exact E|]. destruct r; discriminate. Qed.
Lemma nothing_sent w o sys m es k : sent_log (wlog w) -> Forall tame es -> sent_log (wlog (nothing_queued w o sys m es k)).
Proof. intros S F. unfold nothing_queued. destruct (queueEmpty sys) as [[|n]|]; apply acts_sent; auto; apply Forall_app; repeat constructor; exact F. Qed.
Lemma fails_sent w o sys m e es k : sent_log (wlog w) -> Forall tame es -> sent_log (wlog (run_fails w o sys m e es k)).
Proof.
  intros S F. assert (R : run_fails w o sys m e es k = nothing_queued w o sys m es k \/ run_fails w o sys m e es k = acts w o sys m (es ++ [EResult (Err e)]) k) by (destruct e; auto).
  destruct R as [->| ->]; [apply nothing_sent; assumption|apply acts_sent; auto]. apply Forall_app. repeat constructor. exact F.
Qed.
Theorem wstep_sent w l w' : winv w -> sent_log (wlog w) -> wstep w l = Some w' -> sent_log (wlog w').
Proof.
  intros I J S. destruct l as [f imp qe tc i op fd|o a|o|o|o r|o r| |e|s x|op fd r|depth]; cbn [wstep] in S.
  - destruct (user_code (ctl w)); [|discriminate S]. destruct (astep (asyn w) (ANew (CbPair true) i op fd)) as [A'|] eqn:E; [|discriminate S]. injection S as <-.
    cbn [wlog]. apply sent_more; [exact J|eapply fresh_inside; [exact E|discriminate]].
  - destruct (user_code (ctl w)); [|discriminate S]. destruct (man_of w o) as [[sys m]|]; [|discriminate S]. destruct (do_call (flav sys) a m) as [m' r]. injection S as <-.
    apply acts_sent; auto. constructor; [exact Logic.I|]. apply Forall_map. apply Forall_forall. intros p _. exact Logic.I.
  - destruct (user_code (ctl w)); [|discriminate S]. eapply asyncore_sent; [exact J|exact S|discriminate].
  - destruct (user_code (ctl w)); [|discriminate S]. destruct (man_of w o) as [[sys m]|]; [|discriminate S]. injection S as <-. exact J.
  - destruct (user_code (ctl w)); [|discriminate S]. eapply aside_sent; [exact J|exact S|discriminate].
  - destruct (user_code (ctl w)); [|discriminate S]. eapply aside_sent; [exact J|exact S|discriminate].
  - destruct (ctl w) as [|[o id|o|o| | | | |] k]; try discriminate S.
    + destruct (man_of w o) as [[sys m]|]; [|discriminate S]. destruct (after_response (flav sys) m id (Ok tt)) as [m' r]. eapply received_sent; [|exact S]. apply acts_sent; auto. repeat constructor.
    + eapply received_sent; [exact J|exact S].
    + injection S as <-. exact J.
  - destruct (ctl w) as [|[o id|o|o| | | | |] k]; try discriminate S.
    + destruct (man_of w o) as [[sys m]|]; [|discriminate S]. destruct (after_response (flav sys) m id (Err e)) as [m' r]. eapply received_sent; [|exact S]. apply acts_sent; auto. repeat constructor.
    + destruct (man_of w o) as [[sys m]|]; [|discriminate S]. eapply received_sent; [exact J|exact S].
    + destruct k as [|[] k]; try discriminate S. destruct (man_of w o) as [[sys m]|]; [|discriminate S]. injection S as <-. apply acts_sent; auto. repeat constructor.
  - assert (G : forall w1, aside w (AArrive s x) = Some w1 -> sent_log (wlog w1)) by (intros w1 E; eapply aside_sent; [exact J|exact E|discriminate]).
    destruct (ctl w) as [|[| | | | | | |] k]; try (apply G; exact S). destruct (aside w (AArrive s x)) as [w1|]; [|discriminate S]. injection S as <-. specialize (G w1 eq_refl).
    destruct (astack (asyn w1)) as [|[| |] ?]; exact G.
  - destruct (ctl w) as [|[| | |o [|]| | | |] k]; try discriminate S. destruct (man_of w o) as [[sys m]|]; [|discriminate S].
    destruct (outbound m) as [|[om dst] q]; [injection S as <-; apply nothing_sent; auto|].
    destruct (match om with None => Err AttributeError | Some msg => snd (message_encode msg) end) as [os|e] eqn:En; [|injection S as <-; apply fails_sent; auto; repeat constructor].
    destruct om as [msg|]; [|discriminate En].
    unfold aside in S. destruct (astep (asyn w) (ASend o os dst op fd r)) as [A'|] eqn:St; [|discriminate S]. cbn [asyn] in S.
    destruct (w_asyn _ I) as [atr Ea]. destruct (aexec_inv _ _ Ea) as [V _]. destruct (asend_log _ _ _ _ _ _ _ _ V St) as (es & L & pre & x & F & H).
    rewrite (fresh_eq _ _ _ L) in S. rewrite L, rev_app_distr in S.
    destruct x as [u|e].
    + destruct H as (s & -> & Op). rewrite rev_app_distr in S. cbn in S. injection S as <-. cbn [acts wlog]. rewrite map_app, !app_assoc. cbn [map].
      rewrite <- app_assoc. apply sent_out; auto; [apply sent_more; [exact J|apply inside_indoors; exact F]|]. rewrite traffic_app, traffic_wa, (w_traffic _ I). exact Op.
    + subst es. rewrite rev_app_distr in S. cbn in S. injection S as <-. apply fails_sent; [|repeat constructor]. cbn [wlog]. apply sent_more; [exact J|].
      rewrite map_app. apply Forall_app. split; [apply inside_indoors; exact F|repeat constructor].
  - destruct (ctl w) as [|[| | |o [|]|o d src|o e|p r|] k]; try discriminate S.
    + eapply asyncore_sent; [exact J|exact S|discriminate].
    + destruct (man_of w o) as [[sys m]|]; [|discriminate S]. destruct (receiveData sys m depth (DStr d)) as [[r|id n|n] [msg|]]; try discriminate S;
        try (eapply received_sent; [exact J|exact S]); injection S as <-; apply acts_sent; auto; repeat constructor.
    + eapply received_sent; [exact J|exact S].
    + assert (G : match man_of w p with None => None | Some (sys, m) => Some (acts w p sys m [EResult r] k) end = Some w' -> sent_log (wlog w')).
      { intros S'. destruct (man_of w p) as [[sys m]|]; [|discriminate S']. injection S' as <-. apply acts_sent; auto. repeat constructor. }
      destruct k as [|[| | |o ph| | | |] k]; try (apply G; exact S). destruct (man_of w o) as [[sys m]|]; [|discriminate S].
      assert (R : forall e, Some (acts w o sys m [EResult (Err e)] k) = Some w' -> sent_log (wlog w')) by (intros e X; injection X as <-; apply acts_sent; auto; repeat constructor).
      destruct r as [u|e]; [injection S as <-; exact J|].
      destruct (flav sys); try (apply (R e); destruct e; exact S).
      assert (N : e = QueueEmpty \/ e <> QueueEmpty) by (destruct e; auto; right; discriminate). destruct N as [->|N]; [|apply (R e); destruct e; try exact S; contradiction].
      injection S as <-. apply nothing_sent; auto.
Qed.
Theorem wexec_sent tr w : wexec tr = Some w -> sent_log (wlog w).
Proof.
  unfold wexec. assert (G : forall tr w w', winv w -> sent_log (wlog w) -> wsteps w tr = Some w' -> sent_log (wlog w')).
  { induction tr0 as [|l tr0 IH]; cbn [wsteps]; intros u w' I J S; [injection S as <-; exact J|]. destruct (wstep u l) eqn:E; [|discriminate S].
    eapply IH; [eapply wstep_inv; eauto|eapply wstep_sent; eauto|exact S]. }
  apply G; [exact winv_init|constructor].
Qed.
