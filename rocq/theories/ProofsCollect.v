(** * Proofs about garbage collection. *)
From Coq Require Import ZArith List Bool Lia Arith.
From Verif Require Import PyBase Role Asyn SpecAsyn ProofsAsyn ProofsAsynPoll ProofsAsynClose ProofsAsynLog Collect SpecCollect.
Import ListNotations.
Open Scope Z_scope.

Lemma gsteps_app st a b : gsteps st (a ++ b) = match gsteps st a with Some st' => gsteps st' b | None => None end.
Proof. revert st. induction a as [|l a IH]; intros st; [reflexivity|]. cbn. destruct (gstep st l); [apply IH|reflexivity]. Qed.
Lemma gexec_snoc tr l st : gexec (tr ++ [l]) = Some st -> exists st0, gexec tr = Some st0 /\ gstep st0 l = Some st.
Proof. unfold gexec. rewrite gsteps_app. destruct (gsteps ainit tr) as [st0|]; [|discriminate]. cbn [gsteps]. destruct (gstep st0 l) eqn:E; [|discriminate]. intros [= <-]. eauto. Qed.
(** ** The two new steps *)
Lemma collect_inv st o st' : gstep st (GCollect o) = Some st' -> obj st o <> None /\ (forall fd, ~ In (fd, o) (smap st)) /\ (forall f, In f (astack st) -> frame_of f <> o) /\ st' = drop st o.
Proof.
  cbn [gstep]. destruct (obj st o) as [m|]; [|discriminate]. destruct (unreferenced st o) eqn:U; [|discriminate]. intros [= <-]. unfold unreferenced in U. apply andb_true_iff in U as [U1 U2].
  apply negb_true_iff in U1, U2. split; [discriminate|]. split; [|split; [|reflexivity]].
  - intros fd J. assert (X : existsb (fun e : Z * nat => Nat.eqb (snd e) o) (smap st) = true) by (apply existsb_exists; exists (fd, o); split; [exact J|apply Nat.eqb_refl]). congruence.
  - intros f J Q. assert (X : existsb (fun f => Nat.eqb (frame_of f) o) (astack st) = true) by (apply existsb_exists; exists f; split; [exact J|apply Nat.eqb_eq; exact Q]). congruence.
Qed.
Lemma final_inv st s st' : gstep st (GFinalize s) = Some st' -> (exists k, nth_error (socks st) s = Some k) /\ (forall o m, obj st o = Some m -> a_role m <> Some s /\ a_socket m <> s) /\ st' = set_open st s false.
Proof.
  cbn [gstep]. destruct (nth_error (socks st) s) as [k|]; [|discriminate]. destruct (existsb (refers s) (objs st)) eqn:R; [discriminate|]. cbn [orb]. destruct (existsb _ (astack st)); [discriminate|].
  intros [= <-]. split; [eauto|]. split; [|reflexivity]. intros o m O.
  assert (X : refers s (Some m) = false).
  { destruct (refers s (Some m)) eqn:X; [|reflexivity]. unfold obj in O. destruct (nth_error (objs st) o) as [y|] eqn:N; [|discriminate]. subst y. rewrite <- R. symmetry. apply existsb_exists. exists (Some m).
    split; [eapply nth_error_In; exact N|exact X]. }
  cbn [refers] in X. apply orb_false_iff in X as [X1 X2]. apply Nat.eqb_neq in X2. split; [|exact X2]. intros Q. rewrite Q, Nat.eqb_refl in X1. discriminate.
Qed.
Lemma obj_drop st o y : obj (drop st o) y = if Nat.eqb o y then None else obj st y.
Proof. unfold obj, drop. cbn [objs]. rewrite nth_upd. destruct (Nat.eqb_spec o y) as [<-|]; [destruct (nth_error (objs st) o); reflexivity|reflexivity]. Qed.
Lemma set_open_objs st s b : objs (set_open st s b) = objs st /\ smap (set_open st s b) = smap st /\ astack (set_open st s b) = astack st /\ alog (set_open st s b) = alog st.
Proof. unfold set_open. destruct (nth_error (socks st) s); repeat split. Qed.
Lemma set_open_nth st s b t : nth_error (socks (set_open st s b)) t = if Nat.eqb s t then match nth_error (socks st) s with Some k => Some (mkK (k_fd k) b (k_queue k)) | None => None end else nth_error (socks st) t.
Proof.
  unfold set_open. destruct (nth_error (socks st) s) as [k|] eqn:E.
  - cbn [socks]. rewrite nth_upd, E. destruct (Nat.eqb s t); reflexivity.
  - destruct (Nat.eqb_spec s t) as [<-|]; [exact E|reflexivity].
Qed.
Lemma inv_drop st o : inv st -> (forall fd, ~ In (fd, o) (smap st)) -> inv (drop st o).
Proof.
  intros [A B C D E F] N. constructor; try assumption.
  - intros y m s O R. rewrite obj_drop in O. destruct (Nat.eqb o y); [discriminate|]. cbn [drop alog]. eapply A; eassumption.
  - intros fd y J. cbn [drop smap] in J. rewrite obj_drop. destruct (Nat.eqb_spec o y) as [<-|]; [elim (N fd J)|eapply D; exact J].
Qed.
Theorem gstep_inv st l st' : inv st -> good_stack st -> gstep st l = Some st' -> inv st' /\ good_stack st'.
Proof.
  intros I G E. destruct l as [l|o|s].
  - eapply astep_inv; eassumption.
  - apply collect_inv in E as (_ & N & _ & ->). split; [apply inv_drop; assumption|exact G].
  - apply final_inv in E as (_ & _ & ->). split; [apply inv_open; exact I|]. unfold good_stack, queued in *. destruct (set_open_objs st s false) as (_ & _ & -> & ->).
    assert (Q : forall t, match nth_error (socks (set_open st s false)) t with Some k => k_queue k | None => [] end = match nth_error (socks st) t with Some k => k_queue k | None => [] end).
    { intros t. rewrite set_open_nth. destruct (Nat.eqb_spec s t) as [<-|]; [destruct (nth_error (socks st) s); reflexivity|reflexivity]. }
    destruct (astack st) as [|[| |] [|[| |] r]]; try exact G. rewrite Q. exact G.
Qed.
Theorem gexec_inv tr : forall st, gexec tr = Some st -> inv st /\ good_stack st.
Proof.
  induction tr as [|l tr IH] using rev_ind; intros st E; [injection E as <-; apply inv_init|]. apply gexec_snoc in E as (st0 & E0 & E1). destruct (IH st0 E0). eapply gstep_inv; eassumption.
Qed.
(** ** Without handle_close() *)
Lemma sound_drop st o : sound st -> (forall fd, ~ In (fd, o) (smap st)) -> sound (drop st o).
Proof.
  intros [A B C D] N. constructor; try assumption.
  - intros fd y J. cbn [drop smap] in J. destruct (A fd y J) as (m & s & k & H & R). exists m, s, k. split; [|exact R]. rewrite obj_drop. destruct (Nat.eqb_spec o y) as [<-|]; [elim (N fd J)|exact H].
  - intros y m O. rewrite obj_drop in O. destruct (Nat.eqb o y); [discriminate|]. eapply B; eassumption.
Qed.
Lemma enrolled_drop st o : enrolled st -> enrolled (drop st o).
Proof. intros [A B]. constructor; intros y m; rewrite obj_drop; (destruct (Nat.eqb o y); [discriminate|]); [apply A|apply B]. Qed.
Lemma sound_final st s : sound st -> (forall o m, obj st o = Some m -> a_role m <> Some s /\ a_socket m <> s) -> sound (set_open st s false).
Proof.
  intros [A B C D] N. destruct (set_open_objs st s false) as (Eo & Em & _). constructor; unfold obj in *; rewrite ?Eo, ?Em; try assumption.
  - intros fd y J. destruct (A fd y J) as (m & t & k & H & R & X). exists m, t, k. split; [exact H|]. split; [exact R|]. destruct X as (X1 & X2 & X3 & X4 & X5). repeat split; try assumption.
    rewrite set_open_nth. destruct (Nat.eqb_spec s t) as [->|]; [|exact X3]. elim (proj1 (N y m H)). exact R.
  - intros a b ka kb. rewrite !set_open_nth. intros Ha Hb Oa Ob F.
    assert (Ha' : nth_error (socks st) a = Some ka). { destruct (Nat.eqb_spec s a); [|exact Ha]. destruct (nth_error (socks st) s); [|discriminate]. injection Ha as <-. discriminate. }
    assert (Hb' : nth_error (socks st) b = Some kb). { destruct (Nat.eqb_spec s b); [|exact Hb]. destruct (nth_error (socks st) s); [|discriminate]. injection Hb as <-. discriminate. }
    apply (D a b ka kb); assumption.
Qed.
Lemma enrolled_final st s : enrolled st -> enrolled (set_open st s false).
Proof.
  intros [A B]. destruct (set_open_objs st s false) as (Eo & Em & _). constructor; unfold obj in *; rewrite ?Eo, ?Em; [exact A|].
  intros o m O F. destruct (B o m O F) as (k & K & C). rewrite set_open_nth. destruct (Nat.eqb_spec s (a_socket m)) as [->|]; [|eauto]. rewrite K. eexists. split; reflexivity.
Qed.
Theorem gstep_sound st l st' : inv st -> sound st -> enrolled st -> gstep st l = Some st' -> (forall o r, l <> GDo (AHandleClose o r)) -> sound st' /\ enrolled st'.
Proof.
  intros I S En E N. destruct l as [l|o|s].
  - assert (N' : forall o r, l <> AHandleClose o r) by (intros o r ->; eapply N; reflexivity). split; [eapply astep_sound|eapply astep_enrolled]; eassumption.
  - apply collect_inv in E as (_ & M & _ & ->). split; [apply sound_drop; assumption|apply enrolled_drop; assumption].
  - apply final_inv in E as (_ & M & ->). split; [apply sound_final; assumption|apply enrolled_final; assumption].
Qed.
Lemma enrolled_init : enrolled ainit.
Proof. constructor; intros o m; unfold obj; cbn; destruct o; discriminate. Qed.
Lemma never_app tr l : never_handle_closes (tr ++ [l]) -> never_handle_closes tr /\ forall o r, l <> GDo (AHandleClose o r).
Proof. intros N. split; [intros o r J; apply (N o r), in_or_app; auto|intros o r ->; apply (N o r), in_or_app; right; left; reflexivity]. Qed.
Theorem gexec_sound tr : forall st, never_handle_closes tr -> gexec tr = Some st -> sound st /\ enrolled st.
Proof.
  induction tr as [|l tr IH] using rev_ind; intros st N E; [injection E as <-; split; [apply sound_init|apply enrolled_init]|].
  apply gexec_snoc in E as (st0 & E0 & E1). apply never_app in N as [N1 N2]. destruct (IH st0 N1 E0). destruct (gexec_inv tr st0 E0). eapply gstep_sound; eassumption.
Qed.
(** Managers are lost by collection only. *)
Theorem gexec_made tr : forall st, gexec tr = Some st -> sent_own (alog st) /\ forall o, made (alog st) o -> never_collected o tr -> obj st o <> None.
Proof.
  induction tr as [|l tr IH] using rev_ind; intros st E; [injection E as <-; split; [intros pre s q dst post H; destruct pre; discriminate|intros o []]|].
  pose proof (gexec_inv _ _ E) as [I' _]. apply gexec_snoc in E as (st0 & E0 & E1). destruct (IH st0 E0) as [A B].
  assert (Nc : forall o, never_collected o (tr ++ [l]) -> never_collected o tr /\ l <> GCollect o).
  { intros o N. split; [intros J; apply N, in_or_app; auto|intros ->; apply N, in_or_app; right; left; reflexivity]. }
  destruct l as [l|y|s].
  2:{ apply collect_inv in E1 as (_ & _ & _ & ->). split; [exact A|]. intros o M N. apply Nc in N as [N1 N2]. rewrite obj_drop. destruct (Nat.eqb_spec y o) as [->|]; [elim N2; reflexivity|apply B; assumption]. }
  2:{ apply final_inv in E1 as (_ & _ & ->). destruct (set_open_objs st0 s false) as (Eo & _ & _ & El). unfold obj. rewrite Eo, El. split; [exact A|]. intros o M N. apply Nc in N as [N1 N2]. apply (B o M N1). }
  cbn [gstep] in E1.
  assert (Mo : forall o, made (alog st0) o -> never_collected o tr -> obj st o <> None) by (intros o H N; eapply astep_objs; [exact E1|apply B; assumption]).
  assert (Mc : forall es o, Forall calm es -> made (alog st0 ++ es) o -> made (alog st0) o).
  { intros es o F H. apply in_app_or in H as [H|H]; [exact H|]. rewrite Forall_forall in F. elim (F _ H). }
  destruct (astep_events _ _ _ E1) as [(es & L & F)|[(st2 & (es & L & F) & L2 & O)|(st2 & s & q & dst & o & m & (es & L & F) & L2 & O & R)]].
  - rewrite L. split; [apply sent_calm; assumption|]. intros o H N. apply Mo; [eapply Mc; eassumption|apply Nc; exact N].
  - rewrite L2, L. split.
    + intros pre s q dst post E. apply snoc_cons in E as [(_ & _ & X)|(post' & -> & E)]; [discriminate|]. destruct (sent_calm _ _ A F _ _ _ _ _ E) as (o & p' & -> & Q). exists o. eexists. split; [reflexivity|exact Q].
    + intros o H N. apply in_app_or in H as [H|[H|[]]]; [apply Mo; [eapply Mc; eassumption|apply Nc; exact N]|]. injection H as <-. exact O.
  - rewrite L2, L. split.
    + intros pre s' q' dst' post E. change [ESentto s q dst; ESend o (Ok tt)] with ([ESentto s q dst] ++ [ESend o (Ok tt)]) in E. rewrite app_assoc in E.
      apply snoc_cons in E as [(_ & _ & X)|(post' & -> & E)]; [discriminate|]. apply snoc_cons in E as [(-> & -> & X)|(post'' & -> & E)].
      * injection X as <- <- <-. exists o, []. split; [reflexivity|]. pose proof (i_role _ I' o m s O R) as (g & J). rewrite L2, L in J. exists g.
        apply in_app_or in J as [J|[J|[J|[]]]]; [exact J|discriminate|discriminate].
      * destruct (sent_calm _ _ A F _ _ _ _ _ E) as (y & p' & -> & Q). exists y. eexists. split; [reflexivity|exact Q].
    + intros y H N. apply in_app_or in H as [H|[H|[H|[]]]]; try discriminate. apply Mo; [eapply Mc; eassumption|apply Nc; exact N].
Qed.
(** ** A manager that was made and not closed stays registered *)
Lemma fileno_shape st st' o : same_shape st st' -> (forall m, obj st o = Some m -> a_fileno m <> None) -> forall m, obj st' o = Some m -> a_fileno m <> None.
Proof. intros (O & _) H m. unfold obj in *. rewrite O. apply H. Qed.
Lemma fileno_step st l st' o : inv st -> sound st -> enrolled st -> astep st l = Some st' -> (forall x r, l <> AHandleClose x r) -> (forall r, l <> AClose o r) ->
  (forall m, obj st o = Some m -> a_fileno m <> None) -> forall m, obj st' o = Some m -> a_fileno m <> None.
Proof.
  intros I S En E NH NC P. destruct l as [cb i op fd|y q dst op fd r|y|y r|y r| |e|s x]; cbn [astep] in E.
  - destruct (auser (astack st) && fd_free st fd); [|discriminate]. injection E as <-. unfold anew. intros m.
    destruct cb as [[]| |]; try (intros O; apply (obj_grow st) in O as [O|[_ O]]; [apply (P m O)|discriminate]).
    unfold kopen. destruct (o_socket op) as [u|e]; [|intros O; apply (obj_grow st) in O as [O|[_ O]]; [apply (P m O)|discriminate]].
    destruct (o_bind op) as [u1|e]; [destruct (o_option op) as [u2|e]|]; intros O; apply (obj_grow st) in O as [O|[_ O]]; try (apply (P m O)); try discriminate O.
    injection O as <-. discriminate.
  - destruct (fd_free st fd); [|discriminate]. unfold with_obj in E. destruct (auser (astack st)); [|discriminate]. destruct (obj st y) as [my|] eqn:Oy; [|discriminate]. injection E as <-.
    unfold asend. rewrite (h_role _ S y my Oy). destruct (nth_error (socks st) (a_socket my)) as [k|]; [|exact P]. destruct (k_open k); [|exact P]. destruct r; exact P.
  - unfold with_obj in E. destruct (auser (astack st)); [|discriminate]. destruct (obj st y) as [my|]; [|discriminate]. injection E as <-. apply (fileno_shape st); [|exact P]. unfold apoll.
    destruct (forallb _ _); [eapply same_trans; [apply shape_say|apply shape_serve]|repeat split].
  - elim (NH y r). reflexivity.
  - unfold with_obj in E. destruct (auser (astack st)); [|discriminate]. destruct (obj st y) as [my|] eqn:Oy; [|discriminate]. injection E as <-.
    destruct (socket_owner st y my I S Oy) as [Ow Lt]. destruct (aclose_eff st y my r S En Ow Lt Oy) as (A & _). intros m. rewrite A. destruct (Nat.eqb_spec y o) as [->|]; [elim (NC r); reflexivity|apply P].
  - destruct (astack st) as [|[p0 r0|z ie|z s] [|[p rest|o' ie'|o' s'] k]]; try discriminate. injection E as <-. apply (fileno_shape st); [|exact P]. eapply same_trans; [apply shape_say|apply shape_serve].
  - destruct (astack st) as [|[p0 r0|z ie|z s] [|[p rest|o' ie'|o' s'] k]]; try discriminate. injection E as <-. apply (fileno_shape st); [|exact P]. eapply same_trans; [apply shape_say|].
    destruct ie; [repeat split|apply shape_read_error].
  - destruct (nth_error (socks st) s) as [ks|]; [|discriminate]. destruct (k_open ks); [|discriminate].
    assert (X : forall m, obj (set_queue (say st (EArrive s x)) s (k_queue ks ++ [x])) o = Some m -> a_fileno m <> None) by (apply (fileno_shape st); [eapply same_trans; [apply shape_say|apply shape_queue]|exact P]).
    destruct (astack st) as [|[p0 r0|z ie|z s0] [|[p rest|o' ie'|o' s'] k]]; try (injection E as <-; exact X).
    destruct (Nat.eqb s s0); injection E as <-; [|exact X]. apply (fileno_shape st); [|exact P]. eapply same_trans; [apply shape_say|apply shape_got].
Qed.
Lemma registered_in st o m fd : sound st -> enrolled st -> obj st o = Some m -> a_fileno m = Some fd -> registered st o.
Proof.
  intros S En O F. pose proof (n_in _ En o m fd O F) as J. destruct (h_map _ S fd o J) as (m' & s & k & H1 & H2 & H3 & H4 & H5 & H6 & H7).
  exists m', fd, s, k. repeat split; assumption.
Qed.
Theorem gexec_stays tr : forall st o, gexec tr = Some st -> never_handle_closes tr -> never_closes o tr ->
  (forall m, obj st o = Some m -> a_fileno m <> None) /\ (made (alog st) o -> obj st o <> None).
Proof.
  induction tr as [|l tr IH] using rev_ind; intros st o E NH NC; [injection E as <-; split; [intros m; unfold obj; cbn; destruct o; discriminate|intros []]|].
  pose proof E as E'. apply gexec_snoc in E as (st0 & E0 & E1). pose proof NH as NH'. apply never_app in NH as [NH1 NH2].
  assert (NC1 : never_closes o tr) by (intros r J; apply (NC r), in_or_app; auto). assert (NC2 : forall r, l <> GDo (AClose o r)) by (intros r ->; apply (NC r), in_or_app; right; left; reflexivity).
  destruct (IH st0 o E0 NH1 NC1) as [A B]. destruct (gexec_inv tr st0 E0) as [I G]. destruct (gexec_sound tr st0 NH1 E0) as [S En].
  destruct l as [l|y|s].
  - cbn [gstep] in E1. assert (NHl : forall x r, l <> AHandleClose x r) by (intros x r ->; eapply NH2; reflexivity).
    split; [eapply fileno_step; try eassumption; intros r ->; eapply NC2; reflexivity|].
    intros M. destruct (astep_events _ _ _ E1) as [(es & L & F)|[(st2 & (es & L & F) & L2 & O)|(st2 & s & q & dst & y & m & (es & L & F) & L2 & O & R)]].
    + unfold made in M. rewrite L in M. apply in_app_or in M as [M|M]; [|rewrite Forall_forall in F; elim (F _ M)]. eapply astep_objs; [exact E1|apply B; exact M].
    + unfold made in M. rewrite L2, L in M. apply in_app_or in M as [M|[M|[]]]; [apply in_app_or in M as [M|M]; [|rewrite Forall_forall in F; elim (F _ M)]; eapply astep_objs; [exact E1|apply B; exact M]|].
      injection M as <-. exact O.
    + unfold made in M. rewrite L2, L in M. apply in_app_or in M as [M|[M|[M|[]]]]; try discriminate. apply in_app_or in M as [M|M]; [|rewrite Forall_forall in F; elim (F _ M)].
      eapply astep_objs; [exact E1|apply B; exact M].
  - apply collect_inv in E1 as (O & N & _ & ->). assert (Y : y <> o \/ y = o) by lia. destruct Y as [Y| ->].
    + split; [intros m; rewrite obj_drop; destruct (Nat.eqb_spec y o); [contradiction|apply A]|]. intros M. rewrite obj_drop. destruct (Nat.eqb_spec y o); [contradiction|]. apply B. exact M.
    + exfalso. destruct (obj st0 o) as [m|] eqn:Om; [|contradiction]. destruct (a_fileno m) as [fd|] eqn:F; [|eapply A; [reflexivity|exact F]]. apply (N fd). eapply n_in; eassumption.
  - apply final_inv in E1 as (_ & _ & ->). destruct (set_open_objs st0 s false) as (Eo & _ & _ & El). unfold obj, made in *. rewrite Eo, El. split; assumption.
Qed.
(** ** What is left to be finalized *)
(** A recvfrom that waits does so on the socket of its manager. *)
Definition waits (st : astate) : Prop := forall f, In f (astack st) -> match f with FBlocked o s => exists m, obj st o = Some m /\ a_role m = Some s | _ => True end.
Lemma waits_calls st : calls_only (astack st) -> waits st.
Proof.
  unfold waits. assert (H : forall k, calls_only k -> forall f, In f k -> match f with FBlocked _ _ => False | _ => True end).
  { intros k. remember (length k) as n eqn:L. assert (B : (length k <= n)%nat) by lia. clear L. revert k B. induction n as [|n IH]; intros k B C f J.
    - destruct k; [destruct J|cbn in B; lia].
    - destruct k as [|f1 k]; [destruct J|]. destruct f1; try destruct C. destruct k as [|f2 k]; try destruct C. destruct f2; try destruct C.
      destruct J as [<-|[<-|J]]; try exact Logic.I. apply (IH k); [cbn in B; lia|exact C|exact J]. }
  intros C f J. specialize (H _ C f J). destruct f; tauto.
Qed.
Lemma waits_read_error st p rest k o e : calls_only k -> waits (read_error st p rest k o e).
Proof. intros C. apply waits_calls. destruct e; exact C. Qed.
Lemma waits_got st p rest k o s x : calls_only k -> waits (got st p rest k o s x).
Proof. intros C. unfold got. destruct x as [[d a]|e]; [apply waits_calls; exact C|apply waits_read_error; exact C]. Qed.
Lemma waits_serve ready : forall st p k, inv st -> calls_only k -> waits (serve st p ready k).
Proof.
  induction ready as [|fd r IH]; intros st p k I C; cbn [serve]; [apply waits_calls; exact C|]. destruct (map_get (smap st) fd) as [o|] eqn:M; [|apply IH; assumption].
  apply map_get_in in M. destruct (i_map _ I fd o M) as [m O]. unfold handle_read. rewrite O. destruct (a_role m) as [s|] eqn:R; [|apply waits_read_error; exact C].
  pose proof (i_role _ I o m s O R) as Op. apply (i_opened _ I) in Op. destruct (nth_error (socks st) s) as [ks|] eqn:K; [|apply nth_error_None in K; lia].
  destruct (k_open ks); [|apply waits_read_error; exact C]. destruct (k_queue ks); [|apply waits_got; exact C].
  intros f [<-|[<-|J]]; [exists m; split; assumption|exact Logic.I|]. pose proof (waits_calls (set_stack st k) C f J) as W. destruct f; try exact Logic.I. exact W.
Qed.
Lemma kopen_stack st o op fd : astack (fst (fst (kopen st o op fd))) = astack st.
Proof. unfold kopen. destruct (o_socket op); [|reflexivity]. reflexivity. Qed.
Lemma kclose_stack st s r : astack (fst (kclose st s r)) = astack st.
Proof. unfold kclose. destruct (nth_error (socks st) s) as [k|] eqn:K; [destruct (k_open k)|]; try reflexivity. unfold set_open. cbn [fst]. rewrite K. reflexivity. Qed.
Lemma shape_obj_eq st st' y : same_shape st st' -> obj st' y = obj st y.
Proof. intros (O & _). unfold obj. rewrite O. reflexivity. Qed.
Lemma waits_keep st st' : waits st -> astack st' = astack st -> (forall y m, obj st y = Some m -> exists m', obj st' y = Some m' /\ a_role m' = a_role m) -> waits st'.
Proof. intros W E O f J. rewrite E in J. specialize (W f J). destruct f as [| |o s]; try exact Logic.I. destruct W as (m & H & R). destruct (O o m H) as (m' & H' & R'). exists m'. split; [exact H'|congruence]. Qed.
Theorem astep_waits st l st' : inv st -> good_stack st -> waits st -> astep st l = Some st' -> waits st'.
Proof.
  intros I G W E. pose proof E as E0. destruct l as [cb i op fd|y q dst op fd r|y|y r|y r| |e|s x]; cbn [astep] in E.
  - destruct (auser (astack st)) eqn:U; [|discriminate]. destruct (fd_free st fd); [|discriminate]. cbn in E. injection E as <-. apply waits_calls.
    assert (X : astack (anew st cb i op fd) = astack st); [|rewrite X; apply user_calls; assumption]. unfold anew. destruct cb as [[]| |]; try reflexivity.
    pose proof (kopen_stack st (length (objs st)) op fd) as X. destruct (kopen st (length (objs st)) op fd) as [[st1 [s|]] [u|e]]; exact X.
  - destruct (fd_free st fd); [|discriminate]. unfold with_obj in E. destruct (auser (astack st)) eqn:U; [|discriminate]. destruct (obj st y) as [m|]; [|discriminate]. injection E as <-. apply waits_calls.
    assert (X : astack (asend st y m q dst op fd r) = astack st); [|rewrite X; apply user_calls; assumption]. unfold asend.
    destruct (a_role m) as [s|]; [destruct (nth_error (socks st) s) as [k|]; [destruct (k_open k); [destruct r|]|]; reflexivity|].
    pose proof (kopen_stack st y op fd) as X. destruct (kopen st y op fd) as [[st1 [s|]] [u|e]]; cbn [fst] in X; try exact X.
    match goal with |- context [nth_error ?a ?b] => destruct (nth_error a b) as [k|] end; [destruct (k_open k); [destruct r|]|]; exact X.
  - unfold with_obj in E. destruct (auser (astack st)) eqn:U; [|discriminate]. destruct (obj st y) as [m|]; [|discriminate]. injection E as <-. pose proof (user_calls st G U) as C. unfold apoll.
    destruct (forallb _ _); [|apply waits_calls; exact C]. apply waits_serve; [apply inv_say; [exact I|exact Logic.I]|exact C].
  - unfold with_obj in E. destruct (auser (astack st)) eqn:U; [|discriminate]. destruct (obj st y) as [m|]; [|discriminate]. injection E as <-. apply waits_calls.
    assert (X : astack (ahandle_close st y m r) = astack st); [|rewrite X; apply user_calls; assumption]. unfold ahandle_close. destruct (a_role m) as [s|]; [|reflexivity].
    pose proof (kclose_stack st s r) as X. destruct (kclose st s r) as [st1 [u|e]]; exact X.
  - unfold with_obj in E. destruct (auser (astack st)) eqn:U; [|discriminate]. destruct (obj st y) as [m|]; [|discriminate]. injection E as <-. apply waits_calls.
    assert (X : astack (aclose st y m r) = astack st); [|rewrite X; apply user_calls; assumption]. unfold aclose.
    match goal with |- context [kclose ?a ?b ?c] => pose proof (kclose_stack a b c) as X; destruct (kclose a b c) as [st1 r1] end. cbn [fst] in X. cbn [say astack]. rewrite X. destruct (a_fileno m); reflexivity.
  - destruct (astack st) as [|[p0 r0|z ie|z s] [|[p rest|o' ie'|o' s'] k]] eqn:K; try discriminate. injection E as <-. unfold good_stack in G. rewrite K in G. cbn in G.
    apply waits_serve; [apply inv_say; [exact I|exact Logic.I]|exact G].
  - destruct (astack st) as [|[p0 r0|z ie|z s] [|[p rest|o' ie'|o' s'] k]] eqn:K; try discriminate. injection E as <-. unfold good_stack in G. rewrite K in G. cbn in G.
    destruct ie; [apply waits_calls; exact G|apply waits_read_error; exact G].
  - destruct (nth_error (socks st) s) as [ks|] eqn:Ks; [|discriminate]. destruct (k_open ks); [|discriminate].
    assert (X : waits (set_queue (say st (EArrive s x)) s (k_queue ks ++ [x]))).
    { apply (waits_keep st); [exact W| |].
      - unfold set_queue. cbn [say socks]. rewrite Ks. reflexivity.
      - intros a m H. exists m. split; [|reflexivity]. rewrite (shape_obj_eq (say st (EArrive s x)) _ a (shape_queue _ _ _)). exact H. }
    destruct (astack st) as [|[p0 r0|z ie|z s0] [|[p rest|o' ie'|o' s'] k]] eqn:K; try (injection E as <-; exact X).
    destruct (Nat.eqb s s0); injection E as <-; [|exact X]. apply waits_got. unfold good_stack in G. rewrite K in G. apply G.
Qed.
Theorem gexec_waits tr : forall st, gexec tr = Some st -> waits st.
Proof.
  induction tr as [|l tr IH] using rev_ind; intros st E; [injection E as <-; intros f []|]. apply gexec_snoc in E as (st0 & E0 & E1). destruct (gexec_inv tr st0 E0) as [I G]. pose proof (IH st0 E0) as W.
  destruct l as [l|o|s].
  - eapply astep_waits; eassumption.
  - apply collect_inv in E1 as (_ & _ & N & ->). intros f J. pose proof (W f J) as Wf. destruct f as [| |y s]; try exact Logic.I. rewrite obj_drop. destruct (Nat.eqb_spec o y) as [->|]; [elim (N _ J); reflexivity|exact Wf].
  - apply final_inv in E1 as (_ & _ & ->). destruct (set_open_objs st0 s false) as (Eo & _ & Es & _). apply (waits_keep st0); [exact W|exact Es|]. intros y m H. exists m. split; [|reflexivity]. unfold obj in *. rewrite Eo. exact H.
Qed.
(** An open socket that no manager refers to may be finalized. *)
Theorem may_finalize st s : waits st -> is_open st s -> (forall o m, obj st o = Some m -> a_role m <> Some s /\ a_socket m <> s) -> gstep st (GFinalize s) = Some (set_open st s false).
Proof.
  intros W (k & K & _) N. cbn [gstep]. rewrite K. replace (existsb (refers s) (objs st)) with false.
  2:{ symmetry. apply not_true_iff_false. intros X. apply existsb_exists in X as (x & J & R). apply In_nth_error in J as (o & J). destruct x as [m|]; [|discriminate R].
      assert (O : obj st o = Some m) by (unfold obj; rewrite J; reflexivity). destruct (N o m O) as [N1 N2]. cbn [refers] in R. apply orb_true_iff in R as [R|R]; [|apply Nat.eqb_eq in R; contradiction].
      destruct (a_role m) as [t|]; [apply Nat.eqb_eq in R; subst t; contradiction|discriminate]. }
  replace (existsb _ (astack st)) with false; [reflexivity|].
  symmetry. apply not_true_iff_false. intros X. apply existsb_exists in X as (f & J & R). destruct f as [| |o t]; try discriminate. apply Nat.eqb_eq in R. subst t.
  destruct (W _ J) as (m & O & Ro). elim (proj1 (N o m O)). exact Ro.
Qed.
(** Without handle_close(), a manager whose socket is open is registered. *)
Lemma user_registered st o m s : sound st -> enrolled st -> is_open st s -> obj st o = Some m -> a_role m = Some s \/ a_socket m = s -> registered st o /\ a_role m = Some s.
Proof.
  intros S En (k & K & Op) O R. pose proof (h_role _ S o m O) as Hr. assert (R' : a_role m = Some s) by (destruct R; congruence). split; [|exact R'].
  destruct (a_fileno m) as [fd|] eqn:F; [eapply registered_in; eassumption|]. destruct (n_out _ En o m O F) as (k' & K' & C'). congruence.
Qed.
Theorem no_leak tr st s : gexec tr = Some st -> never_handle_closes tr -> is_open st s ->
  in_use st s \/ exists st', gstep st (GFinalize s) = Some st' /\ ~ is_open st' s.
Proof.
  intros E NH Op. destruct (gexec_sound tr st NH E) as [S En]. destruct (existsb (refers s) (objs st)) eqn:R.
  - left. apply existsb_exists in R as (x & J & R). apply In_nth_error in J as (o & J). destruct x as [m|]; [|discriminate R].
    assert (O : obj st o = Some m) by (unfold obj; rewrite J; reflexivity). exists o, m.
    destruct (user_registered st o m s S En Op O) as [A B]; [|split; [exact A|split; assumption]]. cbn [refers] in R. apply orb_true_iff in R as [R|R]; [|apply Nat.eqb_eq in R; right; exact R].
    left. destruct (a_role m) as [t|]; [apply Nat.eqb_eq in R; subst t; reflexivity|discriminate].
  - right. exists (set_open st s false). split.
    + apply may_finalize; [eapply gexec_waits; exact E|exact Op|]. intros o m O. assert (X : refers s (Some m) = false).
      { destruct (refers s (Some m)) eqn:X; [|reflexivity]. unfold obj in O. destruct (nth_error (objs st) o) as [y|] eqn:N; [|discriminate]. subst y. rewrite <- R. symmetry. apply existsb_exists. exists (Some m).
        split; [eapply nth_error_In; exact N|exact X]. }
      cbn [refers] in X. apply orb_false_iff in X as [X1 X2]. apply Nat.eqb_neq in X2. split; [|exact X2]. intros Q. rewrite Q, Nat.eqb_refl in X1. discriminate.
    + intros (k & K & Ok). rewrite set_open_nth, Nat.eqb_refl in K. destruct (nth_error (socks st) s); [|discriminate]. injection K as <-. discriminate.
Qed.
(** Every open socket has its manager, or its constructor failed. *)
Definition held (st : astate) : Prop := forall s, is_open st s -> (exists o m, obj st o = Some m /\ a_role m = Some s) \/ constructor_failed (alog st) s.
Lemma failed_more lg es s : constructor_failed lg s -> constructor_failed (lg ++ es) s.
Proof. intros (o & e & A & B). exists o, e. split; [apply opened_more; exact A|apply in_or_app; left; exact B]. Qed.
Lemma open_shape st st' s : same_shape st st' -> is_open st' s -> is_open st s.
Proof. intros Sh (k & K & O). apply shape_sym in Sh. destruct (shape_nth _ _ _ _ Sh K) as (k' & K' & D). exists k'. split; [exact K'|]. unfold descr in D. congruence. Qed.
Lemma held_shape st st' : held st -> same_shape st st' -> (exists es, alog st' = alog st ++ es) -> held st'.
Proof.
  intros H Sh [es L] s Op. destruct (H s (open_shape _ _ _ Sh Op)) as [(o & m & O & R)|F]; [left; exists o, m; split; [|exact R]; rewrite (shape_obj_eq _ _ _ Sh); exact O|right; rewrite L; apply failed_more; exact F].
Qed.
Lemma ext_log st st' : ext st st' -> exists es, alog st' = alog st ++ es.
Proof. intros (es & L & _). eauto. Qed.
Theorem astep_held st l st' : inv st -> sound st -> enrolled st -> held st -> astep st l = Some st' -> (forall o r, l <> AHandleClose o r) -> held st'.
Proof.
  intros I S En H E NH. destruct l as [cb i op fd|y q dst op fd r|y|y r|y r| |e|s x]; cbn [astep] in E.
  - destruct (auser (astack st) && fd_free st fd); [|discriminate]. injection E as <-. unfold anew.
    assert (Gr : forall x sm k lg es s, (exists k, nth_error (socks st) s = Some k /\ k_open k = true) -> lg = alog st ++ es -> (exists o m, obj (mkAS (socks st) (objs st ++ [x]) sm k lg) o = Some m /\ a_role m = Some s) \/ constructor_failed lg s).
    { intros x sm k lg es s Op ->. destruct (H s Op) as [(o & m & O & R)|F]; [left; exists o, m; split; [apply (obj_grow st); left; exact O|exact R]|right; apply failed_more; exact F]. }
    destruct cb as [[]| |]; try (intros s Op; eapply (Gr None); [exact Op|reflexivity]).
    unfold kopen. destruct (o_socket op) as [u|e]; [|intros s Op; eapply (Gr None); [exact Op|reflexivity]].
    assert (New : forall s c, is_open (mkAS (socks st ++ [mkK fd true []]) c (smap st) (astack st) (alog st)) s -> s = length (socks st) \/ is_open st s).
    { intros s c (k & K & Ok). cbn [socks] in K. destruct (Nat.lt_trichotomy s (length (socks st))) as [L|[->|L]]; [|auto|].
      - rewrite nth_error_app1 in K by exact L. right. exists k. split; assumption.
      - rewrite (proj2 (nth_error_None _ _)) in K; [discriminate|rewrite app_length; cbn; lia]. }
    assert (Bad : forall e, held (say (mkAS (socks st ++ [mkK fd true []]) (objs st ++ [None]) (smap st) (astack st) (alog st ++ [EOpened (length (socks st)) (length (objs st)) fd])) (ENew (length (objs st)) (Err e)))).
    { intros e s Op. apply (New s (objs st)) in Op. destruct Op as [->|Op].
      - right. exists (length (objs st)), e. cbn [say alog]. split; [exists fd; apply in_or_app; left; apply in_or_app; right; left; reflexivity|apply in_or_app; right; left; reflexivity].
      - cbn [say alog]. rewrite <- app_assoc. destruct (H s Op) as [(o & m & O & R)|F]; [left; exists o, m; split; [apply (obj_grow st); left; exact O|exact R]|right; apply failed_more; exact F]. }
    destruct (o_bind op) as [u1|e]; [destruct (o_option op) as [u2|e]|]; cbn [say socks objs smap astack alog]; try apply Bad.
    intros s Op. apply (New s (objs st)) in Op. cbn [say alog]. destruct Op as [->|Op].
    + left. exists (length (objs st)). eexists. split; [apply (obj_grow st); right; split; reflexivity|reflexivity].
    + rewrite <- app_assoc. destruct (H s Op) as [(o & m & O & R)|F]; [left; exists o, m; split; [apply (obj_grow st); left; exact O|exact R]|right; apply failed_more; exact F].
  - destruct (fd_free st fd); [|discriminate]. unfold with_obj in E. destruct (auser (astack st)); [|discriminate]. destruct (obj st y) as [my|] eqn:Oy; [|discriminate]. injection E as <-.
    unfold asend. rewrite (h_role _ S y my Oy). destruct (nth_error (socks st) (a_socket my)) as [k|]; [|exact H]. destruct (k_open k); [|apply (held_shape st); [exact H|apply shape_say|eexists; reflexivity]].
    destruct r; (apply (held_shape st); [exact H|repeat split|eexists; cbn [say alog]; rewrite <- ?app_assoc; reflexivity]).
  - unfold with_obj in E. destruct (auser (astack st)); [|discriminate]. destruct (obj st y) as [my|]; [|discriminate]. injection E as <-. unfold apoll.
    destruct (forallb _ _).
    + apply (held_shape st); [exact H|eapply same_trans; [apply shape_say|apply shape_serve]|]. destruct (ext_log _ _ (ext_serve (filter (reported st) (map fst (smap st))) (say st (EPoll y)) y (astack st))) as [es L]. rewrite L. cbn [say alog]. rewrite <- app_assoc. eexists. reflexivity.
    + apply (held_shape st); [exact H|repeat split|]. eexists. cbn [poll_end set_stack say alog]. rewrite <- app_assoc. reflexivity.
  - elim (NH y r). reflexivity.
  - unfold with_obj in E. destruct (auser (astack st)); [|discriminate]. destruct (obj st y) as [my|] eqn:Oy; [|discriminate]. injection E as <-.
    destruct (socket_owner st y my I S Oy) as [Ow Lt]. destruct (aclose_eff st y my r S En Ow Lt Oy) as (A & _ & _ & D & (k' & K' & C') & _ & (x & L)). intros s (k & K & Ok).
    assert (N : s <> a_socket my) by (intros ->; congruence). rewrite D in K by exact N. rewrite L.
    destruct (H s) as [(o & m & O & R)|F]; [exists k; split; assumption| |right; apply failed_more; exact F]. left. destruct (Nat.eq_dec y o) as [->|Ny].
    + rewrite Oy in O. injection O as <-. pose proof (h_role _ S o my Oy). congruence.
    + exists o, m. split; [|exact R]. rewrite A. destruct (Nat.eqb_spec y o); [contradiction|exact O].
  - destruct (astack st) as [|[p0 r0|z ie|z s] [|[p rest|o' ie'|o' s'] k]]; try discriminate. injection E as <-. apply (held_shape st); [exact H|eapply same_trans; [apply shape_say|apply shape_serve]|].
    destruct (ext_log _ _ (ext_serve rest (say st (ECbEnd z (Ok tt))) p k)) as [es L]. rewrite L. cbn [say alog]. rewrite <- app_assoc. eexists. reflexivity.
  - destruct (astack st) as [|[p0 r0|z ie|z s] [|[p rest|o' ie'|o' s'] k]]; try discriminate. injection E as <-. apply (held_shape st); [exact H|eapply same_trans; [apply shape_say|]; destruct ie; [repeat split|apply shape_read_error]|].
    destruct ie; [eexists; cbn [poll_end set_stack say alog]; rewrite <- app_assoc; reflexivity|]. destruct (ext_log _ _ (ext_read_error (say st (ECbEnd z (Err e))) p rest k z e)) as [es L]. rewrite L. cbn [say alog]. rewrite <- app_assoc. eexists. reflexivity.
  - destruct (nth_error (socks st) s) as [ks|]; [|discriminate]. destruct (k_open ks); [|discriminate].
    assert (X : held (set_queue (say st (EArrive s x)) s (k_queue ks ++ [x]))).
    { apply (held_shape st); [exact H|eapply same_trans; [apply shape_say|apply shape_queue]|]. destruct (ext_log _ _ (ext_queue (say st (EArrive s x)) s (k_queue ks ++ [x]))) as [es L]. rewrite L. cbn [say alog]. rewrite <- app_assoc. eexists. reflexivity. }
    destruct (astack st) as [|[p0 r0|z ie|z s0] [|[p rest|o' ie'|o' s'] k]]; try (injection E as <-; exact X).
    destruct (Nat.eqb s s0); injection E as <-; [|exact X]. apply (held_shape st); [exact H|eapply same_trans; [apply shape_say|apply shape_got]|].
    destruct (ext_log _ _ (ext_got (say st (EArrive s x)) p rest k z s x)) as [es L]. rewrite L. cbn [say alog]. rewrite <- app_assoc. eexists. reflexivity.
Qed.
Theorem gexec_held tr : forall st, gexec tr = Some st -> never_handle_closes tr -> held st.
Proof.
  induction tr as [|l tr IH] using rev_ind; intros st E NH; [injection E as <-; intros s (k & K & _); destruct s; discriminate|].
  apply gexec_snoc in E as (st0 & E0 & E1). apply never_app in NH as [NH1 NH2]. pose proof (IH st0 E0 NH1) as H. destruct (gexec_inv tr st0 E0) as [I G]. destruct (gexec_sound tr st0 NH1 E0) as [S En].
  destruct l as [l|o|s].
  - eapply astep_held; try eassumption. intros o r ->. eapply NH2; reflexivity.
  - apply collect_inv in E1 as (O & N & _ & ->). intros s Op. destruct (H s Op) as [(y & m & Oy & R)|F]; [|right; exact F]. left. exists y, m. split; [|exact R]. rewrite obj_drop.
    destruct (Nat.eqb_spec o y) as [->|]; [|exact Oy]. exfalso. destruct (user_registered st0 y m s S En Op Oy (or_introl R)) as [(m' & fd & s' & k & _ & _ & _ & _ & _ & J) _]. apply (N fd J).
  - apply final_inv in E1 as (_ & _ & ->). destruct (set_open_objs st0 s false) as (Eo & _ & _ & El). intros t (k & K & Ok). rewrite set_open_nth in K. unfold obj. rewrite Eo, El. apply H.
    destruct (Nat.eqb_spec s t) as [->|]; [destruct (nth_error (socks st0) t); [|discriminate]; injection K as <-; discriminate|]. exists k. split; assumption.
Qed.
Theorem only_leftovers tr st s st' : gexec tr = Some st -> never_handle_closes tr -> gstep st (GFinalize s) = Some st' -> is_open st s -> constructor_failed (alog st) s.
Proof.
  intros E NH F Op. destruct (gexec_held tr st E NH s Op) as [(o & m & O & R)|X]; [|exact X]. apply final_inv in F as (_ & N & _). elim (proj1 (N o m O)). exact R.
Qed.
(** poll() serves all, whatever was collected. *)
Theorem gpoll_serves st p l : sound st -> auser (astack st) = true -> obj st p <> None -> waiting st = map as_waiting l ->
  exists st', gsteps st (map GDo (APoll p :: repeat AReturn (length l))) = Some st' /\ astack st' = astack st /\ alog st' = alog st ++ EPoll p :: flat_map served l ++ [EPollEnd p (Ok tt)].
Proof.
  intros S U O W. assert (X : forall tr st0, gsteps st0 (map GDo tr) = asteps st0 tr).
  { induction tr as [|a tr IH]; intros st0; [reflexivity|]. cbn. destruct (astep st0 a); [apply IH|reflexivity]. }
  rewrite X. cbn [asteps astep]. unfold with_obj. rewrite U. destruct (obj st p) as [m|]; [|contradiction].
  unfold apoll. rewrite (all_open st S). rewrite <- (reported_say st (EPoll p)).
  destruct (serve_all p (astack st) (smap st) (say st (EPoll p)) l) as (st' & A & B & C & _); [exact (sound_shape _ _ S (shape_say _ _))|apply incl_refl|apply (h_nodup _ S)|exact W|].
  exists st'. split; [exact A|]. split; [exact B|]. rewrite C. cbn [say alog]. rewrite <- app_assoc. reflexivity.
Qed.
