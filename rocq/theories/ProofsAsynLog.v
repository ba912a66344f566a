(** * What steps log: sending and constructing. *)
From Coq Require Import ZArith List Bool Lia Arith.
From Verif Require Import PyBase Role Asyn SpecAsyn ProofsAsyn ProofsAsynPoll ProofsAsynClose.
Import ListNotations.
Open Scope Z_scope.

Definition calm (e : aevent) : Prop := match e with ESentto _ _ _ | ENew _ (Ok _) => False | _ => True end.
Definition ext (st st' : astate) : Prop := exists es, alog st' = alog st ++ es /\ Forall calm es.
Lemma ext_nil st st' : alog st' = alog st -> ext st st'.
Proof. intros E. exists []. rewrite app_nil_r. auto. Qed.
Lemma ext_trans a b c : ext a b -> ext b c -> ext a c.
Proof. intros (x & X & P) (y & Y & Q). exists (x ++ y). split; [rewrite Y, X, app_assoc; reflexivity|apply Forall_app; auto]. Qed.
Lemma ext_one st e st' : alog st' = alog st ++ [e] -> calm e -> ext st st'.
Proof. intros E H. exists [e]. auto. Qed.
Lemma ext_say st e : calm e -> ext st (say st e).
Proof. apply ext_one. reflexivity. Qed.
Lemma ext_read_error st p rest k y e : ext st (read_error st p rest k y e).
Proof. destruct e; eapply ext_one; try reflexivity; exact Logic.I. Qed.
Lemma ext_got st p rest k y s x : ext st (got st p rest k y s x).
Proof. unfold got. eapply ext_trans; [apply (ext_say st (ERecv s x)); exact Logic.I|]. destruct x as [[d a]|e]; [eapply ext_one; [reflexivity|exact Logic.I]|apply ext_read_error]. Qed.
Lemma ext_queue st s q : ext st (set_queue st s q).
Proof. apply ext_nil. unfold set_queue. destruct (nth_error (socks st) s); reflexivity. Qed.
Lemma ext_serve ready : forall st p k, ext st (serve st p ready k).
Proof.
  induction ready as [|fd r IH]; intros st p k; cbn [serve]; [eapply ext_one; [reflexivity|exact Logic.I]|].
  destruct (map_get (smap st) fd) as [y|]; [|apply IH]. unfold handle_read. destruct (obj st y) as [m|]; [|apply ext_nil; reflexivity]. destruct (a_role m) as [s|]; [|apply ext_read_error].
  destruct (nth_error (socks st) s) as [ks|]; [|apply ext_nil; reflexivity]. destruct (k_open ks); [|apply ext_read_error]. destruct (k_queue ks); [apply ext_nil; reflexivity|].
  eapply ext_trans; [apply ext_queue|apply ext_got].
Qed.
Lemma ext_kopen st o op fd : ext st (fst (fst (kopen st o op fd))).
Proof. unfold kopen. destruct (o_socket op); [eapply ext_one; [reflexivity|exact Logic.I]|apply ext_nil; reflexivity]. Qed.
Lemma kclose_log st s r : alog (fst (kclose st s r)) = alog st /\ objs (fst (kclose st s r)) = objs st.
Proof. unfold kclose, set_open. destruct (nth_error (socks st) s) as [k|]; [destruct (k_open k)|]; split; reflexivity. Qed.
(** The events of one step. *)
Theorem astep_events st l st' : astep st l = Some st' ->
  ext st st' \/
  (exists st1, ext st st1 /\ alog st' = alog st1 ++ [ENew (length (objs st)) (Ok tt)] /\ obj st' (length (objs st)) <> None) \/
  (exists st1 s q dst o m, ext st st1 /\ alog st' = alog st1 ++ [ESentto s q dst; ESend o (Ok tt)] /\ obj st' o = Some m /\ a_role m = Some s).
Proof.
  intros E. destruct l as [cb i op fd|o q dst op fd r|o|o r|o r| |e|s x]; cbn [astep] in E.
  - destruct (auser (astack st)); [|discriminate]. destruct (fd_free st fd); [|discriminate]. cbn in E. injection E as <-.
    assert (Fl : forall st1 e, ext st st1 -> ext st (say (mkAS (socks st1) (objs st1 ++ [None]) (smap st1) (astack st1) (alog st1)) (ENew (length (objs st)) (Err e)))).
    { intros st1 e Q. eapply ext_trans; [exact Q|]. eapply ext_one; [reflexivity|exact Logic.I]. }
    assert (Q0 : ext st st) by (apply ext_nil; reflexivity).
    unfold anew. destruct cb as [[|]| |]; try (left; apply Fl; exact Q0).
    pose proof (ext_kopen st (length (objs st)) op fd) as Q1. unfold kopen in *. destruct (o_socket op) as [u|e]; [|left; apply Fl; exact Q0]. cbn [fst] in Q1.
    destruct (o_bind op) as [u1|e]; [destruct (o_option op) as [u2|e]|]; try (left; apply Fl; exact Q1).
    right. left. eexists. split; [exact Q1|]. split; [reflexivity|]. unfold obj. cbn [say objs]. rewrite nth_error_app2, Nat.sub_diag by lia. discriminate.
  - destruct (fd_free st fd); [|discriminate]. unfold with_obj in E. destruct (auser (astack st)); [|discriminate]. destruct (obj st o) as [m|] eqn:O; [|discriminate]. injection E as <-.
    assert (Out : forall st1 s m', ext st st1 -> obj st1 o = Some m' -> a_role m' = Some s -> let f := (fun st0 s => match nth_error (socks st0) s with Some k => if k_open k then say (match r with Ok _ => say st0 (ESentto s q dst) | Err _ => st0 end) (ESend o r) else say st0 (ESend o (Err OSError)) | None => st0 end) in
      ext st (f st1 s) \/ exists st2 s' q dst y m, ext st st2 /\ alog (f st1 s) = alog st2 ++ [ESentto s' q dst; ESend y (Ok tt)] /\ obj (f st1 s) y = Some m /\ a_role m = Some s').
    { intros st1 s m' Q O' R f. unfold f. destruct (nth_error (socks st1) s) as [k|] eqn:Nk; [|left; exact Q].
      destruct (k_open k) eqn:Ok'; [|left; eapply ext_trans; [exact Q|apply ext_say; exact Logic.I]].
      destruct r as [[]|e]; [|left; eapply ext_trans; [exact Q|apply ext_say; exact Logic.I]].
      right. exists st1, s, q, dst, o, m'. split; [exact Q|]. split; [cbn [say alog]; rewrite <- app_assoc; reflexivity|]. split; [exact O'|exact R]. }
    assert (Go : forall st', (ext st st' \/ exists st2 s q dst y m, ext st st2 /\ alog st' = alog st2 ++ [ESentto s q dst; ESend y (Ok tt)] /\ obj st' y = Some m /\ a_role m = Some s) ->
      ext st st' \/ (exists st1, ext st st1 /\ alog st' = alog st1 ++ [ENew (length (objs st)) (Ok tt)] /\ obj st' (length (objs st)) <> None) \/
      (exists st1 s q dst o m, ext st st1 /\ alog st' = alog st1 ++ [ESentto s q dst; ESend o (Ok tt)] /\ obj st' o = Some m /\ a_role m = Some s)) by (intros st' [H|H]; auto).
    apply Go. unfold asend. destruct (a_role m) as [s|] eqn:R; [eapply Out; [apply ext_nil; reflexivity|exact O|exact R]|].
    pose proof (ext_kopen st o op fd) as Q1. unfold kopen in *. destruct (o_socket op) as [u|e]; [|left; apply ext_say; exact Logic.I]. cbn [fst] in Q1.
    set (st1 := say _ (EOpened _ _ _)) in *.
    assert (Q2 : ext st (set_obj st1 o (mkA (Some (length (socks st))) (a_socket m) (a_fileno m) (a_interface m)))) by (eapply ext_trans; [exact Q1|apply ext_nil; reflexivity]).
    destruct (o_bind op) as [u1|e]; [destruct (o_option op) as [u2|e]|]; try (left; eapply ext_trans; [exact Q2|apply ext_say; exact Logic.I]).
    eapply (Out _ _ (mkA (Some (length (socks st))) (a_socket m) (a_fileno m) (a_interface m))); [exact Q2| |reflexivity]. rewrite obj_set; [rewrite Nat.eqb_refl; reflexivity|]. change (obj st1 o) with (obj st o). rewrite O. discriminate.
  - left. unfold with_obj in E. destruct (auser (astack st)); [|discriminate]. destruct (obj st o) as [m|]; [|discriminate]. injection E as <-. unfold apoll.
    destruct (forallb _ _); (eapply ext_trans; [apply (ext_say st (EPoll o)); exact Logic.I|]); [apply ext_serve|eapply ext_one; [reflexivity|exact Logic.I]].
  - left. unfold with_obj in E. destruct (auser (astack st)); [|discriminate]. destruct (obj st o) as [m|]; [|discriminate]. injection E as <-. unfold ahandle_close.
    destruct (a_role m) as [s|]; [|apply ext_say; exact Logic.I]. pose proof (kclose_log st s r) as [L _]. destruct (kclose st s r) as [st1 r1]. cbn [fst] in L. destruct r1; (eapply ext_one; [cbn [say set_obj alog]; rewrite L; reflexivity|exact Logic.I]).
  - left. unfold with_obj in E. destruct (auser (astack st)); [|discriminate]. destruct (obj st o) as [m|]; [|discriminate]. injection E as <-. unfold aclose.
    match goal with |- context [kclose ?x (a_socket m) r] => set (st2 := x) end. assert (L2 : alog st2 = alog st) by (unfold st2; destruct (a_fileno m); reflexivity). clearbody st2.
    pose proof (kclose_log st2 (a_socket m) r) as [L _]. destruct (kclose st2 (a_socket m) r) as [st1 r1]. cbn [fst] in L. eapply ext_one; [cbn [say alog]; rewrite L, L2; reflexivity|exact Logic.I].
  - left. destruct (astack st) as [|[p0 r0|o ie|o s] [|[p rest|o' ie'|o' s'] k]]; try discriminate. injection E as <-. eapply ext_trans; [apply (ext_say st (ECbEnd o (Ok tt))); exact Logic.I|apply ext_serve].
  - left. destruct (astack st) as [|[p0 r0|o ie|o s] [|[p rest|o' ie'|o' s'] k]]; try discriminate. injection E as <-. eapply ext_trans; [apply (ext_say st (ECbEnd o (Err e))); exact Logic.I|].
    destruct ie; [eapply ext_one; [reflexivity|exact Logic.I]|apply ext_read_error].
  - left. destruct (nth_error (socks st) s) as [ks|]; [|discriminate]. destruct (k_open ks); [|discriminate].
    assert (X : ext st (set_queue (say st (EArrive s x)) s (k_queue ks ++ [x]))) by (eapply ext_trans; [apply (ext_say st (EArrive s x)); exact Logic.I|apply ext_queue]).
    destruct (astack st) as [|[p0 r0|o ie|o s0] [|[p rest|o' ie'|o' s'] k]]; try (injection E as <-; exact X).
    destruct (Nat.eqb s s0); injection E as <-; [|exact X]. eapply ext_trans; [apply (ext_say st (EArrive s x)); exact Logic.I|apply ext_got].
Qed.
(** Managers stay. *)
Theorem astep_objs st l st' o : astep st l = Some st' -> obj st o <> None -> obj st' o <> None.
Proof.
  intros E O. assert (Shp : forall st', same_shape st st' -> obj st' o <> None) by (intros st2 (H & _); unfold obj in *; rewrite H; exact O).
  assert (Set_ : forall st1 y m, obj st1 o <> None -> obj (set_obj st1 y m) o <> None).
  { intros st1 y m H. unfold obj, set_obj in *. cbn [objs]. rewrite nth_upd. destruct (Nat.eqb_spec y o) as [->|]; [|exact H]. destruct (nth_error (objs st1) o); [discriminate|exact H]. }
  destruct l as [cb i op fd|y q dst op fd r|y|y r|y r| |e|s x]; cbn [astep] in E.
  - destruct (auser (astack st)); [|discriminate]. destruct (fd_free st fd); [|discriminate]. cbn in E. injection E as <-.
    destruct (obj st o) as [m|] eqn:Om; [|contradiction].
    assert (Fl : forall st1 x M K e, objs st1 = objs st -> obj (say (mkAS (socks st1) (objs st1 ++ [x]) M K (alog st1)) e) o <> None).
    { intros st1 x M K e H. rewrite H. assert (X : obj (mkAS (socks st1) (objs st ++ [x]) M K (alog st1)) o = Some m) by (apply obj_grow; auto). change (obj (mkAS (socks st1) (objs st ++ [x]) M K (alog st1)) o <> None). congruence. }
    unfold anew, kopen. destruct cb as [[|]| |]; try (apply Fl; reflexivity). destruct (o_socket op) as [u|e]; [|apply Fl; reflexivity]. destruct (o_bind op) as [u1|e]; [destruct (o_option op) as [u2|e]|]; apply Fl; reflexivity.
  - destruct (fd_free st fd); [|discriminate]. unfold with_obj in E. destruct (auser (astack st)); [|discriminate]. destruct (obj st y) as [m|]; [|discriminate]. injection E as <-.
    assert (Out : forall st1 s, obj st1 o <> None -> let f := (fun st0 s => match nth_error (socks st0) s with Some k => if k_open k then say (match r with Ok _ => say st0 (ESentto s q dst) | Err _ => st0 end) (ESend y r) else say st0 (ESend y (Err OSError)) | None => st0 end) in obj (f st1 s) o <> None).
    { intros st1 s H f. unfold f. destruct (nth_error (socks st1) s) as [k|]; [|exact H]. destruct (k_open k); [destruct r|]; exact H. }
    unfold asend. destruct (a_role m) as [s|]; [apply Out; exact O|]. unfold kopen. destruct (o_socket op) as [u|e]; [|exact O].
    destruct (o_bind op) as [u1|e]; [destruct (o_option op) as [u2|e]|]; try (apply Out; apply Set_; exact O); match goal with |- obj (say ?x _) o <> None => change (obj x o <> None) end; apply Set_; exact O.
  - unfold with_obj in E. destruct (auser (astack st)); [|discriminate]. destruct (obj st y) as [m|]; [|discriminate]. injection E as <-. apply Shp. unfold apoll.
    destruct (forallb _ _); [eapply same_trans; [apply shape_say|apply shape_serve]|repeat split].
  - unfold with_obj in E. destruct (auser (astack st)); [|discriminate]. destruct (obj st y) as [m|]; [|discriminate]. injection E as <-. unfold ahandle_close.
    destruct (a_role m) as [s|]; [|exact O]. pose proof (kclose_log st s r) as [_ L]. destruct (kclose st s r) as [st1 r1]. cbn [fst] in L.
    assert (O1 : obj st1 o <> None) by (unfold obj in *; rewrite L; exact O). destruct r1; [apply (Set_ st1); exact O1|exact O1].
  - unfold with_obj in E. destruct (auser (astack st)); [|discriminate]. destruct (obj st y) as [m|]; [|discriminate]. injection E as <-. unfold aclose.
    match goal with |- context [kclose ?x (a_socket m) r] => set (st2 := x) end. assert (L2 : obj st2 o <> None) by (unfold st2; apply Set_; destruct (a_fileno m); exact O). clearbody st2.
    pose proof (kclose_log st2 (a_socket m) r) as [_ L]. destruct (kclose st2 (a_socket m) r) as [st1 r1]. cbn [fst] in L. unfold obj in *. cbn [say objs]. rewrite L. exact L2.
  - destruct (astack st) as [|[p0 r0|z ie|z s] [|[p rest|o' ie'|o' s'] k]]; try discriminate. injection E as <-. apply Shp. eapply same_trans; [apply shape_say|apply shape_serve].
  - destruct (astack st) as [|[p0 r0|z ie|z s] [|[p rest|o' ie'|o' s'] k]]; try discriminate. injection E as <-. apply Shp. eapply same_trans; [apply shape_say|].
    destruct ie; [repeat split|apply shape_read_error].
  - destruct (nth_error (socks st) s) as [ks|]; [|discriminate]. destruct (k_open ks); [|discriminate].
    assert (X : obj (set_queue (say st (EArrive s x)) s (k_queue ks ++ [x])) o <> None) by (apply Shp; eapply same_trans; [apply shape_say|apply shape_queue]).
    destruct (astack st) as [|[p0 r0|z ie|z s0] [|[p rest|o' ie'|o' s'] k]]; try (injection E as <-; exact X).
    destruct (Nat.eqb s s0); injection E as <-; [|exact X]. apply Shp. eapply same_trans; [apply shape_say|apply shape_got].
Qed.
(** What was sent went through a socket that its sender made. *)
Definition sent_own (lg : list aevent) : Prop := forall pre s q dst post, lg = pre ++ ESentto s q dst :: post -> exists o post', post = ESend o (Ok tt) :: post' /\ opened_by pre s o.
Lemma sent_calm lg es : sent_own lg -> Forall calm es -> sent_own (lg ++ es).
Proof.
  intros H. induction es as [|e es IH] using rev_ind; intros F; [rewrite app_nil_r; exact H|]. apply Forall_app in F as [F1 F2]. inversion F2 as [|? ? C _]; subst.
  intros pre s q dst post E. rewrite app_assoc in E. apply snoc_cons in E as [(-> & -> & ->)|(post' & -> & E)]; [destruct C|].
  destruct (IH F1 _ _ _ _ _ E) as (o & p' & -> & Q). exists o. eexists. split; [reflexivity|exact Q].
Qed.
Theorem aexec_log tr : forall st, aexec tr = Some st -> sent_own (alog st) /\ forall o, made (alog st) o -> obj st o <> None.
Proof.
  induction tr as [|l tr IH] using rev_ind; intros st E; [injection E as <-; split; [intros pre s q dst post H; destruct pre; discriminate|intros o []]|].
  pose proof (aexec_inv _ _ E) as [I' _].
  unfold aexec in *. rewrite asteps_app in E. destruct (asteps ainit tr) as [st0|] eqn:E0; [|discriminate]. cbn [asteps] in E. destruct (astep st0 l) as [st1|] eqn:E1; [|discriminate]. injection E as ->.
  destruct (IH st0 eq_refl) as [A B].
  assert (Mo : forall o, made (alog st0) o -> obj st o <> None) by (intros o H; eapply astep_objs; [exact E1|apply B; exact H]).
  assert (Mc : forall es o, Forall calm es -> made (alog st0 ++ es) o -> made (alog st0) o).
  { intros es o F H. apply in_app_or in H as [H|H]; [exact H|]. rewrite Forall_forall in F. elim (F _ H). }
  destruct (astep_events _ _ _ E1) as [(es & L & F)|[(st2 & (es & L & F) & L2 & O)|(st2 & s & q & dst & o & m & (es & L & F) & L2 & O & R)]].
  - rewrite L. split; [apply sent_calm; assumption|]. intros o H. apply Mo. eapply Mc; eassumption.
  - rewrite L2, L. split.
    + intros pre s q dst post E. apply snoc_cons in E as [(_ & _ & X)|(post' & -> & E)]; [discriminate|]. destruct (sent_calm _ _ A F _ _ _ _ _ E) as (o & p' & -> & Q). exists o. eexists. split; [reflexivity|exact Q].
    + intros o H. apply in_app_or in H as [H|[H|[]]]; [apply Mo; eapply Mc; eassumption|]. injection H as <-. exact O.
  - rewrite L2, L. split.
    + intros pre s' q' dst' post E. change [ESentto s q dst; ESend o (Ok tt)] with ([ESentto s q dst] ++ [ESend o (Ok tt)]) in E. rewrite app_assoc in E.
      apply snoc_cons in E as [(_ & _ & X)|(post' & -> & E)]; [discriminate|]. apply snoc_cons in E as [(-> & -> & X)|(post'' & -> & E)].
      * injection X as <- <- <-. exists o, []. split; [reflexivity|]. pose proof (i_role _ I' o m s O R) as (g & J). rewrite L2, L in J. exists g.
        apply in_app_or in J as [J|[J|[J|[]]]]; [exact J|discriminate|discriminate].
      * destruct (sent_calm _ _ A F _ _ _ _ _ E) as (y & p' & -> & Q). exists y. eexists. split; [reflexivity|exact Q].
    + intros y H. apply in_app_or in H as [H|[H|[H|[]]]]; try discriminate. apply Mo. eapply Mc; eassumption.
Qed.
