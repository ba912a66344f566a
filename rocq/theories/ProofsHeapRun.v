(** * What any run leaves alone *)
From Coq Require Import ZArith List Bool Lia.
From Verif Require Import PyBase Classes Values Codec Manager Heap SpecHeap ProofsHeap ProofsHeapKeep ProofsHeapCall.
Import ListNotations.
Open Scope Z_scope.

(** [P]: objects user code cannot get at; the default arguments are always among them. *)
Record inv (P : loc -> Prop) (s : hstate) : Prop := {
  i_ok : okh P (hp s);
  i_defaults : defaults_ok (hp s);
  i_in : forall l, (l < 5)%nat -> P l;
  i_known : forall l, In l (known s) -> (l < length (hp s))%nat /\ ~ P l }.
(** [U]: objects user code does not write, though it may know them. *)
Definition objs (U : loc -> Prop) (h : heap) : Prop := forall l, U l -> exists c d, nth_error h l = Some (PObj c d).
Definition okq (P U : loc -> Prop) (h : heap) (p : item * address) : Prop :=
  forall n, fst p = IRef n -> (n < length h)%nat /\ ~ P n /\ ~ U n.
Definition not_sent (e : gevent) : Prop := match e with GSent _ _ _ => False | _ => True end.
(** What a step does to the queue and the log. *)
Inductive moved (P : loc -> Prop) (s : hstate) (l : glabel) (s' : hstate) : Prop :=
| mv_sent fuel m dst r : l = LSend fuel -> h_out s = (m, dst) :: h_out s' -> h_log s' = h_log s ++ [GSent m r dst] -> h_encode_message fuel m (hp s) = (hp s', r) -> moved P s l s'
| mv_other q ev : h_out s' = h_out s ++ q -> Forall (new_message P (hp s) (hp s')) q -> h_log s' = h_log s ++ ev -> Forall not_sent ev -> (forall fuel, l <> LSend fuel) -> moved P s l s'.
Definition kept (P U : loc -> Prop) (h h' : heap) : Prop := (length h <= length h')%nat /\ forall l, P l \/ U l -> nth_error h' l = nth_error h l.
Lemma kept_trans P U a b c : kept P U a b -> kept P U b c -> kept P U a c.
Proof. intros [A A'] [B B']. split; [lia|]. intros l L. rewrite B', A' by exact L. reflexivity. Qed.
Lemma kept_refl P U h : kept P U h h. Proof. split; auto. Qed.

Lemma knows_in s l : knows s l = true -> forall x, In x l -> In x (known s).
Proof.
  unfold knows. intros K x J. rewrite forallb_forall in K. specialize (K x J). apply existsb_exists in K as (y & Jy & E). apply Nat.eqb_eq in E. subst. exact Jy.
Qed.
Lemma known_fine P s i : inv P s -> (forall x, In x (item_refs i) -> In x (known s)) -> fine P (hp s) i.
Proof. intros I K x J. apply (i_known _ _ I). auto. Qed.
Lemma knows_items P s l : inv P s -> knows s (flat_map item_refs l) = true -> Forall (fine P (hp s)) l.
Proof.
  intros I K. apply Forall_forall. intros i J. apply known_fine; [exact I|]. intros x Jx. eapply knows_in; [exact K|]. apply in_flat_map. eauto.
Qed.
Lemma objs_lt U h l : objs U h -> U l -> (l < length h)%nat.
Proof. intros O L. destruct (O l L) as (c & d & E). apply nth_error_Some. rewrite E. discriminate. Qed.
Lemma kept_grow P U h t : okh P h -> objs U h -> kept P U h (h ++ t).
Proof.
  intros O V. split; [rewrite app_length; lia|]. intros l [L|L]; apply grown_kept; [apply O; exact L|eapply objs_lt; eassumption].
Qed.
Lemma kept_set P U h l c : (l < length h)%nat -> ~ P l -> ~ U l -> kept P U h (set_cell l c h).
Proof. intros L N M. split; [rewrite set_cell_len by exact L; lia|]. intros x [X|X]; apply set_cell_other; try exact L; intros ->; contradiction. Qed.
Lemma defaults_kept P U h h' : kept P U h h' -> (forall l, (l < 5)%nat -> P l) -> defaults_ok h -> defaults_ok h'.
Proof. intros [_ K] I D l L. rewrite K by (left; auto). apply D. exact L. Qed.
Lemma inv_heap P U s h kn nx q cb st lg : inv P s -> okh P h -> kept P U (hp s) h -> (forall l, In l kn -> In l (known s) \/ ((l < length h)%nat /\ ~ P l)) ->
  inv P (mkH h kn nx q cb st lg).
Proof.
  intros I O K N. split; cbn; [exact O|eapply defaults_kept; [exact K|apply I|apply I]|apply I|].
  intros l J. destruct (N l J) as [J'|J']; [|exact J']. destruct (i_known _ _ I l J') as [A B]. destruct K as [K _]. split; [lia|exact B].
Qed.
Lemma encode_message_shape fuel m h : (exists r, h_encode_message fuel m h = (h, Err r)) \/
  exists n c d v com dat, m = IRef n /\ nth_error h n = Some (PObj c d) /\ attr_of h m Aversion = Ok v /\ attr_of h m Acommunity = Ok com /\ attr_of h m Adata = Ok dat /\
    let h' := set_cell n (PObj c (set_attr Avalue (IRef (length h)) d)) (h ++ [PList [v; com; dat]]) in h_encode_message fuel m h = (h', h_encode fuel h' m).
Proof.
  unfold h_encode_message. destruct m as [| | |n]; try (left; eexists; reflexivity). destruct (nth_error h n) as [[x|c d]|] eqn:E; try (left; eexists; reflexivity).
  destruct (attr_of h (IRef n) Aversion) as [v|] eqn:A1; [|left; eexists; reflexivity]. destruct (attr_of h (IRef n) Acommunity) as [com|] eqn:A2; [|left; eexists; reflexivity].
  destruct (attr_of h (IRef n) Adata) as [dat|] eqn:A3; [|left; eexists; reflexivity]. right. exists n, c, d, v, com, dat. repeat split; auto.
Qed.
Lemma lt_of {A} (h : list A) n c : nth_error h n = Some c -> (n < length h)%nat.
Proof. intros E. apply nth_error_Some. rewrite E. discriminate. Qed.
Lemma encode_message_keep P U fuel m h : okh P h -> objs U h -> (forall n, m = IRef n -> ~ P n /\ ~ U n) ->
  okh P (fst (h_encode_message fuel m h)) /\ kept P U h (fst (h_encode_message fuel m h)).
Proof.
  intros O V N. destruct (encode_message_shape fuel m h) as [[r ->]|(n & c & d & v & com & dat & -> & E & A1 & A2 & A3 & ->)]; cbn [fst]; [split; [exact O|apply kept_refl]|].
  destruct (N n eq_refl) as [N1 N2]. pose proof (lt_of _ _ _ E) as L.
  assert (F : fine P h (IRef n)) by (apply fine_ref; assumption).
  assert (O1 : okh P (h ++ [PList [v; com; dat]])).
  { apply okh_new; [exact O|]. cbn. intros i J. destruct J as [<-|[<-|[<-|[]]]]; eapply fine_attr; eassumption. }
  split.
  - apply okh_set; [exact O1|rewrite app_length; lia|exact N1|]. cbn. intros i [<-|J]; [apply new_fine; exact O|]. apply fine_ext. apply (fine_cell P h n (PObj c d) O E N1). cbn.
    apply in_map_iff in J as (p & <- & J). apply filter_In in J as [J _]. apply in_map. exact J.
  - eapply kept_trans; [apply kept_grow; eassumption|]. apply kept_set; [rewrite app_length; lia|exact N1|exact N2].
Qed.
Lemma step_keep sys P U s l s' : inv P s -> objs U (hp s) -> (forall p q fuel, h_out s = p :: q -> l = LSend fuel -> okq P U (hp s) p) -> (forall x c, l = UWrite x c -> ~ U x) ->
  gstep sys s l = Some s' -> inv P s' /\ kept P U (hp s) (hp s') /\ moved P s l s'.
Proof.
  intros I V Q W. pose proof (i_ok _ _ I) as O.
  assert (SILENT : forall s' ev, hp s' = hp s -> known s' = known s -> h_out s' = h_out s -> h_log s' = h_log s ++ ev -> Forall not_sent ev -> (forall fuel, l <> LSend fuel) -> inv P s' /\ kept P U (hp s) (hp s') /\ moved P s l s').
  { intros s0 ev E1 E2 E3 E4 E5 E6. split; [|split].
    - split; rewrite ?E1, ?E2; apply I.
    - rewrite E1. apply kept_refl.
    - apply (mv_other _ _ _ _ [] ev); auto. rewrite app_nil_r. exact E3. }
  destruct l as [c|x|x c|a|fuel|depth d| |e]; cbn [gstep].
  - destruct (knows s (refs c)) eqn:K; [|discriminate]. intros E. injection E as <-.
    assert (F : forall i, In i (cell_items c) -> fine P (hp s) i) by (apply Forall_forall; apply knows_items; assumption).
    pose proof (okh_new P (hp s) c O F) as O'. split; [|split].
    + unfold learn, with_heap. cbn. apply inv_heap with (U := U) (s := s); [exact I|exact O'|apply kept_grow; assumption|]. intros y [<-|J]; [right|left; exact J].
      rewrite app_length. cbn. split; [lia|]. intros Py. destruct O as [O1 _]. specialize (O1 _ Py). lia.
    + cbn. apply kept_grow; assumption.
    + apply (mv_other _ _ _ _ [] []); cbn; rewrite ?app_nil_r; auto. discriminate.
  - destruct (knows s [x]) eqn:K; [|discriminate]. destruct (nth_error (hp s) x) as [c|] eqn:N; [|discriminate]. intros E. injection E as <-. split; [|split].
    + unfold learn. apply inv_heap with (U := U) (s := s); [exact I|exact O|apply kept_refl|]. intros y J. apply in_app_or in J as [J|J]; [right|left; exact J].
      assert (Px : ~ P x) by (apply (i_known _ _ I); apply (knows_in s [x] K); left; reflexivity). destruct O as [_ O2]. destruct (O2 _ _ _ N J) as [L M]. tauto.
    + apply kept_refl.
    + apply (mv_other _ _ _ _ [] []); cbn; rewrite ?app_nil_r; auto. discriminate.
  - destruct (knows s (x :: refs c)) eqn:K; [|discriminate]. intros E. injection E as <-.
    destruct (i_known _ _ I x) as [L Px]; [apply (knows_in _ _ K); left; reflexivity|].
    assert (F : forall i, In i (cell_items c) -> fine P (hp s) i). { intros i J. apply known_fine; [exact I|]. intros y Jy. apply (knows_in _ _ K). right. eapply refs_in; eassumption. }
    assert (Kp : kept P U (hp s) (set_cell x c (hp s))) by (apply kept_set; [exact L|exact Px|eapply W; reflexivity]).
    split; [|split].
    + unfold with_heap. apply inv_heap with (U := U) (s := s); [exact I|apply okh_set; assumption|exact Kp|auto].
    + exact Kp.
    + apply (mv_other _ _ _ _ [] []); cbn; rewrite ?app_nil_r; auto. discriminate.
  - destruct (knows s (flat_map item_refs (call_items a))) eqn:K; [|discriminate].
    pose proof (g_call_called P s (flav sys) a O (i_defaults _ _ I) (knows_items _ _ _ I K)) as [C1 C2 C3 C4 C5 C6 C7 C8].
    destruct (g_call (flav sys) a s) as [s1 r]. cbn [fst snd] in *. intros E. injection E as <-.
    assert (Kp : kept P U (hp s) (hp s1)). { split; [exact C2|]. intros y [Y|Y]; [auto|]. destruct (V y Y) as (c & d & N). rewrite N. apply C4. exact N. }
    split; [|split].
    + unfold g_say, learn. cbn. apply inv_heap with (U := U) (s := s); [exact I|exact C1|exact Kp|]. rewrite C5. intros y J. apply in_app_or in J as [J|J]; [right|left; exact J].
      destruct r as [i|]; [|destruct J]. apply (C8 i eq_refl). exact J.
    + exact Kp.
    + destruct C7 as (q & Q1 & Q2 & Q3). apply (mv_other _ _ _ _ q (put_on q ++ [GReturned r])); cbn; [exact Q1|exact Q3|rewrite Q2, app_assoc; reflexivity| |discriminate].
      apply Forall_app. split; [|repeat constructor]. apply Forall_forall. intros e J. apply in_map_iff in J as (p & <- & _). exact Logic.I.
  - destruct (h_out s) as [|[m dst] q] eqn:Eq; [discriminate|]. pose proof (Q _ _ fuel eq_refl eq_refl) as Qm. unfold okq in Qm. cbn [fst] in Qm.
    destruct (encode_message_keep P U fuel m (hp s) O V) as [O' Kp]; [intros n En; destruct (Qm n En) as (_ & A & B); auto|].
    destruct (h_encode_message fuel m (hp s)) as [h r] eqn:Eh. cbn [fst] in *. intros E. injection E as <-. split; [|split].
    + apply inv_heap with (U := U) (s := s); auto.
    + exact Kp.
    + eapply mv_sent; cbn; [reflexivity|exact Eq|reflexivity|exact Eh].
  - intros E. injection E as <-. unfold g_receive. destruct (Manager.receiveData sys _ depth d) as [[r|id cb|cb] om].
    + eapply SILENT; try reflexivity; [repeat constructor|discriminate].
    + destruct om as [msg|]; [|eapply (SILENT s []); auto; [rewrite app_nil_r; reflexivity|discriminate]].
      destruct (keep_make_message P (hp s) msg O) as (t & E & O' & K). destruct (h_make_message msg (hp s)) as [h [m|e]]; cbn [fst snd] in *; [|eapply (SILENT s []); auto; [rewrite app_nil_r; reflexivity|discriminate]].
      assert (Kp : kept P U (hp s) h) by (rewrite E; apply kept_grow; assumption). split; [|split].
      * unfold g_say, with_stack, learn, with_heap. cbn. apply inv_heap with (U := U) (s := s); [exact I|exact O'|exact Kp|]. intros y J. apply in_app_or in J as [J|J]; [right|left; exact J]. apply (K m eq_refl). exact J.
      * exact Kp.
      * apply (mv_other _ _ _ _ [] [GInvoked cb m]); cbn; rewrite ?app_nil_r; auto; [repeat constructor|discriminate].
    + destruct om as [msg|]; [|eapply (SILENT s []); auto; [rewrite app_nil_r; reflexivity|discriminate]].
      destruct (keep_make_message P (hp s) msg O) as (t & E & O' & K). destruct (h_make_message msg (hp s)) as [h [m|e]]; cbn [fst snd] in *; [|eapply (SILENT s []); auto; [rewrite app_nil_r; reflexivity|discriminate]].
      assert (Kp : kept P U (hp s) h) by (rewrite E; apply kept_grow; assumption). split; [|split].
      * unfold g_say, with_stack, learn, with_heap. cbn. apply inv_heap with (U := U) (s := s); [exact I|exact O'|exact Kp|]. intros y J. apply in_app_or in J as [J|J]; [right|left; exact J]. apply (K m eq_refl). exact J.
      * exact Kp.
      * apply (mv_other _ _ _ _ [] [GInvoked cb m]); cbn; rewrite ?app_nil_r; auto; [repeat constructor|discriminate].
  - destruct (h_stack s) as [|[m|m] k]; [discriminate| |]; intros E; injection E as <-.
    + unfold g_return. cbn [hp with_stack]. destruct (d <- attr_of (hp s) m Adata ;; _) as [n|e]; [destruct (e_get _ _ _ n)|]; eapply SILENT; try reflexivity; try discriminate; repeat constructor.
    + eapply SILENT; try reflexivity; try discriminate; repeat constructor.
  - destruct (h_stack s) as [|f k]; [discriminate|]. intros E; injection E as <-. eapply SILENT; try reflexivity; try discriminate; repeat constructor.
Qed.

(** ** Runs *)
Definition D (l : loc) : Prop := (l < 5)%nat.
Definition none (l : loc) : Prop := False.
Definition spares (U : loc -> Prop) (tr : list glabel) : Prop := forall x c, In (UWrite x c) tr -> ~ U x.
Definition qfree (m : loc) (q : list (item * address)) : Prop := forall p, In p q -> fst p <> IRef m.
Lemma okq_kept P U h h' p : kept P U h h' -> okq P U h p -> okq P U h' p.
Proof. intros [L _] Q n E. destruct (Q n E) as (A & B). split; [lia|exact B]. Qed.
Lemma okq_new P U h h' p : okh P h -> objs U h -> new_message P h h' p -> okq P U h' p.
Proof.
  intros O V [E|(n & E & L & N)] k Ek; rewrite Ek in E; [discriminate|]. injection E as ->. split; [lia|]. split; [exact N|].
  intros Un. pose proof (objs_lt _ _ _ V Un). lia.
Qed.
Lemma moved_queue P U s l s' : okh P (hp s) -> objs U (hp s) -> kept P U (hp s) (hp s') -> moved P s l s' ->
  Forall (okq P U (hp s)) (h_out s) -> Forall (okq P U (hp s')) (h_out s').
Proof.
  intros O V K M Q. destruct M as [fuel m dst r E1 E2 E3|q ev E1 E2 _ _].
  - rewrite E2 in Q. inversion Q; subst. eapply Forall_impl; [|eassumption]. intros p. apply okq_kept. exact K.
  - rewrite E1. apply Forall_app. split; [eapply Forall_impl; [|exact Q]; intros p; apply okq_kept; exact K|].
    eapply Forall_impl; [|exact E2]. intros p. apply okq_new; assumption.
Qed.
Lemma objs_kept P U h h' : kept P U h h' -> objs U h -> objs U h'.
Proof. intros [_ K] V l L. destruct (V l L) as (c & d & E). exists c, d. rewrite K by (right; exact L). exact E. Qed.
Lemma spares_cons U l tr : spares U (l :: tr) -> (forall x c, l = UWrite x c -> ~ U x) /\ spares U tr.
Proof. intros W. split; [intros x c ->; eapply W; left; reflexivity|intros x c J; eapply W; right; exact J]. Qed.
Lemma run_keep sys P U : forall tr s s', inv P s -> objs U (hp s) -> Forall (okq P U (hp s)) (h_out s) -> spares U tr -> gsteps sys s tr = Some s' ->
  inv P s' /\ kept P U (hp s) (hp s') /\ Forall (okq P U (hp s')) (h_out s').
Proof.
  induction tr as [|l tr IH]; intros s s' I V Q W E; cbn [gsteps] in E; [injection E as <-; split; [exact I|]; split; [apply kept_refl|exact Q]|].
  destruct (gstep sys s l) as [s1|] eqn:E1; [|discriminate]. apply spares_cons in W as [W1 W2].
  destruct (step_keep sys P U s l s1 I V) as (I1 & K1 & M1); [intros p q fuel Eq _; rewrite Eq in Q; inversion Q; assumption|exact W1|exact E1|].
  destruct (IH s1 s' I1 (objs_kept _ _ _ _ K1 V) (moved_queue _ _ _ _ _ (i_ok _ _ I) V K1 M1 Q) W2 E) as (I2 & K2 & Q2).
  split; [exact I2|]. split; [eapply kept_trans; eassumption|exact Q2].
Qed.
(** The messages sent so far are objects of the heap. *)
Definition sent_lt (s : hstate) : Prop := forall n r d, In (GSent (IRef n) r d) (h_log s) -> (n < length (hp s))%nat.
Definition good (s : hstate) : Prop := inv D s /\ Forall (okq D none (hp s)) (h_out s) /\ sent_lt s.
Lemma none_objs h : objs none h. Proof. intros l []. Qed.
Lemma none_spared tr : spares none tr. Proof. intros x c _ []. Qed.
Lemma no_sent ev m r d : Forall not_sent ev -> ~ In (GSent m r d) ev.
Proof. intros F J. rewrite Forall_forall in F. apply (F _ J). Qed.
Lemma good_step sys s l s' : good s -> gstep sys s l = Some s' -> good s' /\ kept D none (hp s) (hp s') /\ moved D s l s'.
Proof.
  intros (I & Q & L) E. destruct (step_keep sys D none s l s' I (none_objs _)) as (I1 & K1 & M1); [intros p q fuel Eq _; rewrite Eq in Q; inversion Q; assumption|intros x c _ []|exact E|].
  split; [|split; assumption]. split; [exact I1|]. split; [eapply moved_queue; [apply I|apply none_objs|exact K1|exact M1|exact Q]|].
  intros n r d J. destruct K1 as [Le _]. destruct M1 as [fuel m dst r' E1 E2 E3|q ev E1 E2 E3 E4].
  - rewrite E3 in J. apply in_app_or in J as [J|[J|[]]]; [specialize (L _ _ _ J); lia|]. injection J as -> _ _. rewrite E2 in Q. inversion Q as [|p q Qp Qq]; subst. destruct (Qp n eq_refl). lia.
  - rewrite E3 in J. apply in_app_or in J as [J|J]; [specialize (L _ _ _ J); lia|]. exfalso. eapply no_sent; eassumption.
Qed.
Lemma good_init : good h_init.
Proof.
  split; [|split; [constructor|intros n r d []]]. split; cbn; [| | |intros l []].
  - split; [intros l L; exact L|]. intros l c x E J. exfalso. do 5 (destruct l as [|l]; [injection E as <-; exact J|]). destruct l; discriminate.
  - intros l L. do 5 (destruct l as [|l]; [reflexivity|]). lia.
  - auto.
Qed.
Lemma good_run sys tr : forall s s', good s -> gsteps sys s tr = Some s' -> good s'.
Proof.
  induction tr as [|l tr IH]; intros s s' G E; cbn [gsteps] in E; [injection E as <-; exact G|].
  destruct (gstep sys s l) as [s1|] eqn:E1; [|discriminate]. apply (IH s1 s'); [|exact E]. eapply good_step; eassumption.
Qed.
Lemma good_exec sys tr s : gexec sys tr = Some s -> good s.
Proof. apply good_run. apply good_init. Qed.
(** A message that is no longer queued is not sent again. *)
Lemma gone sys m : forall tr s s', good s -> (m < length (hp s))%nat -> qfree m (h_out s) -> gsteps sys s tr = Some s' ->
  forall r d, In (GSent (IRef m) r d) (h_log s') -> In (GSent (IRef m) r d) (h_log s).
Proof.
  induction tr as [|l tr IH]; intros s s' G L Q E r d J; cbn [gsteps] in E; [injection E as <-; exact J|].
  destruct (gstep sys s l) as [s1|] eqn:E1; [|discriminate]. destruct (good_step sys s l s1 G E1) as (G1 & [K1 _] & M1).
  assert (Q1 : qfree m (h_out s1)).
  { destruct M1 as [fuel m' dst r' _ E2 _|q ev E2 E3 _ _]; intros p Jp.
    - apply Q. rewrite E2. right. exact Jp.
    - rewrite E2 in Jp. apply in_app_or in Jp as [Jp|Jp]; [apply Q; exact Jp|]. rewrite Forall_forall in E3. destruct (E3 p Jp) as [X|(n & X & Ln & _)]; rewrite X; [discriminate|]. intros Z. injection Z as ->. lia. }
  apply (IH s1 s' G1) in J; [|lia|exact Q1|exact E]. destruct M1 as [fuel m' dst r' _ E2 E3|q ev _ _ E3 E4]; rewrite E3 in J; apply in_app_or in J as [J|J]; try exact J.
  - destruct J as [J|[]]. injection J as -> _ _. exfalso. apply (Q (IRef m, dst)); [rewrite E2; left; reflexivity|reflexivity].
  - exfalso. eapply no_sent; eassumption.
Qed.
(** A message that is queued and out of reach: nothing it is made of changes until it is sent. *)
Definition pending (P U : loc -> Prop) (m : loc) (dst : address) (s : hstate) : Prop :=
  exists q1 q2, h_out s = q1 ++ (IRef m, dst) :: q2 /\ Forall (okq P U (hp s)) q1 /\ Forall (okq P U (hp s)) q2 /\ qfree m q1 /\ qfree m q2.
Lemma run_pending sys P U m dst : forall tr s s', good s -> inv P s -> objs U (hp s) -> pending P U m dst s -> (m < length (hp s))%nat -> spares U tr -> gsteps sys s tr = Some s' ->
  forall r d, In (GSent (IRef m) r d) (h_log s') -> In (GSent (IRef m) r d) (h_log s) \/
    (d = dst /\ exists tr1 fuel tr2 sa, tr = tr1 ++ LSend fuel :: tr2 /\ gsteps sys s tr1 = Some sa /\ kept P U (hp s) (hp sa) /\ inv P sa /\ r = snd (h_encode_message fuel (IRef m) (hp sa))).
Proof.
  induction tr as [|l tr IH]; intros s s' G I V (q1 & q2 & Eq & Q1 & Q2 & F1 & F2) Lm W E r d J; cbn [gsteps] in E; [injection E as <-; left; exact J|].
  destruct (gstep sys s l) as [s1|] eqn:E1; [|discriminate]. apply spares_cons in W as [W1 W2]. destruct (good_step sys s l s1 G E1) as (G1 & [Le _] & M0).
  destruct q1 as [|p q1].
  - (* the message is first in the queue *)
    assert (Dec : (exists fuel, l = LSend fuel) \/ forall fuel, l <> LSend fuel) by (destruct l; try (right; discriminate); left; eauto). cbn [app] in Eq.
    destruct Dec as [[fuel ->]|NS].
    + cbn [gstep] in E1. rewrite Eq in E1. destruct (h_encode_message fuel (IRef m) (hp s)) as [h r'] eqn:Eh. injection E1 as E1.
      assert (J' := J). apply (gone sys m tr s1 s' G1) in J; [|lia|subst s1; cbn; exact F2|exact E].
      subst s1. cbn in J. apply in_app_or in J as [J|[J|[]]]; [left; exact J|]. injection J as -> ->. right. split; [reflexivity|].
      exists [], fuel, tr, s. split; [reflexivity|]. split; [reflexivity|]. split; [apply kept_refl|]. split; [exact I|]. rewrite Eh. reflexivity.
    + destruct (step_keep sys P U s l s1 I V) as (I1 & K1 & M1); [intros p q fuel _ X; exfalso; eapply NS; exact X|exact W1|exact E1|].
      destruct M1 as [fuel m' dst' r' X|q ev X1 X2 X3 X4 _]; [exfalso; eapply NS; exact X|].
      destruct (IH s1 s' G1 I1 (objs_kept _ _ _ _ K1 V)) with (r := r) (d := d) as [A|(A & tr1 & fuel & tr2 & sa & B1 & B2 & B3 & B4)]; try assumption; [|lia| |].
      * exists [], (q2 ++ q). split; [cbn [app]; rewrite X1, Eq; reflexivity|]. split; [constructor|]. split; [|split; [intros p []|]].
        { apply Forall_app. split; [eapply Forall_impl; [|exact Q2]; intros; eapply okq_kept; eassumption|]. eapply Forall_impl; [|exact X2]. intros. eapply okq_new; [apply I|exact V|eassumption]. }
        { intros p Jp. apply in_app_or in Jp as [Jp|Jp]; [apply F2; exact Jp|]. rewrite Forall_forall in X2. destruct (X2 p Jp) as [X|(n & X & Ln & _)]; rewrite X; [discriminate|]. intros Z. injection Z as ->. lia. }
      * left. rewrite X3 in A. apply in_app_or in A as [A|A]; [exact A|]. exfalso. eapply no_sent; eassumption.
      * right. split; [exact A|]. exists (l :: tr1), fuel, tr2, sa. split; [rewrite B1; reflexivity|]. split; [cbn [gsteps]; rewrite E1; exact B2|]. split; [eapply kept_trans; eassumption|exact B4].
  - destruct (step_keep sys P U s l s1 I V) as (I1 & K1 & M1); [intros p' q fuel X _; rewrite Eq in X; injection X as <- <-; inversion Q1; assumption|exact W1|exact E1|].
    assert (P1 : pending P U m dst s1).
    { destruct M1 as [fuel m' dst' r' _ X _|q ev X1 X2 _ _].
      - rewrite Eq in X. cbn [app] in X. injection X as -> X. exists q1, q2. inversion Q1; subst. split; [symmetry; exact X|].
        split; [eapply Forall_impl; [|eassumption]; intros; eapply okq_kept; eassumption|]. split; [eapply Forall_impl; [|exact Q2]; intros; eapply okq_kept; eassumption|].
        split; [intros p Jp; apply F1; right; exact Jp|exact F2].
      - exists (p :: q1), (q2 ++ q). split; [rewrite X1, Eq, <- app_assoc; reflexivity|]. split; [eapply Forall_impl; [|exact Q1]; intros; eapply okq_kept; eassumption|].
        split; [apply Forall_app; split; [eapply Forall_impl; [|exact Q2]; intros; eapply okq_kept; eassumption|]; eapply Forall_impl; [|exact X2]; intros; eapply okq_new; [apply I|exact V|eassumption]|].
        split; [exact F1|]. intros p' Jp. apply in_app_or in Jp as [Jp|Jp]; [apply F2; exact Jp|]. rewrite Forall_forall in X2. destruct (X2 p' Jp) as [X|(n & X & Ln & _)]; rewrite X; [discriminate|]. intros Z. injection Z as ->. lia. }
    destruct (IH s1 s' G1 I1 (objs_kept _ _ _ _ K1 V) P1) with (r := r) (d := d) as [A|(A & tr1 & fuel & tr2 & sa & B1 & B2 & B3 & B4)]; try assumption; [lia| |].
    + left. destruct M1 as [fuel m' dst' r' _ X X3|q ev _ _ X3 X4]; rewrite X3 in A; apply in_app_or in A as [A|A]; try exact A.
      * destruct A as [A|[]]. injection A as -> _ _. exfalso. rewrite Eq in X. cbn [app] in X. injection X as -> _. eapply F1; [left; reflexivity|reflexivity].
      * exfalso. eapply no_sent; eassumption.
    + right. split; [exact A|]. exists (l :: tr1), fuel, tr2, sa. split; [rewrite B1; reflexivity|]. split; [cbn [gsteps]; rewrite E1; exact B2|]. split; [eapply kept_trans; eassumption|exact B4].
Qed.
