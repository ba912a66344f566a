(** Method calls on objects do what they do on values. *)
From Coq Require Import ZArith List Bool Lia.
From Verif Require Import PyBase Classes Values Codec Manager Heap SpecHeap SpecRefine.
From Verif Require Import ProofsHeap ProofsHeapKeep ProofsHeapMake ProofsHeapValue ProofsHeapRun ProofsRefine.
Import ListNotations.
Open Scope Z_scope.

(** ** What growing of the heap, and sending, leave as it is *)
Definition grown (h h' : heap) : Prop := forall l c, nth_error h l = Some c -> exists c', nth_error h' l = Some c' /\ alike c c'.
Lemma grown_ext h t : grown h (h ++ t). Proof. intros l c N. exists c. split; [apply nth_ext; exact N|left; reflexivity]. Qed.
Lemma grown_refl h : grown h h. Proof. intros l c N. exists c. split; [exact N|left; reflexivity]. Qed.
Lemma grown_now h h' i v : grown h h' -> now h i v -> now h' i v. Proof. intros G. apply (proj1 (now_alike h h' G)). Qed.
Lemma grown_attr h h' i a x : grown h h' -> a <> Avalue -> attr_of h i a = Ok x -> attr_of h' i a = Ok x.
Proof.
  intros G Na. unfold attr_of. destruct i; try discriminate. destruct (nth_error h l) as [c|] eqn:N; [|discriminate]. destruct (G _ _ N) as (c' & N' & [->|(k & d & d' & -> & -> & _ & F)]); rewrite N'.
  - auto.
  - rewrite (F a Na). auto.
Qed.
Lemma grown_key f h h' k z : grown h h' -> key_num f h k = Ok z -> key_num f h' k = Ok z.
Proof.
  intros G. destruct k; try (cbn; exact (fun X => X)). unfold key_num, is_a, class_at, attr_of. destruct (nth_error h l) as [c|] eqn:N; [|discriminate].
  destruct (G _ _ N) as (c' & N' & [->|(k & d & d' & -> & -> & K & F)]); rewrite N'; [exact (fun X => X)|].
  destruct (issubclass k CInteger) eqn:S; [|exact (fun X => X)]. exfalso. destruct k; try discriminate S; discriminate K.
Qed.
Lemma grown_message h h' i om : grown h h' -> same_message h i om -> same_message h' i om.
Proof. intros G. destruct om; cbn; [|auto]. intros [A B]. split; [eapply grown_now; eassumption|exact B]. Qed.
Lemma grown_queued h h' p q : grown h h' -> same_queued h p q -> same_queued h' p q.
Proof. intros G [A B]. split; [eapply grown_message; eassumption|exact B]. Qed.
Lemma grown_entry f h h' e p : grown h h' -> same_entry f h e p -> same_entry f h' e p.
Proof. intros G (A & B & C). split; [exact A|]. split; [exact B|]. eapply grown_key; eassumption. Qed.
Lemma grown_frame f h h' g fr : grown h h' -> same_frame f h g fr -> same_frame f h' g fr.
Proof.
  intros G. destruct g, fr; cbn [same_frame]; auto. intros K. destruct (attr_of h m Adata) as [d|] eqn:A; cbn [bind] in K; [|discriminate K]. destruct (attr_of h d ArequestID) as [r|] eqn:B; cbn [bind] in K; [|discriminate K].
  rewrite (grown_attr h h' m Adata d G ltac:(discriminate) A). cbn [bind]. rewrite (grown_attr h h' d ArequestID r G ltac:(discriminate) B). cbn [bind]. eapply grown_key; eassumption.
Qed.
Lemma grown_event h h' g e : grown h h' -> same_event h g e -> same_event h' g e.
Proof. intros G. destruct g, e; cbn; auto; intros [A B]; (split; [|exact B]); try (eapply grown_message; eassumption); destruct A as [A1 A2]; (split; [eapply grown_now; eassumption|exact A2]). Qed.
Lemma F2_grown {A B} (R : heap -> A -> B -> Prop) h h' l l' : (forall a b, R h a b -> R h' a b) -> Forall2 (R h) l l' -> Forall2 (R h') l l'.
Proof. intros I F. induction F; constructor; auto. Qed.

(** ** The manager's part of the state *)
Definition mrel (f : flavour) (s : hstate) (m : mgr) : Prop :=
  h_next s = nextRequestID m /\ Forall2 (same_entry f (hp s)) (h_cbs s) (callbacks m) /\ Forall2 (same_queued (hp s)) (h_out s) (outbound m).
Definition put_events (q : list (item * address)) : list gevent := map (fun p => GQueued (fst p) (snd p)) q.
Definition gsim {A B} (f : flavour) (R : heap -> A -> B -> Prop) (s : hstate) (m : mgr) (x : hstate * res A) (y : mgr * res B) : Prop :=
  exists t qg qm, hp (fst x) = hp s ++ t /\ mrel f (fst x) (fst y) /\ h_out (fst x) = h_out s ++ qg /\ outbound (fst y) = outbound m ++ qm /\
    h_log (fst x) = h_log s ++ put_events qg /\ h_stack (fst x) = h_stack s /\ known (fst x) = known s /\
    match snd y with Ok b => exists a, snd x = Ok a /\ R (hp (fst x)) a b | Err e => snd x = Err e end.
Lemma gsim_bind {A B C E} f (R : heap -> A -> B -> Prop) (Q : heap -> C -> E -> Prop) s m (x : G A) (g : A -> G C) (y : M B) (k : B -> M E) :
  gsim f R s m (x s) (y m) -> (forall s' m' a b, mrel f s' m' -> (exists t, hp s' = hp s ++ t) -> R (hp s') a b -> gsim f Q s' m' (g a s') (k b m')) -> gsim f Q s m (gbind x g s) (mbind y k m).
Proof.
  intros (t & qg & qm & E1 & E2 & E3 & E4 & E5 & E6 & E7 & X) F. unfold gbind, mbind. destruct (x s) as [s1 r1], (y m) as [m1 r2]; cbn [fst snd] in *. destruct r2 as [b|e].
  - destruct X as (a & -> & Ra). destruct (F s1 m1 a b E2 (ex_intro _ t E1) Ra) as (t' & qg' & qm' & F1 & F2 & F3 & F4 & F5 & F6 & F7 & X').
    exists (t ++ t'), (qg ++ qg'), (qm ++ qm'). rewrite F1, E1, F3, E3, F4, E4, F5, E5, F6, F7. unfold put_events. rewrite map_app, !app_assoc. repeat (split; [first [reflexivity|assumption]|]). rewrite F1, E1 in X'. exact X'.
  - subst r1. exists t, qg, qm. repeat (split; [assumption|]). reflexivity.
Qed.
Lemma gsim_ret {A B} f (R : heap -> A -> B -> Prop) s m (a : A) (b : B) : mrel f s m -> R (hp s) a b -> gsim f R s m (gret a s) (ret b m).
Proof. intros I X. exists [], [], []. cbn. rewrite !app_nil_r. repeat (split; [first [reflexivity|assumption]|]). exists a. split; [reflexivity|exact X]. Qed.
Lemma gsim_err {A B} f (R : heap -> A -> B -> Prop) s m e : mrel f s m -> gsim f R s m (@gerr A e s) (lift (@Err B e) m).
Proof. intros I. exists [], [], []. cbn. rewrite !app_nil_r. repeat (split; [first [reflexivity|assumption]|]). reflexivity. Qed.
Lemma mrel_ext f s m h : mrel f s m -> (exists t, h = hp s ++ t) -> mrel f (with_heap h s) m.
Proof.
  intros (A & B & C) (t & ->). repeat split; [exact A| |]; cbn; (eapply F2_grown; [|eassumption]); intros; [eapply grown_entry|eapply grown_queued]; try eassumption; apply grown_ext.
Qed.
Lemma gsim_heap {A B} f (R : heap -> A -> B -> Prop) s m (x : H A) (y : res B) : mrel f s m -> hsim R (hp s) (x (hp s)) y -> gsim f R s m (on_heap x s) (lift y m).
Proof.
  intros I (t & E & X). unfold on_heap, lift. destruct (x (hp s)) as [h r]; cbn [fst snd] in *. subst h. exists t, [], []. cbn. rewrite !app_nil_r.
  repeat (split; [first [reflexivity|apply (mrel_ext f s m (hp s ++ t)); eauto]|]). exact X.
Qed.

(** ** Building messages *)
Definition msg_now (P : heap -> item -> val -> Prop) (h : heap) (i : item) (msg : message) : Prop :=
  same_message h i (Some msg) /\ exists d, attr_of h i Adata = Ok d /\ P h d (m_data msg).
Definition mono (P : heap -> item -> val -> Prop) : Prop := forall h t i v, P h i v -> P (h ++ t) i v.
Lemma now_mono : mono now. Proof. intros h t i v. apply now_ext. Qed.
Lemma pdu_mono : mono pdu_now.
Proof.
  intros h t i v (A & B & c & r & k & z & rest & E & F & G). split; [apply now_ext; exact A|]. split; [exact B|]. exists c, r, k, z, rest. split; [exact E|]. split; [apply attr_ext; exact F|apply now_ext; exact G].
Qed.
Lemma s_message (P : heap -> item -> val -> Prop) h c n com cv d dv : mono P -> (forall h i v, P h i v -> now h i v) -> kind_of c = KMsg -> now h com cv -> P h d dv ->
  hsim (msg_now P) h (h_message c n com d h) (message_init c (VPyInt n) cv dv).
Proof.
  intros Mo Pn K X Y. unfold h_message, message_init. apply hsim_skip with (P := fun _ _ => True); [apply hsim_new; exact Logic.I|]. intros t0 l _.
  eapply hsim_bind; [apply s_int; reflexivity|]. intros t1 v vv Rv.
  eapply hsim_skip with (P := fun h a => now h a (octetstring_init COctetString cv)).
  - destruct (s_octetstring ((h ++ t0) ++ t1) COctetString com cv eq_refl) as (t & E & a & Ea & Na); [repeat apply now_ext; exact X|]. exists t. split; [exact E|]. exists a. auto.
  - intros t2 co Rc. apply hsim_new. split; [split|].
    + cbn. eapply st_msg; [trivial|apply nth_new|exact K|reflexivity|reflexivity|reflexivity|]. apply all_now_ext. repeat constructor; [apply now_ext; exact Rv|exact Rc|]. repeat apply now_ext. apply Pn. exact Y.
    + exact K.
    + exists d. split; [eapply attr_at; [apply nth_new|reflexivity]|]. cbn. repeat apply Mo. exact Y.
Qed.
Lemma g_msg1 (P : heap -> item -> val -> Prop) f s m com cv d dv : mono P -> (forall h i v, P h i v -> now h i v) -> mrel f s m -> now (hp s) com cv -> P (hp s) d dv -> gsim f (msg_now P) s m (g_message1 com d s) (message_v1 cv dv m).
Proof. intros Mo Pn I X Y. apply gsim_heap; [exact I|]. apply s_message; auto. Qed.
Lemma g_msg2 (P : heap -> item -> val -> Prop) f s m com cv d dv : mono P -> (forall h i v, P h i v -> now h i v) -> mrel f s m -> now (hp s) com cv -> P (hp s) d dv -> gsim f (msg_now P) s m (g_message2 com d s) (message_v2 cv dv m).
Proof. intros Mo Pn I X Y. apply gsim_heap; [exact I|]. apply s_message; auto. Qed.
Lemma pn_now h i v : pdu_now h i v -> now h i v. Proof. intros [A _]. exact A. Qed.
Lemma g_assign_sim f s m : mrel f s m -> gsim f (fun _ i z => i = IInt z) s m (g_assign s) (assignRequestID m).
Proof.
  intros (A & B & C). exists [], [], []. cbn. rewrite !app_nil_r. repeat (split; [first [reflexivity|repeat split; cbn; [lia|exact B|exact C]]|]). exists (IInt (h_next s)). rewrite A. split; reflexivity.
Qed.
Lemma g_pdu_sim f s m c vbl v : defaults_ok (hp s) -> kind_of c = KSeq -> mrel f s m -> arg (hp s) vbl v -> gsim f pdu_now s m (g_pdu c vbl s) (request_pdu c v m).
Proof.
  intros D K I A. unfold g_pdu, request_pdu. eapply gsim_bind; [apply g_assign_sim; exact I|]. intros s' m' i z I' (t & Et) ->. apply gsim_heap; [exact I'|].
  apply s_pdu; [rewrite Et; apply defaults_ext; exact D|exact K|constructor|rewrite Et; apply arg_ext; exact A].
Qed.
Lemma g_pduv_sim f s m c1 c2 vbl v ver : defaults_ok (hp s) -> kind_of c1 = KSeq -> kind_of c2 = KSeq -> mrel f s m -> arg (hp s) vbl v ->
  gsim f pdu_now s m (g_pdu_version c1 c2 vbl ver s) (request_pdu_version c1 c2 v ver m).
Proof.
  intros D K1 K2 I A. unfold g_pdu_version, request_pdu_version. eapply gsim_bind; [apply g_assign_sim; exact I|]. intros s' m' i z I' (t & Et) ->.
  destruct (ver =? 1); [|destruct (ver =? 2); [|apply gsim_err; exact I']]; (apply gsim_heap; [exact I'|]; apply s_pdu; [rewrite Et; apply defaults_ext; exact D|assumption|constructor|rewrite Et; apply arg_ext; exact A]).
Qed.
Definition seq_now (h : heap) (i : item) (v : val) : Prop := arg h i v.
Lemma seqof_plain c k v w : kind_of c = KSeq -> sequenceof_init c k v = Ok w -> plain w.
Proof. unfold sequenceof_init. intros K. destruct (truthy v); [|intros [= <-]; exact K]. destruct (py_iter v); [|discriminate]. cbn. destruct (sequenceof_appends k [] a); [|discriminate]. intros [= <-]. exact K. Qed.
Lemma s_list_of h (two : bool) is vs : all_now h is vs -> hsim arg h (h_list_of two is h) (if two then varbindlist_v2_init (VPyList vs) else varbindlist_init (VPyList vs)).
Proof.
  intros X. unfold h_list_of. apply hsim_skip with (P := fun h a => arg h a (VPyList vs)).
  - apply hsim_new. split; [apply now_new_list; exact X|exact Logic.I].
  - intros t a A. destruct two.
    + apply hsim_weaken with (R := fun h a b => now h a b /\ varbindlist_v2_init (VPyList vs) = Ok b); [apply hsim_eq, s_varbindlist2; exact A|]. intros t' a' b [N E]. split; [exact N|].
      unfold varbindlist_v2_init in E. cbn [py_len bind] in E. destruct (_ <? _); [discriminate|]. eapply seqof_plain; [|exact E]. reflexivity.
    + apply hsim_weaken with (R := fun h a b => now h a b /\ varbindlist_init (VPyList vs) = Ok b); [apply hsim_eq, s_varbindlist; exact A|]. intros t' a' b [N E]. split; [exact N|]. eapply seqof_plain; [|exact E]. reflexivity.
Qed.
Lemma oid_init_plain v w : oid_init v = Ok w -> plain w. Proof. intros E. destruct (oid_plain _ _ E) as (zs & ->). exact Logic.I. Qed.
Lemma s_null_binding h c oid ov : kind_of c = KSeq -> now h oid ov -> int_list ov -> hsim now h (h_null_binding c oid h) (null_binding c ov).
Proof.
  intros K X L. unfold h_null_binding, null_binding. eapply hsim_bind; [apply hsim_eq, s_objectid; eassumption|]. intros t o v [Ro Eo].
  apply hsim_skip with (P := fun h a => arg h a (VNull CNull)).
  - unfold h_null. apply hsim_new. split; [eapply st_null; [trivial|apply nth_new|reflexivity]|exact Logic.I].
  - intros t' n An. apply s_varbind; [exact K| |exact An]. apply arg_ext. split; [exact Ro|]. eapply oid_init_plain. exact Eo.
Qed.
Lemma s_null_bindings c : kind_of c = KSeq -> forall is vs h, all_now h is vs -> Forall int_list vs -> hsim all_now h (hmapM (h_null_binding c) is h) (mapM (null_binding c) vs).
Proof.
  intros K. induction is as [|i is IH]; intros vs h X L; inversion X; subst; cbn [hmapM mapM].
  - apply hsim_ret. constructor.
  - inversion L; subst. eapply hsim_bind; [apply s_null_binding; eassumption|]. intros t y yv Ry. eapply hsim_bind; [apply IH; [apply all_now_ext|]; eassumption|].
    intros t' ys ysv Rys. apply hsim_ret. constructor; [apply now_ext; exact Ry|exact Rys].
Qed.
Lemma one h i v : now h i v -> all_now h [i] [v]. Proof. repeat constructor. assumption. Qed.
Lemma s_one_binding h c (two : bool) oid ov : kind_of c = KSeq -> now h oid ov -> int_list ov ->
  hsim arg h ((vb <== h_null_binding c oid ;; h_list_of two [vb]) h) (vb <- null_binding c ov ;; if two then varbindlist_v2_init (VPyList [vb]) else varbindlist_init (VPyList [vb])).
Proof. intros K X L. eapply hsim_bind; [apply s_null_binding; eassumption|]. intros t vb v R. apply s_list_of, one. exact R. Qed.
Lemma g_get_sim f s m oid ov com cv ver : defaults_ok (hp s) -> mrel f s m -> arg (hp s) oid ov -> oids_arg f ov -> now (hp s) com cv ->
  gsim f (msg_now pdu_now) s m (g_create_get f oid com ver s) (createGetRequestMessage f ov cv ver m).
Proof.
  intros D I [X P] O C. assert (Fin1 : forall s' m' d dv, mrel f s' m' -> (exists t, hp s' = hp s ++ t) -> pdu_now (hp s') d dv -> gsim f (msg_now pdu_now) s' m' (g_message1 com d s') (message_v1 cv dv m')).
  { intros s' m' d dv I' (t & Et) Pd. apply g_msg1; auto using pdu_mono, pn_now. rewrite Et. apply now_ext. exact C. }
  assert (Fin2 : forall s' m' d dv, mrel f s' m' -> (exists t, hp s' = hp s ++ t) -> pdu_now (hp s') d dv -> gsim f (msg_now pdu_now) s' m' (g_message2 com d s') (message_v2 cv dv m')).
  { intros s' m' d dv I' (t & Et) Pd. apply g_msg2; auto using pdu_mono, pn_now. rewrite Et. apply now_ext. exact C. }
  assert (Tr : forall s1 s2, (exists t, hp s1 = hp s ++ t) -> (exists t, hp s2 = hp s1 ++ t) -> exists t, hp s2 = hp s ++ t).
  { intros s1 s2 (t & E1) (t' & E2). exists (t ++ t'). rewrite E2, E1, app_assoc. reflexivity. }
  destruct f; cbn [g_create_get createGetRequestMessage].
  - eapply gsim_bind; [apply gsim_heap; [exact I|]; apply (s_one_binding (hp s) CVarBind false); [reflexivity|exact X|exact O]|]. intros s1 m1 vbl v I1 T1 A1.
    eapply gsim_bind; [apply g_pdu_sim; [destruct T1 as (t & ->); apply defaults_ext; exact D|reflexivity|exact I1|exact A1]|]. intros s2 m2 d dv I2 T2 P2. apply Fin1; eauto.
  - eapply gsim_bind; [apply gsim_heap with (R := arg); [exact I|]|].
    + eapply hsim_bind with (R := fun h is vs => all_now h is vs /\ Forall int_list vs).
      * apply hsim_rd. pose proof (elems_sim _ _ _ (conj X P)) as Es. destruct (py_iter ov) as [vs|] eqn:Ev; [|exact Es]. destruct Es as (is & E1 & E2). exists is. split; [exact E1|]. split; [exact E2|]. apply O. exact Ev.
      * intros t is vs [Xs Ls]. eapply hsim_bind; [apply s_null_bindings; [reflexivity|exact Xs|exact Ls]|]. intros t' vbs vals R. apply (s_list_of _ true). exact R.
    + intros s1 m1 vbl v I1 T1 A1. eapply gsim_bind; [apply g_pdu_sim; [destruct T1 as (t & ->); apply defaults_ext; exact D|reflexivity|exact I1|exact A1]|]. intros s2 m2 d dv I2 T2 P2. apply Fin2; eauto.
  - destruct (ver =? 1); [|destruct (ver =? 2); [|apply gsim_err; exact I]].
    + eapply gsim_bind; [apply gsim_heap; [exact I|]; apply (s_one_binding (hp s) CVarBind false); [reflexivity|exact X|exact O]|]. intros s1 m1 vbl v I1 T1 A1.
      eapply gsim_bind; [apply g_pduv_sim; [destruct T1 as (t & ->); apply defaults_ext; exact D|reflexivity|reflexivity|exact I1|exact A1]|]. intros s2 m2 d dv I2 T2 P2. apply Fin1; eauto.
    + eapply gsim_bind; [apply gsim_heap; [exact I|]; apply (s_one_binding (hp s) CVarBind_v2 true); [reflexivity|exact X|exact O]|]. intros s1 m1 vbl v I1 T1 A1.
      eapply gsim_bind; [apply g_pduv_sim; [destruct T1 as (t & ->); apply defaults_ext; exact D|reflexivity|reflexivity|exact I1|exact A1]|]. intros s2 m2 d dv I2 T2 P2. apply Fin2; eauto.
Qed.
Lemma g_getnext_sim f s m vbl v com cv ver : defaults_ok (hp s) -> mrel f s m -> arg (hp s) vbl v -> now (hp s) com cv ->
  gsim f (msg_now pdu_now) s m (g_create_getnext f vbl com ver s) (createGetNextRequestMessage f v cv ver m).
Proof.
  intros D I A C. destruct f; cbn [g_create_getnext createGetNextRequestMessage createGetNextRequestPDU].
  - eapply gsim_bind; [apply g_pdu_sim; [exact D|reflexivity|exact I|exact A]|]. intros s2 m2 d dv I2 (t & Et) P2. apply g_msg1; auto using pdu_mono, pn_now. rewrite Et. apply now_ext. exact C.
  - apply gsim_err. exact I.
  - eapply gsim_bind; [apply g_pduv_sim; [exact D|reflexivity|reflexivity|exact I|exact A]|]. intros s2 m2 d dv I2 (t & Et) P2.
    destruct (ver =? 1); [apply g_msg1|apply g_msg2]; auto using pdu_mono, pn_now; rewrite Et; apply now_ext; exact C.
Qed.
Lemma s_typed h ty i v : defaults_ok h -> arg h i v -> int_list v -> hsim arg h (h_typed ty i h) (typed_value ty v).
Proof.
  intros D A L. unfold h_typed, typed_value. destruct (reg_get reg1905 ty) as [c|] eqn:Er; [|apply hsim_err].
  assert (W : forall x y, hsim now h x y -> (forall w, y = Ok w -> plain w) -> hsim arg h x y).
  { intros x y S Pl. apply hsim_weaken with (R := fun h a b => now h a b /\ y = Ok b); [apply hsim_eq; exact S|]. intros t a b [N E]. split; [exact N|apply Pl; exact E]. }
  assert (PN : forall x y, hsim pdu_now h x y -> hsim arg h x y).
  { intros x y S. eapply hsim_weaken; [exact S|]. intros t a b (N & Pl & _). split; assumption. }
  assert (Dk : forall k, (k < 5)%nat -> arg h (IRef k) (VPyList [])) by (intros; apply now_default; assumption).
  destruct A as [X P].
  destruct c; cbn [h_construct construct];
    try apply hsim_err;
    try (apply W; [apply s_integer; [reflexivity|exact X]|intros w Ew; destruct (int_shape _ _ _ Ew) as (z & ->); exact Logic.I]);
    try (apply W; [apply s_octetstring; [reflexivity|exact X]|intros w [= <-]; exact Logic.I]);
    try (apply W; [apply s_objectid; [exact X|exact L]|intros w Ew; eapply oid_init_plain; exact Ew]);
    try (apply PN; apply s_pdu; [exact D|reflexivity|exact X|apply Dk; cbn; lia]);
    try (apply PN; apply s_bulk; [reflexivity|exact X|apply Dk; cbn; lia]).
  - apply W; [apply s_sequence; split; assumption|]. intros w. cbn. destruct v; try discriminate; intros [= <-]; reflexivity.
  - apply W; [apply s_ipaddress; [reflexivity|exact X]|]. intros w. unfold ipaddress_init. destruct v; try (intros [= <-]; exact Logic.I).
    + cbv zeta. destruct (negb _); [discriminate|]. destruct (mapM _ _); [|discriminate]. intros [= <-]. exact Logic.I.
    + destruct (negb _); [discriminate|]. intros [= <-]. exact Logic.I.
  - apply W; [apply s_trappdu; try exact X; constructor|]. intros w [= <-]. reflexivity.
Qed.
Lemma g_set_sim s m oid ov ty i v com cv ver : defaults_ok (hp s) -> mrel FSM s m -> arg (hp s) oid ov -> int_list ov -> arg (hp s) i v -> int_list v -> now (hp s) com cv ->
  gsim FSM (msg_now pdu_now) s m (g_create_set oid ty i com ver s) (createSetRequestMessage ov ty v cv ver m).
Proof.
  intros D I [X P] O A L C.
  assert (B : forall c (two : bool), kind_of c = KSeq -> hsim arg (hp s) ((o <== h_objectid oid ;; w <== h_typed ty i ;; vb <== h_varbind c o w ;; h_list_of two [vb]) (hp s))
    (objID <- oid_init ov ;; val <- typed_value ty v ;; vb <- varbind_init c objID val ;; if two then varbindlist_v2_init (VPyList [vb]) else varbindlist_init (VPyList [vb]))).
  { intros c two K. eapply hsim_bind; [apply hsim_eq, s_objectid; eassumption|]. intros t o o' [Ro Eo]. eapply hsim_bind; [apply s_typed; [apply defaults_ext; exact D|apply arg_ext; exact A|exact L]|]. intros t' w w' Rw.
    eapply hsim_bind; [apply s_varbind; [exact K| |exact Rw]|].
    - apply arg_ext. split; [exact Ro|eapply oid_init_plain; exact Eo].
    - intros t2 vb vbv Rvb. apply s_list_of, one. exact Rvb. }
  unfold g_create_set, createSetRequestMessage. destruct (ver =? 1); [|destruct (ver =? 2); [|apply gsim_err; exact I]].
  - eapply gsim_bind; [apply gsim_heap; [exact I|apply (B CVarBind false); reflexivity]|]. intros s1 m1 vbl w I1 (t1 & E1) A1.
    eapply gsim_bind; [apply g_pduv_sim; [rewrite E1; apply defaults_ext; exact D|reflexivity|reflexivity|exact I1|exact A1]|]. intros s2 m2 d dv I2 (t & Et) P2. apply g_msg1; auto using pdu_mono, pn_now. rewrite Et, E1. repeat apply now_ext. exact C.
  - eapply gsim_bind; [apply gsim_heap; [exact I|apply (B CVarBind_v2 true); reflexivity]|]. intros s1 m1 vbl w I1 (t1 & E1) A1.
    eapply gsim_bind; [apply g_pduv_sim; [rewrite E1; apply defaults_ext; exact D|reflexivity|reflexivity|exact I1|exact A1]|]. intros s2 m2 d dv I2 (t & Et) P2. apply g_msg2; auto using pdu_mono, pn_now. rewrite Et, E1. repeat apply now_ext. exact C.
Qed.
