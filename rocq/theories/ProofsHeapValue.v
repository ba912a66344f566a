(** * The value of the messages the methods make *)
From Coq Require Import ZArith List Bool Lia.
From Verif Require Import PyBase Classes Values Codec Manager Heap SpecHeap ProofsHeap ProofsHeapKeep ProofsHeapCall ProofsHeapRun ProofsHeapMake.
Import ListNotations.
Open Scope Z_scope.

(** ** In the value model *)
Lemma appends_ok k items : forall acc l, sequenceof_appends k acc items = Ok l -> l = acc ++ items /\ Forall (fun v => isinstance v k = true) items.
Proof.
  induction items as [|x r IH]; intros acc l E; cbn [sequenceof_appends] in E; [injection E as <-; rewrite app_nil_r; auto|].
  unfold sequenceof_append in E. destruct (isinstance x k) eqn:I; cbn [negb bind] in E; [|discriminate]. apply IH in E as [-> F]. rewrite <- app_assoc. auto.
Qed.
Lemma seqof_ok c k vbl vs v : py_iter vbl = Ok vs -> truthy vbl = (match vs with [] => false | _ => true end) -> sequenceof_init c k vbl = Ok v -> v = VSeq c vs /\ Forall (fun v => isinstance v k = true) vs.
Proof.
  intros P T. unfold sequenceof_init. rewrite T, P. destruct vs; [intros E; injection E as <-; auto|]. cbn [bind].
  destruct (sequenceof_appends k [] (v0 :: vs)) as [l|] eqn:A; cbn [bind]; [|discriminate]. intros E. injection E as <-. apply appends_ok in A as [-> F]. auto.
Qed.
Definition vlists (vbl : val) (vs : list val) : Prop := py_iter vbl = Ok vs /\ truthy vbl = (match vs with [] => false | _ => true end) /\ py_len vbl = Ok (zlen vs).
Lemma vlists_seq c vs : vlists (VSeq c vs) vs. Proof. repeat split. Qed.
Lemma vlists_list vs : vlists (VPyList vs) vs. Proof. repeat split. Qed.
Lemma int_init_ok c z v : integer_init c (VPyInt z) = Ok v -> v = VInt c z /\ MINVAL c <= z <= MAXVAL c.
Proof. unfold integer_init. destruct (Z.leb_spec (MINVAL c) z), (Z.leb_spec z (MAXVAL c)); cbn; try discriminate. intros E. injection E as <-. split; [reflexivity|lia]. Qed.
Lemma pdu_init_ok c z vbl vs p : vlists vbl vs -> pdu_init c (VPyInt z) (VPyInt 0) (VPyInt 0) vbl = Ok p ->
  p = pdu_val c z vs /\ id_range c z /\ (issubclass c CPDU_v2 = true -> zlen vs <= max_bindings) /\ Forall (fun v => isinstance v CVarBind = true) vs.
Proof.
  intros (V1 & V2 & V3). unfold pdu_init, pdu_val, id_range. destruct (issubclass c CPDU_v2).
  - unfold pdu_v2_init. cbn [gt_max_bindings bind]. replace (max_bindings <? 0) with false by reflexivity.
    destruct (integer_init CInteger32 (VPyInt z)) as [r|] eqn:R; cbn [bind]; [|discriminate]. apply int_init_ok in R as [-> R]. replace (integer_init CErrorStatus_v2 (VPyInt 0)) with (@Ok val (VInt CErrorStatus_v2 0)) by reflexivity.
    replace (integer_init CInteger (VPyInt 0)) with (@Ok val (VInt CInteger 0)) by reflexivity. cbn [bind]. unfold varbindlist_v2_init. rewrite V3. cbn [bind]. destruct (Z.ltb_spec max_bindings (zlen vs)); [discriminate|].
    destruct (sequenceof_init CVarBindList_v2 CVarBind vbl) as [w|] eqn:E; cbn [bind]; [|discriminate]. apply (seqof_ok _ _ _ _ _ V1 V2) in E as [-> F]. intros E. injection E as <-. auto.
  - unfold pdu_v1_init. destruct (integer_init CInteger (VPyInt z)) as [r|] eqn:R; cbn [bind]; [|discriminate]. apply int_init_ok in R as [-> R]. replace (integer_init CErrorStatus (VPyInt 0)) with (@Ok val (VInt CErrorStatus 0)) by reflexivity.
    replace (integer_init CInteger (VPyInt 0)) with (@Ok val (VInt CInteger 0)) by reflexivity. cbn [bind]. unfold varbindlist_init.
    destruct (sequenceof_init CVarBindList CVarBind vbl) as [w|] eqn:E; cbn [bind]; [|discriminate]. apply (seqof_ok _ _ _ _ _ V1 V2) in E as [-> F]. intros E. injection E as <-. repeat split; auto; try lia; try discriminate.
Qed.

(** ** In the heap model *)
Definition msg_val (k : cls) (n : Z) (com : str) (c : cls) (id : Z) (vs : list val) : val := VSeq k [VInt CInteger n; VOct COctetString (VPyStr com); pdu_val c id vs].
Section G.
Context (n0 : nat) (W : loc -> val -> Prop).
Let S0 := fun l : loc => (n0 <= l)%nat.
Definition msg_class (k : cls) (n : Z) : Prop := k = CMessage /\ n = 0 \/ k = CMessage_v2 /\ n = 1.
(** PDU, then message *)
Lemma made_request (x : G item) s c vbl is vs k n com : (n0 <= length (hp s))%nat -> defaults_ok (hp s) -> kind_of c = KSeq -> id_range c (h_next s) ->
  (issubclass c CPDU_v2 = true -> zlen is <= max_bindings) -> lists (hp s) vbl is -> stand_all S0 W (hp s) is vs -> msg_class k n ->
  x s = gbind (g_pdu c vbl) (fun pdu => on_heap (h_message k n (IStr com) pdu)) s ->
  exists s1 m, x s = (s1, Ok m) /\ stands S0 W (hp s1) m (msg_val k n com c (h_next s) vs).
Proof.
  intros L D K R Mx Ls X C ->. unfold g_pdu, gbind, g_assign, on_heap. cbn [hp known h_next h_out h_cbs h_stack h_log].
  destruct (made_pdu n0 W (hp s) c (h_next s) vbl is vs L D K R Mx Ls X) as (t & d & -> & Y). cbn [hp known h_next h_out h_cbs h_stack h_log].
  destruct (made_message n0 W (hp s ++ t) k n com d (pdu_val c (h_next s) vs)) as (t1 & m & -> & Z); [rewrite app_length; lia|exact C|exact Y|]. eexists _, m. split; [reflexivity|]. exact Z.
Qed.
Lemma check_all_stands S h is vs k : stand_all S (fun _ _ => False) h is vs -> Forall (fun v => isinstance v k = true) vs -> check_all h k is = Ok tt.
Proof.
  intros X. apply stand_all_map in X. induction X as [|i v is vs A X IH]; intros F; [reflexivity|]. inversion F; subst. cbn [check_all]. rewrite (is_a_stands _ _ _ _ _ A). rewrite H1. cbn [negb]. auto.
Qed.
End G.
Section Get.
Context (n0 : nat).
Let S0 := fun l : loc => (n0 <= l)%nat.
Let N0 := fun (_ : loc) (_ : val) => False.
(** VarBindList([...]) of new bindings *)
Lemma made_list_of h (two : bool) is vs v : (n0 <= length h)%nat -> stand_all S0 N0 h is vs -> (if two then varbindlist_v2_init (VPyList vs) else varbindlist_init (VPyList vs)) = Ok v ->
  exists t a, h_list_of two is h = (h ++ t, Ok a) /\ stand_all S0 N0 (h ++ t) is vs /\ lists (h ++ t) a is /\ exists c, v = VSeq c vs.
Proof.
  intros L X E. unfold h_list_of. unfold hbind at 1, new at 1. cbv beta iota.
  assert (F : Forall (fun v => isinstance v CVarBind = true) vs /\ (exists c, v = VSeq c vs) /\ (two = true -> zlen vs <= max_bindings)).
  { destruct two.
    - unfold varbindlist_v2_init in E. cbn [py_len bind] in E. destruct (Z.ltb_spec max_bindings (zlen vs)); [discriminate|]. apply (seqof_ok _ _ _ vs) in E as [-> F]; [|reflexivity|reflexivity]. eauto.
    - apply (seqof_ok _ _ _ vs) in E as [-> F]; [|reflexivity|reflexivity]. repeat split; eauto. discriminate. }
  destruct F as (F & V & Mx). pose proof (check_all_stands _ _ _ _ _ X F) as C.
  assert (X' : stand_all S0 N0 (h ++ [PList is]) is vs) by (apply stand_all_ext; exact X).
  assert (Ls : lists (h ++ [PList is]) (IRef (length h)) is) by (apply lists_list; [apply new_at|eapply check_all_stands; eassumption]).
  assert (L' : (n0 <= length (h ++ [PList is]))%nat) by (rewrite app_length; lia).
  destruct two.
  - unfold h_varbindlist2, hbind at 1, rd. destruct Ls as (Ls1 & Ls2 & Ls3 & Ls4). rewrite Ls3. rewrite (stand_all_len _ _ _ _ _ X). destruct (Z.ltb_spec max_bindings (zlen vs)) as [H|_]; [specialize (Mx eq_refl); lia|].
    destruct (made_seqof n0 N0 (h ++ [PList is]) CVarBindList_v2 (IRef (length h)) is vs L' eq_refl (conj Ls1 (conj Ls2 (conj Ls3 Ls4))) X') as (t & a & -> & Y & Z).
    rewrite <- app_assoc in *. eexists _, a. split; [reflexivity|]. split; [apply stand_all_ext; exact X|]. split; [exact Z|exact V].
  - unfold h_varbindlist. destruct (made_seqof n0 N0 (h ++ [PList is]) CVarBindList (IRef (length h)) is vs L' eq_refl Ls X') as (t & a & -> & Y & Z).
    rewrite <- app_assoc in *. eexists _, a. split; [reflexivity|]. split; [apply stand_all_ext; exact X|]. split; [exact Z|exact V].
Qed.
Lemma null_binding_ok c ov vb : null_binding c ov = Ok vb -> exists o, oid_init ov = Ok o /\ vb = VSeq c [o; VNull CNull].
Proof.
  unfold null_binding. destruct (oid_init ov) as [o|] eqn:E; cbn [bind]; [|discriminate]. destruct (oid_plain _ _ E) as [zs ->]. unfold varbind_init. cbn. rewrite andb_false_r. cbn. intros X. injection X as <-. eauto.
Qed.
Lemma now_ext h t i v : now h i v -> now (h ++ t) i v. Proof. apply stands_ext. Qed.
Lemma F2_impl {A B} (P Q : A -> B -> Prop) l l' : (forall a b, P a b -> Q a b) -> Forall2 P l l' -> Forall2 Q l l'.
Proof. intros I F. induction F; constructor; auto. Qed.
Lemma made_null_bindings c : kind_of c = KSeq -> forall is vs h vbs, (n0 <= length h)%nat -> Forall2 (now h) is vs -> mapM (null_binding c) vs = Ok vbs ->
  exists t as_, hmapM (h_null_binding c) is h = (h ++ t, Ok as_) /\ stand_all S0 N0 (h ++ t) as_ vbs.
Proof.
  intros K is. induction is as [|i is IH]; intros vs h vbs L X E; inversion X; subst; cbn [mapM] in E.
  - injection E as <-. exists [], []. rewrite app_nil_r. split; [reflexivity|constructor].
  - destruct (null_binding c y) as [vb|] eqn:Eb; cbn [bind] in E; [|discriminate]. destruct (mapM (null_binding c) l') as [r|] eqn:Er; cbn [bind] in E; [|discriminate]. injection E as <-.
    apply null_binding_ok in Eb as (o & Eo & ->). destruct (made_null_binding n0 h c i y o L K H1 Eo) as (t1 & a1 & E1 & X1).
    destruct (IH l' (h ++ t1) r) as (t2 & as2 & E2 & X2); [rewrite app_length; lia|eapply F2_impl; [|exact H3]; intros; apply now_ext; assumption|exact Er|].
    cbn [hmapM]. unfold hbind. rewrite E1, E2. unfold hret. rewrite <- app_assoc in *. eexists _, _. split; [reflexivity|]. constructor; [rewrite app_assoc; apply stands_ext; exact X1|exact X2].
Qed.
Lemma elems_now h i v vs : plain v -> now h i v -> py_iter v = Ok vs -> exists is, elems h i = Ok is /\ Forall2 (now h) is vs.
Proof.
  intros P X E. inversion X; subst; try discriminate E; try contradiction; cbn [elems].
  - injection E as <-. eexists. split; [reflexivity|]. clear. induction s; cbn; constructor; auto. apply st_str.
  - injection E as <-. rewrite H0. eexists. split; [reflexivity|]. apply stand_all_map. exact H1.
  - injection E as <-. apply koid in H1 as K. subst c. rewrite H0. replace (issubclass CObjectID CObjectID) with true by reflexivity. rewrite (attr_at _ _ _ _ _ _ H0 H2). cbn [bind list_at]. rewrite H4. eexists. split; [reflexivity|].
    clear. induction zs; cbn; constructor; auto. apply st_int.
  - injection E as <-. destruct (kseq _ H1) as [K1 K2]. rewrite H0, K1, K2. rewrite (attr_at _ _ _ _ _ _ H0 H2). cbn [bind list_at]. rewrite H4. eexists. split; [reflexivity|]. apply stand_all_map. exact H5.
  - cbn in P. congruence.
Qed.
Definition mgr_at (s : hstate) : mgr := mkMgr (h_next s) [] [].
Lemma made_get f s oid ov com ver m' msg : n0 = length (hp s) -> defaults_ok (hp s) -> now (hp s) oid ov -> plain ov ->
  createGetRequestMessage f ov (VPyStr com) ver (mgr_at s) = (m', Ok msg) ->
  exists s1 m, g_create_get f oid (IStr com) ver s = (s1, Ok m) /\ stands S0 N0 (hp s1) m (message_val msg).
Proof.
  intros L0 D X Pl E.
  (* the list of bindings is made; then request_pdu and the message *)
  assert (FIN : forall (y : H item) (two : bool) (g : item -> G item) c k n vs mk_ m'' h t is vbl vblv,
    y (hp s) = (h, Ok vbl) -> h = hp s ++ t -> stand_all S0 N0 h is vs -> lists h vbl is -> vblv = VSeq mk_ vs ->
    In c [CGet; CGet_v2] -> msg_class k n ->
    (forall s, g vbl s = g_pdu c vbl s) ->
    (pdu <~ request_pdu c vblv ;; lift (message_init k (VPyInt n) (VPyStr com) pdu)) (mgr_at s) = (m'', Ok msg) ->
    exists s1 m, gbind (on_heap y) (fun vbl => gbind (g vbl) (fun pdu => on_heap (h_message k n (IStr com) pdu))) s = (s1, Ok m) /\ stands S0 N0 (hp s1) m (message_val msg)).
  { intros y two g c k n vs mk_ m'' h t is vbl vblv Ey Eh Xs Ls -> Ic C Eg Ev.
    unfold mbind, request_pdu, mbind, assignRequestID, lift in Ev. cbn [nextRequestID mgr_at] in Ev.
    destruct (pdu_init c (VPyInt (h_next s)) (VPyInt 0) (VPyInt 0) (VSeq mk_ vs)) as [p|] eqn:Ep; [|discriminate].
    destruct (pdu_init_ok _ _ _ vs _ (vlists_seq _ _) Ep) as (-> & R & Mx & _).
    unfold message_init in Ev. destruct (integer_init CInteger (VPyInt n)) as [nv|] eqn:En; cbn [bind] in Ev; [|discriminate]. apply int_init_ok in En as [-> _].
    assert (Em : msg = mkMsg k (VInt CInteger n) (VOct COctetString (VPyStr com)) (pdu_val c (h_next s) vs) []) by (inversion Ev; reflexivity).
    unfold gbind at 1, on_heap at 1. rewrite Ey.
    set (s0 := mkH h (known s) (h_next s) (h_out s) (h_cbs s) (h_stack s) (h_log s)).
    destruct (made_request n0 N0 (gbind (g vbl) (fun pdu => on_heap (h_message k n (IStr com) pdu))) s0 c vbl is vs k n com) as (s1 & m & E1 & Y); try assumption.
    - unfold s0. cbn [hp]. rewrite Eh, app_length. lia.
    - unfold s0. cbn [hp]. rewrite Eh. apply defaults_ext. exact D.
    - destruct Ic as [<-|[<-|[]]]; reflexivity.
    - intros V2. rewrite (stand_all_len _ _ _ _ _ Xs). auto.
    - unfold gbind. rewrite Eg. reflexivity.
    - exists s1, m. split; [exact E1|]. rewrite Em. exact Y. }
  assert (ONE : forall (two : bool) cb vblv vb, kind_of cb = KSeq -> null_binding cb ov = Ok vb -> (if two then varbindlist_v2_init (VPyList [vb]) else varbindlist_init (VPyList [vb])) = Ok vblv ->
    exists t is vbl mk_, (vb <== h_null_binding cb oid ;; h_list_of two [vb]) (hp s) = (hp s ++ t, Ok vbl) /\ stand_all S0 N0 (hp s ++ t) is [vb] /\ lists (hp s ++ t) vbl is /\ vblv = VSeq mk_ [vb]).
  { intros two cb vblv vb K Eb El. apply null_binding_ok in Eb as (o & Eo & ->).
    destruct (made_null_binding n0 (hp s) cb oid ov o) as (t1 & a1 & E1 & X1); [lia|exact K|exact X|exact Eo|].
    destruct (made_list_of (hp s ++ t1) two [a1] [VSeq cb [o; VNull CNull]] vblv) as (t2 & a2 & E2 & X2 & Ls & (mk_ & ->)); [rewrite app_length; lia|constructor; [exact X1|constructor]|exact El|].
    exists (t1 ++ t2), [a1], a2, mk_. unfold hbind. rewrite E1, E2, app_assoc. auto. }
  destruct f; cbn [createGetRequestMessage createGetRequestPDU] in E; cbn [g_create_get].
  - unfold mbind at 1, lift at 1 in E. destruct (vb <- null_binding CVarBind ov ;; varbindlist_init (VPyList [vb])) as [vblv|] eqn:El; [|discriminate].
    destruct (null_binding CVarBind ov) as [vb|] eqn:Eb; cbn [bind] in El; [|discriminate].
    destruct (ONE false CVarBind vblv vb eq_refl Eb El) as (t & is & vbl & mk_ & E1 & X1 & Ls & ->).
    eapply (FIN _ true (g_pdu CGet) CGet CMessage 0 [vb]); [exact E1|reflexivity|exact X1|exact Ls|reflexivity|cbn; auto|left; auto|reflexivity|exact E].
  - unfold mbind at 1, lift at 1 in E. destruct (oids <- py_iter ov ;; vbs <- mapM (null_binding CVarBind) oids ;; varbindlist_v2_init (VPyList vbs)) as [vblv|] eqn:El; [|discriminate].
    destruct (py_iter ov) as [oids|] eqn:Ei; cbn [bind] in El; [|discriminate]. destruct (mapM (null_binding CVarBind) oids) as [vbs|] eqn:Em; cbn [bind] in El; [|discriminate].
    destruct (elems_now _ _ _ _ Pl X Ei) as (is & Ee & Xi). destruct (made_null_bindings CVarBind eq_refl is oids (hp s) vbs) as (t1 & as1 & E1 & X1); [lia|exact Xi|exact Em|].
    destruct (made_list_of (hp s ++ t1) true as1 vbs vblv) as (t2 & a2 & E2 & X2 & Ls & (mk_ & ->)); [rewrite app_length; lia|exact X1|exact El|].
    eapply (FIN _ true (g_pdu CGet_v2) CGet_v2 CMessage_v2 1 vbs mk_ _ _ (t1 ++ t2) as1 a2); [|reflexivity| | |reflexivity|cbn; auto|right; auto|reflexivity|exact E]; rewrite ?app_assoc; [|exact X2|exact Ls].
    unfold hbind, rd. rewrite Ee, E1, E2. reflexivity.
  - destruct (ver =? 1) eqn:V1; [|destruct (ver =? 2) eqn:V2; [|discriminate]].
    + unfold mbind at 1, lift at 1 in E. destruct (vb <- null_binding CVarBind ov ;; varbindlist_init (VPyList [vb])) as [vblv|] eqn:El; [|discriminate].
      destruct (null_binding CVarBind ov) as [vb|] eqn:Eb; cbn [bind] in El; [|discriminate].
      destruct (ONE false CVarBind vblv vb eq_refl Eb El) as (t & is & vbl & mk_ & E1 & X1 & Ls & ->).
      eapply (FIN _ true (fun vbl => g_pdu_version CGet CGet_v2 vbl 1) CGet CMessage 0 [vb]); [exact E1|reflexivity|exact X1|exact Ls|reflexivity|cbn; auto|left; auto|reflexivity|exact E].
    + unfold mbind at 1, lift at 1 in E. destruct (vb <- null_binding CVarBind_v2 ov ;; varbindlist_v2_init (VPyList [vb])) as [vblv|] eqn:El; [|discriminate].
      destruct (null_binding CVarBind_v2 ov) as [vb|] eqn:Eb; cbn [bind] in El; [|discriminate].
      destruct (ONE true CVarBind_v2 vblv vb eq_refl Eb El) as (t & is & vbl & mk_ & E1 & X1 & Ls & ->).
      eapply (FIN _ true (fun vbl => g_pdu_version CGet CGet_v2 vbl 2) CGet_v2 CMessage_v2 1 [vb]); [exact E1|reflexivity|exact X1|exact Ls|reflexivity|cbn; auto|right; auto|reflexivity|exact E].
Qed.
End Get.
