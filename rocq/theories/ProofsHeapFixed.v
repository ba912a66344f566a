(** * What a queued message is sent as *)
From Coq Require Import ZArith List Bool Lia.
From Verif Require Import PyBase Classes Values Codec Manager Heap SpecHeap ProofsHeap ProofsHeapKeep ProofsHeapCall ProofsHeapRun ProofsHeapMake ProofsHeapValue.
Import ListNotations.
Open Scope Z_scope.

Lemma defaults_len h : defaults_ok h -> (5 <= length h)%nat.
Proof. intros D. assert (E : nth_error h 4 = Some (PList [])) by (apply D; lia). apply lt_of in E. lia. Qed.
Lemma private sys s s1 n dst (R : loc -> Prop) t l tr s2 res d : (forall x, R x \/ ~ R x) -> good s -> good s1 -> hp s1 = hp s ++ t -> length (hp s1) = S n -> (length (hp s) <= n)%nat ->
  (forall x, R x -> (length (hp s) <= x)%nat /\ exists c z, nth_error (hp s1) x = Some (PObj c z) /\ refs (PObj c z) = []) ->
  known s1 = l ++ known s -> (forall x, In x l -> R x) -> ~ R n -> h_out s1 = h_out s ++ [(IRef n, dst)] -> (forall r d, ~ In (GSent (IRef n) r d) (h_log s1)) ->
  spares R tr -> gsteps sys s1 tr = Some s2 -> In (GSent (IRef n) res d) (h_log s2) ->
  d = dst /\ exists tr1 fuel tr2 sa, tr = tr1 ++ LSend fuel :: tr2 /\ gsteps sys s1 tr1 = Some sa /\
    (forall x, (length (hp s) <= x < length (hp s1))%nat -> nth_error (hp sa) x = nth_error (hp s1) x) /\ res = snd (h_encode_message fuel (IRef n) (hp sa)).
Proof.
  intros Dec (I & Q & _) G1 Eh Ln Ge HR Ek Hl Rn Eq Ns W E J.
  set (P := fun x => D x \/ ((length (hp s) <= x < length (hp s1))%nat /\ ~ R x)).
  pose proof (defaults_len _ (i_defaults _ _ I)) as L5.
  destruct G1 as (I1 & Q1 & S1). destruct (i_ok _ _ I1) as [O1 O2]. destruct (i_ok _ _ I) as [O1' O2'].
  assert (IP : inv P s1).
  { split; [| |intros x L; left; exact L|].
    - split; [intros x [L|[L _]]; [apply O1; exact L|lia]|]. intros x c y N Jy. destruct (O2 _ _ _ N Jy) as [Ly Dy]. split; [exact Ly|]. intros [Py|[Py NR]]; [left; apply Dy; exact Py|].
      assert (x < length (hp s1))%nat by (eapply lt_of; exact N). destruct (Nat.lt_ge_cases x (length (hp s))) as [Lx|Gx].
      + rewrite Eh, nth_error_app1 in N by exact Lx. destruct (O2' _ _ _ N Jy). lia.
      + right. split; [lia|]. intros Rx. destruct (HR x Rx) as (_ & c' & z & N' & Z). rewrite N in N'. injection N' as ->. rewrite Z in Jy. destruct Jy.
    - apply I1.
    - intros x Jx. destruct (i_known _ _ I1 x Jx) as [Lx ND]. split; [exact Lx|]. intros [Px|[Px NR]]; [contradiction|]. rewrite Ek in Jx. apply in_app_or in Jx as [Jx|Jx]; [apply NR; auto|].
      destruct (i_known _ _ I x Jx). lia. }
  assert (OR : objs R (hp s1)). { intros x Rx. destruct (HR x Rx) as (_ & c & z & N & _). eauto. }
  assert (PD : pending P R n dst s1).
  { exists (h_out s), []. split; [exact Eq|]. assert (Qs : forall p, In p (h_out s) -> forall k, fst p = IRef k -> (k < length (hp s))%nat /\ ~ D k).
    { intros p Jp k Ek'. rewrite Forall_forall in Q. destruct (Q p Jp k Ek') as (A & B & _). auto. }
    split; [|split; [constructor|split; [|intros p []]]].
    - apply Forall_forall. intros p Jp k Ek'. destruct (Qs p Jp k Ek') as [A B]. rewrite Eh, app_length. split; [lia|]. split; [intros [X|[X _]]; [contradiction|lia]|]. intros X. destruct (HR k X). lia.
    - intros p Jp X. destruct (Qs p Jp n X). lia. }
  destruct (run_pending sys P R n dst tr s1 s2 (conj I1 (conj Q1 S1)) IP OR PD ltac:(lia) W E res d J) as [A|(A & tr1 & fuel & tr2 & sa & B1 & B2 & (B3 & B4) & B5 & B6)]; [exfalso; eapply Ns; exact A|].
  split; [exact A|]. exists tr1, fuel, tr2, sa. split; [exact B1|]. split; [exact B2|]. split; [|exact B6]. intros x Lx.
  apply B4. destruct (Dec x) as [Rx|Rx]; [right; exact Rx|left; right; split; [exact Lx|exact Rx]].
Qed.

(** ** A call that queues a request *)

(** What the octets sent are, when the message stands for [v] given the values [W] of the objects shared with user code. *)
Definition comes_as (fuel : nat) (v : val) (res : PyBase.res str) : Prop :=
  (forall o, res = Ok o -> encode v = Ok o) /\ ((vsize v <= fuel)%nat -> res = encode v).
Lemma result_of (S : loc -> Prop) W fuel h h' n v : (exists c d, nth_error h n = Some (PObj c d) /\ kind_of c = KMsg) -> S n -> stands S W h (IRef n) v ->
  (forall x c, S x -> nth_error h x = Some c -> nth_error h' x = Some c) -> (forall l w, W l w -> now h' (IRef l) w) -> comes_as fuel v (snd (h_encode_message fuel (IRef n) h')).
Proof.
  intros (c & d & N & K) Sn St Kp HW.
  assert (Nw : now h' (IRef n) v).
  { destruct (stands_move S W h (fun _ => True) (fun _ _ => False) h') as [A _]; [intros l c' Sl E; split; [exact Logic.I|apply Kp; assumption]|exact HW|]. apply A. exact St. }
  destruct (encode_message_now fuel n h' v Nw) as (h'' & E & Nw'); [exists c, d; split; [apply Kp; assumption|exact K]|]. rewrite E. cbn [snd]. split.
  - intros o Eo. destruct (h_encode_ok _ _ _ _ Eo) as (v' & Nv & Ev). destruct (now_fun h'') as [F _]. rewrite (F _ _ Nv _ Nw'). exact Ev.
  - intros L. apply (proj1 (h_encode_now h'')); assumption.
Qed.
Lemma req_good sys s a s3 : good s -> gstep sys s (UCall a) = Some s3 -> good s3.
Proof. intros G E. apply (good_step sys s (UCall a) s3 G E). Qed.
(** What [UCall] of a request does when making the message succeeds, and what is then sent. *)
Lemma request_sent sys s a dst cb (x : G item) s1 m : good s -> knows s (flat_map item_refs (call_items a)) = true ->
  g_call (flav sys) a s = gbind x (fun m => g_queue (flav sys) m dst cb) s -> gpost D s (Qmsg D (length (hp s))) (x s) -> x s = (s1, Ok m) ->
  exists s3 n r, m = IRef n /\ gstep sys s (UCall a) = Some s3 /\ hp s3 = hp s1 /\ (length (hp s) <= n)%nat /\ (length (hp s) <= r)%nat /\ 
    h_out s3 = h_out s ++ [(IRef n, dst)] /\ h_log s3 = h_log s ++ [GQueued (IRef n) dst; GReturned (Ok (IRef r))] /\ known s3 = r :: known s /\
    forall tr s2 res d, gsteps sys s3 tr = Some s2 -> never_written r tr -> In (GSent (IRef n) res d) (h_log s2) ->
      d = dst /\ exists tr1 fuel tr2 sa, tr = tr1 ++ LSend fuel :: tr2 /\ gsteps sys s3 tr1 = Some sa /\
        forall W v, stands (fun l => (length (hp s) <= l)%nat) W (hp s3) (IRef n) v -> (forall l w, W l w -> now (hp sa) (IRef l) w) -> comes_as fuel v res.
Proof.
  intros Gs K Ec Gp Ex. assert (O := i_ok _ _ (proj1 Gs)).
  pose proof (gp_request D s (flav sys) x dst cb O Gp) as GR. rewrite <- Ec in GR.
  assert (E3 : gstep sys s (UCall a) = Some (let '(s', r) := g_call (flav sys) a s in g_say [GReturned r] (learn (match r with Ok i => item_refs i | Err _ => [] end) s'))).
  { cbn [gstep]. rewrite K. destruct (g_call (flav sys) a s). reflexivity. }
  assert (Hs : exists r, g_call (flav sys) a s = (fst (g_call (flav sys) a s), Ok r) /\ hp (fst (g_call (flav sys) a s)) = hp s1 /\ exists q, h_out (fst (g_call (flav sys) a s)) = q ++ [(m, dst)]).
  { destruct Gp as ((t & Et) & _ & _ & Q). rewrite Ex in Q. cbn [fst snd] in Q. destruct (Q m eq_refl) as (Fm & d & r & (n & c & l & v & k & -> & L1 & L2 & N & C) & (p & xx & Ed & -> & A & I & X1 & X2 & X3)).
    destruct (key_num_int (flav sys) (hp s1) xx I) as [z Z]. rewrite Ec. unfold gbind. rewrite Ex.
    unfold g_queue, gbind, g_put, on_heap, rd, g_register, gret. cbn [hp known h_out h_log h_stack h_cbs h_next].
    assert (attr_of (hp s1) (IRef n) Adata = Ok d) as Ad by (cbn [attr_of]; rewrite N; reflexivity).
    rewrite Ad. cbn [bind]. rewrite A. cbn [hp known h_out h_log h_stack h_cbs h_next]. rewrite Z. cbn. eauto. }
  destruct Hs as (r0 & Er & Eh & q & Eq). destruct (g_call (flav sys) a s) as [s' r1] eqn:Eg. cbn [fst] in *. injection Er as ->.
  destruct GR as ((t & Et) & O' & K1 & K2 & Rq). cbn [fst snd] in *.
  destruct Rq as (n & r & d0 & z & -> & Q1 & Q2 & Fn & (n' & c & l & v & k & Xn & L1 & L2 & N & C) & (p & x' & Xd & Xr & A & (ci & zi & Ni & Ki) & X1 & X2 & X3) & Z & Cb). injection Xn as <-. injection Xr as <-.
  assert (m = IRef n) as -> by (rewrite Q1 in Eq; apply app_inj_tail in Eq as [_ X]; injection X as ->; reflexivity).
  set (s3 := g_say [GReturned (Ok (IRef r))] (learn (item_refs (IRef r)) s')) in *.
  pose proof (req_good _ _ _ _ Gs E3) as G3. 
  exists s3, n, r. split; [reflexivity|]. split; [exact E3|]. split; [exact Eh|]. split; [exact L2|]. split; [exact X1|]. split; [exact Q1|].
  split; [cbn; rewrite Q2, <- app_assoc; reflexivity|]. split; [cbn; rewrite K1; reflexivity|].
  intros tr s2 res d Es NW J.
  destruct (private sys s s3 n dst (fun x => x = r) t [r] tr s2 res d) as (Ed & tr1 & fuel & tr2 & sa & B1 & B2 & B3 & B4); try assumption.
  - intros y. destruct (Nat.eq_dec y r); auto.
  - intros y ->. split; [exact X1|]. exists ci, [(Avalue, IInt zi)]. split; [exact Ni|reflexivity].
  - cbn. rewrite K1. reflexivity.
  - intros y [<-|[]]. reflexivity.
  - intros ->. cbn in N. rewrite N in Ni. injection Ni as -> Ni. discriminate.
  - cbn. intros rr dd Jr. apply in_app_or in Jr as [Jr|[Jr|[]]]; [|discriminate]. rewrite Q2 in Jr. apply in_app_or in Jr as [Jr|[Jr|[]]]; [|discriminate]. apply (proj2 (proj2 Gs)) in Jr. lia.
  - intros y cc Jy ->. eapply NW. exact Jy.
  - split; [exact Ed|]. exists tr1, fuel, tr2, sa. split; [exact B1|]. split; [exact B2|]. intros W v' St HW. rewrite B4.
    apply result_of with (S := fun l => (length (hp s) <= l)%nat) (W := W) (h := hp s3); try assumption.
    + exists c. eexists. split; [exact N|]. destruct C as [->| ->]; reflexivity.
    + intros y cy Ly Ny. rewrite B3; [exact Ny|]. split; [exact Ly|]. eapply lt_of. exact Ny.
Qed.

(** ** snmpSet of snmpManager, snmpGetNext, v1.snmpSet *)
Section More.
Context (n0 : nat).
Let S0 := fun l : loc => (n0 <= l)%nat.
Let N0 := fun (_ : loc) (_ : val) => False.
Lemma made_finish s com msg (y : H item) (g : item -> G item) c k n vs mk_ m'' h t is vbl : n0 = length (hp s) -> defaults_ok (hp s) ->
  y (hp s) = (h, Ok vbl) -> h = hp s ++ t -> stand_all S0 N0 h is vs -> lists h vbl is -> kind_of c = KSeq -> msg_class k n ->
  (forall s, g vbl s = g_pdu c vbl s) ->
  (pdu <~ request_pdu c (VSeq mk_ vs) ;; lift (message_init k (VPyInt n) (VPyStr com) pdu)) (mgr_at s) = (m'', Ok msg) ->
  exists s1 m, gbind (on_heap y) (fun vbl => gbind (g vbl) (fun pdu => on_heap (h_message k n (IStr com) pdu))) s = (s1, Ok m) /\ stands S0 N0 (hp s1) m (message_val msg).
Proof.
  intros L0 D Ey Eh Xs Ls Ic C Eg Ev.
  unfold mbind, request_pdu, mbind, assignRequestID, lift in Ev. cbn [nextRequestID mgr_at] in Ev.
  destruct (pdu_init c (VPyInt (h_next s)) (VPyInt 0) (VPyInt 0) (VSeq mk_ vs)) as [p|] eqn:Ep; [|discriminate].
  destruct (pdu_init_ok _ _ _ vs _ (vlists_seq _ _) Ep) as (-> & R & Mx & _).
  unfold message_init in Ev. destruct (integer_init CInteger (VPyInt n)) as [nv|] eqn:En; cbn [bind] in Ev; [|discriminate]. apply int_init_ok in En as [-> _].
  assert (Em : msg = mkMsg k (VInt CInteger n) (VOct COctetString (VPyStr com)) (pdu_val c (h_next s) vs) []) by (inversion Ev; reflexivity).
  unfold gbind at 1, on_heap at 1. rewrite Ey.
  set (s0 := mkH h (known s) (h_next s) (h_out s) (h_cbs s) (h_stack s) (h_log s)).
  destruct (made_request n0 N0 (gbind (g vbl) (fun pdu => on_heap (h_message k n (IStr com) pdu))) s0 c vbl is vs k n com) as (s1 & m & E1 & Y); try assumption.
  - unfold s0. cbn [hp]. rewrite Eh, app_length. lia.
  - unfold s0. cbn [hp]. rewrite Eh. apply defaults_ext. exact D.
  - intros V2. rewrite (stand_all_len _ _ _ _ _ Xs). auto.
  - unfold gbind. rewrite Eg. reflexivity.
  - exists s1, m. split; [exact E1|]. rewrite Em. exact Y.
Qed.
Lemma reg_cases ty c : reg_get reg1905 ty = Some c -> In c (map snd reg1905).
Proof.
  generalize reg1905. intros r. induction r as [|[k c'] r IH]; cbn; [discriminate|]. destruct (k =? ty); [intros E; injection E as ->; left; reflexivity|]. intros E. right. auto.
Qed.
Lemma made_integer_of h c i v w : (n0 <= length h)%nat -> kind_of c = KInt -> item_refs i = [] -> now h i v -> integer_init c v = Ok w ->
  exists t a, h_integer c i h = (h ++ t, Ok a) /\ stands S0 N0 (h ++ t) a w /\ plain w.
Proof.
  intros L K Ri X E. destruct i as [|z|s|l]; [| | |discriminate]; inversion X; subst; cbn [integer_init] in E; try discriminate.
  unfold integer_init in E. destruct ((MINVAL c <=? z) && (z <=? MAXVAL c)) eqn:B; [|discriminate]. injection E as <-. apply andb_prop in B as [B1 B2]. apply Z.leb_le in B1, B2.
  destruct (made_integer n0 N0 h c z L K) as (t & a & E & Y); [lia|]. exists t, a. split; [exact E|]. split; [exact Y|exact Logic.I].
Qed.
Lemma made_plain_cell h c i v : (n0 <= length h)%nat -> kind_of c = KOct -> item_refs i = [] -> stands S0 N0 h i v ->
  exists t a, new (PObj c [(Avalue, i)]) h = (h ++ t, Ok a) /\ stands S0 N0 (h ++ t) a (VOct c v) /\ plain (VOct c v).
Proof.
  intros L K Ri X. exists [PObj c [(Avalue, i)]], (IRef (length h)). split; [reflexivity|]. split; [|exact Logic.I].
  eapply st_octets with (d := [(Avalue, i)]) (i := i); [exact L|apply new_at|exact K|reflexivity|]. apply stands_ext. exact X.
Qed.
Lemma made_typed h ty i v w : (n0 <= length h)%nat -> copied ty i -> now h i v -> typed_value ty v = Ok w ->
  exists t a, h_typed ty i h = (h ++ t, Ok a) /\ stands S0 N0 (h ++ t) a w /\ plain w.
Proof.
  intros L C X. unfold copied in C. unfold typed_value, h_typed. destruct (reg_get reg1905 ty) as [c|] eqn:Rc; [|destruct C].
  intros E. destruct C as [[Nc Ri]| ->].
  - assert (St : stands S0 N0 h i v). { destruct i; [| | |discriminate]; inversion X; subst; constructor. }
    apply reg_cases in Rc. assert (Oct : forall c, kind_of c = KOct -> exists t a, h_octetstring c i h = (h ++ t, Ok a) /\ stands S0 N0 (h ++ t) a (VOct c v) /\ plain (VOct c v)).
    { intros k Kk. unfold h_octetstring, hbind. replace (py_copy i h) with (h, Ok i) by (destruct i; [| | |discriminate]; reflexivity). apply made_plain_cell; assumption. }
    cbn in Rc. repeat destruct Rc as [<-|Rc]; try destruct Rc; try discriminate Nc; cbn [construct h_construct] in *; try discriminate E;
      try (apply made_integer_of with (v := v); solve [assumption|reflexivity]);
      try (injection E as <-; apply Oct; reflexivity).
    + destruct (made_objectid n0 h i v w L X E) as (t & a & Ea & Y). exists t, a. split; [exact Ea|]. split; [exact Y|]. apply oid_plain in E as [zs ->]. exact Logic.I.
    + destruct i as [|z|s|l]; [| | |discriminate]; inversion X; subst; cbn [ipaddress_init h_ipaddress] in *.
      * injection E as <-. apply made_plain_cell; try assumption; try reflexivity. constructor.
      * injection E as <-. apply made_plain_cell; try assumption; try reflexivity. constructor.
      * destruct (negb (zlen (py_split 46 s) =? 4)); [discriminate|]. unfold hbind, hlift. destruct (mapM _ _) as [ch|]; cbn [bind] in *; [|discriminate]. injection E as <-.
        apply made_plain_cell; try assumption; try reflexivity. constructor.
  - cbn [construct h_construct] in *. destruct (made_objectid n0 h i v w L X E) as (t & a & Ea & Y). exists t, a. split; [exact Ea|]. split; [exact Y|]. apply oid_plain in E as [zs ->]. exact Logic.I.
Qed.
Lemma varbind_init_val c o w vb : varbind_init c o w = Ok vb -> vb = VSeq c [o; w].
Proof. unfold varbind_init. destruct (_ && _); [discriminate|]. destruct (_ && _); [discriminate|]. intros E. injection E as <-. reflexivity. Qed.
Lemma made_set s oid ov ty i v com ver m' msg : n0 = length (hp s) -> defaults_ok (hp s) -> now (hp s) oid ov -> now (hp s) i v -> copied ty i ->
  createSetRequestMessage ov ty v (VPyStr com) ver (mgr_at s) = (m', Ok msg) ->
  exists s1 m, g_create_set oid ty i (IStr com) ver s = (s1, Ok m) /\ stands S0 N0 (hp s1) m (message_val msg).
Proof.
  intros L0 D X Xi Cp E.
  assert (ONE : forall (two : bool) cb o w vblv vb, kind_of cb = KSeq -> oid_init ov = Ok o -> typed_value ty v = Ok w -> varbind_init cb o w = Ok vb -> (if two then varbindlist_v2_init (VPyList [vb]) else varbindlist_init (VPyList [vb])) = Ok vblv ->
    exists t is vbl mk_, (o <== h_objectid oid ;; v <== h_typed ty i ;; vb <== h_varbind cb o v ;; h_list_of two [vb]) (hp s) = (hp s ++ t, Ok vbl) /\ stand_all S0 N0 (hp s ++ t) is [vb] /\ lists (hp s ++ t) vbl is /\ vblv = VSeq mk_ [vb]).
  { intros two cb o w vblv vb K Eo Ew Eb El. pose proof (varbind_init_val _ _ _ _ Eb) as ->.
    destruct (made_objectid n0 (hp s) oid ov o) as (t1 & a1 & E1 & X1); [lia|exact X|exact Eo|].
    destruct (made_typed (hp s ++ t1) ty i v w) as (t2 & a2 & E2 & X2 & Pw); [rewrite app_length; lia|exact Cp|apply now_ext; exact Xi|exact Ew|].
    destruct (made_varbind n0 ((hp s ++ t1) ++ t2) cb a1 a2 o w) as (t3 & a3 & E3 & X3); [rewrite !app_length; lia|exact K|apply oid_plain in Eo as [zs ->]; exact Logic.I|exact Pw|apply stands_ext; exact X1|exact X2|exact Eb|].
    destruct (made_list_of n0 (((hp s ++ t1) ++ t2) ++ t3) two [a3] [VSeq cb [o; w]] vblv) as (t4 & a4 & E4 & X4 & Ls & (mk_ & ->)); [rewrite !app_length; lia|constructor; [exact X3|constructor]|exact El|].
    exists (t1 ++ t2 ++ t3 ++ t4), [a3], a4, mk_. unfold hbind. rewrite E1, E2, E3, E4, !app_assoc. auto. }
  unfold createSetRequestMessage in E. unfold g_create_set. destruct (ver =? 1) eqn:V1; [|destruct (ver =? 2) eqn:V2; [|discriminate]].
  - unfold mbind at 1, lift at 1 in E. destruct (oid_init ov) as [o|] eqn:Eo; cbn [bind] in E; [|discriminate]. destruct (typed_value ty v) as [w|] eqn:Ew; cbn [bind] in E; [|discriminate].
    destruct (varbind_init CVarBind o w) as [vb|] eqn:Eb; cbn [bind] in E; [|discriminate]. destruct (varbindlist_init (VPyList [vb])) as [vblv|] eqn:El; [|discriminate].
    destruct (ONE false CVarBind o w vblv vb eq_refl eq_refl eq_refl Eb El) as (t & is & vbl & mk_ & E1 & X1 & Ls & ->).
    eapply (made_finish s com msg _ (fun vbl => g_pdu_version CSet CSet_v2 vbl 1) CSet CMessage 0 [vb]); [exact L0|exact D|exact E1|reflexivity|exact X1|exact Ls|reflexivity|left; auto|reflexivity|exact E].
  - unfold mbind at 1, lift at 1 in E. destruct (oid_init ov) as [o|] eqn:Eo; cbn [bind] in E; [|discriminate]. destruct (typed_value ty v) as [w|] eqn:Ew; cbn [bind] in E; [|discriminate].
    destruct (varbind_init CVarBind_v2 o w) as [vb|] eqn:Eb; cbn [bind] in E; [|discriminate]. destruct (varbindlist_v2_init (VPyList [vb])) as [vblv|] eqn:El; [|discriminate].
    destruct (ONE true CVarBind_v2 o w vblv vb eq_refl eq_refl eq_refl Eb El) as (t & is & vbl & mk_ & E1 & X1 & Ls & ->).
    eapply (made_finish s com msg _ (fun vbl => g_pdu_version CSet CSet_v2 vbl 1) CSet CMessage_v2 1 [vb]); [exact L0|exact D|exact E1|reflexivity|exact X1|exact Ls|reflexivity|right; auto|reflexivity|exact E].
Qed.
End More.
