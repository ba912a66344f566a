(** * The theorems about queued messages and the dictionary of callbacks *)
From Coq Require Import ZArith List Bool Lia.
From Verif Require Import PyBase Classes Values Codec Manager Heap SpecHeap ProofsHeap ProofsHeapKeep ProofsHeapCall ProofsHeapRun ProofsHeapMake ProofsHeapValue ProofsHeapFixed ProofsHeapRecv.
Import ListNotations.
Open Scope Z_scope.

Lemma knows_intro s l : (forall x, In x l -> In x (known s)) -> knows s l = true.
Proof. intros K. unfold knows. apply forallb_forall. intros x J. apply existsb_exists. exists x. split; [auto|apply Nat.eqb_refl]. Qed.
Lemma knows_has s is : Forall (has s) is -> knows s (flat_map item_refs is) = true.
Proof. intros F. apply knows_intro. intros x J. apply in_flat_map in J as (i & Ji & Jx). rewrite Forall_forall in F. exact (F i Ji x Jx). Qed.
Lemma has_fine s i : good s -> has s i -> fine D (hp s) i.
Proof. intros (I & _) K x J. apply (i_known _ _ I). auto. Qed.
Lemma has_str s t : has s (IStr t). Proof. intros l []. Qed.
Lemma encode_message_val msg : encode (message_val msg) = octets_of msg.
Proof. unfold octets_of, message_encode, message_val. cbn [snd message_set_value m_cls m_value]. reflexivity. Qed.
Lemma comes_sent msg fuel res : comes_as fuel (message_val msg) res -> sent_as msg fuel res.
Proof. unfold comes_as, sent_as. rewrite encode_message_val. auto. Qed.

(** ** From the value model's calls to the messages they make *)
Lemma mmap_ok {A B} (g : A -> B) (x : M A) m m' b : mmap g x m = (m', Ok b) -> exists a, x m = (m', Ok a).
Proof. unfold mmap. destruct (x m) as [m1 [a|]]; intros H; inversion H; subst. eauto. Qed.
Lemma queue_request_out msg dst cb m m' r : queue_request msg dst cb m = (m', Ok r) -> outbound m' = outbound m ++ [(Some msg, dst)].
Proof.
  unfold queue_request, mbind, put, lift, register, ret. destruct (requestID_of (m_data msg)) as [v|]; [|intros H; inversion H]. destruct (py_int v); intros H; inversion H; reflexivity.
Qed.
Lemma pdu_out c vbl id m' p : request_pdu c vbl (mkMgr id [] []) = (m', Ok p) -> outbound m' = [] /\ m' = mkMgr (id + 1) [] [].
Proof. unfold request_pdu, mbind, assignRequestID, lift. cbn. destruct (pdu_init _ _ _ _ _); intros H; inversion H; auto. Qed.
Lemma lift_out {A} (r : res A) m m' a : lift r m = (m', Ok a) -> m' = m.
Proof. unfold lift. intros H. inversion H. reflexivity. Qed.
Lemma mbind_ok {A B} (x : M A) (f : A -> M B) m m' b : mbind x f m = (m', Ok b) -> exists m1 a, x m = (m1, Ok a) /\ f a m1 = (m', Ok b).
Proof. unfold mbind. destruct (x m) as [m1 [a|]]; intros H; [eauto|inversion H]. Qed.
(** A computation that does not touch the queue *)
Definition quiet {A} (x : M A) : Prop := forall m m' a, x m = (m', Ok a) -> outbound m' = outbound m.
Lemma quiet_lift {A} (r : res A) : quiet (lift r). Proof. intros m m' a H. apply lift_out in H. subst. reflexivity. Qed.
Lemma quiet_bind {A B} (x : M A) (f : A -> M B) : quiet x -> (forall a, quiet (f a)) -> quiet (mbind x f).
Proof. intros X F m m' b H. apply mbind_ok in H as (m1 & a & H1 & H2). rewrite (F a _ _ _ H2). eauto. Qed.
Lemma quiet_assign : quiet assignRequestID. Proof. intros m m' a H. unfold assignRequestID in H. inversion H. reflexivity. Qed.
Lemma quiet_pdu c v : quiet (request_pdu c v). Proof. apply quiet_bind; [apply quiet_assign|intros ?; apply quiet_lift]. Qed.
Lemma quiet_pduv c d v n : quiet (request_pdu_version c d v n). Proof. apply quiet_bind; [apply quiet_assign|intros ?]. destruct (n =? 1); [apply quiet_lift|]. destruct (n =? 2); apply quiet_lift. Qed.
Ltac quiet := repeat first [apply quiet_lift | apply quiet_pdu | apply quiet_pduv | apply quiet_bind; [|intros ?]].
Lemma quiet_get f oid com ver : quiet (createGetRequestMessage f oid com ver).
Proof.
  unfold createGetRequestMessage, createGetRequestPDU. destruct f; [| |destruct (ver =? 1); [|destruct (ver =? 2)]]; quiet.
Qed.
Lemma quiet_getnext f v com ver : quiet (createGetNextRequestMessage f v com ver).
Proof. unfold createGetNextRequestMessage, createGetNextRequestPDU. destruct f; quiet. destruct (ver =? 1); quiet. Qed.
Lemma quiet_set oid ty v com ver : quiet (createSetRequestMessage oid ty v com ver).
Proof. unfold createSetRequestMessage, createSetRequestPDU. destruct (ver =? 1); [|destruct (ver =? 2)]; quiet. Qed.
Lemma queued_of (x : M message) id dst cb m r msg : quiet x -> mbind x (fun msg => queue_request msg dst cb) (mkMgr id [] []) = (m, Ok r) -> outbound m = [(Some msg, dst)] ->
  exists m1, x (mkMgr id [] []) = (m1, Ok msg).
Proof.
  intros Q H O. apply mbind_ok in H as (m1 & msg' & H1 & H2). pose proof (Q _ _ _ H1) as O1. cbn in O1. apply queue_request_out in H2. rewrite O1, O in H2. inversion H2; subst. eauto.
Qed.

(** ** snmpGet, snmpSet of snmpManager *)
Lemma good_known_lt s l : good s -> In l (known s) -> (l < length (hp s))%nat.
Proof. intros (I & _) J. apply (i_known _ _ I l J). Qed.
Lemma fixed_request sys s a dst cb (x : G item) s1 m msg : good s -> Forall (has s) (call_items a) ->
  g_call (flav sys) a s = gbind x (fun m => g_queue (flav sys) m dst cb) s -> gpost D s (Qmsg D (length (hp s))) (x s) -> x s = (s1, Ok m) ->
  stands (fun l => (length (hp s) <= l)%nat) (fun _ _ => False) (hp s1) m (message_val msg) ->
  exists s1 m r, request_made sys s a dst s1 m r /\
    forall tr s2 o d, gsteps sys s1 tr = Some s2 -> never_written r tr -> In (GSent (IRef m) o d) (h_log s2) ->
      d = dst /\ exists tr1 fuel tr2, tr = tr1 ++ LSend fuel :: tr2 /\ sent_as msg fuel o.
Proof.
  intros Gs F Ec Gp Ex St. destruct (request_sent sys s a dst cb x s1 m Gs (knows_has _ _ F) Ec Gp Ex) as (s3 & n & r & -> & E3 & Eh & Ln & Lr & Eo & El & Ek & K).
  exists s3, n, r. split.
  - split; [exact E3|]. pose proof (req_good _ _ _ _ Gs E3) as G3. split; [|split; [|auto]].
    + split; [exact Ln|]. assert (Forall (okq D none (hp s3)) (h_out s3)) as Q by apply G3. rewrite Eo in Q. apply Forall_app in Q as [_ Q]. inversion Q as [|? ? Q1 _]; subst. apply (Q1 n eq_refl).
    + split; [exact Lr|]. apply (good_known_lt s3 r G3). rewrite Ek. left. reflexivity.
  - intros tr s2 o d Es NW J. destruct (K tr s2 o d Es NW J) as (-> & tr1 & fuel & tr2 & sa & Et & Esa & W). split; [reflexivity|]. exists tr1, fuel, tr2. split; [exact Et|].
    apply comes_sent. apply (W (fun _ _ => False)); [rewrite Eh; exact St|intros l w []].
Qed.
Lemma get_sent sys s oid ov dst cb com ver msg : good s -> has s oid -> now (hp s) oid ov -> plain ov ->
  queues (flav sys) (h_next s) (AGet ov dst cb (VPyStr com) ver) msg dst ->
  exists s1 m r, request_made sys s (HGet oid dst cb (IStr com) ver) dst s1 m r /\
    forall tr s2 o d, gsteps sys s1 tr = Some s2 -> never_written r tr -> In (GSent (IRef m) o d) (h_log s2) ->
      d = dst /\ exists tr1 fuel tr2, tr = tr1 ++ LSend fuel :: tr2 /\ sent_as msg fuel o.
Proof.
  intros Gs Ho No Po (m & r & E & O). cbn [do_call] in E. apply mmap_ok in E as [v E]. unfold snmpGet in E. destruct (queued_of _ _ _ _ _ _ _ (quiet_get _ _ _ _) E O) as [m1 E1].
  destruct (made_get (length (hp s)) (flav sys) s oid ov com ver m1 msg eq_refl (i_defaults _ _ (proj1 Gs)) No Po E1) as (s1 & mi & Eg & St).
  eapply (fixed_request sys s _ dst cb (g_create_get (flav sys) oid (IStr com) ver)); [exact Gs| |reflexivity| |exact Eg|exact St].
  - constructor; [exact Ho|]. constructor; [apply has_str|constructor].
  - apply gp_create_get; [apply Gs|apply Gs|apply has_fine; assumption|apply has_fine; [exact Gs|apply has_str]].
Qed.
Lemma set_sent sys s oid ov ty i v dst cb com ver msg : good s -> has s oid -> has s i -> now (hp s) oid ov -> now (hp s) i v -> copied ty i -> 
  queues (flav sys) (h_next s) (ASetTyped ov ty v dst cb (VPyStr com) ver) msg dst ->
  exists s1 m r, request_made sys s (HSetTyped oid ty i dst cb (IStr com) ver) dst s1 m r /\
    forall tr s2 o d, gsteps sys s1 tr = Some s2 -> never_written r tr -> In (GSent (IRef m) o d) (h_log s2) ->
      d = dst /\ exists tr1 fuel tr2, tr = tr1 ++ LSend fuel :: tr2 /\ sent_as msg fuel o.
Proof.
  intros Gs Ho Hi No Ni Cp (m & r & E & O). cbn [do_call] in E. apply mmap_ok in E as [w E]. unfold snmpSet_typed in E. destruct (flav sys) eqn:Ef; try (apply lift_out in E; subst; discriminate O).
  destruct (queued_of _ _ _ _ _ _ _ (quiet_set _ _ _ _ _) E O) as [m1 E1].
  destruct (made_set (length (hp s)) s oid ov ty i v com ver m1 msg eq_refl (i_defaults _ _ (proj1 Gs)) No Ni Cp E1) as (s1 & mi & Eg & St).
  eapply (fixed_request sys s _ dst cb (g_create_set oid ty i (IStr com) ver)); [exact Gs| |cbn [g_call]; rewrite Ef; reflexivity| |exact Eg|exact St].
  - constructor; [exact Ho|]. constructor; [exact Hi|]. constructor; [apply has_str|constructor].
  - apply gp_create_set; [apply Gs|apply Gs|apply has_fine; assumption|apply has_fine; assumption|apply has_fine; [exact Gs|apply has_str]].
Qed.

(** ** snmpGetNext, v1.snmpSet: the VarBinds are shared *)
Lemma varbind_class c : c = CVarBind \/ c = CVarBind_v2 -> issubclass c CVarBind = true. Proof. intros [->| ->]; reflexivity. Qed.
Lemma checks h vbs : (forall x, In x vbs -> exists c d, nth_error h x = Some (PObj c d) /\ (c = CVarBind \/ c = CVarBind_v2)) -> check_all h CVarBind (map IRef vbs) = Ok tt.
Proof.
  induction vbs as [|x vbs IH]; intros K; [reflexivity|]. cbn [map check_all]. destruct (K x (or_introl eq_refl)) as (c & d & N & C). unfold is_a, class_at. rewrite N, (varbind_class _ C). cbn [negb].
  apply IH. intros y J. apply K. right. exact J.
Qed.
Lemma holds_lists h vbl vbs : holds h vbl vbs -> lists h vbl (map IRef vbs).
Proof.
  intros ((l & -> & S) & K). apply checks in K. destruct S as [S|(c & d & a & S1 & S2 & S3 & S4)]; [apply lists_list; assumption|]. eapply lists_seq; eassumption.
Qed.
Definition given (vbs : list loc) (vals : list val) (l : loc) (v : val) : Prop := In (l, v) (combine vbs vals).
Lemma given_stand S h vbs vals : length vbs = length vals -> stand_all S (given vbs vals) h (map IRef vbs) vals.
Proof.
  assert (G : forall (W : loc -> val -> Prop) vbs vals, length vbs = length vals -> (forall l v, In (l, v) (combine vbs vals) -> W l v) -> stand_all S W h (map IRef vbs) vals).
  { intros W. induction vbs0 as [|x xs IH]; intros [|v vs] L HW; try discriminate; [constructor|]. cbn [map]. constructor; [apply st_given; apply HW; left; reflexivity|]. apply IH; [injection L as L; exact L|]. intros l w J. apply HW. right. exact J. }
  intros L. apply G; [exact L|]. auto.
Qed.
Lemma all_now_len h vbs vals : all_now h (map IRef vbs) vals -> length vbs = length vals.
Proof. intros A. apply stand_all_map in A. remember (map IRef vbs) as is eqn:E. revert vbs E. induction A; intros [|x0 xs] E; try discriminate; [reflexivity|]. injection E as _ E. cbn. f_equal. auto. Qed.
Lemma all_now_given h vbs vals : all_now h (map IRef vbs) vals -> forall l v, given vbs vals l v -> now h (IRef l) v.
Proof.
  intros A. apply stand_all_map in A. remember (map IRef vbs) as is eqn:E. revert vbs E. induction A; intros [|x0 xs] E l0 v0 J; try discriminate; [destruct J|]. injection E as -> E. destruct J as [J|J]; [injection J as <- <-; assumption|]. eapply IHA; eassumption.
Qed.
Lemma request_value c vals k n com id m' msg : (pdu <~ request_pdu c (VPyList vals) ;; lift (message_init k (VPyInt n) (VPyStr com) pdu)) (mkMgr id [] []) = (m', Ok msg) ->
  message_val msg = msg_val k n com c id vals /\ id_range c id /\ (issubclass c CPDU_v2 = true -> zlen vals <= max_bindings).
Proof.
  intros Ev. unfold mbind, request_pdu, mbind, assignRequestID, lift in Ev. cbn [nextRequestID] in Ev.
  destruct (pdu_init c (VPyInt id) (VPyInt 0) (VPyInt 0) (VPyList vals)) as [p|] eqn:Ep; [|discriminate].
  destruct (pdu_init_ok _ _ _ vals _ (vlists_list _) Ep) as (-> & R & Mx & _).
  unfold message_init in Ev. destruct (integer_init CInteger (VPyInt n)) as [nv|] eqn:En; cbn [bind] in Ev; [|discriminate]. apply int_init_ok in En as [-> _].
  inversion Ev; subst. auto.
Qed.
Lemma shared_request sys s a vbl vbs vals0 dst cb (x : G item) c k n com m0 msg0 : good s -> Forall (has s) (call_items a) ->
  g_call (flav sys) a s = gbind x (fun m => g_queue (flav sys) m dst cb) s -> gpost D s (Qmsg D (length (hp s))) (x s) ->
  x s = gbind (g_pdu c vbl) (fun pdu => on_heap (h_message k n (IStr com) pdu)) s -> kind_of c = KSeq -> msg_class k n ->
  holds (hp s) vbl vbs -> length vbs = length vals0 -> (pdu <~ request_pdu c (VPyList vals0) ;; lift (message_init k (VPyInt n) (VPyStr com) pdu)) (mkMgr (h_next s) [] []) = (m0, Ok msg0) ->
  exists s1 m r, request_made sys s a dst s1 m r /\
    forall tr s2 o d, gsteps sys s1 tr = Some s2 -> never_written r tr -> In (GSent (IRef m) o d) (h_log s2) ->
      d = dst /\ exists tr1 fuel tr2 sa, tr = tr1 ++ LSend fuel :: tr2 /\ gsteps sys s1 tr1 = Some sa /\
        forall vals m' msg, all_now (hp sa) (map IRef vbs) vals -> (pdu <~ request_pdu c (VPyList vals) ;; lift (message_init k (VPyInt n) (VPyStr com) pdu)) (mkMgr (h_next s) [] []) = (m', Ok msg) -> sent_as msg fuel o.
Proof.
  intros Gs F Ec Gp Exx Kc Ck Hd L0 V0. apply request_value in V0 as (_ & R & Mx). pose proof (holds_lists _ _ _ Hd) as Ls.
  assert (MADE : forall vals, length vbs = length vals -> exists s1 m, x s = (s1, Ok m) /\ stands (fun l => (length (hp s) <= l)%nat) (given vbs vals) (hp s1) m (msg_val k n com c (h_next s) vals)).
  { intros vals Lv. apply (made_request (length (hp s)) (given vbs vals) x s c vbl (map IRef vbs) vals k n com); try assumption; [lia|apply Gs| |apply given_stand; exact Lv].
    intros V2. specialize (Mx V2). unfold zlen in *. rewrite map_length, L0. exact Mx. }
  destruct (MADE vals0 L0) as (s1 & m & Ex & _).
  destruct (request_sent sys s a dst cb x s1 m Gs (knows_has _ _ F) Ec Gp Ex) as (s3 & n' & r & -> & E3 & Eh & Ln & Lr & Eo & El & Ek & K).
  exists s3, n', r. split.
  - split; [exact E3|]. pose proof (req_good _ _ _ _ Gs E3) as G3. split; [|split; [|auto]].
    + split; [exact Ln|]. assert (Forall (okq D none (hp s3)) (h_out s3)) as Q by apply G3. rewrite Eo in Q. apply Forall_app in Q as [_ Q]. inversion Q as [|? ? Q1 _]; subst. apply (Q1 n' eq_refl).
    + split; [exact Lr|]. apply (good_known_lt s3 r G3). rewrite Ek. left. reflexivity.
  - intros tr s2 o d Es NW J. destruct (K tr s2 o d Es NW J) as (-> & tr1 & fuel & tr2 & sa & Et & Esa & W). split; [reflexivity|]. exists tr1, fuel, tr2, sa. split; [exact Et|]. split; [exact Esa|].
    intros vals m' msg An V. apply request_value in V as (Vm & _ & _). apply comes_sent. rewrite Vm. apply (W (given vbs vals)); [|apply all_now_given; exact An].
    destruct (MADE vals (all_now_len _ _ _ An)) as (s1' & mm & Ex' & St). rewrite Ex in Ex'. injection Ex' as <- <-. rewrite Eh. exact St.
Qed.
Lemma getnext_sent sys s vbl vbs vals0 dst cb com ver msg0 : good s -> has s vbl -> holds (hp s) vbl vbs -> all_now (hp s) (map IRef vbs) vals0 ->
  queues (flav sys) (h_next s) (AGetNext (VPyList vals0) dst cb (VPyStr com) ver) msg0 dst ->
  exists s1 m r, request_made sys s (HGetNext vbl dst cb (IStr com) ver) dst s1 m r /\
    forall tr s2 o d, gsteps sys s1 tr = Some s2 -> never_written r tr -> In (GSent (IRef m) o d) (h_log s2) ->
      d = dst /\ exists tr1 fuel tr2 sa, tr = tr1 ++ LSend fuel :: tr2 /\ gsteps sys s1 tr1 = Some sa /\
        forall vals msg, all_now (hp sa) (map IRef vbs) vals -> queues (flav sys) (h_next s) (AGetNext (VPyList vals) dst cb (VPyStr com) ver) msg dst -> sent_as msg fuel o.
Proof.
  intros Gs Hv Hd An (m & r & E & O).
  assert (CR : forall vals msg, queues (flav sys) (h_next s) (AGetNext (VPyList vals) dst cb (VPyStr com) ver) msg dst -> exists m1, createGetNextRequestMessage (flav sys) (VPyList vals) (VPyStr com) ver (mkMgr (h_next s) [] []) = (m1, Ok msg)).
  { intros vals msg (m1 & r1 & E1 & O1). cbn [do_call] in E1. apply mmap_ok in E1 as [w E1]. unfold snmpGetNext in E1. exact (queued_of _ _ _ _ _ _ _ (quiet_getnext _ _ _ _) E1 O1). }
  assert (Gp : gpost D s (Qmsg D (length (hp s))) (g_create_getnext (flav sys) vbl (IStr com) ver s)).
  { apply gp_create_getnext; [apply Gs|apply Gs|apply has_fine; assumption|apply has_fine; [exact Gs|apply has_str]]. }
  destruct (CR vals0 msg0) as [m0 E0]; [exists m, r; auto|].
  assert (FIN : forall c k n, kind_of c = KSeq -> msg_class k n -> g_create_getnext (flav sys) vbl (IStr com) ver s = gbind (g_pdu c vbl) (fun pdu => on_heap (h_message k n (IStr com) pdu)) s ->
    (forall vals m' msg, createGetNextRequestMessage (flav sys) (VPyList vals) (VPyStr com) ver (mkMgr (h_next s) [] []) = (m', Ok msg) ->
       (pdu <~ request_pdu c (VPyList vals) ;; lift (message_init k (VPyInt n) (VPyStr com) pdu)) (mkMgr (h_next s) [] []) = (m', Ok msg)) ->
    exists s1 m r, request_made sys s (HGetNext vbl dst cb (IStr com) ver) dst s1 m r /\
    forall tr s2 o d, gsteps sys s1 tr = Some s2 -> never_written r tr -> In (GSent (IRef m) o d) (h_log s2) ->
      d = dst /\ exists tr1 fuel tr2 sa, tr = tr1 ++ LSend fuel :: tr2 /\ gsteps sys s1 tr1 = Some sa /\
        forall vals msg, all_now (hp sa) (map IRef vbs) vals -> queues (flav sys) (h_next s) (AGetNext (VPyList vals) dst cb (VPyStr com) ver) msg dst -> sent_as msg fuel o).
  { intros c k n Kc Ck Ex Ev. destruct (shared_request sys s (HGetNext vbl dst cb (IStr com) ver) vbl vbs vals0 dst cb (g_create_getnext (flav sys) vbl (IStr com) ver) c k n com m0 msg0) as (s1 & m1 & r1 & A & B); try assumption.
    - constructor; [exact Hv|]. constructor; [apply has_str|constructor].
    - reflexivity.
    - eapply all_now_len; exact An.
    - apply Ev. exact E0.
    - exists s1, m1, r1. split; [exact A|]. intros tr s2 o d Es NW J. destruct (B tr s2 o d Es NW J) as (-> & tr1 & fuel & tr2 & sa & Et & Esa & W). split; [reflexivity|].
      exists tr1, fuel, tr2, sa. split; [exact Et|]. split; [exact Esa|]. intros vals msg An' Q. destruct (CR vals msg Q) as [m' E']. eapply W; [exact An'|]. apply Ev. exact E'. }
  clear CR. destruct (flav sys); cbn [createGetNextRequestMessage createGetNextRequestPDU] in E0 |- *.
  - apply (FIN CGetNext CMessage 0); [reflexivity|left; auto|reflexivity|auto].
  - discriminate E0.
  - destruct (ver =? 1) eqn:V1; [|destruct (ver =? 2) eqn:V2].
    + apply (FIN CGetNext CMessage 0); [reflexivity|left; auto| |].
      * cbn [g_create_getnext]. rewrite V1. unfold g_pdu_version, g_pdu. rewrite V1. reflexivity.
      * intros vals m' msg. unfold createGetNextRequestMessage, createGetNextRequestPDU. rewrite V1. unfold request_pdu_version, request_pdu. rewrite V1. auto.
    + apply (FIN CGetNext_v2 CMessage_v2 1); [reflexivity|right; auto| |].
      * cbn [g_create_getnext]. rewrite V1. unfold g_pdu_version, g_pdu. rewrite V1, V2. reflexivity.
      * intros vals m' msg. unfold createGetNextRequestMessage, createGetNextRequestPDU. rewrite V1. unfold request_pdu_version, request_pdu. rewrite V1, V2. auto.
    + exfalso. unfold request_pdu_version in E0. rewrite V1, V2 in E0. discriminate E0.
Qed.
Lemma gbind_assoc {A B C} (x : G A) (f : A -> G B) (g : B -> G C) s : gbind x (fun a => gbind (f a) g) s = gbind (gbind x f) g s.
Proof. unfold gbind. destruct (x s) as [s1 [a|]]; reflexivity. Qed.
Lemma mbind_assoc {A B C} (x : M A) (f : A -> M B) (g : B -> M C) m : mbind x (fun a => mbind (f a) g) m = mbind (mbind x f) g m.
Proof. unfold mbind. destruct (x m) as [s1 [a|]]; reflexivity. Qed.
Lemma setbindings_sent sys s vbl vbs vals0 dst cb com msg0 : good s -> has s vbl -> holds (hp s) vbl vbs -> all_now (hp s) (map IRef vbs) vals0 ->
  queues (flav sys) (h_next s) (ASetBindings (VPyList vals0) dst cb (VPyStr com)) msg0 dst ->
  exists s1 m r, request_made sys s (HSetBindings vbl dst cb (IStr com)) dst s1 m r /\
    forall tr s2 o d, gsteps sys s1 tr = Some s2 -> never_written r tr -> In (GSent (IRef m) o d) (h_log s2) ->
      d = dst /\ exists tr1 fuel tr2 sa, tr = tr1 ++ LSend fuel :: tr2 /\ gsteps sys s1 tr1 = Some sa /\
        forall vals msg, all_now (hp sa) (map IRef vbs) vals -> queues (flav sys) (h_next s) (ASetBindings (VPyList vals) dst cb (VPyStr com)) msg dst -> sent_as msg fuel o.
Proof.
  intros Gs Hv Hd An Q0.
  assert (CR : forall vals msg, queues (flav sys) (h_next s) (ASetBindings (VPyList vals) dst cb (VPyStr com)) msg dst -> flav sys = FV1 /\ exists m1, (pdu <~ request_pdu CGetNext (VPyList vals) ;; lift (message_init CMessage (VPyInt 0) (VPyStr com) pdu)) (mkMgr (h_next s) [] []) = (m1, Ok msg)).
  { intros vals msg (m1 & r1 & E1 & O1). cbn [do_call] in E1. apply mmap_ok in E1 as [w E1]. unfold snmpSet_bindings in E1. destruct (flav sys); try discriminate E1. split; [reflexivity|].
    rewrite mbind_assoc in E1. refine (queued_of _ _ _ _ _ _ _ _ E1 O1). apply quiet_bind; [apply quiet_pdu|intros; apply quiet_lift]. }
  destruct (CR vals0 msg0 Q0) as [Ef [m0 E0]].
  assert (Fv : fine D (hp s) vbl) by (apply has_fine; assumption). assert (Fc : fine D (hp s) (IStr com)) by (apply has_fine; [exact Gs|apply has_str]).
  destruct (shared_request sys s (HSetBindings vbl dst cb (IStr com)) vbl vbs vals0 dst cb (gbind (g_pdu CGetNext vbl) (fun pdu => g_message1 (IStr com) pdu)) CGetNext CMessage 0 com m0 msg0) as (s1 & m1 & r1 & A & B); try assumption.
  - constructor; [exact Hv|]. constructor; [apply has_str|constructor].
  - cbn [g_call]. rewrite Ef. apply gbind_assoc.
  - apply (gp_finish D s (length (hp s)) (IStr com) 0 false); [apply Gs|exact Fc|lia|]. apply gp_pdu; [apply Gs|apply Gs|exact Fv].
  - reflexivity.
  - reflexivity.
  - left; auto.
  - eapply all_now_len; exact An.
  - exists s1, m1, r1. split; [exact A|]. intros tr s2 o d Es NW J. destruct (B tr s2 o d Es NW J) as (-> & tr1 & fuel & tr2 & sa & Et & Esa & W). split; [reflexivity|].
    exists tr1, fuel, tr2, sa. split; [exact Et|]. split; [exact Esa|]. intros vals msg An' Q. destruct (CR vals msg Q) as [_ [m' E']]. eapply W; [exact An'|exact E'].
Qed.

(** ** snmpTrap: the PDU is the user's own object *)
Lemma trap_sent sys s pdu dst com ver : good s -> has s pdu -> flav sys <> FSM ->
  exists s1 m, gstep sys s (UCall (HTrap dst pdu (IStr com) ver)) = Some s1 /\ (length (hp s) <= m < length (hp s1))%nat /\ h_out s1 = h_out s ++ [(IRef m, dst)] /\
    h_log s1 = h_log s ++ [GQueued (IRef m) dst; GReturned (Ok INone)] /\
    forall tr s2 o d, gsteps sys s1 tr = Some s2 -> In (GSent (IRef m) o d) (h_log s2) ->
      d = dst /\ exists tr1 fuel tr2 sa, tr = tr1 ++ LSend fuel :: tr2 /\ gsteps sys s1 tr1 = Some sa /\
        forall v msg, now (hp sa) pdu v -> queues (flav sys) (h_next s) (ATrap dst v (VPyStr com) ver) msg dst -> sent_as msg fuel o.
Proof.
  intros Gs Hp Ff.
  assert (X : exists k n, msg_class k n /\ (forall s', g_call (flav sys) (HTrap dst pdu (IStr com) ver) s' = gbind (on_heap (h_message k n (IStr com) pdu)) (fun m => gbind (g_put m dst) (fun _ => gret INone)) s') /\
    forall v msg, queues (flav sys) (h_next s) (ATrap dst v (VPyStr com) ver) msg dst -> message_val msg = VSeq k [VInt CInteger n; VOct COctetString (VPyStr com); v]).
  { destruct (flav sys); [exists CMessage, 0|exists CMessage_v2, 1|contradiction]; (split; [unfold msg_class; auto|]; split; [reflexivity|]); intros v msg (m & r & E & O); cbn in E; inversion E; subst; cbn in O; inversion O; reflexivity. }
  destruct X as (k & n & Ck & Eg & Ev). pose proof (knows_has s [pdu; IStr com]) as Kn.
  assert (K : knows s (flat_map item_refs (call_items (HTrap dst pdu (IStr com) ver))) = true) by (apply Kn; constructor; [exact Hp|constructor; [apply has_str|constructor]]). clear Kn.
  set (W0 := fun (l : loc) (v : val) => False). set (S0 := fun l => (length (hp s) <= l)%nat).
  assert (MD : forall W dv, stands S0 W (hp s) pdu dv -> exists t a, h_message k n (IStr com) pdu (hp s) = (hp s ++ t, Ok a) /\ stands S0 W (hp s ++ t) a (VSeq k [VInt CInteger n; VOct COctetString (VPyStr com); dv])).
  { intros W dv St. apply made_message; [lia|exact Ck|exact St]. }
  destruct (MD (fun l v => True) (match pdu with INone => VNone | IInt z => VPyInt z | IStr s => VPyStr s | IRef _ => VNone end)) as (t & a & Em & _). { destruct pdu; constructor. exact Logic.I. }
  assert (Ck' : k = CMessage \/ k = CMessage_v2) by (unfold msg_class in Ck; tauto).
  destruct (message_ok k n (IStr com) pdu (hp s) (hp s ++ t) a Ck' Em) as (m & c & l & v & kk & -> & L1 & L2 & Nm & Cm).
  set (s1 := g_say [GReturned (Ok INone)] (learn [] (mkH (hp s ++ t) (known s) (h_next s) (h_out s ++ [(IRef m, dst)]) (h_cbs s) (h_stack s) (h_log s ++ [GQueued (IRef m) dst])))).
  assert (E1 : gstep sys s (UCall (HTrap dst pdu (IStr com) ver)) = Some s1).
  { cbn [gstep]. rewrite K, Eg. unfold gbind, on_heap. rewrite Em. reflexivity. }
  pose proof (req_good _ _ _ _ Gs E1) as G1.
  exists s1, m. split; [exact E1|]. split; [split; [exact L2|apply Nat.eq_le_incl; symmetry; exact L1]|]. split; [reflexivity|]. split; [cbn; rewrite <- app_assoc; reflexivity|].
  intros tr s2 o d Es J.
  destruct (private sys s s1 m dst none t [] tr s2 o d) as (Ed & tr1 & fuel & tr2 & sa & B1 & B2 & B3 & B4); try assumption; try reflexivity.
  - intros y. right. intros [].
  - intros y [].
  - intros y [].
  - intros [].
  - cbn. intros rr dd Jr. apply in_app_or in Jr as [Jr|[Jr|[]]]; [|discriminate]. apply in_app_or in Jr as [Jr|[Jr|[]]]; [|discriminate]. apply (proj2 (proj2 Gs)) in Jr. lia.
  - apply none_spared.
  - split; [exact Ed|]. exists tr1, fuel, tr2, sa. split; [exact B1|]. split; [exact B2|]. intros v' msg Nv Q. apply comes_sent. rewrite (Ev v' msg Q), B4.
    set (W := fun l w => pdu = IRef l /\ now (hp sa) (IRef l) w).
    destruct (MD W v') as (t' & a' & Em' & St). { destruct pdu as [|z|st|p]; [inversion Nv; constructor|inversion Nv; constructor|inversion Nv; constructor|]. apply st_given. split; [reflexivity|exact Nv]. }
    rewrite Em in Em'. injection Em' as Et <-. apply app_inv_head in Et. subst t'.
    apply result_of with (S := S0) (W := W) (h := hp s ++ t).
    + exists c. eexists. split; [exact Nm|]. destruct Cm as [->| ->]; reflexivity.
    + exact L2.
    + exact St.
    + intros y cy Ly Ny. change (hp s ++ t) with (hp s1) in Ny. rewrite B3; [exact Ny|]. split; [exact Ly|]. eapply lt_of. exact Ny.
    + intros l0 w [_ A]. exact A.
Qed.

(** ** What steps leave alone *)
Lemma send_current sys s s' fuel : gstep sys s (LSend fuel) = Some s' -> exists m dst o, h_out s = (m, dst) :: h_out s' /\ h_log s' = h_log s ++ [GSent m o dst] /\
  (forall os, o = Ok os -> exists v, now (hp s') m v /\ encode v = Ok os) /\
  (forall n c d, m = IRef n -> nth_error (hp s) n = Some (PObj c d) -> kind_of c = KMsg -> forall v, now (hp s) m v -> now (hp s') m v /\ ((vsize v <= fuel)%nat -> o = encode v)).
Proof.
  cbn [gstep]. destruct (h_out s) as [|[m dst] q] eqn:Eq; [discriminate|]. destruct (h_encode_message fuel m (hp s)) as [h o] eqn:Eh. intros E. injection E as <-.
  exists m, dst, o. cbn [h_out h_log hp]. split; [reflexivity|]. split; [reflexivity|]. split.
  - intros os ->. destruct (encode_message_shape fuel m (hp s)) as [[r X]|(n & c & d & v & com & dat & -> & N & A1 & A2 & A3 & X)]; rewrite X in Eh; [discriminate|]. injection Eh as <- Eh.
    apply h_encode_ok in Eh. exact Eh.
  - intros n c d -> N K v Nv. destruct (encode_message_now fuel n (hp s) v Nv) as (h' & X & Nw); [exists c, d; auto|]. rewrite X in Eh. injection Eh as -> Eo. split; [exact Nw|]. intros L. rewrite <- Eo. apply (proj1 (h_encode_now h)); assumption.
Qed.
Lemma library_step sys s l s' x c : good s -> gstep sys s l = Some s' -> (forall y d, l <> UWrite y d) -> (forall v y, l <> UCall (HAppend v y)) -> nth_error (hp s) x = Some c ->
  nth_error (hp s') x = Some c \/ exists fuel dst q, l = LSend fuel /\ h_out s = (IRef x, dst) :: q.
Proof.
  intros Gs E NW NA N. destruct l as [c0|x0|x0 c0|a|fuel|depth d| |e]; cbn [gstep] in E.
  - destruct (knows _ _); [|discriminate]. injection E as <-. left. apply nth_ext. exact N.
  - destruct (knows _ _); [|discriminate]. destruct (nth_error (hp s) x0); [|discriminate]. injection E as <-. left. exact N.
  - exfalso. eapply NW. reflexivity.
  - destruct (knows s (flat_map item_refs (call_items a))) eqn:K; [|discriminate].
    assert (F : Forall (fine D (hp s)) (call_items a)) by (apply knows_items; [apply Gs|exact K]).
    destruct (g_call_grows D s (flav sys) a) as (t & Et); [apply Gs|apply Gs|exact F|intros v y ->; eapply NA; reflexivity|].
    destruct (g_call (flav sys) a s) as [s1 r]. cbn [fst] in Et. injection E as <-. left. cbn. rewrite Et. apply nth_ext. exact N.
  - destruct (h_out s) as [|[m dst] q] eqn:Eq; [discriminate|]. destruct (h_encode_message fuel m (hp s)) as [h o] eqn:Eh. injection E as <-. cbn [hp].
    destruct (encode_message_shape fuel m (hp s)) as [[r X]|(n & c' & d & v & com & dat & -> & Nn & A1 & A2 & A3 & X)]; rewrite X in Eh; injection Eh as <- _; [left; exact N|].
    destruct (Nat.eq_dec x n) as [->|Ne]; [right; eauto|]. left. rewrite set_cell_other; [apply nth_ext; exact N|rewrite app_length; apply lt_of in Nn; lia|exact Ne].
  - injection E as <-. left. unfold g_receive. destruct (Manager.receiveData sys _ depth d) as [[r|id cb|cb] om]; [exact N| |];
      (destruct om as [msg|]; [|exact N]; destruct (keep_make_message D (hp s) msg) as (t & Et & _); [apply Gs|]; destruct (h_make_message msg (hp s)) as [h [m|]]; cbn [fst] in Et; [|exact N]; cbn; rewrite Et; apply nth_ext; exact N).
  - left. destruct (h_stack s) as [|[m|m] k]; [discriminate| |]; injection E as <-; [|exact N]. unfold g_return. destruct (d <- _ ;; _) as [n|]; [destruct (e_get _ _ _ n)|]; exact N.
  - left. destruct (h_stack s); [discriminate|]. injection E as <-. exact N.
Qed.
Lemma append_step sys s v y s' x c : gstep sys s (UCall (HAppend v y)) = Some s' -> nth_error (hp s) x = Some c ->
  nth_error (hp s') x = Some c \/ exists l, attr_of (hp s) v Avalue = Ok (IRef x) /\ c = PList l /\ nth_error (hp s') x = Some (PList (l ++ [y])).
Proof.
  intros E N. cbn [gstep] in E. destruct (knows _ _); [|discriminate]. cbn [g_call] in E. unfold on_heap in E. destruct (h_append v CVarBind y (hp s)) as [h r] eqn:Eh. injection E as <-. cbn [hp g_say learn].
  unfold h_append in Eh. destruct (negb _); [injection Eh as <- _; left; exact N|]. destruct (attr_of (hp s) v Avalue) as [[| | |l]|]; try (injection Eh as <- _; left; exact N).
  destruct (nth_error (hp s) l) as [[z|]|] eqn:Nl; try (injection Eh as <- _; left; exact N). injection Eh as <- _. pose proof (lt_of _ _ _ Nl) as Ll.
  destruct (Nat.eq_dec x l) as [->|Ne]; [right|left; rewrite set_cell_other; assumption]. exists z. rewrite N in Nl. injection Nl as ->. split; [reflexivity|]. split; [reflexivity|]. apply set_cell_at. exact Ll.
Qed.

(** ** The dictionary *)
Lemma e_set_in f h d n k cb e' : In e' (e_set f h d n k cb) -> (exists e, In e d /\ e_hash e = e_hash e' /\ e_key e = e_key e') \/ (e_hash e' = n /\ e_key e' = k /\ e_cb e' = cb).
Proof.
  induction d as [|e d IH]; cbn [e_set]; [intros [<-|[]]; right; auto|]. destruct (matches f h n e).
  - intros [<-|J]; left; [exists e; cbn; auto|exists e'; cbn; auto].
  - intros [<-|J]; [left; exists e; cbn; auto|]. destruct (IH J) as [(e0 & J0 & A)|A]; [left; exists e0; cbn; auto|right; exact A].
Qed.
Lemma e_del_in f h d n e : In e (e_del f h d n) -> In e d.
Proof. induction d as [|e0 d IH]; cbn [e_del]; [auto|]. destruct (matches f h n e0); [cbn; auto|]. intros [<-|J]; cbn; auto. Qed.
Definition key_made (f : flavour) (s s' : hstate) (e : entry) : Prop :=
  match f with
  | FSM => exists x c, e_key e = IRef x /\ (length (hp s) <= x)%nat /\ nth_error (hp s') x = Some (PObj c [(Avalue, IInt (e_hash e))]) /\ kind_of c = KInt /\ qfree x (h_out s')
  | _ => e_key e = IInt (e_hash e)
  end.
Lemma on_heap_cbs {A} (x : H A) s : h_cbs (fst (on_heap x s)) = h_cbs s.
Proof. unfold on_heap. destruct (x (hp s)). reflexivity. Qed.
Lemma call_cbs f a s : okh D (hp s) -> defaults_ok (hp s) -> Forall (fine D (hp s)) (call_items a) -> request_of a = None -> h_cbs (fst (g_call f a s)) = h_cbs s.
Proof.
  intros O Df F R. destruct a; try discriminate R; cbn [g_call].
  - destruct f.
    + unfold gbind, g_message1, on_heap. destruct (h_message CMessage 0 community pdu (hp s)) as [h [m|]]; reflexivity.
    + unfold gbind, g_message2, on_heap. destruct (h_message CMessage_v2 1 community pdu (hp s)) as [h [m|]]; reflexivity.
    + destruct (_ || _); reflexivity.
  - apply on_heap_cbs.
  - apply on_heap_cbs.
  - apply on_heap_cbs.
  - apply on_heap_cbs.
  - apply on_heap_cbs.
  - apply on_heap_cbs.
Qed.
Lemma step_cbs sys s l s' : good s -> gstep sys s l = Some s' -> forall e', In e' (h_cbs s') ->
  (exists e, In e (h_cbs s) /\ e_hash e = e_hash e' /\ e_key e = e_key e') \/ key_made (flav sys) s s' e'.
Proof.
  intros Gs E e' J. assert (SAME : h_cbs s' = h_cbs s -> (exists e, In e (h_cbs s) /\ e_hash e = e_hash e' /\ e_key e = e_key e')) by (intros X; rewrite X in J; exists e'; auto).
  destruct l as [c0|x0|x0 c0|a|fuel|depth d| |e]; cbn [gstep] in E.
  - destruct (knows _ _); [|discriminate]. injection E as <-. left. apply SAME. reflexivity.
  - destruct (knows _ _); [|discriminate]. destruct (nth_error (hp s) x0); [|discriminate]. injection E as <-. left. apply SAME. reflexivity.
  - destruct (knows _ _); [|discriminate]. injection E as <-. left. apply SAME. reflexivity.
  - destruct (knows s (flat_map item_refs (call_items a))) eqn:K; [|discriminate].
    assert (F : Forall (fine D (hp s)) (call_items a)) by (apply knows_items; [apply Gs|exact K]).
    destruct (request_of a) as [[dst cb]|] eqn:R.
    + pose proof (request_ok D s (flav sys) a dst cb (i_ok _ _ (proj1 Gs)) (i_defaults _ _ (proj1 Gs)) F R) as ((t & Et) & _ & _ & _ & Q). destruct (g_call (flav sys) a s) as [s1 r]. cbn [fst snd] in *. injection E as <-.
      destruct r as [i|e]; [|left; apply SAME; cbn; apply Q]. destruct Q as (n & x & d0 & z & -> & Q1 & Q2 & Fn & (n' & c & l & v & k & Xn & L1 & L2 & N & C) & (p & x' & Xd & Xr & A & (ci & zi & Ni & Ki) & X1 & X2 & X3) & Z & Cb). injection Xn as <-. injection Xr as <-.
      cbn in J. rewrite Cb in J. apply e_set_in in J as [J|(J1 & J2 & _)]; [left; exact J|right].
      unfold key_made. destruct (flav sys); [rewrite J1; exact J2|rewrite J1; exact J2|].
      assert (zi = z). { unfold key_num in Z. unfold is_a, class_at in Z. rewrite Ni in Z. destruct (issubclass ci CInteger); [|discriminate]. rewrite (attr_at _ _ _ _ Avalue (IInt zi) Ni eq_refl) in Z. cbn in Z. injection Z as ->. reflexivity. }
      subst zi. exists x, ci. rewrite J1. split; [exact J2|]. split; [exact X1|]. split; [exact Ni|]. split; [exact Ki|].
      intros pp Jp Ep. cbn in Jp. rewrite Q1 in Jp. apply in_app_or in Jp as [Jp|[<-|[]]].
      * destruct Gs as (_ & Qs & _). rewrite Forall_forall in Qs. destruct (Qs pp Jp x Ep) as [Lx _]. lia.
      * cbn [fst] in Ep. injection Ep as ->. rewrite N in Ni. discriminate.
    + pose proof (call_cbs (flav sys) a s (i_ok _ _ (proj1 Gs)) (i_defaults _ _ (proj1 Gs)) F R) as X. destruct (g_call (flav sys) a s) as [s1 r]. injection E as <-. left. apply SAME. exact X.
  - destruct (h_out s) as [|[m dst] q]; [discriminate|]. destruct (h_encode_message fuel m (hp s)). injection E as <-. left. apply SAME. reflexivity.
  - injection E as <-. left. apply SAME. unfold g_receive. destruct (Manager.receiveData sys _ depth d) as [[r|id cb|cb] om]; [reflexivity| |]; (destruct om as [msg|]; [|reflexivity]; destruct (h_make_message msg (hp s)) as [h [m|]]; reflexivity).
  - destruct (h_stack s) as [|[m|m] k]; [discriminate| |]; injection E as <-; [|left; apply SAME; reflexivity]. unfold g_return in J, SAME. cbn [hp with_stack] in J, SAME.
    destruct (d <- _ ;; _) as [n|]; [|left; apply SAME; reflexivity]. destruct (e_get _ _ _ n); [|left; apply SAME; reflexivity]. cbn in J. apply e_del_in in J. left. exists e'. auto.
  - destruct (h_stack s); [discriminate|]. injection E as <-. left. apply SAME. reflexivity.
Qed.
Lemma keys_plain sys tr : flav sys <> FSM -> forall s, gexec sys tr = Some s -> forall e, In e (h_cbs s) -> e_key e = IInt (e_hash e).
Proof.
  intros F. unfold gexec. assert (G : forall tr s s', good s -> (forall e, In e (h_cbs s) -> e_key e = IInt (e_hash e)) -> gsteps sys s tr = Some s' -> forall e, In e (h_cbs s') -> e_key e = IInt (e_hash e)).
  { clear tr. induction tr as [|l tr IH]; intros s s' Gs H E; cbn [gsteps] in E; [injection E as <-; exact H|]. destruct (gstep sys s l) as [s1|] eqn:E1; [|discriminate].
    apply (IH s1 s'); [eapply good_step; eassumption| |exact E]. intros e J. destruct (step_cbs sys s l s1 Gs E1 e J) as [(e0 & J0 & A & B)|A]; [rewrite <- A, <- B; auto|]. unfold key_made in A. destruct (flav sys); [exact A|exact A|contradiction]. }
  intros s E e J. eapply G; [apply good_init| |exact E|exact J]. intros e0 [].
Qed.
Definition key_kept (s : hstate) (x : loc) (z : Z) : Prop := (exists c, nth_error (hp s) x = Some (PObj c [(Avalue, IInt z)]) /\ kind_of c = KInt) /\ qfree x (h_out s) .
Lemma keys_manager sys tr : flav sys = FSM -> forall s, gexec sys tr = Some s -> forall e, In e (h_cbs s) -> exists x, e_key e = IRef x /\ (never_written x tr -> matches FSM (hp s) (e_hash e) e = true).
Proof.
  intros F. unfold gexec. assert (G : forall tr s s' (Wr : loc -> Prop), good s -> (forall e, In e (h_cbs s) -> exists x, e_key e = IRef x /\ (x < length (hp s))%nat /\ ~ D x /\ (Wr x \/ key_kept s x (e_hash e))) -> gsteps sys s tr = Some s' ->
     forall e, In e (h_cbs s') -> exists x, e_key e = IRef x /\ (Wr x \/ (exists c, In (UWrite x c) tr) \/ key_kept s' x (e_hash e))).
  { clear tr. induction tr as [|l tr IH]; intros s s' Wr Gs H E; cbn [gsteps] in E; [injection E as <-; intros e J; destruct (H e J) as (x & A & _ & _ & [B|B]); exists x; auto|]. destruct (gstep sys s l) as [s1|] eqn:E1; [|discriminate].
    destruct (good_step sys s l s1 Gs E1) as (G1 & [Le _] & M1).
    intros e J. destruct (IH s1 s' (fun x => Wr x \/ exists c, l = UWrite x c) G1) with (e := e) as (x & A & B); [|exact E|exact J|].
    - intros e0 J0. destruct (step_cbs sys s l s1 Gs E1 e0 J0) as [(e1 & J1 & A & B)|A].
      + destruct (H e1 J1) as (x & Kx & Lx & Dx & B1). exists x. rewrite <- B, <- A. split; [exact Kx|]. split; [lia|]. split; [exact Dx|]. destruct B1 as [B1|[(c & N & K) Qf]]; [auto|].
        assert (Dec : (exists c, l = UWrite x c) \/ forall c, l <> UWrite x c). { destruct l as [|?|y c'|?|?|? ?| |?]; try (right; discriminate). destruct (Nat.eq_dec y x) as [->|Ne]; [left; eauto|right]. intros c'' X. injection X as -> _. contradiction. }
        destruct Dec as [W|NW]; [auto|]. right.
        destruct (step_keep sys D (fun y => y = x) s l s1) as (_ & [_ Kp] & Mv); [apply Gs|intros y ->; eauto| |intros y c' -> ->; eapply NW; reflexivity|exact E1|].
        { intros p q fuel Eq _ n En. destruct Gs as (_ & Qs & _). rewrite Eq in Qs. inversion Qs as [|? ? Q1 _]; subst. destruct (Q1 n En) as (Q2 & Q3 & _). split; [exact Q2|]. split; [exact Q3|]. intros ->. eapply Qf; [rewrite Eq; left; reflexivity|exact En]. }
        split; [exists c; split; [rewrite Kp by auto; exact N|exact K]|]. intros p Jp Ep. destruct Mv as [fuel m dst r _ E2 _ _|q ev E2 E3 _ _ _].
        * eapply Qf; [rewrite E2; right; exact Jp|exact Ep].
        * rewrite E2 in Jp. apply in_app_or in Jp as [Jp|Jp]; [eapply Qf; eassumption|]. rewrite Forall_forall in E3. destruct (E3 p Jp) as [X|(n & X & Ln & _)]; rewrite Ep in X; [discriminate|]. injection X as ->. lia.
      + unfold key_made in A. rewrite F in A. destruct A as (x & c & Kx & Lx & N & K & Qf). exists x. split; [exact Kx|]. split; [eapply lt_of; exact N|].
        split; [intros Dx; pose proof (defaults_len _ (i_defaults _ _ (proj1 Gs))); unfold D in Dx; lia|]. right. split; [exists c; auto|exact Qf].
    - exists x. split; [exact A|]. destruct B as [[B|[c B]]|[[c B]|B]]; [auto| | |auto]; right; left; exists c; cbn; auto. }
  intros s E e J. destruct (G tr h_init s (fun _ => False) good_init) with (e := e) as (x & A & B); [intros e0 []|exact E|exact J|]. exists x. split; [exact A|]. intros NW.
  destruct B as [[]|[[c B]|[(c & N & K) _]]]; [exfalso; eapply NW; exact B|]. unfold matches. rewrite A, Z.eqb_refl. cbn [andb key_num].
  assert (is_a (hp s) (IRef x) CInteger = true) as I. { unfold is_a, class_at. rewrite N. destruct c; try discriminate K; reflexivity. } rewrite I, (attr_at _ _ _ _ Avalue (IInt (e_hash e)) N eq_refl). cbn [bind]. rewrite Z.eqb_refl. reflexivity.
Qed.
