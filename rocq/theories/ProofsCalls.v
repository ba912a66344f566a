(** * Proofs about single calls: what is queued, and when ids run out. *)
From Coq Require Import ZArith List Bool Lia ZifyBool ZifyNat.
From Verif Require Import PyBase Classes Values Codec Manager SpecSMI SpecTree SpecWire SpecMsg SpecManager ProofsTree ProofsWire ProofsMsg ProofsManager.
Import ListNotations.
Open Scope Z_scope.

(** ** Building a PDU *)
Definition items_of (v : val) (items : list val) : Prop := components v = Some items \/ (falsy v /\ items = []).
Lemma iter_components v l : py_iter v = Ok l -> components v = Some l.
Proof. destruct v as [| | | | | |[|]| |]; cbn; intros H; inversion H; reflexivity. Qed.
Lemma appends_ok ct items : forall acc l, sequenceof_appends ct acc items = Ok l -> l = acc ++ items.
Proof.
  induction items as [|x items IH]; cbn; intros acc l H; [rewrite app_nil_r; inversion H; reflexivity|].
  unfold sequenceof_append in H. destruct (isinstance x ct); cbn in H; [|discriminate]. apply IH in H. rewrite H, <- app_assoc. reflexivity.
Qed.
Lemma sequenceof_init_ok c ct v w : sequenceof_init c ct v = Ok w -> exists items, w = VSeq c items /\ items_of v items.
Proof.
  unfold sequenceof_init. destruct (truthy v) eqn:T; intros H.
  - inv_bind H. apply appends_ok in E0. inversion H; subst. cbn. eexists; split; [reflexivity|]. left. apply iter_components. exact E.
  - inversion H; subst. eexists; split; [reflexivity|]. right. split; [|reflexivity]. apply truthy_falsy. exact T.
Qed.
Definition rid_class (c : cls) : cls := if issubclass c CPDU_v2 then CInteger32 else CInteger.
(** What pdu_init makes of a plain id, with the default status and index. *)
Definition made_pdu (c : cls) (r : Z) (items : list val) : val :=
  VSeq c [VInt (rid_class c) r; VInt (if issubclass c CPDU_v2 then CErrorStatus_v2 else CErrorStatus) 0; VInt CInteger 0;
          VSeq (if issubclass c CPDU_v2 then CVarBindList_v2 else CVarBindList) items].
Lemma pdu_init_spec c vbl : exists (r0 : res (list val)), 
  (forall items, r0 = Ok items -> items_of vbl items) /\
  forall r, pdu_init c (VPyInt r) (VPyInt 0) (VPyInt 0) vbl =
    if (MINVAL (rid_class c) <=? r) && (r <=? MAXVAL (rid_class c)) then
      match r0 with
      | Ok items => Ok (made_pdu c r items)
      | Err e => Err e
      end
    else Err ValueError.
Proof.
  unfold made_pdu, rid_class, pdu_init. destruct (issubclass c CPDU_v2).
  - exists (w <- varbindlist_v2_init vbl ;; match w with VSeq _ l => Ok l | _ => Err TypeError end).
    destruct (varbindlist_v2_init vbl) as [w|e] eqn:E; cbn [bind].
    + assert (G : exists items, w = VSeq CVarBindList_v2 items /\ items_of vbl items).
      { unfold varbindlist_v2_init in E. destruct (py_len vbl); cbn [bind] in E; [|discriminate]. destruct (_ <? _); [discriminate|].
        apply sequenceof_init_ok in E. exact E. }
      destruct G as (items & -> & G). split; [intros it H; inversion H; subst; exact G|].
      intros r. unfold pdu_v2_init. change (gt_max_bindings (VPyInt 0)) with (@Ok bool false). cbn [bind]. cbv iota.
      unfold integer_init at 1. destruct (_ && _); [|reflexivity]. cbn [bind].
      change (integer_init CErrorStatus_v2 (VPyInt 0)) with (@Ok val (VInt CErrorStatus_v2 0)). change (integer_init CInteger (VPyInt 0)) with (@Ok val (VInt CInteger 0)).
      cbn [bind]. rewrite E. reflexivity.
    + split; [discriminate|]. intros r. unfold pdu_v2_init. change (gt_max_bindings (VPyInt 0)) with (@Ok bool false). cbn [bind]. cbv iota.
      unfold integer_init at 1. destruct (_ && _); [|reflexivity]. cbn [bind].
      change (integer_init CErrorStatus_v2 (VPyInt 0)) with (@Ok val (VInt CErrorStatus_v2 0)). change (integer_init CInteger (VPyInt 0)) with (@Ok val (VInt CInteger 0)).
      cbn [bind]. rewrite E. reflexivity.
  - exists (w <- varbindlist_init vbl ;; match w with VSeq _ l => Ok l | _ => Err TypeError end).
    destruct (varbindlist_init vbl) as [w|e] eqn:E; cbn [bind].
    + destruct (sequenceof_init_ok _ _ _ _ E) as (items & -> & G). split; [intros it H; inversion H; subst; exact G|].
      intros r. unfold pdu_v1_init. unfold integer_init at 1. destruct (_ && _); [|reflexivity]. cbn [bind].
      change (integer_init CErrorStatus (VPyInt 0)) with (@Ok val (VInt CErrorStatus 0)). change (integer_init CInteger (VPyInt 0)) with (@Ok val (VInt CInteger 0)).
      cbn [bind]. rewrite E. reflexivity.
    + split; [discriminate|]. intros r. unfold pdu_v1_init. unfold integer_init at 1. destruct (_ && _); [|reflexivity]. cbn [bind].
      change (integer_init CErrorStatus (VPyInt 0)) with (@Ok val (VInt CErrorStatus 0)). change (integer_init CInteger (VPyInt 0)) with (@Ok val (VInt CInteger 0)).
      cbn [bind]. rewrite E. reflexivity.
Qed.

(** ** The normal form of a request call *)
(** [req_form f a e0 c r0]: the call fails at once with [e0] before taking an id, or takes an id, and then fails
    with [e], or makes a PDU of class [c] from items. *)
Inductive form := Early (e : exn) | Late (e : exn) | Made (c : cls) (r0 : res (list val)).
Definition form_result (mk : val -> message) (fm : form) (remote : address) (cb : cbval) (m : mgr) : mgr * res answer :=
  let m1 := mkMgr (nextRequestID m + 1) (outbound m) (callbacks m) in
  match fm with
  | Early e => (m, Err e)
  | Late e => (m1, Err e)
  | Made c r0 =>
      if (MINVAL (rid_class c) <=? nextRequestID m) && (nextRequestID m <=? MAXVAL (rid_class c)) then
        match r0 with
        | Ok items => (mkMgr (nextRequestID m + 1) (outbound m ++ [(Some (mk (made_pdu c (nextRequestID m) items)), remote)])
                             (dict_set (callbacks m) (nextRequestID m) cb), Ok (RVal (VInt (rid_class c) (nextRequestID m))))
        | Err e => (m1, Err e)
        end
      else (m1, Err ValueError)
  end.
Definition mk1 (com pdu : val) : message := mkMsg CMessage (VInt CInteger 0) (VOct COctetString com) pdu [].
Definition mk2 (com pdu : val) : message := mkMsg CMessage_v2 (VInt CInteger 1) (VOct COctetString com) pdu [].
Lemma request_form c vbl (fin : val -> M message) mk remote cb : (forall pdu m, fin pdu m = (m, Ok (mk pdu))) -> (forall pdu, m_data (mk pdu) = pdu) ->
  exists r0, (forall items, r0 = Ok items -> items_of vbl items) /\
    forall m, mmap RVal (msg <~ (pdu <~ request_pdu c vbl ;; fin pdu) ;; queue_request msg remote cb) m = form_result mk (Made c r0) remote cb m.
Proof.
  intros F D. destruct (pdu_init_spec c vbl) as (r0 & R & P). exists r0. split; [exact R|]. intros m.
  unfold mmap, mbind at 1 2, request_pdu, mbind, assignRequestID, lift. rewrite P. cbn [form_result].
  destruct (_ && _); [|reflexivity]. destruct r0 as [items|e]; [|reflexivity]. rewrite F.
  unfold queue_request, mbind, put, lift, register, ret. rewrite D. reflexivity.
Qed.
Lemma early_form {A} (r : res A) (k : A -> M message) (mk : val -> message) remote cb (Q : form -> Prop) :
  (forall e, r = Err e -> Q (Early e)) ->
  (forall a, r = Ok a -> exists fm, Q fm /\ forall m, mmap RVal (msg <~ k a ;; queue_request msg remote cb) m = form_result mk fm remote cb m) ->
  exists fm, Q fm /\ forall m, mmap RVal (msg <~ (x <~ lift r ;; k x) ;; queue_request msg remote cb) m = form_result mk fm remote cb m.
Proof.
  intros E K. destruct r as [a|e].
  - destruct (K a eq_refl) as (fm & Qf & H). exists fm. split; [exact Qf|]. exact H.
  - exists (Early e). split; [apply E; reflexivity|]. reflexivity.
Qed.
Lemma version_form c1 c2 vbl ver (fin : val -> M message) mk remote cb : (forall pdu m, fin pdu m = (m, Ok (mk pdu))) -> (forall pdu, m_data (mk pdu) = pdu) ->
  exists fm, (forall c r0, fm = Made c r0 -> (ver = 1 /\ c = c1 \/ ver = 2 /\ c = c2) /\ forall items, r0 = Ok items -> items_of vbl items) /\
    forall m, mmap RVal (msg <~ (pdu <~ request_pdu_version c1 c2 vbl ver ;; fin pdu) ;; queue_request msg remote cb) m = form_result mk fm remote cb m.
Proof.
  intros F D. unfold request_pdu_version. destruct (Z.eqb_spec ver 1) as [->|N1].
  - destruct (request_form c1 vbl fin mk remote cb F D) as (r0 & R & H). exists (Made c1 r0). split; [|exact H].
    intros c r1 E. injection E as <- <-. auto.
  - destruct (Z.eqb_spec ver 2) as [->|N2].
    + destruct (request_form c2 vbl fin mk remote cb F D) as (r0 & R & H). exists (Made c2 r0). split; [|exact H].
      intros c r1 E. injection E as <- <-. auto.
    + exists (Late UnboundLocalError). split; [discriminate|]. reflexivity.
Qed.
Lemma Forall2_weaken {A B} (P Q : A -> B -> Prop) l l' : (forall a b, P a b -> Q a b) -> Forall2 P l l' -> Forall2 Q l l'.
Proof. intros H. induction 1; constructor; auto. Qed.
Lemma mapM_Forall2 {A B} (f : A -> res B) l l' : mapM f l = Ok l' -> Forall2 (fun a b => f a = Ok b) l l'.
Proof.
  revert l'. induction l as [|a l IH]; cbn; intros l' H; [inversion H; constructor|]. inv_bind H. inversion H; subst. constructor; auto.
Qed.
Lemma null_binding_ok c oid it : (c = CVarBind \/ c = CVarBind_v2) -> null_binding c oid = Ok it -> exists n, oid_init oid = Ok n /\ binds n (VNull CNull) it.
Proof.
  intros Hc H. unfold null_binding in H. inv_bind H. apply varbind_init_iff in H as (_ & _ & ->). exists a. split; [reflexivity|]. exists c. auto.
Qed.
Lemma vbl1_items vb w items : varbindlist_init (VPyList [vb]) = Ok w -> items_of w items -> items = [vb].
Proof.
  intros H I. apply sequenceof_init_ok in H as (l & -> & [L|[F _]]); [|destruct F].
  cbn in L. injection L as <-. destruct I as [I|[F ->]]; [cbn in I; congruence|]. destruct F.
Qed.
Lemma vbl2_items l w items : varbindlist_v2_init (VPyList l) = Ok w -> items_of w items -> items = l.
Proof.
  intros H I. unfold varbindlist_v2_init in H. inv_bind H. destruct (_ <? _); [discriminate|].
  apply sequenceof_init_ok in H as (l' & -> & L).
  assert (l' = l). { destruct L as [L|[F ->]]; [cbn in L; congruence|]. destruct l; [reflexivity|destruct F]. }
  subst. destruct I as [I|[F ->]]; [cbn in I; congruence|]. destruct l; [reflexivity|destruct F].
Qed.
(** What is really sent: v1.SNMP.snmpSet makes a GetNext. *)
Definition sent_kind (f : flavour) (a : call) : option kind :=
  match f, a with FV1, ASetBindings _ _ _ _ => Some KGetNext | _, _ => asked_kind a end.
Definition good_form (f : flavour) (a : call) (fm : form) : Prop :=
  match fm with
  | Made c r0 => kind_of c = sent_kind f a /\ id_limit f a = MAXVAL (rid_class c) /\ MINVAL (rid_class c) < 0 /\
                 In c [CGet; CGetNext; CSet; CGet_v2; CGetNext_v2; CSet_v2] /\
                 (f = FSM -> asked_version f a = 0 \/ asked_version f a = 1) /\
                 forall items, r0 = Ok items -> asked_bindings f a items
  | _ => True
  end.
Definition mk_of (f : flavour) (a : call) (com : val) : val -> message :=
  match asked_version f a with 0 => mk1 com | _ => mk2 com end.
Lemma call_form f a cb : request_callback a = Some cb -> exists dst com fm,
  asked_destination a = Some dst /\ asked_community a = Some com /\ good_form f a fm /\
  forall m, do_call f a m = form_result (mk_of f a com) fm dst cb m.
Proof.
  intros R. assert (F1 : forall com pdu m, message_v1 com pdu m = (m, Ok (mk1 com pdu))) by reflexivity.
  assert (F2 : forall com pdu m, message_v2 com pdu m = (m, Ok (mk2 com pdu))) by reflexivity.
  assert (D1 : forall com pdu, m_data (mk1 com pdu) = pdu) by reflexivity.
  assert (D2 : forall com pdu, m_data (mk2 com pdu) = pdu) by reflexivity.
  destruct a as [oid dst cb' com ver|vbl dst cb' com ver|vbl dst cb' com|oid ty v dst cb' com ver|dst pdu com ver| |oid com ver|vbl com ver|oid ty v com ver]; cbn in R; try discriminate R; injection R as ->; exists dst, com.
  - (* Get *)
    cbn [do_call]. unfold snmpGet. destruct f; cbn [createGetRequestMessage createGetRequestPDU].
    + destruct (early_form (vb <- null_binding CVarBind oid ;; varbindlist_init (VPyList [vb]))
                  (fun vbl => pdu <~ request_pdu CGet vbl ;; message_v1 com pdu) (mk1 com) dst cb
                  (good_form FV1 (AGet oid dst cb com ver))) as (fm & G & H).
      * intros; exact Logic.I.
      * intros w Ew. inv_bind Ew. destruct (request_form CGet w (message_v1 com) (mk1 com) dst cb (F1 com) (D1 com)) as (r0 & I & H).
        exists (Made CGet r0). split; [|exact H]. cbn. repeat split; auto; try discriminate.
        intros items Hi. apply I in Hi. apply (vbl1_items _ _ _ Ew) in Hi. subst.
        apply null_binding_ok in E as (n & E & B); [|auto]. eauto.
      * exists fm. auto.
    + destruct (early_form (oids <- py_iter oid ;; vbs <- mapM (null_binding CVarBind) oids ;; varbindlist_v2_init (VPyList vbs))
                  (fun vbl => pdu <~ request_pdu CGet_v2 vbl ;; message_v2 com pdu) (mk2 com) dst cb
                  (good_form FV2 (AGet oid dst cb com ver))) as (fm & G & H).
      * intros; exact Logic.I.
      * intros w Ew. inv_bind Ew. destruct (request_form CGet_v2 w (message_v2 com) (mk2 com) dst cb (F2 com) (D2 com)) as (r0 & I & H).
        exists (Made CGet_v2 r0). split; [|exact H]. cbn. repeat split; auto 8; try discriminate.
        intros items Hi. apply I in Hi. apply (vbl2_items _ _ _ Ew) in Hi. subst.
        exists a. split; [apply iter_components; exact E|]. apply mapM_Forall2 in E0.
        eapply Forall2_weaken; [|exact E0]. cbn. intros o it N. apply null_binding_ok in N; auto.
      * exists fm. auto.
    + destruct (Z.eqb_spec ver 1) as [->|N1].
      * destruct (early_form (vb <- null_binding CVarBind oid ;; varbindlist_init (VPyList [vb]))
                  (fun vbl => pdu <~ request_pdu_version CGet CGet_v2 vbl 1 ;; message_v1 com pdu) (mk1 com) dst cb
                  (good_form FSM (AGet oid dst cb com 1))) as (fm & G & H).
        -- intros; exact Logic.I.
        -- intros w Ew. inv_bind Ew. destruct (version_form CGet CGet_v2 w 1 (message_v1 com) (mk1 com) dst cb (F1 com) (D1 com)) as (fm & I & H).
           exists fm. split; [|exact H]. destruct fm as [| |c r0]; try exact Logic.I. destruct (I _ _ eq_refl) as [[[_ ->]|[? _]] It]; [|discriminate].
           cbn. repeat split; auto.
           intros items Hi. apply It in Hi. apply (vbl1_items _ _ _ Ew) in Hi. subst.
           apply null_binding_ok in E as (n & E & B); [|auto]. eauto.
        -- exists fm. auto.
      * destruct (Z.eqb_spec ver 2) as [->|N2].
        -- destruct (early_form (vb <- null_binding CVarBind_v2 oid ;; varbindlist_v2_init (VPyList [vb]))
                  (fun vbl => pdu <~ request_pdu_version CGet CGet_v2 vbl 2 ;; message_v2 com pdu) (mk2 com) dst cb
                  (good_form FSM (AGet oid dst cb com 2))) as (fm & G & H).
           ++ intros; exact Logic.I.
           ++ intros w Ew. inv_bind Ew. destruct (version_form CGet CGet_v2 w 2 (message_v2 com) (mk2 com) dst cb (F2 com) (D2 com)) as (fm & I & H).
              exists fm. split; [|exact H]. destruct fm as [| |c r0]; try exact Logic.I. destruct (I _ _ eq_refl) as [[[? _]|[_ ->]] It]; [discriminate|].
              cbn. repeat split; auto 8.
              intros items Hi. apply It in Hi. apply (vbl2_items _ _ _ Ew) in Hi. subst.
              apply null_binding_ok in E as (n & E & B); [|auto]. eauto.
           ++ exists fm. auto.
        -- exists (Early ValueError). repeat split.
  - (* GetNext *)
    cbn [do_call]. unfold snmpGetNext. destruct f; cbn [createGetNextRequestMessage createGetNextRequestPDU].
    + destruct (request_form CGetNext vbl (message_v1 com) (mk1 com) dst cb (F1 com) (D1 com)) as (r0 & I & H).
      exists (Made CGetNext r0). split; [reflexivity|]. split; [reflexivity|]. split; [|exact H]. cbn. repeat split; auto; discriminate.
    + exists (Early AttributeError). repeat split.
    + destruct (version_form CGetNext CGetNext_v2 vbl ver (fun pdu => if ver =? 1 then message_v1 com pdu else message_v2 com pdu) (mk_of FSM (AGetNext vbl dst cb com ver) com) dst cb) as (fm & I & H).
      { intros pdu m. unfold mk_of. cbn [asked_version]. destruct (Z.eqb_spec ver 1) as [->|N]; [reflexivity|]. destruct (ver - 1) eqn:E; [lia|reflexivity|reflexivity]. }
      { intros pdu. unfold mk_of. destruct (asked_version _ _); reflexivity. }
      exists fm. split; [reflexivity|]. split; [reflexivity|]. split; [|exact H].
      destruct fm as [| |c r0]; try exact Logic.I. destruct (I _ _ eq_refl) as [[[-> ->]|[-> ->]] It]; cbn; repeat split; auto 8.
  - (* Set, v1 style *)
    cbn [do_call snmpSet_bindings]. destruct f.
    + destruct (request_form CGetNext vbl (message_v1 com) (mk1 com) dst cb (F1 com) (D1 com)) as (r0 & I & H).
      exists (Made CGetNext r0). split; [reflexivity|]. split; [reflexivity|]. split; [cbn; repeat split; auto; discriminate|].
      intros m. change (mk_of FV1 (ASetBindings vbl dst cb com) com) with (mk1 com). rewrite <- H. unfold mmap, snmpSet_bindings, mbind. destruct (request_pdu CGetNext vbl m) as [m2 [p|e]]; reflexivity.
    + exists (Late AttributeError). repeat split.
    + exists (Early TypeError). repeat split.
  - (* Set, snmpManager *)
    cbn [do_call snmpSet_typed]. destruct f; try (exists (Early TypeError); repeat split; fail).
    unfold createSetRequestMessage, createSetRequestPDU.
    destruct (Z.eqb_spec ver 1) as [->|N1].
    + destruct (early_form (objID <- oid_init oid ;; w <- typed_value ty v ;; vb <- varbind_init CVarBind objID w ;; varbindlist_init (VPyList [vb]))
                  (fun vbl => pdu <~ request_pdu_version CSet CSet_v2 vbl 1 ;; message_v1 com pdu) (mk1 com) dst cb
                  (good_form FSM (ASetTyped oid ty v dst cb com 1))) as (fm & G & H).
      * intros; exact Logic.I.
      * intros w Ew. inv_bind Ew. destruct (version_form CSet CSet_v2 w 1 (message_v1 com) (mk1 com) dst cb (F1 com) (D1 com)) as (fm & I & H).
        exists fm. split; [|exact H]. destruct fm as [| |c r0]; try exact Logic.I. destruct (I _ _ eq_refl) as [[[_ ->]|[? _]] It]; [|discriminate].
        cbn. repeat split; auto 8.
        intros items Hi. apply It in Hi. apply (vbl1_items _ _ _ Ew) in Hi. subst.
        apply varbind_init_iff in E1 as (_ & _ & ->). exists a, a0, (VSeq CVarBind [a; a0]). repeat split; auto. exists CVarBind. auto.
      * exists fm. auto.
    + destruct (Z.eqb_spec ver 2) as [->|N2].
      * destruct (early_form (objID <- oid_init oid ;; w <- typed_value ty v ;; vb <- varbind_init CVarBind_v2 objID w ;; varbindlist_v2_init (VPyList [vb]))
                  (fun vbl => pdu <~ request_pdu_version CSet CSet_v2 vbl 1 ;; message_v2 com pdu) (mk2 com) dst cb
                  (good_form FSM (ASetTyped oid ty v dst cb com 2))) as (fm & G & H).
        -- intros; exact Logic.I.
        -- intros w Ew. inv_bind Ew. destruct (version_form CSet CSet_v2 w 1 (message_v2 com) (mk2 com) dst cb (F2 com) (D2 com)) as (fm & I & H).
           exists fm. split; [|exact H]. destruct fm as [| |c r0]; try exact Logic.I. destruct (I _ _ eq_refl) as [[[_ ->]|[? _]] It]; [|discriminate].
           cbn. repeat split; auto 8.
           intros items Hi. apply It in Hi. apply (vbl2_items _ _ _ Ew) in Hi. subst.
           apply varbind_init_iff in E1 as (_ & _ & ->). exists a, a0, (VSeq CVarBind_v2 [a; a0]). repeat split; auto. exists CVarBind_v2. auto.
        -- exists fm. auto.
      * exists (Early ValueError). repeat split. intros m. unfold mmap, snmpSet_typed, mbind, createSetRequestMessage.
        destruct (Z.eqb_spec ver 1); [contradiction|]. destruct (Z.eqb_spec ver 2); [contradiction|]. reflexivity.
Qed.

(** ** Exhaustion *)
Lemma form_threshold mk fm dst cb m0 m : MINVAL (match fm with Made c _ => rid_class c | _ => CInteger end) < 0 ->
  (exists m0' v, form_result mk fm dst cb m0 = (m0', Ok v)) -> 0 <= nextRequestID m ->
  if nextRequestID m <=? (match fm with Made c _ => MAXVAL (rid_class c) | _ => 0 end)
  then exists m' v, form_result mk fm dst cb m = (m', Ok v)
  else snd (form_result mk fm dst cb m) = Err ValueError.
Proof.
  intros Hmin (m0' & v & H) P. destruct fm as [e|e|c r0]; cbn [form_result] in *; try discriminate.
  destruct (_ && _) in H; [|discriminate]. destruct r0 as [items|e]; [|discriminate].
  destruct (MINVAL (rid_class c) <=? nextRequestID m) eqn:A; [|lia]. cbn [andb].
  destruct (nextRequestID m <=? MAXVAL (rid_class c)); [eauto|reflexivity].
Qed.
Lemma call_threshold f a m0 m : request_callback a <> None -> (exists m0' v, do_call f a m0 = (m0', Ok v)) -> 0 <= nextRequestID m ->
  if nextRequestID m <=? id_limit f a then exists m' v, do_call f a m = (m', Ok v) else snd (do_call f a m) = Err ValueError.
Proof.
  intros R S P. destruct (request_callback a) as [cb|] eqn:Rc; [|congruence].
  destruct (call_form f a cb Rc) as (dst & com & fm & _ & _ & G & H). rewrite (H m). destruct S as (m0' & v & S). rewrite (H m0) in S.
  pose proof (form_threshold (mk_of f a com) fm dst cb m0 m) as T. destruct fm as [e|e|c r0].
  - discriminate S.
  - discriminate S.
  - destruct G as (_ & G1 & G2 & _). rewrite G1. apply T; eauto.
Qed.
Lemma call_over f a cb m : request_callback a = Some cb -> id_limit f a < nextRequestID m -> 0 <= nextRequestID m ->
  exists e, snd (do_call f a m) = Err e.
Proof.
  intros R L P. destruct (call_form f a cb R) as (dst & com & fm & _ & _ & G & H). rewrite H.
  destruct fm as [e|e|c r0]; cbn [form_result snd]; [eauto|eauto|]. destruct G as (_ & G1 & G2 & _).
  destruct (_ && _) eqn:A; [lia|]. cbn. eauto.
Qed.
Lemma id_limit_range f a : 2 ^ 31 - 1 <= id_limit f a <= 2 ^ 31.
Proof. unfold id_limit. destruct f, a; try lia; destruct (_ =? _); lia. Qed.

(** ** Success *)
Lemma call_success f a cb m m' v : request_callback a = Some cb -> do_call f a m = (m', Ok v) ->
  exists dst com mc c kr ke ki cl items msg,
    asked_destination a = Some dst /\ asked_community a = Some com /\
    v = RVal (VInt kr (nextRequestID m)) /\
    msg = mkMsg mc (VInt CInteger (asked_version f a)) (VOct COctetString com)
                (VSeq c [VInt kr (nextRequestID m); VInt ke 0; VInt ki 0; VSeq cl items]) [] /\
    kind_of c = sent_kind f a /\ asked_bindings f a items /\
    m' = mkMgr (nextRequestID m + 1) (outbound m ++ [(Some msg, dst)]) (dict_set (callbacks m) (nextRequestID m) cb).
Proof.
  intros R H. destruct (call_form f a cb R) as (dst & com & fm & D & C & G & F). rewrite F in H.
  destruct fm as [e|e|c r0]; cbn [form_result] in H; try discriminate. destruct (_ && _); [|discriminate]. destruct r0 as [items|e]; [|discriminate].
  injection H as <- <-. destruct G as (K & _ & _ & _ & V & B).
  exists dst, com, (match asked_version f a with 0 => CMessage | _ => CMessage_v2 end), c, (rid_class c),
    (if issubclass c CPDU_v2 then CErrorStatus_v2 else CErrorStatus), CInteger, (if issubclass c CPDU_v2 then CVarBindList_v2 else CVarBindList), items,
    (mk_of f a com (made_pdu c (nextRequestID m) items)).
  repeat split; auto. unfold mk_of. assert (V' : asked_version f a = 0 \/ asked_version f a = 1) by (destruct f; auto).
  destruct V' as [V'|V']; rewrite V'; reflexivity.
Qed.

(** ** On the wire *)
Lemma made_tree c k r vb bs tbs cfg : In c request_classes -> kind_of c = Some k -> (vb = CVarBind \/ vb = CVarBind_v2) -> good_bindings cfg bs tbs ->
  tree_of (made_pdu c r (map (vb_of vb) bs)) = Some (request_tree k r 0 0 tbs) /\ classes_ok (made_pdu c r (map (vb_of vb) bs)) = true.
Proof.
  intros Hc K Hvb G. assert (Hs : seq_kind k = true /\ written_right c = true) by (cbn in Hc; repeat (destruct Hc as [<-|Hc]; [inversion K; split; reflexivity|]); contradiction).
  pose proof (bindings_trees vb bs tbs Hvb (good_bindings_trees _ _ _ G)) as TB.
  pose proof (good_bindings_classes cfg vb bs tbs Hvb G) as CB. unfold made_pdu, rid_class. split.
  - apply (trees_request k c); try apply Hs; auto; try (destruct (issubclass c CPDU_v2); reflexivity).
    apply vbl_tree; [destruct (issubclass c CPDU_v2); reflexivity|exact TB].
  - apply classes_request; try apply Hs; auto; destruct (issubclass c CPDU_v2); reflexivity.
Qed.
Lemma made_wire cfg mk com ver c k r vb bs tbs : (mk = mk1 (VPyStr com) /\ ver = 0 \/ mk = mk2 (VPyStr com) /\ ver = 1) ->
  In c request_classes -> kind_of c = Some k -> available cfg k = true -> (vb = CVarBind \/ vb = CVarBind_v2) -> in32 r -> 0 <= r ->
  zlen bs <= 2 ^ 31 - 1 -> good_bindings cfg bs tbs ->
  exists os, snd (message_encode (mk (made_pdu c r (map (vb_of vb) bs)))) = Ok os /\
    written (message_tree ver com (request_tree k r 0 0 tbs)) os.
Proof.
  intros M Hc K A Hvb Hr P L G. destruct (made_tree c k r vb bs tbs cfg Hc K Hvb G) as [T C].
  assert (W : wf cfg (request_tree k r 0 0 tbs)).
  { apply (request_wf cfg k r 0 0 bs tbs); auto; try (unfold in32; lia); try (left; lia).
    left. cbn in Hc; repeat (destruct Hc as [<-|Hc]; [inversion K; reflexivity|]); contradiction. }
  destruct M as [[-> ->]|[-> ->]].
  - apply (message_writes cfg CMessage 0 com (made_pdu c r (map (vb_of vb) bs))); auto. left; lia.
  - apply (message_writes cfg CMessage_v2 1 com (made_pdu c r (map (vb_of vb) bs))); auto. left; lia.
Qed.
Lemma made_init c r vbl vb bs : In c [CGet; CGetNext; CSet; CGet_v2; CGetNext_v2; CSet_v2] -> (vb = CVarBind \/ vb = CVarBind_v2) -> in32 r -> zlen bs <= 2 ^ 31 - 1 ->
  (vbl = VPyList (map (vb_of vb) bs) \/ exists d, vbl = VSeq d (map (vb_of vb) bs)) ->
  pdu_init c (VPyInt r) (VPyInt 0) (VPyInt 0) vbl = Ok (made_pdu c r (map (vb_of vb) bs)).
Proof.
  intros Hc Hvb Hr L V. unfold made_pdu, rid_class, pdu_init.
  assert (PL : py_len vbl = Ok (zlen bs)) by (destruct V as [->|[d ->]]; cbn [py_len]; rewrite map_length_z; reflexivity).
  destruct (issubclass c CPDU_v2).
  - unfold pdu_v2_init. change (gt_max_bindings (VPyInt 0)) with (@Ok bool false). cbn [bind]. cbv iota.
    rewrite (in32_ok CInteger32 r) by tauto. cbn [bind].
    change (integer_init CErrorStatus_v2 (VPyInt 0)) with (@Ok val (VInt CErrorStatus_v2 0)). change (integer_init CInteger (VPyInt 0)) with (@Ok val (VInt CInteger 0)). cbn [bind].
    unfold varbindlist_v2_init. rewrite PL. cbn [bind]. unfold max_bindings. destruct (Z.ltb_spec 2147483647 (zlen bs)); [lia|].
    rewrite (sequenceof_init_vb vb CVarBindList_v2 (map (vb_of vb) bs)) by (auto; apply vb_of_is). reflexivity.
  - unfold pdu_v1_init. rewrite (in32_ok CInteger r) by tauto. cbn [bind].
    change (integer_init CErrorStatus (VPyInt 0)) with (@Ok val (VInt CErrorStatus 0)). change (integer_init CInteger (VPyInt 0)) with (@Ok val (VInt CInteger 0)). cbn [bind].
    unfold varbindlist_init. rewrite (sequenceof_init_vb vb CVarBindList (map (vb_of vb) bs)) by (auto; apply vb_of_is). reflexivity.
Qed.
(** A PDU made from good bindings is queued. *)
Lemma request_queued cfg (x : M val) (c : cls) k vbl (fin : val -> M message) mk ver com vb bs tbs dst cb m m' r :
  x = (msg <~ (pdu <~ request_pdu c vbl ;; fin pdu) ;; queue_request msg dst cb) ->
  (forall pdu m, fin pdu m = (m, Ok (mk pdu))) ->
  (mk = mk1 (VPyStr com) /\ ver = 0 \/ mk = mk2 (VPyStr com) /\ ver = 1) ->
  In c [CGet; CGetNext; CSet; CGet_v2; CGetNext_v2; CSet_v2] -> kind_of c = Some k -> available cfg k = true ->
  (vb = CVarBind \/ vb = CVarBind_v2) -> zlen bs <= 2 ^ 31 - 1 -> good_bindings cfg bs tbs ->
  (vbl = VPyList (map (vb_of vb) bs) \/ exists d, vbl = VSeq d (map (vb_of vb) bs)) ->
  0 <= nextRequestID m < 2 ^ 31 -> mmap RVal x m = (m', r) ->
  queued m m' r (nextRequestID m) dst cb (message_tree ver com (request_tree k (nextRequestID m) 0 0 tbs)).
Proof.
  intros -> F M Hc K A Hvb L G V P H.
  assert (Hr : in32 (nextRequestID m)) by (unfold in32; lia).
  assert (Hc' : In c request_classes) by (cbn in Hc; repeat (destruct Hc as [<-|Hc]; [cbn; auto 12|]); contradiction).
  destruct (made_wire cfg mk com ver c k (nextRequestID m) vb bs tbs M Hc' K A Hvb Hr (proj1 P) L G) as (os & EO & W).
  unfold mmap, mbind at 1 2, request_pdu, mbind, assignRequestID, lift in H. rewrite (made_init c _ vbl vb bs Hc Hvb Hr L V) in H.
  rewrite F in H. unfold queue_request, mbind, put, lift, register, ret in H.
  assert (D : m_data (mk (made_pdu c (nextRequestID m) (map (vb_of vb) bs))) = made_pdu c (nextRequestID m) (map (vb_of vb) bs)) by (destruct M as [[-> _]|[-> _]]; reflexivity).
  rewrite D in H. cbn in H. injection H as <- <-.
  exists (rid_class c), (mk (made_pdu c (nextRequestID m) (map (vb_of vb) bs))), os. cbn [nextRequestID outbound callbacks].
  split; [reflexivity|]. split; [reflexivity|]. split; [reflexivity|]. split; [|split; [exact EO|exact W]]. intros x. rewrite dict_get_set, Z.eqb_sym. reflexivity.
Qed.
Lemma null_binding_name c oid l : oid_init oid = Ok (VOid (Some l)) -> null_binding c oid = Ok (vb_of c (l, VNull CNull)).
Proof. intros H. unfold null_binding. rewrite H. cbn [bind]. apply varbind_init_object. discriminate. Qed.
Lemma null_bindings_good cfg names : Forall oid_survives names ->
  good_bindings cfg (map (fun l => (l, VNull CNull)) names) (map (fun l => (l, TNull KNull)) names).
Proof. induction 1; constructor; auto. cbn. repeat split; auto. Qed.
Lemma mapM_of_Forall2 {A B} (f : A -> res B) l l' : Forall2 (fun a b => f a = Ok b) l l' -> mapM f l = Ok l'.
Proof. induction 1 as [|a b l l' H F IH]; cbn; [reflexivity|]. rewrite H. cbn [bind]. rewrite IH. reflexivity. Qed.
Lemma get_on_wire f oid dst cb com ver names m m' r :
  (f = FSM -> ver = 1 \/ ver = 2) -> names_of f oid names -> Forall oid_survives names -> zlen names <= 2 ^ 31 - 1 ->
  0 <= nextRequestID m < 2 ^ 31 -> do_call f (AGet oid dst cb (VPyStr com) ver) m = (m', r) ->
  queued m m' r (nextRequestID m) dst cb
    (message_tree (asked_version f (AGet oid dst cb (VPyStr com) ver)) com
                  (request_tree KGet (nextRequestID m) 0 0 (map (fun l => (l, TNull KNull)) names))).
Proof.
  intros V N S L P H. cbn [do_call] in H. unfold snmpGet in H.
  pose proof (null_bindings_good Upto1905 names S) as G.
  set (bs := map (fun l : list Z => (l, VNull CNull)) names) in *.
  assert (Lb : zlen bs <= 2 ^ 31 - 1) by (unfold bs; rewrite map_length_z; exact L).
  destruct f; cbn [names_of createGetRequestMessage createGetRequestPDU] in N, H.
  - destruct N as (l & N & ->). rewrite (null_binding_name CVarBind oid l N) in H.
    eapply (request_queued Upto1905 _ CGet KGet (VSeq CVarBindList (map (vb_of CVarBind) bs)) (message_v1 (VPyStr com)) (mk1 (VPyStr com)) 0 com CVarBind bs);
      [reflexivity|reflexivity|auto|cbn; auto|reflexivity|reflexivity|auto|exact Lb|exact G|eauto|exact P|exact H].
  - destruct N as (oids & C & N).
    assert (E : (oids <- py_iter oid ;; vbs <- mapM (null_binding CVarBind) oids ;; varbindlist_v2_init (VPyList vbs)) = Ok (VSeq CVarBindList_v2 (map (vb_of CVarBind) bs))).
    { rewrite (components_iter _ _ C). cbn [bind]. rewrite (mapM_of_Forall2 _ oids (map (vb_of CVarBind) bs)).
      - cbn [bind]. unfold varbindlist_v2_init. cbn [py_len bind]. rewrite map_length_z. unfold max_bindings. destruct (Z.ltb_spec 2147483647 (zlen bs)); [lia|].
        apply (sequenceof_init_vb CVarBind); auto. apply vb_of_is.
      - unfold bs. rewrite map_map. clear -N. induction N; cbn; constructor; auto. apply null_binding_name. assumption. }
    rewrite E in H.
    eapply (request_queued Upto1905 _ CGet_v2 KGet (VSeq CVarBindList_v2 (map (vb_of CVarBind) bs)) (message_v2 (VPyStr com)) (mk2 (VPyStr com)) 1 com CVarBind bs);
      [reflexivity|reflexivity|auto|cbn; auto|reflexivity|reflexivity|auto|exact Lb|exact G|eauto|exact P|exact H].
  - destruct N as (l & N & ->). destruct (V eq_refl) as [->| ->]; cbn [Z.eqb Pos.eqb] in H.
    + rewrite (null_binding_name CVarBind oid l N) in H.
      eapply (request_queued Upto1905 _ CGet KGet (VSeq CVarBindList (map (vb_of CVarBind) bs)) (message_v1 (VPyStr com)) (mk1 (VPyStr com)) 0 com CVarBind bs);
      [reflexivity|reflexivity|auto|cbn; auto|reflexivity|reflexivity|auto|exact Lb|exact G|eauto|exact P|exact H].
    + rewrite (null_binding_name CVarBind_v2 oid l N) in H.
      eapply (request_queued Upto1905 _ CGet_v2 KGet (VSeq CVarBindList_v2 (map (vb_of CVarBind_v2) bs)) (message_v2 (VPyStr com)) (mk2 (VPyStr com)) 1 com CVarBind_v2 bs);
      [reflexivity|reflexivity|auto|cbn; auto|reflexivity|reflexivity|auto|exact Lb|exact G|eauto|exact P|exact H].
Qed.
Lemma getnext_on_wire f vbl dst cb com ver bs tbs m m' r : f <> FV2 -> (f = FSM -> ver = 1 \/ ver = 2) ->
  binding_list vbl bs -> meaningful Upto1905 bs tbs -> zlen bs <= 2 ^ 31 - 1 -> 0 <= nextRequestID m < 2 ^ 31 ->
  do_call f (AGetNext vbl dst cb (VPyStr com) ver) m = (m', r) ->
  queued m m' r (nextRequestID m) dst cb
    (message_tree (asked_version f (AGetNext vbl dst cb (VPyStr com) ver)) com (request_tree KGetNext (nextRequestID m) 0 0 tbs)).
Proof.
  intros NF V (vb & items & Hvb & -> & B) G L P H. cbn [do_call] in H. unfold snmpGetNext in H.
  change (map (fun b : list Z * val => VSeq vb [VOid (Some (fst b)); snd b]) bs) with (map (vb_of vb) bs) in *.
  destruct f; cbn [createGetNextRequestMessage createGetNextRequestPDU] in H; [|congruence|].
  - eapply (request_queued Upto1905 _ CGetNext KGetNext vbl (message_v1 (VPyStr com)) (mk1 (VPyStr com)) 0 com vb bs);
      [reflexivity|reflexivity|auto|cbn; auto|reflexivity|reflexivity|auto|exact L|exact G|exact B|exact P|exact H].
  - destruct (V eq_refl) as [->| ->]; unfold request_pdu_version in H; cbn [Z.eqb Pos.eqb] in H.
    + eapply (request_queued Upto1905 _ CGetNext KGetNext vbl (message_v1 (VPyStr com)) (mk1 (VPyStr com)) 0 com vb bs);
      [reflexivity|reflexivity|auto|cbn; auto|reflexivity|reflexivity|auto|exact L|exact G|exact B|exact P|exact H].
    + eapply (request_queued Upto1905 _ CGetNext_v2 KGetNext vbl (message_v2 (VPyStr com)) (mk2 (VPyStr com)) 1 com vb bs);
      [reflexivity|reflexivity|auto|cbn; auto 8|reflexivity|reflexivity|auto|exact L|exact G|exact B|exact P|exact H].
Qed.
Lemma set_on_wire oid ty v dst cb com ver l w t m m' r : ver = 1 \/ ver = 2 ->
  oid_init oid = Ok (VOid (Some l)) -> typed_value ty v = Ok w -> meaningful Upto1905 [(l, w)] [(l, t)] -> 0 <= nextRequestID m < 2 ^ 31 ->
  do_call FSM (ASetTyped oid ty v dst cb (VPyStr com) ver) m = (m', r) ->
  queued m m' r (nextRequestID m) dst cb (message_tree (ver - 1) com (request_tree KSet (nextRequestID m) 0 0 [(l, t)])).
Proof.
  intros V O T G P H. cbn [do_call snmpSet_typed] in H. unfold createSetRequestMessage, createSetRequestPDU in H. rewrite O, T in H. cbn [bind] in H.
  assert (Ob : is_object w).
  { inversion G as [|? ? ? ? (_ & X & _) _]; subst. cbn in X. destruct (tree_of w) eqn:E; [|discriminate]. unfold is_object.
    destruct w as [| | | | | |[|]| |]; cbn in E |- *; discriminate. }
  assert (Lb : zlen [(l, w)] <= 2 ^ 31 - 1) by (unfold zlen; cbn; lia).
  destruct V as [->| ->]; unfold request_pdu_version in H; cbn [Z.eqb Pos.eqb] in H; rewrite varbind_init_object in H by exact Ob.
  - eapply (request_queued Upto1905 _ CSet KSet (VSeq CVarBindList (map (vb_of CVarBind) [(l, w)])) (message_v1 (VPyStr com)) (mk1 (VPyStr com)) 0 com CVarBind [(l, w)]);
      [reflexivity|reflexivity|auto|cbn; auto|reflexivity|reflexivity|auto|exact Lb|exact G|eauto|exact P|exact H].
  - eapply (request_queued Upto1905 _ CSet KSet (VSeq CVarBindList_v2 (map (vb_of CVarBind_v2) [(l, w)])) (message_v2 (VPyStr com)) (mk2 (VPyStr com)) 1 com CVarBind_v2 [(l, w)]);
      [reflexivity|reflexivity|auto|cbn; auto|reflexivity|reflexivity|auto|exact Lb|exact G|eauto|exact P|exact H].
Qed.
Lemma v1_set_on_wire vbl dst cb com bs tbs m m' r : 
  binding_list vbl bs -> meaningful Upto1905 bs tbs -> zlen bs <= 2 ^ 31 - 1 -> 0 <= nextRequestID m < 2 ^ 31 ->
  do_call FV1 (ASetBindings vbl dst cb (VPyStr com)) m = (m', r) ->
  queued m m' r (nextRequestID m) dst cb (message_tree 0 com (request_tree KGetNext (nextRequestID m) 0 0 tbs)).
Proof.
  intros (vb & items & Hvb & -> & B) G L P H. cbn [do_call snmpSet_bindings] in H.
  change (map (fun b : list Z * val => VSeq vb [VOid (Some (fst b)); snd b]) bs) with (map (vb_of vb) bs) in *.
  eapply (request_queued Upto1905 _ CGetNext KGetNext vbl (message_v1 (VPyStr com)) (mk1 (VPyStr com)) 0 com vb bs);
      [reflexivity|reflexivity|auto|cbn; auto|reflexivity|reflexivity|auto|exact L|exact G|exact B|exact P|].
  rewrite <- H. unfold mmap, mbind. destruct (request_pdu CGetNext vbl m) as [m2 [p|e]]; reflexivity.
Qed.
