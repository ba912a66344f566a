(** * Proofs for SpecNetwork: what arrives over a network of agents answers what was sent. *)
From Coq Require Import ZArith List Bool Lia Sorted.
From Verif Require Import PyBase Classes Values Codec Manager SpecBER SpecSMI SpecTree SpecWire SpecMsg SpecManager SpecNetwork.
From Verif Require Import Bits ProofsInt ProofsTree ProofsDecode ProofsWire ProofsMsg ProofsManager ProofsHistory ProofsReceive ProofsCalls ProofsRun.
Import ListNotations.
Open Scope Z_scope.

(** ** Encodings are delimited *)
Lemma tlv_unique t c os t' c' os' r r' : tlv_octets t c os -> tlv_octets t' c' os' -> os ++ r = os' ++ r' ->
  t = t' /\ c = c' /\ r = r'.
Proof.
  intros (L & HL & ->) (L' & HL' & ->) E. cbn in E. injection E as -> E. split; [reflexivity|].
  rewrite <- !app_assoc in E. pose proof (ber_length_decode _ _ (c ++ r) HL) as A. rewrite E, (ber_length_decode _ _ _ HL') in A.
  injection A as Hn Hr. assert (N : length c' = length c) by lia. clear -N Hr. 
  revert c' N Hr. induction c as [|x c IH]; intros [|y c'] N Hr; cbn in *; try discriminate; [auto|].
  injection Hr as -> Hr. destruct (IH c') as [-> ->]; auto.
Qed.
(** Any encoded object is identifier, length, contents. *)
Lemma tlv_general c contents os : tlv c contents = Ok os -> zlen os < 256 ^ 126 ->
  exists t, class_identifier c = Ok [t] /\ tlv_octets t contents os.
Proof.
  intros E L. destruct (tlv_inv _ _ _ E) as (t & Lo & -> & Hi & _ & EL & _). exists t. split; [exact Hi|]. exists Lo. split; [|reflexivity].
  rewrite zlen_cons, zlen_app in L. pose proof (zlen_nonneg Lo). pose proof (zlen_nonneg contents).
  destruct (encodeLength_spec (zlen contents)) as (x & Ex & Sx). { assert (256 ^ 126 < 256 ^ 127) by (apply Z.pow_lt_mono_r; lia). lia. }
  rewrite EL in Ex. injection Ex as <-. apply length_octets_ber; [|exact Sx]. unfold zlen in *. lia.
Qed.

(** The skeleton of a request or response on the wire. *)
Definition skeleton (tag : Z) (cid : list Z) (os : list Z) : Prop :=
  exists cv com ov ocom opdu oid rest,
    tlv_octets 48 (ov ++ ocom ++ opdu) os /\ tlv_octets 2 cv ov /\ tlv_octets 4 com ocom /\
    tlv_octets tag (oid ++ rest) opdu /\ tlv_octets 2 cid oid.
Lemma wires_cons_inv strict t ts os : wires strict (t :: ts) os -> exists a b, os = a ++ b /\ wire strict t a /\ wires strict ts b.
Proof. inversion 1; subst; eauto. Qed.
Lemma wires_nil_inv strict os : wires strict [] os -> os = [].
Proof. inversion 1; reflexivity. Qed.
Lemma wire_int_inv strict k z os : wire strict (TInt k z) os ->
  exists c, tlv_octets (kind_octet k) c os /\ octet_string c /\ c <> [] /\ twos_value c = z.
Proof. inversion 1; subst; eauto. Qed.
Lemma wire_seq_inv strict k ts os : wire strict (TSeq k ts) os -> exists c, wires strict ts c /\ tlv_octets (kind_octet k) c os.
Proof. inversion 1; subst; eauto. Qed.
Lemma wire_oct_inv strict k s os : wire strict (TOct k s) os -> tlv_octets (kind_octet k) s os.
Proof. inversion 1; subst; eauto. Qed.
Lemma wire_skeleton strict ver com k id s i bs os : wire strict (message_tree ver com (request_tree k id s i bs)) os ->
  exists cid, skeleton (kind_octet k) cid os /\ octet_string cid /\ cid <> [] /\ twos_value cid = id.
Proof.
  intros W. apply wire_seq_inv in W as (c & W & T). apply wires_cons_inv in W as (ov & x & -> & Wv & W).
  apply wires_cons_inv in W as (oc & y & -> & Wc & W). apply wires_cons_inv in W as (op & z & -> & Wp & W). apply wires_nil_inv in W as ->.
  rewrite app_nil_r in T. apply wire_int_inv in Wv as (cv & Tv & _). apply wire_oct_inv in Wc.
  apply wire_seq_inv in Wp as (cp & Wp & Tp). apply wires_cons_inv in Wp as (oi & rest & -> & Wi & _).
  apply wire_int_inv in Wi as (ci & Ti & O & N & V). exists ci. split; [|auto].
  exists cv, com, ov, oc, op, oi, rest. auto.
Qed.
Lemma skeleton_unique t c t' c' os : skeleton t c os -> skeleton t' c' os -> t = t' /\ c = c'.
Proof.
  intros (cv & com & ov & oc & op & oi & re & A & B & C & D & E) (cv' & com' & ov' & oc' & op' & oi' & re' & A' & B' & C' & D' & E').
  destruct (tlv_unique _ _ _ _ _ _ [] [] A A' eq_refl) as (_ & X & _).
  destruct (tlv_unique _ _ _ _ _ _ _ _ B B' X) as (_ & _ & Y).
  destruct (tlv_unique _ _ _ _ _ _ _ _ C C' Y) as (_ & _ & Z).
  assert (Z' : op ++ [] = op' ++ []) by (rewrite !app_nil_r; exact Z).
  destruct (tlv_unique _ _ _ _ _ _ _ _ D D' Z') as (-> & W & _).
  destruct (tlv_unique _ _ _ _ _ _ _ _ E E' W) as (_ & -> & _). auto.
Qed.
(** The same for messages whose PDU is not a request: only the PDU's identifier octet. *)
Lemma encode_vint_tlv c z os : encode (VInt c z) = Ok os -> zlen os < 256 ^ 126 -> kind_of c = Some KInteger ->
  exists co, integer_encodeContents z = Ok co /\ tlv_octets 2 co os.
Proof.
  cbn [encode]. intros E L K. destruct (integer_encodeContents z) as [co|]; [|discriminate]. cbn [bind] in E. exists co. split; [reflexivity|].
  destruct (tlv_general _ _ _ E L) as (t & Ci & T). replace 2 with t; [exact T|]. destruct c; cbn in K; try discriminate K; vm_compute in Ci; congruence.
Qed.
Lemma encoded_skeleton mc ver com pc kr id tl os : (mc = CMessage \/ mc = CMessage_v2) -> kind_of kr = Some KInteger -> 0 <= id ->
  snd (message_encode (mkMsg mc (VInt CInteger ver) (VOct COctetString com) (VSeq pc (VInt kr id :: tl)) [])) = Ok os -> zlen os < 256 ^ 126 ->
  exists t cid, class_identifier pc = Ok [t] /\ skeleton t cid os /\ octet_string cid /\ twos_value cid = id.
Proof.
  intros HM HK HI E L. unfold message_encode, message_set_value in E. cbn [snd m_version m_community m_data m_value m_cls] in E.
  destruct (encode_list _) as [c|] eqn:EL; [|discriminate]. cbn [bind] in E.
  destruct (tlv_general _ _ _ E L) as (tm & Cm & Tm).
  assert (tm = 48) as -> by (destruct HM as [-> | ->]; vm_compute in Cm; congruence).
  assert (Lc : zlen c < 256 ^ 126). { destruct Tm as (x & _ & ->). rewrite zlen_cons, zlen_app in L. pose proof (zlen_nonneg x). lia. }
  apply encode_list_cons_inv in EL as (ov & x & -> & Ev & EL). apply encode_list_cons_inv in EL as (oc & y & -> & Ec & EL).
  apply encode_list_cons_inv in EL as (op & z & -> & Ep & EL). injection EL as <-. rewrite app_nil_r in *.
  rewrite !zlen_app in Lc. pose proof (zlen_nonneg ov). pose proof (zlen_nonneg oc). pose proof (zlen_nonneg op).
  destruct (encode_vint_tlv _ _ _ Ev) as (cv & _ & Tv); [lia|reflexivity|].
  cbn [encode] in Ec. destruct com as [| |s| | | | | |]; try discriminate Ec.
  destruct (tlv_general _ _ _ Ec) as (tc & Cc & Tc); [lia|]. vm_compute in Cc. injection Cc as <-.
  rewrite encode_seq in Ep. destruct (encode_list (VInt kr id :: tl)) as [cp|] eqn:EP; [|discriminate]. cbn [bind] in Ep.
  destruct (tlv_general _ _ _ Ep) as (tp & Cp & Tp); [lia|].
  assert (Lp : zlen cp < 256 ^ 126). { destruct Tp as (w & _ & ->). rewrite zlen_cons, zlen_app in *. pose proof (zlen_nonneg w). lia. }
  apply encode_list_cons_inv in EP as (oi & re & -> & Ei & _). rewrite zlen_app in Lp. pose proof (zlen_nonneg oi). pose proof (zlen_nonneg re).
  destruct (encode_vint_tlv _ _ _ Ei) as (ci & Hci & Ti); [lia|exact HK|].
  destruct (encode_nonneg_ok id HI) as (ci' & Hci' & O & V & _). rewrite Hci in Hci'. injection Hci' as <-.
  exists tp, ci. split; [exact Cp|]. split; [|auto]. exists cv, s, ov, oc, op, oi, re. auto.
Qed.

(** What a request call queues. *)
Lemma call_sends f a cb m m' v : request_callback a = Some cb -> do_call f a m = (m', Ok v) ->
  exists dst com mc c kr tl msg, In c [CGet; CGetNext; CSet; CGet_v2; CGetNext_v2; CSet_v2] /\
    asked_destination a = Some dst /\ v = RVal (VInt kr (nextRequestID m)) /\ (mc = CMessage \/ mc = CMessage_v2) /\ kind_of kr = Some KInteger /\
    msg = mkMsg mc (VInt CInteger (asked_version f a)) (VOct COctetString com) (VSeq c (VInt kr (nextRequestID m) :: tl)) [] /\
    m' = mkMgr (nextRequestID m + 1) (outbound m ++ [(Some msg, dst)]) (dict_set (callbacks m) (nextRequestID m) cb).
Proof.
  intros R H. destruct (call_form f a cb R) as (dst & com & fm & D & C & G & F). rewrite F in H.
  destruct fm as [e|e|c r0]; cbn [form_result] in H; try discriminate. destruct (_ && _); [|discriminate]. destruct r0 as [items|e]; [|discriminate].
  injection H as <- <-. destruct G as (K & _ & _ & In6 & V & B).
  exists dst, com, (match asked_version f a with 0 => CMessage | _ => CMessage_v2 end), c, (rid_class c).
  do 2 eexists. split; [exact In6|]. split; [exact D|]. split; [reflexivity|]. split; [destruct (asked_version f a); auto|].
  split; [unfold rid_class; destruct (issubclass c CPDU_v2); reflexivity|]. split; [|reflexivity].
  unfold mk_of. assert (V' : asked_version f a = 0 \/ asked_version f a = 1) by (destruct f; auto).
  destruct V' as [V'|V']; rewrite V'; reflexivity.
Qed.
(** A trap on the wire has a trap's identifier octet. *)
Lemma encoded_trap mc ver com pc l os : (mc = CMessage \/ mc = CMessage_v2) -> (pc = CTrapPDU \/ pc = CTrapV2) ->
  snd (message_encode (mkMsg mc (VInt CInteger ver) (VOct COctetString com) (VSeq pc l) [])) = Ok os -> zlen os < 256 ^ 126 ->
  forall t cid, skeleton t cid os -> t = 164 \/ t = 167.
Proof.
  intros HM HP E L t cid (cv' & com' & ov' & oc' & op' & oi' & re' & A' & B' & C' & D' & E').
  unfold message_encode, message_set_value in E. cbn [snd m_version m_community m_data m_value m_cls] in E.
  destruct (encode_list _) as [c|] eqn:EL; [|discriminate]. cbn [bind] in E.
  destruct (tlv_general _ _ _ E L) as (tm & Cm & Tm).
  assert (Lc : zlen c < 256 ^ 126). { destruct Tm as (x & _ & ->). rewrite zlen_cons, zlen_app in L. pose proof (zlen_nonneg x). lia. }
  apply encode_list_cons_inv in EL as (ov & x & -> & Ev & EL). apply encode_list_cons_inv in EL as (oc & y & -> & Ec & EL).
  apply encode_list_cons_inv in EL as (op & z & -> & Ep & EL). injection EL as <-. rewrite app_nil_r in *.
  rewrite !zlen_app in Lc. pose proof (zlen_nonneg ov). pose proof (zlen_nonneg oc). pose proof (zlen_nonneg op).
  destruct (encode_vint_tlv _ _ _ Ev) as (cv & _ & Tv); [lia|reflexivity|].
  cbn [encode] in Ec. destruct com as [| |s| | | | | |]; try discriminate Ec.
  destruct (tlv_general _ _ _ Ec) as (tc & Cc & Tc); [lia|].
  rewrite encode_seq in Ep. destruct (encode_list l) as [cp|] eqn:EP; [|discriminate]. cbn [bind] in Ep.
  destruct (tlv_general _ _ _ Ep) as (tp & Cp & Tp); [lia|].
  destruct (tlv_unique _ _ _ _ _ _ [] [] Tm A' eq_refl) as (_ & X & _).
  destruct (tlv_unique _ _ _ _ _ _ _ _ Tv B' X) as (_ & _ & Y).
  destruct (tlv_unique _ _ _ _ _ _ _ _ Tc C' Y) as (_ & _ & Z). subst op'.
  destruct (tlv_unique _ _ _ _ _ _ [] [] Tp D' eq_refl) as (<- & _ & _).
  destruct HP as [-> | ->]; vm_compute in Cp; injection Cp as <-; auto.
Qed.
Lemma asking_tag k : asking k -> kind_octet k <> 164 /\ kind_octet k <> 167.
Proof. unfold asking. cbn. intros H. repeat (destruct H as [<-|H]; [cbn; lia|]). contradiction. Qed.

(** ** Reading back the id *)
Lemma decode_first reg d tag c os rest l : Z.land tag 31 <> 31 -> tlv_octets tag c os -> decode reg (S d) (os ++ rest) = Ok l ->
  exists cl o l', reg_get reg tag = Some cl /\ decodeContents (decode reg d) cl c = Ok o /\ decode reg (S d) rest = Ok l' /\ l = o :: l'.
Proof.
  intros T O H. pose proof (decode_one_octets _ _ _ T O reg (decode reg d) rest) as D.
  destruct (reg_get reg tag) as [cl|].
  - destruct (decodeContents (decode reg d) cl c) as [o|e] eqn:Ed; cbn [bind] in D.
    + rewrite (decode_cons _ _ _ _ _ D) in H. destruct (decode reg (S d) rest) as [l'|]; [|discriminate]. injection H as <-. exists cl, o, l'. auto.
    + exfalso. destruct O as (L & _ & ->). cbn [decode app] in H. cbn [length decode_loop] in H. cbn [app] in D. rewrite D in H. discriminate.
  - exfalso. destruct O as (L & _ & ->). cbn [decode app] in H. cbn [length decode_loop] in H. cbn [app] in D. rewrite D in H. discriminate.
Qed.
Lemma decode_nil reg d l : decode reg (S d) [] = Ok l -> l = [].
Proof. cbn. congruence. Qed.
Lemma response_class cfg cl : reg_get (reg_of cfg) 162 = Some cl -> decode_method cl = Some DPDU.
Proof. destruct cfg; vm_compute; intros X; inversion X; reflexivity. Qed.
Lemma received_id cfg depth mc os cid msg id : skeleton 162 cid os -> octet_string cid -> cid <> [] ->
  message_decode (reg_of cfg) depth mc (DStr os) = Ok msg -> carries msg id -> twos_value cid = id.
Proof.
  intros (cv & com & ov & oc & op & oi & re & A & B & C & D & E) O N H Ca.
  apply message_decode_ok in H as (o & a & b & d & H & Co & ->). destruct depth as [|n]; [discriminate H|].
  rewrite <- (app_nil_r os) in H. apply (decode_first _ _ _ _ _ _ _ (kind_octet_low KSequence) A) in H as (cl & o' & l' & G & Dc & _ & X).
  assert (cl = CSequence) as -> by (destruct cfg; vm_compute in G; congruence). injection X as <- <-.
  unfold decodeContents in Dc. change (decode_method CSequence) with (Some DSequence) in Dc. cbv iota beta in Dc. destruct (decode (reg_of cfg) n (ov ++ oc ++ op)) as [l|] eqn:H; [|discriminate Dc]. cbn [bind] in Dc.
  injection Dc as <-. cbn in Co. injection Co as ->. destruct n as [|n]; [discriminate H|].
  apply (decode_first _ _ _ _ _ _ _ (kind_octet_low KInteger) B) in H as (c1 & o1 & l1 & _ & _ & H & X). injection X as <- <-.
  apply (decode_first _ _ _ _ _ _ _ (kind_octet_low KOctetString) C) in H as (c2 & o2 & l2 & _ & _ & H & X). injection X as <- <-.
  rewrite <- (app_nil_r op) in H. apply (decode_first _ _ _ _ _ _ _ (kind_octet_low KResponse) D) in H as (c3 & o3 & l3 & G3 & D3 & _ & X). injection X as <- <-.
  apply response_class in G3. unfold decodeContents in D3. rewrite G3 in D3.
  destruct (decode (reg_of cfg) n (oi ++ re)) as [l|] eqn:H; [|discriminate D3]. cbn [bind] in D3. destruct n as [|n]; [discriminate H|].
  apply (decode_first _ _ _ _ _ _ _ (kind_octet_low KInteger) E) in H as (c4 & o4 & l4 & G4 & D4 & _ & ->).
  assert (M4 : decode_method c4 = Some DInteger) by (clear -G4; destruct cfg; vm_compute in G4; inversion G4; reflexivity).
  unfold decodeContents in D4. rewrite M4 in D4. cbv iota beta in D4. rewrite (integer_decode_spec _ O N) in D4. cbn [bind] in D4. injection D4 as <-.
  destruct Ca as (cc & r & rest & Md & Pi). cbn [m_data] in Md. subst d. destruct l4 as [|o1' [|o2' [|o3' [|? ?]]]]; try discriminate D3.
  cbn [pdu_of_objects] in D3. destruct (py_iter o3'); [|discriminate D3]. cbn [bind] in D3. destruct (mapM _ _); [|discriminate D3]. cbn [bind] in D3.
  cbn [py_int] in D3. cbn [bind] in D3. destruct (py_int o1'); [|discriminate D3]. cbn [bind] in D3. destruct (py_int o2'); [|discriminate D3]. cbn [bind] in D3.
  apply pdu_init_shape in D3 as (k & e' & i' & v' & X). injection X as -> -> ->. cbn in Pi. congruence.
Qed.

(** ** Where a sent message comes from *)
Lemma in_puts lg om dst : In (om, dst) (puts lg) <-> In (EPut om dst) lg.
Proof.
  unfold puts. rewrite in_flat_map. split.
  - intros (e & I & J). destruct e; cbn in J; try contradiction. destruct J as [[= -> ->]|[]]. exact I.
  - intros I. exists (EPut om dst). cbn. auto.
Qed.
Lemma sent_was_put sys tr st os dst r : exec sys tr = Some st -> In (ESend os dst r) (log st) ->
  exists m, In (EPut (Some m) dst) (log st) /\ snd (message_encode m) = Ok os.
Proof.
  intros H I. pose proof (exec_inv _ _ _ H) as V.
  assert (J : In (os, dst) (sends (log st))) by (unfold sends; rewrite in_flat_map; eexists; split; [exact I|cbn; auto]).
  rewrite (i_sent _ V), in_flat_map in J. destruct J as ((om & dst') & T & J). unfold octets_of in J. cbn [fst snd] in J.
  destruct om as [m|]; [|contradiction]. destruct (snd (message_encode m)) as [os'|] eqn:E; [|contradiction]. destruct J as [[= -> ->]|[]].
  exists m. split; [|exact E]. apply in_puts. rewrite (i_fifo _ V). apply in_or_app. auto.
Qed.
Lemma not_quiet_put q n1 om dst n2 : Forall quiet q -> q <> n1 ++ EPut om dst :: n2.
Proof. intros Q ->. apply Forall_app in Q as [_ Q]. inversion Q as [|? ? X]; subst. exact X. Qed.
Lemma put_was_called sys tr st l1 m dst l2 : exec sys tr = Some st -> log st = l1 ++ EPut (Some m) dst :: l2 ->
  exists tr1 a tr2 st1 m' r, tr = tr1 ++ LCall a :: tr2 /\ exec sys tr1 = Some st1 /\ do_call (flav sys) a (man st1) = (m', r) /\
    outbound m' = outbound (man st1) ++ [(Some m, dst)] /\ l1 = log st1 ++ [ECall a r].
Proof.
  intros H L. destruct (steps_event _ _ _ _ _ _ H L) as (tr1 & lb & tr2 & st1 & st2 & n1 & n2 & -> & E1 & S & E2 & L2 & ->).
  apply step_effect in S. destruct S as
    [a mm mm' r stk lg C|mm stk lg lb stk' q _ Q _|mm stk lg lb stk' id n msg r depth d _ _ _ _ _ _ _ _|mm stk lg lb stk' n msg depth d _ _ _ _ _ _
    |mm id rest lg r mm' r' stk' q lb _ _ Q _|mm om dd q stk lg s qq stk' sr _ Hs Q _ _]; cbn [log man] in *; apply app_inv_head in L2.
  - destruct (request_callback a) as [cb|] eqn:R.
    + pose proof (requests_call _ _ _ _ _ _ R C) as X. destruct r as [v|e].
      * destruct X as (msg & remote & c & k & e & i & vbl & -> & M & ->). cbn [outbound] in L2. rewrite skipn_app_same in L2. cbn in L2.
        destruct n1 as [|x [|y n1]]; [discriminate| |destruct n1; discriminate]. injection L2 as <- <- <- <-.
        do 6 eexists. split; [reflexivity|]. split; [exact E1|]. cbn [man log]. split; [exact C|]. split; reflexivity.
      * destruct X as (O & _). rewrite O, skipn_all in L2. destruct n1 as [|x [|y n1]]; discriminate.
    + destruct (other_call _ _ _ _ _ R C) as (_ & _ & [O|(-> & remote & pdu & com & ver & om & -> & O)]).
      * rewrite O, skipn_all in L2. destruct n1 as [|x [|y n1]]; discriminate.
      * rewrite O, skipn_app_same in L2. cbn in L2. destruct n1 as [|x [|y n1]]; [discriminate| |destruct n1; discriminate]. injection L2 as <- -> <- <-.
        do 6 eexists. split; [reflexivity|]. split; [exact E1|]. cbn [man log]. split; [exact C|]. split; [exact O|reflexivity].
  - destruct (not_quiet_put _ _ _ _ _ Q L2).
  - destruct n1 as [|? [|? ?]]; discriminate.
  - destruct n1 as [|? [|? ?]]; discriminate.
  - destruct n1 as [|x n1]; [discriminate|]. injection L2 as <- L2. destruct (not_quiet_put _ _ _ _ _ Q L2).
  - destruct n1 as [|x n1]; [discriminate|]. injection L2 as <- L2. destruct Hs as [-> |(os & rr & ->)]; cbn in L2.
    + destruct (not_quiet_put _ _ _ _ _ Q L2).
    + destruct n1 as [|x n1]; [discriminate|]. injection L2 as <- L2. destruct (not_quiet_put _ _ _ _ _ Q L2).
Qed.

Lemma networked_prefix sys tr1 tr2 : networked sys (tr1 ++ tr2) -> networked sys tr1.
Proof. intros H a l b st -> E. apply (H a l (b ++ tr2)); [rewrite <- app_assoc; reflexivity|exact E]. Qed.
Lemma small_enough z : z < 65536 -> z < 256 ^ 126.
Proof. intros H. eapply Z.lt_le_trans; [exact H|]. change 65536 with (256 ^ 2). apply Z.pow_le_mono_r; lia. Qed.

(** A datagram answering something this manager sent answers one of its requests, and carries that request's id. *)
Lemma answered_request sys tr st os os' dst r : exec sys tr = Some st -> networked sys tr -> In (ESend os dst r) (log st) -> zlen os < 65536 ->
  answers os os' ->
  exists l0 a cb k id m l0' cid, log st = l0 ++ ECall a (Ok (RVal (VInt k id))) :: EPut (Some m) dst :: l0' /\
    request_callback a = Some cb /\ asked_destination a = Some dst /\ snd (message_encode m) = Ok os /\
    skeleton 162 cid os' /\ octet_string cid /\ cid <> [] /\ twos_value cid = id.
Proof.
  intros H NW I L An. destruct (sent_was_put _ _ _ _ _ _ H I) as (m & P & E). apply in_split in P as (l1 & l2 & P).
  destruct (put_was_called _ _ _ _ _ _ _ H P) as (tr1 & a & tr2 & st1 & m' & r0 & -> & E1 & C & O & ->).
  pose proof (small_enough _ L) as L'.
  destruct An as (strict & strict' & ver & ver' & com & com' & k & id & s & i & bs & s' & i' & bs' & As & W & W').
  destruct (wire_skeleton _ _ _ _ _ _ _ _ _ W) as (cid & Sk & Oc & Nc & Vc). destruct (wire_skeleton _ _ _ _ _ _ _ _ _ W') as (cid' & Sk' & Oc' & Nc' & Vc').
  destruct (request_callback a) as [cb|] eqn:R.
  - pose proof (requests_call _ _ _ _ _ _ R C) as X. destruct r0 as [v|e]; [|destruct X as (X & _); rewrite X in O; apply (f_equal (@length _)) in O; rewrite app_length in O; cbn in O; lia].
    destruct (call_sends _ _ _ _ _ _ R C) as (dst' & com0 & mc & c & kr & tl & msg & _ & D & -> & Hm & Hk & -> & ->). cbn [outbound] in O.
    apply app_inv_head in O. injection O as <- ->.
    assert (P0 : 0 <= nextRequestID (man st1)) by apply (i_next _ (exec_inv _ _ _ E1)).
    destruct (encoded_skeleton _ _ _ _ _ _ _ _ Hm Hk P0 E L') as (t & cid2 & _ & Sk2 & Oc2 & V2).
    destruct (skeleton_unique _ _ _ _ _ Sk Sk2) as (_ & <-).
    rewrite <- app_assoc in P. cbn [app] in P. do 7 eexists. exists cid'.
    split; [exact P|]. split; [exact R|]. split; [exact D|]. split; [exact E|]. split; [exact Sk'|]. split; [exact Oc'|]. split; [exact Nc'|]. congruence.
  - exfalso. specialize (NW tr1 (LCall a) tr2 st1 eq_refl E1).
    destruct (other_call _ _ _ _ _ R C) as (_ & _ & [X|(-> & remote & pdu & com0 & v & om & -> & X)]);
      [rewrite X in O; apply (f_equal (@length _)) in O; rewrite app_length in O; cbn in O; lia|].
    destruct NW as (pc & l & Hp & ->). rewrite X in O. apply app_inv_head in O. injection O as -> ->.
    assert (M : exists mc v', (mc = CMessage \/ mc = CMessage_v2) /\ m = mkMsg mc (VInt CInteger v') (VOct COctetString com0) (VSeq pc l) []).
    { cbn [do_call] in C. unfold mmap, snmpTrap, mbind in C. destruct (flav sys); cbn [createTrapMessage] in C.
      - injection C as <-. cbn [outbound] in X. apply app_inv_head in X. injection X as <-. exists CMessage, 0. auto.
      - injection C as <-. cbn [outbound] in X. apply app_inv_head in X. injection X as <-. exists CMessage_v2, 1. auto.
      - destruct (_ || _); [discriminate|]. injection C as <-. cbn [outbound] in X. apply app_inv_head in X. discriminate. }
    destruct M as (mc & v' & Hm & ->). destruct (encoded_trap _ _ _ _ _ _ Hm Hp E L' _ _ Sk) as [X1|X1]; destruct (asking_tag k As); congruence.
Qed.

(** The answer that makes a callback run answers that very request. *)
Lemma genuine sys tr st l1 id n msg l2 : exec sys tr = Some st -> networked sys tr -> log st = l1 ++ EInvoke id n msg :: l2 ->
  exists tr1 depth os' dst tr2 st1 l0 a k m l0' os,
    tr = tr1 ++ LPoll (Datagram depth os' dst) :: tr2 /\ exec sys tr1 = Some st1 /\ log st1 = l1 /\
    message_decode (reg_of (imports sys)) depth (message_class (flav sys)) (DStr os') = Ok msg /\
    l1 = l0 ++ ECall a (Ok (RVal (VInt k id))) :: EPut (Some m) dst :: l0' /\
    request_callback a = Some (Cb n) /\ asked_destination a = Some dst /\
    snd (message_encode m) = Ok os /\ In (ESend os dst (Ok tt)) l1 /\ answers os os'.
Proof.
  intros H NW L. pose proof (exec_inv _ _ _ H) as V. destruct (i_inv _ V _ _ _ _ _ L) as (Is & Ca).
  destruct (invoke_event _ _ _ _ _ _ _ _ H L) as (tr1 & l & tr2 & st1 & depth & d & -> & E1 & L1 & De & Dm & Pe & _).
  pose proof (NW tr1 l tr2 st1 eq_refl E1) as X. destruct l as [| |[|depth0 os' src|]| | | |]; cbn [delivery] in De; try contradiction.
  destruct De as (-> & -> & _). destruct X as (os & Se & Sz & An).
  destruct (trans sys) eqn:T; cbn [received] in Dm; [discriminate Dm|].
  destruct (answered_request _ _ _ _ _ _ _ E1 (networked_prefix _ _ _ NW) Se Sz An) as (l0 & a & cb & k & id' & m & l0' & cid & P & R & D & E & Sk & Oc & Nc & Vc).
  pose proof (received_id _ _ _ _ _ _ _ Sk Oc Nc Dm Ca) as Y. assert (id' = id) as -> by congruence.
  assert (cb = Cb n) as ->.
  { pose proof (i_sorted _ V) as S. assert (I1 : In (id, Cb n) (issued (log st))) by (rewrite L, issued_app; apply in_or_app; auto).
    assert (I2 : In (id, cb) (issued (log st))).
    { rewrite L, issued_app. apply in_or_app. left. rewrite <- L1, P, issued_app. apply in_or_app. right. cbn. rewrite R. cbn. auto. }
    clear -S I1 I2. induction (issued (log st)) as [|p l IH]; [contradiction|]. inversion S as [|? ? S' F]; subst.
    rewrite Forall_map, Forall_forall in F. destruct I1 as [-> |I1], I2 as [E|I2]; auto.
    + congruence.
    + specialize (F _ I2). cbn in F. lia.
    + subst. specialize (F _ I1). cbn in F. lia. }
  exists tr1, depth, os', src, tr2, st1, l0, a, k, m, l0', os. rewrite <- L1. auto 12.
Qed.

(** ** Deeper stacks do not change what is read *)
Definition extends (dec dec' : str -> res (list val)) : Prop := forall s l, dec s = Ok l -> dec' s = Ok l.
Lemma contents_deeper dec dec' c data v : extends dec dec' -> decodeContents dec c data = Ok v -> decodeContents dec' c data = Ok v.
Proof.
  intros X. unfold decodeContents. destruct (decode_method c) as [[]|]; auto; destruct (dec data) as [l|] eqn:E; cbn [bind]; try discriminate; rewrite (X _ _ E); auto.
Qed.
Lemma one_deeper reg dec dec' s p : extends dec dec' -> decode_one reg dec s = Ok p -> decode_one reg dec' s = Ok p.
Proof.
  intros X. unfold decode_one. destruct (decodeTag s) as [[t s1]|]; cbn [bind]; [|auto]. destruct (decodeLength s1) as [[n s2]|]; cbn [bind]; [|auto].
  destruct (reg_get reg t) as [c|]; [|auto]. destruct (decodeContents dec c (ztake n s2)) as [o|] eqn:E; cbn [bind]; [|discriminate].
  rewrite (contents_deeper _ _ _ _ _ X E). auto.
Qed.
Lemma loop_deeper reg dec dec' fuel : extends dec dec' -> forall s l, decode_loop reg dec fuel s = Ok l -> decode_loop reg dec' fuel s = Ok l.
Proof.
  intros X. induction fuel as [|n IH]; intros [|b s] l H; cbn [decode_loop] in *; auto.
  destruct (decode_one reg dec (b :: s)) as [[o r]|] eqn:E; cbn [bind] in H; [|discriminate]. rewrite (one_deeper _ _ _ _ _ X E). cbn [bind].
  destruct (decode_loop reg dec n r) as [l'|] eqn:E2; cbn [bind] in H; [|discriminate]. rewrite (IH _ _ E2). exact H.
Qed.
Lemma decode_deeper reg d : forall d', (d <= d')%nat -> extends (decode reg d) (decode reg d').
Proof.
  induction d as [|d IH]; intros [|d'] L s l H; cbn [decode] in *; try discriminate; [lia|].
  eapply loop_deeper; [apply IH; lia|exact H].
Qed.
Lemma message_decode_deeper reg d d' c s m : (d <= d')%nat -> message_decode reg d c (DStr s) = Ok m -> message_decode reg d' c (DStr s) = Ok m.
Proof.
  intros L. unfold message_decode, decode_data. destruct (decode reg d s) as [l|] eqn:E; cbn [bind]; [|discriminate].
  rewrite (decode_deeper _ _ _ L _ _ E). auto.
Qed.
(** What was received is what was sent, whenever it can be read at all. *)
Lemma received_content cfg strict ver com pdu os depth c msg : wire strict (message_tree ver com pdu) os -> readable cfg pdu ->
  message_decode (reg_of cfg) depth c (DStr os) = Ok msg ->
  tree_of (m_version msg) = Some (TInt KInteger ver) /\ tree_of (m_community msg) = Some (TOct KOctetString com) /\ tree_of (m_data msg) = Some pdu.
Proof.
  intros W R D. destruct (message_reads _ _ _ _ _ _ W R) as (v0 & v1 & v2 & T0 & T1 & T2 & X).
  pose proof (message_decode_deeper _ _ (Nat.max depth (S (height pdu))) _ _ _ (Nat.le_max_l _ _) D) as D'. rewrite X in D' by lia. injection D' as <-. auto.
Qed.
Lemma normal_le id lg : (normal_finishes id lg <= finishes id lg)%nat.
Proof.
  unfold normal_finishes, finishes. induction lg as [|e l IH]; [apply le_n|]. cbn [filter]. destruct e as [| | | | | |i r| |]; try exact IH. destruct r as [u|x], (i =? id); cbn [length]; try exact IH; [apply le_n_S, IH|apply le_S, IH].
Qed.
Lemma invocations_in id lg : (1 <= invocations id lg)%nat -> exists l1 n msg l2, lg = l1 ++ EInvoke id n msg :: l2.
Proof. intros H. destruct (last_invocation _ _ H) as (p & n & m & q & E & _). eauto. Qed.
(** An id is returned by one request call only. *)
Lemma sorted_once {A} (f : A -> list (Z * cbval)) (l : list A) x y id cb cb' : StronglySorted Z.lt (map fst (flat_map f l)) ->
  In x l -> In y l -> f x = [(id, cb)] -> f y = [(id, cb')] -> x = y.
Proof.
  induction l as [|z l IH]; [contradiction|]. cbn [flat_map]. rewrite map_app. intros S Ix Iy Fx Fy.
  assert (S2 : StronglySorted Z.lt (map fst (flat_map f l))) by (clear -S; induction (map fst (f z)); [exact S|inversion S; auto]).
  assert (N : forall w c c', f z = [(id, c)] -> f w = [(id, c')] -> ~ In w l).
  { intros w c c' Fz Fw I. rewrite Fz in S. inversion S as [|? ? _ F]; subst. rewrite Forall_forall in F.
    specialize (F id). cbn in F. apply (Z.lt_irrefl id), F. apply in_map_iff. exists (id, c'). split; [reflexivity|]. apply in_flat_map. exists w. rewrite Fw. cbn. auto. }
  destruct Ix as [->|Ix], Iy as [->|Iy]; auto.
  - destruct (N _ _ _ Fx Fy Iy).
  - destruct (N _ _ _ Fy Fx Ix).
Qed.
Lemma request_once sys tr st a cb k id a' cb' k' : exec sys tr = Some st ->
  In (ECall a (Ok (RVal (VInt k id)))) (log st) -> request_callback a = Some cb ->
  In (ECall a' (Ok (RVal (VInt k' id)))) (log st) -> request_callback a' = Some cb' -> a = a'.
Proof.
  intros H I R I' R'. pose proof (i_sorted _ (exec_inv _ _ _ H)) as S. unfold issued in S.
  pose proof (sorted_once issued_by (log st) _ _ id cb cb' S I I') as X. cbn [issued_by] in X. rewrite R, R' in X. cbn in X. specialize (X eq_refl eq_refl). congruence.
Qed.

(** ** Traps *)
Lemma third_tag cfg depth mc t cid os msg : skeleton t cid os -> Z.land t 31 <> 31 -> message_decode (reg_of cfg) depth mc (DStr os) = Ok msg ->
  exists cl dec data, reg_get (reg_of cfg) t = Some cl /\ decodeContents dec cl data = Ok (m_data msg).
Proof.
  intros (cv & com & ov & oc & op & oi & re & A & B & C & D & E) T H.
  apply message_decode_ok in H as (o & a & b & d & H & Co & ->). destruct depth as [|n]; [discriminate H|].
  rewrite <- (app_nil_r os) in H. apply (decode_first _ _ _ _ _ _ _ (kind_octet_low KSequence) A) in H as (cl & o' & l' & G & Dc & _ & X).
  assert (cl = CSequence) as -> by (destruct cfg; vm_compute in G; congruence). injection X as <- <-.
  unfold decodeContents in Dc. change (decode_method CSequence) with (Some DSequence) in Dc. cbv iota beta in Dc.
  destruct (decode (reg_of cfg) n (ov ++ oc ++ op)) as [l|] eqn:H; [|discriminate Dc]. cbn [bind] in Dc.
  injection Dc as <-. cbn in Co. injection Co as ->. destruct n as [|n]; [discriminate H|].
  apply (decode_first _ _ _ _ _ _ _ (kind_octet_low KInteger) B) in H as (c1 & o1 & l1 & _ & _ & H & X). injection X as <- <-.
  apply (decode_first _ _ _ _ _ _ _ (kind_octet_low KOctetString) C) in H as (c2 & o2 & l2 & _ & _ & H & X). injection X as <- <-.
  rewrite <- (app_nil_r op) in H. apply (decode_first _ _ _ _ _ _ _ T D) in H as (c3 & o3 & l3 & G3 & D3 & _ & X). injection X as <- <-.
  eauto 6.
Qed.
Lemma request_not_trap cfg c t cl dec data v : In c [CGet; CGetNext; CSet; CGet_v2; CGetNext_v2; CSet_v2] -> class_identifier c = Ok [t] ->
  reg_get (reg_of cfg) t = Some cl -> decodeContents dec cl data = Ok v -> isinstance v CTrapPDU = false.
Proof.
  intros I C R D. assert (X : decode_method cl = Some DPDU /\ issubclass cl CTrapPDU = false).
  { cbn in I. repeat (destruct I as [<-|I]; [vm_compute in C; injection C as <-; destruct cfg; vm_compute in R; inversion R; split; reflexivity|]). contradiction. }
  destruct X as [M S]. unfold decodeContents in D. rewrite M in D. destruct (dec data) as [l|]; [|discriminate D]. cbn [bind] in D.
  destruct l as [|o0 [|o1 [|o2 [|o3 [|? ?]]]]]; try discriminate D. cbn [pdu_of_objects] in D.
  destruct (py_iter o3); [|discriminate D]. cbn [bind] in D. destruct (mapM _ _); [|discriminate D]. cbn [bind] in D.
  destruct (py_int o0); [|discriminate D]. cbn [bind] in D. destruct (py_int o1); [|discriminate D]. cbn [bind] in D. destruct (py_int o2); [|discriminate D]. cbn [bind] in D.
  apply pdu_init_shape in D as (k & e' & i' & v' & ->). exact S.
Qed.
Lemma trap_call f dst pdu com ver m m' om d : do_call f (ATrap dst pdu com ver) m = (m', Ok RNone) -> outbound m' = outbound m ++ [(Some om, d)] ->
  d = dst /\ f <> FSM /\ message_init (match f with FV1 => CMessage | _ => CMessage_v2 end) (VPyInt (match f with FV1 => 0 | _ => 1 end)) com pdu = Ok om.
Proof.
  intros C X. cbn [do_call] in C. unfold mmap, snmpTrap, mbind in C. destruct f; cbn [createTrapMessage] in C.
  - injection C as <-. cbn [outbound] in X. apply app_inv_head in X. injection X as <- <-. split; [reflexivity|]. split; [discriminate|reflexivity].
  - injection C as <-. cbn [outbound] in X. apply app_inv_head in X. injection X as <- <-. split; [reflexivity|]. split; [discriminate|reflexivity].
  - destruct (_ || _); [discriminate|]. injection C as <-. cbn [outbound] in X. apply app_inv_head in X. discriminate.
Qed.
(** A trap callback of a listener that hears only one sender runs for a trap of that sender. *)
Lemma trap_genuine sa tra sta sb trb stb dst l1 n msg l2 : exec sa tra = Some sta -> exec sb trb = Some stb -> relayed dst (log sta) trb ->
  log stb = l1 ++ EInvokeTrap n msg :: l2 ->
  exists pdu com ver, In (ECall (ATrap dst pdu com ver) (Ok RNone)) (log sta) /\
    forall t s, com = VPyStr s -> tree_of pdu = Some t -> wf (imports sb) t -> classes_ok pdu = true ->
      tree_of (m_data msg) = Some t /\ tree_of (m_community msg) = Some (TOct KOctetString s).
Proof.
  intros HA HB R L. destruct (trap_event _ _ _ _ _ _ _ HB L) as (T & Is & tr1 & l & tr2 & st1 & depth & d & -> & E1 & L1 & De & Dm & _).
  apply Forall_app in R as [_ R]. inversion R as [|? ? X _]; subst. clear R. destruct l as [| |[|depth0 os src|]| | | |]; cbn [delivery] in De; try contradiction.
  destruct De as (-> & -> & _). destruct X as (Se & Sz). destruct (trans sb); cbn [received] in Dm; [discriminate Dm|].
  destruct (sent_was_put _ _ _ _ _ _ HA Se) as (m & P & E). apply in_split in P as (l3 & l4 & P).
  destruct (put_was_called _ _ _ _ _ _ _ HA P) as (ta & a & tb & sa1 & m' & r0 & -> & E1' & C & O & ->).
  pose proof (small_enough _ Sz) as L'.
  destruct (request_callback a) as [cb|] eqn:Rc.
  - exfalso. pose proof (requests_call _ _ _ _ _ _ Rc C) as X. destruct r0 as [v|e]; [|destruct X as (X & _); rewrite X in O; apply (f_equal (@length _)) in O; rewrite app_length in O; cbn in O; lia].
    destruct (call_sends _ _ _ _ _ _ Rc C) as (dst' & com0 & mc & c & kr & tl & msg0 & In6 & D & -> & Hm & Hk & -> & ->). cbn [outbound] in O.
    apply app_inv_head in O. injection O as <- ->.
    destruct (encoded_skeleton _ _ _ _ _ _ _ _ Hm Hk (i_next _ (exec_inv _ _ _ E1')) E L') as (t & cid2 & Ci & Sk2 & _).
    assert (Lt : Z.land t 31 <> 31) by (clear -Ci In6; cbn in In6; repeat (destruct In6 as [<-|In6]; [vm_compute in Ci; injection Ci as <-; cbn; lia|]); contradiction).
    destruct (third_tag _ _ _ _ _ _ _ Sk2 Lt Dm) as (cl & dec & data & Rg & Dc). rewrite (request_not_trap _ _ _ _ _ _ _ In6 Ci Rg Dc) in Is. discriminate.
  - destruct (other_call _ _ _ _ _ Rc C) as (_ & _ & [X|(-> & remote & pdu & com0 & v & om & -> & X)]);
      [rewrite X in O; apply (f_equal (@length _)) in O; rewrite app_length in O; cbn in O; lia|].
    destruct (trap_call _ _ _ _ _ _ _ _ _ C O) as (-> & NF & Mi). exists pdu, com0, v. split.
    { rewrite P. apply in_or_app. left. apply in_or_app. right. left. reflexivity. }
    intros t s -> Tt W Co.
    destruct (message_roundtrip (imports sb) (match flav sa with FV1 => CMessage | _ => CMessage_v2 end) (match flav sa with FV1 => 0 | _ => 1 end) s pdu t m) as (os' & Eo & Back); auto.
    + destruct (flav sa); auto.
    + destruct (flav sa); left; lia.
    + rewrite E in Eo. injection Eo as <-. destruct (Back L') as (v0 & v1 & v2 & _ & T1 & T2 & Dd).
      pose proof (message_decode_deeper _ _ (Nat.max depth (S (height t))) _ _ _ (Nat.le_max_l _ _) Dm) as D'. rewrite Dd in D' by apply Nat.le_max_r. injection D' as <-. auto.
Qed.
