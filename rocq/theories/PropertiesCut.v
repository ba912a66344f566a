(** * C94: messages that stop early.  Statements; proofs in ProofsCut and ProofsCutOnly. *)
From Coq Require Import ZArith List Bool Lia.
From Verif Require Import PyBase Classes Values Codec Manager SpecBER SpecSMI SpecTree SpecWire SpecMsg SpecManager SpecCut ProofsTree ProofsDecode ProofsWire ProofsRun ProofsCut ProofsCutOnly.
Import ListNotations.
Open Scope Z_scope.

(** C94. Whatever an encoding is cut down to by stopping inside the contents of a number, a string or an identifier, or between the components of a sequence, at any depth and with every length field
    left promising more: decode() accepts it, and returns the value that the octets there are would have if they had been meant to be all. *)
Theorem C94_cut : forall cfg strict t os t' os', cut strict t os t' os' -> readable cfg t' ->
  (wire strict t os /\ exists rest, os = os' ++ rest) /\
  exists w, tree_of w = Some t' /\ forall depth, (height t' <= depth)%nat -> decode (reg_of cfg) depth os' = Ok [w].
Proof. intros cfg strict t os t' os' C R. split; [exact (cut_prefix _ _ _ _ _ C)|exact (cut_decodes _ _ _ _ _ _ C R)]. Qed.
Print Assumptions C94_cut.
(** C94. So a message whose last value is a string s1 s2, encoded in any way, is a message again when the last octets, as many as s2 has, are missing: with the same version, community, id, error fields and bindings, and
    s1 for the string. *)
Theorem C94_string : forall cfg strict ver com k id status index bs name ko s1 s2 os, oct_kind ko = true -> request_kind k = true ->
  wire strict (message_tree ver com (request_tree k id status index (bs ++ [(name, TOct ko (s1 ++ s2))]))) os ->
  readable cfg (request_tree k id status index (bs ++ [(name, TOct ko (s1 ++ s2))])) ->
  let pdu := request_tree k id status index (bs ++ [(name, TOct ko s1)]) in
  exists v0 v1 v2, tree_of v0 = Some (TInt KInteger ver) /\ tree_of v1 = Some (TOct KOctetString com) /\ tree_of v2 = Some pdu /\
    forall c depth, (S (height pdu) <= depth)%nat -> message_decode (reg_of cfg) depth c (DStr (firstn (length os - length s2) os)) = Ok (mkMsg c v0 v1 v2 []).
Proof.
  intros cfg strict ver com k id status index bs name ko s1 s2 os I K W R. cbn zeta.
  destruct (clipped_message _ cfg strict _ _ _ _ os (clips_message _ strict ver com k id status index bs name _ _ (clips_oct strict ko s1 s2)) W) as (os' & rest & E & Q & X); [|subst os s2; rewrite firstn_cut; exact X].
  eapply request_last; [exact R|exact I| | |]; destruct k; try discriminate K; first [reflexivity|discriminate].
Qed.
Print Assumptions C94_string.
(** C94. One whose last value is a number z >= 256^j, when the last j octets are missing: with z / 256^j for the number. *)
Theorem C94_number : forall cfg strict ver com k id status index bs name ki z j os, request_kind k = true -> 256 ^ Z.of_nat j <= z ->
  wire strict (message_tree ver com (request_tree k id status index (bs ++ [(name, TInt ki z)]))) os ->
  readable cfg (request_tree k id status index (bs ++ [(name, TInt ki z)])) ->
  let pdu := request_tree k id status index (bs ++ [(name, TInt ki (z / 256 ^ Z.of_nat j))]) in
  exists v0 v1 v2, tree_of v0 = Some (TInt KInteger ver) /\ tree_of v1 = Some (TOct KOctetString com) /\ tree_of v2 = Some pdu /\
    forall c depth, (S (height pdu) <= depth)%nat -> message_decode (reg_of cfg) depth c (DStr (firstn (length os - j) os)) = Ok (mkMsg c v0 v1 v2 []).
Proof.
  intros cfg strict ver com k id status index bs name ki z j os K Hz W R. cbn zeta.
  destruct (clipped_message _ cfg strict _ _ _ _ os (clips_message _ strict ver com k id status index bs name _ _ (clips_int strict ki z j Hz)) W) as (os' & rest & E & Q & X); [|subst os j; rewrite firstn_cut; exact X].
  assert (P : 0 < 256 ^ Z.of_nat j) by (apply Z.pow_pos_nonneg; lia). assert (Q : 0 <= z / 256 ^ Z.of_nat j) by (apply Z.div_pos; lia).
  eapply request_last; [exact R| | | |]; [|destruct k; try discriminate K; first [reflexivity|discriminate] ..].
  assert (Rz : readable cfg (TInt ki z)). { unfold request_tree in R. rewrite map_app in R. apply readable_seq in R as [R _]. inversion R as [|? ? _ R1]; subst. inversion R1 as [|? ? _ R2]; subst. inversion R2 as [|? ? _ R3]; subst. inversion R3 as [|? ? R4 _]; subst.
    apply readable_seq in R4 as [R4 _]. apply Forall_app in R4 as [_ B]. inversion B as [|? ? B1 _]; subst. apply readable_seq in B1 as [B1 _]. inversion B1 as [|? ? _ B2]; subst. inversion B2; assumption. }
  destruct ki; cbn [readable] in *; try contradiction; intuition.
Qed.
Print Assumptions C94_number.
(** C94. And one with further bindings, when all the octets of these are missing: without them. *)
Theorem C94_bindings : forall cfg strict ver com k id status index bs cs os, request_kind k = true ->
  wire strict (message_tree ver com (request_tree k id status index (bs ++ cs))) os -> readable cfg (request_tree k id status index (bs ++ cs)) ->
  let pdu := request_tree k id status index bs in
  exists os' rest v0 v1 v2, os = os' ++ rest /\ wires strict (map binding_tree cs) rest /\
    tree_of v0 = Some (TInt KInteger ver) /\ tree_of v1 = Some (TOct KOctetString com) /\ tree_of v2 = Some pdu /\
    forall c depth, (S (height pdu) <= depth)%nat -> message_decode (reg_of cfg) depth c (DStr os') = Ok (mkMsg c v0 v1 v2 []).
Proof.
  intros cfg strict ver com k id status index bs cs os K W R. cbn zeta.
  destruct (clipped_message _ cfg strict _ _ _ _ os (clips_bindings strict ver com k id status index bs cs) W) as (os' & rest & E & Q & v0 & v1 & v2 & X).
  - eapply request_first; [exact R| | |]; destruct k; try discriminate K; first [reflexivity|discriminate].
  - exists os', rest, v0, v1, v2. split; [exact E|]. split; [exact Q|]. exact X.
Qed.
Print Assumptions C94_bindings.
(** C94. A manager takes what is left for the whole: in every state, through receiveData or poll(), the callback of the pending request with that id runs, with what is left. *)
Theorem C94_callback : forall sys st l depth strict t os ver com pdu os' id n, importable sys -> cut strict t os (message_tree ver com pdu) os' ->
  delivery sys st l depth (DStr os') -> readable (imports sys) pdu -> (S (height pdu) <= depth)%nat -> answer_to (flav sys) ver pdu id -> pending (man st) id (Cb n) ->
  exists msg st', step sys st l = Some st' /\ callback_runs st st' (FResp id) (EInvoke id n msg) /\
    tree_of (m_version msg) = Some (TInt KInteger ver) /\ tree_of (m_community msg) = Some (TOct KOctetString com) /\ tree_of (m_data msg) = Some pdu.
Proof.
  intros sys st l depth strict t os ver com pdu os' id n Im C D R Hd A N.
  destruct (answer_delivered_read _ _ _ _ _ _ _ _ _ Im D (cut_reads_as _ _ _ _ _ _ _ _ C R) Hd A) as (msg & st' & T0 & T1 & T2 & S & X).
  unfold pending in N. rewrite N in X. exists msg, st'. auto.
Qed.
Print Assumptions C94_callback.
(** C94. A case: an answer of 43 octets with two bindings, the last a string of two characters, and the five of its beginnings that Message.decode accepts. *)
Definition sample_answer (bs : list (list Z * tree)) : tree := message_tree 0 [112; 117; 98; 108; 105; 99] (request_tree KResponse 7 0 0 bs).
Definition sample_cuttable : list Z := [48; 41; 2; 1; 0; 4; 6; 112; 117; 98; 108; 105; 99; 162; 28; 2; 1; 7; 2; 1; 0; 2; 1; 0; 48; 17; 48; 6; 6; 1; 43; 2; 1; 5; 48; 7; 6; 1; 43; 4; 2; 104; 105].
Definition accepted (os : list Z) : bool := match message_decode (reg_of Upto1905) 6 CMessage (DStr os) with Ok _ => true | Err _ => false end.
Example C94_example : wire true (sample_answer [([1; 3], TInt KInteger 5); ([1; 3], TOct KOctetString ([104] ++ [105]))]) sample_cuttable /\
  readable Upto1905 (request_tree KResponse 7 0 0 [([1; 3], TInt KInteger 5); ([1; 3], TOct KOctetString ([104] ++ [105]))]) /\
  filter (fun n => accepted (firstn n sample_cuttable)) (seq 0 44) = [26; 34; 41; 42; 43]%nat /\
  firstn 42 sample_cuttable = firstn (length sample_cuttable - length [105]) sample_cuttable.
Proof.
  assert (O : oid_survives [1; 3]) by (cbn; repeat split; try lia; repeat constructor; lia).
  assert (S : request_shape (match request_tree KResponse 7 0 0 [([1; 3], TInt KInteger 5); ([1; 3], TOct KOctetString [104; 105])] with TSeq _ l => l | _ => [] end)).
  { exists 7, 0, 0, [TSeq KSequence [TOid [1; 3]; TInt KInteger 5]; TSeq KSequence [TOid [1; 3]; TOct KOctetString [104; 105]]]. cbn.
    split; [reflexivity|]. split; [unfold in32; lia|]. split; [unfold in32; lia|]. split; [unfold in32; lia|]. split; [|lia].
    constructor; [eexists; eexists; reflexivity|]. constructor; [eexists; eexists; reflexivity|constructor]. }
  assert (I0 : int_survives 0) by (left; lia). assert (I5 : int_survives 5) by (left; lia). assert (I7 : int_survives 7) by (left; lia).
  split; [|split; [|split; [vm_compute; reflexivity|reflexivity]]].
  - apply (writes_all Upto1905 (VSeq CSequence [VInt CInteger 0; VOct COctetString (VPyStr [112; 117; 98; 108; 105; 99]);
      VSeq CResponse_v2 [VInt CInteger32 7; VInt CErrorStatus_v2 0; VInt CInteger 0; VSeq CVarBindList_v2 [VSeq CVarBind_v2 [VOid (Some [1; 3]); VInt CInteger 5]; VSeq CVarBind_v2 [VOid (Some [1; 3]); VOct COctetString (VPyStr [104; 105])]]]]));
    try reflexivity.
    cbn -[oid_survives int_survives request_shape]. repeat split; auto; try lia; repeat constructor; lia.
  - cbn -[oid_survives int_survives request_shape]. repeat split; auto; try lia; repeat constructor; lia.
Qed.
(** C94. And nothing else: a beginning of an encoding that decode() accepts is empty, or a cut of it as described - so one that stops in an identifier octet, a length field, before the first octet of a number or of an
    identifier, or inside a subidentifier is refused. *)
Theorem C94_only : forall cfg strict t os p rest depth l, wire strict t os -> os = p ++ rest -> rest <> [] -> decode (reg_of cfg) depth p = Ok l ->
  (p = [] /\ l = []) \/ exists t', cut strict t os t' p.
Proof. exact cuts_only. Qed.
Print Assumptions C94_only.
(** C94. Of a message that stops early Message.decode accepts only one of this form: version, community, kind of PDU, id and the two numbers after it are those of the whole, and so are the bindings, except that the
    last ones may be missing, and the end of the value of the last one that is left. *)
Theorem C94_message_only : forall cfg strict ver com k id status index bs os p rest c depth m, request_kind k = true \/ k = KGetBulk ->
  wire strict (message_tree ver com (request_tree k id status index bs)) os -> os = p ++ rest -> rest <> [] -> message_decode (reg_of cfg) depth c (DStr p) = Ok m ->
  exists bs', cut strict (message_tree ver com (request_tree k id status index bs)) os (message_tree ver com (request_tree k id status index bs')) p /\ shortened strict bs bs'.
Proof. intros cfg strict ver com k id status index bs os p rest c depth m K. apply message_cut; destruct K as [K|E]; try (subst k; first [reflexivity|discriminate]); destruct k; try discriminate K; first [reflexivity|discriminate]. Qed.
Print Assumptions C94_message_only.
(** C94. And of a v1 trap that stops early only one with the same version, community, enterprise, agent, trap numbers and time, and bindings that are those of the whole but for the last. *)
Theorem C94_trap_only : forall cfg strict ver com enterprise agent generic specific ticks bs os p rest c depth m,
  wire strict (message_tree ver com (trap_tree enterprise agent generic specific ticks bs)) os -> os = p ++ rest -> rest <> [] -> message_decode (reg_of cfg) depth c (DStr p) = Ok m ->
  exists bs', cut strict (message_tree ver com (trap_tree enterprise agent generic specific ticks bs)) os (message_tree ver com (trap_tree enterprise agent generic specific ticks bs')) p /\ shortened strict bs bs'.
Proof. exact trap_message_cut. Qed.
Print Assumptions C94_trap_only.
(** C94. A manager hands what is left of a trap, of any kind it takes for one, to its trap callback. *)
Theorem C94_trap_callback : forall sys st l depth strict t os ver com pdu os' n, importable sys -> cut strict t os (message_tree ver com pdu) os' ->
  delivery sys st l depth (DStr os') -> readable (imports sys) pdu -> (S (height pdu) <= depth)%nat -> reaction_to (flav sys) ver (top_kind pdu) = Trap -> trapCallback sys = Some (Cb n) ->
  exists msg st', step sys st l = Some st' /\ callback_runs st st' FTrap (EInvokeTrap n msg) /\
    tree_of (m_version msg) = Some (TInt KInteger ver) /\ tree_of (m_community msg) = Some (TOct KOctetString com) /\ tree_of (m_data msg) = Some pdu.
Proof.
  intros sys st l depth strict t os ver com pdu os' n Im C D R Hd A N.
  destruct (message_delivered_read _ _ _ _ _ _ _ _ Im D (cut_reads_as _ _ _ _ _ _ _ _ C R) Hd) as (msg & st' & T0 & T1 & T2 & S & X).
  rewrite A, N in X. exists msg, st'. auto.
Qed.
Print Assumptions C94_trap_callback.
