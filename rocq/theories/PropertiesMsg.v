(** * C25-C30, C52, C53: messages, PDUs, equality, X.690 conformance.  Statements only; proofs in
    ProofsWire and ProofsMsg. *)
From Coq Require Import ZArith List Bool Lia.
From Verif Require Import PyBase Classes Values Codec SpecBER SpecSMI SpecTree SpecWire SpecMsg ProofsTree ProofsDecode ProofsWire ProofsMsg.
Import ListNotations.
Open Scope Z_scope.

(** C25. Every request/response message built with the constructors is encoded to octets that
    are (by the independent X.690 relation [wire]) the message it denotes, and that
    Message.decode reads back to a message with the same version, community, PDU kind, ids and
    bindings in order. *)
Theorem C25_request_roundtrip : forall cfg mc c k ver com r e i (bs : list (list Z * val)) (tbs : list (list Z * tree)),
  mc = CMessage \/ mc = CMessage_v2 ->
  In c [CGet; CGetNext; CSet; CGet_v2; CGetNext_v2; CResponse_v2; CSet_v2; CInform; CTrapV2; CReport] ->
  kind_of c = Some k -> available cfg k = true ->
  in32 ver -> in32 r -> in32 e -> in32 i -> int_survives ver -> int_survives r -> int_survives e -> int_survives i ->
  zlen bs <= 2 ^ 31 - 1 ->
  Forall2 (fun b t => fst t = fst b /\ tree_of (snd b) = Some (snd t) /\ classes_ok (snd b) = true /\
                      oid_survives (fst t) /\ wf cfg (snd t)) bs tbs ->
  exists pdu m os,
    pdu_init c (VPyInt r) (VPyInt e) (VPyInt i)
             (VPyList (map (fun b => VSeq CVarBind [VOid (Some (fst b)); snd b]) bs)) = Ok pdu /\
    message_init mc (VPyInt ver) (VPyStr com) pdu = Ok m /\ snd (message_encode m) = Ok os /\
    (zlen os < 256 ^ 126 ->
     wire true (message_tree ver com (request_tree k r e i tbs)) os /\
     exists m', tree_of (m_version m') = Some (TInt KInteger ver) /\
       tree_of (m_community m') = Some (TOct KOctetString com) /\
       tree_of (m_data m') = Some (request_tree k r e i tbs) /\
       forall depth, (S (height (request_tree k r e i tbs)) <= depth)%nat ->
         message_decode (reg_of cfg) depth mc (DStr os) = Ok m').
Proof. exact request_roundtrip. Qed.
Print Assumptions C25_request_roundtrip.
Theorem C25_getbulk_roundtrip : forall cfg mc ver com r n x (bs : list (list Z * val)) (tbs : list (list Z * tree)),
  mc = CMessage \/ mc = CMessage_v2 -> available cfg KGetBulk = true ->
  in32 ver -> in32 r -> in32 n -> in32 x -> int_survives ver -> int_survives r -> int_survives n -> int_survives x ->
  zlen bs <= 2 ^ 31 - 1 ->
  Forall2 (fun b t => fst t = fst b /\ tree_of (snd b) = Some (snd t) /\ classes_ok (snd b) = true /\
                      oid_survives (fst t) /\ wf cfg (snd t)) bs tbs ->
  exists pdu m os,
    bulkpdu_init CGetBulk (VPyInt r) (VPyInt n) (VPyInt x)
             (VPyList (map (fun b => VSeq CVarBind_v2 [VOid (Some (fst b)); snd b]) bs)) = Ok pdu /\
    message_init mc (VPyInt ver) (VPyStr com) pdu = Ok m /\ snd (message_encode m) = Ok os /\
    (zlen os < 256 ^ 126 ->
     wire true (message_tree ver com (request_tree KGetBulk r n x tbs)) os /\
     exists m', tree_of (m_version m') = Some (TInt KInteger ver) /\
       tree_of (m_community m') = Some (TOct KOctetString com) /\
       tree_of (m_data m') = Some (request_tree KGetBulk r n x tbs) /\
       forall depth, (S (height (request_tree KGetBulk r n x tbs)) <= depth)%nat ->
         message_decode (reg_of cfg) depth mc (DStr os) = Ok m').
Proof. exact bulk_roundtrip. Qed.
Print Assumptions C25_getbulk_roundtrip.
(** C25. Messages written by others: any legal encoding, shortest or padded, of any readable message. *)
Theorem C25_message_interop : forall cfg strict ver com pdu os,
  wire strict (message_tree ver com pdu) os -> readable cfg pdu ->
  exists v0 v1 v2, tree_of v0 = Some (TInt KInteger ver) /\ tree_of v1 = Some (TOct KOctetString com) /\ tree_of v2 = Some pdu /\
    forall c depth, (S (height pdu) <= depth)%nat -> message_decode (reg_of cfg) depth c (DStr os) = Ok (mkMsg c v0 v1 v2 []).
Proof. exact message_reads. Qed.
Print Assumptions C25_message_interop.
(** C25. The SNMPv1 Response class is not among those above: it is written as a Get. *)
Theorem C25_v1_response_refuted : forall l os, encode (VSeq CResponse l) = Ok os -> encode (VSeq CGet l) = Ok os.
Proof. exact (fun l os H => H). Qed.
Print Assumptions C25_v1_response_refuted.
Definition C25_bindings : list (list Z * val) :=
  [([1; 3; 6; 1; 2; 1], VNull CNull); ([1; 3; 6; 1; 4; 1; 99999], VOct COctetString (VPyStr [104; 105])); ([0; 39], VInt CCounter 4294967295)].
Definition C25_binding_trees : list (list Z * tree) :=
  [([1; 3; 6; 1; 2; 1], TNull KNull); ([1; 3; 6; 1; 4; 1; 99999], TOct KOctetString [104; 105]); ([0; 39], TInt KCounter32 4294967295)].
Ltac nonnegs := repeat (apply Forall_cons; [lia|]); apply Forall_nil.
Example C25_example : Forall2 (fun b t => fst t = fst b /\ tree_of (snd b) = Some (snd t) /\ classes_ok (snd b) = true /\
                      oid_survives (fst t) /\ wf Upto1157 (snd t)) C25_bindings C25_binding_trees /\
  available Upto1157 KGetNext = true /\ in32 17 /\ int_survives 17.
Proof.
  split; [|split; [reflexivity|split; [unfold in32; lia|left; lia]]].
  repeat constructor; cbn; try lia; try nonnegs.
Qed.

(** C26. The same for SNMPv1 traps: all six fields come back. *)
Theorem C26_trap_roundtrip : forall cfg mc ver com ent agent g s ticks (bs : list (list Z * val)) (tbs : list (list Z * tree)) ca,
  mc = CMessage \/ mc = CMessage_v2 -> ca = CNetworkAddress \/ ca = CIPAddress -> available cfg KTrapV1 = true ->
  in32 ver -> int_survives ver -> oid_survives ent -> in32 g -> int_survives g -> int_survives s -> int_survives ticks ->
  Forall2 (fun b t => fst t = fst b /\ tree_of (snd b) = Some (snd t) /\ classes_ok (snd b) = true /\
                      oid_survives (fst t) /\ wf cfg (snd t)) bs tbs ->
  exists m os,
    message_init mc (VPyInt ver) (VPyStr com)
      (trappdu_init (VOid (Some ent)) (VOct ca (VPyStr agent)) (VInt CGenericTrap g) (VInt CInteger s) (VInt CTimeTicks ticks)
                    (VSeq CVarBindList (map (fun b => VSeq CVarBind [VOid (Some (fst b)); snd b]) bs))) = Ok m /\
    snd (message_encode m) = Ok os /\
    (zlen os < 256 ^ 126 ->
     wire true (message_tree ver com (trap_tree ent agent g s ticks tbs)) os /\
     exists m', tree_of (m_version m') = Some (TInt KInteger ver) /\
       tree_of (m_community m') = Some (TOct KOctetString com) /\
       tree_of (m_data m') = Some (trap_tree ent agent g s ticks tbs) /\
       forall depth, (S (height (trap_tree ent agent g s ticks tbs)) <= depth)%nat ->
         message_decode (reg_of cfg) depth mc (DStr os) = Ok m').
Proof. exact trap_roundtrip. Qed.
Print Assumptions C26_trap_roundtrip.
Example C26_example : oid_survives [1; 3; 6; 1; 4; 1; 9] /\ int_survives 6 /\ in32 6 /\ available Upto1905 KTrapV1 = true.
Proof. split; [|split; [left; lia|split; [unfold in32; lia|reflexivity]]]. cbn. repeat split; try lia; nonnegs. Qed.

(** C27. Exactly what Message.decode accepts: one object with three components.  [components] also
    counts the arcs of an ObjectID, and nothing is asked of the components. *)
Theorem C27_accepts : forall cfg depth c s m,
  message_decode (reg_of cfg) depth c (DStr s) = Ok m <->
  exists o a b d, decode (reg_of cfg) depth s = Ok [o] /\ components o = Some [a; b; d] /\ m = mkMsg c a b d [].
Proof. exact message_decode_ok. Qed.
Print Assumptions C27_accepts.
(** C27. And how everything else is refused: MessageError only for a wrong number of components. *)
Theorem C27_refuses : forall cfg depth c s,
  match decode (reg_of cfg) depth s with
  | Err e => message_decode (reg_of cfg) depth c (DStr s) = Err e
  | Ok [o] => match components o with
              | None => message_decode (reg_of cfg) depth c (DStr s) = Err TypeError
              | Some l => length l <> 3%nat -> message_decode (reg_of cfg) depth c (DStr s) = Err MessageError
              end
  | Ok _ => message_decode (reg_of cfg) depth c (DStr s) = Err TypeError
  end.
Proof. exact message_decode_err. Qed.
Print Assumptions C27_refuses.
(** C27. So a three-arc identifier, or three nulls, pass for a message. *)
Theorem C27_validation_refuted :
  message_decode (reg_of Upto1157) 5 CMessage (DStr [6; 2; 43; 6]) = Ok (mkMsg CMessage (VPyInt 1) (VPyInt 3) (VPyInt 6) []) /\
  message_decode (reg_of Upto1157) 5 CMessage (DStr [48; 6; 5; 0; 5; 0; 5; 0]) = Ok (mkMsg CMessage (VNull CNull) (VNull CNull) (VNull CNull) []).
Proof. split; reflexivity. Qed.
Print Assumptions C27_validation_refuted.

(** C28. Exactly which received PDUs are accepted and what they become.  [data] is the contents of the
    PDU, [objs] the objects it decodes to. *)
Theorem C28_pdu_accepts : forall cfg d c data objs w, decode_method c = Some DPDU -> decode (reg_of cfg) d data = Ok objs ->
  (decodeContents (decode (reg_of cfg) d) c data = Ok w <->
   exists o0 o1 o2 o3 r e i items ps,
     objs = [o0; o1; o2; o3] /\ wire_integer o0 r /\ wire_integer o1 e /\ wire_integer o2 i /\
     in32 e /\ in32 i /\ components o3 = Some items /\
     Forall2 (fun it p => accepted_binding it (fst p) (snd p)) items ps /\
     if issubclass c CPDU_v2
     then - 2 ^ 31 <= r <= 2 ^ 31 /\ zlen items <= 2 ^ 31 - 1 /\
          w = VSeq c [VInt CInteger32 r; VInt CErrorStatus_v2 e; VInt CInteger i;
                      VSeq CVarBindList_v2 (map (fun p => VSeq CVarBind [fst p; snd p]) ps)]
     else in32 r /\
          w = VSeq c [VInt CInteger r; VInt CErrorStatus e; VInt CInteger i;
                      VSeq CVarBindList (map (fun p => VSeq CVarBind [fst p; snd p]) ps)]).
Proof. exact pdu_accepts_stream. Qed.
Print Assumptions C28_pdu_accepts.
Theorem C28_getbulk_accepts : forall cfg d data objs w, decode (reg_of cfg) d data = Ok objs ->
  (decodeContents (decode (reg_of cfg) d) CGetBulk data = Ok w <->
   exists o0 o1 o2 o3 r n m items ps,
     objs = [o0; o1; o2; o3] /\ wire_integer o0 r /\ wire_integer o1 n /\ wire_integer o2 m /\
     - 2 ^ 31 <= r <= 2 ^ 31 /\ in32 n /\ in32 m /\ components o3 = Some items /\ zlen items <= 2 ^ 31 - 1 /\
     Forall2 (fun it p => accepted_binding it (fst p) (snd p)) items ps /\
     w = VSeq CGetBulk [VInt CInteger32 r; VInt CInteger n; VInt CInteger m;
                        VSeq CVarBindList_v2 (map (fun p => VSeq CVarBind_v2 [fst p; snd p]) ps)]).
Proof. exact bulk_accepts_stream. Qed.
Print Assumptions C28_getbulk_accepts.
Theorem C28_trap_accepts : forall cfg d data objs w, decode (reg_of cfg) d data = Ok objs ->
  (decodeContents (decode (reg_of cfg) d) CTrapPDU data = Ok w <->
   exists o0 o1 o2 o3 o4 o5 g items ps,
     objs = [o0; o1; o2; o3; o4; o5] /\ wire_integer o2 g /\ in32 g /\ components o5 = Some items /\
     Forall2 (fun it p => accepted_binding it (fst p) (snd p)) items ps /\
     w = VSeq CTrapPDU [o0; o1; VInt CGenericTrap g; o3; o4; VSeq CVarBindList (map (fun p => VSeq CVarBind [fst p; snd p]) ps)]).
Proof. exact trap_accepts_stream. Qed.
Print Assumptions C28_trap_accepts.
(** C28. Loose ends of that acceptance: a third component of a binding is dropped; an identifier 0.0 in
    place of a binding gives a binding whose name and value are the number 0. *)
Theorem C28_binding_validation_refuted :
  decode (reg_of Upto1157) 5 [0xa0; 21; 2; 1; 1; 2; 1; 0; 2; 1; 0; 48; 10; 48; 8; 6; 2; 43; 6; 5; 0; 5; 0] =
    decode (reg_of Upto1157) 5 [0xa0; 19; 2; 1; 1; 2; 1; 0; 2; 1; 0; 48; 8; 48; 6; 6; 2; 43; 6; 5; 0] /\
  decode (reg_of Upto1157) 5 [0xa0; 14; 2; 1; 1; 2; 1; 0; 2; 1; 0; 48; 3; 6; 1; 0] =
    Ok [VSeq CGet [VInt CInteger 1; VInt CErrorStatus 0; VInt CInteger 0; VSeq CVarBindList [VSeq CVarBind [VPyInt 0; VPyInt 0]]]].
Proof. split; reflexivity. Qed.
Print Assumptions C28_binding_validation_refuted.
Example C28_example : exists objs, decode (reg_of Upto1157) 4 [2; 1; 1; 2; 1; 0; 2; 1; 0; 48; 8; 48; 6; 6; 2; 43; 6; 5; 0] = Ok objs /\
  exists w, decodeContents (decode (reg_of Upto1157) 4) CGet [2; 1; 1; 2; 1; 0; 2; 1; 0; 48; 8; 48; 6; 6; 2; 43; 6; 5; 0] = Ok w.
Proof. eexists; split; [reflexivity|eexists; reflexivity]. Qed.

(** C29. Messages not yet encoded are equal whatever they contain; encoding one of them breaks that. *)
Theorem C29_message_equality_refuted : forall c v1 com1 d1 m1 v2 com2 d2 m2,
  message_init c v1 com1 d1 = Ok m1 -> message_init c v2 com2 d2 = Ok m2 ->
  message_eq m1 m2 = Ok true /\ message_eq (fst (message_encode m1)) m2 = Ok false.
Proof.
  intros c v1 com1 d1 m1 v2 com2 d2 m2. unfold message_init.
  destruct (integer_init CInteger v1); cbn [bind]; [|discriminate].
  destruct (integer_init CInteger v2); cbn [bind]; [|discriminate]. intros H1 H2. inversion H1; inversion H2; subst.
  unfold message_eq. cbn [m_cls m_value message_encode fst message_set_value]. rewrite cls_eqb_refl. split; reflexivity.
Qed.
Print Assumptions C29_message_equality_refuted.
(** C29. Messages of the two classes (SNMPv1 and v2) are never equal. *)
Theorem C29_message_classes : forall m1 m2, m_cls m1 <> m_cls m2 -> message_eq m1 m2 = Ok false.
Proof. intros m1 m2 N. unfold message_eq. destruct (cls_eqb (m_cls m1) (m_cls m2)) eqn:E; [|reflexivity]. apply cls_eqb_true in E. contradiction. Qed.
Print Assumptions C29_message_classes.
(** C29. The same for any two decoded messages. *)
Theorem C29_decoded_equal_refuted : forall cfg depth c s1 s2 m1 m2,
  message_decode (reg_of cfg) depth c (DStr s1) = Ok m1 -> message_decode (reg_of cfg) depth c (DStr s2) = Ok m2 ->
  message_eq m1 m2 = Ok true.
Proof.
  intros cfg depth c s1 s2 m1 m2 H1 H2. apply message_decode_ok in H1 as (o1 & a1 & b1 & d1 & _ & _ & ->).
  apply message_decode_ok in H2 as (o2 & a2 & b2 & d2 & _ & _ & ->). unfold message_eq. cbn [m_cls m_value]. rewrite cls_eqb_refl. reflexivity.
Qed.
Print Assumptions C29_decoded_equal_refuted.
Example C29_example : exists m1 m2, message_init CMessage (VPyInt 0) (VPyStr [112]) (VNull CNull) = Ok m1 /\
  message_init CMessage (VPyInt 1) (VPyStr [113]) VNone = Ok m2 /\ m1 <> m2.
Proof. eexists; eexists; split; [reflexivity|split; [reflexivity|discriminate]]. Qed.

(** C30. == is reflexive. *)
Theorem C30_eq_reflexive : forall v, py_eq v v = Ok true.
Proof. exact py_eq_refl. Qed.
Print Assumptions C30_eq_reflexive.
(** C30. When it answers True, the objects are the same up to the class of integers, and conversely;
    objects are those whose strings hold text. *)
Theorem C30_eq_means_same : forall a b, object a -> object b -> (py_eq a b = Ok true <-> erase a = erase b).
Proof. exact py_eq_true. Qed.
Print Assumptions C30_eq_means_same.
(** C30. Objects of different classes are unequal, unless the left one is an integer. *)
Theorem C30_eq_classes : forall a b c d, class_of a = Some c -> class_of b = Some d -> c <> d ->
  (forall k z, a <> VInt k z) -> py_eq a b = Ok false.
Proof.
  intros a b c d A B D I. apply (py_eq_false_class a b c d); auto. destruct a; try reflexivity. exfalso. eapply I; reflexivity.
Qed.
Print Assumptions C30_eq_classes.
Theorem C30_eq_integers : forall c d x y, py_eq (VInt c x) (VInt d y) = Ok (x =? y).
Proof. reflexivity. Qed.
Print Assumptions C30_eq_integers.
Theorem C30_ne_negates : forall a b r, py_eq a b = Ok r -> py_ne a b = Ok (negb r).
Proof. intros a b r H. unfold py_ne. rewrite H. reflexivity. Qed.
Print Assumptions C30_ne_negates.
(** C30. Symmetry fails for every integer against every other kind of object. *)
Theorem C30_symmetry_refuted : forall c x b, class_of b <> None -> (forall k z, b <> VInt k z) ->
  py_eq (VInt c x) b = Err TypeError /\ py_eq b (VInt c x) = Ok false.
Proof. intros c x b N I. destruct b; try (exfalso; apply N; reflexivity); try (split; reflexivity). exfalso. eapply I; reflexivity. Qed.
Print Assumptions C30_symmetry_refuted.
Definition C30_sample : val := VSeq CVarBind [VOid (Some [1; 3]); VSeq CSequence [VInt CCounter 7; VOct COctetString (VPyStr [1])]].
Definition C30_sample2 : val := VSeq CVarBind [VOid (Some [1; 3]); VSeq CSequence [VInt CInteger 7; VOct COctetString (VPyStr [1])]].
Example C30_example : object C30_sample /\ py_eq C30_sample C30_sample2 = Ok true.
Proof. split; [cbn; tauto|reflexivity]. Qed.

(** C52. The octets of every meaningful value are an X.690 encoding of it. *)
Theorem C52_conformance : forall cfg v t os, tree_of v = Some t -> wf cfg t -> classes_ok v = true ->
  encode v = Ok os -> zlen os < 256 ^ 126 -> wire true t os.
Proof. exact writes_all. Qed.
Print Assumptions C52_conformance.
(** C53. Every X.690 encoding of a readable value, by whomever, minimal lengths or not, padded integers and
    subidentifiers or not, is decoded to that value. *)
Theorem C53_interop : forall cfg strict t os, wire strict t os -> readable cfg t ->
  exists w, tree_of w = Some t /\ forall depth, (height t <= depth)%nat -> decode (reg_of cfg) depth os = Ok [w].
Proof. exact interop. Qed.
Print Assumptions C53_interop.
(** C53. Hence the encoding relation is unambiguous on readable values. *)
Theorem C53_unambiguous : forall cfg s1 s2 t u os, wire s1 t os -> wire s2 u os -> readable cfg t -> readable cfg u -> t = u.
Proof. exact wire_unambiguous. Qed.
Print Assumptions C53_unambiguous.
Example C53_example : wire false (TSeq KSequence [TInt KCounter64 (2 ^ 40); TNull KNoSuchInstance])
    [48; 130; 0; 12; 70; 8; 0; 0; 1; 0; 0; 0; 0; 0; 129; 0] /\
  readable Upto1905 (TSeq KSequence [TInt KCounter64 (2 ^ 40); TNull KNoSuchInstance]).
Proof.
  split; [|cbn; repeat split; try lia; try discriminate; right; auto].
  apply wire_seq with (c := [70; 8; 0; 0; 1; 0; 0; 0; 0; 0; 129; 0]); [reflexivity| |].
  - apply (wires_cons false _ _ [70; 8; 0; 0; 1; 0; 0; 0; 0; 0] [129; 0]).
    + change (2 ^ 40) with (twos_value [0; 0; 1; 0; 0; 0; 0; 0]). eapply wire_int; [reflexivity| |discriminate|discriminate|].
      * repeat (apply Forall_cons; [lia|]). constructor.
      * exists [8]. split; [left; cbn; split; [reflexivity|lia]|reflexivity].
    + apply (wires_cons false _ _ [129; 0] []); [|constructor]. constructor; [reflexivity|].
      exists [0]. split; [left; cbn; split; [reflexivity|lia]|reflexivity].
  - exists [130; 0; 12]. split; [|reflexivity]. right. exists [0; 12]. cbn. repeat split; try lia.
    repeat (apply Forall_cons; [lia|]). constructor.
Qed.
