(** * Messages, PDUs and equality (C25-C30). *)
From Coq Require Import ZArith List Bool Lia ZifyBool ZifyNat.
From Verif Require Import PyBase Classes Values Codec SpecBER SpecSMI SpecTree SpecWire SpecMsg Bits ProofsInt ProofsOid ProofsScalar ProofsText ProofsTree ProofsDecode ProofsWire ProofsSize.
Import ListNotations.
Open Scope Z_scope.
Ltac Zify.zify_post_hook ::= Z.div_mod_to_equations.

(** ** Reading a message *)
Lemma message_reads cfg strict ver com pdu os : wire strict (message_tree ver com pdu) os -> readable cfg pdu ->
  exists v0 v1 v2, tree_of v0 = Some (TInt KInteger ver) /\ tree_of v1 = Some (TOct KOctetString com) /\ tree_of v2 = Some pdu /\
  forall c depth, (S (height pdu) <= depth)%nat -> message_decode (reg_of cfg) depth c (DStr os) = Ok (mkMsg c v0 v1 v2 []).
Proof.
  intros W R.
  destruct (interop cfg strict _ _ W) as (w & Tw & D).
  { apply readable_seq. split; [|exact I]. constructor; [exact I|]. constructor; [reflexivity|]. constructor; [exact R|constructor]. }
  apply tree_seq_inv in Tw as (k & l & -> & _ & _ & T).
  apply trees_inv_cons in T as (v0 & l0 & -> & T0 & T). apply trees_inv_cons in T as (v1 & l1 & -> & T1 & T).
  apply trees_inv_cons in T as (v2 & l2 & -> & T2 & T). apply trees_inv_nil in T as ->.
  exists v0, v1, v2. repeat split; auto. intros c depth Hd. unfold message_decode, decode_data. rewrite D; [reflexivity|].
  pose proof (height_pos pdu). unfold message_tree. cbn [height fold_right]. lia.
Qed.

(** ** Constructing PDUs *)
Definition vb_of (vb : cls) (b : list Z * val) : val := VSeq vb [VOid (Some (fst b)); snd b].
Lemma varbind_init_object vb n v : is_object v -> varbind_init vb (VOid (Some n)) v = Ok (vb_of vb (n, v)).
Proof.
  intros H. unfold varbind_init. replace (isinstance (VOid (Some n)) CObjectID) with true by reflexivity.
  cbn [negb]. rewrite andb_false_r.
  assert (is_asn1 v = true).
  { unfold is_asn1, isinstance. unfold is_object in H. destruct (class_of v) as [c|]; [|contradiction]. destruct c; reflexivity. }
  rewrite H0. cbn [negb]. rewrite andb_false_r. reflexivity.
Qed.
Lemma bindings_trees vb bs tbs : (vb = CVarBind \/ vb = CVarBind_v2) ->
  Forall2 (fun b t => fst t = fst b /\ tree_of (snd b) = Some (snd t)) bs tbs ->
  trees_of (map (vb_of vb) bs) = Some (map binding_tree tbs).
Proof.
  intros Hvb. induction 1 as [|[n v] [m t] bs tbs [E T] F IH]; [reflexivity|]. cbn [map fst snd] in *. subst m.
  apply trees_of_cons; [|exact IH]. apply vbl_tree; [destruct Hvb as [->| ->]; reflexivity|].
  apply trees_of_cons; [reflexivity|]. apply trees_of_cons; [exact T|reflexivity].
Qed.
Lemma vb_of_is vb bs : Forall (is_vb vb) (map (vb_of vb) bs).
Proof. induction bs as [|[n v] bs IH]; constructor; [eexists; eexists; reflexivity|exact IH]. Qed.
Lemma map_length_z {A B} (f : A -> B) l : zlen (map f l) = zlen l.
Proof. unfold zlen. rewrite map_length. reflexivity. Qed.

Lemma pdu_construct c k r e i bs tbs : In c [CGet; CGetNext; CSet; CGet_v2; CGetNext_v2; CResponse_v2; CSet_v2; CInform; CTrapV2; CReport] ->
  kind_of c = Some k -> in32 r -> in32 e -> in32 i -> zlen bs <= 2 ^ 31 - 1 ->
  Forall2 (fun b t => fst t = fst b /\ tree_of (snd b) = Some (snd t)) bs tbs ->
  exists pdu, pdu_init c (VPyInt r) (VPyInt e) (VPyInt i) (VPyList (map (vb_of CVarBind) bs)) = Ok pdu /\
    tree_of pdu = Some (request_tree k r e i tbs).
Proof.
  intros Hc K Hr He Hi L F. unfold pdu_init.
  assert (Hs : seq_kind k = true) by (cbn in Hc; repeat (destruct Hc as [<-|Hc]; [inversion K; reflexivity|]); contradiction).
  pose proof (bindings_trees CVarBind bs tbs (or_introl eq_refl) F) as TB.
  destruct (issubclass c CPDU_v2).
  - unfold pdu_v2_init. rewrite gt_max_ok by exact Hi. cbn [bind].
    rewrite (in32_ok CInteger32 r), (in32_ok CErrorStatus_v2 e), (in32_ok CInteger i) by tauto. cbn [bind].
    unfold varbindlist_v2_init. cbn [py_len bind]. rewrite map_length_z.
    unfold max_bindings. destruct (Z.ltb_spec 2147483647 (zlen bs)); [lia|].
    rewrite (sequenceof_init_vb CVarBind CVarBindList_v2 (map (vb_of CVarBind) bs)) by (auto; apply vb_of_is). cbn [bind].
    eexists; split; [reflexivity|].
    apply (trees_request k c) with (c0 := CInteger32) (c1 := CErrorStatus_v2) (c2 := CInteger); auto. apply vbl_tree; auto.
  - unfold pdu_v1_init. rewrite (in32_ok CInteger r), (in32_ok CErrorStatus e), (in32_ok CInteger i) by tauto. cbn [bind].
    unfold varbindlist_init. rewrite (sequenceof_init_vb CVarBind CVarBindList (map (vb_of CVarBind) bs)) by (auto; apply vb_of_is). cbn [bind].
    eexists; split; [reflexivity|].
    apply (trees_request k c) with (c0 := CInteger) (c1 := CErrorStatus) (c2 := CInteger); auto. apply vbl_tree; auto.
Qed.
Lemma bulk_construct r n m bs tbs : in32 r -> in32 n -> in32 m -> zlen bs <= 2 ^ 31 - 1 ->
  Forall2 (fun b t => fst t = fst b /\ tree_of (snd b) = Some (snd t)) bs tbs ->
  exists pdu, bulkpdu_init CGetBulk (VPyInt r) (VPyInt n) (VPyInt m) (VPyList (map (vb_of CVarBind_v2) bs)) = Ok pdu /\
    tree_of pdu = Some (request_tree KGetBulk r n m tbs).
Proof.
  intros Hr Hn Hm L F. unfold bulkpdu_init. rewrite !gt_max_ok by assumption. cbn [bind].
  pose proof (bindings_trees CVarBind_v2 bs tbs (or_intror eq_refl) F) as TB.
  rewrite (in32_ok CInteger32 r), (in32_ok CInteger n), (in32_ok CInteger m) by tauto. cbn [bind].
  unfold varbindlist_v2_init. cbn [py_len bind]. rewrite map_length_z.
  unfold max_bindings. destruct (Z.ltb_spec 2147483647 (zlen bs)); [lia|].
  rewrite (sequenceof_init_vb CVarBind_v2 CVarBindList_v2 (map (vb_of CVarBind_v2) bs)) by (auto; apply vb_of_is). cbn [bind].
  eexists; split; [reflexivity|].
  apply (trees_request KGetBulk CGetBulk) with (c0 := CInteger32) (c1 := CInteger) (c2 := CInteger); auto. apply vbl_tree; auto.
Qed.

(** ** Message round trip *)
Lemma message_writes cfg c ver com pdu t m : (c = CMessage \/ c = CMessage_v2) ->
  message_init c (VPyInt ver) (VPyStr com) pdu = Ok m -> int_survives ver ->
  tree_of pdu = Some t -> wf cfg t -> classes_ok pdu = true ->
  exists os, snd (message_encode m) = Ok os /\ written (message_tree ver com t) os.
Proof.
  intros Hc M S T W C. unfold message_init in M. destruct (integer_init CInteger (VPyInt ver)) as [v|] eqn:E; cbn [bind] in M; [|discriminate].
  assert (v = VInt CInteger ver).
  { unfold integer_init in E. destruct (_ && _); [|discriminate]. inversion E; reflexivity. }
  subst v. inversion M; subst m. unfold message_encode, octetstring_init. cbn [snd message_set_value m_version m_community m_data m_value m_cls].
  pose (v := VSeq c [VInt CInteger ver; VOct COctetString (VPyStr com); pdu]).
  assert (Tv : tree_of v = Some (message_tree ver com t)).
  { unfold v. apply vbl_tree; [destruct Hc as [->| ->]; reflexivity|]. apply trees_of_cons; [reflexivity|].
    apply trees_of_cons; [reflexivity|]. apply trees_of_cons; [exact T|reflexivity]. }
  assert (Wv : wf cfg (message_tree ver com t)).
  { apply wf_seq. split; [|exact I]. constructor; [exact S|]. constructor; [left; reflexivity|]. constructor; [exact W|constructor]. }
  assert (Cv : classes_ok v = true) by (unfold v; cbn [classes_ok forallb]; rewrite C; destruct Hc as [->| ->]; reflexivity).
  destruct (encode_total cfg v _ Tv Wv) as [os Eo]. exists os. split; [exact Eo|]. split; [intros L; apply (writes_all cfg v); assumption|].
  intros strict os' Wi. exact (proj1 (all_sized cfg v _ _ _ _ Tv Wv Eo Wi)).
Qed.
Lemma message_roundtrip cfg c ver com pdu t m : (c = CMessage \/ c = CMessage_v2) ->
  message_init c (VPyInt ver) (VPyStr com) pdu = Ok m -> int_survives ver ->
  tree_of pdu = Some t -> wf cfg t -> classes_ok pdu = true ->
  exists os, snd (message_encode m) = Ok os /\ (zlen os < 256 ^ 126 ->
    exists v0 v1 v2, tree_of v0 = Some (TInt KInteger ver) /\ tree_of v1 = Some (TOct KOctetString com) /\ tree_of v2 = Some t /\
    forall c' depth, (S (height t) <= depth)%nat -> message_decode (reg_of cfg) depth c' (DStr os) = Ok (mkMsg c' v0 v1 v2 [])).
Proof.
  intros Hc M S T W C. destruct (message_writes cfg c ver com pdu t m Hc M S T W C) as (os & E & Wi).
  exists os. split; [exact E|]. intros L. apply (message_reads cfg true); [apply (proj1 Wi); exact L|].
  apply (wf_readable cfg pdu); assumption.
Qed.

(** ** C27 *)
Lemma decode_deco cfg depth s l : decode (reg_of cfg) depth s = Ok l -> forallb deco l = true.
Proof. intros E. pose proof (decode_good cfg true depth s (or_introl eq_refl)) as G. rewrite E in G. exact G. Qed.
Lemma components_len o l : components o = Some l -> py_len o = Ok (zlen l).
Proof. destruct o as [| | | | | |[x|]| |]; cbn; intros H; inversion H; subst; rewrite ?map_length_z; reflexivity. Qed.
Lemma index_map {A B} (f : A -> B) l i : py_index (map f l) i = (x <- py_index l i ;; Ok (f x)).
Proof.
  unfold py_index. rewrite map_length_z, nth_error_map. destruct (_ || _); [reflexivity|]. destruct (nth_error l _); reflexivity.
Qed.
Lemma components_get o l i : components o = Some l -> py_getitem o i = py_index l i.
Proof.
  destruct o as [| | | | | |[x|]| |]; cbn [components]; intros H; inversion H; subst; cbn [py_getitem]; rewrite ?index_map; reflexivity.
Qed.
Lemma components_iter o l : components o = Some l -> py_iter o = Ok l.
Proof. destruct o as [| | | | | |[x|]| |]; cbn [components]; intros H; inversion H; subst; reflexivity. Qed.
Lemma no_components_get o i : components o = None -> exists e, py_getitem o i = Err e.
Proof. destruct o as [| | | | | |[x|]| |]; cbn; intros H; try discriminate; eauto. Qed.
Lemma no_components_iter o : components o = None -> exists e, py_iter o = Err e.
Proof. destruct o as [| | | | | |[x|]| |]; cbn; intros H; try discriminate; eauto. Qed.
Lemma message_decode_ok cfg depth c s m : message_decode (reg_of cfg) depth c (DStr s) = Ok m <->
  exists o a b d, decode (reg_of cfg) depth s = Ok [o] /\ components o = Some [a; b; d] /\ m = mkMsg c a b d [].
Proof.
  unfold message_decode, decode_data. split.
  - destruct (decode (reg_of cfg) depth s) as [l|] eqn:E; cbn [bind]; [|discriminate]. apply decode_deco in E.
    destruct l as [|o [|? ?]]; try discriminate. cbn [forallb] in E. apply andb_prop in E as [Do _].
    destruct (components o) as [cs|] eqn:Co.
    + rewrite (components_len _ _ Co). cbn [bind]. destruct (Z.eqb_spec (zlen cs) 3) as [L|L]; cbn [negb]; [|discriminate].
      rewrite !(components_get _ _ _ Co). destruct cs as [|a [|b [|d [|? ?]]]]; unfold zlen in L; cbn [length] in L; try lia.
      change (py_index [a; b; d] 0) with (Ok a). change (py_index [a; b; d] 1) with (Ok b). change (py_index [a; b; d] 2) with (Ok d).
      cbn [bind]. intros H; inversion H; subst. exists o, a, b, d. auto.
    + destruct o as [| | | | | |[x|]| |]; discriminate.
  - intros (o & a & b & d & -> & Co & ->). cbn [bind]. rewrite (components_len _ _ Co). cbn [bind].
    rewrite !(components_get _ _ _ Co). reflexivity.
Qed.
Lemma deco_components o : deco o = true -> match components o with
  | Some l => (exists c, o = VSeq c l) \/ (exists zs, o = VOid (Some zs) /\ l = map VPyInt zs)
  | None => py_len o = Err TypeError end.
Proof.
  unfold deco. destruct o as [| | | | | |[x|]| |]; cbn [class_of components clean py_len]; rewrite ?andb_false_r; try discriminate; eauto.
Qed.
Lemma message_decode_err cfg depth c s : 
  match decode (reg_of cfg) depth s with
  | Err e => message_decode (reg_of cfg) depth c (DStr s) = Err e
  | Ok [o] => match components o with
              | None => message_decode (reg_of cfg) depth c (DStr s) = Err TypeError
              | Some l => length l <> 3%nat -> message_decode (reg_of cfg) depth c (DStr s) = Err MessageError
              end
  | Ok _ => message_decode (reg_of cfg) depth c (DStr s) = Err TypeError
  end.
Proof.
  unfold message_decode, decode_data. destruct (decode (reg_of cfg) depth s) as [l|] eqn:E; cbn [bind]; [|reflexivity].
  destruct l as [|o [|o' l]]; try reflexivity. apply decode_deco in E. cbn [forallb] in E. apply andb_prop in E as [Do _].
  apply deco_components in Do. destruct (components o) as [cs|] eqn:Co.
  - intros L. rewrite (components_len _ _ Co). cbn [bind]. destruct (Z.eqb_spec (zlen cs) 3) as [L'|L']; [unfold zlen in L'; lia|]. reflexivity.
  - rewrite Do. reflexivity.
Qed.

(** ** C28 *)
Lemma truthy_falsy v : truthy v = false <-> falsy v.
Proof.
  destruct v as [|z|[|]|[|]| | |[[|]|]| |? [|]]; cbn; try (split; [reflexivity|auto]); try (split; [discriminate|contradiction]).
  destruct z; cbn; split; auto; discriminate || contradiction.
Qed.
Lemma isinstance_oid v : isinstance v CObjectID = true <-> is_oid v.
Proof.
  unfold isinstance, is_oid. destruct (class_of v) as [c|]; [|split; discriminate]. split.
  - destruct c; vm_compute; intros H; congruence.
  - intros H. inversion H; reflexivity.
Qed.
Lemma is_asn1_object v : is_asn1 v = true <-> is_object v.
Proof.
  unfold is_asn1, isinstance, is_object. destruct (class_of v) as [c|]; split; try discriminate; try congruence.
  intros _. destruct c; reflexivity.
Qed.
Lemma varbind_init_iff vb n v o : varbind_init vb n v = Ok o <->
  (is_oid n \/ falsy n) /\ (is_object v \/ falsy v) /\ o = VSeq vb [n; v].
Proof.
  unfold varbind_init. rewrite <- isinstance_oid, <- is_asn1_object, <- !truthy_falsy.
  destruct (truthy n), (isinstance n CObjectID), (truthy v), (is_asn1 v); cbn [andb negb]; split;
    try (intros H; inversion H; subst; auto; fail); intros (H1 & H2 & ->); try reflexivity; destruct H1, H2; discriminate.
Qed.
Lemma build_varbind_iff vb item o : build_varbind vb item = Ok o <-> exists n v, accepted_binding item n v /\ o = VSeq vb [n; v].
Proof.
  unfold build_varbind, accepted_binding. split.
  - destruct (components item) as [l|] eqn:C.
    + rewrite !(components_get _ _ _ C). destruct l as [|n [|v r]]; try discriminate.
      * assert (E0 : py_index (n :: v :: r) 0 = Ok n).
        { unfold py_index. change (0 <? 0) with false. cbv iota. unfold zlen. cbn [length].
          destruct (Z.leb_spec (Z.of_nat (S (S (length r)))) 0); [lia|]. reflexivity. }
        assert (E1 : py_index (n :: v :: r) 1 = Ok v).
        { unfold py_index. change (1 <? 0) with false. cbv iota. unfold zlen. cbn [length].
          destruct (Z.leb_spec (Z.of_nat (S (S (length r)))) 1); [lia|]. reflexivity. }
        rewrite E0, E1. cbn [bind]. rewrite varbind_init_iff. intros (H1 & H2 & ->). exists n, v. split; [exists r; auto|reflexivity].
    + destruct (no_components_get item 0 C) as [e E]. rewrite E. discriminate.
  - intros (n & v & (r & C & H1 & H2) & ->). rewrite !(components_get _ _ _ C).
    assert (E0 : py_index (n :: v :: r) 0 = Ok n).
    { unfold py_index. change (0 <? 0) with false. cbv iota. unfold zlen. cbn [length].
      destruct (Z.leb_spec (Z.of_nat (S (S (length r)))) 0); [lia|]. reflexivity. }
    assert (E1 : py_index (n :: v :: r) 1 = Ok v).
    { unfold py_index. change (1 <? 0) with false. cbv iota. unfold zlen. cbn [length].
      destruct (Z.leb_spec (Z.of_nat (S (S (length r)))) 1); [lia|]. reflexivity. }
    rewrite E0, E1. cbn [bind]. apply varbind_init_iff. auto.
Qed.
Definition vb_pair (vb : cls) (p : val * val) : val := VSeq vb [fst p; snd p].
Lemma build_varbinds_iff vb items os : mapM (build_varbind vb) items = Ok os <->
  exists ps, Forall2 (fun it p => accepted_binding it (fst p) (snd p)) items ps /\ os = map (vb_pair vb) ps.
Proof.
  split.
  - revert os. induction items as [|x items IH]; intros os; cbn [mapM].
    + intros H; inversion H; subst. exists []. split; constructor.
    + destruct (build_varbind vb x) as [o|] eqn:E; cbn [bind]; [|discriminate].
      destruct (mapM (build_varbind vb) items) as [os'|] eqn:E'; cbn [bind]; [|discriminate].
      intros H; inversion H; subst. destruct (IH os' eq_refl) as (ps & F & ->).
      apply build_varbind_iff in E as (n & v & A & ->). exists ((n, v) :: ps). split; [constructor; auto|reflexivity].
  - intros (ps & F & ->). induction F as [|x [n v] items ps A F IH]; [reflexivity|]. cbn [mapM map].
    rewrite (proj2 (build_varbind_iff vb x (VSeq vb [n; v]))) by (exists n, v; auto). cbn [bind]. rewrite IH. reflexivity.
Qed.
Lemma Forall2_length {A B} (R : A -> B -> Prop) l m : Forall2 R l m -> length l = length m.
Proof. induction 1; cbn [length]; congruence. Qed.
Lemma vb_pair_is vb ps : Forall (is_vb vb) (map (vb_pair vb) ps).
Proof. induction ps as [|[n v] ps IH]; constructor; [eexists; eexists; reflexivity|exact IH]. Qed.
Lemma deco_int o r : deco o = true -> (py_int o = Ok r <-> wire_integer o r).
Proof.
  unfold deco, wire_integer. destruct o; cbn [py_int class_of]; rewrite ?andb_false_r; try discriminate; intros _; split;
    try discriminate; try (intros (? & ?); discriminate).
  - intros H; inversion H; subst. eauto.
  - intros (c' & H); inversion H; reflexivity.
Qed.
Lemma integer_init_iff c z w : integer_init c (VPyInt z) = Ok w <-> MINVAL c <= z <= MAXVAL c /\ w = VInt c z.
Proof.
  unfold integer_init. destruct (Z.leb_spec (MINVAL c) z), (Z.leb_spec z (MAXVAL c)); cbn [andb]; split;
    try discriminate; try (intros [? ?]; lia).
  - intros H1; inversion H1; subst. split; [lia|reflexivity].
  - intros [_ ->]. reflexivity.
Qed.

Lemma pdu_accepts c objs w : decode_method c = Some DPDU -> forallb deco objs = true ->
  (pdu_of_objects c objs = Ok w <->
   exists o0 o1 o2 o3 r e i items ps,
     objs = [o0; o1; o2; o3] /\ wire_integer o0 r /\ wire_integer o1 e /\ wire_integer o2 i /\
     in32 e /\ in32 i /\ components o3 = Some items /\
     Forall2 (fun it p => accepted_binding it (fst p) (snd p)) items ps /\
     if issubclass c CPDU_v2
     then - 2 ^ 31 <= r <= 2 ^ 31 /\ zlen items <= 2 ^ 31 - 1 /\
          w = VSeq c [VInt CInteger32 r; VInt CErrorStatus_v2 e; VInt CInteger i; VSeq CVarBindList_v2 (map (vb_pair CVarBind) ps)]
     else in32 r /\
          w = VSeq c [VInt CInteger r; VInt CErrorStatus e; VInt CInteger i; VSeq CVarBindList (map (vb_pair CVarBind) ps)]).
Proof.
  intros Hm Hd. unfold in32. split.
  - unfold pdu_of_objects. destruct objs as [|o0 [|o1 [|o2 [|o3 [|o4 objs]]]]]; try discriminate.
    cbn [forallb] in Hd. apply andb_prop in Hd as [D0 Hd]. apply andb_prop in Hd as [D1 Hd]. apply andb_prop in Hd as [D2 Hd].
    destruct (components o3) as [items|] eqn:C; [|destruct (no_components_iter o3 C) as [x E]; rewrite E; discriminate].
    rewrite (components_iter _ _ C). cbn [bind].
    destruct (mapM (build_varbind CVarBind) items) as [os|] eqn:EM; cbn [bind]; [|discriminate].
    apply build_varbinds_iff in EM as (ps & F & ->).
    destruct (py_int o0) as [r|] eqn:E0; cbn [bind]; [|discriminate]. apply deco_int in E0; [|exact D0].
    destruct (py_int o1) as [e|] eqn:E1; cbn [bind]; [|discriminate]. apply deco_int in E1; [|exact D1].
    destruct (py_int o2) as [i|] eqn:E2; cbn [bind]; [|discriminate]. apply deco_int in E2; [|exact D2].
    intros H. exists o0, o1, o2, o3, r, e, i, items, ps. repeat split; auto.
    all: unfold pdu_init in H; destruct (issubclass c CPDU_v2).
    all: unfold pdu_v2_init, pdu_v1_init in H.
    1,3,5,7,9: cbn [gt_max_bindings bind] in H; destruct (max_bindings <? i) eqn:Mi; [discriminate|].
    all: repeat match type of H with
         | bind (integer_init ?k (VPyInt ?z)) _ = _ => destruct (integer_init k (VPyInt z)) eqn:?; cbn [bind] in H; [|discriminate]
         end.
    all: repeat match goal with
         | E : integer_init _ _ = Ok _ |- _ => apply integer_init_iff in E as [? ->]
         end.
    all: repeat match goal with
         | E : MINVAL ?k <= _ <= MAXVAL ?k |- _ =>
            let m := eval vm_compute in (MINVAL k) in change (MINVAL k) with m in E;
            let m := eval vm_compute in (MAXVAL k) in change (MAXVAL k) with m in E
         end.
    all: try lia.
    + unfold varbindlist_v2_init in H. cbn [py_len bind] in H. rewrite map_length_z in H.
      destruct (max_bindings <? zlen ps) eqn:Mb; [cbn [bind] in H; discriminate|].
      rewrite (sequenceof_init_vb CVarBind CVarBindList_v2 (map (vb_pair CVarBind) ps)) in H by (eauto; apply vb_pair_is).
      cbn [bind] in H. inversion H; subst. split; [lia|]. split; [|reflexivity].
      assert (zlen items = zlen ps) by (unfold zlen; rewrite (Forall2_length _ _ _ F); reflexivity). unfold max_bindings in Mb. lia.
    + unfold varbindlist_init in H.
      rewrite (sequenceof_init_vb CVarBind CVarBindList (map (vb_pair CVarBind) ps)) in H by (eauto; apply vb_pair_is).
      cbn [bind] in H. inversion H; subst. split; [lia|reflexivity].
  - intros (o0 & o1 & o2 & o3 & r & e & i & items & ps & -> & I0 & I1 & I2 & He & Hi & C & F & H).
    cbn [forallb] in Hd. apply andb_prop in Hd as [D0 Hd]. apply andb_prop in Hd as [D1 Hd]. apply andb_prop in Hd as [D2 Hd].
    apply deco_int in I0, I1, I2; auto. unfold pdu_of_objects. rewrite (components_iter _ _ C). cbn [bind].
    rewrite (proj2 (build_varbinds_iff CVarBind items _) (ex_intro _ ps (conj F eq_refl))). cbn [bind]. rewrite I0, I1, I2. cbn [bind].
    unfold pdu_init. destruct (issubclass c CPDU_v2).
    + destruct H as (Hr & L & ->). unfold pdu_v2_init. rewrite gt_max_ok by exact Hi. cbn [bind].
      rewrite (proj2 (integer_init_iff CInteger32 r _) (conj (conj (proj1 Hr) (proj2 Hr)) eq_refl)).
      rewrite (in32_ok CErrorStatus_v2 e), (in32_ok CInteger i) by (unfold in32; tauto). cbn [bind].
      unfold varbindlist_v2_init. cbn [py_len bind]. rewrite map_length_z.
      assert (zlen items = zlen ps) by (unfold zlen; rewrite (Forall2_length _ _ _ F); reflexivity). unfold max_bindings.
      destruct (Z.ltb_spec 2147483647 (zlen ps)); [lia|].
      rewrite (sequenceof_init_vb CVarBind CVarBindList_v2 (map (vb_pair CVarBind) ps)) by (eauto; apply vb_pair_is). reflexivity.
    + destruct H as (Hr & ->). unfold pdu_v1_init.
      rewrite (in32_ok CInteger r), (in32_ok CErrorStatus e), (in32_ok CInteger i) by (unfold in32; tauto). cbn [bind].
      unfold varbindlist_init.
      rewrite (sequenceof_init_vb CVarBind CVarBindList (map (vb_pair CVarBind) ps)) by (eauto; apply vb_pair_is). reflexivity.
Qed.
Lemma trap_accepts objs w : forallb deco objs = true ->
  (trappdu_of_objects objs = Ok w <->
   exists o0 o1 o2 o3 o4 o5 g items ps,
     objs = [o0; o1; o2; o3; o4; o5] /\ wire_integer o2 g /\ in32 g /\ components o5 = Some items /\
     Forall2 (fun it p => accepted_binding it (fst p) (snd p)) items ps /\
     w = VSeq CTrapPDU [o0; o1; VInt CGenericTrap g; o3; o4; VSeq CVarBindList (map (vb_pair CVarBind) ps)]).
Proof.
  intros Hd. split.
  - unfold trappdu_of_objects. destruct objs as [|o0 [|o1 [|o2 [|o3 [|o4 [|o5 [|o6 objs]]]]]]]; try discriminate.
    cbn [forallb] in Hd. apply andb_prop in Hd as [D0 Hd]. apply andb_prop in Hd as [D1 Hd]. apply andb_prop in Hd as [D2 Hd].
    destruct (components o5) as [items|] eqn:C; [|destruct (no_components_iter o5 C) as [x E]; rewrite E; discriminate].
    rewrite (components_iter _ _ C). cbn [bind].
    destruct (mapM (build_varbind CVarBind) items) as [os|] eqn:EM; cbn [bind]; [|discriminate].
    apply build_varbinds_iff in EM as (ps & F & ->).
    destruct (py_int o2) as [g|] eqn:E2; cbn [bind]; [|discriminate]. apply deco_int in E2; [|exact D2].
    destruct (integer_init CGenericTrap (VPyInt g)) as [gt|] eqn:EG; cbn [bind]; [|discriminate].
    apply integer_init_iff in EG as [Hg ->]. intros H; inversion H; subst.
    exists o0, o1, o2, o3, o4, o5, g, items, ps. repeat split; auto; unfold in32 in *;
    change (MINVAL CGenericTrap) with (-2147483648) in Hg; change (MAXVAL CGenericTrap) with 2147483647 in Hg; lia.
  - intros (o0 & o1 & o2 & o3 & o4 & o5 & g & items & ps & -> & I2 & Hg & C & F & ->).
    cbn [forallb] in Hd. apply andb_prop in Hd as [D0 Hd]. apply andb_prop in Hd as [D1 Hd]. apply andb_prop in Hd as [D2 Hd].
    apply deco_int in I2; auto. unfold trappdu_of_objects. rewrite (components_iter _ _ C). cbn [bind].
    rewrite (proj2 (build_varbinds_iff CVarBind items _) (ex_intro _ ps (conj F eq_refl))). cbn [bind]. rewrite I2. cbn [bind].
    rewrite (in32_ok CGenericTrap g) by tauto. reflexivity.
Qed.

(** ** C30 *)
Lemma py_eq_seq c l d m : py_eq (VSeq c l) (VSeq d m) = if cls_eqb c d then py_eq (VPyList l) (VPyList m) else Ok false.
Proof. reflexivity. Qed.
Fixpoint go_eq (l m : list val) : res bool :=
  match l, m with
  | x :: l', y :: m' => e <- py_eq x y ;; if (e : bool) then go_eq l' m' else Ok false
  | _, _ => Ok true
  end.
Lemma py_eq_list l m : py_eq (VPyList l) (VPyList m) = if negb (Nat.eqb (length l) (length m)) then Ok false else go_eq l m.
Proof.
  cbn [py_eq]. destruct (negb _); [reflexivity|]. revert m. induction l as [|x l IH]; intros m; [reflexivity|].
  destruct m as [|y m]; [reflexivity|]. cbn [go_eq]. destruct (py_eq x y) as [[|]|]; cbn [bind]; [apply IH|reflexivity|reflexivity].
Qed.
Lemma cls_eqb_refl c : cls_eqb c c = true.
Proof. unfold cls_eqb. destruct (cls_eq_dec c c); congruence. Qed.
Lemma go_eq_refl l : Forall (fun v => py_eq v v = Ok true) l -> go_eq l l = Ok true.
Proof. induction 1 as [|x l Hx Hl IH]; [reflexivity|]. cbn [go_eq]. rewrite Hx. cbn [bind]. exact IH. Qed.
Lemma py_eq_refl v : py_eq v v = Ok true.
Proof.
  induction v using val_ind'; try reflexivity.
  - cbn [py_eq]. rewrite Z.eqb_refl. reflexivity.
  - cbn [py_eq]. destruct (list_eq_dec Z.eq_dec s s); congruence.
  - rewrite py_eq_list, Nat.eqb_refl. cbn [negb]. apply go_eq_refl. assumption.
  - cbn [py_eq]. rewrite Z.eqb_refl. reflexivity.
  - cbn [py_eq]. rewrite cls_eqb_refl. exact IHv.
  - cbn [py_eq]. destruct l as [l|]; [|reflexivity]. destruct (list_eq_dec Z.eq_dec l l); congruence.
  - cbn [py_eq]. rewrite cls_eqb_refl. reflexivity.
  - rewrite py_eq_seq, cls_eqb_refl, py_eq_list, Nat.eqb_refl. cbn [negb]. apply go_eq_refl. assumption.
Qed.
Lemma cls_eqb_true c d : cls_eqb c d = true -> c = d.
Proof. unfold cls_eqb. destruct (cls_eq_dec c d); congruence. Qed.
Lemma object_seq c l : object (VSeq c l) <-> Forall object l.
Proof.
  cbn [object]. induction l as [|x r IH]; [split; constructor|]. rewrite Forall_cons_iff, <- IH. reflexivity.
Qed.
(** Equality, when it says yes, means the same value up to integer class. *)
Lemma py_eq_true a : forall b, object a -> object b -> (py_eq a b = Ok true <-> erase a = erase b).
Proof.
  induction a using val_ind'; intros b Oa Ob; try contradiction.
  - destruct b; try contradiction; cbn [py_eq erase py_int bind]; try (split; intros H; inversion H; fail).
    split; [intros H; inversion H as [E]; apply Z.eqb_eq in E; subst; reflexivity|].
    intros H; inversion H; subst. rewrite Z.eqb_refl. reflexivity.
  - destruct a; try contradiction. destruct b; try contradiction; cbn [py_eq erase]; try (split; intros H; inversion H; fail).
    destruct b; try contradiction. destruct (cls_eqb c c0) eqn:E.
    + apply cls_eqb_true in E. subst. cbn [py_eq]. destruct (list_eq_dec Z.eq_dec s s0); split; intros H; try congruence.
    + split; [discriminate|]. intros H; inversion H; subst. rewrite cls_eqb_refl in E. discriminate.
  - destruct b; try contradiction; cbn [py_eq erase]; try (split; intros H; inversion H; fail).
    destruct l as [l|], l0 as [m|]; try (split; intros H; inversion H; fail); [|tauto].
    destruct (list_eq_dec Z.eq_dec l m); split; intros H; try congruence.
  - destruct b; try contradiction; cbn [py_eq erase]; try (split; intros H; inversion H; fail).
    split; [intros H; inversion H as [E]; apply cls_eqb_true in E; subst; reflexivity|].
    intros H; inversion H; subst. rewrite cls_eqb_refl. reflexivity.
  - destruct b as [| | | | | | | |d m]; try contradiction; try (cbn [py_eq erase]; split; intros X; inversion X; fail).
    apply object_seq in Oa, Ob. rewrite py_eq_seq, py_eq_list. cbn [erase].
    destruct (cls_eqb c d) eqn:E; [|split; [discriminate|intros X; inversion X; subst; rewrite cls_eqb_refl in E; discriminate]].
    apply cls_eqb_true in E. subst d.
    assert (G : (if negb (length l =? length m)%nat then Ok false else go_eq l m) = Ok true <-> map erase l = map erase m).
    { clear c. revert m Ob. induction H as [|x l Hx Hl IH]; intros m Ob.
      - destruct m as [|y m]; [split; reflexivity|]. split; discriminate.
      - destruct m as [|y m]; [split; discriminate|]. inversion Oa; inversion Ob; subst. cbn [length Nat.eqb map go_eq].
        specialize (Hx y ltac:(assumption) ltac:(assumption)). specialize (IH ltac:(assumption) m ltac:(assumption)).
        destruct (negb (length l =? length m)%nat) eqn:EL.
        + split; [discriminate|]. intros X. inversion X as [[X1 X2]]. apply IH in X2. discriminate.
        + destruct (py_eq x y) as [[|]|] eqn:EX; cbn [bind].
          * rewrite IH. split; [intros X; f_equal; [apply Hx; reflexivity|exact X]|intros X; inversion X; reflexivity].
          * split; [discriminate|]. intros X. inversion X as [[X1 X2]]. apply Hx in X1. discriminate.
          * split; [discriminate|]. intros X. inversion X as [[X1 X2]]. apply Hx in X1. discriminate. }
    rewrite G. split; [intros ->; reflexivity|intros X; inversion X; reflexivity].
Qed.
Lemma py_eq_false_class a b c d : class_of a = Some c -> class_of b = Some d -> c <> d -> is_vint a = false -> py_eq a b = Ok false.
Proof.
  assert (N : forall c d, c <> d -> cls_eqb c d = false) by (intros x y H; unfold cls_eqb; destruct (cls_eq_dec x y); congruence).
  destruct a, b; cbn [class_of is_vint]; intros A B D I; try discriminate; inversion A; inversion B; subst;
    try reflexivity; try congruence; try (cbn [py_eq]; rewrite N by assumption; reflexivity).
Qed.

(** ** Assembled statements *)
Lemma pdu_accepts_stream cfg d c data objs w : decode_method c = Some DPDU -> decode (reg_of cfg) d data = Ok objs ->
  (decodeContents (decode (reg_of cfg) d) c data = Ok w <->
   exists o0 o1 o2 o3 r e i items ps,
     objs = [o0; o1; o2; o3] /\ wire_integer o0 r /\ wire_integer o1 e /\ wire_integer o2 i /\
     in32 e /\ in32 i /\ components o3 = Some items /\
     Forall2 (fun it p => accepted_binding it (fst p) (snd p)) items ps /\
     if issubclass c CPDU_v2
     then - 2 ^ 31 <= r <= 2 ^ 31 /\ zlen items <= 2 ^ 31 - 1 /\
          w = VSeq c [VInt CInteger32 r; VInt CErrorStatus_v2 e; VInt CInteger i;
                      VSeq CVarBindList_v2 (map (fun p => VSeq CVarBind [fst p; snd p]) ps)]
     else in32 r /\
          w = VSeq c [VInt CInteger r; VInt CErrorStatus e; VInt CInteger i;
                      VSeq CVarBindList (map (fun p => VSeq CVarBind [fst p; snd p]) ps)]).
Proof.
  intros Hm E. unfold decodeContents. rewrite Hm, E. cbn [bind]. apply pdu_accepts; [exact Hm|eapply decode_deco; exact E].
Qed.
Lemma trap_accepts_stream cfg d data objs w : decode (reg_of cfg) d data = Ok objs ->
  (decodeContents (decode (reg_of cfg) d) CTrapPDU data = Ok w <->
   exists o0 o1 o2 o3 o4 o5 g items ps,
     objs = [o0; o1; o2; o3; o4; o5] /\ wire_integer o2 g /\ in32 g /\ components o5 = Some items /\
     Forall2 (fun it p => accepted_binding it (fst p) (snd p)) items ps /\
     w = VSeq CTrapPDU [o0; o1; VInt CGenericTrap g; o3; o4; VSeq CVarBindList (map (fun p => VSeq CVarBind [fst p; snd p]) ps)]).
Proof.
  intros E. unfold decodeContents. change (decode_method CTrapPDU) with (Some DTrapPDU). cbv iota. rewrite E. cbn [bind].
  apply trap_accepts. eapply decode_deco; exact E.
Qed.
Lemma bulk_accepts_stream cfg d data objs w : decode (reg_of cfg) d data = Ok objs ->
  (decodeContents (decode (reg_of cfg) d) CGetBulk data = Ok w <->
   exists o0 o1 o2 o3 r n m items ps,
     objs = [o0; o1; o2; o3] /\ wire_integer o0 r /\ wire_integer o1 n /\ wire_integer o2 m /\
     - 2 ^ 31 <= r <= 2 ^ 31 /\ in32 n /\ in32 m /\ components o3 = Some items /\ zlen items <= 2 ^ 31 - 1 /\
     Forall2 (fun it p => accepted_binding it (fst p) (snd p)) items ps /\
     w = VSeq CGetBulk [VInt CInteger32 r; VInt CInteger n; VInt CInteger m;
                        VSeq CVarBindList_v2 (map (fun p => VSeq CVarBind_v2 [fst p; snd p]) ps)]).
Proof.
  intros E. unfold decodeContents. change (decode_method CGetBulk) with (Some DBulkPDU). cbv iota. rewrite E. cbn [bind].
  pose proof (decode_deco _ _ _ _ E) as Hd. clear E. unfold in32. split.
  - unfold bulkpdu_of_objects. destruct objs as [|o0 [|o1 [|o2 [|o3 [|o4 objs]]]]]; try discriminate.
    cbn [forallb] in Hd. apply andb_prop in Hd as [D0 Hd]. apply andb_prop in Hd as [D1 Hd]. apply andb_prop in Hd as [D2 Hd].
    destruct (components o3) as [items|] eqn:C; [|destruct (no_components_iter o3 C) as [x E]; rewrite E; discriminate].
    rewrite (components_iter _ _ C). cbn [bind].
    destruct (mapM (build_varbind CVarBind_v2) items) as [os|] eqn:EM; cbn [bind]; [|discriminate].
    apply build_varbinds_iff in EM as (ps & F & ->).
    destruct (py_int o0) as [r|] eqn:E0; cbn [bind]; [|discriminate]. apply deco_int in E0; [|exact D0].
    destruct (py_int o1) as [n|] eqn:E1; cbn [bind]; [|discriminate]. apply deco_int in E1; [|exact D1].
    destruct (py_int o2) as [m|] eqn:E2; cbn [bind]; [|discriminate]. apply deco_int in E2; [|exact D2].
    intros H. unfold bulkpdu_init in H. cbn [gt_max_bindings bind] in H.
    destruct (max_bindings <? n) eqn:Mn; [discriminate|]. destruct (max_bindings <? m) eqn:Mm; [discriminate|].
    destruct (integer_init CInteger32 (VPyInt r)) eqn:I0; cbn [bind] in H; [|discriminate]. apply integer_init_iff in I0 as [I0 ->].
    destruct (integer_init CInteger (VPyInt n)) eqn:I1; cbn [bind] in H; [|discriminate]. apply integer_init_iff in I1 as [I1 ->].
    destruct (integer_init CInteger (VPyInt m)) eqn:I2; cbn [bind] in H; [|discriminate]. apply integer_init_iff in I2 as [I2 ->].
    change (MINVAL CInteger32) with (-2147483648) in I0; change (MAXVAL CInteger32) with 2147483648 in I0;
    change (MINVAL CInteger) with (-2147483648) in I1, I2; change (MAXVAL CInteger) with 2147483647 in I1, I2.
    unfold varbindlist_v2_init in H. cbn [py_len bind] in H. rewrite map_length_z in H.
    destruct (max_bindings <? zlen ps) eqn:Mb; cbn [bind] in H; [discriminate|].
    rewrite (sequenceof_init_vb CVarBind_v2 CVarBindList_v2 (map (vb_pair CVarBind_v2) ps)) in H by (eauto; apply vb_pair_is).
    cbn [bind] in H. inversion H; subst.
    assert (zlen items = zlen ps) by (unfold zlen; rewrite (Forall2_length _ _ _ F); reflexivity). unfold max_bindings in Mb.
    exists o0, o1, o2, o3, r, n, m, items, ps. repeat split; auto; lia.
  - intros (o0 & o1 & o2 & o3 & r & n & m & items & ps & -> & I0 & I1 & I2 & Hr & Hn & Hm & C & L & F & ->).
    cbn [forallb] in Hd. apply andb_prop in Hd as [D0 Hd]. apply andb_prop in Hd as [D1 Hd]. apply andb_prop in Hd as [D2 Hd].
    apply deco_int in I0, I1, I2; auto. unfold bulkpdu_of_objects. rewrite (components_iter _ _ C). cbn [bind].
    rewrite (proj2 (build_varbinds_iff CVarBind_v2 items _) (ex_intro _ ps (conj F eq_refl))). cbn [bind]. rewrite I0, I1, I2. cbn [bind].
    unfold bulkpdu_init. rewrite !gt_max_ok by assumption. cbn [bind].
    rewrite (proj2 (integer_init_iff CInteger32 r _) (conj (conj (proj1 Hr) (proj2 Hr)) eq_refl)).
    rewrite (in32_ok CInteger n), (in32_ok CInteger m) by (unfold in32; tauto). cbn [bind].
    unfold varbindlist_v2_init. cbn [py_len bind]. rewrite map_length_z.
    assert (zlen items = zlen ps) by (unfold zlen; rewrite (Forall2_length _ _ _ F); reflexivity). unfold max_bindings.
    destruct (Z.ltb_spec 2147483647 (zlen ps)); [lia|].
    rewrite (sequenceof_init_vb CVarBind_v2 CVarBindList_v2 (map (vb_pair CVarBind_v2) ps)) by (eauto; apply vb_pair_is). reflexivity.
Qed.

(** Bindings given by the user: names and values with their abstract forms. *)
Definition good_bindings (cfg : config) (bs : list (list Z * val)) (tbs : list (list Z * tree)) : Prop :=
  Forall2 (fun b t => fst t = fst b /\ tree_of (snd b) = Some (snd t) /\ classes_ok (snd b) = true /\
                      oid_survives (fst t) /\ wf cfg (snd t)) bs tbs.
Lemma good_bindings_trees cfg bs tbs : good_bindings cfg bs tbs ->
  Forall2 (fun b t => fst t = fst b /\ tree_of (snd b) = Some (snd t)) bs tbs.
Proof. induction 1 as [|b t bs tbs (A & B & _) F IH]; constructor; auto. Qed.
Lemma good_bindings_wf cfg bs tbs : good_bindings cfg bs tbs -> wf cfg (TSeq KSequence (map binding_tree tbs)) /\
  Forall binding (map binding_tree tbs) /\ length bs = length tbs.
Proof.
  intros H. rewrite wf_seq. split; [split; [|exact I]|split].
  - induction H as [|b [m t] bs tbs (A & B & C & D & E) F IH]; constructor; auto.
    apply wf_seq. split; [|exact I]. constructor; [exact D|]. constructor; [exact E|constructor].
  - induction H as [|b [m t] bs tbs _ F IH]; constructor; [|exact IH]. exists m, t. reflexivity.
  - apply (Forall2_length _ _ _ H).
Qed.
Lemma good_bindings_classes cfg vb bs tbs : (vb = CVarBind \/ vb = CVarBind_v2) -> good_bindings cfg bs tbs ->
  forallb classes_ok (map (vb_of vb) bs) = true.
Proof.
  intros Hvb. induction 1 as [|[n v] t bs tbs (_ & _ & C & _) F IH]; [reflexivity|].
  cbn [map forallb vb_of classes_ok fst snd] in *. rewrite C, IH. destruct Hvb as [->| ->]; reflexivity.
Qed.
Lemma request_shape_ok cfg r e i bs tbs : in32 r -> in32 e -> in32 i -> zlen bs <= 2 ^ 31 - 1 -> good_bindings cfg bs tbs ->
  request_shape [TInt KInteger r; TInt KInteger e; TInt KInteger i; TSeq KSequence (map binding_tree tbs)].
Proof.
  intros Hr He Hi L G. destruct (good_bindings_wf _ _ _ G) as (_ & B & E).
  exists r, e, i, (map binding_tree tbs). repeat split; auto; try (unfold in32 in *; lia). rewrite map_length. unfold zlen in L. lia.
Qed.
Lemma request_wf cfg k r e i bs tbs : available cfg k = true -> request_kind k = true \/ k = KGetBulk ->
  in32 r -> in32 e -> in32 i -> int_survives r -> int_survives e -> int_survives i ->
  zlen bs <= 2 ^ 31 - 1 -> good_bindings cfg bs tbs -> wf cfg (request_tree k r e i tbs).
Proof.
  intros A K Hr He Hi Sr Se Si L G. destruct (good_bindings_wf _ _ _ G) as (W & B & E).
  apply wf_seq. split.
  - repeat (constructor; [assumption|]). constructor.
  - pose proof (request_shape_ok cfg r e i bs tbs Hr He Hi L G).
    destruct K as [K| ->]; [|split; auto]. destruct k; try discriminate; split; auto.
Qed.
Lemma classes_request c c0 c1 c2 c3 r e i l : written_right c = true -> written_right c0 = true -> written_right c1 = true ->
  written_right c2 = true -> written_right c3 = true -> forallb classes_ok l = true ->
  classes_ok (VSeq c [VInt c0 r; VInt c1 e; VInt c2 i; VSeq c3 l]) = true.
Proof. intros H H0 H1 H2 H3 H4. cbn [classes_ok forallb]. rewrite H, H0, H1, H2, H3, H4. reflexivity. Qed.

Definition request_classes := [CGet; CGetNext; CSet; CGet_v2; CGetNext_v2; CResponse_v2; CSet_v2; CInform; CTrapV2; CReport].
Lemma pdu_init_classes cfg c r e i bs tbs pdu : In c request_classes -> good_bindings cfg bs tbs ->
  pdu_init c (VPyInt r) (VPyInt e) (VPyInt i) (VPyList (map (vb_of CVarBind) bs)) = Ok pdu -> classes_ok pdu = true.
Proof.
  intros Hc G. pose proof (good_bindings_classes cfg CVarBind bs tbs (or_introl eq_refl) G) as CB.
  assert (W : written_right c = true) by (cbn in Hc; repeat (destruct Hc as [<-|Hc]; [reflexivity|]); contradiction).
  unfold pdu_init. destruct (issubclass c CPDU_v2).
  - unfold pdu_v2_init. cbn [gt_max_bindings bind]. destruct (max_bindings <? i); [discriminate|].
    destruct (integer_init CInteger32 (VPyInt r)) eqn:I0; cbn [bind]; [|discriminate]. apply integer_init_iff in I0 as [_ ->].
    destruct (integer_init CErrorStatus_v2 (VPyInt e)) eqn:I1; cbn [bind]; [|discriminate]. apply integer_init_iff in I1 as [_ ->].
    destruct (integer_init CInteger (VPyInt i)) eqn:I2; cbn [bind]; [|discriminate]. apply integer_init_iff in I2 as [_ ->].
    unfold varbindlist_v2_init. cbn [py_len bind]. destruct (max_bindings <? _); cbn [bind]; [discriminate|].
    rewrite (sequenceof_init_vb CVarBind CVarBindList_v2 (map (vb_of CVarBind) bs)) by (auto; apply vb_of_is). cbn [bind].
    intros H; inversion H; subst. apply classes_request; auto.
  - unfold pdu_v1_init.
    destruct (integer_init CInteger (VPyInt r)) eqn:I0; cbn [bind]; [|discriminate]. apply integer_init_iff in I0 as [_ ->].
    destruct (integer_init CErrorStatus (VPyInt e)) eqn:I1; cbn [bind]; [|discriminate]. apply integer_init_iff in I1 as [_ ->].
    destruct (integer_init CInteger (VPyInt i)) eqn:I2; cbn [bind]; [|discriminate]. apply integer_init_iff in I2 as [_ ->].
    unfold varbindlist_init.
    rewrite (sequenceof_init_vb CVarBind CVarBindList (map (vb_of CVarBind) bs)) by (auto; apply vb_of_is). cbn [bind].
    intros H; inversion H; subst. apply classes_request; auto.
Qed.
Definition message_comes_back (cfg : config) (mc : cls) (os : str) (ver : Z) (com : list Z) (t : tree) : Prop :=
  exists m', tree_of (m_version m') = Some (TInt KInteger ver) /\ tree_of (m_community m') = Some (TOct KOctetString com) /\
    tree_of (m_data m') = Some t /\
    forall depth, (S (height t) <= depth)%nat -> message_decode (reg_of cfg) depth mc (DStr os) = Ok m'.
Lemma message_back cfg mc ver com pdu t m : (mc = CMessage \/ mc = CMessage_v2) ->
  message_init mc (VPyInt ver) (VPyStr com) pdu = Ok m -> int_survives ver ->
  tree_of pdu = Some t -> wf cfg t -> classes_ok pdu = true ->
  exists os, snd (message_encode m) = Ok os /\ (zlen os < 256 ^ 126 ->
     wire true (message_tree ver com t) os /\ message_comes_back cfg mc os ver com t).
Proof.
  intros Hc M S T W C. destruct (message_writes cfg mc ver com pdu t m Hc M S T W C) as (os & E & Wi).
  exists os. split; [exact E|]. intros L. pose proof (proj1 Wi L) as Wi2; clear Wi; rename Wi2 into Wi. split; [exact Wi|].
  destruct (message_reads cfg true ver com t os Wi (wf_readable cfg pdu t T W)) as (v0 & v1 & v2 & T0 & T1 & T2 & D).
  exists (mkMsg mc v0 v1 v2 []). repeat split; auto.
Qed.
Lemma message_init_ok mc ver com pdu : in32 ver -> exists m, message_init mc (VPyInt ver) (VPyStr com) pdu = Ok m.
Proof. intros H. unfold message_init. rewrite (in32_ok CInteger ver) by tauto. cbn [bind]. eauto. Qed.

Lemma request_roundtrip cfg mc c k ver com r e i bs tbs :
  (mc = CMessage \/ mc = CMessage_v2) -> In c request_classes -> kind_of c = Some k -> available cfg k = true ->
  in32 ver -> in32 r -> in32 e -> in32 i -> int_survives ver -> int_survives r -> int_survives e -> int_survives i ->
  zlen bs <= 2 ^ 31 - 1 -> good_bindings cfg bs tbs ->
  exists pdu m os,
    pdu_init c (VPyInt r) (VPyInt e) (VPyInt i) (VPyList (map (vb_of CVarBind) bs)) = Ok pdu /\
    message_init mc (VPyInt ver) (VPyStr com) pdu = Ok m /\ snd (message_encode m) = Ok os /\
    (zlen os < 256 ^ 126 -> wire true (message_tree ver com (request_tree k r e i tbs)) os /\
                            message_comes_back cfg mc os ver com (request_tree k r e i tbs)).
Proof.
  intros Hm Hc K A Hv Hr He Hi Sv Sr Se Si L G.
  destruct (pdu_construct c k r e i bs tbs Hc K Hr He Hi L (good_bindings_trees _ _ _ G)) as (pdu & EP & TP).
  destruct (message_init_ok mc ver com pdu Hv) as [m EM].
  assert (W : wf cfg (request_tree k r e i tbs)).
  { apply (request_wf cfg k r e i bs tbs); auto. left.
    cbn in Hc; repeat (destruct Hc as [<-|Hc]; [inversion K; reflexivity|]); contradiction. }
  destruct (message_back cfg mc ver com pdu _ m Hm EM Sv TP W (pdu_init_classes cfg c r e i bs tbs pdu Hc G EP)) as (os & EO & H).
  exists pdu, m, os. auto.
Qed.
Lemma bulk_roundtrip cfg mc ver com r n x bs tbs :
  (mc = CMessage \/ mc = CMessage_v2) -> available cfg KGetBulk = true ->
  in32 ver -> in32 r -> in32 n -> in32 x -> int_survives ver -> int_survives r -> int_survives n -> int_survives x ->
  zlen bs <= 2 ^ 31 - 1 -> good_bindings cfg bs tbs ->
  exists pdu m os,
    bulkpdu_init CGetBulk (VPyInt r) (VPyInt n) (VPyInt x) (VPyList (map (vb_of CVarBind_v2) bs)) = Ok pdu /\
    message_init mc (VPyInt ver) (VPyStr com) pdu = Ok m /\ snd (message_encode m) = Ok os /\
    (zlen os < 256 ^ 126 -> wire true (message_tree ver com (request_tree KGetBulk r n x tbs)) os /\
                            message_comes_back cfg mc os ver com (request_tree KGetBulk r n x tbs)).
Proof.
  intros Hm A Hv Hr Hn Hx Sv Sr Sn Sx L G.
  pose proof (good_bindings_classes cfg CVarBind_v2 bs tbs (or_intror eq_refl) G) as CB.
  pose proof (bindings_trees CVarBind_v2 bs tbs (or_intror eq_refl) (good_bindings_trees _ _ _ G)) as TB.
  pose (pdu := VSeq CGetBulk [VInt CInteger32 r; VInt CInteger n; VInt CInteger x; VSeq CVarBindList_v2 (map (vb_of CVarBind_v2) bs)]).
  assert (EP : bulkpdu_init CGetBulk (VPyInt r) (VPyInt n) (VPyInt x) (VPyList (map (vb_of CVarBind_v2) bs)) = Ok pdu).
  { unfold bulkpdu_init. rewrite !gt_max_ok by assumption. cbn [bind].
    rewrite (in32_ok CInteger32 r), (in32_ok CInteger n), (in32_ok CInteger x) by tauto. cbn [bind].
    unfold varbindlist_v2_init. cbn [py_len bind]. rewrite map_length_z.
    unfold max_bindings. destruct (Z.ltb_spec 2147483647 (zlen bs)); [lia|].
    rewrite (sequenceof_init_vb CVarBind_v2 CVarBindList_v2 (map (vb_of CVarBind_v2) bs)) by (auto; apply vb_of_is). reflexivity. }
  destruct (message_init_ok mc ver com pdu Hv) as [m EM].
  assert (TP : tree_of pdu = Some (request_tree KGetBulk r n x tbs)).
  { apply (trees_request KGetBulk CGetBulk) with (c0 := CInteger32) (c1 := CInteger) (c2 := CInteger); auto. apply vbl_tree; auto. }
  assert (W : wf cfg (request_tree KGetBulk r n x tbs)) by (apply (request_wf cfg KGetBulk r n x bs tbs); auto).
  destruct (message_back cfg mc ver com pdu _ m Hm EM Sv TP W) as (os & EO & H).
  { apply classes_request; auto. }
  exists pdu, m, os. auto.
Qed.
Lemma trap_roundtrip cfg mc ver com ent agent g s ticks bs tbs ca :
  (mc = CMessage \/ mc = CMessage_v2) -> (ca = CNetworkAddress \/ ca = CIPAddress) -> available cfg KTrapV1 = true ->
  in32 ver -> int_survives ver -> oid_survives ent -> in32 g -> int_survives g -> int_survives s -> int_survives ticks -> good_bindings cfg bs tbs ->
  exists m os,
    message_init mc (VPyInt ver) (VPyStr com)
      (trappdu_init (VOid (Some ent)) (VOct ca (VPyStr agent)) (VInt CGenericTrap g) (VInt CInteger s) (VInt CTimeTicks ticks)
                    (VSeq CVarBindList (map (vb_of CVarBind) bs))) = Ok m /\
    snd (message_encode m) = Ok os /\
    (zlen os < 256 ^ 126 -> wire true (message_tree ver com (trap_tree ent agent g s ticks tbs)) os /\
                            message_comes_back cfg mc os ver com (trap_tree ent agent g s ticks tbs)).
Proof.
  intros Hm Ha A Hv Sv Se Hg Sg Ss St G.
  pose proof (good_bindings_classes cfg CVarBind bs tbs (or_introl eq_refl) G) as CB.
  pose proof (bindings_trees CVarBind bs tbs (or_introl eq_refl) (good_bindings_trees _ _ _ G)) as TB.
  destruct (good_bindings_wf _ _ _ G) as (WB & B & _).
  match goal with |- context [message_init mc _ _ ?p] => set (pdu := p) end.
  destruct (message_init_ok mc ver com pdu Hv) as [m EM].
  assert (TP : tree_of pdu = Some (trap_tree ent agent g s ticks tbs)).
  { unfold pdu, trappdu_init, trap_tree. rewrite tree_of_seq. change (kind_of CTrapPDU) with (Some KTrapV1). change (seq_kind KTrapV1) with true. cbv iota.
    rewrite (trees_of_cons (VOid (Some ent)) _ (TOid ent) [TOct KIpAddress agent; TInt KInteger g; TInt KInteger s; TInt KTimeTicks ticks; TSeq KSequence (map binding_tree tbs)]); [reflexivity|reflexivity|].
    apply trees_of_cons; [destruct Ha as [->| ->]; reflexivity|]. do 3 (apply trees_of_cons; [reflexivity|]).
    apply trees_of_cons; [|reflexivity]. apply vbl_tree; auto. }
  assert (W : wf cfg (trap_tree ent agent g s ticks tbs)).
  { apply wf_seq. split.
    - constructor; [exact Se|]. constructor; [right; reflexivity|]. do 3 (constructor; [assumption|]). constructor; [exact WB|constructor].
    - split; [exact A|]. exists (TOid ent), (TOct KIpAddress agent), g, (TInt KInteger s), (TInt KTimeTicks ticks), (map binding_tree tbs). auto. }
  destruct (message_back cfg mc ver com pdu _ m Hm EM Sv TP W) as (os & EO & H).
  { unfold pdu, trappdu_init. cbn [classes_ok forallb]. rewrite CB. destruct Ha as [->| ->]; reflexivity. }
  exists m, os. auto.
Qed.
