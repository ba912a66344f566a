(** * Proofs about the command-line programs. *)
From Coq Require Import Ascii String ZArith List Bool Lia ZifyBool ZifyNat.
From Verif Require Import PyBase Classes Values Codec Manager Text Frontend Tools.
From Verif Require Import SpecSMI SpecTree SpecWire SpecMsg SpecManager SpecTools.
From Verif Require Import ProofsTree ProofsDecode ProofsWire ProofsMsg ProofsManager ProofsHistory ProofsReceive ProofsCalls ProofsRun ProofsPrint ProofsFront SpecText SpecFront.
From Verif Require Import SpecTools.
Import ListNotations.
Open Scope Z_scope.

(** ** What decoded objects are made of *)
Inductive made (reg : registry) : val -> Prop :=
| made_leaf v t c : reg_get reg t = Some c -> class_of v = Some c -> (forall c' l, v <> VSeq c' l) -> made reg v
| made_seq l : Forall (made reg) l -> made reg (VSeq CSequence l)
| made_request t c kr ke bl r e i ps : reg_get reg t = Some c -> decode_method c = Some DPDU -> kr = CInteger \/ kr = CInteger32 -> ke = CErrorStatus \/ ke = CErrorStatus_v2 ->
    (bl = CVarBindList \/ bl = CVarBindList_v2) -> (issubclass c CPDU_v2 = true -> ke = CErrorStatus_v2) ->
    Forall (fun p => class_of (fst p) <> None -> made reg (fst p)) ps -> Forall (fun p => class_of (snd p) <> None -> made reg (snd p)) ps ->
    made reg (VSeq c [VInt kr r; VInt ke e; VInt CInteger i; VSeq bl (map (vb_pair CVarBind) ps)])
| made_bulk r a b c : made reg (VSeq CGetBulk [VInt CInteger32 r; a; b; c])
| made_trap o0 o1 g o3 o4 ps : made reg o0 -> made reg o1 -> made reg o3 -> made reg o4 ->
    Forall (fun p => class_of (fst p) <> None -> made reg (fst p)) ps -> Forall (fun p => class_of (snd p) <> None -> made reg (snd p)) ps ->
    made reg (VSeq CTrapPDU [o0; o1; VInt CGenericTrap g; o3; o4; VSeq CVarBindList (map (vb_pair CVarBind) ps)]).
Lemma made_components reg it n v ex : made reg it -> components it = Some (n :: v :: ex) -> is_oid n \/ falsy n ->
  (class_of n <> None -> made reg n) /\ (class_of v <> None -> made reg v).
Proof.
  intros M C N. inversion M as [w t c G K NS|l F|t c kr ke bl r e i ps|r a b c|o0 o1 g o3 o4 ps M0 M1]; subst; cbn [components] in C.
  - destruct it as [| | |l| | |[l|]| |c' l]; cbn [components class_of] in *; try discriminate.
    + destruct l as [|x [|y l]]; try discriminate. injection C as <- <- _. split; intros X; cbn in X; congruence.
    + exfalso. eapply NS; reflexivity.
  - injection C as ->. inversion F as [|? ? F1 F2]; subst. inversion F2; subst. auto.
  - injection C as <- <- _. exfalso. destruct N as [N|N]; [destruct H1 as [->| ->]; discriminate N|destruct N].
  - injection C as <- <- _. exfalso. destruct N as [N|N]; [discriminate N|destruct N].
  - injection C as <- <- _. auto.
Qed.
Lemma made_bindings reg items ps : Forall (made reg) items -> Forall2 (fun it p => accepted_binding it (fst p) (snd p)) items ps ->
  Forall (fun p => class_of (fst p) <> None -> made reg (fst p)) ps /\ Forall (fun p => class_of (snd p) <> None -> made reg (snd p)) ps.
Proof.
  intros F G. induction G as [|it [n v] items ps A G IH]; [split; constructor|]. inversion F as [|? ? M F']; subst. destruct (IH F') as [I1 I2].
  destruct A as (ex & C & N & _). destruct (made_components _ _ _ _ _ M C N) as [X Y]. split; constructor; auto.
Qed.
(** The list of items of a decoded object whose items are all acceptable bindings. *)
Lemma made_items_bindings reg o items ps : made reg o -> components o = Some items ->
  Forall2 (fun it p => accepted_binding it (fst p) (snd p)) items ps ->
  Forall (fun p => class_of (fst p) <> None -> made reg (fst p)) ps /\ Forall (fun p => class_of (snd p) <> None -> made reg (snd p)) ps.
Proof.
  intros M C G.
  assert (N : forall c z p, ~ accepted_binding (VInt c z) (fst p) (snd p)) by (intros c z p (ex & X & _); discriminate X).
  inversion M as [w t c Gt Kt NS|l F|t c kr ke bl r e i ps'|r a b c|o0 o1 g o3 o4 ps']; subst; cbn [components] in C.
  - destruct o as [| | |l| | |[l|]| |c' l]; cbn [components class_of] in *; try discriminate.
    + injection C as <-. destruct l as [|z l]; [inversion G; subst; split; constructor|]. cbn [map] in G. inversion G as [|? ? ? ? A]; subst.
      destruct A as (ex & X & _). discriminate X.
    + exfalso. eapply NS; reflexivity.
  - injection C as ->. apply (made_bindings _ items); assumption.
  - injection C as <-. exfalso. inversion G; subst. eapply N; eassumption.
  - injection C as <-. exfalso. inversion G; subst. eapply N; eassumption.
  - injection C as <-. exfalso. inversion G as [|? ? ? ? ? G1]; subst. inversion G1 as [|? ? ? ? ? G2]; subst. inversion G2; subst. eapply N; eassumption.
Qed.
Lemma decodeContents_made cfg d t c data v : reg_get (reg_of cfg) t = Some c -> (forall s l, decode (reg_of cfg) d s = Ok l -> Forall (made (reg_of cfg)) l) ->
  decodeContents (decode (reg_of cfg) d) c data = Ok v -> made (reg_of cfg) v.
Proof.
  intros G IH D. pose proof (decodeContents_class _ _ _ _ D) as CL. unfold decodeContents in D.
  destruct (decode_method c) as [dm|] eqn:M; [|discriminate].
  assert (LF : (forall c' l, v <> VSeq c' l) -> made (reg_of cfg) v) by (intros N; eapply made_leaf; eassumption).
  destruct dm.
  - inv_bind D. inversion D; subst. apply LF. intros; discriminate.
  - inversion D; subst. apply LF. intros; discriminate.
  - inv_bind D. inversion D; subst. apply LF. intros; discriminate.
  - inv_bind D. inversion D; subst. apply LF. intros; discriminate.
  - inv_bind D. inversion D; subst.
    assert (c = CSequence) as ->.
    { apply reg_range in G as [G _]. cbn in G. repeat (destruct G as [<-|G]; [vm_compute in M; try discriminate M; reflexivity|]). destruct G. }
    apply made_seq. eapply IH; eassumption.
  - inversion D; subst. apply LF. intros; discriminate.
  - inv_bind D. inversion D; subst. apply LF. intros; discriminate.
  - inv_bind D. rename a into objs. pose proof (decode_deco _ _ _ _ E) as Hd. pose proof (IH _ _ E) as F.
    apply (pdu_accepts _ _ _ M Hd) in D as (o0 & o1 & o2 & o3 & r & e & i & items & ps & -> & _ & _ & _ & _ & _ & C & A & W).
    inversion F as [|? ? _ F1]; subst. inversion F1 as [|? ? _ F2]; subst. inversion F2 as [|? ? _ F3]; subst. inversion F3 as [|? ? M3 _]; subst.
    destruct (made_items_bindings _ _ _ _ M3 C A) as [X Y].
    destruct (issubclass c CPDU_v2) eqn:V; [destruct W as (_ & _ & ->)|destruct W as (_ & ->)]; apply (made_request _ t); auto; congruence.
  - assert (c = CTrapPDU) by (destruct c; vm_compute in M; congruence). subst.
    inv_bind D. rename a into objs. pose proof (decode_deco _ _ _ _ E) as Hd. pose proof (IH _ _ E) as F.
    apply (trap_accepts _ _ Hd) in D as (o0 & o1 & o2 & o3 & o4 & o5 & g & items & ps & -> & _ & _ & C & A & ->).
    inversion F as [|? ? M0 F1]; subst. inversion F1 as [|? ? M1 F2]; subst. inversion F2 as [|? ? M2 F3]; subst. inversion F3 as [|? ? M3 F4]; subst.
    inversion F4 as [|? ? M4 F5]; subst. inversion F5 as [|? ? M5 _]; subst. destruct (made_items_bindings _ _ _ _ M5 C A) as [X Y]. apply made_trap; auto.
  - assert (c = CGetBulk) as ->.
    { apply reg_range in G as [G _]. cbn in G. repeat (destruct G as [<-|G]; [vm_compute in M; try discriminate M; reflexivity|]). destruct G. }
    destruct (decode (reg_of cfg) d data) as [objs|] eqn:E; [|discriminate D].
    assert (D' : decodeContents (decode (reg_of cfg) d) CGetBulk data = Ok v) by (unfold decodeContents; rewrite M, E; exact D).
    apply (bulk_accepts_stream _ _ _ _ _ E) in D' as (o0 & o1 & o2 & o3 & r & n & m & items & ps & _ & _ & _ & _ & _ & _ & _ & _ & _ & _ & ->). apply made_bulk.
Qed.
Lemma decode_made cfg depth : forall s l, decode (reg_of cfg) depth s = Ok l -> Forall (made (reg_of cfg)) l.
Proof.
  induction depth as [|d IH]; intros s l; [discriminate|]. cbn [decode].
  enough (G : forall fuel s l, decode_loop (reg_of cfg) (decode (reg_of cfg) d) fuel s = Ok l -> Forall (made (reg_of cfg)) l) by apply G.
  clear s l. induction fuel as [|fuel IF]; intros s l; destruct s as [|b s]; cbn [decode_loop]; intros H; try discriminate; try (inversion H; constructor).
  destruct (decode_one (reg_of cfg) (decode (reg_of cfg) d) (b :: s)) as [[o rest]|] eqn:O; cbn [bind] in H; [|discriminate].
  destruct (decode_loop (reg_of cfg) (decode (reg_of cfg) d) fuel rest) as [os|] eqn:L; cbn [bind] in H; [|discriminate]. inversion H; subst.
  constructor; [|eapply IF; exact L]. unfold decode_one in O.
  destruct (decodeTag (b :: s)) as [[tag s1]|]; cbn [bind] in O; [|discriminate].
  destruct (decodeLength s1) as [[len s2]|]; cbn [bind] in O; [|discriminate].
  destruct (reg_get (reg_of cfg) tag) as [c|] eqn:R; [|discriminate].
  destruct (decodeContents (decode (reg_of cfg) d) c (ztake len s2)) as [v|] eqn:D; cbn [bind] in O; [|discriminate]. inversion O; subst.
  eapply decodeContents_made; eassumption.
Qed.

(** ** The object a response becomes *)
Definition decoded_bindings (cfg : config) (ps : list (val * val)) (bs : list (list Z * tree)) : Prop :=
  Forall2 (fun p b => fst p = VOid (Some (fst b)) /\ tree_of (snd p) = Some (snd b) /\ made (reg_of cfg) (snd p)) ps bs.
Lemma tree_of_oid v l : tree_of v = Some (TOid l) -> v = VOid (Some l).
Proof.
  destruct v as [| | | | c x|c w|[l'|]|c|c m]; cbn; try discriminate.
  - destruct (kind_of c) as [k|]; [|discriminate]. destruct (int_kind k); discriminate.
  - destruct w; try discriminate. destruct (kind_of c) as [k'|]; [|discriminate]. destruct (oct_kind k'); discriminate.
  - intros H; injection H as ->. reflexivity.
  - destruct (kind_of c) as [k|]; [|discriminate]. destruct (null_kind k); discriminate.
  - destruct (kind_of c) as [k'|]; [|discriminate]. destruct (seq_kind k'); [|discriminate].
    match goal with |- context [match ?x with Some _ => _ | None => _ end] => destruct x end; discriminate.
Qed.
Lemma tree_object v t : tree_of v = Some t -> class_of v <> None.
Proof. destruct v as [| | | | | |[|]| |]; cbn; discriminate. Qed.
Lemma decoded_of_trees cfg ps : forall bs, trees_of (map (vb_pair CVarBind) ps) = Some (map binding_tree bs) ->
  Forall (fun p => class_of (snd p) <> None -> made (reg_of cfg) (snd p)) ps -> decoded_bindings cfg ps bs.
Proof.
  induction ps as [|[n v] ps IH]; intros [|b bs] T F; cbn [map] in T.
  - constructor.
  - discriminate.
  - apply trees_inv_nil in T. discriminate.
  - apply trees_inv_cons in T as (x & r & E & T1 & T2). injection E as <- <-. inversion F as [|? ? F1 F2]; subst.
    constructor; [|apply IH; assumption]. cbn [fst snd] in *. unfold vb_pair, binding_tree in T1. apply tree_of_seq in T1 as (c & l & E & _ & T1 & _). injection E as <- <-.
    apply trees_inv_cons in T1 as (x & r & E & A & T1). injection E as <- <-. apply trees_inv_cons in T1 as (x & r & E & B & _). injection E as <- <-.
    apply tree_of_oid in A. split; [assumption|]. split; [assumption|]. apply F1. eapply tree_object; exact B.
Qed.
Lemma response_object v id st ix bs : made (reg_of Upto1905) v -> tree_of v = Some (request_tree KResponse id st ix bs) ->
  exists c kr bl ps, v = VSeq c [VInt kr id; VInt CErrorStatus_v2 st; VInt CInteger ix; VSeq bl (map (vb_pair CVarBind) ps)] /\ issubclass c CPDU = true /\ issubclass c CPDU_v2 = true /\
    decoded_bindings Upto1905 ps bs.
Proof.
  intros M T. unfold request_tree in T. apply tree_of_seq in T as (c & l & -> & K & T & _).
  inversion M as [w t c' G KC NS|l' F|t c' kr ke bl r e i ps G DM Hr He Hb V X Y|r a b c'|o0 o1 g o3 o4 ps]; subst.
  - exfalso. eapply NS; reflexivity.
  - discriminate K.
  - assert (c = CResponse_v2) as ->.
    { apply reg_range in G as [_ G]. specialize (G eq_refl). destruct c; cbn in K; try discriminate K; congruence. }
    specialize (V eq_refl) as ->.
    apply trees_inv_cons in T as (x & l & E & A & T). injection E as <- <-. apply tree_of_int in A as (? & A & _). injection A as <- ->.
    apply trees_inv_cons in T as (x & l & E & B & T). injection E as <- <-. apply tree_of_int in B as (? & B & _). injection B as <- ->.
    apply trees_inv_cons in T as (x & l & E & B & T). injection E as <- <-. apply tree_of_int in B as (? & B & _). injection B as <- ->.
    apply trees_inv_cons in T as (x & l & E & B & T). injection E as <- <-. apply tree_of_seq in B as (? & ? & E & _ & B & _). injection E as <- <-.
    exists CResponse_v2, kr, bl, ps. split; [reflexivity|]. split; [reflexivity|]. split; [reflexivity|]. apply decoded_of_trees; assumption.
  - discriminate K.
  - discriminate K.
Qed.
(** A leaf, as it is printed. *)
Lemma reg1905_leaf t c : reg_get (reg_of Upto1905) t = Some c ->
  In c [CInteger32; COctetString; CNull; CObjectID; CSequence; CIPAddress; CCounter32; CGuage32; CTimeTicks; COpaque; CCounter64; CNoSuchObject; CNoSuchInstance; CEndOfMibView;
        CGet; CGetNext; CResponse_v2; CSet; CTrapPDU; CGetBulk; CInform; CTrapV2; CReport].
Proof.
  intros G. cbn in G.
  repeat match type of G with (if ?b then _ else _) = _ => destruct b; [injection G as <-; cbn; tauto|] end; discriminate G.
Qed.
Lemma leaf_shown v t s tab : made (reg_of Upto1905) v -> tree_of v = Some t -> shown t = Some s ->
  py_str tab v = Ok s /\ class_name v = type_name t /\
  match t with TOct KOctetString o => oct_value v = Ok o | _ => class_name v <> text "OctetString"%string end.
Proof.
  intros M T S. inversion M as [w tg c' G KC NS|l' F|tg c' kr ke bl r e i ps G DM Hr He Hb V X Y|r a b c'|o0 o1 g o3 o4 ps]; subst.
  2-5: exfalso; apply tree_of_seq in T || idtac; cbn in T;
    repeat match type of T with
    | match ?x with _ => _ end = _ => destruct x; try discriminate T
    | (if ?x then _ else _) = _ => destruct x; try discriminate T
    end; try discriminate T; injection T as <-; discriminate S.
  apply reg1905_leaf in G. cbn in G.
  destruct v as [| | | |c z|c w|[l|]|c|c l]; cbn [class_of] in KC; try discriminate KC.
  - injection KC as ->.
    repeat match type of G with _ \/ _ => destruct G as [<-|G] end; [..|destruct G]; cbn in T; try discriminate T; injection T as <-; cbn in S; injection S as <-; (split; [reflexivity|split; [reflexivity|]]); intros X; vm_compute in X; discriminate X.
  - injection KC as ->. destruct w as [| |o| | | | | |]; try discriminate T. cbn [tree_of] in T.
    repeat match type of G with _ \/ _ => destruct G as [<-|G] end; [..|destruct G]; cbn in T; try discriminate T; injection T as <-; cbn in S; injection S as <-; (split; [reflexivity|split; [reflexivity|]]); try reflexivity; intros X; vm_compute in X; discriminate X.
  - injection T as <-. cbn in S. injection S as <-. split; [reflexivity|split; [reflexivity|]]. intros X; vm_compute in X; discriminate X.
  - discriminate T.
  - injection KC as ->.
    repeat match type of G with _ \/ _ => destruct G as [<-|G] end; [..|destruct G]; cbn in T; try discriminate T; injection T as <-; cbn in S; injection S as <-; (split; [reflexivity|split; [reflexivity|]]); intros X; vm_compute in X; discriminate X.
  - exfalso. eapply NS; reflexivity.
Qed.

(** ** A response off the wire *)
Lemma response_off_wire r id : answers id r -> exists cv v1 c kr bl ps,
  message_decode (reg_of Upto1905) (r_depth r) CMessage_v2 (DStr (r_octets r)) = 
    Ok (mkMsg CMessage_v2 (VInt cv (r_version r)) v1 
         (VSeq c [VInt kr id; VInt CErrorStatus_v2 (r_status r); VInt CInteger (r_index r); VSeq bl (map (vb_pair CVarBind) ps)]) []) /\
  issubclass c CPDU = true /\ issubclass c CPDU_v2 = true /\ decoded_bindings Upto1905 ps (r_bindings r) /\
  touch_data (reg_of Upto1905) (r_depth r) (DStr (r_octets r)) = true.
Proof.
  intros (W & R & H & _). set (pdu := request_tree KResponse id (r_status r) (r_index r) (r_bindings r)) in *.
  destruct (interop Upto1905 _ _ _ W) as (w & Tw & D).
  { apply readable_seq. split; [|exact Logic.I]. constructor; [exact Logic.I|]. constructor; [reflexivity|]. constructor; [exact R|constructor]. }
  apply tree_seq_inv in Tw as (k & l & -> & K & _ & T).
  apply trees_inv_cons in T as (v0 & l0 & -> & T0 & T). apply trees_inv_cons in T as (v1 & l1 & -> & T1 & T).
  apply trees_inv_cons in T as (v2 & l2 & -> & T2 & T). apply trees_inv_nil in T as ->.
  apply tree_of_int in T0 as (cv & -> & _).
  assert (D' : decode (reg_of Upto1905) (r_depth r) (r_octets r) = Ok [VSeq k [VInt cv (r_version r); v1; v2]]).
  { apply D. pose proof (height_pos pdu). unfold message_tree. cbn [height fold_right]. lia. }
  pose proof (decode_made _ _ _ _ D') as M. inversion M as [|? ? MO _]; subst.
  assert (M2 : made (reg_of Upto1905) v2).
  { inversion MO as [w tg c' G KC NS|l' F|tg c' kr ke bl r0 e i ps|? ? ? ?|o0 o1 g o3 o4 ps]; subst; try discriminate K.
    - exfalso. eapply NS; reflexivity.
    - inversion F as [|? ? _ F1]; subst. inversion F1 as [|? ? _ F2]; subst. inversion F2; assumption. }
  destruct (response_object _ _ _ _ _ M2 T2) as (c & kr & bl & ps & -> & C1 & C2 & DB).
  exists cv, v1, c, kr, bl, ps. split; [|split; [exact C1|split; [exact C2|split; [exact DB|]]]].
  - unfold message_decode, decode_data. rewrite D'. reflexivity.
  - cbn [touch_data]. eapply touch_decode; [exact D'|left; reflexivity|eapply inside_seq; [right; right; left; reflexivity|apply inside_self]|].
    unfold pdu2, isinstance. cbn [class_of]. exact C2.
Qed.

(** ** Executions of programs *)
Lemma psteps_app p t args tr1 : forall s tr2 s', psteps p t args s tr1 = Some s' -> psteps p t args s (tr1 ++ tr2) = psteps p t args s' tr2.
Proof. induction tr1 as [|o tr1 IH]; intros s tr2 s' H; cbn in *; [congruence|]. destruct (pstep p t args s o); [|discriminate]. apply IH, H. Qed.
Lemma outsides_app a b : outsides (a ++ b) = outsides a ++ outsides b.
Proof. apply flat_map_app. Qed.
Lemma goes_trans p t args s1 e1 s2 e2 s3 : goes p t args s1 e1 s2 -> goes p t args s2 e2 s3 -> goes p t args s1 (e1 ++ e2) s3.
Proof.
  intros (t1 & O1 & P1 & _) (t2 & O2 & P2 & S). exists (t1 ++ t2). split; [rewrite outsides_app; congruence|]. split; [|exact S].
  rewrite (psteps_app _ _ _ _ _ _ _ P1). exact P2.
Qed.
Lemma goes_reachable p t args s ev s' : reachable p t args s -> goes p t args s ev s' -> reachable p t args s'.
Proof.
  intros (b & tr & H) (tr2 & _ & H2 & _). exists b, (tr ++ tr2). unfold prun in *. rewrite (psteps_app _ _ _ _ _ _ _ H). exact H2.
Qed.
(** Own steps leave no choice, and outside events happen only where the process has settled. *)
Lemma pstep_own p t args s o s' k : doing_of s = Own k -> pstep p t args s o = Some s' -> o = None.
Proof. destruct s as [st tab d out]. cbn. intros ->. destruct o as [x|]; [|reflexivity]. destruct k; discriminate. Qed.
Lemma pstep_settled p t args s s' : settled s -> pstep p t args s None = Some s' -> False.
Proof. destruct s as [st tab d out]. unfold settled. cbn. destruct d; [contradiction|discriminate|discriminate]. Qed.
Lemma goes_deterministic p t args ev : forall s s1 s2, goes p t args s ev s1 -> goes p t args s ev s2 -> s1 = s2.
Proof.
  intros s s1 s2 (t1 & O1 & P1 & S1) (t2 & O2 & P2 & S2). rewrite <- O2 in O1. clear O2. revert s t2 O1 P1 P2.
  induction t1 as [|o1 t1 IH]; intros s t2 O P1 P2; cbn in P1.
  - injection P1 as ->. destruct t2 as [|[x|] t2]; [cbn in P2; congruence|unfold outsides in O; cbn in O; discriminate O|].
    cbn in P2. destruct (pstep p t args s1 None) eqn:E; [|discriminate]. exfalso. match goal with E : pstep _ _ _ _ None = Some _ |- _ => eapply pstep_settled; [|exact E]; assumption end.
  - destruct (pstep p t args s o1) as [s'|] eqn:E1; [|discriminate].
    destruct t2 as [|o2 t2].
    + cbn in P2. injection P2 as ->. destruct o1 as [x|]; [unfold outsides in O; cbn in O; discriminate O|]. exfalso. match goal with E : pstep _ _ _ _ None = Some _ |- _ => eapply pstep_settled; [|exact E]; assumption end.
    + cbn in P2. destruct (pstep p t args s o2) as [s''|] eqn:E2; [|discriminate].
      assert (o1 = o2) as ->.
      { destruct (doing_of s) as [k| |e] eqn:D.
        - rewrite (pstep_own _ _ _ _ _ _ _ D E1), (pstep_own _ _ _ _ _ _ _ D E2). reflexivity.
        - assert (settled s) by (unfold settled; rewrite D; exact Logic.I).
          destruct o1 as [x|], o2 as [y|]; try reflexivity; try (exfalso; match goal with E : pstep _ _ _ _ None = Some _ |- _ => eapply pstep_settled; [|exact E]; assumption end). unfold outsides in O; cbn in O. congruence.
        - assert (settled s) by (unfold settled; rewrite D; exact Logic.I).
          destruct o1 as [x|], o2 as [y|]; try reflexivity; try (exfalso; match goal with E : pstep _ _ _ _ None = Some _ |- _ => eapply pstep_settled; [|exact E]; assumption end). unfold outsides in O; cbn in O. congruence. }
      rewrite E1 in E2. injection E2 as ->. apply (IH s'' t2); auto. destruct o2; unfold outsides in *; cbn in O; congruence.
Qed.
(** Every process is an execution of its manager. *)
Lemma pstep_exec p t args s o s' : pstep p t args s o = Some s' -> st_of s' = st_of s \/ exists l, step (system_of p t) (st_of s) l = Some (st_of s').
Proof.
  destruct s as [st tab d out]. unfold pstep. cbn [st_of]. destruct d as [[l k|a k|r]| |e], o as [[i|r0]|]; try discriminate.
  - intros H; injection H as <-. auto.
  - destruct (step _ st (LCall a)) as [st'|] eqn:E; [|discriminate]. intros H; injection H as <-. right. exists (LCall a). exact E.
  - destruct (stack st) as [|f stk] eqn:K.
    + destruct r as [[]|e]; [|intros H; injection H as <-; auto].
      destruct (step _ st LRun) as [st'|] eqn:E; [|discriminate]. intros H; injection H as <-. right. exists LRun. exact E.
    + destruct (step _ st _) as [st'|] eqn:E; [|discriminate]. intros H; injection H as <-. right. eexists. exact E.
  - destruct (stack st) as [|[| | | |[|]] stk]; try discriminate.
    destruct (step _ st (LPoll i)) as [st'|] eqn:E; [|discriminate]. intros H; injection H as <-. right. exists (LPoll i). exact E.
  - destruct (step _ st (LSend r0)) as [st'|] eqn:E; [|discriminate]. intros H; injection H as <-. right. exists (LSend r0). exact E.
Qed.
Lemma psteps_exec p t args tr : forall s s' tr0, exec (system_of p t) tr0 = Some (st_of s) -> psteps p t args s tr = Some s' ->
  exists tr', exec (system_of p t) tr' = Some (st_of s').
Proof.
  induction tr as [|o tr IH]; intros s s' tr0 E H; cbn in H; [injection H as <-; eauto|].
  destruct (pstep p t args s o) as [s1|] eqn:P; [|discriminate]. apply pstep_exec in P as [P|(l & P)].
  - apply (IH s1 s' tr0); [congruence|assumption].
  - apply (IH s1 s' (tr0 ++ [l])); [|assumption]. unfold exec in *. rewrite (ProofsRun.steps_app _ _ _ _ _ E). cbn. rewrite P. reflexivity.
Qed.
Lemma reachable_exec p t args s : reachable p t args s -> exists tr, exec (system_of p t) tr = Some (st_of s).
Proof. intros (b & tr & H). eapply (psteps_exec _ _ _ _ _ _ []); [|exact H]. destruct (p_interface p), b; reflexivity. Qed.
(** The table of error texts is one of two. *)
Lemma extend_once : extend (extend errString0) = extend errString0.
Proof. vm_compute. reflexivity. Qed.
Lemma pstep_table p t args s o s' : pstep p t args s o = Some s' -> tab_of s' = tab_of s \/ tab_of s' = extend (tab_of s).
Proof.
  destruct s as [st tab d out]. unfold pstep. cbn [st_of tab_of]. destruct d as [[l k|a k|r]| |e], o as [[i|r0]|]; try discriminate.
  - intros H; injection H as <-. auto.
  - destruct (step _ st (LCall a)) as [st'|] eqn:E; [|discriminate]. intros H; injection H as <-. cbn. destruct (call_extends _ _ _); auto.
  - destruct (stack st) as [|f stk] eqn:K.
    + destruct r as [[]|e]; [|intros H; injection H as <-; auto].
      destruct (step _ st LRun) as [st'|] eqn:E; [|discriminate]. intros H; injection H as <-. auto.
    + destruct (step _ st _) as [st'|] eqn:E; [|discriminate]. intros H; injection H as <-. auto.
  - destruct (stack st) as [|[| | | |[|]] stk]; try discriminate.
    destruct (step _ st (LPoll i)) as [st'|] eqn:E; [|discriminate]. intros H; injection H as <-. cbn [resume tab_of]. unfold touches.
    destruct i; auto. destruct (touch_data _ _ _); auto.
  - destruct (step _ st (LSend r0)) as [st'|] eqn:E; [|discriminate]. intros H; injection H as <-. auto.
Qed.
Definition tables (tab : table) : Prop := tab = errString0 \/ tab = extend errString0.
Lemma psteps_table p t args tr : forall s s', tables (tab_of s) -> psteps p t args s tr = Some s' -> tables (tab_of s').
Proof.
  induction tr as [|o tr IH]; intros s s' E H; cbn in H; [injection H as <-; assumption|].
  destruct (pstep p t args s o) as [s1|] eqn:P; [|discriminate]. apply (IH s1 s'); [|assumption]. apply pstep_table in P as [-> | ->]; [assumption|].
  right. destruct E as [-> | ->]; [reflexivity|apply extend_once].
Qed.
Lemma reachable_extend p t args s : reachable p t args s -> extend (tab_of s) = extend errString0.
Proof.
  intros (b & tr & H). assert (tables (tab_of s)) as [-> | ->]; [|reflexivity|apply extend_once].
  eapply psteps_table; [|exact H]. left. destruct (p_interface p), b; reflexivity.
Qed.

(** ** The programs that send requests *)
Definition tool (p : program) (twice hex : bool) (next : list str -> val -> val -> script) : Prop :=
  p_flavour p = FSM /\ p_interface p = Tuple /\ p_queueEmpty p = true /\ p_trapCallback p = false /\ p_done p = exit0 /\
  forall args tab msg, p_response p args tab msg = checkResponse tab twice hex msg (next args).
Lemma tool_get : tool snmpget_py true true (fun _ => stop).
Proof. repeat split. Qed.
Lemma tool_set : tool snmpset_py true false (fun _ => stop).
Proof. repeat split. Qed.
Lemma tool_walk : tool snmpwalk_py false true walk_next.
Proof. repeat split. Qed.

Lemma say_runs p t args st tab k ls : forall out, psteps p t args (mkP st tab (Own (say_all ls k)) out) (repeat None (length ls)) = Some (mkP st tab (Own k) (out ++ ls)).
Proof.
  induction ls as [|l ls IH]; intros out; cbn [length repeat say_all psteps]; [rewrite app_nil_r; reflexivity|].
  change (pstep p t args (mkP st tab (Own (Say l (say_all ls k))) out) None) with (Some (mkP st tab (Own (say_all ls k)) (out ++ [l]))). cbv iota.
  rewrite IH, <- app_assoc. reflexivity.
Qed.
Lemma outsides_none n : outsides (repeat None n) = [].
Proof. induction n; [reflexivity|exact IHn]. Qed.
Lemma str_eqb_spec a b : str_eqb a b = true <-> a = b.
Proof. unfold str_eqb. destruct (list_eq_dec Z.eq_dec a b); split; congruence. Qed.
Lemma print_binding tab twice hex bl ps n v rest sv k : decoded_bindings Upto1905 ps ((n, v) :: rest) -> shown v = Some sv ->
  exists w ps', ps = (VOid (Some n), w) :: ps' /\ tree_of w = Some v /\ made (reg_of Upto1905) w /\ class_name w = type_name v /\
    unwrapVarBinds tab twice hex (VSeq bl (map (vb_pair CVarBind) ps)) k = say_all (binding_lines twice hex n v sv) (k w).
Proof.
  intros D S. inversion D as [|[a w] b ps' bs (A & T & M) D']; subst. cbn [fst snd] in *. subst a. exists w, ps'.
  destruct (leaf_shown w v sv tab M T S) as (P & C & O). split; [reflexivity|]. split; [exact T|]. split; [exact M|]. split; [exact C|].
  unfold unwrapVarBinds.
  change (py_getitem (VSeq bl (map (vb_pair CVarBind) ((VOid (Some n), w) :: ps'))) 0) with (Ok (VSeq CVarBind [VOid (Some n); w])).
  cbn [bind].
  change (objectID (VSeq CVarBind [VOid (Some n); w])) with (Ok (VOid (Some n))). change (objectValue (VSeq CVarBind [VOid (Some n); w])) with (Ok w).
  cbn [bind eval fst snd]. change (py_str tab (VOid (Some n))) with (@Ok str (46 :: py_join 46 (map py_str_of_int n))). cbn [bind].
  rewrite P. cbn [bind eval fst snd]. unfold binding_lines. cbn [say_all]. rewrite C. f_equal.
  destruct hex; cbn [andb].
  - destruct v as [kd z|[] o|l|kd|kd l]; cbn [say_all] in *; try (destruct (str_eqb _ _) eqn:E; [apply str_eqb_spec in E; rewrite <- C in E; contradiction|reflexivity]).
    rewrite O. cbn [type_name eval]. rewrite (proj2 (str_eqb_spec _ _) eq_refl). reflexivity.
  - destruct v as [kd z|[] o|l|kd|kd l]; reflexivity.
Qed.
Lemma awaiting_state s id : awaiting s id -> exists cbs lg tab out, s = mkP (mkState (mkMgr (id + 1) [] cbs) [FRun Polling] lg) tab Running out /\
  (forall x cb, dict_get cbs x = Some cb <-> x = id /\ cb = Cb 0).
Proof.
  intros (D & K & O & N & P). destruct s as [[[nx ob cbs] stk lg] tab d out]. cbn in *. subst. exists cbs, lg, tab, out. split; [reflexivity|exact P].
Qed.
Lemma answer_step p twice hex next args s id r : tool p twice hex next -> awaiting s id -> answers id r ->
  exists cv v1 c kr bl ps,
    let msg := mkMsg CMessage_v2 (VInt cv (r_version r)) v1 
         (VSeq c [VInt kr id; VInt CErrorStatus_v2 (r_status r); VInt CInteger (r_index r); VSeq bl (map (vb_pair CVarBind) ps)]) [] in
    issubclass c CPDU = true /\ decoded_bindings Upto1905 ps (r_bindings r) /\
    pstep p Text args s (Some (datagram r)) =
      Some (mkP (mkState (man (st_of s)) [FResp id; FRead; FRun Polling] (log (st_of s) ++ [EInvoke id 0 msg])) (extend (tab_of s))
                (Own (checkResponse (extend (tab_of s)) twice hex msg (next args))) (printed s)).
Proof.
  intros (F & _ & Q & TC & _ & R) A An. destruct (response_off_wire _ _ An) as (cv & v1 & c & kr & bl & ps & D & C1 & C2 & DB & TO).
  destruct An as (_ & _ & _ & V). destruct (awaiting_state _ _ A) as (cbs & lg & tab & out & -> & P).
  exists cv, v1, c, kr, bl, ps. cbv zeta. split; [exact C1|]. split; [exact DB|].
  unfold pstep, datagram. cbn [step poll_called]. unfold receive_called, receiveData, system_of. cbn [flav imports trans received]. rewrite F. cbn [message_class]. rewrite D.
  set (msg := mkMsg _ _ _ _ _).
  assert (DI : dispatch (mkSys FSM Upto1905 (if p_queueEmpty p then Some (Cb 1) else None) (if p_trapCallback p then Some (Cb 2) else None) Text) (mkMgr (id + 1) [] cbs) msg = InvokeResponse id 0).
  { assert (RA : response_action (mkMgr (id + 1) [] cbs) (m_data msg) = InvokeResponse id 0).
    { unfold response_action. cbn [msg m_data requestID_of py_int callbacks]. rewrite (proj2 (P id (Cb 0))) by auto. reflexivity. }
    unfold dispatch. cbn [msg m_version m_data py_eq flav isinstance class_of]. rewrite C1, C2. destruct V as [-> | ->]; exact RA. }
  rewrite DI. unfold touches. cbn [system_of imports received]. rewrite TO. unfold resume. cbn [stack log st_of man tab_of printed]. rewrite rev_app_distr. cbn [rev app]. rewrite R. reflexivity.
Qed.
(** The callback returns; or ends the program. *)
Lemma return_step p args id m lg tab out cb : p_flavour p = FSM -> dict_get (callbacks m) id = Some cb ->
  pstep p Text args (mkP (mkState m [FResp id; FRead; FRun Polling] lg) tab (Own (Stop (Ok tt))) out) None =
  Some (mkP (mkState (mkMgr (nextRequestID m) (outbound m) (dict_del (callbacks m) id)) [FRun Sending] (lg ++ [EFinished id (Ok tt)])) tab Running out).
Proof.
  intros F G. unfold pstep. cbn [stack step after_response system_of flav]. rewrite F, G. cbn [receive_returns asyncore_read poll_returns].
  reflexivity.
Qed.
Lemma raise_step p args id m lg tab out e : p_flavour p = FSM -> e <> QueueEmpty ->
  pstep p Text args (mkP (mkState m [FResp id; FRead; FRun Polling] lg) tab (Own (Stop (Err e))) out) None =
  Some (mkP (mkState m [] (lg ++ [EFinished id (Err e)] ++ [EResult (Err e)])) tab (Over e) out).
Proof.
  intros F N. unfold pstep. cbn [stack step after_response system_of flav]. rewrite F. cbn [guard receive_returns]. 
  assert (A : asyncore_read (Err e) = Err e) by (destruct e; reflexivity). rewrite A. cbn [poll_returns flav].
  replace (match e with QueueEmpty => _ | _ => run_raises m e [] (lg ++ [EFinished id (Err e)]) end) with (run_raises m e [] (lg ++ [EFinished id (Err e)])) by (destruct e; congruence || reflexivity).
  unfold resume, run_raises. cbn [stack log]. rewrite rev_app_distr. cbn [rev app]. rewrite <- app_assoc. reflexivity.
Qed.
(** The queue is found empty: the program ends. *)
Lemma empty_exit p twice hex next args x m lg tab out : tool p twice hex next -> outbound m = [] ->
  goes p Text args (mkP (mkState m [FRun Sending] lg) tab Running out) [Answers x]
     (mkP (mkState m [] (lg ++ [EInvokeEmpty 1; EResult (Err SystemExit)])) tab (Over SystemExit) out).
Proof.
  intros (F & _ & Q & TC & De & R) O. exists [Some (Answers x); None]. split; [reflexivity|]. split; [|exact Logic.I].
  cbn [psteps]. unfold pstep at 1. cbn [step]. unfold send_called, loop_empty, system_of. cbn [queueEmpty flav]. rewrite O, Q.
  unfold resume at 1. cbn [stack]. rewrite De. unfold exit0, pstep. cbn [stack step]. unfold run_raises, resume. cbn [stack log].
  rewrite rev_app_distr. cbn [rev app]. rewrite <- app_assoc. reflexivity.
Qed.
(** The one queued message is sent. *)
Lemma send_step p args m lg tab out msg dst os : p_flavour p = FSM -> outbound m = [(Some msg, dst)] -> snd (message_encode msg) = Ok os ->
  pstep p Text args (mkP (mkState m [FRun Sending] lg) tab Running out) (Some (Answers (Ok tt))) =
  Some (mkP (mkState (mkMgr (nextRequestID m) [] (callbacks m)) [FRun Polling] (lg ++ [ETake (Some msg) dst; ESend os dst (Ok tt)])) tab Running out).
Proof.
  intros F O E. unfold pstep. cbn [step]. unfold send_called, system_of. cbn [trans flav sendto]. rewrite O, E, F.
  unfold resume. cbn [stack log]. rewrite <- app_assoc. reflexivity.
Qed.
(** A request call. *)
Lemma ask_step p t args m stk lg tab out a k id dst cb tr : p_flavour p = FSM -> user_runs stk = true ->
  (forall m' r, do_call FSM a m = (m', r) -> queued m m' r id dst cb tr) ->
  exists m' kr msg os tab', pstep p t args (mkP (mkState m stk lg) tab (Own (Ask a k)) out) None =
    Some (mkP (mkState m' stk (lg ++ [ECall a (Ok (RVal (VInt kr id))); EPut (Some msg) dst])) tab' (Own k) out) /\
    nextRequestID m' = id + 1 /\ outbound m' = outbound m ++ [(Some msg, dst)] /\
    (forall x, dict_get (callbacks m') x = if x =? id then Some cb else dict_get (callbacks m) x) /\
    snd (message_encode msg) = Ok os /\ written tr os.
Proof.
  intros F U Q. destruct (do_call FSM a m) as [m' r] eqn:D. destruct (Q _ _ eq_refl) as (kr & msg & os & -> & N & O & C & E & W).
  exists m', kr, msg, os. eexists. split; [|auto]. unfold pstep. cbn [step system_of flav]. rewrite F. cbn [man]. rewrite U, D, O. cbn [snd].
  rewrite skipn_app, Nat.sub_diag, skipn_all. cbn [skipn app map fst snd]. reflexivity.
Qed.
Lemma first_request p twice hex next args a dst tr : tool p twice hex next -> p_main p args = Ask a (Stop (Ok tt)) ->
  (forall m' r, do_call FSM a mgr0 = (m', r) -> queued mgr0 m' r 0 dst (Cb 0) tr) ->
  exists s os, runs p Text (Ok tt) args [Finds Nothing; Answers (Ok tt)] s /\ awaiting s 0 /\ printed s = [] /\ sent s = [(os, dst)] /\ written tr os.
Proof.
  intros To M Q. pose proof To as (F & Tu & _). unfold runs, start. rewrite Tu, M.
  destruct (ask_step p Text args mgr0 [] [] errString0 [] a (Stop (Ok tt)) 0 dst (Cb 0) tr F eq_refl Q) as (m' & kr & msg & os & tab' & S1 & N & O & C & E & W).
  cbn [app] in O.
  pose proof (send_step p args m' [ECall a (Ok (RVal (VInt kr 0))); EPut (Some msg) dst] tab' [] msg dst os F O E) as S2.
  eexists. exists os. split; [|split; [|split; [|split; [|exact W]]]].
  - exists [None; None; Some (Finds Nothing); Some (Answers (Ok tt))]. split; [reflexivity|]. split.
    + cbn [psteps]. unfold init. rewrite S1. 
      assert (L : pstep p Text args (mkP (mkState m' [] [ECall a (Ok (RVal (VInt kr 0))); EPut (Some msg) dst]) tab' (Own (Stop (Ok tt))) []) None =
                  Some (mkP (mkState m' [FRun Polling] [ECall a (Ok (RVal (VInt kr 0))); EPut (Some msg) dst]) tab' Running [])).
      { unfold pstep. cbn [stack step user_runs system_of flav]. rewrite F. reflexivity. }
      cbn [app]. rewrite L. 
      assert (L2 : pstep p Text args (mkP (mkState m' [FRun Polling] [ECall a (Ok (RVal (VInt kr 0))); EPut (Some msg) dst]) tab' Running []) (Some (Finds Nothing)) =
                   Some (mkP (mkState m' [FRun Sending] [ECall a (Ok (RVal (VInt kr 0))); EPut (Some msg) dst]) tab' Running [])) by reflexivity.
      rewrite L2, S2. reflexivity.
    + exact Logic.I.
  - unfold awaiting. cbn [doing_of st_of stack man outbound nextRequestID callbacks]. repeat split; auto.
    + unfold pending in H. cbn [callbacks] in H. rewrite C in H. destruct (Z.eqb_spec x 0); [assumption|discriminate H].
    + unfold pending in H. cbn [callbacks] in H. rewrite C in H. destruct (Z.eqb_spec x 0); [congruence|discriminate H].
    + intros [-> ->]. unfold pending. cbn [callbacks]. rewrite C. reflexivity.
  - reflexivity.
  - unfold sent. cbn. reflexivity.
Qed.
(** An answer without error. *)
Lemma good_answer p twice hex next args s id r n v rest sv : tool p twice hex next -> awaiting s id -> answers id r ->
  r_status r = 0 -> r_bindings r = (n, v) :: rest -> shown v = Some sv ->
  exists lg w bl ps tr, decoded_bindings Upto1905 ((VOid (Some n), w) :: ps) (r_bindings r) /\ class_name w = type_name v /\ outsides tr = [datagram r] /\
    sends lg = sent s /\
    psteps p Text args s tr = Some (mkP (mkState (man (st_of s)) [FResp id; FRead; FRun Polling] lg) (extend (tab_of s))
      (Own (next args (VSeq bl (map (vb_pair CVarBind) ((VOid (Some n), w) :: ps))) w)) (printed s ++ binding_lines twice hex n v sv)).
Proof.
  intros To A An S B Sh. destruct (answer_step p twice hex next args s id r To A An) as (cv & v1 & c & kr & bl & ps & C & D & P). cbv zeta in P.
  pose proof D as D2. rewrite B in D.
  destruct (print_binding (extend (tab_of s)) twice hex bl ps n v rest sv (next args (VSeq bl (map (vb_pair CVarBind) ps))) D Sh) as (w & ps' & -> & T & M & CN & U).
  exists (log (st_of s) ++ [EInvoke id 0 (mkMsg CMessage_v2 (VInt cv (r_version r)) v1 
         (VSeq c [VInt kr id; VInt CErrorStatus_v2 (r_status r); VInt CInteger (r_index r); VSeq bl (map (vb_pair CVarBind) ((VOid (Some n), w) :: ps'))]) [])]).
  exists w, bl, ps', (Some (datagram r) :: repeat None (length (binding_lines twice hex n v sv))).
  split; [exact D2|]. split; [exact CN|]. split; [|split].
  - unfold outsides. cbn [flat_map app]. fold (outsides (repeat None (length (binding_lines twice hex n v sv)))). rewrite outsides_none. reflexivity.
  - unfold sent, sends. rewrite flat_map_app. cbn [flat_map app]. rewrite app_nil_r. reflexivity.
  - cbn [psteps]. rewrite P. unfold checkResponse, errorStatus, pdu_attr. cbn [m_data]. rewrite C. cbn [nth_error bind py_int eval snd]. rewrite S.
    change (0 =? 0) with true. cbv iota. unfold varBindList, pdu_attr. rewrite C. cbn [nth_error eval]. rewrite U. apply say_runs.
Qed.
Lemma pending_only m id x cb : (forall y c, dict_get (callbacks m) y = Some c <-> y = id /\ c = Cb 0) -> dict_get (callbacks m) x = cb -> x <> id -> cb = None.
Proof. intros H E N. destruct cb as [c|]; [|reflexivity]. exfalso. apply N. apply (H x c). exact E. Qed.

(** snmpget.py and snmpset.py: one answer, and the end. *)
Lemma stop_answer p twice hex args s id r n v rest sv x : tool p twice hex (fun _ => stop) -> reachable p Text args s -> awaiting s id -> answers id r ->
  r_status r = 0 -> r_bindings r = (n, v) :: rest -> shown v = Some sv ->
  exists s', goes p Text args s [datagram r; Answers x] s' /\ doing_of s' = Over SystemExit /\ printed s' = printed s ++ binding_lines twice hex n v sv /\ sent s' = sent s.
Proof.
  intros To Re A An S B Sh. destruct (good_answer p twice hex _ args s id r n v rest sv To A An S B Sh) as (lg & w & bl & ps & tr & D & CN & O & L & P).
  pose proof To as (F & _). destruct (awaiting_state _ _ A) as (cbs & lg0 & tab & out & -> & Pe). cbn [st_of man tab_of printed] in *.
  assert (R : goes p Text args (mkP (mkState (mkMgr (id + 1) [] cbs) [FRun Polling] lg0) tab Running out) [datagram r]
     (mkP (mkState (mkMgr (id + 1) [] (dict_del cbs id)) [FRun Sending] (lg ++ [EFinished id (Ok tt)])) (extend tab) Running (out ++ binding_lines twice hex n v sv))).
  { exists (tr ++ [None]). split; [rewrite outsides_app, O; reflexivity|]. split; [|exact Logic.I]. rewrite (psteps_app _ _ _ _ _ _ _ P). cbn [psteps]. unfold stop.
    rewrite (return_step p args id (mkMgr (id + 1) [] cbs) lg (extend tab) _ (Cb 0) F); [reflexivity|]. cbn [callbacks]. apply Pe. auto. }
  eexists. split; [|split; [|split]].
  - change [datagram r; Answers x] with ([datagram r] ++ [Answers x]). eapply goes_trans; [exact R|]. apply (empty_exit p twice hex _ args x _ _ _ _ To). reflexivity.
  - reflexivity.
  - reflexivity.
  - unfold sent in *. cbn [st_of log] in *. unfold sends in *. rewrite !flat_map_app, L. cbn. rewrite !app_nil_r. reflexivity.
Qed.
(** snmpwalk.py: the next request. *)
Lemma leaf_classes v t : made (reg_of Upto1905) v -> tree_of v = Some t -> shown t <> None -> wf Upto1905 t -> classes_ok v = true.
Proof.
  intros M T S W. inversion M as [w tg c' G KC NS|l' F|tg c' kr ke bl r e i ps G DM Hr He Hb V X Y|r a b c'|o0 o1 g o3 o4 ps]; subst.
  2-5: exfalso; apply tree_of_seq in T || idtac; cbn in T;
    repeat match type of T with
    | match ?x with _ => _ end = _ => destruct x; try discriminate T
    | (if ?x then _ else _) = _ => destruct x; try discriminate T
    end; try discriminate T; injection T as <-; apply S; reflexivity.
  apply reg1905_leaf in G. cbn in G.
  destruct v as [| | | |c z|c w|[l|]|c|c l]; cbn [class_of] in KC; try discriminate KC; try reflexivity; try discriminate T.
  - injection KC as ->.
    repeat match type of G with _ \/ _ => destruct G as [<-|G] end; [..|destruct G]; cbn in T; try discriminate T; try reflexivity; injection T as <-; destruct W.
  - injection KC as ->. destruct w as [| |o| | | | | |]; try discriminate T.
    repeat match type of G with _ \/ _ => destruct G as [<-|G] end; [..|destruct G]; cbn in T; try discriminate T; try reflexivity; injection T as <-; destruct W; discriminate.
  - injection KC as ->.
    repeat match type of G with _ \/ _ => destruct G as [<-|G] end; [..|destruct G]; cbn in T; try discriminate T; try reflexivity; injection T as <-; discriminate W.
  - exfalso. eapply NS; reflexivity.
Qed.
Lemma resend_meaningful ps bs : decoded_bindings Upto1905 ps bs -> Forall (fun b => oid_survives (fst b) /\ wf Upto1905 (snd b) /\ shown (snd b) <> None) bs ->
  exists names, binding_list (VSeq CVarBindList (map (vb_pair CVarBind) ps)) names /\ (forall bl, binding_list (VSeq bl (map (vb_pair CVarBind) ps)) names) /\
    meaningful Upto1905 names bs /\ zlen names = zlen bs.
Proof.
  intros D F. exists (map (fun pb => (fst (snd pb), snd (fst pb))) (combine ps bs)).
  assert (E : map (vb_pair CVarBind) ps = map (fun b => VSeq CVarBind [VOid (Some (fst b)); snd b]) (map (fun pb : (val * val) * (list Z * tree) => (fst (snd pb), snd (fst pb))) (combine ps bs))).
  { clear F. induction D as [|[a w] b ps bs (A & _) D IH]; [reflexivity|]. cbn [combine map fst snd] in *. subst a. rewrite IH. reflexivity. }
  assert (Q : forall bl, binding_list (VSeq bl (map (vb_pair CVarBind) ps)) (map (fun pb : (val * val) * (list Z * tree) => (fst (snd pb), snd (fst pb))) (combine ps bs))).
  { intros bl. exists CVarBind. eexists. split; [left; reflexivity|]. split; [exact E|]. right. exists bl. reflexivity. }
  split; [apply Q|]. split; [exact Q|]. clear Q E. split.
  - unfold meaningful. induction D as [|[a w] b ps bs (A & T & M) D IH]; [constructor|]. inversion F as [|? ? (F1 & F2 & F3) F']; subst. cbn [combine map fst snd] in *.
    constructor; [|apply IH; assumption]. cbn [fst snd]. repeat split; auto. eapply leaf_classes; eassumption.
  - clear F. unfold zlen. rewrite map_length, combine_length, (Forall2_length _ _ _ D), Nat.min_id. reflexivity.
Qed.
Lemma reachable_nodup p t args s : reachable p t args s -> NoDup (map fst (callbacks (man (st_of s)))).
Proof. intros R. destruct (reachable_exec _ _ _ _ R) as (tr & E). apply (i_nodup _ (exec_inv _ _ _ E)). Qed.
Lemma reachable_steps p t args s tr s' : reachable p t args s -> psteps p t args s tr = Some s' -> reachable p t args s'.
Proof. intros (b & tr0 & H) H2. exists b, (tr0 ++ tr). unfold prun in *. rewrite (psteps_app _ _ _ _ _ _ _ H). exact H2. Qed.
Lemma awaiting_nonneg p t args s id : reachable p t args s -> awaiting s id -> 0 <= id.
Proof.
  intros R (_ & _ & _ & _ & P). destruct (reachable_exec _ _ _ _ R) as (tr & E). assert (X : pending (man (st_of s)) id (Cb 0)) by (apply P; auto).
  pose proof (pending_range _ id _ (exec_inv _ _ _ E) X). cbn in H. lia.
Qed.
Lemma walks_on v w : class_name w = type_name v -> goes_on v ->
  (str_eqb (class_name w) (text "NoSuchObject") || str_eqb (class_name w) (text "EndOfMibView"))%string%bool = false.
Proof.
  intros -> [G1 G2]. apply orb_false_iff.
  assert (H : forall s, type_name v <> s -> str_eqb (type_name v) s = false).
  { intros s N. destruct (str_eqb _ _) eqn:E; [|reflexivity]. apply str_eqb_spec in E. contradiction. }
  destruct v as [k z|k o|l|k|k l]; split; apply H; cbn [type_name]; try (destruct k; intros X; vm_compute in X; congruence || discriminate X);
  intros X; vm_compute in X; discriminate X.
Qed.
Lemma walk_answer server com more s id r n v rest sv : let args := server :: com :: more in
  reachable snmpwalk_py Text args s -> awaiting s id -> answers id r -> id + 1 < 2 ^ 31 ->
  r_status r = 0 -> r_bindings r = (n, v) :: rest -> shown v = Some sv -> goes_on v -> resendable (r_bindings r) ->
  exists s' d, goes snmpwalk_py Text args s [datagram r; Answers (Ok tt)] s' /\ awaiting s' (id + 1) /\ printed s' = printed s ++ binding_lines false true n v sv /\
    sent s' = sent s ++ [d] /\ is_request KGetNext com (server, 161) (id + 1) (r_bindings r) d.
Proof.
  intros args Re A An Hid S B Sh G (G3 & G4). pose proof (awaiting_nonneg _ _ _ _ _ Re A) as Pos.
  destruct (good_answer _ _ _ _ args s id r n v rest sv tool_walk A An S B Sh) as (lg & w & bl & ps & tr & D & CN & O & L & P).
  destruct (resend_meaningful _ _ D G3) as (names & _ & BL & ME & LE).
  pose proof (reachable_steps _ _ _ _ _ _ Re P) as Re1.
  destruct (awaiting_state _ _ A) as (cbs & lg0 & tab & out & -> & Pe). cbn [st_of man tab_of printed] in *.
  set (vbl := VSeq bl _) in *.
  assert (WN : walk_next args vbl w = Ask (AGetNext vbl (server, 161) cb_response (VPyStr com) 2) (Stop (Ok tt))) by (unfold walk_next; rewrite (walks_on v w CN G); reflexivity).
  rewrite WN in P, Re1. clear WN.
  destruct (ask_step snmpwalk_py Text args (mkMgr (id + 1) [] cbs) [FResp id; FRead; FRun Polling] lg (extend tab) (out ++ binding_lines false true n v sv)
     (AGetNext vbl (server, 161) cb_response (VPyStr com) 2) (Stop (Ok tt)) (id + 1) (server, 161) cb_response 
     (message_tree 1 com (request_tree KGetNext (id + 1) 0 0 (r_bindings r))) eq_refl eq_refl) as (m' & kr & msg & os & tab' & S1 & N & OB & C & E & W).
  { intros m' r0 DC.
    pose proof (getnext_on_wire FSM vbl (server, 161) cb_response com 2 names (r_bindings r) (mkMgr (id + 1) [] cbs) m' r0) as GW.
    cbn [nextRequestID asked_version] in GW. change (2 - 1) with 1 in GW. apply GW; [discriminate|auto|apply BL|exact ME|rewrite LE; exact G4|lia|exact DC]. }
  cbn [outbound app] in OB.
  assert (P2 : psteps snmpwalk_py Text args (mkP (mkState (mkMgr (id + 1) [] cbs) [FRun Polling] lg0) tab Running out) (tr ++ [None]) = 
     Some (mkP (mkState m' [FResp id; FRead; FRun Polling] (lg ++ [ECall (AGetNext vbl (server, 161) cb_response (VPyStr com) 2) (Ok (RVal (VInt kr (id + 1)))); EPut (Some msg) (server, 161)])) tab' (Own (Stop (Ok tt))) (out ++ binding_lines false true n v sv))).
  { rewrite (psteps_app _ _ _ _ _ _ _ P). cbn [psteps]. rewrite S1. reflexivity. }
  pose proof (reachable_nodup _ _ _ _ (reachable_steps _ _ _ _ _ _ Re P2)) as ND. cbn [st_of man] in ND.
  eexists. exists (os, (server, 161)). split; [|split; [|split; [|split]]].
  - exists ((tr ++ [None]) ++ [None; Some (Answers (Ok tt))]). split; [rewrite !outsides_app, O; reflexivity|]. split.
    + rewrite (psteps_app _ _ _ _ _ _ _ P2). cbn [psteps].
      rewrite (return_step snmpwalk_py args id m' _ tab' _ (Cb 0)); [|reflexivity|rewrite C; destruct (Z.eqb_spec id (id + 1)); [lia|]; apply Pe; auto].
      erewrite send_step; [reflexivity|reflexivity|exact OB|exact E].
    + exact Logic.I.
  - unfold awaiting. cbn [doing_of st_of stack man outbound nextRequestID callbacks].
    split; [reflexivity|]. split; [reflexivity|]. split; [reflexivity|]. split; [lia|]. intros x cb. unfold pending. cbn [callbacks].
    rewrite dict_get_del by exact ND. rewrite C. destruct (Z.eqb_spec id x) as [->|NE].
    + split; [discriminate|]. intros [X _]. lia.
    + destruct (Z.eqb_spec x (id + 1)) as [->|NE2].
      * split; [intros X; injection X as <-; auto|]. intros [_ ->]. reflexivity.
      * cbn [callbacks]. rewrite Pe. split; [intros [X _]; congruence|intros [X _]; congruence].
  - reflexivity.
  - unfold sent, sends in *. cbn [st_of log] in *. rewrite !flat_map_app, L. cbn. rewrite !app_nil_r. reflexivity.
  - split; [reflexivity|]. exact W.
Qed.
Lemma walk_stops server com more s id r n v rest sv : let args := server :: com :: more in
  awaiting s id -> answers id r -> r_status r = 0 -> r_bindings r = (n, v) :: rest -> shown v = Some sv -> ~ goes_on v ->
  exists s', goes snmpwalk_py Text args s [datagram r] s' /\ doing_of s' = Over SystemExit /\ printed s' = printed s ++ binding_lines false true n v sv /\ sent s' = sent s.
Proof.
  intros args A An S B Sh G.
  destruct (good_answer _ _ _ _ args s id r n v rest sv tool_walk A An S B Sh) as (lg & w & bl & ps & tr & D & CN & O & L & P).
  assert (WN : forall vbl, walk_next args vbl w = exit0).
  { intros vbl. unfold walk_next. rewrite CN. destruct v as [k z|k o|l|k|k l]; try (exfalso; apply G; split; discriminate).
    destruct k; try (exfalso; apply G; split; discriminate); reflexivity. }
  rewrite WN in P. eexists. split; [|split; [|split]].
  - exists (tr ++ [None]). split; [rewrite outsides_app, O; reflexivity|]. split; [rewrite (psteps_app _ _ _ _ _ _ _ P); cbn [psteps];
    unfold exit0; rewrite raise_step by (reflexivity || discriminate); reflexivity|exact Logic.I].
  - reflexivity.
  - reflexivity.
  - unfold sent, sends in *. cbn [st_of log] in *. rewrite flat_map_app, L. cbn. rewrite !app_nil_r. reflexivity.
Qed.
(** An answer that reports an error. *)
Lemma error_texts code : code <> 0 -> tbl_get (extend errString0) code = error_text code.
Proof. intros N. unfold error_text. destruct (Z.eqb_spec code 0); [contradiction|]. symmetry. apply code_texts. Qed.
Lemma error_answer p twice hex next args s id r t x : tool p twice hex next -> reachable p Text args s -> awaiting s id -> answers id r ->
  r_status r <> 0 -> error_text (r_status r) = Some t ->
  exists s', goes p Text args s [datagram r; Answers x] s' /\ doing_of s' = Over SystemExit /\ printed s' = printed s ++ [error_line (r_status r) t] /\ sent s' = sent s.
Proof.
  intros To Re A An S E. destruct (answer_step p twice hex next args s id r To A An) as (cv & v1 & c & kr & bl & ps & C & D & P). cbv zeta in P.
  pose proof (reachable_extend _ _ _ _ Re) as TB. rewrite TB in P. pose proof To as (F & _).
  set (msg := mkMsg _ _ _ _ _) in *.
  assert (K : checkResponse (extend errString0) twice hex msg (next args) = say_all [error_line (r_status r) t] (Stop (Ok tt))).
  { unfold checkResponse, errorStatus, pdu_attr. cbn [msg m_data]. rewrite C. cbn [nth_error bind py_int eval snd fst].
    destruct (Z.eqb_spec (r_status r) 0); [contradiction|]. cbn [py_str int_str]. rewrite error_texts, E by assumption. cbn [eval]. unfold error_line. reflexivity. }
  rewrite K in P. destruct (awaiting_state _ _ A) as (cbs & lg0 & tab & out & -> & Pe). cbn [st_of man tab_of printed log] in *.
  assert (R : goes p Text args (mkP (mkState (mkMgr (id + 1) [] cbs) [FRun Polling] lg0) tab Running out) [datagram r]
     (mkP (mkState (mkMgr (id + 1) [] (dict_del cbs id)) [FRun Sending] ((lg0 ++ [EInvoke id 0 msg]) ++ [EFinished id (Ok tt)])) (extend errString0) Running (out ++ [error_line (r_status r) t]))).
  { exists ([Some (datagram r); None] ++ [None]). split; [reflexivity|]. split; [|exact Logic.I].
    erewrite psteps_app; [|cbn [psteps]; rewrite P; apply (say_runs p Text args _ _ _ [error_line (r_status r) t])]. cbn [psteps].
    rewrite (return_step p args id (mkMgr (id + 1) [] cbs) _ _ _ (Cb 0) F); [reflexivity|]. cbn [callbacks]. apply Pe. auto. }
  eexists. split; [|split; [|split]].
  - change [datagram r; Answers x] with ([datagram r] ++ [Answers x]). eapply goes_trans; [exact R|]. apply (empty_exit p twice hex _ args x _ _ _ _ To). reflexivity.
  - reflexivity.
  - reflexivity.
  - unfold sent, sends. cbn [st_of log]. rewrite !flat_map_app. cbn. rewrite !app_nil_r. reflexivity.
Qed.
(** Answers the programs do not survive. *)
Lemma fatal_answer p twice hex next args s id r : tool p twice hex next -> reachable p Text args s -> awaiting s id -> answers id r ->
  forall e, (r_status r <> 0 /\ error_text (r_status r) = None /\ e = KeyError) \/ (r_status r = 0 /\ r_bindings r = [] /\ e = IndexError) ->
  exists s', goes p Text args s [datagram r] s' /\ doing_of s' = Over e /\ printed s' = printed s /\ sent s' = sent s.
Proof.
  intros To Re A An e H. destruct (answer_step p twice hex next args s id r To A An) as (cv & v1 & c & kr & bl & ps & C & D & P). cbv zeta in P.
  pose proof (reachable_extend _ _ _ _ Re) as TB. rewrite TB in P. pose proof To as (F & _).
  set (msg := mkMsg _ _ _ _ _) in *.
  assert (K : checkResponse (extend errString0) twice hex msg (next args) = Stop (Err e)).
  { unfold checkResponse, errorStatus, pdu_attr. cbn [msg m_data]. rewrite C. cbn [nth_error bind py_int eval snd fst].
    destruct H as [(N & E & ->)|(Z0 & B & ->)].
    - destruct (Z.eqb_spec (r_status r) 0); [contradiction|]. cbn [py_str int_str]. rewrite error_texts, E by assumption. reflexivity.
    - rewrite Z0. change (0 =? 0) with true. cbv iota. unfold varBindList, pdu_attr. rewrite C. cbn [nth_error eval]. rewrite B in D. inversion D; subst. reflexivity. }
  assert (NQ : e <> QueueEmpty) by (destruct H as [(_ & _ & ->)|(_ & _ & ->)]; discriminate).
  rewrite K in P. eexists. split; [|split; [|split]].
  - exists [Some (datagram r); None]. split; [reflexivity|]. split; [cbn [psteps]; rewrite P, raise_step by assumption; reflexivity|exact Logic.I].
  - reflexivity.
  - reflexivity.
  - unfold sent, sends. cbn [st_of log]. rewrite !flat_map_app. cbn. rewrite !app_nil_r. reflexivity.
Qed.
(** Nothing comes. *)
Lemma silence p twice hex next args s id x : tool p twice hex next -> awaiting s id ->
  exists s', goes p Text args s [Finds Nothing; Answers x] s' /\ doing_of s' = Over SystemExit /\ printed s' = printed s /\ sent s' = sent s.
Proof.
  intros To A. pose proof To as (F & _). destruct (awaiting_state _ _ A) as (cbs & lg0 & tab & out & -> & Pe).
  eexists. split; [|split; [|split]].
  - change [Finds Nothing; Answers x] with ([Finds Nothing] ++ [Answers x]). eapply goes_trans; [|apply (empty_exit p twice hex _ args x (mkMgr (id + 1) [] cbs) lg0 tab out To); reflexivity].
    exists [Some (Finds Nothing)]. split; [reflexivity|]. split; [|exact Logic.I].
    cbn [psteps]. unfold pstep. cbn [step poll_called stack]. reflexivity.
  - reflexivity.
  - reflexivity.
  - unfold sent, sends. cbn [st_of log]. rewrite !flat_map_app. cbn. rewrite !app_nil_r. reflexivity.
Qed.
(** Something else comes. *)
Lemma refused p twice hex next args s id depth octets src : tool p twice hex next -> awaiting s id ->
  forall e om, receiveData (system_of p Text) (man (st_of s)) depth (DStr octets) = (Done (Err e), om) -> e <> QueueEmpty ->
  exists s', goes p Text args s [Finds (Datagram depth octets src)] s' /\ doing_of s' = Over e /\ printed s' = printed s /\ sent s' = sent s.
Proof.
  intros To A e om R N. pose proof To as (F & _). destruct (awaiting_state _ _ A) as (cbs & lg0 & tab & out & -> & Pe). cbn [st_of man] in R.
  assert (AR : asyncore_read (Err e) = Err e) by (destruct e; reflexivity).
  eexists. split; [|split; [|split]].
  - exists [Some (Finds (Datagram depth octets src))]. split; [reflexivity|]. split; [|]. 
    + assert (PR : poll_returns (system_of p Text) (mkMgr (id + 1) [] cbs) (Err e) [FRun Polling] lg0 = run_raises (mkMgr (id + 1) [] cbs) e [] lg0)
        by (cbn [poll_returns system_of flav]; rewrite F; destruct e; congruence || reflexivity).
      cbn [psteps]. unfold pstep. cbn [step poll_called stack]. unfold receive_called. change (received (trans (system_of p Text)) octets) with (DStr octets). rewrite R. cbn [receive_returns]. rewrite AR, PR.
      unfold run_raises, resume. cbn [stack log]. rewrite rev_app_distr. cbn [rev app]. reflexivity.
    + exact Logic.I.
  - reflexivity.
  - reflexivity.
  - unfold sent, sends. cbn [st_of log]. rewrite !flat_map_app. cbn. rewrite !app_nil_r. reflexivity.
Qed.
