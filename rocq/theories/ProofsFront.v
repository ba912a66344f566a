(** * Making traps, typeSetter, snmpset.py, enterpriseOID. *)
From Coq Require Import Ascii String ZArith List Bool Lia ZifyBool.
From Verif Require Import PyBase Classes Values Codec Manager Text Frontend SpecBER SpecSMI SpecTree SpecWire SpecMsg SpecManager SpecNumber SpecFront
  ProofsText ProofsNumber ProofsTree ProofsMsg ProofsManager ProofsCalls.
Import ListNotations.
Open Scope Z_scope.
Local Open Scope list_scope.

Lemma truthy_falsy v : truthy v = true <-> ~ falsy v.
Proof. rewrite <- ProofsMsg.truthy_falsy. destruct (truthy v); split; congruence. Qed.
Lemma integer_init_ok c v w : integer_init c v = Ok w <-> exists z, v = VPyInt z /\ MINVAL c <= z <= MAXVAL c /\ w = VInt c z.
Proof.
  unfold integer_init. destruct v; try (split; [discriminate|intros (? & X & _); discriminate X]).
  destruct (_ && _) eqn:E.
  - split; [intros H; injection H as <-; exists z; repeat split; lia|]. intros (y & Y & _ & ->). injection Y as ->. reflexivity.
  - split; [discriminate|]. intros (y & Y & R & _). injection Y as ->. lia.
Qed.
Lemma bind_ok {A B} (x : res A) (k : A -> res B) b : bind x k = Ok b <-> exists a, x = Ok a /\ k a = Ok b.
Proof. destruct x; cbn; split; [eauto|intros (a' & X & H); injection X as ->; exact H|discriminate|intros (a' & X & _); discriminate X]. Qed.
Definition trap_of (vbl e a : val) (g s up : Z) : val :=
  VSeq CTrapPDU [e; a; VInt CGenericTrap g; VInt CInteger s; VInt CTimeTicks up; vbl].
Lemma trap_rest_ok vbl e agent g s up v : trap_rest vbl e agent g s up = Ok v <->
  exists a gz sz, ipaddress_init CNetworkAddress agent = Ok a /\ g = VPyInt gz /\ in32 gz /\ s = VPyInt sz /\ in32 sz /\ 0 <= up < 2 ^ 32 /\ v = trap_of vbl e a gz sz up.
Proof.
  unfold trap_rest. rewrite bind_ok. split.
  - intros (a & A & H). rewrite bind_ok in H. destruct H as (g' & G & H). rewrite bind_ok in H. destruct H as (s' & S & H). rewrite bind_ok in H. destruct H as (t & T & H).
    apply integer_init_ok in G as (gz & -> & Gr & ->). apply integer_init_ok in S as (sz & -> & Sr & ->). apply integer_init_ok in T as (tz & X & Tr & ->). injection X as <-.
    injection H as <-. change (MINVAL CGenericTrap) with (-2147483648) in Gr. change (MAXVAL CGenericTrap) with 2147483647 in Gr.
    change (MINVAL CInteger) with (-2147483648) in Sr. change (MAXVAL CInteger) with 2147483647 in Sr. change (MINVAL CTimeTicks) with 0 in Tr. change (MAXVAL CTimeTicks) with 4294967295 in Tr.
    exists a, gz, sz. unfold in32. repeat split; auto; lia.
  - intros (a & gz & sz & A & -> & G & -> & S & T & ->). exists a. split; [exact A|]. rewrite bind_ok. exists (VInt CGenericTrap gz).
    split; [apply integer_init_ok; exists gz; repeat split; try reflexivity; change (MINVAL CGenericTrap) with (-2147483648); change (MAXVAL CGenericTrap) with 2147483647; unfold in32 in G; lia|].
    rewrite bind_ok. exists (VInt CInteger sz).
    split; [apply integer_init_ok; exists sz; repeat split; try reflexivity; change (MINVAL CInteger) with (-2147483648); change (MAXVAL CInteger) with 2147483647; unfold in32 in S; lia|].
    rewrite bind_ok. exists (VInt CTimeTicks up).
    split; [apply integer_init_ok; exists up; repeat split; try reflexivity; change (MINVAL CTimeTicks) with 0; change (MAXVAL CTimeTicks) with 4294967295; lia|]. reflexivity.
Qed.
Lemma trap_accepted f vbl ver ent agent g s up v : createTrapPDU f vbl ver ent agent g s up = Ok v <->
  (f = FSM -> ver = 1 \/ ver = 2) /\ address_given f agent /\
  exists e a gz sz, oid_init ent = Ok e /\ ipaddress_init CNetworkAddress agent = Ok a /\ g = VPyInt gz /\ in32 gz /\ s = VPyInt sz /\ in32 sz /\
    0 <= up < 2 ^ 32 /\ v = VSeq CTrapPDU [e; a; VInt CGenericTrap gz; VInt CInteger sz; VInt CTimeTicks up; vbl].
Proof.
  assert (P : (e <- oid_init ent ;; (x <- (if negb (truthy agent) then getsockname else Ok agent) ;; trap_rest vbl e x g s up)) = Ok v <->
    ~ falsy agent /\ exists e a gz sz, oid_init ent = Ok e /\ ipaddress_init CNetworkAddress agent = Ok a /\ g = VPyInt gz /\ in32 gz /\ s = VPyInt sz /\ in32 sz /\
    0 <= up < 2 ^ 32 /\ v = VSeq CTrapPDU [e; a; VInt CGenericTrap gz; VInt CInteger sz; VInt CTimeTicks up; vbl]).
  { rewrite bind_ok. pose proof (truthy_falsy agent) as TF. destruct (truthy agent); cbn [negb getsockname bind].
    - split.
      + intros (e & E & H). apply trap_rest_ok in H as (a & gz & sz & H). split; [apply TF; reflexivity|]. exists e, a, gz, sz. tauto.
      + intros (_ & e & a & gz & sz & E & H). exists e. split; [exact E|]. apply trap_rest_ok. exists a, gz, sz. exact H.
    - split; [intros (e & _ & H); discriminate H|]. intros (N & _). apply TF in N. discriminate N. }
  unfold createTrapPDU. destruct f; cbn [address_given].
  - rewrite P. split; [intros [A B]; split; [discriminate|auto]|tauto].
  - rewrite P. split; [intros [A B]; split; [discriminate|auto]|tauto].
  - assert (X : agent = VNone \/ agent <> VNone) by (destruct agent; auto; right; discriminate). destruct X as [->|X].
    + cbn [getsockname bind]. split; [discriminate|]. intros (_ & N & _). congruence.
    + assert (Y : (match agent with VNone => getsockname | a => Ok a end) = Ok agent) by (destruct agent; congruence). rewrite Y. cbn [bind].
      destruct ((ver =? 1) || (ver =? 2)) eqn:V.
      * rewrite bind_ok. split.
        -- intros (e & E & H). apply trap_rest_ok in H as (a & gz & sz & H). split; [intros _; lia|]. split; [exact X|]. exists e, a, gz, sz. tauto.
        -- intros (_ & _ & e & a & gz & sz & E & H). exists e. split; [exact E|]. apply trap_rest_ok. exists a, gz, sz. exact H.
      * split; [discriminate|]. intros (A & _). specialize (A eq_refl). lia.
Qed.
Lemma no_default_address f vbl ver ent g s up : 
  (forall e, oid_init ent = Ok e -> createTrapPDU f vbl ver ent VNone g s up = Err AttributeError) /\
  forall v, createTrapPDU f vbl ver ent VNone g s up <> Ok v.
Proof.
  assert (X : forall e, oid_init ent = Ok e -> createTrapPDU f vbl ver ent VNone g s up = Err AttributeError).
  { intros e E. unfold createTrapPDU. destruct f; rewrite ?E; reflexivity. }
  split; [exact X|]. intros v H. apply trap_accepted in H as (_ & A & _). destruct f; cbn in A; congruence || tauto.
Qed.
Lemma oid_init_dots l : l <> [] -> Forall (fun n => 0 <= n <= 2147483647) l -> oid_init (VPyStr (dots l)) = Ok (VOid (Some l)).
Proof.
  intros N F. cbn [oid_init]. pose proof (oid_text_ok l 0 0 N F) as E. cbn [repeat app] in E. rewrite app_nil_r in E. unfold dots. rewrite E. reflexivity.
Qed.
Lemma dots_nonempty a l : dots (a :: l) <> [].
Proof.
  unfold dots. cbn [map]. assert (N : py_str_of_int a <> []).
  { intros E. pose proof (parse_print a) as P. rewrite E in P. discriminate P. }
  destruct l; cbn [map py_join]; [exact N|]. destruct (py_str_of_int a); [congruence|discriminate].
Qed.
Lemma trap_from_text f vbl ver l a b c d g s up : (f = FSM -> ver = 1 \/ ver = 2) -> l <> [] -> Forall (fun n => 0 <= n <= 2147483647) l ->
  Forall (fun n => 0 <= n < 256) [a; b; c; d] -> in32 g -> in32 s -> 0 <= up < 2 ^ 32 ->
  createTrapPDU f vbl ver (VPyStr (dots l)) (VPyStr (dots [a; b; c; d])) (VPyInt g) (VPyInt s) up =
    Ok (trappdu_init (VOid (Some l)) (VOct CNetworkAddress (VPyStr [a; b; c; d])) (VInt CGenericTrap g) (VInt CInteger s) (VInt CTimeTicks up) vbl).
Proof.
  intros V N F Q G S U. apply trap_accepted. split; [exact V|]. split.
  - assert (D : dots [a; b; c; d] <> []) by apply dots_nonempty. destruct (dots [a; b; c; d]) as [|x y]; [congruence|]. destruct f; cbn; [tauto|tauto|discriminate].
  - exists (VOid (Some l)), (VOct CNetworkAddress (VPyStr [a; b; c; d])), g, s. split; [apply oid_init_dots; assumption|]. split.
    + inversion Q as [|? ? Ha Q1]; inversion Q1 as [|? ? Hb Q2]; inversion Q2 as [|? ? Hc Q3]; inversion Q3 as [|? ? Hd _]; subst. apply ip_text_gen; lia.
    + repeat split; auto; apply G || apply S || lia.
Qed.
Lemma trap_sent f ver l a b c d g s up com dst bs tbs cb m : f <> FSM -> Forall (fun n => 0 <= n <= 2147483647) l -> oid_survives l ->
  Forall (fun n => 0 <= n < 256) [a; b; c; d] -> in32 g -> in32 s -> int_survives g -> int_survives s -> 0 <= up < 2 ^ 32 ->
  meaningful Upto1905 bs tbs -> (cb = CVarBind \/ cb = CVarBind_v2) ->
  exists pdu msg os, createTrapPDU f (VSeq CVarBindList (map (vb_of cb) bs)) ver (VPyStr (dots l)) (VPyStr (dots [a; b; c; d])) (VPyInt g) (VPyInt s) up = Ok pdu /\
    do_call f (ATrap dst pdu (VPyStr com) ver) m = (mkMgr (nextRequestID m) (outbound m ++ [(Some msg, dst)]) (callbacks m), Ok RNone) /\
    snd (message_encode msg) = Ok os /\
    written (message_tree (match f with FV1 => 0 | _ => 1 end) com (trap_tree l [a; b; c; d] g s up tbs)) os.
Proof.
  intros N F Sl Q G S Sg Ss U B Cb.
  assert (Nl : l <> []) by (intros ->; exact Sl).
  pose proof (trap_from_text f (VSeq CVarBindList (map (vb_of cb) bs)) ver l a b c d g s up ltac:(intros ->; congruence) Nl F Q G S U) as E.
  pose proof (good_bindings_classes Upto1905 cb bs tbs Cb B) as CB.
  pose proof (bindings_trees cb bs tbs Cb (good_bindings_trees _ _ _ B)) as TB.
  destruct (good_bindings_wf _ _ _ B) as (WB & Bi & _).
  match type of E with _ = Ok ?p => set (pdu := p) in * end.
  assert (TP : tree_of pdu = Some (trap_tree l [a; b; c; d] g s up tbs)).
  { unfold pdu, trappdu_init, trap_tree. rewrite tree_of_seq. change (kind_of CTrapPDU) with (Some KTrapV1). change (seq_kind KTrapV1) with true. cbv iota.
    rewrite (trees_of_cons (VOid (Some l)) _ (TOid l) [TOct KIpAddress [a; b; c; d]; TInt KInteger g; TInt KInteger s; TInt KTimeTicks up; TSeq KSequence (map binding_tree tbs)]); [reflexivity|reflexivity|].
    apply trees_of_cons; [reflexivity|]. do 3 (apply trees_of_cons; [reflexivity|]).
    apply trees_of_cons; [|reflexivity]. apply vbl_tree; auto. }
  assert (W : wf Upto1905 (trap_tree l [a; b; c; d] g s up tbs)).
  { apply wf_seq. split.
    - constructor; [exact Sl|]. constructor; [right; reflexivity|]. do 2 (constructor; [assumption|]). constructor; [left; lia|]. constructor; [exact WB|constructor].
    - split; [reflexivity|]. exists (TOid l), (TOct KIpAddress [a; b; c; d]), g, (TInt KInteger s), (TInt KTimeTicks up), (map binding_tree tbs). auto. }
  assert (Cl : classes_ok pdu = true) by (unfold pdu, trappdu_init; cbn [classes_ok forallb]; rewrite CB; reflexivity).
  exists pdu. destruct f; [| |congruence]; eexists.
  - destruct (message_writes Upto1905 CMessage 0 com pdu _ (mkMsg CMessage (VInt CInteger 0) (VOct COctetString (VPyStr com)) pdu [])
      ltac:(auto) ltac:(reflexivity) ltac:(left; lia) TP W Cl) as (os & Eo & X).
    exists os. split; [exact E|]. split; [reflexivity|]. auto.
  - destruct (message_writes Upto1905 CMessage_v2 1 com pdu _ (mkMsg CMessage_v2 (VInt CInteger 1) (VOct COctetString (VPyStr com)) pdu [])
      ltac:(auto) ltac:(reflexivity) ltac:(left; lia) TP W Cl) as (os & Eo & X).
    exists os. split; [exact E|]. split; [reflexivity|]. auto.
Qed.
Lemma long_uptime f vbl ver ent agent g s up e a : (f = FSM -> ver = 1 \/ ver = 2) -> address_given f agent -> oid_init ent = Ok e ->
  ipaddress_init CNetworkAddress agent = Ok a -> in32 g -> in32 s -> 2 ^ 32 <= up -> createTrapPDU f vbl ver ent agent (VPyInt g) (VPyInt s) up = Err ValueError.
Proof.
  intros V A E I G S U.
  assert (T : trap_rest vbl e agent (VPyInt g) (VPyInt s) up = Err ValueError).
  { unfold trap_rest. rewrite I. cbn [bind]. unfold integer_init.
    change (MINVAL CGenericTrap) with (-2147483648). change (MAXVAL CGenericTrap) with 2147483647. change (MINVAL CInteger) with (-2147483648). change (MAXVAL CInteger) with 2147483647.
    change (MINVAL CTimeTicks) with 0. change (MAXVAL CTimeTicks) with 4294967295. unfold in32 in *.
    replace ((-2147483648 <=? g) && (g <=? 2147483647)) with true by lia. replace ((-2147483648 <=? s) && (s <=? 2147483647)) with true by lia. cbn [bind].
    replace ((0 <=? up) && (up <=? 4294967295)) with false by lia. reflexivity. }
  unfold createTrapPDU. rewrite E. destruct f.
  - cbn [bind address_given] in *. apply truthy_falsy in A. rewrite A. cbn [negb bind]. exact T.
  - cbn [bind address_given] in *. apply truthy_falsy in A. rewrite A. cbn [negb bind]. exact T.
  - cbn [address_given] in A. assert (Y : (match agent with VNone => getsockname | a => Ok a end) = Ok agent) by (destruct agent; congruence). rewrite Y. cbn [bind].
    replace ((ver =? 1) || (ver =? 2)) with true by (destruct (V eq_refl); subst; reflexivity). exact T.
Qed.
Lemma address_object_lost f vbl ver ent c w g s up v : createTrapPDU f vbl ver ent (VOct c w) g s up = Ok v ->
  exists e g' s' t, v = VSeq CTrapPDU [e; VOct CNetworkAddress (VPyStr []); g'; s'; t; vbl].
Proof. intros H. apply trap_accepted in H as (_ & _ & e & a & gz & sz & _ & A & _ & _ & _ & _ & _ & ->). injection A as <-. eauto 9. Qed.
Lemma plain_list_unsendable f ver l ent agent g s up com dst pdu m m' r : f <> FSM -> createTrapPDU f (VPyList l) ver ent agent g s up = Ok pdu ->
  do_call f (ATrap dst pdu (VPyStr com) ver) m = (m', r) ->
  exists msg e, outbound m' = outbound m ++ [(Some msg, dst)] /\ r = Ok RNone /\ snd (message_encode msg) = Err e.
Proof.
  intros N C H. apply trap_accepted in C as (_ & _ & e & a & gz & sz & _ & _ & _ & _ & _ & _ & _ & ->).
  assert (B : forall os, encode (VSeq CTrapPDU [e; a; VInt CGenericTrap gz; VInt CInteger sz; VInt CTimeTicks up; VPyList l]) <> Ok os).
  { intros os X. cbn [encode] in X. repeat match type of X with bind ?x _ = Ok _ => let E := fresh "E" in destruct x eqn:E; cbn [bind] in X; [|discriminate X] end.
    repeat match goal with E : bind ?x _ = Ok _ |- _ => let E' := fresh "E" in destruct x eqn:E'; cbn [bind] in E; [|discriminate E] end. discriminate. }
  assert (D : forall c z, exists x, snd (message_encode (mkMsg c (VInt CInteger z) (VOct COctetString (VPyStr com)) (VSeq CTrapPDU [e; a; VInt CGenericTrap gz; VInt CInteger sz; VInt CTimeTicks up; VPyList l]) [])) = Err x).
  { intros c z. match goal with |- exists x, ?t = Err x => destruct t as [os|x] eqn:X; [|eauto] end. exfalso.
    unfold message_encode in X. cbn [snd message_set_value m_value m_version m_community m_data m_cls encode_list] in X.
    destruct (encode (VInt CInteger z)); cbn [bind] in X; [|discriminate]. destruct (encode (VOct COctetString (VPyStr com))); cbn [bind] in X; [|discriminate].
    match type of X with context [encode ?p] => destruct (encode p) as [q|] eqn:Y; [exact (B q eq_refl)|] end. discriminate X. }
  destruct f; [| |congruence]; injection H as <- <-.
  - destruct (D CMessage 0) as (x & X). eexists; exists x. split; [reflexivity|]. split; [reflexivity|exact X].
  - destruct (D CMessage_v2 1) as (x & X). eexists; exists x. split; [reflexivity|]. split; [reflexivity|exact X].
Qed.

(** ** typeSetter *)
Lemma type_letters s t : typeSetter s = Ok t <-> exists c k, s = [c] /\ letter_kind c = Some k /\ t = kind_octet k.
Proof.
  unfold typeSetter, typeValDict, sdict_get, str_eqb.
  repeat match goal with |- context [list_eq_dec Z.eq_dec ?a s] => let E := fresh "E" in destruct (list_eq_dec Z.eq_dec a s) as [E|E] end;
  try (subst s; split; [intros H; injection H as <-; do 2 eexists; split; [reflexivity|split; reflexivity]|intros (c & k & Hs & K & ->); injection Hs as <-; injection K as <-; reflexivity]).
  split; [discriminate|]. intros (c & k & -> & K & _). exfalso.
  unfold letter_kind in K. cbn [text list_ascii_of_string map] in *.
  repeat match goal with H : ?a <> [c] |- _ => assert (c <> match a with [x] => x | _ => 0 end) by (intros ->; apply H; reflexivity); clear H end.
  cbn in *. 
  assert (L : forall n, c <> n -> True) by auto. clear L.
  destruct c as [|p|p]; try discriminate K.
  repeat (destruct p as [p|p|]; try discriminate K; try lia).
Qed.
Lemma type_other s : (forall c k, s = [c] -> letter_kind c <> Some k) -> typeSetter s = Err KeyError.
Proof.
  intros H. destruct (typeSetter s) as [t|e] eqn:E.
  - apply type_letters in E as (c & k & -> & K & _). elim (H c k eq_refl K).
  - unfold typeSetter in E. destruct (sdict_get typeValDict s); [discriminate|congruence].
Qed.

(** ** snmpset.py *)
Lemma names_init oid name : names oid name -> oid_init (VPyStr oid) = Ok (VOid (Some name)).
Proof. intros [T S]. cbn [oid_init]. apply oid_text_iff in T. rewrite T. reflexivity. Qed.
Lemma snmpset_value cb server com oid l ty c k value v w t m m' r : names oid l -> ty = [c] -> letter_kind c = Some k ->
  (if str_eqb ty (text "i"%string) then (z <- py_int_of_str value ;; Ok (VPyInt z)) else Ok (VPyStr value)) = Ok v ->
  typed_value (kind_octet k) v = Ok w -> tree_of w = Some t -> classes_ok w = true -> wf Upto1905 t -> 0 <= nextRequestID m < 2 ^ 31 ->
  snmpset cb server com oid ty value m = (m', r) ->
  queued m m' r (nextRequestID m) (server, 161) cb (message_tree 1 com (request_tree KSet (nextRequestID m) 0 0 [(l, t)])).
Proof.
  intros G -> K V T W C Wf Id H. unfold snmpset, snmpset_call in H.
  assert (E : typeSetter [c] = Ok (kind_octet k)) by (apply type_letters; eauto). rewrite E in H. cbn [bind] in H. rewrite V in H. cbn [bind] in H.
  eapply (set_on_wire _ _ _ _ _ _ 2); [auto|apply names_init; exact G|exact T| |exact Id|exact H].
  constructor; [|constructor]. cbn [fst snd]. destruct G. auto.
Qed.
Lemma set_integer cb server com oid l value z m m' r : names oid l -> int_text value z -> - 2 ^ 31 <= z <= 2 ^ 31 -> int_survives z -> 0 <= nextRequestID m < 2 ^ 31 ->
  snmpset cb server com oid (text "i"%string) value m = (m', r) ->
  queued m m' r (nextRequestID m) (server, 161) cb (message_tree 1 com (request_tree KSet (nextRequestID m) 0 0 [(l, TInt KInteger z)])).
Proof.
  intros G P R S Id H. eapply (snmpset_value cb server com oid l (text "i"%string) 105 KInteger value (VPyInt z) (VInt CInteger32 z));
    [exact G|reflexivity|reflexivity| | |reflexivity|reflexivity|exact S|exact Id|exact H].
  - change (str_eqb (text "i") (text "i")) with true. cbv iota. apply int_of_str_ok in P. rewrite P. reflexivity.
  - change (typed_value (kind_octet KInteger) (VPyInt z)) with (integer_init CInteger32 (VPyInt z)). unfold integer_init.
    change (MINVAL CInteger32) with (-2147483648). change (MAXVAL CInteger32) with 2147483648.
    replace ((-2147483648 <=? z) && (z <=? 2147483648)) with true by lia. reflexivity.
Qed.
Lemma set_integer_refused cb server com oid l value m : names oid l -> (forall z, int_text value z -> ~ (- 2 ^ 31 <= z <= 2 ^ 31)) ->
  snmpset cb server com oid (text "i"%string) value m = (m, Err ValueError).
Proof.
  intros G P. unfold snmpset, snmpset_call. change (typeSetter (text "i")) with (Ok 2). change (str_eqb (text "i") (text "i")) with true. cbv iota. cbn [bind].
  destruct (py_int_of_str value) as [z|e] eqn:I; [|rewrite (int_of_str_err _ _ I); reflexivity]. apply int_of_str_ok, P in I. cbn [bind do_call snmpSet_typed]. unfold mmap, mbind, createSetRequestMessage. cbn [Z.eqb Pos.eqb].
  unfold lift, mbind. rewrite (names_init oid l G). cbn [bind].
  change (typed_value 2 (VPyInt z)) with (integer_init CInteger32 (VPyInt z)). unfold integer_init.
  change (MINVAL CInteger32) with (-2147483648). change (MAXVAL CInteger32) with 2147483648.
  replace ((-2147483648 <=? z) && (z <=? 2147483648)) with false by lia. reflexivity.
Qed.
Lemma set_string cb server com oid l value m m' r : names oid l -> 0 <= nextRequestID m < 2 ^ 31 ->
  snmpset cb server com oid (text "s"%string) value m = (m', r) ->
  queued m m' r (nextRequestID m) (server, 161) cb (message_tree 1 com (request_tree KSet (nextRequestID m) 0 0 [(l, TOct KOctetString value)])).
Proof.
  intros G Id H. eapply (snmpset_value cb server com oid l (text "s"%string) 115 KOctetString value (VPyStr value) (VOct COctetString (VPyStr value)));
    [exact G|reflexivity|reflexivity|reflexivity|reflexivity|reflexivity|reflexivity|left; reflexivity|exact Id|exact H].
Qed.
Lemma set_identifier cb server com oid l value n m m' r : names oid l -> names value n -> 0 <= nextRequestID m < 2 ^ 31 ->
  snmpset cb server com oid (text "o"%string) value m = (m', r) ->
  queued m m' r (nextRequestID m) (server, 161) cb (message_tree 1 com (request_tree KSet (nextRequestID m) 0 0 [(l, TOid n)])).
Proof.
  intros G N Id H. eapply (snmpset_value cb server com oid l (text "o"%string) 111 KObjectID value (VPyStr value) (VOid (Some n)));
    [exact G|reflexivity|reflexivity|reflexivity| |reflexivity|reflexivity|exact (proj2 N)|exact Id|exact H].
  change (typed_value (kind_octet KObjectID) (VPyStr value)) with (oid_init (VPyStr value)). apply names_init, N.
Qed.
Lemma set_address cb server com oid l value a m m' r : names oid l -> ip_text value a -> 0 <= nextRequestID m < 2 ^ 31 ->
  snmpset cb server com oid (text "a"%string) value m = (m', r) ->
  queued m m' r (nextRequestID m) (server, 161) cb (message_tree 1 com (request_tree KSet (nextRequestID m) 0 0 [(l, TOct KIpAddress a)])).
Proof.
  intros G Q Id H. eapply (snmpset_value cb server com oid l (text "a"%string) 97 KIpAddress value (VPyStr value) (VOct CIPAddress (VPyStr a)));
    [exact G|reflexivity|reflexivity|reflexivity| |reflexivity|reflexivity|right; reflexivity|exact Id|exact H].
  change (typed_value (kind_octet KIpAddress) (VPyStr value)) with (ipaddress_init CIPAddress (VPyStr value)). apply ip_text_iff. eauto.
Qed.
Lemma set_unusable cb server com oid l ty value m : names oid l -> In ty [text "t"%string; text "c"%string; text "C"%string] ->
  snmpset cb server com oid ty value m = (m, Err TypeError).
Proof.
  intros G I. unfold snmpset, snmpset_call.
  assert (X : forall t, In t [67; 65; 70] -> do_call FSM (ASetTyped (VPyStr oid) t (VPyStr value) (server, 161) cb (VPyStr com) 2) m = (m, Err TypeError)).
  { intros t It. cbn [do_call snmpSet_typed]. unfold mmap, mbind, createSetRequestMessage. cbn [Z.eqb Pos.eqb].
    unfold lift, mbind. rewrite (names_init oid l G). cbn [bind]. destruct It as [<-|[<-|[<-|[]]]]; reflexivity. }
  destruct I as [<-|[<-|[<-|[]]]]; cbn [typeSetter bind]; apply X; cbn; auto.
Qed.
Lemma set_unknown cb server com oid ty value m : (forall c k, ty = [c] -> letter_kind c <> Some k) ->
  snmpset cb server com oid ty value m = (m, Err KeyError).
Proof. intros H. unfold snmpset, snmpset_call. rewrite (type_other _ H). reflexivity. Qed.

(** ** enterpriseOID *)
Lemma dots_app a b l m : dots ((a :: l) ++ b :: m) = dots (a :: l) ++ 46 :: dots (b :: m).
Proof.
  unfold dots. rewrite map_app. cbn [map]. revert a. induction l as [|x l IH]; intros a; [reflexivity|].
  cbn [map app]. cbn [py_join]. change (map py_str_of_int l ++ py_str_of_int b :: map py_str_of_int m) with (map py_str_of_int l ++ py_str_of_int b :: map py_str_of_int m).
  rewrite <- app_assoc. cbn [app]. f_equal. f_equal. apply (IH x).
Qed.
Lemma enterprise_prefix l : l <> [] -> Forall (fun n => 0 <= n <= 2147483647) l ->
  oid_init (VPyStr (enterpriseOID (dots l))) = Ok (VOid (Some ([1; 3; 6; 1; 2; 1] ++ l))).
Proof.
  intros N F. destruct l as [|a l]; [congruence|]. cbn [oid_init].
  pose proof (oid_text_ok ([1; 3; 6; 1; 2; 1] ++ a :: l) 1 0 ltac:(discriminate)) as E. cbn [repeat] in E. rewrite app_nil_r in E.
  fold (dots ([1; 3; 6; 1; 2; 1] ++ a :: l)) in E. rewrite dots_app in E.
  change (enterpriseOID (dots (a :: l))) with ([46] ++ dots [1; 3; 6; 1; 2; 1] ++ 46 :: dots (a :: l)). rewrite E; [reflexivity|].
  apply Forall_app. split; [|exact F]. repeat constructor; lia.
Qed.
Lemma last_app_ne (a b : str) : b <> [] -> last (a ++ b) 0 = last b 0.
Proof. intros N. induction a as [|x a IH]; [reflexivity|]. cbn [app]. destruct (a ++ b) eqn:E; [destruct a; cbn in E; congruence|]. exact IH. Qed.
Lemma enterprise_dot l : l <> [] -> oid_init (VPyStr (enterpriseOID (46 :: dots l))) = Err ValueError.
Proof.
  intros N. destruct l as [|a l]; [congruence|]. cbn [oid_init]. unfold oid_of_str.
  assert (S : strip (Z.eqb 46) (enterpriseOID (46 :: dots (a :: l))) = dots [1; 3; 6; 1; 2; 1] ++ 46 :: 46 :: dots (a :: l)).
  { change (enterpriseOID (46 :: dots (a :: l))) with ([46] ++ (dots [1; 3; 6; 1; 2; 1] ++ 46 :: 46 :: dots (a :: l))).
    rewrite <- (app_nil_r (dots [1; 3; 6; 1; 2; 1] ++ 46 :: 46 :: dots (a :: l))) at 1. apply strip_surround; [|repeat constructor|constructor].
    destruct (dotted_ends (a :: l) ltac:(discriminate)) as (A & _ & B). fold (dots (a :: l)) in A, B. split; [discriminate|]. split; [reflexivity|].
    change (dots [1; 3; 6; 1; 2; 1] ++ 46 :: 46 :: dots (a :: l)) with ((dots [1; 3; 6; 1; 2; 1] ++ [46; 46]) ++ dots (a :: l)). rewrite last_app_ne by exact A. exact B. }
  rewrite S.
  change (dots [1; 3; 6; 1; 2; 1] ++ 46 :: 46 :: dots (a :: l)) with ([49] ++ 46 :: ([51] ++ 46 :: ([54] ++ 46 :: ([49] ++ 46 :: ([50] ++ 46 :: ([49] ++ 46 :: ([] ++ 46 :: dots (a :: l)))))))).
  do 6 (rewrite split_cons by (repeat constructor; discriminate)). rewrite split_cons by constructor. cbn [mapM]. reflexivity.
Qed.
