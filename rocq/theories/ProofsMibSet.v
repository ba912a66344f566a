(** * Proofs about snmpset.py, snmpget.py and an honest agent. *)
From Coq Require Import Ascii String ZArith List Bool Lia ZifyBool ZifyNat Sorted.
From Verif Require Import PyBase Classes Values Codec Manager Text Frontend Tools.
From Verif Require Import SpecBER SpecSMI SpecTree SpecWire SpecMsg SpecManager SpecText SpecFront SpecTools SpecMib.
From Verif Require Import ProofsTree ProofsDecode ProofsWire ProofsMsg ProofsManager ProofsHistory ProofsReceive ProofsCalls ProofsRun ProofsTools ProofsPrograms ProofsPrograms2 ProofsProgress.
From Verif Require Import ProofsNetwork ProofsMib ProofsMibWalk ProofsMibEnd.
Import ListNotations.
Open Scope Z_scope.
Local Open Scope list_scope.

Lemma one_readable k name v : k = KGet \/ k = KGetNext \/ k = KSet -> oid_survives name -> readable Upto1905 v -> readable Upto1905 (request_tree k 0 0 0 [(name, v)]).
Proof.
  intros K O R. apply readable_seq. split.
  - constructor; [exact Logic.I|]. constructor; [exact Logic.I|]. constructor; [exact Logic.I|]. constructor; [|constructor].
    apply readable_seq. split; [|exact Logic.I]. constructor; [|constructor]. apply readable_seq. split; [|exact Logic.I]. constructor; [exact O|]. constructor; [exact R|constructor].
  - assert (RS : request_shape [TInt KInteger 0; TInt KInteger 0; TInt KInteger 0; TSeq KSequence (map binding_tree [(name, v)])]).
    { exists 0, 0, 0. eexists. split; [reflexivity|]. unfold in32. repeat split; try lia; [|cbn; lia]. constructor; [|constructor]. do 2 eexists. reflexivity. }
    destruct K as [-> |[-> | ->]]; split; auto.
Qed.
Lemma set_value_readable ty value t : set_value ty value t -> readable Upto1905 t /\ shown t <> None.
Proof.
  intros V. destruct V as [value z I R S|value|value n N|value l I F]; cbn [readable shown]; (split; [|discriminate]); try exact Logic.I; try reflexivity. apply N.
Qed.
Lemma status_text st : 1 <= st <= 18 -> exists t, error_text st = Some t.
Proof.
  intros H. unfold error_text. destruct (Z.eqb_spec st 0) as [->|_]; [lia|].
  assert (E : st = 1 \/ st = 2 \/ st = 3 \/ st = 4 \/ st = 5 \/ st = 6 \/ st = 7 \/ st = 8 \/ st = 9 \/ st = 10 \/ st = 11 \/ st = 12 \/ st = 13 \/ st = 14 \/ st = 15 \/ st = 16 \/ st = 17 \/ st = 18) by lia.
  repeat (destruct E as [-> |E]; [eexists; reflexivity|]). subst st. eexists. reflexivity.
Qed.
Lemma set_exchanged server com oid name ty value t M r M' s : names oid name -> set_value ty value t ->
  exchanged snmpset_py [server; com; oid; ty; value] M r M' s ->
  (exists sv, shown t = Some sv /\ ended s SystemExit (binding_lines true false name t sv) (sent s) /\ forall n, M' n = assign M (name, t) n) \/
  (exists code txt, 1 <= code <= 18 /\ error_text code = Some txt /\ ended s SystemExit [error_line code txt] (sent s) /\ forall n, M' n = M n).
Proof.
  intros N V (s0 & d & x & R & S & Sv & G). destruct (set_value_readable _ _ _ V) as [Rt Sh].
  destruct (set_first server com oid name ty value t N V) as (s1 & d1 & R1 & A & P & S1 & Q).
  rewrite (goes_deterministic _ _ _ _ _ _ _ R R1) in *. rewrite S1 in S. injection S as ->.
  destruct (served _ _ _ _ _ _ _ _ _ Q (one_readable KSet name t ltac:(auto) (proj2 N) Rt) Sv) as (An & B & T).
  pose proof (runs_reachable _ _ _ _ _ _ R1) as Re. destruct T as [[St E]|[St E]].
  - left. destruct (shown t) as [sv|] eqn:Es; [|congruence]. exists sv. split; [reflexivity|].
    destruct (stop_answer _ _ _ _ s1 0 r name t [] sv x tool_set Re A An St B Es) as (s' & G' & D & P' & S'). rewrite (goes_deterministic _ _ _ _ _ _ _ G G').
    split; [|intros n; rewrite E; reflexivity]. split; [exact D|]. split; [rewrite P', P; reflexivity|reflexivity].
  - right. destruct (status_text _ St) as (txt & Et). exists (r_status r), txt. split; [exact St|]. split; [exact Et|]. split; [|exact E].
    destruct (error_answer _ _ _ _ _ s1 0 r txt x tool_set Re A An ltac:(lia) Et) as (s' & G' & D & P' & S'). rewrite (goes_deterministic _ _ _ _ _ _ _ G G').
    split; [exact D|]. split; [rewrite P', P; reflexivity|reflexivity].
Qed.
Lemma get_exchanged server com oid name M r M' s : names oid name -> exchanged snmpget_py [server; com; oid] M r M' s ->
  (forall v, M name = Some v -> shown v <> None) ->
  (forall n, M' n = M n) /\ exists v sv, shown v = Some sv /\ ended s SystemExit (binding_lines true true name v sv) (sent s) /\
    (M name = Some v \/ M name = None /\ (v = TNull KNoSuchObject \/ v = TNull KNoSuchInstance)).
Proof.
  intros N (s0 & d & x & R & S & Sv & G) Sh.
  destruct (get_first _ _ _ _ server com oid name tool_get eq_refl N) as (s1 & d1 & R1 & A & P & S1 & Q).
  rewrite (goes_deterministic _ _ _ _ _ _ _ R R1) in *. rewrite S1 in S. injection S as ->.
  destruct (served _ _ _ _ _ _ _ _ _ Q (one_readable KGet name (TNull KNull) ltac:(auto) (proj2 N) ltac:(left; reflexivity)) Sv) as (An & St & B & E).
  pose proof (runs_reachable _ _ _ _ _ _ R1) as Re. split; [exact E|].
  inversion B as [|b b' l l' (B1 & B2) B' X1 X2]; subst. inversion B'; subst. destruct b' as [n' v]. cbn [fst snd] in *. subst n'.
  assert (Sw : exists sv, shown v = Some sv).
  { destruct B2 as [B2|[_ [-> | ->]]]; [|eexists; reflexivity|eexists; reflexivity]. specialize (Sh v B2). destruct (shown v) as [sv|]; [exists sv; reflexivity|congruence]. }
  destruct Sw as (sv & Es). exists v, sv. split; [exact Es|].
  destruct (stop_answer _ _ _ _ s1 0 r name v [] sv x tool_get Re A An St (eq_sym X2) Es) as (s' & G' & D & P' & S'). rewrite (goes_deterministic _ _ _ _ _ _ _ G G').
  split; [|exact B2]. split; [exact D|]. split; [rewrite P', P; reflexivity|reflexivity].
Qed.
Lemma read_your_writes server com oid name ty value t server' com' oid' M r M' s r' M'' s' : names oid name -> names oid' name -> set_value ty value t ->
  exchanged snmpset_py [server; com; oid; ty; value] M r M' s -> exchanged snmpget_py [server'; com'; oid'] M' r' M'' s' ->
  (exists sv, shown t = Some sv /\ printed s = binding_lines true false name t sv /\ printed s' = binding_lines true true name t sv) \/
  exists code txt, 1 <= code <= 18 /\ error_text code = Some txt /\ printed s = [error_line code txt] /\ M' name = M name.
Proof.
  intros N N' V X Y. destruct (set_exchanged _ _ _ _ _ _ _ _ _ _ _ N V X) as [(sv & Sh & (_ & P & _) & E)|(code & txt & C & T & (_ & P & _) & E)].
  - left. exists sv. split; [exact Sh|]. split; [exact P|]. assert (Mn : M' name = Some t) by (rewrite E; unfold assign; cbn; destruct (list_eq_dec Z.eq_dec name name); [reflexivity|contradiction]).
    destruct (get_exchanged _ _ _ _ _ _ _ _ N' Y) as (_ & v & sv' & Sh' & (_ & P' & _) & [B|[B _]]); [intros v H; rewrite Mn in H; injection H as <-; congruence| |congruence].
    rewrite Mn in B. injection B as <-. rewrite Sh in Sh'. injection Sh' as <-. exact P'.
  - right. exists code, txt. auto.
Qed.
(** Every exchange can happen: the request fits into a datagram, and an agent can answer it. *)
Lemma set_possible server com oid name ty value t M M' st : names oid name -> set_value ty value t -> handy (name, t) -> zlen com <= 1000 ->
  treats M KSet [(name, t)] st [(name, t)] M' -> exists r s, exchanged snmpset_py [server; com; oid; ty; value] M r M' s.
Proof.
  intros N V Hd Hc T. destruct (set_value_readable _ _ _ V) as [Rt Sh]. destruct (handy_parts _ _ Hd) as (a & b & Wa & Wb & Lab).
  destruct (set_first server com oid name ty value t N V) as (s1 & d1 & R1 & A & P & S1 & Q). pose proof (runs_reachable _ _ _ _ _ _ R1) as Re.
  assert (Wab : wires false [TOid name; t] (a ++ b)) by (constructor; [exact Wa|apply wires1; exact Wb]).
  assert (Hst : 0 <= st <= 18) by (destruct T as (_ & [[-> _]|[X _]]); lia).
  destruct (packet_exists KSet com 0 (a ++ b) t name eq_refl ltac:(lia) Hc Wab ltac:(rewrite zlen_app; lia)) as (oq & Wq & Lq).
  assert (R : exists os, wire false (message_tree 1 com (request_tree KResponse 0 st 0 [(name, t)])) os /\ zlen os <= 32000).
  { pose proof (zlen_nonneg (a ++ b)). pose proof (zlen_nonneg com). assert (zlen (a ++ b) <= 30000) by (rewrite zlen_app; lia).
    destruct (seq_exists false KSequence _ _ eq_refl Wab ltac:(lia)) as (b1 & Wb1 & Lb).
    destruct (seq_exists false KSequence _ _ eq_refl (wires1 _ _ _ Wb1) ltac:(lia)) as (c & Wc & Lc).
    destruct (int_exists st ltac:(lia)) as (i & Wi & Li). destruct (int_exists 0 ltac:(lia)) as (z & Wz & Lz). destruct (int_exists 1 ltac:(lia)) as (o & Wo & Lo).
    pose proof (wires_cons _ _ _ _ _ Wz (wires_cons _ _ _ _ _ Wi (wires_cons _ _ _ _ _ Wz (wires1 _ _ _ Wc)))) as Wp.
    destruct (seq_exists false KResponse _ _ eq_refl Wp ltac:(rewrite !zlen_app in *; lia)) as (p & Wp' & Lp). rewrite !zlen_app in Lp.
    destruct (tlv_exists 4 com ltac:(lia)) as (q & Tq & Lq').
    pose proof (wires_cons _ _ _ _ _ Wo (wires_cons _ _ _ _ _ (wire_oct false KOctetString com q eq_refl Tq) (wires1 _ _ _ Wp'))) as Wm.
    destruct (seq_exists false KSequence _ _ eq_refl Wm ltac:(rewrite !zlen_app in *; lia)) as (m & Wm' & Lm). rewrite !zlen_app in *.
    exists m. split; [exact Wm'|lia]. }
  destruct R as (os & Wr & Lr). pose proof Q as (_ & Q1 & Q2). pose proof (Q2 _ _ Wq) as Le. fold (zlen oq) in Le. fold (zlen (fst d1)) in Le.
  assert (Ld : zlen (fst d1) < 65536) by lia.
  set (r := mkReply os 9 ([], 161) false 1 com st 0 [(name, t)]).
  assert (An : answers 0 r).
  { split; [exact Wr|]. cbn [r r_octets r_status r_bindings r_depth r_version r_index]. split; [|split; [|right; reflexivity]].
    + apply readable_seq. split.
      * constructor; [exact Logic.I|]. constructor; [exact Logic.I|]. constructor; [exact Logic.I|]. constructor; [|constructor].
        apply readable_seq. split; [|exact Logic.I]. constructor; [|constructor]. apply readable_seq. split; [|exact Logic.I]. constructor; [apply N|]. constructor; [exact Rt|constructor].
      * split; [reflexivity|]. exists 0, st, 0. eexists. split; [reflexivity|]. unfold in32. repeat split; try lia; [|cbn; lia]. constructor; [|constructor]. do 2 eexists. reflexivity.
    + unfold request_tree. cbn [map binding_tree fst snd height fold_right]. rewrite (height_shown _ Sh). cbn. lia. }
  assert (Sv : serves M d1 r M').
  { exists KSet, 0, [(name, t)], com, true. split; [exact Ld|]. cbn [r r_octets r_status r_bindings]. split; [lia|]. split; [apply one_readable; [auto|apply N|exact Rt]|].
    split; [exact (Q1 (small_enough _ Ld))|]. split; [exact An|exact T]. }
  assert (G : exists s, goes snmpset_py Text [server; com; oid; ty; value] s1 [datagram r; Answers (Ok tt)] s).
  { destruct (Z.eq_dec st 0) as [->|Ne].
    - destruct (shown t) as [sv|] eqn:Es; [|congruence]. destruct (stop_answer _ _ _ _ s1 0 r name t [] sv (Ok tt) tool_set Re A An eq_refl eq_refl Es) as (s' & G' & _). eauto.
    - destruct (status_text st ltac:(lia)) as (txt & Et). destruct (error_answer _ _ _ _ _ s1 0 r txt (Ok tt) tool_set Re A An Ne Et) as (s' & G' & _). eauto. }
  destruct G as (s & G). exists r, s. exists s1, d1, (Ok tt). auto.
Qed.
Lemma get_possible server com oid name M v : names oid name -> M name = Some v -> handy (name, v) -> readable Upto1905 v -> shown v <> None -> zlen com <= 1000 ->
  exists r s, exchanged snmpget_py [server; com; oid] M r M s.
Proof.
  intros N Mn Hd Rv Sh Hc. destruct (handy_parts _ _ Hd) as (a & b & Wa & Wb & Lab). pose proof (zlen_nonneg b).
  destruct (get_first _ _ _ _ server com oid name tool_get eq_refl N) as (s1 & d1 & R1 & A & P & S1 & Q). pose proof (runs_reachable _ _ _ _ _ _ R1) as Re.
  assert (NU : tlv_octets 5 [] [5; 0]) by (exists [0]; split; [left; split; [reflexivity|cbn; lia]|reflexivity]).
  destruct (packet_exists KGet com 0 (a ++ [5; 0]) (TNull KNull) name eq_refl ltac:(lia) Hc) as (oq & Wq & Lq).
  { constructor; [exact Wa|]. apply wires1. apply wire_null; [reflexivity|exact NU]. } { rewrite zlen_app. unfold zlen at 2. cbn. lia. }
  destruct (packet_exists KResponse com 0 (a ++ b) v name eq_refl ltac:(lia) Hc ltac:(constructor; [exact Wa|apply wires1; exact Wb]) ltac:(rewrite zlen_app; lia)) as (os & Wr & Lr).
  pose proof Q as (_ & Q1 & Q2). pose proof (Q2 _ _ Wq) as Le. fold (zlen oq) in Le. fold (zlen (fst d1)) in Le. assert (Ld : zlen (fst d1) < 65536) by lia.
  set (r := mkReply os 9 ([], 161) false 1 com 0 0 [(name, v)]).
  assert (An : answers 0 r).
  { split; [exact Wr|]. cbn [r r_octets r_status r_bindings r_depth r_version r_index]. split; [|split; [|right; reflexivity]].
    + apply readable_seq. split.
      * constructor; [exact Logic.I|]. constructor; [exact Logic.I|]. constructor; [exact Logic.I|]. constructor; [|constructor].
        apply readable_seq. split; [|exact Logic.I]. constructor; [|constructor]. apply readable_seq. split; [|exact Logic.I]. constructor; [apply N|]. constructor; [exact Rv|constructor].
      * split; [reflexivity|]. exists 0, 0, 0. eexists. split; [reflexivity|]. unfold in32. repeat split; try lia; [|cbn; lia]. constructor; [|constructor]. do 2 eexists. reflexivity.
    + unfold request_tree. cbn [map binding_tree fst snd height fold_right]. rewrite (height_shown _ Sh). cbn. lia. }
  assert (Sv : serves M d1 r M).
  { exists KGet, 0, [(name, TNull KNull)], com, true. split; [exact Ld|]. cbn [r r_octets r_status r_bindings]. split; [lia|]. split; [apply one_readable; [auto|apply N|left; reflexivity]|].
    split; [exact (Q1 (small_enough _ Ld))|]. split; [exact An|]. split; [reflexivity|]. split; [|reflexivity]. constructor; [|constructor]. split; [reflexivity|]. left. exact Mn. }
  destruct (shown v) as [sv|] eqn:Es; [|congruence]. destruct (stop_answer _ _ _ _ s1 0 r name v [] sv (Ok tt) tool_get Re A An eq_refl eq_refl Es) as (s' & G' & _).
  exists r, s'. exists s1, d1, (Ok tt). auto.
Qed.
(** ** Silence *)
Lemma asked_observed p args M s ev : Forall (fun o => match o with Finds Nothing => True | Answers _ => True | _ => False end) ev -> observed false M p args s ->
  forall s', goes p Text args s ev s' -> observed false M p args s'.
Proof.
  intros F. revert s. induction F as [|o ev Ho F IH]; intros s O s' G.
  - assert (s' = s); [|subst; exact O]. apply (goes_deterministic p Text args [] s); [exact G|]. exists []. split; [reflexivity|]. split; [reflexivity|]. 
    destruct O as [s R|s0 o s _ _ R]; destruct R as (tr & _ & _ & X); exact X.
  - change (o :: ev) with ([o] ++ ev) in G. destruct (goes_split _ _ _ _ _ _ _ G) as (s1 & G1 & G2). apply (IH s1); [|exact G2]. eapply observed_step; [exact O| |exact G1].
    destruct o as [[| |]|x]; cbn in Ho |- *; try contradiction; discriminate.
Qed.
Lemma runs_observed p args M s ev : Forall (fun o => match o with Finds Nothing => True | Answers _ => True | _ => False end) ev ->
  runs p Text (Ok tt) args ev s -> observed false M p args s.
Proof.
  intros F R. unfold runs in R. change ev with ([] ++ ev) in R. destruct (goes_split _ _ _ _ _ _ _ R) as (s1 & G1 & G2). eapply asked_observed; [exact F| |exact G2]. apply observed_start. exact G1.
Qed.
