(** * C66-C68: the bundled command-line programs.  Statements only; proofs in ProofsTools, ProofsPrograms, ProofsPrograms2, ProofsListener, ProofsProgress. *)
From Coq Require Import Ascii String ZArith List Bool Lia.
From Verif Require Import PyBase Classes Values Codec Manager Text Frontend Tools SpecBER SpecSMI SpecTree SpecWire SpecMsg SpecManager SpecNumber SpecText SpecFront
  ProofsNumber   ProofsReceive ProofsFront ProofsTools ProofsPrograms ProofsPrograms2 ProofsListener ProofsProgress SpecTools.
Import ListNotations.
Open Scope Z_scope.
Local Open Scope list_scope.

(** ** C66: snmpwalk.py *)

(** C66. A walk, for every number of answers: a Get for the name on the command line, and for each answer without error a GetNext with its
    bindings and the next id; after each answer the first binding is printed, and nothing else is. *)
Theorem C66_walk : forall server com oid name replies, names oid name -> good_walk 0 replies -> zlen replies < 2 ^ 31 ->
  exists s d ds, runs snmpwalk_py Text (Ok tt) [server; com; oid] (asked ++ flat_map exchange replies) s /\ awaiting s (zlen replies) /\
    printed s = flat_map (first_lines false true) replies /\ sent s = d :: ds /\
    is_request KGet com (server, 161) 0 [(name, TNull KNull)] d /\ follow_ups com (server, 161) 0 replies ds.
Proof. exact walk_whole. Qed.
Print Assumptions C66_walk.
(** C66. It ends, with exit code 0, when the value is NoSuchObject or EndOfMibView; that answer is printed too. *)
Theorem C66_ends : forall server com oid name replies final n v, names oid name -> good_walk 0 replies -> zlen replies < 2 ^ 31 ->
  answers (zlen replies) final -> good_reply final n v -> v = TNull KNoSuchObject \/ v = TNull KEndOfMibView ->
  exists s d ds, runs snmpwalk_py Text (Ok tt) [server; com; oid] (asked ++ flat_map exchange replies ++ [datagram final]) s /\
    ended s SystemExit (flat_map (first_lines false true) (replies ++ [final])) (d :: ds) /\
    is_request KGet com (server, 161) 0 [(name, TNull KNull)] d /\ follow_ups com (server, 161) 0 replies ds.
Proof.
  intros server com oid name replies final n v N G L A (S0 & (rest & B) & Sh) V.
  destruct (walk_whole server com oid name replies N G L) as (s & d & ds & R & Aw & P & Se & D & F).
  destruct (shown v) as [sv|] eqn:Sv; [|contradiction].
  destruct (walk_stops server com [oid] s (zlen replies) final n v rest sv Aw A S0 B Sv) as (s' & G' & Ov & P' & S').
  { intros [X Y]. destruct V; contradiction. }
  exists s', d, ds. split; [rewrite app_assoc; unfold runs in *; eapply goes_trans; eassumption|]. split; [|split; assumption].
  unfold ended. split; [exact Ov|]. split; [|congruence]. rewrite P', P, flat_map_app. cbn [flat_map]. rewrite app_nil_r. unfold first_lines at 3. rewrite B, Sv. reflexivity.
Qed.
Print Assumptions C66_ends.
(** C66. So it cannot be started at an object that has no value itself, such as the root of a subtree: the agent answers the initial Get with
    NoSuchObject and nothing is walked.  One request is all it sends. *)
Theorem C66_subtree_refuted : forall server com oid name r, names oid name -> answers 0 r -> r_status r = 0 -> r_bindings r = [(name, TNull KNoSuchObject)] ->
  exists s d, runs snmpwalk_py Text (Ok tt) [server; com; oid] (asked ++ [datagram r]) s /\
    ended s SystemExit [(46 :: dots name) ++ text " = NoSuchObject: No Such Object"%string] [d].
Proof.
  intros server com oid name r N A S0 B.
  destruct (C66_ends server com oid name [] r name (TNull KNoSuchObject) N Logic.I ltac:(reflexivity) A) as (s & d & ds & R & E & _ & F).
  { split; [exact S0|]. split; [exists []; exact B|discriminate]. }
  { auto. }
  exists s, d. split; [exact R|]. destruct ds; [|contradiction F]. destruct E as (E1 & E2 & E3). split; [exact E1|]. split; [|exact E3]. rewrite E2. cbn [app flat_map]. unfold first_lines. rewrite B. reflexivity.
Qed.
Print Assumptions C66_subtree_refuted.
(** C66. A walk does not notice an agent that does not advance: for every n there is a run in which n answers all carry the same binding and the
    program has asked n + 1 times. *)
Theorem C66_loops_refuted : forall server com oid name n, names oid name -> Z.of_nat n < 2 ^ 31 ->
  exists replies s, length replies = n /\ Forall (fun r => r_bindings r = [([1; 3; 6], TInt KInteger 5)]) replies /\
    runs snmpwalk_py Text (Ok tt) [server; com; oid] (asked ++ flat_map exchange replies) s /\ awaiting s (Z.of_nat n).
Proof. exact same_walk. Qed.
Print Assumptions C66_loops_refuted.

(** C66. A Counter64 in an answer spoils the walk: the value is repeated in the next request, which is then not the request it should be (its
    identifier octet is 0x07, which no receiver knows). *)
Theorem C66_counter64_refuted : exists server com oid name r n v s d d', names oid name /\ answers 0 r /\ good_reply r n v /\ goes_on v /\
  v = TInt KCounter64 5 /\ runs snmpwalk_py Text (Ok tt) [server; com; oid] (asked ++ exchange r) s /\ sent s = [d; d'] /\
  ~ wire true (message_tree 1 com (request_tree KGetNext 1 0 0 (r_bindings r))) (fst d').
Proof.
  pose (args := [text "h"; text "p"; text "1.3.6"]%string). pose (r := sample_reply 0 0 (TInt KCounter64 5) [70; 1; 5]).
  pose (tr := [None; None; Some (Finds Nothing); Some (Answers (Ok tt)); Some (datagram r); None; None; None; Some (Answers (Ok tt))]).
  destruct (psteps snmpwalk_py Text args (start snmpwalk_py (Ok tt) args) tr) as [s|] eqn:E; [|vm_compute in E; discriminate E].
  assert (X : option_map (fun s => (sent s, doing_of s)) (psteps snmpwalk_py Text args (start snmpwalk_py (Ok tt) args) tr) =
    Some ([([48; 27; 2; 1; 1; 4; 1; 112; 160; 19; 2; 1; 0; 2; 1; 0; 2; 1; 0; 48; 8; 48; 6; 6; 2; 43; 6; 5; 0], ([104], 161));
           ([48; 28; 2; 1; 1; 4; 1; 112; 161; 20; 2; 1; 1; 2; 1; 0; 2; 1; 0; 48; 9; 48; 7; 6; 2; 43; 6; 7; 1; 5], ([104], 161))], Running)) by (vm_compute; reflexivity).
  rewrite E in X. cbn [option_map] in X. injection X as X1 X2.
  exists [104], [112], (text "1.3.6"%string), [1; 3; 6], r, [1; 3; 6], (TInt KCounter64 5), s. do 2 eexists.
  split; [|split; [|split; [|split; [|split; [reflexivity|split; [|split; [exact X1|]]]]]]].
  - split; [apply oid_text_iff; reflexivity|cbn; repeat split; try lia; repeat constructor; lia].
  - apply sample_answers; [lia|lia| |cbn; repeat split; try lia; discriminate|cbn; lia|reflexivity].
    apply (wire_int false KCounter64 [5]); [reflexivity|repeat constructor; lia|discriminate|discriminate|apply (tlv_short 70 [5] 1); [reflexivity|lia]].
  - split; [reflexivity|]. split; [exists []; reflexivity|discriminate].
  - split; discriminate.
  - exists tr. split; [reflexivity|]. split; [exact E|]. unfold settled. rewrite X2. exact Logic.I.
  - intros W.
    destruct (message_off_wire Upto1905 _ _ _ _ _ W) as (cv & v1 & v2 & _ & _ & _ & D).
    { unfold request_tree. cbn [readable map binding_tree fst snd r_bindings r sample_reply]. repeat split; try exact Logic.I; try discriminate; try lia; try (repeat constructor; lia).
      exists 1, 0, 0. eexists. split; [reflexivity|]. unfold in32. repeat split; try lia; [|cbn; lia]. constructor; [|constructor]. do 2 eexists. reflexivity. }
    specialize (D CMessage_v2 9%nat ltac:(cbn; lia)). vm_compute in D. discriminate D.
Qed.
Print Assumptions C66_counter64_refuted.
(** C66. NoSuchInstance does not end a walk: the next request is a GetNext for the same name (the marker is sent as a Null). *)
Theorem C66_instance : exists server com oid name r s d d', names oid name /\ answers 0 r /\ good_reply r name (TNull KNoSuchInstance) /\
  runs snmpwalk_py Text (Ok tt) [server; com; oid] (asked ++ exchange r) s /\ awaiting s 1 /\ sent s = [d; d'] /\
  wire true (message_tree 1 com (request_tree KGetNext 1 0 0 [(name, TNull KNull)])) (fst d').
Proof.
  pose (args := [text "h"; text "p"; text "1.3.6"]%string). pose (r := sample_reply 0 0 (TNull KNoSuchInstance) [129; 0]).
  pose (tr := [None; None; Some (Finds Nothing); Some (Answers (Ok tt)); Some (datagram r); None; None; None; Some (Answers (Ok tt))]).
  destruct (psteps snmpwalk_py Text args (start snmpwalk_py (Ok tt) args) tr) as [s|] eqn:E; [|vm_compute in E; discriminate E].
  assert (X : option_map (fun s => (sent s, doing_of s, stack (st_of s), man (st_of s))) (psteps snmpwalk_py Text args (start snmpwalk_py (Ok tt) args) tr) =
    Some ([([48; 27; 2; 1; 1; 4; 1; 112; 160; 19; 2; 1; 0; 2; 1; 0; 2; 1; 0; 48; 8; 48; 6; 6; 2; 43; 6; 5; 0], ([104], 161));
           ([48; 27; 2; 1; 1; 4; 1; 112; 161; 19; 2; 1; 1; 2; 1; 0; 2; 1; 0; 48; 8; 48; 6; 6; 2; 43; 6; 5; 0], ([104], 161))], Running, [FRun Polling], mkMgr 2 [] [(1, Cb 0)])) by (vm_compute; reflexivity).
  rewrite E in X. cbn [option_map] in X. injection X as X1 X2 X3 X4.
  assert (one : forall z, 0 <= z < 128 -> wire true (TInt KInteger z) [2; 1; z]).
  { intros z Hz. apply (wire_number true [z] z 1); [constructor; [lia|constructor]|discriminate|intros _; exact Logic.I| |reflexivity|lia]. cbn. destruct (z <? 128) eqn:E0; lia. }
  exists [104], [112], (text "1.3.6"%string), [1; 3; 6], r, s. do 2 eexists.
  split; [|split; [|split; [|split; [|split; [|split; [exact X1|]]]]]].
  - split; [apply oid_text_iff; reflexivity|cbn; repeat split; try lia; repeat constructor; lia].
  - apply sample_answers; [lia|lia| |right; split; reflexivity|cbn; lia|reflexivity].
    apply wire_null; [reflexivity|apply (tlv_short 129 [] 0); [reflexivity|lia]].
  - split; [reflexivity|]. split; [exists []; reflexivity|discriminate].
  - exists tr. split; [reflexivity|]. split; [exact E|]. unfold settled. rewrite X2. exact Logic.I.
  - split; [exact X2|]. split; [exact X3|]. rewrite X4. split; [reflexivity|]. split; [reflexivity|]. intros x cb. unfold pending. cbn [callbacks dict_get].
    destruct (Z.eqb_spec 1 x) as [<-|N]; [split; [intros Y; injection Y as <-; auto|intros [_ ->]; reflexivity]|split; [discriminate|intros [-> _]; elim N; reflexivity]].
  - cbn [fst]. unfold message_tree, request_tree. cbn [map binding_tree fst snd].
    apply (wire_short true KSequence _ _ 27); [reflexivity| |reflexivity|lia].
    apply (wires_cons true _ _ [2; 1; 1]); [apply one; lia|].
    apply (wires_cons true _ _ [4; 1; 112]); [apply wire_oct; [reflexivity|apply (tlv_short 4 [112] 1); [reflexivity|lia]]|].
    apply wires1. apply (wire_short true KGetNext _ _ 19); [reflexivity| |reflexivity|lia].
    apply (wires_cons true _ _ [2; 1; 1]); [apply one; lia|]. apply (wires_cons true _ _ [2; 1; 0]); [apply one; lia|]. apply (wires_cons true _ _ [2; 1; 0]); [apply one; lia|].
    apply wires1. apply (wire_short true KSequence _ _ 8); [reflexivity| |reflexivity|lia].
    apply wires1. apply (wire_short true KSequence _ _ 6); [reflexivity| |reflexivity|lia].
    apply (wires_cons true _ _ [6; 2; 43; 6]).
    + apply (wire_oid true _ [43; 6]); [|apply (tlv_short 6 [43; 6] 2); [reflexivity|lia]].
      exists [43], [[6]]. split; [reflexivity|]. split; [constructor; lia|]. split; [cbn; lia|]. split; [reflexivity|].
      constructor; [|constructor]. split; [constructor; lia|]. split; [intros _; cbn; lia|reflexivity].
    + apply wires1. apply wire_null; [reflexivity|apply (tlv_short 5 [] 0); [reflexivity|lia]].
Qed.
Print Assumptions C66_instance.
(** C66. The hypotheses of the walk theorems are met: two values, an OctetString among them, then the end of the MIB view. *)
Example C66_example :
  let r0 := sample_reply 0 0 (TInt KInteger 5) [2; 1; 5] in let r1 := sample_reply 1 0 (TOct KOctetString [104; 105]) [4; 2; 104; 105] in
  let r2 := sample_reply 2 0 (TNull KEndOfMibView) [130; 0] in
  names (text ".1.3"%string) [1; 3] /\ good_walk 0 [r0; r1] /\ answers 2 r2 /\ good_reply r2 [1; 3; 6] (TNull KEndOfMibView) /\
  flat_map (first_lines false true) [r0; r1; r2] =
    [text ".1.3.6 = Integer32: 5"; text ".1.3.6 = OctetString: hi"; text "   hex: 6869"; text ".1.3.6 = EndOfMibView: EndOfMibView"]%string.
Proof.
  cbn zeta.
  assert (O : oid_survives [1; 3; 6]) by (cbn; repeat split; try lia; repeat constructor; lia).
  split; [split; [apply oid_text_iff; reflexivity|cbn; repeat split; try lia; constructor]|].
  split; [|split; [|split]].
  - cbn [good_walk]. split; [|split; [|split; [|split; [|split; [|split; [|exact Logic.I]]]]]].
    + apply sample_answers; [lia|lia| |exact Logic.I|cbn; lia|reflexivity].
      apply (wire_number false [5] 5 1); [constructor; [lia|constructor]|discriminate|discriminate|reflexivity|reflexivity|lia].
    + do 2 eexists. split; [split; [reflexivity|]; split; [exists []; reflexivity|discriminate]|split; discriminate].
    + split; [|cbn; lia]. constructor; [|constructor]. split; [exact O|]. split; [left; cbn; lia|discriminate].
    + apply sample_answers; [lia|lia| |reflexivity|cbn; lia|reflexivity].
      apply wire_oct; [reflexivity|apply (tlv_short 4 [104; 105] 2); [reflexivity|lia]].
    + do 2 eexists. split; [split; [reflexivity|]; split; [exists []; reflexivity|discriminate]|split; discriminate].
    + split; [|cbn; lia]. constructor; [|constructor]. split; [exact O|]. split; [left; reflexivity|discriminate].
  - apply sample_answers; [lia|lia| |right; split; reflexivity|cbn; lia|reflexivity].
    apply wire_null; [reflexivity|apply (tlv_short 130 [] 0); [reflexivity|lia]].
  - split; [reflexivity|]. split; [exists []; reflexivity|discriminate].
  - vm_compute. reflexivity.
Qed.

(** A process of snmpwalk.py, snmpget.py or snmpset.py. *)
Inductive query_tool : program -> Prop := query_get : query_tool snmpget_py | query_set : query_tool snmpset_py | query_walk : query_tool snmpwalk_py.
Lemma query_tool_tool p : query_tool p -> exists twice hex next, tool p twice hex next.
Proof. intros []; [exists true, true, (fun _ => stop); apply tool_get|exists true, false, (fun _ => stop); apply tool_set|exists false, true, walk_next; apply tool_walk]. Qed.

(** C66, C67. An answer with an error status prints "Error: code: text" and nothing else; the program ends. *)
Theorem C66_error : forall p args s id r t x, query_tool p -> reachable p Text args s -> awaiting s id -> answers id r ->
  r_status r <> 0 -> error_text (r_status r) = Some t ->
  exists s', goes p Text args s [datagram r; Answers x] s' /\ ended s' SystemExit (printed s ++ [error_line (r_status r) t]) (sent s).
Proof. intros p args s id r t x Q Re A An S0 E. destruct (query_tool_tool p Q) as (tw & h & nx & T). exact (error_answer p tw h nx args s id r t x T Re A An S0 E). Qed.
Print Assumptions C66_error.
(** C66, C67. An error status without a text ends it by KeyError, an answer without bindings by IndexError. *)
Theorem C66_fatal : forall p args s id r e, query_tool p -> reachable p Text args s -> awaiting s id -> answers id r ->
  (r_status r <> 0 /\ error_text (r_status r) = None /\ e = KeyError) \/ (r_status r = 0 /\ r_bindings r = [] /\ e = IndexError) ->
  exists s', goes p Text args s [datagram r] s' /\ ended s' e (printed s) (sent s).
Proof. intros p args s id r e Q Re A An C. destruct (query_tool_tool p Q) as (tw & h & nx & T). exact (fatal_answer p tw h nx args s id r T Re A An e C). Qed.
Print Assumptions C66_fatal.
(** C66, C67. The first poll (three seconds) that finds no answer ends it, as if it had been answered: exit code 0, nothing printed, no
    retransmission.  A socket error ends it too. *)
Theorem C66_silence : forall p args s id x, query_tool p -> awaiting s id ->
  exists s', goes p Text args s [Finds Nothing; Answers x] s' /\ ended s' SystemExit (printed s) (sent s).
Proof. intros p args s id x Q A. destruct (query_tool_tool p Q) as (tw & h & nx & T). exact (silence p tw h nx args s id x T A). Qed.
Print Assumptions C66_silence.
Theorem C66_socket_error : forall p args s id e, query_tool p -> awaiting s id ->
  exists s' e', goes p Text args s [Finds (SocketError e)] s' /\ ended s' e' (printed s) (sent s) /\ (e <> QueueEmpty -> e' = e).
Proof. intros p args s id e Q A. destruct (query_tool_tool p Q) as (tw & h & nx & T). exact (socket_error_ends p tw h nx args s id e T A). Qed.
Print Assumptions C66_socket_error.
(** C66, C67. Whatever poll() finds, only a datagram that decodes and carries the outstanding id can keep the program going: any other datagram
    (anybody can send one) ends it, without output and without waiting for the answer any longer. *)
Theorem C66_one_chance : forall p args s id i x, query_tool p -> awaiting s id ->
  (exists depth os src msg, i = Datagram depth os src /\ message_decode (reg_of Upto1905) depth CMessage_v2 (DStr os) = Ok msg /\ carries msg id) \/
  exists s' e ev, (ev = [] \/ ev = [Answers x]) /\ goes p Text args s (Finds i :: ev) s' /\ ended s' e (printed s) (sent s).
Proof. intros p args s id i x Q A. destruct (query_tool_tool p Q) as (tw & h & nx & T). exact (one_chance p tw h nx args s id i x T A). Qed.
Print Assumptions C66_one_chance.
(** C66, C67, C68. Between two outside events every program comes to rest, in exactly one way: it never hangs, and its behaviour is a function of what
    happens outside. *)
Theorem C66_starts : forall p t b args, exists s, runs p t b args [] s.
Proof. exact always_starts. Qed.
Print Assumptions C66_starts.
Theorem C66_progress : forall p t args s, reachable p t args s -> doing_of s = Running ->
  ((forall i, fits s (Finds i)) \/ (forall r, fits s (Answers r))) /\ forall o, fits s o -> exists s', goes p t args s [o] s'.
Proof. intros p t args s R D. split; [eapply waits; eassumption|]. intros o F. eapply always_goes; eassumption. Qed.
Print Assumptions C66_progress.
Theorem C66_deterministic : forall p t args ev s s1 s2, goes p t args s ev s1 -> goes p t args s ev s2 -> s1 = s2.
Proof. intros p t args ev. exact (goes_deterministic p t args ev). Qed.
Print Assumptions C66_deterministic.

(** ** C67: snmpget.py and snmpset.py *)

(** C67. snmpget.py with an identifier and an answer: one Get, the first binding of the answer printed, exit. *)
Theorem C67_get : forall server com oid name r n v x, names oid name -> answers 0 r -> good_reply r n v ->
  exists s d, runs snmpget_py Text (Ok tt) [server; com; oid] (asked ++ [datagram r; Answers x]) s /\
    ended s SystemExit (first_lines true true r) [d] /\ is_request KGet com (server, 161) 0 [(name, TNull KNull)] d.
Proof.
  intros server com oid name r n v x N A (S0 & (rest & B) & Sh). destruct (shown v) as [sv|] eqn:Sv; [|contradiction].
  destruct (get_first _ _ _ _ server com oid name tool_get eq_refl N) as (s & d & R & Aw & P & Se & D).
  destruct (stop_answer _ _ _ _ s 0 r n v rest sv x tool_get (runs_reachable _ _ _ _ _ _ R) Aw A S0 B Sv) as (s' & G & Ov & P' & S').
  exists s', d. split; [unfold runs in *; eapply goes_trans; eassumption|]. split; [|exact D]. split; [exact Ov|]. split; [|congruence]. rewrite P', P. unfold first_lines. rewrite B, Sv. reflexivity.
Qed.
Print Assumptions C67_get.
(** C67. snmpset.py with the type letters i, s, o and a: one Set with the value meant, the first binding of the answer printed, exit. *)
Theorem C67_set : forall server com oid name ty value t r n v x, names oid name -> set_value ty value t -> answers 0 r -> good_reply r n v ->
  exists s d, runs snmpset_py Text (Ok tt) [server; com; oid; ty; value] (asked ++ [datagram r; Answers x]) s /\
    ended s SystemExit (first_lines true false r) [d] /\ is_request KSet com (server, 161) 0 [(name, t)] d.
Proof.
  intros server com oid name ty value t r n v x N V A (S0 & (rest & B) & Sh). destruct (shown v) as [sv|] eqn:Sv; [|contradiction].
  destruct (set_first server com oid name ty value t N V) as (s & d & R & Aw & P & Se & D).
  destruct (stop_answer _ _ _ _ s 0 r n v rest sv x tool_set (runs_reachable _ _ _ _ _ _ R) Aw A S0 B Sv) as (s' & G & Ov & P' & S').
  exists s', d. split; [unfold runs in *; eapply goes_trans; eassumption|]. split; [|exact D]. split; [exact Ov|]. split; [|congruence]. rewrite P', P. unfold first_lines. rewrite B, Sv. reflexivity.
Qed.
Print Assumptions C67_set.
(** C67. When no answer comes within the first poll: nothing printed, exit code 0. *)
Theorem C67_unanswered : forall server com oid name x, names oid name -> forall p, p = snmpget_py \/ p = snmpwalk_py ->
  exists s d, runs p Text (Ok tt) [server; com; oid] (asked ++ [Finds Nothing; Answers x]) s /\ ended s SystemExit [] [d].
Proof.
  intros server com oid name x N p Hp.
  assert (X : exists s d, runs p Text (Ok tt) [server; com; oid] asked s /\ awaiting s 0 /\ printed s = [] /\ sent s = [d]).
  { destruct Hp as [-> | ->].
    - destruct (get_first _ _ _ _ server com oid name tool_get eq_refl N) as (s & d & R & Aw & P & Se & _). eauto 8.
    - destruct (get_first _ _ _ _ server com oid name tool_walk eq_refl N) as (s & d & R & Aw & P & Se & _). eauto 8. }
  destruct X as (s & d & R & Aw & P & Se).
  destruct (C66_silence p [server; com; oid] s 0 x) as (s' & G & E1 & E2 & E3); [destruct Hp as [-> | ->]; constructor|exact Aw|].
  exists s', d. split; [unfold runs in *; eapply goes_trans; eassumption|]. split; [exact E1|]. split; congruence.
Qed.
Print Assumptions C67_unanswered.
(** C67. With the wrong number of arguments they print how to use them and exit; with an identifier ObjectID refuses they end by its
    exception; nothing is sent. *)
Theorem C67_usage : forall t args, 
  (length args <> 3%nat -> forall p, p = snmpget_py \/ p = snmpwalk_py ->
     exists s, runs p t (Ok tt) args [] s /\ ended s SystemExit [text "Usage: snmpget.py <server> <community> <oid>"%string] []) /\
  (length args <> 5%nat -> exists s, runs snmpset_py t (Ok tt) args [] s /\ ended s SystemExit [text "Usage: snmpset.py <server> <community> <oid> <type> <value>"%string] []).
Proof.
  intros t args. split.
  - intros L p Hp. assert (M : p_main p = get_main /\ p_interface p = Tuple) by (destruct Hp as [-> | ->]; split; reflexivity). destruct M as [M I0].
    apply usage_ends; [exact I0|]. rewrite M. unfold get_main. destruct args as [|a [|b [|c [|d args]]]]; try reflexivity. elim L. reflexivity.
  - intros L. apply usage_ends; [reflexivity|]. cbn [p_main snmpset_py]. unfold set_main. destruct args as [|a [|b [|c [|d [|e [|f args]]]]]]; try reflexivity. elim L. reflexivity.
Qed.
Print Assumptions C67_usage.
Theorem C67_bad_name : forall t server com oid, (forall name, ~ oid_text oid name) -> forall p, p = snmpget_py \/ p = snmpwalk_py ->
  exists s, runs p t (Ok tt) [server; com; oid] [] s /\ ended s ValueError [] [].
Proof.
  intros t server com oid E p Hp. assert (X : oid_init (VPyStr oid) = Err ValueError).
  { unfold oid_init. destruct (oid_of_str oid) as [l|e] eqn:O; [apply oid_text_iff in O; elim (E l O)|rewrite (oid_text_err _ _ O); reflexivity]. }
  destruct Hp as [-> | ->]; apply get_refused; auto.
Qed.
Print Assumptions C67_bad_name.
(** C67. snmpset.py ends, without sending anything, by ValueError for an i value that is not a number in the text int() takes or out of range, by TypeError for
    every value of the documented types t, c and C, and by KeyError for any other type. *)
Theorem C67_set_refused : forall t server com oid name ty value e, names oid name ->
  (ty = text "i"%string /\ e = ValueError /\ forall z, int_text value z -> ~ (- 2 ^ 31 <= z <= 2 ^ 31)) \/
  (In ty [text "t"%string; text "c"%string; text "C"%string] /\ e = TypeError) \/
  ((forall c k, ty = [c] -> letter_kind c <> Some k) /\ e = KeyError) ->
  exists s, runs snmpset_py t (Ok tt) [server; com; oid; ty; value] [] s /\ ended s e [] [].
Proof.
  intros t server com oid name ty value e G C. apply set_refused. destruct C as [(-> & -> & C)|[(I0 & ->)|(C & ->)]].
  - eapply set_integer_refused; eassumption.
  - eapply set_unusable; eassumption.
  - apply set_unknown; assumption.
Qed.
Print Assumptions C67_set_refused.
(** C67. Over the sockets of Python 3 none of them works: the first datagram is refused with TypeError, and no history makes one print anything
    that an agent sent. *)
Theorem C67_python3_refuted : forall server com oid name x, names oid name ->
  (forall p, p = snmpget_py \/ p = snmpwalk_py -> exists s, runs p Real (Ok tt) [server; com; oid] [Finds Nothing; Answers x] s /\ doing_of s = Over TypeError /\ printed s = []) /\
  forall ty value t, set_value ty value t -> exists s, runs snmpset_py Real (Ok tt) [server; com; oid; ty; value] [Finds Nothing; Answers x] s /\ doing_of s = Over TypeError /\ printed s = [].
Proof.
  intros server com oid name x N. split.
  - intros p Hp. assert (T : exists tw h nx, tool p tw h nx /\ p_main p = get_main).
    { destruct Hp as [-> | ->]; [exists true, true, (fun _ => stop); split; [apply tool_get|reflexivity]|exists false, true, walk_next; split; [apply tool_walk|reflexivity]]. }
    destruct T as (tw & h & nx & T & M). 
    eapply real_first; [exact T|rewrite M; reflexivity|].
    intros m' r D. exact (get_queued server com oid name m' r N D).
  - intros ty value t V. destruct (set_call_made cb_response server com oid ty value t V) as (a & Ea).
    eapply real_first; [apply tool_set|cbn [p_main snmpset_py]; unfold set_main; rewrite Ea; reflexivity|].
    intros m' r D. eapply (set_value_queued cb_response server com oid name ty value t mgr0); [exact N|exact V|cbn; lia|].
    unfold snmpset. rewrite Ea. exact D.
Qed.
Print Assumptions C67_python3_refuted.
Theorem C67_python3_mute : forall p args s, reachable p Real args s ->
  ((p = snmpget_py \/ p = snmpwalk_py) /\ length args = 3%nat) \/ (p = snmpset_py /\ length args = 5%nat) -> printed s = [].
Proof.
  intros p args s R H.
  assert (Q : quiet (p_main p args) /\ quiet (p_done p)).
  { destruct H as [[[-> | ->] L]|[-> L]]; (split; [|exact Logic.I]).
    - destruct args as [|a [|b [|c [|d args]]]]; try discriminate L. exact Logic.I.
    - destruct args as [|a [|b [|c [|d args]]]]; try discriminate L. exact Logic.I.
    - destruct args as [|a [|b [|c [|d [|e [|f args]]]]]]; try discriminate L. cbn [p_main snmpset_py]. unfold set_main. destruct (snmpset_call cb_response a b c d e); exact Logic.I. }
  apply (real_mute p args s (proj1 Q) (proj2 Q) R).
Qed.
Print Assumptions C67_python3_mute.

(** C67. The hypotheses are met: a number, an address, an identifier; an answer; an error of the agent. *)
Example C67_example :
  let r0 := sample_reply 0 0 (TOct KOctetString [104; 105]) [4; 2; 104; 105] in let r1 := sample_reply 0 2 (TNull KNull) [5; 0] in
  names (text "1.3.6"%string) [1; 3; 6] /\ set_value (text "i"%string) (text " +42"%string) (TInt KInteger 42) /\ set_value (text "a"%string) (text "10.0.0.255"%string) (TOct KIpAddress [10; 0; 0; 255]) /\
  set_value (text "o"%string) (text ".1.3.6"%string) (TOid [1; 3; 6]) /\ answers 0 r0 /\ good_reply r0 [1; 3; 6] (TOct KOctetString [104; 105]) /\
  first_lines true true r0 = [text ".1.3.6 = OctetString: (hi) hi"; text "   hex: 6869"]%string /\ first_lines true false r0 = [text ".1.3.6 = OctetString: (hi) hi"%string] /\
  answers 0 r1 /\ r_status r1 <> 0 /\ error_text (r_status r1) <> None /\
  (exists s id, reachable snmpget_py Text [[104]; [112]; text "1.3.6"%string] s /\ awaiting s id) /\
  (forall name, ~ oid_text (text "1..3"%string) name) /\ forall z, ~ int_text (text "4x"%string) z.
Proof.
  cbn zeta.
  assert (N : names (text "1.3.6"%string) [1; 3; 6]) by (split; [apply oid_text_iff; reflexivity|cbn; repeat split; try lia; repeat constructor; lia]).
  assert (N' : names (text ".1.3.6"%string) [1; 3; 6]) by (split; [apply oid_text_iff; reflexivity|apply N]).
  split; [exact N|]. split; [|split; [|split; [|split; [|split; [|split; [|split; [|split; [|split; [|split; [|split; [|split]]]]]]]]]]].
  - apply set_value_i; [apply int_of_str_ok; reflexivity|lia|left; lia].
  - apply set_value_a; [|repeat constructor; lia]. exists [text "10"; text "0"; text "0"; text "255"]%string. split; [reflexivity|]. split; [reflexivity|].
    repeat (constructor; [split; [apply int_of_str_ok; reflexivity|lia]|]). constructor.
  - apply set_value_o. exact N'.
  - apply sample_answers; [lia|lia| |reflexivity|cbn; lia|reflexivity]. apply wire_oct; [reflexivity|apply (tlv_short 4 [104; 105] 2); [reflexivity|lia]].
  - split; [reflexivity|]. split; [exists []; reflexivity|discriminate].
  - vm_compute. reflexivity.
  - vm_compute. reflexivity.
  - apply sample_answers; [lia|lia| |left; reflexivity|cbn; lia|reflexivity]. apply wire_null; [reflexivity|apply (tlv_short 5 [] 0); [reflexivity|lia]].
  - discriminate.
  - discriminate.
  - destruct (get_first _ _ _ _ [104] [112] (text "1.3.6"%string) [1; 3; 6] tool_get eq_refl N) as (s & d & R & Aw & _). exists s, 0. split; [eapply runs_reachable; exact R|exact Aw].
  - intros name O. apply oid_text_iff in O. discriminate O.
  - intros z O. apply int_of_str_ok in O. discriminate O.
Qed.

(** ** C68: the other programs *)

(** C68. snmpget-v1.py and snmpget-v2.py pass the callback where the interface is expected: with any arguments and any network they end by TypeError before they
    have looked at the command line; a manager whose port is taken ends every program by the exception of bind. *)
Theorem C68_v1_v2_refuted : forall t b args p, p = snmpget_v1_py \/ p = snmpget_v2_py ->
  exists s, runs p t b args [] s /\ ended s TypeError [] [] /\ forall ev s', runs p t b args ev s' -> s' = s.
Proof.
  intros t b args p Hp. assert (NT : p_interface p = NotTuple) by (destruct Hp as [-> | ->]; reflexivity).
  destruct (interface_refused p t b args NT) as (s & R & E). exists s. split; [exact R|]. split; [exact E|]. intros ev s' R'.
  assert (X : forall tr s1, psteps p t args (start p b args) tr = Some s1 -> s1 = start p b args).
  { intros [|o tr] s1 H; cbn [psteps] in H; [congruence|]. unfold start in H. rewrite NT in H. cbn in H. destruct o as [[|]|]; discriminate H. }
  destruct R as (tr & _ & P & _). destruct R' as (tr' & _ & P' & _). rewrite (X _ _ P), (X _ _ P'). reflexivity.
Qed.
Print Assumptions C68_v1_v2_refuted.
Theorem C68_port_taken : forall p t e args, p_interface p = Tuple -> exists s, runs p t (Err e) args [] s /\ ended s e [] [].
Proof.
  intros p t e args I0. eexists. split; [|split; [|split]]; [exists []; split; [reflexivity|]; split; [reflexivity|]|..]; unfold settled, start; rewrite I0; try exact Logic.I; reflexivity.
Qed.
Print Assumptions C68_port_taken.
(** C68. traplistener.py starts listening, and prints each SNMPv1 trap that arrives, whatever came before: one line for the trap, one for each binding. *)
Theorem C68_listens : forall shown_ args x, exists s, runs (traplistener_py shown_) Text (Ok tt) args [Answers x] s /\ listening s /\ printed s = [] /\ sent s = [].
Proof. exact listener_starts. Qed.
Print Assumptions C68_listens.
Theorem C68_trap : forall shown_ args s strict ver com ent agent g sp ticks bs os depth src name x,
  let pdu := trap_tree ent agent g sp ticks bs in
  listening s -> wire strict (message_tree ver com pdu) os -> readable Upto1905 pdu -> (S (height pdu) <= depth)%nat -> ver = 0 \/ ver = 1 ->
  trap_name g = Some name -> Forall (fun b => shown (snd b) <> None) bs ->
  exists s', goes (traplistener_py shown_) Text args s [Finds (Datagram depth os src); Answers x] s' /\ listening s' /\
    printed s' = printed s ++ trap_line ent agent g name sp ticks :: map trap_binding_line bs /\ sent s' = sent s.
Proof. exact trap_printed. Qed.
Print Assumptions C68_trap.
(** C68. No datagram ends it or stops it listening, and what is printed stays printed; a socket error ends it. *)
Theorem C68_survives : forall shown_ args s i x, listening s -> (forall e, i <> SocketError e) ->
  exists s', goes (traplistener_py shown_) Text args s [Finds i; Answers x] s' /\ listening s' /\ sent s' = sent s /\ exists more, printed s' = printed s ++ more.
Proof. exact survives. Qed.
Print Assumptions C68_survives.
Theorem C68_socket_error : forall shown_ args s e, listening s ->
  exists s', goes (traplistener_py shown_) Text args s [Finds (SocketError e)] s' /\ ended s' e (printed s) (sent s).
Proof. exact listener_socket_error. Qed.
Print Assumptions C68_socket_error.
(** C68. It never shows an SNMPv2 notification: a well-formed message with any PDU but an SNMPv1 trap prints nothing. *)
Theorem C68_notification_refuted : forall shown_ args s strict ver com pdu os depth src x, listening s ->
  wire strict (message_tree ver com pdu) os -> readable Upto1905 pdu -> (S (height pdu) <= depth)%nat -> top_kind pdu <> KTrapV1 ->
  exists s', goes (traplistener_py shown_) Text args s [Finds (Datagram depth os src); Answers x] s' /\ listening s' /\ printed s' = printed s.
Proof. exact v2_trap_lost. Qed.
Print Assumptions C68_notification_refuted.
(** C68. Over the sockets of Python 3 it never prints anything. *)
Theorem C68_python3_refuted : forall shown_ args s, reachable (traplistener_py shown_) Real args s -> printed s = [].
Proof. intros shown_ args s R. apply (real_mute _ args s) in R as [P _]; [exact P|exact Logic.I|exact Logic.I]. Qed.
Print Assumptions C68_python3_refuted.
(** C68. trapsender.py ends by AttributeError the first time it makes a trap; it never sends one. *)
Theorem C68_sender_refuted : forall t now uptime args x, exists s, runs (trapsender_py now uptime) t (Ok tt) args [Answers x] s /\ ended s AttributeError [] [].
Proof. exact sender_ends. Qed.
Print Assumptions C68_sender_refuted.
(** C68. A trap that meets the hypotheses: enterpriseSpecific, with one binding; and an SNMPv2 trap. *)
Example C68_example :
  let pdu := trap_tree [1; 3; 6] [10; 0; 0; 1] 6 1 7 [([1; 3; 6], TInt KInteger 5)] in
  let os := [48; 38; 2; 1; 0; 4; 1; 112; 164; 30; 6; 2; 43; 6; 64; 4; 10; 0; 0; 1; 2; 1; 6; 2; 1; 1; 67; 1; 7; 48; 9; 48; 7; 6; 2; 43; 6; 2; 1; 5] in
  wire true (message_tree 0 [112] pdu) os /\ readable Upto1905 pdu /\ (S (height pdu) <= 9)%nat /\ trap_name 6 = Some (text "enterpriseSpecific"%string) /\
  trap_line [1; 3; 6] [10; 0; 0; 1] 6 (text "enterpriseSpecific"%string) 1 7 = text ".1.3.6,10.0.0.1,6,enterpriseSpecific,1,7"%string /\
  trap_binding_line ([1; 3; 6], TInt KInteger 5) = text "  .1.3.6,5"%string /\
  top_kind (request_tree KTrapV2 0 0 0 [([1; 3; 6], TInt KInteger 5)]) <> KTrapV1 /\ readable Upto1905 (request_tree KTrapV2 0 0 0 [([1; 3; 6], TInt KInteger 5)]).
Proof.
  cbn zeta.
  assert (one : forall z, 0 <= z < 128 -> wire true (TInt KInteger z) [2; 1; z]).
  { intros z Hz. apply (wire_number true [z] z 1); [constructor; [lia|constructor]|discriminate|intros _; exact Logic.I| |reflexivity|lia]. cbn. destruct (z <? 128) eqn:E0; lia. }
  assert (OI : wire true (TOid [1; 3; 6]) [6; 2; 43; 6]).
  { apply (wire_oid true _ [43; 6]); [|apply (tlv_short 6 [43; 6] 2); [reflexivity|lia]].
    exists [43], [[6]]. split; [reflexivity|]. split; [constructor; lia|]. split; [cbn; lia|]. split; [reflexivity|].
    constructor; [|constructor]. split; [constructor; lia|]. split; [intros _; cbn; lia|reflexivity]. }
  split; [|split; [|split; [cbn; lia|split; [reflexivity|split; [reflexivity|split; [reflexivity|split; [discriminate|]]]]]]].
  - unfold message_tree, trap_tree. cbn [map binding_tree fst snd].
    apply (wire_short true KSequence _ _ 38); [reflexivity| |reflexivity|lia].
    apply (wires_cons true _ _ [2; 1; 0]); [apply one; lia|].
    apply (wires_cons true _ _ [4; 1; 112]); [apply wire_oct; [reflexivity|apply (tlv_short 4 [112] 1); [reflexivity|lia]]|].
    apply wires1. apply (wire_short true KTrapV1 _ _ 30); [reflexivity| |reflexivity|lia].
    apply (wires_cons true _ _ [6; 2; 43; 6]); [exact OI|].
    apply (wires_cons true _ _ [64; 4; 10; 0; 0; 1]); [apply wire_oct; [reflexivity|apply (tlv_short 64 [10; 0; 0; 1] 4); [reflexivity|lia]]|].
    apply (wires_cons true _ _ [2; 1; 6]); [apply one; lia|]. apply (wires_cons true _ _ [2; 1; 1]); [apply one; lia|].
    apply (wires_cons true _ _ [67; 1; 7]); [apply (wire_int true KTimeTicks [7]); [reflexivity|repeat constructor; lia|discriminate|intros _; exact Logic.I|apply (tlv_short 67 [7] 1); [reflexivity|lia]]|].
    apply wires1. apply (wire_short true KSequence _ _ 9); [reflexivity| |reflexivity|lia].
    apply wires1. apply (wire_short true KSequence _ _ 7); [reflexivity| |reflexivity|lia].
    apply (wires_cons true _ _ [6; 2; 43; 6]); [exact OI|]. apply wires1. apply one. lia.
  - unfold trap_tree. cbn [readable map binding_tree fst snd]. repeat split; try exact Logic.I; try lia; try (repeat constructor; lia).
    do 6 eexists. split; [reflexivity|]. unfold in32. repeat split; try lia. constructor; [|constructor]. do 2 eexists. reflexivity.
  - unfold request_tree. cbn [readable map binding_tree fst snd]. repeat split; try exact Logic.I; try lia; try (repeat constructor; lia).
    exists 0, 0, 0. eexists. split; [reflexivity|]. unfold in32. repeat split; try lia; [|cbn; lia]. constructor; [|constructor]. do 2 eexists. reflexivity.
Qed.
