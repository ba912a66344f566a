(** * More proofs about the command-line programs. *)
From Coq Require Import Ascii String ZArith List Bool Lia ZifyBool ZifyNat.
From Verif Require Import PyBase Classes Values Codec Manager Text Frontend Tools.
From Verif Require Import SpecBER SpecSMI SpecTree SpecWire SpecMsg SpecManager SpecText SpecFront.
From Verif Require Import ProofsTree ProofsDecode ProofsWire ProofsMsg ProofsOid ProofsManager ProofsHistory ProofsReceive ProofsCalls ProofsRun ProofsPrint ProofsFront ProofsText ProofsNumber ProofsScalar.
From Verif Require Import SpecTools ProofsTools ProofsPrograms.
Import ListNotations.
Open Scope Z_scope.

(** ** snmpset.py *)
Lemma set_value_queued cb server com oid name ty value t m m' r : names oid name -> set_value ty value t -> 0 <= nextRequestID m < 2 ^ 31 ->
  snmpset cb server com oid ty value m = (m', r) ->
  queued m m' r (nextRequestID m) (server, 161) cb (message_tree 1 com (request_tree KSet (nextRequestID m) 0 0 [(name, t)])).
Proof.
  intros N V Id H. destruct V as [value z P R S|value|value n Nn|value l P Q].
  - eapply set_integer; eassumption.
  - eapply set_string; eassumption.
  - eapply set_identifier; eassumption.
  - eapply set_address; eassumption.
Qed.
Lemma set_call_made cb server com oid ty value t : set_value ty value t -> exists a, snmpset_call cb server com oid ty value = Ok a.
Proof.
  intros V. destruct V as [value z P R S|value|value n Nn|value l P Q]; unfold snmpset_call.
  - change (typeSetter (text "i")) with (Ok 2). cbn [bind]. change (str_eqb (text "i") (text "i")) with true. cbv iota. apply int_of_str_ok in P. rewrite P. cbn [bind]. eauto.
  - eexists. reflexivity.
  - eexists. reflexivity.
  - eexists. reflexivity.
Qed.
Lemma set_first server com oid name ty value t : names oid name -> set_value ty value t ->
  exists s d, runs snmpset_py Text (Ok tt) [server; com; oid; ty; value] asked s /\ awaiting s 0 /\ printed s = [] /\ sent s = [d] /\ is_request KSet com (server, 161) 0 [(name, t)] d.
Proof.
  intros N V. destruct (set_call_made cb_response server com oid _ _ _ V) as (a & E).
  destruct (first_request snmpset_py true false (fun _ => stop) [server; com; oid; ty; value] a (server, 161)
    (message_tree 1 com (request_tree KSet 0 0 0 [(name, t)])) tool_set) as (s & os & R & A & P & S & W).
  - cbn [p_main snmpset_py set_main]. rewrite E. reflexivity.
  - intros m' r H. apply (set_value_queued cb_response server com oid name ty value t mgr0 m' r N V); [cbn; lia|]. unfold snmpset. rewrite E. exact H.
  - exists s, (os, (server, 161)). split; [exact R|]. split; [exact A|]. split; [exact P|]. split; [exact S|]. split; [reflexivity|exact W].
Qed.
(** Arguments that are refused. *)
Lemma ask_fails p t args a e : p_interface p = Tuple -> p_flavour p = FSM -> p_main p args = Ask a (Stop (Ok tt)) -> do_call FSM a mgr0 = (mgr0, Err e) ->
  exists s, runs p t (Ok tt) args [] s /\ ended s e [] [].
Proof.
  intros I F M D. eexists. split.
  - exists [None; None]. split; [reflexivity|]. split.
    + unfold start. rewrite I, M. cbn [psteps]. unfold pstep at 1. cbn [step init user_runs system_of flav man]. rewrite F, D. cbn [snd outbound mgr0 skipn map length]. 
      unfold pstep. cbn [stack]. reflexivity.
    + exact Logic.I.
  - repeat split.
Qed.
Lemma get_refused p t server com oid e : p_interface p = Tuple -> p_flavour p = FSM -> p_main p = get_main -> oid_init (VPyStr oid) = Err e ->
  exists s, runs p t (Ok tt) [server; com; oid] [] s /\ ended s e [] [].
Proof.
  intros I F M E. eapply ask_fails; [exact I|exact F|rewrite M; reflexivity|]. cbn [do_call]. unfold snmpGet, createGetRequestMessage, null_binding.
  unfold mmap, mbind, lift. cbn [Z.eqb Pos.eqb]. rewrite ?E. cbn [bind]. reflexivity.
Qed.
Lemma set_refused t server com oid ty value e : snmpset cb_response server com oid ty value mgr0 = (mgr0, Err e) ->
  exists s, runs snmpset_py t (Ok tt) [server; com; oid; ty; value] [] s /\ ended s e [] [].
Proof.
  intros H. unfold snmpset in H. destruct (snmpset_call cb_response server com oid ty value) as [a|e'] eqn:E.
  - eapply ask_fails; [reflexivity|reflexivity| |exact H]. cbn [p_main snmpset_py set_main]. rewrite E. reflexivity.
  - injection H as ->. eexists. split.
    + exists [None]. split; [reflexivity|]. split; [unfold start; cbn [p_interface p_main snmpset_py set_main]; rewrite E; reflexivity|exact Logic.I].
    + repeat split.
Qed.
Lemma usage_ends p t args line : p_interface p = Tuple -> p_main p args = usage line -> exists s, runs p t (Ok tt) args [] s /\ ended s SystemExit [line] [].
Proof.
  intros I M. eexists. split.
  - exists [None; None]. split; [reflexivity|]. split; [unfold start; rewrite I, M; reflexivity|exact Logic.I].
  - repeat split.
Qed.

(** ** Python 3 sockets *)
Definition clean (f : frame) : Prop := match f with FResp _ | FTrap => False | _ => True end.
Lemma loop_empty_clean sys m rest lg : Forall clean rest -> Forall clean (stack (loop_empty sys m rest lg)).
Proof. intros F. unfold loop_empty. destruct (queueEmpty sys) as [[|n]|]; cbn; repeat constructor; assumption. Qed.
Lemma poll_returns_clean sys m r stk lg : Forall clean stk -> Forall clean (stack (poll_returns sys m r stk lg)).
Proof.
  intros F. destruct stk as [|f rest]; cbn [poll_returns]; [destruct r; constructor|]. inversion F as [|? ? C F']; subst.
  destruct f; try (destruct C; fail); try exact F. destruct r as [u|e]; [destruct (flav sys); cbn; constructor; auto|].
  assert (X : Forall clean (stack (run_raises m e rest lg))) by exact F'. pose proof (loop_empty_clean sys m rest lg F').
  destruct e, (flav sys); assumption.
Qed.
Lemma real_poll_clean sys m i stk lg : trans sys = Real -> Forall clean stk -> Forall clean (stack (poll_called sys m i stk lg)).
Proof.
  intros T F. destruct i as [|depth s src|e]; cbn [poll_called].
  - apply poll_returns_clean, F.
  - rewrite T. cbn [received]. unfold receive_called, receiveData, message_decode. cbn [decode_data bind]. cbn [receive_returns].
    apply poll_returns_clean, F.
  - apply poll_returns_clean, F.
Qed.
Lemma send_clean sys m r rest lg : Forall clean rest -> Forall clean (stack (send_called sys m r rest lg)).
Proof.
  intros F. unfold send_called. destruct (outbound m) as [|[om dst] q]; [apply loop_empty_clean, F|].
  assert (X : forall e m lg, Forall clean (stack (match e with QueueEmpty => loop_empty sys m rest lg | _ => run_raises m e rest lg end))).
  { intros e m0 lg0. pose proof (loop_empty_clean sys m0 rest lg0 F). destruct e; try exact F; assumption. }
  destruct (match om with None => _ | Some msg => _ end) as [os|e]; [|apply X].
  destruct (sendto (trans sys) r); [|apply X]. cbn. constructor; [exact Logic.I|exact F].
Qed.
Definition mute (p : program) (s : pstate) : Prop :=
  printed s = [] /\ Forall clean (stack (st_of s)) /\ match doing_of s with Own k => quiet k | _ => True end.
Lemma resume_mute p args st tab : quiet (p_done p) -> Forall clean (stack st) -> mute p (resume p args st tab []).
Proof.
  intros Q F. split; [reflexivity|]. split; [exact F|]. unfold resume. cbn [doing_of].
  destruct (stack st) as [|[] rest]; try exact Q; try exact Logic.I; try (inversion F as [|? ? C]; destruct C).
  - destruct (rev (log st)) as [|[] l]; try exact Logic.I. destruct r; exact Logic.I.
Qed.
Lemma pstep_mute p args s o s' : quiet (p_done p) -> mute p s -> pstep p Real args s o = Some s' -> mute p s'.
Proof.
  intros Q (P & F & D) H. destruct s as [st tab d out]. cbn [printed st_of doing_of] in *. subst out. unfold pstep in H.
  destruct d as [[l k|a k|r]| |e], o as [[i|r0]|]; try discriminate.
  - destruct D.
  - destruct st as [m stk lg]. cbn [step] in H. destruct (user_runs stk); [|discriminate]. destruct (do_call _ a m) as [m' r]. injection H as <-.
    split; [reflexivity|]. split; [exact F|]. cbn [doing_of]. destruct (snd _); [exact D|exact Logic.I].
  - destruct st as [m stk lg]. cbn [stack st_of] in *. destruct stk as [|f stk].
    + destruct r as [[]|e]; [|injection H as <-; repeat split; constructor].
      cbn [step user_runs] in H. injection H as <-. split; [reflexivity|]. split; [|exact Logic.I]. cbn. constructor; [exact Logic.I|constructor].
    + inversion F as [|? ? C F']; subst. destruct f; try (destruct C; fail); destruct r as [[]|e]; cbn [step] in H; try discriminate.
      * injection H as <-. apply resume_mute; assumption.
      * destruct stk as [|[] stk]; try discriminate. injection H as <-. apply resume_mute; [assumption|]. inversion F'; assumption.
  - destruct (stack st) as [|[| | | |[|]] stk] eqn:K; try discriminate. destruct (step _ st (LPoll i)) as [st'|] eqn:S; [|discriminate]. injection H as <-.
    apply resume_mute; [assumption|]. destruct st as [m stk' lg]. cbn [stack] in K. subst. cbn [step] in S. injection S as <-. apply real_poll_clean; [reflexivity|exact F].
  - destruct (step _ st (LSend r0)) as [st'|] eqn:S; [|discriminate]. injection H as <-. apply resume_mute; [assumption|].
    destruct st as [m stk lg]. cbn [step] in S. destruct stk as [|[| | | |[|]] stk]; try discriminate. injection S as <-. apply send_clean. cbn in F. inversion F; assumption.
Qed.
Lemma real_mute p args s : quiet (p_main p args) -> quiet (p_done p) -> reachable p Real args s -> mute p s.
Proof.
  intros Q1 Q2 (b & tr & H). unfold prun in H.
  assert (M : mute p (start p b args)).
  { split; [reflexivity|]. split; [constructor|]. unfold start. cbn [doing_of]. destruct (match p_interface p with NotTuple => _ | Tuple => _ end); [exact Q1|exact Logic.I]. }
  revert M H. generalize (start p b args). induction tr as [|o tr IH]; intros s0 M H; cbn [psteps] in H; [injection H as <-; exact M|].
  destruct (pstep p Real args s0 o) as [s1|] eqn:P; [|discriminate]. apply (IH s1); [eapply pstep_mute; eassumption|exact H].
Qed.
(** And the first send ends the programs that send. *)
Lemma real_first p twice hex next args a dst tr x : tool p twice hex next -> p_main p args = Ask a (Stop (Ok tt)) ->
  (forall m' r, do_call FSM a mgr0 = (m', r) -> queued mgr0 m' r 0 dst (Cb 0) tr) ->
  exists s, runs p Real (Ok tt) args [Finds Nothing; Answers x] s /\ doing_of s = Over TypeError /\ printed s = [].
Proof.
  intros To M Q. pose proof To as (F & Tu & _). unfold runs, start. rewrite Tu, M.
  destruct (ask_step p Real args mgr0 [] [] errString0 [] a (Stop (Ok tt)) 0 dst (Cb 0) tr F eq_refl Q) as (m' & kr & msg & os & tab' & S1 & N & O & C & E & W).
  cbn [app outbound mgr0] in O.
  eexists. split; [|split].
  - exists [None; None; Some (Finds Nothing); Some (Answers x)]. split; [reflexivity|]. split.
    + cbn [psteps]. unfold init. rewrite S1. cbn [app].
      assert (L : pstep p Real args (mkP (mkState m' [] [ECall a (Ok (RVal (VInt kr 0))); EPut (Some msg) dst]) tab' (Own (Stop (Ok tt))) []) None =
                  Some (mkP (mkState m' [FRun Polling] [ECall a (Ok (RVal (VInt kr 0))); EPut (Some msg) dst]) tab' Running [])).
      { unfold pstep. cbn [stack step user_runs system_of flav]. rewrite F. reflexivity. }
      rewrite L. 
      assert (L2 : pstep p Real args (mkP (mkState m' [FRun Polling] [ECall a (Ok (RVal (VInt kr 0))); EPut (Some msg) dst]) tab' Running []) (Some (Finds Nothing)) =
                   Some (mkP (mkState m' [FRun Sending] [ECall a (Ok (RVal (VInt kr 0))); EPut (Some msg) dst]) tab' Running [])) by reflexivity.
      rewrite L2. unfold pstep. cbn [step]. unfold send_called, system_of. cbn [trans sendto]. rewrite O, E. unfold run_raises, resume. cbn [stack log]. rewrite rev_app_distr. cbn [rev app]. reflexivity.
    + exact Logic.I.
  - reflexivity.
  - reflexivity.
Qed.

(** ** An agent that gives the same answer for ever *)
(** An answer with one binding: the name 1.3.6 and a value [v] written [c]. *)
Definition sample_reply (id st : Z) (v : tree) (c : str) : reply :=
  mkReply ([48; 28 + zlen c; 2; 1; 1; 4; 1; 112; 162; 20 + zlen c; 2; 4; id / 2 ^ 24; id / 2 ^ 16 mod 256; id / 2 ^ 8 mod 256; id mod 256; 2; 1; st; 2; 1; 0; 48; 6 + zlen c; 48; 4 + zlen c; 6; 2; 43; 6] ++ c)
          9 ([], 161) false 1 [112] st 0 [([1; 3; 6], v)].
Definition same_reply (id : Z) : reply := sample_reply id 0 (TInt KInteger 5) [2; 1; 5].
Lemma tlv_short k c n : zlen c = n -> n < 128 -> tlv_octets k c (k :: n :: c).
Proof. intros <- L. exists [zlen c]. split; [|reflexivity]. left. unfold zlen in *. split; [reflexivity|lia]. Qed.
Lemma wire_number strict c z n : octet_string c -> c <> [] -> (strict = true -> shortest_form c) -> twos_value c = z -> zlen c = n -> n < 128 -> wire strict (TInt KInteger z) (2 :: n :: c).
Proof. intros O N S <- L L2. apply (wire_int strict KInteger c); [reflexivity|exact O|exact N|exact S|apply tlv_short; assumption]. Qed.
Lemma wires1 strict t a : wire strict t a -> wires strict [t] a.
Proof. intros W. rewrite <- (app_nil_r a). constructor; [exact W|constructor]. Qed.
Lemma wire_short strict k ts c n : seq_kind k = true -> wires strict ts c -> zlen c = n -> n < 128 -> wire strict (TSeq k ts) (kind_octet k :: n :: c).
Proof. intros K W L L2. eapply wire_seq; [exact K|exact W|]. apply tlv_short; assumption. Qed.
Lemma sample_answers id st v c : 0 <= id < 2 ^ 31 -> 0 <= st < 128 -> wire false v c -> readable Upto1905 v -> (height v <= 3)%nat -> zlen c < 100 -> answers id (sample_reply id st v c).
Proof.
  intros H Hst W Rd Hh Lc. unfold answers, sample_reply. cbn [r_octets r_depth r_source r_strict r_version r_community r_status r_index r_bindings].
  assert (O : oid_survives [1; 3; 6]) by (cbn; repeat split; try lia; repeat constructor; lia).
  assert (S : request_shape [TInt KInteger id; TInt KInteger st; TInt KInteger 0; TSeq KSequence [TSeq KSequence [TOid [1; 3; 6]; v]]]).
  { exists id, st, 0. eexists. split; [reflexivity|]. unfold in32. repeat split; try lia; [|cbn; lia]. constructor; [|constructor]. do 2 eexists. reflexivity. }
  assert (one : forall z, 0 <= z < 128 -> wire false (TInt KInteger z) [2; 1; z]).
  { intros z Hz. apply (wire_number false [z] z 1); [constructor; [lia|constructor]|discriminate|discriminate| |reflexivity|lia].
    cbn. destruct (z <? 128) eqn:E; lia. }
  assert (NUM : wire false (TInt KInteger id) [2; 4; id / 2 ^ 24; id / 2 ^ 16 mod 256; id / 2 ^ 8 mod 256; id mod 256]).
  { assert (A1 : id / 2 ^ 8 = id / 256) by reflexivity. assert (A2 : id / 2 ^ 16 = id / 256 / 256) by (rewrite Z.div_div by lia; reflexivity).
    assert (A3 : id / 2 ^ 24 = id / 256 / 256 / 256) by (rewrite !Z.div_div by lia; reflexivity). rewrite A1, A2, A3.
    assert (B : 0 <= id / 256 / 256 / 256 < 128) by (rewrite !Z.div_div by lia; change (256 * 256 * 256) with (2 ^ 24); split; [apply Z.div_pos; lia|apply Z.div_lt_upper_bound; lia]).
    apply (wire_number false _ id 4); [|discriminate|discriminate| |reflexivity|lia].
    - repeat constructor; pose proof (Z.mod_pos_bound (id / 256 / 256) 256); pose proof (Z.mod_pos_bound (id / 256) 256); pose proof (Z.mod_pos_bound id 256); lia.
    - unfold twos_value. replace (id / 256 / 256 / 256 <? 128) with true by lia. cbn [be_value length Z.of_nat Pos.of_succ_nat Pos.succ]. 
      pose proof (Z.div_mod id 256). pose proof (Z.div_mod (id / 256) 256). pose proof (Z.div_mod (id / 256 / 256) 256). lia. }
  split; [|split; [|split; [apply le_n_S; unfold request_tree; cbn [map binding_tree fst snd height fold_right]; lia|right; reflexivity]]].
  - unfold message_tree, request_tree. cbn [map binding_tree fst snd].
    assert (Len : forall l, zlen (l ++ c) = zlen l + zlen c) by (intros l; unfold zlen; rewrite app_length; lia).
    pose proof (Zle_0_nat (length c)) as Pos. fold (zlen c) in Pos.
    change ([48; 28 + zlen c; 2; 1; 1; 4; 1; 112; 162; 20 + zlen c; 2; 4; id / 2 ^ 24; id / 2 ^ 16 mod 256; id / 2 ^ 8 mod 256; id mod 256; 2; 1; st; 2; 1; 0; 48; 6 + zlen c; 48; 4 + zlen c; 6; 2; 43; 6] ++ c)
      with (48 :: (28 + zlen c) :: [2; 1; 1; 4; 1; 112; 162; 20 + zlen c; 2; 4; id / 2 ^ 24; id / 2 ^ 16 mod 256; id / 2 ^ 8 mod 256; id mod 256; 2; 1; st; 2; 1; 0; 48; 6 + zlen c; 48; 4 + zlen c; 6; 2; 43; 6] ++ c).
    apply (wire_short false KSequence); [reflexivity| |rewrite Len; reflexivity|lia].
    apply (wires_cons false _ _ [2; 1; 1]); [apply one; lia|].
    apply (wires_cons false _ _ [4; 1; 112]); [apply wire_oct; [reflexivity|apply (tlv_short 4 [112] 1); [reflexivity|lia]]|].
    apply wires1. apply (wire_short false KResponse _ ([2; 4; id / 2 ^ 24; id / 2 ^ 16 mod 256; id / 2 ^ 8 mod 256; id mod 256; 2; 1; st; 2; 1; 0; 48; 6 + zlen c; 48; 4 + zlen c; 6; 2; 43; 6] ++ c)); [reflexivity| |rewrite Len; reflexivity|lia].
    apply (wires_cons false _ _ [2; 4; id / 2 ^ 24; id / 2 ^ 16 mod 256; id / 2 ^ 8 mod 256; id mod 256]); [exact NUM|].
    apply (wires_cons false _ _ [2; 1; st]); [apply one; lia|]. apply (wires_cons false _ _ [2; 1; 0]); [apply one; lia|].
    apply wires1. apply (wire_short false KSequence _ ([48; 4 + zlen c; 6; 2; 43; 6] ++ c)); [reflexivity| |rewrite Len; reflexivity|lia].
    apply wires1. apply (wire_short false KSequence _ ([6; 2; 43; 6] ++ c)); [reflexivity| |rewrite Len; reflexivity|lia].
    apply (wires_cons false _ _ [6; 2; 43; 6]).
    + apply (wire_oid false _ [43; 6]); [|apply (tlv_short 6 [43; 6] 2); [reflexivity|lia]].
      exists [43], [[6]]. split; [reflexivity|]. split; [constructor; lia|]. split; [cbn; lia|]. split; [reflexivity|].
      constructor; [|constructor]. split; [constructor; lia|]. split; [discriminate|reflexivity].
    + apply wires1. exact W.
  - unfold request_tree. cbn -[oid_survives request_shape readable]. cbn [readable]. split; [|split; [reflexivity|exact S]]. repeat split; try exact Logic.I; try assumption. all: try lia. repeat constructor; lia.
Qed.
Lemma same_answers id : 0 <= id < 2 ^ 31 -> answers id (same_reply id).
Proof.
  intros H. apply sample_answers; [exact H|lia| |exact Logic.I|cbn; lia|reflexivity].
  apply (wire_number false [5] 5 1); [constructor; [lia|constructor]|discriminate|discriminate|reflexivity|reflexivity|lia].
Qed.
Lemma same_walk server com oid name n : names oid name -> Z.of_nat n < 2 ^ 31 ->
  exists replies s, length replies = n /\ Forall (fun r => r_bindings r = [([1; 3; 6], TInt KInteger 5)]) replies /\
    runs snmpwalk_py Text (Ok tt) [server; com; oid] (asked ++ flat_map exchange replies) s /\ awaiting s (Z.of_nat n).
Proof.
  intros N L. set (replies := map (fun i => same_reply (Z.of_nat i)) (seq 0 n)).
  assert (LE : length replies = n) by (unfold replies; rewrite map_length, seq_length; reflexivity).
  assert (G : forall k m, Z.of_nat k + Z.of_nat m < 2 ^ 31 -> good_walk (Z.of_nat k) (map (fun i => same_reply (Z.of_nat i)) (seq k m))).
  { intros k m. revert k. induction m as [|m IH]; intros k B; cbn [seq map good_walk]; [exact Logic.I|].
    split; [apply same_answers; lia|]. split; [|split].
    - exists [1; 3; 6], (TInt KInteger 5). split; [split; [reflexivity|split; [exists []; reflexivity|discriminate]]|split; discriminate].
    - split; [|cbn; lia]. constructor; [|constructor]. split; [cbn; repeat split; try lia; repeat constructor; lia|]. split; [left; lia|discriminate].
    - replace (Z.of_nat k + 1) with (Z.of_nat (S k)) by lia. apply IH. lia. }
  destruct (walk_whole server com oid name replies N (G 0%nat n ltac:(lia)) ltac:(unfold zlen; rewrite LE; lia)) as (s & d & ds & R & A & _).
  exists replies, s. split; [exact LE|]. split; [|split; [exact R|]].
  - unfold replies. apply Forall_forall. intros r I. apply in_map_iff in I as (i & <- & _). reflexivity.
  - unfold zlen in A. rewrite LE in A. exact A.
Qed.
