(** * C92: the bundled programs as commands: words of the command line, exit status.  Statements; proofs in ProofsCommand. *)
From Coq Require Import Ascii String ZArith List Bool Lia.
From Verif Require Import PyBase Classes Values Codec Manager Text Frontend Tools CommandLine SpecBER SpecSMI SpecTree SpecWire SpecMsg SpecManager SpecNumber SpecText SpecFront SpecTools SpecCommand
  ProofsNumber ProofsReceive ProofsTools ProofsPrograms ProofsPrograms2 ProofsProgress ProofsCommand PropertiesTools.
Import ListNotations.
Open Scope Z_scope.
Local Open Scope list_scope.

(** C92. Words that begin with "-" are options only in the first place: from the second word on, everything reaches the program as it was typed; "--" in the first place goes. *)
Theorem C92_words : forall p b words args, given words args -> command_start p b words = Started args (start p b args).
Proof. exact given_start. Qed.
Print Assumptions C92_words.
(** C92. Any other first word that begins with "-" ends every program at once, with status 1: nothing printed, nothing sent, whatever the network does. *)
Theorem C92_option_refused : forall p t b w rest, ~ plain_word w -> w <> [dash; dash] ->
  exits p t b (w :: rest) [] [] [] 1 /\ forall ev lines ds st, exits p t b (w :: rest) ev lines ds st -> ev = [] /\ lines = [] /\ ds = [] /\ st = 1.
Proof.
  intros p t b w rest NP ND. assert (G := option_start p b w rest NP ND). unfold exits. rewrite G. split; [repeat split|].
  intros ev lines ds st (A & B & C & D). cbn in D. injection D as <-. auto.
Qed.
Print Assumptions C92_option_refused.
(** C92. So the command line and what happens outside determine the output, the datagrams and the status, which is 0 or 1. *)
Theorem C92_determined : forall p t b words ev l1 d1 st1 l2 d2 st2, exits p t b words ev l1 d1 st1 -> exits p t b words ev l2 d2 st2 -> l1 = l2 /\ d1 = d2 /\ st1 = st2.
Proof.
  intros p t b words ev l1 d1 st1 l2 d2 st2. unfold exits. destruct (command_start p b words) as [|args s0].
  - intros (_ & -> & -> & A) (_ & -> & -> & B). rewrite A in B. injection B as <-. auto.
  - intros (s & G & P & S & E) (s' & G' & P' & S' & E'). assert (X := C66_deterministic p t args ev s0 s s' G G'). subst s'. cbn in E, E'. rewrite E in E'. injection E' as <-. subst. auto.
Qed.
Print Assumptions C92_determined.
Theorem C92_zero_or_one : forall p t b words ev l d st, exits p t b words ev l d st -> st = 0 \/ st = 1.
Proof.
  intros p t b words ev l d st. unfold exits. destruct (command_start p b words) as [|args s0].
  - intros (_ & _ & _ & A). injection A as <-. auto.
  - intros (s & _ & _ & _ & A). cbn in A. unfold exit_status in A. destruct (doing_of s) as [| |e]; try discriminate A.
    destruct e; try (injection A as <-; auto; fail). destruct (rev (log (st_of s))) as [|[] ?]; injection A as <-; auto.
Qed.
Print Assumptions C92_zero_or_one.

(** C92. Status 0 after an answer: snmpget.py, snmpset.py, and snmpwalk.py at the end of the walk. *)
Theorem C92_get : forall words server com oid name r n v x, given words [server; com; oid] -> names oid name -> answers 0 r -> good_reply r n v ->
  exists d, exits snmpget_py Text (Ok tt) words (asked ++ [datagram r; Answers x]) (first_lines true true r) [d] 0 /\ is_request KGet com (server, 161) 0 [(name, TNull KNull)] d.
Proof.
  intros words server com oid name r n v x G N A R. destruct (C67_get server com oid name r n v x N A R) as (s & d & Ru & E & I0). exists d. split; [|exact I0].
  eapply exits_zero; [exact G|exact Ru|exact E|discriminate].
Qed.
Print Assumptions C92_get.
Theorem C92_set : forall words server com oid name ty value t r n v x, given words [server; com; oid; ty; value] -> names oid name -> set_value ty value t -> answers 0 r -> good_reply r n v ->
  exists d, exits snmpset_py Text (Ok tt) words (asked ++ [datagram r; Answers x]) (first_lines true false r) [d] 0 /\ is_request KSet com (server, 161) 0 [(name, t)] d.
Proof.
  intros words server com oid name ty value t r n v x G N V A R. destruct (C67_set server com oid name ty value t r n v x N V A R) as (s & d & Ru & E & I0). exists d. split; [|exact I0].
  eapply exits_zero; [exact G|exact Ru|exact E|discriminate].
Qed.
Print Assumptions C92_set.
Theorem C92_walk : forall words server com oid name replies final n v, given words [server; com; oid] -> names oid name -> good_walk 0 replies -> zlen replies < 2 ^ 31 ->
  answers (zlen replies) final -> good_reply final n v -> v = TNull KNoSuchObject \/ v = TNull KEndOfMibView ->
  exists d ds, exits snmpwalk_py Text (Ok tt) words (asked ++ flat_map exchange replies ++ [datagram final]) (flat_map (first_lines false true) (replies ++ [final])) (d :: ds) 0.
Proof.
  intros words server com oid name replies final n v G N W L A R V. destruct (C66_ends server com oid name replies final n v N W L A R V) as (s & d & ds & Ru & E & _ & _). exists d, ds.
  eapply exits_zero; [exact G|exact Ru|exact E|discriminate].
Qed.
Print Assumptions C92_walk.
(** C92. But status 0 does not say that the request succeeded: it is also the status after an answer with an error, at any point of a walk, and after no answer at all. *)
Theorem C92_error_refuted : forall p words args evs s id r t x, query_tool p -> given words args -> runs p Text (Ok tt) args evs s -> sent s <> [] -> awaiting s id ->
  answers id r -> r_status r <> 0 -> error_text (r_status r) = Some t ->
  exits p Text (Ok tt) words (evs ++ [datagram r; Answers x]) (printed s ++ [error_line (r_status r) t]) (sent s) 0.
Proof.
  intros p words args evs s id r t x Q G R Se Aw A S0 E. destruct (C66_error p args s id r t x Q (runs_reachable _ _ _ _ _ _ R) Aw A S0 E) as (s' & G' & En).
  eapply exits_zero; [exact G|unfold runs in *; eapply goes_trans; [exact R|exact G']|exact En|exact Se].
Qed.
Print Assumptions C92_error_refuted.
Theorem C92_silence_refuted : forall p words args evs s id x, query_tool p -> given words args -> runs p Text (Ok tt) args evs s -> sent s <> [] -> awaiting s id ->
  exits p Text (Ok tt) words (evs ++ [Finds Nothing; Answers x]) (printed s) (sent s) 0.
Proof.
  intros p words args evs s id x Q G R Se Aw. destruct (C66_silence p args s id x Q Aw) as (s' & G' & En).
  eapply exits_zero; [exact G|unfold runs in *; eapply goes_trans; [exact R|exact G']|exact En|exact Se].
Qed.
Print Assumptions C92_silence_refuted.
Theorem C92_unanswered_refuted : forall words server com oid name x p, given words [server; com; oid] -> names oid name -> p = snmpget_py \/ p = snmpwalk_py ->
  exists d, exits p Text (Ok tt) words (asked ++ [Finds Nothing; Answers x]) [] [d] 0.
Proof.
  intros words server com oid name x p G N Hp. destruct (C67_unanswered server com oid name x N p Hp) as (s & d & R & E). exists d. eapply exits_zero; [exact G|exact R|exact E|discriminate].
Qed.
Print Assumptions C92_unanswered_refuted.

(** C92. Status 1: whenever an exception other than sys.exit ends the program, among them the name it cannot read, the value it cannot set, an error code without text, an answer
    without bindings and the exception of bind; and after the line that says how to use it. *)
Theorem C92_exception : forall p t b words args ev s e lines ds, given words args -> runs p t b args ev s -> ended s e lines ds -> e <> SystemExit -> exits p t b words ev lines ds 1.
Proof. exact exits_one. Qed.
Print Assumptions C92_exception.
Theorem C92_bad_name : forall t words server com oid p, given words [server; com; oid] -> (forall name, ~ oid_text oid name) -> p = snmpget_py \/ p = snmpwalk_py -> exits p t (Ok tt) words [] [] [] 1.
Proof. intros t words server com oid p G B Hp. destruct (C67_bad_name t server com oid B p Hp) as (s & R & E). eapply exits_one; [exact G|exact R|exact E|discriminate]. Qed.
Print Assumptions C92_bad_name.
Theorem C92_port_taken : forall p t e words args, given words args -> p_interface p = Tuple -> e <> SystemExit -> exits p t (Err e) words [] [] [] 1.
Proof. intros p t e words args G I0 N. destruct (C68_port_taken p t e args I0) as (s & R & E). eapply exits_one; eassumption. Qed.
Print Assumptions C92_port_taken.
Theorem C92_usage : forall t words args, given words args ->
  (length args <> 3%nat -> forall p, p = snmpget_py \/ p = snmpwalk_py -> exits p t (Ok tt) words [] [text "Usage: snmpget.py <server> <community> <oid>"%string] [] 1) /\
  (length args <> 5%nat -> exits snmpset_py t (Ok tt) words [] [text "Usage: snmpset.py <server> <community> <oid> <type> <value>"%string] [] 1).
Proof.
  intros t words args G. split.
  - intros L p Hp. assert (M : p_main p = get_main /\ p_interface p = Tuple) by (destruct Hp as [-> | ->]; split; reflexivity). destruct M as [M I0].
    eapply exits_usage; [exact G|exact I0|]. rewrite M. unfold get_main. destruct args as [|a [|b [|c [|d args]]]]; try reflexivity. elim L. reflexivity.
  - intros L. eapply exits_usage; [exact G|reflexivity|]. cbn [p_main snmpset_py]. unfold set_main. destruct args as [|a [|b [|c [|d [|e [|f args]]]]]]; try reflexivity. elim L. reflexivity.
Qed.
Print Assumptions C92_usage.
(** C92. snmpget-v1.py and snmpget-v2.py always end with status 1, with no output, on every command line and network. *)
Theorem C92_v1_v2_refuted : forall t b words p, p = snmpget_v1_py \/ p = snmpget_v2_py ->
  exits p t b words [] [] [] 1 /\ forall ev lines ds st, exits p t b words ev lines ds st -> lines = [] /\ ds = [] /\ st = 1.
Proof.
  intros t b words p Hp. destruct (getopt words) as [args|] eqn:G.
  - destruct (C68_v1_v2_refuted t b args p Hp) as (s & R & (E1 & E2 & E3) & U). unfold exits, command_start. rewrite G. split.
    + exists s. repeat split; try assumption. cbn. unfold exit_status. rewrite E1. reflexivity.
    + intros ev lines ds st (s' & G' & P & S & C). rewrite (U ev s' G') in *. cbn in C. unfold exit_status in C. rewrite E1 in C. injection C as <-. subst. auto.
  - unfold exits, command_start. rewrite G. split; [repeat split|]. intros ev lines ds st (A & B & C & D). injection D as <-. auto.
Qed.
Print Assumptions C92_v1_v2_refuted.
(** C92. trapsender.py always has status 1; traplistener.py, which no datagram ends (C68), has status 1 when a socket error ends it. *)
Theorem C92_sender_refuted : forall t now uptime words args x, given words args -> exits (trapsender_py now uptime) t (Ok tt) words [Answers x] [] [] 1.
Proof. intros t now uptime words args x G. destruct (C68_sender_refuted t now uptime args x) as (s & R & E). eapply exits_one; [exact G|exact R|exact E|discriminate]. Qed.
Print Assumptions C92_sender_refuted.
Theorem C92_listener : forall shown_ words args evs s e, given words args -> runs (traplistener_py shown_) Text (Ok tt) args evs s -> listening s -> e <> SystemExit ->
  exits (traplistener_py shown_) Text (Ok tt) words (evs ++ [Finds (SocketError e)]) (printed s) (sent s) 1.
Proof.
  intros shown_ words args evs s e G R L N. destruct (C68_socket_error shown_ args s e L) as (s' & G' & E). eapply exits_one; [exact G|unfold runs in *; eapply goes_trans; [exact R|exact G']|exact E|exact N].
Qed.
Print Assumptions C92_listener.

(** C92. The hypotheses are met: a negative value, and a name after "--"; words that are refused; a request that waits. *)
Example C92_example :
  given [text "h"; text "p"; text "1.3.6"; text "i"; text "-5"]%string [text "h"; text "p"; text "1.3.6"; text "i"; text "-5"]%string /\
  set_value (text "i"%string) (text "-5"%string) (TInt KInteger (-5)) /\
  given [text "--"; text "-h"; text "p"; text "1.3.6"]%string [text "-h"; text "p"; text "1.3.6"]%string /\ ~ plain_word (text "-v"%string) /\ ~ plain_word (text "--version"%string) /\
  plain_word (text "-"%string) /\ exists evs s id, runs snmpget_py Text (Ok tt) [text "h"; text "p"; text "1.3.6"]%string evs s /\ awaiting s id /\ sent s <> [].
Proof.
  assert (N : names (text "1.3.6"%string) [1; 3; 6]) by (split; [apply oid_text_iff; reflexivity|cbn; repeat split; try lia; repeat constructor; lia]).
  split; [right; split; [reflexivity|right; discriminate]|]. split; [apply set_value_i; [apply int_of_str_ok; reflexivity|lia|]|].
  - right. exists 1. lia.
  - split; [left; reflexivity|]. split; [|split; [|split]].
    + intros [D|D]; [discriminate D|]. eapply D. reflexivity.
    + intros [D|D]; [discriminate D|]. eapply D. reflexivity.
    + left. reflexivity.
    + destruct (get_first _ _ _ _ [104] [112] (text "1.3.6"%string) [1; 3; 6] tool_get eq_refl N) as (s & d & R & Aw & P & Se & D). exists asked, s, 0.
      split; [exact R|]. split; [exact Aw|]. rewrite Se. discriminate.
Qed.
