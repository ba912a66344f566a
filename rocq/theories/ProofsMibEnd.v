(** * Proofs about snmpwalk.py and an honest agent: the answers exist, and the walk comes to its end. *)
From Coq Require Import Ascii String ZArith List Bool Lia ZifyBool ZifyNat Sorted.
From Verif Require Import PyBase Classes Values Codec Manager Text Frontend Tools.
From Verif Require Import SpecBER SpecSMI SpecTree SpecWire SpecMsg SpecManager SpecText SpecFront SpecTools SpecMib.
From Verif Require Import ProofsTree ProofsDecode ProofsWire ProofsMsg ProofsManager ProofsHistory ProofsReceive ProofsCalls ProofsRun ProofsTools ProofsPrograms ProofsPrograms2 ProofsProgress.
From Verif Require Import ProofsNetwork ProofsMib ProofsMibWalk.
Import ListNotations.
Open Scope Z_scope.
Local Open Scope list_scope.

(** ** Encodings exist *)
Lemma zlen_app {A} (a b : list A) : zlen (a ++ b) = zlen a + zlen b.
Proof. unfold zlen. rewrite app_length. lia. Qed.
Lemma zlen_nonneg {A} (a : list A) : 0 <= zlen a.
Proof. unfold zlen. lia. Qed.
Lemma tlv_exists tag c : zlen c < 65536 -> exists os, tlv_octets tag c os /\ zlen os = zlen c + 4.
Proof.
  intros H. pose proof (zlen_nonneg c) as P. exists (tag :: [130; zlen c / 256; zlen c mod 256] ++ c). split; [|unfold zlen; cbn [length app]; lia].
  eexists. split; [|reflexivity]. right. exists [zlen c / 256; zlen c mod 256]. split; [reflexivity|]. split; [cbn; lia|].
  assert (A : 0 <= zlen c / 256 < 256) by (split; [apply Z.div_pos; lia|apply Z.div_lt_upper_bound; lia]).
  split; [repeat constructor; try lia; apply Z.mod_pos_bound; lia|]. cbn. fold (zlen c). pose proof (Z.div_mod (zlen c) 256). lia.
Qed.
Lemma seq_exists strict k ts c : seq_kind k = true -> wires strict ts c -> zlen c < 65536 -> exists os, wire strict (TSeq k ts) os /\ zlen os = zlen c + 4.
Proof. intros K W H. destruct (tlv_exists (kind_octet k) c H) as (os & T & E). exists os. split; [|exact E]. eapply wire_seq; eassumption. Qed.
Lemma int_exists id : 0 <= id < 2 ^ 31 -> exists os, wire false (TInt KInteger id) os /\ zlen os = 6.
Proof.
  intros H. exists [2; 4; id / 2 ^ 24; id / 2 ^ 16 mod 256; id / 2 ^ 8 mod 256; id mod 256]. split; [|reflexivity].
  assert (A1 : id / 2 ^ 8 = id / 256) by reflexivity. assert (A2 : id / 2 ^ 16 = id / 256 / 256) by (rewrite Z.div_div by lia; reflexivity).
  assert (A3 : id / 2 ^ 24 = id / 256 / 256 / 256) by (rewrite !Z.div_div by lia; reflexivity). rewrite A1, A2, A3.
  assert (B : 0 <= id / 256 / 256 / 256 < 128) by (rewrite !Z.div_div by lia; change (256 * 256 * 256) with (2 ^ 24); split; [apply Z.div_pos; lia|apply Z.div_lt_upper_bound; lia]).
  apply (wire_number false _ id 4); [|discriminate|discriminate| |reflexivity|lia].
  - repeat constructor; pose proof (Z.mod_pos_bound (id / 256 / 256) 256); pose proof (Z.mod_pos_bound (id / 256) 256); pose proof (Z.mod_pos_bound id 256); lia.
  - unfold twos_value. replace (id / 256 / 256 / 256 <? 128) with true by lia. cbn [be_value length Z.of_nat Pos.of_succ_nat Pos.succ]. 
    pose proof (Z.div_mod id 256). pose proof (Z.div_mod (id / 256) 256). pose proof (Z.div_mod (id / 256 / 256) 256). lia.
Qed.
Lemma wire_weak strict t os : wire strict t os -> wire false t os.
Proof.
  intros W. apply (wire_mut strict (fun t os => wire false t os) (fun ts os => wires false ts os)); try exact W; clear.
  - intros k c os K O N _ T. apply wire_int; auto. discriminate.
  - intros k s os K T. apply wire_oct; auto.
  - intros l c os C T. apply (wire_oid false l c); [|exact T]. destruct l as [|a [|b l]]; [exact C|exact C|].
    destruct C as (g & gs & -> & G1 & G2 & G3 & F). exists g, gs. repeat (split; [assumption || reflexivity|]). clear - F. induction F as [|x y xs ys (A & _ & B) F IH]; constructor; [|exact IH]. split; [exact A|]. split; [discriminate|exact B].
  - intros k os K T. apply wire_null; auto.
  - intros k ts c os K _ W T. eapply wire_seq; eauto.
  - constructor.
  - intros t ts a b _ A _ B. constructor; assumption.
Qed.
Lemma packet_exists k com id a v n : seq_kind k = true -> 0 <= id < 2 ^ 31 -> zlen com <= 1000 -> wires false [TOid n; v] a -> zlen a <= 30000 ->
  exists os, wire false (message_tree 1 com (request_tree k id 0 0 [(n, v)])) os /\ zlen os <= 32000.
Proof.
  intros K Hid Hc W Ha. pose proof (zlen_nonneg a). pose proof (zlen_nonneg com).
  destruct (seq_exists false KSequence _ _ eq_refl W ltac:(lia)) as (b & Wb & Lb).
  destruct (seq_exists false KSequence _ _ eq_refl (wires1 _ _ _ Wb) ltac:(lia)) as (c & Wc & Lc).
  destruct (int_exists id Hid) as (i & Wi & Li). destruct (int_exists 0 ltac:(lia)) as (z & Wz & Lz). destruct (int_exists 1 ltac:(lia)) as (o & Wo & Lo).
  pose proof (wires_cons _ _ _ _ _ Wi (wires_cons _ _ _ _ _ Wz (wires_cons _ _ _ _ _ Wz (wires1 _ _ _ Wc)))) as Wp.
  destruct (seq_exists false k _ _ K Wp ltac:(rewrite !zlen_app; lia)) as (p & Wp' & Lp). rewrite !zlen_app in Lp.
  destruct (tlv_exists 4 com ltac:(lia)) as (q & Tq & Lq).
  pose proof (wires_cons _ _ _ _ _ Wo (wires_cons _ _ _ _ _ (wire_oct false KOctetString com q eq_refl Tq) (wires1 _ _ _ Wp'))) as Wm.
  destruct (seq_exists false KSequence _ _ eq_refl Wm ltac:(rewrite !zlen_app; lia)) as (m & Wm' & Lm). rewrite !zlen_app in Lm.
  exists m. split; [exact Wm'|lia].
Qed.
Lemma handy_parts n v : handy (n, v) -> exists a b, wire false (TOid n) a /\ wire false v b /\ zlen a + zlen b <= 29998.
Proof.
  intros (strict & os & W & H). apply wire_weak in W. inversion W as [| | | |k ts c os' K Ws T E1 E2]; subst.
  inversion Ws as [|t ts a b Wa Wb]; subst. inversion Wb as [|t' ts' b' e Wb' We]; subst. inversion We; subst. exists a, b'. split; [exact Wa|]. split; [exact Wb'|].
  destruct T as (L & BL & ->). rewrite !app_nil_r in *. assert (1 <= zlen L) by (destruct BL as [[-> _]|(ds & -> & _)]; unfold zlen; cbn [length]; lia).
  unfold zlen in H at 1. cbn [length] in H. rewrite app_length in H. pose proof (zlen_app a b'). unfold zlen in *. rewrite app_length in H. lia.
Qed.

(** ** The answers exist *)
Lemma next_answer M name L A b B : lists M name L -> L = A ++ b :: B ->
  binding_answer M KGetNext b (match B with c :: _ => c | [] => (fst b, TNull KEndOfMibView) end).
Proof.
  intros [S I] ->. destruct (sorted_app _ _ _ S) as [X Y].
  assert (Ib : M (fst b) = Some (snd b) /\ (fst b = name \/ before name (fst b))) by (apply I; destruct b; apply in_or_app; right; left; reflexivity).
  assert (F : forall n, before (fst b) n -> M n <> None -> exists v, In (n, v) B).
  { intros n Bf E. destruct (M n) as [v|] eqn:En; [|congruence]. exists v. assert (J : In (n, v) (A ++ b :: B)).
    { apply I. split; [exact En|right]. destruct (proj2 Ib) as [<-|Z]; [exact Bf|exact (before_trans _ _ _ Z Bf)]. }
    apply in_app_or in J as [J|[->|J]]; [|destruct (before_irrefl _ Bf)|exact J].
    destruct (before_irrefl _ (before_trans _ _ _ Bf (X _ J))). }
  cbn [binding_answer]. destruct B as [|c B].
  - right. split; [reflexivity|]. intros n Bf. destruct (M n) eqn:E; [|reflexivity]. destruct (F n Bf ltac:(congruence)) as (v & []).
  - left. split; [apply Y; left; reflexivity|]. split; [destruct c as [nc vc]; apply (proj1 (I nc vc)); apply in_or_app; right; right; left; reflexivity|].
    intros n Bf E. destruct (F n Bf E) as (v & [->|J]); [left; reflexivity|right].
    change (A ++ b :: c :: B) with (A ++ [b] ++ c :: B) in S. rewrite app_assoc in S. destruct (sorted_app _ _ _ S) as [_ Z]. exact (Z _ J).
Qed.
Definition answer_no name (L : list (list Z * tree)) (k : nat) : list Z * tree :=
  if (k <? length L)%nat then nth k L (name, TNull KNull) else (fst (last L (name, TNull KNull)), TNull KEndOfMibView).
Lemma answer_given M name v L k : lists M name L -> M name = Some v -> (k <= length L)%nat ->
  treats M (fst (asks name L k)) (snd (asks name L k)) 0 [answer_no name L k] M.
Proof.
  intros Li Mn K. destruct (list_head _ _ _ _ Li Mn) as (L' & HL). unfold answer_no. destruct k as [|j]; cbn [asks fst snd treats].
  - split; [reflexivity|]. split; [|reflexivity]. constructor; [|constructor]. rewrite HL. cbn. split; [reflexivity|]. left. exact Mn.
  - split; [reflexivity|]. split; [|reflexivity]. constructor; [|constructor].
    destruct (nth_split L (name, TNull KNull) K) as (A & B0 & EL & EA). pose proof (next_answer M name L A _ B0 Li EL) as X.
    assert (LN : length L = (S j + length B0)%nat) by (rewrite EL at 1; rewrite app_length; cbn; lia).
    destruct B0 as [|c B0]; cbn [length] in LN.
    + destruct (Nat.ltb_spec (S j) (length L)) as [Y|_]; [lia|]. rewrite EL at 2. rewrite last_last. exact X.
    + destruct (Nat.ltb_spec (S j) (length L)) as [_|Y]; [|lia]. assert (E : nth (S j) L (name, TNull KNull) = c).
      { rewrite EL. rewrite app_nth2 by lia. replace (S j - length A)%nat with 1%nat by lia. reflexivity. }
      rewrite E. exact X.
Qed.
Lemma height_shown v : shown v <> None -> height v = 1%nat.
Proof. destruct v; cbn; congruence. Qed.
Lemma reply_exists M name v L com server k d : lists M name L -> M name = Some v -> walkable L -> oid_survives name -> Forall handy L -> zlen com <= 1000 ->
  (k <= length L)%nat -> request_no name L com server k d -> exists r, serves M d r M.
Proof.
  intros Li Mn W N Hd Hc K (_ & Q1 & Q2). destruct (list_head _ _ _ _ Li Mn) as (L' & HL).
  pose proof W as (W1 & Len). unfold zlen in Len.
  assert (Hk : 0 <= Z.of_nat k < 2 ^ 31) by lia.
  assert (NU : tlv_octets 5 [] [5; 0]) by (exists [0]; split; [left; split; [reflexivity|cbn; lia]|reflexivity]).
  assert (EN : tlv_octets 130 [] [130; 0]) by (exists [0]; split; [left; split; [reflexivity|cbn; lia]|reflexivity]).
  assert (Q : exists os, wire false (message_tree 1 com (request_tree (fst (asks name L k)) (Z.of_nat k) 0 0 (snd (asks name L k)))) os /\ zlen os <= 32000).
  { destruct k as [|j]; cbn [asks fst snd].
    - rewrite HL in Hd. inversion Hd as [|x l Hx _]; subst. destruct (handy_parts _ _ Hx) as (a & b & Wa & _ & Lab). pose proof (zlen_nonneg b).
      apply (packet_exists KGet com (Z.of_nat 0) (a ++ [5; 0])); [reflexivity|lia|exact Hc| |rewrite zlen_app; unfold zlen at 2; cbn; lia].
      constructor; [exact Wa|]. apply wires1. apply wire_null; [reflexivity|exact NU].
    - destruct (nth j L (name, TNull KNull)) as [n' v'] eqn:E. assert (Hx : handy (n', v')) by (rewrite <- E; apply (proj1 (Forall_forall _ _) Hd), nth_In; lia).
      destruct (handy_parts _ _ Hx) as (a & b & Wa & Wb & Lab). apply (packet_exists KGetNext com _ (a ++ b)); [reflexivity|lia|exact Hc| |rewrite zlen_app; lia].
      constructor; [exact Wa|]. apply wires1. exact Wb. }
  assert (R : exists os n' v', answer_no name L k = (n', v') /\ wire false (message_tree 1 com (request_tree KResponse (Z.of_nat k) 0 0 [(n', v')])) os /\ zlen os <= 32000 /\
     oid_survives n' /\ readable Upto1905 v' /\ height v' = 1%nat).
  { unfold answer_no. destruct (Nat.ltb_spec k (length L)) as [Lt|Ge].
    - destruct (nth k L (name, TNull KNull)) as [n' v'] eqn:E. pose proof (nth_In L (name, TNull KNull) Lt) as I. rewrite E in I.
      pose proof (proj1 (Forall_forall _ _) Hd _ I) as Hx. pose proof (proj1 (Forall_forall _ _) W1 _ I) as (O1 & O2 & O3). cbn [fst snd] in *.
      destruct (handy_parts _ _ Hx) as (a & b & Wa & Wb & Lab).
      destruct (packet_exists KResponse com (Z.of_nat k) (a ++ b) v' n' eq_refl Hk Hc ltac:(constructor; [exact Wa|apply wires1; exact Wb]) ltac:(rewrite zlen_app; lia)) as (os & Wo & Lo).
      exists os, n', v'. split; [reflexivity|]. split; [exact Wo|]. split; [exact Lo|]. split; [exact O1|]. split; [apply wf_leaf_readable; assumption|apply height_shown; exact O3].
    - assert (I : In (last L (name, TNull KNull)) L).
      { destruct (exists_last (l := L)) as (A & x & E); [rewrite HL; discriminate|]. rewrite E at 1. rewrite last_last. rewrite E. apply in_or_app. right. left. reflexivity. }
      destruct (last L (name, TNull KNull)) as [n' v'] eqn:E. cbn [fst]. 
      pose proof (proj1 (Forall_forall _ _) Hd _ I) as Hx. pose proof (proj1 (Forall_forall _ _) W1 _ I) as (O1 & O2 & O3). cbn [fst snd] in *.
      destruct (handy_parts _ _ Hx) as (a & b & Wa & Wb & Lab). pose proof (zlen_nonneg b).
      destruct (packet_exists KResponse com (Z.of_nat k) (a ++ [130; 0]) (TNull KEndOfMibView) n' eq_refl Hk Hc) as (os & Wo & Lo).
      { constructor; [exact Wa|]. apply wires1. apply wire_null; [reflexivity|exact EN]. }
      { rewrite zlen_app. unfold zlen at 2. cbn. lia. }
      exists os, n', (TNull KEndOfMibView). split; [reflexivity|]. split; [exact Wo|]. split; [exact Lo|]. split; [exact O1|]. split; [right; split; reflexivity|reflexivity]. }
  destruct Q as (oq & Wq & Lq). destruct R as (os & n' & v' & An & Wr & Lr & O1 & O2 & O3).
  pose proof (Q2 _ _ Wq) as Le. fold (zlen oq) in Le. fold (zlen (fst d)) in Le.
  assert (Ld : zlen (fst d) < 65536) by lia.
  exists (mkReply os 9 ([], 161) false 1 com 0 0 [(n', v')]). do 4 eexists. exists true. split; [exact Ld|]. cbn [r_octets r_status r_bindings].
  split; [lia|]. split; [apply (requests_readable_no M name v L k Li Mn W N K)|]. split; [exact (Q1 (small_enough _ Ld))|]. split.
  - split; [exact Wr|]. cbn [r_octets r_status r_bindings r_depth r_version r_index]. split; [|split; [|right; reflexivity]].
    + apply readable_seq. split.
      * constructor; [exact Logic.I|]. constructor; [exact Logic.I|]. constructor; [exact Logic.I|]. constructor; [|constructor].
        apply readable_seq. split; [|exact Logic.I]. constructor; [|constructor]. apply readable_seq. split; [|exact Logic.I]. constructor; [exact O1|]. constructor; [exact O2|constructor].
      * split; [reflexivity|]. exists (Z.of_nat k), 0, 0. eexists. split; [reflexivity|]. unfold in32. repeat split; try lia; [|cbn; lia]. constructor; [|constructor]. do 2 eexists. reflexivity.
    + unfold request_tree. cbn [map binding_tree fst snd height fold_right]. rewrite O3. cbn. lia.
  - rewrite <- An. apply (answer_given M name v L k Li Mn K).
Qed.

(** ** What can be observed *)
Lemma observed_phase perfect M name v L server com oid s : names oid name -> lists M name L -> M name = Some v -> walkable L ->
  observed perfect M snmpwalk_py [server; com; oid] s ->
  reachable snmpwalk_py Text [server; com; oid] s /\ phase perfect name L server com [server; com; oid] s.
Proof.
  intros Nm Li Mn W O. destruct (list_head _ _ _ _ Li Mn) as (L' & HL).
  assert (N : oid_survives name) by (pose proof (proj1 W) as F; rewrite HL in F; inversion F as [|x l (A & _) _]; subst; exact A).
  induction O as [s R|s o s' O [Re Ph] Ho G].
  - split; [eapply runs_reachable; exact R|].
    destruct (first_half snmpwalk_py false true walk_next [server; com; oid] (AGet (VPyStr oid) (server, 161) cb_response (VPyStr com) 2) (server, 161)
      (message_tree 1 com (request_tree KGet 0 0 0 [(name, TNull KNull)])) tool_walk eq_refl) as (s1 & os & R1 & Po & P & S & Wr).
    { intros m' r H. exact (get_queued _ _ _ _ _ _ Nm H). }
    rewrite (goes_deterministic _ _ _ _ _ _ _ R R1). eapply phase_start; [exact Po| |exact P|exact S]. split; [reflexivity|]. exact Wr.
  - split; [eapply goes_reachable; eassumption|]. eapply phase_step; eassumption.
Qed.
Lemma lines_prefix name L k : exists rest, all_lines name L = lines L k ++ rest.
Proof.
  unfold all_lines, lines. exists (flat_map entry_lines (skipn k L) ++ end_line (fst (last L (name, TNull KNull)))).
  rewrite app_assoc, <- flat_map_app, firstn_skipn. reflexivity.
Qed.
Lemma walk_prefix perfect M name v L server com oid s : names oid name -> lists M name L -> M name = Some v -> walkable L ->
  observed perfect M snmpwalk_py [server; com; oid] s -> exists rest, all_lines name L = printed s ++ rest.
Proof.
  intros Nm Li Mn W O. destruct (observed_phase _ _ _ _ _ _ _ _ _ Nm Li Mn W O) as [_ [d _ _ P _|k d _ _ _ P _|k _ _ P _|k _ P _ _|_ P]]; rewrite P.
  - eexists. reflexivity.
  - apply lines_prefix.
  - apply lines_prefix.
  - apply lines_prefix.
  - exists []. rewrite app_nil_r. reflexivity.
Qed.
Lemma awaiting_running s id : awaiting s id -> doing_of s = Running.
Proof. intros [A _]. exact A. Qed.
Lemma walk_complete M name v L server com oid s e : names oid name -> lists M name L -> M name = Some v -> walkable L ->
  observed true M snmpwalk_py [server; com; oid] s -> doing_of s = Over e -> e = SystemExit /\ printed s = all_lines name L.
Proof.
  intros Nm Li Mn W O D. destruct (observed_phase _ _ _ _ _ _ _ _ _ Nm Li Mn W O) as [_ [d Po _ _ _|k d _ Se _ _ _|k _ A _ _|k Pf _ _ _|D' P]].
  - destruct Po as (m & lg & tab & out & msg & -> & _). discriminate D.
  - destruct Se as (m & lg & tab & out & msg & -> & _). discriminate D.
  - rewrite (awaiting_running _ _ A) in D. discriminate D.
  - discriminate Pf.
  - rewrite D in D'. injection D' as ->. split; [reflexivity|exact P].
Qed.
Lemma walk_ends M name v L server com oid s : names oid name -> lists M name L -> M name = Some v -> walkable L -> Forall handy L -> zlen com <= 1000 ->
  observed true M snmpwalk_py [server; com; oid] s ->
  exists ev s', goes snmpwalk_py Text [server; com; oid] s ev s' /\ observed true M snmpwalk_py [server; com; oid] s' /\ doing_of s' = Over SystemExit /\
    (length ev <= 2 * (length L + 2))%nat.
Proof.
  intros Nm Li Mn W Hd Hc. destruct (list_head _ _ _ _ Li Mn) as (L' & HL).
  assert (N : oid_survives name) by (pose proof (proj1 W) as F; rewrite HL in F; inversion F as [|x l (A & _) _]; subst; exact A).
  set (args := [server; com; oid]).
  (* from a state that awaits answer k *)
  assert (Wait : forall n k s, n = (length L - k)%nat -> (k <= length L)%nat -> observed true M snmpwalk_py args s -> awaiting s (Z.of_nat k) -> requests name L com server (S k) (sent s) ->
    exists ev s', goes snmpwalk_py Text args s ev s' /\ observed true M snmpwalk_py args s' /\ doing_of s' = Over SystemExit /\ (length ev <= 2 * n + 1)%nat).
  { induction n as [n IH] using (well_founded_induction lt_wf). intros k s0 En K O A R.
    destruct (observed_phase _ _ _ _ _ _ _ _ _ Nm Li Mn W O) as [Re _].
    assert (Hd' : exists ds d, sent s0 = ds ++ [d] /\ length ds = k).
    { destruct R as [R _]. destruct (exists_last (l := sent s0)) as (ds & d & E); [intros X; rewrite X in R; discriminate R|]. exists ds, d. split; [exact E|]. rewrite E, app_length in R. cbn in R. lia. }
    destruct Hd' as (ds & d & Es & Ld).
    assert (Q : request_no name L com server k d) by (apply (proj2 R); rewrite Es, nth_error_app2 by lia; replace (k - length ds)%nat with 0%nat by lia; reflexivity).
    destruct (reply_exists M name v L com server k d Li Mn W N Hd Hc K Q) as (r & Sv).
    destruct (served _ _ _ _ _ _ _ _ _ Q (requests_readable_no M name v L k Li Mn W N K) Sv) as (An & Tr).
    destruct (last_answer M name v L k r M Li Mn K Tr) as (St & Bs).
    assert (Ho : honest true M s0 (datagram r)) by (exists d, r, M; split; [reflexivity|]; split; [exact Sv|]; exists ds; exact Es).
    destruct (Nat.ltb_spec k (length L)) as [Lt|Ge].
    - pose proof (proj1 (Forall_forall _ _) (proj1 W) _ (nth_In L (name, TNull KNull) Lt)) as (O1 & W1 & S1).
      destruct (nth k L (name, TNull KNull)) as [n' v'] eqn:EN. cbn [fst snd] in *. destruct (shown v') as [sv|] eqn:Sh; [|congruence].
      assert (Go : goes_on v') by (split; intros ->; discriminate W1).
      assert (Rs : resendable (r_bindings r)). { rewrite Bs. split; [constructor; [|constructor]; cbn; rewrite Sh; auto|unfold zlen; cbn; lia]. }
      pose proof (proj2 W) as Len. unfold zlen in Len.
      destruct (walk_half server com [oid] s0 (Z.of_nat k) r n' v' [] sv Re A An ltac:(lia) St Bs Sh Go Rs) as (s2 & d2 & G2 & Se & P2 & S2 & Q2).
      fold args in G2. pose proof (observed_step true M snmpwalk_py args s0 _ s2 O Ho G2) as O2.
      destruct (observed_phase _ _ _ _ _ _ _ _ _ Nm Li Mn W O2) as [Re2 _].
      assert (Run : doing_of s2 = Running /\ stack (st_of s2) = [FRun Sending]) by (destruct Se as (m & lg & tab & out & msg & -> & _); split; reflexivity).
      destruct (always_goes snmpwalk_py Text args s2 (Answers (Ok tt)) Re2 (proj1 Run) (proj2 Run)) as (s3 & G3).
      pose proof (observed_step true M snmpwalk_py args s2 (Answers (Ok tt)) s3 O2 (fun _ => eq_refl) G3) as O3.
      destruct (sending_goes _ _ _ _ args s2 _ d2 _ s3 tool_walk Se G3) as (P3 & [(_ & A3 & S3)|(X & _)]); [|congruence].
      destruct (IH (length L - S k)%nat ltac:(lia) (S k) s3 eq_refl ltac:(lia) O3) as (ev & s' & G' & O' & D' & Le).
      { replace (Z.of_nat (S k)) with (Z.of_nat k + 1) by lia. exact A3. }
      { rewrite S3, S2. apply snoc_requests; [exact R|]. unfold request_no. cbn [asks fst snd]. rewrite EN, <- Bs. replace (Z.of_nat (S k)) with (Z.of_nat k + 1) by lia. exact Q2. }
      exists ([datagram r] ++ [Answers (Ok tt)] ++ ev), s'. split; [|split; [exact O'|split; [exact D'|]]].
      + eapply goes_trans; [exact G2|]. eapply goes_trans; [exact G3|exact G'].
      + rewrite !app_length. cbn [length]. lia.
    - destruct (walk_stops server com [oid] s0 (Z.of_nat k) r _ (TNull KEndOfMibView) [] _ A An St Bs eq_refl) as (s2 & G2 & D2 & P2 & S2).
      { intros [_ X']. apply X'. reflexivity. }
      exists [datagram r], s2. split; [exact G2|]. split; [exact (observed_step true M snmpwalk_py args s0 _ s2 O Ho G2)|]. split; [exact D2|]. cbn [length]. lia. }
  assert (Send : forall k d s, (k <= length L)%nat -> observed true M snmpwalk_py args s -> sending s (Z.of_nat k) d -> request_no name L com server k d -> requests name L com server k (sent s) ->
    exists ev s', goes snmpwalk_py Text args s ev s' /\ observed true M snmpwalk_py args s' /\ doing_of s' = Over SystemExit /\ (length ev <= 2 * (length L) + 2)%nat).
  { intros k d s2 K O2 Se Q R. destruct (observed_phase _ _ _ _ _ _ _ _ _ Nm Li Mn W O2) as [Re2 _].
    assert (Run : doing_of s2 = Running /\ stack (st_of s2) = [FRun Sending]) by (destruct Se as (m & lg & tab & out & msg & -> & _); split; reflexivity).
    destruct (always_goes snmpwalk_py Text args s2 (Answers (Ok tt)) Re2 (proj1 Run) (proj2 Run)) as (s3 & G3).
    pose proof (observed_step true M snmpwalk_py args s2 (Answers (Ok tt)) s3 O2 (fun _ => eq_refl) G3) as O3.
    destruct (sending_goes _ _ _ _ args s2 _ d _ s3 tool_walk Se G3) as (P3 & [(_ & A3 & S3)|(X & _)]); [|congruence].
    destruct (Wait _ k s3 eq_refl K O3 A3) as (ev & s' & G' & O' & D' & Le).
    { rewrite S3. apply snoc_requests; assumption. }
    exists ([Answers (Ok tt)] ++ ev), s'. split; [eapply goes_trans; eassumption|]. split; [exact O'|]. split; [exact D'|]. rewrite app_length. cbn [length]. lia. }
  intros O. destruct (observed_phase _ _ _ _ _ _ _ _ _ Nm Li Mn W O) as [Re [d Po Q P S|k d K Se Q P R|k K A P R|k Pf P St D|D P]].
  - assert (Run : doing_of s = Running /\ stack (st_of s) = [FRun Polling]) by (destruct Po as (m & lg & tab & out & msg & -> & _); split; reflexivity).
    destruct (always_goes snmpwalk_py Text args s (Finds Nothing) Re (proj1 Run) (proj2 Run)) as (s1 & G1).
    pose proof (observed_step true M snmpwalk_py args s (Finds Nothing) s1 O (fun _ => S) G1) as O1.
    destruct (polling_goes _ _ _ _ args s d Nothing s1 tool_walk Po (or_introl eq_refl) G1) as (P' & S' & [[_ X]|[Ni X]]); [|congruence].
    destruct (Send 0%nat d s1 ltac:(lia) O1 X Q) as (ev & s' & G' & O' & D' & Le).
    { rewrite S', S. split; [reflexivity|]. intros [|j] d' H; discriminate H. }
    exists ([Finds Nothing] ++ ev), s'. split; [eapply goes_trans; eassumption|]. split; [exact O'|]. split; [exact D'|]. rewrite app_length. cbn [length]. lia.
  - destruct (Send k d s K O Se Q R) as (ev & s' & G' & O' & D' & Le). exists ev, s'. repeat (split; [assumption|]). lia.
  - destruct (Wait _ k s eq_refl K O A R) as (ev & s' & G' & O' & D' & Le). exists ev, s'. repeat (split; [assumption|]). lia.
  - discriminate Pf.
  - exists [], s. split; [|split; [exact O|split; [exact D|cbn; lia]]]. exists []. split; [reflexivity|]. split; [reflexivity|]. unfold SpecTools.settled. rewrite D. exact Logic.I.
Qed.
