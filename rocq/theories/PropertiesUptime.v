(** * C90: the time stamp of traps.  Statements; proofs in ProofsUptime. *)
From Coq Require Import Ascii String ZArith List Bool Lia.
From Verif Require Import PyBase Classes Values Codec Manager Text Frontend Uptime SpecBER SpecSMI SpecTree SpecWire SpecMsg SpecManager SpecNumber SpecFront SpecUptime
  ProofsNumber ProofsFront ProofsUptime ProofsFloat PropertiesManager PropertiesFront.
Import ListNotations.
Open Scope Z_scope.
Local Open Scope list_scope.

(** C90. The floating point numbers of the model are those of IEEE 754: every positive fraction becomes the nearest number of 53 bits. *)
Theorem C90_rounding : forall n d, 0 < n -> 0 < d -> nearest_double n d (fm (to_double n d)) (fe (to_double n d)).
Proof. exact to_double_nearest. Qed.
Print Assumptions C90_rounding.
(** C90. The time stamp is the uptime the system reports, or one hundredth of a second less (for 700 thousand years). *)
Theorem C90_close : forall text n, says_uptime text n -> n < 2 ^ 51 -> getSysUptime (Ok text) = n \/ getSysUptime (Ok text) = n - 1.
Proof.
  intros text n S H. destruct (says_hundredths text n S) as [P E]. assert (2 ^ 51 < 2 ^ 900) by (apply Z.pow_lt_mono_r; lia). rewrite E by lia. pose proof (hundredths_close n ltac:(lia)). lia.
Qed.
Print Assumptions C90_close.
(** C90. It is exact at whole seconds. *)
Theorem C90_whole : forall text k, says_uptime text (100 * k) -> 100 * k < 2 ^ 53 -> getSysUptime (Ok text) = 100 * k.
Proof.
  intros text k S H. destruct (says_hundredths text _ S) as [P E]. assert (2 ^ 53 < 2 ^ 900) by (apply Z.pow_lt_mono_r; lia). rewrite E by lia. apply hundredths_whole; lia.
Qed.
Print Assumptions C90_whole.
(** C90. It never goes back while the system's does not. *)
Theorem C90_never_back : forall text text' n n', says_uptime text n -> says_uptime text' n' -> n <= n' < 2 ^ 51 -> getSysUptime (Ok text) <= getSysUptime (Ok text').
Proof.
  intros text text' n n' S S' H. destruct (says_hundredths _ _ S) as [P E]. destruct (says_hundredths _ _ S') as [P' E']. assert (2 ^ 51 < 2 ^ 900) by (apply Z.pow_lt_mono_r; lia).
  rewrite E, E' by lia. destruct (Z.eq_dec n n') as [->|N]; [lia|]. pose proof (hundredths_close n ltac:(lia)). pose proof (hundredths_close n' ltac:(lia)). lia.
Qed.
Print Assumptions C90_never_back.
(** C90 (refuted). But it is not always exact: after 0.29 seconds it is 28. *)
Theorem C90_exact_refuted : exists text n, says_uptime text n /\ getSysUptime (Ok text) = n - 1 /\ n = 29.
Proof.
  exists (text "0.29 0.10"%string), 29. split; [|split; [vm_compute; reflexivity|reflexivity]].
  exists [48], 50, 57, (text "0.10"%string). split; [reflexivity|]. unfold digit_string. repeat split; try discriminate; repeat constructor; lia.
Qed.
Print Assumptions C90_exact_refuted.
(** C90. It never fails: if the file cannot be read, or is blank, or its first word is not a number, the time stamp is 0. *)
Theorem C90_failure : forall e text, getSysUptime (Err e) = 0 /\
  (Forall (fun c => In c [9; 10; 11; 12; 13; 32]) text -> getSysUptime (Ok text) = 0) /\
  (forall c r, 65 <= c <= 90 -> getSysUptime (Ok (c :: r)) = 0).
Proof.
  intros e text. split; [reflexivity|]. split.
  - intros F. unfold getSysUptime. cbn [bind]. rewrite blank_word; [reflexivity|]. refine (Forall_impl _ _ F). intros c H. unfold white. cbn in *. tauto.
  - intros c r H. apply uptime_other; [|lia]. unfold white. cbn [In]. lia.
Qed.
Print Assumptions C90_failure.
(** C90. What the time stamp is, whatever the file says: if its first word is a number as Python writes it (any sign, point, exponent, underscores), that number as a double, times 100 as a
    double, cut off ([hundredths_of], one result only); 0 if the word is no number, or there is none. *)
Theorem C90_reads : forall text,
  (Forall white text -> getSysUptime (Ok text) = 0) /\
  (forall w, begins_with text w -> (forall neg ds x, ~ float_text w neg ds x) -> getSysUptime (Ok text) = 0) /\
  (forall w neg ds x z, begins_with text w -> float_text w neg ds x -> (hundredths_of neg (digits_value ds * 10 ^ Z.max x 0) (10 ^ Z.max (- x) 0) z <-> z = getSysUptime (Ok text))) /\
  (Forall white text \/ exists w, begins_with text w).
Proof.
  intros text. split; [|split; [|split]].
  - intros F. unfold getSysUptime. cbn [bind]. rewrite (blank_word text F). reflexivity.
  - apply uptime_no_number.
  - intros w neg ds x z B F. pose proof (uptime_number text w neg ds x B F) as U. split; [|intros ->; exact U]. intros H. assert (P : 0 < 10 ^ Z.max (- x) 0) by (apply Z.pow_pos_nonneg; lia). exact (hundredths_unique _ _ _ _ _ P H U).
  - apply words.
Qed.
Print Assumptions C90_reads.
(** C90. So a trap made by createTrapPDU (C59) from arguments that are right carries the uptime of the system, up to one hundredth of a second, as long as that is below 2^32 hundredths; and
    from 497 days on no trap can be made any more. *)
Theorem C90_trap : forall f vbl ver ent agent g s file n e a, (f = FSM -> ver = 1 \/ ver = 2) -> address_given f agent -> oid_init ent = Ok e ->
  ipaddress_init CNetworkAddress agent = Ok a -> in32 g -> in32 s -> says_uptime file n ->
  let trap := createTrapPDU f vbl ver ent agent (VPyInt g) (VPyInt s) (getSysUptime (Ok file)) in
  (n < 2 ^ 32 -> exists t, trap = Ok (VSeq CTrapPDU [e; a; VInt CGenericTrap g; VInt CInteger s; VInt CTimeTicks t; vbl]) /\ (t = n \/ t = n - 1)) /\
  (2 ^ 32 < n < 2 ^ 51 -> trap = Err ValueError).
Proof.
  intros f vbl ver ent agent g s file n e a V G E A Hg Hs U. destruct (says_hundredths file n U) as [P Eq]. assert (B : 2 ^ 51 < 2 ^ 900) by (apply Z.pow_lt_mono_r; lia). cbn zeta. split.
  - intros H. assert (H51 : n < 2 ^ 51) by lia. pose proof (C90_close file n U H51) as C. assert (Z0 : 0 <= getSysUptime (Ok file)).
    { destruct (Z.eq_dec n 0) as [->|]; [|lia]. rewrite (C90_whole file 0 U) by lia. lia. }
    exists (getSysUptime (Ok file)). split; [|exact C]. apply C59_accepts. split; [exact V|]. split; [exact G|]. exists e, a, g, s. repeat split; try assumption; try (apply Hg); try (apply Hs); lia.
  - intros H. pose proof (C90_close file n U ltac:(lia)) as C. eapply C59_uptime_refuted; try eassumption. lia.
Qed.
Print Assumptions C90_trap.
Example C90_example : says_uptime (text "350735.47 234388.90"%string) 35073547 /\ getSysUptime (Ok (text "350735.47 234388.90"%string)) = 35073547 /\
  getSysUptime (Ok (text "  12e2 "%string)) = 120000 /\ getSysUptime (Ok (text "-1_0.5"%string)) = -1050 /\ getSysUptime (Ok (text "1_"%string)) = 0 /\ getSysUptime (Ok (text "1e400"%string)) = 0 /\
  (exists v, createTrapPDU FV1 (VSeq CVarBindList []) 1 (VPyStr (text ".1.3.6"%string)) (VPyStr (text "10.0.0.1"%string)) (VPyInt 6) (VPyInt 0) (getSysUptime (Ok (text "350735.47 234388.90"%string))) = Ok v) /\
  says_uptime (text "42949672.97 1.00"%string) (2 ^ 32 + 1).
Proof.
  assert (D : forall l, forallb (fun c => (48 <=? c) && (c <=? 57)) l = true -> Forall (fun c => 48 <= c <= 57) l).
  { intros l H. apply Forall_forall. intros c I. pose proof (proj1 (forallb_forall _ _) H c I) as Q. cbn in Q. apply andb_prop in Q. destruct Q as [Q1 Q2]. apply Z.leb_le in Q1, Q2. lia. }
  split. { exists (text "350735"%string), 52, 55, (text "234388.90"%string). repeat split; try discriminate; try (apply D); reflexivity. }
  do 5 (split; [vm_compute; reflexivity|]). split; [eexists; vm_compute; reflexivity|].
  exists (text "42949672"%string), 57, 55, (text "1.00"%string). repeat split; try discriminate; try (apply D); reflexivity.
Qed.
(** " -1_0.5e1\n7" begins with the number -105; "1__0", "1_", "._5" and "e5" are none. *)
Example C90_reads_example : begins_with (text " -1_0.5e1 7"%string) (text "-1_0.5e1"%string) /\ float_text (text "-1_0.5e1"%string) true (text "105"%string) 0 /\
  getSysUptime (Ok (text " -1_0.5e1 7"%string)) = -10500 /\ (forall neg ds x, ~ float_text (text "1__0"%string) neg ds x) /\ (forall neg ds x, ~ float_text (text "._5"%string) neg ds x).
Proof.
  split; [|split; [|split; [|split]]].
  - exists [32], (text " 7"%string). split; [reflexivity|]. split; [repeat constructor; cbn; lia|]. split; [discriminate|]. split; [|cbn; lia]. cbn. unfold white. cbn [In]. repeat constructor; intros H; lia.
  - exists [45], (text "1_0.5"%string), 1, (text "e1"%string), 1. split; [reflexivity|]. split; [constructor|]. split.
    + apply (MP_mid (text "1_0"%string) (text "10"%string) (text "5"%string) (text "5"%string)); cbn; repeat constructor; lia.
    + split; [|reflexivity]. apply (EP_some 101 [] false [49] [49]); [right; reflexivity|constructor|constructor; lia].
  - vm_compute. reflexivity.
  - intros neg ds x F. apply float_complete in F. replace (py_float (text "1__0"%string)) with (Err ValueError : res (bool * dbl)) in F by reflexivity. discriminate.
  - intros neg ds x F. apply float_complete in F. replace (py_float (text "._5"%string)) with (Err ValueError : res (bool * dbl)) in F by reflexivity. discriminate.
Qed.
