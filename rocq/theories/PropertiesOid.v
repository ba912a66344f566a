(** * C10-C16: object identifiers and IP addresses.  Statements only. *)
From Coq Require Import ZArith List Bool Lia.
From Verif Require Import PyBase Classes Values Codec SpecBER SpecNumber ProofsOid ProofsText ProofsNumber.
Import ListNotations.
Open Scope Z_scope.

(** C10. Contents octets of every valid identifier are the X.690 8.19 encoding. *)
Theorem C10_oid_encoding_conforms : forall l, valid_oid l ->
  exists os, oid_encodeContents (Some l) = Ok os /\ oid_octets l os.
Proof. exact oid_encode_conforms. Qed.
Print Assumptions C10_oid_encoding_conforms.

Theorem C10_oid_short_rejected : forall l, (length l < 2)%nat -> oid_encodeContents (Some l) = Err IndexError.
Proof. exact oid_encode_short. Qed.
Print Assumptions C10_oid_short_rejected.

(** C10. A negative arc is not rejected: it is written as its residue modulo 128. *)
Theorem C10_oid_negative_arc_accepted : forall a b x rest, 0 <= a -> 0 <= b -> Forall (fun y => 0 <= y) rest -> x < 0 ->
  oid_encodeContents (Some (a :: b :: x :: rest)) = oid_encodeContents (Some (a :: b :: x mod 128 :: rest)).
Proof. exact oid_negative_arc. Qed.
Print Assumptions C10_oid_negative_arc_accepted.

Example C10_example : valid_oid [1; 3; 6; 1; 4; 1; 20408] /\
  oid_encodeContents (Some [1; 3; 6; 1; 4; 1; 20408]) = Ok [43; 6; 1; 4; 1; 129; 159; 56].
Proof. split; [cbn; repeat split; try lia; repeat (apply Forall_cons; [lia|]); constructor|reflexivity]. Qed.

(** C11. Exact domain of the identifier round trip, for all non-negative arcs. *)
Theorem C11_oid_roundtrip_domain : forall a b rest, 0 <= a -> 0 <= b -> Forall (fun x => 0 <= x) rest ->
  ((os <- oid_encodeContents (Some (a :: b :: rest)) ;; oid_decodeContents os) = Ok (a :: b :: rest)
   <-> b < 40 /\ 40 * a + b < 128).
Proof. exact oid_roundtrip_iff. Qed.
Print Assumptions C11_oid_roundtrip_domain.

(** C11. What comes back in every case. *)
Theorem C11_oid_roundtrip_value : forall a b rest, 0 <= a -> 0 <= b -> Forall (fun x => 0 <= x) rest ->
  exists os, oid_encodeContents (Some (a :: b :: rest)) = Ok os /\ octet_string os /\
  oid_decodeContents os =
    if a * 40 + b <? 128 then Ok ((a * 40 + b) / 40 :: (a * 40 + b) mod 40 :: rest) else Err NotImplementedError.
Proof. exact oid_roundtrip_value. Qed.
Print Assumptions C11_oid_roundtrip_value.

Theorem C11_oid_roundtrip_refuted : valid_oid [2; 40; 1] /\ valid_oid [2; 999; 3] /\
  (os <- oid_encodeContents (Some [2; 40; 1]) ;; oid_decodeContents os) = Ok [3; 0; 1] /\
  (os <- oid_encodeContents (Some [2; 999; 3]) ;; oid_decodeContents os) = Err NotImplementedError.
Proof. exact oid_roundtrip_witness. Qed.
Print Assumptions C11_oid_roundtrip_refuted.

(** C12. Outcome of decoding any octet string. *)
Theorem C12_oid_decode_outcome : forall os, octet_string os ->
  match os with
  | [] => oid_decodeContents os = Err ValueError
  | b0 :: r =>
      (128 <= b0 /\ oid_decodeContents os = Err NotImplementedError) \/
      (b0 < 128 /\ 128 <= last os 0 /\ oid_decodeContents os = Err IndexError) \/
      (b0 < 128 /\ last os 0 < 128 /\ exists groups, r = concat groups /\ Forall b128_group groups /\
         oid_decodeContents os = Ok (b0 / 40 :: b0 mod 40 :: map b128_value groups))
  end.
Proof. exact oid_decode_outcome. Qed.
Print Assumptions C12_oid_decode_outcome.
Example C12_example : oid_decodeContents [43; 6; 129; 159; 56] = Ok [1; 3; 6; 20408] /\
  oid_decodeContents [43; 6; 129] = Err IndexError.
Proof. split; reflexivity. Qed.

(** C13. An identifier re-parses from its own text exactly when all arcs are below 2^31. *)
Theorem C13_oid_text_roundtrip : forall l,
  (oid_of_str (oid_str (Some l)) = Ok l <-> l <> [] /\ Forall (fun n => 0 <= n <= 2147483647) l)
  /\ (oid_of_str (oid_str (Some l)) = Ok l \/ oid_of_str (oid_str (Some l)) = Err ValueError).
Proof. exact oid_text_self. Qed.
Print Assumptions C13_oid_text_roundtrip.

(** C13. Leading and trailing dots do not matter. *)
Theorem C13_oid_text_dots : forall l i j, l <> [] -> Forall (fun n => 0 <= n <= 2147483647) l ->
  oid_of_str (repeat 46 i ++ py_join 46 (map py_str_of_int l) ++ repeat 46 j) = Ok l.
Proof. exact oid_text_ok. Qed.
Print Assumptions C13_oid_text_dots.

(** C13. Whatever text is accepted yields a non-empty list of arcs in range. *)
Theorem C13_oid_text_sound : forall s l, oid_of_str s = Ok l ->
  l <> [] /\ Forall (fun n => 0 <= n <= 2147483647) l.
Proof. exact oid_text_sound. Qed.
Print Assumptions C13_oid_text_sound.

(** C13. Exactly which texts are accepted, and what they mean; any other text is a ValueError. *)
Theorem C13_oid_accepts : forall s v, oid_init (VPyStr s) = Ok v <-> exists l, oid_text s l /\ v = VOid (Some l).
Proof.
  intros s v. cbn [oid_init]. split.
  - destruct (oid_of_str s) as [l|] eqn:E; [|discriminate]. intros H. injection H as <-. exists l. split; [apply oid_text_iff; exact E|reflexivity].
  - intros (l & T & ->). apply oid_text_iff in T. rewrite T. reflexivity.
Qed.
Print Assumptions C13_oid_accepts.
Theorem C13_oid_refuses : forall s, (forall l, ~ oid_text s l) -> oid_init (VPyStr s) = Err ValueError.
Proof.
  intros s H. cbn [oid_init]. destruct (oid_of_str s) as [l|e] eqn:E; [apply oid_text_iff in E; elim (H l E)|rewrite (oid_text_err _ _ E); reflexivity].
Qed.
Print Assumptions C13_oid_refuses.
(** C13. How an identifier is printed: a dot before each arc, the arcs in decimal. *)
Theorem C13_oid_printed : forall l parts, Forall2 decimal l parts -> l <> [] -> oid_str (Some l) = concat (map (fun p => 46 :: p) parts).
Proof.
  intros l parts F N. assert (E : parts = map py_str_of_int l).
  { clear N. induction F as [|z s l parts D F IH]; [reflexivity|]. apply decimal_iff in D as ->. cbn [map]. f_equal. exact IH. }
  subst parts. destruct l as [|x l]; [contradiction|]. cbn [oid_str]. rewrite py_join_separated. cbn [map separated concat app]. f_equal.
Qed.
Print Assumptions C13_oid_printed.
(** C13. An identifier legal in SNMP, as decoded from the wire, whose text is rejected. *)
Theorem C13_oid_text_refuted : oid_decodeContents [43; 143; 255; 255; 255; 127] = Ok [1; 3; 4294967295] /\
  oid_of_str (oid_str (Some [1; 3; 4294967295])) = Err ValueError.
Proof. exact (conj eq_refl eq_refl). Qed.
Print Assumptions C13_oid_text_refuted.
Example C13_example : oid_str (Some [1; 30; 7]) = [46; 49; 46; 51; 48; 46; 55] /\ oid_of_str [49; 46; 51; 48; 46; 55; 46; 46] = Ok [1; 30; 7] /\
  oid_text [46; 49; 46; 32; 51; 95; 48] [1; 30] /\ (forall l, ~ oid_text [49; 46; 46; 51] l) /\ Forall2 decimal [1; 30] [[49]; [51; 48]].
Proof.
  split; [reflexivity|]. split; [reflexivity|]. split; [apply oid_text_iff; reflexivity|]. split; [intros l H; apply oid_text_iff in H; discriminate H|].
  repeat (constructor; [apply decimal_iff; reflexivity|]). constructor.
Qed.

(** C14. isPrefixOf is the prefix relation on arcs. *)
Theorem C14_prefix_true : forall a b,
  oid_isPrefixOf (VOid (Some a)) (VOid (Some b)) = Ok true <-> exists s, b = a ++ s.
Proof. exact isPrefixOf_true. Qed.
Print Assumptions C14_prefix_true.
Theorem C14_prefix_false : forall a b,
  oid_isPrefixOf (VOid (Some a)) (VOid (Some b)) = Ok false <-> ~ exists s, b = a ++ s.
Proof. exact isPrefixOf_false. Qed.
Print Assumptions C14_prefix_false.
Theorem C14_prefix_reflexive : forall a, oid_isPrefixOf (VOid (Some a)) (VOid (Some a)) = Ok true.
Proof. exact isPrefixOf_refl. Qed.
Print Assumptions C14_prefix_reflexive.
Theorem C14_prefix_transitive : forall a b c,
  oid_isPrefixOf (VOid (Some a)) (VOid (Some b)) = Ok true ->
  oid_isPrefixOf (VOid (Some b)) (VOid (Some c)) = Ok true ->
  oid_isPrefixOf (VOid (Some a)) (VOid (Some c)) = Ok true.
Proof. exact isPrefixOf_trans. Qed.
Print Assumptions C14_prefix_transitive.
Theorem C14_prefix_antisymmetric : forall a b,
  oid_isPrefixOf (VOid (Some a)) (VOid (Some b)) = Ok true ->
  oid_isPrefixOf (VOid (Some b)) (VOid (Some a)) = Ok true -> a = b.
Proof. exact isPrefixOf_antisym. Qed.
Print Assumptions C14_prefix_antisymmetric.
Theorem C14_prefix_of_extension : forall a s,
  oid_isPrefixOf (VOid (Some a)) (VOid (Some (oid_extend a s))) = Ok true.
Proof. exact isPrefixOf_extend. Qed.
Print Assumptions C14_prefix_of_extension.
Example C14_example : oid_isPrefixOf (VOid (Some [1; 3])) (VOid (Some [1; 3; 6])) = Ok true /\
  oid_isPrefixOf (VOid (Some [1; 3])) (VOid (Some [1; 4; 6])) = Ok false.
Proof. split; reflexivity. Qed.

(** C15. Indexing, slicing, append, extend, copy, deletion. *)
Theorem C15_index : forall (l : list Z) i, - zlen l <= i < zlen l ->
  exists pre x post, l = pre ++ x :: post /\ zlen pre = (if i <? 0 then i + zlen l else i) /\ oid_getitem l i = Ok x.
Proof. exact (@py_index_ok Z). Qed.
Print Assumptions C15_index.
Theorem C15_index_out_of_range : forall (l : list Z) i, ~ (- zlen l <= i < zlen l) -> oid_getitem l i = Err IndexError.
Proof. exact (@py_index_bad Z). Qed.
Print Assumptions C15_index_out_of_range.
(** C15. len() is the number of valid indices from the front; that of an empty ObjectID() is 0. *)
Theorem C15_len : (forall l i, 0 <= i -> (exists x, oid_getitem l i = Ok x) <-> i < oid_len (Some l)) /\ oid_len None = 0.
Proof.
  split; [|reflexivity]. intros l i P. cbn [oid_len]. split.
  - intros [x E]. destruct (Z.lt_ge_cases i (zlen l)) as [L|G]; [exact L|]. unfold oid_getitem in E. rewrite py_index_bad in E by lia. discriminate E.
  - intros L. destruct (py_index_ok l i) as (pre & x & post & _ & _ & E); [lia|]. exists x. exact E.
Qed.
Print Assumptions C15_len.
Theorem C15_slice_split : forall l k,
  oid_extend (oid_getslice l None (Some k)) (oid_getslice l (Some k) None) = l.
Proof. exact (@slice_split Z). Qed.
Print Assumptions C15_slice_split.
Theorem C15_slice_window : forall pre mid post : list Z,
  oid_getslice (pre ++ mid ++ post) (Some (zlen pre)) (Some (zlen pre + zlen mid)) = mid.
Proof. exact (@slice_window Z). Qed.
Print Assumptions C15_slice_window.
Theorem C15_delete : forall (l : list Z) i, - zlen l <= i < zlen l ->
  exists pre x post, l = pre ++ x :: post /\ zlen pre = (if i <? 0 then i + zlen l else i) /\
    oid_delitem l i = Ok (pre ++ post).
Proof. exact (@py_delitem_ok Z). Qed.
Print Assumptions C15_delete.
Theorem C15_delete_out_of_range : forall (l : list Z) i, ~ (- zlen l <= i < zlen l) -> oid_delitem l i = Err IndexError.
Proof. exact (@py_delitem_bad Z). Qed.
Print Assumptions C15_delete_out_of_range.
Theorem C15_append_and_copy : forall l x, oid_append l x = l ++ [x] /\
  oid_getitem (oid_append l x) (-1) = Ok x /\ oid_copy (Some l) = Ok (VOid (Some l)).
Proof. exact append_and_copy. Qed.
Print Assumptions C15_append_and_copy.
Example C15_example : oid_delitem [1; 3; 6; 1] (-2) = Ok [1; 3; 1] /\ oid_getslice [1; 3; 6; 1] (Some 1) (Some (-1)) = [3; 6].
Proof. split; reflexivity. Qed.

(** C16. IPAddress: text, octets, text. *)
Theorem C16_ip_roundtrip : forall a b d e,
  0 <= a < 256 -> 0 <= b < 256 -> 0 <= d < 256 -> 0 <= e < 256 ->
  exists v, ipaddress_init CIPAddress (VPyStr (py_join 46 (map py_str_of_int [a; b; d; e]))) = Ok v /\
    encode v = Ok [64; 4; a; b; d; e] /\
    v = VOct CIPAddress (VPyStr [a; b; d; e]) /\
    ipaddress_str [a; b; d; e] = py_join 46 (map py_str_of_int [a; b; d; e]).
Proof. exact ip_encode. Qed.
Print Assumptions C16_ip_roundtrip.

(** C16. Exactly which texts are accepted: four numbers up to 0x10FFFF, not 255. *)
Theorem C16_ip_accepts : forall c s v, ipaddress_init c (VPyStr s) = Ok v <-> exists l, ip_text s l /\ v = VOct c (VPyStr l).
Proof. exact ip_text_iff. Qed.
Print Assumptions C16_ip_accepts.
(** C13, C16. The numbers in these texts are what int() accepts. *)
Theorem C16_int : forall s z, py_int_of_str s = Ok z <-> int_text s z.
Proof. exact int_of_str_ok. Qed.
Print Assumptions C16_int.
Example C16_example : ip_text [49; 48; 46; 48; 46; 32; 55; 46; 50; 53; 53] [10; 0; 7; 255] /\ (forall l, ~ ip_text [49; 48; 46; 48; 46; 55] l).
Proof.
  split.
  - exists [[49; 48]; [48]; [32; 55]; [50; 53; 53]]. split; [reflexivity|]. split; [reflexivity|]. repeat (constructor; [split; [apply int_of_str_ok; reflexivity|lia]|]). constructor.
  - intros l H. assert (X : exists v, ipaddress_init CIPAddress (VPyStr [49; 48; 46; 48; 46; 55]) = Ok v) by (eexists; apply ip_text_iff; eauto). destruct X as (v & X). discriminate X.
Qed.
(** C16. Decoding accepts contents of any length. *)
Theorem C16_ip_decode_any_length : forall dec data,
  decodeContents dec CIPAddress data = Ok (VOct CIPAddress (VPyStr data)).
Proof. exact (fun dec data => eq_refl). Qed.
Print Assumptions C16_ip_decode_any_length.

Theorem C16_ip_range_refuted : ipaddress_init CIPAddress (VPyStr [57; 57; 57; 46; 49; 46; 49; 46; 49]) =
  Ok (VOct CIPAddress (VPyStr [999; 1; 1; 1])).
Proof. exact eq_refl. Qed.
Print Assumptions C16_ip_range_refuted.
