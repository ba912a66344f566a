(** * Numbers as text, written from the Python reference (int(), str()) and from how identifiers and addresses are written.  Characters are code points; nothing of the
    model is used. *)
From Coq Require Import ZArith List.
Import ListNotations.
Open Scope Z_scope.

Definition digit_string (s : list Z) : Prop := s <> [] /\ Forall (fun c => 48 <= c <= 57) s.
Definition digits_value (s : list Z) : Z := fold_left (fun a c => 10 * a + (c - 48)) s 0.
(** p1 sep p2 sep ... pn *)
Definition separated (sep : list Z) (parts : list (list Z)) : list Z :=
  match parts with [] => [] | p :: ps => p ++ concat (map (fun x => sep ++ x) ps) end.
(** tab, line feed, vertical tab, form feed, carriage return, space *)
Definition blank (c : Z) : Prop := 9 <= c <= 13 \/ c = 32.
Inductive sign : list Z -> Z -> Prop := no_sign : sign [] 1 | plus_sign : sign [43] 1 | minus_sign : sign [45] (-1).
(** What int() accepts: blanks, a sign, groups of digits with single underscores between them, blanks. *)
Definition int_text (s : list Z) (z : Z) : Prop :=
  exists before sg u groups after, s = before ++ sg ++ separated [95] groups ++ after /\ Forall blank before /\ Forall blank after /\ sign sg u /\
    groups <> [] /\ Forall digit_string groups /\ z = u * digits_value (concat groups).
(** Decimal notation: no leading zeros, a minus sign for negative numbers. *)
Definition decimal (z : Z) (s : list Z) : Prop :=
  exists d, digit_string d /\ (hd 0 d = 48 -> d = [48]) /\ digits_value d = Z.abs z /\ s = if z <? 0 then 45 :: d else d.
(** Identifiers: numbers up to 2^31 - 1 with dots between them, and any dots around. *)
Definition oid_text (s l : list Z) : Prop :=
  exists before parts after, s = before ++ separated [46] parts ++ after /\ Forall (eq 46) before /\ Forall (eq 46) after /\ l <> [] /\
    Forall2 (fun p n => int_text p n /\ 0 <= n <= 2 ^ 31 - 1) parts l.
(** Addresses: four numbers with dots between them, each a code point. *)
Definition ip_text (s l : list Z) : Prop :=
  exists parts, s = separated [46] parts /\ length l = 4%nat /\ Forall2 (fun p n => int_text p n /\ 0 <= n <= 1114111) parts l.
