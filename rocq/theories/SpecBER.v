(** * Independent specifications for the BER layer (X.690), written from the standard
    and using no definition of the model. *)
From Coq Require Import ZArith List Bool.
Import ListNotations.
Open Scope Z_scope.

(** An octet string. *)
Definition octet_string (l : list Z) : Prop := Forall (fun b => 0 <= b < 256) l.

(** Unsigned big-endian value of a list of octets. *)
Fixpoint be_value (l : list Z) : Z :=
  match l with
  | [] => 0
  | b :: r => b * 256 ^ Z.of_nat (length r) + be_value r
  end.

(** Two's complement value (X.690 8.3.3): the top bit of the first octet weighs
    -2^(8n-1). *)
Definition twos_value (l : list Z) : Z :=
  match l with
  | [] => 0
  | b :: _ => be_value l - (if b <? 128 then 0 else 256 ^ Z.of_nat (length l))
  end.

(** X.690 8.3.2: the first nine bits are not all equal. *)
Definition shortest_form (l : list Z) : Prop :=
  match l with
  | b0 :: b1 :: _ => ~ (b0 = 0 /\ b1 < 128) /\ ~ (b0 = 255 /\ 128 <= b1)
  | [_] => True
  | [] => False
  end.

(** X.690 8.1.3: definite lengths, short or long form (k octets, 1 <= k <= 126). *)
Definition ber_length (n : Z) (l : list Z) : Prop :=
  (l = [n] /\ 0 <= n <= 127) \/
  (exists ds, l = (128 + Z.of_nat (length ds)) :: ds /\
              1 <= Z.of_nat (length ds) <= 126 /\ octet_string ds /\ be_value ds = n).

(** Base-128 subidentifier (X.690 8.19.2): all octets but the last have bit 8 set,
    the value is the concatenation of the 7-bit groups. *)
Fixpoint b128_value (l : list Z) : Z :=
  match l with
  | [] => 0
  | b :: r => (b mod 128) * 128 ^ Z.of_nat (length r) + b128_value r
  end.
Inductive b128_group : list Z -> Prop :=
| b128_last : forall b, 0 <= b < 128 -> b128_group [b]
| b128_more : forall b r, 128 <= b < 256 -> b128_group r -> b128_group (b :: r).
(** Shortest subidentifier: the first octet is not 0x80. *)
Definition b128_minimal (l : list Z) : Prop := match l with b :: _ => b <> 128 | [] => False end.

(** X.690 8.19: an object identifier value and its contents octets. *)
Definition valid_oid (l : list Z) : Prop :=
  match l with
  | a :: b :: rest => 0 <= a <= 2 /\ 0 <= b /\ (a <= 1 -> b < 40) /\ Forall (fun x => 0 <= x) rest
  | _ => False
  end.
(** [oid_octets l os]: os is the concatenation of minimal subidentifiers, the first of
    which encodes 40*a+b. *)
Definition oid_octets (l : list Z) (os : list Z) : Prop :=
  match l with
  | a :: b :: rest =>
      exists groups, os = concat groups /\
        Forall2 (fun g x => b128_group g /\ b128_minimal g /\ b128_value g = x)
                groups (a * 40 + b :: rest)
  | _ => False
  end.
