(** * getSysUptime (v1.py 236-253, inherited by v2.SNMP; snmpmanager.py 344-361): the time stamp of traps. *)
From Coq Require Import ZArith List Bool.
From Verif Require Import PyBase.
Import ListNotations.
Open Scope Z_scope.

(** ** Python's float, as far as it is used: text to float, * 100, int().
    A finite double that is not negative: [fm] * 2 ^ [fe].  IEEE 754 binary64 with 53 significant bits, rounding to nearest, ties to even.  Simplification: no
    smallest exponent; that changes only numbers far below 1/100, all of which become 0. *)
Record dbl := mkD { fm : Z; fe : Z }.
Definition pos_pow (e : Z) : Z := 2 ^ Z.max e 0.
Definition neg_pow (e : Z) : Z := 2 ^ Z.max (- e) 0.
Definition half_even (n d : Z) : Z :=
  let q := n / d in let r := n mod d in
  if 2 * r <? d then q else if d <? 2 * r then q + 1 else if Z.even q then q else q + 1.
Definition exponent (n d : Z) : Z :=
  let e := Z.log2 n - Z.log2 d - 52 in
  if n * neg_pow e <? 2 ^ 52 * (d * pos_pow e) then e - 1 else e.
(** The double for n / d (0 <= n, 0 < d). *)
Definition to_double (n d : Z) : dbl :=
  if n =? 0 then mkD 0 0 else let e := exponent n d in mkD (half_even (n * neg_pow e) (d * pos_pow e)) e.
(** Too large: infinite. *)
Definition is_inf (x : dbl) : bool := 2 ^ 1024 * neg_pow (fe x) <=? fm x * pos_pow (fe x).
Definition times100 (x : dbl) : dbl := to_double (fm x * pos_pow (fe x) * 100) (neg_pow (fe x)).
(** int() cuts the fraction off; int(inf) raises OverflowError. *)
Definition int_of (x : dbl) : res Z := if is_inf x then Err OverflowError else Ok (fm x * pos_pow (fe x) / neg_pow (fe x)).

(** float(s), s without white space: underscores between digits are dropped; a sign, digits with a point somewhere, an exponent.  "inf", "infinity" and "nan" are errors here: float() takes them, but int()
    refuses what it makes of them.  Simplification: only the digits 0 to 9. *)
Fixpoint drop_underscores (after_digit : bool) (s : str) : res str :=
  match s with
  | [] => Ok []
  | c :: r =>
      if c =? 95 then
        match r with
        | d :: _ => if after_digit && is_digit d then drop_underscores false r else Err ValueError
        | [] => Err ValueError
        end
      else s' <- drop_underscores (is_digit c) r ;; Ok (c :: s')
  end.
Fixpoint span_digits (s : str) : str * str :=
  match s with c :: r => if is_digit c then let '(a, b) := span_digits r in (c :: a, b) else ([], s) | [] => ([], []) end.
Definition take_sign (s : str) : bool * str := match s with 45 :: r => (true, r) | 43 :: r => (false, r) | _ => (false, s) end.
Definition digits_to_int (s : str) : Z := fold_left (fun a c => a * 10 + (c - 48)) s 0.
Definition exponent_part (s : str) : res Z :=
  match s with
  | [] => Ok 0
  | c :: r =>
      if (c =? 101) || (c =? 69) then
        let '(neg, r1) := take_sign r in
        let '(ds, r2) := span_digits r1 in
        match ds, r2 with _ :: _, [] => Ok (if neg then - digits_to_int ds else digits_to_int ds) | _, _ => Err ValueError end
      else Err ValueError
  end.
(** Negative or not, and the absolute value. *)
Definition py_float (s : str) : res (bool * dbl) :=
  s <- drop_underscores false s ;;
  let '(neg, s1) := take_sign s in
  let '(ip, s2) := span_digits s1 in
  let '(fp, s3) := match s2 with 46 :: r => span_digits r | _ => ([], s2) end in
  match ip ++ fp with
  | [] => Err ValueError
  | _ => ex <- exponent_part s3 ;;
         let x := ex - zlen fp in
         Ok (neg, to_double (digits_to_int (ip ++ fp) * 10 ^ Z.max x 0) (10 ^ Z.max (- x) 0))
  end.

(** ** s.split() *)
Definition is_space (c : Z) : bool :=
  ((9 <=? c) && (c <=? 13)) || ((28 <=? c) && (c <=? 32)) || (c =? 0x85) || (c =? 0xA0) || (c =? 0x1680) || ((0x2000 <=? c) && (c <=? 0x200A)) ||
  (c =? 0x2028) || (c =? 0x2029) || (c =? 0x202F) || (c =? 0x205F) || (c =? 0x3000).
(** The first word, if there is one. *)
Fixpoint word (s : str) : str := match s with c :: r => if is_space c then [] else c :: word r | [] => [] end.
Definition first_word (s : str) : res str := match lstrip is_space s with [] => Err IndexError | s' => Ok (word s') end.

(** getSysUptime; [file]: what open('/proc/uptime').read() gives.  "except:" takes every exception. *)
Definition getSysUptime (file : res str) : Z :=
  match (text <- file ;;
         w <- first_word text ;;
         x <- py_float w ;;
         let '(neg, x) := x in
         if is_inf x then Err OverflowError else
         z <- int_of (times100 x) ;;
         Ok (if neg then - z else z)) with
  | Ok upsecs => upsecs
  | Err _ => 0
  end.
