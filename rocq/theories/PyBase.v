(** * Python primitives used by the model.

    Nothing here is libsnmp code: this file fixes the meaning of the Python 3
    built-ins the library calls (exceptions, str, int(), str(), list indexing
    and slicing).  A Python [str] is the list of its code points; a Python
    [int] is a [Z]. *)
From Coq Require Import ZArith List Bool Lia.
Import ListNotations.
Open Scope Z_scope.

(** Python exceptions that the modelled code can raise.  [OutOfFuel] is not a
    Python exception: a modelled loop returns it when it has run more
    iterations than its fuel, i.e. it stands for "still running". [UserExn] is
    any exception raised by a user callback that is an Exception other than a
    ValueError; [SystemExit] is what sys.exit raises (not an Exception subclass). *)
Inductive exn :=
| IndexError | ValueError | TypeError | KeyError | AttributeError
| NotImplementedError | RecursionError | OverflowError | UnboundLocalError
| PDUError | MessageError | QueueEmpty | SystemExit | OSError | UserExn (n : nat) | OutOfFuel.

(** Result of a Python evaluation: a value or an exception. *)
Inductive res (A : Type) := Ok (a : A) | Err (e : exn).
Arguments Ok {A} a.
Arguments Err {A} e.

Definition bind {A B} (r : res A) (f : A -> res B) : res B :=
  match r with Ok a => f a | Err e => Err e end.
Notation "x <- r ;; k" := (bind r (fun x => k))
  (at level 61, r at next level, right associativity).

(** Python evaluates a list comprehension / for loop left to right and stops at
    the first exception. *)
Fixpoint mapM {A B} (f : A -> res B) (l : list A) : res (list B) :=
  match l with
  | [] => Ok []
  | x :: r => y <- f x ;; ys <- mapM f r ;; Ok (y :: ys)
  end.

(** A Python str: its code points. *)
Definition str := list Z.

(** Octet strings: the strs whose characters are all below 256. *)
Definition is_octet (b : Z) : Prop := 0 <= b < 256.
Definition octets (s : str) : Prop := Forall is_octet s.

(** s[:n] and s[n:] for n >= 0 (Python slicing never fails; it clips). *)
Fixpoint ztake {A} (n : Z) (l : list A) : list A :=
  match l with
  | [] => []
  | x :: r => if n <=? 0 then [] else x :: ztake (n - 1) r
  end.
Fixpoint zdrop {A} (n : Z) (l : list A) : list A :=
  match l with
  | [] => []
  | x :: r => if n <=? 0 then l else zdrop (n - 1) r
  end.
(** len(l) *)
Definition zlen {A} (l : list A) : Z := Z.of_nat (length l).

(** l[i] with Python's negative indices. *)
Definition py_index {A} (l : list A) (i : Z) : res A :=
  let j := if i <? 0 then i + zlen l else i in
  if (j <? 0) || (zlen l <=? j) then Err IndexError
  else match nth_error l (Z.to_nat j) with
       | Some x => Ok x
       | None => Err IndexError
       end.

(** Clipping of one slice bound, as in CPython's PySlice_AdjustIndices (step 1). *)
Definition slice_bound {A} (l : list A) (dflt : Z) (b : option Z) : Z :=
  match b with
  | None => dflt
  | Some i => if i <? 0 then Z.max 0 (i + zlen l) else Z.min i (zlen l)
  end.
(** l[lo:hi] *)
Definition py_slice {A} (l : list A) (lo hi : option Z) : list A :=
  let a := slice_bound l 0 lo in
  let b := slice_bound l (zlen l) hi in
  ztake (b - a) (zdrop a l).
(** del l[i] *)
Definition py_delitem {A} (l : list A) (i : Z) : res (list A) :=
  let j := if i <? 0 then i + zlen l else i in
  if (j <? 0) || (zlen l <=? j) then Err IndexError
  else Ok (ztake j l ++ zdrop (j + 1) l).

(** chr(i): OverflowError outside C int, ValueError outside Unicode. *)
Definition py_chr (i : Z) : res Z :=
  if (i <? -2147483648) || (2147483647 <? i) then Err OverflowError
  else if (i <? 0) || (1114111 <? i) then Err ValueError
  else Ok i.

(** s.split(c) for a one-character separator. *)
Fixpoint py_split (c : Z) (s : str) : list str :=
  match s with
  | [] => [[]]
  | x :: r => if x =? c then [] :: py_split c r
              else match py_split c r with
                   | h :: t => (x :: h) :: t
                   | [] => [[x]]
                   end
  end.
(** c.join(l) for a one-character separator. *)
Fixpoint py_join (c : Z) (l : list str) : str :=
  match l with
  | [] => []
  | [x] => x
  | x :: r => x ++ c :: py_join c r
  end.
(** s.strip(c) with a one-character set. *)
Fixpoint lstrip (p : Z -> bool) (s : str) : str :=
  match s with
  | [] => []
  | x :: r => if p x then lstrip p r else s
  end.
Definition strip (p : Z -> bool) (s : str) : str := rev (lstrip p (rev (lstrip p s))).

(** int(s), base 10.  Simplification: characters above 127 are treated as
    invalid (CPython also accepts Unicode digits and spaces), and CPython's
    4300-digit limit is not modelled. *)
Definition is_ws (c : Z) : bool := ((9 <=? c) && (c <=? 13)) || (c =? 32).
Definition is_digit (c : Z) : bool := (48 <=? c) && (c <=? 57).
Fixpoint int_digits (s : str) (acc : Z) (after_digit : bool) : res Z :=
  match s with
  | [] => if after_digit then Ok acc else Err ValueError
  | c :: r => if is_digit c then int_digits r (acc * 10 + (c - 48)) true
              else if (c =? 95) && after_digit then int_digits r acc false
              else Err ValueError
  end.
Definition py_int_of_str (s : str) : res Z :=
  match strip is_ws s with
  | [] => Err ValueError
  | c :: r => if c =? 45 then (n <- int_digits r 0 false ;; Ok (- n))
              else if c =? 43 then int_digits r 0 false
              else int_digits (c :: r) 0 false
  end.

(** str(n) / '%d' % n *)
Fixpoint dec_digits (fuel : nat) (n : Z) (acc : str) : str :=
  match fuel with
  | O => acc
  | S f => let acc' := (48 + n mod 10) :: acc in
           if n <? 10 then acc' else dec_digits f (n / 10) acc'
  end.
Definition py_str_of_nat (n : Z) : str := dec_digits (S (Z.to_nat (Z.log2 n))) n [].
Definition py_str_of_int (n : Z) : str :=
  if n <? 0 then 45 :: py_str_of_nat (- n) else py_str_of_nat n.

(** Lower-case hexadecimal digit, as printed by "%x". *)
Definition hex_digit (d : Z) : Z := if d <? 10 then 48 + d else 87 + d.
(** Upper-case hexadecimal digit, as printed by "%X". *)
Definition HEX_digit (d : Z) : Z := if d <? 10 then 48 + d else 55 + d.
(** Digits of n in base b (b >= 2), most significant first, at least one digit. *)
Fixpoint base_digits (b : Z) (fuel : nat) (n : Z) (acc : list Z) : list Z :=
  match fuel with
  | O => acc
  | S f => let acc' := (n mod b) :: acc in
           if n <? b then acc' else base_digits b f (n / b) acc'
  end.
Definition digits_in_base (b n : Z) : list Z := base_digits b (S (Z.to_nat (Z.log2 n))) n [].
