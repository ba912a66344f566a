(** * Vocabulary for C90: what /proc/uptime says (man 5 proc: two numbers of seconds with two digits after the point), and what a double is (IEEE 754).  Nothing of the model is used. *)
From Coq Require Import ZArith List.
From Verif Require Import SpecNumber.
Import ListNotations.
Open Scope Z_scope.

(** [text] says that the system has been up for [n] hundredths of a second. *)
Definition says_uptime (text : list Z) (n : Z) : Prop :=
  exists secs c1 c2 idle, text = secs ++ [46; c1; c2] ++ 32 :: idle /\ digit_string secs /\ digit_string [c1; c2] /\ n = 100 * digits_value secs + digits_value [c1; c2].
(** m * 2 ^ e is the double nearest to the positive number n / d: 53 bits, at most half a unit of the last bit away, the even one if two are equally near.  (Multiplied out, so that
    only integers occur.) *)
Definition nearest_double (n d m e : Z) : Prop :=
  let p := 2 ^ Z.max e 0 in let q := 2 ^ Z.max (- e) 0 in
  2 ^ 52 * (d * p) <= n * q < 2 ^ 53 * (d * p) /\
  2 * Z.abs (m * (d * p) - n * q) <= d * p /\ (2 * Z.abs (m * (d * p) - n * q) = d * p -> Z.even m = true).
(** ** What float() reads (the Python Language Reference, "Floating point literals", with an optional sign), and what becomes of it *)
(** Digits, with at most one underscore between two of them; the digits alone. *)
Inductive digit_part : list Z -> list Z -> Prop :=
| DP_last : forall c, 48 <= c <= 57 -> digit_part [c] [c]
| DP_next : forall c t ds, 48 <= c <= 57 -> digit_part t ds -> digit_part (c :: t) (c :: ds)
| DP_underscore : forall c t ds, 48 <= c <= 57 -> digit_part t ds -> digit_part (c :: 95 :: t) (c :: ds).
Inductive sign_part : list Z -> bool -> Prop :=
| SP_none : sign_part [] false
| SP_plus : sign_part [43] false
| SP_minus : sign_part [45] true.
(** Digits, a point before, after or between them; how many come after it. *)
Inductive mantissa_part : list Z -> list Z -> Z -> Prop :=
| MP_int : forall t ds, digit_part t ds -> mantissa_part t ds 0
| MP_end : forall t ds, digit_part t ds -> mantissa_part (t ++ [46]) ds 0
| MP_start : forall t ds, digit_part t ds -> mantissa_part (46 :: t) ds (Z.of_nat (length ds))
| MP_mid : forall t ds t' ds', digit_part t ds -> digit_part t' ds' -> mantissa_part (t ++ 46 :: t') (ds ++ ds') (Z.of_nat (length ds')).
Inductive exponent_text : list Z -> Z -> Prop :=
| EP_none : exponent_text [] 0
| EP_some : forall c sg neg t ds, c = 69 \/ c = 101 -> sign_part sg neg -> digit_part t ds ->
    exponent_text (c :: sg ++ t) (if neg then - digits_value ds else digits_value ds).
(** [w] is a number: the digits [ds] times 10 to the power of [x], with or without a minus sign. *)
Definition float_text (w : list Z) (neg : bool) (ds : list Z) (x : Z) : Prop :=
  exists sg mt k et e, w = sg ++ mt ++ et /\ sign_part sg neg /\ mantissa_part mt ds k /\ exponent_text et e /\ x = e - k.
(** What str.split() splits at. *)
Definition white (c : Z) : Prop :=
  In c ([9; 10; 11; 12; 13; 28; 29; 30; 31; 32; 133; 160; 5760; 8192; 8193; 8194; 8195; 8196; 8197; 8198; 8199; 8200; 8201; 8202; 8232; 8233; 8239; 8287; 12288]).
Definition begins_with (text w : list Z) : Prop :=
  exists before after, text = before ++ w ++ after /\ Forall white before /\ w <> [] /\ Forall (fun c => ~ white c) w /\ match after with c :: _ => white c | [] => True end.
(** The double nearest to n / d (not negative) is v / w. *)
Definition double_of (n d v w : Z) : Prop :=
  (n = 0 /\ v = 0 /\ w = 1) \/ (0 < n /\ exists m e, nearest_double n d m e /\ v = m * 2 ^ Z.max e 0 /\ w = 2 ^ Z.max (- e) 0).
(** int(x * 100) for the double x nearest to n / d; 0 if something on the way is infinite. *)
Definition hundredths_of (neg : bool) (n d z : Z) : Prop :=
  exists v w, double_of n d v w /\
    ((2 ^ 1024 * w <= v /\ z = 0) \/
     (v < 2 ^ 1024 * w /\ exists v' w', double_of (v * 100) w v' w' /\
        ((2 ^ 1024 * w' <= v' /\ z = 0) \/ (v' < 2 ^ 1024 * w' /\ z = if neg then - (v' / w') else v' / w')))).
