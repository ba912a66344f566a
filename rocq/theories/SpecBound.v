(** * Vocabulary for C93: how big decoded objects are. *)
From Coq Require Import ZArith List Bool.
From Verif Require Import PyBase Classes Values Codec.
Import ListNotations.
Open Scope Z_scope.

(** The number of library objects in a value. *)
Fixpoint objects (v : val) : Z :=
  match v with
  | VNone | VPyInt _ | VPyStr _ => 0
  | VPyList l => fold_right (fun x n => objects x + n) 0 l
  | VInt _ _ | VOct _ _ | VOid _ | VNull _ => 1
  | VSeq _ l => 1 + fold_right (fun x n => objects x + n) 0 l
  end.
(** The number of characters in its strings. *)
Fixpoint characters (v : val) : Z :=
  match v with
  | VPyList l | VSeq _ l => fold_right (fun x n => characters x + n) 0 l
  | VOct _ (VPyStr s) => zlen s
  | _ => 0
  end.
(** The number of components of its identifiers, not counting the first of each. *)
Fixpoint components (v : val) : Z :=
  match v with
  | VPyList l | VSeq _ l => fold_right (fun x n => components x + n) 0 l
  | VOid (Some l) => Z.max 0 (zlen l - 1)
  | _ => 0
  end.
(** The number of integers in it. *)
Fixpoint integers (v : val) : Z :=
  match v with
  | VPyList l | VSeq _ l => fold_right (fun x n => integers x + n) 0 l
  | VInt _ _ => 1
  | _ => 0
  end.
Definition sum (f : val -> Z) (l : list val) : Z := fold_right (fun x n => f x + n) 0 l.
