(** * Vocabulary for the sizes of encodings. *)
From Coq Require Import ZArith List Bool.
From Verif Require Import PyBase Classes Values.
Import ListNotations.
Open Scope Z_scope.

(** [part w v]: the object [w] is [v] or, at any depth, an element of it. *)
Inductive part (w : val) : val -> Prop :=
| part_whole : part w w
| part_element c l x : In x l -> part w x -> part w (VSeq c l).
