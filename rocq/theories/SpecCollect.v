(** * Vocabulary for C91: garbage collection.  The rest is in SpecAsyn and SpecRole. *)
From Coq Require Import ZArith List Bool.
From Verif Require Import PyBase Role Asyn SpecAsyn Collect.
Import ListNotations.
Open Scope Z_scope.

(** Nobody calls handle_close(). *)
Definition never_handle_closes (tr : list glabel) : Prop := forall o r, ~ In (GDo (AHandleClose o r)) tr.
(** Manager [o] is not closed, and not dropped. *)
Definition never_closes (o : nat) (tr : list glabel) : Prop := forall r, ~ In (GDo (AClose o r)) tr.
Definition never_collected (o : nat) (tr : list glabel) : Prop := ~ In (GCollect o) tr.
(** Socket [s] is open. *)
Definition is_open (st : astate) (s : nat) : Prop := exists k, nth_error (socks st) s = Some k /\ k_open k = true.
(** ... and belongs to a registered manager. *)
Definition in_use (st : astate) (s : nat) : Prop := exists o m, registered st o /\ obj st o = Some m /\ a_role m = Some s.
(** A constructor made socket [s] and then raised. *)
Definition constructor_failed (lg : list aevent) (s : nat) : Prop := exists o e, opened_by lg s o /\ In (ENew o (Err e)) lg.
