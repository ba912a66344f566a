(** * Vocabulary for schedules of several threads. *)
From Coq Require Import ZArith List Bool.
From Verif Require Import PyBase Classes Values Codec Manager Threads SpecManager.
Import ListNotations.
Open Scope Z_scope.

(** What happened, in the order in which it happened, without the threads' names. *)
Definition events (st : tstate) : list event := map snd (tlog st).
(** How many method calls were begun. *)
Definition begun (tr : list tlabel) : Z :=
  zlen (filter (fun l => match l with TBegin _ _ => true | _ => false end) tr).
(** The thread is inside assignRequestID: it has read the counter and has not yet stored the incremented one. *)
Definition assigning (th : thread) : Prop :=
  match active th with Some (_, PAgain _) | Some (_, PStore _ _) => True | _ => False end.
(** In this execution no two threads are ever inside assignRequestID at the same time. *)
Definition exclusive (sys : system) (tr : list tlabel) : Prop :=
  forall tr1 tr2 st t u, tr = tr1 ++ tr2 -> texec sys tr1 = Some st ->
    assigning (threads st t) -> assigning (threads st u) -> t = u.
(** The thread does one whole call with nothing in between. *)
Definition alone (t : nat) (a : call) (accesses : nat) : list tlabel :=
  TBegin t a :: repeat (TAccess t) accesses ++ [TEnd t].
Definition same_threads (a b : nat -> thread) : Prop := forall t, a t = b t.
(** A thread has an answer callback for request [id] running. *)
Definition answering (th : thread) (id : Z) : Prop := exists rest, frames th = FResp id :: rest.
