(** * Vocabulary for socket histories *)
From Coq Require Import ZArith List Bool.
From Verif Require Import PyBase Role.
Import ListNotations.
Open Scope Z_scope.

(** The socket most recently created by a list of system calls. *)
Definition newest (cs : list sysevent) : option nat :=
  fold_left (fun o c => match c with SSocket s => Some s | _ => o end) cs None.
(** The socket a system call works on. *)
Definition works_on (c : sysevent) : option nat :=
  match c with
  | SSocket _ => None
  | SBind s _ _ | SOption s _ _ | SSendto s _ _ _ | SRecvfrom s _ _ | SClose s _ => Some s
  end.
(** The sockets successfully closed, and those created but not closed, in order. *)
Definition closed (cs : list sysevent) : list nat :=
  flat_map (fun c => match c with SClose s (Ok _) => [s] | _ => [] end) cs.
Definition made (cs : list sysevent) : list nat :=
  flat_map (fun c => match c with SSocket s => [s] | _ => [] end) cs.
Definition left_open (cs : list sysevent) : list nat :=
  filter (fun s => negb (existsb (Nat.eqb s) (closed cs))) (made cs).
(** The user calls open() only when there is no socket. *)
Fixpoint disciplined (st : rstate) (ops : list rop) : Prop :=
  match ops with
  | [] => True
  | o :: r => match o with ROpen _ => sock (mgr_of st) = None | _ => True end /\ disciplined (fst (role_do st o)) r
  end.
