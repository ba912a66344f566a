(** * Garbage collection: role.manager.__del__ (role.py 24-26, which calls close) and the finalizer of socket objects.

    CPython may drop an object as soon as nothing refers to it, at any moment.  asyncore's map and the running calls refer to managers; whether user code does is
    up to user code: here any manager that the library does not refer to may be dropped at any time, and then user code cannot use it any more.  A socket object to which no manager
    refers is closed by __del__ or by its own finalizer; errors of closing are ignored there, and the descriptor is free in any case.  Simplification: user code does
    not keep the socket objects or role managers of a manager it has dropped. *)
From Coq Require Import ZArith List Bool.
From Verif Require Import PyBase Role Asyn.
Import ListNotations.
Open Scope Z_scope.

(** ** asynrole.Manager *)
(** The library does not refer to manager [o]: the map does not (asyncore.py 272-274), nor is a call of its methods running. *)
Definition frame_of (f : aframe) : nat := match f with FPolling o _ | FCallback o _ | FBlocked o _ => o end.
Definition unreferenced (st : astate) (o : nat) : bool :=
  negb (existsb (fun e : Z * nat => Nat.eqb (snd e) o) (smap st)) && negb (existsb (fun f => Nat.eqb (frame_of f) o) (astack st)).
(** The manager is gone. *)
Definition drop (st : astate) (o : nat) : astate := mkAS (socks st) (upd (objs st) o None) (smap st) (astack st) (alog st).
(** A manager refers to socket [s]: self.manager.socket or self.socket. *)
Definition refers (s : nat) (x : option amgr) : bool :=
  match x with Some m => match a_role m with Some s' => Nat.eqb s' s | None => false end || Nat.eqb (a_socket m) s | None => false end.

Inductive glabel :=
| GDo (l : alabel)
| GCollect (o : nat)                 (* manager o is dropped *)
| GFinalize (s : nat).               (* socket s, to which nothing refers, is closed *)
Definition gstep (st : astate) (l : glabel) : option astate :=
  match l with
  | GDo l => astep st l
  | GCollect o => match obj st o with Some _ => if unreferenced st o then Some (drop st o) else None | None => None end
  | GFinalize s =>
      match nth_error (socks st) s with
      | Some _ => if existsb (refers s) (objs st) || existsb (fun f => match f with FBlocked _ t => Nat.eqb t s | _ => false end) (astack st) then None else Some (set_open st s false)
      | None => None
      end
  end.
Fixpoint gsteps (st : astate) (tr : list glabel) : option astate :=
  match tr with [] => Some st | l :: r => match gstep st l with None => None | Some st' => gsteps st' r end end.
Definition gexec (tr : list glabel) : option astate := gsteps ainit tr.

(** ** role.manager alone *)
(** __del__ (role.py 24-26): an exception of close() is reported and ignored; with the manager its reference to the socket is gone. *)
Definition role_del (st : rstate) (r : res unit) : rstate :=
  let st' := fst (role_close st r) in mkRState (mkRole None (interface (mgr_of st')) (socksize (mgr_of st'))) (created st') (calls st').
(** A socket to which neither the manager nor user code refers (open() and get_socket() hand it out) is closed by its finalizer. *)
Definition role_final (st : rstate) (s : nat) : rstate := mkRState (mgr_of st) (created st) (calls st ++ [SClose s (Ok tt)]).
