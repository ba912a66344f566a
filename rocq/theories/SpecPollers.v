(** * Vocabulary for C88 and C89: several threads that poll. *)
From Coq Require Import ZArith List Bool.
From Verif Require Import PyBase Role Asyn SpecAsyn Pollers.
Import ListNotations.
Open Scope Z_scope.

(** What happened, in any thread; and in thread [t]. *)
Definition all_events (lg : list pevent) : list aevent := map snd lg.
Definition own (t : nat) (lg : list pevent) : list aevent :=
  flat_map (fun e => match fst e with Some u => if Nat.eqb u t then [snd e] else [] | None => [] end) lg.
(** What the kernel holds for socket [s]. *)
Definition in_kernel (st : pstate) (s : nat) : list packet := match nth_error (p_socks st) s with Some k => k_queue k | None => [] end.
(** Thread [t] has just read [x] from socket [s] of manager [o], and not gone on. *)
Definition has_read (st : pstate) (t o s : nat) (x : packet) : Prop := exists p rest k, p_stack st t = mkF p rest (Got o s x) :: k.
(** Thread [t] waits in recvfrom, with nothing there: it hangs until a datagram arrives. *)
Definition hung (st : pstate) (t : nat) : Prop := exists p rest o s k, p_stack st t = mkF p rest (Wait o s) :: k /\ in_kernel st s = [].
(** Thread [t] is in the library. *)
Definition in_library (st : pstate) (t : nat) : Prop := free (p_stack st t) = false.
(** A callback of manager [o] runs in thread [t]. *)
Definition runs_callback (st : pstate) (t o : nat) : Prop := exists f b, In f (p_stack st t) /\ f_phase f = Calls o b.
(** Manager [o] was made, and not closed since. *)
Definition listening (st : pstate) (o : nat) : Prop := exists m fd, nth_error (p_mans st) o = Some m /\ g_fileno m = Some fd.
(** The managers listening. *)
Definition listeners (st : pstate) : list nat := filter (fun o => match nth_error (p_mans st) o with Some m => match g_fileno m with Some _ => true | None => false end | None => false end) (seq 0 (length (p_mans st))).
(** poll() is called, and managers are made, only while no thread is in poll() (a lock held by the user). *)
Definition one_at_a_time (tr : list plabel) : Prop := forall tr1 l tr2 st, tr = tr1 ++ l :: tr2 -> pexec tr1 = Some st ->
  (exists t p, l = PPoll t p) \/ (exists t fd, l = PNew t fd) -> forall u, p_stack st u = [].
(** The same for poll() alone. *)
Definition one_poll_at_a_time (tr : list plabel) : Prop := forall tr1 t p tr2 st, tr = tr1 ++ PPoll t p :: tr2 -> pexec tr1 = Some st -> forall u, p_stack st u = [].
(** Steps of thread [t] inside the poll() it is in: the library going on, callbacks ending. *)
Definition goes_on (t : nat) (l : plabel) : bool :=
  match l with PGo u | PReturn u | PRaise u _ => Nat.eqb u t | _ => false end.
(** Steps in which thread [t] calls poll(). *)
Definition polls (t : nat) (l : plabel) : bool := match l with PPoll u _ => Nat.eqb u t | _ => false end.
(** In state [st] thread [t] calls poll() of manager [p]; during [tr] things happen in all threads, and at its end this call ends with [r]; then the state is [st']. *)
Definition whole_poll (st : pstate) (t p : nat) (tr : list plabel) (st' : pstate) (r : res unit) : Prop :=
  psteps st (PPoll t p :: tr) = Some st' /\ p_stack st' t = p_stack st t /\
  (forall a b sta, tr = a ++ b -> b <> [] -> psteps st (PPoll t p :: a) = Some sta -> (length (p_stack st t) < length (p_stack sta t))%nat) /\
  exists l, own t (p_log st') = l ++ [EPollEnd p r].
(** What callbacks of manager [o] were called with, in order; and which answers of recvfrom are datagrams. *)
Definition handed (lg : list aevent) (o : nat) : list packet :=
  flat_map (fun e => match e with ECb o' (Data d src) => if Nat.eqb o' o then [Ok (d, src)] else [] | _ => [] end) lg.
Definition datagrams (l : list packet) : list packet := filter (fun x => match x with Ok _ => true | Err _ => false end) l.
