(** * Vocabulary for C69-C72: several managers in one process. *)
From Coq Require Import ZArith List Bool.
From Verif Require Import PyBase Role Asyn.
Import ListNotations.
Open Scope Z_scope.

(** Manager [o] made socket [s]. *)
Definition opened_by (lg : list aevent) (s o : nat) : Prop := exists fd, In (EOpened s o fd) lg.
(** What the kernel queued for socket [s], and what recvfrom on it answered. *)
Definition arrivals (lg : list aevent) (s : nat) : list packet :=
  flat_map (fun e => match e with EArrive s' x => if Nat.eqb s' s then [x] else [] | _ => [] end) lg.
Definition received (lg : list aevent) (s : nat) : list packet :=
  flat_map (fun e => match e with ERecv s' x => if Nat.eqb s' s then [x] else [] | _ => [] end) lg.
(** Still in the kernel's queue. *)
Definition queued (st : astate) (s : nat) : list packet := match nth_error (socks st) s with Some k => k_queue k | None => [] end.
(** Nobody calls handle_close(). *)
Definition never_handle_close (tr : list alabel) : Prop := forall o r, ~ In (AHandleClose o r) tr.
(** Callbacks never do this. *)
Definition callbacks_avoid (bad : alabel -> Prop) (tr : list alabel) : Prop :=
  forall tr1 l tr2 st, tr = tr1 ++ l :: tr2 -> aexec tr1 = Some st -> astack st <> [] -> ~ bad l.
Definition is_poll (l : alabel) : Prop := match l with APoll _ => True | _ => False end.
Definition is_new (l : alabel) : Prop := match l with ANew _ _ _ _ => True | _ => False end.
(** Callbacks neither poll nor make managers. *)
Definition calm_callbacks (tr : list alabel) : Prop := callbacks_avoid is_poll tr /\ callbacks_avoid is_new tr.
(** recvfrom waits: the process hangs until a datagram arrives. *)
Definition hangs (st : astate) : Prop := exists o s rest, astack st = FBlocked o s :: rest.
(** Manager [o] is in asyncore's map, and its socket is open. *)
Definition registered (st : astate) (o : nat) : Prop := exists m fd s k,
  obj st o = Some m /\ a_role m = Some s /\ nth_error (socks st) s = Some k /\ k_open k = true /\ k_fd k = fd /\ In (fd, o) (smap st).
(** The first queued packet of each registered manager, in the order of the map: (manager, socket, packet). *)
Definition waiting (st : astate) : list (nat * nat * packet) :=
  flat_map (fun e : Z * nat =>
    match obj st (snd e) with
    | Some m => match a_role m with Some s => match queued st s with x :: _ => [(snd e, s, x)] | [] => [] end | None => [] end
    | None => []
    end) (smap st).
(** A datagram for socket [s] of manager [o]. *)
Record delivery := mkDelivery { v_mgr : nat; v_sock : nat; v_data : str; v_src : addr }.
Definition as_waiting (v : delivery) : nat * nat * packet := (v_mgr v, v_sock v, Ok (v_data v, v_src v)).
(** It is read, and the manager's callback called with it. *)
Definition handed (v : delivery) : list aevent := [ERecv (v_sock v) (Ok (v_data v, v_src v)); ECb (v_mgr v) (Data (v_data v) (v_src v))].
(** ... and returns. *)
Definition served (v : delivery) : list aevent := handed v ++ [ECbEnd (v_mgr v) (Ok tt)].
(** The descriptors a label asks the kernel for. *)
Definition asks_fd (l : alabel) (fd : Z) : Prop := match l with ANew _ _ _ g => g = fd | ASend _ _ _ _ g _ => g = fd | _ => False end.

(** The constructor of manager [o] returned. *)
Definition made (lg : list aevent) (o : nat) : Prop := In (ENew o (Ok tt)) lg.
(** User code runs: the main part or a callback, not asyncore. *)
Definition user_runs (st : astate) : Prop := astack st = [] \/ exists o b k, astack st = FCallback o b :: k.
(** Opening succeeds. *)
Definition opens : opening := mkOpening (Ok tt) (Ok tt) (Ok tt).
(** [es] was logged after [st]. *)
Definition logged (st st' : astate) (es : list aevent) : Prop := alog st' = alog st ++ es.
