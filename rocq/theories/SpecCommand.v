(** * Vocabulary for C92: commands.  The rest is in SpecTools. *)
From Coq Require Import ZArith List Bool.
From Verif Require Import PyBase Classes Values Codec Manager Text Tools SpecSMI SpecTree SpecWire SpecMsg SpecManager SpecTools CommandLine.
Import ListNotations.
Open Scope Z_scope.

Definition dash : Z := 45.
(** The word is neither an option nor "--". *)
Definition plain_word (w : str) : Prop := w = [dash] \/ forall r, w <> dash :: r.
(** With these words and exactly these outside events, the process ends with these lines on the screen, these datagrams sent, and this status. *)
Definition exits (p : program) (t : transport) (b : res unit) (words : list str) (ev : list outside) (lines : list str) (datagrams : list (str * address)) (status : Z) : Prop :=
  match command_start p b words with
  | Refused => ev = [] /\ lines = [] /\ datagrams = [] /\ command_status Refused = Some status
  | Started args s0 => exists s, goes p t args s0 ev s /\ printed s = lines /\ sent s = datagrams /\ command_status (Started args s) = Some status
  end.
(** The words on the command line that leave these arguments: "--" before them, or the arguments themselves unless the first looks like an option. *)
Definition given (words args : list str) : Prop :=
  words = [dash; dash] :: args \/ (words = args /\ match args with w :: _ => plain_word w | [] => True end).
