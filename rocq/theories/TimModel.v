(** The time limit of run_and_redirect (tools/ptrace.c). *)
From Verif Require Import Base LibModel PtModel.

(** How the waiting of run_and_redirect ends. [T_waiting]: the polls given are not enough
    to end it. *)
Inductive tout :=
| T_stopped (status : Z)
| T_error (code : Z)
| T_waiting.

(** tools/ptrace.c:578-616, the loop, with its clock: each poll is what waitpid answered and
    what time() returned after it (in seconds, line 610); [t0]: what time() returned before
    the loop (578). [timeout]: rr_timeout (tools/ptrace.c:55, 495-498, 506), which --timeout
    sets. time_t and long have 64 bits; their difference is taken not to overflow. *)
Fixpoint rr_timed (timeout t0 : Z) (polls : list (wait_ev * Z)) : tout :=
  match polls with
  | [] => T_waiting
  | (w, t1) :: rest =>
      let again := if t1 - t0 <? timeout then rr_timed timeout t0 rest else T_error ETIME in
      match w with
      | WError => T_error EUNKNOWN
      | WStatus s =>
          if WIFEXITED s || WCOREDUMP s then T_error EUNKNOWN
          else if WIFSTOPPED s then T_stopped s
          else again
      | WNothing | WOther => again
      end
  end.
