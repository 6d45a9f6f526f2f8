(** The cleanup loop, submission.rs:1170-1185 periodically_cleanup_old: read the clock, clean up with
    the cutoff clock - max_age, log an error if there is one, sleep for a minute, again. Started once
    by main.rs:68-69. Times are milliseconds. *)
From Verif Require Export Spec.
Local Open Scope Z_scope.

(** submission.rs:1171 PERIODIC_CLEANUP_INTERVAL. *)
Definition cleanup_interval : Z := 60000.
(** submission.rs:1173-1179: what a round that reads the clock at [now] does to the database. *)
Definition round (max_age : Z) (now : time) : op := OCleanup (now - max_age).
(** submission.rs:1172-1184: the clock readings of the rounds, if the first is at [start] and the
    cleanups (and oversleeping) take [costs]. *)
Fixpoint rounds (start : time) (costs : list Z) : list time :=
  match costs with
  | [] => [start]
  | c :: costs => start :: rounds (start + c + cleanup_interval) costs
  end.
(** The cleanups of a history. *)
Definition cleanup_of (e : event) : option op := match e_op e with OCleanup c => Some (OCleanup c) | _ => None end.
Definition cleanups (h : history) : list op := omap cleanup_of h.
