(** The loop that keeps the gauges for autoscaling up to date, prometheus.rs:225-243. *)
From Verif Require Export Types.
Local Open Scope N_scope.

(** One round of the loop; all lengths in milliseconds.
    [i_late]: how much later than asked the sleep ends. [i_error]: an error of the connection or of the first query
    (line 213-215), so that nothing is set. [i_read]: how long after the start the first query reads the
    database; [i_set]: how long after that the gauge is set (line 217); [i_rest]: how long after that
    calculate_scaling_metrics returns (or when it returns the error, [i_read] and [i_set] included).
    That of operations is read and set in the rest; only the gauge of chunks is modelled. *)
Record round : Set := Round { i_late : N; i_error : bool; i_read : N; i_set : N; i_rest : N }.
(** METRICS_INTERVAL, line 231. *)
Definition metrics_interval : N := 5000.
(** A setting of the gauge: when, and to what was read when. *)
Record setting : Set := Setting { g_when : N; g_read : N }.
(** When the sleep of a round that begins at [t] is over (line 235), and when the round is (line 236-238:
    an error is logged and the loop goes on). *)
Definition awake (t : N) (r : round) : N := t + metrics_interval + i_late r.
Definition over (t : N) (r : round) : N := awake t r + i_read r + i_set r + i_rest r.
Definition set_by (t : N) (r : round) : list setting :=
  if i_error r then [] else [Setting (awake t r + i_read r + i_set r) (awake t r + i_read r)].
(** The loop, begun at [t]: the settings in order, and when the last round is over. *)
Fixpoint scaling_loop (t : N) (rs : list round) : list setting * N :=
  match rs with
  | [] => ([], t)
  | r :: rs => let '(l, t') := scaling_loop (over t r) rs in (set_by t r ++ l, t')
  end.
(** The latest setting at time [t]. *)
Definition gauge_shows (l : list setting) (t : N) : option setting := last (filter (fun s => g_when s <= t) l).
(** The gauge of chunks is also lowered by one wherever move_chunk_to_failed_chunks counts a failed
    chunk (chunk.rs:479-480), at the times [ds], whether or not the transaction is committed. (insert_chunk, which raises it,
    chunk.rs:302, is only called in tests.) *)
Definition lowered (ds : list N) (from t : N) : nat := length (filter (fun d => from <= d /\ d <= t) ds).
(** What it shows at time [t] if the number of chunks in the database at time [r] is [backlog r]. Before it is
    set or lowered for the first time it is not there. *)
Definition chunks_gauge (backlog : N -> N) (l : list setting) (ds : list N) (t : N) : option Z :=
  match gauge_shows l t with
  | Some s => Some (Z.of_N (backlog (g_read s)) - Z.of_nat (lowered ds (g_when s) t))%Z
  | None => if (lowered ds 0 t =? 0)%nat then None else Some (- Z.of_nat (lowered ds 0 t))%Z
  end.
