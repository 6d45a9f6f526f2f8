(** The gauges used for autoscaling. *)
From Verif Require Export ChunkDb Spec.
Local Open Scope N_scope.

(** prometheus.rs:212-223 calculate_scaling_metrics: the values of the two gauges
    CHUNKS_BACKLOG_GAUGE and OPERATIONS_BACKLOG_GAUGE. The two queries are not in one transaction.
    Simplification: numbers are exact; the code stores them as doubles. *)
Definition scaling_metrics : M (N * Z) :=
  n <-? count_chunks;
  z <-? count_ops_in_backlog_estimate;
  ret (n, z).

Definition sum_Z (l : list Z) : Z := foldr Z.add 0%Z l.
