(** The start of the resolver's worker. *)
From Verif Require Import Common WorkerModel.

(** C55. With all four objects the start succeeds; when only the last cannot be made the start
    fails cleanly. (Other failures: init_failure_frees_garbage_refuted.) *)
Theorem worker_start : forall quit, init_worker true true true quit = if quit then Ok 0 else Err 3.
Proof. intros [|]; reflexivity. Qed.
Print Assumptions worker_start.
