(** Model of concurrency/workerpool.go.

    Any number of clients send tasks into InChan, which has no buffer: a send and the receive by an idle worker are
    one step.  Tasks are numbered; [res t] is what Process of task [t] returns.
    Simplifications: Process returns (a panic in it would end the program); InChan is not closed. *)
From Verif Require Import Base.

(** What a worker is doing: waiting at line 24, about to call Process, SetError or Done (lines 25-26) *)
Inductive worker := Idle | Got (t : nat) | Processed (t : nat) (e : Z) | Told (t : nat).
(** What can be observed of a task *)
Inductive event := Taken (t : nat) | ProcessedE (t : nat) | ErrorSet (t : nat) (e : Z) | DoneE (t : nat).
Record pool := mk_pool { p_clients : list (list nat); p_workers : list worker; p_log : list event }.

(** concurrency/workerpool.go:3-10; a concurrency below one starts no worker *)
Definition new_pool (concurrency : Z) (clients : list (list nat)) : pool := mk_pool clients (replicate (Z.to_nat concurrency) Idle) [].

Section Pool.
  Context (res : nat -> Z).
  (** concurrency/workerpool.go:23-28 *)
  Inductive step : pool -> pool -> Prop :=
  | step_take s c t ts w : p_clients s !! c = Some (t :: ts) -> p_workers s !! w = Some Idle ->
      step s (mk_pool (<[c := ts]> (p_clients s)) (<[w := Got t]> (p_workers s)) (p_log s ++ [Taken t]))
  | step_process s w t : p_workers s !! w = Some (Got t) ->
      step s (mk_pool (p_clients s) (<[w := Processed t (res t)]> (p_workers s)) (p_log s ++ [ProcessedE t]))
  | step_error s w t e : p_workers s !! w = Some (Processed t e) ->
      step s (mk_pool (p_clients s) (<[w := Told t]> (p_workers s)) (p_log s ++ [ErrorSet t e]))
  | step_done s w t : p_workers s !! w = Some (Told t) ->
      step s (mk_pool (p_clients s) (<[w := Idle]> (p_workers s)) (p_log s ++ [DoneE t])).
End Pool.
