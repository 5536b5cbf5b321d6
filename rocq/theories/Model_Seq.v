(** Models of concurrency/sequencercontainer.go, of the block pipeline built around it in
    jobs/intrinsicparallel.go and corereader2/getparseblocksbinary.go, and of memblocker/memblocker.go. *)
From Verif Require Import Base.

(** ** The sequencer as a machine over arrivals *)
Section sequencer.
  Context {T : Type} (num : T -> Z).     (* SequenceNumber(), concurrency/interfaces.go *)

  (** concurrency/sequencercontainer.go:25-33 *)
  Record sq := mk_sq { sq_next : Z; sq_map : gmap Z T; sq_bc : nat; sq_bloated : bool }.

  (** concurrency/sequencercontainer.go:13-23 *)
  Definition sq_new (first : Z) (bc : nat) : sq := mk_sq first ∅ bc false.

  (** concurrency/sequencercontainer.go:65-79 (sendNextOut): emitted item, new state; [None] = false *)
  Definition send_next (s : sq) : option (T * sq) :=
    match sq_map s !! sq_next s with
    | None => None
    | Some v =>
        Some (v, mk_sq (sq_next s + 1) (delete (sq_next s) (sq_map s)) (sq_bc s)
                       (if decide (size (sq_map s) = sq_bc s) then false else sq_bloated s))
    end.

  (** the loop  for sc.sendNextOut() {}  (lines 42-43, 55-56); every round removes an element *)
  Fixpoint drain (fuel : nat) (s : sq) : list T * sq :=
    match fuel with
    | O => ([], s)
    | S fuel' =>
        match send_next s with
        | None => ([], s)
        | Some (v, s') => let '(out, s'') := drain fuel' s' in (v :: out, s'')
        end
    end.
  Definition drain_all (s : sq) : list T * sq := drain (S (size (sq_map s))) s.

  (** concurrency/sequencercontainer.go:36-53: one round of the worker's loop *)
  Definition arrive (s : sq) (v : T) : list T * sq :=
    if decide (num v = sq_next s) then
      let '(out, s') := drain_all (mk_sq (sq_next s + 1) (sq_map s) (sq_bc s) (sq_bloated s)) in
      (v :: out, s')
    else
      let m := <[num v := v]> (sq_map s) in
      ([], mk_sq (sq_next s) m (sq_bc s) (if decide (size m = sq_bc s) then true else sq_bloated s)).

  (** the items sent to outChan while a list of items arrives *)
  Fixpoint arrivals (s : sq) (l : list T) : list T * sq :=
    match l with
    | [] => ([], s)
    | v :: l' =>
        let '(out1, s1) := arrive s v in
        let '(out2, s2) := arrivals s1 l' in (out1 ++ out2, s2)
    end.

  (** concurrency/sequencercontainer.go:54-63: input channel closed; [None] = panic "Sequencer jammed" *)
  Definition sq_close (s : sq) : option (list T) :=
    let '(out, s') := drain_all s in
    if decide (size (sq_map s') = 0%nat) then Some out else None.
End sequencer.

(** ** The pipeline as a transition system
    jobs/intrinsicparallel.go:287-318 (and the three other phases, which are the same up to the
    threshold): hash source -> gate -> numberer -> [W] parser threads -> sequencer -> consumer.
    All channels are unbuffered, so a send and the matching receive are one step.  Parsing a block is
    assumed to succeed (the Go code panics after three failed attempts).  The consumer
    (OneBlockHolder and the append loop) is always ready to receive. *)

(** The gate goroutine, jobs/intrinsicparallel.go:303-309, and WaitForNotBloated,
    sequencercontainer.go:91-97: checking the flag and going to sleep is one step, because both happen
    under the condition variable's lock. *)
Inductive gate := GIdle | GCheck (i : nat) | GAsleep (i : nat) | GPassed (i : nat) | GClosed.
(** The numbering goroutine, getparseblocksbinary.go:27-39.  Hashes arrive in height order, so the
    height given to the i-th hash is i. *)
Inductive numberer := NIdle | NHold (i : nat) | NClosed.
(** A parser thread, getparseblocksbinary.go:43-115 *)
Inductive worker := WIdle | WBusy (i : nat) | WReady (i : nat) | WDone.
(** The sequencer goroutine, sequencercontainer.go:35-79: waiting for input, about to put aside
    the item just received, about to send the item just received, about to send an item of the map, ended normally, ended by the panic. *)
Inductive smode := SRecv | SPark (i : nat) | SEmitIn (i : nat) | SEmitMap (i : nat) | SEnd | SPanic.

Record pipe := mk_pipe {
  p_src : nat;              (* hashes taken from the source so far *)
  p_gate : gate;
  p_num : numberer;
  p_workers : list worker;
  p_mode : smode;
  p_next : nat;             (* nextOut *)
  p_map : gset nat;         (* keys of theMap *)
  p_bloated : bool;
  p_out : list nat          (* what the consumer has received *)
}.

Definition pipe_init (W : nat) : pipe :=
  mk_pipe 0 GIdle NIdle (replicate W WIdle) SRecv 0 ∅ false [].

(** Broadcast wakes the sleeping gate (sequencercontainer.go:84-87). *)
Definition wake (g : gate) : gate := match g with GAsleep i => GCheck i | _ => g end.

(** After an item has been sent: look for the next one in the map (sequencercontainer.go:42-43, 66-69). *)
Definition after_emit (next : nat) (m : gset nat) : smode :=
  if decide (next ∈ m) then SEmitMap next else SRecv.

Inductive pstep (N B : nat) : pipe -> pipe -> Prop :=
  (* gate receives the next hash *)
  | ps_take s : p_gate s = GIdle -> (p_src s < N)%nat ->
      pstep N B s (mk_pipe (S (p_src s)) (GCheck (p_src s)) (p_num s) (p_workers s) (p_mode s) (p_next s) (p_map s) (p_bloated s) (p_out s))
  (* gate: the source is closed, so close the next channel *)
  | ps_gate_close s : p_gate s = GIdle -> p_src s = N ->
      pstep N B s (mk_pipe (p_src s) GClosed (p_num s) (p_workers s) (p_mode s) (p_next s) (p_map s) (p_bloated s) (p_out s))
  | ps_gate_pass s i : p_gate s = GCheck i -> p_bloated s = false ->
      pstep N B s (mk_pipe (p_src s) (GPassed i) (p_num s) (p_workers s) (p_mode s) (p_next s) (p_map s) (p_bloated s) (p_out s))
  | ps_gate_sleep s i : p_gate s = GCheck i -> p_bloated s = true ->
      pstep N B s (mk_pipe (p_src s) (GAsleep i) (p_num s) (p_workers s) (p_mode s) (p_next s) (p_map s) (p_bloated s) (p_out s))
  | ps_number s i : p_gate s = GPassed i -> p_num s = NIdle ->
      pstep N B s (mk_pipe (p_src s) GIdle (NHold i) (p_workers s) (p_mode s) (p_next s) (p_map s) (p_bloated s) (p_out s))
  | ps_num_close s : p_gate s = GClosed -> p_num s = NIdle ->
      pstep N B s (mk_pipe (p_src s) (p_gate s) NClosed (p_workers s) (p_mode s) (p_next s) (p_map s) (p_bloated s) (p_out s))
  | ps_work s i k : p_num s = NHold i -> p_workers s !! k = Some WIdle ->
      pstep N B s (mk_pipe (p_src s) (p_gate s) NIdle (<[k := WBusy i]> (p_workers s)) (p_mode s) (p_next s) (p_map s) (p_bloated s) (p_out s))
  | ps_parsed s i k : p_workers s !! k = Some (WBusy i) ->
      pstep N B s (mk_pipe (p_src s) (p_gate s) (p_num s) (<[k := WReady i]> (p_workers s)) (p_mode s) (p_next s) (p_map s) (p_bloated s) (p_out s))
  | ps_worker_end s k : p_num s = NClosed -> p_workers s !! k = Some WIdle ->
      pstep N B s (mk_pipe (p_src s) (p_gate s) (p_num s) (<[k := WDone]> (p_workers s)) (p_mode s) (p_next s) (p_map s) (p_bloated s) (p_out s))
  (* sequencer receives the awaited number *)
  | ps_recv_next s i k : p_workers s !! k = Some (WReady i) -> p_mode s = SRecv -> i = p_next s ->
      pstep N B s (mk_pipe (p_src s) (p_gate s) (p_num s) (<[k := WIdle]> (p_workers s)) (SEmitIn i) (p_next s) (p_map s) (p_bloated s) (p_out s))
  (* sequencer receives another number (the parser thread is free from here on) ... *)
  | ps_recv_other s i k : p_workers s !! k = Some (WReady i) -> p_mode s = SRecv -> i <> p_next s ->
      pstep N B s (mk_pipe (p_src s) (p_gate s) (p_num s) (<[k := WIdle]> (p_workers s)) (SPark i) (p_next s) (p_map s) (p_bloated s) (p_out s))
  (* ... and puts it aside, closing the gate if the map has become large *)
  | ps_park s i : p_mode s = SPark i ->
      pstep N B s (mk_pipe (p_src s) (p_gate s) (p_num s) (p_workers s) SRecv (p_next s) ({[i]} ∪ p_map s)
        (if decide (size ({[i]} ∪ p_map s) = B) then true else p_bloated s) (p_out s))
  | ps_emit_in s i : p_mode s = SEmitIn i ->
      pstep N B s (mk_pipe (p_src s) (p_gate s) (p_num s) (p_workers s) (after_emit (S (p_next s)) (p_map s))
        (S (p_next s)) (p_map s) (p_bloated s) (p_out s ++ [i]))
  (* sending, opening the gate and deleting are taken as one step: until the flag is cleared the send
     is visible to the consumer only, so doing it later makes no difference to the other goroutines *)
  | ps_emit_map s i : p_mode s = SEmitMap i ->
      pstep N B s (mk_pipe (p_src s) (if decide (size (p_map s) = B) then wake (p_gate s) else p_gate s)
        (p_num s) (p_workers s) (after_emit (S (p_next s)) (p_map s ∖ {[p_next s]}))
        (S (p_next s)) (p_map s ∖ {[p_next s]}) (if decide (size (p_map s) = B) then false else p_bloated s) (p_out s ++ [i]))
  (* all parser threads ended: the input channel is closed *)
  | ps_seq_end s : Forall (fun w => w = WDone) (p_workers s) -> p_mode s = SRecv -> p_map s = ∅ ->
      pstep N B s (mk_pipe (p_src s) (p_gate s) (p_num s) (p_workers s) SEnd (p_next s) (p_map s) (p_bloated s) (p_out s))
  | ps_seq_panic s : Forall (fun w => w = WDone) (p_workers s) -> p_mode s = SRecv -> p_map s <> ∅ ->
      pstep N B s (mk_pipe (p_src s) (p_gate s) (p_num s) (p_workers s) SPanic (p_next s) (p_map s) (p_bloated s) (p_out s)).

(** ** memblocker/memblocker.go
    [mm_heap] is the number of allocated bytes.  Threads wait for memory or free memory; other code may
    allocate at any time.  A freeing thread may free before StartFreeingMem takes the lock (as
    indexedhashes/jobs.go:63-70 does) or between StartFreeingMem and MemoryWasFreed (as the test does).
    [who] is the set of threads that ever wait. *)
Inductive mthread :=
  | MOut                    (* not inside the blocker *)
  | MWantWait               (* called WaitForSpareMemory, waiting for the lock (line 29) *)
  | MReadIt (read : Z)      (* holds the lock and has read the heap size (lines 30, 35) *)
  | MAsleep                 (* in Cond.Wait, lock released (line 34) *)
  | MWoken                  (* signalled, waiting to take the lock again *)
  | MReturned (read : Z)    (* WaitForSpareMemory has returned, having last read this size *)
  | MWantFree               (* freeing, or waiting for the lock in StartFreeingMem (line 42) *)
  | MFreeing                (* holds the lock (between lines 42 and 45) *)
  | MMustSignal.            (* MemoryWasFreed: unlocked (line 45), Signal (line 46) still to come *)

Record mem := mk_mem { mm_heap : Z; mm_lock : option nat; mm_threads : list mthread }.

Inductive mstep (max : Z) (who : gset nat) : mem -> mem -> Prop :=
  | mt_alloc s n : 0 <= n -> mstep max who s (mk_mem (mm_heap s + n) (mm_lock s) (mm_threads s))
  | mt_call_wait s t : t ∈ who -> mm_threads s !! t = Some MOut ->
      mstep max who s (mk_mem (mm_heap s) (mm_lock s) (<[t := MWantWait]> (mm_threads s)))
  | mt_call_free s t : mm_threads s !! t = Some MOut ->
      mstep max who s (mk_mem (mm_heap s) (mm_lock s) (<[t := MWantFree]> (mm_threads s)))
  (* Lock, then read the heap size *)
  | mt_lock_wait s t : mm_threads s !! t = Some MWantWait -> mm_lock s = None ->
      mstep max who s (mk_mem (mm_heap s) (Some t) (<[t := MReadIt (mm_heap s)]> (mm_threads s)))
  | mt_relock s t : mm_threads s !! t = Some MWoken -> mm_lock s = None ->
      mstep max who s (mk_mem (mm_heap s) (Some t) (<[t := MReadIt (mm_heap s)]> (mm_threads s)))
  (* too much allocated: release the lock and sleep, atomically *)
  | mt_sleep s t r : mm_threads s !! t = Some (MReadIt r) -> max <= r ->
      mstep max who s (mk_mem (mm_heap s) None (<[t := MAsleep]> (mm_threads s)))
  (* enough memory: unlock and return *)
  | mt_return s t r : mm_threads s !! t = Some (MReadIt r) -> r < max ->
      mstep max who s (mk_mem (mm_heap s) None (<[t := MReturned r]> (mm_threads s)))
  | mt_lock_free s t : mm_threads s !! t = Some MWantFree -> mm_lock s = None ->
      mstep max who s (mk_mem (mm_heap s) (Some t) (<[t := MFreeing]> (mm_threads s)))
  | mt_free s t n w : mm_threads s !! t = Some w -> w = MWantFree \/ w = MFreeing -> 0 <= n <= mm_heap s ->
      mstep max who s (mk_mem (mm_heap s - n) (mm_lock s) (mm_threads s))
  | mt_unlock s t : mm_threads s !! t = Some MFreeing ->
      mstep max who s (mk_mem (mm_heap s) None (<[t := MMustSignal]> (mm_threads s)))
  (* Signal: wakes one sleeper if there is any *)
  | mt_signal s t u : mm_threads s !! t = Some MMustSignal -> mm_threads s !! u = Some MAsleep ->
      mstep max who s (mk_mem (mm_heap s) (mm_lock s) (<[u := MWoken]> (<[t := MOut]> (mm_threads s))))
  | mt_signal_none s t : mm_threads s !! t = Some MMustSignal -> MAsleep ∉ mm_threads s ->
      mstep max who s (mk_mem (mm_heap s) (mm_lock s) (<[t := MOut]> (mm_threads s))).

(** All threads outside, nobody holding the lock *)
Definition mem_init (heap : Z) (n : nat) : mem := mk_mem heap None (replicate n MOut).
