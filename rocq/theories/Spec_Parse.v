(** The Bitcoin wire format of transactions and blocks, written from the protocol definition. *)
From Verif Require Import Base.

(** Variable length integer of the protocol. *)
Definition compact (n : Z) : list Z :=
  if n <? 253 then [n]
  else if n <=? 65535 then 253 :: le_enc 2 n
  else if n <=? 4294967295 then 254 :: le_enc 4 n
  else 255 :: le_enc 8 n.
Definition compact_len {A} (l : list A) : list Z := compact (Z.of_nat (length l)).
(** A byte string preceded by its length. *)
Definition var_bytes (l : list Z) : list Z := compact_len l ++ l.

Record winput := mk_win { wi_txid : list Z; wi_vout : Z; wi_sig : list Z; wi_seq : Z; wi_witness : list (list Z) }.
Record woutput := mk_wout { wo_value : Z; wo_script : list Z }.
Record wtrans := mk_wtrans { wt_version : Z; wt_segwit : bool; wt_ins : list winput; wt_outs : list woutput; wt_lock : Z }.
Record wheader := mk_whead { wh_version : Z; wh_prev : list Z; wh_merkle : list Z; wh_time : Z; wh_bits : Z; wh_nonce : Z }.

Definition ser_input (i : winput) : list Z :=
  wi_txid i ++ le_enc 4 (wi_vout i) ++ var_bytes (wi_sig i) ++ le_enc 4 (wi_seq i).
Definition ser_output (o : woutput) : list Z := le_enc 8 (wo_value o) ++ var_bytes (wo_script o).
Definition ser_stack (i : winput) : list Z :=
  compact_len (wi_witness i) ++ concat (map var_bytes (wi_witness i)).
Definition ser_body (t : wtrans) : list Z :=
  compact_len (wt_ins t) ++ concat (map ser_input (wt_ins t)) ++
  compact_len (wt_outs t) ++ concat (map ser_output (wt_outs t)).

(** Serialisation without witness data, whose double hash is the txid. *)
Definition ser_stripped (t : wtrans) : list Z :=
  le_enc 4 (wt_version t) ++ ser_body t ++ le_enc 4 (wt_lock t).
(** Serialisation on the wire: with marker 0, flag 1 and the witness stacks for a segwit transaction. *)
Definition ser_trans (t : wtrans) : list Z :=
  le_enc 4 (wt_version t) ++ (if wt_segwit t then [0; 1] else []) ++ ser_body t ++
  (if wt_segwit t then concat (map ser_stack (wt_ins t)) else []) ++ le_enc 4 (wt_lock t).

Definition ser_header (h : wheader) : list Z :=
  le_enc 4 (wh_version h) ++ wh_prev h ++ wh_merkle h ++ le_enc 4 (wh_time h) ++ le_enc 4 (wh_bits h) ++
  le_enc 4 (wh_nonce h).
Definition ser_block_with (ser : wtrans -> list Z) (h : wheader) (ts : list wtrans) : list Z :=
  ser_header h ++ compact_len ts ++ concat (map ser ts).
Definition ser_block := ser_block_with ser_trans.
Definition ser_block_stripped := ser_block_with ser_stripped.

(** Field ranges. *)
Definition u32 (v : Z) : Prop := 0 <= v < 2^32.
Definition small {A} (l : list A) : Prop := Z.of_nat (length l) < 2^63.
Definition wf_input (i : winput) : Prop :=
  length (wi_txid i) = 32%nat /\ u32 (wi_vout i) /\ small (wi_sig i) /\ u32 (wi_seq i) /\
  small (wi_witness i) /\ Forall small (wi_witness i).
Definition wf_output (o : woutput) : Prop := is_i64 (wo_value o) /\ small (wo_script o).
(** A transaction without inputs but with outputs has no unambiguous pre-segwit serialisation: the
    protocol itself reads its zero input count as the segwit marker. *)
Definition wf_trans (t : wtrans) : Prop :=
  u32 (wt_version t) /\ u32 (wt_lock t) /\ small (wt_ins t) /\ small (wt_outs t) /\
  Forall wf_input (wt_ins t) /\ Forall wf_output (wt_outs t) /\
  (wt_segwit t = false -> wt_ins t = [] -> wt_outs t = []).
Definition wf_header (h : wheader) : Prop :=
  u32 (wh_version h) /\ length (wh_prev h) = 32%nat /\ length (wh_merkle h) = 32%nat /\
  u32 (wh_time h) /\ u32 (wh_bits h) /\ u32 (wh_nonce h).
(** All the output scripts of a transaction. *)
Definition scripts_of (t : wtrans) : list Z := concat (map wo_script (wt_outs t)).
