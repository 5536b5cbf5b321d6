(** Model of making and opening the files of a chain (chainstorage/concreteappendablechainfactory.go:57-143, 171-264,
    282-497, wordfile/concretewordfilecreator.go:41-101, intarrayarray/concretemapstorecreator.go:30-45) and of the job
    that asks for it (jobs/intrinsicparallel.go:24-274).

    A file is its folder (below the folder of the chain) and its name.  Which creations fail, for lack of room or
    rights, is given from outside; a creation that fails leaves the file as it was.  Whether the hash stores the creator
    needs are there (concreteappendablechainfactory.go:84-98, 286-301) is a question to the folder; folders are made
    with their first file. *)
From Coq Require Import String.
From stdpp Require Import strings.
From Verif Require Import Base.
Local Open Scope string_scope.

Notation file := (string * string)%type.
Notation folder := (gmap file (list Z)).

(** concreteappendablechainfactory.go:103-114, in the order of 178-225 *)
Definition first_file : file := ("Blocks", "firsttrans").
Definition fixed_files : list file :=
  [first_file; ("Transactions", "firsttxi"); ("Transactions", "firsttxo"); ("TransactionInputs", "tx");
   ("TransactionInputs", "vout"); ("TransactionOutputs", "value"); ("TransactionOutputs", "address");
   ("TransactionOutputs", "spenttotxi"); ("Addresses", "firsttxo"); ("Parents", "parentblockoftrans");
   ("Parents", "parenttransoftxi"); ("Parents", "parenttransoftxo")].
(** concreteappendablechainfactory.go:117 *)
Definition map_folder : string := "Addresses/additionaltxos".
(** concreteappendablechainfactory.go:118-135 *)
Definition blk_names : list string := ["version"; "time"; "mediantime"; "nonce"; "difficulty"; "strippedsize"; "size"; "weight"].
Definition trn_names : list string := ["version"; "size"; "vsize"; "weight"; "locktime"].

(** wordfile/concretewordfilecreator.go:52-73: a file that is there is emptied *)
Fixpoint create_files (works : file -> bool) (fs : list file) (fo : folder) : folder * bool :=
  match fs with
  | [] => (fo, true)
  | f :: fs' => if works f then create_files works fs' (<[f := []]> fo) else (fo, false)
  end.
(** intarrayarray/concretemapstorecreator.go:34-45 *)
Definition create_map (works : bool) (fo : folder) : folder * bool :=
  (filter (fun x => fst (fst x) <> map_folder) fo, works).

(** one step after another until one fails *)
Definition also (r : folder * bool) (next : folder -> folder * bool) : folder * bool :=
  if snd r then next (fst r) else r.

Section Create.
  (** what the creator was made with *)
  Context (in_ram : bool) (blk_req trn_req : list string).
  (** the order in which Go runs through a map *)
  Context (blk_order trn_order : list string).
  Context (works : file -> bool) (map_works : bool).

  (** concreteappendablechainfactory.go:231-245, 247-261 *)
  Definition create_ints (sub : string) (order req : list string) (fo : folder) : folder * bool :=
    also (create_files works (map (pair sub) (filter (fun n => n ∈ req) order)) fo)
      (fun fo' => (fo', forallb (fun n => bool_decide (n ∈ order)) req)).

  (** concreteappendablechainfactory.go:171-264 *)
  Definition create_from_hash_stores (fo : folder) : folder * bool :=
    if in_ram then (fo, false)
    else if bool_decide (is_Some (fo !! first_file)) then (fo, false)
    else also (also (also (create_files works fixed_files fo) (create_map map_works))
           (create_ints "Blocks" blk_order blk_req)) (create_ints "Transactions" trn_order trn_req).
End Create.

(** concreteappendablechainfactory.go:282-497: the integers a chain is opened with, or an error *)
Definition open_chain (fo : folder) : option (list string * list string) :=
  if forallb (fun f => bool_decide (is_Some (fo !! f))) fixed_files then
    Some (filter (fun n => is_Some (fo !! ("Blocks", n))) blk_names, filter (fun n => is_Some (fo !! ("Transactions", n))) trn_names)
  else None.

(** jobs/intrinsicparallel.go:226-229 *)
Definition job_blk : list string := ["time"; "mediantime"; "difficulty"; "strippedsize"; "size"; "weight"].
Definition job_trn : list string := ["size"; "vsize"; "weight"].

(** ** The job *)
Inductive outcome := Finished | Failed | Panicked.

Section Job.
  (** the work of the phases on the folder, as given by the other models; [true]: without error *)
  Context (gather index store : folder -> folder * bool).
  Context (stores_there : folder -> bool) (blk_order trn_order : list string) (works : file -> bool) (map_works : bool).

  Definition outcome_of (ok : bool) : outcome := if ok then Finished else Failed.
  Definition then_do (r : folder * outcome) (next : folder -> folder * outcome) : folder * outcome :=
    match snd r with Finished => next (fst r) | _ => r end.

  (** jobs/intrinsicparallel.go:42-59: everything is removed first *)
  Definition phase_1 (_ : folder) : folder * outcome := let r := gather ∅ in (fst r, outcome_of (snd r)).
  (** jobs/intrinsicparallel.go:61-202 *)
  Definition phase_2 (fo : folder) : folder * outcome := let r := index fo in (fst r, outcome_of (snd r)).
  (** jobs/intrinsicparallel.go:205-271: the method is looked at after the files are made *)
  Definition phase_3 (method : string) (fo : folder) : folder * outcome :=
    let r := if stores_there fo then create_from_hash_stores false job_blk job_trn blk_order trn_order works map_works fo else (fo, false) in
    if snd r then
      match open_chain (fst r) with
      | None => (fst r, Failed)
      | Some _ => if bool_decide (method = "delegated") then (let r' := store (fst r) in (fst r', outcome_of (snd r'))) else (fst r, Panicked)
      end
    else (fst r, Failed).

  (** jobs/intrinsicparallel.go:24-274; jobs/yearstats.go:3-14: figures for the years 0 to 19 *)
  Definition run_intrinsic (years : Z) (do1 do2 do3 : bool) (method : string) (fo : folder) : folder * outcome :=
    if (years <? 0)%Z || (20 <=? years)%Z then (fo, Panicked)
    else
      let r1 := if do1 then phase_1 fo else (fo, Finished) in
      let r2 := if do2 then then_do r1 phase_2 else r1 in
      if do3 then then_do r2 (phase_3 method) else r2.
End Job.
