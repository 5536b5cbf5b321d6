(** Model of indexedhashes/preloader.go (UniformHashPreLoader: lists of hashes gathered in memory and
    written out as files, one per bin address) and of the job that drives it, indexedhashes/jobs.go:13-114. *)
From Verif Require Import Base.

(** preloader.go:32-35: hash entry (index, hash) *)
Definition pent : Type := Z * list Z.

(** preloader.go:53-57: the lists by address, and the addresses by length of their list *)
Record estore := mk_es { es_map : gmap Z (list pent); es_groups : gmap nat (gset Z) }.
Definition es_empty : estore := mk_es ∅ ∅.

Definition group (es : estore) (n : nat) : gset Z := default ∅ (es_groups es !! n).

(** preloader.go:59-80 *)
Definition add_if_listed (es : estore) (a : Z) (e : pent) : option estore :=
  match es_map es !! a with
  | None => None
  | Some l =>
      let n := length l in
      let g := <[n := group es n ∖ {[a]}]> (es_groups es) in
      let es1 := mk_es (<[a := l ++ [e]]> (es_map es)) g in
      Some (mk_es (es_map es1) (<[S n := {[a]} ∪ group es1 (S n)]> g))
  end.

(** preloader.go:82-94 *)
Definition add_new_list (es : estore) (a : Z) (l : list pent) : estore :=
  mk_es (<[a := l]> (es_map es)) (<[length l := {[a]} ∪ group es (length l)]> (es_groups es)).

(** preloader.go:96-108: sizes with an empty group are passed over *)
Definition biggest (es : estore) : nat :=
  map_fold (fun n g acc => if decide (g = ∅) then acc else n `max` acc)%nat 0%nat (es_groups es).

(** preloader.go:110-138: the list of some address with that many entries.  Which one is left open by the
    language (iteration over a map): it is given as [pick].  [XNone]: no list of that size; [XBad]: the
    iteration cannot give [pick]; [XPanic]: the panics at 125-131. *)
Inductive xres := XList (l : list pent) (es : estore) | XNone | XBad | XPanic.
Definition extract_list (es : estore) (n : nat) (pick : Z) : xres :=
  if decide (group es n = ∅) then XNone else
  if decide (pick ∈ group es n) then
    match es_map es !! pick with
    | None => XPanic
    | Some l => XList l (mk_es (delete pick (es_map es)) (<[n := group es n ∖ {[pick]}]> (es_groups es)))
    end
  else XBad.

(** preloader.go:24-30.  [pl_bits]: addresses whose file is recorded as not empty (140-181, a bit array
    there); [pl_files]: contents of the files. *)
Record pstate := mk_ps { pl_mem : estore; pl_cache : estore; pl_bits : gset Z; pl_files : gmap Z (list Z) }.
Definition ps_init : pstate := mk_ps es_empty es_empty ∅ ∅.

(** preloader.go:318-325: contents written for a list: index and hash, 40 bytes each *)
Definition ent_bytes (e : pent) : list Z := le_enc 8 (fst e) ++ snd e.
Definition list_bytes (l : list pent) : list Z := concat (ent_bytes <$> l).

(** preloader.go:183-207: reading them back *)
Fixpoint dec_list (n : nat) (f : list Z) : list pent :=
  match n with O => [] | S n' => (le_dec (take 8 f), take 32 (drop 8 f)) :: dec_list n' (drop 40 f) end.
Inductive lres := LNone | LErr | LList (l : list pent).
Definition load_list (s : pstate) (a : Z) : lres :=
  if decide (a ∈ pl_bits s) then
    match pl_files s !! a with
    | None => LErr
    | Some f => if negb (length f mod 40 =? 0)%nat then LErr else LList (dec_list (length f / 40) f)
    end
  else LNone.

(** preloader.go:246-270 (delegateEntryToStores), undisturbed; an error is ignored by the caller *)
Definition delegate (s : pstate) (a : Z) (e : pent) : option pstate :=
  match add_if_listed (pl_mem s) a e with
  | Some m => Some (mk_ps m (pl_cache s) (pl_bits s) (pl_files s))
  | None =>
      match add_if_listed (pl_cache s) a e with
      | Some c => Some (mk_ps (pl_mem s) c (pl_bits s) (pl_files s))
      | None =>
          match load_list s a with
          | LErr => None
          | LList l => Some (mk_ps (pl_mem s) (add_new_list (pl_cache s) a (l ++ [e])) (pl_bits s) (pl_files s))
          | LNone => Some (mk_ps (add_new_list (pl_mem s) a [e]) (pl_cache s) (pl_bits s) (pl_files s))
          end
      end
  end.

(** preloader.go:327-333 (sendToFile) *)
Definition write_file (s : pstate) (a : Z) (l : list pent) : pstate :=
  mk_ps (pl_mem s) (pl_cache s) (pl_bits s) (<[a := list_bytes l]> (pl_files s)).
Definition set_bit (s : pstate) (a : Z) : pstate :=
  mk_ps (pl_mem s) (pl_cache s) ({[a]} ∪ pl_bits s) (pl_files s).

(** preloader.go:285-316 (extractEntryFromStoresToFile), undisturbed: [Some (s, true)] a list was written *)
Inductive eres := EOk (s : pstate) (wrote : bool) | EBad | EPanic.
Definition extract (s : pstate) (pick : Z) : eres :=
  let bm := biggest (pl_mem s) in
  let bc := biggest (pl_cache s) in
  if (bc <? bm)%nat then
    match extract_list (pl_mem s) bm pick with
    | XList l m => EOk (set_bit (write_file (mk_ps m (pl_cache s) (pl_bits s) (pl_files s)) pick l) pick) true
    | XNone => EOk s false
    | XBad => EBad
    | XPanic => EPanic
    end
  else if (0 <? bc)%nat then
    match extract_list (pl_cache s) bc pick with
    | XList l c => EOk (set_bit (write_file (mk_ps (pl_mem s) c (pl_bits s) (pl_files s)) pick l) pick) true
    | XNone => EOk s false
    | XBad => EBad
    | XPanic => EPanic
    end
  else EOk s false.

(** Any sequence of undisturbed calls *)
Inductive pop := PDelegate (a : Z) (e : pent) | PExtract (pick : Z).
Fixpoint prun (s : pstate) (ops : list pop) : option pstate :=
  match ops with
  | [] => Some s
  | PDelegate a e :: ops' => match delegate s a e with Some s' => prun s' ops' | None => None end
  | PExtract p :: ops' => match extract s p with EOk s' _ => prun s' ops' | _ => None end
  end.

(** ** The two goroutines of jobs.go: one delegating (77-100), one extracting (54-73).  The locks are those
    of the two stores (60, 83, 97, 112); between them the other may act. *)
Inductive dpc := DIdle | DCache (a : Z) (e : pent) | DLoad (a : Z) (e : pent) | DAdd (a : Z) (e : pent) (l : lres).
Inductive epc := EIdle | EMem (bm : nat) | ETake (bm bc : nat) | EHave (a : Z) (l : list pent) | EMark (a : Z).
Record cstate := mk_cs { c_pl : pstate; c_d : dpc; c_e : epc }.

Definition with_mem (s : pstate) (m : estore) : pstate := mk_ps m (pl_cache s) (pl_bits s) (pl_files s).
Definition with_cache (s : pstate) (c : estore) : pstate := mk_ps (pl_mem s) c (pl_bits s) (pl_files s).

(** One step of the delegating goroutine; [next] is the entry it takes up when idle *)
Definition d_step (c : cstate) (next : option (Z * pent)) : option cstate :=
  let s := c_pl c in
  match c_d c with
  | DIdle =>
      match next with
      | None => None
      | Some (a, e) =>
          match add_if_listed (pl_mem s) a e with
          | Some m => Some (mk_cs (with_mem s m) DIdle (c_e c))
          | None => Some (mk_cs s (DCache a e) (c_e c))
          end
      end
  | DCache a e =>
      match add_if_listed (pl_cache s) a e with
      | Some k => Some (mk_cs (with_cache s k) DIdle (c_e c))
      | None => Some (mk_cs s (DLoad a e) (c_e c))
      end
  | DLoad a e => Some (mk_cs s (DAdd a e (load_list s a)) (c_e c))
  | DAdd a e l =>
      match l with
      | LErr => Some (mk_cs s DIdle (c_e c))
      | LList l => Some (mk_cs (with_cache s (add_new_list (pl_cache s) a (l ++ [e]))) DIdle (c_e c))
      | LNone => Some (mk_cs (with_mem s (add_new_list (pl_mem s) a [e])) DIdle (c_e c))
      end
  end.

(** One step of the extracting goroutine *)
Definition e_step (c : cstate) (pick : Z) : option cstate :=
  let s := c_pl c in
  match c_e c with
  | EIdle => Some (mk_cs s (c_d c) (EMem (biggest (pl_mem s))))
  | EMem bm => Some (mk_cs s (c_d c) (ETake bm (biggest (pl_cache s))))
  | ETake bm bc =>
      if (bc <? bm)%nat then
        match extract_list (pl_mem s) bm pick with
        | XList l m => Some (mk_cs (with_mem s m) (c_d c) (EHave pick l))
        | XNone => Some (mk_cs s (c_d c) EIdle)
        | _ => None
        end
      else if (0 <? bc)%nat then
        match extract_list (pl_cache s) bc pick with
        | XList l k => Some (mk_cs (with_cache s k) (c_d c) (EHave pick l))
        | XNone => Some (mk_cs s (c_d c) EIdle)
        | _ => None
        end
      else Some (mk_cs s (c_d c) EIdle)
  | EHave a l => Some (mk_cs (write_file s a l) (c_d c) (EMark a))
  | EMark a => Some (mk_cs (set_bit s a) (c_d c) EIdle)
  end.

Inductive cop := CD (next : option (Z * pent)) | CE (pick : Z).
Fixpoint crun (c : cstate) (ops : list cop) : option cstate :=
  match ops with
  | [] => Some c
  | CD n :: ops' => match d_step c n with Some c' => crun c' ops' | None => None end
  | CE p :: ops' => match e_step c p with Some c' => crun c' ops' | None => None end
  end.
Definition c_init : cstate := mk_cs ps_init DIdle EIdle.

(** ** The job, jobs.go:48-109, with the calls of the preloader undisturbed.  [j_todo]: entries not yet
    delegated (with their addresses); [j_sent] = allHashesSent; [j_ext]: the extracting goroutine, waiting
    for the first message (56), about to test its loop condition with numDone (60), or ended (72). *)
Inductive jext := JWait | JTest (num : nat) | JDone.
Record jstate := mk_js { j_pl : pstate; j_todo : list (Z * pent); j_sent : bool; j_woken : bool; j_ext : jext }.
Definition j_init (es : list (Z * pent)) : jstate := mk_js ps_init es false false JWait.

(** preloader.go:272-283: up to [k] extractions, stopping at the first that writes nothing *)
Inductive rounds : nat -> pstate -> nat -> pstate -> Prop :=
  | rounds_end s : rounds 0 s 0 s
  | rounds_none k s pick s' : extract s pick = EOk s' false -> rounds (S k) s 0 s'
  | rounds_some k s pick s' n s'' : extract s pick = EOk s' true -> rounds k s' n s'' -> rounds (S k) s (S n) s''.

Definition round_size : nat := Z.to_nat 10000.

(** Labels: what happens.  [JPressure]: the memory limit is hit (88-94). *)
Inductive jlabel := JSend | JPressure | JSentAll | JWakeEnd | JLeave | JExtract.
Inductive jstep : jstate -> jlabel -> jstate -> Prop :=
  (** 77-100, one turn *)
  | js_send pl a e todo w x pl' : delegate pl a e = Some pl' ->
      jstep (mk_js pl ((a, e) :: todo) false w x) JSend (mk_js pl' todo false w x)
  (** 88-94: the message is received at once by the goroutine waiting for it *)
  | js_pressure pl ae todo : jstep (mk_js pl (ae :: todo) false false JWait) JPressure (mk_js pl (ae :: todo) false true (JTest 0))
  (** 101 *)
  | js_sent pl w x : jstep (mk_js pl [] false w x) JSentAll (mk_js pl [] true w x)
  (** 105-107 *)
  | js_wake pl : jstep (mk_js pl [] true false JWait) JWakeEnd (mk_js pl [] true true (JTest 0))
  (** 60: the loop ends *)
  | js_leave pl todo w : jstep (mk_js pl todo true w (JTest 0)) JLeave (mk_js pl todo true w JDone)
  (** 60-71: a turn of the loop *)
  | js_extract pl todo sent w num n pl' : (sent = false \/ (0 < num)%nat) -> rounds round_size pl n pl' ->
      jstep (mk_js pl todo sent w (JTest num)) JExtract (mk_js pl' todo sent w (JTest n)).
Inductive jsteps : jstate -> list jlabel -> jstate -> Prop :=
  | jsteps_nil s : jsteps s [] s
  | jsteps_cons s l s' ls s'' : jstep s l s' -> jsteps s' ls s'' -> jsteps s (l :: ls) s''.
