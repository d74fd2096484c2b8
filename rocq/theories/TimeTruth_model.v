(** Model of c/gnss_converters/src/time_truth.c: the shared time-truth cell and any number of threads calling
    time_truth_update concurrently.  The cell is one lock-free atomic; a thread's visible actions are its atomic_load and its
    atomic_compare_exchange_strong calls, which interleave arbitrarily.
    tow is an integer number of 2^-33 s (the spacing of doubles near one week); storing it as a float rounds it to 24
    significant bits (half to even).  GPS_WEEK_REFERENCE (build configuration) is a parameter. *)
From Verif Require Import Base.

Definition TICKS : Z := 2 ^ 33.
Definition WEEK_T : Z := 604800 * TICKS.

(** (float)x for a non-negative double x *)
Definition round24 (x : Z) : Z :=
  let e := Z.log2 x - 23 in
  if e <=? 0 then x
  else let q := x / 2 ^ e in let r := x mod 2 ^ e in
       if r <? 2 ^ (e - 1) then q * 2 ^ e
       else if (r =? 2 ^ (e - 1)) && Z.even q then q * 2 ^ e
       else (q + 1) * 2 ^ e.

(** struct time_truth: time_truth.c:24-28; tow only meaningful when solved *)
Record tt := mktt { t_wn : Z; t_tow : Z; t_solved : bool }.
(** gps_time_t argument *)
Record gt := mkgt { a_wn : Z; a_tow : Z }.
Inductive source := EPH_GPS | EPH_GAL | EPH_BDS | OTHER_SOURCE.

(** time_truth_init: time_truth.c:40-49 *)
Definition tt_init : tt := mktt (-1) (-1) false.
(** gps_time_valid (libswiftnav): known week, time of week inside the week *)
Definition gt_valid (t : gt) : bool := (0 <=? a_wn t) && (0 <=? a_tow t) && (a_tow t <? WEEK_T).
(** gpsdifftime(&time, &current_time), both weeks known *)
Definition tdiff (t : gt) (c : tt) : Z := (a_tow t - t_tow c) + (a_wn t - t_wn c) * WEEK_T.

(** the switch in time_truth_update: time_truth.c:79-115; None: return false *)
Definition next (s : source) (t : gt) (cur : tt) : option tt :=
  match s with
  | OTHER_SOURCE => None
  | _ => if t_solved cur
         then if tdiff t cur <=? 0 then None else Some (mktt (a_wn t) (round24 (a_tow t)) true)
         else Some (mktt (a_wn t) (round24 (a_tow t)) true)
  end.

Definition tt_eqb (a b : tt) : bool := (t_wn a =? t_wn b) && (t_tow a =? t_tow b) && Bool.eqb (t_solved a) (t_solved b).

(** where a call to time_truth_update stands *)
Inductive pc := Start (s : source) (t : gt) | Loaded (s : source) (t : gt) (cur : tt) | Done (s : source) (t : gt) (result : bool).

(** one visible action of one call: time_truth.c:51-134 *)
Definition act (ref : Z) (shared : tt) (p : pc) : tt * pc :=
  match p with
  | Start s t => if negb (gt_valid t) then (shared, Done s t false)             (* 54-57 *)
                 else if a_wn t <? ref then (shared, Done s t false)            (* 59-62 *)
                 else (shared, Loaded s t shared)                               (* 70 *)
  | Loaded s t cur =>
      match next s t cur with
      | None => (shared, Done s t false)
      | Some n => if tt_eqb shared cur then (n, Done s t true)                  (* 116-117: exchange succeeds *)
                  else (shared, Loaded s t shared)                              (* fails: current_time_truth := shared *)
      end
  | Done s t r => (shared, Done s t r)
  end.
Definition config : Type := tt * list pc.
Definition cstep (ref : Z) (c : config) (i : nat) : config :=
  match nth_error (snd c) i with
  | None => c
  | Some p => let '(sh, p') := act ref (fst c) p in (sh, firstn i (snd c) ++ p' :: skipn (S i) (snd c))
  end.
(** [run c sched]: the threads act in the order given by [sched] *)
Definition run (ref : Z) (c : config) (sched : list nat) : config := fold_left (cstep ref) sched c.

(** time_truth_update as one thread sees it when nobody else interferes (three actions suffice) *)
Definition update_alone (ref : Z) (shared : tt) (s : source) (t : gt) : tt * bool :=
  match act ref shared (Start s t) with
  | (sh, Loaded s t cur) => match act ref sh (Loaded s t cur) with (sh', Done _ _ r) => (sh', r) | (sh', _) => (sh', false) end
  | (sh, Done _ _ r) => (sh, r)
  | (sh, Start _ _) => (sh, false)
  end.

(** time_truth_update_from_sbp: time_truth.c:151-176.  [eph]: Some (health_bits, toe.wn, toe.tow) for an SBP GPS ephemeris, None for any
    other message.  wn is cast to int16_t. *)
Definition s16 (x : Z) : Z := let y := x mod 2 ^ 16 in if y <? 2 ^ 15 then y else y - 2 ^ 16.
Definition update_from_sbp (ref : Z) (shared : tt) (eph : option (Z * Z * Z)) : tt * bool :=
  match eph with
  | Some (health, w, tow_s) => if health =? 0 then update_alone ref shared EPH_GPS (mkgt (s16 w) (tow_s * TICKS)) else (shared, false)
  | None => (shared, false)
  end.
