(** Specification vocabulary for C17, C18, C23. *)
From Verif Require Import Base Time_model ObsBuffer_model.

Section Spec.
Context {obs other_out aux : Type}.
Notation out := (out obs other_out).

(** the observations carried by a sequence of outputs, in order *)
Definition carried (l : list out) : list obs := flat_map (fun o => match o with OObs _ _ _ _ os => os | _ => [] end) l.

(** [epoch_messages sender wn tow os l]: [l] is one epoch of SBP observation messages: [os] cut into parts of 14, the last one possibly shorter
    (and empty only when there are no observations at all), numbered 0,1,.. in the low nibble with the number of parts in the high nibble *)
Definition epoch_messages (sender w t : Z) (os : list obs) (l : list out) : Prop :=
  exists parts : list (list obs),
    concat parts = os /\
    1 <= len parts <= 15 /\
    (forall i p, nth_error parts i = Some p -> Z.of_nat i < len parts - 1 -> len p = 14) /\
    (forall p, nth_error parts (length parts - 1) = Some p -> len p <= 14 /\ (p = [] -> os = [])) /\
    (forall i m, nth_error l i = Some m <-> exists p, nth_error parts i = Some p /\ m = OObs sender w t (16 * len parts + Z.of_nat i) p).

(** order-preserving sub-sequence *)
Inductive subseq {A} : list A -> list A -> Prop :=
| subseq_nil : forall l, subseq [] l
| subseq_skip : forall x l l', subseq l l' -> subseq l (x :: l')
| subseq_cons : forall x l l', subseq l l' -> subseq (x :: l) (x :: l').

Context (legacy_dec : Z -> list Z -> option (legacy_msg obs)) (msm_dec : Z -> list Z -> option (msm_msg obs)) (utc_offset : gtime -> Z).

(** the usable observations in a payload *)
Definition somes {A} (l : list (option A)) : list A := flat_map (fun o => match o with Some x => [x] | None => [] end) l.
Definition observations (p : list Z) : list obs :=
  let ty := message_type p in
  match kind_of ty with
  | KGps | KGlo => match legacy_dec ty p with Some m => somes (l_cands m) | None => [] end
  | KMsm _ => match msm_dec ty p with Some m => m_cands m | None => [] end
  | KOther => []
  end.
(** the GPS time of week and sender a payload's observations belong to, given the reference time [ref] at its arrival *)
Definition belongs (ref : gtime) (p : list Z) (t sender : Z) : Prop :=
  let ty := message_type p in
  match kind_of ty with
  | KGps => exists m g, legacy_dec ty p = Some m /\ sender = sender_of (l_stn m) /\ compute_gps_message_time (l_tow_ms m) ref = Some g /\ t = tow g
  | KGlo => exists m g, legacy_dec ty p = Some m /\ sender = sender_of (l_stn m) /\
              compute_glo_time (l_tow_ms m) ref (Some (utc_offset ref)) = (true, Some g) /\ t = tow g
  | KMsm GLO => exists m g, msm_dec ty p = Some m /\ sender = sender_of (m_stn m) /\
              snd (compute_glo_time (m_tow_ms m) ref (Some (utc_offset ref))) = Some g /\ t = tow g
  | KMsm BDS => exists m g, msm_dec ty p = Some m /\ sender = sender_of (m_stn m) /\
              compute_gps_message_time (beidou_tow_to_gps_tow (m_tow_ms m)) ref = Some g /\ t = tow g
  | KMsm _ => exists m g, msm_dec ty p = Some m /\ sender = sender_of (m_stn m) /\ compute_gps_message_time (m_tow_ms m) ref = Some g /\ t = tow g
  | KOther => False
  end.
End Spec.
