(** Specification vocabulary for C28-C30: what an epoch of SBP observation messages is, independent of the assembling code. *)
From Coq Require Import Sorted.
From Verif Require Import Base Bits_model Bytestream_model RtcmMsm_model RtcmMsm_spec Signals_model Signals_spec Sbp2Rtcm_model ObsBuffer_spec.

(** fields of an observation message payload: GPS time in milliseconds since the GPS epoch, number of messages in the sequence (1..15) and
    position of this one (from 1) *)
Definition msg_time (p : list Z) : Z := 604800000 * oh_wn (parse_hdr p) + oh_tow (parse_hdr p).
Definition total (p : list Z) : Z := oh_n (parse_hdr p) / 16.
Definition position (p : list Z) : Z := oh_n (parse_hdr p) mod 16 + 1.
(** the observations in the payload, and those that are to be forwarded: pseudorange valid (bit 0) and not excluded by RAIM (bit 7) *)
Definition all_obs (p : list Z) : list pobs := map (fun i => parse_obs p (Z.of_nat i)) (seq 0 (Z.to_nat ((len p - 11) / 17))).
Definition wanted (o : pobs) : bool := Z.testbit (o_flags o) 0 && negb (Z.testbit (o_flags o) 7).
Definition wanted_obs (p : list Z) : list pobs := filter wanted (all_obs p).

(** a payload whose header is complete, with a valid time of week, of at most 255 bytes (the SBP frame's limit); week number given *)
Definition payload_ok (p : list Z) : Prop := bytes p /\ 11 <= len p <= 255 /\ oh_tow (parse_hdr p) < 604800000.

(** the messages [g] belong together: one epoch, one sequence length, increasing positions *)
Definition one_sequence (g : list (Z * list Z)) : Prop :=
  (forall m m', In m g -> In m' g -> msg_time (snd m) = msg_time (snd m') /\ total (snd m) = total (snd m')) /\
  StronglySorted (fun m m' => position (snd m) < position (snd m')) g.
(** epoch [e] consists of exactly the wanted observations of the messages [g], in order, at their time *)
Definition made_of (g : list (Z * list Z)) (e : epoch) : Prop :=
  one_sequence g /\ e_obs e = flat_map (fun m => wanted_obs (snd m)) g /\
  (forall m, In m g -> 604800000 * oh_wn (e_hdr e) + oh_tow (e_hdr e) = msg_time (snd m)).
(** the observation messages among the events, with their senders *)
Definition obs_messages (es : list event) : list (Z * list Z) := flat_map (fun e => match e with EObs s p => [(s, p)] | EOther _ => [] end) es.

(** every observation message is well formed, announces at least one message, and the week numbers lie within [3550] weeks *)
Definition events_ok (w : Z) (es : list event) : Prop :=
  Forall (fun m => payload_ok (snd m) /\ 1 <= total (snd m) /\ w <= oh_wn (parse_hdr (snd m)) <= w + 3550) (obs_messages es).

(** every message of another kind carries the sender id of the latest observation message before it ([None]: no observation message yet) *)
Fixpoint one_source (last : option Z) (es : list event) : Prop :=
  match es with
  | [] => True
  | EObs s _ :: es => one_source (Some s) es
  | EOther s :: es => (forall l, last = Some l -> l = s) /\ one_source last es
  end.

(** the payloads [ps] are the complete, ordered message sequence of one epoch *)
Definition complete_epoch (t : Z) (ps : list (list Z)) : Prop :=
  ps <> [] /\ forall i p, nth_error ps i = Some p -> payload_ok p /\ msg_time p = t /\ total p = len ps /\ position p = Z.of_nat i + 1.
(** the converter holds no observations, or observations of another sender, or of an earlier epoch *)
Definition ready_for (s : ost) (sender t : Z) : Prop :=
  os_buf s = [] \/ os_sender s <> sender \/ 604800000 * oh_wn (os_hdr s) + oh_tow (os_hdr s) < t.
