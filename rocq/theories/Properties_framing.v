(** C01-C06: property theorems only. *)
From Verif Require Import Base Crc Bitstring Bits_model Bits_proofs RtcmFraming_model RtcmFraming_spec RtcmFraming_proofs
  RtcmFrameOut_model RtcmFrameOut_proofs.

(** C01: the delivered frames and the kept bytes depend on the concatenated bytes only. *)
Theorem C01_chunking_invariance : forall chunks1 chunks2,
  Forall good_read chunks1 -> Forall good_read chunks2 -> concat chunks1 = concat chunks2 ->
  run chunks1 = run chunks2.
Proof. exact chunking_invariance. Qed.
Print Assumptions C01_chunking_invariance.

(** C02: what is delivered is a sequence of valid frames found at increasing, non-overlapping
    positions of the stream. C03 (general form): every valid frame that starts before the kept bytes (at most
    1028 of them) is either delivered or starts strictly inside a delivered frame. *)
Theorem C02_C03_delivered_frames : forall chunks, Forall good_read chunks ->
  exists r fs tr, run chunks = Some (r, fs) /\
    map snd tr = fs /\ ordered_from 0 tr /\
    (forall p f, In (p, f) tr -> occurs_at (concat chunks) p f /\ valid_frame f) /\
    (exists g, concat chunks = g ++ r) /\ len r <= 1028 /\
    (forall q f, occurs_at (concat chunks) q f -> valid_frame f -> q < len (concat chunks) - len r ->
      In (q, f) tr \/ exists p g, In (p, g) tr /\ p < q < p + len g).
Proof. exact soundness_completeness. Qed.
Print Assumptions C02_C03_delivered_frames.

(** C03: frames separated by 0xD3-free bytes are all delivered, in order, and nothing else. *)
Theorem C03_every_frame_delivered : forall chunks fs,
  Forall good_read chunks -> garbage_separated fs (concat chunks) ->
  exists r, run chunks = Some (r, fs).
Proof. exact delivery. Qed.
Print Assumptions C03_every_frame_delivered.

(** C04: before every read at most 1028 bytes are kept, so that read fits in the FIFO. *)
Theorem C04_fifo_never_overflows : forall chunks, Forall good_read chunks ->
  forall pre c post, chunks = pre ++ c :: post ->
  exists r fs, run pre = Some (r, fs) /\ len r <= 1028 /\ len r + len c <= RTCM3_FIFO_SIZE.
Proof. exact no_loss. Qed.
Print Assumptions C04_fifo_never_overflows.

(** C05: whatever payload of 1..1017 bytes the message encoder wrote, the frame is
    valid, carries exactly that payload, and the input side delivers it for every splitting of its bytes. *)
Theorem C05_frame_round_trip : forall enc tail payload,
  enc (repeat 0 1020%nat) = (tail, len payload) -> len tail = 1020 -> bytes tail -> take (len payload) tail = payload ->
  0 < len payload <= 1017 ->
  exists f b1 b2 c, encode_rtcm3_frame enc = Ok f /\ valid_frame f /\ f = 0xD3 :: b1 :: b2 :: payload ++ c /\ len c = 3.
Proof. exact encode_frame_valid. Qed.
Print Assumptions C05_frame_round_trip.
Theorem C05_frame_delivered : forall enc tail payload chunks f,
  enc (repeat 0 1020%nat) = (tail, len payload) -> len tail = 1020 -> bytes tail -> take (len payload) tail = payload ->
  0 < len payload <= 1017 ->
  encode_rtcm3_frame enc = Ok f -> Forall good_read chunks -> concat chunks = f ->
  exists r, run chunks = Some (r, [f]).
Proof. exact frame_delivered. Qed.
Print Assumptions C05_frame_delivered.
Theorem C05_empty_payload : forall enc tail, enc (repeat 0 1020%nat) = (tail, 0) -> encode_rtcm3_frame enc = Ok [].
Proof. exact empty_frame. Qed.
(** C05 at full strength (payloads up to 1023 bytes) is false: a payload of 1018 bytes or more
    makes the frame writer leave the callers' 1023-byte array. *)
Theorem C05_long_payload_refuted : forall enc tail s,
  enc (repeat 0 1020%nat) = (tail, s) -> 1018 <= s -> encode_rtcm3_frame enc = Ub.
Proof. exact long_frame_ub. Qed.
Print Assumptions C05_long_payload_refuted.

(** C06: write then read; nothing outside [pos, pos+ln) changes; the field holds exactly the value's bits. *)
Theorem C06_setbitu : forall buff pos ln, 0 <= pos -> pos + ln <= 8 * len buff -> forall v, 1 <= ln <= 32 ->
  len (setbitu buff pos ln v) = len buff /\ (bytes buff -> bytes (setbitu buff pos ln v)) /\
  (forall j, 0 <= j -> ~ (pos <= j < pos + ln) -> bitat (setbitu buff pos ln v) j = bitat buff j) /\
  bits_at (setbitu buff pos ln v) pos (Z.to_nat ln) = bits_be (Z.to_nat ln) v.
Proof. exact setu_spec. Qed.
Theorem C06_setbitul : forall buff pos ln, 0 <= pos -> pos + ln <= 8 * len buff -> forall v, 1 <= ln <= 64 ->
  len (setbitul buff pos ln v) = len buff /\ (bytes buff -> bytes (setbitul buff pos ln v)) /\
  (forall j, 0 <= j -> ~ (pos <= j < pos + ln) -> bitat (setbitul buff pos ln v) j = bitat buff j) /\
  bits_at (setbitul buff pos ln v) pos (Z.to_nat ln) = bits_be (Z.to_nat ln) v.
Proof. exact setul_spec. Qed.
Theorem C06_get_set_u : forall buff pos ln, 0 <= pos -> pos + ln <= 8 * len buff -> forall v, 1 <= ln <= 32 ->
  getbitu (setbitu buff pos ln v) pos ln = v mod 2 ^ ln.
Proof. exact get_set_u. Qed.
Theorem C06_get_set_ul : forall buff pos ln, 0 <= pos -> pos + ln <= 8 * len buff -> forall v, 1 <= ln <= 64 ->
  getbitul (setbitul buff pos ln v) pos ln = v mod 2 ^ ln.
Proof. exact get_set_ul. Qed.
Theorem C06_get_set_s : forall buff pos ln, 0 <= pos -> pos + ln <= 8 * len buff -> forall v, 1 <= ln <= 32 ->
  - 2 ^ (ln - 1) <= v < 2 ^ (ln - 1) -> getbits (setbits buff pos ln v) pos ln = v.
Proof. exact get_set_s. Qed.
Theorem C06_get_set_sl : forall buff pos ln, 0 <= pos -> pos + ln <= 8 * len buff -> forall v, 1 <= ln <= 64 ->
  - 2 ^ (ln - 1) <= v < 2 ^ (ln - 1) -> getbitsl (setbitsl buff pos ln v) pos ln = v.
Proof. exact get_set_sl. Qed.
Theorem C06_get_set_sign_magnitude : forall buff pos ln v, 0 <= pos -> pos + ln <= 8 * len buff -> 2 <= ln <= 32 ->
  - 2 ^ (ln - 1) < v < 2 ^ (ln - 1) ->
  get_sign_magnitude_bit (set_sign_magnitude_bit buff pos ln v) pos ln = v.
Proof. exact get_set_sm. Qed.
Print Assumptions C06_setbitu. Print Assumptions C06_setbitul. Print Assumptions C06_get_set_u. Print Assumptions C06_get_set_ul.
Print Assumptions C06_get_set_s. Print Assumptions C06_get_set_sl. Print Assumptions C06_get_set_sign_magnitude.

(** ** the hypotheses are met by concrete cases *)
(** a stream: garbage, a two-byte-payload frame, garbage, another frame, delivered whole or byte by byte *)
Definition sample_enc (p : list Z) (b : list Z) : list Z * Z := (p ++ drop (len p) b, len p).
Example sample_frame : encode_rtcm3_frame (sample_enc [0x3E; 0xD0]) = Ok [0xD3; 0; 2; 0x3E; 0xD0; 164; 224; 0].
Proof. vm_compute. reflexivity. Qed.
Example C05_hypotheses_met : forall p, bytes p -> 0 < len p <= 1017 ->
  exists tail, sample_enc p (repeat 0 1020%nat) = (tail, len p) /\ len tail = 1020 /\ bytes tail /\ take (len p) tail = p.
Proof.
  intros p Hb Hp. eexists. split; [reflexivity|]. split; [|split].
  - rewrite len_app, len_drop, len_repeat. lia.
  - apply Forall_app. split; [exact Hb|]. apply Forall_drop, bytes_repeat0.
  - apply take_app_exact.
Qed.
Example sample_stream_split :
  let s := [1; 2; 0xD3; 0; 2; 0x3E; 0xD0; 164; 224; 0; 7; 0xD3; 0; 2; 0x3E; 0xD0; 164; 224; 0; 9; 0xD3; 0; 5] in
  run [s] = Some ([9; 0xD3; 0; 5], [[0xD3; 0; 2; 0x3E; 0xD0; 164; 224; 0]; [0xD3; 0; 2; 0x3E; 0xD0; 164; 224; 0]]) /\
  run (map (fun b => [b]) s) = run [s] /\ Forall good_read [s].
Proof.
  cbn zeta. split; [vm_compute; reflexivity|]. split; [vm_compute; reflexivity|].
  constructor; [|constructor]. split; [vm_compute; split; discriminate|]. repeat constructor; unfold byte; lia.
Qed.
Example C06_sample : getbits (setbits [255; 255; 255] 3 11 (-700)) 3 11 = -700.
Proof. vm_compute. reflexivity. Qed.
