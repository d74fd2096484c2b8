(** Model of the RTCM frame writer of the SBP-to-RTCM converter. *)
From Verif Require Import Base Crc Bitstring Bits_model RtcmFraming_model.

(** every caller passes "u8 frame[RTCM3_MAX_MSG_LEN]":
    c/gnss_converters_extra/src/sbp_rtcm3.c:413, 445, 711, 803, 929, 944 *)
Definition FRAME_ARRAY_LEN : Z := RTCM3_MAX_MSG_LEN.

(** encode_rtcm3_frame: c/gnss_converters_extra/src/sbp_rtcm3.c:176-204.
    [enc] stands for encode_rtcm3_payload: it receives the zeroed buffer &frame[3] and returns the new
    contents of that buffer and message_size.  Result: the bytes handed to the write callback ([] when the
    function returns 0); [Ub] when a write would leave the callers' array or the assert fails. *)
Definition encode_rtcm3_frame (enc : list Z -> list Z * Z) : res (list Z) :=
  let frame0 := repeat 0 (Z.to_nat FRAME_ARRAY_LEN) in
  let '(tail, message_size) := enc (drop 3 frame0) in
  if message_size =? 0 then Ok []
  else
    let frame1 := take 3 frame0 ++ tail in
    let frame_size := message_size + 3 in
    if RTCM3_MAX_MSG_LEN <? message_size then Ub
    else if FRAME_ARRAY_LEN <? frame_size + 3 then Ub
    else
      let '(frame2, bit) := put_fields frame1 0 [(8, RTCM3_PREAMBLE); (6, 0); (10, message_size)] in
      let bit := bit + message_size * 8 in
      let crc := crc24q (take frame_size frame2) in
      let frame3 := setbitu frame2 bit 24 crc in
      Ok (take (frame_size + 3) frame3).
