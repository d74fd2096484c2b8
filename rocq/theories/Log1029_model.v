(** Model of send_1029: c/gnss_converters/src/rtcm3_sbp.c:1295-1327, and the length check of send_sbp_log_message (1329-1351).
    The text is the list of code units (at most 255, a u8 count). *)
From Verif Require Import Base.

Definition RTCM_LOG_PREAMBLE : list Z := [82; 84; 67; 77; 58; 32].   (* "RTCM: " *)
Definition SBP_MSG_LOG_TEXT_MAX : Z := 254.
Definition SBP_MAX_PAYLOAD_LEN : Z := 255.
(** message and message_size; the two else-branches can never be taken: their tests repeat parts of the first *)
Definition log_1029 (text : list Z) : option (list Z) :=
  let preamble_size := len RTCM_LOG_PREAMBLE in
  let size := Z.min SBP_MSG_LOG_TEXT_MAX (preamble_size + len text) mod 256 in
  let message := RTCM_LOG_PREAMBLE ++ take (size - preamble_size) text in
  let b := znth 0 (size - 1) message in
  let four := Z.land b 0xF8 =? 0xF0 in
  let three := Z.land b 0xE0 =? 0xE0 in
  let two := Z.land b 0xE0 =? 0xC0 in
  let size :=
    if size =? SBP_MSG_LOG_TEXT_MAX
    then if four || three || two then size - 1
         else if four || three then size - 2
         else if four then size - 3
         else size
    else size in
  if SBP_MAX_PAYLOAD_LEN <=? size then None else Some (take size message).
