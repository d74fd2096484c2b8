(** C69-C72: what must arrive.  Independent of the model of the converters. *)
From Verif Require Import Base Bitstring RtcmStation_spec StaConv_spec Subframes_spec Tunnel_model.

(** ** C69, C70: an SBP message handed to the SBP-to-RTCM converter *)
Record sbpmsg := mksbp { s_type : Z; s_sender : Z; s_payload : list Z }.
(** OSR, SSR orbit/clock, code biases, phase biases, grid definition, gridded correction, STEC correction *)
Definition tunnelled : list Z := [1600; 1501; 1505; 1510; 1525; 1530; 1531].
Definition wf_sbp (m : sbpmsg) : Prop :=
  (In (s_type m) tunnelled \/ (s_type m = 1025 /\ 2 <= len (s_payload m))) /\ ubits 16 (s_sender m) /\ bytes (s_payload m) /\ len (s_payload m) <= 255.
(** what the receiving converter must emit for it: the same message; for a log message, an informational log message of that station with
    "RTCM: " and the text, which may be cut to 247 or 248 bytes *)
Definition RTCM_ : list Z := [82; 84; 67; 77; 58; 32].
Definition carried (sbp_ok : Z -> list Z -> bool) (m : sbpmsg) (o : list tout) : Prop :=
  if s_type m =? 1025 then
    exists n, o = [TLog (back16 (stn12 (s_sender m))) 6 (RTCM_ ++ take n (drop 1 (s_payload m)))] /\
      (len (s_payload m) <= 248 -> n = len (s_payload m) - 1) /\ (248 < len (s_payload m) -> 247 <= n <= 248)
  else o = if sbp_ok (s_type m) (s_payload m) then [TSbp (s_sender m) (s_type m) (s_payload m)] else [].

(** ** C71 *)
(** "MSM1-3 Messages currently not supported" *)
Definition is_msm_warning (o : tout) : bool :=
  match o with
  | TLog _ _ t => if list_eq_dec Z.eq_dec t [77; 83; 77; 49; 45; 51; 32; 77; 101; 115; 115; 97; 103; 101; 115; 32; 99; 117; 114; 114; 101; 110; 116;
      108; 121; 32; 110; 111; 116; 32; 115; 117; 112; 112; 111; 114; 116; 101; 100] then true else false
  | _ => false
  end.
Definition warnings (l : list tout) : Z := len (filter is_msm_warning l).
(** message numbers 1071-1073, 1081-1083, ..., 1121-1123 *)
Definition is_msm123 (ty : Z) : Prop := 1071 <= ty <= 1123 /\ 1 <= ty mod 10 <= 3.

(** ** C72: the layout of message 4075 *)
Record navframe := mknav { f_sys : Z; f_num : Z; f_ext : Z; f_sig : Z; f_epoch : Z; f_cont : Z; f_bits : list bool }.
Definition wf_nav (f : navframe) : Prop :=
  ubits 4 (f_sys f) /\ ubits 6 (f_num f) /\ ubits 4 (f_ext f) /\ ubits 5 (f_sig f) /\ ubits 30 (f_epoch f) /\ ubits 1 (f_cont f) /\ len (f_bits f) <= 4095.
Definition nav_bits (f : navframe) : list bool :=
  fields_bits [(4, f_sys f); (6, f_num f); (4, f_ext f); (5, f_sig f); (30, f_epoch f); (1, f_cont f); (12, len (f_bits f))] ++ f_bits f.
Definition msg4075_bits (stn : Z) (fs : list navframe) : list bool :=
  fields_bits [(12, 4075); (12, stn); (2, 0); (6, len fs)] ++ flat_map nav_bits fs.
(** a 250-bit SBAS message is intact: one of the three preambles and divisible by the CRC generator *)
Definition intact (l : list bool) : bool :=
  ((val_be (take 8 l) =? 0x53) || (val_be (take 8 l) =? 0x9a) || (val_be (take 8 l) =? 0xc6)) && (gf2_rem (take 250 l) =? 0).
(** what is forwarded for a frame: SBAS only, PRN 120..158, intact *)
Definition forwarded (stn : Z) (f : navframe) : list tout :=
  if (f_sys f =? 3) && (f_num f <? 39) && intact (f_bits f)
  then [TSbas (back16 stn) (120 + f_num f) (f_epoch f) (val_be (sub (f_bits f) 8 6)) (sub (f_bits f) 14 212)] else [].
