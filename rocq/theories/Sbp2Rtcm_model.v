(** Model of the SBP-to-RTCM observation converter: c/gnss_converters_extra/src/sbp_rtcm3.c.

    Part A: assembling the SBP observation messages of one epoch (sbp2rtcm_sbp_obs_cb and the callbacks that overwrite the sender).
    Part B: turning the buffered epoch into one MSM message per constellation (sbp_buffer_to_msm).
    The legacy 1004/1012 output (sbp_buffer_to_legacy_rtcm3) is in LegVal_model.v.  Logging has no effect on the state and is left out. *)
From Verif Require Import Base Bits_model Bytestream_model RtcmMsm_model Signals_model Time_model Double_model.

(** ** Part A *)
(** packed_obs_content_t and observation_header_t of libsbp (external, little endian, 17 and 11 bytes) *)
Record pobs := mkpobs { o_P : Z; o_Li : Z; o_Lf : Z; o_Di : Z; o_Df : Z; o_cn0 : Z; o_lock : Z; o_flags : Z; o_sat : Z; o_code : Z }.
Record ohdr := mkohdr { oh_tow : Z; oh_ns : Z; oh_wn : Z; oh_n : Z }.
Definition rd (p : list Z) (off n : Z) : Z := le_val (sub p off n).
Definition HDR_LEN : Z := 11.
Definition OBS_LEN : Z := 17.
Definition parse_hdr (p : list Z) : ohdr := mkohdr (rd p 0 4) (to_signed 32 (rd p 4 4)) (rd p 8 2) (rd p 10 1).
Definition parse_obs (p : list Z) (i : Z) : pobs :=
  let b := HDR_LEN + OBS_LEN * i in
  mkpobs (rd p b 4) (to_signed 32 (rd p (b + 4) 4)) (rd p (b + 8) 1) (to_signed 16 (rd p (b + 9) 2)) (rd p (b + 11) 1)
    (rd p (b + 12) 1) (rd p (b + 13) 1) (rd p (b + 14) 1) (rd p (b + 15) 1) (rd p (b + 16) 1).

Definition MAX_OBS_PER_EPOCH : Z := 210.
Definition WEEK_SECS : Z := 604800.
(** rtcm3_out_state (sbp_rtcm3.h:31-57): sender_id, sbp_header, the first n_sbp_obs entries of sbp_obs_buffer[210] *)
Record ost := mkost { os_sender : Z; os_hdr : ohdr; os_buf : list pobs }.
(** one call of sbp_buffer_to_rtcm3: what it sees of the state *)
Record epoch := mkepoch { e_sender : Z; e_hdr : ohdr; e_obs : list pobs }.

(** sbp_diff_time: sbp_rtcm3.c:73-80; None: the int product week_diff * WEEK_SECS overflows *)
Definition sbp_diff_time (a b : ohdr) : option dbl :=
  let w := oh_wn a - oh_wn b in
  let p := w * WEEK_SECS in
  if (p <? - 2 ^ 31) || (2 ^ 31 - 1 <? p) then None
  else Some (dadd (dsub (ddiv (dofZ (oh_tow a)) (dofZ 1000)) (ddiv (dofZ (oh_tow b)) (dofZ 1000))) (dofZ p)).

(** sbp_buffer_to_rtcm3: sbp_rtcm3.c:817-826, as a record of what is converted; the buffer is emptied *)
Definition flush (s : ost) : ost * list epoch := (mkost (os_sender s) (os_hdr s) [], [mkepoch (os_sender s) (os_hdr s) (os_buf s)]).

Definition FLAG_CODE_VALID : Z := 1.
Definition FLAG_RAIM_EXCLUSION : Z := 128.
(** the copy loop: sbp_rtcm3.c:889-909; None: write past the end of sbp_obs_buffer *)
Fixpoint copy_loop (p : list Z) (i : Z) (n : nat) (buf : list pobs) : option (list pobs) :=
  match n with
  | O => Some buf
  | S n =>
      let o := parse_obs p i in
      if (Z.land (o_flags o) FLAG_CODE_VALID =? 0) || negb (Z.land (o_flags o) FLAG_RAIM_EXCLUSION =? 0) then copy_loop p (i + 1) n buf
      else if MAX_OBS_PER_EPOCH <=? len buf then None
      else let buf := buf ++ [o] in
           if len buf =? MAX_OBS_PER_EPOCH then Some buf else copy_loop p (i + 1) n buf
  end.
Definition seq_counter (n_obs : Z) : Z := (Z.land n_obs 15 + 1) mod 256.
Definition seq_size (n_obs : Z) : Z := Z.shiftr n_obs 4.
(** sbp_rtcm3.c:885-916: the part of sbp2rtcm_sbp_obs_cb that accepts the message *)
Definition accept (s : ost) (p : list Z) : res (ost * list epoch) :=
  let n_meas := ((len p - HDR_LEN) / OBS_LEN) mod 256 in
  match copy_loop p 0 (Z.to_nat n_meas) (os_buf s) with
  | None => Ub
  | Some buf =>
      let h := parse_hdr p in
      let s := mkost (os_sender s) h buf in
      Ok (if seq_counter (oh_n h) =? seq_size (oh_n h) then flush s else (s, []))
  end.
(** sbp2rtcm_sbp_obs_cb: sbp_rtcm3.c:828-917.  [p] is the payload (len = its length); a payload shorter than the header makes the callback
    read outside it and the unsigned subtraction wrap around: Ub. *)
Definition obs_cb (s : ost) (sender : Z) (p : list Z) : res (ost * list epoch) :=
  if len p <? HDR_LEN then Ub
  else
  let '(s, out) := if negb (os_sender s =? sender) then let '(s, o) := flush s in (mkost sender (os_hdr s) (os_buf s), o) else (s, []) in
  let h := parse_hdr p in
  bind (if 0 <? len (os_buf s) then
          match sbp_diff_time h (os_hdr s) with
          | None => Ub
          | Some dt =>
              if dltb dt (dofZ 0) then Ok (s, [])
              else if dgtb dt (dofZ 0) then let '(s, o) := flush s in bind (accept s p) (fun '(s, o') => Ok (s, o ++ o'))
              else if negb (seq_size (oh_n h) =? seq_size (oh_n (os_hdr s))) || (seq_counter (oh_n h) <=? seq_counter (oh_n (os_hdr s))) then Ok (flush s)
              else accept s p
          end
        else accept s p)
    (fun '(s, o) => Ok (s, out ++ o)).

(** sbp2rtcm_base_pos_ecef_cb, sbp2rtcm_glo_biases_cb and sbp2rtcm_sbp_log_cb set sender_id without looking at the buffer
    (sbp_rtcm3.c:414, 440, 1109); their own RTCM output (1006/1008/1033, 1230, 1029) does not depend on the observation state. *)
Inductive event := EObs (sender : Z) (p : list Z) | EOther (sender : Z).
Definition step (s : ost) (e : event) : res (ost * list epoch) :=
  match e with EObs sender p => obs_cb s sender p | EOther sender => Ok (mkost sender (os_hdr s) (os_buf s), []) end.
Fixpoint run (s : ost) (es : list event) : res (ost * list epoch) :=
  match es with
  | [] => Ok (s, [])
  | e :: es => bind (step s e) (fun '(s, o) => bind (run s es) (fun '(s, o') => Ok (s, o ++ o')))
  end.
(** sbp2rtcm_init: sbp_rtcm3.c:44-70 leaves sender_id and sbp_header as they are and empties the buffer *)
Definition init (sender : Z) (h : ohdr) : ost := mkost sender h [].
