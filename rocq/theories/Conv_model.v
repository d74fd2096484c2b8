(** Model of the library entry point sbp_conv: one SBP message in, the RTCM bytes waiting in a FIFO out.
    c/gnss_converters_extra/src/sbp_conv.c, c/gnss_converters_extra/include/gnss-converters-extra/sbp_conv.h. *)
From Verif Require Import Base Bitstring Bits_model Double_model RtcmMsm_model Signals_model Sbp2Rtcm_model Sbp2Msm_model MsmVal_model RtcmFrameOut_model Tunnel_model.

(** conv->buf: sbp_conv.c:27 *)
Definition CONV_FIFO_SIZE : Z := 2048.
(** sbp_conv_cb: sbp_conv.c:30-34; fifo_write of libswiftnav (external) stores as much as there is room for, and the return value
    is ignored by sbp_rtcm3.c *)
Definition conv_write (fifo buf : list Z) : list Z := fifo ++ take (Z.min (len buf) (CONV_FIFO_SIZE - len fifo)) buf.
(** fifo_read (external): the oldest bytes, at most [n] *)
Definition conv_read (n : Z) (fifo : list Z) : list Z * list Z := (take (Z.min n (len fifo)) fifo, drop (Z.min n (len fifo)) fifo).

Definition SBP_MSG_OBS : Z := 0x004A.
Definition SBP_MSG_BASE_POS_ECEF : Z := 0x0048.
Definition SBP_MSG_EPHEMERIS_GPS : Z := 0x008A.
Definition SBP_MSG_EPHEMERIS_GLO : Z := 0x008B.
Definition SBP_MSG_EPHEMERIS_GAL : Z := 0x008D.
Definition SBP_MSG_EPHEMERIS_BDS : Z := 0x0089.
(** the cases of the switch: sbp_conv.c:59-117 *)
Definition converted : list Z :=
  [SBP_MSG_BASE_POS_ECEF; SBP_MSG_OBS; SBP_MSG_OSR; SBP_MSG_SSR_ORBIT_CLOCK; SBP_MSG_SSR_PHASE_BIASES; SBP_MSG_SSR_CODE_BIASES;
   SBP_MSG_SSR_GRIDDED_CORRECTION_DEP_A; SBP_MSG_SSR_GRID_DEFINITION_DEP_A; SBP_MSG_SSR_STEC_CORRECTION_DEP_A;
   SBP_MSG_EPHEMERIS_GPS; SBP_MSG_EPHEMERIS_GLO; SBP_MSG_EPHEMERIS_BDS; SBP_MSG_EPHEMERIS_GAL; SBP_MSG_LOG].

Section Conv.
Context {S : Type}.
(** the callback of the message type ([S] is struct rtcm3_out_state): the buffers it passes to the write callback; Ub: undefined *)
Context (handle : Z -> Z -> list Z -> S -> res (S * list (list Z))).
(** sbp_conv: sbp_conv.c:52-120: (u8)rlen, (u32)wlen; the result is the state and the returned bytes *)
Definition conv_step (st : S * list Z) (sender ty : Z) (rbuf : list Z) (wlen : Z) : res (S * list Z * list Z) :=
  let '(s, fifo) := st in
  bind (if existsb (Z.eqb ty) converted then handle ty sender (take (len rbuf mod 256) rbuf) s else Ok (s, [])) (fun '(s, bufs) =>
  let fifo := fold_left conv_write bufs fifo in
  let '(out, fifo) := conv_read (wlen mod 2 ^ 32) fifo in
  Ok (s, fifo, out)).
Record call := mkcall { c_sender : Z; c_ty : Z; c_rbuf : list Z; c_wlen : Z }.
Fixpoint conv_run (st : S * list Z) (cs : list call) : res (S * list Z * list (list Z)) :=
  match cs with
  | [] => Ok (st, [])
  | c :: cs => bind (conv_step st (c_sender c) (c_ty c) (c_rbuf c) (c_wlen c)) (fun '(s, fifo, out) =>
               bind (conv_run (s, fifo) cs) (fun '(st, outs) => Ok (st, out :: outs)))
  end.
End Conv.
Arguments call : clear implicits.

(** ** the callbacks for observations and for the messages that are wrapped *)
Section Handler.
Context (carrier : code -> Z) (code_of : Z -> code).
(** sbp_conv_new: sbp_conv.c:36-48: MSM5 only, the leap seconds of the day, no GLONASS frequency channels, which nothing sets later *)
Definition conv_fcns : list Z := repeat 255 29.
Definition conv_cfg (leap : Z) : ocfg := mkocfg 5 (Some leap).
(** one pass of the last loop of sbp_buffer_to_msm: sbp_rtcm3.c:711-719 *)
Definition msm_frame (cfg : ocfg) (m : omsg) : res (list Z) :=
  match values carrier code_of conv_fcns m with
  | None => Ub
  | Some dm => bind (encode_msm_d (c_type cfg) dm (drop 3 (repeat 0 (Z.to_nat FRAME_ARRAY_LEN)))) (fun p => encode_rtcm3_frame (fun _ => p))
  end.
Fixpoint all_ok {A} (l : list (res A)) : res (list A) :=
  match l with [] => Ok [] | r :: l => bind r (fun x => bind (all_ok l) (fun xs => Ok (x :: xs))) end.
Definition epoch_frames (cfg : ocfg) (e : epoch) : res (list (list Z)) :=
  match buffer_to_msm code_of cfg e with None => Ub | Some ms => all_ok (map (msm_frame cfg) ms) end.
(** [other]: the callbacks for the base position and ephemerides *)
Context (other : Z -> Z -> list Z -> ost -> res (ost * list (list Z))).
Definition conv_handle (leap : Z) (ty sender : Z) (msg : list Z) (s : ost) : res (ost * list (list Z)) :=
  if ty =? SBP_MSG_OBS then
    bind (obs_cb s sender msg) (fun '(s, es) => bind (all_ok (map (epoch_frames (conv_cfg leap)) es)) (fun fs => Ok (s, concat fs)))
  else if existsb (Z.eqb ty) [SBP_MSG_BASE_POS_ECEF; SBP_MSG_EPHEMERIS_GPS; SBP_MSG_EPHEMERIS_GLO; SBP_MSG_EPHEMERIS_BDS; SBP_MSG_EPHEMERIS_GAL] then other ty sender msg s
  else match tunnel_tx ty sender msg with
       | None => Ok (s, [])
       | Some r => bind r (fun f => Ok (if ty =? SBP_MSG_LOG then mkost sender (os_hdr s) (os_buf s) else s, [f]))
       end.
End Handler.
