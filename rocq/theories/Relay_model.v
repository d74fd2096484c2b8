(** The tools sbp2rtcm and rtcm3tosbp with all the messages sbp2rtcm converts.
    c/sbp2rtcm/src/sbp2rtcm.c:59-171, c/gnss_converters_extra/src/sbp_rtcm3.c:48-71, 405-449, 817-1121; c/gnss_converters/src/rtcm3_sbp.c:133-636. *)
From Flocq Require Import Core IEEE754.Binary IEEE754.Bits.
From Verif Require StaConv_model.
From Verif Require Import Base Bits_model Double_model Esf_model RtcmEph_model SbpEph_model RtcmStation_model RtcmMsm_model Signals_model Sbp2Rtcm_model Sbp2Msm_model MsmVal_model Options_model RtcmFrameOut_model Conv_model Tunnel_model
  EphOut_model Time_model RtcmFraming_model ObsBuffer_model Rx_model RxTx_model.

Local Open Scope Z_scope.
Import ListNotations.

(** ** sbp2rtcm *)
(** an SBP message with its sender.  The payloads of the base position, biases and ephemerides are taken as the decoded structures of libsbp (external) *)
Inductive body :=
| BObs (p : list Z)
| BBase (x y z : dbl)
| BBias (mask l1ca l1p l2ca l2p : Z)
| BGps (s : skeph) | BBds (s : skeph) | BGal (s : skeph)
| BGlo (s : sgeph) (junk : Z)                (* junk: see EphOut_model.glo_eph_cb *)
| BRaw (ty : Z) (p : list Z)                 (* OSR, SSR and log messages *)
| BIgnored.                                  (* a message for which no callback is registered *)
Record sbpin := mkin { i_sender : Z; i_body : body }.

Section Tx.
Variables (carrier : code -> Z) (code_of : Z -> code) (c : Z -> dbl) (eps : dbl) (log2f : binary32 -> binary32).
(** the UTC offset of the day at which the tool was started: sbp2rtcm.c:77-84 *)
Variable leap : Z.
(** one message: the callback registered for its type (sbp2rtcm.c:91-166) and the frames it writes.  The tool sets neither an antenna (so no 1008/1033 with the base position)
    nor GLONASS channels; MSM5 only (sbp_rtcm3.c:48-71) *)
Definition tool_step (m : sbpin) (st : ost) : res (ost * list (list Z)) :=
  let sd := i_sender m in
  match i_body m with
  | BObs p => bind (obs_cb st sd p) (fun '(st, es) => bind (all_ok (map (out_frames carrier code_of conv_fcns (conv_cfg leap)) es)) (fun fss => Ok (st, concat fss)))
  | BBase x y z => bind (StaConv_model.base_pos_cb sd x y z (StaConv_model.ost0 (os_sender st))) (fun '(o, fs) => Ok (mkost (StaConv_model.o_sender o) (os_hdr st) (os_buf st), fs))
  | BBias mask a b c d => bind (StaConv_model.glo_biases_cb sd mask a b c d (StaConv_model.ost0 (os_sender st))) (fun '(o, fs) => Ok (mkost (StaConv_model.o_sender o) (os_hdr st) (os_buf st), fs))
  | BGps s => bind (gps_eph_cb c eps log2f s) (fun f => Ok (st, [f]))
  | BBds s => bind (bds_eph_cb c eps log2f s) (fun f => Ok (st, [f]))
  | BGal s => bind (gal_eph_cb c s) (fun f => Ok (st, [f]))
  | BGlo s junk => bind (glo_eph_cb c eps log2f s (Some leap) junk) (fun f => Ok (st, [f]))
  | BRaw ty p => match tunnel_tx ty sd p with
                 | None => Ok (st, [])
                 | Some r => bind r (fun f => Ok (if ty =? SBP_MSG_LOG then mkost sd (os_hdr st) (os_buf st) else st, [f]))
                 end
  | BIgnored => Ok (st, [])
  end.
Fixpoint tool_run (st : ost) (ms : list sbpin) : res (ost * list (list Z)) :=
  match ms with
  | [] => Ok (st, [])
  | m :: ms => bind (tool_step m st) (fun '(st, fs) => bind (tool_run st ms) (fun '(st, fs') => Ok (st, fs ++ fs')))
  end.
End Tx.

(** ** rtcm3tosbp *)
(** what is sent besides observations: base positions and biases; ephemerides with their sender; tunnelled and log messages; RUndefined: undefined behaviour *)
Inductive rout := RSta (m : StaConv_model.smsg) | REph (m : Z * eph_msg) | RTun (m : tout) | RUndefined.
(** last_1230_received, sent_msm_warning *)
Definition raux : Type := gtime * bool.
Definition of_res {A} (r : res A) (d : A) : A * list rout := match r with Ok a => (a, []) | Ub => (d, [RUndefined]) | _ => (d, []) end.
Section Rx.
Variables (g : msg_1005) (c : Z -> dbl) (adj : Z -> Z) (mw : Z -> Z -> option Z) (sbp_ok : Z -> list Z -> bool).
(** the cases of rtcm3_sbp.c:212-620 other than observations, in state [s] (with its time and leap seconds already set).  The three parts look at different message numbers.
    When the time is not known only the message types of rtcm3_sbp.c:155-190 get here, none of which looks at it.
    Simplifications: SSR messages and 999 emit nothing here; of the memory behind a payload nothing is known (a 4075 that reads it is RUndefined). *)
Definition full_rest (ty : Z) (p : list Z) (s : rstate pobs (list Z * raux)) : raux * list rout :=
  let '(last, warned) := snd (r_aux s) in
  let '((last, o1), u1) := of_res (StaConv_model.sta_rx g (Some (r_time s)) last p) (last, []) in
  let o2 := eph_rx c adj mw true (r_time s) (r_leap s) p in
  let '((warned, o3), u3) := of_res (tunnel_rx sbp_ok true p (len p) warned) (warned, []) in
  ((last, warned), map RSta o1 ++ map REph o2 ++ map RTun o3 ++ u1 ++ u3).
End Rx.
(** rtcm2sbp_init: rtcm3_sbp.c:80-131 *)
Definition raux0 : raux := (T_UNKNOWN, false).
