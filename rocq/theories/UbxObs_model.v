(** RXM-RAWX to SBP observations: c/gnss_converters/src/ubx_sbp.c:223-331, 354-407, 1190-1236.
    Doubles are Flocq binary64 values (Double_model.v).  encode_lock_time (libswiftnav) is a parameter. *)
From Flocq Require Import IEEE754.Binary IEEE754.Bits.
From Verif Require Import Base Bytestream_model UbxVar_model Signals_model Double_model.
Open Scope Z_scope.

(** convert_ubx_gnssid_sigid: ubx_sbp.c:223-294 *)
Definition convert_ubx_gnssid_sigid (gnss_id sig_id : Z) : code :=
  if (gnss_id =? 0) && (sig_id =? 0) then GPS_L1CA
  else if (gnss_id =? 0) && (sig_id =? 3) then GPS_L2CL
  else if (gnss_id =? 0) && (sig_id =? 4) then GPS_L2CM
  else if (gnss_id =? 1) && (sig_id =? 0) then SBAS_L1CA
  else if (gnss_id =? 2) && (sig_id =? 0) then GAL_E1C
  else if (gnss_id =? 2) && (sig_id =? 1) then GAL_E1B
  else if (gnss_id =? 2) && (sig_id =? 5) then GAL_E7I
  else if (gnss_id =? 2) && (sig_id =? 6) then GAL_E7Q
  else if (gnss_id =? 3) && (sig_id =? 0) then BDS2_B1
  else if (gnss_id =? 3) && (sig_id =? 1) then BDS2_B1
  else if (gnss_id =? 3) && (sig_id =? 2) then BDS2_B2
  else if (gnss_id =? 3) && (sig_id =? 3) then BDS2_B2
  else if (gnss_id =? 5) && (sig_id =? 0) then QZS_L1CA
  else if (gnss_id =? 5) && (sig_id =? 4) then QZS_L2CM
  else if (gnss_id =? 5) && (sig_id =? 5) then QZS_L2CL
  else if (gnss_id =? 6) && (sig_id =? 0) then GLO_L1OF
  else if (gnss_id =? 6) && (sig_id =? 2) then GLO_L2OF
  else CODE_INVALID.

(** outcome of pack_carrier_phase / pack_doppler: undefined behaviour, "false" (output fields keep their indeterminate
    contents), or the packed value *)
Inductive packed := PackUb | PackRefused | Packed (i f : Z).
(** pack_carrier_phase: ubx_sbp.c:296-313.  floor of an infinity is infinite and fails the range test; for a NaN both comparisons are
    false and the conversion to s32 is undefined; L_out->i += 1 at INT32_MAX overflows. *)
Definition pack_carrier_phase (x : dbl) : packed :=
  match dfloor x with
  | None => if is_nan 53 1024 x then PackUb else PackRefused
  | Some li =>
      if (li <? - 2 ^ 31) || (2 ^ 31 - 1 <? li) then PackRefused
      else match dround (dmul (dsub x (dofZ li)) (dofZ 256)) with
           | None => PackUb
           | Some f => if 255 <? f then (if li =? 2 ^ 31 - 1 then PackUb else Packed (li + 1) 0) else Packed li f
           end
  end.
(** pack_doppler: ubx_sbp.c:316-333.  D_out->i (s16) += 1 is computed in int and converted back: 32768 becomes -32768. *)
Definition pack_doppler (x : dbl) : packed :=
  match dfloor x with
  | None => if is_nan 53 1024 x then PackUb else PackRefused
  | Some di =>
      if (di <? - 2 ^ 15) || (2 ^ 15 - 1 <? di) then PackRefused
      else match dround (dmul (dsub x (dofZ di)) (dofZ 256)) with
           | None => PackUb
           | Some f => if 255 <? f then Packed (if di + 1 =? 2 ^ 15 then - 2 ^ 15 else di + 1) 0 else Packed di f
           end
  end.
(** (u32)d: undefined outside (-1, 2^32) *)
Definition to_u32 (x : dbl) : option Z :=
  match dtrunc x with Some z => if (0 <=? z) && (z <? 2 ^ 32) then Some z else None | None => None end.
Definition to_s32 (x : dbl) : option Z :=
  match dtrunc x with Some z => if (- 2 ^ 31 <=? z) && (z <? 2 ^ 31) then Some z else None | None => None end.

(** sbp_packed_obs_content_t; None: the field keeps its indeterminate contents *)
Record ubx_obs := mk_ubx_obs { o_P : Z; o_L : option (Z * Z); o_D : option (Z * Z); o_cn0 : Z; o_lock : Z; o_flags : Z; o_sat : Z; o_code : code }.
Section WithLock.
Variable encode_lock_time : dbl -> Z.
(** the loop body of fill_msg_obs: ubx_sbp.c:378-400; None: undefined behaviour *)
Definition fill_obs (m : rawx_meas) : option ubx_obs :=
  match to_u32 (dmul (dofZ 50) (dofbits (rm_pseudorange m))) with
  | None => None
  | Some P =>
      match pack_carrier_phase (dofbits (rm_carrier_phase m)), pack_doppler (dofflt (fofbits (rm_doppler m))) with
      | PackUb, _ | _, PackUb => None
      | L, D =>
          let field p := match p with Packed i f => Some (i, f) | _ => None end in
          Some (mk_ubx_obs P (field L) (field D)
            (if 0x3F <? rm_cno m then 0xFF else 4 * rm_cno m)
            (encode_lock_time (ddiv (dofZ (rm_lock_time m)) (dofZ 1000)))
            (Z.lor 8 (Z.land (rm_track_state m) 7))
            (rm_sat_id m) (convert_ubx_gnssid_sigid (rm_gnss_id m) (rm_sig_id m)))
      end
  end.
Fixpoint fill_all (l : list rawx_meas) : option (list ubx_obs) :=
  match l with
  | [] => Some []
  | m :: r => match fill_obs m with
              | Some o => match fill_all r with Some os => Some (o :: os) | None => None end
              | None => None
              end
  end.
(** the time part of fill_msg_obs: ubx_sbp.c:358-375.  modf splits exactly into trunc and remainder.  wn is u16. *)
Record ubx_time := mk_ubx_time { t_tow : Z; t_ns : Z; t_wn : Z }.
Definition fill_time (m : rawx) : option ubx_time :=
  let ms := dmul (dofZ 1000) (dofbits (rx_rcv_tow m)) in
  match dtrunc ms with
  | None => None
  | Some tow =>
      let ns := dmul (dofZ 1000000) (dsub ms (dofZ tow)) in
      match to_s32 ns with
      | None => None
      | Some ns =>
          if (0 <=? tow) && (tow <? 2 ^ 32) then
            let wn := if rx_rcv_wn m =? 0 then 65535 else rx_rcv_wn m in
            Some (if 500000 <? ns then mk_ubx_time ((tow + 1) mod 2 ^ 32) (ns - 1000000) wn else mk_ubx_time tow ns wn)
          else None
      end
  end.
End WithLock.

(** an SbpMsgObs handed to the callback: header time, header.n_obs, the n_obs observations *)
Record obs_msg (T O : Type) := mk_obs_msg { om_time : T; om_n_obs : Z; om_obs : list O }.
Arguments mk_obs_msg {T O}. Arguments om_time {T O}. Arguments om_n_obs {T O}. Arguments om_obs {T O}.
(** the loop of handle_rxm_rawx: ubx_sbp.c:1218-1234; header.n_obs is u8; [n] messages left *)
Fixpoint split_loop {T O} (t : T) (obs : list O) (total msg_num : Z) (n : nat) : list (obs_msg T O) :=
  match n with
  | O => []
  | S k => mk_obs_msg t ((total * 16 + msg_num) mod 256) (take 14 (drop (msg_num * 14) obs)) :: split_loop t obs total (msg_num + 1) k
  end.
(** handle_rxm_rawx: ubx_sbp.c:1190-1236; total_messages is u8 *)
Definition split_obs {T O} (t : T) (obs : list O) : list (obs_msg T O) :=
  let n := len obs in
  let total := if 0 <? n then (1 + (n - 1) / 14) mod 256 else 1 in
  split_loop t obs total 0 (Z.to_nat total).
(** the observation part of handle_rxm_rawx; None: undefined behaviour *)
Definition handle_rxm_rawx (elt : dbl -> Z) (m : rawx) : option (list (obs_msg ubx_time ubx_obs)) :=
  match fill_time m, fill_all elt (rx_meas m) with
  | Some t, Some os => Some (split_obs t os)
  | _, _ => None
  end.
