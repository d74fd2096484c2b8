(** The MSM4-MSM7 payload layout and the meaning of its fields (RTCM 10403.3, tables 3.5-78 .. 3.5-98), independent of the code.
    Units as in RtcmMsm_spec: ranges 2^-31 ms, range rates 0.0001 m/s, C/N0 1/16 dB-Hz, lock times 1 ms. *)
From Verif Require Import Base Bitstring Bits_model Bitstream_model RtcmStation_spec RtcmMsm_model RtcmMsm_spec.

(** the columns after the header: DF397, DF-extended info, DF398, DF399 per satellite; DF400/405, DF401/406, DF402/407, DF420,
    DF403/408, DF404 per cell *)
Record wcols := mkwcols { w_int : list Z; w_info : list Z; w_mod : list Z; w_rate : list Z;
  w_pr : list Z; w_cp : list Z; w_lock : list Z; w_hca : list bool; w_cnr : list Z; w_dop : list Z }.
(** MSM5 and MSM7 carry range rates; MSM6 and MSM7 have the extended resolution *)
Definition with_rates (ty : Z) : bool := (ty =? 5) || (ty =? 7).
Definition hi_res (ty : Z) : bool := (ty =? 6) || (ty =? 7).
Definition pr_bits ty : Z := if hi_res ty then 20 else 15.
Definition cp_bits ty : Z := if hi_res ty then 24 else 22.
Definition lock_bits ty : Z := if hi_res ty then 10 else 4.
Definition cnr_bits ty : Z := if hi_res ty then 10 else 6.
Definition column (n : Z) (vs : list Z) : list field := map (pair n) vs.
Definition flags (l : list bool) : list field := map (fun b : bool => (1, Z.b2z b)) l.
Definition wire_header (h : mhdr) : list field :=
  [(12, mh_num h); (12, mh_stn h)] ++
  (if cons_eqb (to_constellation (mh_num h)) cGLO then [(3, mh_tow h / DAY_MS); (27, mh_tow h mod DAY_MS)] else [(30, mh_tow h)]) ++
  [(1, mh_multiple h); (3, mh_iods h); (7, mh_reserved h); (2, mh_steering h); (2, mh_ext_clock h); (1, mh_div h); (3, mh_smooth h)] ++
  flags (sat_mask h) ++ flags (sig_mask h) ++ flags (cell_mask h).
Definition wire_columns (ty : Z) (w : wcols) : list field :=
  column 8 (w_int w) ++ (if with_rates ty then column 4 (w_info w) else []) ++ column 10 (w_mod w) ++
  (if with_rates ty then column 14 (w_rate w) else []) ++
  column (pr_bits ty) (w_pr w) ++ column (cp_bits ty) (w_cp w) ++ column (lock_bits ty) (w_lock w) ++ flags (w_hca w) ++
  column (cnr_bits ty) (w_cnr w) ++ (if with_rates ty then column 15 (w_dop w) else []).
Definition cols_ok (ty ns nc : Z) (w : wcols) : Prop :=
  (len (w_int w) = ns /\ len (w_info w) = ns /\ len (w_mod w) = ns /\ len (w_rate w) = ns) /\
  (len (w_pr w) = nc /\ len (w_cp w) = nc /\ len (w_lock w) = nc /\ len (w_hca w) = nc /\ len (w_cnr w) = nc /\ len (w_dop w) = nc) /\
  Forall (ubits 8) (w_int w) /\ Forall (ubits 4) (w_info w) /\ Forall (ubits 10) (w_mod w) /\ Forall (sbits 14) (w_rate w) /\
  Forall (sbits (pr_bits ty)) (w_pr w) /\ Forall (sbits (cp_bits ty)) (w_cp w) /\ Forall (ubits (lock_bits ty)) (w_lock w) /\
  Forall (ubits (cnr_bits ty)) (w_cnr w) /\ Forall (sbits 15) (w_dop w).

(** DF402: minimum lock time 2^(i+4) ms, 0 for indicator 0.  DF407: i ms up to 64; beyond, each block of 32 indicators doubles
    the step: 2^k (i - 32 k) with k = i/32 - 1; 67108864 ms for 704 and above. *)
Definition lock_ms (ty l : Z) : Z :=
  if hi_res ty then (if l <? 64 then l else if l <? 704 then let k := l / 32 - 1 in 2 ^ k * (l - 32 * k) else 67108864)
  else if l =? 0 then 0 else 2 ^ (l + 4).
Definition is_glo (h : mhdr) : bool := cons_eqb (to_constellation (mh_num h)) cGLO.
(** rough range: DF397 ms + DF398/1024 ms; DF397 = 255: not available *)
Definition sat_meaning (ty : Z) (h : mhdr) (w : wcols) (s : Z) (x : msat) : Prop :=
  (znth 0 s (w_int w) <> 255 -> rough_range x = (1024 * znth 0 s (w_int w) + znth 0 s (w_mod w)) * 2 ^ 21) /\
  rough_rate x = (if with_rates ty then 10000 * znth 0 s (w_rate w) else 0) /\
  glo_fcn x = (if with_rates ty then znth 0 s (w_info w) else if is_glo h then 255 else 0).
(** cell [i] of satellite [s]: every quantity is valid iff neither its satellite's rough part nor its fine part is the
    "not available" pattern (the most negative value; 0 for C/N0), and then has the value the standard gives it *)
Definition sig_meaning (ty : Z) (w : wcols) (i s : Z) (g : msig) : Prop :=
  let rough := (1024 * znth 0 s (w_int w) + znth 0 s (w_mod w)) * 2 ^ 21 in
  (sv_pr g = true <-> znth 0 s (w_int w) <> 255 /\ znth 0 i (w_pr w) <> - 2 ^ (pr_bits ty - 1)) /\
  (sv_pr g = true -> s_pr g = rough + znth 0 i (w_pr w) * (if hi_res ty then 2 ^ (31 - 29) else 2 ^ (31 - 24))) /\
  (sv_cp g = true <-> znth 0 s (w_int w) <> 255 /\ znth 0 i (w_cp w) <> - 2 ^ (cp_bits ty - 1)) /\
  (sv_cp g = true -> s_cp g = rough + znth 0 i (w_cp w) * (if hi_res ty then 2 ^ (31 - 31) else 2 ^ (31 - 29))) /\
  (sv_lock g = true /\ s_lock g = lock_ms ty (znth 0 i (w_lock w))) /\
  s_hca g = znth false i (w_hca w) /\
  (sv_cnr g = true <-> znth 0 i (w_cnr w) <> 0) /\
  (sv_cnr g = true -> s_cnr g = znth 0 i (w_cnr w) * (if hi_res ty then 1 else 16)) /\
  (sv_dop g = true <-> with_rates ty = true /\ znth 0 s (w_rate w) <> -8192 /\ znth 0 i (w_dop w) <> -16384) /\
  (sv_dop g = true -> s_rate g = 10000 * znth 0 s (w_rate w) + znth 0 i (w_dop w)).
Definition msm_meaning (ty : Z) (h : mhdr) (w : wcols) (m : mmsg) : Prop :=
  hdr_received h (m_hdr m) /\
  len (m_sats m) = set_count (sat_mask h) /\ (forall s, 0 <= s < set_count (sat_mask h) -> sat_meaning ty h w s (znth no_sat s (m_sats m))) /\
  len (m_sigs m) = set_count (cell_mask h) /\
  (forall i s g, 0 <= i < set_count (cell_mask h) -> cell_is (cell_mask h) (set_count (sig_mask h)) i s g ->
     sig_meaning ty w i s (znth no_sig i (m_sigs m))).
