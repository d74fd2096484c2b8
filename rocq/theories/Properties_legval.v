(** C68: an SBP observation epoch converted to the legacy messages 1004 and 1012 and back. *)
From Coq Require Import Reals Lra.
From Verif Require Import Base Bits_model Bitstream_model Time_model RtcmFraming_model RtcmFraming_spec RtcmLegacy_model RtcmMsm_model Signals_model Double_model
  Sbp2Rtcm_model MsmVal_model MsmVal_spec StaConv_model StaConv_spec StaConv_wire_proofs LegVal_model LegVal_spec LegVal_sat_proofs LegVal_epoch_proofs Properties_msmval.
Import ListNotations.
Open Scope Z_scope.

(** An SBP observation epoch becomes at most two RTCM frames, message 1004 for GPS and 1012 for GLONASS.  However the bytes are cut into reads, the receiver
    gets exactly these frames; each is decoded, has the station, the time and the sync flag of the epoch, and yields for every transmitted satellite the
    observations of its first and second signal: pseudorange integer unchanged (GPS with a number of whole light-milliseconds ending in 5: within one unit of
    2 cm), carrier phase integers unchanged up to a multiple of 1500 cycles, which is 0 if phase and pseudorange agree within 262 m, C/N0 unchanged; an observation is
    lost only if its phase is more than 262 m from the pseudorange.  Nothing else comes out and no step is undefined, whatever the machine makes of an
    out-of-range conversion ([wild]). *)
Theorem C68_obs_to_legacy_and_back_partial (wild : dbl -> Z) (code_of : Z -> code) (num_of : code -> Z) fcns leap e :
  (forall k, code_of (num_of k) = k) -> fcn_map_ok fcns -> 0 <= oh_tow (e_hdr e) < 604800000 -> -128 <= leap <= 127 ->
  fits code_of GPS fcns (e_obs e) -> fits code_of GLO fcns (e_obs e) -> Forall leg_in_range (e_obs e) ->
  (forall s, Forall (entry_ok s fcns) (usable_entries code_of s fcns (e_obs e))) ->
  exists fs, legacy_frames wild code_of fcns (Some leap) e = Ok fs /\
    (forall chunks, Forall good_read chunks -> concat chunks = concat fs -> exists r, RtcmFraming_model.run chunks = Some (r, fs)) /\
    Forall2 (fun s f => frame_type (payload_of f) = match s with GPS => 1004 | GLO => 1012 end /\
      exists m rs, run_dec (decode_leg s) (payload_of f) = Ok m /\ rx_hdr m = leg_header code_of s fcns leap e /\
        Forall2 (entry_outcome code_of s fcns) (usable_entries code_of s fcns (e_obs e)) rs /\
        leg_to_sbp num_of s m = Some (concat (map (fun r => opt_list (fst r) ++ opt_list (snd r)) rs)))
      (systems_sent code_of fcns (e_obs e)) fs.
Proof.
  intros NUM FM TOW LK F1 F2 RG EO. destruct (epoch_trip wild code_of num_of NUM fcns FM leap e TOW LK F1 F2 RG EO) as (fs & E & F).
  exists fs. split; [exact E|]. split.
  - intros chunks G C. apply frames_delivered; [|exact G|exact C]. clear - F. induction F as [|s f ss fs H F IH]; constructor; [apply H|exact IH].
  - clear - F. induction F as [|s f ss fs H F IH]; constructor; [|exact IH]. destruct H as (_ & T & m & rs & A & B & C & D). split; [rewrite T; destruct s; reflexivity|].
    exists m, rs. split; [exact A|]. split; [exact B|]. split; [exact C|exact D].
Qed.

(** ** a concrete case *)
Definition zero_wild : dbl -> Z := fun _ => 0.
Definition chain (wild : dbl -> Z) (fcns : list Z) (leap : option Z) (e : epoch) : option (list (res (option (hdr * list pobs)))) :=
  match legacy_frames wild ex_code_of fcns leap e with
  | Ok fs => Some (map (fun f =>
      let s := if frame_type (payload_of f) =? 1004 then GPS else GLO in
      match run_dec (decode_leg s) (payload_of f) with
      | Ok m => Ok (match leg_to_sbp ex_num_of s m with Some l => Some (rx_hdr m, l) | None => None end)
      | TypeMismatch => TypeMismatch | Invalid => Invalid | Ub => Ub
      end) fs)
  | _ => None
  end.
(** GPS 5 on L1 and L2, GPS 12 with an unresolved half-cycle ambiguity (not transmitted), GLONASS 7 on L1 *)
Definition leg_epoch : epoch := mkepoch 0x1234 (mkohdr 345600200 0 2190 16)
  [mkpobs 1061728394 111588407 107 3217 229 180 9 15 5 (ex_num_of GPS_L1CA); mkpobs 1061728562 86952019 117 2507 115 160 9 15 5 (ex_num_of GPS_L2CM);
   mkpobs 1200006172 126121499 250 (-1752) 127 171 5 11 12 (ex_num_of GPS_L1CA); mkpobs 999999975 106911459 99 (-5354) 104 200 12 15 7 (ex_num_of GLO_L1OF)].
Lemma ex_fits s : fits ex_code_of s ex_fcns (e_obs leg_epoch).
Proof.
  destruct s; split; [|split; [|split]| |split; [|split]];
    try (repeat (apply Forall_cons; [vm_compute; intros; split; discriminate|]); apply Forall_nil); try (vm_compute; discriminate);
    vm_compute; repeat (apply NoDup_cons; [cbn; intuition congruence|]); apply NoDup_nil.
Qed.
Lemma ex_leg_range : Forall leg_in_range (e_obs leg_epoch).
Proof. cbn [leg_epoch e_obs]. repeat (apply Forall_cons; [unfold leg_in_range, flag, byte; cbn; repeat split; lia|]). apply Forall_nil. Qed.
Lemma ex_entries_ok s : Forall (entry_ok s ex_fcns) (usable_entries ex_code_of s ex_fcns (e_obs leg_epoch)).
Proof.
  assert (EG : usable_entries ex_code_of GPS ex_fcns (e_obs leg_epoch) = [(mkpobs 1061728394 111588407 107 3217 229 180 9 15 5 0, Some (mkpobs 1061728562 86952019 117 2507 115 160 9 15 5 5))]) by (vm_compute; reflexivity).
  assert (ER : usable_entries ex_code_of GLO ex_fcns (e_obs leg_epoch) = [(mkpobs 999999975 106911459 99 (-5354) 104 200 12 15 7 16, None)]) by (vm_compute; reflexivity).
  destruct s; [rewrite EG|rewrite ER]; (apply Forall_cons; [|apply Forall_nil]); unfold entry_ok, close_pair, phase_within, phase_of, range_m, C_M_S; cbn [fst snd o_P o_Li o_Lf].
  - split; [|split; [split; vm_compute; discriminate|intros _]]; cbn [hz]; apply Rabs_le; lra.
  - split; [|exact I]. assert (H : hz GLO false (channel GLO ex_fcns (mkpobs 999999975 106911459 99 (-5354) 104 200 12 15 7 16)) = 1602562500) by (vm_compute; reflexivity). rewrite H. apply Rabs_le. lra.
Qed.
Example C68_nonvacuous :
  (forall k, ex_code_of (ex_num_of k) = k) /\ fcn_map_ok ex_fcns /\ fits ex_code_of GPS ex_fcns (e_obs leg_epoch) /\ fits ex_code_of GLO ex_fcns (e_obs leg_epoch) /\
  Forall leg_in_range (e_obs leg_epoch) /\ (forall s, Forall (entry_ok s ex_fcns) (usable_entries ex_code_of s ex_fcns (e_obs leg_epoch))) /\
  chain zero_wild ex_fcns (Some 18) leg_epoch
  = Some [Ok (Some (mkhdr 0x234 345600200 1 0 0, [mkpobs 1061728394 111588407 107 0 0 180 8 7 5 0; mkpobs 1061728562 86952019 117 0 0 160 8 7 5 5]));
          Ok (Some (mkhdr 0x234 10782200 0 0 0, [mkpobs 999999975 106911459 99 0 0 200 11 7 7 16]))].
Proof.
  split; [exact ex_numbering|]. split; [exact ex_map_ok|]. split; [exact (ex_fits GPS)|]. split; [exact (ex_fits GLO)|]. split; [exact ex_leg_range|]. split; [exact ex_entries_ok|].
  vm_compute. reflexivity.
Qed.

(** ** what is missing for "what arrives is what was sent" *)
Definition one_epoch (l : list pobs) : epoch := mkepoch 0x1234 (mkohdr 345600200 0 2190 16) l.
(** the pseudorange may arrive one unit (2 cm) off: *)
Theorem C68_pseudorange_refuted :
  chain zero_wild ex_fcns (Some 18) (one_epoch [mkpobs 1133618899 119144166 0 0 0 180 9 7 5 0]) =
  Some [Ok (Some (mkhdr 0x234 345600200 0 0 0, [mkpobs 1133618900 119144166 0 0 0 180 8 7 5 0]))].
Proof. vm_compute. reflexivity. Qed.
(** P-code observations arrive as C/A (and L2C) observations: *)
Theorem C68_p_code_refuted :
  chain zero_wild ex_fcns (Some 18) (one_epoch [mkpobs 1061728394 111588407 107 0 0 180 9 7 5 (ex_num_of GPS_L1P); mkpobs 1061728562 86952019 117 0 0 160 9 7 5 (ex_num_of GPS_L2P)]) =
  Some [Ok (Some (mkhdr 0x234 345600200 0 0 0, [mkpobs 1061728394 111588407 107 0 0 180 8 7 5 (ex_num_of GPS_L1CA); mkpobs 1061728562 86952019 117 0 0 160 8 7 5 (ex_num_of GPS_L2CM)]))].
Proof. vm_compute. reflexivity. Qed.
(** an L2 pseudorange below the whole-millisecond part of the L1 pseudorange: what arrives depends on an undefined conversion.  A machine that wraps
    modulo 2^32 gets it right, one that saturates at 0 is 80 m off: *)
Theorem C68_undefined_conversion_refuted : let e := one_epoch [mkpobs 1064263236 111854822 0 0 0 180 9 7 5 0; mkpobs 1064259236 87159603 0 0 0 160 9 7 5 5] in
  chain (fun x => match dround x with Some z => z | None => 0 end) ex_fcns (Some 18) e =
    Some [Ok (Some (mkhdr 0x234 345600200 0 0 0, [mkpobs 1064263236 111854822 0 0 0 180 8 7 5 0; mkpobs 1064259236 87159603 0 0 0 160 8 7 5 5]))] /\
  chain zero_wild ex_fcns (Some 18) e = Some [Ok (Some (mkhdr 0x234 345600200 0 0 0, [mkpobs 1064263236 111854822 0 0 0 180 8 7 5 0; mkpobs 1064263226 87159603 0 0 0 160 8 7 5 5]))].
Proof. vm_compute. split; reflexivity. Qed.
(** 32 usable GPS satellites: the 5-bit satellite count wraps and nothing arrives *)
Definition crowd : list pobs := map (fun k => mkpobs 1061728394 111588407 107 0 0 180 9 7 (Z.of_nat k) 0) (seq 1 32).
Theorem C68_32_satellites_refuted : chain zero_wild ex_fcns (Some 18) (one_epoch crowd) = Some [Ok (Some (mkhdr 0x234 345600200 0 0 0, []))].
Proof. vm_compute. reflexivity. Qed.
(** with a 33rd first-signal observation (C/A and P of one satellite count twice) the encoder writes past its array of 32 satellites: undefined *)
Theorem C68_33_first_signals_refuted : chain zero_wild ex_fcns (Some 18) (one_epoch (crowd ++ [mkpobs 1061728394 111588407 107 0 0 180 9 7 1 1])) = None.
Proof. vm_compute. reflexivity. Qed.
(** a GLONASS epoch while the leap second offset is unknown: a frame is sent, and the receiver rejects it *)
Theorem C68_no_leap_second_refuted :
  chain zero_wild ex_fcns None (one_epoch [mkpobs 999999975 106911459 99 0 0 200 12 7 7 16]) = Some [Invalid].
Proof. vm_compute. reflexivity. Qed.
(** C21 in double arithmetic: the time of week and of day that compute_glo_tow_ms and compute_glo_tod_ms compute with doubles are the integers of Time_model.v. *)
Theorem C21_glo_time_in_doubles : forall tow leap, 0 <= tow < 604800000 -> -128 <= leap <= 127 ->
  glo_tow_d tow (Some leap) = compute_glo_tow_ms tow (Some leap) /\ glo_tod_d tow (Some leap) = compute_glo_tod_ms tow (Some leap).
Proof.
  intros tow leap HT HL. assert (E : compute_glo_tow_ms tow (Some leap) = Some ((tow + 10800000 - 1000 * leap) mod 604800000)).
  { unfold compute_glo_tow_ms, WEEK_MS, HOUR_MS. cbv zeta. replace (tow + 3 * 3600000 - leap * 1000) with (tow + 10800000 - 1000 * leap) by ring. set (n := tow + 10800000 - 1000 * leap).
    assert (0 <= n < 615728001) by (unfold n; lia). destruct (Z.ltb_spec n 0); [lia|]. destruct (Z.leb_spec 604800000 n).
    - destruct (Z.leb_spec 0 (n - 604800000)); [|lia]. destruct (Z.ltb_spec (n - 604800000) (604800000 + 1000)); [|lia]. cbn [andb].
      replace n with (n - 604800000 + 1 * 604800000) at 2 by ring. rewrite Z.mod_add by lia. reflexivity.
    - destruct (Z.leb_spec 0 n); [|lia]. destruct (Z.ltb_spec n (604800000 + 1000)); [|lia]. reflexivity. }
  unfold glo_tod_d, compute_glo_tod_ms. rewrite glo_tow_exact, E by assumption. split; reflexivity.
Qed.

Print Assumptions C21_glo_time_in_doubles.
Print Assumptions C68_obs_to_legacy_and_back_partial.
Print Assumptions C68_nonvacuous.
Print Assumptions C68_pseudorange_refuted.
Print Assumptions C68_p_code_refuted.
Print Assumptions C68_undefined_conversion_refuted.
Print Assumptions C68_32_satellites_refuted.
Print Assumptions C68_33_first_signals_refuted.
Print Assumptions C68_no_leap_second_refuted.
