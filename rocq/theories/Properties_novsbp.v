(** C59, C60: what nov2sbp sends for NovAtel ranges, positions, velocities, attitudes and ephemerides.
    [geoid], [cosf], [sinf], [elt] (lock time encoding) and [sid_valid] are library functions outside /repo: theorems hold for all of them. *)
From Coq Require Import Reals Lra.
From Flocq Require Import Core IEEE754.Binary IEEE754.Bits.
From Verif Require Import Base Bytestream_model Double_model Double_proofs Esf_model Ixcom_model Signals_model Novatel_model Novatel_spec Novatel_proofs SbpEph_model SbpEph_spec Exact_proofs
  NovSbp_model NovSbp_spec NovSbp_proofs NovPos_proofs NovVal_proofs.
Open Scope Z_scope.

Section P.
Variables (elt : dbl -> Z) (sid_valid : Z -> code -> bool) (geoid : dbl -> dbl -> dbl) (cosf sinf : dbl -> dbl).
Notation step := (nov_step elt sid_valid geoid cosf sinf).
Notation run := (nov_run elt sid_valid geoid cosf sinf).

(** ** C59 *)
(** A RANGECMP log with at least one record is sent as ceil(n/14) observation messages numbered 0, 1, ... of that total, each of at most 14 observations, all with the time of the
    log's header; the observations are, in order, those of the records that fit an SBP observation, and report their measurements.  (Partly true: an empty log is not handled, see
    below; and the meaning of the phase flag and of GLONASS numbers is not the documented one, see below.) *)
Theorem C59_observations_partial : forall st h body l, bytes body -> body_meaning 140 body (NRange l) -> l <> [] -> 0 <= nh_ms h < 2 ^ 31 ->
  exists out wn tow, step st (h, NRange l) = Some (st, out) /\
    (if 604800000 <=? nh_ms h then wn = (nh_week h + 1) mod 65536 /\ tow = nh_ms h - 604800000 else wn = nh_week h /\ tow = nh_ms h) /\
    len out = (len l + 13) / 14 /\ 1 <= len out <= 5 /\
    (forall i, 0 <= i < len out -> exists os, znth (OImuAux 0 0 0) i out = OObs wn tow 0 (16 * len out + i) os /\ len os <= 14) /\
    Forall2 (carries elt) (filter (sendable sid_valid code_of) l) (flat_map obs_in out).
Proof.
  intros st h body l B M NE T.
  assert (R : Forall range_fields l /\ len l <= 63).
  { inversion M as [|n encs rs I U Eb Ln F24 F2]; subst. split.
    - assert (BE : Forall bytes encs). { apply bytes_concat. apply Forall_app in B. apply B. }
      rewrite <- (take_drop 63 encs) in BE. apply Forall_app in BE. destruct BE as [BE _].
      clear -F2 BE. induction F2 as [|e r es rs E _ IH]; [constructor|]. inversion BE; subst. constructor; [exact (record_fields e r H1 E)|apply IH; assumption].
    - assert (E : len l = len (take 63 encs)) by (unfold len; f_equal; clear -F2; induction F2; cbn; congruence). rewrite E, len_take. lia. }
  destruct R as [R L]. assert (0 < len l). { destruct l; [congruence|]. rewrite len_cons. pose proof (len_nonneg l). lia. }
  unfold nov_step, write_range_cmp. destruct (Z.eqb_spec (len l) 0); [lia|]. rewrite obs_time_spec by exact T.
  assert (MN : Z.min ((len l + 13) / 14) 15 = (len l + 13) / 14) by lia. rewrite MN.
  set (t := if 604800000 <=? nh_ms h then _ else _). assert (Ht : exists wn tow, t = (wn, tow, 0) /\
    (if 604800000 <=? nh_ms h then wn = (nh_week h + 1) mod 65536 /\ tow = nh_ms h - 604800000 else wn = nh_week h /\ tow = nh_ms h)).
  { unfold t. destruct (604800000 <=? nh_ms h); repeat eexists. }
  destruct Ht as (wn & tow & -> & Hw).
  destruct (obs_loop_spec elt sid_valid wn tow 0 ((len l + 13) / 14) (Z.to_nat ((len l + 13) / 14)) 0 l R ltac:(lia) ltac:(lia) ltac:(lia)) as (out & E & LO & MO & FO).
  cbv zeta. rewrite E. exists out, wn, tow. rewrite Z2Nat.id in LO by lia. rewrite LO. split; [reflexivity|]. split; [exact Hw|]. split; [reflexivity|]. split; [lia|]. split; [|exact FO].
  intros i I. rewrite <- LO in I. destruct (MO i I) as (os & Q & N). exists os. rewrite Q. split; [f_equal; lia|exact N].
Qed.
(** the records of a log are in range, so the hypotheses are met *)
Example C59_met : exists r, range_fields r /\ code_of r = GPS_L1CA /\ Z.testbit (rc_tracking_status r) 12 = true /\
  (sid_valid 7 GPS_L1CA = true -> sendable sid_valid code_of r = true).
Proof.
  exists (mk_rcrec 0x1c00 (-1234567) 2816000000 (-123456789) 5 5 7 640 25 0 0). split; [unfold range_fields; cbn; lia|]. split; [reflexivity|]. split; [reflexivity|].
  intros S. unfold sendable. cbn [rc_prn_slot]. change (code_of _) with GPS_L1CA. rewrite S. reflexivity.
Qed.
(** refuted: a log without records (the receiver tracks nothing) makes the converter cast a negative double to an unsigned integer *)
Theorem C59_empty_refuted : forall st h, exists body, bytes body /\ body_meaning 140 body (NRange []) /\ step st (h, NRange []) = None.
Proof.
  intros st h. exists [0; 0; 0; 0]. split; [repeat constructor; unfold byte; lia|]. split; [|reflexivity].
  apply (bm_range 140 _ 0 [] []); try reflexivity; try constructor; unfold ufits; cbn; lia.
Qed.
(** refuted: the carrier phase is declared valid although the receiver reports that the phase is not locked *)
Theorem C59_phase_flag_refuted : exists r, range_fields r /\ Z.testbit (rc_tracking_status r) 10 = false /\
  forall o, carries elt r o -> Z.testbit (no_flags o) 1 = true.
Proof.
  exists (mk_rcrec 0x1800 0 2816000000 0 5 5 7 640 25 0 0). split; [unfold range_fields; cbn; lia|]. split; [reflexivity|].
  intros o C. unfold carries in C. cbv zeta in C. destruct C as (_ & _ & _ & _ & _ & _ & _ & _ & _ & _ & _ & _ & _ & ->). reflexivity.
Qed.
(** refuted: NovAtel numbers GLONASS satellites 38..61 (slot + 37); the number is not translated, so with the SBP numbering 1..28 no GLONASS observation is sent *)
Theorem C59_glonass_refuted : (forall sat c, (c = GLO_L1OF \/ c = GLO_L2OF) -> sid_valid sat c = true -> 1 <= sat <= 28) ->
  forall r, range_fields r -> code_of r = GLO_L1OF \/ code_of r = GLO_L2OF -> 38 <= rc_prn_slot r <= 61 -> sendable sid_valid code_of r = false.
Proof.
  intros H r R C S. unfold sendable. destruct (sid_valid (rc_prn_slot r) (code_of r)) eqn:V; [|reflexivity]. apply H in V; [lia|exact C].
Qed.

(** ** C60 *)
(** Whenever a position or velocity is sent, the latest time message sent says the week and time of week of the log it comes from, and the message carries this time of week *)
Theorem C60_time_known : forall cs h f st out, run nstate0 (cs ++ [(h, NFields f)]) = Some (st, out) -> nh_id h = 42 \/ nh_id h = 99 -> 0 <= nh_ms h < 2 ^ 32 ->
  exists before m, out = before ++ [m] /\ last_time before = Some (nh_week h, nh_ms h, 0, 1) /\
    match m with OPos tow _ _ _ _ _ _ _ => nh_id h = 42 /\ tow = nh_ms h | OVel tow _ _ _ _ => nh_id h = 99 /\ tow = nh_ms h | _ => False end.
Proof.
  intros cs h f st out R I B. rewrite run_app in R. destruct (run nstate0 cs) as [[s1 o1]|] eqn:R1; [|discriminate].
  cbn [nov_run] in R. destruct (step s1 (h, NFields f)) as [[s2 o2]|] eqn:S; [|discriminate].
  assert (Q := f_equal (fun o => match o with Some p => snd p | None => [] end) R). cbv beta iota in Q. cbn [snd] in Q. rewrite app_nil_r in Q. subst out.
  assert (F : fix_msg h (NFields f)) by (split; [exact I|eauto]).
  destruct (step_fix _ _ _ _ _ _ _ _ _ _ F S) as (T & m & NT & O & f' & _ & K).
  assert (U : u32 (nh_ms h) = nh_ms h) by (apply Z.mod_small; exact B).
  pose proof (run_time _ _ _ _ _ _ _ _ _ R1) as TI. unfold time_inv in TI.
  assert (KM : match m with OPos tow _ _ _ _ _ _ _ => nh_id h = 42 /\ tow = nh_ms h | OVel tow _ _ _ _ => nh_id h = 99 /\ tow = nh_ms h | _ => False end).
  { destruct K as [(K1 & (a & b & c & d & e & ->) & _)|(K1 & (a & b & c & ->) & _)]; split; assumption. }
  destruct O as [[-> O]|[-> O]].
  - exists o1, m. split; [reflexivity|]. split; [|exact KM]. rewrite O in TI. unfold hdr_time in TI. rewrite U in TI.
    destruct (last_time o1) as [t|]; [congruence|]. cbn [nstate0 ns_time] in TI. exfalso. congruence.
  - exists (o1 ++ [OTime (nh_week h) (u32 (nh_ms h)) 0 1]), m. split; [rewrite <- app_assoc; reflexivity|]. split; [|exact KM].
    rewrite last_time_app. cbn [last_time]. rewrite U. reflexivity.
Qed.
(** no time message repeats the one before it *)
Theorem C60_time_not_repeated : forall cs st out, run nstate0 cs = Some (st, out) -> forall a w t n f b w' t' n' f' c,
  out = a ++ OTime w t n f :: b ++ OTime w' t' n' f' :: c -> last_time b = None -> (w, t, n, f) <> (w', t', n', f').
Proof.
  intros cs st out R a w t n f b w' t' n' f' c E N. apply run_changing in R. subst out. rewrite times_app in R. cbn [times] in R. rewrite times_app in R. cbn [times] in R.
  assert (TB : times b = []).
  { clear -N. induction b as [|m b IH]; [reflexivity|]. cbn [last_time] in N. destruct (last_time b) eqn:L; [discriminate|]. specialize (IH eq_refl). destruct m; try discriminate; exact IH. }
  rewrite TB in R. cbn [app] in R. exact (changing_split _ _ _ _ _ _ R eq_refl).
Qed.
(** A velocity has the fix mode of the last position before it, if that has the same time of week, and "invalid" otherwise *)
Theorem C60_velocity_mode : forall cs1 hp fp cs2 hv fv st out, run nstate0 (cs1 ++ [(hp, NFields fp)] ++ cs2 ++ [(hv, NFields fv)]) = Some (st, out) ->
  nh_id hp = 42 -> nh_id hv = 99 -> (forall h b, In (h, b) cs2 -> nh_id h <> 42) -> 0 <= nh_ms hp < 2 ^ 32 -> 0 <= nh_ms hv < 2 ^ 32 ->
  exists before tow n e d flags, out = before ++ [OVel tow n e d flags] /\
    (nh_ms hv = nh_ms hp -> (exists lat lon height ha va ns, In (OPos (nh_ms hp) lat lon height ha va ns flags) before) /\
       (pos_mode (fld fp 1) flags \/ flags = 1 /\ forall k, ~ pos_mode (fld fp 1) k)) /\
    (nh_ms hv <> nh_ms hp -> flags = 0).
Proof.
  intros cs1 hp fp cs2 hv fv st out R IP IV N BP BV. rewrite run_app in R. destruct (run nstate0 cs1) as [[s1 o1]|] eqn:R1; [|discriminate].
  rewrite run_app in R. cbn [nov_run] in R. destruct (step s1 (hp, NFields fp)) as [[s2 o2]|] eqn:S2; [|discriminate].
  rewrite run_app in R. destruct (run s2 cs2) as [[s3 o3]|] eqn:R3; [|discriminate].
  cbn [nov_run] in R. destruct (step s3 (hv, NFields fv)) as [[s4 o4]|] eqn:S4; [|discriminate].
  assert (Q := f_equal (fun o => match o with Some p => snd p | None => [] end) R). cbv beta iota in Q. cbn [snd] in Q. rewrite !app_nil_r in Q. subst out. clear R.
  assert (U : forall z, 0 <= z < 2 ^ 32 -> u32 z = z) by (intros; apply Z.mod_small; assumption).
  destruct (step_fix _ _ _ _ _ _ _ _ _ _ (conj (or_introl IP) (ex_intro _ fp eq_refl)) S2) as (_ & mp & _ & OP & f' & Ef & KP). injection Ef as <-.
  destruct KP as [(_ & (lat & lon & hh & ha & va & MP) & PT & PF)|(K & _)]; [|lia].
  destruct (run_pf _ _ _ _ _ _ N _ _ _ R3) as [PT3 PF3].
  destruct (step_fix _ _ _ _ _ _ _ _ _ _ (conj (or_intror IV) (ex_intro _ fv eq_refl)) S4) as (_ & mv & _ & OV & f' & _ & KV).
  destruct KV as [(K & _)|(_ & (n & e & d & MV) & _)]; [lia|].
  rewrite PT3, PF3, PT, PF, !U in MV by assumption.
  exists (o1 ++ o2 ++ o3 ++ (if list_eq_dec Z.eq_dec [len o4] [1] then [] else [OTime (nh_week hv) (u32 (nh_ms hv)) 0 1])).
  exists (nh_ms hv), n, e, d, (if nh_ms hv =? nh_ms hp then position_flags (fld fp 1) else 0). split.
  - destruct OV as [[-> _]|[-> _]]; rewrite MV; cbn [len length]; (destruct list_eq_dec as [L|L]; [try discriminate L|try (exfalso; apply L; reflexivity)]);
      rewrite <- ?app_assoc; cbn [app]; rewrite <- ?app_assoc; reflexivity.
  - split.
    + intros ->. rewrite Z.eqb_refl. split.
      * exists lat, lon, hh, ha, va, (fld fp 17). apply in_or_app. right. apply in_or_app. left. rewrite U in MP by assumption. rewrite <- MP.
        destruct OP as [[-> _]|[-> _]]; [left; reflexivity|right; left; reflexivity].
      * unfold position_flags.
        repeat match goal with |- context [if ?a =? ?b then _ else _] => destruct (Z.eqb_spec a b) as [E|?]; [rewrite ?E; left; constructor|] end.
        destruct (Z.eqb_spec (fld fp 1) 48) as [E|]; [rewrite E; left; constructor|]. destruct (Z.eqb_spec (fld fp 1) 50) as [E|]; [rewrite E; left; constructor|].
        destruct (Z.eqb_spec (fld fp 1) 49) as [E|]; [rewrite E; left; constructor|]. cbn [orb].
        repeat match goal with |- context [if ?a =? ?b then _ else _] => destruct (Z.eqb_spec a b) as [E|?]; [rewrite ?E; left; constructor|] end.
        right. split; [reflexivity|]. intros k K. inversion K; lia.
    + intros NE. destruct (Z.eqb_spec (nh_ms hv) (nh_ms hp)); [contradiction|reflexivity].
Qed.
(** Positions: latitude and longitude are sent as received, the height is the height above the geoid plus the library's geoid separation, the accuracies are the standard deviations in
    millimetres, to the nearest, the horizontal one the larger of the two.  (Partly true: standard deviations above 65.535 m, see below.) *)
Theorem C60_position_values_partial : forall st h f, nh_id h = 42 -> 0 <= nh_ms h < 2 ^ 32 ->
  (forall i, 7 <= i <= 9 -> ffinite f i /\ (0 <= fval f i <= 65535 / 1000)%R) ->
  exists st1 before height h_acc v_acc flags, step st (h, NFields f) = Some (st1, before ++ [OPos (nh_ms h) (dofbits (fld f 2)) (dofbits (fld f 3)) height h_acc v_acc (fld f 17) flags]) /\
    height = dadd (dofbits (fld f 4)) (geoid (dofbits (fld f 2)) (dofbits (fld f 3))) /\
    0 <= h_acc < 65536 /\ 0 <= v_acc < 65536 /\ rounds h_acc (1000 * Rmax (fval f 7) (fval f 8)) (/ 512) /\ rounds v_acc (1000 * fval f 9) (/ 512).
Proof.
  intros st h f I B H. unfold nov_step. rewrite I. cbn [Z.eqb Pos.eqb]. unfold write_best_pos. destruct (send_time st h) as [s1 ts]. cbv zeta.
  assert (K : forall i, 7 <= i <= 9 -> let x := fmul (Esf_model.fofZ 1000 0) (ff32 f i) in
    Esf_proofs.ffin x = true /\ (Rabs (Esf_proofs.fR x - 1000 * fval f i) <= / 512)%R /\ (0 <= Esf_proofs.fR x <= 65535)%R).
  { intros i Hi. destruct (H i Hi) as [F V]. exact (milli32 (ff32 f i) F V). }
  destruct (K 9 ltac:(lia)) as (F9 & E9 & B9). destruct (K 8 ltac:(lia)) as (F8 & E8 & B8). destruct (K 7 ltac:(lia)) as (F7 & E7 & B7).
  destruct (acc16 _ _ F9 E9 B9) as (v & EV & VB & VR). rewrite EV.
  destruct (fmax_spec _ _ F7 F8) as [FM VM].
  assert (EM : (Rabs (Esf_proofs.fR (fmaxf (fmul (Esf_model.fofZ 1000 0) (ff32 f 7)) (fmul (Esf_model.fofZ 1000 0) (ff32 f 8))) - Rmax (1000 * fval f 7) (1000 * fval f 8)) <= / 512)%R)
    by (rewrite VM; apply Rmax_lip; assumption).
  destruct (acc16 _ _ FM EM) as (hz & EH & HB & HR).
  { rewrite VM. unfold Rmax. destruct Rle_dec; assumption. }
  rewrite EH. eexists. exists ts. eexists. exists hz, v. eexists. split; [unfold u32; rewrite (Z.mod_small (nh_ms h)) by exact B; reflexivity|].
  split; [reflexivity|]. split; [exact HB|]. split; [exact VB|]. split; [|exact VR]. rewrite <- RmaxRmult by lra. exact HR.
Qed.
(** Velocities: the ground track is split into north and east with the library's cos and sin, accurate to 2^-52; millimetres per second, to the nearest up to 10^-7.
    (Partly true: a vertical speed that saturates at -2^31 mm/s is negated, which is undefined, see below.) *)
Theorem C60_velocity_values_partial : forall st h f, accurate cosf cos -> accurate sinf sin -> nh_id h = 99 -> 0 <= nh_ms h < 2 ^ 32 ->
  dfinite f 4 -> dfinite f 5 -> dfinite f 6 -> (Rabs (dval f 4) <= 10000)%R -> (Rabs (dval f 5) <= 360)%R -> (Rabs (dval f 6) <= 10000)%R ->
  exists st1 before n e d flags, step st (h, NFields f) = Some (st1, before ++ [OVel (nh_ms h) n e d flags]) /\
    rounds n (1000 * dval f 4 * cos (degrees (dval f 5))) (/ 10000000) /\ rounds e (1000 * dval f 4 * sin (degrees (dval f 5))) (/ 10000000) /\
    rounds d (- (1000 * dval f 6)) (/ 10000000).
Proof.
  intros st h f AC AS I B F4 F5 F6 B4 B5 B6. unfold nov_step. rewrite I. cbn [Z.eqb Pos.eqb]. unfold write_best_vel. destruct (send_time st h) as [s1 ts]. cbv zeta.
  destruct (vel_spec cosf cos (fd f 4) (fd f 5) AC cos_lip) as (n & EN & RN); try assumption. { intros a. apply Rabs_le. pose proof (COS_bound a). lra. }
  destruct (vel_spec sinf sin (fd f 4) (fd f 5) AS sin_lip) as (e & EE & RE); try assumption. { intros a. apply Rabs_le. pose proof (SIN_bound a). lra. }
  destruct (milli (fd f 6) F6 B6) as (v & EV & NV & RV). rewrite EN, EE, EV. destruct (Z.eqb_spec v (- 2 ^ 31)); [lia|].
  do 2 eexists. exists n, e, (- v). eexists. unfold u32. rewrite (Z.mod_small (nh_ms h)) by exact B. split; [reflexivity|]. split; [exact RN|]. split; [exact RE|].
  unfold rounds in *. rewrite opp_IZR. replace (- IZR v - - (1000 * dval f 6))%R with (- (IZR v - 1000 * dval f 6))%R by ring. rewrite Rabs_Ropp. change (dR (fd f 6)) with (dval f 6) in RV. lra.
Qed.
(** Attitudes: micro-degrees to the nearest; valid exactly when the solution is good (status 3) *)
Theorem C60_attitude_values : forall st h f, nh_id h = 263 -> 0 <= nh_ms h < 2 ^ 32 -> (forall i, 2 <= i <= 4 -> dfinite f i /\ (Rabs (dval f i) <= 360)%R) ->
  exists roll pitch yaw flags, step st (h, NFields f) = Some (st, [OOrient (nh_ms h) roll pitch yaw flags]) /\
    rounds roll (1000000 * dval f 2) (/ 33554432) /\ rounds pitch (1000000 * dval f 3) (/ 33554432) /\ rounds yaw (1000000 * dval f 4) (/ 33554432) /\
    (flags = 1 /\ fld f 5 = 3 \/ flags = 0 /\ fld f 5 <> 3).
Proof.
  intros st h f I B H. unfold nov_step. rewrite I. cbn [Z.eqb Pos.eqb]. unfold write_ins_att.
  destruct (H 2 ltac:(lia)) as [F2 B2]. destruct (H 3 ltac:(lia)) as [F3 B3]. destruct (H 4 ltac:(lia)) as [F4 B4].
  destruct (micro (fd f 2) F2 B2) as (r & ER & RR). destruct (micro (fd f 3) F3 B3) as (p & EP & RP). destruct (micro (fd f 4) F4 B4) as (y & EY & RY).
  rewrite ER, EP, EY. exists r, p, y. eexists. unfold u32. rewrite (Z.mod_small (nh_ms h)) by exact B. split; [reflexivity|]. split; [exact RR|]. split; [exact RP|]. split; [exact RY|].
  destruct (Z.eqb_spec (fld f 5) 3); [left|right]; split; (reflexivity || assumption).
Qed.
(** GPS ephemerides *)
Theorem C60_ephemeris_values : forall st h f, nh_id h = 7 -> 0 <= fld f 0 <= 255 -> 0 <= fld f 5 <= 65535 ->
  dfinite f 7 -> dfinite f 24 -> (0 <= dval f 7 < 4294967296)%R -> (0 <= dval f 24 < 4294967296)%R ->
  dfinite f 8 -> (/ IZR (2 ^ 110) <= dval f 8 <= IZR (2 ^ 90))%R -> dfinite f 31 -> (/ IZR (2 ^ 110) <= dval f 31 <= IZR (2 ^ 90))%R ->
  (forall i, 13 <= i <= 18 \/ 25 <= i <= 28 -> dfinite f i /\ ordinary (dval f i)) ->
  exists s, step st (h, NFields f) = Some (st, [OEph s]) /\ eph_reports f s.
Proof.
  intros st h f I P W F7 F24 B7 B24 F8 B8 F31 B31 H. unfold nov_step. rewrite I. cbn [Z.eqb Pos.eqb]. unfold write_gps_ephem.
  destruct (cu32_spec (fd f 7) F7 B7) as (toe & E7 & R7). destruct (cu32_spec (fd f 24) F24 B24) as (toc & E24 & R24). rewrite E7, E24.
  destruct (Z.ltb_spec 255 (fld f 0)); [lia|]. destruct (Z.ltb_spec 65535 (fld f 5)); [lia|]. cbn [orb]. eexists. split; [reflexivity|].
  assert (S : forall i, 13 <= i <= 18 \/ 25 <= i <= 28 -> fclose (f32 (fd f i)) (dval f i)) by (intros i Hi; destruct (H i Hi) as [F O]; exact (single_spec (fd f i) F O)).
  unfold eph_reports, single, same.
  cbn [s_sat s_code s_toe_wn s_toe s_ura s_fit s_valid s_health s_tgd0 s_crs s_crc s_cuc s_cus s_cic s_cis s_dn s_m0 s_ecc s_sqrta s_omega0 s_omegadot s_w s_inc s_inc_dot s_af0 s_af1 s_af2 s_toc_wn s_toc s_iode s_iodc].
  repeat match goal with |- _ /\ _ => split end; try reflexivity; try (apply S; lia); try apply R7; try apply R24.
  - exact (ura_spec (fd f 31) F31 B31).
  - destruct (dsqrt_spec (fd f 8) F8 B8) as (_ & (e & E & V) & _). change (B2R 53 1024 (dsqrt (fd f 8))) with (dR (dsqrt (fd f 8))). rewrite V. change (dR (fd f 8)) with (dval f 8).
    replace (sqrt (dval f 8) * (1 + e) - sqrt (dval f 8))%R with (e * sqrt (dval f 8))%R by ring. rewrite Rabs_mult, (Rabs_pos_eq (sqrt (dval f 8))) by apply sqrt_pos.
    apply Rmult_le_compat_r; [apply sqrt_pos|]. unfold Near_proofs.u53 in E. lra.
  - exists (f32 (fd f 26)). split; [reflexivity|apply S; lia].
  - exists (f32 (fd f 27)). split; [reflexivity|apply S; lia].
Qed.
(** refuted: a standard deviation of 100 m (0x42c80000), usual while a solution converges, is converted out of range, which is undefined *)
Theorem C60_accuracy_refuted : forall st h f, nh_id h = 42 -> fld f 9 = 0x42c80000 -> fval f 9 = 100%R /\ step st (h, NFields f) = None.
Proof.
  intros st h f I V. split.
  - unfold fval. unfold fld in V. rewrite V. destruct (Esf_proofs.fme_spec (fofbits 0x42c80000) 13107200 (-17) ltac:(vm_compute; reflexivity)) as [_ R].
    change (B2R 24 128 (fofbits 0x42c80000)) with (Esf_proofs.fR (fofbits 0x42c80000)). rewrite R. change (bpow radix2 (-17)) with (/ 131072)%R. lra.
  - unfold nov_step. rewrite I. cbn [Z.eqb Pos.eqb]. unfold write_best_pos. destruct (send_time st h) as [s1 ts]. cbv zeta.
    replace (float_to_u16 (fmul (Esf_model.fofZ 1000 0) (ff32 f 9))) with (@None Z); [reflexivity|]. unfold ff32. rewrite V. vm_compute. reflexivity.
Qed.
(** refuted: position types of INS-aided solutions that the table does not list (INS_PPP, 74) are reported as single point positions without INS *)
Theorem C60_ins_ppp_refuted : forall st h f st1 out, nh_id h = 42 -> fld f 1 = 74 -> step st (h, NFields f) = Some (st1, out) ->
  exists before tow lat lon hh ha va ns, out = before ++ [OPos tow lat lon hh ha va ns 1].
Proof.
  intros st h f st1 out I V S. destruct (step_fix _ _ _ _ _ _ _ _ _ _ (conj (or_introl I) (ex_intro _ f eq_refl)) S) as (_ & m & _ & O & f' & Ef & K). injection Ef as <-.
  destruct K as [(_ & (a & b & c & d & e & ->) & _)|(K & _)]; [|lia]. rewrite V in O. change (position_flags 74) with 1 in O.
  destruct O as [[-> _]|[-> _]]; [exists []|exists [OTime (nh_week h) (u32 (nh_ms h)) 0 1]]; repeat eexists.
Qed.
End P.
(** hypotheses met: a position log and a velocity log at 345600000 ms *)
Definition demo_hdr (id : Z) : nhdr := mk_nhdr 72 id 2100 345600000.
(** pos_type 50 (fixed), lat 37.5, lon -122.25, height 10.0, standard deviations 0.5, 0.25, 0.75 m, 12 satellites in the solution *)
Definition demo_pos : list Z := [0; 50; 0x4042c00000000000; 0xc05e900000000000; 0x4024000000000000; 0; 61; 0x3f000000; 0x3e800000; 0x3f400000; 0; 0; 0; 0; 0; 0; 14; 12; 12; 12; 0; 0; 0; 0].
(** 12.5 m/s, 90 degrees, 0.25 m/s up *)
Definition demo_vel : list Z := [0; 50; 0; 0; 0x4029000000000000; 0x4056800000000000; 0x3fd0000000000000; 0].
Example C60_met : (exists st out, nov_run (fun _ => 0) (fun _ _ => true) (fun _ _ => dofZ 0) (fun _ => dofZ 0) (fun _ => dofZ 1) nstate0
    ([(demo_hdr 42, NFields demo_pos)] ++ [(demo_hdr 99, NFields demo_vel)]) = Some (st, out) /\
  (exists a b c, out = [OTime 2100 345600000 0 1; OPos 345600000 a b c 500 750 12 4; OVel 345600000 0 12500 (-250) 4])) /\
  (forall i, 7 <= i <= 9 -> ffinite demo_pos i /\ (0 <= fval demo_pos i <= 65535 / 1000)%R).
Proof.
  split.
  - eexists. eexists. split; [vm_compute; reflexivity|]. repeat eexists.
  - intros i I. assert (C : i = 7 \/ i = 8 \/ i = 9) by lia.
    assert (Q : forall b m e, Esf_proofs.fme (fofbits b) = Some (m, e) -> (0 <= IZR m * bpow radix2 e <= 65535 / 1000)%R -> znth 0 i demo_pos = b ->
      ffinite demo_pos i /\ (0 <= fval demo_pos i <= 65535 / 1000)%R).
    { intros b m e E R Hb. unfold ffinite, fval. rewrite Hb. destruct (Esf_proofs.fme_spec _ _ _ E) as [F V]. split; [exact F|]. change (B2R 24 128 (fofbits b)) with (Esf_proofs.fR (fofbits b)). rewrite V. exact R. }
    destruct C as [-> | [-> | ->]].
    + apply (Q 0x3f000000 8388608 (-24)); [vm_compute; reflexivity|change (bpow radix2 (-24)) with (/ 16777216)%R; lra|reflexivity].
    + apply (Q 0x3e800000 8388608 (-25)); [vm_compute; reflexivity|change (bpow radix2 (-25)) with (/ 33554432)%R; lra|reflexivity].
    + apply (Q 0x3f400000 12582912 (-24)); [vm_compute; reflexivity|change (bpow radix2 (-24)) with (/ 16777216)%R; lra|reflexivity].
Qed.
(** functions as accurate as C60_velocity_values_partial asks for exist *)
Lemma accurate_exists g : (forall x, Rabs (g x) <= 1)%R -> accurate (fun x => dscale (ZnearestE (g (dR x) * 4503599627370496)) (-52)) g.
Proof.
  intros G x F _. set (m := ZnearestE (g (dR x) * 4503599627370496)). pose proof (Znearest_half (fun x => negb (Z.even x)) (g (dR x) * 4503599627370496)) as H. fold m in H.
  specialize (G (dR x)). assert (HM := H). apply Rabs_le_inv in HM. apply Rabs_le_inv in G.
  assert (M : Z.abs m < 2 ^ 53). { assert (- 2 ^ 53 < m) by (apply lt_IZR; change (IZR (- 2 ^ 53)) with (-9007199254740992)%R; lra). assert (m < 2 ^ 53) by (apply lt_IZR; change (IZR (2 ^ 53)) with 9007199254740992%R; lra). lia. }
  destruct (dscale_spec m (-52)) as [FD VD].
  { change (IZR m * bpow radix2 (-52))%R with (scaled m 52). apply big53; lia. }
  change (IZR m * bpow radix2 (-52))%R with (scaled m 52) in VD. rewrite rnd_id in VD by (apply SbpEph_proofs.scaled_format; lia).
  split; [exact FD|]. change (B2R 53 1024 (dscale m (-52))) with (dR (dscale m (-52))). rewrite VD. change (B2R 53 1024 x) with (dR x). unfold scaled. change (bpow radix2 (- (52))) with (/ 4503599627370496)%R.
  apply Rabs_le. lra.
Qed.
Print Assumptions C59_observations_partial.
Print Assumptions C59_empty_refuted.
Print Assumptions C59_phase_flag_refuted.
Print Assumptions C59_glonass_refuted.
Print Assumptions C60_time_known.
Print Assumptions C60_time_not_repeated.
Print Assumptions C60_velocity_mode.
Print Assumptions C60_position_values_partial.
Print Assumptions C60_velocity_values_partial.
Print Assumptions C60_attitude_values.
Print Assumptions C60_ephemeris_values.
Print Assumptions C60_accuracy_refuted.
Print Assumptions C60_ins_ppp_refuted.
