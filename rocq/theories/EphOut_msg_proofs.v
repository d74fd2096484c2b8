From Coq Require Import Reals Lra.
From Flocq Require Import Core IEEE754.Binary IEEE754.Bits.
From Verif Require Import Base Double_model Double_proofs UbxObs_model UbxObs_proofs Esf_model Ixcom_model Ixcom_float_proofs Tables_model Tables_spec
  RtcmStation_spec RtcmEph_model RtcmEph_spec RtcmEph_proofs Time_model SbpEph_model SbpEph_spec Near_proofs SbpEph_proofs Abs_proofs EphOut_model EphOut_spec EphOut_proofs
  Properties_tables Properties_sbpeph.
Open Scope Z_scope.

(** the numbers of the message m are those nearest to the values of s *)
Definition orbit_nr (kc kh : Z) (m : keph) (s : skeph) : Prop :=
  (nr (e_crs m) (unit2 kc) (fv (s_crs s)) /\ nr (e_crc m) (unit2 kc) (fv (s_crc s)) /\ nr (e_cuc m) (unit2 kh) (fv (s_cuc s)) /\ nr (e_cus m) (unit2 kh) (fv (s_cus s)) /\ nr (e_cic m) (unit2 kh) (fv (s_cic s)) /\ nr (e_cis m) (unit2 kh) (fv (s_cis s))) /\
  (nr (e_dn m) (semic 43) (dv (s_dn s)) /\ nr (e_m0 m) (semic 31) (dv (s_m0 s)) /\ nr (e_ecc m) (unit2 33) (dv (s_ecc s)) /\ nr (e_sqrta m) (unit2 19) (dv (s_sqrta s)) /\
   nr (e_omega0 m) (semic 31) (dv (s_omega0 s)) /\ nr (e_omegadot m) (semic 43) (dv (s_omegadot s)) /\ nr (e_w m) (semic 31) (dv (s_w s)) /\ nr (e_inc m) (semic 31) (dv (s_inc s)) /\ nr (e_inc_dot m) (semic 43) (dv (s_inc_dot s))).
Definition orbit_bits (w : Z) (m : keph) : Prop :=
  (sbits w (e_crs m) /\ sbits w (e_crc m) /\ sbits w (e_cuc m) /\ sbits w (e_cus m) /\ sbits w (e_cic m) /\ sbits w (e_cis m)) /\
  (sbits 16 (e_dn m) /\ sbits 32 (e_m0 m) /\ ubits 32 (e_ecc m) /\ ubits 32 (e_sqrta m) /\ sbits 32 (e_omega0 m) /\ sbits 24 (e_omegadot m) /\ sbits 32 (e_w m) /\ sbits 32 (e_inc m) /\ sbits 14 (e_inc_dot m)).
Definition clock_nr (k0 k1 k2 : Z) (m : keph) (s : skeph) : Prop :=
  nr (e_af0 m) (unit2 k0) (dv (s_af0 s)) /\ nr (e_af1 m) (unit2 k1) (dv (s_af1 s)) /\ nr (e_af2 m) (unit2 k2) (fv (s_af2 s)).
Lemma sbits_abs n v : sbits n v -> 1 <= n <= 32 -> Z.abs v <= 2 ^ 33.
Proof. unfold sbits. intros H N. assert (2 ^ (n - 1) <= 2 ^ 31) by (apply Z.pow_le_mono_r; lia). lia. Qed.
Lemma orbit_back_ok kc kh w m s s' : orbit_values kc kh m s' -> orbit_nr kc kh m s -> orbit_bits w m -> orbit_received kc kh s' s.
Proof.
  intros (V1 & V2 & V3 & V4 & V5 & V6 & V7 & V8 & V9 & V10 & V11 & V12 & V13 & V14 & V15) ((N1 & N2 & N3 & N4 & N5 & N6) & (N7 & N8 & N9 & N10 & N11 & N12 & N13 & N14 & N15)) (_ & (B7 & B8 & _ & _ & B11 & B12 & B13 & B14 & B15)).
  unfold orbit_received, fhalf, dhalf.
  split; [eapply back_f; eassumption|]. split; [eapply back_f; eassumption|]. split; [eapply back_f; eassumption|]. split; [eapply back_f; eassumption|]. split; [eapply back_f; eassumption|]. split; [eapply back_f; eassumption|].
  split; [eapply back_r; [exact V7|eapply sbits_abs; [exact B7|lia]|exact N7]|]. split; [eapply back_r; [exact V8|eapply sbits_abs; [exact B8|lia]|exact N8]|].
  split; [eapply back_d; eassumption|]. split; [eapply back_d; eassumption|].
  split; [eapply back_r; [exact V11|eapply sbits_abs; [exact B11|lia]|exact N11]|]. split; [eapply back_r; [exact V12|eapply sbits_abs; [exact B12|lia]|exact N12]|].
  split; [eapply back_r; [exact V13|eapply sbits_abs; [exact B13|lia]|exact N13]|]. split; [eapply back_r; [exact V14|eapply sbits_abs; [exact B14|lia]|exact N14]|].
  eapply back_r; [exact V15|eapply sbits_abs; [exact B15|lia]|exact N15].
Qed.
Lemma clock_back_ok k0 k1 k2 m s s' : clock_values k0 k1 k2 m s' -> clock_nr k0 k1 k2 m s -> clock_received k0 k1 k2 s' s.
Proof. intros (V1 & V2 & V3) (N1 & N2 & N3). split; [eapply back_d; eassumption|]. split; [eapply back_d; eassumption|eapply back_f; eassumption]. Qed.

Lemma gps_out c eps l s n : consts_exact c -> eps_ok eps -> log2_ok l -> gps_representable s -> 0 <= n <= 15 -> s_ura s = ura_to_uri n ->
  exists m, sbp_to_gps_eph c eps l s = Some m /\ wf_gps m /\ orbit_nr 5 29 m s /\ orbit_bits 16 m /\ clock_nr 31 43 55 m s /\ nr (e_tgd0 m) (unit2 31) (fv (s_tgd0 s)) /\
    e_sat m = s_sat s /\ e_wn m = s_toc_wn s mod 1024 /\ e_toe m = s_toe s / 16 /\ e_toc m = s_toc s / 16 /\ e_ura m = n /\ e_fit m = encode_fit_interval_gps (s_fit s) /\
    e_health m = s_health s /\ e_iode m = s_iode s /\ e_iodc m = s_iodc s.
Proof.
  intros C E L (O & (F0 & F1 & F2) & T & R1 & R2 & R3 & R4 & R5 & R6 & R7 & R8) N U.
  destruct (harmonics_fit c C 16 5 29 s ltac:(lia) ltac:(lia) ltac:(lia) O) as (crs & crc & cuc & cus & cic & cis & EH & BH & NH).
  destruct (orbit_fit c C 16 5 29 s O) as (dn & m0 & ecc & sqrta & omega0 & omegadot & om & inc & inc_dot & EO & BO & NO).
  pose proof (unit_c c C 31 ltac:(lia)) as U31. pose proof (unit_c c C 43 ltac:(lia)) as U43. pose proof (unit_c c C 55 ltac:(lia)) as U55.
  destruct (d_field (- 2 ^ 31) (2 ^ 31) 22 _ _ _ U31 F0) as (a0 & E0 & B0 & N0); [lia..|]. destruct (d_field (- 2 ^ 31) (2 ^ 31) 16 _ _ _ U43 F1) as (a1 & E1 & B1 & N1); [lia..|].
  destruct (f_field (- 2 ^ 31) (2 ^ 31) 8 _ _ _ U55 F2) as (a2 & E2 & B2 & N2); [lia..|]. destruct (f_field (- 2 ^ 31) (2 ^ 31) 8 _ _ _ U31 T) as (tg & ET & BT & NT); [lia..|].
  unfold sbp_to_gps_eph. rewrite U. destruct (C26_gps_ura_exact eps l n E L N) as [-> _]. unfold uf, ud, r32 at 1 2 3 4. rewrite ET, EH, EO, E0, E1, E2.
  replace (wrap16 a2) with a2.
  2:{ unfold sbits in B2. change (2 ^ (8 - 1)) with 128 in B2. unfold wrap16. destruct (Z.ltb_spec a2 0).
      - replace (a2 mod 2 ^ 16) with (a2 + 65536) by (apply Z.mod_unique with (-1); lia). destruct (Z.ltb_spec (a2 + 65536) (2 ^ 15)); lia.
      - rewrite Z.mod_small by lia. destruct (Z.ltb_spec a2 (2 ^ 15)); lia. }
  eexists. split; [reflexivity|]. cbn [e_tgd0 e_sat e_wn e_toe e_toc e_ura e_fit e_health e_iode e_iodc].
  split.
  - unfold wf_gps. cbn [e_sat e_wn e_toe e_ura e_fit e_health e_tgd0 e_tgd1 e_crc e_crs e_cuc e_cus e_cic e_cis e_dn e_m0 e_ecc e_sqrta e_omega0 e_omegadot e_w e_inc e_inc_dot e_af0 e_af1 e_af2 e_toc e_iodc e_iode e_codeL2 e_L2_data_bit].
    destruct BH as (? & ? & ? & ? & ? & ?). destruct BO as (? & ? & ? & ? & ? & ? & ? & ? & ?).
    assert (ubits 6 (s_sat s)) by exact R1. assert (ubits 6 (s_health s)) by exact R2. assert (ubits 8 (s_iode s)) by exact R3. assert (ubits 10 (s_iodc s)) by exact R4.
    assert (ubits 10 (s_toc_wn s mod 1024)) by (apply Z.mod_pos_bound; lia). assert (ubits 4 n) by (unfold ubits; lia). assert (ubits 2 1) by (unfold ubits; lia).
    assert (ubits 16 (s_toe s / 16)) by (unfold ubits; split; [apply Z.div_pos; lia|apply Z.div_lt_upper_bound; lia]). assert (ubits 16 (s_toc s / 16)) by (unfold ubits; split; [apply Z.div_pos; lia|apply Z.div_lt_upper_bound; lia]).
    assert (ubits 1 (encode_fit_interval_gps (s_fit s))) by (unfold encode_fit_interval_gps, ubits; destruct (s_fit s =? _); lia).
    repeat (split; [assumption|]). reflexivity.
  - split; [split; [exact NH|exact NO]|]. split; [split; [exact BH|exact BO]|]. split; [split; [exact N0|split; [exact N1|exact N2]]|]. split; [exact NT|]. repeat (split; [reflexivity|]). reflexivity.
Qed.
Ltac kproj := cbn [e_sat e_wn e_toe e_ura e_fit e_health e_tgd0 e_tgd1 e_crc e_crs e_cuc e_cus e_cic e_cis e_dn e_m0 e_ecc e_sqrta e_omega0 e_omegadot e_w e_inc e_inc_dot e_af0 e_af1 e_af2 e_toc e_iodc e_iode e_codeL2 e_L2_data_bit].
Lemma gal_out c s n : consts_exact c -> gal_representable 64 s -> 0 <= n <= 125 -> s_ura s = sisa_to_meters n ->
  exists m, sbp_to_gal_eph c s = Some m /\ wf_gal m /\ sbits 10 (e_tgd1 m) /\ orbit_nr 5 29 m s /\ orbit_bits 16 m /\ clock_nr 34 46 59 m s /\
    nr (e_tgd0 m) (unit2 32) (fv (s_tgd0 s)) /\ nr (e_tgd1 m) (unit2 32) (fv (s_tgd1 s)) /\
    e_sat m = s_sat s /\ e_wn m = s_toe_wn s - 1024 /\ e_toe m = s_toe s / 60 /\ e_toc m = s_toc s / 60 /\ e_ura m = n /\ e_health m = s_health s /\ e_iode m = s_iodc s.
Proof.
  intros C (O & (F0 & F1 & F2) & T & T' & R1 & R2 & R3 & R4 & R5 & R6 & R7 & R8) N U.
  destruct (harmonics_fit c C 16 5 29 s ltac:(lia) ltac:(lia) ltac:(lia) O) as (crs & crc & cuc & cus & cic & cis & EH & BH & NH).
  destruct (orbit_fit c C 16 5 29 s O) as (dn & m0 & ecc & sqrta & omega0 & omegadot & om & inc & inc_dot & EO & BO & NO).
  pose proof (unit_c c C 34 ltac:(lia)) as U34. pose proof (unit_c c C 46 ltac:(lia)) as U46. pose proof (unit_c c C 59 ltac:(lia)) as U59. pose proof (unit_c c C 32 ltac:(lia)) as U32.
  destruct (d_field (- 2 ^ 31) (2 ^ 31) 31 _ _ _ U34 F0) as (a0 & E0 & B0 & N0); [lia..|]. destruct (d_field (- 2 ^ 31) (2 ^ 31) 21 _ _ _ U46 F1) as (a1 & E1 & B1 & N1); [lia..|].
  destruct (f_field (- 2 ^ 15) (2 ^ 15) 6 _ _ _ U59 F2) as (a2 & E2 & B2 & N2); [lia..|]. destruct (f_field (- 2 ^ 31) (2 ^ 31) 10 _ _ _ U32 T) as (tg & ET & BT & NT); [lia..|].
  destruct (f_field (- 2 ^ 31) (2 ^ 31) 10 _ _ _ U32 T') as (tg' & ET' & BT' & NT'); [lia..|].
  unfold sbp_to_gal_eph. rewrite U. destruct (C26_sisa_exact n ltac:(lia)) as [-> _]. destruct (Z.leb_spec n 125); [|lia]. unfold uf, ud, r32 at 1 2 3 4, r16 at 1. rewrite ET, ET', EH, EO, E0, E1, E2.
  rewrite (Z.mod_small (s_toe_wn s - 1024)) by lia.
  eexists. split; [reflexivity|]. kproj.
  split.
  - unfold wf_gal. kproj.
    destruct BH as (? & ? & ? & ? & ? & ?). destruct BO as (? & ? & ? & ? & ? & ? & ? & ? & ?).
    assert (ubits 6 (s_sat s)) by exact R1. assert (ubits 10 (s_iodc s)) by exact R3.
    assert (ubits 12 (s_toe_wn s - 1024)) by (unfold ubits; lia). assert (ubits 8 n) by (unfold ubits; lia).
    assert (ubits 14 (s_toe s / 60)) by (unfold ubits; split; [apply Z.div_pos; lia|apply Z.div_lt_upper_bound; lia]). assert (ubits 14 (s_toc s / 60)) by (unfold ubits; split; [apply Z.div_pos; lia|apply Z.div_lt_upper_bound; lia]).
    repeat (split; [assumption|]). repeat (split; [reflexivity|]). reflexivity.
  - split; [exact BT'|]. split; [split; [exact NH|exact NO]|]. split; [split; [exact BH|exact BO]|]. split; [split; [exact N0|split; [exact N1|exact N2]]|]. split; [exact NT|]. split; [exact NT'|]. repeat (split; [reflexivity|]). reflexivity.
Qed.
Lemma bds_out c eps l s n : consts_exact c -> eps_ok eps -> log2_ok l -> bds_representable s -> 0 <= n <= 15 -> s_ura s = bds_ura_to_meters n ->
  exists m, sbp_to_bds_eph c eps l s = Some m /\ wf_bds m /\ orbit_nr 6 31 m s /\ orbit_bits 18 m /\ clock_nr 33 50 66 m s /\
    nr (e_tgd0 m) tenth_ns (fv (s_tgd0 s)) /\ nr (e_tgd1 m) tenth_ns (fv (s_tgd1 s)) /\ sbits 10 (e_tgd0 m) /\ sbits 10 (e_tgd1 m) /\
    e_sat m = s_sat s /\ e_wn m = s_toc_wn s - 1356 /\ e_toe m = (s_toe s - 14) / 8 /\ e_toc m = (s_toc s - 14) / 8 /\ e_ura m = n /\ e_health m = s_health s /\ e_iode m = s_iode s /\ e_iodc m = s_iodc s.
Proof.
  intros C E L (O & (F0 & F1 & F2) & T & T' & R1 & R2 & R3 & R4 & R5 & R6 & R7 & R8 & R9 & R10) N U.
  destruct (harmonics_fit c C 18 6 31 s ltac:(lia) ltac:(lia) ltac:(lia) O) as (crs & crc & cuc & cus & cic & cis & EH & BH & NH).
  destruct (orbit_fit c C 18 6 31 s O) as (dn & m0 & ecc & sqrta & omega0 & omegadot & om & inc & inc_dot & EO & BO & NO).
  pose proof (unit_c c C 33 ltac:(lia)) as U33. pose proof (unit_c c C 50 ltac:(lia)) as U50. pose proof (unit_c c C 66 ltac:(lia)) as U66.
  destruct (d_field (- 2 ^ 31) (2 ^ 31) 24 _ _ _ U33 F0) as (a0 & E0 & B0 & N0); [lia..|]. destruct (d_field (- 2 ^ 31) (2 ^ 31) 22 _ _ _ U50 F1) as (a1 & E1 & B1 & N1); [lia..|].
  destruct (f_field (- 2 ^ 15) (2 ^ 15) 11 _ _ _ U66 F2) as (a2 & E2 & B2 & N2); [lia..|]. destruct (f_field (- 2 ^ 31) (2 ^ 31) 10 _ _ _ unit_ns T) as (tg & ET & BT & NT); [lia..|].
  destruct (f_field (- 2 ^ 31) (2 ^ 31) 10 _ _ _ unit_ns T') as (tg' & ET' & BT' & NT'); [lia..|].
  unfold sbp_to_bds_eph. rewrite U. destruct (C26_bds_ura_exact eps l n E L N) as [-> _]. unfold uf, ud, r32 at 1 2 3 4, r16 at 1. rewrite ET, ET', EH, EO, E0, E1, E2.
  unfold get_bds_wn_tow. destruct (Z.ltb_spec 14 (s_toe s)); [|lia]. destruct (Z.ltb_spec 14 (s_toc s)); [|lia]. cbv zeta. cbn [snd]. rewrite (Z.mod_small (s_toc_wn s - 1356)) by lia.
  eexists. split; [reflexivity|]. kproj.
  split.
  - unfold wf_bds. kproj.
    destruct BH as (? & ? & ? & ? & ? & ?). destruct BO as (? & ? & ? & ? & ? & ? & ? & ? & ?).
    assert (ubits 6 (s_sat s)) by (unfold ubits; lia). assert (ubits 5 (s_iodc s)) by (unfold ubits; lia). assert (ubits 5 (s_iode s)) by (unfold ubits; lia).
    assert (ubits 13 (s_toc_wn s - 1356)) by (unfold ubits; lia). assert (ubits 4 n) by (unfold ubits; lia). assert (ubits 1 (s_health s)) by (unfold ubits; lia).
    assert (ubits 17 ((s_toe s - 14) / 8)) by (unfold ubits; split; [apply Z.div_pos; lia|apply Z.div_lt_upper_bound; lia]). assert (ubits 17 ((s_toc s - 14) / 8)) by (unfold ubits; split; [apply Z.div_pos; lia|apply Z.div_lt_upper_bound; lia]).
    repeat (split; [assumption|]). repeat (split; [reflexivity|]). reflexivity.
  - split; [split; [exact NH|exact NO]|]. split; [split; [exact BH|exact BO]|]. split; [split; [exact N0|split; [exact N1|exact N2]]|]. split; [exact NT|]. split; [exact NT'|]. split; [exact BT|]. split; [exact BT'|]. repeat (split; [reflexivity|]). reflexivity.
Qed.
Lemma glo_slot s leap : 0 <= leap <= 3600 -> glo_representable leap s -> glo_t_b (sg_toe s) leap = (sg_toe s + 10800 - leap) mod 86400 / 900 /\ 1 <= (sg_toe s + 10800 - leap) mod 86400 / 900 <= 95.
Proof.
  intros L (_ & _ & _ & _ & _ & _ & _ & _ & _ & _ & _ & _ & _ & _ & _ & T & M & NZ). set (t := sg_toe s) in *. clearbody t.
  assert (D : exists b q, t + 10800 - leap = q * 86400 + b * 900 /\ 1 <= b <= 95).
  { apply Z.mod_divide in M; [|lia]. destruct M as [a M]. exists (a mod 96), (a / 96). pose proof (Z.div_mod a 96 ltac:(lia)). pose proof (Z.mod_pos_bound a 96 ltac:(lia)). split; [lia|].
    split; [|lia]. destruct (Z.eq_dec (a mod 96) 0) as [Z|]; [|lia]. exfalso. apply NZ. rewrite M. replace (a * 900) with (a / 96 * 86400) by lia. apply Z.mod_mul. lia. }
  destruct D as (b & q & D & B). assert (MD : (t + 10800 - leap) mod 86400 = b * 900) by (symmetry; apply Z.mod_unique with q; lia). rewrite MD, Z.div_mul by lia. split; [|lia].
  clear M NZ MD. unfold glo_t_b.
  destruct (Z.leb_spec leap t) as [P|P].
  - rewrite Z.rem_mod_nonneg by lia. destruct (Z.leb_spec 12 b).
    + replace ((t - leap) mod 86400) with (b * 900 - 10800) by (apply Z.mod_unique with q; lia). destruct (Z.ltb_spec 86400 (b * 900 - 10800 + 3 * 3600)); [lia|].
      replace (b * 900 - 10800 + 3 * 3600) with (b * 900) by ring. rewrite Z.quot_mul by lia. apply Z.mod_small. lia.
    + replace ((t - leap) mod 86400) with (b * 900 - 10800 + 86400) by (apply Z.mod_unique with (q - 1); lia). destruct (Z.ltb_spec 86400 (b * 900 - 10800 + 86400 + 3 * 3600)); [|lia].
      replace (b * 900 - 10800 + 86400 + 3 * 3600 - 86400) with (b * 900) by ring. rewrite Z.quot_mul by lia. apply Z.mod_small. lia.
  - assert (q = 0) as -> by lia. replace (Z.rem (t - leap) 86400) with (t - leap).
    + destruct (Z.ltb_spec 86400 (t - leap + 3 * 3600)); [lia|]. replace (t - leap + 3 * 3600) with (b * 900) by lia. rewrite Z.quot_mul by lia. apply Z.mod_small. lia.
    + rewrite <- (Z.opp_involutive (t - leap)), Z.rem_opp_l by lia. rewrite Z.rem_small by lia. ring.
Qed.
Definition glo_nr (m : geph) (s : sgeph) : Prop :=
  nr (g_gamma m) (unit2 40) (fv (sg_gamma s)) /\ nr (g_tau m) (unit2 30) (fv (sg_tau s)) /\ nr (g_d_tau m) (unit2 30) (fv (sg_d_tau s)) /\
  nr (g_pos0 m) (kilo 11) (dv (sg_pos0 s)) /\ nr (g_pos1 m) (kilo 11) (dv (sg_pos1 s)) /\ nr (g_pos2 m) (kilo 11) (dv (sg_pos2 s)) /\
  nr (g_vel0 m) (kilo 20) (dv (sg_vel0 s)) /\ nr (g_vel1 m) (kilo 20) (dv (sg_vel1 s)) /\ nr (g_vel2 m) (kilo 20) (dv (sg_vel2 s)) /\
  nr (g_acc0 m) (kilo 30) (fv (sg_acc0 s)) /\ nr (g_acc1 m) (kilo 30) (fv (sg_acc1 s)) /\ nr (g_acc2 m) (kilo 30) (fv (sg_acc2 s)).
Lemma glo_out c eps l s n leap junk : consts_exact c -> eps_ok eps -> 0 <= leap <= 3600 -> glo_representable leap s -> 0 <= n <= 15 -> sg_ura s = glo_ft_to_meters n ->
  exists m, sbp_to_glo_eph c eps l s (Some leap) junk = Some m /\ wf_glo m /\ glo_nr m s /\
    g_sat m = sg_sat s /\ g_ura m = n /\ g_fit m = encode_fit_interval_glo (sg_fit s) /\ g_health m = sg_health s /\ g_fcn m = sg_fcn s - 1 /\
    g_t_b m = (sg_toe s + 10800 - leap) mod 86400 / 900 /\ 1 <= g_t_b m <= 95.
Proof.
  intros C E LP R N U. destruct (glo_slot s leap LP R) as [SL SB].
  destruct R as (H1 & H2 & H3 & H4 & H5 & H6 & H7 & H8 & H9 & H10 & H11 & H12 & R1 & R2 & R3 & _).
  pose proof (unit_c c C 40 ltac:(lia)) as U40. pose proof (unit_c c C 30 ltac:(lia)) as U30. pose proof (unit_c c C 11 ltac:(lia)) as U11. pose proof (unit_c c C 20 ltac:(lia)) as U20.
  destruct (fm_field (- 2 ^ 15) (2 ^ 15) 11 _ _ _ U40 H1) as (z1 & E1 & B1 & N1); [lia..|]. destruct (fm_field (- 2 ^ 31) (2 ^ 31) 22 _ _ _ U30 H2) as (z2 & E2 & B2 & N2); [lia..|].
  destruct (fm_field (- 2 ^ 7) (2 ^ 7) 5 _ _ _ U30 H3) as (z3 & E3 & B3 & N3); [lia..|].
  destruct (km_field (- 2 ^ 31) (2 ^ 31) 27 _ _ _ U11 H4) as (z4 & E4 & B4 & N4); [lia..|]. destruct (km_field (- 2 ^ 31) (2 ^ 31) 27 _ _ _ U11 H5) as (z5 & E5 & B5 & N5); [lia..|].
  destruct (km_field (- 2 ^ 31) (2 ^ 31) 27 _ _ _ U11 H6) as (z6 & E6 & B6 & N6); [lia..|]. destruct (km_field (- 2 ^ 31) (2 ^ 31) 24 _ _ _ U20 H7) as (z7 & E7 & B7 & N7); [lia..|].
  destruct (km_field (- 2 ^ 31) (2 ^ 31) 24 _ _ _ U20 H8) as (z8 & E8 & B8 & N8); [lia..|]. destruct (km_field (- 2 ^ 31) (2 ^ 31) 24 _ _ _ U20 H9) as (z9 & E9 & B9 & N9); [lia..|].
  destruct (fkm_field (- 2 ^ 31) (2 ^ 31) 5 _ _ _ U30 H10) as (z10 & E10 & B10 & N10); [lia..|]. destruct (fkm_field (- 2 ^ 31) (2 ^ 31) 5 _ _ _ U30 H11) as (z11 & E11 & B11 & N11); [lia..|].
  destruct (fkm_field (- 2 ^ 31) (2 ^ 31) 5 _ _ _ U30 H12) as (z12 & E12 & B12 & N12); [lia..|].
  unfold sbp_to_glo_eph. rewrite U. destruct (C26_glo_ft_exact eps l n E N) as [-> _]. unfold uf, ud, r32, r16, r8. rewrite E1, E2, E3, E4, E5, E6, E7, E8, E9, E10, E11, E12. rewrite SL.
  rewrite (Z.mod_small (sg_fcn s - 1)) by lia.
  eexists. split; [reflexivity|]. unfold wf_glo, glo_nr. cbn [g_sat g_ura g_fit g_health g_gamma g_tau g_d_tau g_t_b g_pos0 g_pos1 g_pos2 g_vel0 g_vel1 g_vel2 g_acc0 g_acc1 g_acc2 g_fcn].
  assert (ubits 6 (sg_sat s)) by (unfold ubits; lia). assert (ubits 5 (sg_fcn s - 1)) by (unfold ubits; lia). assert (ubits 1 (sg_health s)) by (unfold ubits; lia). assert (ubits 4 n) by (unfold ubits; lia).
  assert (ubits 7 ((sg_toe s + 10800 - leap) mod 86400 / 900)) by (unfold ubits; lia).
  assert (ubits 2 (encode_fit_interval_glo (sg_fit s))) by (unfold encode_fit_interval_glo, ubits; destruct (_ =? 40); [lia|]; destruct (_ =? 55); lia).
  split; [repeat (split; [assumption|]); assumption|]. split; [repeat (split; [assumption|]); assumption|]. repeat (split; [reflexivity|]). exact SB.
Qed.
Lemma back_km k n x' v : dexact x' (scaled (n * 1000) k) -> nr n (kilo k) v -> is_finite 53 1024 x' = true /\ half_unit (kilo k) (dv x') v.
Proof.
  intros [F V] N. split; [exact F|]. assert (P : (0 < bpow radix2 (- k))%R) by apply bpow_gt_0. assert (K : (0 < kilo k)%R) by (unfold kilo; lra).
  apply half_of with n; [exact K| |exact N]. unfold dv. rewrite V. unfold scaled, kilo. rewrite mult_IZR, Rminus_diag_eq, Rabs_R0 by ring. lra.
Qed.
Lemma back_fkm k n x' v : fexact x' (scaled (n * 1000) k) -> nr n (kilo k) v -> is_finite 24 128 x' = true /\ half_unit (kilo k) (fv x') v.
Proof.
  intros [F V] N. split; [exact F|]. assert (P : (0 < bpow radix2 (- k))%R) by apply bpow_gt_0. assert (K : (0 < kilo k)%R) by (unfold kilo; lra).
  apply half_of with n; [exact K| |exact N]. unfold fv. rewrite V. unfold scaled, kilo. rewrite mult_IZR, Rminus_diag_eq, Rabs_R0 by ring. lra.
Qed.
Lemma back_ns n x' v : fclose x' (IZR n / 10000000000) -> sbits 10 n -> nr n tenth_ns v -> is_finite 24 128 x' = true /\ half_unit tenth_ns (fv x') v.
Proof.
  intros [F V] B N. split; [exact F|]. apply half_of with n; [unfold tenth_ns; lra| |exact N]. unfold tenth_ns. fold (fv x') in V. fold (Rdiv (IZR n) 10000000000). eapply Rle_trans; [exact V|].
  unfold sbits in B. change (2 ^ (10 - 1)) with 512 in B. unfold Rdiv. rewrite Rabs_mult, (Rabs_pos_eq (/ 10000000000)) by lra. assert (B1 := IZR_le (-512) n ltac:(lia)). assert (B2 := IZR_le n 512 ltac:(lia)). assert (Rabs (IZR n) <= 512)%R by (apply Rabs_le; lra). lra.
Qed.
