(** C78: the SBP observations made from a received MSM4, MSM5, MSM6 or MSM7 payload (from any sender, not only from this code's encoder) say what
    the payload says, with the bias and constellation options of rtcm3tosbp applied.  MsmRx_spec gives the meaning of the fields. *)
From Coq Require Import Reals Lra.
From Flocq Require Import Core IEEE754.Binary.
From Verif Require Import Base Bitstring Bits_model Bitstream_model RtcmStation_spec RtcmMsm_model RtcmMsm_spec Signals_model Signals_spec Signals_proofs RtcmMsm_proofs Double_model Esf_model Sbp2Rtcm_model Sbp2Msm_model Sbp2Msm_spec MsmWire_spec MsmWire_proofs
  MsmVal_model MsmVal_spec MsmVal_proofs MsmVal_epoch_proofs Options_model MsmRx_spec MsmRx_proofs Properties_msmval Properties_wire.
Local Open Scope Z_scope.

(** payload [p], possibly followed by unused bits, is laid out as the standard says for message type [ty], header [h] and contents [w] *)
Definition carries (ty : Z) (h : mhdr) (w : wcols) (p : list Z) : Prop :=
  msm_hdr_ok ty h /\ cols_ok ty (set_count (sat_mask h)) (set_count (cell_mask h)) w /\
  exists pad, bits_of_bytes p = fields_bits (wire_header h ++ wire_columns ty w) ++ pad.
(** the program's result for the payload: None when the payload is refused or the conversion has no defined result *)
Definition received_obs (carrier num_of : code -> Z) (op : opts) (rc : rcfg) (ty : Z) (p : list Z) : option (list pobs) :=
  match run_dec (decode_msm_d ty) p with Ok m => to_sbp_b carrier num_of (bias_of op) rc m | _ => None end.
(** the cells of the message, in order, each kept or dropped *)
Definition says_all (carrier num_of : code -> Z) (op : opts) (rc : rcfg) (ty : Z) (h : mhdr) (w : wcols) (r : option (list pobs)) : Prop :=
  exists rs, r = Some (flat_map some_list rs) /\ len rs = set_count (cell_mask h) /\
    forall i s g, cell_is (cell_mask h) (set_count (sig_mask h)) i s g ->
      cell_outcome carrier ty h w (real_biases op) (rc_masked rc) (rc_fcns rc) num_of i s (znth None i rs).

(** Every payload whose values SBP can hold *)
Theorem C78_received_msm_partial : forall carrier num_of op rc ty h w p,
  carriers_ok carrier -> fcn_map_ok (rc_fcns rc) -> opts_ok op -> 4 <= ty <= 7 -> carries ty h w p ->
  all_representable carrier ty h w (real_biases op) (rc_masked rc) (rc_fcns rc) ->
  says_all carrier num_of op rc ty h w (received_obs carrier num_of op rc ty p).
Proof.
  intros carrier num_of op rc ty h w p CAR FM OP TY (Hh & Hw & pad & E) AR.
  destruct (message_ok ty h w TY Hh Hw carrier num_of rc op CAR FM OP pad p E AR) as (m & rs & EM & ES & L & C).
  exists rs. unfold received_obs. rewrite EM. split; [exact ES|]. split; assumption.
Qed.

(** An ordinary message: satellites at least 5 light-milliseconds (1500 km) away, rates up to 5 km/s, C/N0 below 63.8 dB-Hz, known GLONASS channels *)
Definition ordinary (ty : Z) (h : mhdr) (w : wcols) : Prop :=
  Forall (fun x => 5 <= x) (w_int w) /\
  (with_rates ty = true -> Forall (fun r => r = -8192 \/ Z.abs r <= 5000) (w_rate w)) /\
  (hi_res ty = true -> Forall (fun c => c <= 1021) (w_cnr w)) /\
  (with_rates ty = true -> to_constellation (mh_num h) = cGLO -> Forall (fun f => f <= 13) (w_info w)).
Section Ordinary.
Variables (carrier : code -> Z) (op : opts) (rc : rcfg) (ty : Z) (h : mhdr) (w : wcols).
Hypothesis CAR : carriers_ok carrier.
Hypothesis FM : fcn_map_ok (rc_fcns rc).
Hypothesis OP : opts_ok op.
Hypothesis Hh : msm_hdr_ok ty h.
Hypothesis Hw : cols_ok ty (set_count (sat_mask h)) (set_count (cell_mask h)) w.
Hypothesis ORD : ordinary ty h w.
Let b := real_biases op.
Let fcns := rc_fcns rc.

Lemma cell_in i s k sat : describes h i s k sat -> 0 <= i < set_count (cell_mask h) /\ 0 <= s < set_count (sat_mask h).
Proof.
  intros (g & p & j & C & _). destruct (cells_facts ty h Hh) as (CL & CI & CS). cbv zeta in *. destruct (proj1 (CI i s g) C) as [R Z]. specialize (CS i R). rewrite Z in CS. cbn [fst] in CS. lia.
Qed.
Lemma cell_cons i s k sat : describes h i s k sat -> glo_code k = cons_eqb (to_constellation (mh_num h)) cGLO /\ sat_pos (to_constellation (mh_num h)) sat (sat - first_prn (to_constellation (mh_num h))).
Proof.
  intros (g & p & j & _ & _ & S & _ & I). split; [apply glo_cons; eapply tab_cons; exact I|]. destruct S as [A ->]. split; [exact A|reflexivity].
Qed.
Lemma chan i s k sat : describes h i s k sat -> glo_code k = true -> 0 <= channel ty w fcns s sat <= 13 \/ channel ty w fcns s sat = 255.
Proof.
  intros D K. destruct (cell_in _ _ _ _ D) as [Ri Rs]. destruct (cell_cons _ _ _ _ D) as [G P]. rewrite K in G. symmetry in G. apply cons_eqb_spec in G.
  destruct Hw as ((W1 & W2 & W3 & W4) & _ & _ & F2 & _). destruct ORD as (_ & _ & _ & O4).
  unfold channel. destruct (with_rates ty) eqn:WR.
  - left. specialize (O4 eq_refl G). split; [|apply (Forall_znth (fun f => f <= 13)); [exact O4|lia]]. assert (U : ubits 4 (znth 0 s (w_info w))) by (apply Forall_znth; [exact F2|lia]). unfold ubits in U. lia.
  - rewrite G in P. destruct P as [P _]. cbn [first_prn prn_count] in P. destruct FM as [L F]. apply (Forall_znth (fun f => 0 <= f <= 13 \/ f = 255)); [exact F|]. unfold fcns in *. lia.
Qed.
Lemma hz_range i s k sat : describes h i s k sat -> tuned ty w fcns k s sat -> 1100000000 <= hertz carrier k (channel ty w fcns s sat) <= 1700000000.
Proof.
  intros D T. pose proof (chan _ _ _ _ D) as C. unfold tuned in T. specialize (CAR k). destruct (glo_code k) eqn:K.
  - specialize (C eq_refl). specialize (T eq_refl). destruct C as [C|C]; [|contradiction]. destruct k; try discriminate K; cbn [hertz]; lia.
  - destruct k; try discriminate K; cbn [hertz]; try exact CAR; lia.
Qed.
Open Scope R_scope.
Lemma per_small f i s k sat : describes h i s k sat -> (forall x, Rabs (f x) <= 100) -> Rabs (per_channel ty w fcns f k s sat) <= 700.
Proof.
  intros D F. unfold per_channel. pose proof (chan _ _ _ _ D) as C. destruct (glo_code k); [|rewrite Rabs_R0; lra]. specialize (C eq_refl).
  destruct (Z.eqb_spec (channel ty w fcns s sat) 255) as [E|E]; [rewrite Rabs_R0; lra|]. destruct C as [C|C]; [|contradiction].
  rewrite Rabs_mult. specialize (F (on_L2 k)). set (c := channel ty w fcns s sat) in *.
  assert (A : Rabs (IZR (c - 7)) <= 7). { rewrite <- abs_IZR. apply IZR_le. lia. }
  pose proof (Rabs_pos (f (on_L2 k))). pose proof (Rabs_pos (IZR (c - 7))). nra.
Qed.
Close Scope R_scope.
Lemma ordinary_representable : all_representable carrier ty h w b (rc_masked rc) fcns.
Proof.
  intros i s k sat D _ _ [V1 V2]. destruct (cell_in _ _ _ _ D) as [Ri Rs]. pose proof OP as (_ & _ & _ & B1 & B2 & B3).
  pose proof Hw as ((W1 & W2 & W3 & W4) & (W5 & _ & _ & _ & W9 & W10) & F1 & F2 & F3 & F4 & F5 & _ & _ & F8 & F9). pose proof ORD as (O1 & O2 & O3 & O4).
  split; [|split; [|split]].
  - assert (I : 5 <= znth 0 s (w_int w)) by (apply (Forall_znth (fun x => 5 <= x)); [exact O1|lia]).
    assert (M : ubits 10 (znth 0 s (w_mod w))) by (apply Forall_znth; [exact F3|lia]). unfold ubits in M.
    assert (P : sbits (pr_bits ty) (znth 0 i (w_pr w))) by (apply Forall_znth; [exact F5|lia]). unfold sbits, pr_bits in P.
    pose proof (per_small (b_code b) _ _ _ _ D B2) as PC. specialize (B1 k). fold b in B1.
    unfold range_metres, range_msec, rough_msec, C_M_S. apply IZR_le in I. destruct M as [M _]. apply IZR_le in M.
    assert (Q : (- / 1024 <= IZR (znth 0%Z i (w_pr w)) / IZR (2 ^ (if hi_res ty then 29 else 24)))%R).
    { destruct (hi_res ty).
      - destruct P as [P _]. change (- 2 ^ (20 - 1)) with (-524288) in P. apply IZR_le in P. change (2 ^ 29) with 536870912. lra.
      - destruct P as [P _]. change (- 2 ^ (15 - 1)) with (-16384) in P. apply IZR_le in P. change (2 ^ 24) with 16777216. lra. }
    apply Rabs_le_inv in PC. apply Rabs_le_inv in B1. lra.
  - intros (R1 & R2 & R3) T. specialize (O2 R1). assert (R : znth 0 s (w_rate w) = -8192 \/ Z.abs (znth 0 s (w_rate w)) <= 5000) by (apply (Forall_znth (fun r => r = -8192 \/ Z.abs r <= 5000)); [exact O2|lia]).
    destruct R as [R|R]; [contradiction|]. assert (U : sbits 15 (znth 0 i (w_dop w))) by (apply Forall_znth; [exact F9|lia]). unfold sbits in U. change (2 ^ (15 - 1)) with 16384 in U.
    pose proof (hz_range _ _ _ _ D T) as H. unfold doppler_hz, rate_mps, MsmRx_spec.hz, C_M_S. set (f := hertz carrier k (channel ty w fcns s sat)) in *.
    destruct H as [H1 H2]. apply IZR_le in H1. apply IZR_le in H2.
    assert (A : (Rabs (- (IZR (znth 0%Z s (w_rate w)) + IZR (znth 0%Z i (w_dop w)) / 10000)) <= 5002)%R).
    { rewrite Rabs_Ropp. assert (A1 : (Rabs (IZR (znth 0%Z s (w_rate w))) <= 5000)%R) by (rewrite <- abs_IZR; apply IZR_le; exact R).
      assert (U' : -16384 <= znth 0 i (w_dop w) <= 16384) by (clear - U; lia). destruct U' as [U1 U2]. apply IZR_le in U1. apply IZR_le in U2. apply Rabs_le_inv in A1. apply Rabs_le. lra. }
    clearbody f. assert (A2 : (0 <= IZR f / 299792458 <= 6)%R) by (clear - H1 H2; lra).
    rewrite Rabs_mult, (Rabs_pos_eq (IZR f / 299792458)) by (clear - A2; lra). pose proof (Rabs_pos (- (IZR (znth 0%Z s (w_rate w)) + IZR (znth 0%Z i (w_dop w)) / 10000))). nra.
  - intros X. specialize (O3 X). apply (Forall_znth (fun c => c <= 1021)); [exact O3|lia].
  - intros K X. destruct (cell_cons _ _ _ _ D) as [G _]. rewrite K in G. symmetry in G. apply cons_eqb_spec in G. specialize (O4 X G). apply (Forall_znth (fun f => f <= 13)); [exact O4|lia].
Qed.
End Ordinary.
(** For ordinary messages nothing more is needed: the conversion always succeeds and every cell arrives as [cell_outcome] says. *)
Theorem C78_ordinary_msm_partial : forall carrier num_of op rc ty h w p,
  carriers_ok carrier -> fcn_map_ok (rc_fcns rc) -> opts_ok op -> 4 <= ty <= 7 -> carries ty h w p -> ordinary ty h w ->
  says_all carrier num_of op rc ty h w (received_obs carrier num_of op rc ty p).
Proof.
  intros carrier num_of op rc ty h w p CAR FM OP TY C ORD. apply C78_received_msm_partial; try assumption. destruct C as (Hh & Hw & _). apply ordinary_representable; assumption.
Qed.

(** ** Examples: a GLONASS MSM7 with two satellites and two signals, with bias options *)
Definition packed (l : list bool) : list Z :=
  (fix go n l := match n with O => [] | S n => match l with [] => [] | _ => fold_left (fun v x => 2 * v + Z.b2z x) (take 8 (l ++ repeat false 8)) 0 :: go n (drop 8 l) end end) (length l) l.
Definition payload (ty : Z) (h : mhdr) (w : wcols) : list Z := packed (fields_bits (wire_header h ++ wire_columns ty w)).
(** -b 16:3 -c 16:-1,17:2 -l 16:3,17:1 *)
Definition ex_opts : opts :=
  mkopts (fun k => match k with GLO_L1OF => fofZ 3 0 | _ => fofZ 0 0 end) (fun l2 => if l2 then fofZ 2 0 else fofZ (-1) 0) (fun l2 => if l2 then fofZ 1 0 else fofZ 3 0).
Definition no_opts : opts := mkopts (fun k => fofZ 0 0) (fun _ => fofZ 0 0) (fun _ => fofZ 0 0).
Definition rx_hdr : mhdr := mkmhdr 1087 345 259200123 1 3 17 1 2 0 5 (wbits 64 [4; 6]) (wbits 32 [1; 7]) [true; true; true; true].
Definition rx_cols : wcols :=
  mkwcols [67; 70] [8; 5] [1000; 5] [300; -512] [5000; -524288; 17; -300] [-8388608; 12; 13; 14] [100; 703; 1023; 40] [true; false; true; false] [700; 0; 710; 801] [5; -16384; 5; 6].
Definition one_cell (num sat sig : Z) : mhdr := mkmhdr num 345 259200123 1 3 17 1 2 0 5 (wbits 64 [sat]) (wbits 32 [sig]) [true].
Definition contents (int info m rate pr cp lock cnr dop : Z) : wcols := mkwcols [int] [info] [m] [rate] [pr] [cp] [lock] [false] [cnr] [dop].
Lemma ex_opts_ok : opts_ok ex_opts /\ opts_ok no_opts.
Proof.
  assert (Z0 : is_finite 24 128 (fofZ 0 0) = true /\ B2R 24 128 (fofZ 0 0) = IZR 0) by (split; [reflexivity|vm_compute; reflexivity]).
  assert (E : forall n, In n [3; 2; 1; -1] -> is_finite 24 128 (fofZ n 0) = true /\ B2R 24 128 (fofZ n 0) = IZR n).
  { intros n [<-|[<-|[<-|[<-|[]]]]]; (split; [reflexivity|]); unfold fofZ; cbn -[B2R]; unfold B2R, F2R; cbn; lra. }
  destruct Z0 as [Z1 Z2]. destruct (E 3 ltac:(cbn; tauto)) as [A1 A2]. destruct (E 2 ltac:(cbn; tauto)) as [B1 B2]. destruct (E 1 ltac:(cbn; tauto)) as [C1 C2]. destruct (E (-1) ltac:(cbn; tauto)) as [D1 D2]. clear E.
  assert (Q : forall n, Z.abs n <= 100 -> (Rabs (IZR n) <= 100)%R) by (intros n L; rewrite <- abs_IZR; apply IZR_le; exact L).
  assert (Q' : forall n, Z.abs n <= 100 -> (Rabs (IZR n) <= 1000000)%R) by (intros n L; rewrite <- abs_IZR; apply IZR_le; lia).
  unfold opts_ok, biases_ok, real_biases, ex_opts, no_opts. cbn [op_signal op_glo_code op_glo_phase b_signal b_code b_phase]. split.
  - split; [intros []; assumption|]. split; [intros []; assumption|]. split; [intros []; assumption|]. split; [intros []; rewrite ?Z2, ?A2; apply Q'; lia|]. split; intros []; rewrite ?A2, ?B2, ?C2, ?D2; apply Q; lia.
  - split; [intros; assumption|]. split; [intros; assumption|]. split; [intros; assumption|]. split; [intros; rewrite Z2; apply Q'; lia|]. split; intros; rewrite Z2; apply Q; lia.
Qed.
Ltac hdr_cols :=
  unfold carries, msm_hdr_ok, cols_ok, ubits, sbits, pr_bits, cp_bits, lock_bits, cnr_bits;
  split; [|split];
  [repeat match goal with |- _ /\ _ => split end; vm_compute; first [reflexivity|congruence]
  |repeat match goal with |- _ /\ _ => split end;
   match goal with |- Forall _ _ => unfold rx_cols, contents; cbn [w_int w_info w_mod w_rate w_pr w_cp w_lock w_cnr w_dop]; repeat (constructor; [split; reflexivity || (vm_compute; congruence)|]); constructor | |- _ => vm_compute; first [reflexivity|congruence] end
  |].
Ltac rest := match goal with |- exists pad, bits_of_bytes ?p = ?f ++ pad => exists (skipn (length f) (bits_of_bytes p)) end; vm_compute; reflexivity.
Example C78_nonvacuous :
  carries 7 rx_hdr rx_cols (payload 7 rx_hdr rx_cols) /\ ordinary 7 rx_hdr rx_cols /\ opts_ok ex_opts /\ carriers_ok ex_carrier /\ fcn_map_ok (rc_fcns ex_rc) /\
  received_obs ex_carrier ex_num_of ex_opts ex_rc 7 (payload 7 rx_hdr rx_cols) = Some
    [mkpobs 1018943278 0 0 (-1604) 83 175 3 9 5 16; mkpobs 1049347045 112069060 200 2734 12 178 15 11 7 16; mkpobs 1049346586 87164827 184 2126 123 200 1 15 7 17].
Proof.
  split; [hdr_cols; rest|]. split; [|split; [exact (proj1 ex_opts_ok)|split; [exact ex_carriers|split; [exact ex_map_ok|vm_compute; reflexivity]]]].
  unfold ordinary. unfold rx_cols. cbn [w_int w_info w_rate w_cnr]. split; [repeat (constructor; [vm_compute; congruence|]); constructor|]. split; [intros _; repeat (constructor; [right; vm_compute; congruence|]); constructor|].
  split; intros; repeat (constructor; [vm_compute; congruence|]); constructor.
Qed.

(** ** Where the property fails *)
(** (a) GLONASS MSM7 with satellite information 15 ("not available"): it is taken for channel +8, the receiver's own channel map (which has +1 for this
    satellite, and is used for the same measurement in an MSM6) is not consulted, and the phase is 275644 cycles off *)
Theorem C78_unknown_channel_refuted :
  carries 7 (one_cell 1087 6 1) (contents 70 15 5 300 100 100 100 700 5) (payload 7 (one_cell 1087 6 1) (contents 70 15 5 300 100 100 100 700 5)) /\ znth 255 7 (rc_fcns ex_rc) = 8 /\
  received_obs ex_carrier ex_num_of no_opts ex_rc 7 (payload 7 (one_cell 1087 6 1) (contents 70 15 5 300 100 100 100 700 5)) = Some [mkpobs 1049346797 112462844 80 (-1608) 99 175 3 15 7 16] /\
  received_obs ex_carrier ex_num_of no_opts ex_rc 6 (payload 6 (one_cell 1086 6 1) (contents 70 15 5 300 100 100 100 700 5)) = Some [mkpobs 1049346797 112187200 22 0 0 175 3 7 7 16].
Proof. split; [hdr_cols; rest|]. split; [reflexivity|split; vm_compute; reflexivity]. Qed.
(** (b) a C/N0 field of 1022 or 1023 (63.9 dB-Hz, a legal value): 4 C/N0 rounds to 256, which the conversion to an unsigned byte leaves undefined *)
Theorem C78_high_cn0_refuted :
  carries 7 (one_cell 1077 6 1) (contents 70 0 5 300 100 100 100 1022 5) (payload 7 (one_cell 1077 6 1) (contents 70 0 5 300 100 100 100 1022 5)) /\
  received_obs ex_carrier ex_num_of no_opts ex_rc 7 (payload 7 (one_cell 1077 6 1) (contents 70 0 5 300 100 100 100 1022 5)) = None.
Proof. split; [hdr_cols; rest|vm_compute; reflexivity]. Qed.
(** (c) rough range 0 and a negative fine range: a negative pseudorange is converted to an unsigned integer *)
Theorem C78_negative_range_refuted :
  carries 7 (one_cell 1077 6 1) (contents 0 0 0 300 (-100) 100 100 700 5) (payload 7 (one_cell 1077 6 1) (contents 0 0 0 300 (-100) 100 100 700 5)) /\
  received_obs ex_carrier ex_num_of no_opts ex_rc 7 (payload 7 (one_cell 1077 6 1) (contents 0 0 0 300 (-100) 100 100 700 5)) = None.
Proof. split; [hdr_cols; rest|vm_compute; reflexivity]. Qed.
(** (d) a rough rate of 7000 m/s (the field goes to 8191): the Doppler does not fit 16 bits *)
Theorem C78_high_rate_refuted :
  carries 7 (one_cell 1077 6 1) (contents 70 0 5 7000 100 100 100 700 5) (payload 7 (one_cell 1077 6 1) (contents 70 0 5 7000 100 100 100 700 5)) /\
  received_obs ex_carrier ex_num_of no_opts ex_rc 7 (payload 7 (one_cell 1077 6 1) (contents 70 0 5 7000 100 100 100 700 5)) = None.
Proof. split; [hdr_cols; rest|vm_compute; reflexivity]. Qed.
Print Assumptions C78_received_msm_partial.
Print Assumptions C78_ordinary_msm_partial.
Print Assumptions C78_nonvacuous.
Print Assumptions C78_unknown_channel_refuted.
Print Assumptions C78_high_cn0_refuted.
Print Assumptions C78_negative_range_refuted.
Print Assumptions C78_high_rate_refuted.
