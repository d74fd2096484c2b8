(** MSM4-MSM7 decoding against the payload layout of MsmWire_spec. *)
From Verif Require Import Base Bitstring Bits_model Bitstream_model Bitstream_proofs RtcmStation_spec RtcmLegacy_proofs RtcmLegacy_model RtcmMsm_model RtcmMsm_spec RtcmMsm_proofs MsmWire_spec.

Lemma lock_ext l : 0 <= l < 1024 -> from_lock_ext l = lock_ms 7 l.
Proof.
  intros H. unfold lock_ms. change (hi_res 7) with true. cbv iota.
  assert (X : forallb (fun l => from_lock_ext l =? (if l <? 64 then l else if l <? 704 then let k := l / 32 - 1 in 2 ^ k * (l - 32 * k) else 67108864)) (map Z.of_nat (seq 0 1024)) = true) by (vm_compute; reflexivity).
  rewrite forallb_forall in X. apply Z.eqb_eq, X. apply in_map_iff. exists (Z.to_nat l). split; [lia|]. apply in_seq. lia.
Qed.
Lemma lock_std l : 0 <= l < 16 -> decode_lock_time l = lock_ms 4 l.
Proof.
  intros H. unfold lock_ms. change (hi_res 4) with false. cbv iota.
  assert (X : forallb (fun l => decode_lock_time l =? (if l =? 0 then 0 else 2 ^ (l + 4))) (map Z.of_nat (seq 0 16)) = true) by (vm_compute; reflexivity).
  rewrite forallb_forall in X. apply Z.eqb_eq, X. apply in_map_iff. exists (Z.to_nat l). split; [lia|]. apply in_seq. lia.
Qed.
Lemma type_num ty n : 4 <= ty <= 7 -> to_msm_type n = ty -> 1071 <= n <= 1127.
Proof.
  unfold to_msm_type. intros T E. destruct (Z.ltb_spec n 1071); cbn [orb] in E; [lia|]. destruct (Z.ltb_spec 1127 n); cbn [orb] in E; lia.
Qed.
Lemma wire_header_eq ty h : msm_hdr_ok ty h -> wire_header h = hdr_msm_fields h.
Proof.
  intros Hh. destruct (hdr_counts _ _ Hh) as (_ & _ & _ & _ & E & _ & _).
  destruct Hh as (_ & _ & _ & H4 & _ & _ & _ & _ & _ & _ & _ & K1 & K2 & _).
  unfold wire_header, hdr_msm_fields, flags, flag_fields. rewrite !take_all by lia.
  destruct (cons_eqb _ _); [|reflexivity]. cbv zeta. unfold DAY_MS.
  rewrite (Z.mod_small (mh_tow h / 86400000)) by (clear - H4; lia).
  replace (mh_tow h - mh_tow h / 86400000 * 86400000) with (mh_tow h mod 86400000) by lia.
  rewrite (Z.mod_small (mh_tow h mod 86400000) (2 ^ 32)) by (clear; lia). reflexivity.
Qed.
Lemma map_mod n l : Forall (ubits n) l -> map (fun v => v mod 2 ^ n) l = l.
Proof. intros H. induction H as [|x l P H IH]; [reflexivity|]. cbn [map]. rewrite IH, Z.mod_small by exact P. reflexivity. Qed.
Lemma map_signed n l : 1 <= n -> Forall (sbits n) l -> map (to_signed n) l = l.
Proof. intros N H. induction H as [|x l P H IH]; [reflexivity|]. cbn [map]. unfold sbits in P. rewrite IH, to_signed_id by lia. reflexivity. Qed.
Lemma length_nat {A} (l : list A) n : len l = n -> length l = Z.to_nat n.
Proof. unfold len. lia. Qed.

(** the message the decoder builds from the columns *)
Definition built (ty : Z) (h : mhdr) (w : wcols) : mmsg :=
  let odd := with_rates ty in let ext := hi_res ty in
  let r_ok s := negb (znth 0 s (w_int w) =? 255) in
  let range s := znth 0 s (w_int w) * 2 ^ 31 + (if r_ok s then znth 0 s (w_mod w) * 2 ^ 21 else 0) in
  let rate s := if odd then znth 0 s (w_rate w) * 10000 else 0 in
  mkmmsg (decoded_hdr h)
    (mapi 0 (fun s (_ : Z) => mkmsat (if odd then znth 0 s (w_info w) else if is_glo h then 255 else 0) (range s) (rate s)) (w_int w))
    (mapi 0 (fun i (c : Z * Z) =>
       let s := fst c in
       let vp := r_ok s && negb (znth 0 i (w_pr w) =? (if ext then -524288 else -16384)) in
       let vc := r_ok s && negb (znth 0 i (w_cp w) =? (if ext then -8388608 else -2097152)) in
       let vn := negb (znth 0 i (w_cnr w) =? 0) in
       let vd := odd && negb (znth 0 s (w_rate w) =? -8192) && negb (znth 0 i (w_dop w) =? -16384) in
       mkmsig (if vp then range s + znth 0 i (w_pr w) * (if ext then 2 ^ 2 else 2 ^ 7) else 0)
              (if vc then range s + znth 0 i (w_cp w) * (if ext then 1 else 2 ^ 2) else 0)
              (if ext then from_lock_ext (znth 0 i (w_lock w)) else decode_lock_time (znth 0 i (w_lock w)))
              (znth false i (w_hca w)) (if vn then znth 0 i (w_cnr w) * (if ext then 1 else 16) else 0)
              (if vd then rate s + znth 0 i (w_dop w) else 0) vp vc vn true vd)
     (cells (num_sats h) (num_sigs h) (cell_mask h))).

Section Wire.
Variables (ty : Z) (h : mhdr) (w : wcols).
Hypothesis Hty : 4 <= ty <= 7.
Hypothesis Hh : msm_hdr_ok ty h.
Hypothesis Hw : cols_ok ty (set_count (sat_mask h)) (set_count (cell_mask h)) w.

Lemma cells_facts : let cs := cells (num_sats h) (num_sigs h) (cell_mask h) in
  len cs = set_count (cell_mask h) /\
  (forall i s g, cell_is (cell_mask h) (set_count (sig_mask h)) i s g <-> 0 <= i < len cs /\ znth (0, 0) i cs = (s, g)) /\
  (forall i, 0 <= i < len cs -> 0 <= fst (znth (0, 0) i cs) < set_count (sat_mask h)).
Proof.
  cbv zeta. destruct (hdr_counts _ _ Hh) as (A & B & C & D & E & N1 & N2).
  destruct (cells_spec (num_sats h) (num_sigs h) (cell_mask h) N1 N2 ltac:(lia)) as [P Q].
  assert (R : forall i s g, cell_is (cell_mask h) (set_count (sig_mask h)) i s g <-> 0 <= i < len (cells (num_sats h) (num_sigs h) (cell_mask h)) /\ znth (0, 0) i (cells (num_sats h) (num_sigs h) (cell_mask h)) = (s, g))
    by (intros; rewrite <- B, P; apply Q).
  split; [exact P|]. split; [exact R|]. intros i Hi.
  destruct (znth (0, 0) i (cells (num_sats h) (num_sigs h) (cell_mask h))) as [s g] eqn:Z. destruct (proj2 (R i s g) (conj Hi Z)) as [(X & _) G]. cbn [fst].
  rewrite <- A. rewrite <- B in *. rewrite <- E, C in X. clear - X G N1 N2. nia.
Qed.

Lemma wire_decode pad : exists r, decode_msm ty (fields_bits (wire_header h ++ wire_columns ty w) ++ pad) = DOk (built ty h w) r.
Proof.
  rewrite (wire_header_eq ty h Hh).
  destruct (hdr_counts _ _ Hh) as (A' & B' & C' & D & E & N1 & N2). destruct cells_facts as (CL & _ & CS).
  pose proof Hh as Hh'. unfold msm_hdr_ok in Hh'. destruct Hh' as (H1 & H2 & _ & H4 & _ & _ & _ & _ & _ & _ & _ & K1 & K2 & S1 & S2 & L3).
  pose proof (type_num ty _ Hty H1) as NR.
  destruct Hw as ((W1 & W2 & W3 & W4) & (W5 & W6 & W7 & W8 & W9 & W10) & F1 & F2 & F3 & F4 & F5 & F6 & F7 & F8 & F9).
  unfold decode_msm. replace (between 4 ty 7) with true by (unfold between; symmetry; apply andb_true_iff; split; apply Z.leb_le; lia). cbn [negb].
  destruct (hdr_decode ty h Hh (wire_columns ty w) pad) as (fs & -> & HD).
  cbn [app]. rewrite bind_u by (clear - NR; lia). rewrite H1, Z.eqb_refl. cbn [negb].
  replace (cons_eqb (to_constellation (mh_num h)) cINVALID) with false by (destruct (to_constellation (mh_num h)); congruence || reflexivity).
  rewrite (dbind_eq _ _ _ _ _ HD). clear HD.
  assert (NS : num_sats (decoded_hdr h) = num_sats h) by reflexivity. assert (NG : num_sigs (decoded_hdr h) = num_sigs h) by reflexivity.
  assert (NC : num_cells (decoded_hdr h) = num_cells h) by reflexivity. rewrite NS, NG, NC.
  change (cell_mask (decoded_hdr h)) with (cell_mask h).
  replace ((if cons_eqb (to_constellation (mh_num h)) cGLO then RTCM_GLO_MAX_TOW_MS else RTCM_MAX_TOW_MS) <? mh_tow (decoded_hdr h)) with false.
  2:{ symmetry. apply Z.ltb_ge. unfold decoded_hdr, RTCM_GLO_MAX_TOW_MS, RTCM_MAX_TOW_MS, DAY_MS. cbn [mh_tow]. clear - H4.
      destruct (cons_eqb (to_constellation (mh_num h)) cGLO); lia. }
  replace (64 <? num_sats h * num_sigs h) with false by (symmetry; apply Z.ltb_ge; clear - S2 A' B'; rewrite A', B'; lia).
  replace (32 <? num_sats h) with false by (symmetry; apply Z.ltb_ge; clear - S1 A'; rewrite A'; lia).
  rewrite A', D. unfold wire_columns. change column with col. change flags with flag_fields.
  unfold built. rewrite A' in *.
  assert (T : ty = 4 \/ ty = 5 \/ ty = 6 \/ ty = 7) by (clear - Hty; lia).
  unfold pr_bits, cp_bits, lock_bits, cnr_bits in *.
  set (cs := cells (set_count (sat_mask h)) (num_sigs h) (cell_mask h)) in *.
  destruct T as [T|[T|[T|T]]]; rewrite T in *;
  [change (with_rates 4) with false in *; change (hi_res 4) with false in *
  |change (with_rates 5) with true in *; change (hi_res 5) with false in *
  |change (with_rates 6) with false in *; change (hi_res 6) with true in *
  |change (with_rates 7) with true in *; change (hi_res 7) with true in *];
  cbn [Z.eqb Pos.eqb orb]; cbv iota in *; rewrite <- ?app_assoc; cbn [app]; try rewrite <- (app_nil_r (col 15 (w_dop w)));
  repeat first [rewrite bind_ret|rewrite bind_list_u by (first [apply length_nat; assumption|clear; lia])
               |rewrite bind_list_s by (first [apply length_nat; assumption|clear; lia])|rewrite bind_list_b by (apply length_nat; assumption)];
  rewrite ?map_mod, ?map_signed by (first [assumption|clear; lia]);
  eexists; unfold ret; f_equal; f_equal.
  all: first [apply (mapi_ext 0); intros i Hi; cbn [Z.add]; unfold is_glo; cbn [negb]; rewrite ?andb_true_r, ?andb_false_r, ?znth_repeat by (clear - Hi W1; unfold len in *; lia); first [reflexivity|destruct (cons_eqb _ _); reflexivity]
             |apply (mapi_ext (0,0)); intros i Hi; cbn [Z.add]; specialize (CS i Hi); cbv zeta; rewrite ?znth_repeat by (clear - Hi CS CL; lia); reflexivity].
Qed.
Lemma built_meaning : msm_meaning ty h w (built ty h w).
Proof.
  destruct cells_facts as (CL & CI & CS). destruct Hw as ((W1 & W2 & W3 & W4) & (W5 & W6 & W7 & W8 & W9 & W10) & F1 & F2 & F3 & F4 & F5 & F6 & F7 & F8 & F9).
  unfold msm_meaning, built. cbv zeta. cbn [m_hdr m_sats m_sigs].
  split; [reflexivity|]. split; [rewrite len_mapi; exact W1|]. split; [|split; [rewrite len_mapi; exact CL|]].
  - intros s Hs. rewrite (znth_mapi _ 0) by (clear - Hs W1; lia). cbn [Z.add]. unfold sat_meaning. cbn [rough_range rough_rate glo_fcn].
    split; [|split; [destruct (with_rates ty); [ring|reflexivity]|reflexivity]].
    intros N. apply Z.eqb_neq in N. rewrite N. cbn [negb]. change (2 ^ 31) with (1024 * 2 ^ 21). ring.
  - intros i s g Hi Hc. apply CI in Hc. destruct Hc as [Hc1 Hc2]. rewrite (znth_mapi _ (0,0)) by exact Hc1. cbn [Z.add]. rewrite Hc2. cbn [fst].
    unfold sig_meaning. cbn [s_pr s_cp s_lock s_hca s_cnr s_rate sv_pr sv_cp sv_cnr sv_lock sv_dop].
    assert (RG : forall b, negb (znth 0 s (w_int w) =? 255) && b = true ->
       znth 0 s (w_int w) * 2 ^ 31 + (if negb (znth 0 s (w_int w) =? 255) then znth 0 s (w_mod w) * 2 ^ 21 else 0) = (1024 * znth 0 s (w_int w) + znth 0 s (w_mod w)) * 2 ^ 21).
    { intros b H. apply andb_true_iff in H. destruct H as [-> _]. change (2 ^ 31) with (1024 * 2 ^ 21). ring. }
    split; [|split; [|split; [|split; [|split; [|split; [|split; [|split; [|split]]]]]]]].
    + rewrite andb_true_iff, !negb_true_iff, !Z.eqb_neq. unfold pr_bits. destruct (hi_res ty); reflexivity.
    + intros V. rewrite V. rewrite (RG _ V). destruct (hi_res ty); reflexivity.
    + rewrite andb_true_iff, !negb_true_iff, !Z.eqb_neq. unfold cp_bits. destruct (hi_res ty); reflexivity.
    + intros V. rewrite V. rewrite (RG _ V). destruct (hi_res ty); reflexivity.
    + split; [reflexivity|]. assert (L : ubits (lock_bits ty) (znth 0 i (w_lock w))) by (apply Forall_znth; [assumption|clear - Hi W7; lia]).
      unfold ubits, lock_bits, lock_ms in *. destruct (hi_res ty); [rewrite lock_ext by (clear - L; lia); reflexivity|rewrite lock_std by (clear - L; lia); reflexivity].
    + reflexivity.
    + rewrite negb_true_iff, Z.eqb_neq. reflexivity.
    + intros V. rewrite V. reflexivity.
    + rewrite !andb_true_iff, !negb_true_iff, !Z.eqb_neq. tauto.
    + intros V. rewrite V. apply andb_true_iff in V. destruct V as [V _]. apply andb_true_iff in V. destruct V as [-> _]. ring.
Qed.
End Wire.
