From Verif Require Import Base Bitstring Bits_model Bits_proofs Bitstream_model Bitstream_proofs RtcmStation_spec RtcmStation_proofs
  RtcmLegacy_model RtcmLegacy_spec.

Lemma round_div_close x d : 0 < d -> 2 * Z.abs (d * round_div x d - x) <= d.
Proof.
  intros Hd. unfold round_div. destruct (Z.leb_spec 0 x).
  - pose proof (Z.div_mod (2 * x + d) (2 * d) ltac:(lia)). pose proof (Z.mod_pos_bound (2 * x + d) (2 * d) ltac:(lia)).
    remember ((2 * x + d) / (2 * d)) as q. remember ((2 * x + d) mod (2 * d)) as r. clear Heqq Heqr. nia.
  - pose proof (Z.div_mod (- (2 * x) + d) (2 * d) ltac:(lia)). pose proof (Z.mod_pos_bound (- (2 * x) + d) (2 * d) ltac:(lia)).
    remember ((- (2 * x) + d) / (2 * d)) as q. remember ((- (2 * x) + d) mod (2 * d)) as r. clear Heqq Heqr. nia.
Qed.
Lemma round_div_bounds x d a b : 0 < d -> a * d <= x -> x <= b * d -> a <= round_div x d <= b.
Proof.
  intros Hd H1 H2. pose proof (round_div_close x d Hd) as C. set (q := round_div x d) in *.
  assert (a * d - d < d * q) by lia. assert (d * q < b * d + d) by lia. nia.
Qed.

Lemma lock_close_ok t : 0 <= t -> lock_close t (from_lock_ind (to_lock_ind t)) /\ 0 <= to_lock_ind t < 2 ^ 7.
Proof.
  intros Ht. unfold lock_close, to_lock_ind, from_lock_ind.
  destruct (Z.ltb_spec t 24); [destruct (Z.ltb_spec t 24); lia|].
  destruct (Z.ltb_spec t 72).
  { destruct (Z.ltb_spec ((t + 24) / 2) 24); [lia|]. destruct (Z.ltb_spec ((t + 24) / 2) 48); lia. }
  destruct (Z.ltb_spec t 168).
  { destruct (Z.ltb_spec ((t + 120) / 4) 24); [lia|]. destruct (Z.ltb_spec ((t + 120) / 4) 48); [lia|].
    destruct (Z.ltb_spec ((t + 120) / 4) 72); lia. }
  destruct (Z.ltb_spec t 360).
  { destruct (Z.ltb_spec ((t + 408) / 8) 24); [lia|]. destruct (Z.ltb_spec ((t + 408) / 8) 48); [lia|].
    destruct (Z.ltb_spec ((t + 408) / 8) 72); [lia|]. destruct (Z.ltb_spec ((t + 408) / 8) 96); lia. }
  destruct (Z.ltb_spec t 744).
  { destruct (Z.ltb_spec ((t + 1176) / 16) 24); [lia|]. destruct (Z.ltb_spec ((t + 1176) / 16) 48); [lia|].
    destruct (Z.ltb_spec ((t + 1176) / 16) 72); [lia|]. destruct (Z.ltb_spec ((t + 1176) / 16) 96); [lia|].
    destruct (Z.ltb_spec ((t + 1176) / 16) 120); lia. }
  destruct (Z.ltb_spec t 937).
  { destruct (Z.ltb_spec ((t + 3096) / 32) 24); [lia|]. destruct (Z.ltb_spec ((t + 3096) / 32) 48); [lia|].
    destruct (Z.ltb_spec ((t + 3096) / 32) 72); [lia|]. destruct (Z.ltb_spec ((t + 3096) / 32) 96); [lia|].
    destruct (Z.ltb_spec ((t + 3096) / 32) 120); [lia|]. destruct (Z.ltb_spec ((t + 3096) / 32) 127); lia. }
  cbn. lia.
Qed.
Lemma lock_field_ok fd : freq_ok fd -> 0 <= lock_field fd < 2 ^ 7 /\
  (v_lock fd = true -> lock_close (lock fd) (from_lock_ind (lock_field fd))).
Proof.
  intros [H _]. unfold lock_field. destruct (v_lock fd).
  - destruct (lock_close_ok (lock fd) (H eq_refl)). auto.
  - split; [lia|discriminate].
Qed.

Lemma to_signed_id n v : 1 <= n -> - 2 ^ (n - 1) <= v < 2 ^ (n - 1) -> to_signed n v = v.
Proof. intros Hn Hv. rewrite <- (to_signed_mod n v Hn Hv) at 2. unfold to_signed. rewrite Z.mod_mod by (apply Z.pow_nonzero; lia). reflexivity. Qed.

Lemma diff_in_range x f : 0 < f -> Z.abs x <= f * 524220 ->
  encode_diff_phaserange x f = round_div x f /\ -524220 <= round_div x f <= 524220.
Proof.
  intros Hf Hx. assert (R : -524220 <= round_div x f <= 524220) by (apply round_div_bounds; nia).
  split; [|exact R]. unfold encode_diff_phaserange, C_2P19. rewrite to_signed_id by lia.
  change (- (524288)) with (-524288). destruct (Z.leb_spec (round_div x f) (-524288)); [lia|]. destruct (Z.leb_spec 524288 (round_div x f)); [lia|reflexivity].
Qed.

Section Facts.
Variables (s : sys) (p : Z).
Hypothesis Hp : 0 <= p < amb_max s * prunit s.
Let A := amb_of s p.
Let P := prunit s.
Lemma P_pos : 0 < P. Proof. unfold P. destruct s; cbn; unfold PRUNIT_GPS, PRUNIT_GLO; lia. Qed.
Lemma A_range : 0 <= A < amb_max s /\ 0 <= p - A * P < P.
Proof.
  pose proof P_pos as HP. unfold A, amb_of. fold P. fold P in Hp.
  pose proof (Z.div_mod p P ltac:(lia)). pose proof (Z.mod_pos_bound p P HP).
  split; [|lia]. split; [apply Z.div_pos; lia|]. apply Z.div_lt_upper_bound; lia.
Qed.
Lemma calc_range : 0 <= calc_l1_pr s p < 2 ^ (match s with GPS => 24 | GLO => 25 end) /\
  Z.abs (40 * calc_l1_pr s p + A * P - p) <= 20.
Proof.
  destruct A_range as [HA HR]. unfold calc_l1_pr. fold A P.
  pose proof (round_div_close (p - A * P) 40 ltac:(lia)). split; [|lia].
  pose proof (round_div_bounds (p - A * P) 40 0 (P / 40 + 1) ltac:(lia) ltac:(lia)) as B.
  assert (p - A * P <= (P / 40 + 1) * 40) by lia. specialize (B H0).
  assert (P / 40 + 1 < 2 ^ match s with GPS => 24 | GLO => 25 end) by (unfold P; destruct s; reflexivity). lia.
Qed.
Lemma cp_field_ok f fd : 0 < f -> carrier_ok f p fd -> v_cp fd = true ->
  exists d, cp_field s f fd p = d /\ -524220 <= d <= 524220 /\
    2 * Z.abs (f * (40 * calc_l1_pr s p + A * P + d) - cp fd) <= f.
Proof.
  intros Hf Hc Hv. unfold carrier_ok in Hc. specialize (Hc Hv). destruct calc_range as [_ HC]. unfold cp_field. rewrite Hv. fold A P.
  set (q := 40 * calc_l1_pr s p + A * P) in *.
  assert (Hx : Z.abs (cp fd - f * q) <= f * 524220) by nia.
  destruct (diff_in_range (cp fd - f * q) f Hf Hx) as [-> R]. exists (round_div (cp fd - f * q) f).
  split; [reflexivity|]. split; [exact R|]. pose proof (round_div_close (cp fd - f * q) f Hf). lia.
Qed.
Lemma conv_l1 fd : freq_ok fd -> pr fd = p -> conv_ok s fd p = true /\ pr_val s fd p = calc_l1_pr s p.
Proof.
  intros [HL _] E. destruct A_range as [HA _]. destruct calc_range as [HC _].
  assert (EV : pr_val s fd p = calc_l1_pr s p) by (unfold pr_val, calc_l1_pr; now rewrite E).
  split; [|exact EV]. unfold conv_ok. rewrite EV. fold A.
  assert (A < 256) by (destruct s; cbn [amb_max] in HA; lia).
  assert (calc_l1_pr s p < 2 ^ 32) by (destruct s; lia).
  repeat (apply andb_true_iff; split); try (apply Z.leb_le; lia); try (apply Z.ltb_lt; lia).
  destruct (v_lock fd); cbn; [apply Z.leb_le; auto|reflexivity].
Qed.
Lemma conv_l2 fd : freq_ok fd -> A * P <= pr fd < 2 ^ 36 -> conv_ok s fd p = true /\
  Z.abs (40 * pr_val s fd p - (pr fd - A * P)) <= 20.
Proof.
  intros [HL _] E. destruct A_range as [HA _]. pose proof P_pos. unfold conv_ok, pr_val. fold A P.
  pose proof (round_div_close (pr fd - A * P) 40 ltac:(lia)).
  pose proof (round_div_bounds (pr fd - A * P) 40 0 (2 ^ 32 - 1) ltac:(lia) ltac:(lia) ltac:(nia)).
  assert (A < 256) by (destruct s; cbn [amb_max] in HA; lia). split; [|lia].
  repeat (apply andb_true_iff; split); try (apply Z.leb_le; lia); try (apply Z.ltb_lt; lia).
  destruct (v_lock fd); cbn; [apply Z.leb_le; auto|reflexivity].
Qed.
End Facts.

Lemma freq_l1_pos s fc : (s = GLO -> 0 <= fc <= 20) -> 0 < freq_l1 s fc.
Proof. destruct s; unfold freq_l1, GPS_L1_HZ, GLO_L1_HZ; intros H; [lia|specialize (H eq_refl); lia]. Qed.
Lemma freq_l2_pos s fc : (s = GLO -> 0 <= fc <= 20) -> 0 < freq_l2 s fc.
Proof. destruct s; unfold freq_l2, GPS_L2_HZ, GLO_L2_HZ; intros H; [lia|specialize (H eq_refl); lia]. Qed.

(** *** one satellite *)
Lemma cnr_ok fd : freq_ok fd -> enc_cnr fd = Some [(8, cnr fd)].
Proof. intros [_ H]. unfold enc_cnr. destruct (Z.leb_spec 0 (cnr fd)); [|lia]. destruct (Z.ltb_spec (cnr fd) 256); [|lia]. reflexivity. Qed.

Lemma enc_l1_ok s fc fd p : 0 <= p < amb_max s * prunit s -> freq_ok fd -> pr fd = p -> v_pr fd = true ->
  enc_l1 s fc fd p = Some ((1, 0) :: match s with GPS => [(24, calc_l1_pr s p)] | GLO => [(5, fc); (25, calc_l1_pr s p)] end
     ++ [(20, cp_field s (freq_l1 s fc) fd p); (7, lock_field fd)]).
Proof. intros Hp Hf E V. unfold enc_l1. destruct (conv_l1 s p Hp fd Hf E) as [-> ->]. rewrite V. reflexivity. Qed.

Definition l2_code_field (s : sys) (fd : freq) (p : Z) : Z := if v_pr fd then pr_val s fd p - calc_l1_pr s p else PR_L2_INVALID.
Lemma enc_l2_ok s fc fd p : 0 <= p < amb_max s * prunit s -> freq_ok fd -> amb_of s p * prunit s <= pr fd < 2 ^ 36 ->
  enc_l2 s fc fd p = Some [(2, 0); (14, l2_code_field s fd p); (20, cp_field s (freq_l2 s fc) fd p); (7, lock_field fd)].
Proof. intros Hp Hf E. unfold enc_l2. destruct (conv_l2 s p Hp fd Hf E) as [-> _]. reflexivity. Qed.

Lemma cp_field_range s p f fd : 0 <= p < amb_max s * prunit s -> 0 < f -> carrier_ok f p fd -> - 2 ^ (20 - 1) <= cp_field s f fd p < 2 ^ (20 - 1).
Proof.
  intros Hp Hf Hc. destruct (v_cp fd) eqn:V.
  - destruct (cp_field_ok s p Hp f fd Hf Hc V) as (d & -> & R & _). lia.
  - unfold cp_field. rewrite V. unfold CP_INVALID. lia.
Qed.
Lemma cp_field_valid s p f fd : 0 <= p < amb_max s * prunit s -> 0 < f -> carrier_ok f p fd ->
  negb (cp_field s f fd p =? CP_INVALID) = v_cp fd /\
  (v_cp fd = true -> 2 * Z.abs (f * (40 * calc_l1_pr s p + amb_of s p * prunit s + cp_field s f fd p) - cp fd) <= f).
Proof.
  intros Hp Hf Hc. destruct (v_cp fd) eqn:V.
  - destruct (cp_field_ok s p Hp f fd Hf Hc V) as (d & -> & R & C). split; [|auto].
    apply negb_true_iff, Z.eqb_neq. unfold CP_INVALID. lia.
  - unfold cp_field. rewrite V. split; [reflexivity|discriminate].
Qed.
Lemma l2_code_ok s p fd : 0 <= p < amb_max s * prunit s -> freq_ok fd -> amb_of s p * prunit s <= pr fd < 2 ^ 36 ->
  (v_pr fd = true -> Z.abs (pr fd - p) <= 320000) ->
  - 2 ^ (14 - 1) <= l2_code_field s fd p < 2 ^ (14 - 1) /\ negb (l2_code_field s fd p =? PR_L2_INVALID) = v_pr fd /\
  (v_pr fd = true -> Z.abs (40 * l2_code_field s fd p + (40 * calc_l1_pr s p + amb_of s p * prunit s) - pr fd) <= 20).
Proof.
  intros Hp Hf E Hd. unfold l2_code_field. destruct (v_pr fd) eqn:V.
  - specialize (Hd eq_refl). destruct (conv_l2 s p Hp fd Hf E) as [_ C2]. destruct (calc_range s p Hp) as [_ C1].
    unfold PR_L2_INVALID. rewrite negb_true_iff, Z.eqb_neq. lia.
  - unfold PR_L2_INVALID. repeat split; try lia.
Qed.

Ltac steps := cbn [app]; repeat first
  [ rewrite bind_assoc | rewrite bind_ret | rewrite bind_u by (first [assumption|clear; lia]) | rewrite bind_s by (first [assumption|clear; lia]) ]; cbv beta.

Lemma close20 x y : Z.abs x <= 20 -> x = y -> Z.abs y <= 20. Proof. now intros H <-. Qed.
Lemma close2 f x y : 2 * Z.abs x <= f -> x = y -> 2 * Z.abs y <= f. Proof. now intros H <-. Qed.
Ltac ringx := first [ring | match goal with x := 40 * _ + _ |- _ => unfold x; ring end].
Ltac finish := repeat match goal with |- _ /\ _ => split | |- true = true -> _ => intros _ end;
  first [ exact eq_refl | solve [auto] | discriminate
        | match goal with Hfcn : _ -> 0 <= _ <= 20 |- (_ <=? MT1012_GLO_MAX_FCN) && true = true =>
            specialize (Hfcn eq_refl); unfold MT1012_GLO_MAX_FCN; clear - Hfcn; rewrite andb_true_r; apply Z.leb_le; lia end
        | intros; match goal with
          | H : Z.abs _ <= 20 |- _ => (eapply close20; [exact H|]); ringx
          | H : v_pr _ = true -> Z.abs _ <= 20, V : v_pr _ = true |- _ => (eapply close20; [exact (H V)|]); ringx
          | H : 2 * Z.abs _ <= _ |- _ => (eapply close2; [exact H|]); ringx
          | H : v_cp _ = true -> 2 * Z.abs _ <= _, V : v_cp _ = true |- _ => (eapply close2; [exact (H V)|]); ringx
          end
        | idtac ].

Lemma sat_round_trip k s : legacy_kind k -> sat_ok k s -> usable k s = true ->
  exists fs, enc_sat k s = Some fs /\ Forall width_ok fs /\ total fs <= 256 /\
  forall rest pad, exists s', decode_sat k (fields_bits (fs ++ rest) ++ pad) = DOk s' (fields_bits rest ++ pad) /\ sat_received k s s'.
Proof.
  intros Hk Hs Hu. unfold sat_ok in Hs. destruct Hs as (Hsv & Hfcn & Hp & Hf1 & Hc1 & H2). unfold ubits in Hsv.
  unfold usable in Hu. apply andb_true_iff in Hu. destruct Hu as [Hu Hu2]. apply andb_true_iff in Hu. destruct Hu as [Vp1 Vc1].
  set (p := pr (l1 s)) in *.
  pose proof (A_range (k_sys k) p Hp) as [HA _]. pose proof (calc_range (k_sys k) p Hp) as [HR HC].
  pose proof (freq_l1_pos (k_sys k) (fcn s) Hfcn) as Hff1. pose proof (freq_l2_pos (k_sys k) (fcn s) Hfcn) as Hff2.
  pose proof (cp_field_range _ _ _ _ Hp Hff1 Hc1) as R1. pose proof (cp_field_valid _ _ _ _ Hp Hff1 Hc1) as [V1 P1].
  specialize (P1 Vc1). rewrite Vc1 in V1.
  pose proof (lock_field_ok _ Hf1) as [RL1 CL1]. pose proof (cnr_ok _ Hf1) as EC1.
  pose proof (enc_l1_ok (k_sys k) (fcn s) (l1 s) p Hp Hf1 eq_refl Vp1) as E1.
  assert (Hn1 : 0 <= cnr (l1 s) < 2 ^ 8) by (destruct Hf1; lia).
  unfold enc_sat, sat_received, l1_received, l2_received, range_close, phase_close, dropped. fold p. rewrite E1, EC1.
  set (q := calc_l1_pr (k_sys k) p) in *. set (a := amb_of (k_sys k) p) in *. fold a.
  change (p / prunit (k_sys k)) with a.
  set (d1 := cp_field (k_sys k) (freq_l1 (k_sys k) (fcn s)) (l1 s) p) in *.
  set (L1 := lock_field (l1 s)) in *.
  set (p' := 40 * q + a * prunit (k_sys k)) in *.
  assert (NE : negb (q =? CP_INVALID) = true) by (apply negb_true_iff, Z.eqb_neq; unfold CP_INVALID; lia).
  assert (E2 : k_two k = true ->
    enc_l2 (k_sys k) (fcn s) (l2 s) p = Some [(2, 0); (14, l2_code_field (k_sys k) (l2 s) p);
      (20, cp_field (k_sys k) (freq_l2 (k_sys k) (fcn s)) (l2 s) p); (7, lock_field (l2 s))] /\ enc_cnr (l2 s) = Some [(8, cnr (l2 s))]).
  { intros T. destruct (H2 T) as (Hf2 & Hc2 & HP2 & HD2). split; [now apply enc_l2_ok|now apply cnr_ok]. }
  unfold legacy_kind in Hk. cbn [In] in Hk.
  assert (Kfcn : match k_sys k with GPS => True | GLO => 0 <= fcn s < 2 ^ 5 end) by (destruct (k_sys k); [exact I|specialize (Hfcn eq_refl); lia]).
  destruct (k_two k) eqn:T.
  - destruct (E2 eq_refl) as [-> ->]. destruct (H2 eq_refl) as (Hf2 & Hc2 & HP2 & HD2).
    pose proof (cp_field_range _ _ _ _ Hp Hff2 Hc2) as R2. pose proof (cp_field_valid _ _ _ _ Hp Hff2 Hc2) as [V2 P2].
    pose proof (lock_field_ok _ Hf2) as [RL2 CL2]. pose proof (l2_code_ok _ _ _ Hp Hf2 HP2 HD2) as (RQ & VQ & PQ).
    assert (Hn2 : 0 <= cnr (l2 s) < 2 ^ 8) by (destruct Hf2; lia).
    fold q a in P2, PQ. fold p' in P2, PQ.
    set (d2 := cp_field (k_sys k) (freq_l2 (k_sys k) (fcn s)) (l2 s) p) in *.
    set (L2 := lock_field (l2 s)) in *. set (q2 := l2_code_field (k_sys k) (l2 s) p) in *.
    destruct Hk as [<-|[<-|[<-|[<-|[<-|[<-|[]]]]]]]; try discriminate T;
      cbn [k_sys k_ext K1003 K1004 K1012 amb_width amb_max prunit freq_l1 freq_l2] in *; cbn [oapp];
      eexists; (split; [reflexivity|]); (split; [cbn [app]; widths|]); (split; [cbn; clear; lia|]); intros rest pad;
      unfold decode_sat; cbn [k_sys k_ext k_two K1003 K1004 K1012 amb_width freq_l1 freq_l2 prunit]; unfold get_cnr, no_cnr; steps;
      (eexists; split; [reflexivity|]); cbn [sv fcn l1 l2 pr cp lock cnr v_pr v_cp v_lock v_cnr fst snd];
      cbn [freq_l1 freq_l2 prunit] in *; fold p'; rewrite ?VQ, ?V1, ?V2, ?NE.
    all: clear Hu2 HP2 HD2 H2 Hc1 Hc2 Hf1 Hf2 R1 R2 RL1 RL2 Hn1 Hn2 Hff1 Hff2 Hp HR HA E1 E2 EC1 RQ Hsv.
    all: finish.
  - assert (E2' : forall (A : Type) (x y : A), (if k_two k then x else y) = y) by (intros; now rewrite T).
    destruct Hk as [<-|[<-|[<-|[<-|[<-|[<-|[]]]]]]]; try discriminate T;
      cbn [k_sys k_ext K1001 K1002 K1010 amb_width amb_max prunit freq_l1 freq_l2] in *; cbn [oapp app];
      eexists; (split; [reflexivity|]); (split; [cbn [app]; widths|]); (split; [cbn; clear; lia|]); intros rest pad;
      unfold decode_sat; cbn [k_sys k_ext k_two K1001 K1002 K1010 amb_width freq_l1 freq_l2 prunit]; unfold get_cnr, no_cnr; steps;
      (eexists; split; [reflexivity|]); cbn [sv fcn l1 l2 pr cp lock cnr v_pr v_cp v_lock v_cnr fst snd];
      cbn [freq_l1 freq_l2 prunit] in *; fold p'; rewrite ?V1, ?NE.
    all: clear Hu2 H2 Hc1 Hf1 R1 RL1 Hn1 Hff1 Hff2 Hp HR HA E1 E2 E2' EC1 Hsv.
    all: finish.
Qed.

(** *** the satellite loop *)
Lemma included_usable k s : included k s = usable k s. Proof. reflexivity. Qed.
Lemma sats_round_trip k l : legacy_kind k -> Forall (fun s => usable k s = true -> sat_ok k s) l ->
  forall num, 0 <= num -> num + len (filter (usable k) l) <= 31 ->
  exists fs, enc_sats k num l = Some (fs, num + len (filter (usable k) l)) /\ Forall width_ok fs /\
    total fs <= 256 * len (filter (usable k) l) /\
    forall rest pad, exists l', get_list (decode_sat k) (length (filter (usable k) l)) (fields_bits (fs ++ rest) ++ pad)
                                = DOk l' (fields_bits rest ++ pad) /\ Forall2 (sat_received k) (filter (usable k) l) l'.
Proof.
  intros Hk H. induction H as [|s l Hs Hl IH]; intros num H0 Hn; cbn [enc_sats filter].
  - exists []. cbn [filter] in *. rewrite len_nil, Z.add_0_r. split; [reflexivity|]. split; [constructor|]. split; [cbn; lia|].
    intros rest pad. exists []. split; [reflexivity|constructor].
  - rewrite included_usable. destruct (usable k s) eqn:U.
    + cbn [filter] in Hn. rewrite U, len_cons in Hn. pose proof (len_nonneg (filter (usable k) l)).
      destruct (sat_round_trip k s Hk (Hs eq_refl) U) as (fs & E & W & T & D). rewrite E.
      unfold RTCM_MAX_SATS. destruct (Z.leb_spec 32 (num + 1)); [lia|].
      destruct (IH (num + 1) ltac:(lia) ltac:(lia)) as (fr & E' & W' & T' & D'). rewrite E'.
      exists (fs ++ fr). rewrite len_cons. split; [f_equal; f_equal; lia|]. split; [apply Forall_app; auto|].
      split; [rewrite total_app; lia|]. intros rest pad. cbn [length get_list].
      destruct (D (fr ++ rest) pad) as (s' & Es & Rs). destruct (D' rest pad) as (l' & El & Rl).
      exists (s' :: l'). split; [|constructor; assumption]. rewrite <- app_assoc. unfold dbind. rewrite Es, El. reflexivity.
    + cbn [filter] in Hn. rewrite U in Hn. apply IH; assumption.
Qed.

(** *** a body written first, then a header in front of it *)
Lemma body_then_header buff hd body start : bytes buff -> Forall width_ok hd -> Forall width_ok body -> total hd = start ->
  start + total body <= 8 * len buff ->
  let '(b1, bit) := put_fields buff start body in
  let '(b2, _) := put_fields b1 0 hd in
  bit = start + total body /\ len b2 = len buff /\ bytes b2 /\
  exists pad, bits_of_bytes (take (byte_len bit) b2) = fields_bits (hd ++ body) ++ pad.
Proof.
  intros Hb Wh Wb Ts Hl. pose proof (total_nonneg _ Wh) as N1. pose proof (total_nonneg _ Wb) as N2.
  pose proof (put_fields_spec body buff start Wb ltac:(lia) Hl) as P. cbn zeta in P.
  destruct (put_fields buff start body) as [b1 bit]. cbn [fst snd] in P. destruct P as (-> & L1 & B1 & O1 & V1).
  pose proof (put_fields_spec hd b1 0 Wh ltac:(lia) ltac:(lia)) as P. cbn zeta in P.
  destruct (put_fields b1 0 hd) as [b2 bit2]. cbn [fst snd] in P. destruct P as (_ & L2 & B2 & O2 & V2).
  split; [reflexivity|]. split; [lia|]. split; [auto|].
  unfold byte_len. set (t := start + total body). set (n := (t + 7) / 8).
  exists (bits_at b2 t (Z.to_nat (8 * n - t))).
  replace n with (Z.of_nat (Z.to_nat n)) at 1 by lia. rewrite bits_of_bytes_take; [|auto|lia].
  replace (8 * Z.to_nat n)%nat with (Z.to_nat (total hd) + (Z.to_nat (total body) + Z.to_nat (8 * n - t)))%nat by lia.
  rewrite !bits_at_app, fields_bits_app, <- app_assoc. rewrite V2. f_equal.
  replace (0 + Z.of_nat (Z.to_nat (total hd))) with start by lia.
  replace (start + Z.of_nat (Z.to_nat (total body))) with t by lia. f_equal.
  rewrite <- V1. apply bits_at_ext. intros j Hj. apply O2; lia.
Qed.

(** *** whole messages *)
Lemma legacy_round_trip k m buff : legacy_kind k -> hdr_ok k (o_hdr m) ->
  Forall (fun s => usable k s = true -> sat_ok k s) (o_sats m) -> len (filter (usable k) (o_sats m)) <= 31 ->
  bytes buff -> 8 + 32 * len (filter (usable k) (o_sats m)) <= len buff ->
  exists b n, encode_obs k m buff = Some (b, n) /\ len b = len buff /\ bytes b /\
    0 < n <= 8 + 32 * len (filter (usable k) (o_sats m)) /\
    exists m', run_dec (decode_obs k) (take n b) = Ok m' /\ o_hdr m' = o_hdr m /\
      Forall2 (sat_received k) (filter (usable k) (o_sats m)) (o_sats m').
Proof.
  intros Hk Hh Hs Hn Hb Hl. unfold hdr_ok, ubits in Hh. destruct Hh as (H1 & H2 & H3 & H4 & H5).
  destruct (sats_round_trip k _ Hk Hs 0 ltac:(lia) ltac:(lia)) as (body & E & Wb & Tb & D).
  pose proof (len_nonneg (filter (usable k) (o_sats m))) as Hpos.
  set (U := filter (usable k) (o_sats m)) in *. cbn [Z.add] in E.
  set (hd := hdr_fields k (o_hdr m) (len U)).
  assert (Wh : Forall width_ok hd) by (unfold hd, hdr_fields; destruct (k_sys k); cbn [tow_width]; widths).
  assert (Th : total hd = body_start k) by (unfold hd, hdr_fields, body_start; destruct (k_sys k); reflexivity).
  assert (S0 : 0 < body_start k <= 64) by (unfold body_start; destruct (k_sys k); lia).
  pose proof (total_nonneg _ Wb) as Tb0.
  pose proof (body_then_header buff hd body (body_start k) Hb Wh Wb Th ltac:(lia)) as P.
  unfold encode_obs. rewrite E. fold hd. destruct (put_fields buff (body_start k) body) as [b1 bit]. destruct (put_fields b1 0 hd) as [b2 bit2].
  destruct P as (-> & L & B & pad & EB). exists b2, (byte_len (body_start k + total body)).
  split; [reflexivity|]. split; [exact L|]. split; [exact B|]. split; [unfold byte_len; lia|].
  unfold run_dec. rewrite EB. unfold hd, hdr_fields. cbn [app]. unfold decode_obs.
  assert (KN : 0 <= k_num k < 2 ^ 12) by (unfold legacy_kind in Hk; cbn [In] in Hk; destruct Hk as [<-|[<-|[<-|[<-|[<-|[<-|[]]]]]]]; cbn; lia).
  assert (TW : 0 <= tow_width (k_sys k) /\ 0 <= h_tow (o_hdr m) < 2 ^ tow_width (k_sys k)).
  { revert H2. clear. destruct (k_sys k); cbn [tow_width max_tow]; unfold RTCM_MAX_TOW_MS, RTCM_GLO_MAX_TOW_MS; lia. }
  destruct TW as [TW1 TW2].
  do 2 dstep. rewrite bind_u by assumption. rewrite bind_u by (lia || assumption). rewrite bind_u by lia. rewrite bind_u by (lia || assumption).
  rewrite bind_u by (lia || assumption). cbv beta. rewrite Z.eqb_refl. cbn [negb].
  destruct (Z.ltb_spec (max_tow (k_sys k)) (h_tow (o_hdr m))); [lia|].
  rewrite to_nat_len. destruct (D [] pad) as (l' & El & R). rewrite app_nil_r in El. unfold dbind. rewrite El. cbn.
  eexists. split; [reflexivity|]. cbn. split; [destruct (o_hdr m); reflexivity|exact R].
Qed.
Lemma cut_sat k : legacy_kind k -> cut_safe (decode_sat k).
Proof.
  unfold legacy_kind. cbn [In]. intros [<-|[<-|[<-|[<-|[<-|[<-|[]]]]]]]; unfold decode_sat, get_cnr;
    cbn [k_sys k_ext k_two K1001 K1002 K1003 K1004 K1010 K1012 amb_width]; cut.
Qed.
Lemma cut_obs k : legacy_kind k -> cut_safe (decode_obs k).
Proof.
  intros Hk. unfold decode_obs. pose proof (cut_sat k Hk).
  assert (0 <= tow_width (k_sys k)) by (destruct (k_sys k); cbn; lia). revert H. generalize (decode_sat k). intros d Hd. cut. exact Hd.
Qed.

(** the phase-range rollover *)
Lemma rollover_congruent x f : 0 < f -> Z.abs x < f * 2 ^ 30 -> 1500 * CYCLE < f * 2 ^ 20 ->
  exists j, 2 * Z.abs (f * encode_diff_phaserange x f - (x + 1500 * CYCLE * j)) <= f /\ - C_2P19 <= encode_diff_phaserange x f <= C_2P19.
Proof.
  intros Hf Hx Hw. unfold encode_diff_phaserange.
  assert (R : - 2 ^ 30 <= round_div x f <= 2 ^ 30) by (apply round_div_bounds; lia).
  assert (W : 0 < 1500 * CYCLE) by (unfold CYCLE; lia). set (W1 := 1500 * CYCLE) in *. clearbody W1.
  rewrite to_signed_id by lia. unfold C_2P19 in *.
  pose proof (round_div_close x f Hf) as C0.
  destruct (Z.leb_spec (round_div x f) (- (524288))).
  - exists (ceil_div (- (524288) * f - x) W1). unfold ceil_div.
    set (y := x + W1 * - (- (- (524288) * f - x) / W1)).
    assert (Hy : - (524288) * f <= y <= - (524288) * f + W1).
    { unfold y. pose proof (Z.div_mod (- (- (524288) * f - x)) W1 ltac:(lia)). pose proof (Z.mod_pos_bound (- (- (524288) * f - x)) W1 ltac:(lia)). lia. }
    assert (RY : - (524288) <= round_div y f <= 524288) by (apply round_div_bounds; lia).
    rewrite to_signed_id by lia. split; [|exact RY]. apply (round_div_close y f Hf).
  - destruct (Z.leb_spec 524288 (round_div x f)).
    + exists (- ceil_div (x - 524288 * f) W1). unfold ceil_div.
      replace (x + W1 * - - (- (x - 524288 * f) / W1)) with (x - W1 * - (- (x - 524288 * f) / W1)) by lia.
      set (y := x - W1 * - (- (x - 524288 * f) / W1)).
      assert (Hy : 524288 * f - W1 <= y <= 524288 * f).
      { unfold y. pose proof (Z.div_mod (- (x - 524288 * f)) W1 ltac:(lia)). pose proof (Z.mod_pos_bound (- (x - 524288 * f)) W1 ltac:(lia)). lia. }
      assert (RY : - (524288) <= round_div y f <= 524288) by (apply round_div_bounds; lia).
      rewrite to_signed_id by lia. split; [|exact RY]. apply (round_div_close y f Hf).
    + exists 0. rewrite Z.mul_0_r, Z.add_0_r. split; [exact C0|lia].
Qed.
