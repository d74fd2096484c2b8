(** Property C26: accuracy and fit-interval tables. *)
From Coq Require Import Reals Lra.
From Flocq Require Import Core IEEE754.Binary IEEE754.Bits.
From Verif Require Import Base Double_model Double_proofs UbxObs_model UbxObs_proofs Esf_model Esf_proofs Ixcom_model Ixcom_float_proofs Tables_model Tables_spec Tables_proofs.
Open Scope Z_scope.

(** ** URA (GPS, QZSS), F_T (GLONASS), URAI (BDS) *)
(** the exponent of a float, a (coarse) log2f that meets [log2_ok] *)
Definition floor_log2f (x : binary32) : binary32 :=
  match x with B754_finite _ _ false m e _ => fofZ (e + Z.log2 (Zpos m)) 0 | _ => B754_zero 24 128 false end.
Lemma finite_range s m e H : -149 <= e <= 104 /\ Z.pos m < 2 ^ 24 /\ @B754_finite 24 128 s m e H = B754_finite 24 128 s m e H.
Proof.
  pose proof H as B. unfold SpecFloat.bounded in B. apply andb_prop in B. destruct B as [B1 B2]. apply Z.leb_le in B2. unfold SpecFloat.canonical_mantissa in B1.
  apply Zeq_bool_eq in B1. rewrite (Digits.Zpos_digits2_pos m) in B1. unfold SpecFloat.fexp, SpecFloat.emin in B1.
  pose proof (Digits.Zdigits_correct radix2 (Z.pos m)) as [_ D]. change (Z.abs (Z.pos m)) with (Z.pos m) in *.
  split; [lia|]. split; [|reflexivity]. eapply Z.lt_le_trans; [exact D|]. change (2 ^ 24) with (Zpower radix2 24). apply Zpower_le. lia.
Qed.
Theorem log2_ok_inhabited : log2_ok floor_log2f.
Proof.
  intros x F P. destruct x as [s|s|s pl Hp|s m e Hb]; try discriminate; cbn [B2R] in P; [lra|].
  destruct s; [exfalso; pose proof (F2R_lt_0 radix2 (Float radix2 (cond_Zopp true (Z.pos m)) e) ltac:(cbn; lia)); lra|].
  destruct (finite_range false m e Hb) as (He & Hm & _). cbn [floor_log2f].
  pose proof (Z.log2_spec (Z.pos m) ltac:(lia)) as [L1 L2]. pose proof (Z.log2_nonneg (Z.pos m)) as L0.
  assert (L3 : Z.log2 (Z.pos m) < 24) by (apply Z.log2_lt_pow2; lia).
  destruct (fofZ_int (e + Z.log2 (Z.pos m)) ltac:(lia)) as [Fz Rz]. set (q := Z.log2 (Z.pos m)) in *.
  split; [exact Fz|]. intros k. change (B2R 24 128 (fofZ (e + q) 0)) with (fR (fofZ (e + q) 0)). rewrite Rz.
  change (B2R 24 128 (B754_finite 24 128 false m e Hb)) with (IZR (Z.pos m) * bpow radix2 e)%R.
  pose proof (bpow_gt_0 radix2 e) as Pe.
  assert (A1 : (bpow radix2 (e + q) <= IZR (Z.pos m) * bpow radix2 e)%R).
  { rewrite Z.add_comm, bpow_plus. apply Rmult_le_compat_r; [lra|]. rewrite <- pow_bpow by lia. apply IZR_le. exact L1. }
  assert (A2 : (IZR (Z.pos m) * bpow radix2 e < bpow radix2 (e + q + 1))%R).
  { replace (e + q + 1) with ((q + 1) + e) by lia. rewrite bpow_plus. apply Rmult_lt_compat_r; [lra|]. rewrite <- pow_bpow by lia. apply IZR_lt. exact L2. }
  split; [|split]; intros H.
  - apply IZR_le. assert (bpow radix2 k < bpow radix2 (e + q + 1))%R as B by lra. apply lt_bpow in B. lia.
  - apply IZR_le. apply (le_bpow radix2). lra.
  - pose proof (bpow_gt_0 radix2 k). assert (bpow radix2 (e + q) < bpow radix2 k)%R as B by lra. apply lt_bpow in B.
    assert (e + q <= k - 1) as C by lia. apply IZR_le in C. rewrite minus_IZR in C. lra.
Qed.
Theorem eps_ok_inhabited : eps_ok (dofbits 0x3d719799812dea11). (* 1e-12 *)
Proof.
  destruct (dme_spec (dofbits 0x3d719799812dea11) 4951760157141521 (-92) ltac:(vm_compute; reflexivity)) as [A B]. split; [exact A|].
  change (B2R 53 1024 (dofbits 4427486594234968593)) with (dR (dofbits 0x3d719799812dea11)). rewrite B.
  change (bpow radix2 (-92)) with (/ 4951760157141521099596496896)%R. lra.
Qed.

Lemma by_log_pow l n k : log2_ok l -> Z.abs n < 2 ^ 24 -> 0 <= k <= 23 -> n = 2 ^ k -> by_log l (fofZ n 0) = Some (k + 2).
Proof.
  intros Hl Hn Hk E. destruct (fofZ_int n Hn) as [F R]. apply by_log_spec; [exact Hl|exact F| | |lia]; rewrite R, E, pow_bpow by lia; [lra|left; reflexivity].
Qed.
Ltac index_cases n Hn := assert (n = 0 \/ n = 1 \/ n = 2 \/ n = 3 \/ n = 4 \/ n = 5 \/ n = 6 \/ n = 7 \/ n = 8 \/ n = 9 \/ n = 10 \/ n = 11 \/ n = 12 \/ n = 13 \/ n = 14 \/ n = 15)
   as Hn by lia; repeat (destruct Hn as [-> | Hn]); [..| subst n].
(** every index survives decoding to metres and encoding again, and the metres are those of the interface documents (to 1e-6 m) *)
Theorem C26_gps_ura_exact : forall eps log2f n, eps_ok eps -> log2_ok log2f -> 0 <= n <= 15 ->
  gps_uri_to_ura eps log2f (ura_to_uri n) = Some n /\
  exists dm, ura_dm 61440 n = Some dm /\ is_finite 24 128 (ura_to_uri n) = true /\ (Rabs (B2R 24 128 (ura_to_uri n) - IZR dm / 10) <= / 1000000)%R.
Proof.
  intros eps l n He Hl Hn. split.
  - index_cases n H; unfold gps_uri_to_ura;
    first [erewrite chain_hit_spec; [|exact He|vm_compute; reflexivity]; reflexivity
          | erewrite chain_hit_spec; [|exact He|vm_compute; reflexivity];
            cbv iota; lazymatch goal with |- by_log _ (ura_to_uri ?n) = _ => apply (by_log_pow l (2 ^ (n - 2)) (n - 2) Hl); vm_compute; intuition congruence end].
  - index_cases n H; eexists; (split; [reflexivity|]); apply near_ratio_spec; [lia|vm_compute; reflexivity ..].
Qed.
Theorem C26_bds_ura_exact : forall eps log2f n, eps_ok eps -> log2_ok log2f -> 0 <= n <= 15 ->
  bds_uri_to_ura eps log2f (bds_ura_to_meters n) = Some n /\
  exists dm, ura_dm 81920 n = Some dm /\ is_finite 24 128 (bds_ura_to_meters n) = true /\ (Rabs (B2R 24 128 (bds_ura_to_meters n) - IZR dm / 10) <= / 1000000)%R.
Proof.
  intros eps l n He Hl Hn. split.
  - index_cases n H; unfold bds_uri_to_ura;
    first [erewrite chain_hit_spec; [|exact He|vm_compute; reflexivity]; reflexivity
          | erewrite chain_hit_spec; [|exact He|vm_compute; reflexivity];
            cbv iota; lazymatch goal with |- by_log _ (bds_ura_to_meters ?n) = _ => apply (by_log_pow l (2 ^ (n - 2)) (n - 2) Hl); vm_compute; intuition congruence end].
  - index_cases n H; eexists; (split; [reflexivity|]); apply near_ratio_spec; [lia|vm_compute; reflexivity ..].
Qed.
Theorem C26_glo_ft_exact : forall eps log2f n, eps_ok eps -> 0 <= n <= 15 ->
  glo_uri_to_ura eps log2f (glo_ft_to_meters n) = Some n /\
  exists dm, ft_dm n = Some dm /\ is_finite 24 128 (glo_ft_to_meters n) = true /\ (Rabs (B2R 24 128 (glo_ft_to_meters n) - IZR dm / 10) <= / 1000000)%R.
Proof.
  intros eps l n He Hn. split.
  - index_cases n H; unfold glo_uri_to_ura; (erewrite chain_hit_spec; [|exact He|vm_compute; reflexivity]; reflexivity).
  - index_cases n H; eexists; (split; [reflexivity|]); apply near_ratio_spec; [lia|vm_compute; reflexivity ..].
Qed.
(** between table entries the encoders use 2 + log2 of the value, which is neither conservative nor monotone, nor limited to 4 bits *)
Lemma by_log_int l n k : log2_ok l -> Z.abs n < 2 ^ 24 -> 0 <= k <= 23 -> 2 ^ k <= n -> 4 * n <= 3 * 2 ^ (k + 1) -> by_log l (fofZ n 0) = Some (k + 2).
Proof.
  intros Hl Hn Hk E1 E2. destruct (fofZ_int n Hn) as [F R]. apply by_log_spec; [exact Hl|exact F| | |lia]; rewrite R, <- !pow_bpow by lia.
  - apply IZR_le. exact E1.
  - right. rewrite <- !mult_IZR. apply IZR_le. exact E2.
Qed.
(** 20 m (GPS) is transmitted as index 6, i.e. 16 m; 700 m (GLONASS) as 64 m *)
Theorem C26_never_better_refuted : forall eps log2f, eps_ok eps -> log2_ok log2f ->
  gps_uri_to_ura eps log2f (fofZ 20 0) = Some 6 /\ ura_to_uri 6 = fofZ 16 0 /\
  glo_uri_to_ura eps log2f (fofZ 700 0) = Some 11 /\ glo_ft_to_meters 11 = fofZ 64 0.
Proof.
  intros eps l He Hl. unfold gps_uri_to_ura, glo_uri_to_ura. repeat split.
  - erewrite chain_hit_spec; [|exact He|vm_compute; reflexivity]. cbv iota. apply (by_log_int l 20 4 Hl); vm_compute; intuition congruence.
  - erewrite chain_hit_spec; [|exact He|vm_compute; reflexivity]. cbv iota. apply (by_log_int l 700 9 Hl); vm_compute; intuition congruence.
Qed.
(** 3 m is transmitted as 5.7 m, the larger 4 m as 4 m *)
Theorem C26_monotone_refuted : forall eps log2f, eps_ok eps -> log2_ok log2f ->
  gps_uri_to_ura eps log2f (fofZ 3 0) = Some 3 /\ gps_uri_to_ura eps log2f (fofZ 4 0) = Some 2.
Proof.
  intros eps l He Hl. unfold gps_uri_to_ura. split.
  - erewrite chain_hit_spec; [|exact He|vm_compute; reflexivity]. cbv iota. apply (by_log_int l 3 1 Hl); vm_compute; intuition congruence.
  - erewrite chain_hit_spec; [|exact He|vm_compute; reflexivity]. reflexivity.
Qed.
(** 20 km yields index 16, of which the 4-bit field of message 1019 keeps 0: the best accuracy there is *)
Theorem C26_index_range_refuted : forall eps log2f, eps_ok eps -> log2_ok log2f ->
  gps_uri_to_ura eps log2f (fofZ 20000 0) = Some 16 /\ 16 mod 2 ^ 4 = 0 /\ ura_to_uri 0 = fofZ 2 0.
Proof.
  intros eps l He Hl. unfold gps_uri_to_ura. split; [|split; reflexivity].
  erewrite chain_hit_spec; [|exact He|vm_compute; reflexivity]. cbv iota. apply (by_log_int l 20000 14 Hl); vm_compute; intuition congruence.
Qed.
(** zero, and the converters' own mark -1 of an invalid accuracy, have no logarithm: the conversion to uint8_t is undefined *)
Theorem C26_no_logarithm_refuted : forall eps log2f z, eps_ok eps -> z = 0 \/ z = -1 -> is_finite 24 128 (log2f (fofZ z 0)) = false ->
  gps_uri_to_ura eps log2f (fofZ z 0) = None /\ glo_uri_to_ura eps log2f (fofZ z 0) = None /\ bds_uri_to_ura eps log2f (fofZ z 0) = None.
Proof.
  intros eps l z He Hz Hl. assert (B : by_log l (fofZ z 0) = None).
  { unfold by_log. destruct (l (fofZ z 0)) as [s|s|s pl Hp|s m e Hb]; try discriminate; [destruct s|]; reflexivity. }
  unfold gps_uri_to_ura, glo_uri_to_ura, bds_uri_to_ura.
  destruct Hz as [-> | ->]; repeat split; (erewrite chain_hit_spec; [|exact He|vm_compute; reflexivity]; exact B).
Qed.

(** ** SISA (Galileo) *)
(** every index survives; the unused indices and "no accuracy prediction" become the latter; the metres are those of the ICD *)
Theorem C26_sisa_exact : forall i, 0 <= i <= 255 ->
  meters_to_sisa (sisa_to_meters i) = Some (if i <=? 125 then i else 255) /\
  (i <= 125 -> is_finite 24 128 (sisa_to_meters i) = true /\ (Rabs (B2R 24 128 (sisa_to_meters i) - IZR (sisa_cm i) / 100) <= / 1000000)%R).
Proof.
  intros i Hi. split.
  - pose proof (all_below (fun i => match meters_to_sisa (sisa_to_meters i) with Some j => j =? (if i <=? 125 then i else 255) | None => false end) 256
      ltac:(vm_compute; reflexivity) i ltac:(lia)) as H. cbv beta in H. destruct (meters_to_sisa (sisa_to_meters i)); [|discriminate]. apply Z.eqb_eq in H. congruence.
  - intros H. apply sisa_value. lia.
Qed.
(** every representable accuracy from 0 to 6 m is transmitted as the nearest index: within half a step (plus 10 micrometres) *)
Theorem C26_sisa_nearest : forall u, is_finite 24 128 u = true -> (0 <= B2R 24 128 u <= 6)%R -> exists i, meters_to_sisa u = Some i /\ 0 <= i <= 125 /\
  (Rabs (B2R 24 128 (sisa_to_meters i) - B2R 24 128 u) <= sisa_resolution (B2R 24 128 u) / 2 + / 100000)%R.
Proof. exact sisa_near. Qed.
Theorem C26_sisa_monotone : forall u v i j, is_finite 24 128 u = true -> is_finite 24 128 v = true ->
  (0 <= B2R 24 128 u)%R -> (B2R 24 128 u <= B2R 24 128 v)%R -> (B2R 24 128 v <= 6)%R ->
  meters_to_sisa u = Some i -> meters_to_sisa v = Some j -> i <= j.
Proof. exact sisa_mono. Qed.
(** anything else (negative, above 6 m, infinite, not a number) is transmitted as "no accuracy prediction available" *)
Theorem C26_sisa_outside : forall u,
  (is_finite 24 128 u = true /\ (6 < B2R 24 128 u)%R) \/ (is_finite 24 128 u = true /\ (B2R 24 128 u < 0)%R) \/ is_finite 24 128 u = false ->
  meters_to_sisa u = Some 255.
Proof. exact sisa_above. Qed.
(** nearest is not "never better": 0.504 m is transmitted as 0.50 m *)
Theorem C26_sisa_never_better_refuted : exists u i, meters_to_sisa u = Some i /\ 0 <= i <= 125 /\ fltb (sisa_to_meters i) u = true.
Proof. exists (fofbits 0x3f010625), 50. split; [vm_compute; reflexivity|]. split; [lia|vm_compute; reflexivity]. Qed.

(** ** fit intervals *)
Theorem C26_gps_fit_interval : forall iodc, 
  decode_fit_interval_gps 0 iodc = 4 * 3600 /\
  (forall a b h, In (a, b, h) long_fit -> a <= iodc <= b -> decode_fit_interval_gps 1 iodc = h * 3600) /\
  ((forall a b h, In (a, b, h) long_fit -> ~ (a <= iodc <= b)) -> decode_fit_interval_gps 1 iodc = 6 * 3600).
Proof.
  intros iodc. split; [reflexivity|]. split.
  - intros a b h H Hi. unfold long_fit in H. unfold decode_fit_interval_gps. change (1 =? 0) with false. cbv iota zeta.
    repeat (destruct H as [H|H]; [assert (fst (fst (a, b, h)) <= iodc <= snd (fst (a, b, h))) as Hi' by exact Hi; rewrite <- H in Hi'; cbn [fst snd] in Hi';
      apply (f_equal snd) in H; cbn [snd] in H; subst h; 
      repeat (match goal with |- context [if ?c then _ else _] => first [replace c with true by lia | replace c with false by lia] end; cbv iota); reflexivity|]); destruct H.
  - intros H. pose proof (fun a b h Hin => H a b h Hin) as N. unfold long_fit in N. cbn [In] in N.
    pose proof (N 240 247 8 ltac:(tauto)). pose proof (N 248 255 14 ltac:(tauto)). pose proof (N 496 496 14 ltac:(tauto)). pose proof (N 497 503 26 ltac:(tauto)).
    pose proof (N 1021 1023 26 ltac:(tauto)). pose proof (N 504 510 50 ltac:(tauto)). pose proof (N 511 511 74 ltac:(tauto)). pose proof (N 752 756 74 ltac:(tauto)).
    pose proof (N 757 757 98 ltac:(tauto)). clear N H. unfold decode_fit_interval_gps. change (1 =? 0) with false. cbv iota zeta.
    repeat (match goal with |- context [if ?c then _ else _] => replace c with false by lia end; cbv iota). reflexivity.
Qed.
Theorem C26_gps_fit_flag_round_trip : forall flag iodc, flag = 0 \/ flag = 1 -> encode_fit_interval_gps (decode_fit_interval_gps flag iodc) = flag.
Proof.
  intros flag iodc [-> | ->]; [reflexivity|]. unfold decode_fit_interval_gps. change (1 =? 0) with false. cbv iota zeta.
  repeat match goal with |- context [if ?c then _ else _] => destruct c; [reflexivity|] end. reflexivity.
Qed.
(** an interval shorter than 4 h is announced as at least 6 h *)
Theorem C26_short_fit_interval_refuted : forall iodc, decode_fit_interval_gps (encode_fit_interval_gps 7200) iodc >= 6 * 3600.
Proof.
  intros iodc. change (encode_fit_interval_gps 7200) with 1. unfold decode_fit_interval_gps. change (1 =? 0) with false. cbv iota zeta.
  repeat match goal with |- context [if ?c then _ else _] => destruct c; [lia|] end. lia.
Qed.
Theorem C26_glo_fit_round_trip : forall p, 0 <= p <= 2 -> encode_fit_interval_glo (decode_fit_interval_glo p) = p.
Proof. intros p H. assert (p = 0 \/ p = 1 \/ p = 2) as [-> | [-> | ->]] by lia; reflexivity. Qed.
(** what GLONASS intervals survive: exactly 40, 55 and 70 minutes *)
Theorem C26_glo_fit_exact : forall s, decode_fit_interval_glo (encode_fit_interval_glo s) = s <-> s = 2400 \/ s = 3300 \/ s = 4200.
Proof.
  intros s. unfold encode_fit_interval_glo. destruct (s / 60 =? 40) eqn:A; [|destruct (s / 60 =? 55) eqn:B]; cbn [decode_fit_interval_glo]; split; intros H; try lia;
  (destruct H as [->|[->| ->]]; vm_compute in A; try vm_compute in B; try discriminate; reflexivity).
Qed.
Print Assumptions C26_gps_ura_exact.
Print Assumptions C26_bds_ura_exact.
Print Assumptions C26_glo_ft_exact.
Print Assumptions C26_never_better_refuted.
Print Assumptions C26_monotone_refuted.
Print Assumptions C26_index_range_refuted.
Print Assumptions C26_no_logarithm_refuted.
Print Assumptions C26_sisa_exact.
Print Assumptions C26_sisa_nearest.
Print Assumptions C26_sisa_monotone.
Print Assumptions C26_sisa_outside.
Print Assumptions C26_sisa_never_better_refuted.
Print Assumptions C26_gps_fit_interval.
Print Assumptions C26_gps_fit_flag_round_trip.
Print Assumptions C26_short_fit_interval_refuted.
Print Assumptions C26_glo_fit_round_trip.
Print Assumptions C26_glo_fit_exact.
