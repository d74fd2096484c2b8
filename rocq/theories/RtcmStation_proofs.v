From Verif Require Import Base Bitstring Bits_model Bits_proofs Bitstream_model Bitstream_proofs RtcmStation_model RtcmStation_spec.

(** from fields to a round trip *)
Lemma fields_round_trip {M} (fs : list field) (d : dec M) m n :
  Forall width_ok fs -> byte_len (total fs) = n ->
  (forall pad, exists r, d (fields_bits fs ++ pad) = DOk m r) ->
  round_trips (encode_fields fs) (run_dec d) n m.
Proof.
  intros Hw Hn Hd buff Hb Hl. unfold encode_fields.
  assert (Ht : total fs <= 8 * len buff) by (unfold byte_len in Hn; pose proof (total_nonneg fs Hw); lia).
  pose proof (encoded_bits buff fs Hb Hw Ht) as P. cbn zeta in P.
  destruct (put_fields buff 0 fs) as [b bit]. cbn [fst snd] in P. destruct P as (-> & L & B & pad & _ & E).
  rewrite Hn in *. split; [reflexivity|]. split; [exact L|]. split; [exact B|].
  unfold run_dec. rewrite E. destruct (Hd pad) as (r & ->). reflexivity.
Qed.
Lemma fields_string_eq s : fields_string s = (8, len s) :: byte_fields s. Proof. reflexivity. Qed.
Lemma fields_string_ok s : Forall width_ok (fields_string s).
Proof. constructor; [unfold width_ok; cbn; lia|apply byte_fields_ok]. Qed.
Lemma total_string s : total (fields_string s) = 8 + 8 * len s.
Proof. rewrite fields_string_eq. change (total ((8, len s) :: byte_fields s)) with (8 + total (byte_fields s)). rewrite total_byte_fields. reflexivity. Qed.
Lemma to_nat_len {A} (l : list A) : Z.to_nat (len l) = length l. Proof. unfold len. lia. Qed.
Lemma bind_string {B} s fs r (f : list Z -> dec B) : text 32 s ->
  dbind decode_string f (fields_bits (fields_string s ++ fs) ++ r) = f s (fields_bits fs ++ r).
Proof.
  intros [Hb Hl]. unfold decode_string. rewrite bind_assoc, fields_string_eq. cbn [app].
  pose proof (len_nonneg s). rewrite bind_u by lia. unfold RTCM_MAX_STRING_LEN.
  destruct (Z.ltb_spec 32 (len s)); [lia|]. rewrite to_nat_len. apply bind_bytes. exact Hb.
Qed.

Ltac widths := repeat first [apply Forall_nil | apply Forall_app; split | apply fields_string_ok | apply byte_fields_ok
  | apply Forall_cons; [unfold width_ok; cbn [fst]; lia|]].
Ltac dstep := first [rewrite bind_u by lia | rewrite bind_s by lia | rewrite bind_skip by lia]; cbv beta.

Lemma rt_1005 m : wf_1005 m -> round_trips (encode_1005 m) (run_dec decode_1005) 19 m.
Proof.
  unfold wf_1005, ubits, sbits. intros H. apply fields_round_trip; [unfold fields_1005_base; widths|reflexivity|].
  intros pad. unfold decode_1005, expect, decode_1005_base, fields_1005_base. dstep. cbn [Z.eqb Pos.eqb].
  repeat dstep. eexists. destruct m. reflexivity.
Qed.
Lemma base_1005_app m fs r : wf_1005 m ->
  decode_1005_base (fields_bits (fields_1005_base m ++ fs) ++ r) = DOk m (fields_bits fs ++ r).
Proof.
  unfold wf_1005, ubits, sbits. intros H. unfold decode_1005_base, fields_1005_base. cbn [app]. repeat dstep. destruct m. reflexivity.
Qed.
Lemma rt_1006_clamp g m h : wf_1005 m ->
  round_trips (encode_1006 (mk1006 m h)) (run_dec (decode_1006 g)) 21 (mk1006 m (clamp_height h)).
Proof.
  intros H. apply fields_round_trip; [unfold fields_1005_base; cbn [app]; widths|reflexivity|].
  intros pad. unfold decode_1006, expect. dstep. cbn [Z.eqb Pos.eqb]. unfold dbind at 1, attempt. rewrite base_1005_app by exact H. cbn [m6_1005 ant_height].
  rewrite bind_u. eexists. reflexivity. lia. unfold clamp_height. destruct (Z.ltb_spec h 0); [lia|]. destruct (Z.ltb_spec 65535 h); lia.
Qed.
Lemma rt_1006 g m : wf_1006 m -> round_trips (encode_1006 m) (run_dec (decode_1006 g)) 21 m.
Proof.
  intros [H1 H2]. destruct m as [m h]. cbn in *. pose proof (rt_1006_clamp g m h H1) as P.
  replace (clamp_height h) with h in P; [exact P|]. unfold clamp_height. destruct (Z.ltb_spec h 0); [lia|]. destruct (Z.ltb_spec 65535 h); lia.
Qed.
Lemma base_1007_app m fs r : wf_1007 m ->
  decode_1007_base (fields_bits (fields_1007_base m ++ fs) ++ r) = DOk m (fields_bits fs ++ r).
Proof.
  unfold wf_1007, ubits. intros (H1 & H2 & H3). unfold decode_1007_base, fields_1007_base. cbn [app]. dstep.
  rewrite <- app_assoc. rewrite bind_string by exact H2. cbn [app]. dstep. destruct m. reflexivity.
Qed.
Ltac totals := unfold byte_len; cbn [app]; rewrite ?total_app;
  repeat match goal with |- context [total (?f :: ?l)] => first [rewrite total_string | change (total (f :: l)) with (fst f + total l); cbn [fst]; rewrite ?total_app] end;
  rewrite ?total_string; change (total []) with 0.
Lemma rt_1007 m : wf_1007 m -> round_trips (encode_1007 m) (run_dec decode_1007) (5 + len (ant_descriptor m)) m.
Proof.
  intros H. apply fields_round_trip; [unfold fields_1007_base; widths|unfold fields_1007_base; totals; lia|].
  intros pad. unfold decode_1007, expect. dstep. cbn [Z.eqb Pos.eqb].
  rewrite <- (app_nil_r (fields_1007_base m)). rewrite base_1007_app by exact H. eauto.
Qed.
Lemma rt_1008 m : wf_1008 m ->
  round_trips (encode_1008 m) (run_dec decode_1008) (6 + len (ant_descriptor (m8_1007 m)) + len (ant_serial_num m)) m.
Proof.
  intros [H1 H2]. apply fields_round_trip; [unfold fields_1007_base; widths|unfold fields_1007_base; totals; lia|].
  intros pad. unfold decode_1008, expect. dstep. cbn [Z.eqb Pos.eqb].
  unfold dbind at 1. rewrite base_1007_app by exact H1.
  rewrite <- (app_nil_r (fields_string (ant_serial_num m))). rewrite bind_string by exact H2. destruct m. eexists; reflexivity.
Qed.
Lemma rt_1029 m : wf_1029 m -> round_trips (encode_1029 m) (run_dec decode_1029) (9 + len (utf8_code_units m)) m.
Proof.
  unfold wf_1029, ubits. intros (H1 & H2 & H3 & H4 & H5). apply fields_round_trip; [widths|totals; lia|].
  intros pad. unfold decode_1029, expect. cbn [app]. dstep. cbn [Z.eqb Pos.eqb].
  destruct H5 as [Hb Hl]. pose proof (len_nonneg (utf8_code_units m)). rewrite fields_string_eq. repeat dstep.
  rewrite to_nat_len. rewrite <- (app_nil_r (byte_fields _)). rewrite bind_bytes by exact Hb. destruct m. eexists; reflexivity.
Qed.
Lemma rt_1033 m : wf_1033 m ->
  round_trips (encode_1033 m) (run_dec decode_1033)
    (9 + len (m33_ant_descriptor m) + len (m33_ant_serial_num m) + len (rcv_descriptor m) + len (rcv_fw_version m) + len (rcv_serial_num m)) m.
Proof.
  unfold wf_1033, ubits. intros (H1 & H2 & H3 & H4 & H5 & H6 & H7). apply fields_round_trip; [widths|totals; lia|].
  intros pad. unfold decode_1033, expect. cbn [app]. dstep. cbn [Z.eqb Pos.eqb]. dstep.
  rewrite bind_string by exact H2. cbn [app]. dstep. rewrite bind_string by exact H4. rewrite bind_string by exact H5.
  rewrite bind_string by exact H6. rewrite <- (app_nil_r (fields_string (rcv_serial_num m))). rewrite bind_string by exact H7.
  destruct m. eexists; reflexivity.
Qed.
Lemma rt_4062 m : wf_4062 m -> round_trips (encode_4062 m) (run_dec decode_4062) (7 + len (data m)) m.
Proof.
  unfold wf_4062, ubits. intros (H1 & H2 & H3). apply fields_round_trip; [widths|totals; lia|].
  intros pad. unfold decode_4062, expect. cbn [app]. dstep. cbn [Z.eqb Pos.eqb]. dstep. cbn [Z.eqb negb].
  destruct H3 as [Hb Hl]. pose proof (len_nonneg (data m)). rewrite fields_string_eq. repeat dstep.
  rewrite to_nat_len. rewrite <- (app_nil_r (byte_fields _)). rewrite bind_bytes by exact Hb. destruct m. eexists; reflexivity.
Qed.

(** 1230 *)
Definition fields_1230 (m : msg_1230) : list field :=
  [(12, 1230); (12, m230_stn_id m); (1, bias_indicator m / 128); (3, 0); (4, fdma_signal_mask m)] ++ bias_fields m.
Lemma bias_fields_ok m : Forall width_ok (bias_fields m).
Proof. unfold bias_fields. repeat (apply Forall_app; split); match goal with |- context [if ?b then _ else _] => destruct b end; widths. Qed.
Lemma fields_1230_ok m : Forall width_ok (fields_1230 m).
Proof. unfold fields_1230. apply Forall_app. split; [widths|apply bias_fields_ok]. Qed.
Definition popcount4 (mask : Z) : Z :=
  Z.b2z (Z.testbit mask 0) + Z.b2z (Z.testbit mask 1) + Z.b2z (Z.testbit mask 2) + Z.b2z (Z.testbit mask 3).
Lemma total_bias m : total (bias_fields m) = 16 * popcount4 (fdma_signal_mask m).
Proof.
  unfold bias_fields, popcount4. destruct (Z.testbit _ 3), (Z.testbit _ 2), (Z.testbit _ 1), (Z.testbit _ 0); reflexivity.
Qed.
Lemma encode_1230_bits m buff : bytes buff -> 0 <= bias_indicator m < 256 -> total (fields_1230 m) <= 8 * len buff ->
  let r := encode_1230 m buff in
  snd r = byte_len (total (fields_1230 m)) /\ len (fst r) = len buff /\ bytes (fst r) /\
  exists pad, bits_of_bytes (take (snd r) (fst r)) = fields_bits (fields_1230 m) ++ pad.
Proof.
  intros Hb Hbi Ht. cbn zeta. unfold encode_1230.
  assert (Htot : total (fields_1230 m) = 32 + total (bias_fields m)) by (unfold fields_1230; rewrite total_app; reflexivity).
  pose proof (total_nonneg _ (bias_fields_ok m)) as Hpos.
  set (h1 := [(12, 1230); (12, m230_stn_id m)]).
  pose proof (put_fields_spec h1 buff 0 ltac:(widths) ltac:(lia) ltac:(change (total h1) with 24; lia)) as P.
  cbn zeta in P. change (0 + total h1) with 24 in P. destruct (put_fields buff 0 h1) as [b1 bit1]. cbn [fst snd] in P.
  destruct P as (-> & L1 & B1 & O1 & V1). specialize (B1 Hb).
  destruct (setu_spec b1 24 8 ltac:(lia) ltac:(lia) (bias_indicator m) ltac:(lia)) as (L2 & B2 & O2 & V2). specialize (B2 B1).
  set (b2 := setbitu b1 24 8 (bias_indicator m)) in *. change (24 + 1) with 25.
  set (h3 := [(3, 0); (4, fdma_signal_mask m)] ++ bias_fields m).
  assert (W3 : Forall width_ok h3) by (apply Forall_app; split; [widths|apply bias_fields_ok]).
  assert (T3 : total h3 = 7 + total (bias_fields m)) by (unfold h3; rewrite total_app; reflexivity).
  pose proof (put_fields_spec h3 b2 25 W3 ltac:(lia) ltac:(lia)) as P. cbn zeta in P.
  destruct (put_fields b2 25 h3) as [b3 bit3]. cbn [fst snd] in P. destruct P as (-> & L3 & B3 & O3 & V3). specialize (B3 B2).
  replace (25 + total h3) with (total (fields_1230 m)) by lia. cbn [fst snd].
  split; [reflexivity|]. split; [lia|]. split; [exact B3|].
  unfold byte_len. set (n := (total (fields_1230 m) + 7) / 8).
  exists (bits_at b3 (total (fields_1230 m)) (Z.to_nat (8 * n - total (fields_1230 m)))).
  replace n with (Z.of_nat (Z.to_nat n)) at 1 by lia. rewrite bits_of_bytes_take; [|exact B3|lia].
  replace (8 * Z.to_nat n)%nat with (24 + (1 + (Z.to_nat (total h3) + Z.to_nat (8 * n - total (fields_1230 m)))))%nat by lia.
  rewrite !bits_at_app.
  replace (bits_at b3 0 24) with (fields_bits h1).
  2:{ rewrite <- V1. apply bits_at_ext. intros j Hj. change (Z.to_nat (total h1)) with 24%nat in Hj.
      rewrite O3 by lia. rewrite O2 by lia. reflexivity. }
  replace (bits_at b3 (0 + Z.of_nat 24) 1) with (fbits (1, bias_indicator m / 128)).
  2:{ change (0 + Z.of_nat 24) with 24. cbn [bits_at]. rewrite O3 by lia.
      change (Z.to_nat 8) with (S 7) in V2. cbn [bits_at bits_be] in V2. injection V2 as V2 _. rewrite V2.
      unfold fbits. cbn [fst snd bits_be Z.to_nat]. change (Pos.to_nat 1) with 1%nat. cbn [bits_be]. f_equal.
      change 128 with (2 ^ 7). rewrite <- Z.shiftr_div_pow2 by lia. rewrite Z.shiftr_spec by lia. reflexivity. }
  change (0 + Z.of_nat 24 + Z.of_nat 1) with 25. rewrite V3.
  replace (25 + Z.of_nat (Z.to_nat (total h3))) with (total (fields_1230 m)) by lia.
  generalize (bits_at b3 (total (fields_1230 m)) (Z.to_nat (8 * n - total (fields_1230 m)))). intros pad.
  unfold fields_1230, h3, h1. rewrite !fields_bits_app. rewrite !fields_bits_cons. change (fields_bits []) with (@nil bool).
  rewrite <- !app_assoc. cbn [app]. reflexivity.
Qed.
Lemma bind_bias {B} (f : Z -> dec B) mask bit b fs r : bias_ok mask bit b ->
  dbind (get_bias mask bit) f (fields_bits ((if Z.testbit mask bit then [(16, b)] else []) ++ fs) ++ r)
  = f b (fields_bits fs ++ r).
Proof.
  intros [H1 H2]. unfold get_bias, sbits in *. destruct (Z.testbit mask bit) eqn:E.
  - cbn [app]. dstep. reflexivity.
  - cbn [app]. rewrite H2 by reflexivity. reflexivity.
Qed.
Lemma rt_1230 m : wf_1230 m ->
  round_trips (encode_1230 m) (run_dec decode_1230) (4 + 2 * popcount4 (fdma_signal_mask m))
    (mk1230 (m230_stn_id m) 0 (fdma_signal_mask m) (l1_ca m) (l1_p m) (l2_ca m) (l2_p m)).
Proof.
  unfold wf_1230. intros (H1 & H2 & H3 & H4 & H5 & H6 & H7) buff Hb Hl.
  assert (Ht : total (fields_1230 m) = 32 + 16 * popcount4 (fdma_signal_mask m)) by (unfold fields_1230; rewrite total_app, total_bias; reflexivity).
  unfold ubits in *. pose proof (encode_1230_bits m buff Hb ltac:(lia) ltac:(lia)) as P. cbn zeta in P.
  destruct (encode_1230 m buff) as [b n]. cbn [fst snd] in P. destruct P as (P1 & P2 & P3 & pad & E).
  split; [rewrite P1, Ht; unfold byte_len; lia|]. split; [exact P2|]. split; [exact P3|].
  unfold run_dec. rewrite E. unfold decode_1230, expect, fields_1230. cbn [app]. dstep. cbn [Z.eqb Pos.eqb]. dstep.
  rewrite bind_u by lia. repeat dstep. unfold bias_fields.
  rewrite bind_bias by exact H4. rewrite bind_bias by exact H5. rewrite bind_bias by exact H6.
  rewrite <- (app_nil_r (if Z.testbit (fdma_signal_mask m) 0 then _ else _)).
  rewrite bind_bias by exact H7. unfold ret. replace (bias_indicator m / 128) with 0 by lia. reflexivity.
Qed.

(** *** truncation (C14) *)
Lemma cut1_list_pos {A} (d : dec A) n : cut_safe1 d -> (0 < n)%nat -> cut_safe1 (get_list d n).
Proof.
  intros Hd Hn. destruct n; [lia|]. cbn [get_list]. apply cut1_bind_l; [exact Hd|]. intros a.
  apply cut_bind; [apply cut_list, cut_safe1_weaken, Hd|]. intros; apply cut_ret.
Qed.
Ltac cut := repeat first
  [ apply cut_ret | apply cut_fail | apply cut_mismatch | apply cut1_fail | apply cut1_mismatch
  | apply cut1_get_u; lia | apply cut1_get_s; lia | apply cut_get_u; lia | apply cut_get_s; lia
  | apply cut_safe1_weaken, cut1_skip; [lia|]
  | apply cut1_skip; [lia|]
  | apply cut_bind; [|intros]
  | apply cut1_bind_l; [|intros]
  | apply cut_list
  | apply cut_if | apply cut1_if ].
Lemma cut_string : cut_safe decode_string. Proof. unfold decode_string. cut. Qed.
Lemma cut_bias m b : cut_safe (get_bias m b). Proof. unfold get_bias. cut. Qed.
Lemma cut_1005_base : cut_safe decode_1005_base. Proof. unfold decode_1005_base. cut. Qed.
Lemma cut_1005 : cut_safe decode_1005. Proof. unfold decode_1005, expect. cut; apply cut_1005_base. Qed.
Lemma cut_1007_base : cut_safe decode_1007_base. Proof. unfold decode_1007_base. cut; apply cut_string. Qed.
Lemma cut_1007 : cut_safe decode_1007. Proof. unfold decode_1007, expect. cut; apply cut_1007_base. Qed.
Lemma cut_1008 : cut_safe decode_1008. Proof. unfold decode_1008, expect. cut; first [apply cut_1007_base|apply cut_string]. Qed.
Lemma cut_1029 : cut_safe decode_1029. Proof. unfold decode_1029, expect. cut. Qed.
Lemma cut_1033 : cut_safe decode_1033. Proof. unfold decode_1033, expect. cut; apply cut_string. Qed.
Lemma cut_1230 : cut_safe decode_1230. Proof. unfold decode_1230, expect. cut; apply cut_bias. Qed.
Lemma cut_4062 : cut_safe decode_4062. Proof. unfold decode_4062, expect. cut. Qed.
