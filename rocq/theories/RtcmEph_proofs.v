From Verif Require Import Base Bitstring Bits_model Bits_proofs Bitstream_model Bitstream_proofs RtcmStation_model RtcmStation_spec RtcmStation_proofs
  RtcmEph_model RtcmEph_spec.

Lemma bind_u' {B} n v fs r (f : Z -> dec B) : 0 <=? n = true -> ubits n v ->
  dbind (get_u n) f (fields_bits ((n, v) :: fs) ++ r) = f v (fields_bits fs ++ r).
Proof. intros H. apply Z.leb_le in H. exact (bind_u n v fs r f H). Qed.
Lemma bind_s' {B} n v fs r (f : Z -> dec B) : 1 <=? n = true -> sbits n v ->
  dbind (get_s n) f (fields_bits ((n, v) :: fs) ++ r) = f v (fields_bits fs ++ r).
Proof. intros H. apply Z.leb_le in H. exact (bind_s n v fs r f H). Qed.
Lemma bind_skip' {B} n v fs r (f : unit -> dec B) : 0 <=? n = true ->
  dbind (skip n) f (fields_bits ((n, v) :: fs) ++ r) = f tt (fields_bits fs ++ r).
Proof. intros H. apply Z.leb_le in H. exact (bind_skip n v fs r f H). Qed.
Lemma bind_s_wrap {B} n v fs r (f : Z -> dec B) : 1 <=? n = true ->
  dbind (get_s n) f (fields_bits ((n, v) :: fs) ++ r) = f (to_signed n (v mod 2 ^ n)) (fields_bits fs ++ r).
Proof.
  intros H. apply Z.leb_le in H. pose proof (@bind_u_mod Z n v fs r ret ltac:(lia)) as P. unfold dbind in *. unfold get_u, get_s, ret in *.
  generalize dependent (fields_bits ((n, v) :: fs) ++ r). intros l P.
  destruct (len l <? n); [discriminate|]. injection P as P1 P2. rewrite P1, P2. reflexivity.
Qed.
Lemma bind_sm' {B} n v fs r (f : Z -> dec B) : 2 <=? n = true -> smag n v ->
  dbind (get_sm n) f (fields_bits (sm n v ++ fs) ++ r) = f v (fields_bits fs ++ r).
Proof.
  intros H Hv. apply Z.leb_le in H. unfold get_sm, sm. rewrite bind_assoc. cbn [app].
  rewrite bind_s_wrap by reflexivity. unfold smag in Hv. rewrite bind_assoc, bind_u by lia. unfold dbind, ret. f_equal.
  destruct (Z.ltb_spec v 0).
  - change (to_signed 1 (1 mod 2 ^ 1)) with (-1). cbn [negb Z.eqb]. lia.
  - change (to_signed 1 (0 mod 2 ^ 1)) with 0. cbn [negb Z.eqb]. lia.
Qed.

Ltac estep := first [rewrite bind_u' by (reflexivity || assumption) | rewrite bind_s' by (reflexivity || assumption)
  | rewrite bind_skip' by reflexivity | rewrite bind_sm' by (reflexivity || assumption)]; cbv beta.
Ltac start := unfold expect; cbn [app]; rewrite bind_u' by (reflexivity || (unfold ubits; lia)); cbv beta;
  match goal with |- context [negb (?a =? ?a)] => rewrite (Z.eqb_refl a) | |- context [?a =? ?a] => rewrite (Z.eqb_refl a) end; cbn [negb].
Ltac ands := repeat match goal with H : _ /\ _ |- _ => destruct H end.

(** 1019: the encoder puts toe where toc belongs and vice versa *)
Definition swap_toe_toc (m : keph) : keph :=
  mkkeph (e_sat m) (e_wn m) (e_toc m) (e_ura m) (e_fit m) (e_health m) (e_tgd0 m) (e_tgd1 m) (e_crc m) (e_crs m) (e_cuc m) (e_cus m) (e_cic m)
    (e_cis m) (e_dn m) (e_m0 m) (e_ecc m) (e_sqrta m) (e_omega0 m) (e_omegadot m) (e_w m) (e_inc m) (e_inc_dot m) (e_af0 m) (e_af1 m) (e_af2 m)
    (e_toe m) (e_iodc m) (e_iode m) (e_codeL2 m) (e_L2_data_bit m).
Lemma rt_gps m : wf_gps m -> round_trips (encode_gps m) (run_dec decode_gps) 61 (swap_toe_toc m).
Proof.
  unfold wf_gps. intros H. ands. unfold encode_gps. apply fields_round_trip; [unfold fields_gps; widths|reflexivity|].
  intros pad. unfold fields_gps, decode_gps. start.
  assert (ubits 1 (Z.b2z (e_L2_data_bit m))) by (destruct (e_L2_data_bit m); unfold ubits; cbn; lia).
  repeat estep. eexists. unfold ret, swap_toe_toc. match goal with H : e_tgd1 m = 0 |- _ => rewrite H end. destruct (e_L2_data_bit m); reflexivity.
Qed.
Lemma rt_bds m : wf_bds m -> 5 < e_sat m -> round_trips (encode_bds m) (run_dec decode_bds) 64 m.
Proof.
  unfold wf_bds. intros H Hs. ands. unfold encode_bds. apply fields_round_trip; [unfold fields_bds; widths|reflexivity|].
  intros pad. unfold fields_bds, decode_bds. start. estep.
  destruct (Z.leb_spec (e_sat m) 5) as [X|X]; [exfalso; clear - Hs X; lia|].
  repeat estep. eexists. unfold ret. f_equal. destruct m; cbn in *; subst; reflexivity.
Qed.
Lemma bds_geo m : ubits 6 (e_sat m) -> e_sat m <= 5 -> forall buff, bytes buff -> 64 <= len buff ->
  let '(b, n) := encode_bds m buff in run_dec decode_bds (take n b) = Invalid.
Proof.
  intros H Hs buff Hb Hl. unfold encode_bds, encode_fields.
  assert (W : Forall width_ok (fields_bds m)) by (unfold fields_bds; widths).
  assert (T : total (fields_bds m) = 511) by reflexivity.
  assert (Hm : total (fields_bds m) <= 8 * len buff) by (rewrite T; clear - Hl; lia).
  pose proof (encoded_bits buff _ Hb W Hm) as P. cbn zeta in P.
  destruct (put_fields buff 0 (fields_bds m)) as [b bit]. cbn [fst snd] in P. destruct P as (-> & L & B & pad & _ & E).
  unfold run_dec. rewrite E. unfold decode_bds. unfold fields_bds. start. estep.
  destruct (Z.leb_spec (e_sat m) 5) as [X|X]; [reflexivity|]. exfalso. clear - Hs X. lia.
Qed.
(** 1045, 1046 *)
Definition set_health (m : keph) (h : Z) : keph :=
  mkkeph (e_sat m) (e_wn m) (e_toe m) (e_ura m) (e_fit m) h (e_tgd0 m) (e_tgd1 m) (e_crc m) (e_crs m) (e_cuc m) (e_cus m) (e_cic m)
    (e_cis m) (e_dn m) (e_m0 m) (e_ecc m) (e_sqrta m) (e_omega0 m) (e_omegadot m) (e_w m) (e_inc m) (e_inc_dot m) (e_af0 m) (e_af1 m) (e_af2 m)
    (e_toc m) (e_iodc m) (e_iode m) (e_codeL2 m) (e_L2_data_bit m).
(** what an n-bit field read as signed and stored in a uint8_t becomes *)
Definition as_s8 (n h : Z) : Z := if h <? 2 ^ (n - 1) then h else h + 256 - 2 ^ n.
Lemma rt_gal_common m tail rest t pad : wf_gal m ->
  (forall (f : Z * Z * Z -> dec keph), dbind rest f (fields_bits tail ++ pad) = f t pad) ->
  decode_gal_common rest (fields_bits (fields_gal_common m ++ tail) ++ pad) =
  DOk (set_health (mkkeph (e_sat m) (e_wn m) (e_toe m) (e_ura m) (e_fit m) 0 (fst (fst t)) (snd (fst t)) (e_crc m) (e_crs m) (e_cuc m) (e_cus m) (e_cic m)
    (e_cis m) (e_dn m) (e_m0 m) (e_ecc m) (e_sqrta m) (e_omega0 m) (e_omegadot m) (e_w m) (e_inc m) (e_inc_dot m) (e_af0 m) (e_af1 m) (e_af2 m)
    (e_toc m) (e_iodc m) (e_iode m) (e_codeL2 m) (e_L2_data_bit m)) (snd t)) pad.
Proof.
  unfold wf_gal. intros H Hr. ands. unfold fields_gal_common, decode_gal_common. cbn [app]. repeat estep.
  rewrite Hr. destruct t as [[a b] h]. unfold ret, set_health. cbn [e_sat e_wn e_toe e_ura e_fit e_health e_tgd0 e_tgd1 e_crc e_crs e_cuc e_cus e_cic e_cis e_dn e_m0 e_ecc e_sqrta e_omega0 e_omegadot e_w e_inc e_inc_dot e_af0 e_af1 e_af2 e_toc e_iodc e_iode e_codeL2 e_L2_data_bit fst snd].
  repeat match goal with H : _ m = _ |- _ => rewrite H; clear H end. reflexivity.
Qed.
Lemma to_signed_u8 n h : 1 <= n <= 8 -> 0 <= h < 2 ^ n -> to_signed n (h mod 2 ^ n) mod 256 = as_s8 n h.
Proof.
  intros Hn Hh. unfold to_signed, as_s8. cbv zeta. rewrite !(Z.mod_small h) by lia. assert (2 ^ n <= 2 ^ 8) by (apply Z.pow_le_mono_r; lia).
  change (2 ^ 8) with 256 in *.
  assert (2 ^ n = 2 * 2 ^ (n - 1)) by (rewrite <- Z.pow_succ_r by lia; f_equal; lia).
  destruct (Z.ltb_spec h (2 ^ (n - 1))).
  - apply Z.mod_small. lia.
  - symmetry. apply Z.mod_unique with (q := -1); lia.
Qed.
Lemma regroup (a b c : list field) (pad : list bool) : fields_bits (a ++ b ++ c) ++ pad = fields_bits (a ++ b) ++ fields_bits c ++ pad.
Proof. rewrite !fields_bits_app, !app_assoc. reflexivity. Qed.
Lemma rt_inav m : wf_inav m -> round_trips (encode_inav m) (run_dec decode_inav) 63 (set_health m (as_s8 6 (e_health m))).
Proof.
  intros (H & H1 & H2). unfold encode_inav. apply fields_round_trip; [unfold fields_inav, fields_gal_common; widths|reflexivity|].
  intros pad. unfold fields_inav, decode_inav. start.
  assert (Ht : sbits 10 (e_tgd0 m)) by (unfold wf_gal in H; tauto).
  exists (fields_bits [(2, 0)] ++ pad).
  pose proof (rt_gal_common m [(10, e_tgd0 m); (10, e_tgd1 m); (6, e_health m)]
    (a <- get_s 10;; b <- get_s 10;; h <- get_s 6;; ret (a, b, h mod 256)) (e_tgd0 m, e_tgd1 m, as_s8 6 (e_health m)) (fields_bits [(2, 0)] ++ pad) H) as P.
  rewrite <- regroup in P. etransitivity; [refine (P _); clear P|].
  
  - intros f. rewrite bind_assoc. rewrite bind_s' by (reflexivity || assumption). rewrite bind_assoc.
    rewrite bind_s' by (reflexivity || assumption). rewrite bind_assoc. rewrite bind_s_wrap by reflexivity.
    unfold dbind, ret. rewrite to_signed_u8 by (unfold ubits in H2; lia). reflexivity.
  - destruct m; reflexivity.
Qed.
Lemma rt_fnav m : wf_fnav m -> round_trips (encode_fnav m) (run_dec decode_fnav) 62 (set_health m (as_s8 3 (e_health m))).
Proof.
  intros (H & H1 & H2). unfold encode_fnav. apply fields_round_trip; [unfold fields_fnav, fields_gal_common; widths|reflexivity|].
  intros pad. unfold fields_fnav, decode_fnav. start.
  assert (Ht : sbits 10 (e_tgd0 m)) by (unfold wf_gal in H; tauto).
  exists (fields_bits [(7, 0)] ++ pad).
  pose proof (rt_gal_common m [(10, e_tgd0 m); (3, e_health m)]
    (a <- get_s 10;; h <- get_s 3;; ret (a, 0, h mod 256)) (e_tgd0 m, 0, as_s8 3 (e_health m)) (fields_bits [(7, 0)] ++ pad) H) as P.
  rewrite <- regroup in P. etransitivity; [refine (P _); clear P|].
  
  - intros f. rewrite bind_assoc. rewrite bind_s' by (reflexivity || assumption). rewrite bind_assoc. rewrite bind_s_wrap by reflexivity.
    unfold dbind, ret. rewrite to_signed_u8 by (unfold ubits in H2; lia). reflexivity.
  - destruct m; cbn in *. subst. reflexivity.
Qed.
(** 1020 *)
Lemma lor_same_bit h : ubits 1 h -> Z.lor (Z.lor h h) 0 = h.
Proof. intros H. rewrite Z.lor_diag, Z.lor_0_r. reflexivity. Qed.
Lemma rt_glo m : wf_glo m -> round_trips (encode_glo m) (run_dec decode_glo) 45 m.
Proof.
  unfold wf_glo. intros H. ands. unfold encode_glo.
  assert (Wsm : forall n v, 2 <= n <= 32 -> Forall width_ok (sm n v)) by (intros; unfold sm; widths).
  apply fields_round_trip; [unfold fields_glo; repeat (apply Forall_app; split); first [apply Wsm; lia|widths]|reflexivity|].
  intros pad. unfold fields_glo, decode_glo. start. repeat (estep; cbn [app]).
  change (fields_bits [(32, 0); (32, 0); (15, 0)]) with (fields_bits [(1, 0); (31, 0); (32, 0); (15, 0)]).
  rewrite bind_u' by (reflexivity || (unfold ubits; lia)). cbn [Z.eqb]. unfold dbind, ret. eexists. rewrite lor_same_bit by assumption.
  destruct m; reflexivity.
Qed.

(** truncation *)
Lemma cut_sm n : 2 <= n -> cut_safe (get_sm n).
Proof. intros H. unfold get_sm. apply cut_bind; [apply cut_get_s; lia|]. intros. apply cut_bind; [apply cut_get_u; lia|]. intros. apply cut_ret. Qed.
Lemma cut1_sm n : 2 <= n -> cut_safe1 (get_sm n).
Proof. intros H. unfold get_sm. apply cut1_bind_l; [apply cut1_get_s; lia|]. intros. apply cut_bind; [apply cut_get_u; lia|]. intros. apply cut_ret. Qed.
Lemma cut_gps : cut_safe decode_gps. Proof. unfold decode_gps, expect. cut. Qed.
Lemma cut_qzss : cut_safe decode_qzss. Proof. unfold decode_qzss, expect. cut. Qed.
Lemma cut_bds : cut_safe decode_bds. Proof. unfold decode_bds, expect. cut. Qed.
Lemma cut_inav : cut_safe decode_inav.
Proof. unfold decode_inav, decode_gal_common, expect. cut. all: repeat match goal with |- context [let '(_, _) := ?t in _] => destruct t end; cut. Qed.
Lemma cut_fnav : cut_safe decode_fnav.
Proof. unfold decode_fnav, decode_gal_common, expect. cut. all: repeat match goal with |- context [let '(_, _) := ?t in _] => destruct t end; cut. Qed.
Ltac cut' := repeat first [apply cut_sm; lia | apply cut1_sm; lia | progress cut].
Lemma cut_glo : cut_safe decode_glo. Proof. unfold decode_glo, expect. cut'. Qed.
