(** C28, C29, C30: SBP observations to RTCM MSM. *)
From Verif Require Import Base Bits_model Bits_proofs Bytestream_model Bytestream_proofs RtcmMsm_model RtcmMsm_spec Signals_model Signals_spec Signals_proofs Time_model ObsBuffer_spec ObsBuffer_proofs
  Double_model Sbp2Rtcm_model Sbp2Rtcm_spec Sbp2Rtcm_proofs Sbp2Msm_model Sbp2Msm_spec Sbp2Msm_proofs Sbp2Msm_epoch_proofs.

Lemma init_inv w sender h : Inv w (init sender h) [].
Proof.
  constructor; cbn [init os_buf flat_map]; try reflexivity; try constructor; [intros ? ? []|constructor|exfalso; destruct g0; discriminate|exfalso; destruct g0; discriminate].
Qed.
Lemma run_app es1 : forall s es2, run s (es1 ++ es2) = bind (run s es1) (fun '(s1, o1) => bind (run s1 es2) (fun '(s2, o2) => Ok (s2, o1 ++ o2))).
Proof.
  induction es1 as [|e es1 IH]; intros s es2; cbn [app run].
  - cbn [bind]. destruct (run s es2) as [[s2 o2]| | |]; reflexivity.
  - destruct (step s e) as [[s1 o1]| | |]; cbn [bind]; try reflexivity. rewrite IH. destruct (run s1 es1) as [[s3 o3]| | |]; cbn [bind]; try reflexivity.
    destruct (run s3 es2) as [[s4 o4]| | |]; cbn [bind]; try reflexivity. rewrite app_assoc. reflexivity.
Qed.

(** ** C28 *)
(** From start-up, for every sequence of events whose observation messages are well formed: nothing is ever written outside the buffer; what is
    converted are epochs each made of the wanted observations of messages of one time and one sequence with increasing positions, every message being
    used at most once and in order; what is still buffered is such a group too; never more than 210 observations. *)
Theorem C28_assembly_partial w sender h es : events_ok w es ->
  exists s' out groups pending,
    run (init sender h) es = Ok (s', out) /\
    Forall2 made_of groups out /\ subseq (concat groups ++ pending) (obs_messages es) /\
    one_sequence pending /\ os_buf s' = flat_map (fun m => wanted_obs (snd m)) pending /\
    len (os_buf s') <= 210 /\ Forall (fun e => len (e_obs e) <= 210) out.
Proof.
  intros F. destruct (run_ok w es (init sender h) [] None (init_inv w sender h) F) as (s' & out & gs & g & R & M & I & S & _).
  assert (Z0 : len (os_buf (init sender h)) <= 210) by (cbn; lia). destruct (run_small es _ _ Z0 R) as [L1 L2].
  exists s', out, gs, g. repeat (split; [first [exact R|exact M|exact S|apply (inv_seq _ _ _ I)|apply (inv_buf _ _ _ I)|exact L1]|]). exact L2.
Qed.

(** A complete sequence of messages of one epoch, arriving in order while nothing newer is buffered for its sender, is converted at once, complete
    and alone (after flushing what was buffered before), and leaves the buffer empty. *)
Theorem C28_complete_epoch_delivered_partial w sender h es s' out sd t ps : events_ok w es -> run (init sender h) es = Ok (s', out) ->
  complete_epoch t ps -> ready_for s' sd t -> Forall (fun p => w <= oh_wn (parse_hdr p) <= w + 3550) ps ->
  exists hd pre, run (init sender h) (es ++ map (EObs sd) ps) = Ok (mkost sd hd [], out ++ pre ++ [mkepoch sd hd (flat_map wanted_obs ps)]) /\
    (604800000 * oh_wn hd + oh_tow hd = t /\ 0 <= oh_tow hd < 604800000) /\ (pre = [] \/ pre = [mkepoch (os_sender s') (os_hdr s') (os_buf s')]).
Proof.
  intros F R C RD W. destruct (run_ok w es (init sender h) [] None (init_inv w sender h) F) as (s1 & out1 & gs & g & R1 & M & I & S & _).
  rewrite R in R1. injection R1 as <- <-.
  assert (L15 : len ps <= 15).
  { destruct C as [NE C]. destruct ps as [|p ps]; [contradiction|]. destruct (C 0%nat p eq_refl) as (P & _ & T & _). rewrite <- T. unfold total.
    destruct (hdr_range p P) as (_ & RN). assert (0 <= oh_n (parse_hdr p) < 256) by lia. apply Z.lt_succ_r. apply Z.div_lt_upper_bound; lia. }
  destruct (complete_delivered w s' g sd t ps I C RD W L15) as (hd & pre & R2 & A & B). exists hd, pre. split; [|split; [exact A|exact B]].
  rewrite run_app, R. cbn [bind]. rewrite R2. reflexivity.
Qed.

(** a payload: header and observations *)
Definition mk_obs (o : pobs) : list Z :=
  le 4 (o_P o) ++ le 4 (o_Li o) ++ [o_Lf o] ++ le 2 (o_Di o) ++ [o_Df o; o_cn0 o; o_lock o; o_flags o; o_sat o; o_code o].
Definition mk_payload (tow wn n : Z) (os : list pobs) : list Z := le 4 tow ++ le 4 0 ++ le 2 wn ++ [n] ++ flat_map mk_obs os.
(** the field offsets: every field of a payload is read back where libsbp's packed structs put it *)
Definition obs_in_range (o : pobs) : Prop :=
  0 <= o_P o < 2 ^ 32 /\ - 2 ^ 31 <= o_Li o < 2 ^ 31 /\ byte (o_Lf o) /\ - 2 ^ 15 <= o_Di o < 2 ^ 15 /\ byte (o_Df o) /\ byte (o_cn0 o) /\ byte (o_lock o) /\
  byte (o_flags o) /\ byte (o_sat o) /\ byte (o_code o).
Lemma rd_skip p b k n : 0 <= b -> 0 <= k -> rd p (b + k) n = rd (drop b p) k n.
Proof. intros. unfold rd, sub. rewrite drop_drop by lia. reflexivity. Qed.
Lemma rd_at a l r n k v : len a = k -> len l = n -> le_val l = v -> rd (a ++ l ++ r) k n = v.
Proof. intros <- <- <-. unfold rd, sub. rewrite drop_app_exact, take_app_eq; reflexivity. Qed.
Lemma rd_first l r n v : len l = n -> le_val l = v -> rd (l ++ r) 0 n = v.
Proof. intros <- <-. unfold rd, sub. rewrite drop_le0 by lia. rewrite take_app_eq; reflexivity. Qed.
Lemma len_mk_obs o : len (mk_obs o) = 17.
Proof. unfold mk_obs. rewrite !len_app, !len_le. reflexivity. Qed.
Lemma le_val_byte b : byte b -> le_val [b] = b.
Proof. intros B. cbn [le_val]. unfold byte in B. lia. Qed.
Lemma le_val_u n v : 0 <= v < 256 ^ Z.of_nat n -> le_val (le n v) = v.
Proof. intros. rewrite le_val_le. apply Z.mod_small. assumption. Qed.
Lemma parse_mk_obs p i o r : drop (11 + 17 * i) p = mk_obs o ++ r -> 0 <= i -> obs_in_range o -> parse_obs p i = o.
Proof.
  intros D I (HP & HL & HLf & HD & HDf & H1 & H2 & H3 & H4 & H5). unfold parse_obs, HDR_LEN, OBS_LEN. cbv zeta.
  set (b := 11 + 17 * i) in *. assert (0 <= b) by lia. clearbody b.
  replace (rd p b 4) with (rd (drop b p) 0 4) by (rewrite <- rd_skip by lia; f_equal; lia). rewrite !rd_skip, D by lia.
  destruct o as [P Li Lf Di Df cn0 lock flags sat code]. unfold mk_obs in *. cbn [o_P o_Li o_Lf o_Di o_Df o_cn0 o_lock o_flags o_sat o_code] in *.
  assert (EL : (le 4 P ++ le 4 Li ++ [Lf] ++ le 2 Di ++ [Df; cn0; lock; flags; sat; code]) ++ r =
               le 4 P ++ le 4 Li ++ [Lf] ++ le 2 Di ++ [Df] ++ [cn0] ++ [lock] ++ [flags] ++ [sat] ++ [code] ++ r).
  { rewrite <- !app_assoc. cbn [app]. reflexivity. }
  rewrite EL. clear EL D.
  pose proof (len_le 4 P). pose proof (len_le 4 Li). pose proof (len_le 2 Di).
  rewrite (rd_first (le 4 P) _ 4 P (len_le 4 P) (le_val_u 4 P HP)).
  rewrite (rd_at (le 4 P) (le 4 Li) _ 4 4 (Li mod 2 ^ 32)) by first [assumption | rewrite le_val_le; reflexivity].
  rewrite to_signed_mod by lia.
  rewrite (app_assoc (le 4 P)).
  rewrite (rd_at (le 4 P ++ le 4 Li) [Lf] _ 1 8 Lf) by first [rewrite len_app, !len_le; reflexivity | reflexivity | apply le_val_byte; assumption].
  rewrite (app_assoc _ [Lf]).
  rewrite (rd_at ((le 4 P ++ le 4 Li) ++ [Lf]) (le 2 Di) _ 2 9 (Di mod 2 ^ 16)) by first [rewrite !len_app, !len_le; reflexivity | rewrite len_le; reflexivity | rewrite le_val_le; reflexivity].
  rewrite to_signed_mod by lia.
  rewrite (app_assoc _ (le 2 Di)). set (h := ((le 4 P ++ le 4 Li) ++ [Lf]) ++ le 2 Di). assert (LH : len h = 11) by (unfold h; rewrite !len_app, !len_le; reflexivity).
  rewrite (rd_at h [Df] _ 1 11 Df) by first [exact LH | reflexivity | apply le_val_byte; assumption].
  rewrite (app_assoc h). rewrite (rd_at (h ++ [Df]) [cn0] _ 1 12 cn0) by first [rewrite len_app, LH; reflexivity | reflexivity | apply le_val_byte; assumption].
  rewrite (app_assoc _ [cn0]). rewrite (rd_at ((h ++ [Df]) ++ [cn0]) [lock] _ 1 13 lock) by first [rewrite !len_app, LH; reflexivity | reflexivity | apply le_val_byte; assumption].
  rewrite (app_assoc _ [lock]). rewrite (rd_at (((h ++ [Df]) ++ [cn0]) ++ [lock]) [flags] _ 1 14 flags) by first [rewrite !len_app, LH; reflexivity | reflexivity | apply le_val_byte; assumption].
  rewrite (app_assoc _ [flags]). rewrite (rd_at ((((h ++ [Df]) ++ [cn0]) ++ [lock]) ++ [flags]) [sat] _ 1 15 sat) by first [rewrite !len_app, LH; reflexivity | reflexivity | apply le_val_byte; assumption].
  rewrite (app_assoc _ [sat]). rewrite (rd_at (((((h ++ [Df]) ++ [cn0]) ++ [lock]) ++ [flags]) ++ [sat]) [code] _ 1 16 code) by first [rewrite !len_app, LH; reflexivity | reflexivity | apply le_val_byte; assumption].
  reflexivity.
Qed.
Lemma map_parse (f : Z -> pobs) os : forall k, (forall i o, nth_error os i = Some o -> f (Z.of_nat (k + i)) = o) -> map (fun i => f (Z.of_nat i)) (seq k (length os)) = os.
Proof.
  induction os as [|o os IH]; intros k H; [reflexivity|]. cbn [length seq map]. f_equal.
  - specialize (H 0%nat o eq_refl). rewrite Nat.add_0_r in H. exact H.
  - apply IH. intros i o' E. specialize (H (S i) o' E). rewrite Nat.add_succ_r in H. exact H.
Qed.
Lemma drop_flat os : forall i o, nth_error os i = Some o -> exists r, drop (17 * Z.of_nat i) (flat_map mk_obs os) = mk_obs o ++ r.
Proof.
  induction os as [|a os IH]; intros [|i] o E; try discriminate.
  - injection E as <-. exists (flat_map mk_obs os). reflexivity.
  - cbn [nth_error] in E. destruct (IH i o E) as [r R]. exists r. cbn [flat_map]. rewrite drop_app_r by (rewrite len_mk_obs; lia). rewrite len_mk_obs, <- R. f_equal. lia.
Qed.
Lemma len_flat os : len (flat_map mk_obs os) = 17 * len os.
Proof. induction os as [|a os IH]; [reflexivity|]. cbn [flat_map]. rewrite len_app, len_mk_obs, len_cons, IH. lia. Qed.
Theorem C28_payload_fields tow wn n os : 0 <= tow < 2 ^ 32 -> 0 <= wn < 2 ^ 16 -> byte n -> Forall obs_in_range os ->
  parse_hdr (mk_payload tow wn n os) = mkohdr tow 0 wn n /\ all_obs (mk_payload tow wn n os) = os.
Proof.
  intros HT HW HN F. unfold mk_payload. split.
  - unfold parse_hdr.
    rewrite (rd_first (le 4 tow) _ 4 tow (len_le 4 tow) (le_val_u 4 tow HT)).
    rewrite (rd_at (le 4 tow) (le 4 0) (le 2 wn ++ [n] ++ flat_map mk_obs os) 4 4 0 (len_le 4 tow) (len_le 4 0) eq_refl).
    rewrite (app_assoc (le 4 tow)).
    rewrite (rd_at (le 4 tow ++ le 4 0) (le 2 wn) _ 2 8 wn) by first [rewrite len_app, !len_le; reflexivity | apply len_le | apply le_val_u; exact HW].
    rewrite (app_assoc _ (le 2 wn)).
    rewrite (rd_at ((le 4 tow ++ le 4 0) ++ le 2 wn) [n] _ 1 10 n) by first [rewrite !len_app, !len_le; reflexivity | reflexivity | apply le_val_byte; assumption].
    reflexivity.
  - unfold all_obs. set (p := le 4 tow ++ le 4 0 ++ le 2 wn ++ [n] ++ flat_map mk_obs os).
    assert (EP : p = ((le 4 tow ++ le 4 0) ++ le 2 wn ++ [n]) ++ flat_map mk_obs os) by (unfold p; rewrite <- !app_assoc; reflexivity).
    assert (LH : len ((le 4 tow ++ le 4 0) ++ le 2 wn ++ [n]) = 11) by (rewrite !len_app, !len_le; reflexivity).
    assert (LP : len p = 11 + 17 * len os) by (rewrite EP, len_app, LH, len_flat; lia).
    replace (Z.to_nat ((len p - 11) / 17)) with (length os).
    + apply (map_parse (parse_obs p) os 0). intros i o E. destruct (drop_flat os i o E) as [r R]. eapply parse_mk_obs.
      * rewrite EP, drop_app_r by lia. rewrite LH. replace (11 + 17 * Z.of_nat (0 + i) - 11) with (17 * Z.of_nat i) by lia. exact R.
      * lia.
      * rewrite Forall_forall in F. apply F. eapply nth_error_In. exact E.
    + rewrite LP. replace (11 + 17 * len os - 11) with (len os * 17) by lia. rewrite Z.div_mul by lia. unfold len. lia.
Qed.
Definition ob (sat code flags : Z) : pobs := mkpobs 1100000000 (-5000) 17 (-300) 9 160 5 flags sat code.

Lemma payload_okb p : forallb (fun b => (0 <=? b) && (b <? 256)) p = true -> 11 <= len p <= 255 -> oh_tow (parse_hdr p) < 604800000 -> payload_ok p.
Proof.
  intros F L T. split; [|split; assumption]. rewrite forallb_forall in F. apply Forall_forall. intros b Hb. specialize (F b Hb). unfold byte. lia.
Qed.
(** two messages of an epoch, with one observation that is excluded by RAIM and one whose pseudorange is invalid; then the first message of the next
    epoch *)
Definition demo_p1 := mk_payload 345600200 2190 32 [ob 3 0 3; ob 7 0 131; ob 9 0 3].
Definition demo_p2 := mk_payload 345600200 2190 33 [ob 3 1 3; ob 9 1 2; ob 12 3 15].
Definition demo_p3 := mk_payload 345600400 2190 32 [ob 3 0 3].
Example C28_nonvacuous :
  events_ok 2190 [EObs 100 demo_p1; EObs 100 demo_p2; EOther 100; EObs 100 demo_p3] /\
  complete_epoch (604800000 * 2190 + 345600200) [demo_p1; demo_p2] /\
  ready_for (init 0 (mkohdr 0 0 0 0)) 100 (604800000 * 2190 + 345600200) /\
  exists hd, run (init 0 (mkohdr 0 0 0 0)) [EObs 100 demo_p1; EObs 100 demo_p2; EOther 100; EObs 100 demo_p3]
    = Ok (mkost 100 (mkohdr 345600400 0 2190 32) [ob 3 0 3],
          [mkepoch 0 (mkohdr 0 0 0 0) []; mkepoch 100 hd [ob 3 0 3; ob 9 0 3; ob 3 1 3; ob 12 3 15]]).
Proof.
  assert (P1 : payload_ok demo_p1) by (apply payload_okb; vm_compute; (reflexivity || (split; discriminate))).
  assert (P2 : payload_ok demo_p2) by (apply payload_okb; vm_compute; (reflexivity || (split; discriminate))).
  assert (P3 : payload_ok demo_p3) by (apply payload_okb; vm_compute; (reflexivity || (split; discriminate))).
  split; [|split; [|split]].
  - unfold events_ok. cbn [obs_messages flat_map app].
    repeat (apply Forall_cons; [cbn [snd]; split; [assumption|vm_compute; repeat split; discriminate]|]). apply Forall_nil.
  - split; [discriminate|]. intros [|[|i]] p Hp; cbn [nth_error] in Hp; try (injection Hp as <-; (split; [assumption|vm_compute; repeat split; reflexivity])).
    destruct i; discriminate Hp.
  - left. reflexivity.
  - eexists. vm_compute. reflexivity.
Qed.

(** What the assembly does not survive: a sequence announcing zero messages (n_obs = 0x00..0x0f) is never complete; after 210 observations in the
    buffer the next one is written outside it. *)
Definition full (n : Z) : list Z := mk_payload 345600200 2190 n (repeat (ob 3 0 3) 14).
Theorem C28_zero_total_refuted :
  exists es, Forall (fun m => payload_ok (snd m)) (obs_messages es) /\ len es = 16 /\ run (init 0 (mkohdr 0 0 0 0)) es = Ub.
Proof.
  exists (map (fun n => EObs 100 (full (Z.of_nat n))) (seq 0 16)). split; [|split].
  - apply Forall_forall. intros m Hm. assert (Hm' : In m (map (fun n => (100, full (Z.of_nat n))) (seq 0 16))) by exact Hm. apply in_map_iff in Hm'.
    destruct Hm' as (n & <- & Hn). cbn [snd]. apply in_seq in Hn.
    do 16 (destruct n as [|n]; [apply payload_okb; vm_compute; (reflexivity || (split; discriminate))|]). lia.
  - reflexivity.
  - vm_compute. reflexivity.
Qed.
(** A payload shorter than the observation header is read out of bounds; week numbers more than 3550 apart overflow a signed product. *)
Theorem C28_short_payload_refuted s sender p : len p < 11 -> run s [EObs sender p] = Ub.
Proof. intros L. cbn [run step]. unfold obs_cb. unfold HDR_LEN. replace (len p <? 11) with true by lia. reflexivity. Qed.
Theorem C28_week_jump_refuted :
  exists p1 p2, payload_ok p1 /\ payload_ok p2 /\ total p1 = 2 /\ total p2 = 2 /\
    oh_wn (parse_hdr p2) - oh_wn (parse_hdr p1) = 3551 /\ run (init 0 (mkohdr 0 0 0 0)) [EObs 100 p1; EObs 100 p2] = Ub.
Proof.
  exists (mk_payload 0 2190 32 [ob 3 0 3]), (mk_payload 0 5741 32 [ob 3 0 3]).
  split; [apply payload_okb; vm_compute; (reflexivity || (split; discriminate))|]. split; [apply payload_okb; vm_compute; (reflexivity || (split; discriminate))|].
  vm_compute. repeat split.
Qed.

(** ** C29 *)
(** Whatever the epoch, if it is converted at all: the multiple-message bit is 0 in the last message and 1 in all others. *)
Theorem C29_multiple_bit code_of cfg e out : buffer_to_msm code_of cfg e = Some out ->
  forall i m, nth_error out i = Some m -> mh_multiple (om_hdr m) = if (Datatypes.S i =? length out)%nat then 0 else 1.
Proof.
  intros H i m Hm. destruct (buffer_stages code_of cfg e out H) as (ms0 & ms1 & ms2 & ms3 & I & E1 & E2 & E3 & EM).
  destruct (marked_emit ms3 out EM) as [->|(pre & c & FL & ->)]; [destruct i; discriminate Hm|].
  rewrite app_length, map_length. cbn [length]. assert (LI : (i < length (map ms3 pre ++ [with_multiple (ms3 c) 0]))%nat) by (apply nth_error_Some; congruence).
  rewrite app_length, map_length in LI. cbn [length] in LI.
  destruct (Nat.eq_dec i (length pre)) as [->|N].
  - rewrite nth_error_app2 in Hm by (rewrite map_length; lia). rewrite map_length, Nat.sub_diag in Hm. injection Hm as <-.
    replace (Datatypes.S (length pre) =? length pre + 1)%nat with true by (symmetry; apply Nat.eqb_eq; lia). reflexivity.
  - rewrite nth_error_app1 in Hm by (rewrite map_length; lia). replace (Datatypes.S i =? length pre + 1)%nat with false by (symmetry; apply Nat.eqb_neq; lia).
    apply nth_error_In in Hm. apply in_map_iff in Hm. destruct Hm as (c' & <- & Hc').
    assert (Hc : In c' cons_order) by (assert (In c' (filter (active ms3) cons_order)) by (rewrite FL; apply in_or_app; left; exact Hc'); apply filter_In in H0; apply H0).
    assert (V : c' <> cINVALID) by (intros ->; cbn in Hc; intuition discriminate).
    destruct (stages_header code_of cfg e ms0 ms1 ms2 ms3 c' I E1 E2 E3 V) as [_ X]. exact X.
Qed.
(** An epoch of supported satellites and signals that fits: one message per constellation present, in RTCM order, with the header of that epoch, in which
    every observation is carried at its satellite and signal and nothing else is. *)
Theorem C29_epoch_carried code_of cfg e : (c_type cfg = 4 \/ c_type cfg = 5) -> 0 <= oh_tow (e_hdr e) < 604800000 ->
  (forall k, c_leap cfg = Some k -> -128 <= k <= 127) -> epoch_ok code_of (e_obs e) ->
  exists out, buffer_to_msm code_of cfg e = Some out /\ Forall2 (msm_of code_of cfg e) (present code_of (e_obs e)) out.
Proof. apply epoch_msgs. Qed.

(** an excerpt of the signal code numbering of SBP *)
Definition demo_code (z : Z) : code := match z with 0 => GPS_L1CA | 1 => GPS_L2CM | 2 => SBAS_L1CA | 3 => GLO_L1OF | 12 => BDS2_B1 | 14 => GAL_E1B | 5 => GPS_L1P | _ => CODE_INVALID end.
Definition demo_cfg : ocfg := mkocfg 5 (Some 18).
Definition demo_epoch : epoch := mkepoch 0x1234 (mkohdr 345600200 0 2190 32) [ob 3 0 3; ob 9 0 3; ob 3 1 3; ob 12 3 15; ob 5 14 3].
Lemma demo_epoch_ok : epoch_ok demo_code (e_obs demo_epoch).
Proof.
  split; [|split].
  - repeat (apply Forall_cons; [|]); [exists cGPS, 2, 1|exists cGPS, 8, 1|exists cGPS, 2, 14|exists cGLO, 11, 1|exists cGAL, 4, 3|];
      try apply Forall_nil; (split; [discriminate|]); unfold placed, sat_pos, sig_pos; (split; [reflexivity|]); (split; [vm_compute; repeat split; discriminate|]); cbn; tauto.
  - cbn [demo_epoch e_obs map o_sat ob sig_of o_code demo_code]. repeat constructor; cbn; intuition congruence.
  - intros c. destruct c; vm_compute; split; discriminate.
Qed.
Example C29_nonvacuous : epoch_ok demo_code (e_obs demo_epoch) /\
  exists out, buffer_to_msm demo_code demo_cfg demo_epoch = Some out /\ map (fun m => mh_num (om_hdr m)) out = [1075; 1085; 1095] /\ map (fun m => mh_multiple (om_hdr m)) out = [1; 1; 0].
Proof. split; [apply demo_epoch_ok|]. eexists. split; [vm_compute; reflexivity|]. vm_compute. split; reflexivity. Qed.

(** What is not survived ([None]: an assertion stops the process, or an array is overrun).  The same satellite and signal twice: *)
Theorem C29_duplicate_refuted : buffer_to_msm demo_code demo_cfg (mkepoch 1 (mkohdr 345600200 0 2190 16) [ob 3 0 3; ob 3 0 3]) = None.
Proof. vm_compute. reflexivity. Qed.
(** an SBAS observation: *)
Theorem C29_sbas_refuted : buffer_to_msm demo_code demo_cfg (mkepoch 1 (mkohdr 345600200 0 2190 16) [ob 3 0 3; ob 131 2 3]) = None.
Proof. vm_compute. reflexivity. Qed.
(** an unknown signal code: *)
Theorem C29_unknown_code_refuted : buffer_to_msm demo_code demo_cfg (mkepoch 1 (mkohdr 345600200 0 2190 16) [ob 3 0 3; ob 3 99 3]) = None.
Proof. vm_compute. reflexivity. Qed.
(** an observation whose satellite number is invalid, alone in its constellation: *)
Theorem C29_lone_invalid_sat_refuted : buffer_to_msm demo_code demo_cfg (mkepoch 1 (mkohdr 345600200 0 2190 16) [ob 3 0 3; ob 99 3 3]) = None.
Proof. vm_compute. reflexivity. Qed.
(** 33 satellites of one constellation (BeiDou): sats[32] is overrun: *)
Theorem C29_many_sats_refuted : buffer_to_msm demo_code demo_cfg
  (mkepoch 1 (mkohdr 345600200 0 2190 16) (map (fun n => ob (Z.of_nat n + 1) 12 3) (seq 0 33))) = None.
Proof. vm_compute. reflexivity. Qed.
(** An observation that no longer fits into the satellite x signal grid (here GPS L1P of satellite 1, with 22 satellites x 2 signals already present)
    is not left out: its measurement is sent as the L2C measurement of satellite 1. *)
Definition crowded : epoch := mkepoch 1 (mkohdr 345600200 0 2190 16)
  (map (fun n => ob (Z.of_nat n + 1) 0 3) (seq 0 22) ++ map (fun n => ob (Z.of_nat n + 1) 1 3) (seq 0 22) ++ [ob 1 5 7]).
Theorem C29_refused_observation_overwrites_refuted :
  exists m, buffer_to_msm demo_code demo_cfg crowded = Some [m] /\
    znth false 0 (sat_mask (om_hdr m)) = true /\ znth false 14 (sig_mask (om_hdr m)) = true /\
    znth None (set_count (take (cell_of (om_hdr m) 0 14) (cell_mask (om_hdr m)))) (om_sigs m) = Some (ob 1 5 7) /\
    placed demo_code cGPS (ob 1 1 3) 0 14 /\ In (ob 1 1 3) (e_obs crowded).
Proof.
  eexists. split; [vm_compute; reflexivity|]. split; [vm_compute; reflexivity|]. split; [vm_compute; reflexivity|]. split; [vm_compute; reflexivity|].
  split; [split; [reflexivity|split; [vm_compute; repeat split; discriminate|cbn; tauto]]|]. vm_compute. tauto.
Qed.

(** ** C30 *)
(** If no other message arrives from a different sender between the observation messages, every converted epoch consists of observation messages of
    one sender, and every RTCM message made of it carries that sender's station id. *)
Theorem C30_station_partial w sender h es : events_ok w es -> one_source None es ->
  exists s' out groups, run (init sender h) es = Ok (s', out) /\ Forall2 made_of groups out /\
    subseq (concat groups) (obs_messages es) /\
    Forall2 (fun g e => (forall m, In m g -> fst m = e_sender e) /\
      forall code_of cfg msgs, buffer_to_msm code_of cfg e = Some msgs -> forall m, In m msgs -> mh_stn (om_hdr m) = e_sender e mod 4096) groups out.
Proof.
  intros F OS. destruct (run_ok w es (init sender h) [] None (init_inv w sender h) F) as (s' & out & gs & g & R & M & I & S & FR).
  exists s', out, gs. split; [exact R|]. split; [exact M|]. split.
  - cbn [app] in S. eapply subseq_trans; [|exact S]. apply subseq_prefix.
  - assert (SB : Forall2 sent_by gs out) by (apply FR; [apply Forall_nil|discriminate|reflexivity|exact OS]).
    clear - SB. induction SB as [|x y gs out H SB IH]; constructor; [|exact IH]. split.
    + intros m Hm. unfold sent_by, from in H. rewrite Forall_forall in H. apply H. exact Hm.
    + clear. intros code_of cfg msgs B m Hm. destruct (buffer_stages code_of cfg y msgs B) as (ms0 & ms1 & ms2 & ms3 & I & E1 & E2 & E3 & EM).
      assert (ST : forall c, In c cons_order -> mh_stn (om_hdr (ms3 c)) = e_sender y mod 4096).
      { intros c Hc. assert (V : c <> cINVALID) by (intros ->; cbn in Hc; intuition discriminate).
        destruct (stages_header code_of cfg y ms0 ms1 ms2 ms3 c I E1 E2 E3 V) as [(_ & X & _) _]. exact X. }
      destruct (marked_emit ms3 msgs EM) as [->|(pre & c & FL & ->)]; [destruct Hm|].
      assert (IN : forall c', In c' (pre ++ [c]) -> In c' cons_order) by (intros c' Hc'; rewrite <- FL in Hc'; apply filter_In in Hc'; apply Hc').
      apply in_app_or in Hm. destruct Hm as [Hm|[<-|[]]].
      * apply in_map_iff in Hm. destruct Hm as (c' & <- & Hc'). apply ST, IN, in_or_app. left. exact Hc'.
      * change (mh_stn (om_hdr (with_multiple (ms3 c) 0))) with (mh_stn (om_hdr (ms3 c))). apply ST, IN, in_or_app. right. left. reflexivity.
Qed.
Example C30_nonvacuous : let es := [EOther 7; EObs 100 demo_p1; EOther 100; EObs 100 demo_p2; EObs 101 demo_p1; EOther 101; EObs 101 demo_p3] in
  events_ok 2190 es /\ one_source None es.
Proof.
  assert (P1 : payload_ok demo_p1) by (apply payload_okb; vm_compute; (reflexivity || (split; discriminate))).
  assert (P2 : payload_ok demo_p2) by (apply payload_okb; vm_compute; (reflexivity || (split; discriminate))).
  assert (P3 : payload_ok demo_p3) by (apply payload_okb; vm_compute; (reflexivity || (split; discriminate))).
  split.
  - unfold events_ok. cbn [obs_messages flat_map app].
    repeat (apply Forall_cons; [cbn [snd]; split; [assumption|vm_compute; repeat split; discriminate]|]). apply Forall_nil.
  - cbn [one_source]. intuition congruence.
Qed.
(** Otherwise station B's base position arriving between two observation messages of station A makes A's observations leave under B's station id, and
    an observation message of B that follows is merged with A's observations into one epoch. *)
Theorem C30_foreign_message_refuted :
  exists es out s', events_ok 2190 es /\ es = [EObs 100 demo_p1; EOther 200; EObs 200 demo_p2] /\ run (init 100 (mkohdr 0 0 0 0)) es = Ok (s', out) /\
    exists hd, out = [mkepoch 200 hd (wanted_obs demo_p1 ++ wanted_obs demo_p2)] /\ wanted_obs demo_p1 <> [] /\ wanted_obs demo_p2 <> [].
Proof.
  assert (P1 : payload_ok demo_p1) by (apply payload_okb; vm_compute; (reflexivity || (split; discriminate))).
  assert (P2 : payload_ok demo_p2) by (apply payload_okb; vm_compute; (reflexivity || (split; discriminate))).
  eexists _, _, _. split; [|split; [reflexivity|split; [vm_compute; reflexivity|]]].
  - unfold events_ok. cbn [obs_messages flat_map app].
    repeat (apply Forall_cons; [cbn [snd]; split; [assumption|vm_compute; repeat split; discriminate]|]). apply Forall_nil.
  - eexists. split; [vm_compute; reflexivity|]. split; vm_compute; discriminate.
Qed.
Print Assumptions C28_assembly_partial.
Print Assumptions C28_complete_epoch_delivered_partial.
Print Assumptions C28_zero_total_refuted.
Print Assumptions C28_short_payload_refuted.
Print Assumptions C28_week_jump_refuted.
Print Assumptions C29_multiple_bit.
Print Assumptions C29_epoch_carried.
Print Assumptions C29_duplicate_refuted.
Print Assumptions C29_sbas_refuted.
Print Assumptions C29_unknown_code_refuted.
Print Assumptions C29_lone_invalid_sat_refuted.
Print Assumptions C29_many_sats_refuted.
Print Assumptions C29_refused_observation_overwrites_refuted.
Print Assumptions C30_station_partial.
Print Assumptions C30_foreign_message_refuted.
Print Assumptions C28_payload_fields.
