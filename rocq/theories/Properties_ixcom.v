(** C39, C40, C41: iXCOM checksum, framing, conversion. *)
From Coq Require Import Reals Lra.
From Verif Require Import Base Bitstring Bytestream_model Bytestream_proofs UbxFraming_model Double_model UbxObs_model Esf_model Esf_proofs
  Ixcom_model Ixcom_spec Ixcom_proofs Ixcom_reader_proofs Ixcom_msg_proofs Ixcom_float_proofs.
Open Scope Z_scope.

(** * C39 *)
(** The table-driven checksum of any byte string is the remainder of its polynomial times x^16 modulo x^16+x^12+x^5+1, and the only one. *)
Theorem C39_checksum_is_crc l : bytes l -> is_crc16 l (ixcom_checksum l) /\ forall r, is_crc16 l r -> r = ixcom_checksum l.
Proof. intros H. split; [apply checksum_spec, H|]. intros r R. apply (crc16_unique l); [exact R| apply checksum_spec, H]. Qed.

(** An IMURAW message in the read buffer (its length field being its size, 44) is accepted exactly if its sync byte, its id and its
    checksum are right, and then every field is the one encoded. *)
Lemma header_sync m r : imuraw_fits m -> znth 0 0 (encode_imuraw m ++ r) = xh_sync (ir_hdr m) /\ znth 0 1 (encode_imuraw m ++ r) = xh_id (ir_hdr m) /\
  length_field (encode_imuraw m ++ r) = xh_len (ir_hdr m).
Proof.
  intros H. assert (E : decode_xhdr (encode_imuraw m ++ r) = ir_hdr m) by (unfold encode_imuraw; rewrite <- app_assoc; apply decode_encode_xhdr, H).
  rewrite <- E. unfold decode_xhdr, length_field. cbn [xh_sync xh_id xh_len lev]. change (4 + 1) with 5. lia.
Qed.
Lemma header_sync_w m r : wheeldata_fits m -> znth 0 0 (encode_wheeldata m ++ r) = xh_sync (wd_hdr m) /\ znth 0 1 (encode_wheeldata m ++ r) = xh_id (wd_hdr m) /\
  length_field (encode_wheeldata m ++ r) = xh_len (wd_hdr m).
Proof.
  intros H. assert (E : decode_xhdr (encode_wheeldata m ++ r) = wd_hdr m) by (unfold encode_wheeldata; rewrite <- app_assoc; apply decode_encode_xhdr, H).
  rewrite <- E. unfold decode_xhdr, length_field. cbn [xh_sync xh_id xh_len lev]. change (4 + 1) with 5. lia.
Qed.
Lemma bytes_take n l : bytes l -> bytes (take n l).
Proof. intros H. unfold bytes. rewrite <- (take_drop n l) in H. apply Forall_app in H. apply H. Qed.
Lemma crc_eqb l c : bytes l -> (ixcom_checksum l =? c) = true <-> is_crc16 l c.
Proof.
  intros B. destruct (C39_checksum_is_crc l B) as [C1 C2]. split; intros H.
  - apply Z.eqb_eq in H. subst c. exact C1.
  - apply Z.eqb_eq. symmetry. apply C2, H.
Qed.
Lemma gate {A} (sync id want : Z) (ok : bool) (P : Prop) (m : A) : (ok = true <-> P) ->
  let d := if negb (sync =? 126) then Invalid else if negb (id =? want) then Invalid else if ok then Ok m else Invalid in
  (sync = 0x7E -> id = want -> P -> d = Ok m) /\ (forall m', d = Ok m' -> m' = m /\ sync = 0x7E /\ id = want /\ P) /\ d <> Ub.
Proof.
  intros C d. unfold d. clear d. destruct (Z.eqb_spec sync 126); cbn [negb]; [|repeat split; intros; try discriminate; congruence].
  destruct (Z.eqb_spec id want); cbn [negb]; [|repeat split; intros; try discriminate; congruence].
  destruct ok; split; [auto| split; [intros m' H; injection H as <-; repeat split; auto; apply C; reflexivity| discriminate]| |split; [discriminate|discriminate]].
  intros _ _ Q. apply C in Q. discriminate.
Qed.
Theorem C39_imuraw_accept_iff m r : imuraw_fits m -> xh_len (ir_hdr m) = 44 ->
  let f := encode_imuraw m in
  (xh_sync (ir_hdr m) = 0x7E -> xh_id (ir_hdr m) = 0 -> is_crc16 (take 42 f) (ir_crc m) -> decode_imuraw (f ++ r) = Ok m) /\
  (forall m', decode_imuraw (f ++ r) = Ok m' -> m' = m /\ xh_sync (ir_hdr m) = 0x7E /\ xh_id (ir_hdr m) = 0 /\ is_crc16 (take 42 f) (ir_crc m)) /\
  decode_imuraw (f ++ r) <> Ub.
Proof.
  intros F L f. pose proof (decode_encode_imuraw m r F) as D. pose proof (len_encode_imuraw m F) as LE. fold f in D, LE. pose proof (len_nonneg r) as LNN.
  rewrite checked_spec in D by (rewrite ?len_app; lia). rewrite L in D. rewrite (take_app_l (44 - 2)) in D by lia. rewrite D.
  apply (gate (xh_sync (ir_hdr m)) (xh_id (ir_hdr m)) 0 _ _ m). apply crc_eqb, bytes_take, encode_bytes_imuraw.
Qed.
Theorem C39_wheeldata_accept_iff m r : wheeldata_fits m -> xh_len (wd_hdr m) = 28 ->
  let f := encode_wheeldata m in
  (xh_sync (wd_hdr m) = 0x7E -> xh_id (wd_hdr m) = 0x16 -> is_crc16 (take 26 f) (wd_crc m) -> decode_wheeldata (f ++ r) = Ok m) /\
  (forall m', decode_wheeldata (f ++ r) = Ok m' -> m' = m /\ xh_sync (wd_hdr m) = 0x7E /\ xh_id (wd_hdr m) = 0x16 /\ is_crc16 (take 26 f) (wd_crc m)) /\
  decode_wheeldata (f ++ r) <> Ub.
Proof.
  intros F L f. pose proof (decode_encode_wheeldata m r F) as D. pose proof (len_encode_wheeldata m) as LE. fold f in D, LE. pose proof (len_nonneg r) as LNN.
  rewrite checked_spec in D by (rewrite ?len_app; lia). rewrite L in D. rewrite (take_app_l (28 - 2)) in D by lia. rewrite D.
  apply (gate (xh_sync (wd_hdr m)) (xh_id (wd_hdr m)) 0x16 _ _ m). apply crc_eqb, bytes_take, encode_bytes_wheeldata.
Qed.
(** Every 44-byte (28-byte) string is the encoding of one set of fields, so the two theorems cover every such frame. *)
Theorem C39_every_frame_is_an_encoding f : bytes f ->
  (len f = 44 -> exists m, imuraw_fits m /\ f = encode_imuraw m) /\ (len f = 28 -> exists m, wheeldata_fits m /\ f = encode_wheeldata m).
Proof. intros B. split; intros L; [apply imuraw_of_bytes| apply wheeldata_of_bytes]; assumption. Qed.
Definition ex_imu : list Z :=
  [126; 0; 1; 0; 44; 0; 52; 8; 100; 0; 0; 0; 16; 39; 0; 0; 0; 0; 128; 63; 0; 0; 0; 0; 0; 0; 0; 0; 0; 0; 0; 0; 0; 0; 0; 0; 0; 0; 0; 0; 0; 0; 69; 201].
Example C39_example : decode_imuraw (ex_imu ++ repeat 0 4052) = Ok (mk_imuraw (mk_xhdr 126 0 1 0 44 2100 100 10000) [0x3f800000; 0; 0] [0; 0; 0] 0 0xc945) /\
  imuraw_fits (mk_imuraw (mk_xhdr 126 0 1 0 44 2100 100 10000) [0x3f800000; 0; 0] [0; 0; 0] 0 0xc945).
Proof.
  split; [vm_compute; reflexivity|]. unfold imuraw_fits, hdr_fits, u8, u16, u32. cbn [ir_hdr ir_acc ir_omg ir_status ir_crc xh_sync xh_id xh_counter xh_trigger xh_len xh_week xh_sec xh_usec].
  repeat split; try lia; try reflexivity; repeat constructor; lia.
Qed.
(** Refuted for other length fields: the checksum is looked for at byte 42 of the buffer whatever the length field says, so a 20-byte
    frame whose own last two bytes (0 0) are not its checksum is accepted, with the acceleration and the checksum of the frame before it. *)
Definition ex_short : list Z := [126; 0; 2; 0; 20; 0; 52; 8; 101; 0; 0; 0; 0; 0; 0; 0; 63; 166; 0; 0].
Theorem C39_short_frame_refuted :
  is_frame ex_short /\ ~ is_crc16 (take 18 ex_short) 0 /\
  exists s o1 o2, ixcom_run 10 (x_init [RData (ex_imu ++ ex_short)]) = Some (s, [ex_imu; ex_short], [o1; XAux; o2]) /\
    match o1, o2 with XImuRaw t1 _ _ g1, XImuRaw t2 _ _ g2 => t1 = 100010 /\ t2 = 101000 /\ g1 = g2 | _, _ => False end.
Proof.
  split; [|split].
  - unfold is_frame. vm_compute. repeat split; reflexivity.
  - intros H. destruct (C39_checksum_is_crc (take 18 ex_short)) as [_ U]; [apply bytes_take; repeat constructor; unfold byte; lia|]. apply U in H. vm_compute in H. discriminate.
  - assert (E : exists s o1 o2, ixcom_run 10 (x_init [RData (ex_imu ++ ex_short)]) = Some (s, [ex_imu; ex_short], [o1; XAux; o2]) /\
       o1 = XImuRaw 100010 0 [835; 0; 0] [0; 0; 0] /\ exists a, o2 = XImuRaw 101000 0 a [0; 0; 0]).
    { eexists _, _, _. split; [vm_compute; reflexivity|]. split; [reflexivity| eexists; reflexivity]. }
    destruct E as (s & o1 & o2 & E & -> & a & ->). exists s, (XImuRaw 100010 0 [835; 0; 0] [0; 0; 0]), (XImuRaw 101000 0 a [0; 0; 0]). split; [exact E|]. auto.
Qed.

(** * C40 *)
(** The bytes read, whatever the sizes of the reads and wherever the source stops (returning zero or an error, with the caller calling
    again), are cut into the frames of the stream: every frame is handed over, in order, once; the bytes left are the incomplete frame at
    the end; no assertion fails and nothing is written outside the buffer. *)
Theorem C40_delivery rs fs r fuel : parsed (all_data rs) fs r -> (length (all_data rs) + length rs < fuel)%nat ->
  exists s out, ixcom_run fuel (x_init rs) = Some (s, fs, out) /\ x_reads s = [] /\ take (x_index s) (x_buf s) = r.
Proof.
  intros P HF. destruct (run_spec fuel (x_init rs) _ fs r (mid_init rs fs r P) HF) as (s & E & R). eauto.
Qed.
(** The messages produced do not depend on the sizes of the reads either. *)
Theorem C40_chunking rs1 rs2 fs r fuel1 fuel2 : all_data rs1 = all_data rs2 -> parsed (all_data rs1) fs r ->
  (length (all_data rs1) + length rs1 < fuel1)%nat -> (length (all_data rs2) + length rs2 < fuel2)%nat ->
  exists s1 s2 out, ixcom_run fuel1 (x_init rs1) = Some (s1, fs, out) /\ ixcom_run fuel2 (x_init rs2) = Some (s2, fs, out).
Proof.
  intros E P H1 H2. destruct (run_spec fuel1 (x_init rs1) _ fs r (mid_init rs1 fs r P) H1) as (s1 & E1 & _). rewrite E in P.
  destruct (run_spec fuel2 (x_init rs2) _ fs r (mid_init rs2 fs r P) H2) as (s2 & E2 & _). exists s1, s2. eexists. split; [exact E1| exact E2].
Qed.
(** The hypothesis [parsed] fails only when a length field outside 17..4095 is met: every byte string is parsed, or is frames and
    skipped bytes up to a 0x7E header with such a length field. *)
Inductive bad_header : list Z -> Prop :=
| b_here l : znth 0 0 l = 0x7E -> 16 <= len l -> ~ 16 < length_field l < 4096 -> bad_header l
| b_skip b l : b <> 0x7E -> bad_header l -> bad_header (b :: l)
| b_frame f l : is_frame f -> bad_header l -> bad_header (f ++ l).
Theorem C40_parsed_or_bad_header : forall l, (exists fs r, parsed l fs r) \/ bad_header l.
Proof.
  intros l. remember (length l) as n. assert (Hn : (length l <= n)%nat) by lia. clear Heqn. revert l Hn. induction n as [|n IH]; intros l Hn.
  { destruct l; [|cbn in Hn; lia]. left. exists [], []. constructor. }
  destruct l as [|b l]; [left; exists [], []; constructor|]. cbn [length] in Hn.
  destruct (Z.eq_dec b 0x7E) as [->|NE].
  2:{ destruct (IH l ltac:(lia)) as [(fs & r & P)|B]; [left; exists fs, r; constructor; assumption| right; constructor; assumption]. }
  set (P := 0x7E :: l). assert (Z0 : znth 0 0 P = 0x7E) by reflexivity.
  destruct (Z_le_dec 16 (len P)) as [L|L].
  2:{ left. exists [], P. constructor; [discriminate| exact Z0|]. lia. }
  destruct (Z_lt_dec 16 (length_field P)) as [L1|L1]; [|right; constructor; [exact Z0| lia| lia]].
  destruct (Z_lt_dec (length_field P) 4096) as [L2|L2]; [|right; constructor; [exact Z0| lia| lia]].
  destruct (Z_lt_dec (len P) (length_field P)) as [L3|L3].
  { left. exists [], P. constructor; [discriminate| exact Z0|]. lia. }
  destruct (split_at (length_field P) P ltac:(lia)) as (f & t & E & LF).
  assert (F : is_frame f).
  { assert (X : length_field P = length_field f) by (rewrite E; apply length_field_app; lia). split; [|split; [lia|lia]].
    rewrite E in Z0. rewrite znth_app_l in Z0 by lia. exact Z0. }
  assert (LT : (length t <= n)%nat).
  { assert (length P = (length f + length t)%nat) by (rewrite E; apply app_length). cbn [length P] in H. unfold len in LF. unfold P in H. cbn [length] in H. lia. }
  rewrite E. destruct (IH t LT) as [(fs & r & Q)|B]; [left; exists (f :: fs), r; constructor; assumption| right; constructor; assumption].
Qed.
(** Refuted: with other length fields the reader asserts, writes outside its buffer (a length below 16: the number of bytes asked for is
    a huge size_t), or stops for ever (length 16). *)
Definition hdr_len (n : Z) : list Z := [126; 0; 1; 0; n mod 256; n / 256; 0; 0; 0; 0; 0; 0; 0; 0; 0; 0].
Theorem C40_short_length_overflow_refuted : forall n, 0 <= n < 16 ->
  fst (read_frame_x (x_init [RData (hdr_len n ++ repeat 0 (Z.to_nat 5000))])) = XOverflow.
Proof.
  intros n H. assert (T : forallb (fun k => match fst (read_frame_x (x_init [RData (hdr_len (Z.of_nat k) ++ repeat 0 (Z.to_nat 5000))])) with XOverflow => true | _ => false end) (seq 0 16) = true)
    by (vm_compute; reflexivity).
  rewrite forallb_forall in T. specialize (T (Z.to_nat n)). rewrite in_seq, Z2Nat.id in T by lia. specialize (T ltac:(lia)).
  destruct (fst _); try discriminate. reflexivity.
Qed.
Theorem C40_long_length_assert_refuted : fst (read_frame_x (x_init [RData (hdr_len 4096 ++ repeat 0 (Z.to_nat 5000))])) = XAssert.
Proof. vm_compute. reflexivity. Qed.
(** after a header with length 16 every further call returns 0 without reading anything *)
Theorem C40_length16_stall_refuted : exists s,
  read_frame_x (x_init [RData (hdr_len 16 ++ ex_imu)]) = (XStop 0, s) /\ all_data (x_reads s) = ex_imu /\
  forall fuel, read_ixcom_frame (S fuel) s = (XStop 0, s).
Proof.
  eexists. split; [vm_compute; reflexivity|]. split; [vm_compute; reflexivity|]. intros fuel. cbn [read_ixcom_frame]. vm_compute. reflexivity.
Qed.
Example C40_example : exists rs fs r, parsed (all_data rs) fs r /\ len fs = 2 /\ r <> [] /\ len rs = 4.
Proof.
  exists [RData (1 :: take 20 ex_imu); RStop 0; RData (drop 20 ex_imu ++ ex_short ++ [126]); RStop 0], [ex_imu; ex_short], [126].
  split; [|split; [reflexivity|split; [discriminate|reflexivity]]].
  change (all_data _) with (1 :: ex_imu ++ ex_short ++ [126]). apply p_skip; [lia|]. apply p_frame; [vm_compute; repeat split; reflexivity|].
  apply p_frame; [vm_compute; repeat split; reflexivity|]. apply p_wait; [discriminate|reflexivity|]. intros H. vm_compute in H. congruence.
Qed.

(** * C41 *)
(** the SBP time in units of 1/256 ms is the iXCOM time rounded down *)
Theorem C41_imu_time sec usec : 0 <= sec -> 0 <= usec < 2 ^ 32 -> sec * 1000 + usec / 1000 < 2 ^ 32 ->
  let (t, f) := convert_ixcom_to_sbp_tow sec usec in
  0 <= f < 256 /\ t * 256 + f = (sec * 1000000 + usec) * 256 / 1000.
Proof.
  intros H1 H2 H3. unfold convert_ixcom_to_sbp_tow. rewrite (Z.mod_small (sec * 1000 + usec / 1000)) by lia.
  rewrite (Z.mod_small (usec mod 1000 * 256)) by lia. rewrite (Z.mod_small (usec mod 1000 * 256 / 1000)) by lia. split; [lia|].
  replace ((sec * 1000000 + usec) * 256) with (usec mod 1000 * 256 + ((sec * 1000 + usec / 1000) * 256) * 1000) by lia.
  rewrite Z.div_add by lia. lia.
Qed.
(** a week of seconds and the microseconds of a second are within the bounds *)
Theorem C41_week_in_range sec usec : 0 <= sec <= 604800 -> 0 <= usec < 1000000 -> sec * 1000 + usec / 1000 < 2 ^ 32.
Proof. lia. Qed.
Theorem C41_time_wrap_refuted : fst (convert_ixcom_to_sbp_tow 4294968 0) = 704.
Proof. reflexivity. Qed.

(** What a list of frames must produce: for the IMURAW and WHEELDATA frames with a right checksum (the fields being those of the frame),
    in order: the inertial sample with its time, followed by the IMU configuration after the 1st, 101st, 201st, ... sample; or the
    velocity and the tick counter with its time in microseconds.  Nothing for other frames. *)
Definition imu_time (h : xhdr) : Z * Z := let t := (xh_sec h * 1000000 + xh_usec h) * 256 / 1000 in (t / 256, t mod 256).
Inductive produces : Z -> list (list Z) -> list xout -> Prop :=
| pr_nil n : produces n [] []
| pr_imu n m fs o : imuraw_fits m -> xh_id (ir_hdr m) = 0 -> is_crc16 (take 42 (encode_imuraw m)) (ir_crc m) -> produces (n + 1) fs o ->
    produces n (encode_imuraw m :: fs)
      (XImuRaw (fst (imu_time (ir_hdr m))) (snd (imu_time (ir_hdr m))) (map acc_field (ir_acc m)) (map gyr_field (ir_omg m)) ::
       (if n mod 100 =? 0 then [XImuAux 255 0 65] else []) ++ o)
| pr_wheel n m fs o : wheeldata_fits m -> xh_id (wd_hdr m) = 0x16 -> is_crc16 (take 26 (encode_wheeldata m)) (wd_crc m) -> produces n fs o ->
    produces n (encode_wheeldata m :: fs)
      (XOdometry (xh_sec (wd_hdr m) * 1000 + xh_usec (wd_hdr m) / 1000) (velocity_field (wd_speed m)) 1 ::
       XWheeltick (xh_sec (wd_hdr m) * 1000000 + xh_usec (wd_hdr m)) 1 0 (wd_ticks m) :: o)
| pr_other n f fs o : (znth 0 1 f = 0 -> forall m, f = encode_imuraw m -> imuraw_fits m -> ~ is_crc16 (take 42 f) (ir_crc m)) ->
    (znth 0 1 f = 0x16 -> forall m, f = encode_wheeldata m -> wheeldata_fits m -> ~ is_crc16 (take 26 f) (wd_crc m)) ->
    produces n fs o -> produces n (f :: fs) o.
(** frames of the two known types have the size of their type, and their times fit 32-bit milliseconds *)
Definition proper (f : list Z) : Prop :=
  bytes f /\ is_frame f /\ (znth 0 1 f = 0 -> len f = 44) /\ (znth 0 1 f = 0x16 -> len f = 28) /\
  (forall m, imuraw_fits m -> f = encode_imuraw m -> xh_sec (ir_hdr m) * 1000 + xh_usec (ir_hdr m) / 1000 < 2 ^ 32) /\
  (forall m, wheeldata_fits m -> f = encode_wheeldata m -> xh_sec (wd_hdr m) * 1000 + xh_usec (wd_hdr m) / 1000 < 2 ^ 32).
Definition sent_ok (n sent : Z) : Prop := sent = if n =? 0 then 0 else (n - 1) mod 100 + 1.
Lemma app_eq_r {A} (a b x y : list A) : length x = length y -> a ++ x = b ++ y -> x = y.
Proof.
  intros L E. assert (LA : length a = length b) by (apply (f_equal (@length A)) in E; rewrite !app_length in E; lia).
  apply (f_equal (skipn (length a))) in E. rewrite skipn_app, skipn_all, Nat.sub_diag in E. cbn [app skipn] in E.
  rewrite LA, skipn_app, skipn_all, Nat.sub_diag in E. exact E.
Qed.
Lemma imuraw_inj m m' : imuraw_fits m -> imuraw_fits m' -> encode_imuraw m = encode_imuraw m' -> ir_crc m = ir_crc m'.
Proof.
  intros F F' E. unfold encode_imuraw in E. rewrite !app_assoc in E. apply app_eq_r in E; [|reflexivity].
  apply (f_equal le_val) in E. rewrite !le_val_le in E. destruct F as (_ & _ & _ & _ & _ & _ & C). destruct F' as (_ & _ & _ & _ & _ & _ & C').
  unfold u16 in *. change (256 ^ Z.of_nat 2) with (2 ^ 16) in E. rewrite !Z.mod_small in E by lia. exact E.
Qed.
Lemma wheeldata_inj m m' : wheeldata_fits m -> wheeldata_fits m' -> encode_wheeldata m = encode_wheeldata m' -> wd_crc m = wd_crc m'.
Proof.
  intros F F' E. unfold encode_wheeldata in E. rewrite !app_assoc in E. apply app_eq_r in E; [|reflexivity].
  apply (f_equal le_val) in E. rewrite !le_val_le in E. destruct F as (_ & _ & _ & _ & C). destruct F' as (_ & _ & _ & _ & C').
  unfold u16 in *. change (256 ^ Z.of_nat 2) with (2 ^ 16) in E. rewrite !Z.mod_small in E by lia. exact E.
Qed.
Lemma not_ok_invalid {A} (x : res A) : x <> Ub -> (forall m, x <> Ok m) -> x = Invalid \/ x = TypeMismatch.
Proof. destruct x; intros H1 H2; auto; [destruct (H2 a); reflexivity| congruence]. Qed.
Lemma outs_produces fs : forall n sent bg, Forall proper fs -> len bg = 4096 -> 0 <= n -> sent_ok n sent -> produces n fs (outs sent bg fs).
Proof.
  induction fs as [|f fs IH]; intros n sent bg HP LB Hn SO; [constructor|]. inversion HP as [|? ? (B & F & P1 & P2 & P3 & P4) HP']; subst.
  cbn [outs]. pose proof F as (F1 & F2 & F3). set (r := drop (len f) bg).
  assert (LR : len (f ++ r) = 4096) by (unfold r; rewrite len_app, len_drop; lia).
  assert (ID : znth 0 1 (f ++ r) = znth 0 1 f) by (apply znth_app_l; lia).
  unfold buf_out, handle_frame, handle_imuraw, handle_wheeldata, set_index. cbn [x_buf x_sent x_index x_reads]. rewrite ID.
  destruct (Z.eqb_spec (znth 0 1 f) 0) as [I0|I0]; [|destruct (Z.eqb_spec (znth 0 1 f) 22) as [I1|I1]].
  - specialize (P1 I0). destruct (imuraw_of_bytes f B P1) as (m & Fm & ->).
    destruct (header_sync m [] Fm) as (S1 & S2 & S3). rewrite app_nil_r in S1, S2, S3.
    destruct (C39_imuraw_accept_iff m r Fm ltac:(lia)) as (A1 & A2 & A3). cbv zeta in A1, A2, A3.
    assert (DEC : decode_imuraw (encode_imuraw m ++ r) = Ok m \/ decode_imuraw (encode_imuraw m ++ r) = Invalid \/ decode_imuraw (encode_imuraw m ++ r) = TypeMismatch).
    { destruct (decode_imuraw (encode_imuraw m ++ r)) as [m'| | |] eqn:E; auto; [|congruence]. destruct (A2 m' eq_refl) as (-> & _). auto. }
    destruct DEC as [E|E].
    + rewrite E. destruct (A2 m E) as (_ & _ & _ & CR). specialize (P3 m Fm eq_refl).
      destruct Fm as (Fh & Fr). pose proof Fh as (_ & _ & _ & _ & _ & _ & U1 & U2). unfold u32 in U1, U2.
      pose proof (C41_imu_time (xh_sec (ir_hdr m)) (xh_usec (ir_hdr m)) ltac:(lia) ltac:(lia) P3) as T.
      destruct (convert_ixcom_to_sbp_tow (xh_sec (ir_hdr m)) (xh_usec (ir_hdr m))) as [t fr]. destruct T as [T1 T2].
      assert (E1 : t = fst (imu_time (ir_hdr m))) by (unfold imu_time; cbn [fst]; rewrite <- T2; lia).
      assert (E2 : fr = snd (imu_time (ir_hdr m))) by (unfold imu_time; cbn [snd]; rewrite <- T2; lia).
      unfold sent_ok in SO. destruct (Z.eqb_spec (sent mod 100) 0) as [A|A].
      * assert (NM : n mod 100 = 0) by (destruct (Z.eqb_spec n 0); subst sent; lia).
        cbn [app x_sent]. rewrite E1, E2. pose proof (pr_imu n m fs (outs 1 (encode_imuraw m ++ r) fs) (conj Fh Fr) ltac:(lia) CR) as PR.
        rewrite NM in PR. change (0 =? 0) with true in PR. apply PR. apply IH; [exact HP'| exact LR| lia|]. unfold sent_ok. destruct (Z.eqb_spec (n + 1) 0); lia.
      * assert (NM : n mod 100 <> 0) by (destruct (Z.eqb_spec n 0); subst sent; lia).
        cbn [app x_sent]. rewrite E1, E2. pose proof (pr_imu n m fs (outs (sent + 1) (encode_imuraw m ++ r) fs) (conj Fh Fr) ltac:(lia) CR) as PR.
        destruct (Z.eqb_spec (n mod 100) 0); [lia|]. apply PR. apply IH; [exact HP'| exact LR| lia|]. unfold sent_ok. destruct (Z.eqb_spec (n + 1) 0); [lia|].
        destruct (Z.eqb_spec n 0); subst sent; lia.
    + assert (NC : ~ is_crc16 (take 42 (encode_imuraw m)) (ir_crc m)).
      { intros CR. rewrite A1 in E by (lia || assumption). destruct E; discriminate. }
      assert (G : match decode_imuraw (encode_imuraw m ++ r) with Ub => True | Ok _ => True | _ => False end -> False) by (destruct E as [-> | ->]; auto).
      destruct (decode_imuraw (encode_imuraw m ++ r)) as [m'| | |]; [destruct (G I)| | |destruct (G I)]; cbn [app x_sent];
        (apply pr_other; [intros _ m' E' Fm'; rewrite <- (imuraw_inj m m' Fm Fm' E'); exact NC| intros C; lia| apply IH; auto]).
  - specialize (P2 I1). destruct (wheeldata_of_bytes f B P2) as (m & Fm & ->).
    destruct (header_sync_w m [] Fm) as (S1 & S2 & S3). rewrite app_nil_r in S1, S2, S3.
    destruct (C39_wheeldata_accept_iff m r Fm ltac:(lia)) as (A1 & A2 & A3). cbv zeta in A1, A2, A3.
    assert (DEC : decode_wheeldata (encode_wheeldata m ++ r) = Ok m \/ decode_wheeldata (encode_wheeldata m ++ r) = Invalid \/ decode_wheeldata (encode_wheeldata m ++ r) = TypeMismatch).
    { destruct (decode_wheeldata (encode_wheeldata m ++ r)) as [m'| | |] eqn:E; auto; [|congruence]. destruct (A2 m' eq_refl) as (-> & _). auto. }
    destruct DEC as [E|E].
    + rewrite E. destruct (A2 m E) as (_ & _ & _ & CR). specialize (P4 m Fm eq_refl).
      destruct Fm as (Fh & Fr). pose proof Fh as (_ & _ & _ & _ & _ & _ & U1 & U2). unfold u32 in U1, U2.
      rewrite !Z.mod_small by lia. cbn [app x_sent]. apply (pr_wheel n m fs _ (conj Fh Fr) ltac:(lia) CR). apply IH; auto.
    + assert (NC : ~ is_crc16 (take 26 (encode_wheeldata m)) (wd_crc m)).
      { intros CR. rewrite A1 in E by (lia || assumption). destruct E; discriminate. }
      assert (G : match decode_wheeldata (encode_wheeldata m ++ r) with Ub => True | Ok _ => True | _ => False end -> False) by (destruct E as [-> | ->]; auto).
      destruct (decode_wheeldata (encode_wheeldata m ++ r)) as [m'| | |]; [destruct (G I)| | |destruct (G I)]; cbn [app x_sent];
        (apply pr_other; [intros C; lia| intros _ m' E' Fm'; rewrite <- (wheeldata_inj m m' Fm Fm' E'); exact NC| apply IH; auto]).
  - cbn [app x_sent]. apply pr_other; [intros C; lia| intros C; lia|]. apply IH; auto.
Qed.
(** For every stream whose IMURAW and WHEELDATA frames have their size: exactly these messages, for every way of reading it. *)
Theorem C41_output rs fs r fuel : parsed (all_data rs) fs r -> Forall proper fs -> (length (all_data rs) + length rs < fuel)%nat ->
  exists s out, ixcom_run fuel (x_init rs) = Some (s, fs, out) /\ produces 0 fs out.
Proof.
  intros P HP HF. destruct (run_spec fuel (x_init rs) _ fs r (mid_init rs fs r P) HF) as (s & E & R). exists s. eexists. split; [exact E|].
  apply outs_produces; [exact HP| vm_compute; reflexivity| lia| reflexivity].
Qed.
(** the acceleration (range 4 g) and the rotation (range 125 degrees per second; 57.2957795 = 180/pi) in units of 1/32768 of the range,
    limited to 16 bits, with the rounding to the nearest integer and 1/128 unit for the single precision arithmetic *)
Theorem C41_acceleration b : ffin (fofbits b) = true -> (Rabs (fR (fofbits b)) <= 1000000)%R -> -32768 <= acc_field b <= 32767 /\
  (Rabs (IZR (acc_field b) - clamp16 (fR (fofbits b) * 32768 / (4 * 9.80665))) <= / 2 + / 128)%R.
Proof. apply acc_field_spec. Qed.
Theorem C41_rotation b : ffin (fofbits b) = true -> (Rabs (fR (fofbits b)) <= 1000000)%R -> -32768 <= gyr_field b <= 32767 /\
  (Rabs (IZR (gyr_field b) - clamp16 (fR (fofbits b) * 57.2957795 * 32768 / 125)) <= / 2 + / 128)%R.
Proof. apply gyr_field_spec. Qed.
(** the velocity in mm/s, truncated *)
Theorem C41_velocity b : ffin (fofbits b) = true -> (Rabs (fR (fofbits b)) <= 1000)%R ->
  exists v, velocity_field b = Some v /\ (Rabs (IZR v - fR (fofbits b) * 1000) <= 1 + / 32)%R.
Proof. apply velocity_spec. Qed.
(** refuted for speeds that do not fit (or are not numbers): the conversion to a 32-bit integer is undefined behaviour *)
Theorem C41_velocity_ub_refuted : velocity_field 0x4a800000 = None /\ velocity_field 0x7fc00000 = None.
Proof. split; vm_compute; reflexivity. Qed.
Example C41_example : exists m, proper ex_imu /\ ex_imu = encode_imuraw m /\ produces 0 [ex_imu] [XImuRaw 100010 0 [835; 0; 0] [0; 0; 0]; XAux].
Proof.
  set (m := mk_imuraw (mk_xhdr 126 0 1 0 44 2100 100 10000) [0x3f800000; 0; 0] [0; 0; 0] 0 0xc945). exists m.
  destruct C39_example as [_ Fm]. fold m in Fm. assert (E : ex_imu = encode_imuraw m) by (vm_compute; reflexivity).
  split; [|split; [exact E|]].
  - split; [repeat constructor; lia|]. split; [vm_compute; repeat split; reflexivity|]. split; [reflexivity|]. split; [vm_compute; discriminate|]. split.
    + intros m' F' E'. assert (D : decode_xhdr (encode_imuraw m' ++ []) = ir_hdr m') by (unfold encode_imuraw; rewrite <- app_assoc; apply decode_encode_xhdr, F').
      rewrite <- D, <- E'. vm_compute. reflexivity.
    + intros m' F' E'. assert (D : decode_xhdr (encode_wheeldata m' ++ []) = wd_hdr m') by (unfold encode_wheeldata; rewrite <- app_assoc; apply decode_encode_xhdr, F').
      rewrite <- D, <- E'. vm_compute. reflexivity.
  - rewrite E. apply (pr_imu 0 m [] []); [exact Fm| reflexivity| |constructor].
    apply crc_eqb; [apply bytes_take, encode_bytes_imuraw|]. vm_compute. reflexivity.
Qed.
Print Assumptions C39_checksum_is_crc.
Print Assumptions C39_imuraw_accept_iff.
Print Assumptions C39_wheeldata_accept_iff.
Print Assumptions C39_every_frame_is_an_encoding.
Print Assumptions C39_short_frame_refuted.
Print Assumptions C40_delivery.
Print Assumptions C40_chunking.
Print Assumptions C40_parsed_or_bad_header.
Print Assumptions C40_short_length_overflow_refuted.
Print Assumptions C40_long_length_assert_refuted.
Print Assumptions C40_length16_stall_refuted.
Print Assumptions C41_imu_time.
Print Assumptions C41_week_in_range.
Print Assumptions C41_time_wrap_refuted.
Print Assumptions C41_output.
Print Assumptions C41_acceleration.
Print Assumptions C41_rotation.
Print Assumptions C41_velocity.
Print Assumptions C41_velocity_ub_refuted.
