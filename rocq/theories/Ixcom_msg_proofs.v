From Verif Require Import Base Bitstring Bytestream_model Bytestream_proofs UbxFraming_model Ixcom_model Ixcom_spec Ixcom_proofs Ixcom_reader_proofs.

(** ** the messages *)
Lemma lev_skip n x r : forall k, len x <= k -> lev n (x ++ r) k = lev n r (k - len x).
Proof.
  induction n as [|n IH]; intros k H; [reflexivity|]. cbn [lev]. rewrite znth_app_r by lia. rewrite IH by lia. replace (k + 1 - len x) with (k - len x + 1) by lia. reflexivity.
Qed.
Lemma lev_here n : forall v r, 0 <= v < 256 ^ Z.of_nat n -> lev n (le n v ++ r) 0 = v.
Proof.
  induction n as [|n IH]; intros v r H; [cbn in *; lia|]. cbn [lev le app]. rewrite znth_0. change (0 + 1) with 1.
  rewrite pow256_S in H. change (v mod 256 :: le n (v / 256) ++ r) with ([v mod 256] ++ (le n (v / 256) ++ r)). rewrite lev_skip by reflexivity.
  change (1 - len [v mod 256]) with 0. rewrite IH by lia. lia.
Qed.
Lemma lev_at n a v r : 0 <= v < 256 ^ Z.of_nat n -> lev n (a ++ le n v ++ r) (len a) = v.
Proof. intros H. rewrite lev_skip by lia. rewrite Z.sub_diag. apply lev_here, H. Qed.

Definition u8 (v : Z) := 0 <= v < 2 ^ 8.
Definition u16 (v : Z) := 0 <= v < 2 ^ 16.
Definition u32 (v : Z) := 0 <= v < 2 ^ 32.
Definition hdr_fits (h : xhdr) : Prop :=
  u8 (xh_sync h) /\ u8 (xh_id h) /\ u8 (xh_counter h) /\ u8 (xh_trigger h) /\ u16 (xh_len h) /\ u16 (xh_week h) /\ u32 (xh_sec h) /\ u32 (xh_usec h).
Definition imuraw_fits (m : imuraw) : Prop :=
  hdr_fits (ir_hdr m) /\ Forall u32 (ir_acc m) /\ len (ir_acc m) = 3 /\ Forall u32 (ir_omg m) /\ len (ir_omg m) = 3 /\ u16 (ir_status m) /\ u16 (ir_crc m).
Definition wheeldata_fits (m : wheeldata) : Prop :=
  hdr_fits (wd_hdr m) /\ u32 (wd_speed m) /\ - 2 ^ 31 <= wd_ticks m < 2 ^ 31 /\ u16 (wd_status m) /\ u16 (wd_crc m).

Ltac lev_tac := repeat (rewrite lev_skip by (rewrite ?len_le; lia)); rewrite ?len_le; apply lev_here; cbn [Z.of_nat Z.pow Z.pow_pos Pos.iter]; assumption.
Lemma lev_at' n v pre post buf k : buf = pre ++ le n v ++ post -> k = len pre -> 0 <= v < 256 ^ Z.of_nat n -> lev n buf k = v.
Proof. intros -> -> H. apply lev_at, H. Qed.

Lemma len_xhdr h : len (encode_xhdr h) = 16. Proof. unfold encode_xhdr. rewrite !len_app, !len_le. reflexivity. Qed.
Lemma decode_encode_xhdr h r : hdr_fits h -> decode_xhdr (encode_xhdr h ++ r) = h.
Proof.
  intros (H1 & H2 & H3 & H4 & H5 & H6 & H7 & H8). unfold decode_xhdr, encode_xhdr. rewrite <- !app_assoc. destruct h as [a b c d e f g i]. cbn [xh_sync xh_id xh_counter xh_trigger xh_len xh_week xh_sec xh_usec] in *.
  unfold u8, u16, u32 in *.
  f_equal.
  all: repeat (rewrite lev_skip by (rewrite !len_le; lia)); rewrite ?len_le; apply lev_here; cbn [Z.of_nat]; lia.
Qed.
Lemma three {A} (l : list A) : len l = 3 -> exists a b c, l = [a; b; c].
Proof.
  destruct l as [|a [|b [|c [|d l]]]]; intros H; try discriminate H; [eauto|]. exfalso. rewrite !len_cons in H. pose proof (len_nonneg l). lia.
Qed.
Lemma len_encode_imuraw m : imuraw_fits m -> len (encode_imuraw m) = 44.
Proof.
  intros (_ & _ & A & _ & O & _). unfold encode_imuraw. destruct (three _ A) as (? & ? & ? & ->). destruct (three _ O) as (? & ? & ? & ->).
  cbn [flat_map]. rewrite !len_app, len_xhdr, !len_le. reflexivity.
Qed.
Lemma len_encode_wheeldata m : len (encode_wheeldata m) = 28.
Proof. unfold encode_wheeldata. rewrite !len_app, len_xhdr, !len_le. reflexivity. Qed.

Lemma signed32_le v r : - 2 ^ 31 <= v < 2 ^ 31 -> signed32 (lev 4 (le 4 v ++ r) 0) = v.
Proof.
  intros H. rewrite <- (le_mod 4). rewrite lev_here by (apply Z.mod_pos_bound; cbn; lia). unfold signed32. change (256 ^ Z.of_nat 4) with (2 ^ 32).
  destruct (Z.ltb_spec (v mod 2 ^ 32) (2 ^ 31)); lia.
Qed.
Lemma checked_spec {A} buf ml crc (m : A) : 2 <= ml < 2 ^ 16 -> ml <= len buf ->
  checked buf ml crc m = if ixcom_checksum (take (ml - 2) buf) =? crc then Ok m else Invalid.
Proof. intros H L. unfold checked. rewrite Z.mod_small by lia. destruct (Z.ltb_spec (len buf) (ml - 2)); [lia|]. reflexivity. Qed.

Lemma decode_encode_imuraw m r : imuraw_fits m ->
  decode_imuraw (encode_imuraw m ++ r) =
  (if negb (xh_sync (ir_hdr m) =? XCOM_SYNC) then Invalid else if negb (xh_id (ir_hdr m) =? 0) then Invalid
   else checked (encode_imuraw m ++ r) (xh_len (ir_hdr m)) (ir_crc m) m).
Proof.
  intros (H & A1 & A2 & O1 & O2 & S & C). unfold decode_imuraw. destruct m as [h a o st c]. cbn [ir_hdr ir_acc ir_omg ir_status ir_crc] in *.
  destruct (three _ A2) as (a1 & a2 & a3 & ->). destruct (three _ O2) as (o1 & o2 & o3 & ->).
  inversion A1 as [|? ? A11 A1']; subst. inversion A1' as [|? ? A12 A1'']; subst. inversion A1'' as [|? ? A13 _]; subst.
  inversion O1 as [|? ? O11 O1']; subst. inversion O1' as [|? ? O12 O1'']; subst. inversion O1'' as [|? ? O13 _]; subst.
  set (buf := encode_imuraw _ ++ r). assert (HH : decode_xhdr buf = h).
  { unfold buf, encode_imuraw. cbn [ir_hdr]. rewrite <- app_assoc. apply decode_encode_xhdr, H. }
  rewrite HH. assert (E : buf = encode_xhdr h ++ le 4 a1 ++ le 4 a2 ++ le 4 a3 ++ le 4 o1 ++ le 4 o2 ++ le 4 o3 ++ le 2 st ++ le 2 c ++ r).
  { unfold buf, encode_imuraw. cbn [ir_hdr ir_acc ir_omg ir_status ir_crc flat_map]. rewrite <- !app_assoc. reflexivity. }
  unfold u16, u32 in *. pose proof (len_xhdr h) as LH.
  assert (F : lev 4 buf 16 = a1 /\ lev 4 buf 20 = a2 /\ lev 4 buf 24 = a3 /\ lev 4 buf 28 = o1 /\ lev 4 buf 32 = o2 /\ lev 4 buf 36 = o3 /\ lev 2 buf 40 = st /\ lev 2 buf 42 = c).
  { rewrite E. repeat split; rewrite (lev_skip _ (encode_xhdr h)) by lia; rewrite LH;
    repeat (rewrite lev_skip by (rewrite !len_le; lia)); rewrite ?len_le; apply lev_here; cbn [Z.of_nat]; lia. }
  destruct F as (-> & -> & -> & -> & -> & -> & -> & ->). reflexivity.
Qed.
Lemma decode_encode_wheeldata m r : wheeldata_fits m ->
  decode_wheeldata (encode_wheeldata m ++ r) =
  (if negb (xh_sync (wd_hdr m) =? XCOM_SYNC) then Invalid else if negb (xh_id (wd_hdr m) =? 0x16) then Invalid
   else checked (encode_wheeldata m ++ r) (xh_len (wd_hdr m)) (wd_crc m) m).
Proof.
  intros (H & A1 & A2 & S & C). unfold decode_wheeldata. destruct m as [h a t st c]. cbn [wd_hdr wd_speed wd_ticks wd_status wd_crc] in *.
  set (buf := encode_wheeldata _ ++ r). assert (HH : decode_xhdr buf = h).
  { unfold buf, encode_wheeldata. cbn [wd_hdr]. rewrite <- app_assoc. apply decode_encode_xhdr, H. }
  rewrite HH. assert (E : buf = encode_xhdr h ++ le 4 a ++ le 4 t ++ le 2 st ++ le 2 c ++ r).
  { unfold buf, encode_wheeldata. cbn [wd_hdr wd_speed wd_ticks wd_status wd_crc]. rewrite <- !app_assoc. reflexivity. }
  unfold u16, u32 in *. pose proof (len_xhdr h) as LH.
  assert (F : lev 4 buf 16 = a /\ signed32 (lev 4 buf 20) = t /\ lev 2 buf 24 = st /\ lev 2 buf 26 = c).
  { rewrite E. repeat split; rewrite (lev_skip _ (encode_xhdr h)) by lia; rewrite LH;
    repeat (rewrite lev_skip by (rewrite !len_le; lia)); rewrite ?len_le; try apply signed32_le; try apply lev_here; cbn [Z.of_nat]; lia. }
  destruct F as (-> & -> & -> & ->). reflexivity.
Qed.

(** every 44-byte (28-byte) string is the encoding of one message *)
Lemma split_at {A} n (l : list A) : 0 <= n <= len l -> exists a b, l = a ++ b /\ len a = n.
Proof. intros H. exists (take n l), (drop n l). split; [symmetry; apply take_drop|]. rewrite len_take. lia. Qed.
Lemma as_le n (l : list Z) : bytes l -> len l = Z.of_nat n -> exists v, l = le n v /\ 0 <= v < 256 ^ Z.of_nat n.
Proof.
  intros B L. exists (le_val l). pose proof (le_val_range l B) as R. rewrite L in R. split; [|exact R]. symmetry. apply le_le_val; [exact B|]. unfold len in L. lia.
Qed.
Lemma cut_le_lemma n m l : bytes l -> len l = Z.of_nat n + m -> 0 <= m ->
  exists v b, l = le n v ++ b /\ 0 <= v < 256 ^ Z.of_nat n /\ bytes b /\ len b = m.
Proof.
  intros B L M. destruct (split_at (Z.of_nat n) l ltac:(lia)) as (a & b & -> & LA). apply Forall_app in B. destruct B as [BA BB].
  rewrite len_app, LA in L. destruct (as_le n a BA LA) as (v & -> & R). exists v, b. repeat split; try assumption; lia.
Qed.
Ltac cut_le n v :=
  match goal with
  | B : bytes ?l, L : len ?l = ?x |- _ =>
      let y := eval cbn in (x - Z.of_nat n) in
      let b := fresh "b" in let E := fresh "E" in let R := fresh "R" in let B' := fresh "B'" in let L' := fresh "L'" in
      destruct (cut_le_lemma n y l B ltac:(rewrite L; reflexivity) ltac:(lia)) as (v & b & E & R & B' & L'); subst l; clear B L
  end.
Lemma imuraw_of_bytes f : bytes f -> len f = 44 -> exists m, imuraw_fits m /\ f = encode_imuraw m.
Proof.
  intros B L. cut_le 1%nat x1. cut_le 1%nat x2. cut_le 1%nat x3. cut_le 1%nat x4. cut_le 2%nat x5. cut_le 2%nat x6. cut_le 4%nat x7. cut_le 4%nat x8.
  cut_le 4%nat y1. cut_le 4%nat y2. cut_le 4%nat y3. cut_le 4%nat z1. cut_le 4%nat z2. cut_le 4%nat z3. cut_le 2%nat w1. cut_le 2%nat w2.
  match goal with |- context [le 2 w2 ++ ?b] => assert (b = []) as -> by (apply len_zero_nil; lia) end.
  exists (mk_imuraw (mk_xhdr x1 x2 x3 x4 x5 x6 x7 x8) [y1; y2; y3] [z1; z2; z3] w1 w2). split.
  - unfold imuraw_fits, hdr_fits, u8, u16, u32. cbn [ir_hdr ir_acc ir_omg ir_status ir_crc xh_sync xh_id xh_counter xh_trigger xh_len xh_week xh_sec xh_usec].
    repeat split; try assumption; try lia; repeat constructor; lia.
  - unfold encode_imuraw, encode_xhdr. cbn [ir_hdr ir_acc ir_omg ir_status ir_crc xh_sync xh_id xh_counter xh_trigger xh_len xh_week xh_sec xh_usec flat_map].
    rewrite <- !app_assoc, ?app_nil_r. reflexivity.
Qed.
Lemma wheeldata_of_bytes f : bytes f -> len f = 28 -> exists m, wheeldata_fits m /\ f = encode_wheeldata m.
Proof.
  intros B L. cut_le 1%nat x1. cut_le 1%nat x2. cut_le 1%nat x3. cut_le 1%nat x4. cut_le 2%nat x5. cut_le 2%nat x6. cut_le 4%nat x7. cut_le 4%nat x8.
  cut_le 4%nat y1. cut_le 4%nat y2. cut_le 2%nat w1. cut_le 2%nat w2.
  match goal with |- context [le 2 w2 ++ ?b] => assert (b = []) as -> by (apply len_zero_nil; lia) end.
  exists (mk_wheeldata (mk_xhdr x1 x2 x3 x4 x5 x6 x7 x8) y1 (signed32 y2) w1 w2). split.
  - unfold wheeldata_fits, hdr_fits, u8, u16, u32, signed32. cbn [wd_hdr wd_speed wd_ticks wd_status wd_crc xh_sync xh_id xh_counter xh_trigger xh_len xh_week xh_sec xh_usec].
    repeat split; try assumption; try lia; destruct (Z.ltb_spec y2 (2 ^ 31)); lia.
  - unfold encode_wheeldata, encode_xhdr. cbn [wd_hdr wd_speed wd_ticks wd_status wd_crc xh_sync xh_id xh_counter xh_trigger xh_len xh_week xh_sec xh_usec].
    assert (S : le 4 (signed32 y2) = le 4 y2).
    { rewrite <- (le_mod 4 (signed32 y2)), <- (le_mod 4 y2). f_equal. unfold signed32. change (256 ^ Z.of_nat 4) with (2 ^ 32). destruct (Z.ltb_spec y2 (2 ^ 31)); lia. }
    rewrite S. rewrite <- !app_assoc, ?app_nil_r. reflexivity.
Qed.
Lemma encode_bytes_imuraw m : bytes (encode_imuraw m).
Proof. unfold encode_imuraw, encode_xhdr. unfold bytes. rewrite !Forall_app. repeat split; try apply le_bytes; apply Forall_flat_map; apply Forall_forall; intros; apply le_bytes. Qed.
Lemma encode_bytes_wheeldata m : bytes (encode_wheeldata m).
Proof. unfold encode_wheeldata, encode_xhdr. unfold bytes. rewrite !Forall_app. repeat split; apply le_bytes. Qed.

(** ** runs *)
(** what the handler makes of a buffer holding a frame; independent of the position in the stream *)
Definition buf_out (sent : Z) (buf : list Z) : option (Z * list xout) :=
  match handle_frame (mk_xs buf 0 sent []) with Some (s, o) => Some (x_sent s, o) | None => None end.
Lemma handle_frame_out s : handle_frame s = match buf_out (x_sent s) (x_buf s) with Some (n, o) => Some (mk_xs (x_buf s) 0 n (x_reads s), o) | None => None end.
Proof.
  unfold buf_out, handle_frame, handle_imuraw, handle_wheeldata, set_index. cbn [x_buf x_sent x_index x_reads]. destruct s as [b i n rs]. cbn [x_buf x_sent x_index x_reads].
  destruct (znth 0 1 b =? 0); [|destruct (znth 0 1 b =? 22)].
  - destruct (decode_imuraw b) as [m| | |]; try reflexivity. destruct (convert_ixcom_to_sbp_tow _ _). destruct (n mod 100 =? 0); reflexivity.
  - destruct (decode_wheeldata b); reflexivity.
  - reflexivity.
Qed.
Fixpoint outs (sent : Z) (bg : list Z) (fs : list (list Z)) : list xout :=
  match fs with
  | [] => []
  | f :: fs => match buf_out sent (f ++ drop (len f) bg) with Some (n, o) => o ++ outs n (f ++ drop (len f) bg) fs | None => [] end
  end.
Lemma lev2 buf k : lev 2 buf k = znth 0 k buf + 256 * znth 0 (k + 1) buf.
Proof. cbn [lev]. lia. Qed.
Lemma checked_no_ub {A} buf ml crc (m : A) : len buf = 4096 -> 16 < ml < 4096 -> checked buf ml crc m <> Ub.
Proof. intros L H. rewrite checked_spec by lia. destruct (_ =? _); discriminate. Qed.
Lemma buf_out_some sent f bg : is_frame f -> len bg = 4096 -> exists n o, buf_out sent (f ++ drop (len f) bg) = Some (n, o).
Proof.
  intros (F1 & F2 & F3) LB. unfold buf_out, handle_frame, handle_imuraw, handle_wheeldata. cbn [x_buf x_sent x_index x_reads].
  set (b := f ++ drop (len f) bg).
  assert (L : len b = 4096) by (unfold b; rewrite len_app, len_drop; lia).
  assert (ML : xh_len (decode_xhdr b) = len f).
  { unfold decode_xhdr. cbn [xh_len]. rewrite lev2. change (4 + 1) with 5. fold (length_field b). unfold b. rewrite length_field_app by lia. lia. }
  destruct (znth 0 1 b =? 0); [|destruct (znth 0 1 b =? 22)].
  - assert (N : decode_imuraw b <> Ub).
    { unfold decode_imuraw. rewrite ML. destruct (negb _); [discriminate|]. destruct (negb _); [discriminate|]. apply checked_no_ub; lia. }
    destruct (decode_imuraw b) as [m| | |]; [|eauto|eauto|congruence]. destruct (convert_ixcom_to_sbp_tow _ _). destruct (sent mod 100 =? 0); eauto.
  - assert (N : decode_wheeldata b <> Ub).
    { unfold decode_wheeldata. rewrite ML. destruct (negb _); [discriminate|]. destruct (negb _); [discriminate|]. apply checked_no_ub; lia. }
    destruct (decode_wheeldata b); [eauto|eauto|eauto|congruence].
  - eauto.
Qed.
Lemma parsed_nil fs r : parsed [] fs r -> fs = [] /\ r = [].
Proof.
  intros H. inversion H; subst; [auto| |congruence]. exfalso. destruct H1 as (_ & _ & F). destruct f; [change (len (@nil Z)) with 0 in F; lia| discriminate].
Qed.
Lemma run_spec fuel : forall s bg fs r, mid bg fs r s -> (length (all_data (x_reads s)) + length (x_reads s) < fuel)%nat ->
  exists s', ixcom_run fuel s = Some (s', fs, outs (x_sent s) bg fs) /\ x_reads s' = [] /\ take (x_index s') (x_buf s') = r.
Proof.
  induction fuel as [|fuel IH]; intros s bg fs r M HF; [lia|]. cbn [ixcom_run]. unfold ixcom_process, read_frame_x, x_pending.
  pose proof (frame_step (S (length (all_data (x_reads s)))) s bg fs r M ltac:(lia)) as F.
  destruct (read_ixcom_frame (S (length (all_data (x_reads s)))) s) as [[n|k| | |] s1]; try contradiction.
  - destruct F as (f & fs' & -> & -> & Fr & EB & EI & ES & Pa & D1 & D2). pose proof Fr as (F1 & F2 & F3). destruct (Z.leb_spec (len f) 0); [lia|].
    rewrite handle_frame_out. rewrite EB, ES. pose proof M as (_ & _ & LB & _). destruct (buf_out_some (x_sent s) f bg Fr LB) as (n & o & BO). rewrite BO.
    assert (M2 : mid (f ++ drop (len f) bg) fs' r (mk_xs (f ++ drop (len f) bg) 0 n (x_reads s1))).
    { assert (LL : len (f ++ drop (len f) bg) = 4096) by (rewrite len_app, len_drop; lia).
      unfold mid, inpos, view. cbn [x_buf x_index x_reads]. change (take 0 (f ++ drop (len f) bg)) with (@nil Z). repeat split; try assumption; lia. }
    destruct (IH _ _ _ _ M2 ltac:(cbn [x_reads]; lia)) as (s' & E & R1 & R2). cbn [x_sent] in E. rewrite E. exists s'. split; [|auto].
    cbn [x_buf outs]. rewrite BO. rewrite (take_app_len f) by reflexivity. reflexivity.
  - destruct F as (M1 & ES & D1 & D2 & D3). destruct (x_reads s1) as [|q qs] eqn:ER.
    + pose proof M1 as (I & Pa & _ & _ & SY & LF). unfold view in Pa. rewrite ER in Pa. cbn in Pa. rewrite app_nil_r in Pa. pose proof I as (I1 & I2).
      assert (fs = [] /\ take (x_index s1) (x_buf s1) = r) as [-> R].
      { destruct (Z.eq_dec (x_index s1) 0) as [Z0|NZ].
        - rewrite Z0 in Pa |- *. change (take 0 (x_buf s1)) with (@nil Z) in *. destruct (parsed_nil _ _ Pa); subst; auto.
        - assert (LT : len (take (x_index s1) (x_buf s1)) = x_index s1) by (rewrite len_take; lia).
          assert (NE : take (x_index s1) (x_buf s1) <> []) by (intros E; rewrite E in LT; change (len (@nil Z)) with 0 in LT; lia).
          assert (H0 : znth 0 0 (take (x_index s1) (x_buf s1)) = 0x7E) by (rewrite znth_take by lia; apply SY; lia).
          destruct (parsed_sync _ _ _ Pa NE H0) as [G [(f & l & fs' & -> & E & (F1 & F2 & F3) & _)|(-> & -> & _)]]; [|auto]. exfalso.
          assert (len f <= x_index s1) by (rewrite <- LT, E, len_app; pose proof (len_nonneg l); lia).
          specialize (LF ltac:(lia)). assert (X : length_field (take (x_index s1) (x_buf s1)) = len f) by (rewrite E, length_field_app by lia; lia).
          assert (Y : length_field (take (x_index s1) (x_buf s1)) = length_field (x_buf s1)) by (unfold length_field; rewrite !znth_take by lia; reflexivity). lia. }
      exists s1. repeat split; auto. 
    + destruct D3 as [D3|D3]; [discriminate|]. rewrite <- ER in D1, D2, D3.
      destruct (IH s1 bg fs r M1 ltac:(lia)) as (s' & E & R1 & R2). rewrite E, ES. exists s'. auto.
Qed.
Lemma mid_init rs fs r : parsed (all_data rs) fs r -> mid (x_buf (x_init rs)) fs r (x_init rs).
Proof.
  intros P. unfold mid, inpos, view, x_init. cbn [x_buf x_index x_reads]. change (take 0 _) with (@nil Z). cbn [app].
  assert (L : len (repeat 0 (Z.to_nat IXCOM_BUFFER_SIZE)) = 4096) by (unfold len; rewrite repeat_length; reflexivity).
  repeat split; try assumption; lia.
Qed.
