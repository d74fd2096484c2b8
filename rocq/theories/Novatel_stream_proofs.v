From Verif Require Import Base Bitstring Bits_model Bytestream_model Bytestream_proofs Ixcom_spec Novatel_model Novatel_spec Novatel_crc_proofs Novatel_proofs.

Lemma sub_mid {A} (a b c : list A) i n : len a = i -> len b = n -> sub (a ++ b ++ c) i n = b.
Proof. intros <- <-. unfold sub. rewrite drop_app_exact. apply take_app_exact. Qed.
Lemma le2 a b : byte a -> byte b -> le 2 (le_val [a; b]) = [a; b].
Proof. intros. apply le_le_val; [unfold bytes; repeat (apply Forall_cons; [assumption|]); apply Forall_nil| reflexivity]. Qed.
Lemma le4 a b c d : byte a -> byte b -> byte c -> byte d -> le 4 (le_val [a; b; c; d]) = [a; b; c; d].
Proof. intros. apply le_le_val; [unfold bytes; repeat (apply Forall_cons; [assumption|]); apply Forall_nil| reflexivity]. Qed.
Lemma val2 a b : byte a -> byte b -> ufits 2 (le_val [a; b]).
Proof. intros. apply (le_val_range [a; b]). unfold bytes; repeat (apply Forall_cons; [assumption|]); apply Forall_nil. Qed.
Lemma le_val_u n v : ufits n v -> le_val (le n v) = v.
Proof. intros H. rewrite le_val_le. apply Z.mod_small. exact H. Qed.
Lemma le_signed4 v : le 4 (to_signed 32 v) = le 4 v.
Proof. apply (le_signed 4). lia. Qed.
Lemma signed4_twos v : twos 4 (to_signed 32 v). Proof. apply (to_signed_twos 4). lia. Qed.
Lemma signed4_le v : twos 4 v -> to_signed 32 (le_val (le 4 v)) = v. Proof. apply (to_signed_le 4). lia. Qed.
Lemma take_add4 {A} a b c (l : list A) : 0 <= a -> 0 <= b -> 0 <= c -> take (a + b + c) l = take a l ++ take b (drop a l) ++ take c (drop (a + b) l).
Proof. intros. rewrite <- Z.add_assoc. rewrite take_add by lia. f_equal. rewrite take_add by lia. rewrite drop_drop by lia. reflexivity. Qed.
Lemma crc_bytes_eq l off n : bytes l -> 0 <= n -> n + 4 <= len l -> off = n -> le 4 (read_le 4 l off) = take 4 (drop n l).
Proof.
  intros H Hn L ->. unfold read_le, sub. apply le_le_val; [apply Forall_take, Forall_drop, H|].
  pose proof (len_take 4 (drop n l)) as T. rewrite len_drop in T. unfold len in *. lia.
Qed.
Lemma uncons (l : list Z) n : 0 <= n -> n + 1 <= len l -> bytes l -> exists x r, l = x :: r /\ byte x /\ bytes r /\ n <= len r.
Proof. intros Hn L B. destruct l as [|x r]; [cbn in L; lia|]. inversion B; subst. rewrite len_cons in L. exists x, r. repeat split; try assumption; try apply H1; lia. Qed.
Ltac pop :=
  match goal with H : ?n <= len ?l, B : bytes ?l |- _ =>
    let x := fresh "x" in let r := fresh "r" in let E := fresh "E" in let X := fresh "X" in let B' := fresh "B" in let L' := fresh "L" in
    let m := eval vm_compute in (n - 1) in
    destruct (uncons l m ltac:(lia) H B) as (x & r & E & X & B' & L'); subst l; clear H B
  end.
Lemma regular_sound buf h b : bytes buf -> znth 0 0 buf = 0xAA -> znth 0 1 buf = 0x44 -> znth 0 2 buf = 0x12 ->
  parse_regular_message buf = Some (h, b) ->
  exists f r, buf = f ++ r /\ len f = 32 + nh_len h /\ nov_frame f h b.
Proof.
  intros Hb P0 P1 P2. unfold parse_regular_message, MSG_REGULAR_HEADER_LEN, MSG_CRC_LEN.
  destruct (Z.leb_spec (28 + 4) (len buf)) as [L|]; [|discriminate].
  destruct (Z.eqb_spec (znth 0 3 buf) 28) as [P3|]; [|discriminate]. cbv zeta.
  destruct (Z.leb_spec (nh_len (read_regular_header buf)) (len buf - 28 - 4)) as [ML|]; [|discriminate].
  destruct (Z.eqb_spec (read_le 4 buf (28 + nh_len (read_regular_header buf))) (get_crc (take (28 + nh_len (read_regular_header buf)) buf))) as [C|]; [|discriminate].
  intros [= <- <-]. change (read_le 2 buf 8) with (nh_len (read_regular_header buf)). set (h := read_regular_header buf) in *. set (n := nh_len h) in *.
  exists (take (32 + n) buf), (drop (32 + n) buf). split; [symmetry; apply take_drop|].
  assert (N : 0 <= n < 2 ^ 16).
  { unfold n, h, read_regular_header, nh_len, read_le. pose proof (le_val_range (sub buf 8 2)) as R. unfold sub in R. rewrite len_take, len_drop in R.
    replace (Z.min (Z.max 0 2) (Z.max 0 (len buf - Z.max 0 8))) with 2 in R by lia. apply R. apply Forall_take, Forall_drop, Hb. }
  split; [rewrite len_take; lia|].
  assert (LF : len (take (32 + n) buf) = 32 + n) by (rewrite len_take; lia).
  assert (BF : bytes (take (32 + n) buf)) by (apply Forall_take, Hb).
  assert (CR : is_crc32 (take (28 + n) buf) (read_le 4 buf (28 + n))) by (apply crc32_iff; [apply Forall_take, Hb| exact C]).
  assert (CE : le 4 (read_le 4 buf (28 + n)) = take 4 (drop (28 + n) buf)) by (apply crc_bytes_eq; (assumption || lia)).
  assert (TE : take (28 + n) (take (32 + n) buf) = take (28 + n) buf) by (rewrite take_take; f_equal; lia).
  assert (SB : len (sub buf 28 n) = n) by (unfold sub; rewrite len_take, len_drop; lia).
  assert (S1 : take (32 + n) buf = take 28 buf ++ sub buf 28 n ++ take 4 (drop (28 + n) buf)).
  { replace (32 + n) with (28 + n + 4) by lia. apply take_add4; lia. }
  assert (W : exists ty port i0 i1 i2 i3 tail, take 28 buf = [0xAA; 0x44; 0x12; 28] ++ le 2 (nh_id h) ++ [ty; port] ++ le 2 (nh_len h) ++ [i0; i1; i2; i3] ++ le 2 (nh_week h) ++ le 4 (nh_ms h) ++ tail /\ len tail = 8
     /\ ufits 2 (nh_id h) /\ ufits 2 (nh_week h) /\ twos 4 (nh_ms h)).
  { clear - L Hb P0 P1 P2 P3. subst h. rename L into L'.
    change (28 + 4) with 32 in L'. do 28 pop. unfold znth in P0, P1, P2, P3. cbv [Z.to_nat Pos.to_nat Pos.iter_op Init.Nat.add nth] in P0, P1, P2, P3. subst.
    unfold read_regular_header, nh_id, nh_len, nh_week, nh_ms, read_le. cbv [sub take drop firstn skipn Z.to_nat Pos.to_nat Pos.iter_op Init.Nat.add].
    exists x5, x6, x9, x10, x11, x12, [x19; x20; x21; x22; x23; x24; x25; x26]. rewrite !le2, le_signed4, le4 by assumption.
    repeat split; try reflexivity; try (apply val2; assumption); apply signed4_twos. }
  destruct W as (ty & port & i0 & i1 & i2 & i3 & tail & TW & TL & U1 & U2 & U3).
  eapply (regular_frame _ _ _ ty port i0 i1 i2 i3 tail (read_le 4 buf (28 + n))).
  - rewrite S1, TW, CE. rewrite <- !app_assoc. reflexivity.
  - exact TL.
  - rewrite SB. reflexivity.
  - lia.
  - exact U1.
  - exact U2.
  - exact U3.
  - exact BF.
  - rewrite LF. replace (32 + n - 4) with (28 + n) by lia. rewrite TE. exact CR.
Qed.
Lemma short_sound buf h b : bytes buf -> znth 0 0 buf = 0xAA -> znth 0 1 buf = 0x44 -> znth 0 2 buf = 0x13 ->
  parse_short_message buf = Some (h, b) ->
  exists f r, buf = f ++ r /\ len f = 16 + nh_len h /\ nov_frame f h b.
Proof.
  intros Hb P0 P1 P2. unfold parse_short_message, MSG_SHORT_HEADER_LEN, MSG_CRC_LEN.
  destruct (Z.leb_spec (12 + 4) (len buf)) as [L|]; [|discriminate].
  cbv zeta.
  destruct (Z.leb_spec (nh_len (read_short_header buf)) (len buf - 12 - 4)) as [ML|]; [|discriminate].
  destruct (Z.eqb_spec (read_le 4 buf (12 + nh_len (read_short_header buf))) (get_crc (take (12 + nh_len (read_short_header buf)) buf))) as [C|]; [|discriminate].
  intros [= <- <-]. change (read_le 1 buf 3) with (nh_len (read_short_header buf)). set (h := read_short_header buf) in *. set (n := nh_len h) in *.
  exists (take (16 + n) buf), (drop (16 + n) buf). split; [symmetry; apply take_drop|].
  assert (N : 0 <= n < 2 ^ 8).
  { unfold n, h, read_short_header, nh_len, read_le. pose proof (le_val_range (sub buf 3 1)) as R. unfold sub in R. rewrite len_take, len_drop in R.
    replace (Z.min (Z.max 0 1) (Z.max 0 (len buf - Z.max 0 3))) with 1 in R by lia. apply R. apply Forall_take, Forall_drop, Hb. }
  split; [rewrite len_take; lia|].
  assert (LF : len (take (16 + n) buf) = 16 + n) by (rewrite len_take; lia).
  assert (BF : bytes (take (16 + n) buf)) by (apply Forall_take, Hb).
  assert (CR : is_crc32 (take (12 + n) buf) (read_le 4 buf (12 + n))) by (apply crc32_iff; [apply Forall_take, Hb| exact C]).
  assert (CE : le 4 (read_le 4 buf (12 + n)) = take 4 (drop (12 + n) buf)) by (apply crc_bytes_eq; (assumption || lia)).
  assert (TE : take (12 + n) (take (16 + n) buf) = take (12 + n) buf) by (rewrite take_take; f_equal; lia).
  assert (SB : len (sub buf 12 n) = n) by (unfold sub; rewrite len_take, len_drop; lia).
  assert (S1 : take (16 + n) buf = take 12 buf ++ sub buf 12 n ++ take 4 (drop (12 + n) buf)).
  { replace (16 + n) with (12 + n + 4) by lia. apply take_add4; lia. }
  assert (W : take 12 buf = [0xAA; 0x44; 0x13; nh_len h] ++ le 2 (nh_id h) ++ le 2 (nh_week h) ++ le 4 (nh_ms h)
     /\ ufits 2 (nh_id h) /\ ufits 2 (nh_week h) /\ twos 4 (nh_ms h)).
  { clear - L Hb P0 P1 P2. subst h. rename L into L'. change (12 + 4) with 16 in L'. do 12 pop. unfold znth in P0, P1, P2. cbv [Z.to_nat Pos.to_nat Pos.iter_op Init.Nat.add nth] in P0, P1, P2. subst.
    unfold read_short_header, nh_id, nh_len, nh_week, nh_ms, read_le. cbv [sub take drop firstn skipn Z.to_nat Pos.to_nat Pos.iter_op Init.Nat.add].
    rewrite !le2, le_signed4, le4 by assumption. cbn [le_val]. rewrite Z.mul_0_r, Z.add_0_r.
    repeat split; try reflexivity; try (apply (val2 _ _); assumption); apply signed4_twos. }
  destruct W as (TW & U1 & U2 & U3).
  eapply (short_frame _ _ _ (read_le 4 buf (12 + n))).
  - rewrite S1, TW, CE. rewrite <- !app_assoc. reflexivity.
  - rewrite SB. reflexivity.
  - lia.
  - exact U1.
  - exact U2.
  - exact U3.
  - exact BF.
  - rewrite LF. replace (16 + n - 4) with (12 + n) by lia. rewrite TE. exact CR.
Qed.

Lemma le_2 v : exists a b, le 2 v = [a; b]. Proof. do 2 eexists. reflexivity. Qed.
Lemma le_4 v : exists a b c d, le 4 v = [a; b; c; d]. Proof. do 4 eexists. reflexivity. Qed.
Lemma nhdr_eta h : mk_nhdr (nh_len h) (nh_id h) (nh_week h) (nh_ms h) = h. Proof. destruct h. reflexivity. Qed.
Definition frame_len_ok (f : list Z) (h : nhdr) (b : list Z) : Prop := (len f = 32 + nh_len h \/ len f = 16 + nh_len h) /\ nh_len h = len b /\ bytes f /\ bytes b.
Lemma frame_facts f h b : nov_frame f h b -> frame_len_ok f h b.
Proof.
  intros F. inversion F as [ty port i0 i1 i2 i3 tail crc E TL NL BL U1 U2 U3 BF C|crc E NL BL U1 U2 U3 BF C]; unfold frame_len_ok; (split; [|split; [exact NL|split; [exact BF|]]]).
  - left. rewrite E. rewrite !len_app, !len_le, TL. rewrite NL. change (len [170; 68; 18; 28]) with 4. change (len [ty; port]) with 2. change (len [i0; i1; i2; i3]) with 4. lia.
  - rewrite E in BF. unfold bytes in BF. rewrite !Forall_app in BF. tauto.
  - right. rewrite E. rewrite !len_app, !len_le. rewrite NL. change (len [170; 68; 19; len b]) with 4. lia.
  - rewrite E in BF. unfold bytes in BF. rewrite !Forall_app in BF. tauto.
Qed.
Lemma is_crc32_range l c : is_crc32 l c -> ufits 4 c. Proof. intros [H _]. exact H. Qed.
Lemma frame_complete f h b r : nov_frame f h b -> bytes r -> parse_step (f ++ r) = (len f, Some (h, b)).
Proof.
  intros F Hr. pose proof (frame_facts _ _ _ F) as (FL & NL0 & BF0 & BB).
  inversion F as [ty port i0 i1 i2 i3 tail crc E TL NL BL U1 U2 U3 BF C|crc E NL BL U1 U2 U3 BF C].
  - assert (LF : len f = 32 + len b).
    { rewrite E. rewrite !len_app, !len_le, TL. change (len [170; 68; 18; 28]) with 4. change (len [ty; port]) with 2. change (len [i0; i1; i2; i3]) with 4. lia. }
    pose proof (len_nonneg b). pose proof (len_nonneg r).
    assert (CE : crc = get_crc (take (28 + len b) (f ++ r))).
    { rewrite take_app_l by lia. replace (28 + len b) with (len f - 4) by lia. apply crc32_iff; [apply Forall_take, BF| exact C]. }
    assert (S4 : forall x y, sub (f ++ r) x y = sub (f ++ r) x y) by reflexivity.
    destruct (le_2 (nh_id h)) as (a0 & a1 & EA). destruct (le_2 (nh_len h)) as (l0 & l1 & EL). destruct (le_2 (nh_week h)) as (w0 & w1 & EW). destruct (le_4 (nh_ms h)) as (m0 & m1 & m2 & m3 & EM).
    assert (G : f ++ r = ([170; 68; 18; 28; a0; a1; ty; port; l0; l1; i0; i1; i2; i3; w0; w1; m0; m1; m2; m3] ++ tail) ++ b ++ (le 4 crc ++ r)).
    { rewrite E, EA, EL, EW, EM. rewrite <- !app_assoc. reflexivity. }
    assert (H28 : len ([170; 68; 18; 28; a0; a1; ty; port; l0; l1; i0; i1; i2; i3; w0; w1; m0; m1; m2; m3] ++ tail) = 28) by (rewrite len_app, TL; reflexivity).
    assert (SB : sub (f ++ r) 28 (len b) = b) by (rewrite G; apply sub_mid; [exact H28| reflexivity]).
    assert (SC : sub (f ++ r) (28 + len b) 4 = le 4 crc).
    { rewrite G. rewrite (app_assoc _ b). apply sub_mid; [rewrite len_app, H28; reflexivity| apply len_le]. }
    assert (HR : read_regular_header (f ++ r) = h).
    { unfold read_regular_header, read_le. rewrite G. rewrite <- !app_assoc.
      change (sub ([170; 68; 18; 28; a0; a1; ty; port; l0; l1; i0; i1; i2; i3; w0; w1; m0; m1; m2; m3] ++ ?z) 8 2) with [l0; l1].
      match goal with |- mk_nhdr (le_val ?A) (le_val ?B) (le_val ?C) (to_signed 32 (le_val ?D)) = _ => change A with [l0; l1]; change B with [a0; a1]; change C with [w0; w1]; change D with [m0; m1; m2; m3] end.
      rewrite <- EL, <- EA, <- EW, <- EM. rewrite !le_val_u by (try assumption; rewrite NL; unfold ufits; cbn; lia). rewrite signed4_le by exact U3. apply nhdr_eta. }
    assert (LT : len (f ++ r) = 32 + len b + len r) by (rewrite len_app, LF; lia).
    unfold parse_step, parse_regular_message, MSG_REGULAR_HEADER_LEN, MSG_CRC_LEN.
    assert (Z0 : znth 0 0 (f ++ r) = 170 /\ znth 0 1 (f ++ r) = 68 /\ znth 0 2 (f ++ r) = 18 /\ znth 0 3 (f ++ r) = 28) by (rewrite G; repeat split).
    destruct Z0 as (Z0 & Z1 & Z2 & Z3). rewrite Z0, Z1, Z2, Z3, HR, LT. replace (3 <=? 32 + len b + len r) with true by lia. cbn [andb Z.eqb Pos.eqb].
    replace (28 + 4 <=? 32 + len b + len r) with true by lia. cbv zeta. rewrite NL. replace (len b <=? 32 + len b + len r - 28 - 4) with true by lia.
    unfold read_le. rewrite SC, SB, <- CE. rewrite le_val_u by (apply is_crc32_range in C; exact C). rewrite Z.eqb_refl. f_equal. lia.
  - assert (LF : len f = 16 + len b).
    { rewrite E. rewrite !len_app, !len_le. change (len [170; 68; 19; nh_len h]) with 4. lia. }
    pose proof (len_nonneg b). pose proof (len_nonneg r).
    assert (CE : crc = get_crc (take (12 + len b) (f ++ r))).
    { rewrite take_app_l by lia. replace (12 + len b) with (len f - 4) by lia. apply crc32_iff; [apply Forall_take, BF| exact C]. }
    destruct (le_2 (nh_id h)) as (a0 & a1 & EA). destruct (le_2 (nh_week h)) as (w0 & w1 & EW). destruct (le_4 (nh_ms h)) as (m0 & m1 & m2 & m3 & EM).
    assert (G : f ++ r = [170; 68; 19; nh_len h; a0; a1; w0; w1; m0; m1; m2; m3] ++ b ++ (le 4 crc ++ r)).
    { rewrite E, EA, EW, EM. rewrite <- !app_assoc. reflexivity. }
    assert (SB : sub (f ++ r) 12 (len b) = b) by (rewrite G; apply sub_mid; reflexivity).
    assert (SC : sub (f ++ r) (12 + len b) 4 = le 4 crc).
    { rewrite G. rewrite (app_assoc _ b). apply sub_mid; [rewrite len_app; reflexivity| apply len_le]. }
    assert (HR : read_short_header (f ++ r) = h).
    { unfold read_short_header, read_le. rewrite G.
      match goal with |- mk_nhdr (le_val ?A) (le_val ?B) (le_val ?C) (to_signed 32 (le_val ?D)) = _ => change A with [nh_len h]; change B with [a0; a1]; change C with [w0; w1]; change D with [m0; m1; m2; m3] end.
      rewrite <- EA, <- EW, <- EM. rewrite !le_val_u by assumption. rewrite signed4_le by exact U3. cbn [le_val]. rewrite Z.mul_0_r, Z.add_0_r. apply nhdr_eta. }
    assert (LT : len (f ++ r) = 16 + len b + len r) by (rewrite len_app, LF; lia).
    unfold parse_step, parse_short_message, MSG_SHORT_HEADER_LEN, MSG_CRC_LEN.
    assert (Z0 : znth 0 0 (f ++ r) = 170 /\ znth 0 1 (f ++ r) = 68 /\ znth 0 2 (f ++ r) = 19) by (rewrite G; repeat split).
    destruct Z0 as (Z0 & Z1 & Z2). rewrite Z0, Z1, Z2, HR, LT. replace (3 <=? 16 + len b + len r) with true by lia. cbn [andb Z.eqb Pos.eqb].
    replace (12 + 4 <=? 16 + len b + len r) with true by lia. cbv zeta. rewrite NL. replace (len b <=? 16 + len b + len r - 12 - 4) with true by lia.
    unfold read_le. rewrite SC, SB, <- CE. rewrite le_val_u by (apply is_crc32_range in C; exact C). rewrite Z.eqb_refl. f_equal. lia.
Qed.
Lemma step_sound buf c h b : bytes buf -> parse_step buf = (c, Some (h, b)) -> exists f r, buf = f ++ r /\ len f = c /\ nov_frame f h b.
Proof.
  intros Hb. unfold parse_step.
  destruct ((3 <=? len buf) && (znth 0 0 buf =? 170) && (znth 0 1 buf =? 68) && (znth 0 2 buf =? 18)) eqn:R.
  - destruct (parse_regular_message buf) as [[h' b']|] eqn:P; [|discriminate]. intros E0. assert (EC := f_equal fst E0). assert (EB := f_equal snd E0). cbn [fst snd] in EC, EB. clear E0. injection EB as -> ->.
    destruct (regular_sound buf h b) as (f & r & E & L & F); try (assumption || lia). exists f, r. split; [exact E|]. split; [|exact F]. unfold MSG_REGULAR_HEADER_LEN, MSG_CRC_LEN in EC. lia.
  - destruct ((3 <=? len buf) && (znth 0 0 buf =? 170) && (znth 0 1 buf =? 68) && (znth 0 2 buf =? 19)) eqn:Q; [|discriminate].
    destruct (parse_short_message buf) as [[h' b']|] eqn:P; [|discriminate]. intros E0. assert (EC := f_equal fst E0). assert (EB := f_equal snd E0). cbn [fst snd] in EC, EB. clear E0. injection EB as -> ->.
    destruct (short_sound buf h b) as (f & r & E & L & F); try (assumption || lia). exists f, r. split; [exact E|]. split; [|exact F]. unfold MSG_SHORT_HEADER_LEN, MSG_CRC_LEN in EC. lia.
Qed.
Lemma step_none buf c : parse_step buf = (c, None) -> c = 1.
Proof.
  unfold parse_step. destruct (_ && _); [destruct (parse_regular_message buf) as [[? ?]|]; [discriminate|congruence]|].
  destruct (_ && _); [destruct (parse_short_message buf) as [[? ?]|]; [discriminate|congruence]|]. congruence.
Qed.

(** ** process *)
Definition fr (x : list Z * nhdr * list Z) : list Z := fst (fst x).
Definition frame_ok (x : list Z * nhdr * list Z) : Prop := nov_frame (fst (fst x)) (snd (fst x)) (snd x).
Lemma occ_prefix g fs l : occur_in_order fs l -> occur_in_order fs (g ++ l).
Proof.
  intros H. destruct H as [l|g' f fs l H]; [constructor|]. rewrite app_assoc. constructor. exact H.
Qed.
Lemma process_sound {S} (rd : reader S) : sound_reader rd -> forall fuel buf s, bytes buf ->
  let t := process rd fuel buf s in
  bytes (nt_received t) /\
  exists fs, Forall frame_ok fs /\ occur_in_order (map fr fs) (buf ++ nt_received t) /\ calls_of fs (nt_calls t).
Proof.
  intros SR. induction fuel as [|fuel IH]; intros buf s Hb t; subst t; cbn [process].
  - cbn. split; [constructor|]. exists []. repeat split; constructor.
  - destruct (rd (kBufferSize - len buf) s) as [[got|] s'] eqn:RD; [|cbn; split; [constructor|]; exists []; repeat split; constructor].
    destruct (SR _ _ _ _ RD) as [_ Hg]. assert (B1 : bytes (buf ++ got)) by (apply Forall_app; split; assumption).
    destruct (parse_step (buf ++ got)) as [c [[h b]|]] eqn:PS.
    + destruct (step_sound _ _ _ _ B1 PS) as (f & r & E & L & F). destruct (frame_facts _ _ _ F) as (_ & _ & BF & BB).
      destruct (parse_body h b) as [o| | |] eqn:PB; cbn [bind]; try (cbn; rewrite app_nil_r; split; [exact Hg|]; exists []; repeat split; constructor).
      assert (CO : forall cs fs, calls_of fs cs -> calls_of ((f, h, b) :: fs) (match option_map (pair h) o with Some x => [x] | None => [] end ++ cs)).
      { intros cs fs H. destruct o as [m|]; cbn [option_map app]; [apply co_known; [apply parse_body_some; assumption| exact H]|].
        apply co_unknown; [apply parse_body_none in PB; exact PB| exact H]. }
      assert (OC : forall fs l, occur_in_order (map fr fs) (r ++ l) -> occur_in_order (map fr ((f, h, b) :: fs)) (buf ++ got ++ l)).
      { intros fs l H. cbn [map]. rewrite app_assoc, E, <- app_assoc. apply (oio_cons [] f). exact H. }
      destruct (Z.ltb_spec (len (buf ++ got)) c); [rewrite E, len_app, L in *; pose proof (len_nonneg r); lia|].
      assert (D : drop c (buf ++ got) = r) by (rewrite E, <- L; apply drop_app_exact). rewrite D.
      destruct (0 <? len r).
      * destruct (IH r s') as (BR & fs & F1 & F2 & F3); [rewrite E in B1; apply Forall_app in B1; apply B1|].
        cbn [tcons nt_calls nt_received]. split; [apply Forall_app; split; assumption|]. exists ((f, h, b) :: fs).
        split; [constructor; assumption|]. split; [apply OC, F2| apply CO, F3].
      * cbn [tcons nt_calls nt_received]. rewrite app_nil_r. split; [exact Hg|]. exists [(f, h, b)].
        split; [constructor; [exact F|constructor]|]. split; [rewrite <- (app_nil_r got); apply OC; constructor|]. apply CO. constructor.
    + apply step_none in PS. subst c. destruct (Z.ltb_spec (len (buf ++ got)) 1).
      * cbn. rewrite app_nil_r. split; [exact Hg|]. exists []. repeat split; constructor.
      * destruct (0 <? len (drop 1 (buf ++ got))).
        -- destruct (IH (drop 1 (buf ++ got)) s') as (BR & fs & F1 & F2 & F3); [apply Forall_drop, B1|]. cbn [tcons nt_calls nt_received app].
           split; [apply Forall_app; split; assumption|]. exists fs. split; [exact F1|]. split; [|exact F3].
           rewrite app_assoc. apply (occ_prefix (take 1 (buf ++ got))) in F2. rewrite app_assoc, take_drop in F2. exact F2.
        -- cbn. rewrite app_nil_r. split; [exact Hg|]. exists []. repeat split; constructor.
Qed.

(** reading everything that is asked for *)
Lemma scan_step_frame f h b l fs : nov_frame f h b -> bytes l -> scanned (f ++ l) fs -> len f <= 4096 -> exists fs', fs = (f, h, b) :: fs' /\ scanned l fs'.
Proof.
  intros F Hl H L. inversion H as [E|f' h' b' l' fs' F' L' S' E|x l' fs' N S' E].
  - pose proof (frame_facts _ _ _ F) as (FL & NL & _). symmetry in E. apply app_eq_nil in E. destruct E as [-> _]. change (len (@nil Z)) with 0 in FL. pose proof (len_nonneg b). lia.
  - pose proof (frame_facts _ _ _ F') as (_ & _ & BF' & _). pose proof (frame_facts _ _ _ F) as (_ & _ & BF & _).
    assert (B' : bytes l') by (assert (X : bytes (f' ++ l')) by (rewrite E; apply Forall_app; split; assumption); apply Forall_app in X; apply X).
    pose proof (frame_complete _ _ _ l F Hl) as P. pose proof (frame_complete _ _ _ l' F' B') as P'. rewrite <- E in P. rewrite P in P'. injection P' as L1 -> ->.
    assert (f = f') by (rewrite <- (take_app_exact f l), <- (take_app_exact f' l'), L1, E; reflexivity). subst f'.
    apply app_inv_head in E. subst l'. eauto.
  - subst fs'. exfalso. specialize (N f h b l). rewrite <- E in N. specialize (N eq_refl F). lia.
Qed.
Lemma scan_step_skip x l fs : bytes (x :: l) -> parse_step (take 4096 (x :: l)) = (1, None) -> scanned (x :: l) fs -> scanned l fs.
Proof.
  intros B P H. inversion H as [|f' h' b' l' fs' F' L' S' E|x' l' fs' N S' E]; [|assumption].
  exfalso. pose proof (frame_facts _ _ _ F') as (FL & NL & BF' & _).
  assert (B' : bytes l') by (rewrite <- E in B; apply Forall_app in B; apply B).
  pose proof (frame_complete _ _ _ (take (4096 - len f') l') F' (Forall_take _ _ _ B')) as P'. rewrite <- take_app_r in P' by lia. rewrite E in P'. congruence.
Qed.
Lemma scanned_nil fs : scanned [] fs -> fs = [].
Proof.
  intros H. inversion H as [EF| f1 h1 b1 l1 fs1 F1 L1 S1 E1 |]; [reflexivity|]. exfalso. apply app_eq_nil in E1. destruct E1 as [E1 _]. rewrite E1 in F1.
  destruct (frame_facts _ _ _ F1) as (FL1 & NL1 & _). change (len (@nil Z)) with 0 in FL1. pose proof (len_nonneg b1). lia.
Qed.
Lemma fill_full (buf rest : list Z) : len buf <= 4096 -> buf ++ take (kBufferSize - len buf) rest = take 4096 (buf ++ rest).
Proof. intros L. unfold kBufferSize. rewrite take_app_r by lia. reflexivity. Qed.
Lemma full_run fuel : forall buf rest fs cs, bytes (buf ++ rest) -> len buf <= 4096 -> buf ++ rest <> [] -> len (buf ++ rest) < Z.of_nat fuel ->
  scanned (buf ++ rest) fs -> Forall (fun x => len (fr x) < 4096) fs -> calls_of fs cs ->
  process full_reader fuel buf rest = mk_ntrace cs rest NDone.
Proof.
  induction fuel as [|fuel IH]; intros buf rest fs cs B LB NE LF SC SM CO; [pose proof (len_nonneg (buf ++ rest)); lia|].
  cbn [process full_reader]. rewrite fill_full by exact LB. set (S := buf ++ rest) in *.
  assert (RE : take (kBufferSize - len buf) rest ++ drop (kBufferSize - len buf) rest = rest) by apply take_drop.
  assert (SE : take 4096 S ++ drop (kBufferSize - len buf) rest = S) by (unfold S; rewrite <- fill_full by exact LB; rewrite <- app_assoc, RE; reflexivity).
  assert (LS : 0 < len S) by (destruct S; [congruence| rewrite len_cons; pose proof (len_nonneg S); lia]).
  destruct (parse_step (take 4096 S)) as [c [[h b]|]] eqn:PS.
  - destruct (step_sound _ _ _ _ (Forall_take _ _ _ B) PS) as (f & r & E & L & F). pose proof (frame_facts _ _ _ F) as (FL & NL & BF & BB).
    assert (L4 : len f <= 4096) by (pose proof (len_take 4096 S) as T; rewrite E, len_app in T; pose proof (len_nonneg r); lia).
    rewrite E, <- app_assoc in SE. set (l := r ++ drop (kBufferSize - len buf) rest) in *.
    assert (Bl : bytes l) by (rewrite <- SE in B; apply Forall_app in B; apply B).
    destruct (scan_step_frame f h b l fs F Bl) as (fs' & -> & SC'); [rewrite SE; exact SC| exact L4|].
    inversion SM as [|? ? SM1 SM2]; subst. cbn [fr fst] in SM1.
    assert (PB : exists cs' , calls_of fs' cs' /\ exists o, parse_body h b = Ok o /\ cs = match option_map (pair h) o with Some x => [x] | None => [] end ++ cs').
    { inversion CO; subst; eexists; (split; [eassumption|]).
      - exists (Some m). split; [apply parse_body_some; assumption| reflexivity].
      - exists None. split; [apply parse_body_none; assumption| reflexivity]. }
    destruct PB as (cs' & CO' & o & PB & ->). rewrite PB. cbn [bind].
    destruct (Z.ltb_spec (len (take 4096 S)) (len f)); [rewrite E, len_app in *; pose proof (len_nonneg r); lia|].
    assert (D : drop (len f) (take 4096 S) = r) by (rewrite E; apply drop_app_exact). rewrite D.
    assert (LS' : len S = len f + len l) by (rewrite <- SE, len_app; reflexivity).
    destruct (Z.ltb_spec 0 (len r)) as [P|P].
    + rewrite (IH r (drop (kBufferSize - len buf) rest) fs' cs'); fold l; try assumption.
      * unfold tcons. cbn [nt_calls nt_received nt_stop]. rewrite RE. reflexivity.
      * pose proof (len_take 4096 S) as T; rewrite E, len_app in T. pose proof (len_nonneg f). lia.
      * intros X. unfold l in X. apply app_eq_nil in X. destruct X as [X _]. rewrite X in P. exact (Z.lt_irrefl _ P).
      * pose proof (len_nonneg b). lia.
    + assert (Rn : r = []) by (apply len_zero_nil; pose proof (len_nonneg r); lia).
      pose proof (len_take 4096 S) as T. rewrite E, Rn, app_nil_r in T.
      assert (Ln : l = []) by (apply len_zero_nil; lia).
      assert (R0 : drop (kBufferSize - len buf) rest = []) by (unfold l in Ln; rewrite Rn in Ln; exact Ln).
      rewrite Ln in SC'. apply scanned_nil in SC'.
      subst fs'. inversion CO'; subst cs'. unfold tcons. cbn [nt_calls nt_received nt_stop]. rewrite R0, app_nil_r in RE. rewrite !app_nil_r, RE. reflexivity.
  - pose proof (step_none _ _ PS). subst c. destruct S as [|x l] eqn:ES; [congruence|].
    apply scan_step_skip in SC; [|exact B| exact PS].
    assert (LT : 1 <= len (take 4096 (x :: l))) by (rewrite len_take; lia). destruct (Z.ltb_spec (len (take 4096 (x :: l))) 1); [lia|].
    assert (D : drop 1 (take 4096 (x :: l)) ++ drop (kBufferSize - len buf) rest = l).
    { rewrite <- drop_app_l by lia. rewrite SE. reflexivity. }
    assert (LD : len (drop 1 (take 4096 (x :: l))) <= 4096) by (rewrite len_drop, len_take; lia).
    assert (Bl : bytes l) by (inversion B; assumption). rewrite len_cons in LF.
    destruct (Z.ltb_spec 0 (len (drop 1 (take 4096 (x :: l))))) as [P|P].
    + rewrite (IH (drop 1 (take 4096 (x :: l))) (drop (kBufferSize - len buf) rest) fs cs); rewrite ?D; try assumption.
      * unfold tcons. cbn [nt_calls nt_received nt_stop app]. rewrite RE. reflexivity.
      * intros ->. apply app_eq_nil in D. destruct D as [D _]. rewrite D in P. change (len (@nil Z)) with 0 in P. lia.
      * lia.
    + assert (LL : len l = 0). { rewrite len_drop, len_take, len_cons in P. pose proof (len_nonneg l). lia. }
      assert (l = []) by (apply len_zero_nil, LL). subst l. apply app_eq_nil in D. destruct D as [D R0].
      apply scanned_nil in SC. subst fs. inversion CO; subst cs. unfold tcons. cbn [nt_calls nt_received nt_stop app]. rewrite R0, app_nil_r in RE. rewrite !app_nil_r, RE. reflexivity.
Qed.
Lemma scan_exists n : forall l, len l <= Z.of_nat n -> bytes l -> exists fs, scanned l fs.
Proof.
  induction n as [|n IH]; intros l L B; [exists []; rewrite (len_zero_nil l) by (pose proof (len_nonneg l); lia); constructor|].
  destruct l as [|x l]; [exists []; constructor|].
  destruct (parse_step (take 4096 (x :: l))) as [c [[h b]|]] eqn:PS.
  - destruct (step_sound _ _ _ _ (Forall_take _ _ _ B) PS) as (f & r & E & LF & F). pose proof (frame_facts _ _ _ F) as (FL & NL & BF & BB).
    assert (SE : x :: l = f ++ (r ++ drop 4096 (x :: l))) by (rewrite app_assoc, <- E, take_drop; reflexivity).
    assert (LS : len (x :: l) = len f + len (r ++ drop 4096 (x :: l))) by (rewrite SE at 1; apply len_app).
    destruct (IH (r ++ drop 4096 (x :: l))) as (fs & H); [pose proof (len_nonneg b); lia| rewrite SE in B; apply Forall_app in B; apply B|].
    exists ((f, h, b) :: fs). rewrite SE. constructor; [exact F| |exact H]. pose proof (len_take 4096 (x :: l)) as T. rewrite E, len_app in T. pose proof (len_nonneg r). lia.
  - inversion B; subst. destruct (IH l) as (fs & H); [rewrite len_cons in L; lia| assumption|]. exists fs. apply sc_skip; [|exact H].
    intros f h b r E F. destruct (Z.le_gt_cases (len f) 4096) as [LF|]; [|assumption]. exfalso.
    assert (Br : bytes r) by (rewrite E in B; apply Forall_app in B; apply B).
    pose proof (frame_complete _ _ _ (take (4096 - len f) r) F (Forall_take _ _ _ Br)) as P'. rewrite <- take_app_r in P' by lia. rewrite <- E in P'. congruence.
Qed.
Lemma scan_unique l fs : scanned l fs -> bytes l -> forall fs', scanned l fs' -> fs = fs'.
Proof.
  induction 1 as [|f h b l fs F L S IH|x l fs N S IH]; intros B fs' H'.
  - inversion H' as [|f h b l fs F L S E|]; [reflexivity|]. pose proof (frame_facts _ _ _ F) as (FL & NL & _). apply app_eq_nil in E. destruct E as [-> _]. change (len (@nil Z)) with 0 in FL. pose proof (len_nonneg b). lia.
  - assert (Bl : bytes l) by (apply Forall_app in B; apply B). destruct (scan_step_frame f h b l fs' F Bl H' L) as (fs2 & -> & S2). f_equal. apply IH; assumption.
  - inversion B; subst. apply IH; [assumption|]. inversion H' as [|f h b l' fs2 F L S2 E|]; [|assumption]. exfalso. specialize (N f h b l' (eq_sym E) F). lia.
Qed.

(** the nov2sbp tool's reader *)
Definition prefix {A} (a b : list A) : Prop := exists c, b = a ++ c.
Lemma stdin_short fuel buf rest : len rest < kBufferSize - len buf -> (length (nt_calls (process stdin_reader fuel buf (rest, false))) <= 1)%nat.
Proof.
  intros H. destruct fuel as [|fuel]; [cbn; lia|]. cbn [process stdin_reader]. replace (len rest <? kBufferSize - len buf) with true by lia.
  destruct (parse_step _) as [c msg]. destruct (match msg with None => Ok None | Some (h, b) => bind (parse_body h b) (fun o => Ok (option_map (pair h) o)) end) as [o| | |]; try (cbn; lia).
  destruct (_ <? c); [destruct o; cbn; lia|]. destruct (0 <? _); [|destruct o; cbn; lia].
  destruct fuel as [|fuel]; destruct o; cbn; lia.
Qed.
Lemma stdin_prefix fuel : forall buf rest, prefix (nt_calls (process stdin_reader fuel buf (rest, false))) (nt_calls (process full_reader fuel buf rest)).
Proof.
  induction fuel as [|fuel IH]; intros buf rest; [exists []; reflexivity|]. cbn [process stdin_reader full_reader].
  destruct (parse_step _) as [c msg]. destruct (match msg with None => Ok None | Some (h, b) => bind (parse_body h b) (fun o => Ok (option_map (pair h) o)) end) as [o| | |]; try (exists []; reflexivity).
  set (buf1 := buf ++ take (kBufferSize - len buf) rest). destruct (len buf1 <? c); [exists []; cbn; rewrite !app_nil_r; reflexivity|].
  destruct (0 <? len (drop c buf1)); [|exists []; cbn; rewrite !app_nil_r; reflexivity].
  cbn [tcons nt_calls]. destruct (len rest <? kBufferSize - len buf).
  - destruct fuel as [|fuel].
    + exists []. cbn [process nt_calls]. rewrite !app_nil_r. reflexivity.
    + cbn [process stdin_reader nt_calls]. rewrite app_nil_r. eexists. reflexivity.
  - destruct (IH (drop c buf1) (drop (kBufferSize - len buf) rest)) as (x & E). exists x. rewrite E, app_assoc. reflexivity.
Qed.
