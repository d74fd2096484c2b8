From Verif Require Import Base Crc Bitstring Bits_model Bits_proofs Bitstream_proofs RtcmFraming_model RtcmFraming_spec RtcmFraming_proofs RtcmFrameOut_model.

Lemma crc24q_bit_range r : 0 <= r < 2 ^ 24 -> 0 <= crc24q_bit r < 2 ^ 24.
Proof.
  intros Hr. unfold crc24q_bit. rewrite Z.shiftl_mul_pow2 by lia. change (2 ^ 1) with 2.
  destruct (Z.testbit (r * 2) 24) eqn:E.
  - change 0xFFFFFF with (Z.ones 24). rewrite Z.land_ones by lia. apply Z.mod_pos_bound. lia.
  - pose proof (testbit_top (r * 2) 25 ltac:(lia) ltac:(lia)) as T. change (25 - 1) with 24 in T.
    rewrite E in T. symmetry in T. apply Z.leb_gt in T. lia.
Qed.
Lemma lxor_range a b n : 0 <= n -> 0 <= a < 2 ^ n -> 0 <= b < 2 ^ n -> 0 <= Z.lxor a b < 2 ^ n.
Proof.
  intros Hn Ha Hb. assert (H0 : 0 <= Z.lxor a b) by (apply Z.lxor_nonneg; lia). split; [exact H0|].
  destruct (Z.eq_dec (Z.lxor a b) 0) as [->|H1]; [lia|].
  apply Z.log2_lt_pow2; [lia|]. destruct (Z.lt_ge_cases (Z.log2 (Z.lxor a b)) n) as [|H]; [assumption|exfalso].
  pose proof (Z.bit_log2 (Z.lxor a b) ltac:(lia)) as B. rewrite Z.lxor_spec in B.
  rewrite (testbit_small a _ n), (testbit_small b _ n) in B by lia. discriminate.
Qed.
Lemma crc24q_byte_range r b : 0 <= r < 2 ^ 24 -> byte b -> 0 <= crc24q_byte r b < 2 ^ 24.
Proof.
  intros Hr Hb. unfold crc24q_byte.
  assert (H : 0 <= Z.lxor r (Z.shiftl b 16) < 2 ^ 24).
  { apply lxor_range; [lia|lia|]. rewrite Z.shiftl_mul_pow2 by lia. unfold byte in Hb. change (2^16) with 65536. change (2^24) with 16777216. lia. }
  revert H. generalize (Z.lxor r (Z.shiftl b 16)). generalize 8%nat as n. clear.
  induction n as [|n IH]; intros x Hx; [exact Hx|]. cbn [Nat.iter]. apply crc24q_bit_range. apply IH. exact Hx.
Qed.
Lemma crc24q_fold_range l : forall r, 0 <= r < 2 ^ 24 -> bytes l -> 0 <= fold_left crc24q_byte l r < 2 ^ 24.
Proof.
  induction l as [|b l IH]; intros r Hr Hb; [exact Hr|]. inversion Hb; subst. cbn [fold_left].
  apply IH; [apply crc24q_byte_range; assumption|assumption].
Qed.
Lemma crc24q_range l : bytes l -> 0 <= crc24q l < 2 ^ 24.
Proof. intros. apply crc24q_fold_range; [lia|assumption]. Qed.

Lemma app_inj_len {A} (a b c d : list A) : a ++ b = c ++ d -> length a = length c -> a = c /\ b = d.
Proof.
  revert c; induction a as [|x a IH]; intros [|y c] H Hl; cbn in *; try discriminate; [auto|].
  injection H as -> H. destruct (IH c H ltac:(lia)) as [-> ->]. auto.
Qed.
Lemma byte_of_bits F i : bytes F -> 0 <= i < len F -> znth 0 i F = val_be (bits_at F (8 * i) 8).
Proof.
  intros Hb Hi. assert (B : byte (znth 0 i F)) by (apply Forall_znth; assumption).
  rewrite <- (bits_byte (znth 0 i F) B F i) by (reflexivity || lia). rewrite val_bits_be.
  symmetry. apply Z.mod_small. exact B.
Qed.
Lemma bytes_of_bits F G i : bytes F -> bytes G -> 0 <= i < len F -> 0 <= i < len G ->
  (forall j, 8 * i <= j < 8 * i + 8 -> bitat F j = bitat G j) -> znth 0 i F = znth 0 i G.
Proof.
  intros HF HG Hi Hi' H. rewrite !byte_of_bits by assumption. f_equal. apply bits_at_ext. intros j Hj. apply H. lia.
Qed.
Lemma znth_ext (l1 l2 : list Z) : len l1 = len l2 -> (forall i, 0 <= i < len l1 -> znth 0 i l1 = znth 0 i l2) -> l1 = l2.
Proof.
  intros Hl H. apply (nth_ext _ _ 0 0); [unfold len in Hl; lia|]. intros n Hn.
  specialize (H (Z.of_nat n)). unfold znth in H. rewrite Nat2Z.id in H. apply H. unfold len. lia.
Qed.
Lemma bytes_repeat0 n : bytes (repeat 0 n).
Proof. induction n; cbn; constructor; [unfold byte; lia|assumption]. Qed.

(** the payload the encoder wrote *)
Lemma encode_frame_valid enc tail payload :
  enc (repeat 0 1020%nat) = (tail, len payload) -> len tail = 1020 -> bytes tail -> take (len payload) tail = payload ->
  0 < len payload <= 1017 ->
  exists f b1 b2 c, encode_rtcm3_frame enc = Ok f /\ valid_frame f /\ f = 0xD3 :: b1 :: b2 :: payload ++ c /\ len c = 3.
Proof.
  intros He Hlt Hbt Hp Hn. unfold encode_rtcm3_frame.
  change (drop 3 (repeat 0 (Z.to_nat FRAME_ARRAY_LEN))) with (repeat 0 1020%nat). rewrite He.
  set (s := len payload) in *.
  destruct (Z.eqb_spec s 0); [lia|]. unfold FRAME_ARRAY_LEN, RTCM3_MAX_MSG_LEN, RTCM3_PREAMBLE.
  destruct (Z.ltb_spec 1023 s); [lia|]. destruct (Z.ltb_spec 1023 (s + 3 + 3)); [lia|].
  set (F1 := take 3 (repeat 0 (Z.to_nat 1023)) ++ tail).
  assert (HF1 : F1 = 0 :: 0 :: 0 :: tail) by reflexivity.
  assert (L1 : len F1 = 1023) by (rewrite HF1, !len_cons; lia).
  assert (B1 : bytes F1) by (rewrite HF1; repeat constructor; try (unfold byte; lia); exact Hbt).
  set (hdr := [(8, 0xD3); (6, 0); (10, s)]) in *.
  pose proof (put_fields_spec hdr F1 0 ltac:(repeat constructor; unfold width_ok; cbn; lia) ltac:(lia)
     ltac:(change (total hdr) with 24; lia)) as P. cbn zeta in P. replace (0 + total hdr) with 24 in P by reflexivity.
  destruct (put_fields F1 0 hdr) as [F2 bit] eqn:EP. cbn [fst snd] in P. destruct P as (-> & L2 & B2 & O2 & V2).
  specialize (B2 B1). set (crc := crc24q (take (s + 3) F2)).
  destruct (setu_spec F2 (24 + s * 8) 24 ltac:(lia) ltac:(lia) crc ltac:(lia)) as (L3 & B3 & O3 & V3).
  set (F3 := setbitu F2 (24 + s * 8) 24 crc) in *. specialize (B3 B2).
  assert (L3' : len F3 = 1023) by lia.
  assert (Hcrc : 0 <= crc < 2 ^ 24) by (apply crc24q_range, Forall_take, B2).
  (* payload bytes *)
  assert (P3 : forall i, 3 <= i < 3 + s -> znth 0 i F3 = znth 0 (i - 3) payload).
  { intros i Hi. transitivity (znth 0 i F1).
    - apply bytes_of_bits; try assumption; try lia. intros j Hj. rewrite O3 by lia. apply O2; lia.
    - rewrite HF1. rewrite !znth_cons by lia. replace (i - 1 - 1 - 1) with (i - 3) by lia.
      rewrite <- Hp. rewrite znth_take by lia. reflexivity. }
  assert (T3 : take (s + 3) F3 = take (s + 3) F2).
  { apply znth_ext; [rewrite !len_take; lia|]. intros i Hi. rewrite len_take in Hi. rewrite !znth_take by lia.
    apply bytes_of_bits; try assumption; try lia. intros j Hj. apply O3; lia. }
  set (b := fun i => znth 0 i F3).
  assert (Hb : forall i, 0 <= i < 1023 -> byte (b i)) by (intros; apply Forall_znth; [exact B3|lia]).
  (* header values *)
  assert (V23 : bits_at F3 0 24 = bits_at F2 0 24) by (apply bits_at_ext; intros; apply O3; lia).
  change (Z.to_nat (total hdr)) with 24%nat in V2. rewrite <- V23 in V2.
  assert (E0 : b 0 = 0xD3).
  { unfold b. rewrite byte_of_bits by (assumption || lia).
    change 24%nat with (8 + 16)%nat in V2. rewrite bits_at_app in V2. unfold hdr in V2.
    rewrite fields_bits_cons in V2. change (8 * 0) with 0.
    apply app_inj_len in V2; [|rewrite length_bits_at, length_bits_be; reflexivity]. destruct V2 as [-> _]. reflexivity. }
  assert (E12 : 256 * b 1 + b 2 = s).
  { change 24%nat with (8 + (8 + 8))%nat in V2. rewrite !bits_at_app in V2. unfold hdr in V2. rewrite fields_bits_cons in V2.
    apply app_inj_len in V2; [|rewrite length_bits_at, length_bits_be; reflexivity]. destruct V2 as [_ E].
    apply (f_equal val_be) in E. rewrite val_be_app in E.
    rewrite !fields_bits_cons, !val_be_app in E. unfold len in E. rewrite length_bits_at in E.
    rewrite !val_bits_be in E. change (2 ^ Z.of_nat (Z.to_nat 6)) with 64 in E. change (2 ^ Z.of_nat (Z.to_nat 10)) with 1024 in E.
    change (fields_bits []) with (@nil bool) in E. rewrite app_nil_r in E. cbn [length] in E.
    change (val_be []) with 0 in E. rewrite Z.mod_small in E by lia. rewrite (Z.mod_small s) in E by lia.
    unfold b. rewrite !byte_of_bits by (assumption || lia). change (8 * 1) with 8. change (8 * 2) with 16. rewrite Z.mul_0_l in E.
    change (2 ^ Z.of_nat 8) with 256 in E. change (2 ^ Z.of_nat 0) with 1 in E.
    change (0 + Z.of_nat 8 + Z.of_nat 8) with 16 in E. change (0 + Z.of_nat 8) with 8 in E. lia. }
  assert (EC : 65536 * b (s + 3) + 256 * b (s + 4) + b (s + 5) = crc).
  { change (Z.to_nat 24) with (8 + (8 + 8))%nat in V3. rewrite !bits_at_app in V3. apply (f_equal val_be) in V3.
    rewrite !val_be_app in V3. rewrite val_bits_be in V3. unfold len in V3. rewrite !app_length, !length_bits_at in V3.
    change (2 ^ Z.of_nat (8 + (8 + 8))) with (2 ^ 24) in V3. rewrite Z.mod_small in V3 by lia.
    change (2 ^ Z.of_nat (8 + 8)) with 65536 in V3. change (2 ^ Z.of_nat 8) with 256 in V3.
    unfold b. rewrite !byte_of_bits by (assumption || lia).
    replace (8 * (s + 3)) with (24 + s * 8) by lia. replace (8 * (s + 4)) with (24 + s * 8 + Z.of_nat 8) by lia.
    replace (8 * (s + 5)) with (24 + s * 8 + Z.of_nat 8 + Z.of_nat 8) by lia. lia. }
  assert (EF : take (s + 3 + 3) F3 = 0xD3 :: b 1 :: b 2 :: payload ++ [b (s + 3); b (s + 4); b (s + 5)]).
  { apply znth_ext.
    - rewrite len_take. change (len (211 :: b 1 :: b 2 :: payload ++ [b (s + 3); b (s + 4); b (s + 5)])) with (len ([211; b 1; b 2] ++ payload ++ [b (s + 3); b (s + 4); b (s + 5)])). rewrite 2 len_app. change (len payload) with s. change (len [211; b 1; b 2]) with 3. change (len [b (s + 3); b (s + 4); b (s + 5)]) with 3. lia.
    - intros i Hi. rewrite len_take in Hi. rewrite znth_take by lia.
      destruct (Z.eq_dec i 0) as [->|]; [exact E0|]. rewrite znth_cons by lia.
      destruct (Z.eq_dec i 1) as [->|]; [reflexivity|]. rewrite znth_cons by lia.
      destruct (Z.eq_dec i 2) as [->|]; [reflexivity|]. rewrite znth_cons by lia.
      replace (i - 1 - 1 - 1) with (i - 3) by lia.
      destruct (Z.lt_ge_cases i (s + 3)).
      + rewrite znth_app_l by (fold s; lia). apply P3. lia.
      + rewrite znth_app_r by (fold s; lia). fold s. unfold b.
        assert (HH : i - 3 - s = 0 \/ i - 3 - s = 1 \/ i - 3 - s = 2) by lia.
        destruct HH as [E|[E|E]]; rewrite E; [replace i with (s + 3) by lia|replace i with (s + 4) by lia|replace i with (s + 5) by lia]; reflexivity. }
  assert (EX : take (s + 3) F3 = 0xD3 :: b 1 :: b 2 :: payload).
  { replace (s + 3) with (Z.min (s + 3) (s + 3 + 3)) at 1 by lia. rewrite <- take_take, EF.
    rewrite !take_cons by lia. rewrite take_app_l by (fold s; lia). rewrite take_all by (fold s; lia). reflexivity. }
  exists (take (s + 3 + 3) F3), (b 1), (b 2), [b (s + 3); b (s + 4); b (s + 5)].
  split; [reflexivity|]. split; [|split; [exact EF|reflexivity]].
  exists (b 1), (b 2), payload, (b (s + 3)), (b (s + 4)), (b (s + 5)).
  split; [exact EF|]. split; [apply Forall_take, B3|]. split; [fold s; lia|]. split; [fold s; lia|].
  rewrite <- EX, T3. fold crc. lia.
Qed.

(** [enc] wrote exactly [payload] (at offset 0 of the buffer it was given) and returned its length *)
Lemma frame_delivered enc tail payload chunks f :
  enc (repeat 0 1020%nat) = (tail, len payload) -> len tail = 1020 -> bytes tail -> take (len payload) tail = payload ->
  0 < len payload <= 1017 ->
  encode_rtcm3_frame enc = Ok f -> Forall good_read chunks -> concat chunks = f ->
  exists r, run chunks = Some (r, [f]).
Proof.
  intros He Hl Hb Hp Hn Hf Hg Hc. destruct (encode_frame_valid enc tail payload He Hl Hb Hp Hn) as (f' & b1 & b2 & c & E & V & _).
  rewrite E in Hf. injection Hf as ->. apply delivery; [exact Hg|]. rewrite Hc.
  pose proof (gs_cons [] f [] []) as G. cbn [app] in G. rewrite app_nil_r in G.
  apply G; [intros []|constructor|exact V|]. apply gs_nil; [intros []|constructor].
Qed.
Lemma long_frame_ub enc tail s : enc (repeat 0 1020%nat) = (tail, s) -> 1018 <= s -> encode_rtcm3_frame enc = Ub.
Proof.
  intros He Hs. unfold encode_rtcm3_frame.
  change (drop 3 (repeat 0 (Z.to_nat FRAME_ARRAY_LEN))) with (repeat 0 1020%nat). rewrite He.
  destruct (Z.eqb_spec s 0); [lia|]. unfold RTCM3_MAX_MSG_LEN, FRAME_ARRAY_LEN, RTCM3_MAX_MSG_LEN.
  destruct (Z.ltb_spec 1023 s); [reflexivity|]. destruct (Z.ltb_spec 1023 (s + 3 + 3)); [reflexivity|lia].
Qed.
Lemma empty_frame enc tail : enc (repeat 0 1020%nat) = (tail, 0) -> encode_rtcm3_frame enc = Ok [].
Proof.
  intros He. unfold encode_rtcm3_frame.
  change (drop 3 (repeat 0 (Z.to_nat FRAME_ARRAY_LEN))) with (repeat 0 1020%nat). rewrite He. reflexivity.
Qed.
