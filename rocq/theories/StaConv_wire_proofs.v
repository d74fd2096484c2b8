(** Lemmas for C66, C67: frames, payloads and what any accepted payload contains. *)
From Coq Require Import String Ascii.
From Verif Require Import Base Bitstring Bits_model Bits_proofs Bitstream_model Bitstream_proofs Double_model
  RtcmFraming_model RtcmFraming_spec RtcmFraming_proofs RtcmFrameOut_model RtcmFrameOut_proofs RtcmStation_model RtcmStation_spec RtcmStation_proofs RtcmMessage_proofs
  ObsBuffer_model Time_model Ssr_model Ssr_spec Ssr_proofs StaConv_model StaConv_spec.
Import ListNotations.
Open Scope Z_scope.
Open Scope list_scope.

(** ** the message type *)
Lemma first_field {A} (d : dec A) n p a : bytes p -> run_dec (expect n d) p = Ok a -> 2 <= len p /\ frame_type p = n.
Proof.
  intros Hp E. unfold run_dec in E. destruct (expect n d (bits_of_bytes p)) as [a' r| | |] eqn:X; try discriminate. clear E a.
  unfold expect in X. destruct (dbind_ok _ _ _ _ _ X) as (v & r1 & G & Y). clear X. destruct (Z.eqb_spec v n) as [-> |]; [|discriminate].
  unfold get_u in G. destruct (Z.ltb_spec (len (bits_of_bytes p)) 12) as [|L]; [discriminate|]. assert (V : val_be (take 12 (bits_of_bytes p)) = n) by congruence. clear G Y.
  split; [rewrite len_bits_of_bytes in L; lia|]. change (frame_type p) with (message_number p).
  assert (T : length (take 12 (bits_of_bytes p)) = 12%nat) by (pose proof (len_take 12 (bits_of_bytes p)) as Q; unfold len in Q; unfold len in L; lia).
  apply (message_number_bits p n []); [exact Hp| |].
  - pose proof (val_be_range (take 12 (bits_of_bytes p))) as R. rewrite V in R. unfold len in R. rewrite T in R. exact R.
  - exists (drop 12 (bits_of_bytes p)). rewrite fields_bits_cons. change (fields_bits []) with (@nil bool). rewrite app_nil_r. change (Z.to_nat 12) with 12%nat.
    rewrite <- V, <- T, bits_be_val. symmetry. apply take_drop.
Qed.

(** ** what any accepted payload contains *)
Lemma get_u_inv n b v r : 0 <= n -> get_u n b = DOk v r -> ubits n v.
Proof.
  intros Hn. unfold get_u. destruct (len b <? n) eqn:L; [discriminate|]. apply Z.ltb_ge in L. intros X.
  assert (v = val_be (take n b)) as -> by congruence. pose proof (val_be_range (take n b)) as V. rewrite len_take in V.
  replace (Z.min (Z.max 0 n) (len b)) with n in V by lia. exact V.
Qed.
Lemma signed_range n v : 1 <= n -> sbits n (to_signed n v).
Proof.
  intros Hn. unfold sbits, to_signed. assert (E : 2 ^ n = 2 * 2 ^ (n - 1)) by (rewrite <- (Z.pow_succ_r 2 (n - 1)) by lia; f_equal; lia).
  assert (0 < 2 ^ (n - 1)) by (apply Z.pow_pos_nonneg; lia). pose proof (Z.mod_pos_bound v (2 ^ n) ltac:(lia)). destruct (Z.ltb_spec (v mod 2 ^ n) (2 ^ (n - 1))); lia.
Qed.
Lemma get_s_inv n b v r : 1 <= n -> get_s n b = DOk v r -> sbits n v.
Proof. intros Hn. unfold get_s. destruct (len b <? n); [discriminate|]. intros X. assert (v = to_signed n (val_be (take n b))) as -> by congruence. apply signed_range. exact Hn. Qed.
Ltac inv_u E v R := let G := fresh in destruct (dbind_ok _ _ _ _ _ E) as (v & ? & G & R); apply get_u_inv in G; [|lia].
Lemma base_wf bs m r : decode_1005_base bs = DOk m r -> wf_1005 m.
Proof.
  unfold decode_1005_base. intros E0.
  destruct (dbind_ok _ _ _ _ _ E0) as (a & r1 & G1 & E1). destruct (dbind_ok _ _ _ _ _ E1) as (b & r2 & G2 & E2). destruct (dbind_ok _ _ _ _ _ E2) as (c & r3 & G3 & E3).
  destruct (dbind_ok _ _ _ _ _ E3) as (d & r4 & G4 & E4). destruct (dbind_ok _ _ _ _ _ E4) as (e & r5 & G5 & E5). destruct (dbind_ok _ _ _ _ _ E5) as (f & r6 & G6 & E6).
  destruct (dbind_ok _ _ _ _ _ E6) as (x & r7 & G7 & E7). destruct (dbind_ok _ _ _ _ _ E7) as (o & r8 & G8 & E8). destruct (dbind_ok _ _ _ _ _ E8) as (u & r9 & _ & E9).
  destruct (dbind_ok _ _ _ _ _ E9) as (y & r10 & G10 & E10). destruct (dbind_ok _ _ _ _ _ E10) as (q & r11 & G11 & E11). destruct (dbind_ok _ _ _ _ _ E11) as (z & r12 & G12 & E12).
  unfold ret in E12. assert (m = mk1005 a b c d e f x o y q z) as -> by congruence.
  apply get_u_inv in G1, G2, G3, G4, G5, G6, G8, G11; try lia. apply get_s_inv in G7, G10, G12; try lia.
  unfold wf_1005. cbn [stn_id itrf gps_ind glo_ind gal_ind ref_stn_ind arp_x osc_ind arp_y quart_cycle_ind arp_z]. tauto.
Qed.
Lemma get_u_ok n b : 0 <= n <= len b -> exists v, get_u n b = DOk v (drop n b).
Proof. intros H. unfold get_u. destruct (Z.ltb_spec (len b) n); [lia|]. eexists. reflexivity. Qed.
Lemma get_s_ok n b : 0 <= n <= len b -> exists v, get_s n b = DOk v (drop n b).
Proof. intros H. unfold get_s. destruct (Z.ltb_spec (len b) n); [lia|]. eexists. reflexivity. Qed.
Lemma bind_ok1 {A B} (d : dec A) (f : A -> dec B) bs a r : d bs = DOk a r -> dbind d f bs = f a r.
Proof. intros E. unfold dbind. rewrite E. reflexivity. Qed.
Lemma base_ok bs : 140 <= len bs -> exists m r, decode_1005_base bs = DOk m r /\ wf_1005 m.
Proof.
  intros L. assert (H : exists m r, decode_1005_base bs = DOk m r).
  { unfold decode_1005_base.
    do 6 (match goal with |- context [dbind (get_u ?n) _ ?b] => destruct (get_u_ok n b) as (? & E); [rewrite ?len_drop; lia|rewrite (bind_ok1 _ _ _ _ _ E); clear E] end).
    match goal with |- context [dbind (get_s ?n) _ ?b] => destruct (get_s_ok n b) as (? & E); [rewrite ?len_drop; lia|rewrite (bind_ok1 _ _ _ _ _ E); clear E] end.
    match goal with |- context [dbind (get_u ?n) _ ?b] => destruct (get_u_ok n b) as (? & E); [rewrite ?len_drop; lia|rewrite (bind_ok1 _ _ _ _ _ E); clear E] end.
    unfold skip at 1. unfold dbind at 1.
    match goal with |- context [dbind (get_s ?n) _ ?b] => destruct (get_s_ok n b) as (? & E); [rewrite ?len_drop; lia|rewrite (bind_ok1 _ _ _ _ _ E); clear E] end.
    match goal with |- context [dbind (get_u ?n) _ ?b] => destruct (get_u_ok n b) as (? & E); [rewrite ?len_drop; lia|rewrite (bind_ok1 _ _ _ _ _ E); clear E] end.
    match goal with |- context [dbind (get_s ?n) _ ?b] => destruct (get_s_ok n b) as (? & E); [rewrite ?len_drop; lia|rewrite (bind_ok1 _ _ _ _ _ E); clear E] end.
    eexists. eexists. reflexivity. }
  destruct H as (m & r & E). exists m, r. split; [exact E|]. apply (base_wf _ _ _ E).
Qed.
Lemma accepted_1005 p m : run_dec decode_1005 p = Ok m -> wf_1005 m.
Proof.
  unfold run_dec, decode_1005, expect. destruct (dbind _ _ _) as [m' r| | |] eqn:X; try discriminate. intros E. injection E as ->.
  destruct (dbind_ok _ _ _ _ _ X) as (v & r1 & _ & Y). destruct (v =? 1005); [|discriminate]. apply (base_wf _ _ _ Y).
Qed.
Lemma accepted_1006 g p m : 21 <= len p -> run_dec (decode_1006 g) p = Ok m -> wf_1006 m.
Proof.
  intros L. unfold run_dec, decode_1006, expect. destruct (dbind _ _ _) as [m' r| | |] eqn:X; try discriminate. intros E. injection E as ->.
  destruct (dbind_ok _ _ _ _ _ X) as (v & r1 & G & Y). destruct (v =? 1006); [|discriminate]. clear X.
  unfold get_u in G. destruct (Z.ltb_spec (len (bits_of_bytes p)) 12); [discriminate|]. assert (r1 = drop 12 (bits_of_bytes p)) as -> by congruence. clear G.
  destruct (base_ok (drop 12 (bits_of_bytes p))) as (b & r2 & E & W); [rewrite len_drop, len_bits_of_bytes; lia|].
  destruct (dbind_ok _ _ _ _ _ Y) as (o & r3 & G & Y2). unfold attempt in G. rewrite E in G. assert (o = Some b) as -> by congruence.
  destruct (dbind_ok _ _ _ _ _ Y2) as (h & r4 & G2 & Y3). apply get_u_inv in G2; [|lia]. unfold ret in Y3. assert (m = mk1006 b h) as -> by congruence.
  split; [exact W|]. cbn [ant_height]. unfold ubits in G2. change (2 ^ 16) with 65536 in G2. lia.
Qed.
Lemma bias_inv mask bit bs b r : get_bias mask bit bs = DOk b r -> bias_ok mask bit b.
Proof.
  unfold get_bias, bias_ok. destruct (Z.testbit mask bit).
  - intros E. apply get_s_inv in E; [|lia]. split; [exact E|discriminate].
  - unfold ret. intros E. assert (b = 0) as -> by congruence. split; [|reflexivity]. unfold sbits. cbn. lia.
Qed.
Lemma accepted_1230 p m : run_dec decode_1230 p = Ok m -> wf_1230 m.
Proof.
  unfold run_dec, decode_1230, expect. destruct (dbind _ _ _) as [m' r| | |] eqn:X; try discriminate. intros E. injection E as ->.
  destruct (dbind_ok _ _ _ _ _ X) as (v & r1 & _ & Y). destruct (v =? 1230); [|discriminate]. clear X.
  destruct (dbind_ok _ _ _ _ _ Y) as (a & r2 & G1 & E1). destruct (dbind_ok _ _ _ _ _ E1) as (i & r3 & G2 & E2). destruct (dbind_ok _ _ _ _ _ E2) as (u & r4 & _ & E3).
  destruct (dbind_ok _ _ _ _ _ E3) as (mask & r5 & G3 & E4). destruct (dbind_ok _ _ _ _ _ E4) as (b3 & r6 & G4 & E5). destruct (dbind_ok _ _ _ _ _ E5) as (b2 & r7 & G5 & E6).
  destruct (dbind_ok _ _ _ _ _ E6) as (b1 & r8 & G6 & E7). destruct (dbind_ok _ _ _ _ _ E7) as (b0 & r9 & G7 & E8). unfold ret in E8.
  assert (m = mk1230 a i mask b3 b2 b1 b0) as -> by congruence. apply get_u_inv in G1, G2, G3; try lia. apply bias_inv in G4, G5, G6, G7.
  unfold wf_1230. cbn [m230_stn_id bias_indicator fdma_signal_mask l1_ca l1_p l2_ca l2_p]. tauto.
Qed.
(** the decoders have no undefined behaviour *)
Definition no_dub {A} (d : dec A) : Prop := forall bs, d bs <> DUb.
Lemma nd_bind {A B} (d : dec A) (f : A -> dec B) : no_dub d -> (forall a, no_dub (f a)) -> no_dub (dbind d f).
Proof. intros H1 H2 bs. unfold dbind. specialize (H1 bs). destruct (d bs); try discriminate; [apply H2|contradiction]. Qed.
Lemma nd_u n : no_dub (get_u n). Proof. intros bs. unfold get_u. destruct (len bs <? n); discriminate. Qed.
Lemma nd_s n : no_dub (get_s n). Proof. intros bs. unfold get_s. destruct (len bs <? n); discriminate. Qed.
Lemma nd_skip n : no_dub (skip n). Proof. intros bs. discriminate. Qed.
Lemma nd_ret {A} (a : A) : no_dub (ret a). Proof. intros bs. discriminate. Qed.
Lemma nd_fail {A} : no_dub (@fail A). Proof. intros bs. discriminate. Qed.
Lemma nd_mis {A} : no_dub (@mismatch A). Proof. intros bs. discriminate. Qed.
Lemma nd_attempt {A} (d : dec A) : no_dub d -> no_dub (attempt d). Proof. intros H bs. unfold attempt. specialize (H bs). destruct (d bs); try discriminate; contradiction. Qed.
Lemma nd_list {A} (d : dec A) n : no_dub d -> no_dub (get_list d n).
Proof. intros H. induction n as [|n IH]; cbn [get_list]; [apply nd_ret|]. apply nd_bind; [exact H|]. intros a. apply nd_bind; [exact IH|]. intros l. apply nd_ret. Qed.
Ltac nd := repeat first [apply nd_bind; [|intros ?] | apply nd_u | apply nd_s | apply nd_skip | apply nd_ret | apply nd_fail | apply nd_mis | apply nd_attempt | apply nd_list
  | match goal with |- no_dub (if ?b then _ else _) => destruct b end].
Lemma run_nd {A} (d : dec A) p : no_dub d -> run_dec d p <> Ub.
Proof. intros H. unfold run_dec. specialize (H (bits_of_bytes p)). destruct (d _); try discriminate; contradiction. Qed.
Lemma nd_1005 : no_dub decode_1005. Proof. unfold decode_1005, expect, decode_1005_base. nd. Qed.
Lemma nd_1006 g : no_dub (decode_1006 g). Proof. unfold decode_1006, expect, decode_1005_base. nd. Qed.
Lemma nd_1033 : no_dub decode_1033. Proof. unfold decode_1033, expect, decode_string. nd. Qed.
Lemma nd_1230 : no_dub decode_1230. Proof. unfold decode_1230, expect, get_bias. nd. Qed.

(** ** a mask of more than 4 bits *)
Lemma mask_bit mask k : 0 <= k < 4 -> Z.testbit (mask mod 16) k = Z.testbit mask k.
Proof. intros H. change 16 with (2 ^ 4). rewrite Z.mod_pow2_bits_low by lia. reflexivity. Qed.
Lemma rt_1230_mask stn mask a b c d : ubits 12 stn -> bias_ok mask 3 a -> bias_ok mask 2 b -> bias_ok mask 1 c -> bias_ok mask 0 d ->
  round_trips (encode_1230 (mk1230 stn 0 mask a b c d)) (run_dec decode_1230) (4 + 2 * popcount4 mask) (mk1230 stn 0 (mask mod 16) a b c d).
Proof.
  intros H1 H4 H5 H6 H7 buff Hb Hl. set (m := mk1230 stn 0 mask a b c d).
  assert (Ht : total (fields_1230 m) = 32 + 16 * popcount4 mask) by (unfold fields_1230; rewrite total_app, total_bias; reflexivity).
  unfold ubits in *. pose proof (encode_1230_bits m buff Hb ltac:(cbn; lia) ltac:(lia)) as P. cbn zeta in P.
  destruct (encode_1230 m buff) as [bb n]. cbn [fst snd] in P. destruct P as (P1 & P2 & P3 & pad & E).
  split; [rewrite P1, Ht; unfold byte_len; lia|]. split; [exact P2|]. split; [exact P3|].
  unfold run_dec. rewrite E. unfold decode_1230, expect, fields_1230. cbn [app m m230_stn_id bias_indicator fdma_signal_mask l1_ca l1_p l2_ca l2_p]. dstep. cbn [Z.eqb Pos.eqb]. dstep.
  rewrite bind_u by (cbn; lia). dstep. rewrite bind_u_mod by lia. cbv beta. change (2 ^ 4) with 16. unfold bias_fields, m. cbn [fdma_signal_mask l1_ca l1_p l2_ca l2_p].
  rewrite <- (mask_bit mask 3), <- (mask_bit mask 2), <- (mask_bit mask 1), <- (mask_bit mask 0) by lia.
  unfold bias_ok in *. rewrite <- (mask_bit mask 3) in H4 by lia. rewrite <- (mask_bit mask 2) in H5 by lia. rewrite <- (mask_bit mask 1) in H6 by lia. rewrite <- (mask_bit mask 0) in H7 by lia.
  rewrite bind_bias by exact H4. rewrite bind_bias by exact H5. rewrite bind_bias by exact H6.
  rewrite <- (app_nil_r (if Z.testbit (mask mod 16) 0 then _ else _)).
  rewrite bind_bias by exact H7. reflexivity.
Qed.
Lemma popcount4_range mask : 0 <= popcount4 mask <= 4.
Proof. unfold popcount4. destruct (Z.testbit mask 0), (Z.testbit mask 1), (Z.testbit mask 2), (Z.testbit mask 3); cbn; lia. Qed.

(** ** frames *)
Lemma framed {M} (enc : list Z -> list Z * Z) (decode : list Z -> res M) n m : round_trips enc decode n m -> 0 < n <= 1017 ->
  exists f, encode_rtcm3_frame enc = Ok f /\ valid_frame f /\ decode (payload_of f) = Ok m /\ bytes (payload_of f) /\ len (payload_of f) = n.
Proof.
  intros R H. destruct (transport enc decode n m R H) as (f & E & V & L & D & _). exists f. split; [exact E|]. split; [exact V|].
  unfold payload_of. rewrite L. replace (n + 6 - 6) with n by lia. split; [exact D|]. split.
  - destruct V as (? & ? & ? & ? & ? & ? & _ & V & _). unfold sub. apply Forall_take, Forall_drop, V.
  - unfold sub. rewrite len_take, len_drop. lia.
Qed.
Lemma frames_delivered fs chunks : Forall valid_frame fs -> Forall good_read chunks -> concat chunks = concat fs -> exists r, run chunks = Some (r, fs).
Proof.
  intros V G C. apply delivery; [exact G|]. rewrite C. clear C G chunks. induction V as [|f fs V1 V IH]; cbn [concat].
  - apply gs_nil; [intros []|constructor].
  - apply (gs_cons [] f fs (concat fs)); [intros []|constructor|exact V1|exact IH].
Qed.
Lemma stn_and s : stn_of_sender s = stn12 s.
Proof. unfold stn_of_sender, stn12. change 4095 with (Z.ones 12). rewrite Z.land_ones by lia. reflexivity. Qed.
Lemma stn_range s : ubits 12 (stn12 s). Proof. unfold ubits, stn12. change (2 ^ 12) with 4096. apply Z.mod_pos_bound. lia. Qed.
Lemma sender_back stn : ubits 12 stn -> sender_of stn = back16 stn.
Proof.
  intros U. unfold ubits in U. change (2 ^ 12) with 4096 in U. unfold sender_of, back16.
  assert (H : forallb (fun k => Z.lor (Z.of_nat k) 61568 =? 61440 + Z.of_nat k + (if Z.testbit (Z.of_nat k) 7 then 0 else 128)) (seq 0 4096) = true) by (vm_compute; reflexivity).
  rewrite forallb_forall in H. specialize (H (Z.to_nat stn) ltac:(apply in_seq; lia)). apply Z.eqb_eq in H. rewrite Z2Nat.id in H by lia. exact H.
Qed.
