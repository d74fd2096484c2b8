(** A message encoder/decoder pair that round-trips on buffers also round-trips through the whole transport. *)
From Verif Require Import Base Crc Bitstring Bits_model Bits_proofs Bitstream_model Bitstream_proofs
  RtcmFraming_model RtcmFraming_spec RtcmFraming_proofs RtcmFrameOut_model RtcmFrameOut_proofs RtcmStation_model RtcmStation_spec RtcmStation_proofs.

Lemma transport {M} (enc : list Z -> list Z * Z) (decode : list Z -> res M) n m :
  round_trips enc decode n m -> 0 < n <= 1017 ->
  exists f, encode_rtcm3_frame enc = Ok f /\ valid_frame f /\ len f = n + 6 /\ decode (sub f 3 n) = Ok m /\
    forall chunks, Forall good_read chunks -> concat chunks = f -> exists r, run chunks = Some (r, [f]).
Proof.
  intros H Hn. specialize (H (repeat 0 1020%nat) (bytes_repeat0 _)). rewrite len_repeat in H. specialize (H ltac:(lia)).
  destruct (enc (repeat 0 1020%nat)) as [b k] eqn:E. destruct H as (-> & L & B & D).
  assert (Hp : len (take n b) = n) by (rewrite len_take; lia).
  destruct (encode_frame_valid enc b (take n b)) as (f & b1 & b2 & c & Ef & V & Hf & Hc); try assumption; try lia.
  - rewrite Hp. exact E.
  - rewrite Hp. reflexivity.
  - exists f. split; [exact Ef|]. split; [exact V|]. split; [rewrite Hf, !len_cons, len_app; lia|]. split.
    + unfold sub. rewrite Hf. rewrite !drop_cons by lia. cbn [Z.sub Z.opp Z.add Pos.sub Pos.pred_double Z.pos_sub]. rewrite drop_0.
      rewrite take_app_eq by exact Hp. exact D.
    + intros chunks Hg Hc'. apply (frame_delivered enc b (take n b) chunks f); try assumption; try lia; rewrite Hp; [exact E|reflexivity].
Qed.
