(** C42, C43: NovAtel binary input *)
From Verif Require Import Base Bitstring Bits_model Bytestream_model Bytestream_proofs Ixcom_spec Novatel_model Novatel_spec Novatel_crc_proofs Novatel_proofs Novatel_stream_proofs.

(** The checksum the parser computes is the CRC-32 of the bytes, and the only one *)
Theorem C42_crc_is_the_remainder : forall l, bytes l -> forall r, is_crc32 l r <-> r = get_crc l.
Proof. intros l H r. apply crc32_iff, H. Qed.
Example C42_crc_sample : get_crc [0x31; 0x32; 0x33; 0x34; 0x35; 0x36; 0x37; 0x38; 0x39] = 0x2DFD2D88.
Proof. vm_compute. reflexivity. Qed.

(** Whatever the reader does and however long the parser runs: the frames behind the callbacks occur in order, not
    overlapping, in the bytes received; each has a valid header and CRC; the callback gets its header and the fields of its body. *)
Theorem C42_only_valid_frames : forall (S : Type) (rd : reader S) (s : S) (fuel : nat), sound_reader rd ->
  let t := run_parser rd fuel s in
  exists fs : list (list Z * nhdr * list Z),
    Forall (fun x => nov_frame (fst (fst x)) (snd (fst x)) (snd x)) fs /\
    occur_in_order (map (fun x => fst (fst x)) fs) (nt_received t) /\
    calls_of fs (nt_calls t).
Proof.
  intros S rd s fuel SR t. destruct (process_sound rd SR fuel [] s) as (_ & fs & A & B & C); [constructor|]. exists fs. split; [exact A|]. split; [exact B| exact C].
Qed.

(** a short-header frame, for examples *)
Definition sample_short (id : Z) (body : list Z) : list Z :=
  let p := [0xAA; 0x44; 0x13; len body] ++ le 2 id ++ le 2 2000 ++ le 4 3600000 ++ body in p ++ le 4 (get_crc p).
Definition sample_regular (id : Z) (body : list Z) : list Z :=
  let p := [0xAA; 0x44; 0x12; 28] ++ le 2 id ++ [2; 32] ++ le 2 (len body) ++ [0; 0; 100; 180] ++ le 2 2000 ++ le 4 3600000 ++ [0;0;0;0;0;0;0;0] ++ body in
  p ++ le 4 (get_crc p).
Definition sample_vel (k : Z) : list Z := sample_short 99 (repeat k 44).
Definition chunk_reader : reader (list (list Z)) := fun n cs =>
  match cs with [] => (Some [], []) | c :: r => (Some (take n c), if len c <=? n then r else drop n c :: r) end.
Example C42_sample : nt_calls (run_parser chunk_reader 1000 [[1; 2; 0xAA; 0x44] ++ sample_vel 1 ++ [0xAA] ++ sample_regular 99 (repeat 7 44)])
  = [(mk_nhdr 44 99 2000 3600000, NFields [0x01010101; 0x01010101; 0x01010101; 0x01010101; 0x0101010101010101; 0x0101010101010101; 0x0101010101010101; 0x01010101]);
     (mk_nhdr 44 99 2000 3600000, NFields [0x07070707; 0x07070707; 0x07070707; 0x07070707; 0x0707070707070707; 0x0707070707070707; 0x0707070707070707; 0x07070707])].
Proof. vm_compute. reflexivity. Qed.
(** A CRC-valid BESTVEL frame whose body has another length fails an assertion in FromBytes: the process is aborted *)
Theorem C42_unexpected_body_length_aborts_refuted : exists frame h b, nov_frame frame h b /\
  (forall rest, nt_stop (run_parser full_reader 2 (frame ++ rest)) = NUb) .
Proof.
  exists (sample_short 99 [1; 2; 3; 4]), (mk_nhdr 4 99 2000 3600000), [1; 2; 3; 4]. split.
  - eapply (short_frame _ _ _ (get_crc (take 16 (sample_short 99 [1; 2; 3; 4])))).
    + vm_compute. reflexivity.
    + reflexivity.
    + cbn; lia.
    + unfold ufits; cbn; lia.
    + unfold ufits; cbn; lia.
    + unfold twos; cbn; lia.
    + unfold bytes. vm_compute. repeat (apply Forall_cons; [unfold byte; split; [intros X; discriminate X| reflexivity]|]). apply Forall_nil.
    + change (take (len (sample_short 99 [1; 2; 3; 4]) - 4) (sample_short 99 [1; 2; 3; 4])) with (take 16 (sample_short 99 [1; 2; 3; 4])).
      apply crc32_iff; [|reflexivity]. unfold bytes. vm_compute. repeat (apply Forall_cons; [unfold byte; split; [intros X; discriminate X| reflexivity]|]). apply Forall_nil.
  - intros rest. unfold run_parser. cbn [process full_reader]. change (kBufferSize - len (@nil Z)) with 4096. cbn [app].
    assert (E : exists r, take 4096 (sample_short 99 [1; 2; 3; 4] ++ rest) = sample_short 99 [1; 2; 3; 4] ++ r).
    { exists (take (4096 - len (sample_short 99 [1; 2; 3; 4])) rest). apply take_app_r. vm_compute. discriminate. }
    destruct E as (r & E). rewrite E.
    assert (P : parse_step (sample_short 99 [1; 2; 3; 4] ++ r) = (20, Some (mk_nhdr 4 99 2000 3600000, [1; 2; 3; 4]))).
    { unfold parse_step, parse_short_message. rewrite len_app. change (len (sample_short 99 [1; 2; 3; 4])) with 20. pose proof (len_nonneg r).
      replace (3 <=? 20 + len r) with true by lia. replace (MSG_SHORT_HEADER_LEN + MSG_CRC_LEN <=? 20 + len r) with true by (unfold MSG_SHORT_HEADER_LEN, MSG_CRC_LEN; lia).
      change (read_short_header (sample_short 99 [1; 2; 3; 4] ++ r)) with (mk_nhdr 4 99 2000 3600000). cbn [nh_len].
      replace (4 <=? 20 + len r - MSG_SHORT_HEADER_LEN - MSG_CRC_LEN) with true by (unfold MSG_SHORT_HEADER_LEN, MSG_CRC_LEN; lia). reflexivity. }
    rewrite P. reflexivity.
Qed.

(** When every read returns all that was asked for or all that is left, the calls are exactly those of the frames found by
    reading the stream from the left, and the whole stream is consumed.  Frames of exactly 4096 bytes excepted. *)
Theorem C43_full_reads_partial : forall stream fs cs fuel, stream <> [] -> bytes stream -> scanned stream fs ->
  Forall (fun x => len (fst (fst x)) < 4096) fs -> calls_of fs cs -> len stream < Z.of_nat fuel ->
  run_parser full_reader fuel stream = mk_ntrace cs stream NDone.
Proof. intros stream fs cs fuel NE B SC SM CO F. apply (full_run fuel [] stream fs cs); try assumption. change (len (@nil Z)) with 0. lia. Qed.
(** that reading exists and is unique for every stream *)
Theorem C43_scan_defined : forall stream, bytes stream -> exists fs, scanned stream fs /\ forall fs', scanned stream fs' -> fs' = fs.
Proof.
  intros stream B. destruct (scan_exists (length stream) stream) as (fs & H); [unfold len; lia| exact B|]. exists fs. split; [exact H|].
  intros fs' H'. exact (scan_unique _ _ H' B _ H).
Qed.
(** in particular any concatenation of frames is found whole *)
Theorem C43_back_to_back_frames : forall fs, Forall (fun x => nov_frame (fst (fst x)) (snd (fst x)) (snd x) /\ len (fst (fst x)) <= 4096) fs ->
  scanned (concat (map (fun x => fst (fst x)) fs)) fs.
Proof. induction 1 as [|[[f h] b] fs [F L] H IH]; [constructor|]. cbn [map concat fst snd] in *. constructor; assumption. Qed.
(** Two readers that hand out the same bytes: with the frame in one piece it is delivered, split over two reads it is not *)
Theorem C43_split_frame_lost_refuted : exists cs1 cs2,
  nt_received (run_parser chunk_reader 1000 cs1) = nt_received (run_parser chunk_reader 1000 cs2) /\ concat cs1 = concat cs2 /\
  length (nt_calls (run_parser chunk_reader 1000 cs1)) = 1%nat /\ nt_calls (run_parser chunk_reader 1000 cs2) = [].
Proof. exists [sample_vel 5], [take 20 (sample_vel 5); drop 20 (sample_vel 5)]. vm_compute. repeat split. Qed.
(** The tool's own reader delivers a prefix of what is in the file ... *)
Theorem C43_tool_delivers_prefix : forall file fuel, exists rest,
  nt_calls (run_parser full_reader fuel file) = nt_calls (run_parser stdin_reader fuel (file, false)) ++ rest.
Proof. intros file fuel. apply (stdin_prefix fuel [] file). Qed.
(** ... which for any file shorter than the buffer is at most one message *)
Theorem C43_tool_short_file_refuted : forall file fuel, len file < 4096 -> (length (nt_calls (run_parser stdin_reader fuel (file, false))) <= 1)%nat.
Proof. intros file fuel L. apply stdin_short. change (len (@nil Z)) with 0. unfold kBufferSize. lia. Qed.
Example C43_tool_loses_three_of_four :
  length (nt_calls (run_parser full_reader 1000 (sample_vel 1 ++ sample_vel 2 ++ sample_vel 3 ++ sample_vel 4))) = 4%nat /\
  length (nt_calls (run_parser stdin_reader 1000 (sample_vel 1 ++ sample_vel 2 ++ sample_vel 3 ++ sample_vel 4, false))) = 1%nat.
Proof. vm_compute. split; reflexivity. Qed.
(** an empty file fails the assertion on the number of consumed bytes *)
Theorem C43_empty_input_refuted : forall fuel, nt_stop (run_parser full_reader (S fuel) []) = NUb /\ nt_stop (run_parser stdin_reader (S fuel) ([], false)) = NUb.
Proof. intros fuel. split; reflexivity. Qed.
(** after a frame of exactly 4096 bytes the buffer is empty and the parser returns although the stream goes on *)
Theorem C43_4096_byte_frame_stops_refuted : 
  let stream := sample_regular 1 (repeat 0 4064) ++ sample_vel 1 in
  nt_calls (run_parser full_reader 10000 stream) = [] /\ nt_stop (run_parser full_reader 10000 stream) = NDone /\ len (nt_received (run_parser full_reader 10000 stream)) = 4096.
Proof. vm_compute. repeat split. Qed.
Print Assumptions C42_crc_is_the_remainder.
Print Assumptions C42_only_valid_frames.
Print Assumptions C42_unexpected_body_length_aborts_refuted.
Print Assumptions C43_full_reads_partial.
Print Assumptions C43_scan_defined.
Print Assumptions C43_back_to_back_frames.
Print Assumptions C43_split_frame_lost_refuted.
Print Assumptions C43_tool_delivers_prefix.
Print Assumptions C43_tool_short_file_refuted.
Print Assumptions C43_empty_input_refuted.
Print Assumptions C43_4096_byte_frame_stops_refuted.
