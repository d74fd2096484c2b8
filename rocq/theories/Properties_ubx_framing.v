(** C31, C32: property theorems only. *)
From Verif Require Import Base UbxFraming_model UbxFraming_spec UbxFraming_proofs.

(** C31: however the stream is cut into reads, and whatever errors and ends of stream occur in between, the frames
    delivered by any number of calls are found in the bytes that were read, in order, without overlap, each with its
    correct checksum. *)
Theorem C31_only_valid_frames : forall reads n, bytes (all_data reads) ->
  contains (frames_of (fst (calls n (mku [] reads)))) (all_data reads).
Proof. intros reads n H. exact (calls_contained n (mku [] reads) H). Qed.
(** the frame with its checksum fits the 4096-byte frame buffer *)
Theorem C31_frame_fits : forall reads n f, bytes (all_data reads) ->
  In f (frames_of (fst (calls n (mku [] reads)))) -> 4 <= len f /\ len f + 2 <= 4096.
Proof.
  intros reads n f H Hin. pose proof (C31_only_valid_frames reads n H) as C. revert C Hin.
  generalize (frames_of (fst (calls n (mku [] reads)))) (all_data reads). intros l d C Hin. induction C as [|g f' fs s Hb C IH]; [contradiction|].
  destruct Hin as [->|Hin]; [|now apply IH]. destruct Hb as (c & i & lo & hi & p & -> & _ & Hl & Hm). rewrite !len_cons.
  pose proof (len_nonneg p). lia.
Qed.
(** no call runs forever: every iteration consumes at least one byte *)
Theorem C31_call_terminates : forall buf reads, bytes (buf ++ all_data reads) ->
  exists r s, read_frame (mku buf reads) = (r, s) /\ (forall f, r = FFrame f -> (length (pending s) < length (buf ++ all_data reads))%nat) /\ r <> FFuel.
Proof.
  intros buf reads H. destruct (read_frame (mku buf reads)) as [r s] eqn:E. exists r, s. split; [reflexivity|]. split.
  - intros f ->. apply (frame_loop_pending _ (mku buf reads) _ _ H) in E. destruct E as (_ & g & E). unfold on_wire in E.
    change (pending (mku buf reads)) with (buf ++ all_data reads) in E. rewrite E. rewrite !app_length. cbn [length]. rewrite app_length. lia.
  - pose proof (read_frame_terminates (mku buf reads) H) as T. rewrite E in T. exact T.
Qed.
Example C31_instance : exists f, on_wire f = [0xB5; 0x62; 1; 0x11; 2; 0; 7; 9; 36; 122] /\ ubx_body f /\
  fst (calls 3 (mku [] [RData [1; 0xB5]; RStop 0; RData [0xB5; 0xB5; 0x62; 1; 0x11]; RData [2; 0; 7; 9; 36; 122; 0xB5]]))
  = [FStop (-1); FFrame f; FStop (-1)].
Proof.
  exists [1; 0x11; 2; 0; 7; 9]. split; [reflexivity|]. split; [|vm_compute; reflexivity].
  exists 1, 0x11, 2, 0, [7; 9]. split; [reflexivity|]. split; [repeat constructor; unfold byte; lia|]. split; [reflexivity|]. vm_compute. discriminate.
Qed.

(** C32: as long as the stream delivers data until it ends, how it is cut into reads does not matter *)
Theorem C32_chunking_invariance : forall reads1 reads2, data_only reads1 -> data_only reads2 -> all_data reads1 = all_data reads2 ->
  bytes (all_data reads1) -> process_all (mku [] reads1) = process_all (mku [] reads2).
Proof.
  intros r1 r2 H1 H2 E B. rewrite (process_flat (mku [] r1) H1 B).
  assert (B2 : bytes (pending (mku [] r2))) by (unfold pending; cbn [u_buf u_reads app]; rewrite <- E; exact B).
  rewrite (process_flat (mku [] r2) H2 B2). unfold pending. cbn [u_buf u_reads app]. now rewrite E.
Qed.
Lemma separated_bytes fs s : separated fs s -> bytes s.
Proof.
  induction 1 as [|g f fs s Hg Hgb Hb Hs IH]; [assumption|]. destruct Hb as (c & i & lo & hi & p & -> & Hb & _).
  unfold bytes in *. apply Forall_app. split; [assumption|]. unfold on_wire. cbn [app].
  constructor; [unfold byte; lia|]. constructor; [unfold byte; lia|].
  inversion Hb as [|? ? ? Hb1]; subst. inversion Hb1 as [|? ? ? Hb2]; subst. inversion Hb2 as [|? ? ? Hb3]; subst. inversion Hb3 as [|? ? ? Hb4]; subst.
  repeat (constructor; [assumption|]). rewrite <- app_assoc. apply Forall_app. split; [assumption|].
  unfold fletcher. cbn [app]. constructor; [unfold byte; apply Z.mod_pos_bound; lia|]. constructor; [unfold byte; apply Z.mod_pos_bound; lia|assumption].
Qed.
(** C32: frames separated by bytes in which B5 62 does not occur are all delivered, in order, and nothing else *)
Theorem C32_delivery : forall reads fs, data_only reads -> separated fs (all_data reads) -> process_all (mku [] reads) = fs.
Proof.
  intros reads fs Hd Hs. pose proof (separated_bytes _ _ Hs) as B. rewrite (process_flat (mku [] reads) Hd B).
  unfold process_all. rewrite pending_flat. apply until_stop_separated; [exact Hs|]. unfold pending. cbn [u_buf u_reads app]. lia.
Qed.
(** after any garbage followed by 4097 bytes without B5, no frame is lost any more *)
Theorem C32_resynchronises : forall reads garbage quiet f fs s,
  data_only reads -> bytes garbage -> bytes quiet -> Forall (fun b => b <> 0xB5) quiet -> 4097 <= len quiet ->
  ubx_body f -> separated fs s -> all_data reads = garbage ++ quiet ++ on_wire f ++ s ->
  exists gs, process_all (mku [] reads) = gs ++ f :: fs.
Proof.
  intros reads g q f fs s Hd Hg Hq Hq5 Hlq Hf Hs E.
  assert (B : bytes (all_data reads)).
  { rewrite E. unfold bytes. rewrite !Forall_app. split; [exact Hg|]. split; [exact Hq|].
    assert (S : separated (f :: fs) ([] ++ on_wire f ++ s)) by (constructor; [exact I|constructor|assumption|assumption]).
    apply separated_bytes in S. cbn [app] in S. now apply Forall_app in S. }
  rewrite (process_flat (mku [] reads) Hd B). unfold process_all. rewrite pending_flat.
  unfold pending. cbn [u_buf u_reads app]. apply (until_stop_quiet f fs s Hf Hs); [|exact B|lia].
  exists g, q. repeat split; [exact E|exact Hq5|apply len_nonneg|right; exact Hlq].
Qed.
Definition nav1 : list Z := [1; 0x11; 2; 0; 7; 9].
Example C32_instance : separated [nav1; nav1] ([3; 0xB5] ++ on_wire nav1 ++ [0xB5; 4; 0x62] ++ on_wire nav1 ++ []) /\
  process_all (mku [] [RData [3]; RData ([0xB5] ++ on_wire nav1 ++ [0xB5; 4]); RData ([0x62] ++ on_wire nav1)]) = [nav1; nav1].
Proof.
  assert (Hn : ubx_body nav1).
  { exists 1, 0x11, 2, 0, [7; 9]. split; [reflexivity|]. split; [repeat constructor; unfold byte; lia|]. split; [reflexivity|]. vm_compute. discriminate. }
  split; [|vm_compute; reflexivity].
  apply sp_cons; [cbn [no_sync]; repeat split; intros [? ?]; lia|repeat constructor; unfold byte; lia|exact Hn|].
  apply sp_cons; [cbn [no_sync]; repeat split; intros [? ?]; lia|repeat constructor; unfold byte; lia|exact Hn|].
  apply sp_nil; [exact I|constructor].
Qed.
(** Full delivery is false: a valid frame that follows a corrupted one directly may be swallowed, because the bytes the
    corrupted length field claims are not looked at again (here one bit of the length is flipped). *)
Theorem C32_corrupted_length_swallows_valid_frame_refuted :
  ubx_body nav1 /\ process_all (mku [] [RData ([0xB5; 0x62; 1; 0x11; 10; 0; 7; 9; 36; 122] ++ on_wire nav1)]) = [].
Proof.
  split; [|vm_compute; reflexivity].
  exists 1, 0x11, 2, 0, [7; 9]. split; [reflexivity|]. split; [repeat constructor; unfold byte; lia|]. split; [reflexivity|]. vm_compute. discriminate.
Qed.
(** A read that reports the end of the data in the middle of a frame loses the frame: the part already read is not kept. *)
Theorem C32_end_of_data_inside_frame_refuted :
  frames_of (fst (calls 3 (mku [] [RData [0xB5; 0x62; 1; 0x11]; RStop 0; RData [2; 0; 7; 9; 36; 122]]))) = [].
Proof. vm_compute. reflexivity. Qed.
Print Assumptions C31_only_valid_frames.
Print Assumptions C31_frame_fits.
Print Assumptions C31_call_terminates.
Print Assumptions C32_chunking_invariance.
Print Assumptions C32_delivery.
Print Assumptions C32_resynchronises.
Print Assumptions C32_corrupted_length_swallows_valid_frame_refuted.
Print Assumptions C32_end_of_data_inside_frame_refuted.
