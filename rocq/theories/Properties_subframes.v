(** C36: broadcast ephemerides are assembled from one data set.  C37: SBAS messages are forwarded only when intact.
    [gps_valid], [gal_ok], [bds_d2] stand for the verdicts of the external orbit decoders and the external table of
    geostationary BeiDou satellites: every theorem holds for all of them. *)
From Verif Require Import Base Bitstring Bits_model RtcmMsm_model Signals_model ObsBuffer_spec Subframes_model Subframes_spec
  Subframes_proofs Subframes_run_proofs Subframes_live_proofs Sbas_proofs.

(** Whenever the message [e], after any history [h] of SFRBX messages of all satellites, makes the converter emit an
    ephemeris, then: it is about the satellite of [e]; since some moment after the previous ephemeris of that
    satellite (no ephemeris of it is emitted in [mid]), all parts of the data set were received; the ephemeris
    conveys exactly the most recently received instance of each part; and these belong to one issue of data. *)
Theorem C36_assembled_from_one_data_set gps_valid gal_ok bds_d2 h st os e st' o :
  sfrbx_run gps_valid gal_ok bds_d2 ephst_init h = Some (st, os) ->
  sfrbx_step gps_valid gal_ok bds_d2 st e = Some (st', Some o) -> fst (out_sat o) <> 1 ->
  let g := ev_gnss e in let p := ev_prn e in
  out_sat o = (g, p) /\
  exists pre mid st0 os0 os1 evs, h = pre ++ mid /\
    sfrbx_run gps_valid gal_ok bds_d2 ephst_init pre = Some (st0, os0) /\
    sfrbx_run gps_valid gal_ok bds_d2 st0 mid = Some (st, os1) /\
    (forall x, In x os1 -> out_sat x <> (g, p)) /\
    len evs = parts_needed g /\
    (forall j d, 0 <= j < parts_needed g -> latest g p (j + 1) (mid ++ [e]) (znth d j evs)) /\
    same_issue g (map ev_words evs) /\ conveys o (ev_fcn e) (map ev_words evs).
Proof. apply assembled. Qed.

(** At most once per set: the number of ephemerides of a satellite never exceeds the number of receptions of any one
    of the parts ([used] is a subsequence of the history: distinct receptions). *)
Theorem C36_at_most_once_per_part gps_valid gal_ok bds_d2 h st os g p j : g = 0 \/ g = 2 \/ g = 3 \/ g = 6 -> 1 <= j <= parts_needed g ->
  sfrbx_run gps_valid gal_ok bds_d2 ephst_init h = Some (st, os) ->
  exists used, subseq used h /\ (forall e, In e used -> from_sat g p e /\ is_part g j (ev_words e)) /\
    (length (filter (about g p) os) <= length used)%nat.
Proof.
  intros Hg Hj H. destruct (used_once gps_valid gal_ok bds_d2 g p j h Hg Hj st os H) as (u & A & B & C).
  exists u. split; [exact A|]. split; [exact B|]. lia.
Qed.

(** Satellites do not interfere: the ephemerides of a satellite are those it would get alone. *)
Theorem C36_satellites_do_not_interfere gps_valid gal_ok bds_d2 h st os g p : g = 0 \/ g = 2 \/ g = 3 \/ g = 6 ->
  sfrbx_run gps_valid gal_ok bds_d2 ephst_init h = Some (st, os) ->
  exists st' os', sfrbx_run gps_valid gal_ok bds_d2 ephst_init (filter (of_sat g p) h) = Some (st', os') /\
    filter (about g p) os' = filter (about g p) os.
Proof. intros Hg. apply isolation. exact Hg. Qed.

(** A complete BeiDou set, however interleaved with other satellites and whatever was received before, yields an ephemeris. *)
Theorem C36_bds_complete_set gps_valid gal_ok bds_d2 h0 st0 os0 h st os p e1 e2 e3 : 1 <= p <= 63 -> bds_d2 p = false ->
  sfrbx_run gps_valid gal_ok bds_d2 ephst_init h0 = Some (st0, os0) ->
  sfrbx_run gps_valid gal_ok bds_d2 st0 h = Some (st, os) ->
  filter (of_sat 3 p) h = [e1; e2; e3] ->
  is_part 3 1 (ev_words e1) -> is_part 3 2 (ev_words e2) -> is_part 3 3 (ev_words e3) ->
  same_issue 3 [ev_words e1; ev_words e2; ev_words e3] ->
  exists o, In o os /\ out_sat o = (3, p).
Proof.
  intros Hp HD H0 H HF P1 P2 P3 SI. eapply (lift_live gps_valid gal_ok bds_d2 3 p h0 st0 os0 h st os); [right; right; left; reflexivity| exact H0| exact H|].
  intros x y o. rewrite HF. cbn [sat_run]. unfold sat_step. cbn [Z.eqb Pos.eqb].
  replace (negb (prn_in cBDS p)) with false by (unfold prn_in, first_prn, prn_count; lia).
  pose proof (bds_live gps_valid bds_d2 p (snd x) _ _ _ HD P1 P2 P3 SI) as L.
  destruct (bds_step bds_d2 p (snd x) (ev_words e1)) as [s1 o1]. cbn [snd] in *.
  destruct (bds_step bds_d2 p s1 (ev_words e2)) as [s2 o2]. cbn [snd] in *. destruct (bds_step bds_d2 p s2 (ev_words e3)) as [s3 o3].
  intros [= _ <-]. destruct o1, o2, o3; cbn [olist app]; try discriminate. destruct L as [L|[L|L]]; contradiction.
Qed.

(** The same for Galileo, when the orbit decoder accepts the five pages. *)
Theorem C36_gal_complete_set gps_valid gal_ok bds_d2 h0 st0 os0 h st os p e1 e2 e3 e4 e5 : 1 <= p <= 36 ->
  sfrbx_run gps_valid gal_ok bds_d2 ephst_init h0 = Some (st0, os0) ->
  sfrbx_run gps_valid gal_ok bds_d2 st0 h = Some (st, os) ->
  filter (of_sat 2 p) h = [e1; e2; e3; e4; e5] ->
  is_part 2 1 (ev_words e1) -> is_part 2 2 (ev_words e2) -> is_part 2 3 (ev_words e3) -> is_part 2 4 (ev_words e4) -> is_part 2 5 (ev_words e5) ->
  same_issue 2 [ev_words e1; ev_words e2; ev_words e3; ev_words e4; ev_words e5] ->
  (forall pages, map bits_of_bytes pages = map gal_page_bits [ev_words e1; ev_words e2; ev_words e3; ev_words e4; ev_words e5] -> gal_ok pages = true) ->
  exists o, In o os /\ out_sat o = (2, p).
Proof.
  intros Hp H0 H HF P1 P2 P3 P4 P5 SI OK. eapply (lift_live gps_valid gal_ok bds_d2 2 p h0 st0 os0 h st os); [right; left; reflexivity| exact H0| exact H|].
  intros x y o. rewrite HF. cbn [sat_run]. unfold sat_step. cbn [Z.eqb Pos.eqb].
  replace (negb (prn_in cGAL p)) with false by (unfold prn_in, first_prn, prn_count; lia).
  assert (OK' : gal_ok (map gal_content [ev_words e1; ev_words e2; ev_words e3; ev_words e4; ev_words e5]) = true).
  { apply OK. cbn [map]. unfold is_part in P1, P2, P3, P4, P5. cbn [Z.eqb Pos.eqb] in *. rewrite !gal_content_bits by lia. reflexivity. }
  pose proof (gal_live gps_valid gal_ok bds_d2 p (snd x) _ _ _ _ _ P1 P2 P3 P4 P5 SI OK') as L.
  destruct (gal_step gal_ok p (snd x) (ev_words e1)) as [s1 o1]. cbn [snd] in *. destruct (gal_step gal_ok p s1 (ev_words e2)) as [s2 o2]. cbn [snd] in *.
  destruct (gal_step gal_ok p s2 (ev_words e3)) as [s3 o3]. cbn [snd] in *. destruct (gal_step gal_ok p s3 (ev_words e4)) as [s4 o4]. cbn [snd] in *.
  destruct (gal_step gal_ok p s4 (ev_words e5)) as [s5 o5].
  intros [= _ <-]. destruct o1, o2, o3, o4, o5; cbn [olist app]; try discriminate. destruct L as [L|[L|[L|[L|L]]]]; contradiction.
Qed.

(** The same for GLONASS, once the leap second is known. *)
Theorem C36_glo_complete_set gps_valid gal_ok bds_d2 h0 st0 os0 h st os p e1 e2 e3 e4 e5 : 1 <= p <= 28 ->
  sfrbx_run gps_valid gal_ok bds_d2 ephst_init h0 = Some (st0, os0) ->
  sfrbx_run gps_valid gal_ok bds_d2 st0 h = Some (st, os) ->
  filter (of_sat 6 p) h = [e1; e2; e3; e4; e5] -> ev_leap e5 = true ->
  is_part 6 1 (ev_words e1) -> is_part 6 2 (ev_words e2) -> is_part 6 3 (ev_words e3) -> is_part 6 4 (ev_words e4) -> is_part 6 5 (ev_words e5) ->
  same_issue 6 [ev_words e1; ev_words e2; ev_words e3; ev_words e4; ev_words e5] ->
  exists o, In o os /\ out_sat o = (6, p).
Proof.
  intros Hp H0 H HF HL P1 P2 P3 P4 P5 SI. eapply (lift_live gps_valid gal_ok bds_d2 6 p h0 st0 os0 h st os); [right; right; right; reflexivity| exact H0| exact H|].
  intros x y o. rewrite HF. cbn [sat_run]. unfold sat_step. cbn [Z.eqb Pos.eqb].
  replace ((p =? 255) || negb (prn_in cGLO p)) with false by (unfold prn_in, first_prn, prn_count; lia).
  apply glo_number_spec in P1, P2, P3, P4, P5; try lia.
  assert (W : forall w, word w 3 / 2 ^ 16 = glo_superframe w) by (intros w; unfold glo_superframe; rewrite Z.shiftr_div_pow2 by lia; reflexivity).
  unfold same_issue in SI. cbn [Z.eqb Pos.eqb] in SI.
  pose proof (SI 1 ltac:(lia)) as I2. pose proof (SI 2 ltac:(lia)) as I3. pose proof (SI 3 ltac:(lia)) as I4. pose proof (SI 4 ltac:(lia)) as I5. rewrite !W in I2, I3, I4, I5. clear SI W.
  change (glo_superframe (ev_words e2) = glo_superframe (ev_words e1)) in I2. change (glo_superframe (ev_words e3) = glo_superframe (ev_words e1)) in I3.
  change (glo_superframe (ev_words e4) = glo_superframe (ev_words e1)) in I4. change (glo_superframe (ev_words e5) = glo_superframe (ev_words e1)) in I5.
  destruct x as [id s].
  destruct (glo_progress gps_valid bds_d2 p (ev_fcn e1) (ev_leap e1) id s _ 1 ltac:(lia) P1) as (s1 & o1 & -> & [G1 | [A1 _]]).
  { destruct o1; [|contradiction]. intros Q.
    repeat match type of Q with context [glo_step ?a ?b ?c ?d ?w] => destruct (glo_step a b c d w) as [[? ?]|]; [|discriminate] end. injection Q as _ <-. discriminate. }
  destruct (glo_progress gps_valid bds_d2 p (ev_fcn e2) (ev_leap e2) (glo_superframe (ev_words e1)) s1 _ 2 ltac:(lia) P2) as (s2 & o2 & -> & [G2 | [A2 K2]]).
  { destruct o2; [|contradiction]. intros Q.
    repeat match type of Q with context [glo_step ?a ?b ?c ?d ?w] => destruct (glo_step a b c d w) as [[? ?]|]; [|discriminate] end. injection Q as _ <-. destruct o1; cbn [olist app]; discriminate. }
  destruct (glo_progress gps_valid bds_d2 p (ev_fcn e3) (ev_leap e3) (glo_superframe (ev_words e2)) s2 _ 3 ltac:(lia) P3) as (s3 & o3 & -> & [G3 | [A3 K3]]).
  { destruct o3; [|contradiction]. intros Q.
    repeat match type of Q with context [glo_step ?a ?b ?c ?d ?w] => destruct (glo_step a b c d w) as [[? ?]|]; [|discriminate] end. injection Q as _ <-. destruct o1, o2; cbn [olist app]; discriminate. }
  destruct (glo_progress gps_valid bds_d2 p (ev_fcn e4) (ev_leap e4) (glo_superframe (ev_words e3)) s3 _ 4 ltac:(lia) P4) as (s4 & o4 & -> & [G4 | [A4 K4]]).
  { destruct o4; [|contradiction]. intros Q.
    repeat match type of Q with context [glo_step ?a ?b ?c ?d ?w] => destruct (glo_step a b c d w) as [[? ?]|]; [|discriminate] end. injection Q as _ <-. destruct o1, o2, o3; cbn [olist app]; discriminate. }
  rewrite HL.
  change (2 - 1) with 1 in *. change (1 - 1) with 0 in *. change (3 - 1) with 2 in *. change (4 - 1) with 3 in *.
  assert (F : exists y5 x5, glo_step p (ev_fcn e5) true (glo_superframe (ev_words e4), s4) (ev_words e5) = Some (y5, Some x5)).
  { apply (glo_final gps_valid bds_d2 p (ev_fcn e5) (glo_superframe (ev_words e4)) s4 (ev_words e1) (ev_words e2) (ev_words e3) (ev_words e4) (ev_words e5) P5).
  - congruence.
  - apply K4; [|lia| congruence]. apply K3; [|lia| congruence]. apply K2; [exact A1| lia| congruence].
  - apply K4; [|lia| congruence]. apply K3; [exact A2|lia| congruence].
  - apply K4; [exact A3|lia| congruence].
  - exact A4. }
  destruct F as (y5 & x5 & F). revert F. destruct (glo_step p (ev_fcn e5) true _ _) as [[? ?]|]; [|discriminate].
  intros [= -> ->]; intros [= _ <-]. destruct o1, o2, o3, o4; cbn [olist app]; discriminate.
Qed.

(** GPS: one set need not suffice (refuted below); any two consecutive sets with the same content do. *)
Theorem C36_gps_two_sets gps_valid gal_ok bds_d2 h0 st0 os0 h st os p e1 e2 e3 e4 e5 : 1 <= p <= 32 ->
  sfrbx_run gps_valid gal_ok bds_d2 ephst_init h0 = Some (st0, os0) ->
  sfrbx_run gps_valid gal_ok bds_d2 st0 h = Some (st, os) ->
  filter (of_sat 0 p) h = [e1; e2; e3; e4; e5] ->
  is_part 0 1 (ev_words e1) -> is_part 0 2 (ev_words e2) -> is_part 0 3 (ev_words e3) -> is_part 0 1 (ev_words e4) -> is_part 0 2 (ev_words e5) ->
  same_issue 0 [ev_words e1; ev_words e2; ev_words e3] ->
  drop 2 (ev_words e4) = drop 2 (ev_words e1) -> drop 2 (ev_words e5) = drop 2 (ev_words e2) ->
  field_of (ev_words e1) 1 13 17 < 100800 -> field_of (ev_words e4) 1 13 17 < 100800 ->
  (forall t, gps_valid p (map (drop 2) [ev_words e1; ev_words e2; ev_words e3]) t = true) ->
  exists o, In o os /\ out_sat o = (0, p).
Proof.
  intros Hp H0 H HF P1 P2 P3 P4 P5 SI D4 D5 T1 T4 V. eapply (lift_live gps_valid gal_ok bds_d2 0 p h0 st0 os0 h st os); [left; reflexivity| exact H0| exact H|].
  intros x y o. rewrite HF. cbn [sat_run]. unfold sat_step. cbn [Z.eqb Pos.eqb].
  replace (negb (prn_in cGPS p)) with false by (unfold prn_in, first_prn, prn_count; lia).
  apply (gps_index_spec _ 0) in P1, P4. apply (gps_index_spec _ 1) in P2, P5. apply (gps_index_spec _ 2) in P3.
  assert (TW : forall w, field_of w 1 13 17 < 100800 -> gps_tow w <> None).
  { intros w Hw. unfold gps_tow. rewrite (fld_spec w 1 13 0x1ffff 17) by (try reflexivity; lia). change (604800 / 6) with 100800.
    destruct (_ =? 0); [discriminate|]. destruct (Z.ltb_spec (field_of w 1 13 17) 100800); [discriminate| lia]. }
  pose proof (gps_live gps_valid bds_d2 p (drop 2 (ev_words e1)) (drop 2 (ev_words e2)) (drop 2 (ev_words e3)) V) as L.
  assert (SI' : gps_iod 0 (ev_words e1) = gps_iod 1 (ev_words e2) /\ gps_iod 1 (ev_words e2) = gps_iod 2 (ev_words e3)).
  { unfold same_issue in SI. cbn [Z.eqb] in SI. rewrite <- !(fld_spec _ _ 22 0xFF 8) in SI by (try reflexivity; lia). exact SI. }
  specialize (L ltac:(intros a b c (_ & Da & _) (_ & Db & _) (_ & Dc & _); cbn [Z.eqb Pos.eqb] in *;
    rewrite (gps_iod_content gps_valid bds_d2 0 _ _ Da), (gps_iod_content gps_valid bds_d2 1 _ _ Db), (gps_iod_content gps_valid bds_d2 2 _ _ Dc); exact SI')).
  specialize (L (snd x) (ev_words e1) (ev_words e2) (ev_words e3) (ev_words e4) (ev_words e5)).
  unfold in_set in L. cbn [Z.eqb Pos.eqb] in L.
  assert (N1 : 1 = 0 -> gps_tow (ev_words e2) <> None) by (intros Q; discriminate Q).
  assert (N2 : 2 = 0 -> gps_tow (ev_words e3) <> None) by (intros Q; discriminate Q).
  assert (N3 : 1 = 0 -> gps_tow (ev_words e5) <> None) by (intros Q; discriminate Q).
  pose proof (TW _ T1) as T1'. pose proof (TW _ T4) as T4'. clear V TW T1 T4 H H0 HF.
  assert (L' := L (conj P1 (conj eq_refl (fun _ => T1')))). clear L; rename L' into L.
  assert (L' := L (conj P2 (conj eq_refl N1))). clear L; rename L' into L.
  assert (L' := L (conj P3 (conj eq_refl N2))). clear L; rename L' into L.
  assert (L' := L (conj P4 (conj D4 (fun _ => T4')))). clear L; rename L' into L.
  assert (L' := L (conj P5 (conj D5 N3))). clear L; rename L' into L.
  destruct (gps_step gps_valid p (snd x) (ev_words e1)) as [s1 o1]. cbn [snd] in *. destruct (gps_step gps_valid p s1 (ev_words e2)) as [s2 o2]. cbn [snd] in *.
  destruct (gps_step gps_valid p s2 (ev_words e3)) as [s3 o3]. cbn [snd] in *. destruct (gps_step gps_valid p s3 (ev_words e4)) as [s4 o4]. cbn [snd] in *.
  destruct (gps_step gps_valid p s4 (ev_words e5)) as [s5 o5].
  intros [= _ <-]. destruct o1, o2, o3, o4, o5; cbn [olist app]; try discriminate. destruct L as [L|[L|[L|[L|L]]]]; contradiction.
Qed.

(** ** concrete sets *)
Definition gps_sf (j iod tow c : Z) : list Z :=
  [Z.shiftl 0x8b 22; Z.shiftl tow 13 + Z.shiftl j 8] ++ map (fun k => (if k =? (if j =? 1 then 7 else if j =? 2 then 2 else 9) then Z.shiftl iod 22 else 0) + c + k) [2; 3; 4; 5; 6; 7; 8; 9].
Definition ev (g p : Z) (ws : list Z) : sfevent := mk_sfevent g p 3 ws true 100000.
Definition yes3 : Z -> list (list Z) -> Z -> bool := fun _ _ _ => true.
Definition yes1 : list (list Z) -> bool := fun _ => true.
Definition no1 : Z -> bool := fun _ => false.
Example C36_gps_example :
  sfrbx_run yes3 yes1 no1 ephst_init [ev 0 7 (gps_sf 1 0x55 100 5); ev 0 9 (gps_sf 1 0x33 100 5); ev 0 7 (gps_sf 2 0x55 101 6); ev 0 7 (gps_sf 3 0x55 102 7)]
  = Some (fst (match sfrbx_run yes3 yes1 no1 ephst_init [ev 0 7 (gps_sf 1 0x55 100 5); ev 0 9 (gps_sf 1 0x33 100 5); ev 0 7 (gps_sf 2 0x55 101 6); ev 0 7 (gps_sf 3 0x55 102 7)] with Some x => x | None => (ephst_init, []) end),
     [EphGps 7 594 (map (drop 2) [gps_sf 1 0x55 100 5; gps_sf 2 0x55 101 6; gps_sf 3 0x55 102 7])]).
Proof. vm_compute. reflexivity. Qed.
Definition outs (h : list sfevent) : option (list eph_out) := option_map snd (sfrbx_run yes3 yes1 no1 ephst_init h).
(** an issue change between subframes: nothing is emitted from the mixture *)
Example C36_gps_mixed_example : outs [ev 0 7 (gps_sf 1 0x55 100 5); ev 0 7 (gps_sf 2 0x55 101 6); ev 0 7 (gps_sf 3 0x56 102 7)] = Some [].
Proof. vm_compute. reflexivity. Qed.

(** The claim "after any history, a complete GPS set 1, 2, 3 of one issue yields an ephemeris" is false of the code:
    a subframe 3 of an older issue makes the fresh subframe 1 be dropped. *)
Theorem C36_gps_one_set_refuted : exists h0 st0 e1 e2 e3,
  sfrbx_run yes3 yes1 no1 ephst_init h0 = Some (st0, []) /\
  is_part 0 1 (ev_words e1) /\ is_part 0 2 (ev_words e2) /\ is_part 0 3 (ev_words e3) /\
  from_sat 0 7 e1 /\ from_sat 0 7 e2 /\ from_sat 0 7 e3 /\
  same_issue 0 [ev_words e1; ev_words e2; ev_words e3] /\ field_of (ev_words e1) 1 13 17 < 100800 /\
  exists st, sfrbx_run yes3 yes1 no1 st0 [e1; e2; e3] = Some (st, []).
Proof.
  exists [ev 0 7 (gps_sf 3 0x54 97 7)]. eexists. exists (ev 0 7 (gps_sf 1 0x55 100 5)), (ev 0 7 (gps_sf 2 0x55 101 6)), (ev 0 7 (gps_sf 3 0x55 102 7)).
  split; [reflexivity|]. split; [vm_compute; intuition congruence|]. split; [vm_compute; intuition congruence|]. split; [vm_compute; intuition congruence|].
  split; [split; reflexivity|]. split; [split; reflexivity|]. split; [split; reflexivity|].
  split; [vm_compute; split; reflexivity|]. split; [vm_compute; reflexivity|]. eexists. reflexivity.
Qed.

(** A GLONASS string numbered 0 (any GLONASS satellite in range, not idle) is undefined behaviour: string[-1] is written. *)
Theorem C36_glo_string_zero_refuted : forall gps_valid gal_ok bds_d2 st e, ev_gnss e = 6 -> 1 <= ev_prn e <= 28 -> len (ev_words e) = 4 ->
  field_of (ev_words e) 0 27 5 = 0 -> sfrbx_step gps_valid gal_ok bds_d2 st e = None.
Proof.
  intros gv gk bd st e Hg Hp HL HF. unfold sfrbx_step. rewrite Hg. cbn [Z.eqb Pos.eqb].
  replace ((ev_prn e =? 255) || negb (prn_in cGLO (ev_prn e))) with false by (unfold prn_in, first_prn, prn_count; lia).
  unfold glo_step, glo_number. rewrite (fld_spec _ 0 31 1 1) by (try reflexivity; lia). rewrite (fld_spec _ 0 27 0xF 4) by (try reflexivity; lia).
  assert (A : field_of (ev_words e) 0 31 1 = 0 /\ field_of (ev_words e) 0 27 4 = 0).
  { unfold field_of in *. change (2 ^ 31) with (2 ^ 27 * 2 ^ 4). rewrite <- Z.div_div by lia. revert HF. generalize (word (ev_words e) 0 / 2 ^ 27). intros z.
    change (2 ^ 5) with 32. change (2 ^ 4) with 16. change (2 ^ 1) with 2. intros. split; lia. }
  destruct A as [-> ->]. replace (len (ev_words e) =? 4) with true by lia. cbn [negb Z.eqb Z.ltb Z.compare].
  destruct (es_glo st (ev_prn e)) as [id s]. destruct (negb _); reflexivity.
Qed.
Example C36_glo_string_zero_example : len [0; 0; 0; 0] = 4 /\ field_of [0; 0; 0; 0] 0 27 5 = 0. Proof. split; reflexivity. Qed.
(** Every other history is free of undefined behaviour. *)
Theorem C36_no_undefined_behaviour gps_valid gal_ok bds_d2 st e :
  (ev_gnss e = 6 -> len (ev_words e) = 4 -> field_of (ev_words e) 0 31 1 = 0 -> field_of (ev_words e) 0 27 4 <> 0) ->
  sfrbx_step gps_valid gal_ok bds_d2 st e <> None.
Proof.
  intros H. unfold sfrbx_step.
  destruct (ev_gnss e =? 0); [destruct (negb _); [discriminate|]; destruct (gps_step _ _ _ _); discriminate|].
  destruct (ev_gnss e =? 3); [destruct (negb _); [discriminate|]; destruct (bds_step _ _ _ _); discriminate|].
  destruct (ev_gnss e =? 2); [destruct (negb _); [discriminate|]; destruct (gal_step _ _ _ _); discriminate|].
  destruct (ev_gnss e =? 6) eqn:E6.
  - destruct (_ || _); [discriminate|]. unfold glo_step. destruct (glo_number (ev_words e)) as [n|] eqn:EN; [|discriminate].
    destruct (es_glo st (ev_prn e)) as [id s].
    assert (NZ : n <> 0).
    { unfold glo_number in EN. rewrite (fld_spec _ 0 31 1 1) in EN by (try reflexivity; lia). rewrite (fld_spec _ 0 27 0xF 4) in EN by (try reflexivity; lia).
      destruct (negb (len (ev_words e) =? 4)) eqn:Q1; [discriminate|]. destruct (negb (field_of (ev_words e) 0 31 1 =? 0)) eqn:Q2; [discriminate|].
      destruct (5 <? field_of (ev_words e) 0 27 4); [discriminate|]. injection EN as <-. apply H; lia. }
    destruct (if negb (id =? glo_superframe (ev_words e)) then (glo_superframe (ev_words e), no_slots) else (id, s)) as [id1 s1].
    replace (n =? 0) with false by lia. cbv zeta. set (s2 := put s1 (n - 1) _). clearbody s2.
    destruct (s2 0), (s2 1), (s2 2), (s2 3), (s2 4), (ev_leap e); discriminate.
  - destruct (ev_gnss e =? 1); [destruct (sbas_tow (ev_tow e)); discriminate| discriminate].
Qed.

(** Galileo word type 5 carries no issue number and is not tied to the others: an ephemeris of issue 2 can contain a
    page 5 received while issue 1 was being transmitted. *)
Definition gal_pg (j iod c : Z) : list Z := [Z.shiftl j 24 + Z.shiftl iod 14 + c; c; c; c; 2 ^ 31 + c; 0; 0; 0; 0].
Theorem C36_gal_page5_not_tied_refuted :
  outs [ev 2 11 (gal_pg 2 1 0); ev 2 11 (gal_pg 5 0 77); ev 2 11 (gal_pg 1 2 0); ev 2 11 (gal_pg 2 2 0); ev 2 11 (gal_pg 3 2 0); ev 2 11 (gal_pg 4 2 0)]
  = Some [EphGal 11 (map gal_content [gal_pg 1 2 0; gal_pg 2 2 0; gal_pg 3 2 0; gal_pg 4 2 0; gal_pg 5 0 77])].
Proof. vm_compute. reflexivity. Qed.
(** Galileo pages of 8 words, which the interface documents as sufficient (sz >= 8), are ignored. *)
Theorem C36_gal_eight_words_ignored_refuted gps_valid gal_ok bds_d2 st e : ev_gnss e = 2 -> len (ev_words e) = 8 ->
  exists st', sfrbx_step gps_valid gal_ok bds_d2 st e = Some (st', None) /\ forall p j, es_gal st' p j = es_gal st p j.
Proof.
  intros Hg HL. unfold sfrbx_step. rewrite Hg. cbn [Z.eqb Pos.eqb]. destruct (negb (prn_in cGAL (ev_prn e))); [exists st; auto|].
  unfold gal_step, gal_index. rewrite HL. cbn [Z.leb Z.compare Pos.compare Pos.compare_cont]. eexists. split; [reflexivity|]. intros p j. cbn [es_gal]. unfold setp. destruct (Z.eqb_spec p (ev_prn e)); [subst; reflexivity| reflexivity].
Qed.

Definition bds_sf (j sow c : Z) : list Z := [Z.shiftl j 12 + Z.shiftl (sow / 4096) 4; Z.shiftl (sow mod 4096) 18] ++ map (fun k => c + k) [1; 2; 3; 4; 5; 6; 7; 8].
Example C36_bds_example : outs [ev 3 20 (bds_sf 1 345600 1); ev 3 20 (bds_sf 2 345606 2); ev 3 21 (bds_sf 2 345606 9); ev 3 20 (bds_sf 3 345612 3)]
  = Some [EphBds 20 [bds_sf 1 345600 1; bds_sf 2 345606 2; bds_sf 3 345612 3]].
Proof. vm_compute. reflexivity. Qed.
Example C36_bds_out_of_sequence_example : outs [ev 3 20 (bds_sf 1 345600 1); ev 3 20 (bds_sf 2 345606 2); ev 3 20 (bds_sf 3 345642 3)] = Some [].
Proof. vm_compute. reflexivity. Qed.
Definition glo_str (n id c : Z) : list Z := [Z.shiftl n 27 + c; c; c; Z.shiftl id 16].
Example C36_glo_example : outs [ev 6 4 (glo_str 1 9 1); ev 6 4 (glo_str 2 9 2); ev 6 4 (glo_str 3 9 3); ev 6 4 (glo_str 4 9 4); ev 6 4 (glo_str 5 9 5)]
  = Some [EphGlo 4 4 (map glo_content [glo_str 1 9 1; glo_str 2 9 2; glo_str 3 9 3; glo_str 4 9 4; glo_str 5 9 5])].
Proof. vm_compute. reflexivity. Qed.
Example C36_glo_superframe_change_example : outs [ev 6 4 (glo_str 1 9 1); ev 6 4 (glo_str 2 9 2); ev 6 4 (glo_str 3 9 3); ev 6 4 (glo_str 4 9 4); ev 6 4 (glo_str 5 10 5)] = Some [].
Proof. vm_compute. reflexivity. Qed.

(** ** C37 *)
(** An SBAS message is forwarded exactly when the satellite is in range, the receiver time is known, and the 250-bit
    message has one of the three preambles and is divisible by the CRC generator; what is forwarded is its type and
    its 212 data bits. *)
Theorem C37_forwarded_iff_intact gps_valid gal_ok bds_d2 st e st' o : ev_gnss e = 1 ->
  (sfrbx_step gps_valid gal_ok bds_d2 st e = Some (st', Some o) <->
   st' = st /\ ev_tow e <= 604800000 /\ 120 <= ev_prn e <= 158 /\ (len (ev_words e) = 8 \/ len (ev_words e) = 9) /\ sbas_intact (ev_words e) /\
   o = SbasRaw (ev_prn e) ((ev_tow e - 1120) mod 2 ^ 32)
         (val_be (sub (word_bits (take 8 (ev_words e))) 8 6)) (sub (word_bits (take 8 (ev_words e))) 14 212)).
Proof.
  intros Hg. unfold sfrbx_step. rewrite Hg. cbn [Z.eqb Pos.eqb]. unfold sbas_tow.
  destruct (604800000 <? ev_tow e) eqn:ET; [split; [discriminate| lia]|].
  destruct (negb (prn_in cSBAS (ev_prn e))) eqn:EP.
  - split; [discriminate|]. unfold prn_in, first_prn, prn_count in EP. lia.
  - split.
    + intros H. assert (st' = st) by congruence. assert (Q : sbas_step (ev_prn e) ((ev_tow e - 1120) mod 2 ^ 32) (ev_words e) = Some o) by congruence.
      apply sbas_step_spec in Q. destruct Q as (A & B & C). unfold prn_in, first_prn, prn_count in EP. repeat split; try assumption; try lia; apply B.
    + intros (-> & _ & _ & A & B & C). f_equal. f_equal. apply sbas_step_spec. auto.
Qed.
(** no other message type produces SBAS output *)
Theorem C37_only_from_sbas gps_valid gal_ok bds_d2 h st os e st' o : sfrbx_run gps_valid gal_ok bds_d2 ephst_init h = Some (st, os) ->
  sfrbx_step gps_valid gal_ok bds_d2 st e = Some (st', Some o) -> fst (out_sat o) = 1 -> ev_gnss e = 1.
Proof.
  intros HR HS HO. unfold sfrbx_step in HS.
  destruct (ev_gnss e =? 0).
  { destruct (negb _); [discriminate|]. destruct (gps_step _ _ _ _) as [s o1] eqn:E. apply (gps_step_outcome gps_valid bds_d2) in E. destruct E as [_ E]. injection HS as _ ->.
    destruct (E o eq_refl) as (a & b & c & t & -> & _). discriminate. }
  destruct (ev_gnss e =? 3).
  { destruct (negb _); [discriminate|]. destruct (bds_step _ _ _ _) as [s o1] eqn:E. apply (bds_step_outcome gps_valid bds_d2) in E; [|apply (run_side _ _ _ _ _ _ HR)]. destruct E as (_ & _ & E). injection HS as _ ->.
    destruct (E o eq_refl) as (a & b & c & -> & _). discriminate. }
  destruct (ev_gnss e =? 2).
  { destruct (negb _); [discriminate|]. destruct (gal_step _ _ _ _) as [s o1] eqn:E. apply (gal_step_outcome gps_valid gal_ok bds_d2) in E; [|apply (run_side _ _ _ _ _ _ HR)]. destruct E as (_ & _ & E). injection HS as _ ->.
    destruct (E o eq_refl) as (a & b & c & d & f & -> & _). discriminate. }
  destruct (ev_gnss e =? 6).
  { destruct (_ || _); [discriminate|]. destruct (glo_step _ _ _ _ _) as [[s o1]|] eqn:E; [|discriminate]. apply (glo_step_outcome gps_valid bds_d2) in E; [|apply (run_side _ _ _ _ _ _ HR)]. destruct E as (_ & _ & E). injection HS as _ ->.
    destruct (E o eq_refl) as (a & b & c & d & f & -> & _). discriminate. }
  destruct (ev_gnss e =? 1) eqn:E1; [lia| discriminate].
Qed.
(** flipping any single bit of the 250 of an intact message makes it be rejected *)
Theorem C37_single_bit_error_detected : forall l k, gf2_rem l = 0 -> 0 <= k < len l -> gf2_rem (take k l ++ negb (znth false k l) :: drop (k + 1) l) <> 0.
Proof.
  intros l k H Hk.
  assert (S : l = take k l ++ znth false k l :: drop (k + 1) l).
  { rewrite <- (take_drop k l) at 1. f_equal. unfold drop, znth. replace (Z.to_nat (k + 1)) with (S (Z.to_nat k)) by lia.
    assert (L : (Z.to_nat k < length l)%nat) by (unfold len in Hk; lia). revert L. generalize (Z.to_nat k). clear. intros n. revert l. induction n; intros [|a l] L; cbn in *; try lia; [reflexivity| apply IHn; lia]. }
  set (a := take k l) in *. set (b := znth false k l) in *. set (c := drop (k + 1) l) in *. clearbody a b c. subst l. clear Hk.
  unfold gf2_rem in *. rewrite fold_left_app in *. cbn [fold_left] in *.
  pose proof (rem_small a 0 small0) as SR. set (r := fold_left gf2_step a 0) in *. clearbody r. clear a.
  (* flipping the bit adds 1 to the remainder there; the remaining steps are injective *)
  assert (F : gf2_step r (negb b) = Z.lxor (gf2_step r b) 1).
  { pose proof (gf2_linear r 0 b true SR small0) as L. rewrite Z.lxor_0_r in L. replace (xorb b true) with (negb b) in L by (destruct b; reflexivity). exact L. }
  rewrite F. pose proof (gf2_small r b SR) as SB. set (q := gf2_step r b) in *. clearbody q. clear F SR r.
  rewrite Z.lxor_comm, fold_split by (try assumption; apply small1). rewrite H, Z.lxor_0_r. rewrite fold_iter. clear H.
  generalize (length c). intros n E.
  assert (I : forall n r, small r -> r <> 0 -> Nat.iter n (fun r => gf2_step r false) r <> 0).
  { clear. induction n as [|n IH]; intros r SR N; [exact N|]. intros Q. apply (IH r SR N).
    change (Nat.iter (S n) (fun r => gf2_step r false) r) with (gf2_step (Nat.iter n (fun r => gf2_step r false) r) false) in Q.
    pose proof (iter_small n r SR) as T. set (t := Nat.iter n _ r) in *. clearbody t. rewrite gf2_lstep in Q by exact T. unfold lstep in Q. cbn [Z.b2z] in Q. rewrite Z.lxor_0_r in Q.
    apply Z.lxor_eq in Q. destruct (Z.testbit t 23); [exfalso; unfold G in Q; lia| lia]. }
  exact (I n 1 small1 ltac:(lia) E).
Qed.

(** an intact message: preamble 0x53, type 0, all data zero, and its CRC *)
Definition sbas_ok : list Z := let d := bits_be 8 0x53 ++ repeat false 218 in
  let bits := d ++ bits_be 24 (crc24q_bits d) ++ repeat false 6 in
  map (fun k => val_be (sub bits (32 * k) 32)) [0; 1; 2; 3; 4; 5; 6; 7].
Example C37_example : sbas_intact sbas_ok /\ sfrbx_step yes3 yes1 no1 ephst_init (mk_sfevent 1 133 0 sbas_ok false 500000) =
  Some (ephst_init, Some (SbasRaw 133 498880 0 (repeat false 212))).
Proof. split; [split; [left|]; vm_compute; reflexivity| vm_compute; reflexivity]. Qed.
(** The transmission time attached to an SBAS message is a time of week only from 1.12 s into the week on: before that it
    wraps modulo 2^32 because the correction "if (tow_ms < 0.0)" tests an unsigned variable. *)
Theorem C37_time_partial gps_valid gal_ok bds_d2 st e st' prn tow mt d : ev_gnss e = 1 -> 1120 <= ev_tow e ->
  sfrbx_step gps_valid gal_ok bds_d2 st e = Some (st', Some (SbasRaw prn tow mt d)) -> tow = ev_tow e - 1120 /\ 0 <= tow < 604800000.
Proof.
  intros Hg Ht H. apply C37_forwarded_iff_intact in H; [|exact Hg]. destruct H as (_ & HT & _ & _ & _ & Q). 
  assert (T : tow = (ev_tow e - 1120) mod 2 ^ 32) by congruence. rewrite Z.mod_small in T by (change (2 ^ 32) with 4294967296; lia). lia.
Qed.
Theorem C37_time_refuted : exists st' tow mt d, sfrbx_step yes3 yes1 no1 ephst_init (mk_sfevent 1 133 0 sbas_ok false 1000) = Some (st', Some (SbasRaw 133 tow mt d)) /\ 604800000 <= tow.
Proof. do 4 eexists. split; [vm_compute; reflexivity| vm_compute; discriminate]. Qed.

Print Assumptions C36_assembled_from_one_data_set.
Print Assumptions C36_at_most_once_per_part.
Print Assumptions C36_satellites_do_not_interfere.
Print Assumptions C36_bds_complete_set.
Print Assumptions C36_gal_complete_set.
Print Assumptions C36_glo_complete_set.
Print Assumptions C36_gps_two_sets.
Print Assumptions C36_gps_one_set_refuted.
Print Assumptions C36_glo_string_zero_refuted.
Print Assumptions C36_no_undefined_behaviour.
Print Assumptions C36_gal_page5_not_tied_refuted.
Print Assumptions C36_gal_eight_words_ignored_refuted.
Print Assumptions C37_forwarded_iff_intact.
Print Assumptions C37_only_from_sbas.
Print Assumptions C37_single_bit_error_detected.
Print Assumptions C37_time_partial.
Print Assumptions C37_time_refuted.
