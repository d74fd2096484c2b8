(** Lemmas for C75: the frames of an observation epoch and their total length. *)
From Coq Require Import Permutation.
From Verif Require Import Base Bitstring Bits_model Bits_proofs Bitstream_model Double_model RtcmFraming_model RtcmFraming_spec RtcmMsm_model Signals_model Sbp2Rtcm_model Sbp2Msm_model Sbp2Msm_spec MsmVal_model MsmVal_spec
  RtcmFrameOut_model RtcmFrameOut_proofs StaConv_spec StaConv_wire_proofs Tunnel_model Conv_model Properties_msmval.

Lemma conv_map_ok : fcn_map_ok conv_fcns.
Proof. split; [reflexivity|]. apply Forall_forall. intros x Hx. apply repeat_spec in Hx. right. exact Hx. Qed.

(** the observations of the constellations present add up *)
Lemma obs_split code_of os : Forall (fun o => exists c i j, c <> cSBAS /\ placed code_of c o i j) os ->
  fold_right Z.add 0 (map (fun c => len (obs_of code_of c os)) [cGPS; cGLO; cBDS; cQZS; cGAL]) <= len os.
Proof.
  induction os as [|o os IH]; intros F; [reflexivity|]. inversion F as [|? ? (c & i & j & NS & P & _) F']; subst. specialize (IH F'). rewrite len_cons.
  cbn [map fold_right] in *. unfold obs_of in *. cbn [filter]. unfold sig_of in *. rewrite P. destruct c; cbn [cons_eqb]; rewrite ?len_cons; try lia.
Qed.
Lemma no_sbas code_of os : Forall (fun o => exists c i j, c <> cSBAS /\ placed code_of c o i j) os -> obs_of code_of cSBAS os = [].
Proof.
  induction os as [|o os IH]; intros F; [reflexivity|]. inversion F as [|? ? (c & i & j & NS & P & _) F']; subst. unfold obs_of in *. cbn [filter]. unfold sig_of in *. rewrite P.
  destruct c; cbn [cons_eqb]; try (apply IH; exact F'). contradiction.
Qed.
Lemma frames_total code_of os (fs : list (list Z)) : Forall (fun o => exists c i j, c <> cSBAS /\ placed code_of c o i j) os ->
  Forall2 (fun c f => 8 * len f <= 288 + 99 * len (obs_of code_of c os)) (present code_of os) fs -> 8 * len (concat fs) <= 1440 + 99 * len os.
Proof.
  intros F G. pose proof (obs_split code_of os F) as S. pose proof (no_sbas code_of os F) as NS. cbn [map fold_right] in S.
  assert (T : forall cs, Forall2 (fun c f => 8 * len f <= 288 + 99 * len (obs_of code_of c os)) (filter (fun c => negb (len (obs_of code_of c os) =? 0)) cs) fs ->
     8 * len (concat fs) <= fold_right Z.add 0 (map (fun c => if len (obs_of code_of c os) =? 0 then 0 else 288 + 99 * len (obs_of code_of c os)) cs)).
  { clear. intros cs. revert fs. induction cs as [|c cs IH]; intros fs H; cbn [filter map fold_right] in *; [inversion H; subst; cbn [concat]; discriminate|].
    destruct (len (obs_of code_of c os) =? 0) eqn:E; cbn [negb] in H; [specialize (IH _ H); lia|].
    inversion H as [|? f ? fs' H1 H2]; subst. cbn [concat]. rewrite len_app. specialize (IH _ H2). lia. }
  specialize (T _ G). cbn [map fold_right] in T. rewrite NS in T. change (len (@nil pobs)) with 0 in T. cbn [Z.eqb] in T.
  pose proof (len_nonneg (obs_of code_of cGPS os)). pose proof (len_nonneg (obs_of code_of cGLO os)). pose proof (len_nonneg (obs_of code_of cBDS os)). pose proof (len_nonneg (obs_of code_of cQZS os)). pose proof (len_nonneg (obs_of code_of cGAL os)).
  repeat match type of T with context [if ?x =? 0 then _ else _] => destruct (Z.eqb_spec x 0) end; lia.
Qed.

Lemma Forall2_weak {A B} (P Q : A -> B -> Prop) l r : (forall a b, P a b -> Q a b) -> Forall2 P l r -> Forall2 Q l r.
Proof. intros I. induction 1; constructor; auto. Qed.
Lemma all_ok_map {A B} (f : A -> res B) l r : Forall2 (fun a b => f a = Ok b) l r -> all_ok (map f l) = Ok r.
Proof. induction 1 as [|a b l r E F IH]; [reflexivity|]. cbn [map all_ok]. rewrite E. cbn [bind]. rewrite IH. reflexivity. Qed.

(** the frames of an epoch *)
Lemma epoch_ok_frames carrier code_of num_of rc leap e :
  carriers_ok carrier -> (forall k, code_of (num_of k) = k) -> fcn_map_ok (rc_fcns rc) -> maps_agree conv_fcns (rc_fcns rc) -> -128 <= leap <= 127 -> 0 <= oh_tow (e_hdr e) < 604800000 ->
  epoch_ok code_of (e_obs e) -> Forall obs_in_range (e_obs e) ->
  exists fs, epoch_frames carrier code_of (conv_cfg leap) e = Ok fs /\ Forall valid_frame fs /\ 8 * len (concat fs) <= 1440 + 99 * len (e_obs e) /\
    Forall2 (fun c f => exists dm, run_dec (decode_msm_d 5) (payload_of f) = Ok dm /\
      exists ord opts, Permutation ord (obs_of code_of c (e_obs e)) /\
        Forall2 (outcome carrier code_of 5 conv_fcns (rc_fcns rc) (rc_masked rc) (e_obs e)) ord opts /\
        to_sbp carrier num_of rc dm = Some (flat_map (fun r => match r with Some o => [o] | None => [] end) opts)) (present code_of (e_obs e)) fs.
Proof.
  intros CAR NUM FM AG LEAP TOW OK RG.
  destruct (C65_obs_to_msm_and_back carrier code_of num_of conv_fcns rc (conv_cfg leap) e leap CAR NUM conv_map_ok FM AG (or_intror eq_refl) eq_refl LEAP TOW OK RG) as (ms & EM & F).
  assert (X : exists fs, Forall2 (fun m f => msm_frame carrier code_of (conv_cfg leap) m = Ok f) ms fs /\ Forall valid_frame fs /\
    Forall2 (fun c f => 8 * len f <= 288 + 99 * len (obs_of code_of c (e_obs e)) /\ exists dm, run_dec (decode_msm_d 5) (payload_of f) = Ok dm /\
      exists ord opts, Permutation ord (obs_of code_of c (e_obs e)) /\
        Forall2 (outcome carrier code_of 5 conv_fcns (rc_fcns rc) (rc_masked rc) (e_obs e)) ord opts /\
        to_sbp carrier num_of rc dm = Some (flat_map (fun r => match r with Some o => [o] | None => [] end) opts)) (present code_of (e_obs e)) fs).
  { clear EM. induction F as [|c m cs ms (dm & V & H) F (fs & A & B & C)]; [exists []; repeat split; constructor|].
    destruct (H (repeat 0 1020)) as (b & n & dm' & EN & N1 & N2 & LB & BB & DE & REST); [apply Forall_forall; intros x Hx; apply repeat_spec in Hx; subst x; split; [discriminate|reflexivity]|discriminate|].
    assert (LT : len (take n b) = n) by (rewrite len_take, LB; change (len (repeat 0 1020)) with 1020; lia).
    destruct (encode_frame_valid (fun _ => (b, n)) b (take n b)) as (f & b1 & b2 & cc & EF & VF & SH & LC); [rewrite LT; reflexivity|rewrite LB; reflexivity|exact BB|rewrite LT; reflexivity|rewrite LT; lia|].
    exists (f :: fs). split; [constructor; [|exact A]|split; [constructor; [exact VF|exact B]|constructor; [|exact C]]].
    - unfold msm_frame. rewrite V. change (drop 3 (repeat 0 (Z.to_nat FRAME_ARRAY_LEN))) with (repeat 0 1020%nat). change (c_type (conv_cfg leap)) with 5 in EN |- *. rewrite EN. cbn [bind]. exact EF.
    - assert (LF : len f = n + 6) by (rewrite SH, !len_cons, len_app, LT, LC; ring). split; [lia|]. exists dm'. split; [|exact REST].
      assert (PF : payload_of f = take n b). { unfold payload_of, sub. rewrite LF. replace (n + 6 - 6) with n by ring. rewrite SH. change (drop 3 (211 :: b1 :: b2 :: take n b ++ cc)) with (take n b ++ cc). rewrite <- LT at 1. apply take_app_exact. }
      rewrite PF. exact DE. }
  destruct X as (fs & A & B & C). exists fs. split; [unfold epoch_frames; rewrite EM; apply all_ok_map; exact A|]. split; [exact B|]. split.
  - destruct OK as (PL & _ & _). apply (frames_total code_of); [exact PL|]. eapply Forall2_weak; [|exact C]. intros c f (Q & _). exact Q.
  - eapply Forall2_weak; [|exact C]. intros c f (_ & Q). exact Q.
Qed.
