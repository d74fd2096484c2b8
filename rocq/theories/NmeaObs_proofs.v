(** Lemmas for C45 (what the sentences depend on) and C50 (observation sequences in the NMEA converter). *)
From Coq Require Import Reals Lra Sorted.
From Flocq Require Import Core IEEE754.Binary IEEE754.Bits.
From Verif Require Import Base Double_model Double_proofs Esf_proofs Signals_model RtcmMsm_model RtcmLegacy_model Sbp2Msm_model Sbp2Rtcm_model Sbp2Rtcm_proofs
  NmeaText_model NmeaTime_model Nmea_model NmeaState_model NmeaState_spec NmeaState_proofs.
Open Scope Z_scope.

Ltac opts := repeat match goal with |- context [match ?x with Some _ => _ | None => _ end] => destruct x; try discriminate end.
Section Frame.
Variable code_of : Z -> code.
Variable ff : Z -> Z -> dbl -> list Z.
Variable geoid : dbl -> dbl -> dbl.
Variable knots kmh course : Z -> Z -> dbl.
Variable gst_vals : Z -> list dbl.
Variable pubx_acc : Z -> dbl * dbl.
Variable heading_float mm_down : Z -> dbl.
Let snd_ := send code_of ff geoid knots kmh course gst_vals pubx_acc heading_float mm_down.
Lemma send_frame k s s' txt : snd_ k s = Some (s', txt) -> exists c, s' = with_cog s c.
Proof.
  assert (P : forall o, pure s o = Some (s', txt) -> exists c, s' = with_cog s c).
  { intros [l|]; cbn [pure]; [|discriminate]. intros E. exists (n_last_cog s). rewrite with_cog_id. congruence. }
  unfold snd_, send. destruct k; [apply P| | |apply P|apply P|apply P|apply P|apply P|apply P| |apply P].
  - unfold send_rmc. destruct (calc_cog _ _ _ _) as [cog last]. opts. intros E. exists last. congruence.
  - unfold send_vtg. destruct (calc_cog _ _ _ _) as [cog last]. opts. intros E. exists last. congruence.
  - unfold send_pubx. destruct (calc_cog _ _ _ _) as [cog last]. opts. intros E. exists last. congruence.
Qed.
Lemma pure_map s o : option_map snd (pure s o) = o. Proof. destruct o; reflexivity. Qed.
Lemma send_agree k s t : n_act s <> mBEST -> agree k s t -> option_map snd (snd_ k s) = option_map snd (snd_ k t).
Proof.
  intros NB (A & SL & SI & B & C1 & C2 & C3). unfold snd_, send.
  assert (G : forall id (m : bool), In (if m then translate id_map (n_act s) id else id) (sources (n_act s) k) -> msg_get s id m = msg_get t id m).
  { intros id m I. unfold msg_get. rewrite <- A. apply SL. exact I. }
  assert (CC : forall v, calc_cog knots course s v = calc_cog knots course t v) by (intros; unfold calc_cog; rewrite C2, C3; reflexivity).
  clear SL. destruct (n_act s) eqn:EA; [contradiction| |]; symmetry in A;
  destruct k; rewrite ?pure_map; cbn [sources sources_gnss sources_fused] in G; cbn [translate id_map mode_eqb] in G;
    try pose proof (G sPOS true) as G1; try pose proof (G sVEL true) as G2; try pose proof (G sUTC_TIME true) as G3; pose proof (G sDOPS false) as G4;
    pose proof (G sSOLN false) as G5; pose proof (G sAGE false) as G6; pose proof (G sHDG false) as G7; pose proof (G sORIENT false) as G8; pose proof (G sAZEL false) as G9;
    pose proof (G sMEAS false) as G10; clear G; cbn -[msg_get] in G1, G2, G3, G4, G5, G6, G7, G8, G9, G10;
    unfold send_gga, send_rmc, send_vtg, send_hdt, send_gll, send_zda, send_gsa, send_gst, send_gsv, send_pubx, send_ths; rewrite ?EA, ?A; cbn [mode_eqb];
    try rewrite G1 by tauto; try rewrite G2 by tauto; try rewrite G3 by tauto; try rewrite G4 by tauto; try rewrite G5 by tauto; try rewrite G6 by tauto;
    try rewrite G7 by tauto; try rewrite G8 by tauto; try rewrite G9 by tauto; try rewrite G10 by tauto; rewrite ?SI, ?B, ?C1, ?CC; try reflexivity.
  all: try destruct (calc_cog _ _ _ _) as [cog last].
  all: repeat match goal with |- context [match ?x with Some _ => _ | None => _ end] => destruct x; try reflexivity end.
Qed.
End Frame.
