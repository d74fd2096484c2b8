(** C80: the SBP observations made from a received 1002, 1004, 1010 or 1012 payload (from any sender) say what the payload says.  LegRx_spec gives the layout and
    the meaning of the fields. *)
From Coq Require Import Reals Lra.
From Flocq Require Import Core.
From Verif Require Import Base Bitstring Bits_model RtcmStation_spec RtcmLegacy_model Signals_model Double_model Esf_model Sbp2Rtcm_model MsmVal_spec Options_model MsmRx_spec LegVal_spec LegRx_model LegRx_proofs Properties_msmval Properties_msmrx LegRx_spec.
Local Open Scope Z_scope.

(** the observations of the satellites of the message, in order, first signal before second *)
Definition leg_all (num_of : code -> Z) (op : opts) (s : sys) (dual : bool) (h : hdr) (l : list lsat) (r : option (hdr * list pobs)) : Prop :=
  exists rs, r = Some (h, flat_map (fun r => opt_list (fst r) ++ opt_list (snd r)) rs) /\ Forall2 (sat_outcome (b_signal (real_biases op)) num_of s dual) l rs.
Theorem C80_received_legacy_partial : forall num_of op s dual h l p,
  opts_ok op -> carries_leg s dual h l p -> Forall (regular s dual) l ->
  Forall (fun x => holdable (b_signal (real_biases op)) s false x /\ (dual = true -> holdable (b_signal (real_biases op)) s true x)) l ->
  leg_all num_of op s dual h l (leg_obs num_of op (number s dual) p).
Proof. intros num_of op s dual h l p OP C RG HO. exact (message_leg num_of op OP s dual h l p C RG HO). Qed.
(** Satellites at least 4 light-milliseconds (1200 km) away need no further condition *)
Theorem C80_ordinary_legacy_partial : forall num_of op s dual h l p,
  opts_ok op -> carries_leg s dual h l p -> Forall (regular s dual) l -> Forall (fun x => 4 <= f_amb x) l ->
  leg_all num_of op s dual h l (leg_obs num_of op (number s dual) p).
Proof.
  intros num_of op s dual h l p OP C RG AM. apply C80_received_legacy_partial; try assumption. destruct C as (_ & OK & _). rewrite Forall_forall in *.
  assert (G : forall second x, In x l -> holdable (b_signal (real_biases op)) s second x).
  { intros second x I sat k _ _ _. specialize (AM x I). specialize (OK x I). destruct OK as (_ & _ & _ & A & _ & _ & _ & _ & _ & D & _).
    destruct OP as (_ & _ & _ & O4 & _). specialize (O4 k). apply Rabs_le_inv in O4. unfold metres_of, l1_metres, C_M_S.
    assert (4 <= IZR (f_amb x))%R by (apply IZR_le; lia). assert (0 <= IZR (f_pr x))%R by (apply (IZR_le 0); unfold ubits in A; lia).
    assert (-8192 <= IZR (f_dpr x))%R by (apply IZR_le; unfold sbits in D; change (2 ^ (14 - 1)) with 8192 in D; lia).
    destruct (glo s), second; lra. }
  intros x I. split; [apply G; exact I|]. intros _. apply G; exact I.
Qed.

(** ** Examples *)
Definition leg_payload (s : sys) (dual : bool) (h : hdr) (l : list lsat) : list Z := packed (fields_bits (header_layout s dual h (len l) ++ flat_map (sat_layout s dual) l)).
Definition leg_hdr : hdr := mkhdr 345 43200123 1 0 2.
(** PRN 5 with C/A and L2P, SBAS 133 with an L2 part, PRN 7 without phase, PRN 63 (no such satellite) *)
Definition gps_sats : list lsat :=
  [mklsat 5 0 0 6543210 12345 100 72 180 1 (-321) (-54321) 127 160; mklsat 53 0 0 1000 (-17) 23 120 140 0 100 100 20 100;
   mklsat 7 1 0 200 (-524288) 40 70 0 0 (-8192) 5 5 5; mklsat 63 0 0 200 5 40 70 0 0 5 5 5 5].
(** slot 3 channel -4 with P code on L1, slot 9 with unknown channel and no L2 *)
Definition glo_sats : list lsat := [mklsat 3 1 3 12345678 400000 30 35 200 0 77 (-400000) 126 150; mklsat 9 0 25 12345 5 5 36 100 0 (-8192) 0 0 0].
Ltac leg_carries :=
  unfold carries_leg; split; [unfold header_ok, ubits; repeat match goal with |- _ /\ _ => split end; (reflexivity || (vm_compute; congruence))|];
  split; [unfold gps_sats, glo_sats; repeat (constructor; [unfold sat_ok, ubits, sbits; cbn [f_sv f_code1 f_fcn f_pr f_ph1 f_lock1 f_amb f_cn1 f_code2 f_dpr f_ph2 f_lock2 f_cn2 glo]; repeat match goal with |- _ /\ _ => split end; (reflexivity || (vm_compute; congruence))|]); constructor|];
  split; [vm_compute; congruence|]; rest.
Example C80_nonvacuous :
  carries_leg GPS true leg_hdr gps_sats (leg_payload GPS true leg_hdr gps_sats) /\ Forall (regular GPS true) gps_sats /\ Forall (fun x => 4 <= f_amb x) gps_sats /\
  carries_leg GLO true leg_hdr glo_sats (leg_payload GLO true leg_hdr glo_sats) /\ Forall (regular GLO true) glo_sats /\ Forall (fun x => 4 <= f_amb x) glo_sats /\
  carries_leg GLO false leg_hdr glo_sats (leg_payload GLO false leg_hdr glo_sats) /\ opts_ok ex_opts.
Proof.
  split; [leg_carries|]. split; [repeat (constructor; [split; [cbn; congruence|intros _; left; intros E; discriminate E]|]); constructor|]. split; [repeat (constructor; [cbn; lia|]); constructor|].
  split; [leg_carries|]. split; [repeat (constructor; [split; [cbn; congruence|intros _; first [left; intros _; cbn; lia|right; left; reflexivity]]|]); constructor|]. split; [repeat (constructor; [cbn; lia|]); constructor|].
  split; [leg_carries|exact (proj1 ex_opts_ok)].
Qed.
Example C80_results :
  leg_obs ex_num_of ex_opts 1004 (leg_payload GPS true leg_hdr gps_sats) = Some (leg_hdr,
    [mkpobs 1085796059 114117968 115 0 0 180 14 7 5 0; mkpobs 1085795738 88922955 206 0 0 160 15 7 5 8; mkpobs 1798755748 189050505 14 0 0 140 10 7 133 12]) /\
  leg_obs ex_num_of ex_opts 1012 (leg_payload GLO true leg_hdr glo_sats) = Some (leg_hdr, [mkpobs 1061619431 113301145 78 0 0 200 11 7 3 16; mkpobs 1061619358 88121452 222 0 0 150 15 7 3 17]) /\
  leg_obs ex_num_of ex_opts 1010 (leg_payload GLO false leg_hdr glo_sats) = Some (leg_hdr, [mkpobs 1061619431 113301145 78 0 0 200 11 7 3 16]).
Proof. repeat split; vm_compute; reflexivity. Qed.

(** ** Where the property fails *)
(** (a) DF011 = 80000h ("L1 pseudorange invalid") is not recognised: the code compares the unsigned 24-bit field with -524288.  The observation is reported with a range of
    10485.76 m over the ambiguity *)
Definition no_l1 : list lsat := [mklsat 5 0 0 0x80000 12345 100 72 180 0 5 5 5 5].
Theorem C80_invalid_range_refuted :
  carries_leg GPS false leg_hdr no_l1 (leg_payload GPS false leg_hdr no_l1) /\ Forall (fun x => ~ range_sent false x) no_l1 /\
  leg_obs ex_num_of no_opts 1002 (leg_payload GPS false leg_hdr no_l1) = Some (leg_hdr, [mkpobs 1079777137 113485375 122 0 0 180 14 7 5 0]).
Proof. split; [unfold no_l1; leg_carries|]. split; [constructor; [intros [H _]; apply H; reflexivity|constructor]|]. vm_compute. reflexivity. Qed.
(** (b) 1012 with a channel number above 20 (unknown): the L1 observation is dropped, as it must be, but the L2 observation is reported, with a phase computed for the carrier of a channel
    that does not exist *)
Definition no_channel : list lsat := [mklsat 9 0 25 12345 5 5 36 100 0 77 400 40 100].
Theorem C80_unknown_channel_refuted :
  carries_leg GLO true leg_hdr no_channel (leg_payload GLO true leg_hdr no_channel) /\ Forall (fun x => ~ channel_known GLO x) no_channel /\
  leg_obs ex_num_of no_opts 1012 (leg_payload GLO true leg_hdr no_channel) = Some (leg_hdr, [mkpobs 1079265271 90280033 125 0 0 100 11 7 9 17]).
Proof. split; [unfold no_channel; leg_carries|]. split; [constructor; [intros H; specialize (H eq_refl); cbn in H; lia|constructor]|]. vm_compute. reflexivity. Qed.
(** (c) all fields in range, but the L2 range is negative: it is converted to an unsigned integer, which C leaves undefined *)
Definition negative_l2 : list lsat := [mklsat 5 0 0 0 5 5 0 100 0 (-77) 400 40 100].
Theorem C80_negative_range_refuted :
  carries_leg GPS true leg_hdr negative_l2 (leg_payload GPS true leg_hdr negative_l2) /\ leg_obs ex_num_of no_opts 1004 (leg_payload GPS true leg_hdr negative_l2) = None.
Proof. split; [unfold negative_l2; leg_carries|vm_compute; reflexivity]. Qed.
Print Assumptions C80_received_legacy_partial.
Print Assumptions C80_ordinary_legacy_partial.
Print Assumptions C80_nonvacuous.
Print Assumptions C80_results.
Print Assumptions C80_invalid_range_refuted.
Print Assumptions C80_unknown_channel_refuted.
Print Assumptions C80_negative_range_refuted.
