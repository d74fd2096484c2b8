(** Proofs for C82. *)
From Coq Require Import Permutation.
From Flocq Require Import Core IEEE754.Binary IEEE754.Bits.
From Verif Require Import Base Bitstring Bits_model Bits_proofs Bitstream_model Bitstream_proofs Double_model Esf_model RtcmMsm_model RtcmMsm_spec RtcmMsm_proofs Signals_model Signals_proofs Sbp2Rtcm_model Sbp2Msm_model Sbp2Msm_spec Sbp2Msm_epoch_proofs
  Ixcom_model MsmVal_model MsmVal_spec MsmVal_epoch_proofs Options_model Rx_spec RxTx_spec.
Local Open Scope Z_scope.

(** *** what a decoded MSM message says about its bits *)
Lemma dbind_inv {A B} (x : dec A) (f : A -> dec B) bs b r : dbind x f bs = DOk b r -> exists a r', x bs = DOk a r' /\ f a r' = DOk b r.
Proof. unfold dbind. destruct (x bs) as [a r'| | |] eqn:E; try discriminate. intros H. exists a, r'. auto. Qed.
Lemma get_u_inv n bs v r : get_u n bs = DOk v r -> n <= len bs /\ v = val_be (take n bs) /\ r = drop n bs.
Proof. unfold get_u. destruct (Z.ltb_spec (len bs) n); [discriminate|]. intros E. injection E as <- <-. auto. Qed.
Lemma get_list_inv {A} (P : A -> Prop) (d : dec A) : (forall bs a r, d bs = DOk a r -> P a) -> forall n bs l r, get_list d n bs = DOk l r -> Forall P l.
Proof.
  intros D. induction n as [|n IH]; intros bs l r H; cbn [get_list] in H; [injection H as <- _; constructor|].
  apply dbind_inv in H. destruct H as (a & r1 & E1 & H). apply dbind_inv in H. destruct H as (xs & r2 & E2 & H). injection H as <- _. constructor; [eapply D; exact E1|eapply IH; exact E2].
Qed.
Lemma header_inv num bs h r : get_msm_header num bs = DOk h r -> mh_num h = num /\ mh_multiple h = val_be (take 1 (drop 42 bs)) /\ 46 <= len bs.
Proof.
  unfold get_msm_header. intros H. apply dbind_inv in H. destruct H as (stn & r1 & E1 & H). apply get_u_inv in E1. destruct E1 as (L1 & _ & ->).
  apply dbind_inv in H. destruct H as (tw & r2 & E2 & H).
  assert (R2 : r2 = drop 30 (drop 12 bs) /\ 30 <= len (drop 12 bs)).
  { destruct (to_constellation num).
    all: try (apply get_u_inv in E2; destruct E2 as (L & _ & ->); split; [reflexivity|exact L]).
    - apply dbind_inv in E2. destruct E2 as (u & r3 & E3 & E2). unfold skip in E3. injection E3 as _ <-. apply get_u_inv in E2. destruct E2 as (L & _ & ->).
      rewrite drop_drop by lia. split; [reflexivity|]. rewrite len_drop in L. lia.
    - apply dbind_inv in E2. destruct E2 as (u & r3 & E3 & E2). apply get_u_inv in E3. destruct E3 as (L & _ & ->). injection E2 as _ <-. split; [reflexivity|exact L]. }
  destruct R2 as [-> L2]. rewrite drop_drop in H by lia. change (12 + 30) with 42 in H.
  apply dbind_inv in H. destruct H as (mult & r3 & E3 & H). apply get_u_inv in E3. destruct E3 as (L3 & -> & ->).
  apply dbind_inv in H. destruct H as (iods & r4 & E4 & H). apply get_u_inv in E4. destruct E4 as (L4 & _ & ->).
  do 7 (apply dbind_inv in H; destruct H as (? & ? & _ & H)). apply dbind_inv in H. destruct H as (cs & r5 & _ & H). injection H as <- _. cbn [mh_num mh_multiple].
  split; [reflexivity|]. split; [reflexivity|]. rewrite !len_drop in L4. lia.
Qed.
Lemma bit_inv (bs : list bool) : 55 <= len bs -> znth false 54 bs = negb (val_be (take 1 (drop 54 bs)) =? 0).
Proof.
  intros L. rewrite <- (take_drop 54 bs) at 1. rewrite znth_app_r by (rewrite len_take; lia). rewrite len_take. replace (54 - Z.min (Z.max 0 54) (len bs)) with 0 by lia.
  destruct (drop 54 bs) as [|b r] eqn:E; [exfalso; pose proof (f_equal len E) as Q; rewrite len_drop in Q; change (len (@nil bool)) with 0 in Q; lia|].
  unfold take, znth. cbn [Z.to_nat nth firstn Pos.to_nat Pos.iter_op]. change (firstn (Pos.to_nat 1) (b :: r)) with [b]. unfold val_be. cbn [fold_left]. destruct b; reflexivity.
Qed.
Lemma mapi_Forall {A B} (f : Z -> A -> B) (P : B -> Prop) l : (forall i x, P (f i x)) -> forall k, Forall P (mapi k f l).
Proof. intros H. induction l as [|x l IH]; intros k; cbn [mapi]; constructor; auto. Qed.
Lemma znth_Forall {A} (P : A -> Prop) d l i : P d -> Forall P l -> P (znth d i l).
Proof. intros D F. unfold znth. destruct (nth_in_or_default (Z.to_nat i) l d) as [I|I]; [rewrite Forall_forall in F; exact (F _ I)|rewrite I; exact D]. Qed.
Lemma raw_inv ty bs h ss gs r : decode_raw ty bs = DOk (h, ss, gs) r ->
  4 <= ty <= 7 /\ to_msm_type (mh_num h) = ty /\ mh_num h = val_be (take 12 bs) /\ mh_multiple h = val_be (take 1 (drop 54 bs)) /\ 58 <= len bs /\ Forall (fun s => 0 <= r_info s <= 15) ss.
Proof.
  unfold decode_raw. intros H. destruct (negb (between 4 ty 7)) eqn:BT; [discriminate|].
  apply dbind_inv in H. destruct H as (num & r1 & E1 & H). apply get_u_inv in E1. destruct E1 as (L1 & N & ->).
  destruct (negb (ty =? to_msm_type num)) eqn:T; [discriminate|]. destruct (cons_eqb (to_constellation num) cINVALID); [discriminate|].
  apply dbind_inv in H. destruct H as (h' & r2 & E2 & H). apply header_inv in E2. destruct E2 as (HN & HM & L2). rewrite drop_drop in HM by lia. change (12 + 42) with 54 in HM. rewrite len_drop in L2.
  destruct (_ <? mh_tow h'); [discriminate|]. destruct (64 <? _); [discriminate|].
  apply dbind_inv in H. destruct H as (ints & r3 & _ & H). apply dbind_inv in H. destruct H as (infos & r4 & E4 & H).
  do 8 (apply dbind_inv in H; destruct H as (? & ? & _ & H)). destruct (32 <? num_sats h'); [discriminate|]. injection H as <- <- <- _.
  unfold between in BT. apply negb_false_iff, Z.eqb_eq in T. rewrite HN. split; [lia|]. split; [symmetry; exact T|]. split; [exact N|]. split; [exact HM|]. split; [lia|].
  assert (FI : Forall (fun v => 0 <= v <= 15) infos).
  { destruct ((ty =? 5) || (ty =? 7)).
    - eapply (get_list_inv (fun v => 0 <= v <= 15)); [|exact E4]. intros bs' a r' E. apply get_u_inv in E. destruct E as (L & -> & _).
      pose proof (val_be_range (take 4 bs')) as V. assert (Q : len (take 4 bs') = 4) by (rewrite len_take; lia). rewrite Q in V. change (2 ^ 4) with 16 in V. lia.
    - injection E4 as <- _. apply Forall_forall. intros v I. apply repeat_spec in I. subst v. lia. }
  apply mapi_Forall. intros i v. cbn [r_info]. apply (znth_Forall (fun v => 0 <= v <= 15)); [lia|exact FI].
Qed.
Lemma decoded_facts ty p m : bytes p -> run_dec (decode_msm_d ty) p = Ok m ->
  4 <= ty <= 7 /\ to_msm_type (mh_num (dm_hdr m)) = ty /\ 7 <= len p /\ number_of p = mh_num (dm_hdr m) /\ more_follow p = negb (mh_multiple (dm_hdr m) =? 0) /\ Forall (fun s => 0 <= ds_fcn s <= 255) (dm_sats m).
Proof.
  intros B H. unfold run_dec in H. destruct (decode_msm_d ty (bits_of_bytes p)) as [a r| | |] eqn:E; try discriminate. injection H as ->.
  unfold decode_msm_d in E. apply dbind_inv in E. destruct E as ([[h ss] gs] & r1 & E & H). injection H as <- _. apply raw_inv in E. destruct E as (T & TN & N & M & L & F).
  rewrite len_bits_of_bytes in L. unfold msg_value. cbn [dm_hdr dm_sats]. split; [exact T|]. split; [exact TN|]. split; [lia|]. split; [symmetry; exact N|]. split.
  - unfold more_follow. rewrite M. apply bit_inv. rewrite len_bits_of_bytes. lia.
  - apply Forall_forall. intros s I. apply in_map_iff in I. destruct I as (q & <- & I). rewrite Forall_forall in F. specialize (F q I). unfold sat_value. cbn [ds_fcn].
    destruct (_ && _); [unfold MSM_GLO_FCN_UNKNOWN; lia|lia].
Qed.

(** *** a bias of zero changes nothing *)
(** the options as rtcm2sbp_init and main leave them when no bias is given *)
Definition zerob (x : dbl) : bool := match x with B754_zero _ _ _ => true | _ => false end.
Lemma channel_zero fcn : 0 <= fcn <= 255 -> zerob (channel_bias fcn (fofZ 0 0)) = true.
Proof.
  intros H. assert (C : forallb (fun n => zerob (channel_bias (Z.of_nat n) (fofZ 0 0))) (seq 0 256) = true) by (vm_compute; reflexivity).
  rewrite forallb_forall in C. specialize (C (Z.to_nat fcn)). rewrite Z2Nat.id in C by lia. apply C. apply in_seq. lia.
Qed.
Lemma zero_code_bias a z : zerob z = true -> dadd (dadd a d0) z = dadd (dadd a d0) d0.
Proof. destruct z; try discriminate. intros _. destruct a as [[|]|[|]|[|]|]; destruct s; reflexivity. Qed.
Lemma zero_phase_bias a z : zerob z = true -> split256 (- 2 ^ 31) (2 ^ 31 - 1) (dadd a z) = split256 (- 2 ^ 31) (2 ^ 31 - 1) (dadd a d0).
Proof. destruct z; try discriminate. intros _. destruct a as [[|]|[|]|[|]|]; destruct s; reflexivity. Qed.
Lemma bias_default k fcn : 0 <= fcn <= 255 -> exists cb pb, bias_of zero_opts k fcn = (d0, cb, pb) /\ zerob cb = true /\ zerob pb = true.
Proof.
  intros R. unfold bias_of, zero_opts. cbn [op_signal op_glo_code op_glo_phase]. change (dofflt (fofZ 0 0)) with d0.
  unfold msm_glo_fcn_bias. cbn [op_glo_code op_glo_phase]. pose proof (channel_zero fcn R) as Z0.
  destruct k; try (exists d0, d0; repeat split; reflexivity); destruct (negb (fcn =? MSM_GLO_FCN_UNKNOWN)); eexists _, _; (split; [reflexivity|]); (split; [first [exact Z0|reflexivity]|first [exact Z0|reflexivity]]).
Qed.
Section Bias.
Variables (carrier num_of : code -> Z).
Lemma cell_obs_zero cb pb f k prn g : zerob cb = true -> zerob pb = true -> cell_obs_b num_of d0 cb pb f k prn g = cell_obs_b num_of d0 d0 d0 f k prn g.
Proof. intros C P. unfold cell_obs_b. rewrite (zero_code_bias _ cb C). destruct (dv_cp g && _); [rewrite (zero_phase_bias _ pb P)|]; reflexivity. Qed.
Lemma to_sbp_zero rc m : fcn_map_ok (rc_fcns rc) -> Forall (fun s => 0 <= ds_fcn s <= 255) (dm_sats m) -> to_sbp_b carrier num_of (bias_of zero_opts) rc m = to_sbp carrier num_of rc m.
Proof.
  intros [LM FM] F. unfold to_sbp, to_sbp_b. cbv zeta.
  assert (C : forall h s c g, 0 <= ds_fcn c <= 255 -> forall q, cell_to_sbp_b carrier num_of (bias_of zero_opts) rc h s q c g = cell_to_sbp_b carrier num_of no_bias rc h s q c g).
  { intros h s c g R q. unfold cell_to_sbp_b. destruct (msm_signal_to_code h q) as [k|]; [|reflexivity]. destruct (msm_sat_to_prn h s) as [prn|]; [|reflexivity].
    destruct (_ || _); [reflexivity|]. destruct (cons_of k) as [cc|]; [|reflexivity]. destruct (_ || _); [reflexivity|]. destruct (msm_get_glo_fcn h s (ds_fcn c) (rc_fcns rc)) as [[b f]|] eqn:E; [|reflexivity].
    set (f' := if cons_eqb (to_constellation (mh_num h)) cGLO then f else MSM_GLO_FCN_UNKNOWN). cbv zeta.
    assert (RF : 0 <= f' <= 255).
    { unfold f'. unfold msm_get_glo_fcn in E. destruct (cons_eqb (to_constellation (mh_num h)) cGLO); [|unfold MSM_GLO_FCN_UNKNOWN; lia]. cbn [negb] in E.
      destruct (ds_fcn c =? MSM_GLO_FCN_UNKNOWN); [|injection E as _ <-; exact R]. destruct (msm_sat_to_prn h s) as [p|]; [|discriminate]. destruct ((0 <=? p) && (p <? len (rc_fcns rc))); [|discriminate].
      injection E as _ <-. apply (znth_Forall (fun v => 0 <= v <= 255)); [lia|]. eapply Forall_impl; [|exact FM]. cbv beta. intros; lia. }
    destruct (bias_default k f' RF) as (cb & pb & -> & Z1 & Z2). unfold no_bias. rewrite (cell_obs_zero cb pb _ _ _ _ Z1 Z2). reflexivity. }
  match goal with |- match all_some ?a with _ => _ end = match all_some ?b with _ => _ end => replace a with b; [reflexivity|] end.
  generalize (cells (num_sats (dm_hdr m)) (num_sigs (dm_hdr m)) (cell_mask (dm_hdr m))). intros l. generalize 0 as k. induction l as [|x l IH]; intros k; cbn [mapi]; [reflexivity|]. rewrite IH. f_equal.
  symmetry. apply C. apply (znth_Forall (fun s => 0 <= ds_fcn s <= 255)); [cbn; lia|exact F].
Qed.
End Bias.
From Verif Require Import ObsExcl_proofs Time_model Time_proofs Properties_time RtcmFraming_spec RtcmFrameOut_model RtcmFrameOut_proofs Conv_model Conv_epoch_proofs Properties_sbp2rtcm Properties_msmval
  ObsBuffer_model ObsBuffer_spec ObsExcl_spec LegRx_model Rx_model Rx_spec Rx_proofs RxTx_model RxTx_spec.
Import ListNotations.
Local Open Scope Z_scope.

(** *** the receiver, on a chain of messages *)
Section Receive.
Variables (carrier num_of : code -> Z) (masked : RtcmMsm_model.cons -> bool) (utc_offset : gtime -> Z) (consts : Z -> dbl).
Context {A O : Type}.
Variable rest : Z -> list Z -> rstate pobs (list Z * A) -> A * list O.
Hypothesis CAR : carriers_ok carrier.
Notation rx_step := (rx_step carrier num_of zero_opts masked utc_offset consts rest).
Notation rx_run := (rx_run carrier num_of zero_opts masked utc_offset consts rest).
Variables (x stn ty : Z) (map : list Z).
Hypothesis TY : ty = 4 \/ ty = 5.
Hypothesis MAP : fcn_map_ok map.
(** message q of constellation c, converted to os *)
Definition sent (c : RtcmMsm_model.cons) (q : gtime * list Z) (more : bool) (os : list pobs) : Prop :=
  exists m, bytes (snd q) /\ good_time utc_offset (fst q) /\ run_dec (decode_msm_d ty) (snd q) = Ok m /\ mh_num (dm_hdr m) = to_msm_msg_num c ty /\ mh_stn (dm_hdr m) = stn /\ negb (mh_multiple (dm_hdr m) =? 0) = more /\
    (c <> cQZS -> hdr_time utc_offset (mh_num (dm_hdr m)) (mh_tow (dm_hdr m)) x (fst q)) /\ to_sbp carrier num_of (mkrcfg masked map) m = Some os.
Definition kept (c : RtcmMsm_model.cons) (os : list pobs) : list pobs := if cons_eqb c cQZS then [] else os.
Definition part : Type := RtcmMsm_model.cons * (gtime * list Z) * bool * list pobs.
Fixpoint chained (l : list part) : Prop :=
  match l with [] => False | (_, _, more, _) :: l => match l with [] => more = false | _ => more = true /\ chained l end end.
Definition total_of (l : list part) : Z := fold_right Z.add 0 (List.map (fun '(c, _, _, os) => len (kept c os)) l).
Definition all_kept (l : list part) : list pobs := flat_map (fun '(c, _, _, os) => kept c os) l.
Definition arrivals (l : list part) : list (option gtime * list Z) := List.map (fun '(_, q, _, _) => (Some (fst q), snd q)) l.
Lemma run_sent : forall (l : list part) (started : bool) (s : rstate pobs (list Z * A)),
  Forall (fun '(c, q, more, os) => sent c q more os) l -> chained l ->
  (if started then in_epoch x stn s else r_buf s = []) -> (started = true \/ exists c q more os, In (c, q, more, os) l /\ c <> cQZS) ->
  (x mod WEEK <> 0 \/ gps_time_valid (r_last_gps s) = true) -> fcns s = map -> len (r_buf s) + total_of l <= 210 ->
  exists s' o, rx_run (arrivals l) s = Some (s', o) /\ epoch_messages (sender_of stn) (x / WEEK) (x mod WEEK) (r_buf s ++ all_kept l) (seen o) /\ r_buf s' = [] /\ fcns s' = map /\ lasts_at x s'.
Proof.
  induction l as [|[[[c [ref p]] more] os] l IH]; intros started s F CH ST NQ X0 FM L; [contradiction|].
  inversion F as [|? ? P F']; subst. cbn [total_of List.map fold_right] in L. fold (total_of l) in L.
  assert (TN : 0 <= total_of l) by (clear; unfold total_of; induction l as [|[[[c q] m] os] l IH]; cbn [List.map fold_right]; [lia|pose proof (len_nonneg (kept c os)); lia]).
  destruct P as (m & B & G & D & NU & SN & MU & T & TS). cbn [fst snd] in *.
  destruct (decoded_facts ty p m B D) as (T47 & TT & LP & NP & MF & FC).
  cbn [all_kept flat_map arrivals List.map fst snd Rx_model.rx_run]. fold (all_kept l). fold (arrivals l).
  destruct (cons_eqb c cQZS) eqn:CQ.
  - apply cons_eqb_spec in CQ. subst c. cbn [kept cons_eqb app] in *. change (len (@nil pobs)) with 0 in L.
    assert (NUM : number_of p = 1110 + ty) by (rewrite NP, NU; destruct TY as [-> | ->]; reflexivity).
    assert (NI : ~ In (number_of p) (converted_msm ++ legacy_numbers)) by (rewrite NUM; destruct TY as [-> | ->]; cbn; lia).
    assert (LN : forall mp, learn mp (Some ref, p) = mp) by (intros mp; unfold learn; cbv zeta; rewrite NUM; destruct TY as [-> | ->]; reflexivity).
    rewrite MU in MF. destruct l as [|q2 l].
    + cbn [chained] in CH. subst more. destruct NQ as [NQ|(c & q & m0 & os0 & [E|[]] & NQ)]; [|congruence]. subst started.
      destruct (step_closing carrier num_of zero_opts masked utc_offset consts rest x stn (Some ref, p) s) as (s' & o & E & M & BU & FE & LA).
      { exists ref, p. split; [reflexivity|]. split; [exact G|]. split; [exact B|]. split; [exact LP|]. split; [intros H; apply NI; apply in_or_app; left; exact H|]. split; [rewrite NUM; destruct TY as [-> | ->]; lia|]. rewrite MF. reflexivity. }
      { exact ST. } { lia. }
      cbn [fst snd] in E. rewrite E. exists s', (o ++ []). cbn [arrivals List.map Rx_model.rx_run]. rewrite !app_nil_r. split; [reflexivity|]. split; [cbn [all_kept flat_map]; first [exact M|rewrite app_nil_r; exact M]|]. split; [exact BU|]. split; [rewrite FE, LN; exact FM|exact LA].
    + destruct CH as [CM CH]. destruct (step_quiet carrier num_of zero_opts masked utc_offset consts rest (Some ref, p) s) as (s' & o & E & U & SO & FE).
      { split; [exact B|]. split; [intros r Er; injection Er as <-; exact G|]. right. split; [exact NI|]. intros _. right. cbn [snd]. rewrite MF. exact CM. }
      pose proof U as (UB & _ & _ & _ & UG & _). cbn [fst snd] in E. rewrite E.
      destruct (IH started s' F' CH) as (s2 & o2 & E2 & M & B2 & F2 & LA).
      { destruct started; [eapply undisturbed_epoch; eassumption|congruence]. }
      { destruct NQ as [NQ|(c & q & m0 & os0 & [E0|I] & NQ)]; [left; exact NQ|congruence|right; exists c, q, m0, os0; auto]. }
      { rewrite UG. exact X0. } { rewrite FE, LN. exact FM. } { rewrite UB. lia. }
      rewrite E2. exists s2, (o ++ o2). split; [reflexivity|]. rewrite seen_app, SO. cbn [app]. rewrite UB in M. auto.
  - assert (NC : c <> cQZS) by (intros ->; discriminate CQ). specialize (T NC). assert (KE : kept c os = os) by (unfold kept; rewrite CQ; reflexivity). rewrite KE in *.
    assert (RX : rx_msm carrier num_of zero_opts masked (fcns s) (mh_num (dm_hdr m)) p = Some (m, Some os)).
    { unfold rx_msm. rewrite TT, D, FM. rewrite to_sbp_zero; [rewrite TS; reflexivity|exact MAP|exact FC]. }
    destruct (step_decoded carrier num_of zero_opts masked utc_offset consts rest x stn ref p m os s G B LP NP MF RX) as (s' & o & E & AU & F1 & F0); try assumption.
    { rewrite TT. exact T47. } { destruct started; [right; exact ST|left; exact ST]. } { lia. }
    rewrite E. assert (FE : fcns s' = fcns s) by (unfold fcns; rewrite AU; reflexivity).
    destruct (Z.eqb_spec (mh_multiple (dm_hdr m)) 0) as [M0|M0]; cbn [negb] in MU; subst more; destruct l as [|q2 l]; cbn [chained] in CH; try discriminate CH; try (destruct CH as [CH _]; discriminate CH).
    + destruct (F0 M0) as (M & BU & LA). exists s', (o ++ []). cbn [arrivals List.map Rx_model.rx_run all_kept flat_map]. rewrite !app_nil_r. rewrite FE. auto.
    + destruct CH as [_ CH]. destruct (F1 M0) as (SO & IE & BU). destruct (IH true s' F' CH IE (or_introl eq_refl)) as (s2 & o2 & E2 & M & B2 & F2 & LA).
      { right. destruct IE as (_ & V1 & _ & V2 & _). rewrite V2. exact V1. } { rewrite FE. exact FM. } { rewrite BU, len_app. lia. }
      rewrite E2. exists s2, (o ++ o2). split; [reflexivity|]. rewrite seen_app, SO. cbn [app]. rewrite BU, <- app_assoc in M. auto.
Qed.
End Receive.
