(** Proofs for C84. *)
From Coq Require Import Reals Lra Permutation.
From Flocq Require Import Core IEEE754.Binary IEEE754.Bits.
From Verif Require StaConv_model Conv_model.
From Verif Require Import Base Bitstring Bits_model Bits_proofs Bitstream_model Tables_model Tables_spec Double_model Esf_model RtcmEph_model SbpEph_model SbpEph_spec RtcmStation_model RtcmStation_spec StaConv_spec StaConv_proofs StaConv_wire_proofs Properties_staconv
  RtcmMsm_model RtcmMsm_spec Signals_model Sbp2Rtcm_model Sbp2Rtcm_spec Sbp2Msm_model Sbp2Msm_spec MsmVal_model MsmVal_spec MsmVal_epoch_proofs RtcmFrameOut_model Conv_model Conv_epoch_proofs Options_model Tunnel_model Tunnel_spec Tunnel_proofs EphOut_model EphOut_spec
  RtcmFraming_model RtcmFraming_spec Time_model Properties_time Sbp2Rtcm_proofs Properties_sbp2rtcm Properties_ephout ObsBuffer_model ObsBuffer_spec ObsExcl_spec ObsExcl_proofs Rx_model Rx_spec Rx_proofs RxTx_model RxTx_spec RxTx_proofs RxTx_frame_proofs Properties_rxtx Relay_model Relay_spec.
Local Open Scope Z_scope.
Local Open Scope list_scope.
Import ListNotations.
Notation mtype := ObsBuffer_model.message_type.
Notation payload := Rx_model.payload_of.

Lemma frame_bytes f : valid_frame f -> bytes (payload f).
Proof.
  intros (b1 & b2 & p & c2 & c1 & c0 & -> & B & _). unfold Rx_model.payload_of, sub. apply Forall_take, Forall_drop. exact B.
Qed.

(** ** which message numbers the parts of the receiver look at *)
Lemma eph_type c adj mw solved t lp p x : eph_rx c adj mw solved t lp p = [x] -> 2 <= len p /\ In (mtype p) ([1019; 1042; 1045; 1046] ++ if solved then [1020; 1044] else []).
Proof.
  unfold eph_rx. change (StaConv_model.frame_type p) with (mtype p). destruct (Z.ltb_spec (len p) 2); [discriminate|]. intros E. split; [assumption|].
  destruct (Z.eqb_spec (mtype p) 1019) as [->|]; [cbn; tauto|]. destruct (Z.eqb_spec (mtype p) 1042) as [->|]; [cbn; tauto|]. destruct (Z.eqb_spec (mtype p) 1045) as [->|]; [cbn; tauto|].
  destruct (Z.eqb_spec (mtype p) 1046) as [->|]; [cbn; tauto|]. destruct solved; cbn [negb] in E; [|discriminate]. destruct (Z.eqb_spec (mtype p) 1020) as [->|]; [cbn; tauto|]. destruct (Z.eqb_spec (mtype p) 1044) as [->|]; [cbn; tauto|discriminate].
Qed.
Lemma eph_quiet c adj mw solved t lp p : ~ In (mtype p) [1019; 1042; 1045; 1046; 1020; 1044] -> eph_rx c adj mw solved t lp p = [].
Proof.
  intros N. unfold eph_rx. change (StaConv_model.frame_type p) with (mtype p). destruct (len p <? 2); [reflexivity|]. cbn [In] in N.
  replace (mtype p =? 1019) with false by lia. replace (mtype p =? 1042) with false by lia. replace (mtype p =? 1045) with false by lia. replace (mtype p =? 1046) with false by lia.
  replace (mtype p =? 1020) with false by lia. replace (mtype p =? 1044) with false by lia. destruct (negb solved); reflexivity.
Qed.
Lemma sta_quiet g now last p : ~ In (mtype p) [1005; 1006; 1033; 1230] -> StaConv_model.sta_rx g now last p = Ok (last, []).
Proof.
  intros N. unfold StaConv_model.sta_rx. change (StaConv_model.frame_type p) with (mtype p). destruct (len p <? 2); [reflexivity|]. cbn [In] in N.
  replace (mtype p =? 1005) with false by lia. replace (mtype p =? 1006) with false by lia. replace (mtype p =? 1033) with false by lia. replace (mtype p =? 1230) with false by lia. destruct now; reflexivity.
Qed.
Lemma take_all {A} (p : list A) : take (len p) p = p.
Proof. unfold take, len. rewrite Nat2Z.id. apply firstn_all. Qed.
Lemma msm123_in n : existsb (Z.eqb n) msm123 = true -> 1070 <= n <= 1123.
Proof. intros H. apply existsb_exists in H. destruct H as (x & I & E). apply Z.eqb_eq in E. subst x. unfold msm123 in I. cbn [In] in I. intuition lia. Qed.
Lemma tun_quiet sbp_ok p w : ~ In (mtype p) [1029; 4062; 4075] -> existsb (Z.eqb (mtype p)) msm123 = false -> tunnel_rx sbp_ok true p (len p) w = Ok (w, []).
Proof.
  intros N M. unfold tunnel_rx. cbv zeta. rewrite take_all. change (StaConv_model.frame_type p) with (mtype p). destruct (len p <? 2); [reflexivity|]. cbn [In negb andb] in *.
  replace (mtype p =? 1029) with false by lia. rewrite M. replace (mtype p =? 4062) with false by lia. replace (mtype p =? 4075) with false by lia. reflexivity.
Qed.
Lemma tun_type sbp_ok p o : tunnel_rx sbp_ok true p (len p) true = Ok (true, o) -> o <> [] -> 2 <= len p /\ In (mtype p) [1029; 4062; 4075].
Proof.
  unfold tunnel_rx. cbv zeta. rewrite take_all. change (StaConv_model.frame_type p) with (mtype p). destruct (Z.ltb_spec (len p) 2); [intros E N; injection E as <-; congruence|]. cbn [negb andb]. intros E N. split; [assumption|].
  destruct (Z.eqb_spec (mtype p) 1029) as [->|]; [cbn; tauto|]. destruct (existsb (Z.eqb (mtype p)) msm123); [unfold send_MSM_warning in E; cbn [negb] in E; injection E as <-; congruence|].
  destruct (Z.eqb_spec (mtype p) 4062) as [->|]; [cbn; tauto|]. destruct (Z.eqb_spec (mtype p) 4075) as [->|]; [cbn; tauto|]. injection E as <-. congruence.
Qed.

Section Relay.
Variables (carrier num_of : code -> Z) (code_of : Z -> code) (masked : RtcmMsm_model.cons -> bool) (utc_offset : gtime -> Z) (g : msg_1005) (c : Z -> dbl) (eps : dbl) (log2f : binary32 -> binary32) (adj : Z -> Z) (mw : Z -> Z -> option Z) (sbp_ok : Z -> list Z -> bool) (leap : Z).
Notation rstate := (rstate pobs (list Z * raux)).
Notation R := (full_rest g c adj mw sbp_ok).
Notation rx_step := (rx_step carrier num_of zero_opts masked utc_offset c R).
Notation rx_run := (rx_run carrier num_of zero_opts masked utc_offset c R).
Notation messages := (@messages rout).

(** *** a message that is not an observation message *)
Definition enter (tin : option gtime) (s : rstate) : rstate :=
  match tin with Some ref => set_leap (set_time s ref) (Some (utc_offset ref)) | None => set_time s (mkt (-1) (-1000)) end.
Lemma step_pass tin p (s : rstate) : bytes p -> 2 <= len p -> kind_of (mtype p) = KOther -> ~ 1070 <= mtype p <= 1229 -> (tin = None -> existsb (Z.eqb (mtype p)) ungated = true) ->
  (forall ref, tin = Some ref -> good_time utc_offset ref) -> fcn_map_ok (fcns s) ->
  exists s', rx_step tin p s = Some (s', map OOther (snd (R (mtype p) p (enter tin s)))) /\ undisturbed s s' /\ fcn_map_ok (fcns s').
Proof.
  intros B L K N U G FM. unfold Rx_model.rx_step, rx_undefined. rewrite K. rewrite andb_false_r.
  replace (match tin with Some _ => false | None => false end) with false by (destruct tin; reflexivity). unfold decode_payload.
  replace (len p <? 2) with false by (symmetry; apply Z.ltb_ge; lia). cbv zeta. rewrite K.
  replace ((1070 <=? mtype p) && (mtype p <=? 1229)) with false by (symmetry; apply andb_false_iff; destruct (Z.leb_spec 1070 (mtype p)); [right; apply Z.leb_gt; lia|left; reflexivity]).
  destruct tin as [ref|]; cbn [enter].
  - set (s1 := set_leap (set_time s ref) (Some (utc_offset ref))). unfold rx_other. destruct (R (mtype p) p s1) as [a0 os0]. cbn [snd andb]. eexists. split; [reflexivity|]. split; [repeat split; reflexivity|].
    unfold fcns at 1. cbn [r_aux set_aux fst]. rewrite (learn_ok utc_offset c R p ref s1) by (try reflexivity; try assumption; apply G; reflexivity). apply (learn_map_ok utc_offset c R); exact FM.
  - rewrite (U eq_refl). cbn [negb]. set (s1 := set_time s (mkt (-1) (-1000))). unfold rx_other. destruct (R (mtype p) p s1) as [a0 os0]. cbn [snd andb]. eexists. split; [reflexivity|]. split; [repeat split; reflexivity|].
    assert (N2 : mtype p <> 1020) by (intros E; specialize (U eq_refl); rewrite E in U; discriminate U). replace (mtype p =? 1020) with false by (symmetry; apply Z.eqb_neq; exact N2). exact FM.
Qed.
Lemma deliver f tin os (s : rstate) : valid_frame f -> 2 <= len (payload f) -> kind_of (mtype (payload f)) = KOther -> ~ 1070 <= mtype (payload f) <= 1229 -> (tin = None -> existsb (Z.eqb (mtype (payload f))) ungated = true) ->
  (forall ref, tin = Some ref -> good_time utc_offset ref) -> fcn_map_ok (fcns s) -> snd (R (mtype (payload f)) (payload f) (enter tin s)) = os ->
  exists s', rx_run (combine [tin] (map payload [f])) s = Some (s', map OOther os) /\ undisturbed s s' /\ fcn_map_ok (fcns s').
Proof.
  intros V L K N U G FM <-. destruct (step_pass tin (payload f) s (frame_bytes f V) L K N U G FM) as (s' & E & UD & FM'). exists s'. split; [|split; assumption].
  cbn [map combine Rx_model.rx_run]. rewrite E. rewrite app_nil_r. reflexivity.
Qed.
Lemma rest_eph ty p x (s : rstate) : eph_rx c adj mw true (r_time s) (r_leap s) p = [x] -> snd (R ty p s) = [REph x].
Proof.
  intros E. destruct (eph_type _ _ _ _ _ _ _ _ E) as [L T]. cbn [In app] in T. unfold full_rest. destruct (snd (r_aux s)) as [last warned]. rewrite sta_quiet by (cbn [In]; intuition lia). cbn [of_res]. rewrite E.
  rewrite tun_quiet; [reflexivity|cbn [In]; intuition lia|]. destruct (existsb _ msm123) eqn:M; [|reflexivity]. apply msm123_in in M. intuition lia.
Qed.
Lemma rest_sta ty p l m (s : rstate) : In (mtype p) [1005; 1006; 1033; 1230] -> (forall last, StaConv_model.sta_rx g (Some (r_time s)) last p = Ok (l last, [m])) -> snd (R ty p s) = [RSta m].
Proof.
  intros T E. cbn [In] in T. unfold full_rest. destruct (snd (r_aux s)) as [last warned]. rewrite E. cbn [of_res]. rewrite eph_quiet by (cbn [In]; intuition lia).
  rewrite tun_quiet; [reflexivity|cbn [In]; intuition lia|]. destruct (existsb _ msm123) eqn:M; [|reflexivity]. apply msm123_in in M. intuition lia.
Qed.
Lemma rest_tun ty p o (s : rstate) : In (mtype p) [1029; 4062; 4075] -> (forall w, tunnel_rx sbp_ok true p (len p) w = Ok (w, o)) -> snd (R ty p s) = map RTun o.
Proof.
  intros T E. cbn [In] in T. unfold full_rest. destruct (snd (r_aux s)) as [last warned]. rewrite sta_quiet by (cbn [In]; intuition lia). cbn [of_res]. rewrite eph_quiet by (cbn [In]; intuition lia).
  rewrite E. cbn [of_res map app]. apply app_nil_r.
Qed.
Lemma messages_other os : messages (map OOther os) = map OOther os.
Proof. unfold messages. induction os as [|o os IH]; [reflexivity|]. cbn [map filter]. rewrite IH. reflexivity. Qed.

Notation good_carry m fs := (forall ts, Forall (in_time code_of utc_offset leap (IMsg m)) ts -> length ts = length fs -> forall s : rstate, fcn_map_ok (fcns s) ->
  exists s' o, rx_run (combine ts (map payload fs)) s = Some (s', o) /\ undisturbed s s' /\ fcn_map_ok (fcns s') /\ body_came sbp_ok (i_sender m) (i_body m) (messages o)).
Lemma carry_one m f os : valid_frame f -> 2 <= len (payload f) -> kind_of (mtype (payload f)) = KOther -> ~ 1070 <= mtype (payload f) <= 1229 ->
  (forall tin, in_time code_of utc_offset leap (IMsg m) tin -> (tin = None -> existsb (Z.eqb (mtype (payload f))) ungated = true) /\ (forall s, snd (R (mtype (payload f)) (payload f) (enter tin s)) = os)) ->
  body_came sbp_ok (i_sender m) (i_body m) (map OOther os) -> good_carry m [f].
Proof.
  intros V L K N H BC ts F LT s FM. destruct ts as [|tin [|? ?]]; try discriminate LT. inversion F as [|? ? I _]; subst. destruct (H tin I) as [U E].
  destruct (deliver f tin os s V L K N U (proj1 I) FM (E s)) as (s' & ER & UD & FM'). exists s', (map OOther os). rewrite messages_other. auto.
Qed.
Lemma eph_carry m f x : valid_frame f -> body_came sbp_ok (i_sender m) (i_body m) [OOther (REph x)] ->
  (exists solved rover lp, eph_rx c adj mw solved rover lp (payload f) = [x]) ->
  (forall tin, in_time code_of utc_offset leap (IMsg m) tin -> match tin with None => eph_rx c adj mw false (mkt (-1) (-1000)) None (payload f) = [x] | Some _ => True end /\ forall s : rstate, eph_rx c adj mw true (r_time (enter tin s)) (r_leap (enter tin s)) (payload f) = [x]) -> good_carry m [f].
Proof.
  intros V BC (sv & rv & lp & E0) H. destruct (eph_type _ _ _ _ _ _ _ _ E0) as [L T]. apply (carry_one m f [REph x] V L); try assumption.
  - apply kind_other. destruct sv; cbn [In app converted_msm legacy_numbers] in *; intuition lia.
  - destruct sv; cbn [In app] in T; intuition lia.
  - intros tin I. destruct (H tin I) as [H1 H2]. split; [|intros s; apply rest_eph; apply H2]. intros ->. destruct (eph_type _ _ _ _ _ _ _ _ H1) as [_ T1]. cbn [In app] in T1. intuition (rewrite <- ?H0, <- ?H3; subst; try reflexivity).
    all: match goal with E : _ = mtype _ |- _ => rewrite <- E; reflexivity end.
Qed.

(** *** sending *)
Hypothesis CE : consts_exact c.
Hypothesis EO : eps_ok eps.
Hypothesis LO : log2_ok log2f.
Hypothesis LR : 0 <= leap <= 127.
Notation tool_step := (tool_step carrier code_of c eps log2f leap).
Definition after (m : sbpin) (st : Sbp2Rtcm_model.ost) : Sbp2Rtcm_model.ost := if leaves_sender m then Sbp2Rtcm_model.mkost (i_sender m) (os_hdr st) (os_buf st) else st.
Lemma run_after m st : is_obs m = false -> Sbp2Rtcm_model.run st (event_of m) = Ok (after m st, []).
Proof. intros O. unfold event_of, after, is_obs in *. destruct (i_body m); try discriminate O; destruct (leaves_sender m); reflexivity. Qed.
Definition one_ok (m : sbpin) (st : Sbp2Rtcm_model.ost) : Prop := exists fs, tool_step m st = Ok (after m st, fs) /\ Forall valid_frame fs /\ good_carry m fs.
Lemma nothing m st : tool_step m st = Ok (after m st, []) -> body_came sbp_ok (i_sender m) (i_body m) [] -> one_ok m st.
Proof.
  intros E BC. exists []. split; [exact E|]. split; [constructor|]. intros ts _ LT s FM. destruct ts; [|discriminate LT]. exists s, []. split; [reflexivity|]. split; [repeat split; reflexivity|]. split; [exact FM|exact BC].
Qed.
Lemma eph_one m st f x : tool_step m st = Ok (after m st, [f]) -> valid_frame f -> body_came sbp_ok (i_sender m) (i_body m) [OOther (REph x)] ->
  (forall solved rover lp, eph_rx c adj mw solved rover lp (payload f) = [x]) -> one_ok m st.
Proof.
  intros E V BC H. exists [f]. split; [exact E|]. split; [constructor; [exact V|constructor]|]. apply (eph_carry m f x V BC).
  - exists false, T_UNKNOWN, None. apply H.
  - intros [ref|] _; (split; [|intros s; apply H]); [exact I|apply H].
Qed.
Lemma gps_one sd st s : body_ok adj mw leap sd (BGps s) -> one_ok (mkin sd (BGps s)) st.
Proof.
  intros (R1 & (n & N & U) & T & W & M). destruct (C76_gps_partial c adj mw eps log2f s n CE EO LO R1 N U T W M) as (f & s' & (ES & V & _) & RX & H).
  apply (eph_one _ _ f (61568, EGps s')); [unfold Relay_model.tool_step; cbn [i_body i_sender]; rewrite ES; reflexivity|exact V| |exact RX].
  exists s'. split; [reflexivity|exact H].
Qed.
Lemma bds_one sd st s : body_ok adj mw leap sd (BBds s) -> one_ok (mkin sd (BBds s)) st.
Proof.
  intros (R1 & (n & N & U) & A). destruct (C76_bds_partial c adj mw eps log2f s n CE EO LO R1 N U A) as (f & s' & (ES & V & _) & RX & H).
  apply (eph_one _ _ f (61568, EBds s')); [unfold Relay_model.tool_step; cbn [i_body i_sender]; rewrite ES; reflexivity|exact V| |exact RX].
  exists s'. split; [reflexivity|exact H].
Qed.
Lemma gal_one sd st s : body_ok adj mw leap sd (BGal s) -> one_ok (mkin sd (BGal s)) st.
Proof.
  intros ([[S R1]|[S R1]] & (n & N & U) & MA & MB).
  - destruct (C76_inav_partial c adj mw s n CE R1 N U S MA MB) as (f & s' & (ES & V & _) & RX & H).
    apply (eph_one _ _ f (61568, EGal s')); [unfold Relay_model.tool_step; cbn [i_body i_sender]; rewrite ES; reflexivity|exact V| |exact RX].
    exists s'. split; [reflexivity|]. destruct H as (H1 & H2 & H3 & H4 & H5 & H6 & H7 & H8 & H9 & H10 & H11). rewrite S. tauto.
  - destruct (C76_fnav_partial c adj mw s n CE R1 N U S MA MB) as (f & s' & (ES & V & _) & RX & H).
    apply (eph_one _ _ f (61568, EGal s')); [unfold Relay_model.tool_step; cbn [i_body i_sender]; rewrite ES; reflexivity|exact V| |exact RX].
    exists s'. split; [reflexivity|]. destruct H as (H1 & H2 & H3 & H4 & H5 & H6 & H7 & H8 & H9 & H10 & H11). rewrite S.
    split; [exact H1|]. split; [exact H2|]. split; [exact H3|]. split; [intros Q; discriminate Q|]. tauto.
Qed.
Lemma glo_one sd st s junk : body_ok adj mw leap sd (BGlo s junk) -> one_ok (mkin sd (BGlo s junk)) st.
Proof.
  intros (R1 & (n & N & U)). assert (LP : 0 <= leap <= 3600) by lia.
  assert (X : exists f, glo_eph_cb c eps log2f s (Some leap) junk = Ok f /\ valid_frame f).
  { destruct (EphOut_msg_proofs.glo_out c eps log2f s n leap junk CE EO LP R1 N U) as (m & EM & W & _). destruct (framed _ _ _ _ (RtcmEph_proofs.rt_glo m W) ltac:(lia)) as (f & EF & V & _). exists f. split; [unfold glo_eph_cb; rewrite EM; exact EF|exact V]. }
  destruct X as (f & ES & V). exists [f]. split; [unfold Relay_model.tool_step; cbn [i_body i_sender]; rewrite ES; reflexivity|]. split; [constructor; [exact V|constructor]|].
  intros ts F LT s0 FM. destruct ts as [|tin [|? ?]]; try discriminate LT. inversion F as [|? ? I _]; subst. destruct I as [G (ref & -> & LE & CL)]. cbn [i_body i_sender] in *.
  pose proof (G ref eq_refl) as GT. destruct GT as (G1 & G2 & G3).
  destruct (C76_glo_partial c adj mw eps log2f s n ref leap junk CE EO LP R1 N U) as (f' & s' & (ES' & _) & RX & H).
  { unfold known_time. lia. }
  { unfold inner_week. lia. }
  { exact CL. }
  assert (f' = f) by congruence. subst f'. change (StaConv_spec.payload_of f) with (payload f) in RX. destruct (eph_type _ _ _ _ _ _ _ _ RX) as [L T].
  assert (RX' : eph_rx c adj mw true (r_time (enter (Some ref) s0)) (r_leap (enter (Some ref) s0)) (payload f) = [(61568, EGlo s')]) by (cbn [enter set_leap r_time r_leap set_time]; rewrite LE; exact RX).
  destruct (deliver f (Some ref) [REph (61568, EGlo s')] s0 V L) as (s1 & ER & UD & FM').
  - apply kind_other. clear - T. cbn [In app converted_msm legacy_numbers] in *; intuition lia.
  - clear - T. cbn [In app] in T; intuition lia.
  - discriminate.
  - exact G.
  - exact FM.
  - apply rest_eph. exact RX'.
  - exists s1, [OOther (REph (61568, EGlo s'))]. split; [exact ER|]. split; [exact UD|]. split; [exact FM'|]. exists s'. split; [reflexivity|exact H].
Qed.
Lemma base_one sd st x y z : body_ok adj mw leap sd (BBase x y z) -> one_ok (mkin sd (BBase x y z)) st.
Proof.
  intros (CX & CY & CZ). destruct (good_run g (os_sender st) [] (Forall_nil _)) as (o & out & E & G & _). injection E as <- _.
  destruct (base_pos_step g [] (StaConv_model.ost0 (os_sender st)) sd x y z G CX CY CZ) as (f & rs & m6 & E6 & V & D & B & W & (S1 & SR) & RS). change (configured []) with false in RS. cbv iota in RS. subst rs.
  exists [f]. split; [unfold Relay_model.tool_step; cbn [i_body i_sender]; rewrite E6; reflexivity|]. split; [exact V|]. inversion V as [|? ? V1 _]; subst.
  destruct (first_field _ 1006 _ _ B D) as [L T]. change (StaConv_model.frame_type (StaConv_spec.payload_of f)) with (mtype (payload f)) in T.
  assert (BP : exists m, StaConv_model.base_pos_of (m6_1005 m6) = m /\ body_came sbp_ok sd (BBase x y z) (map OOther [RSta m])).
  { eexists. split; [reflexivity|]. unfold StaConv_model.base_pos_of. rewrite S1, sender_back by apply stn_range. do 3 eexists. split; [reflexivity|].
    destruct W as [W _]. unfold wf_1005 in W. unfold says_1006 in SR. cbv zeta in SR. split; [|split]; apply half_tenth; tauto. }
  destruct BP as (m & BE & BP). apply (carry_one _ f [RSta m] V1); [exact L| | | |exact BP].
  - rewrite T. reflexivity.
  - rewrite T. lia.
  - intros tin I. split; [intros _; rewrite T; reflexivity|]. intros s. rewrite T. apply rest_sta with (l := fun last => last); [rewrite T; cbn; tauto|]. intros last. rewrite <- BE. apply rx_1006; assumption.
Qed.
Lemma bias_one sd st m a b cc d : body_ok adj mw leap sd (BBias m a b cc d) -> one_ok (mkin sd (BBias m a b cc d)) st.
Proof.
  intros (A1 & A2 & A3 & A4). destruct (bias_step sd m a b cc d (StaConv_model.ost0 (os_sender st)) A1 A2 A3 A4) as (f & E & V & B & D).
  exists [f]. split; [unfold Relay_model.tool_step; cbn [i_body i_sender]; rewrite E; reflexivity|]. split; [constructor; [exact V|constructor]|].
  destruct (first_field _ 1230 _ _ B D) as [L T]. change (StaConv_model.frame_type (StaConv_spec.payload_of f)) with (mtype (payload f)) in T.
  apply (carry_one _ f [RSta (StaConv_model.SGloBiases (back16 (stn12 sd)) (m mod 16) (announced m 3 a) (announced m 2 b) (announced m 1 cc) (announced m 0 d))] V); [exact L| | | |].
  - rewrite T. reflexivity.
  - rewrite T. lia.
  - intros tin I. cbn [in_time i_body] in I. destruct I as [_ I]. destruct tin as [ref|]; [|congruence]. split; [discriminate|]. intros s. rewrite T. apply rest_sta with (l := fun _ => ref); [rewrite T; cbn; tauto|]. intros last. exact (rx_1230 g ref last _ _ B D).
  - reflexivity.
Qed.
Lemma raw_one sd st ty p : body_ok adj mw leap sd (BRaw ty p) -> one_ok (mkin sd (BRaw ty p)) st.
Proof.
  intros [W|[-> L2]].
  - destruct (tunnel_one (fun _ _ => true) _ W) as (f & SF & V & AR0). destruct (tunnel_one sbp_ok _ W) as (f' & SF' & _ & AR). unfold Tunnel_proofs.sends in SF, SF'. cbn [s_type s_sender s_payload] in SF, SF'. assert (f' = f) by congruence. subst f'.
    assert (AP : forall e, e = mkrx true (payload f) (len (payload f)) -> Tunnel_proofs.arrives e f) by (intros e ->; unfold Tunnel_proofs.arrives; cbn [rx_len rx_mem]; apply take_all).
    destruct (AR0 _ true (AP _ eq_refl)) as (o0 & E0 & C0). cbn [rx_solved rx_mem rx_len] in E0.
    assert (NE : o0 <> []).
    { unfold Tunnel_spec.carried in C0. cbn [s_type s_sender s_payload] in C0. destruct (ty =? 1025); [destruct C0 as (n & -> & _); discriminate|subst o0; discriminate]. }
    destruct (tun_type _ _ _ E0 NE) as [L T].
    assert (TO : exists o, (forall w, tunnel_rx sbp_ok true (payload f) (len (payload f)) w = Ok (w, o)) /\ Tunnel_spec.carried sbp_ok (mksbp ty sd p) o).
    { destruct (AR _ true (AP _ eq_refl)) as (o1 & E1 & C1). destruct (AR _ false (AP _ eq_refl)) as (o2 & E2 & C2). cbn [rx_solved rx_mem rx_len] in E1, E2. exists o1. split; [|exact C1]. intros [|]; [exact E1|].
      rewrite E2. f_equal. f_equal. clear - E1 E2 T L. unfold tunnel_rx in E1, E2. cbv zeta in E1, E2. rewrite take_all in E1, E2. change (StaConv_model.frame_type (payload f)) with (mtype (payload f)) in E1, E2.
      replace (len (payload f) <? 2) with false in E1, E2 by lia. cbn [negb andb] in E1, E2. cbn [In] in T. destruct (mtype (payload f) =? 1029) eqn:Q1; [destruct (run_dec decode_1029 (payload f)); congruence|].
      destruct (existsb (Z.eqb (mtype (payload f))) msm123) eqn:M; [apply msm123_in in M; lia|]. destruct (mtype (payload f) =? 4062) eqn:Q2; [destruct (run_dec decode_4062 (payload f)); congruence|].
      destruct (mtype (payload f) =? 4075) eqn:Q3; [|congruence]. destruct (run_dec decode_4075 (payload f)) as [[? ?]| | |]; congruence. }
    destruct TO as (o & TO & CA).
    assert (NL : ty <> 1025 \/ 2 <= len p) by (destruct W as ([W|[_ W]] & _); [left; cbn [s_type] in W; unfold tunnelled in W; cbn [In] in W; lia|right; exact W]).
    exists [f]. split.
    { unfold Relay_model.tool_step. cbn [i_body i_sender]. rewrite SF. cbn [bind]. unfold after, leaves_sender. cbn [i_body i_sender]. change SBP_MSG_LOG with 1025. destruct (Z.eqb_spec ty 1025); [|reflexivity]. replace (2 <=? len p) with true by lia. reflexivity. }
    split; [constructor; [exact V|constructor]|]. cbn [In] in T. apply (carry_one _ f (map RTun o) V); [exact L| | | |].
    + apply kind_other. clear - T. cbn [In app converted_msm legacy_numbers]; intuition lia.
    + clear - T. intuition lia.
    + intros tin I. split; [|intros s; apply rest_tun; [cbn [In]; exact T|exact TO]]. intros _. destruct T as [T|[T|[T|[]]]]; rewrite <- T; reflexivity.
    + cbn [i_body i_sender body_came]. replace ((ty =? 1025) && (len p <? 2)) with false by (symmetry; destruct NL; [replace (ty =? 1025) with false by lia; reflexivity|replace (len p <? 2) with false by lia; apply andb_false_r]). exists o. split; [apply map_map|exact CA].
  - apply nothing.
    + unfold Relay_model.tool_step, after, leaves_sender. cbn [i_body i_sender]. unfold tunnel_tx, log_cb. replace (len p <? 2) with true by lia. replace (2 <=? len p) with false by lia. reflexivity.
    + cbn [i_body i_sender body_came]. replace (len p <? 2) with true by lia. reflexivity.
Qed.
Lemma one_msg m st : is_obs m = false -> body_ok adj mw leap (i_sender m) (i_body m) -> one_ok m st.
Proof.
  destruct m as [sd b]. unfold is_obs. cbn [i_sender i_body]. intros O OK. destruct b; try discriminate O.
  - apply base_one; exact OK.
  - apply bias_one; exact OK.
  - apply gps_one; exact OK.
  - apply bds_one; exact OK.
  - apply gal_one; exact OK.
  - apply glo_one; exact OK.
  - apply raw_one; exact OK.
  - apply nothing; reflexivity.
Qed.
End Relay.
