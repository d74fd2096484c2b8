(** C68: the messages of an epoch, their frames and what the receiver gets out of them. *)
From Coq Require Import Reals.
From Verif Require Import Base Bitstring Bits_model Bits_proofs Bitstream_model Bitstream_proofs RtcmStation_model RtcmStation_spec RtcmStation_proofs RtcmLegacy_model RtcmLegacy_proofs RtcmMsm_model RtcmMsm_proofs
  RtcmFraming_model RtcmFraming_spec RtcmFrameOut_model RtcmMessage_proofs StaConv_model StaConv_spec StaConv_wire_proofs
  Signals_model Double_model Sbp2Rtcm_model MsmVal_model MsmVal_spec MsmVal_proofs LegVal_model LegVal_spec LegVal_sat_proofs.
Import ListNotations.
Open Scope Z_scope.

Section Epoch.
Variables (wild : dbl -> Z) (code_of : Z -> code) (num_of : code -> Z) (NUM : forall k, code_of (num_of k) = k).
Variable fcns : list Z.
Hypothesis Hmap : fcn_map_ok fcns.

(** *** the two lists of satellites *)
Definition sys_step (s : sys) (o : pobs) (g : list dlsat) : option (list dlsat) :=
  if first_sig s (code_of (o_code o)) then
    match s with
    | GPS => add_l1 (o_sat o) 0 (freq_data o) g
    | GLO => if (0 <=? o_sat o) && (o_sat o <? len fcns) then
               if znth 0 (o_sat o) fcns =? MSM_GLO_FCN_UNKNOWN then Some g else add_l1 (o_sat o) (znth 0 (o_sat o) fcns) (freq_data o) g
             else None
    end
  else if second_sig s (code_of (o_code o)) then Some (set_l2 (o_sat o) (freq_data o) g) else Some g.
Lemma step_sys o g r : leg_step code_of fcns o (g, r) = match sys_step GPS o g, sys_step GLO o r with Some g, Some r => Some (g, r) | _, _ => None end.
Proof.
  unfold leg_step, sys_step.
  destruct (code_of (o_code o)); cbn [first_sig second_sig]; try reflexivity;
    destruct ((0 <=? o_sat o) && (o_sat o <? len fcns)); try reflexivity; destruct (znth 0 (o_sat o) fcns =? MSM_GLO_FCN_UNKNOWN); reflexivity.
Qed.
Fixpoint sys_loop (s : sys) (l : list pobs) (g : list dlsat) : option (list dlsat) :=
  match l with [] => Some g | o :: l => match sys_step s o g with Some g => sys_loop s l g | None => None end end.
Lemma loop_sys l : forall g r g' r', sys_loop GPS l g = Some g' -> sys_loop GLO l r = Some r' -> leg_loop code_of fcns l (g, r) = Some (g', r').
Proof.
  induction l as [|o l IH]; intros g r g' r' E1 E2; cbn [sys_loop leg_loop] in *; [congruence|]. rewrite step_sys.
  destruct (sys_step GPS o g); [|discriminate]. destruct (sys_step GLO o r); [|discriminate]. apply IH; assumption.
Qed.
Lemma glo_map o : 1 <= o_sat o <= 24 -> (0 <=? o_sat o) && (o_sat o <? len fcns) = true /\ znth 0 (o_sat o) fcns = znth 255 (o_sat o) fcns.
Proof.
  intros R. destruct Hmap as [L _]. rewrite L. split; [destruct (Z.leb_spec 0 (o_sat o)); [|lia]; destruct (Z.ltb_spec (o_sat o) 29); [reflexivity|lia]|].
  unfold znth. destruct (Z.ltb_spec (o_sat o) 0); [lia|]. apply nth_indep. unfold len in L. lia.
Qed.
Section Sys.
Variable s : sys.
Let first (o : pobs) := first_sig s (code_of (o_code o)).
Let second (o : pobs) := second_sig s (code_of (o_code o)).
Definition later (l : list pobs) (sv : Z) : option pobs := find (fun o2 => second_sig s (code_of (o_code o2)) && (o_sat o2 =? sv)) l.
Definition upd1 (l : list pobs) (x : dlsat) : dlsat := match later l (ls_sv x) with Some o2 => mkdlsat (ls_sv x) (ls_fcn x) (ls_l1 x) (freq_data o2) | None => x end.
Lemma upd1_nil g : map (upd1 []) g = g. Proof. induction g as [|x g IH]; cbn; [|rewrite IH]; reflexivity. Qed.
Lemma first_not_second o : first o = true -> second o = false.
Proof. unfold first, second. destruct s, (code_of (o_code o)); cbn; congruence. Qed.
Lemma later_skip o l sv : second o && (o_sat o =? sv) = false -> later (o :: l) sv = later l sv.
Proof. intros E. unfold later. cbn [find]. unfold second in E. rewrite E. reflexivity. Qed.
Lemma later_none l sv : ~ In sv (map o_sat (filter second l)) -> later l sv = None.
Proof.
  intros N. unfold later. destruct (find _ l) as [o|] eqn:E; [|reflexivity]. exfalso. apply N. apply find_some in E. destruct E as [I E]. apply andb_true_iff in E. destruct E as [E1 E2].
  apply Z.eqb_eq in E2. rewrite <- E2. apply in_map. apply filter_In. split; assumption.
Qed.
Lemma upd1_sv l x : ls_sv (upd1 l x) = ls_sv x. Proof. unfold upd1. destruct (later l (ls_sv x)); reflexivity. Qed.
Lemma set_l2_upd o l g : NoDup (map ls_sv g) -> second o = true -> ~ In (o_sat o) (map o_sat (filter second l)) ->
  map (upd1 l) (set_l2 (o_sat o) (freq_data o) g) = map (upd1 (o :: l)) g.
Proof.
  intros ND S N. induction g as [|x g IH]; [reflexivity|]. cbn [set_l2 map] in *. apply NoDup_cons_iff in ND. destruct ND as [NI ND].
  destruct (Z.eqb_spec (ls_sv x) (o_sat o)) as [E|E]; cbn [map].
  - f_equal.
    + unfold upd1 at 1. cbn [ls_sv ls_fcn ls_l1]. rewrite E, (later_none l _ N). unfold upd1, later. cbn [find]. unfold second in S. rewrite S, E, Z.eqb_refl. cbn [andb]. reflexivity.
    + apply map_ext_in. intros y Hy. unfold upd1. rewrite later_skip; [reflexivity|]. apply andb_false_intro2. apply Z.eqb_neq. intros Q. apply NI. rewrite E, Q. apply in_map. exact Hy.
  - rewrite (IH ND). f_equal. unfold upd1. rewrite later_skip; [reflexivity|]. apply andb_false_intro2. apply Z.eqb_neq. congruence.
Qed.
Lemma set_l2_sv sv q g : map ls_sv (set_l2 sv q g) = map ls_sv g.
Proof. induction g as [|x g IH]; [reflexivity|]. cbn [set_l2]. destruct (ls_sv x =? sv); cbn [map ls_sv]; [|rewrite IH]; reflexivity. Qed.
Lemma set_l2_len sv q g : len (set_l2 sv q g) = len g.
Proof. unfold len. rewrite <- (map_length ls_sv), set_l2_sv, map_length. reflexivity. Qed.
Lemma sys_loop_spec l : forall g,
  Forall (fun o => first o = true -> 1 <= o_sat o <= match s with GPS => 32 | GLO => 24 end) l -> NoDup (map o_sat (filter first l)) -> NoDup (map o_sat (filter second l)) ->
  NoDup (map ls_sv g) -> (forall x, In x (map ls_sv g) -> ~ In x (map o_sat (filter first l))) -> len g + len (entries code_of s fcns l) <= 31 ->
  sys_loop s l g = Some (map (upd1 l) g ++ map (lsat_of s fcns) (entries code_of s fcns l)).
Proof.
  induction l as [|o l IH]; intros g R D1 D2 DG DJ LN; cbn [sys_loop entries] in *.
  - rewrite upd1_nil, app_nil_r. reflexivity.
  - apply Forall_cons_iff in R. destruct R as [R0 R]. cbn [filter] in D1, D2, DJ.
    unfold sys_step. fold (first o). fold (second o). fold (first o) in LN. destruct (first o) eqn:F1.
    + pose proof (first_not_second o F1) as F2. rewrite F2 in D2. cbn [map] in D1, DJ. apply NoDup_cons_iff in D1. destruct D1 as [NI D1]. specialize (R0 eq_refl).
      assert (SK : forall x, upd1 (o :: l) x = upd1 l x) by (intros x; unfold upd1; rewrite later_skip; [reflexivity|rewrite F2; reflexivity]).
      assert (ADD : forall fc, fc = channel s fcns o -> channel s fcns o <> 255 ->
        match add_l1 (o_sat o) fc (freq_data o) g with Some g => sys_loop s l g | None => None end
        = Some (map (upd1 (o :: l)) g ++ map (lsat_of s fcns) ((o, later l (o_sat o)) :: entries code_of s fcns l))).
      { intros fc -> NE. destruct (Z.eqb_spec (channel s fcns o) 255) as [E|_]; [contradiction|]. cbn [andb negb] in LN. rewrite len_cons in LN. pose proof (len_nonneg (entries code_of s fcns l)).
        unfold add_l1, RTCM_MAX_SATS. destruct (Z.ltb_spec (len g) 32); [|lia]. rewrite IH; try assumption.
        - rewrite map_app. cbn [map]. rewrite <- app_assoc. cbn [app]. f_equal. f_equal; [apply map_ext; intros x; symmetry; apply SK|].
          unfold upd1, lsat_of. cbn [ls_sv ls_fcn ls_l1 fst snd]. destruct (later l (o_sat o)); reflexivity.
        - rewrite map_app. cbn [map ls_sv]. apply (NoDup_Add (Add_app (o_sat o) (map ls_sv g) [])). rewrite app_nil_r. split; [exact DG|intros I; apply (DJ _ I); left; reflexivity].
        - intros x I. rewrite map_app in I. apply in_app_iff in I. destruct I as [I|[<- |[]]]; [intros J; apply (DJ _ I); right; exact J|exact NI].
        - rewrite len_app, len_cons, len_nil. lia. }
      assert (SKIP : channel s fcns o = 255 -> sys_loop s l g = Some (map (upd1 (o :: l)) g ++ map (lsat_of s fcns) (entries code_of s fcns l))).
      { intros E. rewrite E in LN. cbn [Z.eqb Pos.eqb negb andb] in LN. rewrite IH; try assumption.
        - f_equal. f_equal. apply map_ext. intros x. symmetry. apply SK.
        - intros x I J. apply (DJ _ I). right. exact J. }
      fold (later l (o_sat o)). cbn [andb]. destruct s.
      * cbn [channel] in *. cbn [Z.eqb negb]. apply ADD; [reflexivity|discriminate].
      * destruct (glo_map o R0) as [-> ->]. unfold MSM_GLO_FCN_UNKNOWN. cbn [channel] in *. destruct (Z.eqb_spec (znth 255 (o_sat o) fcns) 255) as [E|E]; cbn [negb]; [apply SKIP; exact E|apply ADD; [reflexivity|exact E]].
    + cbn [andb] in *. destruct (second o) eqn:F2.
      * cbn [map] in D2. apply NoDup_cons_iff in D2. destruct D2 as [NI D2]. rewrite IH; try assumption.
        -- rewrite set_l2_upd by assumption. reflexivity.
        -- rewrite set_l2_sv. exact DG.
        -- rewrite set_l2_sv. exact DJ.
        -- rewrite set_l2_len. exact LN.
      * rewrite IH by assumption. f_equal. f_equal. apply map_ext. intros x. unfold upd1. rewrite later_skip; [reflexivity|rewrite F2; reflexivity].
Qed.
End Sys.
Lemma loop_entries l : fits code_of GPS fcns l -> fits code_of GLO fcns l ->
  leg_loop code_of fcns l ([], []) = Some (map (lsat_of GPS fcns) (entries code_of GPS fcns l), map (lsat_of GLO fcns) (entries code_of GLO fcns l)).
Proof.
  intros (A1 & A2 & A3 & A4) (B1 & B2 & B3 & B4).
  apply loop_sys; rewrite sys_loop_spec; try assumption; try reflexivity; try (constructor); try (intros x []).
Qed.

(** *** the body of a message *)
Definition sat_list (r : option pobs * option pobs) : list pobs := opt_list (fst r) ++ opt_list (snd r).
Definition en_ok (s : sys) (en : pobs * option pobs) : Prop :=
  1 <= o_sat (fst en) <= match s with GPS => 32 | GLO => 24 end /\ (s = GLO -> 0 <= channel s fcns (fst en) <= 20) /\ leg_in_range (fst en) /\
  match snd en with Some o2 => leg_in_range o2 | None => True end.
Definition get_sat (s : sys) : dec rxsat := w <- get_raw s ;; ret (sat_value s w).
Lemma body_trip s l : Forall (fun en => en_ok s en /\ (usable_obs (fst en) = true -> entry_ok s fcns en)) l ->
  forall num, 0 <= num -> num + len (filter (fun en => usable_obs (fst en)) l) <= 31 ->
  exists fs, body_d wild s num (map (lsat_of s fcns) l) = Some (fs, num + len (filter (fun en => usable_obs (fst en)) l)) /\ Forall width_ok fs /\
    total fs <= 130 * len (filter (fun en => usable_obs (fst en)) l) /\
    exists xs rs, (forall rest pad, get_list (get_sat s) (length (filter (fun en => usable_obs (fst en)) l)) (fields_bits (fs ++ rest) ++ pad) = DOk xs (fields_bits rest ++ pad)) /\
      Forall2 (entry_outcome code_of s fcns) (filter (fun en => usable_obs (fst en)) l) rs /\ all_some (map (sat_to_sbp num_of s) xs) = Some (map sat_list rs).
Proof.
  intros H. induction H as [|en l [OK EO] Hl IH]; intros num H0 Hn; cbn [filter map body_d] in *.
  - exists []. rewrite len_nil, Z.add_0_r. split; [reflexivity|]. split; [constructor|]. split; [cbn; lia|]. exists [], []. split; [reflexivity|]. split; [constructor|reflexivity].
  - destruct OK as (SV & FC & R1 & R2). destruct (usable_flags (fst en) R1) as [HC HU].
    assert (UE : qv_pr (ls_l1 (lsat_of s fcns en)) && qv_cp (ls_l1 (lsat_of s fcns en)) = usable_obs (fst en)).
    { cbn [lsat_of ls_l1 freq_data qv_pr qv_cp]. rewrite HC, HU. reflexivity. }
    rewrite UE. destruct (usable_obs (fst en)) eqn:U.
    + rewrite len_cons in *. pose proof (len_nonneg (filter (fun en => usable_obs (fst en)) l)).
      destruct (sat_trip wild code_of num_of NUM s fcns en SV FC R1 U R2 (EO eq_refl)) as (w & EW & RW & r & ER & OR). rewrite EW.
      unfold RTCM_MAX_SATS. destruct (Z.leb_spec 32 (num + 1)); [lia|]. destruct (IH (num + 1) ltac:(lia) ltac:(lia)) as (fr & E' & W' & T' & xs & rs & D' & O' & A'). rewrite E'.
      destruct (raw_wire s w RW) as (W & T & D).
      exists (raw_fields s w ++ fr). split; [f_equal; f_equal; lia|]. split; [apply Forall_app; auto|]. split; [rewrite total_app; lia|].
      exists (sat_value s (wire_of w, 0, 0) :: xs), (r :: rs). split; [|split; [constructor; assumption|]].
      * intros rest pad. cbn [length get_list]. rewrite <- app_assoc. unfold dbind at 1. unfold get_sat at 1. unfold dbind at 1. rewrite (D (fr ++ rest) pad). cbn [ret]. unfold dbind. rewrite (D' rest pad). reflexivity.
      * cbn [map all_some]. unfold sat_list at 1. rewrite ER, A'. reflexivity.
    + apply IH; assumption.
Qed.

(** *** a message *)
Definition hdr_in (s : sys) (h : hdr) : Prop := 0 <= h_stn h < 2 ^ 12 /\ 0 <= h_tow h <= max_tow s /\ 0 <= h_sync h < 2 /\ h_div h = 0 /\ h_smooth h = 0.
Lemma message_trip s h l : hdr_in s h -> Forall (fun en => en_ok s en /\ (usable_obs (fst en) = true -> entry_ok s fcns en)) l -> len l <= 31 ->
  exists f m rs, frame_leg wild s h (map (lsat_of s fcns) l) = Ok f /\ valid_frame f /\ frame_type (payload_of f) = k_num (kind_of s) /\ run_dec (decode_leg s) (payload_of f) = Ok m /\ rx_hdr m = h /\
    Forall2 (entry_outcome code_of s fcns) (filter (fun en => usable_obs (fst en)) l) rs /\ leg_to_sbp num_of s m = Some (concat (map sat_list rs)).
Proof.
  intros (H1 & H2 & H3 & H4 & H5) OK LN.
  assert (LF : len (filter (fun en => usable_obs (fst en)) l) <= len l).
  { clear. unfold len. induction l as [|x l IH]; cbn [filter length]; [lia|]. destruct (usable_obs (fst x)); cbn [length]; lia. }
  destruct (body_trip s l OK 0 ltac:(lia) ltac:(lia)) as (body & E & Wb & Tb & xs & rs & D & O & A). cbn [Z.add] in E.
  set (F := filter (fun en => usable_obs (fst en)) l) in *. pose proof (len_nonneg F) as F0. pose proof (total_nonneg _ Wb) as Tb0.
  set (hd := hdr_fields (kind_of s) h (len F)).
  assert (Wh : Forall width_ok hd) by (unfold hd, hdr_fields; destruct s; cbn [kind_of k_sys K1004 K1012 tow_width]; widths).
  assert (Th : total hd = body_start (kind_of s)) by (unfold hd, hdr_fields, body_start; destruct s; reflexivity).
  assert (S0 : 0 < body_start (kind_of s) <= 64) by (unfold body_start; destruct s; cbn; lia).
  set (n := byte_len (body_start (kind_of s) + total body)). assert (NB : 0 < n <= 1017) by (unfold n, byte_len; lia).
  assert (KN : 0 <= k_num (kind_of s) < 2 ^ 12) by (destruct s; cbn; lia).
  assert (RT : round_trips (fun b => match encode_leg wild s h (map (lsat_of s fcns) l) b with Some r => r | None => (b, 0) end) (run_dec (decode_leg s)) n (mkrxmsg h xs)).
  { intros buff Hb Hl. unfold encode_leg. rewrite E. fold hd.
    pose proof (body_then_header buff hd body (body_start (kind_of s)) Hb Wh Wb Th ltac:(unfold n, byte_len in Hl; lia)) as P.
    destruct (put_fields buff (body_start (kind_of s)) body) as [b1 bit]. destruct (put_fields b1 0 hd) as [b2 bit2]. destruct P as (-> & L & B & pad & EB).
    fold n. split; [reflexivity|]. split; [exact L|]. split; [exact B|]. unfold run_dec. fold n in EB. rewrite EB. unfold hd, hdr_fields. cbn [app]. unfold decode_leg.
    assert (KS : k_sys (kind_of s) = s) by (destruct s; reflexivity). rewrite KS.
    assert (TW : 0 <= tow_width s /\ 0 <= h_tow h < 2 ^ tow_width s) by (clear - H2; destruct s; cbn [tow_width max_tow] in *; unfold RTCM_MAX_TOW_MS, RTCM_GLO_MAX_TOW_MS in *; lia).
    destruct TW as [TW1 TW2]. rewrite bind_u by (lia || exact KN). rewrite bind_u by (lia || exact H1). rewrite bind_u by assumption. rewrite bind_u by lia. rewrite bind_u by lia.
    rewrite H4, H5. rewrite bind_u by lia. rewrite bind_u by lia. cbv beta. rewrite Z.eqb_refl. cbn [negb].
    destruct (Z.ltb_spec (max_tow s) (h_tow h)); [lia|]. rewrite to_nat_len. fold (get_sat s). specialize (D [] pad). rewrite app_nil_r in D. unfold dbind. rewrite D. cbn.
    destruct h; cbn in *; subst; reflexivity. }
  destruct (framed _ _ n _ RT NB) as (f & EF & VF & DF & BF & LP).
  exists f, (mkrxmsg h xs), rs. unfold frame_leg.
  assert (ES : exists r, encode_leg wild s h (map (lsat_of s fcns) l) (drop 3 (repeat 0 (Z.to_nat FRAME_ARRAY_LEN))) = Some r).
  { unfold encode_leg. rewrite E. destruct (put_fields _ _ body). destruct (put_fields _ _ _). eexists. reflexivity. }
  destruct ES as (r & ->). split; [exact EF|]. split; [exact VF|]. split; [|split; [exact DF|split; [reflexivity|split; [exact O|]]]].
  - assert (X : exists v, run_dec (expect (k_num (kind_of s)) (stn <- get_u 12 ;; tow <- get_u (tow_width s) ;; sync <- get_u 1 ;; n <- get_u 5 ;; div <- get_u 1 ;; smooth <- get_u 3 ;;
        if max_tow s <? tow then fail else l <- get_list (get_sat s) (Z.to_nat n) ;; ret (mkrxmsg (mkhdr stn tow sync div smooth) l))) (payload_of f) = Ok v).
    { exists (mkrxmsg h xs). revert DF. unfold run_dec, decode_leg, expect. fold (get_sat s). generalize (bits_of_bytes (payload_of f)) as bs. intros bs.
      destruct (get_u 12 bs) as [v r0| | |] eqn:G; try (intros Q; unfold dbind at 1 in Q; rewrite G in Q; discriminate Q).
      rewrite (bind_ok1 (get_u 12) _ bs v r0 G). rewrite (bind_ok1 (get_u 12) _ bs v r0 G).
      destruct (Z.eqb_spec v (k_num (kind_of s))) as [-> | NE]; cbn [negb]; [auto|].
      intros Q. exfalso. revert Q. unfold dbind, mismatch.
      destruct (get_u 12 r0) as [? r1| | |]; try discriminate. destruct (get_u (tow_width s) r1) as [? r2| | |]; try discriminate. destruct (get_u 1 r2) as [? r3| | |]; try discriminate.
      destruct (get_u 5 r3) as [? r4| | |]; try discriminate. destruct (get_u 1 r4) as [? r5| | |]; try discriminate. destruct (get_u 3 r5) as [? r6| | |]; discriminate. }
    destruct X as (v & X). apply (first_field _ _ _ _ BF X).
  - unfold leg_to_sbp, leg_to_sbp_b. change (sat_to_sbp_b num_of (fun _ => d0)) with (sat_to_sbp num_of). cbn [rx_sats]. rewrite A. reflexivity.
Qed.
Lemma entries_in s l en : In en (entries code_of s fcns l) -> In (fst en) l /\ first_sig s (code_of (o_code (fst en))) = true /\ channel s fcns (fst en) <> 255 /\ (forall o2, snd en = Some o2 -> In o2 l).
Proof.
  induction l as [|o l IH]; cbn [entries]; [intros []|]. destruct (first_sig s (code_of (o_code o)) && negb (channel s fcns o =? 255)) eqn:C.
  - intros [<- | I].
    + cbn [fst snd]. apply andb_true_iff in C. destruct C as [C1 C2]. apply negb_true_iff, Z.eqb_neq in C2. split; [left; reflexivity|]. split; [exact C1|]. split; [exact C2|].
      intros o2 E. apply find_some in E. right. tauto.
    + destruct (IH I) as (A & B & C1 & D). split; [right; exact A|]. split; [exact B|]. split; [exact C1|]. intros o2 E. right. apply D. exact E.
  - intros I. destruct (IH I) as (A & B & C1 & D). split; [right; exact A|]. split; [exact B|]. split; [exact C1|]. intros o2 E. right. apply D. exact E.
Qed.
Lemma entries_ok s l : fits code_of s fcns l -> Forall leg_in_range l -> Forall (entry_ok s fcns) (usable_entries code_of s fcns l) ->
  Forall (fun en => en_ok s en /\ (usable_obs (fst en) = true -> entry_ok s fcns en)) (entries code_of s fcns l).
Proof.
  intros (FR & _) RG EO. rewrite Forall_forall in *. intros en I. destruct (entries_in s l en I) as (A & B & C & D). split.
  - split; [apply FR; assumption|]. split.
    + intros ->. cbn [channel] in *. destruct Hmap as [L M]. rewrite Forall_forall in M. specialize (FR _ A B). cbn in FR.
      assert (IM : In (znth 255 (o_sat (fst en)) fcns) fcns).
      { unfold znth. destruct (Z.ltb_spec (o_sat (fst en)) 0); [lia|]. apply nth_In. unfold len in L. lia. }
      destruct (M _ IM); lia.
    + split; [apply RG; exact A|]. destruct (snd en) as [o2|] eqn:E; [apply RG, D; reflexivity|exact Logic.I].
  - intros U. apply EO. apply filter_In. split; assumption.
Qed.
(** *** the epoch *)
Lemma epoch_trip leap e : 0 <= oh_tow (e_hdr e) < 604800000 -> -128 <= leap <= 127 ->
  fits code_of GPS fcns (e_obs e) -> fits code_of GLO fcns (e_obs e) -> Forall leg_in_range (e_obs e) ->
  (forall s, Forall (entry_ok s fcns) (usable_entries code_of s fcns (e_obs e))) ->
  exists fs, legacy_frames wild code_of fcns (Some leap) e = Ok fs /\
    Forall2 (fun s f => valid_frame f /\ frame_type (payload_of f) = k_num (kind_of s) /\
      exists m rs, run_dec (decode_leg s) (payload_of f) = Ok m /\ rx_hdr m = leg_header code_of s fcns leap e /\
        Forall2 (entry_outcome code_of s fcns) (usable_entries code_of s fcns (e_obs e)) rs /\ leg_to_sbp num_of s m = Some (concat (map sat_list rs)))
      (systems_sent code_of fcns (e_obs e)) fs.
Proof.
  intros TOW LK F1 F2 RG EO. unfold legacy_frames. rewrite glo_tod_exact by assumption. rewrite (loop_entries _ F1 F2).
  assert (STN : Z.land (e_sender e) 4095 = e_sender e mod 4096) by (change 4095 with (Z.ones 12); rewrite Z.land_ones by lia; reflexivity). cbv zeta. rewrite STN.
  assert (LM : forall s (l : list (pobs * option pobs)), len (map (lsat_of s fcns) l) = len l) by (intros s l; unfold len; rewrite map_length; reflexivity). rewrite !LM.
  pose proof (Z.mod_pos_bound (e_sender e) 4096 ltac:(lia)) as SR.
  assert (TD : 0 <= glo_tod_spec (oh_tow (e_hdr e)) leap <= max_tow GLO).
  { unfold glo_tod_spec. cbn [max_tow]. unfold RTCM_GLO_MAX_TOW_MS. pose proof (Z.mod_pos_bound ((oh_tow (e_hdr e) + 10800000 - 1000 * leap) mod 604800000) 86400000 ltac:(lia)). lia. }
  destruct (message_trip GPS (leg_header code_of GPS fcns leap e) (entries code_of GPS fcns (e_obs e))) as (fg & mg & rg & EG & PG).
  { unfold hdr_in, leg_header. cbn [h_stn h_tow h_sync h_div h_smooth leg_time max_tow]. unfold RTCM_MAX_TOW_MS. change (2 ^ 12) with 4096. repeat split; try lia; destruct (0 <? _); lia. }
  { apply entries_ok; auto. }
  { apply F1. }
  destruct (message_trip GLO (leg_header code_of GLO fcns leap e) (entries code_of GLO fcns (e_obs e))) as (fr & mr & rr & ER & PR).
  { unfold hdr_in, leg_header. cbn [h_stn h_tow h_sync h_div h_smooth leg_time]. change (2 ^ 12) with 4096. repeat split; try lia; apply TD. }
  { apply entries_ok; auto. }
  { apply F2. }
  unfold leg_header at 1 in EG. unfold leg_header at 1 in ER. cbn [leg_time] in EG, ER.
  unfold systems_sent. cbn [filter]. fold (glo_tod_spec (oh_tow (e_hdr e)) leap) in ER.
  change ((oh_tow (e_hdr e) + 3 * 3600 * 1000 - 1000 * leap) mod (7 * 86400 * 1000) mod (86400 * 1000)) with (glo_tod_spec (oh_tow (e_hdr e)) leap) in ER.
  assert (WG : valid_frame fg /\ frame_type (payload_of fg) = k_num (kind_of GPS) /\ exists m rs, run_dec (decode_leg GPS) (payload_of fg) = Ok m /\ rx_hdr m = leg_header code_of GPS fcns leap e /\
        Forall2 (entry_outcome code_of GPS fcns) (usable_entries code_of GPS fcns (e_obs e)) rs /\ leg_to_sbp num_of GPS m = Some (concat (map sat_list rs))).
  { destruct PG as (? & ? & ? & ? & ? & ?). split; [assumption|]. split; [assumption|]. exists mg, rg. auto. }
  assert (WR : valid_frame fr /\ frame_type (payload_of fr) = k_num (kind_of GLO) /\ exists m rs, run_dec (decode_leg GLO) (payload_of fr) = Ok m /\ rx_hdr m = leg_header code_of GLO fcns leap e /\
        Forall2 (entry_outcome code_of GLO fcns) (usable_entries code_of GLO fcns (e_obs e)) rs /\ leg_to_sbp num_of GLO m = Some (concat (map sat_list rs))).
  { destruct PR as (? & ? & ? & ? & ? & ?). split; [assumption|]. split; [assumption|]. exists mr, rr. auto. }
  clear PG PR. unfold bind.
  destruct (0 <? len (entries code_of GPS fcns (e_obs e))) eqn:LG; destruct (0 <? len (entries code_of GLO fcns (e_obs e))) eqn:LR; rewrite ?EG, ?ER; eexists; (split; [reflexivity|]); cbn [app];
    repeat (apply Forall2_cons; [first [exact WG|exact WR]|]); apply Forall2_nil.
Qed.
End Epoch.
