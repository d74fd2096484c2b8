(** Properties C24, C25 and the SSR part of C14: SSR corrections. *)
From Verif Require Import Base Bitstring Bits_model Bits_proofs Bitstream_model Bitstream_proofs RtcmStation_model RtcmStation_spec RtcmStation_proofs
  RtcmMsm_model Time_model Time_proofs Ssr_model Ssr_spec Ssr_proofs Properties_eph.

(** ** Decoding: a payload laid out as the standard says is read back exactly *)
Theorem C24_orbit_message_decoded : forall p h l, bytes p -> wf_header SKOrbit h (len l) ->
  Forall (fun xo => ubits 10 (fst xo) /\ wf_orbit (h_cons h) (snd xo)) l -> carries p (f_orbit_msg h l) -> classify p = Some (MOrbit h (map snd l)).
Proof. exact classify_orbit. Qed.
Theorem C24_clock_message_decoded : forall p h l, bytes p -> wf_header SKClock h (len l) -> Forall (wf_clock (h_cons h)) l ->
  carries p (f_clock_msg h l) -> classify p = Some (MClock h (map clock_of l)).
Proof. exact classify_clock. Qed.
Theorem C24_orbit_clock_message_decoded : forall p h l, bytes p -> wf_header SKBoth h (len l) ->
  Forall (fun x => ubits 10 (fst (fst x)) /\ wf_orbit (h_cons h) (snd (fst x)) /\ wf_clock (h_cons h) (snd x) /\ wk_sat (snd x) = o_sat (snd (fst x))) l ->
  carries p (f_both_msg h l) -> classify p = Some (MBoth h (map (fun x => (snd (fst x), clock_of (snd x))) l)).
Proof. exact classify_both. Qed.
Theorem C25_code_bias_message_decoded : forall p h l, bytes p -> wf_header SKCode h (len l) -> Forall (wf_code_sat (h_cons h)) l ->
  carries p (f_code_msg h l) -> classify p = Some (MCode h l).
Proof. exact classify_code. Qed.
Theorem C25_phase_bias_message_decoded : forall p h l, bytes p -> wf_header SKPhase h (len l) -> Forall (wf_phase_sat (h_cons h)) l ->
  carries p (f_phase_msg h l) -> classify p = Some (MPhase h l).
Proof. exact classify_phase. Qed.

(** ** C24: for every stream of payloads, with every receiver time, what a separate orbit or clock message makes the converter emit
    is decided by the separate messages of the same constellation before it: nothing, unless the message and the one just before it
    form a pair, in which case it is the join of these two *)
Theorem C24_pairing : forall evs c os, ssr_run empty_cache evs = Some (c, os) ->
  forall pre e p post m h, evs = pre ++ (e, p) :: post -> classify p = Some m -> separate m = Some h ->
  let before := received (h_cons h) (map snd pre) in
  let emitted := nth (length pre) os [] in
  if paired (m :: before) then exists q r, before = q :: r /\ join e m q = Some emitted else emitted = [].
Proof.
  intros evs c os E pre e p post m h Hl Hm Hs before emitted.
  destruct (run_at evs _ _ _ _ empty_ok E pre e p post Hl) as (c1 & c2 & o & A & B & C & _). cbn [app] in A.
  unfold ssr_payload in B. rewrite Hm in B.
  destruct (step_separate e c1 m h before c2 o Hs (A _) (received_cons_of _ _) B) as (_ & _ & R). unfold emitted. rewrite C. exact R.
Qed.
(** the join of an orbit and a clock message: for each clock correction whose satellite has an orbit correction in the other message,
    in order, one message carrying the orbit correction and the clock correction of that satellite, and the orbit message's header data *)
Theorem C24_join : forall e leap ho hk os ks, good_env e leap -> 0 <= h_epoch ho < 2 ^ 20 ->
  exists t, ssr_time e ho = Some t /\
  join e (MOrbit ho os) (MClock hk ks) = join e (MClock hk ks) (MOrbit ho os) /\
  join e (MOrbit ho os) (MClock hk ks) = Some (if time_sec_valid t then
    flat_map (fun k => match find (fun o => o_sat o =? k_sat k) os with
      | Some o => [SOrbitClock (mkid (fst t) (snd t) (l1_code (h_cons ho)) (k_sat k) (h_interval ho) (h_iod ho)) (o_iode o)
                     (o_radial o, o_along o, o_cross o, (o_dradial o, o_dalong o, o_dcross o)) (k_c0 k, k_c1 k, k_c2 k)]
      | None => [] end) (take (Z.min (len ks) (len os)) ks) else []).
Proof.
  intros e leap ho hk os ks He Hh. destruct (ssr_time_good e leap ho He Hh) as (t & Ht & _). exists t. split; [exact Ht|]. split; [reflexivity|].
  cbn [join]. unfold separate_to_sbp. rewrite (per_sat_ok _ _ _ _ _ _ Ht). f_equal. destruct (time_sec_valid t); [|reflexivity].
  apply flat_map_ext. intros k. unfold find_orbit. destruct (find _ os) as [o|] eqn:F; [|reflexivity]. apply find_some in F. destruct F as [_ F].
  apply Z.eqb_eq in F. unfold orbit_clock_out, ident. rewrite F. reflexivity.
Qed.
(** every combined message that a separate message makes the converter emit comes from an orbit and a clock of two messages, one earlier
    and one now, with the same constellation, epoch and SSR issue, for the satellite it names *)
Theorem C24_same_epoch_same_satellite : forall evs c os, ssr_run empty_cache evs = Some (c, os) ->
  forall pre e p post m h x, evs = pre ++ (e, p) :: post -> classify p = Some m -> separate m = Some h -> In x (nth (length pre) os []) ->
  exists q mq ho orbits hk clocks o k t, In q (map snd pre) /\ classify q = Some mq /\
    (m = MOrbit ho orbits /\ mq = MClock hk clocks \/ m = MClock hk clocks /\ mq = MOrbit ho orbits) /\
    h_epoch ho = h_epoch hk /\ h_iod ho = h_iod hk /\ h_cons ho = h_cons hk /\
    In o orbits /\ In k clocks /\ o_sat o = k_sat k /\ ssr_time e ho = Some t /\ time_sec_valid t = true /\
    x = SOrbitClock (mkid (fst t) (snd t) (l1_code (h_cons ho)) (o_sat o) (h_interval ho) (h_iod ho)) (o_iode o)
          (o_radial o, o_along o, o_cross o, (o_dradial o, o_dalong o, o_dcross o)) (k_c0 k, k_c1 k, k_c2 k).
Proof.
  intros evs c os E pre e p post m h x Hl Hm Hs Hx. pose proof (C24_pairing evs c os E pre e p post m h Hl Hm Hs) as P. cbv zeta in P.
  destruct (paired _) eqn:Q; [|rewrite P in Hx; contradiction]. destruct P as (mq & r & B & J). rewrite B in Q. rewrite paired_cons2 in Q.
  apply andb_true_iff in Q. destruct Q as [Q _].
  assert (In mq (received (h_cons h) (map snd pre))) as I by (rewrite B; left; reflexivity).
  destruct (received_in _ _ _ I) as (q & Iq & Cq). destruct (received_cons_of _ _ _ I) as (hq & Sq & Kq).
  exists q, mq. destruct m as [ho ol|hk kl| | |]; try discriminate; injection Hs as ->; destruct mq as [hq' ol'|hq' kl'| | |]; try discriminate; injection Sq as ->;
    cbn [fits] in Q; apply andb_true_iff in Q; destruct Q as [Q1 Q2]; apply Z.eqb_eq in Q1, Q2; cbn [join] in J;
    destruct (separate_in _ _ _ _ _ _ J Hx) as (o & k & t & H1 & H2 & H3 & H4 & H5 & H6).
  - exists h, ol, hq, kl', o, k, t. do 2 (split; [assumption|]). split; [left; split; reflexivity|]. repeat (split; [congruence || assumption|]). assumption.
  - exists hq, ol', h, kl, o, k, t. do 2 (split; [assumption|]). split; [right; split; reflexivity|]. repeat (split; [congruence || assumption|]). assumption.
Qed.
(** no message takes part in two pairs: when a message is joined with its predecessor, the predecessor itself had been stored without
    emitting anything, and everything of that constellation received in between was not an orbit or clock message *)
Theorem C24_once_per_pair : forall evs c os, ssr_run empty_cache evs = Some (c, os) ->
  forall pre e p post m h, evs = pre ++ (e, p) :: post -> classify p = Some m -> separate m = Some h -> nth (length pre) os [] <> [] ->
  exists pre1 e1 p1 between m1, pre = pre1 ++ (e1, p1) :: between /\ classify p1 = Some m1 /\ fits m m1 = true /\ nth (length pre1) os [] = [] /\
    received (h_cons h) (map snd between) = [].
Proof.
  intros evs c os E pre e p post m h Hl Hm Hs Hx. pose proof (C24_pairing evs c os E pre e p post m h Hl Hm Hs) as P. cbv zeta in P.
  destruct (paired _) eqn:Q; [|contradiction]. destruct P as (mq & r & B & J). rewrite B in Q. rewrite paired_cons2 in Q.
  apply andb_true_iff in Q. destruct Q as [Q Q']. apply negb_true_iff in Q'.
  destruct (received_newest _ _ _ _ B) as (a & p1 & b & A1 & A2 & A3 & A4).
  assert (exists pre1 e1 btw, pre = pre1 ++ (e1, p1) :: btw /\ map snd pre1 = a /\ map snd btw = b) as (pre1 & e1 & btw & Hpre & Ha & Hb).
  { clear - A1. revert pre A1. induction a as [|x a IH]; intros pre A1.
    - destruct pre as [|[e1 y] pre]; [discriminate|]. cbn in A1. injection A1 as -> <-. exists [], e1, pre. auto.
    - destruct pre as [|[e1 y] pre]; [discriminate|]. cbn in A1. injection A1 as -> A1. destruct (IH _ A1) as (pre1 & e2 & btw & -> & <- & <-).
      exists ((e1, x) :: pre1), e2, btw. auto. }
  exists pre1, e1, p1, btw, mq. split; [exact Hpre|]. split; [exact A2|]. split; [exact Q|]. split; [|rewrite Hb; exact A3].
  assert (In mq (received (h_cons h) (map snd pre))) as I by (rewrite B; left; reflexivity). destruct (received_cons_of _ _ _ I) as (hq & Sq & Kq).
  assert (evs = pre1 ++ (e1, p1) :: (btw ++ (e, p) :: post)) as Hl' by (rewrite Hl, Hpre, <- app_assoc; reflexivity).
  pose proof (C24_pairing evs c os E pre1 e1 p1 _ mq hq Hl' A2 Sq) as P. cbv zeta in P. rewrite Kq, Ha, A4 in P. rewrite Q' in P. exact P.
Qed.
(** orbit and clock messages about the same satellites (each listed once) lose nothing: one message per satellite, in clock order *)
Theorem C24_nothing_dropped : forall e leap ho hk os ks, good_env e leap -> 0 <= h_epoch ho < period (h_cons ho) -> h_cons ho <> cINVALID ->
  NoDup (map k_sat ks) -> (forall k, In k ks -> exists o, In o os /\ o_sat o = k_sat k) ->
  exists out, join e (MOrbit ho os) (MClock hk ks) = Some out /\
    Forall2 (fun k x => exists id iode orb, x = SOrbitClock id iode orb (k_c0 k, k_c1 k, k_c2 k) /\ i_sat id = k_sat k) ks out.
Proof.
  intros e leap ho hk os ks He Hh Hc Hn Hin.
  assert (0 <= h_epoch ho < 2 ^ 20) as Hh' by (assert (period (h_cons ho) <= 604800) by (destruct (h_cons ho); cbn; lia); change (2 ^ 20) with 1048576; lia).
  destruct (ssr_time_good e leap ho He Hh') as (t & Ht & _ & V). specialize (V ltac:(lia) Hc).
  destruct (C24_join e leap ho hk os ks He Hh') as (t' & Ht' & _ & J). assert (t' = t) as -> by congruence. rewrite V in J.
  assert (len ks <= len os) as L.
  { unfold len. rewrite <- (map_length k_sat ks), <- (map_length o_sat os). apply inj_le. apply NoDup_incl_length; [exact Hn|].
    intros s X. apply in_map_iff in X. destruct X as (k & <- & Hk). destruct (Hin k Hk) as (o & Ho & <-). now apply in_map. }
  rewrite take_all in J by lia. eexists. split; [exact J|]. clear J Hn L. induction ks as [|k ks IH]; [constructor|]. cbn [flat_map].
  destruct (find (fun o => o_sat o =? k_sat k) os) as [o|] eqn:F.
  - cbn [app]. constructor; [|apply IH; intros; apply Hin; right; assumption]. do 3 eexists. split; [reflexivity|reflexivity].
  - exfalso. destruct (Hin k ltac:(left; reflexivity)) as (o & Ho & Hs). pose proof (find_none _ _ F o Ho) as X. cbn in X. apply Z.eqb_neq in X. congruence.
Qed.
(** finding: a clock correction at an index at or beyond the number of orbit corrections is dropped although its satellite has an orbit correction *)
Theorem C24_refuted_late_clock_dropped : forall e ho hk o, exists ks, In (full_clock (o_sat o) 1 2 3) ks /\
  forall out, join e (MOrbit ho [o]) (MClock hk ks) = Some out -> out = [].
Proof.
  intros e ho hk o. exists [full_clock (o_sat o + 1) 4 5 6; full_clock (o_sat o) 1 2 3]. split; [right; left; reflexivity|].
  intros out J. cbn [join] in J. unfold separate_to_sbp in J.
  change (take (Z.min (len [full_clock (o_sat o + 1) 4 5 6; full_clock (o_sat o) 1 2 3]) (len [o])) [full_clock (o_sat o + 1) 4 5 6; full_clock (o_sat o) 1 2 3])
    with [full_clock (o_sat o + 1) 4 5 6] in J.
  cbn [per_sat find_orbit find k_sat full_clock] in J. replace (o_sat o =? o_sat o + 1) with false in J by (symmetry; apply Z.eqb_neq; lia). congruence.
Qed.
(** a combined message (1060, ...) gives one message per satellite, in order *)
Theorem C24_combined : forall e leap h l c, good_env e leap -> 0 <= h_epoch h < period (h_cons h) -> h_cons h <> cINVALID ->
  exists t, ssr_time e h = Some t /\ ssr_step e c (MBoth h l) = Some (c,
    map (fun ok => SOrbitClock (mkid (fst t) (snd t) (l1_code (h_cons h)) (o_sat (fst ok)) (h_interval h) (h_iod h)) (o_iode (fst ok))
      (o_radial (fst ok), o_along (fst ok), o_cross (fst ok), (o_dradial (fst ok), o_dalong (fst ok), o_dcross (fst ok)))
      (k_c0 (snd ok), k_c1 (snd ok), k_c2 (snd ok))) l).
Proof.
  intros e leap h l c He Hh Hc.
  assert (0 <= h_epoch h < 2 ^ 20) as Hh' by (assert (period (h_cons h) <= 604800) by (destruct (h_cons h); cbn; lia); change (2 ^ 20) with 1048576; lia).
  destruct (ssr_time_good e leap h He Hh') as (t & Ht & _ & V). specialize (V ltac:(lia) Hc). exists t. split; [exact Ht|].
  cbn [ssr_step]. unfold combined_to_sbp. rewrite (per_sat_ok _ _ _ _ _ _ Ht), V. reflexivity.
Qed.
(** the time of every correction is the instant nearest the receiver's time that the epoch time of its message can denote *)
Theorem C24_time : forall e leap h, good_env e leap -> 0 <= h_epoch h < 2 ^ 20 -> exists t, ssr_time e h = Some t /\
  (time_sec_valid t = true -> 0 <= fst t < 32767 /\ 0 <= snd t < 604800 /\ denotes (h_cons h) leap (h_epoch h) (fst t) (snd t) /\
     2 * Z.abs ((fst t * 604800 + snd t) * 1000 - (wn (e_rover e) * 604800000 + tow (e_rover e))) <= period (h_cons h) * 1000) /\
  (h_epoch h < period (h_cons h) -> h_cons h <> cINVALID -> time_sec_valid t = true).
Proof. exact ssr_time_good. Qed.
(** finding: an epoch time of a week or more is not a time of week; it is rejected for every constellation but BeiDou, where it wraps *)
Theorem C24_refuted_bds_epoch_wraps : exists e, good_env e 18 /\
  (exists t, ssr_time e (mkhdr 1057 700000 cGPS 0 0 0 0 0 0 0 0 1) = Some t /\ time_sec_valid t = false) /\
  ssr_time e (mkhdr 1258 700000 cBDS 0 0 0 0 0 0 0 0 1) = ssr_time e (mkhdr 1258 95200 cBDS 0 0 0 0 0 0 0 0 1) /\
  (exists t, ssr_time e (mkhdr 1258 700000 cBDS 0 0 0 0 0 0 0 0 1) = Some t /\ time_sec_valid t = true).
Proof.
  exists (mkenv (mkt 2000 100000) (Some 18)). split; [unfold good_env; cbn; repeat split; lia|].
  split; [eexists; split; reflexivity|]. split; [reflexivity|]. eexists; split; reflexivity.
Qed.
(** whatever the payloads, the converter neither aborts nor reads the wrong member of the cache union *)
Theorem C24_never_aborts : forall evs, Forall (fun ep => exists leap, good_env (fst ep) leap) evs -> exists c os, ssr_run empty_cache evs = Some (c, os).
Proof. intros evs H. exact (run_some evs empty_cache [] empty_ok H). Qed.

(** ** C25 *)
(** the arrays hold 64 satellites and 32 biases per satellite: no accepted payload fills more *)
Theorem C25_counts_in_bounds : forall p m, classify p = Some m -> 0 <= nsats_of m < 64 /\
  match m with MCode _ l => Forall (fun s => len (cb_biases s) < 32) l | MPhase _ l => Forall (fun s => len (pb_biases s) < 32) l | _ => True end.
Proof.
  intros p m H. destruct (classify_inv _ _ H) as (_ & _ & B & _). split; [exact B|]. destruct m; auto.
  - pose proof (code_counts _ _ _ H) as F. revert F. apply Forall_impl. intros; lia.
  - pose proof (phase_counts _ _ _ H) as F. revert F. apply Forall_impl. intros; lia.
Qed.
(** every satellite of a code bias message: exactly one SBP message, with all its biases in order *)
Theorem C25_code_biases_complete : forall e leap p h l c, good_env e leap -> classify p = Some (MCode h l) -> h_epoch h < period (h_cons h) ->
  exists t, ssr_time e h = Some t /\ ssr_payload e c p = Some (c,
    map (fun s => SCode (mkid (fst t) (snd t) (l1_code (h_cons h)) (cb_sat s) (h_interval h) (h_iod h)) (cb_biases s)) l).
Proof.
  intros e leap p h l c He Hp Hh. destruct (classify_inv _ _ Hp) as (H1 & _ & _ & H2). cbn [hdr_of] in *.
  destruct (ssr_time_good e leap h He H1) as (t & Ht & _ & V). specialize (V Hh H2). exists t. split; [exact Ht|].
  unfold ssr_payload. rewrite Hp. cbn [ssr_step]. unfold code_to_sbp. rewrite (per_sat_ok _ _ _ _ _ _ Ht), V. reflexivity.
Qed.
(** every satellite of a phase bias message: one SBP message with all its biases in order; a 31st bias goes into a second message
    with the same header *)
Theorem C25_phase_biases_complete : forall e leap p h l c, good_env e leap -> classify p = Some (MPhase h l) -> h_epoch h < period (h_cons h) ->
  exists t, ssr_time e h = Some t /\ ssr_payload e c p = Some (c,
    flat_map (fun s =>
      let msg := SPhase (mkid (fst t) (snd t) (l1_code (h_cons h)) (pb_sat s) (h_interval h) (h_iod h)) (h_disp h) (h_mw h) (pb_yaw s) (pb_rate s) in
      if len (pb_biases s) <=? 30 then [msg (pb_biases s)] else [msg (take 30 (pb_biases s)); msg (drop 30 (pb_biases s))]) l).
Proof.
  intros e leap p h l c He Hp Hh. destruct (classify_inv _ _ Hp) as (H1 & _ & _ & H2). cbn [hdr_of] in *.
  destruct (ssr_time_good e leap h He H1) as (t & Ht & _ & V). specialize (V Hh H2). exists t. split; [exact Ht|].
  unfold ssr_payload. rewrite Hp. cbn [ssr_step]. unfold phase_to_sbp. rewrite (per_sat_ok _ _ _ _ _ _ Ht), V. do 2 f_equal.
  pose proof (phase_counts _ _ _ Hp) as F. clear - F. induction F as [|s l Hs F IH]; [reflexivity|]. cbn [flat_map]. rewrite IH. f_equal.
  cbv zeta. apply phase_loop_two. exact Hs.
Qed.
(** the conversion's own splitting, for any number of biases: nothing lost, reordered or repeated, at most 30 per message, no empty extra message *)
Theorem C25_phase_split_lossless : forall mk l, exists parts, phase_loop mk [] 0 l = map mk parts /\ concat parts = l /\
  Forall (fun b => len b <= 30) parts /\ (len l <= 30 -> parts = [l]) /\ (l <> [] -> Forall (fun b => b <> []) parts).
Proof. exact phase_loop_full. Qed.

(** ** C14 for the SSR messages *)
Lemma cut_header : cut_safe get_header.
Proof.
  unfold get_header. apply cut_bind; [cut|]. intros n. destruct (epoch_bits (to_constellation n)) as [nb|] eqn:E; [|apply cut_fail]. cbn [need].
  assert (0 <= nb) by (destruct (to_constellation n); cbn in E; try discriminate; injection E as <-; lia).
  apply cut_bind; [apply cut_get_u; assumption|]. intros. unfold opt_bit. cut.
Qed.
Lemma cut_sat c : cut_safe (get_sat c).
Proof. unfold get_sat. destruct c; cbn [sat_bits need]; cut. Qed.
Lemma cut_orbit c s : cut_safe (get_orbit c s).
Proof. unfold get_orbit. destruct c; cbn [iode_bits need]; cut. Qed.
Theorem C14_truncated_ssr_orbit_rejected : truncated_rejected decode_orbit.
Proof.
  refine (truncation _ _). unfold decode_orbit. apply cut_bind; [apply cut_header|]. intros h. apply cut_if; [cut|]. apply cut_bind; [|intros; cut].
  apply cut_list. apply cut_bind; [apply cut_sat|intros; apply cut_orbit].
Qed.
Theorem C14_truncated_ssr_code_bias_rejected : truncated_rejected decode_code_bias.
Proof.
  refine (truncation _ _). unfold decode_code_bias. apply cut_bind; [apply cut_header|]. intros h. apply cut_if; [cut|]. apply cut_bind; [|intros; cut].
  apply cut_list. apply cut_bind; [apply cut_sat|intros]. cut.
Qed.
Theorem C14_truncated_ssr_phase_bias_rejected : truncated_rejected decode_phase_bias.
Proof.
  refine (truncation _ _). unfold decode_phase_bias. apply cut_bind; [apply cut_header|]. intros h. apply cut_if; [cut|]. apply cut_bind; [|intros; cut].
  apply cut_list. apply cut_bind; [apply cut_sat|intros]. cut.
Qed.
(** finding: a clock message cut in the middle of a clock correction is accepted, and members of the struct that were never written are converted *)
Definition sample_clock_payload : list Z := [0x42; 0x20; 0x3E; 0x80; 0x08; 0x00; 0x01; 0x00; 0x2A; 0x80; 0x01; 0x00; 0x02; 0x00; 0x04; 0x00; 0x00; 0x00].
Theorem C14_refuted_truncated_ssr_clock_accepted : exists h c0 c1 c2, run_dec decode_clock sample_clock_payload = Ok (h, [full_clock 21 c0 c1 c2]) /\
  run_dec decode_clock (take 10 sample_clock_payload) = Ok (h, [mkclock 21 None None None]).
Proof. do 4 eexists. split; vm_compute; reflexivity. Qed.

(** ** non-vacuity *)
Definition sample_hdr (n nsats epoch : Z) : hdr := mkhdr n epoch cGPS 2 0 0 3 1 1 0 0 nsats.
Definition sample_orbit (sat : Z) : orbit := mkorbit sat 17 (-5) 6 7 8 (-9) 10.
Definition sample_env : env := mkenv (mkt 2000 100000) (Some 18).
Example C24_env_applies : good_env sample_env 18.
Proof. unfold good_env, sample_env. cbn. repeat split; lia. Qed.
Example C24_header_applies : wf_header SKOrbit (sample_hdr 1057 2 100) 2 /\ Forall (fun xo => ubits 10 (fst xo) /\ wf_orbit cGPS (snd xo)) [(5, sample_orbit 3); (1, sample_orbit 4)].
Proof.
  split; [unfold wf_header, ubits; cbn; repeat split; lia|]. repeat constructor; unfold wf_orbit, ubits, sbits; cbn; repeat split; lia.
Qed.
(** two messages that pair, one satellite of which has no orbit *)
Example C24_pairing_applies :
  let o := MOrbit (sample_hdr 1057 2 100) [sample_orbit 3; sample_orbit 4] in
  let k := MClock (sample_hdr 1058 2 100) [full_clock 4 1 2 3; full_clock 9 4 5 6] in
  paired [k; o] = true /\ paired [k; k; o] = false /\ paired [o; k; o] = false /\ paired [k; o; k; o] = true /\
  exists x, join sample_env k o = Some [x].
Proof. cbn. repeat split. eexists. reflexivity. Qed.
Example C25_thirty_one : len (phase_loop (SPhase (mkid 0 0 0 0 0 0) 0 0 0 0) [] 0 (repeat (mkpbias 1 0 0 0 5) 31)) = 2 /\
  len (phase_loop (SPhase (mkid 0 0 0 0 0 0) 0 0 0 0) [] 0 (repeat (mkpbias 1 0 0 0 5) 30)) = 1.
Proof. split; reflexivity. Qed.
(** the satellite of an emitted message is labelled with the code of the constellation the RTCM message is about, and with no other *)
Theorem C24_constellation_label : forall c c', c <> cINVALID -> (sbp_code_names (l1_code c) c' <-> c' = c).
Proof.
  intros c c' Hc. unfold sbp_code_names. split.
  - intros H. destruct c; try congruence; cbn [l1_code] in H; repeat (destruct H as [H|H]; [congruence|]); destruct H.
  - intros ->. destruct c; try congruence; cbn [l1_code In]; auto 10.
Qed.
Print Assumptions C24_orbit_message_decoded.
Print Assumptions C24_clock_message_decoded.
Print Assumptions C24_orbit_clock_message_decoded.
Print Assumptions C25_code_bias_message_decoded.
Print Assumptions C25_phase_bias_message_decoded.
Print Assumptions C24_pairing.
Print Assumptions C24_join.
Print Assumptions C24_same_epoch_same_satellite.
Print Assumptions C24_once_per_pair.
Print Assumptions C24_nothing_dropped.
Print Assumptions C24_refuted_late_clock_dropped.
Print Assumptions C24_combined.
Print Assumptions C24_time.
Print Assumptions C24_refuted_bds_epoch_wraps.
Print Assumptions C24_never_aborts.
Print Assumptions C25_counts_in_bounds.
Print Assumptions C25_code_biases_complete.
Print Assumptions C25_phase_biases_complete.
Print Assumptions C25_phase_split_lossless.
Print Assumptions C14_truncated_ssr_orbit_rejected.
Print Assumptions C14_truncated_ssr_code_bias_rejected.
Print Assumptions C14_truncated_ssr_phase_bias_rejected.
Print Assumptions C14_refuted_truncated_ssr_clock_accepted.
Print Assumptions C24_constellation_label.
