(** C73: legacy observation messages next to MSM messages, repeated and out-of-order messages.
    [ld], [md], [ot]: any decoders and any treatment of other messages; [utc]: any UTC offset; [s]: any state of the converter. *)
From Verif Require Import Base Bits_model Time_model ObsBuffer_model ObsBuffer_spec ObsBuffer_proofs ObsExcl_spec ObsExcl_proofs.

(** what the user sees of observations over a whole history; None: the program aborted *)
Definition observed {obs other_out aux} ld md utc ot (h : list event) (s : rstate obs aux) : option (list (out obs other_out)) :=
  option_map (fun x => seen (snd x)) (decode_all ld md utc ot h s).

(** ** a legacy message less than 5 s after the last MSM message (or before it) has no effect on any observation output, now or later *)
Theorem C73_legacy_ignored_after_msm : forall (obs other_out aux : Type) ld md utc ot (s : rstate obs aux) h1 m x h2 e y h3,
  msm_at md utc m x -> Forall no_msm h2 -> legacy_gps ld utc e y \/ legacy_glo ld utc False e y -> y < x + 5000 ->
  observed (other_out := other_out) ld md utc ot (h1 ++ m :: h2 ++ e :: h3) s = observed ld md utc ot (h1 ++ m :: h2 ++ h3) s.
Proof.
  intros obs oo aux ld md utc ot s h1 m x h2 e y h3 M N H Y. unfold observed.
  replace (h1 ++ m :: h2 ++ e :: h3) with ((h1 ++ m :: h2) ++ e :: h3) by (rewrite <- app_assoc; reflexivity).
  replace (h1 ++ m :: h2 ++ h3) with ((h1 ++ m :: h2) ++ h3) by (rewrite <- app_assoc; reflexivity).
  apply (leave_out ld md utc ot). intros s1 o1 E. destruct (after_msm ld md utc ot h1 m h2 x s s1 o1 M N E) as (t & g & V & X & Lm & _).
  assert (B : msm_blocks y s1) by (unfold msm_blocks; rewrite Lm, X; split; [exact V|lia]).
  destruct H as [H|H]; [exact (gps_blocked ld md utc ot e y s1 H (or_introl B))|exact (glo_blocked ld md utc ot e y s1 H (or_introl B))].
Qed.

(** ** a legacy message not later than an earlier one of the same system has no effect either (no MSM message in between) *)
Theorem C73_repeated_gps_ignored : forall (obs other_out aux : Type) ld md utc ot (s : rstate obs aux) h1 d x h2 e y h3,
  legacy_gps ld utc d x -> Forall no_msm h2 -> legacy_gps ld utc e y -> y <= x ->
  observed (other_out := other_out) ld md utc ot (h1 ++ d :: h2 ++ e :: h3) s = observed ld md utc ot (h1 ++ d :: h2 ++ h3) s.
Proof.
  intros obs oo aux ld md utc ot s h1 d x h2 e y h3 D N H Y. unfold observed.
  replace (h1 ++ d :: h2 ++ e :: h3) with ((h1 ++ d :: h2) ++ e :: h3) by (rewrite <- app_assoc; reflexivity).
  replace (h1 ++ d :: h2 ++ h3) with ((h1 ++ d :: h2) ++ h3) by (rewrite <- app_assoc; reflexivity).
  apply (leave_out ld md utc ot). intros s1 o1 E. destruct (mid_state ld md utc ot h1 d h2 s s1 o1 E) as (s2 & o2 & s3 & o3 & o4 & _ & E2 & E3).
  pose proof (gps_marks ld md utc ot d x s2 s3 o3 D E2) as B. destruct (run_lasts ld md utc ot h2 s3 s1 o4 N E3) as (Am & Ag & _).
  apply (gps_blocked ld md utc ot e y s1 H). destruct B as [(B1 & B2)|B].
  - left. unfold msm_blocks. rewrite Am. split; [exact B1|lia].
  - right. destruct (later_blocks _ _ x Ag B) as (C1 & C2). split; [exact C1|lia].
Qed.
(** for GLONASS, if the earlier one was not refused as implausible (more than 30 s from receiver time plus UTC offset) *)
Theorem C73_repeated_glo_ignored : forall (obs other_out aux : Type) ld md utc ot (s : rstate obs aux) h1 d x h2 e y h3,
  legacy_glo ld utc True d x -> Forall no_msm h2 -> legacy_glo ld utc False e y -> y <= x ->
  observed (other_out := other_out) ld md utc ot (h1 ++ d :: h2 ++ e :: h3) s = observed ld md utc ot (h1 ++ d :: h2 ++ h3) s.
Proof.
  intros obs oo aux ld md utc ot s h1 d x h2 e y h3 D N H Y. unfold observed.
  replace (h1 ++ d :: h2 ++ e :: h3) with ((h1 ++ d :: h2) ++ e :: h3) by (rewrite <- app_assoc; reflexivity).
  replace (h1 ++ d :: h2 ++ h3) with ((h1 ++ d :: h2) ++ h3) by (rewrite <- app_assoc; reflexivity).
  apply (leave_out ld md utc ot). intros s1 o1 E. destruct (mid_state ld md utc ot h1 d h2 s s1 o1 E) as (s2 & o2 & s3 & o3 & o4 & _ & E2 & E3).
  pose proof (glo_marks ld md utc ot d x s2 s3 o3 D E2) as B. destruct (run_lasts ld md utc ot h2 s3 s1 o4 N E3) as (Am & _ & Ag).
  apply (glo_blocked ld md utc ot e y s1 H). destruct B as [(B1 & B2)|B].
  - left. unfold msm_blocks. rewrite Am. split; [exact B1|lia].
  - right. destruct (later_blocks _ _ x Ag B) as (C1 & C2). split; [exact C1|lia].
Qed.

(** ** the legacy stream resumes: 5 s after the last MSM message a legacy GPS message newer than its predecessors is used completely
    (or the user is told that the epoch is full) *)
Theorem C73_legacy_resumes : forall (obs other_out aux : Type) ld md utc ot (a : aux) h1 m x h2 e y,
  unsigned_fields ld md -> times_valid (h1 ++ m :: h2) ->
  msm_at md utc m x -> Forall no_msm h2 -> (forall d, In d h2 -> is_legacy_gps_number d -> exists z, legacy_gps ld utc d z /\ z < y) ->
  legacy_gps ld utc e y -> x + 5000 <= y ->
  exists (s1 s2 : rstate obs aux) (o1 o2 : list (out obs other_out)),
    decode_all ld md utc ot (h1 ++ m :: h2) (r_init a) = Some (s1, o1) /\ decode_payload ld md utc ot (fst e) (snd e) s1 = Some (s2, o2) /\
    (carried o2 ++ r_buf s2 = r_buf s1 ++ observations ld md (snd e) \/
     In OFull o2 /\ exists c1 c2, observations ld md (snd e) = c1 ++ c2 /\ c2 <> [] /\ carried o2 ++ r_buf s2 = r_buf s1 ++ c1).
Proof.
  intros obs oo aux ld md utc ot a h1 m x h2 e y U V M N H E Y.
  destruct (history_ok (other_out := oo) ld md utc ot (fun _ _ _ => True) (h1 ++ m :: h2) U V) with (s := r_init (obs := obs) a) as (s1 & o1 & E1 & (L1 & _) & _).
  { intros. apply Forall_forall. auto. } { apply init_good. }
  destruct (mid_state ld md utc ot h1 m h2 _ _ _ E1) as (s2 & o2 & s3 & o3 & o4 & _ & E2 & E3).
  destruct (msm_marks ld md utc ot m x s2 s3 o3 M E2) as (t & Vt & X & Lg & _ & Lm).
  destruct (run_lasts ld md utc ot h2 s3 s1 o4 N E3) as (Am & _ & _).
  assert (Bg : at_ms (r_last_gps s1) < y) by (apply (run_bound ld md utc ot h2 y s3 s1 o4 N H); [rewrite Lg, X; lia|exact E3]).
  destruct E as (ref & p & mm & -> & G & L & T & D & I). cbn [fst snd]. destruct (week_instant ld md utc ot ref _ y G I) as (u & Eu & Vu & Xu).
  assert (K : kind_of (message_type p) = KGps) by (cbn [In] in T; unfold kind_of; destruct T as [<-|[<-|[]]]; reflexivity).
  assert (Eo : observations ld md p = somes (l_cands mm)) by (unfold observations; rewrite K, D; reflexivity). rewrite Eo.
  destruct (legacy_gps_kept (other_out := oo) ld md utc ot ref p s1 mm u L L1 K D Eu Vu) as (s4 & o5 & E4 & c1 & c2 & S & Q & Nf).
  { destruct (is_msm_active u s1) eqn:A; [|reflexivity]. exfalso. apply active_iff in A; [|exact Vu]. destruct A as (_ & A). rewrite Am, Lm in A. lia. }
  { destruct (gps_time_valid (r_last_gps s1)) eqn:W; [right|left; reflexivity]. rewrite diff_ms by assumption. lia. }
  exists s1, s4, o1, o5. split; [exact E1|]. split; [exact E4|]. destruct c2 as [|z c2].
  - left. rewrite app_nil_r in S. rewrite S. exact Q.
  - right. split; [apply Nf; discriminate|]. exists c1, (z :: c2). split; [exact S|]. split; [discriminate|exact Q].
Qed.

(** ** findings *)
(** one legacy message with a wrong time in the future (up to half a week) silences the station: all later legacy messages with right
    times, up to that time, are ignored *)
Theorem C73_future_time_blocks_refuted : forall (obs other_out aux : Type) ld md utc ot (s : rstate obs aux) d x h,
  legacy_gps ld utc d x -> Forall (fun e => exists y, legacy_gps ld utc e y /\ y <= x) h ->
  observed (other_out := other_out) ld md utc ot (d :: h) s = observed ld md utc ot [d] s.
Proof.
  intros obs oo aux ld md utc ot s d x h D. induction h as [|e h IH] using rev_ind; intros F; [reflexivity|].
  apply Forall_app in F. destruct F as (F & Fe). inversion Fe as [|? ? (y & He & Y) _]; subst. rewrite <- IH by exact F.
  pose proof (C73_repeated_gps_ignored obs oo aux ld md utc ot s [] d x h e y [] D) as R. cbn [app] in R. rewrite app_nil_r in R. apply R; [|exact He|exact Y].
  rewrite Forall_forall in F |- *. intros z I. destruct (F z I) as (u & (ref & p & m & -> & _ & _ & T & _) & _). unfold no_msm. cbn [snd In] in *. lia.
Qed.
(** decoders for the examples: byte 2: hours, byte 3: seconds of the time of week, byte 4: station / sync; bytes 7..: observations *)
Definition tw (p : list Z) : Z := 3600000 * (znth 0 2 p mod 168) + 1000 * (znth 0 3 p mod 256).
Definition ex_legacy (ty : Z) (p : list Z) : option (legacy_msg Z) := Some (mklegacy (tw p) 1 0 (map Some (drop 7 p))).
Definition ex_msm (ty : Z) (p : list Z) : option (msm_msg Z) := Some (mkmsm (tw p) 1 (drop 7 p)).
Definition ex_run := observed ex_legacy ex_msm (fun _ => 18) (fun _ _ (_ : rstate Z unit) => (tt, @nil unit)).
Definition noon : gtime := mkt 2100 (12 * 3600000).
Definition m1004 (h s : Z) (os : list Z) : event := (Some noon, [0x3E; 0xC0; h; s; 0; 0; 0] ++ os).
Definition m1074 (h s multiple : Z) (os : list Z) : event := (Some noon, [0x43; 0x20; h; s; 0; 0; 2 * multiple] ++ os).
(** three days of right messages after a message dated three days ahead: the first of them already is not forwarded *)
Example C73_future_time_example : legacy_gps ex_legacy (fun _ => 18) (m1004 84 0 [9]) (2100 * 604800000 + 84 * 3600000) /\
  legacy_gps ex_legacy (fun _ => 18) (m1004 12 1 [5]) (2100 * 604800000 + 12 * 3600000 + 1000) /\
  ex_run [m1004 84 0 [9]; m1004 12 1 [5]; m1004 12 2 [6]] (r_init tt) = Some [OObs 61569 2100 302400000 0x10 [9]] /\
  ex_run [m1004 12 0 [9]; m1004 12 1 [5]; m1004 12 1 [5]; m1004 12 2 [6]] (r_init tt) =
    Some [OObs 61569 2100 43200000 0x10 [9]; OObs 61569 2100 43201000 0x10 [5]; OObs 61569 2100 43202000 0x10 [6]].
Proof.
  split; [|split; [|split; vm_compute; reflexivity]].
  - exists noon. eexists. eexists. split; [reflexivity|]. split; [unfold good_time; cbn; lia|]. split; [vm_compute; discriminate|]. split; [right; left; reflexivity|]. split; [reflexivity|].
    unfold instant_of_week. split; [vm_compute; split; [discriminate|reflexivity]|]. split; [vm_compute; reflexivity|vm_compute; reflexivity].
  - exists noon. eexists. eexists. split; [reflexivity|]. split; [unfold good_time; cbn; lia|]. split; [vm_compute; discriminate|]. split; [right; left; reflexivity|]. split; [reflexivity|].
    unfold instant_of_week. split; [vm_compute; split; [discriminate|reflexivity]|]. split; [vm_compute; reflexivity|vm_compute; reflexivity].
Qed.
(** a repeated MSM message is not recognised: its observations appear twice, within one epoch or as a second epoch of the same time *)
Theorem C73_repeated_msm_refuted :
  ex_run [m1074 12 1 1 [5]; m1074 12 1 1 [5]; m1074 12 1 0 [6]] (r_init tt) = Some [OObs 61569 2100 43201000 0x10 [5; 5; 6]] /\
  ex_run [m1074 12 1 0 [5]; m1074 12 1 0 [5]] (r_init tt) = Some [OObs 61569 2100 43201000 0x10 [5]; OObs 61569 2100 43201000 0x10 [5]].
Proof. split; vm_compute; reflexivity. Qed.
(** nor is an older one: epochs are emitted out of order *)
Theorem C73_msm_order_refuted : ex_run [m1074 12 7 0 [5]; m1074 12 1 0 [6]] (r_init tt) = Some [OObs 61569 2100 43207000 0x10 [5]; OObs 61569 2100 43201000 0x10 [6]].
Proof. vm_compute. reflexivity. Qed.
Example C73_example : msm_at ex_msm (fun _ => 18) (m1074 12 1 0 [5]) (2100 * 604800000 + 12 * 3600000 + 1000) /\
  ex_run [m1074 12 1 0 [5]; m1004 12 1 [6]; m1004 12 5 [7]; m1004 12 6 [8]] (r_init tt) = Some [OObs 61569 2100 43201000 0x10 [5]; OObs 61569 2100 43206000 0x10 [8]].
Proof.
  split; [|vm_compute; reflexivity]. exists noon. eexists. eexists. split; [reflexivity|]. split; [unfold good_time; cbn; lia|]. split; [vm_compute; discriminate|]. split; [reflexivity|]. split; [vm_compute; discriminate|].
  left. split; [left; reflexivity|]. unfold instant_of_week. split; [vm_compute; split; [discriminate|reflexivity]|]. split; [vm_compute; reflexivity|vm_compute; reflexivity].
Qed.

Print Assumptions C73_legacy_ignored_after_msm.
Print Assumptions C73_repeated_gps_ignored.
Print Assumptions C73_repeated_glo_ignored.
Print Assumptions C73_legacy_resumes.
Print Assumptions C73_future_time_blocks_refuted.
Print Assumptions C73_repeated_msm_refuted.
Print Assumptions C73_msm_order_refuted.
