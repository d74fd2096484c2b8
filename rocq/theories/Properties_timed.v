(** Time resolution of received messages in the receiver's own double arithmetic (C20, C21, C18, C73).
    Reference times are arbitrary finite doubles: nothing is assumed about whole seconds or milliseconds. *)
From Coq Require Import Reals Lra.
From Flocq Require Import Core.
From Verif Require Import Base Time_model Double_model Double_proofs MsmVal_model Abs_proofs LegVal_proofs TimeD_model TimeD_proofs.
From Verif Require Import Nmea_model.
Local Open Scope Z_scope.

(** ** Specification *)
(** a usable reference: a finite number of seconds within the week, and not the first or last weeks of the counter *)
Definition usable_ref (t : dtime) : Prop := dfin (ds t) = true /\ (0 <= dR (ds t) < 604800)%R /\ 2 < dw t < 32765.
(** seconds since the GPS epoch of a reference, and of week [w], millisecond [n] *)
Definition secs_of (t : dtime) : R := (IZR (dw t) * 604800 + dR (ds t))%R.
Definition secs_at (w n : Z) : R := (IZR (w * 604800000 + n) / 1000)%R.
Definition near (bound : R) (w n : Z) (ref : dtime) : Prop := (Rabs (secs_at w n - secs_of ref) <= bound)%R.
(** the resolved time [t] is the GPS time (week [w], millisecond of week [n]): what is stored is that to 10 ns, and the SBP stamp is [n] *)
Definition is_time (t : dtime) (w n : Z) : Prop := dw t = w /\ sbp_tow t = Some n /\ 0 <= n < 604800000 /\ valid_d t = true /\ (Rabs (dR (ds t) - IZR n / 1000) <= / 100000000)%R.
(** the GLONASS time of day (Moscow, ms) of GPS millisecond [n] with [leap] leap seconds; during a leap second it exceeds 24 h *)
Definition glo_day_of (n leap tod : Z) : Prop := (n - leap * 1000 + 10800000 - tod) mod 86400000 = 0.
(** the times the receiver stores: results of resolving some message against some reference *)
Definition resolved (t : dtime) (w n : Z) : Prop :=
  is_time t w n /\ ((exists ref, usable_ref ref /\ 0 <= n < 604800000 /\ gps_message_time_d n ref = Some t) \/
                    (exists tod ref leap, usable_ref ref /\ 0 <= tod < 86401000 /\ -128 <= leap <= 127 /\ glo_time_d tod ref leap = Some t)).

(** ** Helpers *)
Lemma usable_valid t : usable_ref t -> valid_d t = true /\ dfin (ds t) = true /\ 2 < dw t < 32765.
Proof.
  intros (F & B & W). split; [|tauto]. unfold valid_d. change d0 with (dofZ 0). destruct (dofZ_exact 0 ltac:(lia)) as [F0 V0]. destruct (dofZ_exact 604800 ltac:(lia)) as [F1 V1].
  rewrite NmeaFields_proofs.dleb_spec, Esf_proofs.dltb_spec, V0, V1 by assumption. destruct (Z.leb_spec 0 (dw t)); [|lia]. rewrite Rle_bool_true by lra. rewrite Rlt_bool_true by lra. reflexivity.
Qed.
Lemma rep_is t n : rep (/ 100000000) (ds t) n -> valid_d t = true -> sbp_tow t = Some n -> 0 <= n < 604800000 -> is_time t (dw t) n.
Proof. intros [[_ A] _] V S B. repeat (split; [auto; fail|]). exact A. Qed.

(** ** Theorems *)
(** C20: a GPS/Galileo/BeiDou/... time of week is resolved to the occurrence nearest the reference, and is what the SBP messages carry *)
Theorem C20_message_time_in_doubles : forall tow ref, 0 <= tow < 604800000 -> usable_ref ref ->
  exists t w, gps_message_time_d tow ref = Some t /\ is_time t w tow /\ near (302400 + / 1000000) w tow ref.
Proof.
  intros tow ref T U. destruct (usable_valid _ U) as (V & F & W). destruct (gps_nearest tow ref T F V ltac:(lia)) as (t & E & R & VT & _ & S & _ & D).
  exists t, (dw t). split; [exact E|]. split; [apply rep_is; assumption|exact D].
Qed.
(** and if the message was transmitted less than half a week (and a microsecond) from the reference, its true time is the result *)
Theorem C20_true_time_recovered_in_doubles : forall w tow ref, 0 <= tow < 604800000 -> usable_ref ref -> near (302400 - 2 / 1000000) w tow ref ->
  exists t, gps_message_time_d tow ref = Some t /\ is_time t w tow.
Proof.
  intros w tow ref T U N. destruct (C20_message_time_in_doubles tow ref T U) as (t & w' & E & I & D). exists t. split; [exact E|]. enough (w' = w) by (subst; exact I).
  unfold near, secs_at in *. apply Rabs_le_inv in N. apply Rabs_le_inv in D. rewrite !plus_IZR, !mult_IZR in *.
  assert (L1 : (IZR (w' - w) < 1)%R) by (rewrite minus_IZR; lra). assert (L2 : (-1 < IZR (w' - w))%R) by (rewrite minus_IZR; lra). apply lt_IZR in L1. apply lt_IZR in L2. lia.
Qed.
(** C21: a GLONASS time of day is resolved to the occurrence nearest the reference, with the leap seconds and the three hours of Moscow time taken out *)
Theorem C21_glo_time_resolved_in_doubles : forall tod ref leap, 0 <= tod < 86401000 -> -128 <= leap <= 127 -> usable_ref ref ->
  exists t w n, glo_time_d tod ref leap = Some t /\ is_time t w n /\ glo_day_of n leap tod /\ near (43200 + / 1000000) w n ref.
Proof.
  intros tod ref leap T L U. destruct (usable_valid _ U) as (V & F & W). destruct (glo_nearest tod ref leap T L F V W) as (t & n & E & R & VT & _ & S & B & C & D).
  exists t, (dw t), n. split; [exact E|]. split; [apply rep_is; assumption|]. split; [exact C|exact D].
Qed.
Theorem C21_true_time_recovered_in_doubles : forall w n tod ref leap, 0 <= n < 604800000 -> 0 <= tod < 86401000 -> -128 <= leap <= 127 -> usable_ref ref ->
  glo_day_of n leap tod -> near (43200 - 2 / 1000000) w n ref -> exists t, glo_time_d tod ref leap = Some t /\ is_time t w n.
Proof.
  intros w n tod ref leap B T L U G N. destruct (C21_glo_time_resolved_in_doubles tod ref leap T L U) as (t & w' & n' & E & I & G' & D). exists t. split; [exact E|].
  assert (B' : 0 <= n' < 604800000) by apply I. unfold near, secs_at in *. apply Rabs_le_inv in N. apply Rabs_le_inv in D.
  set (N1 := w * 604800000 + n) in *. set (N2 := w' * 604800000 + n') in *.
  assert (L1 : (IZR (N2 - N1) < IZR 86400000)%R) by (rewrite minus_IZR; lra). assert (L2 : (IZR (-86400000) < IZR (N2 - N1))%R) by (rewrite minus_IZR; lra). apply lt_IZR in L1. apply lt_IZR in L2.
  unfold glo_day_of in G, G'. apply Z.mod_divide in G; [|lia]. apply Z.mod_divide in G'; [|lia]. destruct G as [k K]. destruct G' as [k' K'].
  assert (N2 = N1).
  { assert (E1 : N2 - N1 = (k' - k + 7 * (w' - w)) * 86400000) by (unfold N1, N2; lia). set (q := k' - k + 7 * (w' - w)) in *. clearbody q. lia. }
  assert (w' = w /\ n' = n) as [-> ->]; [|exact I]. unfold N1, N2 in *. clear - H B B'. lia.
Qed.
(** what is stored is a whole number of milliseconds (seconds exactly) *)
Lemma resolved_rep t w n : resolved t w n -> rep (/ 100000000) (ds t) n /\ dw t = w /\ 0 <= n < 604800000 /\ 0 <= w.
Proof.
  intros [(W & S & B & V & A) H]. assert (W0 : 0 <= w). { unfold valid_d in V. rewrite W in V. destruct (Z.leb_spec 0 w); [lia|discriminate]. }
  split; [|tauto]. destruct H as [(ref & U & T & E)|(tod & ref & leap & U & T & L & E)]; destruct (usable_valid _ U) as (VR & F & WR).
  - destruct (gps_nearest n ref T F VR ltac:(lia)) as (t' & E' & R & _). congruence.
  - destruct (glo_nearest tod ref leap T L F VR WR) as (t' & n' & E' & R & _ & _ & S' & _). assert (t' = t) by congruence. subst t'. congruence.
Qed.
(** C18/C73: "is this a new epoch" is decided on the milliseconds: true exactly when the message is later *)
Theorem C73_newer_epoch_in_doubles : forall t w n last w' n', resolved t w n -> resolved last w' n' -> Z.abs (w - w') <= 1000 ->
  later_d t last = true <-> w' * 604800000 + n' < w * 604800000 + n.
Proof.
  intros t w n last w' n' R R' D. destruct (resolved_rep _ _ _ R) as (A & <- & B & C). destruct (resolved_rep _ _ _ R') as (A' & <- & B' & C').
  rewrite (later_ms t last n n' A A' B B' C C' D). unfold abs_ms. apply Z.ltb_lt.
Qed.
(** C73: legacy observations are held back for five seconds after MSM ones, except that a message exactly 5.000 s later may go either way *)
Theorem C73_msm_timeout_in_doubles_partial : forall t w n last w' n', resolved t w n -> resolved last w' n' -> Z.abs (w - w') <= 1000 ->
  w * 604800000 + n <> w' * 604800000 + n' + 5000 ->
  msm_active_d t last = true <-> w * 604800000 + n < w' * 604800000 + n' + 5000.
Proof.
  intros t w n last w' n' R R' D NE. destruct (resolved_rep _ _ _ R) as (A & <- & B & C). destruct (resolved_rep _ _ _ R') as (A' & <- & B' & C').
  rewrite (active_ms t last n n' A A' B B' C C' D NE). unfold abs_ms. apply Z.ltb_lt.
Qed.
(** on whole seconds there is no exception *)
Theorem C73_msm_timeout_whole_seconds : forall t w n last w' n', resolved t w n -> resolved last w' n' -> Z.abs (w - w') <= 1000 ->
  n mod 1000 = 0 -> n' mod 1000 = 0 -> msm_active_d t last = true <-> w * 604800000 + n < w' * 604800000 + n' + 5000.
Proof.
  intros t w n last w' n' R R' D M M'. destruct (resolved_rep _ _ _ R) as (A & <- & B & C). destruct (resolved_rep _ _ _ R') as (A' & <- & B' & C').
  rewrite (active_whole t last n n' A A' B B' C C' D M M'). unfold abs_ms. apply Z.ltb_lt.
Qed.

(** ** Examples *)
(** a reference at 100000 + 1/3 s of week 2200 *)
Definition ex_ref : dtime := mkdt 2200 (dadd (dofZ 100000) (ddiv (dofZ 1) (dofZ 3))).
Example ex_ref_usable : usable_ref ex_ref.
Proof.
  split; [vm_compute; reflexivity|]. split; [|cbn; lia].
  assert (A : ab (ds ex_ref) (100000 + 1 / 3) (/ 1000)).
  { apply (ab_add 17 100001 _ _ _ _ 0 (/ 10000)); [apply ab_Z; lia| |lia|ra|bl|bl]. apply (ab_div 0 1 (/ 3) _ _ _ _ 0 0); [apply ab_Z; lia|apply ab_Z; lia|lia|ra|lra|lra|lra|bl|bl]. }
  apply ab_iv in A. lra.
Qed.
Definition ex_gps (tow : Z) : dtime := match gps_message_time_d tow ex_ref with Some t => t | None => mkdt (-1) d0 end.
Lemma ex_gps_resolved tow : 0 <= tow < 604800000 -> exists w, resolved (ex_gps tow) w tow.
Proof.
  intros T. destruct (C20_message_time_in_doubles tow ex_ref T ex_ref_usable) as (t & w & E & I & _). exists w. assert (X : ex_gps tow = t) by (unfold ex_gps; rewrite E; reflexivity).
  rewrite X. split; [exact I|]. left. exists ex_ref. split; [apply ex_ref_usable|]. split; [exact T|exact E].
Qed.
Example ex_gps_resolved_7777 : resolved (ex_gps 7777) 2200 7777.
Proof. destruct (ex_gps_resolved 7777 ltac:(lia)) as [w R]. enough (w = 2200) by (subst; exact R). destruct R as [(W & _) _]. rewrite <- W. vm_compute. reflexivity. Qed.
Example ex_gps_resolved_12777 : resolved (ex_gps 12777) 2200 12777.
Proof. destruct (ex_gps_resolved 12777 ltac:(lia)) as [w R]. enough (w = 2200) by (subst; exact R). destruct R as [(W & _) _]. rewrite <- W. vm_compute. reflexivity. Qed.
(** a message from just before the week change, read just after it, belongs to the week before *)
Example ex_week_before : option_map (fun t => (dw t, sbp_tow t)) (gps_message_time_d 604799500 (mkdt 2200 (ddiv (dofZ 1) (dofZ 4)))) = Some (2199, Some 604799500).
Proof. vm_compute. reflexivity. Qed.
(** 03:00:01.125 Moscow time with 18 leap seconds, against a reference on Saturday night: Sunday's time of week in the next week *)
Example ex_glo_next_week : option_map (fun t => (dw t, sbp_tow t)) (glo_time_d 10801125 (mkdt 2200 (dsub (dofZ 604799) (ddiv (dofZ 1) (dofZ 3)))) 18) = Some (2201, Some 19125).
Proof. vm_compute. reflexivity. Qed.
(** the exception at exactly five seconds happens: MSM at 7.777 s, a legacy message at 12.777 s is still held back, though at whole milliseconds it is not within five seconds *)
Theorem C73_refuted_exactly_five_seconds : resolved (ex_gps 12777) 2200 12777 /\ resolved (ex_gps 7777) 2200 7777 /\ msm_active_d (ex_gps 12777) (ex_gps 7777) = true /\
  msm_active_d (ex_gps 5001) (ex_gps 1) = false /\ 12777 = 7777 + 5000.
Proof. split; [apply ex_gps_resolved_12777|]. split; [apply ex_gps_resolved_7777|]. vm_compute. repeat split. Qed.

Print Assumptions C20_message_time_in_doubles.
Print Assumptions C20_true_time_recovered_in_doubles.
Print Assumptions C21_glo_time_resolved_in_doubles.
Print Assumptions C21_true_time_recovered_in_doubles.
Print Assumptions C73_newer_epoch_in_doubles.
Print Assumptions C73_msm_timeout_in_doubles_partial.
Print Assumptions C73_msm_timeout_whole_seconds.
Print Assumptions C73_refuted_exactly_five_seconds.
