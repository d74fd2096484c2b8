(** C88: SSR messages of different constellations and kinds do not interfere in rtcm3tosbp. *)
From Verif Require Import Base Bitstring Bits_model Bitstream_model Bitstream_proofs RtcmMsm_model Time_model RtcmStation_spec RtcmStation_proofs RtcmMsm_proofs Ssr_model Ssr_spec Ssr_proofs.
Local Open Scope Z_scope.

(** the message number of a payload: its first twelve bits *)
Definition number (p : list Z) : Z := val_be (take 12 (bits_of_bytes p)).
(** [p] has the number of an orbit or of a clock message of constellation [k] *)
Definition orbit_or_clock (k : cons) (p : list Z) : bool :=
  existsb (fun kind => match ssr_number k kind with Some n => n =? number p | None => false end) [SKOrbit; SKClock].
Definition systems : list cons := [cGPS; cSBAS; cGLO; cBDS; cQZS; cGAL].

Lemma header_number bs h r : get_header bs = DOk h r -> h_num h = val_be (take 12 bs).
Proof.
  unfold get_header. intros E. destruct (dbind_ok _ _ _ _ _ E) as (num & r1 & G & E1). clear E.
  assert (num = val_be (take 12 bs)) as <-. { unfold get_u in G. destruct (len bs <? 12); [discriminate|congruence]. }
  destruct (epoch_bits (to_constellation num)) as [nb|] eqn:EB; [|discriminate]. cbn [need] in E1.
  destruct (dbind_ok _ _ _ _ _ E1) as (ep & r2 & _ & E2). clear E1.
  do 9 (match goal with E : dbind _ _ _ = DOk h r |- _ => destruct (dbind_ok _ _ _ _ _ E) as (? & ? & _ & ?); clear E end).
  match goal with E : ret _ _ = DOk h r |- _ => unfold ret in E; assert (h_num h = num) as -> by (match type of E with DOk ?a _ = _ => assert (a = h) as <- by congruence end; reflexivity) end. reflexivity.
Qed.
Definition kind_ok (m : ssr_msg) : bool := let n := h_num (hdr_of m) in
  match m with MOrbit _ _ => is_orbit n | MClock _ _ => is_clock n | MBoth _ _ => is_orbit_clock n | MCode _ _ => is_code_bias n | MPhase _ _ => is_phase_bias n end.
Lemma list_msg_inv2 {A B} (test : hdr -> bool) (d : hdr -> dec A) (g : hdr -> list A -> B) bs m r :
  dbind get_header (fun h => if test h then mismatch else dbind (get_list (d h) (nat_of h)) (fun l => ret (g h l))) bs = DOk m r ->
  exists h l, m = g h l /\ test h = false /\ h_num h = val_be (take 12 bs) /\ h_cons h = to_constellation (h_num h).
Proof.
  intros E. destruct (dbind_ok _ _ _ _ _ E) as (h & r1 & E1 & E2). destruct (get_header_inv _ _ _ E1) as (_ & _ & C & _). apply header_number in E1.
  destruct (test h) eqn:T; [discriminate|]. destruct (dbind_ok _ _ _ _ _ E2) as (l & r2 & E3 & E4). exists h, l. unfold ret in E4. split; [congruence|]. auto.
Qed.
Lemma classify_number p m : classify p = Some m -> kind_ok m = true /\ h_num (hdr_of m) = number p /\ h_cons (hdr_of m) = to_constellation (number p).
Proof.
  unfold classify, number. cbv zeta. intros E.
  repeat match type of E with (if ?b then _ else _) = _ => destruct b end; try discriminate.
  all: match type of E with context [run_dec ?d ?qq] => destruct (run_dec d qq) as [[h l]| | |] eqn:R; try discriminate end;
    apply run_dec_inv in R; destruct R as (r & R);
    unfold decode_orbit, decode_clock, decode_code_bias, decode_orbit_clock, decode_phase_bias in R;
    apply (list_msg_inv2 _ _ (fun h l => (h, l))) in R; destruct R as (h' & l' & X1 & X2 & X3 & X4);
    injection X1 as -> ->; injection E as <-; unfold kind_ok; cbn [hdr_of]; apply negb_false_iff in X2; rewrite <- X3; auto.
Qed.
Lemma mem_in n l : mem n l = true -> In n l.
Proof. unfold mem. rewrite existsb_exists. intros (x & I & E). apply Z.eqb_eq in E. subst. exact I. Qed.
(** which messages are those of [orbit_or_clock] *)
Lemma classify_orbit_or_clock p m k : classify p = Some m -> orbit_or_clock k p = match m with MOrbit h _ | MClock h _ => cons_eqb (h_cons h) k | _ => orbit_or_clock k p end.
Proof.
  intros E. destruct (classify_number p m E) as (K & N & C). destruct m; cbn [hdr_of kind_ok] in *; try reflexivity; rewrite C; unfold orbit_or_clock;
    rewrite N in K; unfold kind_ok, is_orbit, is_clock in K; cbn [hdr_of] in K; rewrite ?N in K; apply mem_in in K; cbn [In] in K;
    repeat (destruct K as [K|K]; [rewrite <- K; destruct k; reflexivity|]); contradiction.
Qed.

Lemma set_same c k x : set_entry c k x k = x.
Proof. unfold set_entry. rewrite cons_eqb_refl. reflexivity. Qed.
Lemma set_other c k x j : j <> k -> set_entry c k x j = c j.
Proof. intros N. unfold set_entry. destruct (cons_eqb_spec k j); congruence. Qed.
Lemma on_orbit_local e c d h os c' o : d (h_cons h) = c (h_cons h) -> on_orbit e c h os = Some (c', o) ->
  (exists d', on_orbit e d h os = Some (d', o) /\ d' (h_cons h) = c' (h_cons h)) /\ forall j, j <> h_cons h -> c' j = c j.
Proof.
  intros A. unfold on_orbit. cbv zeta. rewrite A. intros E.
  repeat match type of E with context [match ?x with _ => _ end] => destruct x; try discriminate E end; injection E as <- <-;
    (split; [eexists; split; [reflexivity|rewrite !set_same; reflexivity]|intros j N; apply set_other; exact N]).
Qed.
Lemma on_clock_local e c d h ks c' o : d (h_cons h) = c (h_cons h) -> on_clock e c h ks = Some (c', o) ->
  (exists d', on_clock e d h ks = Some (d', o) /\ d' (h_cons h) = c' (h_cons h)) /\ forall j, j <> h_cons h -> c' j = c j.
Proof.
  intros A. unfold on_clock. cbv zeta. rewrite A. intros E.
  repeat match type of E with context [match ?x with _ => _ end] => destruct x; try discriminate E end; injection E as <- <-;
    (split; [eexists; split; [reflexivity|rewrite !set_same; reflexivity]|intros j N; apply set_other; exact N]).
Qed.
Lemma step_other_any e c d m c' o : separate m = None -> ssr_step e c m = Some (c', o) -> c' = c /\ ssr_step e d m = Some (d, o).
Proof.
  intros S. destruct m; try discriminate S; cbn [ssr_step]; intros E;
    match type of E with match ?x with _ => _ end = _ => destruct x; try discriminate E end; injection E as <- <-; auto.
Qed.
(** a payload of [k]'s orbit and clock messages: same output from any cache with the same entry for [k] *)
Lemma payload_same k e c d p c' o : orbit_or_clock k p = true -> d k = c k -> ssr_payload e c p = Some (c', o) ->
  exists d', ssr_payload e d p = Some (d', o) /\ d' k = c' k.
Proof.
  intros O A. unfold ssr_payload. destruct (classify p) as [m|] eqn:E; [|intros [= <- <-]; exists d; auto].
  pose proof (classify_orbit_or_clock p m k E) as X. rewrite O in X. destruct (separate m) as [h|] eqn:S.
  - destruct m; try discriminate S; injection S as ->; symmetry in X; destruct (cons_eqb_spec (h_cons h) k) as [<-|]; try discriminate X; cbn [ssr_step]; intros R.
    + exact (proj1 (on_orbit_local _ _ _ _ _ _ _ A R)).
    + exact (proj1 (on_clock_local _ _ _ _ _ _ _ A R)).
  - intros R. destruct (step_other_any e c d m c' o S R) as (-> & R'). exists d. auto.
Qed.
(** any other payload leaves [k]'s entry as it is *)
Lemma payload_keeps k e c p c' o : orbit_or_clock k p = false -> ssr_payload e c p = Some (c', o) -> c' k = c k.
Proof.
  intros O. unfold ssr_payload. destruct (classify p) as [m|] eqn:E; [|intros [= <- <-]; auto].
  pose proof (classify_orbit_or_clock p m k E) as X. rewrite O in X. destruct (separate m) as [h|] eqn:S.
  - assert (k <> h_cons h) as N. { intros ->. destruct m; try discriminate S; injection S as ->; rewrite cons_eqb_refl in X; discriminate X. }
    destruct m; try discriminate S; injection S as ->; cbn [ssr_step]; intros R.
    + exact (proj2 (on_orbit_local _ _ c _ _ _ _ eq_refl R) k N).
    + exact (proj2 (on_clock_local _ _ c _ _ _ _ eq_refl R) k N).
  - intros R. destruct (step_other_any e c c m c' o S R) as (-> & _). reflexivity.
Qed.
Lemma run_same k l : forall c d c' os, d k = c k -> ssr_run c l = Some (c', os) ->
  exists d', ssr_run d (filter (fun ep => orbit_or_clock k (snd ep)) l) = Some (d', map snd (filter (fun x => orbit_or_clock k (snd (fst x))) (combine l os))) /\ d' k = c' k.
Proof.
  induction l as [|[e p] l IH]; intros c d c' os A E; cbn [ssr_run] in E.
  - injection E as <- <-. exists d. auto.
  - destruct (ssr_payload e c p) as [[c1 o]|] eqn:P; [|discriminate]. destruct (ssr_run c1 l) as [[c2 r]|] eqn:R; [|discriminate]. injection E as <- <-.
    cbn [combine filter fst snd]. destruct (orbit_or_clock k p) eqn:O.
    + destruct (payload_same k e c d p c1 o O A P) as (d1 & P1 & A1). destruct (IH c1 d1 c2 r A1 R) as (d2 & R2 & A2).
      exists d2. cbn [ssr_run map snd]. rewrite P1, R2. auto.
    + apply IH with (c := c1); [|exact R]. rewrite A. symmetry. exact (payload_keeps k e c p c1 o O P).
Qed.
Lemma payload_alone e c p c' o : (forall k, orbit_or_clock k p = false) -> ssr_payload e c p = Some (c', o) -> c' = c /\ forall d, ssr_payload e d p = Some (d, o).
Proof.
  intros O. unfold ssr_payload. destruct (classify p) as [m|] eqn:E; [|intros [= <- <-]; auto].
  assert (separate m = None) as S.
  { destruct m as [h l|h l|h l|h l|h l]; try reflexivity; pose proof (classify_orbit_or_clock p _ (h_cons h) E) as X; cbn beta iota in X; rewrite O, cons_eqb_refl in X; discriminate X. }
  intros R. split; [exact (proj1 (step_other_any e c c m c' o S R))|]. intros d. exact (proj2 (step_other_any e c d m c' o S R)).
Qed.
Lemma run_len l : forall c c' os, ssr_run c l = Some (c', os) -> length os = length l.
Proof.
  induction l as [|[e p] l IH]; intros c c' os E; cbn [ssr_run] in E; [injection E as <- <-; reflexivity|].
  destruct (ssr_payload e c p) as [[c1 o]|]; [|discriminate]. destruct (ssr_run c1 l) as [[c2 r]|] eqn:R; [|discriminate]. injection E as <- <-. cbn [length]. f_equal. eauto.
Qed.

(** What the orbit and clock messages of a constellation make rtcm3tosbp emit is what they would make it emit if they were received alone, at the same times:
    messages of other constellations and other kinds of corrections in between change nothing *)
Theorem C88_orbit_clock_apart : forall k evs c os, ssr_run empty_cache evs = Some (c, os) ->
  exists c', ssr_run empty_cache (filter (fun ep => orbit_or_clock k (snd ep)) evs) =
    Some (c', map snd (filter (fun x => orbit_or_clock k (snd (fst x))) (combine evs os))).
Proof. intros k evs c os E. destruct (run_same k evs empty_cache empty_cache c os eq_refl E) as (d & R & _). exists d. exact R. Qed.
(** Every other payload (combined corrections, code and phase biases, anything else) makes it emit what it would if it were the only one ever received *)
Theorem C88_others_alone : forall evs c os, ssr_run empty_cache evs = Some (c, os) ->
  forall pre e p post, evs = pre ++ (e, p) :: post -> (forall k, orbit_or_clock k p = false) ->
  exists c', ssr_run empty_cache [(e, p)] = Some (c', [nth (length pre) os []]).
Proof.
  intros evs c os E pre e p post -> O. revert E. generalize empty_cache at 1. revert os. induction pre as [|[e1 p1] pre IH]; intros os c0 E; cbn [app ssr_run] in E.
  - destruct (ssr_payload e c0 p) as [[c1 o]|] eqn:P; [|discriminate]. destruct (ssr_run c1 post) as [[c2 r]|]; [|discriminate]. injection E as <- <-.
    cbn [length nth ssr_run]. destruct (payload_alone e c0 p c1 o O P) as (_ & A). rewrite A. eexists. reflexivity.
  - destruct (ssr_payload e1 c0 p1) as [[c1 o]|]; [|discriminate]. destruct (ssr_run c1 (pre ++ (e, p) :: post)) as [[c2 r]|] eqn:R; [|discriminate]. injection E as <- <-.
    cbn [length nth]. eapply IH. exact R.
Qed.
(** Losing, adding or moving other messages: two streams with the same orbit and clock messages of a constellation, at the same times *)
Theorem C88_same_orbit_clock_same_output : forall k evs1 evs2 c1 os1 c2 os2,
  ssr_run empty_cache evs1 = Some (c1, os1) -> ssr_run empty_cache evs2 = Some (c2, os2) ->
  filter (fun ep => orbit_or_clock k (snd ep)) evs1 = filter (fun ep => orbit_or_clock k (snd ep)) evs2 ->
  map snd (filter (fun x => orbit_or_clock k (snd (fst x))) (combine evs1 os1)) = map snd (filter (fun x => orbit_or_clock k (snd (fst x))) (combine evs2 os2)).
Proof.
  intros k evs1 evs2 c1 os1 c2 os2 E1 E2 F. destruct (C88_orbit_clock_apart k _ _ _ E1) as (d1 & R1). destruct (C88_orbit_clock_apart k _ _ _ E2) as (d2 & R2).
  rewrite F in R1. congruence.
Qed.

(** the hypotheses are met: a GPS orbit message, a GLONASS clock message, a GPS code bias message in between, and the GPS clock message that completes the pair *)
Definition payload_with (fs : list field) : list Z := fst (put_fields (repeat 0 60) 0 fs).
Definition a_hdr (n : Z) (c : cons) (epoch : Z) : hdr := mkhdr n epoch c 2 0 0 7 100 1 0 0 1.
Definition a_stream : list (env * list Z) :=
  let e := mkenv (mkt 2000 100000) (Some 18) in
  [(e, payload_with (f_orbit_msg (a_hdr 1057 cGPS 100) [(0, mkorbit 5 33 1 (-2) 3 4 5 6)]));
   (e, payload_with (f_clock_msg (a_hdr 1064 cGLO 100) [mkwclock 5 9 8 7]));
   (e, payload_with (f_code_msg (a_hdr 1059 cGPS 100) [mkcsat 5 [(2, -7)]]));
   (e, payload_with (f_clock_msg (a_hdr 1058 cGPS 100) [mkwclock 5 10 (-20) 30]))].
Example C88_applies : exists c, ssr_run empty_cache a_stream =
    Some (c, [[]; []; [SCode (mkid 2000 100 0 5 2 7) [(2, -7)]];
              [SOrbitClock (mkid 2000 100 0 5 2 7) 33 (1, -2, 3, (4, 5, 6)) (Some 10, Some (-20), Some 30)]]) /\
  map (fun ep => orbit_or_clock cGPS (snd ep)) a_stream = [true; false; false; true] /\
  map (fun ep => orbit_or_clock cGLO (snd ep)) a_stream = [false; true; false; false].
Proof. eexists. split; [vm_compute; reflexivity|]. split; vm_compute; reflexivity. Qed.
Print Assumptions C88_orbit_clock_apart.
Print Assumptions C88_others_alone.
Print Assumptions C88_same_orbit_clock_same_output.
