From Verif Require Import Base RtcmLegacy_model RtcmMsm_model RtcmMsm_spec RtcmMsm_proofs Signals_model Signals_spec.

Lemma code_eqb_spec a b : code_eqb a b = true <-> a = b.
Proof. unfold code_eqb. destruct (code_eq_dec a b); split; congruence. Qed.
Lemma cons_eqb_spec a b : cons_eqb a b = true <-> a = b.
Proof. destruct a, b; cbn; split; congruence. Qed.

(** ** the tables *)
Lemma code_range c id : get_msm_code c id <> CODE_INVALID -> 1 <= id <= 32.
Proof.
  destruct id as [|p|p]; [destruct c; cbn; congruence| |destruct c; cbn; congruence].
  intros H. assert (Hp : (p <= 32)%positive \/ (32 < p)%positive) by lia. destruct Hp as [Hp|Hp]; [lia|]. exfalso. apply H.
  destruct c; cbn; try reflexivity; do 6 (try (destruct p as [p|p|]; [| |try reflexivity; try lia])); try reflexivity; try lia.
Qed.
Definition all_ids : list Z := zrange 1 32.
Lemma in_ids id : 1 <= id <= 32 -> In id all_ids.
Proof. intros. apply in_zrange. lia. Qed.
Definition triple_eqb (a b : cons * Z * code) : bool :=
  let '(c, i, k) := a in let '(c', i', k') := b in cons_eqb c c' && (i =? i') && code_eqb k k'.
Lemma triple_eqb_spec a b : triple_eqb a b = true <-> a = b.
Proof.
  destruct a as [[c i] k], b as [[c' i'] k']. cbn. rewrite !andb_true_iff, cons_eqb_spec, code_eqb_spec, Z.eqb_eq. split.
  - intros [[-> ->] ->]. reflexivity.
  - intros [= -> -> ->]. auto.
Qed.
Lemma in_triples t l : existsb (triple_eqb t) l = true -> In t l.
Proof. intros H. apply existsb_exists in H. destruct H as (x & Hx & E). apply triple_eqb_spec in E. subst. exact Hx. Qed.

(** the switch statements implement the standard's tables plus the aliases *)
Lemma table_sound c id : get_msm_code c id <> CODE_INVALID -> In (c, id, get_msm_code c id) (standard_signals ++ z_tracking).
Proof.
  intros H. pose proof (code_range c id H) as R.
  assert (A : forall c', forallb (fun i => code_eqb (get_msm_code c' i) CODE_INVALID || existsb (triple_eqb (c', i, get_msm_code c' i)) (standard_signals ++ z_tracking)) all_ids = true)
    by (intros c'; destruct c'; vm_compute; reflexivity).
  specialize (A c). rewrite forallb_forall in A. specialize (A id (in_ids id R)). apply orb_true_iff in A. destruct A as [A|A].
  - apply code_eqb_spec in A. contradiction.
  - apply in_triples. exact A.
Qed.
Lemma table_complete c id k : In (c, id, k) (standard_signals ++ z_tracking) -> get_msm_code c id = k /\ k <> CODE_INVALID /\ 1 <= id <= 32 /\ c <> cINVALID.
Proof.
  assert (A : forallb (fun t => let '(c, i, k) := t in code_eqb (get_msm_code c i) k && negb (code_eqb k CODE_INVALID) && (1 <=? i) && (i <=? 32) && negb (cons_eqb c cINVALID))
     (standard_signals ++ z_tracking) = true) by (vm_compute; reflexivity).
  rewrite forallb_forall in A. intros H. specialize (A _ H). cbn beta iota in A. rewrite !andb_true_iff, !negb_true_iff in A.
  destruct A as ((((A & B) & C) & D) & E). apply code_eqb_spec in A.
  repeat split; try lia; auto.
  - intros ->. discriminate B.
  - intros ->. discriminate E.
Qed.

Lemma search_spec c k n : forall i, i + Z.of_nat n = 32 ->
  (i <= search_code c k i n < 32 /\ get_msm_code c (search_code c k i n + 1) = k /\
    (forall j, i <= j < search_code c k i n -> get_msm_code c (j + 1) <> k)) \/
  (search_code c k i n = 32 /\ forall j, i <= j < 32 -> get_msm_code c (j + 1) <> k).
Proof.
  induction n as [|n IH]; intros i Hi; cbn [search_code].
  - right. split; [reflexivity|]. lia.
  - destruct (code_eqb (get_msm_code c (i + 1)) k) eqn:E.
    + apply code_eqb_spec in E. left. repeat split; try lia. exact E.
    + assert (N : get_msm_code c (i + 1) <> k) by (intros X; apply code_eqb_spec in X; congruence).
      destruct (IH (i + 1) ltac:(lia)) as [(R & M & F)|(R & F)].
      * left. repeat split; try lia; [exact M|]. intros j Hj. destruct (Z.eq_dec j i) as [->|]; [exact N|]. apply F. lia.
      * right. split; [exact R|]. intros j Hj. destruct (Z.eq_dec j i) as [->|]; [exact N|]. apply F. lia.
Qed.
Lemma alias_low c id k : In (c, id, k) z_tracking -> exists id', id' < id /\ In (c, id', k) standard_signals.
Proof.
  intros H. unfold z_tracking in H. cbn [In] in H. destruct H as [H|[H|[]]]; injection H as <- <- <-; [exists 3|exists 9]; (split; [lia|]); apply in_triples; vm_compute; reflexivity.
Qed.
(** the search returns the canonical id of the standard *)
Lemma signal_id_spec c k : c <> cINVALID -> k <> CODE_INVALID ->
  exists i, code_to_msm_signal_id k c = Some i /\ 0 <= i <= 32 /\
    ((i < 32 /\ In (c, i + 1, k) standard_signals) \/ (i = 32 /\ forall id, ~ In (c, id, k) standard_signals)).
Proof.
  intros Hc Hk. unfold code_to_msm_signal_id. destruct (cons_eqb c cINVALID) eqn:E1; [apply cons_eqb_spec in E1; contradiction|].
  destruct (code_eqb k CODE_INVALID) eqn:E2; [apply code_eqb_spec in E2; contradiction|].
  exists (search_code c k 0 32). split; [reflexivity|].
  destruct (search_spec c k 32 0 ltac:(reflexivity)) as [(R & M & F)|(R & F)].
  - split; [lia|]. left. split; [lia|]. set (r := search_code c k 0 32) in *.
    pose proof (table_sound c (r + 1)) as S. rewrite M in S. specialize (S Hk). apply in_app_or in S. destruct S as [S|S]; [exact S|].
    destruct (alias_low _ _ _ S) as (id' & L & I). pose proof (table_complete c id' k (in_or_app _ _ _ (or_introl I))) as (T & _ & T2 & _).
    exfalso. apply (F (id' - 1)); [lia|]. replace (id' - 1 + 1) with id' by lia. exact T.
  - split; [lia|]. right. split; [exact R|]. intros id I.
    pose proof (table_complete c id k (in_or_app _ _ _ (or_introl I))) as (T & _ & T2 & _).
    apply (F (id - 1)); [lia|]. replace (id - 1 + 1) with id by lia. exact T.
Qed.
(** at most one position per code, one code per position *)
Lemma standard_functional c id k c' id' k' : In (c, id, k) standard_signals -> In (c', id', k') standard_signals ->
  (k = k' -> c = c' /\ id = id') /\ (c = c' -> id = id' -> k = k').
Proof.
  assert (A : forallb (fun t => forallb (fun t' => let '(c, i, k) := t in let '(c', i', k') := t' in
     implb (code_eqb k k') (cons_eqb c c' && (i =? i'))) standard_signals) standard_signals = true) by (vm_compute; reflexivity).
  intros H1 H2. split.
  - intros ->. rewrite forallb_forall in A. specialize (A _ H1). rewrite forallb_forall in A. specialize (A _ H2). cbn beta iota in A.
    rewrite (proj2 (code_eqb_spec k' k') eq_refl) in A. cbn [implb] in A. apply andb_true_iff in A. destruct A as [A B].
    apply cons_eqb_spec in A. split; [exact A|lia].
  - intros -> ->. pose proof (table_complete _ _ _ (in_or_app _ z_tracking _ (or_introl H1))) as (T1 & _).
    pose proof (table_complete _ _ _ (in_or_app _ z_tracking _ (or_introl H2))) as (T2 & _). congruence.
Qed.
Lemma sig_id_of c k j : sig_pos c k j -> code_to_msm_signal_id k c = Some j /\ 0 <= j < 32 /\ c <> cINVALID /\ k <> CODE_INVALID.
Proof.
  intros H. pose proof (table_complete _ _ _ (in_or_app _ z_tracking _ (or_introl H))) as (_ & T & R & C).
  destruct (signal_id_spec c k C T) as (i & E & R' & [[L I]|[L I]]).
  - destruct (standard_functional _ _ _ _ _ _ H I) as [F _]. destruct (F eq_refl) as [_ F']. replace j with i by lia. repeat split; auto; lia.
  - exfalso. exact (I _ H).
Qed.
Lemma sat_id_of c prn i : c <> cINVALID -> sat_pos c prn i -> prn_to_msm_sat_id prn c = Some i /\ prn_valid c prn = true /\ 0 <= i < 64.
Proof.
  intros Hc [R ->]. unfold prn_to_msm_sat_id, prn_valid. destruct (cons_eqb c cINVALID) eqn:E; [apply cons_eqb_spec in E; contradiction|].
  replace (first_prn c <=? prn) with true by lia. replace (prn <? first_prn c + prn_count c) with true by lia. cbn.
  repeat split; try lia. destruct c; cbn [prn_count] in *; lia.
Qed.
Lemma prn_valid_spec c prn : prn_valid c prn = true <-> c <> cINVALID /\ sat_pos c prn (prn - first_prn c).
Proof.
  unfold prn_valid, sat_pos. rewrite !andb_true_iff, negb_true_iff, <- not_true_iff_false, cons_eqb_spec. intuition lia.
Qed.

(** ** indices relative to a header *)
Lemma nth_set_of_index mask n pos : nth_set mask n pos -> set_count (take pos mask) = n - 1.
Proof. intros (_ & _ & H). lia. Qed.
Lemma count_take n mask : len mask <= 64 -> count_mask n mask = set_count (take n mask).
Proof. intros. apply count_mask_eq. rewrite len_take. lia. Qed.
Lemma set_count_le mask : len mask <= 64 -> set_count mask < 256.
Proof. pose proof (set_count_range mask). lia. Qed.
Lemma find_spec mask n p : len mask <= 64 -> find_nth_mask_value (len mask) mask n = Some p <-> nth_set mask n p.
Proof. intros H. apply find_nth_mask_value_spec; [apply set_count_le; exact H | exact H]. Qed.

Lemma signal_index_round_trip h s k : len (sig_mask h) = 32 ->
  msm_signal_to_code h s = Some k -> k <> CODE_INVALID ->
  exists p, nth_set (sig_mask h) (s + 1) p /\
    (sig_pos (to_constellation (mh_num h)) k p -> code_to_msm_signal_index h k = Some s) /\
    (~ sig_pos (to_constellation (mh_num h)) k p -> In (to_constellation (mh_num h), p + 1, k) z_tracking).
Proof.
  intros L H Hk. unfold msm_signal_to_code in H.
  destruct (find_nth_mask_value 32 (sig_mask h) (s + 1)) as [p|] eqn:F; [|discriminate].
  assert (E : get_msm_code (to_constellation (mh_num h)) (p + 1) = k) by congruence.
  rewrite <- L in F. apply find_spec in F; [|lia]. exists p. split; [exact F|]. split.
  - intros S. unfold code_to_msm_signal_index. destruct (sig_id_of _ _ _ S) as (-> & _). f_equal. rewrite count_take by lia.
    rewrite (nth_set_of_index _ _ _ F). lia.
  - intros S. pose proof (table_sound (to_constellation (mh_num h)) (p + 1)) as T. rewrite E in T. specialize (T Hk).
    apply in_app_or in T. destruct T; [contradiction|assumption].
Qed.
Lemma index_to_signal h k j : len (sig_mask h) = 32 -> sig_pos (to_constellation (mh_num h)) k j -> znth false j (sig_mask h) = true ->
  exists s, code_to_msm_signal_index h k = Some s /\ 0 <= s < set_count (sig_mask h) /\ msm_signal_to_code h s = Some k.
Proof.
  intros L S B. destruct (sig_id_of _ _ _ S) as (E & R & _ & _). exists (set_count (take j (sig_mask h))).
  assert (N : nth_set (sig_mask h) (set_count (take j (sig_mask h)) + 1) j) by (repeat split; try lia; exact B).
  split; [unfold code_to_msm_signal_index; rewrite E, count_take by lia; reflexivity|].
  pose proof (nth_set_range _ _ _ N). pose proof (set_count_range (take j (sig_mask h))). split; [lia|].
  unfold msm_signal_to_code. apply find_spec in N; [|lia]. rewrite L in N. rewrite N. f_equal.
  pose proof (table_complete _ _ _ (in_or_app _ z_tracking _ (or_introl S))) as (T & _). exact T.
Qed.
Lemma sat_index_round_trip h s prn : len (sat_mask h) = 64 ->
  msm_sat_to_prn h s = Some prn -> prn <> PRN_INVALID ->
  prn_to_msm_sat_index h prn = Some s /\ prn_valid (to_constellation (mh_num h)) prn = true /\
  nth_set (sat_mask h) (s + 1) (prn - first_prn (to_constellation (mh_num h))).
Proof.
  intros L H Hp. unfold msm_sat_to_prn in H. cbv zeta in H. set (c := to_constellation (mh_num h)) in *.
  destruct (cons_eqb c cINVALID) eqn:EC; [unfold PRN_INVALID in *; congruence|].
  destruct (find_nth_mask_value 64 (sat_mask h) (s + 1)) as [p|] eqn:F; [|discriminate].
  destruct (prn_valid c ((first_prn c + p) mod 256)) eqn:V; [|unfold PRN_INVALID in *; congruence].
  assert (E : prn = (first_prn c + p) mod 256) by congruence. rewrite <- E in V.
  rewrite <- L in F. apply find_spec in F; [|lia]. pose proof F as (P & _ & _).
  assert (Ep : prn - first_prn c = p).
  { apply prn_valid_spec in V. destruct V as [_ [R _]]. destruct c; cbn [first_prn prn_count] in *; lia. }
  split; [|split; [exact V | rewrite Ep; exact F]].
  unfold prn_to_msm_sat_index. fold c. unfold prn_to_msm_sat_id. rewrite V. f_equal. rewrite Ep, count_take by lia.
  rewrite (nth_set_of_index _ _ _ F). lia.
Qed.
Lemma index_to_sat h prn i : len (sat_mask h) = 64 -> to_constellation (mh_num h) <> cINVALID -> sat_pos (to_constellation (mh_num h)) prn i ->
  znth false i (sat_mask h) = true ->
  exists s, prn_to_msm_sat_index h prn = Some s /\ 0 <= s < set_count (sat_mask h) /\ msm_sat_to_prn h s = Some prn.
Proof.
  intros L C S B. destruct (sat_id_of _ _ _ C S) as (E & V & R). exists (set_count (take i (sat_mask h))).
  assert (N : nth_set (sat_mask h) (set_count (take i (sat_mask h)) + 1) i) by (repeat split; try lia; exact B).
  split; [unfold prn_to_msm_sat_index; rewrite E, count_take by lia; reflexivity|].
  pose proof (nth_set_range _ _ _ N). pose proof (set_count_range (take i (sat_mask h))). split; [lia|].
  unfold msm_sat_to_prn. cbv zeta. set (c := to_constellation (mh_num h)) in *.
  destruct (cons_eqb c cINVALID) eqn:EC; [apply cons_eqb_spec in EC; contradiction|].
  apply find_spec in N; [|lia]. rewrite L in N. rewrite N. destruct S as [S1 S2].
  assert (M : (first_prn c + i) mod 256 = prn) by (destruct c; cbn [first_prn prn_count] in *; lia).
  rewrite M, V. reflexivity.
Qed.

(** ** header construction *)
Lemma len_upd {A} n (f : A -> A) l : length (upd n f l) = length l.
Proof. revert n; induction l as [|x l IH]; intros [|n]; cbn; auto. Qed.
Lemma len_zupd {A} i (f : A -> A) l : len (zupd i f l) = len l.
Proof. unfold len, zupd. rewrite len_upd. reflexivity. Qed.
Lemma nth_upd {A} (d : A) f l : forall n m, (n < length l)%nat -> nth m (upd n f l) d = if Nat.eqb m n then f (nth n l d) else nth m l d.
Proof.
  induction l as [|x l IH]; intros [|n] [|m] H; cbn in *; try lia; try reflexivity.
  rewrite IH by lia. reflexivity.
Qed.
Lemma znth_zupd {A} (d : A) f l i j : 0 <= i < len l -> 0 <= j -> znth d j (zupd i f l) = if j =? i then f (znth d i l) else znth d j l.
Proof.
  intros Hi Hj. unfold znth, zupd. unfold len in Hi. rewrite nth_upd by lia.
  destruct (Z.eqb_spec j i); destruct (Nat.eqb_spec (Z.to_nat j) (Z.to_nat i)); try lia; reflexivity.
Qed.
Lemma set_count_zupd mask i : 0 <= i < len mask -> znth false i mask = false -> set_count (zupd i (fun _ => true) mask) = set_count mask + 1.
Proof.
  intros Hi B. revert i Hi B. induction mask as [|b l IH]; intros i Hi B; [cbn in Hi; unfold len in Hi; cbn in Hi; lia|].
  rewrite len_cons in Hi. destruct (Z.eq_dec i 0) as [->|N].
  - cbn in B. subst b. unfold zupd. cbn [upd Z.to_nat]. rewrite !set_count_cons. lia.
  - rewrite znth_cons in B by lia. specialize (IH (i - 1) ltac:(lia) B).
    unfold zupd in *. replace (Z.to_nat i) with (S (Z.to_nat (i - 1))) by lia. cbn [upd]. rewrite !set_count_cons, IH. lia.
Qed.
Lemma num_sats_eq h : len (sat_mask h) = 64 -> num_sats h = set_count (sat_mask h).
Proof. intros L. unfold num_sats. rewrite count_take by lia. rewrite take_all by lia. reflexivity. Qed.
Lemma num_sigs_eq h : len (sig_mask h) = 32 -> num_sigs h = set_count (sig_mask h).
Proof. intros L. unfold num_sigs. rewrite count_take by lia. rewrite take_all by lia. reflexivity. Qed.
Lemma no_true mask : (forall i, znth false i mask = false) -> set_count mask = 0.
Proof.
  induction mask as [|b l IH]; intros H; [reflexivity|]. rewrite set_count_cons. rewrite IH.
  - specialize (H 0). cbn in H. rewrite H. reflexivity.
  - intros i. destruct (Z.ltb_spec i 0).
    + unfold znth. replace (Z.to_nat i) with 0%nat by lia. specialize (H 1). exact H.
    + specialize (H (i + 1)). rewrite znth_cons in H by lia. replace (i + 1 - 1) with i in H by lia. exact H.
Qed.
Lemma znth_take_false n mask i : (forall i, znth false i mask = false) -> znth false i (take n mask) = false.
Proof.
  intros H. unfold znth, take. specialize (H i). unfold znth in H.
  revert H. generalize (Z.to_nat i) as k. generalize (Z.to_nat n) as m. revert mask. clear.
  intros mask m. revert mask. induction m as [|m IH]; intros [|b l] [|k]; cbn; auto.
Qed.
Lemma num_cells_zero h : len (cell_mask h) = 64 -> (forall i, znth false i (cell_mask h) = false) -> num_cells h = 0.
Proof.
  intros L H. unfold num_cells. rewrite count_take by lia. apply no_true. intros i. apply znth_take_false. exact H.
Qed.

(** adding one signal *)
Lemma add_to_header_spec h k prn i j : building h -> let c := to_constellation (mh_num h) in
  c <> cINVALID -> sat_pos c prn i -> sig_pos c k j ->
  (exists h', msm_add_to_header h k prn = Added h' /\ building h' /\ same_fields h h' /\ cell_mask h' = cell_mask h /\
     (forall x, 0 <= x -> znth false x (sat_mask h') = (x =? i) || znth false x (sat_mask h)) /\
     (forall x, 0 <= x -> znth false x (sig_mask h') = (x =? j) || znth false x (sig_mask h))) \/
  (exists h', msm_add_to_header h k prn = NotAdded h' /\ building h' /\ same_fields h h' /\ cell_mask h' = cell_mask h /\ sig_mask h' = sig_mask h /\
     (forall x, 0 <= x -> znth false x (sat_mask h') = true -> x = i \/ znth false x (sat_mask h) = true) /\
     (forall x, 0 <= x -> znth false x (sat_mask h) = true -> znth false x (sat_mask h') = true) /\
     64 < (set_count (sat_mask h) + (if znth false i (sat_mask h) then 0 else 1)) * (set_count (sig_mask h) + (if znth false j (sig_mask h) then 0 else 1))).
Proof.
  intros ((L1 & L2 & L3) & Z0 & G) c Hc Si Sj. destruct (sat_id_of _ _ _ Hc Si) as (E1 & V & R1).
  destruct (sig_id_of _ _ _ Sj) as (E2 & R2 & _ & Hk).
  unfold msm_add_to_header. rewrite num_cells_zero by assumption. cbn [negb Z.eqb]. cbv zeta. fold c.
  destruct (code_eqb k CODE_INVALID) eqn:EK; [apply code_eqb_spec in EK; contradiction|].
  rewrite V, E1, E2. cbn [negb]. rewrite num_sats_eq, num_sigs_eq by assumption. replace (32 <=? j) with false by lia.
  pose proof (set_count_range (sat_mask h)) as C1. pose proof (set_count_range (sig_mask h)) as C2.
  assert (same : same_fields h h) by (repeat split).
  destruct (znth false i (sat_mask h)) eqn:Bi.
  - (* satellite already there *)
    destruct (znth false j (sig_mask h)) eqn:Bj.
    + left. exists h. split; [reflexivity|]. split; [repeat split; assumption|]. split; [exact same|]. split; [reflexivity|]. split.
      * intros x Hx. destruct (Z.eqb_spec x i) as [->|]; [rewrite Bi|]; reflexivity.
      * intros x Hx. destruct (Z.eqb_spec x j) as [->|]; [rewrite Bj|]; reflexivity.
    + unfold MSM_MAX_CELLS. destruct (Z.leb_spec (set_count (sat_mask h) * (set_count (sig_mask h) + 1)) 64) as [LE|GT].
      * left. exists (set_sig h j). split; [reflexivity|]. split; [|split; [repeat split|split; [reflexivity|split]]].
        -- split; [|split]; cbn [set_sig sat_mask sig_mask cell_mask].
           ++ repeat split; cbn [set_sig set_sat sat_mask sig_mask cell_mask]; try assumption. rewrite len_zupd. assumption.
           ++ exact Z0.
           ++ rewrite set_count_zupd by (try lia; exact Bj). lia.
        -- intros x Hx. cbn [set_sig set_sat sat_mask sig_mask cell_mask]. destruct (Z.eqb_spec x i) as [->|]; [rewrite Bi|]; reflexivity.
        -- intros x Hx. cbn [set_sig set_sat sat_mask sig_mask cell_mask]. rewrite znth_zupd by lia. destruct (x =? j); reflexivity.
      * right. exists h. split; [reflexivity|]. split; [repeat split; assumption|]. split; [exact same|]. split; [reflexivity|]. split; [reflexivity|]. split; [auto|]. split; [auto|]. lia.
  - unfold MSM_MAX_CELLS. destruct (Z.leb_spec ((set_count (sat_mask h) + 1) * set_count (sig_mask h)) 64) as [LE|GT].
    + assert (SM : sig_mask (set_sat h i) = sig_mask h) by reflexivity.
      assert (CM : cell_mask (set_sat h i) = cell_mask h) by reflexivity.
      assert (AM : sat_mask (set_sat h i) = zupd i (fun _ => true) (sat_mask h)) by reflexivity.
      rewrite SM. destruct (znth false j (sig_mask h)) eqn:Bj.
      * left. exists (set_sat h i). split; [reflexivity|]. split; [|split; [repeat split|split; [reflexivity|split]]].
        -- split; [|split]; rewrite ?SM, ?CM, ?AM.
           ++ unfold mask_sizes. rewrite SM, CM, AM, len_zupd. repeat split; assumption.
           ++ exact Z0.
           ++ rewrite set_count_zupd by (try lia; exact Bi). lia.
        -- intros x Hx. rewrite AM, znth_zupd by lia. destruct (x =? i); reflexivity.
        -- intros x Hx. rewrite SM. destruct (Z.eqb_spec x j) as [->|]; [rewrite Bj|]; reflexivity.
      * destruct (Z.leb_spec ((set_count (sat_mask h) + 1) * (set_count (sig_mask h) + 1)) 64) as [LE'|GT'].
        -- left. exists (set_sig (set_sat h i) j). split; [reflexivity|]. split; [|split; [repeat split|split; [reflexivity|split]]].
           ++ split; [|split].
              ** unfold mask_sizes. cbn [set_sig set_sat sat_mask sig_mask cell_mask]. rewrite !len_zupd. repeat split; assumption.
              ** exact Z0.
              ** cbn [set_sig set_sat sat_mask sig_mask cell_mask]. rewrite !set_count_zupd by (try lia; assumption). lia.
           ++ intros x Hx. cbn [set_sig set_sat sat_mask sig_mask cell_mask]. rewrite znth_zupd by lia. destruct (x =? i); reflexivity.
           ++ intros x Hx. cbn [set_sig set_sat sat_mask sig_mask cell_mask]. rewrite znth_zupd by lia. destruct (x =? j); reflexivity.
        -- right. exists (set_sat h i). split; [reflexivity|]. split; [|split; [repeat split|split; [reflexivity|split; [reflexivity|split; [|split]]]]].
           ++ split; [|split].
              ** unfold mask_sizes. cbn [set_sig set_sat sat_mask sig_mask cell_mask]. rewrite !len_zupd. repeat split; assumption.
              ** exact Z0.
              ** cbn [set_sig set_sat sat_mask sig_mask cell_mask]. rewrite !set_count_zupd by (try lia; assumption). lia.
           ++ intros x Hx. rewrite AM, znth_zupd by lia. destruct (Z.eqb_spec x i); auto.
           ++ intros x Hx. rewrite AM, znth_zupd by lia. destruct (Z.eqb_spec x i); auto.
           ++ lia.
    + right. exists h. split; [reflexivity|]. split; [repeat split; assumption|]. split; [exact same|]. split; [reflexivity|]. split; [reflexivity|]. split; [auto|]. split; [auto|].
      destruct (znth false j (sig_mask h)); nia.
Qed.

(** adding one cell *)
Lemma cell_of_range h i j : mask_sizes h -> 0 <= i < 64 -> 0 <= j < 32 -> znth false i (sat_mask h) = true -> znth false j (sig_mask h) = true ->
  set_count (sat_mask h) * set_count (sig_mask h) <= 64 -> 0 <= cell_of h i j < 64 /\ 0 <= set_count (take j (sig_mask h)) < set_count (sig_mask h).
Proof.
  intros (L1 & L2 & L3) Ri Rj Bi Bj G. unfold cell_of.
  assert (N1 : nth_set (sat_mask h) (set_count (take i (sat_mask h)) + 1) i) by (repeat split; try lia; exact Bi).
  assert (N2 : nth_set (sig_mask h) (set_count (take j (sig_mask h)) + 1) j) by (repeat split; try lia; exact Bj).
  apply nth_set_range in N1. apply nth_set_range in N2. nia.
Qed.
Lemma cell_of_inj h i j i' j' : mask_sizes h -> 0 <= i < 64 -> 0 <= j < 32 -> 0 <= i' < 64 -> 0 <= j' < 32 ->
  znth false i (sat_mask h) = true -> znth false j (sig_mask h) = true -> znth false i' (sat_mask h) = true -> znth false j' (sig_mask h) = true ->
  set_count (sat_mask h) * set_count (sig_mask h) <= 64 -> cell_of h i j = cell_of h i' j' -> i = i' /\ j = j'.
Proof.
  intros M Ri Rj Ri' Rj' Bi Bj Bi' Bj' G E. destruct (cell_of_range h i j M Ri Rj Bi Bj G) as [_ Q]. destruct (cell_of_range h i' j' M Ri' Rj' Bi' Bj' G) as [_ Q'].
  destruct M as (L1 & L2 & L3). unfold cell_of in E.
  assert (E1 : set_count (take i (sat_mask h)) = set_count (take i' (sat_mask h))) by nia.
  assert (E2 : set_count (take j (sig_mask h)) = set_count (take j' (sig_mask h))) by nia. split.
  - apply (nth_set_unique (sat_mask h) (set_count (take i (sat_mask h)) + 1)); repeat split; try lia; assumption.
  - apply (nth_set_unique (sig_mask h) (set_count (take j (sig_mask h)) + 1)); repeat split; try lia; assumption.
Qed.
Lemma add_cell_spec h k prn i j : mask_sizes h -> let c := to_constellation (mh_num h) in
  c <> cINVALID -> sat_pos c prn i -> sig_pos c k j -> set_count (sat_mask h) * set_count (sig_mask h) <= 64 ->
  znth false i (sat_mask h) = true -> znth false j (sig_mask h) = true ->
  msm_add_to_cell_mask h k prn = if znth false (cell_of h i j) (cell_mask h) then AddUb else Added (set_cell h (cell_of h i j)).
Proof.
  intros M c Hc Si Sj G Bi Bj. destruct (sat_id_of _ _ _ Hc Si) as (E1 & V & R1).
  destruct (sig_id_of _ _ _ Sj) as (E2 & R2 & _ & Hk). pose proof (cell_of_range h i j M R1 R2 Bi Bj G) as [CR Q].
  destruct M as (L1 & L2 & L3).
  unfold msm_add_to_cell_mask. cbv zeta. fold c. rewrite num_sigs_eq by assumption. replace (0 <? set_count (sig_mask h)) with true by lia. cbn [negb].
  destruct (code_eqb k CODE_INVALID) eqn:EK; [apply code_eqb_spec in EK; contradiction|].
  rewrite V, E1, Bi, E2. cbn [negb]. replace (32 <=? j) with false by lia. rewrite Bj. cbn [negb].
  unfold prn_to_msm_sat_index, code_to_msm_signal_index. fold c. rewrite E1, E2, !count_take by lia.
  fold (cell_of h i j). unfold MSM_MAX_CELLS. rewrite Z.mod_small by lia. replace (cell_of h i j <? 64) with true by lia. reflexivity.
Qed.
