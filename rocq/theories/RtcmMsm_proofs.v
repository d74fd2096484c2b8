From Verif Require Import Base Bitstring Bits_model Bits_proofs Bitstream_model Bitstream_proofs RtcmStation_spec RtcmStation_proofs
  RtcmLegacy_model RtcmLegacy_spec RtcmLegacy_proofs RtcmMsm_model RtcmMsm_spec.

(** *** masks *)
Lemma set_count_nil : set_count [] = 0. Proof. reflexivity. Qed.
Lemma set_count_cons b l : set_count (b :: l) = (if b then 1 else 0) + set_count l.
Proof. unfold set_count. cbn [filter]. destruct b; [rewrite len_cons|]; lia. Qed.
Lemma set_count_app a b : set_count (a ++ b) = set_count a + set_count b.
Proof. unfold set_count. rewrite filter_app. apply len_app. Qed.
Lemma set_count_range l : 0 <= set_count l <= len l.
Proof.
  induction l as [|b l IH]; [cbn; lia|]. rewrite set_count_cons, len_cons. destruct b; lia.
Qed.
Lemma fold_count l : forall a, 0 <= a -> a + set_count l < 256 ->
  fold_left (fun a b => (a + (if b : bool then 1 else 0)) mod 256) l a = a + set_count l.
Proof.
  induction l as [|b l IH]; intros a Ha Hl; cbn [fold_left]; [rewrite set_count_nil; lia|].
  rewrite set_count_cons in *. pose proof (set_count_range l). rewrite Z.mod_small by (destruct b; lia).
  rewrite IH by (destruct b; lia). destruct b; lia.
Qed.
Lemma count_mask_eq n mask : len (take n mask) < 256 -> count_mask n mask = set_count (take n mask).
Proof. intros H. unfold count_mask. pose proof (set_count_range (take n mask)). rewrite fold_count by lia. lia. Qed.

Lemma find_nth_spec mask : forall pos found n, 0 <= found < n -> found + set_count mask < 256 ->
  match find_nth pos found n mask with
  | Some p => 0 <= p - pos < len mask /\ znth false (p - pos) mask = true /\ found + set_count (take (p - pos) mask) = n - 1
  | None => found + set_count mask < n
  end.
Proof.
  induction mask as [|b l IH]; intros pos found n Hf Hn; cbn [find_nth].
  - rewrite set_count_nil. lia.
  - rewrite set_count_cons in *. pose proof (set_count_range l). rewrite Z.mod_small by (destruct b; lia). destruct (Z.eqb_spec n (found + (if b then 1 else 0))) as [E|E].
    + destruct b; [|lia]. replace (pos - pos) with 0 by lia. rewrite len_cons, take_le0, set_count_nil by lia. pose proof (len_nonneg l).
      repeat split; lia.
    + specialize (IH (pos + 1) (found + (if b then 1 else 0)) n ltac:(destruct b; lia) ltac:(destruct b; lia)).
      destruct (find_nth (pos + 1) (found + (if b then 1 else 0)) n l) as [p|]; [|destruct b; lia].
      destruct IH as (H1 & H2 & H3). rewrite len_cons. split; [lia|]. rewrite znth_cons, take_cons by lia.
      replace (p - pos - 1) with (p - (pos + 1)) by lia. split; [exact H2|]. rewrite set_count_cons. lia.
Qed.
Lemma nth_set_range mask n pos : nth_set mask n pos -> 1 <= n <= set_count mask.
Proof.
  intros (H1 & H2 & H3). pose proof (set_count_range (take pos mask)).
  rewrite <- (take_drop pos mask) at 1. rewrite set_count_app. rewrite (drop_znth false) by lia. rewrite H2, set_count_cons.
  pose proof (set_count_range (drop (pos + 1) mask)). lia.
Qed.
Lemma nth_set_unique_lt mask n p q : nth_set mask n p -> nth_set mask n q -> p < q -> False.
Proof.
  intros (H1 & H2 & H3) (H4 & H5 & H6) L. rewrite <- H6 in H3. clear H6.
  replace q with (p + (q - p)) in H3 by lia. rewrite take_add in H3 by lia. rewrite set_count_app in H3.
  rewrite (drop_znth false) in H3 by lia. rewrite take_cons in H3 by lia. rewrite H2, set_count_cons in H3.
  pose proof (set_count_range (take (q - p - 1) (drop (p + 1) mask))). lia.
Qed.
Lemma nth_set_unique mask n p q : nth_set mask n p -> nth_set mask n q -> p = q.
Proof.
  intros H1 H2. destruct (Z.lt_trichotomy p q) as [L|[E|L]]; [exfalso; eapply nth_set_unique_lt; [exact H1|exact H2|exact L]|exact E|exfalso; eapply nth_set_unique_lt; [exact H2|exact H1|exact L]].
Qed.
Lemma find_nth_mask_value_spec mask n : set_count mask < 256 -> len mask <= 64 ->
  (forall pos, find_nth_mask_value (len mask) mask n = Some pos <-> nth_set mask n pos) /\
  (find_nth_mask_value (len mask) mask n = None <-> ~ 1 <= n <= set_count mask).
Proof.
  intros Hc Hl. unfold find_nth_mask_value. rewrite take_all by lia. destruct (Z.leb_spec n 0).
  - split; [intros pos; split; [discriminate|]|split; [lia|reflexivity]]. intros H1. pose proof (nth_set_range _ _ _ H1). lia.
  - pose proof (find_nth_spec mask 0 0 n ltac:(lia) ltac:(lia)) as P. destruct (find_nth 0 0 n mask) as [p|].
    + replace (p - 0) with p in P by lia. assert (N : nth_set mask n p) by (unfold nth_set; destruct P as (? & ? & ?); repeat split; try assumption; lia).
      split.
      * intros pos. split; [intros E; injection E as <-; exact N|]. intros Q. f_equal. eapply nth_set_unique; eassumption.
      * split; [discriminate|]. intros C. pose proof (nth_set_range _ _ _ N). lia.
    + split; [intros pos; split; [discriminate|]|split; [lia|reflexivity]]. intros Q. pose proof (nth_set_range _ _ _ Q). lia.
Qed.

(** *** the enumeration of set cells *)
Definition setpos (mask : list bool) (n : nat) : list Z := filter (fun p => znth false p mask) (zrange 0 n).
Lemma zrange_app a n m : zrange a (n + m) = zrange a n ++ zrange (a + Z.of_nat n) m.
Proof.
  revert a; induction n as [|n IH]; intros a; cbn [Nat.add zrange app]; [f_equal; lia|]. f_equal. rewrite IH. f_equal. f_equal. lia.
Qed.
Lemma in_zrange a n x : In x (zrange a n) <-> a <= x < a + Z.of_nat n.
Proof. revert a; induction n as [|n IH]; intros a; cbn [zrange In]; [lia|]. rewrite IH. lia. Qed.
Lemma len_zrange a n : len (zrange a n) = Z.of_nat n.
Proof. revert a; induction n as [|n IH]; intros a; cbn [zrange]; [reflexivity|]. rewrite len_cons, IH. lia. Qed.
Lemma inner_cells mask ng s : 0 < ng -> forall n a, 0 <= a -> a + Z.of_nat n <= ng ->
  flat_map (fun sig => if znth false (s * ng + sig) mask then [(s, sig)] else []) (zrange a n)
  = map (fun p => (p / ng, p mod ng)) (filter (fun p => znth false p mask) (zrange (s * ng + a) n)).
Proof.
  intros Hng. induction n as [|n IH]; intros a Ha Hn; [reflexivity|]. cbn [zrange flat_map filter].
  rewrite IH by lia. replace (s * ng + (a + 1)) with (s * ng + a + 1) by lia.
  destruct (znth false (s * ng + a) mask); [|reflexivity]. cbn [app map]. f_equal.
  replace (s * ng + a) with (a + s * ng) by lia. rewrite Z.div_add, Z.mod_add by lia.
  rewrite Z.div_small, Z.mod_small by lia. f_equal; lia.
Qed.
Lemma cells_setpos mask ng : 0 < ng -> forall ns, cells (Z.of_nat ns) ng mask = map (fun p => (p / ng, p mod ng)) (setpos mask (ns * Z.to_nat ng)).
Proof.
  intros Hng. unfold cells, setpos. intros ns. rewrite Nat2Z.id. induction ns as [|ns IH]; [reflexivity|].
  replace (S ns) with (ns + 1)%nat by lia. rewrite zrange_app, flat_map_app, IH.
  replace ((ns + 1) * Z.to_nat ng)%nat with (ns * Z.to_nat ng + Z.to_nat ng)%nat by lia.
  rewrite zrange_app, filter_app, map_app. f_equal. cbn [zrange flat_map]. rewrite app_nil_r.
  rewrite inner_cells by lia. f_equal. f_equal. f_equal. lia.
Qed.
Lemma cells_nosig ns mask : cells ns 0 mask = [].
Proof. unfold cells. cbn. induction (zrange 0 (Z.to_nat ns)); [reflexivity|assumption]. Qed.
Lemma setpos_len mask n : Z.of_nat n <= len mask -> len (setpos mask n) = set_count (take (Z.of_nat n) mask).
Proof.
  induction n as [|n IH]; intros H; [reflexivity|]. unfold setpos in *. replace (S n) with (n + 1)%nat by lia.
  rewrite zrange_app, filter_app, len_app, IH by lia. cbn [zrange filter]. cbn [Z.add].
  replace (Z.of_nat (n + 1)) with (Z.of_nat n + 1) by lia. rewrite take_add, set_count_app by lia. f_equal.
  rewrite (drop_znth false) by lia. rewrite take_cons, take_le0 by lia. rewrite set_count_cons, set_count_nil.
  destruct (znth false (Z.of_nat n) mask); reflexivity.
Qed.
Lemma setpos_at mask n p : Z.of_nat n <= len mask -> 0 <= p < Z.of_nat n -> znth false p mask = true ->
  znth 0 (set_count (take p mask)) (setpos mask n) = p.
Proof.
  intros Hn Hp Hb. unfold setpos. replace n with (Z.to_nat p + (1 + (n - Z.to_nat p - 1)))%nat by lia.
  rewrite zrange_app, filter_app. pose proof (setpos_len mask (Z.to_nat p) ltac:(lia)) as L. unfold setpos in L.
  rewrite Z2Nat.id in L by lia. rewrite znth_app_r by lia. rewrite L, Z.sub_diag. cbn [Nat.add zrange filter].
  replace (0 + Z.of_nat (Z.to_nat p)) with p by lia. rewrite Hb. reflexivity.
Qed.
Lemma nodup_zrange a n : NoDup (zrange a n).
Proof. revert a; induction n as [|n IH]; intros a; cbn [zrange]; constructor; [rewrite in_zrange; lia|apply IH]. Qed.
Lemma setpos_nth mask n i : Z.of_nat n <= len mask -> 0 <= i < len (setpos mask n) ->
  let p := znth 0 i (setpos mask n) in 0 <= p < Z.of_nat n /\ znth false p mask = true /\ set_count (take p mask) = i.
Proof.
  intros Hn Hi p. assert (I : In p (setpos mask n)) by (apply nth_In; unfold len in Hi; lia).
  pose proof I as J. unfold setpos in J. apply filter_In in J. destruct J as [R B]. apply in_zrange in R.
  split; [lia|]. split; [exact B|].
  pose proof (setpos_at mask n p Hn ltac:(lia) B) as E. unfold p in E at 2.
  assert (ND : NoDup (setpos mask n)) by (apply NoDup_filter, nodup_zrange).
  assert (R2 : 0 <= set_count (take p mask) < len (setpos mask n)).
  { rewrite setpos_len by lia. pose proof (set_count_range (take p mask)). split; [lia|].
    replace (Z.of_nat n) with (p + (Z.of_nat n - p)) by lia. rewrite take_add, set_count_app by lia.
    rewrite (drop_znth false) by lia. rewrite take_cons by lia. rewrite B, set_count_cons.
    pose proof (set_count_range (take (Z.of_nat n - p - 1) (drop (p + 1) mask))). lia. }
  unfold znth in E. unfold len in Hi, R2. apply (proj1 (NoDup_nth _ 0) ND) in E; lia.
Qed.

(** cells enumerate exactly the set cells, in mask order *)
Lemma cells_spec ns ng mask : 0 <= ns -> 0 <= ng -> len mask = ns * ng ->
  len (cells ns ng mask) = set_count mask /\
  (forall i s g, cell_is mask ng i s g <-> 0 <= i < set_count mask /\ znth (0, 0) i (cells ns ng mask) = (s, g)).
Proof.
  intros Hns Hng Hl. destruct (Z.eq_dec ng 0) as [->|NZ].
  { rewrite cells_nosig. assert (mask = []) as -> by (apply len_zero_nil; lia). split; [reflexivity|]. intros i s g.
    rewrite set_count_nil. split; [intros [_ H]; lia|lia]. }
  replace ns with (Z.of_nat (Z.to_nat ns)) by lia. rewrite cells_setpos by lia.
  set (n := (Z.to_nat ns * Z.to_nat ng)%nat). assert (Hn : Z.of_nat n = len mask) by (unfold n; rewrite Nat2Z.inj_mul; rewrite Hl; f_equal; lia).
  assert (L : len (setpos mask n) = set_count mask) by (rewrite setpos_len, take_all by lia; reflexivity).
  rewrite len_map. split; [exact L|]. intros i s g.
  assert (Z1 : forall j, znth (0, 0) j (map (fun p => (p / ng, p mod ng)) (setpos mask n)) = ((znth 0 j (setpos mask n)) / ng, (znth 0 j (setpos mask n)) mod ng)).
  { intros j. unfold znth. replace ((0, 0) : Z * Z) with ((fun p => (p / ng, p mod ng)) 0) at 1 by (cbv beta; now rewrite Z.div_0_l, Z.mod_0_l by lia).
    rewrite (map_nth (fun p => (p / ng, p mod ng))). reflexivity. }
  rewrite Z1. unfold cell_is. split.
  - intros [N G]. pose proof (nth_set_range _ _ _ N). split; [lia|]. destruct N as (R & B & C).
    replace i with (set_count (take (s * ng + g) mask)) by lia. rewrite setpos_at by (try assumption; lia).
    replace (s * ng + g) with (g + s * ng) by lia. rewrite Z.div_add, Z.mod_add, Z.div_small, Z.mod_small by lia. f_equal; lia.
  - intros [R E]. injection E as <- <-. pose proof (setpos_nth mask n i ltac:(lia) ltac:(lia)) as P. cbn zeta in P.
    set (p := znth 0 i (setpos mask n)) in *. destruct P as (P1 & P2 & P3).
    assert (p / ng * ng + p mod ng = p) by (pose proof (Z.div_mod p ng ltac:(lia)); lia).
    split; [|apply Z.mod_pos_bound; lia]. unfold nth_set. rewrite H. repeat split; try assumption; lia.
Qed.

(** *** lists of fields *)
Definition col (n : Z) (vs : list Z) : list field := map (pair n) vs.
Lemma col_ok n vs : 1 <= n <= 64 -> Forall width_ok (col n vs).
Proof. intros H. unfold col. apply Forall_map, Forall_forall. intros x _. exact H. Qed.
Lemma total_col n vs : total (col n vs) = n * len vs.
Proof. unfold col. induction vs as [|v vs IH]; [cbn; lia|]. cbn [map total fold_right fst]. fold (total (map (pair n) vs)). rewrite IH, len_cons. lia. Qed.
Lemma get_list_u n vs : 0 <= n -> forall fs r,
  get_list (get_u n) (length vs) (fields_bits (col n vs ++ fs) ++ r) = DOk (map (fun v => v mod 2 ^ n) vs) (fields_bits fs ++ r).
Proof.
  intros Hn. unfold col. induction vs as [|v vs IH]; intros fs r; [reflexivity|]. cbn [length get_list map app].
  rewrite bind_u_mod by lia. unfold dbind at 1. rewrite IH. reflexivity.
Qed.
Lemma bind_s_mod {B} n v fs r (f : Z -> dec B) : 1 <= n ->
  dbind (get_s n) f (fields_bits ((n, v) :: fs) ++ r) = f (to_signed n v) (fields_bits fs ++ r).
Proof.
  intros Hn. unfold dbind, get_s. rewrite fields_bits_cons, <- app_assoc. pose proof (len_nonneg (fields_bits fs ++ r)).
  assert (Hl : len (bits_be (Z.to_nat n) v) = n) by (rewrite len_bits_be; lia).
  destruct (Z.ltb_spec (len (bits_be (Z.to_nat n) v ++ fields_bits fs ++ r)) n) as [H1|H1]; [rewrite len_app in H1; lia|].
  rewrite take_app_eq, drop_app_eq by exact Hl. rewrite val_bits_be. rewrite Z2Nat.id by lia.
  unfold to_signed. rewrite Z.mod_mod by (apply Z.pow_nonzero; lia). reflexivity.
Qed.
Lemma get_list_s n vs : 1 <= n -> forall fs r,
  get_list (get_s n) (length vs) (fields_bits (col n vs ++ fs) ++ r) = DOk (map (to_signed n) vs) (fields_bits fs ++ r).
Proof.
  intros Hn. unfold col. induction vs as [|v vs IH]; intros fs r; [reflexivity|]. cbn [length get_list map app].
  rewrite bind_s_mod by lia. unfold dbind at 1. rewrite IH. reflexivity.
Qed.
Lemma get_list_b vs : forall fs r,
  get_list get_bool (length vs) (fields_bits (flag_fields vs ++ fs) ++ r) = DOk vs (fields_bits fs ++ r).
Proof.
  unfold flag_fields, get_bool. induction vs as [|v vs IH]; intros fs r; [reflexivity|]. cbn [length get_list map app].
  rewrite bind_assoc. rewrite bind_u by (destruct v; cbn; lia). rewrite bind_ret. unfold dbind at 1. rewrite IH. destruct v; reflexivity.
Qed.
Section BindLists.
Context {B : Type}.
Lemma bind_list_u n vs k fs r (f : list Z -> dec B) : 0 <= n -> length vs = k ->
  dbind (get_list (get_u n) k) f (fields_bits (col n vs ++ fs) ++ r) = f (map (fun v => v mod 2 ^ n) vs) (fields_bits fs ++ r).
Proof. intros H <-. unfold dbind. now rewrite get_list_u. Qed.
Lemma bind_list_s n vs k fs r (f : list Z -> dec B) : 1 <= n -> length vs = k ->
  dbind (get_list (get_s n) k) f (fields_bits (col n vs ++ fs) ++ r) = f (map (to_signed n) vs) (fields_bits fs ++ r).
Proof. intros H <-. unfold dbind. now rewrite get_list_s. Qed.
Lemma bind_list_b vs k fs r (f : list bool -> dec B) : length vs = k ->
  dbind (get_list get_bool k) f (fields_bits (flag_fields vs ++ fs) ++ r) = f vs (fields_bits fs ++ r).
Proof. intros <-. unfold dbind. now rewrite get_list_b. Qed.
End BindLists.
Lemma flag_fields_ok l : Forall width_ok (flag_fields l).
Proof. unfold flag_fields. apply Forall_map, Forall_forall. intros x _. unfold width_ok. cbn. lia. Qed.
Lemma total_flags l : total (flag_fields l) = len l.
Proof. unfold flag_fields. induction l as [|v l IH]; [reflexivity|]. cbn [map total fold_right fst]. fold (total (map (fun b : bool => (1, Z.b2z b)) l)). rewrite IH, len_cons. lia. Qed.
Lemma length_mapi {A B} (f : Z -> A -> B) l : forall i, length (mapi i f l) = length l.
Proof. induction l as [|x l IH]; intros i; cbn [mapi length]; auto. Qed.
Lemma len_mapi {A B} (f : Z -> A -> B) l i : len (mapi i f l) = len l.
Proof. unfold len. now rewrite length_mapi. Qed.
Lemma znth_mapi {A B} (f : Z -> A -> B) (da : A) (db : B) l : forall i j, 0 <= j < len l -> znth db j (mapi i f l) = f (i + j) (znth da j l).
Proof.
  induction l as [|x l IH]; intros i j Hj; [unfold len in Hj; cbn in Hj; lia|]. rewrite len_cons in Hj. cbn [mapi].
  destruct (Z.eq_dec j 0) as [->|]; [rewrite !znth_0; f_equal; lia|]. rewrite !znth_cons by lia. rewrite IH by lia. f_equal. lia.
Qed.
Lemma mapi_col {A} n (f : Z -> A -> Z) l : forall i, mapi i (fun j x => (n, f j x)) l = col n (mapi i f l).
Proof. induction l as [|x l IH]; intros i; cbn [mapi]; [reflexivity|]. rewrite IH. reflexivity. Qed.
Lemma map_col {A} n (f : A -> Z) l : map (fun x => (n, f x)) l = col n (map f l).
Proof. unfold col. now rewrite map_map. Qed.
Lemma mapi_bool {A} (f : Z -> A -> bool) l : forall i, mapi i (fun j x => (1, Z.b2z (f j x))) l = flag_fields (mapi i f l).
Proof. induction l as [|x l IH]; intros i; cbn [mapi]; [reflexivity|]. rewrite IH. reflexivity. Qed.
Lemma znth_map {A B} (f : A -> B) (da : A) (db : B) l j : 0 <= j < len l -> znth db j (map f l) = f (znth da j l).
Proof. intros H. unfold znth, len in *. rewrite (nth_indep _ db (f da)) by (rewrite map_length; lia). apply map_nth. Qed.

(** *** header *)
Definition decoded_hdr (h : mhdr) : mhdr :=
  mkmhdr (mh_num h) (mh_stn h) (if cons_eqb (to_constellation (mh_num h)) cGLO then mh_tow h mod DAY_MS else mh_tow h)
    (mh_multiple h) (mh_iods h) (mh_reserved h) (mh_steering h) (mh_ext_clock h) (mh_div h) (mh_smooth h) (sat_mask h) (sig_mask h) (cell_mask h).
Section Hdr.
Variables (ty : Z) (h : mhdr).
Hypothesis H : msm_hdr_ok ty h.
Lemma hdr_counts : num_sats h = set_count (sat_mask h) /\ num_sigs h = set_count (sig_mask h) /\
  cell_mask_size h = num_sats h * num_sigs h /\ num_cells h = set_count (cell_mask h) /\ cell_mask_size h = len (cell_mask h) /\ 0 <= num_sats h /\ 0 <= num_sigs h.
Proof.
  unfold msm_hdr_ok in H. destruct H as (_ & _ & _ & _ & _ & _ & _ & _ & _ & _ & _ & L1 & L2 & S1 & S2 & L3).
  assert (A : num_sats h = set_count (sat_mask h)) by (unfold num_sats; rewrite count_mask_eq, take_all; lia || (rewrite ?len_take; lia)).
  assert (B : num_sigs h = set_count (sig_mask h)) by (unfold num_sigs; rewrite count_mask_eq, take_all; lia || (rewrite ?len_take; lia)).
  pose proof (set_count_range (sat_mask h)). pose proof (set_count_range (sig_mask h)).
  assert (C : cell_mask_size h = num_sats h * num_sigs h) by (unfold cell_mask_size; rewrite A, B; apply Z.mod_small; nia).
  repeat split; try lia.
  unfold num_cells. rewrite C, A, B, count_mask_eq; rewrite <- L3; rewrite ?len_take; rewrite ?take_all; lia.
Qed.
Lemma hdr_fields_ok : Forall width_ok (hdr_msm_fields h).
Proof.
  unfold hdr_msm_fields. repeat (apply Forall_app; split); try apply flag_fields_ok; try (widths).
  destruct (cons_eqb (to_constellation (mh_num h)) cGLO); widths.
Qed.
Lemma hdr_fields_total : total (hdr_msm_fields h) = 169 + num_sats h * num_sigs h.
Proof.
  destruct hdr_counts as (A & B & C & D & E & _). unfold hdr_msm_fields. rewrite !total_app, !total_flags, !len_take. rewrite E in *.
  pose proof (len_nonneg (cell_mask h)).
  unfold msm_hdr_ok in H. destruct H as (_ & _ & _ & _ & _ & _ & _ & _ & _ & _ & _ & L1 & L2 & _). rewrite L1, L2.
  destruct (cons_eqb (to_constellation (mh_num h)) cGLO); cbn [total fold_right fst]; lia.
Qed.
Lemma hdr_decode rest pad : exists fs, hdr_msm_fields h = (12, mh_num h) :: fs /\
  get_msm_header (mh_num h) (fields_bits (fs ++ rest) ++ pad) = DOk (decoded_hdr h) (fields_bits rest ++ pad).
Proof.
  destruct hdr_counts as (A & B & C & D & E & N1 & N2).
  unfold msm_hdr_ok, ubits in H. destruct H as (H1 & H2 & H3 & H4 & H5 & H6 & H7 & H8 & H9 & H10 & H11 & L1 & L2 & S1 & S2 & L3).
  unfold hdr_msm_fields. cbn [app]. eexists. split; [reflexivity|]. cbn [app]. unfold get_msm_header. rewrite bind_u by (clear - H3; lia).
  rewrite !take_all by lia. rewrite <- !app_assoc.
  assert (TOW : forall B (f : Z -> dec B) fs,
    dbind (match to_constellation (mh_num h) with cGLO => _ <- skip 3 ;; get_u 27 | cBDS => t <- get_u 30 ;; ret (normalize_bds2_tow t) | _ => get_u 30 end) f
      (fields_bits ((if cons_eqb (to_constellation (mh_num h)) cGLO
         then let dow := (mh_tow h / 86400000) mod 256 in [(3, dow); (27, (mh_tow h - dow * 86400000) mod 2 ^ 32)] else [(30, mh_tow h)]) ++ fs) ++ pad)
    = f (if cons_eqb (to_constellation (mh_num h)) cGLO then mh_tow h mod DAY_MS else mh_tow h) (fields_bits fs ++ pad)).
  { intros B0 f fs. clear - H4 H2. destruct (to_constellation (mh_num h)) eqn:K; cbn [cons_eqb app]; cbv zeta.
    1,2,5,6: apply bind_u; lia.
    - rewrite bind_assoc, bind_skip by lia. unfold DAY_MS. rewrite bind_u; [|lia|lia].
      f_equal; lia.
    - rewrite bind_assoc, bind_u by lia. rewrite bind_ret. unfold normalize_bds2_tow. destruct (Z.leb_spec (2 ^ 30 - 14000) (mh_tow h)); [lia|reflexivity].
    - congruence. }
  rewrite TOW. cbn [app]. rewrite bind_u by (clear - H5; lia). rewrite bind_u by (clear - H6; lia). rewrite bind_u by (clear - H7; lia).
  rewrite bind_u by (clear - H8; lia). rewrite bind_u by (clear - H9; lia). rewrite bind_u by (clear - H10; lia). rewrite bind_u by (clear - H11; lia).
  rewrite <- !app_assoc. rewrite bind_list_b by (unfold len in L1; lia). rewrite bind_list_b by (unfold len in L2; lia).
  fold (num_sats h) (num_sigs h) (cell_mask_size h). unfold get_cells. rewrite E. destruct (Z.leb_spec (len (cell_mask h)) 64); [|lia].
  rewrite bind_list_b by (rewrite to_nat_len; reflexivity). reflexivity.
Qed.
End Hdr.

(** *** satellites *)
Lemma Forall2_znth {A B} (R : A -> B -> Prop) da db la : forall lb, len la = len lb ->
  (forall i, 0 <= i < len la -> R (znth da i la) (znth db i lb)) -> Forall2 R la lb.
Proof.
  induction la as [|a la IH]; intros [|b lb] L P.
  - constructor.
  - unfold len in L. cbn [length] in L. lia.
  - unfold len in L. cbn [length] in L. lia.
  - rewrite !len_cons in *. pose proof (len_nonneg la). constructor.
    + apply (P 0). lia.
    + apply IH; [lia|]. intros i Hi. specialize (P (i + 1) ltac:(lia)). rewrite !znth_cons in P by lia.
      replace (i + 1 - 1) with i in P by lia. exact P.
Qed.
Lemma sat_facts ty s : msm_sat_ok ty s ->
  0 <= integer_ms s < 255 /\ 0 <= modulo_ms s < 1024 /\ 2 * Z.abs (rough_q s - rough_range s) <= 2 ^ 21.
Proof.
  intros (H1 & H2 & _). unfold rough_q, modulo_ms, integer_ms, MS in *.
  pose proof (Z.div_mod (rough_range s) (2 ^ 31) ltac:(lia)) as E. pose proof (Z.mod_pos_bound (rough_range s) (2 ^ 31) ltac:(lia)) as M.
  set (q := rough_range s / 2 ^ 31) in *. set (r := rough_range s mod 2 ^ 31) in *.
  replace (rough_range s - q * 2 ^ 31) with r by lia.
  pose proof (round_div_close r (2 ^ 21) ltac:(lia)) as C. set (k := round_div r (2 ^ 21)) in *. clearbody k q r. lia.
Qed.
Lemma rate_facts ty s : msm_sat_ok ty s -> ty = 5 -> -8191 <= rate_field s <= 8191 /\ Z.abs (rate_q s - rough_rate s) < 10000.
Proof.
  intros (_ & _ & H & _) T. specialize (H T). unfold rate_q, rate_field. clear - H.
  Z.quot_rem_to_equations. lia.
Qed.
Lemma sats_conv ty l : (ty = 4 \/ ty = 5) -> Forall (msm_sat_ok ty) l -> forallb (sat_conv_ok (ty =? 5)) l = true.
Proof.
  intros T H. apply forallb_forall. intros s Hs. rewrite Forall_forall in H. specialize (H s Hs).
  unfold sat_conv_ok, between. destruct (sat_facts _ _ H) as (A & _ & _).
  apply andb_true_iff. split; [apply andb_true_iff; split; apply Z.leb_le; lia|].
  destruct (Z.eqb_spec ty 5) as [E|]; [|reflexivity]. destruct (rate_facts _ _ H E) as (R & _). apply andb_true_iff; split; apply Z.leb_le; lia.
Qed.
Lemma cnr_facts g : msm_sig_ok g -> sv_cnr g = true -> 0 <= round_div (s_cnr g) 16 <= 63.
Proof.
  intros H V. specialize (H V). pose proof (round_div_close (s_cnr g) 16 ltac:(lia)). set (q := round_div (s_cnr g) 16) in *. clearbody q. lia.
Qed.
Lemma sigs_conv l : Forall msm_sig_ok l -> forallb sig_conv_ok l = true.
Proof.
  intros H. apply forallb_forall. intros s Hs. rewrite Forall_forall in H. specialize (H s Hs). unfold sig_conv_ok, between.
  destruct (sv_cnr s) eqn:V; [|reflexivity]. pose proof (cnr_facts s H V). apply andb_true_iff; split; apply Z.leb_le; lia.
Qed.

(** *** lock time *)
Lemma lock_close_msm t : msm_lock_close t (decode_lock_time (encode_lock_time t)) /\ 0 <= encode_lock_time t <= 15.
Proof.
  unfold msm_lock_close, encode_lock_time.
  repeat match goal with |- context [if ?a <? ?b then _ else _] => destruct (Z.ltb_spec a b) end;
  match goal with |- context [decode_lock_time ?n] => let v := eval vm_compute in (decode_lock_time n) in change (decode_lock_time n) with v end; lia.
Qed.

(** *** one cell; [rr], [rv]: the decoded rough range and rate *)
Definition decoded_sig (odd : bool) (rr rv pr cp lk : Z) (hca : bool) (cn dop : Z) : msig :=
  let vp := negb (pr =? MSM_PR_INVALID) in let vc := negb (cp =? MSM_CP_INVALID) in
  let vn := negb (cn =? 0) in let vd := negb (dop =? MSM_DOP_INVALID) in
  mkmsig (if vp then rr + pr * 2 ^ 7 else 0) (if vc then rr + cp * 2 ^ 2 else 0) (decode_lock_time lk) hca
         (if vn then cn * 16 else 0) (if odd && vd then rv + dop else 0) vp vc vn true (odd && vd).
Lemma cell_received ty s g : (ty = 4 \/ ty = 5) -> msm_sat_ok ty s -> msm_sig_ok g ->
  msig_received ty s g (decoded_sig (ty =? 5) (rough_q s) (rate_q s) (to_signed 15 (pr_field g (rough_q s))) (to_signed 22 (cp_fine_field g (rough_q s)))
    (lock_msm_field g mod 2 ^ 4) (s_hca g) (cnr_field g mod 2 ^ 6) (to_signed 15 (dop_field g (rate_q s)))).
Proof.
  intros T Hs Hg. destruct (sat_facts _ _ Hs) as (_ & _ & Q). pose proof (rate_facts _ _ Hs) as RF.
  pose proof (cnr_facts g Hg) as CF. pose proof (lock_close_msm (s_lock g)) as [LK LR].
  unfold msig_received, decoded_sig. cbn [s_pr s_cp s_lock s_hca s_cnr s_rate sv_pr sv_cp sv_cnr sv_lock sv_dop].
  set (rq := rough_q s) in *. set (vq := rate_q s) in *. clearbody rq vq.
  assert (PR : let p := to_signed 15 (pr_field g rq) in
    (negb (p =? MSM_PR_INVALID) = true -> sv_pr g = true /\ 2 * Z.abs (rq + p * 2 ^ 7 - s_pr g) <= 2 ^ 7) /\
    (sv_pr g = true -> Z.abs (s_pr g - rough_range s) < 2 ^ 20 - 2 ^ 6 -> negb (p =? MSM_PR_INVALID) = true)).
  { clear - Q. cbv zeta. unfold pr_field. destruct (sv_pr g); cbn [andb].
    2:{ change (to_signed 15 MSM_PR_INVALID) with MSM_PR_INVALID. rewrite Z.eqb_refl. split; discriminate. }
    destruct (Z.ltb_spec (Z.abs (s_pr g - rq)) (2 ^ 21)).
    2:{ change (to_signed 15 MSM_PR_INVALID) with MSM_PR_INVALID. rewrite Z.eqb_refl. split; [discriminate|]. intros _ HH. exfalso. lia. }
    pose proof (round_div_close (s_pr g - rq) (2 ^ 7) ltac:(lia)) as C. set (k := round_div (s_pr g - rq) (2 ^ 7)) in *. clearbody k.
    rewrite !negb_true_iff, !Z.eqb_neq. unfold MSM_PR_INVALID.
    destruct (Z.eq_dec k 16384) as [->|]; [change (to_signed 15 16384) with (-16384); split; [lia|]; intros _ HH; exfalso; lia|].
    rewrite to_signed_id by lia. split; [intros _; split; [reflexivity|lia]|]. intros _ HH. lia. }
  assert (CP : let p := to_signed 22 (cp_fine_field g rq) in
    (negb (p =? MSM_CP_INVALID) = true -> sv_cp g = true /\ 2 * Z.abs (rq + p * 2 ^ 2 - s_cp g) <= 2 ^ 2) /\
    (sv_cp g = true -> Z.abs (s_cp g - rough_range s) < 2 ^ 23 - 2 ^ 20 - 2 -> negb (p =? MSM_CP_INVALID) = true)).
  { clear - Q. cbv zeta. unfold cp_fine_field. destruct (sv_cp g); cbn [andb].
    2:{ change (to_signed 22 MSM_CP_INVALID) with MSM_CP_INVALID. rewrite Z.eqb_refl. split; discriminate. }
    destruct (Z.ltb_spec (Z.abs (s_cp g - rq)) (2 ^ 23)).
    2:{ change (to_signed 22 MSM_CP_INVALID) with MSM_CP_INVALID. rewrite Z.eqb_refl. split; [discriminate|]. intros _ HH. exfalso. lia. }
    pose proof (round_div_close (s_cp g - rq) (2 ^ 2) ltac:(lia)) as C. set (k := round_div (s_cp g - rq) (2 ^ 2)) in *. clearbody k.
    rewrite !negb_true_iff, !Z.eqb_neq. unfold MSM_CP_INVALID.
    destruct (Z.eq_dec k 2097152) as [->|]; [change (to_signed 22 2097152) with (-2097152); split; [lia|]; intros _ HH; exfalso; lia|].
    rewrite to_signed_id by lia. split; [intros _; split; [reflexivity|lia]|]. intros _ HH. lia. }
  assert (DP : let p := to_signed 15 (dop_field g vq) in
    (negb (p =? MSM_DOP_INVALID) = true -> sv_dop g = true /\ vq + p = s_rate g) /\
    (ty = 5 -> sv_dop g = true -> Z.abs (s_rate g - rough_rate s) < 16384 - 10000 -> negb (p =? MSM_DOP_INVALID) = true)).
  { clear - RF. cbv zeta. unfold dop_field. destruct (sv_dop g); cbn [andb].
    2:{ change (to_signed 15 MSM_DOP_INVALID) with MSM_DOP_INVALID. rewrite Z.eqb_refl. split; discriminate. }
    destruct (Z.ltb_spec (Z.abs (s_rate g - vq)) 16384).
    2:{ change (to_signed 15 MSM_DOP_INVALID) with MSM_DOP_INVALID. rewrite Z.eqb_refl. split; [discriminate|]. intros T _ HH. exfalso.
        specialize (RF T). lia. }
    rewrite !negb_true_iff, !Z.eqb_neq. unfold MSM_DOP_INVALID. rewrite to_signed_id by lia. split; [intros _; split; [reflexivity|lia]|]. intros; lia. }
  cbv zeta in PR, CP, DP. destruct PR as [PR1 PR2], CP as [CP1 CP2], DP as [DP1 DP2].
  repeat match goal with |- _ /\ _ => split end.
  - intros V. rewrite V. exact (PR1 V).
  - exact PR2.
  - intros V. rewrite V. exact (CP1 V).
  - exact CP2.
  - intros V. unfold lock_msm_field. rewrite V. rewrite Z.mod_small by (clear - LR; lia). exact LK.
  - reflexivity.
  - unfold cnr_field. destruct (sv_cnr g); [reflexivity|discriminate].
  - intros V. unfold cnr_field. rewrite V. specialize (CF V). rewrite Z.mod_small by (clear - CF; lia).
    pose proof (round_div_close (s_cnr g) 16 ltac:(lia)) as C.
    assert (C8 : 8 <= s_cnr g -> round_div (s_cnr g) 16 <> 0).
    { clear. intros. unfold round_div. destruct (Z.leb_spec 0 (s_cnr g)); lia. }
    set (k := round_div (s_cnr g) 16) in *. clearbody k.
    destruct (Z.eqb_spec k 0) as [->|]; cbn [negb]; split; try reflexivity; clear - C C8; lia.
  - intros V. apply andb_true_iff in V. destruct V as [V1 V2]. rewrite V1, V2. cbn [andb]. apply Z.eqb_eq in V1. split; [exact V1|]. exact (DP1 V2).
  - intros E V HH. rewrite E. cbn [Z.eqb Pos.eqb andb]. exact (DP2 E V HH).
Qed.

(** *** the whole message *)
Lemma dbind_eq {A B} (d : dec A) (f : A -> dec B) bs a r : d bs = DOk a r -> dbind d f bs = f a r.
Proof. intros E. unfold dbind. now rewrite E. Qed.
Lemma num_range ty n : (ty = 4 \/ ty = 5) -> to_msm_type n = ty -> 1071 <= n <= 1127.
Proof.
  unfold to_msm_type. intros T E. destruct (Z.ltb_spec n 1071); cbn [orb] in E; [lia|]. destruct (Z.ltb_spec 1127 n); cbn [orb] in E; lia.
Qed.
Definition msm_bits (ty : Z) (h : mhdr) : Z :=
  169 + num_sats h * num_sigs h + num_sats h * (if ty =? 5 then 36 else 18) + num_cells h * (if ty =? 5 then 63 else 48).
Section Whole.
Variables (ty : Z) (m : mmsg).
Hypothesis Hm : msm_ok ty m.
Let h := m_hdr m.
Let cs := cells (num_sats h) (num_sigs h) (cell_mask h).
Lemma cs_facts : len cs = num_cells h /\ num_cells h = len (m_sigs m) /\
  (forall i s g, cell_is (cell_mask h) (set_count (sig_mask h)) i s g <-> 0 <= i < len cs /\ znth (0, 0) i cs = (s, g)).
Proof.
  destruct Hm as (T & Hh & L1 & L2 & _). fold h in Hh, L1, L2. destruct (hdr_counts _ _ Hh) as (A & B & C & D & E & N1 & N2).
  destruct (cells_spec (num_sats h) (num_sigs h) (cell_mask h) N1 N2 ltac:(lia)) as [P Q]. fold cs in P, Q. rewrite <- B.
  split; [congruence|]. split; [congruence|]. rewrite P. exact Q.
Qed.
Lemma cell_sat i : 0 <= i < len cs -> 0 <= fst (znth (0, 0) i cs) < len (m_sats m).
Proof.
  intros Hi. destruct cs_facts as (A & B & C). destruct Hm as (T & Hh & L1 & L2 & _). fold h in Hh, L1, L2.
  destruct (hdr_counts _ _ Hh) as (A' & B' & C' & D & E & N1 & N2).
  destruct (znth (0, 0) i cs) as [s g] eqn:Z. destruct (proj2 (C i s g) (conj Hi Z)) as [(R & _) G]. cbn [fst].
  rewrite L1, <- A'. rewrite <- B' in *. rewrite <- E, C' in R. clear - R G N1 N2. nia.
Qed.
Definition sat_cols (l : list msat) : list field :=
  col 8 (map integer_ms l) ++ (if ty =? 5 then col 4 (map glo_fcn l) else []) ++
  col 10 (map modulo_ms l) ++ (if ty =? 5 then col 14 (map rate_field l) else []).
Definition gi (i : Z) : msig := znth no_sig i (m_sigs m).
Definition sc (c : Z * Z) : msat := znth no_sat (fst c) (m_sats m).
Definition c_pr := mapi 0 (fun i c => pr_field (gi i) (rough_q (sc c))) cs.
Definition c_cp := mapi 0 (fun i c => cp_fine_field (gi i) (rough_q (sc c))) cs.
Definition c_lk := mapi 0 (fun i (c : Z * Z) => lock_msm_field (gi i)) cs.
Definition c_hc := mapi 0 (fun i (c : Z * Z) => s_hca (gi i)) cs.
Definition c_cn := mapi 0 (fun i (c : Z * Z) => cnr_field (gi i)) cs.
Definition c_dp := mapi 0 (fun i c => dop_field (gi i) (rate_q (sc c))) cs.
Definition sig_cols : list field :=
  col 15 c_pr ++ col 22 c_cp ++ col 4 c_lk ++ flag_fields c_hc ++ col 6 c_cn ++ (if ty =? 5 then col 15 c_dp else []).
Lemma sat_cols_eq l : sat_fields (ty =? 5) l = sat_cols l.
Proof. unfold sat_fields, sat_cols. rewrite !map_col. destruct (ty =? 5); rewrite ?map_col; reflexivity. Qed.
Lemma sig_cols_eq : sig_fields (ty =? 5) m cs = sig_cols.
Proof.
  unfold sig_fields, sig_cols, c_pr, c_cp, c_lk, c_hc, c_cn, c_dp, gi, sc. cbv zeta. rewrite <- !mapi_col, <- mapi_bool.
  destruct (ty =? 5); rewrite <- ?mapi_col; reflexivity.
Qed.
Definition all_fields : list field := hdr_msm_fields h ++ sat_cols (m_sats m) ++ sig_cols.
Lemma all_ok : Forall width_ok all_fields.
Proof.
  destruct Hm as (T & Hh & _). unfold all_fields, sat_cols, sig_cols. apply Forall_app. split; [apply hdr_fields_ok|]. repeat (apply Forall_app; split);
    first [apply col_ok; lia|apply flag_fields_ok|destruct (ty =? 5); [apply col_ok; lia|constructor]].
Qed.
Lemma all_total : total all_fields = msm_bits ty h.
Proof.
  destruct cs_facts as (A & B & _). destruct Hm as (T & Hh & L1 & _). fold h in Hh, L1.
  destruct (hdr_counts _ _ Hh) as (A' & _). unfold all_fields, sat_cols, sig_cols, msm_bits. rewrite !total_app, (hdr_fields_total _ _ Hh).
  unfold c_pr, c_cp, c_lk, c_hc, c_cn, c_dp. rewrite !total_col, total_flags, !len_map, !len_mapi, A, L1, <- A'.
  destruct (ty =? 5); rewrite ?total_col, ?len_map, ?len_mapi, ?A, ?L1, <- ?A'; change (total []) with 0; lia.
Qed.
Definition received_sats : list msat :=
  mapi 0 (fun s (_ : Z) => mkmsat (if cons_eqb (to_constellation (mh_num h)) cGLO && negb (ty =? 5) then 255 else if ty =? 5 then glo_fcn (znth no_sat s (m_sats m)) mod 16 else 0)
     (rough_q (znth no_sat s (m_sats m))) (if ty =? 5 then rate_q (znth no_sat s (m_sats m)) else 0)) (map (fun v => v mod 2 ^ 8) (map integer_ms (m_sats m))).
Definition received_sigs : list msig :=
  mapi 0 (fun i c => decoded_sig (ty =? 5) (rough_q (sc c)) (rate_q (sc c)) (to_signed 15 (pr_field (gi i) (rough_q (sc c)))) (to_signed 22 (cp_fine_field (gi i) (rough_q (sc c))))
    (lock_msm_field (gi i) mod 2 ^ 4) (s_hca (gi i)) (cnr_field (gi i) mod 2 ^ 6) (to_signed 15 (dop_field (gi i) (rate_q (sc c))))) cs.
Lemma mapi_ext {A B} (da : A) (f g : Z -> A -> B) l : forall k, (forall i, 0 <= i < len l -> f (k + i) (znth da i l) = g (k + i) (znth da i l)) -> mapi k f l = mapi k g l.
Proof.
  induction l as [|x l IH]; intros k H; cbn [mapi]; [reflexivity|]. rewrite len_cons in H. pose proof (len_nonneg l). f_equal.
  - specialize (H 0 ltac:(lia)). rewrite Z.add_0_r in H. exact H.
  - apply IH. intros i Hi. specialize (H (i + 1) ltac:(lia)). rewrite znth_cons in H by lia.
    replace (k + (i + 1)) with (k + 1 + i) in H by lia. replace (i + 1 - 1) with i in H by lia. exact H.
Qed.
Lemma znth_repeat {A} (d x : A) n i : 0 <= i < Z.of_nat n -> znth d i (repeat x n) = x.
Proof.
  intros Hi. unfold znth. assert (L : (Z.to_nat i < n)%nat) by lia. revert L. generalize (Z.to_nat i) as k. clear Hi i.
  induction n as [|n IH]; intros [|k] L; cbn [repeat nth]; try lia; [reflexivity|apply IH; lia].
Qed.
Lemma decode_all pad : exists r, decode_msm ty (fields_bits all_fields ++ pad) = DOk (mkmmsg (decoded_hdr h) received_sats received_sigs) r.
Proof.
  destruct cs_facts as (A & B & CI). pose proof cell_sat as CS. destruct Hm as (T & Hh & L1 & L2 & FS & FG). fold h in Hh, L1, L2.
  destruct (hdr_counts _ _ Hh) as (A' & B' & C' & D & E & N1 & N2).
  pose proof Hh as Hh'. unfold msm_hdr_ok in Hh'. destruct Hh' as (H1 & H2 & _ & H4 & _ & _ & _ & _ & _ & _ & _ & K1 & K2 & S1 & S2 & L3).
  pose proof (num_range ty _ T H1) as NR.
  unfold decode_msm. replace (between 4 ty 7) with true by (destruct T as [->| ->]; reflexivity). cbn [negb].
  unfold all_fields. destruct (hdr_decode ty h Hh (sat_cols (m_sats m) ++ sig_cols) pad) as (fs & -> & HD).
  cbn [app]. rewrite bind_u by (clear - NR; lia). rewrite H1, Z.eqb_refl. cbn [negb].
  replace (cons_eqb (to_constellation (mh_num h)) cINVALID) with false by (destruct (to_constellation (mh_num h)); congruence || reflexivity).
  rewrite (dbind_eq _ _ _ _ _ HD). clear HD.
  assert (NS : num_sats (decoded_hdr h) = num_sats h) by reflexivity. assert (NG : num_sigs (decoded_hdr h) = num_sigs h) by reflexivity.
  assert (NC : num_cells (decoded_hdr h) = num_cells h) by reflexivity. rewrite NS, NG, NC.
  replace ((if cons_eqb (to_constellation (mh_num h)) cGLO then RTCM_GLO_MAX_TOW_MS else RTCM_MAX_TOW_MS) <? mh_tow (decoded_hdr h)) with false.
  2:{ symmetry. apply Z.ltb_ge. unfold decoded_hdr, RTCM_GLO_MAX_TOW_MS, RTCM_MAX_TOW_MS, DAY_MS. cbn [mh_tow]. clear - H4.
      destruct (cons_eqb (to_constellation (mh_num h)) cGLO); lia. }
  replace (64 <? num_sats h * num_sigs h) with false by (symmetry; apply Z.ltb_ge; clear - S2 A' B'; rewrite A', B'; lia).
  replace (32 <? num_sats h) with false by (symmetry; apply Z.ltb_ge; clear - S1 A'; rewrite A'; lia).
  assert (LS : Z.to_nat (num_sats h) = length (m_sats m)) by (clear - L1 A'; unfold len in L1; lia).
  assert (LC : Z.to_nat (num_cells h) = length cs) by (clear - A; unfold len in A; lia).
  rewrite LS, LC. unfold sat_cols, sig_cols.
  assert (W : forall i, 0 <= i < len (m_sats m) -> msm_sat_ok ty (znth no_sat i (m_sats m))) by (intros; apply Forall_znth; assumption).
  assert (LEN : forall f : msat -> Z, length (map f (m_sats m)) = length (m_sats m)) by (intros; apply map_length).
  assert (LENC : forall B (f : Z -> Z * Z -> B), length (mapi 0 f cs) = length cs) by (intros; apply length_mapi).
  destruct T as [-> | ->]; cbn [Z.eqb Pos.eqb orb]; rewrite <- ?app_assoc; cbn [app]; rewrite ?bind_ret.
  - rewrite bind_list_u by (first [apply LEN|clear; lia]). rewrite bind_ret. rewrite bind_list_u by (first [apply LEN|clear; lia]).
    rewrite bind_ret.
    rewrite bind_list_s by (first [apply LENC|clear; lia]). rewrite bind_list_s by (first [apply LENC|clear; lia]).
    rewrite bind_list_u by (first [apply LENC|clear; lia]). rewrite bind_list_b by (apply LENC).
    rewrite bind_list_u by (first [apply LENC|clear; lia]). rewrite bind_ret.
    eexists. unfold ret. f_equal. f_equal.
    + unfold received_sats. match goal with X0 : ty = _ |- _ => rewrite !X0 end; cbn [Z.eqb Pos.eqb negb]. apply (mapi_ext 0). rewrite !len_map. intros i Hi. cbn [Z.add].
      destruct (sat_facts _ _ (W i Hi)) as (F1 & F2 & _).
      unfold c_pr, c_cp, c_lk, c_hc, c_cn, c_dp; cbv beta zeta; repeat first [rewrite (znth_map _ 0) by (rewrite ?len_map, ?len_mapi; assumption)|rewrite (znth_map _ no_sat) by (rewrite ?len_map; assumption)].
      rewrite (Z.mod_small (integer_ms _)) by (clear - F1; lia). rewrite (Z.mod_small (modulo_ms _)) by (clear - F2; lia).
      destruct (Z.eqb_spec (integer_ms (znth no_sat i (m_sats m))) MSM_ROUGH_RANGE_INVALID) as [X|X]; [unfold MSM_ROUGH_RANGE_INVALID in X; clear - X F1; lia|].
      cbn [negb]. rewrite andb_true_r. rewrite znth_repeat by (clear - Hi; unfold len in Hi; lia). reflexivity.
    + unfold received_sigs. fold cs. match goal with X0 : ty = _ |- _ => rewrite !X0 end; cbn [Z.eqb Pos.eqb negb]. apply (mapi_ext (0, 0)). intros i Hi. cbn [Z.add].
      set (c := znth (0, 0) i cs) in *. specialize (CS i Hi). fold c in CS. pose proof (W _ CS) as Hs. fold (sc c) in Hs.
      destruct (sat_facts _ _ Hs) as (F1 & F2 & _).
      unfold c_pr, c_cp, c_lk, c_hc, c_cn, c_dp; cbv beta zeta; repeat first [rewrite (znth_map _ 0) by (rewrite ?len_map, ?len_mapi; assumption)|rewrite (znth_map _ no_sat) by (rewrite ?len_map; assumption)].
      fold (sc c). 
      rewrite (Z.mod_small (integer_ms _)) by (clear - F1; lia). rewrite (Z.mod_small (modulo_ms _)) by (clear - F2; lia).
      destruct (Z.eqb_spec (integer_ms (sc c)) MSM_ROUGH_RANGE_INVALID) as [X|X]; [unfold MSM_ROUGH_RANGE_INVALID in X; clear - X F1; lia|].
      cbn [negb andb]. rewrite !znth_repeat by (clear - Hi CS; unfold len in *; lia).
      
      rewrite !(znth_mapi _ (0, 0)) by exact Hi. cbn [Z.add]. fold c. unfold decoded_sig. cbn [andb]. 
      change (MSM_ROUGH_RATE_INVALID =? MSM_ROUGH_RATE_INVALID) with true. cbn [negb andb]. reflexivity.
  - rewrite bind_list_u by (first [apply LEN|clear; lia]). rewrite bind_list_u by (first [apply LEN|clear; lia]).
    rewrite bind_list_u by (first [apply LEN|clear; lia]). rewrite bind_list_s by (first [apply LEN|clear; lia]).
    rewrite bind_list_s by (first [apply LENC|clear; lia]). rewrite bind_list_s by (first [apply LENC|clear; lia]).
    rewrite bind_list_u by (first [apply LENC|clear; lia]). rewrite bind_list_b by (apply LENC).
    rewrite bind_list_u by (first [apply LENC|clear; lia]).
    rewrite <- (app_nil_r (col 15 c_dp)). rewrite bind_list_s by (first [apply LENC|clear; lia]).
    eexists. unfold ret. f_equal. f_equal.
    + unfold received_sats. match goal with X0 : ty = _ |- _ => rewrite !X0 end; cbn [Z.eqb Pos.eqb negb]. apply (mapi_ext 0). rewrite !len_map. intros i Hi. cbn [Z.add].
      destruct (sat_facts _ _ (W i Hi)) as (F1 & F2 & _). destruct (rate_facts _ _ (W i Hi) eq_refl) as (F3 & _).
      unfold c_pr, c_cp, c_lk, c_hc, c_cn, c_dp; cbv beta zeta; repeat first [rewrite (znth_map _ 0) by (rewrite ?len_map, ?len_mapi; assumption)|rewrite (znth_map _ no_sat) by (rewrite ?len_map; assumption)].
      rewrite (Z.mod_small (integer_ms _)) by (clear - F1; lia). rewrite (Z.mod_small (modulo_ms _)) by (clear - F2; lia).
      rewrite to_signed_id by (clear - F3; lia).
      destruct (Z.eqb_spec (integer_ms (znth no_sat i (m_sats m))) MSM_ROUGH_RANGE_INVALID) as [X|X]; [unfold MSM_ROUGH_RANGE_INVALID in X; clear - X F1; lia|].
      cbn [negb]. rewrite andb_false_r. reflexivity.
    + unfold received_sigs. fold cs. match goal with X0 : ty = _ |- _ => rewrite !X0 end; cbn [Z.eqb Pos.eqb negb]. apply (mapi_ext (0, 0)). intros i Hi. cbn [Z.add].
      set (c := znth (0, 0) i cs) in *. specialize (CS i Hi). fold c in CS. pose proof (W _ CS) as Hs. fold (sc c) in Hs.
      destruct (sat_facts _ _ Hs) as (F1 & F2 & _). destruct (rate_facts _ _ Hs eq_refl) as (F3 & _).
      unfold c_pr, c_cp, c_lk, c_hc, c_cn, c_dp; cbv beta zeta; repeat first [rewrite (znth_map _ 0) by (rewrite ?len_map, ?len_mapi; assumption)|rewrite (znth_map _ no_sat) by (rewrite ?len_map; assumption)].
      fold (sc c). rewrite (to_signed_id 14) by (clear - F3; lia).
      rewrite (Z.mod_small (integer_ms _)) by (clear - F1; lia). rewrite (Z.mod_small (modulo_ms _)) by (clear - F2; lia).
      destruct (Z.eqb_spec (integer_ms (sc c)) MSM_ROUGH_RANGE_INVALID) as [X|X]; [unfold MSM_ROUGH_RANGE_INVALID in X; clear - X F1; lia|].
      destruct (Z.eqb_spec (rate_field (sc c)) MSM_ROUGH_RATE_INVALID) as [Y|Y]; [unfold MSM_ROUGH_RATE_INVALID in Y; clear - Y F3; lia|].
      cbn [negb andb].
      
      rewrite !(znth_mapi _ (0, 0)) by exact Hi. cbn [Z.add]. fold c. unfold decoded_sig. cbn [andb]. reflexivity.
Qed.
Lemma msm_round_trip buff : bytes buff -> byte_len (msm_bits ty h) <= len buff ->
  exists b, encode_msm ty m buff = Ok (b, byte_len (msm_bits ty h)) /\ len b = len buff /\ bytes b /\
  exists m', run_dec (decode_msm ty) (take (byte_len (msm_bits ty h)) b) = Ok m' /\ msm_received ty m m'.
Proof.
  intros Hb Hl. destruct cs_facts as (A & B & CI). pose proof cell_sat as CS. pose proof Hm as (T & Hh & L1 & L2 & FS & FG). fold h in Hh, L1, L2.
  destruct (hdr_counts _ _ Hh) as (A' & B' & C' & D & E & N1 & N2).
  pose proof Hh as Hh'. unfold msm_hdr_ok in Hh'. destruct Hh' as (H1 & H2 & _ & H4 & _ & _ & _ & _ & _ & _ & _ & K1 & K2 & S1 & S2 & L3).
  unfold encode_msm. fold h. rewrite H1, Z.eqb_refl. cbn [negb].
  replace ((ty =? 4) || (ty =? 5)) with true by (destruct T as [->| ->]; reflexivity). cbn [negb].
  replace (cons_eqb (to_constellation (mh_num h)) cINVALID) with false by (destruct (to_constellation (mh_num h)); congruence || reflexivity).
  rewrite C'. replace (64 <? num_sats h * num_sigs h) with false by (symmetry; apply Z.ltb_ge; clear - S2 A' B'; rewrite A', B'; lia).
  replace (32 <? num_sats h) with false by (symmetry; apply Z.ltb_ge; clear - S1 A'; rewrite A'; lia).
  fold cs. rewrite take_all by (clear - L1 A'; lia). rewrite take_all by (clear - A B; lia).
  rewrite (sats_conv ty) by assumption. rewrite sigs_conv by assumption. cbn [andb].
  rewrite sat_cols_eq, sig_cols_eq. fold all_fields.
  pose proof (encoded_bits buff all_fields Hb all_ok) as P. rewrite all_total in P.
  assert (Q : msm_bits ty h <= 8 * len buff) by (clear - Hl; unfold byte_len in Hl; lia). specialize (P Q). cbn zeta in P.
  destruct (put_fields buff 0 all_fields) as [b bit]. cbn [fst snd] in P. destruct P as (-> & LB & BB & pad & _ & EB).
  exists b. split; [reflexivity|]. split; [exact LB|]. split; [exact BB|].
  destruct (decode_all pad) as (r & ED). unfold run_dec. rewrite EB, ED. eexists. split; [reflexivity|].
  unfold msm_received. cbn [m_hdr m_sats m_sigs]. fold h.
  split; [reflexivity|]. split; [|split].
  - apply (Forall2_znth _ no_sat no_sat).
    { unfold received_sats. rewrite len_mapi, !len_map. reflexivity. }
    intros i Hi. unfold received_sats. rewrite (znth_mapi _ 0) by (rewrite !len_map; exact Hi). cbn [Z.add].
    assert (W : msm_sat_ok ty (znth no_sat i (m_sats m))) by (apply Forall_znth; assumption).
    destruct (sat_facts _ _ W) as (_ & _ & Q1). pose proof (rate_facts _ _ W) as RF.
    unfold msat_received. cbn [rough_range rough_rate glo_fcn]. split; [exact Q1|].
    destruct T as [-> | ->]; cbn [Z.eqb Pos.eqb negb]; rewrite ?andb_true_r, ?andb_false_r; (split; [|]); intros X; try discriminate X.
    + split; reflexivity.
    + split; [exact (proj2 (RF eq_refl))|reflexivity].
  - unfold received_sigs. rewrite len_mapi. congruence.
  - intros i s g Hi Hc. apply CI in Hc. destruct Hc as [Hc1 Hc2]. unfold received_sigs. rewrite (znth_mapi _ (0, 0)) by exact Hc1.
    cbn [Z.add]. rewrite Hc2. specialize (CS i Hc1). rewrite Hc2 in CS. cbn [fst] in CS. unfold sc. cbn [fst]. fold (gi i).
    apply cell_received; [exact T|apply Forall_znth; assumption|unfold gi; apply Forall_znth; [assumption|exact Hi]].
Qed.
End Whole.

(** *** where the decoder is undefined *)
Definition no_ub {A} (d : dec A) : Prop := forall bs, d bs <> DUb.
Lemma nub_u n : no_ub (get_u n). Proof. intros bs. unfold get_u. destruct (len bs <? n); discriminate. Qed.
Lemma nub_s n : no_ub (get_s n). Proof. intros bs. unfold get_s. destruct (len bs <? n); discriminate. Qed.
Lemma nub_skip n : no_ub (skip n). Proof. intros bs. discriminate. Qed.
Lemma nub_ret {A} (a : A) : no_ub (ret a). Proof. intros bs. discriminate. Qed.
Lemma nub_fail {A} : no_ub (@fail A). Proof. intros bs. discriminate. Qed.
Lemma nub_mismatch {A} : no_ub (@mismatch A). Proof. intros bs. discriminate. Qed.
Lemma nub_bind {A B} (d : dec A) (f : A -> dec B) : no_ub d -> (forall a, no_ub (f a)) -> no_ub (dbind d f).
Proof. intros H1 H2 bs. unfold dbind. specialize (H1 bs). destruct (d bs) as [a r| | |]; [apply H2|discriminate|discriminate|contradiction]. Qed.
Lemma nub_if {A} (b : bool) (d1 d2 : dec A) : no_ub d1 -> no_ub d2 -> no_ub (if b then d1 else d2).
Proof. destruct b; auto. Qed.
Lemma nub_list {A} (d : dec A) n : no_ub d -> no_ub (get_list d n).
Proof. intros H. induction n as [|n IH]; cbn [get_list]; [apply nub_ret|]. apply nub_bind; [exact H|]. intros a. apply nub_bind; [exact IH|]. intros; apply nub_ret. Qed.
Lemma nub_bool : no_ub get_bool. Proof. unfold get_bool. apply nub_bind; [apply nub_u|intros; apply nub_ret]. Qed.
Ltac nub := repeat first [apply nub_u | apply nub_s | apply nub_skip | apply nub_ret | apply nub_fail | apply nub_mismatch | apply nub_bool
  | apply nub_list | apply nub_bind; [|intros] | apply nub_if].
Lemma get_bools n : forall bs, get_list get_bool n bs = if len bs <? Z.of_nat n then get_list get_bool n bs else DOk (take (Z.of_nat n) bs) (drop (Z.of_nat n) bs).
Proof.
  induction n as [|n IH]; intros bs.
  - destruct (Z.ltb_spec (len bs) (Z.of_nat 0)); reflexivity.
  - destruct (Z.ltb_spec (len bs) (Z.of_nat (S n))) as [H|H]; [reflexivity|]. destruct bs as [|b bs]; [unfold len in H; cbn [length] in H; lia|].
    rewrite len_cons in H. cbn [get_list]. unfold dbind at 1, get_bool at 1, dbind at 1, get_u at 1. rewrite len_cons.
    pose proof (len_nonneg bs). destruct (Z.ltb_spec (1 + len bs) 1); [lia|]. rewrite take_cons, drop_cons, take_le0, drop_le0 by lia.
    unfold ret at 1. unfold dbind at 1. rewrite IH. destruct (Z.ltb_spec (len bs) (Z.of_nat n)); [lia|].
    replace (Z.of_nat (S n)) with (Z.of_nat n + 1) by lia. rewrite (take_cons (Z.of_nat n + 1)), (drop_cons (Z.of_nat n + 1)) by lia.
    replace (Z.of_nat n + 1 - 1) with (Z.of_nat n) by lia. cbn [val_be]. unfold ret. destruct b; reflexivity.
Qed.
Lemma bind_bools_cases {B} n (f : list bool -> dec B) bs :
  (exists r, dbind (get_list get_bool n) f bs = DInvalid r) \/
  (Z.of_nat n <= len bs /\ dbind (get_list get_bool n) f bs = f (take (Z.of_nat n) bs) (drop (Z.of_nat n) bs)).
Proof.
  destruct (Z.lt_ge_cases (len bs) (Z.of_nat n)) as [H|H].
  - left. assert (E : exists r, get_list get_bool n bs = DInvalid r).
    { revert bs H. induction n as [|n IH]; intros bs H; [pose proof (len_nonneg bs); lia|]. cbn [get_list].
      destruct bs as [|b bs]; [eexists; reflexivity|]. rewrite len_cons in H. destruct (IH bs ltac:(lia)) as [r E]. exists r.
      unfold dbind at 1, get_bool at 1, dbind at 1, get_u at 1. rewrite len_cons. pose proof (len_nonneg bs).
      destruct (Z.ltb_spec (1 + len bs) 1); [lia|]. rewrite drop_cons, drop_le0 by lia. unfold ret at 1. unfold dbind. rewrite E. reflexivity. }
    destruct E as [r E]. exists r. unfold dbind. now rewrite E.
  - right. split; [exact H|]. unfold dbind. rewrite get_bools. destruct (Z.ltb_spec (len bs) (Z.of_nat n)); [lia|reflexivity].
Qed.
Lemma bind_u_cases {B} n (f : Z -> dec B) bs :
  (exists r, dbind (get_u n) f bs = DInvalid r) \/ (n <= len bs /\ dbind (get_u n) f bs = f (val_be (take n bs)) (drop n bs)).
Proof. unfold dbind, get_u. destruct (Z.ltb_spec (len bs) n); [left|right]; eauto. Qed.

Definition hdr_body (num stn tow : Z) : dec mhdr :=
  mult <- get_u 1 ;; iods <- get_u 3 ;; rsv <- get_u 7 ;; st <- get_u 2 ;; ext <- get_u 2 ;; div <- get_u 1 ;; sm <- get_u 3 ;;
  sats <- get_list get_bool 64 ;; sigs <- get_list get_bool 32 ;;
  cs <- get_cells ((count_mask 64 sats * count_mask 32 sigs) mod 256) ;;
  ret (mkmhdr num stn tow mult iods rsv st ext div sm sats sigs cs).
(** the header decoder reads the satellite mask at bits 73-136 and the signal mask at bits 137-168 of the message
    (61 and 125 after the 12-bit message number) *)
Lemma hdr_body_inv num stn tow bs :
  (exists r, hdr_body num stn tow bs = DInvalid r) \/
  (115 <= len bs /\
   let sats := sub bs 19 64 in let sigs := sub bs 83 32 in
   let size := (count_mask 64 sats * count_mask 32 sigs) mod 256 in
   ((hdr_body num stn tow bs = DUb /\ 64 < size) \/
    exists h r, hdr_body num stn tow bs = DOk h r /\ sat_mask h = sats /\ sig_mask h = sigs /\ cell_mask h = sub bs 115 size /\ size <= 64 /\ 115 + size <= len bs /\ r = drop (115 + size) bs)).
Proof.
  unfold hdr_body.
  do 7 (match goal with |- context [dbind (get_u ?n) ?f ?b] => destruct (bind_u_cases n f b) as [[r ->]|[? ->]]; [left; eauto|] end; rewrite ?drop_drop in * by lia; repeat match goal with |- context [drop (Zpos ?a + Zpos ?b) bs] => let v := eval compute in (Zpos a + Zpos b) in change (Zpos a + Zpos b) with v end).
  destruct (bind_bools_cases 64 (fun sats => sigs <- get_list get_bool 32 ;; cs <- get_cells ((count_mask 64 sats * count_mask 32 sigs) mod 256) ;;
    ret (mkmhdr num stn tow (val_be (take 1 bs)) (val_be (take 3 (drop 1 bs))) (val_be (take 7 (drop 4 bs))) (val_be (take 2 (drop 11 bs)))
     (val_be (take 2 (drop 13 bs))) (val_be (take 1 (drop 15 bs))) (val_be (take 3 (drop 16 bs))) sats sigs cs)) (drop 19 bs)) as [[r ->]|[L1 ->]]; [left; eauto|].
  change (Z.of_nat 64) with 64 in *. fold (sub bs 19 64). rewrite drop_drop by lia. change (19 + 64) with 83.
  destruct (bind_bools_cases 32 (fun sigs => cs <- get_cells ((count_mask 64 (sub bs 19 64) * count_mask 32 sigs) mod 256) ;;
    ret (mkmhdr num stn tow (val_be (take 1 bs)) (val_be (take 3 (drop 1 bs))) (val_be (take 7 (drop 4 bs))) (val_be (take 2 (drop 11 bs)))
     (val_be (take 2 (drop 13 bs))) (val_be (take 1 (drop 15 bs))) (val_be (take 3 (drop 16 bs))) (sub bs 19 64) sigs cs)) (drop 83 bs)) as [[r ->]|[L2 ->]]; [left; eauto|].
  change (Z.of_nat 32) with 32 in *. fold (sub bs 83 32). rewrite drop_drop by lia. change (83 + 32) with 115.
  set (size := (count_mask 64 (sub bs 19 64) * count_mask 32 (sub bs 83 32)) mod 256). cbv zeta. fold size.
  assert (SZ : 0 <= size < 256) by (apply Z.mod_pos_bound; lia). rewrite len_drop in L2. 
  unfold get_cells. destruct (Z.leb_spec size 64) as [S64|S64].
  - match goal with |- context [dbind (get_list get_bool ?n) ?f ?b] => destruct (bind_bools_cases n f b) as [[r ->]|[L3 ->]]; [left; eauto|] end.
    rewrite Z2Nat.id in * by lia. rewrite len_drop in L3. right. split; [lia|]. right. unfold ret. do 2 eexists. split; [reflexivity|].
    cbn [sat_mask sig_mask cell_mask]. rewrite drop_drop by lia. clearbody size. repeat split; try reflexivity; lia.
  - rewrite bind_assoc. match goal with |- context [dbind (get_list get_bool ?n) ?f ?b] => destruct (bind_bools_cases n f b) as [[r ->]|[L3 ->]]; [left; eauto|] end.
    rewrite !bind_assoc. unfold get_bool. rewrite !bind_assoc.
    match goal with |- context [dbind (get_u ?n) ?f ?b] => destruct (bind_u_cases n f b) as [[r ->]|[L4 ->]]; [left; eauto|] end.
    right. split; [lia|]. left. split; [reflexivity|exact S64].
Qed.
Lemma bind_skip_any {B} n (f : unit -> dec B) bs : dbind (skip n) f bs = f tt (drop n bs). Proof. reflexivity. Qed.
Lemma header_inv num bs :
  (exists r, get_msm_header num bs = DInvalid r) \/
  (157 <= len bs /\
   let sats := sub bs 61 64 in let sigs := sub bs 125 32 in
   let size := (count_mask 64 sats * count_mask 32 sigs) mod 256 in
   ((get_msm_header num bs = DUb /\ 64 < size) \/
    exists h r, get_msm_header num bs = DOk h r /\ sat_mask h = sats /\ sig_mask h = sigs /\ cell_mask h = sub bs 157 size /\ size <= 64 /\ 157 + size <= len bs)).
Proof.
  assert (X : (exists r, get_msm_header num bs = DInvalid r) \/ (42 <= len bs /\ exists stn tow, get_msm_header num bs = hdr_body num stn tow (drop 42 bs))).
  { unfold get_msm_header.
    match goal with |- context [dbind (get_u ?n) ?f bs] => destruct (bind_u_cases n f bs) as [[r ->]|[L0 ->]]; [left; eauto|] end.
    destruct (to_constellation num);
      try (match goal with |- context [dbind (get_u ?n) ?f ?b] => destruct (bind_u_cases n f b) as [[r ->]|[L1 ->]]; [left; eauto|] end;
           rewrite len_drop in L1; rewrite drop_drop by lia; right; split; [lia|]; do 2 eexists; reflexivity).
    - rewrite bind_assoc, bind_skip_any, drop_drop by lia.
      match goal with |- context [dbind (get_u ?n) ?f ?b] => destruct (bind_u_cases n f b) as [[r ->]|[L1 ->]]; [left; eauto|] end.
      rewrite len_drop in L1. rewrite drop_drop by lia. right; split; [lia|]; do 2 eexists; reflexivity.
    - rewrite bind_assoc. match goal with |- context [dbind (get_u ?n) ?f ?b] => destruct (bind_u_cases n f b) as [[r ->]|[L1 ->]]; [left; eauto|] end.
      rewrite bind_ret. rewrite len_drop in L1. rewrite drop_drop by lia. right; split; [lia|]; do 2 eexists; reflexivity. }
  destruct X as [X|(L & stn & tow & ->)]; [left; exact X|].
  destruct (hdr_body_inv num stn tow (drop 42 bs)) as [X|(L1 & X)]; [left; exact X|right].
  unfold sub in *. rewrite !drop_drop in X by lia. change (42 + 19) with 61 in X. change (42 + 83) with 125 in X. change (42 + 115) with 157 in X.
  rewrite len_drop in *. split; [lia|]. cbv zeta in X |- *. destruct X as [X|(h & r & E & X1 & X2 & X3 & X4 & X5 & _)]; [left; exact X|right].
  exists h, r. repeat split; try assumption. lia.
Qed.
Lemma len_sub {A} (l : list A) i n : 0 <= i -> 0 <= n -> i + n <= len l -> len (sub l i n) = n.
Proof. intros. unfold sub. rewrite len_take, len_drop. lia. Qed.
Lemma count_full n mask : len mask = n -> n <= 64 -> count_mask n mask = set_count mask.
Proof. intros L H. rewrite count_mask_eq, take_all by (rewrite ?len_take; lia). reflexivity. Qed.
Lemma decode_msm_ub ty bs : decode_msm ty bs = DUb ->
  169 <= len bs /\ let S := set_count (sub bs 73 64) in let G := set_count (sub bs 137 32) in 64 < (S * G) mod 256 \/ (32 < S /\ S * G <= 64).
Proof.
  unfold decode_msm. destruct (between 4 ty 7); cbn [negb]; [|discriminate].
  match goal with |- dbind (get_u ?n) ?f ?b = _ -> _ => destruct (bind_u_cases n f b) as [[r ->]|[L0 ->]]; [discriminate|] end.
  set (num := val_be (take 12 bs)). destruct (negb (ty =? to_msm_type num)); [discriminate|]. destruct (cons_eqb (to_constellation num) cINVALID); [discriminate|].
  destruct (header_inv num (drop 12 bs)) as [[r E]|(L1 & X)]; [unfold dbind at 1; rewrite E; discriminate|].
  unfold sub in X. rewrite !drop_drop in X by lia. change (12 + 61) with 73 in X. change (12 + 125) with 137 in X. change (12 + 157) with 169 in X.
  fold (sub bs 73 64) (sub bs 137 32) in X. rewrite len_drop in *.
  cbv zeta in X. assert (L169 : 169 <= len bs) by lia.
  pose proof (len_sub bs 73 64 ltac:(lia) ltac:(lia) ltac:(lia)) as LS1. pose proof (len_sub bs 137 32 ltac:(lia) ltac:(lia) ltac:(lia)) as LS2.
  rewrite !count_full in X by (first [assumption|lia]).
  intros D. split; [exact L169|]. cbv zeta. destruct X as [[E S]|(h & r & E & X1 & X2 & X3 & X4 & X5)]; [left; exact S|right].
  unfold dbind at 1 in D. rewrite E in D.
  assert (NS : num_sats h = set_count (sub bs 73 64)) by (unfold num_sats; rewrite X1; apply count_full; lia).
  assert (NG : num_sigs h = set_count (sub bs 137 32)) by (unfold num_sigs; rewrite X2; apply count_full; lia).
  rewrite NS, NG in D. match type of D with (if ?b then _ else _) _ = _ => destruct b; [discriminate|] end.
  destruct (Z.ltb_spec 64 (set_count (sub bs 73 64) * set_count (sub bs 137 32))); [discriminate|]. split; [|assumption].
  destruct (Z.ltb_spec 32 (set_count (sub bs 73 64))); [assumption|]. exfalso. revert D. match goal with |- ?d ?b = DUb -> False => assert (N : no_ub d) by nub; apply N end.
Qed.
(** what a decoded message looks like *)
Lemma decode_msm_shape ty bs m r : decode_msm ty bs = DOk m r ->
  let h := m_hdr m in
  len (sat_mask h) = 64 /\ len (sig_mask h) = 32 /\ set_count (sat_mask h) <= 32 /\ len (cell_mask h) = set_count (sat_mask h) * set_count (sig_mask h) /\
  len (cell_mask h) <= 64 /\ len (m_sats m) = set_count (sat_mask h) /\ len (m_sigs m) = set_count (cell_mask h).
Proof.
  unfold decode_msm. destruct (between 4 ty 7); cbn [negb]; [|discriminate].
  match goal with |- dbind (get_u ?n) ?f ?b = _ -> _ => destruct (bind_u_cases n f b) as [[q ->]|[L0 ->]]; [discriminate|] end.
  set (num := val_be (take 12 bs)). destruct (negb (ty =? to_msm_type num)); [discriminate|]. destruct (cons_eqb (to_constellation num) cINVALID); [discriminate|].
  destruct (header_inv num (drop 12 bs)) as [[q E]|(L1 & X)]; [unfold dbind at 1; rewrite E; discriminate|].
  unfold sub in X. rewrite !drop_drop in X by lia. change (12 + 61) with 73 in X. change (12 + 125) with 137 in X. change (12 + 157) with 169 in X.
  fold (sub bs 73 64) (sub bs 137 32) in X. rewrite len_drop in *.
  cbv zeta in X. assert (L169 : 169 <= len bs) by lia.
  pose proof (len_sub bs 73 64 ltac:(lia) ltac:(lia) ltac:(lia)) as LS1. pose proof (len_sub bs 137 32 ltac:(lia) ltac:(lia) ltac:(lia)) as LS2.
  rewrite !count_full in X by (first [assumption|lia]).
  destruct X as [[E S]|(h & q & E & X1 & X2 & X3 & X4 & X5)]; [unfold dbind at 1; rewrite E; discriminate|].
  intros D. unfold dbind at 1 in D. rewrite E in D.
  assert (NS : num_sats h = set_count (sub bs 73 64)) by (unfold num_sats; rewrite X1; apply count_full; lia).
  assert (NG : num_sigs h = set_count (sub bs 137 32)) by (unfold num_sigs; rewrite X2; apply count_full; lia).
  match type of D with (if ?b then _ else _) _ = _ => destruct b; [discriminate|] end.
  destruct (Z.ltb_spec 64 (num_sats h * num_sigs h)) as [|SG]; [discriminate|].
  do 10 (match type of D with dbind ?d ?f ?b = DOk _ _ => let a := fresh "v" in let r1 := fresh "r" in let E1 := fresh "E" in let E2 := fresh "E" in
    destruct (dbind_ok d f b _ _ D) as (a & r1 & E1 & E2); clear D; rename E2 into D end).
  destruct (Z.ltb_spec 32 (num_sats h)) as [|S32]; [discriminate|]. unfold ret in D. injection D as <- <-. cbv zeta. cbn [m_hdr m_sats m_sigs].
  pose proof (set_count_range (sub bs 73 64)). pose proof (set_count_range (sub bs 137 32)). rewrite NS, NG in *.
  assert (SZ : (set_count (sub bs 73 64) * set_count (sub bs 137 32)) mod 256 = set_count (sub bs 73 64) * set_count (sub bs 137 32)) by (apply Z.mod_small; nia).
  rewrite SZ in *. rewrite X1, X2.
  assert (LC : len (cell_mask h) = set_count (sub bs 73 64) * set_count (sub bs 137 32)) by (rewrite X3; unfold sub; rewrite len_take, !len_drop; assert (0 <= set_count (sub bs 73 64) * set_count (sub bs 137 32)) by nia; unfold sub in *; lia).
  rewrite !len_mapi.
  assert (LL : forall A (d : dec A) n b l q, get_list d n b = DOk l q -> len l = Z.of_nat n).
  { clear. intros A d n. induction n as [|n IH]; intros b l q E; cbn [get_list] in E; [injection E as <- <-; reflexivity|].
    destruct (dbind_ok _ _ _ _ _ E) as (x & q1 & _ & E2). destruct (dbind_ok _ _ _ _ _ E2) as (y & q2 & E3 & E4). injection E4 as <- <-.
    rewrite len_cons, (IH _ _ _ E3). lia. }
  match goal with E1 : get_list (get_u 8) _ _ = DOk _ _ |- _ => apply LL in E1; rewrite E1 end.
  rewrite Z2Nat.id by lia. repeat split; try assumption; try lia.
  destruct (cells_spec (set_count (sub bs 73 64)) (set_count (sub bs 137 32)) (cell_mask h) ltac:(lia) ltac:(lia) LC) as [CL _]. exact CL.
Qed.
Lemma cut_undefined {A} : cut_safe (@undefined A). Proof. intros bs a r E. discriminate. Qed.
Lemma cut1_bool : cut_safe1 get_bool. Proof. unfold get_bool. cut. Qed.
Lemma cut_cells n : cut_safe (get_cells n).
Proof. unfold get_cells. pose proof (cut_safe1_weaken _ cut1_bool). revert H. generalize get_bool. intros d Hd. apply cut_if; [now apply cut_list|]. apply cut_bind; [now apply cut_list|intros]. apply cut_bind; [exact Hd|intros]. apply cut_undefined. Qed.
Lemma cut_header num : cut_safe (get_msm_header num).
Proof.
  unfold get_msm_header. pose proof (cut_safe1_weaken _ cut1_bool) as Hb. pose proof cut_cells as Hc. revert Hb Hc. generalize get_bool get_cells. intros d c Hd Hc.
  assert (HT : cut_safe (match to_constellation num with cGLO => _ <- skip 3 ;; get_u 27 | cBDS => t <- get_u 30 ;; ret (normalize_bds2_tow t) | _ => get_u 30 end))
    by (destruct (to_constellation num); cut).
  revert HT. match goal with |- cut_safe ?t -> _ => generalize t end. intros t HT. cut; try exact HT; try exact Hd; try apply Hc.
Qed.
Lemma cut_msm ty : cut_safe (decode_msm ty).
Proof.
  unfold decode_msm. pose proof (cut_safe1_weaken _ cut1_bool) as Hb. pose proof cut_header as Hc. revert Hb Hc. generalize get_bool get_msm_header. intros d c Hd Hc.
  assert (forall (b : bool) x y, 0 <= x -> 0 <= y -> 0 <= if b then x else y) as HW by (intros []; auto).
  cut; try exact Hd; try apply Hc; try (apply cut_get_s, HW; lia); try (apply cut_get_u, HW; lia); try apply cut_undefined.
Qed.
