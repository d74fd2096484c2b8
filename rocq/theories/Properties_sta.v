(** C74: ST's proprietary message 999 (firmware version, firmware configuration, RF status). *)
From Verif Require Import Base Bitstring Bits_model Bits_proofs Bitstream_proofs Sbas_proofs Sta_model.

(** the string in a character array: up to the first NUL *)
Fixpoint cstring (l : list Z) : list Z := match l with [] => [] | c :: l => if c =? 0 then [] else c :: cstring l end.

(** ** lemmas *)
Lemma rd_at mem a b c pos n : bytes mem -> bits_of_bytes mem = a ++ b ++ c -> len a = pos -> len b = n -> n <= 32 -> rd mem pos n = Ok (val_be b).
Proof.
  intros B E A N L. pose proof (f_equal len E) as Q. rewrite len_bits_of_bytes, !len_app in Q. pose proof (len_nonneg a). pose proof (len_nonneg b). pose proof (len_nonneg c).
  unfold rd. destruct (Z.leb_spec (pos + n) (8 * len mem)); [|lia]. rewrite sub_val by (try assumption; lia). rewrite E. unfold sub. rewrite <- A.
  rewrite drop_app_exact. rewrite <- N. rewrite take_app_exact. reflexivity.
Qed.

Lemma drop_one {A} (d : A) : forall l k, 0 <= k < len l -> drop k l = znth d k l :: drop (k + 1) l.
Proof.
  induction l as [|x l IH]; intros k K; [change (len (@nil A)) with 0 in K; lia|]. rewrite len_cons in K. destruct (Z.eq_dec k 0) as [->|N]; [reflexivity|].
  rewrite !drop_cons, znth_cons by lia. rewrite IH by lia. do 2 f_equal. lia.
Qed.
Lemma Forall_nth (P : Z -> Prop) l k : Forall P l -> 0 <= k < len l -> P (znth 0 k l).
Proof. intros F K. rewrite Forall_forall in F. apply F. unfold znth. apply nth_In. unfold len in K. lia. Qed.
Lemma store_at w v x r i : i = len w -> store i v (w ++ x :: r) = Ok (w ++ v :: r).
Proof.
  intros ->. unfold store. pose proof (len_nonneg w). pose proof (len_nonneg r). rewrite len_app, len_cons. destruct (Z.leb_spec 0 (len w)); [|lia]. destruct (Z.ltb_spec (len w) (len w + (1 + len r))); [|lia].
  cbn [andb]. f_equal. unfold zupd, len. rewrite Nat2Z.id. clear. induction w as [|y w IH]; [reflexivity|]. cbn. rewrite IH. reflexivity.
Qed.
Lemma store_out i v out : len out <= i -> store i v out = Ub.
Proof. intros L. unfold store. destruct (Z.ltb_spec i (len out)); [lia|]. rewrite andb_false_r. reflexivity. Qed.
Lemma rd_byte mem a cs c k pos : bytes mem -> bytes cs -> bits_of_bytes mem = a ++ bits_of_bytes cs ++ c -> 0 <= k < len cs -> pos = len a + 8 * k -> rd mem pos 8 = Ok (znth 0 k cs).
Proof.
  intros B Bc E K ->.
  assert (S : cs = take k cs ++ [znth 0 k cs] ++ drop (k + 1) cs).
  { rewrite <- (take_drop k cs) at 1. f_equal. apply (drop_one 0). exact K. }
  assert (BY : byte (znth 0 k cs)) by (apply (Forall_nth byte); assumption).
  rewrite S in E. rewrite !bits_of_bytes_app in E. change (bits_of_bytes [znth 0 k cs]) with (bits_be 8 (znth 0 k cs) ++ []) in E. rewrite app_nil_r in E.
  rewrite <- (bits8_val _ BY). apply (rd_at mem (a ++ bits_of_bytes (take k cs)) _ (bits_of_bytes (drop (k + 1) cs) ++ c)); [exact B| | |reflexivity|lia].
  - rewrite E, <- !app_assoc. reflexivity.
  - rewrite len_app, len_bits_of_bytes, len_take. lia.
Qed.

Lemma get_str_spec mem a cs c : bytes mem -> bytes cs -> bits_of_bytes mem = a ++ bits_of_bytes cs ++ c -> forall k i w r, 0 <= i -> i + Z.of_nat k <= len cs -> len w = i -> Z.of_nat k <= len r ->
  get_str mem k i (len a + 8 * i) (w ++ r) = Ok (w ++ sub cs i (Z.of_nat k) ++ drop (Z.of_nat k) r).
Proof.
  intros B Bc E k. induction k as [|k IH]; intros i w r I K W R; [reflexivity|]. cbn [get_str].
  rewrite (rd_byte mem a cs c i) by (try assumption; lia). cbn [bind]. destruct r as [|x r]; [change (len (@nil Z)) with 0 in R; lia|]. rewrite store_at by lia. cbn [bind].
  replace (len a + 8 * i + 8) with (len a + 8 * (i + 1)) by ring. rewrite len_cons in R.
  replace (w ++ znth 0 i cs :: r) with ((w ++ [znth 0 i cs]) ++ r) by (rewrite <- app_assoc; reflexivity).
  rewrite IH; [|lia|lia|rewrite len_app; change (len [znth 0 i cs]) with 1; lia|lia]. rewrite <- !app_assoc. f_equal. f_equal. unfold sub. rewrite (drop_one 0 cs i) by lia.
  rewrite take_cons by lia. replace (Z.of_nat (S k) - 1) with (Z.of_nat k) by lia. cbn [app]. rewrite drop_cons by lia. replace (Z.of_nat (S k) - 1) with (Z.of_nat k) by lia. reflexivity.
Qed.
Lemma fw_head mem n cs c : bytes mem -> 0 <= n < 256 -> bits_of_bytes mem = fields_bits [(12, 999); (8, 25); (8, n)] ++ bits_of_bytes cs ++ c ->
  rd mem 0 12 = Ok 999 /\ rd mem 12 8 = Ok 25 /\ rd mem 20 8 = Ok n.
Proof.
  intros B N E. split; [|split].
  - apply (rd_at mem [] (bits_be 12 999) (fields_bits [(8, 25); (8, n)] ++ bits_of_bytes cs ++ c)); try reflexivity; try assumption; try lia.
  - apply (rd_at mem (bits_be 12 999) (bits_be 8 25) (fields_bits [(8, n)] ++ bits_of_bytes cs ++ c)); try reflexivity; try assumption; try lia.
  - rewrite <- (bits8_val n) by exact N. apply (rd_at mem (bits_be 12 999 ++ bits_be 8 25) (bits_be 8 n) (bits_of_bytes cs ++ c)); try reflexivity; try assumption; try lia.
Qed.

(** ** firmware version *)
(** A 999:25 message with the version string [cs] shorter than the caller's array: the array holds the string, NUL-terminated, the rest of it
    unchanged.  Partial: the string must be shorter than the array (refuted below). *)
Theorem C74_firmware_version_partial : forall mem cs rest out, bytes mem -> bytes cs -> len out < 256 ->
  bits_of_bytes mem = fields_bits [(12, 999); (8, 25); (8, len cs)] ++ bits_of_bytes cs ++ rest -> len cs < len out ->
  fwver mem out (len out) = Ok (cs ++ 0 :: drop (len cs + 1) out).
Proof.
  intros mem cs rest out B Bc Lo E L. pose proof (len_nonneg cs). destruct (fw_head mem (len cs) cs rest B) as (E1 & E2 & E3); [lia|exact E|].
  unfold fwver. rewrite E1. cbn [bind]. rewrite E2. cbn [bind]. change (negb ((999 =? 999) && (25 =? 25))) with false. cbv iota. rewrite E3. cbn [bind]. cbv zeta.
  destruct (Z.ltb_spec (len out) (len cs)); [lia|].
  pose proof (get_str_spec mem _ cs rest B Bc E (Z.to_nat (len cs)) 0 [] out ltac:(lia) ltac:(lia) eq_refl ltac:(lia)) as G. cbn [app] in G. rewrite Z2Nat.id in G by lia.
  change (len (fields_bits [(12, 999); (8, 25); (8, len cs)]) + 8 * 0) with 28 in G. rewrite G. cbn [bind]. unfold sub. rewrite drop_0, take_all by lia.
  rewrite (drop_one 0 out) by lia. apply store_at. reflexivity.
Qed.
(** finding: a version string as long as the array or longer: the terminating NUL is written behind the array *)
Theorem C74_version_overflow_refuted : forall mem cs rest out, bytes mem -> bytes cs -> len cs < 256 ->
  bits_of_bytes mem = fields_bits [(12, 999); (8, 25); (8, len cs)] ++ bits_of_bytes cs ++ rest -> len out <= len cs ->
  fwver mem out (len out) = Ub.
Proof.
  intros mem cs rest out B Bc Lo E L. pose proof (len_nonneg cs). pose proof (len_nonneg out). destruct (fw_head mem (len cs) cs rest B) as (E1 & E2 & E3); [lia|exact E|].
  unfold fwver. rewrite E1. cbn [bind]. rewrite E2. cbn [bind]. change (negb ((999 =? 999) && (25 =? 25))) with false. cbv iota. rewrite E3. cbn [bind]. cbv zeta.
  replace (if len out <? len cs then len out else len cs) with (len out) by (destruct (Z.ltb_spec (len out) (len cs)); lia).
  pose proof (get_str_spec mem _ cs rest B Bc E (Z.to_nat (len out)) 0 [] out ltac:(lia) ltac:(lia) eq_refl ltac:(lia)) as G. cbn [app] in G. rewrite Z2Nat.id in G by lia.
  change (len (fields_bits [(12, 999); (8, 25); (8, len cs)]) + 8 * 0) with 28 in G. rewrite G. cbn [bind]. apply store_out. rewrite len_app, len_drop. unfold sub. rewrite len_take, drop_0. lia.
Qed.
(** finding: there is no length to check: a message whose string is cut off is completed from the memory behind it *)
Theorem C74_version_reads_outside_refuted : fwver [0x3E; 0x71; 0x91; 0x64; 0x74] (repeat 0 32) 32 = Ub.
Proof. vm_compute. reflexivity. Qed.
Example C74_version_example : fwver [0x3E; 0x71; 0x90; 0x34; 0x74; 0xE5; 0x30] (repeat 7 6) 6 = Ok [0x47; 0x4E; 0x53; 0; 7; 7].
Proof. vm_compute. reflexivity. Qed.

(** ** firmware configuration *)
(** the sixteen characters of a 999:2 message from bit 58 on, each group of four in reverse order *)
Definition swap4 (cs : list Z) : list Z := match cs with
  | [a; b; c; d; e; f; g; h; i; j; k; l; m; n; o; p] => [d; c; b; a; h; g; f; e; l; k; j; i; p; o; n; m] | _ => [] end.
Lemma znth_store i v out out' : store i v out = Ok out' -> len out' = len out /\ 0 <= i < len out /\ znth 0 i out' = v /\ forall j, 0 <= j -> j <> i -> znth 0 j out' = znth 0 j out.
Proof.
  unfold store. destruct (Z.leb_spec 0 i); [|discriminate]. destruct (Z.ltb_spec i (len out)); [|discriminate]. cbn [andb]. intros E. injection E as <-.
  split; [apply len_zupd|]. split; [lia|]. split; [rewrite znth_zupd_eq by lia; reflexivity|]. intros j J N. apply znth_zupd_neq; lia.
Qed.
Lemma store_ok i v out : 0 <= i < len out -> exists out', store i v out = Ok out'.
Proof. intros H. unfold store. destruct (Z.leb_spec 0 i); [|lia]. destruct (Z.ltb_spec i (len out)); [|lia]. eexists. reflexivity. Qed.
(** the characters as the loops see them *)
Section Rcc.
Context (mem : list Z) (ch : Z -> Z) (R : forall i j, 0 <= i < 4 -> 0 <= j < 4 -> rd mem (58 + 24 + 32 * i - j * 8) 8 = Ok (ch (4 * i + j))).
Lemma inner_spec i : 0 <= i < 4 -> forall k j out, 0 <= j -> j + Z.of_nat k = 4 -> 16 <= len out ->
  exists out', rcc_inner mem i k j out = Ok out' /\ len out' = len out /\
    (forall x, 0 <= x -> x < 4 * i + j \/ 4 * i + 4 <= x -> znth 0 x out' = znth 0 x out) /\
    (forall x, 4 * i + j <= x < 4 * i + 4 -> (forall y, 4 * i + j <= y < x -> ch y <> 0) -> znth 0 x out' = ch x).
Proof.
  intros I. induction k as [|k IH]; intros j out J K L; cbn [rcc_inner].
  - exists out. split; [reflexivity|]. split; [reflexivity|]. split; [auto|]. intros x X. lia.
  - rewrite R by lia. cbn [bind]. destruct (store_ok (i * 4 + j) (ch (4 * i + j)) out) as (o1 & E1); [lia|]. rewrite E1. cbn [bind]. apply znth_store in E1. destruct E1 as (L1 & _ & V1 & N1).
    destruct (Z.eqb_spec (ch (4 * i + j)) 0) as [Z0|Z0].
    + exists o1. split; [reflexivity|]. split; [exact L1|]. split; [intros x X0 X; apply N1; lia|].
      intros x X Y. destruct (Z.eq_dec x (4 * i + j)) as [->|Nx]; [rewrite <- V1; f_equal; lia|]. exfalso. apply (Y (4 * i + j)); [lia|exact Z0].
    + destruct (IH (j + 1) o1) as (o2 & E2 & L2 & A2 & B2); [lia|lia|lia|]. exists o2. split; [exact E2|]. split; [lia|]. split.
      * intros x X0 X. rewrite A2 by lia. apply N1; lia.
      * intros x X Y. destruct (Z.eq_dec x (4 * i + j)) as [->|Nx].
        -- rewrite A2 by lia. rewrite <- V1. f_equal. lia.
        -- apply B2; [lia|]. intros y Hy. apply Y. lia.
Qed.
Lemma outer_spec : forall k i out, 0 <= i -> i + Z.of_nat k = 4 -> 16 <= len out ->
  exists out', rcc_outer mem k i out = Ok out' /\ len out' = len out /\ (forall x, 0 <= x < 4 * i -> znth 0 x out' = znth 0 x out) /\
    (forall x, 4 * i <= x < 16 -> (forall y, 4 * i <= y < x -> ch y <> 0) -> znth 0 x out' = ch x).
Proof.
  induction k as [|k IH]; intros i out I K L; cbn [rcc_outer].
  - exists out. split; [reflexivity|]. split; [reflexivity|]. split; [auto|]. intros x X. lia.
  - destruct (inner_spec i ltac:(lia) 4 0 out) as (o1 & E1 & L1 & A1 & B1); [lia|reflexivity|exact L|]. rewrite E1. cbn [bind].
    destruct (IH (i + 1) o1) as (o2 & E2 & L2 & A2 & B2); [lia|lia|lia|]. exists o2. split; [exact E2|]. split; [lia|]. split.
    + intros x X. rewrite A2 by lia. apply A1; lia.
    + intros x X Y. destruct (Z_lt_dec x (4 * i + 4)).
      * rewrite A2 by lia. apply B1; [lia|]. intros y Hy. apply Y. lia.
      * apply B2; [lia|]. intros y Hy. apply Y. lia.
Qed.
End Rcc.
Lemma cstring_agree : forall l2 l1, len l2 < len l1 -> znth 0 (len l2) l1 = 0 ->
  (forall x, 0 <= x < len l2 -> (forall y, 0 <= y < x -> znth 0 y l2 <> 0) -> znth 0 x l1 = znth 0 x l2) -> cstring l1 = cstring l2.
Proof.
  induction l2 as [|c l2 IH]; intros l1 L Z0 A; (destruct l1 as [|d l1]; [change (len (@nil Z)) with 0 in L; pose proof (len_nonneg (@nil Z)); try rewrite len_cons in L; try pose proof (len_nonneg l2); lia|]).
  - change (d = 0) in Z0. subst d. reflexivity.
  - rewrite !len_cons in L. pose proof (len_nonneg l2). assert (D : d = c).
    { apply (A 0); [rewrite len_cons; lia|]. intros y Y. lia. }
    subst d. cbn [cstring]. destruct (Z.eqb_spec c 0) as [->|N]; [reflexivity|]. f_equal. apply IH; [lia| |].
    + rewrite len_cons in Z0. rewrite znth_cons in Z0 by lia. replace (1 + len l2 - 1) with (len l2) in Z0 by ring. exact Z0.
    + intros x X Y. specialize (A (x + 1)). rewrite !znth_cons in A by lia. replace (x + 1 - 1) with x in A by ring. apply A; [rewrite len_cons; lia|].
      intros y Hy. destruct (Z.eq_dec y 0) as [->|Ny]; [exact N|]. rewrite znth_cons by lia. apply Y. lia.
Qed.
Lemma take_swap cs x : len cs = 16 -> 0 <= x < 15 -> znth 0 x (take 15 (swap4 cs)) = znth 0 (4 * (x / 4) + 3 - x mod 4) cs /\ len (take 15 (swap4 cs)) = 15.
Proof.
  intros L X. do 16 (destruct cs as [|? cs]; [discriminate L|]). destruct cs as [|? cs]; [|rewrite !len_cons in L; pose proof (len_nonneg cs); lia].
  assert (H : x = 0 \/ x = 1 \/ x = 2 \/ x = 3 \/ x = 4 \/ x = 5 \/ x = 6 \/ x = 7 \/ x = 8 \/ x = 9 \/ x = 10 \/ x = 11 \/ x = 12 \/ x = 13 \/ x = 14) by lia.
  split; [|reflexivity]. repeat (destruct H as [-> | H]; [reflexivity|]). subst x. reflexivity.
Qed.
(** A 999:2 message whose bits 58 to 185 are the characters [cs], into an array of at least 16 characters: the array then holds the string
    of the characters, each group of four in reverse order, up to the first NUL and at most 15 of them. *)
Theorem C74_configuration : forall mem pad cs rest out ln, bytes mem -> bytes cs -> len cs = 16 -> len pad = 38 ->
  bits_of_bytes mem = fields_bits [(12, 999); (8, 2)] ++ pad ++ bits_of_bytes cs ++ rest -> 16 <= len out -> 16 <= ln ->
  exists out', rcc_config mem out ln = Ok out' /\ len out' = len out /\ cstring out' = cstring (take 15 (swap4 cs)).
Proof.
  intros mem pad cs rest out ln B Bc Lc Lp E Lo Ln.
  assert (E1 : rd mem 0 12 = Ok 999) by (apply (rd_at mem [] (bits_be 12 999) (bits_be 8 2 ++ pad ++ bits_of_bytes cs ++ rest)); try reflexivity; try assumption; try lia).
  assert (E2 : rd mem 12 8 = Ok 2) by (apply (rd_at mem (bits_be 12 999) (bits_be 8 2) (pad ++ bits_of_bytes cs ++ rest)); try reflexivity; try assumption; try lia).
  unfold rcc_config. rewrite E1. cbn [bind]. rewrite E2. cbn [bind]. destruct (Z.ltb_spec 15 ln); [|lia]. change (negb ((999 =? 999) && (2 =? 2)) || negb true) with false. cbv iota.
  set (ch := fun x => znth 0 (4 * (x / 4) + 3 - x mod 4) cs).
  assert (R : forall i j, 0 <= i < 4 -> 0 <= j < 4 -> rd mem (58 + 24 + 32 * i - j * 8) 8 = Ok (ch (4 * i + j))).
  { intros i j I J. unfold ch. rewrite (Z.add_comm (4 * i)), (Z.mul_comm 4 i), Z.div_add, Z.mod_add, Z.div_small, Z.mod_small by lia.
    apply (rd_byte mem (fields_bits [(12, 999); (8, 2)] ++ pad) cs rest); [exact B|exact Bc|rewrite E, <- app_assoc; reflexivity|lia|]. rewrite len_app, Lp. change (len (fields_bits [(12, 999); (8, 2)])) with 20. lia. }
  destruct (outer_spec mem ch R 4 0 out) as (o1 & Q1 & L1 & _ & A1); [lia|reflexivity|exact Lo|]. rewrite Q1. cbn [bind].
  destruct (store_ok 15 0 o1) as (o2 & Q2); [lia|]. exists o2. split; [exact Q2|]. apply znth_store in Q2. destruct Q2 as (L2 & _ & V2 & N2). split; [lia|].
  destruct (take_swap cs 0 Lc ltac:(lia)) as (_ & L15). apply cstring_agree; rewrite ?L15; [lia|exact V2|].
  intros x X Y. rewrite N2 by lia. rewrite (proj1 (take_swap cs x Lc X)). apply A1; [lia|]. intros y Hy. unfold ch. rewrite <- (proj1 (take_swap cs y Lc ltac:(lia))). apply Y. lia.
Qed.
Example C74_configuration_example : let cs := [0x20; 0x4F; 0x43; 0x42; 0; 0x46; 0x45; 0x44; 0x31; 0x31; 0x31; 0x31; 0x32; 0x32; 0x32; 0x32] in
  cstring (take 15 (swap4 cs)) = [0x42; 0x43; 0x4F; 0x20; 0x44; 0x45; 0x46] /\
  rcc_config (0x3E :: 0x70 :: 0x20 :: repeat 0 4 ++ map (fun k => (64 * znth 0 (k - 1) (0 :: cs) + znth 0 k (0 :: cs) / 4) mod 256) (map Z.of_nat (seq 1 16)) ++ [0x80]) (repeat 9 16) 16 =
    Ok [0x42; 0x43; 0x4F; 0x20; 0x44; 0x45; 0x46; 0; 0x31; 0x31; 0x31; 0x31; 0x32; 0x32; 0x32; 0].
Proof. split; vm_compute; reflexivity. Qed.

(** ** RF status *)
Lemma bind_need {A} bit n ln (k : res A) r : need bit n ln k = Ok r -> bit + n < ln /\ k = Ok r.
Proof. unfold need. destruct (Z.leb_spec ln (bit + n)); [discriminate|]. intros E. split; [lia|exact E]. Qed.
Lemma bind_inv {A B} (m : res A) (f : A -> res B) r : bind m f = Ok r -> exists a, m = Ok a /\ f a = Ok r.
Proof. destruct m; try discriminate. intros E. eexists. split; [reflexivity|exact E]. Qed.
Ltac step H := first [apply bind_need in H; destruct H as [? H] | apply bind_inv in H; let a := fresh "a" in let Ha := fresh "Ha" in destruct H as (a & Ha & H)].
Lemma opt_inv on b bit ln bit' vs : opt on b bit ln = Ok (bit', vs) -> (forall x y, b bit ln = Ok (x, y) -> x < ln) -> bit < ln -> bit' < ln.
Proof. unfold opt. destruct on; intros E F L; [eapply F; exact E|]. injection E as <- _. exact L. Qed.
(** finding: no RF status message is ever accepted, whatever its content and length: every check demands that at least one bit is left
    after the field, the last one that none is. *)
Theorem C74_rf_status_refuted : forall mem ln r, rfstatus mem ln <> Ok r.
Proof.
  intros mem ln r E. unfold rfstatus in E. step E. step E. step E. destruct (negb _); [discriminate E|]. step E. step E. step E. step E.
  step E. destruct a3 as [b1 v1]. step E. destruct a3 as [b2 v2]. step E. destruct a3 as [b3 v3]. step E. destruct a3 as [b4 v4]. step E. destruct a3 as [b5 v5].
  assert (L1 : b1 < ln). { eapply opt_inv; [exact Ha3| |lia]. intros x y Q. unfold cw_block in Q. cbv zeta in Q. do 10 step Q. injection Q as <- _. lia. }
  assert (L2 : b2 < ln). { eapply opt_inv; [exact Ha4| |lia]. intros x y Q. unfold agc_block in Q. cbv zeta in Q. do 5 step Q. injection Q as <- _. lia. }
  assert (L3 : b3 < ln). { eapply opt_inv; [exact Ha5| |lia]. intros x y Q. unfold ifm_block in Q. cbv zeta in Q. do 4 step Q. injection Q as <- _. lia. }
  assert (L4 : b4 < ln). { eapply opt_inv; [exact Ha6| |lia]. intros x y Q. unfold noise_block in Q. cbv zeta in Q. do 2 step Q. injection Q as <- _. lia. }
  assert (L5 : b5 < ln). { eapply opt_inv; [exact Ha7| |lia]. intros x y Q. unfold antenna_block in Q. cbv zeta in Q. do 2 step Q. injection Q as <- _. lia. }
  destruct (Z.eqb_spec b5 ln); [lia|]. discriminate E.
Qed.
(** What does hold: with a length (in bits) that does not exceed the memory, a 999:24 message is rejected without a read behind it and
    without a failing assertion, whatever its status mask promises. *)
Lemma rd_ok mem bit n : bit + n <= 8 * len mem -> exists v, rd mem bit n = Ok v.
Proof. intros L. unfold rd. destruct (Z.leb_spec (bit + n) (8 * len mem)); [|lia]. eexists. reflexivity. Qed.
Lemma rds_ok mem : forall ws bit, Forall (fun w => 0 <= w) ws -> bit + fold_right Z.add 0 ws <= 8 * len mem -> exists vs, rds mem ws bit = Ok vs.
Proof.
  induction ws as [|w ws IH]; intros bit F L; cbn [rds fold_right] in *; [eexists; reflexivity|]. inversion F as [|? ? W F']; subst.
  assert (S : 0 <= fold_right Z.add 0 ws) by (clear - F'; induction F'; cbn [fold_right]; lia).
  destruct (rd_ok mem bit w) as (v & E); [lia|]. rewrite E. cbn [bind]. destruct (IH (bit + w)) as (vs & E2); [exact F'|lia|]. rewrite E2. eexists. reflexivity.
Qed.
Definition safe {A} (r : res A) : Prop := r = Invalid \/ exists a, r = Ok a.
Lemma safe_need {A} bit n ln (k : res A) : (bit + n < ln -> safe k) -> safe (need bit n ln k).
Proof. intros H. unfold need. destruct (Z.leb_spec ln (bit + n)); [left; reflexivity|apply H; assumption]. Qed.
Lemma safe_rd {A} mem bit n (f : Z -> res A) : bit + n <= 8 * len mem -> (forall v, safe (f v)) -> safe (bind (rd mem bit n) f).
Proof. intros L F. destruct (rd_ok mem bit n L) as (v & ->). apply F. Qed.
Lemma safe_rds {A} mem ws bit (f : list Z -> res A) : Forall (fun w => 0 <= w) ws -> bit + fold_right Z.add 0 ws <= 8 * len mem -> (forall v, safe (f v)) -> safe (bind (rds mem ws bit) f).
Proof. intros W L F. destruct (rds_ok mem ws bit W L) as (v & ->). apply F. Qed.
Lemma safe_bind {A B} (m : res A) (f : A -> res B) : safe m -> (forall a, safe (f a)) -> safe (bind m f).
Proof. intros [-> | (a & ->)] F; [left; reflexivity|apply F]. Qed.
Lemma safe_opt on b bit ln : safe (b bit ln) -> safe (opt on b bit ln).
Proof. intros S. unfold opt. destruct on; [exact S|]. right. eexists. reflexivity. Qed.
Ltac sf := first [apply safe_need; intros ? | apply safe_rd; [lia|intros ?] | apply safe_rds; [repeat constructor; lia|cbn [repeat fold_right]; lia|intros ?] | right; eexists; reflexivity].
Theorem C74_rf_status_safe : forall mem ln, 2 <= len mem -> ln <= 8 * len mem -> getbitu mem 0 12 = 999 -> getbitu mem 12 8 = 24 -> rfstatus mem ln = Invalid.
Proof.
  intros mem ln M L N S.
  assert (SAFE : safe (rfstatus mem ln)).
  { assert (H1 : rd mem 0 12 = Ok 999) by (unfold rd; destruct (Z.leb_spec (0 + 12) (8 * len mem)); [rewrite N; reflexivity|lia]).
    unfold rfstatus. rewrite H1. cbn [bind]. apply safe_need. intros G.
    assert (H2 : rd mem 12 8 = Ok 24) by (unfold rd; destruct (Z.leb_spec (12 + 8) (8 * len mem)); [rewrite S; reflexivity|lia]).
    rewrite H2. cbn [bind].
    change (negb ((999 =? 999) && (24 =? 24))) with false. cbv iota. sf. sf. sf. sf.
    apply safe_bind; [apply safe_opt; unfold cw_block; cbv zeta; repeat sf|]. intros (b1 & v1).
    apply safe_bind; [apply safe_opt; unfold agc_block; cbv zeta; repeat sf|]. intros (b2 & v2).
    apply safe_bind; [apply safe_opt; unfold ifm_block; cbv zeta; repeat sf|]. intros (b3 & v3).
    apply safe_bind; [apply safe_opt; unfold noise_block; cbv zeta; repeat sf|]. intros (b4 & v4).
    apply safe_bind; [apply safe_opt; unfold antenna_block; cbv zeta; repeat sf|]. intros (b5 & v5).
    destruct (b5 =? ln); [right; eexists; reflexivity|left; reflexivity]. }
  destruct SAFE as [E | (r & E)]; [exact E|]. exfalso. exact (C74_rf_status_refuted mem ln r E).
Qed.
Example C74_rf_status_example : let mem := [0x3E; 0x71; 0x80; 0; 0; 1; 0x04; 0; 0] in
  2 <= len mem /\ getbitu mem 0 12 = 999 /\ getbitu mem 12 8 = 24 /\ getbitu mem 50 8 = 16 /\ rfstatus mem 58 = Invalid /\ rfstatus mem 59 = Invalid /\ rfstatus mem 66 = Invalid.
Proof. split; [vm_compute; discriminate|]. vm_compute. auto 10. Qed.

Print Assumptions C74_firmware_version_partial.
Print Assumptions C74_version_overflow_refuted.
Print Assumptions C74_version_reads_outside_refuted.
Print Assumptions C74_configuration.
Print Assumptions C74_rf_status_refuted.
Print Assumptions C74_rf_status_safe.
