From Verif Require Import Base Bytestream_model UbxFraming_model Ixcom_model Ixcom_spec.

(** ** the reader *)
Definition inpos (s : xstate) : Prop := len (x_buf s) = 4096 /\ 0 <= x_index s < 4096.
Definition view (s : xstate) : list Z := take (x_index s) (x_buf s) ++ all_data (x_reads s).

Lemma take_take {A} a b (l : list A) : 0 <= a <= b -> take a (take b l) = take a l.
Proof.
  intros H. unfold take. rewrite firstn_firstn. f_equal. lia.
Qed.
Lemma take_app_len {A} (a b : list A) n : n = len a -> take n (a ++ b) = a.
Proof. intros ->. unfold take, len. rewrite Nat2Z.id, firstn_app, Nat.sub_diag, firstn_all. cbn. apply app_nil_r. Qed.
Lemma drop_app_len {A} (a b : list A) n : n = len a -> drop n (a ++ b) = b.
Proof. intros ->. unfold drop, len. rewrite Nat2Z.id, skipn_app, Nat.sub_diag, skipn_all. reflexivity. Qed.

Lemma do_read_spec n rs : 1 <= n ->
  match do_read n rs with
  | (inr _, rs') => all_data rs' = all_data rs /\ (rs' = [] \/ (length rs' < length rs)%nat)
  | (inl l, rs') => 1 <= len l <= n /\ all_data rs = l ++ all_data rs' /\ (length rs' <= length rs)%nat
  end.
Proof.
  intros Hn. unfold do_read. destruct (Z.eqb_spec n 0); [lia|]. destruct rs as [|[l|k] r]; [auto| |cbn; split; [reflexivity| right; lia]].
  destruct (Z.eqb_spec (len l) 0) as [E|E].
  - apply len_zero_nil in E. subst l. cbn. split; [reflexivity| right; lia].
  - pose proof (len_nonneg l). destruct (Z.leb_spec (len l) n).
    + split; [lia|]. split; [reflexivity| cbn; lia].
    + rewrite len_take by lia. split; [lia|]. split; [|cbn; lia]. unfold all_data. cbn [flat_map]. rewrite app_assoc, take_drop. reflexivity.
Qed.

Lemma read_bytes_spec n s : 1 <= n -> inpos s -> x_index s + n < 4096 ->
  match read_ixcom_bytes n s with
  | inl (Some _, s') => x_buf s' = x_buf s /\ x_index s' = x_index s /\ x_sent s' = x_sent s /\ all_data (x_reads s') = all_data (x_reads s) /\
        (x_reads s' = [] \/ (length (x_reads s') < length (x_reads s))%nat)
  | inl (None, s') => inpos s' /\ x_index s < x_index s' <= x_index s + n /\ x_sent s' = x_sent s /\ view s' = view s /\
        drop (x_index s') (x_buf s') = drop (x_index s') (x_buf s) /\ take (x_index s) (x_buf s') = take (x_index s) (x_buf s) /\
        (length (all_data (x_reads s')) < length (all_data (x_reads s)))%nat /\ (length (x_reads s') <= length (x_reads s))%nat
  | inr _ => False
  end.
Proof.
  intros Hn [HL HI] HS. unfold read_ixcom_bytes. unfold IXCOM_BUFFER_SIZE. rewrite Z.mod_small by lia.
  destruct (Z.ltb_spec (x_index s + n) 4096); [|lia]. cbn [negb]. pose proof (do_read_spec n (x_reads s) Hn) as D.
  destruct (do_read n (x_reads s)) as [[l|k] rs'].
  - destruct D as (D1 & D2 & D3). destruct (Z.ltb_spec 4096 (x_index s + len l)); [lia|].
    assert (LT : len (take (x_index s) (x_buf s)) = x_index s) by (rewrite len_take; lia).
    unfold inpos, view. cbn [x_buf x_index x_sent x_reads]. repeat split; try lia.
    + rewrite !len_app, LT, len_drop by lia. lia.
    + rewrite app_assoc. rewrite (take_app_len (take (x_index s) (x_buf s) ++ l)) by (rewrite len_app; lia). rewrite D2, app_assoc. reflexivity.
    + rewrite app_assoc. rewrite drop_app_len by (rewrite len_app; lia). reflexivity.
    + rewrite take_app_len by lia. reflexivity.
    + rewrite D2, app_length. unfold len in *. lia.
  - cbn [x_buf x_index x_sent x_reads]. destruct D as [D1 D2]. auto.
Qed.

Lemma message_length_view s : inpos s -> 16 <= x_index s -> message_length s = length_field (view s).
Proof.
  intros [HL HI] H. unfold message_length, length_field, view. assert (LT : len (take (x_index s) (x_buf s)) = x_index s) by (rewrite len_take; lia).
  rewrite !znth_app_l by lia. rewrite !znth_take by lia. rewrite Z.shiftl_mul_pow2 by lia. change (2 ^ 8) with 256. lia.
Qed.
Lemma length_field_app a b : 16 <= len a -> length_field (a ++ b) = length_field a.
Proof. intros H. unfold length_field. rewrite !znth_app_l by lia. reflexivity. Qed.

(** a parsed string starting with the sync byte *)
Definition good_start (P : list Z) : Prop := 16 <= len P -> 16 < length_field P < 4096.
Lemma parsed_sync P fs r : parsed P fs r -> P <> [] -> znth 0 0 P = 0x7E ->
  good_start P /\
  ((exists f l fs', fs = f :: fs' /\ P = f ++ l /\ is_frame f /\ parsed l fs' r) \/
   (fs = [] /\ r = P /\ (16 <= len P -> len P < length_field P))).
Proof.
  intros H NE Z0. inversion H; subst.
  - congruence.
  - exfalso. change (znth 0 0 (b :: l)) with b in Z0. lia.
  - destruct H0 as (F1 & F2 & F3). split.
    + intros _. rewrite length_field_app by lia. lia.
    + left. exists f, l, fs0. repeat split; try assumption; lia.
  - split; [intros L; destruct (H2 L); lia|]. right. repeat split. intros L. destruct (H2 L). lia.
Qed.
Lemma parsed_nosync b l fs r : parsed (b :: l) fs r -> b <> 0x7E -> parsed l fs r.
Proof.
  intros H NE. inversion H; subst; [assumption| |].
  - exfalso. destruct H1 as (F1 & F2 & F3). destruct f as [|c f]; [change (len (@nil Z)) with 0 in F3; lia|]. cbn [app] in H0. injection H0. intros. subst. change (znth 0 0 (b :: f)) with b in F1. lia.
  - exfalso. change (znth 0 0 (b :: l)) with b in H1. lia.
Qed.

(** between two reads *)
Definition mid (bg : list Z) (fs : list (list Z)) (r : list Z) (s : xstate) : Prop :=
  inpos s /\ parsed (view s) fs r /\ len bg = 4096 /\ drop (Z.max 1 (x_index s)) (x_buf s) = drop (Z.max 1 (x_index s)) bg /\
  (0 < x_index s -> znth 0 0 (x_buf s) = 0x7E) /\ (16 <= x_index s -> x_index s < length_field (x_buf s)).

Lemma length_field_buf s : inpos s -> 16 <= x_index s -> length_field (view s) = length_field (x_buf s).
Proof.
  intros [HL HI] H. unfold view. assert (LT : len (take (x_index s) (x_buf s)) = x_index s) by (rewrite len_take; lia). rewrite length_field_app by lia.
  unfold length_field. rewrite !znth_take by lia. reflexivity.
Qed.
Lemma view_head s : inpos s -> 0 < x_index s -> view s <> [] /\ znth 0 0 (view s) = znth 0 0 (x_buf s) /\ x_index s <= len (view s).
Proof.
  intros [HL HI] H. unfold view. assert (LT : len (take (x_index s) (x_buf s)) = x_index s) by (rewrite len_take; lia). pose proof (len_nonneg (all_data (x_reads s))).
  assert (LV : x_index s <= len (take (x_index s) (x_buf s) ++ all_data (x_reads s))) by (rewrite len_app; lia).
  split; [|split; [|exact LV]].
  - intros E. rewrite E in LV. change (len (@nil Z)) with 0 in LV. lia.
  - rewrite znth_app_l by lia. rewrite znth_take by lia. reflexivity.
Qed.

Lemma drop_more {A} a b (l m : list A) : 0 <= a <= b -> drop a l = drop a m -> drop b l = drop b m.
Proof. intros H E. replace b with (a + (b - a)) by lia. rewrite <- !drop_drop by lia. rewrite E. reflexivity. Qed.

(** the state after a read which stays inside the message *)
Lemma take_znth {A} (d : A) a l m i : 0 <= i < a -> take a l = take a m -> znth d i l = znth d i m.
Proof. intros H E. rewrite <- (znth_take d i a l), <- (znth_take d i a m) by lia. rewrite E. reflexivity. Qed.

Lemma frame_step fuel : forall s bg fs r, mid bg fs r s -> (length (all_data (x_reads s)) < fuel)%nat ->
  match read_ixcom_frame fuel s with
  | (XFrame n, s') => exists f fs', fs = f :: fs' /\ n = len f /\ is_frame f /\ x_buf s' = f ++ drop (len f) bg /\ x_index s' = n /\
        x_sent s' = x_sent s /\ parsed (all_data (x_reads s')) fs' r /\
        (length (all_data (x_reads s')) < length (all_data (x_reads s)))%nat /\ (length (x_reads s') <= length (x_reads s))%nat
  | (XStop _, s') => mid bg fs r s' /\ x_sent s' = x_sent s /\ (length (all_data (x_reads s')) <= length (all_data (x_reads s)))%nat /\
        (length (x_reads s') <= length (x_reads s))%nat /\ (x_reads s' = [] \/ (length (x_reads s') < length (x_reads s))%nat)
  | _ => False
  end.
Proof.
  induction fuel as [|fuel IH]; intros s bg fs r M HF; [lia|]. cbn [read_ixcom_frame].
  (* last phase, from a state with at least 1 byte *)
  assert (Stop : forall s1 s', mid bg fs r s1 -> x_sent s1 = x_sent s -> (length (all_data (x_reads s1)) <= length (all_data (x_reads s)))%nat ->
     (length (x_reads s1) <= length (x_reads s))%nat ->
     x_buf s' = x_buf s1 /\ x_index s' = x_index s1 /\ x_sent s' = x_sent s1 /\ all_data (x_reads s') = all_data (x_reads s1) /\
        (x_reads s' = [] \/ (length (x_reads s') < length (x_reads s1))%nat) ->
     mid bg fs r s' /\ x_sent s' = x_sent s /\ (length (all_data (x_reads s')) <= length (all_data (x_reads s)))%nat /\
        (length (x_reads s') <= length (x_reads s))%nat /\ (x_reads s' = [] \/ (length (x_reads s') < length (x_reads s))%nat)).
  { intros s1 s' (M1 & M2 & M3 & M4 & M5 & M6) Q1 Q2 Q3 (E1 & E2 & E3 & E4 & E5).
    unfold mid, inpos, view in *. rewrite E1, E2, E3, E4. repeat split; auto; try lia; destruct E5 as [E5|E5]; [rewrite E5; cbn; lia| lia| auto| right; lia]. }
  assert (Body : forall s1, mid bg fs r s1 -> 16 <= x_index s1 -> x_sent s1 = x_sent s -> (length (all_data (x_reads s1)) <= length (all_data (x_reads s)))%nat ->
     (length (x_reads s1) <= length (x_reads s))%nat ->
     match
       match read_ixcom_bytes ((message_length s1 - x_index s1) mod 2 ^ 64) s1 with
            | inr x => (x, s1)
            | inl (Some k, s3) => (XStop k, s3)
            | inl (None, s3) => if message_length s1 <=? x_index s3 then (XFrame (message_length s1), s3) else read_ixcom_frame fuel s3
       end
     with
  | (XFrame n, s') => exists f fs', fs = f :: fs' /\ n = len f /\ is_frame f /\ x_buf s' = f ++ drop (len f) bg /\ x_index s' = n /\
        x_sent s' = x_sent s /\ parsed (all_data (x_reads s')) fs' r /\
        (length (all_data (x_reads s')) < length (all_data (x_reads s)))%nat /\ (length (x_reads s') <= length (x_reads s))%nat
  | (XStop _, s') => mid bg fs r s' /\ x_sent s' = x_sent s /\ (length (all_data (x_reads s')) <= length (all_data (x_reads s)))%nat /\
        (length (x_reads s') <= length (x_reads s))%nat /\ (x_reads s' = [] \/ (length (x_reads s') < length (x_reads s))%nat)
  | _ => False
  end).
  { intros s1 M1 L Q1 Q2 Q3. pose proof M1 as (I & Pa & LB & DB & SY & LF). specialize (SY ltac:(lia)). specialize (LF L).
    destruct (view_head s1 I ltac:(lia)) as (V1 & V2 & V3).
    destruct (parsed_sync _ _ _ Pa V1 ltac:(lia)) as [G PS]. specialize (G ltac:(lia)).
    pose proof (message_length_view s1 I L) as ML. rewrite ML. rewrite (length_field_buf s1 I L) in *.
    set (ml := length_field (x_buf s1)) in *. pose proof I as (I1 & I2).
    rewrite Z.mod_small by lia.
    pose proof (read_bytes_spec (ml - x_index s1) s1 ltac:(lia) I ltac:(lia)) as R.
    destruct (read_ixcom_bytes (ml - x_index s1) s1) as [[[k|] s3]|x]; [| |contradiction].
    - apply (Stop s1); auto.
    - destruct R as (R1 & R2 & R3 & R4 & R5 & R6 & R7 & R8).
      assert (LF3 : length_field (x_buf s3) = ml).
      { unfold ml, length_field. rewrite !(take_znth 0 (x_index s1) (x_buf s3) (x_buf s1)) by (lia || exact R6). reflexivity. }
      destruct (Z.leb_spec ml (x_index s3)).
      + assert (EQ : x_index s3 = ml) by lia. destruct PS as [(f & l & fs' & -> & P2 & F & P3)|(-> & -> & P2)].
        * pose proof F as (F1 & F2 & F3). assert (LF' : len f = ml).
          { unfold ml. rewrite <- (length_field_buf s1 I L), P2, length_field_app by lia. exact F2. }
          assert (T3 : take ml (x_buf s3) = f).
          { pose proof R4 as R4'. rewrite P2 in R4'. unfold view in R4'. rewrite EQ in R4'.
            pose proof (f_equal (take ml) R4') as T. destruct R1 as [R1 R1']. rewrite !take_app_len in T; [exact T| lia|rewrite len_take; lia]. }
          exists f, fs'. split; [reflexivity|]. split; [lia|]. split; [exact F|]. split; [|split; [exact EQ|split; [lia|split]]].
          -- rewrite <- (take_drop ml (x_buf s3)), T3, LF'. f_equal. rewrite EQ in R5. rewrite R5. apply (drop_more (Z.max 1 (x_index s1))); [lia| exact DB].
          -- unfold view in R4. rewrite EQ, T3 in R4. fold (view s1) in R4. rewrite P2 in R4. apply app_inv_head in R4. rewrite R4. exact P3.
          -- split; lia.
        * exfalso. specialize (P2 ltac:(lia)). rewrite <- R4 in P2. destruct (view_head s3 R1 ltac:(lia)) as (_ & _ & W). lia.
      + assert (M3 : mid bg fs r s3).
        { split; [exact R1|]. split; [rewrite R4; exact Pa|]. split; [exact LB|]. split; [|split].
          - rewrite !Z.max_r by lia. rewrite R5. apply (drop_more (Z.max 1 (x_index s1))); [lia| exact DB].
          - intros _. rewrite (take_znth 0 (x_index s1) (x_buf s3) (x_buf s1)) by (lia || exact R6). exact SY.
          - intros _. lia. }
        specialize (IH s3 bg fs r M3 ltac:(lia)). destruct (read_ixcom_frame fuel s3) as [[n|k| | |] s4]; try contradiction.
        * destruct IH as (f & fs' & X1 & X2 & X3 & X4 & X5 & X6 & X7 & X8 & X9). exists f, fs'. repeat split; auto; try lia; apply X3.
        * destruct IH as (X1 & X2 & X3 & X4 & X5). split; [exact X1|]. split; [lia|]. split; [lia|]. split; [lia|]. destruct X5 as [X5|X5]; [auto| right; lia]. }
  (* header phase *)
  assert (Head : forall s1, mid bg fs r s1 -> 0 < x_index s1 -> x_sent s1 = x_sent s -> (length (all_data (x_reads s1)) <= length (all_data (x_reads s)))%nat ->
     (length (x_reads s1) <= length (x_reads s))%nat ->
     match
        match (if (0 <? x_index s1) && (x_index s1 <? HEADER_SIZE) then read_ixcom_bytes (HEADER_SIZE - x_index s1) s1 else inl (None, s1)) with
        | inr x => (x, s1)
        | inl (Some k, s2) => (XStop k, s2)
        | inl (None, s2) =>
          if HEADER_SIZE <=? x_index s2 then
            let ml := message_length s2 in
            match read_ixcom_bytes ((ml - x_index s2) mod 2 ^ 64) s2 with
            | inr x => (x, s2)
            | inl (Some k, s3) => (XStop k, s3)
            | inl (None, s3) => if ml <=? x_index s3 then (XFrame ml, s3) else read_ixcom_frame fuel s3
            end
          else read_ixcom_frame fuel s2
        end
     with
  | (XFrame n, s') => exists f fs', fs = f :: fs' /\ n = len f /\ is_frame f /\ x_buf s' = f ++ drop (len f) bg /\ x_index s' = n /\
        x_sent s' = x_sent s /\ parsed (all_data (x_reads s')) fs' r /\
        (length (all_data (x_reads s')) < length (all_data (x_reads s)))%nat /\ (length (x_reads s') <= length (x_reads s))%nat
  | (XStop _, s') => mid bg fs r s' /\ x_sent s' = x_sent s /\ (length (all_data (x_reads s')) <= length (all_data (x_reads s)))%nat /\
        (length (x_reads s') <= length (x_reads s))%nat /\ (x_reads s' = [] \/ (length (x_reads s') < length (x_reads s))%nat)
  | _ => False
  end).
  { intros s1 M1 L Q1 Q2 Q3. unfold HEADER_SIZE. destruct (Z.ltb_spec 0 (x_index s1)); [|lia]. cbn [andb].
    destruct (Z.ltb_spec (x_index s1) 16).
    2:{ destruct (Z.leb_spec 16 (x_index s1)); [|lia]. cbv zeta. apply Body; auto. }
    pose proof M1 as (I & Pa & LB & DB & SY & LF). specialize (SY L). pose proof I as (I1 & I2).
    pose proof (read_bytes_spec (16 - x_index s1) s1 ltac:(lia) I ltac:(lia)) as R.
    destruct (read_ixcom_bytes (16 - x_index s1) s1) as [[[k|] s2]|x]; [| |contradiction].
    - apply (Stop s1); auto.
    - destruct R as (R1 & R2 & R3 & R4 & R5 & R6 & R7 & R8).
      assert (M2 : mid bg fs r s2).
      { assert (SY2 : znth 0 0 (x_buf s2) = 0x7E) by (rewrite (take_znth 0 (x_index s1) (x_buf s2) (x_buf s1)) by (lia || exact R6); exact SY).
        split; [exact R1|]. split; [rewrite R4; exact Pa|]. split; [exact LB|]. split; [|split].
        - rewrite !Z.max_r by lia. rewrite R5. apply (drop_more (Z.max 1 (x_index s1))); [lia| exact DB].
        - intros _. exact SY2.
        - intros L2. rewrite <- (length_field_buf s2 R1 L2), R4. destruct (view_head s2 R1 ltac:(lia)) as (V1 & V2 & V3). rewrite R4 in V1, V2, V3.
          destruct (parsed_sync _ _ _ Pa V1 ltac:(lia)) as [G _]. specialize (G ltac:(lia)). lia. }
      destruct (Z.leb_spec 16 (x_index s2)).
      + cbv zeta. apply Body; auto; lia.
      + specialize (IH s2 bg fs r M2 ltac:(lia)). destruct (read_ixcom_frame fuel s2) as [[n|k| | |] s4]; try contradiction.
        * destruct IH as (f & fs' & X1 & X2 & X3 & X4 & X5 & X6 & X7 & X8 & X9). exists f, fs'. repeat split; auto; try lia; apply X3.
        * destruct IH as (X1 & X2 & X3 & X4 & X5). split; [exact X1|]. split; [lia|]. split; [lia|]. split; [lia|]. destruct X5 as [X5|X5]; [auto| right; lia]. }
  destruct (Z.eqb_spec (x_index s) 0) as [Z0|NZ].
  - pose proof M as (I & Pa & LB & DB & SY & LF). pose proof I as (I1 & I2).
    pose proof (read_bytes_spec 1 s ltac:(lia) I ltac:(lia)) as R.
    destruct (read_ixcom_bytes 1 s) as [[[k|] s1]|x]; [| |contradiction].
    + apply (Stop s); auto.
    + destruct R as (R1 & R2 & R3 & R4 & R5 & R6 & R7 & R8). pose proof R1 as (R11 & R12).
      assert (DB1 : drop 1 (x_buf s1) = drop 1 bg).
      { rewrite Z.max_l in DB by lia. replace (x_index s1) with 1 in R5 by lia. rewrite R5. exact DB. }
      assert (V1 : exists t, view s1 = znth 0 0 (x_buf s1) :: t /\ t = all_data (x_reads s1)).
      { exists (all_data (x_reads s1)). split; [|reflexivity]. unfold view. replace (x_index s1) with 1 by lia. destruct (x_buf s1) as [|b t]; [change (len (@nil Z)) with 0 in R11; lia|]. reflexivity. }
      destruct V1 as (t & V1 & V2). cbn [andb].
      destruct (Z.eqb_spec (znth 0 0 (x_buf s1)) XCOM_SYNC) as [Sy|NS]; cbn [negb].
      * apply Head; [|lia|lia|lia|lia]. split; [exact R1|]. split; [rewrite R4; exact Pa|]. split; [exact LB|]. split; [|split].
        -- rewrite Z.max_l by lia. exact DB1.
        -- intros _. exact Sy.
        -- lia.
      * rewrite <- R4, V1 in Pa. pose proof (parsed_nosync _ _ _ _ Pa NS) as Pa'.
        assert (M2 : mid bg fs r (set_index s1 0)).
        { unfold set_index. split; [split; cbn [x_buf x_index]; lia|]. split; [|split; [exact LB|split; [|split; cbn [x_index]; lia]]].
          - unfold view. cbn [x_index x_buf x_reads]. change (take 0 (x_buf s1)) with (@nil Z). rewrite <- V2. exact Pa'.
          - cbn [x_index x_buf]. exact DB1. }
        specialize (IH (set_index s1 0) bg fs r M2 ltac:(cbn [set_index x_reads]; lia)). destruct (read_ixcom_frame fuel (set_index s1 0)) as [[n|k| | |] s4]; try contradiction;
          cbn [set_index x_reads x_sent] in IH.
        -- destruct IH as (f & fs' & X1 & X2 & X3 & X4 & X5 & X6 & X7 & X8 & X9). exists f, fs'. repeat split; auto; try lia; apply X3.
        -- destruct IH as (Y1 & Y2 & Y3 & Y4 & Y5). split; [exact Y1|]. split; [lia|]. split; [lia|]. split; [lia|]. destruct Y5 as [Y5|Y5]; [auto| right; lia].
  - cbn [andb]. apply Head; auto. destruct M as ((_ & I) & _). lia.
Qed.
