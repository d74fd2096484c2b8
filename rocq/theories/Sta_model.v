(** Model of the decoders for ST's proprietary message 999 (firmware configuration, firmware version, RF status):
    c/librtcm/src/sta_decode.c.  The buffers carry no length: [mem] is the memory from buff on, a read beyond it is undefined ([Ub]);
    [out] is the caller's character array.  Failed assertions are [Ub], too. *)
From Verif Require Import Base Bits_model.

Definition rd (mem : list Z) (bit n : Z) : res Z := if bit + n <=? 8 * len mem then Ok (getbitu mem bit n) else Ub.
Definition store (i v : Z) (out : list Z) : res (list Z) := if (0 <=? i) && (i <? len out) then Ok (zupd i (fun _ => v) out) else Ub.

(** sta_decode_rcc_config: sta_decode.c:22-54; the break leaves the inner loop only *)
Fixpoint rcc_inner (mem : list Z) (i : Z) (k : nat) (j : Z) (out : list Z) : res (list Z) :=
  match k with
  | O => Ok out
  | S k => bind (rd mem (58 + 24 + 32 * i - j * 8) 8) (fun c =>
           bind (store (i * 4 + j) c out) (fun out => if c =? 0 then Ok out else rcc_inner mem i k (j + 1) out))
  end.
Fixpoint rcc_outer (mem : list Z) (k : nat) (i : Z) (out : list Z) : res (list Z) :=
  match k with O => Ok out | S k => bind (rcc_inner mem i 4 0 out) (rcc_outer mem k (i + 1)) end.
Definition rcc_config (mem out : list Z) (ln : Z) : res (list Z) :=
  bind (rd mem 0 12) (fun num => bind (rd mem 12 8) (fun sub =>
  if negb ((num =? 999) && (sub =? 2)) || negb (15 <? ln) then Ub
  else bind (rcc_outer mem 4 0 out) (store 15 0))).

(** GET_STR: decode_helpers.h:143-149 *)
Fixpoint get_str (mem : list Z) (k : nat) (i bit : Z) (out : list Z) : res (list Z) :=
  match k with O => Ok out | S k => bind (rd mem bit 8) (fun c => bind (store i c out) (get_str mem k (i + 1) (bit + 8))) end.
(** sta_decode_fwver: sta_decode.c:56-79 *)
Definition fwver (mem out : list Z) (ln : Z) : res (list Z) :=
  bind (rd mem 0 12) (fun num => bind (rd mem 12 8) (fun sub =>
  if negb ((num =? 999) && (sub =? 25)) then Ub
  else bind (rd mem 20 8) (fun n =>
       let n := if ln <? n then ln else n in
       bind (get_str mem (Z.to_nat n) 0 28 out) (store n 0)))).

(** sta_decode_rfstatus: sta_decode.c:81-191; the fields in the order they are read *)
Record rf_status := mkrf { rf_epoch : Z; rf_mask : Z; rf_cw : list Z; rf_agc : list Z; rf_ifm : list Z; rf_noise : list Z; rf_antenna : list Z }.
Definition need {A} (bit n ln : Z) (k : res A) : res A := if ln <=? bit + n then Invalid else k.
Fixpoint rds (mem : list Z) (ws : list Z) (bit : Z) : res (list Z) :=
  match ws with [] => Ok [] | w :: ws => bind (rd mem bit w) (fun v => bind (rds mem ws (bit + w)) (fun vs => Ok (v :: vs))) end.
(** the checked and read widths of the CW block: lines 106-136 *)
Definition cw_block (mem : list Z) (bit ln : Z) : res (Z * list Z) :=
  let bit := bit + 8 in
  need bit 4 ln (bind (rd mem bit 4) (fun a => let bit := bit + 4 in
  need bit 8 ln (bind (rd mem bit 8) (fun b => let bit := bit + 8 in
  need bit 32 ln (bind (rd mem bit 32) (fun c => let bit := bit + 32 in
  need bit 8 ln (bind (rd mem bit 8) (fun d => let bit := bit + 8 in
  need bit 256 ln (bind (rds mem (repeat 32 8) bit) (fun ps => Ok (bit + 256, a :: b :: c :: d :: ps))))))))))).
Definition agc_block (mem : list Z) (bit ln : Z) : res (Z * list Z) :=
  need bit 4 ln (bind (rd mem bit 4) (fun a => let bit := bit + 4 in
  need bit 0 ln (let bit := bit + 8 in
  need bit 48 ln (bind (rds mem (repeat 12 4) bit) (fun ps => Ok (bit + 48, a :: ps)))))).
Definition ifm_block (mem : list Z) (bit ln : Z) : res (Z * list Z) :=
  need bit 6 ln (bind (rd mem bit 6) (fun a => let bit := bit + 6 in
  need bit 32 ln (bind (rd mem bit 32) (fun b => Ok (bit + 32, [a; b]))))).
Definition noise_block (mem : list Z) (bit ln : Z) : res (Z * list Z) :=
  need bit 192 ln (bind (rds mem (repeat 32 6) bit) (fun ps => Ok (bit + 192, ps))).
Definition antenna_block (mem : list Z) (bit ln : Z) : res (Z * list Z) :=
  need bit 8 ln (bind (rds mem [1; 1; 3; 3] bit) (fun ps => Ok (bit + 8, ps))).
Definition opt (on : bool) (b : Z -> Z -> res (Z * list Z)) (bit ln : Z) : res (Z * list Z) := if on then b bit ln else Ok (bit, []).
Definition rfstatus (mem : list Z) (ln : Z) : res rf_status :=
  bind (rd mem 0 12) (fun num =>
  need 12 8 ln (bind (rd mem 12 8) (fun sub =>
  if negb ((num =? 999) && (sub =? 24)) then Ub else
  need 20 30 ln (bind (rd mem 20 30) (fun epoch =>
  need 50 8 ln (bind (rd mem 50 8) (fun mask =>
  bind (opt (Z.testbit mask 0) (cw_block mem) 50 ln) (fun '(bit, cw) =>
  bind (opt (Z.testbit mask 1) (agc_block mem) bit ln) (fun '(bit, agc) =>
  bind (opt (Z.testbit mask 2) (ifm_block mem) bit ln) (fun '(bit, ifm) =>
  bind (opt (Z.testbit mask 3) (noise_block mem) bit ln) (fun '(bit, noise) =>
  bind (opt (Z.testbit mask 4) (antenna_block mem) bit ln) (fun '(bit, ant) =>
  if negb (bit =? ln) then Invalid else Ok (mkrf epoch mask cw agc ifm noise ant))))))))))))).
