(** SBAS corrections: /repo/src/cssrlib/sbas.py (slot2sat 375-397, masks 408-432, fast corrections 434-490,
    IGP mask 595-614, long-term corrections 616-695, ionospheric delays 697-726, DFMC mask 790-838, dispatch 1105-1180).

    - A buffer is its list of bits; [None] = bitstruct.Error or another exception.
    - Scaled values are integer mantissas ([None] = NaN); t0 entries hold the time of the message.
    - Not modelled: message types 9, 10, 12, 17, 27, 28, 34 to 47, [cstat], [iodssr_c], log output; [sat_ref]. *)
From Verif Require Export CssrState.
From Verif Require Export Base.
Notation length := List.length.
Open Scope Z_scope.

Record sst := SST {
  ss_sat : list Z; ss_iodp : Z; ss_hclk : dict Z (option Z); ss_udrei : dict Z Z; ss_ai : dict Z Z;
  ss_sat_n : list Z; ss_iode : dict Z Z; ss_dorb : dict Z orb3; ss_dclk : dict Z (option Z); ss_dvel : dict Z orb3; ss_ddft : dict Z (option Z);
  ss_t0 : dict Z (dict Z Z);
  ss_iodi : Z; ss_igp : dict Z (list Z); ss_vtec : dict Z (list (option Z)); ss_givei : dict Z (list Z); ss_t0v : dict Z Z;
  ss_iodm : Z; ss_iodssr : Z; ss_iodssr_p : Z; ss_sat_n_p : list Z; ss_time : Z }.
(** sbas.py:225-268 *)
Definition sbas_new (t : Z) : sst := SST [] (-1) [] [] [] [] [] [] [] [] [] [] (-1) [] [] [] [] (-1) (-1) (-1) [] t.
Definition set_ss_mask sat iodp s := match s with SST _ _ hclk udrei ai sat_n iode dorb dclk dvel ddft t0 iodi igp vtec givei t0v iodm iodssr iodssr_p sat_n_p time =>
  SST sat iodp hclk udrei ai sat_n iode dorb dclk dvel ddft t0 iodi igp vtec givei t0v iodm iodp iodssr_p sat_n_p time end.
Definition set_ss_hclk hclk s := match s with SST sat iodp _ udrei ai sat_n iode dorb dclk dvel ddft t0 iodi igp vtec givei t0v iodm iodssr iodssr_p sat_n_p time =>
  SST sat iodp hclk udrei ai sat_n iode dorb dclk dvel ddft t0 iodi igp vtec givei t0v iodm iodssr iodssr_p sat_n_p time end.
Definition set_ss_udrei udrei s := match s with SST sat iodp hclk _ ai sat_n iode dorb dclk dvel ddft t0 iodi igp vtec givei t0v iodm iodssr iodssr_p sat_n_p time =>
  SST sat iodp hclk udrei ai sat_n iode dorb dclk dvel ddft t0 iodi igp vtec givei t0v iodm iodssr iodssr_p sat_n_p time end.
Definition set_ss_ai ai s := match s with SST sat iodp hclk udrei _ sat_n iode dorb dclk dvel ddft t0 iodi igp vtec givei t0v iodm iodssr iodssr_p sat_n_p time =>
  SST sat iodp hclk udrei ai sat_n iode dorb dclk dvel ddft t0 iodi igp vtec givei t0v iodm iodssr iodssr_p sat_n_p time end.
Definition set_ss_long sat_n iode dorb dclk dvel ddft s := match s with SST sat iodp hclk udrei ai _ _ _ _ _ _ t0 iodi igp vtec givei t0v iodm iodssr iodssr_p sat_n_p time =>
  SST sat iodp hclk udrei ai sat_n iode dorb dclk dvel ddft t0 iodi igp vtec givei t0v iodm iodssr iodssr_p sat_n_p time end.
Definition set_ss_t0 t0 s := match s with SST sat iodp hclk udrei ai sat_n iode dorb dclk dvel ddft _ iodi igp vtec givei t0v iodm iodssr iodssr_p sat_n_p time =>
  SST sat iodp hclk udrei ai sat_n iode dorb dclk dvel ddft t0 iodi igp vtec givei t0v iodm iodssr iodssr_p sat_n_p time end.
Definition set_ss_iono iodi igp vtec givei t0v s := match s with SST sat iodp hclk udrei ai sat_n iode dorb dclk dvel ddft t0 _ _ _ _ _ iodm iodssr iodssr_p sat_n_p time =>
  SST sat iodp hclk udrei ai sat_n iode dorb dclk dvel ddft t0 iodi igp vtec givei t0v iodm iodssr iodssr_p sat_n_p time end.
Definition set_ss_dfmc sat_n iodm iodssr iodssr_p sat_n_p s := match s with SST sat iodp hclk udrei ai _ iode dorb dclk dvel ddft t0 iodi igp vtec givei t0v _ _ _ _ time =>
  SST sat iodp hclk udrei ai sat_n iode dorb dclk dvel ddft t0 iodi igp vtec givei t0v iodm iodssr iodssr_p sat_n_p time end.

Definition oneg : option Z -> option Z := option_map Z.opp.
Definition CT_ORBIT := 1. Definition CT_CLOCK := 2. Definition CT_CBIAS := 3. Definition CT_PBIAS := 4. Definition CT_HCLOCK := 9.
(** cssrlib.py:496-506 set_t0 for network 0; the default gtime_t() is time 0 *)
Definition set_t0 (sat ct : Z) (s : sst) : sst :=
  let d := match zget sat (ss_t0 s) with
           | Some d => d | None => [(CT_CLOCK, 0); (CT_ORBIT, 0); (CT_CBIAS, 0); (CT_PBIAS, 0); (CT_HCLOCK, 0)] end in
  set_ss_t0 (zset sat (zset ct (ss_time s) d) (ss_t0 s)) s.

(** sbas.py:375-397 *)
Definition slot2sat (slot : Z) : Z :=
  if (slot >=? 1) && (slot <=? 32) then prn2sat GPS slot
  else if (slot >=? 38) && (slot <=? 69) then prn2sat GLO (slot - 37)
  else if (slot >=? 75) && (slot <=? 110) then prn2sat GAL (slot - 74)
  else if (slot >=? 120) && (slot <=? 158) then prn2sat SBS slot
  else if (slot >=? 159) && (slot <=? 195) then prn2sat BDS (slot - 158)
  else if (slot >=? 197) && (slot <=? 205) then prn2sat QZS (slot - 4)
  else 0.

(** sbas.py:408-432 *)
Definition decode_sbas_mask (msg : bits) (i : nat) (s : sst) : option sst :=
  do gps <- getu msg i 37; do glo <- getu msg (i + 37) 24; do sbs <- getu msg (i + 61 + 58) 39; do iodp <- getu msg (i + 61 + 58 + 91) 2;
  Some (set_ss_mask (map (prn2sat GPS) (fst (decode_mask gps 37 1)) ++ map (prn2sat GLO) (fst (decode_mask glo 24 1))
                     ++ map (prn2sat SBS) (fst (decode_mask sbs 39 120))) iodp s).

(** sbas.py:434-454: both loops leave at the first position without a satellite *)
Fixpoint fc_loop (msg : bits) (i : nat) (n k : nat) (base : Z) (s : sst) : option (nat * sst) :=
  match n with
  | O => Some (i, s)
  | S n => do fc <- gets msg i 12;
      match nth_error (ss_sat s) (Z.to_nat (base + Z.of_nat k)) with
      | None => Some ((i + 12)%nat, s)
      | Some a => fc_loop msg (i + 12) n (S k) base (set_ss_hclk (zset a (oneg (sval_sbas fc 12)) (ss_hclk s)) s)
      end
  end.
Fixpoint ud_loop (msg : bits) (i : nat) (n k : nat) (base : Z) (s : sst) : option (nat * sst) :=
  match n with
  | O => Some (i, s)
  | S n => do u <- getu msg i 4;
      match nth_error (ss_sat s) (Z.to_nat (base + Z.of_nat k)) with
      | None => Some ((i + 4)%nat, s)
      | Some a => ud_loop msg (i + 4) n (S k) base (set_t0 a CT_HCLOCK (set_ss_udrei (zset a u (ss_udrei s)) s))
      end
  end.
Definition fast_corr_blk (msg : bits) (i n : nat) (type_ : Z) (s : sst) : option (nat * sst) :=
  do r <- fc_loop msg i n 0 (type_ * 13) s; let '(i, s) := r in ud_loop msg i n 0 (type_ * 13) s.
(** sbas.py:456-468; type_ = msgtype-2 *)
Definition decode_fast_corr (mt : Z) (msg : bits) (i : nat) (s : sst) : option sst :=
  do iodf <- getu msg i 2; do iodp <- getu msg (i + 2) 2;
  if negb (iodp =? ss_iodp s) then Some s else
  do r <- fast_corr_blk msg (i + 4) 13 (mt - 2) s; Some (snd r).
(** sbas.py:470-479 and 481-493 (the degradation factors differ in the header) *)
Fixpoint u4_loop (msg : bits) (i : nat) (l : list Z) (put : Z -> Z -> sst -> sst) (s : sst) : option sst :=
  match l with [] => Some s | a :: r => do u <- getu msg i 4; u4_loop msg (i + 4) r put (put a u s) end.
Definition decode_integrity (msg : bits) (i : nat) (s : sst) : option sst :=
  do h <- getu msg i 8;
  u4_loop msg (i + 8) (firstn 51 (ss_sat s)) (fun a u s => set_ss_udrei (zset a u (ss_udrei s)) s) s.
Definition decode_fast_degradation (msg : bits) (i : nat) (s : sst) : option sst :=
  do lat <- getu msg i 4; do iodp <- getu msg (i + 4) 2;
  if negb (iodp =? ss_iodp s) then Some s else
  u4_loop msg (i + 8) (firstn 51 (ss_sat s)) (fun a u s => set_ss_ai (zset a u (ss_ai s)) s) s.

(** sbas.py:616-641 add_sbas_corr *)
Definition add_sbas_corr (slot iodn dx dy dz db dxd dyd dzd dbd : Z) (s : sst) : sst :=
  let sat := slot2sat slot in
  let s := set_ss_long (if existsb (Z.eqb sat) (ss_sat_n s) then ss_sat_n s else ss_sat_n s ++ [sat])
    (zset sat iodn (ss_iode s))
    (zset sat (oneg (sval_sbas dx 11), oneg (sval_sbas dy 11), oneg (sval_sbas dz 11)) (ss_dorb s))
    (zset sat (sval_sbas db 11) (ss_dclk s))
    (zset sat (oneg (sval_sbas dxd 8), oneg (sval_sbas dyd 8), oneg (sval_sbas dzd 8)) (ss_dvel s))
    (zset sat (sval_sbas dbd 8) (ss_ddft s)) s in
  set_t0 sat CT_ORBIT (set_t0 sat CT_CLOCK s).
(** sbas.py:643-675 decode_sbas_lcorr_half *)
Definition lcorr2 (msg : bits) (i : nat) (s : sst) : option sst :=
  do slot <- getu msg i 6; do iodn <- getu msg (i + 6) 8;
  do dx <- gets msg (i + 14) 9; do dy <- gets msg (i + 23) 9; do dz <- gets msg (i + 32) 9; do db <- gets msg (i + 41) 10;
  Some (if slot >? 0 then add_sbas_corr slot iodn dx dy dz db 0 0 0 0 s else s).
Definition lcorr_half (msg : bits) (i : nat) (s : sst) : option (nat * sst) :=
  do vc <- getu msg i 1;
  let i := S i in
  do iodp <- getu msg (i + (if vc =? 0 then 102 else 103)) 2;
  if negb (iodp =? ss_iodp s) then Some (i, s) else
  if vc =? 0 then
    do s <- lcorr2 msg i s; do s <- lcorr2 msg (i + 51) s; Some ((i + 51 + 51 + 3)%nat, s)
  else
    do slot <- getu msg i 6; do iodn <- getu msg (i + 6) 8;
    do dx <- gets msg (i + 14) 11; do dy <- gets msg (i + 25) 11; do dz <- gets msg (i + 36) 11; do db <- gets msg (i + 47) 11;
    do dxd <- gets msg (i + 58) 8; do dyd <- gets msg (i + 66) 8; do dzd <- gets msg (i + 74) 8; do dbd <- gets msg (i + 82) 8;
    do toa <- getu msg (i + 90) 13;
    Some ((i + 90 + 15)%nat, add_sbas_corr slot iodn dx dy dz db dxd dyd dzd dbd s).
(** sbas.py:677-689 and 691-695 *)
Definition decode_mixed_corr (msg : bits) (i : nat) (s : sst) : option sst :=
  do iodp <- getu msg (i + 96) 2; do type_ <- getu msg (i + 98) 2; do iodf <- getu msg (i + 100) 2;
  if negb (iodp =? ss_iodp s) then Some s else
  do r <- fast_corr_blk msg i 6 type_ s; let '(i, s) := r in
  do r <- lcorr_half msg i s; Some (snd r).
Definition decode_long_corr (msg : bits) (i : nat) (s : sst) : option sst :=
  do r <- lcorr_half msg i s; let '(i, s) := r in do r <- lcorr_half msg i s; Some (snd r).

(** sbas.py:595-614 decode_sbas_igpmask *)
Fixpoint mask_bits (msg : bits) (i : nat) (n k : nat) : option (list Z) :=
  match n with
  | O => Some []
  | S n => do b <- getu msg (i + k) 1; do r <- mask_bits msg i n (S k); Some (if b =? 1 then Z.of_nat k :: r else r)
  end.
Definition decode_igpmask (msg : bits) (i : nat) (s : sst) : option sst :=
  do nb <- getu msg i 4; do band <- getu msg (i + 4) 4; do iodi <- getu msg (i + 8) 2;
  do idx <- mask_bits msg (i + 10) 201 0;
  Some (set_ss_iono iodi (zset band idx (ss_igp s))
    (match zget band (ss_vtec s) with Some _ => ss_vtec s | None => zset band (repeat (Some 0) (length idx)) (ss_vtec s) end)
    (match zget band (ss_givei s) with Some _ => ss_givei s | None => zset band (repeat 0 (length idx)) (ss_givei s) end)
    (ss_t0v s) s).
(** sbas.py:697-726 decode_sbas_iono *)
Fixpoint igp_loop (msg : bits) (i n j : nat) (v : list (option Z)) (g : list Z) : option (list (option Z) * list Z) :=
  match n with
  | O => Some (v, g)
  | S n => do vd <- getu msg i 9; do gi <- getu msg (i + 9) 4;
      if (length v <=? j)%nat then Some (v, g)
      else if (length g <=? j)%nat then None
      else igp_loop msg (i + 13) n (S j) (upd j (fun _ => if vd <? 511 then Some vd else None) v) (upd j (fun _ => gi) g)
  end.
Definition decode_iono (msg : bits) (i : nat) (s : sst) : option sst :=
  do iodi <- getu msg (i + 203) 2;
  if negb (iodi =? ss_iodi s) then Some s else
  do band <- getu msg i 4; do bid <- getu msg (i + 4) 4;
  match zget band (ss_vtec s) with
  | None => Some s
  | Some v => do g <- zget band (ss_givei s);
      do r <- igp_loop msg (i + 8) 15 (Z.to_nat (bid * 15)) v g;
      Some (set_ss_iono (ss_iodi s) (ss_igp s) (zset band (fst r) (ss_vtec s)) (zset band (snd r) (ss_givei s))
              (zset (band + 1) (ss_time s) (ss_t0v s)) s)
  end.

(** sbas.py:790-838 decode_dfmc_mask *)
Definition decode_dfmc_mask (msg : bits) (i : nat) (s : sst) : option sst :=
  do gps <- getu msg i 32; do glo <- getu msg (i + 37) 32; do gal <- getu msg (i + 74) 36; do sbs <- getu msg (i + 119) 39;
  do bds <- getu msg (i + 158) 37; do qzs <- getu msg (i + 196) 9; do iodm <- getu msg (i + 214) 2;
  let l sys m n o := map (prn2sat sys) (fst (decode_mask m n o)) in
  let chg := negb (iodm =? ss_iodssr s) in
  Some (set_ss_dfmc (l GPS gps 32%nat 1 ++ l GLO glo 32%nat 1 ++ l GAL gal 36%nat 1 ++ l SBS sbs 39%nat 120 ++ l BDS bds 37%nat 1 ++ l QZS qzs 9%nat 193)
    iodm iodm (if chg then ss_iodssr s else ss_iodssr_p s) (if chg then ss_sat_n s else ss_sat_n_p s) s).

(** sbas.py:1105-1180 decode_cssr, for an L1 message (src 0) of one of the types modelled; other types are not modelled and
    return the state unchanged here *)
Definition decode_l1 (msg : bits) (s : sst) : option sst :=
  do pre <- getu msg 0 8; do mt <- getu msg 8 6;
  let i := 14%nat in
  if mt =? 1 then decode_sbas_mask msg i s
  else if (2 <=? mt) && (mt <=? 5) then decode_fast_corr mt msg i s
  else if mt =? 6 then decode_integrity msg i s
  else if mt =? 7 then decode_fast_degradation msg i s
  else if mt =? 18 then decode_igpmask msg i s
  else if mt =? 24 then decode_mixed_corr msg i s
  else if mt =? 25 then decode_long_corr msg i s
  else if mt =? 26 then decode_iono msg i s
  else Some s.
