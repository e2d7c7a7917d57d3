(** RTCM state space corrections: orbit, clock, combined, accuracy and high-rate clock messages.
    /repo/src/cssrlib/rtcm.py: 779-795, 987-1172, 1294-1401, 1438-1477, 3946-4062 (decoder),
    4196-4206, 4511-4683, 4919-4954 (encoder).

    Buffers as in RtcmFrame.v.  Corrections are integer multiples of their resolution, [None] = NaN
    (the encoder's [round(y/scl)] of such a value in floating point is treated in RtcmFloat.v).
    The accuracy values (metres) are left abstract: [Q] with [q_of] = quality_idx and [q_to] = what the
    encoder sends; both are in QualModel.v.  Index [inet] = 0 (the only one the dispatcher uses).
    Not modelled: monitor output, mt_skip, scan mode, workaround_sc134 (default off), negative lengths. *)
From Verif Require Export TimeModel CssrState BitModel RtcmFrame SatModel Base.
Open Scope Z_scope.

Section Ssr.
Context {Q : Type} (q_of : Z -> Z -> Q) (q_to : Q -> Z * Z).

Definition v3 := (option Z * option Z * option Z)%type.

(** rtcm.py:779-786 sat2svid *)
Definition sat2svid (sat : Z) : Z :=
  let (sys, svid) := sat2prn sat in
  match sys with QZS => svid - 192 | SBS => svid - 119 | _ => svid end.
(** rtcm.py:788-795 svid2sat *)
Definition svid2sat (sys : gnss) (svid : Z) : Z :=
  prn2sat sys (match sys with QZS => svid + 192 | SBS => svid + 119 | _ => svid end).

(* ---------- decoder ---------- *)
(** attributes of the decoder object the messages read or write.  [r_lc_*] is lc[0].  [r_t0] is
    lc[0].t0[sat][type], gtime_t() when never set.  [r_dclk_n] is the size of the array dclk_n
    ([None]: attribute missing). *)
Record rst := RST {
  r_week : Z; r_time : gtime; r_datum : Z; r_pid : Z; r_sid : Z; r_iodssr : Z; r_mi : bool;
  r_udi : sct -> Z; r_iodc : sct -> Z; r_t0s : sct -> gtime; r_t0 : Z -> sct -> gtime; r_cstat : list sct;
  r_nsat_n : Z; r_sys_n : list gnss; r_sat_n : list Z;
  r_iode : dict Z Z; r_dorb : dict Z v3; r_ddorb : dict Z v3;
  r_dclk : dict Z (option Z); r_ddclk : dict Z (option Z); r_dddclk : dict Z (option Z);
  r_hclk : dict Z (option Z); r_ura : dict Z Q; r_dclk_n : option nat }.

Definition fset {V} (f : sct -> V) (c : sct) (v : V) : sct -> V := fun c' => if sct_eqb c c' then v else f c'.
(** lc.cstat |= 1 << type, as the list of types set so far *)
Definition cset (c : sct) (l : list sct) : list sct := if existsb (sct_eqb c) l then l else c :: l.
(** cssrlib.py:496-506 set_t0 for every satellite of [l] *)
Definition t0set (t0 : Z -> sct -> gtime) (c : sct) (t : gtime) (l : list Z) : Z -> sct -> gtime :=
  fun sat c' => if existsb (Z.eqb sat) l && sct_eqb c c' then t else t0 sat c'.

(** values read by decode_head *)
Record head := HD { h_time : gtime; h_udi : Z; h_mi : bool; h_datum : option Z; h_iod : Z; h_pid : Z; h_sid : Z; h_nsat : Z }.

(** rtcm.py:987-1034 decode_head; [igs] = (self.msgtype == 4076), [c] the subtype: only orbit and
    combined messages carry the datum bit.  (The phase bias, ionosphere and troposphere subtypes are not
    modelled.) *)
Definition decode_head (igs : bool) (s : rst) (sys : gnss) (c : sct) (msg : bits) (i : nat) : option (head * nat) :=
  do (t, i) <- (if gnss_eqb sys GLO && negb igs
                then do tod <- getu msg i 17; Some (rtcm_glo_time 1 (r_time s) tod, i + 17)%nat
                else do tow <- getu msg i 20; Some (gpst2time 1 (r_week s) tow, i + 20)%nat);
  do udi <- getu msg i 4;
  do mi <- getb msg (i + 4) 1;
  let i := (i + 5)%nat in
  do (datum, i) <- (match c with
                    | SORB | SOC => do d <- getu msg i 1; Some (Some d, i + 1)%nat
                    | _ => Some (None, i)
                    end);
  do iod <- getu msg i 4; do pid <- getu msg (i + 4) 16; do sid <- getu msg (i + 20) 4;
  let i := (i + 24)%nat in
  do nsat <- getu msg i 6;
  Some (HD t udi mi datum iod pid sid nsat, (i + 6)%nat).

(** rtcm.py:1036-1052 decode_sat *)
Definition decode_sat (igs : bool) (sys : gnss) (msg : bits) (i : nat) : option (Z * nat) :=
  let blen := if igs then 6%nat else match sys with GLO => 5%nat | QZS => 4%nat | _ => 6%nat end in
  do svid <- getu msg i blen;
  Some (svid2sat sys svid, (i + blen)%nat).

(** rtcm.py:1054-1079 decode_orb_sat *)
Definition decode_orb_sat (igs : bool) (sys : gnss) (msg : bits) (i : nat) : option (Z * v3 * v3 * nat) :=
  let blen := if igs then 8%nat else match sys with GAL => 10%nat | SBS => 24%nat | _ => 8%nat end in
  do iode <- getu msg i blen;
  let i := (i + blen)%nat in
  do dx <- gets msg i 22; do dy <- gets msg (i + 22) 20; do dz <- gets msg (i + 42) 20;
  do ddx <- gets msg (i + 62) 21; do ddy <- gets msg (i + 83) 19; do ddz <- gets msg (i + 102) 19;
  Some (iode, (sval dx 22, sval dy 20, sval dz 20), (sval ddx 21, sval ddy 19, sval ddz 19), (i + 121)%nat).

(** rtcm.py:1081-1088 decode_clk_sat *)
Definition decode_clk_sat (msg : bits) (i : nat) : option (option Z * option Z * option Z * nat) :=
  do a <- gets msg i 22; do b <- gets msg (i + 22) 21; do c <- gets msg (i + 43) 27;
  Some (sval a 22, sval b 21, sval c 27, (i + 70)%nat).

(** rtcm.py:1090-1095 decode_hclk_sat *)
Definition decode_hclk_sat (msg : bits) (i : nat) : option (option Z * nat) :=
  do a <- gets msg i 22; Some (sval a 22, (i + 22)%nat).

(** the loop [for k in range(nsat)]: satellite, then its values; the dictionaries are updated from
    the list afterwards (an exception loses both) *)
Fixpoint sats {E} (igs : bool) (sys : gnss) (rd : bits -> nat -> option (E * nat)) (n : nat) (msg : bits) (i : nat)
  : option (list (Z * E) * nat) :=
  match n with
  | O => Some ([], i)
  | S m =>
      do (sat, i) <- decode_sat igs sys msg i;
      do (e, i) <- rd msg i;
      do (r, i) <- sats igs sys rd m msg i;
      Some ((sat, e) :: r, i)
  end.
(** d[sat] = f(e) for every (sat, e) in order *)
Definition store {E V} (f : E -> V) (l : list (Z * E)) (d : dict Z V) : dict Z V :=
  fold_left (fun d e => zset (fst e) (f (snd e)) d) l d.

Definition later (a b : gtime) : bool := timediff 1 a b >? 0.

(** rtcm.py:1097-1136 decode_cssr_orb *)
Definition decode_orb (igs : bool) (sys : gnss) (s : rst) (msg : bits) (i : nat) : option (rst * nat) :=
  do (h, i) <- decode_head igs s sys SORB msg i;
  do (l, i) <- sats igs sys (fun m j => do (iode, d, dd, j) <- decode_orb_sat igs sys m j; Some ((iode, d, dd), j))
                 (Z.to_nat (h_nsat h)) msg i;
  let new := later (h_time h) (r_t0s s SORB) in
  Some (RST (r_week s) (h_time h) (match h_datum h with Some d => d | None => r_datum s end) (h_pid h) (h_sid h)
         (h_iod h) (h_mi h) (fset (r_udi s) SORB (h_udi h)) (fset (r_iodc s) SORB (h_iod h))
         (fset (r_t0s s) SORB (h_time h)) (t0set (r_t0 s) SORB (h_time h) (map fst l)) (cset SORB (r_cstat s))
         ((if new then 0 else r_nsat_n s) + h_nsat h)
         ((if new then [] else r_sys_n s) ++ repeat sys (Z.to_nat (h_nsat h)))
         ((if new then [] else r_sat_n s) ++ map fst l)
         (store (fun e => fst (fst e)) l (if new then [] else r_iode s))
         (store (fun e => snd (fst e)) l (if new then [] else r_dorb s))
         (store (fun e => snd e) l (if new then [] else r_ddorb s))
         (r_dclk s) (r_ddclk s) (r_dddclk s) (r_hclk s) (r_ura s) (r_dclk_n s), i).

(** rtcm.py:1138-1172 decode_cssr_clk *)
Definition decode_clk (igs : bool) (sys : gnss) (s : rst) (msg : bits) (i : nat) : option (rst * nat) :=
  do (h, i) <- decode_head igs s sys SCLK msg i;
  do (l, i) <- sats igs sys (fun m j => do (a, b, c, j) <- decode_clk_sat m j; Some ((a, b, c), j))
                 (Z.to_nat (h_nsat h)) msg i;
  let new := later (h_time h) (r_t0s s SCLK) in
  Some (RST (r_week s) (h_time h) (r_datum s) (h_pid h) (h_sid h)
         (h_iod h) (h_mi h) (fset (r_udi s) SCLK (h_udi h)) (fset (r_iodc s) SCLK (h_iod h))
         (fset (r_t0s s) SCLK (h_time h)) (t0set (r_t0 s) SCLK (h_time h) (map fst l)) (cset SCLK (r_cstat s))
         (r_nsat_n s) (r_sys_n s) (r_sat_n s) (r_iode s) (r_dorb s) (r_ddorb s)
         (store (fun e => fst (fst e)) l (if new then [] else r_dclk s))
         (store (fun e => snd (fst e)) l (if new then [] else r_ddclk s))
         (store (fun e => snd e) l (if new then [] else r_dddclk s))
         (r_hclk s) (r_ura s) (Some (Z.to_nat (h_nsat h))), i).

(** rtcm.py:1294-1349 decode_cssr_comb; note that only the orbit reference time is updated *)
Definition decode_comb (igs : bool) (sys : gnss) (s : rst) (msg : bits) (i : nat) : option (rst * nat) :=
  do (h, i) <- decode_head igs s sys SOC msg i;
  do (l, i) <- sats igs sys (fun m j => do (iode, d, dd, j) <- decode_orb_sat igs sys m j;
                                       do (a, b, c, j) <- decode_clk_sat m j; Some ((iode, d, dd, (a, b, c)), j))
                 (Z.to_nat (h_nsat h)) msg i;
  let new := later (h_time h) (r_t0s s SORB) in
  Some (RST (r_week s) (h_time h) (match h_datum h with Some d => d | None => r_datum s end) (h_pid h) (h_sid h)
         (h_iod h) (h_mi h) (fset (fset (r_udi s) SORB (h_udi h)) SCLK (h_udi h))
         (fset (fset (r_iodc s) SORB (h_iod h)) SCLK (h_iod h))
         (fset (r_t0s s) SORB (h_time h))
         (t0set (t0set (r_t0 s) SORB (h_time h) (map fst l)) SCLK (h_time h) (map fst l))
         (cset SCLK (cset SORB (r_cstat s)))
         ((if new then 0 else r_nsat_n s) + h_nsat h)
         ((if new then [] else r_sys_n s) ++ repeat sys (Z.to_nat (h_nsat h)))
         ((if new then [] else r_sat_n s) ++ map fst l)
         (store (fun e => fst (fst (fst e))) l (if new then [] else r_iode s))
         (store (fun e => snd (fst (fst e))) l (if new then [] else r_dorb s))
         (store (fun e => snd (fst e)) l (if new then [] else r_ddorb s))
         (store (fun e => fst (fst (snd e))) l (if new then [] else r_dclk s))
         (store (fun e => snd (fst (snd e))) l (if new then [] else r_ddclk s))
         (store (fun e => snd (snd e)) l (if new then [] else r_dddclk s))
         (r_hclk s) (r_ura s) (Some (Z.to_nat (h_nsat h))), i).

(** rtcm.py:1351-1375 decode_cssr_ura *)
Definition decode_ura (igs : bool) (sys : gnss) (s : rst) (msg : bits) (i : nat) : option (rst * nat) :=
  do (h, i) <- decode_head igs s sys SURA msg i;
  do (l, i) <- sats igs sys (fun m j => do a <- getu m j 3; do b <- getu m (j + 3) 3; Some (q_of a b, (j + 6)%nat))
                 (Z.to_nat (h_nsat h)) msg i;
  let new := later (h_time h) (r_t0s s SURA) in
  Some (RST (r_week s) (h_time h) (r_datum s) (h_pid h) (h_sid h)
         (h_iod h) (h_mi h) (fset (r_udi s) SURA (h_udi h)) (fset (r_iodc s) SURA (h_iod h))
         (fset (r_t0s s) SURA (h_time h)) (t0set (r_t0 s) SURA (h_time h) (map fst l)) (cset SURA (r_cstat s))
         (r_nsat_n s) (r_sys_n s) (r_sat_n s) (r_iode s) (r_dorb s) (r_ddorb s)
         (r_dclk s) (r_ddclk s) (r_dddclk s) (r_hclk s)
         (store (fun e => e) l (if new then [] else r_ura s)) (r_dclk_n s), i).

(** rtcm.py:1377-1401 decode_cssr_hclk.  [self.dclk_n[k] = ..] raises AttributeError when dclk_n does not
    exist (with at least one satellite) and IndexError when it is shorter than the message. *)
Definition decode_hclk (igs : bool) (sys : gnss) (s : rst) (msg : bits) (i : nat) : option (rst * nat) :=
  do (h, i) <- decode_head igs s sys SHCLK msg i;
  do (l, i) <- sats igs sys (fun m j => decode_hclk_sat m j) (Z.to_nat (h_nsat h)) msg i;
  do _ <- guard (match r_dclk_n s with Some n => (Z.to_nat (h_nsat h) <=? n)%nat | None => h_nsat h =? 0 end);
  let new := later (h_time h) (r_t0s s SHCLK) in
  Some (RST (r_week s) (h_time h) (r_datum s) (h_pid h) (h_sid h)
         (h_iod h) (h_mi h) (fset (r_udi s) SHCLK (h_udi h)) (fset (r_iodc s) SHCLK (h_iod h))
         (fset (r_t0s s) SHCLK (h_time h)) (t0set (r_t0 s) SHCLK (h_time h) (map fst l)) (cset SHCLK (r_cstat s))
         (r_nsat_n s) (r_sys_n s) (r_sat_n s) (r_iode s) (r_dorb s) (r_ddorb s)
         (r_dclk s) (r_ddclk s) (r_dddclk s)
         (store (fun e => e) l (if new then [] else r_hclk s)) (r_ura s) (r_dclk_n s), i).

Definition decode_corr (c : sct) (igs : bool) (sys : gnss) (s : rst) (msg : bits) (i : nat) : option (rst * nat) :=
  match c with
  | SORB => decode_orb igs sys s msg i
  | SCLK => decode_clk igs sys s msg i
  | SOC => decode_comb igs sys s msg i
  | SURA => decode_ura igs sys s msg i
  | SHCLK => decode_hclk igs sys s msg i
  | _ => None
  end.
(** rtcm.py:1438-1477 decode_igsssr for these subtypes *)
Definition igs_kind (sub : Z) : option (gnss * sct) :=
  do sys <- zassoc [(2, GPS); (4, GLO); (6, GAL); (8, QZS); (10, BDS); (12, SBS)] (sub / 10);
  do c <- zassoc [(1, SORB); (2, SCLK); (3, SOC); (4, SHCLK); (7, SURA)] (sub mod 10);
  Some (sys, c).
(** rtcm.py:3946-4062 decode for these message types; [None] also stands for the types not modelled *)
Definition decode (s : rst) (msg : bits) : option (rst * nat) :=
  do mt <- getu msg 24 12;
  match dispatch mt with
  | KIgs =>
      do sub <- getu msg 39 8;
      do (sys, c) <- igs_kind sub;
      decode_corr c true sys s msg 47
  | KSsr c => do sys <- get_ssr_sys None mt; decode_corr c false sys s msg 36
  | _ => None
  end.

(* ---------- encoder ---------- *)
(** attributes the caller has set on the encoder object; [e_ddorb], [e_ddclk]: [None] = attribute None *)
Record est := EST {
  e_mt : Z; e_tow : Z; e_udi : sct -> Z; e_mi : bool; e_datum : Z; e_iodssr : Z; e_pid : Z; e_sid : Z;
  e_sat_n : list Z; e_iode : dict Z Z; e_dorb : dict Z v3; e_ddorb : option (dict Z v3);
  e_dclk : dict Z (option Z); e_ddclk : option (dict Z (option Z)); e_dddclk : dict Z (option Z);
  e_ura : dict Z Q }.

(** rtcm.py:4199-4206 ival *)
Definition ival (y : option Z) (nbit : nat) : Z := match y with None => - 2 ^ (Z.of_nat nbit - 1) | Some u => u end.

Definition of_sys (sys : gnss) (l : list Z) : list Z := filter (fun sat => gnss_eqb (fst (sat2prn sat)) sys) l.

(** rtcm.py:4511-4554 encode_head (message type other than 4076) *)
Definition encode_head (e : est) (sys : gnss) (c : sct) (msg : bits) (i : nat) : option (bits * nat) :=
  let blen := match sys with GLO => 17%nat | _ => 20%nat end in
  do m <- putu msg i blen (e_tow e);
  let i := (i + blen)%nat in
  do m <- putu m i 4 (e_udi e c);
  do m <- putu m (i + 4) 1 (Z.b2z (e_mi e));
  let i := (i + 5)%nat in
  do (m, i) <- (match c with
                | SORB | SOC => do m <- putu m i 1 (e_datum e); Some (m, i + 1)%nat
                | _ => Some (m, i)
                end);
  do m <- putu m i 4 (e_iodssr e); do m <- putu m (i + 4) 16 (e_pid e); do m <- putu m (i + 20) 4 (e_sid e);
  let i := (i + 24)%nat in
  do m <- putu m i 6 (Z.of_nat (length (of_sys sys (e_sat_n e))));
  Some (m, (i + 6)%nat).

(** rtcm.py:4556-4574 encode_sat *)
Definition encode_sat (msg : bits) (i : nat) (sat : Z) : option (bits * nat) :=
  let (sys, prn) := sat2prn sat in
  let '(blen, svid) := match sys with QZS => (4%nat, prn - 192) | _ => (6%nat, prn) end in
  do m <- putu msg i blen svid;
  Some (m, (i + blen)%nat).

(** rtcm.py:4576-4609 encode_orb_sat *)
Definition encode_orb_sat (e : est) (msg : bits) (i : nat) (sat : Z) : option (bits * nat) :=
  let blen := match fst (sat2prn sat) with GAL => 10%nat | SBS => 24%nat | _ => 8%nat end in
  do iode <- zget sat (e_iode e);
  do m <- putu msg i blen iode;
  let i := (i + blen)%nat in
  do (x, y, z) <- zget sat (e_dorb e);
  do m <- puts m i 22 (ival x 22); do m <- puts m (i + 22) 20 (ival y 20); do m <- puts m (i + 42) 20 (ival z 20);
  let i := (i + 62)%nat in
  do (ddx, ddy, ddz) <- (match e_ddorb e with
                         | Some d => do (x, y, z) <- zget sat d; Some (ival x 21, ival y 19, ival z 19)
                         | None => Some (0, 0, 0)
                         end);
  do m <- puts m i 21 ddx; do m <- puts m (i + 21) 19 ddy; do m <- puts m (i + 40) 19 ddz;
  Some (m, (i + 59)%nat).

(** rtcm.py:4611-4624 encode_clk_sat *)
Definition encode_clk_sat (e : est) (msg : bits) (i : nat) (sat : Z) : option (bits * nat) :=
  do a <- zget sat (e_dclk e);
  do (b, c) <- (match e_ddclk e with
                | Some d => do b <- zget sat d; do c <- zget sat (e_dddclk e); Some (ival b 21, ival c 27)
                | None => Some (0, 0)
                end);
  do m <- puts msg i 22 (ival a 22); do m <- puts m (i + 22) 21 b; do m <- puts m (i + 43) 27 c;
  Some (m, (i + 70)%nat).

(** for sat in l: if its constellation is sys: encode *)
Fixpoint each (enc : bits -> nat -> Z -> option (bits * nat)) (l : list Z) (msg : bits) (i : nat) : option (bits * nat) :=
  match l with
  | [] => Some (msg, i)
  | sat :: r => do (m, i) <- encode_sat msg i sat; do (m, i) <- enc m i sat; each enc r m i
  end.

(** rtcm.py:4637-4649, 4651-4663, 4665-4683 *)
Definition encode_orb (e : est) (sys : gnss) (msg : bits) (i : nat) : option (bits * nat) :=
  do (m, i) <- encode_head e sys SORB msg i;
  each (encode_orb_sat e) (of_sys sys (e_sat_n e)) m i.
Definition encode_clk (e : est) (sys : gnss) (msg : bits) (i : nat) : option (bits * nat) :=
  do (m, i) <- encode_head e sys SCLK msg i;
  each (encode_clk_sat e) (of_sys sys (e_sat_n e)) m i.
Definition encode_ura (e : est) (sys : gnss) (msg : bits) (i : nat) : option (bits * nat) :=
  do (m, i) <- encode_head e sys SURA msg i;
  each (fun m i sat => do q <- zget sat (e_ura e); let (a, b) := q_to q in
                       do m <- putu m i 3 a; do m <- putu m (i + 3) 3 b; Some (m, (i + 6)%nat))
       (of_sys sys (map fst (e_ura e))) m i.

(** rtcm.py:4919-4954 encode for these message types.  encode_cssr_comb and encode_cssr_hclk, called for the
    combined and high-rate clock numbers, are defined nowhere in the package: AttributeError.  A number with no
    branch leaves the message with its number only, without an error.  The other message types are not modelled
    here (None). *)
Definition encode (e : est) (msg : bits) : option (bits * nat) :=
  do m <- putu msg 24 12 (e_mt e);
  match edispatch (e_mt e) with
  | KSsr c =>
      do sys <- get_ssr_sys None (e_mt e);
      match c with
      | SORB => encode_orb e sys m 36
      | SCLK => encode_clk e sys m 36
      | SURA => encode_ura e sys m 36
      | _ => None
      end
  | KNone => Some (m, 36%nat)
  | _ => None
  end.
End Ssr.
