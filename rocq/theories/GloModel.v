(** Further decoders of /repo/src/cssrlib/rawnav.py: NavIC LNAV 1283-1371, GLONASS FDMA 1553-1687, GLONASS CDMA
    (L1OC 1689-1707, L3OC 1709-1727, 1729-1865), SBAS message 9 1867-1908.  Conventions of RawModel.v.
    - [time] and [tow] are whole seconds.
    - A GLONASS or SBAS ephemeris is the list of the attributes assigned, named by [gfld]; attributes not
      assigned keep the values of the constructor (gnss.py:767-828), all zero.
    - NA, N4, NT and the slot number of FDMA strings are read and dropped; here only their widths remain. *)
From Verif Require Import CssrState.
From Verif Require Export Base BitModel RawModel.
Notation length := List.length.
Open Scope Z_scope.

(* ---------- NavIC LNAV ---------- *)
(** 106-108 *)
Definition irn_new : dict Z bits := fresh 14.
(** 1299-1371, from the complete buffer *)
Definition irn_eph (week sat : Z) (b : bits) : option (option eph) :=
  do id1 <- getu b 27 2; do id2 <- getu b (320 + 27) 2;
  do tow1 <- getu b 8 17; do tow2 <- getu b (320 + 8) 17;
  if negb (id1 =? 0) || negb (id2 =? 1) then Some None else
  if negb (tow2 =? tow1 + 1) then Some None else
  do wk <- getu b 30 10; do af0 <- gets b 40 22; do af1 <- gets b 62 16; do af2 <- gets b 78 8; do urai <- getu b 86 4;
  do toc <- getu b 90 16; do tgd <- gets b 106 8; do deln <- gets b 114 22; do iode <- getu b 136 8;
  do svh <- getu b 154 2; do cuc <- gets b 156 15; do cus <- gets b 171 15; do cic <- gets b 186 15; do cis <- gets b 201 15;
  do crc <- gets b 216 15; do crs <- gets b 231 15; do idot <- gets b 246 14;
  let i := 350%nat in
  do M0 <- gets b i 32; do toe <- getu b (i + 32) 16; do e <- getu b (i + 48) 32; do sA <- getu b (i + 80) 32;
  do OMG0 <- gets b (i + 112) 32; do omg <- gets b (i + 144) 32; do OMGd <- gets b (i + 176) 22; do i0 <- gets b (i + 198) 32;
  do sva <- urai2sva urai;
  let tow1 := tow1 * 12 in
  let w := wk + (week - wk + 512) / 1024 * 1024 in
  let toes := toe * 16 in
  let tw := if toes >? tow1 + 302400 then week + 1 else if toes <? tow1 - 302400 then week - 1 else week in
  Some (Some [ (Fsat, I sat); (Fweek, I w); (Faf0, V af0 31); (Faf1, V af1 43); (Faf2, V af2 55); (Furai 0, I urai); (Fsva, H (Some sva));
    (Ftgd, V tgd 31); (Fdeln, Sc deln 41); (Fiode, I iode); (Fiodc, I iode); (Fsvh, I svh);
    (Fcuc, V cuc 28); (Fcus, V cus 28); (Fcic, V cic 28); (Fcis, V cis 28); (Fcrc, V crc 4); (Fcrs, V crs 4);
    (Fidot, Sc idot 43); (FM0, Sc M0 31); (Ftoes, I toes); (Fe, V e 33); (FA, V (sA * sA) 38); (FOMG0, Sc OMG0 31);
    (Fomg, Sc omg 31); (FOMGd, Sc OMGd 41); (Fi0, Sc i0 31);
    (Ftoc, T (gpst2time 1 w (toc * 16))); (Ftoe, T (gpst2time 1 w toes)); (Ftot, T (gpst2time 1 tw tow1)); (Fmode, I 0)]).
(** 1283-1297, then [irn_eph]; the fourth subframe is kept too, and returns nothing *)
Definition decode_irn_lnav (week sat : Z) (msg : bits) (d : dict Z bits) : option (dict Z bits * option eph) :=
  let '(sys, prn) := sat2prn sat in
  do tlm <- getu msg 0 8; do towc <- getu msg 8 17; do sid <- getu msg 27 2;
  do buff <- zget (prn - 1) d;
  let b := setslice buff (sid * 40) (sid * 40 + 40) (head 40 msg) in
  if sid >? 2 then Some (zset (prn - 1) b d, None) else
  do r <- irn_eph week sat b; Some (zset (prn - 1) b d, r).

(* ---------- GLONASS ---------- *)
Inductive gfld := Gsat | Giode | Gfrq | Gsvh | Gsva | Gage | Gtoe | Gtof | Gtoes | Gpos (k : Z) | Gvel (k : Z) | Gacc (k : Z) | Gtaun | Ggamn | Gbeta
  | Gdtaun | Gmode | Gstatus | Gflag | Gtauc | Gdtauc | Gtaugps | Gurai (k : Z) | Gdpos (k : Z) | Gpsi | Gsn | Gwin | Gdw | Gwmax | Gaode | Gaodc
  | Gtin | Gtau1 | Gtau2 | Gsrc | Gsattype | Gisc (k : Z) | Giodn | Gt0 | Gaf0 | Gaf1.
Definition geph := list (gfld * val).

(** 1668-1673, 1675-1680: a time of day of UTC(SU) moved into the day around [tod] *)
Definition glo_day (t tod : Z) : Z := if t <? tod - 43200 then t + 86400 else if t >? tod + 43200 then t - 86400 else t.
(** 1578-1687, from the complete buffer; string 5 may be missing (1643) *)
Definition fdma_eph (week time sat freq : Z) (b : bits) : option (option geph) :=
  do id1 <- getu b 1 4; do id2 <- getu b (96 + 1) 4; do id3 <- getu b (96*2 + 1) 4; do id4 <- getu b (96*3 + 1) 4; do id5 <- getu b (96*4 + 1) 4;
  do t1 <- getu b 480 32; do t2 <- getu b 512 32; do t3 <- getu b 544 32; do t4 <- getu b 576 32;
  if negb (id1 =? 1) || negb (id2 =? 2) || negb (id3 =? 3) || negb (id4 =? 4) then Some None else
  if negb (t4 - t3 =? 2) || negb (t3 - t2 =? 2) || negb (t2 - t1 =? 2) then Some None else
  do P1 <- getu b 7 2; do tkh <- getu b 9 5; do tkm <- getu b 14 6; do tks <- getu b 20 1;
  do vx <- getbitg b 21 24; do ax <- getbitg b 45 5; do px <- getbitg b 50 27;
  do Bn <- getu b 101 3; do P2 <- getu b 104 1; do tb <- getu b 105 7;
  do vy <- getbitg b 117 24; do ay <- getbitg b 141 5; do py <- getbitg b 146 27;
  do P3 <- getu b 197 1; do gamn <- getbitg b 198 11; do P <- getu b 210 2;
  do vz <- getbitg b 213 24; do az <- getbitg b 237 5; do pz <- getbitg b 242 27;
  do taun <- getbitg b 293 22; do dtaun <- getbitg b 315 5;
  do En <- getu b 320 5; do P4 <- getu b 339 1; do FT <- getu b 340 4; do M <- getu b 363 2;
  do s5 <- (if id5 =? 5 then do tc <- getbitg b 400 32; do tg <- getbitg b 438 22; Some [(Gtauc, V tc 31); (Gtaugps, V tg 30)] else Some []);
  let tod := time mod 86400 in
  let day := time - tod in
  let tof := glo_day (tkh * 3600 + tkm * 60 + tks * 30 - 10800) tod in
  let toe := glo_day (tb * 900 - 10800) tod in
  Some (Some ([ (Gsat, I sat); (Gvel 0, V (1000 * vx) 20); (Gacc 0, V (1000 * ax) 30); (Gpos 0, V (1000 * px) 11);
    (Gvel 1, V (1000 * vy) 20); (Gacc 1, V (1000 * ay) 30); (Gpos 1, V (1000 * py) 11); (Ggamn, V gamn 40);
    (Gvel 2, V (1000 * vz) 20); (Gacc 2, V (1000 * az) 30); (Gpos 2, V (1000 * pz) 11); (Gtaun, V taun 30); (Gdtaun, V dtaun 30)] ++ s5 ++
    [ (Gsvh, I Bn); (Gage, I En); (Gsva, I FT); (Gfrq, I freq); (Giode, I tb);
    (Gflag, I (Z.shiftl M 7 + Z.shiftl P4 6 + Z.shiftl P3 5 + Z.shiftl P2 4 + Z.shiftl P1 2 + P));
    (Gtof, T (utc2gpst 1 (gpst2time 1 week (day + tof)))); (Gtoe, T (utc2gpst 1 (gpst2time 1 week (day + toe)))); (Gtoes, I toe); (Gmode, I 0)])).
(** 1553-1577, then [fdma_eph]; buffers of 80 bytes are made on demand.  [time] outside 32 bits: struct.error *)
Definition decode_glo_fdma (week time sat freq : Z) (msg : bits) (d : dict Z bits) : option (dict Z bits * option geph) :=
  let '(sys, prn) := sat2prn sat in
  do sid <- getu msg 1 4;
  if (sid =? 0) || (sid >? 5) then Some (d, None) else
  let buff := match zget prn d with Some b => b | None => zbytes 80 end in
  let i0 := Z.to_nat ((sid - 1) * 12) in
  do b <- copy_buff msg buff 0 (i0 * 8) 96;
  do b <- putu b (8 * (60 + Z.to_nat (sid - 1) * 4)) 32 time;
  do r <- fdma_eph week time sat freq b; Some (zset prn b d, r).

(** 1729-1865; [stype] 1 (L1OC) or 3 (L3OC) *)
Definition cdma_eph (sat stype : Z) (b : bits) : option (option geph) :=
  do id10 <- getu b 0 6; do id11 <- getu b 256 6; do id12 <- getu b 512 6;
  if negb (id10 =? 10) || negb (id11 =? 11) || negb (id12 =? 12) then Some None else
  do s <- (if stype =? 1 then
      do svid <- getu b 6 6; do svh <- getu b 12 1; do valid <- getu b 13 1; do P2 <- getu b 18 1; do ts <- getu b 22 16; Some (ts, svh, valid, P2)
    else do ts <- getu b 6 15; do svid <- getu b 21 6; do svh <- getu b 27 1; do valid <- getu b 28 1; do P2 <- getu b 33 1; Some (ts, svh, valid, P2));
  let '(ts, svh, valid, P2) := s in
  let blen := if stype =? 1 then 32%nat else 31%nat in
  let i := (6 + blen)%nat in
  do N4 <- getu b i 5; do Nt <- getu b (i + 5) 11; do M <- getu b (i + 16) 3; do tb <- getu b (i + 25) 10;
  do Ee <- getu b (i + 35) 8; do Et <- getu b (i + 43) 8; do Re <- getu b (i + 51) 2; do Rt <- getu b (i + 53) 2;
  do ua <- getbitg b (i + 55) 5; do ub <- getbitg b (i + 60) 5;
  do taun <- getbitg b (i + 65) 32; do gamn <- getbitg b (i + 97) 19; do beta <- getbitg b (i + 116) 15;
  do tauc <- getbitg b (i + 131) 40; do dtauc <- getbitg b (i + 171) 13;
  let i := (256 + 6 + blen)%nat in
  do px <- getbitg b i 40; do py <- getbitg b (i + 40) 40; do pz <- getbitg b (i + 80) 40; do vx <- getbitg b (i + 120) 35; do vy <- getbitg b (i + 155) 35;
  let i := (512 + 6 + blen)%nat in
  do vz <- getbitg b i 35; do ax <- getbitg b (i + 35) 15; do ay <- getbitg b (i + 50) 15; do az <- getbitg b (i + 65) 15;
  do dx <- getbitg b (i + 80) 13; do dy <- getbitg b (i + 93) 13; do dz <- getbitg b (i + 106) 13;
  do isc <- getbitg b (i + 119) 18; do tg <- getbitg b (i + 137) 30;
  let i := (768 + 6 + blen)%nat in
  do tin <- getu b i 22; do psi <- getu b (i + 22) 15; do sn <- getu b (i + 37) 1; do wmax <- getu b (i + 38) 17; do win <- getu b (i + 55) 17;
  do dw <- getu b (i + 72) 15; do tau1 <- getu b (i + 87) 13; do tau2 <- getu b (i + 100) 17;
  let toe := gep2time 1 N4 Nt (tb * 90) in
  Some (Some [ (Gsat, I sat); (Gurai 0, I ua); (Gurai 1, I ub); (Gtaun, V taun 38); (Ggamn, V gamn 48); (Gbeta, V beta 57); (Gtauc, V tauc 31);
    (Gdtauc, V dtauc 49); (Gpos 0, V (1000 * px) 20); (Gpos 1, V (1000 * py) 20); (Gpos 2, V (1000 * pz) 20);
    (Gvel 0, V (1000 * vx) 30); (Gvel 1, V (1000 * vy) 30); (Gvel 2, V (1000 * vz) 30);
    (Gacc 0, V (1000 * ax) 39); (Gacc 1, V (1000 * ay) 39); (Gacc 2, V (1000 * az) 39); (Gdpos 0, V dx 10); (Gdpos 1, V dy 10); (Gdpos 2, V dz 10);
    (Gisc (if stype =? 1 then 1 else 2), V isc 38); (Gtaugps, V tg 38);
    (Gpsi, Sc psi 14); (Gwin, Sc win 26); (Gwmax, Sc wmax 26); (Gdw, Sc dw 30); (Gsn, I sn); (Gtin, V tin 5); (Gtau1, V tau1 5); (Gtau2, V tau2 5);
    (Gsattype, I M); (Gsvh, I svh); (Gstatus, I valid); (Gflag, I P2); (Gsrc, I (Z.lor (Z.shiftl Re 2) Rt)); (Gaode, V Ee 2); (Gaodc, V Et 2);
    (Gtoe, T toe); (Gtoes, I (snd (time2gpst 1 toe))); (Gtof, T (gep2time 1 N4 Nt (ts * (if stype =? 1 then 2 else 3)))); (Giode, I tb); (Gmode, I stype)]).
(** 1691, 1711 sid_t *)
Definition cdma_slot (sid : Z) : option Z :=
  if sid =? 10 then Some 0 else if sid =? 11 then Some 1 else if sid =? 12 then Some 2 else if sid =? 16 then Some 3 else if sid =? 25 then Some 4 else None.
(** 1689-1707: types 10, 11, 12; buffers of 160 bytes are made on demand *)
Definition decode_glo_l1oc (sat : Z) (msg : bits) (d : dict Z bits) : option (dict Z bits * option geph) :=
  do pre <- getu msg 0 12; do sid <- getu msg 12 6;
  if negb (pre =? 1521) then Some (d, None) else
  if negb ((sid =? 10) || (sid =? 11) || (sid =? 12)) then Some (d, None) else
  do k <- cdma_slot sid;
  let buff := match zget sat d with Some b => b | None => zbytes 160 end in
  do b <- copy_buff msg buff 12 (Z.to_nat (k * 32 * 8)) 222;
  do r <- cdma_eph sat 1 b; Some (zset sat b d, r).
(** 1709-1727 *)
Definition decode_glo_l3oc (sat : Z) (msg : bits) (d : dict Z bits) : option (dict Z bits * option geph) :=
  do pre <- getu msg 0 20; do sid <- getu msg 20 6;
  if negb (pre =? 18766) then Some (d, None) else
  match cdma_slot sid with
  | None => Some (d, None)
  | Some k =>
    let buff := match zget sat d with Some b => b | None => zbytes 160 end in
    do b <- copy_buff msg buff 20 (Z.to_nat (k * 32 * 8)) 256;
    do r <- cdma_eph sat 3 b; Some (zset sat b d, r)
  end.

(* ---------- SBAS ---------- *)
(** 1869-1870, tenths of a metre *)
Definition sbs_ura : list Z := [20; 28; 40; 57; 80; 113; 160; 320; 640; 1280; 2560; 5120; 10240; 20480; 40960; 0].
(** 1867-1908 *)
Definition decode_sbs_l1 (week tow sat : Z) (msg : bits) : option (option geph) :=
  do pre <- getu msg 0 8; do mt <- getu msg 8 6; do iodn <- getu msg 14 8;
  if negb ((pre =? 83) || (pre =? 154) || (pre =? 198)) then Some None else
  if negb (mt =? 9) then Some None else
  do t0 <- getu msg 22 13; do ura <- getu msg 35 4; do xg <- gets msg 39 30; do yg <- gets msg 69 30; do zg <- gets msg 99 25;
  do vx <- gets msg 124 17; do vy <- gets msg 141 17; do vz <- gets msg 158 18;
  do ax <- gets msg 176 10; do ay <- gets msg 186 10; do az <- gets msg 196 10;
  do af0 <- gets msg 206 12; do af1 <- gets msg 218 8;
  let tof := gpst2time 1 week tow in
  Some (Some [ (Gsat, I sat); (Gtof, T tof); (Gt0, T (tod2tow 1 (t0 * 16) tof)); (Giodn, I iodn); (Gsvh, I (if negb (ura =? 15) then 0 else 1));
    (Gsva, D (nth (Z.to_nat ura) sbs_ura 0) 1); (Gmode, I 0);
    (Gpos 0, D (8 * xg) 2); (Gpos 1, D (8 * yg) 2); (Gpos 2, D (4 * zg) 1);
    (Gvel 0, D (625 * vx) 6); (Gvel 1, D (625 * vy) 6); (Gvel 2, D (4 * vz) 3);
    (Gacc 0, D (125 * ax) 7); (Gacc 1, D (125 * ay) 7); (Gacc 2, D (625 * az) 7); (Gaf0, V af0 31); (Gaf1, V af1 40)]).
