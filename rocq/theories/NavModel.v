(** Further navigation message decoders: /repo/src/cssrlib/rawnav.py (GPS/QZSS CNAV 476-662, CNAV-2 664-772,
    BDS B-CNAV 774-1072, D1 1074-1162, D2 1164-1281).  Conventions of RawModel.v.
    Each decoder owns its dictionary of buffers (D1 and D2 share one), so the functions take that dictionary.
    The ionosphere, UTC, almanac, Earth orientation and inter-system parameters are read and dropped by the
    code: here only their widths remain.  Reads of the whole buffer are written where their value is used;
    the buffers always hold 200 bytes, so that no order of reading can matter. *)
From Verif Require Import CssrState.
From Verif Require Export Base RawModel.
Notation length := List.length.
Open Scope Z_scope.

(* ---------- GPS/QZSS CNAV ---------- *)
Record cnavst := CnavSt { gps_cnav : dict Z bits; qzs_cnav : dict Z bits }.
(** 72-78 *)
Definition cnav_new : cnavst := CnavSt (fresh 32) (fresh 17).
(** 624, 734: reference semi-major axis *)
Definition a_ref (sys : gnss) : Z := match sys with GPS => 26559710 | _ => 42164200 end.
(** 545-661, from the complete buffer.  Only message types 30 and 61 give [wn_op] (580-588), and without it
    nothing is returned (659-660) *)
Definition cnav_eph (sys : gnss) (sat : Z) (b : bits) : option (option eph) :=
  do id1 <- getu b 14 6; do id2 <- getu b (304 + 14) 6; do id3 <- getu b (304*2 + 14) 6;
  if negb (id1 =? 10) || negb (id2 =? 11) then Some None else
  if negb (id3 / 10 =? 3) && (gnss_eqb sys QZS && negb (id3 =? 61)) then Some None else
  do toe1 <- getu b 70 11; do toe2 <- getu b (304 + 38) 11; do toc <- getu b (304*2 + 60) 11;
  if negb (toe1 =? toe2) || negb (toe1 =? toc) then Some None else
  do tow <- getu b 20 17; do alert <- getu b 37 1;
  let tow := tow * 6 in
  let i := 38%nat in
  do wn <- getu b i 13; do svh <- getu b (i + 13) 3; do ura_ed <- gets b (i + 27) 5;
  let i := 70%nat in
  do dA <- gets b (i + 11) 26; do Adot <- gets b (i + 37) 25; do deln <- gets b (i + 62) 17; do delnd <- gets b (i + 79) 23;
  do M0 <- gets b (i + 102) 33; do e <- getu b (i + 135) 33; do omg <- gets b (i + 168) 33;
  do isf <- getu b (i + 201) 1; do esf <- getu b (i + 202) 1;
  let i := (304 + 38)%nat in
  do toe <- getu b i 11; do OMG0 <- gets b (i + 11) 33; do i0 <- gets b (i + 44) 33; do OMGd <- gets b (i + 77) 17;
  do idot <- gets b (i + 94) 15; do cis <- gets b (i + 109) 16; do cic <- gets b (i + 125) 16; do crs <- gets b (i + 141) 24;
  do crc <- gets b (i + 165) 24; do cus <- gets b (i + 189) 21; do cuc <- gets b (i + 210) 21;
  let i := (304*2 + 38)%nat in
  do top <- getu b i 11; do ura0 <- gets b (i + 11) 5; do ura1 <- getu b (i + 16) 3; do ura2 <- getu b (i + 19) 3;
  do af0 <- gets b (i + 33) 26; do af1 <- gets b (i + 59) 20; do af2 <- gets b (i + 79) 10;
  let i := (304*2 + 127)%nat in
  if (id3 =? 30) || (id3 =? 61) then
    do tgd <- gets b i 13;
    do isc1 <- gets b (i + 13) 13; do isc2 <- gets b (i + 26) 13; do isc3 <- gets b (i + 39) 13; do isc4 <- gets b (i + 52) 13;
    do wn_op <- getu b (i + 65 + 64) 8;
    let toc := toc * 300 in
    let wop := wn / 256 * 256 + wn_op in
    let wk := adj_week wn toc tow in
    Some (Some [ (Fsat, I sat); (Ftgd, V tgd 35);
      (Fisc 0, V isc1 35); (Fisc 1, V isc2 35); (Fisc 2, V isc3 35); (Fisc 3, V isc4 35);
      (Fweek, I wk); (Fcode, I 1); (Fsvh, I svh); (Faf2, V af2 60); (Faf1, V af1 48); (Faf0, V af0 35);
      (Furai 0, I ura0); (Furai 1, I ura1); (Furai 2, I ura2); (Furai 3, I ura_ed); (Ftops, I (top * 300));
      (FA, V (a_ref sys * 512 + dA) 9); (FAdot, V Adot 21); (Fdeln, Sc deln 44); (Fdelnd, Sc delnd 57); (FM0, Sc M0 32);
      (Fe, V e 34); (Fomg, Sc omg 32); (Finteg, I (Z.lor (Z.lor (Z.shiftl alert 2) (Z.shiftl esf 1)) isf)); (Fwnop, I wop);
      (Ftoes, I (toe * 300)); (FOMG0, Sc OMG0 32); (Fi0, Sc i0 32); (FOMGd, ScO OMGd 44 (-26)); (Fidot, Sc idot 44);
      (Fcis, V cis 30); (Fcic, V cic 30); (Fcrs, V crs 8); (Fcrc, V crc 8); (Fcus, V cus 30); (Fcuc, V cuc 30); (Fmode, I 1);
      (Ftot, T (gpst2time 1 wn tow)); (Ftoc, T (gpst2time 1 wk toc)); (Ftoe, T (gpst2time 1 wk (toe * 300)));
      (Ftop, T (gpst2time 1 wop (top * 300)))])
  else Some None.
(** 502-543, then [cnav_eph].  The buffer is the object in the dictionary: it is updated in place *)
Definition decode_gps_cnav (sat : Z) (msg : bits) (s : cnavst) : option (cnavst * option eph) :=
  let '(sys, prn) := sat2prn sat in
  let go buff (put : bits -> cnavst) :=
    do pre <- getu msg 0 8; do prn_ <- getu msg 8 6; do sid <- getu msg 14 6;
    let prn_ := if gnss_eqb sys QZS then prn_ + 192 else prn_ in
    if negb (pre =? 139) || negb (prn =? prn_) then Some (s, None) else
    if negb ((sid =? 10) || (sid =? 11) || (sid =? 12) || (sid =? 15) || (sid =? 60) || (sid =? 61)) && ((sid <? 30) || (sid >? 37))
    then Some (s, None) else
    let b := if (sid =? 10) || (sid =? 11) then setslice buff ((sid - 10) * 38) ((sid - 10) * 38 + 38) (head 38 msg)
             else if ((sid >=? 30) && (sid <=? 37)) || (gnss_eqb sys QZS && (sid =? 61)) then setslice buff (2 * 38) (2 * 38 + 38) (head 38 msg)
             else buff in
    do r <- cnav_eph sys sat b; Some (put b, r) in
  match sys with
  | GPS => do buff <- zget (prn - 1) (gps_cnav s); go buff (fun b => CnavSt (zset (prn - 1) b (gps_cnav s)) (qzs_cnav s))
  | QZS => do buff <- zget (prn - 193) (qzs_cnav s); go buff (fun b => CnavSt (gps_cnav s) (zset (prn - 193) b (qzs_cnav s)))
  | _ => Some (s, None)
  end.

(* ---------- GPS/QZSS CNAV-2 ---------- *)
(** 664-772; the group delays of subframe 3 start after the UTC (98 bits) and ionosphere (64 bits) parameters *)
Definition decode_gps_cnav2 (sat : Z) (msg : bits) : option (option eph) :=
  let '(sys, prn) := sat2prn sat in
  do toi <- getu msg 0 9;
  let i := 52%nat in
  do wn <- getu msg i 13; do itow <- getu msg (i + 13) 8; do top <- getu msg (i + 21) 11; do svh <- getu msg (i + 32) 1;
  do ura_ed <- gets msg (i + 33) 5; do toe <- getu msg (i + 38) 11;
  let i := 101%nat in
  do dA <- gets msg i 26; do Adot <- gets msg (i + 26) 25; do deln <- gets msg (i + 51) 17; do delnd <- gets msg (i + 68) 23;
  do M0 <- gets msg (i + 91) 33; do e <- getu msg (i + 124) 33; do omg <- gets msg (i + 157) 33; do OMG0 <- gets msg (i + 190) 33;
  do i0 <- gets msg (i + 223) 33; do OMGd <- gets msg (i + 256) 17; do idot <- gets msg (i + 273) 15;
  let i := 389%nat in
  do cis <- gets msg i 16; do cic <- gets msg (i + 16) 16; do crs <- gets msg (i + 32) 24; do crc <- gets msg (i + 56) 24;
  do cus <- gets msg (i + 80) 21; do cuc <- gets msg (i + 101) 21;
  let i := 511%nat in
  do ura0 <- gets msg i 5; do ura1 <- getu msg (i + 5) 3; do ura2 <- getu msg (i + 8) 3; do af0 <- gets msg (i + 11) 26;
  do af1 <- gets msg (i + 37) 20; do af2 <- gets msg (i + 57) 10; do tgd <- gets msg (i + 67) 13; do isc1 <- gets msg (i + 80) 13;
  do isc2 <- gets msg (i + 93) 13; do isf <- getu msg (i + 106) 1; do wn_op <- getu msg (i + 107) 8; do esf <- getu msg (i + 115) 1;
  let tow := itow * 7200 + toi * 18 in
  let i := (52 + 1200)%nat in
  do page <- getu msg (i + 8) 6;
  if negb ((page =? 1) || (page =? 61)) then Some None else
  let i := (i + 14 + 98 + 64)%nat in
  do g1 <- gets msg i 13; do g2 <- gets msg (i + 13) 13; do g3 <- gets msg (i + 26) 13; do g4 <- gets msg (i + 39) 13;
  let wop := wn / 256 * 256 + wn_op in
  let wk := adj_week wn toe tow in
  let toe_t := gpst2time 1 wk (toe * 300) in
  Some (Some [ (Fsat, I sat); (Fisc 0, V g1 35); (Fisc 1, V g2 35); (Fisc 2, V g3 35); (Fisc 3, V g4 35);
    (Fweek, I wk); (Fcode, I 2); (Fsvh, I svh); (Faf2, V af2 60); (Faf1, V af1 48); (Faf0, V af0 35);
    (Furai 0, I ura0); (Furai 1, I ura1); (Furai 2, I ura2); (Furai 3, I ura_ed);
    (Ftgd, V tgd 35); (Fisc 4, V isc2 35); (Fisc 5, V isc1 35); (Ftops, I (top * 300));
    (FA, V (a_ref sys * 512 + dA) 9); (FAdot, V Adot 21); (Fdeln, Sc deln 44); (Fdelnd, Sc delnd 57); (FM0, Sc M0 32);
    (Fe, V e 34); (Fomg, Sc omg 32);
    (Finteg, I (match sys with GPS => isf | _ => Z.lor (Z.shiftl esf 1) isf end)); (Fwnop, I wop);
    (Ftoes, I (toe * 300)); (FOMG0, Sc OMG0 32); (Fi0, Sc i0 32); (FOMGd, ScO OMGd 44 (-26)); (Fidot, Sc idot 44);
    (Fcis, V cis 30); (Fcic, V cic 30); (Fcrs, V crs 8); (Fcrc, V crc 8); (Fcus, V cus 30); (Fcuc, V cuc 30); (Fmode, I 2);
    (Ftot, T (gpst2time 1 wn tow)); (Ftoe, T toe_t); (Ftoc, T toe_t); (Ftop, T (gpst2time 1 wop (top * 300)))]).

(* ---------- BDS B-CNAV ---------- *)
(** 774-791; [week] is eph.week at the time of the call *)
Definition cnav_eph1 (b : bits) (week : Z) (i : nat) : option eph :=
  do toe <- getu b i 11; do sattype <- getu b (i + 11) 2; do dA <- gets b (i + 13) 26; do Adot <- gets b (i + 39) 25;
  do deln <- gets b (i + 64) 17; do delnd <- gets b (i + 81) 23; do M0 <- gets b (i + 104) 33; do ecc <- getu b (i + 137) 33;
  do omg <- gets b (i + 170) 33;
  let aref := if sattype =? 3 then 27906100 else 42162200 in
  Some [ (Ftoes, I (toe * 300)); (Fsattype, I sattype); (FAdot, V Adot 21); (Fdeln, Sc deln 44); (Fdelnd, Sc delnd 57);
         (FM0, Sc M0 32); (Fe, V ecc 34); (Fomg, Sc omg 32); (FA, V (aref * 512 + dA) 9);
         (Ftoe, T (bdt2gpst 1 (bdt2time 1 week (toe * 300))))].
(** 793-809 *)
Definition cnav_eph2 (b : bits) (i : nat) : option eph :=
  do OMG0 <- gets b i 33; do i0 <- gets b (i + 33) 33; do OMGd <- gets b (i + 66) 19; do idot <- gets b (i + 85) 15;
  do cis <- gets b (i + 100) 16; do cic <- gets b (i + 116) 16; do crs <- gets b (i + 132) 24; do crc <- gets b (i + 156) 24;
  do cus <- gets b (i + 180) 21; do cuc <- gets b (i + 201) 21;
  Some [ (FOMG0, Sc OMG0 32); (Fi0, Sc i0 32); (FOMGd, Sc OMGd 44); (Fidot, Sc idot 44); (Fcis, V cis 30); (Fcic, V cic 30);
         (Fcrs, V crs 8); (Fcrc, V crc 8); (Fcus, V cus 30); (Fcuc, V cuc 30)].
(** 811-821 *)
Definition cnav_clk (b : bits) (week : Z) (i : nat) : option eph :=
  do toc <- getu b i 11; do a0 <- gets b (i + 11) 25; do a1 <- gets b (i + 36) 22; do a2 <- gets b (i + 58) 11;
  Some [ (Faf0, V a0 34); (Faf1, V a1 50); (Faf2, V a2 66); (Ftoc, T (bdt2gpst 1 (bdt2time 1 week (toc * 300))))].
(** 867-873 *)
Definition cnav_sisai (b : bits) (i : nat) : option eph :=
  do top <- getu b i 11; do s1 <- gets b (i + 11) 5; do s2 <- gets b (i + 16) 3; do s3 <- gets b (i + 19) 3;
  Some [ (Fsisai 1, I s1); (Fsisai 2, I s2); (Fsisai 3, I s3); (Ftops, I (top * 300))].
(** 875-934; pages of subframe 3 other than 1 return nothing (931-932) *)
Definition decode_bds_b1c (sat : Z) (msg : bits) : option (option eph) :=
  do soh <- getu msg (600 + 8 + 264) 8;
  let soh := soh * 18 in
  do week <- getu msg 0 13; do how <- getu msg 13 8; do iodc <- getu msg 21 10; do iode <- getu msg 31 8;
  if negb (Z.land iodc 255 =? iode) then Some None else
  let tow := how * 3600 + soh in
  do e1 <- cnav_eph1 msg week 39; do e2 <- cnav_eph2 msg 242; do ck <- cnav_clk msg week 464;
  do tgd_b2ap <- gets msg 533 12; do isc_b1cd <- gets msg 545 12; do tgd_b1cp <- gets msg 557 12;
  do page <- getu msg 608 6; do svh <- getu msg 614 2; do integ <- getu msg 616 3; do sismai <- gets msg 619 4;
  if negb (page =? 1) then Some None else
  do s0 <- getu msg 623 5; do si <- cnav_sisai msg 628;
  Some (Some ([ (Fsat, I sat); (Fweek, I week); (Fiodc, I iodc); (Fiode, I iode); (Ftot, T (bdt2time 1 week tow)) ]
    ++ e1 ++ e2 ++ ck ++
    [ (Ftgd, V tgd_b1cp 34); (Fisc 0, V isc_b1cd 34); (Ftgdb, V tgd_b2ap 34); (Fsvh, I svh); (Finteg, I integ);
      (Fsismai, I sismai); (Fsisai 0, I s0)] ++ si ++ [(Fmode, I 1)])).
(** 945 msg_t *)
Definition b2a_slot (sid : Z) : option Z :=
  if sid =? 10 then Some 0 else if sid =? 11 then Some 1 else if sid =? 30 then Some 2 else if sid =? 34 then Some 3
  else if sid =? 40 then Some 4 else None.
(** 952-1015, from the complete buffer (what message 34 sets, 970-972, message 40 sets again, 974-978) *)
Definition b2a_eph (sat : Z) (b : bits) : option (option eph) :=
  do id1 <- getu b 6 6; do sow1 <- getu b 12 18; do id2 <- getu b (320 + 6) 6; do sow2 <- getu b (320 + 12) 18;
  do id3 <- getu b (320*2 + 6) 6; do sow3 <- getu b (320*2 + 12) 18; do id5 <- getu b (320*4 + 6) 6;
  if negb (id1 =? 10) || negb (id2 =? 11) || negb (id3 =? 30) || negb (id5 =? 40) then Some None else
  if negb (sow2 =? sow1 + 1) || negb (sow3 =? sow2 + 1) then Some None else
  let sow1 := sow1 * 3 in
  do s0 <- getu b (320*4 + 42) 5; do si <- cnav_sisai b (320*4 + 47);
  do week <- getu b 30 13; do ib2a <- getu b 43 3; do sismai <- gets b 46 4; do ib1c <- getu b 50 3; do iode <- getu b 53 8;
  do e1 <- cnav_eph1 b week 61;
  do hs <- getu b (320 + 30) 2; do e2 <- cnav_eph2 b (320 + 42);
  do ck <- cnav_clk b week (320*2 + 42);
  do iodc <- getu b (320*2 + 111) 10; do tgd_b2ap <- gets b (320*2 + 121) 12; do isc_b2ad <- gets b (320*2 + 133) 12;
  if negb (Z.land iodc 255 =? iode) then Some None else
  do tgd_b1cp <- gets b (320*2 + 145 + 74) 12;
  Some (Some ([ (Fsat, I sat); (Fsisai 0, I s0)] ++ si ++ [ (Fweek, I week); (Fsismai, I sismai); (Fiode, I iode)] ++ e1 ++
    [ (Finteg, I (Z.shiftl ib2a 3 + ib1c))] ++ e2 ++ ck ++
    [ (Fiodc, I iodc); (Ftgd, V tgd_b1cp 34); (Fisc 1, V isc_b2ad 34); (Ftgdb, V tgd_b2ap 34); (Fsvh, I hs);
      (Ftot, T (bdt2time 1 week sow1)); (Fmode, I 2)])).
(** 936-950, then [b2a_eph] *)
Definition decode_bds_b2a (sat : Z) (msg : bits) (d : dict Z bits) : option (dict Z bits * option eph) :=
  let '(sys, prn) := sat2prn sat in
  do sid <- getu msg 6 6; do sow <- getu msg 12 18;
  match b2a_slot sid with
  | None => Some (d, None)
  | Some mid =>
    do buff <- zget (prn - 1) d;
    do b <- copybytes (bytelen msg) msg 0 buff (mid * 40);
    do r <- b2a_eph sat b; Some (zset (prn - 1) b d, r)
  end.
(** 1026 msg_t *)
Definition b2b_slot (sid : Z) : option Z := if sid =? 10 then Some 0 else if sid =? 30 then Some 1 else if sid =? 40 then Some 2 else None.
(** 1032-1072, from the complete buffer; at 1049 eph.week still has its initial value 0 (gnss.py:721) *)
Definition b2b_eph (sat : Z) (b : bits) : option (option eph) :=
  do id1 <- getu b 12 6; do sow1 <- getu b 18 20; do id2 <- getu b (512 + 12) 6; do sow2 <- getu b (512 + 18) 20;
  if negb (id1 =? 10) || negb (id2 =? 30) then Some None else
  if negb (sow2 =? sow1 + 1) then Some None else
  do e1 <- cnav_eph1 b 0 42; do e2 <- cnav_eph2 b 245;
  do integ <- getu b 467 3; do sismai <- gets b 470 4;
  do week <- getu b (512 + 38) 13;
  do ck <- cnav_clk b week (512 + 55);
  do tgd <- gets b (512 + 124) 12;
  do si <- cnav_sisai b (512 + 136 + 74 + 97 + 138);
  do s0 <- getu b (512 + 467) 5; do svh <- getu b (512 + 472) 2;
  Some (Some ([ (Fsat, I sat)] ++ e1 ++ e2 ++ [ (Finteg, I integ); (Fsismai, I sismai); (Fweek, I week)] ++ ck ++
    [ (Ftgd, V tgd 34)] ++ si ++ [ (Fsisai 0, I s0); (Fsvh, I svh); (Ftot, T (bdt2time 1 week sow1)); (Fmode, I 3)])).
(** 1017-1030, then [b2b_eph] *)
Definition decode_bds_b2b (sat : Z) (msg : bits) (d : dict Z bits) : option (dict Z bits * option eph) :=
  let '(sys, prn) := sat2prn sat in
  do sid <- getu msg 12 6; do sow <- getu msg 18 20;
  match b2b_slot sid with
  | None => Some (d, None)
  | Some mid =>
    do buff <- zget (prn - 1) d;
    do b <- copybytes (bytelen msg) msg 0 buff (mid * 64);
    do r <- b2b_eph sat b; Some (zset (prn - 1) b d, r)
  end.
(** 88-98 *)
Definition bds_new : dict Z bits := fresh 63.

(* ---------- BDS D1 ---------- *)
(** 1150-1154, 1271-1275: the week moved by the time of ephemeris *)
Definition d_week (week toes sow : Z) : Z :=
  if toes >? sow + 302400 then week + 1 else if toes <? sow - 302400 then week - 1 else week.
(** 1090-1160, from the complete buffer; the test of the times of the subframes is commented out (1102-1103) *)
Definition d1_eph (sat : Z) (b : bits) : option (option eph) :=
  do id1 <- getu b 15 3; do id2 <- getu b (320 + 15) 3; do id3 <- getu b (320*2 + 15) 3;
  do sow1 <- getbitu2 b 18 8 30 12;
  if negb (id1 =? 1) || negb (id2 =? 2) || negb (id3 =? 3) then Some None else
  do svh <- getu b 42 1; do iodc <- getu b 43 5; do urai <- getu b 48 4;
  do week <- getu b 60 13;
  do toc <- getbitu2 b 73 9 90 8;
  do tgd <- gets b 98 10;
  do tgd_b <- getbits2 b 108 4 120 6;
  do af2 <- gets b 214 11;
  do af0 <- getbits2 b 225 7 240 17;
  do af1 <- getbits2 b 257 5 270 17;
  do iode <- getu b 287 5;
  let i := 320%nat in
  do deln <- getbits2 b (i + 42) 10 (i + 60) 6;
  do cuc <- getbits2 b (i + 66) 16 (i + 90) 2;
  do M0 <- getbits2 b (i + 92) 20 (i + 120) 12;
  do e <- getbitu2 b (i + 132) 10 (i + 150) 22;
  do cus <- gets b (i + 180) 18;
  do crc <- getbits2 b (i + 198) 4 (i + 210) 14;
  do crs <- getbits2 b (i + 224) 8 (i + 240) 10;
  do sqrtA <- getbitu2 b (i + 250) 12 (i + 270) 20;
  do toe1 <- getu b (i + 290) 2;
  let i := (320*2)%nat in
  do toe2 <- getbitu2 b (i + 42) 10 (i + 60) 5;
  do i0 <- getbits2 b (i + 65) 17 (i + 90) 15;
  do cic <- getbits2 b (i + 105) 7 (i + 120) 11;
  do OMGd <- getbits2 b (i + 131) 11 (i + 150) 13;
  do cis <- getbits2 b (i + 163) 9 (i + 180) 9;
  do idot <- getbits2 b (i + 189) 13 (i + 210) 1;
  do OMG0 <- getbits2 b (i + 211) 21 (i + 240) 11;
  do omg <- getbits2 b (i + 251) 11 (i + 270) 21;
  do sva <- urai2sva urai;
  let toes := (Z.shiftl toe1 15 + toe2) * 8 in
  let wk := d_week week toes sow1 in
  Some (Some [ (Fsat, I sat); (Fsvh, I svh); (Fiodc, I iodc); (Fweek, I wk); (Ftgd, D tgd 10); (Ftgdb, D tgd_b 10);
    (Faf2, V af2 66); (Faf0, V af0 33); (Faf1, V af1 50); (Fiode, I iode); (Fdeln, Sc deln 43); (Fcuc, V cuc 31); (FM0, Sc M0 31);
    (Fe, V e 33); (Fcus, V cus 31); (Fcrc, V crc 6); (Fcrs, V crs 6); (FA, V (sqrtA * sqrtA) 38); (Fi0, Sc i0 31); (Fcic, V cic 31);
    (FOMGd, Sc OMGd 43); (Fcis, V cis 31); (Fidot, Sc idot 43); (FOMG0, Sc OMG0 31); (Fomg, Sc omg 31); (Fsva, H (Some sva));
    (Ftoes, I toes); (Ftot, T (bdt2gpst 1 (bdt2time 1 week sow1))); (Ftoc, T (bdt2time 1 wk (toc * 8)));
    (Ftoe, T (bdt2time 1 wk toes)); (Fflag, I 1); (Fmode, I 0)]).
(** 1074-1089, then [d1_eph] *)
Definition decode_bds_d1 (sat : Z) (msg : bits) (d : dict Z bits) : option (dict Z bits * option eph) :=
  let '(sys, prn) := sat2prn sat in
  do pre <- getu msg 0 11; do sid <- getu msg 15 3; do sow1 <- getu msg 18 8;
  if negb (pre =? 1810) then Some (d, None) else
  if sid >? 3 then Some (d, None) else
  do buff <- zget (prn - 1) d;
  let b := setslice buff ((sid - 1) * 40) ((sid - 1) * 40 + 40) (head 40 msg) in
  do r <- d1_eph sat b; Some (zset (prn - 1) b d, r).

(* ---------- BDS D2 ---------- *)
(** 1183-1196: the loop over the pages from index [k], [sow] = sow_; inner [None] = return None.
    The comparison at 1192 has no effect *)
Fixpoint d2_pages (b : bits) (n k : nat) (sow : list Z) : option (option (list Z)) :=
  match n with
  | O => Some (Some sow)
  | S n =>
    if (k =? 1)%nat then d2_pages b n (k + 1) sow else
    do page <- getu b (160 * k + 42) 4;
    if negb (page =? Z.of_nat k + 1) then Some None else
    do t <- getbitu2 b (160 * k + 18) 8 (160 * k + 30) 12;
    let sow := upd k (fun _ => t) sow in
    if (0 <? k)%nat && negb (k =? 2)%nat && negb (t =? nth (k - 1) sow 0 + 3) then Some None
    else d2_pages b n (k + 1) sow
  end.
(** 1198-1281, from the buffer, [sow] = sow_[0] *)
Definition d2_eph (sat sow : Z) (b : bits) : option (option eph) :=
  do svh <- getu b 46 1; do iodc <- getu b 47 5;
  do urai <- getu b 60 4; do week <- getu b 64 13;
  do toc <- getbitu2 b 77 5 90 12;
  do tgd <- gets b 102 10; do tgd_b <- gets b 120 10;
  let i := (160*2)%nat in
  do af0 <- getbits2 b (i + 100) 12 (i + 120) 12; do f1p3 <- gets b (i + 132) 4;
  let i := (160*3)%nat in
  do f1p4 <- getbitu2 b (i + 46) 6 (i + 60) 12; do af2 <- getbits2 b (i + 72) 10 (i + 90) 1; do iode <- getu b (i + 91) 5;
  do deln <- gets b (i + 96) 16; do cucp4 <- gets b (i + 120) 14;
  let i := (160*4)%nat in
  do cucp5 <- getu b (i + 46) 4; do M0 <- getbits3 b (i + 50) 2 (i + 60) 12 (i + 90) 8;
  do cus <- getbits2 b (i + 98) 14 (i + 120) 4; do ep5 <- gets b (i + 124) 10;
  let i := (160*5)%nat in
  do ep6 <- getbitu2 b (i + 46) 6 (i + 60) 16; do sqrtA <- getbitu3 b (i + 76) 6 (i + 90) 22 120 4; do cicp6 <- gets b (i + 124) 10;
  let i := (160*6)%nat in
  do cicp7 <- getbitu2 b (i + 46) 6 (i + 60) 2; do cis <- gets b (i + 62) 18; do toe <- getbitu2 b (i + 80) 2 (i + 90) 15;
  do i0p7 <- getbits2 b (i + 105) 7 (i + 120) 14;
  let i := (160*7)%nat in
  do i0p8 <- getbitu2 b (i + 46) 6 (i + 60) 5; do crc <- getbits2 b (i + 65) 17 (i + 90) 1; do crs <- gets b (i + 91) 18;
  do OMGdp8 <- getbits2 b (i + 109) 3 (i + 120) 16;
  let i := (160*8)%nat in
  do OMGdp9 <- getu b (i + 46) 5; do OMG0 <- getbits3 b (i + 51) 1 (i + 60) 22 (i + 90) 9; do omgp9 <- getbits2 b (i + 99) 13 (i + 120) 14;
  let i := (160*9)%nat in
  do omgp10 <- getu b (i + 46) 5; do idot <- getbits2 b (i + 51) 1 (i + 60) 13;
  do sva <- urai2sva urai;
  let toes := toe * 8 in
  let wk := d_week week toes sow in
  Some (Some [ (Fsat, I sat); (Fsvh, I svh); (Fiodc, I iodc); (Fweek, I wk); (Ftgd, D tgd 10); (Ftgdb, D tgd_b 10); (Faf0, V af0 33);
    (Faf2, V af2 66); (Fiode, I iode); (Fdeln, Sc deln 43); (FM0, Sc M0 31); (Fcus, V cus 31); (FA, V (sqrtA * sqrtA) 38);
    (Fcis, V cis 31); (Ftoes, I toes); (Fcrc, V crc 6); (Fcrs, V crs 6); (FOMG0, Sc OMG0 31); (Fidot, Sc idot 43); (Fsva, H (Some sva));
    (Faf1, V (Z.shiftl f1p3 18 + f1p4) 50); (Fcuc, V (Z.shiftl cucp4 4 + cucp5) 31); (Fe, V (Z.shiftl ep5 22 + ep6) 33);
    (Fcic, V (Z.shiftl cicp6 8 + cicp7) 31); (Fi0, Sc (Z.shiftl i0p7 11 + i0p8) 31); (FOMGd, Sc (Z.shiftl OMGdp8 5 + OMGdp9) 43);
    (Fomg, Sc (Z.shiftl omgp9 5 + omgp10) 31); (Ftot, T (bdt2gpst 1 (bdt2time 1 week sow))); (Ftoc, T (bdt2time 1 wk (toc * 8)));
    (Ftoe, T (bdt2time 1 wk toes)); (Fflag, I 2); (Fmode, I 0)]).
(** 1164-1180, then the pages and [d2_eph] *)
Definition decode_bds_d2 (sat : Z) (msg : bits) (d : dict Z bits) : option (dict Z bits * option eph) :=
  let '(sys, prn) := sat2prn sat in
  do pre <- getu msg 0 11; do frame <- getu msg 15 3; do page <- getu msg 42 4;
  if negb (pre =? 1810) then Some (d, None) else
  if negb ((frame =? 1) && ((page >=? 1) && (page <=? 10))) then Some (d, None) else
  do buff <- zget (prn - 1) d;
  let b := setslice buff ((page - 1) * 20) ((page - 1) * 20 + 20) (head 20 msg) in
  do c <- d2_pages b 10 0 (repeat 0 10%nat);
  match c with
  | None => Some (zset (prn - 1) b d, None)
  | Some sow => do r <- d2_eph sat (nth 0 sow 0) b; Some (zset (prn - 1) b d, r)
  end.
