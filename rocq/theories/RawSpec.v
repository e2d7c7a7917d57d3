(** What the broadcast navigation frames mean, independently of the decoders.
    A frame is the list of its fields (width, value); a value is sent as its lowest [width] bits, most
    significant first (two's complement for negative values).  A field split in two parts is listed as
    its high part [v / 2^k] and its low [k] bits. *)
From Verif Require Import SatModel TimeModel TimeSpec RawModel.
From Verif Require Export Base FieldSpec.
Notation length := List.length.
Open Scope Z_scope.

(** seconds since 1970 of week and second of week from a first day *)
Definition at_week (d0 week tow : Z) : gtime := GT (86400 * d0 + 604800 * week + tow) 0.
Definition gps0 := day_number 1980 1 6.
Definition gal0 := day_number 1999 8 22.
Definition bds0 := day_number 2006 1 1.
(** the week in which a second of week lies nearest to a time of transmission *)
Definition near_week (week t tow : Z) : Z :=
  if t - tow <? - 302400 then week + 1 else if t - tow >? 302400 then week - 1 else week.

(* ---------- Galileo I/NAV ---------- *)
Inductive gword :=
| W1 (iod toe M0 e sqrtA spare : Z)
| W2 (iod OMG0 i0 omg idot spare : Z)
| W3 (iod OMGd deln cuc cus crc crs sisa : Z)
| W4 (iod svid cic cis toc af0 af1 af2 spare : Z)
| W5 (ai0 ai1 ai2 reg bgda bgdb e5bhs e1bhs e5bdvs e1bdvs wn tow spare : Z)
| Wx (sid body : Z).
Definition wtype (w : gword) : Z :=
  match w with W1 _ _ _ _ _ _ => 1 | W2 _ _ _ _ _ _ => 2 | W3 _ _ _ _ _ _ _ _ => 3 | W4 _ _ _ _ _ _ _ _ _ => 4
             | W5 _ _ _ _ _ _ _ _ _ _ _ _ _ => 5 | Wx s _ => s end.
Definition word_fields (w : gword) : list field :=
  match w with
  | W1 iod toe M0 e sqrtA sp => [(6 # 1); (10 # iod); (14 # toe); (32 # M0); (32 # e); (32 # sqrtA); (2 # sp)]
  | W2 iod OMG0 i0 omg idot sp => [(6 # 2); (10 # iod); (32 # OMG0); (32 # i0); (32 # omg); (14 # idot); (2 # sp)]
  | W3 iod OMGd deln cuc cus crc crs sisa =>
      [(6 # 3); (10 # iod); (24 # OMGd); (16 # deln); (16 # cuc); (16 # cus); (16 # crc); (16 # crs); (8 # sisa)]
  | W4 iod svid cic cis toc af0 af1 af2 sp =>
      [(6 # 4); (10 # iod); (6 # svid); (16 # cic); (16 # cis); (14 # toc); (31 # af0); (21 # af1); (6 # af2); (2 # sp)]
  | W5 ai0 ai1 ai2 reg bgda bgdb e5bhs e1bhs e5bdvs e1bdvs wn tow sp =>
      [(6 # 5); (11 # ai0); (11 # ai1); (14 # ai2); (5 # reg); (10 # bgda); (10 # bgdb); (2 # e5bhs); (2 # e1bhs); (1 # e5bdvs); (1 # e1bdvs);
       (12 # wn); (20 # tow); (23 # sp)]
  | Wx s body => [(6 # s); (122 # body)]
  end.
Definition word_ok (w : gword) : Prop :=
  match w with
  | W1 iod toe M0 e sqrtA sp => U 10 iod /\ U 14 toe /\ S_ 32 M0 /\ U 32 e /\ U 32 sqrtA
  | W2 iod OMG0 i0 omg idot sp => U 10 iod /\ S_ 32 OMG0 /\ S_ 32 i0 /\ S_ 32 omg /\ S_ 14 idot
  | W3 iod OMGd deln cuc cus crc crs sisa =>
      U 10 iod /\ S_ 24 OMGd /\ S_ 16 deln /\ S_ 16 cuc /\ S_ 16 cus /\ S_ 16 crc /\ S_ 16 crs /\ U 8 sisa
  | W4 iod svid cic cis toc af0 af1 af2 sp =>
      U 10 iod /\ U 6 svid /\ S_ 16 cic /\ S_ 16 cis /\ U 14 toc /\ S_ 31 af0 /\ S_ 21 af1 /\ S_ 6 af2
  | W5 ai0 ai1 ai2 reg bgda bgdb e5bhs e1bhs e5bdvs e1bdvs wn tow sp =>
      S_ 10 bgda /\ S_ 10 bgdb /\ U 2 e5bhs /\ U 2 e1bhs /\ U 1 e5bdvs /\ U 1 e1bdvs /\ U 12 wn /\ U 20 tow
  | Wx s body => s = 0 \/ 6 <= s < 64
  end.
(** a nominal page: even/odd and page type bits, 112 data bits, 6 tail bits with the next two flag bits,
    16 data bits, anything *)
Record gpage := GP { g_prn : Z; g_word : gword; g_flags : Z; g_mid : Z; g_rest : bits }.
Definition page_bits (p : gpage) : bits :=
  bitsof 2 (g_flags p) ++ firstn 112 (enc (word_fields (g_word p))) ++ bitsof 8 (g_mid p)
  ++ skipn 112 (enc (word_fields (g_word p))) ++ g_rest p.
Definition page_ok (p : gpage) : Prop := 1 <= g_prn p <= 36 /\ word_ok (g_word p).

(** signal-in-space accuracy in centimetres *)
Definition sisa_cm (s : Z) : option Z :=
  if s <=? 49 then Some s else if s <=? 74 then Some (50 + 2 * (s - 50)) else if s <=? 99 then Some (100 + 4 * (s - 75))
  else if s <=? 125 then Some (200 + 16 * (s - 100)) else if s =? 255 then Some (-100) else None.
(** the clock and health attributes common to both Galileo messages *)
Definition gal_attr (sat wn tow iod toe toc M0 e sqrtA OMG0 i0 omg idot OMGd deln cuc cus crc crs cic cis af0 af1 af2 sisa
                     code tgd svh mode : Z) (tgdb : val) : eph :=
  let w := near_week wn (60 * toc) tow in
  [ (Fsat, I sat); (Fweek, I (wn + 1024));
    (FM0, Sc M0 31); (Fdeln, Sc deln 43); (Fe, V e 33); (FA, V (sqrtA * sqrtA) 38);
    (FOMG0, Sc OMG0 31); (Fi0, Sc i0 31); (Fomg, Sc omg 31); (FOMGd, Sc OMGd 43); (Fidot, Sc idot 43);
    (Fcuc, V cuc 29); (Fcus, V cus 29); (Fcrc, V crc 5); (Fcrs, V crs 5); (Fcic, V cic 29); (Fcis, V cis 29);
    (Ftoes, I (60 * toe)); (Faf0, V af0 34); (Faf1, V af1 46); (Faf2, V af2 59); (Fiode, I iod); (Fiodc, I iod);
    (Fsva, H (sisa_cm sisa)); (Fcode, I code);
    (Ftot, T (at_week gal0 wn tow)); (Ftoe, T (at_week gal0 w (60 * toe))); (Ftoc, T (at_week gal0 w (60 * toc)));
    (Ftgd, V tgd 32); (Ftgdb, tgdb); (Fsvh, I svh); (Fmode, I mode)].
(** data source code of type_ 0 (E1-B), 1, 2 (E5b) *)
Definition inav_code (type_ : Z) : Z :=
  if type_ =? 0 then 513 else if type_ =? 1 then 258 else if type_ =? 2 then 516 else 0.
(** the ephemeris of five words; [None]: not the five words, or not of one issue *)
Definition inav_of (sat type_ : Z) (w : option gword * option gword * option gword * option gword * option gword) : option eph :=
  match w with
  | (Some (W1 iod toe M0 e sqrtA _), Some (W2 iod2 OMG0 i0 omg idot _), Some (W3 iod3 OMGd deln cuc cus crc crs sisa),
     Some (W4 iod4 _ cic cis toc af0 af1 af2 _), Some (W5 _ _ _ _ bgda bgdb e5bhs e1bhs e5bdvs e1bdvs wn tow _)) =>
      if (iod =? iod2) && (iod =? iod3) && (iod =? iod4) then
        Some (gal_attr sat wn tow iod toe toc M0 e sqrtA OMG0 i0 omg idot OMGd deln cuc cus crc crs cic cis af0 af1 af2 sisa
                (inav_code type_) bgda (128 * e5bhs + 64 * e5bdvs + 2 * e1bhs + e1bdvs) 0 (V bgdb 32))
      else None
  | _ => None
  end.

(* ---------- Galileo F/NAV ---------- *)
Inductive fpage :=
| F1 (svid iod toc af0 af1 af2 sisa ai0 ai1 ai2 reg bgda e5ahs wn tow e5advs spare : Z)
| F2 (iod M0 OMGd e sqrtA OMG0 idot wn tow spare : Z)
| F3 (iod i0 omg deln cuc cus crc crs toe wn tow spare : Z)
| F4 (iod cic cis body : Z)
| Fx (sid body : Z).
Definition ftype (p : fpage) : Z :=
  match p with F1 _ _ _ _ _ _ _ _ _ _ _ _ _ _ _ _ _ => 1 | F2 _ _ _ _ _ _ _ _ _ _ => 2
    | F3 _ _ _ _ _ _ _ _ _ _ _ _ => 3 | F4 _ _ _ _ => 4 | Fx s _ => s end.
Definition fpage_fields (p : fpage) : list field :=
  match p with
  | F1 svid iod toc af0 af1 af2 sisa ai0 ai1 ai2 reg bgda e5ahs wn tow e5advs sp =>
      [(6 # 1); (6 # svid); (10 # iod); (14 # toc); (31 # af0); (21 # af1); (6 # af2); (8 # sisa); (11 # ai0); (11 # ai1); (14 # ai2);
       (5 # reg); (10 # bgda); (2 # e5ahs); (12 # wn); (20 # tow); (1 # e5advs); (60 # sp)]
  | F2 iod M0 OMGd e sqrtA OMG0 idot wn tow sp =>
      [(6 # 2); (10 # iod); (32 # M0); (24 # OMGd); (32 # e); (32 # sqrtA); (32 # OMG0); (14 # idot); (12 # wn); (20 # tow); (34 # sp)]
  | F3 iod i0 omg deln cuc cus crc crs toe wn tow sp =>
      [(6 # 3); (10 # iod); (32 # i0); (32 # omg); (16 # deln); (16 # cuc); (16 # cus); (16 # crc); (16 # crs); (14 # toe); (12 # wn); (20 # tow); (42 # sp)]
  | F4 iod cic cis body => [(6 # 4); (10 # iod); (16 # cic); (16 # cis); (200 # body)]
  | Fx s body => [(6 # s); (242 # body)]
  end.
Definition fpage_ok (p : fpage) : Prop :=
  match p with
  | F1 svid iod toc af0 af1 af2 sisa ai0 ai1 ai2 reg bgda e5ahs wn tow e5advs sp =>
      U 6 svid /\ U 10 iod /\ U 14 toc /\ S_ 31 af0 /\ S_ 21 af1 /\ S_ 6 af2 /\ U 8 sisa /\ S_ 10 bgda /\ U 2 e5ahs /\ U 12 wn /\ U 20 tow /\ U 1 e5advs
  | F2 iod M0 OMGd e sqrtA OMG0 idot wn tow sp =>
      U 10 iod /\ S_ 32 M0 /\ S_ 24 OMGd /\ U 32 e /\ U 32 sqrtA /\ S_ 32 OMG0 /\ S_ 14 idot
  | F3 iod i0 omg deln cuc cus crc crs toe wn tow sp =>
      U 10 iod /\ S_ 32 i0 /\ S_ 32 omg /\ S_ 16 deln /\ S_ 16 cuc /\ S_ 16 cus /\ S_ 16 crc /\ S_ 16 crs /\ U 14 toe
  | F4 iod cic cis body => U 10 iod /\ S_ 16 cic /\ S_ 16 cis
  | Fx s body => s = 0 \/ 5 <= s < 64
  end.
Definition fnav_of (sat : Z) (w : option fpage * option fpage * option fpage * option fpage) : option eph :=
  match w with
  | (Some (F1 svid iod toc af0 af1 af2 sisa _ _ _ _ bgda e5ahs wn tow e5advs _), Some (F2 iod2 M0 OMGd e sqrtA OMG0 idot _ _ _),
     Some (F3 iod3 i0 omg deln cuc cus crc crs toe _ _ _), Some (F4 iod4 cic cis _)) =>
      if (iod =? iod2) && (iod =? iod3) && (iod =? iod4) then
        Some (gal_attr sat wn tow iod toe toc M0 e sqrtA OMG0 i0 omg idot OMGd deln cuc cus crc crs cic cis af0 af1 af2 sisa
                258 bgda (16 * e5ahs + 8 * e5advs) 1 (V 0 0))
      else None
  | _ => None
  end.

(* ---------- GPS/QZSS LNAV ---------- *)
(** ten words of 24 data bits, each sent after two filling bits and before six parity bits *)
Inductive sbody :=
| B1 (wn code ura svh iodc l2p r4 r5 r6 r7 tgd toc af2 af1 af0 t10 : Z)
| B2 (iode crs deln M0 cuc e cus sqrtA toe fit aodo t10 : Z)
| B3 (cic OMG0 cis i0 crc omg OMGd iode idot t10 : Z)
| Bx (id : Z) (w3 w4 w5 w6 w7 w8 w9 w10 : Z).
Record sframe := SF { s_tlm : Z; s_tow : Z; s_alert : Z; s_as : Z; s_t2 : Z; s_body : sbody; s_fill : list Z; s_par : list Z }.
Definition sid (b : sbody) : Z :=
  match b with B1 _ _ _ _ _ _ _ _ _ _ _ _ _ _ _ _ => 1 | B2 _ _ _ _ _ _ _ _ _ _ _ _ => 2 | B3 _ _ _ _ _ _ _ _ _ _ => 3
             | Bx i _ _ _ _ _ _ _ _ => i end.
Definition body_words (b : sbody) : list (list field) :=
  match b with
  | B1 wn code ura svh iodc l2p r4 r5 r6 r7 tgd toc af2 af1 af0 t10 =>
      [ [(10 # wn); (2 # code); (4 # ura); (6 # svh); (2 # iodc / 2 ^ 8)]; [(1 # l2p); (23 # r4)]; [(24 # r5)]; [(24 # r6)];
        [(16 # r7); (8 # tgd)]; [(8 # iodc); (16 # toc)]; [(8 # af2); (16 # af1)]; [(22 # af0); (2 # t10)] ]
  | B2 iode crs deln M0 cuc e cus sqrtA toe fit aodo t10 =>
      [ [(8 # iode); (16 # crs)]; [(16 # deln); (8 # M0 / 2 ^ 24)]; [(24 # M0)]; [(16 # cuc); (8 # e / 2 ^ 24)]; [(24 # e)];
        [(16 # cus); (8 # sqrtA / 2 ^ 24)]; [(24 # sqrtA)]; [(16 # toe); (1 # fit); (5 # aodo); (2 # t10)] ]
  | B3 cic OMG0 cis i0 crc omg OMGd iode idot t10 =>
      [ [(16 # cic); (8 # OMG0 / 2 ^ 24)]; [(24 # OMG0)]; [(16 # cis); (8 # i0 / 2 ^ 24)]; [(24 # i0)]; [(16 # crc); (8 # omg / 2 ^ 24)];
        [(24 # omg)]; [(24 # OMGd)]; [(8 # iode); (14 # idot); (2 # t10)] ]
  | Bx _ w3 w4 w5 w6 w7 w8 w9 w10 => [ [(24 # w3)]; [(24 # w4)]; [(24 # w5)]; [(24 # w6)]; [(24 # w7)]; [(24 # w8)]; [(24 # w9)]; [(24 # w10)] ]
  end.
Definition sframe_words (f : sframe) : list (list field) :=
  ([(8 # 139); (16 # s_tlm f)] :: [(17 # s_tow f); (1 # s_alert f); (1 # s_as f); (3 # sid (s_body f)); (2 # s_t2 f)] :: body_words (s_body f)).
(** word [k] with its filling and parity bits *)
Fixpoint framed (fill par : list Z) (ws : list (list field)) : list field :=
  match ws with
  | [] => []
  | w :: r => (2 # hd 0 fill) :: w ++ [(6 # hd 0 par)] ++ framed (tl fill) (tl par) r
  end.
Definition sframe_fields (f : sframe) : list field := framed (s_fill f) (s_par f) (sframe_words f).
Definition sbody_ok (b : sbody) : Prop :=
  match b with
  | B1 wn code ura svh iodc l2p r4 r5 r6 r7 tgd toc af2 af1 af0 t10 =>
      U 10 wn /\ U 2 code /\ U 4 ura /\ U 6 svh /\ U 10 iodc /\ U 1 l2p /\ S_ 8 tgd /\ U 16 toc /\ S_ 8 af2 /\ S_ 16 af1 /\ S_ 22 af0
  | B2 iode crs deln M0 cuc e cus sqrtA toe fit aodo t10 =>
      U 8 iode /\ S_ 16 crs /\ S_ 16 deln /\ S_ 32 M0 /\ S_ 16 cuc /\ U 32 e /\ S_ 16 cus /\ U 32 sqrtA /\ U 16 toe
  | B3 cic OMG0 cis i0 crc omg OMGd iode idot t10 =>
      S_ 16 cic /\ S_ 32 OMG0 /\ S_ 16 cis /\ S_ 32 i0 /\ S_ 16 crc /\ S_ 32 omg /\ S_ 24 OMGd /\ U 8 iode /\ S_ 14 idot
  | Bx i _ _ _ _ _ _ _ _ => i = 0 \/ 4 <= i < 8
  end.
Definition sframe_ok (f : sframe) : Prop := U 17 (s_tow f) /\ sbody_ok (s_body f).
Definition ura_cm : list Z := [200; 280; 400; 570; 800; 1130; 1600; 3200; 6400; 12800; 25600; 51200; 102400; 204800; 409600; 819200].
(** the ephemeris of subframes 1, 2 and 3; [ecc] and [tot] are the eccentricity mantissa and the time of
    transmission reported.  [week]: the full week number from the receiver, supplying the multiples of 1024 *)
Definition lnav_of (week sat : Z) (ecc : Z -> Z) (tot : Z -> Z -> gtime) (f : option sframe * option sframe * option sframe) : option eph :=
  match f with
  | (Some f1, Some f2, Some f3) =>
    match s_body f1, s_body f2, s_body f3 with
    | B1 wn code ura svh iodc l2p _ _ _ _ tgd toc af2 af1 af0 _, B2 iode crs deln M0 cuc e cus sqrtA toe _ _ _,
      B3 cic OMG0 cis i0 crc omg OMGd iode3 idot _ =>
        if (iode =? iode3) && (iode =? iodc mod 256) then
          let tow := 6 * s_tow f1 in
          let wk := 1024 * (week / 1024) + wn in
          let w := near_week wk (16 * toc) tow in
          Some [ (Fsat, I sat); (Fweek, I w); (Fl2p, I l2p); (Fcode, I code); (Fsvh, I svh); (Fsva, H (nth_error ura_cm (Z.to_nat ura)));
            (Ftgd, V tgd 31); (Fiodc, I iodc); (Faf2, V af2 55); (Faf1, V af1 43); (Faf0, V af0 31); (Fiode, I iode); (Fcrs, V crs 5);
            (Fdeln, Sc deln 43); (FM0, Sc M0 31); (Fcuc, V cuc 29); (Fe, V (ecc e) 33); (Fcus, V cus 29); (FA, V (sqrtA * sqrtA) 38);
            (Ftoes, I (16 * toe)); (Fcic, V cic 29); (FOMG0, Sc OMG0 31); (Fcis, V cis 29); (Fi0, Sc i0 31); (Fcrc, V crc 5);
            (Fomg, Sc omg 31); (FOMGd, Sc OMGd 43); (Fidot, Sc idot 43); (Fmode, I 0);
            (Ftot, T (tot wk tow)); (Ftoc, T (at_week gps0 w (16 * toc))); (Ftoe, T (at_week gps0 w (16 * toe)))]
        else None
    | _, _, _ => None
    end
  | _ => None
  end.

(* ---------- histories ---------- *)
(** what is received: an I/NAV page (with its source), an F/NAV page, an LNAV subframe (with the receiver's
    week), each from a satellite *)
Inductive rx :=
| RInav (type_ : Z) (p : gpage)
| RFnav (prn : Z) (p : fpage) (rest : bits)
| RLnav (week : Z) (sys : gnss) (prn : Z) (f : sframe) (rest : bits).
Definition rx_ok (e : rx) : Prop :=
  match e with
  | RInav _ p => page_ok p
  | RFnav prn p _ => 1 <= prn <= 36 /\ fpage_ok p
  | RLnav _ sys prn f _ => (sys = GPS /\ 1 <= prn <= 32 \/ sys = QZS /\ 193 <= prn <= 209) /\ sframe_ok f
  end.
Definition feed (e : rx) (s : rawst) : option (rawst * option eph) :=
  match e with
  | RInav t p => decode_gal_inav (prn2sat GAL (g_prn p)) t (page_bits p) s
  | RFnav prn p rest => decode_gal_fnav (prn2sat GAL prn) (enc (fpage_fields p) ++ rest) s
  | RLnav week sys prn f rest => decode_gps_lnav week (prn2sat sys prn) (enc (sframe_fields f) ++ rest) s
  end.
Definition feeds (h : list rx) (s : rawst) : option rawst :=
  mfold (fun e s => do r <- feed e s; Some (fst r)) h s.
(** the last one received that is wanted *)
Fixpoint latest {A} (want : rx -> option A) (h : list rx) : option A :=
  match h with
  | [] => None
  | e :: r => match latest want r with Some a => Some a | None => want e end
  end.
Definition inav_word (prn k : Z) (e : rx) : option gword :=
  match e with RInav _ p => if (g_prn p =? prn) && (wtype (g_word p) =? k) then Some (g_word p) else None | _ => None end.
Definition fnav_page (prn k : Z) (e : rx) : option fpage :=
  match e with RFnav q p _ => if (q =? prn) && (ftype p =? k) then Some p else None | _ => None end.
Definition lnav_frame (sys : gnss) (prn k : Z) (e : rx) : option sframe :=
  match e with RLnav _ s q f _ => if gnss_eqb s sys && (q =? prn) && (sid (s_body f) =? k) then Some f else None | _ => None end.
