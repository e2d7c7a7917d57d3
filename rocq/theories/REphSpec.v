(** What RTCM ephemeris and station messages say. *)
From Verif Require Import CssrState.
From Verif Require Export TimeModel TimeSpec FieldSpec NavSpec GloSpec REphModel.
Open Scope Z_scope.

(* ---------- orbit and clock ---------- *)
Record kep := KP { y_deln : Z; y_M0 : Z; y_e : Z; y_sA : Z; y_OMG0 : Z; y_i0 : Z; y_omg : Z; y_OMGd : Z; y_idot : Z; y_crs : Z; y_crc : Z;
  y_cus : Z; y_cuc : Z; y_cis : Z; y_cic : Z; y_toe : Z; y_toc : Z; y_af0 : Z; y_af1 : Z; y_af2 : Z }.
(** widths of the mean motion difference, harmonics, node rate, times and clock terms *)
Definition kep_ok (dl c od t f0 f1 f2 : Z) (k : kep) : Prop :=
  (S_ dl (y_deln k) /\ S_ 32 (y_M0 k) /\ U 32 (y_e k) /\ U 32 (y_sA k) /\ S_ 32 (y_OMG0 k) /\ S_ 32 (y_i0 k) /\ S_ 32 (y_omg k) /\ S_ od (y_OMGd k) /\ S_ 14 (y_idot k)) /\
  (S_ c (y_crs k) /\ S_ c (y_crc k) /\ S_ c (y_cus k) /\ S_ c (y_cuc k) /\ S_ c (y_cis k) /\ S_ c (y_cic k)) /\
  (U t (y_toe k) /\ U t (y_toc k) /\ S_ f0 (y_af0 k) /\ S_ f1 (y_af1 k) /\ S_ f2 (y_af2 k)).
(** binary places of the mean motion difference, node rate, radius and angle harmonics, clock terms; seconds per unit of time.
    [at_]: the epoch of a time of week; [now]: the receiver's time *)
Definition kep_of (dl od r c f0 f1 f2 unit week : Z) (at_ : Z -> gtime) (now : Z) (k : kep) : eph :=
  [ (Fdeln, Sc (y_deln k) dl); (FM0, Sc (y_M0 k) 31); (Fe, V (y_e k) 33); (FA, V (y_sA k * y_sA k) 38); (FOMG0, Sc (y_OMG0 k) 31); (Fi0, Sc (y_i0 k) 31);
    (Fomg, Sc (y_omg k) 31); (FOMGd, Sc (y_OMGd k) od); (Fidot, Sc (y_idot k) 43); (Fcrs, V (y_crs k) r); (Fcrc, V (y_crc k) r);
    (Fcus, V (y_cus k) c); (Fcuc, V (y_cuc k) c); (Fcis, V (y_cis k) c); (Fcic, V (y_cic k) c);
    (Ftoes, I (unit * y_toe k)); (Ftoe, T (at_ (unit * y_toe k))); (Ftoc, T (at_ (unit * y_toc k))); (Ftot, T (GT now 0));
    (Faf0, V (y_af0 k) f0); (Faf1, V (y_af1 k) f1); (Faf2, V (y_af2 k) f2); (Fweek, I week)].
(** the GPS week of a time *)
Definition week_of (t : Z) : Z := (t - 86400 * gps0) / 604800.

(* ---------- GPS 1019 ---------- *)
Record rgps := RG { g_prn : Z; g_week : Z; g_ura : Z; g_code : Z; g_iode : Z; g_iodc : Z; g_tgd : Z; g_svh : Z; g_l2p : Z; g_fit : Z; g_kep : kep }.
Definition rgps_fields (f : rgps) : list field := let k := g_kep f in
  [(6 # g_prn f); (10 # g_week f mod 1024); (4 # g_ura f); (2 # g_code f); (14 # y_idot k); (8 # g_iode f); (16 # y_toc k); (8 # y_af2 k); (16 # y_af1 k); (22 # y_af0 k);
   (10 # g_iodc f); (16 # y_crs k); (16 # y_deln k); (32 # y_M0 k); (16 # y_cuc k); (32 # y_e k); (16 # y_cus k); (32 # y_sA k); (16 # y_toe k); (16 # y_cic k);
   (32 # y_OMG0 k); (16 # y_cis k); (32 # y_i0 k); (16 # y_crc k); (32 # y_omg k); (24 # y_OMGd k); (8 # g_tgd f); (6 # g_svh f); (1 # g_l2p f); (1 # g_fit f)].
Definition rgps_ok (f : rgps) : Prop :=
  (1 <= g_prn f <= 32 /\ U 4 (g_ura f) /\ U 2 (g_code f) /\ U 8 (g_iode f) /\ U 10 (g_iodc f) /\ S_ 8 (g_tgd f) /\ U 6 (g_svh f) /\ U 1 (g_l2p f) /\ U 1 (g_fit f)) /\
  kep_ok 16 16 24 16 22 16 8 (g_kep f).
Definition rgps_of (now : Z) (f : rgps) : rout :=
  OEph (kep_of 43 43 5 29 31 43 55 16 (g_week f) (at_week gps0 (g_week f)) now (g_kep f) ++
    [(Fsat, I (prn2sat GPS (g_prn f))); (Fsva, I (g_ura f)); (Fcode, I (g_code f)); (Fiode, I (g_iode f)); (Fiodc, I (g_iodc f)); (Ftgd, V (g_tgd f) 31);
     (Fsvh, I (g_svh f)); (Fflag, I (g_l2p f)); (Fmode, I 0)]) (Some (g_fit f)).

(* ---------- QZSS 1044 ---------- *)
Definition rqzs_fields (f : rgps) : list field := let k := g_kep f in
  [(4 # g_prn f - 192); (16 # y_toc k); (8 # y_af2 k); (16 # y_af1 k); (22 # y_af0 k); (8 # g_iode f); (16 # y_crs k); (16 # y_deln k); (32 # y_M0 k); (16 # y_cuc k);
   (32 # y_e k); (16 # y_cus k); (32 # y_sA k); (16 # y_toe k); (16 # y_cic k); (32 # y_OMG0 k); (16 # y_cis k); (32 # y_i0 k); (16 # y_crc k); (32 # y_omg k);
   (24 # y_OMGd k); (14 # y_idot k); (2 # g_code f); (10 # g_week f mod 1024); (4 # g_ura f); (6 # g_svh f); (8 # g_tgd f); (10 # g_iodc f); (1 # g_fit f)].
Definition rqzs_ok (f : rgps) : Prop :=
  (193 <= g_prn f <= 202 /\ U 4 (g_ura f) /\ U 2 (g_code f) /\ U 8 (g_iode f) /\ U 10 (g_iodc f) /\ S_ 8 (g_tgd f) /\ U 6 (g_svh f) /\ U 1 (g_fit f)) /\
  kep_ok 16 16 24 16 22 16 8 (g_kep f).
Definition rqzs_of (now : Z) (f : rgps) : rout :=
  OEph (kep_of 43 43 5 29 31 43 55 16 (g_week f) (at_week gps0 (g_week f)) now (g_kep f) ++
    [(Fsat, I (prn2sat QZS (g_prn f))); (Fsva, I (g_ura f)); (Fcode, I (g_code f)); (Fiode, I (g_iode f)); (Fiodc, I (g_iodc f)); (Ftgd, V (g_tgd f) 31);
     (Fsvh, I (g_svh f)); (Fflag, I 1); (Fmode, I 0)]) (Some (g_fit f)).

(* ---------- Galileo 1045 (F/NAV), 1046 (I/NAV) ---------- *)
(** signal health and data validity: E5a; or E5b, then E1 *)
Inductive gstat := FN (hs dvs : Z) | IN (bgd2 hs5 dvs5 hs1 dvs1 : Z).
Record rgal := RL { l_prn : Z; l_week : Z; l_iod : Z; l_sisa : Z; l_bgd : Z; l_stat : gstat; l_kep : kep }.
(** [l_week]: the GPS week; Galileo weeks begin 1024 weeks later *)
Definition rgal_fields (f : rgal) : list field := let k := l_kep f in
  [(6 # l_prn f); (12 # (l_week f - 1024) mod 4096); (10 # l_iod f); (8 # l_sisa f); (14 # y_idot k); (14 # y_toc k); (6 # y_af2 k); (21 # y_af1 k); (31 # y_af0 k);
   (16 # y_crs k); (16 # y_deln k); (32 # y_M0 k); (16 # y_cuc k); (32 # y_e k); (16 # y_cus k); (32 # y_sA k); (14 # y_toe k); (16 # y_cic k);
   (32 # y_OMG0 k); (16 # y_cis k); (32 # y_i0 k); (16 # y_crc k); (32 # y_omg k); (24 # y_OMGd k); (10 # l_bgd f)] ++
  match l_stat f with FN hs dvs => [(2 # hs); (1 # dvs); (7 # 0)] | IN b2 h5 d5 h1 d1 => [(10 # b2); (2 # h5); (1 # d5); (2 # h1); (1 # d1); (2 # 0)] end.
Definition rgal_type (f : rgal) : Z := match l_stat f with FN _ _ => 1045 | IN _ _ _ _ _ => 1046 end.
Definition rgal_ok (f : rgal) : Prop :=
  (1 <= l_prn f <= 36 /\ U 10 (l_iod f) /\ U 8 (l_sisa f) /\ S_ 10 (l_bgd f) /\
   match l_stat f with FN hs dvs => U 2 hs /\ U 1 dvs | IN b2 h5 d5 h1 d1 => S_ 10 b2 /\ U 2 h5 /\ U 1 d5 /\ U 2 h1 /\ U 1 d1 end) /\
  kep_ok 16 16 24 14 31 21 6 (l_kep f).
Definition rgal_of (now : Z) (f : rgal) : rout :=
  OEph (kep_of 43 43 5 29 34 46 59 60 (l_week f) (at_week gps0 (l_week f)) now (l_kep f) ++
    [(Fsat, I (prn2sat GAL (l_prn f))); (Fsva, I (l_sisa f)); (Fcode, I 517); (Fiode, I (l_iod f)); (Fiodc, I (l_iod f)); (Ftgd, V (l_bgd f) 32)] ++
    match l_stat f with
    | FN hs dvs => [(Fsvh, I (128 * hs + 64 * dvs)); (Fmode, I 1)]
    | IN b2 h5 d5 h1 d1 => [(Ftgdb, V b2 32); (Fsvh, I (128 * h5 + 64 * d5 + 2 * h1 + d1)); (Fmode, I 0)]
    end) None.

(* ---------- NavIC 1041 ---------- *)
Record rirn := RI { i_prn : Z; i_week : Z; i_ura : Z; i_tgd : Z; i_iode : Z; i_svh : Z; i_kep : kep }.
Definition rirn_fields (f : rirn) : list field := let k := i_kep f in
  [(6 # i_prn f); (10 # i_week f mod 1024); (22 # y_af0 k); (16 # y_af1 k); (8 # y_af2 k); (4 # i_ura f); (16 # y_toc k); (8 # i_tgd f); (22 # y_deln k); (8 # i_iode f); (10 # 0);
   (2 # i_svh f); (15 # y_cuc k); (15 # y_cus k); (15 # y_cic k); (15 # y_cis k); (15 # y_crc k); (15 # y_crs k); (14 # y_idot k); (32 # y_M0 k); (16 # y_toe k); (32 # y_e k); (32 # y_sA k);
   (32 # y_OMG0 k); (32 # y_omg k); (22 # y_OMGd k); (32 # y_i0 k); (2 # 0); (2 # 0)].
Definition rirn_ok (f : rirn) : Prop :=
  (1 <= i_prn f <= 14 /\ U 4 (i_ura f) /\ S_ 8 (i_tgd f) /\ U 8 (i_iode f) /\ U 2 (i_svh f)) /\ kep_ok 22 15 22 16 22 16 8 (i_kep f).
(** [af2]: the clock acceleration reported *)
Definition with_af2 (a : Z) (k : kep) : kep :=
  KP (y_deln k) (y_M0 k) (y_e k) (y_sA k) (y_OMG0 k) (y_i0 k) (y_omg k) (y_OMGd k) (y_idot k) (y_crs k) (y_crc k) (y_cus k) (y_cuc k) (y_cis k) (y_cic k)
     (y_toe k) (y_toc k) (y_af0 k) (y_af1 k) a.
Definition rirn_of (af2 : kep -> Z) (now : Z) (f : rirn) : rout :=
  OEph (kep_of 41 41 4 28 31 43 55 16 (i_week f) (at_week gps0 (i_week f)) now (with_af2 (af2 (i_kep f)) (i_kep f)) ++
    [(Fsat, I (prn2sat IRN (i_prn f))); (Fsva, I (i_ura f)); (Fiode, I (i_iode f)); (Fiodc, I (i_iode f)); (Ftgd, V (i_tgd f) 31); (Fsvh, I (i_svh f)); (Fmode, I 0)]) None.

(* ---------- BDS 1042 ---------- *)
(** [d_week]: the BDT week *)
Record rbds := RB { d_prn : Z; d_week : Z; d_ura : Z; d_aode : Z; d_aodc : Z; d_tgd1 : Z; d_tgd2 : Z; d_svh : Z; d_kep : kep }.
Definition rbds_fields (f : rbds) : list field := let k := d_kep f in
  [(6 # d_prn f); (13 # d_week f); (4 # d_ura f); (14 # y_idot k); (5 # d_aode f); (17 # y_toc k); (11 # y_af2 k); (22 # y_af1 k); (24 # y_af0 k);
   (5 # d_aodc f); (18 # y_crs k); (16 # y_deln k); (32 # y_M0 k); (18 # y_cuc k); (32 # y_e k); (18 # y_cus k); (32 # y_sA k); (17 # y_toe k); (18 # y_cic k);
   (32 # y_OMG0 k); (18 # y_cis k); (32 # y_i0 k); (18 # y_crc k); (32 # y_omg k); (24 # y_OMGd k); (10 # d_tgd1 f); (10 # d_tgd2 f); (1 # d_svh f)].
Definition rbds_ok (f : rbds) : Prop :=
  (1 <= d_prn f <= 63 /\ U 13 (d_week f) /\ U 4 (d_ura f) /\ U 5 (d_aode f) /\ U 5 (d_aodc f) /\ S_ 10 (d_tgd1 f) /\ S_ 10 (d_tgd2 f) /\ U 1 (d_svh f)) /\
  kep_ok 16 18 24 17 24 22 11 (d_kep f).
Definition rbds_of (now : Z) (f : rbds) : rout :=
  OEph (kep_of 43 43 6 31 33 50 66 8 (d_week f) (bdt (d_week f)) now (d_kep f) ++
    [(Fsat, I (prn2sat BDS (d_prn f))); (Fsva, I (d_ura f)); (Fiode, I (d_aode f)); (Fiodc, I (d_aodc f)); (Ftgd, D (d_tgd1 f) 10); (Ftgdb, D (d_tgd2 f) 10);
     (Fsvh, I (d_svh f)); (Fmode, I 0)]) None.
(** the same attributes, with the same values for those in [kept] *)
Definition same_in (kept : list fld) (e e' : rout) : Prop :=
  match e, e' with
  | OEph l fit, OEph l' fit' => Forall2 (fun x y => fst x = fst y /\ (In (fst x) kept -> snd x = snd y)) l l' /\ fit = fit'
  | _, _ => False
  end.
(** sent before Cus *)
Definition bds_kept : list fld := [Fdeln; FM0; Fe; Fidot; Fcrs; Fcuc; Ftoc; Ftot; Faf0; Faf1; Fweek; Fsat; Fsva; Fiode; Fiodc; Fmode].
(** the attribute [a] is reported as [v] *)
Definition reports (r : option (nat * rout)) (a : fld) (v : val) : Prop := match r with Some (_, OEph e _) => In (a, v) e | _ => False end.

(* ---------- GLONASS 1020 ---------- *)
Record rglo := RO { o_prn : Z; o_chn : Z; o_alm : Z; o_almh : Z; o_P1 : Z; o_tkh : Z; o_tkm : Z; o_tks : Z; o_Bn : Z; o_P2 : Z; o_tb : Z;
  o_v : Z * Z * Z; o_p : Z * Z * Z; o_a : Z * Z * Z; o_P3 : Z; o_gamn : Z; o_P : Z; o_ln : Z; o_taun : Z; o_dtaun : Z; o_En : Z; o_P4 : Z; o_FT : Z; o_NT : Z; o_M : Z;
  o_add : Z; o_NA : Z; o_tauc : Z; o_N4 : Z; o_taugps : Z; o_ln5 : Z }.
Definition c1 (x : Z * Z * Z) : Z := fst (fst x). Definition c2 (x : Z * Z * Z) : Z := snd (fst x). Definition c3 (x : Z * Z * Z) : Z := snd x.
(** [sg n v]: how the number [v] is sent in a signed field of [n] bits *)
Definition rglo_fields (sg : Z -> Z -> Z) (f : rglo) : list field :=
  [(6 # o_prn f); (5 # o_chn f + 7); (1 # o_alm f); (1 # o_almh f); (2 # o_P1 f); (5 # o_tkh f); (6 # o_tkm f); (1 # o_tks f); (1 # o_Bn f); (1 # o_P2 f); (7 # o_tb f);
   (24 # sg 24 (c1 (o_v f))); (27 # sg 27 (c1 (o_p f))); (5 # sg 5 (c1 (o_a f))); (24 # sg 24 (c2 (o_v f))); (27 # sg 27 (c2 (o_p f))); (5 # sg 5 (c2 (o_a f)));
   (24 # sg 24 (c3 (o_v f))); (27 # sg 27 (c3 (o_p f))); (5 # sg 5 (c3 (o_a f)));
   (1 # o_P3 f); (11 # sg 11 (o_gamn f)); (2 # o_P f); (1 # o_ln f); (22 # sg 22 (o_taun f)); (5 # sg 5 (o_dtaun f));
   (5 # o_En f); (1 # o_P4 f); (4 # o_FT f); (11 # o_NT f); (2 # o_M f); (1 # o_add f); (11 # o_NA f); (32 # sg 32 (o_tauc f)); (5 # o_N4 f); (22 # sg 22 (o_taugps f)); (1 # o_ln5 f); (7 # 0)].
(** two's complement (as bits are sent, see FieldSpec.v), or the sign and the magnitude *)
Definition twos (n v : Z) : Z := v.
Definition signmag (n v : Z) : Z := if v <? 0 then 2 ^ (n - 1) - v else v.
Definition mag_ok (n v : Z) : Prop := - 2 ^ (n - 1) < v < 2 ^ (n - 1).
Definition tri_ok (n : Z) (x : Z * Z * Z) : Prop := mag_ok n (c1 x) /\ mag_ok n (c2 x) /\ mag_ok n (c3 x).
Definition rglo_ok (f : rglo) : Prop :=
  (1 <= o_prn f <= 32 /\ -7 <= o_chn f <= 6 /\ U 1 (o_alm f) /\ U 1 (o_almh f) /\ U 2 (o_P1 f) /\ 0 <= o_tkh f < 24 /\ 0 <= o_tkm f < 60 /\ U 1 (o_tks f) /\ U 1 (o_Bn f) /\
   U 1 (o_P2 f) /\ 0 <= o_tb f < 96) /\
  (tri_ok 24 (o_v f) /\ tri_ok 27 (o_p f) /\ tri_ok 5 (o_a f)) /\
  (U 1 (o_P3 f) /\ mag_ok 11 (o_gamn f) /\ U 2 (o_P f) /\ U 1 (o_ln f) /\ mag_ok 22 (o_taun f) /\ mag_ok 5 (o_dtaun f)) /\
  (U 5 (o_En f) /\ U 1 (o_P4 f) /\ U 4 (o_FT f) /\ U 11 (o_NT f) /\ U 2 (o_M f) /\ U 1 (o_add f) /\ U 11 (o_NA f) /\ mag_ok 32 (o_tauc f) /\ U 5 (o_N4 f) /\ mag_ok 22 (o_taugps f) /\ U 1 (o_ln5 f)).
(** [tof]: the UTC second of a time of day of UTC; [y], [z]: which coordinates stand for the second and third *)
Definition rglo_of (y z : Z * Z * Z -> Z) (tof : Z -> Z) (f : rglo) : rout :=
  OGlo [ (Gfrq, I (o_chn f)); (Gvel 0, V (1000 * c1 (o_v f)) 20); (Gpos 0, V (1000 * c1 (o_p f)) 11); (Gacc 0, V (1000 * c1 (o_a f)) 30);
    (Gvel 1, V (1000 * y (o_v f)) 20); (Gpos 1, V (1000 * y (o_p f)) 11); (Gacc 1, V (1000 * y (o_a f)) 30);
    (Gvel 2, V (1000 * z (o_v f)) 20); (Gpos 2, V (1000 * z (o_p f)) 11); (Gacc 2, V (1000 * z (o_a f)) 30);
    (Ggamn, V (o_gamn f) 40); (Gtaun, V (o_taun f) 30); (Gdtaun, V (o_dtaun f) 30); (Gage, I (o_En f)); (Gsat, I (prn2sat GLO (o_prn f))); (Gsvh, I (o_Bn f)); (Giode, I (o_tb f));
    (Gtof, T (utc (tof (3600 * o_tkh f + 60 * o_tkm f + 30 * o_tks f - 10800)))); (Gtoe, T (utc (tof (900 * o_tb f - 10800)))); (Gmode, I 0);
    (Gstatus, I (128 * o_M f + 64 * o_P4 f + 32 * o_P3 f + 16 * o_P2 f + 4 * o_P1 f + o_P f))].

(** a message: 24 bits of frame, number, fields, whatever follows *)
Definition rmsg (hd mt : Z) (fl : list field) (rest : bits) : bits := enc ([(24 # hd); (12 # mt)] ++ fl) ++ rest.

(* ---------- stations ---------- *)
(** a text of the given bytes *)
Definition text_ok (t : list Z) : Prop := Forall (U 7) t /\ (length t < 256)%nat.
Definition text_bits (t : list Z) : bits := flat_map (bitsof 8) t.
Definition text_fields (t : list Z) : bits := bitsof 8 (Z.of_nat (length t)) ++ text_bits t.
Inductive stamsg :=
| S1005 (id itrf : Z) (gps glo gal virt : Z) (x osc r1 y quarter z : Z)
| S1006 (id itrf : Z) (gps glo gal virt : Z) (x osc r1 y quarter z : Z) (height : Z)
| S1032 (np id itrf x y z : Z)
| S1007 (id : Z) (desc : list Z) (setup : Z)
| S1008 (id : Z) (desc : list Z) (setup : Z) (serial : list Z)
| S1033 (id : Z) (desc : list Z) (setup : Z) (serial rcv firm rser : list Z)
| S1230 (id aligned : Z) (l1ca l1p l2ca l2p : option Z).
Definition stano (m : stamsg) : Z := match m with S1005 _ _ _ _ _ _ _ _ _ _ _ _ => 1005 | S1006 _ _ _ _ _ _ _ _ _ _ _ _ _ => 1006 | S1032 _ _ _ _ _ _ => 1032
  | S1007 _ _ _ => 1007 | S1008 _ _ _ _ => 1008 | S1033 _ _ _ _ _ _ _ => 1033 | S1230 _ _ _ _ _ _ => 1230 end.
Definition have (o : option Z) : Z := match o with Some _ => 1 | None => 0 end.
Definition opt16 (o : option Z) : list field := match o with Some v => [(16 # v)] | None => [] end.
Definition arp_fields (id itrf gps glo gal virt x osc r1 y quarter z : Z) : list field :=
  [(12 # id); (6 # itrf); (1 # gps); (1 # glo); (1 # gal); (1 # virt); (38 # x); (1 # osc); (1 # r1); (38 # y); (2 # quarter); (38 # z)].
Definition sta_bits (m : stamsg) : bits :=
  match m with
  | S1005 id itrf gps glo gal virt x osc r1 y quarter z => enc (arp_fields id itrf gps glo gal virt x osc r1 y quarter z)
  | S1006 id itrf gps glo gal virt x osc r1 y quarter z h => enc (arp_fields id itrf gps glo gal virt x osc r1 y quarter z ++ [(16 # h)])
  | S1032 np id itrf x y z => enc [(12 # np); (12 # id); (6 # itrf); (38 # x); (38 # y); (38 # z)]
  | S1007 id desc setup => bitsof 12 id ++ text_fields desc ++ bitsof 8 setup
  | S1008 id desc setup serial => bitsof 12 id ++ text_fields desc ++ bitsof 8 setup ++ text_fields serial
  | S1033 id desc setup serial rcv firm rser =>
      bitsof 12 id ++ text_fields desc ++ bitsof 8 setup ++ text_fields serial ++ text_fields rcv ++ text_fields firm ++ text_fields rser
  | S1230 id al a b c d => enc ([(12 # id); (1 # al); (3 # 0); (1 # have a); (1 # have b); (1 # have c); (1 # have d)] ++ opt16 a ++ opt16 b ++ opt16 c ++ opt16 d)
  end.
Definition opt_ok (o : option Z) : Prop := match o with Some v => S_ 16 v | None => True end.
Definition sta_ok (m : stamsg) : Prop :=
  match m with
  | S1005 id itrf gps glo gal virt x osc r1 y quarter z => U 12 id /\ U 1 gps /\ U 1 glo /\ U 1 gal /\ U 1 virt /\ S_ 38 x /\ S_ 38 y /\ S_ 38 z
  | S1006 id itrf gps glo gal virt x osc r1 y quarter z h => U 12 id /\ U 1 gps /\ U 1 glo /\ U 1 gal /\ U 1 virt /\ S_ 38 x /\ S_ 38 y /\ S_ 38 z /\ U 16 h
  | S1032 np id itrf x y z => U 12 np /\ U 12 id /\ S_ 38 x /\ S_ 38 y /\ S_ 38 z
  | S1007 id desc setup => U 12 id /\ text_ok desc /\ U 8 setup
  | S1008 id desc setup serial => U 12 id /\ text_ok desc /\ U 8 setup /\ text_ok serial
  | S1033 id desc setup serial rcv firm rser => U 12 id /\ text_ok desc /\ U 8 setup /\ text_ok serial /\ text_ok rcv /\ text_ok firm /\ text_ok rser
  | S1230 id al a b c d => U 12 id /\ U 1 al /\ opt_ok a /\ opt_ok b /\ opt_ok c /\ opt_ok d
  end.
(** [miss]: what a bias not sent is reported as *)
Definition bias_of (miss : Z) (o : option Z) : Z := match o with Some v => v | None => miss end.
(** the station after the message *)
Definition sta_after (miss : Z) (m : stamsg) (s : sta) : sta :=
  let '(Sta refid np sti pos hgt bias desc antid serial rcv firm rser) := s in
  match m with
  | S1005 id _ _ _ _ virt x _ _ y _ z => Sta (Some id) np (Some virt) (Some (x, y, z)) hgt bias desc antid serial rcv firm rser
  | S1006 id _ _ _ _ virt x _ _ y _ z h => Sta (Some id) np (Some virt) (Some (x, y, z)) (Some h) bias desc antid serial rcv firm rser
  | S1032 n id _ x y z => Sta (Some id) (Some n) sti (Some (x, y, z)) hgt bias desc antid serial rcv firm rser
  | S1007 id d a => Sta (Some id) np sti pos hgt bias (Some (text_bits d)) (Some a) serial rcv firm rser
  | S1008 id d a sr => Sta (Some id) np sti pos hgt bias (Some (text_bits d)) (Some a) (Some (text_bits sr)) rcv firm rser
  | S1033 id d a sr r f q => Sta (Some id) np sti pos hgt bias (Some (text_bits d)) (Some a) (Some (text_bits sr)) (Some (text_bits r)) (Some (text_bits f)) (Some (text_bits q))
  | S1230 id _ a b c d => Sta (Some id) np sti pos hgt (Some (map (bias_of miss) [a; b; c; d])) desc antid serial rcv firm rser
  end.
Definition smsg (hd : Z) (m : stamsg) (rest : bits) : bits := enc [(24 # hd); (12 # stano m)] ++ sta_bits m ++ rest.
