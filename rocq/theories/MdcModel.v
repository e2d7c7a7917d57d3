(** QZSS MADOCA-PPP ionosphere messages.  /repo/src/cssrlib/cssr_mdc.py:15-24, 37-60, 62-90, 92-125,
    127-176, 178-247.

    Decoded values are integer mantissas: angles of rectangles in 0.1 degree, of circles in 0.01 degree,
    ranges in tens, coefficients c00 in 0.05, c01/c10/c11 in 0.02, c02/c20 in 0.005 TECU.  An exception
    (message cut off) is [None]; the attributes assigned before it are then not described.
    Positions are real numbers (degrees; the code converts from radians first).
    Not modelled: monitor output, out_log, the Compact SSR messages of decode_cssr (see CssrModel.v). *)
From Coq Require Import Reals.
From Verif Require Export TimeModel CssrState SatModel Base.
Open Scope Z_scope.

(** cssr_mdc.py:15-24 areaInfo; sid 0 is a rectangle, sid 1 a circle *)
Inductive ainfo := Rect (latr lonr lats lons : Z) | Circ (latr lonr rng : Z).

(** attributes of one local_corr that MT2 writes (cssr_mdc.py:232-245) *)
Record mlc := MLC { l_nsat : Z; l_stype : dict Z Z; l_sat : list Z; l_ci : dict Z (list Z); l_qi : dict Z Z;
                    l_t0 : gtime; l_stec : bool; l_ref : Z }.
(** cssrlib.py:219-263 local_corr and cssr_mdc.py:56-60; gtime_t() is (0,0).  [l_ci] before the first
    message is Python's None, here empty. *)
Definition lc_init : mlc := MLC 0 [] [] [] [] (GT 0 0) false (-1).

Record mst := MST { m_week : Z; m_tow0 : Z; m_reg : Z; m_area : Z; m_alrt : Z;
                    m_pnt : dict Z (dict Z ainfo); m_lc : list mlc }.

(** cssr_mdc.py:51 narea_t *)
Definition narea_t : list (Z * Z) := [(1, 8); (2, 16); (3, 5); (4, 1); (5, 8)].
(** cssr_mdc.py:52 MAXNET; the base class appended 33 entries already (cssrlib.py:263, 323-329) *)
Definition maxnet : nat := Z.to_nat (fold_right (fun p a => snd p + a) 0 narea_t).
Definition lc_new : list mlc := repeat lc_init 33 ++ repeat lc_init (maxnet + 1).
Definition mst_new (week tow0 : Z) : mst := MST week tow0 (-1) (-1) 0 [] lc_new.

(** cssr_mdc.py:162-176 get_inet; the loop stops at the first key not below [reg] *)
Fixpoint inet_sum (t : list (Z * Z)) (reg : Z) : Z :=
  match t with
  | [] => 0
  | (r, n) :: t' => if r >=? reg then 0 else n + inet_sum t' reg
  end.
Definition get_inet (reg area : Z) : Z :=
  if (reg <? 0) || (area <? 0) then -1 else inet_sum narea_t reg + area.

(** cssr_mdc.py:140-160 the areas of MT1 *)
Fixpoint mt1_areas (n : nat) (msg : bits) (i : nat) (d : dict Z ainfo) : option (dict Z ainfo * nat) :=
  match n with
  | O => Some (d, i)
  | S n' =>
      do area <- getu msg i 5; do sid <- getu msg (i + 5) 1;
      let i := (i + 6)%nat in
      if sid =? 0 then
        do latr <- gets msg i 11; do lonr <- getu msg (i + 11) 12;
        do lats <- getu msg (i + 23) 8; do lons <- getu msg (i + 31) 8;
        mt1_areas n' msg (i + 39) (zset area (Rect latr lonr lats lons) d)
      else
        do latr <- gets msg i 15; do lonr <- getu msg (i + 15) 16; do rng <- getu msg (i + 31) 8;
        mt1_areas n' msg (i + 39) (zset area (Circ latr lonr rng) d)
  end.

(** cssr_mdc.py:127-160 decode_mdc_stec_area *)
Definition decode_area (s : mst) (msg : bits) (i : nat) : option (mst * nat) :=
  do tow <- getu msg i 20; do uid <- getu msg (i + 20) 4; do mi <- getu msg (i + 24) 1;
  do iodssr <- getu msg (i + 25) 4;
  let i := (i + 29)%nat in
  do reg <- getu msg i 8; do alrt <- getu msg (i + 8) 1; do len <- getu msg (i + 9) 16;
  do narea <- getu msg (i + 25) 5;
  let i := (i + 30)%nat in
  let d0 := match zget reg (m_pnt s) with Some d => d | None => [] end in
  do (d, j) <- mt1_areas (Z.to_nat narea) msg i d0;
  Some (MST (m_week s) (tow / 3600 * 3600) reg (m_area s) alrt (zset reg d (m_pnt s)) (m_lc s), j).

(** cssr_mdc.py:199-230 one satellite of MT2: number as sent, quality, coefficients *)
Definition mt2_sat (stype : Z) (msg : bits) (i : nat) : option (Z * Z * list Z * nat) :=
  do prn <- getu msg i 6; do qi <- getu msg (i + 6) 6; do c00 <- gets msg (i + 12) 14;
  let i := (i + 26)%nat in
  do (c01, c10, i) <- (if stype >? 0 then do a <- gets msg i 12; do b <- gets msg (i + 12) 12; Some (a, b, (i + 24)%nat)
                       else Some (0, 0, i));
  do (c11, i) <- (if stype >? 1 then do a <- gets msg i 10; Some (a, (i + 10)%nat) else Some (0, i));
  do (c02, c20, i) <- (if stype >? 2 then do a <- gets msg i 8; do b <- gets msg (i + 8) 8; Some (a, b, (i + 16)%nat)
                       else Some (0, 0, i));
  Some (prn, qi, [c00; c01; c10; c11; c02; c20], i).

(** state of the loops 196-230: (qi, stype, sat_, ci) *)
Definition acc2 := (dict Z Z * dict Z Z * list Z * dict Z (list Z))%type.
Fixpoint mt2_sats (sys : gnss) (stype : Z) (n : nat) (msg : bits) (i : nat) (a : acc2) : option (acc2 * nat) :=
  match n with
  | O => Some (a, i)
  | S n' =>
      do (prn, q, c, i) <- mt2_sat stype msg i;
      let prn := match sys with QZS => prn + 192 | _ => prn end in
      let sat := prn2sat sys prn in
      let '(qi, st, sats, ci) := a in
      mt2_sats sys stype n' msg i (zset sat q qi, zset sat stype st, sats ++ [sat], zset sat c ci)
  end.
(** cssr_mdc.py:191 sys_t *)
Definition sys_t : list gnss := [GPS; GLO; GAL; BDS; QZS].
Fixpoint mt2_sys (l : list (gnss * nat)) (stype : Z) (msg : bits) (i : nat) (a : acc2) : option (acc2 * nat) :=
  match l with
  | [] => Some (a, i)
  | (sys, n) :: l' => do (a, i) <- mt2_sats sys stype n msg i a; mt2_sys l' stype msg i a
  end.

(** cssr_mdc.py:178-247 decode_mdc_stec_corr; times in whole seconds; [None] also when the index is outside the list *)
Definition decode_corr2 (s : mst) (msg : bits) (i : nat) : option (mst * nat) :=
  do dtow <- getu msg i 12; do uid <- getu msg (i + 12) 4; do mi <- getu msg (i + 16) 1;
  do iodssr <- getu msg (i + 17) 4;
  let i := (i + 21)%nat in
  do reg <- getu msg i 8; do area <- getu msg (i + 8) 5; do stype <- getu msg (i + 13) 2;
  let i := (i + 15)%nat in
  do n0 <- getu msg i 5; do n1 <- getu msg (i + 5) 5; do n2 <- getu msg (i + 10) 5;
  do n3 <- getu msg (i + 15) 5; do n4 <- getu msg (i + 20) 5;
  let i := (i + 25)%nat in
  let inet := Z.to_nat (get_inet reg area) in
  do lc <- nth_error (m_lc s) inet;
  do (a, j) <- mt2_sys (combine sys_t (map Z.to_nat [n0; n1; n2; n3; n4])) stype msg i ([], [], [], []);
  let '(qi, st, sats, ci) := a in
  let t0 := gpst2time 1 (m_week s) (m_tow0 s + dtow) in
  let lc' := MLC (n0 + n1 + n2 + n3 + n4) st sats ci qi t0 true iodssr in
  Some (MST (m_week s) (m_tow0 s) reg area (m_alrt s) (m_pnt s) (upd inet (fun _ => lc') (m_lc s)), j).

(* ---------- position dependent part ---------- *)
Open Scope R_scope.
(** gnss.py rCST.D2R, RE_WGS84 *)
Definition D2R : R := PI / 180.
Definition RE : R := 6378137.
(** cssr_mdc.py:70-73, 77-82: does the area contain the position (degrees)? *)
Definition inside (p : ainfo) (latd lond : R) : bool :=
  match p with
  | Rect latr lonr lats lons =>
      let latr := IZR latr / 10 in let lonr := IZR lonr / 10 in
      let lats := IZR lats / 10 in let lons := IZR lons / 10 in
      (if Rle_dec (latr - lats) latd then true else false) && (if Rle_dec latd (latr + lats) then true else false) &&
      (if Rle_dec (lonr - lons) lond then true else false) && (if Rle_dec lond (lonr + lons) then true else false)
  | Circ latr lonr rng =>
      let latr := IZR latr / 100 in let lonr := IZR lonr / 100 in
      let dn := (latd - latr) * D2R * RE in
      let de := (lond - lonr) * D2R * RE * cos (lonr * D2R) in
      if Rle_dec (sqrt (dn * dn + de * de)) (IZR rng * 10) then true else false
  end.
(** cssr_mdc.py:68-87 one region: the first area containing the position *)
Fixpoint find_area (d : dict Z ainfo) (latd lond : R) : option Z :=
  match d with
  | [] => None
  | (a, p) :: d' => if inside p latd lond then Some a else find_area d' latd lond
  end.
(** cssr_mdc.py:62-90: [break] leaves the inner loop only, so a later region replaces an earlier one *)
Definition find_loop (pnt : dict Z (dict Z ainfo)) (latd lond : R) : Z * Z :=
  fold_left (fun ra rd => match find_area (snd rd) latd lond with Some a => (fst rd, a) | None => ra end)
    pnt (-1, -1)%Z.
Definition find_grid_index (s : mst) (latd lond : R) : mst * Z :=
  let '(reg, area) := find_loop (m_pnt s) latd lond in
  (MST (m_week s) (m_tow0 s) reg area (m_alrt s) (m_pnt s) (m_lc s), get_inet reg area).

(** reference point of an area in degrees *)
Definition area_ref (p : ainfo) : R * R :=
  match p with
  | Rect latr lonr _ _ => (IZR latr / 10, IZR lonr / 10)
  | Circ latr lonr _ => (IZR latr / 100, IZR lonr / 100)
  end.
(** cssr_mdc.py:92-103 get_dpos; [None]: KeyError *)
Definition get_dpos (s : mst) (latd lond : R) : option (R * R) :=
  if ((m_reg s <? 0) || (m_area s <? 0))%Z then Some (0, 0)
  else do d <- zget (m_reg s) (m_pnt s); do p <- zget (m_area s) d;
       let '(a, b) := area_ref p in Some (latd - a, lond - b).

(** cssr_mdc.py:115-123: v@p.ci[sat] with the scales of 226-228 *)
Definition stec1 (dlat dlon : R) (c : list Z) : R :=
  let z k := IZR (nth k c 0%Z) in
  z 0%nat * (5 / 100) + dlat * (z 1%nat * (2 / 100)) + dlon * (z 2%nat * (2 / 100)) +
  dlat * dlon * (z 3%nat * (2 / 100)) + dlat * dlat * (z 4%nat * (5 / 1000)) + dlon * dlon * (z 5%nat * (5 / 1000)).
(** cssr_mdc.py:105-125 get_stec with self.inet = [inet] >= 0; [None]: KeyError or IndexError.  The result
    array has nsat_n entries, one per element of sat_n. *)
Definition get_stec (s : mst) (inet : nat) (dlat dlon : R) : option (list R) :=
  do p <- nth_error (m_lc s) inet;
  fold_right (fun sat acc => do l <- acc; do c <- zget sat (l_ci p); Some (stec1 dlat dlon c :: l)) (Some []) (l_sat p).
