(** RTCM state space corrections: troposphere, regional ionosphere, grid definition and extended phase bias messages.
    /repo/src/cssrlib/rtcm.py: 987-1034, 3053-3336, 3946-4082 (decoder), 4199-4206, 4511-4554, 4762-4917, 4919-4972 (encoder);
    cssrlib.py: 313-332 (33 networks).

    Conventions of RtcmSsr.v: values are integer multiples of their resolution, [None] = NaN.  The constants added to the
    tropospheric values are whole multiples of the resolution (0.00118 = 4720 * 2.5e-7, ...).  [None] as a result = an
    exception (attributes already changed by then are not described). *)
From Verif Require Export RtcmSsr.
Open Scope Z_scope.

(** lc[inet]: ct (hydrostatic c00, c01, c10, wet c00, c01, c10), maph, mapw, dth, dtw, ng, ofst, sat_n, ci, stype, dstec
    (simplified: the attributes None or absent at first are empty) *)
Record lcr := LC { l_ct : list (option Z); l_maph : list (option Z); l_mapw : list (option Z);
  l_dth : option (list (option Z)); l_dtw : option (list (option Z)); l_ng : Z; l_ofst : Z;
  l_sat : list Z; l_ci : dict Z (list (option Z)); l_stype : dict Z Z; l_dstec : dict Z (list (option Z)) }.
(** attributes of the decoder *)
Record ast := AST { a_week : Z; a_time : gtime; a_pid : Z; a_sid : Z; a_iod : Z; a_gid : Z; a_pmi : bool; a_rmi : bool; a_pgi : bool;
  a_lc : list lcr }.
(** l[k] = v; IndexError outside *)
Fixpoint lput {A} (k : nat) (v : A) (l : list A) : option (list A) :=
  match l, k with
  | [], _ => None
  | _ :: l, O => Some (v :: l)
  | x :: l, S k => do r <- lput k v l; Some (x :: r)
  end.

(** rtcm.py:987-1034 decode_head for the subtypes SSR_TROP, SSR_STEC; time, iodssr, pid, sid *)
Definition decode_ahead (sys : gnss) (s : ast) (msg : bits) (i : nat) : option (gtime * Z * Z * Z * nat) :=
  do (t, i) <- (if gnss_eqb sys GLO
                then do tod <- getu msg i 17; Some (rtcm_glo_time 1 (a_time s) tod, i + 17)%nat
                else do tow <- getu msg i 20; Some (gpst2time 1 (a_week s) tow, i + 20)%nat);
  do _ <- getu msg i 4; do _ <- getb msg (i + 4) 1;
  let i := (i + 5)%nat in
  do iod <- getu msg i 4; do pid <- getu msg (i + 4) 16; do sid <- getu msg (i + 20) 4;
  Some (t, iod, pid, sid, (i + 24)%nat).

Definition plus (c : Z) (y : option Z) : option Z := option_map (Z.add c) y.
(** self.sval(bs.unpack_from('sN', msg, i)[0], N, scl) *)
Definition getsv (msg : bits) (i n : nat) : option (option Z) := do v <- gets msg i n; Some (sval v n).

(** rtcm.py:3211-3221: the residuals of the points, hydrostatic (n bits) and wet (m bits) *)
Fixpoint trop_rows (n m cnt : nat) (msg : bits) (i : nat) : option (list (option Z) * list (option Z) * nat) :=
  match cnt with
  | O => Some ([], [], i)
  | S c =>
      do (h, i) <- (if (0 <? n)%nat then do v <- getsv msg i n; Some ([v], i + n)%nat else Some ([], i));
      do (w, i) <- (if (0 <? m)%nat then do v <- getsv msg i m; Some ([v], i + m)%nat else Some ([], i));
      do (hs, ws, i) <- trop_rows n m c msg i;
      Some (h ++ hs, w ++ ws, i)
  end.
Definition zeros (n : Z) : list (option Z) := repeat (Some 0) (Z.to_nat n).
(** rtcm.py:3190-3239 decode_ssr_trop: rh, rw, ng and ofst are unbound without residuals (UnboundLocalError) *)
Definition decode_trop (s : ast) (msg : bits) (i : nat) : option (ast * nat) :=
  do (t, iod, pid, sid, i) <- decode_ahead NONE s msg i;
  do gid <- getu msg i 10; do rmi <- getb msg (i + 10) 1;
  let i := (i + 11)%nat in
  do ah <- getsv msg i 11; do bh <- getsv msg (i + 11) 9; do ch <- getsv msg (i + 20) 9;
  do aw <- getsv msg (i + 29) 13; do bw <- getsv msg (i + 42) 6; do cw <- getsv msg (i + 48) 5;
  let i := (i + 53)%nat in
  do ct00h <- getsv msg i 13; do ct10h <- getsv msg (i + 13) 15; do ct01h <- getsv msg (i + 28) 15;
  let i := (i + 43)%nat in
  do ct00w <- getsv msg i 13; do ct10w <- getsv msg (i + 13) 15; do ct01w <- getsv msg (i + 28) 15;
  let i := (i + 43)%nat in
  if rmi then
    do ofst <- getu msg i 12; do ng <- getu msg (i + 12) 12; do n <- getu msg (i + 24) 4; do m <- getu msg (i + 28) 4;
    do (hs, ws, i) <- trop_rows (Z.to_nat n) (Z.to_nat m) (Z.to_nat ng) msg (i + 32)%nat;
    do o <- nth_error (a_lc s) (Z.to_nat gid);
    do lcs <- lput (Z.to_nat gid)
      (LC [plus 23000 ct00h; ct01h; ct10h; plus 2520 ct00w; ct01w; ct10w]
          [plus 4720 ah; plus 596 bh; plus 341 ch] [plus 104 aw; plus 60 bw; plus 24 cw]
          (if 0 <? n then Some (zeros ofst ++ hs) else None) (if 0 <? m then Some (zeros ofst ++ ws) else None) ng ofst
          (l_sat o) (l_ci o) (l_stype o) (l_dstec o)) (a_lc s);
    Some (AST (a_week s) t pid sid iod (a_gid s) (a_pmi s) true (a_pgi s) lcs, i)
  else None.

(** rtcm.py:3268-3283 *)
Fixpoint poly_sats (pgi : bool) (sats : list Z) (msg : bits) (i : nat) (ci : dict Z (list (option Z))) (st : dict Z Z)
    : option (dict Z (list (option Z)) * dict Z Z * nat) :=
  match sats with
  | [] => Some (ci, st, i)
  | sat :: sats =>
      do c00 <- getsv msg i 17;
      let i := (i + 17)%nat in
      do (r, i) <- (if pgi : bool then do c01 <- getsv msg i 18; do c10 <- getsv msg (i + 18) 18; Some ([c01; c10], i + 36)%nat
                    else Some ([], i));
      poly_sats pgi sats msg i (zset sat (c00 :: r) ci) (zset sat (if pgi then 1 else 0) st)
  end.
(** rtcm.py:3304-3307; a field of no bits raises an error; the scale is 2^sf steps of 0.001 *)
Fixpoint res_row (rlen : nat) (sf : Z) (cnt : nat) (msg : bits) (i : nat) : option (list (option Z) * nat) :=
  match cnt with
  | O => Some ([], i)
  | S c =>
      if (rlen =? 0)%nat then None else
      do v <- getsv msg i rlen;
      do (r, i) <- res_row rlen sf c msg (i + rlen)%nat;
      Some (option_map (Z.mul (2 ^ sf)) v :: r, i)
  end.
(** rtcm.py:3301-3307 *)
Fixpoint res_sats (rlen : nat) (sf ofst : Z) (ng : nat) (sats : list Z) (msg : bits) (i : nat) (d : dict Z (list (option Z)))
    : option (dict Z (list (option Z)) * nat) :=
  match sats with
  | [] => Some (d, i)
  | sat :: sats =>
      do (r, i) <- res_row rlen sf ng msg i;
      res_sats rlen sf ofst ng sats msg i (zset sat (zeros ofst ++ r) d)
  end.
(** rtcm.py:3241-3312 decode_ssr_iono *)
Definition decode_iono (sys : gnss) (s : ast) (msg : bits) (i : nat) : option (ast * nat) :=
  do (t, iod, pid, sid, i) <- decode_ahead sys s msg i;
  do gid <- getu msg i 10; do pmi <- getb msg (i + 10) 1; do rmi <- getb msg (i + 11) 1; do mask <- getu msg (i + 12) 64;
  let i := (i + 76)%nat in
  let sats := map (svid2sat sys) (fst (decode_mask mask 64 1)) in
  do o <- nth_error (a_lc s) (Z.to_nat gid);
  do (pgi, ci, st, i) <- (if pmi then do pgi <- getb msg i 1; do (ci, st, i) <- poly_sats pgi sats msg (i + 1)%nat [] []; Some (pgi, ci, st, i)
                          else Some (a_pgi s, l_ci o, l_stype o, i));
  do (ds, ng, ofst, i) <- (if rmi then
      do ofst <- getu msg i 12; do ng <- getu msg (i + 12) 12; do rlen <- getu msg (i + 24) 5;
      let i := (i + 29)%nat in
      do (sf, i) <- (if 0 <? rlen then do sf <- getu msg i 3; Some (sf, i + 3)%nat else Some (0, i));
      do (d, i) <- res_sats (Z.to_nat rlen) sf ofst (Z.to_nat ng) sats msg i [];
      Some (d, ng, ofst, i)
    else Some (l_dstec o, l_ng o, l_ofst o, i));
  do lcs <- lput (Z.to_nat gid) (LC (l_ct o) (l_maph o) (l_mapw o) (l_dth o) (l_dtw o) ng ofst sats ci st ds) (a_lc s);
  Some (AST (a_week s) t pid sid (a_iod s) gid pmi rmi pgi lcs, i).

(** rtcm.py:3158-3188 decode_ssr_pbias_ex: decode_head (1001-1013) does not bind [v] for this subtype and then stores into
    it (UnboundLocalError), after reading the time, iodssr, pid and sid *)
Definition decode_pbias_ex (s : ast) (msg : bits) (i : nat) : option (ast * nat) := None.

(** rtcm.py:3946-4082 decode for these messages; [None] also stands for the types not modelled here *)
Definition decode_atm (s : ast) (msg : bits) : option (ast * nat) :=
  do mt <- getu msg 24 12;
  match dispatch mt with
  | KSsr STROP => decode_trop s msg 36
  | KSsr SSTEC => do sys <- get_ssr_sys None mt; decode_iono sys s msg 36
  | KSsr SPBX => decode_pbias_ex s msg 36
  | _ => None
  end.

(* ---------- encoder ---------- *)
(** attributes of the encoder: udi[type], gid, inet, nlen, mlen; lc[gid].flg_trop, lc[inet].flg_stec, lc[gid].ct, maph, mapw,
    dth, dtw, ng, ofst, ci, stype in the order of the keys of ci; [ea_res sat]: the integers
    int((dstec + second order terms)/0.002) of lc[gid].dstec[sat], [None] for NaN.  Simplified: lc[gid] exists, the grid of the
    network is loaded, and ng, ofst are those of lc[gid]. *)
Record east := EA { ea_mt : Z; ea_tow : Z; ea_udi : Z; ea_mi : bool; ea_iod : Z; ea_pid : Z; ea_sid : Z; ea_gid : Z; ea_nlen : nat; ea_mlen : nat;
  ea_ftrop : Z; ea_fstec : Z; ea_ct : list (option Z); ea_maph : list (option Z); ea_mapw : list (option Z);
  ea_dth : list (option Z); ea_dtw : list (option Z); ea_ng : Z; ea_ofst : Z;
  ea_ci : list (Z * list (option Z)); ea_stype : dict Z Z; ea_res : dict Z (list (option Z)) }.
(** rtcm.py:4511-4530 encode_head *)
Definition encode_ahead (e : east) (sys : gnss) (msg : bits) (i : nat) : option (bits * nat) :=
  let blen := match sys with GLO => 17%nat | _ => 20%nat end in
  do m <- putu msg i blen (ea_tow e);
  let i := (i + blen)%nat in
  do m <- putu m i 4 (ea_udi e); do m <- putu m (i + 4) 1 (Z.b2z (ea_mi e));
  do m <- putu m (i + 5) 4 (ea_iod e); do m <- putu m (i + 9) 16 (ea_pid e); do m <- putu m (i + 25) 4 (ea_sid e);
  Some (m, (i + 29)%nat).
Definition putsv (msg : bits) (i n : nat) (y : option Z) : option bits := puts msg i n (ival y n).
(** rtcm.py:4817-4826, from point [k] on *)
Fixpoint encode_rows (e : east) (cnt k : nat) (msg : bits) (i : nat) : option (bits * nat) :=
  match cnt with
  | O => Some (msg, i)
  | S c =>
      do (m, i) <- (if (0 <? ea_nlen e)%nat then do y <- nth_error (ea_dth e) k; do m <- putsv msg i (ea_nlen e) y; Some (m, i + ea_nlen e)%nat
                    else Some (msg, i));
      do (m, i) <- (if (0 <? ea_mlen e)%nat then do y <- nth_error (ea_dtw e) k; do m <- putsv m i (ea_mlen e) y; Some (m, i + ea_mlen e)%nat
                    else Some (m, i));
      encode_rows e c (S k) m i
  end.
(** rtcm.py:4762-4828 encode_ssr_trop *)
Definition encode_trop (e : east) (msg : bits) (i : nat) : option (bits * nat) :=
  do (m, i) <- encode_ahead e NONE msg i;
  let rmi := Z.odd (ea_ftrop e) in
  do m <- putu m i 10 (ea_gid e); do m <- putu m (i + 10) 1 (Z.b2z rmi);
  let i := (i + 11)%nat in
  match ea_maph e, ea_mapw e, ea_ct e with
  | [ah; bh; ch], [aw; bw; cw], [c00h; c01h; c10h; c00w; c01w; c10w] =>
      do m <- putsv m i 11 (plus (-4720) ah); do m <- putsv m (i + 11) 9 (plus (-596) bh); do m <- putsv m (i + 20) 9 (plus (-341) ch);
      do m <- putsv m (i + 29) 13 (plus (-104) aw); do m <- putsv m (i + 42) 6 (plus (-60) bw); do m <- putsv m (i + 48) 5 (plus (-24) cw);
      let i := (i + 53)%nat in
      do m <- putsv m i 13 (plus (-23000) c00h); do m <- putsv m (i + 13) 15 c10h; do m <- putsv m (i + 28) 15 c01h;
      let i := (i + 43)%nat in
      do m <- putsv m i 13 (plus (-2520) c00w); do m <- putsv m (i + 13) 15 c10w; do m <- putsv m (i + 28) 15 c01w;
      let i := (i + 43)%nat in
      if rmi then
        do m <- putu m i 12 (ea_ofst e); do m <- putu m (i + 12) 12 (ea_ng e);
        do m <- putu m (i + 24) 4 (Z.of_nat (ea_nlen e)); do m <- putu m (i + 28) 4 (Z.of_nat (ea_mlen e));
        encode_rows e (Z.to_nat (ea_ng e)) (Z.to_nat (ea_ofst e)) m (i + 32)%nat
      else Some (m, i)
  | _, _, _ => None
  end.
(** rtcm.py:4870-4882 *)
Fixpoint encode_poly (pgi : bool) (l : list (Z * list (option Z))) (msg : bits) (i : nat) : option (bits * nat) :=
  match l with
  | [] => Some (msg, i)
  | (_, ci) :: l =>
      do c00 <- nth_error ci 0; do m <- putsv msg i 17 c00;
      let i := (i + 17)%nat in
      do (m, i) <- (if pgi : bool then do c01 <- nth_error ci 1; do c10 <- nth_error ci 2;
                         do m <- putsv m i 18 c01; do m <- putsv m (i + 18) 18 c10; Some (m, i + 36)%nat
                    else Some (m, i));
      encode_poly pgi l m i
  end.
(** rtcm.py:4906-4915; [np.abs(ci[3])] raises IndexError for shorter polynomials, int(nan) ValueError *)
Fixpoint encode_row (l : list (option Z)) (msg : bits) (i : nat) : option (bits * nat) :=
  match l with
  | [] => Some (msg, i)
  | y :: l => do v <- y; do m <- puts msg i 18 v; encode_row l m (i + 18)%nat
  end.
Fixpoint encode_res (e : east) (l : list (Z * list (option Z))) (msg : bits) (i : nat) : option (bits * nat) :=
  match l with
  | [] => Some (msg, i)
  | (sat, ci) :: l =>
      do (m, i) <- (if ea_ng e =? 0 then Some (msg, i) else
          do r <- zget sat (ea_res e);
          do _ <- nth_error ci 3;
          let r := skipn (Z.to_nat (ea_ofst e)) r in
          if (length r <? Z.to_nat (ea_ng e))%nat then None else encode_row (firstn (Z.to_nat (ea_ng e)) r) msg i);
      encode_res e l m i
  end.
(** stype of every satellite; KeyError if one is missing *)
Fixpoint stypes (e : east) (l : list (Z * list (option Z))) : option (list Z) :=
  match l with [] => Some [] | (sat, _) :: l => do t <- zget sat (ea_stype e); do r <- stypes e l; Some (t :: r) end.
(** rtcm.py:4832-4917 encode_ssr_iono *)
Definition encode_iono (e : east) (sys : gnss) (msg : bits) (i : nat) : option (bits * nat) :=
  do (m, i) <- encode_ahead e sys msg i;
  let pmi := Z.odd (Z.shiftr (ea_fstec e) 1) in
  let rmi := Z.odd (ea_fstec e) in
  do m <- putu m i 10 (ea_gid e); do m <- putu m (i + 10) 1 (Z.b2z pmi); do m <- putu m (i + 11) 1 (Z.b2z rmi);
  let l := filter (fun x => gnss_eqb (fst (sat2prn (fst x))) sys) (ea_ci e) in
  do ts <- stypes e l;
  do mask <- encode_mask (map (fun x => sat2svid (fst x)) l) 64 1;
  do m <- putu m (i + 12) 64 mask;
  let i := (i + 76)%nat in
  do (m, i) <- (if pmi then let pgi := existsb (fun t => 0 <? t) ts in
                     do m <- putu m i 1 (Z.b2z pgi); encode_poly pgi l m (i + 1)%nat
                else Some (m, i));
  if rmi then
    do m <- putu m i 12 (ea_ofst e); do m <- putu m (i + 12) 12 (ea_ng e); do m <- putu m (i + 24) 5 18; do m <- putu m (i + 29) 3 1;
    encode_res e l m (i + 32)%nat
  else Some (m, i).
(** rtcm.py:4919-4972 encode for these messages *)
Definition encode_atm (e : east) (msg : bits) : option (bits * nat) :=
  do m <- putu msg 24 12 (ea_mt e);
  match edispatch (ea_mt e) with
  | KSsr STROP => encode_trop e m 36
  | KSsr SSTEC => do sys <- get_ssr_sys None (ea_mt e); encode_iono e sys m 36
  | _ => None
  end.

(* ---------- grid definition ---------- *)
(** a point: nid, gid, latitude, longitude (0.001 deg), height (12.5 m, [None] = NaN) *)
Record gpt := GP { gp_nid : Z; gp_id : Z; gp_lat : option Z; gp_lon : option Z; gp_alt : option Z }.
Record gst := GS { gs_pid : Z; gs_mi : bool; gs_gid : Z; gs_type : Z; gs_inet : Z; gs_grid : list gpt;
  gs_dpos : list (option Z * option Z * option Z); gs_pos0 : option Z * option Z * option Z; gs_ofst : Z }.
Definition oadd (a b : option Z) : option Z := match a, b with Some x, Some y => Some (x + y) | _, _ => None end.
(** Python list index: negative ones count from the end *)
Definition pyidx (n : nat) (k : Z) : option nat :=
  if (0 <=? k) && (k <? Z.of_nat n) then Some (Z.to_nat k) else if (- Z.of_nat n <=? k) && (k <? 0) then Some (Z.to_nat (Z.of_nat n + k)) else None.
(** rtcm.py:3081-3093; [c] points to go, the next being [k] *)
Fixpoint grid0 (gid ofst : Z) (c : nat) (k : Z) (lat lon alt : option Z) (msg : bits) (i : nat) (g : list gpt) (d : list (option Z * option Z * option Z))
    : option (list gpt * list (option Z * option Z * option Z) * nat) :=
  match c with
  | O => Some (g, d, i)
  | S c =>
      do dlat <- getsv msg i 13; do dlon <- getsv msg (i + 13) 14; do dalt <- getsv msg (i + 27) 9;
      let lat := oadd lat dlat in let lon := oadd lon dlon in let alt := oadd alt dalt in
      do j <- pyidx (length d) (k - ofst);
      do d <- lput j (dlat, dlon, dalt) d;
      grid0 gid ofst c (k + 1) lat lon alt msg (i + 36)%nat (g ++ [GP gid (k + 1) lat lon alt]) d
  end.
(** rtcm.py:3106-3115 *)
Fixpoint grid1 (gid ofst : Z) (c : nat) (k : Z) (lat lon : option Z) (msg : bits) (i : nat) (g : list gpt) (d : list (option Z * option Z * option Z))
    : option (list gpt * list (option Z * option Z * option Z) * nat) :=
  match c with
  | O => Some (g, d, i)
  | S c =>
      do dlat <- getsv msg i 13; do dlon <- getsv msg (i + 13) 14;
      let lat := oadd lat dlat in let lon := oadd lon dlon in
      do j <- pyidx (length d) (k - ofst);
      do d <- lput j (dlat, dlon, Some 0) d;
      grid1 gid ofst c (k + 1) lat lon msg (i + 27)%nat (g ++ [GP gid k lat lon (Some 0)]) d
  end.
(** rtcm.py:3053-3156 decode_ssr_grid; heights are 12.5 m steps, -1000 m = 80 steps (the field is unsigned, so that sval never
    gives NaN).  Type 2: [np.array()] raises TypeError; another type changes only pid, mi, gid, gtype, inet. *)
Definition decode_grid (s : gst) (msg : bits) (i : nat) : option (gst * nat) :=
  do pid <- getu msg i 16; do mi <- getb msg (i + 16) 1; do gid <- getu msg (i + 17) 10; do ty <- getu msg (i + 27) 3;
  let i := (i + 30)%nat in
  if ty =? 0 then
    do lat <- getsv msg i 18; do lon <- getsv msg (i + 18) 19; do alt <- getu msg (i + 37) 10;
    do ofst <- getu msg (i + 47) 12; do np <- getu msg (i + 59) 8;
    let alt := Some (alt - 80) in
    do (g, d, i) <- grid0 gid ofst (Z.to_nat np) ofst lat lon alt msg (i + 67)%nat [GP gid ofst lat lon alt]
                      (repeat (Some 0, Some 0, Some 0) (Z.to_nat np));
    Some (GS pid mi gid ty gid g d (lat, lon, alt) ofst, i)
  else if ty =? 1 then
    do lat <- getsv msg i 18; do lon <- getsv msg (i + 18) 19; do ofst <- getu msg (i + 37) 12; do np <- getu msg (i + 49) 8;
    do (g, d, i) <- grid1 gid ofst (Z.to_nat np) 0 lat lon msg (i + 57)%nat [GP gid ofst lat lon (Some 0)]
                      (repeat (Some 0, Some 0, Some 0) (Z.to_nat np));
    Some (GS pid mi gid ty gid g d (lat, lon, Some 0) ofst, i)
  else if ty =? 2 then None
  else Some (GS pid mi gid ty gid (gs_grid s) (gs_dpos s) (gs_pos0 s) (gs_ofst s), i).
(** rtcm.py:4045-4047 *)
Definition decode_mt61 (s : gst) (msg : bits) : option (gst * nat) :=
  do mt <- getu msg 24 12; match dispatch mt with KSsr SGRID => decode_grid s msg 36 | _ => None end.
