(** RTCM state space corrections: code and phase bias messages.
    /repo/src/cssrlib/rtcm.py: 987-1052, 1174-1292, 1438-1477, 3946-4072 (decoder), 4511-4554, 4685-4756,
    4919-4961 (encoder).

    Conventions of RtcmSsr.v: biases are integer multiples of their resolution (0.01 m, 0.1 mm; yaw 1/256, yaw rate
    1/8192), [None] = NaN.  A bias dictionary of a satellite is keyed by the printed signal ('C1C'). *)
From Verif Require Export SigModel RtcmSsr.
Open Scope Z_scope.

Definition sdict (V : Type) := dict string V.
Definition sget {V} := @dget string V String.eqb.
Definition sset {V} := @dset string V String.eqb.

Section Bias.
Context {Q : Type}.
Notation rst := (@rst Q).
(** the attributes of the other messages, and lc[0].cbias, pbias, si, di, wl, yaw, dyaw; sat_b, iyaw, iexpb *)
Record bst := BST { b_base : rst; b_satb : list Z; b_cb : dict Z (sdict (option Z)); b_pb : dict Z (sdict (option Z));
  b_si : dict Z (sdict bool); b_di : dict Z (sdict Z); b_wl : dict Z (sdict Z); b_yaw : dict Z Z; b_dyaw : dict Z (option Z);
  b_iyaw : bool; b_iexpb : Z }.

(** what both messages leave in the attributes of RtcmSsr.v; [l]: the satellites read *)
Definition retag (c : sct) (h : head) (l : list Z) (s : rst) : rst :=
  RST (r_week s) (h_time h) (r_datum s) (h_pid h) (h_sid h) (h_iod h) (h_mi h) (fset (r_udi s) c (h_udi h)) (fset (r_iodc s) c (h_iod h))
    (fset (r_t0s s) c (h_time h)) (t0set (r_t0 s) c (h_time h) l) (cset c (r_cstat s))
    (r_nsat_n s) (r_sys_n s) (r_sat_n s) (r_iode s) (r_dorb s) (r_ddorb s) (r_dclk s) (r_ddclk s) (r_dddclk s) (r_hclk s) (r_ura s) (r_dclk_n s).

(** d.get(sat, {}) *)
Definition sub {V} (sat : Z) (d : dict Z (sdict V)) : sdict V := match zget sat d with Some x => x | None => [] end.
(** if sat not in l: l.append(sat) *)
Definition addsat (sat : Z) (l : list Z) : list Z := if existsb (Z.eqb sat) l then l else l ++ [sat].
(** rtcm.py:962-963: ssig2rsig without an index: the size of the table *)
Definition nsigs (sys : gnss) : option Z := do l <- rtcm_sig_tbl sys; Some (Z.of_nat (length l)).

(** rtcm.py:1204-1209 *)
Fixpoint cb_sigs (sys : gnss) (n : nat) (msg : bits) (i : nat) (d : sdict (option Z)) : option (sdict (option Z) * nat) :=
  match n with
  | O => Some (d, i)
  | S m =>
      do sig <- getu msg i 5; do cb <- gets msg (i + 5) 14;
      do r <- rtcm_ssig2rsig sys TC sig;
      cb_sigs sys m msg (i + 19)%nat (sset (sig_str r) (sval cb 14) d)
  end.
(** rtcm.py:1189-1209: the loop over the satellites.  A count above the size of the table ends it, the satellite being
    already listed, without an error. *)
Fixpoint cb_sats (igs : bool) (sys : gnss) (n : nat) (msg : bits) (i : nat) (cb : dict Z (sdict (option Z)))
    : option (list Z * dict Z (sdict (option Z)) * nat) :=
  match n with
  | O => Some ([], cb, i)
  | S m =>
      do (sat, i) <- decode_sat igs sys msg i;
      do nsig <- getu msg i 5;
      let i := (i + 5)%nat in
      do lim <- nsigs sys;
      if nsig >? lim then Some ([sat], zset sat (sub sat cb) cb, i)
      else
        do (d, i) <- cb_sigs sys (Z.to_nat nsig) msg i (sub sat cb);
        do (l, cb, i) <- cb_sats igs sys m msg i (zset sat d cb);
        Some (sat :: l, cb, i)
  end.
(** rtcm.py:1174-1215 decode_cssr_cbias *)
Definition decode_cbias (igs : bool) (sys : gnss) (s : bst) (msg : bits) (i : nat) : option (bst * nat) :=
  do (h, i) <- decode_head igs (b_base s) sys SCB msg i;
  let new := later (h_time h) (r_t0s (b_base s) SCB) in
  do (l, cb, i) <- cb_sats igs sys (Z.to_nat (h_nsat h)) msg i (if new then [] else b_cb s);
  Some (BST (retag SCB h l (b_base s)) (fold_left (fun a x => addsat x a) l (if new then [] else b_satb s)) cb
          (b_pb s) (b_si s) (b_di s) (b_wl s) (b_yaw s) (b_dyaw s) (b_iyaw s) (b_iexpb s), i).

(** rtcm.py:987-1034 decode_head for the phase bias subtypes; [old]: sCSSR.PBIAS (1265-1270 and IGS), with two bits that are
    dropped; else sRTCM.SSR_PBIAS (85-89), with the yaw flag and the extended property id *)
Definition decode_phead (old igs : bool) (s : rst) (sys : gnss) (msg : bits) (i : nat) : option (head * bool * Z * nat) :=
  do (t, i) <- (if gnss_eqb sys GLO && negb igs
                then do tod <- getu msg i 17; Some (rtcm_glo_time 1 (r_time s) tod, i + 17)%nat
                else do tow <- getu msg i 20; Some (gpst2time 1 (r_week s) tow, i + 20)%nat);
  do udi <- getu msg i 4;
  do mi <- getb msg (i + 4) 1;
  let i := (i + 5)%nat in
  do iod <- getu msg i 4; do pid <- getu msg (i + 4) 16; do sid <- getu msg (i + 20) 4;
  let i := (i + 24)%nat in
  do (y, x, i) <- (if old then do _ <- getu msg i 1; do _ <- getu msg (i + 1) 1; Some (true, 0, (i + 2)%nat)
                   else do y <- getb msg i 1; do x <- getu msg (i + 1) 4; Some (y, x, (i + 5)%nat));
  do nsat <- getu msg i 6;
  Some (HD t udi mi None iod pid sid nsat, y, x, (i + 6)%nat).

Record pdict := PD { d_pb : sdict (option Z); d_si : sdict bool; d_di : sdict Z; d_wl : sdict Z }.
(** rtcm.py:1267-1286 *)
Fixpoint pb_sigs (old : bool) (sys : gnss) (n : nat) (msg : bits) (i : nat) (d : pdict) : option (pdict * nat) :=
  match n with
  | O => Some (d, i)
  | S m =>
      do sig <- getu msg i 5; do si <- getb msg (i + 5) 1;
      let i := (i + 6)%nat in
      do r <- rtcm_ssig2rsig sys TL sig;
      let k := sig_str r in
      do (wl, i) <- (if old then do w <- getu msg i 2; Some (sset k w (d_wl d), i + 2)%nat else Some (d_wl d, i));
      do di <- getu msg i 4; do pb <- gets msg (i + 4) 20;
      pb_sigs old sys m msg (i + 24)%nat (PD (sset k (sval pb 20) (d_pb d)) (sset k si (d_si d)) (sset k di (d_di d)) wl)
  end.
Record pall := PA { a_pb : dict Z (sdict (option Z)); a_si : dict Z (sdict bool); a_di : dict Z (sdict Z); a_wl : dict Z (sdict Z);
  a_yaw : dict Z Z; a_dyaw : dict Z (option Z) }.
(** rtcm.py:1256-1262: the four dictionaries of the satellite, made empty together if it has no pbias yet;
    otherwise si, di and wl of the satellite must exist (KeyError) *)
Definition psub (sat : Z) (a : pall) : option pdict :=
  match zget sat (a_pb a) with
  | None => Some (PD [] [] [] [])
  | Some p => do x <- zget sat (a_si a); do y <- zget sat (a_di a); do z <- zget sat (a_wl a); Some (PD p x y z)
  end.
Definition pput (sat : Z) (d : pdict) (a : pall) : pall :=
  PA (zset sat (d_pb d) (a_pb a)) (zset sat (d_si d) (a_si a)) (zset sat (d_di d) (a_di a)) (zset sat (d_wl d) (a_wl a)) (a_yaw a) (a_dyaw a).
(** rtcm.py:1240-1286 *)
Fixpoint pb_sats (old yaw igs : bool) (sys : gnss) (n : nat) (msg : bits) (i : nat) (a : pall) : option (list Z * pall * nat) :=
  match n with
  | O => Some ([], a, i)
  | S m =>
      do (sat, i) <- decode_sat igs sys msg i;
      do nsig <- getu msg i 5;
      let i := (i + 5)%nat in
      do (a, i) <- (if old || yaw
                    then do y <- getu msg i 9; do dy <- gets msg (i + 9) 8;
                         Some (PA (a_pb a) (a_si a) (a_di a) (a_wl a) (zset sat y (a_yaw a)) (zset sat (sval dy 8) (a_dyaw a)), i + 17)%nat
                    else Some (a, i));
      do d <- psub sat a;
      do lim <- nsigs sys;
      if nsig >? lim then Some ([sat], pput sat d a, i)
      else
        do (d, i) <- pb_sigs old sys (Z.to_nat nsig) msg i d;
        do (l, a, i) <- pb_sats old yaw igs sys m msg i (pput sat d a);
        Some (sat :: l, a, i)
  end.
(** rtcm.py:1217-1292 decode_cssr_pbias *)
Definition decode_pbias (old igs : bool) (sys : gnss) (s : bst) (msg : bits) (i : nat) : option (bst * nat) :=
  do (h, y, x, i) <- decode_phead old igs (b_base s) sys msg i;
  let new := later (h_time h) (r_t0s (b_base s) SPB) in
  do (l, a, i) <- pb_sats old y igs sys (Z.to_nat (h_nsat h)) msg i
      (if new then PA [] [] [] [] (b_yaw s) (b_dyaw s) else PA (b_pb s) (b_si s) (b_di s) (b_wl s) (b_yaw s) (b_dyaw s));
  Some (BST (retag SPB h l (b_base s)) (fold_left (fun a x => addsat x a) l (if new then [] else b_satb s)) (b_cb s)
          (a_pb a) (a_si a) (a_di a) (a_wl a) (a_yaw a) (a_dyaw a) y x, i).

(** rtcm.py:3946-4072 decode, 1438-1477 decode_igsssr, for these messages ([mask_pbias] = False, its default); [None] also
    stands for the types not modelled here *)
Definition decode_bias (s : bst) (msg : bits) : option (bst * nat) :=
  do mt <- getu msg 24 12;
  match dispatch mt with
  | KIgs =>
      do st <- getu msg 39 8;
      do sys <- zassoc [(2, GPS); (4, GLO); (6, GAL); (8, QZS); (10, BDS); (12, SBS)] (st / 10);
      if st mod 10 =? 5 then decode_cbias true sys s msg 47
      else if st mod 10 =? 6 then decode_pbias true true sys s msg 47
      else None
  | KSsr SCB => do sys <- get_ssr_sys None mt; decode_cbias false sys s msg 36
  | KSsr SPB => do sys <- get_ssr_sys None mt; decode_pbias (1000 <? mt) false sys s msg 36
  | _ => None
  end.
End Bias.

(* ---------- encoder ---------- *)
(** a phase bias to send: pbias, si and di of a signal (simplified: the three dictionaries have the same keys; in the code a
    key missing from di raises KeyError, a satellite missing from si sends 0) *)
Record pent := PE { q_sig : rsig; q_pb : option Z; q_si : Z; q_di : Z }.
(** attributes of the encoder; the dictionaries in the order of their keys.  A code bias stands for the integer
    [int(cbias/0.01)] (see RtcmFloat.v for the rounding), [None] for NaN *)
Record ebst := EB { eb_mt : Z; eb_tow : Z; eb_udi : sct -> Z; eb_mi : bool; eb_iod : Z; eb_pid : Z; eb_sid : Z; eb_iyaw : bool; eb_iexpb : Z;
  eb_sat_n : list Z; eb_cb : list (Z * list (rsig * option Z)); eb_pb : list (Z * list pent); eb_yaw : dict Z Z; eb_dyaw : dict Z (option Z) }.
Definition own {V} (sys : gnss) (l : list (Z * V)) : list (Z * V) := filter (fun x => gnss_eqb (fst (sat2prn (fst x))) sys) l.

(** rtcm.py:4511-4530 encode_head up to the solution id *)
Definition encode_bhead (e : ebst) (sys : gnss) (c : sct) (msg : bits) (i : nat) : option (bits * nat) :=
  let blen := match sys with GLO => 17%nat | _ => 20%nat end in
  do m <- putu msg i blen (eb_tow e);
  let i := (i + blen)%nat in
  do m <- putu m i 4 (eb_udi e c);
  do m <- putu m (i + 4) 1 (Z.b2z (eb_mi e));
  let i := (i + 5)%nat in
  do m <- putu m i 4 (eb_iod e); do m <- putu m (i + 4) 16 (eb_pid e); do m <- putu m (i + 20) 4 (eb_sid e);
  Some (m, (i + 24)%nat).
(** rtcm.py:4700-4704; [int(nan)] raises ValueError *)
Fixpoint encode_cb_sigs (l : list (rsig * option Z)) (msg : bits) (i : nat) : option (bits * nat) :=
  match l with
  | [] => Some (msg, i)
  | (r, v) :: l =>
      do cb <- v; do code <- rsig2code r;
      do m <- putu msg i 5 code; do m <- puts m (i + 5) 14 cb;
      encode_cb_sigs l m (i + 19)%nat
  end.
(** rtcm.py:4690-4704 *)
Fixpoint encode_cb_sats (l : list (Z * list (rsig * option Z))) (msg : bits) (i : nat) : option (bits * nat) :=
  match l with
  | [] => Some (msg, i)
  | (sat, x) :: l =>
      do (m, i) <- encode_sat msg i sat;
      do m <- putu m i 5 (Z.of_nat (length x));
      do (m, i) <- encode_cb_sigs x m (i + 5)%nat;
      encode_cb_sats l m i
  end.
(** rtcm.py:4685-4706 encode_cssr_cbias: the header counts the satellites of sat_n *)
Definition encode_cbias (e : ebst) (sys : gnss) (msg : bits) (i : nat) : option (bits * nat) :=
  do (m, i) <- encode_bhead e sys SCB msg i;
  do m <- putu m i 6 (Z.of_nat (length (of_sys sys (eb_sat_n e))));
  encode_cb_sats (own sys (eb_cb e)) m (i + 6)%nat.
(** rtcm.py:4738-4754 (subtype SSR_PBIAS: no wide-lane indicator) *)
Fixpoint encode_pb_sigs (l : list pent) (msg : bits) (i : nat) : option (bits * nat) :=
  match l with
  | [] => Some (msg, i)
  | p :: l =>
      do code <- rsig2code (q_sig p);
      do m <- putu msg i 5 code; do m <- putu m (i + 5) 1 (if q_si p =? 0 then 0 else 1);
      do m <- putu m (i + 6) 4 (q_di p); do m <- puts m (i + 10) 20 (ival (q_pb p) 20);
      encode_pb_sigs l m (i + 30)%nat
  end.
(** rtcm.py:4723-4754: the yaw angle is written if the satellite has one, whatever [iyaw] says *)
Fixpoint encode_pb_sats (e : ebst) (l : list (Z * list pent)) (msg : bits) (i : nat) : option (bits * nat) :=
  match l with
  | [] => Some (msg, i)
  | (sat, x) :: l =>
      do (m, i) <- encode_sat msg i sat;
      do m <- putu m i 5 (Z.of_nat (length x));
      let i := (i + 5)%nat in
      do (m, i) <- (match zget sat (eb_yaw e) with
                    | Some y => do dy <- zget sat (eb_dyaw e); do dy <- dy;
                                do m <- putu m i 9 y; do m <- puts m (i + 9) 8 dy; Some (m, i + 17)%nat
                    | None => Some (m, i) end);
      do (m, i) <- encode_pb_sigs x m i;
      encode_pb_sats e l m i
  end.
(** rtcm.py:4708-4756 encode_cssr_pbias *)
Definition encode_pbias (e : ebst) (sys : gnss) (msg : bits) (i : nat) : option (bits * nat) :=
  do (m, i) <- encode_bhead e sys SPB msg i;
  do m <- putu m i 1 (Z.b2z (eb_iyaw e)); do m <- putu m (i + 1) 4 (eb_iexpb e);
  do m <- putu m (i + 5) 6 (Z.of_nat (length (own sys (eb_pb e))));
  encode_pb_sats e (own sys (eb_pb e)) m (i + 11)%nat.
(** rtcm.py:4919-4961 encode for these messages *)
Definition encode_bias (e : ebst) (msg : bits) : option (bits * nat) :=
  do m <- putu msg 24 12 (eb_mt e);
  match edispatch (eb_mt e) with
  | KSsr SCB => do sys <- get_ssr_sys None (eb_mt e); encode_cbias e sys m 36
  | KSsr SPB => do sys <- get_ssr_sys None (eb_mt e); encode_pbias e sys m 36
  | KNone => Some (m, 36%nat)
  | _ => None
  end.
