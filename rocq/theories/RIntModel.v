(** RTCM SC-134 integrity messages: minimum integrity (3, 2000) and SSR integrity (11, 12, 13, 2011).
    /repo/src/cssrlib/rtcm.py: 79-83, 181-197, 788-795, 3338-3434, 3896-3931, 3946-3950, 4084-4119 (decoder), 4354-4403,
    4919-4930 (encoder).

    Times are in milliseconds (tow*1e-3), the update interval in steps of 0.1 s.  [None] = an exception.  The position returned
    by decode() does not depend on the content of these messages (the one reached is thrown away) and is left out.  The
    dictionaries sts, mst, src, freq, iod_freq, ists, msts have the same keys and are kept as one. *)
From Verif Require Export RtcmSsr.
Open Scope Z_scope.

(** rtcm.py:82-83 *)
Definition sys_tbl (k : Z) : option gnss := nth_error [GPS; GLO; GAL; BDS; QZS; IRN] (Z.to_nat k).
(** rtcm.py:181-182 *)
Definition vp_tbl : list Z := [1; 2; 5; 10; 15; 30; 60; 120; 240; 300; 600; 900; 1800; 3600; 7200; 10800].
(** d[sys] = v *)
Fixpoint gset {V} (s : gnss) (v : V) (d : list (gnss * V)) : list (gnss * V) :=
  match d with [] => [(s, v)] | (s', v') :: d => if gnss_eqb s s' then (s, v) :: d else (s', v') :: gset s v d end.
(** freq, iod_freq, ists, msts of a satellite *)
Record satr := SR { sr_freq : list Z; sr_iod : Z; sr_ists : Z; sr_msts : Z }.
(** sts, mst, src of a constellation, and its satellites *)
Record conr := CR { cr_sts : Z; cr_mst : list Z; cr_src : Z; cr_sat : dict Z satr }.
(** self.week, self.time, and self.integ *)
Record ist := IST { i_week : Z; i_time : gtime; i_tow : Z; i_pid : Z; i_vp : Z; i_udi : Z; i_aid : Z; i_iods : list (gnss * Z);
  i_min : list (gnss * conr); i_pidssr : Z; i_sidssr : Z; i_iodssr : Z; i_flag : list (gnss * dict Z Z); i_sat_e : list Z }.

(** rtcm.py:3338-3356 decode_integ_head: tow, pid, vp, udi, aid *)
Definition decode_ihead (mt : Z) (s : ist) (msg : bits) (i : nat) : option (Z * Z * Z * Z * Z * nat) :=
  do tow <- getu msg i 30; do pid <- getu msg (i + 30) 12; do vp <- getu msg (i + 42) 4; do udi <- getu msg (i + 46) 16;
  do vp <- nth_error vp_tbl (Z.to_nat vp);
  if mt =? 2000 then Some (tow, pid, vp, udi, i_aid s, (i + 62)%nat)
  else do aid <- getu msg (i + 62) 10; Some (tow, pid, vp, udi, aid, (i + 72)%nat).
(** rtcm.py:3408-3423 *)
Fixpoint min_sats (sys : gnss) (svids : list Z) (msg : bits) (i : nat) (d : dict Z satr) : option (dict Z satr * nat) :=
  match svids with
  | [] => Some (d, i)
  | svid :: svids =>
      do f <- getu msg i 8; do iod <- getu msg (i + 8) 2; do a <- getu msg (i + 10) 8; do b <- getu msg (i + 18) 8;
      min_sats sys svids msg (i + 26)%nat (zset (svid2sat sys svid) (SR (fst (decode_mask f 8 0)) iod a b) d)
  end.
(** rtcm.py:3381-3423 *)
Fixpoint min_cons (ks : list Z) (msg : bits) (i : nat) (iods : list (gnss * Z)) (d : list (gnss * conr)) : option (list (gnss * Z) * list (gnss * conr)) :=
  match ks with
  | [] => Some (iods, d)
  | k :: ks =>
      do sys <- sys_tbl k;
      do mask <- getu msg i 64; do iod <- getu msg (i + 64) 2; do sts <- getu msg (i + 66) 64; do mst <- getu msg (i + 130) 64; do src <- getu msg (i + 194) 3;
      do (sats, i) <- min_sats sys (fst (decode_mask mask 64 1)) msg (i + 197)%nat [];
      min_cons ks msg i (gset sys iod iods) (gset sys (CR sts (fst (decode_mask mst 64 (if gnss_eqb sys QZS then 193 else 1))) src sats) d)
  end.
(** rtcm.py:3358-3434 decode_integrity_min; the attributes are set in the loop: nothing changes without a constellation *)
Definition decode_min (mt : Z) (s : ist) (msg : bits) (i : nat) : option ist :=
  do (tow, pid, vp, udi, aid, i) <- decode_ihead mt s msg i;
  do mask <- getu msg i 16; do _ <- getu msg (i + 16) 16; do _ <- getu msg (i + 32) 16;
  let ks := fst (decode_mask mask 16 0) in
  do (iods, d) <- min_cons ks msg (i + 48)%nat [] [];
  let t := gpst2time 1000 (i_week s) tow in
  match ks with
  | [] => Some (IST (i_week s) t tow pid vp udi aid (i_iods s) (i_min s) (i_pidssr s) (i_sidssr s) (i_iodssr s) (i_flag s) (i_sat_e s))
  | _ => Some (IST (i_week s) t tow pid vp udi aid iods d (i_pidssr s) (i_sidssr s) (i_iodssr s) (i_flag s) (i_sat_e s))
  end.
(** rtcm.py:3922-3927 *)
Fixpoint ssr_sats (sys : gnss) (svids : list Z) (msg : bits) (i : nat) (d : dict Z Z) (e : list Z) : option (dict Z Z * list Z * nat) :=
  match svids with
  | [] => Some (d, e, i)
  | svid :: svids =>
      let sat := svid2sat sys svid in
      do f <- getu msg i 2;
      ssr_sats sys svids msg (i + 2)%nat (zset sat f d) (if f =? 1 then e ++ [sat] else e)
  end.
(** rtcm.py:3915-3927 *)
Fixpoint ssr_cons (ks : list Z) (msg : bits) (i : nat) (iods : list (gnss * Z)) (d : list (gnss * dict Z Z)) (e : list Z)
    : option (list (gnss * Z) * list (gnss * dict Z Z) * list Z) :=
  match ks with
  | [] => Some (iods, d, e)
  | k :: ks =>
      do sys <- sys_tbl k;
      do mask <- getu msg i 64; do iod <- getu msg (i + 64) 2;
      do (fl, e, i) <- ssr_sats sys (fst (decode_mask mask 64 1)) msg (i + 66)%nat [] e;
      ssr_cons ks msg i (gset sys iod iods) (gset sys fl d) e
  end.
(** rtcm.py:3896-3931 decode_integrity_ssr *)
Definition decode_issr (mt : Z) (s : ist) (msg : bits) (i : nat) : option ist :=
  do (tow, pid, vp, udi, aid, i) <- decode_ihead mt s msg i;
  do p <- getu msg i 16; do sid <- getu msg (i + 16) 4; do iod <- getu msg (i + 20) 4; do mask <- getu msg (i + 24) 16;
  do (iods, d, e) <- ssr_cons (fst (decode_mask mask 16 0)) msg (i + 40)%nat [] [] [];
  Some (IST (i_week s) (gpst2time 1000 (i_week s) tow) tow pid vp udi aid iods (i_min s) p sid iod d e).
(** rtcm.py:3946-4119 decode for these messages *)
Definition decode_int (s : ist) (msg : bits) : option ist :=
  do mt <- getu msg 24 12;
  match dispatch mt with
  | KOther => if zin mt [3; 2000] then decode_min mt s msg 36 else if zin mt [11; 2011; 12; 13] then decode_issr mt s msg 36 else None
  | _ => None
  end.

(* ---------- encoder ---------- *)
(** attributes of the encoder: msgtype, pid, sid, iodssr, and of integ: pid, tow (ms), vp (s), udi, iod_sys with flag[sys] *)
Record eint := EI { ei_mt : Z; ei_pidssr : Z; ei_sid : Z; ei_iod : Z; ei_pid : Z; ei_tow : Z; ei_vp : Z; ei_udi : Z; ei_con : list (gnss * (Z * list (Z * Z))) }.
(** sys_r_tbl, vp_r_tbl: position in the table, KeyError if there is none *)
Fixpoint pos {A} (f : A -> bool) (l : list A) : option Z := match l with [] => None | x :: l => if f x then Some 0 else do k <- pos f l; Some (k + 1) end.
Fixpoint sys_idx (l : list (gnss * (Z * list (Z * Z)))) : option (list Z) :=
  match l with [] => Some [] | (s, _) :: l => do k <- pos (gnss_eqb s) [GPS; GLO; GAL; BDS; QZS; IRN]; do r <- sys_idx l; Some (k :: r) end.
(** rtcm.py:4398-4401 *)
Fixpoint enc_flags (l : list (Z * Z)) (msg : bits) (i : nat) : option (bits * nat) :=
  match l with [] => Some (msg, i) | (_, f) :: l => do m <- putu msg i 2 f; enc_flags l m (i + 2)%nat end.
(** rtcm.py:4384-4401 *)
Fixpoint enc_cons (l : list (gnss * (Z * list (Z * Z)))) (msg : bits) (i : nat) : option (bits * nat) :=
  match l with
  | [] => Some (msg, i)
  | (_, (iod, fl)) :: l =>
      do mask <- encode_mask (map (fun x => let '(s, prn) := sat2prn (fst x) in match s with QZS => prn - 192 | _ => prn end) fl) 64 1;
      do m <- putu msg i 64 mask; do m <- putu m (i + 64) 2 iod;
      do (m, i) <- enc_flags fl m (i + 66)%nat;
      enc_cons l m i
  end.
(** rtcm.py:4354-4403 encode_integrity_ssr *)
Definition encode_issr (e : eint) (msg : bits) (i : nat) : option (bits * nat) :=
  do ks <- sys_idx (ei_con e); do mask <- encode_mask ks 16 0;
  do m <- putu msg i 12 (ei_pid e);
  do m <- putu m (i + 12) 16 (ei_pidssr e); do m <- putu m (i + 28) 4 (ei_sid e); do m <- putu m (i + 32) 4 (ei_iod e);
  do m <- putu m (i + 36) 30 (ei_tow e); do m <- putu m (i + 66) 16 mask;
  do vp <- pos (Z.eqb (ei_vp e)) vp_tbl;
  do m <- putu m (i + 82) 4 vp; do m <- putu m (i + 86) 16 (ei_udi e);
  enc_cons (ei_con e) m (i + 102)%nat.
(** rtcm.py:4919-4930 encode for these messages *)
Definition encode_int (e : eint) (msg : bits) : option (bits * nat) :=
  do m <- putu msg 24 12 (ei_mt e); match edispatch (ei_mt e) with KOther => encode_issr e m 36 | _ => None end.
