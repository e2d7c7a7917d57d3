(** RTCM satellite antenna messages (80 to 84): decoder.  /repo/src/cssrlib/rtcm.py: 71-76, 439-476, 488-503 of cssrlib.py (decode_mask), 788-795,
    841, 3002-3051, 4066-4068.

    Corrections are in units of 1 mm ([Some None] = not a number); [None] = an exception. *)
From Verif Require Export RAtmModel.
Open Scope Z_scope.

(** satAntCorr(nadc, naddc): [None] = Python's None *)
Definition acorr : Type := option (option Z) * option (list (option Z)).
(** rtcm.py:3043-3047 *)
Fixpoint ant_pcv (cnt w : nat) (msg : bits) (i : nat) : option (list (option Z) * nat) :=
  match cnt with O => Some ([], i) | S c => do y <- getsv msg i w; do (l, i) <- ant_pcv c w msg (i + w)%nat; Some (y :: l, i) end.
(** rtcm.py:3032-3050; [nd]: nde if the angle dependent corrections are there *)
Fixpoint ant_freqs (nd : option Z) (fs : list Z) (msg : bits) (i : nat) (d : dict Z acorr) : option (dict Z acorr * nat) :=
  match fs with
  | [] => Some (d, i)
  | f :: fs =>
      do nci <- getb msg i 1; let i := (i + 1)%nat in
      do (nadc, i) <- (if nci then do y <- getsv msg i 12; Some (Some y, (i + 12)%nat) else Some (None, i));
      do (pcv, i) <- match nd with
                     | Some nde => do (l, i) <- ant_pcv (Z.to_nat nde + 1) (3 + Z.to_nat nde) msg i; Some (Some l, i)
                     | None => Some (None, i)
                     end;
      ant_freqs nd fs msg i (zset f (nadc, pcv) d)
  end.
(** rtcm.py:3023-3050 *)
Fixpoint ant_sats (sys : gnss) (nd : option Z) (svids : list Z) (msg : bits) (i : nat) (antc : dict Z (dict Z acorr)) : option (dict Z (dict Z acorr) * nat) :=
  match svids with
  | [] => Some (antc, i)
  | svid :: svids =>
      let sat := svid2sat sys svid in
      let d := match zget sat antc with Some d => d | None => [] end in
      do _ <- getb msg i 1; do fm <- getu msg (i + 1) 6;
      do (d, i) <- ant_freqs nd (fst (decode_mask fm 6 0)) msg (i + 7)%nat d;
      ant_sats sys nd svids msg i (zset sat d antc)
  end.
(** rtcm.py:3002-3051 decode_ssr_satant *)
Definition decode_satant (sys : gnss) (antc : dict Z (dict Z acorr)) (msg : bits) (i : nat) : option (dict Z (dict Z acorr) * nat) :=
  do _ <- getu msg i 16; do _ <- getu msg (i + 16) 6; do _ <- getb msg (i + 22) 1; do _ <- getb msg (i + 23) 1; do ndi <- getb msg (i + 24) 1;
  let i := (i + 25)%nat in
  do (nd, i) <- (if ndi then do _ <- getu msg i 5; do nde <- getu msg (i + 5) 4; Some (Some nde, (i + 9)%nat) else Some (None, i));
  do _ <- getb msg i 1; do mask <- getu msg (i + 1) 64;
  ant_sats sys nd (fst (decode_mask mask 64 1)) msg (i + 65)%nat antc.
(** rtcm.py:3946-4068 decode for these messages *)
Definition decode_mt80 (antc : dict Z (dict Z acorr)) (msg : bits) : option (dict Z (dict Z acorr) * nat) :=
  do mt <- getu msg 24 12;
  match dispatch mt with KSsr SANT => do sys <- get_ssr_sys None mt; decode_satant sys antc msg 36 | _ => None end.
