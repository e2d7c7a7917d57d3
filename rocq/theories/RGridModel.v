(** RTCM SSR grid definition message: encoder.  /repo/src/cssrlib/rtcm.py: 4420-4482, 4935-4937.

    Latitudes and longitudes are in ticks of 0.001/U degrees, heights in ticks of 12.5/U m: [int(x/1e-3)] is [Z.quot x U].
    Simplified: rounding of the float quotient.  Not modelled: grid type 2, which no decoder of the package reads. *)
From Verif Require Export RAtmModel.
Open Scope Z_scope.
Notation length := List.length.

(** pid, mi, gid, gtype, ofst, and grid: nid, lat, lon, alt *)
Record egrid := EG { eg_mt : Z; eg_pid : Z; eg_mi : bool; eg_gid : Z; eg_type : Z; eg_ofst : Z; eg_grid : list (Z * (Z * Z * Z)) }.
(** rtcm.py:4446-4460, 4472-4482 *)
Fixpoint enc_steps (U ty : Z) (l : list (Z * Z * Z)) (lat lon alt : Z) (msg : bits) (i : nat) : option (bits * nat) :=
  match l with
  | [] => Some (msg, i)
  | (lat', lon', alt') :: l =>
      do m <- puts msg i 13 (Z.quot (lat' - lat) U); do m <- puts m (i + 13) 14 (Z.quot (lon' - lon) U);
      do (m, i) <- (if ty =? 0 then do m <- puts m (i + 27) 9 (Z.quot (alt' - alt) U); Some (m, (i + 36)%nat) else Some (m, (i + 27)%nat));
      enc_steps U ty l lat' lon' alt' m i
  end.
(** rtcm.py:4420-4482 encode_ssr_grid; no point of the network: IndexError *)
Definition encode_grid (U : Z) (e : egrid) (msg : bits) (i : nat) : option (bits * nat) :=
  do m <- putu msg i 16 (eg_pid e); do m <- putu m (i + 16) 1 (Z.b2z (eg_mi e)); do m <- putu m (i + 17) 10 (eg_gid e); do m <- putu m (i + 27) 3 (eg_type e);
  let i := (i + 30)%nat in
  let pts := map snd (filter (fun p => fst p =? eg_gid e) (eg_grid e)) in
  if eg_type e =? 2 then None else if negb ((eg_type e =? 0) || (eg_type e =? 1)) then Some (m, i) else
  match pts with
  | [] => None
  | (lat, lon, alt) :: l =>
      do m <- puts m i 18 (Z.quot lat U); do m <- puts m (i + 18) 19 (Z.quot lon U);
      do (m, i) <- (if eg_type e =? 0 then do m <- putu m (i + 37) 10 (Z.quot (alt + 80 * U) U); Some (m, (i + 47)%nat) else Some (m, (i + 37)%nat));
      do m <- putu m i 12 (eg_ofst e); do m <- putu m (i + 12) 8 (Z.of_nat (length pts) - 1);
      enc_steps U (eg_type e) l lat lon alt m (i + 20)%nat
  end.
(** rtcm.py:4919-4937 encode for this message *)
Definition encode_mt61 (U : Z) (e : egrid) (msg : bits) : option (bits * nat) :=
  do m <- putu msg 24 12 (eg_mt e); match edispatch (eg_mt e) with KSsr SGRID => encode_grid U e m 36 | _ => None end.
