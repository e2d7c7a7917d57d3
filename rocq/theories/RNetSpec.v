(** Network RTK residual messages as bit strings, and the epoch of a message, stated without the codec. *)
From Verif Require Import SatModel SatSpec TimeModel TimeSpec CssrState RtcmFrame RtcmFrameSpec RtcmSsr RtcmSsrSpec MsmSpec RNetModel Base.
Notation length := List.length.
Open Scope Z_scope.

Definition net_number (s : gnss) : option Z := match s with GPS => Some 1030 | GLO => Some 1031 | BDS => Some 1303 | GAL => Some 1304 | QZS => Some 1305 | _ => None end.
(** satellite: constant and distance dependent dispersive-free terms and height term, constant and distance dependent dispersive terms *)
Record nres := NR { q_prn : Z; q_0c : Z; q_0d : Z; q_0h : Z; q_ic : Z; q_id : Z }.
Record nmsg := NM { w_tow : Z; w_ref : Z; w_nrefs : Z; w_sats : list nres }.
Definition net_slot (s : gnss) : nat := match s with QZS => 4 | _ => 6 end.
Definition nres_bits (s : gnss) (x : nres) : bits :=
  bitsof (net_slot s) (slot s (q_prn x)) ++ bitsof 8 (q_0c x) ++ bitsof 9 (q_0d x) ++ bitsof 6 (q_0h x) ++ bitsof 10 (q_ic x) ++ bitsof 10 (q_id x).
Definition net_tow (s : gnss) : nat := match s with GLO => 17 | _ => 20 end.
Definition net_body (s : gnss) (n : nmsg) : bits :=
  bitsof (net_tow s) (w_tow n) ++ bitsof 12 (w_ref n) ++ bitsof 7 (w_nrefs n) ++ bitsof 5 (Z.of_nat (length (w_sats n))) ++ flat_map (nres_bits s) (w_sats n).
Definition net_message (mt : Z) (s : gnss) (n : nmsg) : bits := bitsof 12 mt ++ net_body s n.
Definition nres_ok (s : gnss) (x : nres) : Prop :=
  owns s (q_prn x) /\ slot s (q_prn x) < 2 ^ Z.of_nat (net_slot s) /\ 0 <= q_0c x < 256 /\ 0 <= q_0d x < 512 /\ 0 <= q_0h x < 64 /\ 0 <= q_ic x < 1024 /\ 0 <= q_id x < 1024.
Definition net_ok (s : gnss) (n : nmsg) : Prop :=
  0 <= w_tow n < 2 ^ Z.of_nat (net_tow s) /\ 0 <= w_ref n < 4096 /\ 0 <= w_nrefs n < 128 /\ (length (w_sats n) < 32)%nat /\
  Forall (nres_ok s) (w_sats n) /\ NoDup (map q_prn (w_sats n)).
(** everything but the time *)
Definition net_effect (s : gnss) (n : nmsg) (st st' : nst) : Prop :=
  n_refid st' = w_ref n /\ n_nrefs st' = w_nrefs n /\ n_nsat st' = Z.of_nat (length (w_sats n)) /\ n_week st' = n_week st /\
  (forall x, In x (w_sats n) -> zget (prn2sat s (q_prn x)) (n_r st') = Some (q_0c x, q_0d x, q_0h x, q_ic x, q_id x)) /\
  (forall k, ~ In k (map (fun x => prn2sat s (q_prn x)) (w_sats n)) -> zget k (n_r st') = zget k (n_r st)).
(** the epoch: seconds of the GPS week, of the BeiDou week that begins 14 s later *)
Definition net_epoch (s : gnss) (week : Z) (now : gtime) (tow : Z) : gtime :=
  match s with
  | GLO => utc2gpst 1 (glo2time 1 now tow)
  | BDS => GT (86400 * day_number 1980 1 6 + 604800 * week + tow + 14) 0
  | _ => GT (86400 * day_number 1980 1 6 + 604800 * week + tow) 0
  end.
