(** IGS ionosphere message (4076, subtype 201): decoder.  /repo/src/cssrlib/rtcm.py: 987-1034, 1402-1436, 1438-1450, 4000-4001;
    /repo/src/cssrlib/cssrlib.py: 484-488.

    [None] = an exception; only the position reached is kept, since the coefficients are local variables. *)
From Verif Require Export RtcmFrame.
Open Scope Z_scope.

(** what bs.unpack_from gives without an index is a tuple; rtcm.py:1420, 1426 *)
Inductive pyval := PInt (z : Z) | PTuple (z : Z).
(** cssrlib.py:484-488 sval: a tuple is never equal to the reserved value, and its product with a float is a TypeError *)
Definition py_sval (u : pyval) (n : nat) : option (option Z) :=
  match u with PInt z => Some (if z =? - 2 ^ (Z.of_nat n - 1) then None else Some z) | PTuple _ => None end.
(** rtcm.py:1417-1428: [cnt] coefficients *)
Fixpoint coefs (cnt : nat) (msg : bits) (i : nat) : option nat :=
  match cnt with O => Some i | S c => do u <- gets msg i 16; do _ <- py_sval (PTuple u) 16; coefs c msg (i + 16)%nat end.
(** for j in range(from, m+1): for l in range(j, n+1) *)
Definition count (from n m : nat) : nat := fold_right Nat.add 0%nat (map (fun j => (n + 1 - j)%nat) (seq from (m + 1 - from))).
(** rtcm.py:1412-1428 *)
Fixpoint layers (k : nat) (msg : bits) (i : nat) : option nat :=
  match k with
  | O => Some i
  | S k =>
      do _ <- getu msg i 8; do n <- getu msg (i + 8) 4; do m <- getu msg (i + 12) 4;
      do i <- coefs (count 0 (Z.to_nat n) (Z.to_nat m)) msg (i + 16)%nat;
      do i <- coefs (count 1 (Z.to_nat n) (Z.to_nat m)) msg i;
      layers k msg i
  end.
(** rtcm.py:1402-1436 decode_vtec, with its header (20, 4, 1, 4, 16 and 4 bits) *)
Definition decode_vtec (msg : bits) (i : nat) : option nat :=
  do _ <- getu msg i 20; do _ <- getu msg (i + 20) 4; do _ <- getb msg (i + 24) 1; do _ <- getu msg (i + 25) 4; do _ <- getu msg (i + 29) 16; do _ <- getu msg (i + 45) 4;
  do _ <- getu msg (i + 49) 9; do nl <- getu msg (i + 58) 2;
  layers (Z.to_nat nl) msg (i + 60)%nat.
(** rtcm.py:1438-1450, 4000-4001 *)
Definition decode_mt4076_201 (msg : bits) : option nat :=
  do mt <- getu msg 24 12;
  match dispatch mt with KIgs => do sub <- getu msg 39 8; if sub =? 201 then decode_vtec msg 47 else None | _ => None end.
