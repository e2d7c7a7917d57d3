(** Bit-level helpers: copy_buff, bit masks, signed values with reserved codes. *)
From Verif Require Export Base.
Open Scope Z_scope.

(** gnss.py:1738-1748 copy_buff(src, dst, ofst_s, ofst_d, blen).
    [dst] is mutated in Python; here the new [dst] is returned ([None] = bitstruct.Error). *)
Definition copy_step (src : bits) (w os od k : nat) (dst : bits) : option bits :=
  do d <- getu src (k * 32 + os) w;
  putu dst (k * 32 + od) w d.
Definition copy_buff (src dst : bits) (os od blen : nat) : option bits :=
  let b := (blen / 32)%nat in
  let r := (blen - b * 32)%nat in
  do dst <- mfor b 0 (copy_step src 32 os od) dst;
  if (0 <? r)%nat then copy_step src r os od b dst else Some dst.

(** cssrlib.py:538-546 decode_mask(din, bitlen, ofst=1); returns (v, n) *)
Definition mask_step (din : Z) (bitlen : nat) (ofst : Z) (acc : list Z * Z) (k : nat) : list Z * Z :=
  let '(v, n) := acc in
  if Z.testbit din (Z.of_nat (bitlen - k - 1)) then (v ++ [Z.of_nat k + ofst], n + 1) else (v, n).
Definition decode_mask (din : Z) (bitlen : nat) (ofst : Z) : list Z * Z :=
  fold_left (mask_step din bitlen ofst) (seq 0 bitlen) ([], 0).

(** cssrlib.py:1495-1502 encode_mask(v, bitlen, ofst=1); a negative shift count raises ValueError *)
Fixpoint encode_mask_aux (v : list Z) (bitlen : nat) (ofst : Z) (d : Z) : option Z :=
  match v with
  | [] => Some d
  | p :: r =>
    let k := p - ofst in
    let sh := Z.of_nat bitlen - k - 1 in
    if sh <? 0 then None else encode_mask_aux r bitlen ofst (Z.lor d (Z.shiftl 1 sh))
  end.
Definition encode_mask (v : list Z) (bitlen : nat) (ofst : Z) : option Z :=
  encode_mask_aux v bitlen ofst 0.

(** cssrlib.py:490-494 isset(mask, nbit, k) *)
Definition isset (mask : Z) (nbit k : nat) : bool := Z.testbit mask (Z.of_nat (nbit - k - 1)).

(** signed value times LSB: the mantissa is kept, [None] = NaN.
    cssrlib.py:484-488 *)
Definition sval (u : Z) (n : nat) : option Z :=
  if u =? - 2 ^ (Z.of_nat n - 1) then None else Some u.
(** cssr_has.py:31-36 *)
Definition sval_has (u : Z) (n : nat) : option Z :=
  if (u =? - 2 ^ (Z.of_nat n - 1)) || (u =? 2 ^ (Z.of_nat n - 1) - 1) then None else Some u.
(** cssr_bds.py:74-79 *)
Definition sval_bds (u : Z) (n : nat) : option Z :=
  if (u =? - 2 ^ (Z.of_nat n - 1)) || (u =? - (2 ^ (Z.of_nat n - 1) - 1)) then None else Some u.
(** dgps.py:105-109 and sbas.py:369-373 *)
Definition sval_sbas (u : Z) (n : nat) : option Z :=
  if u =? 2 ^ (Z.of_nat n - 1) - 1 then None else Some u.
