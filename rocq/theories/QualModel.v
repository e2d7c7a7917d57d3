(** Quality indicator <-> URA, over exact reals.
    cssrlib.py:508-516 quality_idx, cssrlib.py:1504-1510 quality2qi.
    IEEE rounding is not modelled: [np.log]/[np.exp] are the real functions. *)
From Coq Require Import Reals ZArith Lra.
Open Scope R_scope.

(** Python int(x) for a float: truncation toward zero *)
Definition rtrunc (x : R) : Z := if Rle_dec 0 x then Int_part x else (- Int_part (- x))%Z.

(** cssrlib.py:508-516; [None] = NaN *)
Definition quality_idx (cl v : Z) : option R :=
  if andb (Z.eqb cl 7) (Z.eqb v 7) then Some 5.4665
  else if andb (Z.eqb cl 0) (Z.eqb v 0) then None
  else Some ((powerRZ 3 cl * (1 + IZR v * (1/4)) - 1) * (1/1000)).

(** cssrlib.py:1504-1510 *)
Definition quality2qi (y : R) : Z * Z :=
  let n3 := ln 3 in
  let n_ := ln (y * 1000 + 1) / n3 in
  let cls := rtrunc n_ in
  let val := rtrunc ((exp ((n_ - IZR cls) * n3) - 1) / (1/4)) in
  (cls, val).

(** rtcm.py:4676-4679: what the encoder sends for a stored URA ([None] = NaN) *)
Definition encode_quality (y : option R) : Z * Z :=
  match y with None => (0, 0)%Z | Some y => quality2qi y end.
