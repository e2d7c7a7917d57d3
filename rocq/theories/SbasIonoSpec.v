(** What the SBAS grid and the interpolation mean, independently of the search. *)
From Coq Require Import QArith.
From Verif Require Import CssrState SbasModel SbasIonoModel SbasSpec.
From Verif Require Export Base.
Notation length := List.length.
Open Scope Z_scope.

(** the grid points of bands 0 to 8: latitudes on the meridian [lo] *)
Definition in_grid (la lo : Z) : Prop :=
  -180 <= lo <= 175 /\ lo mod 5 = 0 /\
  ((-55 <= la <= 55 /\ la mod 5 = 0) \/
   ((la = -75 \/ la = -65 \/ la = 65 \/ la = 75) /\ lo mod 10 = 0) \/
   (la = 85 /\ lo mod 90 = 0) \/
   (la = -85 /\ (lo = -140 \/ lo = -50 \/ lo = 40 \/ lo = 130))).
(** delay and error indicator announced in some band for the grid point [p], the point being usable *)
Definition avail (s : sst) (p : Z * Z) (v : option Z) (g : Z) : Prop :=
  exists band n, 0 <= band <= 10 /\ nth_error (igp_t band) n = Some p /\ grid s band (Z.of_nat n) = Some (v, g) /\ 0 < g.
(** the arrays agree with the masks *)
Definition wf_grid (s : sst) : Prop :=
  forall band, 0 <= band <= 10 -> forall v g, zget band (ss_vtec s) = Some v -> zget band (ss_givei s) = Some g ->
    exists idx, zget band (ss_igp s) = Some idx /\ NoDup idx /\ Forall (fun k => 0 <= k < Z.of_nat (length (igp_t band))) idx /\
      length v = length idx /\ length g = length idx.
(** longitude in [-180, 180) of a grid meridian *)
Definition norm (lo : Z) : Z := if lo =? 180 then -180 else lo.
Definition sumq (l : list Q) : Q := fold_right Qplus 0%Q l.
Definition Qabs_le (q r : Q) : Prop := (- r <= q <= r)%Q.
