(** Precise ephemerides: interpolation, /repo/src/cssrlib/peph.py:301-384 (interppol, pephpos) and
    386-433 (pephclk), in exact arithmetic over any field of characteristic zero with an order on
    the times.  NaN is [None].  Standard deviations (vare, varc) are not modelled. *)
From Verif Require Import PephModel.
From mathcomp Require Import all_ssreflect all_algebra.
Set Implicit Arguments.
Unset Strict Implicit.
Unset Printing Implicit Defensive.
Import GRing.Theory.
Local Open Scope ring_scope.

(** peph.py:301-305 interppol, in place on [y] *)
Section Neville.
Variable F : fieldType.
Definition nev_inner (x : seq F) (j n : nat) (y : seq F) : seq F :=
  foldl (fun y i => set_nth 0 y i
           ((x`_(i + j) * y`_i - x`_i * y`_i.+1) / (x`_(i + j) - x`_i))) y (iota 0 (n - j)).
Definition interppol (x y : seq F) (n : nat) : F :=
  (foldl (fun y j => nev_inner x j n y) y (iota 1 n.-1))`_0.
End Neville.

Section Peph.
Variable F : numFieldType.
(** sine and cosine of an angle, and the rotation rate of the earth rCST.OMGE *)
Variables (sn cs : F -> F) (omge : F).
Variable U : Z.

(** integers (ticks) to field elements, and ticks to seconds *)
Definition ofZ (z : Z) : F :=
  match z with Z0 => 0 | Zpos p => (Pos.to_nat p)%:R | Zneg p => - (Pos.to_nat p)%:R end.
Definition tsec (z : Z) : F := ofZ z / ofZ U.

(** x, y, z and clock of one satellite at one epoch; [None] = NaN *)
Record prow := PR { r_x : option F; r_y : option F; r_z : option F; r_c : option F }.
Definition is0 (a : option F) : bool := if a is Some v then v == 0 else false.
(** np.linalg.norm(row) <= 0.0; false if one entry is NaN *)
Definition zero_row (r : prow) : bool := [&& is0 (r_x r), is0 (r_y r), is0 (r_z r) & is0 (r_c r)].
Definition olin (a : F) (x : option F) (b : F) (y : option F) : option F :=
  match x, y with Some u, Some v => Some (a * u + b * v) | _, _ => None end.
Definition ointerp (t : seq F) (y : seq (option F)) : option F :=
  if all isSome y then Some (interppol t [seq odflt 0 v | v <- y] (size y)) else None.

Fixpoint pgets {A} (l : list A) (i : Z) (n : nat) : option (list A) :=
  match n with
  | O => Some nil
  | S m => do x <- pget l i; do r <- pgets l (Z.add i (Zpos xH)) m; Some (x :: r)
  end.

(** peph.py:365-379: the clock from two neighbouring epochs *)
Definition clk_between (time : gtime) (a b : gtime * prow) : option F :=
  let t0 := timediff U time a.1 in
  let t1 := timediff U time b.1 in
  if Z.leb t0 Z0 then r_c a.2
  else if Z.geb t1 Z0 then r_c b.2
  else match r_c a.2, r_c b.2 with
       | Some c0, Some c1 => Some ((c1 * tsec t0 - c0 * tsec t1) / (tsec t0 - tsec t1))
       | _, _ => None
       end.

(** peph.py:307-384 pephpos for one satellite; [tab] are the epochs of nav.peph with the satellite's
    row.  None = exception, Some None = (None, None, False, False). *)
Definition pephpos (ne : Z) (tab : list (gtime * prow)) (time : gtime)
  : option (option (option F * option F * option F * option F)) :=
  do ix <- pindex U (Z.add NMAX (Zpos xH)) ne [seq p.1 | p <- tab] time;
  match ix with
  | None => Some None
  | Some index =>
    do w <- pgets tab (pfirst ne index) 11;
    if has (fun p => zero_row p.2) w then Some None else
    let t := [seq tsec (timediff U p.1 time) | p <- w] in
    let px := [seq let th := omge * tsec (timediff U p.1 time) in
                   olin (cs th) (r_x p.2) (- sn th) (r_y p.2) | p <- w] in
    let py := [seq let th := omge * tsec (timediff U p.1 time) in
                   olin (sn th) (r_x p.2) (cs th) (r_y p.2) | p <- w] in
    let pz := [seq r_z p.2 | p <- w] in
    do a <- pget tab index; do b <- pget tab (Z.add index (Zpos xH));
    Some (Some (ointerp t px, ointerp t py, ointerp t pz, clk_between time a b))
  end.

(** peph.py:386-433 pephclk; a clock of exactly zero counts as missing *)
Definition pephclk (nc : Z) (tab : list (gtime * option F)) (time : gtime) : option (option (option F)) :=
  do ix <- pindex U (Zpos (xO xH)) nc [seq p.1 | p <- tab] time;
  match ix with
  | None => Some None
  | Some index =>
    do a <- pget tab index; do b <- pget tab (Z.add index (Zpos xH));
    let t0 := timediff U time a.1 in
    let t1 := timediff U time b.1 in
    if Z.leb t0 Z0 then Some (if is0 a.2 then None else Some a.2)
    else if Z.geb t1 Z0 then Some (if is0 b.2 then None else Some b.2)
    else if is0 a.2 || is0 b.2 then Some None
    else Some (Some (match a.2, b.2 with
         | Some c0, Some c1 => Some ((c1 * tsec t0 - c0 * tsec t1) / (tsec t0 - tsec t1))
         | _, _ => None
         end))
  end.

(** peph.py:439-474 peph2pos with SP3 data only (nav.nc < 2): position, velocity and clock drift by
    differences over 1 ms; the relativistic clock term is not modelled.  The second evaluation is
    used without looking at whether it returned a position (TypeError). *)
Definition odiff (a b : option F) : option F :=
  match a, b with Some u, Some v => Some ((v - u) / tsec (Z.div U 1000)) | _, _ => None end.
Definition peph2pos (ne : Z) (tab : list (gtime * prow)) (time : gtime) :=
  do a <- pephpos ne tab time;
  match a with
  | None => Some None
  | Some (x, y, z, c) =>
    do b <- pephpos ne tab (timeadd U time (Z.div U 1000));
    match b with
    | None => None
    | Some (x', y', z', c') => Some (Some ((x, y, z), (odiff x x', odiff y y', odiff z z'), (c, odiff c c')))
    end
  end.
End Peph.
