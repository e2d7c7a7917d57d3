(** SBAS ionospheric delay: /repo/src/cssrlib/sbas.py searchIGP 81-140, ionoSBAS 143-190, init_sbas_gp 317-367.

    - Latitude and longitude of the pierce point are given in degrees as rational numbers; the pierce point and the
      slant factor (ionppp, 158-159 and 186-187) are not modelled: delay and variance below are the vertical ones.
    - Delays are integer mantissas of 0.125 m as stored by the decoder ([None] = NaN).
    - The factor 9e-8*|t - t0| of the variance (183-184) and [cs.inet] are left out. *)
From Coq Require Import QArith Qround.
From Verif Require Import CssrState SbasModel.
From Verif Require Export Base.
Notation length := List.length.
Open Scope Z_scope.

(* ---------- grid points, sbas.py:317-367 ---------- *)
Definition arange (a n st : Z) : list Z := map (fun k => a + st * Z.of_nat k) (seq 0 (Z.to_nat n)).
Definition p0 : list Z := [-85; -75; -65] ++ arange (-55) 23 5 ++ [65; 75; 85].
Definition column (band k : Z) : list Z :=
  let s := band mod 2 in
  if k mod 2 =? 0 then
    if k =? band - s then if s =? 0 then skipn 1 p0 else firstn 28 p0
    else firstn 27 (skipn 1 p0)
  else firstn 23 (skipn 3 p0).
Definition igp_row (lat0 k : Z) : list (Z * Z) :=
  let lat := lat0 + k * Z.sgn lat0 * 5 in
  map (pair lat) (if k =? 0 then arange (-180) 72 5
                  else if k =? 4 then arange (if lat0 >? 0 then -180 else -170) 12 30
                  else arange (-180) 36 10).
Definition igp_t (band : Z) : list (Z * Z) :=
  if band <=? 8 then flat_map (fun k => map (fun lat => (lat, -180 + 40 * band + k * 5)) (column band k)) (arange 0 8 1)
  else flat_map (igp_row (if band =? 9 then 60 else -60)) (arange 0 5 1).

(* ---------- corners of the cell, sbas.py:86-121 ---------- *)
Definition fdiv (q : Q) (n : Z) : Z := Qfloor (q / inject_Z n) * n.   (* q//n*n *)
Definition qlt (a b : Q) : bool := negb (Qle_bool b a).
Definition qz (z : Z) : Q := inject_Z z.
Definition wrap180 (l : Z) : Z := if l =? 180 then -180 else l.
Definition cell (lat lon : Q) : list (Z * Z) * Q * Q :=
  let lon := if Qle_bool (qz 180) lon then (lon - qz 360)%Q else lon in
  if Qle_bool (qz (-55)) lat && qlt lat (qz 55) then
    let a := fdiv lat 5 in let b := fdiv lon 5 in
    (map (fun p => (fst p, wrap180 (snd p))) [(a, b); (a + 5, b); (a, b + 5); (a + 5, b + 5)],
     ((lon - qz b) / qz 5)%Q, ((lat - qz a) / qz 5)%Q)
  else
    let a := fdiv (lat - qz 5) 10 + 5 in let b := fdiv lon 10 in
    let '(l0, l1, l2, l3) :=
      if Qle_bool (qz 75) lat && qlt lat (qz 85) then (b, fdiv lon 90, b + 10, fdiv lon 90 + 90)
      else if Qle_bool (qz (-85)) lat && qlt lat (qz (-75)) then (fdiv (lon - qz 50) 90 + 40, b, fdiv (lon - qz 50) 90 + 40 + 90, b + 10)
      else if Qle_bool (qz 85) lat then (fdiv lon 90, fdiv lon 90, fdiv lon 90, fdiv lon 90)
      else if qlt lat (qz (-85)) then let c := fdiv (lon - qz 50) 90 + 40 in (c, c, c, c)
      else (b, b, b + 10, b + 10) in
    (map (fun p => (fst p, wrap180 (snd p))) [(a, l0); (a + 10, l1); (a, l2); (a + 10, l3)],
     ((lon - qz b) / qz 10)%Q, ((lat - qz a) / qz 10)%Q).

(* ---------- searching a corner in one band, sbas.py:127-137 ---------- *)
Fixpoint where_ (p : Z * Z) (l : list (Z * Z)) (k : nat) : option nat :=
  match l with
  | [] => None
  | q :: r => if (fst q =? fst p) && (snd q =? snd p) then Some k else where_ p r (S k)
  end.
(** [igp_t[band][igp_idx[band]]]; None = IndexError *)
Fixpoint pick (t : list (Z * Z)) (idx : list Z) : option (list (Z * Z)) :=
  match idx with
  | [] => Some []
  | k :: r => do a <- nth_error t (Z.to_nat k); do l <- pick t r; Some (a :: l)
  end.
Definition pt := (option Z * Z)%type.
(** outer None = exception, inner None = no such point *)
Definition look (gp : list (Z * Z)) (v : list (option Z)) (g : list Z) (p : Z * Z) : option (option pt) :=
  match where_ p gp 0 with
  | None => Some None
  | Some k => if (length g <? k)%nat then Some None else
      do gi <- nth_error g k;
      if gi <=? 0 then Some None else do d <- nth_error v k; Some (Some (d, gi))
  end.
Fixpoint search (bands : list Z) (s : sst) (p : Z * Z) (acc : option pt) : option (option pt) :=
  match bands with
  | [] => Some acc
  | b :: r =>
      match zget b (ss_vtec s), zget b (ss_givei s) with
      | Some v, Some g =>
          do idx <- zget b (ss_igp s);
          do gp <- pick (igp_t b) idx;
          do o <- look gp v g p;
          search r s p (match o with Some x => Some x | None => acc end)
      | _, _ => search r s p acc
      end
  end.
Definition searchIGP (lat lon : Q) (s : sst) : option (list (option pt) * Q * Q) :=
  let '(ps, x, y) := cell lat lon in
  do l <- (fix go ps := match ps with [] => Some [] | p :: r => do o <- search (arange 0 11 1) s p None; do l <- go r; Some (o :: l) end) ps;
  Some (l, x, y).

(* ---------- weights and sums, sbas.py:149-185 ---------- *)
Definition has (l : list (option pt)) (i : nat) : bool := match nth_error l i with Some (Some _) => true | _ => false end.
Definition givei_t : list Q := map (fun n => n # 10000)
  [84; 333; 749; 1331; 2079; 2994; 4075; 5322; 6735; 8315; 11974; 18709; 33260; 207870; 1870826; 0].
Definition setw (w : list Q) (i : nat) (q : Q) : list Q := upd i (fun _ => q) w.
Fixpoint triangles (l : list (option pt)) (ts : list (nat * nat * nat * Q * Q)) : option (list Q) :=
  match ts with
  | [] => None
  | (i, j, k, u, v) :: r =>
      if has l i && has l j && has l k then
        let w2 := (1 - u - v)%Q in
        if qlt w2 0 then None else Some (setw (setw (setw [0; 0; 0; 0]%Q i u) j v) k w2)
      else triangles l r
  end.
Definition weights (l : list (option pt)) (x y : Q) : option (list Q) :=
  if (length (filter (fun o => match o with Some _ => true | None => false end) l) <? 3)%nat then None else
  let x1 := (1 - x)%Q in let y1 := (1 - y)%Q in
  if has l 0 && has l 1 && has l 2 && has l 3 then Some [x1 * y1; x1 * y; x * y1; x * y]%Q
  else triangles l [(1, 2, 0, y, x); (0, 3, 2, x1, y); (0, 3, 1, y1, x); (1, 2, 3, x1, y1)]%nat.
Inductive ires := IErr | IZero | IVal (delay : option Q) (var : Q).
Fixpoint sums (l : list (option pt)) (w : list Q) : option Q * Q :=
  match l, w with
  | o :: l, q :: w =>
      let '(d, v) := sums l w in
      match o with
      | None => (d, v)
      | Some (a, g) => (match a, d with Some z, Some d => Some (q * qz z + d)%Q | _, _ => None end,
                        (q * nth (Z.to_nat g) givei_t 0 + v)%Q)
      end
  | _, _ => (Some 0%Q, 0%Q)
  end.
Definition ionoSBAS (lat lon : Q) (s : sst) : ires :=
  match searchIGP lat lon s with
  | None => IErr
  | Some (l, x, y) => match weights l x y with
                      | None => IZero
                      | Some w => let '(d, v) := sums l w in IVal d v
                      end
  end.
