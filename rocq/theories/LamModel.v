(** Integer ambiguity estimation: /repo/src/cssrlib/mlambda.py (ldldecom 26-42, reduction 45-74, msearch
    83-148, estimILS 151-242, mlambda 289-336 for parmode 1 and 3).
    Exact arithmetic over an ordered field.  Arrays are functions of their indices; entries outside the
    array are never read.  [rnd] is numpy's and Python's round (to the nearest integer), [sq] the square
    root.  The loops "while" take a number of steps; [None] = still running.  The integers are
    unbounded (numpy: int32 for zcond and step, float for Z). *)
From mathcomp Require Import all_ssreflect all_algebra.
Set Implicit Arguments.
Unset Strict Implicit.
Unset Printing Implicit Defensive.
Import GRing.Theory Num.Theory.
Local Open Scope ring_scope.

Section Lam.
Variable F : realFieldType.
Variables (rnd : F -> int) (sq : F -> F).
Definition vec (T : Type) := nat -> T.
Definition mat (T : Type) := nat -> nat -> T.
Definition vset T (i : nat) (v : T) (x : vec T) : vec T := fun a => if a == i then v else x a.

(* ---------- factorisation ---------- *)
(** lines 33-38, one row [i]; state L, d, A.  Line 34 stores the row divided by the square root, line 36
    uses it, line 37 divides it by its last entry *)
Definition ldl_row (i : nat) (s : mat F * vec F * mat F) : mat F * vec F * mat F :=
  let '(L, d, A) := s in
  let d := vset i (A i i) d in
  let row : vec F := fun b => A i b / sq (d i) in
  let A := fun a b => if (a < i)%N && (b <= a)%N then A a b - row b * row a else A a b in
  let L := fun a b => if (a == i) && (b <= i)%N then row b / row i else L a b in
  (L, d, A).
(** lines 26-42; [None] = SystemExit; [eps] is 1e-10 *)
Definition ldldecom (eps : F) (n : nat) (Q : mat F) : option (mat F * vec F) :=
  let '(L, d, _) := foldl (fun s i => ldl_row i s) (fun _ _ => 0, fun _ => 0, Q) (rev (iota 0 n)) in
  if has (fun i => d i < eps) (iota 0 n) then None else Some (L, d).

(* ---------- reduction ---------- *)
Record rst := RS { r_L : mat F; r_d : vec F; r_Z : mat int }.
(** lines 53-56 *)
Definition red_step (j : nat) (s : rst) (i : nat) : rst :=
  let mu := rnd (r_L s i j) in
  if mu != 0 then
    RS (fun a b => if (b == j) && (i <= a)%N then r_L s a b - mu%:~R * r_L s a i else r_L s a b)
       (r_d s)
       (fun a b => if b == j then r_Z s a b - mu * r_Z s a i else r_Z s a b)
  else s.
(** lines 52-56: for i in range(j+1, n) *)
Definition red_col (n j : nat) (s : rst) : rst := foldl (red_step j) s (iota j.+1 (n - j.+1)).
(** line 58 *)
Definition delta_of (j : nat) (s : rst) : F := r_d s j + r_L s j.+1 j ^+ 2 * r_d s j.+1.
(** lines 60-68 *)
Definition permute (j : nat) (s : rst) : rst :=
  let L := r_L s in let d := r_d s in
  let delta := delta_of j s in
  let eta := d j / delta in
  let lam := d j.+1 * L j.+1 j / delta in
  RS (fun a b =>
        if a == j then (if (b < j)%N then - L j.+1 j * L j b + 1 * L j.+1 b else L a b)
        else if a == j.+1 then
          (if (b < j)%N then eta * L j b + lam * L j.+1 b else if b == j then lam else L a b)
        else if (j.+2 <= a)%N then
          (if b == j then L a j.+1 else if b == j.+1 then L a j else L a b)
        else L a b)
     (vset j.+1 delta (vset j (eta * d j.+1) d))
     (fun a b => if b == j then r_Z s a j.+1 else if b == j.+1 then r_Z s a j else r_Z s a b).
(** lines 50-73; [j] and [k] are the code's plus one (0 = left the loop); [tol] is 1e-6 *)
Fixpoint red_loop (fuel : nat) (tol : F) (n j k : nat) (s : rst) : option rst :=
  match j with
  | 0 => Some s
  | j'.+1 =>
    match fuel with
    | 0 => None
    | fuel'.+1 =>
      let s := if (j <= k)%N then red_col n j' s else s in
      if delta_of j' s + tol < r_d s j'.+1 then red_loop fuel' tol n n.-1 j (permute j' s)
      else red_loop fuel' tol n j' k s
    end
  end.
(** lines 45-74 *)
Definition reduction (fuel : nat) (tol : F) (n : nat) (L : mat F) (d : vec F) : option rst :=
  red_loop fuel tol n n.-1 n.-1 (RS L d (fun a b => (a == b)%:R)).

(* ---------- search ---------- *)
(** candidates: afixed[:, i] and sqnorm[i]; [c_cnt] is count+1 *)
Record cand := CA { c_a : vec (vec int); c_s : vec F; c_cnt : nat; c_imax : nat; c_chi : F }.
Definition cand0 (chi : F) (nc : nat) : cand := CA (fun _ _ => 0) (fun _ => 0) 0 nc.-1 chi.
(** np.argmax: the first of the largest *)
Definition argmax (nc : nat) (s : vec F) : nat := foldl (fun b i => if s b < s i then i else b) 0%N (iota 0 nc).
(** lines 121-130 (msearch), 200-209 (estimILS) *)
Definition store (nc : nat) (z : vec int) (q : F) (c : cand) : cand :=
  if (c_cnt c < nc.-1)%N then
    CA (vset (c_cnt c) z (c_a c)) (vset (c_cnt c) q (c_s c)) (c_cnt c).+1 (c_imax c) (c_chi c)
  else
    let s := vset (c_imax c) q (c_s c) in
    let m := argmax nc s in
    CA (vset (c_imax c) z (c_a c)) s (c_cnt c) m (s m).
(** lines 144-146, 238-240: np.argsort and the two selections, as pairs in the order returned *)
Fixpoint insert (x : vec int * F) (l : seq (vec int * F)) : seq (vec int * F) :=
  match l with [::] => [:: x] | y :: r => if x.2 <= y.2 then x :: l else y :: insert x r end.
Definition results (nc : nat) (c : cand) : seq (vec int * F) :=
  foldr insert [::] [seq (c_a c i, c_s c i) | i <- iota 0 nc].

(** np.sign, zero replaced by one (lines 97-99) *)
Definition sgn1 (x : F) : int := if x < 0 then -1 else 1.
(** zcond[k] += step[k]; step[k] = -step[k]-sign(step[k]) *)
Definition bump (k : nat) (z st : vec int) : vec int * vec int :=
  (vset k (z k + st k) z, vset k (- st k - Num.sg (st k)) st).

(** msearch: dist, acond, zcond, step, S, left, k *)
Record mst := MS { m_dist : vec F; m_ac : vec F; m_z : vec int; m_st : vec int; m_S : mat F;
                   m_left : F; m_k : nat; m_c : cand }.
Definition m_init (chi : F) (n nc : nat) (ahat : vec F) : mst :=
  let ac := vset n.-1 (ahat n.-1) (fun _ => 0) in
  let z := vset n.-1 (rnd (ac n.-1)) (fun _ => 0) in
  let left := ac n.-1 - (z n.-1)%:~R in
  MS (fun _ => 0) ac z (vset n.-1 (sgn1 left) (fun _ => 0)) (fun _ _ => 0) left n.-1 (cand0 chi nc).
(** lines 108-142: one pass of the while loop; [None] = endSearch *)
Definition m_step (n nc : nat) (L : mat F) (d : vec F) (ahat : vec F) (s : mst) : option mst :=
  let k := m_k s in
  let newdist := m_dist s k + m_left s ^+ 2 / d k in
  if newdist < c_chi (m_c s) then
    match k with
    | k'.+1 =>
      let S := fun a b => if (a == k') && (b <= k')%N
                 then m_S s k b + ((m_z s k)%:~R - m_ac s k) * L k b else m_S s a b in
      let ac := vset k' (ahat k' + S k' k') (m_ac s) in
      let z := vset k' (rnd (ac k')) (m_z s) in
      let left := ac k' - (z k')%:~R in
      Some (MS (vset k' newdist (m_dist s)) ac z (vset k' (sgn1 left) (m_st s)) S left k' (m_c s))
    | 0 =>
      let c := store nc (m_z s) newdist (m_c s) in
      let '(z, st) := bump 0 (m_z s) (m_st s) in
      Some (MS (m_dist s) (m_ac s) z st (m_S s) (m_ac s 0%N - (z 0%N)%:~R) 0 c)
    end
  else if k == n.-1 then None
  else
    let k := k.+1 in
    let '(z, st) := bump k (m_z s) (m_st s) in
    Some (MS (m_dist s) (m_ac s) z st (m_S s) (m_ac s k - (z k)%:~R) k (m_c s)).
Fixpoint m_loop (fuel n nc : nat) L d ahat (s : mst) : option cand :=
  match fuel with
  | 0 => None
  | fuel'.+1 => match m_step n nc L d ahat s with None => Some (m_c s) | Some s => m_loop fuel' n nc L d ahat s end
  end.
(** lines 83-148; [chi] is 1e18 *)
Definition msearch (fuel : nat) (chi : F) (n nc : nat) (L : mat F) (d ahat : vec F) : option (seq (vec int * F)) :=
  omap (results nc) (m_loop fuel n nc L d ahat (m_init chi n nc ahat)).

(** estimILS: as msearch with left as an array, and path *)
Record est := ES { e_dist : vec F; e_ac : vec F; e_z : vec int; e_st : vec int; e_S : mat F;
                   e_left : vec F; e_path : vec nat; e_k : nat; e_c : cand }.
Definition e_init (chi : F) (n nc : nat) (ahat : vec F) : est :=
  let ac := vset n.-1 (ahat n.-1) (fun _ => 0) in
  let z := vset n.-1 (rnd (ac n.-1)) (fun _ => 0) in
  let left := vset n.-1 (ac n.-1 - (z n.-1)%:~R) (fun _ => 0) in
  ES (fun _ => 0) ac z (vset n.-1 (sgn1 (left n.-1)) (fun _ => 0)) (fun _ _ => 0) left (fun _ => n.-1) n.-1 (cand0 chi nc).
(** dist[k]+left[k]**2/d[k], lines 184, 217, 229 *)
Definition e_new (d : vec F) (s : est) : F := e_dist s (e_k s) + e_left s (e_k s) ^+ 2 / d (e_k s).
(** lines 190-191: for j in range(path[k], k, -1) *)
Definition e_cols (L : mat F) (left : vec F) (k p : nat) (S : mat F) : mat F :=
  foldl (fun S j => fun a b => if (a == j.-1) && (b == k) then S j k - left j * L j k else S a b) S
        (rev (iota k.+1 (p - k))).
(** zcond[k] += step[k] and the two lines after it (213-215, 226-228) *)
Definition e_next (k : nat) (s : est) : est :=
  let '(z, st) := bump k (e_z s) (e_st s) in
  ES (e_dist s) (e_ac s) z st (e_S s) (vset k (e_ac s k - (z k)%:~R) (e_left s)) (e_path s) k (e_c s).
(** lines 186-215: body of the inner loop, with newdist < Chi2 *)
Definition e_down (k0 nc : nat) (L : mat F) (d ahat : vec F) (s : est) : est :=
  match e_k s with
  | k.+1 =>
    let S := e_cols L (e_left s) k (e_path s k) (e_S s) in
    let ac := vset k (ahat k + S k k) (e_ac s) in
    let z := vset k (rnd (ac k)) (e_z s) in
    let left := vset k (ac k - (z k)%:~R) (e_left s) in
    ES (vset k (e_new d s) (e_dist s)) ac z (vset k (sgn1 (left k)) (e_st s)) S left (e_path s) k (e_c s)
  | 0 => e_next k0 (ES (e_dist s) (e_ac s) (e_z s) (e_st s) (e_S s) (e_left s) (e_path s) 0
                       (store nc (e_z s) (e_new d s) (e_c s)))
  end.
(** lines 185-217; [None] = still running *)
Fixpoint e_inner (fuel k0 nc : nat) L d ahat (s : est) : option est :=
  if e_new d s < c_chi (e_c s) then
    match fuel with 0 => None | fuel'.+1 => e_inner fuel' k0 nc L d ahat (e_down k0 nc L d ahat s) end
  else Some s.
(** lines 221-229: the state and endSearch; at most n-1-k passes *)
Fixpoint e_up (m n : nat) (d : vec F) (s : est) : est * bool :=
  if c_chi (e_c s) <= e_new d s then
    if e_k s == n.-1 then (s, true) else
    match m with 0 => (s, true) | m'.+1 => e_up m' n d (e_next (e_k s).+1 s) end
  else (s, false).
(** lines 231-236 *)
Fixpoint e_path_low (j k : nat) (p : vec nat) : vec nat :=
  match j with 0 => p | j'.+1 => if (p j' < k)%N then e_path_low j' k (vset j' k p) else p end.
Definition e_paths (il k : nat) (p : vec nat) : vec nat :=
  e_path_low il k (fun j => if (il <= j)%N && (j < k)%N then k else p j).
(** lines 183-236 *)
Fixpoint e_loop (fuel fin n k0 nc : nat) L d ahat (s : est) : option cand :=
  match fuel with
  | 0 => None
  | fuel'.+1 =>
    match e_inner fin k0 nc L d ahat s with
    | None => None
    | Some s1 =>
      let '(s2, stop) := e_up n n d s1 in
      let s3 := ES (e_dist s2) (e_ac s2) (e_z s2) (e_st s2) (e_S s2) (e_left s2)
                   (e_paths (e_k s1) (e_k s2) (e_path s2)) (e_k s2) (e_c s2) in
      if stop then Some (e_c s3) else e_loop fuel' fin n k0 nc L d ahat s3
    end
  end.
(** lines 151-242 *)
Definition estimILS (fuel : nat) (chi : F) (n nc : nat) (L : mat F) (d ahat : vec F) : option (seq (vec int * F)) :=
  let k0 := if (nc == 1%N) && (1 < n)%N then 1%N else 0%N in
  omap (results nc) (e_loop fuel fuel n k0 nc L d ahat (e_init chi n nc ahat)).

(* ---------- mlambda ---------- *)
(** Z.T @ ahat, line 298 *)
Definition zhat_of (n : nat) (Z : mat int) (a : vec F) : vec F := fun j => \sum_(i < n) (Z i j)%:~R * a i.
(** np.round(inv(Z.T)) @ zfix, lines 297 and 335.  In exact arithmetic the inverse of the transposed
    integer matrix of determinant +-1 is an integer matrix and rounding does nothing: modelled as the
    inverse over the integers (computed from the adjugate), transposed *)
Definition back (n : nat) (Z : mat int) (z : vec int) : vec int :=
  let Zm : 'M[int]_n := \matrix_(i, j) Z i j in
  let M := invmx Zm^T in
  fun i => \sum_(j < n) (if insub i is Some i' then M i' j else 0) * z j.
(** lines 289-336 with parmode 1: the columns of afix_ and s *)
Definition mlambda1 (fuel : nat) (eps tol chi : F) (n nc : nat) (ahat : vec F) (Q : mat F)
    : option (seq (vec int * F)) :=
  if ldldecom eps n Q is Some (L, d) then
    if reduction fuel tol n L d is Some r then
      omap (map (fun zs : vec int * F => (back n (r_Z r) zs.1, zs.2)))
           (estimILS fuel chi n nc (r_L r) (r_d r) (zhat_of n (r_Z r) ahat))
    else None
  else None.
(** lines 313-333 with parmode 3, before the back transformation: the columns of zfix with the norms s
    returned beside them, and nfix.  s[1]/s[0] < 2 is written s[1] < 2 s[0] (in numpy a quotient by zero
    is infinite).  Line 325 deletes from [d] where [zhat] is meant; zfix_ is not used *)
Definition del (k : nat) T (x : vec T) : vec T := fun i => if (i < k)%N then x i else x i.+1.
Fixpoint search3_loop (fuel m k : nat) (chi : F) (n nc : nat) (L : mat F) (d : vec F) (s : seq F) : option (seq F) :=
  match m with
  | 0 => Some s
  | m'.+1 =>
    if msearch fuel chi n.-1 nc (fun a => del k (del k L a)) (del k d) (del k d) is Some R then
      let s := map snd R in
      if nth 0 s 1 < 2%:R * nth 0 s 0 then search3_loop fuel m' k.+1 chi n nc L d s else Some s
    else None
  end.
Definition search3 (fuel : nat) (chi : F) (n nc : nat) (L : mat F) (d zhat : vec F) : option (seq (vec int * F) * nat) :=
  if msearch fuel chi n nc L d zhat is Some R then
    let s := map snd R in
    if (if nth 0 s 1 < 2%:R * nth 0 s 0 then search3_loop fuel n 0 chi n nc L d s else Some s) is Some s'
    then Some (zip (map fst R) s', n.-1) else None
  else None.
End Lam.
