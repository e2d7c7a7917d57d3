(** Precise ephemerides: search of the epoch and choice of the interpolation window,
    /repo/src/cssrlib/peph.py:307-332 (pephpos) and 386-403 (pephclk).
    Times are in ticks of 1/U s. *)
From Verif Require Export Base TimeModel.
Open Scope Z_scope.

(** peph.py:19-20 *)
Definition NMAX := 10.
Definition MAXDTE := 900.

Section T.
Variable U : Z.

(** Python indexing of a list of epochs (non-negative or negative index); [None] = IndexError *)
Definition pget {A} (l : list A) (i : Z) : option A :=
  let n := Z.of_nat (length l) in
  if (0 <=? i) && (i <? n) then nth_error l (Z.to_nat i)
  else if (- n <=? i) && (i <? 0) then nth_error l (Z.to_nat (n + i)) else None.

(** peph.py:317-323: while i < j; [fuel] bounds the number of iterations *)
Fixpoint bsearch (fuel : nat) (ts : list gtime) (time : gtime) (i j : Z) : option Z :=
  match fuel with
  | O => None
  | S f =>
    if i <? j then
      let k := (i + j) / 2 in
      do tk <- pget ts k;
      if timediff U tk time <? 0 then bsearch f ts time (k + 1) j else bsearch f ts time i k
    else Some i
  end.

(** peph.py:313-324 and 389-402: None = exception, Some None = "return None", otherwise [index].
    [nmin] is NMAX+1 for orbits and 2 for clocks; [ne] is nav.ne (nav.nc). *)
Definition pindex (nmin ne : Z) (ts : list gtime) (time : gtime) : option (option Z) :=
  if ne <? nmin then Some None else
  do t0 <- pget ts 0;
  if timediff U time t0 <? - MAXDTE * U then Some None else
  do t1 <- pget ts (ne - 1);
  if timediff U time t1 >? MAXDTE * U then Some None else
  do i <- bsearch (S (Z.to_nat ne)) ts time 0 (ne - 1);
  Some (Some (if i <=? 0 then 0 else i - 1)).

(** peph.py:326-330: first epoch of the window *)
Definition pfirst (ne index : Z) : Z :=
  let i := index - (NMAX + 1) / 2 in
  if i <? 0 then 0 else if i + NMAX >=? ne then ne - NMAX - 1 else i.
End T.
