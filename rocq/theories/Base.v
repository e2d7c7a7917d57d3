(** Shared definitions: error monad, bit buffers and bit-field access.

    Python/bitstruct conventions modelled here (used all over /repo/src/cssrlib, e.g.
    gnss.py:1738-1748 [copy_buff], cssrlib.py:538-560):
    - a byte buffer is the list of its bits, most significant bit of byte 0 first;
    - [bs.unpack_from('uN', buf, off)] is [getu buf off N]: MSB-first unsigned value, error
      ([None]) when fewer than [off+N] bits are available;
    - ['sN'] is [gets] (two's complement), ['bN'] is [getb] (non-zero test);
    - [bs.pack_into('uN', buf, off, v)] is [putu]: error when [v] is out of range or the field
      does not fit; only the addressed bits change. *)
From Coq Require Export List ZArith Lia Bool.
From Coq Require Import ZifyBool ZifyNat ZifyN.
Export ListNotations.
Open Scope Z_scope.

(* ---------- error monad ---------- *)
Definition bind {A B} (x : option A) (f : A -> option B) : option B :=
  match x with Some a => f a | None => None end.
Notation "'do' x <- m ; k" := (bind m (fun x => k))
  (at level 200, x pattern, m at level 100, k at level 200, right associativity).
Definition guard (b : bool) : option unit := if b then Some tt else None.

(* ---------- bit strings ---------- *)
Definition bits := list bool.

(** value of an MSB-first bit string *)
Fixpoint bval (l : bits) : Z :=
  match l with
  | [] => 0
  | b :: r => Z.b2z b * 2 ^ Z.of_nat (length r) + bval r
  end.

(** [n]-bit MSB-first representation of [v] (of [v mod 2^n]) *)
Fixpoint bitsof (n : nat) (v : Z) : bits :=
  match n with
  | O => []
  | S m => Z.testbit v (Z.of_nat m) :: bitsof m v
  end.

Definition slice {A} (l : list A) (off n : nat) : list A := firstn n (skipn off l).

(** bs.unpack_from('uN', buf, off)[0] *)
Definition getu (l : bits) (off n : nat) : option Z :=
  if (off + n <=? length l)%nat then Some (bval (slice l off n)) else None.

(** two's complement reading of an unsigned [n]-bit value *)
Definition sgn (n : nat) (u : Z) : Z :=
  if u <? 2 ^ (Z.of_nat n - 1) then u else u - 2 ^ Z.of_nat n.

(** bs.unpack_from('sN', buf, off)[0] *)
Definition gets (l : bits) (off n : nat) : option Z :=
  do u <- getu l off n; Some (sgn n u).

(** bs.unpack_from('bN', buf, off)[0] *)
Definition getb (l : bits) (off n : nat) : option bool :=
  do u <- getu l off n; Some (negb (u =? 0)).

(** replace [length w] bits of [l] at [off] *)
Definition splice {A} (l : list A) (off : nat) (w : list A) : list A :=
  firstn off l ++ w ++ skipn (off + length w) l.

(** bs.pack_into('uN', buf, off, v) *)
Definition putu (l : bits) (off n : nat) (v : Z) : option bits :=
  if (off + n <=? length l)%nat && (0 <=? v) && (v <? 2 ^ Z.of_nat n)
  then Some (splice l off (bitsof n v)) else None.

(** bs.pack_into('sN', buf, off, v) *)
Definition puts (l : bits) (off n : nat) (v : Z) : option bits :=
  if (off + n <=? length l)%nat && (- 2 ^ (Z.of_nat n - 1) <=? v) && (v <? 2 ^ (Z.of_nat n - 1))
  then Some (splice l off (bitsof n v)) else None.

(** Python int(x/y) for floats x, y > 0 (exact quotient): truncation toward zero *)
Definition trunc (a b : Z) : Z := Z.quot a b.

(** "the bits [w] stand at position [i] of the buffer" *)
Definition At (msg : bits) (i : nat) (w : bits) : Prop :=
  exists pre post, msg = pre ++ w ++ post /\ length pre = i.

(** monadic iteration over [0..n-1] : for k in range(n): s = f(k, s) *)
Fixpoint mfor {S} (n : nat) (k : nat) (f : nat -> S -> option S) (s : S) : option S :=
  match n with
  | O => Some s
  | Datatypes.S m => do s' <- f k s; mfor m (Datatypes.S k) f s'
  end.

(** monadic fold over a list *)
Fixpoint mfold {A S} (f : A -> S -> option S) (l : list A) (s : S) : option S :=
  match l with
  | [] => Some s
  | a :: r => do s' <- f a s; mfold f r s'
  end.
