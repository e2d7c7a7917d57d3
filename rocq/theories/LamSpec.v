(** What the integer least-squares functions are supposed to compute, in terms of matrices. *)
From Verif Require Export LamModel.
From mathcomp Require Import all_ssreflect all_algebra.
Set Implicit Arguments.
Unset Strict Implicit.
Unset Printing Implicit Defensive.
Import GRing.Theory Num.Theory.
Local Open Scope ring_scope.

(** the n x n array as a matrix, and the array of length n as a column *)
Definition mx (T : Type) (n : nat) (A : mat T) : 'M[T]_n := \matrix_(i, j) A i j.
Definition cv (T : Type) (n : nat) (x : vec T) : 'cV[T]_n := \col_i x i.

Section Spec.
Variable F : realFieldType.
(** L' D L *)
Definition ldl (n : nat) (L : mat F) (d : vec F) : 'M[F]_n :=
  (mx n L)^T *m diag_mx (\row_i d i) *m mx n L.
(** unit lower triangular, positive diagonal *)
Definition unit_lower (n : nat) (L : mat F) : Prop :=
  (forall i, (i < n)%N -> L i i = 1) /\ (forall i j, (i < j < n)%N -> L i j = 0).
Definition positive (n : nat) (d : vec F) : Prop := forall i, (i < n)%N -> 0 < d i.
Definition nearest (rnd : F -> int) : Prop := forall x, `|x - (rnd x)%:~R| <= 2%:R^-1.
(** squared distance of the integer vector [z] from [a] in the metric of the inverse of [Q] *)
Definition sqdist (n : nat) (Q : 'M[F]_n) (a : 'cV[F]_n) (z : 'cV[int]_n) : F :=
  ((map_mx intr z - a)^T *m invmx Q *m (map_mx intr z - a)) 0 0.
(** [R] lists the [nc] integer vectors closest to [a], with their squared distances, nearest first *)
Definition closest_integers (n : nat) (Q : 'M[F]_n) (a : 'cV[F]_n) (nc : nat) (R : seq ('cV[int]_n * F)) : Prop :=
  size R = nc /\ uniq (map fst R) /\ sorted <=%R (map snd R) /\
  (forall zs, zs \in R -> zs.2 = sqdist Q a zs.1) /\
  (forall z, z \notin map fst R -> forall zs, zs \in R -> zs.2 <= sqdist Q a z).
End Spec.
