(** Proofs about the factorisation. *)
From Verif Require Import LamModel LamSpec FieldTac.
From mathcomp Require Import all_ssreflect all_algebra.
Require Import Field.
Set Implicit Arguments.
Unset Strict Implicit.
Unset Printing Implicit Defensive.
Import Order.TTheory GRing.Theory Num.Theory.
Local Open Scope ring_scope.

Lemma sum_split (R : zmodType) (n m : nat) (f : nat -> R) : (m < n)%N ->
  \sum_(m <= l < n) f l = f m + \sum_(m.+1 <= l < n) f l.
Proof. by move=> mn; rewrite big_ltn. Qed.
Lemma rev_iotaS m : rev (iota 0 m.+1) = m :: rev (iota 0 m).
Proof. by rewrite -addn1 iotaD rev_cat add0n. Qed.

Section Ldl.
Variable F : realFieldType.
Variable sq : F -> F.
Variable n : nat.
Variable Q : mat F.
Add Field ldl_field : (f_theory F).

Definition rows (m : nat) (s : mat F * vec F * mat F) := foldl (fun s i => ldl_row sq i s) s (rev (iota 0 m)).
Lemma rows_d m s i : (m <= i)%N -> (rows m s).1.2 i = s.1.2 i.
Proof.
elim: m s => [|m IH] s mi //; rewrite /rows rev_iotaS /= -/(rows m _) IH; last exact: ltnW.
by case: s => [[L d] A] /=; rewrite /vset gtn_eqF.
Qed.

Definition linv (m : nat) (s : mat F * vec F * mat F) : Prop :=
  let '(L, d, A) := s in
  (forall l b, (l < n)%N -> (b < n)%N -> L l b = if (l < m)%N then 0 else if b == l then 1 else if (l < b)%N then 0 else L l b) /\
  (forall a b, (b <= a < n)%N -> Q a b = \sum_(m <= l < n) L l a * d l * L l b + (if (a < m)%N then A a b else 0)).

Lemma row_ok m L d A : (m < n)%N -> linv m.+1 (L, d, A) -> 0 < A m m -> sq (A m m) ^+ 2 = A m m ->
  linv m (ldl_row sq m (L, d, A)).
Proof.
move=> mn [hL hQ] pos sqr; rewrite /ldl_row /vset eqxx.
set p := A m m; set r := sq p.
have p0 : p <> 0 by apply/eqP; rewrite gt_eqF.
have r0 : r <> 0 by move=> rr; move: p0; rewrite /p -sqr -/p -/r rr expr0n.
have r2 : r * r = p by rewrite -expr2.
have Lm b : A m b / r / (p / r) = A m b / p by mcfix; field; split.
split=> [l b ln bn|a b /andP[ba an]].
  case: (l =P m) => [->|lm]; rewrite ?ltnn ?eqxx /=.
    case: (b =P m) => [->|bm]; first by rewrite leqnn Lm divff //; apply/eqP.
    case: (ltnP m b) => [mb|bm'] //.
    by rewrite hL // ltnSn.
  rewrite hL // ltnS; have -> : (l <= m)%N = (l < m)%N by rewrite leq_eqVlt (introF eqP lm).
  by case: (l < m)%N; case: (b == l); case: (l < b)%N.
rewrite hQ ?ba // [X in _ = X + _]sum_split // eqxx ltnS [X in _ = X + _]addrC -addrA; congr (_ + _).
  by apply: eq_big_nat => l /andP[ml _]; rewrite gtn_eqF.
case: (ltngtP a m) => [am|ma|am].
- rewrite (leq_trans ba (ltnW am)) /= !Lm.
  by rewrite -!r2; mcfix; field; exact: r0.
- by rewrite hL // ltnSn !mul0r addr0.
- have bm : (b <= m)%N by rewrite -am.
  by rewrite am bm /= !Lm -/p addr0; mcfix; field; exact: p0.
Qed.

Hypothesis sym : forall a b, (a < n)%N -> (b < n)%N -> Q a b = Q b a.

Lemma rows_ok m s : (m <= n)%N -> linv m s ->
  (forall i, (i < m)%N -> 0 < (rows m s).1.2 i /\ sq ((rows m s).1.2 i) ^+ 2 = (rows m s).1.2 i) -> linv 0 (rows m s).
Proof.
elim: m s => [|m IH] s mn hs pos //.
rewrite /rows rev_iotaS /= -/(rows m _) in pos *.
have [p1 p2] := pos m (ltnSn m).
case: s hs pos p1 p2 => [[L d] A] hs pos.
have -> : (rows m (ldl_row sq m (L, d, A))).1.2 m = A m m by rewrite rows_d //= /vset eqxx.
move=> p1 p2; apply: IH; first exact: ltnW.
  exact: row_ok.
by move=> i im; apply: pos; exact: leqW.
Qed.

Lemma ldldecom_ok eps L d : 0 < eps -> ldldecom sq eps n Q = Some (L, d) ->
  (forall i, (i < n)%N -> sq (d i) ^+ 2 = d i) ->
  unit_lower n L /\ positive n d /\ ldl n L d = mx n Q.
Proof.
move=> ep; rewrite /ldldecom -/(rows n (_, _, Q)); case E : (rows _ _) => [[L' d'] A'].
case: ifP => // /negbT/hasPn H [<- <-] sqd {L d}.
have pos i : (i < n)%N -> 0 < d' i.
  move=> il; apply: lt_le_trans ep _; rewrite leNgt; apply: (H i); by rewrite mem_iota.
have : linv 0 (rows n (fun _ _ => 0, fun _ => 0, Q)).
  apply: rows_ok => //; last by rewrite E => i il; split; [exact: pos|exact: sqd].
  split=> [l b ln bn|a b /andP[ba an]]; first by rewrite ln.
  by rewrite big_geq // add0r an.
rewrite E => -[hL hQ].
split; first split.
- by move=> i il; rewrite hL //= eqxx.
- move=> i j /andP[ij jl]; have il := ltn_trans ij jl; by rewrite hL //= gtn_eqF // ij.
split=> //; apply/matrixP => a b; rewrite /ldl !mxE.
under eq_bigr => l _ do rewrite mul_mx_diag !mxE.
have key a' b' : (b' <= a' < n)%N -> Q a' b' = \sum_(l < n) L' l a' * d' l * L' l b'.
  by move=> h; rewrite hQ //= addr0 big_mkord.
case: (leqP b a) => ba; first by rewrite key // ba ltn_ord.
rewrite sym // key ?(ltnW ba) //=; apply: eq_bigr => l _; mcfix; ring.
Qed.
End Ldl.
