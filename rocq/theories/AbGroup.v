(** Equality of sums and differences in an abelian group, decided by comparing coefficients. *)
From mathcomp Require Import all_ssreflect all_algebra.
Set Implicit Arguments.
Unset Strict Implicit.
Unset Printing Implicit Defensive.
Import GRing.Theory.
Local Open Scope ring_scope.

Inductive abx := AVar of nat | AZero | AAdd of abx & abx | AOpp of abx.
Section Ab.
Variable G : zmodType.
Fixpoint abev (env : seq G) (e : abx) : G :=
  match e with
  | AVar i => env`_i | AZero => 0
  | AAdd a b => abev env a + abev env b | AOpp a => - abev env a
  end.
Fixpoint abco (e : abx) (i : nat) : int :=
  match e with
  | AVar j => if j == i then 1 else 0 | AZero => 0
  | AAdd a b => abco a i + abco b i | AOpp a => - abco a i
  end.
Lemma abevE env e : abev env e = \sum_(i < size env) env`_i *~ abco e i.
Proof.
  elim: e => [j| |a Ha b Hb|a Ha] /=.
  - case: (ltnP j (size env)) => H.
    + rewrite (bigD1 (Ordinal H)) //= eqxx big1 ?addr0 //= => i Hi.
      case: eqP => // E. by case/eqP: Hi; apply/val_inj.
    + rewrite nth_default // big1 //= => i _. case: eqP => // E. move: (ltn_ord i). by rewrite -E ltnNge H.
  - by rewrite big1.
  - rewrite Ha Hb -big_split /=. by apply: eq_bigr=> i _; rewrite mulrzDl.
  - rewrite Ha -sumrN. by apply: eq_bigr=> i _; rewrite mulrNz.
Qed.
Definition abcheck (n : nat) (a b : abx) : bool := all (fun i => abco a i == abco b i) (iota 0 n).
Lemma ab_ok env a b : abcheck (size env) a b -> abev env a = abev env b.
Proof.
  move=> /allP H. rewrite !abevE. apply: eq_bigr=> i _. 
  have Hi : nat_of_ord i \in iota 0 (size env) by rewrite mem_iota add0n ltn_ord.
  by rewrite (eqP (H _ Hi)).
Qed.
End Ab.
Ltac ab_mem x l := match l with
  | nil => constr:(false)
  | ?y :: _ => let _ := match goal with _ => unify x y with typeclass_instances end in constr:(true)
  | _ :: ?r => ab_mem x r end.
Ltac ab_idx x l := match l with
  | ?y :: _ => let _ := match goal with _ => unify x y with typeclass_instances end in constr:(O)
  | _ :: ?r => let n := ab_idx x r in constr:(S n) end.
Ltac ab_atoms e l := match e with
  | ?a + ?b => let l := ab_atoms a l in ab_atoms b l
  | - ?a => ab_atoms a l
  | 0 => l
  | _ => match ab_mem e l with true => l | false => constr:(e :: l) end
  end.
Ltac ab_reify e l := match e with
  | ?a + ?b => let a := ab_reify a l in let b := ab_reify b l in constr:(AAdd a b)
  | - ?a => let a := ab_reify a l in constr:(AOpp a)
  | 0 => constr:(AZero)
  | _ => let i := ab_idx e l in constr:(AVar i)
  end.
Ltac abgroup := match goal with
  | |- @eq ?T ?a ?b =>
      let l := ab_atoms a (@nil T) in let l := ab_atoms b l in
      let ra := ab_reify a l in let rb := ab_reify b l in
      exact (@ab_ok _ l ra rb is_true_true)
  end.
