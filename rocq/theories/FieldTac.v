(** The tactics [ring] and [field] for the ordered fields of mathcomp. *)
From mathcomp Require Import all_ssreflect all_algebra.
Require Import Field.
Set Implicit Arguments.
Unset Strict Implicit.
Unset Printing Implicit Defensive.
Import Order.TTheory GRing.Theory Num.Theory.
Local Open Scope ring_scope.
Section T.
Variable F : realFieldType.
Definition fadd (x y : F) : F := x + y.
Definition fmul (x y : F) : F := x * y.
Definition fopp (x : F) : F := - x.
Definition finv (x : F) : F := x^-1.
Definition f0 : F := 0.
Definition f1 : F := 1.
Definition fint (z : int) : F := z%:~R.
Definition fsub (x y : F) : F := fadd x (fopp y).
Definition fdiv (x y : F) : F := fmul x (finv y).
Lemma faddE x y : x + y = fadd x y. Proof. by []. Qed.
Lemma fmulE x y : x * y = fmul x y. Proof. by []. Qed.
Lemma foppE x : - x = fopp x. Proof. by []. Qed.
Lemma finvE x : x^-1 = finv x. Proof. by []. Qed.
Lemma fintE z : z%:~R = fint z. Proof. by []. Qed.
Lemma f0E : 0 = f0. Proof. by []. Qed.
Lemma f1E : 1 = f1. Proof. by []. Qed.
Lemma f_theory : field_theory f0 f1 fadd fmul fsub fopp fdiv finv eq.
Proof.
constructor; [constructor|..].
- exact: add0r. - exact: addrC. - exact: addrA. - exact: mul1r. - exact: mulrC. - exact: mulrA.
- move=> x y z; exact: mulrDl. - by []. - exact: subrr.
- apply/eqP; exact: oner_neq0. - by []. - move=> p /eqP; exact: mulVf.
Qed.
End T.
Ltac mcnorm := rewrite ?mulr2n ?mulr1n ?expr2 ?expr1 ?fintE ?faddE ?fmulE ?foppE ?finvE ?f0E ?f1E.
(** to be followed by [ring] or [field], after [Add Field name : (f_theory F)] *)
Ltac mcfix := mcnorm; match goal with |- @eq _ ?a ?b => let T := type of a in change (@eq T a b) end.
