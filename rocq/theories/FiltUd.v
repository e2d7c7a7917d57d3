(** Time update of the PPP filter: proofs. *)
From Coq Require Import Lia.
From Verif Require Import AbGroup PppModel FiltModel FiltSpec FiltMatrix.
From mathcomp Require Import all_ssreflect all_algebra.
Set Implicit Arguments.
Unset Strict Implicit.
Unset Printing Implicit Defensive.
Import Order.POrderTheory GRing.Theory Num.Theory.
Local Open Scope ring_scope.

Section Ud.
Variable F : realFieldType.
Variable n : nat.
Implicit Type st : ust F n.
Definition good st := symm (u_P st) /\ psd (u_P st).

Lemma initx_good x0 v0 i st : 0 <= v0 -> good st -> good (initx x0 v0 i st).
Proof.
  move=> Hv [Hs Hp].
  pose D : 'M[F]_n := \matrix_(a, b) if a == b then (if a == i :> nat then 0 else 1) else 0.
  pose V : 'M[F]_n := \matrix_(a, b) if a == b then (if a == i :> nat then v0 else 0) else 0.
  have Dl (A : 'M[F]_n) a b : (D *m A) a b = if a == i :> nat then 0 else A a b.
  { rewrite mxE (bigD1 a) //= mxE eqxx big1 ?addr0 => [|c Hc].
    - by case: ifP => _; rewrite ?mul0r ?mul1r.
    - by rewrite mxE eq_sym (negbTE Hc) mul0r. }
  have Dt : D^T = D.
  { apply/matrixP=> a b. rewrite !mxE eq_sym. by case: eqP => // ->. }
  have Dr (A : 'M[F]_n) a b : (A *m D) a b = if b == i :> nat then 0 else A a b.
  { rewrite mxE (bigD1 b) //= mxE eqxx big1 ?addr0 => [|c Hc].
    - by case: ifP => _; rewrite ?mulr0 ?mulr1.
    - by rewrite mxE (negbTE Hc) mulr0. }
  have E : u_P (initx x0 v0 i st) = D *m u_P st *m D^T + V.
  { apply/matrixP=> a b. rewrite [LHS]mxE Dt [RHS]mxE Dr Dl mxE.
    case Ea: (a == i :> nat); case Eb: (b == i :> nat) => /=.
    - have -> : a = b by apply/val_inj; rewrite /= (eqP Ea) (eqP Eb).
      by rewrite eqxx add0r.
    - case: eqP => [Eab|]; last by rewrite addr0. by rewrite Eab Eb in Ea.
    - by case: eqP => _; rewrite addr0.
    - by case: eqP => _; rewrite addr0. }
  split; rewrite E.
  - apply: symm_add; first exact: symm_cong. move=> a b. rewrite !mxE eq_sym. by case: eqP => // ->.
  - apply: psd_add; first exact: psd_cong. 
    apply: (@psd_diag _ _ (fun a => if a == i :> nat then v0 else 0)) => a _. by case: ifP.
Qed.

Variable I : udin F.
Lemma propagate_good st : 0 <= ui_tt I -> (forall k, 0 <= ui_q I k) -> good st -> good (propagate I st).
Proof.
  move=> Ht Hq [Hs Hp]. rewrite /good /propagate /=. 
  have E : qdiag n I = \matrix_(a, b) (if a == b then (if (a < Z.to_nat (nq (ui_o I)))%N then ui_q I a * ui_tt I else 0) else 0).
  { apply/matrixP=> a b. rewrite !mxE. by case: eqP. }
  rewrite E. split.
  - apply: symm_add; first exact: symm_cong. move=> a b. rewrite !mxE eq_sym. by case: eqP => // ->.
  - apply: psd_add; first exact: psd_cong.
    apply: (@psd_diag _ _ (fun a => if (a < Z.to_nat (nq (ui_o I)))%N then ui_q I a * ui_tt I else 0)) => a _.
    by case: ifP => // _; rewrite mulr_ge0.
Qed.
Lemma reset_good f s st : good st -> good (ud_reset I f s st).
Proof.
  move=> H. rewrite /ud_reset; cbv zeta. case: ifP => // _. set r := _ || _.
  have H1 : good (reset_amb I f s r (US (u_x st) (u_P st) (setc (u_outc st) s f (Z.add (u_outc st s f) (Zpos 1))))).
  { rewrite /reset_amb; case: ifP => // _.
    exact: (@initx_good 0 0 (Z.to_nat (IB s (Z.of_nat f) (na (ui_o I)))) (US (u_x st) (u_P st) (setc (u_outc st) s f (Z.add (u_outc st s f) (Zpos 1)))) (lexx 0) H). }
  rewrite /reset_ion. by case: ifP => // _; case: ifP => // _; apply: initx_good.
Qed.
Lemma init_good f i st : good st -> good (ud_init I f i st).
Proof.
  move=> H. rewrite /ud_init; cbv zeta. case: (ud_bias I f i)=> b e.
  have H1 : good (init_amb I f (nth Z0 (ui_sat I) i) b st).
  { rewrite /init_amb; case: ifP => // _; apply: initx_good => //; exact: sqr_ge0. }
  rewrite /init_ion. by case: ifP => // _; case: ifP => // _; apply: initx_good => //; exact: sqr_ge0.
Qed.
Lemma foldl_good (T : Type) (g : ust F n -> T -> ust F n) l st :
  (forall st a, good st -> good (g st a)) -> good st -> good (foldl g st l).
Proof. by move=> H; elim: l st => //= a l IH st Hst; apply: IH; apply: H. Qed.
Lemma udstate_good st : 0 <= ui_tt I -> (forall k, 0 <= ui_q I k) -> good st -> good (udstate I st).
Proof.
  move=> Ht Hq H. apply: foldl_good; last exact: propagate_good.
  move=> st' f H'. rewrite /ud_freq. apply: foldl_good; first by move=> *; exact: init_good.
  apply: foldl_good => // *; exact: reset_good.
Qed.

(* ---------- one entry of the state over an epoch ---------- *)
Definition var st (k : nat) : F := if insub k is Some a then u_P st a a else 0.
Definition sl st (k : nat) : F * F := (getx (u_x st) k, var st k).
Lemma sl_initx x0 v0 j st k : (k < n)%N -> sl (initx x0 v0 j st) k = if k == j then (x0, v0) else sl st k.
Proof.
  move=> Hk. rewrite /sl /getx /var. rewrite !(insubT (fun x => x < n)%N Hk) /= !mxE /=.
  by case: eqP.
Qed.
Let o := ui_o I.
Definition amb (s : Z) (f : nat) : nat := Z.to_nat (IB s (Z.of_nat f) (na o)).
Definition ion (s : Z) : nat := Z.to_nat (II s (na o)).
Definition lost st (s : Z) (f : nat) : bool := Z.gtb (Z.add (u_outc st s f) (Zpos 1)) (ui_maxout I) || ui_edt I s.
Definition tracked (s : Z) : bool := has (gnss_eqb (fst (sat2prn s))) (ui_sys I).

Lemma sl_outc st c k : sl (US (u_x st) (u_P st) c) k = sl st k.
Proof. by []. Qed.
Lemma reset_ion_other s r st k : (k < n)%N -> (Z.lt Z0 (niono o) -> k <> ion s) -> sl (reset_ion I s r st) k = sl st k.
Proof.
  move=> Hk Hi. rewrite /reset_ion. case E: (Z.ltb Z0 (niono (ui_o I))) => //. case: ifP => // _.
  rewrite sl_initx // -/o -/(ion s). case: eqP => // E'. case: Hi => //. exact/Z.ltb_lt.
Qed.
Lemma reset_amb_sl f s r st k : (k < n)%N -> sl (reset_amb I f s r st) k =
  if [&& k == amb s f, r & getx (u_x st) (amb s f) != 0] then (0, 0) else sl st k.
Proof.
  move=> Hk. rewrite /reset_amb -/o -/(amb s f). case: (_ && _); rewrite ?andbT ?andbF //.
  by rewrite sl_outc sl_initx.
Qed.
Lemma reset_other f s st k : (k < n)%N -> k <> amb s f -> (Z.lt Z0 (niono o) -> k <> ion s) ->
  sl (ud_reset I f s st) k = sl st k.
Proof.
  move=> Hk Ha Hi. rewrite /ud_reset; cbv zeta. case: ifP => // _.
  rewrite reset_ion_other // reset_amb_sl //. by case: eqP.
Qed.
Lemma reset_same f s st : (amb s f < n)%N -> (Z.lt Z0 (niono o) -> amb s f <> ion s) ->
  sl (ud_reset I f s st) (amb s f) =
  if tracked s && lost st s f && (getx (u_x st) (amb s f) != 0) then (0, 0) else sl st (amb s f).
Proof.
  move=> Hk Hi. rewrite /ud_reset; cbv zeta. rewrite -/(tracked s) /lost. case: (tracked s) => //=.
  by rewrite reset_ion_other // reset_amb_sl // eqxx.
Qed.
Lemma reset_outc f s st s' f' : (s', f') <> (s, f) -> u_outc (ud_reset I f s st) s' f' = u_outc st s' f'.
Proof.
  move=> H. have N : Z.eqb s' s && (f' == f) = false.
  { case: (Z.eqb_spec s' s) => //= E. by apply/eqP=> E'; apply: H; rewrite E E'. }
  have S c v : setc c s f v s' f' = c s' f' by rewrite /setc N.
  rewrite /ud_reset; cbv zeta. case: ifP => _ /=; first by rewrite S.
  rewrite /reset_ion. set r := _ || _. set st0 := US _ _ _.
  have H1 : u_outc (reset_amb I f s r st0) s' f' = u_outc st s' f' by rewrite /reset_amb; case: ifP => _ /=; rewrite !S.
  by case: ifP => // _; case: ifP => //.
Qed.
Lemma init_ion_other s e st k : (k < n)%N -> (Z.lt Z0 (niono o) -> k <> ion s) -> sl (init_ion I s e st) k = sl st k.
Proof.
  move=> Hk Hi. rewrite /init_ion. case E: (Z.ltb Z0 (niono (ui_o I))) => //. case: ifP => // _.
  rewrite sl_initx // -/o -/(ion s). case: eqP => // E'. case: Hi => //. exact/Z.ltb_lt.
Qed.
Lemma init_amb_sl f s b st k : (k < n)%N -> sl (init_amb I f s b st) k =
  if [&& k == amb s f, b != 0 & getx (u_x st) (amb s f) == 0] then (b, ui_n0 I ^+ 2) else sl st k.
Proof.
  move=> Hk. rewrite /init_amb -/o -/(amb s f). case: (_ && _); rewrite ?andbT ?andbF //.
  by rewrite sl_initx.
Qed.
Lemma init_other f i st k : (k < n)%N -> k <> amb (nth Z0 (ui_sat I) i) f ->
  (Z.lt Z0 (niono o) -> k <> ion (nth Z0 (ui_sat I) i)) -> sl (ud_init I f i st) k = sl st k.
Proof.
  move=> Hk Ha Hi. rewrite /ud_init; cbv zeta. case: (ud_bias I f i) => b e. 
  rewrite init_ion_other // init_amb_sl //. by case: eqP.
Qed.
Lemma init_same f i st : let s := nth Z0 (ui_sat I) i in (amb s f < n)%N -> (Z.lt Z0 (niono o) -> amb s f <> ion s) ->
  sl (ud_init I f i st) (amb s f) =
  if ((ud_bias I f i).1 != 0) && (getx (u_x st) (amb s f) == 0) then ((ud_bias I f i).1, ui_n0 I ^+ 2) else sl st (amb s f).
Proof.
  move=> s Hk Hi. rewrite /ud_init; cbv zeta. case: (ud_bias I f i) => b e /=.
  by rewrite init_ion_other // init_amb_sl // eqxx.
Qed.
Lemma init_outc f i st : u_outc (ud_init I f i st) = u_outc st.
Proof.
  rewrite /ud_init; cbv zeta. case: (ud_bias I f i) => b e. rewrite /init_ion.
  have H1 : u_outc (init_amb I f (nth Z0 (ui_sat I) i) b st) = u_outc st by rewrite /init_amb; case: ifP.
  by case: ifP => // _; case: ifP.
Qed.
Lemma foldl_inv (T S : Type) (g : S -> T -> S) (A : Type) (h : S -> A) (l : seq T) (z : S) :
  (forall a z, List.In a l -> h (g z a) = h z) -> h (foldl g z l) = h z.
Proof.
  elim: l z => //= a l IH z H. rewrite IH; first by apply: H; left. by move=> b z' Hb; apply: H; right.
Qed.
(** positions of the indices *)
Lemma amb_val s f : Z.le (Zpos 1) s -> Z.of_nat (amb s f) = Z.sub (Z.add (Z.add (na o) (Z.mul (Zpos 233) (Z.of_nat f))) s) (Zpos 1).
Proof.
  move=> Hs. rewrite /amb /IB. change MAXSAT with (Zpos 233).
  have : Z.le Z0 (na o) by rewrite /na /ntrop /niono; change MAXSAT with (Zpos 233); case: ifP; case: ifP; case: ifP.
  move=> Hn. lia.
Qed.
Lemma ion_val s : Z.le (Zpos 1) s -> Z.lt Z0 (niono o) -> Z.of_nat (ion s) = Z.sub (Z.add (Z.sub (na o) (Zpos 233)) s) (Zpos 1).
Proof.
  move=> Hs Hi. rewrite /ion /II. change MAXSAT with (Zpos 233).
  have : Z.le (Zpos 233) (na o).
  { move: Hi. rewrite /na /ntrop /niono; change MAXSAT with (Zpos 233). by case: ifP; case: ifP; case: ifP. }
  move=> Hn. lia.
Qed.
Definition svalid (s : Z) : Prop := Z.le (Zpos 1) s /\ Z.le s (Zpos 233).
Lemma amb_inj s f s' f' : svalid s -> svalid s' -> amb s f = amb s' f' -> s = s' /\ f = f'.
Proof.
  move=> [A B] [A' B'] E. have := amb_val f A. have := amb_val f' A'. rewrite E. move=> -> ?. 
  have : s = s' /\ Z.of_nat f = Z.of_nat f' by lia. case=> -> /Nat2Z.inj ->. by split.
Qed.
Lemma amb_ion s f s' : svalid s -> svalid s' -> Z.lt Z0 (niono o) -> amb s f <> ion s'.
Proof.
  move=> [A B] [A' B'] Hi E. have := amb_val f A. have := ion_val A' Hi. rewrite E. lia.
Qed.
Lemma amb_lt s f : n = Z.to_nat (nx o) -> svalid s -> (f < nf o)%N -> (amb s f < n)%N.
Proof.
  move=> -> [A B] /ltP Hf. have := amb_val f A. 
  have : Z.le Z0 (na o) by rewrite /na /ntrop /niono; change MAXSAT with (Zpos 233); case: ifP; case: ifP; case: ifP.
  rewrite /nx. change MAXSAT with (Zpos 233). move=> ??. apply/ltP. lia.
Qed.

Hypothesis Hn : n = Z.to_nat (nx o).
Hypothesis Hsat : forall s, List.In s (ui_sat I) -> svalid s.
Lemma iotaP k a b : List.In k (iota a b) <-> (a <= k < a + b)%N.
Proof.
  elim: b a => [|b IH] a /=; first by rewrite addn0; split=> // /andP [A]; rewrite ltnNge A. rewrite IH. split.
  - case=> [->|/andP [A B]]; first by rewrite leqnn addnS ltnS leq_addr.
    rewrite addSn -addnS in B. by rewrite (ltnW A) B.
  - case/andP; rewrite leq_eqVlt => /orP [/eqP ->|A] B; [by left|right]. by rewrite A addSn -addnS.
Qed.
Lemma nth_in (T : Type) d (l : seq T) i : (i < size l)%N -> List.In (nth d l i) l.
Proof. elim: l i => // a l IH [|i] /= H; [by left|right; exact: IH]. Qed.
Lemma iota_valid k : List.In k (iota 1 (Z.to_nat MAXSAT)) -> svalid (Z.of_nat k).
Proof.
  rewrite iotaP. change (Z.to_nat MAXSAT) with 233%N. change (1 + 233)%N with 234%N. case/andP => /leP A /leP B. clear - A B. split; lia.
Qed.
Lemma freq_other st f s0 f0 : svalid s0 -> (f0 < nf o)%N -> f <> f0 ->
  sl (ud_freq I st f) (amb s0 f0) = sl st (amb s0 f0) /\ u_outc (ud_freq I st f) s0 f0 = u_outc st s0 f0.
Proof.
  move=> V Hf N. rewrite /ud_freq. have L := amb_lt Hn V Hf. split.
  - rewrite (foldl_inv (h := fun z => sl z (amb s0 f0))); last first.
    { move=> i z /iotaP Hi. have Vi := Hsat (nth_in Z0 (proj2 (andP Hi))).
      apply: init_other => //; first by case/(amb_inj V Vi)=> _ E; apply: N. exact: amb_ion. }
    apply: (foldl_inv (h := fun z => sl z (amb s0 f0))) => k z /iota_valid Vk.
    apply: reset_other => //; first by case/(amb_inj V Vk)=> _ E; apply: N. exact: amb_ion.
  - rewrite (foldl_inv (h := fun z => u_outc z s0 f0)); last by move=> *; rewrite init_outc.
    apply: (foldl_inv (h := fun z => u_outc z s0 f0)) => k z _. by apply: reset_outc => -[_ E]; apply: N.
Qed.
Lemma reset_loop st s f : svalid s -> (f < nf o)%N ->
  sl (foldl (fun st k => ud_reset I f (Z.of_nat k) st) st (iota 1 (Z.to_nat MAXSAT))) (amb s f) =
  if tracked s && lost st s f && (getx (u_x st) (amb s f) != 0) then (0, 0) else sl st (amb s f).
Proof.
  move=> V Hf. have L := amb_lt Hn V Hf. case: (V) => V1 V2.
  pose p := (Z.to_nat s).-1. pose q := (233 - Z.to_nat s)%N.
  have -> : iota 1 (Z.to_nat MAXSAT) = iota 1 p ++ Z.to_nat s :: iota (Z.to_nat s).+1 q.
  { change (Z.to_nat MAXSAT) with 233%N. have E : 233%N = (p + q.+1)%N by rewrite /p /q -!plusE -!minusE; lia.
    rewrite {1}E iotaD /=. have -> : (1 + p)%N = Z.to_nat s by rewrite /p -!plusE; lia. by []. }
  rewrite foldl_cat /=. rewrite (foldl_inv (h := fun z => sl z (amb s f))); last first.
  { move=> k z /iotaP Hk. have Vk : svalid (Z.of_nat k).
    { case/andP: Hk => /ltP A /ltP B. rewrite /q -?plusE -?minusE in B. split; lia. }
    apply: reset_other => //; last exact: amb_ion. case/(amb_inj V Vk)=> E _.
    case/andP: Hk => /ltP A _. lia. }
  rewrite Z2Nat.id; last by lia.
  rewrite reset_same //; last exact: amb_ion.
  set st1 := foldl _ _ _.
  have E1 : sl st1 (amb s f) = sl st (amb s f).
  { apply: (foldl_inv (h := fun z => sl z (amb s f))) => k z /iotaP Hk. have Hk' := andP Hk.
    have Vk : svalid (Z.of_nat k) by case: Hk' => /ltP A /ltP B; rewrite /p -?plusE in B; split; lia.
    apply: reset_other => //; last exact: amb_ion. case/(amb_inj V Vk)=> E _.
    case: Hk' => _ /ltP B. rewrite /p -?plusE in B. lia. }
  have E2 : u_outc st1 s f = u_outc st s f.
  { apply: (foldl_inv (h := fun z => u_outc z s f)) => k z /iotaP Hk. apply: reset_outc => -[E].
    case/andP: Hk => _ /ltP B. rewrite /p -?plusE in B. lia. }
  rewrite E1 /lost E2. case: E1 => -> _. by [].
Qed.
Lemma init_loop st s f : svalid s -> (f < nf o)%N -> List.NoDup (ui_sat I) ->
  let y := foldl (fun st i => ud_init I f i st) st (iota 0 (size (ui_sat I))) in
  (~ List.In s (ui_sat I) -> sl y (amb s f) = sl st (amb s f)) /\
  (forall i, (i < size (ui_sat I))%N -> nth Z0 (ui_sat I) i = s ->
     sl y (amb s f) = if ((ud_bias I f i).1 != 0) && (getx (u_x st) (amb s f) == 0)
                      then ((ud_bias I f i).1, ui_n0 I ^+ 2) else sl st (amb s f)).
Proof.
  move=> V Hf ND y. have L := amb_lt Hn V Hf.
  have other i z : (i < size (ui_sat I))%N -> nth Z0 (ui_sat I) i <> s -> sl (ud_init I f i z) (amb s f) = sl z (amb s f).
  { move=> Hi N. have Vi := Hsat (nth_in Z0 Hi). apply: init_other => //; last exact: amb_ion.
    by case/(amb_inj V Vi)=> E _; apply: N. }
  split.
  - move=> N. apply: (foldl_inv (h := fun z => sl z (amb s f))) => i z /iotaP Hi.
    apply: other; first by case/andP: Hi. move=> E; apply: N. rewrite -E. apply: nth_in. by case/andP: Hi.
  - move=> i Hi Es. rewrite /y.
    have U j : (j < size (ui_sat I))%N -> nth Z0 (ui_sat I) j = s -> j = i.
    { move=> Hj Ej. move: ND => /(List.NoDup_nth _ Z0) ND. apply: ND; try exact/ltP.
      have nthE k : List.nth k (ui_sat I) Z0 = nth Z0 (ui_sat I) k.
      { elim: (ui_sat I) k => [|a l IH] [|k] //=. }
      by rewrite !nthE Ej Es. }
    have -> : iota 0 (size (ui_sat I)) = iota 0 i ++ i :: iota i.+1 (size (ui_sat I) - i.+1).
    { rewrite -{1}(subnKC Hi) addSn -addnS iotaD add0n //. }
    rewrite foldl_cat /= (foldl_inv (h := fun z => sl z (amb s f))); last first.
    { move=> j z /iotaP. rewrite subnKC // => /andP [A B]. apply: other => // /(U _ B) E. by rewrite E ltnn in A. }
    set st1 := foldl _ _ _.
    have E1 : sl st1 (amb s f) = sl st (amb s f).
    { apply: (foldl_inv (h := fun z => sl z (amb s f))) => j z /iotaP /andP [_]. rewrite add0n => A.
      have B : (j < size (ui_sat I))%N by exact: ltn_trans Hi.
      apply: other => // /(U _ B) E. by rewrite E ltnn in A. }
    have := @init_same f i st1. rewrite Es => -> //; last exact: amb_ion.
    rewrite E1. case: E1 => -> _. by [].
Qed.
Lemma propagate_slot st k : (6 <= k)%N \/ (pmode o = Z0 /\ (3 <= k)%N) -> getx (u_x (propagate I st)) k = getx (u_x st) k.
Proof.
  move=> H. rewrite /propagate /=. case: ifP => // Hp. rewrite /getx. case: insubP => // a _ Ea. rewrite mxE.
  case: ifP => // Ha. exfalso. case: H => [H|[H _]]; last by rewrite -/o H in Hp.
  rewrite Ea in Ha. by move: (leq_ltn_trans H Ha).
Qed.
Lemma phi_row (a : 'I_n) (A : 'M[F]_n) b : (3 <= a)%N -> (phi n I *m A) a b = A a b.
Proof.
  move=> Ha. rewrite mxE (bigD1 a) //= mxE eqxx big1 ?addr0 => [|c Hc].
  - rewrite [(a < 3)%N]ltnNge Ha /= andbF /=. by rewrite addr0 mul1r.
  - rewrite mxE [(a < 3)%N]ltnNge Ha /= andbF /= eq_sym (negbTE Hc) addr0 mul0r //.
Qed.
Lemma phi_col (b : 'I_n) (A : 'M[F]_n) a : (3 <= b)%N -> (A *m (phi n I)^T) a b = A a b.
Proof.
  move=> Hb. rewrite mxE (bigD1 b) //= !mxE eqxx big1 ?addr0 => [|c Hc].
  - rewrite [(b < 3)%N]ltnNge Hb /= andbF /=. by rewrite addr0 mulr1.
  - rewrite !mxE [(b < 3)%N]ltnNge Hb /= andbF /= eq_sym (negbTE Hc) addr0 mulr0 //.
Qed.
Lemma propagate_sl st s f : svalid s -> sl (propagate I st) (amb s f) = sl st (amb s f).
Proof.
  move=> [A B]. have Hv := amb_val f A.
  have Hna : Z.le (Zpos 3) (na o) /\ (pmode o = Z0 \/ Z.le (Zpos 6) (na o)).
  { rewrite /na /ntrop /niono; change MAXSAT with (Zpos 233). case: (Z.eqb_spec (pmode o) Z0) => Hp; case: ifP => _; case: ifP => _; lia. }
  rewrite /sl. congr (_, _).
  - apply: propagate_slot. case: Hna => H1 [H2|H2]; [right; split=> //|left]; apply/leP; lia.
  - rewrite /var /propagate /=. case: insubP => // a _ Ea.
    have Ha : (3 <= a)%N by rewrite Ea; apply/leP; lia.
    rewrite mxE phi_col // phi_row // mxE eqxx /=. case: ifP => [|_]; last by rewrite addr0.
    rewrite Ea => /ltP. change (nq (ui_o I)) with (na o). lia.
Qed.
Lemma freqs_other l st s f : svalid s -> (f < nf o)%N -> ~ List.In f l ->
  sl (foldl (ud_freq I) st l) (amb s f) = sl st (amb s f) /\ u_outc (foldl (ud_freq I) st l) s f = u_outc st s f.
Proof.
  move=> V Hf. elim: l st => //= g l IH st N.
  have [H1 H2] := IH (ud_freq I st g) (fun H => N (or_intror H)).
  have Ng : g <> f by move=> E; apply: N; left.
  have [H3 H4] := freq_other st V Hf Ng. by rewrite H1 H2 H3 H4.
Qed.
Lemma udstate_sl st s f : svalid s -> (f < nf o)%N -> List.NoDup (ui_sat I) ->
  let y := if tracked s && lost st s f && (getx (u_x st) (amb s f) != 0) then (0, 0) else sl st (amb s f) in
  (~ List.In s (ui_sat I) -> sl (udstate I st) (amb s f) = y) /\
  (forall i, (i < size (ui_sat I))%N -> nth Z0 (ui_sat I) i = s ->
     sl (udstate I st) (amb s f) = if ((ud_bias I f i).1 != 0) && (y.1 == 0)
                                   then ((ud_bias I f i).1, ui_n0 I ^+ 2) else y).
Proof.
  move=> V Hf ND y. rewrite /udstate -/o.
  have -> : iota 0 (nf o) = iota 0 f ++ f :: iota f.+1 (nf o - f.+1).
  { rewrite -{1}(subnKC Hf) addSn -addnS iotaD add0n //. }
  rewrite foldl_cat /=. set st0 := foldl _ (propagate I st) (iota 0 f).
  have [E0 O0] : sl st0 (amb s f) = sl st (amb s f) /\ u_outc st0 s f = u_outc st s f.
  { have N0 : ~ List.In f (iota 0 f) by rewrite iotaP add0n ltnn andbF.
    have [H1 H2] := freqs_other (propagate I st) V Hf N0. by rewrite /st0 H1 H2 propagate_sl. }
  have N1 : ~ List.In f (iota f.+1 (nf o - f.+1)) by rewrite iotaP ltnn.
  have [-> _] := freqs_other (ud_freq I st0 f) V Hf N1.
  have R := reset_loop st0 V Hf. rewrite {1}/lost O0 E0 -/(lost st s f) in R.
  have G : getx (u_x st0) (amb s f) = getx (u_x st) (amb s f) by case: E0.
  rewrite G -/y in R. set st1 := foldl _ _ _ in R.
  have [L1 L2] := init_loop st1 V Hf ND.
  rewrite /ud_freq -/st1. split=> [N|i Hi Es]; first by rewrite L1 // R.
  rewrite (L2 i Hi Es) R. have -> : getx (u_x st1) (amb s f) = y.1 by rewrite -R. by [].
Qed.
End Ud.

Section Bias.
Variable F : realFieldType.
Variable I : udin F.
Lemma bias_first i f : (f < nf (ui_o I))%N -> first_value I i f (ud_bias I f i).1.
Proof.
  move=> Hf. rewrite /first_value. set s := nth Z0 (ui_sat I) i. rewrite /ud_bias -/s. cbv zeta.
  split; first by move=> ->.
  split. { move=> H. case: ifP => // _. case: (if _ then _ else _) => // ch. case: ifP => _; rewrite ?H ?eqxx //=. by case: ifP. }
  split. { move=> H. case: ifP => // _. case: (if _ then _ else _) => // ch. case: ifP => _; rewrite ?H ?eqxx ?orbT //=. case: ifP => //. }
  move=> rho ion amb fr Hc Hg Hfr -> c0 Hd.
  have [ch [Ech Eu]] : exists ch, (if gnss_eqb (fst (sat2prn s)) GLO then ui_ch I s else Some Z0) = Some ch /\
      forall p k, ufreq I p k s = ui_freq I (fst (sat2prn s)) p k ch.
  { move: Hg. rewrite /ufreq. case: (fst (sat2prn s)) => //= Hg; try by exists Z0.
    case: (ui_ch I s) Hg => [c|/(_ erefl) //] _. by exists c. }
  rewrite Ech. have nf0 : (0 < nf (ui_o I))%N by case: (nf (ui_o I)) Hf.
  case: (Hfr f Hf) => ff [Fp [_ [NP NL]]]. case: (Hfr 0%N nf0) => f00 [_ [Fc0 [NP0 _]]].
  have Hif : (f < nf (ui_o I))%N := Hf.
  case: (Hc f Hf). set g := (fr 0%N / fr f) ^+ 2 => EP EL.
  rewrite -!Eu Fp Fc0.
  have n0 : fr f != 0 by rewrite lt0r_neq0. have n00 : fr 0%N != 0 by rewrite lt0r_neq0.
  have cc : ui_c I != 0 by rewrite lt0r_neq0.
  have final x : x = ion -> ui_L I i f - ui_P I i f / (ui_c I / fr f) + 2%:R * x / (ui_c I / fr f) * g = amb f.
  { move=> ->. rewrite EL EP. move: g (ui_c I / fr f) {EP EL}=> g l.
    rewrite mulrDl mulNr [g * ion / l]mulrC mulrDl [X in _ - (_ + X)]mulrC.
    have -> : 2%:R * ion / l * g = l^-1 * (g * ion) + l^-1 * (g * ion).
    { rewrite -mulr2n -[RHS]mulr_natl -!mulrA. by rewrite [g * ion]mulrC [ion * (l^-1 * g)]mulrCA. }
    abgroup. }
  case: ifP => H2.
  - case: Hd => [[A [B C]]|[_ N]]; last first.
    { exfalso. apply: N. case/andP: H2 => -> H2; split=> //. move: H2. rewrite /niono. by case: (Z.eqb_spec (iono_opt (ui_o I)) (Zpos 1)). }
    case: (Hfr 1%N A) => f1 [_ [Fc1 [NP1 _]]]. rewrite Fc1.
    case: eqP => // _. case: eqP => // _ /=. case: eqP => // _. case: eqP => // _ /=. apply: final.
    case: (Hc 0%N nf0) => -> _. case: (Hc 1%N A) => -> _. rewrite divff // expr1n mul1r.
    have -> : rho + ion - (rho + (fr 0%N / fr 1%N) ^+ 2 * ion) = ion * (1 - (fr 0%N / fr 1%N) ^+ 2).
    { rewrite mulrBr mulr1 [ion * _]mulrC. abgroup. }
    rewrite mulfK // subr_eq0 eq_sym -[X in _ != X](expr1n _ 2) eqf_sqr. rewrite negb_or. apply/andP; split.
    + apply/eqP=> E. apply: C. by rewrite -[LHS](divfK (lt0r_neq0 f1)) E mul1r.
    + rewrite -addr_eq0 lt0r_neq0 // addr_gt0 ?ltr01 // divr_gt0 //.
  - case: eqP => // _. case: eqP => // _ /=. 
    case: Hd => [[A [B C]]|[E0 _]]; first by rewrite A /niono B in H2.
    rewrite !mul0r expr0n /= mulr0. have := final 0. rewrite E0 mulr0 !mul0r. by apply.
Qed.
End Bias.

(* ---------- position, velocity and zenith delay over an epoch ---------- *)
Section Head.
Variable F : realFieldType.
Variable n : nat.
Variable I : udin F.
Let o := ui_o I.
Implicit Type st : ust F n.
Definition hlen : nat := Z.to_nat (Z.add (base o) (if Z.eqb (trop_opt o) (Zpos 1) then Zpos 1 else Z0)).
Variables a b : 'I_n.
Hypothesis Ha : (a < hlen)%N.
Hypothesis Hb : (b < hlen)%N.
Definition hd st : F * F := (u_x st a 0, u_P st a b).
Lemma hd_initx x0 v0 j st : (hlen <= j)%N -> hd (initx x0 v0 j st) = hd st.
Proof.
  move=> H. rewrite /hd /initx /= !mxE.
  have -> : (a == j :> nat) = false by apply/negbTE; rewrite neq_ltn (leq_trans Ha H).
  have -> : (b == j :> nat) = false by apply/negbTE; rewrite neq_ltn (leq_trans Hb H). by [].
Qed.
Lemma hlen_amb s f : svalid s -> (hlen <= amb I s f)%N.
Proof.
  move=> [A B]. have := amb_val I f A. rewrite -/o => E. apply/leP. move: E. rewrite /hlen /na /ntrop /niono -/(base o). 
  change MAXSAT with (Zpos 233). have : Z.le (Zpos 3) (base o) by rewrite /base; case: ifP.
  by case: (Z.eqb (trop_opt o) _); case: (Z.eqb (iono_opt o) _); lia.
Qed.
Lemma hlen_ion s : svalid s -> Z.lt Z0 (niono o) -> (hlen <= ion I s)%N.
Proof.
  move=> [A B] Hi. have := ion_val A Hi. rewrite -/o => E. apply/leP. move: E Hi. rewrite /hlen /na /ntrop /niono -/(base o). 
  change MAXSAT with (Zpos 233). have : Z.le (Zpos 3) (base o) by rewrite /base; case: ifP.
  by case: (Z.eqb (trop_opt o) _); case: (Z.eqb (iono_opt o) _); lia.
Qed.
Lemma hd_reset f s st : svalid s -> hd (ud_reset I f s st) = hd st.
Proof.
  move=> V. rewrite /ud_reset; cbv zeta. case: ifP => // _. set r := _ || _. set st0 := US _ _ _.
  have E : hd (reset_amb I f s r st0) = hd st0.
  { rewrite /reset_amb. case: ifP => // _. exact: hd_initx (hlen_amb f V). }
  rewrite /reset_ion. case: Z.ltb_spec => Hi; last by rewrite E. case: ifP => _; last by rewrite E.
  by rewrite hd_initx ?E //; exact: hlen_ion.
Qed.
Lemma hd_init f i st : svalid (nth Z0 (ui_sat I) i) -> hd (ud_init I f i st) = hd st.
Proof.
  move=> V. rewrite /ud_init; cbv zeta. case: (ud_bias I f i) => c e. 
  have E : hd (init_amb I f (nth Z0 (ui_sat I) i) c st) = hd st.
  { rewrite /init_amb. case: ifP => // _. exact: hd_initx (hlen_amb f V). }
  rewrite /init_ion. case: Z.ltb_spec => Hi; last by rewrite E. case: ifP => _; last by rewrite E.
  by rewrite hd_initx ?E //; exact: hlen_ion.
Qed.
Lemma hd_udstate st : (forall s, List.In s (ui_sat I) -> svalid s) -> hd (udstate I st) = hd (propagate I st).
Proof.
  move=> V. apply: foldl_inv => f z _. rewrite /ud_freq.
  rewrite (foldl_inv (h := hd)); last first.
  { move=> i y /iotaP Hi. apply: hd_init. apply: V. apply: nth_in. by case/andP: Hi. }
  apply: (foldl_inv (h := hd)) => k y /iota_valid Vk. exact: hd_reset.
Qed.
End Head.
Section Motion.
Variable F : realFieldType.
Variable n : nat.
Variable I : udin F.
Let o := ui_o I.
Implicit Type st : ust F n.
Let moving := ~~ Z.leb (pmode o) Z0.
Lemma phi_l (A : 'M[F]_n) a b : (phi n I *m A) a b =
  A a b + (if moving && (a < 3)%N then ui_tt I * (if insub (a + 3)%N is Some c then A c b else 0) else 0).
Proof.
  rewrite mxE.
  transitivity (\sum_c ((a == c)%:R * A c b + (if moving && (a < 3)%N && (c == (a + 3)%N :> nat) then ui_tt I else 0) * A c b)).
  { apply: eq_bigr => c _. by rewrite mxE mulrDl. }
  rewrite big_split /=. congr (_ + _).
  - rewrite (bigD1 a) //= eqxx mul1r big1 ?addr0 // => c N. by rewrite eq_sym (negbTE N) mul0r.
  - case: (moving && (a < 3)%N); last by rewrite big1 // => c _; rewrite mul0r.
    case: insubP => [c _ Ec|N]; rewrite /=.
    + rewrite (bigD1 c) //= Ec eqxx big1 ?addr0 // => d Nd. case: eqP => E; last by rewrite mul0r.
      case/negP: Nd. apply/eqP/val_inj. by rewrite /= Ec.
    + rewrite mulr0 big1 // => c _. case: eqP => E; last by rewrite mul0r. move: (ltn_ord c). by rewrite E (negbTE N).
Qed.
Lemma phi_r (A : 'M[F]_n) a b : (A *m (phi n I)^T) a b =
  A a b + (if moving && (b < 3)%N then ui_tt I * (if insub (b + 3)%N is Some c then A a c else 0) else 0).
Proof.
  have -> : (A *m (phi n I)^T) a b = (phi n I *m A^T) b a.
  { rewrite !mxE. apply: eq_bigr => c _. by rewrite !mxE mulrC. }
  rewrite phi_l !mxE. case: insubP => [c _ _|_] //. by rewrite mxE.
Qed.
Lemma prop_P st a b : let W c d := if insub c is Some c' then if insub d is Some d' then u_P st c' d' else 0 else 0 in
  u_P (propagate I st) a b = W a b +
   (if moving then
     (if (a < 3)%N then ui_tt I * W (a + 3)%N b else 0) + (if (b < 3)%N then ui_tt I * W a (b + 3)%N else 0) +
     (if (a < 3)%N && (b < 3)%N then ui_tt I ^+ 2 * W (a + 3)%N (b + 3)%N else 0) else 0) +
   (if (a == b) && (a < Z.to_nat (nq o))%N then ui_q I a * ui_tt I else 0).
Proof.
  move=> W. rewrite /propagate /= mxE. congr (_ + _); last by rewrite mxE.
  rewrite phi_r phi_l.
  have Wab : W a b = u_P st a b by rewrite /W !valK.
  have Wl c : W c b = if insub c is Some c' then u_P st c' b else 0 by rewrite /W valK.
  have Wr c : W a c = if insub c is Some c' then u_P st a c' else 0 by rewrite /W valK.
  rewrite Wab Wl Wr. case Em: moving; last by rewrite /= !addr0.
  case La: (a < 3)%N; case Lb: (b < 3)%N; rewrite /= ?addr0 ?add0r //.
  - rewrite /W. case: (insubP _ (b + 3)%N) => [c _ _|_].
    + rewrite phi_l Em La /= mulrDr mulrA -expr2. case: (insubP _ (a + 3)%N) => [d _ _|_]; rewrite ?mulr0 ?addr0 ?add0r //.
      abgroup.
    + by case: (insub (a + 3)%N : option 'I_n) => [d|]; rewrite !(mulr0, addr0).
  - congr (_ + _ * _). case: insubP => // c _ _. by rewrite phi_l La andbF addr0.
Qed.
Lemma prop_x st (a : 'I_n) : u_x (propagate I st) a 0 =
  u_x st a 0 + (if moving && (a < 3)%N then ui_tt I * getx (u_x st) (a + 3) else 0).
Proof.
  rewrite /propagate /= -/o -/moving. case: moving; last by rewrite addr0.
  rewrite mxE. case: ifP => _; by rewrite ?addr0 // mulrC.
Qed.
End Motion.
