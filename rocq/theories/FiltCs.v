(** Carrier smoothing: proofs. *)
From Coq Require Import Lia.
From Verif Require Import AbGroup CssrFacts FiltModel FiltSpec.
From mathcomp Require Import all_ssreflect all_algebra.
Set Implicit Arguments.
Unset Strict Implicit.
Unset Printing Implicit Defensive.
Import Order.POrderTheory GRing.Theory Num.Theory.
Local Open Scope ring_scope.

Section Cs.
Variable F : realFieldType.
Variables (U : Z) (ns : nat) (dt : Z) (th : F).
Notation cobs := (cobs F).
Notation cs_call := (@cs_call F U ns dt th).
Notation cs_from := (@cs_from F U ns dt th).
(** what the object remembers about one satellite *)
Definition view (sat : Z) (s : csst F) := (zget sat (cs_cnt s), zget sat (cs_ps s), zget sat (cs_lp s), zget sat (cs_t0 s)).
Definition vw := (option nat * option F * option F * option gtime)%type.
Definition vstep (c : cobs) (v : vw) : option (F * vw) :=
  let '(n, ps, lp, t0) := v in
  if (co_p c == 0) || (co_l c == 0) then Some (co_p c, (Some 1%N, ps, lp, t0)) else
  do n <- (match n with
           | None => Some 1%N
           | Some k => do t <- t0; if Z.gtb (timediff U (co_t c) t) dt then Some 1%N else Some k
           end);
  do np <- (if n == 1%N then Some (n, co_p c) else
            do q <- ps; do l <- lp;
            let Pp := q + (co_l c - l) in
            if `|co_p c - Pp| < th then Some (n, 1 / n%:R * co_p c + (1 - 1 / n%:R) * Pp) else Some (1%N, co_p c));
  Some (np.2, (Some (minn np.1.+1 ns), Some np.2, Some (co_l c), Some (co_t c))).
Arguments vstep : simpl never.
Arguments view : simpl never.
Lemma call_view c s : match cs_call c s, vstep c (view (co_sat c) s) with
  | Some (p, s'), Some (q, v) => p = q /\ view (co_sat c) s' = v
  | None, None => True | _, _ => False end.
Proof.
  rewrite /FiltSpec.cs_call /csmooth /vstep /view. case: ifP => _.
  - split=> //=. by rewrite zget_zset_same.
  - case E: (zget (co_sat c) (cs_cnt s)) => [k|].
    + case Et: (zget (co_sat c) (cs_t0 s)) => [t|//]. rewrite /=. case: (Z.gtb (timediff U (co_t c) t) dt).
      * by rewrite /= !zget_zset_same /= !zget_zset_same.
      * rewrite /= E /=. case: (k == 1%N) => /=; first by rewrite !zget_zset_same.
        case: (zget (co_sat c) (cs_ps s)) => [q|//] /=. case: (zget (co_sat c) (cs_lp s)) => [l|//] /=.
        by case: (_ < th) => /=; rewrite !zget_zset_same.
    + by rewrite /= !zget_zset_same /= !zget_zset_same.
Qed.
Lemma call_other c s p s' k : cs_call c s = Some (p, s') -> k <> co_sat c -> view k s' = view k s.
Proof.
  move=> H N. have {}N : co_sat c <> k by move=> E; apply: N. move: H. rewrite /FiltSpec.cs_call /csmooth /view. case: ifP => _.
  - case=> _ <- /=. by rewrite !zget_zset_other.
  - case E: (zget (co_sat c) (cs_cnt s)) => [j|].
    + case Et: (zget (co_sat c) (cs_t0 s)) => [t|//]. rewrite /=. case: (Z.gtb (timediff U (co_t c) t) dt).
      * rewrite /= zget_zset_same /= => -[_ <-] /=. by rewrite !zget_zset_other.
      * rewrite /= E /=. case: ifP => _ /=; first by case=> _ <- /=; rewrite !zget_zset_other.
        case: (zget (co_sat c) (cs_ps s)) => [q|//] /=. case: (zget (co_sat c) (cs_lp s)) => [l|//] /=.
        by case: ifP => _ /= -[_ <-] /=; rewrite !zget_zset_other.
    + rewrite /= zget_zset_same /= => -[_ <-] /=. by rewrite !zget_zset_other.
Qed.

Lemma missingP (c : cobs) : reflect (missing c) ((co_p c == 0) || (co_l c == 0)).
Proof.
  apply: (iffP orP); by case=> /eqP H; [left|right].
Qed.
Fixpoint vfrom (v : vw) (h : seq cobs) : option (seq F * vw) :=
  match h with
  | [::] => Some ([::], v)
  | c :: r => match vstep c v with
              | Some (p, v') => if vfrom v' r is Some (out, w) then Some (p :: out, w) else None
              | None => None
              end
  end.
Lemma vfrom_cat v a b : vfrom v (a ++ b) =
  match vfrom v a with
  | Some (o1, w) => match vfrom w b with Some (o2, w') => Some (o1 ++ o2, w') | None => None end
  | None => None end.
Proof.
  elim: a v => [|c a IH] v /=; first by case: (vfrom v b) => // -[].
  case: (vstep c v) => // -[p v']. rewrite IH. case: (vfrom v' a) => // -[o1 w]. by case: (vfrom w b) => // -[].
Qed.
Lemma from_all k s h : all (fun c => Z.eqb (co_sat c) k) h ->
  cs_from s h = omap fst (vfrom (view k s) h).
Proof.
  elim: h s => //= c h IH s /andP [/Z.eqb_spec E A]. have := call_view c s. rewrite E.
  case: (cs_call c s) => [[p s']|]; case: (vstep c (view k s)) => [[q v]|] //= [-> <-].
  rewrite (IH s' A). by case: (vfrom (view k s') h) => // -[].
Qed.
Lemma from_filter k s h out : cs_from s h = Some out ->
  size out = size h /\
  omap fst (vfrom (view k s) [seq c <- h | Z.eqb (co_sat c) k]) = Some (mask [seq Z.eqb (co_sat c) k | c <- h] out).
Proof.
  elim: h s out => [|c h IH] s out /=; first by case=> <-.
  case E: (cs_call c s) => [[p s']|//]. case E2: (cs_from s' h) => [o|//] [<-].
  have [Es IH'] := IH s' o E2. split; first by rewrite /= Es.
  case: (Z.eqb_spec (co_sat c) k) => Ek /=.
  - have := call_view c s. rewrite E Ek. case: (vstep c (view k s)) => [[q v]|//] [-> Ev].
    rewrite Ev in IH'. by case: (vfrom v _) IH' => [[o1 w]|//] /= [->].
  - have N : k <> co_sat c by move=> H; apply: Ek. by rewrite -(call_other E N) IH'.
Qed.
Lemma outs_independent k (h : seq cobs) out : cs_outs U ns dt th h = Some out ->
  cs_outs U ns dt th [seq c <- h | Z.eqb (co_sat c) k] = Some (mask [seq Z.eqb (co_sat c) k | c <- h] out).
Proof.
  move=> H. have [_ <-] := from_filter k H. rewrite /cs_outs (from_all (k := k)) //. exact: filter_all.
Qed.

Hypothesis Hns : (0 < ns)%N.
(** what is remembered after a history of calls for one satellite *)
Definition vinv (h : seq cobs) (out : seq F) (v : vw) : Prop :=
  let '(n, ps, lp, t0) := v in
  (t0 = None -> forall c, List.In c h -> missing c) /\
  match last None [seq Some z | z <- zip h out] with
  | None => v = (None, None, None, None)
  | Some (c, p) => if (co_p c == 0) || (co_l c == 0) then n = Some 1%N else
      exists m, (1 <= m <= ns)%N /\ v = (Some m, Some p, Some (co_l c), Some (co_t c))
  end.
Definition v0 : vw := (None, None, None, None).
Lemma vfrom_size v h out w : vfrom v h = Some (out, w) -> size out = size h.
Proof.
  elim: h v out w => [|c h IH] v out w /=; first by case=> <-.
  case: (vstep c v) => // -[p v']. case E: (vfrom v' h) => [[o w']|//] [<- _] /=. by rewrite (IH _ _ _ E).
Qed.
Lemma vfrom_inv h out v : vfrom v0 h = Some (out, v) -> vinv h out v.
Proof.
  elim/last_ind: h out v => [|h c IH] out v.
  { by case=> <- <-. }
  rewrite -cats1 vfrom_cat. case E: (vfrom v0 h) => [[o1 w]|//] /=. have S := vfrom_size E.
  have Iv := IH _ _ E. case Es: (vstep c w) => [[p v']|//] [<- <-].
  rewrite /vinv. move: w Iv Es {E} => [[[n ps] lp] t0] [It Il] Es.
  rewrite zip_cat // map_cat last_cat /=. move: Es. rewrite /vstep. case: (missingP c) => M.
  - case=> _ <-. split=> //. move=> Et d Hd. case: (List.in_app_or h [:: c] d Hd) => [Hd'|[<-|[]]] //. exact: It.
  - case: n Il => [m|] Il.
    + case: t0 It Il => [t|//] It Il. rewrite /=.
      have Hm : (1 <= m <= ns)%N.
      { move: Il. case: (last _ _) => [[c0 p0]|//]. case: ifP => _; first by case=> ->; rewrite Hns.
        by case=> m' [H [-> _ _ _]]. }
      set n1 := if Z.gtb _ _ then Some 1%N else Some m.
      have [m1 [En Hm1]] : exists m1, n1 = Some m1 /\ (1 <= m1 <= ns)%N.
      { rewrite /n1. case: (Z.gtb _ _); [exists 1%N; by rewrite Hns|by exists m]. }
      rewrite En /=.
      have K q : (1 <= minn q.+1 ns <= ns)%N by rewrite leq_min Hns geq_minr.
      case: ifP => _ /=; first by case=> <- <-; split=> //; exists (minn m1.+1 ns).
      case: ps {It Il} => // q /=. case: lp => // l /=. case: ifP => _ /= [<- <-]; split=> //.
      * by exists (minn m1.+1 ns).
      * by exists (minn 2 ns).
    + rewrite /= => -[<- <-]. split=> //. exists (minn 2 ns). by rewrite leq_min Hns geq_minr.
Qed.
Lemma vstep_smooth h out v c p v' : vinv h out v -> size out = size h -> all (fun d => Z.eqb (co_sat d) (co_sat c)) h ->
  vstep c v = Some (p, v') -> smoothed U ns dt th h out c p.
Proof.
  move=> Iv S A. rewrite /smoothed /previous.
  have -> : [seq z <- zip h out | Z.eqb (co_sat z.1) (co_sat c)] = zip h out.
  { move: S A. elim: h out {Iv} => [|d h IH] [|o out] //= [S] /andP [-> A]. by rewrite IH. }
  move: v Iv => [[[n ps] lp] t0] [It]. case: (last _ _) => [[c0 p0]|].
  - rewrite /vstep. case: (missingP c) => M; first by move=> _ [<- _]; split=> [[]|].
    case: (missingP c0) => M0.
    + move=> ->. case: t0 It => [t|//] It /=. rewrite if_same /= => -[<- _]. by split=> [[_ []]|].
    + case=> m [Hm [-> -> -> ->]] /=. case: (Z.gtb_spec (timediff U (co_t c) (co_t c0)) dt) => G.
      * rewrite /= => -[<- _]. split=> // -[_ [_ [H _]]]. lia.
      * rewrite /=. case: ifP => [/eqP ->|N1] /=.
        { case=> <- _. split=> //. move=> _. exists 1. split; last by split; rewrite ?lexx // subrr mul0r addr0 mul1r.
          rewrite ler_pdivr_mulr ?ltr0n // mul1r. by rewrite ler1n. }
        case: ifP => T /= [<- _].
        { split. 
          - move=> _. exists (1 / m%:R). have m0 : 0 < m%:R :> F by rewrite ltr0n; case/andP: Hm.
            have n0 : 0 < ns%:R :> F by rewrite ltr0n.
            split; last split=> //.
            + rewrite !div1r lef_pinv //. by rewrite ler_nat; case/andP: Hm.
            + rewrite div1r invf_le1 // ler1n. by case/andP: Hm.
          - case=> [//|[//|[H|H]]]; first by lia. by rewrite Order.TotalTheory.leNgt T in H. }
        { split=> //. by case=> _ [_ [_ H]]; rewrite H in T. }
  - case=> -> -> -> ->. rewrite /vstep. by case: ifP => _ /= [<- _].
Qed.
Lemma previous_filter k (h : seq cobs) out : size out = size h ->
  previous k h out = previous k [seq c <- h | Z.eqb (co_sat c) k] (mask [seq Z.eqb (co_sat c) k | c <- h] out).
Proof.
  move=> S. rewrite /previous. congr (last None (map _ _)).
  elim: h out S => [|c h IH] [|p out] //= [S]. case E: (Z.eqb (co_sat c) k) => /=; rewrite ?E IH //.
Qed.
Lemma smoothing (h : seq cobs) out c p : cs_outs U ns dt th (rcons h c) = Some (rcons out p) -> smoothed U ns dt th h out c p.
Proof.
  move=> H. have [S0 _] := from_filter (co_sat c) H. rewrite !size_rcons in S0. case: S0 => S.
  have [_] := from_filter (co_sat c) H. rewrite filter_rcons map_rcons Z.eqb_refl -!cats1.
  rewrite mask_cat ?size_map // vfrom_cat /=. set hk := [seq _ <- h | _]. set ok := mask _ out.
  rewrite -/v0. case E: (vfrom v0 hk) => [[o1 w]|//]. case Es: (vstep c w) => [[q v']|//] /= [Eo].
  have So : size o1 = size ok.
  { rewrite (vfrom_size E) /ok /hk size_mask ?size_map // size_filter count_map. by apply: eq_count. }
  move: (f_equal rev Eo). rewrite !rev_cat /= => -[Eq Er]. 
  have {Er} Ec : o1 = ok by apply: (can_inj revK).
  rewrite Ec in E. have := vstep_smooth (vfrom_inv E) _ _ Es. rewrite /smoothed -Eq.
  rewrite (previous_filter (co_sat c) S) -/hk -/ok. apply.
  - by rewrite -So -(vfrom_size E) Ec.
  - exact: filter_all.
Qed.

(* ---------- restarts ---------- *)
Lemma outs_v k (h : seq cobs) : all (fun c => Z.eqb (co_sat c) k) h -> cs_outs U ns dt th h = omap fst (vfrom v0 h).
Proof. exact: from_all. Qed.
Lemma restart_gen (h l : seq cobs) c k : all (fun c => Z.eqb (co_sat c) k) (h ++ c :: l) ->
  (forall o v, vfrom v0 h = Some (o, v) -> vstep c v = vstep c v0) ->
  cs_outs U ns dt th (h ++ c :: l) =
    match cs_outs U ns dt th h, cs_outs U ns dt th (c :: l) with
    | Some a, Some b => Some (a ++ b) | _, _ => None end.
Proof.
  move=> A H. have [A1 A2] : all (fun c => Z.eqb (co_sat c) k) h /\ all (fun c => Z.eqb (co_sat c) k) (c :: l).
  { by move: A; rewrite all_cat => /andP. }
  rewrite (outs_v A) (outs_v A1) (outs_v A2) vfrom_cat /=.
  case E: (vfrom v0 h) => [[o v]|//]. rewrite (H _ _ E) /=.
  case: (vstep c v0) => [[p v']|//]. by case: (vfrom v' l) => // -[].
Qed.
Lemma vstep_first c n ps lp t : ~ missing c -> n = Some 1%N \/ (exists m, n = Some m) /\ Z.gtb (timediff U (co_t c) t) dt ->
  vstep c (n, ps, lp, Some t) = vstep c v0.
Proof.
  move=> /missingP/negbTE M. rewrite /vstep M. case=> [->|[[m ->] G]] /=; first by rewrite if_same.
  by rewrite G.
Qed.
Lemma last_zip (h : seq cobs) c (o : seq F) : size o = size (rcons h c) -> exists p,
  last None [seq Some z | z <- zip (rcons h c) o] = Some (c, p) /\ p = last 0 o.
Proof.
  elim/last_ind: o => [|o q _]; rewrite !size_rcons // => -[S]. rewrite -!cats1 zip_cat // map_cat !last_cat /=.
  by exists q.
Qed.
Lemma restart_gap (h l : seq cobs) c0 c k : all (fun c => Z.eqb (co_sat c) k) (h ++ c0 :: c :: l) ->
  ~ missing c0 -> ~ missing c -> Z.lt dt (timediff U (co_t c) (co_t c0)) ->
  cs_outs U ns dt th (h ++ c0 :: c :: l) =
    match cs_outs U ns dt th (h ++ [:: c0]), cs_outs U ns dt th (c :: l) with
    | Some a, Some b => Some (a ++ b) | _, _ => None end.
Proof.
  move=> A M0 M G. have E : h ++ c0 :: c :: l = (h ++ [:: c0]) ++ c :: l by rewrite -catA.
  rewrite E in A *. apply: restart_gen A _ => o v Ev. have := vfrom_inv Ev. have S := vfrom_size Ev.
  rewrite cats1 in S *. case: (last_zip S) => p [Ep _]. case: v {Ev} => [[[n ps] lp] t0] [_].
  rewrite Ep. move/missingP/negbTE: M0 => -> [m [_ [-> -> -> ->]]]. apply: vstep_first => //. right.
  split; first by exists m. apply/Z.gtb_lt. lia.
Qed.
Lemma restart_missing (h l : seq cobs) c0 c k : all (fun c => Z.eqb (co_sat c) k) (h ++ c0 :: c :: l) ->
  missing c0 -> ~ missing c -> (exists d, List.In d h /\ ~ missing d) ->
  cs_outs U ns dt th (h ++ c0 :: c :: l) =
    match cs_outs U ns dt th (h ++ [:: c0]), cs_outs U ns dt th (c :: l) with
    | Some a, Some b => Some (a ++ b) | _, _ => None end.
Proof.
  move=> A M0 M [d [Hd Nd]]. have E : h ++ c0 :: c :: l = (h ++ [:: c0]) ++ c :: l by rewrite -catA.
  rewrite E in A *. apply: restart_gen A _ => o v Ev. have := vfrom_inv Ev. have S := vfrom_size Ev.
  rewrite cats1 in S *. case: (last_zip S) => p [Ep _]. case: v {Ev} => [[[n ps] lp] t0] [It].
  rewrite Ep. move/missingP: M0 => -> ->. case: t0 It => [t _|It]; first by apply: vstep_first => //; left.
  case: Nd. apply: It => //. rewrite -cats1. exact: (List.in_or_app h [:: c0] d (or_introl Hd)).
Qed.
Lemma restart_jump (h l : seq cobs) c0 c k a : all (fun c => Z.eqb (co_sat c) k) (h ++ c0 :: c :: l) ->
  ~ missing c0 -> ~ missing c -> cs_outs U ns dt th (h ++ [:: c0]) = Some a ->
  th <= `|co_p c - (last 0 a + (co_l c - co_l c0))| ->
  cs_outs U ns dt th (h ++ c0 :: c :: l) =
    match cs_outs U ns dt th (c :: l) with Some b => Some (a ++ b) | None => None end.
Proof.
  move=> A M0 M Ea J. have E : h ++ c0 :: c :: l = (h ++ [:: c0]) ++ c :: l by rewrite -catA.
  rewrite E in A *. rewrite (restart_gen A) ?Ea // => o v Ev. have := vfrom_inv Ev. have S := vfrom_size Ev.
  have Eo : o = a.
  { have A1 : all (fun c => Z.eqb (co_sat c) k) (h ++ [:: c0]) by move: A; rewrite all_cat => /andP [].
    move: Ea. rewrite (outs_v A1) Ev. by case. }
  rewrite cats1 in S *. case: (last_zip S) => p [Ep Elast]. case: v {Ev} => [[[n ps] lp] t0] [_].
  rewrite Ep. move/missingP/negbTE: M0 => -> [m [_ [-> -> -> ->]]].
  rewrite /vstep. move/missingP/negbTE: M => -> /=. case: (Z.gtb _ _) => //=. case: ifP => [/eqP -> //|_] /=.
  rewrite Elast Eo. by rewrite Order.TotalTheory.ltNge J.
Qed.

(* ---------- an arc ---------- *)
Lemma arc_all s (h : seq cobs) : clean_arc U dt th s h -> all (fun c => Z.eqb (co_sat c) s) h.
Proof.
  move=> H. suff K b a : h = a ++ b -> all (fun c => Z.eqb (co_sat c) s) b by apply: (K h [::]).
  elim: b a => //= c b IH a E. case: (H _ _ _ E) => _ [-> _]. rewrite Z.eqb_refl /=. apply: (IH (rcons a c)).
  by rewrite cat_rcons.
Qed.
Lemma arc_prefix s (h : seq cobs) c : clean_arc U dt th s (rcons h c) -> clean_arc U dt th s h.
Proof. move=> H a d b E. apply: (H a d (rcons b c)). by rewrite E rcons_cat. Qed.
Lemma arc_v s (h : seq cobs) c : clean_arc U dt th s (rcons h c) -> (size (rcons h c) <= ns)%N ->
  exists o, vfrom v0 (rcons h c) = Some (o, (Some (minn (size (rcons h c)).+1 ns), Some (hatch (rcons h c) (co_l c)), Some (co_l c), Some (co_t c))) /\
    size o = size (rcons h c) /\
    forall a d b, rcons h c = a ++ d :: b -> nth 0 o (size a) = hatch (rcons a d) (co_l d).
Proof.
  elim/last_ind: h c => [|h d IH] c.
  - move=> H _. have [M _] := H [::] c [::] erefl. move/missingP/negbTE: M => M.
    have Hh : hatch [:: c] (co_l c) = co_p c by rewrite /hatch big_seq1 divr1 addrCA subrr addr0.
    rewrite /= /vstep /v0 M /=. exists [:: co_p c]. rewrite Hh. split=> //. split=> // -[|? [|??]] //= x b [<- _].
    by rewrite Hh.
  - move=> H Sz. have Sz' : (size (rcons h d) <= ns)%N by move: Sz; rewrite size_rcons; exact: ltnW.
    have [o [Ev [So Ho]]] := IH d (arc_prefix H) Sz'.
    have Ec : rcons (rcons h d) c = rcons h d ++ c :: [::] by rewrite cats1.
    have [M [_ C]] := H _ _ _ Ec. have [G T] := C h d (esym (cats1 h d)).
    move/missingP/negbTE: M => M.
    set n := size (rcons h d) in Ev So *.
    have n0 : (0 < n)%N by rewrite /n size_rcons.
    have Sn : size (rcons (rcons h d) c) = n.+1 by rewrite size_rcons.
    have Mn : minn n.+1 ns = n.+1 by apply/minn_idPl; rewrite -Sn.
    have Pp : hatch (rcons h d) (co_l d) + (co_l c - co_l d) = hatch (rcons h d) (co_l c).
    { rewrite /hatch. abgroup. }
    have Hc : 1 / n.+1%:R * co_p c + (1 - 1 / n.+1%:R) * hatch (rcons h d) (co_l c) = hatch (rcons (rcons h d) c) (co_l c).
    { rewrite /hatch -/n size_rcons -/n -[rcons (rcons h d) c]cats1 big_cat /= big_seq1. set S := \sum_(_ <- _) _.
      have N1 : n.+1%:R != 0 :> F by rewrite pnatr_eq0. have N0 : n%:R != 0 :> F by rewrite pnatr_eq0 -lt0n.
      have W : 1 - 1 / n.+1%:R = n%:R / n.+1%:R :> F.
      { rewrite -{1}(divff N1) -mulrBl. congr (_ / _). by rewrite -addn1 natrD addrK. }
      rewrite mulrDr W [n%:R / _ * (S / _)]mulrCA -mulrA [n%:R / n.+1%:R / n%:R]mulrAC divff // mul1r -W.
      rewrite mulrBl mul1r !div1r mulrDl mulrBl [co_p c / _]mulrC [co_l c / _]mulrC. abgroup. }
    exists (rcons o (hatch (rcons (rcons h d) c) (co_l c))). split; last split.
    + rewrite Ec vfrom_cat Ev /= /vstep M /=. 
      have -> : Z.gtb (timediff U (co_t c) (co_t d)) dt = false by apply/negbTE/negP=> /Z.gtb_lt; lia.
      rewrite /= Mn. have -> : (n.+1 == 1%N) = false by rewrite eqSS; apply/negbTE; rewrite -lt0n.
      rewrite /= Pp T /= Hc cats1 -Ec. congr (Some (_, (Some _, _, _, _))). by rewrite Sn.
    + by rewrite size_rcons So Sn.
    + move=> a x b Eb. case: (lastP b) Eb => [|b' y].
      * rewrite cats1 => /rcons_inj [<- <-]. by rewrite nth_rcons So ltnn eqxx.
      * rewrite -rcons_cons -rcons_cat => /rcons_inj [Eh _]. rewrite nth_rcons.
        have L : (size a < size o)%N by rewrite So /n Eh size_cat /= addnS ltnS leq_addr.
        rewrite L. exact: Ho Eh.
Qed.
Lemma arc_ok s (h : seq cobs) : clean_arc U dt th s h -> (size h <= ns)%N ->
  exists o, cs_outs U ns dt th h = Some o /\ size o = size h /\
    forall a d b, h = a ++ d :: b -> nth 0 o (size a) = hatch (rcons a d) (co_l d).
Proof.
  move=> H S. case: (lastP h) H S => [|h' c] H S; first by exists [::]; split=> //; split=> // -[].
  have [o [Ev [So Ho]]] := arc_v H S. exists o. rewrite (outs_v (arc_all H)) Ev. by [].
Qed.
(* ---------- exceptions ---------- *)
Lemma key_error (c0 c : cobs) : co_sat c0 = co_sat c -> missing c0 -> ~ missing c -> cs_outs U ns dt th [:: c0; c] = None.
Proof.
  move=> E /missingP M0 /missingP/negbTE M. rewrite (outs_v (k := co_sat c)) /=; last by rewrite E Z.eqb_refl.
  by rewrite /vstep /v0 M0 /= M.
Qed.
Lemma outs_defined (h : seq cobs) :
  (forall a c b, h = a ++ c :: b -> missing c -> exists d, List.In d a /\ co_sat d = co_sat c /\ ~ missing d) ->
  cs_outs U ns dt th h <> None.
Proof.
  (* every satellite that has a counter has complete entries *)
  pose inv (s : csst F) (a : seq cobs) := forall k, match view k s with
    | (None, _, _, _) => forall d, List.In d a -> co_sat d <> k
    | (Some _, Some _, Some _, Some _) => True | _ => False end.
  suff K b s a : inv s a -> h = a ++ b ->
    (forall a c b, h = a ++ c :: b -> missing c -> exists d, List.In d a /\ co_sat d = co_sat c /\ ~ missing d) ->
    cs_from s b <> None.
  { move=> H. apply: (K h (cs_empty F) [::]) => // k d []. }
  elim: b s a => //= c b IH s a Hi Eh H.
  have := call_view c s. move: (Hi (co_sat c)). rewrite /inv. case Ev: (view (co_sat c) s) => [[[n ps] lp] t0] Hk.
  case E: (cs_call c s) => [[p s']|].
  - case Es: (vstep c _) => [[q v]|//] [_ Ev'].
    have Hi' : inv s' (a ++ [:: c]).
    { move=> k. case: (Z.eqb_spec k (co_sat c)) => [->|N].
      - rewrite Ev'. move: Es. rewrite /vstep. case: (missingP c) => M.
        + case=> _ <-. case: n Hk {Ev} => [m|] Hk. { by move: Hk; case: ps; case: lp; case: t0. }
          case: (H _ _ _ Eh M) => d [Hd [Ed _]]. by case: (Hk d Hd).
        + case: (match n with Some _ => _ | None => _ end) => // m /=. case: (if _ then _ else _) => // r /= [_ <-]. by [].
      - rewrite (call_other E N). move: (Hi k). case: (view k s) => [[[[?|] ?] ?] ?] // Hn d Hd.
        case: (List.in_app_or a [:: c] d Hd) => [|[<-|[]]]; [exact: Hn|]. by move=> E'; apply: N. }
    have := IH s' (a ++ [:: c]) Hi'. rewrite -catA => /(_ Eh H). by case: (cs_from s' b).
  - case Es: (vstep c _) => [//|] _. exfalso. move: Es. rewrite /vstep. case: (missingP c) => M //.
    case: n Hk {Ev} => [m|] //. case: ps => [q|] //; case: lp => [l|] //; case: t0 => [t|] // _ /=.
    case: (Z.gtb _ _) => //=. case: ifP => _ //=. by case: ifP.
Qed.
End Cs.
