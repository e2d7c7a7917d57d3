(** The binary search and the window. *)
From Verif Require Import PephModel TimeSpec.
From Coq Require Import ZifyBool.
Open Scope Z_scope.

Lemma pget_nth {A} (l : list A) i d : 0 <= i < Z.of_nat (length l) -> pget l i = Some (nth (Z.to_nat i) l d).
Proof.
  intros H. unfold pget. replace (_ && _) with true by lia. apply nth_error_nth'. lia.
Qed.

Section T.
Variable U : Z.
Hypothesis HU : 0 < U.

Lemma timediff_ticks a b : timediff U a b = ticks U a - ticks U b.
Proof. unfold timediff, ticks. lia. Qed.

Definition tk (ts : list gtime) (i : Z) : Z := ticks U (nth (Z.to_nat i) ts (GT 0 0)).
(** strictly increasing epochs *)
Definition increasing (ts : list gtime) : Prop :=
  forall i j, 0 <= i < j -> j < Z.of_nat (length ts) -> tk ts i < tk ts j.

Lemma bsearch_ok ts time : increasing ts -> forall fuel i j,
  0 <= i <= j -> j < Z.of_nat (length ts) -> j - i < Z.of_nat fuel ->
  (0 < i -> tk ts (i - 1) < ticks U time) ->
  (j < Z.of_nat (length ts) - 1 -> ticks U time <= tk ts j) ->
  exists r, bsearch U fuel ts time i j = Some r /\ i <= r <= j /\
    (0 < r -> tk ts (r - 1) < ticks U time) /\
    (r < Z.of_nat (length ts) - 1 -> ticks U time <= tk ts r).
Proof.
  intros Hinc. induction fuel as [|f IH]; intros i j Hij Hj Hf Hl Hr; [lia|].
  cbn [bsearch]. destruct (Z.ltb_spec i j).
  - assert (i <= (i + j) / 2 < j) by (split; [apply Z.div_le_lower_bound|apply Z.div_lt_upper_bound]; lia).
    set (k := (i + j) / 2) in *. rewrite (pget_nth ts k (GT 0 0)) by lia. cbn [bind].
    rewrite timediff_ticks. fold (tk ts k). destruct (Z.ltb_spec (tk ts k - ticks U time) 0).
    + destruct (IH (k + 1) j) as (r & E & A & B); try lia; try assumption.
      { intros _. replace (k + 1 - 1) with k by lia. lia. }
      exists r. split; [exact E|]. split; [lia|exact B].
    + destruct (IH i k) as (r & E & A & B); try lia; try assumption.
      exists r. split; [exact E|]. split; [lia|exact B].
  - exists i. assert (i = j) by lia. subst j. split; [reflexivity|]. split; [lia|]. auto.
Qed.

(** refusal *)
Definition no_cover (nmin : Z) (ts : list gtime) (time : gtime) : Prop :=
  Z.of_nat (length ts) < nmin \/
  ticks U time < tk ts 0 - 900 * U \/ tk ts (Z.of_nat (length ts) - 1) + 900 * U < ticks U time.

Lemma pindex_ok nmin ts time : 2 <= nmin -> increasing ts ->
  (no_cover nmin ts time /\ pindex U nmin (Z.of_nat (length ts)) ts time = Some None) \/
  (~ no_cover nmin ts time /\ exists index,
     pindex U nmin (Z.of_nat (length ts)) ts time = Some (Some index) /\
     0 <= index /\ index + 1 < Z.of_nat (length ts) /\
     (tk ts index < ticks U time \/ index = 0) /\
     (ticks U time <= tk ts (index + 1) \/ index + 2 = Z.of_nat (length ts))).
Proof.
  intros Hm Hinc. unfold pindex, no_cover, MAXDTE. set (ne := Z.of_nat (length ts)).
  destruct (Z.ltb_spec ne nmin); [left; auto|].
  rewrite !(pget_nth ts _ (GT 0 0)) by (fold ne; lia). cbn [bind]. rewrite !timediff_ticks.
  fold (tk ts 0) (tk ts (ne - 1)).
  destruct (Z.ltb_spec (ticks U time - tk ts 0) (- (900) * U)); [left; split; [lia|reflexivity]|].
  destruct (Z.gtb_spec (ticks U time - tk ts (ne - 1)) (900 * U)); [left; split; [lia|reflexivity]|].
  right. split; [lia|].
  destruct (bsearch_ok ts time Hinc (S (Z.to_nat ne)) 0 (ne - 1)) as (r & -> & A & B & C); try (fold ne; lia).
  cbn [bind]. fold ne in C. destruct (Z.leb_spec r 0).
  - exists 0. split; [reflexivity|]. split; [lia|]. split; [lia|]. split; [right; reflexivity|].
    assert (r = 0) by lia. subst r. specialize (C ltac:(lia)).
    pose proof (Hinc 0 1 ltac:(lia) ltac:(fold ne; lia)). left. change (0 + 1) with 1. lia.
  - exists (r - 1). split; [reflexivity|]. split; [lia|]. split; [lia|]. replace (r - 1 + 1) with r by lia.
    split; [left; apply B; lia|]. destruct (Z.eq_dec r (ne - 1)); [right; lia|left; apply C; lia].
Qed.

Lemma pfirst_ok ne index : NMAX + 1 <= ne -> 0 <= index -> index + 1 < ne ->
  0 <= pfirst ne index /\ pfirst ne index + NMAX < ne /\
  pfirst ne index <= index /\ index + 1 <= pfirst ne index + NMAX /\
  (5 <= index -> index + 5 < ne -> pfirst ne index = index - 5).
Proof.
  unfold pfirst, NMAX. change ((10 + 1) / 2) with 5. cbv zeta.
  destruct (Z.ltb_spec (index - 5) 0), (Z.geb_spec (index - 5 + 10) ne); lia.
Qed.
End T.
