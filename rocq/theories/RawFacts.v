(** Reading fields out of frames, and frames kept in slots of a buffer. *)
From Verif Require Import SatModel TimeModel TimeSpec TimeProofs CssrState CssrFacts RawModel RawSpec.
From Verif Require Import Base BaseFacts FieldFacts.
From Coq Require Import ZifyBool ZifyNat.
Notation length := List.length.
Open Scope Z_scope.

(* ---------- fields ---------- *)
(** a field sent in two parts *)
Lemma pow_split a b : 2 ^ Z.of_nat (a + b) = 2 ^ Z.of_nat a * 2 ^ Z.of_nat b.
Proof. rewrite Nat2Z.inj_add. apply Z.pow_add_r; lia. Qed.
Lemma split_mod l1 l2 v : (v / 2 ^ Z.of_nat l2) mod 2 ^ Z.of_nat l1 * 2 ^ Z.of_nat l2 + v mod 2 ^ Z.of_nat l2 = v mod 2 ^ Z.of_nat (l1 + l2).
Proof.
  rewrite pow_split. pose proof (pow2_pos l1). pose proof (pow2_pos l2).
  rewrite (Z.mul_comm (2 ^ Z.of_nat l1)). rewrite Z.rem_mul_r by lia. lia.
Qed.
Lemma join_mod v : join32 ((v / 2 ^ 24) mod 2 ^ Z.of_nat 8) (v mod 2 ^ Z.of_nat 24) = v mod 2 ^ Z.of_nat 32.
Proof. unfold join32. exact (split_mod 8 24 v). Qed.

(* ---------- splicing ---------- *)
Lemma At_keep (b : bits) off x i w : At b i w -> (off + length x <= length b)%nat ->
  (i + length w <= off \/ off + length x <= i)%nat -> At (splice b off x) i w.
Proof.
  intros A Hb Hd.
  assert (E : slice (splice b off x) i (length w) = w).
  { apply (nth_list_eq false).
    - apply slice_length. rewrite splice_length by lia. now apply At_bound.
    - intros k Hk. rewrite slice_length in Hk by (rewrite splice_length by lia; now apply At_bound).
      rewrite nth_slice by assumption. rewrite nth_splice by assumption.
      transitivity (nth (i + k) b false); [|rewrite <- (nth_slice false b i (length w) k Hk); now rewrite (slice_at b i w A)].
      destruct (Nat.leb_spec off (i + k)); cbn [andb]; [|reflexivity].
      destruct (Nat.ltb_spec (i + k) (off + length x)); [lia|reflexivity]. }
  rewrite <- E at 1. apply At_slice. rewrite splice_length by lia. now apply At_bound.
Qed.
Lemma At_keep_app (a x c d : bits) i w : At (a ++ c) i w -> (i + length w <= length a)%nat -> At (a ++ x ++ d) i w.
Proof.
  intros (pre & post & E & Hp) Hl. exists pre.
  assert (F : firstn (length a) (pre ++ w ++ post) = a) by (rewrite <- E; now rewrite firstn_app, Nat.sub_diag, firstn_all, firstn_O, app_nil_r).
  rewrite app_assoc in F. rewrite firstn_app in F. rewrite firstn_all2 in F by (rewrite app_length; lia).
  rewrite app_length in F. exists (firstn (length a - (length pre + length w)) post ++ x ++ d). split; [|assumption].
  rewrite <- F at 1. now rewrite <- !app_assoc.
Qed.

Lemma skipn_add {A} (l : list A) i n : skipn n (skipn i l) = skipn (i + n) l.
Proof. apply skipn_skipn_add. Qed.
Lemma slice_add {A} (l : list A) i n m : slice l i (n + m) = slice l i n ++ slice l (i + n) m.
Proof.
  unfold slice. rewrite <- (skipn_add l i n).
  generalize (skipn i l). intros k. rewrite <- (firstn_skipn n (firstn (n + m) k)). rewrite firstn_firstn.
  replace (Nat.min n (n + m)) with n by lia. f_equal. rewrite firstn_skipn_comm. reflexivity.
Qed.
Lemma splice_splice {A} (l : list A) i x y : (i + length x + length y <= length l)%nat ->
  splice (splice l i x) (i + length x) y = splice l i (x ++ y).
Proof.
  intros Hl. set (m := splice l i x).
  assert (Em : m = (firstn i l ++ x) ++ skipn (i + length x) l) by (unfold m, splice; now rewrite app_assoc).
  assert (Lh : length (firstn i l ++ x) = (i + length x)%nat) by (rewrite app_length, firstn_length; lia).
  unfold splice. rewrite Em, firstn_app, skipn_app, Lh, Nat.sub_diag, firstn_O, app_nil_r.
  rewrite firstn_all2 by lia. rewrite skipn_all2 by lia. cbn [app].
  rewrite skipn_add, app_length, <- !app_assoc. do 4 f_equal. lia.
Qed.
Lemma splice_nil {A} (l : list A) i : splice l i [] = l.
Proof. unfold splice. cbn [length app]. rewrite Nat.add_0_r. apply firstn_skipn. Qed.

(** the index a negative position stands for *)
Definition wrapidx (b : bits) (j : Z) : Z := if j <? 0 then j + Z.of_nat (bytelen b) else j.
Lemma copybytes_wrap n msg i buff j : (i + 8 * n <= length msg)%nat -> length buff = (8 * bytelen buff)%nat ->
  0 <= wrapidx buff j -> wrapidx buff j + Z.of_nat n <= Z.of_nat (bytelen buff) -> (0 <= j \/ j + Z.of_nat n <= 0) ->
  copybytes n msg i buff j = Some (splice buff (8 * Z.to_nat (wrapidx buff j)) (slice msg i (8 * n))).
Proof.
  intros Hm Hb Hj Hn Hneg. unfold copybytes.
  assert (Hs : forall m, (m <= n)%nat -> mfor m 0 (fun k b => do v <- getu msg (i + 8 * k) 8; setbyte b (j + Z.of_nat k) v) buff
     = Some (splice buff (8 * Z.to_nat (wrapidx buff j)) (slice msg i (8 * m)))).
  { induction m as [|m IH]; intros Hmn.
    - replace (slice msg i (8 * 0)) with (@nil bool) by reflexivity. now rewrite splice_nil.
    - rewrite mfor_snoc, IH by lia. cbn [bind Nat.add].
      set (b := splice buff _ _).
      assert (Lb : length b = length buff) by (apply splice_length; rewrite slice_length; lia).
      destruct (getu_some msg (i + 8 * m) 8) as [v Ev]; [lia|]. rewrite Ev. cbn [bind].
      unfold setbyte. assert (Bb : bytelen b = bytelen buff) by (unfold bytelen; now rewrite Lb). rewrite Bb.
      assert (Ew : (if j + Z.of_nat m <? 0 then j + Z.of_nat m + Z.of_nat (bytelen buff) else j + Z.of_nat m) = wrapidx buff j + Z.of_nat m).
      { unfold wrapidx in *. destruct (j <? 0) eqn:Ej; destruct (j + Z.of_nat m <? 0) eqn:Ek; lia. }
      cbv zeta. rewrite Ew.
      replace ((0 <=? wrapidx buff j + Z.of_nat m) && (wrapidx buff j + Z.of_nat m <? Z.of_nat (bytelen buff))) with true by lia.
      pose proof (getu_range _ _ _ _ Ev) as R.
      assert (P : putu b (8 * Z.to_nat (wrapidx buff j + Z.of_nat m)) 8 v = Some (splice b (8 * Z.to_nat (wrapidx buff j + Z.of_nat m)) (bitsof 8 v))).
      { apply putu_some. repeat split; try lia. }
      rewrite P. f_equal. unfold b.
      assert (Lx : length (slice msg i (8 * m)) = (8 * m)%nat) by (apply slice_length; lia).
      replace (8 * Z.to_nat (wrapidx buff j + Z.of_nat m))%nat with (8 * Z.to_nat (wrapidx buff j) + length (slice msg i (8 * m)))%nat by lia.
      rewrite splice_splice by (rewrite bitsof_length; lia). f_equal.
      replace (8 * S m)%nat with (8 * m + 8)%nat by lia. rewrite slice_add. f_equal.
      assert (Ls : length (slice msg (i + 8 * m) 8) = 8%nat) by (apply slice_length; lia).
      unfold getu in Ev. replace (i + 8 * m + 8 <=? length msg)%nat with true in Ev by lia. injection Ev as <-.
      rewrite <- Ls at 1. apply bitsof_of_bval. }
  apply Hs. lia.
Qed.
Lemma copybytes_ok n msg i buff j : (i + 8 * n <= length msg)%nat -> length buff = (8 * bytelen buff)%nat ->
  0 <= j -> j + Z.of_nat n <= Z.of_nat (bytelen buff) ->
  copybytes n msg i buff j = Some (splice buff (8 * Z.to_nat j) (slice msg i (8 * n))).
Proof.
  intros Hm Hb Hj Hn. assert (W : wrapidx buff j = j) by (unfold wrapidx; now replace (j <? 0) with false by lia).
  rewrite copybytes_wrap by (rewrite ?W; lia). now rewrite W.
Qed.

(* ---------- slices of byte arrays ---------- *)
Lemma pyidx_pos b k : 0 <= k <= Z.of_nat (bytelen b) -> pyidx b k = Z.to_nat k.
Proof. intros H. unfold pyidx. replace (k <? 0) with false by lia. now rewrite Z.min_l by lia. Qed.
Lemma setslice_splice b a c w : 0 <= a -> a <= c <= Z.of_nat (bytelen b) -> length w = (8 * Z.to_nat (c - a))%nat ->
  setslice b a c w = splice b (8 * Z.to_nat a) w.
Proof.
  intros Ha Hc Hw. unfold setslice. rewrite !pyidx_pos by lia. unfold splice. rewrite Hw.
  do 2 f_equal. f_equal. lia.
Qed.
Lemma setslice_keep b a c w i x : At b i x -> (i + length x <= 8 * pyidx b a)%nat -> length b = (8 * bytelen b)%nat ->
  At (setslice b a c w) i x.
Proof.
  intros A Hi Hb. unfold setslice.
  apply (At_keep_app _ _ (skipn (8 * pyidx b a) b)).
  - now rewrite firstn_skipn.
  - rewrite firstn_length. apply At_bound in A. lia.
Qed.
Lemma pyidx_le b k : (pyidx b k <= bytelen b)%nat.
Proof. unfold pyidx. destruct (k <? 0) eqn:E; lia. Qed.
Lemma setslice_length b a c w : length b = (8 * bytelen b)%nat ->
  length (setslice b a c w) = (8 * pyidx b a + length w + (8 * bytelen b - 8 * Nat.max (pyidx b a) (pyidx b c)))%nat.
Proof.
  intros Hb. unfold setslice. rewrite !app_length, firstn_length, skipn_length.
  pose proof (pyidx_le b a). pose proof (pyidx_le b c). lia.
Qed.
Lemma bytelen_eq b n : length b = (8 * n)%nat -> bytelen b = n /\ length b = (8 * bytelen b)%nat.
Proof. intros H. unfold bytelen. rewrite H, Nat.mul_comm, Nat.div_mul by lia. lia. Qed.

(* ---------- latest ---------- *)
Lemma latest_snoc {A} (want : rx -> option A) h e :
  latest want (h ++ [e]) = match want e with Some a => Some a | None => latest want h end.
Proof.
  induction h as [|x h IH]; cbn [app latest]; [now destruct (want e)|].
  rewrite IH. destruct (want e); [reflexivity|reflexivity].
Qed.
Lemma zbytes_at n i m : (i + m <= 8 * n)%nat -> At (zbytes n) i (repeat false m).
Proof.
  intros H. exists (repeat false i), (repeat false (8 * n - i - m)). rewrite !repeat_length. split; [|reflexivity].
  rewrite <- !repeat_app. unfold zbytes. f_equal. lia.
Qed.
Lemma enc_zero n : repeat false n = enc [(n, 0)].
Proof.
  cbn [enc flat_map fst snd]. rewrite app_nil_r. induction n as [|n IH]; [reflexivity|].
  cbn [repeat bitsof]. rewrite Z.testbit_0_l. now f_equal.
Qed.
