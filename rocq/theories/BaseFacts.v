(** Lemmas about Base.v. *)
From Verif Require Import Base.
From Coq Require Import ZifyBool ZifyNat ZifyN.
Open Scope Z_scope.

Lemma bind_some {A B} (x : option A) (f : A -> option B) b :
  bind x f = Some b <-> exists a, x = Some a /\ f a = Some b.
Proof.
  destruct x as [a|]; cbn; split.
  - intros H; exists a; auto.
  - intros [a' [H1 H2]]; congruence.
  - discriminate.
  - intros [a' [H1 _]]; discriminate.
Qed.

(* ---------- length ---------- *)
Lemma bitsof_length n v : length (bitsof n v) = n.
Proof. induction n as [|n IH]; cbn; congruence. Qed.

Lemma pow2_pos n : 0 < 2 ^ Z.of_nat n.
Proof. apply Z.pow_pos_nonneg; lia. Qed.

Lemma pow2_S n : 2 ^ Z.of_nat (S n) = 2 * 2 ^ Z.of_nat n.
Proof. rewrite Nat2Z.inj_succ, Z.pow_succ_r; lia. Qed.

Lemma bval_bound l : 0 <= bval l < 2 ^ Z.of_nat (length l).
Proof.
  induction l as [|b r IH]; [cbn; lia|].
  cbn [bval length]. rewrite pow2_S. pose proof (pow2_pos (length r)).
  destruct b; unfold Z.b2z; lia.
Qed.

Lemma bval_app a b : bval (a ++ b) = bval a * 2 ^ Z.of_nat (length b) + bval b.
Proof.
  induction a as [|x a IH]; [cbn; lia|].
  cbn [bval app]. rewrite IH, app_length, Nat2Z.inj_add, Z.pow_add_r by lia. ring.
Qed.

Lemma bitsof_bval_mod n v : bval (bitsof n v) = v mod 2 ^ Z.of_nat n.
Proof.
  induction n as [|n IH].
  - cbn. rewrite Z.mod_1_r. reflexivity.
  - cbn [bitsof bval]. rewrite bitsof_length, IH.
    rewrite Z.testbit_spec' by lia.
    rewrite pow2_S. pose proof (pow2_pos n).
    rewrite (Z.mul_comm 2 (2 ^ Z.of_nat n)).
    rewrite Z.rem_mul_r by lia. ring.
Qed.

Lemma bval_bitsof n v : 0 <= v < 2 ^ Z.of_nat n -> bval (bitsof n v) = v.
Proof. intros H. rewrite bitsof_bval_mod. apply Z.mod_small; lia. Qed.

Lemma bval_inj a b : length a = length b -> bval a = bval b -> a = b.
Proof.
  revert b; induction a as [|x a IH]; intros [|y b] Hl Hv; try discriminate; [reflexivity|].
  cbn in Hl. injection Hl as Hl. cbn [bval] in Hv.
  rewrite Hl in Hv.
  pose proof (bval_bound a) as Ha. pose proof (bval_bound b) as Hb. rewrite Hl in Ha.
  assert (x = y) by (destruct x, y; unfold Z.b2z in Hv; try reflexivity; lia).
  subst y. f_equal. apply IH; [assumption|lia].
Qed.

Lemma bitsof_of_bval l : bitsof (length l) (bval l) = l.
Proof.
  apply bval_inj.
  - apply bitsof_length.
  - apply bval_bitsof, bval_bound.
Qed.

Lemma bitsof_mod n v : bitsof n (v mod 2 ^ Z.of_nat n) = bitsof n v.
Proof.
  apply bval_inj; [now rewrite !bitsof_length|].
  rewrite !bitsof_bval_mod. pose proof (pow2_pos n). rewrite Z.mod_mod; lia.
Qed.

Lemma bitsof_sub_pow n v : bitsof n (v - 2 ^ Z.of_nat n) = bitsof n v.
Proof.
  rewrite <- (bitsof_mod n (v - _)), <- (bitsof_mod n v).
  f_equal. pose proof (pow2_pos n).
  rewrite <- (Z_mod_plus_full (v - 2 ^ Z.of_nat n) 1 (2 ^ Z.of_nat n)).
  f_equal. lia.
Qed.

(* ---------- At ---------- *)
Lemma At_app msg i a b : At msg i (a ++ b) <-> At msg i a /\ At msg (i + length a) b.
Proof.
  split.
  - intros (pre & post & -> & Hl). split.
    + exists pre, (b ++ post). split; [now rewrite <- app_assoc|assumption].
    + exists (pre ++ a), post. split; [now rewrite <- !app_assoc|].
      rewrite app_length; lia.
  - intros [(pre & post & -> & Hl) (pre' & post' & He & Hl')].
    exists pre, post'. split; [|assumption].
    assert (Hp : pre ++ a = pre').
    { rewrite app_assoc in He.
      assert (Hlen : length (pre ++ a) = length pre') by (rewrite app_length; lia).
      revert He Hlen. generalize (pre ++ a) as x. clear. intros x.
      revert x; induction pre' as [|y p IH]; intros [|z x] He Hlen; try discriminate; [reflexivity|].
      cbn in *. injection He as -> He. f_equal. apply IH; [assumption|lia]. }
    subst pre'. rewrite He. now rewrite <- !app_assoc.
Qed.

Lemma At_nil msg i : (i <= length msg)%nat -> At msg i [].
Proof.
  intros H. exists (firstn i msg), (skipn i msg). cbn.
  rewrite firstn_skipn. split; [reflexivity|]. apply firstn_length_le; lia.
Qed.

Lemma At_intro pre w post : At (pre ++ w ++ post) (length pre) w.
Proof. exists pre, post; auto. Qed.

Lemma At_bound msg i w : At msg i w -> (i + length w <= length msg)%nat.
Proof. intros (pre & post & -> & Hl). rewrite !app_length; lia. Qed.

Lemma slice_at msg i w : At msg i w -> slice msg i (length w) = w.
Proof.
  intros (pre & post & -> & <-). unfold slice.
  rewrite skipn_app, skipn_all, Nat.sub_diag. cbn.
  rewrite firstn_app, Nat.sub_diag, firstn_all. cbn. apply app_nil_r.
Qed.

Lemma skipn_skipn_add {A} (l : list A) : forall i n, skipn n (skipn i l) = skipn (i + n) l.
Proof. induction l as [|x l IH]; intros [|i] n; cbn; auto using skipn_nil. Qed.

Lemma At_slice msg i n : (i + n <= length msg)%nat -> At msg i (slice msg i n).
Proof.
  intros H. exists (firstn i msg), (skipn (i + n) msg). split.
  - unfold slice. rewrite <- skipn_skipn_add.
    rewrite firstn_skipn. now rewrite firstn_skipn.
  - apply firstn_length_le; lia.
Qed.

Lemma slice_length {A} (l : list A) i n : (i + n <= length l)%nat -> length (slice l i n) = n.
Proof. intros H. unfold slice. rewrite firstn_length, skipn_length. lia. Qed.

Lemma getu_at msg i w : At msg i w -> getu msg i (length w) = Some (bval w).
Proof.
  intros H. unfold getu. pose proof (At_bound _ _ _ H) as Hb.
  destruct (Nat.leb_spec (i + length w) (length msg)); [|lia].
  now rewrite (slice_at _ _ _ H).
Qed.

Lemma getu_bits msg i n v :
  At msg i (bitsof n v) -> 0 <= v < 2 ^ Z.of_nat n -> getu msg i n = Some v.
Proof.
  intros H Hv. rewrite <- (bitsof_length n v). rewrite (getu_at _ _ _ H).
  now rewrite bval_bitsof.
Qed.

Lemma getu_range msg i n v : getu msg i n = Some v -> 0 <= v < 2 ^ Z.of_nat n.
Proof.
  unfold getu. destruct (Nat.leb_spec (i + n) (length msg)) as [H|H]; [|discriminate].
  intros [= <-]. pose proof (bval_bound (slice msg i n)) as Hb.
  now rewrite slice_length in Hb.
Qed.

Lemma getu_some msg i n : (i + n <= length msg)%nat -> exists v, getu msg i n = Some v.
Proof.
  intros H. unfold getu. destruct (Nat.leb_spec (i + n) (length msg)); [|lia]. eauto.
Qed.

Lemma getu_none msg i n : getu msg i n = None <-> (length msg < i + n)%nat.
Proof.
  unfold getu. destruct (Nat.leb_spec (i + n) (length msg)); split; intros; try discriminate; try lia; auto.
Qed.

Lemma getu_At msg i n v : getu msg i n = Some v -> At msg i (bitsof n v).
Proof.
  unfold getu. destruct (Nat.leb_spec (i + n) (length msg)) as [H|H]; [|discriminate].
  intros [= <-].
  pose proof (slice_length msg i n H) as Hl.
  rewrite <- Hl at 1. rewrite bitsof_of_bval. now apply At_slice.
Qed.

(* ---------- signed fields ---------- *)
Lemma pow2_half n : (1 <= n)%nat -> 2 * 2 ^ (Z.of_nat n - 1) = 2 ^ Z.of_nat n.
Proof.
  intros H. replace (Z.of_nat n) with (Z.succ (Z.of_nat n - 1)) at 2 by lia.
  rewrite Z.pow_succ_r by lia. reflexivity.
Qed.

Lemma sgn_range n u : (1 <= n)%nat -> 0 <= u < 2 ^ Z.of_nat n ->
  - 2 ^ (Z.of_nat n - 1) <= sgn n u < 2 ^ (Z.of_nat n - 1).
Proof.
  intros Hn Hu. pose proof (pow2_half n Hn). unfold sgn.
  destruct (Z.ltb_spec u (2 ^ (Z.of_nat n - 1))); lia.
Qed.

Lemma sgn_bits n v : (1 <= n)%nat -> - 2 ^ (Z.of_nat n - 1) <= v < 2 ^ (Z.of_nat n - 1) ->
  sgn n (bval (bitsof n v)) = v.
Proof.
  intros Hn Hv. pose proof (pow2_half n Hn) as Hp. unfold sgn. rewrite bitsof_bval_mod.
  pose proof (pow2_pos n).
  destruct (Z.ltb_spec v 0).
  - replace (v mod 2 ^ Z.of_nat n) with (v + 2 ^ Z.of_nat n).
    + destruct (Z.ltb_spec (v + 2 ^ Z.of_nat n) (2 ^ (Z.of_nat n - 1))); lia.
    + symmetry. rewrite <- (Z_mod_plus_full v 1), Z.mul_1_l. apply Z.mod_small. lia.
  - rewrite Z.mod_small by lia.
    destruct (Z.ltb_spec v (2 ^ (Z.of_nat n - 1))); lia.
Qed.

Lemma gets_bits msg i n v :
  (1 <= n)%nat -> At msg i (bitsof n v) ->
  - 2 ^ (Z.of_nat n - 1) <= v < 2 ^ (Z.of_nat n - 1) -> gets msg i n = Some v.
Proof.
  intros Hn H Hv. unfold gets. rewrite <- (bitsof_length n v) at 1.
  rewrite (getu_at _ _ _ H). cbn. now rewrite sgn_bits.
Qed.

Lemma sgn_inj n a b : (1 <= n)%nat -> 0 <= a < 2 ^ Z.of_nat n -> 0 <= b < 2 ^ Z.of_nat n ->
  sgn n a = sgn n b -> a = b.
Proof.
  intros Hn Ha Hb. pose proof (pow2_half n Hn). unfold sgn.
  destruct (Z.ltb_spec a (2 ^ (Z.of_nat n - 1))), (Z.ltb_spec b (2 ^ (Z.of_nat n - 1))); lia.
Qed.

(* ---------- splice ---------- *)
Lemma splice_length {A} (l : list A) off w :
  (off + length w <= length l)%nat -> length (splice l off w) = length l.
Proof.
  intros H. unfold splice. rewrite !app_length, firstn_length, skipn_length. lia.
Qed.

Lemma splice_at l off w : (off + length w <= length l)%nat -> At (splice l off w) off w.
Proof.
  intros H. exists (firstn off l), (skipn (off + length w) l). split; [reflexivity|].
  apply firstn_length_le; lia.
Qed.

Lemma nth_splice {A} (d : A) l off w k : (off + length w <= length l)%nat ->
  nth k (splice l off w) d =
  if (off <=? k)%nat && (k <? off + length w)%nat then nth (k - off) w d else nth k l d.
Proof.
  intros H. unfold splice.
  destruct (Nat.leb_spec off k) as [H1|H1]; cbn [andb].
  - rewrite app_nth2; rewrite firstn_length_le by lia; [|lia].
    destruct (Nat.ltb_spec k (off + length w)) as [H2|H2]; cbn [andb].
    + rewrite app_nth1 by lia. reflexivity.
    + rewrite app_nth2 by lia.
      rewrite <- (firstn_skipn (off + length w) l) at 2.
      rewrite app_nth2 by (rewrite firstn_length_le; lia).
      f_equal. rewrite firstn_length_le by lia. lia.
  - rewrite app_nth1 by (rewrite firstn_length_le; lia).
    rewrite <- (firstn_skipn off l) at 2. rewrite app_nth1 by (rewrite firstn_length_le; lia).
    reflexivity.
Qed.

Lemma nth_slice {A} (d : A) l off n k : (k < n)%nat -> nth k (slice l off n) d = nth (off + k) l d.
Proof.
  intros H. unfold slice. revert off n k H.
  assert (G : forall (l : list A) n k, (k < n)%nat -> nth k (firstn n l) d = nth k l d).
  { clear l. intros l. induction l as [|x l IH]; intros [|n] [|k] H; cbn; try lia; auto. apply IH; lia. }
  intros off n k H. rewrite G by assumption.
  revert off; induction l as [|x l IH]; intros [|off]; cbn; auto. now destruct k.
Qed.

Lemma nth_list_eq {A} (d : A) (a b : list A) :
  length a = length b -> (forall k, (k < length a)%nat -> nth k a d = nth k b d) -> a = b.
Proof. intros H1 H2. now apply (nth_ext a b d d). Qed.

Lemma putu_some l off n v l' : putu l off n v = Some l' <->
  (off + n <= length l)%nat /\ 0 <= v < 2 ^ Z.of_nat n /\ l' = splice l off (bitsof n v).
Proof.
  unfold putu. split.
  - destruct (Nat.leb_spec (off + n) (length l)); cbn; [|discriminate].
    destruct (Z.leb_spec 0 v); cbn; [|discriminate].
    destruct (Z.ltb_spec v (2 ^ Z.of_nat n)); [|discriminate].
    intros [= <-]. repeat split; auto.
  - intros (H1 & [H2 H3] & ->).
    destruct (Nat.leb_spec (off + n) (length l)); cbn; [|lia].
    destruct (Z.leb_spec 0 v); cbn; [|lia].
    destruct (Z.ltb_spec v (2 ^ Z.of_nat n)); [|lia]. reflexivity.
Qed.

(* ---------- iteration ---------- *)
Lemma mfor_snoc {S} n : forall k (f : nat -> S -> option S) s,
  mfor (Datatypes.S n) k f s = (do s' <- mfor n k f s; f (k + n)%nat s').
Proof.
  induction n as [|n IH]; intros k f s.
  - cbn. rewrite Nat.add_0_r. destruct (f k s); reflexivity.
  - change (mfor (Datatypes.S (Datatypes.S n)) k f s)
      with (do s' <- f k s; mfor (Datatypes.S n) (Datatypes.S k) f s').
    change (mfor (Datatypes.S n) k f s)
      with (do s' <- f k s; mfor n (Datatypes.S k) f s').
    destruct (f k s) as [s'|]; cbn [bind]; [|reflexivity].
    rewrite IH. replace (Datatypes.S k + n)%nat with (k + Datatypes.S n)%nat by lia. reflexivity.
Qed.

(** loop invariant rule: total correctness of a monadic for loop *)
Lemma mfor_inv {S} (P : nat -> S -> Prop) n : forall k (f : nat -> S -> option S) s,
  P k s ->
  (forall j s, (k <= j < k + n)%nat -> P j s -> exists s', f j s = Some s' /\ P (Datatypes.S j) s') ->
  exists s', mfor n k f s = Some s' /\ P (k + n)%nat s'.
Proof.
  induction n as [|n IH]; intros k f s H0 Hs.
  - exists s. cbn. rewrite Nat.add_0_r. auto.
  - destruct (Hs k s) as (s1 & H1 & P1); [lia|assumption|].
    cbn. rewrite H1. cbn.
    destruct (IH (Datatypes.S k) f s1 P1) as (s2 & H2 & P2).
    { intros j t Hj. apply Hs. lia. }
    exists s2. split; [assumption|]. now replace (k + Datatypes.S n)%nat with (Datatypes.S k + n)%nat by lia.
Qed.

(** loop invariant rule: partial correctness *)
Lemma mfor_inv_partial {S} (P : nat -> S -> Prop) n : forall k (f : nat -> S -> option S) s s',
  P k s ->
  (forall j s s', (k <= j < k + n)%nat -> P j s -> f j s = Some s' -> P (Datatypes.S j) s') ->
  mfor n k f s = Some s' -> P (k + n)%nat s'.
Proof.
  induction n as [|n IH]; intros k f s s' H0 Hs H.
  - cbn in H. injection H as <-. now rewrite Nat.add_0_r.
  - cbn in H. apply bind_some in H. destruct H as (s1 & H1 & H2).
    replace (k + Datatypes.S n)%nat with (Datatypes.S k + n)%nat by lia.
    eapply IH; [|intros j t t' Hj; apply Hs; lia|exact H2].
    eapply Hs; [|exact H0|exact H1]. lia.
Qed.
