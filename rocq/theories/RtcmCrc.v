(** The CRC-24 register: linearity, division by the generator, error detection. *)
From Verif Require Import Base BaseFacts RtcmFrame RtcmFrameSpec.
From Coq Require Import ZifyBool ZifyNat.
Open Scope Z_scope.

(** one step with a zero input bit *)
Definition S0 (r : Z) : Z :=
  Z.lxor (Z.land (Z.shiftl r 1) 0xffffff) (if Z.testbit r 23 then 0x864cfb else 0).
Definition reg (r : Z) : Prop := 0 <= r < 2 ^ 24.

Lemma reg_bits r : 0 <= r -> (forall n, 24 <= n -> Z.testbit r n = false) -> reg r.
Proof.
  intros H0 H. split; [exact H0|]. apply Z.nle_gt. intros Hc.
  destruct (Z.eq_dec r 0) as [->|Hn]; [cbn in Hc; lia|].
  pose proof (Z.log2_le_pow2 r 24 ltac:(lia)) as [Hl _]. specialize (Hl Hc).
  pose proof (Z.bit_log2 r ltac:(lia)) as Hb. rewrite H in Hb by exact Hl. discriminate.
Qed.
Lemma reg_high r n : reg r -> 24 <= n -> Z.testbit r n = false.
Proof.
  intros [H0 H1] Hn. destruct (Z.eq_dec r 0) as [->|Hr]; [apply Z.bits_0|].
  apply Z.bits_above_log2; [lia|]. apply Z.log2_lt_pow2; [lia|].
  apply Z.lt_le_trans with (2 ^ 24); [lia|]. apply Z.pow_le_mono_r; lia.
Qed.
Lemma reg_lxor a b : reg a -> reg b -> reg (Z.lxor a b).
Proof.
  intros Ha Hb. apply reg_bits.
  - apply Z.lxor_nonneg. split; intros; [apply Hb|apply Ha].
  - intros n Hn. now rewrite Z.lxor_spec, !reg_high.
Qed.
Lemma reg_mask a : 0 <= a -> reg (Z.land a 0xffffff).
Proof.
  intros H. change 0xffffff with (Z.ones 24). rewrite Z.land_ones by lia. apply Z.mod_pos_bound. reflexivity.
Qed.
Lemma reg_poly b : reg (if (b : bool) then 0x864cfb else 0).
Proof. destruct b; split; cbn; lia. Qed.
Lemma S0_reg r : reg r -> reg (S0 r).
Proof.
  intros H. apply reg_lxor; [|apply reg_poly]. apply reg_mask. apply Z.shiftl_nonneg. apply H.
Qed.

Lemma S0_lxor a b : S0 (Z.lxor a b) = Z.lxor (S0 a) (S0 b).
Proof.
  unfold S0. apply Z.bits_inj'. intros n Hn.
  rewrite Z.shiftl_lxor, !Z.lxor_spec, !Z.land_spec, !Z.lxor_spec.
  generalize (Z.testbit (Z.shiftl a 1) n) (Z.testbit (Z.shiftl b 1) n) (Z.testbit 0xffffff n).
  intros x y z. destruct (Z.testbit a 23), (Z.testbit b 23); cbn [xorb];
    rewrite ?Z.bits_0; generalize (Z.testbit 0x864cfb n); intros w; destruct x, y, z, w; reflexivity.
Qed.

Lemma step_S0 r b : reg r -> crc_step r b = S0 (Z.lxor r (if b then 2 ^ 23 else 0)).
Proof.
  intros H. rewrite S0_lxor. unfold crc_step. destruct b.
  - change (S0 (2 ^ 23)) with 0x864cfb. unfold S0.
    rewrite Z.lxor_assoc. f_equal. destruct (Z.testbit r 23); reflexivity.
  - change (S0 0) with 0. rewrite Z.lxor_0_r, xorb_false_r. reflexivity.
Qed.
Lemma step_reg r b : reg r -> reg (crc_step r b).
Proof. intros H. rewrite step_S0 by exact H. apply S0_reg, reg_lxor; [exact H|]. destruct b; split; cbn; lia. Qed.

(** below 2^23 a step is a shift *)
Lemma S0_small r : 0 <= r < 2 ^ 23 -> S0 r = 2 * r.
Proof.
  intros H. unfold S0.
  assert (E : Z.testbit r 23 = false).
  { destruct (Z.eq_dec r 0) as [->|Hr]; [apply Z.bits_0|]. apply Z.bits_above_log2; [lia|].
    apply Z.log2_lt_pow2; lia. }
  rewrite E, Z.lxor_0_r. change 0xffffff with (Z.ones 24). rewrite Z.land_ones by lia.
  rewrite Z.shiftl_mul_pow2 by lia. change (2 ^ 1) with 2. rewrite Z.mod_small; [lia|].
  change (2 ^ 24) with (2 * 2 ^ 23). lia.
Qed.

Lemma S0_zero r : reg r -> S0 r = 0 -> r = 0.
Proof.
  intros H E.
  assert (B : Z.testbit (S0 r) 0 = Z.testbit r 23).
  { unfold S0. rewrite Z.lxor_spec, Z.land_spec, Z.shiftl_spec_low by lia. cbn [andb xorb].
    destruct (Z.testbit r 23); reflexivity. }
  rewrite E, Z.bits_0 in B.
  assert (L : r < 2 ^ 23).
  { apply Z.nle_gt. intros Hc. destruct H as [H0 H1].
    assert (Hl : Z.log2 r = 23) by (apply Z.log2_unique; [lia|]; change (2 ^ Z.succ 23) with (2 ^ 24); lia).
    pose proof (Z.bit_log2 r) as Hb. rewrite Hl in Hb. rewrite Hb in B; [discriminate|lia]. }
  rewrite S0_small in E by (destruct H; lia). lia.
Qed.
Lemma lxor_eq_0 a b : Z.lxor a b = 0 -> a = b.
Proof. apply Z.lxor_eq. Qed.
Lemma S0_inj a b : reg a -> reg b -> S0 a = S0 b -> a = b.
Proof.
  intros Ha Hb H. apply lxor_eq_0. apply S0_zero; [now apply reg_lxor|].
  rewrite S0_lxor, H. apply Z.lxor_nilpotent.
Qed.

Definition feed (r : Z) (l : bits) : Z := fold_left crc_step l r.
Lemma feed_app r a b : feed r (a ++ b) = feed (feed r a) b.
Proof. apply fold_left_app. Qed.
Lemma feed_reg l : forall r, reg r -> reg (feed r l).
Proof. induction l as [|b l IH]; intros r H; [exact H|]. apply IH. now apply step_reg. Qed.
Lemma reg0 : reg 0.
Proof. split; cbn; lia. Qed.
Lemma crc_reg l : reg (crc24 l).
Proof. apply feed_reg, reg0. Qed.

Fixpoint pow (n : nat) (r : Z) : Z := match n with O => r | S m => pow m (S0 r) end.
Lemma pow_reg n : forall r, reg r -> reg (pow n r).
Proof. induction n; intros r H; [exact H|]. apply IHn. now apply S0_reg. Qed.
Lemma pow_lxor n : forall a b, pow n (Z.lxor a b) = Z.lxor (pow n a) (pow n b).
Proof. induction n; intros; [reflexivity|]. cbn. now rewrite S0_lxor, IHn. Qed.
Lemma pow_0 n : pow n 0 = 0.
Proof. induction n; [reflexivity|]. cbn. exact IHn. Qed.
Lemma pow_inj n : forall a b, reg a -> reg b -> pow n a = pow n b -> a = b.
Proof. induction n; intros a b Ha Hb H; [exact H|]. apply S0_inj; auto. apply IHn; auto using S0_reg. Qed.

(** feeding up to 24 bits = adding them at the top of the register, then stepping *)
Lemma feed_pow : forall l r, reg r -> (length l <= 24)%nat ->
  feed r l = pow (length l) (Z.lxor r (bval l * 2 ^ (24 - Z.of_nat (length l)))).
Proof.
  induction l as [|b l IH]; intros r Hr Hl.
  - cbn. now rewrite Z.lxor_0_r.
  - cbn [length] in *. cbn [feed fold_left]. change (fold_left crc_step l (crc_step r b)) with (feed (crc_step r b) l).
    rewrite IH by (auto using step_reg; lia). cbn [pow]. f_equal.
    rewrite step_S0 by exact Hr.
    set (n := Z.of_nat (length l)) in *.
    assert (Hn : 0 <= n <= 23) by lia.
    pose proof (bval_bound l) as Hb.
    assert (Hp : 2 ^ n * 2 ^ (23 - n) = 2 ^ 23) by (rewrite <- Z.pow_add_r by lia; f_equal; lia).
    assert (Hsm : 0 <= bval l * 2 ^ (23 - n) < 2 ^ 23).
    { fold n in Hb. pose proof (Z.pow_pos_nonneg 2 (23 - n)). nia. }
    replace (bval l * 2 ^ (24 - n)) with (S0 (bval l * 2 ^ (23 - n))).
    2:{ rewrite S0_small by exact Hsm. replace (24 - n) with (1 + (23 - n)) by lia.
        rewrite Z.pow_add_r by lia. lia. }
    rewrite <- S0_lxor. f_equal. rewrite Z.lxor_assoc. f_equal.
    cbn [bval]. fold n. replace (24 - Z.of_nat (S (length l))) with (23 - n) by lia.
    rewrite Z.mul_add_distr_r, <- Z.mul_assoc, Hp.
    destruct b; cbn [Z.b2z].
    + rewrite Z.mul_1_l. rewrite Z.add_nocarry_lxor; [reflexivity|].
      apply Z.bits_inj'. intros m Hm. rewrite Z.land_spec, Z.bits_0, Z.pow2_bits_eqb by lia.
      destruct (Z.eqb_spec 23 m) as [<-|Hne]; [|reflexivity]. cbn [andb].
      destruct (Z.eq_dec (bval l * 2 ^ (23 - n)) 0) as [->|Hz]; [apply Z.bits_0|].
      apply Z.bits_above_log2; [lia|]. apply Z.log2_lt_pow2; lia.
    + rewrite Z.mul_0_l, Z.lxor_0_l. reflexivity.
Qed.

(** a frame followed by its checksum leaves zero, and only its checksum does *)
Lemma feed_self l c : length c = 24%nat -> (feed (crc24 l) c = 0 <-> bval c = crc24 l).
Proof.
  intros Hc. rewrite feed_pow by (auto using crc_reg; lia). rewrite Hc.
  change (2 ^ (24 - Z.of_nat 24)) with 1. rewrite Z.mul_1_r.
  assert (Rb : reg (bval c)).
  { pose proof (bval_bound c) as H. rewrite Hc in H. exact H. }
  split.
  - intros H. symmetry. apply lxor_eq_0.
    apply (pow_inj 24); auto using reg_lxor, crc_reg, reg0.
  - intros ->. rewrite Z.lxor_nilpotent. apply pow_0.
Qed.
Lemma crc_app_self l c : length c = 24%nat -> (crc24 (l ++ c) = 0 <-> bval c = crc24 l).
Proof. intros H. unfold crc24 at 1. rewrite fold_left_app. now apply feed_self. Qed.

(* ---------- division by the generator ---------- *)
Lemma step_rem r b : reg r ->
  Z.lxor (2 * r) (if (b : bool) then 2 ^ 24 else 0) =
  Z.lxor (if xorb (Z.testbit r 23) b then gen24q else 0) (crc_step r b).
Proof.
  intros H. unfold crc_step.
  assert (E : 2 * r = Z.lxor (if Z.testbit r 23 then 2 ^ 24 else 0) (Z.land (Z.shiftl r 1) 0xffffff)).
  { apply Z.bits_inj'. intros n Hn. rewrite Z.lxor_spec, Z.land_spec.
    rewrite Z.shiftl_mul_pow2 by lia. change (2 ^ 1) with 2. rewrite (Z.mul_comm r 2).
    change 0xffffff with (Z.ones 24). rewrite Z.testbit_ones by lia.
    destruct (Z.leb_spec 0 n); [|lia]. cbn [andb].
    destruct (Z.ltb_spec n 24) as [Hlt|Hge].
    - rewrite andb_true_r. destruct (Z.testbit r 23); rewrite ?Z.bits_0, ?xorb_false_l; [|reflexivity].
      rewrite Z.pow2_bits_false by lia. now rewrite xorb_false_l.
    - rewrite andb_false_r, xorb_false_r. replace n with (Z.succ (n - 1)) by lia.
      rewrite Z.double_bits_succ. destruct (Z.eq_dec n 24) as [->|Hne].
      + change (24 - 1) with 23. change (Z.succ 23) with 24. destruct (Z.testbit r 23); reflexivity.
      + rewrite reg_high by (auto; lia). destruct (Z.testbit r 23); [|now rewrite Z.bits_0].
        now rewrite Z.pow2_bits_false by lia. }
  rewrite E. set (x := Z.land (Z.shiftl r 1) 0xffffff).
  change gen24q with (Z.lxor (2 ^ 24) 0x864cfb).
  apply Z.bits_inj'. intros n Hn.
  destruct (Z.testbit r 23), b; cbn [xorb]; rewrite !Z.lxor_spec, ?Z.bits_0;
    destruct (Z.testbit x n), (Z.testbit (2 ^ 24) n), (Z.testbit 0x864cfb n); reflexivity.
Qed.

Lemma gmul_snoc q b g : gmul (q ++ [b]) g = Z.lxor (2 * gmul q g) (if b then g else 0).
Proof.
  induction q as [|a q IH].
  - cbn. destruct b; rewrite ?Z.lxor_0_r; cbn; rewrite ?Z.mul_1_r; reflexivity.
  - cbn [app gmul]. rewrite IH, app_length, Nat.add_comm. cbn [length Nat.add].
    rewrite pow2_S.
    assert (E : forall x y, 2 * Z.lxor x y = Z.lxor (2 * x) (2 * y)).
    { intros x y. rewrite !(Z.mul_comm 2). change 2 with (2 ^ 1). rewrite <- !Z.shiftl_mul_pow2 by lia.
      apply Z.shiftl_lxor. }
    rewrite E, <- Z.lxor_assoc. f_equal. f_equal. destruct a; ring.
Qed.

Lemma bval_snoc l b : bval (l ++ [b]) = 2 * bval l + Z.b2z b.
Proof. rewrite bval_app. cbn [bval length]. change (2 ^ Z.of_nat 1) with 2. change (2 ^ Z.of_nat 0) with 1. lia. Qed.

(** remainder of the division of (message) x^24 by the generator *)
Lemma crc_divides : forall l, exists q, length q = length l /\
  bval l * 2 ^ 24 = Z.lxor (gmul q gen24q) (crc24 l).
Proof.
  induction l as [|b l IH] using rev_ind.
  - exists []. split; reflexivity.
  - destruct IH as (q & Hq & E).
    exists (q ++ [xorb (Z.testbit (crc24 l) 23) b]). split; [now rewrite !app_length, Hq|].
    rewrite bval_snoc. replace ((2 * bval l + Z.b2z b) * 2 ^ 24) with (2 * (bval l * 2 ^ 24) + Z.b2z b * 2 ^ 24) by lia.
    rewrite E, gmul_snoc. unfold crc24 at 3. rewrite fold_left_app. cbn [fold_left].
    change (fold_left crc_step l 0) with (crc24 l).
    rewrite Z.lxor_assoc, <- step_rem by apply crc_reg.
    assert (E2 : forall x y, 2 * Z.lxor x y = Z.lxor (2 * x) (2 * y)).
    { intros x y. rewrite !(Z.mul_comm 2). change 2 with (2 ^ 1). rewrite <- !Z.shiftl_mul_pow2 by lia.
      apply Z.shiftl_lxor. }
    rewrite <- Z.lxor_assoc, <- E2. rewrite <- E.
    destruct b; cbn [Z.b2z]; [|now rewrite Z.mul_0_l, Z.add_0_r, Z.lxor_0_r].
    rewrite Z.mul_1_l. rewrite Z.add_nocarry_lxor; [reflexivity|].
    apply Z.bits_inj'. intros n Hn. rewrite Z.land_spec, Z.bits_0, Z.pow2_bits_eqb by lia.
    destruct (Z.eqb_spec 24 n) as [<-|Hne]; [|apply andb_false_r].
    replace (2 * (bval l * 2 ^ 24)) with (bval l * 2 ^ 25) by (change (2 ^ 25) with (2 * 2 ^ 24); lia).
    rewrite Z.mul_pow2_bits_low by lia. reflexivity.
Qed.

(** a non-zero multiple of the generator has a bit above 23 *)
Lemma gmul_bound q : 0 <= gmul q gen24q < 2 ^ (24 + Z.of_nat (length q)).
Proof.
  induction q as [|b q IH]; [cbn; lia|]. cbn [gmul length].
  set (n := Z.of_nat (length q)) in *.
  replace (24 + Z.of_nat (S (length q))) with (25 + n) by lia.
  assert (A : forall x, 0 <= x -> (forall m, 25 + n <= m -> Z.testbit x m = false) -> 0 <= x < 2 ^ (25 + n)).
  { intros x H0 H. split; [exact H0|]. apply Z.nle_gt. intros Hc.
    pose proof (Z.pow_pos_nonneg 2 (25 + n) ltac:(lia) ltac:(lia)).
    pose proof (Z.log2_le_pow2 x (25 + n) ltac:(lia)) as [Hl _]. specialize (Hl Hc).
    pose proof (Z.bit_log2 x ltac:(lia)) as Hb. rewrite H in Hb by exact Hl. discriminate. }
  apply A.
  - apply Z.lxor_nonneg. split; intros _; [apply IH|]. destruct b; [|lia].
    apply Z.mul_nonneg_nonneg; [vm_compute; discriminate|]. apply Z.pow_nonneg; lia.
  - intros m Hm. rewrite Z.lxor_spec.
    assert (H1 : Z.testbit (gmul q gen24q) m = false).
    { destruct (Z.eq_dec (gmul q gen24q) 0) as [->|Hz]; [apply Z.bits_0|].
      apply Z.bits_above_log2; [lia|]. apply Z.log2_lt_pow2; [lia|].
      apply Z.lt_le_trans with (2 ^ (24 + n)); [lia|]. apply Z.pow_le_mono_r; lia. }
    rewrite H1. destruct b; [|now rewrite Z.bits_0].
    rewrite Z.mul_pow2_bits by lia. rewrite xorb_false_r.
    apply Z.bits_above_log2; [vm_compute; discriminate|]. change (Z.log2 gen24q) with 24. lia.
Qed.
Lemma gmul_small q : gmul q gen24q < 2 ^ 24 -> gmul q gen24q = 0.
Proof.
  induction q as [|b q IH]; intros H; [reflexivity|]. cbn [gmul] in *. destruct b.
  - exfalso. set (n := Z.of_nat (length q)) in *.
    pose proof (gmul_bound q) as B. fold n in B.
    set (y := Z.lxor (gen24q * 2 ^ n) (gmul q gen24q)) in *.
    assert (T : Z.testbit y (24 + n) = true).
    { unfold y. rewrite Z.lxor_spec, Z.mul_pow2_bits by lia. replace (24 + n - n) with 24 by lia.
      change (Z.testbit gen24q 24) with true.
      replace (Z.testbit (gmul q gen24q) (24 + n)) with false; [reflexivity|].
      symmetry. destruct (Z.eq_dec (gmul q gen24q) 0) as [->|Hz]; [apply Z.bits_0|].
      apply Z.bits_above_log2; [lia|]. apply Z.log2_lt_pow2; lia. }
    assert (Y : 0 <= y).
    { unfold y. apply Z.lxor_nonneg. split; intros _; [lia|].
      apply Z.mul_nonneg_nonneg; [vm_compute; discriminate|]. apply Z.pow_nonneg; lia. }
    destruct (Z.eq_dec y 0) as [E|E]; [rewrite E, Z.bits_0 in T; discriminate|].
    rewrite Z.bits_above_log2 in T; [discriminate|exact Y|].
    assert (Z.log2 y < 24) by (apply Z.log2_lt_pow2; lia). lia.
  - rewrite Z.lxor_0_l in *. now apply IH.
Qed.
Lemma gmul_lxor : forall p q g, length p = length q -> Z.lxor (gmul p g) (gmul q g) = gmul (diff p q) g.
Proof.
  induction p as [|a p IH]; intros [|b q] g H; try discriminate H; [reflexivity|].
  injection H as H. cbn [gmul diff]. rewrite <- IH by exact H.
  assert (Hd : length (diff p q) = length p).
  { clear - H. revert q H. induction p as [|x p IHp]; intros [|y q] H; try discriminate H; [reflexivity|].
    cbn. f_equal. apply IHp. now injection H. }
  rewrite Hd, <- H. set (z := g * 2 ^ Z.of_nat (length p)).
  apply Z.bits_inj'. intros n Hn.
  destruct a, b; cbn [xorb]; rewrite !Z.lxor_spec, ?Z.bits_0;
    destruct (Z.testbit z n), (Z.testbit (gmul p g) n), (Z.testbit (gmul q g) n); reflexivity.
Qed.
Lemma gmul_pad n q g : gmul (repeat false n ++ q) g = gmul q g.
Proof. induction n; [reflexivity|]. cbn. exact IHn. Qed.

(** zero checksum = divisible by the generator *)
Lemma crc_zero_iff l : (24 <= length l)%nat ->
  (crc24 l = 0 <-> exists q, bval l = gmul q gen24q).
Proof.
  intros Hl.
  rewrite <- (firstn_skipn (length l - 24) l).
  set (a := firstn (length l - 24) l). set (c := skipn (length l - 24) l).
  assert (Hc : length c = 24%nat) by (unfold c; rewrite skipn_length; lia).
  rewrite crc_app_self by exact Hc.
  destruct (crc_divides a) as (q & Hq & E).
  assert (EB : bval (a ++ c) = Z.lxor (bval a * 2 ^ 24) (bval c)).
  { rewrite bval_app, Hc. change (Z.of_nat 24) with 24. rewrite Z.add_nocarry_lxor; [reflexivity|].
    apply Z.bits_inj'. intros n Hn. rewrite Z.land_spec, Z.bits_0.
    destruct (Z.ltb_spec n 24).
    - now rewrite Z.mul_pow2_bits_low.
    - rewrite (reg_high (bval c)); [apply andb_false_r| |exact H].
      pose proof (bval_bound c) as B. rewrite Hc in B. exact B. }
  rewrite EB, E. split.
  - intros ->. exists q. rewrite Z.lxor_assoc, Z.lxor_nilpotent. apply Z.lxor_0_r.
  - intros (p & Hp).
    set (n := Nat.max (length p) (length q)).
    set (p' := repeat false (n - length p) ++ p). set (q' := repeat false (n - length q) ++ q).
    assert (L : length p' = length q').
    { unfold p', q'. rewrite !app_length, !repeat_length. lia. }
    assert (D : Z.lxor (crc24 a) (bval c) = gmul (diff p' q') gen24q).
    { rewrite <- gmul_lxor by exact L. unfold p', q'. rewrite !gmul_pad, <- Hp.
      apply Z.bits_inj'. intros m Hm. rewrite !Z.lxor_spec.
      destruct (Z.testbit (gmul q gen24q) m), (Z.testbit (crc24 a) m), (Z.testbit (bval c) m); reflexivity. }
    assert (R : reg (Z.lxor (crc24 a) (bval c))).
    { apply reg_lxor; [apply crc_reg|]. pose proof (bval_bound c) as B. rewrite Hc in B. exact B. }
    rewrite D in R. rewrite gmul_small in D by apply R. symmetry. now apply lxor_eq_0.
Qed.

(* ---------- error detection ---------- *)
Lemma feed_lxor : forall a b r s, reg r -> reg s -> length a = length b ->
  Z.lxor (feed r a) (feed s b) = feed (Z.lxor r s) (diff a b).
Proof.
  induction a as [|x a IH]; intros [|y b] r s Hr Hs H; try discriminate H; [reflexivity|].
  injection H as H. cbn [feed fold_left diff].
  change (Z.lxor (feed (crc_step r x) a) (feed (crc_step s y) b) = feed (crc_step (Z.lxor r s) (xorb x y)) (diff a b)).
  rewrite IH by auto using step_reg. f_equal.
  rewrite !step_S0 by auto using reg_lxor. rewrite <- S0_lxor. f_equal.
  apply Z.bits_inj'. intros n Hn.
  destruct x, y; cbn [xorb]; rewrite !Z.lxor_spec, ?Z.bits_0;
    destruct (Z.testbit r n), (Z.testbit s n), (Z.testbit (2 ^ 23) n); reflexivity.
Qed.
Lemma feed_inj l : forall r s, reg r -> reg s -> feed r l = feed s l -> r = s.
Proof.
  intros r s Hr Hs H. apply lxor_eq_0.
  assert (E : feed (Z.lxor r s) (diff l l) = 0).
  { rewrite <- feed_lxor by auto. rewrite H. apply Z.lxor_nilpotent. }
  revert E. assert (Rx : reg (Z.lxor r s)) by now apply reg_lxor. revert Rx.
  generalize (Z.lxor r s). clear. induction l as [|b l IH]; intros z Hz E; [exact E|].
  cbn [diff] in E. rewrite xorb_nilpotent in E. cbn in E.
  apply IH in E; [|now apply step_reg].
  rewrite step_S0, Z.lxor_0_r in E by exact Hz. now apply S0_zero.
Qed.
Lemma feed_zeros n r : reg r -> feed r (repeat false n) = pow n r.
Proof.
  revert r. induction n as [|n IH]; intros r H; [reflexivity|]. cbn [repeat pow feed fold_left].
  change (fold_left crc_step (repeat false n) (crc_step r false)) with (feed (crc_step r false) (repeat false n)).
  rewrite IH by now apply step_reg. f_equal. rewrite step_S0 by exact H. now rewrite Z.lxor_0_r.
Qed.

Lemma repeat_of_false l : (forall j, nth j l false = false) -> l = repeat false (length l).
Proof.
  induction l as [|b l IH]; intros H; [reflexivity|]. cbn. rewrite (H 0%nat : b = false). f_equal.
  apply IH. intros j. apply (H (S j)).
Qed.
Lemma nth_false_over (l : bits) j : (length l <= j)%nat -> nth j l false = false.
Proof. apply nth_overflow. Qed.
Lemma bval_zero l : bval l = 0 -> forall j, nth j l false = false.
Proof.
  intros H. assert (E : l = repeat false (length l)).
  { apply bval_inj; [now rewrite repeat_length|]. rewrite H. clear.
    induction (length l) as [|n IH]; [reflexivity|]. cbn. rewrite <- IH. lia. }
  intros j. rewrite E. clear. revert j. induction (length l) as [|n IH]; intros [|j]; cbn; auto.
Qed.
Lemma weight_pos e : (0 < weight e)%nat -> exists j, nth j e false = true.
Proof.
  induction e as [|b e IH]; cbn; intros H; [lia|]. destruct b; [now exists 0%nat|].
  destruct (IH H) as [j Hj]. now exists (S j).
Qed.

Lemma burst_crc e : burst24 e -> crc24 e <> 0.
Proof.
  intros (Hw & p & Hp) E. apply weight_pos in Hw as [j0 Hj0].
  set (a := firstn p e). set (w := firstn 24 (skipn p e)). set (z := skipn 24 (skipn p e)).
  assert (Ee : e = a ++ w ++ z) by (unfold a, w, z; now rewrite !firstn_skipn).
  assert (Hj : (p <= j0 < p + 24)%nat) by now apply Hp.
  assert (Hlen : (j0 < length e)%nat).
  { destruct (Nat.lt_ge_cases j0 (length e)); [auto|]. rewrite nth_false_over in Hj0 by lia. discriminate. }
  assert (Hla : length a = p) by (unfold a; rewrite firstn_length; lia).
  assert (Ha : a = repeat false (length a)).
  { apply repeat_of_false. intros j. destruct (Nat.lt_ge_cases j (length a)) as [Hlt|]; [|now apply nth_false_over].
    destruct (nth j a false) eqn:Ej; [|reflexivity]. exfalso.
    assert (X : nth j e false = true) by (rewrite Ee, app_nth1 by exact Hlt; exact Ej).
    apply Hp in X. lia. }
  assert (Hz : z = repeat false (length z)).
  { apply repeat_of_false. intros j. destruct (nth j z false) eqn:Ej; [|reflexivity]. exfalso.
    destruct (Nat.lt_ge_cases j (length z)) as [Hlt|]; [|rewrite nth_false_over in Ej by lia; discriminate].
    assert (Hlw : length w = 24%nat).
    { unfold w, z in *. rewrite skipn_length in Hlt. rewrite firstn_length. lia. }
    assert (X : nth (p + 24 + j) e false = true).
    { rewrite Ee, app_nth2 by lia. rewrite app_nth2 by lia. rewrite <- Ej. f_equal. lia. }
    apply Hp in X. lia. }
  assert (Hlw : (length w <= 24)%nat) by (unfold w; rewrite firstn_length; lia).
  unfold crc24 in E. fold (feed 0 e) in E. rewrite Ee, feed_app, feed_app in E.
  rewrite Ha, feed_zeros, pow_0 in E by apply reg0.
  rewrite Hz, feed_zeros in E by (apply feed_reg, reg0).
  rewrite feed_pow in E by (auto using reg0). rewrite Z.lxor_0_l in E.
  assert (Rw : reg (bval w * 2 ^ (24 - Z.of_nat (length w)))).
  { pose proof (bval_bound w) as B. pose proof (Z.pow_pos_nonneg 2 (24 - Z.of_nat (length w))).
    assert (2 ^ Z.of_nat (length w) * 2 ^ (24 - Z.of_nat (length w)) = 2 ^ 24)
      by (rewrite <- Z.pow_add_r by lia; f_equal; lia).
    split; nia. }
  rewrite <- (pow_0 (length z)) in E. apply pow_inj in E; auto using pow_reg, reg0.
  rewrite <- (pow_0 (length w)) in E. apply pow_inj in E; auto using reg0.
  assert (Ew : bval w = 0).
  { pose proof (Z.pow_pos_nonneg 2 (24 - Z.of_nat (length w))). nia. }
  pose proof (bval_zero w Ew (j0 - p)) as X.
  assert (Y : nth j0 e false = nth (j0 - p) w false).
  { rewrite Ee, app_nth2 by lia. rewrite Hla. rewrite app_nth1; [reflexivity|].
    unfold w. rewrite firstn_length, skipn_length. lia. }
  congruence.
Qed.

(** parity of the register *)
Fixpoint par (n : nat) (r : Z) : bool :=
  match n with O => false | S m => xorb (Z.testbit r (Z.of_nat m)) (par m r) end.
Lemma par_lxor n a b : par n (Z.lxor a b) = xorb (par n a) (par n b).
Proof.
  induction n; [reflexivity|]. cbn [par]. rewrite Z.lxor_spec, IHn.
  destruct (Z.testbit a (Z.of_nat n)), (Z.testbit b (Z.of_nat n)), (par n a), (par n b); reflexivity.
Qed.
Lemma par_shift r : par 24 (Z.land (Z.shiftl r 1) 0xffffff) = par 23 r.
Proof.
  assert (E : forall n, (n < 24)%nat -> par (S n) (Z.land (Z.shiftl r 1) 0xffffff) = par n r).
  { induction n as [|n IH]; intros Hn.
    - cbn [par]. rewrite Z.land_spec, Z.shiftl_spec_low by lia. reflexivity.
    - change (par (S (S n)) (Z.land (Z.shiftl r 1) 16777215)) with
        (xorb (Z.testbit (Z.land (Z.shiftl r 1) 16777215) (Z.of_nat (S n))) (par (S n) (Z.land (Z.shiftl r 1) 16777215))).
      rewrite IH by lia. cbn [par]. f_equal. rewrite Z.land_spec, Z.shiftl_spec by lia.
      change 16777215 with (Z.ones 24). rewrite Z.testbit_ones by lia.
      replace ((0 <=? Z.of_nat (S n)) && (Z.of_nat (S n) <? 24)) with true by lia.
      rewrite andb_true_r. f_equal. lia. }
  apply E. lia.
Qed.
Lemma par_S n r : par (S n) r = xorb (Z.testbit r (Z.of_nat n)) (par n r).
Proof. reflexivity. Qed.
Lemma par_step r b : par 24 (crc_step r b) = xorb (par 24 r) b.
Proof.
  unfold crc_step. rewrite par_lxor, par_shift, (par_S 23 r). change (Z.of_nat 23) with 23.
  generalize (par 23 r) (Z.testbit r 23). intros p t.
  assert (H1 : par 24 0x864cfb = true) by (vm_compute; reflexivity).
  assert (H0 : par 24 0 = false) by (vm_compute; reflexivity).
  destruct t, b; cbn [xorb]; rewrite ?H1, ?H0; destruct p; reflexivity.
Qed.
Lemma par_feed : forall e r, par 24 (feed r e) = xorb (par 24 r) (Nat.odd (weight e)).
Proof.
  induction e as [|b e IH]; intros r; [now rewrite xorb_false_r|].
  cbn [feed fold_left]. change (fold_left crc_step e (crc_step r b)) with (feed (crc_step r b) e).
  rewrite IH, par_step. unfold weight. cbn [filter]. destruct b; cbn [length].
  - rewrite Nat.odd_succ, <- Nat.negb_odd. destruct (par 24 r), (Nat.odd (length (filter (fun b => b) e))); reflexivity.
  - now rewrite xorb_false_r.
Qed.
Lemma odd_crc e : Nat.odd (weight e) = true -> crc24 e <> 0.
Proof.
  intros H E. pose proof (par_feed e 0) as P. fold (crc24 e) in P.
  change (feed 0 e) with (crc24 e) in P. rewrite E, H in P. discriminate P.
Qed.

(** the powers of x up to the longest frame are not 1 *)
Fixpoint noloop (n : nat) (r : Z) : bool :=
  match n with O => true | S m => negb (S0 r =? 2 ^ 23) && noloop m (S0 r) end.
Lemma noloop_ok n : forall r, noloop n r = true -> forall m, (m < n)%nat -> pow (S m) r <> 2 ^ 23.
Proof.
  induction n as [|n IH]; intros r H m Hm; [lia|]. cbn [noloop] in H.
  apply andb_prop in H as [H1 H2]. destruct m as [|m].
  - cbn. lia.
  - cbn [pow]. apply (IH _ H2 m). lia.
Qed.
(** 8 * (1023 + 6) = 8232 bits *)
Lemma noloop_frame : noloop (Z.to_nat 8232) (2 ^ 23) = true.
Proof. vm_compute. reflexivity. Qed.

Lemma weight0 e : weight e = 0%nat -> e = repeat false (length e).
Proof.
  induction e as [|b e IH]; intros H; [reflexivity|]. destruct b; cbn in H; [discriminate|].
  cbn. f_equal. now apply IH.
Qed.
Lemma weight_split n e : weight e = S n -> exists a r, e = repeat false a ++ true :: r /\ weight r = n.
Proof.
  induction e as [|b e IH]; intros H; [discriminate|]. destruct b.
  - exists 0%nat, e. split; [reflexivity|]. cbn in H. now injection H.
  - destruct (IH H) as (a & r & -> & Hr). now exists (S a), r.
Qed.
Lemma two_crc e : (length e <= Z.to_nat 8232)%nat -> weight e = 2%nat -> crc24 e <> 0.
Proof.
  intros Hl H E.
  apply weight_split in H as (a & r & -> & H). apply weight_split in H as (m & z & -> & H).
  apply weight0 in H. rewrite !app_length, !repeat_length in Hl. cbn [length] in Hl.
  rewrite !app_length, !repeat_length in Hl. cbn [length] in Hl.
  unfold crc24 in E. rewrite fold_left_app in E. fold (feed 0 (repeat false a)) in E.
  rewrite feed_zeros, pow_0 in E by apply reg0.
  cbn [fold_left] in E. rewrite fold_left_app in E.
  change (fold_left crc_step (repeat false m) (crc_step 0 true)) with (feed (crc_step 0 true) (repeat false m)) in E.
  assert (R1 : reg (crc_step 0 true)) by (apply step_reg, reg0).
  rewrite feed_zeros in E by exact R1. cbn [fold_left] in E. rewrite H in E.
  change (fold_left crc_step ?l ?s) with (feed s l) in E.
  assert (R2 : reg (pow m (crc_step 0 true))) by now apply pow_reg.
  rewrite feed_zeros in E by now apply step_reg.
  assert (E0 : crc_step (pow m (crc_step 0 true)) true = 0).
  { apply (pow_inj (length z)); auto using step_reg, reg0. rewrite E. now rewrite pow_0. }
  clear E. rename E0 into E. rewrite step_S0 in E by exact R2. apply S0_zero in E; [|apply reg_lxor; [exact R2|split; cbn; lia]].
  apply lxor_eq_0 in E.
  apply (noloop_ok _ _ noloop_frame m); [lia|]. exact E.
Qed.

Lemma must_detect_crc e : (length e <= Z.to_nat 8232)%nat -> must_detect e -> crc24 e <> 0.
Proof. intros Hl [H|[H|H]]; [now apply burst_crc|now apply odd_crc|now apply two_crc]. Qed.
Lemma detect a b : length a = length b -> (length a <= Z.to_nat 8232)%nat -> must_detect (diff a b) ->
  crc24 a = 0 -> crc24 b <> 0.
Proof.
  intros Hl Hn Hd Ea Eb.
  pose proof (feed_lxor a b 0 0 reg0 reg0 Hl) as F. cbn [Z.lxor] in F.
  change (feed 0 a) with (crc24 a) in F. change (feed 0 b) with (crc24 b) in F.
  rewrite Ea, Eb in F. symmetry in F. revert F. apply must_detect_crc; [|exact Hd].
  assert (Hdl : length (diff a b) = length a).
  { clear - Hl. revert b Hl. induction a as [|x a IH]; intros [|y b] H; try discriminate H; [reflexivity|].
    cbn. f_equal. apply IH. now injection H. }
  now rewrite Hdl.
Qed.
