From Verif Require Import QualModel.
From Coq Require Import Reals ZArith Lra Lia.
Open Scope R_scope.

Definition qi (c v : Z) : Prop := (0 <= c <= 7 /\ 0 <= v <= 7)%Z.

Lemma Int_part_unique x z : IZR z <= x -> x < IZR z + 1 -> Int_part x = z.
Proof.
  intros H1 H2. unfold Int_part.
  assert (up x = (z + 1)%Z); [|lia].
  symmetry. apply tech_up; rewrite plus_IZR; lra.
Qed.

Lemma rtrunc_unique x z : (0 <= z)%Z -> IZR z <= x -> x < IZR z + 1 -> rtrunc x = z.
Proof.
  intros Hz H1 H2. apply IZR_le in Hz. unfold rtrunc.
  destruct (Rle_dec 0 x); [|lra]. now apply Int_part_unique.
Qed.

Lemma IZR_case v : (0 <= v <= 7)%Z -> 0 <= IZR v <= 7.
Proof. intros [H1 H2]. apply IZR_le in H1, H2. lra. Qed.

Lemma ln3_pos : 0 < ln 3.
Proof. rewrite <- ln_1. apply ln_increasing; lra. Qed.

Lemma powerRZ3_pos c : 0 < powerRZ 3 c.
Proof. apply powerRZ_lt; lra. Qed.

Lemma ln_pow3 c : ln (powerRZ 3 c) = IZR c * ln 3.
Proof.
  destruct c as [|p|p]; cbn [powerRZ].
  - rewrite ln_1. lra.
  - rewrite <- Rpower_pow by lra. unfold Rpower. rewrite ln_exp.
    rewrite INR_IZR_INZ, positive_nat_Z. reflexivity.
  - rewrite ln_Rinv by (apply pow_lt; lra).
    rewrite <- Rpower_pow by lra. unfold Rpower. rewrite ln_exp.
    rewrite INR_IZR_INZ, positive_nat_Z.
    change (Z.neg p) with (- Z.pos p)%Z. rewrite opp_IZR. lra.
Qed.

Lemma quality2qi_exact c v : qi c v ->
  quality2qi ((powerRZ 3 c * (1 + IZR v * (1/4)) - 1) * (1/1000)) = (c, v).
Proof.
  intros [Hc Hv]. unfold quality2qi.
  pose proof (IZR_case v Hv) as Rv. pose proof ln3_pos as L3. pose proof (powerRZ3_pos c) as P.
  replace ((powerRZ 3 c * (1 + IZR v * (1/4)) - 1) * (1/1000) * 1000 + 1)
    with (powerRZ 3 c * (1 + IZR v * (1/4))) by lra.
  rewrite ln_mult by lra. rewrite ln_pow3.
  set (w := 1 + IZR v * (1/4)) in *.
  assert (Hw : 1 <= w < 3) by (unfold w; lra).
  assert (L : 0 <= ln w < ln 3).
  { split.
    - rewrite <- ln_1. destruct (Req_dec w 1) as [->|]; [lra|]. left. apply ln_increasing; lra.
    - apply ln_increasing; lra. }
  assert (E : (IZR c * ln 3 + ln w) / ln 3 = IZR c + ln w / ln 3) by (field; lra).
  rewrite E.
  assert (F : 0 <= ln w / ln 3 < 1).
  { split.
    - apply Rmult_le_pos; [lra|]. left. now apply Rinv_0_lt_compat.
    - apply Rmult_lt_reg_r with (ln 3); [lra|]. unfold Rdiv. rewrite Rmult_assoc, Rinv_l by lra. lra. }
  assert (C : rtrunc (IZR c + ln w / ln 3) = c) by (apply rtrunc_unique; [lia|lra|lra]).
  rewrite C. f_equal.
  replace ((IZR c + ln w / ln 3 - IZR c) * ln 3) with (ln w) by (field; lra).
  rewrite exp_ln by lra. unfold w.
  replace ((1 + IZR v * (1/4) - 1) / (1/4)) with (IZR v) by field.
  apply rtrunc_unique; [lia|lra|lra].
Qed.

Lemma quality_roundtrip c v : qi c v -> ~ (c = 7 /\ v = 7)%Z ->
  encode_quality (quality_idx c v) = (c, v).
Proof.
  intros Hq Hne. unfold quality_idx.
  destruct (Z.eqb_spec c 7), (Z.eqb_spec v 7); cbn [andb];
    [exfalso; apply Hne; split; assumption| | | ];
    (destruct (Z.eqb_spec c 0), (Z.eqb_spec v 0); cbn [andb encode_quality];
     [subst; try lia; reflexivity | now apply quality2qi_exact ..]).
Qed.

Lemma pow3_7 : powerRZ 3 7 = 2187.
Proof. change (powerRZ 3 7) with (3 ^ 7)%R. simpl. lra. Qed.

Lemma quality_top : encode_quality (quality_idx 7 7) = (7, 6)%Z.
Proof.
  unfold quality_idx. cbn [Z.eqb Pos.eqb andb encode_quality].
  replace 5.4665 with ((powerRZ 3 7 * (1 + IZR 6 * (1/4)) - 1) * (1/1000)) by (rewrite pow3_7; lra).
  apply quality2qi_exact. unfold qi. lia.
Qed.

Definition lex_le (c v c' v' : Z) : Prop := (c < c' \/ (c = c' /\ v <= v'))%Z.

Lemma powerRZ3_S c : powerRZ 3 (c + 1) = 3 * powerRZ 3 c.
Proof. rewrite powerRZ_add by lra. rewrite powerRZ_1. lra. Qed.

Lemma powerRZ3_mono c d : (c <= d)%Z -> powerRZ 3 c <= powerRZ 3 d.
Proof.
  intros H. replace d with (c + Z.of_nat (Z.to_nat (d - c)))%Z by lia.
  generalize (Z.to_nat (d - c)) as n. induction n as [|n IH].
  - rewrite Z.add_0_r. lra.
  - replace (c + Z.of_nat (S n))%Z with (c + Z.of_nat n + 1)%Z by lia.
    rewrite powerRZ3_S. pose proof (powerRZ3_pos (c + Z.of_nat n)). lra.
Qed.

Definition qraw (c v : Z) : R := (powerRZ 3 c * (1 + IZR v * (1/4)) - 1) * (1/1000).

Lemma qraw_mono c v c' v' : (0 <= v <= 7)%Z -> (0 <= v' <= 7)%Z -> lex_le c v c' v' -> qraw c v <= qraw c' v'.
Proof.
  intros Hv Hv' [Hlt|[-> Hle]]; unfold qraw.
  - pose proof (powerRZ3_mono (c + 1) c' ltac:(lia)) as Hm. rewrite powerRZ3_S in Hm.
    pose proof (powerRZ3_pos c). pose proof (powerRZ3_pos c').
    pose proof (IZR_case v Hv). pose proof (IZR_case v' Hv').
    assert (powerRZ 3 c * (1 + IZR v * (1/4)) <= powerRZ 3 c * 3) by (apply Rmult_le_compat_l; lra).
    assert (powerRZ 3 c' * 1 <= powerRZ 3 c' * (1 + IZR v' * (1/4))) by (apply Rmult_le_compat_l; lra).
    lra.
  - apply IZR_le in Hle. pose proof (powerRZ3_pos c').
    assert (powerRZ 3 c' * (1 + IZR v * (1/4)) <= powerRZ 3 c' * (1 + IZR v' * (1/4))) by (apply Rmult_le_compat_l; lra).
    lra.
Qed.

Lemma quality_mono c v c' v' y y' : qi c v -> qi c' v' -> lex_le c v c' v' ->
  quality_idx c v = Some y -> quality_idx c' v' = Some y' -> y <= y'.
Proof.
  intros [Hc Hv] [Hc' Hv'] Hl.
  assert (T : qraw 7 6 = 5.4665).
  { unfold qraw. rewrite pow3_7. lra. }
  unfold quality_idx. intros H1 H2.
  destruct (andb (Z.eqb c 7) (Z.eqb v 7)) eqn:E1.
  - apply andb_prop in E1. destruct E1 as [E1 E2]. apply Z.eqb_eq in E1, E2. subst c v.
    assert (c' = 7 /\ v' = 7)%Z as [-> ->] by (unfold lex_le in Hl; lia).
    cbn in H2. injection H1 as <-. injection H2 as <-. lra.
  - destruct (andb (Z.eqb c 0) (Z.eqb v 0)); [discriminate|]. injection H1 as <-.
    destruct (andb (Z.eqb c' 7) (Z.eqb v' 7)) eqn:E2.
    + apply andb_prop in E2. destruct E2 as [E2 E3]. apply Z.eqb_eq in E2, E3. subst c' v'.
      injection H2 as <-. rewrite <- T. apply qraw_mono; try lia.
      apply Bool.andb_false_iff in E1. unfold lex_le in *.
      destruct E1 as [E1|E1]; apply Z.eqb_neq in E1; lia.
    + destruct (andb (Z.eqb c' 0) (Z.eqb v' 0)); [discriminate|]. injection H2 as <-.
      now apply qraw_mono.
Qed.

Lemma quality_nan c v : qi c v -> (quality_idx c v = None <-> c = 0 /\ v = 0)%Z.
Proof.
  intros Hq. unfold quality_idx. split.
  - destruct (andb (Z.eqb c 7) (Z.eqb v 7)); [discriminate|].
    destruct (Z.eqb_spec c 0), (Z.eqb_spec v 0); cbn [andb]; try discriminate; auto.
  - intros [-> ->]. reflexivity.
Qed.

Lemma quality_nonneg c v y : qi c v -> quality_idx c v = Some y -> 0 < y.
Proof.
  intros [Hc Hv] H.
  unfold quality_idx in H.
  destruct (andb (Z.eqb c 7) (Z.eqb v 7)); [injection H as <-; lra|].
  destruct (andb (Z.eqb c 0) (Z.eqb v 0)) eqn:E; [discriminate|]. injection H as <-.
  apply Bool.andb_false_iff in E. pose proof (IZR_case v Hv) as Rv.
  destruct (Z.eq_dec c 0) as [->|Hc0].
  - destruct E as [E|E]; apply Z.eqb_neq in E; [lia|].
    assert (1 <= IZR v) by (apply (IZR_le 1); lia). cbn [powerRZ]. lra.
  - pose proof (powerRZ3_mono 1 c ltac:(lia)) as Hm. rewrite powerRZ_1 in Hm.
    assert (powerRZ 3 c * 1 <= powerRZ 3 c * (1 + IZR v * (1/4))) by (apply Rmult_le_compat_l; pose proof (powerRZ3_pos c); lra).
    lra.
Qed.
