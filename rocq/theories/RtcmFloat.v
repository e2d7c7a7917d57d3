(** The encoder's quantisation in double precision: what a decoder computes from an integer field and a
    resolution, and what the encoder makes of it.
    /repo/src/cssrlib/cssrlib.py:484-488 (sval), rtcm.py:4199-4206 (ival), 4699 (code biases). *)
From Coq Require Import Reals ZArith Lra Lia List Floats.SpecFloat.
From Flocq Require Import Core Relative.
Import ListNotations.
Open Scope R_scope.

(** rounding of a real result to double precision (nearest, ties to even; no overflow) *)
Definition dbl : R -> R := round radix2 (FLT_exp (-1074) 53) ZnearestE.
(** cssrlib.py:488  u*scl *)
Definition fsval (u : Z) (scl : R) : R := dbl (IZR u * scl).
(** rtcm.py:4204  round(y/scl) *)
Definition fival (y scl : R) : Z := ZnearestE (dbl (y / scl)).

(** the same operations by computation: stdlib's reference floats.  0.01 is the double nearest to 1/100. *)
Definition c001 : spec_float := S754_finite false 5764607523034235 (-59).
Definition of_Z (u : Z) : spec_float := binary_normalize 53 1024 u 0 false.
(** int(x) truncates *)
Definition trunc (x : spec_float) : Z :=
  match x with
  | S754_finite s m e => let a := if (0 <=? e)%Z then (Zpos m * 2 ^ e)%Z else (Zpos m / 2 ^ (- e))%Z in if s then (- a)%Z else a
  | _ => 0%Z
  end.
(** rtcm.py:1209 self.sval(cb, 14, 0.01), rtcm.py:4699 int(cbias/0.01) *)
Definition cb_send (u : Z) : Z := trunc (SFdiv 53 1024 (SFmul 53 1024 (of_Z u) c001) c001).

Lemma dbl_eps x : (bpow radix2 (-1022) <= Rabs x) -> exists e, Rabs e <= bpow radix2 (-53) /\ dbl x = x * (1 + e).
Proof.
  intros H. destruct (relative_error_N_FLT_ex radix2 (-1074) 53 ltac:(lia) (fun n => negb (Z.even n)) x) as (e & E1 & E2).
  - exact H.
  - exists e. split; [|exact E2]. refine (Rle_trans _ _ _ E1 _). change (-53)%Z with (- (53) + 1 - 1)%Z.
    unfold Rminus. rewrite <- (Rmult_1_r (bpow radix2 (- (53) + 1))) at 1.
    replace (bpow radix2 (- (53) + 1 - 1)) with (/2 * bpow radix2 (- (53) + 1)).
    + lra.
    + replace (- (53) + 1)%Z with (-52)%Z by lia. replace (-52 - 1)%Z with (-53)%Z by lia. cbn -[IZR]. lra.
Qed.

Lemma quantise (u : Z) (scl : R) : (Z.abs u <= 2 ^ 50)%Z -> bpow radix2 (-900) <= scl ->
  fival (fsval u scl) scl = u.
Proof.
  intros Hu Hs. unfold fival, fsval.
  assert (P : 0 < scl) by (pose proof (bpow_gt_0 radix2 (-900)); lra).
  destruct (Z.eq_dec u 0) as [-> | Hn].
  - rewrite Rmult_0_l. unfold dbl at 2. rewrite round_0 by apply valid_rnd_N. unfold Rdiv. rewrite Rmult_0_l.
    unfold dbl. rewrite round_0 by apply valid_rnd_N. now apply Znearest_imp; rewrite Rminus_0_r, Rabs_R0; lra.
  - assert (A : 1 <= Rabs (IZR u)) by (rewrite <- abs_IZR; apply IZR_le; lia).
    assert (B : Rabs (IZR u) <= bpow radix2 50).
    { rewrite <- abs_IZR. change (bpow radix2 50) with (IZR (2 ^ 50)). now apply IZR_le. }
    assert (C : bpow radix2 (-1022) <= bpow radix2 (-900)) by (apply bpow_le; lia).
    destruct (dbl_eps (IZR u * scl)) as (e1 & E1 & ->).
    { rewrite Rabs_mult, (Rabs_right scl) by lra. apply Rle_trans with (1 * scl); [lra|]. apply Rmult_le_compat_r; lra. }
    assert (S : bpow radix2 (-53) <= / 8) by (change (/ 8) with (bpow radix2 (-3)); apply bpow_le; lia).
    replace (IZR u * scl * (1 + e1) / scl) with (IZR u * (1 + e1)) by (field; lra).
    apply Rabs_le_inv in E1 as E1'.
    destruct (dbl_eps (IZR u * (1 + e1))) as (e2 & E2 & ->).
    { rewrite Rabs_mult, (Rabs_right (1 + e1)) by lra.
      apply Rle_trans with (1 * (1 / 2)).
      - change (bpow radix2 (-1022)) with (bpow radix2 (-1022)). apply Rle_trans with (bpow radix2 (-3)); [apply bpow_le; lia|].
        cbn -[IZR]. lra.
      - apply Rmult_le_compat; lra. }
    apply Rabs_le_inv in E2 as E2'.
    apply Znearest_imp. replace (IZR u * (1 + e1) * (1 + e2) - IZR u) with (IZR u * (e1 + e2 * (1 + e1))) by ring.
    rewrite Rabs_mult.
    assert (F : Rabs (e1 + e2 * (1 + e1)) <= 3 * bpow radix2 (-53)).
    { eapply Rle_trans; [apply Rabs_triang|]. rewrite Rabs_mult, (Rabs_right (1 + e1)) by lra.
      assert (Rabs e2 * (1 + e1) <= bpow radix2 (-53) * 2).
      { apply Rmult_le_compat; try lra. apply Rabs_pos. }
      lra. }
    apply Rle_lt_trans with (bpow radix2 50 * (3 * bpow radix2 (-53))).
    + apply Rmult_le_compat; auto using Rabs_pos.
    + replace (bpow radix2 50 * (3 * bpow radix2 (-53))) with (3 * (bpow radix2 50 * bpow radix2 (-53))) by ring.
      rewrite <- bpow_plus. cbn -[IZR]. lra.
Qed.
