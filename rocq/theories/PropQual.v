(** Property C17: quality indicators (exact real arithmetic). *)
From Verif Require Import QualModel QualProofs.
From Coq Require Import Reals ZArith Lra.
Open Scope R_scope.

Theorem C17_quality_monotone : forall c v c' v' y y',
  (0 <= c <= 7 /\ 0 <= v <= 7)%Z -> (0 <= c' <= 7 /\ 0 <= v' <= 7)%Z ->
  (c < c' \/ (c = c' /\ v <= v'))%Z ->
  quality_idx c v = Some y -> quality_idx c' v' = Some y' -> y <= y'.
Proof. exact quality_mono. Qed.
Print Assumptions C17_quality_monotone.

Theorem C17_quality_defined : forall c v, (0 <= c <= 7 /\ 0 <= v <= 7)%Z ->
  ((quality_idx c v = None <-> c = 0 /\ v = 0)%Z) /\
  (forall y, quality_idx c v = Some y -> 0 < y).
Proof. exact (fun c v H => conj (quality_nan c v H) (fun y => quality_nonneg c v y H)). Qed.
Print Assumptions C17_quality_defined.

(** round trip: holds for every indicator except (7,7) *)
Theorem C17_quality_roundtrip_partial : forall c v, (0 <= c <= 7 /\ 0 <= v <= 7)%Z ->
  ~ (c = 7 /\ v = 7)%Z -> encode_quality (quality_idx c v) = (c, v).
Proof. exact quality_roundtrip. Qed.
Print Assumptions C17_quality_roundtrip_partial.

(** ... and fails for (7,7), which is decoded to the value of (7,6) *)
Theorem C17_quality_roundtrip_refuted : encode_quality (quality_idx 7 7) = (7, 6)%Z.
Proof. exact quality_top. Qed.
Print Assumptions C17_quality_roundtrip_refuted.

Example C17_case : (0 <= 3 <= 7 /\ 0 <= 5 <= 7)%Z /\ quality_idx 3 5 = Some ((27 * (1 + 5 * (1/4)) - 1) * (1/1000)).
Proof. split; [repeat split; discriminate|]. unfold quality_idx. cbn [Z.eqb Pos.eqb andb]. f_equal.
  change (powerRZ 3 3) with (3 ^ 3)%R. simpl. lra. Qed.
