(** Split fields, and messages kept in the slots of a buffer. *)
From Verif Require Import SatModel TimeModel TimeSpec TimeProofs CssrState CssrFacts RawModel RawSpec RawFacts RawGal RawLnav NavModel NavSpec.
From Verif Require Import Base BaseFacts FieldFacts.
From Coq Require Import ZifyBool ZifyNat.
Notation length := List.length.
Open Scope Z_scope.

(* ---------- split fields ---------- *)
Lemma getu_slice b p n : (p + n <= length b)%nat -> getu b p n = Some (bval (slice b p n)).
Proof. intros H. unfold getu. now replace (p + n <=? length b)%nat with true by lia. Qed.
Lemma getu1_top b p n : (1 <= n)%nat -> (p + n <= length b)%nat ->
  getu b p 1 = Some (Z.b2z (hd false (slice b p n))).
Proof.
  intros Hn H. rewrite getu_slice by lia. f_equal. unfold slice.
  assert (L : (n <= length (skipn p b))%nat) by (rewrite skipn_length; lia).
  destruct (skipn p b) as [|x r]; [cbn in L; lia|]. destruct n as [|n]; [lia|]. cbn [firstn hd]. cbn [bval length]. destruct x; reflexivity.
Qed.
Lemma sgn_val l : (1 <= length l)%nat -> sgn (length l) (bval l) = bval l - (if hd false l then 2 ^ Z.of_nat (length l) else 0).
Proof.
  intros H. destruct l as [|x r]; [cbn in H; lia|]. cbn [hd]. pose proof (bval_bound r) as B.
  unfold sgn. cbn [length bval]. replace (Z.of_nat (S (length r))) with (Z.of_nat (length r) + 1) by lia.
  rewrite Z.pow_add_r by lia. change (2 ^ 1) with 2.
  pose proof (pow2_pos (length r)). replace (Z.of_nat (length r) + 1 - 1) with (Z.of_nat (length r)) by lia.
  replace (Z.of_nat (S (length r)) - 1) with (Z.of_nat (length r)) by lia.
  destruct x; cbn [Z.b2z];
    match goal with |- context [if ?c then _ else _] => destruct c eqn:? end; lia.
Qed.

Lemma gets_slice b p n : (p + n <= length b)%nat -> gets b p n = Some (sgn n (bval (slice b p n))).
Proof. intros H. unfold gets. now rewrite getu_slice. Qed.
Lemma hd_slice_app (a c : list bool) : (1 <= length a)%nat -> hd false (a ++ c) = hd false a.
Proof. destruct a; [cbn; lia|reflexivity]. Qed.
Lemma getbitu2_val b p1 l1 p2 l2 : (p1 + l1 <= length b)%nat -> (p2 + l2 <= length b)%nat ->
  getbitu2 b p1 l1 p2 l2 = Some (bval (slice b p1 l1 ++ slice b p2 l2)).
Proof.
  intros H1 H2. unfold getbitu2. rewrite !getu_slice by assumption. cbn [bind]. f_equal.
  rewrite bval_app, slice_length, Z.shiftl_mul_pow2 by lia. reflexivity.
Qed.
Lemma getbitu3_val b p1 l1 p2 l2 p3 l3 : (p1 + l1 <= length b)%nat -> (p2 + l2 <= length b)%nat -> (p3 + l3 <= length b)%nat ->
  getbitu3 b p1 l1 p2 l2 p3 l3 = Some (bval (slice b p1 l1 ++ slice b p2 l2 ++ slice b p3 l3)).
Proof.
  intros H1 H2 H3. unfold getbitu3. rewrite !getu_slice by assumption. cbn [bind]. f_equal.
  rewrite !bval_app, app_length, !slice_length, !Z.shiftl_mul_pow2 by lia. lia.
Qed.
Lemma getbits2_val b p1 l1 p2 l2 : (1 <= l1)%nat -> (p1 + l1 <= length b)%nat -> (p2 + l2 <= length b)%nat ->
  getbits2 b p1 l1 p2 l2 = Some (sgn (l1 + l2) (bval (slice b p1 l1 ++ slice b p2 l2))).
Proof.
  intros H0 H1 H2. unfold getbits2. rewrite (getu1_top b p1 l1 H0 H1). cbn [bind].
  assert (L1 : length (slice b p1 l1) = l1) by (apply slice_length; lia). assert (L2 : length (slice b p2 l2) = l2) by (apply slice_length; lia).
  assert (L : length (slice b p1 l1 ++ slice b p2 l2) = (l1 + l2)%nat) by (rewrite app_length; lia).
  assert (E : sgn (l1 + l2) (bval (slice b p1 l1 ++ slice b p2 l2)) = bval (slice b p1 l1 ++ slice b p2 l2) - (if hd false (slice b p1 l1) then 2 ^ Z.of_nat (l1 + l2) else 0)).
  { rewrite <- L at 1. rewrite sgn_val by lia. rewrite L, hd_slice_app by lia. reflexivity. }
  rewrite E. rewrite gets_slice by assumption. rewrite getu_slice by assumption. rewrite getbitu2_val by assumption. cbn [bind].
  assert (E1 : sgn l1 (bval (slice b p1 l1)) = bval (slice b p1 l1) - (if hd false (slice b p1 l1) then 2 ^ Z.of_nat l1 else 0)).
  { rewrite <- L1 at 1. rewrite sgn_val by lia. now rewrite L1. }
  rewrite E1, bval_app, L2, Z.shiftl_mul_pow2, pow_split by lia. destruct (hd false (slice b p1 l1)); cbn [Z.b2z Z.eqb negb]; f_equal; lia.
Qed.
Lemma getbits3_val b p1 l1 p2 l2 p3 l3 : (1 <= l1)%nat -> (p1 + l1 <= length b)%nat -> (p2 + l2 <= length b)%nat -> (p3 + l3 <= length b)%nat ->
  getbits3 b p1 l1 p2 l2 p3 l3 = Some (sgn (l1 + (l2 + l3)) (bval (slice b p1 l1 ++ slice b p2 l2 ++ slice b p3 l3))).
Proof.
  intros H0 H1 H2 H3. unfold getbits3. rewrite (getu1_top b p1 l1 H0 H1). cbn [bind].
  assert (L1 : length (slice b p1 l1) = l1) by (apply slice_length; lia). assert (L2 : length (slice b p2 l2) = l2) by (apply slice_length; lia).
  assert (L3 : length (slice b p3 l3) = l3) by (apply slice_length; lia).
  set (x := slice b p1 l1) in *. set (y := slice b p2 l2) in *. set (z := slice b p3 l3) in *.
  assert (L : length (x ++ y ++ z) = (l1 + (l2 + l3))%nat) by (rewrite !app_length; lia).
  assert (E : sgn (l1 + (l2 + l3)) (bval (x ++ y ++ z)) = bval (x ++ y ++ z) - (if hd false x then 2 ^ Z.of_nat (l1 + (l2 + l3)) else 0)).
  { rewrite <- L at 1. rewrite sgn_val by lia. rewrite L, hd_slice_app by lia. reflexivity. }
  rewrite E. rewrite gets_slice by assumption. rewrite !getu_slice by assumption. rewrite getbitu3_val by assumption. cbn [bind].
  fold x y z.
  assert (E1 : sgn l1 (bval x) = bval x - (if hd false x then 2 ^ Z.of_nat l1 else 0)) by (rewrite <- L1 at 1; rewrite sgn_val by lia; now rewrite L1).
  rewrite E1, !bval_app, app_length, L2, L3, !Z.shiftl_mul_pow2, !pow_split by lia. destruct (hd false x); cbn [Z.b2z Z.eqb negb]; f_equal; lia.
Qed.
(** a field sent in parts *)
Lemma bitsof_two l1 l2 v : bitsof (l1 + l2) v = bitsof l1 (v / 2 ^ Z.of_nat l2) ++ bitsof l2 v.
Proof.
  apply bval_inj; [now rewrite app_length, !bitsof_length|].
  rewrite bval_app, !bitsof_bval_mod, bitsof_length. symmetry. apply split_mod.
Qed.
Lemma at_slice b p n v : At b p (bitsof n v) -> slice b p n = bitsof n v /\ (p + n <= length b)%nat.
Proof.
  intros A. pose proof (slice_at _ _ _ A) as E. pose proof (At_bound _ _ _ A) as B. rewrite bitsof_length in *. now split.
Qed.
Lemma fat_here b o fl p n v : At b o (enc fl) -> (o <=? p)%nat = true -> fat fl (p - o) = Some (n, v) -> slice b p n = bitsof n v /\ (p + n <= length b)%nat.
Proof.
  intros A H F. pose proof (fat_at b _ _ _ _ _ A F) as B. replace (o + (p - o))%nat with p in B by lia. now apply at_slice.
Qed.
Lemma two_u b o fl o' fl' p1 l1 p2 l2 h v : At b o (enc fl) -> At b o' (enc fl') -> (o <=? p1)%nat = true -> (o' <=? p2)%nat = true ->
  fat fl (p1 - o) = Some (l1, h) -> fat fl' (p2 - o') = Some (l2, v) -> h = v / 2 ^ Z.of_nat l2 -> U (Z.of_nat (l1 + l2)) v ->
  getbitu2 b p1 l1 p2 l2 = Some v.
Proof.
  intros A A' H1 H2 F1 F2 -> R. pose proof (fat_here b _ _ _ _ _ A H1 F1) as B1. pose proof (fat_here b _ _ _ _ _ A' H2 F2) as B2.
  destruct B1 as [E1 K1]. destruct B2 as [E2 K2].
  rewrite getbitu2_val by assumption. rewrite E1, E2, <- bitsof_two, bitsof_bval_mod. now rewrite Z.mod_small by exact R.
Qed.
Lemma two_s b o fl o' fl' p1 l1 p2 l2 h v : At b o (enc fl) -> At b o' (enc fl') -> (o <=? p1)%nat = true -> (o' <=? p2)%nat = true ->
  fat fl (p1 - o) = Some (l1, h) -> fat fl' (p2 - o') = Some (l2, v) -> h = v / 2 ^ Z.of_nat l2 -> (1 <= l1)%nat -> S_ (Z.of_nat (l1 + l2)) v ->
  getbits2 b p1 l1 p2 l2 = Some v.
Proof.
  intros A A' H1 H2 F1 F2 -> Hl R. pose proof (fat_here b _ _ _ _ _ A H1 F1) as B1. pose proof (fat_here b _ _ _ _ _ A' H2 F2) as B2.
  destruct B1 as [E1 K1]. destruct B2 as [E2 K2].
  rewrite getbits2_val by assumption. rewrite E1, E2, <- bitsof_two, bitsof_bval_mod. f_equal. apply sgn_s; [clear - Hl; lia|exact R].
Qed.
Lemma bitsof_mod_eq n h v : h mod 2 ^ Z.of_nat n = v mod 2 ^ Z.of_nat n -> bitsof n v = bitsof n h.
Proof. intros E. now rewrite <- (bitsof_mod n v), <- (bitsof_mod n h), E. Qed.
Lemma three_s b o fl p1 l1 p2 l2 p3 l3 h1 h2 h3 v : At b o (enc fl) -> (o <=? p1)%nat = true -> (o <=? p2)%nat = true -> (o <=? p3)%nat = true ->
  fat fl (p1 - o) = Some (l1, h1) -> fat fl (p2 - o) = Some (l2, h2) -> fat fl (p3 - o) = Some (l3, h3) ->
  h1 mod 2 ^ Z.of_nat l1 = (v / 2 ^ Z.of_nat (l2 + l3)) mod 2 ^ Z.of_nat l1 -> h2 mod 2 ^ Z.of_nat l2 = (v / 2 ^ Z.of_nat l3) mod 2 ^ Z.of_nat l2 ->
  h3 mod 2 ^ Z.of_nat l3 = v mod 2 ^ Z.of_nat l3 -> (1 <= l1)%nat -> S_ (Z.of_nat (l1 + (l2 + l3))) v ->
  getbits3 b p1 l1 p2 l2 p3 l3 = Some v.
Proof.
  intros A H1 H2 H3 F1 F2 F3 G1 G2 G3 Hl R.
  pose proof (fat_here b _ _ _ _ _ A H1 F1) as B1. pose proof (fat_here b _ _ _ _ _ A H2 F2) as B2. pose proof (fat_here b _ _ _ _ _ A H3 F3) as B3.
  destruct B1 as [E1 K1]. destruct B2 as [E2 K2]. destruct B3 as [E3 K3].
  rewrite getbits3_val by assumption. rewrite E1, E2, E3.
  rewrite <- (bitsof_mod_eq l1 _ _ G1), <- (bitsof_mod_eq l2 _ _ G2), <- (bitsof_mod_eq l3 _ _ G3), <- bitsof_two, <- bitsof_two, bitsof_bval_mod.
  f_equal. apply sgn_s; [clear - Hl; lia|exact R].
Qed.
Lemma three_u b o1 f1 o2 f2 o3 f3 p1 l1 p2 l2 p3 l3 h1 h2 h3 v : At b o1 (enc f1) -> At b o2 (enc f2) -> At b o3 (enc f3) ->
  (o1 <=? p1)%nat = true -> (o2 <=? p2)%nat = true -> (o3 <=? p3)%nat = true ->
  fat f1 (p1 - o1) = Some (l1, h1) -> fat f2 (p2 - o2) = Some (l2, h2) -> fat f3 (p3 - o3) = Some (l3, h3) ->
  h1 mod 2 ^ Z.of_nat l1 = (v / 2 ^ Z.of_nat (l2 + l3)) mod 2 ^ Z.of_nat l1 -> h2 mod 2 ^ Z.of_nat l2 = (v / 2 ^ Z.of_nat l3) mod 2 ^ Z.of_nat l2 ->
  h3 mod 2 ^ Z.of_nat l3 = v mod 2 ^ Z.of_nat l3 -> U (Z.of_nat (l1 + (l2 + l3))) v ->
  getbitu3 b p1 l1 p2 l2 p3 l3 = Some v.
Proof.
  intros A1 A2 A3 H1 H2 H3 F1 F2 F3 G1 G2 G3 R.
  pose proof (fat_here b _ _ _ _ _ A1 H1 F1) as B1. pose proof (fat_here b _ _ _ _ _ A2 H2 F2) as B2. pose proof (fat_here b _ _ _ _ _ A3 H3 F3) as B3.
  destruct B1 as [E1 K1]. destruct B2 as [E2 K2]. destruct B3 as [E3 K3].
  rewrite getbitu3_val by assumption. rewrite E1, E2, E3.
  rewrite <- (bitsof_mod_eq l1 _ _ G1), <- (bitsof_mod_eq l2 _ _ G2), <- (bitsof_mod_eq l3 _ _ G3), <- bitsof_two, <- bitsof_two, bitsof_bval_mod.
  f_equal. now rewrite Z.mod_small by exact R.
Qed.
(** read the next field, also when it is sent in two parts *)
Ltac fats b p k :=
  match goal with
  | A : At b ?o (enc ?fl) |- _ =>
    let c := eval cbv in (Nat.leb o p) in
    lazymatch c with true =>
      let r := eval cbv [fat Nat.leb Nat.eqb Nat.sub Nat.add Nat.mul] in (fat fl (p - o)) in
      lazymatch r with Some (_, ?v) => k A o fl v end
    end
  end.
Ltac rd2 :=
  cbv beta zeta;
  lazymatch goal with
  | |- bind (getbitu2 ?b ?p1 ?l1 ?p2 ?l2) _ = _ =>
      fats b p1 ltac:(fun A o fl h => fats b p2 ltac:(fun A' o' fl' v =>
        refine (bind_eq _ _ _ _ (two_u b o fl o' fl' p1 l1 p2 l2 h v A A' eq_refl eq_refl eq_refl eq_refl eq_refl _) _); [rng0|]))
  | |- bind (getbits2 ?b ?p1 ?l1 ?p2 ?l2) _ = _ =>
      fats b p1 ltac:(fun A o fl h => fats b p2 ltac:(fun A' o' fl' v =>
        refine (bind_eq _ _ _ _ (two_s b o fl o' fl' p1 l1 p2 l2 h v A A' eq_refl eq_refl eq_refl eq_refl eq_refl _ _) _); [clear; lia|rng0|]))
  end; cbv beta.
Ltac rdx := repeat (first [rd1 | rd2]); cbv beta zeta.

(* ---------- times ---------- *)
Lemma bdt_gps w t : 0 <= t <= 1000000000 -> bdt2gpst 1 (bdt2time 1 w t) = bdt w t.
Proof.
  intros H. rewrite bdt_exact by assumption. unfold bdt2gpst, timeadd, bdt, at_week. cbn [gt gs]. rewrite Z.div_1_r. f_equal; lia.
Qed.
Lemma far_eq w t s : d_week w t s = far_week w t s.
Proof.
  unfold d_week, far_week. replace (t >? s + 302400) with (t - s >? 302400) by lia. now replace (t <? s - 302400) with (t - s <? -302400) by lia.
Qed.

(* ---------- slots ---------- *)
Lemma last_snoc {E A} (want : E -> option A) h e : last_of want (h ++ [e]) = match want e with Some a => Some a | None => last_of want h end.
Proof.
  induction h as [|x h IH]; cbn [app last_of]; [now destruct (want e)|]. rewrite IH. now destruct (want e).
Qed.
Lemma last_in {E A} (want : E -> option A) h a : last_of want h = Some a -> exists e, In e h /\ want e = Some a.
Proof.
  induction h as [|x h IH]; cbn [last_of]; [discriminate|]. destruct (last_of want h) eqn:L; intros H.
  - destruct (IH H) as (e & He & W). exists e. split; [now right|exact W].
  - exists x. split; [now left|exact H].
Qed.
Definition slotf {M} (fl : M -> list field) (emp : list field) (o : option M) : list field := match o with Some m => fl m | None => emp end.
(** every buffer holds in its slots the last message wanted there *)
Definition slots {E M} (want : Z -> Z -> E -> option M) (fl : Z -> M -> list field) (emp : list field) (ok : Z -> Prop) (off : Z -> nat)
    (P : Z -> Prop) (idx : Z -> Z) (h : list E) (d : dict Z bits) : Prop :=
  forall q, P q -> exists b, zget (idx q) d = Some b /\ length b = (8 * bytelen b)%nat /\ (200 <= bytelen b)%nat /\
    forall k, ok k -> At b (off k) (enc (slotf (fl q) emp (last_of (want q k) h))).
Lemma slots_skip {E M} want (fl : Z -> M -> list field) emp (ok : Z -> Prop) off (P : Z -> Prop) idx h d (e : E) :
  (forall q k, P q -> ok k -> want q k e = None) -> slots want fl emp ok off P idx h d -> slots want fl emp ok off P idx (h ++ [e]) d.
Proof.
  intros W H q Hq. destruct (H q Hq) as (b & G & L & B & A). exists b. repeat (split; [assumption|]).
  intros k Hk. rewrite last_snoc, W by assumption. now apply A.
Qed.
Lemma slots_put {E M} want (fl : Z -> M -> list field) emp (ok : Z -> Prop) off (P : Z -> Prop) idx h d (e : E) q0 b b' :
  P q0 -> (forall q, P q -> idx q = idx q0 -> q = q0) -> (forall q k, P q -> q <> q0 -> want q k e = None) ->
  length b' = (8 * bytelen b')%nat -> (200 <= bytelen b')%nat ->
  (forall k, ok k -> At b' (off k) (enc (slotf (fl q0) emp (last_of (want q0 k) (h ++ [e]))))) ->
  slots want fl emp ok off P idx h d -> zget (idx q0) d = Some b ->
  slots want fl emp ok off P idx (h ++ [e]) (zset (idx q0) b' d).
Proof.
  intros Hq0 Inj W L' B' A' H Eb q Hq. destruct (Z.eq_dec q q0) as [->|Hne].
  - exists b'. rewrite zget_zset_same. repeat (split; [assumption||reflexivity|]). exact A'.
  - destruct (H q Hq) as (c & G & L & B & A). exists c. rewrite zget_zset_other by (intros E'; apply Hne, Inj; congruence).
    repeat (split; [assumption|]). intros k Hk. rewrite last_snoc, W by assumption. now apply A.
Qed.
(** writing one slot of [W] bytes: the bits of a message, possibly followed by others *)
Lemma put_at b b' o x y : b' = splice b o (x ++ y) -> (o + length (x ++ y) <= length b)%nat -> At b' o x.
Proof.
  intros -> H. assert (A : At (splice b o (x ++ y)) o (x ++ y)) by (now apply splice_at). now apply At_app in A.
Qed.
