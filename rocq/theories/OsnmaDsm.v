From Verif Require Import BaseFacts BitProofs CssrFacts TimeModel OsnmaModel OsnmaSpec OsnmaProofs OsnmaTags OsnmaHist OsnmaStep.
From Coq Require Import ZifyBool ZifyNat.
Open Scope Z_scope.

Section D.
Variable C : crypto.
Implicit Types s : ost C.
Ltac inj H := injection H as <- <-.

(* ---------- DSM-KROOT ---------- *)
Lemma kroot_iff did s s' r : decode_dsm_kroot did s = (s', r) -> (r = Some true <-> padded C (o_hdr s) (dsm_of did s)).
Proof.
  unfold decode_dsm_kroot. cbv zeta. cbn [k_ks]. set (d := dsm_of did s). intros H.
  destruct (item klen_t (bval (slice d 16 4))) as [lk|] eqn:L.
  2:{ inj H. split; [discriminate|]. intros (p & lk & n & PM & _). unfold params_of in PM. cbv zeta in PM.
      destruct (keylen (bval (slice d 16 4))) as [k|] eqn:K; [|discriminate].
      assert (Q : item klen_t (bval (slice d 16 4)) = Some (Z.of_nat k)) by (apply item_klen; rewrite Nat2Z.id; split; [exact K|lia]). congruence. }
  apply item_klen in L. destruct L as [L P]. pose proof (keylen_8 _ _ L) as (b & Eb & BB).
  assert (PM : params_of d = Some (KP (bval (slice d 4 4)) (bval (slice d 8 2)) (bval (slice d 12 2)) (bval (slice d 14 2)) (bval (slice d 16 4)) (bval (slice d 20 4))
     (bval (slice d 24 8)) (bval (slice d 36 12)) (bval (slice d 48 8)) (slice d 56 48) (slice d (104 + Z.to_nat lk) 512) (slice d 104 (Z.to_nat lk)))).
  { unfold params_of. cbv zeta. rewrite L. reflexivity. }
  assert (Ediv : lk / 8 = Z.of_nat b) by (assert (lk = Z.of_nat b * 8) by lia; subst lk; apply Z.div_mul; lia).
  set (nb := bval (slice d 0 4)) in *. assert (NB : 0 <= nb) by apply bval_bound.
  destruct (Z.ltb_spec ((nb + 6) * 104 - 104 - lk - 512) 0) as [LT|GE].
  { inj H. split; [discriminate|]. intros (p & lk' & n & PM' & KL & _ & _ & B & _). rewrite PM in PM'. apply some_inj in PM'. subst p. cbn [k_ks] in KL.
    rewrite L in KL. injection KL as <-. fold nb in B. lia. }
  match type of H with match ?x with _ => _ end = _ => set (V := x) in * end.
  assert (EV : V = (if (bval (slice d 12 2) =? 0) || (bval (slice d 12 2) =? 2) then
     Some (beqb (firstn (length (slice d (616 + Z.to_nat lk) (104 * Z.to_nat (nb + 6) - 104 - Z.to_nat lk - 512)))
         (c_hash C (bval (slice d 12 2)) (signed_part (o_hdr s) d (Z.to_nat lk) ++ slice d (104 + Z.to_nat lk) 512)))
        (slice d (616 + Z.to_nat lk) (104 * Z.to_nat (nb + 6) - 104 - Z.to_nat lk - 512))) else None)).
  { unfold V, verify_pdk. cbn [set_kp o_kp k_ks k_hf k_ds].
    replace (item klen_t (bval (slice d 16 4))) with (Some lk) by (symmetry; apply item_klen; auto). cbn [bind].
    unfold process_hash. destruct (_ || _); [|reflexivity]. cbn [bind].
    assert (A1 : bytes d (13 + Z.to_nat (lk / 8) + 64) (13 + Z.to_nat (lk / 8) + 64 + Z.to_nat (((nb + 6) * 104 - 104 - lk - 512 + 7) / 8)) =
      slice d (616 + Z.to_nat lk) (104 * Z.to_nat (nb + 6) - 104 - Z.to_nat lk - 512)).
    { unfold bytes. rewrite Ediv. f_equal; [lia|].
      assert (Q : ((nb + 6) * 104 - 104 - lk - 512 + 7) / 8 = (nb + 6) * 13 - 77 - Z.of_nat b).
      { symmetry. apply Z.div_unique with 7; lia. }
      rewrite Q. lia. }
    rewrite A1. unfold root_msg, signed_part. change (dsm_of did (set_kp _ _)) with d.
    cbn [o_hdr set_kp].
    assert (A2 : bytes d 1 (Z.to_nat (13 + lk / 8)) = slice d 8 (96 + Z.to_nat lk)).
    { unfold bytes. f_equal. lia. }
    assert (A3 : bytes d (13 + Z.to_nat (lk / 8)) (13 + Z.to_nat (lk / 8) + 64) = slice d (104 + Z.to_nat lk) 512).
    { unfold bytes. f_equal; lia. }
    rewrite A2, A3. reflexivity. }
  rewrite EV in H. clear EV V.
  assert (IFF : padded C (o_hdr s) d <-> hf_ok (bval (slice d 12 2)) /\
     firstn (length (slice d (616 + Z.to_nat lk) (104 * Z.to_nat (nb + 6) - 104 - Z.to_nat lk - 512)))
         (c_hash C (bval (slice d 12 2)) (signed_part (o_hdr s) d (Z.to_nat lk) ++ slice d (104 + Z.to_nat lk) 512)) =
       slice d (616 + Z.to_nat lk) (104 * Z.to_nat (nb + 6) - 104 - Z.to_nat lk - 512)).
  { split.
    - intros (p & lk' & n & PM' & KL & HF & -> & B & E). rewrite PM in PM'. apply some_inj in PM'. subst p. cbn [k_ks k_hf k_ds] in *.
      rewrite L in KL. injection KL as <-. auto.
    - intros [HF E]. eexists _, (Z.to_nat lk), _. split; [exact PM|]. cbn [k_ks k_hf k_ds]. split; [exact L|]. split; [exact HF|]. split; [reflexivity|].
      split; [fold nb; lia|exact E]. }
  rewrite IFF. rewrite <- hf_okb. destruct (_ || _).
  - rewrite <- beqb_eq. destruct (beqb _ _); inj H; intuition discriminate.
  - inj H. intuition discriminate.
Qed.

(* ---------- DSM-PKR ---------- *)
Lemma merkle_climb hf d : forall n k i x, hf_ok hf -> 0 <= i -> (k + n <= 4)%nat ->
  merkle_loop C hf (bytes d 1 129) n k i x = Some (climb C hf (fun j => slice d (8 + 256 * j) 256) n k i x).
Proof.
  induction n as [|n IH]; intros k i x HF I K; cbn [merkle_loop climb]; [reflexivity|].
  unfold process_hash. apply hf_okb in HF as HB. rewrite HB. cbn [bind].
  assert (E : bytes (bytes d 1 129) (k * 32) ((k + 1) * 32) = slice d (8 + 256 * k) 256).
  { unfold bytes. rewrite slice_slice by lia. f_equal; lia. }
  rewrite E, IH; [|exact HF|rewrite Z.shiftr_div_pow2 by lia; change (2 ^ 1) with 2; apply Z.div_pos; lia|lia].
  rewrite Z.shiftr_div_pow2 by lia. change (2 ^ 1) with 2. f_equal. f_equal.
  rewrite Zmod_even. destruct (Z.even i); reflexivity.
Qed.
Lemma pkr_iff did s s' r : decode_dsm_pkr did s = (s', r) ->
  (r = Some true <-> exists root id key, o_root s = Some root /\ pkr_ok C (k_hf (o_kp s)) root (dsm_of did s) id key) /\
  (r = Some true -> exists root id key, o_root s = Some root /\ pkr_ok C (k_hf (o_kp s)) root (dsm_of did s) id key /\
     o_pk s' = zset id key (o_pk s)) /\
  (r <> Some true -> s' = s).
Proof.
  unfold decode_dsm_pkr. cbv zeta. set (d := dsm_of did s). intros H.
  set (nb := bval (slice d 0 4)) in *. assert (NB : 0 <= nb) by apply bval_bound.
  set (t := bval (slice d 1032 4)) in *. assert (T : 0 <= t) by apply bval_bound.
  assert (NO : forall q, (s', r) = (s, q) -> q <> Some true -> (forall root id key, ~ pkr_ok C (k_hf (o_kp s)) root d id key) ->
    (r = Some true <-> exists root id key, o_root s = Some root /\ pkr_ok C (k_hf (o_kp s)) root d id key) /\
    (r = Some true -> exists root id key, o_root s = Some root /\ pkr_ok C (k_hf (o_kp s)) root d id key /\ o_pk s' = zset id key (o_pk s)) /\
    (r <> Some true -> s' = s)).
  { intros q E Q N. injection E as -> ->. split; [split; [congruence|intros (root & id & key & _ & K); elim (N _ _ _ K)]|]. split; [congruence|auto]. }
  destruct ((nb <? 7) || (10 <? nb)) eqn:B1.
  { eapply NO; [symmetry; exact H|discriminate|]. intros root id key (nb' & len & -> & B & _). fold nb in B. lia. }
  destruct ((4 <? t) || (t =? 0) || (t =? 2)) eqn:B2.
  { eapply NO; [symmetry; exact H|discriminate|]. intros root id key (nb' & len & -> & B & LN & _). fold t nb in LN. unfold npklen in LN.
    destruct t as [|p|p]; try discriminate; try lia. destruct p as [p|p|]; try discriminate; try lia; destruct p as [p|p|]; try discriminate; try lia; destruct p; try discriminate; try lia. }
  assert (TT : t = 1 \/ t = 3 \/ t = 4) by lia.
  set (len := if t =? 4 then 104 * (nb + 6) - 1040 else nth (Z.to_nat t) npk_len_t 0) in *.
  assert (LN : npklen t (nb + 6) = Some len) by (subst len; destruct TT as [->|[->| ->]]; reflexivity).
  assert (L8 : exists m, len = 8 * m /\ 0 <= m).
  { clear - TT B1 len NB. destruct TT as [E|[E|E]]; unfold len; rewrite E; [exists 33; split; [reflexivity|lia]|exists 67; split; [reflexivity|lia]|exists (13 * (nb + 6) - 130)]. change (4 =? 4) with true. cbv iota. lia. }
  destruct L8 as (m & Em & PM). rewrite Em in *. clearbody len. clear Em len.
  rewrite (Z.mul_comm 8 m) in *. rewrite Z.div_mul in * by lia.
  destruct (Z.ltb_spec ((nb + 6) * 104 - 1040 - m * 8) 0) as [LT|GE].
  { eapply NO; [symmetry; exact H|discriminate|]. intros root id key (nb' & len & -> & B & LN' & _ & BB & _). fold nb t in LN', BB. rewrite LN in LN'. injection LN' as <-. lia. }
  assert (E1 : bytes d 130 (130 + Z.to_nat m) = slice d 1040 (Z.to_nat (m * 8))) by (unfold bytes; f_equal; lia).
  assert (E2 : bytes d 129 130 ++ slice d 1040 (Z.to_nat (m * 8)) = slice d 1032 (Z.to_nat (8 + m * 8))).
  { unfold bytes. change (8 * 129)%nat with 1032%nat. change (8 * (130 - 129))%nat with 8%nat. change 1040%nat with (1032 + 8)%nat at 1. rewrite slice_cat. f_equal. lia. }
  assert (E3 : bytes d (130 + Z.to_nat m) (130 + Z.to_nat m + Z.to_nat (((nb + 6) * 104 - 1040 - m * 8) / 8)) =
     slice d (Z.to_nat (1040 + m * 8)) (Z.to_nat (104 * (nb + 6) - 1040 - m * 8))).
  { unfold bytes. assert (Q : ((nb + 6) * 104 - 1040 - m * 8) / 8 = (nb + 6) * 13 - 130 - m) by (symmetry; apply Z.div_unique with 0; lia).
    rewrite Q. f_equal; lia. }
  rewrite E1, E2, E3 in H. clear E1 E2 E3.
  assert (OK : forall root id key, pkr_ok C (k_hf (o_kp s)) root d id key <-> hf_ok (k_hf (o_kp s)) /\
      firstn (length (slice d (Z.to_nat (1040 + m * 8)) (Z.to_nat (104 * (nb + 6) - 1040 - m * 8))))
        (c_hash C (k_hf (o_kp s)) (root ++ slice d 1032 (Z.to_nat (8 + m * 8)))) = slice d (Z.to_nat (1040 + m * 8)) (Z.to_nat (104 * (nb + 6) - 1040 - m * 8)) /\
      climb C (k_hf (o_kp s)) (fun j => slice d (8 + 256 * j) 256) 4 0 (bval (slice d 4 4)) (c_hash C (k_hf (o_kp s)) (slice d 1032 (Z.to_nat (8 + m * 8)))) = root /\
      id = bval (slice d 1036 4) /\ c_unz C t (slice d 1040 (Z.to_nat (m * 8))) = Some key).
  { intros root id key. split.
    - intros (nb' & len & -> & B & LN' & _ & BB & HF & K). fold nb t in LN', BB, K. rewrite LN in LN'. injection LN' as <-. cbv zeta in K. tauto.
    - intros (HF & K). exists (nb + 6), (m * 8). fold nb t. split; [reflexivity|]. split; [lia|]. split; [exact LN|]. split; [lia|]. split; [lia|]. split; [exact HF|].
      cbv zeta. exact K. }
  destruct (o_root s) as [root|].
  2:{ inj H. split; [split; [discriminate|intros (root & id & key & Q & _); discriminate Q]|]. split; [discriminate|auto]. }
  unfold process_hash in H. 
  destruct ((k_hf (o_kp s) =? 0) || (k_hf (o_kp s) =? 2)) eqn:HB.
  2:{ eapply NO; [symmetry; exact H|discriminate|]. intros root' id key K. apply OK in K. destruct K as [K _]. apply hf_okb in K. congruence. }
  apply hf_okb in HB.
  assert (IFF : (exists root0 id key, Some root = Some root0 /\ pkr_ok C (k_hf (o_kp s)) root0 d id key) <->
                (exists id key, pkr_ok C (k_hf (o_kp s)) root d id key)).
  { split; [intros (r0 & id & key & Q & K); injection Q as <-; eauto|intros (id & key & K); eauto 6]. }
  rewrite IFF.
  assert (NO2 : forall q, (s', r) = (s, q) -> q <> Some true -> (forall id key, ~ pkr_ok C (k_hf (o_kp s)) root d id key) ->
    (r = Some true <-> exists id key, pkr_ok C (k_hf (o_kp s)) root d id key) /\
    (r = Some true -> exists root0 id key, Some root = Some root0 /\ pkr_ok C (k_hf (o_kp s)) root0 d id key /\ o_pk s' = zset id key (o_pk s)) /\
    (r <> Some true -> s' = s)).
  { intros q E Q N. injection E as -> ->. split; [split; [congruence|intros (id & key & K); elim (N _ _ K)]|]. split; [congruence|auto]. }
  destruct (beqb _ _) eqn:BP in H; cbn [negb] in H.
  2:{ eapply NO2; [symmetry; exact H|discriminate|]. intros id key K. apply OK in K. apply beqb_neq in BP. tauto. }
  apply beqb_eq in BP. cbn [bind] in H.
  rewrite merkle_climb in H by (try assumption; try apply bval_bound; lia).
  destruct (beqb _ root) eqn:BR in H; cbn [negb] in H.
  2:{ eapply NO2; [symmetry; exact H|discriminate|]. intros id key K. apply OK in K. apply beqb_neq in BR. tauto. }
  apply beqb_eq in BR.
  destruct (c_unz C t _) as [key|] eqn:U.
  - inj H. assert (K : pkr_ok C (k_hf (o_kp s)) root d (bval (slice d 1036 4)) key) by (apply OK; auto).
    split; [split; [intros _; eauto|reflexivity]|]. split; [|congruence]. intros _. exists root, (bval (slice d 1036 4)), key. split; [reflexivity|]. split; [exact K|reflexivity].
  - eapply NO2; [symmetry; exact H|discriminate|]. intros id key K. apply OK in K. destruct K as (_ & _ & _ & _ & K). discriminate K.
Qed.
End D.
