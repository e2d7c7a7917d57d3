From Verif Require Import BaseFacts BitProofs CssrFacts TimeModel OsnmaModel OsnmaSpec OsnmaProofs OsnmaTags OsnmaHist OsnmaStep.
From Coq Require Import ZifyBool ZifyNat.
Open Scope Z_scope.

Section L.
Variable C : crypto.
Implicit Types s : ost C.

Lemma ofst_gst t : 0 <= t < 4096 * 604800 -> ofst_of (gst t) = if t mod 60 =? 0 then 0%nat else 6%nat.
Proof.
  intros T. unfold ofst_of, gst.
  assert (E : slice (bitsof 12 (t / 604800) ++ bitsof 20 (t mod 604800)) 12 20 = bitsof 20 (t mod 604800)).
  { unfold slice. rewrite skipn_app, skipn_all2 by (rewrite bitsof_length; lia). rewrite bitsof_length. change (12 - 12)%nat with 0%nat. rewrite skipn_O, app_nil_l.
    apply firstn_all2. rewrite bitsof_length. lia. }
  rewrite E, bval_bitsof.
  - replace 604800 with (60 * 10080) by reflexivity. rewrite Zmod_mod_mul || idtac.
    replace (t mod (60 * 10080) mod 60) with (t mod 60); [reflexivity|].
    rewrite Z.rem_mul_r by lia. rewrite Z.add_mod by lia. rewrite (Z.mul_comm 60 (_ mod _)), Z.mod_mul, Z.add_0_r by lia. now rewrite !Z.mod_mod by lia.
  - pose proof (Z.mod_pos_bound t 604800 ltac:(lia)). change (2 ^ Z.of_nat 20) with 1048576. lia.
Qed.
Lemma info_tag s k : info_prn (snd (tag_k s k)) = tag_prn (o_tag s) (Z.to_nat (tag_bytes s)) k /\ info_adkd (snd (tag_k s k)) = tag_adkd (o_tag s) (Z.to_nat (tag_bytes s)) k.
Proof.
  unfold tag_k, info_prn, info_adkd, tag_prn, tag_adkd. cbn [snd]. set (lb := Z.to_nat (tag_bytes s)). unfold bytes.
  rewrite !slice_slice by lia. split; f_equal; f_equal; lia.
Qed.
Lemma maclt_loop_spec s a md ad o : length ad = length md -> forall n k, (k + n + o < length md)%nat ->
  exists b, maclt_loop s a md ad o n k = Some b /\
   (b = true <-> forall j, (k < j <= k + n)%nat ->
      (nth (j + o) md 0 = 1 -> info_prn (snd (tag_k s j)) = a) /\ (nth (j + o) md 0 <> 2 -> info_adkd (snd (tag_k s j)) = nth (j + o) ad 0)).
Proof.
  intros LA. induction n as [|n IH]; intros k K; cbn [maclt_loop].
  - exists true. split; [reflexivity|]. split; [intros _ j J; lia|reflexivity].
  - rewrite (nth_error_nth' md 0) by lia. rewrite (nth_error_nth' ad 0) by lia. cbn [bind].
    replace (k + o + 1)%nat with (k + 1 + o)%nat by lia.
    destruct (IH (k + 1)%nat ltac:(lia)) as (b & E & Q). rewrite E. clear IH E.
    set (m := nth (k + 1 + o) md 0) in *. set (ai := nth (k + 1 + o) ad 0) in *. set (i := snd (tag_k s (k + 1))) in *.
    assert (SS : (forall j, (k < j <= k + S n)%nat -> (nth (j + o) md 0 = 1 -> info_prn (snd (tag_k s j)) = a) /\ (nth (j + o) md 0 <> 2 -> info_adkd (snd (tag_k s j)) = nth (j + o) ad 0)) <->
       ((m = 1 -> info_prn i = a) /\ (m <> 2 -> info_adkd i = ai)) /\ b = true).
    { rewrite Q. split; [intros X; split; [apply (X (k + 1)%nat); lia|intros j J; apply X; lia]|].
      intros (X & Y) j J. destruct (Nat.eq_dec j (k + 1)) as [->|]; [exact X|apply Y; lia]. }
    assert (R : forall x, (exists c, x = Some c /\ (c = true <-> ((m = 1 -> info_prn i = a) /\ (m <> 2 -> info_adkd i = ai)) /\ b = true)) ->
       exists c, x = Some c /\ (c = true <-> (forall j, (k < j <= k + S n)%nat -> (nth (j + o) md 0 = 1 -> info_prn (snd (tag_k s j)) = a) /\ (nth (j + o) md 0 <> 2 -> info_adkd (snd (tag_k s j)) = nth (j + o) ad 0)))).
    { intros x (c & X & Y). exists c. split; [exact X|]. rewrite Y. symmetry. exact SS. }
    apply R. clear R SS Q. destruct (Z.eqb_spec m 1), (Z.eqb_spec (info_prn i) a), (Z.eqb_spec m 2), (Z.eqb_spec (info_adkd i) ai); cbn [andb negb bind];
      eexists; (split; [reflexivity|]); intuition (try discriminate; try congruence; try lia).
Qed.
Lemma maclt_iff a t s f1 f2 : 0 <= t < 4096 * 604800 -> lut (k_maclt (o_kp s)) = Some (f1, f2) -> o_nt s = 6 -> 0 <= k_ts (o_kp s) < 16 ->
  exists b, verify_maclt a (gst t) s = Some b /\
   (b = true <-> forall k, (1 <= k <= 5)%nat ->
      fits a (nth (k - 1) (if t mod 60 =? 0 then f1 else f2) (Flex, 0))
        (tag_prn (o_tag s) (tagbytes (k_ts (o_kp s))) k) (tag_adkd (o_tag s) (tagbytes (k_ts (o_kp s))) k)).
Proof.
  intros T H N TS. unfold verify_maclt. rewrite ofst_gst by exact T. rewrite N.
  assert (LB : Z.to_nat (tag_bytes s) = tagbytes (k_ts (o_kp s))) by (now apply tagbytes_ok).
  assert (M : k_maclt (o_kp s) = 27 \/ k_maclt (o_kp s) = 33 \/ k_maclt (o_kp s) = 34 \/ k_maclt (o_kp s) = 35).
  { unfold lut in H. destruct (k_maclt (o_kp s)) as [|q|q]; try discriminate H.
    do 6 (try (destruct q as [q|q|]; try discriminate H)); auto. }
  assert (exists md ad, mode_t (k_maclt (o_kp s)) = Some md /\ adkd_t (k_maclt (o_kp s)) = Some ad /\ length md = 12%nat /\ length ad = 12%nat /\
     forall k, (1 <= k <= 5)%nat -> forall prn adkd, fits a (nth (k - 1) (if t mod 60 =? 0 then f1 else f2) (Flex, 0)) prn adkd <->
       (nth (k + (if t mod 60 =? 0 then 0 else 6)) md 0 = 1 -> prn = a) /\ (nth (k + (if t mod 60 =? 0 then 0 else 6)) md 0 <> 2 -> adkd = nth (k + (if t mod 60 =? 0 then 0 else 6)) ad 0)) as (md & ad & -> & -> & L1 & L2 & F).
  { destruct M as [M|[M|[M|M]]]; rewrite M in H |- *; cbn [lut] in H; injection H as <- <-; cbn [mode_t adkd_t]; eexists; eexists;
      (split; [reflexivity|]; split; [reflexivity|]; split; [reflexivity|]; split; [reflexivity|]); intros k K prn adkd;
      assert (D : (k = 1 \/ k = 2 \/ k = 3 \/ k = 4 \/ k = 5)%nat) by lia; destruct (t mod 60 =? 0); destruct D as [->|[->|[->|[->| ->]]]];
      cbn [nth Nat.sub Nat.add fits fst snd]; clear; intuition lia. }
  rewrite L2. cbn [Z.of_nat Pos.of_succ_nat Pos.succ Z.mul Pos.mul Z.eqb Pos.eqb negb Pos.add]. change (Z.to_nat (6 - 1)) with 5%nat.
  destruct (maclt_loop_spec s a md ad (if t mod 60 =? 0 then 0%nat else 6%nat) ltac:(lia) 5%nat 0%nat ltac:(destruct (t mod 60 =? 0); lia)) as (b & E & Q).
  exists b. split; [exact E|]. rewrite Q. cbn [Nat.add]. split; intros X k K.
  - apply (F k K). rewrite <- LB. rewrite <- (proj1 (info_tag s k)), <- (proj2 (info_tag s k)). apply X. lia.
  - specialize (X k ltac:(lia)). apply (F k ltac:(lia)) in X. rewrite <- LB in X. rewrite (proj1 (info_tag s k)), (proj2 (info_tag s k)). exact X.
Qed.
(** tables with four or five tags per subframe: nothing passes in the second subframe of a minute *)
Lemma maclt_never a t s : 0 <= t < 4096 * 604800 -> t mod 60 <> 0 -> k_maclt (o_kp s) = 31 \/ 36 <= k_maclt (o_kp s) <= 41 ->
  verify_maclt a (gst t) s <> Some true.
Proof.
  intros T NZ M. unfold verify_maclt. rewrite ofst_gst by exact T. destruct (Z.eqb_spec (t mod 60) 0) as [|_]; [lia|].
  assert (D : k_maclt (o_kp s) = 31 \/ k_maclt (o_kp s) = 36 \/ k_maclt (o_kp s) = 37 \/ k_maclt (o_kp s) = 38 \/ k_maclt (o_kp s) = 39 \/ k_maclt (o_kp s) = 40 \/ k_maclt (o_kp s) = 41) by lia.
  assert (K : forall md ad nt, (length md <= nt * 2)%nat -> (length md <= 10)%nat -> (4 <= nt <= 5)%nat ->
     forall n k, (k + n = nt - 1)%nat -> (1 <= n)%nat -> maclt_loop s a md ad 6 n k <> Some true).
  { intros md ad nt LM LM2 NT. induction n as [|n IH]; intros k KN N; [lia|]. cbn [maclt_loop].
    destruct (nth_error md (k + 6 + 1)) as [x|] eqn:E; [|discriminate]. cbn [bind].
    match goal with |- (if ?c then _ else _) <> _ => destruct c end; [discriminate|].
    match goal with |- (do r <- ?c; _) <> _ => destruct c as [[|]|] end; cbn [bind negb]; try discriminate.
    destruct (Nat.eq_dec n 0) as [->|N0].
    - exfalso. assert (k + 6 + 1 < length md)%nat by (apply nth_error_Some; congruence). lia.
    - apply IH; lia. }
  destruct D as [D|[D|[D|[D|[D|[D|D]]]]]]; rewrite D; cbn [mode_t adkd_t];
    match goal with |- context [Z.of_nat (length ?l)] => change (Z.of_nat (length l)) with (Z.of_nat (length l)); destruct (Z.eqb_spec (o_nt s * 2) (Z.of_nat (length l))) as [E|E] end;
    cbn [negb]; try discriminate; cbn [length Z.of_nat Pos.of_succ_nat Pos.succ] in E.
  1,2,3,4: assert (ENT : o_nt s = 5) by lia; rewrite ENT; change (Z.to_nat (5 - 1)) with 4%nat; apply (K _ _ 5%nat); cbn; lia.
  all: assert (ENT : o_nt s = 4) by lia; rewrite ENT; change (Z.to_nat (4 - 1)) with 3%nat; apply (K _ _ 4%nat); cbn; lia.
Qed.
End L.
