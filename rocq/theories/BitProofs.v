From Verif Require Import Base BaseFacts BitModel.
From Coq Require Import ZifyBool ZifyNat Sorted.
Open Scope Z_scope.

(* ================= copy_buff ================= *)
(** specification: destination after copying [n] bits *)
Definition copied (src dst dst' : bits) (os od n : nat) : Prop :=
  length dst' = length dst /\
  forall k, nth k dst' false =
    if (od <=? k)%nat && (k <? od + n)%nat then nth (os + (k - od)) src false else nth k dst false.

Lemma copy_step_some src w os od k dst :
  (k * 32 + os + w <= length src)%nat -> (k * 32 + od + w <= length dst)%nat ->
  exists dst', copy_step src w os od k dst = Some dst' /\
    copied src dst dst' (k * 32 + os) (k * 32 + od) w.
Proof.
  intros Hs Hd. unfold copy_step.
  destruct (getu_some src (k * 32 + os) w Hs) as [d Ed]. rewrite Ed. cbn [bind].
  pose proof (getu_range _ _ _ _ Ed) as Hr.
  assert (Hput : putu dst (k * 32 + od) w d = Some (splice dst (k * 32 + od) (bitsof w d))).
  { apply putu_some. auto. }
  exists (splice dst (k * 32 + od) (bitsof w d)). split; [exact Hput|].
  assert (Hb : bitsof w d = slice src (k * 32 + os) w).
  { unfold getu in Ed. destruct (Nat.leb_spec (k * 32 + os + w) (length src)); [|lia].
    injection Ed as <-. rewrite <- (slice_length src (k * 32 + os) w Hs) at 1. apply bitsof_of_bval. }
  pose proof (bitsof_length w d) as Hbl.
  split; [apply splice_length; rewrite Hbl; lia|].
  intros j. rewrite nth_splice by (rewrite Hbl; lia). rewrite Hbl.
  destruct (Nat.leb_spec (k * 32 + od) j); cbn [andb]; [|reflexivity].
  destruct (Nat.ltb_spec j (k * 32 + od + w)); [|reflexivity].
  rewrite Hb, nth_slice by lia. f_equal.
Qed.

Lemma copied_trans src d0 d1 d2 os od n m :
  copied src d0 d1 os od n -> copied src d1 d2 (os + n) (od + n) m -> copied src d0 d2 os od (n + m).
Proof.
  intros [L1 H1] [L2 H2]. split; [congruence|].
  intros k. rewrite H2, H1.
  destruct (Nat.leb_spec (od + n) k), (Nat.ltb_spec k (od + n + m)), (Nat.leb_spec od k),
    (Nat.ltb_spec k (od + n)), (Nat.ltb_spec k (od + (n + m))); cbn [andb]; try lia; try reflexivity.
  f_equal. lia.
Qed.

Lemma copied_0 src d os od : copied src d d os od 0.
Proof.
  split; [reflexivity|]. intros k.
  destruct (Nat.leb_spec od k), (Nat.ltb_spec k (od + 0)); cbn [andb]; try lia; reflexivity.
Qed.

Lemma copied_ext src d d1 d2 os od n : copied src d d1 os od n -> copied src d d2 os od n -> d1 = d2.
Proof.
  intros [L1 H1] [L2 H2]. apply (nth_list_eq false); [congruence|].
  intros k _. rewrite H1, H2. reflexivity.
Qed.

Lemma copy_chunks src os od dst : forall b,
  (b * 32 + os <= length src)%nat -> (b * 32 + od <= length dst)%nat ->
  exists dst', mfor b 0 (copy_step src 32 os od) dst = Some dst' /\ copied src dst dst' os od (b * 32).
Proof.
  intros b Hs Hd.
  destruct (mfor_inv (fun k d => copied src dst d os od (k * 32)) b 0 (copy_step src 32 os od) dst)
    as (d' & E & H).
  - apply copied_0.
  - intros j d Hj Hc. destruct (copy_step_some src 32 os od j d) as (d' & E & H); [lia| |].
    { rewrite (proj1 Hc). lia. }
    exists d'. split; [exact E|]. replace (S j * 32)%nat with (j * 32 + 32)%nat by lia.
    eapply copied_trans; [exact Hc|].
    now rewrite (Nat.add_comm os), (Nat.add_comm od).
  - exists d'. split; [exact E|exact H].
Qed.

Lemma copy_buff_fits src dst os od n :
  (os + n <= length src)%nat -> (od + n <= length dst)%nat ->
  exists dst', copy_buff src dst os od n = Some dst' /\ copied src dst dst' os od n.
Proof.
  intros Hs Hd. unfold copy_buff.
  pose proof (Nat.div_mod n 32 ltac:(discriminate)) as Hdm.
  pose proof (Nat.mod_upper_bound n 32 ltac:(discriminate)) as Hm.
  set (b := (n / 32)%nat) in *. set (r := (n mod 32)%nat) in *.
  replace (n - b * 32)%nat with r by lia.
  destruct (copy_chunks src os od dst b) as (d1 & E1 & H1); [lia|lia|].
  rewrite E1. cbn [bind].
  destruct (Nat.ltb_spec 0 r).
  - destruct (copy_step_some src r os od b d1) as (d2 & E2 & H2); [lia|rewrite (proj1 H1); lia|].
    exists d2. split; [exact E2|]. replace n with (b * 32 + r)%nat by lia.
    eapply copied_trans; [exact H1|]. now rewrite (Nat.add_comm os), (Nat.add_comm od).
  - exists d1. split; [reflexivity|]. replace n with (b * 32)%nat by lia. exact H1.
Qed.

Lemma copy_step_fits src w os od k dst dst' : copy_step src w os od k dst = Some dst' ->
  (k * 32 + os + w <= length src)%nat /\ (k * 32 + od + w <= length dst)%nat /\ length dst' = length dst.
Proof.
  unfold copy_step. intros H. apply bind_some in H. destruct H as (d & E & P).
  split.
  - destruct (Nat.le_gt_cases (k * 32 + os + w) (length src)) as [|L]; [assumption|].
    apply getu_none in L. congruence.
  - apply putu_some in P. destruct P as (L & _ & ->). split; [assumption|].
    apply splice_length. rewrite bitsof_length. lia.
Qed.

Lemma copy_chunks_fit src os od : forall b k dst dst',
  mfor b k (copy_step src 32 os od) dst = Some dst' -> (0 < b)%nat ->
  ((k + b) * 32 + os <= length src)%nat /\ ((k + b) * 32 + od <= length dst)%nat /\ length dst' = length dst.
Proof.
  induction b as [|b IH]; intros k dst dst' H Hb; [lia|].
  cbn [mfor] in H. apply bind_some in H. destruct H as (d1 & E1 & H).
  apply copy_step_fits in E1. destruct E1 as (A1 & A2 & A3).
  destruct b as [|b].
  - cbn in H. injection H as <-. lia.
  - apply IH in H; [|lia]. lia.
Qed.

Lemma copy_buff_only_fits src dst os od n dst' :
  copy_buff src dst os od n = Some dst' -> n = 0%nat \/
  (os + n <= length src)%nat /\ (od + n <= length dst)%nat.
Proof.
  unfold copy_buff. intros H. apply bind_some in H. destruct H as (d1 & E1 & H).
  pose proof (Nat.div_mod n 32 ltac:(discriminate)) as Hdm.
  pose proof (Nat.mod_upper_bound n 32 ltac:(discriminate)) as Hm.
  set (b := (n / 32)%nat) in *. set (r := (n mod 32)%nat) in *.
  replace (n - b * 32)%nat with r in H by lia.
  destruct (Nat.ltb_spec 0 r).
  - right. apply copy_step_fits in H. destruct b as [|b].
    + cbn in E1. injection E1 as <-. lia.
    + apply copy_chunks_fit in E1; [|lia]. lia.
  - destruct b as [|b]; [left; lia|]. right.
    apply copy_chunks_fit in E1; [|lia]. lia.
Qed.

(* ================= masks ================= *)
Definition mask_list (din : Z) (bitlen : nat) (ofst : Z) (ks : list nat) : list Z :=
  map (fun k => Z.of_nat k + ofst) (filter (fun k => Z.testbit din (Z.of_nat (bitlen - k - 1))) ks).

Lemma mask_fold din bitlen ofst ks : forall v n,
  fold_left (mask_step din bitlen ofst) ks (v, n)
  = (v ++ mask_list din bitlen ofst ks, n + Z.of_nat (length (mask_list din bitlen ofst ks))).
Proof.
  induction ks as [|k ks IH]; intros v n.
  - cbn. rewrite app_nil_r. f_equal; lia.
  - cbn [fold_left mask_step]. unfold mask_list. cbn [filter].
    destruct (Z.testbit din (Z.of_nat (bitlen - k - 1))); rewrite IH; unfold mask_list.
    + rewrite <- app_assoc. cbn [map length app]. f_equal. lia.
    + reflexivity.
Qed.

Lemma decode_mask_eq din n o :
  decode_mask din n o = (mask_list din n o (seq 0 n), Z.of_nat (length (mask_list din n o (seq 0 n)))).
Proof. unfold decode_mask. rewrite mask_fold. cbn. f_equal. Qed.

Lemma decode_mask_count din n o : snd (decode_mask din n o) = Z.of_nat (length (fst (decode_mask din n o))).
Proof. rewrite decode_mask_eq. reflexivity. Qed.

Lemma decode_mask_in din n o p :
  In p (fst (decode_mask din n o)) <->
  o <= p < o + Z.of_nat n /\ Z.testbit din (Z.of_nat n - 1 - (p - o)) = true.
Proof.
  rewrite decode_mask_eq. cbn [fst]. unfold mask_list. rewrite in_map_iff. split.
  - intros (k & <- & Hk). apply filter_In in Hk. destruct Hk as [Hk Ht].
    apply in_seq in Hk. split; [lia|].
    replace (Z.of_nat n - 1 - (Z.of_nat k + o - o)) with (Z.of_nat (n - k - 1)) by lia. exact Ht.
  - intros [Hp Ht]. exists (Z.to_nat (p - o)). split; [lia|].
    apply filter_In. split; [apply in_seq; lia|].
    replace (Z.of_nat (n - Z.to_nat (p - o) - 1)) with (Z.of_nat n - 1 - (p - o)) by lia. exact Ht.
Qed.

Lemma sorted_map_seq (f : nat -> bool) o : forall n a,
  StronglySorted Z.lt (map (fun k => Z.of_nat k + o) (filter f (seq a n))).
Proof.
  induction n as [|n IH]; intros a; cbn; [constructor|].
  destruct (f a); cbn; [|apply IH].
  constructor; [apply IH|]. rewrite Forall_forall. intros x Hx.
  apply in_map_iff in Hx. destruct Hx as (k & <- & Hk). apply filter_In in Hk.
  destruct Hk as [Hk _]. apply in_seq in Hk. lia.
Qed.

Lemma decode_mask_sorted din n o : StronglySorted Z.lt (fst (decode_mask din n o)).
Proof. rewrite decode_mask_eq. apply sorted_map_seq. Qed.

Lemma ssorted_ext (a b : list Z) : StronglySorted Z.lt a -> StronglySorted Z.lt b ->
  (forall x, In x a <-> In x b) -> a = b.
Proof.
  revert b; induction a as [|x a IH]; intros b Ha Hb Hi.
  - destruct b as [|y b]; [reflexivity|]. exfalso. apply (Hi y). now left.
  - destruct b as [|y b]; [exfalso; apply (Hi x); now left|].
    inversion Ha as [|? ? Ha1 Ha2]; subst. inversion Hb as [|? ? Hb1 Hb2]; subst.
    rewrite Forall_forall in Ha2, Hb2.
    assert (x = y).
    { destruct (proj1 (Hi x) (or_introl eq_refl)) as [|Hx]; [congruence|].
      destruct (proj2 (Hi y) (or_introl eq_refl)) as [|Hy]; [congruence|].
      apply Ha2 in Hy. apply Hb2 in Hx. lia. }
    subst y. f_equal. apply IH; auto. intros z. split; intros Hz.
    + destruct (proj1 (Hi z) (or_intror Hz)) as [<-|]; [|assumption]. apply Ha2 in Hz. lia.
    + destruct (proj2 (Hi z) (or_intror Hz)) as [<-|]; [|assumption]. apply Hb2 in Hz. lia.
Qed.

(** encoding *)
Lemma encode_mask_bits n o : forall v d,
  (forall p, In p v -> p < o + Z.of_nat n) ->
  exists d', encode_mask_aux v n o d = Some d' /\
    (forall j, 0 <= j -> Z.testbit d' j = Z.testbit d j || existsb (fun p => j =? Z.of_nat n - (p - o) - 1) v).
Proof.
  induction v as [|p v IH]; intros d Hv.
  - exists d. split; [reflexivity|]. intros j _. cbn. now rewrite orb_false_r.
  - cbn [encode_mask_aux]. pose proof (Hv p (or_introl eq_refl)).
    destruct (Z.ltb_spec (Z.of_nat n - (p - o) - 1) 0); [lia|].
    destruct (IH (Z.lor d (Z.shiftl 1 (Z.of_nat n - (p - o) - 1)))) as (d' & E & H').
    { intros q Hq. apply Hv. now right. }
    exists d'. split; [exact E|]. intros j Hj. rewrite H' by exact Hj.
    rewrite Z.lor_spec. cbn [existsb]. rewrite orb_assoc. f_equal. f_equal.
    rewrite Z.shiftl_spec by exact Hj.
    destruct (Z.eqb_spec j (Z.of_nat n - (p - o) - 1)) as [->|Hne].
    + rewrite Z.sub_diag. reflexivity.
    + change 1 with (2 ^ 0). destruct (Z.ltb_spec (j - (Z.of_nat n - (p - o) - 1)) 0).
      * apply Z.testbit_neg_r. lia.
      * apply Z.pow2_bits_false. lia.
Qed.

Lemma encode_mask_some v n o : (forall p, In p v -> p < o + Z.of_nat n) ->
  exists d, encode_mask v n o = Some d /\
    (forall j, 0 <= j -> Z.testbit d j = existsb (fun p => j =? Z.of_nat n - (p - o) - 1) v).
Proof.
  intros Hv. destruct (encode_mask_bits n o v 0 Hv) as (d & E & H).
  exists d. split; [exact E|]. intros j Hj. rewrite H by exact Hj. now rewrite Z.bits_0.
Qed.

Lemma encode_mask_error v n o p : In p v -> o + Z.of_nat n <= p -> encode_mask v n o = None.
Proof.
  unfold encode_mask. generalize 0 as d. induction v as [|q v IH]; intros d Hin Hp; [contradiction|].
  cbn [encode_mask_aux]. destruct (Z.ltb_spec (Z.of_nat n - (q - o) - 1) 0); [reflexivity|].
  destruct Hin as [->|Hin]; [lia|]. now apply IH.
Qed.

Lemma encode_mask_nonneg v n o d : encode_mask v n o = Some d -> 0 <= d.
Proof.
  unfold encode_mask. assert (G : forall v a d, 0 <= a -> encode_mask_aux v n o a = Some d -> 0 <= d).
  { clear. induction v as [|q v IH]; intros a d Ha H; cbn in H.
    - now injection H as <-.
    - destruct (Z.ltb_spec (Z.of_nat n - (q - o) - 1) 0); [discriminate|].
      apply IH in H; [exact H|]. apply Z.lor_nonneg. split; [exact Ha|].
      apply Z.shiftl_nonneg. lia. }
  apply G. lia.
Qed.

Lemma decode_encode_in v n o :
  (forall p, In p v -> o <= p < o + Z.of_nat n) ->
  exists d, encode_mask v n o = Some d /\ 0 <= d < 2 ^ Z.of_nat n /\
    (forall p, In p (fst (decode_mask d n o)) <-> In p v).
Proof.
  intros Hv. destruct (encode_mask_some v n o) as (d & E & H).
  { intros p Hp. apply Hv in Hp. lia. }
  exists d. split; [exact E|]. split.
  - pose proof (encode_mask_nonneg _ _ _ _ E) as H0. split; [exact H0|].
    destruct (Z.eq_dec d 0) as [->|Hd]; [apply pow2_pos|].
    apply Z.log2_lt_pow2; [lia|].
    pose proof (H (Z.log2 d) (Z.log2_nonneg d)) as Hl.
    rewrite Z.bit_log2 in Hl by lia. symmetry in Hl. apply existsb_exists in Hl.
    destruct Hl as (p & Hp & Hq). apply Hv in Hp. lia.
  - intros p. rewrite decode_mask_in. split.
    + intros [Hp Ht]. rewrite H in Ht by lia. apply existsb_exists in Ht.
      destruct Ht as (q & Hq & He). apply Z.eqb_eq in He.
      replace p with q by lia. exact Hq.
    + intros Hp. pose proof (Hv p Hp). split; [lia|]. rewrite H by lia.
      apply existsb_exists. exists p. split; [exact Hp|]. apply Z.eqb_eq. lia.
Qed.

Lemma decode_encode v n o :
  StronglySorted Z.lt v -> (forall p, In p v -> o <= p < o + Z.of_nat n) ->
  exists d, encode_mask v n o = Some d /\ 0 <= d < 2 ^ Z.of_nat n /\
    decode_mask d n o = (v, Z.of_nat (length v)).
Proof.
  intros Hs Hv. destruct (decode_encode_in v n o Hv) as (d & E & Hr & H).
  exists d. split; [exact E|]. split; [exact Hr|].
  assert (Hf : fst (decode_mask d n o) = v).
  { apply ssorted_ext; auto using decode_mask_sorted. }
  rewrite (surjective_pairing (decode_mask d n o)), decode_mask_count, Hf. reflexivity.
Qed.

Lemma encode_decode d n o : 0 <= d < 2 ^ Z.of_nat n ->
  encode_mask (fst (decode_mask d n o)) n o = Some d.
Proof.
  intros Hd. destruct (encode_mask_some (fst (decode_mask d n o)) n o) as (d' & E & H).
  { intros p Hp. apply decode_mask_in in Hp. lia. }
  rewrite E. f_equal. apply Z.bits_inj'. intros j Hj. rewrite H by exact Hj.
  destruct (Z.ltb_spec j (Z.of_nat n)).
  - destruct (Z.testbit d j) eqn:Ht.
    + apply existsb_exists. exists (o + (Z.of_nat n - 1 - j)). split; [|apply Z.eqb_eq; lia].
      apply decode_mask_in. split; [lia|].
      now replace (Z.of_nat n - 1 - (o + (Z.of_nat n - 1 - j) - o)) with j by lia.
    + apply not_true_is_false. intros He. apply existsb_exists in He.
      destruct He as (p & Hp & He). apply decode_mask_in in Hp. apply Z.eqb_eq in He.
      replace (Z.of_nat n - 1 - (p - o)) with j in Hp by lia. destruct Hp as [_ Hp]. congruence.
  - replace (Z.testbit d j) with false.
    + apply not_true_is_false. intros He. apply existsb_exists in He.
      destruct He as (p & Hp & He). apply decode_mask_in in Hp. apply Z.eqb_eq in He. lia.
    + symmetry. destruct (Z.eq_dec d 0) as [->|]; [apply Z.bits_0|].
      apply Z.bits_above_log2; [lia|].
      apply Z.lt_le_trans with (Z.of_nat n); [|lia]. apply Z.log2_lt_pow2; lia.
Qed.

Lemma isset_decode mask n k : (k < n)%nat ->
  isset mask n k = true <-> In (Z.of_nat k) (fst (decode_mask mask n 0)).
Proof.
  intros Hk. rewrite decode_mask_in. unfold isset.
  replace (Z.of_nat n - 1 - (Z.of_nat k - 0)) with (Z.of_nat (n - k - 1)) by lia.
  split; [intros ->; split; [lia|reflexivity] | tauto].
Qed.

(* ================= signed values ================= *)
(** [w] : raw bit pattern of width [n]; [reserved] : the patterns meaning "not available" *)
Definition sval_ok (sv : Z -> nat -> option Z) (reserved : nat -> Z -> bool) : Prop :=
  forall n w, (2 <= n)%nat -> 0 <= w < 2 ^ Z.of_nat n ->
    sv (sgn n w) n = (if reserved n w then None else Some (sgn n w)).

Lemma sval_gen (c : Z -> nat -> bool) reserved :
  (forall n w, (2 <= n)%nat -> 0 <= w < 2 ^ Z.of_nat n -> c (sgn n w) n = reserved n w) ->
  sval_ok (fun u n => if c u n then None else Some u) reserved.
Proof. intros H n w Hn Hw. cbn beta. now rewrite H. Qed.

Definition res_min (n : nat) (w : Z) : bool := w =? 2 ^ (Z.of_nat n - 1).        (* 100...0 *)
Definition res_max (n : nat) (w : Z) : bool := w =? 2 ^ (Z.of_nat n - 1) - 1.    (* 011...1 *)
Definition res_min1 (n : nat) (w : Z) : bool := w =? 2 ^ (Z.of_nat n - 1) + 1.   (* 100..01 *)

Lemma half_ge n : (2 <= n)%nat -> 2 <= 2 ^ (Z.of_nat n - 1).
Proof. intros H. change 2 with (2 ^ 1) at 1. apply Z.pow_le_mono_r; lia. Qed.

Ltac eqb_cases :=
  repeat match goal with |- context [ ?a <? ?b ] => destruct (Z.ltb_spec a b) end;
  repeat match goal with |- context [ ?a =? ?b ] => destruct (Z.eqb_spec a b) end;
  cbn [orb]; try lia; reflexivity.

Lemma sval_ok_cssr : sval_ok sval res_min.
Proof.
  intros n w Hn Hw. unfold sval, res_min, sgn. pose proof (pow2_half n ltac:(lia)). pose proof (half_ge n Hn).
  eqb_cases.
Qed.
Lemma sval_ok_has : sval_ok sval_has (fun n w => res_min n w || res_max n w).
Proof.
  intros n w Hn Hw. unfold sval_has, res_min, res_max, sgn. pose proof (pow2_half n ltac:(lia)). pose proof (half_ge n Hn).
  eqb_cases.
Qed.
Lemma sval_ok_bds : sval_ok sval_bds (fun n w => res_min n w || res_min1 n w).
Proof.
  intros n w Hn Hw. unfold sval_bds, res_min, res_min1, sgn. pose proof (pow2_half n ltac:(lia)). pose proof (half_ge n Hn).
  eqb_cases.
Qed.
Lemma sval_ok_sbas : sval_ok sval_sbas res_max.
Proof.
  intros n w Hn Hw. unfold sval_sbas, res_max, sgn. pose proof (pow2_half n ltac:(lia)). pose proof (half_ge n Hn).
  eqb_cases.
Qed.

Lemma sval_ok_inj sv reserved : sval_ok sv reserved ->
  forall n a b v, (2 <= n)%nat -> 0 <= a < 2 ^ Z.of_nat n -> 0 <= b < 2 ^ Z.of_nat n ->
  sv (sgn n a) n = Some v -> sv (sgn n b) n = Some v -> a = b.
Proof.
  intros H n a b v Hn Ha Hb. rewrite !H by assumption.
  destruct (reserved n a), (reserved n b); try discriminate.
  intros [= E1] [= E2]. apply (sgn_inj n); auto; [lia|congruence].
Qed.
