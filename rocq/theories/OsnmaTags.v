From Verif Require Import BaseFacts BitProofs CssrFacts OsnmaModel OsnmaSpec OsnmaProofs.
From Coq Require Import ZifyBool ZifyNat.
Open Scope Z_scope.

Lemma zeros_app a b : zeros a ++ zeros b = zeros (a + b).
Proof. unfold zeros. now rewrite repeat_app. Qed.
Lemma zeros_len n : length (zeros n) = n.
Proof. apply repeat_length. Qed.
Lemma skipn_zeros a b : skipn a (zeros b) = zeros (b - a).
Proof. unfold zeros. revert b. induction a as [|a IH]; intros [|b]; cbn; auto. Qed.
Lemma splice_end a m w : (length w <= m)%nat -> splice (a ++ zeros m) (length a) w = a ++ w ++ zeros (m - length w).
Proof.
  intros H. unfold splice. rewrite firstn_app, firstn_all, Nat.sub_diag. cbn [firstn]. rewrite app_nil_r. f_equal. f_equal.
  rewrite skipn_app. rewrite skipn_all2 by lia. cbn [app]. rewrite skipn_zeros. f_equal. lia.
Qed.
Lemma slice_slice {A} (l : list A) a n b m : (b + m <= n)%nat -> slice (slice l a n) b m = slice l (a + b) m.
Proof.
  intros H. unfold slice. rewrite skipn_firstn_comm, skipn_skipn_add, firstn_firstn. f_equal. lia.
Qed.
Lemma slice_app_l {A} (a b : list A) i n : (i + n <= length a)%nat -> slice (a ++ b) i n = slice a i n.
Proof.
  intros H. unfold slice. rewrite skipn_app, firstn_app, skipn_length.
  replace (n - (length a - i))%nat with 0%nat by lia. cbn [firstn]. apply app_nil_r.
Qed.
Lemma slice_cat {A} (l : list A) i n m : slice l i n ++ slice l (i + n) m = slice l i (n + m).
Proof.
  unfold slice. rewrite <- (skipn_skipn_add l i n). generalize (skipn i l) as x. clear. intros x. revert n.
  induction x as [|a x IH]; intros [|n]; cbn; try reflexivity; [now rewrite firstn_nil|]. f_equal. apply IH.
Qed.
Lemma firstn_slice {A} (l : list A) i n m : firstn m (slice l i n) = slice l i (Nat.min m n).
Proof. unfold slice. apply firstn_firstn. Qed.
Lemma bitsof_slice l i n : (i + n <= length l)%nat -> bitsof n (bval (slice l i n)) = slice l i n.
Proof. intros H. rewrite <- (slice_length l i n H) at 1. apply bitsof_of_bval. Qed.

Lemma copy_end buf a m o n : (o + n <= length buf)%nat -> (n <= m)%nat ->
  copy_buff buf (a ++ zeros m) o (length a) n = Some (a ++ slice buf o n ++ zeros (m - n)).
Proof.
  intros H1 H2. destruct (copy_buff_fits buf (a ++ zeros m) o (length a) n H1) as (d & E & K).
  { rewrite app_length, zeros_len. lia. }
  rewrite E. f_equal. eapply copied_ext; [exact K|].
  assert (L : length (slice buf o n) = n) by (now apply slice_length).
  split.
  - rewrite !app_length, !zeros_len, L. lia.
  - intros k. destruct (Nat.leb_spec (length a) k) as [Q|Q]; cbn [andb].
    + rewrite !(app_nth2 a) by lia. destruct (Nat.ltb_spec k (length a + n)).
      * rewrite app_nth1 by lia. now rewrite nth_slice by lia.
      * rewrite app_nth2 by lia. unfold zeros.
        assert (Z : forall x y, nth x (repeat false y) false = false).
        { intros x y. destruct (nth_in_or_default x (repeat false y) false) as [I|I]; [now apply repeat_spec in I|exact I]. }
        now rewrite !Z.
    + now rewrite !app_nth1 by lia.
Qed.
Lemma copies_end buf : forall l a m, Forall (fun p => fst p + snd p <= length buf)%nat l -> (fold_right (fun p x => snd p + x) 0 l <= m)%nat ->
  copies buf l (length a) (a ++ zeros m) =
  Some (a ++ concat (map (fun p => slice buf (fst p) (snd p)) l) ++ zeros (m - fold_right (fun p x => snd p + x)%nat 0%nat l)).
Proof.
  induction l as [|[o n] l IH]; intros a m H1 H2; cbn [copies fold_right map concat app fst snd] in *.
  - now rewrite Nat.sub_0_r.
  - apply Forall_cons_iff in H1. destruct H1 as [H0 H1]. cbn [fst snd] in H0.
    rewrite copy_end by lia. cbn [bind].
    assert (L : length (slice buf o n) = n) by (now apply slice_length).
    replace (length a + n)%nat with (length (a ++ slice buf o n)) by (rewrite app_length; lia).
    rewrite app_assoc, IH by (try assumption; lia). rewrite <- !app_assoc. f_equal. f_equal. f_equal. f_equal. f_equal. lia.
Qed.

Section T.
Variable C : crypto.
Implicit Types s : ost C.

(** word [j] of a subframe buffer *)
Definition wd (buf : bits) (j : Z) : bits := slice buf (128 * Z.to_nat (j - 1)) 128.

Lemma wd_slice buf k o n : (o + n <= 128)%nat -> slice (wd buf (Z.of_nat k + 1)) o n = slice buf (o + k * 128) n.
Proof. intros H. unfold wd. rewrite slice_slice by lia. f_equal. lia. Qed.

Lemma bits_same a b : length a = length b -> (bval a =? bval b) = true <-> a = b.
Proof.
  intros L. rewrite Z.eqb_eq. split; [now apply bval_inj|congruence].
Qed.

Lemma inav_spec prn s r : gen_gal_inavmsg prn s = Some (Some r) ->
  (forall e, zget prn (o_nav s) = Some e -> length (n_c e) = 1280%nat) ->
  1 <= prn <= 36 /\ exists e, zget prn (o_nav s) = Some e /\ words_ok (wd (n_c e)) /\ r = nav_data (wd (n_c e)) ++ zeros 3 /\
    length (nav_data (wd (n_c e))) = 549%nat.
Proof.
  unfold gen_gal_inavmsg. intros H L. destruct (_ || _) eqn:B; [discriminate|]. split; [lia|].
  destruct (zget prn (o_nav s)) as [e|] eqn:E; [|discriminate]. specialize (L e eq_refl). exists e. split; [reflexivity|].
  cbv zeta in H. cbn [forallb] in H.
  destruct (_ && (_ && (_ && (_ && (_ && true))))) eqn:T in H; [|discriminate].
  destruct (_ && (_ && (_ && true))) eqn:I in H; [|discriminate].
  set (buf := n_c e) in *.
  pose proof (copies_end buf [(6, 120); (134, 120); (262, 122); (390, 120); (518, 67)]%nat [] 552) as K.
  change ([] ++ zeros 552) with (zeros 552) in K. change (length (@nil bool)) with 0%nat in K. rewrite K in H; clear K.
  2:{ repeat (apply Forall_cons; [cbn [fst snd]; lia|]). apply Forall_nil. }
  2:{ cbn [fold_right fst snd]. lia. }
  cbn [option_map] in H. apply some_inj in H. apply some_inj in H. subst r.
  cbn [map concat fst snd fold_right app]. rewrite app_nil_r.
  assert (D : nav_data (wd buf) = slice buf 6 120 ++ slice buf 134 120 ++ slice buf 262 122 ++ slice buf 390 120 ++ slice buf 518 67).
  { unfold nav_data. change 1 with (Z.of_nat 0 + 1). change 2 with (Z.of_nat 1 + 1). change 3 with (Z.of_nat 2 + 1). change 4 with (Z.of_nat 3 + 1).
    change 5 with (Z.of_nat 4 + 1). rewrite !wd_slice by lia. reflexivity. }
  split.
  - split.
    + intros j Hj. assert (Q : j = 1 \/ j = 2 \/ j = 3 \/ j = 4 \/ j = 5) by lia.
      unfold wd. rewrite slice_slice by lia.
      destruct Q as [->|[->|[->|[->| ->]]]]; cbn [Nat.mul Nat.add] in T;
      rewrite ?andb_true_iff, ?Z.eqb_eq in T; destruct T as (T0 & T1 & T2 & T3 & T4 & _); assumption.
    + intros j Hj. assert (Q : j = 2 \/ j = 3 \/ j = 4) by lia. unfold wd. rewrite !slice_slice by lia.
      rewrite ?andb_true_iff, ?Z.eqb_eq in I. destruct I as (T0 & T1 & T2 & _).
      apply bval_inj; [rewrite !slice_length by (destruct Q as [->|[->| ->]]; lia); reflexivity|].
      destruct Q as [->|[->| ->]]; assumption.
  - rewrite D. split.
    + rewrite <- !app_assoc. reflexivity.
    + rewrite !app_length, !slice_length by lia. reflexivity.
Qed.

(* ---------- gen_msg ---------- *)
Lemma put_u_end n v a m r : put_u n v (a ++ zeros m, length a) = Some r -> (n <= m)%nat /\ 0 <= v < 2 ^ Z.of_nat n /\
  r = ((a ++ bitsof n v) ++ zeros (m - n), length (a ++ bitsof n v)).
Proof.
  unfold put_u. cbn [fst snd]. destruct (putu _ _ _ _) as [x|] eqn:E; [|discriminate]. cbn [bind]. intros H. apply some_inj in H. subst r.
  apply putu_some in E. destruct E as (L & R & ->). rewrite app_length, zeros_len in L.
  split; [lia|]. split; [exact R|]. rewrite splice_end by (rewrite bitsof_length; lia). rewrite app_length, bitsof_length, <- app_assoc. reflexivity.
Qed.
Lemma put_u_ok n v a m : (n <= m)%nat -> 0 <= v < 2 ^ Z.of_nat n ->
  put_u n v (a ++ zeros m, length a) = Some ((a ++ bitsof n v) ++ zeros (m - n), length (a ++ bitsof n v)).
Proof.
  intros H R. unfold put_u. cbn [fst snd].
  rewrite (proj2 (putu_some (a ++ zeros m) (length a) n v (splice (a ++ zeros m) (length a) (bitsof n v)))).
  2:{ rewrite app_length, zeros_len. split; [lia|]. split; [exact R|reflexivity]. }
  cbn [bind]. rewrite splice_end by (rewrite bitsof_length; lia). rewrite app_length, bitsof_length, <- app_assoc. reflexivity.
Qed.
Lemma put_raw_ok w a m : (length w <= m)%nat -> put_raw w (a ++ zeros m, length a) = Some ((a ++ w) ++ zeros (m - length w), length (a ++ w)).
Proof.
  intros H. unfold put_raw. rewrite app_length, zeros_len. destruct (Nat.leb_spec (length a + length w) (length a + m)); [|lia].
  rewrite splice_end by assumption. rewrite app_length, <- app_assoc. reflexivity.
Qed.
Lemma high_bits l n : (n <= length l)%nat -> bitsof n (Z.shiftr (bval l) (Z.of_nat (length l - n))) = firstn n l.
Proof.
  intros H. rewrite <- (firstn_skipn n l) at 1. rewrite bval_app, skipn_length.
  rewrite Z.shiftr_div_pow2 by lia.
  pose proof (bval_bound (skipn n l)) as B. rewrite skipn_length in B. pose proof (pow2_pos (length l - n)) as P.
  rewrite Z.div_add_l by lia. rewrite Z.div_small by assumption. rewrite Z.add_0_r.
  rewrite <- (firstn_length_le l H) at 1. apply bitsof_of_bval.
Qed.
Lemma high_bound l n : (n <= length l)%nat -> 0 <= Z.shiftr (bval l) (Z.of_nat (length l - n)) < 2 ^ Z.of_nat n.
Proof.
  intros H. assert (E : bval l = bval (firstn n l) * 2 ^ Z.of_nat (length l - n) + bval (skipn n l)).
  { rewrite <- (firstn_skipn n l) at 1. rewrite bval_app, skipn_length. reflexivity. }
  rewrite E, Z.shiftr_div_pow2 by lia.
  pose proof (bval_bound (skipn n l)) as B. rewrite skipn_length in B. pose proof (pow2_pos (length l - n)) as P.
  rewrite Z.div_add_l by lia. rewrite Z.div_small by assumption. rewrite Z.add_0_r.
  pose proof (bval_bound (firstn n l)) as Q. rewrite firstn_length_le in Q by assumption. exact Q.
Qed.
Lemma put_bytes_ok msg : forall n k a m, (8 * (k + n) <= length msg)%nat -> (8 * n <= m + 3)%nat -> (n <> 0)%nat ->
  put_bytes msg 5 n k (a ++ zeros m, length a) =
  Some ((a ++ slice msg (8 * k) (8 * n - 3)) ++ zeros (m - (8 * n - 3)), length (a ++ slice msg (8 * k) (8 * n - 3))).
Proof.
  induction n as [|n IH]; intros k a m L M N; [lia|]. clear N. cbn [put_bytes].
  assert (L8 : length (bytes msg k (k + 1)) = 8%nat) by (unfold bytes; rewrite slice_length; lia).
  destruct n as [|n].
  - clear IH. cbn [Nat.eqb negb andb]. change (8 - 5)%nat with 3%nat.
    pose proof (high_bound (bytes msg k (k + 1)) 5 ltac:(lia)) as HB. pose proof (high_bits (bytes msg k (k + 1)) 5 ltac:(lia)) as HE.
    rewrite L8 in HB, HE. change (8 - 5)%nat with 3%nat in HB, HE.
    rewrite put_u_ok; [|lia|exact HB]. cbn [bind].
    rewrite HE. unfold bytes. replace (8 * (k + 1 - k))%nat with 8%nat by lia.
    rewrite firstn_slice. reflexivity.
  - change (S (S n) =? 1)%nat with false. rewrite andb_false_r.
    assert (E8 : bitsof 8 (bval (bytes msg k (k + 1))) = slice msg (8 * k) 8).
    { unfold bytes. replace (8 * (k + 1 - k))%nat with 8%nat by lia. apply bitsof_slice. lia. }
    rewrite put_u_ok; [|lia|].
    2:{ pose proof (bval_bound (bytes msg k (k + 1))) as Q. now rewrite L8 in Q. }
    cbn [bind]. rewrite E8, IH by lia. clear IH.
    assert (X : slice msg (8 * k) (8 * S (S n) - 3) = slice msg (8 * k) 8 ++ slice msg (8 * (k + 1)) (8 * S n - 3)).
    { replace (8 * (k + 1))%nat with (8 * k + 8)%nat by lia. rewrite slice_cat. f_equal. lia. }
    rewrite X, !app_assoc. replace (m - 8 - (8 * S n - 3))%nat with (m - (8 * S (S n) - 3))%nat by lia. reflexivity.
Qed.

Lemma gen_msg_nav d a w x ctr data s m : gen_msg 0 d a (gst (604800 * w + x)) ctr (data ++ zeros 3) s = Some m ->
  1 <= d <= 36 -> length data = 549%nat -> length (o_hdr s) = 8%nat -> 
  m = auth_msg d a (604800 * w + x) ctr (firstn 2 (o_hdr s)) data.
Proof.
  intros H D L Hh. unfold gen_msg in H. change (0 =? 4) with false in H. cbv iota in H. change (549 - 549 / 8 * 8)%nat with 5%nat in H.
  change (0 =? 0) with true in H. cbn [andb] in H. cbv zeta in H.
  change (8 * ((549 + 50 + 7) / 8))%nat with 600%nat in H. change (8 * ((549 + 58 + 7) / 8))%nat with 608%nat in H.
  assert (Q : exists pre mm, pre = (if d =? a then [] else bitsof 8 d) ++ bitsof 8 a /\ (length pre + mm = length pre + 592)%nat /\
     (do mj <- put_raw (gst (604800 * w + x)) (pre ++ zeros mm, length pre);
      do mj <- put_u 8 ctr mj; do mj <- put_u 2 (Z.shiftr (bval (o_hdr s)) 6) mj;
      do mj <- put_bytes (data ++ zeros 3) 5 (length (data ++ zeros 3) / 8) 0 mj; Some (fst mj)) = Some m).
  { rewrite (Z.eqb_sym a d) in H. destruct (d =? a).
    - destruct (put_u 8 a _) as [mj|] eqn:E1 in H; [|discriminate]. cbn [bind] in H.
      apply (put_u_end 8 a [] 600 mj) in E1. destruct E1 as (_ & _ & ->). exists (bitsof 8 a), 592%nat.
      split; [reflexivity|]. split; [reflexivity|]. exact H.
    - destruct (Z.eqb_spec d 255) as [|_]; [lia|].
      destruct (put_u 8 d _) as [mj|] eqn:E1 in H; [|discriminate]. cbn [bind] in H.
      apply (put_u_end 8 d [] 608 mj) in E1. destruct E1 as (_ & _ & ->).
      destruct (put_u 8 a _) as [mj|] eqn:E1 in H; [|discriminate]. cbn [bind] in H.
      apply put_u_end in E1. destruct E1 as (_ & _ & ->). exists (bitsof 8 d ++ bitsof 8 a), 592%nat.
      split; [reflexivity|]. split; [reflexivity|]. exact H. }
  clear H. destruct Q as (pre & mm & Ep & Lm & H). assert (mm = 592%nat) by lia. subst mm. clear Lm.
  assert (Lg : length (gst (604800 * w + x)) = 32%nat) by (unfold gst; rewrite app_length, !bitsof_length; reflexivity).
  rewrite put_raw_ok in H by lia. cbn [bind] in H. rewrite Lg in H.
  destruct (put_u 8 ctr _) as [mj|] eqn:E1 in H; [|discriminate]. cbn [bind] in H. apply put_u_end in E1. destruct E1 as (_ & _ & ->).
  replace 6 with (Z.of_nat (length (o_hdr s) - 2)) in H by lia.
  rewrite put_u_ok in H; [|lia|apply high_bound; lia]. cbn [bind] in H. rewrite high_bits in H by lia.
  assert (Ld : length (data ++ zeros 3) = 552%nat) by (rewrite app_length, zeros_len; lia). rewrite Ld in H.
  change (552 / 8)%nat with 69%nat in H. rewrite put_bytes_ok in H by lia. cbn [bind fst] in H. apply some_inj in H. subst m.
  assert (Ds : slice (data ++ zeros 3) (8 * 0) (8 * 69 - 3) = data).
  { rewrite slice_app_l by lia. unfold slice. cbn [Nat.mul skipn]. apply firstn_all2. lia. }
  rewrite Ds. change (592 - 32 - 8 - 2 - (8 * 69 - 3))%nat with 1%nat. change (zeros 1) with [false].
  unfold auth_msg. rewrite Ep, <- !app_assoc. reflexivity.
Qed.

Lemma gst_pack_gst w x g : gst_pack w x = Some g -> x < 604800 -> 0 <= w < 4096 /\ 0 <= x /\ g = gst (604800 * w + x).
Proof.
  unfold gst_pack. intros H X. destruct (_ && _) eqn:B; [|discriminate]. apply some_inj in H. subst g.
  split; [lia|]. split; [lia|]. unfold gst. 
  rewrite <- (Z.div_unique (604800 * w + x) 604800 w x), <- (Z.mod_unique (604800 * w + x) 604800 w x) by lia. reflexivity.
Qed.
End T.
