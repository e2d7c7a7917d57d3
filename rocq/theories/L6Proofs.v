(** The L6 frame buffer over arbitrary message histories. *)
From Verif Require Import Base BaseFacts BitModel BitProofs L6Model L6Spec.
From Coq Require Import ZifyBool ZifyNat.
Open Scope Z_scope.

(* ---------- copying with the destination left behind ---------- *)
Lemma copy_words_mfor src w os od n : forall k dst,
  match mfor n k (copy_step src w os od) dst with
  | Some d => copy_words src w os od (seq k n) dst = (d, true)
  | None => snd (copy_words src w os od (seq k n) dst) = false
  end.
Proof.
  induction n as [|n IH]; intros k dst; cbn; [reflexivity|].
  destruct (copy_step src w os od k dst) as [d|]; cbn; [apply IH|reflexivity].
Qed.

Lemma copy_buff_st_some src dst os od n :
  match copy_buff src dst os od n with
  | Some d => copy_buff_st src dst os od n = (d, true)
  | None => snd (copy_buff_st src dst os od n) = false
  end.
Proof.
  unfold copy_buff, copy_buff_st.
  pose proof (copy_words_mfor src 32 os od (n / 32) 0 dst) as H.
  destruct (mfor (n / 32) 0 (copy_step src 32 os od) dst) as [d|]; cbn [bind].
  - rewrite H. destruct (0 <? n - n / 32 * 32)%nat; [|reflexivity]. cbn.
    destruct (copy_step _ _ _ _ _ d); reflexivity.
  - destruct (copy_words src 32 os od (seq 0 (n / 32)) dst) as [d b]. cbn in H. subst b. reflexivity.
Qed.

Lemma firstn_splice {A} (l : list A) off w k :
  (off + length w <= length l)%nat -> (k <= off)%nat -> firstn k (splice l off w) = firstn k l.
Proof.
  intros H Hk. unfold splice. rewrite firstn_app, firstn_firstn, firstn_length.
  rewrite (Nat.min_l k off), (Nat.min_l off (length l)) by lia.
  replace (k - off)%nat with 0%nat by lia. cbn. apply app_nil_r.
Qed.

Lemma copy_step_keeps src w os od k dst d :
  copy_step src w os od k dst = Some d -> length d = length dst /\ forall n, (n <= od)%nat -> firstn n d = firstn n dst.
Proof.
  unfold copy_step. intros H. apply bind_some in H. destruct H as (v & _ & H).
  apply putu_some in H. destruct H as (E & _ & ->).
  pose proof (bitsof_length w v) as Hl.
  split; [apply splice_length; rewrite Hl; lia|].
  intros n Hn. apply firstn_splice; [rewrite Hl; lia|lia].
Qed.

Lemma copy_words_keeps src w os od ks : forall dst,
  length (fst (copy_words src w os od ks dst)) = length dst /\
  forall n, (n <= od)%nat -> firstn n (fst (copy_words src w os od ks dst)) = firstn n dst.
Proof.
  induction ks as [|k ks IH]; intros dst; cbn; [auto|].
  destruct (copy_step src w os od k dst) as [d|] eqn:E; [|auto].
  destruct (copy_step_keeps _ _ _ _ _ _ _ E) as [L F]. destruct (IH d) as [L' F'].
  split; [congruence|]. intros n Hn. rewrite F', F; auto.
Qed.

Lemma copy_buff_st_keeps src dst os od n :
  length (fst (copy_buff_st src dst os od n)) = length dst /\
  forall j, (j <= od)%nat -> firstn j (fst (copy_buff_st src dst os od n)) = firstn j dst.
Proof.
  unfold copy_buff_st.
  destruct (copy_words_keeps src 32 os od (seq 0 (n / 32)) dst) as [L F].
  destruct (copy_words src 32 os od (seq 0 (n / 32)) dst) as [d b]. cbn in L, F.
  destruct b; [|cbn; auto].
  destruct (0 <? n - n / 32 * 32)%nat; [|cbn; auto].
  destruct (copy_words_keeps src (n - n / 32 * 32) os od [(n / 32)%nat] d) as [L' F'].
  split; [congruence|]. intros j Hj. rewrite F', F; auto.
Qed.

Lemma copied_splice src dst d os od n :
  (os + n <= length src)%nat -> (od + n <= length dst)%nat ->
  copied src dst d os od n -> d = splice dst od (slice src os n).
Proof.
  intros Hs Hd [L H]. pose proof (slice_length src os n Hs) as Hl.
  apply (nth_list_eq false); [rewrite splice_length; [auto|lia]|].
  intros k _. rewrite H, nth_splice by lia. rewrite Hl.
  destruct (Nat.leb_spec od k); cbn [andb]; [|reflexivity].
  destruct (Nat.ltb_spec k (od + n)); [|reflexivity].
  rewrite nth_slice by lia. reflexivity.
Qed.

Lemma copy_buff_st_fits src dst os od n :
  (os + n <= length src)%nat -> (od + n <= length dst)%nat ->
  copy_buff_st src dst os od n = (splice dst od (slice src os n), true).
Proof.
  intros Hs Hd. pose proof (copy_buff_st_some src dst os od n) as H.
  destruct (copy_buff_fits src dst os od n) as (d & E & C); [lia..|].
  rewrite E in H. rewrite H. f_equal. eapply copied_splice; eauto.
Qed.

Lemma copy_buff_st_full src dst os od n :
  (0 < n)%nat -> (length dst < od + n)%nat -> snd (copy_buff_st src dst os od n) = false.
Proof.
  intros Hn Hd. pose proof (copy_buff_st_some src dst os od n) as H.
  destruct (copy_buff src dst os od n) as [d|] eqn:E; [|exact H].
  apply copy_buff_only_fits in E. lia.
Qed.

(* ---------- one message ---------- *)
Lemma u_at_range m i n : 0 <= u_at m i n < 2 ^ Z.of_nat n.
Proof.
  unfold u_at. pose proof (bval_bound (slice m i n)) as H.
  assert (length (slice m i n) <= n)%nat by (unfold slice; rewrite firstn_length; lia).
  split; [lia|]. eapply Z.lt_le_trans; [apply H|]. apply Z.pow_le_mono_r; lia.
Qed.

Lemma getu_u_at m i n : (i + n <= length m)%nat -> getu m i n = Some (u_at m i n).
Proof. intros H. unfold getu. rewrite (proj2 (Nat.leb_le _ _) H). reflexivity. Qed.

Definition l6_full : Z := 20000.
Definition part_len : nat := 1695.

Lemma h_fac_nonneg p : 0 <= h_fac p.
Proof.
  destruct p as [m o]. unfold h_fac.
  pose proof (u_at_range m (o * 8 + 43) 2).
  repeat match goal with |- context [if ?b then _ else _] => destruct b end; lia.
Qed.

Definition l6_fresh (p : bits * nat) (s : l6st) : l6st :=
  if h_start p then L6 (l_fac s) 0 (l_pat s) (l_sid s) l6_zero (Some (l_buf s)) else s.
Definition l6_cnt' (p : bits * nat) (s : l6st) : Z :=
  if (l_fac s >=? 0) && negb (h_fac p =? l_fac s) then -1 else l_cnt (l6_fresh p s).

Lemma decode_l6msg_eq m o s : h_wf (m, o) ->
  decode_l6msg m o s =
  if h_ok (m, o) then
    let s1 := l6_fresh (m, o) s in
    let c := l6_cnt' (m, o) s in
    let s2 := L6 (h_fac (m, o)) c (h_pt (m, o)) (u_at m (o * 8 + 47) 1) (l_buf s1) (l_bufp s1) in
    if c <? 0 then (s2, L6Skip)
    else let r := copy_buff_st m (l_buf s1) (o * 8 + 49) (1695 * Z.to_nat c) 1695 in
         (L6 (l_fac s2) (if snd r then c + 1 else c) (l_pat s2) (l_sid s2) (fst r) (l_bufp s2),
          if snd r then L6Ok else L6Exc)
  else (s, L6Skip).
Proof.
  intros [Hlen Hpt]. unfold decode_l6msg.
  rewrite !getu_u_at by lia.
  unfold h_ok. rewrite (proj2 (Nat.leb_le _ _) Hlen). cbn [andb].
  destruct (u_at m (o * 8) 32 =? 449838109) eqn:Ep; cbn [negb]; [|reflexivity].
  assert (HF : (if u_at m (o * 8 + 40) 3 =? 5 then facility_t (u_at m (o * 8 + 45) 2) (u_at m (o * 8 + 43) 2)
            else Some (u_at m (o * 8 + 43) 2)) = Some (h_fac (m, o))).
  { unfold h_fac. unfold h_vendor, h_pt in *.
    pose proof (u_at_range m (o * 8 + 45) 2) as R1. pose proof (u_at_range m (o * 8 + 43) 2) as R2.
    change (2 ^ Z.of_nat 2) with 4 in *.
    destruct (Z.eqb_spec (u_at m (o * 8 + 40) 3) 5) as [E5|]; [|reflexivity].
    specialize (Hpt E5).
    assert (C1 : u_at m (o * 8 + 45) 2 = 0 \/ u_at m (o * 8 + 45) 2 = 1) by lia.
    assert (C2 : u_at m (o * 8 + 43) 2 = 0 \/ u_at m (o * 8 + 43) 2 = 1 \/ u_at m (o * 8 + 43) 2 = 2 \/ u_at m (o * 8 + 43) 2 = 3) by lia.
    destruct C1 as [-> | ->], C2 as [-> | [-> | [-> | ->]]]; reflexivity. }
  change (if u_at m (o * 8 + 47) 1 =? 1
         then _ else s) with (l6_fresh (m, o) s).
  rewrite HF.
  replace (l_fac (l6_fresh (m, o) s)) with (l_fac s) by (unfold l6_fresh; destruct (h_start (m, o)); reflexivity).
  change (if (l_fac s >=? 0) && negb (h_fac (m, o) =? l_fac s) then -1 else l_cnt (l6_fresh (m, o) s)) with (l6_cnt' (m, o) s).
  cbn zeta. cbn [l_buf l_bufp l_cnt].
  destruct (l6_cnt' (m, o) s <? 0); [reflexivity|].
  destruct (copy_buff_st m _ _ _ _) as [b r]. destruct r; reflexivity.
Qed.

(* ---------- histories ---------- *)
Lemma run_l6_snoc h p : forall s, run_l6 (h ++ [p]) s = fst (decode_l6msg (fst p) (snd p) (run_l6 h s)).
Proof. induction h as [|[m o] h IH]; intros s; [destruct p; reflexivity|]. cbn. apply IH. Qed.


Lemma last_ok_snoc h p : last_ok (h ++ [p]) = if h_ok p then Some p else last_ok h.
Proof.
  unfold last_ok. rewrite filter_app. cbn. destruct (h_ok p); cbn.
  - rewrite map_app. cbn. apply last_last.
  - rewrite app_nil_r. reflexivity.
Qed.

(** a frame in progress: its start message and what came after it *)
Definition frame_at (h h1 : list (bits * nat)) (p : bits * nat) (h2 : list (bits * nat)) : Prop :=
  h = h1 ++ p :: h2 /\ h_ok p = true /\ h_start p = true /\
  (forall q, last_ok h1 = Some q -> h_fac q = h_fac p) /\
  (forall q, In q h2 -> h_ok q = true -> h_start q = false /\ h_fac q = h_fac p).

(** the first eleven valid messages: the 20000-bit buffer holds eleven parts *)
Definition frame_parts (p : bits * nat) (h2 : list (bits * nat)) : list (bits * nat) :=
  firstn 11 (filter h_ok (p :: h2)).

Definition l6_inv (h : list (bits * nat)) (s : l6st) : Prop :=
  length (l_buf s) = Z.to_nat 20000 /\
  l_fac s = match last_ok h with Some q => h_fac q | None => -1 end /\
  ((l_cnt s = -1 /\ forall h1 p h2, ~ frame_at h h1 p h2) \/
   exists h1 p h2, frame_at h h1 p h2 /\
     l_cnt s = Z.of_nat (length (frame_parts p h2)) /\
     firstn (1695 * length (frame_parts p h2)) (l_buf s) = concat (map h_data (frame_parts p h2))).

Lemma frame_at_facs h h1 p h2 : frame_at h h1 p h2 -> exists q, last_ok h = Some q /\ h_fac q = h_fac p.
Proof.
  intros (-> & Hp & Hs & _ & H2). unfold last_ok. rewrite filter_app. cbn. rewrite Hp.
  rewrite map_app. cbn [map].
  destruct (filter h_ok h2) as [|x l _] eqn:E using rev_ind.
  - exists p. cbn. rewrite last_last. auto.
  - exists x. split.
    + rewrite map_app. cbn. rewrite app_comm_cons, app_assoc, last_last. reflexivity.
    + assert (Hx : In x (filter h_ok h2)) by (rewrite E; apply in_or_app; right; left; reflexivity).
      apply filter_In in Hx. apply H2; tauto.
Qed.

Lemma frame_at_snoc h h1 p h2 q : frame_at h h1 p h2 ->
  (h_ok q = true -> h_start q = false /\ h_fac q = h_fac p) -> frame_at (h ++ [q]) h1 p (h2 ++ [q]).
Proof.
  intros (-> & Hp & Hs & H1 & H2) Hq. split; [|split; [|split; [|split]]]; auto.
  - rewrite <- app_assoc. reflexivity.
  - intros r Hr. apply in_app_or in Hr. destruct Hr as [Hr|[<-|[]]]; auto.
Qed.

Lemma frame_at_unsnoc h q h1 p h2 : frame_at (h ++ [q]) h1 p h2 ->
  (h2 = [] /\ h = h1 /\ q = p) \/
  (exists h2', h2 = h2' ++ [q] /\ frame_at h h1 p h2' /\ (h_ok q = true -> h_start q = false /\ h_fac q = h_fac p)).
Proof.
  intros (E & Hp & Hs & H1 & H2).
  destruct h2 as [|r h2' _] using rev_ind.
  - left. apply app_inj_tail in E. destruct E; subst; auto.
  - right. change (h1 ++ p :: h2' ++ [r]) with (h1 ++ (p :: h2') ++ [r]) in E.
    rewrite app_assoc in E. apply app_inj_tail in E. destruct E as [-> ->].
    exists h2'. split; [reflexivity|]. split.
    + split; [reflexivity|]. split; [auto|]. split; [auto|]. split; [auto|]. intros q0 Hq0 Ho; apply H2; auto; apply in_or_app; auto.
    + apply H2, in_or_app. right. left. reflexivity.
Qed.

Lemma firstn_app_le {A} (l l' : list A) n : (n <= length l)%nat -> firstn n (l ++ l') = firstn n l.
Proof. intros H. rewrite firstn_app. replace (n - length l)%nat with 0%nat by lia. cbn. apply app_nil_r. Qed.

Lemma frame_parts_snoc p h2 q :
  frame_parts p (h2 ++ [q]) =
  if h_ok q && (length (frame_parts p h2) <? 11)%nat then frame_parts p h2 ++ [q] else frame_parts p h2.
Proof.
  unfold frame_parts. change (p :: h2 ++ [q]) with ((p :: h2) ++ [q]). rewrite filter_app. cbn [filter].
  set (l := filter h_ok (p :: h2)). fold l. change (if h_ok p then p :: filter h_ok h2 else filter h_ok h2) with l.
  clearbody l. destruct (h_ok q); cbn [andb]; [|rewrite app_nil_r; reflexivity].
  rewrite firstn_length.
  destruct (Nat.ltb_spec (Nat.min 11 (length l)) 11).
  - rewrite (firstn_all2 l) by lia. apply firstn_all2. rewrite app_length. cbn [length]. lia.
  - apply firstn_app_le. lia.
Qed.

Lemma h_data_length p : h_wf p -> length (h_data p) = 1695%nat.
Proof. destruct p as [m o]. intros [H _]. apply slice_length. lia. Qed.

Lemma firstn_splice_all {A} (l : list A) off w : (off + length w <= length l)%nat ->
  firstn (off + length w) (splice l off w) = firstn off l ++ w.
Proof.
  intros H. unfold splice. rewrite app_assoc.
  rewrite firstn_app_le by (rewrite app_length, firstn_length; lia).
  apply firstn_all2. rewrite app_length, firstn_length. lia.
Qed.

Lemma l6_step h s p : l6_inv h s -> h_wf p -> l6_inv (h ++ [p]) (fst (decode_l6msg (fst p) (snd p) s)).
Proof.
  intros (Hb & Hf & Hc) Hw. destruct p as [m o]. cbn [fst snd].
  rewrite decode_l6msg_eq by exact Hw. unfold l6_inv. rewrite last_ok_snoc.
  set (p := (m, o)) in *.
  destruct (h_ok p) eqn:Hok.
  2:{ cbn [fst]. split; [exact Hb|]. split; [exact Hf|].
      destruct Hc as [[Hc Hn]|(h1 & p0 & h2 & Ha & Hc & Hd)].
      - left. split; [exact Hc|]. intros h1 p0 h2 Ha. pose proof Ha as (_ & Hp0 & _). apply frame_at_unsnoc in Ha.
        destruct Ha as [(-> & -> & <-)|(h2' & -> & Ha & _)]; [|eapply Hn; exact Ha].
        congruence.
      - right. exists h1, p0, (h2 ++ [p]). split; [apply frame_at_snoc; [exact Ha|congruence]|].
        rewrite frame_parts_snoc, Hok. auto. }
  cbn zeta. cbn [l_fac l_pat l_sid l_bufp].
  pose proof (h_fac_nonneg p) as Hfp.
  (* facility change *)
  destruct ((l_fac s >=? 0) && negb (h_fac p =? l_fac s)) eqn:Echg.
  { assert (Ec : l6_cnt' p s = -1) by (unfold l6_cnt'; rewrite Echg; reflexivity).
    rewrite Ec. cbn [fst l_buf l_fac l_cnt Z.ltb]. change (-1 <? 0) with true. cbn [fst l_buf l_fac l_cnt].
    split; [unfold l6_fresh; destruct (h_start p); [apply repeat_length|exact Hb]|].
    split; [reflexivity|]. left. split; [reflexivity|].
    assert (Hq : exists q, last_ok h = Some q /\ h_fac q <> h_fac p).
    { destruct (last_ok h) as [q|]; [|lia]. exists q. split; [reflexivity|lia]. }
    destruct Hq as (q & Eq & Hq).
    intros h1 p0 h2 Ha. pose proof Ha as Hcopy. apply frame_at_unsnoc in Ha.
    destruct Ha as [(-> & <- & <-)|(h2' & -> & Ha & Hx)].
    - destruct Hcopy as (_ & _ & _ & H1 & _). apply Hq, H1, Eq.
    - destruct (frame_at_facs _ _ _ _ Ha) as (q' & Eq' & Hq'). destruct (Hx Hok). congruence. }
  assert (Hsame : forall q, last_ok h = Some q -> h_fac q = h_fac p).
  { intros q Eq. rewrite Eq in Hf. pose proof (h_fac_nonneg q). lia. }
  assert (Ec : l6_cnt' p s = l_cnt (l6_fresh p s)) by (unfold l6_cnt'; rewrite Echg; reflexivity).
  rewrite Ec. unfold l6_fresh. pose proof (h_data_length p Hw) as Hdl.
  assert (Hlen : (o * 8 + 49 + 1695 <= length m)%nat) by (destruct Hw; lia).
  destruct (h_start p) eqn:Hst; cbn [l_cnt l_buf l_bufp].
  - (* a new frame *)
    change (0 <? 0) with false. cbn [fst l_buf l_fac l_cnt]. change (1695 * Z.to_nat 0)%nat with 0%nat.
    assert (Hz : length l6_zero = Z.to_nat 20000) by apply repeat_length.
    rewrite copy_buff_st_fits by (rewrite ?Hz; lia). cbn [fst snd].
    change (slice m (o * 8 + 49) 1695) with (h_data p).
    split; [rewrite splice_length; lia|]. split; [reflexivity|]. right.
    exists h, p, []. split.
    { split; [reflexivity|]. split; [auto|]. split; [auto|]. split; [auto|]. intros q []. }
    unfold frame_parts. cbn [filter]. rewrite Hok. cbn [firstn length map concat].
    split; [reflexivity|]. rewrite app_nil_r. rewrite <- (Nat.add_0_l (1695 * 1)), <- Hdl at 1.
    replace (0 + length (h_data p) * 1)%nat with (0 + length (h_data p))%nat by lia.
    rewrite firstn_splice_all by lia. reflexivity.
  - destruct Hc as [[Hc Hn]|(h1 & p0 & h2 & Ha & Hc & Hd)].
    + rewrite Hc. change (-1 <? 0) with true. cbn [fst l_buf l_fac l_cnt].
      split; [exact Hb|]. split; [reflexivity|]. left. split; [reflexivity|].
      intros h1 p0 h2 Ha. pose proof Ha as Ha'. apply frame_at_unsnoc in Ha.
      destruct Ha as [(-> & <- & <-)|(h2' & -> & Ha & Hx)]; [|eapply Hn; exact Ha].
      destruct Ha' as (_ & _ & Hs & _). congruence.
    + destruct (frame_at_facs _ _ _ _ Ha) as (q' & Eq' & Hq').
      pose proof (Hsame _ Eq') as Hqp.
      assert (Hfr : frame_at (h ++ [p]) h1 p0 (h2 ++ [p])) by (apply frame_at_snoc; [exact Ha|intros _; split; [auto|congruence]]).
      assert (Hn : (length (frame_parts p0 h2) <= 11)%nat) by (unfold frame_parts; apply firstn_le_length).
      rewrite Hc, Nat2Z.id. set (n := length (frame_parts p0 h2)) in *.
      destruct (Z.ltb_spec (Z.of_nat n) 0); [lia|]. cbn [fst l_buf l_fac l_cnt].
      destruct (Nat.ltb_spec n 11).
      * rewrite copy_buff_st_fits by lia. cbn [fst snd].
        change (slice m (o * 8 + 49) 1695) with (h_data p).
        split; [rewrite splice_length; lia|]. split; [reflexivity|]. right.
        exists h1, p0, (h2 ++ [p]). split; [exact Hfr|].
        assert (Ep : frame_parts p0 (h2 ++ [p]) = frame_parts p0 h2 ++ [p]).
        { rewrite frame_parts_snoc, Hok. fold n. destruct (Nat.ltb_spec n 11); [reflexivity|lia]. }
        rewrite Ep, app_length. fold n. cbn [length]. split; [lia|].
        replace (1695 * (n + 1))%nat with (1695 * n + length (h_data p))%nat by lia.
        rewrite firstn_splice_all by lia. rewrite Hd, map_app, concat_app. cbn. rewrite app_nil_r. reflexivity.
      * pose proof (copy_buff_st_full m (l_buf s) (o * 8 + 49) (1695 * n) 1695) as Hfull.
        rewrite Hfull by lia.
        destruct (copy_buff_st_keeps m (l_buf s) (o * 8 + 49) (1695 * n) 1695) as [Lk Fk].
        split; [congruence|]. split; [reflexivity|]. right.
        exists h1, p0, (h2 ++ [p]). split; [exact Hfr|].
        assert (Ep : frame_parts p0 (h2 ++ [p]) = frame_parts p0 h2).
        { rewrite frame_parts_snoc, Hok. fold n. destruct (Nat.ltb_spec n 11); [lia|reflexivity]. }
        rewrite Ep. fold n. split; [reflexivity|]. rewrite Fk by lia. exact Hd.
Qed.

Lemma l6_run_inv h : Forall h_wf h -> l6_inv h (run_l6 h l6_init).
Proof.
  induction h as [|p h IH] using rev_ind; intros Hw.
  - cbn. split; [apply repeat_length|]. split; [reflexivity|]. left. split; [reflexivity|].
    intros h1 p h2 (E & _). destruct h1; discriminate.
  - apply Forall_app in Hw. destruct Hw as [Hw Hp]. rewrite run_l6_snoc.
    apply l6_step; [auto|]. inversion Hp; auto.
Qed.

(* ---------- statements ---------- *)
Lemma l6_assembled h : Forall h_wf h -> let s := run_l6 h l6_init in
  0 < l_cnt s ->
  exists h1 p h2, h = h1 ++ p :: h2 /\ h_ok p = true /\ h_start p = true /\
    (forall q, In q h2 -> h_ok q = true -> h_start q = false /\ h_fac q = h_fac p) /\
    let parts := firstn 11 (filter h_ok (p :: h2)) in
    l_cnt s = Z.of_nat (length parts) /\
    firstn (1695 * length parts) (l_buf s) = concat (map h_data parts).
Proof.
  intros Hw s Hc. destruct (l6_run_inv h Hw) as (_ & _ & [[H _]|(h1 & p & h2 & (E & A & B & _ & D) & H)]).
  - subst s. lia.
  - exists h1, p, h2. split; [exact E|]. auto.
Qed.

Lemma l6_complete h1 p h2 : Forall h_wf (h1 ++ p :: h2) ->
  h_ok p = true -> h_start p = true ->
  (forall q, last_ok h1 = Some q -> h_fac q = h_fac p) ->
  (forall q, In q h2 -> h_ok q = true -> h_start q = false /\ h_fac q = h_fac p) ->
  let s := run_l6 (h1 ++ p :: h2) l6_init in
  let parts := firstn 11 (filter h_ok (p :: h2)) in
  l_cnt s = Z.of_nat (length parts) /\
  firstn (1695 * length parts) (l_buf s) = concat (map h_data parts).
Proof.
  intros Hw Hp Hs H1 H2 s parts.
  assert (Hf : frame_at (h1 ++ p :: h2) h1 p h2) by (split; [reflexivity|auto]).
  destruct (l6_run_inv _ Hw) as (_ & _ & [[_ H]|(h1' & p' & h2' & Hf' & Hc & Hd)]); [exfalso; eapply H; exact Hf|].
  assert (E : p' = p /\ h2' = h2).
  { clear - Hf Hf'. destruct Hf as (_ & Hp & Hs & H1 & H2), Hf' as (E & Hp' & Hs' & H1' & H2').
    assert (G : forall h1 h2 h1' h2' (p p' : bits * nat), h_ok p = true -> h_start p = true -> h_ok p' = true -> h_start p' = true ->
      (forall q, In q h2 -> h_ok q = true -> h_start q = false /\ h_fac q = h_fac p) ->
      (forall q, In q h2' -> h_ok q = true -> h_start q = false /\ h_fac q = h_fac p') ->
      h1 ++ p :: h2 = h1' ++ p' :: h2' -> p' = p /\ h2' = h2).
    { clear. induction h1 as [|a h1 IH]; intros h2 h1' h2' p p' A B C D F F' E; destruct h1' as [|a' h1']; cbn in E; injection E.
      - intros -> ->. auto.
      - intros E2 ->. exfalso. destruct (F p') as [X _]; [rewrite E2; apply in_or_app; right; left; reflexivity|auto|congruence].
      - intros E2 ->. exfalso. destruct (F' p) as [X _]; [rewrite <- E2; apply in_or_app; right; left; reflexivity|auto|congruence].
      - intros E2 _. eapply IH; eauto. }
    eapply G; eauto. }
  destruct E as [-> ->]. auto.
Qed.

Lemma l6_discard h a h2 b : Forall h_wf (h ++ a :: h2 ++ [b]) ->
  h_ok a = true -> h_ok b = true -> (forall q, In q h2 -> h_ok q = false) -> h_fac a <> h_fac b ->
  l_cnt (run_l6 (h ++ a :: h2 ++ [b]) l6_init) = -1.
Proof.
  intros Hw Ha Hb H2 Hab. replace (h ++ a :: h2 ++ [b]) with ((h ++ a :: h2) ++ [b]) in * by (rewrite <- app_assoc; reflexivity).
  destruct (l6_run_inv _ Hw) as (_ & _ & [[H _]|(h1' & p' & h2' & Hf & _)]); [exact H|].
  exfalso.
  assert (Hl : last_ok (h ++ a :: h2) = Some a).
  { unfold last_ok. rewrite filter_app. cbn. rewrite Ha.
    assert (E0 : filter h_ok h2 = []).
    { destruct (filter h_ok h2) as [|q l] eqn:E; [reflexivity|].
      assert (Hq : In q (filter h_ok h2)) by (rewrite E; left; reflexivity).
      apply filter_In in Hq. rewrite H2 in Hq by tauto. destruct Hq; discriminate. }
    rewrite E0, map_app. cbn. apply last_last. }
  pose proof Hf as Hf0. apply frame_at_unsnoc in Hf. destruct Hf as [(-> & <- & <-)|(h2'' & -> & Hf & Hx)].
  - destruct Hf0 as (_ & _ & _ & H1 & _). apply Hab, H1, Hl.
  - destruct (frame_at_facs _ _ _ _ Hf) as (q & Eq & Hq). destruct (Hx Hb). congruence.
Qed.

(** calls return normally until eleven parts are held *)
Lemma l6_returns h p : Forall h_wf h -> h_wf p -> l_cnt (run_l6 h l6_init) < 11 ->
  snd (decode_l6msg (fst p) (snd p) (run_l6 h l6_init)) <> L6Exc.
Proof.
  intros Hw Hp Hc. destruct (l6_run_inv h Hw) as (Hb & _ & _). set (s := run_l6 h l6_init) in *. clearbody s.
  destruct p as [m o]. cbn [fst snd]. rewrite decode_l6msg_eq by exact Hp.
  destruct (h_ok (m, o)); [|discriminate]. cbn zeta.
  assert (Hc' : l6_cnt' (m, o) s < 11).
  { unfold l6_cnt', l6_fresh. destruct (_ && _); [lia|]. destruct (h_start _); [cbn; lia|exact Hc]. }
  assert (Hb' : length (l_buf (l6_fresh (m, o) s)) = Z.to_nat 20000).
  { unfold l6_fresh. destruct (h_start _); [apply repeat_length|exact Hb]. }
  destruct (Z.ltb_spec (l6_cnt' (m, o) s) 0); [discriminate|].
  destruct Hp as [Hl _]. rewrite copy_buff_st_fits by lia. discriminate.
Qed.
