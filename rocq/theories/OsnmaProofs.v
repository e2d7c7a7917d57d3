From Verif Require Import BaseFacts BitProofs CssrFacts OsnmaModel OsnmaSpec.
From Coq Require Import ZifyBool ZifyNat.
Open Scope Z_scope.

Lemma beqb_eq a : forall b, beqb a b = true <-> a = b.
Proof.
  induction a as [|x a IH]; intros [|y b]; cbn; split; try discriminate; try reflexivity.
  - rewrite andb_true_iff, eqb_true_iff, IH. intros [-> ->]. reflexivity.
  - intros [= -> ->]. rewrite eqb_reflx. now apply IH.
Qed.
Lemma beqb_refl a : beqb a a = true.
Proof. now apply beqb_eq. Qed.
Lemma beqb_neq a b : beqb a b = false <-> a <> b.
Proof. rewrite <- not_true_iff_false, beqb_eq. reflexivity. Qed.
Lemma hf_okb hf : (hf =? 0) || (hf =? 2) = true <-> hf_ok hf.
Proof. unfold hf_ok. lia. Qed.
Lemma keylen_item ks : keylen ks = option_map Z.to_nat (item klen_t ks) /\ (forall lk, item klen_t ks = Some lk -> 0 <= lk).
Proof.
  unfold item, keylen. destruct (Z.ltb_spec ks 0) as [L|L].
  - split; [|discriminate]. destruct ks; try lia; reflexivity.
  - destruct (Z_le_gt_dec ks 8) as [L2|L2].
    + assert (D : ks = 0 \/ ks = 1 \/ ks = 2 \/ ks = 3 \/ ks = 4 \/ ks = 5 \/ ks = 6 \/ ks = 7 \/ ks = 8) by lia.
      do 8 (destruct D as [->|D]; [split; [reflexivity|intros lk H; vm_compute in H; injection H as <-; lia]|]).
      subst ks. split; [reflexivity|intros lk H; vm_compute in H; injection H as <-; lia].
    + assert (N : nth_error klen_t (Z.to_nat ks) = None) by (apply nth_error_None; cbn [klen_t List.length]; lia).
      rewrite N. split; [|discriminate]. destruct ks as [|p|p]; try lia. do 4 (try (destruct p as [p|p|]; try reflexivity; try lia)).
Qed.
Lemma item_klen ks lk : item klen_t ks = Some lk <-> keylen ks = Some (Z.to_nat lk) /\ 0 <= lk.
Proof.
  destruct (keylen_item ks) as [-> P]. split.
  - intros E. rewrite E. split; [reflexivity|now apply P].
  - intros [H L]. destruct (item klen_t ks) as [z|] eqn:E; [|discriminate]. specialize (P z eq_refl).
    apply (f_equal (option_map Z.of_nat)) in H. cbn [option_map] in H. rewrite !Z2Nat.id in H by assumption. congruence.
Qed.
Lemma keylen_8 ks lk : keylen ks = Some lk -> exists b, lk = (8 * b)%nat /\ (12 <= b <= 32)%nat.
Proof.
  unfold keylen. destruct ks as [|p|p]; try discriminate; [intros [= <-]; exists 12%nat; lia|].
  do 4 (try (destruct p as [p|p|]; try discriminate)); intros [= <-];
    first [exists 13%nat; lia | exists 14%nat; lia | exists 15%nat; lia | exists 16%nat; lia | exists 20%nat; lia | exists 24%nat; lia | exists 28%nat; lia | exists 32%nat; lia].
Qed.

Lemma some_inj {A} (a b : A) : Some a = Some b -> a = b.
Proof. congruence. Qed.

Section P.
Variable C : crypto.
Implicit Types s : ost C.

(** attributes that HKROOT processing leaves alone *)
Definition same_rest s s' : Prop :=
  o_key s' = o_key s /\ o_keyp s' = o_keyp s /\ o_keyc s' = o_keyc s /\ o_gstc s' = o_gstc s /\ o_buf s' = o_buf s /\
  o_nt s' = o_nt s /\ o_tag s' = o_tag s /\ o_nav s' = o_nav s /\ o_vst s' = o_vst s /\ o_root s' = o_root s /\ o_vmin s' = o_vmin s.
Definition same_flags s s' : Prop := t_rv (o_stat s') = t_rv (o_stat s) /\ t_kc (o_stat s') = t_kc (o_stat s).

Ltac inj H := injection H as <- <-.
Ltac brk H :=
  repeat match type of H with
  | (if ?b then _ else _) = _ => let E := fresh "E" in destruct b eqn:E
  | (match ?x with _ => _ end) = _ => let E := fresh "E" in destruct x eqn:E
  end.
Ltac same := repeat split.

Lemma kroot_frame did s s' r : decode_dsm_kroot did s = (s', r) -> same_rest s s' /\ same_flags s s'.
Proof.
  unfold decode_dsm_kroot. intros H. cbv zeta in H. brk H; inj H; split; same.
Qed.
Lemma pkr_frame did s s' r : decode_dsm_pkr did s = (s', r) ->
  same_rest s s' /\ same_flags s s' /\ o_kp s' = o_kp s /\ o_hdr s' = o_hdr s /\ o_dsm s' = o_dsm s /\ o_cid0 s' = o_cid0 s /\
  o_did0 s' = o_did0 s /\ t_ld (o_stat s') = t_ld (o_stat s).
Proof.
  unfold decode_dsm_pkr. intros H. cbv zeta in H. brk H; inj H; split; same.
Qed.
Lemma hk_frame hk s s' r : decode_hk hk s = (s', r) -> same_rest s s' /\ same_flags s s'.
Proof.
  unfold decode_hk. cbv zeta. intros H.
  destruct (_ && _); [inj H; split; same|].
  destruct (_ =? 0); [inj H; split; same|].
  destruct (match zget _ _ with Some _ => _ | None => _ end) as [[flg d] nb].
  match type of H with (if ?b then _ else _) = _ => destruct b end; [|inj H; split; same].
  match type of H with (let '(_, _) := ?x in _) = _ => destruct x as [s1 r1] eqn:E end.
  assert (F : same_rest s s1 /\ same_flags s s1).
  { match type of E with (if ?b then _ else _) = _ => destruct b end; [apply kroot_frame in E | apply pkr_frame in E; destruct E as (E1 & E2 & _); split; assumption]. exact E. }
  destruct r1 as [[]|]; inj H; exact F.
Qed.
Lemma same_trans s1 s2 s3 : same_rest s1 s2 /\ same_flags s1 s2 -> same_rest s2 s3 /\ same_flags s2 s3 -> same_rest s1 s3 /\ same_flags s1 s3.
Proof. unfold same_rest, same_flags. intuition congruence. Qed.

Lemma root_key_spec s s' r : verify_root_key s = (s', r) ->
  (s' = s /\ r <> Some true) \/ (s' = set_stat (st_rv (o_stat s)) s /\ r = Some true /\ root_signed C s').
Proof.
  unfold verify_root_key. intros H. brk H; inj H; try (left; split; [reflexivity|discriminate]).
  right. split; [reflexivity|]. split; [reflexivity|].
  apply item_klen in E0. destruct E0 as [E0 P]. apply negb_false_iff, hf_okb in E1.
  exists (Z.to_nat z), p. cbn [o_kp set_stat o_pk o_hdr o_did0].
  repeat (split; [assumption|]). rewrite <- E3. f_equal. unfold signed_part, root_msg.
  change (dsm_of (o_did0 s) (set_stat (st_rv (o_stat s)) s)) with (dsm_of (o_did0 s) s).
  f_equal. unfold bytes. destruct (keylen_8 _ _ E0) as (nb & Eb & _).
  assert (z = 8 * Z.of_nat nb) by lia. subst z. rewrite (Z.mul_comm 8), Z.div_mul by lia. f_equal. lia.
Qed.

(** ---- root stage ---- *)
Lemma root_stage_spec prn s s' r : root_stage prn s = (s', r) ->
  o_nav s' = o_nav s /\ o_vst s' = o_vst s /\ o_key s' = o_key s /\ o_gstc s' = o_gstc s /\ o_vmin s' = o_vmin s /\ o_root s' = o_root s /\
  o_buf s' = o_buf (save_mack prn s) /\ t_kc (o_stat s') = t_kc (o_stat s) /\
  (t_rv (o_stat s') = true -> t_rv (o_stat s) = true \/ root_signed C s').
Proof.
  unfold root_stage. cbv zeta. intros H.
  destruct (decode_hk _ _) as [s1 r1] eqn:E. apply hk_frame in E. destruct E as [F G].
  unfold same_rest in F. unfold same_flags in G.
  change (o_key (save_mack prn s)) with (o_key s) in F. change (o_gstc (save_mack prn s)) with (o_gstc s) in F.
  change (o_nav (save_mack prn s)) with (o_nav s) in F. change (o_vst (save_mack prn s)) with (o_vst s) in F.
  change (o_root (save_mack prn s)) with (o_root s) in F. change (o_vmin (save_mack prn s)) with (o_vmin s) in F.
  change (o_stat (save_mack prn s)) with (o_stat s) in G.
  destruct r1 as [r1|].
  - destruct (t_ld (o_stat s1) && negb (t_rv (o_stat s1))) eqn:B.
    + destruct (verify_root_key s1) as [s2 r2] eqn:V.
      assert (s' = s2) by (destruct r2; inj H; reflexivity). subst s2.
      apply root_key_spec in V. destruct V as [[-> _]|(V & _ & R)].
      * destruct G as [-> G]. intuition congruence.
      * assert (W : o_nav s' = o_nav s1 /\ o_vst s' = o_vst s1 /\ o_key s' = o_key s1 /\ o_gstc s' = o_gstc s1 /\ o_vmin s' = o_vmin s1 /\
          o_root s' = o_root s1 /\ o_buf s' = o_buf s1 /\ t_kc (o_stat s') = t_kc (o_stat s1)) by (subst s'; repeat split).
        clear V. intuition congruence.
    + inj H. destruct G as [-> G]. intuition congruence.
  - inj H. destruct G as [-> G]. intuition congruence.
Qed.

(** ---- chain stage ---- *)
Lemma gst_pack_len w t g : gst_pack w t = Some g -> length g = 32%nat.
Proof.
  unfold gst_pack. intros H. destruct (_ && _); [|discriminate]. apply some_inj in H. subst g. rewrite app_length, !bitsof_length. reflexivity.
Qed.
Lemma chain_loop_leads hf alp lkb n : forall k key w t0 k', chain_loop C hf alp lkb n k key w t0 = Some k' ->
  exists gs, length gs = n /\ leads C hf alp (8 * lkb) gs key k' /\ (n <> 0%nat -> hf_ok hf).
Proof.
  induction n as [|n IH]; intros k key w t0 k' H.
  - injection H as <-. exists []. split; [reflexivity|]. split; [reflexivity|lia].
  - cbn [chain_loop] in H. destruct (gst_pack _ _) as [g|] eqn:G; [|discriminate]. cbn [bind] in H.
    unfold process_hash in H. destruct (_ || _) eqn:B; [|discriminate]. cbn [bind] in H.
    destruct (IH _ _ _ _ _ H) as (gs & L & D & _). exists (g :: gs). split; [cbn; congruence|]. split; [exact D|].
    intros _. now apply hf_okb.
Qed.

Lemma chain_spec key w t s s' r : verify_key_chain key w t s = (s', r) ->
  (r = Some true /\ s' = set_stat (st_kc true (o_stat s)) s /\ t_rv (o_stat s) = true /\
   exists lk, keylen (k_ks (o_kp s)) = Some lk /\
    ((t_kc (o_stat s) = true /\ chain_loop C (k_hf (o_kp s)) (k_alp (o_kp s)) (lk / 8) 1 0 key w t = Some (o_keyp s)) \/
     (t_kc (o_stat s) = false /\ chain_loop C (k_hf (o_kp s)) (k_alp (o_kp s)) (lk / 8)
        (Z.to_nat (((w - k_wn (o_kp s)) * 604800 + (t - k_towh (o_kp s) * 3600)) / 30 + 1)) 0 key w t = Some (k_kroot (o_kp s))))) \/
  (r = Some false /\ (s' = s /\ t_rv (o_stat s) = false \/ s' = set_stat (st_kc false (o_stat s)) s)) \/
  (r = None /\ s' = s).
Proof.
  unfold verify_key_chain. destruct (t_rv (o_stat s)) eqn:RV; cbn [negb]; [|intros H; inj H; right; left; auto].
  cbv zeta. intros H.
  match type of H with match ?x with _ => _ end = _ => destruct x as [[]|] eqn:R end; inj H.
  - left. split; [reflexivity|]. split; [reflexivity|]. split; [reflexivity|].
    destruct (t_kc (o_stat s)).
    + unfold update_key_chain in R. destruct (item klen_t _) as [lk|] eqn:L; [|discriminate]. cbn [bind] in R.
      change (Z.to_nat 1) with 1%nat in R. destruct (chain_loop _ _ _ _ _ _ _ _) as [k|] eqn:Q; [|discriminate]. cbn [bind] in R. injection R as R.
      apply beqb_eq in R. subst k. apply item_klen in L. destruct L as [L P].
      exists (Z.to_nat lk). split; [exact L|]. left. split; [reflexivity|]. rewrite <- Q. f_equal. now rewrite Z2Nat.inj_div by lia.
    + unfold update_key_chain in R. destruct (item klen_t _) as [lk|] eqn:L; [|discriminate]. cbn [bind] in R.
      destruct (chain_loop _ _ _ _ _ _ _ _) as [k|] eqn:Q; [|discriminate]. cbn [bind] in R. injection R as R.
      apply beqb_eq in R. subst k. apply item_klen in L. destruct L as [L P].
      exists (Z.to_nat lk). split; [exact L|]. right. split; [reflexivity|]. rewrite <- Q.
      rewrite Z2Nat.inj_div by lia. change (Z.to_nat 8) with 8%nat. do 2 f_equal. rewrite <- Z.mul_assoc. reflexivity.
  - right. left. split; [reflexivity|]. right. reflexivity.
  - right. right. split; reflexivity.
Qed.
Lemma chain_stage_spec w t g s s' r : chain_stage w t g s = (s', r) ->
  o_kp s' = o_kp s /\ o_dsm s' = o_dsm s /\ o_did0 s' = o_did0 s /\ o_hdr s' = o_hdr s /\ o_pk s' = o_pk s /\ o_nav s' = o_nav s /\ o_vst s' = o_vst s /\
  o_keyp s' = o_keyp s /\ o_keyc s' = o_keyc s /\ o_nt s' = o_nt s /\ o_tag s' = o_tag s /\ o_buf s' = o_buf s /\ o_vmin s' = o_vmin s /\ o_root s' = o_root s /\
  o_cid0 s' = o_cid0 s /\ t_rv (o_stat s') = t_rv (o_stat s) /\ t_ld (o_stat s') = t_ld (o_stat s) /\
  (t_kc (o_stat s') = true ->
     (t_kc (o_stat s) = true /\ o_key s' = o_key s /\ o_gstc s' = o_gstc s) \/
     (t_rv (o_stat s) = true /\ o_key s' = o_keyc s /\ o_gstc s' = g /\
      exists lk, keylen (k_ks (o_kp s)) = Some lk /\
    ((t_kc (o_stat s) = true /\ chain_loop C (k_hf (o_kp s)) (k_alp (o_kp s)) (lk / 8) 1 0 (o_keyc s) w t = Some (o_keyp s)) \/
     (t_kc (o_stat s) = false /\ chain_loop C (k_hf (o_kp s)) (k_alp (o_kp s)) (lk / 8)
        (Z.to_nat (((w - k_wn (o_kp s)) * 604800 + (t - k_towh (o_kp s) * 3600)) / 30 + 1)) 0 (o_keyc s) w t = Some (k_kroot (o_kp s)))))).
Proof.
  unfold chain_stage. intros H. destruct (_ && _) eqn:B.
  2:{ inj H. repeat (split; [reflexivity|]). intros K. left. auto. }
  destruct (verify_key_chain _ _ _ _) as [s1 r1] eqn:V. apply chain_spec in V.
  destruct V as [(-> & -> & RV & K)|[(-> & [[-> RV]| ->])|(-> & ->)]].
  - inj H. repeat (split; [reflexivity|]). intros _. right. split; [exact RV|]. split; [reflexivity|]. split; [reflexivity|]. exact K.
  - rewrite RV in B. discriminate.
  - inj H. repeat (split; [reflexivity|]). discriminate.
  - inj H. repeat (split; [reflexivity|]). intros K. left. auto.
Qed.
End P.
