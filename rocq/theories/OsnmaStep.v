From Verif Require Import BaseFacts BitProofs CssrFacts TimeModel OsnmaModel OsnmaSpec OsnmaProofs OsnmaTags OsnmaHist.
From Coq Require Import ZifyBool ZifyNat.
Open Scope Z_scope.

Section T.
Variable C : crypto.
Implicit Types s : ost C.
Ltac inj H := injection H as <- <-.

(* ---------- the chain loop and the chain ---------- *)
Lemma tesla_leads hf alp lk : forall n k t, leads C hf alp lk (map (fun i => gst (t - 30 * (Z.of_nat i + 1))) (seq 0 n)) k (tesla C hf alp lk n k t).
Proof.
  induction n as [|n IH]; intros k t; [reflexivity|]. unfold leads in *. cbn [seq map fold_left tesla].
  replace (t - 30 * (Z.of_nat 0 + 1)) with (t - 30) by lia. rewrite <- (IH _ (t - 30)). f_equal.
  rewrite <- seq_shift, map_map. apply map_ext. intros i. f_equal. lia.
Qed.
(** without a second step in the preceding week the time stamps are those of the chain *)
Lemma chain_loop_tesla hf alp lkb n : forall k key w t0 k', chain_loop C hf alp lkb n (Z.of_nat k) key w t0 = Some k' -> 0 <= t0 < 604800 ->
  30 * (Z.of_nat k + Z.of_nat n) <= t0 + 30 ->
  k' = tesla C hf alp (8 * lkb) n key (604800 * w + t0 - 30 * Z.of_nat k) /\ (n <> 0%nat -> hf_ok hf).
Proof.
  induction n as [|n IH]; intros k key w t0 k' H T N.
  - injection H as <-. split; [reflexivity|lia].
  - cbn [chain_loop] in H. cbv zeta in H. destruct (gst_pack _ _) as [g|] eqn:G; [|discriminate]. cbn [bind] in H.
    unfold process_hash in H. destruct (_ || _) eqn:B; [|discriminate]. cbn [bind] in H. apply hf_okb in B.
    split; [|tauto].
    assert (EG : g = gst (604800 * w + t0 - 30 * Z.of_nat k - 30)).
    { destruct (Z.ltb_spec (t0 - 30 * (Z.of_nat k + 1)) 0); (apply gst_pack_gst in G; [|lia]); destruct G as (_ & _ & ->); f_equal; lia. }
    cbn [tesla]. unfold down. rewrite <- EG.
    destruct n as [|n]; [injection H as <-; reflexivity|].
    destruct (Z.ltb_spec (t0 - 30 * (Z.of_nat k + 1)) 0) as [L|L]; [lia|].
    replace (Z.of_nat k + 1) with (Z.of_nat (S k)) in H by lia. apply IH in H; [|exact T|lia].
    destruct H as [H _]. rewrite H. f_equal. lia.
Qed.

(** the key in use was accepted, with time *)
Lemma chain_stage_checked w t g s s' r : chain_stage w t g s = (s', r) -> 0 <= t < 604800 -> 0 <= w < 4096 -> t mod 30 = 0 -> g = gst (604800 * w + t) ->
  t_kc (o_stat s') = true ->
  (t_kc (o_stat s) = true /\ o_key s' = o_key s /\ o_gstc s' = o_gstc s) \/
  (t_rv (o_stat s) = true /\ o_gstc s' = g /\ key_checked C s' (604800 * w + t)).
Proof.
  intros H T W M G K. apply chain_stage_spec in H. destruct H as (Ek & _ & _ & _ & _ & _ & _ & Ep & _ & _ & _ & _ & _ & _ & _ & _ & _ & H).
  destruct (H K) as [D|(RV & E & EG & lk & L & D)]; [now left|]. right. split; [exact RV|]. split; [exact EG|]. clear H.
  exists lk. rewrite Ek, Ep, E. split; [exact L|].
  destruct (keylen_8 _ _ L) as (b & Eb & _). assert (Q : (8 * (lk / 8))%nat = lk) by (subst lk; rewrite (Nat.mul_comm 8 b), Nat.div_mul; lia).
  destruct D as [(_ & D)|(_ & D)].
  - left. apply (chain_loop_tesla _ _ _ _ 0) in D; [|exact T|lia]. destruct D as [D O]. rewrite Q in D. split; [apply O; lia|].
    rewrite D. f_equal. lia.
  - right. pose proof D as D2. apply chain_loop_leads in D. destruct D as (gs & LG & D & O). rewrite Q in D.
    exists gs. split.
    { rewrite LG. f_equal. f_equal. f_equal. lia. }
    split; [intros N; apply O; destruct gs; [congruence|cbn in LG; lia]|].
    split; [exact D|]. intros N.
    rewrite <- LG in D2. apply (chain_loop_tesla _ _ _ _ 0) in D2; [|exact T|].
    + destruct D2 as [D2 _]. rewrite Q in D2. rewrite D2. f_equal. lia.
    + replace (604800 * w + t) with (t + w * 604800) in N by lia. rewrite Z.mod_add, Z.mod_small in N by lia. lia.
Qed.

(* ---------- well-formed states ---------- *)
Definition buf_wf s : Prop := length (b_hk (o_buf s)) = 36%nat /\ Forall (fun h : bits => length h = 120%nat) (b_hk (o_buf s)).
Definition ts_wf s : Prop := t_ld (o_stat s) = true -> 0 <= k_ts (o_kp s) < 16.
Lemma new_buf_wf pk root : buf_wf (osnma_new pk root).
Proof. split; [reflexivity|]. repeat constructor. Qed.

Lemma splice_row (h : bits) o n x : length h = n -> (o + length x <= n)%nat -> length (splice h o x) = n.
Proof. intros <- L. apply splice_length. lia. Qed.
Lemma Forall_upd {A} (P : A -> Prop) f : forall l n, Forall P l -> (forall x, P x -> P (f x)) -> Forall P (upd n f l).
Proof.
  induction l as [|x l IH]; intros n H F; destruct n; cbn [upd]; try assumption; apply Forall_cons_iff in H; destruct H; constructor; auto.
Qed.
Lemma page_lt tow : (page_no tow < 15)%nat.
Proof.
  unfold page_no. pose proof (Z.mod_pos_bound tow 30 ltac:(lia)). assert (tow mod 30 / 2 < 15) by (apply Z.div_lt_upper_bound; lia).
  assert (0 <= tow mod 30 / 2) by (apply Z.div_pos; lia). lia.
Qed.
Lemma reset_wf tow prn s : buf_wf s -> buf_wf (reset_page tow prn s).
Proof.
  unfold reset_page, buf_wf. cbv zeta. destruct (_ =? _)%nat; [|auto]. cbn [set_buf o_buf b_hk]. intros [L F].
  split; [now rewrite upd_length|]. apply Forall_upd; [exact F|]. reflexivity.
Qed.
Lemma store_wf nma tow prn s : buf_wf s -> length nma = 40%nat -> buf_wf (store_page nma tow prn s).
Proof.
  unfold store_page, buf_wf. cbv zeta. cbn [set_buf o_buf b_hk]. intros [L F] N.
  split; [now rewrite upd_length|]. apply Forall_upd; [exact F|]. intros x Hx. apply splice_row; [exact Hx|].
  unfold bytes. rewrite slice_length by lia. pose proof (page_lt tow). lia.
Qed.

Lemma bval4 d o : length (slice d o 4) = 4%nat \/ (length (slice d o 4) < 4)%nat -> 0 <= bval (slice d o 4) < 16.
Proof.
  intros H. pose proof (bval_bound (slice d o 4)) as B. assert (L : (length (slice d o 4) <= 4)%nat) by lia.
  assert (2 ^ Z.of_nat (length (slice d o 4)) <= 2 ^ 4) by (apply Z.pow_le_mono_r; lia). lia.
Qed.
Lemma slice_le {A} (d : list A) o n : (length (slice d o n) <= n)%nat.
Proof. unfold slice. rewrite firstn_length. lia. Qed.
Lemma kroot_ts did s s' r : decode_dsm_kroot did s = (s', r) -> 0 <= k_ts (o_kp s') < 16 /\ o_hdr s' = o_hdr s /\ o_pk s' = o_pk s /\ o_dsm s' = o_dsm s /\ o_cid0 s' = o_cid0 s.
Proof.
  unfold decode_dsm_kroot. cbv zeta. intros H. 
  assert (B : 0 <= bval (slice (dsm_of did s) 20 4) < 16) by (apply bval4; pose proof (slice_le (dsm_of did s) 20 4); lia).
  repeat match type of H with
  | (if ?b then _ else _) = _ => destruct b
  | (match ?x with _ => _ end) = _ => destruct x
  end; inj H; repeat split; cbn [set_kp o_kp k_ts set_did0 set_stat]; apply B.
Qed.
Lemma hk_ts hk s s' r : decode_hk hk s = (s', r) -> o_hdr s' = bytes hk 0 1 /\ (ts_wf s -> ts_wf s').
Proof.
  unfold decode_hk, ts_wf. cbv zeta. intros H.
  destruct (_ && _); [inj H; split; auto|].
  destruct (_ =? 0); [inj H; split; auto|].
  destruct (match zget _ _ with Some _ => _ | None => _ end) as [[flg d] nb].
  match type of H with (if ?b then _ else _) = _ => destruct b end; [|inj H; split; auto].
  match type of H with (let '(_, _) := ?x in _) = _ => destruct x as [s1 r1] eqn:E end.
  assert (F : o_hdr s1 = bytes hk 0 1 /\ ((t_ld (o_stat s) = true -> 0 <= k_ts (o_kp s) < 16) -> t_ld (o_stat s1) = true -> 0 <= k_ts (o_kp s1) < 16)).
  { match type of E with (if ?b then _ else _) = _ => destruct b end.
    - apply kroot_ts in E. destruct E as (B & -> & _). split; [reflexivity|auto].
    - apply pkr_frame in E. destruct E as (_ & _ & -> & -> & _ & _ & _ & ->). split; [reflexivity|auto]. }
  destruct r1 as [[]|]; inj H; exact F.
Qed.
Lemma root_key_frame s s' r : verify_root_key s = (s', r) -> o_hdr s' = o_hdr s /\ o_kp s' = o_kp s /\ t_ld (o_stat s') = t_ld (o_stat s).
Proof. intros H. apply root_key_spec in H. destruct H as [[-> _]|(-> & _ & _)]; repeat split. Qed.
Lemma root_stage_wf prn s s' r : root_stage prn s = (s', r) -> buf_wf s -> (1 <= prn <= 36)%nat -> ts_wf s ->
  length (o_hdr s') = 8%nat /\ ts_wf s' /\ buf_wf s'.
Proof.
  intros H [BL BF] P T. pose proof (root_stage_spec _ _ _ _ _ H) as (_ & _ & _ & _ & _ & _ & EB & _).
  assert (BW : buf_wf s') by (unfold buf_wf; rewrite EB; split; assumption).
  unfold root_stage in H. cbv zeta in H. destruct (decode_hk _ _) as [s1 r1] eqn:E. apply hk_ts in E. destruct E as [Eh Et].
  assert (L8 : length (o_hdr s1) = 8%nat).
  { rewrite Eh. unfold bytes. cbn [save_mack set_buf o_buf b_hk].
    apply slice_length. rewrite Forall_forall in BF. rewrite (BF (nth (prn - 1) (b_hk (o_buf s)) [])); [lia|]. apply nth_In. lia. }
  assert (T1 : ts_wf s1) by (apply Et; exact T).
  assert (K : o_hdr s' = o_hdr s1 /\ o_kp s' = o_kp s1 /\ t_ld (o_stat s') = t_ld (o_stat s1)).
  { destruct r1 as [r1|]; [|inj H; auto]. destruct (_ && _); [|inj H; auto].
    destruct (verify_root_key s1) as [s2 r2] eqn:V. apply root_key_frame in V. destruct r2; inj H; exact V. }
  destruct K as (-> & Kp & Kl). split; [exact L8|]. split; [|exact BW]. unfold ts_wf. rewrite Kp, Kl. exact T1.
Qed.
Lemma mack_frame prn s s' r : decode_mack prn s = (s', r) ->
  o_kp s' = o_kp s /\ o_dsm s' = o_dsm s /\ o_did0 s' = o_did0 s /\ o_hdr s' = o_hdr s /\ o_pk s' = o_pk s /\ o_nav s' = o_nav s /\ o_vst s' = o_vst s /\
  o_key s' = o_key s /\ o_gstc s' = o_gstc s /\ o_buf s' = o_buf s /\ o_vmin s' = o_vmin s /\ o_root s' = o_root s /\ o_cid0 s' = o_cid0 s /\ o_stat s' = o_stat s /\
  (r = Some true -> t_ld (o_stat s) = true).
Proof.
  unfold decode_mack. intros H. destruct (t_ld (o_stat s)); cbn [negb] in H; [|inj H; repeat split; discriminate].
  cbv zeta in H. destruct (item _ _); inj H; repeat split; discriminate.
Qed.
Lemma vst_vcount s s' : o_vst s' = o_vst s -> forall p i, vcount s' p i = vcount s p i.
Proof. unfold vcount. now intros ->. Qed.
Lemma signed_frame s s' : o_kp s' = o_kp s -> o_dsm s' = o_dsm s -> o_did0 s' = o_did0 s -> o_hdr s' = o_hdr s -> o_pk s' = o_pk s -> root_signed C s -> root_signed C s'.
Proof.
  unfold root_signed, dsm_of. intros -> -> -> -> ->. auto.
Qed.
Lemma checked_frame s s' t : o_kp s' = o_kp s -> o_key s' = o_key s -> o_keyp s' = o_keyp s -> key_checked C s t -> key_checked C s' t.
Proof. unfold key_checked. intros -> -> ->. auto. Qed.

(** effect of a call of decode on what authentication depends on *)
Definition dec_ok (a T : Z) s s' : Prop :=
  o_nav s' = o_nav s /\ o_vmin s' = o_vmin s /\ buf_wf s' /\ ts_wf s' /\
  (t_rv (o_stat s) = true -> t_rv (o_stat s') = true) /\
  (t_rv (o_stat s') = true -> t_rv (o_stat s) = true \/ root_signed C s') /\
  (t_kc (o_stat s') = true ->
    (t_kc (o_stat s) = true /\ o_key s' = o_key s /\ o_gstc s' = o_gstc s) \/
    (t_rv (o_stat s') = true /\ o_gstc s' = gst T /\ 0 <= T < 4096 * 604800 /\ key_checked C s' T)) /\
  forall p iod, p <> 37 -> vcount s' p iod = vcount s p iod \/
    (t_kc (o_stat s') = true /\ o_gstc s' = gst T /\ 0 <= T < 4096 * 604800 /\
     exists e, zget p (o_nav s) = Some e /\ tag_ok C (o_kp s') (o_key s') (o_hdr s') (o_tag s') (o_nt s') a (T - 30) p iod (wd (n_c e))).

Lemma dec_ok_frame a T s s' : o_nav s' = o_nav s -> o_vmin s' = o_vmin s -> o_stat s' = o_stat s -> o_kp s' = o_kp s -> o_key s' = o_key s -> o_gstc s' = o_gstc s ->
  o_vst s' = o_vst s -> buf_wf s' -> ts_wf s -> dec_ok a T s s'.
Proof.
  intros N V S K Ke G O B W. unfold dec_ok, ts_wf in *. rewrite N, V, S, K, Ke, G. repeat (split; [tauto|]).
  intros p i _. left. now apply vst_vcount.
Qed.
Lemma dec_ok_pre a T s0 s s' : o_nav s = o_nav s0 -> o_vmin s = o_vmin s0 -> o_stat s = o_stat s0 -> o_key s = o_key s0 -> o_gstc s = o_gstc s0 -> o_vst s = o_vst s0 ->
  dec_ok a T s s' -> dec_ok a T s0 s'.
Proof.
  intros N V S K G O. unfold dec_ok. rewrite N, V, S, K, G. intros (H1 & H2 & H3 & H4 & H5 & H6 & H7 & H8).
  repeat (split; [assumption|]). intros p i NP. rewrite <- (vst_vcount _ _ O). now apply H8.
Qed.

Lemma subframe_spec prn a w t s s' r : subframe prn a w t (gst (604800 * w + t)) s = (s', r) -> 0 <= t < 604800 -> 0 <= w < 4096 -> t mod 30 = 0 ->
  (1 <= prn <= 36)%nat -> buf_wf s -> ts_wf s -> nav_wf C s -> (t_kc (o_stat s) = true -> t_rv (o_stat s) = true) ->
  dec_ok a (604800 * w + t) s s'.
Proof.
  unfold subframe. intros H T W M P BW TW NW KR.
  destruct (root_stage prn s) as [s1 r1] eqn:E1.
  pose proof (root_stage_wf _ _ _ _ E1 BW P TW) as (L8 & TW1 & BW1).
  pose proof (root_stage_spec _ _ _ _ _ E1) as (R1 & R2 & R3 & R4 & R5 & R6 & _ & R8 & R9).
  assert (RV1 : t_rv (o_stat s) = true -> t_rv (o_stat s1) = true).
  { clear - E1. unfold root_stage in E1. cbv zeta in E1. destruct (decode_hk _ _) as [s2 r2] eqn:E. apply hk_frame in E. destruct E as [_ [E _]].
    change (o_stat (save_mack prn s)) with (o_stat s) in E. intros RV. rewrite RV in E.
    destruct r2; [|inj E1; exact E]. rewrite E in E1. rewrite andb_false_r in E1. inj E1. exact E. }
  assert (D1 : dec_ok a (604800 * w + t) s s1).
  { unfold dec_ok. rewrite R1, R3, R4, R5, R8. repeat (split; [tauto|]). intros p i _. left. now apply vst_vcount. }
  destruct r1 as [u1|]; [|inj H; exact D1].
  destruct (decode_mack prn s1) as [s2 r2] eqn:E2. apply mack_frame in E2.
  destruct E2 as (M1 & M2 & M3 & M4 & M5 & M6 & M7 & M8 & M9 & M10 & M11 & M12 & M13 & M14 & M15).
  assert (TW2 : ts_wf s2) by (unfold ts_wf; rewrite M1, M14; exact TW1).
  assert (BW2 : buf_wf s2) by (unfold buf_wf; rewrite M10; exact BW1).
  assert (RS2 : t_rv (o_stat s2) = true -> t_rv (o_stat s) = true \/ root_signed C s2).
  { rewrite M14. intros Q. destruct (R9 Q) as [Q2|Q2]; [now left|right]. now apply (signed_frame s1). }
  assert (D2 : dec_ok a (604800 * w + t) s s2).
  { unfold dec_ok. rewrite M6, M8, M9, M11, M14, R1, R3, R4, R5, R8. rewrite M14 in RS2. repeat (split; [tauto|]). intros p i _. left. apply vst_vcount. congruence. }
  destruct r2 as [[]|]; [|inj H; exact D2|inj H; exact D2].
  assert (LD : 0 <= k_ts (o_kp s2) < 16) by (apply TW2; rewrite M14; apply M15; reflexivity).
  destruct (chain_stage _ _ _ _) as [s3 r3] eqn:E3.
  assert (AC : r3 <> None -> t_kc (o_stat s3) = true -> t_rv (o_stat s3) = true -> o_gstc s3 = gst (604800 * w + t)).
  { clear - E3. unfold chain_stage in E3. intros NR K RV.
    destruct (_ && _) eqn:B.
    - destruct (verify_key_chain _ _ _ _) as [s4 [[]|]] eqn:V; inj E3; [reflexivity| |congruence].
      apply chain_spec in V. destruct V as [(V & _)|[(_ & [[-> V]| ->])|(V & _)]]; try discriminate V; [congruence|discriminate K].
    - inj E3. rewrite RV in B. cbn [andb] in B. apply negb_false_iff, beqb_eq in B. congruence. }
  pose proof (chain_stage_checked _ _ _ _ _ _ E3 T W M eq_refl) as CH.
  pose proof (chain_stage_spec _ _ _ _ _ _ _ E3) as (C1 & C2 & C3 & C4 & C5 & C6 & C7 & C8 & C9 & C10 & C11 & C12 & C13 & C14 & C15 & C16 & C17 & _).
  assert (TW3 : ts_wf s3) by (unfold ts_wf; rewrite C1, C17; exact TW2).
  assert (BW3 : buf_wf s3) by (unfold buf_wf; rewrite C12; exact BW2).
  assert (RS3 : t_rv (o_stat s3) = true -> t_rv (o_stat s) = true \/ root_signed C s3).
  { rewrite C16. intros Q. destruct (RS2 Q) as [Q2|Q2]; [now left|right]. now apply (signed_frame s2). }
  assert (RV3 : t_rv (o_stat s) = true -> t_rv (o_stat s3) = true) by (rewrite C16, M14; exact RV1).
  assert (TR : 0 <= 604800 * w + t < 4096 * 604800) by lia.
  assert (KC3 : t_kc (o_stat s3) = true -> (t_kc (o_stat s) = true /\ o_key s3 = o_key s /\ o_gstc s3 = o_gstc s) \/
    (t_rv (o_stat s3) = true /\ o_gstc s3 = gst (604800 * w + t) /\ 0 <= 604800 * w + t < 4096 * 604800 /\ key_checked C s3 (604800 * w + t))).
  { intros K. destruct (CH K) as [(Q1 & Q2 & Q3)|(Q1 & Q2 & Q3)].
    - left. rewrite M14, R8 in Q1. split; [exact Q1|]. split; congruence.
    - right. rewrite C16. auto. }
  assert (D3 : dec_ok a (604800 * w + t) s s3).
  { unfold dec_ok. split; [congruence|]. split; [congruence|]. split; [exact BW3|]. split; [exact TW3|]. split; [exact RV3|]. split; [exact RS3|]. split; [exact KC3|].
    intros p i _. left. apply vst_vcount. congruence. }
  destruct r3 as [u3|]; [|inj H; exact D3].
  destruct (t_kc (o_stat s3)) eqn:K3; cbn [negb] in H; [|inj H; exact D3].
  assert (V3 : t_rv (o_stat s3) = true) by (destruct (KC3 eq_refl) as [(Q & _)|(Q & _)]; [apply RV3, KR, Q|exact Q]).
  assert (G3 : o_gstc s3 = gst (604800 * w + t)) by (apply AC; [discriminate|reflexivity|exact V3]).
  assert (NV : o_nav s3 = o_nav s) by congruence.
  apply authenticate_spec in H.
  2:{ unfold nav_wf. rewrite NV. exact NW. }
  2:{ rewrite C4, M4. exact L8. }
  2:{ rewrite C1. exact LD. }
  2:{ exact M. }
  2:{ lia. }
  destruct H as [(s0 & (A1 & A2 & A3 & A4 & A5 & A6 & A7 & A8 & A9 & A10 & A11 & A12 & A13 & A14 & A15 & A16 & A17 & A18 & A19) & SE & _) V].
  assert (F : o_kp s' = o_kp s0 /\ o_key s' = o_key s0 /\ o_keyp s' = o_keyp s0 /\ o_gstc s' = o_gstc s0 /\ o_hdr s' = o_hdr s0 /\ o_tag s' = o_tag s0 /\ o_nt s' = o_nt s0 /\
    o_nav s' = o_nav s0 /\ o_dsm s' = o_dsm s0 /\ o_did0 s' = o_did0 s0 /\ o_pk s' = o_pk s0 /\ o_vmin s' = o_vmin s0 /\ b_hk (o_buf s') = b_hk (o_buf s0) /\
    t_rv (o_stat s') = t_rv (o_stat s0) /\ t_kc (o_stat s') = t_kc (o_stat s0) /\ t_ld (o_stat s') = t_ld (o_stat s0)).
  { destruct SE as [-> | ->]; [repeat split|]. unfold set_pos. destruct (_ <=? _); repeat split. }
  clear SE. destruct F as (F1 & F2 & F3 & F4 & F5 & F6 & F7 & F8 & F9 & F10 & F11 & F12 & F13 & F14 & F15 & F16).
  assert (G4 : o_gstc s' = gst (604800 * w + t)) by congruence.
  assert (KC' : t_kc (o_stat s') = true) by congruence.
  unfold dec_ok. split; [congruence|]. split; [congruence|].
  split; [unfold buf_wf; rewrite F13, A10; exact BW3|].
  split; [unfold ts_wf; rewrite F1, F16, A1, A19; exact TW3|].
  split; [intros _; congruence|].
  split. { intros _. destruct (RS3 V3) as [Q|Q]; [now left|right]. apply (signed_frame s3); congruence. }
  split. { intros _. destruct (KC3 eq_refl) as [(Q1 & Q2 & Q3)|(Q1 & Q2 & Q3 & Q4)].
    - left. split; [exact Q1|]. split; congruence.
    - right. split; [congruence|]. split; [congruence|]. split; [exact Q3|]. apply (checked_frame s3); congruence. }
  intros p iod NP. destruct (V p iod NP) as [Q|(e & Z & Q)].
  - left. rewrite Q. apply vst_vcount. congruence.
  - right. split; [exact KC'|]. split; [exact G4|]. split; [exact TR|]. exists e. split; [congruence|].
    rewrite F1, F2, F5, F6, F7, A1, A2, A6, A7, A8. exact Q.
Qed.

Lemma decode_spec nma wn tow prn a s s' r : decode nma wn tow prn a s = (s', r) -> 0 <= tow < 604800 ->
  buf_wf s -> ts_wf s -> nav_wf C s -> (t_kc (o_stat s) = true -> t_rv (o_stat s) = true) ->
  dec_ok a (subframe_time wn tow) s s'.
Proof.
  unfold decode. intros H T BW TW NW KR.
  assert (FR : forall q, o_nav q = o_nav s -> o_vmin q = o_vmin s -> o_stat q = o_stat s -> o_kp q = o_kp s -> o_key q = o_key s -> o_gstc q = o_gstc s ->
    o_vst q = o_vst s -> buf_wf q -> dec_ok a (subframe_time wn tow) s q) by (intros; now apply dec_ok_frame).
  destruct (_ && _) eqn:B in H; cbn [negb] in H; [|inj H; now apply FR].
  cbv zeta in H. apply andb_true_iff in B. destruct B as [B L]. apply andb_true_iff in B. destruct B as [B1 B2].
  assert (RF : o_nav (reset_page tow prn s) = o_nav s /\ o_vmin (reset_page tow prn s) = o_vmin s /\ o_stat (reset_page tow prn s) = o_stat s /\
    o_kp (reset_page tow prn s) = o_kp s /\ o_key (reset_page tow prn s) = o_key s /\ o_gstc (reset_page tow prn s) = o_gstc s /\ o_vst (reset_page tow prn s) = o_vst s).
  { unfold reset_page. cbv zeta. destruct (page_no tow =? 0)%nat; cbn [set_buf o_nav o_vmin o_stat o_kp o_key o_gstc o_vst]; auto 10. }
  destruct RF as (R1 & R2 & R3 & R4 & R5 & R6 & R7). pose proof (reset_wf tow prn s BW) as RW.
  destruct (time2gst 1 (gpst2time 1 wn tow)) as [gw gt] eqn:TG.
  destruct (set_gst_sf gw (gt / 30 * 30)) as [g|] eqn:G; [|inj H; now apply FR].
  destruct (gst_time _ _ _ _ _ TG T G) as (GB & GT & EG).
  assert (GR : 0 <= gw < 4096).
  { clear - G. unfold set_gst_sf, gst_pack in G. destruct (_ && _) eqn:B in G; [lia|discriminate]. }
  pose proof (store_wf nma tow prn (reset_page tow prn s) RW ltac:(lia)) as SW.
  set (s1 := store_page nma tow prn (reset_page tow prn s)) in *.
  assert (S : o_nav s1 = o_nav s /\ o_vmin s1 = o_vmin s /\ o_stat s1 = o_stat s /\ o_kp s1 = o_kp s /\ o_key s1 = o_key s /\ o_gstc s1 = o_gstc s /\ o_vst s1 = o_vst s)
    by (subst s1; unfold store_page; cbv zeta; cbn [set_buf o_nav o_vmin o_stat o_kp o_key o_gstc o_vst]; auto 10).
  clearbody s1. destruct S as (S1 & S2 & S3 & S4 & S5 & S6 & S7).
  destruct (_ =? _) in H; [|inj H; now apply FR].
  apply (dec_ok_pre a _ s s1); [assumption..|].
  subst g. rewrite <- GT in H |- *.
  assert (X : 0 <= gt / 30 * 30 < 604800).
  { pose proof (Z.div_mod gt 30 ltac:(lia)). pose proof (Z.mod_pos_bound gt 30 ltac:(lia)). assert (0 <= gt / 30) by (apply Z.div_pos; lia). lia. }
  apply subframe_spec in H; [exact H|exact X|exact GR|apply Z_mod_mult|lia|exact SW| | |].
  - unfold ts_wf. rewrite S3, S4. exact TW.
  - unfold nav_wf. rewrite S1. exact NW.
  - rewrite S3. exact KR.
Qed.
End T.
