From Verif Require Import BaseFacts BitProofs CssrFacts TimeModel OsnmaModel OsnmaSpec OsnmaProofs OsnmaTags.
From Coq Require Import ZifyBool ZifyNat.
Open Scope Z_scope.

Section H.
Variable C : crypto.
Implicit Types s : ost C.
Ltac inj H := injection H as <- <-.

Lemma tagbytes_ok s : 0 <= k_ts (o_kp s) < 16 -> Z.to_nat (tag_bytes s) = tagbytes (k_ts (o_kp s)).
Proof.
  intros H. unfold tag_bytes, tagbytes. generalize dependent (k_ts (o_kp s)). intros z H.
  assert (D : z = 0 \/ z = 1 \/ z = 2 \/ z = 3 \/ z = 4 \/ z = 5 \/ z = 6 \/ z = 7 \/ z = 8 \/ z = 9 \/ z = 10 \/ z = 11 \/ z = 12 \/ z = 13 \/ z = 14 \/ z = 15) by lia.
  do 15 (destruct D as [->|D]; [reflexivity|]). subst z. reflexivity.
Qed.
Lemma tag_bytes_any s : Z.to_nat (tag_bytes s) = tagbytes (k_ts (o_kp s)) \/ k_ts (o_kp s) < 0.
Proof.
  destruct (Z_lt_ge_dec (k_ts (o_kp s)) 0); [now right|]. left.
  destruct (Z_lt_ge_dec (k_ts (o_kp s)) 16); [apply tagbytes_ok; lia|].
  unfold tag_bytes. rewrite nth_overflow by (cbn [tag_len_t List.length]; lia).
  unfold tagbytes. destruct (k_ts (o_kp s)) as [|p|p]; try lia. do 4 (try (destruct p as [p|p|]; try reflexivity; try lia)).
Qed.

(** attributes the tag loop leaves alone *)
Definition same_auth s s' : Prop :=
  o_kp s' = o_kp s /\ o_key s' = o_key s /\ o_keyp s' = o_keyp s /\ o_keyc s' = o_keyc s /\ o_gstc s' = o_gstc s /\ o_hdr s' = o_hdr s /\ o_tag s' = o_tag s /\ o_nt s' = o_nt s /\
  o_nav s' = o_nav s /\ o_buf s' = o_buf s /\ o_dsm s' = o_dsm s /\ o_did0 s' = o_did0 s /\ o_pk s' = o_pk s /\ o_root s' = o_root s /\ o_vmin s' = o_vmin s /\ o_cid0 s' = o_cid0 s /\
  t_rv (o_stat s') = t_rv (o_stat s) /\ t_kc (o_stat s') = t_kc (o_stat s) /\ t_ld (o_stat s') = t_ld (o_stat s).
Lemma same_auth_refl s : same_auth s s.
Proof. repeat split. Qed.
Lemma same_auth_trans s1 s2 s3 : same_auth s1 s2 -> same_auth s2 s3 -> same_auth s1 s3.
Proof. unfold same_auth. intuition congruence. Qed.

Definition nav_wf s : Prop := forall prn e, zget prn (o_nav s) = Some e -> length (n_c e) = 1280%nat.

Lemma vcount_mark p i s prn iod : vcount (fst (mark p i s)) prn iod =
  if (p =? prn) && (i =? iod) then Some (match vcount s prn iod with Some c => c + 1 | None => 1 end) else vcount s prn iod.
Proof.
  unfold vcount, mark. cbn [fst set_vst o_vst].
  destruct (Z.eqb_spec p prn) as [->|N]; cbn [andb].
  - rewrite zget_zset_same. cbn [bind]. destruct (Z.eqb_spec i iod) as [->|N2].
    + rewrite zget_zset_same. destruct (zget prn (o_vst s)) as [d|]; cbn [bind]; [destruct (zget iod d)|]; reflexivity.
    + rewrite zget_zset_other by congruence. destruct (zget prn (o_vst s)) as [d|]; reflexivity.
  - rewrite zget_zset_other by congruence. reflexivity.
Qed.

Lemma tag_step_spec k a t st s s' r : tag_step k a (gst t) st s = (s', r) -> nav_wf s -> length (o_hdr s) = 8%nat -> 0 <= k_ts (o_kp s) < 16 ->
  Z.of_nat k < o_nt s -> 
  same_auth s s' /\
  forall prn iod, prn <> 37 -> vcount s' prn iod = vcount s prn iod \/
    exists e, zget prn (o_nav s) = Some e /\ tag_ok C (o_kp s) (o_key s) (o_hdr s) (o_tag s) (o_nt s) a t prn iod (wd (n_c e)).
Proof.
  unfold tag_step. intros H W Hh Ht Hk.
  destruct (tag_k s k) as [tg info] eqn:TK. cbv zeta in H.
  set (prn_d := if (k =? 0)%nat then a else info_prn info) in *.
  set (adkd := if (k =? 0)%nat then 0 else info_adkd info) in *.
  match type of H with match ?x with _ => _ end = _ => destruct x as [[msg|]|] eqn:N end;
    [|inj H; split; [apply same_auth_refl|now left]|inj H; split; [apply same_auth_refl|now left]].
  destruct (verify_navmsg _ _ _ _ _ _ _ _) as [[]|] eqn:V;
    [|inj H; split; [apply same_auth_refl|now left]|inj H; split; [apply same_auth_refl|now left]].
  destruct (mark _ _ s) as [s1 st1] eqn:MK.
  assert (E1 : s1 = fst (mark (if adkd =? 4 then 37 else prn_d) (if adkd =? 4 then 0 else bval (slice msg 0 10)) s)) by now rewrite MK.
  assert (A : same_auth s s') by (destruct (st1 && (adkd =? 4)); inj H; subst s1; repeat split).
  assert (VC : forall prn iod, vcount s' prn iod = vcount s1 prn iod) by (destruct (st1 && (adkd =? 4)); inj H; reflexivity).
  split; [exact A|]. intros prn iod NP. rewrite VC, E1, vcount_mark. clear VC MK E1 H A.
  destruct (Z.eqb_spec adkd 4) as [E4|N4].
  { left. destruct (Z.eqb_spec 37 prn); [congruence|reflexivity]. }
  destruct (Z.eqb_spec prn_d prn) as [EP|]; cbn [andb]; [|now left].
  destruct (Z.eqb_spec (bval (slice msg 0 10)) iod) as [EI|]; [|now left]. right.
  destruct (Z.eqb_spec adkd 0) as [E0|]; [|discriminate N].
  apply inav_spec in N; [|intros e; apply W]. destruct N as (PR & e & Z & WO & EM & LD).
  rewrite EP in *. exists e. split; [exact Z|]. split; [exact WO|].
  assert (Iod : slice msg 0 10 = slice (wd (n_c e) 1) 6 10).
  { subst msg. rewrite slice_app_l by lia. unfold nav_data. rewrite slice_app_l.
    - rewrite slice_slice by lia. reflexivity.
    - unfold wd. rewrite slice_slice, slice_length by (try lia; rewrite (W _ _ Z); cbn; lia). lia. }
  split; [now rewrite <- Iod|].
  unfold verify_navmsg in V. rewrite E0 in V. subst msg.
  destruct (gen_msg _ _ _ _ _ _ _) as [m|] eqn:G in V; [|discriminate]. cbn [bind] in V.
  assert (T : gst t = gst (604800 * 0 + t)) by (f_equal; lia). rewrite T in G.
  apply gen_msg_nav in G; [|assumption|assumption|assumption]. replace (604800 * 0 + t) with t in G by lia.
  destruct (process_mac s m) as [mac|] eqn:PM; [|discriminate]. cbn [bind] in V. apply some_inj, beqb_eq in V.
  assert (LB : Z.to_nat (tag_bytes s) = tagbytes (k_ts (o_kp s))) by (now apply tagbytes_ok).
  exists k, mac. cbv zeta. rewrite <- LB. set (lb := Z.to_nat (tag_bytes s)) in *.
  split; [exact Hk|].
  unfold tag_k in TK. fold lb in TK. injection TK as TG IN.
  split.
  { subst prn_d adkd. destruct (Nat.eqb_spec k 0) as [K0|K0]; [now left|]. right. split; [exact K0|].
    unfold info_prn, info_adkd in *. subst info. unfold bytes in EP, E0.
    rewrite !slice_slice in EP by lia. rewrite !slice_slice in E0 by lia.
    split; [rewrite <- EP|rewrite <- E0]; f_equal; f_equal; lia. }
  split.
  { unfold process_mac in PM. destruct (_ || _); [|discriminate]. rewrite <- PM, G. reflexivity. }
  rewrite V, <- TG. unfold bytes. rewrite slice_slice by lia. f_equal; lia.
Qed.

Lemma tags_loop_spec a t : forall n k st s s' r, tags_loop n k a (gst t) st s = (s', r) -> nav_wf s -> length (o_hdr s) = 8%nat -> 0 <= k_ts (o_kp s) < 16 ->
  Z.of_nat (k + n) <= o_nt s ->
  same_auth s s' /\
  forall prn iod, prn <> 37 -> vcount s' prn iod = vcount s prn iod \/
    exists e, zget prn (o_nav s) = Some e /\ tag_ok C (o_kp s) (o_key s) (o_hdr s) (o_tag s) (o_nt s) a t prn iod (wd (n_c e)).
Proof.
  induction n as [|n IH]; intros k st s s' r H W Hh Ht Hk; cbn [tags_loop] in H.
  - inj H. split; [apply same_auth_refl|now left].
  - destruct (tag_step _ _ _ _ _) as [s1 [st1|]] eqn:E.
    + apply tag_step_spec in E; [|exact W|exact Hh|exact Ht|lia]. destruct E as [A1 V1].
      assert (W1 : nav_wf s1) by (unfold nav_wf; destruct A1 as (_ & _ & _ & _ & _ & _ & _ & _ & -> & _); exact W).
      destruct (IH _ _ _ _ _ H) as [A2 V2]; [exact W1| | | |].
      { destruct A1 as (_ & _ & _ & _ & _ & -> & _). exact Hh. }
      { destruct A1 as (-> & _). exact Ht. }
      { destruct A1 as (_ & _ & _ & _ & _ & _ & _ & -> & _). lia. }
      split; [eapply same_auth_trans; eassumption|]. intros prn iod NP.
      destruct A1 as (Ak & Ae & _ & _ & _ & Ah & At_ & An & Av & _).
      destruct (V2 prn iod NP) as [Q|Q].
      * rewrite Q. apply V1, NP.
      * right. rewrite Ak, Ae, Ah, At_, An, Av in Q. exact Q.
    + inj H. apply tag_step_spec in E; [|exact W|exact Hh|exact Ht|lia]. exact E.
Qed.

(* ---------- time ---------- *)
Lemma gst_time wn tow gw gt g : time2gst 1 (gpst2time 1 wn tow) = (gw, gt) -> 0 <= tow < 604800 -> set_gst_sf gw (gt / 30 * 30) = Some g ->
  0 <= gt < 604800 /\ 604800 * gw + gt / 30 * 30 = subframe_time wn tow /\ g = gst (subframe_time wn tow).
Proof.
  unfold time2gst, gpst2time, wt2time, time2wt. intros H T G.
  destruct (Z.ltb_spec tow (-1000000000 * 1)); [lia|]. destruct (Z.gtb_spec tow (1000000000 * 1)); [lia|]. cbn [orb] in H. cbv zeta in H.
  rewrite !Z.quot_1_r in H. rewrite Z.mul_1_r, Z.sub_diag in H. cbn [TimeModel.gt TimeModel.gs] in H.
  assert (E : TimeModel.gt (epoch2time 1 gst0) = TimeModel.gt (epoch2time 1 gpst0) + 1024 * 604800) by (vm_compute; reflexivity).
  rewrite E in H. clear E. set (x0 := TimeModel.gt (epoch2time 1 gpst0)) in *. clearbody x0.
  change (86400 * 7) with 604800 in *. 
  set (sec := x0 + 604800 * wn + tow - (x0 + 1024 * 604800)) in *.
  assert (ES : sec = (wn - 1024) * 604800 + tow) by (unfold sec; lia). clearbody sec.
  pose proof (Z.quot_rem' sec 604800) as QR. pose proof (Z.rem_bound_abs sec 604800 ltac:(lia)) as RB.
  injection H as Hw Ht.
  assert (EG : 604800 * gw + gt = sec) by lia.
  unfold set_gst_sf in G. rewrite Z.div_mul in G by lia.
  assert (P : 0 <= gw /\ 0 <= gt / 30 * 30) by (unfold gst_pack in G; destruct (_ && _) eqn:B in G; [lia|discriminate]).
  assert (Pg : 0 <= gt < 604800).
  { pose proof (Z.div_mod gt 30 ltac:(lia)). pose proof (Z.mod_pos_bound gt 30 ltac:(lia)).
    assert (gt = Z.rem sec 604800) by lia. lia. }
  assert (ET : 604800 * gw + gt / 30 * 30 = subframe_time wn tow).
  { unfold subframe_time. rewrite <- ES, <- EG. replace (604800 * gw + gt) with (20160 * gw * 30 + gt) by lia.
    rewrite Z.div_add_l by lia. lia. }
  split; [exact Pg|]. split; [exact ET|].
  apply gst_pack_gst in G; [|pose proof (Z.div_mod gt 30 ltac:(lia)); pose proof (Z.mod_pos_bound gt 30 ltac:(lia)); lia].
  destruct G as (_ & _ & ->). now rewrite ET.
Qed.

(* ---------- the end of decode ---------- *)
Lemma authenticate_spec prn a w x s s' r : authenticate prn a w x s = (s', r) -> nav_wf s -> length (o_hdr s) = 8%nat -> 0 <= k_ts (o_kp s) < 16 ->
  x mod 30 = 0 -> x < 604800 ->
  (exists s0, same_auth s s0 /\ (s' = s0 \/ s' = clear_cnt prn (set_pos s0)) /\ forall p i, vcount s' p i = vcount s0 p i) /\
  forall p iod, p <> 37 -> vcount s' p iod = vcount s p iod \/
    exists e, zget p (o_nav s) = Some e /\ tag_ok C (o_kp s) (o_key s) (o_hdr s) (o_tag s) (o_nt s) a (604800 * w + x - 30) p iod (wd (n_c e)).
Proof.
  unfold authenticate. intros H W Hh Ht X0 X1.
  assert (Triv : s' = s -> (exists s0, same_auth s s0 /\ (s' = s0 \/ s' = clear_cnt prn (set_pos s0)) /\ forall p i, vcount s' p i = vcount s0 p i) /\
     forall p iod, p <> 37 -> vcount s' p iod = vcount s p iod \/
      exists e, zget p (o_nav s) = Some e /\ tag_ok C (o_kp s) (o_key s) (o_hdr s) (o_tag s) (o_nt s) a (604800 * w + x - 30) p iod (wd (n_c e))).
  { intros ->. split; [exists s; split; [apply same_auth_refl|]; split; [now left|reflexivity]|]. intros; now left. }
  destruct (set_gst_sf w (x - 30)) as [gstp|] eqn:G; [|inj H; apply Triv; reflexivity].
  destruct (verify_maclt a gstp s) as [[]|]; [|inj H; apply Triv; reflexivity|inj H; apply Triv; reflexivity].
  destruct (verify_macseq a gstp s) as [[]|]; [|inj H; apply Triv; reflexivity|inj H; apply Triv; reflexivity].
  assert (EG : gstp = gst (604800 * w + x - 30)).
  { unfold set_gst_sf in G. replace ((x - 30) / 30 * 30) with (x - 30) in G.
    - apply gst_pack_gst in G; [|lia]. destruct G as (_ & _ & ->). f_equal. lia.
    - pose proof (Z.div_mod x 30 ltac:(lia)) as D. replace (x - 30) with (x + (-1) * 30) by lia. rewrite Z.div_add by lia. lia. }
  subst gstp.
  destruct (tags_loop _ _ _ _ _ _) as [s0 r0] eqn:L.
  assert (K : same_auth s s0 /\ forall p iod, p <> 37 -> vcount s0 p iod = vcount s p iod \/
    exists e, zget p (o_nav s) = Some e /\ tag_ok C (o_kp s) (o_key s) (o_hdr s) (o_tag s) (o_nt s) a (604800 * w + x - 30) p iod (wd (n_c e))).
  { destruct (Z_lt_ge_dec (o_nt s) 0) as [N|N].
    - replace (Z.to_nat (o_nt s)) with 0%nat in L by lia. cbn [tags_loop] in L. inj L. split; [apply same_auth_refl|intros; now left].
    - eapply tags_loop_spec in L; [exact L|assumption|assumption|assumption|]. cbn [Nat.add]. lia. }
  destruct K as [A V].
  assert (VP : forall p i, vcount (clear_cnt prn (set_pos s0)) p i = vcount s0 p i).
  { intros p i. unfold set_pos. destruct (_ <=? _); reflexivity. }
  destruct r0 as [st|]; inj H.
  - split; [exists s0; split; [exact A|]; split; [now right|exact VP]|]. intros p iod NP. rewrite VP. now apply V.
  - split; [exists s0; split; [exact A|]; split; [now left|reflexivity]|]. exact V.
Qed.
End H.
