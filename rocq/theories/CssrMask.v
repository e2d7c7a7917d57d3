(** The mask message: decoding it installs exactly the transmitted satellites and signals. *)
From Verif Require Import Base BaseFacts BitProofs CssrModel CssrSpec CssrFacts CssrCodec.
From Coq Require Import ZifyBool ZifyNat.
Open Scope Z_scope.

Lemma forM_unit {X} (e : X -> cst -> cst) (f : nat -> unit -> M unit) : forall (xs : list X) k s,
  (forall j x s, nth_error xs j = Some x -> f (k + j)%nat tt s = (e x s, Some tt)) ->
  forM (length xs) k f tt s = (eff e xs s, Some tt).
Proof.
  induction xs as [|x xs IH]; intros k s Hf; [reflexivity|].
  cbn [length]. rewrite forM_S.
  pose proof (Hf 0%nat x s eq_refl) as H0. rewrite Nat.add_0_r in H0. rewrite (mbind_ok _ _ _ _ _ H0). cbv beta.
  rewrite IH; [reflexivity|]. intros j y s' Hn. rewrite <- (Hf (S j) y s' Hn). f_equal; lia.
Qed.

Lemma unpack_n_ok msg w : forall rows i, (rows = [] \/ (0 < w)%nat) -> Forall (fun r : bits => length r = w) rows ->
  At msg i (concat rows) -> unpack_n msg (length rows) w i = Some (map bval rows).
Proof.
  induction rows as [|r rows IH]; intros i Hw Hr Ha; [reflexivity|].
  destruct Hw as [Hw|Hw]; [discriminate|].
  cbn [concat] in Ha. apply At_app in Ha as [Ha1 Ha2]. inversion_clear Hr as [|? ? Hr1 Hr2].
  cbn [length unpack_n]. destruct (Nat.ltb_spec 0 w); [|lia]. cbn.
  rewrite (getu_raw msg i w r Ha1 Hr1). cbn. rewrite Hr1 in Ha2. rewrite IH; auto.
Qed.
Lemma concat_len w : forall rows : list bits, Forall (fun r => length r = w) rows ->
  length (concat rows) = (w * length rows)%nat.
Proof.
  induction 1 as [|r rows H1 H2 IH]; [cbn; lia|]. cbn [concat length]. rewrite app_length, H1, IH. lia.
Qed.
Lemma sigs_of_length sys : forall l r, sigs_of sys l = Some r -> length r = length l.
Proof.
  induction l as [|x l IH]; intros r H; cbn in H; [injection H as <-; reflexivity|].
  destruct (cssr_ssig2rsig sys TL x); [|discriminate]. cbn in H.
  destruct (sigs_of sys l) eqn:E; [|discriminate]. injection H as <-. cbn. now rewrite (IH _ eq_refl).
Qed.

Lemma blk_items_length b : wf_blk b -> length (blk_items b) = cnt (gb_sv b).
Proof.
  intros (_ & H40 & _ & _ & _ & Hc). unfold blk_items. rewrite map_length, combine_length.
  assert (Hp : length (sel (gb_sv b) (zs 1 40)) = cnt (gb_sv b)).
  { apply sel_length. rewrite zs_length. exact H40. }
  destruct (gb_cell b) as [rows|]; rewrite map_length; [destruct Hc as [Hc _]; lia|lia].
Qed.

Section MK.
Variable c : cfg.
Variable msg : bits.

Lemma mask_sat_ok b : wf_blk b -> forall j it s, nth_error (blk_items b) j = Some it ->
  mask_sat (gb_id b) (gnss2sys (gb_id b)) (blk_sigs b) (cnt (gb_sig b)) (option_map (map bval) (gb_cell b))
           (sel (gb_sv b) (zs 1 40)) j s = (item_eff (gb_id b) it s, Some tt).
Proof.
  intros (Hid & H40 & H16 & _ & Hsg & Hc) j it s Hj.
  assert (Hbl : length (blk_sigs b) = cnt (gb_sig b)).
  { unfold blk_sigs. destruct (sigs_of _ _) as [l|] eqn:E; [|contradiction].
    rewrite (sigs_of_length _ _ _ E). apply sel_length. rewrite zs_length. exact H16. }
  unfold blk_items in Hj. rewrite nth_error_map in Hj.
  destruct (nth_error (combine _ _) j) as [[p sg]|] eqn:E; [|discriminate]. injection Hj as <-.
  apply nth_error_combine in E as [E1 E2].
  unfold mask_sat. rewrite (mbind_lift _ p) by exact E1. rewrite mbind_modify. cbv beta.
  destruct (gb_cell b) as [rows|]; cbn [option_map].
  - destruct Hc as (Hc1 & Hc2 & Hc3). rewrite nth_error_map in E2.
    destruct (nth_error rows j) as [r|] eqn:Er; [|discriminate]. injection E2 as <-.
    assert (Hr : length r = cnt (gb_sig b)).
    { rewrite Forall_forall in Hc3. apply Hc3. now apply nth_error_In in Er. }
    rewrite (mbind_lift _ (bval r)) by now apply map_nth_error.
    rewrite <- Hr, decode_mask_bval. cbv beta iota.
    pose proof (nth_error_sel_picks r (blk_sigs b) [] ltac:(lia)) as Hpk. cbn [app length Z.of_nat] in Hpk.
    rewrite (mbind_lift _ _ _ _ Hpk). unfold modify. apply pair_eq; [|reflexivity].
    unfold item_eff. cbn [i_sat i_sys i_sig]. rewrite Nat2Z.id. rewrite <- (sel_length r (blk_sigs b)) by lia. reflexivity.
  - rewrite nth_error_map in E2. destruct (nth_error (sel _ _) j) eqn:E3; [|discriminate]. injection E2 as <-.
    unfold modify. apply pair_eq; [|reflexivity]. unfold item_eff. cbn [i_sat i_sys i_sig]. rewrite Hbl. reflexivity.
Qed.

Lemma mask_blk_ok b i s : wf_blk b -> At msg i (enc_blk c b) ->
  mask_blk c msg i s = (blk_eff c b s, Some (i + length (enc_blk c b))%nat).
Proof.
  intros Hw Ha. pose proof Hw as (Hid & H40 & H16 & Hnm & Hsg & Hc).
  unfold enc_blk in Ha. apply At_app in Ha as [Ha1 Ha]. apply At_app in Ha as [Ha2 Ha]. apply At_app in Ha as [Ha3 Ha].
  apply At_app in Ha as [Ha4 Ha5].
  set (w4 := match gb_cell b return list bool with None => [false] | Some rows => [true] ++ concat rows end) in *.
  pose (cl := match gb_cell b with None => false | Some _ => true end).
  assert (Hcl : At msg (i + 60)%nat (bit cl)).
  { unfold w4, cl in *. destruct (gb_cell b); [apply At_app in Ha4 as [Ha4 _]|]; (eapply At_pos; [exact Ha4|len; lia]). }
  unfold mask_blk.
  rewrite (mbind_ru _ _ _ (gb_id b)) by (apply getu_val; assumption). cbv beta.
  rewrite (mbind_ru _ _ _ (bval (gb_sv b))) by (apply getu_raw; [eapply At_pos; [exact Ha2|len; lia]|exact H40]). cbv beta.
  rewrite (mbind_ru _ _ _ (bval (gb_sig b))) by (apply getu_raw; [eapply At_pos; [exact Ha3|len; lia]|exact H16]). cbv beta.
  rewrite (mbind_ru _ _ _ (Z.b2z cl)) by (now apply getu_bit). cbv beta zeta.
  rewrite b2z_eqb. rewrite mbind_modify. cbv beta.
  replace (decode_mask (bval (gb_sv b)) 40 1) with (sel (gb_sv b) (zs 1 40), Z.of_nat (cnt (gb_sv b)))
    by (rewrite <- H40; symmetry; apply decode_mask_bval).
  replace (decode_mask (bval (gb_sig b)) 16 0) with (sel (gb_sig b) (zs 0 16), Z.of_nat (cnt (gb_sig b)))
    by (rewrite <- H16; symmetry; apply decode_mask_bval).
  cbv beta iota. rewrite mbind_modify. cbv beta. rewrite !Nat2Z.id.
  match goal with |- mbind ?m ?k ?st = _ =>
    assert (E4 : m st = (st, Some (option_map (map bval) (gb_cell b), (i + 60 + length w4)%nat)))
  end.
  { unfold cl, w4 in *. destruct (gb_cell b) as [rows|]; cbn [option_map].
    - destruct Hc as (Hc1 & Hc2 & Hc3). apply At_app in Ha4 as [_ Ha4].
      rewrite (mbind_lift _ (map bval rows)).
      2:{ rewrite <- Hc1. apply unpack_n_ok; auto.
          - destruct Hc2 as [Hc2|Hc2]; [left|right; exact Hc2]. destruct rows; [reflexivity|cbn in Hc1; lia].
          - eapply At_pos; [exact Ha4|len; lia]. }
      unfold ret. apply pair_eq; [reflexivity|]. apply some_eq, pair_eq; [reflexivity|]. len.
      rewrite (concat_len _ _ Hc3). lia.
    - unfold ret. apply pair_eq; [reflexivity|]. apply some_eq, pair_eq; [reflexivity|]. len. lia. }
  rewrite (mbind_ok _ _ _ _ _ E4). cbv beta iota. rewrite mbind_modify. cbv beta.
  rewrite (mbind_lift _ (blk_sigs b)).
  2:{ unfold blk_sigs. destruct (sigs_of _ _); [reflexivity|contradiction]. }
  rewrite <- (blk_items_length b Hw) at 1.
  erewrite mbind_ok.
  2:{ apply (forM_unit (item_eff (gb_id b))). intros j it s' Hj. cbn [Nat.add]. apply mask_sat_ok; assumption. }
  cbv beta.
  assert (Hlen : length (enc_blk c b) = (60 + length w4 + (if c_has c then 3 else 0))%nat).
  { unfold enc_blk. fold w4. len. destruct (c_has c); len; lia. }
  rewrite Hlen. unfold blk_eff. destruct (c_has c).
  - rewrite (mbind_ru _ _ _ (gb_nm b)) by (apply getu_val; [eapply At_pos; [exact Ha5|len; lia]|exact Hnm]).
    cbv beta. rewrite mbind_modify. unfold ret. apply pair_eq; [reflexivity|]. apply some_eq. lia.
  - unfold ret. apply pair_eq; [reflexivity|]. apply some_eq. lia.
Qed.

Lemma mask_ok its h bl i s : wf_mh c true h -> (length bl < 16)%nat -> Forall wf_blk bl ->
  At msg i (enc_body c its (CMask h bl)) ->
  decode_cssr_mask c msg i s = (mask_eff c h bl s, Some (Some (i + length (enc_body c its (CMask h bl)))%nat)).
Proof.
  intros Hh Hn Hb Ha. cbn [enc_body] in *.
  apply At_app in Ha as [Ha1 Ha]. apply At_app in Ha as [Ha2 Ha]. apply At_app in Ha as [Ha3 Ha4].
  unfold decode_cssr_mask. apply (mbind_head c msg true h); auto. intros mi. cbv beta iota. cbn [h_udi h_iod].
  rewrite (mbind_ru _ _ _ (Z.of_nat (length bl))) by (apply getu_val; [exact Ha2|unfold ub; cbn; lia]).
  cbv beta. rewrite Nat2Z.id. rewrite mbind_modify. cbv beta zeta. rewrite mbind_modify. cbv beta.
  match goal with |- mbind (forM _ _ _ _) _ ?st = _ => set (s1 := st) end.
  destruct (forM_enc (fun _ => True) msg (enc_blk c) (blk_eff c) (fun _ i => mask_blk c msg i) bl 0
     (i + length (enc_mh c true h) + 4)%nat s1 I) as [H1 _].
  { eapply At_pos; [exact Ha3|len; lia]. }
  { intros j b i' s' Hj _ Hat. split; [|exact I]. apply mask_blk_ok; [|exact Hat].
    rewrite Forall_forall in Hb. apply Hb. now apply nth_error_In in Hj. }
  rewrite (mbind_ok _ _ _ _ _ H1). cbv beta.
  rewrite mbind_or_cstat by (vm_compute; discriminate). rewrite mbind_set_t0.
  unfold ret. apply pair_eq.
  - unfold mask_eff. assert (E : hd_iod c h (hd_eff c true h s) = hd_iod c h s).
    { unfold hd_iod. destruct (hd_env c true h s) as (E & _). now rewrite E. }
    rewrite E. reflexivity.
  - apply some_eq, some_eq. len. destruct (c_has c); [rewrite repeat_length|cbn [length]]; lia.
Qed.
End MK.

(* ---------- the attributes after a mask ---------- *)
Definition sg_fold (l : list item) (d : dict Z (list rsig)) : dict Z (list rsig) :=
  fold_left (fun d it => zset (i_sat it) (i_sig it) d) l d.

Lemma items_eff_fields g : forall l s,
  s_nsat_n (eff (item_eff g) l s) = s_nsat_n s /\
  s_sat_n (eff (item_eff g) l s) = s_sat_n s ++ map i_sat l /\
  s_sys_n (eff (item_eff g) l s) = s_sys_n s ++ map i_sys l /\
  s_nsig_n (eff (item_eff g) l s) = s_nsig_n s ++ map (fun it => length (i_sig it)) l /\
  s_sig_n (eff (item_eff g) l s) = sg_fold l (s_sig_n s).
Proof.
  induction l as [|it l IH]; intros s.
  - cbn. rewrite !app_nil_r. auto.
  - change (eff (item_eff g) (it :: l) s) with (eff (item_eff g) l (item_eff g it s)).
    destruct (IH (item_eff g it s)) as (H1 & H2 & H3 & H4 & H5).
    rewrite H1, H2, H3, H4, H5. unfold item_eff. cbn. rewrite <- !app_assoc. auto.
Qed.

Lemma blk_eff_fields c b s : wf_blk b ->
  s_nsat_n (blk_eff c b s) = (s_nsat_n s + length (blk_items b))%nat /\
  s_sat_n (blk_eff c b s) = s_sat_n s ++ map i_sat (blk_items b) /\
  s_sys_n (blk_eff c b s) = s_sys_n s ++ map i_sys (blk_items b) /\
  s_nsig_n (blk_eff c b s) = s_nsig_n s ++ map (fun it => length (i_sig it)) (blk_items b) /\
  s_sig_n (blk_eff c b s) = sg_fold (blk_items b) (s_sig_n s).
Proof.
  intros Hw. rewrite (blk_items_length b Hw). unfold blk_eff.
  match goal with |- context [eff (item_eff (gb_id b)) (blk_items b) ?st] =>
    destruct (items_eff_fields (gb_id b) (blk_items b) st) as (H1 & H2 & H3 & H4 & H5);
    set (s2 := eff (item_eff (gb_id b)) (blk_items b) st) in * end.
  cbv zeta. destruct (c_has c); cbn; rewrite H1, H2, H3, H4, H5; cbn; auto.
Qed.

Lemma blks_eff_fields c : forall bl s, Forall wf_blk bl ->
  let its := concat (map blk_items bl) in
  s_nsat_n (eff (blk_eff c) bl s) = (s_nsat_n s + length its)%nat /\
  s_sat_n (eff (blk_eff c) bl s) = s_sat_n s ++ map i_sat its /\
  s_sys_n (eff (blk_eff c) bl s) = s_sys_n s ++ map i_sys its /\
  s_nsig_n (eff (blk_eff c) bl s) = s_nsig_n s ++ map (fun it => length (i_sig it)) its /\
  s_sig_n (eff (blk_eff c) bl s) = sg_fold its (s_sig_n s).
Proof.
  induction bl as [|b bl IH]; intros s Hw its; subst its.
  - cbn. rewrite !app_nil_r, Nat.add_0_r. auto.
  - inversion_clear Hw as [|? ? Hw1 Hw2].
    change (eff (blk_eff c) (b :: bl) s) with (eff (blk_eff c) bl (blk_eff c b s)).
    destruct (IH (blk_eff c b s) Hw2) as (H1 & H2 & H3 & H4 & H5).
    destruct (blk_eff_fields c b s Hw1) as (G1 & G2 & G3 & G4 & G5).
    rewrite H1, H2, H3, H4, H5, G1, G2, G3, G4, G5. cbn [map concat].
    rewrite !map_app, app_length, <- !app_assoc. unfold sg_fold. rewrite fold_left_app.
    repeat split; auto. lia.
Qed.

Lemma sg_fold_other : forall l d k, ~ In k (map i_sat l) -> zget k (sg_fold l d) = zget k d.
Proof.
  induction l as [|it l IH]; intros d k H; [reflexivity|]. cbn in *.
  unfold sg_fold in *. cbn. rewrite IH by tauto. apply zget_zset_other. tauto.
Qed.
Lemma sg_fold_in : forall l d it, NoDup (map i_sat l) -> In it l -> zget (i_sat it) (sg_fold l d) = Some (i_sig it).
Proof.
  induction l as [|x l IH]; intros d it Hn Hin; [destruct Hin|]. inversion_clear Hn as [|? ? Hn1 Hn2].
  change (sg_fold (x :: l) d) with (sg_fold l (zset (i_sat x) (i_sig x) d)).
  destruct Hin as [->|Hin]; [|now apply IH].
  rewrite sg_fold_other by assumption. apply zget_zset_same.
Qed.

Lemma mask_ctx c h bl s : Forall wf_blk bl -> NoDup (map i_sat (concat (map blk_items bl))) ->
  ctx (concat (map blk_items bl)) (mask_eff c h bl s).
Proof.
  intros Hw Hn. unfold mask_eff.
  match goal with |- context [eff (blk_eff c) bl ?st] =>
    destruct (blks_eff_fields c bl st Hw) as (H1 & H2 & H3 & H4 & H5); set (s1 := st) in *;
    set (s2 := eff (blk_eff c) bl s1) in * end.
  unfold ctx. cbv zeta.
  change (s_nsat_n (stamp 0 0 tMASK (flag_eff 0 tMASK s2))) with (s_nsat_n s2).
  change (s_sat_n (stamp 0 0 tMASK (flag_eff 0 tMASK s2))) with (s_sat_n s2).
  change (s_sys_n (stamp 0 0 tMASK (flag_eff 0 tMASK s2))) with (s_sys_n s2).
  change (s_nsig_n (stamp 0 0 tMASK (flag_eff 0 tMASK s2))) with (s_nsig_n s2).
  change (s_sig_n (stamp 0 0 tMASK (flag_eff 0 tMASK s2))) with (s_sig_n s2).
  rewrite H1, H2, H3, H4, H5. repeat split.
  apply Forall_forall. intros it Hin. now apply sg_fold_in.
Qed.
