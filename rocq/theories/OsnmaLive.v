From Verif Require Import BaseFacts BitProofs CssrFacts TimeModel OsnmaModel OsnmaSpec OsnmaProofs OsnmaTags OsnmaHist OsnmaStep OsnmaLut.
From Coq Require Import ZifyBool ZifyNat.
Open Scope Z_scope.

Section L.
Variable C : crypto.
Implicit Types s : ost C.

Lemma getu_val' m o n : (o + n <= length m)%nat -> getu m o n = Some (bval (slice m o n)).
Proof. intros H. unfold getu, getb. destruct (Nat.leb_spec (o + n) (length m)); [reflexivity|lia]. Qed.

Lemma flex_spec s md o : forall n k m, (k + n + o <= length md)%nat ->
  flex_loop s md o n k m = Some (m ++ concat (map (fun j => if nth (j + o) md 0 =? 2 then snd (tag_k s j) else []) (seq k n))).
Proof.
  induction n as [|n IH]; intros k m L; cbn [flex_loop seq map concat]; [now rewrite app_nil_r|].
  rewrite (nth_error_nth' md 0) by lia. cbn [bind]. rewrite IH by lia. f_equal. rewrite Nat.add_1_r.
  destruct (nth (k + o) md 0 =? 2); [now rewrite app_assoc|now rewrite app_nil_l].
Qed.

Definition mac_ok s : Prop := (k_mf (o_kp s) = 0 \/ k_mf (o_kp s) = 1) /\
  forall m, exists c, c_mac C (k_mf (o_kp s)) (o_key s) m = Some c /\ (128 <= length c)%nat.
Lemma process_mac_ok s m : mac_ok s -> exists c, process_mac s m = Some c /\ c_mac C (k_mf (o_kp s)) (o_key s) m = Some c /\ (128 <= length c)%nat.
Proof.
  intros (F & M). destruct (M m) as (c & E & L). exists c. unfold process_mac.
  destruct (Z.eqb_spec (k_mf (o_kp s)) 0), (Z.eqb_spec (k_mf (o_kp s)) 1); cbn [orb]; try (repeat split; assumption); lia.
Qed.

Lemma macseq_iff a t s f1 f2 : 0 <= t < 4096 * 604800 -> lut (k_maclt (o_kp s)) = Some (f1, f2) -> o_nt s = 6 -> 0 <= k_ts (o_kp s) < 16 ->
  0 <= a < 256 -> mac_ok s -> (8 * (6 * (tagbytes (k_ts (o_kp s)) + 2)) <= length (o_tag s))%nat ->
  exists b, verify_macseq a (gst t) s = Some b /\
   (b = true <-> exists mac, c_mac C (k_mf (o_kp s)) (o_key s) (macseq_msg (if t mod 60 =? 0 then f1 else f2) a t (o_tag s) (tagbytes (k_ts (o_kp s)))) = Some mac /\
                   firstn 12 mac = slice (o_tag s) (8 * tagbytes (k_ts (o_kp s))) 12).
Proof.
  intros T H N TS A MO LT. unfold verify_macseq. rewrite ofst_gst by exact T. rewrite N.
  destruct (Z.ltb_spec a 0); [lia|]. destruct (Z.ltb_spec 255 a); [lia|]. cbn [orb].
  assert (LB : Z.to_nat (tag_bytes s) = tagbytes (k_ts (o_kp s))) by (now apply tagbytes_ok).
  assert (M : k_maclt (o_kp s) = 27 \/ k_maclt (o_kp s) = 33 \/ k_maclt (o_kp s) = 34 \/ k_maclt (o_kp s) = 35).
  { unfold lut in H. destruct (k_maclt (o_kp s)) as [|q|q]; try discriminate H.
    do 6 (try (destruct q as [q|q|]; try discriminate H)); auto. }
  set (o := if t mod 60 =? 0 then 0%nat else 6%nat). set (fl := if t mod 60 =? 0 then f1 else f2). set (lb := tagbytes (k_ts (o_kp s))) in *.
  assert (TI : forall k, snd (tag_k s k) = slice (o_tag s) (8 * (k * (lb + 2) + lb)) 16).
  { intros k. unfold tag_k. rewrite LB. cbn [snd]. unfold bytes. rewrite slice_slice by lia. f_equal; lia. }
  assert (exists md, mode_t (k_maclt (o_kp s)) = Some md /\ length md = 12%nat /\ nth (0 + o) md 0 = 1 /\
     forall k, In k (seq 1 5) -> (nth (k + o) md 0 =? 2) = match fst (nth (k - 1) fl (Cross, 0)) with Flex => true | _ => false end) as (md & -> & L1 & M0 & F).
  { subst o fl. destruct M as [M|[M|[M|M]]]; rewrite M in H |- *; cbn [lut] in H; injection H as <- <-; cbn [mode_t]; eexists;
      (split; [reflexivity|]; split; [reflexivity|]); destruct (t mod 60 =? 0); (split; [reflexivity|]);
      apply Forall_forall; repeat constructor. }
  change (Z.to_nat 6) with 6%nat. rewrite flex_spec by (subst o; destruct (t mod 60 =? 0); lia). cbn [bind].
  assert (E : (bitsof 8 a ++ gst t) ++ concat (map (fun j => if nth (j + o) md 0 =? 2 then snd (tag_k s j) else []) (seq 0 6)) = macseq_msg fl a t (o_tag s) lb).
  { unfold macseq_msg. rewrite <- app_assoc. f_equal. f_equal. change (seq 0 6) with (0%nat :: seq 1 5). cbn [map concat]. rewrite M0. change (1 =? 2) with false. cbv iota.
    rewrite app_nil_l. f_equal. apply map_ext_in. intros k K. rewrite (F k K), TI. destruct (fst _); reflexivity. }
  rewrite E. destruct (process_mac_ok s (macseq_msg fl a t (o_tag s) lb) MO) as (c & -> & CM & LC). cbn [bind].
  rewrite (getu_val' c 0 12) by lia. cbn [bind]. rewrite TI. replace (8 * (0 * (lb + 2) + lb))%nat with (8 * lb)%nat by lia.
  rewrite (getu_val' (slice (o_tag s) (8 * lb) 16) 0 12) by (rewrite slice_length; lia). cbn [bind].
  rewrite slice_slice by lia. rewrite Nat.add_0_r.
  eexists. split; [reflexivity|]. rewrite Z.eqb_eq. split.
  - intros B. exists c. split; [exact CM|]. apply bval_inj; [rewrite firstn_length_le, slice_length by lia; reflexivity|]. rewrite B. unfold slice. now rewrite skipn_O.
  - intros (c' & CM' & B). rewrite CM in CM'. injection CM' as <-. rewrite <- B. unfold slice. now rewrite skipn_O.
Qed.

(* ---------- gen_msg never fails ---------- *)
Lemma gen_msg_ok d a t ctr data s : 1 <= d <= 36 -> 0 <= a < 256 -> 0 <= ctr < 256 -> length data = 549%nat -> length (o_hdr s) = 8%nat ->
  gen_msg 0 d a (gst t) ctr (data ++ zeros 3) s = Some (auth_msg d a t ctr (firstn 2 (o_hdr s)) data).
Proof.
  intros D A K L Hh. unfold gen_msg. change (0 =? 4) with false. cbv iota. change (549 - 549 / 8 * 8)%nat with 5%nat.
  change (0 =? 0) with true. cbn [andb]. cbv zeta.
  change (8 * ((549 + 50 + 7) / 8))%nat with 600%nat. change (8 * ((549 + 58 + 7) / 8))%nat with 608%nat.
  assert (Q : exists pre, pre = (if d =? a then [] else bitsof 8 d) ++ bitsof 8 a /\
    (if a =? d then put_u 8 a (zeros 600, 0%nat) else do mj <- put_u 8 (if d =? 255 then a else d) (zeros 608, 0%nat); put_u 8 a mj) = Some (pre ++ zeros 592, length pre)).
  { rewrite (Z.eqb_sym a d). change (2 ^ Z.of_nat 8) with 256. destruct (Z.eqb_spec d a).
    - exists (bitsof 8 a). split; [reflexivity|]. pose proof (put_u_ok 8 a [] 600 ltac:(lia) ltac:(change (2 ^ Z.of_nat 8) with 256; lia)) as P. exact P.
    - destruct (Z.eqb_spec d 255); [lia|].
      pose proof (put_u_ok 8 d [] 608 ltac:(lia) ltac:(change (2 ^ Z.of_nat 8) with 256; lia)) as P. rewrite !app_nil_l in P. change (length (@nil bool)) with 0%nat in P.
      exists (bitsof 8 d ++ bitsof 8 a). split; [reflexivity|]. unfold bits in *. rewrite P. cbn [bind].
      rewrite (put_u_ok 8 a (bitsof 8 d) (608 - 8)) by (try (change (2 ^ Z.of_nat 8) with 256); lia). reflexivity. }
  destruct Q as (pre & Ep & ->). cbn [bind].
  assert (Lg : length (gst t) = 32%nat) by (unfold gst; rewrite app_length, !bitsof_length; reflexivity).
  rewrite put_raw_ok by lia. cbn [bind]. rewrite Lg.
  rewrite put_u_ok by (try (change (2 ^ Z.of_nat 8) with 256); lia). cbn [bind].
  replace 6 with (Z.of_nat (length (o_hdr s) - 2)) by lia.
  rewrite put_u_ok; [|lia|apply high_bound; lia]. cbn [bind]. rewrite high_bits by lia.
  assert (Ld : length (data ++ zeros 3) = 552%nat) by (rewrite app_length, zeros_len; lia). rewrite Ld.
  change (552 / 8)%nat with 69%nat. rewrite put_bytes_ok by lia. cbn [bind fst].
  assert (Ds : slice (data ++ zeros 3) (8 * 0) (8 * 69 - 3) = data).
  { rewrite slice_app_l by lia. unfold slice. cbn [Nat.mul skipn]. apply firstn_all2. lia. }
  rewrite Ds. change (592 - 32 - 8 - 2 - (8 * 69 - 3))%nat with 1%nat. change (zeros 1) with [false].
  unfold auth_msg. rewrite Ep, <- !app_assoc. reflexivity.
Qed.
Lemma gen_msg_utc_ok d a t ctr m s : 0 <= d < 256 -> 0 <= a < 256 -> 0 <= ctr < 256 -> length m = 144%nat -> length (o_hdr s) = 8%nat ->
  exists x, gen_msg 4 d a (gst t) ctr m s = Some x.
Proof.
  intros D A K L Hh. unfold gen_msg. change (4 =? 4) with true. change (4 =? 0) with false. cbv iota. cbn [andb]. cbv zeta. change (141 - 141 / 8 * 8)%nat with 5%nat.
  change (8 * ((141 + 58 + 7) / 8))%nat with 200%nat.
  set (d' := if d =? 255 then a else d). assert (D' : 0 <= d' < 256) by (subst d'; destruct (d =? 255); lia).
  pose proof (put_u_ok 8 d' [] 200 ltac:(lia) ltac:(change (2 ^ Z.of_nat 8) with 256; lia)) as P. rewrite !app_nil_l in P. change (length (@nil bool)) with 0%nat in P. unfold bits in *. rewrite P. cbn [bind].
  rewrite (put_u_ok 8 a (bitsof 8 d') (200 - 8)) by (try (change (2 ^ Z.of_nat 8) with 256); lia). cbn [bind].
  assert (Lg : length (gst t) = 32%nat) by (unfold gst; rewrite app_length, !bitsof_length; reflexivity).
  rewrite put_raw_ok by lia. cbn [bind]. rewrite Lg.
  rewrite put_u_ok by (try (change (2 ^ Z.of_nat 8) with 256); lia). cbn [bind].
  replace 6 with (Z.of_nat (length (o_hdr s) - 2)) by lia.
  rewrite put_u_ok; [|lia|apply high_bound; lia]. cbn [bind]. rewrite L.
  change (144 / 8)%nat with 18%nat. rewrite put_bytes_ok by lia. cbn [bind fst]. eauto.
Qed.
Lemma inav_total prn s : nav_wf C s -> gen_gal_inavmsg prn s <> None.
Proof.
  intros W. unfold gen_gal_inavmsg. destruct (_ || _); [discriminate|]. destruct (zget prn (o_nav s)) as [e|] eqn:E; [|discriminate]. apply W in E. cbv zeta.
  destruct (forallb _ _); [|discriminate]. destruct (forallb _ _); [|discriminate].
  pose proof (copies_end (n_c e) [(6, 120); (134, 120); (262, 122); (390, 120); (518, 67)]%nat [] 552) as K.
  change ([] ++ zeros 552) with (zeros 552) in K. change (length (@nil bool)) with 0%nat in K. rewrite K; clear K; [discriminate| |].
  { repeat (apply Forall_cons; [cbn [fst snd]; lia|]). apply Forall_nil. }
  { cbn [fold_right fst snd]. lia. }
Qed.
Lemma inav_ok prn s e : nav_wf C s -> zget prn (o_nav s) = Some e -> 1 <= prn <= 36 -> words_ok (wd (n_c e)) -> gen_gal_inavmsg prn s = Some (Some (nav_data (wd (n_c e)) ++ zeros 3)).
Proof.
  intros W E P (T & I). destruct (gen_gal_inavmsg prn s) as [[r|]|] eqn:G.
  - apply inav_spec in G; [|intros e'; apply W]. destruct G as (_ & e' & E' & _ & -> & _). rewrite E in E'. injection E' as <-. reflexivity.
  - exfalso. unfold gen_gal_inavmsg in G. rewrite E in G. assert (B : (prn <? 1) || (36 <? prn) = false) by lia. rewrite B in G. cbv zeta in G.
    assert (T' : forallb (fun k => bval (slice (n_c e) (k * 128) 6) =? Z.of_nat k + 1) [0; 1; 2; 3; 4]%nat = true).
    { apply forallb_forall. intros k K. apply Z.eqb_eq. rewrite <- (Nat.add_0_l (k * 128)), <- wd_slice by lia. apply T. cbn in K. lia. }
    rewrite T' in G.
    assert (I' : forallb (fun k => bval (slice (n_c e) (6 + k * 128) 10) =? bval (slice (n_c e) 6 10)) [1; 2; 3]%nat = true).
    { apply forallb_forall. intros k K. apply Z.eqb_eq. rewrite <- wd_slice by lia. change (slice (n_c e) 6 10) with (slice (n_c e) (6 + 0 * 128) 10). rewrite <- (wd_slice (n_c e) 0) by lia.
      f_equal. apply I. cbn in K. lia. }
    rewrite I' in G. destruct (copies _ _ _ _); discriminate G.
  - exfalso. exact (inav_total prn s W G).
Qed.
Lemma copy_total src dst i j n : (i + n <= length src)%nat -> (j + n <= length dst)%nat -> exists d, copy_buff src dst i j n = Some d /\ length d = length dst.
Proof. intros A B. destruct (copy_buff_fits src dst i j n A B) as (d & E & K & _). exists d. split; [exact E|exact K]. Qed.
Lemma utc_total a s : nav_wf C s -> exists r, gen_gal_utcmsg a s = Some r /\ forall m, r = Some m -> length m = 144%nat.
Proof.
  intros W. unfold gen_gal_utcmsg. destruct (zget a (o_nav s)) as [e|] eqn:E; [|eexists; split; [reflexivity|discriminate]]. apply W in E. cbv zeta.
  destruct (_ || _); [eexists; split; [reflexivity|discriminate]|].
  destruct (copy_total (slice (n_c e) 640 128) (zeros 144) 6 0 99) as (d & -> & L); [rewrite slice_length; lia|rewrite zeros_len; lia|]. cbn [bind].
  destruct (copy_total (slice (n_c e) 1152 128) d 86 99 42) as (d' & -> & L'); [rewrite slice_length; lia|rewrite L, zeros_len; lia|]. cbn [bind].
  eexists. split; [reflexivity|]. intros m M. injection M as <-. rewrite L', L. reflexivity.
Qed.
(** a valid tag counts; the others never take anything away *)
Lemma vcount_up s p i prn iod : match vcount s prn iod with Some c => exists c', vcount (fst (mark p i s)) prn iod = Some c' /\ c <= c' | None => True end.
Proof.
  rewrite vcount_mark. destruct (vcount s prn iod) as [c|]; [|exact I]. destruct (_ && _); eexists; (split; [reflexivity|lia]).
Qed.
Definition at_least s prn iod n : Prop := n <= match vcount s prn iod with Some c => c | None => 0 end.
Lemma tag_step_live k a t st s : nav_wf C s -> length (o_hdr s) = 8%nat -> 0 <= k_ts (o_kp s) < 16 -> mac_ok s -> 0 <= a < 256 -> (k < 20)%nat ->
  exists s' st', tag_step k a (gst t) st s = (s', Some st') /\
    (forall prn iod n, 0 <= n -> at_least s prn iod n -> at_least s' prn iod n) /\
    forall prn iod n e mac, zget prn (o_nav s) = Some e -> 1 <= prn <= 36 -> 0 <= n -> at_least s prn iod n ->
      words_ok (wd (n_c e)) -> bval (slice (wd (n_c e) 1) 6 10) = iod ->
      let lb := tagbytes (k_ts (o_kp s)) in let o := (k * (lb + 2))%nat in
      (k = 0%nat /\ prn = a \/ k <> 0%nat /\ bval (slice (o_tag s) (8 * (o + lb)) 8) = prn /\ bval (slice (o_tag s) (8 * (o + lb) + 8) 4) = 0) ->
      c_mac C (k_mf (o_kp s)) (o_key s) (auth_msg prn a t (Z.of_nat k + 1) (firstn 2 (o_hdr s)) (nav_data (wd (n_c e)))) = Some mac ->
      firstn (8 * lb) mac = slice (o_tag s) (8 * o) (8 * lb) -> at_least s' prn iod (n + 1).
Proof.
  intros W Hh Ht MO A K. unfold tag_step.
  assert (LB : Z.to_nat (tag_bytes s) = tagbytes (k_ts (o_kp s))) by (now apply tagbytes_ok).
  destruct (tag_k s k) as [tg info] eqn:TK. cbv zeta.
  assert (TG : tg = slice (o_tag s) (8 * (k * (tagbytes (k_ts (o_kp s)) + 2))) (8 * tagbytes (k_ts (o_kp s)))).
  { unfold tag_k in TK. rewrite LB in TK. injection TK as <- _. unfold bytes. rewrite slice_slice by lia. f_equal; lia. }
  assert (IN : info_prn info = bval (slice (o_tag s) (8 * (k * (tagbytes (k_ts (o_kp s)) + 2) + tagbytes (k_ts (o_kp s)))) 8) /\
     info_adkd info = bval (slice (o_tag s) (8 * (k * (tagbytes (k_ts (o_kp s)) + 2) + tagbytes (k_ts (o_kp s))) + 8) 4)).
  { unfold tag_k in TK. rewrite LB in TK. injection TK as _ <-. unfold info_prn, info_adkd, bytes. rewrite !slice_slice by lia. split; f_equal; f_equal; lia. }
  clear TK. set (lb := tagbytes (k_ts (o_kp s))) in *. set (o := (k * (lb + 2))%nat) in *.
  set (prn_d := if (k =? 0)%nat then a else info_prn info).
  set (adkd := if (k =? 0)%nat then 0 else info_adkd info).
  assert (PD : 0 <= prn_d < 256).
  { subst prn_d. destruct (k =? 0)%nat; [exact A|]. unfold info_prn. pose proof (bval_bound (slice info 0 8)) as B. pose proof (slice_le info 0 8) as L8.
    assert (2 ^ Z.of_nat (length (slice info 0 8)) <= 2 ^ Z.of_nat 8) by (apply Z.pow_le_mono_r; lia). change (2 ^ Z.of_nat 8) with 256 in *. lia. }
  set (nav := if adkd =? 0 then gen_gal_inavmsg prn_d s else if adkd =? 4 then gen_gal_utcmsg a s else Some None).
  assert (NV : nav <> None).
  { subst nav. destruct (adkd =? 0); [now apply inav_total|]. destruct (adkd =? 4); [|discriminate]. destruct (utc_total a s W) as (r & -> & _). discriminate. }
  assert (GOOD : forall prn (iod : Z) e, zget prn (o_nav s) = Some e -> 1 <= prn <= 36 -> words_ok (wd (n_c e)) ->
     (k = 0%nat /\ prn = a \/ k <> 0%nat /\ bval (slice (o_tag s) (8 * (o + lb)) 8) = prn /\ bval (slice (o_tag s) (8 * (o + lb) + 8) 4) = 0) ->
     prn_d = prn /\ adkd = 0 /\ nav = Some (Some (nav_data (wd (n_c e)) ++ zeros 3))).
  { intros prn iod e E P WO KK. assert (Q : prn_d = prn /\ adkd = 0).
    { subst prn_d adkd. destruct (Nat.eqb_spec k 0) as [K0|K0]; [destruct KK as [(_ & ->)|(? & _)]; [auto|contradiction]|].
      destruct KK as [(? & _)|(_ & I1 & I2)]; [contradiction|]. destruct IN as (-> & ->). auto. }
    destruct Q as (Q1 & Q2). split; [exact Q1|]. split; [exact Q2|]. subst nav. rewrite Q2, Q1. change (0 =? 0) with true. cbv iota. now apply inav_ok. }
  assert (VN : exists v, match nav with None => v = (s, None) | Some None => v = (s, Some st) | Some (Some msg) =>
      exists b, verify_navmsg adkd prn_d a (gst t) (Z.of_nat k + 1) tg msg s = Some b end).
  { destruct nav as [[msg|]|] eqn:EN; [|now eexists|contradiction]. exists (s, None). unfold verify_navmsg.
    assert (G : exists x, gen_msg adkd prn_d a (gst t) (Z.of_nat k + 1) msg s = Some x).
    { subst nav. destruct (Z.eqb_spec adkd 0) as [->|].
      - apply inav_spec in EN; [|intros e; apply W]. destruct EN as (P & e & _ & _ & -> & LD). eexists. apply gen_msg_ok; try assumption; lia.
      - destruct (Z.eqb_spec adkd 4) as [->|]; [|discriminate]. destruct (utc_total a s W) as (r & ER & LR). rewrite ER in EN. injection EN as ->.
        apply gen_msg_utc_ok; try assumption; try lia. now apply LR. }
    destruct G as (x & ->). cbn [bind]. destruct (process_mac_ok s x MO) as (c & -> & _). cbn [bind]. now eexists. }
  destruct nav as [[msg|]|] eqn:EN; [| |contradiction].
  2:{ eexists; eexists. split; [reflexivity|]. split; [auto|]. intros prn iod n e mac E P _ _ WO _ KK. destruct (GOOD prn iod e E P WO KK) as (_ & _ & Q). discriminate Q. }
  destruct VN as (_ & b & V). rewrite V. destruct b.
  - assert (MU : forall p i prn iod n, at_least s prn iod n -> 0 <= n -> at_least (fst (mark p i s)) prn iod n).
    { intros p i prn iod n. unfold at_least. rewrite vcount_mark. destruct (_ && _); destruct (vcount s prn iod); lia. }
    destruct (mark _ _ s) as [s1 st1] eqn:MK.
    assert (ES : s1 = fst (mark (if adkd =? 4 then 37 else prn_d) (if adkd =? 4 then 0 else bval (slice msg 0 10)) s)) by now rewrite MK.
    eexists; eexists. split; [reflexivity|].
    assert (VC : forall prn iod, vcount (if st1 && (adkd =? 4) then set_stat (st_utc (o_stat s1)) s1 else s1) prn iod = vcount s1 prn iod) by (intros; destruct (st1 && (adkd =? 4)); reflexivity).
    split.
    + intros prn iod n N Q. unfold at_least. rewrite VC. rewrite ES. apply MU; assumption.
    + intros prn iod n e mac E P N Q WO EI KK _ _. destruct (GOOD prn iod e E P WO KK) as (E1 & E2 & E3). injection E3 as ->.
      unfold at_least. rewrite VC, ES, vcount_mark. rewrite E2. change (0 =? 4) with false. cbv iota. rewrite E1, Z.eqb_refl.
      assert (Iod : slice (nav_data (wd (n_c e)) ++ zeros 3) 0 10 = slice (wd (n_c e) 1) 6 10).
      { assert (L1 : length (slice (wd (n_c e) 1) 6 120) = 120%nat) by (unfold wd; rewrite slice_slice, slice_length by (try lia; rewrite (W _ _ E); cbn; lia); reflexivity).
        unfold nav_data. rewrite <- app_assoc. rewrite slice_app_l by lia. rewrite slice_slice by lia. reflexivity. }
      rewrite Iod, EI, Z.eqb_refl. cbn [andb]. unfold at_least in Q. destruct (vcount s prn iod); lia.
  - eexists; eexists. split; [reflexivity|]. split; [auto|]. intros prn iod n e mac E P N Q WO EI KK CM MT. exfalso.
    destruct (GOOD prn iod e E P WO KK) as (E1 & E2 & E3). injection E3 as ->. unfold verify_navmsg in V. rewrite E2, E1 in V.
    assert (LD : length (nav_data (wd (n_c e))) = 549%nat).
    { pose proof (inav_ok prn s e W E P WO) as G. apply inav_spec in G; [|intros e'; apply W]. destruct G as (_ & e' & E' & _ & _ & L). rewrite E in E'. injection E' as <-. exact L. }
    rewrite gen_msg_ok in V by (try assumption; lia). cbn [bind] in V.
    destruct (process_mac_ok s (auth_msg prn a t (Z.of_nat k + 1) (firstn 2 (o_hdr s)) (nav_data (wd (n_c e)))) MO) as (c & PM & CM' & _). rewrite PM in V. cbn [bind] in V.
    rewrite CM in CM'. injection CM' as ->. apply some_inj, beqb_neq in V. apply V. rewrite LB. fold lb. rewrite TG. exact MT.
Qed.

(** tag number [j] of the section of state [s] fits the words [w] *)
Definition tag_at s (a t : Z) (j : nat) (prn : Z) (w : Z -> bits) : Prop :=
  let lb := tagbytes (k_ts (o_kp s)) in let o := (j * (lb + 2))%nat in
  (j = 0%nat /\ prn = a \/ j <> 0%nat /\ bval (slice (o_tag s) (8 * (o + lb)) 8) = prn /\ bval (slice (o_tag s) (8 * (o + lb) + 8) 4) = 0) /\
  exists mac, c_mac C (k_mf (o_kp s)) (o_key s) (auth_msg prn a t (Z.of_nat j + 1) (firstn 2 (o_hdr s)) (nav_data w)) = Some mac /\
    firstn (8 * lb) mac = slice (o_tag s) (8 * o) (8 * lb).
Lemma tags_loop_live a t : 0 <= a < 256 -> forall n k st s, nav_wf C s -> length (o_hdr s) = 8%nat -> 0 <= k_ts (o_kp s) < 16 -> mac_ok s -> (k + n <= 20)%nat -> Z.of_nat (k + n) <= o_nt s ->
  exists s' st', tags_loop n k a (gst t) st s = (s', Some st') /\
    (forall prn iod m, 0 <= m -> at_least s prn iod m -> at_least s' prn iod m) /\
    forall j prn iod m e, (k <= j < k + n)%nat -> zget prn (o_nav s) = Some e -> 1 <= prn <= 36 -> 0 <= m -> at_least s prn iod m ->
      words_ok (wd (n_c e)) -> bval (slice (wd (n_c e) 1) 6 10) = iod -> tag_at s a t j prn (wd (n_c e)) -> at_least s' prn iod (m + 1).
Proof.
  intros A. induction n as [|n IH]; intros k st s W Hh Ht MO K NT; cbn [tags_loop].
  { eexists; eexists. split; [reflexivity|]. split; [auto|]. intros; lia. }
  destruct (tag_step_live k a t st s W Hh Ht MO A ltac:(lia)) as (s1 & st1 & E & UP & HIT). rewrite E.
  destruct (tag_step_spec C k a t st s s1 _ E W Hh Ht ltac:(lia)) as (SA & _).
  destruct SA as (Akp & Akey & _ & _ & _ & Ahdr & Atag & Ant & Anav & _).
  destruct (IH (k + 1)%nat st1 s1) as (s2 & st2 & E2 & UP2 & HIT2).
  { unfold nav_wf. rewrite Anav. exact W. } { now rewrite Ahdr. } { now rewrite Akp. }
  { unfold mac_ok. rewrite Akp, Akey. exact MO. } { lia. } { rewrite Ant. lia. }
  exists s2, st2. split; [exact E2|]. split; [intros; apply UP2; [assumption|]; apply UP; assumption|].
  intros j prn iod m e J Z P M AL WO EI TA. destruct (Nat.eq_dec j k) as [->|NJ].
  - apply UP2; [lia|]. destruct TA as (KK & mac & CM & MT). eapply HIT; eassumption.
  - apply (HIT2 j prn iod m e); try assumption; [lia|now rewrite Anav|apply UP; assumption|].
    unfold tag_at in *. rewrite Akp, Akey, Ahdr, Atag. exact TA.
Qed.

(** the code authenticates: if the section is in order, every tag that fits is counted; otherwise nothing changes *)
Lemma live prn0 a w x s : 0 <= a < 256 -> 0 <= w < 4096 -> 30 <= x < 604800 -> x mod 30 = 0 ->
  nav_wf C s -> length (o_hdr s) = 8%nat -> 0 <= k_ts (o_kp s) < 16 -> mac_ok s -> o_nt s = 6 ->
  (8 * (6 * (tagbytes (k_ts (o_kp s)) + 2)) <= length (o_tag s))%nat -> lut (k_maclt (o_kp s)) <> None ->
  exists s' b, authenticate prn0 a w x s = (s', Some b) /\
    (~ section_ok C (o_kp s) (o_key s) (o_tag s) a (604800 * w + x - 30) -> s' = s /\ b = false) /\
    (section_ok C (o_kp s) (o_key s) (o_tag s) a (604800 * w + x - 30) -> forall prn iod m e, zget prn (o_nav s) = Some e -> 1 <= prn <= 36 -> 0 <= m -> at_least s prn iod m ->
       tag_ok C (o_kp s) (o_key s) (o_hdr s) (o_tag s) (o_nt s) a (604800 * w + x - 30) prn iod (wd (n_c e)) -> at_least s' prn iod (m + 1)).
Proof.
  intros A WW X X0 W Hh Ht MO NT LT LU. set (t := 604800 * w + x - 30).
  assert (T : 0 <= t < 4096 * 604800) by (subst t; lia).
  unfold authenticate. unfold set_gst_sf.
  assert (EX : (x - 30) / 30 * 30 = x - 30).
  { pose proof (Z.div_mod x 30 ltac:(lia)) as D. replace (x - 30) with (x + (-1) * 30) by lia. rewrite Z.div_add by lia. lia. }
  rewrite EX.
  assert (EG : gst_pack w (x - 30) = Some (gst t)).
  { unfold gst_pack. assert (B : (0 <=? w) && (w <? 2 ^ 12) && (0 <=? x - 30) && (x - 30 <? 2 ^ 20) = true) by (change (2 ^ 12) with 4096; change (2 ^ 20) with 1048576; lia).
    rewrite B. unfold gst. subst t. rewrite <- (Z.div_unique (604800 * w + x - 30) 604800 w (x - 30)), <- (Z.mod_unique (604800 * w + x - 30) 604800 w (x - 30)) by lia. reflexivity. }
  rewrite EG. destruct (lut (k_maclt (o_kp s))) as [[f1 f2]|] eqn:EL; [|contradiction].
  destruct (maclt_iff C a t s f1 f2 T EL NT Ht) as (b1 & E1 & Q1). destruct (macseq_iff a t s f1 f2 T EL NT Ht A MO LT) as (b2 & E2 & Q2).
  rewrite E1. assert (SO : section_ok C (o_kp s) (o_key s) (o_tag s) a t <-> b1 = true /\ b2 = true).
  { rewrite Q1, Q2. split.
    - intros (g1 & g2 & mac & L & F & CM & FM). rewrite EL in L. injection L as <- <-. split; [exact F|]. exists mac. auto.
    - intros (F & mac & CM & FM). exists f1, f2, mac. auto. }
  destruct b1; [|eexists; eexists; split; [reflexivity|]; split; [auto|]; intros S; apply SO in S; destruct S; discriminate].
  rewrite E2. destruct b2; [|eexists; eexists; split; [reflexivity|]; split; [auto|]; intros S; apply SO in S; destruct S; discriminate].
  destruct (tags_loop_live a t A (Z.to_nat (o_nt s)) 0 false s W Hh Ht MO ltac:(lia) ltac:(lia)) as (s1 & st1 & E & UP & HIT). rewrite E.
  eexists; eexists. split; [reflexivity|]. split; [intros NS; exfalso; apply NS, SO; auto|].
  intros _ prn iod m e Z P M AL (WO & EI & k & mac & KN & KK & CM & MT).
  assert (VP : forall p i, vcount (clear_cnt prn0 (set_pos s1)) p i = vcount s1 p i).
  { intros p i. unfold set_pos. destruct (_ <=? _); reflexivity. }
  unfold at_least. rewrite VP. apply (HIT k prn iod m e); try assumption; [lia|]. split; [exact KK|]. exists mac. auto.
Qed.
(** at the beginning of a week the time of the preceding subframe is negative, and the packing raises an exception *)
Lemma week_start prn0 a w x s : 0 <= x < 30 -> snd (authenticate prn0 a w x s) = None.
Proof.
  intros X. unfold authenticate, set_gst_sf, gst_pack.
  assert (E : (x - 30) / 30 * 30 = - 30) by (assert ((x - 30) / 30 = -1) by (symmetry; apply (Z.div_unique (x - 30) 30 (-1) x); lia); lia).
  rewrite E. destruct (0 <=? w), (w <? 2 ^ 12); reflexivity.
Qed.

(** layout of the MACK section for tags of 24, 32 and 40 bits *)
Lemma mack_layout prn s lk lt : t_ld (o_stat s) = true -> keylen (k_ks (o_kp s)) = Some lk ->
  (k_ts (o_kp s) = 6 /\ lt = 24%nat \/ k_ts (o_kp s) = 8 /\ lt = 32%nat \/ k_ts (o_kp s) = 9 /\ lt = 40%nat) ->
  let n := ((480 - lk) / (lt + 16))%nat in
  exists s', decode_mack prn s = (s', Some true) /\ o_nt s' = Z.of_nat n /\ o_tag s' = firstn (n * (lt + 16)) (nth (prn - 1) (b_mackp (o_buf s)) []) /\
    o_keyp s' = slice (nth (prn - 1) (b_mackp (o_buf s)) []) (n * (lt + 16)) lk /\ o_keyc s' = slice (nth (prn - 1) (b_mackc (o_buf s)) []) (n * (lt + 16)) lk.
Proof.
  intros LD L TS. cbv zeta. unfold decode_mack. rewrite LD. cbn [negb].
  assert (I : item klen_t (k_ks (o_kp s)) = Some (Z.of_nat lk)) by (apply item_klen; rewrite Nat2Z.id; split; [exact L|lia]).
  destruct (keylen_8 _ _ L) as (b & EB & BB).
  assert (EL : nth (Z.to_nat (k_ts (o_kp s))) tag_len_t 0 = Z.of_nat lt) by (destruct TS as [(-> & ->)|[(-> & ->)|(-> & ->)]]; reflexivity).
  assert (M8 : exists c, (lt + 16 = 8 * c)%nat /\ (0 < c)%nat) by (destruct TS as [(_ & ->)|[(_ & ->)|(_ & ->)]]; [exists 5%nat|exists 6%nat|exists 7%nat]; lia).
  destruct M8 as (c & MC & C0). rewrite I, EL. cbv zeta.
  assert (E1 : (480 - Z.of_nat lk) / (Z.of_nat lt + 16) = Z.of_nat ((480 - lk) / (lt + 16))).
  { rewrite Nat2Z.inj_div. f_equal; lia. }
  rewrite E1. set (n := ((480 - lk) / (lt + 16))%nat).
  assert (E2 : Z.to_nat ((Z.of_nat lt + 16) / 8 * Z.of_nat n) = (c * n)%nat).
  { replace (Z.of_nat lt + 16) with (Z.of_nat c * 8) by lia. rewrite Z.div_mul by lia. lia. }
  assert (E3 : Z.to_nat (Z.of_nat lk / 8) = b) by (rewrite EB; replace (Z.of_nat (8 * b)) with (Z.of_nat b * 8) by lia; rewrite Z.div_mul by lia; lia).
  rewrite E2, E3. eexists. split; [reflexivity|]. cbn [set_keys set_tag o_nt o_tag o_keyp o_keyc]. split; [reflexivity|].
  unfold bytes. replace (n * (lt + 16))%nat with (8 * (c * n))%nat by lia. replace (8 * (c * n + b - c * n))%nat with lk by lia.
  split; [|auto]. replace (8 * (c * n - 0))%nat with (8 * (c * n))%nat by lia. unfold slice. now rewrite Nat.mul_0_r, skipn_O.
Qed.
End L.
