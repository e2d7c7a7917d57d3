From Verif Require Import Base TimeModel TimeSpec.
From Coq Require Import ZifyBool ZifyNat.
Open Scope Z_scope.

Definition zrange (a : Z) (n : nat) : list Z := map (fun k => a + Z.of_nat k) (seq 0 n).
Lemma zrange_in a n x : In x (zrange a n) <-> a <= x < a + Z.of_nat n.
Proof.
  unfold zrange. rewrite in_map_iff. split.
  - intros (k & <- & H). apply in_seq in H. lia.
  - intros H. exists (Z.to_nat (x - a)). rewrite in_seq. lia.
Qed.

(* ---------- calendar arithmetic of epoch2time ---------- *)
Definition code_days (y m : Z) : Z :=
  (y - 1970) * 365 + (y - 1969) / 4 + nth (Z.to_nat (m - 1)) doy_tab 0 - 1
  + (if (y mod 4 =? 0) && (m >=? 3) then 1 else 0).

Lemma code_days_all :
  forallb (fun y => forallb (fun m => code_days y m =? month_start y m) (zrange 1 12)) (zrange 1970 130) = true.
Proof. vm_compute. reflexivity. Qed.

Lemma code_days_ok y m : 1970 <= y <= 2099 -> 1 <= m <= 12 -> code_days y m = month_start y m.
Proof.
  intros Hy Hm. pose proof (proj1 (forallb_forall _ _) code_days_all y) as H.
  rewrite zrange_in in H. specialize (H ltac:(lia)). cbn beta in H.
  pose proof (proj1 (forallb_forall _ _) H m) as H2. rewrite zrange_in in H2.
  specialize (H2 ltac:(lia)). lia.
Qed.

Lemma epoch2time_eq U y m d h mi s : 1970 <= y <= 2099 -> 1 <= m <= 12 ->
  epoch2time U (EP y m d h mi s) =
  GT (day_number y m d * 86400 + h * 3600 + mi * 60 + Z.quot s U) (s - Z.quot s U * U).
Proof.
  intros Hy Hm. unfold epoch2time. cbn [ey em ed eh emi es].
  replace ((y <? 1970) || (y >? 2099) || (m <? 1) || (m >? 12)) with false by lia.
  pose proof (code_days_ok y m Hy Hm) as H. unfold code_days in H. unfold day_number.
  f_equal. destruct ((y mod 4 =? 0) && (m >=? 3)); lia.
Qed.

Lemma epoch2time_invalid U e :
  (ey e < 1970 \/ ey e > 2099 \/ em e < 1 \/ em e > 12) -> epoch2time U e = gtime0.
Proof.
  intros H. unfold epoch2time.
  replace ((ey e <? 1970) || (ey e >? 2099) || (em e <? 1) || (em e >? 12)) with true by lia.
  reflexivity.
Qed.

(* ---------- time2epoch on whole days ---------- *)
Definition ymd_of (days : Z) : Z * Z * Z :=
  let '(mon, day) := month_loop mday_tab 0 (days mod 1461) in
  (1970 + days / 1461 * 4 + mon / 12, mon mod 12 + 1, day + 1).

Definition ymd_eqb (a b : Z * Z * Z) : bool :=
  let '(x, y, z) := a in let '(x', y', z') := b in (x =? x') && (y =? y') && (z =? z').

Lemma ymd_all :
  forallb (fun y => forallb (fun m =>
    let s := month_start y m in
    forallb (fun d => ymd_eqb (ymd_of (s + d - 1)) (y, m, d)) (zrange 1 (Z.to_nat (month_len y m))))
    (zrange 1 12)) (zrange 1970 130) = true.
Proof. vm_compute. reflexivity. Qed.

Lemma ymd_ok y m d : valid_date y m d -> ymd_of (day_number y m d) = (y, m, d).
Proof.
  intros (Hy & Hm & Hd). pose proof (proj1 (forallb_forall _ _) ymd_all y) as H.
  rewrite zrange_in in H. specialize (H ltac:(lia)). cbn beta in H.
  pose proof (proj1 (forallb_forall _ _) H m) as H2. rewrite zrange_in in H2.
  specialize (H2 ltac:(lia)). cbn beta zeta in H2.
  pose proof (proj1 (forallb_forall _ _) H2 d) as H3. rewrite zrange_in in H3.
  specialize (H3 ltac:(lia)). unfold day_number.
  destruct (ymd_of (month_start y m + d - 1)) as [[a b] c]. unfold ymd_eqb in H3.
  f_equal; [f_equal|]; lia.
Qed.

Lemma month_start_0 y m : 1970 <= y <= 2099 -> 1 <= m <= 12 -> 0 <= month_start y m.
Proof.
  intros Hy Hm. rewrite <- code_days_ok by assumption. unfold code_days.
  assert (0 <= (y - 1969) / 4) by (apply Z.div_pos; lia).
  assert (G : forall k, (k < 12)%nat -> 1 <= nth k doy_tab 0).
  { intros k Hk. do 12 (destruct k as [|k]; [cbn; lia|]). lia. }
  pose proof (G (Z.to_nat (m - 1)) ltac:(lia)).
  destruct ((y mod 4 =? 0) && (m >=? 3)); lia.
Qed.

Lemma day_number_nonneg y m d : valid_date y m d -> 0 <= day_number y m d.
Proof. intros (Hy & Hm & Hd). pose proof (month_start_0 y m Hy Hm). unfold day_number. lia. Qed.

Lemma time2epoch_eq U t : 0 <= gt t ->
  time2epoch U t =
  (let '(y, m, d) := ymd_of (gt t / 86400) in let sec := gt t mod 86400 in
   EP y m d (sec / 3600) (sec mod 3600 / 60) (sec mod 60 * U + gs t)).
Proof.
  intros H. unfold time2epoch, ymd_of. rewrite Z.quot_div_nonneg by lia.
  replace (gt t - gt t / 86400 * 86400) with (gt t mod 86400)
    by (rewrite Z.mod_eq by lia; lia).
  destruct (month_loop mday_tab 0 (gt t / 86400 mod 1461)) as [mon day]. reflexivity.
Qed.

Lemma div_unique' a b q r : 0 <= r < b -> a = b * q + r -> a / b = q.
Proof. intros Hr H. symmetry. apply (Z.div_unique_pos a b q r); lia. Qed.
Lemma mod_unique' a b q r : 0 <= r < b -> a = b * q + r -> a mod b = r.
Proof. intros Hr H. symmetry. apply (Z.mod_unique_pos a b q r); lia. Qed.

Lemma quot_bounds s n U : 0 < U -> 0 <= s < n * U -> 0 <= Z.quot s U < n /\ 0 <= s - Z.quot s U * U < U.
Proof.
  intros HU Hs. rewrite Z.quot_div_nonneg by lia.
  pose proof (Z.div_mod s U ltac:(lia)). pose proof (Z.mod_pos_bound s U HU).
  assert (0 <= s / U) by (apply Z.div_pos; lia).
  assert (s / U < n) by (apply Z.div_lt_upper_bound; lia). lia.
Qed.

Lemma epoch_roundtrip U y m d h mi s : 0 < U -> valid_date y m d -> valid_tod U h mi s ->
  time2epoch U (epoch2time U (EP y m d h mi s)) = EP y m d h mi s /\
  ticks U (epoch2time U (EP y m d h mi s)) =
    (86400 * day_number y m d + 3600 * h + 60 * mi) * U + s /\
  normal U (epoch2time U (EP y m d h mi s)).
Proof.
  intros HU Hd (Hh & Hmi & Hs).
  pose proof (day_number_nonneg y m d Hd) as Hn. pose proof (ymd_ok y m d Hd) as Hymd.
  destruct Hd as (Hy & Hm & _). rewrite epoch2time_eq by assumption.
  destruct (quot_bounds s 60 U HU Hs) as [Hq Hr].
  set (q := Z.quot s U) in *. set (N := day_number y m d) in *.
  set (sec := h * 3600 + mi * 60 + q).
  assert (Hsec : 0 <= sec < 86400) by (unfold sec; lia).
  split; [|split].
  - rewrite time2epoch_eq by (cbn; lia). cbn [gt gs].
    replace (N * 86400 + h * 3600 + mi * 60 + q) with (86400 * N + sec) by (unfold sec; lia).
    rewrite (div_unique' (86400 * N + sec) 86400 N sec) by lia.
    rewrite (mod_unique' (86400 * N + sec) 86400 N sec) by lia.
    rewrite Hymd.
    rewrite (div_unique' sec 3600 h (mi * 60 + q)) by (unfold sec; lia).
    rewrite (mod_unique' sec 3600 h (mi * 60 + q)) by (unfold sec; lia).
    rewrite (div_unique' (mi * 60 + q) 60 mi q) by lia.
    rewrite (mod_unique' sec 60 (h * 60 + mi) q) by (unfold sec; lia).
    f_equal. lia.
  - unfold ticks. cbn [gt gs]. lia.
  - unfold normal. cbn [gs]. lia.
Qed.

(** every day number before 2100 belongs to a valid date *)
Lemma month_start_next y m : 1970 <= y -> 1 <= m -> month_start y (m + 1) = month_start y m + month_len y m.
Proof.
  intros Hy Hm. unfold month_start.
  replace (Z.to_nat (m + 1 - 1)) with (S (Z.to_nat (m - 1))) by lia.
  cbn [months_days]. replace (1 + Z.of_nat (Z.to_nat (m - 1))) with m by lia. lia.
Qed.
Lemma year_start_next y : 1970 <= y -> month_start (y + 1) 1 = month_start y 12 + 31.
Proof.
  intros Hy. unfold month_start.
  replace (Z.to_nat (y + 1 - 1970)) with (S (Z.to_nat (y - 1970))) by lia.
  cbn [years_days]. replace (1970 + Z.of_nat (Z.to_nat (y - 1970))) with y by lia.
  change (Z.to_nat (1 - 1)) with 0%nat. change (Z.to_nat (12 - 1)) with 11%nat.
  cbn [months_days]. unfold month_len, year_len. cbn. destruct (leap y); lia.
Qed.
Lemma month_len_pos y m : 28 <= month_len y m <= 31.
Proof.
  unfold month_len. destruct (m =? 2); [destruct (leap y); lia|].
  destruct ((m =? 4) || (m =? 6) || (m =? 9) || (m =? 11)); lia.
Qed.

Lemma day_exists n : exists y m d, 1970 <= y /\ 1 <= m <= 12 /\ 1 <= d <= month_len y m /\ day_number y m d = Z.of_nat n.
Proof.
  induction n as [|n (y & m & d & Hy & Hm & Hd & E)].
  - exists 1970, 1, 1. repeat split; vm_compute; congruence.
  - destruct (Z.ltb_spec d (month_len y m)).
    + exists y, m, (d + 1). repeat split; try lia. unfold day_number in *. lia.
    + destruct (Z.ltb_spec m 12).
      * exists y, (m + 1), 1. pose proof (month_len_pos y (m + 1)). repeat split; try lia.
        unfold day_number in *. rewrite month_start_next by lia. lia.
      * exists (y + 1), 1, 1. pose proof (month_len_pos (y + 1) 1). repeat split; try lia.
        unfold day_number in *. rewrite year_start_next by lia.
        assert (m = 12) by lia. subst m. change (month_len y 12) with 31 in *. lia.
Qed.

Lemma month_start_2100 : month_start 2100 1 = 47482.
Proof. vm_compute. reflexivity. Qed.

Lemma years_days_mono a b : (a <= b)%nat -> years_days a <= years_days b.
Proof.
  induction 1 as [|b H IH]; [lia|]. cbn [years_days]. unfold year_len. destruct (leap _); lia.
Qed.
Lemma months_days_mono y n : 0 <= months_days y n.
Proof. induction n as [|n IH]; cbn [months_days]; [lia|]. pose proof (month_len_pos y (1 + Z.of_nat n)). lia. Qed.

Lemma day_valid n : 0 <= n < 47482 -> exists y m d, valid_date y m d /\ day_number y m d = n.
Proof.
  intros Hn. destruct (day_exists (Z.to_nat n)) as (y & m & d & Hy & Hm & Hd & E).
  exists y, m, d. split; [|lia]. repeat split; try lia.
  destruct (Z.leb_spec y 2099); [assumption|exfalso].
  pose proof month_start_2100 as M. unfold month_start in M.
  change (months_days 2100 (Z.to_nat (1 - 1))) with 0 in M.
  unfold day_number, month_start in E.
  pose proof (years_days_mono (Z.to_nat (2100 - 1970)) (Z.to_nat (y - 1970)) ltac:(lia)).
  pose proof (months_days_mono y (Z.to_nat (m - 1))). lia.
Qed.

Lemma time_roundtrip U t : 0 < U -> normal U t -> 0 <= gt t < 47482 * 86400 ->
  epoch2time U (time2epoch U t) = t /\
  valid_date (ey (time2epoch U t)) (em (time2epoch U t)) (ed (time2epoch U t)) /\
  valid_tod U (eh (time2epoch U t)) (emi (time2epoch U t)) (es (time2epoch U t)).
Proof.
  intros HU Hn Ht. unfold normal in Hn.
  destruct (day_valid (gt t / 86400)) as (y & m & d & Hv & E).
  { split; [apply Z.div_pos; lia|]. apply Z.div_lt_upper_bound; lia. }
  rewrite time2epoch_eq by lia. rewrite <- E, ymd_ok by assumption. cbn zeta.
  pose proof (Z.div_mod (gt t) 86400 ltac:(lia)) as D.
  pose proof (Z.mod_pos_bound (gt t) 86400 ltac:(lia)) as B.
  set (sec := gt t mod 86400) in *. cbn [ey em ed eh emi es].
  pose proof (Z.div_mod sec 3600 ltac:(lia)) as D1. pose proof (Z.mod_pos_bound sec 3600 ltac:(lia)).
  pose proof (Z.div_mod (sec mod 3600) 60 ltac:(lia)) as D2. pose proof (Z.mod_pos_bound (sec mod 3600) 60 ltac:(lia)).
  assert (D3 : sec mod 60 = (sec mod 3600) mod 60).
  { rewrite D1 at 1. rewrite Z.add_comm. rewrite <- (Z_mod_plus_full (sec mod 3600) (60 * (sec / 3600)) 60).
    f_equal. lia. }
  pose proof (Z.mod_pos_bound (sec mod 3600) 60 ltac:(lia)) as B2. rewrite <- D3 in *.
  set (s60 := sec mod 60) in *.
  split; [|split].
  - destruct Hv as (Hy & Hm & Hd). rewrite epoch2time_eq by lia.
    assert (Q : Z.quot (s60 * U + gs t) U = s60).
    { rewrite Z.quot_div_nonneg by nia. apply (div_unique' _ _ s60 (gs t)); lia. }
    rewrite Q. destruct t as [a b]. cbn [gt gs] in *. f_equal; lia.
  - exact Hv.
  - unfold valid_tod. split; [split|split; [split|nia]].
    + apply Z.div_pos; lia.
    + apply Z.div_lt_upper_bound; lia.
    + apply Z.div_pos; lia.
    + apply Z.div_lt_upper_bound; lia.
Qed.

(** distinct valid epochs denote distinct instants *)
Lemma epoch2time_inj U y m d h mi s y' m' d' h' mi' s' : 0 < U ->
  valid_date y m d -> valid_tod U h mi s -> valid_date y' m' d' -> valid_tod U h' mi' s' ->
  epoch2time U (EP y m d h mi s) = epoch2time U (EP y' m' d' h' mi' s') ->
  EP y m d h mi s = EP y' m' d' h' mi' s'.
Proof.
  intros HU H1 H2 H3 H4 E.
  destruct (epoch_roundtrip U y m d h mi s HU H1 H2) as [<- _].
  destruct (epoch_roundtrip U y' m' d' h' mi' s' HU H3 H4) as [<- _]. now rewrite E.
Qed.

(* ---------- timeadd / timediff ---------- *)
Lemma timediff_ticks U a b : timediff U a b = ticks U a - ticks U b.
Proof. unfold timediff, ticks. lia. Qed.
Lemma timeadd_ticks U t s : ticks U (timeadd U t s) = ticks U t + s.
Proof. unfold ticks, timeadd. cbn [gt gs]. lia. Qed.
Lemma timeadd_normal U t s : 0 < U -> normal U (timeadd U t s).
Proof.
  intros HU. unfold normal, timeadd. cbn [gs].
  pose proof (Z.div_mod (gs t + s) U ltac:(lia)). pose proof (Z.mod_pos_bound (gs t + s) U HU). lia.
Qed.
Lemma normal_eq U a b : 0 < U -> normal U a -> normal U b -> ticks U a = ticks U b -> a = b.
Proof.
  intros HU Ha Hb E. destruct a as [a1 a2], b as [b1 b2]. unfold normal, ticks in *. cbn [gt gs] in *.
  assert (a1 = b1) by nia. f_equal; lia.
Qed.

Lemma timeadd_laws U : 0 < U ->
  (forall t s, normal U (timeadd U t s)) /\
  (forall t s, timediff U (timeadd U t s) t = s) /\
  (forall t a b, timeadd U (timeadd U t a) b = timeadd U t (a + b)) /\
  (forall t, normal U t -> timeadd U t 0 = t) /\
  (forall a b, timediff U a b = - timediff U b a) /\
  (forall a b c, timediff U a b + timediff U b c = timediff U a c) /\
  (forall a b, normal U a -> timeadd U b (timediff U a b) = a).
Proof.
  intros HU. repeat match goal with |- _ /\ _ => split end.
  - intros. now apply timeadd_normal.
  - intros. rewrite timediff_ticks, timeadd_ticks. lia.
  - intros. apply (normal_eq U); auto using timeadd_normal. rewrite !timeadd_ticks. lia.
  - intros t Ht. apply (normal_eq U); auto using timeadd_normal. rewrite timeadd_ticks. lia.
  - intros. rewrite !timediff_ticks. lia.
  - intros. rewrite !timediff_ticks. lia.
  - intros a b Ha. apply (normal_eq U); auto using timeadd_normal.
    rewrite timeadd_ticks, timediff_ticks. lia.
Qed.

Lemma gtime_gt_ok U a b : 0 < U -> normal U a -> normal U b ->
  (gtime_gt a b = true <-> timediff U a b > 0).
Proof.
  intros HU Ha Hb. rewrite timediff_ticks. unfold gtime_gt, normal, ticks in *.
  destruct (Z.gtb_spec (gt a) (gt b)), (Z.eqb_spec (gt a) (gt b)), (Z.gtb_spec (gs a) (gs b));
    cbn [orb andb]; split; intros; try reflexivity; try discriminate; nia.
Qed.

(* ---------- week / time of week ---------- *)
Lemma e0_eq U y m d : 1970 <= y <= 2099 -> 1 <= m <= 12 ->
  epoch2time U (EP y m d 0 0 0) = GT (86400 * day_number y m d) 0.
Proof. intros. rewrite epoch2time_eq by assumption. change (Z.quot 0 U) with 0. f_equal; lia. Qed.

Lemma wt2time_ok U y m d w tow : 0 < U -> 1970 <= y <= 2099 -> 1 <= m <= 12 -> 0 <= tow <= 1000000000 * U ->
  ticks U (wt2time U (EP y m d 0 0 0) w tow) = (86400 * day_number y m d + 604800 * w) * U + tow /\
  normal U (wt2time U (EP y m d 0 0 0) w tow).
Proof.
  intros HU Hy Hm Ht. unfold wt2time. rewrite e0_eq by assumption. cbn [gt gs].
  replace ((tow <? - 1000000000 * U) || (tow >? 1000000000 * U)) with false
    by (symmetry; rewrite orb_false_iff, Z.ltb_ge, Z.gtb_ltb, Z.ltb_ge; lia).
  destruct (quot_bounds tow (1000000000 + 1) U HU ltac:(lia)) as [_ Hr].
  unfold ticks, normal. cbn [gt gs]. split; [|exact Hr]. set (q := Z.quot tow U) in *. nia.
Qed.

Lemma time2wt_ok U y m d t : 0 < U -> 1970 <= y <= 2099 -> 1 <= m <= 12 -> normal U t ->
  86400 * day_number y m d <= gt t ->
  let (w, tow) := time2wt U (EP y m d 0 0 0) t in
  ticks U t = (86400 * day_number y m d + 604800 * w) * U + tow /\ 0 <= tow < 604800 * U /\ 0 <= w.
Proof.
  intros HU Hy Hm Hn Hg. unfold time2wt. rewrite e0_eq by assumption. cbn [gt gs].
  rewrite Z.quot_div_nonneg by lia. change (86400 * 7) with 604800.
  set (x := gt t - 86400 * day_number y m d) in *.
  pose proof (Z.div_mod x 604800 ltac:(lia)). pose proof (Z.mod_pos_bound x 604800 ltac:(lia)).
  assert (0 <= x / 604800) by (apply Z.div_pos; lia).
  unfold ticks, normal in *. repeat split; unfold x in *; nia.
Qed.

Lemma wt_unique U a w t w' t' : 0 < U -> 0 <= t < 604800 * U -> 0 <= t' < 604800 * U ->
  (a + 604800 * w) * U + t = (a + 604800 * w') * U + t' -> w = w' /\ t = t'.
Proof.
  intros HU H1 H2 E. assert (w = w') by nia. subst. split; [reflexivity|lia].
Qed.

Lemma wt_roundtrip U y m d w tow : 0 < U -> 1970 <= y <= 2099 -> 1 <= m <= 12 -> 0 <= w -> 0 <= tow < 604800 * U ->
  time2wt U (EP y m d 0 0 0) (wt2time U (EP y m d 0 0 0) w tow) = (w, tow).
Proof.
  intros HU Hy Hm Hw Ht.
  destruct (wt2time_ok U y m d w tow HU Hy Hm ltac:(lia)) as [E N].
  pose proof (time2wt_ok U y m d (wt2time U (EP y m d 0 0 0) w tow) HU Hy Hm N) as H.
  assert (G : 86400 * day_number y m d <= gt (wt2time U (EP y m d 0 0 0) w tow)).
  { unfold ticks, normal in *. nia. }
  specialize (H G). destruct (time2wt U _ _) as [w' tow']. destruct H as (E' & B & _).
  rewrite E in E'. destruct (wt_unique U _ w tow w' tow' HU ltac:(lia) B E') as [-> ->]. reflexivity.
Qed.

Lemma wt_roundtrip_inv U y m d t : 0 < U -> 1970 <= y <= 2099 -> 1 <= m <= 12 -> normal U t ->
  86400 * day_number y m d <= gt t ->
  let (w, tow) := time2wt U (EP y m d 0 0 0) t in
  0 <= w /\ 0 <= tow < 604800 * U /\ wt2time U (EP y m d 0 0 0) w tow = t.
Proof.
  intros HU Hy Hm N G. pose proof (time2wt_ok U y m d t HU Hy Hm N G) as H.
  destruct (time2wt U _ _) as [w tow]. destruct H as (E & B & Hw). split; [exact Hw|]. split; [exact B|].
  destruct (wt2time_ok U y m d w tow HU Hy Hm ltac:(lia)) as [E' N'].
  apply (normal_eq U); auto. lia.
Qed.

(** the week/tow pairs of the three systems, with the dates of their origins *)
Lemma weeks_all U : 0 < U ->
  (forall w tow, 0 <= w -> 0 <= tow < 604800 * U ->
     time2gpst U (gpst2time U w tow) = (w, tow) /\
     time2gst U (gst2time U w tow) = (w, tow) /\
     time2bdt U (bdt2time U w tow) = (w, tow)) /\
  (forall w tow, 0 <= w -> 0 <= tow < 604800 * U ->
     ticks U (gpst2time U w tow) = (86400 * day_number 1980 1 6 + 604800 * w) * U + tow /\
     ticks U (gst2time U w tow) = (86400 * day_number 1999 8 22 + 604800 * w) * U + tow /\
     ticks U (bdt2time U w tow) = (86400 * day_number 2006 1 1 + 604800 * w) * U + tow /\
     normal U (gpst2time U w tow) /\ normal U (gst2time U w tow) /\ normal U (bdt2time U w tow)).
Proof.
  intros HU. split; intros w tow Hw Ht.
  - unfold time2gpst, time2gst, time2bdt, gpst2time, gst2time, bdt2time, gpst0, gst0, bdt0.
    repeat split; apply wt_roundtrip; lia.
  - destruct (wt2time_ok U 1980 1 6 w tow HU) as [A1 B1]; try lia.
    destruct (wt2time_ok U 1999 8 22 w tow HU) as [A2 B2]; try lia.
    destruct (wt2time_ok U 2006 1 1 w tow HU) as [A3 B3]; try lia.
    unfold gpst2time, gst2time, bdt2time, gpst0, gst0, bdt0. auto 10.
Qed.

Lemma weeks_inv U t : 0 < U -> normal U t -> 86400 * day_number 2006 1 1 <= gt t ->
  (let (w, tow) := time2gpst U t in 0 <= w /\ 0 <= tow < 604800 * U /\ gpst2time U w tow = t) /\
  (let (w, tow) := time2gst U t in 0 <= w /\ 0 <= tow < 604800 * U /\ gst2time U w tow = t) /\
  (let (w, tow) := time2bdt U t in 0 <= w /\ 0 <= tow < 604800 * U /\ bdt2time U w tow = t).
Proof.
  intros HU N H.
  assert (day_number 1980 1 6 <= day_number 2006 1 1 /\ day_number 1999 8 22 <= day_number 2006 1 1)
    by (vm_compute; split; discriminate).
  split; [|split]; apply wt_roundtrip_inv; try assumption; lia.
Qed.

(** clamp: an out of range time of week is taken as 0 *)
Lemma wt_clamp U e w tow : 0 < U -> tow < - 1000000000 * U \/ tow > 1000000000 * U ->
  wt2time U e w tow = wt2time U e w 0.
Proof.
  intros HU H. unfold wt2time.
  replace ((tow <? - 1000000000 * U) || (tow >? 1000000000 * U)) with true.
  - destruct ((0 <? - 1000000000 * U) || (0 >? 1000000000 * U)); reflexivity.
  - symmetry. rewrite orb_true_iff, Z.ltb_lt, Z.gtb_lt. lia.
Qed.

(* ---------- leap seconds ---------- *)
Definition leap_tab : list (Z * Z) :=
  [(1483228800, -18); (1435708800, -17); (1341100800, -16); (1230768000, -15); (1136073600, -14);
   (915148800, -13); (867715200, -12); (820454400, -11); (773020800, -10); (741484800, -9);
   (709948800, -8); (662688000, -7); (631152000, -6); (567993600, -5); (489024000, -4);
   (425865600, -3); (394329600, -2); (362793600, -1)].

Lemma leap_tab_eq U : map (fun '(e, l) => (epoch2time U e, l)) leaps_ = map (fun '(k, l) => (GT k 0, l)) leap_tab.
Proof. vm_compute. reflexivity. Qed.

Fixpoint u2g (tab : list (Z * Z)) (x : Z) : Z :=
  match tab with [] => x | (k, l) :: r => if x >=? k then x - l else u2g r x end.
Fixpoint g2u (tab : list (Z * Z)) (x : Z) : Z :=
  match tab with [] => x | (k, l) :: r => if x + l >=? k then x + l else g2u r x end.

Lemma timeadd_secs U t n : 0 < U -> normal U t -> timeadd U t (n * U) = GT (gt t + n) (gs t).
Proof.
  intros HU N. apply (normal_eq U); auto using timeadd_normal. rewrite timeadd_ticks. unfold ticks. cbn [gt gs]. lia.
Qed.
Lemma timediff_whole U t k : 0 < U -> normal U t -> (timediff U t (GT k 0) >=? 0) = (gt t >=? k).
Proof.
  intros HU N. unfold timediff, normal in *. cbn [gt gs].
  destruct (Z.geb_spec (gt t) k), (Z.geb_spec ((gt t - k) * U + (gs t - 0)) 0); try reflexivity; nia.
Qed.

Lemma utc2gpst_loop_eq U tab tab' t : 0 < U -> normal U t ->
  map (fun '(e, l) => (epoch2time U e, l)) tab = map (fun '(k, l) => (GT k 0, l)) tab' ->
  utc2gpst_loop U tab t = GT (u2g tab' (gt t)) (gs t).
Proof.
  intros HU N. revert tab'. induction tab as [|[e l] tab IH]; intros [|[k l'] tab'] E; try discriminate.
  - destruct t; reflexivity.
  - cbn [map] in E. inversion E as [[E1 E2 E3]]. cbn [utc2gpst_loop u2g]. rewrite E1.
    rewrite timediff_whole by assumption. destruct (gt t >=? k); [|now apply IH].
    replace (- l' * U) with ((- l') * U) by lia. rewrite timeadd_secs by assumption. f_equal; lia.
Qed.
Lemma gpst2utc_loop_eq U tab tab' t : 0 < U -> normal U t ->
  map (fun '(e, l) => (epoch2time U e, l)) tab = map (fun '(k, l) => (GT k 0, l)) tab' ->
  gpst2utc_loop U tab t = GT (g2u tab' (gt t)) (gs t).
Proof.
  intros HU N. revert tab'. induction tab as [|[e l] tab IH]; intros [|[k l'] tab'] E; try discriminate.
  - destruct t; reflexivity.
  - cbn [map] in E. inversion E as [[E1 E2 E3]]. cbn [gpst2utc_loop g2u]. rewrite E1.
    rewrite timeadd_secs by assumption.
    rewrite timediff_whole by (assumption || unfold normal in *; cbn [gs]; lia). cbn [gt].
    destruct (gt t + l' >=? k); [reflexivity|now apply IH].
Qed.

Definition leap_secs (x : Z) : Z := Z.of_nat (length (filter (fun dn => dn * 86400 <=? x) leap_days)).

Lemma leap_count_secs U t : 0 < U -> normal U t -> leap_count U (ticks U t) = leap_secs (gt t).
Proof.
  intros HU N. unfold leap_count, leap_secs. do 2 f_equal. apply filter_ext. intros dn.
  unfold ticks, normal in *. destruct (Z.leb_spec (dn * 86400) (gt t)), (Z.leb_spec (dn * 86400 * U) (gt t * U + gs t)); try reflexivity; nia.
Qed.

