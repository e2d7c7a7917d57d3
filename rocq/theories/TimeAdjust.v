From Verif Require Import Base TimeModel TimeSpec TimeProofs TimeLeap.
From Coq Require Import ZifyBool ZifyNat.
Open Scope Z_scope.

(** [r] is congruent to [a] modulo [m] and within half a period of [c] *)
Definition nearest (m c a r : Z) : Prop := (exists k, r = a + k * m) /\ 2 * Z.abs (r - c) <= m.

(** nearest is unique up to the tie at exactly half a period *)
Lemma nearest_unique m c a r r' : 0 < m -> nearest m c a r -> nearest m c a r' ->
  r = r' \/ 2 * Z.abs (r - c) = m /\ 2 * Z.abs (r' - c) = m.
Proof.
  intros Hm ((k & E) & B) ((k' & E') & B').
  destruct (Z.eq_dec k k') as [->|N]; [left; congruence|right].
  assert (r - r' = (k - k') * m) by lia.
  assert (Z.abs (r - r') >= m) by nia. lia.
Qed.

Lemma adjtime_ok U t c dt : 0 < U -> 0 < dt -> 2 * Z.abs (timediff U t c) <= 3 * dt ->
  nearest dt (ticks U c) (ticks U t) (ticks U (adjtime U t c dt)) /\
  (normal U t -> normal U (adjtime U t c dt)).
Proof.
  intros HU Hd H. unfold adjtime. rewrite timediff_ticks in *.
  destruct (Z.ltb_spec (2 * (ticks U t - ticks U c)) (- dt)).
  - split; [|auto using timeadd_normal]. unfold nearest. rewrite timeadd_ticks. split; [exists 1; lia|lia].
  - destruct (Z.gtb_spec (2 * (ticks U t - ticks U c)) dt).
    + split; [|auto using timeadd_normal]. unfold nearest. rewrite timeadd_ticks. split; [exists (-1); lia|lia].
    + split; [|auto]. split; [exists 0; lia|lia].
Qed.

Lemma adjust_time_week_ok U t c : 0 < U -> Z.abs (timediff U t c) <= 907200 * U ->
  nearest (604800 * U) (ticks U c) (ticks U t) (ticks U (adjust_time_week U t c)) /\
  (normal U t -> normal U (adjust_time_week U t c)).
Proof.
  intros HU H. unfold adjust_time_week. rewrite timediff_ticks in *.
  destruct (Z.gtb_spec (ticks U t - ticks U c) (302400 * U)).
  - split; [|auto using timeadd_normal]. unfold nearest. rewrite timeadd_ticks. split; [exists (-1); lia|lia].
  - destruct (Z.ltb_spec (ticks U t - ticks U c) (- 302400 * U)).
    + split; [|auto using timeadd_normal]. unfold nearest. rewrite timeadd_ticks. split; [exists 1; lia|lia].
    + split; [|auto]. split; [exists 0; lia|lia].
Qed.

Lemma adjday_ok U t c : 0 < U -> Z.abs (timediff U t c) <= 129600 * U ->
  nearest (86400 * U) (ticks U c) (ticks U t) (ticks U (adjday U t c)) /\
  (normal U t -> normal U (adjday U t c)).
Proof.
  intros HU H. unfold adjday. rewrite timediff_ticks in *.
  destruct (Z.ltb_spec (ticks U t - ticks U c) (- 43200 * U)).
  - split; [|auto using timeadd_normal]. unfold nearest. rewrite timeadd_ticks. split; [exists 1; lia|lia].
  - destruct (Z.gtb_spec (ticks U t - ticks U c) (43200 * U)).
    + split; [|auto using timeadd_normal]. unfold nearest. rewrite timeadd_ticks. split; [exists (-1); lia|lia].
    + split; [|auto]. split; [exists 0; lia|lia].
Qed.

Lemma gps_week_of U c : 0 < U -> normal U c -> 86400 * day_number 1980 1 6 <= gt c ->
  let (w, tow) := time2gpst U c in
  ticks U c = (86400 * day_number 1980 1 6 + 604800 * w) * U + tow /\ 0 <= tow < 604800 * U /\ 0 <= w.
Proof. intros. apply time2wt_ok; auto; lia. Qed.

Lemma gpst2time_ok U w tow : 0 < U -> 0 <= tow <= 1000000000 * U ->
  ticks U (gpst2time U w tow) = (86400 * day_number 1980 1 6 + 604800 * w) * U + tow /\ normal U (gpst2time U w tow).
Proof. intros. apply wt2time_ok; auto; lia. Qed.

(** tod2tow: whole days since the GPS epoch are whole days since 1970, so a time of day is
    congruent to the total tick count modulo one day *)
Lemma tod2tow_ok U tod c : 0 < U -> normal U c -> 86400 * day_number 1980 1 6 <= gt c -> 0 <= tod <= 86400 * U ->
  nearest (86400 * U) (ticks U c) tod (ticks U (tod2tow U tod c)) /\ normal U (tod2tow U tod c).
Proof.
  intros HU N G Ht. unfold tod2tow. pose proof (gps_week_of U c HU N G) as H.
  destruct (time2gpst U c) as [w tow]. destruct H as (E & B & Hw).
  set (D := 86400 * U) in *. assert (HD : 0 < D) by lia.
  pose proof (Z.div_mod tow D ltac:(lia)) as Q. pose proof (Z.mod_pos_bound tow D HD) as Qb.
  set (q := tow / D) in *. set (r := tow mod D) in *.
  assert (0 <= q) by (apply Z.div_pos; lia).
  destruct (gpst2time_ok U w (q * D + tod) HU) as [E1 N1].
  { unfold D in *. nia. }
  destruct (adjtime_ok U (gpst2time U w (q * D + tod)) c D HU HD) as [((k & Ek) & Bk) N2].
  { rewrite timediff_ticks, E1, E. lia. }
  split; [|exact (N2 N1)]. split; [|exact Bk].
  rewrite Ek, E1. exists (day_number 1980 1 6 + 7 * w + q + k). unfold D. lia.
Qed.

(** glo2time: the Moscow time of day closest to the reference, converted back through UTC *)
Lemma glo2time_ok U c tod : 0 < U -> normal U c -> 86400 * day_number 1981 1 1 <= gt c -> 0 <= tod < 86400 * U ->
  exists m u, nearest (86400 * U) (ticks U (gpst2utc U c) + 10800 * U) tod m /\
    normal U u /\ ticks U u = m - 10800 * U /\ glo2time U c tod = utc2gpst U u.
Proof.
  intros HU N G Ht. unfold glo2time.
  assert (Nu : normal U (gpst2utc U c)) by (rewrite gpst2utc_eq by assumption; exact N).
  set (t1 := timeadd U (gpst2utc U c) (10800 * U)).
  assert (N1 : normal U t1) by (apply timeadd_normal; assumption).
  assert (E1 : ticks U t1 = ticks U (gpst2utc U c) + 10800 * U) by apply timeadd_ticks.
  assert (G1 : 86400 * day_number 1980 1 6 <= gt t1).
  { assert (Hg : gt c - 18 <= g2u leap_tab (gt c)).
    { clear. assert (Hgen : forall tab x n, (forall k l, In (k, l) tab -> - n <= l) -> 0 <= n -> x - n <= g2u tab x).
      { induction tab as [|[k l] r IH]; intros x n H Hn; cbn [g2u]; [lia|].
        destruct (x + l >=? k); [pose proof (H k l (or_introl eq_refl)); lia|].
        apply IH; auto. intros k' l' HI. apply (H k'). now right. }
      apply (Hgen leap_tab (gt c) 18); [|lia]. intros k l HI.
      destruct (leap_tab_index k l HI) as (i & d & Hd & _ & ->).
      assert (i < 18)%nat by (rewrite <- leap_days_len; apply nth_error_Some; rewrite Hd; discriminate). lia. }
    unfold t1. rewrite gpst2utc_eq by assumption. rewrite timeadd_secs by assumption. cbn [gt].
    assert (day_number 1980 1 6 + 1 <= day_number 1981 1 1) by (vm_compute; discriminate). lia. }
  pose proof (gps_week_of U t1 HU N1 G1) as H.
  destruct (time2gpst U t1) as [w tow]. destruct H as (E & B & Hw).
  set (D := 86400 * U) in *. assert (HD : 0 < D) by lia.
  pose proof (Z.div_mod tow D ltac:(lia)) as Q. pose proof (Z.mod_pos_bound tow D HD) as Qb.
  set (q := tow / D) in *. set (p := tow mod D) in *.
  assert (Hq : 0 <= q) by (apply Z.div_pos; lia).
  set (tod' := if tod <? p - 43200 * U then tod + D else if tod >? p + 43200 * U then tod - D else tod).
  assert (T : (exists k, tod' = tod + k * D /\ -1 <= k <= 1) /\ 2 * Z.abs (tod' - p) <= D).
  { unfold tod'. destruct (Z.ltb_spec tod (p - 43200 * U)); [split; [exists 1; lia|lia]|].
    destruct (Z.gtb_spec tod (p + 43200 * U)); [split; [exists (-1); lia|lia]|split; [exists 0; lia|lia]]. }
  destruct T as [(k & Ek & Hk) Tb].
  assert (W : ticks U (gpst2time U w (tow - p + tod')) = (86400 * day_number 1980 1 6 + 604800 * w) * U + (tow - p + tod')).
  { unfold gpst2time, wt2time, gpst0. rewrite e0_eq by lia.
    replace ((tow - p + tod' <? - 1000000000 * U) || (tow - p + tod' >? 1000000000 * U)) with false
      by (symmetry; rewrite orb_false_iff, Z.ltb_ge, Z.gtb_ltb, Z.ltb_ge; unfold D in *; lia).
    unfold ticks. cbn [gt gs]. change (86400 * 7) with 604800. ring. }
  exists (ticks U t1 - p + tod'), (timeadd U (gpst2time U w (tow - p + tod')) (- 10800 * U)).
  split; [|split; [apply timeadd_normal; assumption|split]].
  - split.
    + rewrite E. exists (day_number 1980 1 6 + 7 * w + q + k). unfold D in *. lia.
    + rewrite <- E1. lia.
  - rewrite timeadd_ticks, W, E. lia.
  - unfold tod'. reflexivity.
Qed.

(* ---------- GLONASS epoch of the RTCM SSR messages ---------- *)
Lemma g2u_late x : 1483228818 <= x -> g2u leap_tab x = x - 18.
Proof. intros H. unfold leap_tab. cbn [g2u]. replace (x + -18 >=? 1483228800) with true by lia. lia. Qed.
Lemma leap_secs_late x : 1483228800 <= x -> leap_secs x = 18.
Proof.
  intros H. rewrite <- count_leap_secs. rewrite count_all; [reflexivity|].
  intros k l HI. destruct (leap_tab_index k l HI) as (i & d & Hd & -> & _).
  assert (F : forallb (fun d => 86400 * d <=? 1483228800) leap_days = true) by (vm_compute; reflexivity).
  rewrite forallb_forall in F. specialize (F d (nth_error_In _ _ Hd)). lia.
Qed.

Lemma rtcm_glo_late U c tod : 0 < U -> normal U c -> 1483358418 <= gt c -> 0 <= tod < 86400 * U ->
  rtcm_glo_time U c tod = timeadd U (glo2time U c tod) (18 * U).
Proof.
  intros HU N G Ht. assert (D : 86400 * day_number 1981 1 1 = 347155200) by (vm_compute; reflexivity).
  destruct (glo2time_ok U c tod HU N ltac:(lia) Ht) as (m & u & (_ & Hb) & Nu & Eu & Eg).
  rewrite gpst2utc_eq in Hb by assumption. rewrite g2u_late in Hb by lia.
  assert (1483228800 <= gt u) by (unfold ticks, normal in *; cbn [gt gs] in *; nia).
  unfold rtcm_glo_time. rewrite Eg. rewrite (utc2gpst_eq U u) by assumption. rewrite leap_secs_late by assumption.
  rewrite utc2gpst_eq by assumption. cbn [gt gs]. rewrite leap_secs_late by lia.
  rewrite timeadd_secs by assumption. reflexivity.
Qed.

(* ---------- GLONASS string epoch (gep2time), day-of-year times ---------- *)
Lemma year_all : forallb (fun y => (y - 1970) * 365 + (y - 1969) / 4 =? month_start y 1) (zrange 1970 130) = true.
Proof. vm_compute. reflexivity. Qed.
Lemma year_ok y : 1970 <= y <= 2099 -> (y - 1970) * 365 + (y - 1969) / 4 = month_start y 1.
Proof.
  intros H. pose proof (proj1 (forallb_forall _ _) year_all y) as F. rewrite zrange_in in F.
  specialize (F ltac:(lia)). lia.
Qed.

Lemma doy2time_ok y doy sec : 1970 <= y <= 2099 ->
  doy2time y doy sec = GT (86400 * (day_number y 1 1 + doy - 1) + sec) 0.
Proof.
  intros H. unfold doy2time. replace ((y =? 0) && (doy =? 0) && (sec =? 0)) with false by lia.
  cbn zeta. rewrite year_ok by assumption. unfold day_number. f_equal. lia.
Qed.

Lemma four_years : forallb (fun n => let y := 1996 + 4 * (n - 1) in
    (month_start (y + 1) 1 =? month_start y 1 + 366) && (month_start (y + 2) 1 =? month_start y 1 + 731) &&
    (month_start (y + 3) 1 =? month_start y 1 + 1096)) (zrange 1 26) = true.
Proof. vm_compute. reflexivity. Qed.

Lemma gep2time_ok U N4 Nt sod : 0 < U -> 1 <= N4 <= 26 -> 1 <= Nt -> 0 <= sod < 86400 * U ->
  exists u, normal U u /\
    ticks U u = (86400 * (day_number (1996 + 4 * (N4 - 1)) 1 1 + Nt - 1) - 10800) * U + sod /\
    gep2time U N4 Nt sod = utc2gpst U u.
Proof.
  intros HU H4 Ht Hs. unfold gep2time.
  pose proof (proj1 (forallb_forall _ _) four_years N4) as F. rewrite zrange_in in F. specialize (F ltac:(lia)).
  cbn beta zeta in F. set (y := 1996 + 4 * (N4 - 1)) in *.
  destruct (if Nt <=? 366 then (1, Nt) else if Nt <=? 731 then (2, Nt - 366)
            else if Nt <=? 1096 then (3, Nt - 731) else (4, Nt - 1096)) as [j doy] eqn:Ej.
  exists (timeadd U (GT (((y + j - 1 - 1970) * 365 + (y + j - 1 - 1969) / 4 + doy - 1) * 86400 + Z.quot sod U)
       (sod - Z.quot sod U * U)) (- 10800 * U)).
  split; [apply timeadd_normal; assumption|]. split; [|reflexivity].
  assert (Hj : 1 <= j <= 4).
  { destruct (Nt <=? 366); [injection Ej; lia|]. destruct (Nt <=? 731); [injection Ej; lia|].
    destruct (Nt <=? 1096); injection Ej; lia. }
  rewrite year_ok by (unfold y; lia). rewrite timeadd_ticks. unfold ticks. cbn [gt gs].
  assert (E : month_start (y + j - 1) 1 + doy - 1 = day_number y 1 1 + Nt - 1).
  { unfold day_number. destruct (Z.leb_spec Nt 366); [injection Ej as <- <-|].
    - replace (y + 1 - 1) with y by lia. lia.
    - destruct (Z.leb_spec Nt 731); [injection Ej as <- <-|].
      + replace (y + 2 - 1) with (y + 1) by lia. lia.
      + destruct (Z.leb_spec Nt 1096); injection Ej as <- <-.
        * replace (y + 3 - 1) with (y + 2) by lia. lia.
        * replace (y + 4 - 1) with (y + 3) by lia. lia. }
  rewrite E. ring.
Qed.

Lemma time2doy_ok U y m d h mi s : 0 < U -> valid_date y m d -> valid_tod U h mi s ->
  time2doy U (epoch2time U (EP y m d h mi s)) =
  (86400 * (day_number y m d - day_number y 1 1 + 1) + 3600 * h + 60 * mi) * U + s.
Proof.
  intros HU Hd Ht. unfold time2doy.
  destruct (epoch_roundtrip U y m d h mi s HU Hd Ht) as (E1 & E2 & _). rewrite E1. cbn [ey].
  destruct Hd as (Hy & _). rewrite e0_eq by lia. rewrite timediff_ticks, E2. unfold ticks. cbn [gt gs]. ring.
Qed.

(* ---------- GPS week number of RTCM ephemerides ---------- *)
Lemma adjustweek_ok U w c : 0 < U -> normal U c -> 86400 * day_number 1980 1 6 <= gt c ->
  let cw := fst (time2gpst U c) in
  adjustweek U w c mod 1024 = w mod 1024 /\ adjustweek U w c / 1024 = cw / 1024.
Proof.
  intros HU N G. unfold adjustweek. destruct (time2gpst U c) as [cw tow]. cbn [fst].
  rewrite Z.mod_add by lia. rewrite Z.mod_mod by lia. split; [reflexivity|].
  rewrite Z.div_add by lia. rewrite (Z.div_small (w mod 1024)) by (apply Z.mod_pos_bound; lia). lia.
Qed.

Lemma dtadjust_week U a b : 0 < U -> Z.abs (timediff U a b) <= 1209600 * U ->
  (exists k, dtadjust U a b = timediff U a b + k * (604800 * U)) /\ Z.abs (dtadjust U a b) <= 604800 * U.
Proof.
  intros HU H. unfold dtadjust. destruct (Z.gtb_spec (timediff U a b) (604800 * U)).
  - split; [exists (-1); lia|lia].
  - destruct (Z.ltb_spec (timediff U a b) (- 604800 * U)); [split; [exists 1; lia|lia]|split; [exists 0; lia|lia]].
Qed.
