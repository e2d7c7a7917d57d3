From Verif Require Import Base TimeModel TimeSpec TimeProofs.
From Coq Require Import ZifyBool ZifyNat.
Open Scope Z_scope.

(** shape of the table: latest first, the entry with n later-listed ones has offset -(n+1) *)
Fixpoint good (tab : list (Z * Z)) : Prop :=
  match tab with
  | [] => True
  | (k, l) :: r => l = - Z.of_nat (length r) - 1 /\ (forall k' l', In (k', l') r -> k' + 2 <= k) /\ good r
  end.

Lemma leap_tab_good : good leap_tab.
Proof.
  unfold leap_tab. cbn [good length].
  repeat match goal with |- _ /\ _ => split end; try reflexivity;
    intros k' l' H; cbn [In] in H;
    repeat match goal with HH : _ \/ _ |- _ => destruct HH as [HH|HH] end;
    try contradiction;
    match goal with HH : (_, _) = (_, _) |- _ => injection HH as <- <- end; lia.
Qed.

Definition count (tab : list (Z * Z)) (x : Z) : Z := Z.of_nat (length (filter (fun '(k, _) => k <=? x) tab)).

Lemma count_le tab x : 0 <= count tab x <= Z.of_nat (length tab).
Proof.
  unfold count. induction tab as [|[k l] r IH]; cbn [filter length]; [lia|].
  destruct (k <=? x); cbn [length]; lia.
Qed.
Lemma count_all tab x : (forall k l, In (k, l) tab -> k <= x) -> count tab x = Z.of_nat (length tab).
Proof.
  unfold count. induction tab as [|[k l] r IH]; intros H; cbn [filter length]; [lia|].
  pose proof (H k l (or_introl eq_refl)). replace (k <=? x) with true by lia. cbn [length].
  specialize (IH (fun a b h => H a b (or_intror h))). lia.
Qed.

Lemma u2g_ok tab x : good tab -> u2g tab x = x + count tab x.
Proof.
  induction tab as [|[k l] r IH]; intros G; cbn [u2g]; [unfold count; cbn; lia|].
  cbn [good] in G. destruct G as (El & Hk & Gr). destruct (Z.geb_spec x k) as [H|H].
  - rewrite count_all; [cbn [length]; lia|]. intros a b [E|E]; [injection E; lia|].
    specialize (Hk a b E). lia.
  - rewrite IH by assumption. unfold count. cbn [filter]. now replace (k <=? x) with false by lia.
Qed.

Lemma g2u_u2g tab x : good tab -> g2u tab (u2g tab x) = x.
Proof.
  induction tab as [|[k l] r IH]; intros G; cbn [u2g g2u]; [reflexivity|].
  pose proof G as G0. cbn [good] in G. destruct G as (El & Hk & Gr). destruct (Z.geb_spec x k) as [H|H].
  - replace (x - l + l >=? k) with true by lia. lia.
  - pose proof (u2g_ok r x Gr). pose proof (count_le r x).
    replace (u2g r x + l >=? k) with false by lia. now apply IH.
Qed.

Lemma g2u_lt tab x K : good tab -> (forall k l, In (k, l) tab -> k + 2 <= K) ->
  x - Z.of_nat (length tab) < K -> g2u tab x < K.
Proof.
  induction tab as [|[k l] r IH]; intros G HK H; cbn [g2u length] in *; [lia|].
  destruct G as (El & Hk & Gr). destruct (Z.geb_spec (x + l) k) as [H1|H1]; [lia|].
  apply IH; [assumption| |pose proof (HK k l (or_introl eq_refl)); lia].
  intros a b HI. apply (HK a b). now right.
Qed.

Lemma u2g_g2u tab x : good tab -> (forall k l, In (k, l) tab -> x <> k - l - 1) -> u2g tab (g2u tab x) = x.
Proof.
  induction tab as [|[k l] r IH]; intros G HL; cbn [u2g g2u]; [reflexivity|].
  pose proof G as G0. cbn [good] in G. destruct G as (El & Hk & Gr). destruct (Z.geb_spec (x + l) k) as [H|H].
  - replace (x + l >=? k) with true by lia. lia.
  - pose proof (HL k l (or_introl eq_refl)).
    pose proof (g2u_lt r x k Gr Hk ltac:(lia)). replace (g2u r x >=? k) with false by lia.
    apply IH; auto. intros a b E. apply HL. now right.
Qed.

(** inside an inserted leap second the inverse is one second late *)
Lemma u2g_g2u_leap tab x k l : good tab -> In (k, l) tab -> x = k - l - 1 -> u2g tab (g2u tab x) = x + 1.
Proof.
  induction tab as [|[k1 l1] r IH]; intros G HI Hx; [contradiction|]. cbn [u2g g2u].
  cbn [good] in G. destruct G as (El & Hk & Gr). destruct HI as [E|HI].
  - injection E as -> ->. replace (x + l >=? k) with false by lia.
    assert (Hg : g2u r x = k).
    { destruct r as [|[k2 l2] r2]; cbn [g2u length] in *; [lia|].
      destruct Gr as (El2 & Hk2 & Gr2). pose proof (Hk k2 l2 (or_introl eq_refl)).
      replace (x + l2 >=? k2) with true by lia. lia. }
    rewrite Hg. replace (k >=? k) with true by lia. lia.
  - specialize (Hk k l HI). specialize (IH Gr HI Hx).
    assert (Hl : - l <= Z.of_nat (length r)).
    { clear - Gr HI. induction r as [|[a b] r IH]; [contradiction|]. cbn [good length] in *.
      destruct Gr as (E & _ & Gr). destruct HI as [EE|HI]; [injection EE as -> ->; lia|].
      specialize (IH Gr HI). lia. }
    replace (x + l1 >=? k1) with false by lia.
    assert (g2u r x < k1).
    { assert (Hub : forall tab, good tab -> In (k, l) tab -> g2u tab (k - l - 1) <= k).
      { clear. induction tab as [|[a b] t IH]; intros G HI; [contradiction|]. cbn [g2u].
        cbn [good] in G. destruct G as (E & Ht & Gt). destruct HI as [EE|HI].
        - injection EE as -> ->. replace (k - l - 1 + l >=? k) with false by lia.
          enough (g2u t (k - l - 1) < k + 1) by lia. apply g2u_lt; auto; [|lia].
          intros a b HH. specialize (Ht a b HH). lia.
        - specialize (Ht k l HI). destruct (Z.geb_spec (k - l - 1 + b) a); [|now apply IH].
          assert (- l <= Z.of_nat (length t)).
          { clear - Gt HI. induction t as [|[c d] r IH]; [contradiction|]. cbn [good length] in *.
            destruct Gt as (E & _ & Gr). destruct HI as [EE|HI]; [injection EE as -> ->; lia|].
            specialize (IH Gr HI). lia. }
          lia. }
      subst x. specialize (Hub r Gr HI). lia. }
    replace (g2u r x >=? k1) with false by lia. exact IH.
Qed.

Lemma count_mono tab x y : x <= y -> count tab x <= count tab y.
Proof.
  intros H. unfold count. induction tab as [|[d l] r IH]; [cbn; lia|]. cbn [filter].
  destruct (Z.leb_spec d x), (Z.leb_spec d y); cbn [length]; lia.
Qed.
Lemma u2g_mono tab x y : good tab -> x < y -> u2g tab x < u2g tab y.
Proof. intros G H. rewrite !u2g_ok by assumption. pose proof (count_mono tab x y). lia. Qed.

(** the table of the code against the list of leap dates *)
Lemma leap_tab_dates : rev (map fst leap_tab) = map (fun d => d * 86400) leap_days.
Proof. vm_compute. reflexivity. Qed.

Lemma filter_len_rev {A} (f : A -> bool) l : length (filter f (rev l)) = length (filter f l).
Proof.
  induction l as [|a l IH]; [reflexivity|]. cbn [rev]. rewrite filter_app, app_length. cbn [filter].
  destruct (f a); cbn [length]; lia.
Qed.
Lemma filter_len_map {A B} (g : A -> B) (f : B -> bool) l : length (filter f (map g l)) = length (filter (fun a => f (g a)) l).
Proof. induction l as [|a l IH]; [reflexivity|]. cbn [map filter]. destruct (f (g a)); cbn [length]; lia. Qed.

Lemma count_leap_secs x : count leap_tab x = leap_secs x.
Proof.
  unfold count, leap_secs. f_equal.
  transitivity (length (filter (fun k => k <=? x) (map (fun d => d * 86400) leap_days))).
  - rewrite <- leap_tab_dates, filter_len_rev, filter_len_map.
    apply (f_equal (@length _)). apply filter_ext. intros [k l]. reflexivity.
  - now rewrite filter_len_map.
Qed.

(** [x] (whole seconds of GPS time) is the inserted second 23:59:60 of the i-th leap date *)
Definition leap_second (x : Z) : Prop :=
  exists i d, nth_error leap_days i = Some d /\ x = 86400 * d + Z.of_nat i.

Lemma leap_tab_index k l : In (k, l) leap_tab ->
  exists i d, nth_error leap_days i = Some d /\ k = 86400 * d /\ l = - Z.of_nat i - 1.
Proof.
  intros H.
  assert (F : forallb (fun '(k, l) => match nth_error leap_days (Z.to_nat (- l - 1)) with
       | Some d => (k =? 86400 * d) && (l <? 0) | None => false end) leap_tab = true) by (vm_compute; reflexivity).
  rewrite forallb_forall in F. specialize (F _ H). cbn beta iota in F.
  destruct (nth_error leap_days (Z.to_nat (- l - 1))) as [d|] eqn:E; [|discriminate].
  exists (Z.to_nat (- l - 1)), d. split; [exact E|]. lia.
Qed.
Lemma leap_days_len : length leap_days = 18%nat.
Proof. vm_compute. reflexivity. Qed.
Lemma leap_index_tab i d : nth_error leap_days i = Some d -> In (86400 * d, - Z.of_nat i - 1) leap_tab.
Proof.
  intros H. assert (Hi : (i < 18)%nat) by (rewrite <- leap_days_len; apply nth_error_Some; rewrite H; discriminate).
  assert (F : forallb (fun i => match nth_error leap_days i with
       | Some d => existsb (fun '(k, l) => (k =? 86400 * d) && (l =? - Z.of_nat i - 1)) leap_tab
       | None => false end) (seq 0 18) = true) by (vm_compute; reflexivity).
  rewrite forallb_forall in F. specialize (F i ltac:(apply in_seq; lia)). cbn beta in F.
  rewrite H in F. apply existsb_exists in F. destruct F as ([k l] & HI & E).
  replace (86400 * d) with k by lia. replace (- Z.of_nat i - 1) with l by lia. exact HI.
Qed.

Lemma utc2gpst_eq U t : 0 < U -> normal U t -> utc2gpst U t = GT (gt t + leap_secs (gt t)) (gs t).
Proof.
  intros HU N. unfold utc2gpst. rewrite (utc2gpst_loop_eq U leaps_ leap_tab t HU N (leap_tab_eq U)).
  now rewrite u2g_ok, count_leap_secs by apply leap_tab_good.
Qed.
Lemma gpst2utc_eq U t : 0 < U -> normal U t -> gpst2utc U t = GT (g2u leap_tab (gt t)) (gs t).
Proof. intros HU N. exact (gpst2utc_loop_eq U leaps_ leap_tab t HU N (leap_tab_eq U)). Qed.

Lemma utc2gpst_ok U t : 0 < U -> normal U t ->
  ticks U (utc2gpst U t) = ticks U t + leap_count U (ticks U t) * U /\ normal U (utc2gpst U t).
Proof.
  intros HU N. rewrite utc2gpst_eq, leap_count_secs by assumption. unfold ticks, normal in *. cbn [gt gs].
  split; lia.
Qed.
Lemma utc_roundtrip U t : 0 < U -> normal U t -> gpst2utc U (utc2gpst U t) = t.
Proof.
  intros HU N. unfold utc2gpst. rewrite (utc2gpst_loop_eq U leaps_ leap_tab t HU N (leap_tab_eq U)).
  rewrite gpst2utc_eq by assumption. cbn [gt gs]. rewrite g2u_u2g by apply leap_tab_good. now destruct t.
Qed.
Lemma gpst_roundtrip U t : 0 < U -> normal U t -> ~ leap_second (gt t) -> utc2gpst U (gpst2utc U t) = t.
Proof.
  intros HU N L. rewrite gpst2utc_eq by assumption. unfold utc2gpst.
  rewrite (utc2gpst_loop_eq U leaps_ leap_tab (GT _ (gs t)) HU N (leap_tab_eq U)). cbn [gt gs].
  rewrite u2g_g2u; [now destruct t|apply leap_tab_good|].
  intros k l HI E. apply L. destruct (leap_tab_index k l HI) as (i & d & H1 & H2 & H3).
  exists i, d. split; [exact H1|]. lia.
Qed.
Lemma gpst_leap U t : 0 < U -> normal U t -> leap_second (gt t) ->
  utc2gpst U (gpst2utc U t) = timeadd U t U.
Proof.
  intros HU N (i & d & H1 & H2). rewrite gpst2utc_eq by assumption. unfold utc2gpst.
  rewrite (utc2gpst_loop_eq U leaps_ leap_tab (GT _ (gs t)) HU N (leap_tab_eq U)). cbn [gt gs].
  rewrite (u2g_g2u_leap leap_tab (gt t) _ _ leap_tab_good (leap_index_tab i d H1)) by lia.
  pose proof (timeadd_secs U t 1 HU N) as E. rewrite Z.mul_1_l in E. now rewrite E.
Qed.
Lemma utc2gpst_mono U a b : 0 < U -> normal U a -> normal U b ->
  ticks U a < ticks U b -> ticks U (utc2gpst U a) < ticks U (utc2gpst U b).
Proof.
  intros HU Na Nb H. rewrite !utc2gpst_eq by assumption. rewrite <- !count_leap_secs. unfold ticks, normal in *. cbn [gt gs].
  assert (gt a <= gt b) by nia. pose proof (count_mono leap_tab (gt a) (gt b) ltac:(assumption)). nia.
Qed.
(** gpst2utc is order preserving on times outside inserted leap seconds *)
Lemma gpst2utc_mono U a b : 0 < U -> normal U a -> normal U b -> ~ leap_second (gt a) -> ~ leap_second (gt b) ->
  ticks U a < ticks U b -> ticks U (gpst2utc U a) < ticks U (gpst2utc U b).
Proof.
  intros HU Na Nb La Lb H.
  assert (NA : normal U (gpst2utc U a)) by (rewrite gpst2utc_eq by assumption; exact Na).
  assert (NB : normal U (gpst2utc U b)) by (rewrite gpst2utc_eq by assumption; exact Nb).
  destruct (Z.ltb_spec (ticks U (gpst2utc U a)) (ticks U (gpst2utc U b))) as [Hlt|Hge]; [exact Hlt|exfalso].
  assert (ticks U b <= ticks U a); [|lia].
  rewrite <- (gpst_roundtrip U a HU Na La), <- (gpst_roundtrip U b HU Nb Lb).
  destruct (Z.eq_dec (ticks U (gpst2utc U a)) (ticks U (gpst2utc U b))) as [E|E].
  - rewrite (normal_eq U _ _ HU NA NB E). lia.
  - pose proof (utc2gpst_mono U (gpst2utc U b) (gpst2utc U a) HU NB NA ltac:(lia)). lia.
Qed.

(** BDT and GPST *)
Lemma bdt_offset_ok U : 0 < U ->
  (forall t, ticks U (bdt2gpst U t) = ticks U t + 14 * U /\ normal U (bdt2gpst U t)) /\
  (forall t, normal U t -> gpst2bdt U (bdt2gpst U t) = t /\ bdt2gpst U (gpst2bdt U t) = t) /\
  (let bdt_epoch := GT (86400 * day_number 2006 1 1) 0 in bdt2gpst U bdt_epoch = utc2gpst U bdt_epoch).
Proof.
  intros HU. destruct (timeadd_laws U HU) as (Hn & _ & Ha & H0 & _).
  split; [|split].
  - intros t. split; [apply timeadd_ticks|apply Hn].
  - intros t Ht. unfold gpst2bdt, bdt2gpst. rewrite !Ha.
    split; (etransitivity; [|apply H0; exact Ht]); f_equal; ring.
  - cbn zeta. set (e := GT _ 0). assert (He : normal U e) by (split; cbn; lia).
    destruct (utc2gpst_ok U e HU He) as [Ht Hn2].
    assert (Hc : leap_count U (ticks U e) = 14).
    { unfold leap_count, ticks, e. cbn [gt gs]. rewrite Z.add_0_r.
      rewrite (filter_ext _ (fun dn => dn <=? day_number 2006 1 1)); [vm_compute; reflexivity|].
      intros dn. destruct (Z.leb_spec dn (day_number 2006 1 1)); [apply Z.leb_le|apply Z.leb_gt]; nia. }
    rewrite Hc in Ht.
    assert (Ht' : ticks U (bdt2gpst U e) = ticks U e + 14 * U) by apply timeadd_ticks.
    pose proof (Hn e (14 * U)) as Hn'. change (timeadd U e (14 * U)) with (bdt2gpst U e) in Hn'.
    rewrite <- Ht in Ht'. destruct (bdt2gpst U e) as [a b], (utc2gpst U e) as [c d].
    unfold ticks, normal in *. cbn [gt gs] in *. assert (a = c) by nia. subst. f_equal. lia.
Qed.
