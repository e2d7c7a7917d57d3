(** SBAS message 9; times of FDMA strings. *)
From Verif Require Import SatModel SatProofs TimeModel TimeSpec TimeProofs TimeAdjust CssrState RawModel RawSpec RawFacts RawGal NavSpec GloModel GloSpec GloFacts GloFdma GloIrn.
From Verif Require Import Base BaseFacts FieldFacts.
From Coq Require Import ZifyBool ZifyNat.
Notation length := List.length.
Open Scope Z_scope.

Lemma ura_ok u : U 4 u -> nth (Z.to_nat u) sbs_ura 0 = sgeo_ura u.
Proof.
  intros H. assert (G : forallb (fun u => nth (Z.to_nat u) sbs_ura 0 =? sgeo_ura u) (TimeProofs.zrange 0 16) = true) by (vm_compute; reflexivity).
  pose proof (proj1 (forallb_forall _ _) G u) as F. rewrite TimeProofs.zrange_in in F. unfold U in H. change (2 ^ 4) with 16 in H. change (Z.of_nat 16) with 16 in F.
  specialize (F ltac:(lia)). cbv beta in F. lia.
Qed.
Lemma sbs_ok week tow sat f rest : sgeo_ok f -> 0 <= week -> 0 <= tow < 604800 ->
  exists t0, nearest 86400 (86400 * gps0 + 604800 * week + tow) (16 * n_t0 f) t0 /\
    decode_sbs_l1 week tow sat (enc (sgeo_fields f) ++ rest) = Some (Some (sgeo_of sat (86400 * gps0 + 604800 * week + tow) t0 f)).
Proof.
  intros (Hp & (H1 & H2 & H3) & (? & ? & ? & ? & ? & ? & ? & ? & ? & ? & ?)) Hw Ht. set (tof := 86400 * gps0 + 604800 * week + tow).
  destruct (tod2tow_ok 1 (16 * n_t0 f) (GT tof 0) ltac:(lia)) as [N1 N2]; [unfold normal; cbn [gs]; lia|cbn [gt]; fold gps0; unfold tof; lia|lia|].
  unfold ticks in N1. cbn [gt gs] in N1. replace (tof * 1 + 0) with tof in N1 by lia. change (86400 * 1) with 86400 in N1.
  destruct (tod2tow 1 (16 * n_t0 f) (GT tof 0)) as [t s] eqn:Et. unfold normal in N2. cbn [gt gs] in *. assert (s = 0) by lia. subst s.
  exists t. split; [now replace (t * 1 + 0) with t in N1 by lia|].
  unfold decode_sbs_l1. set (b := enc (sgeo_fields f) ++ rest). assert (A : At b 0 (enc (sgeo_fields f))) by (exists [], rest; split; reflexivity). clearbody b. unfold sgeo_fields in A.
  assert (U 8 (n_pre f)) by (unfold U; lia). assert (U 13 (n_t0 f)) by (unfold U; lia). assert (U 6 9) by (unfold U; lia). rds.
  replace ((n_pre f =? 83) || (n_pre f =? 154) || (n_pre f =? 198)) with true by lia. cbn [negb Z.eqb Pos.eqb]. rds.
  assert (P1 : 0 <= tow <= 1000000000) by lia. rewrite (gpst_exact week tow P1). change (at_week gps0 week tow) with (GT tof 0). rewrite (Z.mul_comm (n_t0 f)), Et, (ura_ok _ H3). unfold sgeo_of.
  do 2 f_equal. destruct (n_ura f =? 15); reflexivity.
Qed.
Lemma sbs_other week tow sat pre mt body rest : U 8 pre -> U 6 mt -> ~ (pre = 83 \/ pre = 154 \/ pre = 198) \/ mt <> 9 ->
  decode_sbs_l1 week tow sat (enc [(8 # pre); (6 # mt); (8 # body)] ++ rest) = Some None.
Proof.
  intros H1 H2 H. unfold decode_sbs_l1. set (b := enc _ ++ rest). assert (A : At b 0 (enc [(8 # pre); (6 # mt); (8 # body)])) by (exists [], rest; split; reflexivity). clearbody b.
  rds. destruct ((pre =? 83) || (pre =? 154) || (pre =? 198)) eqn:Q; cbn [negb]; [|reflexivity]. now replace (mt =? 9) with false by lia.
Qed.

(** a time of day in the day around the reception *)
Lemma gtod_near week time x : 0 <= time < 604800 -> -10800 <= x < 75600 -> nearest 86400 (86400 * gps0 + 604800 * week + time) x (gtod week time x).
Proof.
  intros H1 H2. unfold gtod, gday, glo_day. pose proof (Z.div_mod time 86400 ltac:(lia)) as E. pose proof (Z.mod_pos_bound time 86400 ltac:(lia)) as B.
  set (r := time mod 86400) in *. set (k := time / 86400) in *. set (g := gps0). clearbody g. unfold nearest.
  destruct (x <? r - 43200) eqn:Q1; [|destruct (x >? r + 43200) eqn:Q2].
  - split; [exists (g + 7 * week + k + 1); lia|lia].
  - split; [exists (g + 7 * week + k - 1); lia|lia].
  - split; [exists (g + 7 * week + k); lia|lia].
Qed.
Lemma fdma_near h e : Forall fev_ok h -> fev_ok e ->
  let t := 86400 * gps0 + 604800 * fe_week e + fe_time e in
  let L k := last_of (fwant (fe_prn e) k) (h ++ [e]) in
  exists d d' tod, ffeeds h [] = Some d /\ (forall x, -10800 <= x < 75600 -> nearest 86400 t x (tod x)) /\
    ffeed e d = Some (d', if (1 <=? gno (g_str (fe_str e))) && (gno (g_str (fe_str e)) <=? 5) then
      fdma_of (prn2sat GLO (fe_prn e)) (fe_freq e) (t - fe_time e mod 86400) tod (L 1, L 2, L 3, L 4, L 5) else None).
Proof.
  intros Hh He t L. destruct (fdma_any h e Hh He) as (d & d' & E1 & E2). exists d, d', (gtod (fe_week e) (fe_time e)). split; [exact E1|]. destruct He as (_ & Ht & _).
  split; [intros x Hx; now apply gtod_near|]. rewrite E2. unfold gres. replace (gday (fe_week e) (fe_time e)) with (t - fe_time e mod 86400) by (unfold gday, t; lia). reflexivity.
Qed.

(** NavIC *)
Lemma irn_hist h e : Forall iev_ok h -> iev_ok e ->
  let L k := last_of (iwant (ie_prn e) k) (h ++ [e]) in
  L 0 <> None \/ (forall f, L 1 = Some f -> i_tow f <> 1) ->
  exists d d', ifeeds h irn_new = Some d /\
    ifeed e d = Some (d', if ino (i_sub (ie_frame e)) <=? 2 then irn_of (prn2sat IRN (ie_prn e)) (ie_week e) (fun w _ _ => w) far_week (L 0, L 1) else None).
Proof.
  intros Hh He L H. destruct (irn_any h e Hh He) as (d & d' & E1 & E2). exists d, d'. split; [exact E1|]. rewrite E2. unfold ires. change (last_of (iwant (ie_prn e) 0) (h ++ [e])) with (L 0).
  change (last_of (iwant (ie_prn e) 1) (h ++ [e])) with (L 1). destruct (ino (i_sub (ie_frame e)) <=? 2); [|reflexivity].
  assert (G0 : forall f, irn_of (prn2sat IRN (ie_prn e)) (ie_week e) (fun w _ _ => w) far_week (Some f, Some izero) = None) by (intros f; unfold irn_of; destruct (i_sub f); reflexivity).
  destruct (L 1) as [f1|]; cbn [ior]; [|rewrite G0; now destruct (L 0)]. destruct (L 0) as [f0|]; [reflexivity|]. cbn [ior].
  destruct H as [H|H]; [congruence|]. unfold irn_of, izero. cbn [i_sub i_tow]. destruct (i_sub f1); try reflexivity. specialize (H f1 eq_refl).
  replace (i_tow f1 =? 0 + 1) with false by lia. reflexivity.
Qed.
Lemma irn_week sat week f1 f2 : (match i_sub f1, i_sub f2 with
    | IA wn _ _ _ _ toc _ _ _ _ _ _ _ _ _ _ _ _, IB _ toe _ _ _ _ _ _ =>
        Z.abs (16 * toe - 12 * i_tow f1) <= 302400 /\ Z.abs (16 * toc - 12 * i_tow f1) <= 302400
    | _, _ => True end) ->
  irn_of sat week (fun w _ _ => w) far_week (Some f1, Some f2) = irn_of sat week near_week (fun w _ _ => w) (Some f1, Some f2).
Proof.
  unfold irn_of. destruct (i_sub f1); try reflexivity. destruct (i_sub f2); try reflexivity. intros [H1 H2]. destruct (i_tow f2 =? i_tow f1 + 1); [|reflexivity].
  unfold near_week, far_week. replace (16 * toe - 12 * i_tow f1 <? -302400) with false by lia. replace (16 * toe - 12 * i_tow f1 >? 302400) with false by lia.
  replace (16 * toc - 12 * i_tow f1 <? -302400) with false by lia. replace (16 * toc - 12 * i_tow f1 >? 302400) with false by lia. reflexivity.
Qed.
Lemma cycle_ok wn week : (exists n, near_cycle wn week = wn + 1024 * n) /\ week - 512 < near_cycle wn week <= week + 512.
Proof.
  unfold near_cycle. pose proof (Z.div_mod (week + 512 - wn) 1024 ltac:(lia)). pose proof (Z.mod_pos_bound (week + 512 - wn) 1024 ltac:(lia)).
  split; [exists ((week + 512 - wn) / 1024); lia|lia].
Qed.
