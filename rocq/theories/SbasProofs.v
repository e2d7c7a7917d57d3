From Coq Require Import ZArith List Lia Bool ZifyBool ZifyNat FinFun.
From Verif Require Import SatModel SatSpec SatProofs CssrState CssrSpec CssrFacts SbasModel SbasSpec.
From Verif Require Import FieldFacts.
Import ListNotations.
Notation length := List.length.
Open Scope Z_scope.

(* ---------- PRN mask ---------- *)
Lemma sel_app {A} : forall (m m' : bits) (l l' : list A), length m = length l -> sel (m ++ m') (l ++ l') = sel m l ++ sel m' l'.
Proof.
  unfold sel. induction m as [|b m IH]; intros m' [|x l] l' H; cbn in *; try discriminate; [reflexivity|].
  injection H as H. destruct b; cbn; rewrite IH by assumption; reflexivity.
Qed.
Lemma zs_app o n k : zs o (n + k) = zs o n ++ zs (o + Z.of_nat n) k.
Proof.
  unfold zs. rewrite seq_app, map_app. f_equal. cbn [Nat.add].
  revert n o. induction k as [|k IH]; intros n o; [reflexivity|]. cbn [seq map]. f_equal; [lia|].
  rewrite (IH (S n)). rewrite <- seq_shift, map_map. apply map_ext. intros; lia.
Qed.
Lemma zs_shift o o' n : zs o n = map (fun k => k + (o - o')) (zs o' n).
Proof. unfold zs. rewrite map_map. apply map_ext. intros; lia. Qed.
Lemma zs_in o n k : In k (zs o n) <-> o <= k < o + Z.of_nat n.
Proof.
  unfold zs. rewrite in_map_iff. split.
  - intros (j & <- & H). apply in_seq in H. lia.
  - intros H. exists (Z.to_nat (k - o)). rewrite in_seq. lia.
Qed.
Lemma zs_nodup o n : NoDup (zs o n).
Proof. unfold zs. apply FinFun.Injective_map_NoDup; [intros a b; lia|apply seq_NoDup]. Qed.
Lemma sel_nodup {A} : forall (m : bits) (l : list A), NoDup l -> NoDup (sel m l).
Proof.
  unfold sel. induction m as [|b m IH]; intros [|x l] H; cbn; try constructor. inversion H; subst.
  destruct b; cbn; [|now apply IH]. constructor; [|now apply IH].
  intros K. apply H2. apply (sel_In m l x). exact K.
Qed.
Lemma mask_split (m : bits) : length m = 210%nat -> exists a b c d e,
  m = a ++ b ++ c ++ d ++ e /\ length a = 37%nat /\ length b = 24%nat /\ length c = 58%nat /\ length d = 39%nat /\ length e = 52%nat.
Proof.
  intros H. exists (firstn 37 m), (firstn 24 (skipn 37 m)), (firstn 58 (skipn 61 m)), (firstn 39 (skipn 119 m)), (skipn 158 m).
  assert (K : forall (l : bits) n k, firstn n (skipn k l) ++ skipn (k + n) l = skipn k l).
  { intros. rewrite <- (skipn_skipn_add l k n). apply firstn_skipn. }
  split.
  - pose proof (K m 39 119)%nat as K1. pose proof (K m 58 61)%nat as K2. pose proof (K m 24 37)%nat as K3. cbn [Nat.add] in *.
    rewrite K1, K2, K3. symmetry. apply firstn_skipn.
  - repeat split; rewrite ?firstn_length, ?skipn_length, H; reflexivity.
Qed.
Lemma slots_split a b c d e : length a = 37%nat -> length b = 24%nat -> length c = 58%nat -> length d = 39%nat -> length e = 52%nat ->
  slots (a ++ b ++ c ++ d ++ e) = sel a (zs 1 37) ++ sel b (zs 38 24) ++ sel c (zs 62 58) ++ sel d (zs 120 39) ++ sel e (zs 159 52).
Proof.
  intros. unfold slots. change 210%nat with (37 + (24 + (58 + (39 + 52))))%nat.
  rewrite !zs_app, !sel_app by (rewrite zs_length; assumption). reflexivity.
Qed.
Lemma sel_none {A} (m : bits) (l : list A) : (forall x, ~ In x (sel m l)) -> sel m l = [].
Proof. destruct (sel m l) as [|x r]; [reflexivity|]. intros H. destruct (H x). now left. Qed.
Lemma slot_sat_inj k k' : slot_ok k -> slot_ok k' -> slot_sat k = slot_sat k' -> k = k'.
Proof.
  assert (H : forall k, slot_ok k -> sat2prn (slot_sat k) = (if k <=? 37 then (GPS, k) else if k <=? 61 then (GLO, k - 37) else (SBS, k))).
  { intros j H. unfold slot_sat, slot_ok in *. destruct (Z.leb_spec j 37); [|destruct (Z.leb_spec j 61)];
    refine (proj1 (sat2prn_prn2sat _ _ _)); cbn [owns]; lia. }
  intros A B E. pose proof (H _ A) as P. rewrite E, (H _ B) in P.
  destruct (Z.leb_spec k 37), (Z.leb_spec k' 37), (Z.leb_spec k 61), (Z.leb_spec k' 61); try discriminate; injection P as P; lia.
Qed.
Lemma nodup_slot_sat l : Forall slot_ok l -> NoDup l -> NoDup (map slot_sat l).
Proof.
  induction 1 as [|x l Hx H IH]; intros N; cbn; [constructor|]. inversion N; subst. constructor; [|now apply IH].
  rewrite in_map_iff. intros (y & E & Hy). apply H2.
  replace x with y; [assumption|]. apply slot_sat_inj; try assumption. rewrite Forall_forall in H. now apply H.
Qed.

Theorem mask_decoded pre iodp m rest s : mask_ok m -> U 2 iodp ->
  exists s', decode_l1 (mask_msg pre iodp m rest) s = Some s' /\
    ss_sat s' = map slot_sat (slots m) /\ ss_iodp s' = iodp /\ NoDup (ss_sat s') /\
    ss_hclk s' = ss_hclk s /\ (forall a, long s' a = long s a).
Proof.
  intros [L F] Ui. pose proof (mask_split m L) as (a & b & c & d & e & -> & La & Lb & Lc & Ld & Le).
  pose proof (slots_split a b c d e La Lb Lc Ld Le) as HS.
  assert (HD : NoDup (map slot_sat (slots (a ++ b ++ c ++ d ++ e)))).
  { apply nodup_slot_sat; [assumption|]. apply sel_nodup, zs_nodup. }
  assert (A0 : At (mask_msg pre iodp (a ++ b ++ c ++ d ++ e) rest) 0 (mask_msg pre iodp (a ++ b ++ c ++ d ++ e) rest)).
  { exists [], []. now rewrite app_nil_r. }
  unfold mask_msg in A0 at 2. rewrite <- !app_assoc in A0.
  repeat (let B := fresh "B" in apply At_app in A0; destruct A0 as [B A0]).
  rewrite ?enc_length, ?La, ?Lb, ?Lc, ?Ld, ?Le in *. unfold fwidth, list_sum in *. cbn [map fst fold_right Nat.add] in *.
  assert (Hsat : map (prn2sat GPS) (sel a (zs 1 37)) ++ map (prn2sat GLO) (sel b (zs 1 24)) ++ map (prn2sat SBS) (sel d (zs 120 39))
    = map slot_sat (slots (a ++ b ++ c ++ d ++ e))).
  { rewrite HS in F |- *. rewrite !Forall_app in F. destruct F as (Fa & Fb & Fc & Fd & Fe). rewrite !Forall_forall in *.
    rewrite (sel_none c). 2:{ intros x Hx. pose proof (proj1 (zs_in _ _ _) (sel_In _ _ _ Hx)). specialize (Fc x Hx). unfold slot_ok in Fc. lia. }
    rewrite (sel_none e). 2:{ intros x Hx. pose proof (proj1 (zs_in _ _ _) (sel_In _ _ _ Hx)). specialize (Fe x Hx). unfold slot_ok in Fe. lia. }
    rewrite !map_app. cbn [map app]. rewrite app_nil_r. f_equal; [|f_equal].
    - apply map_ext_in. intros x Hx. pose proof (proj1 (zs_in _ _ _) (sel_In _ _ _ Hx)). unfold slot_sat. destruct (Z.leb_spec x 37); [reflexivity|lia].
    - rewrite (zs_shift 38 1), sel_map, map_map. apply map_ext_in. intros x Hx. pose proof (proj1 (zs_in _ _ _) (sel_In _ _ _ Hx)).
      unfold slot_sat. destruct (Z.leb_spec (x + (38 - 1)) 37); [lia|]. destruct (Z.leb_spec (x + (38 - 1)) 61); [f_equal; lia|lia].
    - apply map_ext_in. intros x Hx. pose proof (proj1 (zs_in _ _ _) (sel_In _ _ _ Hx)). unfold slot_sat.
      destruct (Z.leb_spec x 37); [lia|]. destruct (Z.leb_spec x 61); [lia|reflexivity]. }
  rewrite <- Hsat in HD |- *.
  eexists. split.
  - unfold decode_l1. rd1. rd1. cbn [Z.eqb Pos.eqb]. unfold decode_sbas_mask. cbn [Nat.add].
    erewrite (getu_raw _ _ _ _ B0 La). cbn [bind].
    erewrite (getu_raw _ _ _ _ B1 Lb). cbn [bind].
    erewrite (getu_raw _ _ _ _ B3 Ld). cbn [bind].
    pose proof (decode_mask_bval a 1) as Ma. pose proof (decode_mask_bval b 1) as Mb. pose proof (decode_mask_bval d 120) as Md.
    rewrite La in Ma. rewrite Lb in Mb. rewrite Ld in Md. rd1. rewrite Ma, Mb, Md. reflexivity.
  - destruct s; cbn. repeat split. exact HD.
Qed.

(* ---------- fast corrections ---------- *)
Definition upd_hclk (fcs : list Z) (b : nat) (s s' : sst) : Prop :=
  exists d, s' = set_ss_hclk d s /\
  (forall j a, nth_error (ss_sat s) j = Some a ->
     zget a d = match entry fcs b j with Some v => Some (fast_val v) | None => zget a (ss_hclk s) end) /\
  (forall a, ~ In a (ss_sat s) -> zget a d = zget a (ss_hclk s)).
Lemma set_ss_hclk_id s : set_ss_hclk (ss_hclk s) s = s.
Proof. now destruct s. Qed.
Lemma sel_hclk d s : ss_sat (set_ss_hclk d s) = ss_sat s /\ ss_hclk (set_ss_hclk d s) = d /\ ss_iodp (set_ss_hclk d s) = ss_iodp s
  /\ ss_udrei (set_ss_hclk d s) = ss_udrei s.
Proof. now destruct s. Qed.
Lemma set_hclk2 d d' s : set_ss_hclk d (set_ss_hclk d' s) = set_ss_hclk d s.
Proof. now destruct s. Qed.
Lemma nodup_pos {A} (l : list A) i j a : NoDup l -> nth_error l i = Some a -> nth_error l j = Some a -> i = j.
Proof.
  intros N Hi Hj. apply (proj1 (NoDup_nth_error l) N).
  - apply nth_error_Some. congruence.
  - congruence.
Qed.
Lemma entry_S {A} (x : A) l b j : entry (x :: l) b j = if (j =? b)%nat then Some x else entry l (S b) j.
Proof.
  unfold entry. destruct (Nat.eqb_spec j b) as [->|H].
  - now rewrite Nat.leb_refl, Nat.sub_diag.
  - destruct (Nat.leb_spec b j), (Nat.leb_spec (S b) j); try lia; [|reflexivity].
    replace (j - b)%nat with (S (j - S b)) by lia. reflexivity.
Qed.
Lemma entry_beyond {A} (l : list A) b j : (j < b)%nat -> entry l b j = None.
Proof. intros. unfold entry. destruct (Nat.leb_spec b j); [lia|reflexivity]. Qed.

Lemma fc_loop_ok msg base : 0 <= base -> forall fcs k i s, NoDup (ss_sat s) -> Forall (S_ 12) fcs ->
  At msg i (enc (map (fun v => 12 # v) fcs)) ->
  exists i' s', fc_loop msg i (length fcs) k base s = Some (i', s') /\
    (i <= i' <= i + 12 * length fcs)%nat /\
    ((Z.to_nat base + k + length fcs <= length (ss_sat s))%nat -> i' = (i + 12 * length fcs)%nat) /\
    upd_hclk fcs (Z.to_nat base + k) s s'.
Proof.
  intros Hb. induction fcs as [|v fcs IH]; intros k i s N F A; cbn [length fc_loop].
  - exists i, s. repeat split; try lia. exists (ss_hclk s). rewrite set_ss_hclk_id. repeat split.
    intros j a _. unfold entry. destruct (_ <=? _)%nat; [now destruct (j - _)%nat|reflexivity].
  - inversion F as [|? ? Fv F']; subst. change (enc (map (fun v => 12 # v) (v :: fcs))) with (bitsof 12 v ++ enc (map (fun v => 12 # v) fcs)) in A.
    apply At_app in A. destruct A as [A0 A]. rewrite bitsof_length in A.
    assert (G : gets msg i 12 = Some v). { apply gets_val; [assumption|lia|exact Fv]. }
    rewrite G. cbn [bind]. replace (Z.to_nat (base + Z.of_nat k)) with (Z.to_nat base + k)%nat by lia.
    destruct (nth_error (ss_sat s) (Z.to_nat base + k)) as [a|] eqn:E.
    + set (s1 := set_ss_hclk (zset a (oneg (sval_sbas v 12)) (ss_hclk s)) s).
      destruct (sel_hclk (zset a (oneg (sval_sbas v 12)) (ss_hclk s)) s) as (Q1 & Q2 & Q3 & Q4). fold s1 in Q1, Q2, Q3, Q4.
      destruct (IH (S k) (i + 12)%nat s1) as (i' & s' & R & B & C & d & -> & D1 & D2); try rewrite Q1; try assumption.
      exists i', (set_ss_hclk d s1). split; [exact R|]. split; [lia|]. split; [rewrite Q1 in C; lia|].
      exists d. unfold s1. rewrite set_hclk2. split; [reflexivity|]. rewrite Q1, Q2 in *. split.
      * intros j a' Hj. rewrite D1 with (j := j) by assumption. rewrite entry_S.
        replace (Z.to_nat base + S k)%nat with (S (Z.to_nat base + k)) by lia.
        destruct (Nat.eqb_spec j (Z.to_nat base + k)) as [->|Hne].
        -- rewrite entry_beyond by lia. assert (a' = a) as -> by congruence. rewrite zget_zset_same. f_equal.
           unfold fast_val, oneg, sval_sbas. change (2 ^ (Z.of_nat 12 - 1) - 1) with 2047. destruct (v =? 2047); reflexivity.
        -- destruct (entry fcs _ j); [reflexivity|]. apply zget_zset_other. intros ->. apply Hne. eapply nodup_pos; eassumption.
      * intros a' Ha'. rewrite D2 by assumption. apply zget_zset_other. intros ->. apply Ha'. eapply nth_error_In; eassumption.
    + exists (i + 12)%nat, s. split; [reflexivity|]. split; [lia|]. split.
      * intros H. apply nth_error_None in E. lia.
      * exists (ss_hclk s). rewrite set_ss_hclk_id. repeat split. intros j a Hj.
        assert (j < length (ss_sat s))%nat by (apply nth_error_Some; congruence). apply nth_error_None in E.
        rewrite entry_beyond by lia. reflexivity.
Qed.

Lemma set_t0_sel a ct s : ss_sat (set_t0 a ct s) = ss_sat s /\ ss_hclk (set_t0 a ct s) = ss_hclk s /\ ss_iodp (set_t0 a ct s) = ss_iodp s /\
  ss_udrei (set_t0 a ct s) = ss_udrei s /\ (forall b, long (set_t0 a ct s) b = long s b).
Proof. unfold set_t0. now destruct s. Qed.
Lemma set_ud_sel d s : ss_sat (set_ss_udrei d s) = ss_sat s /\ ss_hclk (set_ss_udrei d s) = ss_hclk s /\ ss_iodp (set_ss_udrei d s) = ss_iodp s /\
  ss_udrei (set_ss_udrei d s) = d /\ (forall b, long (set_ss_udrei d s) b = long s b).
Proof. now destruct s. Qed.

(** the error indicators, wherever they are read from *)
Lemma ud_loop_any msg base : forall n k i s, (i + 4 * n <= length msg)%nat ->
  exists i' s', ud_loop msg i n k base s = Some (i', s') /\ (i <= i' <= i + 4 * n)%nat /\ ss_sat s' = ss_sat s /\ ss_hclk s' = ss_hclk s /\ ss_iodp s' = ss_iodp s /\
    (forall b, long s' b = long s b).
Proof.
  induction n as [|n IH]; intros k i s L; cbn [ud_loop].
  - exists i, s. repeat split; lia.
  - destruct (getu_some msg i 4) as [u Gu]; [lia|]. rewrite Gu. cbn [bind].
    destruct (nth_error _ _) as [a|].
    + destruct (IH (S k) (i + 4)%nat (set_t0 a CT_HCLOCK (set_ss_udrei (zset a u (ss_udrei s)) s))) as (i' & s' & R & B & C); [lia|].
      exists i', s'. split; [exact R|]. split; [lia|].
      destruct (set_t0_sel a CT_HCLOCK (set_ss_udrei (zset a u (ss_udrei s)) s)) as (T1 & T2 & T3 & T4 & T5).
      destruct (set_ud_sel (zset a u (ss_udrei s)) s) as (V1 & V2 & V3 & V4 & V5).
      destruct C as (C1 & C2 & C3 & C4). split; [congruence|split; [congruence|split; [congruence|intros b; now rewrite C4, T5, V5]]].
    + exists (i + 4)%nat, s. repeat split; lia.
Qed.
Lemma ud_loop_ok msg base : 0 <= base -> forall us k i s, NoDup (ss_sat s) -> Forall (U 4) us ->
  At msg i (enc (map (fun v => 4 # v) us)) ->
  exists i' s', ud_loop msg i (length us) k base s = Some (i', s') /\
    (forall j a, nth_error (ss_sat s) j = Some a ->
       zget a (ss_udrei s') = match entry us (Z.to_nat base + k) j with Some v => Some v | None => zget a (ss_udrei s) end) /\
    (forall a, ~ In a (ss_sat s) -> zget a (ss_udrei s') = zget a (ss_udrei s)).
Proof.
  intros Hb. induction us as [|v us IH]; intros k i s N F A; cbn [length ud_loop].
  - exists i, s. repeat split.
    intros j a _. unfold entry. destruct (_ <=? _)%nat; [now destruct (j - _)%nat|reflexivity].
  - inversion F as [|? ? Fv F']; subst. change (enc (map (fun v => 4 # v) (v :: us))) with (bitsof 4 v ++ enc (map (fun v => 4 # v) us)) in A.
    apply At_app in A. destruct A as [A0 A]. rewrite bitsof_length in A.
    assert (G : getu msg i 4 = Some v). { apply getu_val; [assumption|exact Fv]. }
    rewrite G. cbn [bind]. replace (Z.to_nat (base + Z.of_nat k)) with (Z.to_nat base + k)%nat by lia.
    destruct (nth_error (ss_sat s) (Z.to_nat base + k)) as [a|] eqn:E.
    + set (s1 := set_t0 a CT_HCLOCK (set_ss_udrei (zset a v (ss_udrei s)) s)).
      destruct (set_t0_sel a CT_HCLOCK (set_ss_udrei (zset a v (ss_udrei s)) s)) as (T1 & T2 & T3 & T4 & T5).
      destruct (set_ud_sel (zset a v (ss_udrei s)) s) as (V1 & V2 & V3 & V4 & V5). fold s1 in T1, T2, T3, T4, T5.
      assert (Q1 : ss_sat s1 = ss_sat s) by congruence. assert (Q4 : ss_udrei s1 = zset a v (ss_udrei s)) by congruence.
      destruct (IH (S k) (i + 4)%nat s1) as (i' & s' & R & D1 & D2); try rewrite Q1; try assumption.
      exists i', s'. split; [exact R|]. rewrite Q1, Q4 in *. split.
      * intros j a' Hj. rewrite D1 with (j := j) by assumption. rewrite entry_S.
        replace (Z.to_nat base + S k)%nat with (S (Z.to_nat base + k)) by lia.
        destruct (Nat.eqb_spec j (Z.to_nat base + k)) as [->|Hne].
        -- rewrite entry_beyond by lia. assert (a' = a) as -> by congruence. now rewrite zget_zset_same.
        -- destruct (entry us _ j); [reflexivity|]. apply zget_zset_other. intros ->. apply Hne. eapply nodup_pos; eassumption.
      * intros a' Ha'. rewrite D2 by assumption. apply zget_zset_other. intros ->. apply Ha'. eapply nth_error_In; eassumption.
    + exists (i + 4)%nat, s. split; [reflexivity|]. split; [|reflexivity]. intros j a Hj.
      assert (j < length (ss_sat s))%nat by (apply nth_error_Some; congruence). apply nth_error_None in E.
      rewrite entry_beyond by lia. reflexivity.
Qed.
Lemma long_hclk d s b : long (set_ss_hclk d s) b = long s b.
Proof. now destruct s. Qed.

Lemma fwidth_map {A} w (f : A -> Z) (l : list A) : fwidth (map (fun v => (w, f v)) l) = (w * length l)%nat.
Proof. unfold fwidth. rewrite map_map. cbn [fst]. induction l as [|x l IH]; cbn [map length]; [symmetry; apply Nat.mul_0_r|]. change (list_sum (w :: map (fun _ : A => w) l)) with (w + list_sum (map (fun _ : A => w) l))%nat. lia. Qed.
(** a block of [n] fast corrections read at [i] for mask positions from [13*type_] *)
Lemma fast_blk_ok msg i n type_ fcs uds s : 0 <= type_ -> NoDup (ss_sat s) -> fast_ok n fcs uds ->
  At msg i (enc (map (fun v => 12 # v) fcs)) -> At msg (i + 12 * n) (enc (map (fun v => 4 # v) uds)) ->
  exists i' s', fast_corr_blk msg i n type_ s = Some (i', s') /\ (i <= i' <= i + 16 * n)%nat /\
    ss_sat s' = ss_sat s /\ ss_iodp s' = ss_iodp s /\ (forall b, long s' b = long s b) /\
    (forall j a, nth_error (ss_sat s) j = Some a ->
      zget a (ss_hclk s') = match entry fcs (Z.to_nat (13 * type_)) j with Some v => Some (fast_val v) | None => zget a (ss_hclk s) end) /\
    (forall a, ~ In a (ss_sat s) -> zget a (ss_hclk s') = zget a (ss_hclk s)) /\
    ((Z.to_nat (13 * type_) + n <= length (ss_sat s))%nat -> forall j a, nth_error (ss_sat s) j = Some a ->
      zget a (ss_udrei s') = match entry uds (Z.to_nat (13 * type_)) j with Some v => Some v | None => zget a (ss_udrei s) end).
Proof.
  intros Ht N (Lf & Lu & Ff & Fu) A B. unfold fast_corr_blk.
  destruct (fc_loop_ok msg (type_ * 13) ltac:(lia) fcs 0 i s N Ff A) as (i1 & s1 & R1 & B1 & C1 & d & -> & D1 & D2).
  rewrite Lf in *. rewrite R1. cbn [bind]. destruct (sel_hclk d s) as (Q1 & Q2 & Q3 & Q4).
  assert (LB : (i + 12 * n + 4 * n <= length msg)%nat).
  { apply At_bound in B. rewrite enc_length in B. rewrite (fwidth_map 4 (fun v => v)) in B. lia. }
  destruct (ud_loop_any msg (type_ * 13) n 0 i1 (set_ss_hclk d s) ltac:(lia)) as (i2 & s2 & R2 & B2 & S1 & S2 & S3 & S4).
  exists i2, s2. split; [exact R2|]. split; [lia|]. rewrite S1, S2, S3, Q1, Q2, Q3. split; [reflexivity|]. split; [reflexivity|].
  split; [intros b; now rewrite S4, long_hclk|]. replace (Z.to_nat (13 * type_)) with (Z.to_nat (type_ * 13) + 0)%nat by lia.
  split; [exact D1|]. split; [exact D2|]. intros Hn. rewrite C1 in R2 by lia.
  destruct (ud_loop_ok msg (type_ * 13) ltac:(lia) uds 0 (i + 12 * n)%nat (set_ss_hclk d s)) as (i3 & s3 & R3 & E1 & E2); try rewrite Q1; try assumption.
  rewrite Lu, R2 in R3. injection R3 as <- <-. rewrite Q1, Q4 in E1. exact E1.
Qed.

Theorem fast_decoded pre mt iodf iodp fcs uds rest s : 2 <= mt <= 5 -> U 2 iodp -> fast_ok 13 fcs uds -> NoDup (ss_sat s) ->
  exists s', decode_l1 (fast_msg pre mt iodf iodp fcs uds rest) s = Some s' /\
    (iodp <> ss_iodp s -> s' = s) /\
    (iodp = ss_iodp s ->
      ss_sat s' = ss_sat s /\ ss_iodp s' = ss_iodp s /\ (forall b, long s' b = long s b) /\
      (forall j a, nth_error (ss_sat s) j = Some a ->
        zget a (ss_hclk s') = match entry fcs (Z.to_nat (13 * (mt - 2))) j with Some v => Some (fast_val v) | None => zget a (ss_hclk s) end) /\
      (forall a, ~ In a (ss_sat s) -> zget a (ss_hclk s') = zget a (ss_hclk s)) /\
      ((Z.to_nat (13 * (mt - 2)) + 13 <= length (ss_sat s))%nat -> forall j a, nth_error (ss_sat s) j = Some a ->
        zget a (ss_udrei s') = match entry uds (Z.to_nat (13 * (mt - 2))) j with Some v => Some v | None => zget a (ss_udrei s) end)).
Proof.
  intros Hmt Ui OK N. set (M := fast_msg pre mt iodf iodp fcs uds rest).
  assert (A0 : At M 0 M). { exists [], []. now rewrite app_nil_r. }
  unfold M in A0 at 2. unfold fast_msg in A0.
  apply At_app in A0. destruct A0 as [B0 A0]. apply At_app in A0. destruct A0 as [B1 A0]. apply At_app in A0. destruct A0 as [B2 _].
  rewrite !enc_length in *. unfold fwidth at 1 in B1. unfold fwidth at 1 in B2. unfold list_sum in B1. unfold list_sum in B2 at 1. cbn [map fst fold_right Nat.add] in B1, B2.
  assert (W : fwidth (map (fun v => 12 # v) fcs) = (12 * 13)%nat).
  { destruct OK as [L _]. rewrite <- L. apply (fwidth_map 12 (fun v => v)). }
  rewrite W in B2. clearbody M.
  assert (Um : U 6 mt) by (unfold U; lia).
  destruct (fast_blk_ok M 18 13 (mt - 2) fcs uds s ltac:(lia) N OK B1 B2) as (i' & s' & R & _ & P).
  destruct (Z.eq_dec iodp (ss_iodp s)) as [E|E].
  - exists s'. split; [|tauto]. unfold decode_l1. rd1. rd1.
    replace (mt =? 1) with false by lia. replace ((2 <=? mt) && (mt <=? 5)) with true by lia.
    unfold decode_fast_corr. rd1. rd1. rewrite E, Z.eqb_refl. cbn [negb Nat.add]. rewrite R. reflexivity.
  - exists s. split; [|tauto]. unfold decode_l1. rd1. rd1.
    replace (mt =? 1) with false by lia. replace ((2 <=? mt) && (mt <=? 5)) with true by lia.
    unfold decode_fast_corr. rd1. rd1. replace (iodp =? ss_iodp s) with false by lia. reflexivity.
Qed.
