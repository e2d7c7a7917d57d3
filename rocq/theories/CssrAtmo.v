(** Ionosphere and troposphere corrections as seen by a reader of the stored corrections. *)
From Verif Require Import Base BaseFacts SatModel CssrModel CssrSpec CssrFacts CssrCodec CssrStream CssrStatus CssrUser.
Open Scope Z_scope.

(** residual of satellite [sat] at grid point [j]; zenith delays at grid point [j] *)
Definition dstec_of (s : cst) (n sat : Z) (j : nat) : option (option Z) :=
  match zget sat (l_dstec (lcat s n)) with Some d => zget (Z.of_nat j) d | None => None end.
Definition dth_of (s : cst) (n : Z) (j : nat) : option (option Z) :=
  match l_dth (lcat s n) with Some l => nth_error l j | None => None end.
Definition dtw_of (s : cst) (n : Z) (j : nat) : option (option Z) :=
  match l_dtw (lcat s n) with Some l => nth_error l j | None => None end.
Definition stec_q_of (s : cst) (n sat : Z) : option (Z * Z) := zget sat (l_stec_q (lcat s n)).

(** something kept by every step is kept by the fold *)
Lemma eff2_keep {X Y V} (L : cst -> V) (P : cst -> Prop) (f : X -> Y -> cst -> cst) :
  (forall x y s, P s -> P (f x y s) /\ L (f x y s) = L s) ->
  forall xs ys s, P s -> P (eff2 f xs ys s) /\ L (eff2 f xs ys s) = L s.
Proof.
  intros Hf. induction xs as [|x xs IH]; intros ys s Hp; [now split|].
  destruct ys as [|y ys]; [now split|].
  change (eff2 f (x :: xs) (y :: ys) s) with (eff2 f xs ys (f x y s)).
  destruct (Hf x y s Hp) as [F1 F2]. destruct (IH ys _ F1) as [I1 I2]. split; [exact I1|congruence].
Qed.
Lemma eff_keep {X V} (L : cst -> V) (P : cst -> Prop) (f : X -> cst -> cst) :
  (forall x s, P s -> P (f x s) /\ L (f x s) = L s) ->
  forall xs s, P s -> P (eff f xs s) /\ L (eff f xs s) = L s.
Proof.
  intros Hf. induction xs as [|x xs IH]; intros s Hp; [now split|].
  change (eff f (x :: xs) s) with (eff f xs (f x s)).
  destruct (Hf x s Hp) as [F1 F2]. destruct (IH _ F1) as [I1 I2]. split; [exact I1|congruence].
Qed.

Lemma stec_at_lc n sat j v s : nets s -> 0 <= n < 33 ->
  lcat (stec_at n sat j v s) n = set_l_dstec (zset sat (zset (Z.of_nat j) v
     (match zget sat (l_dstec (lcat s n)) with Some d => d | None => [] end)) (l_dstec (lcat s n))) (lcat s n).
Proof. intros. unfold stec_at. rewrite lcat_eff by (assumption || lia). now rewrite Z.eqb_refl. Qed.
Lemma stec_at_get n sat j v s k i : nets s -> 0 <= n < 33 ->
  dstec_of (stec_at n sat j v s) n k i = if (k =? sat) && (i =? j)%nat then Some v else dstec_of s n k i.
Proof.
  intros Hs Hn. unfold dstec_of. rewrite stec_at_lc by assumption. cbn [l_dstec set_l_dstec].
  destruct (Z.eqb_spec k sat) as [->|Hk]; cbn [andb].
  - rewrite zget_zset_same. destruct (Nat.eqb_spec i j) as [->|Hi]; [apply zget_zset_same|].
    rewrite zget_zset_other by lia. now destruct (zget sat (l_dstec (lcat s n))).
  - now rewrite zget_zset_other by congruence.
Qed.

(** what one grid point writes *)
Section Grid.
Variables (n : Z) (loc : list item) (tt_ : Z) (sz : nat).
Hypothesis Hn : 0 <= n < 33.
Hypothesis Hd : NoDup (map i_sat loc).

Lemma stec_row j ys s : nets s ->
  let s' := eff2 (fun it v => stec_at n (i_sat it) j (sval v sz)) loc ys s in
  nets s' /\
  (forall k it x, nth_error loc k = Some it -> nth_error ys k = Some x -> dstec_of s' n (i_sat it) j = Some (sval x sz)) /\
  (forall sat i, ~ (In sat (map i_sat loc) /\ i = j) -> dstec_of s' n sat i = dstec_of s n sat i) /\
  l_dth (lcat s' n) = l_dth (lcat s n) /\ l_dtw (lcat s' n) = l_dtw (lcat s n).
Proof.
  intros Hs s'. subst s'. set (F := fun (it : item) v => stec_at n (i_sat it) j (sval v sz)).
  destruct (eff2_lookup (K := Z) i_sat (fun s k => dstec_of s n k j) nets F (fun _ x => sval x sz))
    with (xs := loc) (ys := ys) (s := s) as (A & B & C); [|assumption|assumption|].
  { intros it x u Hu. unfold F. split; [now apply nets_updlc|]. split.
    - rewrite stec_at_get by assumption. now rewrite Z.eqb_refl, Nat.eqb_refl.
    - intros k Hk. rewrite stec_at_get by assumption. now rewrite (proj2 (Z.eqb_neq _ _) Hk). }
  split; [exact A|]. split; [exact B|]. split.
  - intros sat i Hsi. destruct (Nat.eq_dec i j) as [->|Hi].
    + apply C. intros H. apply Hsi. now split.
    + apply (eff2_keep (fun u => dstec_of u n sat i) nets F); [|assumption].
      intros it x u Hu. unfold F. split; [now apply nets_updlc|]. rewrite stec_at_get by assumption.
      now rewrite (proj2 (Nat.eqb_neq _ _) Hi), andb_false_r.
  - split.
    + apply (eff2_keep (fun u => l_dth (lcat u n)) nets F); [|assumption].
      intros it x u Hu. unfold F. split; [now apply nets_updlc|]. now rewrite stec_at_lc by assumption.
    + apply (eff2_keep (fun u => l_dtw (lcat u n)) nets F); [|assumption].
      intros it x u Hu. unfold F. split; [now apply nets_updlc|]. now rewrite stec_at_lc by assumption.
Qed.

Lemma nth_splice1 {A} (l : list A) (j i : nat) (x : A) : (j < length l)%nat ->
  nth_error (splice l j [x]) i = if (i =? j)%nat then Some x else nth_error l i.
Proof.
  intros Hj. unfold splice. cbn [length].
  assert (Hf : length (firstn j l) = j) by (rewrite firstn_length; lia).
  destruct (Nat.eqb_spec i j) as [->|Hi].
  - rewrite nth_error_app2, Hf, Nat.sub_diag by lia. reflexivity.
  - destruct (Nat.lt_ge_cases i j).
    + rewrite nth_error_app1 by lia. rewrite <- (firstn_skipn j l) at 2. now rewrite nth_error_app1 by lia.
    + rewrite nth_error_app2, Hf by lia. rewrite nth_error_app2 by (cbn; lia).
      rewrite <- (firstn_skipn (j + 1) l) at 2.
      assert (length (firstn (j + 1) l) = (j + 1)%nat) by (rewrite firstn_length; lia).
      rewrite nth_error_app2 by lia. cbn [length]. f_equal. lia.
Qed.
Lemma length_splice1 {A} (l : list A) (j : nat) (x : A) : (j < length l)%nat -> length (splice l j [x]) = length l.
Proof. intros. unfold splice. rewrite !app_length, firstn_length, skipn_length. cbn. lia. Qed.

(** the zenith delays hold [ng] points *)
Definition zen (ng : nat) (s : cst) : Prop :=
  nets s /\ exists h w, l_dth (lcat s n) = Some h /\ l_dtw (lcat s n) = Some w /\ length h = ng /\ length w = ng.

Lemma grid_point ng j p s : (j < ng)%nat -> zen ng s ->
  let s' := grid_pt_eff n loc tt_ sz j p s in
  zen ng s' /\
  (forall k it x, nth_error loc k = Some it -> nth_error (snd p) k = Some x -> dstec_of s' n (i_sat it) j = Some (sval x sz)) /\
  (forall sat i, ~ (In sat (map i_sat loc) /\ i = j) -> dstec_of s' n sat i = dstec_of s n sat i) /\
  (tt_ > 0 -> dth_of s' n j = Some (sval (fst (fst p)) 9) /\ dtw_of s' n j = Some (sval (snd (fst p)) 8)) /\
  (forall i, i <> j \/ tt_ <= 0 -> dth_of s' n i = dth_of s n i /\ dtw_of s' n i = dtw_of s n i).
Proof.
  intros Hj (Hs & h & w & Eh & Ew & Lh & Lw) s'. subst s'. unfold grid_pt_eff.
  set (s1 := if tt_ >? 0 then _ else s).
  assert (E1 : nets s1 /\ (forall sat i, dstec_of s1 n sat i = dstec_of s n sat i) /\
     l_dth (lcat s1 n) = Some (if tt_ >? 0 then splice h j [sval (fst (fst p)) 9] else h) /\
     l_dtw (lcat s1 n) = Some (if tt_ >? 0 then splice w j [sval (snd (fst p)) 8] else w)).
  { unfold s1. destruct (tt_ >? 0); [|now auto].
    split; [now apply nets_updlc|]. unfold dstec_of. rewrite lcat_eff by (assumption || lia). rewrite Z.eqb_refl.
    cbn. rewrite Eh, Ew. auto. }
  destruct E1 as (N1 & D1 & H1 & W1).
  destruct (stec_row j (snd p) s1 N1) as (A & B & C & D & E). cbv zeta in A, B, C, D, E.
  set (s2 := eff2 _ loc (snd p) s1) in *.
  split; [|split; [exact B|split; [|split]]].
  - split; [exact A|]. rewrite D, E, H1, W1. do 2 eexists. split; [reflexivity|]. split; [reflexivity|].
    destruct (tt_ >? 0); rewrite ?length_splice1 by lia; auto.
  - intros sat i H. now rewrite C, D1.
  - intros Ht. unfold dth_of, dtw_of. rewrite D, E, H1, W1. rewrite (proj2 (Z.gtb_lt _ _)) by lia.
    rewrite !nth_splice1 by lia. now rewrite Nat.eqb_refl.
  - intros i Hi. unfold dth_of, dtw_of. rewrite D, E, H1, W1, Eh, Ew.
    destruct (Z.gtb_spec tt_ 0); [|auto]. rewrite !nth_splice1 by lia.
    destruct (Nat.eqb_spec i j); [lia|auto].
Qed.

Lemma grid_points ng : forall v a s, (a + length v <= ng)%nat -> zen ng s ->
  let s' := eff2 (grid_pt_eff n loc tt_ sz) (seq a (length v)) v s in
  zen ng s' /\
  (forall j p k it x, nth_error v j = Some p -> nth_error loc k = Some it -> nth_error (snd p) k = Some x ->
     dstec_of s' n (i_sat it) (a + j) = Some (sval x sz)) /\
  (forall sat i, ~ (In sat (map i_sat loc) /\ (a <= i < a + length v)%nat) -> dstec_of s' n sat i = dstec_of s n sat i) /\
  (tt_ > 0 -> forall j p, nth_error v j = Some p ->
     dth_of s' n (a + j) = Some (sval (fst (fst p)) 9) /\ dtw_of s' n (a + j) = Some (sval (snd (fst p)) 8)) /\
  (forall i, ~ (a <= i < a + length v)%nat \/ tt_ <= 0 -> dth_of s' n i = dth_of s n i /\ dtw_of s' n i = dtw_of s n i).
Proof.
  induction v as [|p v IH]; intros a s Ha Hz.
  - cbn. split; [exact Hz|]. split; [intros [|j] ? ? ? ? H; discriminate H|]. split; [auto|].
    split; [intros _ [|j] ? H; discriminate H|auto].
  - cbn [length] in *. cbn [seq].
    change (eff2 (grid_pt_eff n loc tt_ sz) (a :: seq (S a) (length v)) (p :: v) s)
      with (eff2 (grid_pt_eff n loc tt_ sz) (seq (S a) (length v)) v (grid_pt_eff n loc tt_ sz a p s)).
    destruct (grid_point ng a p s ltac:(lia) Hz) as (P1 & P2 & P3 & P4 & P5). cbv zeta in *.
    destruct (IH (S a) _ ltac:(lia) P1) as (I1 & I2 & I3 & I4 & I5).
    split; [exact I1|]. split; [|split; [|split]].
    + intros [|j] q k it x Hq Hk Hx; cbn in Hq.
      * injection Hq as <-. rewrite Nat.add_0_r, I3 by lia. now apply (P2 k).
      * rewrite Nat.add_succ_r. now apply (I2 j q k).
    + intros sat i H. rewrite I3, P3; [reflexivity| |]; intros [H1 H2]; apply H; split; auto; lia.
    + intros Ht [|j] q Hq; cbn in Hq.
      * injection Hq as <-. rewrite Nat.add_0_r. destruct (I5 a ltac:(lia)) as [-> ->]. now apply P4.
      * rewrite Nat.add_succ_r. now apply (I4 Ht j q).
    + intros i Hi. destruct (I5 i ltac:(lia)) as [-> ->]. apply P5. lia.
Qed.
End Grid.

Lemma sel_nodup (its : list item) : forall m, NoDup (map i_sat its) -> NoDup (map i_sat (sel m its)).
Proof.
  unfold sel. induction its as [|it its IH]; intros m Hn.
  - destruct m; constructor.
  - destruct m as [|b m]; [constructor|]. cbn in Hn. inversion_clear Hn as [|? ? H1 H2].
    cbn [combine filter fst]. destruct b; cbn [map snd]; [|now apply IH].
    constructor; [|now apply IH]. intros Hin. apply H1. apply in_map_iff in Hin as (x & <- & Hx).
    apply in_map. apply in_map_iff in Hx as ((b & y) & <- & Hy). apply filter_In in Hy as [Hy _].
    now apply in_combine_r in Hy.
Qed.
Lemma empties_get (l : list Z) (d : dict Z (dict Z (option Z))) sat j :
  (forall e, zget sat d = Some e -> zget j e = None) ->
  match zget sat (fold_left (fun d s => zset s [] d) l d) with Some e => zget j e | None => None end = None.
Proof.
  revert d. induction l as [|x l IH]; intros d Hd; cbn [fold_left].
  - change (match @zget (dict Z (option Z)) sat d with Some e => zget j e | None => None end = None).
    destruct (zget sat d) as [e|]; [exact (Hd e eq_refl)|reflexivity].
  - apply IH. intros e. destruct (Z.eq_dec sat x) as [->|Hx].
    + rewrite zget_zset_same. intros H. injection H as <-. reflexivity.
    + rewrite zget_zset_other by congruence. apply Hd.
Qed.

Theorem grid_user c msg its h tt_ rg inet m q v i s :
  wf_cfg c -> c_has c = false -> ctx its s -> nets s -> NoDup (map i_sat its) ->
  wf_msg c its s (CGrid h tt_ rg inet m q v) -> At msg i (enc_body c its (CGrid h tt_ rg inet m q v)) ->
  let sz := if rg =? 0 then 7%nat else 16%nat in
  exists s', decode_cssr_grid c msg i s = (s', Some (Some (i + length (enc_body c its (CGrid h tt_ rg inet m q v)))%nat)) /\
  (forall j p k it x, nth_error v j = Some p -> nth_error (sel m its) k = Some it -> nth_error (snd p) k = Some x ->
     dstec_of s' inet (i_sat it) j = Some (sval x sz)) /\
  (forall sat j, ~ (In sat (map i_sat (sel m its)) /\ (j < length v)%nat) -> dstec_of s' inet sat j = None) /\
  (forall j p, nth_error v j = Some p ->
     dth_of s' inet j = Some (if tt_ >? 0 then sval (fst (fst p)) 9 else Some 0) /\
     dtw_of s' inet j = Some (if tt_ >? 0 then sval (snd (fst p)) 8 else Some 0)).
Proof.
  intros Hc Eh Hx Hl Hnd Hw Ha sz. destruct (grid_ok c msg its h tt_ rg inet m q v Eh i s Hx Hw Ha) as [H1 _].
  eexists. split; [exact H1|]. clear H1.
  destruct Hw as (_ & _ & _ & _ & (Hi & _) & _). unfold ub in Hi. change (2 ^ Z.of_nat 5) with 32 in Hi.
  assert (Hr : 0 <= inet < 33) by lia.
  cbn [msg_eff]. cbv zeta. fold sz. set (loc := sel m its).
  match goal with |- context [eff2 _ (seq 0 (length v)) v ?t] => set (t0 := t) in * end.
  assert (N2 : nets (updlc inet (fun l => set_l_trop_q (Some q) (set_l_ng (Z.of_nat (length v))
                 (set_l_nsat_n (Z.of_nat (cnt m)) (set_l_sat_n (map i_sat loc) l))))
                (updlc inet (set_l_netmask (bval m)) (udi_eff tTROP (m_udi h) (set_s_flg_net true (hd_eff c false h s)))))).
  { do 2 apply nets_updlc. exact (nets_hd c false h s Hl). }
  assert (Hz : zen inet (length v) t0 /\ (forall sat j, dstec_of t0 inet sat j = None) /\
     (forall j, (j < length v)%nat -> dth_of t0 inet j = Some (Some 0) /\ dtw_of t0 inet j = Some (Some 0))).
  { unfold zen, dstec_of, dth_of, dtw_of, t0. rewrite lcat_eff by (assumption || lia). rewrite Z.eqb_refl. cbn.
    split; [split; [now apply nets_updlc|]|split].
    - do 2 eexists. split; [reflexivity|]. split; [reflexivity|]. rewrite repeat_length. auto.
    - intros sat j. apply empties_get. discriminate.
    - intros j Hj. rewrite nth_error_repeat by assumption. auto. }
  destruct Hz as (Hz & Z1 & Z2).
  destruct (grid_points inet loc tt_ sz Hr (sel_nodup its m Hnd) (length v) v 0 t0 ltac:(lia) Hz) as (A & B & C & D & E).
  cbv zeta in *. set (u := eff2 _ (seq 0 (length v)) v t0) in *.
  destruct A as (A & _).
  assert (K : forall V (L : lcr -> V), (forall l x, L (set_l_cstat x l) = L l) -> (forall l a b x, L (lc_t0 a b x l) = L l) ->
     L (lcat (eff (fun it => stamp inet (i_sat it) tTROP) loc (flag_eff inet tTROP u)) inet) = L (lcat u inet)).
  { intros V L L1 L2.
    destruct (eff_keep (fun w => L (lcat w inet)) nets (fun it => stamp inet (i_sat it) tTROP)) with (xs := loc) (s := flag_eff inet tTROP u) as [_ ->].
    - intros it w Hw. split; [now apply nets_updlc|]. rewrite lcat_stamp by (assumption || lia). rewrite Z.eqb_refl. apply L2.
    - now apply nets_updlc.
    - rewrite lcat_flag by (assumption || lia). rewrite Z.eqb_refl. apply L1. }
  unfold dstec_of, dth_of, dtw_of in *.
  rewrite (K _ l_dstec), (K _ l_dth), (K _ l_dtw) by reflexivity.
  split; [exact B|]. split.
  - intros sat j H. rewrite C by (intros [H1 H2]; apply H; split; [assumption|lia]). apply Z1.
  - intros j p Hp. assert (Hj : (j < length v)%nat) by (apply nth_error_Some; congruence).
    destruct (Z.gtb_spec tt_ 0).
    + exact (D ltac:(lia) j p Hp).
    + destruct (E j ltac:(lia)) as [-> ->]. now apply Z2.
Qed.

Theorem stec_user c msg its h st inet m v i s :
  wf_cfg c -> c_has c = false -> ctx its s -> nets s -> NoDup (map i_sat its) ->
  wf_msg c its s (CStec h st inet m v) -> At msg i (enc_body c its (CStec h st inet m v)) ->
  exists s', decode_cssr_stec c msg i s = (s', Some (Some (i + length (enc_body c its (CStec h st inet m v)))%nat)) /\
  (forall k it p, nth_error (sel m its) k = Some it -> nth_error v k = Some p ->
     ci_of s' inet (i_sat it) = Some (val_coef st (snd p)) /\ stec_q_of s' inet (i_sat it) = Some (fst p)) /\
  (forall sat, ~ In sat (map i_sat (sel m its)) -> ci_of s' inet sat = None /\ stec_q_of s' inet sat = None).
Proof.
  intros Hc Eh Hx Hl Hnd Hw Ha. destruct (stec_ok c msg its h st inet m v Eh i s Hx Hw Ha) as [H1 _].
  eexists. split; [exact H1|]. clear H1.
  destruct Hw as (_ & _ & _ & (Hi & _) & _). unfold ub in Hi. change (2 ^ Z.of_nat 5) with 32 in Hi.
  assert (Hr : 0 <= inet < 33) by lia.
  cbn [msg_eff]. cbv zeta. set (loc := sel m its).
  match goal with |- context [eff2 _ loc v ?t] => set (t0 := t) in * end.
  set (F := stec_coef_eff inet st).
  assert (N0 : nets (updlc inet (set_l_netmask (bval m)) (set_s_flg_net true (hd_eff c false h s)))).
  { apply nets_updlc. exact (nets_hd c false h s Hl). }
  assert (T0 : nets t0 /\ l_ci (lcat t0 inet) = Some [] /\ l_stec_q (lcat t0 inet) = []).
  { unfold t0. split; [apply nets_updlc; exact (nets_updlc inet _ _ N0)|].
    rewrite lcat_eff by (first [exact (nets_updlc inet _ _ N0)|lia]). rewrite Z.eqb_refl.
    cbn [l_ci l_stec_q set_l_stype set_l_ci set_l_flg_stec]. split; [reflexivity|].
    match goal with |- l_stec_q (lcat (udi_eff _ _ ?y) _) = _ => change (l_stec_q (lcat y inet) = []) end.
    rewrite lcat_eff by (assumption || lia). rewrite Z.eqb_refl. reflexivity. }
  destruct T0 as (N1 & C0 & Q0).
  assert (W : forall it p u, nets u /\ l_ci (lcat u inet) <> None ->
     let u' := F it p u in (nets u' /\ l_ci (lcat u' inet) <> None) /\
     ci_of u' inet (i_sat it) = Some (val_coef st (snd p)) /\ stec_q_of u' inet (i_sat it) = Some (fst p) /\
     forall k, k <> i_sat it -> ci_of u' inet k = ci_of u inet k /\ stec_q_of u' inet k = stec_q_of u inet k).
  { intros it p u (Hu & Hci) u'. subst u'. unfold F, stec_coef_eff, ci_of, stec_q_of.
    assert (M1 : nets (stamp inet (i_sat it) tSTEC u)) by now apply nets_updlc.
    assert (M2 : nets (updlc inet (fun l => set_l_stec_q (zset (i_sat it) (fst p) (l_stec_q l)) l) (stamp inet (i_sat it) tSTEC u)))
      by now apply nets_updlc.
    rewrite lcat_eff by (assumption || lia). rewrite Z.eqb_refl.
    rewrite lcat_eff by (assumption || lia). rewrite Z.eqb_refl.
    rewrite lcat_stamp by (assumption || lia). rewrite Z.eqb_refl. cbn.
    destruct (l_ci (lcat u inet)) as [d|]; [|congruence]. cbn.
    split; [split; [now apply nets_updlc|discriminate]|].
    rewrite !zget_zset_same. split; [reflexivity|]. split; [reflexivity|].
    intros k Hk. now rewrite !zget_zset_other by congruence. }
  assert (P0 : nets t0 /\ l_ci (lcat t0 inet) <> None) by (split; [assumption|congruence]).
  destruct (eff2_lookup (K := Z) i_sat (fun u k => ci_of u inet k) (fun u => nets u /\ l_ci (lcat u inet) <> None) F
     (fun _ p => val_coef st (snd p))) with (xs := loc) (ys := v) (s := t0) as (A & B & C).
  { intros it p u Hu. destruct (W it p u Hu) as (W1 & W2 & _ & W4). split; [exact W1|]. split; [exact W2|].
    intros k Hk. apply (W4 k Hk). }
  { now apply sel_nodup. }
  { exact P0. }
  destruct (eff2_lookup (K := Z) i_sat (fun u k => stec_q_of u inet k) (fun u => nets u /\ l_ci (lcat u inet) <> None) F
     (fun _ p => fst p)) with (xs := loc) (ys := v) (s := t0) as (_ & B' & C').
  { intros it p u Hu. destruct (W it p u Hu) as (W1 & _ & W3 & W4). split; [exact W1|]. split; [exact W3|].
    intros k Hk. apply (W4 k Hk). }
  { now apply sel_nodup. }
  { exact P0. }
  destruct A as [A _]. set (u := eff2 F loc v t0) in *.
  assert (E : ci_of (flag_eff inet tSTEC u) inet = ci_of u inet /\ stec_q_of (flag_eff inet tSTEC u) inet = stec_q_of u inet).
  { unfold ci_of, stec_q_of. rewrite lcat_flag by (assumption || lia). rewrite Z.eqb_refl. auto. }
  destruct E as [-> ->]. split.
  - intros k it p Hk Hp. split; [now apply (B k)|now apply (B' k)].
  - intros sat Hs. rewrite C, C' by assumption. unfold ci_of, stec_q_of. now rewrite C0, Q0.
Qed.

Definition ct_of (s : cst) (n : Z) : option ctrop := l_ct (lcat s n).

Lemma indexed_get {A} (l : list A) j : zget (Z.of_nat j) (indexed l) = nth_error l j.
Proof.
  unfold indexed, zs.
  assert (G : forall (l : list A) a j, zget (Z.of_nat j) (combine (map (fun k => 0 + Z.of_nat k) (seq a (length l))) l) =
     if (a <=? j)%nat then nth_error l (j - a) else None).
  { clear. induction l as [|x l IH]; intros a j.
    - cbn. destruct (a <=? j)%nat; [|reflexivity]. now destruct (j - a)%nat.
    - cbn [length seq map combine]. unfold zget in *. cbn [dget]. rewrite IH.
      destruct (Z.eqb_spec (0 + Z.of_nat a) (Z.of_nat j)) as [E|E].
      + assert (j = a) by lia. subst j. rewrite Nat.leb_refl, Nat.sub_diag. reflexivity.
      + destruct (Nat.leb_spec a j), (Nat.leb_spec (S a) j); try lia; auto.
        replace (j - a)%nat with (S (j - S a)) by lia. reflexivity. }
  rewrite G. cbn [Nat.leb]. now rewrite Nat.sub_0_r.
Qed.

(** what one satellite of the atmospheric message writes *)
Section Atmos.
Variables (n stec : Z).
Hypothesis Hn : 0 <= n < 33.
(** the dictionaries exist *)
Definition ready (s : cst) : Prop := nets s /\ (Z.testbit stec 1 = true -> l_ci (lcat s n) <> None).
Definition view (s : cst) (k : Z) : option (Z * Z) * option (list (option Z)) * option (dict Z (option Z)) :=
  (stec_q_of s n k, ci_of s n k, zget k (l_dstec (lcat s n))).
Lemma stecv_lc it x s : nets s ->
  lcat (stecv_eff n stec it x s) n =
  let l := lc_t0 (i_sat it) tSTEC (s_time s) (lcat s n) in
  let l := if stec >? 0 then set_l_stec_q (zset (i_sat it) (sv_q x) (l_stec_q l)) l else l in
  let l := if Z.testbit stec 1 then set_l_ci (ozset (i_sat it) (val_coef (sv_type x) (sv_c x)) (l_ci l))
             (set_l_stype (zset (i_sat it) (sv_type x) (l_stype l)) l) else l in
  if Z.testbit stec 0 then set_l_dstec (zset (i_sat it) (indexed (map (fun y => sval y (res_sz (sv_szi x))) (sv_res x))) (l_dstec l))
             (set_l_s_sz (zset (i_sat it) (Z.of_nat (res_sz (sv_szi x))) (l_s_sz l)) l) else l.
Proof.
  intros Hs. unfold stecv_eff. cbv zeta.
  destruct (stec >? 0), (Z.testbit stec 1), (Z.testbit stec 0);
    repeat (rewrite lcat_eff by (first [lia | repeat apply nets_updlc; assumption]); rewrite Z.eqb_refl);
    rewrite lcat_stamp by (assumption || lia); rewrite Z.eqb_refl; reflexivity.
Qed.
Lemma stecv_nets it x s : nets s -> nets (stecv_eff n stec it x s).
Proof.
  intros Hs. unfold stecv_eff. cbv zeta.
  destruct (stec >? 0), (Z.testbit stec 1), (Z.testbit stec 0); repeat apply nets_updlc; assumption.
Qed.
Lemma stecv_write it x s : ready s ->
  let s' := stecv_eff n stec it x s in
  ready s' /\
  (stec > 0 -> stec_q_of s' n (i_sat it) = Some (sv_q x)) /\
  (Z.testbit stec 1 = true -> ci_of s' n (i_sat it) = Some (val_coef (sv_type x) (sv_c x))) /\
  (Z.testbit stec 0 = true -> zget (i_sat it) (l_dstec (lcat s' n)) = Some (indexed (map (fun y => sval y (res_sz (sv_szi x))) (sv_res x)))) /\
  (forall k, k <> i_sat it -> view s' k = view s k) /\
  l_ct (lcat s' n) = l_ct (lcat s n) /\ l_dtw (lcat s' n) = l_dtw (lcat s n).
Proof.
  intros (Hs & Hr) s'. subst s'. unfold ready, view, stec_q_of, ci_of. rewrite stecv_lc by assumption. cbv zeta.
  split; [split; [now apply stecv_nets|]|].
  - intros E. specialize (Hr E). rewrite E. destruct (l_ci (lcat s n)) as [d|] eqn:Ec; [|congruence].
    destruct (stec >? 0), (Z.testbit stec 0); cbn; rewrite Ec; discriminate.
  - split; [|split; [|split; [|split; [|split]]]].
    + intros H. rewrite (proj2 (Z.gtb_lt _ _)) by lia. destruct (Z.testbit stec 1), (Z.testbit stec 0); cbn; apply zget_zset_same.
    + intros E. specialize (Hr E). rewrite E. destruct (l_ci (lcat s n)) as [d|] eqn:Ec; [|congruence].
      destruct (stec >? 0), (Z.testbit stec 0); cbn; rewrite Ec; cbn; apply zget_zset_same.
    + intros E. rewrite E. destruct (stec >? 0), (Z.testbit stec 1); cbn; apply zget_zset_same.
    + intros k Hk. destruct (l_ci (lcat s n)) as [d|] eqn:Ec;
        destruct (stec >? 0), (Z.testbit stec 1), (Z.testbit stec 0); cbn; rewrite ?Ec; cbn;
        rewrite ?zget_zset_other by congruence; reflexivity.
    + destruct (stec >? 0), (Z.testbit stec 1), (Z.testbit stec 0); reflexivity.
    + destruct (stec >? 0), (Z.testbit stec 1), (Z.testbit stec 0); reflexivity.
Qed.

Lemma stecv_all : forall loc v s, NoDup (map i_sat loc) -> ready s ->
  let s' := eff2 (stecv_eff n stec) loc v s in
  ready s' /\
  (forall k it x, nth_error loc k = Some it -> nth_error v k = Some x ->
    (stec > 0 -> stec_q_of s' n (i_sat it) = Some (sv_q x)) /\
    (Z.testbit stec 1 = true -> ci_of s' n (i_sat it) = Some (val_coef (sv_type x) (sv_c x))) /\
    (Z.testbit stec 0 = true -> zget (i_sat it) (l_dstec (lcat s' n)) = Some (indexed (map (fun y => sval y (res_sz (sv_szi x))) (sv_res x))))) /\
  (forall k, ~ In k (map i_sat loc) -> view s' k = view s k) /\
  l_ct (lcat s' n) = l_ct (lcat s n) /\ l_dtw (lcat s' n) = l_dtw (lcat s n).
Proof.
  induction loc as [|it loc IH]; intros v s Hd Hr.
  - split; [exact Hr|]. split; [intros [|k] ? ? H; discriminate H|auto].
  - destruct v as [|x v]; [split; [exact Hr|]; split; [intros [|k] ? ? ? H; discriminate H|auto]|].
    change (eff2 (stecv_eff n stec) (it :: loc) (x :: v) s) with (eff2 (stecv_eff n stec) loc v (stecv_eff n stec it x s)).
    cbn in Hd. inversion_clear Hd as [|? ? D1 D2].
    destruct (stecv_write it x s Hr) as (W1 & W2 & W3 & W4 & W5 & W6 & W7). cbv zeta in *.
    destruct (IH v _ D2 W1) as (I1 & I2 & I3 & I4 & I5).
    split; [exact I1|]. split; [|split; [|split; congruence]].
    + intros [|k] it' x' Hi Hx; cbn in Hi, Hx; [|now apply (I2 k)].
      injection Hi as <-. injection Hx as <-. specialize (I3 _ D1). unfold view in I3. injection I3 as E1 E2 E3.
      rewrite E1, E2, E3. auto.
    + intros k Hk. cbn in Hk. rewrite I3, W5 by (intros H; apply Hk; auto). reflexivity.
Qed.
End Atmos.

Theorem atmos_user c msg its h inet ng q fn rs_ stec m v i s :
  wf_cfg c -> c_has c = false -> ctx its s -> nets s -> NoDup (map i_sat its) ->
  let M := CAtmos h inet ng q fn rs_ stec m v in
  wf_msg c its s M -> At msg i (enc_body c its M) ->
  exists s', decode_cssr_atmos c msg i s = (s', Some (Some (i + length (enc_body c its M))%nat)) /\
  (forall k it x, nth_error (sel m its) k = Some it -> nth_error v k = Some x ->
     (stec > 0 -> stec_q_of s' inet (i_sat it) = Some (sv_q x)) /\
     (Z.testbit stec 1 = true -> ci_of s' inet (i_sat it) = Some (val_coef (sv_type x) (sv_c x))) /\
     (Z.testbit stec 0 = true -> forall j y, nth_error (sv_res x) j = Some y ->
        dstec_of s' inet (i_sat it) j = Some (sval y (res_sz (sv_szi x))))) /\
  (forall sat, ~ In sat (map i_sat (sel m its)) ->
     stec_q_of s' inet sat = None /\ (Z.testbit stec 1 = true -> ci_of s' inet sat = None) /\
     (Z.testbit stec 0 = true -> forall j, dstec_of s' inet sat j = None)) /\
  ct_of s' inet = Some (CtVal (option_map val_tropfn fn) (match rs_ with Some r => r_ofst r | None => 0 end)) /\
  (forall r j y, rs_ = Some r -> nth_error (r_v r) j = Some y -> dtw_of s' inet j = Some (sval y (res_w r))).
Proof.
  intros Hc Eh Hx Hl Hnd M Hw Ha. subst M.
  destruct (atmos_ok c msg its h inet ng q fn rs_ stec m v Eh i s Hx Hw Ha) as [H1 _].
  eexists. split; [exact H1|]. clear H1.
  destruct Hw as (_ & _ & (Hi & _) & _). unfold ub in Hi. change (2 ^ Z.of_nat 5) with 32 in Hi.
  assert (Hr : 0 <= inet < 33) by lia.
  cbn [msg_eff]. cbv zeta. set (loc := sel m its).
  match goal with |- context [eff2 _ loc v ?t] => set (t0 := t) in * end.
  assert (T0 : nets t0 /\ l_stec_q (lcat t0 inet) = [] /\ (Z.testbit stec 1 = true -> l_ci (lcat t0 inet) = Some []) /\
     (Z.testbit stec 0 = true -> l_dstec (lcat t0 inet) = []) /\
     l_ct (lcat t0 inet) = Some (CtVal (option_map val_tropfn fn) (match rs_ with Some r => r_ofst r | None => 0 end)) /\
     (forall r, rs_ = Some r -> l_dtw (lcat t0 inet) = Some (map (fun x => sval x (res_w r)) (r_v r)))).
  { unfold t0. pose proof (nets_hd c false h s Hl) as N0.
    set (s1 := set_s_flg_net true (hd_eff c false h s)). assert (N1 : nets s1) by exact N0. clearbody s1. clear N0.
    set (s2 := updlc inet _ s1). assert (N2 : nets s2) by now apply nets_updlc. clearbody s2.
    set (s3 := when (trop_flag fn rs_ >? 0) _ s2).
    assert (N3 : nets s3) by (unfold s3, when; destruct (trop_flag fn rs_ >? 0); [exact (nets_updlc inet _ _ N2)|exact N2]). clearbody s3.
    set (s4 := match rs_ with Some r => _ | None => _ end).
    assert (P4 : nets s4 /\ l_ct (lcat s4 inet) = Some (CtVal (option_map val_tropfn fn) (match rs_ with Some r => r_ofst r | None => 0 end)) /\
       (forall r, rs_ = Some r -> l_dtw (lcat s4 inet) = Some (map (fun x => sval x (res_w r)) (r_v r)))).
    { unfold s4. destruct fn as [f|], rs_ as [r|]; cbn [option_map];
        (split; [repeat apply nets_updlc; assumption|]);
        repeat (rewrite lcat_eff by (first [lia | repeat apply nets_updlc; assumption]); rewrite Z.eqb_refl); cbn;
        (split; [reflexivity|intros ? E; try discriminate E; injection E as <-; reflexivity]). }
    clearbody s4. destruct P4 as (N4 & C4 & W4).
    set (s5 := updlc inet (fun l => set_l_stec_q [] _) _).
    assert (P5 : nets s5 /\ l_stec_q (lcat s5 inet) = [] /\ l_ct (lcat s5 inet) = l_ct (lcat s4 inet) /\ l_dtw (lcat s5 inet) = l_dtw (lcat s4 inet)).
    { unfold s5. split; [do 2 apply nets_updlc; assumption|].
      repeat (rewrite lcat_eff by (first [lia | repeat apply nets_updlc; assumption]); rewrite Z.eqb_refl). auto. }
    clearbody s5. destruct P5 as (N5 & Q5 & C5 & W5).
    set (s6 := udi_eff tSTEC (m_udi h) s5).
    assert (N6 : nets s6) by exact N5. assert (E6 : lcat s6 inet = lcat s5 inet) by reflexivity. clearbody s6.
    rewrite <- E6 in Q5, C5, W5. unfold when.
    destruct (Z.testbit stec 1), (Z.testbit stec 0);
      (split; [repeat apply nets_updlc; assumption|]);
      repeat (rewrite lcat_eff by (first [lia | repeat apply nets_updlc; assumption]); rewrite Z.eqb_refl);
      cbn [l_stec_q l_ci l_dstec l_ct l_dtw set_l_stype set_l_ci set_l_s_sz set_l_dstec];
      rewrite Q5, C5, W5, C4; (split; [reflexivity|]);
      (split; [first [reflexivity | discriminate]|]); (split; [first [reflexivity | discriminate]|]); auto. }
  clearbody t0. destruct T0 as (N0 & Q0 & C0 & D0 & K0 & W0).
  assert (R0 : ready inet stec t0) by (split; [assumption|]; intros E; rewrite (C0 E); discriminate).
  destruct (stecv_all inet stec Hr loc v t0 (sel_nodup its m Hnd) R0) as (A & B & C & D & E). cbv zeta in *.
  set (u := eff2 _ loc v t0) in *. clearbody u. destruct A as [A _].
  match goal with |- context [ct_of ?w inet] => set (fin_ := w) end.
  assert (K : l_stec_q (lcat fin_ inet) = l_stec_q (lcat u inet) /\ l_ci (lcat fin_ inet) = l_ci (lcat u inet) /\
     l_dstec (lcat fin_ inet) = l_dstec (lcat u inet) /\ l_ct (lcat fin_ inet) = l_ct (lcat u inet) /\ l_dtw (lcat fin_ inet) = l_dtw (lcat u inet)).
  { unfold fin_, when. destruct (trop_flag fn rs_ >? 0), (stec >? 0);
      repeat (first [rewrite lcat_flag by (first [lia | repeat apply nets_updlc; assumption])
                    | rewrite lcat_stamp by (first [lia | repeat apply nets_updlc; assumption])]; rewrite Z.eqb_refl); auto. }
  clearbody fin_. destruct K as (K1 & K2 & K3 & K4 & K5).
  unfold stec_q_of, ci_of, dstec_of, ct_of, dtw_of in *. rewrite K1, K2, K3, K4, K5.
  split; [|split; [|split]].
  - intros k it x Hk Hx'. destruct (B k it x Hk Hx') as (B1 & B2 & B3). split; [exact B1|]. split; [exact B2|].
    intros Eb j y Hy. rewrite (B3 Eb). cbv beta iota. rewrite indexed_get. exact (map_nth_error _ _ _ Hy).
  - intros sat Hs. specialize (C sat Hs). unfold view, stec_q_of, ci_of in C. injection C as C1 C2 C3.
    rewrite C1, C2, C3, Q0. split; [reflexivity|]. split.
    + intros Eb. now rewrite (C0 Eb).
    + intros Eb j. now rewrite (D0 Eb).
  - now rewrite D, K0.
  - intros r j y Er Hy. rewrite E, (W0 r Er). exact (map_nth_error (fun x => sval x (res_w r)) _ _ Hy).
Qed.

Theorem cfg_widths : forall b : bool, let c := if b then has_cfg else clas_cfg in
  c_has c = b /\ [b_o0 c; b_o1 c; b_o2 c; b_clk c; b_cb c; b_pb c] = icd_widths b /\ wf_cfg c /\
  forall w x, (0 < w)%nat -> sb w x ->
    (c_sval c x w = None <-> x = - 2 ^ (Z.of_nat w - 1) \/ (b = true /\ x = 2 ^ (Z.of_nat w - 1) - 1)) /\
    (c_sval c x w = None \/ c_sval c x w = Some x).
Proof.
  intros b c. split; [now destruct b|]. split; [now destruct b|]. split; [destruct b; subst c; repeat split; cbn; lia|].
  intros w x Hw Hx. destruct b; subst c; unfold clas_cfg, has_cfg; cbn [c_sval]; unfold sval, sval_has.
  - destruct (Z.eqb_spec x (- 2 ^ (Z.of_nat w - 1))), (Z.eqb_spec x (2 ^ (Z.of_nat w - 1) - 1)); cbn [orb];
      (split; [split; [auto; discriminate | intros [|[_ ?]]; congruence]|auto]).
  - destruct (Z.eqb_spec x (- 2 ^ (Z.of_nat w - 1)));
      (split; [split; [auto; discriminate | intros [|[? _]]; congruence]|auto]).
Qed.
