(** The decoder reads the messages of RAtmSpec.v and the encoder writes them. *)
From Verif Require Import SatModel SatSpec SatProofs TimeModel CssrState CssrFacts RtcmFrame RtcmSsr RtcmFrameSpec RtcmFrameProofs RtcmSsrSpec RtcmSsrProofs
  BitModel BitProofs MsmSpec MsmProofs RAtmModel RAtmSpec Base BaseFacts.
From Coq Require Import ZifyBool ZifyNat Sorted.
Notation length := List.length.
Open Scope Z_scope.

Lemma getb_at msg i b : At msg i [b] -> getb msg i 1 = Some b.
Proof. intros A. unfold getb. change 1%nat with (length [b]). rewrite (getu_at _ _ _ A). cbn [bind]. now destruct b. Qed.
Ltac gb := match goal with A : At ?m _ [?b] |- context [getb ?m ?j 1] => rewrite (getb_at m j b) by (eapply At_pos; [exact A|poslen; lia]) end; cbn [bind].
Lemma getsv_at msg i n y : (1 <= n)%nat -> fits n y -> At msg i (field n y) -> getsv msg i n = Some y.
Proof. intros N F A. unfold getsv. rewrite (gets_field msg i n y N F A). cbn [bind]. now rewrite sval_ival. Qed.
Ltac gv := match goal with A : At ?m _ (field ?n ?y) |- context [getsv ?m ?j ?n] =>
  rewrite (getsv_at m j n y) by first [ assumption | (eapply At_pos; [exact A|poslen; lia]) | lia ] end; cbn [bind].

Lemma ahead_len s h : length (ahead_bits s h) = (tow_len false s + 29)%nat.
Proof. unfold ahead_bits. rewrite !app_length, !bitsof_length. cbn [length]. lia. Qed.
Lemma dec_ahead s (st : ast) msg i h : head_ok false s h -> At msg i (ahead_bits s h) ->
  decode_ahead s st msg i = Some (msg_time false (a_week st) (a_time st) s (g_tow h), g_iod h, g_pid h, g_sid h, (i + length (ahead_bits s h))%nat).
Proof.
  intros (H1 & H2 & H3 & H4 & H5 & H6) A. rewrite ahead_len. unfold ahead_bits in A.
  do 5 (let K := fresh "A" in apply At_app in A as [K A]). rewrite ?bitsof_length in *. cbn [length] in *.
  assert (T : (if gnss_eqb s GLO
                then do tod <- getu msg i 17; Some (rtcm_glo_time 1 (a_time st) tod, i + 17)%nat
                else do tow <- getu msg i 20; Some (gpst2time 1 (a_week st) tow, i + 20)%nat) =
              Some (msg_time false (a_week st) (a_time st) s (g_tow h), i + tow_len false s)%nat).
  { unfold rtcm_glo_time, msg_time. destruct (gnss_eqb s GLO) eqn:Es.
    + apply gnss_eqb_eq in Es. subst s. cbn [tow_len] in *. gu. reflexivity.
    + destruct s; try discriminate Es; cbn [tow_len] in *; gu; reflexivity. }
  unfold decode_ahead. rewrite T. cbn [bind]. clear T. gu. gb. do 3 gu. f_equal. f_equal. lia.
Qed.

(* ---------- lists ---------- *)
Lemma lput_ok {A} (v : A) : forall l k o, nth_error l k = Some o -> exists l', lput k v l = Some l' /\ nth_error l' k = Some v /\ others k l l'.
Proof.
  induction l as [|x l IH]; intros [|k] o E; cbn in E; try discriminate.
  - injection E as ->. eexists. split; [reflexivity|]. split; [reflexivity|]. split; [reflexivity|]. intros [|j] Hj; [congruence|reflexivity].
  - destruct (IH k o E) as (l' & E1 & E2 & E3 & E4). cbn [lput]. rewrite E1. cbn [bind]. eexists. split; [reflexivity|]. split; [exact E2|].
    split; [cbn; congruence|]. intros [|j] Hj; [reflexivity|]. cbn. apply E4. congruence.
Qed.
Lemma plus_up c y : plus c y = up c y.
Proof. destruct y as [v|]; cbn; [|reflexivity]. f_equal. lia. Qed.
Lemma plus_down c y : plus (- c) (up c y) = y.
Proof. destruct y as [v|]; cbn; [|reflexivity]. f_equal. lia. Qed.

(* ---------- troposphere ---------- *)
Lemma opt_len n y : length (opt n y) = n.
Proof. destruct n; [reflexivity|]. unfold opt. now rewrite field_length by lia. Qed.
Lemma dec_rows n m msg : forall rows i, Forall (fun x => (n = 0%nat \/ fits n (fst x)) /\ (m = 0%nat \/ fits m (snd x))) rows ->
  At msg i (flat_map (row_bits n m) rows) ->
  trop_rows n m (length rows) msg i =
    Some ((if (n =? 0)%nat then [] else map fst rows), (if (m =? 0)%nat then [] else map snd rows), (i + length (flat_map (row_bits n m) rows))%nat).
Proof.
  induction rows as [|[h w] rows IH]; intros i H A.
  - cbn. rewrite Nat.add_0_r. now destruct n, m.
  - inversion H as [|? ? [Hh Hw] H']; subst. cbn [fst snd flat_map] in *. apply At_app in A as [A A']. unfold row_bits in A. apply At_app in A as [A1 A2].
    cbn [fst snd] in *. rewrite opt_len in A2. cbn [length trop_rows].
    assert (E1 : (if (0 <? n)%nat then do v <- getsv msg i n; Some ([v], i + n)%nat else Some ([], i)) = Some ((if (n =? 0)%nat then [] else [h]), i + n)%nat).
    { destruct n as [|n]; [cbn; now rewrite Nat.add_0_r|]. change (0 <? S n)%nat with true. cbv iota. destruct Hh as [?|Hh]; [lia|].
      rewrite (getsv_at msg i (S n) h) by (auto; lia). reflexivity. }
    rewrite E1. cbn [bind]. clear E1.
    assert (E2 : (if (0 <? m)%nat then do v <- getsv msg (i + n) m; Some ([v], i + n + m)%nat else Some ([], i + n)%nat) = Some ((if (m =? 0)%nat then [] else [w]), i + n + m)%nat).
    { destruct m as [|m]; [cbn; now rewrite Nat.add_0_r|]. change (0 <? S m)%nat with true. cbv iota. destruct Hw as [?|Hw]; [lia|].
      rewrite (getsv_at msg (i + n) (S m) w) by (auto; lia). reflexivity. }
    rewrite E2. cbn [bind]. clear E2.
    assert (L : length (row_bits n m (h, w)) = (n + m)%nat) by (unfold row_bits; cbn [fst snd]; now rewrite app_length, !opt_len).
    rewrite L in A'. rewrite (IH _ H') by (eapply At_pos; [exact A'|lia]). cbn [bind map fst snd]. rewrite app_length, L, !Nat.add_assoc. now destruct n, m.
Qed.
Lemma main_len t b : length (trop_main t b) = 199%nat.
Proof. unfold trop_main. rewrite !app_length, ahead_len, !bitsof_length, !field_length by lia. reflexivity. Qed.
Ltac msplit A := repeat (let K := fresh "A" in apply At_app in A as [K A]); rewrite ?bitsof_length, ?ahead_len, ?field_length in * by lia; cbn [length tow_len] in *.
(** everything up to the residual flag's consequences *)
Lemma dec_trop_main t (st : ast) msg b (R : option (ast * nat) -> Prop) :
  trop_ok t -> At msg 36 (trop_main t b) ->
  R (if b then
    do ofst <- getu msg 235 12; do ng <- getu msg (235 + 12) 12; do n <- getu msg (235 + 24) 4; do m <- getu msg (235 + 28) 4;
    do (hs, ws, i) <- trop_rows (Z.to_nat n) (Z.to_nat m) (Z.to_nat ng) msg (235 + 32)%nat;
    do o <- nth_error (a_lc st) (Z.to_nat (t_gid t));
    do lcs <- lput (Z.to_nat (t_gid t))
      (LC [up 23000 (t_c00h t); t_c01h t; t_c10h t; up 2520 (t_c00w t); t_c01w t; t_c10w t]
          [up 4720 (t_ah t); up 596 (t_bh t); up 341 (t_ch t)] [up 104 (t_aw t); up 60 (t_bw t); up 24 (t_cw t)]
          (if 0 <? n then Some (zeros ofst ++ hs) else None) (if 0 <? m then Some (zeros ofst ++ ws) else None) ng ofst
          (l_sat o) (l_ci o) (l_stype o) (l_dstec o)) (a_lc st);
    Some (AST (a_week st) (gpst2time 1 (a_week st) (g_tow (t_h t))) (g_pid (t_h t)) (g_sid (t_h t)) (g_iod (t_h t)) (a_gid st) (a_pmi st) true (a_pgi st) lcs, i)
  else None) -> R (decode_trop st msg 36).
Proof.
  intros (Hh & Hg & (F1 & F2 & F3 & F4 & F5 & F6) & (F7 & F8 & F9 & Fa & Fb & Fc) & _) A HR. unfold trop_main in A.
  unfold decode_trop. apply At_app in A as [A0 A]. rewrite (dec_ahead NONE st msg 36 _ Hh A0). cbn [bind]. msplit A.
  gu. gb. gv. gv. gv. gv. gv. gv. gv. gv. gv. gv. gv. gv.
  change (36 + 49 + 11 + 53 + 43 + 43)%nat with 235%nat. rewrite !plus_up. exact HR.
Qed.
Definition nets (st : ast) : Prop := length (a_lc st) = 33%nat.
Lemma net_some (st : ast) g : nets st -> 0 <= g < 33 -> exists o, nth_error (a_lc st) (Z.to_nat g) = Some o.
Proof. intros N G. destruct (nth_error (a_lc st) (Z.to_nat g)) eqn:E; [eauto|]. apply nth_error_None in E. unfold nets in N. lia. Qed.
Lemma mt95 msg w : At msg 24 (bitsof 12 95 ++ w) -> (forall st : ast, decode_atm st msg = decode_trop st msg 36) /\ At msg 36 w.
Proof.
  intros A. apply At_app in A as [A1 A2]. rewrite bitsof_length in A2. split; [|exact A2]. intros st. unfold decode_atm.
  rewrite (getu_bits msg 24 12 95) by (auto; cbn; lia). reflexivity.
Qed.
Lemma tres_len r : length (tres_bits r) = (32 + length (flat_map (row_bits (s_n r) (s_m r)) (s_rows r)))%nat.
Proof. unfold tres_bits. rewrite !app_length, !bitsof_length. lia. Qed.
Lemma dec_trop t r (st : ast) msg : trop_ok t -> t_res t = Some r -> nets st -> t_gid t < 33 -> At msg 24 (trop_message t) ->
  exists st', decode_atm st msg = Some (st', (24 + length (trop_message t))%nat) /\ trop_effect t r st st'.
Proof.
  intros Hok Er N G A. unfold trop_message in *. rewrite Er in *. destruct (mt95 _ _ A) as [-> A1]. apply At_app in A1 as [A1 A2]. rewrite main_len in A2.
  pattern (decode_trop st msg 36); apply (dec_trop_main t st msg true); [exact Hok|exact A1|]. destruct Hok as (_ & Hg & _ & _ & Hr). rewrite Er in Hr.
  destruct Hr as (H1 & H2 & H3 & H4 & H5). unfold tres_bits in A2. msplit A2. gu. gu. gu. gu. rewrite !Nat2Z.id.
  rewrite (dec_rows _ _ msg (s_rows r)) by first [assumption | eapply At_pos; [exact A2|lia]]. cbn [bind].
  destruct (net_some st (t_gid t) N) as (o & Eo); [lia|]. rewrite Eo. cbn [bind].
  match goal with |- context [lput _ ?v _] => destruct (lput_ok v _ _ _ Eo) as (l' & E1 & E2 & E3) end. rewrite E1. cbn [bind].
  eexists. split.
  - f_equal. f_equal. rewrite !app_length, main_len, tres_len, !bitsof_length. lia.
  - unfold trop_effect. cbn [a_week a_time a_pid a_sid a_iod a_rmi a_gid a_pmi a_pgi a_lc].
    do 7 (split; [reflexivity|]). split; [exact E3|]. exists o. eexists. split; [exact Eo|]. split; [exact E2|].
    cbn [l_maph l_mapw l_ct l_dth l_dtw l_ng l_ofst l_sat l_ci l_stype l_dstec].
    do 3 (split; [reflexivity|]). split; [destruct (s_n r); reflexivity|]. split; [destruct (s_m r); reflexivity|].
    do 2 (split; [reflexivity|]). reflexivity.
Qed.
Lemma dec_trop_none t (st : ast) msg : trop_ok t -> t_res t = None -> At msg 24 (trop_message t) -> decode_atm st msg = None.
Proof.
  intros Hok Er A. unfold trop_message in *. rewrite Er in *. destruct (mt95 _ _ A) as [-> A1].
  pattern (decode_trop st msg 36); apply (dec_trop_main t st msg false); [exact Hok|exact A1|reflexivity].
Qed.
Lemma dec_trop_net t r (st : ast) msg : trop_ok t -> t_res t = Some r -> nets st -> 33 <= t_gid t -> At msg 24 (trop_message t) -> decode_atm st msg = None.
Proof.
  intros Hok Er N G A. unfold trop_message in *. rewrite Er in *. destruct (mt95 _ _ A) as [-> A1]. apply At_app in A1 as [A1 A2]. rewrite main_len in A2.
  pattern (decode_trop st msg 36); apply (dec_trop_main t st msg true); [exact Hok|exact A1|]. destruct Hok as (_ & Hg & _ & _ & Hr). rewrite Er in Hr.
  destruct Hr as (H1 & H2 & H3 & H4 & H5). unfold tres_bits in A2. msplit A2. gu. gu. gu. gu. rewrite !Nat2Z.id.
  rewrite (dec_rows _ _ msg (s_rows r)) by first [assumption | eapply At_pos; [exact A2|lia]]. cbn [bind].
  assert (E : nth_error (a_lc st) (Z.to_nat (t_gid t)) = None) by (apply nth_error_None; unfold nets in N; lia). rewrite E. reflexivity.
Qed.

(* ---------- troposphere, encoder ---------- *)
Ltac pl := rewrite ?app_length, ?bitsof_length, ?field_length, ?opt_len by lia; cbn [length]; lia.
Ltac pu := first [ rewrite putu_app by first [lia | assumption | pl] | rewrite puts_app by first [lia | assumption | pl] ]; cbn [bind].
Lemma putsv_app msg i w j n y : (1 <= n)%nat -> (i + length w + n <= length msg)%nat -> fits n y -> j = (i + length w)%nat ->
  putsv (splice msg i w) j n y = Some (splice msg i (w ++ field n y)).
Proof. exact (puts_app msg i w j n y). Qed.
Lemma bit1 b : [b] = bitsof 1 (Z.b2z b). Proof. destruct b; reflexivity. Qed.
Lemma b2z_range b : 0 <= Z.b2z b < 2 ^ Z.of_nat 1. Proof. destruct b; cbn; lia. Qed.
Lemma enc_ahead e s msg i w j : head_ok false s (ahead e) -> (i + length w + (tow_len false s + 29) <= length msg)%nat -> j = (i + length w)%nat ->
  encode_ahead e s (splice msg i w) j = Some (splice msg i (w ++ ahead_bits s (ahead e)), (j + (tow_len false s + 29))%nat).
Proof.
  intros (H1 & H2 & H3 & H4 & H5 & H6) Hl ->. unfold encode_ahead, ahead_bits. cbn [ahead g_tow g_udi g_mi g_datum g_iod g_pid g_sid] in *.
  change (match s with GLO => 17%nat | _ => 20%nat end) with (tow_len false s). rewrite bit1. pose proof (b2z_range (ea_mi e)).
  do 6 pu. rewrite <- !app_assoc. f_equal. f_equal. lia.
Qed.
Lemma skip_nth {A} : forall (l : list A) k n x r, firstn (S n) (skipn k l) = x :: r -> nth_error l k = Some x /\ firstn n (skipn (S k) l) = r.
Proof.
  induction l as [|y l IH]; intros k n x r E; [destruct k; discriminate|]. destruct k as [|k].
  - cbn [skipn firstn] in E. injection E as -> <-. split; reflexivity.
  - cbn [skipn] in E. destruct (IH _ _ _ _ E). split; assumption.
Qed.
Lemma enc_opt msg i w j n (l : list (option Z)) k y : (n = 0%nat \/ (fits n y /\ nth_error l k = Some y)) -> (i + length w + n <= length msg)%nat -> j = (i + length w)%nat ->
  (if (0 <? n)%nat then do y <- nth_error l k; do m <- putsv (splice msg i w) j n y; Some (m, (j + n)%nat) else Some (splice msg i w, j)) =
  Some (splice msg i (w ++ opt n y), (j + n)%nat).
Proof.
  intros H Hl ->. destruct n as [|n]; [cbn; now rewrite app_nil_r, Nat.add_0_r|]. destruct H as [?|[F E]]; [lia|].
  change (0 <? S n)%nat with true. cbv iota. rewrite E. cbn [bind]. rewrite putsv_app by (auto; lia). reflexivity.
Qed.
Lemma enc_rows e : forall rows k msg i w j,
  Forall (fun x => (ea_nlen e = 0%nat \/ fits (ea_nlen e) (fst x)) /\ (ea_mlen e = 0%nat \/ fits (ea_mlen e) (snd x))) rows ->
  (ea_nlen e = 0%nat \/ firstn (length rows) (skipn k (ea_dth e)) = map fst rows) ->
  (ea_mlen e = 0%nat \/ firstn (length rows) (skipn k (ea_dtw e)) = map snd rows) ->
  (i + length w + length (flat_map (row_bits (ea_nlen e) (ea_mlen e)) rows) <= length msg)%nat -> j = (i + length w)%nat ->
  encode_rows e (length rows) k (splice msg i w) j =
    Some (splice msg i (w ++ flat_map (row_bits (ea_nlen e) (ea_mlen e)) rows), (j + length (flat_map (row_bits (ea_nlen e) (ea_mlen e)) rows))%nat).
Proof.
  induction rows as [|[h v] rows IH]; intros k msg i w j H Eh Ew Hl ->.
  - cbn. now rewrite app_nil_r, Nat.add_0_r.
  - apply Forall_cons_iff in H as [[Hh Hw] H']. cbn [fst snd flat_map length map] in *.
    assert (L : length (row_bits (ea_nlen e) (ea_mlen e) (h, v)) = (ea_nlen e + ea_mlen e)%nat) by (unfold row_bits; cbn [fst snd]; now rewrite app_length, !opt_len).
    rewrite app_length, L in Hl. cbn [encode_rows].
    rewrite (enc_opt msg i w _ (ea_nlen e) (ea_dth e) k h); [|destruct Hh as [?|Hh]; [now left|]; destruct Eh as [?|Eh]; [now left|right]; exact (conj Hh (proj1 (skip_nth _ _ _ _ _ Eh)))|lia|reflexivity].
    cbn [bind].
    rewrite (enc_opt msg i (w ++ opt (ea_nlen e) h) _ (ea_mlen e) (ea_dtw e) k v);
      [|destruct Hw as [?|Hw]; [now left|]; destruct Ew as [?|Ew]; [now left|right]; exact (conj Hw (proj1 (skip_nth _ _ _ _ _ Ew)))|rewrite app_length, opt_len; lia|rewrite app_length, opt_len; lia].
    cbn [bind].
    rewrite IH.
    + f_equal. f_equal; [f_equal; unfold row_bits; cbn [fst snd]; now rewrite <- !app_assoc|]. rewrite app_length, L. lia.
    + exact H'.
    + destruct Eh as [?|Eh]; [now left|right; exact (proj2 (skip_nth _ _ _ _ _ Eh))].
    + destruct Ew as [?|Ew]; [now left|right; exact (proj2 (skip_nth _ _ _ _ _ Ew))].
    + rewrite !app_length, !opt_len. lia.
    + rewrite !app_length, !opt_len. lia.
Qed.
Ltac pv := rewrite putsv_app by first [lia | assumption | pl]; cbn [bind].
Ltac pl2 := rewrite ?app_length, ?bitsof_length, ?field_length, ?ahead_len by lia; cbn [length tow_len]; lia.
Lemma enc_trop e t r msg : trop_ok t -> t_res t = Some r -> trop_given e t r -> (24 + length (trop_message t) <= length msg)%nat ->
  encode_atm e msg = Some (splice msg 24 (trop_message t), (24 + length (trop_message t))%nat).
Proof.
  intros (Hh & Hg & (F1 & F2 & F3 & F4 & F5 & F6) & (F7 & F8 & F9 & Fa & Fb & Fc) & Hr) Er
    (G1 & G2 & G3 & G4 & G5 & G6 & G7 & G8 & G9 & Ga & Gb & Gc & Gd) Hl.
  rewrite Er in Hr. destruct Hr as (R1 & R2 & R3 & R4 & R5). unfold trop_message in *. rewrite Er in *.
  assert (L : length (bitsof 12 95 ++ trop_main t true ++ tres_bits r) = (243 + length (flat_map (row_bits (s_n r) (s_m r)) (s_rows r)))%nat)
    by (rewrite !app_length, main_len, tres_len, bitsof_length; lia).
  rewrite L in *.
  unfold encode_atm. rewrite G1. rewrite <- (splice_nil msg 24) at 1. rewrite putu_app by (cbn [length]; lia). cbn [bind app].
  change (edispatch 95) with (KSsr STROP). cbv iota. unfold encode_trop.
  rewrite enc_ahead by (rewrite ?bitsof_length; cbn [tow_len]; rewrite ?G2; auto; lia). cbn [bind]. rewrite G2, G3, G4, G5, G6, G7, G8, G9, Ga, Gb. cbv zeta iota.
  change (Z.b2z true) with 1. cbn [tow_len].
  rewrite (plus_down 4720), (plus_down 596), (plus_down 341), (plus_down 104), (plus_down 60), (plus_down 24), (plus_down 23000), (plus_down 2520).
  rewrite putu_app by first [lia | pl2]; cbn [bind]. rewrite putu_app by first [lia | pl2]; cbn [bind].
  do 12 (rewrite putsv_app by first [lia | assumption | pl2]; cbn [bind]).
  do 4 (rewrite putu_app by first [lia | pl2]; cbn [bind]).
  rewrite Nat2Z.id. rewrite <- G8, <- G9 in *.
  rewrite (enc_rows e (s_rows r)); [|exact R5|exact Gc|exact Gd|pl2|pl2].
  apply f_equal. apply f_equal2; [|lia]. f_equal. unfold trop_main, tres_bits. rewrite G8, G9. rewrite <- !app_assoc. reflexivity.
Qed.
