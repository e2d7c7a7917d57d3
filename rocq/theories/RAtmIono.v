(** The ionosphere messages of RAtmSpec.v: decoder and encoder. *)
From Verif Require Import SatModel SatSpec SatProofs TimeModel CssrState CssrFacts RtcmFrame RtcmSsr RtcmFrameSpec RtcmFrameProofs RtcmSsrSpec RtcmSsrProofs
  BitModel BitProofs MsmSpec MsmProofs RAtmModel RAtmSpec RAtmProofs Base BaseFacts.
From Verif Require BiasSpec BiasProofs.
From Coq Require Import ZifyBool ZifyNat Sorted.
Notation length := List.length.
Open Scope Z_scope.

Definition satof (s : gnss) (x : isat) : Z := prn2sat s (i_prn x).
Definition dfold {V} (s : gnss) (val : isat -> V) (es : list isat) (d : dict Z V) : dict Z V :=
  fold_left (fun d e => zset (prn2sat s (i_prn e)) (val e) d) es d.
Lemma exactly_fold {V} s (val : isat -> V) es : NoDup (map (satof s) es) -> exactly s val es (dfold s val es []).
Proof.
  intros N. destruct (BiasProofs.holdz_fold s i_prn val es N []) as [H1 H2]. split; [exact H1|]. intros sat Hs. unfold dfold. rewrite H2 by exact Hs. reflexivity.
Qed.
Definition pval (g : bool) (x : isat) : list (option Z) := if g then [i_c00 x; i_c01 x; i_c10 x] else [i_c00 x].
Lemma poly_len g x : length (poly_bits g x) = if g then 53%nat else 17%nat.
Proof. unfold poly_bits. destruct g; rewrite ?app_length, ?field_length by lia; reflexivity. Qed.
Lemma dec_poly s g msg : forall es i ci st, Forall (fun x => fits 17 (i_c00 x) /\ (g = true -> fits 18 (i_c01 x) /\ fits 18 (i_c10 x))) es ->
  At msg i (flat_map (poly_bits g) es) ->
  poly_sats g (map (satof s) es) msg i ci st =
    Some (dfold s (pval g) es ci, dfold s (fun _ => if g then 1 else 0) es st, (i + length (flat_map (poly_bits g) es))%nat).
Proof.
  induction es as [|x es IH]; intros i ci st H A; [cbn; now rewrite Nat.add_0_r|].
  inversion H as [|? ? [F1 F2] H']; subst. cbn [flat_map] in A. apply At_app in A as [A A']. rewrite poly_len in A'.
  cbn [map poly_sats flat_map]. rewrite app_length, poly_len. unfold poly_bits in A. apply At_app in A as [A1 A2]. rewrite field_length in A2 by lia.
  rewrite (getsv_at msg i 17 (i_c00 x)) by (auto; lia). cbn [bind]. destruct g.
  - destruct (F2 eq_refl). apply At_app in A2 as [A2 A3]. rewrite field_length in A3 by lia.
    rewrite (getsv_at msg (i + 17) 18 (i_c01 x)) by (auto; lia). cbn [bind]. rewrite (getsv_at msg (i + 17 + 18) 18 (i_c10 x)) by (auto; lia). cbn [bind].
    rewrite (IH _ _ _ H') by (eapply At_pos; [exact A'|lia]). unfold dfold. cbn [fold_left pval]. unfold satof. f_equal. f_equal. lia.
  - cbn [bind]. rewrite (IH _ _ _ H') by (eapply At_pos; [exact A'|lia]). unfold dfold. cbn [fold_left pval]. unfold satof. f_equal. f_equal. lia.
Qed.
Lemma dec_row n sf msg : (1 <= n)%nat -> forall l i, Forall (fits n) l -> At msg i (flat_map (field n) l) ->
  res_row n sf (length l) msg i = Some (map (scaled sf) l, (i + n * length l)%nat).
Proof.
  intros N. induction l as [|y l IH]; intros i H A; [cbn; f_equal; f_equal; lia|].
  inversion H; subst. cbn [flat_map] in A. apply At_app in A as [A A']. rewrite field_length in A' by lia. cbn [length res_row map].
  replace (n =? 0)%nat with false by lia. rewrite (getsv_at msg i n y) by auto. cbn [bind]. rewrite (IH _ H3 A'). cbn [bind].
  f_equal. f_equal; [f_equal|lia]. destruct y; cbn; [f_equal; apply Z.mul_comm|reflexivity].
Qed.
Lemma row_len n l : (1 <= n)%nat -> length (flat_map (field n) l) = (n * length l)%nat.
Proof. intros N. induction l as [|y l IH]; [cbn; lia|]. cbn [flat_map length]. rewrite app_length, IH, field_length by exact N. lia. Qed.
Definition rval (ofst sf : Z) (x : isat) : list (option Z) := repeat (Some 0) (Z.to_nat ofst) ++ map (scaled sf) (i_res x).
Lemma dec_res s n sf ofst ng msg : (1 <= n)%nat -> forall es i d, Forall (fun x => length (i_res x) = ng /\ Forall (fits n) (i_res x)) es ->
  At msg i (flat_map (fun x => flat_map (field n) (i_res x)) es) ->
  res_sats n sf ofst ng (map (satof s) es) msg i d =
    Some (dfold s (rval ofst sf) es d, (i + length (flat_map (fun x => flat_map (field n) (i_res x)) es))%nat).
Proof.
  intros N. induction es as [|x es IH]; intros i d H A; [cbn; now rewrite Nat.add_0_r|].
  inversion H as [|? ? [L F] H']; subst. cbn [flat_map] in A. apply At_app in A as [A A']. rewrite row_len in A' by exact N.
  cbn [map res_sats flat_map]. rewrite (dec_row n sf msg N (i_res x) i F A). cbn [bind]. rewrite (IH _ _ H' A').
  rewrite app_length, row_len by exact N. unfold dfold. cbn [fold_left]. unfold satof, zeros, rval. f_equal. f_equal. lia.
Qed.
Lemma slots_nodup s es : StronglySorted Z.lt (slots s es) -> Forall (fun x => owns s (i_prn x)) es -> NoDup (map (satof s) es).
Proof.
  unfold slots. induction es as [|x es IH]; intros H O; [constructor|]. cbn [map] in *. inversion H as [|? ? H1 H2]; subst. inversion O as [|? ? Ox O']; subst.
  constructor; [|now apply IH]. intros Hi. apply in_map_iff in Hi as (y & E & Hy). unfold satof in E.
  rewrite Forall_forall in H2, O'. specialize (O' y Hy). specialize (H2 (slot s (i_prn y)) (in_map (fun x => slot s (i_prn x)) _ _ Hy)).
  destruct (sat2prn_prn2sat s (i_prn x) Ox) as [E1 _]. destruct (sat2prn_prn2sat s (i_prn y) O') as [E2 _]. rewrite E, E1 in E2. injection E2 as E2. rewrite E2 in H2. lia.
Qed.
Lemma dec_slots s es : map (svid2sat s) (slots s es) = map (satof s) es.
Proof. unfold slots. rewrite map_map. apply map_ext. intros x. apply slot_sat. Qed.
Definition pflag (n : iono) : bool := match n_poly n with Some _ => true | None => false end.
Definition rflag (n : iono) : bool := match n_res n with Some _ => true | None => false end.
Definition iono_poly (n : iono) : bits := match n_poly n with None => [] | Some pgi => [pgi] ++ flat_map (poly_bits pgi) (n_sats n) end.
Definition iono_res (n : iono) : bits :=
  match n_res n with
  | None => []
  | Some r => bitsof 12 (r_ofst r) ++ bitsof 12 (Z.of_nat (r_ng r)) ++ bitsof 5 (Z.of_nat (r_len r)) ++ bitsof 3 (r_sf r) ++
              flat_map (fun x => flat_map (field (r_len r)) (i_res x)) (n_sats n)
  end.
Lemma iono_split s n : iono_bits s n = ahead_bits s (n_h n) ++ bitsof 10 (n_gid n) ++ [pflag n] ++ [rflag n] ++ mask_bits 1 64 (slots s (n_sats n)) ++ iono_poly n ++ iono_res n.
Proof. reflexivity. Qed.
Lemma dec_mask64 s n msg j : iono_ok s n -> At msg j (mask_bits 1 64 (slots s (n_sats n))) ->
  exists v, getu msg j 64 = Some v /\ map (svid2sat s) (fst (decode_mask v 64 1)) = map (satof s) (n_sats n).
Proof.
  intros (_ & _ & Hs & Hf & _) A. exists (bval (mask_bits 1 64 (slots s (n_sats n)))). split.
  - rewrite <- (getu_at _ _ _ A), mask_bits_length. reflexivity.
  - rewrite decode_mask_bits; [apply dec_slots|exact Hs|]. unfold slots. rewrite Forall_forall in *. intros k Hk. apply in_map_iff in Hk as (x & <- & Hx).
    destruct (Hf x Hx) as (O & B & _). split; [|lia]. clear - O. destruct s; cbn in *; lia.
Qed.
Lemma dec_iono s n (st : ast) msg i : iono_ok s n -> nets st -> n_gid n < 33 -> At msg i (iono_bits s n) ->
  exists st', decode_iono s st msg i = Some (st', (i + length (iono_bits s n))%nat) /\ iono_effect s n st st'.
Proof.
  intros Hok N G A. pose proof Hok as (Hh & Hg & Hs & Hf & Hr). rewrite iono_split in *.
  apply At_app in A as [A0 A]. unfold decode_iono. rewrite (dec_ahead s st msg i _ Hh A0). cbn [bind].
  set (j := (i + length (ahead_bits s (n_h n)))%nat) in *.
  apply At_app in A as [A1 A]. apply At_app in A as [A2 A]. apply At_app in A as [A3 A]. apply At_app in A as [A4 A]. apply At_app in A as [A5 A6].
  rewrite ?bitsof_length, ?mask_bits_length in *. cbn [length] in *.
  rewrite (getu_bits msg j 10 (n_gid n)) by (auto; cbn; lia). cbn [bind]. rewrite (getb_at msg (j + 10) _ A2). cbn [bind].
  rewrite (getb_at msg (j + 11) (rflag n)) by (eapply At_pos; [exact A3|lia]). cbn [bind].
  destruct (dec_mask64 s n msg (j + 12) Hok) as (v & Ev & Es); [eapply At_pos; [exact A4|lia]|]. rewrite Ev. cbn [bind]. rewrite Es.
  destruct (net_some st (n_gid n) N) as (o & Eo); [lia|]. rewrite Eo. cbn [bind].
  assert (ND : NoDup (map (satof s) (n_sats n))).
  { apply slots_nodup; [exact Hs|]. rewrite Forall_forall in *. intros x Hx. exact (proj1 (Hf x Hx)). }
  assert (P : exists pgi ci sty, (if pflag n then do pgi <- getb msg (j + 76) 1; do (ci, st0, i0) <- poly_sats pgi (map (satof s) (n_sats n)) msg (j + 76 + 1) [] []; Some (pgi, ci, st0, i0)
      else Some (a_pgi st, l_ci o, l_stype o, (j + 76)%nat)) = Some (pgi, ci, sty, (j + 76 + length (iono_poly n))%nat) /\
      pgi = (match n_poly n with Some g => g | None => a_pgi st end) /\
      match n_poly n with
      | None => ci = l_ci o /\ sty = l_stype o
      | Some g => exactly s (fun x => if g then [i_c00 x; i_c01 x; i_c10 x] else [i_c00 x]) (n_sats n) ci /\ exactly s (fun _ => if g then 1 else 0) (n_sats n) sty
      end).
  { unfold pflag, iono_poly in *. destruct (n_poly n) as [g|].
    - apply At_app in A5 as [A5 A7]. cbn [length] in A7. rewrite (getb_at msg (j + 76) g) by (eapply At_pos; [exact A5|lia]). cbn [bind].
      rewrite (dec_poly s g msg (n_sats n)); [|rewrite Forall_forall in *; intros x Hx; destruct (Hf x Hx) as (_ & _ & F1 & F2); split; [apply F1; discriminate|intros ->; now apply F2]|eapply At_pos; [exact A7|lia]].
      cbn [bind]. eexists g, _, _. split; [|split; [reflexivity|]]; [f_equal; f_equal; cbn [app length]; lia|].
      split; apply exactly_fold; exact ND.
    - eexists _, _, _. split; [f_equal; f_equal; cbn [length]; lia|]. split; [reflexivity|]. split; reflexivity. }
  destruct P as (pgi & ci & sty & -> & Epg & Ep). cbn [bind].
  set (q := (j + 76 + length (iono_poly n))%nat) in *.
  assert (R : exists ds ng ofst, (if rflag n then
      do ofst <- getu msg q 12; do ng <- getu msg (q + 12) 12; do rlen <- getu msg (q + 24) 5;
      do (sf, i0) <- (if 0 <? rlen then do sf <- getu msg (q + 29) 3; Some (sf, (q + 29 + 3)%nat) else Some (0, (q + 29)%nat));
      do (d, i1) <- res_sats (Z.to_nat rlen) sf ofst (Z.to_nat ng) (map (satof s) (n_sats n)) msg i0 []; Some (d, ng, ofst, i1)
      else Some (l_dstec o, l_ng o, l_ofst o, q)) = Some (ds, ng, ofst, (q + length (iono_res n))%nat) /\
      match n_res n with
      | None => ds = l_dstec o /\ ng = l_ng o /\ ofst = l_ofst o
      | Some r => exactly s (fun x => repeat (Some 0) (Z.to_nat (r_ofst r)) ++ map (scaled (r_sf r)) (i_res x)) (n_sats n) ds /\ ng = Z.of_nat (r_ng r) /\ ofst = r_ofst r
      end).
  { unfold rflag, iono_res in *. destruct (n_res n) as [r|].
    - destruct Hr as (R1 & R2 & R3 & R4 & R5).
      assert (A7 : At msg q (bitsof 12 (r_ofst r) ++ bitsof 12 (Z.of_nat (r_ng r)) ++ bitsof 5 (Z.of_nat (r_len r)) ++ bitsof 3 (r_sf r) ++
              flat_map (fun x => flat_map (field (r_len r)) (i_res x)) (n_sats n))) by (eapply At_pos; [exact A6|subst q; lia]).
      clear A6. apply At_app in A7 as [B1 A7]. apply At_app in A7 as [B2 A7]. apply At_app in A7 as [B3 A7]. apply At_app in A7 as [B4 A7]. rewrite !bitsof_length in *.
      rewrite (getu_bits msg q 12 (r_ofst r)) by (auto; cbn; lia). cbn [bind]. rewrite (getu_bits msg (q + 12) 12 (Z.of_nat (r_ng r))) by (auto; cbn; lia). cbn [bind].
      rewrite (getu_bits msg (q + 24) 5 (Z.of_nat (r_len r))) by first [eapply At_pos; [exact B3|lia] | cbn; lia]. cbn [bind].
      replace (0 <? Z.of_nat (r_len r)) with true by lia. rewrite (getu_bits msg (q + 29) 3 (r_sf r)) by first [eapply At_pos; [exact B4|lia] | cbn; lia]. cbn [bind].
      rewrite !Nat2Z.id. rewrite (dec_res s (r_len r) (r_sf r) (r_ofst r) (r_ng r) msg) by first [lia | exact R5 | eapply At_pos; [exact A7|lia]]. cbn [bind].
      eexists _, _, _. split; [f_equal; f_equal; rewrite !app_length, !bitsof_length; lia|].
      split; [apply exactly_fold; exact ND|]. split; reflexivity.
    - eexists _, _, _. split; [f_equal; f_equal; cbn [length]; lia|]. split; [reflexivity|]. split; reflexivity. }
  destruct R as (ds & ng & ofst & -> & Er). cbn [bind].
  match goal with |- context [lput _ ?v _] => destruct (lput_ok v _ _ _ Eo) as (l' & E1 & E2 & E3) end. rewrite E1. cbn [bind].
  eexists. split.
  - f_equal. f_equal. subst q j. rewrite !app_length, !bitsof_length, mask_bits_length. cbn [length]. lia.
  - unfold iono_effect. cbn [a_week a_time a_pid a_sid a_iod a_rmi a_gid a_pmi a_pgi a_lc].
    do 8 (split; [reflexivity|]). split; [exact Epg|]. split; [exact E3|]. exists o. eexists. split; [exact Eo|]. split; [exact E2|].
    cbn [l_maph l_mapw l_ct l_dth l_dtw l_ng l_ofst l_sat l_ci l_stype l_dstec].
    split; [reflexivity|]. split; [exact Ep|]. split; [exact Er|]. reflexivity.
Qed.
Lemma dec_iono_net s n (st : ast) msg i : iono_ok s n -> nets st -> 33 <= n_gid n -> At msg i (iono_bits s n) -> decode_iono s st msg i = None.
Proof.
  intros Hok N G A. pose proof Hok as (Hh & Hg & Hs & Hf & Hr). rewrite iono_split in *.
  apply At_app in A as [A0 A]. unfold decode_iono. rewrite (dec_ahead s st msg i _ Hh A0). cbn [bind].
  set (j := (i + length (ahead_bits s (n_h n)))%nat) in *.
  apply At_app in A as [A1 A]. apply At_app in A as [A2 A]. apply At_app in A as [A3 A]. apply At_app in A as [A4 _].
  rewrite ?bitsof_length, ?mask_bits_length in *. cbn [length] in *.
  rewrite (getu_bits msg j 10 (n_gid n)) by (auto; cbn; lia). cbn [bind]. rewrite (getb_at msg (j + 10) _ A2). cbn [bind].
  rewrite (getb_at msg (j + 11) (rflag n)) by (eapply At_pos; [exact A3|lia]). cbn [bind].
  destruct (dec_mask64 s n msg (j + 12) Hok) as (v & Ev & Es); [eapply At_pos; [exact A4|lia]|]. rewrite Ev. cbn [bind].
  assert (E : nth_error (a_lc st) (Z.to_nat (n_gid n)) = None) by (apply nth_error_None; unfold nets in N; lia). rewrite E. reflexivity.
Qed.
Lemma mt_iono mt s msg w : iono_number s = Some mt -> At msg 24 (bitsof 12 mt ++ w) -> (forall st : ast, decode_atm st msg = decode_iono s st msg 36) /\ At msg 36 w.
Proof.
  intros E A. apply At_app in A as [A1 A2]. rewrite bitsof_length in A2. split; [|exact A2]. intros st. unfold decode_atm.
  destruct s; try discriminate E; injection E as <-; (rewrite (getu_bits msg 24 12) with (1 := A1) by (cbn; lia)); reflexivity.
Qed.

(* ---------- encoder ---------- *)
Lemma bitsof_seq d : forall n a, bitsof n d = map (fun k => Z.testbit d (Z.of_nat (n + a - 1 - k))) (seq a n).
Proof.
  induction n as [|n IH]; intros a; [reflexivity|]. cbn [bitsof seq map]. f_equal; [f_equal; f_equal; lia|]. rewrite (IH (S a)). apply map_ext. intros k. f_equal. f_equal. lia.
Qed.
Lemma enc_mask64 l : Forall (fun k => 1 <= k <= 64) l -> exists d, encode_mask l 64 1 = Some d /\ 0 <= d < 2 ^ Z.of_nat 64 /\ bitsof 64 d = mask_bits 1 64 l.
Proof.
  intros H. rewrite Forall_forall in H.
  destruct (decode_encode_in l 64 1) as (d & E & R & _); [intros p Hp; specialize (H p Hp); lia|]. exists d. split; [exact E|]. split; [exact R|].
  destruct (encode_mask_some l 64 1) as (d' & E' & B); [intros p Hp; specialize (H p Hp); lia|]. rewrite E in E'. injection E' as <-.
  rewrite (bitsof_seq d 64 0). unfold mask_bits. apply map_ext_in. intros k Hk. apply in_seq in Hk. rewrite B by lia.
  clear - Hk. induction l as [|p l IH]; [reflexivity|]. cbn [existsb]. rewrite IH. f_equal. lia.
Qed.
Lemma stypes_ok e s (g : bool) : forall l es,
  Forall2 (fun x y => fst x = prn2sat s (i_prn y) /\ nth_error (snd x) 0 = Some (i_c00 y) /\
      (g = true -> nth_error (snd x) 1 = Some (i_c01 y) /\ nth_error (snd x) 2 = Some (i_c10 y)) /\
      exists t, zget (fst x) (ea_stype e) = Some t /\ 0 <= t /\ (g = false -> t = 0)) l es ->
  exists ts, stypes e l = Some ts /\ (g = false -> existsb (fun t => 0 <? t) ts = false) /\
    (forall y t, In y es -> zget (prn2sat s (i_prn y)) (ea_stype e) = Some t -> 0 < t -> existsb (fun t => 0 <? t) ts = true).
Proof.
  induction 1 as [|x y l es (E & _ & _ & t & T & P & Z) F (ts & E1 & E2 & E3)].
  - exists []. split; [reflexivity|]. split; [reflexivity|]. intros y t [].
  - exists (t :: ts). destruct x as [sat ci]. cbn [fst snd] in *. cbn [stypes]. rewrite T. cbn [bind]. rewrite E1. cbn [bind]. split; [reflexivity|]. split.
    + intros G. cbn [existsb]. rewrite (E2 G), (Z G). reflexivity.
    + intros y' t' [<-|Hy] Ht P'; cbn [existsb].
      * rewrite <- E in Ht. replace t with t' by congruence. replace (0 <? t') with true by lia. reflexivity.
      * rewrite (E3 y' t' Hy Ht P'). apply orb_true_r.
Qed.
Lemma enc_poly e s (g : bool) msg : forall l es i w j,
  Forall2 (fun x y => fst x = prn2sat s (i_prn y) /\ nth_error (snd x) 0 = Some (i_c00 y) /\
      (g = true -> nth_error (snd x) 1 = Some (i_c01 y) /\ nth_error (snd x) 2 = Some (i_c10 y)) /\
      exists t, zget (fst x) (ea_stype e) = Some t /\ 0 <= t /\ (g = false -> t = 0)) l es ->
  Forall (fun x => fits 17 (i_c00 x) /\ (g = true -> fits 18 (i_c01 x) /\ fits 18 (i_c10 x))) es ->
  (i + length w + length (flat_map (poly_bits g) es) <= length msg)%nat -> j = (i + length w)%nat ->
  encode_poly g l (splice msg i w) j = Some (splice msg i (w ++ flat_map (poly_bits g) es), (j + length (flat_map (poly_bits g) es))%nat).
Proof.
  intros l es i w j F. revert w j. induction F as [|x y l es (_ & C0 & C1 & _) F IH]; intros w j H Hl ->.
  - cbn. now rewrite app_nil_r, Nat.add_0_r.
  - apply Forall_cons_iff in H as [[F0 F1] H']. cbn [flat_map] in *. rewrite app_length, poly_len in *. destruct x as [sat ci]. cbn [fst snd] in *. cbn [encode_poly].
    rewrite C0. cbn [bind]. destruct g.
    + destruct (C1 eq_refl) as [D1 D2]. destruct (F1 eq_refl) as [F2 F3]. rewrite putsv_app by (auto; lia). cbn [bind]. rewrite D1, D2. cbn [bind].
      do 2 (rewrite putsv_app by first [lia | assumption | rewrite ?app_length, ?field_length by lia; lia]; cbn [bind]).
      rewrite IH; [|exact H'|rewrite !app_length, !field_length by lia; lia|rewrite !app_length, !field_length by lia; lia].
      f_equal. f_equal; [f_equal; unfold poly_bits; now rewrite <- !app_assoc|lia].
    + rewrite putsv_app by (auto; lia). cbn [bind].
      rewrite IH; [|exact H'|rewrite !app_length, !field_length by lia; lia|rewrite !app_length, !field_length by lia; lia].
      f_equal. f_equal; [f_equal; unfold poly_bits; now rewrite app_nil_r, <- !app_assoc|lia].
Qed.
Lemma given_slots e s (g : bool) : forall l es,
  Forall2 (fun x y => fst x = prn2sat s (i_prn y) /\ nth_error (snd x) 0 = Some (i_c00 y) /\
      (g = true -> nth_error (snd x) 1 = Some (i_c01 y) /\ nth_error (snd x) 2 = Some (i_c10 y)) /\
      exists t, zget (fst x) (ea_stype e) = Some t /\ 0 <= t /\ (g = false -> t = 0)) l es ->
  Forall (fun x => owns s (i_prn x)) es -> map (fun x => sat2svid (fst x)) l = slots s es.
Proof.
  induction 1 as [|x y l es (E & _) F IH]; intros O; [reflexivity|]. apply Forall_cons_iff in O as [Oy O]. cbn [map slots]. unfold slots in IH. rewrite (IH O). f_equal.
  unfold sat2svid. rewrite E. destruct (sat2prn_prn2sat s (i_prn y) Oy) as [-> _]. unfold slot. now destruct s.
Qed.
Lemma enc_iono e s n g msg : iono_ok s n -> iono_given e s n g -> (24 + length (iono_message (ea_mt e) s n) <= length msg)%nat ->
  encode_atm e msg = Some (splice msg 24 (iono_message (ea_mt e) s n), (24 + length (iono_message (ea_mt e) s n))%nat).
Proof.
  intros (Hh & Hg & Hs & Hf & _) (G1 & G2 & G3 & G4 & G5 & G6 & G7 & G8 & G9) Hl. unfold iono_message in *.
  assert (L : length (iono_bits s n) = (tow_len false s + 29 + 77 + length (flat_map (poly_bits g) (n_sats n)))%nat).
  { rewrite iono_split. unfold iono_poly, iono_res. rewrite G6, G7. rewrite !app_length, ahead_len, bitsof_length, mask_bits_length. cbn [length]. lia. }
  rewrite app_length, L, bitsof_length in *.
  assert (X : edispatch (ea_mt e) = KSsr SSTEC /\ get_ssr_sys None (ea_mt e) = Some s /\ 0 <= ea_mt e < 4096).
  { destruct s; try discriminate G1; injection G1 as <-; (split; [reflexivity|split; [reflexivity|lia]]). }
  destruct X as (D1 & D2 & M). unfold encode_atm. rewrite <- (splice_nil msg 24) at 1. rewrite putu_app by (cbn [length]; lia). cbn [bind app]. rewrite D1, D2. cbn [bind].
  unfold encode_iono. rewrite enc_ahead by (rewrite ?bitsof_length; rewrite ?G2; auto; lia). cbn [bind]. rewrite G2, G3, G4.
  replace (Z.odd (Z.shiftr (ea_fstec e) 1)) with true by (rewrite Z.shiftr_div_pow2 by lia; exact (eq_sym G5)).
  change (Z.b2z true) with 1. change (Z.b2z false) with 0. cbv zeta iota.
  destruct (stypes_ok e s g _ _ G8) as (ts & E1 & E2 & E3).
  assert (O : Forall (fun x => owns s (i_prn x)) (n_sats n)) by (rewrite Forall_forall in *; intros x Hx; exact (proj1 (Hf x Hx))).
  destruct (enc_mask64 (slots s (n_sats n))) as (d & D3 & D4 & D5).
  { unfold slots. rewrite Forall_forall in *. intros k Hk. apply in_map_iff in Hk as (x & <- & Hx). destruct (Hf x Hx) as (Ox & B & _). split; [|exact B]. clear - Ox. destruct s; cbn in *; lia. }
  do 3 (rewrite putu_app by first [lia | rewrite ?app_length, ?bitsof_length, ?ahead_len by lia; lia]; cbn [bind]).
  rewrite E1. cbn [bind]. rewrite (given_slots e s g _ _ G8 O), D3. cbn [bind].
  rewrite putu_app by first [lia | rewrite ?app_length, ?bitsof_length, ?ahead_len by lia; lia]; cbn [bind]. rewrite D5.
  assert (Eg : existsb (fun t => 0 <? t) ts = g).
  { destruct g; [|exact (E2 eq_refl)]. destruct (G9 eq_refl) as (y & t & Hy & Ht & P). exact (E3 y t Hy Ht P). }
  rewrite Eg. pose proof (b2z_range g).
  rewrite putu_app by first [lia | assumption | rewrite ?app_length, ?bitsof_length, ?ahead_len, ?mask_bits_length by lia; lia]; cbn [bind].
  rewrite (enc_poly e s g msg _ (n_sats n)); [|exact G8| | |].
  - cbn [bind]. rewrite iono_split. unfold pflag, rflag, iono_poly, iono_res. rewrite G6, G7. rewrite <- (bit1 g), app_nil_r.
    apply f_equal. apply f_equal2; [|lia]. f_equal. rewrite <- !app_assoc. reflexivity.
  - rewrite Forall_forall in *. intros x Hx. destruct (Hf x Hx) as (_ & _ & F1 & F2). rewrite G6 in F1, F2. split; [apply F1; discriminate|intros ->; now apply F2].
  - rewrite ?app_length, ?bitsof_length, ?ahead_len, ?mask_bits_length by lia; lia.
  - rewrite ?app_length, ?bitsof_length, ?ahead_len, ?mask_bits_length by lia; lia.
Qed.
