(** The decoder reads the messages of RAntSpec.v. *)
From Verif Require Import SatModel SatSpec SatProofs TimeModel CssrState CssrFacts RtcmFrame RtcmSsr RtcmFrameSpec RtcmFrameProofs RtcmSsrSpec RtcmSsrProofs
  BitModel BitProofs MsmSpec MsmProofs RIntSpec RIntProofs RAtmModel RAtmProofs RAntModel RAntSpec Base BaseFacts.
From Coq Require Import ZifyBool ZifyNat Sorted.
Notation length := List.length.
Open Scope Z_scope.

Lemma dec_pcv w msg : (1 <= w)%nat -> forall l i, Forall (fits w) l -> At msg i (flat_map (field w) l) ->
  ant_pcv (length l) w msg i = Some (l, (i + length (flat_map (field w) l))%nat).
Proof.
  intros Hw. induction l as [|y l IH]; intros i F A; [cbn; now rewrite Nat.add_0_r|]. apply Forall_cons_iff in F as [Fy F]. cbn [flat_map length ant_pcv] in *.
  apply At_app in A as [A1 A]. rewrite field_length in A by lia. rewrite (getsv_at msg i w y Hw Fy A1). cbn [bind]. rewrite (IH _ F A). cbn [bind].
  rewrite app_length, field_length by lia. do 2 f_equal. lia.
Qed.
Definition nd_of (ang : option (Z * Z)) : option Z := option_map snd ang.
Definition corr_of (ang : option (Z * Z)) (y : afreq) : acorr := (f_nad y, match ang with Some _ => Some (f_pcv y) | None => None end).
Definition put_freqs (ang : option (Z * Z)) (l : list afreq) (d : dict Z acorr) : dict Z acorr := fold_left (fun d y => zset (f_no y) (corr_of ang y) d) l d.
Lemma dec_freqs ang msg : forall l i d, Forall (afreq_ok ang) l -> At msg i (flat_map (afreq_bits ang) l) ->
  ant_freqs (nd_of ang) (map f_no l) msg i d = Some (put_freqs ang l d, (i + length (flat_map (afreq_bits ang) l))%nat).
Proof.
  induction l as [|y l IH]; intros i d F A; [cbn; now rewrite Nat.add_0_r|]. apply Forall_cons_iff in F as [[F1 F2] F]. cbn [flat_map map ant_freqs] in *.
  apply At_app in A as [A A']. rewrite app_length. unfold afreq_bits in A. apply At_app in A as [A1 A]. apply At_app in A as [A2 A3].
  rewrite (getb_at msg i _ A1). cbn [bind]. cbn [length] in *.
  assert (E1 : (if present (f_nad y) then do v <- getsv msg (i + 1) 12; Some (Some v, (i + 1 + 12)%nat) else Some (None, (i + 1)%nat)) =
    Some (f_nad y, (i + 1 + length (match f_nad y with Some v => field 12 v | None => [] end))%nat)).
  { destruct (f_nad y) as [v|]; cbn [present length]; [|now rewrite Nat.add_0_r]. rewrite (getsv_at msg (i + 1) 12 v) by (assumption || lia). cbn [bind]. now rewrite field_length by lia. }
  rewrite E1. cbn [bind]. clear E1.
  set (j := (i + 1 + length (match f_nad y with Some v => field 12 v | None => [] end))%nat) in *.
  assert (E2 : match nd_of ang with Some nde => do (l, i) <- ant_pcv (Z.to_nat nde + 1) (3 + Z.to_nat nde) msg j; Some (Some l, i) | None => Some (None, j) end =
    Some (snd (corr_of ang y), (j + length (match ang with Some (_, nde) => flat_map (field (3 + Z.to_nat nde)) (f_pcv y) | None => [] end))%nat)).
  { destruct ang as [[emax nde]|]; cbn [nd_of option_map snd corr_of length]; [|now rewrite Nat.add_0_r]. destruct F2 as [<- F2].
    rewrite (dec_pcv (3 + Z.to_nat nde) msg ltac:(lia) _ _ F2 A3). reflexivity. }
  rewrite E2. cbn [bind]. change (f_nad y, snd (corr_of ang y)) with (corr_of ang y).
  erewrite IH; [|exact F|eapply At_pos; [exact A'|unfold afreq_bits; rewrite !app_length; cbn [length]; unfold j; lia]].
  f_equal. f_equal. unfold afreq_bits at 2. rewrite !app_length. cbn [length]. unfold j. lia.
Qed.
Definition put_sats (s : gnss) (ang : option (Z * Z)) (l : list asat) (d : dict Z (dict Z acorr)) : dict Z (dict Z acorr) :=
  fold_left (fun d x => zset (prn2sat s (a_prn x)) (put_freqs ang (a_freqs x) (match zget (prn2sat s (a_prn x)) d with Some e => e | None => [] end)) d) l d.
Lemma dec_sats s ang msg : forall l i d, Forall (asat_ok s ang) l -> At msg i (flat_map (asat_bits ang) l) ->
  ant_sats s (nd_of ang) (map (fun x => slot s (a_prn x)) l) msg i d = Some (put_sats s ang l d, (i + length (flat_map (asat_bits ang) l))%nat).
Proof.
  induction l as [|x l IH]; intros i d F A; [cbn; now rewrite Nat.add_0_r|]. apply Forall_cons_iff in F as [(O & B & S & R & Fx) F]. cbn [flat_map map ant_sats] in *.
  apply At_app in A as [A A']. rewrite app_length. assert (A0 := A). unfold asat_bits in A. apply At_app in A as [A1 A]. apply At_app in A as [A2 A3].
  rewrite (getb_at msg i _ A1). cbn [bind length] in *. rewrite mask_bits_length in A3.
  destruct (get_mask msg (i + 1) 0 6 (map f_no (a_freqs x)) S) as (v & -> & E); [|exact A2|].
  { rewrite Forall_forall in *. intros k Hk. apply in_map_iff in Hk as (y & <- & Hy). specialize (R y Hy). lia. }
  cbn [bind]. rewrite E. rewrite slot_sat.
  rewrite (dec_freqs ang msg (a_freqs x) (i + 7)%nat _ Fx) by (eapply At_pos; [exact A3|lia]). cbn [bind].
  erewrite IH; [|exact F|eapply At_pos; [exact A'|unfold asat_bits; rewrite !app_length, mask_bits_length; cbn [length]; lia]].
  f_equal. f_equal. unfold asat_bits at 2. rewrite !app_length, mask_bits_length. cbn [length]. lia.
Qed.
Lemma sorted_nodup l : StronglySorted Z.lt l -> NoDup l.
Proof. induction 1 as [|a l H IH F]; constructor; [|assumption]. intros Hi. rewrite Forall_forall in F. specialize (F a Hi). lia. Qed.
Lemma put_freqs_other ang f : forall l d, (forall y, In y l -> f <> f_no y) -> zget f (put_freqs ang l d) = zget f d.
Proof.
  induction l as [|y l IH]; intros d H; [reflexivity|]. cbn [put_freqs fold_left]. change (zget f (put_freqs ang l (zset (f_no y) (corr_of ang y) d)) = zget f d).
  rewrite IH by (intros z Hz; apply H; now right). apply zget_zset_other. intros E. apply (H y); [now left|congruence].
Qed.
Lemma put_freqs_in ang y : forall l d, NoDup (map f_no l) -> In y l -> zget (f_no y) (put_freqs ang l d) = Some (corr_of ang y).
Proof.
  induction l as [|z l IH]; intros d N Hi; [contradiction|]. cbn [map] in N. inversion N as [|? ? Nz N']; subst.
  change (zget (f_no y) (put_freqs ang l (zset (f_no z) (corr_of ang z) d)) = Some (corr_of ang y)).
  destruct Hi as [->|Hi]; [|now apply IH]. rewrite put_freqs_other; [apply zget_zset_same|]. intros z Hz E. apply Nz. rewrite E. now apply in_map.
Qed.
Lemma put_sats_other s ang sat f : forall l d, (forall x y, In x l -> In y (a_freqs x) -> ~ (sat = prn2sat s (a_prn x) /\ f = f_no y)) ->
  held (put_sats s ang l d) sat f = held d sat f.
Proof.
  induction l as [|x l IH]; intros d H; [reflexivity|]. cbn [put_sats fold_left].
  match goal with |- context [fold_left _ l ?d1] => change (held (put_sats s ang l d1) sat f = held d sat f) end.
  rewrite IH by (intros z y Hz; apply H; now right). unfold held. destruct (Z.eq_dec (prn2sat s (a_prn x)) sat) as [<-|E].
  - rewrite zget_zset_same. rewrite put_freqs_other; [|intros y Hy Ey; apply (H x y); [now left|exact Hy|now split]].
    destruct (zget (prn2sat s (a_prn x)) d); reflexivity.
  - now rewrite zget_zset_other.
Qed.
Lemma put_sats_in s ang x y : forall l d, NoDup (map (fun x => prn2sat s (a_prn x)) l) -> Forall (asat_ok s ang) l -> In x l -> In y (a_freqs x) ->
  held (put_sats s ang l d) (prn2sat s (a_prn x)) (f_no y) = Some (corr_of ang y).
Proof.
  induction l as [|z l IH]; intros d N F Hx Hy; [contradiction|]. cbn [map] in N. inversion N as [|? ? Nz N']; subst. apply Forall_cons_iff in F as [Fz F].
  cbn [put_sats fold_left]. match goal with |- context [fold_left _ l ?d1] => change (held (put_sats s ang l d1) (prn2sat s (a_prn x)) (f_no y) = Some (corr_of ang y)) end.
  destruct Hx as [->|Hx]; [|now apply IH]. rewrite put_sats_other.
  - unfold held. rewrite zget_zset_same. apply put_freqs_in; [|exact Hy]. apply sorted_nodup, Fz.
  - intros x' y' Hx' _ [E _]. apply Nz. rewrite E. exact (in_map (fun x => prn2sat s (a_prn x)) l x' Hx').
Qed.
Lemma dec_ant mt s n d msg : ant_sys mt = Some s -> ant_ok s n -> At msg 24 (ant_message mt s n) ->
  exists d', decode_mt80 d msg = Some (d', (24 + length (ant_message mt s n))%nat) /\ ant_effect s n d d'.
Proof.
  intros Hs (H1 & H2 & H3 & H4 & H5) A. assert (M : 80 <= mt <= 84 /\ dispatch mt = KSsr SANT /\ get_ssr_sys None mt = Some s).
  { unfold ant_sys in Hs. assert (mt = 80 \/ mt = 81 \/ mt = 82 \/ mt = 83 \/ mt = 84) as E by
      (destruct (Z.eq_dec mt 80), (Z.eq_dec mt 81), (Z.eq_dec mt 82), (Z.eq_dec mt 83), (Z.eq_dec mt 84); try lia;
       destruct mt as [|p|p]; try discriminate; do 7 (destruct p as [p|p|]; try discriminate; try lia)).
    destruct E as [-> | [-> | [-> | [-> | ->]]]]; injection Hs as <-; repeat split; try lia; reflexivity. }
  destruct M as (Mr & Md & Mg). exists (put_sats s (n_angle n) (n_sats n) d). split.
  - unfold ant_message in *. do 6 (let K := fresh "A" in apply At_app in A as [K A]). apply At_app in A as [B1 A]. apply At_app in A as [B2 A]. apply At_app in A as [B3 A].
    rewrite ?bitsof_length, ?mask_bits_length in *. cbn [length] in *.
    unfold decode_mt80. gu. rewrite Md, Mg. cbn [bind]. unfold decode_satant. gu. gu.
    rewrite (getb_at msg (36 + 22) (n_pci n)) by (eapply At_pos; [eassumption|lia]). cbn [bind].
    rewrite (getb_at msg (36 + 23) (n_gdi n)) by (eapply At_pos; [eassumption|lia]). cbn [bind].
    rewrite (getb_at msg (36 + 24) (present (n_angle n))) by (eapply At_pos; [eassumption|lia]). cbn [bind].
    set (w := match n_angle n with Some (emax, nde) => bitsof 5 emax ++ bitsof 4 nde | None => [] end) in *.
    assert (E : (if present (n_angle n) then do _ <- getu msg (36 + 25) 5; do nde <- getu msg (36 + 25 + 5) 4; Some (Some nde, (36 + 25 + 9)%nat) else Some (None, (36 + 25)%nat)) =
      Some (nd_of (n_angle n), (61 + length w)%nat)).
    { unfold w in *. destruct (n_angle n) as [[emax nde]|]; [|reflexivity]. cbn [present nd_of option_map snd]. destruct H3 as [H3 H3']. apply At_app in B1 as [C1 C2]. rewrite bitsof_length in C2.
      rewrite (getu_bits msg (36 + 25) 5 emax) by first [assumption | (eapply At_pos; [eassumption|lia]) | lia]. cbn [bind].
      rewrite (getu_bits msg (36 + 25 + 5) 4 nde) by first [assumption | (eapply At_pos; [eassumption|lia]) | lia]. cbn [bind].
      rewrite app_length, !bitsof_length. reflexivity. }
    rewrite E. cbn [bind]. clear E.
    rewrite (getb_at msg (61 + length w) (n_set n)) by (eapply At_pos; [eassumption|lia]). cbn [bind].
    destruct (get_mask msg (61 + length w + 1) 1 64 (map (fun x => slot s (a_prn x)) (n_sats n)) H4) as (v & -> & E).
    { rewrite Forall_forall in *. intros k Hk. apply in_map_iff in Hk as (x & <- & Hx). destruct (H5 x Hx) as (O & B & _). split; [|lia]. clear - O. destruct s; cbn in *; lia. }
    { eapply At_pos; [exact B3|lia]. }
    cbn [bind]. rewrite E. rewrite (dec_sats s (n_angle n) msg (n_sats n)); [|exact H5|eapply At_pos; [exact A|lia]].
    f_equal. f_equal. rewrite !app_length, ?bitsof_length, ?mask_bits_length. cbn [length]. lia.
  - assert (N : NoDup (map (fun x => prn2sat s (a_prn x)) (n_sats n))).
    { rewrite <- (map_map a_prn (prn2sat s)). apply sats_nodup. split; [now rewrite map_map|]. rewrite Forall_forall in *. intros p Hp. apply in_map_iff in Hp as (x & <- & Hx).
      destruct (H5 x Hx) as (O & B & _). now split. }
    split.
    + intros x y Hx Hy. now apply put_sats_in.
    + intros sat f H. now apply put_sats_other.
Qed.
