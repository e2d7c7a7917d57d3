(** The decoder reads the messages of RIntSpec.v. *)
From Verif Require Import SatModel SatSpec SatProofs TimeModel CssrState CssrFacts RtcmFrame RtcmSsr RtcmFrameSpec RtcmFrameProofs RtcmSsrSpec RtcmSsrProofs
  BitModel BitProofs MsmSpec MsmProofs RnxProofs RIntModel RIntSpec Base BaseFacts.
From Coq Require Import ZifyBool ZifyNat Sorted.
Notation length := List.length.
Open Scope Z_scope.

Lemma get_mask msg i o n l : StronglySorted Z.lt l -> Forall (fun k => o <= k < o + Z.of_nat n) l -> At msg i (mask_bits o n l) ->
  exists v, getu msg i n = Some v /\ fst (decode_mask v n o) = l.
Proof.
  intros Hs Hf A. exists (bval (mask_bits o n l)). split; [rewrite <- (getu_at _ _ _ A), mask_bits_length; reflexivity|]. now apply decode_mask_bits.
Qed.
Lemma slots_range s l : sats_ok s l -> Forall (fun k => 1 <= k < 1 + Z.of_nat 64) (map (slot s) l).
Proof.
  intros [_ H]. rewrite Forall_forall in *. intros k Hk. apply in_map_iff in Hk as (p & <- & Hp). destruct (H p Hp) as [O B]. split; [|lia]. clear - O. destruct s; cbn in *; lia.
Qed.
Lemma sat_inj s s' p p' : owns s p -> owns s' p' -> prn2sat s p = prn2sat s' p' -> s = s' /\ p = p'.
Proof.
  intros O O' E. destruct (sat2prn_prn2sat s p O) as [E1 _]. destruct (sat2prn_prn2sat s' p' O') as [E2 _]. rewrite E, E2 in E1. now injection E1 as -> ->.
Qed.
Lemma sats_nodup s l : sats_ok s l -> NoDup (map (prn2sat s) l).
Proof.
  intros [Hs Hf]. induction l as [|p l IH]; [constructor|]. cbn [map] in *. inversion Hs as [|? ? H1 H2]; subst. apply Forall_cons_iff in Hf as [[Op _] Hf].
  constructor; [|now apply IH]. intros Hi. apply in_map_iff in Hi as (q & E & Hq). rewrite Forall_forall in H2, Hf. destruct (Hf q Hq) as [Oq _].
  destruct (sat_inj s s q p Oq Op E) as [_ ->]. specialize (H2 (slot s p) (in_map (slot s) _ _ Hq)). lia.
Qed.
Lemma gset_new {V} s (v : V) d : ~ In s (map fst d) -> gset s v d = d ++ [(s, v)].
Proof.
  induction d as [|[s' v'] d IH]; intros H; [reflexivity|]. cbn [gset app map fst In] in *. destruct (gnss_eqb s s') eqn:E.
  - exfalso. apply H. left. destruct s, s'; (discriminate E || reflexivity).
  - rewrite IH by tauto. reflexivity.
Qed.
Lemma number_tbl s k : number s = Some k -> sys_tbl k = Some s.
Proof. destruct s; intros E; try discriminate E; injection E as <-; reflexivity. Qed.
Lemma numbers_range l : Forall (fun k => 0 <= k < 0 + Z.of_nat 16) (numbers l).
Proof.
  apply Forall_forall. intros k Hk. apply in_flat_map in Hk as (s & _ & Hk). destruct s; cbn in Hk; try contradiction; destruct Hk as [<-|[]]; cbn; lia.
Qed.
Lemma numbers_cons s l : number s <> None -> exists k, number s = Some k /\ numbers (s :: l) = k :: numbers l.
Proof. intros H. unfold numbers. cbn [flat_map]. destruct (number s) as [k|]; [|congruence]. exists k. split; reflexivity. Qed.
Lemma cons_nodup l : cons_ok l -> NoDup l.
Proof.
  intros [Hs Hf]. induction l as [|s l IH]; [constructor|]. apply Forall_cons_iff in Hf as [H Hf]. destruct (numbers_cons s l H) as (k & Ek & En). rewrite En in Hs.
  inversion Hs as [|? ? H1 H2]; subst. constructor; [|now apply IH]. intros Hi. rewrite Forall_forall in H2.
  assert (In k (numbers l)) as Hk by (apply in_flat_map; exists s; split; [exact Hi|rewrite Ek; now left]). specialize (H2 k Hk). lia.
Qed.
Lemma vp_ok k : 0 <= k < 16 -> nth_error vp_tbl (Z.to_nat k) = Some (validity k).
Proof.
  intros H. assert (k = 0 \/ k = 1 \/ k = 2 \/ k = 3 \/ k = 4 \/ k = 5 \/ k = 6 \/ k = 7 \/ k = 8 \/ k = 9 \/ k = 10 \/ k = 11 \/ k = 12 \/ k = 13 \/ k = 14 \/ k = 15) as E by lia.
  repeat (destruct E as [->|E]; [reflexivity|]). subst k. reflexivity.
Qed.
Lemma ihead_len mt h : length (ihead_bits mt h) = if mt =? 2000 then 62%nat else 72%nat.
Proof. unfold ihead_bits. rewrite !app_length, !bitsof_length. destruct (mt =? 2000); [|rewrite bitsof_length]; reflexivity. Qed.
Lemma dec_ihead mt h (st : ist) msg i : ihead_ok h -> At msg i (ihead_bits mt h) ->
  decode_ihead mt st msg i = Some (g_tow h, g_pid h, validity (g_vp h), g_udi h, (if mt =? 2000 then i_aid st else g_aid h), (i + length (ihead_bits mt h))%nat).
Proof.
  intros (H1 & H2 & H3 & H4 & H5) A. rewrite ihead_len. unfold ihead_bits in A. do 4 (let K := fresh "A" in apply At_app in A as [K A]). rewrite ?bitsof_length in *.
  unfold decode_ihead. gu. gu. gu. gu. rewrite (vp_ok _ H3). cbn [bind]. destruct (mt =? 2000); [reflexivity|]. gu. reflexivity.
Qed.

(* ---------- SSR integrity ---------- *)
Definition fsat (s : gnss) (x : Z * Z) : Z * Z := (prn2sat s (fst x), snd x).
Definition bad (s : gnss) (l : list (Z * Z)) : list Z := map (fun x => prn2sat s (fst x)) (filter (fun x => snd x =? 1) l).
Lemma dec_flags s msg : forall rest done i e, NoDup (map (prn2sat s) (map fst (done ++ rest))) -> Forall (fun x => 0 <= snd x < 4) rest ->
  At msg i (flat_map (fun x => bitsof 2 (snd x)) rest) ->
  ssr_sats s (map (slot s) (map fst rest)) msg i (map (fsat s) done) e =
    Some (map (fsat s) (done ++ rest), e ++ bad s rest, (i + length (flat_map (fun x => bitsof 2 (snd x)) rest))%nat).
Proof.
  induction rest as [|x rest IH]; intros done i e N F A; [unfold bad; cbn; now rewrite !app_nil_r, Nat.add_0_r|].
  apply Forall_cons_iff in F as [Fx F]. cbn [flat_map] in *. apply At_app in A as [A1 A]. rewrite bitsof_length in A. cbn [map ssr_sats].
  rewrite (getu_bits msg i 2 (snd x)) by (auto; cbn; lia). cbn [bind]. rewrite slot_sat.
  assert (N' := N). rewrite !map_app in N'. cbn [map] in N'. apply NoDup_remove_2 in N'. rewrite in_app_iff in N'.
  rewrite zset_new by (rewrite map_map; intros H; apply N'; left; unfold fsat in H; cbn [fst] in H; rewrite map_map; exact H).
  replace (map (fsat s) done ++ [(prn2sat s (fst x), snd x)]) with (map (fsat s) (done ++ [x])) by (rewrite map_app; reflexivity).
  rewrite IH; [|now rewrite <- app_assoc|exact F|exact A]. rewrite <- app_assoc. cbn [app]. rewrite app_length, bitsof_length.
  f_equal. f_equal; [f_equal|lia]. unfold bad. cbn [filter]. destruct (snd x =? 1); cbn [map]; [now rewrite <- app_assoc|reflexivity].
Qed.
Definition fcon_ok (c : fcon) : Prop := 0 <= f_iod c < 4 /\ sats_ok (f_sys c) (map fst (f_sats c)) /\ Forall (fun x => 0 <= snd x < 4) (f_sats c).
Definition fl_of (c : fcon) : gnss * dict Z Z := (f_sys c, map (fsat (f_sys c)) (f_sats c)).
Lemma dec_fcons msg : forall rest done i e, NoDup (map f_sys (done ++ rest)) -> Forall (fun s => number s <> None) (map f_sys rest) ->
  Forall fcon_ok rest -> At msg i (flat_map fcon_bits rest) ->
  ssr_cons (numbers (map f_sys rest)) msg i (map (fun c => (f_sys c, f_iod c)) done) (map fl_of done) e =
    Some (map (fun c => (f_sys c, f_iod c)) (done ++ rest), map fl_of (done ++ rest), e ++ flat_map (fun c => bad (f_sys c) (f_sats c)) rest).
Proof.
  induction rest as [|c rest IH]; intros done i e N K F A; [cbn; now rewrite !app_nil_r|].
  cbn [map] in K. apply Forall_cons_iff in K as [Kc K]. apply Forall_cons_iff in F as [(F1 & F2 & F3) F]. cbn [flat_map] in *. apply At_app in A as [A1 A].
  cbn [map]. destruct (numbers_cons (f_sys c) (map f_sys rest) Kc) as (k & Ek & ->). cbn [ssr_cons]. rewrite (number_tbl _ _ Ek). cbn [bind].
  unfold fcon_bits in A1. apply At_app in A1 as [Am A1]. apply At_app in A1 as [Ai Af]. rewrite ?mask_bits_length, ?bitsof_length in *.
  destruct (get_mask msg i 1 64 _ (proj1 F2) (slots_range _ _ F2) Am) as (v & Ev & Ed). rewrite Ev. cbn [bind].
  rewrite (getu_bits msg (i + 64) 2 (f_iod c)) by (auto; cbn; lia). cbn [bind]. rewrite Ed.
  pose proof (dec_flags (f_sys c) msg (f_sats c) [] (i + 66)%nat e (sats_nodup _ _ F2) F3) as D. cbn [app map] in D.
  rewrite D by (eapply At_pos; [exact Af|lia]). clear D. cbn [bind].
  assert (N' := N). rewrite map_app in N'. cbn [map] in N'. apply NoDup_remove_2 in N'. rewrite in_app_iff in N'.
  rewrite !gset_new by (rewrite map_map; unfold fl_of; cbn [fst]; tauto).
  replace (map (fun c => (f_sys c, f_iod c)) done ++ [(f_sys c, f_iod c)]) with (map (fun c => (f_sys c, f_iod c)) (done ++ [c])) by (rewrite map_app; reflexivity).
  match goal with |- ssr_cons _ _ _ _ ?x _ = _ => replace x with (map fl_of (done ++ [c])) by (rewrite map_app; reflexivity) end.
  rewrite IH; [|now rewrite <- app_assoc|exact K|exact F|].
  - rewrite <- !app_assoc. reflexivity.
  - eapply At_pos; [exact A|]. unfold fcon_bits. rewrite !app_length, mask_bits_length, bitsof_length. lia.
Qed.
Lemma mt_int mt msg w : At msg 24 (bitsof 12 mt ++ w) -> 0 <= mt < 4096 -> getu msg 24 12 = Some mt /\ At msg 36 w.
Proof.
  intros A H. apply At_app in A as [A1 A2]. rewrite bitsof_length in A2. split; [|exact A2]. now rewrite (getu_bits msg 24 12 mt) by (auto; cbn; lia).
Qed.
Lemma bad_in s l x : In x (bad s l) <-> exists y, In y l /\ snd y = 1 /\ x = prn2sat s (fst y).
Proof.
  unfold bad. rewrite in_map_iff. split.
  - intros (y & <- & H). apply filter_In in H as [H E]. exists y. repeat split; [exact H|lia].
  - intros (y & H & E & ->). exists y. split; [reflexivity|]. apply filter_In. split; [exact H|lia].
Qed.
Lemma nodup_app {A} (a b : list A) : NoDup a -> NoDup b -> (forall x, In x a -> In x b -> False) -> NoDup (a ++ b).
Proof.
  induction a as [|x a IH]; intros Ha Hb H; [exact Hb|]. inversion Ha; subst. cbn. constructor.
  - rewrite in_app_iff. intros [?|?]; [tauto|]. apply (H x); [now left|assumption].
  - apply IH; auto. intros y Hy. apply H. now right.
Qed.
Lemma bad_nodup s l : NoDup (map (prn2sat s) (map fst l)) -> NoDup (bad s l).
Proof.
  unfold bad. induction l as [|x l IH]; intros H; [constructor|]. cbn [map filter] in *. inversion H as [|? ? H1 H2]; subst. destruct (snd x =? 1); [|now apply IH].
  cbn [map]. constructor; [|now apply IH]. intros Hi. apply H1. apply in_map_iff in Hi as (y & <- & Hy). apply filter_In in Hy as [Hy _]. rewrite map_map. now apply (in_map (fun x => prn2sat s (fst x))).
Qed.
Lemma all_bad_nodup l : NoDup (map f_sys l) -> Forall fcon_ok l -> NoDup (flat_map (fun c => bad (f_sys c) (f_sats c)) l).
Proof.
  induction l as [|c l IH]; intros N F; [constructor|]. cbn [map flat_map] in *. inversion N as [|? ? N1 N2]; subst. apply Forall_cons_iff in F as [(F1 & F2 & F3) F].
  apply nodup_app; [apply bad_nodup, sats_nodup, F2|now apply IH|]. intros x Hx Hy. apply bad_in in Hx as (y & Hy1 & _ & ->). apply in_flat_map in Hy as (c' & Hc & Hz).
  apply bad_in in Hz as (z & Hz1 & _ & E). rewrite Forall_forall in F. destruct (F c' Hc) as (_ & [_ G2] & _). destruct F2 as [_ G1]. rewrite Forall_forall in G1, G2.
  destruct (G1 (fst y) (in_map fst _ _ Hy1)) as [O1 _]. destruct (G2 (fst z) (in_map fst _ _ Hz1)) as [O2 _]. destruct (sat_inj _ _ _ _ O1 O2 E) as [Es _].
  apply N1. rewrite Es. now apply in_map.
Qed.
Lemma dec_issr mt n (st : ist) msg : In mt [11; 12; 13; 2011] -> issr_ok n -> At msg 24 (issr_message mt n) ->
  exists st', decode_int st msg = Some st' /\ issr_effect mt n st st'.
Proof.
  intros Hm (Hh & H1 & H2 & H3 & Hc & Hf) A. unfold issr_message in A. destruct (mt_int mt msg _ A) as [E A'].
  { cbn in Hm. lia. }
  unfold decode_int. rewrite E. cbn [bind].
  replace (match dispatch mt with KOther => if zin mt [3; 2000] then decode_min mt st msg 36 else if zin mt [11; 2011; 12; 13] then decode_issr mt st msg 36 else None | _ => None end)
    with (decode_issr mt st msg 36) by (cbn in Hm; destruct Hm as [<-|[<-|[<-|[<-|[]]]]]; reflexivity).
  clear A. rename A' into A. unfold decode_issr. apply At_app in A as [A0 A]. rewrite (dec_ihead mt (s_h n) st msg 36 Hh A0). cbn [bind].
  set (j := (36 + length (ihead_bits mt (s_h n)))%nat) in *. do 4 (let K := fresh "A" in apply At_app in A as [K A]). rewrite ?bitsof_length, ?mask_bits_length in *.
  rewrite (getu_bits msg j 16 (s_pid n)) by (auto; cbn; lia). cbn [bind]. rewrite (getu_bits msg (j + 16) 4 (s_sid n)) by (auto; cbn; lia). cbn [bind].
  rewrite (getu_bits msg (j + 20) 4 (s_iod n)) by (first [eapply At_pos; [eassumption|lia] | cbn; lia]). cbn [bind].
  pose proof Hc as [Hc1 Hc2].
  destruct (get_mask msg (j + 24) 0 16 _ Hc1 (numbers_range _)) as (v & Ev & Ed); [eapply At_pos; [eassumption|lia]|]. rewrite Ev. cbn [bind]. rewrite Ed.
  pose proof (dec_fcons msg (s_cons n) [] (j + 40)%nat [] (cons_nodup _ Hc) Hc2 Hf) as D. cbn [app map] in D. rewrite D by (eapply At_pos; [exact A|lia]). clear D. cbn [bind].
  eexists. split; [reflexivity|]. unfold issr_effect, head_after. cbn. split; [repeat split|]. do 3 (split; [reflexivity|]). split; [reflexivity|]. split; [reflexivity|].
  split; [|split; [|reflexivity]].
  - intros s. rewrite in_flat_map. split.
    + intros (c & Hi & Hb). apply bad_in in Hb as (y & Hy & E1 & ->). exists c, y. repeat split; assumption.
    + intros (c & y & Hi & Hy & E1 & ->). exists c. split; [exact Hi|]. apply bad_in. exists y. repeat split; assumption.
  - apply all_bad_nodup; [now apply cons_nodup|exact Hf].
Qed.

(* ---------- minimum integrity ---------- *)
Definition msat_of (s : gnss) (x : msat) : Z * satr := (prn2sat s (m_prn x), SR (m_freq x) (m_iod x) (m_ists x) (m_msts x)).
Definition msat_ok (x : msat) : Prop := StronglySorted Z.lt (m_freq x) /\ Forall (fun f => 0 <= f < 8) (m_freq x) /\ 0 <= m_iod x < 4 /\ 0 <= m_ists x < 256 /\ 0 <= m_msts x < 256.
Lemma msat_len x : length (msat_bits x) = 26%nat.
Proof. unfold msat_bits. rewrite !app_length, !bitsof_length, mask_bits_length. reflexivity. Qed.
Lemma dec_msats s msg : forall rest done i, NoDup (map (prn2sat s) (map m_prn (done ++ rest))) -> Forall msat_ok rest -> At msg i (flat_map msat_bits rest) ->
  min_sats s (map (slot s) (map m_prn rest)) msg i (map (msat_of s) done) = Some (map (msat_of s) (done ++ rest), (i + length (flat_map msat_bits rest))%nat).
Proof.
  induction rest as [|x rest IH]; intros done i N F A; [cbn; now rewrite !app_nil_r, Nat.add_0_r|].
  apply Forall_cons_iff in F as [(F1 & F2 & F3 & F4 & F5) F]. cbn [flat_map] in *. apply At_app in A as [A1 A]. rewrite msat_len in A. cbn [map min_sats].
  unfold msat_bits in A1. apply At_app in A1 as [Am A1]. apply At_app in A1 as [Ai A1]. apply At_app in A1 as [Aa Ab]. rewrite ?mask_bits_length, ?bitsof_length in *.
  destruct (get_mask msg i 0 8 _ F1 F2 Am) as (v & Ev & Ed). rewrite Ev. cbn [bind].
  rewrite (getu_bits msg (i + 8) 2 (m_iod x)) by (auto; cbn; lia). cbn [bind]. rewrite (getu_bits msg (i + 10) 8 (m_ists x)) by (first [eapply At_pos; [eassumption|lia] | cbn; lia]). cbn [bind].
  rewrite (getu_bits msg (i + 18) 8 (m_msts x)) by (first [eapply At_pos; [eassumption|lia] | cbn; lia]). cbn [bind]. rewrite Ed, slot_sat.
  assert (N' := N). rewrite !map_app in N'. cbn [map] in N'. apply NoDup_remove_2 in N'. rewrite in_app_iff in N'.
  rewrite zset_new by (rewrite map_map; intros H; apply N'; left; unfold msat_of in H; cbn [fst] in H; rewrite map_map; exact H).
  replace (map (msat_of s) done ++ [(prn2sat s (m_prn x), SR (m_freq x) (m_iod x) (m_ists x) (m_msts x))]) with (map (msat_of s) (done ++ [x])) by (rewrite map_app; reflexivity).
  rewrite IH; [|now rewrite <- app_assoc|exact F|exact A]. rewrite <- app_assoc. cbn [app]. rewrite app_length, msat_len. f_equal. f_equal. lia.
Qed.
Lemma mon_mask s l : number s <> None -> mask_bits 1 64 (map (slot s) l) = mask_bits (if gnss_eqb s QZS then 193 else 1) 64 l.
Proof.
  intros H. unfold mask_bits. apply map_ext. intros k. induction l as [|p l IH]; [reflexivity|]. cbn [map existsb]. rewrite IH. f_equal. destruct s; try (exfalso; apply H; reflexivity); try reflexivity. cbn [slot]. change (gnss_eqb QZS QZS) with true. lia.
Qed.
Lemma mon_sorted s l : StronglySorted Z.lt (map (slot s) l) -> StronglySorted Z.lt l.
Proof.
  induction l as [|p l IH]; intros H; [constructor|]. cbn [map] in H. inversion H as [|? ? H1 H2]; subst. constructor; [now apply IH|]. rewrite Forall_forall in *.
  intros q Hq. specialize (H2 (slot s q) (in_map (slot s) _ _ Hq)). clear - H2. destruct s; cbn in *; lia.
Qed.
Lemma mon_range s l : number s <> None -> sats_ok s l -> Forall (fun k => (if gnss_eqb s QZS then 193 else 1) <= k < (if gnss_eqb s QZS then 193 else 1) + Z.of_nat 64) l.
Proof.
  intros H [_ F]. rewrite Forall_forall in *. intros p Hp. destruct (F p Hp) as [O B]. destruct s; cbn in H, O, B |- *; try congruence; lia.
Qed.
Definition mcon_ok (c : mcon) : Prop := 0 <= c_iod c < 4 /\ 0 <= c_sts c < 2 ^ 64 /\ 0 <= c_src c < 8 /\ sats_ok (c_sys c) (map m_prn (c_sats c)) /\ sats_ok (c_sys c) (c_mon c) /\ Forall msat_ok (c_sats c).
Definition mc_of (c : mcon) : gnss * conr := (c_sys c, CR (c_sts c) (c_mon c) (c_src c) (map (msat_of (c_sys c)) (c_sats c))).
Lemma dec_mcons msg : forall rest done i, NoDup (map c_sys (done ++ rest)) -> Forall (fun s => number s <> None) (map c_sys rest) ->
  Forall mcon_ok rest -> At msg i (flat_map mcon_bits rest) ->
  min_cons (numbers (map c_sys rest)) msg i (map (fun c => (c_sys c, c_iod c)) done) (map mc_of done) =
    Some (map (fun c => (c_sys c, c_iod c)) (done ++ rest), map mc_of (done ++ rest)).
Proof.
  induction rest as [|c rest IH]; intros done i N K F A; [cbn; now rewrite !app_nil_r|].
  cbn [map] in K. apply Forall_cons_iff in K as [Kc K]. apply Forall_cons_iff in F as [(F1 & F2 & F3 & F4 & F5 & F6) F]. cbn [flat_map] in *. apply At_app in A as [A1 A].
  cbn [map]. destruct (numbers_cons (c_sys c) (map c_sys rest) Kc) as (k & Ek & ->). cbn [min_cons]. rewrite (number_tbl _ _ Ek). cbn [bind].
  unfold mcon_bits in A1. do 5 (let K := fresh "B" in apply At_app in A1 as [K A1]). rewrite ?mask_bits_length, ?bitsof_length in *.
  destruct (get_mask msg i 1 64 _ (proj1 F4) (slots_range _ _ F4) B) as (v & Ev & Ed). rewrite Ev. cbn [bind].
  rewrite (getu_bits msg (i + 64) 2 (c_iod c)) by (auto; cbn; lia). cbn [bind]. rewrite (getu_bits msg (i + 66) 64 (c_sts c)) by (first [eapply At_pos; [eassumption|lia] | cbn; lia]). cbn [bind].
  rewrite (mon_mask _ _ Kc) in B2.
  destruct (get_mask msg (i + 130) _ 64 _ (mon_sorted _ _ (proj1 F5)) (mon_range _ _ Kc F5)) as (w & Ew & Ewd); [eapply At_pos; [exact B2|lia]|]. rewrite Ew. cbn [bind].
  rewrite (getu_bits msg (i + 194) 3 (c_src c)) by (first [eapply At_pos; [eassumption|lia] | cbn; lia]). cbn [bind]. rewrite Ed, Ewd.
  pose proof (dec_msats (c_sys c) msg (c_sats c) [] (i + 197)%nat (sats_nodup _ _ F4) F6) as D. cbn [app map] in D.
  rewrite D by (eapply At_pos; [exact A1|lia]). clear D. cbn [bind].
  assert (N' := N). rewrite map_app in N'. cbn [map] in N'. apply NoDup_remove_2 in N'. rewrite in_app_iff in N'.
  rewrite !gset_new by (rewrite map_map; unfold mc_of; cbn [fst]; tauto).
  replace (map (fun c => (c_sys c, c_iod c)) done ++ [(c_sys c, c_iod c)]) with (map (fun c => (c_sys c, c_iod c)) (done ++ [c])) by (rewrite map_app; reflexivity).
  match goal with |- min_cons _ _ _ _ ?x = _ => replace x with (map mc_of (done ++ [c])) by (rewrite map_app; reflexivity) end.
  rewrite IH; [|now rewrite <- app_assoc|exact K|exact F|].
  - rewrite <- !app_assoc. reflexivity.
  - eapply At_pos; [exact A|]. unfold mcon_bits. rewrite !app_length, !mask_bits_length, !bitsof_length. lia.
Qed.
Lemma dec_mint mt n (st : ist) msg : In mt [3; 2000] -> mint_ok n -> At msg 24 (mint_message mt n) ->
  exists st', decode_int st msg = Some st' /\ mint_effect mt n st st'.
Proof.
  intros Hm (Hh & H1 & H2 & Hc & Hf) A. unfold mint_message in A. destruct (mt_int mt msg _ A) as [E A'].
  { cbn in Hm. lia. }
  unfold decode_int. rewrite E. cbn [bind].
  replace (match dispatch mt with KOther => if zin mt [3; 2000] then decode_min mt st msg 36 else if zin mt [11; 2011; 12; 13] then decode_issr mt st msg 36 else None | _ => None end)
    with (decode_min mt st msg 36) by (cbn in Hm; destruct Hm as [<-|[<-|[]]]; reflexivity).
  clear A. rename A' into A. unfold decode_min. apply At_app in A as [A0 A]. rewrite (dec_ihead mt (n_h n) st msg 36 Hh A0). cbn [bind].
  set (j := (36 + length (ihead_bits mt (n_h n)))%nat) in *. do 3 (let K := fresh "A" in apply At_app in A as [K A]). rewrite ?bitsof_length, ?mask_bits_length in *.
  pose proof Hc as [Hc1 Hc2].
  destruct (get_mask msg j 0 16 _ Hc1 (numbers_range _)) as (v & Ev & Ed); [eapply At_pos; [eassumption|lia]|]. rewrite Ev. cbn [bind].
  rewrite (getu_bits msg (j + 16) 16 (n_integ n)) by (first [eapply At_pos; [eassumption|lia] | cbn; lia]). cbn [bind].
  rewrite (getu_bits msg (j + 32) 16 (n_stat n)) by (first [eapply At_pos; [eassumption|lia] | cbn; lia]). cbn [bind]. rewrite Ed.
  pose proof (dec_mcons msg (n_cons n) [] (j + 48)%nat (cons_nodup _ Hc) Hc2 Hf) as D. cbn [app map] in D. rewrite D by (eapply At_pos; [exact A|lia]). clear D. cbn [bind].
  destruct (n_cons n) as [|c l] eqn:En.
  - cbn. eexists. split; [reflexivity|]. unfold mint_effect, head_after. rewrite En. cbn. repeat split.
  - cbn [map] in *. destruct (numbers_cons (c_sys c) (map c_sys l)) as (k & _ & ->); [now inversion Hc2|].
    eexists. split; [reflexivity|]. unfold mint_effect, head_after. rewrite En. cbn. split; [repeat split|]. split; [split; reflexivity|reflexivity].
Qed.
