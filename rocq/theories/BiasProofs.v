(** The bias decoder reads the messages of BiasSpec.v. *)
From Verif Require Import SatModel SatSpec SatProofs TimeModel CssrState CssrFacts RtcmFrame RtcmSsr RtcmFrameSpec RtcmFrameProofs RtcmSsrSpec RtcmSsrProofs SigModel BiasModel BiasSpec Base BaseFacts.
From Coq Require Import Permutation ZifyBool ZifyNat String.
Notation length := List.length.
Open Scope Z_scope.

(* ---------- names ---------- *)
Lemma sname_range s c : sname s c <> None -> 0 <= c < 32.
Proof.
  destruct c as [|p|p]; [lia| |destruct s; cbn; congruence].
  intros H. assert (Z.pos p < 32); [|lia].
  destruct (Z_lt_dec (Z.pos p) 32) as [L|L]; [exact L|exfalso; apply H; clear H].
  do 5 (destruct p as [p|p|]; [| |exfalso; clear - L; lia]); destruct s; reflexivity.
Qed.
Definition codes : list Z := map Z.of_nat (seq 0 32).
Lemma codes_in c : 0 <= c < 32 -> In c codes.
Proof. intros H. unfold codes. apply in_map_iff. exists (Z.to_nat c). split; [lia|]. apply in_seq. lia. Qed.
Definition all_sys : list gnss := [GPS; SBS; GAL; BDS; QZS; GLO; IRN; NONE].
Definition tchr (t : typ) : string := match t with TC => "C" | TL => "L" | _ => "" end%string.
Definition good (s : gnss) (c : Z) : bool := match sname s c with Some _ => negb (gnss_eqb s QZS && (c =? 2)) | None => false end.
Definition name_chk (s : gnss) (t : typ) (c : Z) : bool :=
  negb (good s c) || match rtcm_ssig2rsig s t c with Some r => String.eqb (sig_str r) (key (tchr t) s c) | None => false end.
Lemma name_all : forall s t c, t = TC \/ t = TL -> In c codes -> name_chk s t c = true.
Proof.
  intros s t c Ht Hc. assert (F : forallb (name_chk s t) codes = true) by (destruct Ht as [-> | ->]; destruct s; vm_compute; reflexivity).
  rewrite forallb_forall in F. now apply F.
Qed.
Definition cok (s : gnss) (c : Z) : Prop := sname s c <> None /\ ~ (s = QZS /\ c = 2).
Lemma good_ok s c : cok s c -> good s c = true.
Proof.
  intros [H1 H2]. unfold good. destruct (sname s c); [|congruence]. destruct (gnss_eqb s QZS) eqn:E; [|reflexivity]. apply gnss_eqb_eq in E.
  destruct (c =? 2) eqn:E2; [|reflexivity]. exfalso. apply H2. split; [exact E|lia].
Qed.
Lemma name_ok s t c : t = TC \/ t = TL -> cok s c -> exists r, rtcm_ssig2rsig s t c = Some r /\ sig_str r = key (tchr t) s c.
Proof.
  intros Ht H. pose proof (name_all s t c Ht (codes_in _ (sname_range _ _ (proj1 H)))) as N. unfold name_chk in N. rewrite (good_ok _ _ H) in N. cbn [negb orb] in N.
  destruct (rtcm_ssig2rsig s t c) as [r|]; [|discriminate]. exists r. split; [reflexivity|]. now apply String.eqb_eq.
Qed.
Lemma tbl_all s c : In c codes -> good s c = true -> match rtcm_sig_tbl s with Some l => existsb (Z.eqb c) (map fst l) | None => false end = true.
Proof.
  intros Hc Hg. assert (F : forallb (fun c => negb (good s c) || match rtcm_sig_tbl s with Some l => existsb (Z.eqb c) (map fst l) | None => false end) codes = true)
    by (destruct s; vm_compute; reflexivity).
  rewrite forallb_forall in F. specialize (F c Hc). rewrite Hg in F. exact F.
Qed.
Lemma count_ok s l : codes_ok s l -> igs_base s <> None -> exists n, nsigs s = Some n /\ Z.of_nat (length l) <= n.
Proof.
  intros [N F] Hl. rewrite Forall_forall in F. unfold nsigs.
  assert (K : forall c, In c l -> match rtcm_sig_tbl s with Some t => existsb (Z.eqb c) (map fst t) | None => false end = true).
  { intros c Hc. apply tbl_all; [apply codes_in, (sname_range s), F, Hc|apply good_ok, F, Hc]. }
  destruct (rtcm_sig_tbl s) as [t|] eqn:T; [|destruct s; try discriminate T; exfalso; apply Hl; reflexivity]. cbn [bind]. exists (Z.of_nat (length t)). split; [reflexivity|].
  apply inj_le. rewrite <- (map_length fst t). apply NoDup_incl_length; [exact N|]. intros c Hc. specialize (K c Hc). apply existsb_exists in K as (x & Hx & E).
  apply Z.eqb_eq in E. now subst.
Qed.
Lemma key_inj_all t s c c' : t = "C"%string \/ t = "L"%string -> In c codes -> In c' codes -> good s c = true -> good s c' = true -> key t s c = key t s c' -> c = c'.
Proof.
  intros Ht H H' G G' E.
  assert (F : forallb (fun c => forallb (fun c' => negb (good s c) || negb (good s c') || negb (String.eqb (key t s c) (key t s c')) || (c =? c')) codes) codes = true)
    by (destruct Ht as [-> | ->]; destruct s; vm_compute; reflexivity).
  rewrite forallb_forall in F. specialize (F c H). rewrite forallb_forall in F. specialize (F c' H'). rewrite G, G', E, String.eqb_refl in F. cbn in F. lia.
Qed.
Lemma key_inj t s c c' : t = "C"%string \/ t = "L"%string -> cok s c -> cok s c' -> key t s c = key t s c' -> c = c'.
Proof.
  intros Ht H H'. apply key_inj_all; try exact Ht; try (apply codes_in, (sname_range s)); try apply good_ok; auto; apply H || apply H'.
Qed.

(* ---------- dictionaries ---------- *)
Lemma sget_same {V} k (v : V) d : sget k (sset k v d) = Some v.
Proof.
  unfold sget, sset. induction d as [|[a w] r IH]; cbn [dset dget]; [now rewrite String.eqb_refl|].
  destruct (String.eqb a k) eqn:E; cbn [dget]; rewrite E; [reflexivity|exact IH].
Qed.
Lemma sget_other {V} k k' (v : V) d : k <> k' -> sget k' (sset k v d) = sget k' d.
Proof.
  intros N. unfold sget, sset. induction d as [|[a w] r IH]; cbn [dset dget].
  - destruct (String.eqb k k') eqn:E; [apply String.eqb_eq in E; congruence|reflexivity].
  - destruct (String.eqb a k) eqn:E; cbn [dget]; [|now rewrite IH].
    apply String.eqb_eq in E. subst a. destruct (String.eqb k k') eqn:E2; [apply String.eqb_eq in E2; congruence|reflexivity].
Qed.
Definition sfold {V G} (t : string) (s : gnss) (code : G -> Z) (val : G -> V) (l : list G) (d : sdict V) : sdict V :=
  fold_left (fun d g => sset (key t s (code g)) (val g) d) l d.
Lemma sfold_now {V G} t s (code : G -> Z) (val : G -> V) l : t = "C"%string \/ t = "L"%string -> codes_ok s (map code l) ->
  forall d, now t s code val l d (sfold t s code val l d).
Proof.
  intros Ht. induction l as [|g l IH]; intros [N F] d; [split; [contradiction|reflexivity]|].
  cbn [map] in N, F. inversion N; subst. inversion F; subst. destruct (IH (conj H2 H4) (sset (key t s (code g)) (val g) d)) as [I1 I2]. unfold sfold in *. cbn [fold_left]. split.
  - intros x [<-|Hx]; [|now apply I1]. rewrite I2; [apply sget_same|]. intros K. apply in_map_iff in K as (y & E & Hy).
    apply H1. apply in_map_iff. exists y. split; [|exact Hy]. rewrite Forall_forall in H4. apply (key_inj t s); auto. apply H4. now apply in_map.
  - intros k Hk. cbn [map] in Hk. rewrite I2 by (intros K; apply Hk; now right). apply sget_other. intros K. apply Hk. now left.
Qed.
Definition dfold {V E} (sat : E -> Z) (F : E -> sdict V -> sdict V) (es : list E) (d : dict Z (sdict V)) : dict Z (sdict V) :=
  fold_left (fun d e => zset (sat e) (F e (sub (sat e) d)) d) es d.
Lemma dfold_ok {V E} (sat : E -> Z) (F : E -> sdict V -> sdict V) es : NoDup (map sat es) -> forall d,
  (forall e, In e es -> zget (sat e) (dfold sat F es d) = Some (F e (sub (sat e) d))) /\
  (forall x, ~ In x (map sat es) -> zget x (dfold sat F es d) = zget x d).
Proof.
  induction es as [|e es IH]; intros N d; [split; [contradiction|reflexivity]|]. cbn [map] in N. inversion N; subst.
  destruct (IH H2 (zset (sat e) (F e (sub (sat e) d)) d)) as [I1 I2]. unfold dfold in *. cbn [fold_left]. split.
  - intros x [<-|Hx]; [rewrite I2 by exact H1; apply zget_zset_same|]. rewrite I1 by exact Hx. unfold sub.
    rewrite zget_zset_other; [reflexivity|]. intros K. apply H1. rewrite K. now apply in_map.
  - intros x Hx. cbn [map] in Hx. rewrite I2 by (intros K; apply Hx; now right). apply zget_zset_other. intros K. apply Hx. now left.
Qed.
Lemma nows_fold {V E G} t s (prn : E -> Z) (sigs : E -> list G) code (val : G -> V) es old : t = "C"%string \/ t = "L"%string ->
  NoDup (map (fun e => prn2sat s (prn e)) es) -> Forall (fun e => codes_ok s (map code (sigs e))) es ->
  nows t s prn sigs code val es old (dfold (fun e => prn2sat s (prn e)) (fun e => sfold t s code val (sigs e)) es old).
Proof.
  intros Ht N F. destruct (dfold_ok (fun e => prn2sat s (prn e)) (fun e => sfold t s code val (sigs e)) es N old) as [H1 H2]. split; [|exact H2].
  intros e He. eexists. split; [apply H1; exact He|]. unfold sub. apply sfold_now; [exact Ht|]. rewrite Forall_forall in F. now apply F.
Qed.
Lemma holdz_fold {V E} s (prn : E -> Z) (val : E -> V) es : NoDup (map (fun e => prn2sat s (prn e)) es) -> forall old,
  holdz s prn val es old (fold_left (fun d e => zset (prn2sat s (prn e)) (val e) d) es old).
Proof.
  induction es as [|e es IH]; intros N d; [split; [contradiction|reflexivity]|]. cbn [map] in N. inversion N; subst.
  destruct (IH H2 (zset (prn2sat s (prn e)) (val e) d)) as [I1 I2]. cbn [fold_left]. split.
  - intros x [<-|Hx]; [rewrite I2 by exact H1; apply zget_zset_same|now apply I1].
  - intros x Hx. cbn [map] in Hx. rewrite I2 by (intros K; apply Hx; now right). apply zget_zset_other. intros K. apply Hx. now left.
Qed.
Lemma addsat_in sat l x : In x (addsat sat l) <-> x = sat \/ In x l.
Proof.
  unfold addsat. destruct (existsb (Z.eqb sat) l) eqn:E.
  - apply existsb_exists in E as (y & Hy & Ey). apply Z.eqb_eq in Ey. subst y. intuition congruence.
  - rewrite in_app_iff. cbn. intuition congruence.
Qed.
Lemma addsats_in l : forall a x, In x (fold_left (fun a y => addsat y a) l a) <-> In x l \/ In x a.
Proof.
  induction l as [|y l IH]; intros a x; cbn [fold_left In]; [tauto|]. rewrite IH, addsat_in. intuition congruence.
Qed.
Lemma addsats_nodup l : forall a, NoDup a -> NoDup (fold_left (fun a y => addsat y a) l a).
Proof.
  induction l as [|y l IH]; intros a H; cbn [fold_left]; [exact H|]. apply IH. unfold addsat. destruct (existsb (Z.eqb y) a) eqn:E; [exact H|].
  assert (N : ~ In y a) by (intros Hx; assert (existsb (Z.eqb y) a = true); [|congruence]; apply existsb_exists; exists y; split; [exact Hx|apply Z.eqb_refl]).
  eapply Permutation_NoDup; [apply Permutation_cons_append|]. now constructor.
Qed.

(* ---------- reading ---------- *)
Lemma dec_psat igs s msg i prn : psat_ok igs s prn -> At msg i (bitsof (slot_len igs s) (slot s prn)) ->
  decode_sat igs s msg i = Some (prn2sat s prn, (i + slot_len igs s)%nat).
Proof.
  intros (H1 & H2) A. assert (B : 0 <= slot s prn < 2 ^ Z.of_nat (slot_len igs s)) by (split; [destruct s; cbn in *; lia|exact H2]). unfold decode_sat.
  change (if igs then 6%nat else match s with GLO => 5%nat | QZS => 4%nat | _ => 6%nat end) with (slot_len igs s).
  gu. now rewrite slot_sat.
Qed.
Lemma dec_cb_sigs s msg : forall sigs i d, Forall (fun g => cok s (fst g)) sigs -> Forall (fun g => fits 14 (snd g)) sigs ->
  At msg i (flat_map (fun g => bitsof 5 (fst g) ++ field 14 (snd g)) sigs) ->
  cb_sigs s (length sigs) msg i d = Some (sfold "C" s fst snd sigs d, (i + length (flat_map (fun g => bitsof 5 (fst g) ++ field 14 (snd g)) sigs))%nat).
Proof.
  induction sigs as [|[c v] sigs IH]; intros i d H1 H2 A; [cbn; now rewrite Nat.add_0_r|].
  inversion H1; subst. inversion H2; subst. cbn [fst snd flat_map] in *. rewrite <- app_assoc in A. pose proof (sname_range _ _ (proj1 H3)).
  at_split. rewrite ?bitsof_length, ?field_length in * by lia. cbn [length cb_sigs].
  repeat gu. destruct (name_ok s TC c (or_introl eq_refl) H3) as (r & R & K). rewrite R. cbn [bind].
  rewrite sval_ival by assumption. replace (i + 19)%nat with (i + 5 + 14)%nat by lia.
  rewrite (IH _ _ H4 H6 A). unfold sfold at 2. cbn [fold_left fst snd]. rewrite K. f_equal. f_equal. poslen. lia.
Qed.
Lemma sigs_len s l : igs_base s <> None -> codes_ok s l -> exists n, nsigs s = Some n /\ (Z.of_nat (length l) >? n) = false /\ 0 <= Z.of_nat (length l) < 32.
Proof.
  intros Hs H. destruct (count_ok s l H Hs) as (n & E & L). exists n. split; [exact E|]. split; [lia|].
  assert (n <= 31); [|lia]. unfold nsigs in E. destruct s; vm_compute in E; (congruence || (injection E as <-; lia)).
Qed.
Definition cstep (s : gnss) (e : csat) := sfold "C" s fst (@snd Z (option Z)) (c_sigs e).
Lemma dec_cb_sats igs s msg : igs_base s <> None -> forall es i cb, Forall (cs_ok igs s) es -> At msg i (flat_map (cs_bits igs s) es) ->
  cb_sats igs s (length es) msg i cb =
    Some (map (fun e => prn2sat s (c_prn e)) es, dfold (fun e => prn2sat s (c_prn e)) (cstep s) es cb, (i + length (flat_map (cs_bits igs s) es))%nat).
Proof.
  intros Hs. induction es as [|e es IH]; intros i cb H A; [cbn; now rewrite Nat.add_0_r|].
  inversion H as [|? ? (P & C & F) H']; subst. cbn [flat_map] in A. apply At_app in A as [A A']. unfold cs_bits in A.
  destruct (sigs_len s _ Hs C) as (n & E & L & B). rewrite map_length in L, B.
  at_split. rewrite ?bitsof_length in *. cbn [length cb_sats]. rewrite (dec_psat igs s msg i _ P A0). cbn [bind].
  gu. rewrite E. cbn [bind]. rewrite L, Nat2Z.id.
  assert (C' : Forall (fun g => cok s (fst g)) (c_sigs e)).
  { destruct C as [_ C]. rewrite Forall_forall in *. intros g Hg. apply C. now apply in_map. }
  rewrite (dec_cb_sigs s msg _ _ _ C' F A). cbn [bind].
  assert (X : (i + slot_len igs s + 5 + length (flat_map (fun g => bitsof 5 (fst g) ++ field 14 (snd g)) (c_sigs e)) = i + length (cs_bits igs s e))%nat)
    by (unfold cs_bits; rewrite !app_length, !bitsof_length; lia).
  rewrite X. rewrite (IH _ _ H' A'). cbn [bind map flat_map]. rewrite app_length, Nat.add_assoc. reflexivity.
Qed.
Definition pstep (f : pform) (s : gnss) (l : list psig) (d : pdict) : pdict :=
  PD (sfold "L" s g_code g_pb l (d_pb d)) (sfold "L" s g_code g_si l (d_si d)) (sfold "L" s g_code g_di l (d_di d))
     (sfold "L" s g_code g_wl (if is_old f then l else []) (d_wl d)).
Lemma getb_at msg i b : At msg i [b] -> getb msg i 1 = Some b.
Proof.
  intros A. unfold getb. change 1%nat with (length [b]). rewrite (getu_at _ _ _ A). cbn [bind]. now destruct b.
Qed.
Ltac gb := match goal with A : At ?m _ [?b] |- context [getb ?m ?j 1] => rewrite (getb_at m j b) by (eapply At_pos; [exact A|poslen; lia]) end; cbn [bind].
Lemma pg_len f g : length (pg_bits f g) = if is_old f then 32%nat else 30%nat.
Proof. unfold pg_bits. rewrite !app_length. destruct (is_old f); poslen; reflexivity. Qed.
Lemma dec_pb_sigs f s msg : forall sigs i d, Forall (fun g => cok s (g_code g)) sigs -> Forall pg_ok sigs -> At msg i (flat_map (pg_bits f) sigs) ->
  pb_sigs (is_old f) s (length sigs) msg i d = Some (pstep f s sigs d, (i + length (flat_map (pg_bits f) sigs))%nat).
Proof.
  induction sigs as [|g sigs IH]; intros i d H1 H2 A.
  - destruct d. cbn. rewrite Nat.add_0_r. unfold pstep. cbn. now destruct (is_old f).
  - inversion H1; subst. inversion H2 as [|? ? (W & D & P) H2']; subst. cbn [flat_map] in *. pose proof (sname_range _ _ (proj1 H3)) as R0.
    apply At_app in A as [A A']. unfold pg_bits in A. at_split. cbn [length pb_sigs]. rewrite ?bitsof_length in *.
    destruct (name_ok s TL (g_code g) (or_intror eq_refl) H3) as (r & R & K).
    rewrite app_length, Nat.add_assoc, pg_len in *.
    gu. gb. rewrite R. cbn [bind]. rewrite K. change (tchr TL) with "L"%string.
    destruct (is_old f) eqn:O; cbn [app length] in *.
    + rewrite ?bitsof_length in *. repeat gu. rewrite sval_ival by assumption.
      rewrite (IH _ _ H4 H2') by (eapply At_pos; [exact A'|lia]). unfold pstep. rewrite O. cbn [d_pb d_si d_di d_wl]. f_equal. f_equal. lia.
    + cbn [bind]. repeat gu. rewrite sval_ival by assumption.
      rewrite (IH _ _ H4 H2') by (eapply At_pos; [exact A'|lia]). unfold pstep. rewrite O. cbn [d_pb d_si d_di d_wl]. f_equal. f_equal. lia.
Qed.

Definition al (a : pall) : Prop :=
  forall sat, (zget sat (a_si a) = None <-> zget sat (a_pb a) = None) /\ (zget sat (a_di a) = None <-> zget sat (a_pb a) = None) /\
    (zget sat (a_wl a) = None <-> zget sat (a_pb a) = None).
Definition psubt (sat : Z) (a : pall) : pdict := PD (sub sat (a_pb a)) (sub sat (a_si a)) (sub sat (a_di a)) (sub sat (a_wl a)).
Lemma psub_ok sat a : al a -> psub sat a = Some (psubt sat a).
Proof.
  intros H. destruct (H sat) as (H1 & H2 & H3). unfold psub, psubt, sub.
  destruct (zget sat (a_pb a)) as [p|].
  - destruct (zget sat (a_si a)); [|now destruct H1 as [K _]; discriminate K].
    destruct (zget sat (a_di a)); [|now destruct H2 as [K _]; discriminate K].
    destruct (zget sat (a_wl a)); [|now destruct H3 as [K _]; discriminate K]. reflexivity.
  - now rewrite (proj2 H1), (proj2 H2), (proj2 H3) by reflexivity.
Qed.
Lemma al_put sat d a : al a -> al (pput sat d a).
Proof.
  intros H x. unfold pput. cbn [a_pb a_si a_di a_wl]. destruct (Z.eq_dec sat x) as [->|N].
  - rewrite !zget_zset_same. intuition discriminate.
  - rewrite !zget_zset_other by exact N. apply H.
Qed.
Definition ystep (f : pform) (s : gnss) (e : psat) (a : pall) : pall :=
  if with_yaw f then PA (a_pb a) (a_si a) (a_di a) (a_wl a) (zset (prn2sat s (p_prn e)) (p_yaw e) (a_yaw a)) (zset (prn2sat s (p_prn e)) (p_dyaw e) (a_dyaw a)) else a.
Definition astep (f : pform) (s : gnss) (a : pall) (e : psat) : pall :=
  let sat := prn2sat s (p_prn e) in let a := ystep f s e a in pput sat (pstep f s (p_sigs e) (psubt sat a)) a.
Lemma al_y f s e a : al a -> al (ystep f s e a).
Proof. unfold ystep. destruct (with_yaw f); intros H; exact H. Qed.
Lemma old_yaw f : is_old f || with_yaw f = with_yaw f. Proof. destruct f; reflexivity. Qed.
Lemma dec_pb_sats f igs s msg : igs_base s <> None -> forall es i a, al a -> Forall (ps_ok igs s) es -> At msg i (flat_map (ps_bits f igs s) es) ->
  pb_sats (is_old f) (with_yaw f) igs s (length es) msg i a =
    Some (map (fun e => prn2sat s (p_prn e)) es, fold_left (astep f s) es a, (i + length (flat_map (ps_bits f igs s) es))%nat).
Proof.
  intros Hs. induction es as [|e es IH]; intros i a Ha H A; [cbn; now rewrite Nat.add_0_r|].
  inversion H as [|? ? (P & (Y1 & Y2) & C & F) H']; subst. cbn [flat_map] in A. apply At_app in A as [A A']. unfold ps_bits in A.
  destruct (sigs_len s _ Hs C) as (n & E & L & B). rewrite map_length in L, B.
  apply At_app in A as [A0 A]. apply At_app in A as [A1 A]. apply At_app in A as [A2 A]. rewrite ?bitsof_length in *.
  cbn [length pb_sats]. rewrite (dec_psat igs s msg i _ P A0). cbn [bind].
  gu. rewrite old_yaw.
  assert (Y : (if with_yaw f
      then do y <- getu msg (i + slot_len igs s + 5) 9; do dy <- gets msg (i + slot_len igs s + 5 + 9) 8;
           Some (PA (a_pb a) (a_si a) (a_di a) (a_wl a) (zset (prn2sat s (p_prn e)) y (a_yaw a)) (zset (prn2sat s (p_prn e)) (sval dy 8) (a_dyaw a)),
                 (i + slot_len igs s + 5 + 17)%nat)
      else Some (a, (i + slot_len igs s + 5)%nat)) =
    Some (ystep f s e a, (i + slot_len igs s + 5 + length (if with_yaw f then bitsof 9 (p_yaw e) ++ field 8 (p_dyaw e) else []))%nat)).
  { unfold ystep. destruct (with_yaw f); [|cbn [length]; now rewrite Nat.add_0_r]. apply At_app in A2 as [A2 A3]. rewrite bitsof_length in *.
    repeat gu. rewrite sval_ival by assumption. poslen. f_equal. }
  rewrite Y. cbn [bind]. clear Y. rewrite (psub_ok _ _ (al_y f s e a Ha)), E. cbn [bind]. rewrite L, Nat2Z.id.
  assert (C' : Forall (fun g => cok s (g_code g)) (p_sigs e)).
  { destruct C as [_ C]. rewrite Forall_forall in *. intros g Hg. apply C. now apply in_map. }
  rewrite (dec_pb_sigs f s msg _ _ _ C' F A). cbn [bind].
  match goal with |- context [pb_sats _ _ _ _ _ _ ?j _] => replace j with (i + length (ps_bits f igs s e))%nat
    by (unfold ps_bits; rewrite !(app_length (bitsof _ _)), !bitsof_length, app_length; lia) end.
  rewrite (IH _ _ (al_put _ _ _ (al_y f s e a Ha)) H' A'). cbn [bind map flat_map]. rewrite (app_length (ps_bits f igs s e)), Nat.add_assoc. reflexivity.
Qed.
(* the components of the result *)
Lemma afold_pb f s es : forall a, a_pb (fold_left (astep f s) es a) =
  dfold (fun e => prn2sat s (p_prn e)) (fun e => sfold "L" s g_code g_pb (p_sigs e)) es (a_pb a).
Proof. unfold dfold. induction es as [|e es IH]; intros a; [reflexivity|]. cbn [fold_left]. rewrite IH. unfold astep, ystep. destruct (with_yaw f); reflexivity. Qed.
Lemma afold_si f s es : forall a, a_si (fold_left (astep f s) es a) =
  dfold (fun e => prn2sat s (p_prn e)) (fun e => sfold "L" s g_code g_si (p_sigs e)) es (a_si a).
Proof. unfold dfold. induction es as [|e es IH]; intros a; [reflexivity|]. cbn [fold_left]. rewrite IH. unfold astep, ystep. destruct (with_yaw f); reflexivity. Qed.
Lemma afold_di f s es : forall a, a_di (fold_left (astep f s) es a) =
  dfold (fun e => prn2sat s (p_prn e)) (fun e => sfold "L" s g_code g_di (p_sigs e)) es (a_di a).
Proof. unfold dfold. induction es as [|e es IH]; intros a; [reflexivity|]. cbn [fold_left]. rewrite IH. unfold astep, ystep. destruct (with_yaw f); reflexivity. Qed.
Lemma afold_wl f s es : forall a, a_wl (fold_left (astep f s) es a) =
  dfold (fun e => prn2sat s (p_prn e)) (fun e => sfold "L" s g_code g_wl (if is_old f then p_sigs e else [])) es (a_wl a).
Proof. unfold dfold. induction es as [|e es IH]; intros a; [reflexivity|]. cbn [fold_left]. rewrite IH. unfold astep, ystep. destruct (with_yaw f); reflexivity. Qed.
Lemma afold_yaw f s es : forall a, a_yaw (fold_left (astep f s) es a) =
  fold_left (fun d e => zset (prn2sat s (p_prn e)) (p_yaw e) d) (if with_yaw f then es else []) (a_yaw a).
Proof.
  induction es as [|e es IH]; intros a; [now destruct (with_yaw f)|]. cbn [fold_left]. rewrite IH. unfold astep, ystep. destruct (with_yaw f); reflexivity.
Qed.
Lemma afold_dyaw f s es : forall a, a_dyaw (fold_left (astep f s) es a) =
  fold_left (fun d e => zset (prn2sat s (p_prn e)) (p_dyaw e) d) (if with_yaw f then es else []) (a_dyaw a).
Proof.
  induction es as [|e es IH]; intros a; [now destruct (with_yaw f)|]. cbn [fold_left]. rewrite IH. unfold astep, ystep. destruct (with_yaw f); reflexivity.
Qed.

Section D.
Context {Q : Type}.
Notation bst := (@bst Q).
Ltac tag1 :=
  unfold tagged; cbn [r_udi r_iodc r_cstat r_t0 r_t0s];
  split; [intros ? [<-|[]]; rewrite !fset_same; split; [reflexivity|]; split; [reflexivity|]; split; [apply cset_in; now left|];
          split; [intros; now apply t0set_in|intros; now apply (t0set_out (fun _ _ : Z => tt))]|];
  split; [intros c' Hc'; rewrite !fset_other by (intros E; apply Hc'; left; congruence); split; [reflexivity|]; split; [reflexivity|];
          split; [rewrite cset_in; split; [intros [->|?]; [exfalso; apply Hc'; now left|assumption]|tauto]|];
          intros; apply t0set_other; intros E; apply Hc'; left; congruence|];
  split; [intros ? [<-|[]]; apply fset_same|intros c' Hc'; apply fset_other; intros E; apply Hc'; left; congruence].

Lemma dec_cbias igs s (st : bst) msg i h es : igs_base s <> None -> head_ok igs s h -> (length es < 64)%nat ->
  Forall (cs_ok igs s) es -> NoDup (map (fun e => prn2sat s (c_prn e)) es) -> At msg i (cbody igs s h es) ->
  exists st', decode_cbias igs s st msg i = Some (st', (i + length (cbody igs s h es))%nat) /\
    ceffect s (msg_time igs (r_week (b_base st)) (r_time (b_base st)) s (g_tow h)) h es st st'.
Proof.
  intros Hs Hh Hn Hok Hd A. unfold cbody in *. apply At_app in A as [A1 A2]. rewrite app_length, Nat.add_assoc.
  unfold decode_cbias. rewrite (dec_head igs (b_base st) s SCB msg i h (length es) Hh Hn A1). cbn [bind h_nsat h_time]. rewrite Nat2Z.id.
  rewrite (dec_cb_sats igs s msg Hs es _ _ Hok A2). cbn [bind]. eexists. split; [reflexivity|].
  unfold ceffect. cbn [b_base b_cb b_satb b_pb b_si b_di b_wl b_yaw b_dyaw]. unfold retag, later. cbn [h_time h_datum h_pid h_sid h_iod h_mi h_udi].
  split; [unfold head_in; cbn; tauto|]. split; [tag1|]. split; [unfold same_corr; cbn; tauto|].
  split; [apply nows_fold; [now left|exact Hd|]; rewrite Forall_forall in *; intros e He; now destruct (Hok e He) as (_ & K & _)|].
  split; [|split; [intros ND; apply addsats_nodup; destruct (timediff _ _ _ >? 0); [constructor|exact ND]|reflexivity]]. intros x. rewrite addsats_in. destruct (timediff _ _ _ >? 0); cbn [In]; intuition discriminate.
Qed.
Definition phead_bits (f : pform) (igs : bool) (s : gnss) (h : hdr) (n : nat) : bits :=
  bitsof (tow_len igs s) (g_tow h) ++ bitsof 4 (g_udi h) ++ [g_mi h] ++ bitsof 4 (g_iod h) ++ bitsof 16 (g_pid h) ++ bitsof 4 (g_sid h) ++
  match f with POld ci mw => bitsof 1 ci ++ bitsof 1 mw | PNew y x => [y] ++ bitsof 4 x end ++ bitsof 6 (Z.of_nat n).
Definition pext (f : pform) : Z := match f with POld _ _ => 0 | PNew _ x => x end.
Lemma dec_phead f igs (st : rst) s msg i h n : head_ok igs s h -> form_ok f -> (n < 64)%nat -> At msg i (phead_bits f igs s h n) ->
  @decode_phead Q (is_old f) igs st s msg i =
    Some (HD (msg_time igs (r_week st) (r_time st) s (g_tow h)) (g_udi h) (g_mi h) None (g_iod h) (g_pid h) (g_sid h) (Z.of_nat n),
          with_yaw f, pext f, (i + length (phead_bits f igs s h n))%nat).
Proof.
  intros (H1 & H2 & H3 & H4 & H5 & H6) Hf Hn A. unfold phead_bits in *.
  do 7 (let K := fresh "A" in apply At_app in A as [K A]). rewrite ?bitsof_length in *. cbn [length] in *.
  assert (T : (if gnss_eqb s GLO && negb igs
                then do tod <- getu msg i 17; Some (rtcm_glo_time 1 (r_time st) tod, i + 17)%nat
                else do tow <- getu msg i 20; Some (gpst2time 1 (r_week st) tow, i + 20)%nat) =
              Some (msg_time igs (r_week st) (r_time st) s (g_tow h), i + tow_len igs s)%nat).
  { destruct igs; [rewrite andb_false_r|]; cbn [negb tow_len] in *.
    - gu. reflexivity.
    - rewrite andb_true_r. unfold rtcm_glo_time, msg_time. destruct (gnss_eqb s GLO) eqn:Es.
      + apply gnss_eqb_eq in Es. subst s. cbn [tow_len] in *. gu. reflexivity.
      + destruct s; try discriminate Es; cbn [tow_len] in *; gu; reflexivity. }
  unfold decode_phead. rewrite T. cbn [bind]. clear T. gu. gb. do 3 gu.
  set (j := (i + tow_len igs s + 5 + 24)%nat).
  assert (Y : (if is_old f then do _ <- getu msg j 1; do _ <- getu msg (j + 1) 1; Some (true, 0, (j + 2)%nat)
               else do y <- getb msg j 1; do x <- getu msg (j + 1) 4; Some (y, x, (j + 5)%nat)) =
              Some (with_yaw f, pext f, (j + length (match f with POld ci mw => bitsof 1 ci ++ bitsof 1 mw | PNew y x => [y] ++ bitsof 4 x end))%nat)).
  { subst j. destruct f as [ci mw|y x]; cbn [is_old with_yaw pext form_ok] in *; apply At_app in A6 as [A6 A7]; rewrite ?bitsof_length in *.
    - destruct Hf. do 2 gu. rewrite app_length, !bitsof_length. reflexivity.
    - cbn [length] in *. gb. gu. reflexivity. }
  rewrite Y. cbn [bind]. clear Y. subst j. gu. f_equal. f_equal. rewrite !app_length, !bitsof_length. cbn [length]. lia.
Qed.
Lemma dec_pbias f igs s (st : bst) msg i h es : igs_base s <> None -> head_ok igs s h -> form_ok f -> (length es < 64)%nat -> aligned st ->
  Forall (ps_ok igs s) es -> NoDup (map (fun e => prn2sat s (p_prn e)) es) -> At msg i (pbody f igs s h es) ->
  exists st', decode_pbias (is_old f) igs s st msg i = Some (st', (i + length (pbody f igs s h es))%nat) /\
    peffect f s (msg_time igs (r_week (b_base st)) (r_time (b_base st)) s (g_tow h)) h es st st' /\ aligned st'.
Proof.
  intros Hs Hh Hf Hn Hal Hok Hd A.
  assert (B : pbody f igs s h es = phead_bits f igs s h (length es) ++ flat_map (ps_bits f igs s) es) by (unfold pbody, phead_bits; now rewrite <- !app_assoc).
  rewrite B in *. apply At_app in A as [A1 A2]. rewrite app_length, Nat.add_assoc.
  unfold decode_pbias. rewrite (dec_phead f igs (b_base st) s msg i h (length es) Hh Hf Hn A1). cbn [bind h_nsat h_time]. rewrite Nat2Z.id.
  unfold later. set (new := timediff 1 _ _ >? 0).
  set (a0 := if new then _ else _). assert (Ha : al a0) by (subst a0; destruct new; [intros x; cbn; tauto|exact Hal]).
  rewrite (dec_pb_sats f igs s msg Hs es _ _ Ha Hok A2). cbn [bind]. eexists. split; [reflexivity|].
  assert (Hsig : Forall (fun e => codes_ok s (map g_code (p_sigs e))) es) by (rewrite Forall_forall in *; intros e He; now destruct (Hok e He) as (_ & _ & K & _)).
  split.
  - unfold peffect. cbn [b_base b_cb b_satb b_pb b_si b_di b_wl b_yaw b_dyaw]. unfold retag. cbn [h_time h_datum h_pid h_sid h_iod h_mi h_udi]. fold new.
    split; [unfold head_in; cbn; tauto|]. split; [tag1|]. split; [unfold same_corr; cbn; tauto|].
    rewrite afold_pb, afold_si, afold_di, afold_wl, afold_yaw, afold_dyaw.
    replace (a_pb a0) with (if new then [] else b_pb st) by (subst a0; now destruct new).
    replace (a_si a0) with (if new then [] else b_si st) by (subst a0; now destruct new).
    replace (a_di a0) with (if new then [] else b_di st) by (subst a0; now destruct new).
    replace (a_wl a0) with (if new then [] else b_wl st) by (subst a0; now destruct new).
    replace (a_yaw a0) with (b_yaw st) by (subst a0; now destruct new).
    replace (a_dyaw a0) with (b_dyaw st) by (subst a0; now destruct new).
    split; [apply nows_fold; auto|]. split; [apply nows_fold; auto|]. split; [apply nows_fold; auto|].
    split; [apply (nows_fold "L" s p_prn (fun e => if is_old f then p_sigs e else [])); auto; destruct (is_old f); [exact Hsig|];
      apply Forall_forall; intros; split; constructor|].
    split; [apply holdz_fold; destruct (with_yaw f); [exact Hd|constructor]|].
    split; [apply holdz_fold; destruct (with_yaw f); [exact Hd|constructor]|].
    split; [|split; [intros ND; apply addsats_nodup; destruct new; [constructor|exact ND]|reflexivity]]. intros x. rewrite addsats_in. destruct new; cbn [In]; intuition discriminate.
  - unfold aligned. cbn [b_pb b_si b_di b_wl]. clear - Ha. clearbody a0. revert a0 Ha. induction es as [|e es IH]; intros a Ha; [exact Ha|]. cbn [fold_left]. apply IH. unfold astep. apply al_put, al_y, Ha.
Qed.

(* ---------- whole messages ---------- *)
Lemma start_len igs s num k w : start s num k igs w -> length w = if igs then 23%nat else 12%nat.
Proof. intros []; cbn; rewrite ?app_length, ?bitsof_length; reflexivity. Qed.
Lemma carries_cb mt s : carries mt s SCB -> 0 <= mt < 4096 /\ dispatch mt = KSsr SCB /\ get_ssr_sys None mt = Some s /\ igs_base s <> None.
Proof.
  intros [(b & o & Hb & Ho & ->)|[(o & Ho & -> & ->)|(o & k & Ho & -> & [[-> ->]|[[-> ->]|[-> ->]]])]]; injection Ho as <-;
    [destruct s; try discriminate Hb; injection Hb as <-|..]; (split; [lia|split; [|split]; [vm_compute; reflexivity|vm_compute; reflexivity|discriminate]]).
Qed.
Lemma pnum f mt s : pnumber f s = Some mt -> 0 <= mt < 4096 /\ dispatch mt = KSsr SPB /\ get_ssr_sys None mt = Some s /\ (1000 <? mt) = is_old f /\ igs_base s <> None.
Proof.
  unfold pnumber. destruct f; cbn [is_old]; destruct s; try discriminate; intros H; injection H as <-;
    (split; [lia|split; [|split; [|split]]; [vm_compute; reflexivity|vm_compute; reflexivity|reflexivity|discriminate]]).
Qed.
Lemma igs_num s b k : igs_base s = Some b -> 0 <= k < 10 -> 0 <= b + k < 256 /\
  zassoc [(2, GPS); (4, GLO); (6, GAL); (8, QZS); (10, BDS); (12, SBS)] ((b + k) / 10) = Some s /\ (b + k) mod 10 = k.
Proof.
  intros H K. assert (X : b = 20 \/ b = 40 \/ b = 60 \/ b = 80 \/ b = 100 \/ b = 120) by (destruct s; try discriminate H; injection H as <-; tauto).
  split; [lia|]. assert (D : (b + k) / 10 = b / 10) by (clear - X K; lia). rewrite D. split; [|clear - X K; lia].
  destruct s; try discriminate H; injection H as <-; reflexivity.
Qed.
Lemma dec_code igs s w (st : bst) msg h es : start s (fun mt => carries mt s SCB) 5 igs w -> head_ok igs s h -> (length es < 64)%nat ->
  Forall (cs_ok igs s) es -> NoDup (map (fun e => prn2sat s (c_prn e)) es) -> At msg 24 (w ++ cbody igs s h es) ->
  exists st', decode_bias st msg = Some (st', (24 + length (w ++ cbody igs s h es))%nat) /\
    ceffect s (msg_time igs (r_week (b_base st)) (r_time (b_base st)) s (g_tow h)) h es st st'.
Proof.
  intros Hw Hh Hn Hok Hd A. pose proof (start_len _ _ _ _ _ Hw) as L. apply At_app in A as [A1 A2]. rewrite app_length, L. rewrite L in A2.
  destruct Hw as [mt Hm|b ver Hb Hv].
  - destruct (carries_cb mt s Hm) as (M & D & G & I). unfold decode_bias. rewrite (getu_bits msg 24 12 mt A1) by (cbn; lia). cbn [bind]. rewrite D, G. cbn [bind].
    exact (dec_cbias false s st msg 36 h es I Hh Hn Hok Hd A2).
  - apply At_app in A1 as [A0 A1]. apply At_app in A1 as [A3 A1]. rewrite !bitsof_length in *. destruct (igs_num s b 5 Hb) as (M & S1 & S2); [lia|].
    unfold decode_bias. rewrite (getu_bits msg 24 12 4076) by (auto; cbn; lia). cbn [bind]. change (dispatch 4076) with KIgs. cbv iota.
    rewrite (getu_bits msg 39 8 (b + 5)) by (auto; cbn; lia). cbn [bind]. rewrite S1. cbn [bind]. rewrite S2. change (5 =? 5) with true. cbv iota.
    apply (dec_cbias true s st msg 47 h es); auto. congruence.
Qed.
Lemma dec_phase f igs s w (st : bst) msg h es : start s (fun mt => pnumber f s = Some mt) 6 igs w -> (igs = true -> is_old f = true) ->
  head_ok igs s h -> form_ok f -> (length es < 64)%nat -> aligned st ->
  Forall (ps_ok igs s) es -> NoDup (map (fun e => prn2sat s (p_prn e)) es) -> At msg 24 (w ++ pbody f igs s h es) ->
  exists st', decode_bias st msg = Some (st', (24 + length (w ++ pbody f igs s h es))%nat) /\
    peffect f s (msg_time igs (r_week (b_base st)) (r_time (b_base st)) s (g_tow h)) h es st st' /\ aligned st'.
Proof.
  intros Hw Hi Hh Hf Hn Ha Hok Hd A. pose proof (start_len _ _ _ _ _ Hw) as L. apply At_app in A as [A1 A2]. rewrite app_length, L. rewrite L in A2.
  destruct Hw as [mt Hm|b ver Hb Hv].
  - destruct (pnum f mt s Hm) as (M & D & G & O & I). unfold decode_bias. rewrite (getu_bits msg 24 12 mt A1) by (cbn; lia). cbn [bind]. rewrite D, G. cbn [bind]. rewrite O.
    exact (dec_pbias f false s st msg 36 h es I Hh Hf Hn Ha Hok Hd A2).
  - apply At_app in A1 as [A0 A1]. apply At_app in A1 as [A3 A1]. rewrite !bitsof_length in *. destruct (igs_num s b 6 Hb) as (M & S1 & S2); [lia|].
    unfold decode_bias. rewrite (getu_bits msg 24 12 4076) by (auto; cbn; lia). cbn [bind]. change (dispatch 4076) with KIgs. cbv iota.
    rewrite (getu_bits msg 39 8 (b + 6)) by (auto; cbn; lia). cbn [bind]. rewrite S1. cbn [bind]. rewrite S2. change (6 =? 5) with false. change (6 =? 6) with true. cbv iota.
    assert (I : igs_base s <> None) by congruence. pose proof (dec_pbias f true s st msg 47 h es I Hh Hf Hn Ha Hok Hd A2) as D. rewrite (Hi eq_refl) in D. exact D.
Qed.
End D.

(* ---------- writing ---------- *)
Definition mk_chk (s : gnss) (t : string) (c : Z) : bool :=
  negb (good s c) || (gnss_eqb s QZS && (c =? 0)) || match mk2 s (key t s c) with Some r => match rsig2code r with Some x => x =? c | None => false end | None => true end.
Lemma made_code t s c r : t = "C"%string \/ t = "L"%string -> cok s c -> made t s c r -> rsig2code r = Some c.
Proof.
  intros Ht Hc (Hm & Hq).
  assert (F : forallb (mk_chk s t) codes = true) by (destruct Ht as [-> | ->]; destruct s; vm_compute; reflexivity).
  rewrite forallb_forall in F. specialize (F c (codes_in _ (sname_range _ _ (proj1 Hc)))). unfold mk_chk in F. rewrite (good_ok _ _ Hc), Hm in F.
  assert (Z : gnss_eqb s QZS && (c =? 0) = false).
  { destruct (gnss_eqb s QZS) eqn:E; [|reflexivity]. apply gnss_eqb_eq in E. destruct (c =? 0) eqn:E2; [|reflexivity]. exfalso. apply Hq. split; [exact E|lia]. }
  rewrite Z in F. cbn in F. destruct (rsig2code r) as [x|]; [|discriminate]. f_equal. lia.
Qed.
Definition four (s : gnss) : Prop := s = GPS \/ s = GAL \/ s = BDS \/ s = QZS.
Ltac pu := first [ rewrite putu_app by (rewrite ?app_length, ?bitsof_length, ?field_length by lia; cbn [length]; lia)
                 | rewrite puts_app by first [ lia | assumption | rewrite ?app_length, ?bitsof_length, ?field_length by lia; cbn [length]; lia ] ]; cbn [bind].
Lemma puts_appv msg i w j n v : (1 <= n)%nat -> (i + length w + n <= length msg)%nat -> fits n (Some v) -> j = (i + length w)%nat ->
  puts (splice msg i w) j n v = Some (splice msg i (w ++ field n (Some v))).
Proof. intros. now rewrite <- (puts_app msg i w j n (Some v)). Qed.
Lemma enc_psat s prn msg i w j : four s -> psat_ok false s prn ->
  (i + length w + slot_len false s <= length msg)%nat -> j = (i + length w)%nat ->
  encode_sat (splice msg i w) j (prn2sat s prn) = Some (splice msg i (w ++ bitsof (slot_len false s) (slot s prn)), (j + slot_len false s)%nat).
Proof.
  intros Hs (Ho & Hb) Hl ->. assert (B : 0 <= slot s prn) by (destruct s; cbn in *; lia).
  unfold encode_sat. destruct (sat2prn_prn2sat s prn Ho) as [-> _].
  destruct Hs as [-> | [-> | [-> | ->]]]; cbn [slot_len slot] in *; pu; reflexivity.
Qed.
Lemma enc_bhead e s c msg i w j : head_ok false s (ehead e c) -> (i + length w + length (bitsof (tow_len false s) (eb_tow e)) + 29 <= length msg)%nat -> j = (i + length w)%nat ->
  encode_bhead e s c (splice msg i w) j =
    Some (splice msg i (w ++ bitsof (tow_len false s) (eb_tow e) ++ bitsof 4 (eb_udi e c) ++ [eb_mi e] ++ bitsof 4 (eb_iod e) ++ bitsof 16 (eb_pid e) ++ bitsof 4 (eb_sid e)),
          (j + tow_len false s + 29)%nat).
Proof.
  intros (H1 & H2 & H3 & H4 & H5 & H6) Hl ->. unfold encode_bhead. cbn [ehead g_tow g_udi g_mi g_datum g_iod g_pid g_sid] in *.
  change (match s with GLO => 17%nat | _ => 20%nat end) with (tow_len false s). rewrite !bitsof_length in Hl.
  assert (Bm : [eb_mi e] = bitsof 1 (Z.b2z (eb_mi e))) by (destruct (eb_mi e); reflexivity). rewrite Bm.
  assert (0 <= Z.b2z (eb_mi e) < 2) by (destruct (eb_mi e); cbn; lia).
  pu. pu. pu. pu. pu. pu. rewrite <- !app_assoc. f_equal. f_equal. lia.
Qed.
Lemma F2_len {A B} (R : A -> B -> Prop) x y : Forall2 R x y -> length x = length y.
Proof. induction 1; cbn; congruence. Qed.
Lemma cb_len sigs : length (flat_map (fun g : Z * option Z => bitsof 5 (fst g) ++ field 14 (snd g)) sigs) = (19 * length sigs)%nat.
Proof. induction sigs as [|g l IH]; [reflexivity|]. cbn [flat_map length]. rewrite !app_length, IH, bitsof_length, field_length by lia. lia. Qed.
Lemma enc_cb_sigs s : forall sigs x msg i w j, Forall (fun g => cok s (fst g)) sigs -> Forall (fun g => fits 14 (snd g)) sigs ->
  Forall2 (fun a g => made "C" s (fst g) (fst a) /\ snd a = snd g /\ snd g <> None) x sigs ->
  (i + length w + 19 * length sigs <= length msg)%nat -> j = (i + length w)%nat ->
  encode_cb_sigs x (splice msg i w) j =
    Some (splice msg i (w ++ flat_map (fun g => bitsof 5 (fst g) ++ field 14 (snd g)) sigs), (j + 19 * length sigs)%nat).
Proof.
  induction sigs as [|[c v] sigs IH]; intros x msg i w j H1 H2 H3 Hl ->; inversion H3 as [|[r v'] ? ? ? (M & E & N) H3']; subst.
  - cbn. now rewrite app_nil_r, Nat.add_0_r.
  - inversion H1; subst. inversion H2; subst. cbn [fst snd length] in *. subst v'. destruct v as [v|]; [|congruence]. pose proof (sname_range _ _ (proj1 H4)).
    cbn [encode_cb_sigs bind]. rewrite (made_code "C" s c r) by auto. cbn [bind]. pu. rewrite puts_appv by (rewrite ?app_length, ?bitsof_length; auto; lia). cbn [bind].
    rewrite (IH _ _ _ _ _ H5 H7 H3') by (rewrite ?app_length, ?bitsof_length, ?field_length by lia; lia). cbn [flat_map fst snd]. rewrite <- !app_assoc. f_equal. f_equal. lia.
Qed.
Lemma cs_len igs s e : length (cs_bits igs s e) = (slot_len igs s + 5 + 19 * length (c_sigs e))%nat.
Proof. unfold cs_bits. rewrite !app_length, !bitsof_length, cb_len. lia. Qed.
Lemma enc_cb_sats s : four s -> forall es l msg i w j, Forall (cs_ok false s) es ->
  Forall2 (fun x e => fst x = prn2sat s (c_prn e) /\
    Forall2 (fun a g => made "C" s (fst g) (fst a) /\ snd a = snd g /\ snd g <> None) (snd x) (c_sigs e)) l es ->
  (i + length w + length (flat_map (cs_bits false s) es) <= length msg)%nat -> j = (i + length w)%nat ->
  encode_cb_sats l (splice msg i w) j = Some (splice msg i (w ++ flat_map (cs_bits false s) es), (j + length (flat_map (cs_bits false s) es))%nat).
Proof.
  intros Hs. induction es as [|e es IH]; intros l msg i w j H1 H2 Hl ->; inversion H2 as [|[sat x] ? ? ? (E & F) H2']; subst.
  - cbn. now rewrite app_nil_r, Nat.add_0_r.
  - inversion H1 as [|? ? (P & C & Fi) H1']; subst. cbn [fst snd] in *. subst sat. cbn [flat_map] in *. rewrite app_length, cs_len in Hl.
    assert (Lx : length x = length (c_sigs e)) by (eapply F2_len; eauto).
    assert (I : igs_base s <> None) by (destruct Hs as [-> | [-> | [-> | ->]]]; discriminate).
    destruct (sigs_len s _ I C) as (n & _ & _ & B). rewrite map_length in B.
    cbn [encode_cb_sats]. rewrite enc_psat by (auto; lia). cbn [bind]. rewrite Lx. pu.
    rewrite (enc_cb_sigs s (c_sigs e)); [|destruct C as [_ C]; rewrite Forall_forall in *; intros g Hg; apply C; now apply in_map|exact Fi|exact F|
      rewrite !app_length, !bitsof_length; lia|rewrite !app_length, !bitsof_length; lia]. cbn [bind].
    rewrite IH; auto; [|rewrite !app_length, !bitsof_length, cb_len; lia|rewrite !app_length, !bitsof_length, cb_len; lia].
    rewrite (app_length (cs_bits false s e)), cs_len. f_equal. f_equal; [f_equal; unfold cs_bits at 2; rewrite <- !app_assoc; reflexivity|lia].
Qed.
Definition cnums (mt : Z) (s : gnss) : Prop := (mt = 1059 /\ s = GPS) \/ (mt = 68 /\ s = GAL) \/ (mt = 69 /\ s = BDS) \/ (mt = 70 /\ s = QZS).
Definition pnums (mt : Z) (s : gnss) : Prop := (mt = 85 /\ s = GPS) \/ (mt = 87 /\ s = GAL) \/ (mt = 88 /\ s = BDS) \/ (mt = 89 /\ s = QZS).
Lemma enc_code e s es msg : cnums (eb_mt e) s -> length (listed s (eb_sat_n e)) = length es -> (length es < 64)%nat ->
  head_ok false s (ehead e SCB) -> Forall (cs_ok false s) es -> cgiven s (eb_cb e) es ->
  (24 + length (bitsof 12 (eb_mt e) ++ cbody false s (ehead e SCB) es) <= length msg)%nat ->
  encode_bias e msg = Some (splice msg 24 (bitsof 12 (eb_mt e) ++ cbody false s (ehead e SCB) es),
                            (24 + length (bitsof 12 (eb_mt e) ++ cbody false s (ehead e SCB) es))%nat).
Proof.
  intros Hm Hl Hn Hh Hok Hg Hlen.
  assert (X : edispatch (eb_mt e) = KSsr SCB /\ get_ssr_sys None (eb_mt e) = Some s /\ 0 <= eb_mt e < 4096 /\ four s).
  { unfold four. destruct Hm as [[-> ->]|[[-> ->]|[[-> ->]|[-> ->]]]]; (split; [vm_compute; reflexivity|split; [vm_compute; reflexivity|split; [lia|tauto]]]). }
  destruct X as (D1 & D2 & M & Hs). unfold encode_bias. rewrite D1, D2. unfold cbody, head_bits in *. cbn [has_datum app] in *. cbn [ehead g_tow g_udi g_mi g_datum g_iod g_pid g_sid] in *.
  rewrite <- (splice_nil msg 24) at 1. rewrite !app_length, !bitsof_length in Hlen. cbn [length] in Hlen. rewrite !app_length, !bitsof_length in Hlen.
  rewrite putu_app; [|cbn [length]; lia|cbn; lia|reflexivity]. cbn [bind app].
  unfold encode_cbias. rewrite enc_bhead by (auto; rewrite ?bitsof_length; lia). cbn [bind].
  change (of_sys s (eb_sat_n e)) with (listed s (eb_sat_n e)). rewrite Hl.
  rewrite putu_app; [|rewrite !app_length, !bitsof_length; cbn [length]; lia|cbn; lia|rewrite !app_length, !bitsof_length; cbn [length]; lia]. cbn [bind].
  rewrite (enc_cb_sats s Hs es); auto; [|rewrite !app_length, !bitsof_length; cbn [length]; lia|rewrite !app_length, !bitsof_length; cbn [length]; lia].
  f_equal. f_equal; [f_equal; rewrite <- !app_assoc; reflexivity|]. rewrite !app_length, !bitsof_length. cbn [length]. rewrite !app_length, !bitsof_length. lia.
Qed.

Lemma pgs_len f sigs : is_old f = false -> length (flat_map (pg_bits f) sigs) = (30 * length sigs)%nat.
Proof. intros O. induction sigs as [|g l IH]; [reflexivity|]. cbn [flat_map length]. rewrite app_length, IH, pg_len, O. lia. Qed.
Lemma enc_pb_sigs y ex s : forall sigs x msg i w j, Forall (fun g => cok s (g_code g)) sigs -> Forall pg_ok sigs ->
  Forall2 (fun a g => made "L" s (g_code g) (q_sig a) /\ q_pb a = g_pb g /\ q_di a = g_di g /\ negb (q_si a =? 0) = g_si g) x sigs ->
  (i + length w + 30 * length sigs <= length msg)%nat -> j = (i + length w)%nat ->
  encode_pb_sigs x (splice msg i w) j = Some (splice msg i (w ++ flat_map (pg_bits (PNew y ex)) sigs), (j + 30 * length sigs)%nat).
Proof.
  induction sigs as [|g sigs IH]; intros x msg i w j H1 H2 H3 Hl ->; inversion H3 as [|a ? ? ? (M & E1 & E2 & E3) H3']; subst.
  - cbn. now rewrite app_nil_r, Nat.add_0_r.
  - inversion H1; subst. inversion H2 as [|? ? (W & D & P) H2']; subst. cbn [length] in *. pose proof (sname_range _ _ (proj1 H4)).
    cbn [encode_pb_sigs]. rewrite (made_code "L" s (g_code g) (q_sig a)) by auto. cbn [bind]. rewrite E1, E2.
    assert (Bs : [g_si g] = bitsof 1 (if q_si a =? 0 then 0 else 1)) by (rewrite <- E3; destruct (q_si a =? 0); reflexivity).
    assert (0 <= (if q_si a =? 0 then 0 else 1) < 2) by (destruct (q_si a =? 0); lia).
    pu. pu. pu. pu.
    rewrite (IH _ _ _ _ _ H5 H2' H3') by (rewrite ?app_length, ?bitsof_length, ?field_length by lia; lia).
    cbn [flat_map]. unfold pg_bits at 2. cbn [is_old app]. change (g_si g :: ?r) with ([g_si g] ++ r). rewrite <- !app_assoc. cbn [app] in *.
    f_equal. f_equal; [|lia]. f_equal. f_equal. f_equal. rewrite <- Bs. reflexivity.
Qed.
Lemma ps_len y ex s e : length (ps_bits (PNew y ex) false s e) = (slot_len false s + 5 + (if y then 17 else 0) + 30 * length (p_sigs e))%nat.
Proof. unfold ps_bits. rewrite !app_length, !bitsof_length, (pgs_len (PNew y ex)) by reflexivity. cbn [with_yaw]. destruct y; cbn [length]; rewrite ?app_length, ?bitsof_length, ?field_length by lia; lia. Qed.
Lemma enc_pb_sats eb (y : bool) ex s : four s -> forall es l msg i w j, Forall (ps_ok false s) es ->
  Forall2 (fun x e => fst x = prn2sat s (p_prn e) /\
    Forall2 (fun a g => made "L" s (g_code g) (q_sig a) /\ q_pb a = g_pb g /\ q_di a = g_di g /\ negb (q_si a =? 0) = g_si g) (snd x) (p_sigs e) /\
    (if y then zget (fst x) (eb_yaw eb) = Some (p_yaw e) /\ zget (fst x) (eb_dyaw eb) = Some (p_dyaw e) /\ p_dyaw e <> None
     else zget (fst x) (eb_yaw eb) = None)) l es ->
  (i + length w + length (flat_map (ps_bits (PNew y ex) false s) es) <= length msg)%nat -> j = (i + length w)%nat ->
  encode_pb_sats eb l (splice msg i w) j =
    Some (splice msg i (w ++ flat_map (ps_bits (PNew y ex) false s) es), (j + length (flat_map (ps_bits (PNew y ex) false s) es))%nat).
Proof.
  intros Hs. induction es as [|e es IH]; intros l msg i w j H1 H2 Hl ->; inversion H2 as [|[sat x] ? ? ? (E & F & Y) H2']; subst.
  - cbn. now rewrite app_nil_r, Nat.add_0_r.
  - inversion H1 as [|? ? (P & (Y1 & Y2) & C & Fi) H1']; subst. cbn [fst snd] in *. subst sat. cbn [flat_map] in *. rewrite app_length, ps_len in Hl.
    assert (Lx : length x = length (p_sigs e)) by (eapply F2_len; eauto).
    assert (I : igs_base s <> None) by (destruct Hs as [-> | [-> | [-> | ->]]]; discriminate).
    destruct (sigs_len s _ I C) as (n & _ & _ & B). rewrite map_length in B.
    assert (C' : Forall (fun g => cok s (g_code g)) (p_sigs e)) by (destruct C as [_ C]; rewrite Forall_forall in *; intros g Hg; apply C; now apply in_map).
    cbn [encode_pb_sats]. rewrite enc_psat by (auto; lia). cbn [bind]. rewrite Lx. pu. destruct y.
    + destruct Y as (Z1 & Z2 & Z3). rewrite Z1, Z2. cbn [bind]. destruct (p_dyaw e) as [dy|] eqn:Dy; [|congruence]. cbn [bind]. pu.
      rewrite puts_appv by (rewrite ?app_length, ?bitsof_length; auto; lia). cbn [bind].
      rewrite (enc_pb_sigs true ex s (p_sigs e)); [|exact C'|exact Fi|exact F|
        rewrite !app_length, !bitsof_length, ?field_length by lia; lia|rewrite !app_length, !bitsof_length, ?field_length by lia; lia]. cbn [bind].
      rewrite IH; auto; [|rewrite !app_length, !bitsof_length, (pgs_len (PNew true ex)), ?field_length by (lia || reflexivity); lia..].
      rewrite (app_length (ps_bits (PNew true ex) false s e)), ps_len. f_equal. f_equal; [f_equal; unfold ps_bits at 2; cbn [with_yaw]; rewrite Dy, <- !app_assoc; reflexivity|lia].
    + rewrite Y. cbn [bind].
      rewrite (enc_pb_sigs false ex s (p_sigs e)); [|exact C'|exact Fi|exact F|
        rewrite !app_length, !bitsof_length, ?field_length by lia; lia|rewrite !app_length, !bitsof_length, ?field_length by lia; lia]. cbn [bind].
      rewrite IH; auto; [|rewrite !app_length, !bitsof_length, (pgs_len (PNew false ex)), ?field_length by (lia || reflexivity); lia..].
      rewrite (app_length (ps_bits (PNew false ex) false s e)), ps_len. f_equal. f_equal; [f_equal; unfold ps_bits at 2; cbn [with_yaw app]; rewrite <- !app_assoc; reflexivity|lia].
Qed.
Lemma enc_phase e s es msg : pnums (eb_mt e) s -> (length es < 64)%nat -> head_ok false s (ehead e SPB) -> 0 <= eb_iexpb e < 16 ->
  Forall (ps_ok false s) es -> pgiven s (eb_iyaw e) (eb_yaw e) (eb_dyaw e) (eb_pb e) es ->
  (24 + length (bitsof 12 (eb_mt e) ++ pbody (PNew (eb_iyaw e) (eb_iexpb e)) false s (ehead e SPB) es) <= length msg)%nat ->
  encode_bias e msg = Some (splice msg 24 (bitsof 12 (eb_mt e) ++ pbody (PNew (eb_iyaw e) (eb_iexpb e)) false s (ehead e SPB) es),
                            (24 + length (bitsof 12 (eb_mt e) ++ pbody (PNew (eb_iyaw e) (eb_iexpb e)) false s (ehead e SPB) es))%nat).
Proof.
  intros Hm Hn Hh Hx Hok Hg Hlen.
  assert (X : edispatch (eb_mt e) = KSsr SPB /\ get_ssr_sys None (eb_mt e) = Some s /\ 0 <= eb_mt e < 4096 /\ four s).
  { unfold four. destruct Hm as [[-> ->]|[[-> ->]|[[-> ->]|[-> ->]]]]; (split; [vm_compute; reflexivity|split; [vm_compute; reflexivity|split; [lia|tauto]]]). }
  destruct X as (D1 & D2 & M & Hs). unfold encode_bias. rewrite D1, D2. unfold pbody in *. cbn [ehead g_tow g_udi g_mi g_datum g_iod g_pid g_sid] in *.
  rewrite <- (splice_nil msg 24) at 1. rewrite !app_length, !bitsof_length in Hlen. cbn [length] in Hlen. rewrite ?app_length, ?bitsof_length in Hlen. cbn [length] in Hlen.
  rewrite putu_app; [|cbn [length]; lia|cbn; lia|reflexivity]. cbn [bind app].
  unfold encode_pbias. rewrite enc_bhead by (auto; rewrite ?bitsof_length; lia). cbn [bind].
  assert (Ln : length (own s (eb_pb e)) = length es) by (exact (F2_len _ _ _ Hg)). rewrite Ln.
  assert (By : [eb_iyaw e] = bitsof 1 (Z.b2z (eb_iyaw e))) by (destruct (eb_iyaw e); reflexivity).
  assert (0 <= Z.b2z (eb_iyaw e) < 2) by (destruct (eb_iyaw e); cbn; lia).
  do 3 (rewrite putu_app; [|rewrite !app_length, !bitsof_length; cbn [length]; lia|cbn; lia|rewrite !app_length, !bitsof_length; cbn [length]; lia]; cbn [bind]).
  rewrite (enc_pb_sats e (eb_iyaw e) (eb_iexpb e) s Hs es); auto; [|rewrite !app_length, !bitsof_length; cbn [length]; lia|rewrite !app_length, !bitsof_length; cbn [length]; lia].
  f_equal. f_equal; [f_equal; rewrite <- By, <- !app_assoc; reflexivity|]. rewrite !app_length, !bitsof_length. cbn [length]. rewrite ?app_length, ?bitsof_length. cbn [length]. rewrite ?app_length, ?bitsof_length. lia.
Qed.
