(** The state space decoder reads, and the encoder writes, the messages of RtcmSsrSpec.v. *)
From Verif Require Import SatModel SatSpec SatProofs CssrFacts RtcmSsr RtcmFrameSpec RtcmFrameProofs RtcmSsrSpec Base BaseFacts.
From Coq Require Import ZifyBool ZifyNat.
Open Scope Z_scope.

Lemma field_ival n y : (1 <= n)%nat -> field n y = bitsof n (ival y n).
Proof.
  intros Hn. destruct y as [v|]; [reflexivity|]. unfold field, ival.
  destruct n as [|m]; [lia|]. replace (S m - 1)%nat with m by lia. replace (Z.of_nat (S m) - 1) with (Z.of_nat m) by lia.
  apply bval_inj; [cbn; now rewrite repeat_length, bitsof_length|].
  rewrite bitsof_bval_mod. cbn [bval]. rewrite repeat_length.
  assert (R : bval (repeat false m) = 0).
  { clear. induction m as [|m IH]; [reflexivity|]. cbn [repeat bval]. rewrite IH. cbn. lia. }
  rewrite R. pose proof (pow2_pos m). rewrite pow2_S.
  rewrite <- (Z.mod_unique_pos (- 2 ^ Z.of_nat m) (2 * 2 ^ Z.of_nat m) (-1) (2 ^ Z.of_nat m)); unfold Z.b2z; lia.
Qed.
Lemma field_length n y : (1 <= n)%nat -> length (field n y) = n.
Proof. intros H. rewrite field_ival by exact H. apply bitsof_length. Qed.
Lemma ival_bound n y : (1 <= n)%nat -> fits n y -> - 2 ^ (Z.of_nat n - 1) <= ival y n < 2 ^ (Z.of_nat n - 1).
Proof.
  intros Hn. assert (0 < 2 ^ (Z.of_nat n - 1)) by (apply Z.pow_pos_nonneg; lia).
  destruct y as [v|]; unfold fits, ival; lia.
Qed.
Lemma sval_ival n y : fits n y -> sval (ival y n) n = y.
Proof.
  destruct y as [v|]; unfold fits, ival, sval; intros H.
  - now replace (v =? _) with false by lia.
  - now rewrite Z.eqb_refl.
Qed.
Lemma gets_field msg i n y : (1 <= n)%nat -> fits n y -> At msg i (field n y) -> gets msg i n = Some (ival y n).
Proof.
  intros Hn Hf A. rewrite field_ival in A by exact Hn. apply gets_bits; auto. now apply ival_bound.
Qed.

Lemma slot_bound igs s c e : sat_ok igs s c e -> 0 <= slot s (n_prn e) < 2 ^ Z.of_nat (slot_len igs s).
Proof. intros (H1 & H2 & _). split; [|exact H2]. destruct s; cbn in *; lia. Qed.
Lemma slot_sat s prn : svid2sat s (slot s prn) = prn2sat s prn.
Proof. unfold svid2sat, slot. destruct s; f_equal; lia. Qed.

Ltac poslen := rewrite ?app_length, ?bitsof_length, ?field_length in * by lia; cbn [length] in *.
Ltac gu :=
  match goal with
  | A : At ?m _ (bitsof ?n ?v) |- context [getu ?m ?j ?n] =>
      rewrite (getu_bits m j n v) by first [ (eapply At_pos; [exact A|poslen; lia]) | assumption | lia ]
  | A : At ?m _ (field ?n ?y) |- context [gets ?m ?j ?n] =>
      rewrite (gets_field m j n y) by first [ (eapply At_pos; [exact A|poslen; lia]) | assumption | lia ]
  end; cbn [bind].

Section S.
Context {Q : Type} (q_of : Z -> Z -> Q).
Notation rst := (@rst Q).
Notation est := (@est Q).
Notation effect := (effect q_of).

Lemma dec_head igs (st : rst) s c msg i h n : head_ok igs s h -> (n < 64)%nat ->
  At msg i (head_bits igs s c h n) ->
  decode_head igs st s c msg i =
    Some (HD (msg_time igs (r_week st) (r_time st) s (g_tow h)) (g_udi h) (g_mi h)
             (if has_datum c then Some (g_datum h) else None) (g_iod h) (g_pid h) (g_sid h) (Z.of_nat n),
          (i + length (head_bits igs s c h n))%nat).
Proof.
  intros (H1 & H2 & H3 & H4 & H5 & H6) Hn A. unfold head_bits in *. at_split.
  assert (B : g_mi h = negb (bval [g_mi h] =? 0)) by (destruct (g_mi h); reflexivity).
  assert (T : (if gnss_eqb s GLO && negb igs
                then do tod <- getu msg i 17; Some (rtcm_glo_time 1 (r_time st) tod, i + 17)%nat
                else do tow <- getu msg i 20; Some (gpst2time 1 (r_week st) tow, i + 20)%nat) =
              Some (msg_time igs (r_week st) (r_time st) s (g_tow h), i + tow_len igs s)%nat).
  { destruct igs; [rewrite andb_false_r|]; cbn [negb tow_len] in *.
    - gu. reflexivity.
    - rewrite andb_true_r. unfold rtcm_glo_time, msg_time. destruct (gnss_eqb s GLO) eqn:Es.
      + apply gnss_eqb_eq in Es. subst s. cbn [tow_len] in *. gu. reflexivity.
      + destruct s; try discriminate Es; cbn [tow_len] in *; gu; reflexivity. }
  unfold decode_head. rewrite T. cbn [bind]. clear T.
  gu. unfold getb.
  assert (G : getu msg (i + tow_len igs s + 4) 1 = Some (bval [g_mi h])).
  { change 1%nat with (length [g_mi h]). apply getu_at. eapply At_pos; [exact A2|]. poslen. lia. }
  rewrite G. cbn [bind]. rewrite <- B.
  assert (Lm : length [g_mi h] = 1%nat) by reflexivity. rewrite Lm in *.
  assert (D : match c with
              | SORB | SOC => do d <- getu msg (i + tow_len igs s + 5) 1; Some (Some d, (i + tow_len igs s + 5 + 1)%nat)
              | _ => Some (None, (i + tow_len igs s + 5)%nat)
              end = Some (if has_datum c then Some (g_datum h) else None,
                          (i + tow_len igs s + 5 + length (if has_datum c then bitsof 1 (g_datum h) else []))%nat)).
  { destruct c; cbn [has_datum] in *; try (rewrite Nat.add_0_r; reflexivity); gu; reflexivity. }
  rewrite D. cbn [bind]. clear D B G.
  set (ld := length (if has_datum c then bitsof 1 (g_datum h) else [])) in *.
  rewrite !bitsof_length in *.
  repeat gu. rewrite !app_length, !bitsof_length. cbn [length]. f_equal. f_equal. lia.
Qed.

Lemma dec_sat igs s c msg i e : sat_ok igs s c e -> At msg i (bitsof (slot_len igs s) (slot s (n_prn e))) ->
  decode_sat igs s msg i = Some (prn2sat s (n_prn e), (i + slot_len igs s)%nat).
Proof.
  intros Hok A. pose proof (slot_bound _ _ _ _ Hok) as B. unfold decode_sat.
  change (if igs then 6%nat else match s with GLO => 5%nat | QZS => 4%nat | _ => 6%nat end) with (slot_len igs s).
  gu. now rewrite slot_sat.
Qed.
Lemma dec_orb_sat igs s msg i e : orbit_ok igs s e -> At msg i (orbit_bits igs s e) ->
  decode_orb_sat igs s msg i = Some (n_iode e, n_d e, n_dd e, (i + length (orbit_bits igs s e))%nat).
Proof.
  intros (H1 & H2 & H3) A. unfold orbit_bits in *. destruct (n_d e) as [[x y] z], (n_dd e) as [[vx vy] vz].
  destruct H2 as (Hx & Hy & Hz), H3 as (Kx & Ky & Kz). unfold decode_orb_sat.
  change (if igs then 8%nat else match s with GAL => 10%nat | SBS => 24%nat | _ => 8%nat end) with (iode_len igs s).
  at_split. rewrite ?bitsof_length, ?field_length in * by lia.
  repeat gu. rewrite !sval_ival by assumption.
  rewrite !app_length, ?bitsof_length, ?field_length by lia. f_equal. f_equal. lia.
Qed.
Lemma dec_clk_sat msg i e : clock_ok e -> At msg i (clock_bits e) ->
  decode_clk_sat msg i = Some (n_c e, (i + 70)%nat).
Proof.
  unfold clock_ok, clock_bits. destruct (n_c e) as [[x y] z]. intros (Hx & Hy & Hz) A. unfold decode_clk_sat.
  at_split. rewrite ?bitsof_length, ?field_length in * by lia.
  repeat gu. now rewrite !sval_ival by assumption.
Qed.

(** the loop over the satellites, for any reader of the body *)
Lemma dec_sats {E} igs s c (rd : bits -> nat -> option (E * nat)) (val : ent -> E) msg :
  (forall e i, sat_ok igs s c e -> At msg i (body_bits igs s c e) ->
     rd msg i = Some (val e, (i + length (body_bits igs s c e))%nat)) ->
  forall es i, Forall (sat_ok igs s c) es -> At msg i (flat_map (sat_bits igs s c) es) ->
  sats igs s rd (length es) msg i =
    Some (map (fun e => (prn2sat s (n_prn e), val e)) es, (i + length (flat_map (sat_bits igs s c) es))%nat).
Proof.
  intros Hrd. induction es as [|e es IH]; intros i Hok A.
  - cbn. now rewrite Nat.add_0_r.
  - inversion Hok as [|? ? H1 H2]; subst. cbn [flat_map] in A. unfold sat_bits in A at 1.
    apply At_app in A as [A1 A]. apply At_app in A1 as [A0 A1]. rewrite bitsof_length in A1.
    cbn [length sats]. rewrite (dec_sat igs s c msg i e H1 A0). cbn [bind].
    rewrite (Hrd e _ H1 A1). cbn [bind].
    assert (P : (i + length (bitsof (slot_len igs s) (slot s (n_prn e)) ++ body_bits igs s c e) =
                i + slot_len igs s + length (body_bits igs s c e))%nat) by (rewrite app_length, bitsof_length; lia).
    rewrite <- P in *.
    rewrite (IH _ H2 A). cbn [bind map flat_map]. f_equal. f_equal. unfold sat_bits at 2.
    rewrite !app_length. lia.
Qed.

(* ---------- dictionaries ---------- *)
Lemma store_other {E V} (f : E -> V) l : forall d sat, ~ In sat (map fst l) -> zget sat (store f l d) = zget sat d.
Proof.
  unfold store. induction l as [|[a e] l IH]; intros d sat H; [reflexivity|].
  cbn in *. rewrite IH by tauto. apply zget_zset_other. intros ->. tauto.
Qed.
Lemma store_in {E V} (f : E -> V) l : forall d sat e, NoDup (map fst l) -> In (sat, e) l -> zget sat (store f l d) = Some (f e).
Proof.
  unfold store. induction l as [|[a x] l IH]; intros d sat e Hd H; [destruct H|].
  cbn in *. inversion Hd; subst. destruct H as [H|H].
  - injection H as <- <-. fold (store f l (zset a (f x) d)). rewrite store_other by assumption. apply zget_zset_same.
  - now apply IH.
Qed.

Lemma holds_store {E V} s es (val : ent -> E) (g : E -> V) old :
  NoDup (map (fun e => prn2sat s (n_prn e)) es) ->
  holds s es (fun e => g (val e)) old (store g (map (fun e => (prn2sat s (n_prn e), val e)) es) old).
Proof.
  intros Hd. assert (M : map fst (map (fun e => (prn2sat s (n_prn e), val e)) es) = map (fun e => prn2sat s (n_prn e)) es).
  { rewrite map_map. reflexivity. }
  split.
  - intros e He. apply store_in; [now rewrite M|]. apply in_map_iff. now exists e.
  - intros sat H. apply store_other. now rewrite M.
Qed.

Lemma cset_in c l c' : In c' (cset c l) <-> c' = c \/ In c' l.
Proof.
  unfold cset. destruct (existsb (sct_eqb c) l) eqn:E; cbn; [|intuition congruence].
  apply existsb_exists in E as (x & Hx & Ex). apply sct_eqb_eq in Ex as <-. intuition congruence.
Qed.
Lemma sct_eqb_refl c : sct_eqb c c = true. Proof. destruct c; reflexivity. Qed.
Lemma sct_eqb_neq a b : a <> b -> sct_eqb a b = false.
Proof. intros H. destruct (sct_eqb a b) eqn:E; [|reflexivity]. apply sct_eqb_eq in E. congruence. Qed.
Lemma fset_same {V} (f : sct -> V) c v : fset f c v c = v.
Proof. unfold fset. now rewrite sct_eqb_refl. Qed.
Lemma fset_other {V} (f : sct -> V) c c' v : c <> c' -> fset f c v c' = f c'.
Proof. intros H. unfold fset. now rewrite sct_eqb_neq. Qed.
Lemma t0set_in t0 c t l sat : In sat l -> t0set t0 c t l sat c = t.
Proof.
  intros H. unfold t0set. rewrite sct_eqb_refl. replace (existsb (Z.eqb sat) l) with true; [reflexivity|].
  symmetry. apply existsb_exists. exists sat. split; [exact H|apply Z.eqb_refl].
Qed.
Lemma t0set_out t0 c t l sat c' : ~ In sat l -> t0set t0 c t l sat c' = t0 sat c'.
Proof.
  intros H. unfold t0set. destruct (existsb (Z.eqb sat) l) eqn:E; [|reflexivity].
  apply existsb_exists in E as (x & Hx & Ex). apply Z.eqb_eq in Ex as <-. tauto.
Qed.
Lemma t0set_other t0 c t l sat c' : c <> c' -> t0set t0 c t l sat c' = t0 sat c'.
Proof. intros H. unfold t0set. rewrite sct_eqb_neq by exact H. now rewrite andb_false_r. Qed.

Lemma sct_dec (a b : sct) : {a = b} + {a <> b}. Proof. decide equality. Qed.

Lemma repeat_map {A B} (x : B) (l : list A) : repeat x (length l) = map (fun _ => x) l.
Proof. induction l as [|a l IH]; cbn; congruence. Qed.
Lemma sats_of_map {E} s es (val : ent -> E) :
  map fst (map (fun e => (prn2sat s (n_prn e), val e)) es) = sats_of s es.
Proof. unfold sats_of. now rewrite map_map. Qed.

Ltac tag1 :=
  unfold tagged; cbn [r_udi r_iodc r_cstat r_t0 r_t0s];
  split; [intros ? [<-|[]]; rewrite !fset_same; split; [reflexivity|]; split; [reflexivity|]; split; [apply cset_in; now left|];
          split; [intros; now apply t0set_in|intros; now apply t0set_out]|];
  split; [intros c' Hc'; rewrite !fset_other by (intros E; apply Hc'; left; congruence); split; [reflexivity|]; split; [reflexivity|];
          split; [rewrite cset_in; split; [intros [->|?]; [exfalso; apply Hc'; now left|assumption]|tauto]|];
          intros; apply t0set_other; intros E; apply Hc'; left; congruence|];
  split; [intros ? [<-|[]]; apply fset_same|intros c' Hc'; apply fset_other; intros E; apply Hc'; left; congruence].

Lemma dec_corr c igs s msg i h es (st : rst) :
  ssr_order c <> None -> c <> SCB -> head_ok igs s h -> (length es < 64)%nat -> Forall (sat_ok igs s c) es ->
  NoDup (sats_of s es) -> ready c (length es) st ->
  At msg i (corr_bits igs s c h es) ->
  exists st', decode_corr q_of c igs s st msg i = Some (st', (i + length (corr_bits igs s c h es))%nat) /\
    effect c s (msg_time igs (r_week st) (r_time st) s (g_tow h)) h es st st'.
Proof.
  intros Hc Hcb Hh Hn Hok Hd Hr A. unfold corr_bits in *. apply At_app in A as [A1 A2].
  pose proof (fun c Ac => dec_head igs st s c msg i h (length es) Hh Hn Ac) as DH.
  rewrite app_length, Nat.add_assoc.
  set (t := msg_time igs (r_week st) (r_time st) s (g_tow h)) in *.
  destruct c; try (exfalso; apply Hc; reflexivity); try congruence; cbn [decode_corr].
  - unfold decode_orb. rewrite (DH _ A1). cbn [bind h_nsat]. rewrite Nat2Z.id.
    rewrite (dec_sats igs s SORB _ (fun e => (n_iode e, n_d e, n_dd e)) msg) with (es := es);
      [|intros e j He Ae; destruct He as (_ & _ & Hb); cbn [body_bits body_ok] in *;
        rewrite (dec_orb_sat igs s msg j e Hb Ae); reflexivity|exact Hok|exact A2].
    cbn [bind]. eexists. split; [reflexivity|].
    cbn [h_time h_datum h_pid h_sid h_iod h_mi h_udi h_nsat has_datum]. rewrite ?Nat2Z.id, sats_of_map.
    split; [unfold head_in; cbn; tauto|]. unfold later.
    cbv beta zeta iota. split; [tag1|]. cbn [r_sat_n r_sys_n r_nsat_n r_iode r_dorb r_ddorb r_dclk r_ddclk r_dddclk r_hclk r_ura].
    rewrite repeat_map. unfold keep.
    split; [reflexivity|]. split; [reflexivity|]. split; [reflexivity|].
    split; [apply (holds_store s es (fun e => (n_iode e, n_d e, n_dd e)) (fun e => fst (fst e))); exact Hd|].
    split; [apply (holds_store s es (fun e => (n_iode e, n_d e, n_dd e)) (fun e => snd (fst e))); exact Hd|].
    split; [apply (holds_store s es (fun e => (n_iode e, n_d e, n_dd e)) (fun e => snd e)); exact Hd|].
    tauto.
  - unfold decode_clk. rewrite (DH _ A1). cbn [bind h_nsat]. rewrite Nat2Z.id.
    rewrite (dec_sats igs s SCLK _ (fun e => n_c e) msg) with (es := es);
      [|intros e j He Ae; destruct He as (_ & _ & Hb); cbn [body_bits body_ok] in *;
        rewrite (dec_clk_sat msg j e Hb Ae); unfold clock_bits;
        destruct (n_c e) as [[x y] z]; cbn [bind]; rewrite !app_length, !field_length by lia; reflexivity|exact Hok|exact A2].
    cbn [bind]. eexists. split; [reflexivity|].
    cbn [h_time h_datum h_pid h_sid h_iod h_mi h_udi h_nsat has_datum]. rewrite ?Nat2Z.id, sats_of_map.
    split; [unfold head_in; cbn; tauto|]. unfold later.
    cbv beta zeta iota. split; [tag1|]. cbn [r_sat_n r_sys_n r_nsat_n r_iode r_dorb r_ddorb r_dclk r_ddclk r_dddclk r_hclk r_ura].
    unfold keep. do 6 (split; [reflexivity|]).
    split; [apply (holds_store s es (fun e => n_c e) (fun e => fst (fst e))); exact Hd|].
    split; [apply (holds_store s es (fun e => n_c e) (fun e => snd (fst e))); exact Hd|].
    split; [apply (holds_store s es (fun e => n_c e) (fun e => snd e)); exact Hd|].
    tauto.
  - unfold decode_comb. rewrite (DH _ A1). cbn [bind h_nsat]. rewrite Nat2Z.id.
    rewrite (dec_sats igs s SOC _ (fun e => (n_iode e, n_d e, n_dd e, n_c e)) msg) with (es := es);
      [|intros e j He Ae; destruct He as (_ & _ & Hb & Hb'); cbn [body_bits] in *; apply At_app in Ae as [Ae Ae'];
        rewrite (dec_orb_sat igs s msg j e Hb Ae); cbn [bind]; rewrite (dec_clk_sat msg _ e Hb' Ae'); rewrite app_length; unfold clock_bits;
        destruct (n_c e) as [[x y] z]; cbn [bind]; rewrite !app_length, !field_length by lia; f_equal; f_equal; lia|exact Hok|exact A2].
    cbn [bind]. eexists. split; [reflexivity|].
    cbn [h_time h_datum h_pid h_sid h_iod h_mi h_udi h_nsat has_datum]. rewrite ?Nat2Z.id, sats_of_map.
    split; [unfold head_in; cbn; tauto|]. unfold later.
    cbv beta zeta iota. split.
    { unfold tagged; cbn [r_udi r_iodc r_cstat r_t0 r_t0s]. split.
      { intros ? [<-|[<-|[]]].
        - rewrite !(fset_other _ SCLK SORB), !fset_same by discriminate. split; [reflexivity|]. split; [reflexivity|].
          split; [rewrite !cset_in; tauto|]. split; intros; rewrite t0set_other by discriminate; [now apply t0set_in|now apply t0set_out].
        - rewrite !fset_same. split; [reflexivity|]. split; [reflexivity|].
          split; [rewrite !cset_in; tauto|]. split; intros; [now apply t0set_in|rewrite !t0set_out by assumption; reflexivity]. }
      split.
      { intros c' Hc'. cbn in Hc'. rewrite !fset_other by (intros E; apply Hc'; intuition congruence).
        split; [reflexivity|]. split; [reflexivity|]. split; [rewrite !cset_in; intuition congruence|].
        intros. rewrite !t0set_other by (intros E; apply Hc'; intuition congruence). reflexivity. }
      split; [intros ? [<-|[]]; apply fset_same|intros c' Hc'; apply fset_other; intros E; apply Hc'; left; congruence]. }
    cbn [r_sat_n r_sys_n r_nsat_n r_iode r_dorb r_ddorb r_dclk r_ddclk r_dddclk r_hclk r_ura].
    rewrite repeat_map. unfold keep. do 3 (split; [reflexivity|]).
    split; [apply (holds_store s es (fun e => (n_iode e, n_d e, n_dd e, n_c e)) (fun e => fst (fst (fst e)))); exact Hd|].
    split; [apply (holds_store s es (fun e => (n_iode e, n_d e, n_dd e, n_c e)) (fun e => snd (fst (fst e)))); exact Hd|].
    split; [apply (holds_store s es (fun e => (n_iode e, n_d e, n_dd e, n_c e)) (fun e => snd (fst e))); exact Hd|].
    split; [apply (holds_store s es (fun e => (n_iode e, n_d e, n_dd e, n_c e)) (fun e => fst (fst (snd e)))); exact Hd|].
    split; [apply (holds_store s es (fun e => (n_iode e, n_d e, n_dd e, n_c e)) (fun e => snd (fst (snd e)))); exact Hd|].
    split; [apply (holds_store s es (fun e => (n_iode e, n_d e, n_dd e, n_c e)) (fun e => snd (snd e))); exact Hd|].
    tauto.
  - unfold decode_ura. rewrite (DH _ A1). cbn [bind h_nsat]. rewrite Nat2Z.id.
    rewrite (dec_sats igs s SURA _ (fun e => q_of (fst (n_q e)) (snd (n_q e))) msg) with (es := es);
      [|intros e j He Ae; destruct He as (_ & _ & Hb & Hb'); cbn [body_bits] in *; at_split; rewrite bitsof_length in *;
        repeat gu; rewrite !app_length, !bitsof_length; reflexivity|exact Hok|exact A2].
    cbn [bind]. eexists. split; [reflexivity|].
    cbn [h_time h_datum h_pid h_sid h_iod h_mi h_udi h_nsat has_datum]. rewrite sats_of_map.
    split; [unfold head_in; cbn; tauto|]. unfold later.
    cbv beta zeta iota. split; [tag1|]. cbn [r_sat_n r_sys_n r_nsat_n r_iode r_dorb r_ddorb r_dclk r_ddclk r_dddclk r_hclk r_ura].
    unfold keep. do 10 (split; [reflexivity|]).
    apply (holds_store s es (fun e => q_of (fst (n_q e)) (snd (n_q e))) (fun e => e)); exact Hd.
  - unfold decode_hclk. rewrite (DH _ A1). cbn [bind h_nsat]. rewrite Nat2Z.id.
    rewrite (dec_sats igs s SHCLK _ (fun e => n_h e) msg) with (es := es);
      [|intros e j He Ae; destruct He as (_ & _ & Hb); cbn [body_bits body_ok] in *; unfold decode_hclk_sat;
        repeat gu; rewrite sval_ival by assumption; rewrite field_length by lia; reflexivity|exact Hok|exact A2].
    cbn [bind].
    assert (G : guard (match r_dclk_n st with Some n => (length es <=? n)%nat | None => Z.of_nat (length es) =? 0 end) = Some tt).
    { specialize (Hr eq_refl). destruct (r_dclk_n st) as [k|]; [now replace (length es <=? k)%nat with true by lia|].
      now replace (Z.of_nat (length es) =? 0) with true by lia. }
    rewrite G. cbn [bind]. eexists. split; [reflexivity|].
    cbn [h_time h_datum h_pid h_sid h_iod h_mi h_udi h_nsat has_datum]. rewrite sats_of_map.
    split; [unfold head_in; cbn; tauto|]. unfold later.
    cbv beta zeta iota. split; [tag1|]. cbn [r_sat_n r_sys_n r_nsat_n r_iode r_dorb r_ddorb r_dclk r_ddclk r_dddclk r_hclk r_ura].
    unfold keep. do 10 (split; [reflexivity|]).
    apply (holds_store s es (fun e => n_h e) (fun e => e)); exact Hd.
Qed.
End S.

(* ---------- whole messages ---------- *)
Lemma carries_disp mt s c : carries mt s c -> mt <> 63 -> c <> SCB ->
  0 <= mt < 4096 /\ dispatch mt = KSsr c /\ get_ssr_sys None mt = Some s.
Proof.
  intros [H|[H|H]] H63 Hc.
  - pose proof H as (b & o & Hb & Ho & ->). apply std_ssr_ok in H as (A & B & _).
    split; [|auto]. destruct s; try discriminate Hb; injection Hb as <-; destruct c; try discriminate Ho; injection Ho as <-; lia.
  - destruct H as (o & Ho & -> & ->). destruct c; try discriminate Ho; injection Ho as <-; (split; [lia|split; vm_compute; reflexivity]).
  - destruct H as (o & k & Ho & -> & [[-> ->]|[[-> ->]|[-> ->]]]);
      destruct c; try discriminate Ho; injection Ho as <-; try congruence; try (exfalso; lia); (split; [lia|split; vm_compute; reflexivity]).
Qed.
Lemma igs_disp s c sub : igs_sub s c = Some sub -> 0 <= sub < 256 /\ igs_kind sub = Some (s, c).
Proof.
  unfold igs_sub. intros H. destruct s, c; try discriminate H; injection H as <-; (split; [lia|vm_compute; reflexivity]).
Qed.

Section D.
Context {Q : Type} (q_of : Z -> Z -> Q).
Notation rst := (@rst Q).

Lemma carries_order mt s c : carries mt s c -> ssr_order c <> None.
Proof. intros [(b & o & _ & H & _)|[(o & H & _)|(o & k & H & _)]]; congruence. Qed.

Lemma dec_message mt s c h es (st : rst) msg :
  carries mt s c -> mt <> 63 -> c <> SCB ->
  head_ok false s h -> (length es < 64)%nat -> Forall (sat_ok false s c) es -> NoDup (sats_of s es) -> ready c (length es) st ->
  At msg 24 (message mt s c h es) ->
  exists st', decode q_of st msg = Some (st', (24 + length (message mt s c h es))%nat) /\
    effect q_of c s (msg_time false (r_week st) (r_time st) s (g_tow h)) h es st st'.
Proof.
  intros Hc H63 Hcb Hh Hn Hok Hd Hr A. pose proof (carries_disp _ _ _ Hc H63 Hcb) as (M & D1 & D2).
  unfold message in *. apply At_app in A as [A1 A2]. rewrite bitsof_length in A2.
  unfold decode. rewrite (getu_bits msg 24 12 mt A1) by (cbn; lia). cbn [bind]. rewrite D1, D2. cbn [bind].
  destruct (dec_corr q_of c false s msg 36 h es st) as (st' & E1 & E2); auto.
  { eapply carries_order; eauto. }
  exists st'. split; [|exact E2]. rewrite E1, app_length, bitsof_length. reflexivity.
Qed.
Lemma dec_igs ver sub s c h es (st : rst) msg :
  igs_sub s c = Some sub -> 0 <= ver < 8 ->
  head_ok true s h -> (length es < 64)%nat -> Forall (sat_ok true s c) es -> NoDup (sats_of s es) -> ready c (length es) st ->
  At msg 24 (igs_message ver sub s c h es) ->
  exists st', decode q_of st msg = Some (st', (24 + length (igs_message ver sub s c h es))%nat) /\
    effect q_of c s (msg_time true (r_week st) (r_time st) s (g_tow h)) h es st st'.
Proof.
  intros Hs Hv Hh Hn Hok Hd Hr A. pose proof (igs_disp _ _ _ Hs) as (M & D).
  unfold igs_message in *. at_split. rewrite !bitsof_length in *.
  unfold decode. rewrite (getu_bits msg 24 12 4076) by (auto; cbn; lia). cbn [bind].
  change (dispatch 4076) with KIgs. cbv iota.
  rewrite (getu_bits msg 39 8 sub) by (auto; cbn; lia). cbn [bind]. rewrite D. cbn [bind].
  destruct (dec_corr q_of c true s msg 47 h es st) as (st' & E1 & E2); auto.
  { destruct s, c; try discriminate Hs; discriminate. }
  { intros ->. destruct s; discriminate Hs. }
  exists st'. split; [|exact E2]. rewrite E1, !app_length, !bitsof_length. reflexivity.
Qed.
End D.

(* ---------- encoder ---------- *)
Lemma splice_app {A} (l : list A) i a b : (i + length a + length b <= length l)%nat ->
  splice (splice l i a) (i + length a) b = splice l i (a ++ b).
Proof.
  intros H. unfold splice. rewrite app_length, Nat.add_assoc.
  rewrite (app_assoc (firstn i l) a). rewrite firstn_app. rewrite firstn_all2 by (rewrite app_length, firstn_length; lia).
  replace (i + length a - length (firstn i l ++ a))%nat with 0%nat by (rewrite app_length, firstn_length; lia).
  rewrite firstn_O, app_nil_r, <- !app_assoc. f_equal. f_equal. f_equal.
  rewrite skipn_app. rewrite skipn_all2 by (rewrite firstn_length; lia). cbn [app].
  rewrite skipn_app. rewrite skipn_all2 by (rewrite firstn_length; lia). cbn [app].
  rewrite skipn_skipn_add. f_equal. rewrite firstn_length. lia.
Qed.
Lemma splice_nil {A} (l : list A) i : splice l i [] = l.
Proof. unfold splice. cbn. rewrite Nat.add_0_r. apply firstn_skipn. Qed.
Lemma putu_app msg i w j n v : (i + length w + n <= length msg)%nat -> 0 <= v < 2 ^ Z.of_nat n -> j = (i + length w)%nat ->
  putu (splice msg i w) j n v = Some (splice msg i (w ++ bitsof n v)).
Proof.
  intros H Hv ->. rewrite putu_ok; [|rewrite splice_length; lia|exact Hv].
  rewrite splice_app; [reflexivity|rewrite bitsof_length; lia].
Qed.
Lemma puts_app msg i w j n y : (1 <= n)%nat -> (i + length w + n <= length msg)%nat -> fits n y -> j = (i + length w)%nat ->
  puts (splice msg i w) j n (ival y n) = Some (splice msg i (w ++ field n y)).
Proof.
  intros Hn H Hf ->. pose proof (ival_bound n y Hn Hf). unfold puts. rewrite splice_length by lia.
  replace ((i + length w + n <=? length msg)%nat && (- 2 ^ (Z.of_nat n - 1) <=? ival y n) && (ival y n <? 2 ^ (Z.of_nat n - 1)))
    with true by lia.
  rewrite field_ival by exact Hn. rewrite splice_app; [reflexivity|rewrite bitsof_length; lia].
Qed.

Section E.
Context {Q : Type} (q_to : Q -> Z * Z).
Notation est := (@est Q).

(** the header the encoder's attributes describe *)
Definition head_of (e : est) (c : sct) : hdr := HDR (e_tow e) (e_udi e c) (e_mi e) (e_datum e) (e_iodssr e) (e_pid e) (e_sid e).

Ltac pu := first [ rewrite putu_app by (rewrite ?app_length, ?bitsof_length, ?field_length by lia; cbn [length]; lia)
                 | rewrite puts_app by first [ lia | assumption | rewrite ?app_length, ?bitsof_length, ?field_length by lia; cbn [length]; lia ] ]; cbn [bind].

Lemma enc_head (e : est) s c n msg i w j : n = length (of_sys s (e_sat_n e)) -> (n < 64)%nat ->
  head_ok false s (head_of e c) -> (i + length w + length (head_bits false s c (head_of e c) n) <= length msg)%nat ->
  j = (i + length w)%nat ->
  encode_head e s c (splice msg i w) j =
    Some (splice msg i (w ++ head_bits false s c (head_of e c) n), (j + length (head_bits false s c (head_of e c) n))%nat).
Proof.
  intros Hn H64 (H1 & H2 & H3 & H4 & H5 & H6) Hl ->. unfold encode_head, head_bits in *. cbn [head_of g_tow g_udi g_mi g_datum g_iod g_pid g_sid] in *.
  change (match s with GLO => 17%nat | _ => 20%nat end) with (tow_len false s).
  rewrite !app_length, !bitsof_length in Hl. cbn [length] in Hl.
  set (L := length (if has_datum c then bitsof 1 (e_datum e) else [])) in Hl.
  assert (Lb : L = if has_datum c then 1%nat else 0%nat) by (unfold L; destruct (has_datum c); reflexivity).
  pu. pu.
  assert (Bm : [e_mi e] = bitsof 1 (Z.b2z (e_mi e))) by (destruct (e_mi e); reflexivity). rewrite Bm.
  assert (0 <= Z.b2z (e_mi e) < 2) by (destruct (e_mi e); cbn; lia).
  pu. rewrite <- Hn.
  destruct (has_datum c) eqn:Ed.
  - assert (Ec : forall X (a b : X), match c with SORB | SOC => a | _ => b end = a) by (destruct c; try discriminate Ed; reflexivity).
    rewrite Ec. pu. pu. pu. pu. pu. f_equal. rewrite <- !app_assoc. f_equal. rewrite !app_length, !bitsof_length. lia.
  - assert (Ec : forall X (a b : X), match c with SORB | SOC => a | _ => b end = b) by (destruct c; try discriminate Ed; reflexivity).
    rewrite Ec. cbn [bind]. pu. pu. pu. pu. f_equal. rewrite <- !app_assoc. f_equal. cbn [app]. rewrite !app_length, !bitsof_length. lia.
Qed.

Lemma enc_sat s c x msg i w j : (s = GPS \/ s = GAL \/ s = BDS \/ s = QZS) -> sat_ok false s c x ->
  (i + length w + slot_len false s <= length msg)%nat -> j = (i + length w)%nat ->
  encode_sat (splice msg i w) j (prn2sat s (n_prn x)) =
    Some (splice msg i (w ++ bitsof (slot_len false s) (slot s (n_prn x))), (j + slot_len false s)%nat).
Proof.
  intros Hs Hok Hl ->. pose proof (slot_bound _ _ _ _ Hok) as B. destruct Hok as (Ho & _).
  unfold encode_sat. destruct (sat2prn_prn2sat s (n_prn x) Ho) as [-> _].
  destruct Hs as [-> | [-> | [-> | ->]]]; cbn [slot_len slot] in *; pu; reflexivity.
Qed.

(** the dictionaries hold the corrections [x] of satellite [sat]; missing rates are sent as zero *)
Definition has_orbit (e : est) (s : gnss) (x : ent) : Prop :=
  let sat := prn2sat s (n_prn x) in
  zget sat (e_iode e) = Some (n_iode x) /\ zget sat (e_dorb e) = Some (n_d x) /\
  match e_ddorb e with Some d => zget sat d = Some (n_dd x) | None => n_dd x = (Some 0, Some 0, Some 0) end.
Definition has_clock (e : est) (s : gnss) (x : ent) : Prop :=
  let sat := prn2sat s (n_prn x) in
  let '(a, b, c) := n_c x in
  zget sat (e_dclk e) = Some a /\
  match e_ddclk e with Some d => zget sat d = Some b /\ zget sat (e_dddclk e) = Some c | None => b = Some 0 /\ c = Some 0 end.
Definition has_ura (e : est) (s : gnss) (x : ent) : Prop :=
  exists q, zget (prn2sat s (n_prn x)) (e_ura e) = Some q /\ q_to q = n_q x.

Lemma enc_orb_sat (e : est) s x msg i w j : owns s (n_prn x) -> orbit_ok false s x -> has_orbit e s x ->
  (i + length w + length (orbit_bits false s x) <= length msg)%nat -> j = (i + length w)%nat ->
  encode_orb_sat e (splice msg i w) j (prn2sat s (n_prn x)) =
    Some (splice msg i (w ++ orbit_bits false s x), (j + length (orbit_bits false s x))%nat).
Proof.
  intros Ho (K1 & K2 & K3) (G1 & G2 & G3) Hl ->. unfold encode_orb_sat, orbit_bits in *.
  destruct (sat2prn_prn2sat s (n_prn x) Ho) as [-> _]. cbn [fst].
  change (match s with GAL => 10%nat | SBS => 24%nat | _ => 8%nat end) with (iode_len false s).
  rewrite G1. cbn [bind]. rewrite G2.
  destruct (n_d x) as [[x1 x2] x3], (n_dd x) as [[v1 v2] v3].
  destruct K2 as (A1 & A2 & A3), K3 as (B1 & B2 & B3).
  rewrite !app_length, !bitsof_length, !field_length in Hl by lia.
  pu. pu. pu. pu.
  assert (R : match e_ddorb e with
              | Some d => do (x, y, z) <- zget (prn2sat s (n_prn x)) d; Some (ival x 21, ival y 19, ival z 19)
              | None => Some (0, 0, 0)
              end = Some (ival v1 21, ival v2 19, ival v3 19)).
  { destruct (e_ddorb e) as [d|]; [now rewrite G3|]. injection G3 as -> -> ->. reflexivity. }
  rewrite R. cbn [bind]. pu. pu. pu. f_equal. rewrite <- !app_assoc. f_equal.
  rewrite !app_length, !bitsof_length, !field_length by lia. lia.
Qed.
Lemma enc_clk_sat (e : est) s x msg i w j : clock_ok x -> has_clock e s x ->
  (i + length w + length (clock_bits x) <= length msg)%nat -> j = (i + length w)%nat ->
  encode_clk_sat e (splice msg i w) j (prn2sat s (n_prn x)) =
    Some (splice msg i (w ++ clock_bits x), (j + length (clock_bits x))%nat).
Proof.
  unfold clock_ok, has_clock, clock_bits, encode_clk_sat. destruct (n_c x) as [[a b] c].
  intros (K1 & K2 & K3) (G1 & G2) Hl ->. rewrite G1. cbn [bind].
  assert (R : match e_ddclk e with
              | Some d => do b <- zget (prn2sat s (n_prn x)) d; do c <- zget (prn2sat s (n_prn x)) (e_dddclk e); Some (ival b 21, ival c 27)
              | None => Some (0, 0)
              end = Some (ival b 21, ival c 27)).
  { destruct (e_ddclk e) as [d|]; destruct G2 as [G2 G3]; [rewrite G2; cbn [bind]; rewrite G3; reflexivity|]. subst b c. reflexivity. }
  rewrite R. cbn [bind]. rewrite !app_length, !field_length in Hl by lia.
  pu. pu. pu. f_equal. rewrite <- !app_assoc. f_equal. rewrite !app_length, !field_length by lia. lia.
Qed.

Lemma enc_each s c enc (has : ent -> Prop) : (s = GPS \/ s = GAL \/ s = BDS \/ s = QZS) ->
  (forall x msg i w j, sat_ok false s c x -> has x -> (i + length w + length (body_bits false s c x) <= length msg)%nat ->
     j = (i + length w)%nat ->
     enc (splice msg i w) j (prn2sat s (n_prn x)) = Some (splice msg i (w ++ body_bits false s c x), (j + length (body_bits false s c x))%nat)) ->
  forall es msg i w j, Forall (sat_ok false s c) es -> Forall has es ->
  (i + length w + length (flat_map (sat_bits false s c) es) <= length msg)%nat -> j = (i + length w)%nat ->
  each enc (sats_of s es) (splice msg i w) j =
    Some (splice msg i (w ++ flat_map (sat_bits false s c) es), (j + length (flat_map (sat_bits false s c) es))%nat).
Proof.
  intros Hs He. induction es as [|x es IH]; intros msg i w j H1 H2 Hl ->.
  - cbn. now rewrite app_nil_r, Nat.add_0_r.
  - inversion H1; subst. inversion H2; subst. cbn [sats_of map each flat_map] in *.
    unfold sat_bits in Hl at 1. rewrite !app_length, bitsof_length in Hl.
    rewrite (enc_sat s c x) by (auto; lia). cbn [bind].
    rewrite He by (auto; rewrite app_length, bitsof_length; lia). cbn [bind].
    rewrite IH by (auto; rewrite ?app_length, ?bitsof_length; lia).
    assert (Sb : sat_bits false s c x = bitsof (slot_len false s) (slot s (n_prn x)) ++ body_bits false s c x) by reflexivity.
    rewrite Sb, <- !app_assoc, !app_length, bitsof_length. do 2 f_equal. lia.
Qed.

(** encoder numbers and the three encoders that exist *)
Definition encodes (mt : Z) (s : gnss) (c : sct) : Prop :=
  carries mt s c /\ (mt < 100 \/ s = GPS) /\ (s = GPS \/ s = GAL \/ s = BDS \/ s = QZS) /\ (c = SORB \/ c = SCLK \/ c = SURA).
Lemma encodes_disp mt s c : encodes mt s c -> 0 <= mt < 4096 /\ edispatch mt = KSsr c /\ get_ssr_sys None mt = Some s.
Proof.
  intros (H & H1 & H2 & H3). destruct H as [H|[H|H]].
  - destruct H as (b & o & Hb & Ho & ->).
    destruct s; try discriminate Hb; injection Hb as <-; destruct c; try discriminate Ho; injection Ho as <-;
      try (exfalso; intuition (discriminate || lia)); (split; [lia|split; vm_compute; reflexivity]).
  - destruct H as (o & Ho & -> & ->). exfalso. intuition discriminate.
  - destruct H as (o & k & Ho & -> & [[-> ->]|[[-> ->]|[-> ->]]]);
      destruct c; try discriminate Ho; injection Ho as <-; try (exfalso; intuition discriminate); (split; [lia|split; vm_compute; reflexivity]).
Qed.
Definition has (c : sct) (e : est) (s : gnss) (x : ent) : Prop :=
  match c with SORB => has_orbit e s x | SCLK => has_clock e s x | SURA => has_ura e s x | _ => False end.
Definition listed (s : gnss) (l : list Z) : list Z := filter (fun sat => gnss_eqb (fst (sat2prn sat)) s) l.

Lemma enc_message (e : est) s c es msg :
  encodes (e_mt e) s c ->
  listed s (e_sat_n e) = sats_of s es -> (c = SURA -> listed s (map fst (e_ura e)) = sats_of s es) ->
  (length es < 64)%nat -> head_ok false s (head_of e c) -> Forall (sat_ok false s c) es -> Forall (has c e s) es ->
  (24 + length (message (e_mt e) s c (head_of e c) es) <= length msg)%nat ->
  encode q_to e msg = Some (splice msg 24 (message (e_mt e) s c (head_of e c) es),
                            (24 + length (message (e_mt e) s c (head_of e c) es))%nat).
Proof.
  intros Hc Hl Hu Hn Hh Hok Hhas Hlen. pose proof (encodes_disp _ _ _ Hc) as (M & D1 & D2).
  destruct Hc as (_ & _ & Hs & Hk). unfold encode. rewrite D1, D2.
  unfold message, corr_bits in *. rewrite !app_length, bitsof_length in Hlen.
  rewrite <- (splice_nil msg 24) at 1.
  rewrite putu_app; [|cbn [length]; lia|cbn; lia|reflexivity]. cbn [bind app].
  assert (HN : length es = length (of_sys s (e_sat_n e))).
  { change (of_sys s (e_sat_n e)) with (listed s (e_sat_n e)). rewrite Hl. unfold sats_of. now rewrite map_length. }
  assert (L12 : length (bitsof 12 (e_mt e)) = 12%nat) by apply bitsof_length.
  assert (F : forall enc, (forall x msg i w j, sat_ok false s c x -> has c e s x ->
       (i + length w + length (body_bits false s c x) <= length msg)%nat -> j = (i + length w)%nat ->
       enc (splice msg i w) j (prn2sat s (n_prn x)) = Some (splice msg i (w ++ body_bits false s c x), (j + length (body_bits false s c x))%nat)) ->
     (do (m, i) <- encode_head e s c (splice msg 24 (bitsof 12 (e_mt e))) 36; each enc (sats_of s es) m i) =
       Some (splice msg 24 (bitsof 12 (e_mt e) ++ head_bits false s c (head_of e c) (length es) ++ flat_map (sat_bits false s c) es),
             (24 + length (bitsof 12 (e_mt e) ++ head_bits false s c (head_of e c) (length es) ++ flat_map (sat_bits false s c) es))%nat)).
  { intros enc He. rewrite (enc_head e s c (length es)) by (auto; lia). cbn [bind].
    rewrite (enc_each s c enc (has c e s)) by (auto; rewrite ?app_length; lia).
    rewrite <- app_assoc. do 2 f_equal. rewrite !app_length. lia. }
  destruct Hk as [-> | [-> | ->]].
  - unfold encode_orb. change (of_sys s (e_sat_n e)) with (listed s (e_sat_n e)). rewrite Hl. apply F.
    intros x m i w j (Ho & _ & Hb) Hx Hlx Hj. now apply enc_orb_sat.
  - unfold encode_clk. change (of_sys s (e_sat_n e)) with (listed s (e_sat_n e)). rewrite Hl. apply F.
    intros x m i w j (Ho & _ & Hb) Hx Hlx Hj. now apply enc_clk_sat.
  - unfold encode_ura. change (of_sys s (map fst (e_ura e))) with (listed s (map fst (e_ura e))). rewrite (Hu eq_refl). apply F.
    intros x m i w j (Ho & _ & Hb) (q & Hq & Eq) Hlx Hj. rewrite Hq. cbn [bind]. rewrite Eq.
    cbn [body_ok body_bits] in *. destruct (n_q x) as [a b]. cbn [fst snd] in *. rewrite !app_length, !bitsof_length in Hlx.
    subst j. pu. pu. rewrite <- !app_assoc. rewrite !app_length, !bitsof_length. reflexivity.
Qed.
End E.
