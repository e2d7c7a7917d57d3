(** Reading RTCM ephemeris messages. *)
From Verif Require Import SatModel TimeModel TimeSpec TimeProofs TimeAdjust CssrState RawModel RawSpec RawFacts NavSpec NavFacts GloModel GloSpec GloFacts GloFdma GloSbs REphModel REphSpec.
From Verif Require Import Base BaseFacts FieldFacts.
From Coq Require Import ZifyBool ZifyNat.
Notation length := List.length.
Open Scope Z_scope.

Lemma week_t2g t : 86400 * gps0 <= t -> time2gpst 1 (GT t 0) = (week_of t, (t - 86400 * gps0) mod 604800).
Proof.
  intros H. unfold time2gpst, time2wt. assert (G : gt (epoch2time 1 gpst0) = 86400 * gps0) by (vm_compute; reflexivity). cbv zeta. rewrite G. cbn [gt gs].
  unfold week_of. set (g := 86400 * gps0) in *. clearbody g. rewrite Z.quot_div_nonneg by lia. pose proof (Z.div_mod (t - g) 604800 ltac:(lia)). f_equal; lia.
Qed.
Lemma adjw w t : 86400 * gps0 <= t -> w / 1024 = week_of t / 1024 -> forall v, v mod 1024 = w mod 1024 -> adjustweek 1 v (GT t 0) = w.
Proof.
  intros H E v Hv. unfold adjustweek. rewrite week_t2g by exact H. cbv beta iota. rewrite <- E, Hv. pose proof (Z.div_mod w 1024 ltac:(lia)). lia.
Qed.
Lemma u10 w : U 10 (w mod 1024).
Proof. unfold U. apply Z.mod_pos_bound. reflexivity. Qed.
Ltac kepd H := destruct H as ((? & ? & ? & ? & ? & ? & ? & ? & ?) & (? & ? & ? & ? & ? & ?) & (? & ? & ? & ? & ?)).

Lemma tw n v : U n v -> n <= 20 -> forall u, 0 <= u <= 60 -> 0 <= v * u <= 1000000000.
Proof. unfold U. intros H Hn u Hu. assert (2 ^ n <= 2 ^ 20) by (apply Z.pow_le_mono_r; lia). change (2 ^ 20) with 1048576 in *. nia. Qed.

Lemma gps_ok hd t f rest : rgps_ok f -> 86400 * gps0 <= t -> g_week f / 1024 = week_of t / 1024 ->
  decode_reph (GT t 0) (rmsg hd 1019 (rgps_fields f) rest) = Some (512%nat, rgps_of t f).
Proof.
  intros [(Hp & ? & ? & ? & ? & ? & ? & ? & ?) K] Ht Hw. kepd K. unfold decode_reph. set (b := rmsg _ _ _ _).
  assert (A : At b 0 (enc ([(24 # hd); (12 # 1019)] ++ rgps_fields f))) by (exists [], rest; split; reflexivity). clearbody b. unfold rgps_fields in A. cbn [app] in A. cbv zeta in A.
  assert (U 12 1019) by (unfold U; lia). assert (U 6 (g_prn f)) by (unfold U; lia). pose proof (u10 (g_week f)). rd1. cbn [Z.eqb Pos.eqb]. unfold rtcm_gps_eph. rds.
  rewrite (adjw (g_week f)); [|exact Ht|exact Hw|now rewrite Z.mod_mod by lia].
  rewrite !gps_exact by (match goal with R : U 16 ?v |- context [?v * 16] => pose proof (tw 16 v R ltac:(lia) 16 ltac:(lia)) end; lia).
  unfold rgps_of, kep_of. cbn [app]. rewrite (Z.mul_comm (y_toe (g_kep f))), (Z.mul_comm (y_toc (g_kep f))). reflexivity.
Qed.
Ltac rstart hd mt fl rest :=
  set (b := rmsg _ _ _ _); assert (A : At b 0 (enc ([(24 # hd); (12 # mt)] ++ fl))) by (exists [], rest; split; reflexivity); clearbody b.
Ltac tws := repeat match goal with R : U ?n ?v |- context [gpst2time 1 _ (?v * ?u)] => rewrite (gps_exact _ (v * u)) by (pose proof (tw n v R ltac:(lia) u ltac:(lia)); lia) end.

Lemma qzs_ok hd t f rest : rqzs_ok f -> 86400 * gps0 <= t -> g_week f / 1024 = week_of t / 1024 ->
  decode_reph (GT t 0) (rmsg hd 1044 (rqzs_fields f) rest) = Some (509%nat, rqzs_of t f).
Proof.
  intros [(Hp & ? & ? & ? & ? & ? & ? & ?) K] Ht Hw. kepd K. unfold decode_reph. rstart hd 1044 (rqzs_fields f) rest. unfold rqzs_fields in A. cbn [app] in A. cbv zeta in A.
  assert (U 12 1044) by (unfold U; lia). assert (U 4 (g_prn f - 192)) by (unfold U; lia). pose proof (u10 (g_week f)). rd1. cbn [Z.eqb Pos.eqb orb]. unfold rtcm_qzs_eph. rds.
  rewrite (adjw (g_week f)); [|exact Ht|exact Hw|now rewrite Z.mod_mod by lia]. tws.
  unfold rqzs_of, kep_of. cbn [app]. rewrite (Z.mul_comm (y_toe (g_kep f))), (Z.mul_comm (y_toc (g_kep f))). replace (g_prn f - 192 + 192) with (g_prn f) by lia. reflexivity.
Qed.
Lemma gal_bits a c d e : U 2 a -> U 1 c -> U 2 d -> U 1 e -> Z.lor (Z.shiftl a 7 + Z.shiftl c 6) (Z.shiftl d 1 + e) = 128 * a + 64 * c + 2 * d + e.
Proof.
  intros H1 H2 H3 H4. unfold U in *.
  assert (G : forallb (fun a => forallb (fun c => forallb (fun d => forallb (fun e => Z.lor (Z.shiftl a 7 + Z.shiftl c 6) (Z.shiftl d 1 + e) =? 128 * a + 64 * c + 2 * d + e)
    (TimeProofs.zrange 0 2)) (TimeProofs.zrange 0 4)) (TimeProofs.zrange 0 2)) (TimeProofs.zrange 0 4) = true) by (vm_compute; reflexivity).
  rewrite forallb_forall in G. specialize (G a ltac:(rewrite TimeProofs.zrange_in; lia)). rewrite forallb_forall in G. specialize (G c ltac:(rewrite TimeProofs.zrange_in; lia)).
  rewrite forallb_forall in G. specialize (G d ltac:(rewrite TimeProofs.zrange_in; lia)). rewrite forallb_forall in G. specialize (G e ltac:(rewrite TimeProofs.zrange_in; lia)). lia.
Qed.
Lemma gal_ok hd t f rest : rgal_ok f -> 86400 * gps0 <= t -> l_week f / 1024 = week_of t / 1024 ->
  decode_reph (GT t 0) (rmsg hd (rgal_type f) (rgal_fields f) rest) = Some (match l_stat f with FN _ _ => 520%nat | _ => 528%nat end, rgal_of t f).
Proof.
  intros [(Hp & ? & ? & ? & Hs) K] Ht Hw. kepd K. unfold decode_reph.
  assert (U 6 (l_prn f)) by (unfold U; lia). assert (U 12 ((l_week f - 1024) mod 4096)) by (unfold U; apply Z.mod_pos_bound; reflexivity).
  assert (Ew : ((l_week f - 1024) mod 4096) mod 1024 = l_week f mod 1024).
  { pose proof (Z.div_mod (l_week f - 1024) 4096 ltac:(lia)) as E1. replace (l_week f) with ((l_week f - 1024) mod 4096 + (4 * ((l_week f - 1024) / 4096) + 1) * 1024) at 2 by lia. now rewrite Z.mod_add by lia. }
  destruct f as [prn week iod sisa bgd st k]. cbn [l_prn l_week l_iod l_sisa l_bgd l_stat l_kep] in *. destruct st as [hs dvs|b2 h5 d5 h1 d1]; unfold rgal_type; cbn [l_stat].
  - destruct Hs as (? & ?). rstart hd 1045 (rgal_fields (RL prn week iod sisa bgd (FN hs dvs) k)) rest. unfold rgal_fields in A.
    cbn [app l_prn l_week l_iod l_sisa l_bgd l_stat l_kep] in A. cbv zeta in A. assert (U 12 1045) by (unfold U; lia). rd1. cbn [Z.eqb Pos.eqb orb]. unfold rtcm_gal_eph. rds.
    refine (bind_eq _ _ ([], 128 * hs + 64 * dvs, 520%nat) _ _ _). { rds. rewrite !Z.shiftl_mul_pow2 by lia. change (2 ^ 7) with 128. change (2 ^ 6) with 64. now rewrite (Z.mul_comm hs), (Z.mul_comm dvs). }
    cbv beta iota zeta. rewrite (adjw week); [|exact Ht|exact Hw|exact Ew]. tws.
    unfold rgal_of, kep_of. cbn [app l_prn l_week l_iod l_sisa l_bgd l_stat l_kep]. rewrite (Z.mul_comm (y_toe k)), (Z.mul_comm (y_toc k)). reflexivity.
  - destruct Hs as (? & ? & ? & ? & ?). rstart hd 1046 (rgal_fields (RL prn week iod sisa bgd (IN b2 h5 d5 h1 d1) k)) rest. unfold rgal_fields in A.
    cbn [app l_prn l_week l_iod l_sisa l_bgd l_stat l_kep] in A. cbv zeta in A. assert (U 12 1046) by (unfold U; lia). rd1. cbn [Z.eqb Pos.eqb orb]. unfold rtcm_gal_eph. rds.
    refine (bind_eq _ _ ([(Ftgdb, V b2 32)], 128 * h5 + 64 * d5 + 2 * h1 + d1, 528%nat) _ _ _). { rds. now rewrite gal_bits. }
    cbv beta iota zeta. rewrite (adjw week); [|exact Ht|exact Hw|exact Ew]. tws.
    unfold rgal_of, kep_of. cbn [app l_prn l_week l_iod l_sisa l_bgd l_stat l_kep]. rewrite (Z.mul_comm (y_toe k)), (Z.mul_comm (y_toc k)). reflexivity.
Qed.
Lemma irn_ok hd t f rest : rirn_ok f -> 86400 * gps0 <= t -> i_week f / 1024 = week_of t / 1024 ->
  decode_reph (GT t 0) (rmsg hd 1041 (rirn_fields f) rest) = Some (506%nat, rirn_of y_af0 t f).
Proof.
  intros [(Hp & ? & ? & ? & ?) K] Ht Hw. kepd K. unfold decode_reph. rstart hd 1041 (rirn_fields f) rest. unfold rirn_fields in A. cbn [app] in A. cbv zeta in A.
  assert (U 12 1041) by (unfold U; lia). assert (U 6 (i_prn f)) by (unfold U; lia). pose proof (u10 (i_week f)). rd1. cbn [Z.eqb Pos.eqb orb]. unfold rtcm_irn_eph. rds.
  rewrite (adjw (i_week f)); [|exact Ht|exact Hw|now rewrite Z.mod_mod by lia]. tws.
  unfold rirn_of, kep_of, with_af2. cbn [app y_deln y_M0 y_e y_sA y_OMG0 y_i0 y_omg y_OMGd y_idot y_crs y_crc y_cus y_cuc y_cis y_cic y_toe y_toc y_af0 y_af1 y_af2].
  rewrite (Z.mul_comm (y_toe (i_kep f))), (Z.mul_comm (y_toc (i_kep f))). reflexivity.
Qed.
(** BDS: what lies before Cus *)
Lemma getu_any {B} (R : option B -> Prop) b m r i n (k : Z -> option B) : length b = (m + r)%nat -> (i + n <=? m)%nat = true -> (forall v, R (k v)) -> R (bind (getu b i n) k).
Proof. intros L H G. unfold getu. destruct (i + n <=? length b)%nat eqn:Q; [|lia]. apply G. Qed.
Lemma gets_any {B} (R : option B -> Prop) b m r i n (k : Z -> option B) : length b = (m + r)%nat -> (i + n <=? m)%nat = true -> (forall v, R (k v)) -> R (bind (gets b i n) k).
Proof. intros L H G. unfold gets, getu. destruct (i + n <=? length b)%nat eqn:Q; [|lia]. apply G. Qed.
Ltac anyr L := repeat (cbv beta zeta; lazymatch goal with
  | |- ?R (bind (gets ?b ?i ?n) _) => refine (gets_any R b _ _ i n _ L eq_refl _); let v := fresh "v" in intros v
  | |- ?R (bind (getu ?b ?i ?n) _) => refine (getu_any R b _ _ i n _ L eq_refl _); let v := fresh "v" in intros v end).
Definition bds_eph (deln M0 e A OMG0 i0 omg OMGd idot crs crc cus cuc cis cic toes toe toc tot af0 af1 af2 week sat sva iode iodc tgd tgdb svh mode : val) : eph :=
  [ (Fdeln, deln); (FM0, M0); (Fe, e); (FA, A); (FOMG0, OMG0); (Fi0, i0); (Fomg, omg); (FOMGd, OMGd); (Fidot, idot); (Fcrs, crs); (Fcrc, crc); (Fcus, cus); (Fcuc, cuc); (Fcis, cis); (Fcic, cic);
    (Ftoes, toes); (Ftoe, toe); (Ftoc, toc); (Ftot, tot); (Faf0, af0); (Faf1, af1); (Faf2, af2); (Fweek, week); (Fsat, sat); (Fsva, sva); (Fiode, iode); (Fiodc, iodc);
    (Ftgd, tgd); (Ftgdb, tgdb); (Fsvh, svh); (Fmode, mode)].
(** the attributes kept agree whatever the others are *)
Lemma bds_same deln M0 e A OMG0 i0 omg OMGd idot crs crc cus cuc cis cic toes toe toc tot af0 af1 af2 week sat sva iode iodc tgd tgdb svh mode
    A' OMG0' i0' omg' OMGd' crc' cus' cis' cic' toes' toe' af2' tgd' tgdb' svh' :
  same_in bds_kept (OEph (bds_eph deln M0 e A OMG0 i0 omg OMGd idot crs crc cus cuc cis cic toes toe toc tot af0 af1 af2 week sat sva iode iodc tgd tgdb svh mode) None)
  (OEph (bds_eph deln M0 e A' OMG0' i0' omg' OMGd' idot crs crc' cus' cuc cis' cic' toes' toe' toc tot af0 af1 af2' week sat sva iode iodc tgd' tgdb' svh' mode) None).
Proof.
  split; [|reflexivity]. unfold bds_eph, bds_kept.
  repeat (apply Forall2_cons; [cbn [fst snd In]; split; [reflexivity|intros Q; first [reflexivity|exfalso; clear - Q; decompose [or] Q; (discriminate || contradiction)]]|]). apply Forall2_nil.
Qed.
Lemma bds_any hd t f rest : rbds_ok f -> forall R : option (nat * rout) -> Prop, (let k := d_kep f in forall A OMG0 i0 omg OMGd crc cus cis cic toes toe tgd tgdb svh,
  R (Some (533%nat, OEph (bds_eph (Sc (y_deln k) 43) (Sc (y_M0 k) 31) (V (y_e k) 33) A OMG0 i0 omg OMGd (Sc (y_idot k) 43) (V (y_crs k) 6) crc cus (V (y_cuc k) 31) cis cic toes toe
     (T (bdt2gpst 1 (bdt2time 1 (d_week f) (y_toc k * 8)))) (T (GT t 0)) (V (y_af0 k) 33) (V (y_af1 k) 50) (V (y_af0 k) 66) (I (d_week f)) (I (prn2sat BDS (d_prn f))) (I (d_ura f))
     (I (d_aode f)) (I (d_aodc f)) tgd tgdb svh (I 0)) None))) ->
  R (decode_reph (GT t 0) (rmsg hd 1042 (rbds_fields f) rest)).
Proof.
  intros [(Hp & ? & ? & ? & ? & ? & ? & ?) K] R G. cbv zeta in G. kepd K.
  assert (L : length (rmsg hd 1042 (rbds_fields f) rest) = (535 + length rest)%nat) by (unfold rmsg; rewrite app_length, enc_length; reflexivity).
  unfold decode_reph. revert L. rstart hd 1042 (rbds_fields f) rest. intros L. unfold rbds_fields in A. cbn [app] in A. cbv zeta in A.
  assert (U 12 1042) by (unfold U; lia). assert (U 6 (d_prn f)) by (unfold U; lia).
  match goal with |- R ?m => eassert (E : m = _) by (rd1; cbn [Z.eqb Pos.eqb orb]; unfold rtcm_bds_eph; rds; reflexivity) end.
  rewrite E. clear E A. anyr L. apply G.
Qed.
Lemma bds_ok hd t f rest : rbds_ok f -> exists e,
  decode_reph (GT t 0) (rmsg hd 1042 (rbds_fields f) rest) = Some (533%nat, e) /\ same_in bds_kept e (rbds_of t f) /\
  forall v, reports (Some (533%nat, e)) Faf2 v <-> v = V (y_af0 (d_kep f)) 66.
Proof.
  intros H. apply (bds_any hd t f rest H). cbv zeta. intros A OMG0 i0 omg OMGd crc cus cis cic toes toe tgd tgdb svh.
  assert (Ut : U 17 (y_toc (d_kep f))) by (destruct H as [_ (_ & _ & _ & R & _)]; exact R).
  pose proof (tw 17 (y_toc (d_kep f)) Ut ltac:(lia) 8 ltac:(lia)) as Q. rewrite (bdt_gps (d_week f) (y_toc (d_kep f) * 8)), (Z.mul_comm (y_toc (d_kep f))) by exact Q.
  eexists. split; [reflexivity|]. split.
  - unfold rbds_of, kep_of. cbn [app]. apply bds_same.
  - intros v. unfold reports, bds_eph. cbn [In]. split.
    + intros R. decompose [or] R; try discriminate; try contradiction. congruence.
    + intros ->. do 21 right. left. reflexivity.
Qed.

(* ---------- GLONASS ---------- *)
Lemma mag_s n v : mag_ok n v -> S_ n v.
Proof. unfold mag_ok, S_. lia. Qed.
Lemma glo_status M P4 P3 P2 P1 P : U 2 M -> U 1 P4 -> U 1 P3 -> U 1 P2 -> U 2 P1 -> U 2 P ->
  Z.lor (Z.lor (Z.lor (Z.lor (Z.lor (Z.shiftl M 7) (Z.shiftl P4 6)) (Z.shiftl P3 5)) (Z.shiftl P2 4)) (Z.shiftl P1 2)) P = 128 * M + 64 * P4 + 32 * P3 + 16 * P2 + 4 * P1 + P.
Proof.
  unfold U. change (2 ^ 2) with 4. change (2 ^ 1) with 2. intros.
  assert (M = 0 \/ M = 1 \/ M = 2 \/ M = 3) as [->|[->|[->| ->]]] by lia; assert (P4 = 0 \/ P4 = 1) as [->| ->] by lia; assert (P3 = 0 \/ P3 = 1) as [->| ->] by lia;
  assert (P2 = 0 \/ P2 = 1) as [->| ->] by lia; assert (P1 = 0 \/ P1 = 1 \/ P1 = 2 \/ P1 = 3) as [->|[->|[->| ->]]] by lia;
  assert (P = 0 \/ P = 1 \/ P = 2 \/ P = 3) as [->|[->|[->| ->]]] by lia; reflexivity.
Qed.
Lemma glo_ok hd t f rest : rglo_ok f -> 86400 * gps0 <= t -> exists tof, (forall x, -10800 <= x < 75600 -> nearest 86400 t x (tof x)) /\
  decode_reph (GT t 0) (rmsg hd 1020 (rglo_fields twos f) rest) = Some (384%nat, rglo_of c1 c1 tof f).
Proof.
  intros H Ht. set (w := week_of t). set (s := (t - 86400 * gps0) mod 604800).
  assert (Hs : 0 <= s < 604800) by (apply Z.mod_pos_bound; lia).
  assert (Et : 86400 * gps0 + 604800 * w + s = t) by (unfold w, s, week_of; pose proof (Z.div_mod (t - 86400 * gps0) 604800 ltac:(lia)); lia).
  exists (gtod w s). split. { intros x Hx. rewrite <- Et. now apply gtod_near. }
  destruct H as ((Hp & Hc & ? & ? & H1 & Hh & Hm & Hk & ? & H2 & Hb) & ((Va & Vb & Vc) & (Pa & Pb & Pc) & (Aa & Ab & Ac)) & (H3 & Hg & H4 & ? & Hn & Hd) & (? & H5 & ? & ? & H6 & ? & ? & Hq & ? & Hr & ?)).
  apply mag_s in Va, Vb, Vc, Pa, Pb, Pc, Aa, Ab, Ac, Hg, Hn, Hd, Hq, Hr.
  unfold decode_reph. rstart hd 1020 (rglo_fields twos f) rest. unfold rglo_fields, twos in A. cbn [app] in A. cbv zeta in A.
  assert (U 12 1020) by (unfold U; lia). assert (U 6 (o_prn f)) by (unfold U; lia). assert (U 5 (o_chn f + 7)) by (unfold U; clear - Hc; lia).
  assert (U 5 (o_tkh f)) by (unfold U; clear - Hh; lia). assert (U 6 (o_tkm f)) by (unfold U; clear - Hm; lia). assert (Ub : U 7 (o_tb f)) by (unfold U; clear - Hb; lia).
  rd1. cbn [Z.eqb Pos.eqb orb]. unfold rtcm_glo_eph. rds. clear A.
  rewrite week_t2g by exact Ht. fold w s. cbv beta iota zeta. unfold U in Hk. rewrite !gday_eq by (clear - Hs Hb Hh Hm Hk; lia).
  rewrite glo_status by assumption.
  replace (Z.land (o_tb f) 127) with (o_tb f). 2:{ change 127 with (Z.ones 7). rewrite Z.land_ones by lia. symmetry. apply Z.mod_small. exact Ub. }
  replace (o_chn f + 7 - 7) with (o_chn f) by (clear; lia).
  rewrite (Z.mul_comm (o_tkh f)), (Z.mul_comm (o_tkm f)), (Z.mul_comm (o_tks f)), (Z.mul_comm (o_tb f)). reflexivity.
Qed.

