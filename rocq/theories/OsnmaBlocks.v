From Verif Require Import BaseFacts BitProofs CssrFacts TimeModel OsnmaModel OsnmaSpec OsnmaProofs OsnmaTags OsnmaHist OsnmaStep OsnmaDsm.
From Coq Require Import ZifyBool ZifyNat.
Open Scope Z_scope.

Section B.
Variable C : crypto.
Implicit Types s : ost C.
Ltac inj H := injection H as <- <-.

(* ---------- only the first 104 nb bits matter ---------- *)
Definition agree (N : nat) (d e : bits) : Prop := forall o n, (o + n <= N)%nat -> slice d o n = slice e o n.
Lemma agree_sym N d e : agree N d e -> agree N e d.
Proof. intros H o n L. symmetry. now apply H. Qed.
Lemma slice_firstn N (d : bits) o n : (o + n <= N)%nat -> slice (firstn N d) o n = slice d o n.
Proof.
  intros L. unfold slice. rewrite skipn_firstn_comm, firstn_firstn. f_equal. lia.
Qed.
Lemma agree_firstn N d : agree N (firstn N d) d.
Proof. intros o n L. now apply slice_firstn. Qed.
Lemma padded_agree hdr d e : agree (104 * Z.to_nat (bval (slice d 0 4) + 6)) d e -> padded C hdr d -> padded C hdr e.
Proof.
  set (nb := bval (slice d 0 4)). intros A. assert (NB : 0 <= nb) by apply bval_bound.
  assert (E0 : slice e 0 4 = slice d 0 4) by (symmetry; apply A; lia).
  intros (p & lk & n & PM & KL & HF & -> & B & E). fold nb in B, E.
  assert (Eks : slice e 16 4 = slice d 16 4) by (symmetry; apply A; lia).
  assert (KS : keylen (bval (slice d 16 4)) = Some lk).
  { unfold params_of in PM. cbv zeta in PM. destruct (keylen (bval (slice d 16 4))) eqn:K; [|discriminate]. cbn [bind] in PM. apply some_inj in PM. subst p. cbn [k_ks] in KL. congruence. }
  assert (PE : params_of e = Some p).
  { rewrite <- PM. unfold params_of. cbv zeta. rewrite Eks, KS. cbn [bind]. f_equal.
    rewrite <- (A 4 4)%nat, <- (A 8 2)%nat, <- (A 12 2)%nat, <- (A 14 2)%nat, <- (A 20 4)%nat, <- (A 24 8)%nat, <- (A 36 12)%nat, <- (A 48 8)%nat, <- (A 56 48)%nat,
      <- (A (104 + lk) 512)%nat, <- (A 104 lk)%nat by lia. reflexivity. }
  eexists p, lk, _. split; [exact PE|]. split; [exact KL|]. split; [exact HF|]. split; [reflexivity|]. rewrite E0. fold nb. split; [exact B|].
  unfold signed_part in *. rewrite <- (A 8 (96 + lk))%nat by lia.
  rewrite <- (A (616 + lk) (104 * Z.to_nat (nb + 6) - 104 - lk - 512))%nat by lia. exact E.
Qed.
Lemma climb_ext hf n1 n2 : forall n j i x, (forall k, (j <= k < j + n)%nat -> n1 k = n2 k) -> climb C hf n1 n j i x = climb C hf n2 n j i x.
Proof.
  induction n as [|n IH]; intros j i x E; cbn [climb]; [reflexivity|]. rewrite E by lia. apply IH. intros k K. apply E. lia.
Qed.
Lemma pkr_agree hf root id key d e : agree (104 * Z.to_nat (bval (slice d 0 4) + 6)) d e -> pkr_ok C hf root d id key -> pkr_ok C hf root e id key.
Proof.
  set (nb := bval (slice d 0 4)). intros A. assert (NB : 0 <= nb) by apply bval_bound.
  intros (nb' & len & EN & B & LN & L0 & L1 & HF & K). fold nb in EN. cbv zeta in K.
  assert (E0 : slice e 0 4 = slice d 0 4) by (symmetry; apply A; lia).
  assert (E1 : slice e 1032 4 = slice d 1032 4) by (symmetry; apply A; lia).
  exists nb', len. rewrite E0, E1. fold nb. split; [exact EN|]. split; [exact B|]. split; [exact LN|]. split; [exact L0|]. split; [exact L1|]. split; [exact HF|].
  cbv zeta. rewrite <- (A 1032 (Z.to_nat (8 + len)))%nat, <- (A (Z.to_nat (1040 + len)) (Z.to_nat (104 * nb' - 1040 - len)))%nat, <- (A 4 4)%nat, <- (A 1036 4)%nat,
    <- (A 1040 (Z.to_nat len))%nat by lia.
  destruct K as (K1 & K2 & K3). split; [exact K1|]. split; [|exact K3].
  rewrite <- K2. apply climb_ext. intros k Hk. symmetry. apply A. lia.
Qed.
Lemma dsm_ok_agree did hdr d e s : agree (104 * Z.to_nat (bval (slice d 0 4) + 6)) d e -> dsm_ok C did hdr d s -> dsm_ok C did hdr e s.
Proof.
  unfold dsm_ok. intros A. destruct (_ <=? _); [now apply padded_agree|].
  intros (root & id & key & R & K). exists root, id, key. split; [exact R|]. now apply (pkr_agree _ _ _ _ d).
Qed.

(* ---------- blocks ---------- *)
Lemma last_block_snoc b l hk : last_block b (l ++ [hk]) = if hk_bid hk =? b then Some (slice hk 16 104) else last_block b l.
Proof. unfold last_block. rewrite rev_app_distr. cbn [rev app find]. destruct (_ =? _); reflexivity. Qed.
Lemma hk_bid_range hk : 0 <= hk_bid hk < 16.
Proof. apply bval4. pose proof (slice_le hk 12 4). lia. Qed.
Lemma last_block_range b l : ~ (0 <= b < 16) -> last_block b l = None.
Proof.
  intros N. unfold last_block. destruct (find _ _) as [x|] eqn:E; [|reflexivity]. apply find_some in E. pose proof (hk_bid_range x). lia.
Qed.
Lemma last_block_in b l : last_block b l <> None -> exists hk, In hk l /\ hk_bid hk = b.
Proof.
  unfold last_block. destruct (find _ _) as [x|] eqn:E; [|easy]. intros _. apply find_some in E. destruct E as [I E]. exists x. split; [now apply in_rev|]. now apply Z.eqb_eq.
Qed.

Definition entry_ok (l : list bits) (e : Z * bits * Z) : Prop :=
  let '(flg, buf, nb) := e in
  length buf = 2000%nat /\ 0 <= nb /\
  (forall b, Z.testbit flg b = match last_block b l with Some _ => true | None => false end) /\
  (forall b x, last_block b l = Some x -> slice buf (104 * Z.to_nat b) 104 = x) /\
  (last_block 0 l <> None -> nb = announced l).
Definition recv_ok (c d : Z) (l : list bits) s : Prop :=
  (o_cid0 s < 0 \/ o_cid0 s = c) /\
  match zget d (o_dsm s) with Some e => entry_ok l e | None => l = [] end.
Lemma entry_new : entry_ok [] (0, zeros 2000, 0).
Proof.
  split; [apply zeros_len|]. split; [lia|]. split; [intros b; apply Z.bits_0|]. split; [discriminate|]. intros N. now elim N.
Qed.
(** the entry after one more block *)
Definition put_block (e : Z * bits * Z) (hk : bits) : Z * bits * Z :=
  let '(flg, buf, nb) := e in
  (Z.lor flg (Z.shiftl 1 (hk_bid hk)), splice buf (8 * 13 * Z.to_nat (hk_bid hk)) (slice hk 16 104), if hk_bid hk =? 0 then bval (slice hk 16 4) + 6 else nb).
Lemma entry_put l e hk : entry_ok l e -> length hk = 120%nat -> entry_ok (l ++ [hk]) (put_block e hk).
Proof.
  destruct e as [[flg buf] nb]. intros (L & N & F & B & A) LH. pose proof (hk_bid_range hk) as R.
  assert (SL : length (slice hk 16 104) = 104%nat) by (apply slice_length; lia).
  unfold put_block, entry_ok. split; [rewrite splice_length; lia|].
  split; [destruct (_ =? 0); [pose proof (bval_bound (slice hk 16 4)); lia|exact N]|].
  split; [|split].
  - intros b. rewrite last_block_snoc, Z.lor_spec, F.
    destruct (Z.eqb_spec (hk_bid hk) b) as [<-|NE].
    + rewrite Z.shiftl_spec, Z.sub_diag by lia. cbn. now rewrite orb_true_r.
    + destruct (Z_lt_ge_dec b 0) as [NG|PG].
      * rewrite (Z.testbit_neg_r (Z.shiftl _ _)) by lia. now rewrite orb_false_r.
      * rewrite Z.shiftl_spec by lia. replace (Z.testbit 1 (b - hk_bid hk)) with false; [now rewrite orb_false_r|].
        symmetry. destruct (Z_lt_ge_dec (b - hk_bid hk) 0); [now apply Z.testbit_neg_r|]. change 1 with (2 ^ 0). apply Z.pow2_bits_false. lia.
  - intros b x. rewrite last_block_snoc. destruct (Z.eqb_spec (hk_bid hk) b) as [<-|NE].
    + intros E. apply some_inj in E. subst x.
      apply nth_ext with (d := false) (d' := false); [rewrite slice_length; rewrite ?splice_length; lia|].
      intros i I. rewrite slice_length in I by (rewrite splice_length; lia).
      rewrite nth_slice by lia. rewrite nth_splice by lia. replace (_ && _) with true by lia. f_equal. lia.
    + intros E. assert (RB : 0 <= b < 16).
      { destruct (Z_lt_ge_dec b 0); [rewrite last_block_range in E by lia; discriminate|]. destruct (Z_lt_ge_dec b 16); [lia|]. rewrite last_block_range in E by lia. discriminate. }
      rewrite <- (B _ _ E).
      apply nth_ext with (d := false) (d' := false); [rewrite !slice_length; rewrite ?splice_length; lia|].
      intros i I. rewrite slice_length in I by (rewrite splice_length; lia).
      rewrite !nth_slice by lia. rewrite nth_splice by lia.
      match goal with |- (if ?q then _ else _) = _ => destruct q eqn:Q end; [lia|reflexivity].
  - unfold announced. rewrite last_block_snoc. destruct (Z.eqb_spec (hk_bid hk) 0) as [E|E].
    + intros _. rewrite slice_slice by lia. reflexivity.
    + exact A.
Qed.
Lemma flags_complete l flg buf nb : entry_ok l (flg, buf, nb) ->
  ((0 <? nb) && (flg =? Z.shiftl 1 nb - 1) = true -> complete l /\ nb = announced l) /\
  ((forall hk, In hk l -> hk_bid hk < announced l) -> complete l -> (0 <? nb) && (flg =? Z.shiftl 1 nb - 1) = true).
Proof.
  intros (L & N & F & B & A).
  assert (ONE : forall b, 0 <= b -> 0 <= nb -> Z.testbit (Z.shiftl 1 nb - 1) b = (b <? nb)).
  { intros b Pb Pn. rewrite Z.shiftl_1_l, Z.sub_1_r, <- Z.ones_equiv. destruct (Z.ltb_spec b nb); [apply Z.ones_spec_low; lia|apply Z.ones_spec_high; lia]. }
  split.
  - intros H. apply andb_true_iff in H. destruct H as [H1 H2]. apply Z.ltb_lt in H1. apply Z.eqb_eq in H2.
    assert (K : forall b, 0 <= b < nb -> last_block b l <> None).
    { intros b Pb. specialize (F b). rewrite H2, ONE in F by lia. destruct (last_block b l); [discriminate|]. destruct (Z.ltb_spec b nb); [discriminate|lia]. }
    assert (NA : nb = announced l) by (apply A, K; lia). split; [|exact NA]. split; [lia|]. rewrite <- NA. exact K.
  - intros BD (P & K). assert (NA : nb = announced l) by (apply A, K; lia).
    apply andb_true_iff. split; [lia|]. apply Z.eqb_eq. apply Z.bits_inj. intros b.
    destruct (Z_lt_ge_dec b 0); [now rewrite !Z.testbit_neg_r by assumption|].
    rewrite F, ONE by lia. destruct (Z.ltb_spec b nb) as [LT|GE].
    + specialize (K b ltac:(lia)). destruct (last_block b l); [reflexivity|easy].
    + destruct (last_block b l) eqn:E; [|reflexivity]. destruct (last_block_in b l) as (hk & I & Eb); [congruence|]. specialize (BD hk I). lia.
Qed.
Lemma concat_slices (buf : bits) n : (104 * n <= length buf)%nat -> concat (map (fun b => slice buf (104 * b) 104) (seq 0 n)) = firstn (104 * n) buf.
Proof.
  induction n as [|n IH]; intros L; [reflexivity|].
  rewrite seq_S, map_app, concat_app, IH by lia. cbn [map concat Nat.add]. rewrite app_nil_r.
  pose proof (slice_cat buf 0 (104 * n) 104) as Q. rewrite Nat.add_0_l in Q. unfold slice at 1 3 in Q. cbn [skipn] in Q.
  etransitivity; [exact Q|]. f_equal. lia.
Qed.
Lemma joined_buf l flg buf nb : entry_ok l (flg, buf, nb) -> complete l -> joined l = firstn (104 * Z.to_nat (announced l)) buf /\ announced l <= 16 /\ announced l = bval (slice buf 0 4) + 6.
Proof.
  intros (L & N & F & B & A) (P & K).
  assert (L16 : announced l <= 16).
  { destruct (Z_le_gt_dec (announced l) 16); [assumption|]. elim (K 16 ltac:(lia)). apply last_block_range. lia. }
  split; [|split; [exact L16|]].
  - rewrite <- concat_slices by lia. unfold joined. f_equal. apply map_ext_in. intros b I. apply in_seq in I.
    specialize (K (Z.of_nat b) ltac:(lia)). destruct (last_block (Z.of_nat b) l) as [x|] eqn:E; [|easy]. symmetry. rewrite <- (B _ _ E). now rewrite Nat2Z.id.
  - unfold announced in *. destruct (last_block 0 l) as [x|] eqn:E; [|lia]. rewrite <- (B _ _ E). rewrite slice_slice by lia. reflexivity.
Qed.

Lemma hk_step hk s s' r : decode_hk hk s = (s', r) -> length hk = 120%nat ->
  (hk_live hk \/ (~ hk_live hk /\ o_dsm s' = o_dsm s /\ o_cid0 s' = o_cid0 s)) /\
  (hk_live hk ->
   let e := match zget (hk_did hk) (o_dsm s) with Some e => e | None => (0, zeros 2000, 0) end in
   let '(flg, buf, nb) := put_block (if (o_cid0 s <? 0) || (o_cid0 s =? hk_cid hk) then e else (0, snd (fst e), snd e)) hk in
   o_cid0 s' = hk_cid hk /\
   ((0 <? nb) && (flg =? Z.shiftl 1 nb - 1) = false /\ r = Some false /\ o_dsm s' = zset (hk_did hk) (flg, buf, nb) (o_dsm s) \/
    (0 <? nb) && (flg =? Z.shiftl 1 nb - 1) = true /\
    (r = Some true <-> dsm_ok C (hk_did hk) (slice hk 0 8) buf s) /\
    (forall d, zget d (o_dsm s') = if hk_did hk =? d then Some (match r with Some true => 0 | _ => flg end, buf, nb) else zget d (o_dsm s)))).
Proof.
  unfold decode_hk. cbv zeta. intros H LH.
  fold (hk_did hk) in *. fold (hk_bid hk) in *. fold (hk_cid hk) in *.
  destruct (negb _ && negb _) eqn:B1.
  { inj H. unfold hk_live. split; [right; split; [lia|split; reflexivity]|]. lia. }
  destruct (_ =? 0) eqn:B2 in H.
  { inj H. unfold hk_live. split; [right; split; [lia|split; reflexivity]|]. lia. }
  assert (LV : hk_live hk) by (unfold hk_live; lia). split; [now left|]. intros _.
  cbn [set_hdr o_dsm o_cid0] in H.
  destruct (match zget (hk_did hk) (o_dsm s) with Some e => e | None => (0, zeros 2000, 0) end) as [[flg0 buf0] nb0] eqn:E0.
  cbn [fst snd].
  assert (EF : (if hk_cid hk =? (if o_cid0 s <? 0 then hk_cid hk else o_cid0 s) then flg0 else 0) = (if (o_cid0 s <? 0) || (o_cid0 s =? hk_cid hk) then flg0 else 0)).
  { destruct (o_cid0 s <? 0); cbn [orb]; [now rewrite Z.eqb_refl|]. now rewrite Z.eqb_sym. }
  rewrite EF in H. clear EF.
  replace (if (o_cid0 s <? 0) || (o_cid0 s =? hk_cid hk) then (flg0, buf0, nb0) else (0, buf0, nb0)) with
    ((if (o_cid0 s <? 0) || (o_cid0 s =? hk_cid hk) then flg0 else 0, buf0, nb0)) by (destruct (_ || _); reflexivity).
  set (flg1 := if (o_cid0 s <? 0) || (o_cid0 s =? hk_cid hk) then flg0 else 0) in *.
  unfold put_block.
  set (flg := Z.lor flg1 (Z.shiftl 1 (hk_bid hk))) in *. set (buf := splice buf0 _ _) in *.
  set (nb := if hk_bid hk =? 0 then _ else nb0) in *.
  destruct ((0 <? nb) && (flg =? Z.shiftl 1 nb - 1)) eqn:FC.
  2:{ inj H. split; [reflexivity|]. left. repeat split. }
  match type of H with (let '(_, _) := ?x in _) = _ => destruct x as [s1 r1] eqn:E end.
  set (sa := set_dsm _ _) in E.
  assert (DA : dsm_of (hk_did hk) sa = buf) by (unfold dsm_of, sa; cbn [set_dsm o_dsm]; rewrite zget_zset_same; reflexivity).
  assert (K : o_dsm s1 = o_dsm sa /\ o_cid0 s1 = hk_cid hk /\ (r1 = Some true <-> dsm_ok C (hk_did hk) (slice hk 0 8) buf s)).
  { unfold dsm_ok. destruct (hk_did hk <=? 11).
    - pose proof (kroot_iff _ _ _ _ _ E) as I. rewrite DA in I. apply kroot_ts in E. destruct E as (_ & _ & _ & -> & ->). split; [reflexivity|]. split; [reflexivity|]. exact I.
    - pose proof (pkr_iff _ _ _ _ _ E) as (I & _). rewrite DA in I. apply pkr_frame in E. destruct E as (_ & _ & _ & _ & -> & -> & _). split; [reflexivity|]. split; [reflexivity|]. exact I. }
  destruct K as (K1 & K2 & K3).
  assert (RR : r = r1 /\ o_cid0 s' = o_cid0 s1 /\ o_dsm s' = match r1 with Some true => zset (hk_did hk) (0, buf, nb) (o_dsm s1) | _ => o_dsm s1 end).
  { destruct r1 as [[]|]; inj H; repeat split. }
  destruct RR as (-> & R2 & R3). split; [congruence|]. right. split; [reflexivity|]. split; [exact K3|].
  intros d. rewrite R3. destruct r1 as [[]|]; rewrite K1; unfold sa; cbn [set_dsm o_dsm];
    (destruct (Z.eqb_spec (hk_did hk) d) as [->|ND]; [now rewrite ?zget_zset_same|now rewrite ?zget_zset_other by congruence]).
Qed.

Lemma receiving_ok c d l s : receiving C c d l s -> recv_ok c d l s.
Proof.
  induction 1 as [s Z N|l s hk s' r R IH LH H O|l s hk s' r R IH LH LV EC ED H|l s s' R IH E1 E2].
  - unfold recv_ok. rewrite Z. split; [now left|reflexivity].
  - destruct IH as [I1 I2]. destruct (hk_step _ _ _ _ H LH) as [[LV|(_ & E1 & E2)] K].
    + specialize (K LV). destruct (O LV) as [EC ND]. cbv zeta in K. destruct (put_block _ hk) as [[flg buf] nb].
      destruct K as (K1 & K2). split; [right; congruence|].
      assert (Z : zget d (o_dsm s') = zget d (o_dsm s)).
      { destruct K2 as [(_ & _ & ->)|(_ & _ & ->)]; [now rewrite zget_zset_other by congruence|]. destruct (Z.eqb_spec (hk_did hk) d); [congruence|reflexivity]. }
      now rewrite Z.
    + split; [now rewrite E2|]. now rewrite E1.
  - destruct IH as [I1 I2]. destruct (hk_step _ _ _ _ H LH) as [_ K]. specialize (K LV). cbv zeta in K.
    assert (G : (o_cid0 s <? 0) || (o_cid0 s =? hk_cid hk) = true) by lia. rewrite G, ED in K.
    set (e := match zget d (o_dsm s) with Some e => e | None => (0, zeros 2000, 0) end) in *.
    assert (EO : entry_ok l e). { subst e. destruct (zget d (o_dsm s)); [exact I2|]. subst l. apply entry_new. }
    pose proof (entry_put _ _ _ EO LH) as EP. destruct (put_block e hk) as [[flg buf] nb].
    destruct K as (K1 & K2). split; [right; congruence|].
    destruct K2 as [(_ & -> & ->)|(_ & _ & ->)].
    + rewrite zget_zset_same. exact EP.
    + rewrite Z.eqb_refl. destruct r as [[]|]; [|exact EP|exact EP].
      destruct EP as (P1 & P2 & P3 & P4 & P5). split; [exact P1|]. split; [exact P2|]. split; [intros b; apply Z.bits_0|]. split; [discriminate|]. intros Q. now elim Q.
  - destruct IH as [I1 I2]. unfold recv_ok. now rewrite E1, E2.
Qed.

(** the report of a DSM *)
Lemma report c d l s hk s' r : receiving C c d l s -> length hk = 120%nat -> hk_live hk -> hk_cid hk = c -> hk_did hk = d ->
  decode_hk hk s = (s', r) ->
  (r = Some true -> complete (l ++ [hk]) /\ dsm_ok C d (slice hk 0 8) (joined (l ++ [hk])) s) /\
  ((forall x, In x (l ++ [hk]) -> hk_bid x < announced (l ++ [hk])) ->
   complete (l ++ [hk]) -> dsm_ok C d (slice hk 0 8) (joined (l ++ [hk])) s -> r = Some true) /\
  (complete (l ++ [hk]) -> firstn (104 * Z.to_nat (announced (l ++ [hk]))) (dsm_of d s') = joined (l ++ [hk])).
Proof.
  intros R LH LV EC ED H. destruct (receiving_ok _ _ _ _ R) as [I1 I2].
  destruct (hk_step _ _ _ _ H LH) as [_ K]. specialize (K LV). cbv zeta in K.
  assert (G : (o_cid0 s <? 0) || (o_cid0 s =? hk_cid hk) = true) by lia. rewrite G, ED in K.
  set (e := match zget d (o_dsm s) with Some e => e | None => (0, zeros 2000, 0) end) in *.
  assert (EO : entry_ok l e). { subst e. destruct (zget d (o_dsm s)); [exact I2|]. subst l. apply entry_new. }
  pose proof (entry_put _ _ _ EO LH) as EP. destruct (put_block e hk) as [[flg buf] nb].
  destruct K as (_ & K2). destruct (flags_complete _ _ _ _ EP) as [F1 F2].
  assert (OK : complete (l ++ [hk]) -> dsm_ok C d (slice hk 0 8) buf s <-> dsm_ok C d (slice hk 0 8) (joined (l ++ [hk])) s).
  { intros CP. destruct (joined_buf _ _ _ _ EP CP) as (J & L16 & EA).
    assert (AG : agree (104 * Z.to_nat (announced (l ++ [hk]))) (joined (l ++ [hk])) buf) by (rewrite J; apply agree_firstn).
    assert (SJ : bval (slice (joined (l ++ [hk])) 0 4) = bval (slice buf 0 4)).
    { rewrite AG; [reflexivity|]. destruct CP as [CP _]. lia. }
    split; apply dsm_ok_agree; [rewrite <- EA; now apply agree_sym|rewrite SJ, <- EA; exact AG]. }
  assert (DS : dsm_of d s' = buf).
  { unfold dsm_of. destruct K2 as [(_ & _ & ->)|(_ & _ & ->)]; [now rewrite zget_zset_same|]. now rewrite Z.eqb_refl. }
  split; [|split].
  - intros ->. destruct K2 as [(_ & Q & _)|(FC & Q & _)]; [discriminate|]. destruct (F1 FC) as [CP _]. split; [exact CP|]. apply OK; [exact CP|]. now apply Q.
  - intros BD CP DK. destruct K2 as [(FC & _ & _)|(FC & Q & _)]; [rewrite F2 in FC by assumption; discriminate|]. apply Q. now apply OK.
  - intros CP. rewrite DS. symmetry. apply (joined_buf _ _ _ _ EP CP).
Qed.
End B.
