(** Histories of pages: what the buffers hold after any sequence of pages and subframes. *)
From Verif Require Import SatModel SatSpec SatProofs TimeModel TimeSpec CssrState CssrFacts RawModel RawSpec RawFacts RawGal RawLnav.
From Verif Require Import Base BaseFacts FieldFacts.
From Coq Require Import ZifyBool ZifyNat.
Notation length := List.length.
Open Scope Z_scope.

Lemma mfold_snoc {A S} (f : A -> S -> option S) l a s : mfold f (l ++ [a]) s = bind (mfold f l s) (f a).
Proof.
  revert s. induction l as [|x l IH]; intros s; cbn [app mfold].
  - cbn [bind]. now destruct (f a s).
  - destruct (f x s); cbn [bind]; [apply IH|reflexivity].
Qed.
Lemma latest_hit {A} (want : rx -> option A) h e a : want e = Some a -> latest want (h ++ [e]) = Some a.
Proof. intros H. now rewrite latest_snoc, H. Qed.
Lemma latest_miss {A} (want : rx -> option A) h e : want e = None -> latest want (h ++ [e]) = latest want h.
Proof. intros H. now rewrite latest_snoc, H. Qed.
Lemma latest_in {A} (want : rx -> option A) h a : latest want h = Some a -> exists e, In e h /\ want e = Some a.
Proof.
  induction h as [|x h IH]; cbn [latest]; [discriminate|].
  destruct (latest want h) eqn:E; intros Hx.
  - injection Hx as ->. destruct (IH eq_refl) as (e & ? & ?). exists e. split; [now right|assumption].
  - exists x. split; [now left|assumption].
Qed.

Lemma slice_at_n msg i w n : At msg i w -> length w = n -> slice msg i n = w.
Proof. intros A <-. now apply slice_at. Qed.

(* ---------- I/NAV ---------- *)
Lemma word_width w : length (enc (word_fields w)) = 128%nat.
Proof. rewrite enc_length. now destruct w. Qed.
Lemma wslot_width o : length (enc (wslot o)) = 128%nat.
Proof. destruct o; [apply word_width|now rewrite enc_length]. Qed.
Definition inav_inv (h : list rx) (d : dict Z bits) : Prop := forall prn, 1 <= prn <= 36 ->
  exists b, zget (prn - 1) d = Some b /\ length b = 1600%nat /\
    forall k, 1 <= k <= 5 -> At b (128 * Z.to_nat k) (enc (wslot (latest (inav_word prn k) h))).
Lemma inav_slots h prn k : Forall rx_ok h -> slot_ok k (latest (inav_word prn k) h).
Proof.
  intros H. destruct (latest (inav_word prn k) h) eqn:E; [|exact Logic.I].
  apply latest_in in E. destruct E as (e & He & Hw). rewrite Forall_forall in H. specialize (H e He).
  destruct e; cbn [inav_word] in Hw; try discriminate.
  destruct ((g_prn p =? prn) && (wtype (g_word p) =? k)) eqn:E; [|discriminate]. injection Hw as <-.
  cbn [rx_ok] in H. destruct H as [_ H]. split; [exact H|]. lia.
Qed.
Lemma inav_result h prn sat t b : Forall rx_ok h ->
  (forall k, 1 <= k <= 5 -> At b (128 * Z.to_nat k) (enc (wslot (latest (inav_word prn k) h)))) ->
  inav_eph sat t b = Some (inav_of sat t (latest (inav_word prn 1) h, latest (inav_word prn 2) h, latest (inav_word prn 3) h,
     latest (inav_word prn 4) h, latest (inav_word prn 5) h)).
Proof.
  intros H A. apply inav_eph_ok; try (now apply inav_slots).
  - exact (A 1 ltac:(lia)). - exact (A 2 ltac:(lia)). - exact (A 3 ltac:(lia)). - exact (A 4 ltac:(lia)). - exact (A 5 ltac:(lia)).
Qed.
(** a page holds its word in two parts *)
Lemma page_slices p : slice (page_bits p) 2 112 = firstn 112 (enc (word_fields (g_word p))) /\
  slice (page_bits p) 122 16 = skipn 112 (enc (word_fields (g_word p))) /\ (138 <= length (page_bits p))%nat.
Proof.
  pose proof (word_width (g_word p)) as L. unfold page_bits.
  set (w := enc (word_fields (g_word p))) in *. clearbody w.
  assert (L1 : length (firstn 112 w) = 112%nat) by (rewrite firstn_length; lia).
  assert (L2 : length (skipn 112 w) = 16%nat) by (rewrite skipn_length; lia).
  split; [|split].
  - apply slice_at_n; [|exact L1]. exists (bitsof 2 (g_flags p)). eexists. split; [reflexivity|apply bitsof_length].
  - apply slice_at_n; [|exact L2]. exists (bitsof 2 (g_flags p) ++ firstn 112 w ++ bitsof 8 (g_mid p)). eexists.
    split; [rewrite <- !app_assoc; reflexivity|]. rewrite !app_length, !bitsof_length, L1. reflexivity.
  - rewrite !app_length, !bitsof_length, L1, L2. lia.
Qed.
Lemma word_head w : exists r, word_fields w = (6%nat, wtype w) :: r.
Proof. destruct w; eexists; reflexivity. Qed.
Lemma wtype_range w : word_ok w -> 0 <= wtype w < 64.
Proof. destruct w; cbn [wtype word_ok]; lia. Qed.
Lemma page_sid p : word_ok (g_word p) -> getu (page_bits p) 2 6 = Some (wtype (g_word p)).
Proof.
  intros H. destruct (word_head (g_word p)) as [r E]. pose proof (wtype_range _ H) as R.
  assert (A : At (page_bits p) 2 (bitsof 6 (wtype (g_word p)))).
  { unfold page_bits. rewrite E. change (enc ((6%nat, wtype (g_word p)) :: r)) with (bitsof 6 (wtype (g_word p)) ++ enc r).
    rewrite firstn_app. rewrite (firstn_all2 (bitsof 6 _)) by (rewrite bitsof_length; lia).
    exists (bitsof 2 (g_flags p)). eexists. split; [rewrite <- !app_assoc; reflexivity|apply bitsof_length]. }
  pose proof (getu_at _ _ _ A) as G. rewrite bitsof_length, bitsof_bval_mod in G. rewrite G, Z.mod_small by exact R. reflexivity.
Qed.
Ltac rdsome := match goal with |- bind (getu ?m ?i ?n) _ = _ =>
  let v := fresh "v" in let E := fresh "Ev" in destruct (getu_some m i n) as [v E]; [lia|]; rewrite E; cbn [bind]; clear E end.
Lemma inav_step h s t p : Forall rx_ok h -> page_ok p -> inav_inv h (gal_inav s) ->
  exists d, decode_gal_inav (prn2sat GAL (g_prn p)) t (page_bits p) s
      = Some (RawSt (gps_lnav s) (qzs_lnav s) d (gal_fnav s),
          if (wtype (g_word p) =? 0) || (wtype (g_word p) >? 5) then None else
          let l k := latest (inav_word (g_prn p) k) (h ++ [RInav t p]) in
          inav_of (prn2sat GAL (g_prn p)) t (l 1, l 2, l 3, l 4, l 5))
    /\ inav_inv (h ++ [RInav t p]) d.
Proof.
  intros Hh [Hp Hw] Hi. destruct (sat2prn_prn2sat GAL (g_prn p) Hp) as [Es _].
  destruct (page_slices p) as (S1 & S2 & Lp). pose proof (page_sid p Hw) as Gs.
  assert (Hh' : Forall rx_ok (h ++ [RInav t p])) by (apply Forall_app; split; [exact Hh|apply Forall_cons; [split; assumption|apply Forall_nil]]).
  set (q := g_prn p) in *. set (w := g_word p) in *.
  unfold decode_gal_inav. rewrite Es. cbv beta iota.
  set (dec := bind (getu (page_bits p) 0 1) _).
  assert (Ed : forall sx r, (if (wtype w =? 0) || (wtype w >? 5) then Some (s, None) else
     do buff <- zget (q - 1) (gal_inav s);
     do b1 <- copybytes 14 (page_bits p) 2 buff (wtype w * 16);
     do b2 <- copybytes 2 (page_bits p) (2 + 8 * 14 + 8) b1 (wtype w * 16 + 14);
     do r <- inav_eph (prn2sat GAL q) t b2;
     Some (RawSt (gps_lnav s) (qzs_lnav s) (zset (q - 1) b2 (gal_inav s)) (gal_fnav s), r)) = Some (sx, r) -> dec = Some (sx, r)).
  { intros sx r E. unfold dec. rdsome. rdsome. rewrite Gs. cbn [bind]. rdsome. exact E. }
  clearbody dec. destruct ((wtype w =? 0) || (wtype w >? 5)) eqn:Et.
  - exists (gal_inav s). split; [apply Ed; now destruct s|].
    intros prn Hprn. destruct (Hi prn Hprn) as (b & Eb & Lb & Ab). exists b. split; [exact Eb|]. split; [exact Lb|].
    intros k Hk. rewrite latest_miss; [now apply Ab|]. cbn [inav_word]. fold w. replace (wtype w =? k) with false by lia. now rewrite andb_false_r.
  - pose proof (wtype_range w Hw) as Hr. set (k0 := wtype w) in *.
    destruct (Hi q Hp) as (b & Eb & Lb & Ab). destruct (bytelen_eq b 200 Lb) as [Bb Bb'].
    pose proof (word_width w) as Ww.
    set (b2 := splice b (128 * Z.to_nat k0) (enc (word_fields w))).
    assert (L2 : length b2 = 1600%nat) by (unfold b2; rewrite splice_length; lia).
    assert (C1 : copybytes 14 (page_bits p) 2 b (k0 * 16) = Some (splice b (128 * Z.to_nat k0) (firstn 112 (enc (word_fields w))))).
    { rewrite copybytes_ok by lia. change (8 * 14)%nat with 112%nat. rewrite S1. do 2 f_equal. lia. }
    assert (L1 : length (firstn 112 (enc (word_fields w))) = 112%nat) by (rewrite firstn_length; lia).
    set (b1 := splice b (128 * Z.to_nat k0) (firstn 112 (enc (word_fields w)))) in *.
    assert (Lb1 : length b1 = 1600%nat) by (unfold b1; rewrite splice_length; lia).
    destruct (bytelen_eq b1 200 Lb1) as [Bb1 Bb1'].
    assert (C2 : copybytes 2 (page_bits p) (2 + 8 * 14 + 8) b1 (k0 * 16 + 14) = Some b2).
    { rewrite copybytes_ok by lia. change (2 + 8 * 14 + 8)%nat with 122%nat. change (8 * 2)%nat with 16%nat. rewrite S2. f_equal.
      unfold b1, b2. replace (8 * Z.to_nat (k0 * 16 + 14))%nat with (128 * Z.to_nat k0 + length (firstn 112 (enc (word_fields w))))%nat by lia.
      rewrite splice_splice by (rewrite skipn_length; lia). now rewrite firstn_skipn. }
    assert (A2 : forall k, 1 <= k <= 5 -> At b2 (128 * Z.to_nat k) (enc (wslot (latest (inav_word q k) (h ++ [RInav t p]))))).
    { intros k Hk. destruct (Z.eq_dec k k0) as [->|Hne].
      - rewrite latest_hit with (a := w); [cbn [wslot]; apply splice_at; lia|]. cbn [inav_word]. fold q w k0. now rewrite !Z.eqb_refl.
      - rewrite latest_miss; [|cbn [inav_word]; fold q w k0; replace (k0 =? k) with false by lia; now rewrite andb_false_r].
        apply At_keep; [now apply Ab| lia |]. rewrite wslot_width, Ww. lia. }
    exists (zset (q - 1) b2 (gal_inav s)). split.
    + apply Ed. rewrite Eb. cbn [bind]. rewrite C1. cbn [bind]. rewrite C2. cbn [bind].
      rewrite (inav_result (h ++ [RInav t p]) q _ t b2 Hh' A2). reflexivity.
    + intros prn Hprn. destruct (Z.eq_dec prn q) as [->|Hne].
      * exists b2. rewrite zget_zset_same. repeat split; [exact L2|exact A2].
      * destruct (Hi prn Hprn) as (b' & Eb' & Lb' & Ab'). exists b'. rewrite zget_zset_other by lia. split; [exact Eb'|]. split; [exact Lb'|].
        intros k Hk. rewrite latest_miss; [now apply Ab'|]. cbn [inav_word]. fold q. replace (q =? prn) with false by lia. reflexivity.
Qed.

(* ---------- F/NAV ---------- *)
Lemma fpage_width p : length (enc (fpage_fields p)) = 248%nat.
Proof. rewrite enc_length. now destruct p. Qed.
Lemma fslot_width k o : length (enc (fslot k o)) = 248%nat.
Proof. destruct o; [apply fpage_width|]. cbn [fslot]. now destruct (k =? 1); rewrite enc_length. Qed.
Definition fnav_inv (h : list rx) (d : dict Z bits) : Prop := forall prn, 1 <= prn <= 36 ->
  exists b, zget (prn - 1) d = Some b /\ length b = 1600%nat /\
    forall k, 1 <= k <= 4 -> At b (248 * Z.to_nat (k - 1)) (enc (fslot k (latest (fnav_page prn k) h))).
Lemma fnav_slots h prn k : Forall rx_ok h -> fslot_ok k (latest (fnav_page prn k) h).
Proof.
  intros H. destruct (latest (fnav_page prn k) h) eqn:E; [|exact Logic.I].
  apply latest_in in E. destruct E as (e & He & Hw). rewrite Forall_forall in H. specialize (H e He).
  destruct e; cbn [fnav_page] in Hw; try discriminate.
  destruct ((prn0 =? prn) && (ftype p =? k)) eqn:E; [|discriminate]. injection Hw as <-.
  cbn [rx_ok] in H. destruct H as [_ H]. split; [exact H|]. lia.
Qed.
(** the six bits after the page type: the satellite number in page 1, part of the issue of data in the others *)
Definition svid_bits (p : fpage) : Z :=
  match p with
  | F1 svid _ _ _ _ _ _ _ _ _ _ _ _ _ _ _ _ => svid
  | F2 iod _ _ _ _ _ _ _ _ _ => iod / 2 ^ 4
  | F3 iod _ _ _ _ _ _ _ _ _ _ _ => iod / 2 ^ 4
  | F4 iod _ _ _ => iod / 2 ^ 4
  | Fx _ body => (body / 2 ^ 236) mod 64
  end.
Lemma bitsof_split a c v : bitsof (a + c) v = bitsof a (v / 2 ^ Z.of_nat c) ++ bitsof c v.
Proof.
  induction a as [|a IH]; [reflexivity|]. cbn [Nat.add bitsof app]. rewrite IH. f_equal.
  rewrite <- Z.shiftr_div_pow2 by lia. rewrite Z.shiftr_spec by lia. f_equal. lia.
Qed.
Lemma fpage_heads p rest : fpage_ok p ->
  getu (enc (fpage_fields p) ++ rest) 0 6 = Some (ftype p) /\ getu (enc (fpage_fields p) ++ rest) 6 6 = Some (svid_bits p).
Proof.
  intros H.
  assert (K : exists x r, enc (fpage_fields p) = bitsof 6 (ftype p) ++ bitsof 6 x ++ r /\ x mod 64 = svid_bits p /\ 0 <= ftype p < 64).
  { destruct p; cbn [fpage_fields enc flat_map fst snd ftype svid_bits fpage_ok] in *; unfold U in *.
    - eexists _, _. split; [reflexivity|]. rewrite Z.mod_small by lia. lia.
    - eexists _, _. change 10%nat with (6 + 4)%nat. rewrite bitsof_split, <- !app_assoc. split; [reflexivity|]. rewrite Z.mod_small; [lia|].
      split; [apply Z.div_pos; lia|apply Z.div_lt_upper_bound; lia].
    - eexists _, _. change 10%nat with (6 + 4)%nat. rewrite bitsof_split, <- !app_assoc. split; [reflexivity|]. rewrite Z.mod_small; [lia|].
      split; [apply Z.div_pos; lia|apply Z.div_lt_upper_bound; lia].
    - eexists _, _. change 10%nat with (6 + 4)%nat. rewrite bitsof_split, <- !app_assoc. split; [reflexivity|]. rewrite Z.mod_small; [lia|].
      split; [apply Z.div_pos; lia|apply Z.div_lt_upper_bound; lia].
    - exists (body / 2 ^ 236), (bitsof 236 body). change 242%nat with (6 + 236)%nat. rewrite bitsof_split, app_nil_r.
      change (Z.of_nat 236) with 236. split; [reflexivity|]. split; [reflexivity|]. lia. }
  destruct K as (x & r & E & Hx & Ht). rewrite E. split.
  - assert (A : At ((bitsof 6 (ftype p) ++ bitsof 6 x ++ r) ++ rest) 0 (bitsof 6 (ftype p))).
    { exists [], ((bitsof 6 x ++ r) ++ rest). split; [now rewrite <- app_assoc|reflexivity]. }
    pose proof (getu_at _ _ _ A) as G. rewrite bitsof_length, bitsof_bval_mod in G. rewrite G, Z.mod_small by exact Ht. reflexivity.
  - assert (A : At ((bitsof 6 (ftype p) ++ bitsof 6 x ++ r) ++ rest) 6 (bitsof 6 x)).
    { exists (bitsof 6 (ftype p)), (r ++ rest). split; [now rewrite <- !app_assoc|apply bitsof_length]. }
    pose proof (getu_at _ _ _ A) as G. rewrite bitsof_length, bitsof_bval_mod in G. rewrite G. f_equal. exact Hx.
Qed.
Lemma fnav_step h s q p rest : Forall rx_ok h -> 1 <= q <= 36 -> fpage_ok p -> fnav_inv h (gal_fnav s) ->
  exists d, decode_gal_fnav (prn2sat GAL q) (enc (fpage_fields p) ++ rest) s
      = Some (RawSt (gps_lnav s) (qzs_lnav s) (gal_inav s) d,
          if ftype p >? 4 then None else
          let l k := latest (fnav_page q k) (h ++ [RFnav q p rest]) in
          if svid_bits p =? svid_of (l 1) then fnav_of (prn2sat GAL q) (l 1, l 2, l 3, l 4) else None)
    /\ fnav_inv (h ++ [RFnav q p rest]) d.
Proof.
  intros Hh Hq Hp Hi. destruct (sat2prn_prn2sat GAL q Hq) as [Es _]. destruct (fpage_heads p rest Hp) as [G1 G2].
  set (e := RFnav q p rest).
  assert (Hh' : Forall rx_ok (h ++ [e])) by (apply Forall_app; split; [exact Hh|apply Forall_cons; [split; assumption|apply Forall_nil]]).
  pose proof (fpage_width p) as Wp. set (msg := enc (fpage_fields p) ++ rest) in *.
  assert (Lm : (248 <= length msg)%nat) by (unfold msg; rewrite app_length; lia).
  assert (Sm : slice msg 0 248 = enc (fpage_fields p)).
  { rewrite <- Wp. apply slice_at. exists [], rest. split; reflexivity. }
  unfold decode_gal_fnav. rewrite Es. cbv beta iota. rewrite G1, G2. cbn [bind]. destruct (getu_some msg 12 10) as [v Ev]; [lia|]. rewrite Ev. cbn [bind]. clear v Ev.
  assert (Hr : 0 <= ftype p) by (destruct p; cbn [ftype fpage_ok] in *; lia).
  destruct (ftype p >? 4) eqn:Et.
  - exists (gal_fnav s). split; [now destruct s|].
    intros prn Hprn. destruct (Hi prn Hprn) as (b & Eb & Lb & Ab). exists b. split; [exact Eb|]. split; [exact Lb|].
    intros k Hk. rewrite latest_miss; [now apply Ab|]. unfold e; cbn [fnav_page]. replace (ftype p =? k) with false by lia. now rewrite andb_false_r.
  - destruct (Hi q Hq) as (b & Eb & Lb & Ab). destruct (bytelen_eq b 200 Lb) as [Bb Bb'].
    set (o := if ftype p =? 0 then 1352%nat else (248 * Z.to_nat (ftype p - 1))%nat).
    set (b2 := splice b o (enc (fpage_fields p))).
    assert (C : copybytes 31 msg 0 b ((ftype p - 1) * 31) = Some b2).
    { rewrite copybytes_wrap; try lia.
      - change (8 * 31)%nat with 248%nat. rewrite Sm. unfold b2, o, wrapidx. do 2 f_equal.
        destruct (Z.eqb_spec (ftype p) 0) as [->|]; [rewrite Bb; reflexivity|].
        replace ((ftype p - 1) * 31 <? 0) with false by lia. lia.
      - unfold wrapidx. rewrite Bb. destruct ((ftype p - 1) * 31 <? 0) eqn:?; lia.
      - unfold wrapidx. rewrite Bb. destruct ((ftype p - 1) * 31 <? 0) eqn:?; lia. }
    assert (Lo : (o + 248 <= 1600)%nat) by (unfold o; destruct (ftype p =? 0) eqn:?; lia).
    assert (L2 : length b2 = 1600%nat) by (unfold b2; rewrite splice_length; lia).
    assert (A2 : forall k, 1 <= k <= 4 -> At b2 (248 * Z.to_nat (k - 1)) (enc (fslot k (latest (fnav_page q k) (h ++ [e]))))).
    { intros k Hk. destruct (Z.eq_dec k (ftype p)) as [->|Hne].
      - rewrite latest_hit with (a := p); [|unfold e; cbn [fnav_page]; now rewrite !Z.eqb_refl].
        cbn [fslot]. replace (248 * Z.to_nat (ftype p - 1))%nat with o by (unfold o; now replace (ftype p =? 0) with false by lia).
        apply splice_at. lia.
      - rewrite latest_miss; [|unfold e; cbn [fnav_page]; replace (ftype p =? k) with false by lia; now rewrite andb_false_r].
        apply At_keep; [now apply Ab| lia |]. rewrite fslot_width, Wp. unfold o. destruct (ftype p =? 0) eqn:?; lia. }
    exists (zset (q - 1) b2 (gal_fnav s)). split.
    + rewrite Eb. cbn [bind]. rewrite C. cbn [bind].
      rewrite (fnav_eph_ok (prn2sat GAL q) (svid_bits p) b2 (latest (fnav_page q 1) (h ++ [e])) (latest (fnav_page q 2) (h ++ [e]))
        (latest (fnav_page q 3) (h ++ [e])) (latest (fnav_page q 4) (h ++ [e]))); try (now apply fnav_slots); [reflexivity| | | |].
      * exact (A2 1 ltac:(lia)). * exact (A2 2 ltac:(lia)). * exact (A2 3 ltac:(lia)). * exact (A2 4 ltac:(lia)).
    + intros prn Hprn. destruct (Z.eq_dec prn q) as [->|Hne].
      * exists b2. rewrite zget_zset_same. repeat split; [exact L2|exact A2].
      * destruct (Hi prn Hprn) as (b' & Eb' & Lb' & Ab'). exists b'. rewrite zget_zset_other by lia. split; [exact Eb'|]. split; [exact Lb'|].
        intros k Hk. rewrite latest_miss; [now apply Ab'|]. unfold e; cbn [fnav_page]. replace (q =? prn) with false by lia. reflexivity.
Qed.

(* ---------- LNAV ---------- *)
Lemma sframe_width f : length (enc (sframe_fields f)) = 320%nat.
Proof. rewrite enc_length. destruct f as [? ? ? ? ? [] ? ?]; reflexivity. Qed.
Lemma sslot_width o : length (enc (sslot o)) = 320%nat.
Proof. destruct o; [apply sframe_width|now rewrite enc_length]. Qed.
Definition lnav_inv (sys : gnss) (h : list rx) (first last : Z) (d : dict Z bits) : Prop := forall prn, first <= prn <= last ->
  exists b, zget (prn - first) d = Some b /\ length b = (8 * bytelen b)%nat /\ (200 <= bytelen b)%nat /\
    forall k, 1 <= k <= 3 -> At b (320 * Z.to_nat (k - 1)) (enc (sslot (latest (lnav_frame sys prn k) h))).
Lemma gnss_eqb_refl s : gnss_eqb s s = true. Proof. now destruct s. Qed.
Lemma lnav_slots sys h prn k : Forall rx_ok h -> sslot_ok k (latest (lnav_frame sys prn k) h).
Proof.
  intros H. destruct (latest (lnav_frame sys prn k) h) eqn:E; [|exact Logic.I].
  apply latest_in in E. destruct E as (e & He & Hw). rewrite Forall_forall in H. specialize (H e He).
  destruct e; cbn [lnav_frame] in Hw; try discriminate.
  destruct (gnss_eqb sys0 sys && (prn0 =? prn) && (sid (s_body f) =? k)) eqn:E; [|discriminate]. injection Hw as <-.
  cbn [rx_ok] in H. destruct H as [_ H]. split; [exact H|]. lia.
Qed.
Lemma frame_heads f rest : sframe_ok f ->
  getu (enc (sframe_fields f) ++ rest) 2 8 = Some 139 /\ getu (enc (sframe_fields f) ++ rest) 53 3 = Some (sid (s_body f)).
Proof.
  intros [_ H].
  assert (Hi : 0 <= sid (s_body f) < 8) by (destruct (s_body f); cbn [sid sbody_ok] in *; lia).
  assert (A : At (enc (sframe_fields f) ++ rest) 0 (enc (sframe_fields f))) by (exists [], rest; split; reflexivity).
  unfold sframe_fields, sframe_words in *. cbn [framed app] in *.
  assert (Hw : exists r, framed (tl (tl (s_fill f))) (tl (tl (s_par f))) (body_words (s_body f)) = r) by eauto.
  destruct Hw as [r Er]. cbn [tl] in *. rewrite Er in *. clear Er.
  split.
  - eapply getu_u; [exact A|reflexivity|reflexivity|]. split; [discriminate|reflexivity].
  - eapply getu_u; [exact A|reflexivity|reflexivity|]. exact Hi.
Qed.
Definition lstore (b : bits) (f : sframe) : bits :=
  setslice b ((sid (s_body f) - 1) * 40) ((sid (s_body f) - 1) * 40 + 40) (enc (sframe_fields f)).
Lemma lstore_ok sys h q b week f rest : sframe_ok f ->
  length b = (8 * bytelen b)%nat -> (200 <= bytelen b)%nat ->
  (forall k, 1 <= k <= 3 -> At b (320 * Z.to_nat (k - 1)) (enc (sslot (latest (lnav_frame sys q k) h)))) ->
  let b2 := lstore b f in
  length b2 = (8 * bytelen b2)%nat /\ (200 <= bytelen b2)%nat /\
  forall k, 1 <= k <= 3 -> At b2 (320 * Z.to_nat (k - 1)) (enc (sslot (latest (lnav_frame sys q k) (h ++ [RLnav week sys q f rest])))).
Proof.
  intros [_ Hf] Lb Hb Ab b2. unfold lstore in b2. pose proof (sframe_width f) as Wf.
  assert (Hi : 0 <= sid (s_body f) < 8) by (destruct (s_body f); cbn [sid sbody_ok] in *; lia).
  set (id := sid (s_body f)) in *.
  assert (L2 : exists n, length b2 = (8 * n)%nat /\ (200 <= n)%nat).
  { unfold b2. rewrite setslice_length, Wf by exact Lb. pose proof (pyidx_le b ((id - 1) * 40)). pose proof (pyidx_le b ((id - 1) * 40 + 40)).
    exists (pyidx b ((id - 1) * 40) + 40 + (bytelen b - Nat.max (pyidx b ((id - 1) * 40)) (pyidx b ((id - 1) * 40 + 40))))%nat. split; [lia|].
    unfold pyidx in *. destruct ((id - 1) * 40 <? 0) eqn:?; destruct ((id - 1) * 40 + 40 <? 0) eqn:?; lia. }
  destruct L2 as (n & L2 & Hn). destruct (bytelen_eq b2 n L2) as [B2 B2']. split; [exact B2'|]. split; [lia|].
  intros k Hk. destruct (Z.eq_dec k id) as [->|Hne].
  - rewrite latest_hit with (a := f).
    2:{ cbn [lnav_frame]. fold id. now rewrite gnss_eqb_refl, !Z.eqb_refl. }
    cbn [sslot]. unfold b2. rewrite setslice_splice by lia. replace (320 * Z.to_nat (id - 1))%nat with (8 * Z.to_nat ((id - 1) * 40))%nat by lia.
    apply splice_at. lia.
  - rewrite latest_miss.
    2:{ cbn [lnav_frame]. fold id. replace (id =? k) with false by lia. now rewrite andb_false_r. }
    destruct (Z.leb_spec 1 id) as [H1|H1]; [destruct (Z.leb_spec id 5) as [H5|H5]|].
    + unfold b2. rewrite setslice_splice by lia. apply At_keep; [now apply Ab|lia|]. rewrite sslot_width, Wf. lia.
    + unfold b2. apply setslice_keep; [now apply Ab| |exact Lb]. rewrite sslot_width. unfold pyidx. replace ((id - 1) * 40 <? 0) with false by lia. lia.
    + unfold b2. apply setslice_keep; [now apply Ab| |exact Lb]. rewrite sslot_width. unfold pyidx. replace ((id - 1) * 40 <? 0) with true by lia. lia.
Qed.
Lemma head_frame f rest : RawModel.head 40 (enc (sframe_fields f) ++ rest) = enc (sframe_fields f).
Proof.
  unfold RawModel.head. change (8 * 40)%nat with 320%nat. pose proof (sframe_width f) as W. rewrite firstn_app, W, Nat.sub_diag, firstn_O, app_nil_r.
  apply firstn_all2. lia.
Qed.
Lemma lnav_result sys h q week sat b : Forall rx_ok h ->
  (forall k, 1 <= k <= 3 -> At b (320 * Z.to_nat (k - 1)) (enc (sslot (latest (lnav_frame sys q k) h)))) ->
  lnav_eph week sat b = Some (lnav_of week sat (sgn 32) (at_week bds0)
     (latest (lnav_frame sys q 1) h, latest (lnav_frame sys q 2) h, latest (lnav_frame sys q 3) h)).
Proof.
  intros H A. apply lnav_eph_ok; try (now apply lnav_slots).
  - exact (A 1 ltac:(lia)). - exact (A 2 ltac:(lia)). - exact (A 3 ltac:(lia)).
Qed.
Lemma gnss_eqb_neq a b : a <> b -> gnss_eqb a b = false.
Proof. destruct a, b; try reflexivity; congruence. Qed.
Lemma lnav_other sys h first last d e : (forall prn k, lnav_frame sys prn k e = None) -> lnav_inv sys h first last d -> lnav_inv sys (h ++ [e]) first last d.
Proof.
  intros He Hi prn Hp. destruct (Hi prn Hp) as (b & E & L & B & A). exists b. repeat (split; [assumption|]).
  intros k Hk. rewrite latest_miss by apply He. now apply A.
Qed.
Lemma lnav_upd sys h first last d week q f rest b : sframe_ok f -> first <= q <= last -> lnav_inv sys h first last d ->
  zget (q - first) d = Some b ->
  lnav_inv sys (h ++ [RLnav week sys q f rest]) first last (zset (q - first) (lstore b f) d).
Proof.
  intros Hf Hq Hi Eb prn Hprn. destruct (Z.eq_dec prn q) as [->|Hne].
  - destruct (Hi q Hq) as (b' & E & L & B & A). assert (b' = b) by congruence. subst b'.
    exists (lstore b f). rewrite zget_zset_same. split; [reflexivity|]. now apply lstore_ok.
  - destruct (Hi prn Hprn) as (b' & E & L & B & A). exists b'. rewrite zget_zset_other by lia. repeat (split; [assumption|]).
    intros k Hk. rewrite latest_miss; [now apply A|]. cbn [lnav_frame]. replace (q =? prn) with false by lia. now rewrite andb_false_r.
Qed.

(* ---------- all together ---------- *)
Definition raw_inv (h : list rx) (s : rawst) : Prop :=
  lnav_inv GPS h 1 32 (gps_lnav s) /\ lnav_inv QZS h 193 209 (qzs_lnav s) /\ inav_inv h (gal_inav s) /\ fnav_inv h (gal_fnav s).
Lemma inav_other h d e : (forall prn k, inav_word prn k e = None) -> inav_inv h d -> inav_inv (h ++ [e]) d.
Proof.
  intros He Hi prn Hp. destruct (Hi prn Hp) as (b & E & L & A). exists b. repeat (split; [assumption|]).
  intros k Hk. rewrite latest_miss by apply He. now apply A.
Qed.
Lemma fnav_other h d e : (forall prn k, fnav_page prn k e = None) -> fnav_inv h d -> fnav_inv (h ++ [e]) d.
Proof.
  intros He Hi prn Hp. destruct (Hi prn Hp) as (b & E & L & A). exists b. repeat (split; [assumption|]).
  intros k Hk. rewrite latest_miss by apply He. now apply A.
Qed.
(** what each page or subframe returns, [h] including it *)
Definition result_of (h : list rx) (e : rx) : option eph :=
  match e with
  | RInav t p =>
      if (wtype (g_word p) =? 0) || (wtype (g_word p) >? 5) then None else
      let l k := latest (inav_word (g_prn p) k) h in inav_of (prn2sat GAL (g_prn p)) t (l 1, l 2, l 3, l 4, l 5)
  | RFnav q p _ =>
      if ftype p >? 4 then None else
      let l k := latest (fnav_page q k) h in
      if svid_bits p =? svid_of (l 1) then fnav_of (prn2sat GAL q) (l 1, l 2, l 3, l 4) else None
  | RLnav week sys q _ _ =>
      let l k := latest (lnav_frame sys q k) h in
      lnav_of week (prn2sat sys q) (sgn 32) (at_week bds0) (l 1, l 2, l 3)
  end.
Lemma raw_step h s e : Forall rx_ok h -> rx_ok e -> raw_inv h s ->
  exists s', feed e s = Some (s', result_of (h ++ [e]) e) /\ raw_inv (h ++ [e]) s'.
Proof.
  intros Hh He (I1 & I2 & I3 & I4). destruct e as [t p|q p rest|week sys q f rest]; cbn [feed result_of rx_ok] in *.
  - destruct (inav_step h s t p Hh He I3) as (d & E & Hd). eexists. split; [exact E|].
    repeat split; cbn [gps_lnav qzs_lnav gal_inav gal_fnav]; [now apply lnav_other|now apply lnav_other|exact Hd|now apply fnav_other].
  - destruct He as [Hq Hp]. destruct (fnav_step h s q p rest Hh Hq Hp I4) as (d & E & Hd). eexists. split; [exact E|].
    repeat split; cbn [gps_lnav qzs_lnav gal_inav gal_fnav]; [now apply lnav_other|now apply lnav_other|now apply inav_other|exact Hd].
  - destruct He as [Hq Hf]. set (e := RLnav week sys q f rest).
    assert (Hh' : Forall rx_ok (h ++ [e])) by (apply Forall_app; split; [exact Hh|apply Forall_cons; [split; assumption|apply Forall_nil]]).
    destruct (frame_heads f rest Hf) as [G1 G2].
    destruct Hq as [[-> Hq]|[-> Hq]].
    + destruct (sat2prn_prn2sat GPS q Hq) as [Es _]. unfold decode_gps_lnav. rewrite Es, G1. cbv beta iota. cbn [bind Z.eqb Pos.eqb negb].
      destruct (I1 q Hq) as (b & Eb & L & B & A). rewrite Eb. cbn [bind]. rewrite G2. cbn [bind]. rewrite head_frame.
      fold (lstore b f). pose proof (lstore_ok GPS h q b week f rest Hf L B A) as (L2 & B2 & A2).
      rewrite (lnav_result GPS _ q week (prn2sat GPS q) _ Hh' A2). cbn [bind]. eexists. split; [reflexivity|].
      repeat split; cbn [gps_lnav qzs_lnav gal_inav gal_fnav]; [now apply lnav_upd|now apply lnav_other|now apply inav_other|now apply fnav_other].
    + destruct (sat2prn_prn2sat QZS q Hq) as [Es _]. unfold decode_gps_lnav. rewrite Es, G1. cbv beta iota. cbn [bind Z.eqb Pos.eqb negb].
      destruct (I2 q Hq) as (b & Eb & L & B & A). rewrite Eb. cbn [bind]. rewrite G2. cbn [bind]. rewrite head_frame.
      fold (lstore b f). pose proof (lstore_ok QZS h q b week f rest Hf L B A) as (L2 & B2 & A2).
      rewrite (lnav_result QZS _ q week (prn2sat QZS q) _ Hh' A2). cbn [bind]. eexists. split; [reflexivity|].
      repeat split; cbn [gps_lnav qzs_lnav gal_inav gal_fnav]; [now apply lnav_other|now apply lnav_upd|now apply inav_other|now apply fnav_other].
Qed.
Lemma fresh_get n k : 0 <= k < Z.of_nat n -> zget k (fresh n) = Some (zbytes 200).
Proof.
  intros H. unfold fresh, zrange. assert (G : forall m i, (i <= Z.to_nat k)%nat -> (Z.to_nat k < i + m)%nat ->
    zget k (map (fun k => (k, zbytes 200)) (map Z.of_nat (seq i m))) = Some (zbytes 200)).
  { induction m as [|m IH]; intros i Hi Hm; [lia|]. cbn [seq map]. unfold zget in *. cbn [dget].
    destruct (Z.eqb_spec (Z.of_nat i) k) as [E|E]; [reflexivity|]. apply IH; lia. }
  apply G; lia.
Qed.
Lemma zb i (fl : list field) : (i + length (enc fl) <= 1600)%nat -> enc fl = repeat false (length (enc fl)) -> At (zbytes 200) i (enc fl).
Proof. intros H E. rewrite E. apply zbytes_at. exact H. Qed.
Lemma raw_start : raw_inv [] raw_new.
Proof.
  assert (L : length (zbytes 200) = 1600%nat) by reflexivity.
  repeat split; cbn [gps_lnav qzs_lnav gal_inav gal_fnav raw_new]; intros prn Hp; exists (zbytes 200).
  - split; [apply fresh_get; lia|]. split; [reflexivity|]. split; [reflexivity|]. intros k Hk. cbn [latest]. apply zb; [rewrite sslot_width; lia|reflexivity].
  - split; [apply fresh_get; lia|]. split; [reflexivity|]. split; [reflexivity|]. intros k Hk. cbn [latest]. apply zb; [rewrite sslot_width; lia|reflexivity].
  - split; [apply fresh_get; lia|]. split; [reflexivity|]. intros k Hk. cbn [latest]. apply zb; [rewrite wslot_width; lia|reflexivity].
  - split; [apply fresh_get; lia|]. split; [reflexivity|]. intros k Hk. cbn [latest]. apply zb; [rewrite fslot_width; lia|].
    cbn [fslot]. destruct (k =? 1); reflexivity.
Qed.
Lemma raw_run h : Forall rx_ok h -> exists s, feeds h raw_new = Some s /\ raw_inv h s.
Proof.
  induction h as [|e h IH] using rev_ind; intros H; [exists raw_new; split; [reflexivity|apply raw_start]|].
  apply Forall_app in H. destruct H as [Hh He]. inversion He as [|? ? He' _]. subst.
  destruct (IH Hh) as (s & E & Hi). destruct (raw_step h s e Hh He' Hi) as (s' & E' & Hi').
  exists s'. split; [|exact Hi']. unfold feeds in *. rewrite mfold_snoc, E. cbn [bind]. rewrite E'. reflexivity.
Qed.
(** every page received after any history *)
Lemma raw_any h e : Forall rx_ok h -> rx_ok e ->
  exists s s', feeds h raw_new = Some s /\ feed e s = Some (s', result_of (h ++ [e]) e).
Proof.
  intros Hh He. destruct (raw_run h Hh) as (s & E & Hi). destruct (raw_step h s e Hh He Hi) as (s' & E' & _). eauto.
Qed.
