(** BDS messages kept by satellite: the general step; B-CNAV on B1C, B2a and B2b. *)
From Verif Require Import SatModel SatProofs TimeModel TimeSpec TimeProofs CssrState CssrFacts RawModel RawSpec RawFacts RawGal RawLnav RawProofs NavModel NavSpec NavFacts.
From Verif Require Import Base BaseFacts FieldFacts.
From Coq Require Import ZifyBool ZifyNat.
Notation length := List.length.
Open Scope Z_scope.

(* ---------- histories ---------- *)
Definition lokay {M} (good : M -> bits -> Prop) (no : M -> Z) (k : Z) (o : option M) : Prop :=
  match o with Some m => (exists rest, good m rest) /\ no m = k | None => True end.
Definition bgood {M} (good : M -> bits -> Prop) (e : bev M) : Prop := let '(q, m, rest) := e in 1 <= q <= 63 /\ good m rest.
Definition binv {M} (fl : M -> list field) (no : M -> Z) (emp : list field) (ok : Z -> Prop) (off : Z -> nat) (h : list (bev M)) (d : dict Z bits) : Prop :=
  slots (bwant no) (fun _ => fl) emp ok off (fun q => 1 <= q <= 63) (fun q => q - 1) h d.
(** a message goes by, or is kept and gives a result *)
Definition quiet {M} (dec : Z -> bits -> dict Z bits -> option (dict Z bits * option eph)) (fl : M -> list field) (no : M -> Z) (ok : Z -> Prop)
    (good : M -> bits -> Prop) (emit : M -> bool) : Prop :=
  forall q m rest (d : dict Z bits), 1 <= q <= 63 -> good m rest -> emit m = false -> dec (prn2sat BDS q) (enc (fl m) ++ rest) d = Some (d, None) /\ ~ ok (no m).
Definition keeps {M} (dec : Z -> bits -> dict Z bits -> option (dict Z bits * option eph)) (fl : M -> list field) (no : M -> Z) (emp : list field)
    (ok : Z -> Prop) (off : Z -> nat) (good : M -> bits -> Prop) (emit : M -> bool) (res : Z -> (Z -> option M) -> option eph) : Prop :=
  forall q m rest (d : dict Z bits) (b : bits) (L : Z -> option M), 1 <= q <= 63 -> good m rest -> emit m = true -> zget (q - 1) d = Some b ->
    length b = (8 * bytelen b)%nat -> (200 <= bytelen b)%nat -> (forall k, ok k -> lokay good no k (L k)) ->
    (forall k, ok k -> At b (off k) (enc (slotf fl emp (L k)))) ->
    let L' k := if no m =? k then Some m else L k in
    exists b2 : bits, dec (prn2sat BDS q) (enc (fl m) ++ rest) d = Some (zset (q - 1) b2 d, res (prn2sat BDS q) L') /\
      length b2 = (8 * bytelen b2)%nat /\ (200 <= bytelen b2)%nat /\ forall k, ok k -> At b2 (off k) (enc (slotf fl emp (L' k))).
Definition pointwise {M} (res : Z -> (Z -> option M) -> option eph) : Prop := forall s L L', (forall k, L k = L' k) -> res s L = res s L'.
Definition bresult {M} (no : M -> Z) (emit : M -> bool) (res : Z -> (Z -> option M) -> option eph) (h : list (bev M)) (e : bev M) : option eph :=
  let '(q, m, _) := e in if emit m then res (prn2sat BDS q) (fun k => last_of (bwant no q k) (h ++ [e])) else None.
Lemma blast_okay {M} (good : M -> bits -> Prop) (no : M -> Z) h q k : Forall (bgood good) h -> lokay good no k (last_of (bwant no q k) h).
Proof.
  intros H. destruct (last_of (bwant no q k) h) eqn:E; [|exact Logic.I]. apply last_in in E. destruct E as ([[p m'] rest] & He & Hw).
  rewrite Forall_forall in H. destruct (H _ He) as [_ Hg]. cbn [bwant] in Hw. destruct ((p =? q) && (no m' =? k)) eqn:C; [|discriminate]. injection Hw as <-.
  split; [eauto|lia].
Qed.
Lemma bstep {M} dec (fl : M -> list field) no emp (ok : Z -> Prop) (off : Z -> nat) good emit res h d e :
  quiet dec fl no ok good emit -> keeps dec fl no emp ok off good emit res -> pointwise res ->
  Forall (bgood good) h -> bgood good e -> binv fl no emp ok off h d ->
  exists d', bfeed dec fl e d = Some (d', bresult no emit res h e) /\ binv fl no emp ok off (h ++ [e]) d'.
Proof.
  intros Q K X Hh He Hi. destruct e as [[q m] rest]. destruct He as [Hq Hg]. cbn [bfeed bresult].
  destruct (emit m) eqn:Em.
  - destruct (Hi q Hq) as (b & Eb & Lb & Bb & Ab).
    destruct (K q m rest d b (fun k => last_of (bwant no q k) h) Hq Hg Em Eb Lb Bb) as (b2 & E2 & L2 & B2 & A2); [intros; now apply blast_okay|exact Ab|].
    assert (EL : forall k, (if no m =? k then Some m else last_of (bwant no q k) h) = last_of (bwant no q k) (h ++ [(q, m, rest)])).
    { intros k. rewrite last_snoc. cbn [bwant]. rewrite Z.eqb_refl. cbn [andb]. now destruct (no m =? k). }
    exists (zset (q - 1) b2 d). split; [rewrite E2; do 2 f_equal; now apply X|].
    apply (slots_put (bwant no) (fun _ => fl) emp ok off (fun q => 1 <= q <= 63) (fun q => q - 1) h d (q, m, rest) q b b2); try assumption.
    + intros p Hp E. lia.
    + intros p k Hp Hne. cbn [bwant]. now replace (q =? p) with false by lia.
    + intros k Hk. rewrite <- EL. now apply A2.
  - destruct (Q q m rest d Hq Hg Em) as [E2 Hn]. exists d. split; [exact E2|]. apply slots_skip; [|exact Hi].
    intros p k Hp Hk. cbn [bwant]. destruct (Z.eqb_spec (no m) k) as [E|E]; [subst; contradiction|now rewrite andb_false_r].
Qed.
Lemma bany {M} dec (fl : M -> list field) no emp (ok : Z -> Prop) (off : Z -> nat) good emit res :
  quiet dec fl no ok good emit -> keeps dec fl no emp ok off good emit res -> pointwise res ->
  (forall k, ok k -> At (zbytes 200) (off k) (enc emp)) ->
  forall h e, Forall (bgood good) h -> bgood good e ->
  exists d d', bfeeds dec fl h bds_new = Some d /\ bfeed dec fl e d = Some (d', bresult no emit res h e).
Proof.
  intros Q K X Z0 h e Hh He.
  assert (R : exists d, bfeeds dec fl h bds_new = Some d /\ binv fl no emp ok off h d).
  { induction h as [|x h IH] using rev_ind.
    - exists bds_new. split; [reflexivity|]. intros q Hq. exists (zbytes 200). split; [apply fresh_get; lia|]. split; [reflexivity|]. split; [reflexivity|exact Z0].
    - apply Forall_app in Hh. destruct Hh as [Hh Hx]. inversion Hx as [|? ? Hx' _]. subst. destruct (IH Hh) as (d & E & Hi).
      destruct (bstep dec fl no emp ok off good emit res h d x Q K X Hh Hx' Hi) as (d' & E' & Hi'). exists d'. split; [|exact Hi'].
      unfold bfeeds in *. rewrite mfold_snoc, E. cbn [bind]. now rewrite E'. }
  destruct R as (d & E & Hi). destruct (bstep dec fl no emp ok off good emit res h d e Q K X Hh He Hi) as (d' & E' & _). eauto.
Qed.

(* ---------- parts ---------- *)
Lemma getu_skip b i k n : (i <= length b)%nat -> getu b (i + k) n = getu (skipn i b) k n.
Proof.
  intros H. unfold getu, slice. rewrite skipn_length, skipn_skipn_add.
  destruct (Nat.leb_spec (i + k + n) (length b)); destruct (Nat.leb_spec (k + n) (length b - i)); reflexivity || lia.
Qed.
Lemma gets_skip b i k n : (i <= length b)%nat -> gets b (i + k) n = gets (skipn i b) k n.
Proof. intros H. unfold gets. now rewrite getu_skip. Qed.
Lemma At_skip b i (w : bits) : At b i w -> At (skipn i b) 0 w.
Proof. intros (p & r & -> & <-). exists [], r. split; [now rewrite skipn_app, skipn_all, Nat.sub_diag|reflexivity]. Qed.
Ltac sk0 b i H := let E := fresh in
  assert (E : forall n, getu b i n = getu (skipn i b) 0 n) by (intros n0; rewrite <- (getu_skip b i 0 n0) by exact H; now rewrite Nat.add_0_r);
  rewrite ?E; clear E;
  assert (E : forall n, gets b i n = gets (skipn i b) 0 n) by (intros n0; rewrite <- (gets_skip b i 0 n0) by exact H; now rewrite Nat.add_0_r);
  rewrite ?E; clear E.
Lemma eph1_ok b w i x : At b i (enc (e1_fields x)) -> e1_ok x -> cnav_eph1 b w i = Some (e1_attr w x).
Proof.
  intros A (H1 & ? & ? & ? & ? & ? & ? & ? & ?). assert (Hi : (i <= length b)%nat) by (apply At_bound in A; lia). apply At_skip in A. unfold cnav_eph1.
  sk0 b i Hi. rewrite ?(fun k n => getu_skip b i k n Hi), ?(fun k n => gets_skip b i k n Hi). set (c := skipn i b) in *. clearbody c.
  destruct x as [x1 x2 x3 x4 x5 x6 x7 x8 x9]. unfold e1_fields in A. cbn [b_toe b_type b_dA b_Adot b_deln b_delnd b_M0 b_e b_omg] in *. rds. unfold U in H1.
  rewrite bdt_gps by lia. unfold e1_attr. cbn [b_toe b_type b_dA b_Adot b_deln b_delnd b_M0 b_e b_omg].
  change (2 ^ 9) with 512. rewrite (Z.mul_comm x1 300). reflexivity.
Qed.
Lemma eph2_ok b i x : At b i (enc (e2_fields x)) -> e2_ok x -> cnav_eph2 b i = Some (e2_attr x).
Proof.
  intros A (? & ? & ? & ? & ? & ? & ? & ? & ? & ?). assert (Hi : (i <= length b)%nat) by (apply At_bound in A; lia). apply At_skip in A. unfold cnav_eph2.
  sk0 b i Hi. rewrite ?(fun k n => gets_skip b i k n Hi). set (c := skipn i b) in *. clearbody c.
  destruct x as [x1 x2 x3 x4 x5 x6 x7 x8 x9 x10]. unfold e2_fields in A. cbn [b_OMG0 b_i0 b_OMGd b_idot b_cis b_cic b_crs b_crc b_cus b_cuc] in *. rds. reflexivity.
Qed.
Lemma clk_ok b w i x : At b i (enc (ck_fields x)) -> ck_ok x -> cnav_clk b w i = Some (ck_attr w x).
Proof.
  intros A (H1 & ? & ? & ?). assert (Hi : (i <= length b)%nat) by (apply At_bound in A; lia). apply At_skip in A. unfold cnav_clk.
  sk0 b i Hi. rewrite ?(fun k n => gets_skip b i k n Hi). set (c := skipn i b) in *. clearbody c.
  destruct x as [x1 x2 x3 x4]. unfold ck_fields in A. cbn [b_toc b_a0 b_a1 b_a2] in *. rds. unfold U in H1.
  rewrite bdt_gps by lia. unfold ck_attr. cbn [b_toc b_a0 b_a1 b_a2]. now rewrite (Z.mul_comm x1 300).
Qed.
Lemma sisai_ok b i x : At b i (enc (si_fields x)) -> si_ok x -> cnav_sisai b i = Some (si_attr x).
Proof.
  intros A (H1 & ? & ? & ?). assert (Hi : (i <= length b)%nat) by (apply At_bound in A; lia). apply At_skip in A. unfold cnav_sisai.
  sk0 b i Hi. rewrite ?(fun k n => gets_skip b i k n Hi). set (c := skipn i b) in *. clearbody c.
  destruct x as [x1 x2 x3 x4]. unfold si_fields in A. cbn [b_top b_s1 b_s2 b_s3] in *. rds. unfold si_attr. cbn [b_top b_s1 b_s2 b_s3]. now rewrite (Z.mul_comm x1 300).
Qed.
Lemma At_part b o x y z n : At b o (enc (x ++ y ++ z)) -> fwidth x = n -> At b (o + n) (enc y).
Proof. intros A <-. rewrite !enc_app, At_app, At_app, enc_length in A. tauto. Qed.
Lemma land255 x : Z.land x 255 = x mod 256.
Proof. change 255 with (Z.ones 8). now rewrite Z.land_ones by lia. Qed.

(* ---------- B1C ---------- *)
Lemma b1c_ok sat f rest : b1_ok f -> decode_bds_b1c sat (enc (b1_fields f) ++ rest) = Some (b1_of sat f).
Proof.
  intros (K1 & K2 & K3 & K4 & K5 & K6). destruct K1 as (? & ? & ? & ?). destruct K5 as (? & ? & ? & ? & ? & ? & ?).
  unfold decode_bds_b1c. set (b := enc (b1_fields f) ++ rest).
  assert (A : At b 0 (enc (b1_fields f))) by (exists [], rest; split; reflexivity). clearbody b. unfold b1_fields in A.
  destruct f as [wn how iodc iode e1 e2 ck tgda isc tgd r2 err svh integ sis page soh].
  cbn [x_wn x_how x_iodc x_iode x_e1 x_e2 x_ck x_tgda x_isc x_tgd x_r2 x_err x_svh x_integ x_sismai x_page x_soh] in *.
  assert (G1 : cnav_eph1 b wn 39 = Some (e1_attr wn e1)) by (apply eph1_ok; [exact (At_part b 0 _ _ _ 39 A eq_refl)|exact K2]).
  assert (G2 : cnav_eph2 b 242 = Some (e2_attr e2)).
  { apply eph2_ok; [|exact K3]. rewrite app_assoc in A. exact (At_part b 0 _ _ _ 242 A eq_refl). }
  assert (G3 : cnav_clk b wn 464 = Some (ck_attr wn ck)).
  { apply clk_ok; [|exact K4]. rewrite 2!app_assoc in A. exact (At_part b 0 _ _ _ 464 A eq_refl). }
  unfold e1_fields, e2_fields, ck_fields in A. cbn [app] in A.
  destruct page as [s0 si r|n r]; cbn [x_no app] in *.
  - destruct K6 as [K6 K7].
    assert (G4 : cnav_sisai b 628 = Some (si_attr si)).
    { apply sisai_ok; [|exact K7]. unfold si_fields in *. cbn [app] in A.
      match type of A with At _ _ (enc ?l) => change l with (firstn 37 l ++ [(11 # b_top si); (5 # b_s1 si); (3 # b_s2 si); (3 # b_s3 si)] ++ [(222 # r); (8 # soh)]) in A end.
      exact (At_part b 0 _ _ _ 628 A eq_refl). }
    unfold si_fields in A. cbn [app] in A. rds. rewrite land255. unfold b1_of. cbn [x_wn x_how x_iodc x_iode x_e1 x_e2 x_ck x_tgda x_isc x_tgd x_r2 x_err x_svh x_integ x_sismai x_page x_soh].
    destruct (iodc mod 256 =? iode) eqn:Q; cbn [negb]; [|reflexivity]. rewrite G1, G2, G3. cbn [bind]. rds. cbn [Z.eqb Pos.eqb negb]. rds. rewrite G4. cbn [bind].
    unfold U in *. rewrite bdt_exact by lia. replace (how * 3600 + soh * 18) with (3600 * how + 18 * soh) by lia. reflexivity.
  - destruct K6 as [K6 K7]. assert (Un : U 6 n) by (unfold U; lia). rds. rewrite land255. unfold b1_of. cbn [x_page].
    destruct (iodc mod 256 =? iode) eqn:Q; cbn [negb]; [|reflexivity]. rewrite G1, G2, G3. cbn [bind]. rds.
    replace (n =? 1) with false by lia. reflexivity.
Qed.
