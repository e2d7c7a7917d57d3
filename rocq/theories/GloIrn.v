(** NavIC LNAV: subframes kept by satellite. *)
From Verif Require Import SatModel SatProofs TimeModel TimeSpec TimeProofs CssrState CssrFacts RawModel RawSpec RawFacts RawGal RawLnav RawProofs NavModel NavSpec NavFacts GloModel GloSpec GloFacts.
From Verif Require Import Base BaseFacts FieldFacts.
From Coq Require Import ZifyBool ZifyNat.
Notation length := List.length.
Open Scope Z_scope.

(** an empty buffer reads as this subframe 1 *)
Definition izero : iframe := IF_ 0 0 0 0 (IA 0 0 0 0 0 0 0 0 0 0 0 0 0 0 0 0 0 0) 0.
Definition ior (o : option iframe) : iframe := match o with Some f => f | None => izero end.
Definition igs (k : Z) (f : iframe) : Prop := iframe_ok f /\ ino (i_sub f) = k.
Definition iholds (b : bits) (k : Z) (o : option iframe) : Prop := At b (320 * Z.to_nat k) (enc (iframe_fields (ior o))).
Definition ires (e : iev) (L : Z -> option iframe) : option eph :=
  if ino (i_sub (ie_frame e)) <=? 2 then
    irn_of (prn2sat IRN (ie_prn e)) (ie_week e) (fun w _ _ => w) far_week (Some (ior (L 0)), Some (ior (L 1)))
  else None.
Lemma iwid f : length (enc (iframe_fields f)) = 320%nat.
Proof. rewrite enc_length. destruct f as [? ? ? ? [] ?]; reflexivity. Qed.
Lemma izero_ok : iframe_ok izero.
Proof. cbv -[Z.lt Z.le Z.mul Z.pow]. repeat split; try lia; discriminate. Qed.
Lemma ino_range f : iframe_ok f -> U 2 (ino (i_sub f)).
Proof. intros [_ H]. destruct (i_sub f); cbn [isub_ok ino] in *; unfold U; lia. Qed.
Lemma cycle_eq wn week : wn + (week - wn + 512) / 1024 * 1024 = near_cycle wn week.
Proof. unfold near_cycle. pose proof (Z.div_mod (week - wn + 512) 1024 ltac:(lia)) as E. replace (week + 512 - wn) with (week - wn + 512) by lia. lia. Qed.
Lemma irn_eph_ok week sat b f1 f2 : igs 0 f1 -> iframe_ok f2 -> ino (i_sub f2) <= 1 -> At b 0 (enc (iframe_fields f1)) -> At b 320 (enc (iframe_fields f2)) ->
  irn_eph week sat b = Some (irn_of sat week (fun w _ _ => w) far_week (Some f1, Some f2)).
Proof.
  intros [[U1 K1] N1] [U2 K2] N2 A1 A2. destruct f1 as [tl1 tow1 fl1 sp1 s1 ta1]. destruct f2 as [tl2 tow2 fl2 sp2 s2 ta2]. cbn [i_tow i_sub] in *.
  destruct s1 as [wn af0 af1 af2 ura toc tgd deln iode r svh cuc cus cic cis crc crs idot| |n bd]; cbn [ino isub_ok] in *; [|discriminate|lia].
  destruct s2 as [? ? ? ? ? ? ? ? ? ? ? ? ? ? ? ? ? ?|M0 toe e sqA OMG0 omg OMGd i0|n bd]; cbn [ino isub_ok] in *; [| |lia].
  - clear K2. unfold iframe_fields in *. cbn [i_tlm i_tow i_flags i_spare i_sub i_tail ino isub_fields app] in *. unfold irn_eph. rds. reflexivity.
  - destruct K1 as (? & ? & ? & ? & Ku & ? & ? & ? & ? & ? & ? & ? & ? & ? & ? & ? & ?). destruct K2 as (? & ? & ? & ? & ? & ? & ? & ?).
    unfold iframe_fields in *. cbn [i_tlm i_tow i_flags i_spare i_sub i_tail ino isub_fields app] in *. unfold irn_eph. rds. cbn [Z.eqb Pos.eqb negb orb].
    unfold irn_of. cbn [i_sub i_tow]. destruct (tow2 =? tow1 + 1) eqn:Et; cbn [negb]; [|reflexivity]. rds.
    destruct (ura_some ura Ku) as (sv & E1 & E2). rewrite E1. cbn [bind]. rewrite E2, cycle_eq, (Z.mul_comm toe 16), (Z.mul_comm toc 16), (Z.mul_comm tow1 12), Z.pow_2_r.
    assert (P1 : 0 <= 16 * toc <= 1000000000) by (match goal with H : U 16 toc |- _ => unfold U in H; clear - H; lia end).
    assert (P2 : 0 <= 16 * toe <= 1000000000) by (match goal with H : U 16 toe |- _ => unfold U in H; clear - H; lia end).
    assert (P3 : 0 <= 12 * tow1 <= 1000000000) by (unfold U in U1; clear - U1; lia).
    rewrite (gpst_exact _ _ P1), (gpst_exact _ _ P2), (gpst_exact _ _ P3). do 2 f_equal.
    assert (E3 : forall s t, (if s >? t + 302400 then week + 1 else if s <? t - 302400 then week - 1 else week) = far_week week s t).
    { intros s t. unfold far_week. replace (s >? t + 302400) with (s - t >? 302400) by (clear; lia). now replace (s <? t - 302400) with (s - t <? -302400) by (clear; lia). }
    rewrite E3. reflexivity.
Qed.
Lemma irn_any h e : Forall iev_ok h -> iev_ok e ->
  exists d d', ifeeds h irn_new = Some d /\ ifeed e d = Some (d', ires e (fun k => last_of (iwant (ie_prn e) k) (h ++ [e]))).
Proof.
  unfold ifeeds. apply (kany ifeed (fun q d => zget (q - 1) d) (fun q b d => zset (q - 1) b d) ie_prn (fun q => 1 <= q <= 14) iwant iev_ok (fun k => 0 <= k <= 1) 1600 iholds igs ires).
  - intros q b d. apply zget_zset_same.
  - intros p q b d _ _ H. apply zget_zset_other. lia.
  - intros x [H _]. exact H.
  - intros x q k _ H. unfold iwant. now replace (ie_prn x =? q) with false by lia.
  - intros x q k m [_ H]. unfold iwant. destruct ((ie_prn x =? q) && (ino (i_sub (ie_frame x)) =? k)) eqn:Q; [|discriminate]. intros [= <-]. split; [exact H|lia].
  - intros x L L' H. unfold ires. now rewrite !H.
  - intros x d b L [Hq Hf] Eb Lb HL HA L'. right. unfold ifeed, decode_irn_lnav. destruct (sat2prn_prn2sat IRN (ie_prn x) Hq) as [Es _]. rewrite Es. cbv beta iota.
    destruct x as [q week f rest]. cbn [ie_prn ie_week ie_frame ie_rest] in *. pose proof (ino_range f Hf) as Hn. pose proof (iwid f) as W.
    assert (G : exists a c, getu (enc (iframe_fields f) ++ rest) 0 8 = Some a /\ getu (enc (iframe_fields f) ++ rest) 8 17 = Some c /\
              getu (enc (iframe_fields f) ++ rest) 27 2 = Some (ino (i_sub f))).
    { assert (A : At (enc (iframe_fields f) ++ rest) 0 (enc (iframe_fields f))) by (exists [], rest; split; reflexivity).
      set (mm := enc (iframe_fields f) ++ rest) in *. clearbody mm. unfold iframe_fields in A. set (z := isub_fields (i_sub f) ++ _) in A. clearbody z. cbn [app] in A.
      do 2 eexists. split; [eapply getu_f; [exact A|reflexivity|reflexivity]|]. split; [eapply getu_f; [exact A|reflexivity|reflexivity]|].
      eapply getu_u; [exact A|reflexivity|reflexivity|exact Hn]. }
    destruct G as (a & c & -> & -> & ->). cbn [bind]. rewrite Eb. cbn [bind].
    assert (Hh : RawModel.head 40 (enc (iframe_fields f) ++ rest) = enc (iframe_fields f)).
    { unfold RawModel.head. change (8 * 40)%nat with 320%nat. rewrite firstn_app, W, Nat.sub_diag, firstn_O, app_nil_r. apply firstn_all2. lia. }
    rewrite Hh. set (n := ino (i_sub f)) in *. unfold U in Hn. change (2 ^ 2) with 4 in Hn.
    destruct (bytelen_eq b 200 Lb) as [Bb Lb8]. rewrite setslice_splice by (rewrite ?W, ?Bb; lia). replace (8 * Z.to_nat (n * 40))%nat with (320 * Z.to_nat n)%nat by lia.
    set (b2 := splice b (320 * Z.to_nat n) (enc (iframe_fields f))).
    assert (L2 : length b2 = 1600%nat) by (unfold b2; rewrite splice_length; lia).
    assert (A2 : forall k, 0 <= k <= 1 -> iholds b2 k (L' k)).
    { intros k Hk. unfold L', iwant. cbn [ie_prn ie_frame]. rewrite Z.eqb_refl. cbn [andb]. fold n. unfold iholds. destruct (Z.eqb_spec n k) as [<-|Hne].
      - cbn [ior]. apply splice_at. lia.
      - apply At_keep; [apply HA; exact Hk|lia|]. rewrite iwid. lia. }
    assert (GL : forall k m, L' k = Some m -> igs k m).
    { intros k m. unfold L', iwant. cbn [ie_prn ie_frame]. rewrite Z.eqb_refl. cbn [andb]. fold n. destruct (Z.eqb_spec n k) as [<-|Hne].
      - intros [= <-]. split; [exact Hf|reflexivity].
      - apply HL. }
    exists b2. unfold ires. cbn [ie_prn ie_week ie_frame]. fold n. destruct (Z.gtb_spec n 2) as [H2|H2].
    + replace (n <=? 2) with false by lia. split; [reflexivity|]. split; [exact L2|exact A2].
    + replace (n <=? 2) with true by lia.
      rewrite (irn_eph_ok week (prn2sat IRN q) b2 (ior (L' 0)) (ior (L' 1))).
      * cbn [bind]. split; [reflexivity|]. split; [exact L2|exact A2].
      * destruct (L' 0) eqn:Q; [now apply GL|]. split; [apply izero_ok|reflexivity].
      * destruct (L' 1) eqn:Q; [now apply (GL 1)|apply izero_ok].
      * destruct (L' 1) eqn:Q; [apply GL in Q; destruct Q as [_ Q]; cbn [ior]; lia|discriminate].
      * apply (A2 0). lia.
      * apply (A2 1). lia.
  - intros q Hq. exists (zbytes 200). split; [apply fresh_get; lia|]. split; [reflexivity|]. intros k Hk. unfold iholds. cbn [ior].
    assert (E : enc (iframe_fields izero) = repeat false 320) by (vm_compute; reflexivity). rewrite E. apply zeros_at. lia.
Qed.
