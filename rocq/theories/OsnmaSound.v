From Verif Require Import BaseFacts BitProofs CssrFacts TimeModel OsnmaModel OsnmaSpec OsnmaProofs OsnmaTags OsnmaHist OsnmaStep OsnmaAuth OsnmaToy.
From Coq Require Import ZifyBool ZifyNat.
Open Scope Z_scope.

Section S.
Variable C : crypto.
Variable pk : dict Z (PK C).
Variable root : option bits.
Notation st h := (run h (osnma_new pk root)).

Lemma prefix_trans x y z : prefix x y -> prefix y z -> prefix x z.
Proof. intros [u ->] [v ->]. exists (u ++ v). now rewrite app_assoc. Qed.

(** with one DSM-KROOT on air, loaded as signed, and previous keys from the chain, only genuine tags authenticate *)
Lemma sound h prn iod p :
  Forall wf_event h -> prn <> 37 ->
  (forall g, prefix g h -> t_rv (o_stat (st g)) = true ->
     o_kp (st g) = p /\ params_of (dsm_of (o_did0 (st g)) (st g)) = Some p /\ length (o_hdr (st g)) = 8%nat /\ o_pk (st g) = pk) ->
  (forall g e T lk, prefix (g ++ [e]) h -> ended e T -> keylen (k_ks p) = Some lk ->
     tesla C (k_hf p) (k_alp p) lk 1 (o_key (st (g ++ [e]))) T = o_keyp (st (g ++ [e])) ->
     on_chain C p (o_keyp (st (g ++ [e]))) (T - 30)) ->
  (forall e T, In e h -> ended e T -> 604800 * k_wn p + 3600 * k_towh p <= T < 604800 * (k_wn p + 1)) -> 0 <= k_towh p ->
  chk_nav prn iod (st h) = true ->
  exists key hdr tag nt a T g, prefix g h /\ authentic C pk key T /\ tag_ok C p key hdr tag nt a (T - 30) prn iod (word g prn).
Proof.
  intros W NP H1 H2 H3 H4 CK.
  destruct (history C pk root h prn iod W NP CK) as (g & nma & wn & tow & q & a & r & E & TG & RV & (g1 & P1 & RV1 & RS) & (g2 & e & P2 & EN & RV2 & KE & KC)).
  cbv zeta in *. set (T := subframe_time wn tow) in *.
  assert (PA : prefix (g ++ [ENma nma wn tow q a]) h) by (exists r; rewrite <- app_assoc; exact E).
  destruct (H1 _ PA RV) as (K1 & _).
  destruct (H1 _ (prefix_trans _ _ _ P1 PA) RV1) as (K2 & PM & L8 & EP).
  destruct (H1 _ (prefix_trans _ _ _ P2 PA) RV2) as (K3 & _).
  rewrite K1 in TG. set (s1 := st (g ++ [ENma nma wn tow q a])) in *.
  exists (o_key s1), (o_hdr s1), (o_tag s1), (o_nt s1), a, T, g.
  split; [exists (ENma nma wn tow q a :: r); exact E|].
  split; [|exact TG].
  exists p. split.
  - destruct RS as (lk & pub & L & HF & Z & SG). rewrite K2 in L, Z, SG. rewrite EP in Z.
    exists (dsm_of (o_did0 (st g1)) (st g1)), (o_hdr (st g1)), lk, pub. repeat (split; [assumption|]). exact SG.
  - destruct KC as (lk & L & D). rewrite K3, KE in *.
    exists lk. split; [exact L|].
    assert (IN : In (ENma nma wn tow q a) h) by (subst h; apply in_or_app; right; left; reflexivity).
    pose proof (H3 _ T IN eq_refl) as TB.
    set (T0 := 604800 * k_wn p + 3600 * k_towh p) in *.
    destruct D as [(HF & D)|(gs & LG & _ & _ & D)].
    + assert (Q : on_chain C p (o_keyp (st (g2 ++ [e]))) (T - 30)).
      { apply (H2 g2 e T lk); [exact (prefix_trans _ _ _ P2 PA)|exact EN|exact L|]. rewrite KE. exact D. }
      destruct Q as (lk' & L' & Q). rewrite L in L'. injection L' as <-. fold T0 in Q.
      assert (PN : Z.to_nat ((T - T0) / 30 + 1) = S (Z.to_nat ((T - 30 - T0) / 30 + 1))).
      { replace (T - 30 - T0) with (T - T0 + (-1) * 30) by lia. rewrite Z.div_add by lia. assert (0 <= (T - T0) / 30) by (apply Z.div_pos; lia). lia. }
      rewrite PN. cbn [tesla] in D |- *. rewrite D. exact Q.
    + rewrite LG in D. apply D. rewrite Z2Nat.id by (assert (0 <= (T - T0) / 30) by (apply Z.div_pos; lia); lia).
      assert (T mod 604800 = T - 604800 * k_wn p) by (symmetry; apply Z.mod_unique with (k_wn p); lia).
      pose proof (Z.div_mod (T - T0) 30 ltac:(lia)). pose proof (Z.mod_pos_bound (T - T0) 30 ltac:(lia)). lia.
Qed.
End S.

(* ---------- what the attacker of the witnesses achieves ---------- *)
Lemma toy_signed p : signed_params toy [(1, pk0)] p -> k_hf p = 0 /\ k_alp p = alp0 /\ k_ks p = 0 /\ k_wn p = 1200 /\ k_towh p = 1 /\ k_kroot p = k0 3570.
Proof.
  intros (d & hdr & lk & pub & PM & L8 & L & _ & SG).
  cbn [toy c_sig] in SG. apply some_inj in SG. apply andb_prop in SG. destruct SG as (_ & SG). apply beqb_eq in SG.
  unfold signed_part in SG.
  assert (LD : length (slice d 8 (96 + lk)) = 192%nat).
  { apply (f_equal (@length bool)) in SG. rewrite app_length, L8 in SG. assert (E : length signed0 = 200%nat) by (vm_compute; reflexivity). rewrite E in SG. lia. }
  assert (LL : (192 <= 96 + lk)%nat) by (pose proof (slice_le d 8 (96 + lk)); lia).
  assert (SD : slice d 8 (96 + lk) = skipn 8 signed0) by (rewrite <- SG, skipn_app, L8, Nat.sub_diag, skipn_all2 by lia; reflexivity).
  assert (F : forall o n, (o + n <= 192)%nat -> slice d (8 + o) n = slice (skipn 8 signed0) o n).
  { intros o n ON. rewrite <- SD, slice_slice by lia. reflexivity. }
  unfold params_of in PM. cbv zeta in PM.
  assert (E1 : slice d 16 4 = slice (skipn 8 signed0) 8 4) by (apply (F 8 4)%nat; lia).
  assert (E2 : slice d 12 2 = slice (skipn 8 signed0) 4 2) by (apply (F 4 2)%nat; lia).
  assert (E3 : slice d 36 12 = slice (skipn 8 signed0) 28 12) by (apply (F 28 12)%nat; lia).
  assert (E4 : slice d 48 8 = slice (skipn 8 signed0) 40 8) by (apply (F 40 8)%nat; lia).
  assert (E5 : slice d 56 48 = slice (skipn 8 signed0) 48 48) by (apply (F 48 48)%nat; lia).
  assert (E6 : slice d 104 96 = slice (skipn 8 signed0) 96 96) by (apply (F 96 96)%nat; lia).
  assert (V1 : bval (slice (skipn 8 signed0) 8 4) = 0) by (vm_compute; reflexivity).
  rewrite E1, V1 in PM. cbn [keylen bind] in PM. apply some_inj in PM. subst p. cbn [k_hf k_alp k_ks k_wn k_towh k_kroot].
  rewrite E2, E3, E4, E5, E6. do 5 (split; [vm_compute; reflexivity|]). vm_compute. reflexivity.
Qed.
Lemma toy_authentic k t : authentic toy [(1, pk0)] k t ->
  tesla toy 0 alp0 96 (Z.to_nat ((t - (604800 * 1200 + 3600)) / 30 + 1)) k t = k0 3570.
Proof.
  intros (p & S & lk & L & O). apply toy_signed in S. destruct S as (S1 & S2 & S3 & S4 & S5 & S6).
  rewrite S1, S2, S4, S5, S6 in O. rewrite S3 in L. injection L as <-. exact O.
Qed.
Lemma ka_not t : t = 604800 * 1200 + 3660 -> ~ authentic toy [(1, pk0)] (ka 3660) t.
Proof.
  intros -> H. apply toy_authentic in H.
  assert (V : beqb (tesla toy 0 alp0 96 (Z.to_nat ((604800 * 1200 + 3660 - (604800 * 1200 + 3600)) / 30 + 1)) (ka 3660) (604800 * 1200 + 3660)) (k0 3570) = false) by (vm_compute; reflexivity).
  apply beqb_neq in V. exact (V H).
Qed.
