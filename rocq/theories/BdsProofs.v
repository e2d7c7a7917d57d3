From Coq Require Import ZArith List Lia Bool ZifyBool ZifyNat FinFun.
From Verif Require Import SatModel SatSpec SatProofs CssrState CssrSpec CssrFacts SbasProofs BdsModel BdsSpec.
From Verif Require Import FieldFacts.
Import ListNotations.
Notation length := List.length.
Open Scope Z_scope.

(* ---------- reading at a symbolic position ---------- *)
Lemma getu_at b i fl p n v j : At b i (enc fl) -> fat fl p = Some (n, v) -> U (Z.of_nat n) v -> j = (i + p)%nat -> getu b j n = Some v.
Proof.
  intros A F Hv ->. eapply getu_u; try eassumption; [apply Nat.leb_le; lia|]. now replace (i + p - i)%nat with p by lia.
Qed.
Lemma gets_at b i fl p n v j : At b i (enc fl) -> fat fl p = Some (n, v) -> (1 <= n)%nat -> S_ (Z.of_nat n) v -> j = (i + p)%nat -> gets b j n = Some v.
Proof.
  intros A F Hn Hv ->. eapply gets_s; try eassumption; [apply Nat.leb_le; lia|]. now replace (i + p - i)%nat with p by lia.
Qed.
Ltac rp p := first [ erewrite (getu_at _ _ _ p); [ | eassumption | reflexivity | rng0 | lia ] | erewrite (gets_at _ _ _ p); [ | eassumption | reflexivity | lia | rng0 | lia ] ]; cbn [bind].

(* ---------- slots ---------- *)
Lemma slot_sat_model k : slot_ok k -> exists sys p, slot2prn k = (sys, p) /\ slot_sat k = Some (prn2sat sys p) /\ owns sys p /\ sys <> NONE /\
  (gnss_eqb sys GPS || gnss_eqb sys BDS = (k <=? 100)) .
Proof.
  intros H. unfold slot_ok in H. unfold slot2prn, slot_sat.
  destruct H as [H|[H|[H|H]]].
  - exists BDS, k. replace ((k >=? 1) && (k <=? 63)) with true by lia. replace ((1 <=? k) && (k <=? 63)) with true by lia.
    repeat split; cbn [owns gnss_eqb orb]; try lia; try discriminate.
  - exists GPS, (k - 63). replace ((k >=? 1) && (k <=? 63)) with false by lia. replace ((1 <=? k) && (k <=? 63)) with false by lia.
    replace (k <=? 100) with true by lia. replace ((64 <=? k) && (k <=? 95)) with true by lia.
    repeat split; cbn [owns gnss_eqb orb]; try lia; try discriminate.
  - exists GAL, (k - 100). replace ((k >=? 1) && (k <=? 63)) with false by lia. replace ((1 <=? k) && (k <=? 63)) with false by lia.
    replace (k <=? 100) with false by lia. replace ((64 <=? k) && (k <=? 95)) with false by lia.
    replace (k <=? 137) with true by lia. replace ((101 <=? k) && (k <=? 136)) with true by lia.
    repeat split; cbn [owns gnss_eqb orb]; try lia; try discriminate.
  - exists GLO, (k - 137). replace ((k >=? 1) && (k <=? 63)) with false by lia. replace ((1 <=? k) && (k <=? 63)) with false by lia.
    replace (k <=? 100) with false by lia. replace ((64 <=? k) && (k <=? 95)) with false by lia.
    replace (k <=? 137) with false by lia. replace ((101 <=? k) && (k <=? 136)) with false by lia.
    replace (k <=? 174) with true by lia. replace ((138 <=? k) && (k <=? 169)) with true by lia.
    repeat split; cbn [owns gnss_eqb orb]; try lia; try discriminate.
Qed.
Lemma slot_idle k : idle k -> slot_sat k = None /\ (slot2prn k = (NONE, 0) \/ slot2prn k = (GPS, -63)).
Proof.
  intros [->|H]; [split; [reflexivity|right; reflexivity]|].
  unfold slot_sat, slot2prn.
  replace ((k >=? 1) && (k <=? 63)) with false by lia. replace ((1 <=? k) && (k <=? 63)) with false by lia.
  replace (k <=? 100) with false by lia. replace ((64 <=? k) && (k <=? 95)) with false by lia.
  replace (k <=? 137) with false by lia. replace ((101 <=? k) && (k <=? 136)) with false by lia.
  replace (k <=? 174) with false by lia. replace ((138 <=? k) && (k <=? 169)) with false by lia. auto.
Qed.
Lemma slot_sat_inj k k' : slot_ok k -> slot_ok k' -> slot_sat k = slot_sat k' -> k = k'.
Proof.
  intros A B E. destruct (slot_sat_model k A) as (s & p & E1 & E2 & O & _ & _). destruct (slot_sat_model k' B) as (s' & p' & E1' & E2' & O' & _ & _).
  rewrite E2, E2' in E. injection E as E.
  pose proof (proj1 (sat2prn_prn2sat s p O)) as P. rewrite E, (proj1 (sat2prn_prn2sat s' p' O')) in P. injection P as -> ->.
  rewrite <- E1' in E1. unfold slot2prn, slot_ok in *.
  destruct ((k >=? 1) && (k <=? 63)) eqn:X1, ((k' >=? 1) && (k' <=? 63)) eqn:Y1; try (injection E1; lia).
  all: destruct (k <=? 100) eqn:X2, (k' <=? 100) eqn:Y2; try (injection E1; lia); try discriminate.
  all: destruct (k <=? 137) eqn:X3, (k' <=? 137) eqn:Y3; try (injection E1; lia); try discriminate.
  all: destruct (k <=? 174) eqn:X4, (k' <=? 174) eqn:Y4; try (injection E1; lia); try discriminate; try lia.
Qed.
Lemma sats_in l a : In a (sats l) <-> exists k, In k l /\ slot_sat k = Some a.
Proof.
  unfold sats. rewrite in_flat_map. split; intros (k & Hk & H); exists k; (split; [assumption|]).
  - destruct (slot_sat k); [destruct H as [->|[]]; reflexivity|destruct H].
  - rewrite H. now left.
Qed.
Lemma sats_nodup l : Forall slot_ok l -> NoDup l -> NoDup (sats l).
Proof.
  induction 1 as [|x l Hx H IH]; intros N; [constructor|]. inversion N; subst.
  change (sats (x :: l)) with ((match slot_sat x with Some a => [a] | None => [] end) ++ sats l).
  destruct (slot_sat_model x Hx) as (s & p & _ & E & _). rewrite E. cbn [app]. constructor; [|now apply IH].
  rewrite sats_in. intros (k & Hk & E'). apply H2. replace x with k; [assumption|].
  rewrite Forall_forall in H. apply slot_sat_inj; auto. congruence.
Qed.

Lemma sel_ext_map {A} (f : Z -> A) (g : Z -> option A) l : (forall k, In k l -> g k = Some (f k)) ->
  map f l = flat_map (fun k => match g k with Some a => [a] | None => [] end) l.
Proof.
  induction l as [|x l IH]; intros H; [reflexivity|]. cbn [map flat_map]. rewrite (H x) by now left. cbn [app]. f_equal. apply IH.
  intros; apply H; now right.
Qed.
Lemma mask_split4 (m : bits) : length m = 174%nat -> exists a b c d,
  m = a ++ b ++ c ++ d /\ length a = 63%nat /\ length b = 37%nat /\ length c = 37%nat /\ length d = 37%nat.
Proof.
  intros H. exists (firstn 63 m), (firstn 37 (skipn 63 m)), (firstn 37 (skipn 100 m)), (skipn 137 m).
  assert (K : forall (l : bits) n k, firstn n (skipn k l) ++ skipn (k + n) l = skipn k l).
  { intros. rewrite <- (skipn_skipn_add l k n). apply firstn_skipn. }
  split.
  - pose proof (K m 37 100)%nat as K1. pose proof (K m 37 63)%nat as K2. cbn [Nat.add] in *.
    rewrite K1, K2. symmetry. apply firstn_skipn.
  - repeat split; rewrite ?firstn_length, ?skipn_length, H; reflexivity.
Qed.
Lemma slots_split4 a b c d : length a = 63%nat -> length b = 37%nat -> length c = 37%nat -> length d = 37%nat ->
  slots (a ++ b ++ c ++ d) = sel a (zs 1 63) ++ sel b (zs 64 37) ++ sel c (zs 101 37) ++ sel d (zs 138 37).
Proof.
  intros. unfold slots. change 174%nat with (63 + (37 + (37 + 37)))%nat.
  rewrite !zs_app, !sel_app by (rewrite zs_length; assumption). reflexivity.
Qed.
Lemma sats_app l l' : sats (l ++ l') = sats l ++ sats l'.
Proof. apply flat_map_app. Qed.
Lemma sats_part sys o n (m : bits) : (forall k, 1 <= k <= Z.of_nat n -> slot_ok (k + (o - 1)) -> slot_sat (k + (o - 1)) = Some (prn2sat sys k)) ->
  Forall slot_ok (sel m (zs o n)) -> map (prn2sat sys) (sel m (zs 1 n)) = sats (sel m (zs o n)).
Proof.
  intros H F. rewrite (zs_shift o 1), sel_map in F |- *. unfold sats. rewrite Forall_map, Forall_forall in F.
  rewrite flat_map_concat_map, map_map, <- flat_map_concat_map.
  apply (sel_ext_map (prn2sat sys) (fun k => slot_sat (k + (o - 1)))).
  intros k Hk. apply H; [|now apply F]. pose proof (proj1 (zs_in _ _ _) (sel_In _ _ _ Hk)). lia.
Qed.
Lemma slot_sat_pos k a : slot_sat k = Some a -> 0 < a.
Proof.
  intros E. assert (slot_ok k).
  { unfold slot_sat, slot_ok in *. repeat match goal with E : context [if ?c then _ else _] |- _ => destruct c eqn:? end; try lia. discriminate. }
  destruct (slot_sat_model k H) as (sy & p & _ & E' & O & _). apply sat2prn_prn2sat in O as [_ O]. unfold satnum in O. rewrite E in E'. injection E' as ->. lia.
Qed.

Theorem b2b_mask tod res ssr iodp m rest s : mask_ok m -> U 2 ssr -> U 4 iodp -> iodp <> b_iodp_p s ->
  exists s', decode_b2b (mask_msg tod res ssr iodp m rest) s = Some s' /\
    mask_part s' = (ssr, iodp, iodp, sats (slots m)) /\ NoDup (b_sat_n s') /\ valid s' /\
    (forall a, orbit s' a = None /\ clock s' a = None /\ clock_p s' a = None /\ zget a (b_ura s') = None /\ forall k, bias s' a k = None).
Proof.
  intros [L F] Us Ui Ne. pose proof (mask_split4 m L) as (a & b & c & d & -> & La & Lb & Lc & Ld).
  pose proof (slots_split4 a b c d La Lb Lc Ld) as HS.
  assert (HD : NoDup (sats (slots (a ++ b ++ c ++ d)))).
  { apply sats_nodup; [assumption|]. apply sel_nodup, zs_nodup. }
  assert (HP : Forall (fun x => 0 < x) (sats (slots (a ++ b ++ c ++ d)))).
  { apply Forall_forall. intros x Hx. apply sats_in in Hx as (k & _ & E). eapply slot_sat_pos, E. }
  assert (A0 : At (mask_msg tod res ssr iodp (a ++ b ++ c ++ d) rest) 0 (mask_msg tod res ssr iodp (a ++ b ++ c ++ d) rest)).
  { exists [], []. now rewrite app_nil_r. }
  unfold mask_msg in A0 at 2. rewrite <- !app_assoc in A0.
  repeat (let B := fresh "B" in apply At_app in A0; destruct A0 as [B A0]).
  rewrite ?enc_length, ?La, ?Lb, ?Lc, ?Ld in *. unfold fwidth, list_sum, b2b_hd in *. cbn [map fst fold_right Nat.add app] in *.
  assert (Hsat : map (prn2sat BDS) (sel a (zs 1 63)) ++ map (prn2sat GPS) (sel b (zs 1 37)) ++ map (prn2sat GAL) (sel c (zs 1 37)) ++ map (prn2sat GLO) (sel d (zs 1 37))
    = sats (slots (a ++ b ++ c ++ d))).
  { rewrite HS in F |- *. rewrite !Forall_app in F. destruct F as (Fa & Fb & Fc & Fd). rewrite !sats_app.
    f_equal; [|f_equal; [|f_equal]]; apply sats_part; try assumption; intros k Hk Hs;
      destruct (slot_sat_model _ Hs) as (sy & p & E & -> & _ & _ & _); f_equal;
      unfold slot2prn, slot_ok in *.
    - replace ((k + (1 - 1) >=? 1) && (k + (1 - 1) <=? 63)) with true in E by lia. injection E as <- <-. f_equal; lia.
    - replace ((k + (64 - 1) >=? 1) && (k + (64 - 1) <=? 63)) with false in E by lia.
      replace (k + (64 - 1) <=? 100) with true in E by lia. injection E as <- <-. f_equal; lia.
    - replace ((k + (101 - 1) >=? 1) && (k + (101 - 1) <=? 63)) with false in E by lia.
      replace (k + (101 - 1) <=? 100) with false in E by lia. replace (k + (101 - 1) <=? 137) with true in E by lia. injection E as <- <-. f_equal; lia.
    - replace ((k + (138 - 1) >=? 1) && (k + (138 - 1) <=? 63)) with false in E by lia.
      replace (k + (138 - 1) <=? 100) with false in E by lia. replace (k + (138 - 1) <=? 137) with false in E by lia.
      replace (k + (138 - 1) <=? 174) with true in E by lia. injection E as <- <-. f_equal; lia. }
  rewrite <- Hsat in HD, HP |- *.
  eexists. split.
  - unfold decode_b2b. rd1. cbn [Z.eqb Pos.eqb]. unfold decode_mask1, decode_head. cbn [Nat.add].
    refine (bind_eq _ _ ssr _ _ _); [repeat rd1; eapply (getu_u _ _ _ _ _ _ B); [reflexivity|reflexivity|rng0]|]. rd1.
    erewrite (getu_raw _ _ _ _ B0 La). cbn [bind].
    erewrite (getu_raw _ _ _ _ B1 Lb). cbn [bind].
    erewrite (getu_raw _ _ _ _ B2 Lc). cbn [bind].
    erewrite (getu_raw _ _ _ _ B3 Ld). cbn [bind].
    pose proof (decode_mask_bval a 1) as Ma. pose proof (decode_mask_bval b 1) as Mb. pose proof (decode_mask_bval c 1) as Mc. pose proof (decode_mask_bval d 1) as Md.
    rewrite La in Ma. rewrite Lb in Mb. rewrite Lc in Mc. rewrite Ld in Md. rewrite Ma, Mb, Mc, Md. cbn [fst].
    replace (negb (iodp =? b_iodp_p (set_b_ssr ssr s))) with true; [reflexivity|].
    destruct s; cbn in *. symmetry. apply negb_true_iff, Z.eqb_neq. assumption.
  - cbn. repeat split; auto.
Qed.

Lemma mask_same tod res ssr m rest s : mask_ok m -> U 2 ssr -> U 4 (b_iodp s) -> b_iodp_p s = b_iodp s ->
  decode_b2b (mask_msg tod res ssr (b_iodp s) m rest) s = Some (set_b_ssr ssr s).
Proof.
  intros [L F] Us Ui Ne. pose proof (mask_split4 m L) as (a & b & c & d & -> & La & Lb & Lc & Ld).
  assert (A0 : At (mask_msg tod res ssr (b_iodp s) (a ++ b ++ c ++ d) rest) 0 (mask_msg tod res ssr (b_iodp s) (a ++ b ++ c ++ d) rest)).
  { exists [], []. now rewrite app_nil_r. }
  unfold mask_msg in A0 at 2. rewrite <- !app_assoc in A0.
  repeat (let B := fresh "B" in apply At_app in A0; destruct A0 as [B A0]).
  rewrite ?enc_length, ?La, ?Lb, ?Lc, ?Ld in *. unfold fwidth, list_sum, b2b_hd in *. cbn [map fst fold_right Nat.add app] in *.
  unfold decode_b2b. rd1. cbn [Z.eqb Pos.eqb]. unfold decode_mask1, decode_head. cbn [Nat.add].
  refine (bind_eq _ _ ssr _ _ _); [repeat rd1; eapply (getu_u _ _ _ _ _ _ B); [reflexivity|reflexivity|rng0]|]. rd1.
  erewrite (getu_raw _ _ _ _ B0 La). cbn [bind].
  erewrite (getu_raw _ _ _ _ B1 Lb). cbn [bind].
  erewrite (getu_raw _ _ _ _ B2 Lc). cbn [bind].
  erewrite (getu_raw _ _ _ _ B3 Ld). cbn [bind].
  destruct s; cbn in *. subst. rewrite Z.eqb_refl. reflexivity.
Qed.

(* ---------- refused messages ---------- *)
Lemma at_self (m : bits) : At m 0 m. Proof. exists [], []. now rewrite app_nil_r. Qed.
Lemma b2b_refused mt tod res ssr rest s : 2 <= mt <= 5 -> U 2 ssr -> ssr <> b_iodssr s ->
  decode_b2b (enc (b2b_hd mt tod res ssr) ++ rest) s = Some s.
Proof.
  intros Hm Us Ne. pose proof (at_self (enc (b2b_hd mt tod res ssr) ++ rest)) as A0. apply At_app in A0 as [A _]. unfold b2b_hd in *.
  assert (G : decode_head (enc [6 # mt; 17 # tod; 4 # res; 2 # ssr] ++ rest) 6 = Some ssr).
  { unfold decode_head. cbn [Nat.add]. repeat rd1. eapply (getu_u _ _ _ _ _ _ A); [reflexivity|reflexivity|rng0]. }
  assert (Nb : negb (b_iodssr s =? ssr) = true) by (apply negb_true_iff, Z.eqb_neq; congruence).
  unfold decode_b2b. refine (bind_eq _ _ mt _ _ _); [eapply (getu_u _ _ _ _ _ _ A); [reflexivity|reflexivity|unfold U; cbn; lia]|].
  replace (mt =? 1) with false by lia. replace (mt =? 6) with false by lia. replace (mt =? 7) with false by lia.
  unfold decode_orb, decode_cbias, decode_clk, decode_ura, decode_ura_n. rewrite G. cbn [bind]. rewrite Nb.
  repeat match goal with |- context [if ?c then _ else _] => destruct c end; reflexivity.
Qed.
Lemma b2b_head mt tod res fl rest s : 0 <= mt < 64 -> U 2 (b_iodssr s) ->
  At (enc (b2b_hd mt tod res (b_iodssr s) ++ fl) ++ rest) 29 (enc fl) /\
  getu (enc (b2b_hd mt tod res (b_iodssr s) ++ fl) ++ rest) 0 6 = Some mt /\
  decode_head (enc (b2b_hd mt tod res (b_iodssr s) ++ fl) ++ rest) 6 = Some (b_iodssr s).
Proof.
  intros Hm Us. pose proof (at_self (enc (b2b_hd mt tod res (b_iodssr s) ++ fl) ++ rest)) as A0.
  apply At_app in A0 as [A _]. rewrite enc_app in A at 2. apply At_app in A as [A B].
  split; [exact B|]. clear B. unfold b2b_hd in *. split.
  - eapply (getu_u _ _ _ _ _ _ A); [reflexivity|reflexivity|unfold U; cbn; lia].
  - unfold decode_head. cbn [Nat.add]. repeat rd1. eapply (getu_u _ _ _ _ _ _ A); [reflexivity|reflexivity|rng0].
Qed.

(* ---------- orbits ---------- *)
Definition inb (a : Z) (l : list Z) : bool := existsb (Z.eqb a) l.
Lemma inb_in a l : inb a l = true <-> In a l.
Proof. unfold inb. rewrite existsb_exists. split; [intros (x & H & E); apply Z.eqb_eq in E; now subst|intros H; exists a; split; [assumption|apply Z.eqb_refl]]. Qed.
Definition orb_eff (e : oent) (s : bst) : bst :=
  match slot_sat (o_slot e) with
  | Some a => if inb a (b_sat_n s) then set_b_orb (zset a (iode_of e) (b_iode s)) (zset a (o_iodc e) (b_iodc s))
                (zset a (code 15 (o_dx e), code 13 (o_dy e), code 13 (o_dz e)) (b_dorb s)) (zset a (o_uc e, o_uv e) (b_ura s)) s else s
  | None => s end.
Lemma sval_code n v : sval_bds v n = code (Z.of_nat n) v.
Proof.
  unfold sval_bds, code. replace (- (2 ^ (Z.of_nat n - 1) - 1)) with (- 2 ^ (Z.of_nat n - 1) + 1) by lia. reflexivity.
Qed.
Lemma orb_sat_ok msg i e s : Forall (fun a => 0 < a) (b_sat_n s) -> oent_ok e -> At msg i (enc (ofields e)) ->
  orb_sat msg i s = Some ((i + 69)%nat, orb_eff e s).
Proof.
  intros P (Ho & H1 & H2 & H3 & H4 & H5 & H6 & H7 & H8) A. unfold ofields in A. unfold orb_sat.
  rp 0%nat. rp 9%nat. rp 19%nat. rp 22%nat. rp 37%nat. rp 50%nat. rp 63%nat. rp 66%nat. cbv zeta.
  replace (i + 22 + 41 + 6)%nat with (i + 69)%nat by lia. unfold orb_eff.
  destruct Ho as [Ho|Ho].
  - destruct (slot_sat_model _ Ho) as (sys & p & -> & -> & _ & Nn & Hg).
    replace (gnss_eqb sys NONE) with false by (destruct sys; try reflexivity; congruence).
    fold (inb (prn2sat sys p) (b_sat_n s)). destruct (inb (prn2sat sys p) (b_sat_n s)); cbn [negb]; [|reflexivity].
    rewrite Hg, !sval_code. unfold iode_of. cbn [Z.of_nat Pos.of_succ_nat Pos.succ].
    change 255 with (Z.ones 8). rewrite Z.land_ones by lia. reflexivity.
  - destruct (slot_idle _ Ho) as (-> & [-> | ->]); [reflexivity|]. cbn [gnss_eqb prn2sat].
    replace (existsb (Z.eqb (-63)) (b_sat_n s)) with false; [reflexivity|].
    symmetry. apply not_true_is_false. rewrite existsb_exists. intros (x & Hx & E). rewrite Forall_forall in P. specialize (P x Hx). lia.
Qed.
Lemma orb_eff_keep e s : mask_part (orb_eff e s) = mask_part s /\ b_sat_n (orb_eff e s) = b_sat_n s /\ clk_part (orb_eff e s) = clk_part s /\ b_cbias (orb_eff e s) = b_cbias s.
Proof. unfold orb_eff. destruct (slot_sat _); [|auto]. destruct (inb _ _); [|auto]. destruct s; cbn; auto. Qed.
Lemma orb_loop_ok msg : forall l i s, Forall (fun a => 0 < a) (b_sat_n s) -> Forall oent_ok l -> At msg i (enc (flat_map ofields l)) ->
  exists i', orb_loop msg i (length l) s = Some (i', fold_left (fun s e => orb_eff e s) l s).
Proof.
  induction l as [|e l IH]; intros i s P F A; [eexists; reflexivity|]. inversion F; subst.
  cbn [flat_map] in A. rewrite enc_app in A. apply At_app in A as [A B]. rewrite enc_length in B.
  cbn [length orb_loop]. rewrite (orb_sat_ok msg i e s) by assumption. cbn [bind fold_left].
  apply IH; [|assumption|exact B]. destruct (orb_eff_keep e s) as (_ & -> & _). assumption.
Qed.
Lemma orbit_set a b iode iodc o u s :
  orbit (set_b_orb (zset a iode (b_iode s)) (zset a iodc (b_iodc s)) (zset a o (b_dorb s)) (zset a u (b_ura s)) s) b
  = if a =? b then Some (iode, iodc, o, u) else orbit s b.
Proof.
  destruct s; unfold orbit; cbn [set_b_orb BdsModel.b_iode BdsModel.b_iodc BdsModel.b_dorb BdsModel.b_ura]. destruct (Z.eqb_spec a b) as [<-|N].
  - now rewrite !zget_zset_same.
  - now rewrite !zget_zset_other by assumption.
Qed.
Lemma orb_fold : forall l s, let s' := fold_left (fun s e => orb_eff e s) l s in
  (forall a, orbit s' a = if inb a (b_sat_n s) then match last_orb a l with Some e => Some (oval e) | None => orbit s a end else orbit s a) /\
  mask_part s' = mask_part s /\ b_sat_n s' = b_sat_n s /\ clk_part s' = clk_part s /\ b_cbias s' = b_cbias s.
Proof.
  induction l as [|e l IH]; intros s; cbn [fold_left]; cbv zeta.
  - repeat split. intros a. cbn [last_orb]. now destruct (inb a _).
  - specialize (IH (orb_eff e s)). cbv zeta in IH. destruct IH as (IH & K1 & K2 & K3 & K4). destruct (orb_eff_keep e s) as (J1 & J2 & J3 & J4).
    rewrite J1 in K1. rewrite J2 in K2. rewrite J3 in K3. rewrite J4 in K4. repeat split; try assumption.
    intros a. rewrite IH, J2. cbn [last_orb].
    assert (X : orbit (orb_eff e s) a = if inb a (b_sat_n s) then match slot_sat (o_slot e) with Some b => if b =? a then Some (oval e) else orbit s a | None => orbit s a end else orbit s a).
    { unfold orb_eff. destruct (slot_sat (o_slot e)) as [b|]; [|now destruct (inb a _)].
      destruct (inb b (b_sat_n s)) eqn:Eb.
      - rewrite orbit_set. destruct (Z.eqb_spec b a) as [->|N]; [now rewrite Eb|]. now destruct (inb a _).
      - destruct (Z.eqb_spec b a) as [->|N]; [now rewrite Eb|]. now destruct (inb a _). }
    rewrite X. destruct (inb a (b_sat_n s)); [|reflexivity].
    destruct (last_orb a l); [reflexivity|]. destruct (slot_sat (o_slot e)) as [b|]; [|reflexivity]. now destruct (b =? a).
Qed.
Theorem b2b_orbit tod res l rest s : valid s -> U 2 (b_iodssr s) -> length l = 6%nat -> Forall oent_ok l ->
  exists s', decode_b2b (orb_msg tod res (b_iodssr s) l rest) s = Some s' /\
    (forall a, In a (b_sat_n s) -> orbit s' a = match last_orb a l with Some e => Some (oval e) | None => orbit s a end) /\
    (forall a, ~ In a (b_sat_n s) -> orbit s' a = orbit s a) /\
    mask_part s' = mask_part s /\ clk_part s' = clk_part s /\ b_cbias s' = b_cbias s.
Proof.
  intros (P & _) Us L F. unfold orb_msg. destruct (b2b_head 2 tod res (flat_map ofields l) rest s ltac:(lia) Us) as (A & G & H).
  destruct (orb_loop_ok _ l 29 s P F A) as (i' & E). rewrite L in E. destruct (orb_fold l s) as (K & K1 & K2 & K3 & K4).
  eexists. split; [|split; [|split]].
  - unfold decode_b2b. rewrite G. cbn [bind Z.eqb Pos.eqb]. unfold decode_orb. rewrite H. cbn [bind]. rewrite Z.eqb_refl. cbn [negb Nat.add].
    rewrite E. reflexivity.
  - cbn [snd]. intros a Ha. rewrite K. now rewrite (proj2 (inb_in _ _) Ha).
  - cbn [snd]. intros a Ha. rewrite K. destruct (inb a (b_sat_n s)) eqn:X; [|reflexivity]. apply inb_in in X. contradiction.
  - auto.
Qed.

(* ---------- clocks ---------- *)
Definition clk_eff (a : Z) (c : Z * Z) (s : bst) : bst :=
  let p := match clock s a with
           | Some (i, d) => if i =? fst c then (b_iodc_c_p s, b_dclk_p s) else (zset a i (b_iodc_c_p s), zset a d (b_dclk_p s))
           | None => (b_iodc_c_p s, b_dclk_p s) end in
  set_b_clk (zset a (fst c) (b_iodc_c s)) (zset a (neg (code 15 (snd c))) (b_dclk s)) (fst p) (snd p) s.
Definition cdom (s : bst) : Prop := forall a, zget a (b_iodc_c s) <> None -> zget a (b_dclk s) <> None.
Lemma clk_sat_ok msg i a c s : cdom s -> U 3 (fst c) -> S_ 15 (snd c) -> At msg i (enc [3 # fst c; 15 # snd c]) ->
  clk_sat msg i a s = Some ((i + 18)%nat, clk_eff a c s).
Proof.
  intros D H1 H2 A. unfold clk_sat. rp 0%nat. rp 3%nat. cbv zeta. unfold clk_eff, clock, both.
  rewrite sval_code. change (Z.of_nat 15) with 15.
  replace (option_map Z.opp (code 15 (snd c))) with (neg (code 15 (snd c))) by now destruct (code 15 (snd c)).
  specialize (D a). destruct (zget a (b_iodc_c s)) as [j|]; [|reflexivity].
  rewrite (Z.eqb_sym (fst c) j). destruct (zget a (b_dclk s)) as [d|]; [|now destruct D].
  destruct (j =? fst c); reflexivity.
Qed.
Lemma set_b_clk_get x y z w s : b_iodc_c (set_b_clk x y z w s) = x /\ b_dclk (set_b_clk x y z w s) = y /\
  b_iodc_c_p (set_b_clk x y z w s) = z /\ b_dclk_p (set_b_clk x y z w s) = w /\ b_sat_n (set_b_clk x y z w s) = b_sat_n s /\
  mask_part (set_b_clk x y z w s) = mask_part s /\ orb_part (set_b_clk x y z w s) = orb_part s /\ b_ura (set_b_clk x y z w s) = b_ura s /\ b_cbias (set_b_clk x y z w s) = b_cbias s.
Proof. destruct s. repeat split. Qed.
Lemma clk_eff_get a c s b : clock (clk_eff a c s) b = if a =? b then Some (fst c, neg (code 15 (snd c))) else clock s b.
Proof.
  unfold clk_eff. cbv zeta. unfold clock at 1. match goal with |- context [set_b_clk ?x ?y ?z ?w s] => destruct (set_b_clk_get x y z w s) as (-> & -> & _) end.
  destruct (Z.eqb_spec a b) as [<-|N].
  - now rewrite !zget_zset_same.
  - now rewrite !zget_zset_other by assumption.
Qed.
Definition cp_after (o o' : option (Z * option Z)) (p : option (Z * option Z)) : option (Z * option Z) :=
  match o, o' with Some (i, d), Some (i', _) => if i =? i' then p else Some (i, d) | _, _ => p end.
Lemma clk_eff_p a c s b : clock_p (clk_eff a c s) b = if a =? b then cp_after (clock s a) (Some (fst c, neg (code 15 (snd c)))) (clock_p s a) else clock_p s b.
Proof.
  unfold clk_eff. cbv zeta. unfold clock_p at 1. match goal with |- context [set_b_clk ?x ?y ?z ?w s] => destruct (set_b_clk_get x y z w s) as (_ & _ & -> & -> & _) end.
  unfold cp_after. destruct (clock s a) as [[i d]|]; [destruct (i =? fst c)|]; cbn [fst snd];
  (destruct (Z.eqb_spec a b) as [<-|N]; [|rewrite ?zget_zset_other by assumption]); try rewrite !zget_zset_same; reflexivity.
Qed.
Lemma clk_eff_keep a c s : b_sat_n (clk_eff a c s) = b_sat_n s /\ mask_part (clk_eff a c s) = mask_part s /\ orb_part (clk_eff a c s) = orb_part s /\
  b_ura (clk_eff a c s) = b_ura s /\ b_cbias (clk_eff a c s) = b_cbias s.
Proof. unfold clk_eff. apply set_b_clk_get. Qed.
Lemma clk_eff_dom a c s : cdom s -> cdom (clk_eff a c s).
Proof.
  intros D b. unfold clk_eff. cbv zeta. match goal with |- context [set_b_clk ?x ?y ?z ?w s] => destruct (set_b_clk_get x y z w s) as (-> & -> & _) end.
  destruct (Z.eq_dec a b) as [<-|N]; [rewrite !zget_zset_same; congruence|]. rewrite !zget_zset_other by assumption. apply D.
Qed.
Lemma clk_loop_ok msg st : 0 <= st -> forall l k i s, NoDup (b_sat_n s) -> cdom s -> Forall (fun c => U 3 (fst c) /\ S_ 15 (snd c)) l ->
  At msg i (enc (flat_map (fun c => [3 # fst c; 15 # snd c]) l)) ->
  exists s', clk_loop msg i (length l) k st s = Some s' /\
    (forall j a, nth_error (b_sat_n s) j = Some a ->
       match entry l (Z.to_nat (st * 23) + k) j with
       | Some c => clock s' a = Some (fst c, neg (code 15 (snd c))) /\ clock_p s' a = cp_after (clock s a) (clock s' a) (clock_p s a)
       | None => clock s' a = clock s a /\ clock_p s' a = clock_p s a end) /\
    (forall a, ~ In a (b_sat_n s) -> clock s' a = clock s a /\ clock_p s' a = clock_p s a) /\
    b_sat_n s' = b_sat_n s /\ mask_part s' = mask_part s /\ orb_part s' = orb_part s /\ b_ura s' = b_ura s /\ b_cbias s' = b_cbias s.
Proof.
  intros Hst. induction l as [|c l IH]; intros k i s N D F A.
  - exists s. split; [reflexivity|]. split; [|repeat split; auto]. intros j a _. unfold entry.
    destruct (_ <=? j)%nat; [rewrite (proj2 (nth_error_None [] _)) by (cbn; lia)|]; auto.
  - inversion F as [|? ? [Hc1 Hc2] F']; subst. cbn [flat_map] in A. rewrite enc_app in A. apply At_app in A as [A B].
    cbn [length clk_loop]. set (p := (Z.to_nat (st * 23) + k)%nat).
    replace (Z.to_nat (st * 23 + Z.of_nat k)) with p by (unfold p; lia).
    destruct (nth_error (b_sat_n s) p) as [a|] eqn:Ea.
    + rewrite (clk_sat_ok msg i a c s D Hc1 Hc2 A). cbn [bind].
      destruct (clk_eff_keep a c s) as (Q1 & Q2 & Q3 & Q4 & Q5).
      destruct (IH (S k) (i + 18)%nat (clk_eff a c s)) as (s' & E & K1 & K2 & K3 & K4 & K5 & K6 & K7); [now rewrite Q1|now apply clk_eff_dom|assumption|exact B|].
      exists s'. rewrite Q1 in *. rewrite Q2 in *. rewrite Q3 in *. rewrite Q4 in *. rewrite Q5 in *. split; [exact E|]. split; [|split; [|auto 10]].
      * intros j b Hb. specialize (K1 j b Hb). rewrite entry_S. destruct (Nat.eqb_spec j p) as [->|Nj].
        { rewrite Ea in Hb. injection Hb as <-. replace (Z.to_nat (st * 23) + S k)%nat with (S p) in K1 by (unfold p; lia).
          rewrite entry_beyond in K1 by lia. destruct K1 as [K1 K1']. rewrite K1, K1', clk_eff_get, clk_eff_p, Z.eqb_refl. auto. }
        { replace (Z.to_nat (st * 23) + S k)%nat with (S p) in K1 by (unfold p; lia).
          assert (a <> b) by (intros ->; apply Nj; eapply nodup_pos; eassumption).
          rewrite clk_eff_get, clk_eff_p in K1. destruct (Z.eqb_spec a b); [contradiction|]. exact K1. }
      * intros b Hb. destruct (K2 b Hb) as [-> ->]. rewrite clk_eff_get, clk_eff_p. destruct (Z.eqb_spec a b) as [<-|]; [|auto].
        destruct Hb. eapply nth_error_In, Ea.
    + assert (Z1 : forall l' k' i', (k <= k')%nat -> clk_loop msg i' l' k' st s = Some s).
      { clear - Ea Hst. induction l' as [|l' IH]; intros k' i' H; [reflexivity|]. cbn [clk_loop].
        rewrite (proj2 (nth_error_None (b_sat_n s) _)); [apply IH; lia|]. apply nth_error_None in Ea. subst p. lia. }
      exists s. rewrite Z1 by lia. split; [reflexivity|]. split; [|repeat split; auto].
      intros j b Hb. rewrite entry_beyond; [auto|]. apply nth_error_None in Ea. assert (j < length (b_sat_n s))%nat by (apply nth_error_Some; congruence). fold p. lia.
Qed.
Theorem b2b_clock tod res st l rest s : valid s -> NoDup (b_sat_n s) -> U 2 (b_iodssr s) -> U 4 (b_iodp s) -> U 5 st -> clk_ok l ->
  exists s', decode_b2b (clk_msg tod res (b_iodssr s) (b_iodp s) st l rest) s = Some s' /\
    (forall j a, nth_error (b_sat_n s) j = Some a ->
       match entry l (23 * Z.to_nat st) j with
       | Some c => clock s' a = Some (fst c, neg (code 15 (snd c))) /\ clock_p s' a = cp_after (clock s a) (clock s' a) (clock_p s a)
       | None => clock s' a = clock s a /\ clock_p s' a = clock_p s a end) /\
    (forall a, ~ In a (b_sat_n s) -> clock s' a = clock s a /\ clock_p s' a = clock_p s a) /\
    mask_part s' = mask_part s /\ orb_part s' = orb_part s /\ b_ura s' = b_ura s /\ b_cbias s' = b_cbias s.
Proof.
  intros (P & D & _) N Us Ui Ut [L F]. unfold clk_msg.
  destruct (b2b_head 4 tod res ([4 # b_iodp s; 5 # st] ++ flat_map (fun c => [3 # fst c; 15 # snd c]) l) rest s ltac:(lia) Us) as (A & G & H).
  match type of A with At ?M _ _ => set (M0 := M) in * end. rewrite enc_app in A. apply At_app in A as [A B].
  assert (0 <= st) as Hst by (unfold U in Ut; lia).
  destruct (clk_loop_ok _ st Hst l 0 _ s N D F B) as (s' & E & K1 & K2 & K3 & K). rewrite L in E.
  exists s'. split; [|split; [|split; [exact K2|exact K]]].
  - clear B K1 K2. unfold decode_b2b. rewrite G. cbn [bind Z.eqb Pos.eqb]. unfold decode_clk. rewrite H. cbn [bind]. rewrite Z.eqb_refl. cbn [negb Nat.add].
    rp 0%nat. rp 4%nat. rewrite Z.eqb_refl. cbn [negb]. exact E.
  - intros j a Hj. specialize (K1 j a Hj). replace (Z.to_nat (st * 23) + 0)%nat with (23 * Z.to_nat st)%nat in K1 by lia. exact K1.
Qed.
Lemma b2b_clock_refused tod res iodp fl rest s : U 2 (b_iodssr s) -> U 4 iodp -> iodp <> b_iodp s ->
  decode_b2b (enc (b2b_hd 4 tod res (b_iodssr s) ++ [4 # iodp; 5 # fl]) ++ rest) s = Some s.
Proof.
  intros Us Ui Ne. destruct (b2b_head 4 tod res [4 # iodp; 5 # fl] rest s ltac:(lia) Us) as (A & G & H).
  unfold decode_b2b. rewrite G. cbn [bind Z.eqb Pos.eqb]. unfold decode_clk. rewrite H. cbn [bind]. rewrite Z.eqb_refl. cbn [negb Nat.add].
  rp 0%nat. refine (bind_eq _ _ _ _ (getu_f _ _ _ 33 5 fl A eq_refl eq_refl) _).
  replace (iodp =? b_iodp s) with false by (symmetry; now apply Z.eqb_neq). reflexivity.
Qed.
