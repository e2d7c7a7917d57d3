From Coq Require Import ZArith List Lia Bool ZifyBool ZifyNat.
From Verif Require Import SatModel CssrState CssrSpec CssrFacts SbasModel SbasSpec.
From Verif Require Import FieldFacts SbasProofs.
Import ListNotations.
Notation length := List.length.
Open Scope Z_scope.

Lemma at_point_nth {A} : forall idx (l : list A) k p, NoDup idx -> length l = length idx -> nth_error idx k = Some p -> at_point idx l p = nth_error l k.
Proof.
  induction idx as [|q idx IH]; intros [|a l] k p N L E; try discriminate; [now destruct k|]. cbn [at_point]. inversion N; subst.
  destruct k as [|k]; cbn [nth_error] in *.
  - injection E as ->. now rewrite Z.eqb_refl.
  - destruct (Z.eqb_spec q p) as [->|]; [exfalso; apply H1; eapply nth_error_In; eassumption|]. apply IH; auto.
Qed.
Lemma combine_nth_error {A B} : forall (l : list A) (l' : list B) k, length l = length l' ->
  nth_error (combine l l') k = match nth_error l k, nth_error l' k with Some a, Some b => Some (a, b) | _, _ => None end.
Proof. induction l as [|a l IH]; intros [|b l'] [|k] H; cbn in *; try discriminate; auto. Qed.
Lemma upd_nth_same {A} (f : A -> A) : forall l n, nth_error (upd n f l) n = option_map f (nth_error l n).
Proof. induction l as [|a l IH]; intros [|n]; cbn; auto. Qed.
Lemma upd_nth_other {A} (f : A -> A) : forall l n k, n <> k -> nth_error (upd n f l) k = nth_error l k.
Proof. induction l as [|a l IH]; intros [|n] [|k] H; cbn; auto; try congruence. Qed.

Definition gfields (l : list (Z * Z)) : list field := flat_map (fun vg => [9 # fst vg; 4 # snd vg]) l.
Lemma igp_loop_ok msg : forall l j i v g, length v = length g -> Forall (fun vg => U 9 (fst vg) /\ U 4 (snd vg)) l ->
  At msg i (enc (gfields l)) ->
  exists v' g', igp_loop msg i (length l) j v g = Some (v', g') /\ length v' = length v /\ length g' = length g /\
    forall k, (k < length v)%nat -> nth_error (combine v' g') k =
      match entry l j k with Some vg => Some (delay_val (fst vg), snd vg) | None => nth_error (combine v g) k end.
Proof.
  induction l as [|[a b] l IH]; intros j i v g L F A; cbn [length igp_loop].
  - exists v, g. repeat split. intros k _. unfold entry. destruct (_ <=? _)%nat; [now destruct (k - _)%nat|reflexivity].
  - inversion F as [|? ? [Fa Fb] F']; subst. cbn [fst snd] in *.
    change (enc (gfields ((a, b) :: l))) with (bitsof 9 a ++ bitsof 4 b ++ enc (gfields l)) in A.
    apply At_app in A. destruct A as [A0 A]. apply At_app in A. destruct A as [A1 A]. rewrite !bitsof_length in *.
    assert (G0 : getu msg i 9 = Some a) by (apply getu_val; [exact A0|exact Fa]).
    assert (G1 : getu msg (i + 9) 4 = Some b) by (apply getu_val; [exact A1|exact Fb]).
    rewrite G0, G1. cbn [bind].
    destruct (Nat.leb_spec (length v) j) as [Hj|Hj].
    + exists v, g. repeat split. intros k Hk. rewrite entry_beyond by lia. reflexivity.
    + destruct (Nat.leb_spec (length g) j); [lia|].
      replace (i + 9 + 4)%nat with (i + 13)%nat in A by lia.
      destruct (IH (S j) (i + 13)%nat (upd j (fun _ => if a <? 511 then Some a else None) v) (upd j (fun _ => b) g)) as (v' & g' & R & L1 & L2 & H');
        [rewrite !upd_length; assumption|assumption|assumption|].
      rewrite !upd_length in *. exists v', g'. repeat split; [exact R|assumption|assumption|]. intros k Hk. rewrite H', entry_S by assumption.
      destruct (Nat.eqb_spec k j) as [->|Hne].
      * rewrite entry_beyond by lia. rewrite combine_nth_error by (rewrite !upd_length; assumption). rewrite !upd_nth_same.
        destruct (nth_error v j) eqn:E1; [|apply nth_error_None in E1; lia]. destruct (nth_error g j) eqn:E2; [|apply nth_error_None in E2; lia].
        cbn. unfold delay_val. unfold U in Fa. destruct (Z.ltb_spec a 511), (Z.eqb_spec a 511); try reflexivity; lia.
      * destruct (entry l (S j) k); [reflexivity|].
        rewrite !combine_nth_error by (rewrite ?upd_length; assumption). now rewrite !upd_nth_other by lia.
Qed.
Lemma gfields_width l : fwidth (gfields l) = (13 * length l)%nat.
Proof.
  induction l as [|a l IH]; [reflexivity|]. unfold gfields in *. cbn [flat_map length]. unfold fwidth in *.
  cbn [map app fst]. change (list_sum (9%nat :: 4%nat :: ?x)) with (9 + (4 + list_sum x))%nat.
  replace (13 * S (length l))%nat with (13 + 13 * length l)%nat by lia. rewrite <- IH. reflexivity.
Qed.

Theorem delays_decoded pre band bid l iodi rest s idx v g :
  U 4 band -> U 4 bid -> U 2 iodi -> delay_ok l ->
  zget band (ss_igp s) = Some idx -> zget band (ss_vtec s) = Some v -> zget band (ss_givei s) = Some g ->
  NoDup idx -> length v = length idx -> length g = length idx ->
  exists s', decode_l1 (delay_msg pre band bid l iodi rest) s = Some s' /\
    (iodi <> ss_iodi s -> s' = s) /\
    (iodi = ss_iodi s ->
      (forall k p, nth_error idx k = Some p -> grid s' band p =
         match entry l (Z.to_nat (15 * bid)) k with Some vg => Some (delay_val (fst vg), snd vg) | None => grid s band p end) /\
      (forall b p, b <> band -> grid s' b p = grid s b p) /\
      ss_igp s' = ss_igp s /\ ss_iodi s' = ss_iodi s).
Proof.
  intros Ub Uk Ui [Ll Fl] Ei Ev Eg N Lv Lg. set (M := delay_msg pre band bid l iodi rest).
  assert (A0 : At M 0 M). { exists [], []. now rewrite app_nil_r. }
  unfold M in A0 at 2. unfold delay_msg in A0. fold (gfields l) in A0.
  apply At_app in A0. destruct A0 as [B0 A0]. apply At_app in A0. destruct A0 as [B1 A0]. apply At_app in A0. destruct A0 as [B2 _].
  rewrite !enc_length, ?gfields_width, ?Ll in *. change (fwidth [8 # pre; 6 # 26; 4 # band; 4 # bid]) with 22%nat in *.
  cbn [Nat.mul Nat.add] in *. clearbody M.
  destruct (igp_loop_ok M l (Z.to_nat (bid * 15)) 22 v g ltac:(congruence) Fl B1) as (v' & g' & R & L1 & L2 & H).
  rewrite Ll in R.
  destruct (Z.eq_dec iodi (ss_iodi s)) as [E|E].
  - exists (set_ss_iono (ss_iodi s) (ss_igp s) (zset band v' (ss_vtec s)) (zset band g' (ss_givei s)) (zset (band + 1) (ss_time s) (ss_t0v s)) s).
    split; [|split; [tauto|intros _; split; [|split]]].
    + unfold decode_l1. rd1. rd1. cbn [Z.eqb Pos.eqb Z.leb Z.compare Pos.compare Pos.compare_cont andb]. unfold decode_iono. cbn [Nat.add].
      rd1. rewrite E, Z.eqb_refl. cbn [negb]. rd1. rd1. rewrite Ev, Eg. cbn [bind]. rewrite R. reflexivity.
    + intros k p Hk. unfold grid. destruct s; cbn [set_ss_iono SbasModel.ss_igp SbasModel.ss_vtec SbasModel.ss_givei] in *.
      rewrite !zget_zset_same, Ei, Ev, Eg.
      assert (k < length idx)%nat by (apply nth_error_Some; congruence).
      rewrite !(at_point_nth idx _ k p) by (try assumption; rewrite combine_length; lia).
      rewrite H by lia. now rewrite (Z.mul_comm 15).
    + intros b p Hb. unfold grid. destruct s; cbn [set_ss_iono SbasModel.ss_igp SbasModel.ss_vtec SbasModel.ss_givei] in *.
      now rewrite !zget_zset_other by congruence.
    + now destruct s.
  - exists s. split; [|split; [tauto|contradiction]].
    unfold decode_l1. rd1. rd1. cbn [Z.eqb Pos.eqb Z.leb Z.compare Pos.compare Pos.compare_cont andb]. unfold decode_iono. cbn [Nat.add].
    rd1. replace (iodi =? ss_iodi s) with false by lia. reflexivity.
Qed.

Lemma mask_bits_ok msg i : forall m k, At msg (i + k) m -> mask_bits msg i (length m) k = Some (sel m (zs (Z.of_nat k) (length m))).
Proof.
  induction m as [|b m IH]; intros k A; [reflexivity|]. cbn [length mask_bits].
  change (b :: m) with ([b] ++ m) in A. apply At_app in A. destruct A as [A0 A]. cbn [length] in A.
  rewrite (getu_bit msg (i + k) b) by exact A0. cbn [bind].
  replace (i + k + 1)%nat with (i + S k)%nat in A by lia. rewrite (IH (S k) A). cbn [bind]. rewrite b2z_eqb.
  assert (E : zs (Z.of_nat k) (S (length m)) = Z.of_nat k :: zs (Z.of_nat (S k)) (length m)).
  { change (S (length m)) with (1 + length m)%nat. rewrite zs_app. cbn [zs seq map app]. f_equal; [lia|]. f_equal. lia. }
  rewrite E. unfold sel. destruct b; reflexivity.
Qed.
Lemma grid_fresh : forall idx p, In p idx -> at_point idx (combine (repeat (Some 0) (length idx)) (repeat 0 (length idx))) p = Some (Some 0, 0).
Proof.
  induction idx as [|q idx IH]; intros p H; [destruct H|]. cbn [length repeat combine at_point].
  destruct (Z.eqb_spec q p); [reflexivity|]. apply IH. destruct H; [contradiction|assumption].
Qed.
Theorem igp_decoded pre nb band iodi m rest s :
  U 4 nb -> U 4 band -> U 2 iodi -> length m = 201%nat ->
  exists s', decode_l1 (igp_msg pre nb band iodi m rest) s = Some s' /\ ss_iodi s' = iodi /\
    zget band (ss_igp s') = Some (sel m (zs 0 201)) /\ NoDup (sel m (zs 0 201)) /\
    (zget band (ss_vtec s) = None -> zget band (ss_givei s) = None ->
      exists v g, zget band (ss_vtec s') = Some v /\ zget band (ss_givei s') = Some g /\
        length v = length (sel m (zs 0 201)) /\ length g = length (sel m (zs 0 201)) /\
        (forall p, In p (sel m (zs 0 201)) -> grid s' band p = Some (Some 0, 0))) /\
    (forall b p, b <> band -> grid s' b p = grid s b p).
Proof.
  intros Un Ub Ui Lm. set (M := igp_msg pre nb band iodi m rest).
  assert (A0 : At M 0 M). { exists [], []. now rewrite app_nil_r. }
  unfold M in A0 at 2. unfold igp_msg in A0.
  apply At_app in A0. destruct A0 as [B0 A0]. apply At_app in A0. destruct A0 as [B1 _].
  change (0 + length (enc [8 # pre; 6 # 18; 4 # nb; 4 # band; 2 # iodi]))%nat with (24 + 0)%nat in B1. clearbody M.
  pose proof (mask_bits_ok M 24 m 0 B1) as MB. rewrite Lm in MB. change (Z.of_nat 0) with 0 in MB.
  eexists. split; [|split; [|split; [|split; [apply sel_nodup, zs_nodup|split]]]].
  - unfold decode_l1. rd1. rd1. cbn [Z.eqb Pos.eqb Z.leb Z.compare Pos.compare Pos.compare_cont andb]. unfold decode_igpmask. cbn [Nat.add].
    rd1. rd1. rd1. rewrite MB. reflexivity.
  - now destruct s.
  - destruct s; cbn [set_ss_iono SbasModel.ss_igp]. apply zget_zset_same.
  - intros Ev Eg. rewrite Ev, Eg. destruct s; cbn [set_ss_iono SbasModel.ss_igp SbasModel.ss_vtec SbasModel.ss_givei] in *.
    exists (repeat (Some 0) (length (sel m (zs 0 201)))), (repeat 0 (length (sel m (zs 0 201)))).
    rewrite !zget_zset_same, !repeat_length. repeat split.
    intros p Hp. unfold grid. cbn [SbasModel.ss_igp SbasModel.ss_vtec SbasModel.ss_givei]. rewrite !zget_zset_same. now apply grid_fresh.
  - intros b p Hb. unfold grid. destruct s; cbn [set_ss_iono SbasModel.ss_igp SbasModel.ss_vtec SbasModel.ss_givei] in *.
    rewrite zget_zset_other by congruence.
    destruct (zget band ss_vtec), (zget band ss_givei); rewrite ?zget_zset_other by congruence; reflexivity.
Qed.
