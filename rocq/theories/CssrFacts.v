(** Generic lemmas for the compact-SSR proofs: monad steps, reading fields, masks, dictionaries. *)
From Verif Require Import Base BaseFacts BitProofs CssrModel CssrSpec.
From Coq Require Import ZifyBool ZifyNat.
Open Scope Z_scope.

(* ---------- monad ---------- *)
Lemma mbind_ok {A B} (m : M A) (f : A -> M B) s s' a :
  m s = (s', Some a) -> mbind m f s = f a s'.
Proof. intros H. unfold mbind. now rewrite H. Qed.
Lemma mbind_assoc {A B C} (m : M A) (f : A -> M B) (g : B -> M C) s :
  mbind (mbind m f) g s = mbind m (fun a => mbind (f a) g) s.
Proof. unfold mbind. destruct (m s) as [s' [a|]]; reflexivity. Qed.
Lemma mbind_ret {A B} (a : A) (f : A -> M B) s : mbind (ret a) f s = f a s.
Proof. reflexivity. Qed.
Lemma mbind_ask {A B} (g : cst -> A) (f : A -> M B) s : mbind (ask g) f s = f (g s) s.
Proof. reflexivity. Qed.
Lemma mbind_modify {B} g (f : unit -> M B) s : mbind (modify g) f s = f tt (g s).
Proof. reflexivity. Qed.
Lemma mbind_modlc {B} n g (f : unit -> M B) s : mbind (modlc n g) f s = f tt (updlc n g s).
Proof. reflexivity. Qed.
Lemma mbind_set_t0 {B} n sat ct (f : unit -> M B) s : mbind (set_t0 n sat ct) f s = f tt (stamp n sat ct s).
Proof. reflexivity. Qed.
Lemma mbind_lift {A B} (o : option A) a (f : A -> M B) s : o = Some a -> mbind (lift o) f s = f a s.
Proof. intros ->. reflexivity. Qed.
Lemma mbind_ru {B} msg i n v (f : Z -> M B) s : getu msg i n = Some v -> mbind (ru msg i n) f s = f v s.
Proof. intros H. unfold ru. now apply mbind_lift. Qed.
Lemma mbind_rs {B} msg i n v (f : Z -> M B) s : gets msg i n = Some v -> mbind (rs msg i n) f s = f v s.
Proof. intros H. unfold rs. now apply mbind_lift. Qed.
Lemma mbind_flg_off {B} (f : unit -> M B) s : mbind flg_off f s = f tt (set_s_flg_net false s).
Proof. reflexivity. Qed.
Lemma mbind_set_udi {B} ct v (f : unit -> M B) s : mbind (set_udi ct v) f s = f tt (udi_eff ct v s).
Proof. reflexivity. Qed.
Lemma mbind_set_iodc {B} ct v (f : unit -> M B) s : mbind (set_iodc ct v) f s = f tt (iodc_eff ct v s).
Proof. reflexivity. Qed.
Lemma or_cstat_eff n ct s : 0 <= ct -> or_cstat n ct s = (flag_eff n ct s, Some tt).
Proof. intros H. unfold or_cstat, flag_eff, modlc, modify. now rewrite Z.shiftl_1_l. Qed.
Lemma mbind_or_cstat {B} n ct (f : unit -> M B) s : 0 <= ct -> mbind (or_cstat n ct) f s = f tt (flag_eff n ct s).
Proof. intros H. erewrite mbind_ok by (now apply or_cstat_eff). reflexivity. Qed.

Lemma forM_S {A} n k (f : nat -> A -> M A) a s :
  forM (S n) k f a s = mbind (f k a) (fun a' => forM n (S k) f a') s.
Proof. reflexivity. Qed.

(* ---------- fields ---------- *)
Lemma getu_val msg i n v : At msg i (bitsof n v) -> ub n v -> getu msg i n = Some v.
Proof. intros. now apply getu_bits. Qed.
Lemma gets_val msg i n v : At msg i (bitsof n v) -> (1 <= n)%nat -> sb n v -> gets msg i n = Some v.
Proof. intros. now apply gets_bits. Qed.
Lemma getu_raw msg i n l : At msg i l -> length l = n -> getu msg i n = Some (bval l).
Proof. intros H <-. now apply getu_at. Qed.

Lemma At_pos msg i j w : At msg i w -> i = j -> At msg j w.
Proof. now intros H <-. Qed.

(** split every [At] of an append; positions stay as sums of lengths *)
Ltac at_split :=
  repeat match goal with
  | H : At _ _ (_ ++ _) |- _ =>
      let H1 := fresh "A" in apply At_app in H; destruct H as [H1 H]
  end.
Lemma bit_length b : length (bit b) = 1%nat.
Proof. reflexivity. Qed.
Ltac len := rewrite ?app_length, ?bitsof_length, ?bit_length in *; cbn [length] in *.

Ltac rng := first [ assumption | unfold ub, sb in *; cbn in *; lia | (intuition (unfold ub, sb in *; cbn in *; lia)) ].
Ltac atpos := eapply At_pos; [ eassumption | len; lia ].

Ltac step1 :=
  match goal with
  | |- mbind (mbind _ _) _ _ = _ => rewrite mbind_assoc
  | |- mbind (ret _) _ _ = _ => rewrite mbind_ret
  | |- mbind (ask _) _ _ = _ => rewrite mbind_ask
  | |- mbind (modify _) _ _ = _ => rewrite mbind_modify
  | |- mbind (modlc _ _) _ _ = _ => rewrite mbind_modlc
  | |- mbind (set_t0 _ _ _) _ _ = _ => rewrite mbind_set_t0
  | |- mbind flg_off _ _ = _ => rewrite mbind_flg_off
  | |- mbind (set_udi _ _) _ _ = _ => rewrite mbind_set_udi
  | |- mbind (set_iodc _ _) _ _ = _ => rewrite mbind_set_iodc
  | |- mbind (or_cstat _ _) _ _ = _ => rewrite mbind_or_cstat by (vm_compute; discriminate)
  | |- mbind (ru ?msg ?i ?n) _ _ = _ =>
      match goal with H : At msg ?q (bitsof n ?v) |- _ =>
        rewrite (mbind_ru msg i n v) by (apply getu_val; [ eapply At_pos; [exact H | len; lia] | rng ]) end
  | |- mbind (rs ?msg ?i ?n) _ _ = _ =>
      match goal with H : At msg ?q (bitsof n ?v) |- _ =>
        rewrite (mbind_rs msg i n v) by (apply gets_val; [ eapply At_pos; [exact H | len; lia] | lia | rng ]) end
  end; cbv beta.
Ltac steps := repeat step1.

(* ---------- iteration over transmitted items ---------- *)
(** [f k i] decodes the [k]-th item [x] at position [i] *)
Lemma forM_enc {X} (P : cst -> Prop) (msg : bits) (enc : X -> bits) (e : X -> cst -> cst) (f : nat -> nat -> M nat) :
  forall (xs : list X) k i s,
  P s -> At msg i (encs enc xs) ->
  (forall j x i s, nth_error xs j = Some x -> P s -> At msg i (enc x) ->
     f (k + j)%nat i s = (e x s, Some (i + length (enc x))%nat) /\ P (e x s)) ->
  forM (length xs) k f i s = (eff e xs s, Some (i + length (encs enc xs))%nat) /\ P (eff e xs s).
Proof.
  induction xs as [|x xs IH]; intros k i s Hs Ha Hf.
  - cbn. unfold ret. rewrite Nat.add_0_r. auto.
  - unfold encs in *. cbn [map concat length] in *. apply At_app in Ha as [Ha1 Ha2].
    destruct (Hf 0%nat x i s eq_refl Hs Ha1) as [H1 H2]. rewrite Nat.add_0_r in H1.
    rewrite forM_S. rewrite (mbind_ok _ _ _ _ _ H1). cbv beta.
    destruct (IH (S k) (i + length (enc x))%nat (e x s) H2 Ha2) as [H3 H4].
    { intros j y i' s' Hn Hs' Ha'. destruct (Hf (S j) y i' s' Hn Hs' Ha') as [H5 H6].
      split; [|assumption]. rewrite <- H5. f_equal; lia. }
    split; [|exact H4].
    rewrite H3. rewrite app_length. unfold eff. cbn [fold_left]. do 2 f_equal. lia.
Qed.

(** same over a list ([eachM]) *)
Lemma eachM_enc {X Y} (P : cst -> Prop) (msg : bits) (enc : X -> Y -> bits) (e : X -> Y -> cst -> cst)
    (f : X -> nat -> M nat) :
  forall (xs : list X) (ys : list Y) i s,
  length xs = length ys -> P s -> At msg i (enc2 enc xs ys) ->
  (forall x y i s, In (x, y) (combine xs ys) -> P s -> At msg i (enc x y) ->
     f x i s = (e x y s, Some (i + length (enc x y))%nat) /\ P (e x y s)) ->
  eachM xs f i s = (eff2 e xs ys s, Some (i + length (enc2 enc xs ys))%nat) /\ P (eff2 e xs ys s).
Proof.
  induction xs as [|x xs IH]; intros [|y ys] i s Hl Hs Ha Hf; try discriminate Hl.
  - cbn. unfold ret. rewrite Nat.add_0_r. auto.
  - unfold enc2 in *. cbn [map concat combine] in *. apply At_app in Ha as [Ha1 Ha2].
    destruct (Hf x y i s (or_introl eq_refl) Hs Ha1) as [H1 H2].
    cbn [eachM]. rewrite (mbind_ok _ _ _ _ _ H1). cbv beta.
    destruct (IH ys (i + length (enc x y))%nat (e x y s)) as [H3 H4]; auto.
    { intros x' y' i' s' Hin. apply Hf. now right. }
    split; [|exact H4].
    rewrite H3. rewrite app_length. unfold eff2, eff. cbn [fold_left combine]. do 2 f_equal. lia.
Qed.

(** iteration over the satellites of the mask, skipping those with a clear mask bit *)
Lemma forM_sel {X Y} (P : cst -> Prop) (msg : bits) (enc : X -> Y -> bits) (e : X -> Y -> cst -> cst)
    (f : nat -> nat -> M nat) :
  forall (m : bits) (xs : list X) (ys : list Y) k i s,
  length m = length xs -> length ys = length (sel m xs) -> P s -> At msg i (enc2 enc (sel m xs) ys) ->
  (forall j i s, nth_error m j = Some false -> P s -> f (k + j)%nat i s = (s, Some i)) ->
  (forall j x y i s, nth_error m j = Some true -> nth_error xs j = Some x -> In (x, y) (combine (sel m xs) ys) ->
     P s -> At msg i (enc x y) ->
     f (k + j)%nat i s = (e x y s, Some (i + length (enc x y))%nat) /\ P (e x y s)) ->
  forM (length m) k f i s = (eff2 e (sel m xs) ys s, Some (i + length (enc2 enc (sel m xs) ys))%nat) /\
  P (eff2 e (sel m xs) ys s).
Proof.
  induction m as [|b m IH]; intros [|x xs] ys k i s Hl Hy Hs Ha Hf0 Hf1; try discriminate Hl.
  - destruct ys; [|discriminate Hy]. cbn. unfold ret. rewrite Nat.add_0_r. auto.
  - cbn [length] in *. rewrite forM_S.
    assert (Hstep : forall j, (S k + j)%nat = (k + S j)%nat) by (intros; lia).
    destruct b.
    + change (sel (true :: m) (x :: xs)) with (x :: sel m xs) in *.
      destruct ys as [|y ys]; [discriminate Hy|].
      unfold enc2 in *. cbn [map concat combine] in *. apply At_app in Ha as [Ha1 Ha2].
      destruct (Hf1 0%nat x y i s eq_refl eq_refl (or_introl eq_refl) Hs Ha1) as [H1 H2].
      rewrite Nat.add_0_r in H1. rewrite (mbind_ok _ _ _ _ _ H1). cbv beta.
      destruct (IH xs ys (S k) (i + length (enc x y))%nat (e x y s)) as [H3 H4]; auto.
      { intros j i' s' Hj. rewrite Hstep. now apply Hf0. }
      { intros j x' y' i' s' Hj Hx Hin. rewrite Hstep. apply Hf1; auto. now right. }
      split; [|exact H4].
      rewrite H3. rewrite app_length. unfold eff2, eff. cbn [fold_left combine]. do 2 f_equal. lia.
    + change (sel (false :: m) (x :: xs)) with (sel m xs) in *.
      pose proof (Hf0 0%nat i s eq_refl Hs) as H1. rewrite Nat.add_0_r in H1.
      rewrite (mbind_ok _ _ _ _ _ H1). cbv beta.
      apply IH; auto.
      { intros j i' s' Hj. rewrite Hstep. now apply Hf0. }
      { intros j x' y' i' s' Hj Hx Hin. rewrite Hstep. apply Hf1; auto. }
Qed.

(* ---------- masks ---------- *)
Lemma testbit_bval : forall l k, (k < length l)%nat ->
  Z.testbit (bval l) (Z.of_nat (length l - k - 1)) = nth k l false.
Proof.
  intros l k Hk.
  rewrite <- (bitsof_of_bval l) at 3.
  generalize (length l) (bval l) Hk; clear. intros n v. revert k.
  induction n as [|n IH]; intros k Hk; [lia|]. cbn [bitsof].
  destruct k as [|k].
  - cbn [nth]. f_equal; lia.
  - cbn [nth]. rewrite <- IH by lia. f_equal; lia.
Qed.

Lemma isset_bval m k : (k < length m)%nat -> isset (bval m) (length m) k = nth k m false.
Proof. intros. unfold isset. now apply testbit_bval. Qed.

Lemma sel_length {A} : forall (m : bits) (l : list A), length m = length l -> length (sel m l) = cnt m.
Proof.
  induction m as [|b m IH]; intros [|a l] H; try discriminate H; [reflexivity|].
  injection H as H. destruct b.
  - change (sel (true :: m) (a :: l)) with (a :: sel m l). cbn. now rewrite IH.
  - change (sel (false :: m) (a :: l)) with (sel m l). cbn. now apply IH.
Qed.
Lemma sel_map {A B} (f : A -> B) : forall (m : bits) (l : list A), sel m (map f l) = map f (sel m l).
Proof.
  induction m as [|b m IH]; intros [|a l]; try reflexivity.
  destruct b; cbn in *; unfold sel in *; cbn; now rewrite IH.
Qed.
Lemma sel_In {A} (m : bits) (l : list A) x : In x (sel m l) -> In x l.
Proof.
  unfold sel. intros H. apply in_map_iff in H as ([b y] & <- & H). apply filter_In in H as [H _].
  now apply in_combine_r in H.
Qed.

Lemma decode_mask_aux din n o : forall l k acc, (k + length l = n)%nat ->
  (forall j, (j < length l)%nat -> Z.testbit din (Z.of_nat (n - (k + j) - 1)) = nth j l false) ->
  fold_left (mask_step din n o) (seq k (length l)) acc =
  (fst acc ++ sel l (zs (o + Z.of_nat k) (length l)), snd acc + Z.of_nat (cnt l)).
Proof.
  induction l as [|b l IH]; intros k [v c] Hk Hb.
  - cbn. rewrite app_nil_r, Z.add_0_r. reflexivity.
  - cbn [length seq fold_left] in *.
    pose proof (Hb 0%nat ltac:(lia)) as H0. rewrite Nat.add_0_r in H0. cbn [nth] in H0.
    rewrite IH.
    + assert (Hz : zs (o + Z.of_nat k) (S (length l)) = (o + Z.of_nat k) :: zs (o + Z.of_nat (S k)) (length l)).
      { unfold zs. cbn [seq map]. rewrite Z.add_0_r. f_equal. rewrite <- seq_shift, map_map.
        apply map_ext. intros a. lia. }
      rewrite Hz. unfold mask_step. rewrite H0.
      destruct b.
      * change (sel (true :: l) ((o + Z.of_nat k) :: zs (o + Z.of_nat (S k)) (length l)))
          with ((o + Z.of_nat k) :: sel l (zs (o + Z.of_nat (S k)) (length l))).
        cbn [fst snd cnt filter length]. rewrite <- app_assoc. cbn [app].
        change (length (filter (fun b => b) l)) with (cnt l).
        f_equal; [|lia]. f_equal; f_equal; lia.
      * change (sel (false :: l) ((o + Z.of_nat k) :: zs (o + Z.of_nat (S k)) (length l)))
          with (sel l (zs (o + Z.of_nat (S k)) (length l))).
        reflexivity.
    + lia.
    + intros j Hj. change (nth j l false) with (nth (S j) (b :: l) false). rewrite <- (Hb (S j) ltac:(lia)). f_equal; lia.
Qed.
Lemma decode_mask_bval l o :
  decode_mask (bval l) (length l) o = (sel l (zs o (length l)), Z.of_nat (cnt l)).
Proof.
  unfold decode_mask. rewrite (decode_mask_aux (bval l) (length l) o l 0 ([], 0)).
  - cbn [fst snd app Z.of_nat]. rewrite Z.add_0_r, Z.add_0_l. reflexivity.
  - reflexivity.
  - intros j Hj. cbn. now apply testbit_bval.
Qed.
Lemma cnt_le m : (cnt m <= length m)%nat.
Proof. unfold cnt. induction m as [|[|] m IH]; cbn; lia. Qed.
Lemma zs_length o n : length (zs o n) = n.
Proof. unfold zs. now rewrite map_length, seq_length. Qed.

(** [picks] with indices from a mask *)
Lemma nth_error_sel_picks {A} : forall (r : bits) (l pre : list A), length r = length l ->
  picks (pre ++ l) (sel r (zs (Z.of_nat (length pre)) (length r))) = Some (sel r l).
Proof.
  induction r as [|b r IH]; intros [|a l] pre H; try discriminate H; [reflexivity|].
  injection H as H.
  assert (Hz : zs (Z.of_nat (length pre)) (S (length r)) =
               Z.of_nat (length pre) :: zs (Z.of_nat (length (pre ++ [a]))) (length r)).
  { unfold zs. cbn [seq map]. rewrite Z.add_0_r. f_equal. rewrite <- seq_shift, map_map.
    apply map_ext. intros x. rewrite app_length. cbn. lia. }
  cbn [length]. rewrite Hz.
  specialize (IH l (pre ++ [a]) H). rewrite <- app_assoc in IH. cbn [app] in IH.
  destruct b.
  - change (sel (true :: r) (Z.of_nat (length pre) :: zs (Z.of_nat (length (pre ++ [a]))) (length r)))
      with (Z.of_nat (length pre) :: sel r (zs (Z.of_nat (length (pre ++ [a]))) (length r))).
    change (sel (true :: r) (a :: l)) with (a :: sel r l).
    cbn [picks]. rewrite Nat2Z.id. rewrite nth_error_app2 by lia. rewrite Nat.sub_diag. cbn [nth_error bind].
    rewrite IH. reflexivity.
  - exact IH.
Qed.

(* ---------- dictionaries ---------- *)
Section Dict.
Context {K V : Type} (eqb : K -> K -> bool) (eqb_ok : forall a b, eqb a b = true <-> a = b).
Lemma dget_dset_same k (v : V) d : dget eqb k (dset eqb k v d) = Some v.
Proof.
  assert (Hr : eqb k k = true) by now apply eqb_ok.
  induction d as [|[a w] d IH]; cbn; [now rewrite Hr|].
  destruct (eqb a k) eqn:E; cbn; rewrite E; auto.
Qed.
Lemma dget_dset_other k k' (v : V) d : k <> k' -> dget eqb k' (dset eqb k v d) = dget eqb k' d.
Proof.
  intros Hn. induction d as [|[a w] d IH]; cbn.
  - destruct (eqb k k') eqn:E; [apply eqb_ok in E; contradiction|reflexivity].
  - destruct (eqb a k) eqn:E; cbn.
    + apply eqb_ok in E as ->. destruct (eqb k k') eqn:E2; [apply eqb_ok in E2; contradiction|reflexivity].
    + destruct (eqb a k'); auto.
Qed.
Lemma dset_dset k (v w : V) d : dset eqb k w (dset eqb k v d) = dset eqb k w d.
Proof.
  assert (Hr : eqb k k = true) by now apply eqb_ok.
  induction d as [|[a x] d IH]; cbn; [now rewrite Hr|].
  destruct (eqb a k) eqn:E; cbn; rewrite E; [reflexivity|now rewrite IH].
Qed.
End Dict.
Lemma zeqb_ok a b : Z.eqb a b = true <-> a = b. Proof. apply Z.eqb_eq. Qed.
Lemma gnss_eqb_ok a b : gnss_eqb a b = true <-> a = b.
Proof. destruct a, b; cbn; split; congruence. Qed.
Lemma typ_eqb_ok a b : typ_eqb a b = true <-> a = b.
Proof. destruct a, b; cbn; split; congruence. Qed.
Lemma rsig_eqb_ok a b : rsig_eqb a b = true <-> a = b.
Proof.
  unfold rsig_eqb. rewrite !andb_true_iff, gnss_eqb_ok, typ_eqb_ok, Z.eqb_eq.
  destruct a, b; cbn. split; [intros [[-> ->] ->]; reflexivity|intros [= -> -> ->]; auto].
Qed.
Lemma zget_zset_same {V} k (v : V) d : zget k (zset k v d) = Some v.
Proof. apply (dget_dset_same Z.eqb zeqb_ok). Qed.
Lemma zget_zset_other {V} k k' (v : V) d : k <> k' -> zget k' (zset k v d) = zget k' d.
Proof. apply (dget_dset_other Z.eqb zeqb_ok). Qed.
Lemma rget_rset_same {V} k (v : V) d : rget k (rset k v d) = Some v.
Proof. apply (dget_dset_same rsig_eqb rsig_eqb_ok). Qed.
Lemma rget_rset_other {V} k k' (v : V) d : k <> k' -> rget k' (rset k v d) = rget k' d.
Proof. apply (dget_dset_other rsig_eqb rsig_eqb_ok). Qed.

(* ---------- array update ---------- *)
Lemma upd_length {A} f : forall (l : list A) n, length (upd n f l) = length l.
Proof. induction l as [|a l IH]; intros [|n]; cbn; auto. Qed.
Lemma nth_upd {A} f d : forall (l : list A) n k, (n < length l)%nat ->
  nth k (upd n f l) d = if (k =? n)%nat then f (nth n l d) else nth k l d.
Proof.
  induction l as [|a l IH]; intros [|n] [|k] H; cbn in *; try lia; try reflexivity.
  apply IH. lia.
Qed.
Lemma upd_upd {A} f g : forall (l : list A) n, upd n f (upd n g l) = upd n (fun x => f (g x)) l.
Proof. induction l as [|a l IH]; intros [|n]; cbn; auto. now rewrite IH. Qed.
Lemma upd_ext {A} f g : (forall x, f x = g x) -> forall (l : list A) n, upd n f l = upd n g l.
Proof. intros H. induction l as [|a l IH]; intros [|n]; cbn; auto; now rewrite ?H, ?IH. Qed.
Lemma updlc_updlc n f g s : updlc n f (updlc n g s) = updlc n (fun l => f (g l)) s.
Proof. unfold updlc. cbn. now rewrite upd_upd. Qed.
Lemma updlc_ext n f g s : (forall x, f x = g x) -> updlc n f s = updlc n g s.
Proof. intros H. unfold updlc. now rewrite (upd_ext f g H). Qed.

(** close [ret a s = (s', Some b)] *)
Lemma pair_eq {A B} (a a' : A) (b b' : B) : a = a' -> b = b' -> (a, b) = (a', b').
Proof. now intros -> ->. Qed.
Lemma some_eq {A} (a a' : A) : a = a' -> Some a = Some a'.
Proof. now intros ->. Qed.
Ltac fin :=
  unfold ret;
  repeat match goal with
         | |- (_, _) = (_, _) => apply pair_eq
         | |- Some _ = Some _ => apply some_eq
         end;
  try reflexivity; try (len; lia).
Lemma Forall2_len {A B} (R : A -> B -> Prop) l l' : Forall2 R l l' -> length l = length l'.
Proof. induction 1; cbn; congruence. Qed.

Lemma mbind_whenM {B} b (m : M unit) g (f : unit -> M B) s :
  m s = (g s, Some tt) -> mbind (whenM b m) f s = f tt (when b g s).
Proof. intros H. destruct b; cbn; [now rewrite (mbind_ok _ _ _ _ _ H)|reflexivity]. Qed.
Lemma getu_bit msg i b : At msg i (bit b) -> getu msg i 1 = Some (Z.b2z b).
Proof. intros H. rewrite (getu_raw msg i 1 (bit b) H eq_refl). destruct b; reflexivity. Qed.
Lemma b2z_eqb b : (Z.b2z b =? 1) = b.
Proof. destruct b; reflexivity. Qed.
Lemma isset_nth m j b : nth_error m j = Some b -> isset (bval m) (length m) j = b.
Proof.
  intros H. assert (Hj : (j < length m)%nat) by (apply nth_error_Some; congruence).
  rewrite isset_bval by assumption. now apply nth_error_nth with (d := false) in H.
Qed.
Lemma ub_ltb n v : ub n v -> 0 <= v < 2 ^ Z.of_nat n.
Proof. auto. Qed.
