(** Proofs about the RINEX observation header reader. *)
From Coq Require Import Ascii String.
From Verif Require Import RnxModel RnxSpec CssrFacts Base BaseFacts.
From Coq Require Import Lia.
Notation length := List.length.
Open Scope Z_scope.

(* ---------- text ---------- *)
Lemma teq_ok a b : teq a b = true <-> a = b.
Proof.
  revert b; induction a as [|x a IH]; destruct b as [|y b]; cbn; try (split; congruence).
  rewrite andb_true_iff, Ascii.eqb_eq, IH. split; [intros [-> ->]; auto | intros H; inversion H; auto].
Qed.
Lemma sub_app p q a b : length p = a -> sub a b (p ++ q) = firstn (b - a) q.
Proof. intros <-. unfold sub. now rewrite skipn_app, skipn_all, Nat.sub_diag. Qed.
Lemma skipn_at {A} (p q : list A) a : length p = a -> skipn a (p ++ q) = q.
Proof. intros <-. now rewrite skipn_app, skipn_all, Nat.sub_diag. Qed.
Lemma firstn_at {A} (p q : list A) a : length p = a -> firstn a (p ++ q) = p.
Proof. intros <-. now rewrite firstn_app, firstn_all, Nat.sub_diag, firstn_O, app_nil_r. Qed.

Definition pad60 (p : text) : text := p ++ repeat sp (60 - length p).
Lemma pad60_len p : (length p <= 60)%nat -> length (pad60 p) = 60%nat.
Proof. unfold pad60. rewrite app_length, repeat_length. lia. Qed.
Definition label (lab : string) : text := lit lab ++ repeat sp (20 - length (lit lab)) ++ [nl].
Lemma hline_split p lab : hline p lab = pad60 p ++ label lab.
Proof. unfold hline, pad60, label. now rewrite <- !app_assoc. Qed.
Lemma hl_sub p lab b : (length p <= 60)%nat -> sub 60 b (hline p lab) = firstn (b - 60) (label lab).
Proof. intros H. rewrite hline_split. apply sub_app, pad60_len, H. Qed.
Lemma hl_skip p lab : (length p <= 60)%nat -> skipn 60 (hline p lab) = label lab.
Proof. intros H. rewrite hline_split. apply skipn_at, pad60_len, H. Qed.

Lemma contains_ex p l : contains p l = true -> exists i, firstn (length p) (skipn i l) = p.
Proof.
  induction l as [|x l IH]; cbn; rewrite orb_true_iff; intros [H|H].
  - apply teq_ok in H. exists 0%nat. now rewrite H at 2.
  - discriminate.
  - apply teq_ok in H. exists 0%nat. cbn. now rewrite H at 2.
  - destruct (IH H) as [i E]. exists (S i). exact E.
Qed.
Lemma nth_sub {A} (d : A) i n l p k : firstn n (skipn i l) = p -> (k < length p)%nat -> nth (i + k) l d = nth k p d.
Proof.
  intros <- H. rewrite firstn_length in H.
  rewrite <- (firstn_skipn i l) at 1.
  destruct (Nat.le_gt_cases i (length l)) as [L|L].
  - rewrite app_nth2; rewrite firstn_length, Nat.min_l by lia; [|lia]. replace (i + k - i)%nat with k by lia.
    rewrite <- (firstn_skipn n (skipn i l)) at 1. rewrite app_nth1; [auto|]. rewrite firstn_length. lia.
  - exfalso. rewrite skipn_length in H. lia.
Qed.
(** the two labels tested anywhere in a line do not occur in a record whose 60 columns have no '#' *)
Definition nohash (p : text) : Prop := ~ In "#"%char p.
Lemma nohash_nth p k d : nohash p -> d <> "#"%char -> nth k p d <> "#"%char.
Proof. intros H D E. destruct (nth_in_or_default k p d) as [I|I]; [rewrite E in I; auto|congruence]. Qed.
Lemma no_label p lab w k : (length p <= 60)%nat -> nohash p -> nth_error (lit w) k = Some "#"%char ->
  (forall i, nth (i - 60 + 0) (label lab) sp = "#"%char -> (60 <= i)%nat -> firstn (length (lit w)) (skipn (i - k) (pad60 p ++ label lab)) <> lit w) ->
  contains (lit w) (hline p lab) = false.
Proof.
  intros L N K H. destruct (contains (lit w) (hline p lab)) eqn:E; auto. exfalso.
  apply contains_ex in E as [i E]. rewrite hline_split in E.
  assert (KL : (k < length (lit w))%nat) by (apply nth_error_Some; congruence).
  pose proof (nth_sub sp _ _ _ _ k E KL) as X.
  rewrite (nth_error_nth _ _ sp K) in X.
  destruct (Nat.le_gt_cases 60 (i + k)) as [B|B].
  - apply (H (i + k)%nat); auto.
    + rewrite app_nth2 in X by (rewrite pad60_len; auto). rewrite pad60_len in X by auto. now rewrite Nat.add_0_r.
    + replace (i + k - k)%nat with i by lia. exact E.
  - rewrite app_nth1 in X by (rewrite pad60_len; auto). revert X. unfold pad60. apply nohash_nth; [|discriminate].
    intros I. apply in_app_or in I as [I|I]; [auto|]. now apply repeat_spec in I.
Qed.
Lemma rec_T p : (length p <= 60)%nat -> nohash p -> contains (lit "REC # / TYPE / VERS") (hline p T_LAB) = false.
Proof.
  intros L N. apply (no_label p T_LAB "REC # / TYPE / VERS" 4); auto. intros i X B E.
  assert (C : (i < 81)%nat). { destruct (Nat.lt_ge_cases i 81); auto. rewrite nth_overflow in X; [discriminate|]. cbn. lia. }
  assert (i = 66)%nat as ->. { assert (exists j, i = 60 + j /\ j < 21)%nat as [j [-> J]] by (exists (i - 60)%nat; lia).
    replace (60 + j - 60 + 0)%nat with j in X by lia. do 21 (destruct j as [|j]; [try discriminate X; auto|]). lia. }
  pose proof (nth_sub sp _ _ _ _ 0 E ltac:(cbn; lia)) as Y.
  rewrite app_nth2, pad60_len in Y by (rewrite ?pad60_len; cbn; auto with arith; lia). cbn in Y. discriminate.
Qed.
Lemma ant_T p : (length p <= 60)%nat -> nohash p -> contains (lit "ANT # / TYPE") (hline p T_LAB) = false.
Proof.
  intros L N. apply (no_label p T_LAB "ANT # / TYPE" 4); auto. intros i X B E.
  assert (C : (i < 81)%nat). { destruct (Nat.lt_ge_cases i 81); auto. rewrite nth_overflow in X; [discriminate|]. cbn. lia. }
  assert (i = 66)%nat as ->. { assert (exists j, i = 60 + j /\ j < 21)%nat as [j [-> J]] by (exists (i - 60)%nat; lia).
    replace (60 + j - 60 + 0)%nat with j in X by lia. do 21 (destruct j as [|j]; [try discriminate X; auto|]). lia. }
  pose proof (nth_sub sp _ _ _ _ 0 E ltac:(cbn; lia)) as Y.
  rewrite app_nth2, pad60_len in Y by (rewrite ?pad60_len; cbn; auto with arith; lia). cbn in Y. discriminate.
Qed.
Lemma rec_S p : (length p <= 60)%nat -> nohash p -> contains (lit "REC # / TYPE / VERS") (hline p S_LAB) = false.
Proof.
  intros L N. apply (no_label p S_LAB "REC # / TYPE / VERS" 4); auto. intros i X B E.
  assert (C : (i < 81)%nat). { destruct (Nat.lt_ge_cases i 81); auto. rewrite nth_overflow in X; [discriminate|]. cbn. lia. }
  assert (i = 79)%nat as ->. { assert (exists j, i = 60 + j /\ j < 21)%nat as [j [-> J]] by (exists (i - 60)%nat; lia).
    replace (60 + j - 60 + 0)%nat with j in X by lia. do 21 (destruct j as [|j]; [try discriminate X; auto|]). lia. }
  pose proof (nth_sub sp _ _ _ _ 0 E ltac:(cbn; lia)) as Y.
  rewrite app_nth2, pad60_len in Y by (rewrite ?pad60_len; cbn; auto with arith; lia). cbn in Y. discriminate.
Qed.
Lemma ant_S p : (length p <= 60)%nat -> nohash p -> contains (lit "ANT # / TYPE") (hline p S_LAB) = false.
Proof.
  intros L N. apply (no_label p S_LAB "ANT # / TYPE" 4); auto. intros i X B E.
  assert (C : (i < 81)%nat). { destruct (Nat.lt_ge_cases i 81); auto. rewrite nth_overflow in X; [discriminate|]. cbn. lia. }
  assert (i = 79)%nat as ->. { assert (exists j, i = 60 + j /\ j < 21)%nat as [j [-> J]] by (exists (i - 60)%nat; lia).
    replace (60 + j - 60 + 0)%nat with j in X by lia. do 21 (destruct j as [|j]; [try discriminate X; auto|]). lia. }
  pose proof (nth_sub sp _ _ _ _ 0 E ltac:(cbn; lia)) as Y.
  rewrite app_nth2, pad60_len in Y by (rewrite ?pad60_len; cbn; auto with arith; lia). cbn in Y. discriminate.
Qed.

(* ---------- numbers ---------- *)
Definition opt_is (o : option Z) (n : Z) : bool := match o with Some m => m =? n | None => false end.
Lemma opt_is_ok o n : opt_is o n = true -> o = Some n.
Proof. destruct o; cbn; [|discriminate]. rewrite Z.eqb_eq. now intros ->. Qed.
Definition zr (a : Z) (n : nat) : list Z := map (fun k => a + Z.of_nat k) (seq 0 n).
Lemma zr_in a n z : a <= z < a + Z.of_nat n -> In z (zr a n).
Proof. intros H. apply in_map_iff. exists (Z.to_nat (z - a)). split; [lia|]. apply in_seq. lia. Qed.
Lemma i3_all : forallb (fun n => opt_is (pyint (I3 n)) n) (zr 0 1000) = true.
Proof. vm_compute. reflexivity. Qed.
Lemma i3_ok n : 0 <= n < 1000 -> pyint (I3 n) = Some n.
Proof. intros H. apply opt_is_ok. apply (proj1 (forallb_forall _ _) i3_all). apply zr_in. lia. Qed.
Lemma i2_all : forallb (fun n => opt_is (pyint (I2 n)) n) (zr (-9) 109) = true.
Proof. vm_compute. reflexivity. Qed.
Lemma i2_ok n : -9 <= n < 100 -> pyint (I2 n) = Some n.
Proof. intros H. apply opt_is_ok. apply (proj1 (forallb_forall _ _) i2_all). apply zr_in. lia. Qed.
Lemma i22_all : forallb (fun n => opt_is (pyint (I22 n)) n) (zr 0 100) = true.
Proof. vm_compute. reflexivity. Qed.
Lemma i22_ok n : 0 <= n < 100 -> pyint (I22 n) = Some n.
Proof. intros H. apply opt_is_ok. apply (proj1 (forallb_forall _ _) i22_all). apply zr_in. lia. Qed.
Lemma i4_all : forallb (fun n => opt_is (pyint (I4 n)) n) (zr 1970 130) = true.
Proof. vm_compute. reflexivity. Qed.
Lemma i4_ok n : 1970 <= n <= 2099 -> pyint (I4 n) = Some n.
Proof. intros H. apply opt_is_ok. apply (proj1 (forallb_forall _ _) i4_all). apply zr_in. lia. Qed.
Lemma i3_len n : length (I3 n) = 3%nat.
Proof. unfold I3. now repeat destruct (_ <? _). Qed.
Lemma i2_len n : length (I2 n) = 2%nat.
Proof. unfold I2. now repeat destruct (_ <? _). Qed.
Lemma hash_all : forallb (fun n => negb (existsb (Ascii.eqb "#") (I3 n))) (zr 0 1000) &&
  forallb (fun n => negb (existsb (Ascii.eqb "#") (I2 n))) (zr (-9) 109) &&
  forallb (fun n => negb (existsb (Ascii.eqb "#") (I22 n))) (zr 0 100) = true.
Proof. vm_compute. reflexivity. Qed.
Lemma hash_ex l : negb (existsb (Ascii.eqb "#") l) = true -> nohash l.
Proof.
  intros H I. apply negb_true_iff in H. assert (existsb (Ascii.eqb "#") l = true); [|congruence].
  apply existsb_exists. exists "#"%char. split; auto.
Qed.
Lemma i3_hash n : 0 <= n < 1000 -> nohash (I3 n).
Proof.
  intros H. pose proof hash_all as A. rewrite !andb_true_iff in A. destruct A as [[A _] _].
  apply hash_ex. apply (proj1 (forallb_forall _ _) A). apply zr_in. lia.
Qed.
Lemma i2_hash n : -9 <= n < 100 -> nohash (I2 n).
Proof.
  intros H. pose proof hash_all as A. rewrite !andb_true_iff in A. destruct A as [[_ A] _].
  apply hash_ex. apply (proj1 (forallb_forall _ _) A). apply zr_in. lia.
Qed.
Lemma i22_hash n : 0 <= n < 100 -> nohash (I22 n).
Proof.
  intros H. pose proof hash_all as A. rewrite !andb_true_iff in A. destruct A as [[_ _] A].
  apply hash_ex. apply (proj1 (forallb_forall _ _) A). apply zr_in. lia.
Qed.
Lemma nohash_app p q : nohash p -> nohash q -> nohash (p ++ q).
Proof. intros H K I. apply in_app_or in I as [I|I]; auto. Qed.
Lemma nohash_cons c q : c <> "#"%char -> nohash q -> nohash (c :: q).
Proof. intros H K [I|I]; auto. Qed.
Lemma nohash_rep n : nohash (repeat sp n).
Proof. intros I. now apply repeat_spec in I. Qed.
Lemma nohash_nil : nohash [].
Proof. intros []. Qed.

(* ---------- split ---------- *)
Lemma split_word cur t r : forallb nospace t = true -> split_ cur (t ++ r) = split_ (rev t ++ cur) r.
Proof.
  revert cur; induction t as [|c t IH]; cbn; intros cur H; auto.
  apply andb_true_iff in H as [H1 H2]. unfold nospace in H1. apply negb_true_iff in H1.
  rewrite H1, IH by auto. now rewrite <- app_assoc.
Qed.
Lemma sp_space : is_space sp = true. Proof. reflexivity. Qed.
Lemma split_spaces n : split_ [] (repeat sp n) = [].
Proof. induction n; cbn [repeat split_]; rewrite ?sp_space; auto. Qed.
Lemma split_cols l n : Forall (fun t => t <> [] /\ forallb nospace t = true) l -> psplit (cols l ++ repeat sp n) = l.
Proof.
  unfold psplit, cols. induction 1 as [|t l [T1 T2] F IH]; cbn [flat_map app].
  - apply split_spaces.
  - cbn [split_]. rewrite sp_space. rewrite <- app_assoc, split_word by auto. rewrite app_nil_r.
    assert (E : exists r, flat_map (cons sp) l ++ repeat sp n = r /\ (r = [] \/ exists r', r = sp :: r')).
    { destruct l; cbn; eauto. destruct n; cbn; eauto. }
    destruct E as [r [E Q]]. rewrite E in *.
    assert (R : rev t <> []). { intros X. apply (f_equal (@rev _)) in X. rewrite rev_involutive in X. auto. }
    destruct Q as [->|[r' ->]].
    + cbn in *. destruct (rev t) eqn:X; [congruence|]. rewrite <- IH. rewrite <- X, rev_involutive. auto.
    + cbn [split_] in *. rewrite sp_space in *. destruct (rev t) eqn:X; [congruence|]. rewrite <- X, rev_involutive. now rewrite IH.
Qed.
Lemma alnum_ns c : alnum c = true -> nospace c = true /\ c <> "#"%char.
Proof.
  destruct c as [[] [] [] [] [] [] [] []]; vm_compute; intros H; try discriminate H; split; congruence.
Qed.
Definition typ3 (t : text) : Prop := length t = 3%nat /\ forallb alnum t = true.
Lemma typ3_word t : typ3 t -> t <> [] /\ forallb nospace t = true.
Proof.
  intros [L A]. split. { now destruct t. }
  apply forallb_forall. intros c I. apply (alnum_ns c). exact (proj1 (forallb_forall _ _) A c I).
Qed.
Lemma cols_len l : Forall typ3 l -> length (cols l) = (4 * length l)%nat.
Proof. induction 1 as [|t l [T _] F IH]; cbn; auto. rewrite app_length. unfold cols in IH. rewrite IH, T. lia. Qed.
Lemma cols_hash l : Forall typ3 l -> nohash (cols l).
Proof.
  induction 1 as [|t l [T A] F IH]; cbn; [apply nohash_nil|]. apply nohash_cons; [discriminate|]. apply nohash_app; auto.
  intros I. apply (proj1 (forallb_forall _ _) A) in I. now apply alnum_ns in I.
Qed.
Lemma split_record h l : length h = 6%nat -> Forall typ3 l -> (length l <= 13)%nat ->
  forall q, psplit (sub 7 60 (pad60 (h ++ cols l) ++ q)) = l.
Proof.
  intros L F N q. unfold pad60. rewrite <- !app_assoc.
  assert (C := cols_len l F).
  set (k := (60 - length (h ++ cols l))%nat). assert (K : (k = 54 - 4 * length l)%nat) by (unfold k; rewrite app_length; lia). clearbody k.
  destruct (cols l ++ repeat sp k) as [|c r] eqn:E.
  { apply (f_equal (@length _)) in E. rewrite app_length, repeat_length in E. cbn [length] in E. lia. }
  assert (c = sp) as ->. { destruct l; cbn in E; [|congruence]. rewrite K in E. cbn in E. congruence. }
  replace (sub 7 60 (h ++ cols l ++ repeat sp k ++ q)) with r.
  2:{ rewrite (app_assoc (cols l)), E. cbn [app]. change (h ++ sp :: r ++ q) with (h ++ [sp] ++ (r ++ q)). rewrite app_assoc, sub_app by (rewrite app_length; cbn; lia).
      symmetry. apply firstn_at. apply (f_equal (@length _)) in E. rewrite app_length, repeat_length in E. cbn in E. lia. }
  transitivity (psplit (sp :: r)). { reflexivity. }
  rewrite <- E. apply split_cols. eapply Forall_impl; [|exact F]. apply typ3_word.
Qed.

(* ---------- observation types ---------- *)
Lemma Forall_firstn {A} (P : A -> Prop) n l : Forall P l -> Forall P (firstn n l).
Proof. intros F. rewrite <- (firstn_skipn n l) in F. now apply Forall_app in F. Qed.
Lemma Forall_skipn {A} (P : A -> Prop) n l : Forall P l -> Forall P (skipn n l).
Proof. intros F. rewrite <- (firstn_skipn n l) in F. now apply Forall_app in F. Qed.
Lemma tconts_len fuel l : (length l <= fuel)%nat -> length (tconts fuel l) = ((length l + 12) / 13)%nat.
Proof.
  revert l; induction fuel; intros l H.
  - destruct l; [reflexivity|cbn in H; lia].
  - destruct l as [|t l]; [reflexivity|]. cbn [tconts length].
    rewrite IHfuel by (rewrite skipn_length; cbn [length] in *; lia). rewrite skipn_length. cbn [length] in *.
    destruct (Nat.le_gt_cases (S (length l)) 13) as [G|G].
    + replace (S (length l) - 13)%nat with 0%nat by lia. change ((0 + 12) / 13)%nat with 0%nat.
      apply (Nat.div_unique _ 13 1 (S (length l) + 12 - 13)); lia.
    + replace (S (length l) + 12)%nat with ((S (length l) - 13 + 12) + 1 * 13)%nat by lia. rewrite Nat.div_add by lia. lia.
Qed.
Lemma more_conts fuel l acc f : Forall typ3 l -> (length l <= fuel)%nat ->
  more (length (tconts fuel l)) (tconts fuel l ++ f) acc = (acc ++ l, f).
Proof.
  revert l acc; induction fuel; intros l acc F H.
  - destruct l; [|cbn in H; lia]. cbn. now rewrite app_nil_r.
  - destruct l as [|t l]; [cbn; now rewrite app_nil_r|]. cbn [tconts].
    set (x := t :: l) in *. set (hl := hline _ _). cbn [length more app readline].
    replace (psplit (sub 7 60 hl)) with (firstn 13 x).
    2:{ symmetry. unfold hl. rewrite hline_split. apply split_record; [reflexivity|now apply Forall_firstn|rewrite firstn_length; lia]. }
    rewrite IHfuel; [|now apply Forall_skipn|rewrite skipn_length; cbn [length x] in *; subst x; cbn [length] in *; lia].
    now rewrite <- app_assoc, firstn_skipn.
Qed.

Lemma gnss_ok a b : gnss_eqb a b = true <-> a = b.
Proof. destruct a, b; cbn; split; congruence. Qed.
Lemma gget_same {V} g (v : V) m : gget g (gset g v m) = Some v.
Proof. apply (dget_dset_same gnss_eqb gnss_ok). Qed.
Lemma gget_other {V} g g' (v : V) m : g <> g' -> gget g' (gset g v m) = gget g' m.
Proof. intros H. apply (dget_dset_other gnss_eqb gnss_ok). auto. Qed.
Lemma zset_new {V} k (v : V) d : ~ In k (map fst d) -> zset k v d = d ++ [(k, v)].
Proof.
  unfold zset. induction d as [|[a b] d IH]; cbn; auto. intros H.
  destruct (Z.eqb_spec a k) as [E|E]; [tauto|]. f_equal. apply IH. tauto.
Qed.
Lemma numbered_snoc l q : numbered (l ++ [q]) = numbered l ++ [(Z.of_nat (length l), q)].
Proof.
  unfold numbered. change (Z.of_nat (length l)) with (Z.of_nat (0 + length l)). generalize 0%nat as n.
  induction l as [|x l IH]; intros n; cbn [length app seq map combine].
  - now rewrite Nat.add_0_r.
  - rewrite IH. cbn [app]. do 4 f_equal. lia.
Qed.
Lemma numbered_keys l : map fst (numbered l) = map Z.of_nat (seq 0 (length l)).
Proof.
  unfold numbered. generalize 0%nat. induction l; intros n; cbn; auto. now rewrite IHl.
Qed.
(** registering the rest [l2] of the types after [l1] *)
Lemma reg_sigs_ok g l2 : forall l1 m s2, Forall2 (fun s q => mk2 g (string_of_list_ascii s) = Some q) s2 l2 ->
  (gget g m = Some (numbered l1) \/ (l1 = [] /\ gget g m = None)) -> (l1 <> [] \/ l2 <> []) ->
  exists m', reg_sigs g (Z.of_nat (length l1)) s2 m = Some m' /\ gget g m' = Some (numbered (l1 ++ l2)) /\
    forall g', g' <> g -> gget g' m' = gget g' m.
Proof.
  induction l2 as [|q l2 IH]; intros l1 m s2 F H N; inversion F; subst; cbn [reg_sigs].
  - exists m. rewrite app_nil_r. destruct H as [H|[-> H]]; [auto|]. destruct N; congruence.
  - rewrite H3. cbn [bind].
    set (m1 := match gget g m with Some _ => m | None => gset g [] m end).
    assert (M1 : gget g m1 = Some (numbered l1) /\ forall g', g' <> g -> gget g' m1 = gget g' m).
    { unfold m1. destruct H as [H|[-> H]]; rewrite H; [auto|]. split; [apply gget_same|]. intros. apply gget_other. auto. }
    destruct M1 as [M1 M2]. rewrite M1.
    rewrite zset_new.
    2:{ rewrite numbered_keys. intros I. apply in_map_iff in I as (k & K & I). apply in_seq in I. lia. }
    rewrite <- numbered_snoc.
    destruct (IH (l1 ++ [q]) (gset g (numbered (l1 ++ [q])) m1) l) as (m' & E & G & O); auto.
    + left. apply gget_same.
    + left. destruct l1; discriminate.
    + exists m'. split; [|split].
      * rewrite <- E. f_equal. rewrite app_length. cbn. lia.
      * now rewrite <- app_assoc in G.
      * intros g' D. rewrite O, gget_other by auto. auto.
Qed.
Lemma sysletter_ok c g : sysletter c = Some g -> char2sys c = g /\ c <> "#"%char.
Proof.
  destruct c as [[] [] [] [] [] [] [] []]; vm_compute; intros H; try discriminate H; inversion H; split; congruence.
Qed.
Lemma types_typ3 g l : Forall (fun s => exists q, is_type g s q) l -> Forall typ3 l.
Proof. apply Forall_impl. intros s [q (L & A & _)]. now split. Qed.
Lemma types_sigs g l : Forall (fun s => exists q, is_type g s q) l -> exists qs, Forall2 (is_type g) l qs.
Proof. induction 1 as [|s l [q Q] F [qs IH]]; eauto. Qed.

Section H.
Context (verlow : text -> option bool) (misc : text -> option unit).
Notation loop := (hdr_loop verlow misc).
Lemma types_step c l g qs f fuel s : (1 <= length l <= 999)%nat -> fits (length l) -> sysletter c = Some g ->
  Forall2 (is_type g) l qs -> gget g (h_map s) = None ->
  exists m, loop (S fuel) (types_block c l ++ f) s = loop fuel f (HST m (h_glo s)) /\
    gget g m = Some (numbered qs) /\ forall g', g' <> g -> gget g' m = gget g' (h_map s).
Proof.
  intros L FT C F2 N.
  assert (F : Forall typ3 l). { clear -F2. induction F2; constructor; auto. destruct H as (A & B & _). now split. }
  destruct (sysletter_ok _ _ C) as [CS CH].
  unfold types_block. set (p := c :: _). set (hl := hline p T_LAB).
  assert (F13 := Forall_firstn _ 13 l F). assert (PL : (length p <= 60)%nat).
  { unfold p. cbn [length app]. rewrite !app_length, i3_len, cols_len, firstn_length by auto. lia. }
  assert (PH : nohash p).
  { unfold p. apply nohash_cons; auto. apply nohash_app; [now intros [X|[X|[]]]|]. apply nohash_app; [apply i3_hash; lia|]. now apply cols_hash. }
  cbn [app hdr_loop].
  assert (S60 : forall b, sub 60 b hl = firstn (b - 60) (label T_LAB)) by (intros; apply hl_sub; auto).
  assert (K60 : skipn 60 hl = label T_LAB) by (apply hl_skip; auto).
  rewrite !S60, K60.
  replace (teq (firstn (73 - 60) (label T_LAB)) (lit "END OF HEADER")) with false by reflexivity.
  replace (teq (firstn (80 - 60) (label T_LAB)) (lit "RINEX VERSION / TYPE")) with false by reflexivity.
  unfold hl at 1 2. rewrite rec_T, ant_T by auto.
  replace (teq (firstn (79 - 60) (label T_LAB)) (lit "APPROX POSITION XYZ")) with false by reflexivity.
  replace (contains (lit "ANTENNA: DELTA H/E/N") (label T_LAB)) with false by reflexivity.
  replace (teq (firstn (79 - 60) (label T_LAB)) (lit "SYS / # / OBS TYPES")) with true by reflexivity.
  assert (HL : exists r, hl = c :: r) by (unfold hl, hline, p; cbn; eauto). destruct HL as [r HL].
  rewrite HL. rewrite <- HL. rewrite CS.
  replace (pyint (sub 3 6 hl)) with (Some (Z.of_nat (length l))).
  2:{ symmetry. unfold hl, hline, p. change (c :: [sp; sp] ++ ?x) with ([c; sp; sp] ++ x).
      rewrite <- !app_assoc, sub_app by reflexivity. rewrite firstn_at by apply i3_len. apply i3_ok. lia. }
  cbn [bind].
  replace (psplit (sub 7 60 hl)) with (firstn 13 l).
  2:{ symmetry. unfold hl. rewrite hline_split. unfold p. change (c :: [sp; sp] ++ ?x) with ([c; sp; sp] ++ x).
      rewrite (app_assoc [c; sp; sp]). apply split_record; auto. rewrite app_length, i3_len. reflexivity.
      rewrite firstn_length. lia. }
  replace (Z.to_nat (Z.quot (Z.of_nat (length l)) 14)) with (length (tconts (length l) (skipn 13 l))).
  2:{ rewrite Z.quot_div_nonneg by lia. change 14 with (Z.of_nat 14). rewrite <- Nat2Z.inj_div, Nat2Z.id.
      unfold fits in FT. rewrite FT. rewrite tconts_len by (rewrite skipn_length; lia). rewrite skipn_length.
      destruct (Nat.le_gt_cases (length l) 13) as [G|G].
      - replace (length l - 13)%nat with 0%nat by lia. symmetry. apply Nat.div_small. lia.
      - f_equal. lia. }
  rewrite more_conts by (try apply Forall_skipn; auto; rewrite skipn_length; lia).
  rewrite firstn_skipn.
  destruct (reg_sigs_ok g qs [] (h_map s) l) as (m & E & G & O).
  - clear -F2. induction F2; constructor; auto. now destruct H as (_ & _ & M).
  - auto.
  - right. intros ->. inversion F2; subst; cbn in L; lia.
  - cbn [length] in E. change (Z.of_nat 0) with 0 in E. rewrite E. cbn [bind]. exists m. split; auto.
Qed.

(* ---------- slots ---------- *)
Lemma sent_len e : length (sent e) = 7%nat.
Proof. unfold sent. cbn [length app]. rewrite app_length. cbn [length]. rewrite app_length, i2_len. reflexivity. Qed.
Lemma sents_len l : length (flat_map sent l) = (7 * length l)%nat.
Proof. induction l; cbn [flat_map length]; auto. rewrite app_length, sent_len, IHl. lia. Qed.
Definition slot_ok (e : Z * Z) : Prop := 1 <= fst e <= 32 /\ -7 <= snd e <= 13.
Lemma sents_hash l : Forall slot_ok l -> nohash (flat_map sent l).
Proof.
  induction 1 as [|e l [E1 E2] F IH]; cbn [flat_map]; [apply nohash_nil|]. apply nohash_app; auto. unfold sent.
  apply nohash_cons; [discriminate|]. apply nohash_app; [apply i22_hash; lia|]. apply nohash_cons; [discriminate|].
  apply nohash_app; [apply i2_hash; lia|]. now intros [X|[]].
Qed.
Definition ret_is (r : ret) (n : Z) : bool := match r with Ret v => v =? n | Err => false end.
Lemma id_all : forallb (fun n => ret_is (id2sat (string_of_list_ascii ("R"%char :: I22 n))) (prn2sat GLO n)) (zr 1 32) = true.
Proof. vm_compute. reflexivity. Qed.
Lemma id_ok n : 1 <= n <= 32 -> id2sat (string_of_list_ascii ("R"%char :: I22 n)) = Ret (prn2sat GLO n).
Proof.
  intros H. assert (X := proj1 (forallb_forall _ _) id_all n (zr_in 1 32 n ltac:(lia))). cbv beta in X.
  destruct (id2sat _); cbn in X; [discriminate|]. apply Z.eqb_eq in X. now subst.
Qed.
(** one entry at its place in a line *)
Lemma entry_id pre e q k : length pre = (4 + 7 * k)%nat -> slot_ok e ->
  sub (4 + 7 * k) (7 + 7 * k) (pre ++ sent e ++ q) = "R"%char :: I22 (fst e) /\
  sub (8 + 7 * k) (10 + 7 * k) (pre ++ sent e ++ q) = I2 (snd e).
Proof.
  intros L E. split.
  - rewrite sub_app by auto. replace (7 + 7 * k - (4 + 7 * k))%nat with 3%nat by lia. reflexivity.
  - unfold sent. change ("R"%char :: I22 (fst e) ++ [sp] ++ I2 (snd e) ++ [sp]) with (("R"%char :: I22 (fst e) ++ [sp]) ++ I2 (snd e) ++ [sp]).
    rewrite <- !app_assoc, (app_assoc pre). rewrite sub_app by (rewrite app_length, L; cbn; lia).
    replace (10 + 7 * k - (8 + 7 * k))%nat with 2%nat by lia. apply firstn_at, i2_len.
Qed.
Definition put_slots (l : list (Z * Z)) (d : dict Z Z) : dict Z Z :=
  fold_left (fun d e => zset (prn2sat GLO (fst e)) (snd e) d) l d.
Lemma slots_ok es : forall i (line : text) (f : list text) d fuel (tail : text) (rest : list text),
  Forall slot_ok es -> (length es <= fuel)%nat ->
  (if (0 <? i)%nat && (i mod 8 =? 0)%nat then f = sconts fuel es ++ rest
   else exists pre, length pre = (4 + 7 * (i mod 8))%nat /\ line = pre ++ flat_map sent (firstn (8 - i mod 8) es) ++ tail /\
        f = sconts fuel (skipn (8 - i mod 8) es) ++ rest) ->
  slots (length es) i line f d = Some (put_slots es d, rest).
Proof.
  induction es as [|e es IH]; intros i line f d fuel tail rest F L H; cbn [length slots].
  - cbn [put_slots fold_left]. destruct ((0 <? i)%nat && (i mod 8 =? 0)%nat).
    + destruct fuel; cbn in H; now rewrite H.
    + destruct H as (pre & _ & _ & H). rewrite skipn_nil in H. destruct fuel; cbn in H; now rewrite H.
  - inversion F as [|? ? Fe Fs]; subst. cbn [length] in L. destruct fuel as [|fuel]; [lia|].
    assert (LL : exists (pre tail' : text) fuel', length pre = (4 + 7 * (i mod 8))%nat /\ (length es <= fuel')%nat /\
      (if (0 <? i)%nat && (i mod 8 =? 0)%nat then readline f else (line, f) : text * list text) =
      (pre ++ sent e ++ flat_map sent (firstn (7 - i mod 8) es) ++ tail', sconts fuel' (skipn (7 - i mod 8) es) ++ rest)).
    { pose proof (Nat.mod_upper_bound i 8 ltac:(lia)) as MB.
      destruct ((0 <? i)%nat && (i mod 8 =? 0)%nat) eqn:B.
      - apply andb_true_iff in B as [B1 B2]. apply Nat.eqb_eq in B2. rewrite B2 in *. subst f. cbn [sconts app readline].
        exists (repeat sp 4). eexists. exists fuel. split; [reflexivity|]. split; [lia|].
        unfold hline. cbn [firstn skipn flat_map]. change (8 - 0)%nat with 8%nat. change (7 - 0)%nat with 7%nat. rewrite <- !app_assoc. reflexivity.
      - destruct H as (pre & P & -> & ->). exists pre. exists tail. exists (S fuel). split; auto. split; [lia|].
        replace (8 - i mod 8)%nat with (S (7 - i mod 8)) by lia. cbn [firstn skipn flat_map]. now rewrite <- !app_assoc. }
    destruct LL as (pre & tail' & fuel' & P & FU & E). rewrite E.
    destruct (entry_id pre e (flat_map sent (firstn (7 - i mod 8) es) ++ tail') (i mod 8) P Fe) as [E1 E2].
    rewrite E1, E2. destruct Fe as [Fe1 Fe2]. rewrite id_ok by auto. rewrite i2_ok by lia. cbn [bind put_slots fold_left].
    apply (IH (S i) _ _ _ fuel' tail' rest); auto.
    assert (M : (S i mod 8 = if i mod 8 =? 7 then 0 else S (i mod 8))%nat).
    { pose proof (Nat.div_mod i 8 ltac:(lia)) as DM. pose proof (Nat.mod_upper_bound i 8 ltac:(lia)) as MB.
      destruct (Nat.eqb_spec (i mod 8) 7) as [Q|Q].
      - symmetry. apply (Nat.mod_unique _ 8 (S (i / 8))); lia.
      - symmetry. apply (Nat.mod_unique _ 8 (i / 8)); lia. }
    rewrite M. replace (0 <? S i)%nat with true by (symmetry; apply Nat.ltb_lt; lia). cbn [andb].
    destruct (Nat.eqb_spec (i mod 8) 7) as [Q|Q].
    + rewrite Q. cbn [Nat.eqb]. reflexivity.
    + replace (S (i mod 8) =? 0)%nat with false by reflexivity.
      pose proof (Nat.mod_upper_bound i 8 ltac:(lia)) as MB.
      exists (pre ++ sent e). rewrite app_length, sent_len, P. split; [lia|].
      replace (8 - S (i mod 8))%nat with (7 - i mod 8)%nat by lia. split; auto. now rewrite <- app_assoc.
Qed.
Lemma slots_step l f fuel s : (length l <= 999)%nat -> Forall slot_ok l ->
  loop (S fuel) (slots_block l ++ f) s = loop fuel f (HST (h_map s) (put_slots l (h_glo s))).
Proof.
  intros L F. unfold slots_block. set (p := I3 _ ++ _). set (hl := hline p S_LAB).
  assert (F8 := Forall_firstn _ 8 l F).
  assert (PL : (length p <= 60)%nat).
  { unfold p. rewrite !app_length, i3_len, sents_len, firstn_length. cbn [length]. lia. }
  assert (PH : nohash p).
  { unfold p. apply nohash_app; [apply i3_hash; lia|]. apply nohash_app; [now intros [X|[]]|]. now apply sents_hash. }
  cbn [app hdr_loop].
  assert (S60 : forall b, sub 60 b hl = firstn (b - 60) (label S_LAB)) by (intros; apply hl_sub; auto).
  assert (K60 : skipn 60 hl = label S_LAB) by (apply hl_skip; auto).
  rewrite !S60, K60.
  replace (teq (firstn (73 - 60) (label S_LAB)) (lit "END OF HEADER")) with false by reflexivity.
  replace (teq (firstn (80 - 60) (label S_LAB)) (lit "RINEX VERSION / TYPE")) with false by reflexivity.
  unfold hl at 1 2. rewrite rec_S, ant_S by auto.
  replace (teq (firstn (79 - 60) (label S_LAB)) (lit "APPROX POSITION XYZ")) with false by reflexivity.
  replace (contains (lit "ANTENNA: DELTA H/E/N") (label S_LAB)) with false by reflexivity.
  replace (teq (firstn (79 - 60) (label S_LAB)) (lit "SYS / # / OBS TYPES")) with false by reflexivity.
  replace (contains (lit "TIME OF FIRST OBS") (label S_LAB)) with false by reflexivity.
  replace (contains (lit "TIME OF LAST OBS") (label S_LAB)) with false by reflexivity.
  replace (contains (lit "GLONASS SLOT / FRQ #") (label S_LAB)) with true by reflexivity.
  replace (pyint (sub 0 3 hl)) with (Some (Z.of_nat (length l))).
  2:{ symmetry. unfold hl, hline, p. rewrite <- !app_assoc. unfold sub. cbn [skipn]. change (3 - 0)%nat with 3%nat.
      rewrite firstn_at by apply i3_len. apply i3_ok. lia. }
  cbn [bind]. rewrite Nat2Z.id.
  erewrite slots_ok; [|exact F|apply Nat.le_refl|].
  { cbn [bind]. reflexivity. }
  cbn [Nat.ltb Nat.leb andb]. change (0 mod 8)%nat with 0%nat. change (8 - 0)%nat with 8%nat.
  exists (I3 (Z.of_nat (length l)) ++ [sp]). split; [rewrite app_length, i3_len; reflexivity|]. split; [|reflexivity].
  unfold hl, hline, p. now rewrite <- !app_assoc.
Qed.

(* ---------- other records ---------- *)
Lemma misc_step p lab f fuel s : length p = 60%nat -> In lab misc_labels -> misc (hline p lab) = Some tt ->
  loop (S fuel) (hline p lab :: f) s = loop fuel f s.
Proof.
  intros L I M. cbn [hdr_loop]. rewrite !hl_sub, hl_skip by lia. rewrite M.
  destruct (contains (lit "REC # / TYPE / VERS") (hline p lab)), (contains (lit "ANT # / TYPE") (hline p lab));
  repeat destruct I as [<-|I]; try destruct I; reflexivity.
Qed.
Lemma plain_step p lab f fuel s : length p = 60%nat -> In lab plain_labels ->
  loop (S fuel) (hline p lab :: f) s = loop fuel f s.
Proof.
  intros L I. cbn [hdr_loop]. rewrite !hl_sub, hl_skip by lia.
  destruct (contains (lit "REC # / TYPE / VERS") (hline p lab)), (contains (lit "ANT # / TYPE") (hline p lab));
  repeat destruct I as [<-|I]; try destruct I; reflexivity.
Qed.
Lemma version_step p f fuel s : length p = 60%nat -> verlow (firstn 6 (skipn 4 p)) = Some false ->
  loop (S fuel) (hline p "RINEX VERSION / TYPE" :: f) s = loop fuel f s.
Proof.
  intros L V. cbn [hdr_loop]. rewrite !hl_sub by lia.
  replace (teq (firstn (73 - 60) (label "RINEX VERSION / TYPE")) (lit "END OF HEADER")) with false by reflexivity.
  replace (teq (firstn (80 - 60) (label "RINEX VERSION / TYPE")) (lit "RINEX VERSION / TYPE")) with true by reflexivity.
  replace (sub 4 10 (hline p "RINEX VERSION / TYPE")) with (firstn 6 (skipn 4 p)).
  { rewrite V. reflexivity. }
  unfold sub, hline. change (10 - 4)%nat with 6%nat. rewrite skipn_app, firstn_app, skipn_length, L.
  change (6 - (60 - 4))%nat with 0%nat. now rewrite firstn_O, app_nil_r.
Qed.
Lemma end_step p f fuel s : length p = 60%nat -> loop (S fuel) (hline p "END OF HEADER" :: f) s = Some (0, s, f).
Proof. intros L. cbn [hdr_loop]. rewrite hl_sub by lia. reflexivity. Qed.

(* ---------- the header ---------- *)
Definition reads (c : ascii) (l : list text) (m : dict gnss (dict Z rsig)) : Prop :=
  forall g, sysletter c = Some g -> exists qs, Forall2 (is_type g) l qs /\ gget g m = Some (numbered qs).
Lemma sysletter_inj c c' g : sysletter c = Some g -> sysletter c' = Some g -> c = c'.
Proof.
  assert (X : forall c, match sysletter c with Some g => c = sys2char g | None => True end).
  { intros d. destruct d as [[] [] [] [] [] [] [] []]; vm_compute; auto. }
  intros A B. pose proof (X c) as P. pose proof (X c') as Q. rewrite A in P. rewrite B in Q. congruence.
Qed.
Lemma put_slots_app a b d : put_slots (a ++ b) d = put_slots b (put_slots a d).
Proof. apply fold_left_app. Qed.
Lemma btypes_cons b bs : btypes (b :: bs) = btypes [b] ++ btypes bs.
Proof. unfold btypes. cbn [flat_map]. now rewrite app_nil_r. Qed.
Lemma bslots_cons b bs : bslots (b :: bs) = bslots [b] ++ bslots bs.
Proof. unfold bslots. cbn [flat_map]. now rewrite app_nil_r. Qed.
Lemma header_gen bs : forall s fuel pe rest,
  Forall (block_ok verlow misc) bs -> NoDup (map fst (btypes bs)) -> Forall (fun b => match b with BTypes _ l => fits (length l) | _ => True end) bs ->
  (forall c l g, In (c, l) (btypes bs) -> sysletter c = Some g -> gget g (h_map s) = None) ->
  length pe = 60%nat -> (length bs < fuel)%nat ->
  exists m, loop fuel (flat_map block_lines bs ++ hline pe "END OF HEADER" :: rest) s = Some (0, HST m (put_slots (bslots bs) (h_glo s)), rest) /\
    (forall c l, In (c, l) (btypes bs) -> reads c l m) /\
    (forall g, (forall c l, In (c, l) (btypes bs) -> sysletter c <> Some g) -> gget g m = gget g (h_map s)).
Proof.
  induction bs as [|b bs IH]; intros s fuel pe rest FB ND FT N PE FU; (destruct fuel as [|fuel]; [cbn in FU; lia|]); cbn [length] in FU.
  { exists (h_map s). cbn [flat_map app bslots put_slots fold_left]. rewrite end_step by auto. destruct s. split; auto. split; [intros ? ? []|auto]. }
  inversion FB as [|? ? B FB']; inversion FT as [|? ? T FT']; subst.
  cbn [flat_map]. rewrite <- app_assoc. rewrite btypes_cons in *. rewrite map_app in ND.
  destruct b as [c l|l|p lab|p lab|p]; cbn [btypes flat_map app map fst] in ND; cbn [block_lines].
  - destruct B as (L & g & C & F). destruct (types_sigs g l F) as [qs F2].
    destruct (types_step c l g qs (flat_map block_lines bs ++ hline pe "END OF HEADER" :: rest) fuel s L T C F2) as (m & E & G & O).
    { apply (N c l g); cbn; auto. }
    rewrite E. inversion ND as [|? ? NI ND']; subst.
    destruct (IH (HST m (h_glo s)) fuel pe rest) as (m' & E' & R' & O'); auto; [|lia|].
    + intros c' l' g' I C'. cbn [h_map]. rewrite O.
      * apply (N c' l' g'); auto. cbn. auto.
      * intros ->. assert (c' = c) by (eapply sysletter_inj; eauto). subst. apply NI. apply in_map_iff. now exists (c, l').
    + exists m'. rewrite bslots_cons. cbn [bslots flat_map app]. split; [exact E'|]. cbn [h_map] in O'. split.
      * intros c' l' I. cbn in I. destruct I as [I|I]; [|now apply R'].
        inversion I; subst c' l'. intros g' C'. rewrite C in C'. inversion C'; subst g'. exists qs. split; auto. rewrite O'; auto.
        intros c' l' I' C''. apply NI. apply in_map_iff. exists (c', l'). split; auto. eapply sysletter_inj; eauto.
      * intros g' H. rewrite O'; [|intros c' l' I; apply (H c' l'); cbn; auto]. apply O. intros ->. apply (H c l); cbn; auto.
  - destruct B as (L & F). rewrite slots_step by auto.
    destruct (IH (HST (h_map s) (put_slots l (h_glo s))) fuel pe rest) as (m' & E' & R' & O'); auto; [lia|].
    exists m'. rewrite bslots_cons, put_slots_app. cbn [bslots flat_map]. rewrite app_nil_r. split; auto.
  - destruct B as (L & I). cbn [app]. rewrite plain_step by auto.
    destruct (IH s fuel pe rest) as (m' & E' & R' & O'); auto; [lia|].
    exists m'. rewrite bslots_cons. cbn [bslots flat_map app]. split; auto.
  - destruct B as (L & I & M). cbn [app]. rewrite misc_step by auto.
    destruct (IH s fuel pe rest) as (m' & E' & R' & O'); auto; [lia|].
    exists m'. rewrite bslots_cons. cbn [bslots flat_map app]. split; auto.
  - destruct B as (L & V). cbn [app]. rewrite version_step by auto.
    destruct (IH s fuel pe rest) as (m' & E' & R' & O'); auto; [lia|].
    exists m'. rewrite bslots_cons. cbn [bslots flat_map app]. split; auto.
Qed.
Lemma put_slots_get l : forall d k ch, NoDup (map fst l) -> In (k, ch) l -> Forall slot_ok l -> zget (prn2sat GLO k) (put_slots l d) = Some ch.
Proof.
  assert (O : forall l d k, ~ In k (map fst l) -> zget (prn2sat GLO k) (put_slots l d) = zget (prn2sat GLO k) d).
  { induction l0 as [|[a b] l0 IH]; intros d k H; auto. cbn [put_slots fold_left fst snd] in *. unfold put_slots in IH. rewrite IH by (intros X; apply H; right; auto).
    apply zget_zset_other. intros X. apply H. left. cbn. unfold prn2sat in X. lia. }
  induction l as [|[a b] l IH]; intros d k ch ND I F; [destruct I|]. inversion ND; inversion F; subst.
  cbn [put_slots fold_left fst snd]. destruct I as [I|I].
  - inversion I; subst. rewrite (O l) by auto. apply zget_zset_same.
  - apply IH; auto.
Qed.
Lemma put_slots_none l : forall d z, (forall k ch, In (k, ch) l -> prn2sat GLO k <> z) -> zget z (put_slots l d) = zget z d.
Proof.
  induction l as [|[a b] l IH]; intros d z H; auto. cbn [put_slots fold_left fst snd]. unfold put_slots in IH.
  rewrite IH by (intros k ch I; apply (H k ch); right; auto). apply zget_zset_other. apply (H a b). now left.
Qed.
Lemma block_lines_len b : (1 <= length (block_lines b))%nat.
Proof. destruct b; cbn; lia. Qed.
Lemma lines_len bs : (length bs <= length (flat_map block_lines bs))%nat.
Proof. induction bs as [|b bs IH]; cbn [flat_map length]; auto. rewrite app_length. pose proof (block_lines_len b). lia. Qed.

Theorem header_ok_read bs pe rest : header_ok verlow misc bs -> length pe = 60%nat ->
  (forall c l, In (c, l) (btypes bs) -> fits (length l)) ->
  exists m d, decode_obsh verlow misc (flat_map block_lines bs ++ hline pe "END OF HEADER" :: rest) (HST [] []) = Some (0, HST m d, rest) /\
    (forall c l, In (c, l) (btypes bs) -> reads c l m) /\
    (forall g, (forall c l, In (c, l) (btypes bs) -> sysletter c <> Some g) -> gget g m = None) /\
    (forall k ch, In (k, ch) (bslots bs) -> zget (prn2sat GLO k) d = Some ch) /\
    (forall z, (forall k ch, In (k, ch) (bslots bs) -> prn2sat GLO k <> z) -> zget z d = None).
Proof.
  intros (FB & ND & NS) PE FT. unfold decode_obsh.
  destruct (header_gen bs (HST [] []) (S (length (flat_map block_lines bs ++ hline pe "END OF HEADER" :: rest))) pe rest FB ND) as (m & E & R & O); auto.
  - clear -FT. induction bs as [|b bs IH]; constructor.
    + destruct b; auto. apply (FT c l). rewrite btypes_cons. cbn. auto.
    + apply IH. intros c l I. apply (FT c l). rewrite btypes_cons. apply in_or_app. auto.
  - rewrite app_length. cbn [length]. pose proof (lines_len bs). lia.
  - cbn [h_map h_glo] in *. assert (FS : Forall slot_ok (bslots bs)).
    { clear -FB. induction FB as [|b bs B F IH]; [constructor|]. rewrite bslots_cons. apply Forall_app. split; auto.
      destruct b; cbn; auto. rewrite app_nil_r. apply B. }
    exists m, (put_slots (bslots bs) []). repeat split; auto.
    + intros. now apply put_slots_get.
    + intros z H. now apply put_slots_none.
Qed.

(** otherwise the reader stops with an exception *)
Lemma more_short k : forall fuel l acc f, Forall typ3 l -> (length l <= fuel)%nat -> (k < length (tconts fuel l))%nat ->
  exists acc' l' f', more k (tconts fuel l ++ f) acc = (acc', hline (repeat sp 6 ++ cols (firstn 13 l')) T_LAB :: f') /\ Forall typ3 l'.
Proof.
  induction k; intros fuel l acc f F L H.
  - destruct fuel; [destruct l; cbn in H; lia|]. destruct l as [|t l]; [cbn in H; lia|]. cbn [tconts more app].
    exists acc, (t :: l). eexists. split; [reflexivity|]. auto.
  - destruct fuel; [destruct l; cbn in H; lia|]. destruct l as [|t l]; [cbn in H; lia|].
    set (x := t :: l) in *. change (tconts (S fuel) x) with (hline (repeat sp 6 ++ cols (firstn 13 x)) T_LAB :: tconts fuel (skipn 13 x)) in H |- *.
    set (hl := hline _ _) in *. cbn [length more app readline] in *.
    destruct (IHk fuel (skipn 13 x) (acc ++ psplit (sub 7 60 hl)) f) as (a' & l' & f' & E & F').
    + now apply Forall_skipn.
    + rewrite skipn_length. subst x. cbn [length] in *. lia.
    + lia.
    + exists a', l', f'. auto.
Qed.
Lemma blank_types l f s fuel : Forall typ3 l -> loop fuel (hline (repeat sp 6 ++ cols (firstn 13 l)) T_LAB :: f) s = None.
Proof.
  intros F. destruct fuel as [|fuel]; [reflexivity|]. set (p := _ ++ _). set (hl := hline p T_LAB).
  assert (F13 := Forall_firstn _ 13 l F).
  assert (PL : (length p <= 60)%nat). { unfold p. rewrite !app_length, cols_len, firstn_length by auto. cbn [repeat length]. lia. }
  assert (PH : nohash p). { unfold p. apply nohash_app; [apply nohash_rep|now apply cols_hash]. }
  cbn [app hdr_loop].
  assert (S60 : forall b, sub 60 b hl = firstn (b - 60) (label T_LAB)) by (intros; apply hl_sub; auto).
  assert (K60 : skipn 60 hl = label T_LAB) by (apply hl_skip; auto).
  rewrite !S60, K60.
  replace (teq (firstn (73 - 60) (label T_LAB)) (lit "END OF HEADER")) with false by reflexivity.
  replace (teq (firstn (80 - 60) (label T_LAB)) (lit "RINEX VERSION / TYPE")) with false by reflexivity.
  unfold hl at 1 2. rewrite rec_T, ant_T by auto.
  replace (teq (firstn (79 - 60) (label T_LAB)) (lit "APPROX POSITION XYZ")) with false by reflexivity.
  replace (contains (lit "ANTENNA: DELTA H/E/N") (label T_LAB)) with false by reflexivity.
  replace (teq (firstn (79 - 60) (label T_LAB)) (lit "SYS / # / OBS TYPES")) with true by reflexivity.
  assert (E : sub 3 6 hl = [sp; sp; sp]) by reflexivity. rewrite E.
  replace (pyint [sp; sp; sp]) with (@None Z) by reflexivity. unfold hl, hline, p. reflexivity.
Qed.
Theorem header_fails c l f s fuel g : (1 <= length l <= 999)%nat -> ~ fits (length l) -> sysletter c = Some g ->
  Forall (fun s => exists q, is_type g s q) l -> loop fuel (types_block c l ++ f) s = None.
Proof.
  intros L FT C F0. assert (F := types_typ3 _ _ F0). destruct (sysletter_ok _ _ C) as [CS CH].
  destruct fuel as [|fuel]; [reflexivity|].
  unfold types_block. set (p := c :: _). set (hl := hline p T_LAB).
  assert (F13 := Forall_firstn _ 13 l F). assert (PL : (length p <= 60)%nat).
  { unfold p. cbn [length app]. rewrite !app_length, i3_len, cols_len, firstn_length by auto. lia. }
  assert (PH : nohash p).
  { unfold p. apply nohash_cons; auto. apply nohash_app; [now intros [X|[X|[]]]|]. apply nohash_app; [apply i3_hash; lia|]. now apply cols_hash. }
  cbn [app hdr_loop].
  assert (S60 : forall b, sub 60 b hl = firstn (b - 60) (label T_LAB)) by (intros; apply hl_sub; auto).
  assert (K60 : skipn 60 hl = label T_LAB) by (apply hl_skip; auto).
  rewrite !S60, K60.
  replace (teq (firstn (73 - 60) (label T_LAB)) (lit "END OF HEADER")) with false by reflexivity.
  replace (teq (firstn (80 - 60) (label T_LAB)) (lit "RINEX VERSION / TYPE")) with false by reflexivity.
  unfold hl at 1 2. rewrite rec_T, ant_T by auto.
  replace (teq (firstn (79 - 60) (label T_LAB)) (lit "APPROX POSITION XYZ")) with false by reflexivity.
  replace (contains (lit "ANTENNA: DELTA H/E/N") (label T_LAB)) with false by reflexivity.
  replace (teq (firstn (79 - 60) (label T_LAB)) (lit "SYS / # / OBS TYPES")) with true by reflexivity.
  assert (HL : exists r, hl = c :: r) by (unfold hl, hline, p; cbn; eauto). destruct HL as [r HL].
  rewrite HL. rewrite <- HL. rewrite CS.
  replace (pyint (sub 3 6 hl)) with (Some (Z.of_nat (length l))).
  2:{ symmetry. unfold hl, hline, p. change (c :: [sp; sp] ++ ?x) with ([c; sp; sp] ++ x).
      rewrite <- !app_assoc, sub_app by reflexivity. rewrite firstn_at by apply i3_len. apply i3_ok. lia. }
  cbn [bind].
  assert (K : Z.to_nat (Z.quot (Z.of_nat (length l)) 14) = (length l / 14)%nat).
  { rewrite Z.quot_div_nonneg by lia. change 14 with (Z.of_nat 14). now rewrite <- Nat2Z.inj_div, Nat2Z.id. }
  rewrite K.
  assert (TL : length (tconts (length l) (skipn 13 l)) = ((length l - 1) / 13)%nat).
  { rewrite tconts_len by (rewrite skipn_length; lia). rewrite skipn_length.
      destruct (Nat.le_gt_cases (length l) 13) as [G|G].
      - replace (length l - 13)%nat with 0%nat by lia. symmetry. apply Nat.div_small. lia.
      - f_equal. lia. }
  assert (LT : (length l / 14 < length (tconts (length l) (skipn 13 l)))%nat).
  { rewrite TL. unfold fits in FT. assert (length l / 14 <= (length l - 1) / 13)%nat; [|lia].
    destruct (Nat.lt_ge_cases (length l) 14) as [G|G]; [rewrite (Nat.div_small _ 14) by lia; lia|].
    set (q := (length l / 14)%nat). pose proof (Nat.mul_div_le (length l) 14 ltac:(lia)) as MD. fold q in MD.
    assert (1 <= q)%nat by (apply Nat.div_le_lower_bound; lia).
    apply Nat.div_le_lower_bound; lia. }
  destruct (more_short _ (length l) (skipn 13 l) (psplit (sub 7 60 hl)) f (Forall_skipn _ 13 l F) ltac:(rewrite skipn_length; lia) LT)
    as (a' & l' & f' & E & F').
  rewrite E. destruct (reg_sigs g 0 a' (h_map s)); cbn [bind]; [|reflexivity]. now apply blank_types.
Qed.
End H.
