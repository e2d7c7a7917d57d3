(** Proofs about the layout of the PPP state vector, its noise vectors and the ambiguity indices. *)
From Verif Require Import Base BaseFacts SatModel PppModel PppSpec.
From Coq Require Import ZifyBool ZifyNat FinFun Sorted.
Open Scope Z_scope.
Notation length := List.length.
Notation concat := List.concat.

(* ---------- layout ---------- *)
Definition sane (o : popt) : Prop := iono_opt o = 1 \/ trop_opt o <> 1.

Lemma np_in : forall n i, 0 <= i < n -> np_ix n i = Some i.
Proof. intros n i H. unfold np_ix. replace ((0 <=? i) && (i <? n)) with true by lia. reflexivity. Qed.

Lemma na_eq : forall o, na o = (if pmode o =? 0 then 3 else 6) + ((if trop_opt o =? 1 then 1 else 0)
  + (if iono_opt o =? 1 then 233 else 0)).
Proof. reflexivity. Qed.
Lemma nx_eq : forall o, nx o = na o + 233 * Z.of_nat (nf o).
Proof. reflexivity. Qed.

Lemma address_range : forall o st, sane o -> present o st -> 0 <= address o st < nx o /\
  match st with Amb _ _ => na o <= address o st | _ => address o st < na o end.
Proof.
  intros o st S P. rewrite nx_eq. pose proof (na_eq o) as N. unfold sane in S.
  destruct st; cbn [present address] in *; unfold II, IT, IB in *; change MAXSAT with 233 in *; try nia;
    destruct (pmode o =? 0) eqn:E1, (trop_opt o =? 1) eqn:E2, (iono_opt o =? 1) eqn:E3; nia.
Qed.
Lemma address_inj : forall o a b, sane o -> present o a -> present o b -> address o a = address o b -> a = b.
Proof.
  intros o a b S Pa Pb E. pose proof (na_eq o) as N. unfold sane in S.
  pose proof (address_range o a S Pa) as Ra. pose proof (address_range o b S Pb) as Rb.
  destruct a, b; cbn [present address] in *; unfold II, IT, IB in *; change MAXSAT with 233 in *;
   destruct (pmode o =? 0) eqn:E1, (trop_opt o =? 1) eqn:E2, (iono_opt o =? 1) eqn:E3;
   first [ f_equal; lia | exfalso; lia | reflexivity | idtac ];
   (assert (f = f0) by nia; subst; f_equal; nia).
Qed.
Lemma address_onto : forall o k, sane o -> 0 <= k < nx o -> exists st, present o st /\ address o st = k.
Proof.
  intros o k S K. rewrite nx_eq in K. pose proof (na_eq o) as N. unfold sane in S.
  assert (C : k < 3 \/ (3 <= k < 6 /\ pmode o <> 0) \/ (na o <= k) \/
     (k < na o /\ iono_opt o = 1 /\ na o - 233 <= k) \/ (trop_opt o = 1 /\ k = na o - 234)).
  { destruct (pmode o =? 0) eqn:E1, (trop_opt o =? 1) eqn:E2, (iono_opt o =? 1) eqn:E3; lia. }
  destruct C as [C|[C|[C|[C|C]]]].
  - exists (Pos k). cbn [present address]. lia.
  - exists (Vel (k - 3)). cbn [present address]. lia.
  - pose proof (Z.div_mod (k - na o) 233 ltac:(lia)). pose proof (Z.mod_pos_bound (k - na o) 233 ltac:(lia)).
    exists (Amb ((k - na o) mod 233 + 1) ((k - na o) / 233)). cbn [present address]. unfold IB.
    change MAXSAT with 233. repeat split; try lia; nia.
  - exists (Iono (k - na o + 234)). cbn [present address]. unfold II. change MAXSAT with 233. lia.
  - exists Trop. cbn [present address]. unfold IT. change MAXSAT with 233. lia.
Qed.

Theorem layout : forall o, sane o ->
  (forall st, present o st -> exists k, slot o st = Some k /\ 0 <= k < nx o /\
     (k < na o <-> match st with Amb _ _ => False | _ => True end)) /\
  (forall a b, present o a -> present o b -> slot o a = slot o b -> a = b) /\
  (forall k, 0 <= k < nx o -> exists st, present o st /\ slot o st = Some k).
Proof.
  intros o S. repeat split.
  - intros st P. pose proof (address_range o st S P) as [R Q]. exists (address o st).
    split; [apply np_in, R|]. split; [exact R|]. destruct st; intuition lia.
  - intros a b Pa Pb E. unfold slot in E.
    rewrite !np_in in E by (apply address_range; assumption). injection E as E.
    exact (address_inj o a b S Pa Pb E).
  - intros k K. destruct (address_onto o k S K) as (st & P & E). exists st. split; [exact P|].
    unfold slot. rewrite E. apply np_in, K.
Qed.

(* ---------- noise vectors ---------- *)
Lemma sset_len : forall V (v : V) l k a b, length (sset k a b v l) = length l.
Proof. induction l; intros; cbn; [reflexivity|]. now rewrite IHl. Qed.
Lemma sset_nth : forall V (v d : V) l k a b i, (i < length l)%nat ->
  nth i (sset k a b v l) d = if (a <=? k + Z.of_nat i) && (k + Z.of_nat i <? b) then v else nth i l d.
Proof.
  induction l as [|x l IH]; intros k a b i L; cbn [length] in L; [lia|].
  destruct i as [|i]; cbn [sset nth].
  - now replace (k + Z.of_nat 0) with k by lia.
  - rewrite IH by lia. now replace (k + 1 + Z.of_nat i) with (k + Z.of_nat (S i)) by lia.
Qed.
Lemma nth_rep : forall V (z : V) n i, nth i (repeat z n) z = z.
Proof. induction n; destruct i; cbn; auto. Qed.

(** entry of a vector addressed by a (non-negative) index *)
Definition at_z {V} (z : V) (l : list V) (k : Z) : V := nth (Z.to_nat k) l z.

Lemma at_sset : forall V (z v : V) l a b k, 0 <= k < Z.of_nat (length l) ->
  at_z z (sset 0 a b v l) k = if (a <=? k) && (k <? b) then v else at_z z l k.
Proof.
  intros. unfold at_z. rewrite sset_nth by lia. now replace (0 + Z.of_nat (Z.to_nat k)) with k by lia.
Qed.

Lemma len_rep : forall V (z : V) n, 0 <= n -> Z.of_nat (length (repeat z (Z.to_nat n))) = n.
Proof. intros. rewrite repeat_length. lia. Qed.

Lemma na_pos : forall o, 3 <= na o.
Proof. intros o. rewrite na_eq. destruct (pmode o =? 0), (trop_opt o =? 1), (iono_opt o =? 1); lia. Qed.

Theorem diag_ok : forall V (z p v t : V) o, 0 <= pmode o -> sane o ->
  exists d, diag0 z o p v t = Some d /\ Z.of_nat (length d) = nx o /\
  forall st, present o st -> at_z z d (address o st) =
    match st with Pos _ => p | Vel _ => v | Trop => t | Iono _ => z | Amb _ _ => z end.
Proof.
  intros V z p v t o M S. pose proof (na_pos o) as A.
  assert (L : 0 <= nx o) by (rewrite nx_eq; lia).
  unfold diag0, iset.
  set (d0 := repeat z (Z.to_nat (nx o))). assert (L0 : Z.of_nat (length d0) = nx o) by (apply len_rep, L).
  assert (D0 : forall k, at_z z d0 k = z) by (intros k; apply nth_rep).
  set (d1 := sset 0 0 3 p d0). assert (L1 : Z.of_nat (length d1) = nx o) by (unfold d1; rewrite sset_len; exact L0).
  set (d2 := if pmode o >=? 1 then sset 0 3 6 v d1 else d1).
  assert (L2 : Z.of_nat (length d2) = nx o) by (unfold d2; destruct (_ >=? _); rewrite ?sset_len; exact L1).
  assert (D2 : forall k, 0 <= k < nx o -> at_z z d2 k =
     if k <? 3 then p else if (k <? 6) && (pmode o >=? 1) then v else z).
  { intros k K. unfold d2. destruct (pmode o >=? 1) eqn:E.
    - rewrite at_sset by lia. unfold d1. rewrite at_sset, D0 by lia.
      destruct (k <? 3) eqn:?, (k <? 6) eqn:?; repeat (match goal with |- context [if ?b then _ else _] => destruct b eqn:? end); try reflexivity; lia.
    - unfold d1. rewrite at_sset, D0 by lia. rewrite andb_false_r.
      repeat (match goal with |- context [if ?b then _ else _] => destruct b eqn:? end); try reflexivity; lia. }
  pose proof (na_eq o) as N. unfold sane in S. pose proof (nx_eq o) as X.
  destruct (trop_opt o =? 1) eqn:ET.
  - set (i := if pmode o >=? 1 then 6 else 3).
    assert (I : 0 <= i < nx o) by (unfold i; destruct (pmode o >=? 1) eqn:E0, (pmode o =? 0) eqn:E1, (iono_opt o =? 1) eqn:E2; lia).
    replace ((0 <=? i) && (i <? Z.of_nat (length d2))) with true by lia.
    eexists. split; [reflexivity|]. rewrite sset_len. split; [exact L2|].
    intros st P. pose proof (address_range o st S P) as [R _].
    rewrite at_sset by lia. rewrite D2 by lia. unfold i.
    destruct st; cbn [present address] in *; unfold II, IT, IB in *; change MAXSAT with 233 in *;
      destruct (pmode o >=? 1) eqn:E0, (pmode o =? 0) eqn:E1, (iono_opt o =? 1) eqn:E3; try lia;
      repeat (match goal with |- context [if ?b then _ else _] => destruct b eqn:? end); try reflexivity; nia.
  - eexists. split; [reflexivity|]. split; [exact L2|].
    intros st P. pose proof (address_range o st S P) as [R _]. rewrite D2 by lia.
    destruct st; cbn [present address] in *; unfold II, IT, IB in *; change MAXSAT with 233 in *;
      destruct (pmode o >=? 1) eqn:E0, (pmode o =? 0) eqn:E1, (iono_opt o =? 1) eqn:E3; try lia;
      repeat (match goal with |- context [if ?b then _ else _] => destruct b eqn:? end); try reflexivity; nia.
Qed.

Theorem q_ok : forall V (z qp qv qz qi qb : V) o, 0 <= pmode o -> (iono_opt o = 1 <-> trop_opt o = 1) ->
  exists q, qvec z o qp qv qz qi qb = Some q /\ Z.of_nat (length q) = na o /\
  forall st, present o st -> match st with Amb _ _ => True | _ => at_z z q (address o st) =
    match st with Pos _ => qp | Vel _ => qv | Trop => qz | Iono _ => qi | Amb _ _ => qb end end.
Proof.
  intros V z qp qv qz qi qb o M S0. assert (S : sane o) by (unfold sane; lia). pose proof (na_pos o) as A.
  unfold qvec, iset. change (nq o) with (na o).
  set (q0 := repeat z (Z.to_nat (na o))). assert (L0 : Z.of_nat (length q0) = na o) by (apply len_rep; lia).
  assert (D0 : forall k, at_z z q0 k = z) by (intros k; apply nth_rep).
  pose proof (na_eq o) as N. change MAXSAT with 233.
  destruct (trop_opt o =? 1) eqn:ET; destruct (iono_opt o =? 1) eqn:EI; try lia;
  destruct (pmode o >=? 1) eqn:EM; destruct (pmode o =? 0) eqn:E1; try lia;
  rewrite ?sset_len, ?L0;
  repeat (match goal with |- context [(0 <=? ?i) && (?i <? na o)] =>
     replace ((0 <=? i) && (i <? na o)) with true by lia end); cbn [bind];
  (eexists; split; [reflexivity|]; rewrite ?sset_len; split; [exact L0|];
   intros st P; pose proof (address_range o st S P) as [R Q];
   destruct st; try exact I; rewrite !at_sset, D0 by (rewrite ?sset_len; lia);
   cbn [present address] in *; unfold II, IT, IB in *; change MAXSAT with 233 in *;
   repeat (match goal with |- context [if ?b then _ else _] => destruct b eqn:? end); try reflexivity; lia).
Qed.

Lemma sset_out : forall V (v : V) l k a b, k + Z.of_nat (length l) <= a -> sset k a b v l = l.
Proof.
  induction l as [|x l IH]; intros k a b H; cbn [sset length] in *; [reflexivity|].
  rewrite IH by lia. replace (a <=? k) with false by lia. reflexivity.
Qed.
Theorem q_no_amb : forall V (z qp qv qz qi qb qb' : V) o, 0 <= pmode o ->
  qvec z o qp qv qz qi qb = qvec z o qp qv qz qi qb'.
Proof.
  intros V z qp qv qz qi qb qb' o M. unfold qvec, iset. change (nq o) with (na o).
  pose proof (na_pos o) as A. pose proof (na_eq o) as N.
  assert (L : Z.of_nat (length (repeat z (Z.to_nat (na o)))) = na o) by (apply len_rep; lia).
  change MAXSAT with 233 in *.
  destruct (trop_opt o =? 1) eqn:ET; destruct (iono_opt o =? 1) eqn:EI; destruct (pmode o >=? 1) eqn:EM;
    destruct (pmode o =? 0) eqn:E1; try lia;
  rewrite ?sset_len, ?L;
  repeat (match goal with |- context [(0 <=? ?i) && (?i <? na o)] =>
     replace ((0 <=? i) && (i <? na o)) with true by lia end); cbn [bind];
  f_equal; rewrite (sset_out V qb), (sset_out V qb') by (rewrite ?sset_len; lia); reflexivity.
Qed.

(* ---------- ambiguities ---------- *)
Section Amb.
Context {F : Type} (is0 : F -> bool).
Variables (x : Z -> F) (na : Z) (nf : nat) (vsat : Z -> Z -> Z) (el : Z -> Z) (mask : Z) (sats : list Z).
Notation elig := (eligible is0 x na vsat el mask sats).
Notation skp := (skipped is0 x na vsat sats).
Notation refl := (ref_loop is0 x na vsat el mask sats).
Notation ddl := (dd_loop is0 x na vsat el mask sats).

Definition eb (m : gnss) (f s : Z) : bool :=
  gnss_eqb (sys_of s) m && negb (skp s f) && (el s >=? mask).

Lemma gnss_eqb_iff : forall a b, gnss_eqb a b = true <-> a = b.
Proof. destruct a, b; cbn; intuition congruence. Qed.
Lemma skp_iff : forall s f, skp s f = false <->
  In s sats /\ is0 (x (na + 233 * f + s - 1)) = false /\ vsat s f <> 0.
Proof.
  intros. unfold skipped. change (IB s f na) with (na + 233 * f + s - 1).
  rewrite !orb_false_iff, negb_false_iff, existsb_exists.
  split.
  - intros [[(y & H & E) A] B]. apply Z.eqb_eq in E. subst y. repeat split; [exact H|exact A|lia].
  - intros (H & A & B). repeat split; [exists s; split; [exact H|lia]|exact A|lia].
Qed.
Lemma all_sat_iff : forall s, In s all_sat <-> 1 <= s <= 233.
Proof.
  intros. unfold all_sat. rewrite in_map_iff. change (Z.to_nat MAXSAT) with 233%nat. split.
  - intros (k & E & H). apply in_seq in H. lia.
  - intros H. exists (Z.to_nat s). split; [lia|]. apply in_seq. lia.
Qed.
Lemma all_sat_nd : NoDup all_sat.
Proof.
  unfold all_sat. apply FinFun.Injective_map_NoDup; [|apply seq_NoDup]. intros a b. lia.
Qed.
Lemma eb_iff : forall m f s, In s all_sat /\ eb m f s = true <-> elig m f s.
Proof.
  intros. rewrite all_sat_iff. unfold eb, eligible. rewrite !andb_true_iff, negb_true_iff, gnss_eqb_iff, skp_iff.
  unfold sys_of. intuition lia.
Qed.
Definition E (m : gnss) (f : Z) : list Z := filter (eb m f) all_sat.
Lemma E_in : forall m f s, In s (E m f) <-> elig m f s.
Proof. intros. unfold E. rewrite filter_In. apply eb_iff. Qed.

Lemma setfix_iff : forall s f v t s' f', setfix s f v t s' f' = 2 <->
  (s' = s /\ f' = f /\ v = 2) \/ (~ (s' = s /\ f' = f) /\ t s' f' = 2).
Proof. intros. unfold setfix. destruct ((s' =? s) && (f' =? f)) eqn:H; intuition lia. Qed.

Lemma ref_ok : forall l m f i t, NoDup l -> (forall s, In s l -> sys_of s = m -> t s f <> 2) ->
  let r := refl l m f i t in
  match filter (eb m f) l with
  | [] => forall s f', snd r s f' = 2 <-> t s f' = 2
  | a :: _ => fst r = a /\ forall s f', snd r s f' = 2 <-> (s = a /\ f' = f) \/ t s f' = 2
  end.
Proof.
  induction l as [|s l IH]; intros m f i t ND H; cbn [filter ref_loop]; cbv zeta.
  { cbn. intuition. }
  inversion ND as [|? ? NI ND']; subst.
  unfold eb at 1. destruct (gnss_eqb (sys_of s) m) eqn:G; cbn [negb andb].
  2:{ apply (IH m f s t ND'). intros; apply H; [now right|assumption]. }
  destruct (skp s f) eqn:K; cbn [negb andb].
  { apply (IH m f s t ND'). intros; apply H; [now right|assumption]. }
  apply gnss_eqb_iff in G. assert (T : t s f <> 2) by (apply H; [now left|exact G]).
  destruct (el s >=? mask) eqn:L.
  { cbn [fst snd]. split; [reflexivity|]. intros s' f'. rewrite setfix_iff.
    assert ((s' = s /\ f' = f) \/ ~ (s' = s /\ f' = f)) by lia. intuition. }
  specialize (IH m f s (setfix s f 1 t) ND'). cbv zeta in IH.
  assert (H' : forall s0, In s0 l -> sys_of s0 = m -> setfix s f 1 t s0 f <> 2).
  { intros s0 I0 G0. rewrite setfix_iff. specialize (H s0 (or_intror I0) G0). intuition lia. }
  specialize (IH H').
  assert (Q : forall s' f', setfix s f 1 t s' f' = 2 <-> t s' f' = 2).
  { intros. rewrite setfix_iff. split; [intuition lia|]. intros Ht. right. split; [|exact Ht].
    intros [-> ->]. contradiction. }
  destruct (filter (eb m f) l) as [|a r].
  - intros s' f'. rewrite IH. apply Q.
  - destruct IH as [IHa IHb]. split; [exact IHa|]. intros s' f'. rewrite IHb, Q. reflexivity.
Qed.

Definition rows (i f : Z) (l : list Z) : list (Z * Z) := map (fun s => (IB i f na, IB s f na)) l.
Lemma dd_ok : forall l m f i ix t,
  (Z.of_nat (length ix + length (filter (fun s => eb m f s && negb (s =? i)) l)) <= 233 ->
   exists t', ddl l m f i ix t = Some (ix ++ rows i f (filter (fun s => eb m f s && negb (s =? i)) l), t') /\
     forall s f', t' s f' = 2 <-> (f' = f /\ In s (filter (fun s => eb m f s && negb (s =? i)) l)) \/ t s f' = 2) /\
  (Z.of_nat (length ix) <= 233 ->
   233 < Z.of_nat (length ix + length (filter (fun s => eb m f s && negb (s =? i)) l)) -> ddl l m f i ix t = None).
Proof.
  induction l as [|s l IH]; intros m f i ix t; cbn [filter dd_loop].
  { split; [|cbn; lia]. intros _. exists t. cbn. rewrite app_nil_r. split; [reflexivity|]. intuition. }
  assert (EB : eb m f s = gnss_eqb (sys_of s) m && negb (skp s f) && (el s >=? mask)) by reflexivity.
  rewrite !EB, (Z.eqb_sym i s). clear EB.
  destruct (gnss_eqb (sys_of s) m) eqn:G; cbn [negb andb]; [|apply IH].
  destruct (s =? i) eqn:EI; cbn [negb andb orb]; rewrite ?andb_false_r; [apply IH|].
  destruct (skp s f) eqn:K; cbn [negb andb]; [apply IH|].
  destruct (el s >=? mask) eqn:L; cbn [andb]; [|apply IH].
  cbn [length]. change MAXSAT with 233.
  destruct (IH m f i (ix ++ [(IB i f na, IB s f na)]) (setfix s f 2 t)) as [IH1 IH2].
  rewrite app_length in IH1, IH2. cbn [length] in IH1, IH2.
  split; intros B.
  - replace (Z.of_nat (length ix) <? 233) with true by lia.
    destruct IH1 as (t' & A & C); [lia|]. exists t'. split.
    + rewrite A. cbn [rows map]. now rewrite <- app_assoc.
    + intros s' f'. rewrite C, setfix_iff. cbn [In].
      assert ((s' = s /\ f' = f) \/ ~ (s' = s /\ f' = f)) by lia. intuition.
  - intros B'. destruct (Z.of_nat (length ix) <? 233) eqn:LT; [|reflexivity]. apply IH2; lia.
Qed.

Definition prs (f : Z) (l : list Z) : list (Z * Z) := match l with [] => [] | a :: r => rows a f r end.

Lemma filter_none : forall A (p : A -> bool) l, (forall a, In a l -> p a = false) -> filter p l = [].
Proof.
  induction l as [|a l IH]; intros H; cbn; [reflexivity|].
  rewrite (H a (or_introl eq_refl)). apply IH. intros; apply H; now right.
Qed.
Lemma E_tail : forall l m f a r, NoDup l -> filter (eb m f) l = a :: r ->
  filter (fun s => eb m f s && negb (s =? a)) l = r.
Proof.
  induction l as [|s l IH]; intros m f a r ND H; cbn [filter] in *; [discriminate|].
  inversion ND as [|? ? NI ND']; subst.
  destruct (eb m f s) eqn:B; cbn [andb].
  - injection H as Ha Hr. subst a. rewrite Z.eqb_refl. cbn [negb]. rewrite <- Hr.
    apply filter_ext_in. intros b Hb. replace (b =? s) with false; [now rewrite andb_true_r|].
    assert (b <> s) by (intros ->; contradiction). lia.
  - apply IH; assumption.
Qed.
Lemma E_none : forall l m f a, filter (eb m f) l = [] -> filter (fun s => eb m f s && negb (s =? a)) l = [].
Proof.
  intros l m f a H. apply filter_none. intros b Hb. destruct (eb m f b) eqn:B; [|reflexivity].
  assert (In b (filter (eb m f) l)) by (apply filter_In; auto). rewrite H in H0. destruct H0.
Qed.

Notation ddb := (dd_block is0 x na vsat el mask sats).
Notation ddbs := (dd_blocks is0 x na vsat el mask sats).
Notation ddi := (ddidx is0 x na nf vsat el mask sats).

Lemma block_ok : forall m f ix t, (forall s, 1 <= s <= 233 -> sys_of s = m -> t s f <> 2) ->
  (Z.of_nat (length ix + length (prs f (E m f))) <= 233 ->
   exists t', ddb (m, f) (ix, t) = Some (ix ++ prs f (E m f), t') /\
    forall s f', t' s f' = 2 <-> (f' = f /\ In s (E m f)) \/ t s f' = 2) /\
  (Z.of_nat (length ix) <= 233 ->
   233 < Z.of_nat (length ix + length (prs f (E m f))) -> ddb (m, f) (ix, t) = None).
Proof.
  intros m f ix t H. unfold dd_block. cbn [fst snd].
  assert (H' : forall s, In s all_sat -> sys_of s = m -> t s f <> 2) by (intros s I; apply H, all_sat_iff, I).
  pose proof (ref_ok all_sat m f 0 t all_sat_nd H') as R. cbv zeta in R.
  destruct (refl all_sat m f 0 t) as [i t1]. cbn [fst snd] in R.
  destruct (dd_ok all_sat m f i ix t1) as [D1 D2]. change (filter (eb m f) all_sat) with (E m f) in R.
  destruct (E m f) as [|a r] eqn:EE.
  - rewrite (E_none all_sat m f i EE) in *. cbn [prs rows map length] in *. split; [|exact D2].
    intros B. destruct (D1 B) as (t' & A & C). exists t'. split; [exact A|].
    intros s f'. rewrite C, R. reflexivity.
  - destruct R as [-> R]. rewrite (E_tail all_sat m f a r all_sat_nd EE) in *.
    cbn [prs]. unfold rows at 1 3. rewrite map_length. split; [|exact D2].
    intros B. destruct (D1 B) as (t' & A & C). exists t'. split; [exact A|].
    intros s f'. rewrite C, R. cbn [In]. intuition.
Qed.

Definition P (b : gnss * Z) : list (Z * Z) := prs (snd b) (E (fst b) (snd b)).
Definition total (l : list (gnss * Z)) : Z := Z.of_nat (length (concat (map P l))).

Lemma blocks_ok : forall l ix t, NoDup l ->
  (forall m f s, In (m, f) l -> 1 <= s <= 233 -> sys_of s = m -> t s f <> 2) ->
  (Z.of_nat (length ix) + total l <= 233 ->
   exists t', ddbs l (ix, t) = Some (ix ++ concat (map P l), t') /\
    forall s f, t' s f = 2 <-> (exists m, In (m, f) l /\ In s (E m f)) \/ t s f = 2) /\
  (Z.of_nat (length ix) <= 233 -> 233 < Z.of_nat (length ix) + total l -> ddbs l (ix, t) = None).
Proof.
  induction l as [|[m f] l IH]; intros ix t ND H.
  { unfold total. cbn. split; [|lia]. intros _. exists t. rewrite app_nil_r. split; [reflexivity|].
    intros. split; [auto|]. intros [(m & [] & _)|G]. exact G. }
  inversion ND as [|? ? NI ND']; subst.
  destruct (block_ok m f ix t) as [B1 B2]. { intros s. apply H. now left. }
  unfold total in *. cbn [map List.concat]. rewrite app_length. change (P (m, f)) with (prs f (E m f)).
  cbn [dd_blocks].
  assert (C : Z.of_nat (length ix) <= 233 -> Z.of_nat (length ix + length (prs f (E m f))) <= 233 \/
     233 < Z.of_nat (length ix + length (prs f (E m f)))) by lia.
  assert (STEP : forall t', (forall s f', t' s f' = 2 <-> (f' = f /\ In s (E m f)) \/ t s f' = 2) ->
     forall m0 f0 s, In (m0, f0) l -> 1 <= s <= 233 -> sys_of s = m0 -> t' s f0 <> 2).
  { intros t' T m0 f0 s I0 S0 G0. rewrite T. intros [[-> Hs]|Hs].
    - apply E_in in Hs. destruct Hs as (_ & Hm & _). unfold sys_of in G0. rewrite Hm in G0. subst m0. contradiction.
    - exact (H m0 f0 s (or_intror I0) S0 G0 Hs). }
  split; intros L.
  - destruct B1 as (t' & A & T); [lia|]. rewrite A. cbn [bind].
    destruct (IH (ix ++ prs f (E m f)) t' ND' (STEP t' T)) as [I1 _]. rewrite app_length in I1.
    destruct I1 as (t2 & A2 & T2); [lia|]. exists t2. split; [rewrite app_assoc; exact A2|].
    intros s f'. rewrite T2, T. split.
    + intros [(m0 & I0 & I0')|[[-> Hs]|Hs]]; [left; exists m0; split; [now right|exact I0']|left; exists m; split; [now left|exact Hs]|now right].
    + intros [(m0 & [I0|I0] & I0')|Hs]; [injection I0 as <- <-; right; left; auto|left; exists m0; auto|auto].
  - intros L'. destruct (C L) as [C1|C1].
    + destruct (B1 C1) as (t' & A & T). rewrite A. cbn [bind].
      destruct (IH (ix ++ prs f (E m f)) t' ND' (STEP t' T)) as [_ I2]. rewrite app_length in I2.
      apply I2; lia.
    + rewrite (B2 L C1). reflexivity.
Qed.

Lemma all_f_iff : forall f, In f (all_f nf) <-> 0 <= f < Z.of_nat nf.
Proof.
  intros. unfold all_f. rewrite in_map_iff. split.
  - intros (k & E1 & H). apply in_seq in H. lia.
  - intros H. exists (Z.to_nat f). split; [lia|]. apply in_seq. lia.
Qed.
Lemma blocks_in : forall m f, In (m, f) (blocks nf) <-> In m all_sys /\ 0 <= f < Z.of_nat nf.
Proof.
  intros. unfold blocks. rewrite in_concat. split.
  - intros (l & H & I). apply in_map_iff in H. destruct H as (m0 & <- & Hm). apply in_map_iff in I.
    destruct I as (f0 & E0 & Hf). injection E0 as <- <-. split; [exact Hm|]. apply all_f_iff, Hf.
  - intros [Hm Hf]. exists (map (fun f => (m, f)) (all_f nf)). split; [apply in_map_iff; eauto|].
    apply in_map_iff. exists f. split; [reflexivity|]. apply all_f_iff, Hf.
Qed.
Lemma nodup_app : forall A (l k : list A), NoDup l -> NoDup k -> (forall a, In a l -> ~ In a k) -> NoDup (l ++ k).
Proof.
  induction l as [|a l IH]; intros k N1 N2 D; cbn; [exact N2|]. inversion N1; subst. constructor.
  - rewrite in_app_iff. intros [Ha|Ha]; [contradiction|]. exact (D a (or_introl eq_refl) Ha).
  - apply IH; [assumption..|]. intros; apply D; now right.
Qed.
Lemma nodup_concat : forall A B (g : A -> list B) l, NoDup l -> (forall a, In a l -> NoDup (g a)) ->
  (forall a b y, In a l -> In b l -> In y (g a) -> In y (g b) -> a = b) -> NoDup (concat (map g l)).
Proof.
  induction l as [|a l IH]; intros N1 N2 D; cbn; [constructor|]. inversion N1; subst. apply nodup_app.
  - apply N2. now left.
  - apply IH; [assumption|intros; apply N2; now right|]. intros a0 b0 y Ha Hb; apply D; now right.
  - intros y Hy Hc. apply in_concat in Hc. destruct Hc as (k & Hk & Hy'). apply in_map_iff in Hk.
    destruct Hk as (b & <- & Hb). assert (a = b) by (apply (D a b y); [now left|now right|assumption..]). subst; contradiction.
Qed.
Lemma nodup_map_in : forall A B (g : A -> B) l, (forall a b, In a l -> In b l -> g a = g b -> a = b) ->
  NoDup l -> NoDup (map g l).
Proof.
  induction l as [|a l IH]; intros H ND; cbn; [constructor|]. inversion ND; subst. constructor.
  - intros HI. apply in_map_iff in HI. destruct HI as (b & E1 & Hb).
    rewrite (H b a) in Hb by (auto; now (right + left)). contradiction.
  - apply IH; [|assumption]. intros; apply H; auto; now right.
Qed.
Lemma blocks_nd : NoDup (blocks nf).
Proof.
  unfold blocks. apply nodup_concat.
  - repeat constructor; cbn; intuition discriminate.
  - intros m _. apply FinFun.Injective_map_NoDup; [intros a b H; now injection H|].
    unfold all_f. apply FinFun.Injective_map_NoDup; [intros a b; lia|apply seq_NoDup].
  - intros a b y _ _ H1 H2. apply in_map_iff in H1, H2. destruct H1 as (f1 & <- & _), H2 as (f2 & H2 & _).
    now injection H2.
Qed.

Lemma ddidx_eq :
  (total (blocks nf) <= 233 -> exists t, ddi = Some (concat (map P (blocks nf)), t) /\
    forall s f, t s f = 2 <-> exists m, In (m, f) (blocks nf) /\ In s (E m f)) /\
  (233 < total (blocks nf) -> ddi = None).
Proof.
  destruct (blocks_ok (blocks nf) [] (fun _ _ => 0) blocks_nd) as [B1 B2]. { intros; lia. }
  cbn [length] in *. split; intros H.
  - destruct B1 as (t & A & T); [lia|]. exists t. split; [exact A|]. intros s f. rewrite T. intuition lia.
  - apply B2; lia.
Qed.

Lemma sys_all : forall s, 1 <= s <= 233 -> In (sys_of s) all_sys.
Proof.
  intros s H. apply all_sat_iff in H. revert s H. apply Forall_forall.
  assert (G : forallb (fun s => existsb (gnss_eqb (sys_of s)) all_sys) all_sat = true) by (vm_compute; reflexivity).
  rewrite forallb_forall in G. apply Forall_forall. intros s H. specialize (G s H).
  apply existsb_exists in G. destruct G as (g & Hg & Eg). apply gnss_eqb_iff in Eg. now subst.
Qed.

Lemma E_sorted : forall m f, Sorted.StronglySorted Z.lt (E m f).
Proof.
  intros. unfold E.
  assert (S : forall l, Sorted.StronglySorted Z.lt l -> Sorted.StronglySorted Z.lt (filter (eb m f) l)).
  { induction 1 as [|a l HS IH HF]; cbn; [constructor|]. destruct (eb m f a); [|exact IH]. constructor; [exact IH|].
    apply Forall_forall. intros b Hb. apply filter_In in Hb. rewrite Forall_forall in HF. apply HF, Hb. }
  apply S. unfold all_sat. generalize (Z.to_nat MAXSAT) 1%nat. induction n as [|n IH]; intros k; cbn; constructor; [apply IH|].
  apply Forall_forall. intros b Hb. apply in_map_iff in Hb. destruct Hb as (j & <- & Hj). apply in_seq in Hj. lia.
Qed.
Lemma E_nd : forall m f, NoDup (E m f).
Proof. intros. unfold E. apply NoDup_filter, all_sat_nd. Qed.

Definition reference (m : gnss) (f s : Z) : Prop := elig m f s /\ forall s', elig m f s' -> s <= s'.

Lemma prs_in : forall m f i j, In (i, j) (prs f (E m f)) <->
  exists s0 s, reference m f s0 /\ elig m f s /\ s <> s0 /\ i = na + 233 * f + s0 - 1 /\ j = na + 233 * f + s - 1.
Proof.
  intros. pose proof (E_sorted m f) as SS. pose proof (E_nd m f) as ND.
  pose proof (E_in m f) as EI. destruct (E m f) as [|a r].
  - cbn. split; [intros []|]. intros (s0 & s & _ & Hs & _). apply EI in Hs. destruct Hs.
  - cbn [prs]. unfold rows. rewrite in_map_iff. change (IB ?s f na) with (na + 233 * f + s - 1).
    inversion SS as [|? ? SS' HF]; subst. inversion ND; subst. rewrite Forall_forall in HF. split.
    + intros (s & H & Hs). injection H as <- <-. exists a, s.
      split; [split; [apply EI; now left|intros s' Hs'; apply EI in Hs'; destruct Hs' as [->|Hs']; [lia|apply HF in Hs'; lia]]|].
      split; [apply EI; now right|]. split; [intros ->; contradiction|]. split; reflexivity.
    + intros (s0 & s & [R0 R1] & Hs & NE & -> & ->).
      assert (s0 = a). { apply EI in R0. destruct R0 as [->|R0]; [reflexivity|].
        specialize (R1 a (proj1 (EI a) (or_introl eq_refl))). apply HF in R0. lia. }
      subst s0. apply EI in Hs. destruct Hs as [->|Hs]; [congruence|]. exists s. split; [|exact Hs].
      unfold IB. change MAXSAT with 233. f_equal; lia.
Qed.

Lemma pairs_in : forall i j, In (i, j) (concat (map P (blocks nf))) <->
  exists m f s0 s, 0 <= f < Z.of_nat nf /\ reference m f s0 /\ elig m f s /\ s <> s0 /\
    i = na + 233 * f + s0 - 1 /\ j = na + 233 * f + s - 1.
Proof.
  intros. rewrite in_concat. split.
  - intros (l & H & I). apply in_map_iff in H. destruct H as ([m f] & <- & Hb). apply blocks_in in Hb.
    unfold P in I. cbn [fst snd] in I. apply prs_in in I. destruct I as (s0 & s & I). exists m, f, s0, s. tauto.
  - intros (m & f & s0 & s & Hf & I). exists (P (m, f)). split.
    + apply in_map. apply blocks_in. split; [|exact Hf]. destruct I as (_ & (Hs & <- & _) & _). apply sys_all, Hs.
    + unfold P. cbn [fst snd]. apply prs_in. eauto.
Qed.
Lemma pairs_nd : NoDup (concat (map P (blocks nf))).
Proof.
  apply nodup_concat; [apply blocks_nd| |].
  - intros [m f] _. unfold P. cbn [fst snd]. pose proof (E_nd m f) as ND. destruct (E m f) as [|a r]; [constructor|].
    inversion ND; subst. cbn [prs]. unfold rows. apply FinFun.Injective_map_NoDup; [|assumption].
    intros b c H. injection H as H. unfold IB in H. lia.
  - intros [m f] [m' f'] [i j] _ _ H1 H2. unfold P in *. cbn [fst snd] in *. apply prs_in in H1, H2.
    destruct H1 as (s0 & s & _ & (R & <- & _) & _ & _ & ->), H2 as (s0' & s' & _ & (R' & <- & _) & _ & _ & H).
    assert (f = f') by lia. subst f'. assert (s = s') by lia. now subst.
Qed.

Theorem ddidx_ok : forall ix t, ddi = Some (ix, t) ->
  NoDup ix /\
  (forall i j, In (i, j) ix <-> exists m f s0 s, 0 <= f < Z.of_nat nf /\ reference m f s0 /\ elig m f s /\ s <> s0 /\
    i = na + 233 * f + s0 - 1 /\ j = na + 233 * f + s - 1) /\
  (forall s f, t s f = 2 <-> 0 <= f < Z.of_nat nf /\ elig (fst (sat2prn s)) f s).
Proof.
  intros ix t H. destruct ddidx_eq as [D1 D2].
  destruct (Z_le_gt_dec (total (blocks nf)) 233) as [L|L]; [|rewrite D2 in H by lia; discriminate].
  destruct (D1 L) as (t' & A & T). rewrite A in H. injection H as <- <-.
  split; [apply pairs_nd|]. split; [apply pairs_in|]. intros s f. rewrite T. split.
  - intros (m & Hb & Hs). apply blocks_in in Hb. apply E_in in Hs. destruct Hs as (R & M & Q).
    split; [tauto|]. rewrite M. split; [exact R|split; [exact M|exact Q]].
  - intros [Hf He]. exists (fst (sat2prn s)). split; [|apply E_in, He]. apply blocks_in. split; [|exact Hf].
    apply sys_all, He.
Qed.

Lemma total_le : total (blocks nf) <= Z.of_nat nf * Z.of_nat (length sats).
Proof.
  (* second members of the pairs: distinct (satellite, frequency) combinations *)
  set (prod := list_prod (all_f nf) sats).
  assert (L : length prod = (nf * length sats)%nat).
  { unfold prod. rewrite prod_length. unfold all_f. now rewrite map_length, seq_length. }
  unfold total.
  assert (K : (length (concat (map P (blocks nf))) <= length prod)%nat); [|lia].
  rewrite <- (map_length (fun ij => ((snd ij - na) / 233, (snd ij - na) mod 233 + 1)) (concat (map P (blocks nf)))).
  assert (DM : forall f s, 1 <= s <= 233 -> (na + 233 * f + s - 1 - na) / 233 = f /\ (na + 233 * f + s - 1 - na) mod 233 = s - 1).
  { intros f s R. replace (na + 233 * f + s - 1 - na) with (s - 1 + f * 233) by lia.
    rewrite Z.div_add, Z.mod_add, Z.div_small, Z.mod_small by lia. lia. }
  apply NoDup_incl_length.
  - apply nodup_map_in.
    + intros [i j] [i' j'] H1 H2 H. apply pairs_in in H1, H2.
      destruct H1 as (m & f & s0 & s & _ & [R0 R1] & (R & M & Q) & _ & -> & ->), H2 as (m' & f' & s0' & s' & _ & [R0' R1'] & (R' & M' & Q') & _ & -> & ->).
      cbn [snd] in H. destruct (DM f s R) as [-> ->] in H. destruct (DM f' s' R') as [-> ->] in H. injection H as Hf Hs.
      assert (s = s') by lia. subst s' f'. assert (m = m') by congruence. subst m'.
      rewrite <- H in *. assert (s0 = s0') by (apply Z.le_antisymm; [apply R1, R0'|apply R1', R0]). now subst s0'.
    + apply pairs_nd.
  - intros [f s] H. apply in_map_iff in H. destruct H as ([i j] & E1 & H). apply pairs_in in H.
    destruct H as (m & f' & s0 & s' & Hf & _ & (R & _ & Hi & _) & _ & -> & ->). cbn [snd] in E1.
    destruct (DM f' s' R) as [-> ->] in E1. injection E1 as <- <-.
    replace (s' - 1 + 1) with s' by lia. apply in_prod; [apply all_f_iff, Hf|exact Hi].
Qed.
Theorem ddidx_defined : Z.of_nat nf * Z.of_nat (length sats) <= 233 -> ddi <> None.
Proof.
  intros H. pose proof total_le as T. destruct ddidx_eq as [D _]. destruct D as (t & -> & _); [lia|discriminate].
Qed.

(* restoring *)
Variable fsub : F -> F -> F.
Definition ipairs (l : list Z) : list (Z * Z) := match l with [] => [] | a :: r => map (fun i => (a, i)) r end.
Notation restl := (rest_loop fsub).
Notation restbs := (rest_blocks fsub x).

Lemma upd_same : forall A i (v : A) g, upd i v g i = v.
Proof. intros. unfold upd. now rewrite Z.eqb_refl. Qed.
Lemma upd_other : forall A i k (v : A) g, k <> i -> upd i v g k = g k.
Proof. intros. unfold upd. now replace (k =? i) with false by lia. Qed.

Lemma fixed_eq : forall t b, (forall s f, t s f = 2 <-> 0 <= f < Z.of_nat nf /\ elig (fst (sat2prn s)) f s) ->
  In b (blocks nf) -> fixed_of na t b = map (fun s => IB s (snd b) na) (E (fst b) (snd b)).
Proof.
  intros t [m f] T Hb. unfold fixed_of, E. cbn [fst snd]. f_equal. apply filter_ext_in. intros s Hs.
  apply blocks_in in Hb. apply eq_true_iff_eq. rewrite andb_true_iff, gnss_eqb_iff, Z.eqb_eq, T.
  unfold sys_of. split.
  - intros [<- [_ He]]. apply eb_iff in He. tauto.
  - intros He. assert (H : elig m f s) by (apply eb_iff; auto). destruct H as (R & M & Q).
    split; [exact M|]. split; [tauto|]. rewrite M. split; [exact R|split; [exact M|exact Q]].
Qed.
(** the constraints of fix-and-hold are those of the fixed pairs *)
Theorem holdamb_ok : forall ix t xa, ddi = Some (ix, t) ->
  fst (holdamb fsub x na nf t xa) = map (fun ij => (fst ij, snd ij,
     fsub (fsub (xa (fst ij)) (xa (snd ij))) (fsub (x (fst ij)) (x (snd ij))))) ix /\
  (forall s f, t s f = 2 -> snd (holdamb fsub x na nf t xa) s f = 3) /\
  (forall s f, t s f <> 2 -> snd (holdamb fsub x na nf t xa) s f = t s f).
Proof.
  intros ix t xa H. destruct (ddidx_ok ix t H) as (_ & _ & T).
  assert (HX : ix = concat (map P (blocks nf))).
  { destruct ddidx_eq as [D1 D2]. destruct (Z_le_gt_dec (total (blocks nf)) 233) as [G|G]; [|rewrite D2 in H by lia; discriminate].
    destruct (D1 G) as (t' & A & _). rewrite A in H. now injection H. }
  unfold holdamb. cbn [fst snd]. repeat split.
  - rewrite HX, concat_map, map_map. f_equal. apply map_ext_in. intros [m f] Hb. rewrite (fixed_eq t (m, f) T Hb).
    unfold P. cbn [fst snd]. destruct (E m f) as [|a r]; cbn; [reflexivity|]. unfold rows. rewrite !map_map. reflexivity.
  - intros s f Hs. pose proof (proj1 (T s f) Hs) as [Hf (R & _)]. change MAXSAT with 233.
    replace ((1 <=? s) && (s <=? 233) && (0 <=? f) && (f <? Z.of_nat nf) && (t s f =? 2)) with true by lia. reflexivity.
  - intros s f Hs. replace (t s f =? 2) with false by lia. now rewrite andb_false_r.
Qed.
Hypothesis sub_sub : forall a b, fsub a (fsub a b) = b.

Lemma rest_loop_ok : forall l i0 b b' xa, length b = length l -> NoDup (i0 :: l) ->
  exists xa', restl i0 l (b ++ b') xa = Some (b', xa') /\
   (forall k, ~ In k l -> xa' k = xa k) /\
   (forall r i v, nth_error l r = Some i -> nth_error b r = Some v -> fsub (xa' i0) (xa' i) = v).
Proof.
  induction l as [|i l IH]; intros i0 b b' xa L ND; destruct b as [|v b]; cbn [length] in L; try lia.
  - exists xa. cbn. split; [reflexivity|]. split; [auto|]. intros [|r]; discriminate.
  - cbn [app rest_loop]. inversion ND as [|? ? N0 ND1]; subst. inversion ND1 as [|? ? N1 ND2]; subst.
    destruct (IH i0 b b' (upd i (fsub (xa i0) v) xa)) as (xa' & A & B & C); [lia| |].
    { constructor; [|exact ND2]. intros H. apply N0. now right. }
    exists xa'. split; [exact A|].
    assert (H0 : i0 <> i) by (intros ->; apply N0; now left).
    assert (X0 : xa' i0 = xa i0). { rewrite B by (intros H; apply N0; now right). apply upd_other, H0. }
    split.
    + intros k Hk. rewrite B by (intros H; apply Hk; now right). apply upd_other. intros ->. apply Hk. now left.
    + intros [|r] i' v' H1 H2; cbn in H1, H2.
      * injection H1 as <-. injection H2 as <-. rewrite X0. rewrite (B i N1), upd_same. apply sub_sub.
      * exact (C r i' v' H1 H2).
Qed.

Lemma ipairs_len : forall l, length (ipairs l) = pred (length l).
Proof. destruct l; cbn; [reflexivity|]. apply map_length. Qed.

Lemma rest_ok : forall ls bias xa, NoDup (concat ls) -> length bias = length (concat (map ipairs ls)) ->
  exists xa', restbs ls bias xa = Some xa' /\
   (forall k, ~ In k (concat ls) -> xa' k = xa k) /\
   (forall k, ~ In k (map snd (concat (map ipairs ls))) -> xa k = x k -> xa' k = x k) /\
   (forall r i j v, nth_error (concat (map ipairs ls)) r = Some (i, j) -> nth_error bias r = Some v ->
      fsub (xa' i) (xa' j) = v).
Proof.
  induction ls as [|l ls IH]; intros bias xa ND L.
  { exists xa. cbn. split; [reflexivity|]. split; [auto|]. split; [auto|]. intros [|r]; discriminate. }
  cbn [List.concat map] in *. rewrite app_length, ipairs_len in L.
  assert (NDs : NoDup l /\ NoDup (concat ls) /\ forall a, In a l -> ~ In a (concat ls)).
  { clear -ND. induction l as [|a l IH]; cbn in *; [repeat split; [constructor|exact ND|tauto]|].
    inversion ND as [|? ? N1 N2]; subst. destruct (IH N2) as (A & B & C). rewrite in_app_iff in N1.
    repeat split; [constructor; tauto|exact B|]. intros b [->|Hb]; [tauto|apply C, Hb]. }
  destruct NDs as (N1 & N2 & N3).
  destruct l as [|i0 [|i1 l]].
  - cbn [length pred Nat.add] in L. destruct (IH bias xa N2 L) as (xa' & A & B & C & D). exists xa'. cbn. auto.
  - cbn [length pred Nat.add] in L. destruct (IH bias xa N2 L) as (xa' & A & B & C & D). exists xa'.
    split; [exact A|]. split; [|split; [exact C|exact D]]. intros k Hk. apply B. intros H. apply Hk. now right.
  - set (b := firstn (S (length l)) bias). set (b' := skipn (S (length l)) bias).
    assert (SP : bias = b ++ b') by (symmetry; apply firstn_skipn).
    cbn [length pred] in L.
    assert (Lb : length b = length (i1 :: l)). { unfold b. rewrite firstn_length. cbn [length]. lia. }
    assert (Lb' : length b' = length (concat (map ipairs ls))). { unfold b'. rewrite skipn_length. lia. }
    destruct (rest_loop_ok (i1 :: l) i0 b b' (upd i0 (x i0) xa) Lb N1) as (xa1 & A1 & B1 & C1).
    destruct (IH b' xa1 N2 Lb') as (xa2 & A2 & B2 & C2 & D2).
    exists xa2. cbn [rest_blocks]. rewrite SP, A1. cbn [bind fst snd]. split; [exact A2|].
    assert (K2 : forall k, In k (i0 :: i1 :: l) -> xa2 k = xa1 k) by (intros k Hk; apply B2, N3, Hk).
    split; [|split].
    + intros k Hk. rewrite in_app_iff in Hk. rewrite B2 by tauto. rewrite B1 by (intros H; apply Hk; left; now right).
      apply upd_other. intros ->. apply Hk. left. now left.
    + intros k Hk Hx. rewrite map_app, in_app_iff in Hk. cbn [ipairs] in Hk. rewrite map_map in Hk. cbn [snd] in Hk.
      rewrite map_id in Hk. apply C2; [tauto|]. rewrite B1 by tauto. unfold upd.
      destruct (k =? i0) eqn:EQ; [f_equal; lia|exact Hx].
    + intros r i j v H1 H2. cbn [ipairs] in H1.
      destruct (Nat.lt_ge_cases r (length b)) as [Hr|Hr].
      * rewrite nth_error_app1 in H1 by (rewrite map_length; lia). rewrite nth_error_app1 in H2 by lia.
        rewrite nth_error_map in H1. destruct (nth_error (i1 :: l) r) as [j'|] eqn:Ej; [|discriminate].
        cbn in H1. injection H1 as <- <-. assert (Hj := nth_error_In _ _ Ej).
        rewrite !K2 by (first [now left | now right]). exact (C1 r j' v Ej H2).
      * rewrite nth_error_app2 in H1 by (rewrite map_length; lia). rewrite map_length in H1.
        rewrite nth_error_app2 in H2 by lia. rewrite Lb in H2. exact (D2 _ i j v H1 H2).
Qed.

Notation rst := (restamb fsub x na nf).

Lemma ipairs_map : forall m f, ipairs (map (fun s => IB s f na) (E m f)) = prs f (E m f).
Proof. intros. destruct (E m f) as [|a r]; cbn; [reflexivity|]. unfold rows. rewrite map_map. reflexivity. Qed.

Lemma fixed_nd : NoDup (concat (map (fun b => map (fun s => IB s (snd b) na) (E (fst b) (snd b))) (blocks nf))).
Proof.
  apply nodup_concat; [apply blocks_nd| |].
  - intros [m f] _. cbn [fst snd]. apply FinFun.Injective_map_NoDup; [|apply E_nd]. intros a b. unfold IB. lia.
  - intros [m f] [m' f'] y _ _ H1 H2. cbn [fst snd] in *. apply in_map_iff in H1, H2.
    destruct H1 as (s & <- & H1), H2 as (s' & H & H2). apply E_in in H1, H2.
    destruct H1 as (R & M & _), H2 as (R' & M' & _). unfold IB in H. change MAXSAT with 233 in H.
    assert (f = f') by lia. subst f'. assert (s = s') by lia. subst s'. congruence.
Qed.

Theorem restamb_ok : forall ix t xfix bias, 0 <= na -> ddi = Some (ix, t) -> length bias = length ix ->
  exists xa, rst t xfix bias = Some xa /\
  (forall r i j v, nth_error ix r = Some (i, j) -> nth_error bias r = Some v -> fsub (xa i) (xa j) = v) /\
  (forall k, 0 <= k < na -> xa k = xfix k) /\
  (forall k, na <= k -> (forall i, ~ In (i, k) ix) -> xa k = x k).
Proof.
  intros ix t xfix bias NA H L. destruct (ddidx_ok ix t H) as (_ & _ & T).
  assert (HX : ix = concat (map P (blocks nf))).
  { destruct ddidx_eq as [D1 D2]. destruct (Z_le_gt_dec (total (blocks nf)) 233) as [G|G]; [|rewrite D2 in H by lia; discriminate].
    destruct (D1 G) as (t' & A & _). rewrite A in H. now injection H. }
  unfold restamb.
  assert (FE : map (fixed_of na t) (blocks nf) = map (fun b => map (fun s => IB s (snd b) na) (E (fst b) (snd b))) (blocks nf)).
  { apply map_ext_in. intros b Hb. apply fixed_eq; [exact T|exact Hb]. }
  rewrite FE. set (ls := map _ _).
  assert (PE : concat (map ipairs ls) = ix).
  { unfold ls. rewrite map_map, HX. f_equal. apply map_ext. intros [m f]. apply ipairs_map. }
  destruct (rest_ok ls bias (fun k => if (0 <=? k) && (k <? na) then xfix k else x k)) as (xa & A & B & C & D).
  { apply fixed_nd. } { now rewrite PE. }
  exists xa. rewrite PE in *. split; [exact A|]. split; [exact D|]. split.
  - intros k Hk. rewrite B. { now replace ((0 <=? k) && (k <? na)) with true by lia. }
    intros HI. apply in_concat in HI. destruct HI as (l & Hl & Hi). unfold ls in Hl. apply in_map_iff in Hl.
    destruct Hl as ([m f] & <- & Hb). apply blocks_in in Hb. apply in_map_iff in Hi. destruct Hi as (s & <- & Hs).
    apply E_in in Hs. destruct Hs as (R & _). unfold IB in Hk. change MAXSAT with 233 in Hk. cbn [snd] in Hk. lia.
  - intros k Hk Hn. apply C; [|now replace ((0 <=? k) && (k <? na)) with false by lia].
    intros HI. apply in_map_iff in HI. destruct HI as ([i j] & <- & HI). exact (Hn i HI).
Qed.

End Amb.
