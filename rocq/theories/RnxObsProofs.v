(** Proofs about the RINEX observation reader and the pairing of epochs. *)
From Coq Require Import Ascii String.
From Verif Require Import RnxModel RnxSpec RnxProofs CssrFacts Base BaseFacts.
From Coq Require Import Lia.
Notation length := List.length.
Open Scope Z_scope.

(* ---------- the table of signals asked for ---------- *)
Lemma typ_ok a b : typ_eqb a b = true <-> a = b.
Proof. destruct a, b; cbn; split; congruence. Qed.
Lemma gget_nil {V} g : @gget V g [] = None. Proof. reflexivity. Qed.
Lemma want_app p q g ty : want (p ++ q) g ty = want p g ty ++ want q g ty.
Proof. apply filter_app. Qed.
Lemma want_one q g ty : want [q] g ty = if gnss_eqb (rsys q) g && typ_eqb (rtyp q) ty then [q] else [].
Proof. reflexivity. Qed.
Lemma in_want l g ty q : In q (want l g ty) <-> In q l /\ rsys q = g /\ rtyp q = ty.
Proof. unfold want. rewrite filter_In, andb_true_iff, gnss_ok, typ_ok. tauto. Qed.
Definition tab_ok (t : sigtab) (p : list rsig) : Prop :=
  (forall g ty, signals t g ty = want p g ty) /\
  (forall g, (exists d, gget g t = Some d) <-> exists q, In q p /\ rsys q = g) /\
  NoDup (map fst t).
Lemma dset_keys {K V} (eqb : K -> K -> bool) (H : forall a b, eqb a b = true <-> a = b) k (v : V) d :
  map fst (dset eqb k v d) = if existsb (fun a => eqb a k) (map fst d) then map fst d else map fst d ++ [k].
Proof.
  induction d as [|[a b] d IH]; cbn; auto. destruct (eqb a k) eqn:E; cbn; auto. rewrite IH.
  destruct (existsb _ _); auto.
Qed.
Lemma nodup_dset {K V} (eqb : K -> K -> bool) (H : forall a b, eqb a b = true <-> a = b) k (v : V) d :
  NoDup (map fst d) -> NoDup (map fst (dset eqb k v d)).
Proof.
  intros N. rewrite (dset_keys eqb H). destruct (existsb _ _) eqn:E; auto.
  apply NoDup_rev in N. rewrite <- (rev_involutive (_ ++ [k])), rev_app_distr. apply NoDup_rev. cbn. constructor; auto.
  rewrite <- in_rev. intros I. assert (X : existsb (fun a => eqb a k) (map fst d) = true); [|congruence].
  apply existsb_exists. exists k. split; auto. now apply H.
Qed.
Lemma tab_gen l : forall p t, NoDup (p ++ l) -> tab_ok t p -> exists t', set_signals l t = Some t' /\ tab_ok t' (p ++ l).
Proof.
  induction l as [|q l IH]; intros p t N T.
  - exists t. rewrite app_nil_r. auto.
  - cbn [set_signals]. destruct T as (T1 & T2 & T3).
    set (d := match gget (rsys q) t with Some d => d | None => [] end).
    assert (S : (match tget (rtyp q) d with Some s => s | None => [] end) = want p (rsys q) (rtyp q)).
    { rewrite <- T1. unfold signals, d. destruct (gget (rsys q) t); reflexivity. }
    rewrite S. replace (existsb (rsig_eqb q) (want p (rsys q) (rtyp q))) with false.
    2:{ symmetry. destruct (existsb _ _) eqn:E; auto. apply existsb_exists in E as (x & I & E). apply rsig_eqb_ok in E. subst x.
        apply in_want in I as [I _]. apply NoDup_remove_2 in N. exfalso. apply N. apply in_or_app. auto. }
    assert (PE : p ++ q :: l = (p ++ [q]) ++ l) by (now rewrite <- app_assoc). rewrite PE. apply IH; [now rewrite <- PE|].
    split; [|split].
    + intros g ty. rewrite want_app, want_one.
      destruct (gnss_eqb (rsys q) g) eqn:Eg.
      * apply gnss_ok in Eg. subst g. unfold signals. rewrite gget_same. cbn [andb].
        destruct (typ_eqb (rtyp q) ty) eqn:Et.
        -- apply typ_ok in Et. subst ty. unfold tget, tset. rewrite (dget_dset_same typ_eqb typ_ok). reflexivity.
        -- unfold tget, tset. rewrite (dget_dset_other typ_eqb typ_ok) by (intros X; subst; rewrite (proj2 (typ_ok _ _) eq_refl) in Et; discriminate).
           rewrite app_nil_r, <- T1. unfold signals, d. destruct (gget (rsys q) t); reflexivity.
      * unfold signals. rewrite gget_other by (intros X; subst; rewrite (proj2 (gnss_ok _ _) eq_refl) in Eg; discriminate).
        cbn [andb]. rewrite app_nil_r. apply T1.
    + intros g. destruct (gnss_eqb (rsys q) g) eqn:Eg.
      * apply gnss_ok in Eg. subst g. rewrite gget_same. split; [|eauto]. intros _. exists q. split; auto. apply in_or_app. cbn. auto.
      * rewrite gget_other by (intros X; subst; rewrite (proj2 (gnss_ok _ _) eq_refl) in Eg; discriminate).
        rewrite T2. split; intros (x & I & E); exists x; split; auto; [apply in_or_app; auto|].
        apply in_app_or in I as [I|[I|[]]]; auto. subst. rewrite (proj2 (gnss_ok _ _) eq_refl) in Eg. discriminate.
    + apply (nodup_dset gnss_eqb gnss_ok). auto.
Qed.
Lemma tab_set l : NoDup l -> exists t, set_signals l [] = Some t /\ tab_ok t l.
Proof.
  intros N. apply (tab_gen l [] [] N). split; [|split].
  - reflexivity.
  - intros g. rewrite gget_nil. split; intros (x & H); [discriminate|now destruct H].
  - constructor.
Qed.
Lemma tab_dup l t : ~ NoDup l -> set_signals l [] <> Some t.
Proof.
  intros N. assert (G : forall l p t0, tab_ok t0 p -> NoDup p -> ~ NoDup (p ++ l) -> set_signals l t0 = None).
  { clear. induction l as [|q l IH]; intros p t0 T NP N. { rewrite app_nil_r in N. tauto. }
    cbn [set_signals]. destruct T as (T1 & T2 & T3).
    set (d := match gget (rsys q) t0 with Some d => d | None => [] end).
    assert (S : (match tget (rtyp q) d with Some s => s | None => [] end) = want p (rsys q) (rtyp q)).
    { rewrite <- T1. unfold signals, d. destruct (gget (rsys q) t0); reflexivity. }
    rewrite S. destruct (existsb (rsig_eqb q) (want p (rsys q) (rtyp q))) eqn:E; auto.
    assert (NQ : NoDup (p ++ [q])).
    { apply NoDup_rev in NP. rewrite <- (rev_involutive (_ ++ [q])), rev_app_distr. apply NoDup_rev. cbn. constructor; auto.
      rewrite <- in_rev. intros I. assert (X : existsb (rsig_eqb q) (want p (rsys q) (rtyp q)) = true); [|congruence].
      apply existsb_exists. exists q. split; [apply in_want; auto|now apply rsig_eqb_ok]. }
    destruct (tab_gen [q] p t0 NQ) as (t' & E' & T'). { split; auto. }
    cbn [set_signals] in E'. fold d in E'. rewrite S, E in E'. inversion E'. rewrite H0.
    apply (IH (p ++ [q])); auto. now rewrite <- app_assoc. }
  rewrite (G l [] []); [discriminate| |constructor|auto]. split; [reflexivity|]. split; [|constructor].
  intros g. rewrite gget_nil. split; intros (x & H); [discriminate|now destruct H].
Qed.
(** self.nsig[typ] is the largest number of signals of a constellation *)
Lemma in_gget {V} (t : dict gnss V) g d : NoDup (map fst t) -> In (g, d) t -> gget g t = Some d.
Proof.
  unfold gget. induction t as [|[a b] t IH]; intros N I; [destruct I|]. inversion N; subst. cbn. destruct I as [I|I].
  - inversion I; subst. now rewrite (proj2 (gnss_ok _ _) eq_refl).
  - destruct (gnss_eqb a g) eqn:E; auto. apply gnss_ok in E. subst. exfalso. apply H1. apply in_map_iff. now exists (g, d).
Qed.
Lemma gget_in {V} (t : dict gnss V) g d : gget g t = Some d -> In (g, d) t.
Proof.
  unfold gget. induction t as [|[a b] t IH]; cbn; [discriminate|]. destruct (gnss_eqb a g) eqn:E; [|auto].
  apply gnss_ok in E. subst. intros X. inversion X. auto.
Qed.
Lemma nsig_ge t p g ty : tab_ok t p -> (length (want p g ty) <= nsig t ty)%nat.
Proof.
  intros (T1 & T2 & T3). rewrite <- T1. unfold signals. destruct (gget g t) as [d|] eqn:E; [|cbn; lia].
  apply gget_in in E. unfold nsig. clear -E. induction t as [|[a b] t IH]; [destruct E|]. cbn [fold_right snd].
  destruct E as [E|E].
  - inversion E; subst. destruct (tget ty d); cbn; lia.
  - specialize (IH E). destruct (tget ty b), (tget ty d); cbn [length] in *; lia.
Qed.
Lemma nsig_hit t p ty : tab_ok t p -> nsig t ty = 0%nat \/ exists g, length (want p g ty) = nsig t ty.
Proof.
  intros (T1 & T2 & T3).
  assert (X : nsig t ty = 0%nat \/ exists g d s, In (g, d) t /\ tget ty d = Some s /\ length s = nsig t ty).
  { unfold nsig. clear. induction t as [|[a b] t IH]; cbn [fold_right snd]; auto.
    destruct (tget ty b) as [s|] eqn:E.
    - destruct (Nat.max_spec (length s) (fold_right (fun e m => match tget ty (snd e) with Some s => Nat.max (length s) m | None => m end) 0%nat t)) as [[M ->]|[M ->]].
      + destruct IH as [IH|(g & d & s' & I & G & L)]; [lia|]. right. exists g, d, s'. split; [right; auto|auto].
      + right. exists a, b, s. split; [left; auto|auto].
    - destruct IH as [IH|(g & d & s' & I & G & L)]; auto. right. exists g, d, s'. split; [right; auto|auto]. }
  destruct X as [X|(g & d & s & I & G & L)]; auto. right. exists g. rewrite <- T1. unfold signals. now rewrite (in_gget _ _ _ T3 I), G.
Qed.

(* ---------- one column ---------- *)
Lemma lstr_sp a l : lstr (repeat sp a ++ l) = lstr l.
Proof. induction a; cbn [repeat app lstr]; rewrite ?sp_space; auto. Qed.
Lemma lstr_ns t : forallb nospace t = true -> lstr t = t.
Proof. destruct t as [|c t]; auto. cbn. unfold nospace at 1. now destruct (is_space c). Qed.
Lemma lstr_ns_app t r : t <> [] -> forallb nospace t = true -> lstr (t ++ r) = t ++ r.
Proof. destruct t as [|c t]; [congruence|]. cbn. unfold nospace at 1. now destruct (is_space c). Qed.
Lemma rev_rep n : rev (repeat sp n) = repeat sp n.
Proof.
  induction n; auto. cbn [repeat rev]. rewrite IHn. change [sp] with (repeat sp 1). rewrite <- repeat_app. now rewrite Nat.add_comm.
Qed.
Lemma forallb_rev {A} (f : A -> bool) l : forallb f l = true -> forallb f (rev l) = true.
Proof. rewrite !forallb_forall. intros H x I. apply H. now apply in_rev. Qed.
Lemma lstr_all n : lstr (repeat sp n) = [].
Proof. rewrite <- (app_nil_r (repeat sp n)), lstr_sp. reflexivity. Qed.
Lemma strp_pad a t b : forallb nospace t = true -> strp (repeat sp a ++ t ++ repeat sp b) = t.
Proof.
  intros H. unfold strp. rewrite lstr_sp. destruct t as [|c t].
  - cbn [app]. rewrite lstr_all. reflexivity.
  - rewrite lstr_ns_app by (auto; discriminate). rewrite rev_app_distr, rev_rep, lstr_sp.
    rewrite lstr_ns by (now apply forallb_rev). apply rev_involutive.
Qed.
Lemma ocol_len c : ocol_ok c -> length (ocol_text c) = 16%nat.
Proof. intros [L _]. unfold ocol_text. rewrite !app_length, !repeat_length. cbn [length]. lia. Qed.
Lemma ocols_len cs : Forall ocol_ok cs -> length (flat_map ocol_text cs) = (16 * length cs)%nat.
Proof. induction 1; cbn [flat_map length]; auto. rewrite app_length, ocol_len by auto. lia. Qed.
Lemma col_at h cs i c tail : length h = 3%nat -> Forall ocol_ok cs -> nth_error cs i = Some c ->
  exists p r, h ++ flat_map ocol_text cs ++ tail = p ++ ocol_text c ++ r /\ length p = (16 * i + 3)%nat.
Proof.
  intros H F E. apply nth_error_split in E as (l1 & l2 & -> & L). apply Forall_app in F as [F1 F2].
  exists (h ++ flat_map ocol_text l1), (flat_map ocol_text l2 ++ tail). rewrite flat_map_app. cbn [flat_map]. rewrite <- !app_assoc. split; auto.
  rewrite app_length, ocols_len by auto. lia.
Qed.
Section V.
Context {V : Type} (zero : V) (fl : text -> option V).
Definition cval (cs : list ocol) (i : nat) : V :=
  match nth_error cs i with
  | Some c => match c_txt c with [] => zero | x => match fl x with Some v => v | None => zero end end
  | None => zero
  end.
Definition clli (cs : list ocol) (i : nat) : Z :=
  match nth_error cs i with Some c => if Ascii.eqb (c_lli c) "1" then 1 else 0 | None => 0 end.
Lemma col_read h cs i : length h = 3%nat -> Forall ocol_ok cs -> legible fl cs ->
  let line := h ++ flat_map ocol_text cs ++ [nl] in
  (match strp (sub (16 * i + 3) (16 * i + 17) line) with [] => Some zero | _ => fl (strp (sub (16 * i + 3) (16 * i + 17) line)) end) = Some (cval cs i) /\
  (match nth_error line (16 * i + 17) with Some c => if Ascii.eqb c "1" then 1 else 0 | None => 0 end) = clli cs i.
Proof.
  intros H F LG line. unfold cval, clli. destruct (nth_error cs i) as [c|] eqn:E.
  - destruct (col_at h cs i c [nl] H F E) as (p & r & EQ & P). unfold line. rewrite EQ.
    apply nth_error_In in E. pose proof (proj1 (Forall_forall _ _) F _ E) as [CL CN].
    assert (SB : sub (16 * i + 3) (16 * i + 17) (p ++ ocol_text c ++ r) = repeat sp (c_pre c) ++ c_txt c ++ repeat sp (c_post c)).
    { rewrite sub_app by auto. replace (16 * i + 17 - (16 * i + 3))%nat with 14%nat by lia. unfold ocol_text.
      rewrite <- !app_assoc, (app_assoc (c_txt c)), (app_assoc (repeat sp (c_pre c))). apply firstn_at.
      rewrite !app_length, !repeat_length. lia. }
    rewrite SB, strp_pad by auto. split.
    + pose proof (proj1 (Forall_forall _ _) LG _ E) as [X|[v X]]; [now rewrite X|]. destruct (c_txt c); auto. now rewrite X.
    + replace (nth_error (p ++ ocol_text c ++ r) (16 * i + 17)) with (Some (c_lli c)); auto.
      unfold ocol_text. rewrite <- !app_assoc.
      rewrite (app_assoc (c_txt c)), (app_assoc (repeat sp (c_pre c))), (app_assoc p).
      rewrite nth_error_app2; rewrite !app_length, !repeat_length; [|lia].
      replace (16 * i + 17 - _)%nat with 0%nat by lia. reflexivity.
  - apply nth_error_None in E.
    assert (LL : length line = (16 * length cs + 4)%nat). { unfold line. rewrite !app_length, ocols_len by auto. cbn [length]. lia. }
    split.
    + assert (X : strp (sub (16 * i + 3) (16 * i + 17) line) = []); [|now rewrite X].
      destruct (Nat.eq_dec i (length cs)) as [->|N].
      * unfold line. rewrite app_assoc, sub_app by (rewrite app_length, ocols_len by auto; lia).
        replace (16 * length cs + 17 - (16 * length cs + 3))%nat with 14%nat by lia. reflexivity.
      * unfold sub. rewrite skipn_all2 by lia. now rewrite firstn_nil.
    + rewrite (proj2 (nth_error_None _ _)) by lia. reflexivity.
Qed.

(* ---------- one satellite ---------- *)
Definition vmap {A} (f : nat -> A) (z : A) (p : list rsig) (q : rsig) : A := match pos q p with Some i => f i | None => z end.
Lemma rsig_refl q : rsig_eqb q q = true. Proof. now apply rsig_eqb_ok. Qed.
Lemma pos_in q l : pos q l <> None <-> In q l.
Proof.
  induction l as [|x l IH]; cbn; [tauto|]. destruct (rsig_eqb x q) eqn:E.
  - apply rsig_eqb_ok in E. subst. split; [auto|discriminate].
  - destruct (pos q l); cbn; rewrite <- IH.
    + split; [right; discriminate|discriminate].
    + split; [tauto|]. intros [X|X]; [|auto]. subst. rewrite rsig_refl in E. discriminate.
Qed.
Lemma pos_nth q l i : pos q l = Some i -> nth_error l i = Some q.
Proof.
  revert i; induction l as [|x l IH]; cbn; intros i; [discriminate|]. destruct (rsig_eqb x q) eqn:E.
  - apply rsig_eqb_ok in E. subst. intros X. now inversion X.
  - destruct (pos q l); cbn; [|discriminate]. intros X. inversion X. cbn. now apply IH.
Qed.
Lemma nth_pos q l i : NoDup l -> nth_error l i = Some q -> pos q l = Some i.
Proof.
  revert i; induction l as [|x l IH]; cbn; intros i N E; [destruct i; discriminate|]. inversion N; subst. destruct i as [|i]; cbn in E.
  - inversion E. now rewrite rsig_refl.
  - destruct (rsig_eqb x q) eqn:Q. { apply rsig_eqb_ok in Q. subst. exfalso. apply H1. eapply nth_error_In; eauto. }
    now rewrite (IH i).
Qed.
Lemma pos_snoc q p x : pos q (p ++ [x]) = match pos q p with Some i => Some i | None => if rsig_eqb x q then Some (length p) else None end.
Proof.
  induction p as [|y p IH]; cbn. { destruct (rsig_eqb x q); auto. }
  destruct (rsig_eqb y q); auto. rewrite IH. destruct (pos q p); cbn; auto. destruct (rsig_eqb x q); auto.
Qed.
Lemma vmap_other {A} (f : nat -> A) z p q W : ~ In q W -> map (vmap f z (p ++ [q])) W = map (vmap f z p) W.
Proof.
  intros N. apply map_ext_in. intros x I. unfold vmap. rewrite pos_snoc. destruct (pos x p); auto.
  destruct (rsig_eqb q x) eqn:E; auto. apply rsig_eqb_ok in E. subst. tauto.
Qed.
Lemma vmap_upd {A} (f : nat -> A) z p q W j : NoDup W -> pos q p = None -> pos q W = Some j ->
  upd j (fun _ => f (length p)) (map (vmap f z p) W) = map (vmap f z (p ++ [q])) W.
Proof.
  intros N P. revert j; induction W as [|x W IH]; cbn [pos]; intros j E; [discriminate|]. inversion N; subst.
  destruct (rsig_eqb x q) eqn:Q.
  - apply rsig_eqb_ok in Q. subst x. inversion E; subst j. cbn [map upd]. f_equal.
    + unfold vmap. rewrite pos_snoc, P, rsig_refl. reflexivity.
    + now rewrite vmap_other.
  - destruct (pos q W) eqn:PW; cbn in E; [|discriminate]. inversion E; subst j. cbn [map upd]. f_equal; [|auto].
    unfold vmap. rewrite pos_snoc. destruct (pos x p); auto. destruct (rsig_eqb q x) eqn:Q'; auto.
    apply rsig_eqb_ok in Q'. subst. rewrite rsig_refl in Q. discriminate.
Qed.
Section Row.
Context (t : sigtab) (l : list rsig) (g : gnss) (h : text) (cs : list ocol).
Hypothesis T : tab_ok t l. Hypothesis NL : NoDup l.
Hypothesis H3 : length h = 3%nat. Hypothesis FC : Forall ocol_ok cs. Hypothesis LG : legible fl cs.
Notation W := (want l g).
Definition row_of (p : list rsig) : orow :=
  OROW (map (vmap (cval cs) zero p) (W TC)) (map (vmap (cval cs) zero p) (W TL)) (map (vmap (clli cs) 0 p) (W TL))
       (map (vmap (cval cs) zero p) (W TD)) (map (vmap (cval cs) zero p) (W TS)).
Lemma vmap_nil {A} (f : nat -> A) z X : map (vmap f z []) X = repeat z (length X).
Proof. induction X; cbn; auto. now rewrite IHX. Qed.
Lemma row_nil : row_new zero t g = row_of [].
Proof. unfold row_new, row_of. rewrite !vmap_nil. destruct T as (T1 & _). now rewrite !T1. Qed.
Lemma W_nodup ty : NoDup (W ty). Proof. now apply NoDup_filter. Qed.
Lemma row_step p q : ~ In q p -> rsys q = g ->
  put_obs zero fl t g (h ++ flat_map ocol_text cs ++ [nl]) (Z.of_nat (length p), q) (row_of p) = Some (row_of (p ++ [q])).
Proof.
  intros NP G. unfold put_obs. rewrite Nat2Z.id. rewrite (proj1 T).
  destruct (pos q p) eqn:PP. { exfalso. apply NP. apply pos_in. congruence. }
  assert (NW : forall ty, ty <> rtyp q -> ~ In q (W ty)) by (intros ty D I; apply in_want in I as (_ & _ & I); congruence).
  destruct (pos q (W (rtyp q))) as [j|] eqn:PW.
  - destruct (col_read h cs (length p) H3 FC LG) as [C1 C2]. rewrite C1, C2. cbn [bind]. f_equal.
    pose proof (W_nodup (rtyp q)) as ND. unfold row_of.
    destruct (rtyp q) eqn:TY; cbn [w_pr w_cp w_ll w_dp w_cn];
    f_equal; first [apply vmap_upd; assumption | symmetry; apply vmap_other; apply NW; congruence].
  - assert (NI : ~ In q (W (rtyp q))). { intros I. apply pos_in in I. congruence. }
    assert (NA : forall ty, ~ In q (W ty)). { intros ty. destruct (typ_eqb ty (rtyp q)) eqn:E; [apply typ_ok in E; now subst|]. apply NW. intros X; subst. rewrite (proj2 (typ_ok _ _) eq_refl) in E. discriminate. }
    f_equal. unfold row_of. now rewrite !vmap_other by apply NA.
Qed.
Lemma row_all types : NoDup types -> Forall (fun q => rsys q = g) types ->
  mfold (put_obs zero fl t g (h ++ flat_map ocol_text cs ++ [nl])) (numbered types) (row_new zero t g) = Some (row_of types).
Proof.
  intros N F. rewrite row_nil. enough (X : forall p r, NoDup (p ++ r) -> Forall (fun q => rsys q = g) r ->
    mfold (put_obs zero fl t g (h ++ flat_map ocol_text cs ++ [nl])) (combine (map Z.of_nat (seq (length p) (length r))) r) (row_of p) = Some (row_of (p ++ r))).
  { apply (X [] types); auto. }
  clear N F. intros p r; revert p. induction r as [|q r IH]; intros p N F; cbn [length seq map combine mfold].
  - now rewrite app_nil_r.
  - inversion F; subst. rewrite row_step; [|intros I; apply NoDup_remove_2 in N; apply N; apply in_or_app; auto|auto]. cbn [bind].
    replace (S (length p)) with (length (p ++ [q])) by (rewrite app_length; cbn; lia).
    rewrite IH; auto; rewrite <- app_assoc; auto.
Qed.
End Row.

(* ---------- an epoch ---------- *)
Section Epoch.
Context (fsec : text -> option Z) (U : Z) (hdr : gnss -> option (list rsig)) (m : dict gnss (dict Z rsig)) (t : sigtab) (l : list rsig).
Hypothesis T : tab_ok t l. Hypothesis NL : NoDup l.
Hypothesis HM : forall g, gget g m = option_map numbered (hdr g).
Hypothesis HT : forall g ty, hdr g = Some ty -> NoDup ty /\ Forall (fun q => rsys q = g) ty.
Definition types_of (s : osat) : list rsig := match hdr (s_sys s) with Some x => x | None => [] end.
Definition sat_row (s : osat) : Z * orow := (prn2sat (s_sys s) (osat_prn s), row_of l (s_sys s) (s_cols s) (types_of s)).
Lemma letter_sys g : g <> NONE -> char2sys (match g with GPS => "G" | GLO => "R" | GAL => "E" | BDS => "C" | QZS => "J" | SBS => "S" | IRN => "I" | NONE => "?" end)%char = g.
Proof. destruct g; auto; congruence. Qed.
Lemma want_sys g : (exists d, gget g t = Some d) <-> existsb (fun q => gnss_eqb (rsys q) g) l = true.
Proof.
  rewrite (proj1 (proj2 T)), existsb_exists. split; intros (q & I & E); exists q; split; auto; now apply gnss_ok.
Qed.
Lemma sat_line_ok s : osat_ok s -> (wanted hdr l s = true -> legible fl (s_cols s)) ->
  sat_line zero fl m t (osat_text s) = Some (if wanted hdr l s then Some (sat_row s) else None).
Proof.
  intros (G & ID & FC) LG. unfold osat_text. set (c := match s_sys s with GPS => _ | _ => _ end).
  unfold sat_line. rewrite (letter_sys _ G : char2sys c = s_sys s). rewrite HM. unfold wanted in *. unfold sat_row, types_of.
  destruct (hdr (s_sys s)) as [ty|] eqn:E; cbn [option_map]; auto.
  pose proof (want_sys (s_sys s)) as WS.
  destruct (existsb _ l) eqn:X.
  - destruct WS as [_ WS]. destruct (WS eq_refl) as [d D]. rewrite D.
    replace (pyint (sub 1 3 (c :: I22 (s_id s) ++ flat_map ocol_text (s_cols s) ++ [nl]))) with (Some (s_id s)).
    2:{ symmetry. change (sub 1 3 _) with (I22 (s_id s)). apply i22_ok. lia. }
    cbn [bind]. destruct (HT _ _ E) as [N F].
    pose proof (row_all t l (s_sys s) (c :: I22 (s_id s)) (s_cols s) T NL eq_refl FC (LG eq_refl) ty N F) as R.
    cbn [app] in R. rewrite R. reflexivity.
  - destruct (gget (s_sys s) t) eqn:D; auto. exfalso. destruct WS as [WS _]. specialize (WS (ex_intro _ _ eq_refl)). discriminate WS.
Qed.
Lemma sat_lines_ok ss : forall acc f, Forall osat_ok ss -> Forall (fun s => wanted hdr l s = true -> legible fl (s_cols s)) ss ->
  sat_lines zero fl (length ss) m t (map osat_text ss ++ f) acc = Some (acc ++ map sat_row (filter (wanted hdr l) ss), f).
Proof.
  induction ss as [|s ss IH]; intros acc f O L; cbn [length map app sat_lines readline filter].
  - now rewrite app_nil_r.
  - inversion O; inversion L; subst. rewrite sat_line_ok by auto. cbn [bind]. destruct (wanted hdr l s); rewrite IH by auto; auto.
    cbn [map]. now rewrite <- app_assoc.
Qed.
Lemma chunks_flat {A B} (f : A -> list B) k rows : Forall (fun r => length (f r) = k) rows ->
  chunks (length rows) k (flat_map f rows) = map f rows.
Proof.
  induction 1 as [|r rows R F IH]; cbn [length chunks flat_map map]; auto. rewrite firstn_at, skipn_at by auto. now rewrite IH.
Qed.
Lemma flat_len_eq {A B} (f : A -> list B) k rows : Forall (fun r => length (f r) = k) rows -> length (flat_map f rows) = (length rows * k)%nat.
Proof. induction 1 as [|r rows R F IH]; cbn [length flat_map]; auto. rewrite app_length. lia. Qed.
Lemma flat_len_lt {A B} (f : A -> list B) k rows : Forall (fun r => (length (f r) <= k)%nat) rows ->
  (length (flat_map f rows) <= length rows * k)%nat /\ ((exists r, In r rows /\ (length (f r) < k)%nat) -> (length (flat_map f rows) < length rows * k)%nat).
Proof.
  induction 1 as [|r rows R F [IH1 IH2]]; cbn [length flat_map]; rewrite ?app_length.
  - split; [lia|]. intros (r & [] & _).
  - split; [lia|]. intros (x & [<-|I] & L); [lia|]. specialize (IH2 (ex_intro _ x (conj I L))). lia.
Qed.
Lemma reshape_ok {A B} (f : A -> list B) k rows : Forall (fun r => length (f r) = k) rows ->
  reshape (length rows) k (flat_map f rows) = Some (map f rows).
Proof. intros F. unfold reshape. now rewrite (flat_len_eq f k rows F), Nat.eqb_refl, chunks_flat. Qed.
Lemma reshape_bad {A B} (f : A -> list B) k rows r : Forall (fun r => (length (f r) <= k)%nat) rows -> In r rows -> (length (f r) < k)%nat ->
  reshape (length rows) k (flat_map f rows) = None.
Proof.
  intros F I L. unfold reshape. replace (_ =? _)%nat with false; auto. symmetry. apply Nat.eqb_neq.
  pose proof (proj2 (flat_len_lt f k rows F) (ex_intro _ r (conj I L))). lia.
Qed.
Notation kept := (RnxSpec.kept hdr l).
Notation uniform := (RnxSpec.uniform hdr l).
Lemma arr_len s : let w := snd (sat_row s) in let n ty := length (want l (s_sys s) ty) in
  length (w_pr w) = n TC /\ length (w_cp w) = n TL /\ length (w_ll w) = n TL /\ length (w_dp w) = n TD /\ length (w_cn w) = n TS.
Proof. cbn. rewrite !map_length. auto. Qed.
Lemma uni_nsig e s ty : uniform e -> In s (kept e) -> In ty otypes -> length (want l (s_sys s) ty) = nsig t ty.
Proof.
  intros UN I TY. pose proof (nsig_ge t l (s_sys s) ty T). destruct (nsig_hit t l ty T) as [Z|[g Z]]; [lia|].
  pose proof (UN s ty g I TY). lia.
Qed.
Definition mkobs (e : oepoch) (sec : Z) : oobs :=
  let r := map sat_row (kept e) in
  OOBS (epoch2time U (EP (e_y e) (e_mo e) (e_d e) (e_h e) (e_mi e) sec)) (map fst r) (map (fun r => w_pr (snd r)) r) (map (fun r => w_cp (snd r)) r)
       (map (fun r => w_ll (snd r)) r) (map (fun r => w_dp (snd r)) r) (map (fun r => w_cn (snd r)) r).
Definition epoch_line (e : oepoch) : text := hd [] (oepoch_lines e).
Lemma fields e : oepoch_ok e -> exists q, epoch_line e = lit "> " ++ q /\
  pyint (sub 32 35 (epoch_line e)) = Some (Z.of_nat (length (e_sats e))) /\
  pyint (sub 2 6 (epoch_line e)) = Some (e_y e) /\ pyint (sub 7 9 (epoch_line e)) = Some (e_mo e) /\
  pyint (sub 10 12 (epoch_line e)) = Some (e_d e) /\ pyint (sub 13 15 (epoch_line e)) = Some (e_h e) /\
  pyint (sub 16 18 (epoch_line e)) = Some (e_mi e) /\ sub 19 29 (epoch_line e) = e_sec e.
Proof.
  intros (Y & MO & D & H & MI & S & N & _). unfold epoch_line, oepoch_lines. cbn [hd].
  eexists. split; [reflexivity|].
  split. { set (pre := lit "> " ++ _). rewrite <- (i3_ok (Z.of_nat (length (e_sats e)))) by lia. f_equal.
    change pre with ((lit "> " ++ I4 (e_y e) ++ [sp] ++ I22 (e_mo e) ++ [sp] ++ I22 (e_d e) ++ [sp] ++ I22 (e_h e) ++ [sp] ++ I22 (e_mi e) ++ [sp]) ++
      e_sec e ++ [sp; sp; e_flag e] ++ I3 (Z.of_nat (length (e_sats e))) ++ [nl]).
    rewrite app_assoc, (app_assoc _ [sp; sp; e_flag e]). rewrite sub_app by (rewrite !app_length, S; reflexivity).
    apply firstn_at, i3_len. }
  split; [change (sub 2 6 _) with (I4 (e_y e)); apply i4_ok; lia|].
  split; [change (sub 7 9 _) with (I22 (e_mo e)); apply i22_ok; lia|].
  split; [change (sub 10 12 _) with (I22 (e_d e)); apply i22_ok; lia|].
  split; [change (sub 13 15 _) with (I22 (e_h e)); apply i22_ok; lia|].
  split; [change (sub 16 18 _) with (I22 (e_mi e)); apply i22_ok; lia|].
  set (pre := lit "> " ++ _).
  change pre with ((lit "> " ++ I4 (e_y e) ++ [sp] ++ I22 (e_mo e) ++ [sp] ++ I22 (e_d e) ++ [sp] ++ I22 (e_h e) ++ [sp] ++ I22 (e_mi e) ++ [sp]) ++
      e_sec e ++ [sp; sp; e_flag e] ++ I3 (Z.of_nat (length (e_sats e))) ++ [nl]).
  rewrite sub_app by reflexivity. apply firstn_at. exact S.
Qed.
Notation dec := (decode_obs zero fl fsec U m t).
Lemma junk_skip junk f : Forall (fun x => exists c r, x = c :: r /\ c <> ">"%char) junk -> dec (junk ++ f) = dec f.
Proof.
  induction 1 as [|x junk (c & r & -> & C) F IH]; auto. cbn [app decode_obs].
  replace (Ascii.eqb c ">") with false by (symmetry; apply Ascii.eqb_neq; auto). exact IH.
Qed.
Lemma epoch_read e sec rest : oepoch_ok e -> fsec (e_sec e) = Some sec -> Forall (fun s => wanted hdr l s = true -> legible fl (s_cols s)) (e_sats e) ->
  (uniform e -> dec (oepoch_lines e ++ rest) = Some (Some (mkobs e sec), rest)) /\
  (~ uniform e -> dec (oepoch_lines e ++ rest) = None).
Proof.
  intros O S L. destruct (fields e O) as (q & E & N & Y & MO & D & H & MI & SE).
  change (oepoch_lines e) with (epoch_line e :: map osat_text (e_sats e)).
  assert (HD : exists r, epoch_line e = ">"%char :: r) by (rewrite E; cbn; eauto). destruct HD as [r HD].
  assert (X : dec ((epoch_line e :: map osat_text (e_sats e)) ++ rest) =
    (let rows := map sat_row (kept e) in
        do P <- reshape (length rows) (nsig t TC) (flat_map (fun r => w_pr (snd r)) rows);
        do L <- reshape (length rows) (nsig t TL) (flat_map (fun r => w_cp (snd r)) rows);
        do D <- reshape (length rows) (nsig t TD) (flat_map (fun r => w_dp (snd r)) rows);
        do cn <- reshape (length rows) (nsig t TS) (flat_map (fun r => w_cn (snd r)) rows);
        do ll <- reshape (length rows) (nsig t TL) (flat_map (fun r => w_ll (snd r)) rows);
        Some (Some (OOBS (epoch2time U (EP (e_y e) (e_mo e) (e_d e) (e_h e) (e_mi e) sec)) (map fst rows) P L ll D cn), rest))).
  { cbn [app decode_obs]. rewrite HD. rewrite <- HD. cbn [Ascii.eqb Bool.eqb negb].
    rewrite N, Y, MO, D, H, MI, SE, S. cbn [bind]. rewrite Nat2Z.id, sat_lines_ok; auto. now destruct O as (_ & _ & _ & _ & _ & _ & _ & O). }
  rewrite X. clear X. cbv zeta.
  assert (LE : forall s ty, (length (want l (s_sys s) ty) <= nsig t ty)%nat) by (intros; now apply nsig_ge).
  split.
  - intros UN. set (rows := map sat_row (kept e)).
    assert (EQ : forall ty (f : orow -> list V), In ty otypes -> (forall s, length (f (snd (sat_row s))) = length (want l (s_sys s) ty)) ->
       Forall (fun r : Z * orow => length (f (snd r)) = nsig t ty) rows).
    { intros ty f TY FL. apply Forall_forall. intros x I. apply in_map_iff in I as (s & <- & I). rewrite FL. now apply (uni_nsig e). }
    rewrite (reshape_ok (fun r => w_pr (snd r))) by (apply (EQ TC); [cbn; auto|apply arr_len]).
    rewrite (reshape_ok (fun r => w_cp (snd r))) by (apply (EQ TL); [cbn; auto|apply arr_len]).
    rewrite (reshape_ok (fun r => w_dp (snd r))) by (apply (EQ TD); [cbn; auto|apply arr_len]).
    rewrite (reshape_ok (fun r => w_cn (snd r))) by (apply (EQ TS); [cbn; auto|apply arr_len]).
    rewrite (reshape_ok (fun r => w_ll (snd r))).
    2:{ apply Forall_forall. intros x I. apply in_map_iff in I as (s & <- & I). rewrite (proj1 (proj2 (proj2 (arr_len s)))). apply (uni_nsig e); cbn; auto. }
    reflexivity.
  - intros UN. set (rows := map sat_row (kept e)).
    assert (B : exists s ty, In s (kept e) /\ In ty otypes /\ (length (want l (s_sys s) ty) < nsig t ty)%nat).
    { assert (DEC : Forall (fun s => Forall (fun ty => length (want l (s_sys s) ty) = nsig t ty) otypes) (kept e) \/
                    exists s ty, In s (kept e) /\ In ty otypes /\ (length (want l (s_sys s) ty) < nsig t ty)%nat).
      { induction (kept e) as [|s k IH]; [left; constructor|]. destruct IH as [IH|(s' & ty & I & R)]; [|right; exists s', ty; split; [right; auto|auto]].
        assert (Q : forall ty, length (want l (s_sys s) ty) = nsig t ty \/ (length (want l (s_sys s) ty) < nsig t ty)%nat) by (intros ty; specialize (LE s ty); lia).
        destruct (Q TC), (Q TL), (Q TD), (Q TS);
          try (right; eexists s, _; split; [left; reflexivity|]; split; [|eassumption]; unfold otypes; cbn; tauto).
        left. constructor; auto. unfold otypes. repeat (constructor; auto). }
      destruct DEC as [DEC|DEC]; auto. exfalso. apply UN. intros s ty g' I TY.
      rewrite (proj1 (Forall_forall _ _) (proj1 (Forall_forall _ _) DEC s I) ty TY). now apply nsig_ge. }
    destruct B as (s & ty & I & TY & LT).
    assert (LEs : forall ty (f : orow -> list V), (forall s, length (f (snd (sat_row s))) = length (want l (s_sys s) ty)) ->
       Forall (fun r : Z * orow => (length (f (snd r)) <= nsig t ty)%nat) rows).
    { intros ty' f FL. apply Forall_forall. intros x J. apply in_map_iff in J as (s' & <- & J). rewrite FL. apply LE. }
    assert (IR : In (sat_row s) rows) by (now apply in_map).
    destruct TY as [<-|[<-|[<-|[<-|[]]]]].
    + rewrite (reshape_bad (fun r => w_pr (snd r)) (nsig t TC) rows (sat_row s)); [reflexivity|apply (LEs TC), arr_len|auto|]. now rewrite (proj1 (arr_len s)).
    + destruct (reshape (length rows) (nsig t TC) _); [|reflexivity]. cbn [bind].
      rewrite (reshape_bad (fun r => w_cp (snd r)) (nsig t TL) rows (sat_row s)); [reflexivity|apply (LEs TL), arr_len|auto|]. now rewrite (proj1 (proj2 (arr_len s))).
    + destruct (reshape (length rows) (nsig t TC) _); [|reflexivity]. cbn [bind]. destruct (reshape (length rows) (nsig t TL) _); [|reflexivity]. cbn [bind].
      rewrite (reshape_bad (fun r => w_dp (snd r)) (nsig t TD) rows (sat_row s)); [reflexivity|apply (LEs TD), arr_len|auto|].
      now rewrite (proj1 (proj2 (proj2 (proj2 (arr_len s))))).
    + destruct (reshape (length rows) (nsig t TC) _); [|reflexivity]. cbn [bind]. destruct (reshape (length rows) (nsig t TL) _); [|reflexivity]. cbn [bind].
      destruct (reshape (length rows) (nsig t TD) _); [|reflexivity]. cbn [bind].
      rewrite (reshape_bad (fun r => w_cn (snd r)) (nsig t TS) rows (sat_row s)); [reflexivity|apply (LEs TS), arr_len|auto|].
      now rewrite (proj2 (proj2 (proj2 (proj2 (arr_len s))))).
Qed.
Lemma sig_value_ok types cs q : NoDup types -> Forall ocol_ok cs -> legible fl cs -> sig_value zero fl types cs q (vmap (cval cs) zero types q).
Proof.
  intros N F LG. unfold sig_value, vmap. split.
  - intros i c I C. rewrite (nth_pos _ _ _ N I). unfold cval. rewrite C. unfold col_value.
    pose proof (proj1 (Forall_forall _ _) LG _ (nth_error_In _ _ C)) as [X|[v X]]; [now rewrite X|].
    destruct (c_txt c); auto. now rewrite X.
  - intros H. destruct (pos q types) as [i|] eqn:P; auto. apply pos_nth in P. unfold cval.
    destruct (nth_error cs i) eqn:C; auto. destruct (H i o P C).
Qed.
Lemma sig_lli_ok types cs q : NoDup types -> sig_lli types cs q (vmap (clli cs) 0 types q).
Proof.
  intros N. unfold sig_lli, vmap, clli. destruct (pos q types) as [i|] eqn:P.
  - apply pos_nth in P. destruct (nth_error cs i) as [c|] eqn:C.
    + destruct (Ascii.eqb_spec (c_lli c) "1") as [E|E].
      * split; auto. intros _. exists i, c. auto.
      * split; [discriminate|]. intros (j & c' & J & C' & E'). rewrite (proj1 (NoDup_nth_error types) N i j) in C.
        -- congruence.
        -- apply nth_error_Some. congruence.
        -- congruence.
    + split; [discriminate|]. intros (j & c' & J & C' & E'). assert (i = j). { apply (proj1 (NoDup_nth_error types) N); [apply nth_error_Some; congruence|congruence]. } congruence.
  - split; [discriminate|]. intros (j & c' & J & C' & E'). apply nth_error_In, pos_in in J. congruence.
Qed.
End Epoch.
End V.

(* ---------- pairing ---------- *)
Section Sync.
Context {A B : Type} (U th : Z) (ta : A -> gtime) (tb : B -> gtime).
Notation near a b := (Z.abs (timediff U (ta a) (tb b)) <= th).
Lemma td3 x y z : timediff U x z = timediff U x y + timediff U y z.
Proof. unfold timediff. lia. Qed.
Lemma sync_ok fuel : 0 <= th -> forall fa fb, incr U ta fa -> incr U tb fb -> (length fa + length fb <= fuel)%nat ->
  match sync_loop fuel U th ta tb fa fb with
  | Some (a, b, ra, rb) => exists sa sb, fa = sa ++ a :: ra /\ fb = sb ++ b :: rb /\ near a b /\
      (forall x y, In x sa -> In y fb -> ~ near x y) /\ (forall x y, In x fa -> In y sb -> ~ near x y)
  | None => forall x y, In x fa -> In y fb -> ~ near x y
  end.
Proof.
  intros TH. induction fuel as [|fuel IH]; intros fa fb IA IB L.
  - destruct fa; [|cbn in L; lia]. cbn. tauto.
  - cbn [sync_loop]. destruct fa as [|a fa]; [now intros x y []|]. destruct fb as [|b fb]; [now intros x y _ []|].
    destruct (Z.leb_spec (Z.abs (timediff U (ta a) (tb b))) th) as [E|E].
    + exists [], []. repeat split; auto.
    + destruct IA as [FA IA]. destruct IB as [FB IB]. cbn [length] in L. rewrite Z.gtb_ltb.
      destruct (Z.ltb_spec th (timediff U (ta a) (tb b))) as [G|G].
      * assert (SK : forall x, In x (a :: fa) -> ~ near x b).
        { intros x [<-|I]; [lia|]. pose proof (proj1 (Forall_forall _ _) FA x I) as X. cbv beta in X. pose proof (td3 (ta x) (ta a) (tb b)). lia. }
        specialize (IH (a :: fa) fb (conj FA IA) IB ltac:(cbn [length]; lia)).
        destruct (sync_loop fuel U th ta tb (a :: fa) fb) as [[[[x y] ra] rb]|].
        -- destruct IH as (sa & sb & Ea & Eb & N & P & Q). exists sa, (b :: sb). split; auto. split; [now rewrite Eb|]. split; auto. split.
           ++ intros u v I [<-|J]; [|now apply P]. apply SK. rewrite Ea. apply in_or_app. auto.
           ++ intros u v I [<-|J]; [now apply SK|now apply Q].
        -- intros x y I [<-|J]; [now apply SK|now apply IH].
      * assert (G' : timediff U (ta a) (tb b) < - th) by lia.
        assert (SK : forall y, In y (b :: fb) -> ~ near a y).
        { intros y [<-|I]; [lia|]. pose proof (proj1 (Forall_forall _ _) FB y I) as X. cbv beta in X. pose proof (td3 (ta a) (tb b) (tb y)).
          assert (timediff U (tb b) (tb y) = - timediff U (tb y) (tb b)) by (unfold timediff; lia). lia. }
        specialize (IH fa (b :: fb) IA (conj FB IB) ltac:(cbn [length]; lia)).
        destruct (sync_loop fuel U th ta tb fa (b :: fb)) as [[[[x y] ra] rb]|].
        -- destruct IH as (sa & sb & Ea & Eb & N & P & Q). exists (a :: sa), sb. split; [now rewrite Ea|]. split; auto. split; auto. split.
           ++ intros u v [<-|I] J; [now apply SK|now apply P].
           ++ intros u v [<-|I] J; [|now apply Q]. apply SK. rewrite Eb. apply in_or_app. auto.
        -- intros x y [<-|I] J; [now apply SK|now apply IH].
Qed.
End Sync.
