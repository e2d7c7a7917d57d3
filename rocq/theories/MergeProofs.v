(** Merging does what MergeSpec.v says. *)
From Verif Require Import CssrState CssrFacts MergeModel MergeSpec Base BaseFacts.
Notation length := List.length.
Open Scope Z_scope.

Lemma fld_eqb_refl f : fld_eqb f f = true. Proof. destruct f; reflexivity. Qed.
Lemma fld_eqb_ok a b : fld_eqb a b = true -> a = b. Proof. destruct a, b; (discriminate || reflexivity). Qed.
Lemma mem_in x l : mem x l = true <-> In x l.
Proof.
  unfold mem. rewrite existsb_exists. split; [intros (y & H & E); apply Z.eqb_eq in E; congruence|]. intros H. exists x. split; [exact H|apply Z.eqb_refl].
Qed.
Lemma nodup_app {A} (l l' : list A) : NoDup (l ++ l') -> NoDup l /\ NoDup l'.
Proof.
  induction l as [|a l IH]; cbn; intros N; [split; [constructor|exact N]|]. inversion N as [|? ? Na N']; subst. destruct (IH N') as [H1 H2].
  split; [constructor; [|exact H1]|exact H2]. intros H. apply Na, in_or_app. now left.
Qed.
Section M.
Context {V : Type}.
Variable o : dicts V.
Variable sat : Z.
Lemma copyl_ok : forall fs s, NoDup fs -> (forall f, In f fs -> look o f sat <> None) -> (forall f, s f <> None) ->
  exists s', copyl o sat fs s = Some s' /\ (forall f, s' f <> None) /\ (forall f, In f fs -> look s' f sat = look o f sat) /\
    (forall f x, ~ In f fs \/ x <> sat -> look s' f x = look s f x).
Proof.
  induction fs as [|f fs IH]; intros s N Ho Hs; [exists s; cbn; repeat split; auto; contradiction|]. inversion N as [|? ? Nf N']; subst.
  cbn [copyl]. pose proof (Ho f (or_introl eq_refl)) as Hf. unfold look in Hf. destruct (o f) as [d|] eqn:Ed; [|congruence]. cbn [bind].
  destruct (zget sat d) as [v|] eqn:Ev; [|congruence]. cbn [bind]. pose proof (Hs f) as Hsf. destruct (s f) as [t|] eqn:Et; [|congruence]. cbn [bind].
  destruct (IH (fun g => if fld_eqb g f then Some (zset sat v t) else s g) N') as (s' & E & A & B & C).
  { intros g Hg. apply Ho. now right. }
  { intros g. destruct (fld_eqb g f); [discriminate|apply Hs]. }
  exists s'. split; [exact E|]. split; [exact A|]. split.
  - intros g [<-|Hg]; [|now apply B]. rewrite C by (now left). unfold look. rewrite fld_eqb_refl, Ed, zget_zset_same. symmetry. exact Ev.
  - intros g x H. rewrite C by (destruct H as [H|H]; [left; intros K; apply H; now right|now right]). unfold look.
    destruct (fld_eqb g f) eqn:Eg; [|reflexivity]. apply fld_eqb_ok in Eg. subst g. rewrite Et.
    destruct H as [H|H]; [exfalso; apply H; now left|]. apply zget_zset_other. congruence.
Qed.
Lemma groups_ok : forall gs s, NoDup (flat_map snd gs) -> (forall f, o f <> None) -> (forall f, s f <> None) ->
  (forall m fs f, In (m, fs) gs -> In f fs -> look o m sat <> None -> look o f sat <> None) ->
  exists s', groups o sat gs s = Some s' /\ (forall f, s' f <> None) /\
    (forall m fs f, In (m, fs) gs -> In f fs -> look o m sat <> None -> look s' f sat = look o f sat) /\
    (forall f x, x <> sat \/ (forall m fs, In (m, fs) gs -> In f fs -> look o m sat = None) -> look s' f x = look s f x).
Proof.
  induction gs as [|[m fs] gs IH]; intros s N Ho Hs Hg; [exists s; cbn; repeat split; auto; contradiction|].
  cbn [flat_map snd] in N. destruct (nodup_app _ _ N) as [N1 N2].
  assert (ND : forall m' fs' f, In (m', fs') gs -> In f fs' -> ~ In f fs).
  { intros m' fs' f H1 H2 H3. assert (H4 : In f (flat_map snd gs)) by (apply in_flat_map; exists (m', fs'); now split). clear - N H3 H4.
    induction fs as [|a l IHl]; [contradiction|]. cbn in N. inversion N as [|? ? Na N']; subst. destruct H3 as [->|H3]; [apply Na, in_or_app; now right|now apply IHl]. }
  cbn [groups]. pose proof (Ho m) as Hm. destruct (o m) as [d|] eqn:Ed; [|congruence]. cbn [bind].
  assert (S1 : exists s1, match zget sat d with Some _ => copyl o sat fs s | None => Some s end = Some s1 /\ (forall f, s1 f <> None) /\
    (forall f, In f fs -> look o m sat <> None -> look s1 f sat = look o f sat) /\
    (forall f x, x <> sat \/ ~ In f fs \/ look o m sat = None -> look s1 f x = look s f x)).
  { destruct (zget sat d) as [v|] eqn:Ev.
    - assert (Hl : look o m sat <> None) by (unfold look; rewrite Ed, Ev; discriminate).
      destruct (copyl_ok fs s N1) as (s1 & E & A & B & C); [intros f Hf; apply (Hg m fs f); auto; now left|exact Hs|].
      exists s1. split; [exact E|]. split; [exact A|]. split; [intros f Hf _; now apply B|]. intros f x [H|[H|H]]; [apply C; now right|apply C; now left|contradiction].
    - assert (Hl : look o m sat = None) by (unfold look; now rewrite Ed, Ev).
      exists s. split; [reflexivity|]. split; [exact Hs|]. split; [intros; contradiction|reflexivity]. }
  destruct S1 as (s1 & E1 & A1 & B1 & C1).
  match goal with |- context [bind ?x _] => replace x with (Some s1) by (symmetry; exact E1) end. cbn [bind].
  destruct (IH s1 N2 Ho A1) as (s' & E & A & B & C). { intros m' fs' f H. apply (Hg m' fs' f). now right. }
  exists s'. split; [exact E|]. split; [exact A|]. split.
  - intros m' fs' f [H|H] Hf Hl; [|now apply (B m' fs')]. injection H as <- <-. rewrite C; [now apply B1|]. right. intros m' fs' H1 H2. exfalso. exact (ND m' fs' f H1 H2 Hf).
  - intros f x H. rewrite C; [|destruct H as [H|H]; [now left|right; intros m' fs' H1; apply H; now right]].
    apply C1. destruct H as [H|H]; [now left|right].
    destruct (in_dec (fun a b : fld => ltac:(decide equality)) f fs) as [Hi|Hi]; [right; apply (H m fs); [now left|exact Hi]|now left].
Qed.
End M.
Lemma group_of f : exists fs, In (master f, fs) merge_groups /\ In f fs.
Proof. destruct f; cbn; eexists; (split; [eauto 8|cbn; auto]). Qed.
Lemma of_group m fs f : In (m, fs) merge_groups -> In f fs -> m = master f.
Proof. cbn. intros H Hf. repeat (destruct H as [H|H]; [injection H as <- <-; cbn in Hf; intuition (subst; reflexivity)|]). contradiction. Qed.
Lemma merge_one {V} (o : dicts V) sat s : (forall f, o f <> None) -> (forall f, s f <> None) -> (forall f, look o (master f) sat <> None -> look o f sat <> None) ->
  exists s', groups o sat merge_groups s = Some s' /\ (forall f, s' f <> None) /\
    (forall f, look o (master f) sat <> None -> look s' f sat = look o f sat) /\
    (forall f x, x <> sat \/ look o (master f) sat = None -> look s' f x = look s f x).
Proof.
  intros Ho Hs Hg. destruct (groups_ok o sat merge_groups s) as (s' & E & A & B & C); auto.
  - cbn. repeat constructor; cbn; intuition discriminate.
  - intros m fs f H Hf Hl. apply Hg. now rewrite <- (of_group m fs f H Hf).
  - exists s'. split; [exact E|]. split; [exact A|]. split.
    + intros f Hl. destruct (group_of f) as (fs & H & Hf). now apply (B (master f) fs).
    + intros f x [H|H]; apply C; [now left|right]. intros m fs H1 H2. now rewrite (of_group m fs f H1 H2).
Qed.
Lemma merge_list {V} (o : loc V) : (forall f, l_d o f <> None) -> forall sats s n, NoDup sats -> l_nsat s = Some n -> (forall f, l_d s f <> None) ->
  (forall f sat, In sat sats -> look (l_d o) (master f) sat <> None -> look (l_d o) f sat <> None) ->
  exists s', merge_sats o sats s = Some s' /\ l_sats s' = l_sats s ++ sats /\ l_nsat s' = Some (n + Z.of_nat (length sats)) /\
    (forall f sat, In sat sats -> look (l_d o) (master f) sat <> None -> look (l_d s') f sat = look (l_d o) f sat) /\
    (forall f sat, ~ In sat sats \/ look (l_d o) (master f) sat = None -> look (l_d s') f sat = look (l_d s) f sat).
Proof.
  intros Ho. induction sats as [|sat sats IH]; intros s n N Hn Hs Hg.
  - exists s. cbn. rewrite app_nil_r, Hn. repeat split; [f_equal; lia|contradiction].
  - inversion N as [|? ? Ns N']; subst. cbn [merge_sats]. rewrite Hn. cbn [bind].
    destruct (merge_one (l_d o) sat (l_d s) Ho Hs) as (d & -> & A & B & C); [intros f; apply Hg; now left|]. cbn [bind].
    destruct (IH (LOC (l_sats s ++ [sat]) (Some (n + 1)) d) (n + 1) N' eq_refl A) as (s' & E & L & K & P & Q). { intros f x Hx. apply Hg. now right. }
    exists s'. cbn [l_sats l_d] in *. split; [exact E|]. split; [now rewrite L, <- app_assoc|]. split; [rewrite K; cbn [length]; f_equal; lia|]. split.
    + intros f x [<-|Hx] Hl; [|now apply P]. rewrite Q by (now left). now apply B.
    + intros f x H. rewrite Q by (destruct H as [H|H]; [left; intros K1; apply H; now right|now right]).
      destruct (Z.eq_dec x sat) as [->|Hx]; [|apply C; now left]. apply C. right. destruct H as [H|H]; [exfalso; apply H; now left|exact H].
Qed.
Lemma fresh_filter {V} (o s : loc V) sat : In sat (filter (fun x => negb (mem x (l_sats s))) (l_sats o)) <-> fresh_sat o s sat.
Proof.
  rewrite filter_In. unfold fresh_sat. rewrite <- (mem_in sat (l_sats s)). destruct (mem sat (l_sats s)); cbn; intuition congruence.
Qed.
Lemma net_ok {V} (o s : loc V) : net_ready o s -> exists s', merge_net o s = Some s' /\ net_merged o s s'.
Proof.
  intros (N & Hn & Hd & Hg). destruct (l_nsat s) as [n|] eqn:En; [|congruence]. unfold merge_net.
  destruct (merge_list o (fun f => proj1 (Hd f)) (filter (fun x => negb (mem x (l_sats s))) (l_sats o)) s n) as (s' & E & L & K & P & Q); auto.
  - now apply NoDup_filter.
  - apply Hd.
  - intros f sat Hs. apply Hg. now apply fresh_filter.
  - exists s'. split; [exact E|]. split; [|split].
    + eexists. split; [exact L|]. split; [now apply NoDup_filter|]. split; [intros sat; apply fresh_filter|]. exists n. now split.
    + intros f sat Hs. apply P. now apply fresh_filter.
    + intros f sat [H|H]; apply Q; [left; rewrite fresh_filter; exact H|now right].
Qed.
Lemma sis_ok {G} (og : dict Z G) : forall sats l g, NoDup sats -> (forall x, In x sats -> zget x og <> None) ->
  exists g', merge_sis og sats l g = Some (l ++ sats, g') /\ (forall x, In x sats -> zget x g' = zget x og) /\ (forall x, ~ In x sats -> zget x g' = zget x g).
Proof.
  induction sats as [|sat sats IH]; intros l g N H; [exists g; cbn; rewrite app_nil_r; repeat split; contradiction|]. inversion N as [|? ? Ns N']; subst.
  cbn [merge_sis]. pose proof (H sat (or_introl eq_refl)) as Hs. destruct (zget sat og) as [v|] eqn:Ev; [|congruence]. cbn [bind].
  destruct (IH (l ++ [sat]) (zset sat v g) N') as (g' & E & A & B); [intros x Hx; apply H; now right|]. exists g'. rewrite <- app_assoc in E. split; [exact E|]. split.
  - intros x [<-|Hx]; [|now apply A]. rewrite B by exact Ns. rewrite zget_zset_same. congruence.
  - intros x Hx. rewrite B by (intros K; apply Hx; now right). apply zget_zset_other. intros ->. apply Hx. now left.
Qed.
Lemma nets_ok {V} : forall (os ss : list (loc V)), length os = length ss -> Forall2 net_ready os ss ->
  exists rs, merge_nets os ss = Some rs /\ length rs = length ss /\
    (forall k o s r, nth_error os k = Some o -> nth_error ss k = Some s -> nth_error rs k = Some r -> net_merged o s r).
Proof.
  induction os as [|o os IH]; intros [|s ss] L F; try discriminate.
  - exists []. split; [reflexivity|]. split; [reflexivity|]. intros [|k] o' s' r' H1; discriminate.
  - inversion F as [|? ? ? ? F1 F2]; subst. cbn [merge_nets]. destruct (net_ok o s F1) as (r & -> & M). cbn [bind].
    destruct (IH ss ltac:(cbn in L; lia) F2) as (rs & -> & L' & P). cbn [bind]. exists (r :: rs). split; [reflexivity|]. split; [cbn; lia|].
    intros [|k] o' s' r' H1 H2 H3; [cbn in H1, H2, H3; injection H1 as <-; injection H2 as <-; injection H3 as <-; exact M|]. now apply (P k o' s' r').
Qed.
Lemma merge_ok {V G} (o s : cs V G) : m_fac s = m_fac o -> NoDup (m_sats o) -> (forall x, In x (m_sats o) -> ~ In x (m_sats s) -> zget x (m_sig o) <> None) ->
  Forall2 net_ready (m_lc o) (m_lc s) ->
  exists s' add, merge_cssr o s = Some (true, s') /\ m_fac s' = m_fac s /\
    m_sats s' = m_sats s ++ add /\ NoDup add /\ (forall x, In x add <-> In x (m_sats o) /\ ~ In x (m_sats s)) /\
    (forall x, In x add -> zget x (m_sig s') = zget x (m_sig o)) /\ (forall x, ~ In x add -> zget x (m_sig s') = zget x (m_sig s)) /\
    length (m_lc s') = length (m_lc s) /\
    (forall k a b c, nth_error (m_lc o) k = Some a -> nth_error (m_lc s) k = Some b -> nth_error (m_lc s') k = Some c -> net_merged a b c).
Proof.
  intros Hf N Hg F. unfold merge_cssr. rewrite Hf, Z.eqb_refl. cbn [negb]. set (add := filter (fun x => negb (mem x (m_sats s))) (m_sats o)).
  assert (HA : forall x, In x add <-> In x (m_sats o) /\ ~ In x (m_sats s)).
  { intros x. unfold add. rewrite filter_In, <- (mem_in x (m_sats s)). destruct (mem x (m_sats s)); cbn; intuition congruence. }
  destruct (sis_ok (m_sig o) add (m_sats s) (m_sig s)) as (g' & -> & A & B); [now apply NoDup_filter|intros x Hx; apply HA in Hx as [H1 H2]; now apply Hg|]. cbn [bind].
  destruct (nets_ok (m_lc o) (m_lc s)) as (rs & -> & L & P); [clear - F; induction F; cbn; congruence|exact F|]. cbn [bind].
  eexists _, add. split; [reflexivity|]. cbn [m_fac m_sats m_sig m_lc]. split; [reflexivity|]. split; [reflexivity|]. split; [now apply NoDup_filter|]. split; [exact HA|].
  split; [exact A|]. split; [exact B|]. split; [exact L|exact P].
Qed.
