(** Page collection over arbitrary histories. *)
From Verif Require Import Base BaseFacts HasModel HasSpec.
From Coq Require Import ZifyBool ZifyNat.
Open Scope Z_scope.

Lemma fieldv_range b i n : 0 <= fieldv b i n < 2 ^ Z.of_nat n.
Proof.
  unfold fieldv. pose proof (bval_bound (slice b i n)) as H.
  assert (length (slice b i n) <= n)%nat by (unfold slice; rewrite firstn_length; lia).
  split; [lia|]. eapply Z.lt_le_trans; [apply H|]. apply Z.pow_le_mono_r; lia.
Qed.
Lemma getu_fieldv b i n : (i + n <= length b)%nat -> getu b i n = Some (fieldv b i n).
Proof. intros H. unfold getu. rewrite (proj2 (Nat.leb_le _ _) H). reflexivity. Qed.

Lemma get_bytes_ok b n : forall i, (i + 8 * n <= length b)%nat ->
  get_bytes b i n = Some (map (fun k => fieldv b (i + 8 * k) 8) (seq 0 n)).
Proof.
  induction n as [|n IH]; intros i H; [reflexivity|].
  cbn [get_bytes seq map]. rewrite getu_fieldv by lia. cbn [bind]. rewrite IH by lia. cbn [bind].
  rewrite <- seq_shift, map_map. f_equal. f_equal; [f_equal; lia|].
  apply map_ext. intros k. f_equal. lia.
Qed.

Lemma page_head_ok b : (462 <= length b)%nat ->
  page_head b = Some (if carries b then PPage (fieldv b 18 2) (p_mid (page_of b)) (p_ms (page_of b)) (p_pid (page_of b)) else PSkip).
Proof.
  intros H. unfold page_head, carries. rewrite !getu_fieldv by lia. cbn [bind].
  destruct (fieldv b 14 24 =? 11484099); [reflexivity|]. cbn [negb andb bind].
  destruct (Z.geb_spec (fieldv b 14 2) 2), (Z.ltb_spec (fieldv b 14 2) 2); try lia; reflexivity.
Qed.

(** one page, on a complete buffer *)
Definition upd_type (t : Z) (s : hst) : hst := HS (mid_dec s) (mid_ s) (ms_ s) (rec_ s) (pages_ s) (icnt s) t.
Definition select (p : hpage) (s : hst) : hst :=
  if (mid_ s =? -1) && negb (existsb (Z.eqb (p_mid p)) (mid_dec s))
  then HS (mid_dec s) (p_mid p) (p_ms p) (rec_ s) (pages_ s) (icnt s) (mtype s) else s.
Definition store (p : hpage) (s : hst) : hst :=
  if (p_mid p =? mid_ s) && negb (existsb (Z.eqb (p_pid p - 1)) (rec_ s))
  then HS (mid_dec s) (mid_ s) (ms_ s) (rec_ s ++ [p_pid p - 1])
          (splice (pages_ s) (row_ix (p_pid p - 1)) [p_data p]) (icnt s) (mtype s) else s.

Lemma has_page_ok b s : (462 <= length b)%nat ->
  has_page b s = (if carries b then store (page_of b) (select (page_of b) (upd_type (fieldv b 18 2) s)) else s, true).
Proof.
  intros H. unfold has_page. rewrite page_head_ok by exact H.
  destruct (carries b); [|reflexivity]. cbn zeta.
  fold (upd_type (fieldv b 18 2) s). fold (select (page_of b) (upd_type (fieldv b 18 2) s)).
  unfold store. destruct (_ && _); [|reflexivity].
  rewrite get_bytes_ok by lia. reflexivity.
Qed.

Definition okpid (p : hpage) : Prop := 0 <= p_mid p /\ 0 < p_ms p /\ 0 <= p_pid p < 256.
(** the invariant of a collection in progress; [P] = pages received since it could start *)
Definition coll (P : list hpage) (s : hst) : Prop :=
  length (pages_ s) = 255%nat /\ Forall okpid P /\
  exists ps, incl ps P /\ rec_ s = map (fun p => p_pid p - 1) ps /\ NoDup (map p_pid ps) /\
    Forall (fun p => p_mid p = mid_ s) ps /\
    (mid_ s = -1 -> ps = []) /\
    (mid_ s <> -1 -> exists p0 r, ps = p0 :: r /\ ms_ s = p_ms p0 /\ ~ In (mid_ s) (mid_dec s)) /\
    (Forall (fun p => p_pid p <> 0) P -> map (fun r => nth (row_ix r) (pages_ s) []) (rec_ s) = map p_data ps).

Lemma existsb_eqb_false x l : existsb (Z.eqb x) l = false <-> ~ In x l.
Proof.
  rewrite <- not_true_iff_false, existsb_exists. split; intros H.
  - intros Hx. apply H. exists x. split; [exact Hx|apply Z.eqb_refl].
  - intros (y & Hy & E). apply Z.eqb_eq in E. subst. auto.
Qed.

Lemma page_of_ok b : okpid (page_of b).
Proof.
  unfold okpid, page_of. cbn [p_mid p_ms p_pid].
  pose proof (fieldv_range b 20 5). pose proof (fieldv_range b 25 5). pose proof (fieldv_range b 30 8).
  change (2 ^ Z.of_nat 8) with 256 in *. lia.
Qed.

Lemma nth_splice1 {A} (d : A) l n x k : (n < length l)%nat ->
  nth k (splice l n [x]) d = if (k =? n)%nat then x else nth k l d.
Proof.
  intros H. rewrite nth_splice by (cbn; lia). cbn [length].
  destruct (Nat.leb_spec n k), (Nat.ltb_spec k (n + 1)), (Nat.eqb_spec k n); cbn [andb]; try lia; try reflexivity.
  subst. rewrite Nat.sub_diag. reflexivity.
Qed.

Lemma select_store P s p t : okpid p -> coll P s -> coll (P ++ [p]) (store p (select p (upd_type t s))).
Proof.
  intros Ho H.
  assert (Hinc : incl P (P ++ [p])) by (intros x Hx; apply in_or_app; auto).
  assert (Hf : Forall (fun q => p_pid q <> 0) (P ++ [p]) -> Forall (fun q => p_pid q <> 0) P /\ p_pid p <> 0).
  { intros Hq. apply Forall_app in Hq. destruct Hq as [H1 H2]. inversion H2. auto. }
  destruct H as (L & HP & ps & A & B & C & D & E & F & G).
  unfold select. cbn [mid_ mid_dec upd_type].
  destruct ((mid_ s =? -1) && negb (existsb (Z.eqb (p_mid p)) (mid_dec s))) eqn:Es.
  - (* a new message is selected and its first page stored *)
    assert (Em : mid_ s = -1) by lia. assert (Ee : existsb (Z.eqb (p_mid p)) (mid_dec s) = false) by lia.
    apply existsb_eqb_false in Ee. specialize (E Em). subst ps. cbn in B.
    unfold store. cbn [mid_ rec_ upd_type]. rewrite Z.eqb_refl, B. cbn [existsb negb andb].
    split; cbn [pages_ rec_ mid_ ms_ mid_dec]; [|split; [apply Forall_app; auto|]].
    { rewrite splice_length; [exact L|]. cbn. unfold row_ix, okpid in *. destruct (Z.ltb_spec (p_pid p - 1) 0); lia. }
    exists [p]. split; [intros x [<-|[]]; apply in_or_app; right; left; reflexivity|].
    split; [reflexivity|]. split; [repeat constructor; auto|]. split; [repeat constructor|].
    split; [unfold okpid in Ho; lia|]. split; [intros _; exists p, []; auto|].
    intros Hq. apply Hf in Hq. cbn. rewrite nth_splice1; [rewrite Nat.eqb_refl; reflexivity|].
    cbn [pages_ upd_type]; rewrite L. unfold row_ix, okpid in *. destruct (Z.ltb_spec (p_pid p - 1) 0); lia.
  - unfold store. cbn [mid_ rec_ upd_type].
    destruct ((p_mid p =? mid_ s) && negb (existsb (Z.eqb (p_pid p - 1)) (rec_ s))) eqn:Et.
    + assert (Em : p_mid p = mid_ s) by lia.
      assert (Ee : existsb (Z.eqb (p_pid p - 1)) (rec_ s) = false) by lia.
      apply existsb_eqb_false in Ee.
      assert (Hn : ~ In (p_pid p) (map p_pid ps)).
      { intros Hi. apply in_map_iff in Hi. destruct Hi as (q & Eq & Hq). apply Ee. rewrite B.
        apply in_map_iff. exists q. split; [congruence|exact Hq]. }
      split; cbn [pages_ rec_ mid_ ms_ mid_dec]; [|split; [apply Forall_app; auto|]].
      { rewrite splice_length; [exact L|]. cbn. unfold row_ix, okpid in *. destruct (Z.ltb_spec (p_pid p - 1) 0); lia. }
      exists (ps ++ [p]).
      split; [intros x Hx; apply in_app_or in Hx; apply in_or_app; destruct Hx; auto|].
      split; [rewrite map_app, B; reflexivity|].
      split. { rewrite map_app. cbn [map]. replace (map p_pid ps ++ [p_pid p]) with (map p_pid ps ++ p_pid p :: []) by reflexivity.
        apply NoDup_Add with (a := p_pid p) (l := map p_pid ps); [|auto].
        rewrite <- (app_nil_r (map p_pid ps)) at 1. apply Add_app. }
      split; [apply Forall_app; auto|].
      split; [unfold okpid in Ho; lia|].
      split. { intros Hm. destruct (F Hm) as (p0 & r & -> & E1 & E2). exists p0, (r ++ [p]). auto. }
      intros Hq. apply Hf in Hq. destruct Hq as [Hq Hp]. rewrite !map_app, <- (G Hq). cbn [map]. f_equal.
      * apply map_ext_in. intros r Hr. rewrite nth_splice1.
        2:{ cbn [pages_ upd_type]; rewrite L. unfold row_ix, okpid in *. destruct (Z.ltb_spec (p_pid p - 1) 0); lia. }
        destruct (Nat.eqb_spec (row_ix r) (row_ix (p_pid p - 1))) as [E0|]; [|reflexivity].
        exfalso. rewrite B in Hr. apply in_map_iff in Hr. destruct Hr as (q & <- & Hr).
        assert (Hqp : p_pid q <> 0) by (rewrite Forall_forall in Hq; apply Hq, A, Hr).
        apply Hn. apply in_map_iff. exists q. split; [|exact Hr].
        unfold row_ix, okpid in *.
        assert (Hqr : 0 <= p_pid q < 256) by (rewrite Forall_forall in HP; apply HP, A, Hr).
        destruct (Z.ltb_spec (p_pid p - 1) 0), (Z.ltb_spec (p_pid q - 1) 0); lia.
      * f_equal. rewrite nth_splice1; [rewrite Nat.eqb_refl; reflexivity|].
        cbn [pages_ upd_type]; rewrite L. unfold row_ix, okpid in *. destruct (Z.ltb_spec (p_pid p - 1) 0); lia.
    + split; cbn [pages_ rec_ mid_ ms_ mid_dec upd_type]; [exact L|]. split; [apply Forall_app; auto|]. exists ps.
      split; [eapply incl_tran; eauto|]. split; [exact B|]. split; [exact C|]. split; [exact D|].
      split; [exact E|]. split; [exact F|]. intros Hq. apply G, Hf, Hq.
Qed.

Lemma collect_ok l : forall P s, complete l -> coll P s ->
  exists s', has_collect l s = (s', true) /\ coll (P ++ call_pages l) s' /\
    mid_dec s' = mid_dec s /\ icnt s' = icnt s /\ (mid_ s <> -1 -> mid_ s' = mid_ s /\ ms_ s' = ms_ s).
Proof.
  induction l as [|b l IH]; intros P s Hc H; cbn [has_collect].
  - exists s. unfold call_pages. cbn. rewrite app_nil_r. auto 10.
  - inversion Hc as [|? ? Hb Hl]; subst. rewrite has_page_ok by exact Hb.
    unfold call_pages. cbn [filter]. destruct (carries b).
    + set (s1 := store _ _).
      assert (H1 : coll (P ++ [page_of b]) s1) by (apply select_store; [apply page_of_ok|exact H]).
      destruct (IH _ _ Hl H1) as (s' & E & Hs & Ed & Ei & Em). exists s'. split; [exact E|].
      split; [|split; [|split]].
      * cbn [map]. rewrite <- app_assoc in Hs. exact Hs.
      * rewrite Ed. unfold s1, store, select. destruct (_ && _); cbn [mid_ rec_ upd_type];
          match goal with |- context [if ?c then _ else _] => destruct c end; reflexivity.
      * rewrite Ei. unfold s1, store, select. destruct (_ && _); cbn [mid_ rec_ upd_type];
          match goal with |- context [if ?c then _ else _] => destruct c end; reflexivity.
      * intros Hm.
        assert (X : mid_ s1 = mid_ s /\ ms_ s1 = ms_ s).
        { unfold s1, store, select. cbn [mid_ upd_type]. destruct (Z.eqb_spec (mid_ s) (-1)); [contradiction|].
          cbn [andb mid_ upd_type]. match goal with |- context [if ?c then _ else _] => destruct c end; auto. }
        destruct X as [X1 X2]. rewrite <- X1, <- X2. apply Em. congruence.
    + apply (IH P s Hl H).
Qed.

Lemma last_ten_snoc l x : (length l <= 10 -> last_ten (l ++ [x]) = if (10 <? length (l ++ [x]))%nat then skipn 1 (l ++ [x]) else l ++ [x])%nat.
Proof.
  intros H. unfold last_ten. rewrite app_length. cbn [length].
  destruct (Nat.ltb_spec 10 (length l + 1)).
  - replace (length l + 1 - 10)%nat with 1%nat by lia. reflexivity.
  - replace (length l + 1 - 10)%nat with 0%nat by lia. reflexivity.
Qed.
Lemma last_ten_len l : (length (last_ten l) <= 10)%nat.
Proof. unfold last_ten. rewrite skipn_length. lia. Qed.
Lemma skipn_skipn {A} (l : list A) a : forall b, skipn b (skipn a l) = skipn (a + b) l.
Proof.
  revert l. induction a as [|a IH]; intros l b; [reflexivity|].
  destruct l; cbn; [apply skipn_nil|apply IH].
Qed.
Lemma last_ten_app l x : last_ten (l ++ [x]) = last_ten (last_ten l ++ [x]).
Proof.
  unfold last_ten. rewrite !app_length, skipn_length. cbn [length].
  rewrite !skipn_app, skipn_skipn, skipn_length. cbn [length]. f_equal.
  - f_equal. lia.
  - replace (length l + 1 - 10 - length l)%nat with 0%nat by lia.
    replace (length l - (length l - 10) + 1 - 10 - (length l - (length l - 10)))%nat with 0%nat by lia. reflexivity.
Qed.

Section Run.
Context {Msg : Type} (solve : list Z -> list (list Z) -> option Msg).
Notation step := (cnav_step solve).
Notation run := (cnav_run solve).
Notation st h := (fst (run h)).
Notation log h := (snd (run h)).

Lemma run_snoc h c : run (h ++ [c]) = step (run h) c.
Proof. unfold cnav_run. rewrite fold_left_app. reflexivity. Qed.

(** calls since the last delivery *)
Definition since_delivery (h h1 h2 : list (list bits)) : Prop :=
  h = h1 ++ h2 /\ log h = log h1 /\
  (h1 = [] \/ exists h0 c0, h1 = h0 ++ [c0] /\ length (log h1) = S (length (log h0))).

Definition hinv (h : list (list bits)) : Prop :=
  mid_dec (st h) = last_ten (map fst (log h)) /\
  exists h1 h2, since_delivery h h1 h2 /\ coll (hist_pages h2) (st h).

Lemma coll_empty s P : length (pages_ s) = 255%nat -> Forall okpid P -> mid_ s = -1 -> rec_ s = [] -> coll P s.
Proof.
  intros L HP Hm Hr. split; [exact L|]. split; [exact HP|]. exists []. rewrite Hr.
  split; [intros x []|]. split; [reflexivity|]. split; [constructor|]. split; [constructor|].
  split; [auto|]. split; [contradiction|]. reflexivity.
Qed.

Lemma pages_okpid h : Forall okpid (hist_pages h).
Proof.
  apply Forall_forall. intros p Hp. unfold hist_pages in Hp. apply in_concat in Hp.
  destruct Hp as (l & Hl & Hp). apply in_map_iff in Hl. destruct Hl as (c & <- & _).
  apply in_map_iff in Hp. destruct Hp as (b & <- & _). apply page_of_ok.
Qed.

Lemma coll_icnt P s ic : coll P s -> coll P (HS (mid_dec s) (mid_ s) (ms_ s) (rec_ s) (pages_ s) ic (mtype s)).
Proof. intros H. exact H. Qed.

Lemma hist_pages_snoc h c : hist_pages (h ++ [c]) = hist_pages h ++ call_pages c.
Proof. unfold hist_pages. rewrite map_app, concat_app. cbn. rewrite app_nil_r. reflexivity. Qed.

Lemma hinv_step h c : complete c -> hinv h -> hinv (h ++ [c]).
Proof.
  intros Hc (Hd & h1 & h2 & (Eh & El & Eb) & Hcoll). unfold hinv.
  destruct (collect_ok c _ _ Hc Hcoll) as (s & Ec & Hs & Ed & _ & _).
  rewrite run_snoc. unfold cnav_step. destruct (run h) as [s0 lg] eqn:Er. cbn [fst snd] in *.
  unfold decode_cnav. rewrite Ec. rewrite <- hist_pages_snoc in Hs.
  assert (Hold : forall s', (decode_cnav solve c s0 = (s', None) \/ decode_cnav solve c s0 = (s', Some None)) ->
     mid_dec s' = mid_dec s -> coll (hist_pages (h2 ++ [c])) s' ->
     mid_dec s' = last_ten (map fst lg) /\ exists h1 h2, since_delivery (h ++ [c]) h1 h2 /\ coll (hist_pages h2) s').
  { intros s' He Hm Hco. split; [congruence|]. exists h1, (h2 ++ [c]). split; [|exact Hco].
    split; [rewrite Eh, app_assoc; reflexivity|]. split; [|exact Eb].
    rewrite run_snoc, Er. unfold cnav_step. destruct He as [He|He]; rewrite He; exact El. }
  unfold decode_cnav in Hold. rewrite Ec in Hold.
  destruct ((ms_ s >? 0) && (Z.of_nat (length (rec_ s)) >=? ms_ s)) eqn:Edel.
  - destruct (solve _ _) as [m|] eqn:Esol.
    + cbn [fst snd mid_dec]. split.
      * rewrite map_app. cbn [map fst]. rewrite last_ten_app, <- Hd, <- Ed. symmetry. apply last_ten_snoc.
        rewrite Ed, Hd. apply last_ten_len.
      * exists (h ++ [c]), []. split.
        -- split; [rewrite app_nil_r; reflexivity|]. split; [reflexivity|]. right. exists h, c. split; [reflexivity|].
           rewrite run_snoc, Er. unfold cnav_step, decode_cnav. rewrite Ec, Edel, Esol. cbn [snd].
           rewrite app_length. cbn. lia.
        -- destruct Hs as (L & _). apply coll_empty; auto. constructor.
    + apply Hold; auto.
  - destruct ((icnt s + 1 >? 2 * ms_ s) && negb (mid_ s =? -1)) eqn:Eres; cbn [fst snd] in *.
    + apply Hold; auto. destruct Hs as (L & _). apply coll_empty; auto. apply pages_okpid.
    + apply Hold; auto.
Qed.

Lemma hinv_run h : Forall complete h -> hinv h.
Proof.
  induction h as [|c h IH] using rev_ind; intros Hw.
  - split; [reflexivity|]. exists [], []. split; [repeat split; auto|].
    apply coll_empty; try reflexivity; constructor.
  - apply Forall_app in Hw. destruct Hw as [Hw Hc]. apply hinv_step; [inversion Hc; auto|auto].
Qed.

Lemma cnav_delivers_only_complete h c m s' : Forall complete (h ++ [c]) ->
  decode_cnav solve c (st h) = (s', Some (Some m)) ->
  exists h1 h2 mid ps p0,
    since_delivery h h1 h2 /\
    log (h ++ [c]) = log h ++ [(mid, m)] /\
    incl ps (hist_pages (h2 ++ [c])) /\
    Forall (fun p => p_mid p = mid) ps /\ NoDup (map p_pid ps) /\
    hd_error ps = Some p0 /\ p_ms p0 <= Z.of_nat (length ps) /\
    ~ In mid (last_ten (map fst (log h))) /\
    exists rows, solve (map (fun p => p_pid p - 1) ps) rows = Some m /\
      (Forall (fun p => p_pid p <> 0) (hist_pages (h2 ++ [c])) -> rows = map p_data ps).
Proof.
  intros Hw Hdel. apply Forall_app in Hw. destruct Hw as [Hw Hc]. inversion Hc as [|? ? Hc1 _]; subst.
  destruct (hinv_run h Hw) as (Hd & h1 & h2 & Hsin & Hcoll).
  destruct (collect_ok c _ _ Hc1 Hcoll) as (s & Ec & Hs & Ed & _ & _). rewrite <- hist_pages_snoc in Hs.
  pose proof Hdel as Hdel0. unfold decode_cnav in Hdel. rewrite Ec in Hdel.
  destruct ((ms_ s >? 0) && (Z.of_nat (length (rec_ s)) >=? ms_ s)) eqn:Edel.
  2:{ destruct (_ && _) in Hdel; discriminate. }
  destruct (solve _ _) as [m'|] eqn:Esol; [|discriminate].
  assert (m' = m) by congruence. subst m'.
  destruct Hs as (L & _ & ps & A & B & C & D & E & F & G).
  assert (Hm : mid_ s <> -1).
  { intros Hm. specialize (E Hm). subst ps. rewrite B in Edel. cbn in Edel. lia. }
  destruct (F Hm) as (p0 & r & Eps & Ems & Hnin).
  exists h1, h2, (mid_ s), ps, p0. split; [exact Hsin|]. split.
  { rewrite run_snoc. unfold cnav_step. destruct (run h) as [s0 lg]. cbn [fst snd] in *.
    rewrite Hdel0, Ec. reflexivity. }
  split; [exact A|]. split; [exact D|]. split; [exact C|]. split; [rewrite Eps; reflexivity|].
  split. { rewrite <- Ems. rewrite B, map_length in Edel. lia. }
  split; [rewrite <- Hd, <- Ed; exact Hnin|].
  exists (map (fun r => nth (row_ix r) (pages_ s) []) (rec_ s)). split; [rewrite <- B; exact Esol|exact G].
Qed.
End Run.

