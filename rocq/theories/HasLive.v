(** A message whose pages arrive in time is delivered. *)
From Verif Require Import Base BaseFacts HasModel HasSpec HasProofs.
From Coq Require Import ZifyBool ZifyNat FinFun.
Open Scope Z_scope.

Definition got (P : list hpage) (s : hst) : Prop :=
  match P with
  | [] => mid_ s = -1 /\ rec_ s = []
  | p0 :: _ => mid_ s = p_mid p0 /\ ms_ s = p_ms p0 /\ NoDup (rec_ s) /\
      forall r, In r (rec_ s) <-> exists p, In p P /\ p_mid p = p_mid p0 /\ p_pid p - 1 = r
  end.

Lemma got_step P s p t : okpid p -> (forall q, In q P -> okpid q) -> got P s ->
  (forall p0, hd_error (P ++ [p]) = Some p0 -> ~ In (p_mid p0) (mid_dec s)) ->
  got (P ++ [p]) (store p (select p (upd_type t s))).
Proof.
  intros Ho HP Hg Hf. destruct P as [|p0 P].
  - destruct Hg as [Hm Hr]. cbn [app]. specialize (Hf p eq_refl).
    unfold select. cbn [mid_ mid_dec upd_type]. rewrite Hm, (proj2 (existsb_eqb_false _ _) Hf). cbn [Z.eqb andb negb].
    change (-1 =? -1) with true. cbn [andb]. unfold store. cbn [mid_ rec_ upd_type]. rewrite Z.eqb_refl, Hr. cbn [existsb andb negb].
    cbn [got mid_ ms_ rec_]. split; [reflexivity|]. split; [reflexivity|]. split; [repeat constructor; auto|].
    intros r. cbn. split.
    + intros [<-|[]]. exists p. auto.
    + intros (q & [<-|[]] & _ & <-). auto.
  - destruct Hg as (Hm & Hs & Hn & Hr). cbn [app got].
    assert (Hne : mid_ s <> -1) by (rewrite Hm; specialize (HP p0 (or_introl eq_refl)); unfold okpid in HP; lia).
    unfold select. cbn [mid_ mid_dec upd_type]. destruct (Z.eqb_spec (mid_ s) (-1)); [contradiction|]. cbn [andb].
    unfold store. cbn [mid_ rec_ upd_type].
    destruct (Z.eqb_spec (p_mid p) (mid_ s)) as [Ep|Ep]; cbn [andb].
    + destruct (existsb (Z.eqb (p_pid p - 1)) (rec_ s)) eqn:Ee; cbn [negb mid_ ms_ rec_ upd_type].
      * split; [exact Hm|]. split; [exact Hs|]. split; [exact Hn|]. intros r. rewrite Hr. split.
        -- intros (q & [<-|Hq] & E1 & E2); [exists p0|exists q]; (split; [|auto]); [left; reflexivity|].
           right. apply in_or_app. auto.
        -- intros (q & Hq & E1 & E2). destruct Hq as [<-|Hq]; [exists p0; split; [left; reflexivity|auto]|].
           apply in_app_or in Hq. destruct Hq as [Hq|[<-|[]]]; [exists q; split; [right; exact Hq|auto]|].
           apply existsb_exists in Ee. destruct Ee as (x & Hx & Ex). apply Z.eqb_eq in Ex. subst x.
           apply Hr. rewrite <- E2. exact Hx.
      * split; [exact Hm|]. split; [exact Hs|]. apply existsb_eqb_false in Ee. split.
        -- apply NoDup_Add with (a := p_pid p - 1) (l := rec_ s); [|auto].
           rewrite <- (app_nil_r (rec_ s)) at 1. apply Add_app.
        -- intros r. rewrite in_app_iff, Hr. split.
           ++ intros [(q & [<-|Hq] & E1 & E2)|[<-|[]]].
              ** exists p0. split; [left; reflexivity|auto].
              ** exists q. split; [right; apply in_or_app; auto|auto].
              ** exists p. split; [right; apply in_or_app; right; left; reflexivity|split; [congruence|reflexivity]].
           ++ intros (q & [<-|Hq] & E1 & E2); [left; exists p0; split; [left; reflexivity|auto]|].
              apply in_app_or in Hq. destruct Hq as [Hq|[<-|[]]]; [left; exists q; split; [right; exact Hq|auto]|].
              right. left. exact E2.
    + cbn [mid_ ms_ rec_ upd_type]. split; [exact Hm|]. split; [exact Hs|]. split; [exact Hn|]. intros r. rewrite Hr. split.
      * intros (q & [<-|Hq] & E1 & E2); [exists p0|exists q]; (split; [|auto]); [left; reflexivity|].
        right. apply in_or_app. auto.
      * intros (q & [<-|Hq] & E1 & E2); [exists p0; split; [left; reflexivity|auto]|].
        apply in_app_or in Hq. destruct Hq as [Hq|[<-|[]]]; [exists q; split; [right; exact Hq|auto]|].
        congruence.
Qed.

Lemma got_collect l : forall P s, complete l -> (forall q, In q P -> okpid q) -> got P s ->
  (forall p0, hd_error (P ++ call_pages l) = Some p0 -> ~ In (p_mid p0) (mid_dec s)) ->
  exists s', has_collect l s = (s', true) /\ got (P ++ call_pages l) s' /\ mid_dec s' = mid_dec s /\ icnt s' = icnt s.
Proof.
  induction l as [|b l IH]; intros P s Hc HP Hg Hf; cbn [has_collect].
  - exists s. unfold call_pages. cbn. rewrite app_nil_r. auto.
  - inversion Hc as [|? ? Hb Hl]; subst. rewrite has_page_ok by exact Hb.
    unfold call_pages in *. cbn [filter] in *. destruct (carries b); [|apply IH; auto].
    cbn [map] in Hf |- *.
    set (s1 := store _ _).
    assert (X : mid_dec s1 = mid_dec s /\ icnt s1 = icnt s).
    { unfold s1, store, select. destruct (_ && _); cbn [mid_ rec_ upd_type];
          match goal with |- context [if ?c then _ else _] => destruct c end; auto. }
    destruct X as [X1 X2].
    assert (H1 : got (P ++ [page_of b]) s1).
    { apply got_step; auto; [apply page_of_ok|]. intros p0 Hp. apply Hf.
      destruct P; cbn in Hp |- *; exact Hp. }
    destruct (IH (P ++ [page_of b]) s1) as (s' & E & Hs & Ed & Ei); auto.
    + intros q Hq. apply in_app_or in Hq. destruct Hq as [|[<-|[]]]; auto. apply page_of_ok.
    + rewrite X1, <- app_assoc. exact Hf.
    + exists s'. split; [exact E|]. rewrite <- app_assoc in Hs. split; [exact Hs|]. split; congruence.
Qed.

Lemma got_length p0 P s : got (p0 :: P) s -> length (rec_ s) = distinct_pages (p_mid p0) (p0 :: P).
Proof.
  intros (_ & _ & Hn & Hr). unfold distinct_pages.
  set (L := nodup _ _). set (R := map (fun r => r + 1) (rec_ s)).
  assert (HR : NoDup R).
  { unfold R. apply FinFun.Injective_map_NoDup; [|exact Hn]. intros a b. lia. }
  assert (HL : NoDup L) by apply NoDup_nodup.
  assert (HE : forall x, In x R <-> In x L).
  { intros x. unfold R, L. rewrite nodup_In, !in_map_iff. split.
    - intros (r & <- & Hx). apply Hr in Hx. destruct Hx as (q & Hq & E1 & E2). exists q. split; [lia|].
      apply filter_In. split; [exact Hq|lia].
    - intros (q & <- & Hq). apply filter_In in Hq. exists (p_pid q - 1). split; [lia|]. apply Hr.
      exists q. split; [tauto|]. split; [lia|reflexivity]. }
  replace (length (rec_ s)) with (length R) by apply map_length.
  apply Nat.le_antisymm; apply NoDup_incl_length; auto; intros x Hx; apply HE; exact Hx.
Qed.

Lemma distinct_mono mid P Q : incl P Q -> (distinct_pages mid P <= distinct_pages mid Q)%nat.
Proof.
  intros H. apply NoDup_incl_length; [apply NoDup_nodup|]. intros x. rewrite !nodup_In, !in_map_iff.
  intros (p & E & Hp). exists p. split; [exact E|]. apply filter_In in Hp. apply filter_In. split; [apply H|]; tauto.
Qed.

Section Live.
Context {Msg : Type} (solve : list Z -> list (list Z) -> option Msg).
Notation run := (cnav_run solve).
Notation st h := (fst (cnav_run solve h)).
Notation log h := (snd (cnav_run solve h)).

Lemma hist_pages_okpid h q : In q (hist_pages h) -> okpid q.
Proof. pose proof (pages_okpid h) as H. rewrite Forall_forall in H. apply H. Qed.

Lemma hd_error_app_l {A} (l l' : list A) x : hd_error l = Some x -> hd_error (l ++ l') = Some x.
Proof. destruct l; [discriminate|]. cbn. auto. Qed.

Lemma live_inv h cs tail p0 : Forall complete h -> Forall complete cs -> mid_ (st h) = -1 ->
  hd_error (hist_pages cs ++ tail) = Some p0 -> ~ In (p_mid p0) (last_ten (map fst (log h))) ->
  icnt (st h) + Z.of_nat (length cs) <= 2 * p_ms p0 ->
  Z.of_nat (distinct_pages (p_mid p0) (hist_pages cs)) < p_ms p0 ->
  log (h ++ cs) = log h /\ got (hist_pages cs) (st (h ++ cs)) /\
  mid_dec (st (h ++ cs)) = mid_dec (st h) /\ icnt (st (h ++ cs)) = icnt (st h) + Z.of_nat (length cs).
Proof.
  intros Hw Hcs Hm Hhd Hfresh.
  assert (Hd : mid_dec (st h) = last_ten (map fst (log h))) by (destruct (hinv_run solve h Hw) as [X _]; exact X).
  revert tail Hhd. induction cs as [|c cs IH] using rev_ind; intros tail Hhd Hic Hdis.
  - rewrite app_nil_r. split; [reflexivity|]. split; [|split; [reflexivity|cbn; lia]].
    destruct (hinv_run solve h Hw) as (_ & h1 & h2 & _ & (_ & _ & ps & _ & B & _ & _ & E & _)).
    split; [exact Hm|]. rewrite B, (E Hm). reflexivity.
  - apply Forall_app in Hcs. destruct Hcs as [Hcs Hc]. inversion Hc as [|? ? Hc1 _]; subst.
    rewrite hist_pages_snoc in Hdis, Hhd |- *. rewrite <- app_assoc in Hhd.
    rewrite app_length in Hic |- *. cbn [length] in *.
    assert (Hmono : (distinct_pages (p_mid p0) (hist_pages cs) <= distinct_pages (p_mid p0) (hist_pages cs ++ call_pages c))%nat)
      by (apply distinct_mono; intros x Hx; apply in_or_app; auto).
    destruct (IH Hcs _ Hhd) as (El & Hg & Ed & Ei); [lia|lia|].
    assert (Hf : forall q0, hd_error (hist_pages cs ++ call_pages c) = Some q0 -> q0 = p0).
    { intros q0 Hq. apply (hd_error_app_l _ tail) in Hq. rewrite <- app_assoc in Hq. congruence. }
    destruct (got_collect c (hist_pages cs) (st (h ++ cs)) Hc1 (hist_pages_okpid cs) Hg) as (s & Ec & Hs & Ed2 & Ei2).
    { intros q0 Hq. apply Hf in Hq. subst q0. rewrite Ed, Hd. exact Hfresh. }
    rewrite app_assoc, run_snoc. unfold cnav_step. destruct (run (h ++ cs)) as [s0 lg] eqn:Er. cbn [fst snd] in *.
    unfold decode_cnav. rewrite Ec.
    assert (Hcase : (mid_ s = -1 /\ rec_ s = []) \/
       (ms_ s = p_ms p0 /\ length (rec_ s) = distinct_pages (p_mid p0) (hist_pages cs ++ call_pages c))).
    { destruct (hist_pages cs ++ call_pages c) as [|q0 P] eqn:EP; [left; exact Hs|right].
      assert (q0 = p0) by (apply Hf; reflexivity). subst q0. split; [apply Hs|]. eapply got_length; exact Hs. }
    assert (Hnd : (ms_ s >? 0) && (Z.of_nat (length (rec_ s)) >=? ms_ s) = false).
    { destruct Hcase as [[_ ->]|[-> ->]]; [cbn; lia|lia]. }
    rewrite Hnd.
    assert (Hnr : (icnt s + 1 >? 2 * ms_ s) && negb (mid_ s =? -1) = false).
    { destruct Hcase as [[-> _]|[-> _]]; [apply andb_false_r|]. rewrite Ei2, Ei. lia. }
    rewrite Hnr. cbn [fst snd icnt mid_dec]. split; [exact El|]. split; [exact Hs|]. split; [congruence|lia].
Qed.

Lemma cnav_collects h cs c p0 : Forall complete (h ++ cs ++ [c]) -> mid_ (st h) = -1 ->
  hd_error (hist_pages (cs ++ [c])) = Some p0 -> ~ In (p_mid p0) (last_ten (map fst (log h))) ->
  icnt (st h) + Z.of_nat (length cs) <= 2 * p_ms p0 ->
  Z.of_nat (distinct_pages (p_mid p0) (hist_pages cs)) < p_ms p0 ->
  p_ms p0 <= Z.of_nat (distinct_pages (p_mid p0) (hist_pages (cs ++ [c]))) ->
  log (h ++ cs) = log h /\
  (snd (decode_cnav solve c (st (h ++ cs))) = None \/
   exists m, snd (decode_cnav solve c (st (h ++ cs))) = Some (Some m) /\
             log (h ++ cs ++ [c]) = log h ++ [(p_mid p0, m)]).
Proof.
  intros Hw Hm Hhd Hfresh Hic Hlt Hge.
  apply Forall_app in Hw. destruct Hw as [Hw Hw2]. apply Forall_app in Hw2. destruct Hw2 as [Hcs Hc].
  inversion Hc as [|? ? Hc1 _]; subst. rewrite hist_pages_snoc in Hhd, Hge.
  assert (Hd : mid_dec (st h) = last_ten (map fst (log h))) by (destruct (hinv_run solve h Hw) as [X _]; exact X).
  destruct (live_inv h cs _ p0 Hw Hcs Hm Hhd Hfresh Hic Hlt) as (El & Hg & Ed & Ei).
  split; [exact El|].
  destruct (got_collect c (hist_pages cs) (st (h ++ cs)) Hc1 (hist_pages_okpid cs) Hg) as (s & Ec & Hs & Ed2 & Ei2).
  { intros q0 Hq. assert (q0 = p0) by congruence. subst q0. rewrite Ed, Hd. exact Hfresh. }
  rewrite app_assoc, run_snoc. unfold cnav_step. destruct (run (h ++ cs)) as [s0 lg] eqn:Er. cbn [fst snd] in *.
  unfold decode_cnav. rewrite Ec.
  destruct (hist_pages cs ++ call_pages c) as [|q0 P] eqn:EP; [discriminate|]. cbn in Hhd. injection Hhd as ->.
  pose proof (got_length _ _ _ Hs) as Hlen. destruct Hs as (Hmid & Hms & _).
  assert (Hok : okpid p0).
  { apply (hist_pages_okpid (cs ++ [c])). rewrite hist_pages_snoc, EP. left. reflexivity. }
  assert (Hdv : (ms_ s >? 0) && (Z.of_nat (length (rec_ s)) >=? ms_ s) = true).
  { rewrite Hms, Hlen. unfold okpid in Hok. lia. }
  rewrite Hdv. destruct (solve _ _) as [m|]; [right|left; reflexivity].
  exists m. split; [reflexivity|]. cbn [fst snd]. rewrite Hmid, El. reflexivity.
Qed.
End Live.
