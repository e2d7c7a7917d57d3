From Verif Require Import BaseFacts BitProofs CssrFacts TimeModel OsnmaModel OsnmaSpec OsnmaProofs OsnmaTags OsnmaHist OsnmaStep.
From Coq Require Import ZifyBool ZifyNat.
Open Scope Z_scope.

Section A.
Variable C : crypto.
Implicit Types s : ost C.

Lemma run_app h1 : forall h2 s, run (h1 ++ h2) s = run h2 (run h1 s).
Proof. induction h1 as [|e h1 IH]; intros h2 s; cbn [run app]; [reflexivity|apply IH]. Qed.
Lemma run_snoc h e s : run (h ++ [e]) s = step e (run h s).
Proof. apply run_app. Qed.
Lemma words_snoc prn h e : words prn (h ++ [e]) =
  match e with ENav nav p tow => if p =? prn then (nav, tow) :: words prn h else words prn h | _ => words prn h end.
Proof.
  induction h as [|x h IH]; cbn [app words].
  - destruct e as [nav p tow|]; [destruct (p =? prn)|]; reflexivity.
  - destruct x as [nav' p' tow'|]; [|exact IH]. rewrite IH. destruct e as [nav p tow|]; [|reflexivity].
    destruct (p =? prn), (p' =? prn); reflexivity.
Qed.

(* ---------- the words kept are those received ---------- *)
Definition row_ok (b : bits) (l : list (bits * Z)) : Prop := length b = 1280%nat /\ forall j, 1 <= j <= 10 -> wd b j = latest j l.
Definition nav_ok (e : onav) (l : list (bits * Z)) : Prop := row_ok (n_n e) l /\ row_ok (n_p e) (older l) /\ row_ok (n_c e) (older (older l)).
Definition nav_inv (h : list event) s : Prop :=
  forall prn, match zget prn (o_nav s) with Some e => nav_ok e (words prn h) | None => words prn h = [] end.
Lemma row_zero : row_ok (zeros 1280) [].
Proof.
  split; [apply zeros_len|]. intros j H. unfold wd, zeros. cbn [latest].
  unfold slice. assert (L : (128 * Z.to_nat (j - 1) + 128 <= 1280)%nat) by lia.
  revert L. generalize (128 * Z.to_nat (j - 1))%nat as n. intros n L.
  replace (repeat false 1280) with (repeat false n ++ repeat false 128 ++ repeat false (1280 - n - 128)) by (rewrite <- !repeat_app; f_equal; lia).
  rewrite skipn_app, skipn_all2 by (rewrite repeat_length; lia). rewrite repeat_length, Nat.sub_diag. cbn [skipn app].
  rewrite firstn_app, firstn_all2 by (rewrite repeat_length; lia). rewrite repeat_length. cbn [Nat.sub]. now rewrite app_nil_r.
Qed.
Lemma row_put b l nav tow : row_ok b l -> length nav = 128%nat ->
  row_ok (if (0 <? bval (slice nav 0 6)) && (bval (slice nav 0 6) <=? 10) then splice b (128 * Z.to_nat (bval (slice nav 0 6) - 1)) nav else b) ((nav, tow) :: l).
Proof.
  intros [L R] N. set (mt := bval (slice nav 0 6)). destruct (_ && _) eqn:B.
  - assert (M : 1 <= mt <= 10) by lia. split; [rewrite splice_length; lia|].
    intros j J. cbn [latest]. fold mt. destruct (Z.eqb_spec mt j) as [->|NE].
    + unfold wd. apply nth_ext with (d := false) (d' := false); [rewrite slice_length by (rewrite splice_length; lia); lia|].
      intros i I. rewrite slice_length in I by (rewrite splice_length; lia).
      rewrite nth_slice by lia. rewrite nth_splice by lia.
      replace (_ && _) with true by lia. f_equal. lia.
    + rewrite <- R by exact J. unfold wd.
      apply nth_ext with (d := false) (d' := false); [rewrite !slice_length by (try rewrite splice_length; lia); reflexivity|].
      intros i I. rewrite slice_length in I by (rewrite splice_length; lia).
      rewrite !nth_slice by (try rewrite splice_length; lia). rewrite nth_splice by lia.
      match goal with |- (if ?c then _ else _) = _ => destruct c eqn:Q end; [|reflexivity]. lia.
  - split; [exact L|]. intros j J. cbn [latest]. fold mt. destruct (Z.eqb_spec mt j) as [->|NE]; [lia|]. now apply R.
Qed.
Lemma nav_step_inv h s nav prn tow : nav_inv h s -> length nav = 128%nat -> nav_inv (h ++ [ENav nav prn tow]) (save_gal_inav nav prn tow s).
Proof.
  intros H N p. rewrite words_snoc. unfold save_gal_inav. cbv zeta. cbn [set_nav o_nav].
  destruct (Z.eqb_spec prn p) as [->|NE]; [|rewrite zget_zset_other by congruence; apply H].
  rewrite zget_zset_same. specialize (H p).
  set (e := match zget p (o_nav s) with Some e => e | None => NAV (zeros 1280) (zeros 1280) (zeros 1280) end) in *.
  assert (K : nav_ok e (words p h)).
  { subst e. destruct (zget p (o_nav s)); [exact H|]. rewrite H. repeat split; apply row_zero; assumption. }
  clearbody e. clear H. destruct K as (K1 & K2 & K3).
  set (e1 := if tow mod 30 =? 1 then NAV (n_p e) (n_n e) (n_n e) else e).
  pose proof (row_put _ _ nav tow K1 N) as P.
  assert (Q : n_n e1 = n_n e) by (subst e1; destruct (_ =? 1); reflexivity).
  assert (Q2 : row_ok (n_p e1) (older ((nav, tow) :: words p h))) by (subst e1; cbn [older]; destruct (_ =? 1); [exact K1|exact K2]).
  assert (Q3 : row_ok (n_c e1) (older (older ((nav, tow) :: words p h)))) by (subst e1; cbn [older]; destruct (_ =? 1); [exact K2|exact K3]).
  clearbody e1. unfold nav_ok. rewrite <- Q in P.
  destruct ((0 <? bval (slice nav 0 6)) && (bval (slice nav 0 6) <=? 10)); cbn [n_n n_p n_c]; auto.
Qed.
Lemma tag_ok_ext kp key hdr tag nt a t prn iod w w' : (forall j, 1 <= j <= 5 -> w j = w' j) ->
  tag_ok C kp key hdr tag nt a t prn iod w -> tag_ok C kp key hdr tag nt a t prn iod w'.
Proof.
  intros E. unfold tag_ok, words_ok, nav_data. rewrite <- (E 1), <- (E 2), <- (E 3), <- (E 4), <- (E 5) by lia.
  intros ((H1 & H1') & H2 & H3). split; [split|].
  - intros j J. rewrite <- E by exact J. now apply H1.
  - intros j J. rewrite <- E by lia. now apply H1'.
  - split; assumption.
Qed.

Lemma app_inj_1 {A} (a b c d : list A) : a ++ b = c ++ d -> length a = length c -> a = c /\ b = d.
Proof.
  revert c. induction a as [|x a IH]; intros [|y c] E L; cbn in *; try discriminate; [auto|].
  injection E as -> E. destruct (IH c E) as [-> ->]; [congruence|auto].
Qed.
Lemma bitsof_inj n x y : 0 <= x < 2 ^ Z.of_nat n -> 0 <= y < 2 ^ Z.of_nat n -> bitsof n x = bitsof n y -> x = y.
Proof. intros X Y E. rewrite <- (bval_bitsof n x X), <- (bval_bitsof n y Y). now rewrite E. Qed.
Lemma gst_inj t u : 0 <= t < 4096 * 604800 -> 0 <= u < 4096 * 604800 -> gst t = gst u -> t = u.
Proof.
  intros T U E. unfold gst in E. 
  assert (L : length (bitsof 12 (t / 604800)) = length (bitsof 12 (u / 604800))) by (now rewrite !bitsof_length).
  apply app_inj_1 in E; [|exact L]. destruct E as [E1 E2].
  pose proof (Z.mod_pos_bound t 604800 ltac:(lia)). pose proof (Z.mod_pos_bound u 604800 ltac:(lia)).
  apply bitsof_inj in E1; [|split; [apply Z.div_pos; lia|apply Z.div_lt_upper_bound; change (2 ^ Z.of_nat 12) with 4096; lia]..].
  apply bitsof_inj in E2; [|change (2 ^ Z.of_nat 20) with 1048576; lia..].
  rewrite (Z.div_mod t 604800), (Z.div_mod u 604800) by lia. now rewrite E1, E2.
Qed.

(* ---------- histories ---------- *)
Section Hist.
Variable pk : dict Z (PK C).
Variable root : option bits.
Notation st h := (run h (osnma_new pk root)).
Definition root_in (h : list event) : Prop := exists g, prefix g h /\ t_rv (o_stat (st g)) = true /\ root_signed C (st g).
Definition key_in (h : list event) (k : bits) (T : Z) : Prop :=
  exists g e, prefix (g ++ [e]) h /\ ended e T /\ t_rv (o_stat (st (g ++ [e]))) = true /\ o_key (st (g ++ [e])) = k /\ key_checked C (st (g ++ [e])) T.
Definition auth_in (h : list event) (prn iod : Z) : Prop :=
  exists g nma wn tow p a r, h = g ++ ENma nma wn tow p a :: r /\
    let s1 := st (g ++ [ENma nma wn tow p a]) in let T := subframe_time wn tow in
    tag_ok C (o_kp s1) (o_key s1) (o_hdr s1) (o_tag s1) (o_nt s1) a (T - 30) prn iod (word g prn) /\
    t_rv (o_stat s1) = true /\ root_in (g ++ [ENma nma wn tow p a]) /\ key_in (g ++ [ENma nma wn tow p a]) (o_key s1) T.
Lemma prefix_snoc g h e : prefix g h -> prefix g (h ++ [e]).
Proof. intros [r ->]. exists (r ++ [e]). now rewrite app_assoc. Qed.
Lemma prefix_refl h : prefix h h.
Proof. exists []. now rewrite app_nil_r. Qed.
Lemma root_snoc h e : root_in h -> root_in (h ++ [e]).
Proof. intros (g & P & R). exists g. split; [now apply prefix_snoc|exact R]. Qed.
Lemma key_snoc h e k T : key_in h k T -> key_in (h ++ [e]) k T.
Proof. intros (g & x & P & R). exists g, x. split; [now apply prefix_snoc|exact R]. Qed.
Lemma auth_snoc h e prn iod : auth_in h prn iod -> auth_in (h ++ [e]) prn iod.
Proof.
  intros (g & nma & wn & tow & p & a & r & -> & R). exists g, nma, wn, tow, p, a, (r ++ [e]). split; [|exact R]. now rewrite <- app_assoc.
Qed.

Lemma history_inv h : Forall wf_event h ->
  nav_inv h (st h) /\ buf_wf C (st h) /\ ts_wf C (st h) /\ (t_kc (o_stat (st h)) = true -> t_rv (o_stat (st h)) = true) /\ o_vmin (st h) = 1 /\
  (t_rv (o_stat (st h)) = true -> root_in h) /\
  (t_kc (o_stat (st h)) = true -> exists T, o_gstc (st h) = gst T /\ 0 <= T < 4096 * 604800 /\ key_in h (o_key (st h)) T) /\
  forall prn iod, prn <> 37 -> vcount (st h) prn iod = None \/ auth_in h prn iod.
Proof.
  induction h as [|e h IH] using rev_ind; intros W.
  - split; [intros prn; reflexivity|]. split; [apply new_buf_wf|]. split; [discriminate|]. repeat (split; [discriminate|]). split; [reflexivity|].
    split; [discriminate|]. split; [discriminate|]. intros; now left.
  - apply Forall_app in W. destruct W as [Wh We]. apply Forall_inv in We.
    destruct (IH Wh) as (I1 & I2 & I3 & I4 & I5 & I6 & I7 & I8). clear IH.
    rewrite run_snoc. destruct e as [nav prn tow|nma wn tow p a]; cbn [step wf_event] in *.
    + split; [now apply nav_step_inv|]. split; [exact I2|]. split; [exact I3|]. split; [exact I4|]. split; [exact I5|].
      split; [intros Q; apply root_snoc, I6, Q|].
      split. { intros Q. destruct (I7 Q) as (T & T1 & T2 & T3). exists T. split; [exact T1|]. split; [exact T2|]. now apply key_snoc. }
      intros q iod NQ. destruct (I8 q iod NQ); [now left|right; now apply auth_snoc].
    + destruct (decode nma wn tow p a (st h)) as [s' r] eqn:D. cbn [fst].
      assert (ES : st (h ++ [ENma nma wn tow p a]) = s') by (rewrite run_snoc; cbn [step]; now rewrite D).
      assert (NW : nav_wf C (st h)). { intros q e Z. specialize (I1 q). rewrite Z in I1. apply I1. }
      apply decode_spec in D; [|exact We|exact I2|exact I3|exact NW|exact I4].
      destruct D as (D1 & D2 & D3 & D4 & D5 & D6 & D7 & D8).
      assert (RI : t_rv (o_stat s') = true -> root_in (h ++ [ENma nma wn tow p a])).
      { intros Q. destruct (D6 Q) as [Q2|Q2]; [apply root_snoc, I6, Q2|].
        exists (h ++ [ENma nma wn tow p a]). split; [apply prefix_refl|]. rewrite ES. auto. }
      assert (KI : t_kc (o_stat s') = true -> exists T, o_gstc s' = gst T /\ 0 <= T < 4096 * 604800 /\ key_in (h ++ [ENma nma wn tow p a]) (o_key s') T).
      { intros Q. destruct (D7 Q) as [(Q1 & Q2 & Q3)|(Q1 & Q2 & Q3 & Q4)].
        - destruct (I7 Q1) as (T & T1 & T2 & T3). exists T. rewrite Q3, Q2. split; [exact T1|]. split; [exact T2|]. now apply key_snoc.
        - exists (subframe_time wn tow). split; [exact Q2|]. split; [exact Q3|].
          exists h, (ENma nma wn tow p a). split; [apply prefix_refl|]. split; [reflexivity|]. rewrite ES. auto. }
      assert (KR : t_kc (o_stat s') = true -> t_rv (o_stat s') = true).
      { intros Q. destruct (D7 Q) as [(Q1 & _)|(Q1 & _)]; [apply D5, I4, Q1|exact Q1]. }
      split. { intros q. rewrite D1, words_snoc. apply I1. }
      split; [exact D3|]. split; [exact D4|]. split; [exact KR|]. split; [congruence|]. split; [exact RI|]. split; [exact KI|].
      intros q iod NQ. destruct (D8 q iod NQ) as [Q|(Q1 & Q2 & Q3 & e & Z & Q4)].
      * rewrite Q. destruct (I8 q iod NQ); [now left|right; now apply auth_snoc].
      * right. exists h, nma, wn, tow, p, a, []. split; [reflexivity|]. cbv zeta. rewrite ES.
        split.
        { apply tag_ok_ext with (w := wd (n_c e)); [|exact Q4]. intros j J. specialize (I1 q). rewrite Z in I1. apply I1. lia. }
        split; [apply KR, Q1|]. split; [apply RI, KR, Q1|].
        destruct (KI Q1) as (T & T1 & T2 & T3). assert (T = subframe_time wn tow) by (apply gst_inj; congruence). now subst T.
Qed.

Lemma history h prn iod : Forall wf_event h -> prn <> 37 -> chk_nav prn iod (st h) = true -> auth_in h prn iod.
Proof.
  intros W NP H. destruct (history_inv h W) as (_ & _ & _ & _ & _ & _ & _ & K). destruct (K prn iod NP) as [Q|Q]; [|exact Q].
  unfold chk_nav in H. rewrite Q in H. discriminate.
Qed.
End Hist.
End A.
