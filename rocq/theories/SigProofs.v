From Verif Require Import Base SigModel SigSpec.
From Coq Require Import ZifyBool ZifyNat ZifyN.
Open Scope Z_scope.

Definition all_sys : list gnss := [GPS; GAL; QZS; BDS; GLO; SBS; IRN; NONE].
Lemma all_sys_in s : In s all_sys.
Proof. destruct s; cbn; tauto. Qed.
Definition all_ascii (n : nat) : list ascii := map ascii_of_nat (seq 0 n).
Lemma ascii_in c : In c (all_ascii 256).
Proof.
  unfold all_ascii. apply in_map_iff. exists (nat_of_ascii c).
  split; [apply ascii_nat_embedding|]. apply in_seq. pose proof (nat_ascii_bounded c). lia.
Qed.
Definition rnx_charb (c : ascii) : bool :=
  let z := ord c in (z =? 32) || ((48 <=? z) && (z <=? 57)) || ((65 <=? z) && (z <=? 90)) || ((97 <=? z) && (z <=? 122)).
Lemma rnx_in c : rnx_char c -> In c (filter rnx_charb (all_ascii 256)).
Proof.
  intros H. apply filter_In. split; [apply ascii_in|]. unfold rnx_charb, rnx_char in *. cbn zeta in *. lia.
Qed.
Definition typ_chars : list ascii := ["C"; "L"; "D"; "S"]%char.
Lemma typ_of_in c t : typ_of c = Some t -> In c typ_chars.
Proof.
  intros H. assert (F : forallb (fun c => match typ_of c with Some _ => existsb (Ascii.eqb c) typ_chars | None => true end)
     (all_ascii 256) = true) by (vm_compute; reflexivity).
  rewrite forallb_forall in F. specialize (F c (ascii_in c)). cbn beta in F. rewrite H in F.
  apply existsb_exists in F. destruct F as (x & Hx & E). apply Ascii.eqb_eq in E. now subst.
Qed.
Definition digits : list ascii := map (fun n => ascii_of_nat (48 + n)) (seq 0 10).
Lemma digit_in c d : digit c = Some d -> In c digits.
Proof.
  intros H. assert (F : forallb (fun c => match digit c with Some _ => existsb (Ascii.eqb c) digits | None => true end)
     (all_ascii 256) = true) by (vm_compute; reflexivity).
  rewrite forallb_forall in F. specialize (F c (ascii_in c)). cbn beta in F. rewrite H in F.
  apply existsb_exists in F. destruct F as (x & Hx & E). apply Ascii.eqb_eq in E. now subst.
Qed.

Definition gnss_typ_num_eqb (a b : rsig) : bool :=
  gnss_eqb (rsys a) (rsys b) && typ_eqb (rtyp a) (rtyp b) && (rnum a =? rnum b).
Lemma rsig_eqb_eq a b : gnss_typ_num_eqb a b = true -> a = b.
Proof.
  destruct a as [s t n], b as [s' t' n']. unfold gnss_typ_num_eqb. cbn [rsys rtyp rnum].
  rewrite !andb_true_iff. intros [[H1 H2] H3]. destruct s, s'; try discriminate H1; destruct t, t'; try discriminate H2;
    apply Z.eqb_eq in H3; now subst.
Qed.
Definition back (sys : gnss) (r : rsig) : bool :=
  match mk2 sys (sig_str r) with Some r' => gnss_typ_num_eqb r' r | None => false end.

(** parsing after the strip *)
Definition parse (sys : gnss) (s : string) : option rsig :=
  match s with
  | String c0 (String c1 rest) =>
    do ty <- typ_of c0;
    do d <- digit c1;
    match rest with
    | String c2 EmptyString =>
      if attr_bad sys c1 c2 then None
      else do u <- usig (d * 100 + (ord c2 - 65 + 1)); Some (RS sys ty u)
    | _ => do u <- usig (d * 100); Some (RS sys ty u)
    end
  | _ => None
  end.

Definition check3 (sys : gnss) (c0 c1 c2 : ascii) : bool :=
  let s := String c0 (String c1 (String c2 EmptyString)) in
  match parse sys s with
  | Some r => String.eqb (sig_str r) s && back sys r
  | None => true
  end.
Definition check2 (sys : gnss) (c0 c1 : ascii) : bool :=
  let s := String c0 (String c1 EmptyString) in
  match parse sys s with
  | Some r => String.eqb (sig_str r) (String c0 (String c1 " ")) && back sys r
  | None => true
  end.
Lemma check3_all : forallb (fun sys => forallb (fun c0 => forallb (fun c1 => forallb (fun c2 =>
   check3 sys c0 c1 c2) (filter rnx_charb (all_ascii 256))) digits) typ_chars) all_sys = true.
Proof. vm_compute. reflexivity. Qed.
Lemma check2_all : forallb (fun sys => forallb (fun c0 => forallb (fun c1 =>
   check2 sys c0 c1) digits) typ_chars) all_sys = true.
Proof. vm_compute. reflexivity. Qed.

Fixpoint chars (P : ascii -> Prop) (s : string) : Prop :=
  match s with EmptyString => True | String c r => P c /\ chars P r end.
Lemma lstrip_chars P s : chars P s -> chars P (lstrip s).
Proof. induction s as [|c r IH]; cbn; [tauto|]. intros [H1 H2]. destruct (is_space c); cbn; auto. Qed.
Lemma rstrip_chars P s : chars P s -> chars P (rstrip s).
Proof.
  induction s as [|c r IH]; cbn; [tauto|]. intros [H1 H2]. specialize (IH H2).
  destruct (rstrip r) as [|d t]; [destruct (is_space c)|]; cbn in *; auto.
Qed.
Lemma lstrip_len s : (String.length (lstrip s) <= String.length s)%nat.
Proof. induction s as [|c r IH]; cbn; [lia|]. destruct (is_space c); cbn; lia. Qed.
Lemma rstrip_len s : (String.length (rstrip s) <= String.length s)%nat.
Proof.
  induction s as [|c r IH]; cbn; [lia|]. destruct (rstrip r) as [|d t]; [destruct (is_space c)|]; cbn in *; lia.
Qed.
Lemma strip_len s : (String.length (strip s) <= String.length s)%nat.
Proof. unfold strip. pose proof (rstrip_len (lstrip s)). pose proof (lstrip_len s). lia. Qed.

Lemma parse_some sys c0 c1 rest r : parse sys (String c0 (String c1 rest)) = Some r ->
  In c0 typ_chars /\ In c1 digits.
Proof.
  cbn [parse]. unfold bind. destruct (typ_of c0) as [t|] eqn:E0; [|discriminate].
  destruct (digit c1) as [d|] eqn:E1; [|discriminate]. intros _.
  split; [eapply typ_of_in; eauto|eapply digit_in; eauto].
Qed.

Lemma back_eq sys r : back sys r = true -> mk2 sys (sig_str r) = Some r.
Proof.
  unfold back. destruct (mk2 sys (sig_str r)) as [r'|]; [|discriminate]. intros H. f_equal. now apply rsig_eqb_eq.
Qed.

(** the stripped code, padded with a blank to three characters *)
Definition pad3 (s : string) : string := if (String.length s <? 3)%nat then String.append s " " else s.

Lemma sig_roundtrip sys s r : chars rnx_char s -> mk2 sys s = Some r ->
  sig_str r = pad3 (strip s) /\ mk2 sys (sig_str r) = Some r.
Proof.
  intros HA. unfold mk2 at 1. destruct (_ && _) eqn:HL; [|discriminate].
  change (str2sig sys s) with (parse sys (strip s)). intros H.
  assert (HA' : chars rnx_char (strip s)) by (apply rstrip_chars, lstrip_chars; exact HA).
  pose proof (strip_len s) as HS.
  destruct (strip s) as [|c0 [|c1 rest]]; [discriminate H|discriminate H|].
  destruct (parse_some _ _ _ _ _ H) as [H0 H1].
  destruct rest as [|c2 [|c3 rest]].
  - pose proof check2_all as F. rewrite forallb_forall in F. specialize (F sys (all_sys_in sys)).
    rewrite forallb_forall in F. specialize (F c0 H0). rewrite forallb_forall in F. specialize (F c1 H1).
    unfold check2 in F. rewrite H in F. rewrite andb_true_iff in F. destruct F as [F1 F2].
    split; [|now apply back_eq]. apply String.eqb_eq in F1. exact F1.
  - pose proof check3_all as F. rewrite forallb_forall in F. specialize (F sys (all_sys_in sys)).
    rewrite forallb_forall in F. specialize (F c0 H0). rewrite forallb_forall in F. specialize (F c1 H1).
    rewrite forallb_forall in F. specialize (F c2). cbn [chars] in HA'. 
    specialize (F ltac:(apply rnx_in; tauto)).
    unfold check3 in F. rewrite H in F. rewrite andb_true_iff in F. destruct F as [F1 F2].
    split; [|now apply back_eq]. apply String.eqb_eq in F1. exact F1.
  - cbn [String.length] in HS. lia.
Qed.

(** the four-character form: constellation letter + code *)
Lemma char_sys s : char2sys (sys2char s) = s.
Proof. destruct s; reflexivity. Qed.
Lemma char_sys_inv c : char2sys c <> NONE -> sys2char (char2sys c) = c.
Proof.
  intros H. assert (F : forallb (fun c => match char2sys c with NONE => true | s => Ascii.eqb (sys2char s) c end)
    (all_ascii 256) = true) by (vm_compute; reflexivity).
  rewrite forallb_forall in F. specialize (F c (ascii_in c)). cbn beta in F.
  destruct (char2sys c); try (now apply Ascii.eqb_eq); congruence.
Qed.
Lemma str2sig_sys sys s r : str2sig sys s = Some r -> rsys r = sys.
Proof.
  unfold str2sig, bind. destruct (strip s) as [|c0 [|c1 rest]]; try discriminate.
  destruct (typ_of c0); [|discriminate]. destruct (digit c1); [|discriminate].
  destruct rest as [|c2 [|c3 rest]]; repeat match goal with
    | |- context [usig ?x] => destruct (usig x)
    | |- context [attr_bad _ _ _] => destruct (attr_bad _ _ _)
    end; intros H; inversion H; reflexivity.
Qed.
Lemma sig_repr_roundtrip x r : chars rnx_char x -> mk1 x = Some r -> rsys r <> NONE ->
  sig_repr r = (match x with String c s => String c (pad3 (strip s)) | EmptyString => EmptyString end) /\
  mk1 (sig_repr r) = Some r.
Proof.
  intros HA. unfold mk1 at 1. destruct (_ && _) eqn:HL; [|discriminate].
  destruct x as [|c s]; [discriminate|]. cbn [String.length] in HL. intros H HN.
  pose proof (str2sig_sys _ _ _ H) as HS.
  assert (H2 : mk2 (char2sys c) s = Some r).
  { unfold mk2. replace ((2 <=? String.length s)%nat && (String.length s <=? 3)%nat) with true by lia. exact H. }
  cbn [chars] in HA. destruct (sig_roundtrip _ _ _ (proj2 HA) H2) as [E1 E2].
  unfold sig_repr. rewrite HS in *. rewrite char_sys_inv by assumption. split; [now rewrite E1|].
  unfold mk2 in E2. destruct ((2 <=? String.length (sig_str r))%nat && (String.length (sig_str r) <=? 3)%nat) eqn:HL2; [|discriminate].
  unfold mk1. cbn [String.length].
  replace ((3 <=? S (String.length (sig_str r)))%nat && (S (String.length (sig_str r)) <=? 4)%nat) with true by lia.
  exact E2.
Qed.

Lemma toTyp_str r t t' : rtyp r = t -> t <> TNONE -> t' <> TNONE ->
  toTyp (toTyp r t') t = r /\ rsys (toTyp r t') = rsys r /\ band (toTyp r t') = band r.
Proof. intros <- H H'. destruct r as [s ty n]. unfold toTyp, band. cbn. auto. Qed.

(* ---------- validity of attributes ---------- *)
Definition code3 (t : ascii) (b : Z) (c : ascii) : string := String t (String (chr (48 + b)) (String c EmptyString)).

Definition accepted (sys : gnss) (t : ascii) (b : Z) (c : ascii) : bool :=
  match mk2 sys (code3 t b c) with Some _ => true | None => false end.

(** (constellation, band) pairs for which the code's check works *)
Definition checked (sys : gnss) (b : Z) : bool :=
  negb (String.eqb (rinex_attrs sys b) "") &&
  negb (gnss_eqb sys GPS && negb (b =? 1)) && negb (gnss_eqb sys GLO && (b <=? 2)).

Definition bands : list Z := [0; 1; 2; 3; 4; 5; 6; 7; 8; 9].
Lemma bands_in b : 0 <= b <= 9 -> In b bands.
Proof. intros H. unfold bands. cbn [In]. lia. Qed.

Lemma attr_all : forallb (fun sys => forallb (fun t => forallb (fun b => forallb (fun c =>
   implb (checked sys b && negb (is_space c)) (Bool.eqb (accepted sys t b c) (rinex_code sys b c)) &&
   implb (rinex_code sys b c) (accepted sys t b c)) (all_ascii 256)) bands) typ_chars) all_sys = true.
Proof. vm_compute. reflexivity. Qed.

Lemma attr_ok sys t b c : In t typ_chars -> 0 <= b <= 9 ->
  (checked sys b = true -> is_space c = false -> accepted sys t b c = rinex_code sys b c) /\
  (rinex_code sys b c = true -> accepted sys t b c = true).
Proof.
  intros Ht Hb. pose proof attr_all as F. rewrite forallb_forall in F. specialize (F sys (all_sys_in sys)).
  rewrite forallb_forall in F. specialize (F t Ht). rewrite forallb_forall in F. specialize (F b (bands_in b Hb)).
  rewrite forallb_forall in F. specialize (F c (ascii_in c)). rewrite andb_true_iff in F. destruct F as [F1 F2].
  split.
  - intros H1 H2. rewrite H1, H2 in F1. cbn [implb andb negb] in F1. now apply eqb_prop in F1.
  - intros H. rewrite H in F2. exact F2.
Qed.

(* ---------- frequencies ---------- *)
Definition freq_exc (sys : gnss) (b : Z) : bool := (gnss_eqb sys GLO && (b =? 6)) || (gnss_eqb sys IRN && (b =? 5)).

Lemma accepted_num sys t b c r : rnx_char c -> 0 <= b <= 9 -> mk2 sys (code3 t b c) = Some r -> is_space t = false ->
  rsys r = sys /\ Z.quot (rnum r) 100 = b.
Proof.
  intros Hc Hb H Ht. unfold mk2 in H. destruct (_ && _); [|discriminate].
  pose proof (str2sig_sys _ _ _ H) as HS. split; [exact HS|].
  change (str2sig sys (code3 t b c)) with (parse sys (strip (code3 t b c))) in H.
  assert (HD : is_space (chr (48 + b)) = false /\ digit (chr (48 + b)) = Some b).
  { pose proof (bands_in b Hb) as HI.
    assert (F : forallb (fun b => negb (is_space (chr (48 + b))) && match digit (chr (48 + b)) with Some d => d =? b | None => false end) bands = true)
      by (vm_compute; reflexivity).
    rewrite forallb_forall in F. specialize (F b HI). cbn beta in F. rewrite andb_true_iff in F.
    destruct F as [F1 F2]. destruct (digit (chr (48 + b))); [|discriminate]. rewrite negb_true_iff in F1.
    split; [exact F1|]. f_equal. lia. }
  destruct HD as [HD1 HD2].
  unfold strip, code3 in H. cbn [lstrip] in H. rewrite Ht in H. cbn [rstrip] in H.
  assert (Hord : 0 <= ord c < 128) by (unfold rnx_char in Hc; cbn zeta in Hc; lia).
  destruct (is_space c) eqn:Ec; [rewrite HD1 in H|]; cbn [parse] in H; unfold bind in H;
    destruct (typ_of t); try discriminate H; rewrite HD2 in H.
  - destruct (usig (b * 100)) as [u|] eqn:Eu; [|discriminate]. injection H as <-. cbn [rnum].
    unfold usig in Eu. destruct (existsb _ _); [|discriminate]. injection Eu as <-. now rewrite Z.quot_mul by lia.
  - destruct (attr_bad _ _ _); [discriminate|]. destruct (usig _) as [u|] eqn:Eu; [|discriminate].
    injection H as <-. cbn [rnum]. unfold usig in Eu.
    destruct (existsb _ usig_members) eqn:Ex; [|discriminate]. injection Eu as <-.
    apply existsb_exists in Ex. destruct Ex as (m & Hm & E). apply Z.eqb_eq in E.
    assert (M : forallb (fun m => (m =? -1) || ((100 <=? m) && (m mod 100 <=? 26))) usig_members = true) by (vm_compute; reflexivity).
    rewrite forallb_forall in M. specialize (M m Hm). rewrite <- E in M.
    set (v := b * 100 + (ord c - 65 + 1)) in *.
    assert (Hv : v <> -1 -> 0 <= ord c - 64 < 100).
    { intros Hn. assert (100 <= v) by lia. assert (v mod 100 <= 26) by lia.
      destruct (Z.ltb_spec (ord c) 64); [exfalso|lia].
      assert (v / 100 = b - 1) by (symmetry; apply (Z.div_unique_pos v 100 (b - 1) (100 + (ord c - 64))); unfold v; lia).
      pose proof (Z.div_mod v 100 ltac:(lia)). lia. }
    destruct (Z.eq_dec v (-1)) as [Ev|Ev].
    + (* v = -1 : b = 0, c = '?' *)
      rewrite Ev. change (Z.quot (-1) 100) with 0. lia.
    + specialize (Hv Ev). rewrite Z.quot_div_nonneg by lia.
      symmetry. apply (Z.div_unique_pos v 100 b (ord c - 64)); unfold v; lia.
Qed.

Lemma freq_all : forallb (fun sys => forallb (fun b =>
    implb (negb (String.eqb (rinex_attrs sys b) "") && negb (freq_exc sys b))
      (match frequency (RS sys TC (b * 100)) (Some 0), rinex_freq sys b 0 with
       | Some x, Some y => (x =? y) && (0 <? x) | _, _ => false end)) bands) all_sys = true.
Proof. vm_compute. reflexivity. Qed.

Lemma freq_band sys t n t' n' k : Z.quot n 100 = Z.quot n' 100 -> frequency (RS sys t n) k = frequency (RS sys t' n') k.
Proof. intros H. unfold frequency. cbn [rsys rnum]. now rewrite H. Qed.

Lemma freq_ok sys b t n k : 0 <= b <= 9 -> rinex_attrs sys b <> ""%string -> freq_exc sys b = false ->
  Z.quot n 100 = b -> -7 <= k <= 13 ->
  exists f, frequency (RS sys t n) (Some k) = Some f /\ rinex_freq sys b k = Some f /\ 0 < f.
Proof.
  intros Hb HA HE Hn Hk.
  rewrite (freq_band sys t n TC (b * 100)) by (rewrite Z.quot_mul by lia; exact Hn).
  pose proof freq_all as F. rewrite forallb_forall in F. specialize (F sys (all_sys_in sys)).
  rewrite forallb_forall in F. specialize (F b (bands_in b Hb)). cbn beta in F.
  rewrite HE in F. rewrite (proj2 (String.eqb_neq _ _) HA) in F. cbn [negb andb implb] in F.
  destruct (gnss_eqb sys GLO) eqn:EG.
  - assert (sys = GLO) by (destruct sys; try discriminate; reflexivity). subst sys.
    clear F Hn. pose proof (bands_in b Hb) as HI. unfold bands in HI. cbn [In] in HI.
    repeat (destruct HI as [HI|HI]; [rewrite <- HI in *; first [ exfalso; apply HA; reflexivity | discriminate HE |
      eexists; split; [reflexivity|split; [reflexivity|lia]] ]|]).
    contradiction.
  - assert (E1 : frequency (RS sys TC (b * 100)) (Some k) = frequency (RS sys TC (b * 100)) (Some 0))
      by (destruct sys; try discriminate EG; reflexivity).
    assert (E2 : rinex_freq sys b k = rinex_freq sys b 0).
    { pose proof (bands_in b Hb) as HI. unfold bands in HI. cbn [In] in HI.
      repeat (destruct HI as [<-|HI]; [destruct sys; try discriminate EG; reflexivity|]). contradiction. }
    rewrite E1, E2. destruct (frequency _ _) as [x|]; [|discriminate]. destruct (rinex_freq sys b 0) as [y|]; [|discriminate].
    exists x. split; [reflexivity|]. split; [f_equal|]; lia.
Qed.

(* ---------- signal-index tables ---------- *)
Definition inj_tab (t : gnss -> option (list (Z * Z))) (sys : gnss) : bool :=
  match t sys with
  | None => true
  | Some l => forallb (fun '(a, u) => forallb (fun '(b, v) => implb (u =? v) (a =? b)) l) l
  end.

Lemma assoc_in l k u : assoc l k = Some u -> In (k, u) l.
Proof.
  induction l as [|[a b] r IH]; cbn [assoc]; [discriminate|].
  destruct (Z.eqb_spec a k) as [->|]; [intros H; injection H as ->; now left|right; auto].
Qed.
Lemma inj_tab_ok t sys i j u : inj_tab t sys = true -> lookup2 t sys i = Some u -> lookup2 t sys j = Some u -> i = j.
Proof.
  unfold inj_tab, lookup2, bind. destruct (t sys) as [l|]; [|discriminate]. intros F Hi Hj.
  apply assoc_in in Hi, Hj. rewrite forallb_forall in F. specialize (F _ Hi). cbn beta iota in F.
  rewrite forallb_forall in F. specialize (F _ Hj). cbn beta iota in F. rewrite Z.eqb_refl in F. cbn [implb] in F. lia.
Qed.

Lemma cssr_inj sys t i j r : sys <> QZS -> cssr_ssig2rsig sys t i = Some r -> cssr_ssig2rsig sys t j = Some r -> i = j.
Proof.
  intros Hs. unfold cssr_ssig2rsig, bind.
  destruct (lookup2 cssr_sig_tbl sys i) as [u|] eqn:Ei; [|discriminate].
  destruct (lookup2 cssr_sig_tbl sys j) as [v|] eqn:Ej; [|discriminate].
  intros H1 H2. injection H1 as <-. injection H2 as ->.
  apply (inj_tab_ok cssr_sig_tbl sys i j u); auto. destruct sys; try reflexivity; congruence.
Qed.
Lemma bds_inj sys t i j r : bds_ssig2rsig sys t i = Some r -> bds_ssig2rsig sys t j = Some r -> i = j.
Proof.
  unfold bds_ssig2rsig, bind.
  destruct (lookup2 bds_sig_tbl sys i) as [u|] eqn:Ei; [|discriminate].
  destruct (lookup2 bds_sig_tbl sys j) as [v|] eqn:Ej; [|discriminate].
  intros H1 H2. injection H1 as <-. injection H2 as ->.
  apply (inj_tab_ok bds_sig_tbl sys i j u); auto. destruct sys; reflexivity.
Qed.
Lemma msm_inj sys t i j r : msm2rsig sys t i = Some r -> msm2rsig sys t j = Some r -> i = j.
Proof.
  unfold msm2rsig, bind.
  destruct (lookup2 msm_sig_tbl sys i) as [u|] eqn:Ei; [|discriminate].
  destruct (lookup2 msm_sig_tbl sys j) as [v|] eqn:Ej; [|discriminate].
  intros H1 H2. injection H1 as <-. injection H2 as ->.
  apply (inj_tab_ok msm_sig_tbl sys i j u); auto. destruct sys; reflexivity.
Qed.
Lemma rtcm_inj sys t i j r : sys <> QZS -> rsys r <> NONE ->
  rtcm_ssig2rsig sys t i = Some r -> rtcm_ssig2rsig sys t j = Some r -> i = j.
Proof.
  intros Hs Hr. unfold rtcm_ssig2rsig, bind. destruct (rtcm_sig_tbl sys) as [l|] eqn:El; [|discriminate].
  intros H1 H2. destruct (assoc l i) as [u|] eqn:Ei; [|injection H1 as <-; cbn in Hr; congruence].
  destruct (assoc l j) as [v|] eqn:Ej; [|injection H2 as <-; cbn in Hr; congruence].
  injection H1 as <-. injection H2 as ->.
  apply (inj_tab_ok rtcm_sig_tbl sys i j u); unfold lookup2, bind; rewrite ?El; auto.
  destruct sys; try reflexivity; congruence.
Qed.

(** encoding a decoded signal gives back its index *)
Lemma code_ok sys t i r : sys <> QZS -> rsys r <> NONE -> rtcm_ssig2rsig sys t i = Some r -> rsig2code r = Some i.
Proof.
  intros Hs Hr. unfold rtcm_ssig2rsig, bind. destruct (rtcm_sig_tbl sys) as [l|] eqn:El; [|discriminate].
  intros H. destruct (assoc l i) as [u|] eqn:Ei; [|injection H as <-; cbn in Hr; congruence]. injection H as <-.
  apply assoc_in in Ei. unfold rsig2code, bind. cbn [rsys rnum].
  assert (F : forall sys, sys <> QZS -> match rtcm_sig_tbl sys, rtcm_code_tbl sys with
     | Some l, Some c => forallb (fun '(a, b) => match assoc (rev (map (fun '(a, b) => (b, a)) c)) b with Some x => x =? a | None => false end) l = true
     | None, None => True | _, _ => False end).
  { intros s Hn. destruct s; try exact I; try (vm_compute; reflexivity). congruence. }
  specialize (F sys Hs). rewrite El in F. destruct (rtcm_code_tbl sys) as [c|]; [|contradiction].
  rewrite forallb_forall in F. specialize (F _ Ei). cbn beta iota in F.
  destruct (assoc _ u) as [x|]; [|discriminate]. f_equal. lia.
Qed.

(** signals named by MSM, BDS B2b and compact SSR tables are legal RINEX codes, except those listed *)
Definition legal (sys : gnss) (u : Z) : bool :=
  match mk2 sys (sig_str (RS sys TC u)) with Some r => gnss_typ_num_eqb r (RS sys TC u) | None => false end.
Definition illegal (t : gnss -> option (list (Z * Z))) : list (gnss * Z * Z) :=
  flat_map (fun sys => match t sys with None => [] | Some l =>
     map (fun '(i, u) => (sys, i, u)) (filter (fun '(i, u) => negb (legal sys u)) l) end) all_sys.

Lemma legal_ok t sys l i u : t sys = Some l -> In (i, u) l -> ~ In (sys, i, u) (illegal t) ->
  mk2 sys (sig_str (RS sys TC u)) = Some (RS sys TC u).
Proof.
  intros Ht HI HN. destruct (legal sys u) eqn:E.
  - unfold legal in E. destruct (mk2 _ _) as [r|]; [|discriminate]. f_equal. now apply rsig_eqb_eq.
  - exfalso. apply HN. unfold illegal. apply in_flat_map. exists sys. split; [apply all_sys_in|].
    rewrite Ht. apply in_map_iff. exists (i, u). split; [reflexivity|]. apply filter_In. split; [exact HI|]. now rewrite E.
Qed.
