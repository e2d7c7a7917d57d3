(** BDS D2: nine pages kept by satellite. *)
From Verif Require Import SatModel SatProofs TimeModel TimeSpec TimeProofs CssrState CssrFacts RawModel RawSpec RawFacts RawGal RawLnav RawProofs NavModel NavSpec NavFacts NavBds.
From Verif Require Import Base BaseFacts FieldFacts.
From Coq Require Import ZifyBool ZifyNat.
Notation length := List.length.
Open Scope Z_scope.

Definition gemp : list field := [(18 # 0); (8 # 0); (4 # 0); (12 # 0); (4 # 0); (114 # 0)].
Definition ggood (p : d2page) (rest : bits) : Prop := d2page_ok p.
Definition gkey (k : Z) : Prop := 1 <= k <= 10 /\ k <> 2.
Definition goff (k : Z) : nat := (160 * Z.to_nat (k - 1))%nat.
(** pages of subframe 1 by their number *)
Definition gno (p : d2page) : Z := if p_frame p =? 1 then pno (p_page p) else -1.
Definition gemit (p : d2page) : bool := (1 <=? gno p) && (gno p <=? 10).
(** the mean anomaly without ten of its bits, the eccentricity as a signed number, the root of the axis with four
    bits of another page *)
Definition rM (m : Z) : Z := m / 2 ^ 18 * 2 ^ 8 + m mod 2 ^ 8.
Definition rA (tgdb sqrtA : Z) : Z := sqrtA / 2 ^ 4 * 2 ^ 4 + tgdb mod 2 ^ 10 / 2 ^ 6.
Definition gres (sat : Z) (L : Z -> option d2page) : option eph :=
  d2_of sat far_week (at_week bds0) rM (sgn 32) rA (L 1) (L 3) (L 4) (L 5) (L 6) (L 7) (L 8) (L 9) (L 10).
Lemma gwid p : length (enc (d2page_fields p)) = 160%nat.
Proof. rewrite enc_length. destruct p as [z1 z2 z3 z4 [] z5 z6]; reflexivity. Qed.
Lemma gslot_width o : length (enc (slotf d2page_fields gemp o)) = 160%nat.
Proof. destruct o; [apply gwid|now rewrite enc_length]. Qed.
Lemma gno_range p : d2page_ok p -> U 4 (pno (p_page p)).
Proof. intros (_ & _ & H). destruct (p_page p); cbn [dpage_ok pno] in *; unfold U; lia. Qed.
(* ---------- arithmetic ---------- *)
Lemma rM_parts m : S_ 32 m -> (m / 2 ^ 30) mod 2 ^ 2 = (rM m / 2 ^ 20) mod 2 ^ 2 /\ (m / 2 ^ 8 / 2 ^ 10) mod 2 ^ 12 = (rM m / 2 ^ 8) mod 2 ^ 12 /\
  m mod 2 ^ 8 = rM m mod 2 ^ 8 /\ S_ 22 (rM m).
Proof.
  intros H. assert (E : rM m / 2 ^ 8 = m / 2 ^ 18).
  { unfold rM. rewrite Z.div_add_l by discriminate. rewrite (Z.div_small (m mod 2 ^ 8)); [apply Z.add_0_r|]. apply Z.mod_pos_bound. reflexivity. }
  split; [|split; [|split]].
  - change (2 ^ 20) with (2 ^ 8 * 2 ^ 12). rewrite <- Z.div_div, E, Z.div_div by (discriminate || reflexivity). reflexivity.
  - rewrite E, Z.div_div by (discriminate || reflexivity). reflexivity.
  - unfold rM. rewrite Z.add_comm, Z.mod_add by discriminate. now rewrite Z.mod_mod by discriminate.
  - unfold S_ in *. pose proof (Z.div_mod (rM m) (2 ^ 8) ltac:(discriminate)) as D. rewrite E in D.
    assert (B : - 2 ^ 13 <= m / 2 ^ 18 < 2 ^ 13) by (clear - H; split; [apply Z.div_le_lower_bound; lia|apply Z.div_lt_upper_bound; lia]).
    pose proof (Z.mod_pos_bound (rM m) (2 ^ 8) ltac:(reflexivity)). clear - D B H0. set (x := m / 2 ^ 18) in *. set (y := rM m mod 2 ^ 8) in *. clearbody x y. lia.
Qed.
Lemma rA_parts t a : U 32 a -> (a / 2 ^ 26) mod 2 ^ 6 = (rA t a / 2 ^ 26) mod 2 ^ 6 /\ (a / 2 ^ 4) mod 2 ^ 22 = (rA t a / 2 ^ 4) mod 2 ^ 22 /\
  (t / 2 ^ 6) mod 2 ^ 4 = rA t a mod 2 ^ 4 /\ U 32 (rA t a).
Proof.
  intros H. assert (B0 : 0 <= t mod 2 ^ 10 / 2 ^ 6 < 2 ^ 4).
  { pose proof (Z.mod_pos_bound t (2 ^ 10) ltac:(reflexivity)) as P. split; [apply Z.div_pos; [apply P|reflexivity]|apply Z.div_lt_upper_bound; [reflexivity|apply P]]. }
  assert (E : rA t a / 2 ^ 4 = a / 2 ^ 4).
  { unfold rA. rewrite Z.div_add_l by discriminate. rewrite (Z.div_small (_ / _)) by exact B0. apply Z.add_0_r. }
  split; [|split; [|split]].
  - change (2 ^ 26) with (2 ^ 4 * 2 ^ 22). now rewrite <- !Z.div_div, E by (discriminate || reflexivity).
  - now rewrite E.
  - unfold rA. rewrite (Z.add_comm (_ * _)), Z.mod_add by discriminate. rewrite (Z.mod_small (t mod 2 ^ 10 / 2 ^ 6) (2 ^ 4)) by exact B0.
    change (2 ^ 10) with (2 ^ 6 * 2 ^ 4). rewrite Z.rem_mul_r by (discriminate || reflexivity).
    rewrite (Z.mul_comm (2 ^ 6)), Z.div_add by discriminate. now rewrite (Z.div_small (t mod 2 ^ 6)) by (apply Z.mod_pos_bound; reflexivity).
  - unfold U in *. unfold rA. assert (B1 : 0 <= a / 2 ^ 4 < 2 ^ 28) by (split; [apply Z.div_pos; [apply H|reflexivity]|apply Z.div_lt_upper_bound; [reflexivity|apply H]]).
    clear - B0 B1. set (x := a / 2 ^ 4) in *. set (y := t mod 2 ^ 10 / 2 ^ 6) in *. clearbody x y. lia.
Qed.
Lemma e_parts eh el : U 10 eh -> U 22 el -> Z.shiftl (sgn 10 (eh mod 2 ^ Z.of_nat 10)) 22 + el = sgn 32 (2 ^ 22 * eh + el).
Proof.
  intros H1 H2. unfold U in *. rewrite Z.shiftl_mul_pow2 by discriminate. rewrite Z.mod_small by exact H1. unfold sgn.
  change (Z.of_nat 10 - 1) with 9. change (Z.of_nat 32 - 1) with 31. change (Z.of_nat 10) with 10. change (Z.of_nat 32) with 32.
  destruct (Z.ltb_spec eh (2 ^ 9)); destruct (Z.ltb_spec (2 ^ 22 * eh + el) (2 ^ 31)); lia.
Qed.
(** a field cut in two *)
Lemma enc_cut x l1 l2 v y : enc (x ++ ((l1 + l2)%nat, v) :: y) = enc (x ++ (l1, v / 2 ^ Z.of_nat l2) :: (l2, v) :: y).
Proof. rewrite !enc_app. f_equal. change (enc ((?a, ?b) :: ?c)) with (bitsof a b ++ enc c). unfold enc. cbn [flat_map]. rewrite app_assoc. f_equal. apply bitsof_two. Qed.

(* ---------- the pages ---------- *)
Definition gtime_ (o : option d2page) : Z := match o with Some p => p_sow p | None => 0 end.
Lemma g_top b k (o : option d2page) n : lokay ggood gno k o -> gkey k -> n = Z.to_nat (k - 1) -> At b (goff k) (enc (slotf d2page_fields gemp o)) ->
  getu b (160 * n + 42) 4 = Some (match o with Some _ => k | None => 0 end) /\ getbitu2 b (160 * n + 18) 8 (160 * n + 30) 12 = Some (gtime_ o).
Proof.
  intros Ho Hk -> A. unfold goff in A. set (i := (160 * Z.to_nat (k - 1))%nat) in *. clearbody i.
  assert (Hi : (i <= length b)%nat) by (apply At_bound in A; lia). apply At_skip in A. unfold getbitu2. rewrite !getu_skip by exact Hi. set (c := skipn i b) in *. clearbody c.
  change (bind (getu c 18 8) _) with (getbitu2 c 18 8 30 12).
  destruct o as [p|]; cbn [slotf lokay gtime_] in *.
  - destruct Ho as [(r & Hp) E]. pose proof (gno_range p Hp) as Hn. destruct Hp as (Hf & Hs & _). unfold gno in E. unfold gkey in Hk. destruct (p_frame p =? 1); [|lia].
    unfold d2page_fields in A. set (z := bwords _ _ ++ _) in A. clearbody z. cbn [app] in A. split.
    + rewrite <- E. eapply getu_u; [exact A|reflexivity|reflexivity|exact Hn].
    + eapply two_u; [exact A|exact A|reflexivity|reflexivity|reflexivity|reflexivity|reflexivity|exact Hs].
  - unfold gemp in A. split.
    + eapply getu_u; [exact A|reflexivity|reflexivity|split; [discriminate|reflexivity]].
    + eapply two_u; [exact A|exact A|reflexivity|reflexivity|reflexivity|reflexivity|reflexivity|split; [discriminate|reflexivity]].
Qed.
Definition all9 (L : Z -> option d2page) : bool := forallb (fun k => match L k with Some _ => true | None => false end) [1; 3; 4; 5; 6; 7; 8; 9; 10].
Definition times9 (L : Z -> option d2page) : bool :=
  let t k := gtime_ (L k) in
  (t 4 =? t 3 + 3) && (t 5 =? t 3 + 6) && (t 6 =? t 3 + 9) && (t 7 =? t 3 + 12) && (t 8 =? t 3 + 15) && (t 9 =? t 3 + 18) && (t 10 =? t 3 + 21).
Lemma chain t3 t4 t5 t6 t7 t8 t9 t10 :
  (t4 =? t3 + 3) && (t5 =? t3 + 6) && (t6 =? t3 + 9) && (t7 =? t3 + 12) && (t8 =? t3 + 15) && (t9 =? t3 + 18) && (t10 =? t3 + 21)
  = (t4 =? t3 + 3) && ((t5 =? t4 + 3) && ((t6 =? t5 + 3) && ((t7 =? t6 + 3) && ((t8 =? t7 + 3) && ((t9 =? t8 + 3) && (t10 =? t9 + 3)))))).
Proof.
  destruct (Z.eqb_spec t4 (t3 + 3)) as [->|]; cbn [andb]; [|reflexivity]. rewrite <- !Z.add_assoc. change (3 + 3) with 6.
  destruct (Z.eqb_spec t5 (t3 + 6)) as [->|]; cbn [andb]; [|reflexivity]. rewrite <- !Z.add_assoc. change (6 + 3) with 9.
  destruct (Z.eqb_spec t6 (t3 + 9)) as [->|]; cbn [andb]; [|reflexivity]. rewrite <- !Z.add_assoc. change (9 + 3) with 12.
  destruct (Z.eqb_spec t7 (t3 + 12)) as [->|]; cbn [andb]; [|reflexivity]. rewrite <- !Z.add_assoc. change (12 + 3) with 15.
  destruct (Z.eqb_spec t8 (t3 + 15)) as [->|]; cbn [andb]; [|reflexivity]. rewrite <- !Z.add_assoc. change (15 + 3) with 18.
  destruct (Z.eqb_spec t9 (t3 + 18)) as [->|]; cbn [andb]; [|reflexivity]. rewrite <- !Z.add_assoc. reflexivity.
Qed.
Lemma d2_step b n k s o (t : Z) : (k <> 1)%nat -> getu b (160 * k + 42) 4 = Some (match o with Some _ => Z.of_nat k + 1 | None => 0 end) ->
  getbitu2 b (160 * k + 18) 8 (160 * k + 30) 12 = Some (gtime_ o) ->
  d2_pages b (S n) k s = match o with
    | None => Some None
    | Some p => let s' := upd k (fun _ => p_sow p) s in
        if (0 <? k)%nat && negb (k =? 2)%nat && negb (p_sow p =? nth (k - 1) s' 0 + 3) then Some None else d2_pages b n (k + 1) s'
    end.
Proof.
  intros Hk G T. cbn [d2_pages]. replace (k =? 1)%nat with false by lia. rewrite G. cbn [bind]. destruct o as [p|].
  - rewrite Z.eqb_refl. cbn [negb]. rewrite T. reflexivity.
  - now replace (0 =? Z.of_nat k + 1) with false by lia.
Qed.
Lemma pages_ok b L : (forall k, gkey k -> lokay ggood gno k (L k)) -> (forall k, gkey k -> At b (goff k) (enc (slotf d2page_fields gemp (L k)))) ->
  exists c, d2_pages b 10 0 (repeat 0 10%nat) = Some c /\
    if all9 L && times9 L then exists s, c = Some s /\ nth 0 s 0 = gtime_ (L 1) else c = None.
Proof.
  intros HL HA.
  assert (T : forall k n, gkey k -> n = Z.to_nat (k - 1) -> getu b (160 * n + 42) 4 = Some (match L k with Some _ => k | None => 0 end) /\
     getbitu2 b (160 * n + 18) 8 (160 * n + 30) 12 = Some (gtime_ (L k))) by (intros k n Hk Hn; apply g_top; auto). clear HL HA.
  destruct (T 1 0%nat ltac:(unfold gkey; lia) eq_refl) as [G0 H0]. destruct (T 3 2%nat ltac:(unfold gkey; lia) eq_refl) as [G2 H2].
  destruct (T 4 3%nat ltac:(unfold gkey; lia) eq_refl) as [G3 H3]. destruct (T 5 4%nat ltac:(unfold gkey; lia) eq_refl) as [G4 H4].
  destruct (T 6 5%nat ltac:(unfold gkey; lia) eq_refl) as [G5 H5]. destruct (T 7 6%nat ltac:(unfold gkey; lia) eq_refl) as [G6 H6].
  destruct (T 8 7%nat ltac:(unfold gkey; lia) eq_refl) as [G7 H7]. destruct (T 9 8%nat ltac:(unfold gkey; lia) eq_refl) as [G8 H8].
  destruct (T 10 9%nat ltac:(unfold gkey; lia) eq_refl) as [G9 H9]. clear T.
  unfold all9, times9. cbv zeta. rewrite chain. cbn [forallb].
  set (o1 := L 1) in *. set (o3 := L 3) in *. set (o4 := L 4) in *. set (o5 := L 5) in *. set (o6 := L 6) in *. set (o7 := L 7) in *. set (o8 := L 8) in *. set (o9 := L 9) in *. set (o10 := L 10) in *.
  clearbody o1 o3 o4 o5 o6 o7 o8 o9 o10.
  rewrite (d2_step b 9 0 _ o1 0 ltac:(discriminate) G0 H0). destruct o1 as [q1|]; [|eexists; split; reflexivity]. cbn [Nat.ltb Nat.leb andb repeat upd Nat.add]. cbv zeta iota.
  change (d2_pages b 9 1 ?s) with (d2_pages b 8 2 s).
  rewrite (d2_step b 7 2 _ o3 0 ltac:(discriminate) G2 H2). destruct o3 as [q3|]; [|eexists; split; reflexivity]. cbn [Nat.ltb Nat.leb Nat.eqb negb andb upd Nat.add]. cbv zeta iota.
  rewrite (d2_step b 6 3 _ o4 0 ltac:(discriminate) G3 H3). destruct o4 as [q4|]; [|eexists; split; reflexivity]. cbn [Nat.ltb Nat.leb Nat.eqb Nat.sub negb andb upd nth Nat.add gtime_]. cbv zeta iota.
  destruct (p_sow q4 =? p_sow q3 + 3); cbn [negb andb]; [|eexists; split; [reflexivity|]; now rewrite andb_false_r].
  rewrite (d2_step b 5 4 _ o5 0 ltac:(discriminate) G4 H4). destruct o5 as [q5|]; [|eexists; split; reflexivity]. cbn [Nat.ltb Nat.leb Nat.eqb Nat.sub negb andb upd nth Nat.add gtime_]. cbv zeta iota.
  destruct (p_sow q5 =? p_sow q4 + 3); cbn [negb andb]; [|eexists; split; [reflexivity|]; now rewrite andb_false_r].
  rewrite (d2_step b 4 5 _ o6 0 ltac:(discriminate) G5 H5). destruct o6 as [q6|]; [|eexists; split; reflexivity]. cbn [Nat.ltb Nat.leb Nat.eqb Nat.sub negb andb upd nth Nat.add gtime_]. cbv zeta iota.
  destruct (p_sow q6 =? p_sow q5 + 3); cbn [negb andb]; [|eexists; split; [reflexivity|]; now rewrite andb_false_r].
  rewrite (d2_step b 3 6 _ o7 0 ltac:(discriminate) G6 H6). destruct o7 as [q7|]; [|eexists; split; reflexivity]. cbn [Nat.ltb Nat.leb Nat.eqb Nat.sub negb andb upd nth Nat.add gtime_]. cbv zeta iota.
  destruct (p_sow q7 =? p_sow q6 + 3); cbn [negb andb]; [|eexists; split; [reflexivity|]; now rewrite andb_false_r].
  rewrite (d2_step b 2 7 _ o8 0 ltac:(discriminate) G7 H7). destruct o8 as [q8|]; [|eexists; split; reflexivity]. cbn [Nat.ltb Nat.leb Nat.eqb Nat.sub negb andb upd nth Nat.add gtime_]. cbv zeta iota.
  destruct (p_sow q8 =? p_sow q7 + 3); cbn [negb andb]; [|eexists; split; [reflexivity|]; now rewrite andb_false_r].
  rewrite (d2_step b 1 8 _ o9 0 ltac:(discriminate) G8 H8). destruct o9 as [q9|]; [|eexists; split; reflexivity]. cbn [Nat.ltb Nat.leb Nat.eqb Nat.sub negb andb upd nth Nat.add gtime_]. cbv zeta iota.
  destruct (p_sow q9 =? p_sow q8 + 3); cbn [negb andb]; [|eexists; split; [reflexivity|]; now rewrite andb_false_r].
  rewrite (d2_step b 0 9 _ o10 0 ltac:(discriminate) G9 H9). destruct o10 as [q10|]; [|eexists; split; reflexivity]. cbn [Nat.ltb Nat.leb Nat.eqb Nat.sub negb andb upd nth Nat.add gtime_]. cbv zeta iota.
  destruct (p_sow q10 =? p_sow q9 + 3); cbn [negb andb d2_pages]; (eexists; split; [reflexivity|]); [|reflexivity]. eexists. split; reflexivity.
Qed.

(* ---------- the ephemeris ---------- *)
Lemma g_is k (o : option d2page) p : lokay ggood gno k o -> o = Some p -> gkey k -> p_frame p = 1 /\ U 20 (p_sow p) /\ dpage_ok (p_page p) /\ pno (p_page p) = k.
Proof.
  intros Ho -> Hk. cbn [lokay] in Ho. destruct Ho as [(r & _ & Hs & Hp) E]. unfold gno in E. unfold gkey in Hk. destruct (Z.eqb_spec (p_frame p) 1); [|lia]. repeat split; try assumption; apply Hs.
Qed.
(** read the next field from the page it is in *)
Ltac page_at b p k :=
  let o := eval cbv in (160 * (p / 160))%nat in
  match goal with A : At b o (enc ?fl) |- _ =>
    let r := eval cbv [fat Nat.leb Nat.eqb Nat.sub Nat.add Nat.mul] in (fat fl (p - o)) in
    lazymatch r with Some (_, ?v) => k A o fl v end
  end.
Ltac rdp :=
  cbv beta zeta;
  lazymatch goal with
  | |- bind (getu ?b ?i ?n) _ = _ => page_at b i ltac:(fun A o fl v => refine (bind_eq _ _ _ _ (getu_u b o fl i n v A eq_refl eq_refl _) _); [rng0|])
  | |- bind (gets ?b ?i ?n) _ = _ => page_at b i ltac:(fun A o fl v =>
      first [refine (bind_eq _ _ _ _ (gets_s b o fl i n v A eq_refl eq_refl _ _) _); [clear; lia|rng0|] | refine (bind_eq _ _ _ _ (gets_f b o fl i n v A eq_refl eq_refl) _)])
  | |- bind (getbitu2 ?b ?p1 ?l1 ?p2 ?l2) _ = _ => page_at b p1 ltac:(fun A o fl h => page_at b p2 ltac:(fun A' o' fl' v =>
      refine (bind_eq _ _ _ _ (two_u b o fl o' fl' p1 l1 p2 l2 h v A A' eq_refl eq_refl eq_refl eq_refl eq_refl _) _); [rng0|]))
  | |- bind (getbits2 ?b ?p1 ?l1 ?p2 ?l2) _ = _ => page_at b p1 ltac:(fun A o fl h => page_at b p2 ltac:(fun A' o' fl' v =>
      refine (bind_eq _ _ _ _ (two_s b o fl o' fl' p1 l1 p2 l2 h v A A' eq_refl eq_refl eq_refl eq_refl eq_refl _ _) _); [clear; lia|rng0|]))
  | |- bind (getbits3 ?b ?p1 ?l1 ?p2 ?l2 ?p3 ?l3) _ = _ => match goal with G : getbits3 b p1 l1 p2 l2 p3 l3 = _ |- _ => refine (bind_eq _ _ _ _ G _) end
  | |- bind (getbitu3 ?b ?p1 ?l1 ?p2 ?l2 ?p3 ?l3) _ = _ => match goal with G : getbitu3 b p1 l1 p2 l2 p3 l3 = _ |- _ => refine (bind_eq _ _ _ _ G _) end
  end; cbv beta.
Lemma d2_eph_ok sat b q1 q3 q4 q5 q6 q7 q8 q9 q10 :
  (p_frame q1 = 1 /\ U 20 (p_sow q1) /\ dpage_ok (p_page q1) /\ pno (p_page q1) = 1) ->
  (p_frame q3 = 1 /\ U 20 (p_sow q3) /\ dpage_ok (p_page q3) /\ pno (p_page q3) = 3) ->
  (p_frame q4 = 1 /\ U 20 (p_sow q4) /\ dpage_ok (p_page q4) /\ pno (p_page q4) = 4) ->
  (p_frame q5 = 1 /\ U 20 (p_sow q5) /\ dpage_ok (p_page q5) /\ pno (p_page q5) = 5) ->
  (p_frame q6 = 1 /\ U 20 (p_sow q6) /\ dpage_ok (p_page q6) /\ pno (p_page q6) = 6) ->
  (p_frame q7 = 1 /\ U 20 (p_sow q7) /\ dpage_ok (p_page q7) /\ pno (p_page q7) = 7) ->
  (p_frame q8 = 1 /\ U 20 (p_sow q8) /\ dpage_ok (p_page q8) /\ pno (p_page q8) = 8) ->
  (p_frame q9 = 1 /\ U 20 (p_sow q9) /\ dpage_ok (p_page q9) /\ pno (p_page q9) = 9) ->
  (p_frame q10 = 1 /\ U 20 (p_sow q10) /\ dpage_ok (p_page q10) /\ pno (p_page q10) = 10) ->
  At b 0 (enc (d2page_fields q1)) -> At b 320 (enc (d2page_fields q3)) -> At b 480 (enc (d2page_fields q4)) -> At b 640 (enc (d2page_fields q5)) ->
  At b 800 (enc (d2page_fields q6)) -> At b 960 (enc (d2page_fields q7)) -> At b 1120 (enc (d2page_fields q8)) -> At b 1280 (enc (d2page_fields q9)) ->
  At b 1440 (enc (d2page_fields q10)) ->
  (p_sow q4 =? p_sow q3 + 3) && (p_sow q5 =? p_sow q3 + 6) && (p_sow q6 =? p_sow q3 + 9) && (p_sow q7 =? p_sow q3 + 12) && (p_sow q8 =? p_sow q3 + 15) &&
  (p_sow q9 =? p_sow q3 + 18) && (p_sow q10 =? p_sow q3 + 21) = true ->
  d2_eph sat (p_sow q1) b = Some (d2_of sat far_week (at_week bds0) rM (sgn 32) rA (Some q1) (Some q3) (Some q4) (Some q5) (Some q6) (Some q7) (Some q8) (Some q9) (Some q10)).
Proof.
  intros (_ & Us & K1 & N1) (_ & _ & K3 & N3) (_ & _ & K4 & N4) (_ & _ & K5 & N5) (_ & _ & K6 & N6) (_ & _ & K7 & N7) (_ & _ & K8 & N8) (_ & _ & K9 & N9) (_ & _ & K10 & N10)
    B1 B3 B4 B5 B6 B7 B8 B9 B10 T.
  unfold d2page_fields in *.
  destruct q1 as [v1 w1 s1 t1 p1 x1 y1]. destruct q3 as [v3 w3 s3 t3 p3 x3 y3]. destruct q4 as [v4 w4 s4 t4 p4 x4 y4]. destruct q5 as [v5 w5 s5 t5 p5 x5 y5]. destruct q6 as [v6 w6 s6 t6 p6 x6 y6].
  destruct q7 as [v7 w7 s7 t7 p7 x7 y7]. destruct q8 as [v8 w8 s8 t8 p8 x8 y8]. destruct q9 as [v9 w9 s9 t9 p9 x9 y9]. destruct q10 as [v10 w10 s10 t10 p10 x10 y10].
  cbn [p_rev p_frame p_sow p_par1 p_page p_par p_pad] in *.
  destruct p1 as [svh iodc ura wn toc tgd tgdb r1| | | | | | | | |]; cbn [pno dpage_ok] in N1, K1; try discriminate; [|clear - N1 K1; lia].
  destruct p3 as [|z1 z2 z3 af0 a1h z4| | | | | | | |]; cbn [pno dpage_ok] in N3, K3; try discriminate; [|clear - N3 K3; lia].
  destruct p4 as [| |a1l af2 iode deln cuch z5| | | | | | |]; cbn [pno dpage_ok] in N4, K4; try discriminate; [|clear - N4 K4; lia].
  destruct p5 as [| | |cucl M0 cus eh z6| | | | | |]; cbn [pno dpage_ok] in N5, K5; try discriminate; [|clear - N5 K5; lia].
  destruct p6 as [| | | |el sqA cich z7| | | | |]; cbn [pno dpage_ok] in N6, K6; try discriminate; [|clear - N6 K6; lia].
  destruct p7 as [| | | | |cicl cis toe i0h z8| | | |]; cbn [pno dpage_ok] in N7, K7; try discriminate; [|clear - N7 K7; lia].
  destruct p8 as [| | | | | |i0l crc crs OMGdh z9| | |]; cbn [pno dpage_ok] in N8, K8; try discriminate; [|clear - N8 K8; lia].
  destruct p9 as [| | | | | | |OMGdl OMG0 omgh z10| |]; cbn [pno dpage_ok] in N9, K9; try discriminate; [|clear - N9 K9; lia].
  destruct p10 as [| | | | | | | |omgl idot z11 z12 z13|]; cbn [pno dpage_ok] in N10, K10; try discriminate; [|clear - N10 K10; lia].
  cbn [pno pwords bwords app] in *.
  destruct K1 as (? & ? & Ku & ? & ? & ? & ?). destruct K3 as (? & ?). destruct K4 as (? & ? & ? & ? & ?). destruct K5 as (? & KM & ? & KE). destruct K6 as (KE' & KA & ?).
  destruct K7 as (? & ? & ? & ?). destruct K8 as (? & ? & ? & ?). destruct K9 as (? & KO & ?). destruct K10 as (? & ?).
  destruct (rM_parts M0 KM) as (M1 & M2 & M3 & M4). destruct (rA_parts tgdb sqA KA) as (A1 & A2 & A3 & A4).
  assert (GM : getbits3 b (640 + 50) 2 (640 + 60) 12 (640 + 90) 8 = Some (rM M0)).
  { match type of B5 with At _ _ (enc ?l) => pose proof (enc_cut (firstn 10 l) 12 10 (M0 / 2 ^ 8) (skipn 11 l)) as C; cbn [firstn skipn app Nat.add] in C end.
    apply (eq_ind _ (fun z : bits => At b 640 z) B5 _) in C. clear B5. rename C into B5. clear - B5 M1 M2 M3 M4. eapply three_s; [exact B5|reflexivity|reflexivity|reflexivity|reflexivity|reflexivity|reflexivity|exact M1|exact M2|exact M3| |exact M4]. lia. }
  assert (GA : getbitu3 b (800 + 76) 6 (800 + 90) 22 120 4 = Some (rA tgdb sqA)).
  { match type of B1 with At _ _ (enc ?l) => pose proof (enc_cut (firstn 17 l) 4 6 tgdb (skipn 18 l)) as C; cbn [firstn skipn app Nat.add] in C end.
    apply (eq_ind _ (fun z : bits => At b 0 z) B1 _) in C. clear B1. rename C into B1. clear - B1 B6 A1 A2 A3 A4. eapply three_u; [exact B6|exact B6|exact B1|reflexivity|reflexivity|reflexivity|reflexivity|reflexivity|reflexivity|exact A1|exact A2|exact A3|exact A4]. }
  assert (GO : getbits3 b (1280 + 51) 1 (1280 + 60) 22 (1280 + 90) 9 = Some OMG0).
  { clear - B9 KO. eapply three_s; [exact B9|reflexivity|reflexivity|reflexivity|reflexivity|reflexivity|reflexivity|reflexivity|reflexivity|reflexivity|lia|exact KO]. }
  clear M1 M2 M3 M4 A1 A2 A3 A4.
  unfold d2_eph. change (160 * 2)%nat with 320%nat. change (160 * 3)%nat with 480%nat. change (160 * 4)%nat with 640%nat. change (160 * 5)%nat with 800%nat. change (160 * 6)%nat with 960%nat.
  change (160 * 7)%nat with 1120%nat. change (160 * 8)%nat with 1280%nat. change (160 * 9)%nat with 1440%nat.
  repeat rdp.
  clear B1 B3 B4 B5 B6 B7 B8 B9 B10.
  destruct (ura_some ura Ku) as (sv & E1 & E2). rewrite E1. cbn [bind]. unfold d2_of. cbn [p_page p_sow]. rewrite T. cbv zeta. rewrite E2, !far_eq. rewrite e_parts by assumption.
  rewrite !Z.shiftl_mul_pow2 by discriminate.
  assert (P1 : 0 <= s1 <= 1000000000) by (unfold U in Us; clear - Us; lia).
  assert (P2 : 0 <= toc * 8 <= 1000000000) by (match goal with H : U 17 toc |- _ => unfold U in H; clear - H; lia end).
  assert (P3 : 0 <= toe * 8 <= 1000000000) by (match goal with H : U 17 toe |- _ => unfold U in H; clear - H; lia end).
  rewrite (bdt_gps wn s1 P1), (bdt_exact _ _ P2), (bdt_exact _ _ P3).
  rewrite (Z.mul_comm toc 8), (Z.mul_comm toe 8), (Z.mul_comm a1h), (Z.mul_comm cuch), (Z.mul_comm cich), (Z.mul_comm i0h), (Z.mul_comm OMGdh), (Z.mul_comm omgh). reflexivity.
Qed.

Lemma g_result sat b (L : Z -> option d2page) : (forall k, gkey k -> lokay ggood gno k (L k)) ->
  (forall k, gkey k -> At b (goff k) (enc (slotf d2page_fields gemp (L k)))) -> all9 L = true -> times9 L = true ->
  d2_eph sat (gtime_ (L 1)) b = Some (gres sat L).
Proof.
  intros HL HA H9 HT. unfold all9 in H9. cbn [forallb] in H9.
  assert (K : forall k, 1 <= k <= 10 -> k <> 2 -> gkey k) by (intros; split; assumption).
  assert (E : forall k p, gkey k -> L k = Some p -> (p_frame p = 1 /\ U 20 (p_sow p) /\ dpage_ok (p_page p) /\ pno (p_page p) = k) /\ At b (goff k) (enc (d2page_fields p))).
  { intros k p Hk Ek. split; [now apply (g_is k (L k)); [apply HL| |]|]. pose proof (HA k Hk) as A. now rewrite Ek in A. }
  assert (E1 := fun p => E 1 p ltac:(apply K; lia)). assert (E3 := fun p => E 3 p ltac:(apply K; lia)). assert (E4 := fun p => E 4 p ltac:(apply K; lia)).
  assert (E5 := fun p => E 5 p ltac:(apply K; lia)). assert (E6 := fun p => E 6 p ltac:(apply K; lia)). assert (E7 := fun p => E 7 p ltac:(apply K; lia)).
  assert (E8 := fun p => E 8 p ltac:(apply K; lia)). assert (E9 := fun p => E 9 p ltac:(apply K; lia)). assert (E10 := fun p => E 10 p ltac:(apply K; lia)).
  clear E K HL HA. unfold times9 in HT. cbv zeta in HT. unfold gres.
  destruct (L 1) as [q1|]; [|discriminate]. destruct (L 3) as [q3|]; [|discriminate]. destruct (L 4) as [q4|]; [|discriminate]. destruct (L 5) as [q5|]; [|discriminate].
  destruct (L 6) as [q6|]; [|discriminate]. destruct (L 7) as [q7|]; [|discriminate]. destruct (L 8) as [q8|]; [|discriminate]. destruct (L 9) as [q9|]; [|discriminate].
  destruct (L 10) as [q10|]; [|discriminate]. clear H9. cbn [gtime_] in *.
  destruct (E1 q1 eq_refl). destruct (E3 q3 eq_refl). destruct (E4 q4 eq_refl). destruct (E5 q5 eq_refl). destruct (E6 q6 eq_refl). destruct (E7 q7 eq_refl).
  destruct (E8 q8 eq_refl). destruct (E9 q9 eq_refl). destruct (E10 q10 eq_refl). clear E1 E3 E4 E5 E6 E7 E8 E9 E10.
  apply d2_eph_ok; assumption.
Qed.
Lemma g_none sat (L : Z -> option d2page) : all9 L && times9 L = false -> gres sat L = None.
Proof.
  intros H. unfold all9, times9 in H. cbv zeta in H. cbn [forallb] in H. unfold gres, d2_of.
  destruct (L 1) as [q1|]; [|reflexivity]. destruct (L 3) as [q3|]; [|reflexivity]. destruct (L 4) as [q4|]; [|reflexivity]. destruct (L 5) as [q5|]; [|reflexivity].
  destruct (L 6) as [q6|]; [|reflexivity]. destruct (L 7) as [q7|]; [|reflexivity]. destruct (L 8) as [q8|]; [|reflexivity]. destruct (L 9) as [q9|]; [|reflexivity].
  destruct (L 10) as [q10|]; [|reflexivity]. cbn [andb gtime_] in H. rewrite H.
  destruct (p_page q1); try reflexivity. destruct (p_page q3); try reflexivity. destruct (p_page q4); try reflexivity. destruct (p_page q5); try reflexivity.
  destruct (p_page q6); try reflexivity. destruct (p_page q7); try reflexivity. destruct (p_page q8); try reflexivity. destruct (p_page q9); try reflexivity.
  destruct (p_page q10); reflexivity.
Qed.
Lemma g_heads m rest : d2page_ok m -> let x := enc (d2page_fields m) ++ rest in
  getu x 0 11 = Some 1810 /\ getu x 15 3 = Some (p_frame m) /\ getu x 42 4 = Some (pno (p_page m)).
Proof.
  intros Hm x. assert (A : At x 0 (enc (d2page_fields m))) by (exists [], rest; split; reflexivity). clearbody x. pose proof (gno_range m Hm) as Hn. destruct Hm as (Hf & _ & _).
  unfold d2page_fields in A. set (r := bwords _ _ ++ _) in A. clearbody r. cbn [app] in A. split; [|split].
  - eapply getu_u; [exact A|reflexivity|reflexivity|split; [discriminate|reflexivity]].
  - eapply getu_u; [exact A|reflexivity|reflexivity|exact Hf].
  - eapply getu_u; [exact A|reflexivity|reflexivity|exact Hn].
Qed.
Lemma ghead m rest : RawModel.head 20 (enc (d2page_fields m) ++ rest) = enc (d2page_fields m).
Proof.
  unfold RawModel.head. change (8 * 20)%nat with 160%nat. pose proof (gwid m) as W. rewrite firstn_app, W, Nat.sub_diag, firstn_O, app_nil_r.
  apply firstn_all2. lia.
Qed.
Lemma emit_eq m : d2page_ok m -> (p_frame m =? 1) && ((pno (p_page m) >=? 1) && (pno (p_page m) <=? 10)) = gemit m.
Proof. intros _. unfold gemit, gno. destruct (p_frame m =? 1); cbn [andb]; [|reflexivity]. lia. Qed.
Lemma g_quiet : quiet decode_bds_d2 d2page_fields gno gkey ggood gemit.
Proof.
  intros q m rest d Hq Hg He. destruct (sat2prn_prn2sat BDS q Hq) as [Es _]. unfold decode_bds_d2. rewrite Es. cbv beta iota.
  destruct (g_heads m rest Hg) as (G1 & G2 & G3). rewrite G1, G2, G3. cbn [bind]. rewrite (emit_eq m Hg), He. cbn [Z.eqb Pos.eqb negb].
  split; [reflexivity|]. unfold gemit in He. unfold gkey. lia.
Qed.
Lemma g_keeps : keeps decode_bds_d2 d2page_fields gno gemp gkey goff ggood gemit gres.
Proof.
  intros q m rest d b L Hq Hg He Eb Lb Bb HL HA L'. destruct (sat2prn_prn2sat BDS q Hq) as [Es _]. unfold decode_bds_d2. rewrite Es. cbv beta iota.
  destruct (g_heads m rest Hg) as (G1 & G2 & G3). rewrite G1, G2, G3. cbn [bind]. rewrite (emit_eq m Hg), He. cbn [Z.eqb Pos.eqb negb].
  rewrite Eb. cbn [bind]. rewrite ghead. pose proof (gwid m) as W. unfold gemit in He.
  assert (En : gno m = pno (p_page m)) by (unfold gno in *; destruct (p_frame m =? 1); [reflexivity|discriminate]). rewrite <- En.
  rewrite setslice_splice by lia. replace (8 * Z.to_nat ((gno m - 1) * 20))%nat with (goff (gno m)) by (unfold goff; lia).
  set (b2 := splice b (goff (gno m)) (enc (d2page_fields m))).
  assert (Ho : (goff (gno m) + 160 <= length b)%nat) by (unfold goff; lia).
  assert (L2 : length b2 = length b) by (unfold b2; rewrite splice_length; lia).
  assert (B2 : bytelen b2 = bytelen b) by (unfold bytelen; now rewrite L2).
  assert (HL' : forall k, gkey k -> lokay ggood gno k (L' k)).
  { intros k Hk. unfold L'. destruct (Z.eqb_spec (gno m) k) as [<-|]; [|now apply HL]. split; [exists rest; exact Hg|reflexivity]. }
  assert (A2 : forall k, gkey k -> At b2 (goff k) (enc (slotf d2page_fields gemp (L' k)))).
  { intros k Hk. unfold L'. destruct (Z.eqb_spec (gno m) k) as [<-|Hne].
    - cbn [slotf]. apply splice_at. lia.
    - apply At_keep; [now apply HA|lia|]. rewrite gslot_width. unfold gkey in Hk. unfold goff. lia. }
  exists b2. destruct (pages_ok b2 L' HL' A2) as (c & -> & Hc). cbn [bind].
  split; [|split; [lia|split; [lia|exact A2]]].
  destruct (all9 L' && times9 L') eqn:Q.
  - apply andb_prop in Q. destruct Q as [Q1 Q2]. destruct Hc as (s & -> & ->). rewrite (g_result _ b2 L' HL' A2 Q1 Q2). reflexivity.
  - rewrite Hc, (g_none _ L' Q). reflexivity.
Qed.
Lemma d2_any h e : Forall (bgood ggood) h -> bgood ggood e ->
  exists d d', bfeeds decode_bds_d2 d2page_fields h bds_new = Some d /\ bfeed decode_bds_d2 d2page_fields e d = Some (d', bresult gno gemit gres h e).
Proof.
  apply (bany _ _ _ gemp gkey goff).
  - apply g_quiet. - apply g_keeps.
  - intros s L L' H. unfold gres. now rewrite !H.
  - intros k [Hk _]. apply zb; [rewrite enc_length; cbn [fwidth gemp]; unfold goff; cbn; lia|reflexivity].
Qed.
