(** Ephemeris selection and correction gating. *)
From Verif Require Import EphModel EphSpec CssrFacts.
From Coq Require Import ZifyBool.
Open Scope Z_scope.

(** the corrections in the operations of the model; see [orbit_m_iff], [clock_m_iff].
    The orbit correction that applies at [tobs] *)
Definition orbit_m (U : Z) (c : scs) (tobs : gtime) (sat : Z) (o : vec) : Prop :=
  exists d, zget sat (c_dorb c) = Some d /\
    if is_rate (c_mode c) then
      exists v t0 tt, zget sat (c_dvel c) = Some v /\ zget sat (c_t0 c) = Some t0 /\ zget tO t0 = Some tt /\
        o = vadd d (vscale v (timediff U tobs tt))
    else o = d.
(** the clock correction that applies at [tobs]: for BDS PPP-B2b the one whose issue agrees with the
    orbit correction; otherwise the stored one, plus the high-rate correction if there is one, plus
    the drift for SBAS and SouthPAN *)
Definition clock_m (U : Z) (c : scs) (tobs : gtime) (sat : Z) (k : num) : Prop :=
  match c_mode c with
  | MBds =>
    exists a, zget sat (c_iodc c) = Some a /\
      ((zget sat (c_iodc_c c) = Some a /\ zget sat (c_dclk c) = Some k) \/
       (zget sat (c_iodc_c c) <> Some a /\ zget sat (c_iodc_c_p c) = Some a /\ zget sat (c_dclk_p c) = Some k))
  | m =>
    exists v w, zget sat (c_dclk c) = Some v /\
      w = (if c_hstat c then
             match c_hclk c with
             | Some h => match zget sat h with Some (Some x) => nadd v (Some x) | _ => v end
             | None => v
             end
           else v) /\
      if is_rate m then
        exists f t0 tt, zget sat (c_ddft c) = Some f /\ zget sat (c_t0 c) = Some t0 /\ zget tC t0 = Some tt /\
          k = nadd w (nscale f (timediff U tobs tt))
      else k = w
  end.

Lemma rates_iff m : with_rates m <-> is_rate m = true.
Proof. unfold with_rates. destruct m; cbn; intuition discriminate. Qed.
Lemma orbit_m_iff U c tobs sat o : finite_vec o -> (orbit_m U c tobs sat o <-> orbit_corr U c tobs sat o).
Proof.
  intros (x & y & z & ->). unfold orbit_m, orbit_corr, ref_time. split.
  - intros (d & E & H). exists x, y, z. split; [reflexivity|]. rewrite rates_iff. destruct (is_rate (c_mode c)).
    + right. split; [reflexivity|]. destruct H as (v & t0 & tt & E1 & E2 & E3 & E4).
      destruct d as [[[?|] [?|]] [?|]]; destruct v as [[[?|] [?|]] [?|]]; try discriminate E4. injection E4 as -> -> ->.
      do 7 eexists. split; [exact E|]. split; [exact E1|]. split; [eauto|]. cbv zeta. auto.
    + left. split; [discriminate|]. rewrite H. exact E.
  - intros (x' & y' & z' & Eo & H). injection Eo as <- <- <-. rewrite rates_iff in H. destruct (is_rate (c_mode c)).
    + destruct H as [(H & _)|(_ & x0 & y0 & z0 & vx & vy & vz & tt & E & E1 & (d & E2 & E3) & -> & -> & ->)]; [now contradiction H|].
      eexists. split; [exact E|]. do 3 eexists. split; [exact E1|]. split; [exact E2|]. split; [exact E3|]. reflexivity.
    + destruct H as [(_ & H)|(H & _)]; [|discriminate H]. eauto.
Qed.
Lemma clock_m_iff U c tobs sat x :
  (clock_m U c tobs sat (Some x) <-> clock_corr U c tobs sat x).
Proof.
  unfold clock_m, clock_corr.
  assert (G : forall m, m <> MBds -> c_mode c = m ->
   ((exists v w, zget sat (c_dclk c) = Some v /\
      w = (if c_hstat c then
             match c_hclk c with
             | Some h => match zget sat h with Some (Some x) => nadd v (Some x) | _ => v end
             | None => v
             end
           else v) /\
      if is_rate m then
        exists f t0 tt, zget sat (c_ddft c) = Some f /\ zget sat (c_t0 c) = Some t0 /\ zget tC t0 = Some tt /\
          Some x = nadd w (nscale f (timediff U tobs tt))
      else Some x = w) <->
    (exists v hr rate, zget sat (c_dclk c) = Some (Some v) /\ x = v + hr + rate /\
      ((c_hstat c = true /\ exists h, c_hclk c = Some h /\ zget sat h = Some (Some hr)) \/
       (hr = 0 /\ ~ (c_hstat c = true /\ exists h y, c_hclk c = Some h /\ zget sat h = Some (Some y)))) /\
      ((~ with_rates m /\ rate = 0) \/
       (with_rates m /\ exists f tt, zget sat (c_ddft c) = Some (Some f) /\ ref_time c sat 2 tt /\
          rate = f * timediff U tobs tt))))).
  { intros m Hm _. setoid_rewrite rates_iff. split.
    - intros (v & w & E & Ew & H).
      assert (W : (exists v0, v = Some v0 /\ exists hr, w = Some (v0 + hr) /\
        ((c_hstat c = true /\ exists h, c_hclk c = Some h /\ zget sat h = Some (Some hr)) \/
         (hr = 0 /\ ~ (c_hstat c = true /\ exists h y, c_hclk c = Some h /\ zget sat h = Some (Some y))))) \/ w = None).
      { destruct v as [v0|].
        2:{ right. destruct (c_hstat c); [|exact Ew]. destruct (c_hclk c) as [h|]; [|exact Ew].
            destruct (zget sat h) as [[?|]|]; exact Ew. }
        left. exists v0. split; [reflexivity|]. destruct (c_hstat c).
        - destruct (c_hclk c) as [h|]; [|exists 0; rewrite Z.add_0_r; split; [exact Ew|]; right; split; [reflexivity|]; intros (_ & h' & y & E1 & E2); discriminate E1].
          destruct (zget sat h) as [[y|]|] eqn:Eh.
          + exists y. split; [exact Ew|]. left. eauto.
          + exists 0. rewrite Z.add_0_r. split; [exact Ew|]. right. split; [reflexivity|].
            intros (_ & h' & y & E1 & E2). congruence.
          + exists 0. rewrite Z.add_0_r. split; [exact Ew|]. right. split; [reflexivity|].
            intros (_ & h' & y & E1 & E2). congruence.
        - exists 0. rewrite Z.add_0_r. split; [exact Ew|]. right. split; [reflexivity|]. intros (D & _). discriminate D. }
      clear Ew. destruct W as [(v0 & -> & hr & -> & Hr)| -> ].
      2:{ destruct (is_rate m); [destruct H as (? & ? & ? & _ & _ & _ & H)|]; discriminate H. }
      exists v0, hr. destruct (is_rate m).
      + destruct H as (f & t0 & tt & E1 & E2 & E3 & E4). destruct f as [f|]; [|discriminate E4]. injection E4 as ->.
        exists (f * timediff U tobs tt). split; [exact E|]. split; [reflexivity|]. split; [exact Hr|]. right.
        split; [reflexivity|]. exists f, tt. split; [exact E1|]. split; [exists t0; auto|reflexivity].
      + injection H as ->. exists 0. split; [exact E|]. split; [lia|]. split; [exact Hr|]. left. split; [discriminate|reflexivity].
    - intros (v & hr & rate & E & -> & Hr & Hq). exists (Some v), (Some (v + hr)). split; [exact E|]. split.
      + destruct Hr as [(-> & h & -> & ->)|(-> & Hn)]; [reflexivity|]. rewrite Z.add_0_r.
        destruct (c_hstat c); [|reflexivity]. destruct (c_hclk c) as [h|]; [|reflexivity].
        destruct (zget sat h) as [[y|]|] eqn:Eh; [|reflexivity..]. exfalso. apply Hn. eauto.
      + destruct (is_rate m).
        * destruct Hq as [(Hq & _)|(_ & f & tt & E1 & (t0 & E2 & E3) & ->)]; [now contradiction Hq|].
          exists (Some f), t0, tt. split; [exact E1|]. split; [exact E2|]. split; [exact E3|]. reflexivity.
        * destruct Hq as [(_ & ->)|(Hq & _)]; [|discriminate Hq]. now rewrite Z.add_0_r. }
  destruct (c_mode c) eqn:Em;
    match type of Em with
    | _ = MBds => split; [intros H; left; split; [reflexivity|exact H]|intros [(_ & H)|(D & _)]; [exact H|now contradiction D]]
    | _ = ?m => assert (G' := G m ltac:(discriminate) eq_refl); clear G;
        split; [intros H; right; split; [discriminate|]; apply G'; exact H
               |intros [(D & _)|(_ & H)]; [discriminate D|]; apply G'; exact H]
    end.
Qed.
Lemma maxdtoe_iff sys m : maxdtoe sys = Some m <-> age_limit sys m.
Proof.
  unfold age_limit. destruct sys; cbn; split; intros H;
    try (injection H as <-); try discriminate H; intuition congruence.
Qed.


Section T.
Variable U : Z.
Hypothesis HU : 0 < U.

(** decision used by the loop *)
Definition qual (t : gtime) (sat iode mode tmax : Z) (e : ephm) : bool :=
  (e_sat e =? sat) && ((iode <? 0) || (iode =? e_iode e)) && (e_mode e =? mode) &&
  (Z.abs (timediff U t (e_toe e)) <=? tmax).

Lemma qual_spec t sat iode mode m e :
  qual t sat iode mode (m * U) e = true <-> qualifies U t sat iode mode m e.
Proof. unfold qual, qualifies, age. lia. Qed.

Lemma findeph_cons e r t sat iode mode tmax eph tmin :
  findeph_loop U (e :: r) t sat iode mode tmax eph tmin =
  if qual t sat iode mode tmax e then
    if iode >=? 0 then Some e
    else if Z.abs (timediff U t (e_toe e)) <=? tmin
         then findeph_loop U r t sat iode mode tmax (Some e) (Z.abs (timediff U t (e_toe e)))
         else findeph_loop U r t sat iode mode tmax eph tmin
  else findeph_loop U r t sat iode mode tmax eph tmin.
Proof.
  cbn [findeph_loop]. unfold qual.
  destruct (e_sat e =? sat); cbn [negb orb andb]; [|reflexivity].
  destruct (Z.geb_spec iode 0), (Z.ltb_spec iode 0); try lia; cbn [negb orb andb].
  - destruct (iode =? e_iode e); cbn [negb orb andb]; [|reflexivity].
    destruct (e_mode e =? mode); cbn [negb orb andb]; [|reflexivity].
    rewrite orb_false_r.
    destruct (Z.gtb_spec (Z.abs (timediff U t (e_toe e))) tmax), (Z.leb_spec (Z.abs (timediff U t (e_toe e))) tmax); try lia; reflexivity.
  - destruct (e_mode e =? mode); cbn [negb orb andb]; [|reflexivity].
    rewrite orb_false_r.
    destruct (Z.gtb_spec (Z.abs (timediff U t (e_toe e))) tmax), (Z.leb_spec (Z.abs (timediff U t (e_toe e))) tmax); try lia; reflexivity.
Qed.

(** with an issue number: the first that qualifies *)
Lemma findeph_loop_iode t sat iode mode tmax : 0 <= iode -> forall nav eph tmin,
  findeph_loop U nav t sat iode mode tmax eph tmin =
  match find (qual t sat iode mode tmax) nav with Some e => Some e | None => eph end.
Proof.
  intros Hi. induction nav as [|e r IH]; intros eph tmin; [reflexivity|].
  rewrite findeph_cons. cbn [find]. destruct (qual t sat iode mode tmax e); [|apply IH].
  destruct (Z.geb_spec iode 0); [reflexivity|lia].
Qed.

(** without: the closest, the last one among equals *)
Definition best (t : gtime) (sat iode mode tmax : Z) (nav : list ephm) (e : ephm) : Prop :=
  exists l1 l2, nav = l1 ++ e :: l2 /\ qual t sat iode mode tmax e = true /\
    (forall x, In x l1 -> qual t sat iode mode tmax x = true -> age U t e <= age U t x) /\
    (forall x, In x l2 -> qual t sat iode mode tmax x = true -> age U t e < age U t x).

Lemma findeph_loop_any t sat iode mode tmax : iode < 0 -> forall nav pre eph tmin,
  match eph with
  | None => tmin > tmax /\ forall x, In x pre -> qual t sat iode mode tmax x = false
  | Some e => best t sat iode mode tmax pre e /\ tmin = age U t e
  end ->
  match findeph_loop U nav t sat iode mode tmax eph tmin with
  | None => forall x, In x (pre ++ nav) -> qual t sat iode mode tmax x = false
  | Some e => best t sat iode mode tmax (pre ++ nav) e
  end.
Proof.
  intros Hi. induction nav as [|e r IH]; intros pre eph tmin H.
  - cbn [findeph_loop]. rewrite app_nil_r. destruct eph; tauto.
  - rewrite findeph_cons. replace (pre ++ e :: r) with ((pre ++ [e]) ++ r) by (rewrite <- app_assoc; reflexivity).
    destruct (qual t sat iode mode tmax e) eqn:Eq.
    + destruct (Z.geb_spec iode 0); [lia|].
      assert (Hq : age U t e <= tmax) by (unfold qual in Eq; unfold age; lia).
      change (Z.abs (timediff U t (e_toe e))) with (age U t e).
      destruct (Z.leb_spec (age U t e) tmin).
      * apply IH. split; [|reflexivity]. exists pre, []. split; [reflexivity|]. split; [exact Eq|]. split.
        -- intros x Hx Hqx. destruct eph as [e0|].
           ++ destruct H as ((l1 & l2 & -> & Q0 & A & B) & ->). apply in_app_or in Hx.
              destruct Hx as [Hx|[<-|Hx]]; [specialize (A x Hx Hqx); lia|lia|specialize (B x Hx Hqx); lia].
           ++ destruct H as [_ H]. rewrite H in Hqx by exact Hx. discriminate.
        -- intros x [].
      * apply IH. destruct eph as [e0|]; [|destruct H; lia].
        destruct H as ((l1 & l2 & -> & Q0 & A & B) & ->). split; [|reflexivity].
        exists l1, (l2 ++ [e]). split; [rewrite <- app_assoc; reflexivity|]. split; [exact Q0|]. split; [exact A|].
        intros x Hx Hqx. apply in_app_or in Hx. destruct Hx as [Hx|[<-|[]]]; [auto|lia].
    + apply IH. destruct eph as [e0|].
      * destruct H as ((l1 & l2 & -> & Q0 & A & B) & ->). split; [|reflexivity].
        exists l1, (l2 ++ [e]). split; [rewrite <- app_assoc; reflexivity|]. split; [exact Q0|]. split; [exact A|].
        intros x Hx Hqx. apply in_app_or in Hx. destruct Hx as [Hx|[<-|[]]]; [auto|congruence].
      * destruct H as [H1 H2]. split; [exact H1|]. intros x Hx. apply in_app_or in Hx. destruct Hx as [Hx|[<-|[]]]; auto.
Qed.

Lemma findeph_ok nav t sat iode mode m : maxdtoe (fst (sat2prn sat)) = Some m ->
  exists r, findeph U nav t sat iode mode = Some r /\
  match r with
  | None => forall x, In x nav -> ~ qualifies U t sat iode mode m x
  | Some e => In e nav /\ qualifies U t sat iode mode m e /\
      (iode < 0 -> exists l1 l2, nav = l1 ++ e :: l2 /\
         (forall x, In x l1 -> qualifies U t sat iode mode m x -> age U t e <= age U t x) /\
         (forall x, In x l2 -> qualifies U t sat iode mode m x -> age U t e < age U t x)) /\
      (0 <= iode -> exists l1 l2, nav = l1 ++ e :: l2 /\ forall x, In x l1 -> ~ qualifies U t sat iode mode m x)
  end.
Proof.
  intros Hm. unfold findeph. rewrite Hm. cbn [bind]. eexists. split; [reflexivity|].
  destruct (Z.lt_ge_cases iode 0) as [Hi|Hi].
  - pose proof (findeph_loop_any t sat iode mode (m * U) Hi nav [] None (m * U + U)) as H.
    cbn [app] in H. specialize (H ltac:(split; [lia|intros x []])).
    destruct (findeph_loop U nav t sat iode mode (m * U) None (m * U + U)) as [e|].
    + destruct H as (l1 & l2 & E & Q & A & B). apply qual_spec in Q.
      split; [rewrite E; apply in_or_app; right; left; reflexivity|]. split; [exact Q|]. split; [|lia].
      intros _. exists l1, l2. split; [exact E|]. split; intros x Hx Hq; [apply A|apply B]; auto; apply qual_spec; exact Hq.
    + intros x Hx Hq. apply qual_spec in Hq. rewrite H in Hq by exact Hx. discriminate.
  - rewrite findeph_loop_iode by exact Hi.
    destruct (find (qual t sat iode mode (m * U)) nav) as [e|] eqn:E.
    + assert (G : In e nav /\ qual t sat iode mode (m * U) e = true) by (apply find_some; exact E).
      destruct G as [G1 G2]. apply qual_spec in G2. split; [exact G1|]. split; [exact G2|]. split; [lia|]. intros _.
      clear G1 G2. induction nav as [|x r IH]; [discriminate|]. cbn [find] in E.
      destruct (qual t sat iode mode (m * U) x) eqn:Q.
      * injection E as ->. exists [], r. split; [reflexivity|]. intros y [].
      * destruct (IH E) as (l1 & l2 & -> & H). exists (x :: l1), l2. split; [reflexivity|].
        intros y [<-|Hy]; [|auto]. intros Hq. apply qual_spec in Hq. congruence.
    + intros x Hx Hq. apply qual_spec in Hq. pose proof (find_none _ _ E x Hx). congruence.
Qed.

(* ---------- almanac ---------- *)
Definition aage (t : gtime) (x : Z * gtime) : Z := Z.abs (timediff U t (snd x)).
Definition aqual (t : gtime) (sat : Z) (tmax : option Z) (x : Z * gtime) : Prop :=
  fst x = sat /\ match tmax with Some m => aage t x <= m | None => True end.

Lemma findalm_loop_ok t sat tmax : forall l pre a tmin,
  match a with
  | None => (match tmax, tmin with Some m, Some n => n > m | None, Some _ => False | _, None => tmax = None end) /\
            forall x, In x pre -> ~ aqual t sat tmax x
  | Some e => In e pre /\ aqual t sat tmax e /\ tmin = Some (aage t e) /\
              forall x, In x pre -> aqual t sat tmax x -> aage t e <= aage t x
  end ->
  match findalm_loop U l t sat tmax a tmin with
  | None => forall x, In x (pre ++ l) -> ~ aqual t sat tmax x
  | Some e => In e (pre ++ l) /\ aqual t sat tmax e /\
              forall x, In x (pre ++ l) -> aqual t sat tmax x -> aage t e <= aage t x
  end.
Proof.
  induction l as [|y l IH]; intros pre a tmin H.
  - cbn. rewrite app_nil_r. destruct a; tauto.
  - cbn [findalm_loop]. replace (pre ++ y :: l) with ((pre ++ [y]) ++ l) by (rewrite <- app_assoc; reflexivity).
    change (Z.abs (timediff U t (snd y))) with (aage t y).
    assert (Hskip : ~ aqual t sat tmax y ->
      match findalm_loop U l t sat tmax a tmin with
      | None => forall x, In x ((pre ++ [y]) ++ l) -> ~ aqual t sat tmax x
      | Some e => In e ((pre ++ [y]) ++ l) /\ aqual t sat tmax e /\
              forall x, In x ((pre ++ [y]) ++ l) -> aqual t sat tmax x -> aage t e <= aage t x
      end).
    { intros Hy. apply IH. destruct a as [e|].
      - destruct H as (H1 & H2 & H3 & H4). split; [apply in_or_app; auto|]. split; [exact H2|]. split; [exact H3|].
        intros x Hx Hq. apply in_app_or in Hx. destruct Hx as [Hx|[<-|[]]]; [auto|contradiction].
      - destruct H as (H1 & H2). split; [exact H1|].
        intros x Hx. apply in_app_or in Hx. destruct Hx as [Hx|[<-|[]]]; auto. }
    destruct (Z.eqb_spec (fst y) sat) as [Es|Es]; cbn [negb]; [|apply Hskip; unfold aqual; tauto].
    destruct (match tmax with Some m => aage t y >? m | None => false end) eqn:Em.
    { apply Hskip. unfold aqual. destruct tmax; [lia|discriminate]. }
    assert (Hy : aqual t sat tmax y) by (split; [exact Es|]; destruct tmax; [lia|trivial]).
    destruct (match tmin with Some m => aage t y <=? m | None => true end) eqn:En.
    + apply IH. split; [apply in_or_app; right; left; reflexivity|]. split; [exact Hy|]. split; [reflexivity|].
      intros x Hx Hq. apply in_app_or in Hx. destruct Hx as [Hx|[<-|[]]]; [|lia].
      destruct a as [e|].
      * destruct H as (H1 & H2 & -> & H4). specialize (H4 x Hx Hq). lia.
      * destruct H as (_ & H). exfalso. eapply H; eauto.
    + apply IH. destruct a as [e|].
      * destruct H as (H1 & H2 & -> & H4). split; [apply in_or_app; auto|]. split; [exact H2|]. split; [reflexivity|].
        intros x Hx Hq. apply in_app_or in Hx. destruct Hx as [Hx|[<-|[]]]; [auto|lia].
      * destruct H as (H1 & H2). destruct tmin as [n|]; [|discriminate]. destruct tmax as [m|]; [|contradiction].
        destruct Hy as [_ Hy]. lia.
Qed.

Lemma findalm_ok l t sat tmax :
  match findalm U l t sat tmax with
  | None => forall x, In x l -> ~ aqual t sat tmax x
  | Some e => In e l /\ aqual t sat tmax e /\ forall x, In x l -> aqual t sat tmax x -> aage t e <= aage t x
  end.
Proof.
  unfold findalm. apply (findalm_loop_ok t sat tmax l [] None).
  split; [|intros x []]. destruct tmax; cbn; [lia|reflexivity].
Qed.

(* ---------- satposs ---------- *)
Lemma memz_in x l : memz x l = true <-> In x l.
Proof.
  unfold memz. rewrite existsb_exists. split.
  - intros (y & Hy & E). apply Z.eqb_eq in E. subst. exact Hy.
  - intros H. exists x. split; [exact H|apply Z.eqb_refl].
Qed.

Ltac inv_bind H := match type of H with
  | bind ?m _ = Some _ => let E := fresh "E" in destruct m eqn:E; cbn [bind] in H; [|discriminate] end.

Lemma set_dorb_id c : set_dorb (c_dorb c) c = c.
Proof. destruct c; reflexivity. Qed.
Lemma set_dorb_twice d d' c : set_dorb d (set_dorb d' c) = set_dorb d c.
Proof. reflexivity. Qed.

(** the clock part *)
Definition clk_of (c : scs) (sat : Z) (tobs : gtime) : option (option num) :=
  match c_mode c with
  | MBds =>
    do a <- zget sat (c_iodc c); do b <- zget sat (c_iodc_c c);
    if a =? b then do v <- zget sat (c_dclk c); Some (Some v)
    else do p <- zget sat (c_iodc_c_p c);
         if a =? p then do v <- zget sat (c_dclk_p c); Some (Some v) else Some None
  | m =>
    if (match m with
        | MHas => negb (c_mask_id c =? c_mask_id_clk c) && negb (memz sat (c_sat_n_p c))
        | _ => if c_iod_clk c =? c_iodssr c then negb (memz sat (c_sat_n c))
               else if c_iod_clk c =? c_iodssr_p c then negb (memz sat (c_sat_n_p c)) else true
        end) then Some None else
    match zget sat (c_dclk c) with
    | None => Some None
    | Some v =>
      do v <- (if c_hstat c then
                 do h <- c_hclk c;
                 Some (match zget sat h with
                       | Some x => if is_nan x then v else nadd v x
                       | None => v
                       end)
               else Some v);
      do v <- (if is_rate m then
                 do f <- zget sat (c_ddft c); do t0 <- zget sat (c_t0 c); do t0 <- zget tC t0;
                 Some (nadd v (nscale f (timediff U tobs t0)))
               else Some v);
      Some (Some v)
    end
  end.
(** the orbit part: the new table of orbit corrections and the correction *)
Definition orb_of (c : scs) (sat : Z) (tobs : gtime) : option (dict Z vec * vec) :=
  do dorb <- zget sat (c_dorb c);
  if is_rate (c_mode c) then
    do dv <- zget sat (c_dvel c); do t0 <- zget sat (c_t0 c); do t0 <- zget tO t0;
    let d := vadd dorb (vscale dv (timediff U tobs t0)) in Some (zset sat d (c_dorb c), d)
  else Some (c_dorb c, dorb).
Definition mask_of (c : scs) (sat : Z) : bool :=
  if (c_iodssr c >=? 0) && (c_iod_orb c =? c_iodssr c) then memz sat (c_sat_n c)
  else if (c_iodssr_p c >=? 0) && (c_iod_orb c =? c_iodssr_p c) then memz sat (c_sat_n_p c)
  else false.

Lemma ssr_of_alt c sat sys tobs :
  ssr_of U c sat sys tobs =
  if negb (mask_of c sat) then Some (c, None) else
  do iodes <- c_iode c;
  match zget sat iodes with
  | None => Some (c, None)
  | Some iode =>
    do p <- orb_of c sat tobs;
    let c := set_dorb (fst p) c in
    do r <- clk_of c sat tobs;
    match r with
    | None => Some (c, None)
    | Some k => if is_nan k || vnan (snd p) then Some (c, None) else
                do md <- dget gnss_eqb sys (c_nav_mode c); Some (c, Some (iode, snd p, k, md))
    end
  end.
Proof.
  unfold ssr_of, mask_of.
  assert (E : forall a b x y : bool, (if a then negb x else if b then negb y else true) = negb (if a then x else if b then y else false)).
  { intros [] [] [] []; reflexivity. }
  rewrite E. destruct (negb _); [reflexivity|]. destruct (c_iode c); cbn [bind]; [|reflexivity].
  destruct (zget sat d); [|reflexivity]. unfold orb_of. destruct (zget sat (c_dorb c)); cbn [bind]; [|reflexivity].
  destruct (is_rate (c_mode c)).
  - destruct (zget sat (c_dvel c)); cbn [bind]; [|reflexivity]. destruct (zget sat (c_t0 c)); cbn [bind]; [|reflexivity].
    destruct (zget tO d0); cbn [bind]; reflexivity.
  - cbn [bind fst snd]. rewrite set_dorb_id. reflexivity.
Qed.

Lemma clk_of_frame d c sat tobs : clk_of (set_dorb d c) sat tobs = clk_of c sat tobs.
Proof. reflexivity. Qed.

Lemma mask_of_spec c sat : mask_of c sat = true <-> in_mask c sat.
Proof.
  unfold mask_of, in_mask. rewrite <- !memz_in.
  destruct ((c_iodssr c >=? 0) && (c_iod_orb c =? c_iodssr c)) eqn:E1;
  [|destruct ((c_iodssr_p c >=? 0) && (c_iod_orb c =? c_iodssr_p c)) eqn:E2]; lia.
Qed.

Lemma orb_of_spec c sat tobs d o : orb_of c sat tobs = Some (d, o) ->
  orbit_m U c tobs sat o /\ (is_rate (c_mode c) = false -> d = c_dorb c) /\
  (forall s, s <> sat -> zget s d = zget s (c_dorb c)).
Proof.
  unfold orb_of, orbit_m. intros H. inv_bind H. destruct (is_rate (c_mode c)).
  - inv_bind H. inv_bind H. inv_bind H. injection H as <- <-. split; [|split; [discriminate|]].
    + exists v. split; [reflexivity|]. exists v0, d0, g. auto.
    + intros s Hs. apply zget_zset_other. congruence.
  - injection H as <- <-. split; [eauto|]. auto.
Qed.
Lemma orb_of_complete c sat tobs o : orbit_m U c tobs sat o -> exists d, orb_of c sat tobs = Some (d, o).
Proof.
  unfold orb_of, orbit_m. intros (d & E & H). rewrite E. cbn [bind]. destruct (is_rate (c_mode c)).
  - destruct H as (v & t0 & tt & -> & -> & E2 & ->). cbn [bind]. rewrite E2. cbn [bind]. eauto.
  - subst. eauto.
Qed.

Definition hclk_ok (c : scs) : Prop := c_hstat c = true -> c_hclk c <> None.

Lemma clk_of_spec c sat tobs k : clk_of c sat tobs = Some (Some k) ->
  in_clk_mask c sat /\ clock_m U c tobs sat k.
Proof.
  unfold clk_of, in_clk_mask, clock_m. intros H.
  destruct (c_mode c) eqn:Em;
  try (match type of H with (if ?b then _ else _) = _ => destruct b eqn:Eb end; [discriminate|];
    split; [rewrite <- ?memz_in; (lia || (revert Eb; destruct (Z.eqb_spec (c_iod_clk c) (c_iodssr c)), (Z.eqb_spec (c_iod_clk c) (c_iodssr_p c)); lia))|];
    destruct (zget sat (c_dclk c)) as [v|]; [|discriminate];
    inv_bind H; rename E into E1, n into w; inv_bind H; rename E into E2; injection H as <-;
    exists v, w; split; [reflexivity|]; split;
    [destruct (c_hstat c); [|congruence]; inv_bind E1; injection E1 as <-;
     match goal with |- context [zget sat ?d] => destruct (zget sat d) as [[x|]|] end; reflexivity|];
    cbn [is_rate] in *; try congruence; inv_bind E2; inv_bind E2; inv_bind E2; injection E2 as <-; eauto 10).
  split; [trivial|]. inv_bind H. inv_bind H. exists z. split; [reflexivity|].
  destruct (Z.eqb_spec z z0) as [->|Hne].
  + inv_bind H. injection H as <-. left. auto.
  + inv_bind H. destruct (Z.eqb_spec z z1) as [->|]; [|discriminate]. inv_bind H. injection H as <-.
    right. split; [congruence|auto].
Qed.
Lemma clk_of_complete c sat tobs k : hclk_ok c -> (c_mode c = MBds -> zget sat (c_iodc_c c) <> None) ->
  in_clk_mask c sat -> clock_m U c tobs sat k -> clk_of c sat tobs = Some (Some k).
Proof.
  unfold clk_of, in_clk_mask, clock_m, hclk_ok. intros Hh Hb Hm H.
  destruct (c_mode c) eqn:Em; rewrite <- ?memz_in in Hm;
  try (match goal with |- (if ?b then _ else _) = _ => destruct b eqn:Eb end;
    [exfalso; revert Eb Hm; (lia || (destruct (Z.eqb_spec (c_iod_clk c) (c_iodssr c)), (Z.eqb_spec (c_iod_clk c) (c_iodssr_p c)); lia))|];
    destruct H as (v & w & -> & Hw & H);
    replace (if c_hstat c then _ else Some v) with (Some w);
    [|subst w; destruct (c_hstat c); [|reflexivity]; destruct (c_hclk c) as [h|]; [|exfalso; apply Hh; reflexivity]; cbn [bind];
      destruct (zget sat h) as [[x|]|]; reflexivity];
    cbn [bind is_rate] in *; first [subst; reflexivity | (destruct H as (f & t0 & tt & -> & -> & E2 & ->); cbn [bind]; rewrite E2; reflexivity)]).
  destruct H as (a & -> & H). cbn [bind]. destruct (zget sat (c_iodc_c c)) as [b|]; [|exfalso; apply Hb; reflexivity].
  cbn [bind]. destruct H as [[E ->]|(Hne & -> & ->)].
  - injection E as ->. rewrite Z.eqb_refl. reflexivity.
  - destruct (Z.eqb_spec a b) as [->|]; [exfalso; apply Hne; reflexivity|]. cbn [bind]. rewrite Z.eqb_refl. reflexivity.
Qed.

Lemma vnan_spec o : vnan o = false <-> finite_vec o.
Proof.
  unfold finite_vec, vnan. destruct o as [[x y] z]. split.
  - destruct x, y, z; cbn; try discriminate. eauto.
  - intros (a & b & d & E). injection E as -> -> ->. reflexivity.
Qed.

Lemma ssr_of_ok c sat sys tobs c' iode o k md :
  ssr_of U c sat sys tobs = Some (c', Some (iode, o, k, md)) ->
  in_mask c sat /\ in_clk_mask c sat /\
  (exists d, c_iode c = Some d /\ zget sat d = Some iode) /\
  orbit_m U c tobs sat o /\ clock_m U c tobs sat k /\
  finite_vec o /\ (exists x, k = Some x) /\ dget gnss_eqb sys (c_nav_mode c) = Some md.
Proof.
  rewrite ssr_of_alt. intros H. destruct (mask_of c sat) eqn:Em; cbn [negb] in H; [|discriminate].
  apply mask_of_spec in Em. inv_bind H. destruct (zget sat d) as [io|] eqn:Ei; [|discriminate].
  inv_bind H. destruct p as [d1 o1]. cbn [fst snd] in H. rewrite clk_of_frame in H. inv_bind H.
  destruct o0 as [k0|]; [|discriminate]. destruct (is_nan k0 || vnan o1) eqn:En; [discriminate|]. inv_bind H.
  injection H as <- <- <- <- <-. apply clk_of_spec in E1. apply orb_of_spec in E0.
  split; [exact Em|]. split; [tauto|]. split; [exists d; auto|]. split; [tauto|]. split; [tauto|].
  split; [apply vnan_spec; lia|]. split; [destruct k0; [eauto|discriminate]|exact E2].
Qed.
Lemma ssr_of_complete c sat sys tobs d iode o x md :
  in_mask c sat -> in_clk_mask c sat -> c_iode c = Some d -> zget sat d = Some iode ->
  orbit_m U c tobs sat o -> clock_m U c tobs sat (Some x) -> finite_vec o -> hclk_ok c ->
  (c_mode c = MBds -> zget sat (c_iodc_c c) <> None) ->
  dget gnss_eqb sys (c_nav_mode c) = Some md ->
  exists d', ssr_of U c sat sys tobs = Some (set_dorb d' c, Some (iode, o, Some x, md)).
Proof.
  intros A B C D E F G H I J. rewrite ssr_of_alt. rewrite (proj2 (mask_of_spec c sat) A). cbn [negb]. rewrite C. cbn [bind].
  rewrite D. apply orb_of_complete in E. destruct E as (d' & ->). cbn [bind fst snd]. rewrite clk_of_frame.
  rewrite (clk_of_complete _ _ _ _ H I B F). cbn [bind]. apply vnan_spec in G. rewrite G. cbn [is_nan orb].
  change (c_nav_mode (set_dorb d' c)) with (c_nav_mode c). rewrite J. cbn [bind]. eauto.
Qed.
Lemma ssr_of_state c sat sys tobs c' r : ssr_of U c sat sys tobs = Some (c', r) ->
  exists d, c' = set_dorb d c /\ (is_rate (c_mode c) = false -> d = c_dorb c) /\
  (forall s, s <> sat -> zget s d = zget s (c_dorb c)).
Proof.
  rewrite ssr_of_alt. intros H.
  assert (Id : exists d, c = set_dorb d c /\ (is_rate (c_mode c) = false -> d = c_dorb c) /\
     (forall s, s <> sat -> zget s d = zget s (c_dorb c))).
  { exists (c_dorb c). rewrite set_dorb_id. auto. }
  destruct (negb (mask_of c sat)). { injection H as <- <-. exact Id. }
  inv_bind H. destruct (zget sat d). 2:{ injection H as <- <-. exact Id. }
  inv_bind H. destruct p as [d1 o]. apply orb_of_spec in E0. cbn [fst snd] in H. inv_bind H.
  exists d1. split; [|tauto].
  destruct o0; [|congruence]. destruct (is_nan n || vnan o); [congruence|]. inv_bind H. congruence.
Qed.
(** only the orbit correction of the satellite itself matters *)
Lemma ssr_of_frame c sat sys tobs d : zget sat d = zget sat (c_dorb c) ->
  option_map snd (ssr_of U (set_dorb d c) sat sys tobs) = option_map snd (ssr_of U c sat sys tobs).
Proof.
  intros Hd. rewrite !ssr_of_alt. change (mask_of (set_dorb d c) sat) with (mask_of c sat).
  destruct (negb (mask_of c sat)); [reflexivity|]. change (c_iode (set_dorb d c)) with (c_iode c).
  destruct (c_iode c); cbn [bind]; [|reflexivity]. destruct (zget sat d0); [|reflexivity].
  assert (Eo : option_map snd (orb_of (set_dorb d c) sat tobs) = option_map snd (orb_of c sat tobs)).
  { unfold orb_of. change (c_dorb (set_dorb d c)) with d. rewrite Hd. destruct (zget sat (c_dorb c)); cbn [bind]; [|reflexivity].
    change (c_mode (set_dorb d c)) with (c_mode c). destruct (is_rate (c_mode c)); [|reflexivity].
    change (c_dvel (set_dorb d c)) with (c_dvel c). destruct (zget sat (c_dvel c)); cbn [bind]; [|reflexivity].
    change (c_t0 (set_dorb d c)) with (c_t0 c). destruct (zget sat (c_t0 c)); cbn [bind]; [|reflexivity].
    destruct (zget tO d1); cbn [bind]; reflexivity. }
  destruct (orb_of (set_dorb d c) sat tobs) as [[d1 o1]|], (orb_of c sat tobs) as [[d2 o2]|]; cbn in Eo; try discriminate; [|reflexivity].
  injection Eo as ->. cbn [bind fst snd]. rewrite !clk_of_frame. destruct (clk_of c sat tobs) as [[k|]|]; cbn [bind]; try reflexivity.
  destruct (is_nan k || vnan o2); [reflexivity|].
  change (c_nav_mode (set_dorb d1 (set_dorb d c))) with (c_nav_mode c). change (c_nav_mode (set_dorb d2 c)) with (c_nav_mode c).
  destruct (dget gnss_eqb sys (c_nav_mode c)); reflexivity.
Qed.

Section Nav.
Variable eph geph : list ephm.
Variable sigs : list gnss.
Variable tobs : gtime.
Variable single : bool.
Notation one := (satposs_one U eph geph sigs tobs single).
Notation loop := (satposs_loop U eph geph sigs tobs single).
Notation all := (satposs U eph geph sigs tobs single).
Definition navlist (sat : Z) : list ephm := if gnss_eqb (fst (sat2prn sat)) GLO then geph else eph.

(** a single satellite *)
Lemma one_used c ev sat t cs' ev' e corr tgd :
  one (Some c) ev sat t = Some (cs', ev', Use e corr tgd) ->
  exists iode o x mode,
    corr = Some (o, Some x) /\
    in_mask c sat /\ in_clk_mask c sat /\ (exists d, c_iode c = Some d /\ zget sat d = Some iode) /\
    orbit_m U c tobs sat o /\ clock_m U c tobs sat (Some x) /\ finite_vec o /\
    dget gnss_eqb (fst (sat2prn sat)) (c_nav_mode c) = Some mode /\
    findeph U (navlist sat) t sat iode mode = Some (Some e).
Proof.
  unfold satposs_one, navlist. set (sys := fst (sat2prn sat)). intros H.
  destruct (negb (existsb (gnss_eqb sys) sigs)); [discriminate|].
  inv_bind H. destruct p as [cs1 g]. inv_bind E. injection E as <- <-. destruct p as [c1 g]. cbn [fst snd] in *.
  destruct g as [[[[iode o] k] md]|]; [|discriminate]. cbn [option_map] in H.
  destruct (ssr_of_ok _ _ _ _ _ _ _ _ _ E0) as (A & A2 & B & C & D & F & (x & ->) & G).
  inv_bind H. destruct o0 as [e0|]; [|discriminate]. inv_bind H. inv_bind H. inv_bind H. injection H as <- <- <- <- <-.
  exists iode, o, x, md. repeat (split; [assumption || reflexivity|]). exact E.
Qed.
Lemma one_complete c ev sat t d iode o x mode e t0 :
  existsb (gnss_eqb (fst (sat2prn sat))) sigs = true ->
  in_mask c sat -> in_clk_mask c sat -> c_iode c = Some d -> zget sat d = Some iode ->
  orbit_m U c tobs sat o -> clock_m U c tobs sat (Some x) -> finite_vec o -> hclk_ok c ->
  (c_mode c = MBds -> zget sat (c_iodc_c c) <> None) ->
  dget gnss_eqb (fst (sat2prn sat)) (c_nav_mode c) = Some mode ->
  zget sat (c_t0 c) = Some t0 -> zget tO t0 <> None ->
  findeph U (navlist sat) t sat iode mode = Some (Some e) ->
  exists cs' ev' tgd, one (Some c) ev sat t = Some (cs', ev', Use e (Some (o, Some x)) tgd).
Proof.
  intros Hs A B C D E F G H I J K L M. unfold satposs_one. rewrite Hs. cbn [negb].
  destruct (ssr_of_complete _ _ _ _ _ _ _ _ _ A B C D E F G H I J) as (d' & ->). cbn [bind fst snd option_map].
  unfold navlist in M. rewrite M. cbn [bind]. change (c_t0 (set_dorb d' c)) with (c_t0 c). rewrite K. cbn [bind].
  destruct (zget tO t0); [|congruence]. cbn [bind].
  change (c_mode (set_dorb d' c)) with (c_mode c).
  destruct (gnss_eqb (fst (sat2prn sat)) GLO) eqn:Eg.
  - assert (gnss_eqb (fst (sat2prn sat)) GPS = false) as -> by (destruct (fst (sat2prn sat)); try discriminate; reflexivity).
    rewrite andb_false_r. cbn [bind]. eauto.
  - destruct (_ && gnss_eqb (fst (sat2prn sat)) GPS); cbn [bind]; eauto.
Qed.

(** with corrections the left-over [eph] of the previous satellite is never read *)
Lemma one_ev c d ev ev' sat t : zget sat d = zget sat (c_dorb c) ->
  option_map snd (one (Some (set_dorb d c)) ev sat t) = option_map snd (one (Some c) ev' sat t).
Proof.
  intros Hd. unfold satposs_one. set (sys := fst (sat2prn sat)).
  destruct (negb (existsb (gnss_eqb sys) sigs)); [reflexivity|].
  pose proof (ssr_of_frame c sat sys tobs d Hd) as H.
  destruct (ssr_of U (set_dorb d c) sat sys tobs) as [[c1 r1]|] eqn:E1, (ssr_of U c sat sys tobs) as [[c2 r2]|] eqn:E2;
    cbn [option_map snd] in H; try discriminate; [|reflexivity]. injection H as ->. cbn [bind fst snd].
  apply ssr_of_state in E1. apply ssr_of_state in E2. destruct E1 as (d1 & -> & _), E2 as (d2 & -> & _).
  destruct r2 as [[[[iode o] k] md]|]; [|reflexivity]. cbn [option_map].
  destruct (findeph U (if gnss_eqb sys GLO then geph else eph) t sat iode md) as [[e|]|]; cbn [bind]; try reflexivity.
  change (c_mode (set_dorb d1 (set_dorb d c))) with (c_mode c). change (c_mode (set_dorb d2 c)) with (c_mode c).
  change (c_t0 (set_dorb d1 (set_dorb d c))) with (c_t0 c). change (c_t0 (set_dorb d2 c)) with (c_t0 c).
  destruct (gnss_eqb sys GLO) eqn:Eg.
  - assert (gnss_eqb sys GPS = false) as -> by (destruct sys; try discriminate; reflexivity).
    rewrite andb_false_r. cbn [bind]. destruct (zget sat (c_t0 c)); cbn [bind]; [|reflexivity]. destruct (zget tO d0); reflexivity.
  - destruct (_ && gnss_eqb sys GPS); cbn [bind]; destruct (zget sat (c_t0 c)); cbn [bind]; try reflexivity; destruct (zget tO d0); reflexivity.
Qed.
Lemma one_state c ev sat t cs' ev' o : one (Some c) ev sat t = Some (cs', ev', o) ->
  exists d, cs' = Some (set_dorb d c) /\ (is_rate (c_mode c) = false -> d = c_dorb c) /\
  (forall s, s <> sat -> zget s d = zget s (c_dorb c)).
Proof.
  unfold satposs_one. set (sys := fst (sat2prn sat)). intros H.
  destruct (negb (existsb (gnss_eqb sys) sigs)).
  { injection H as <- <- <-. exists (c_dorb c). rewrite set_dorb_id. auto. }
  inv_bind H. destruct p as [cs1 g]. inv_bind E. injection E as <- <-. destruct p as [c1 g]. cbn [fst snd] in *.
  apply ssr_of_state in E0. destruct E0 as (d & -> & Hd). exists d. split; [|exact Hd].
  destruct g as [[[[iode o'] k] md]|]; cbn [option_map] in H; [|congruence].
  inv_bind H. destruct o0; [|congruence]. inv_bind H. inv_bind H. inv_bind H. congruence.
Qed.

Lemma loop_state : forall obs c ev cs' outs, loop obs (Some c) ev = Some (cs', outs) ->
  length outs = length obs /\
  exists d, cs' = Some (set_dorb d c) /\ (is_rate (c_mode c) = false -> d = c_dorb c).
Proof.
  induction obs as [|[sat t] r IH]; intros c ev cs' outs H; cbn [satposs_loop] in H.
  - injection H as <- <-. split; [reflexivity|]. exists (c_dorb c). rewrite set_dorb_id. auto.
  - inv_bind H. destruct p as [[cs1 ev1] o]. inv_bind H. injection H as <- <-.
    apply one_state in E. destruct E as (d & -> & Hd & _). destruct p as [cs2 outs]. apply IH in E0.
    destruct E0 as (L & d2 & -> & Hd2). split; [cbn; congruence|].
    exists d2. split; [reflexivity|]. intros Hr. specialize (Hd Hr). specialize (Hd2 Hr). cbn in Hd2. congruence.
Qed.

Lemma one_single c sat t cs ev o :
  one (Some c) EUnbound sat t = Some (cs, ev, o) -> all [(sat, t)] (Some c) = Some (cs, [o]).
Proof. intros H. unfold satposs. cbn [satposs_loop]. rewrite H. reflexivity. Qed.

Lemma loop_indep c : forall obs d ev cs' outs,
  NoDup (map fst obs) -> (forall s, In s (map fst obs) -> zget s d = zget s (c_dorb c)) ->
  loop obs (Some (set_dorb d c)) ev = Some (cs', outs) ->
  forall i sat t, nth_error obs i = Some (sat, t) ->
  exists cs'' o, all [(sat, t)] (Some c) = Some (cs'', [o]) /\ nth_error outs i = Some o.
Proof.
  induction obs as [|[sat t] r IH]; intros d ev cs' outs Hn Hd H i sat' t' Hi; [destruct i; discriminate|].
  cbn [satposs_loop] in H. inv_bind H. destruct p as [[cs1 ev1] o]. inv_bind H. injection H as <- <-.
  cbn [map fst] in Hn, Hd. inversion_clear Hn as [|? ? Hn1 Hn2].
  destruct i as [|i].
  - cbn in Hi. injection Hi as <- <-.
    pose proof (one_ev c d ev EUnbound sat t (Hd sat (or_introl eq_refl))) as Ho. rewrite E in Ho. cbn [option_map snd] in Ho.
    destruct (one (Some c) EUnbound sat t) as [[[cs2 ev2] o2]|] eqn:E2; [|discriminate]. cbn [option_map snd] in Ho. injection Ho as ->.
    exists cs2, o2. split; [eapply one_single; exact E2|reflexivity].
  - cbn [nth_error] in Hi. destruct p as [cs2 outs]. cbn [fst snd nth_error].
    apply one_state in E. destruct E as (d1 & -> & _ & Hd1). rewrite set_dorb_twice in E0.
    eapply (IH d1 ev1 cs2 outs); [exact Hn2| |exact E0|exact Hi].
    intros s Hs. rewrite Hd1 by (intros ->; contradiction). apply Hd. right. exact Hs.
Qed.

Lemma satposs_indep c obs cs' outs : NoDup (map fst obs) ->
  all obs (Some c) = Some (cs', outs) ->
  length outs = length obs /\
  forall i sat t, nth_error obs i = Some (sat, t) ->
  exists cs'' o, all [(sat, t)] (Some c) = Some (cs'', [o]) /\ nth_error outs i = Some o.
Proof.
  intros Hn H. destruct obs as [|x r]; [discriminate|]. unfold satposs in H. split; [eapply loop_state; exact H|].
  rewrite <- (set_dorb_id c) in H. eapply loop_indep; [exact Hn|reflexivity|exact H].
Qed.

(** stand-alone, more than one frequency or not single-point mode *)
Lemma loop_none : single = false -> forall obs ev cs' outs, loop obs None ev = Some (cs', outs) ->
  cs' = None /\ length outs = length obs /\
  forall i sat t, nth_error obs i = Some (sat, t) ->
  exists o, all [(sat, t)] None = Some (None, [o]) /\ nth_error outs i = Some o.
Proof.
  intros Hs. induction obs as [|[sat t] r IH]; intros ev cs' outs H.
  - injection H as <- <-. split; [reflexivity|]. split; [reflexivity|]. intros [|i]; discriminate.
  - cbn [satposs_loop] in H. inv_bind H. destruct p as [[cs1 ev1] o]. inv_bind H. injection H as <- <-.
    assert (G : cs1 = None /\ forall ev', exists ev2, one None ev' sat t = Some (None, ev2, o)).
    { revert E. clear - Hs. unfold satposs_one. set (sys := fst (sat2prn sat)).
      destruct (negb (existsb (gnss_eqb sys) sigs)). { intros E. injection E as <- <- <-. eauto. }
      cbn [bind]. destruct (findeph U (if gnss_eqb sys GLO then geph else eph) t sat (-1) 0) as [[e|]|]; cbn [bind]; try discriminate.
      - rewrite Hs. cbn [bind]. intros E. injection E as <- <- <-. eauto.
      - intros E. injection E as <- <- <-. eauto. }
    destruct G as (-> & G). destruct p as [cs2 outs]. cbn [fst snd]. apply IH in E0. destruct E0 as (-> & L & E0).
    split; [reflexivity|]. split; [cbn; congruence|].
    intros [|i] sat' t' Hi.
    + cbn in Hi. injection Hi as <- <-. exists o. split; [|reflexivity]. destruct (G EUnbound) as (ev2 & G2).
      unfold satposs. cbn [satposs_loop]. rewrite G2. reflexivity.
    + apply E0. exact Hi.
Qed.

Lemma satposs_used c obs cs' outs i sat t e corr tgd :
  NoDup (map fst obs) -> all obs (Some c) = Some (cs', outs) ->
  nth_error obs i = Some (sat, t) -> nth_error outs i = Some (Use e corr tgd) ->
  exists iode o x mode m,
    corr = Some (o, Some x) /\
    in_mask c sat /\ in_clk_mask c sat /\ (exists d, c_iode c = Some d /\ zget sat d = Some iode) /\
    orbit_m U c tobs sat o /\ clock_m U c tobs sat (Some x) /\ finite_vec o /\
    dget gnss_eqb (fst (sat2prn sat)) (c_nav_mode c) = Some mode /\
    maxdtoe (fst (sat2prn sat)) = Some m /\
    In e (navlist sat) /\ qualifies U t sat iode mode m e.
Proof.
  intros Hn H Hi Ho. destruct (satposs_indep _ _ _ _ Hn H) as (_ & G). destruct (G _ _ _ Hi) as (cs2 & o2 & G1 & G2).
  rewrite Ho in G2. injection G2 as <-. unfold satposs in G1. cbn [satposs_loop] in G1. inv_bind G1.
  destruct p as [[cs3 ev] o3]. cbn [bind] in G1. injection G1 as <- ->.
  destruct (one_used _ _ _ _ _ _ _ _ _ E) as (iode & o & x & mode & A & B & B2 & C & D & D2 & D3 & D4 & F).
  assert (exists m, maxdtoe (fst (sat2prn sat)) = Some m) as (m & Hm).
  { unfold findeph in F. destruct (maxdtoe (fst (sat2prn sat))); [eauto|discriminate]. }
  destruct (findeph_ok (navlist sat) t sat iode mode m Hm) as (r & F1 & F2). rewrite F in F1. injection F1 as <-.
  exists iode, o, x, mode, m. repeat (split; [assumption|]). tauto.
Qed.

Lemma satposs_complete c obs cs' outs i sat t d iode o x mode e t0 :
  NoDup (map fst obs) -> all obs (Some c) = Some (cs', outs) ->
  nth_error obs i = Some (sat, t) -> In (fst (sat2prn sat)) sigs ->
  in_mask c sat -> in_clk_mask c sat -> c_iode c = Some d -> zget sat d = Some iode ->
  orbit_m U c tobs sat o -> clock_m U c tobs sat (Some x) -> finite_vec o ->
  (c_hstat c = true -> c_hclk c <> None) ->
  (c_mode c = MBds -> zget sat (c_iodc_c c) <> None) ->
  dget gnss_eqb (fst (sat2prn sat)) (c_nav_mode c) = Some mode ->
  zget sat (c_t0 c) = Some t0 -> zget tO t0 <> None ->
  findeph U (navlist sat) t sat iode mode = Some (Some e) ->
  exists tgd, nth_error outs i = Some (Use e (Some (o, Some x)) tgd).
Proof.
  intros Hn H Hi Hs A B C D E F G I J K L M N. destruct (satposs_indep _ _ _ _ Hn H) as (_ & Q). destruct (Q _ _ _ Hi) as (cs2 & o2 & G1 & G2).
  assert (Hs' : existsb (gnss_eqb (fst (sat2prn sat))) sigs = true).
  { apply existsb_exists. exists (fst (sat2prn sat)). split; [exact Hs|]. destruct (fst (sat2prn sat)); reflexivity. }
  destruct (one_complete c EUnbound sat t d iode o x mode e t0 Hs' A B C D E F G I J K L M N) as (c3 & e3 & tgd & R).
  apply one_single in R. rewrite R in G1. injection G1 as <- <-. exists tgd. exact G2.
Qed.

Lemma satposs_unchanged c obs cs' outs : is_rate (c_mode c) = false ->
  all obs (Some c) = Some (cs', outs) -> cs' = Some c.
Proof.
  intros Hr H. destruct obs; [discriminate|]. unfold satposs in H. apply loop_state in H.
  destruct H as (_ & d & -> & Hd). rewrite (Hd Hr), set_dorb_id. reflexivity.
Qed.
End Nav.
End T.

Section User.
Variables (U : Z) (eph geph : list ephm) (sigs : list gnss) (tobs : gtime) (single : bool).
Lemma used_user : 0 < U -> forall c obs cs' outs i sat t e corr tgd,
  NoDup (map fst obs) -> satposs U eph geph sigs tobs single obs (Some c) = Some (cs', outs) ->
  nth_error obs i = Some (sat, t) -> nth_error outs i = Some (Use e corr tgd) ->
  exists iode o x mode m,
    corr = Some (o, Some x) /\
    in_mask c sat /\ in_clk_mask c sat /\ (exists d, c_iode c = Some d /\ zget sat d = Some iode) /\
    orbit_corr U c tobs sat o /\ clock_corr U c tobs sat x /\
    dget gnss_eqb (fst (sat2prn sat)) (c_nav_mode c) = Some mode /\
    age_limit (fst (sat2prn sat)) m /\
    In e (if gnss_eqb (fst (sat2prn sat)) GLO then geph else eph) /\ qualifies U t sat iode mode m e.
Proof.
  intros HU c obs cs' outs i sat t e corr tgd Hn H Hi Ho.
  destruct (satposs_used U HU eph geph sigs tobs single c obs cs' outs i sat t e corr tgd Hn H Hi Ho)
    as (iode & o & x & mode & m & A1 & A2 & A3 & A4 & A5 & A6 & A7 & A8 & A9 & A10).
  exists iode, o, x, mode, m. rewrite orbit_m_iff in A5 by assumption. rewrite clock_m_iff in A6. rewrite maxdtoe_iff in A9.
  repeat (split; [assumption|]). exact A10.
Qed.
Lemma complete_user : forall c obs cs' outs i sat t d iode o x mode e t0,
  NoDup (map fst obs) -> satposs U eph geph sigs tobs single obs (Some c) = Some (cs', outs) ->
  nth_error obs i = Some (sat, t) -> In (fst (sat2prn sat)) sigs ->
  in_mask c sat -> in_clk_mask c sat -> c_iode c = Some d -> zget sat d = Some iode ->
  orbit_corr U c tobs sat o -> clock_corr U c tobs sat x ->
  (c_hstat c = true -> c_hclk c <> None) ->
  (c_mode c = MBds -> zget sat (c_iodc_c c) <> None) ->
  dget gnss_eqb (fst (sat2prn sat)) (c_nav_mode c) = Some mode -> ref_time c sat 1 t0 ->
  findeph U (if gnss_eqb (fst (sat2prn sat)) GLO then geph else eph) t sat iode mode = Some (Some e) ->
  exists tgd, nth_error outs i = Some (Use e (Some (o, Some x)) tgd).
Proof.
  intros c obs cs' outs i sat t d iode o x mode e t0 Hn H Hi Hs A B C D E F I J K (t1 & L & M) N.
  assert (Hf : finite_vec o) by (destruct E as (x1 & y1 & z1 & -> & _); unfold finite_vec; eauto).
  rewrite <- orbit_m_iff in E by exact Hf. rewrite <- clock_m_iff in F.
  refine (satposs_complete U eph geph sigs tobs single c obs cs' outs i sat t d iode o x mode e t1 Hn H Hi Hs A B C D E F Hf I J K L _ N).
  change tO with 1. congruence.
Qed.
End User.
