(** The erasure decoder of Galileo HAS: decode_has_page, /repo/src/cssrlib/cssr_has.py:162-172, over
    an arbitrary field in the place of galois.GF(256). *)
From Verif Require Import HasModel HasSpec HasProofs.
From mathcomp Require Import all_ssreflect all_algebra all_field.
Set Implicit Arguments.
Unset Strict Implicit.
Unset Printing Implicit Defensive.
Import GRing.Theory.
Local Open Scope ring_scope.

Section Field.
(** the field, and the bytes of its elements *)
Context (F : fieldType) (b2f : Z -> F) (f2b : F -> Z).
(** rows of the generator matrix read by load_gmat, cssr_has.py:151-152 *)
Context (G : list (list Z)).

Definition bnth (l : list Z) (j : nat) : Z := List.nth j l Z0.
Definition rnth (l : list (list Z)) (i : nat) : list Z := List.nth i l nil.
Definition gmat (r : Z) (j : nat) : F := b2f (bnth (rnth G (row_ix r)) j).

(** cssr_has.py:162-172; a matrix [gMat[idx, :k]] which is not square (k > 32 columns) or singular
    raises LinAlgError.  The result is kept as rows; tobytes() concatenates them. *)
Definition solve_gf (idx : list Z) (rows : list (list Z)) : option (list (list Z)) :=
  let k := length idx in
  if (32 < k)%N then None else
  let D : 'M[F]_k := \matrix_(i, j) gmat (bnth idx i) j in
  let W : 'M[F]_(k, 53) := \matrix_(i, j) b2f (bnth (rnth rows i) j) in
  if D \in unitmx then
    let M := invmx D *m W in
    Some [seq [seq f2b (M i j) | j <- enum 'I_53] | i <- enum 'I_k]
  else None.

(** specification: row [r] (counted from 0) of the generator, and page [r] of the encoding of a message *)
Definition grow (r : Z) (j : nat) : F := b2f (List.nth j (List.nth (Z.to_nat r) G nil) Z0).
Definition enc_page (msg : list (list Z)) (r : Z) : list Z :=
  [seq f2b (\sum_(l < length msg) grow r l * b2f (bnth (rnth msg l) j)) | j <- iota 0 53].

Definition msg_ok (msg : list (list Z)) : Prop :=
  List.Forall (fun row => length row = 53%N /\ List.Forall (fun b => f2b (b2f b) = b) row) msg.

(** the selected rows of the generator matrix are invertible *)
Definition invertible (idx : list Z) : Prop :=
  (length idx <= 32)%N /\ (\matrix_(i < length idx, j < length idx) grow (List.nth i idx Z0) j) \in unitmx.

Definition pad (k : nat) (msg : list (list Z)) : list (list Z) :=
  (msg ++ List.repeat (List.repeat Z0 53) (k - length msg))%list.
End Field.

Section Proofs.
Context (F : fieldType) (b2f : Z -> F) (f2b : F -> Z) (G : list (list Z)).
Hypothesis bK : cancel f2b b2f.
Hypothesis b0 : f2b 0 = Z0.

Lemma nth_enc_page msg r j : (j < 53)%N ->
  bnth (enc_page b2f f2b G msg r) j = f2b (\sum_(l < length msg) grow b2f G r l * b2f (bnth (rnth msg l) j)).
Proof.
  move=> Hj. rewrite /enc_page /bnth.
  have nthE : forall (A : Type) (d : A) (l : list A) n, List.nth n l d = nth d l n.
  { move=> A d; elim=> [|x l IH] [|n] //=. }
  rewrite nthE (nth_map 0%N) ?size_iota // nth_iota //.
Qed.

Lemma list_nthE (A : Type) (d : A) (l : list A) n : List.nth n l d = nth d l n.
Proof. by elim: l n => [|x l IH] [|n] //=. Qed.

Lemma gmat_grow r j : Z.le Z0 r -> gmat b2f G r j = grow b2f G r j.
Proof. by rewrite /gmat /grow /bnth /rnth /row_ix => /Z.ltb_ge ->. Qed.
Lemma gmat_idx idx : List.Forall (Z.le Z0) idx ->
  (\matrix_(i < length idx, j < length idx) gmat b2f G (bnth idx i) j) =
  (\matrix_(i < length idx, j < length idx) grow b2f G (List.nth i idx Z0) j).
Proof.
  move=> H. apply/matrixP=> i j. rewrite !mxE gmat_grow //. rewrite List.Forall_forall in H. apply: H.
  apply: List.nth_In. by apply/ltP.
Qed.

Lemma solve_encoded msg idx rows : List.Forall (Z.le Z0) idx ->
  msg_ok b2f f2b msg -> (length msg <= length idx)%N ->
  rows = [seq enc_page b2f f2b G msg r | r <- idx] ->
  invertible b2f G idx ->
  solve_gf b2f f2b G idx rows = Some (pad (length idx) msg).
Proof.
  move=> Hpos Hok Hlen Hrows [Hk Hu].
  rewrite /solve_gf ltnNge Hk /= gmat_idx // Hu. congr Some.
  set k := length idx in Hu Hk Hlen *.
  set D := \matrix_(i, j) _ in Hu *. set W := \matrix_(i, j) _.
  pose M : 'M[F]_(k, 53) := \matrix_(i, j) b2f (bnth (rnth (pad k msg) i) j).
  have b2f0 : b2f Z0 = 0 by rewrite -b0 bK.
  have padlen : length (pad k msg) = k.
  { rewrite /pad List.app_length List.repeat_length. by rewrite plusE subnKC. }
  have padn : forall i j, (length msg <= i)%N -> bnth (rnth (pad k msg) i) j = Z0.
  { move=> i j Hi. rewrite /rnth /pad List.app_nth2; last by apply/leP.
    rewrite /bnth.
    case: (Compare_dec.le_lt_dec (k - length msg) (i - length msg)) => Hc.
    - rewrite (@List.nth_overflow _ (List.repeat _ _)); first by case: j.
      by rewrite List.repeat_length.
    - rewrite (List.nth_indep _ nil (List.repeat Z0 53)); last by rewrite List.repeat_length.
      rewrite List.nth_repeat. by rewrite List.nth_repeat. }
  have padm : forall i j, (i < length msg)%N -> bnth (rnth (pad k msg) i) j = bnth (rnth msg i) j.
  { move=> i j Hi. rewrite /rnth /pad List.app_nth1 //. by apply/ltP. }
  have HD : D *m M = W.
  { apply/matrixP=> i j. rewrite !mxE.
    have -> : rnth rows i = enc_page b2f f2b G msg (bnth idx i).
    { rewrite Hrows /rnth list_nthE (nth_map Z0) ?ltn_ord //. rewrite /bnth list_nthE. done. }
    rewrite nth_enc_page ?ltn_ord // bK.
    pose f l := grow b2f G (bnth idx i) l * b2f (bnth (rnth (pad k msg) l) j).
    transitivity (\sum_(l < k) f l); first by apply: eq_bigr => l _; rewrite !mxE.
    rewrite -(big_mkord xpredT f) (@big_cat_nat _ _ _ (length msg)) //=.
    rewrite [X in _ + X]big_nat [X in _ + X]big1 ?addr0; last first.
    { move=> l /andP [Hl _]. by rewrite /f padn // b2f0 mulr0. }
    rewrite big_mkord. apply: eq_bigr => l _. by rewrite /f padm. }
  have -> : invmx D *m W = M by rewrite -HD mulKmx.
  (* back to rows *)
  apply: (@eq_from_nth _ nil).
  { rewrite size_map size_enum_ord. by rewrite -[RHS]/(length _) padlen. }
  move=> i. rewrite size_map size_enum_ord => Hi.
  rewrite (nth_map (Ordinal Hi)) ?size_enum_ord //.
  have -> : nth nil (pad k msg) i = rnth (pad k msg) i by rewrite /rnth list_nthE.
  have Hrow : length (rnth (pad k msg) i) = 53%N /\ List.Forall (fun b => f2b (b2f b) = b) (rnth (pad k msg) i).
  { rewrite /rnth.
    have Hall : List.Forall (fun row => length row = 53%N /\ List.Forall (fun b => f2b (b2f b) = b) row) (pad k msg).
    { rewrite /pad. apply/List.Forall_app; split; first exact: Hok.
      apply List.Forall_forall; intros x Hx; apply List.repeat_spec in Hx; subst x. split; first by rewrite List.repeat_length.
      apply List.Forall_forall; intros x Hx; apply List.repeat_spec in Hx; subst x. by rewrite b2f0 b0. }
    rewrite List.Forall_forall in Hall. apply: Hall. apply: List.nth_In. rewrite padlen. by apply/ltP. }
  case: Hrow => Hr1 Hr2.
  apply: (@eq_from_nth _ Z0).
  { rewrite size_map size_enum_ord. by rewrite -[RHS]/(length _) Hr1. }
  move=> j. rewrite size_map size_enum_ord => Hj.
  rewrite (nth_map (Ordinal Hj)) ?size_enum_ord // mxE.
  have -> : (nth (Ordinal Hi) (enum 'I_k) i : nat) = i by rewrite nth_enum_ord.
  have -> : (nth (Ordinal Hj) (enum 'I_53) j : nat) = j by rewrite nth_enum_ord.
  have -> : nth Z0 (rnth (pad k msg) i) j = bnth (rnth (pad k msg) i) j by rewrite /bnth list_nthE.
  rewrite List.Forall_forall in Hr2. apply: Hr2. rewrite /bnth. apply: List.nth_In. rewrite Hr1. by apply/ltP.
Qed.

Lemma solve_invertible idx rows out : List.Forall (Z.le Z0) idx ->
  solve_gf b2f f2b G idx rows = Some out -> invertible b2f G idx.
Proof.
  move=> Hpos. rewrite /solve_gf /invertible. case: ltnP => // Hk. rewrite -gmat_idx //. by case: ifP.
Qed.

Lemma hist_okpid h p : List.In p (hist_pages h) -> okpid p.
Proof.
  rewrite /hist_pages => /List.in_concat [l [/List.in_map_iff [c [<- _]] H]].
  move: H. rewrite /call_pages => /List.in_map_iff [b [<- _]]. exact: page_of_ok.
Qed.

(** pages that carry encodings of messages give back the messages *)
Lemma has_end_to_end (Msgs : Z -> list (list Z)) h c m s' :
  List.Forall complete (h ++ [:: c])%list ->
  (forall p, List.In p (hist_pages (h ++ [:: c])%list) ->
     p_pid p <> Z0 /\ msg_ok b2f f2b (Msgs (p_mid p)) /\ p_ms p = Z.of_nat (length (Msgs (p_mid p))) /\
     p_data p = enc_page b2f f2b G (Msgs (p_mid p)) (Z.sub (p_pid p) (Zpos xH))) ->
  decode_cnav (solve_gf b2f f2b G) c (fst (cnav_run (solve_gf b2f f2b G) h)) = (s', Some (Some m)) ->
  exists p k, List.In p (hist_pages (h ++ [:: c])%list) /\
    snd (cnav_run (solve_gf b2f f2b G) (h ++ [:: c])%list) =
      (snd (cnav_run (solve_gf b2f f2b G) h) ++ [:: (p_mid p, m)])%list /\
    (length (Msgs (p_mid p)) <= k <= 32)%N /\ m = pad k (Msgs (p_mid p)).
Proof.
  move=> Hw Hp Hd.
  have [h1 [h2 [mid [ps [p0 [[Eh [_ _]] [El [Hin [Hmid [_ [Hhd [Hms [_ [rows [Hsol Hrows]]]]]]]]]]]]]]] :=
    cnav_delivers_only_complete (solve_gf b2f f2b G) h c m s' Hw Hd.
  have Hsub : forall p, List.In p (hist_pages (h2 ++ [:: c])%list) -> List.In p (hist_pages (h ++ [:: c])%list).
  { move=> p. rewrite Eh /hist_pages -List.app_assoc (List.map_app _ h1) List.concat_app => H.
    apply List.in_or_app. by right. }
  have Hp0 : List.In p0 ps by case: (ps) Hhd => [|q r] //= [->]; left.
  have Hm0 : p_mid p0 = mid by rewrite List.Forall_forall in Hmid; exact: Hmid.
  have [_ [Hok [Hsz _]]] := Hp p0 (Hsub _ (Hin _ Hp0)).
  have Hrows' : rows = List.map p_data ps.
  { apply: Hrows. apply List.Forall_forall => p Hip. by case: (Hp p (Hsub _ Hip)). }
  rewrite Hm0 in Hok Hsz.
  set idx := List.map _ ps in Hsol.
  have Hidx : length idx = length ps by rewrite /idx List.map_length.
  have Hle : (length (Msgs mid) <= length idx)%N.
  { rewrite Hidx. apply/leP. move: Hms. rewrite Hsz => H. by apply Nat2Z.inj_le. }
  have Henc : rows = [seq enc_page b2f f2b G (Msgs mid) r | r <- idx].
  { rewrite Hrows' /idx. rewrite -[RHS]/(List.map _ _) List.map_map. apply List.map_ext_in => p Hip.
    have [_ [_ [_ ->]]] := Hp p (Hsub _ (Hin _ Hip)).
    by rewrite List.Forall_forall in Hmid; rewrite Hmid. }
  have Hpos : List.Forall (Z.le Z0) idx.
  { apply List.Forall_forall => r. rewrite /idx => /List.in_map_iff [p [<- Hip]].
    have Hq := Hsub _ (Hin _ Hip). have [Hne _] := Hp p Hq. have := hist_okpid Hq. move=> [_ [_ [H0 _]]]. lia. }
  have Hinv := solve_invertible Hpos Hsol.
  have Hk := solve_encoded Hpos Hok Hle Henc Hinv.
  exists p0, (length idx). split; first by apply: Hsub; apply: Hin.
  rewrite Hm0. split; first exact: El. split.
  - rewrite Hle. by case: Hinv.
  - congruence.
Qed.
End Proofs.

(** there is such a field with 256 elements *)
Lemma gf256_exists : exists (F : finFieldType) (b2f : Z -> F) (f2b : F -> Z),
  #|F| = 256%N /\ cancel f2b b2f /\ f2b 0 = Z0 /\ f2b 1 = Zpos xH /\
  forall b, Z.le Z0 b /\ Z.lt b (Z.of_nat 256) -> f2b (b2f b) = b.
Proof.
  have [F _ HF] := @PrimePowerField 2 8 isT isT.
  pose s : seq F := 0 :: 1 :: rem 1 (rem 0 (enum F)).
  have Hperm : perm_eq (enum F) s.
  { apply: (perm_trans (perm_to_rem (x := 0) _)); first by rewrite mem_enum.
    rewrite /s perm_cons. apply: perm_to_rem. rewrite mem_rem_uniq ?enum_uniq // inE /= mem_enum oner_eq0 //. }
  have Hu : uniq s by rewrite -(perm_uniq Hperm) enum_uniq.
  have Hs : size s = 256%N by rewrite -(perm_size Hperm) -cardE HF.
  have Ha : forall x, x \in s by move=> x; rewrite -(perm_mem Hperm) mem_enum.
  exists F, (fun z => nth 0 s (Z.to_nat z)), (fun x => Z.of_nat (index x s)).
  split; first by rewrite HF. split.
  { move=> x. by rewrite Nat2Z.id nth_index. }
  split; first by rewrite /s /= eqxx. split; first by rewrite /s /= eq_sym oner_eq0 eqxx.
  move=> b [H0 H1]. rewrite index_uniq ?Hs //; first by rewrite Z2Nat.id.
  apply/ltP. apply Nat2Z.inj_lt. rewrite Z2Nat.id //.
Qed.
