(** Messages kept in the slots of buffers: the general step; sign and magnitude; times. *)
From Verif Require Import SatModel TimeModel TimeSpec TimeProofs TimeLeap TimeAdjust BitModel BitProofs CssrState CssrFacts L6Proofs.
From Verif Require Import RawModel RawSpec RawFacts RawGal RawLnav RawProofs NavModel NavSpec NavFacts GloModel GloSpec.
From Verif Require Import Base BaseFacts FieldFacts.
From Coq Require Import ZifyBool ZifyNat.
Notation length := List.length.
Open Scope Z_scope.

(* ---------- buffers ---------- *)
Section Kept.
Context {E M R : Type}.
Variables (step : E -> dict Z bits -> option (dict Z bits * option R)) (buf : Z -> dict Z bits -> option bits) (put : Z -> bits -> dict Z bits -> dict Z bits).
Variables (key : E -> Z) (P : Z -> Prop) (want : Z -> Z -> E -> option M) (good : E -> Prop) (ok : Z -> Prop).
Variables (N : nat) (holds : bits -> Z -> option M -> Prop) (gs : Z -> M -> Prop) (res : E -> (Z -> option M) -> option R).
Definition kinv (h : list E) (d : dict Z bits) : Prop :=
  forall q, P q -> exists b, buf q d = Some b /\ length b = N /\ forall k, ok k -> holds b k (last_of (want q k) h).
Hypothesis buf_same : forall q b d, buf q (put q b d) = Some b.
Hypothesis buf_other : forall p q b d, P p -> P q -> p <> q -> buf p (put q b d) = buf p d.
Hypothesis key_P : forall e, good e -> P (key e).
Hypothesis want_other : forall e q k, P q -> q <> key e -> want q k e = None.
Hypothesis want_good : forall e q k m, good e -> want q k e = Some m -> gs k m.
Hypothesis res_ext : forall e L L', (forall k, L k = L' k) -> res e L = res e L'.
Hypothesis step_ok : forall e d b L, good e -> buf (key e) d = Some b -> length b = N ->
  (forall k m, L k = Some m -> gs k m) -> (forall k, ok k -> holds b k (L k)) ->
  let L' k := match want (key e) k e with Some m => Some m | None => L k end in
  (step e d = Some (d, res e L') /\ (forall k, ok k -> want (key e) k e = None)) \/
  exists b', step e d = Some (put (key e) b' d, res e L') /\ length b' = N /\ forall k, ok k -> holds b' k (L' k).
Lemma kstep h d e : Forall good h -> good e -> kinv h d ->
  exists d', step e d = Some (d', res e (fun k => last_of (want (key e) k) (h ++ [e]))) /\ kinv (h ++ [e]) d'.
Proof.
  intros Hh He Hi. destruct (Hi (key e) (key_P e He)) as (b & Eb & Lb & Ab).
  assert (EL : forall k, match want (key e) k e with Some m => Some m | None => last_of (want (key e) k) h end = last_of (want (key e) k) (h ++ [e])).
  { intros k. now rewrite last_snoc. }
  assert (HL : forall k m, last_of (want (key e) k) h = Some m -> gs k m).
  { intros k m L. apply last_in in L. destruct L as (x & Hx & W). rewrite Forall_forall in Hh. eapply want_good; [apply Hh; exact Hx|exact W]. }
  destruct (step_ok e d b (fun k => last_of (want (key e) k) h) He Eb Lb HL Ab) as [[S W]|(b' & S & Lb' & Ab')]; rewrite (res_ext _ _ _ EL) in S.
  - exists d. split; [exact S|]. intros q Hq. destruct (Hi q Hq) as (c & Ec & Lc & Ac). exists c. split; [exact Ec|]. split; [exact Lc|].
    intros k Hk. rewrite last_snoc. destruct (Z.eq_dec q (key e)) as [->|Hne]; [rewrite W|rewrite want_other]; auto.
  - exists (put (key e) b' d). split; [exact S|]. intros q Hq. destruct (Z.eq_dec q (key e)) as [->|Hne].
    + exists b'. split; [apply buf_same|]. split; [exact Lb'|]. intros k Hk. rewrite <- EL. now apply Ab'.
    + destruct (Hi q Hq) as (c & Ec & Lc & Ac). exists c. rewrite buf_other by auto. split; [exact Ec|]. split; [exact Lc|].
      intros k Hk. rewrite last_snoc, want_other; auto.
Qed.
Lemma kany d0 : (forall q, P q -> exists b, buf q d0 = Some b /\ length b = N /\ forall k, ok k -> holds b k None) ->
  forall h e, Forall good h -> good e ->
  exists d d', mfold (fun e d => do r <- step e d; Some (fst r)) h d0 = Some d /\
    step e d = Some (d', res e (fun k => last_of (want (key e) k) (h ++ [e]))).
Proof.
  intros H0 h e Hh He.
  assert (X : exists d, mfold (fun e d => do r <- step e d; Some (fst r)) h d0 = Some d /\ kinv h d).
  { induction h as [|x h IH] using rev_ind; [exists d0; split; [reflexivity|exact H0]|].
    apply Forall_app in Hh. destruct Hh as [Hh Hx]. inversion Hx as [|? ? Hx' _]. subst. destruct (IH Hh) as (d & Ed & Hi).
    destruct (kstep h d x Hh Hx' Hi) as (d' & E' & Hi'). exists d'. split; [|exact Hi']. rewrite mfold_snoc, Ed. cbn [bind]. now rewrite E'. }
  destruct X as (d & Ed & Hi). destruct (kstep h d e Hh He Hi) as (d' & E' & _). eauto.
Qed.
End Kept.

(** buffers made on demand *)
Definition dbuf (n : nat) (q : Z) (d : dict Z bits) : option bits := Some (match zget q d with Some b => b | None => zbytes n end).
Lemma dbuf_same n q b d : dbuf n q (zset q b d) = Some b.
Proof. unfold dbuf. now rewrite zget_zset_same. Qed.
Lemma dbuf_other n p q b d : p <> q -> dbuf n p (zset q b d) = dbuf n p d.
Proof. intros H. unfold dbuf. now rewrite zget_zset_other by congruence. Qed.
Lemma zbytes_len n : length (zbytes n) = (8 * n)%nat.
Proof. apply repeat_length. Qed.
Lemma zeros_at n i m : (i + m <= 8 * n)%nat -> At (zbytes n) i (repeat false m).
Proof.
  intros H. exists (repeat false i), (repeat false (8 * n - i - m)). split; [|apply repeat_length].
  unfold zbytes. rewrite <- !repeat_app. f_equal. lia.
Qed.
Lemma copy_splice src dst os od n : (os + n <= length src)%nat -> (od + n <= length dst)%nat -> copy_buff src dst os od n = Some (splice dst od (slice src os n)).
Proof.
  intros Hs Hd. destruct (copy_buff_fits src dst os od n Hs Hd) as (d & E & C). rewrite E. f_equal. now apply copied_splice.
Qed.

(* ---------- sign and magnitude ---------- *)
Lemma getbitg_s b o fl p n x : At b o (enc fl) -> (o <=? p)%nat = true -> fat fl (p - o) = Some (1%nat, neg x) ->
  fat fl (p + 1 - o) = Some ((n - 1)%nat, mag x) -> sm_ok (Z.of_nat n) x -> (1 <= n)%nat -> getbitg b p n = Some (smv x).
Proof.
  intros A Ho F1 F2 [H1 H2] Hn. unfold getbitg. rewrite (getu_u b o fl p 1 (neg x) A Ho F1 H1). cbn [bind].
  rewrite (getu_u b o fl (p + 1) (n - 1) (mag x) A ltac:(lia) F2) by (replace (Z.of_nat (n - 1)) with (Z.of_nat n - 1) by lia; exact H2). cbn [bind].
  unfold smv. unfold U in H1. assert (C : neg x = 0 \/ neg x = 1) by lia. destruct C as [-> | ->]; reflexivity.
Qed.
Ltac rngg := match goal with R : sm_ok _ ?v |- sm_ok _ ?v => exact R end.
(** read the next sign-magnitude field *)
Ltac rdg :=
  cbv beta zeta;
  lazymatch goal with
  | |- bind (getbitg ?b ?p ?n) _ = _ =>
    match goal with
    | A : At b ?o (enc ?fl) |- _ =>
      let c := eval cbv in (Nat.leb o p) in
      lazymatch c with true =>
      let r := eval cbv [fat Nat.leb Nat.eqb Nat.sub Nat.add Nat.mul] in (fat fl (p - o)) in
      lazymatch r with Some (_, neg ?x) =>
        refine (bind_eq _ _ _ _ (getbitg_s b o fl p n x A eq_refl eq_refl eq_refl _ _) _); [rngg|clear; lia|]
      end end
    end
  end; cbv beta.
Ltac rdm := repeat (first [rd1 | rdg]); cbv beta zeta.

(* ---------- times ---------- *)
Lemma gps_exact w t : - 1000000000 <= t <= 1000000000 -> gpst2time 1 w t = at_week gps0 w t.
Proof.
  intros H. unfold gpst2time, wt2time. replace ((t <? -1000000000 * 1) || (t >? 1000000000 * 1)) with false by lia.
  rewrite Z.quot_1_r. unfold at_week. assert (G : gt (epoch2time 1 gpst0) = 86400 * gps0) by (vm_compute; reflexivity). rewrite G.
  f_equal; lia.
Qed.
Lemma utc_gps u : utc2gpst 1 (GT u 0) = utc u.
Proof.
  destruct (utc2gpst_ok 1 (GT u 0) ltac:(lia)) as [A B]; [unfold normal; cbn [gs]; lia|]. destruct (utc2gpst 1 (GT u 0)) as [t s].
  unfold ticks, normal in *. cbn [gt gs] in *. unfold utc. replace (u * 1 + 0) with u in A by lia. f_equal; lia.
Qed.
Lemma gep_moscow N4 Nt sod : 1 <= N4 <= 26 -> 1 <= Nt -> 0 <= sod < 86400 -> gep2time 1 N4 Nt sod = moscow N4 Nt sod.
Proof.
  intros H1 H2 H3. destruct (gep2time_ok 1 N4 Nt sod ltac:(lia) H1 H2 ltac:(lia)) as ([t s] & Nu & Tu & ->). unfold ticks, normal in *. cbn [gt gs] in *.
  assert (s = 0) by lia. subst s. rewrite utc_gps. unfold moscow. f_equal. lia.
Qed.
