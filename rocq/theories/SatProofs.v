From Verif Require Import SatModel SatSpec.
From Coq Require Import ZifyBool.
Open Scope Z_scope.

Ltac unf := unfold MAXSAT, IRNMIN, SBSMIN, GLOMIN, BDSMIN, QZSMIN, GALMIN, GPSMIN,
  GPSMAX, GALMAX, QZSMAX, BDSMAX, GLOMAX, SBSMAX, IRNMAX in *.

Ltac sat2prn_cases :=
  unfold sat2prn; unf;
  repeat match goal with |- context [ ?a >? ?b ] => destruct (Z.gtb_spec a b) end.

Lemma sat2prn_prn2sat s p : owns s p -> sat2prn (prn2sat s p) = (s, p) /\ satnum (prn2sat s p).
Proof.
  intros H. unfold satnum.
  destruct s; cbn [owns prn2sat] in *; try contradiction;
    (split; [sat2prn_cases; try lia; f_equal; lia | unf; lia]).
Qed.

Lemma prn2sat_sat2prn n : satnum n ->
  owns (fst (sat2prn n)) (snd (sat2prn n)) /\ prn2sat (fst (sat2prn n)) (snd (sat2prn n)) = n.
Proof.
  unfold satnum. intros H. sat2prn_cases; cbn [fst snd owns prn2sat]; unf; lia.
Qed.

Lemma prn2sat_unique n : satnum n ->
  exists! sp, owns (fst sp) (snd sp) /\ prn2sat (fst sp) (snd sp) = n.
Proof.
  intros H. exists (sat2prn n). split; [apply prn2sat_sat2prn; assumption|].
  intros [s p] [Ho He]. cbn in *. subst n. apply sat2prn_prn2sat in Ho. tauto.
Qed.

(** what happens outside the owned ranges *)
Lemma prn2sat_not_owned s p : s <> NONE -> ~ owns s p ->
  ~ satnum (prn2sat s p) \/ fst (sat2prn (prn2sat s p)) <> s.
Proof.
  intros Hs Ho. unfold satnum.
  destruct s; cbn [owns prn2sat] in *; try contradiction;
    sat2prn_cases; cbn [fst]; try (right; discriminate); left; lia.
Qed.

Lemma alias_witness : ~ owns GPS 33 /\ sat2prn (prn2sat GPS 33) = (GAL, 1).
Proof. split; [cbn; lia | reflexivity]. Qed.

Lemma prn_alias : exists s p s' p', ~ owns s p /\ sat2prn (prn2sat s p) = (s', p') /\ owns s' p' /\ s' <> s.
Proof. exists GPS, 33, GAL, 1. destruct alias_witness. repeat split; auto; try (cbn; lia). discriminate. Qed.

Lemma sat2prn_outside n : ~ satnum n -> ~ owns (fst (sat2prn n)) (snd (sat2prn n)).
Proof. unfold satnum. intros H. sat2prn_cases; cbn [fst snd owns]; unf; lia. Qed.

(* ---------- identifiers: finite domain, lifted ---------- *)
Definition id_ok (n : Z) : bool :=
  match sat2id n with
  | Some s => match id2sat s with Ret m => (m =? n)%Z | Err => false end && (String.length s =? 3)%nat
  | None => false
  end.

Lemma id_ok_all : forallb id_ok (map Z.of_nat (seq 1 233)) = true.
Proof. vm_compute. reflexivity. Qed.

Lemma id_roundtrip n : satnum n ->
  exists s, sat2id n = Some s /\ String.length s = 3%nat /\ id2sat s = Ret n.
Proof.
  intros H. unfold satnum in H.
  pose proof (proj1 (forallb_forall _ _) id_ok_all n) as Hn.
  assert (Hin : In n (map Z.of_nat (seq 1 233))).
  { rewrite in_map_iff. exists (Z.to_nat n). rewrite in_seq. lia. }
  apply Hn in Hin. unfold id_ok in Hin.
  destruct (sat2id n) as [s|]; [|discriminate]. exists s. split; [reflexivity|].
  apply andb_true_iff in Hin. destruct Hin as [Hin Hl]. apply Nat.eqb_eq in Hl.
  split; [exact Hl|].
  destruct (id2sat s) as [|m]; [discriminate|]. apply Z.eqb_eq in Hin. now subst.
Qed.

Lemma id_injective a b s : satnum a -> satnum b -> sat2id a = Some s -> sat2id b = Some s -> a = b.
Proof.
  intros Ha Hb H1 H2.
  destruct (id_roundtrip a Ha) as (s1 & E1 & _ & R1).
  destruct (id_roundtrip b Hb) as (s2 & E2 & _ & R2). congruence.
Qed.

(** the identifier is the constellation letter followed by the two-digit RINEX number *)
Definition id_fmt_ok (n : Z) : bool :=
  let '(s, p) := sat2prn n in
  let r := rinex_number s p in
  match sat2id n with
  | Some (String c (String d1 (String d2 EmptyString))) =>
    Ascii.eqb c (sys2char s) && (Z.of_N (N_of_ascii d1) =? 48 + r / 10) && (Z.of_N (N_of_ascii d2) =? 48 + r mod 10)
  | _ => false
  end.
Lemma id_fmt_all : forallb id_fmt_ok (map Z.of_nat (seq 1 233)) = true.
Proof. vm_compute. reflexivity. Qed.

(** reading an identifier: any two-digit string after a constellation letter *)
Definition dig (d : Z) : ascii := ascii_of_N (Z.to_N (48 + d)).
Definition id_read_ok (c : ascii) (k : Z) : bool :=
  let s := char2sys c in
  let p := match s with QZS => k + 192 | SBS => k + 100 | _ => k end in
  match id2sat (String c (String (dig (k / 10)) (String (dig (k mod 10)) EmptyString))) with
  | Ret m => m =? (match s with NONE => -1 | _ => prn2sat s p end)
  | Err => false
  end.
Lemma id_read_all : forallb (fun c => forallb (id_read_ok (ascii_of_nat c)) (map Z.of_nat (seq 0 100))) (seq 0 256) = true.
Proof. vm_compute. reflexivity. Qed.

Lemma id_read c k : 0 <= k < 100 ->
  id2sat (String c (String (dig (k / 10)) (String (dig (k mod 10)) EmptyString)))
  = Ret (match char2sys c with
         | NONE => -1 | QZS => prn2sat QZS (k + 192) | SBS => prn2sat SBS (k + 100)
         | s => prn2sat s k end).
Proof.
  intros Hk. pose proof (proj1 (forallb_forall _ _) id_read_all (nat_of_ascii c)) as H.
  assert (Hc : In (nat_of_ascii c) (seq 0 256)).
  { rewrite in_seq. pose proof (nat_ascii_bounded c). lia. }
  apply H in Hc. clear H. cbn beta in Hc. rewrite ascii_nat_embedding in Hc.
  pose proof (proj1 (forallb_forall _ _) Hc k) as H.
  assert (Hin : In k (map Z.of_nat (seq 0 100))).
  { rewrite in_map_iff. exists (Z.to_nat k). rewrite in_seq. lia. }
  apply H in Hin. unfold id_read_ok in Hin.
  destruct (id2sat _) as [|m]; [discriminate|]. apply Z.eqb_eq in Hin. subst m.
  destruct (char2sys c); reflexivity.
Qed.

(** identifiers of two-digit numbers a constellation does not own may name another satellite *)
Lemma id_alias_witness : id2sat "G33" = Ret 33 /\ sat2id 33 = Some "E01"%string.
Proof. split; reflexivity. Qed.
