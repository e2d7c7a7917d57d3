(** Reading the fields of a message. *)
From Verif Require Export FieldSpec BaseFacts.
From Verif Require Export Base.
From Coq Require Import ZArith List Lia Bool ZifyBool ZifyNat.
Import ListNotations.
Notation length := List.length.
Open Scope Z_scope.

Definition fwidth (fl : list field) : nat := list_sum (map fst fl).
Lemma enc_app a b : enc (a ++ b) = enc a ++ enc b.
Proof. apply flat_map_app. Qed.
Lemma enc_length fl : length (enc fl) = fwidth fl.
Proof. induction fl as [|[n v] r IH]; [reflexivity|]. unfold enc, fwidth in *. cbn. rewrite app_length, bitsof_length. now f_equal. Qed.
Fixpoint fat (fl : list field) (p : nat) : option field :=
  match fl with
  | [] => None
  | (n, v) :: r => if (p =? 0)%nat then Some (n, v) else if (n <=? p)%nat then fat r (p - n) else None
  end.
Lemma fat_at b : forall fl o p n v, At b o (enc fl) -> fat fl p = Some (n, v) -> At b (o + p) (bitsof n v).
Proof.
  induction fl as [|[m w] r IH]; intros o p n v A E; cbn [fat] in E; [discriminate|].
  change (enc ((m, w) :: r)) with (bitsof m w ++ enc r) in A. apply At_app in A. destruct A as [A B]. rewrite bitsof_length in B.
  destruct (Nat.eqb_spec p 0) as [->|Hp].
  - injection E as -> ->. now rewrite Nat.add_0_r.
  - destruct (Nat.leb_spec m p) as [Hm|]; [|discriminate].
    specialize (IH _ _ _ _ B E). now replace (o + p)%nat with (o + m + (p - m))%nat by lia.
Qed.
Lemma getu_f b o fl i n v : At b o (enc fl) -> (o <=? i)%nat = true -> fat fl (i - o) = Some (n, v) ->
  getu b i n = Some (v mod 2 ^ Z.of_nat n).
Proof.
  intros A Hi E. pose proof (fat_at b _ _ _ _ _ A E) as B. replace (o + (i - o))%nat with i in B by lia.
  pose proof (getu_at _ _ _ B) as G. rewrite bitsof_length, bitsof_bval_mod in G. exact G.
Qed.
Lemma gets_f b o fl i n v : At b o (enc fl) -> (o <=? i)%nat = true -> fat fl (i - o) = Some (n, v) ->
  gets b i n = Some (sgn n (v mod 2 ^ Z.of_nat n)).
Proof. intros A Hi E. unfold gets. now rewrite (getu_f b o fl i n v A Hi E). Qed.
Lemma getu_u b o fl i n v : At b o (enc fl) -> (o <=? i)%nat = true -> fat fl (i - o) = Some (n, v) -> U (Z.of_nat n) v ->
  getu b i n = Some v.
Proof. intros A Hi E R. rewrite (getu_f b o fl i n v A Hi E). now rewrite Z.mod_small by exact R. Qed.
Lemma sgn_s n v : (1 <= n)%nat -> S_ (Z.of_nat n) v -> sgn n (v mod 2 ^ Z.of_nat n) = v.
Proof.
  intros Hn R. rewrite <- bitsof_bval_mod. unfold S_ in R. apply sgn_bits; assumption.
Qed.
Lemma gets_s b o fl i n v : At b o (enc fl) -> (o <=? i)%nat = true -> fat fl (i - o) = Some (n, v) -> (1 <= n)%nat -> S_ (Z.of_nat n) v ->
  gets b i n = Some v.
Proof. intros A Hi E Hn R. rewrite (gets_f b o fl i n v A Hi E). now rewrite sgn_s. Qed.


Lemma bind_eq {A B} (m : option A) (f : A -> option B) a r : m = Some a -> f a = r -> bind m f = r.
Proof. now intros -> <-. Qed.

Ltac rng0 :=
  match goal with
  | R : U _ ?v |- U _ ?v => exact R
  | R : S_ _ ?v |- S_ _ ?v => exact R
  | |- U _ Z0 => split; [discriminate|reflexivity]
  | |- U _ (Zpos _) => split; [discriminate|reflexivity]
  end.
Ltac closed_tests :=
  repeat match goal with
  | |- context [negb (Zpos ?a =? Zpos ?b)] => let r := eval cbv in (negb (Zpos a =? Zpos b)) in change (negb (Zpos a =? Zpos b)) with r
  | |- context [negb (Z0 =? Zpos ?b)] => change (negb (Z0 =? Zpos b)) with true
  end; rewrite ?orb_true_r, ?orb_false_r; cbn [orb]; cbv iota.
(** read the next field: [fl] gives its value *)
Ltac rd1 :=
  cbv beta zeta;
  lazymatch goal with
  | |- bind (getu ?b ?i ?n) _ = _ =>
    match goal with
    | A : At b ?o (enc ?fl) |- _ =>
      let c := eval cbv in (Nat.leb o i) in
      lazymatch c with true =>
      let r := eval cbv [fat Nat.leb Nat.eqb Nat.sub Nat.add Nat.mul] in (fat fl (i - o)) in
      lazymatch r with Some (_, ?v) =>
        first [ refine (bind_eq _ _ _ _ (getu_u b o fl i n v A eq_refl eq_refl _) _);
                  [rng0 |]
              | refine (bind_eq _ _ _ _ (getu_f b o fl i n v A eq_refl eq_refl) _) ]
      end end
    end
  | |- bind (gets ?b ?i ?n) _ = _ =>
    match goal with
    | A : At b ?o (enc ?fl) |- _ =>
      let c := eval cbv in (Nat.leb o i) in
      lazymatch c with true =>
      let r := eval cbv [fat Nat.leb Nat.eqb Nat.sub Nat.add Nat.mul] in (fat fl (i - o)) in
      lazymatch r with Some (_, ?v) =>
        first [ refine (bind_eq _ _ _ _ (gets_s b o fl i n v A eq_refl eq_refl _ _) _); [clear; lia | rng0 |]
              | refine (bind_eq _ _ _ _ (gets_f b o fl i n v A eq_refl eq_refl) _) ]
      end end
    end
  end; cbv beta.
Ltac rds := repeat rd1; cbv beta zeta.
