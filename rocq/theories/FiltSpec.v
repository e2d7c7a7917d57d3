(** What the residuals, covariances and smoothing of the PPP filter should be, written without the
    index functions and loops of the model. *)
From Verif Require Import SatModel PppModel FiltModel.
From mathcomp Require Import all_ssreflect all_algebra.
Set Implicit Arguments.
Unset Strict Implicit.
Unset Printing Implicit Defensive.
Import GRing.Theory Num.Theory.
Local Open Scope ring_scope.

(** symmetric, and positive semidefinite *)
Definition symm (F : ringType) n (A : 'M[F]_n) : Prop := forall i j, A i j = A j i.
Definition psd (F : realFieldType) n (A : 'M[F]_n) : Prop :=
  forall u : nat -> F, 0 <= \sum_(i < n) \sum_(j < n) u i * A i j * u j.

Definition posdef (F : realFieldType) n (A : 'M[F]_n) : Prop := psd A /\ forall u : nat -> F,
  \sum_(i < n) \sum_(j < n) u i * A i j * u j = 0 -> forall i, (i < n)%N -> u i = 0.
(** rows [a] and [b] are in the same of the consecutive blocks of [nb] rows *)
Definition same_block (nb : seq nat) (a b : nat) : Prop := exists p n q,
  nb = p ++ n :: q /\ (sumn p <= a < sumn p + n)%N /\ (sumn p <= b < sumn p + n)%N.

(** the state vector: position (and velocity), zenith delay, slant delays, ambiguities *)
Definition base (o : popt) : Z := if Z.eqb (pmode o) Z0 then Zpos 3 else Zpos 6.
Definition at_trop (o : popt) : Z := base o.
Definition at_iono (o : popt) (s : Z) : Z :=
  Z.sub (Z.add (Z.add (base o) (if Z.eqb (trop_opt o) (Zpos 1) then Zpos 1 else Z0)) s) (Zpos 1).
Definition at_amb (o : popt) (s : Z) (f : nat) : Z :=
  Z.sub (Z.add (Z.add (base o) (if Z.eqb (trop_opt o) (Zpos 1) then Zpos 1 else Z0))
        (Z.add (if Z.eqb (iono_opt o) (Zpos 1) then Zpos 233 else Z0)
               (Z.add (Z.mul (Zpos 233) (Z.of_nat f)) s))) (Zpos 1).

(** row of a Jacobian times a state change *)
Definition rowdot (F : realFieldType) (o : popt) (h d : Z -> F) : F :=
  \sum_(k < Z.to_nat (nx o)) h (Z.of_nat k) * d (Z.of_nat k).
Section Sd.
Variable F : realFieldType.
Variable I : sdin F.
Let o := si_o I.
Let sat (i : nat) : Z := nth Z0 (si_sat I) i.

(** a reference satellite: the highest of its constellation, the first one if there are several *)
Definition reference (m : gnss) (i : nat) : Prop :=
  (i < size (si_sat I))%N /\ fst (sat2prn (sat i)) = m /\
  forall k, (k < size (si_sat I))%N -> fst (sat2prn (sat k)) = m ->
    si_el I k <= si_el I i /\ (si_el I k = si_el I i -> (i <= k)%N).
(** signal [f] (the nf phases, then the nf codes) of constellation [m] gives a difference between
    satellites [i] and [j] *)
Definition usable (l : gnss * nat * nat * nat) : Prop :=
  let '(m, f, i, j) := l in
  List.In m (si_sys I) /\ (f < nf o + nf o)%N /\ reference m i /\
  (j < size (si_sat I))%N /\ fst (sat2prn (sat j)) = m /\ j <> i /\
  si_edt I (sat j) = false /\ si_y I i f <> 0 /\ si_y I j f <> 0.

(** frequency of signal [f], and the observed single difference *)
Definition sfreq (m : gnss) (f : nat) : F :=
  if (f < nf o)%N then si_freq I m true f Z0 else si_freq I m false (f - nf o) Z0.
Definition observed (l : gnss * nat * nat * nat) : F :=
  let '(m, f, i, j) := l in
  let z k := if si_dd I then si_y I k f - si_y I (k + size (si_sat I))%N f else si_y I k f in
  z i - z j.
(** the contribution of a state [z] to it, with mapping factors [w]: the zenith delay, the slant delays
    (ahead on the code, behind on the phase), and the ambiguities in cycles *)
Definition predicted (w : nat -> F) (z : Z -> F) (l : gnss * nat * nat * nat) : F :=
  let '(m, f, i, j) := l in
  let part k :=
    (if Z.eqb (trop_opt o) (Zpos 1) then w k * z (at_trop o) else 0) +
    (if Z.eqb (iono_opt o) (Zpos 1) then
       (if (f < nf o)%N then -1 else 1) * (sfreq m 0 / sfreq m f) ^+ 2 * z (at_iono o (sat k)) else 0) +
    (if (f < nf o)%N then si_c I / sfreq m f * z (at_amb o (sat k) f) else 0) in
  part i - part j.
(** the change of it when the receiver moves by d[0..2], [e] being unit vectors to the satellites *)
Definition moved (d : Z -> F) (l : gnss * nat * nat * nat) : F :=
  let '(m, f, i, j) := l in
  let along k := si_e I k 0 * d Z0 + si_e I k 1 * d (Zpos 1) + si_e I k 2 * d (Zpos 2) in
  along j - along i.
(** variance of signal [f] at elevation [el] *)
Definition sigma2 (f : nat) (el : F) : F :=
  (if (f < nf o)%N then 1 else si_eratio I (f - nf o) ^+ 2) *
  (si_err1 I ^+ 2 + si_err2 I ^+ 2 / (if si_smin I <= si_sin I el then si_sin I el else si_smin I) ^+ 2).
(** satellites of an epoch: valid numbers, each once *)
Definition epoch : Prop := List.NoDup (si_sys I) /\ List.NoDup (si_sat I) /\
  forall s, List.In s (si_sat I) -> Z.le (Zpos 1) s /\ Z.le s (Zpos 233).
(** [L] lists the usable differences, as many as sdres returns rows *)
Definition rows_of (L : seq (gnss * nat * nat * nat)) : Prop :=
  List.NoDup L /\ (forall l, List.In l L <-> usable l) /\
  forall x, size (sdres I x).1.1 = size L /\ size (sdres I x).1.2 = size L.
End Sd.

(** the estimated state after an epoch, entry [k]; 0 beyond the end *)
Definition xat (F : realFieldType) n (st : ust F n) (k : Z) : F :=
  if insub (Z.to_nat k) is Some a then u_x st a 0 else 0.
Definition Pat (F : realFieldType) n (st : ust F n) (k l : Z) : F :=
  match insub (Z.to_nat k), insub (Z.to_nat l) with Some a, Some b => u_P st a b | _, _ => 0 end.
(** satellite [i] of an epoch without noise: range [rho] (with all non-dispersive terms), slant delay
    [ion] at the frequency of the first code, [amb f] cycles; every signal of number [f] on the
    frequency [fr f] *)
Definition clean (F : realFieldType) (I : udin F) (i : nat) (rho ion : F) (amb fr : nat -> F) : Prop :=
  forall f, (f < nf (ui_o I))%N ->
    let g := (fr 0%N / fr f) ^+ 2 in
    ui_P I i f = rho + g * ion /\ ui_L I i f = (rho - g * ion) / (ui_c I / fr f) + amb f.
(** frequency of a signal of satellite [s] *)
Definition ufreq (F : realFieldType) (I : udin F) (phase : bool) (f : nat) (s : Z) : F :=
  ui_freq I (fst (sat2prn s)) phase f
    (match fst (sat2prn s) with GLO => if ui_ch I s is Some c then c else Z0 | _ => Z0 end).

(** [b] is the value a new ambiguity of observation [i], frequency [f], starts from: nothing (0) for an
    edited satellite or a missing code or phase, and the exact ambiguity when there is no noise and the
    slant delay is either estimated from two frequencies or absent *)
Definition first_value (F : realFieldType) (I : udin F) (i f : nat) (b : F) : Prop :=
  let s := nth Z0 (ui_sat I) i in
  (ui_edt I s -> b = 0) /\ (ui_L I i f = 0 -> b = 0) /\ (ui_P I i f = 0 -> b = 0) /\
  (forall rho ion amb fr, clean I i rho ion amb fr ->
     (fst (sat2prn s) = GLO -> ui_ch I s <> None) ->
     (forall k, (k < nf (ui_o I))%N -> 0 < fr k /\ ufreq I true k s = fr k /\ ufreq I false k s = fr k /\
        ui_P I i k <> 0 /\ ui_L I i k <> 0) ->
     ui_edt I s = false -> 0 < ui_c I ->
     ((1 < nf (ui_o I))%N /\ iono_opt (ui_o I) = Zpos 1 /\ fr 0%N <> fr 1%N) \/ ion = 0 /\ ~ ((1 < nf (ui_o I))%N /\ iono_opt (ui_o I) = Zpos 1) ->
     b = amb f).

(* ---------- carrier smoothing ---------- *)
Section Cs.
Variable F : realFieldType.
Variables (U : Z) (ns : nat) (dt : Z) (th : F).
(** a call of csmooth: epoch, satellite, code, phase *)
Record cobs := CO { co_t : gtime; co_sat : Z; co_p : F; co_l : F }.
Definition missing (c : cobs) : Prop := co_p c = 0 \/ co_l c = 0.
Definition cs_call (c : cobs) (s : csst F) := csmooth U ns dt th (co_t c) (co_sat c) (co_p c) (co_l c) s.
(** the results of a sequence of calls on a new object; [None]: one of them raises *)
Fixpoint cs_from (s : csst F) (h : seq cobs) : option (seq F) :=
  match h with
  | [::] => Some [::]
  | c :: r => match cs_call c s with
              | Some (p, s') => if cs_from s' r is Some out then Some (p :: out) else None
              | None => None
              end
  end.
Definition cs_outs (h : seq cobs) : option (seq F) := cs_from (cs_empty F) h.
(** the average of code minus phase over [h], put on the phase [l] *)
Definition hatch (h : seq cobs) (l : F) : F := l + (\sum_(c <- h) (co_p c - co_l c)) / (size h)%:R.
(** consecutive observations of one satellite [s]: complete, without gap, no code further than the
    threshold from the average of the observations before it *)
Definition clean_arc (s : Z) (h : seq cobs) : Prop :=
  forall a c b, h = a ++ c :: b -> ~ missing c /\ co_sat c = s /\
    (forall a' c', a = a' ++ [:: c'] -> Z.le (timediff U (co_t c) (co_t c')) dt /\
                                       `|co_p c - hatch a (co_l c)| < th).
(** the last call for satellite [k] and its result *)
Definition previous (k : Z) (h : seq cobs) (out : seq F) : option (cobs * F) :=
  last None [seq Some z | z <- zip h out & Z.eqb (co_sat z.1) k].
(** the result of a call after [h] with results [out] *)
Definition smoothed (h : seq cobs) (out : seq F) (c : cobs) (p : F) : Prop :=
  match previous (co_sat c) h out with
  | None => p = co_p c
  | Some (c0, p0) =>
      let carried := p0 + (co_l c - co_l c0) in
      (~ missing c /\ ~ missing c0 /\ Z.le (timediff U (co_t c) (co_t c0)) dt /\ `|co_p c - carried| < th ->
         exists w, 1 / ns%:R <= w /\ w <= 1 /\ p = w * co_p c + (1 - w) * carried) /\
      (missing c \/ missing c0 \/ Z.lt dt (timediff U (co_t c) (co_t c0)) \/ th <= `|co_p c - carried| ->
         p = co_p c)
  end.
End Cs.
