(** Frame format and error detection, stated without the model's register arithmetic. *)
From Verif Require Import Base.
Open Scope Z_scope.

(** Polynomials over GF(2) as numbers, bit i = coefficient of x^i; product of the bit string [q]
    (highest coefficient first) with [g]. *)
Fixpoint gmul (q : bits) (g : Z) : Z :=
  match q with
  | [] => 0
  | b :: r => Z.lxor (if b then g * 2 ^ Z.of_nat (length r) else 0) (gmul r g)
  end.

(** generator of CRC-24Q: x^24+x^23+x^18+x^17+x^14+x^11+x^10+x^7+x^6+x^5+x^4+x^3+x+1 *)
Definition gen24q : Z :=
  2^24 + 2^23 + 2^18 + 2^17 + 2^14 + 2^11 + 2^10 + 2^7 + 2^6 + 2^5 + 2^4 + 2^3 + 2^1 + 2^0.

(** the bits in which two strings differ *)
Fixpoint diff (a b : bits) : bits :=
  match a, b with x :: a', y :: b' => xorb x y :: diff a' b' | _, _ => [] end.

Definition weight (e : bits) : nat := length (filter (fun b => b) e).

(** error patterns the code must detect: a burst (all wrong bits within 24 consecutive
    positions), an odd number of wrong bits, two wrong bits *)
Definition burst24 (e : bits) : Prop :=
  (0 < weight e)%nat /\ exists p, forall j, nth j e false = true -> (p <= j < p + 24)%nat.
Definition must_detect (e : bits) : Prop :=
  burst24 e \/ Nat.odd (weight e) = true \/ weight e = 2%nat.

(* ---------- message numbers ---------- *)
From Verif Require Import SatModel RtcmFrame.

(** multiple signal messages: number = 1071 + 10 c + (kind - 1) with kind 1..7, c counting
    GPS, GLONASS, Galileo, SBAS, QZSS, BeiDou *)
Definition msm_sys (c : Z) : gnss :=
  match c with 0 => GPS | 1 => GLO | 2 => GAL | 3 => SBS | 4 => QZS | 5 => BDS | _ => NONE end.
Definition msm_number (mt : Z) (s : gnss) (n : Z) : Prop :=
  exists c, 0 <= c <= 5 /\ msm_sys c = s /\ 1 <= n <= 7 /\ mt = 1071 + 10 * c + (n - 1).

(** state space messages: six consecutive numbers per constellation, in the order orbit, clock,
    code bias, orbit and clock, accuracy, high-rate clock; GPS from 1057, GLONASS from 1063, Galileo
    from 1240, QZSS from 1246, SBAS from 1252, BeiDou from 1258; phase biases 1265..1270 *)
Definition ssr_base (s : gnss) : option Z :=
  match s with
  | GPS => Some 1057 | GLO => Some 1063 | GAL => Some 1240
  | QZS => Some 1246 | SBS => Some 1252 | BDS => Some 1258
  | _ => None
  end.
Definition ssr_order (c : sct) : option Z :=
  match c with
  | SORB => Some 0 | SCLK => Some 1 | SCB => Some 2 | SOC => Some 3 | SURA => Some 4 | SHCLK => Some 5
  | _ => None
  end.
Definition ssr_number (mt : Z) (s : gnss) (c : sct) : Prop :=
  exists b o, ssr_base s = Some b /\ ssr_order c = Some o /\ mt = b + o.
