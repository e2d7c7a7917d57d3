(** What the PPP filter's state vector and ambiguity bookkeeping should do, written without the
    index functions of the model: 233 is the number of satellites. *)
From Verif Require Import SatModel PppModel.
Open Scope Z_scope.

(** quantities estimated by the filter *)
Inductive state := Pos (k : Z) | Vel (k : Z) | Trop | Iono (s : Z) | Amb (s f : Z).

(** which quantities a configuration estimates: pmode 0 is static, larger values kinematic *)
Definition present (o : popt) (st : state) : Prop :=
  match st with
  | Pos k => 0 <= k <= 2
  | Vel k => 0 <= k <= 2 /\ pmode o <> 0
  | Trop => trop_opt o = 1
  | Iono s => 1 <= s <= 233 /\ iono_opt o = 1
  | Amb s f => 1 <= s <= 233 /\ 0 <= f < Z.of_nat (nf o)
  end.
(** the index expression by which the filter addresses a quantity *)
Definition address (o : popt) (st : state) : Z :=
  match st with
  | Pos k => k | Vel k => 3 + k
  | Trop => IT (na o) | Iono s => II s (na o) | Amb s f => IB s f (na o)
  end.
Definition slot (o : popt) (st : state) : option Z := np_ix (nx o) (address o st).

(** a satellite whose ambiguity on frequency [f] can be fixed *)
Definition eligible {F} (is0 : F -> bool) (x : Z -> F) (na : Z) (vsat : Z -> Z -> Z) (el : Z -> Z) (mask : Z)
  (sats : list Z) (m : gnss) (f s : Z) : Prop :=
  1 <= s <= 233 /\ fst (sat2prn s) = m /\ In s sats /\ is0 (x (na + 233 * f + s - 1)) = false /\
  vsat s f <> 0 /\ mask <= el s.
