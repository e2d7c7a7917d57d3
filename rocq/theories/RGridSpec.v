(** What is given to the grid encoder, stated without the codec. *)
From Verif Require Import RtcmSsrSpec RAtmModel RAtmSpec RGridModel Base.
Notation length := List.length.
Open Scope Z_scope.

(** point [k] of the message lies exactly at the position given (ticks of 1/U of the unit of the message) *)
Definition at_point (U ty : Z) (g : grid) (k : nat) (p : Z * Z * Z) : Prop :=
  let '(lat, lon, alt) := d_ref g in let '(a, b, c) := p in
  exists x y, pos_of lat_of lat g k = Some x /\ a = U * x /\ pos_of lon_of lon g k = Some y /\ b = U * y /\
    (ty = 0 -> exists z, pos_of alt_of (Some (alt - 80)) g k = Some z /\ c = U * z).
(** the attributes and the points of the network, in order *)
Definition grid_given (U ty : Z) (e : egrid) (g : grid) : Prop :=
  eg_mt e = 61 /\ eg_pid e = d_pid g /\ eg_mi e = d_mi g /\ eg_gid e = d_gid g /\ eg_type e = ty /\ eg_ofst e = d_ofst g /\
  length (filter (fun p => fst p =? d_gid g) (eg_grid e)) = S (length (d_steps g)) /\
  (forall k p, nth_error (filter (fun p => fst p =? d_gid g) (eg_grid e)) k = Some p -> at_point U ty g k (snd p)).

(** points as near to each other as the fields allow, wherever they lie *)
Fixpoint chain_ok (U : Z) (p : Z * Z * Z) (l : list (Z * Z * Z)) : Prop :=
  match l with
  | [] => True
  | p' :: l => let '(a, b, c) := p in let '(a', b', c') := p' in
      Z.abs (a' - a) < 4096 * U /\ Z.abs (b' - b) < 8192 * U /\ Z.abs (c' - c) < 256 * U /\ chain_ok U p' l
  end.
Definition net_of (e : egrid) : list (Z * Z * Z) := map snd (filter (fun p => fst p =? eg_gid e) (eg_grid e)).
Definition any_grid (U : Z) (e : egrid) : Prop :=
  eg_mt e = 61 /\ eg_type e = 0 /\ 0 <= eg_pid e < 65536 /\ 0 <= eg_gid e < 1024 /\ 0 <= eg_ofst e < 4096 /\ (length (net_of e) <= 256)%nat /\
  match net_of e with
  | [] => False
  | (a, b, c) :: l => Z.abs a < 131072 * U /\ Z.abs b < 262144 * U /\ - 80 * U <= c < 944 * U /\ chain_ok U (a, b, c) l
  end.
