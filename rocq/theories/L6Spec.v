(** What a received L6 message says, independently of the receiver. *)
From Verif Require Import L6Model.
Open Scope Z_scope.

Definition u_at (m : bits) (i n : nat) : Z := bval (slice m i n).
Definition h_ok (p : bits * nat) : bool :=
  let '(m, o) := p in (o * 8 + 1744 <=? length m)%nat && (u_at m (o * 8) 32 =? 0x1acffc1d).
Definition h_start (p : bits * nat) : bool := let '(m, o) := p in u_at m (o * 8 + 47) 1 =? 1.
Definition h_vendor (p : bits * nat) : Z := let '(m, o) := p in u_at m (o * 8 + 40) 3.
Definition h_pt (p : bits * nat) : Z := let '(m, o) := p in u_at m (o * 8 + 45) 2.
(** transmitting facility: for CLAS (vendor 5) the two facilities of a site are numbered crosswise
    by pattern (IS-QZSS-L6 Table 4.1.2-2) *)
Definition h_fac (p : bits * nat) : Z :=
  let '(m, o) := p in
  let f := u_at m (o * 8 + 43) 2 in
  if h_vendor p =? 5 then
    if h_pt p =? 0 then (if f =? 1 then 2 else if f =? 2 then 1 else f)
    else (if f =? 0 then 2 else if f =? 1 then 0 else if f =? 2 then 3 else 1)
  else f.
(** the data part: 1695 bits after the 49-bit header *)
Definition h_data (p : bits * nat) : bits := let '(m, o) := p in slice m (o * 8 + 49) 1695.
(** complete messages; CLAS uses transmission patterns 0 and 1 only *)
Definition h_wf (p : bits * nat) : Prop :=
  let '(m, o) := p in (o * 8 + 1744 <= length m)%nat /\ (h_vendor p = 5 -> h_pt p < 2).
(** the last valid message of a history *)
Definition last_ok (h : list (bits * nat)) : option (bits * nat) := last (map Some (filter h_ok h)) None.
