(** Witnesses for OSNMA: a toy cryptography and histories of pages built with it. *)
From Verif Require Import OsnmaModel OsnmaSpec.
Open Scope Z_scope.

(** mixing of a message into [n] bits: a shift register; the last bits depend on all of the message *)
Fixpoint shift_in (r : bits) (m : bits) : bits :=
  match m with
  | [] => r
  | b :: m => match r with
              | a :: c :: t => shift_in (xorb c (andb a b) :: t ++ [xorb a b]) m
              | _ => r
              end
  end.
Definition mix (n : nat) (m : bits) : bits := rev (shift_in (repeat true n) (m ++ firstn n (m ++ repeat true n) ++ rev m)).
Definition toy0 : crypto := CR bits (fun hf m => mix 256 m) (fun mf k m => Some (mix 40 (k ++ m))) (fun hf pk ds m => Some false) (fun t k => Some k).
(** the pages of a subframe: HKROOT section of 120 bits and MACK section of 480 bits from satellite [p] at [t] s of week *)
Definition pages (wn t : Z) (p : nat) (hk mack : bits) : list event :=
  map (fun k => ENma (slice hk (8 * k) 8 ++ slice mack (32 * k) 32) (wn + 1024) (t + 2 * Z.of_nat k) p (Z.of_nat p)) (seq 0 15).
Definition hdr0 : bits := bitsof 2 1 ++ bitsof 2 0 ++ bitsof 3 1 ++ [false].
Definition hkroot (did bid : Z) (block : bits) : bits := hdr0 ++ bitsof 4 did ++ bitsof 4 bid ++ block.
Definition kroot_dsm (kroot ds pdk : bits) : bits :=
  bitsof 4 1 ++ bitsof 4 1 ++ bitsof 4 0 ++ bitsof 2 0 ++ bitsof 2 0 ++ bitsof 4 0 ++ bitsof 4 9 ++ bitsof 8 27 ++ bitsof 4 0 ++ bitsof 12 1200 ++
  bitsof 8 1 ++ bitsof 48 123456789 ++ kroot ++ ds ++ pdk.
Definition alp0 : bits := bitsof 48 123456789.
Definition dsm_with (kroot ds : bits) : bits :=
  kroot_dsm kroot ds (firstn 16 (mix 256 (signed_part hdr0 (kroot_dsm kroot ds []) 96 ++ ds))).
(** seven satellites p0, p0+1, ... send the seven blocks *)
Definition send_dsm (wn t : Z) (p0 : nat) (did : Z) (d : bits) : list event :=
  concat (map (fun b => pages wn t (p0 + b) (hkroot did (Z.of_nat b) (slice d (104 * b) 104)) (zeros 480)) (seq 0 7)).

(** a chain: the key of the subframe at [t], and those before it *)
Definition key_at (top : bits) (ttop t : Z) : bits := tesla toy0 0 alp0 96 (Z.to_nat ((ttop - t) / 30)) top ttop.

(** navigation words of a satellite: types 1 to 5, issue of data [iod] *)
Definition nav_word (j iod : Z) : bits := bitsof 6 j ++ bitsof 10 iod ++ bitsof 112 (j * 123456789123 + iod).
Definition nav_data0 (iod : Z) : bits := nav_data (fun j => nav_word j iod).
Definition send_nav (prn t iod : Z) : list event := map (fun j => ENav (nav_word j iod) prn (t + 1 + 2 * (j - 1))) [1; 2; 3; 4; 5].
(** MACK section of satellite [p] for the subframe at [t]: six tags of 40 bits (the first about itself) under [key], then the key disclosed *)
Definition infos (p : Z) : list bits :=
  map (fun '(d, a) => bitsof 8 d ++ bitsof 4 a ++ bitsof 4 0) [(30, 0); (30, 0); (30, 0); (p, 12); (30, 0)].
Definition infos6 (p : Z) : list bits :=
  map (fun '(d, a) => bitsof 8 d ++ bitsof 4 a ++ bitsof 4 0) [(30, 0); (30, 0); (p, 4); (p, 12); (30, 0)].
Definition mack (p wn t iod : Z) (key disclosed : bits) : bits :=
  let tm := 604800 * wn + t in
  let tag0 := mix 40 (key ++ auth_msg p p tm 1 (firstn 2 hdr0) (nav_data0 iod)) in
  let seqm := firstn 12 (mix 40 (key ++ bitsof 8 p ++ gst tm)) in
  tag0 ++ seqm ++ bitsof 4 0 ++ concat (map (fun i => zeros 40 ++ i) (if t mod 60 =? 0 then infos p else infos6 p)) ++ disclosed ++ zeros 48.

Definition wn0 : Z := 1200.
Definition pk0 : bits := bitsof 16 54321.
(** two chains, of the system and of an attacker; the root key is that of the subframe before 3600 s *)
Definition top0 : bits := bitsof 96 (987654321 * 987654321).
Definition topa : bits := bitsof 96 (123456789 * 987654321).
Definition k0 (t : Z) : bits := key_at top0 (604800 * wn0 + 3720) (604800 * wn0 + t).
Definition ka (t : Z) : bits := key_at topa (604800 * wn0 + 3720) (604800 * wn0 + t).
(** the signature of the system: it accepts one message only, so nothing can be forged *)
Definition signed0 : bits := signed_part hdr0 (kroot_dsm (k0 3570) [] []) 96.
Definition ds0 : bits := mix 512 (pk0 ++ signed0).
Definition toy : crypto := CR bits (c_hash toy0) (c_mac toy0) (fun hf pk ds m => Some (beqb pk pk0 && beqb ds ds0 && beqb m signed0)) (fun t k => Some k).
Definition new0 : ost toy := osnma_new (C := toy) [(1, pk0)] None.

Definition sub (p : nat) (t iod : Z) (key disclosed : bits) : list event :=
  send_nav (Z.of_nat p) t iod ++ pages wn0 t p (hkroot 3 1 (zeros 104)) (mack (Z.of_nat p) wn0 t iod key disclosed).
Definition dsm0 : bits := dsm_with (k0 3570) ds0.
(** root key in the subframe at 3600 s, tags at 3630 s and their key at 3660 s *)
Definition honest : list event :=
  send_nav 5 3600 77 ++ send_dsm wn0 3600 11 1 dsm0 ++ sub 5 3630 77 (k0 3660) (k0 3630) ++ sub 5 3660 77 (k0 3690) (k0 3660).
(** satellite 6 is forged with the chain of the attacker; satellite 5 is genuine *)
Definition forged_key : list event :=
  send_nav 6 3600 99 ++ send_dsm wn0 3600 11 1 dsm0 ++
  sub 6 3630 99 (ka 3660) (ka 3630) ++ sub 5 3630 77 (k0 3660) (k0 3630) ++ sub 6 3660 99 (ka 3690) (ka 3660).
(** an unsigned root key is sent after the signed one *)
Definition dsma : bits := dsm_with (ka 3570) (zeros 512).
Definition later_root : list event :=
  send_nav 6 3600 99 ++ send_dsm wn0 3600 11 1 dsm0 ++ send_dsm wn0 3630 21 2 dsma ++
  sub 6 3630 99 (ka 3660) (ka 3630) ++ sub 6 3660 99 (ka 3690) (ka 3660).
(** a root key of the attacker with the signature of the system is sent, then the genuine block with the root key *)
Definition swapped_root : list event :=
  send_nav 6 3600 99 ++ send_dsm wn0 3600 11 1 (dsm_with (ka 3570) ds0) ++
  pages wn0 3630 18 (hkroot 1 1 (slice dsm0 104 104)) (zeros 480) ++
  sub 6 3630 99 (ka 3660) (ka 3630) ++ sub 6 3660 99 (ka 3690) (ka 3660).
