(** Satellite antenna messages as bit strings, and what they do to the decoder, stated without the codec. *)
From Verif Require Import SatModel SatSpec CssrState RtcmFrame RtcmFrameSpec RtcmSsr RtcmSsrSpec MsmSpec RAntModel Base.
From Coq Require Import Sorted.
Notation length := List.length.
Open Scope Z_scope.

(** a frequency: nadir correction, corrections by nadir angle *)
Record afreq := AF { f_no : Z; f_nad : option (option Z); f_pcv : list (option Z) }.
Record asat := AS { a_prn : Z; a_set : bool; a_freqs : list afreq }.
(** provider, issue, two indicators, largest angle and range extension if there are corrections by angle, set indicator, satellites *)
Record antm := AM { n_pid : Z; n_iod : Z; n_pci : bool; n_gdi : bool; n_angle : option (Z * Z); n_set : bool; n_sats : list asat }.
Definition ant_sys (mt : Z) : option gnss := match mt with 80 => Some GPS | 81 => Some GLO | 82 => Some GAL | 83 => Some BDS | 84 => Some QZS | _ => None end.
Definition present {A} (x : option A) : bool := match x with Some _ => true | None => false end.
Definition afreq_bits (ang : option (Z * Z)) (x : afreq) : bits :=
  [present (f_nad x)] ++ (match f_nad x with Some y => field 12 y | None => [] end) ++
  match ang with Some (_, nde) => flat_map (field (3 + Z.to_nat nde)) (f_pcv x) | None => [] end.
Definition asat_bits (ang : option (Z * Z)) (x : asat) : bits :=
  [a_set x] ++ mask_bits 0 6 (map f_no (a_freqs x)) ++ flat_map (afreq_bits ang) (a_freqs x).
Definition ant_message (mt : Z) (s : gnss) (n : antm) : bits :=
  bitsof 12 mt ++ bitsof 16 (n_pid n) ++ bitsof 6 (n_iod n) ++ [n_pci n] ++ [n_gdi n] ++ [present (n_angle n)] ++
  (match n_angle n with Some (emax, nde) => bitsof 5 emax ++ bitsof 4 nde | None => [] end) ++
  [n_set n] ++ mask_bits 1 64 (map (fun x => slot s (a_prn x)) (n_sats n)) ++ flat_map (asat_bits (n_angle n)) (n_sats n).
Definition afreq_ok (ang : option (Z * Z)) (x : afreq) : Prop :=
  (match f_nad x with Some y => fits 12 y | None => True end) /\
  match ang with Some (_, nde) => length (f_pcv x) = (Z.to_nat nde + 1)%nat /\ Forall (fits (3 + Z.to_nat nde)) (f_pcv x) | None => True end.
Definition asat_ok (s : gnss) (ang : option (Z * Z)) (x : asat) : Prop :=
  owns s (a_prn x) /\ slot s (a_prn x) <= 64 /\ StronglySorted Z.lt (map f_no (a_freqs x)) /\ Forall (fun y => 0 <= f_no y < 6) (a_freqs x) /\
  Forall (afreq_ok ang) (a_freqs x).
Definition ant_ok (s : gnss) (n : antm) : Prop :=
  0 <= n_pid n < 65536 /\ 0 <= n_iod n < 64 /\ (match n_angle n with Some (emax, nde) => 0 <= emax < 32 /\ 0 <= nde < 16 | None => True end) /\
  StronglySorted Z.lt (map (fun x => slot s (a_prn x)) (n_sats n)) /\ Forall (asat_ok s (n_angle n)) (n_sats n).
(** the corrections held for a frequency of a satellite *)
Definition held (d : dict Z (dict Z acorr)) (sat f : Z) : option acorr := match zget sat d with Some e => zget f e | None => None end.
Definition ant_effect (s : gnss) (n : antm) (d d' : dict Z (dict Z acorr)) : Prop :=
  (forall x y, In x (n_sats n) -> In y (a_freqs x) ->
     held d' (prn2sat s (a_prn x)) (f_no y) = Some (f_nad y, match n_angle n with Some _ => Some (f_pcv y) | None => None end)) /\
  (forall sat f, (forall x y, In x (n_sats n) -> In y (a_freqs x) -> ~ (sat = prn2sat s (a_prn x) /\ f = f_no y)) -> held d' sat f = held d sat f).
