(** Properties C10-C13 and C52: RINEX signal codes and signal-index tables. *)
From Verif Require Import SigModel SigSpec SigProofs.
Open Scope Z_scope.

(** C10 *)
Theorem C10_code_roundtrip : forall sys s r, chars rnx_char s -> mk2 sys s = Some r ->
  sig_str r = pad3 (strip s) /\ mk2 sys (sig_str r) = Some r.
Proof. exact sig_roundtrip. Qed.
Print Assumptions C10_code_roundtrip.
Theorem C10_four_char_roundtrip : forall x r, chars rnx_char x -> mk1 x = Some r -> rsys r <> NONE ->
  sig_repr r = (match x with String c s => String c (pad3 (strip s)) | EmptyString => EmptyString end) /\
  mk1 (sig_repr r) = Some r.
Proof. exact sig_repr_roundtrip. Qed.
Print Assumptions C10_four_char_roundtrip.
Example C10_case : chars rnx_char "EL5Q" /\ mk1 "EL5Q" = Some (RS GAL TL 517) /\ sig_repr (RS GAL TL 517) = "EL5Q"%string
  /\ mk2 GPS "C1 " = Some (RS GPS TC 100) /\ sig_str (RS GPS TC 100) = "C1 "%string.
Proof. repeat split; try (vm_compute; reflexivity); unfold rnx_char; vm_compute; right; repeat (try (left; split; congruence); right); split; congruence. Qed.
(** outside letters and digits the printed code differs from the one parsed *)
Theorem C10_other_characters_refuted : exists s r, mk2 GPS s = Some r /\ sig_str r <> s /\ strip s = s.
Proof. exists "C2@"%string, (RS GPS TC 200). repeat split; vm_compute; try reflexivity; discriminate. Qed.
Print Assumptions C10_other_characters_refuted.

(** C11: false of the code *)
Theorem C11_invalid_codes_refuted :
  (exists r, mk2 GPS "C2I" = Some r) /\ rinex_code GPS 2 "I" = false /\
  (exists r, mk2 GPS "L5A" = Some r) /\ rinex_code GPS 5 "A" = false /\
  (exists r, mk2 GPS "C7I" = Some r) /\ rinex_attrs GPS 7 = ""%string /\
  (exists r, mk2 GAL "C2C" = Some r) /\ rinex_attrs GAL 2 = ""%string /\
  (exists r, mk2 GLO "C1X" = Some r) /\ rinex_code GLO 1 "X" = false.
Proof. repeat split; try (vm_compute; reflexivity); eexists; vm_compute; reflexivity. Qed.
Print Assumptions C11_invalid_codes_refuted.
(** where the check does work: every band the constellation has, except GPS bands 2 and 5 and GLONASS 1 and 2 *)
Theorem C11_valid_codes_partial : forall sys t b c, In t typ_chars -> 0 <= b <= 9 ->
  (negb (String.eqb (rinex_attrs sys b) "") && negb (gnss_eqb sys GPS && negb (b =? 1))
     && negb (gnss_eqb sys GLO && (b <=? 2)) = true ->
   is_space c = false -> accepted sys t b c = rinex_code sys b c) /\
  (rinex_code sys b c = true -> accepted sys t b c = true).
Proof. exact attr_ok. Qed.
Print Assumptions C11_valid_codes_partial.
Example C11_case : accepted GAL "L" 7 "Q" = true /\ accepted GAL "L" 7 "C" = false /\ accepted BDS "C" 1 "I" = false.
Proof. repeat split; vm_compute; reflexivity. Qed.

(** C12: false of the code for GLONASS G2a (band 6), wrong for NavIC L5, undefined for accepted GPS codes *)
Theorem C12_frequency_refuted :
  (exists r, mk2 GLO "L6A" = Some r /\ frequency r (Some 3) = None /\ rinex_freq GLO 6 3 = Some 1248060000) /\
  (exists r, mk2 IRN "L5A" = Some r /\ frequency r None = Some 1191795000 /\ rinex_freq IRN 5 0 = Some 1176450000) /\
  (exists r, mk2 GPS "L7I" = Some r /\ frequency r None = None).
Proof. repeat split; eexists; repeat split; vm_compute; reflexivity. Qed.
Print Assumptions C12_frequency_refuted.
Theorem C12_frequency_partial : forall sys b t n k, 0 <= b <= 9 -> rinex_attrs sys b <> ""%string ->
  ((gnss_eqb sys GLO && (b =? 6)) || (gnss_eqb sys IRN && (b =? 5)) = false) ->
  Z.quot n 100 = b -> -7 <= k <= 13 ->
  exists f, frequency (RS sys t n) (Some k) = Some f /\ rinex_freq sys b k = Some f /\ 0 < f.
Proof. exact freq_ok. Qed.
Print Assumptions C12_frequency_partial.
(** the band of an accepted code is its digit, so the previous theorem applies to it *)
Theorem C12_accepted_band : forall sys t b c r, rnx_char c -> 0 <= b <= 9 ->
  mk2 sys (code3 t b c) = Some r -> is_space t = false -> rsys r = sys /\ Z.quot (rnum r) 100 = b.
Proof. exact accepted_num. Qed.
Print Assumptions C12_accepted_band.
Example C12_case : frequency (RS GLO TL 203) (Some (-7)) = Some 1242937500 /\ Z.quot 203 100 = 2.
Proof. split; reflexivity. Qed.

(** C13: false for QZSS, where two indices share L1C *)
Theorem C13_signal_index_refuted :
  cssr_ssig2rsig QZS TC 0 = cssr_ssig2rsig QZS TC 2 /\ cssr_ssig2rsig QZS TC 0 = Some (RS QZS TC 103) /\
  rtcm_ssig2rsig QZS TC 0 = rtcm_ssig2rsig QZS TC 2 /\ rtcm_ssig2rsig QZS TC 0 = Some (RS QZS TC 103) /\
  rsig2code (RS QZS TC 103) = Some 2.
Proof. repeat split; reflexivity. Qed.
Print Assumptions C13_signal_index_refuted.
Theorem C13_signal_index_partial : forall sys t i j r,
  (sys <> QZS -> cssr_ssig2rsig sys t i = Some r -> cssr_ssig2rsig sys t j = Some r -> i = j) /\
  (bds_ssig2rsig sys t i = Some r -> bds_ssig2rsig sys t j = Some r -> i = j) /\
  (msm2rsig sys t i = Some r -> msm2rsig sys t j = Some r -> i = j) /\
  (sys <> QZS -> rsys r <> NONE -> rtcm_ssig2rsig sys t i = Some r -> rtcm_ssig2rsig sys t j = Some r -> i = j) /\
  (sys <> QZS -> rsys r <> NONE -> rtcm_ssig2rsig sys t i = Some r -> rsig2code r = Some i).
Proof. exact (fun sys t i j r => conj (cssr_inj sys t i j r) (conj (bds_inj sys t i j r) (conj (msm_inj sys t i j r)
   (conj (rtcm_inj sys t i j r) (code_ok sys t i r))))). Qed.
Print Assumptions C13_signal_index_partial.
Example C13_case : cssr_ssig2rsig GAL TL 4 = Some (RS GAL TL 517) /\ rtcm_ssig2rsig GPS TC 11 = Some (RS GPS TC 223)
  /\ rsig2code (RS GPS TC 223) = Some 11.
Proof. repeat split; reflexivity. Qed.

(** C52: every signal of every correction-service table prints to a code that parses back,
    except the three listed ones, which rSigRnx rejects *)
Theorem C52_table_signals_refuted :
  illegal cssr_sig_tbl = [(QZS, 10, 604); (QZS, 11, 616)] /\ illegal bds_sig_tbl = [] /\
  illegal rtcm_sig_tbl = [(BDS, 15, 101)] /\ illegal msm_sig_tbl = [] /\
  mk2 QZS (sig_str (RS QZS TC 604)) = None /\ mk2 QZS (sig_str (RS QZS TC 616)) = None /\
  mk2 BDS (sig_str (RS BDS TC 101)) = None.
Proof. repeat split; vm_compute; reflexivity. Qed.
Print Assumptions C52_table_signals_refuted.
Theorem C52_table_signals_partial : forall t sys l i u, t sys = Some l -> In (i, u) l -> ~ In (sys, i, u) (illegal t) ->
  mk2 sys (sig_str (RS sys TC u)) = Some (RS sys TC u).
Proof. exact legal_ok. Qed.
Print Assumptions C52_table_signals_partial.
