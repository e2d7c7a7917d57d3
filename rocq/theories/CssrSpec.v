(** Specification of compact-SSR messages (IS-QZSS-L6, HAS SIS ICD): abstract message contents,
    their bit layout as written by a transmitter, and their meaning as changes of the stored
    corrections. No positions and no bit fields occur in the meaning. *)
From Verif Require Import CssrModel.
Open Scope Z_scope.

Definition ub (n : nat) (v : Z) : Prop := 0 <= v < 2 ^ Z.of_nat n.
Definition sb (n : nat) (v : Z) : Prop := - 2 ^ (Z.of_nat n - 1) <= v < 2 ^ (Z.of_nat n - 1).

(** the elements of [l] at the set positions of [m] *)
Definition sel {A} (m : bits) (l : list A) : list A := map snd (filter fst (combine m l)).
Definition cnt (m : bits) : nat := length (filter (fun b => b) m).
Definition zs (o : Z) (n : nat) : list Z := map (fun k => o + Z.of_nat k) (seq 0 n).

(** header: time field (tow for a mask, seconds after [tow0] otherwise), update interval,
    multiple-message flag, SSR issue of data *)
Record mh := MH { m_t : Z; m_udi : Z; m_mi : Z; m_iod : Z }.
Definition wf_mh (c : cfg) (mask : bool) (h : mh) : Prop :=
  (if c_has c then mask = true /\ m_udi h = 0 \/ mask = false /\ ub 4 (m_udi h)
   else ub (if mask then 20 else 12) (m_t h) /\ ub 4 (m_udi h) /\ ub 1 (m_mi h) /\ ub 4 (m_iod h)).
Definition enc_mh (c : cfg) (mask : bool) (h : mh) : bits :=
  if c_has c then (if mask then [] else bitsof 4 (m_udi h))
  else bitsof (if mask then 20 else 12) (m_t h) ++ bitsof 4 (m_udi h) ++ bitsof 1 (m_mi h) ++ bitsof 4 (m_iod h).

(** one constellation of a mask message; [gb_nm] only for HAS *)
Record gblk := GB { gb_id : Z; gb_sv : bits; gb_sig : bits; gb_cell : option (list bits); gb_nm : Z }.
Definition wf_blk (b : gblk) : Prop :=
  ub 4 (gb_id b) /\ length (gb_sv b) = 40%nat /\ length (gb_sig b) = 16%nat /\ ub 3 (gb_nm b) /\
  sigs_of (gnss2sys (gb_id b)) (sel (gb_sig b) (zs 0 16)) <> None /\
  match gb_cell b with
  | None => True
  | Some rows => length rows = cnt (gb_sv b) /\ (cnt (gb_sv b) = 0 \/ 0 < cnt (gb_sig b))%nat /\
                 Forall (fun r => length r = cnt (gb_sig b)) rows
  end.
Definition enc_blk (c : cfg) (b : gblk) : bits :=
  bitsof 4 (gb_id b) ++ gb_sv b ++ gb_sig b ++
  (match gb_cell b with None => [false] | Some rows => [true] ++ concat rows end) ++
  (if c_has c then bitsof 3 (gb_nm b) else []).

(** satellites announced by a block: satellite number, constellation, enabled signals *)
Record item := IT { i_sat : Z; i_sys : gnss; i_sig : list rsig }.
Definition blk_sigs (b : gblk) : list rsig :=
  match sigs_of (gnss2sys (gb_id b)) (sel (gb_sig b) (zs 0 16)) with Some l => l | None => [] end.
Definition blk_items (b : gblk) : list item :=
  let sys := gnss2sys (gb_id b) in
  let prns := sel (gb_sv b) (zs 1 40) in
  let sigs := match gb_cell b with
              | None => map (fun _ => blk_sigs b) prns
              | Some rows => map (fun r => sel r (blk_sigs b)) rows
              end in
  map (fun '(p, sg) => IT (prn2sat sys (adj_prn (gb_id b) p)) sys sg) (combine prns sigs).

(** STEC coefficients: (c00, (c01, c10), c11, (c02, c20)) *)
Record coef := CF { c00 : Z; c01 : Z; c10 : Z; c11 : Z; c02 : Z; c20 : Z }.
Definition wf_coef (k : coef) : Prop :=
  sb 14 (c00 k) /\ sb 12 (c01 k) /\ sb 12 (c10 k) /\ sb 10 (c11 k) /\ sb 8 (c02 k) /\ sb 8 (c20 k).
Definition enc_coef (st : Z) (k : coef) : bits :=
  bitsof 14 (c00 k) ++
  (if st >? 0 then bitsof 12 (c01 k) ++ bitsof 12 (c10 k) else []) ++
  (if st >? 1 then bitsof 10 (c11 k) else []) ++
  (if st >? 2 then bitsof 8 (c02 k) ++ bitsof 8 (c20 k) else []).
Definition val_coef (st : Z) (k : coef) : list (option Z) :=
  [sval (c00 k) 14;
   if st >? 0 then sval (c01 k) 12 else Some 0; if st >? 0 then sval (c10 k) 12 else Some 0;
   if st >? 1 then sval (c11 k) 10 else Some 0;
   if st >? 2 then sval (c02 k) 8 else Some 0; if st >? 2 then sval (c20 k) 8 else Some 0].

Record orbv := OV { o_iode : Z; o_x : Z; o_y : Z; o_z : Z }.
Definition iode_w (sys : gnss) : nat := if gnss_eqb sys GAL then 10%nat else 8%nat.
Definition wf_orb (c : cfg) (sys : gnss) (v : orbv) : Prop :=
  ub (iode_w sys) (o_iode v) /\ sb (b_o0 c) (o_x v) /\ sb (b_o1 c) (o_y v) /\ sb (b_o2 c) (o_z v).
Definition enc_orb (c : cfg) (sys : gnss) (v : orbv) : bits :=
  bitsof (iode_w sys) (o_iode v) ++ bitsof (b_o0 c) (o_x v) ++ bitsof (b_o1 c) (o_y v) ++ bitsof (b_o2 c) (o_z v).

Record tropfn := TF { t_type : Z; t00 : Z; t01 : Z; t10 : Z; t11 : Z }.
Definition wf_tropfn (t : tropfn) : Prop :=
  ub 2 (t_type t) /\ sb 9 (t00 t) /\ sb 7 (t01 t) /\ sb 7 (t10 t) /\ sb 7 (t11 t).
Definition enc_tropfn (t : tropfn) : bits :=
  bitsof 2 (t_type t) ++ bitsof 9 (t00 t) ++
  (if t_type t >? 0 then bitsof 7 (t01 t) ++ bitsof 7 (t10 t) else []) ++
  (if t_type t >? 1 then bitsof 7 (t11 t) else []).
Definition val_tropfn (t : tropfn) : option Z * option Z * option Z * option Z :=
  (sval (t00 t) 9, if t_type t >? 0 then sval (t01 t) 7 else Some 0,
   if t_type t >? 0 then sval (t10 t) 7 else Some 0, if t_type t >? 1 then sval (t11 t) 7 else Some 0).

(** residual part of the troposphere: size flag, offset, one value per grid point *)
Record tropres := TR { r_szf : Z; r_ofst : Z; r_v : list Z }.
Definition res_w (r : tropres) : nat := if r_szf r =? 0 then 6%nat else 8%nat.

(** per-satellite part of the atmospheric message *)
Record stecv := SV { sv_q : Z * Z; sv_type : Z; sv_c : coef; sv_szi : Z; sv_res : list Z }.

Inductive cmsg :=
| CMask (h : mh) (bl : list gblk)
| COrb (h : mh) (v : list orbv)
| CClk (h : mh) (dcm : list Z) (v : list Z)
| CCb (h : mh) (v : list (list Z))
| CPb (h : mh) (v : list (list (Z * Z)))
| CBias (h : mh) (cb pb : bool) (inet : Z) (m : bits) (v : list (list (Z * (Z * Z))))
| CUra (h : mh) (v : list (Z * Z))
| CStec (h : mh) (st inet : Z) (m : bits) (v : list ((Z * Z) * coef))
| CGrid (h : mh) (tt_ rg inet : Z) (m : bits) (q : Z * Z) (v : list ((Z * Z) * list Z))
| CSi (mi n : Z) (w : list Z)
| CComb (h : mh) (orb clk : bool) (net : option (Z * bits)) (v : list (orbv * Z))
| CAtmos (h : mh) (inet : Z) (ng : nat) (q : Z * Z) (fn : option tropfn) (rs : option tropres)
         (stec : Z) (m : bits) (v : list stecv).

(** widths of the fields radial, along, cross, clock, code bias, phase bias in the two services,
    written out again here; the source of the numbers is the code, the interface documents are not
    available *)
Definition icd_widths (has : bool) : list nat :=
  if has then [13; 12; 12; 13; 11; 11]%nat else [15; 13; 13; 15; 11; 15]%nat.
Definition bit (b : bool) : bits := [b].
Definition encs {X} (f : X -> bits) (l : list X) : bits := concat (map f l).
(** items together with their transmitted values *)
Definition enc2 {X Y} (f : X -> Y -> bits) (xs : list X) (ys : list Y) : bits :=
  concat (map (fun '(x, y) => f x y) (combine xs ys)).
Definition trop_flag (fn : option tropfn) (rs : option tropres) : Z :=
  (match fn with Some _ => 2 | None => 0 end) + (match rs with Some _ => 1 | None => 0 end).
(** bits of one slant residual by size index, written out again here so that an error in the
    decoder's table shows *)
Definition res_sz (k : Z) : nat := nth (Z.to_nat k) [4; 4; 5; 7]%nat 0%nat.
Definition enc_stecv (stec : Z) (v : stecv) : bits :=
  (if stec >? 0 then bitsof 3 (fst (sv_q v)) ++ bitsof 3 (snd (sv_q v)) else []) ++
  (if Z.testbit stec 1 then bitsof 2 (sv_type v) ++ enc_coef (sv_type v) (sv_c v) else []) ++
  (if Z.testbit stec 0 then bitsof 2 (sv_szi v) ++ encs (bitsof (res_sz (sv_szi v))) (sv_res v) else []).

(** body of a message, i.e. what follows the 12+4 bit type; [its] = satellites of the current mask *)
Definition enc_body (c : cfg) (its : list item) (m : cmsg) : bits :=
  match m with
  | CMask h bl => enc_mh c true h ++ bitsof 4 (Z.of_nat (length bl)) ++ encs (enc_blk c) bl ++
                  (if c_has c then repeat false 6 else [])
  | COrb h v => enc_mh c false h ++ enc2 (fun it => enc_orb c (i_sys it)) its v
  | CClk h dcm v => enc_mh c false h ++ (if c_has c then encs (bitsof 2) dcm else []) ++
                    enc2 (fun _ => bitsof (b_clk c)) its v
  | CCb h v => enc_mh c false h ++ enc2 (fun _ => encs (bitsof (b_cb c))) its v
  | CPb h v => enc_mh c false h ++
               enc2 (fun _ => encs (fun p => bitsof (b_pb c) (fst p) ++ bitsof 2 (snd p))) its v
  | CBias h cb pb inet m v =>
      enc_mh c false h ++ bit cb ++ bit pb ++ bit true ++ bitsof 5 inet ++ m ++
      enc2 (fun _ => encs (fun p => (if cb then bitsof (b_cb c) (fst p) else []) ++
                                    (if pb then bitsof (b_pb c) (fst (snd p)) ++ bitsof 2 (snd (snd p)) else [])))
           (sel m its) v
  | CUra h v => enc_mh c false h ++ enc2 (fun _ p => bitsof 3 (fst p) ++ bitsof 3 (snd p)) its v
  | CStec h st inet m v =>
      enc_mh c false h ++ bitsof 2 st ++ bitsof 5 inet ++ m ++
      encs (fun p => bitsof 3 (fst (fst p)) ++ bitsof 3 (snd (fst p)) ++ enc_coef st (snd p)) v
  | CGrid h tt_ rg inet m q v =>
      enc_mh c false h ++ bitsof 2 tt_ ++ bitsof 1 rg ++ bitsof 5 inet ++ m ++
      bitsof 3 (fst q) ++ bitsof 3 (snd q) ++ bitsof 6 (Z.of_nat (length v)) ++
      encs (fun p => (if tt_ >? 0 then bitsof 9 (fst (fst p)) ++ bitsof 8 (snd (fst p)) else []) ++
                     encs (bitsof (if rg =? 0 then 7 else 16)) (snd p)) v
  | CSi mi n w => bitsof 1 mi ++ bitsof 3 n ++ bitsof 2 (Z.of_nat (length w) - 1) ++ encs (bitsof 40) w
  | CComb h orb clk net v =>
      enc_mh c false h ++ bit orb ++ bit clk ++
      bit (match net with None => false | Some _ => true end) ++
      (match net with None => [] | Some (inet, m) => bitsof 5 inet ++ m end) ++
      enc2 (fun it p => (if orb then enc_orb c (i_sys it) (fst p) else []) ++
                        (if clk then bitsof (b_clk c) (snd p) else []))
           (match net with None => its | Some (_, m) => sel m its end) v
  | CAtmos h inet ng q fn rs stec m v =>
      enc_mh c false h ++ bitsof 2 (trop_flag fn rs) ++ bitsof 2 stec ++ bitsof 5 inet ++
      bitsof 6 (Z.of_nat ng) ++
      (if trop_flag fn rs >? 0 then bitsof 3 (fst q) ++ bitsof 3 (snd q) else []) ++
      (match fn with Some t => enc_tropfn t | None => [] end) ++
      (match rs with
       | Some r => bitsof 1 (r_szf r) ++ bitsof 4 (r_ofst r) ++ encs (bitsof (res_w r)) (r_v r)
       | None => [] end) ++
      m ++ encs (enc_stecv stec) v
  end.
Definition sub_of (m : cmsg) : Z :=
  match m with
  | CMask _ _ => 1 | COrb _ _ => 2 | CClk _ _ _ => 3 | CCb _ _ => 4 | CPb _ _ => 5
  | CBias _ _ _ _ _ _ => 6 | CUra _ _ => 7 | CStec _ _ _ _ _ => 8 | CGrid _ _ _ _ _ _ _ => 9
  | CSi _ _ _ => 10 | CComb _ _ _ _ _ => 11 | CAtmos _ _ _ _ _ _ _ _ _ => 12
  end.
Definition enc_msg (c : cfg) (its : list item) (m : cmsg) : bits :=
  bitsof 12 4073 ++ bitsof 4 (sub_of m) ++ enc_body c its m.

(** satellites after a message *)
Definition items_after (its : list item) (m : cmsg) : list item :=
  match m with CMask _ bl => concat (map blk_items bl) | _ => its end.

Definition wf_net (its : list item) (inet : Z) (m : bits) : Prop :=
  ub 5 inet /\ length m = length its /\ (0 < length its)%nat.
Definition wf_q (q : Z * Z) : Prop := ub 3 (fst q) /\ ub 3 (snd q).

(** well-formed contents for a receiver whose current mask has satellites [its] and issue [iod] *)
Definition wf_msg (c : cfg) (its : list item) (s : cst) (m : cmsg) : Prop :=
  match m with
  | CMask h bl => wf_mh c true h /\ (length bl < 16)%nat /\ Forall wf_blk bl
  | COrb h v => wf_mh c false h /\ Forall2 (fun it => wf_orb c (i_sys it)) its v
  | CClk h dcm v => wf_mh c false h /\ Forall2 (fun _ => sb (b_clk c)) its v /\
      Z.testbit (l_cstat (lcat s 0)) 0 = true /\
      (if c_has c then Forall (ub 2) dcm /\ length dcm = s_ngnss s /\ length (s_gnss_idx s) = s_ngnss s /\
         Forall (fun it => In (fst (sat2prn (i_sat it))) (s_gnss_idx s)) its else dcm = [])
  | CCb h v => wf_mh c false h /\
      Forall2 (fun it l => length l = length (i_sig it) /\ Forall (sb (b_cb c)) l) its v
  | CPb h v => wf_mh c false h /\
      Forall2 (fun it l => length l = length (i_sig it) /\ Forall (fun p => sb (b_pb c) (fst p) /\ ub 2 (snd p)) l) its v
  | CBias h cb pb inet m v => wf_mh c false h /\ wf_net its inet m /\
      Forall2 (fun it l => length l = length (i_sig it) /\
                 Forall (fun p => sb (b_cb c) (fst p) /\ sb (b_pb c) (fst (snd p)) /\ ub 2 (snd (snd p))) l)
              (sel m its) v
  | CUra h v => wf_mh c false h /\ m_iod h = s_iodssr s /\ Forall2 (fun _ => wf_q) its v
  | CStec h st inet m v => wf_mh c false h /\ m_iod h = s_iodssr s /\ ub 2 st /\ wf_net its inet m /\
      length v = cnt m /\ Forall (fun p => wf_q (fst p) /\ wf_coef (snd p)) v
  | CGrid h tt_ rg inet m q v => wf_mh c false h /\ m_iod h = s_iodssr s /\ ub 2 tt_ /\ ub 1 rg /\
      wf_net its inet m /\ wf_q q /\ (length v < 64)%nat /\ s_grid s <> None /\
      Forall (fun p => sb 9 (fst (fst p)) /\ sb 8 (snd (fst p)) /\ length (snd p) = cnt m /\
                       Forall (sb (if rg =? 0 then 7 else 16)) (snd p)) v
  | CSi mi n w => ub 1 mi /\ ub 3 n /\ (1 <= length w <= 4)%nat /\ Forall (ub 40) w /\
      length (s_sinfo s) = 1280%nat
  | CComb h orb clk net v => wf_mh c false h /\ m_iod h = s_iodssr s /\
      (match net with None => True | Some (inet, m) => wf_net its inet m end) /\
      Forall2 (fun it p => wf_orb c (i_sys it) (fst p) /\ sb (b_clk c) (snd p))
              (match net with None => its | Some (_, m) => sel m its end) v /\
      c_has c = false
  | CAtmos h inet ng q fn rs stec m v => wf_mh c false h /\ m_iod h = s_iodssr s /\ wf_net its inet m /\
      (ng < 64)%nat /\ wf_q q /\
      (match fn with Some t => wf_tropfn t | None => True end) /\
      (match rs with
       | Some r => ub 1 (r_szf r) /\ ub 4 (r_ofst r) /\ length (r_v r) = ng /\ Forall (sb (res_w r)) (r_v r)
       | None => True end) /\
      (trop_flag fn rs > 0 -> exists g, s_grid s = Some g /\ In inet g) /\
      ub 2 stec /\ length v = cnt m /\
      Forall (fun x => wf_q (sv_q x) /\ ub 2 (sv_type x) /\ wf_coef (sv_c x) /\ ub 2 (sv_szi x) /\
                       length (sv_res x) = ng /\ Forall (sb (res_sz (sv_szi x))) (sv_res x)) v
  end.

(* ---------- meaning ---------- *)
Definition hd_eff (c : cfg) (mask : bool) (h : mh) (s : cst) : cst :=
  let s := if c_has c then (if s_tow0 s >=? 0 then set_s_tow (s_tow0 s + s_toh s) s else s)
           else if mask then set_s_tow0 (m_t h / 3600 * 3600) (set_s_tow (m_t h) s)
           else if s_tow0 s >=? 0 then set_s_tow (s_tow0 s + m_t h) s else s in
  if (if c_has c then s_tow0 s >=? 0 else true) && (s_week s >=? 0)
  then set_s_time (gpst2time 1 (s_week s) (s_tow s)) s else s.
(** issue of data the header stands for (HAS carries it once per message) *)
Definition hd_iod (c : cfg) (h : mh) (s : cst) : Z := if c_has c then s_iodssr s else m_iod h.

Definition eff {X} (f : X -> cst -> cst) (l : list X) (s : cst) : cst := fold_left (fun s x => f x s) l s.
Definition eff2 {X Y} (f : X -> Y -> cst -> cst) (xs : list X) (ys : list Y) (s : cst) : cst :=
  eff (fun '(x, y) => f x y) (combine xs ys) s.
Definition stamp (inet sat ct : Z) (s : cst) : cst := updlc inet (lc_t0 sat ct (s_time s)) s.
Definition udi_eff (ct v : Z) (s : cst) : cst := set_s_udi (upd (Z.to_nat ct) (fun _ => v) (s_udi s)) s.
Definition iodc_eff (ct v : Z) (s : cst) : cst := set_s_iodssr_c (upd (Z.to_nat ct) (fun _ => v) (s_iodssr_c s)) s.
Definition flag_eff (inet ct : Z) (s : cst) : cst :=
  updlc inet (fun l => set_l_cstat (Z.lor (l_cstat l) (2 ^ ct)) l) s.

Definition orb_eff (c : cfg) (inet : Z) (it : item) (v : orbv) (s : cst) : cst :=
  let f x w := neg_if (c_has c) (c_sval c x w) in
  stamp inet (i_sat it) tORBIT
    (updlc inet (fun l =>
       set_l_dorb (ozset (i_sat it) (f (o_x v) (b_o0 c), f (o_y v) (b_o1 c), f (o_z v) (b_o2 c)) (l_dorb l))
       (set_l_iode (ozset (i_sat it) (o_iode v) (l_iode l)) l)) s).
(** clock multiplier of a constellation (HAS only) *)
Definition mult_of (c : cfg) (it : item) (s : cst) : Z :=
  if c_has c then match dget gnss_eqb (fst (sat2prn (i_sat it))) (s_dcm s) with Some m => m | None => 1 end else 1.
Definition clk_eff (c : cfg) (inet : Z) (it : item) (v : Z) (s : cst) : cst :=
  stamp inet (i_sat it) tCLOCK
    (updlc inet (fun l => set_l_dclk (ozset (i_sat it) (option_map (Z.mul (mult_of c it s)) (c_sval c v (b_clk c))) (l_dclk l)) l) s).
Definition cb_eff (c : cfg) (inet : Z) (it : item) (r : rsig) (v : Z) (s : cst) : cst :=
  stamp inet (i_sat it) tCBIAS
    (updlc inet (fun l => set_l_cbias (put2 (i_sat it) (toTyp r TC) (c_sval c v (b_cb c)) (l_cbias l)) l) s).
Definition pb_eff (c : cfg) (inet : Z) (it : item) (r : rsig) (p : Z * Z) (s : cst) : cst :=
  stamp inet (i_sat it) tPBIAS
    (updlc inet (fun l => set_l_di (put2 (i_sat it) (toTyp r TL) (snd p) (l_di l))
       (set_l_pbias (put2 (i_sat it) (toTyp r TL) (c_sval c (fst p) (b_pb c)) (l_pbias l)) l)) s).
Definition clear_cb (inet : Z) (it : item) : cst -> cst :=
  updlc inet (fun l => set_l_cbias (zset (i_sat it) [] (l_cbias l)) l).
Definition clear_pb (inet : Z) (it : item) : cst -> cst :=
  updlc inet (fun l => set_l_di (zset (i_sat it) [] (l_di l)) (set_l_pbias (zset (i_sat it) [] (l_pbias l)) l)).

Definition item_eff (g : Z) (it : item) (s : cst) : cst :=
  set_s_sig_n (zset (i_sat it) (i_sig it) (s_sig_n s))
  (set_s_nsig_total (s_nsig_total s + Z.of_nat (length (i_sig it)))
  (set_s_nsig_n (s_nsig_n s ++ [length (i_sig it)])
  (set_s_gnss_n (s_gnss_n s ++ [g]) (set_s_sat_n (s_sat_n s ++ [i_sat it]) (set_s_sys_n (s_sys_n s ++ [i_sys it]) s))))).
Definition blk_eff (c : cfg) (b : gblk) (s : cst) : cst :=
  let g := gb_id b in
  let s := set_s_gnss_idx (s_gnss_idx s ++ [gnss2sys g]) s in
  let s := set_s_nsat_g (upd (Z.to_nat g) (fun _ => Z.of_nat (cnt (gb_sv b))) (s_nsat_g s))
           (set_s_nsat_n (s_nsat_n s + cnt (gb_sv b))%nat s) in
  let s := set_s_nsig_max (Z.max (s_nsig_max s) (Z.of_nat (cnt (gb_sig b)))) s in
  let s := eff (item_eff g) (blk_items b) s in
  if c_has c then set_s_nm_idx (upd (Z.to_nat g) (fun _ => gb_nm b) (s_nm_idx s)) s else s.
Definition mask_eff (c : cfg) (h : mh) (bl : list gblk) (s : cst) : cst :=
  let s := hd_eff c true h s in
  let iod := hd_iod c h s in
  let s := set_s_flg_net false (set_s_ngnss (length bl) s) in
  let s := if s_iodssr s =? iod then s
           else set_s_sig_n_p (s_sig_n s) (set_s_iodssr_p (s_iodssr s) (set_s_sat_n_p (s_sat_n s) s)) in
  let s := set_s_iodssr iod (set_s_nsat_n 0 (set_s_nsig_n [] (set_s_sys_n [] (set_s_gnss_n [] (set_s_sat_n []
           (set_s_nsig_total 0 (set_s_sig_n [] (set_s_nsig_max 0 (set_s_nm_idx (repeat 0 16)
           (set_s_dcm [] (set_s_gnss_idx [] (set_s_nsat_g (repeat 0 16) s)))))))))))) in
  stamp 0 0 tMASK (flag_eff 0 tMASK (eff (blk_eff c) bl s)).

Definition stec_coef_eff (inet st : Z) (it : item) (p : (Z * Z) * coef) (s : cst) : cst :=
  updlc inet (fun l => set_l_ci (ozset (i_sat it) (val_coef st (snd p)) (l_ci l)) l)
  (updlc inet (fun l => set_l_stec_q (zset (i_sat it) (fst p) (l_stec_q l)) l) (stamp inet (i_sat it) tSTEC s)).

(** the residual of satellite [sat] at grid point [j] becomes [v] *)
Definition stec_at (inet sat : Z) (j : nat) (v : option Z) : cst -> cst :=
  updlc inet (fun l => set_l_dstec (zset sat (zset (Z.of_nat j) v
     (match zget sat (l_dstec l) with Some d => d | None => [] end)) (l_dstec l)) l).
(** values numbered from 0 *)
Definition indexed {A} (l : list A) : dict Z A := combine (zs 0 (length l)) l.
Definition grid_pt_eff (inet : Z) (its : list item) (tt_ : Z) (sz : nat) (j : nat) (p : (Z * Z) * list Z) (s : cst) : cst :=
  let s := if tt_ >? 0 then
      updlc inet (fun l => set_l_dtw (option_map (fun x => splice x j [sval (snd (fst p)) 8]) (l_dtw l))
                          (set_l_dth (option_map (fun x => splice x j [sval (fst (fst p)) 9]) (l_dth l)) l)) s
    else s in
  eff2 (fun it v => stec_at inet (i_sat it) j (sval v sz)) its (snd p) s.

Definition stecv_eff (inet stec : Z) (it : item) (v : stecv) (s : cst) : cst :=
  let s := stamp inet (i_sat it) tSTEC s in
  let s := if stec >? 0 then updlc inet (fun l => set_l_stec_q (zset (i_sat it) (sv_q v) (l_stec_q l)) l) s else s in
  let s := if Z.testbit stec 1 then
      updlc inet (fun l => set_l_ci (ozset (i_sat it) (val_coef (sv_type v) (sv_c v)) (l_ci l)) l)
      (updlc inet (fun l => set_l_stype (zset (i_sat it) (sv_type v) (l_stype l)) l) s) else s in
  if Z.testbit stec 0 then
    let sz := res_sz (sv_szi v) in
    updlc inet (fun l => set_l_dstec (zset (i_sat it) (indexed (map (fun x => sval x sz) (sv_res v))) (l_dstec l)) l)
    (updlc inet (fun l => set_l_s_sz (zset (i_sat it) (Z.of_nat sz) (l_s_sz l)) l) s)
  else s.

Definition when {A} (b : bool) (f : A -> A) (x : A) : A := if b then f x else x.

Definition msg_eff (c : cfg) (its : list item) (m : cmsg) (s0 : cst) : cst :=
  match m with
  | CMask h bl => mask_eff c h bl s0
  | COrb h v =>
      let s := udi_eff tORBIT (m_udi h) (set_s_flg_net false (hd_eff c false h s0)) in
      let s := updlc 0 (fun l => set_l_iode (Some []) (set_l_dorb (Some []) l)) s in
      flag_eff 0 tORBIT (iodc_eff tORBIT (hd_iod c h s0) (eff2 (orb_eff c 0) its v s))
  | CClk h dcm v =>
      let s := udi_eff tCLOCK (m_udi h) (set_s_flg_net false (hd_eff c false h s0)) in
      let s := if c_has c then
          eff2 (fun sys d s => set_s_dcm (dset gnss_eqb sys (d + 1) (s_dcm s)) s) (s_gnss_idx s) dcm (set_s_dcm [] s)
        else s in
      let s := updlc 0 (set_l_dclk (Some [])) s in
      let s := eff2 (clk_eff c 0) its v s in
      let s := when (c_has c) (fun s => set_s_sat_n_p (s_sat_n s) s) s in
      flag_eff 0 tCLOCK (iodc_eff tCLOCK (hd_iod c h s0) s)
  | CCb h v =>
      let s := udi_eff tCBIAS (m_udi h) (set_s_flg_net false (hd_eff c false h s0)) in
      let s := updlc 0 (set_l_cbias []) s in
      let s := eff2 (fun it l s => eff2 (cb_eff c 0 it) (i_sig it) l (clear_cb 0 it s)) its v s in
      flag_eff 0 tCBIAS (iodc_eff tCBIAS (hd_iod c h s0) s)
  | CPb h v =>
      let s := udi_eff tPBIAS (m_udi h) (set_s_flg_net false (hd_eff c false h s0)) in
      let s := updlc 0 (fun l => set_l_di [] (set_l_pbias [] l)) s in
      let s := eff2 (fun it l s => eff2 (pb_eff c 0 it) (i_sig it) l (clear_pb 0 it s)) its v s in
      flag_eff 0 tPBIAS (iodc_eff tPBIAS (hd_iod c h s0) s)
  | CBias h cb pb inet m v =>
      let s := set_s_inet inet (set_s_flg_net true (hd_eff c false h s0)) in
      let s := updlc inet (fun l => set_l_nsat_n (Z.of_nat (cnt m)) (set_l_sat_n (map i_sat (sel m its)) l)) s in
      let s := when cb (fun s => udi_eff tCBIAS (m_udi h) (updlc inet (set_l_cbias []) s)) s in
      let s := when pb (fun s => udi_eff tPBIAS (m_udi h) (updlc inet (fun l => set_l_di [] (set_l_pbias [] l)) s)) s in
      let s := eff2 (fun it l s =>
          eff2 (fun r p s => when pb (pb_eff c inet it r (snd p)) (when cb (cb_eff c inet it r (fst p)) s))
               (i_sig it) l (when pb (clear_pb inet it) (when cb (clear_cb inet it) s)))
        (sel m its) v s in
      let s := when cb (fun s => flag_eff inet tCBIAS (iodc_eff tCBIAS (hd_iod c h s0) s)) s in
      when pb (fun s => flag_eff inet tPBIAS (iodc_eff tPBIAS (hd_iod c h s0) s)) s
  | CUra h v =>
      let s := udi_eff tURA (m_udi h) (hd_eff c false h s0) in
      let s := updlc 0 (set_l_ura (Some [])) s in
      let s := eff2 (fun it q => updlc 0 (fun l => set_l_ura (ozset (i_sat it) q (l_ura l)) l)) its v s in
      stamp 0 0 tURA (flag_eff 0 tURA s)
  | CStec h st inet m v =>
      let s := set_s_flg_net true (hd_eff c false h s0) in
      let s := updlc inet (set_l_netmask (bval m)) s in
      let s := updlc inet (fun l => set_l_stec_q [] (set_l_nsat_n (Z.of_nat (cnt m)) (set_l_sat_n (map i_sat (sel m its)) l))) s in
      let s := udi_eff tSTEC (m_udi h) s in
      let s := updlc inet (fun l => set_l_stype [] (set_l_ci (Some []) (set_l_flg_stec 2 l))) s in
      flag_eff inet tSTEC (eff2 (stec_coef_eff inet st) (sel m its) v s)
  | CGrid h tt_ rg inet m q v =>
      let s := udi_eff tTROP (m_udi h) (set_s_flg_net true (hd_eff c false h s0)) in
      let ng := length v in
      let sz := if rg =? 0 then 7%nat else 16%nat in
      let loc := sel m its in
      let s := updlc inet (set_l_netmask (bval m)) s in
      let s := updlc inet (fun l => set_l_trop_q (Some q) (set_l_ng (Z.of_nat ng)
                 (set_l_nsat_n (Z.of_nat (cnt m)) (set_l_sat_n (map i_sat loc) l)))) s in
      let s := updlc inet (fun l => set_l_flg_trop (if tt_ >? 0 then 3 else 0)
                 (set_l_s_sz (fold_left (fun d sat => zset sat (Z.of_nat sz) d) (map i_sat loc) [])
                 (set_l_dstec (fold_left (fun d sat => zset sat [] d) (map i_sat loc) [])
                 (set_l_ct (Some CtStd)
                 (set_l_dtw (Some (repeat (Some 0) ng)) (set_l_dth (Some (repeat (Some 0) ng)) l)))))) s in
      let s := eff2 (grid_pt_eff inet loc tt_ sz) (seq 0 ng) v s in
      let s := flag_eff inet tTROP s in
      eff (fun it => stamp inet (i_sat it) tTROP) loc s
  | CSi mi n w =>
      let s := set_s_flg_net false s0 in
      set_s_sinfo (splice (s_sinfo s) (length w * 40 * Z.to_nat n) (encs (bitsof 40) w)) s
  | CComb h orb clk net v =>
      let s := hd_eff c false h s0 in
      let inet := match net with None => 0 | Some (k, _) => k end in
      let loc := match net with None => its | Some (_, m) => sel m its end in
      let s := match net with
               | None => set_s_flg_net false s
               | Some (k, m) => updlc k (set_l_svmask (bval m)) (set_s_inet k (set_s_flg_net true s))
               end in
      let s := when orb (fun s => udi_eff tORBIT (m_udi h) (updlc inet (fun l => set_l_iode (Some []) (set_l_dorb (Some []) l)) s)) s in
      let s := when clk (fun s => udi_eff tCLOCK (m_udi h) (updlc inet (set_l_dclk (Some [])) s)) s in
      let s := eff2 (fun it p s => when clk (clk_eff c inet it (snd p)) (when orb (orb_eff c inet it (fst p)) s)) loc v s in
      when orb (flag_eff inet tORBIT) (when clk (flag_eff inet tCLOCK) s)
  | CAtmos h inet ng q fn rs stec m v =>
      let trop := trop_flag fn rs in
      let loc := sel m its in
      let s := set_s_flg_net true (hd_eff c false h s0) in
      let s := updlc inet (fun l => set_l_flg_stec stec (set_l_flg_trop trop (set_l_ng (Z.of_nat ng) l))) s in
      let s := when (trop >? 0) (fun s => udi_eff tTROP (m_udi h) (updlc inet (set_l_trop_q (Some q)) s)) s in
      let s := updlc inet (set_l_ct (Some (CtVal None 0))) s in
      let f := option_map val_tropfn fn in
      let s := match f with Some t => updlc inet (set_l_ct (Some (CtVal (Some t) 0))) s | None => s end in
      let s := match rs with
               | Some r => updlc inet (set_l_dtw (Some (map (fun x => sval x (res_w r)) (r_v r))))
                             (updlc inet (set_l_ct (Some (CtVal f (r_ofst r)))) s)
               | None => s end in
      let s := updlc inet (set_l_netmask (bval m)) s in
      let s := updlc inet (fun l => set_l_stec_q [] (set_l_nsat_n (Z.of_nat (cnt m)) (set_l_sat_n (map i_sat loc) l))) s in
      let s := udi_eff tSTEC (m_udi h) s in
      let s := when (Z.testbit stec 1) (updlc inet (fun l => set_l_stype [] (set_l_ci (Some []) l))) s in
      let s := when (Z.testbit stec 0) (updlc inet (fun l => set_l_s_sz [] (set_l_dstec [] l))) s in
      let s := eff2 (stecv_eff inet stec) loc v s in
      let s := when (trop >? 0) (fun s => stamp inet 0 tTROP (flag_eff inet tTROP s)) s in
      when (stec >? 0) (flag_eff inet tSTEC) s
  end.

(** the receiver's attributes describe the satellites [its] *)
Definition ctx (its : list item) (s : cst) : Prop :=
  s_nsat_n s = length its /\ s_sat_n s = map i_sat its /\ s_sys_n s = map i_sys its /\
  s_nsig_n s = map (fun it => length (i_sig it)) its /\
  Forall (fun it => zget (i_sat it) (s_sig_n s) = Some (i_sig it)) its.

(** a stream of messages: bits, meaning, and well-formedness along the stream *)
Fixpoint enc_stream (c : cfg) (its : list item) (ms : list cmsg) : bits :=
  match ms with
  | [] => []
  | m :: r => enc_msg c its m ++ enc_stream c (items_after its m) r
  end.
Fixpoint stream_eff (c : cfg) (its : list item) (ms : list cmsg) (s : cst) : cst :=
  match ms with
  | [] => s
  | m :: r => stream_eff c (items_after its m) r (msg_eff c its m (set_s_subtype (sub_of m) s))
  end.
Fixpoint wf_stream (c : cfg) (its : list item) (ms : list cmsg) (s : cst) : Prop :=
  match ms with
  | [] => True
  | m :: r => wf_msg c its s m /\
      (match m with CMask _ bl => NoDup (map i_sat (concat (map blk_items bl))) | _ => True end) /\
      wf_stream c (items_after its m) r (msg_eff c its m (set_s_subtype (sub_of m) s))
  end.
