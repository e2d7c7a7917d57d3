(** Galileo OSNMA: /repo/src/cssrlib/osnma.py, class osnma 116-992.

    - Byte strings are bit lists (8 bits per byte); an OSNMA page [nma_b] has 40 bits, an I/NAV word [nav] 128.
    - Cryptography is the record [crypto] of arbitrary functions: hash, MAC, signature check, key decompression
      ([None] = an exception of the library, e.g. a CMAC key of unsuitable length).
    - A method is [ost -> ost * option A]: the attributes after the call, and the value returned ([None] = exception).
    - [self.prn_a] is never assigned in the module (only in the slow-MAC branch); it is an argument of [decode].
    - [flg_slowmac] is False (its default): tags with ADKD 12 are skipped, [tag_list] stays empty.
    - One instance: [hk], [mack], [mack_p], [mack_c], [dsm], [nb] are class attributes and in reality shared by
      all instances.  gst_sf, gst_tow, gst_sf_p, gst_tow_p are assigned before every use and are arguments here.
    - Satellite numbers are 1 to 36; others ([IndexError] or an entry counted from the end) are [None].
    - Not modelled: monitor output, log file, loading of keys from files ([pk_list], [root_mt] are given). *)
From Verif Require Export CssrState.
From Verif Require Export Base BitModel TimeModel.
Notation length := List.length.
Open Scope Z_scope.

Record crypto := CR {
  PK : Type;
  c_hash : Z -> bits -> bits;
  c_mac : Z -> bits -> bits -> option bits;
  c_sig : Z -> PK -> bits -> bits -> option bool;
  c_unz : Z -> bits -> option PK }.

(** attributes set by decode_dsm_kroot, 160-174 *)
Record kpar := KP { k_pkid : Z; k_cidkr : Z; k_hf : Z; k_mf : Z; k_ks : Z; k_ts : Z; k_maclt : Z; k_wn : Z; k_towh : Z;
                    k_alp : bits; k_ds : bits; k_kroot : bits }.
(** uOSNMA bits of [self.status], 33-42 *)
Record ostat := STT { t_ld : bool; t_rv : bool; t_kc : bool; t_utc : bool; t_pos : bool; t_pkr : bool }.
(** page buffers, one row per satellite *)
Record obuf := BUF { b_cnt : list Z; b_hk : list bits; b_mack : list bits; b_mackp : list bits; b_mackc : list bits }.
(** I/NAV subframe buffers [subfrm], [subfrm_p], [subfrm_n] of a satellite *)
Record onav := NAV { n_c : bits; n_p : bits; n_n : bits }.

Section Osnma.
Variable C : crypto.

Record ost := OS {
  o_stat : ostat;
  o_cid0 : Z;
  o_dsm : dict Z (Z * bits * Z);   (* flg_dsm, dsm, nb *)
  o_did0 : Z;
  o_hdr : bits;                    (* nma_header *)
  o_kp : kpar;
  o_key : bits; o_keyp : bits; o_keyc : bits;
  o_gstc : bits;
  o_buf : obuf;
  o_nt : Z; o_tag : bits;
  o_nav : dict Z onav;
  o_vst : dict Z (dict Z Z);
  o_pk : dict Z (PK C);
  o_root : option bits;
  o_vmin : Z }.

Definition zeros (n : nat) : bits := repeat false n.
(** 153-197, 251-288: a new instance with given public keys and Merkle root *)
Definition osnma_new (pk : dict Z (PK C)) (root : option bits) : ost :=
  OS (STT false false false false false false) (-1) [] (-1) [] (KP (-1) (-1) (-1) (-1) (-1) (-1) (-1) (-1) (-1) (zeros 48) (zeros 512) (zeros 128))
     (zeros 128) (zeros 128) (zeros 128) (zeros 32)
     (BUF (repeat 0 36) (repeat (zeros 120) 36) (repeat (zeros 480) 36) (repeat (zeros 480) 36) (repeat (zeros 480) 36))
     0 (zeros 336) [] [] pk root 1.

(* one attribute assigned, the others kept *)
Definition set_stat v s := OS v (o_cid0 s) (o_dsm s) (o_did0 s) (o_hdr s) (o_kp s) (o_key s) (o_keyp s) (o_keyc s) (o_gstc s) (o_buf s) (o_nt s) (o_tag s) (o_nav s) (o_vst s) (o_pk s) (o_root s) (o_vmin s).
Definition set_cid0 v s := OS (o_stat s) v (o_dsm s) (o_did0 s) (o_hdr s) (o_kp s) (o_key s) (o_keyp s) (o_keyc s) (o_gstc s) (o_buf s) (o_nt s) (o_tag s) (o_nav s) (o_vst s) (o_pk s) (o_root s) (o_vmin s).
Definition set_dsm v s := OS (o_stat s) (o_cid0 s) v (o_did0 s) (o_hdr s) (o_kp s) (o_key s) (o_keyp s) (o_keyc s) (o_gstc s) (o_buf s) (o_nt s) (o_tag s) (o_nav s) (o_vst s) (o_pk s) (o_root s) (o_vmin s).
Definition set_did0 v s := OS (o_stat s) (o_cid0 s) (o_dsm s) v (o_hdr s) (o_kp s) (o_key s) (o_keyp s) (o_keyc s) (o_gstc s) (o_buf s) (o_nt s) (o_tag s) (o_nav s) (o_vst s) (o_pk s) (o_root s) (o_vmin s).
Definition set_hdr v s := OS (o_stat s) (o_cid0 s) (o_dsm s) (o_did0 s) v (o_kp s) (o_key s) (o_keyp s) (o_keyc s) (o_gstc s) (o_buf s) (o_nt s) (o_tag s) (o_nav s) (o_vst s) (o_pk s) (o_root s) (o_vmin s).
Definition set_kp v s := OS (o_stat s) (o_cid0 s) (o_dsm s) (o_did0 s) (o_hdr s) v (o_key s) (o_keyp s) (o_keyc s) (o_gstc s) (o_buf s) (o_nt s) (o_tag s) (o_nav s) (o_vst s) (o_pk s) (o_root s) (o_vmin s).
Definition set_key v s := OS (o_stat s) (o_cid0 s) (o_dsm s) (o_did0 s) (o_hdr s) (o_kp s) v (o_keyp s) (o_keyc s) (o_gstc s) (o_buf s) (o_nt s) (o_tag s) (o_nav s) (o_vst s) (o_pk s) (o_root s) (o_vmin s).
Definition set_keys p c s := OS (o_stat s) (o_cid0 s) (o_dsm s) (o_did0 s) (o_hdr s) (o_kp s) (o_key s) p c (o_gstc s) (o_buf s) (o_nt s) (o_tag s) (o_nav s) (o_vst s) (o_pk s) (o_root s) (o_vmin s).
Definition set_gstc v s := OS (o_stat s) (o_cid0 s) (o_dsm s) (o_did0 s) (o_hdr s) (o_kp s) (o_key s) (o_keyp s) (o_keyc s) v (o_buf s) (o_nt s) (o_tag s) (o_nav s) (o_vst s) (o_pk s) (o_root s) (o_vmin s).
Definition set_buf v s := OS (o_stat s) (o_cid0 s) (o_dsm s) (o_did0 s) (o_hdr s) (o_kp s) (o_key s) (o_keyp s) (o_keyc s) (o_gstc s) v (o_nt s) (o_tag s) (o_nav s) (o_vst s) (o_pk s) (o_root s) (o_vmin s).
Definition set_tag nt tg s := OS (o_stat s) (o_cid0 s) (o_dsm s) (o_did0 s) (o_hdr s) (o_kp s) (o_key s) (o_keyp s) (o_keyc s) (o_gstc s) (o_buf s) nt tg (o_nav s) (o_vst s) (o_pk s) (o_root s) (o_vmin s).
Definition set_nav v s := OS (o_stat s) (o_cid0 s) (o_dsm s) (o_did0 s) (o_hdr s) (o_kp s) (o_key s) (o_keyp s) (o_keyc s) (o_gstc s) (o_buf s) (o_nt s) (o_tag s) v (o_vst s) (o_pk s) (o_root s) (o_vmin s).
Definition set_vst v s := OS (o_stat s) (o_cid0 s) (o_dsm s) (o_did0 s) (o_hdr s) (o_kp s) (o_key s) (o_keyp s) (o_keyc s) (o_gstc s) (o_buf s) (o_nt s) (o_tag s) (o_nav s) v (o_pk s) (o_root s) (o_vmin s).
Definition set_pk v s := OS (o_stat s) (o_cid0 s) (o_dsm s) (o_did0 s) (o_hdr s) (o_kp s) (o_key s) (o_keyp s) (o_keyc s) (o_gstc s) (o_buf s) (o_nt s) (o_tag s) (o_nav s) (o_vst s) v (o_root s) (o_vmin s).

Definition st_ld st := STT true (t_rv st) (t_kc st) (t_utc st) (t_pos st) (t_pkr st).
Definition st_rv st := STT (t_ld st) true (t_kc st) (t_utc st) (t_pos st) (t_pkr st).
Definition st_kc v st := STT (t_ld st) (t_rv st) v (t_utc st) (t_pos st) (t_pkr st).
Definition st_utc st := STT (t_ld st) (t_rv st) (t_kc st) true (t_pos st) (t_pkr st).
Definition st_pos st := STT (t_ld st) (t_rv st) (t_kc st) (t_utc st) true (t_pkr st).
Definition st_pkr st := STT (t_ld st) (t_rv st) (t_kc st) (t_utc st) (t_pos st) true.

(** bytes a to b-1 of a byte string: x[a:b] *)
Definition bytes (x : bits) (a b : nat) : bits := slice x (8 * a) (8 * (b - a)).
Fixpoint beqb (a b : bits) : bool :=
  match a, b with [] , [] => true | x :: r, y :: t => Bool.eqb x y && beqb r t | _, _ => false end.

(** 119-121 *)
Definition klen_t : list Z := [96; 104; 112; 120; 128; 160; 192; 224; 256].
Definition npk_len_t : list Z := [0; 264; 0; 536; 0].
Definition tag_len_t : list Z := [0; 0; 0; 0; 0; 20; 24; 28; 32; 40; 0; 0; 0; 0; 0; 0].
(** list item; an index below 0 does not occur once ROOTKEY_LOADED is set *)
Definition item (l : list Z) (i : Z) : option Z := if i <? 0 then None else nth_error l (Z.to_nat i).
(** 123-136 *)
Definition mode_t (m : Z) : option (list Z) :=
  match m with
  | 27 => Some [1;0;0;0;1;0;1;0;0;1;1;0]
  | 28 => Some [1;0;0;0;1;0;0;1;0;0;1;0;0;1;0;0;1;1;0;0]
  | 31 => Some [1;0;0;1;0;1;0;0;1;1]
  | 33 => Some [1;0;1;0;1;0;1;0;0;1;0;0]
  | 34 => Some [1;2;1;2;1;0;1;2;0;1;0;0]
  | 35 => Some [1;2;1;2;1;2;1;2;2;1;2;2]
  | 36 => Some [1;2;1;2;1;1;2;0;1;0]
  | 37 => Some [1;0;1;0;1;1;0;0;1;0]
  | 38 => Some [1;2;1;2;1;1;2;2;1;2]
  | 39 => Some [1;2;1;2;1;2;0;1]
  | 40 => Some [1;0;1;1;1;0;0;0]
  | 41 => Some [1;2;1;2;1;2;2;1]
  | _ => None
  end.
(** 138-151 *)
Definition adkd_t (m : Z) : option (list Z) :=
  match m with
  | 27 => Some [0;0;0;0;12;0;0;0;0;4;12;0]
  | 28 => Some [0;0;0;0;0;0;0;12;0;0;0;0;0;0;0;0;4;12;0;0]
  | 31 => Some [0;0;0;12;0;0;0;0;12;4]
  | 33 => Some [0;0;4;0;12;0;0;0;0;12;0;12]
  | 34 => Some [0;0;4;0;12;0;0;0;0;12;0;12]
  | 35 => Some [0;0;4;0;12;0;0;0;0;12;0;0]
  | 36 => Some [0;0;4;0;12;0;0;0;12;12]
  | 37 => Some [0;0;4;0;12;0;0;0;12;0]
  | 38 => Some [0;0;4;0;12;0;0;0;12;0]
  | 39 => Some [0;0;4;0;0;0;0;12]
  | 40 => Some [0;0;4;12;0;0;0;12]
  | 41 => Some [0;0;4;0;0;0;0;12]
  | _ => None
  end.

(** 290-295; [self.hash_table[hf]] raises KeyError unless hf is 0 or 2 *)
Definition process_hash (hf : Z) (msg : bits) : option bits :=
  if (hf =? 0) || (hf =? 2) then Some (c_hash C hf msg) else None.
(** 577-586; for another mf the method returns False, on which every caller raises TypeError *)
Definition process_mac (s : ost) (msg : bits) : option bits :=
  if (k_mf (o_kp s) =? 0) || (k_mf (o_kp s) =? 1) then c_mac C (k_mf (o_kp s)) (o_key s) msg else None.
(** bs.pack('u12u20', wn, tow) *)
Definition gst_pack (wn tow : Z) : option bits :=
  if (0 <=? wn) && (wn <? 2 ^ 12) && (0 <=? tow) && (tow <? 2 ^ 20) then Some (bitsof 12 wn ++ bitsof 20 tow) else None.
(** 297-300 *)
Definition set_gst_sf (wn tow : Z) : option bits := gst_pack wn (tow / 30 * 30).

Definition dsm_of (did : Z) (s : ost) : bits := match zget did (o_dsm s) with Some (_, d, _) => d | None => [] end.
(** bytearray([nma_header]) + dsm[did][1:13+lk_b] *)
Definition root_msg (did lkb : Z) (s : ost) : bits := o_hdr s ++ bytes (dsm_of did s) 1 (Z.to_nat (13 + lkb)).

(** 310-332 verify_root_key *)
Definition verify_root_key (s : ost) : ost * option bool :=
  if negb (t_ld (o_stat s)) then (s, Some false) else
  match item klen_t (k_ks (o_kp s)) with
  | None => (s, None)
  | Some lk =>
    if negb ((k_hf (o_kp s) =? 0) || (k_hf (o_kp s) =? 2)) then (s, None) else
    match zget (k_pkid (o_kp s)) (o_pk s) with
    | None => (s, Some false)
    | Some pk =>
      match c_sig C (k_hf (o_kp s)) pk (k_ds (o_kp s)) (root_msg (o_did0 s) (lk / 8) s) with
      | None => (s, None)
      | Some false => (s, Some false)
      | Some true => (set_stat (st_rv (o_stat s)) s, Some true)
      end
    end
  end.

(** 334-340 verify_pdk *)
Definition verify_pdk (pdk : bits) (did : Z) (s : ost) : option bool :=
  do lk <- item klen_t (k_ks (o_kp s));
  do h <- process_hash (k_hf (o_kp s)) (root_msg did (lk / 8) s ++ k_ds (o_kp s));
  Some (beqb (firstn (length pdk) h) pdk).

(** 349-361 update_key_chain: [wn] is decremented again in every turn with a negative time *)
Fixpoint chain_loop (hf : Z) (alp : bits) (lkb : nat) (n : nat) (k : Z) (key : bits) (wn tow0 : Z) : option bits :=
  match n with
  | O => Some key
  | S m =>
    let t := tow0 - 30 * (k + 1) in
    let wn' := if t <? 0 then wn - 1 else wn in
    let t' := if t <? 0 then t + 604800 else t in
    do g <- gst_pack wn' t';
    do h <- process_hash hf (key ++ g ++ alp);
    chain_loop hf alp lkb m (k + 1) (firstn (8 * lkb) h) wn' tow0
  end.
Definition update_key_chain (s : ost) (key : bits) (wn tow0 ki : Z) : option bits :=
  do lk <- item klen_t (k_ks (o_kp s));
  chain_loop (k_hf (o_kp s)) (k_alp (o_kp s)) (Z.to_nat (lk / 8)) (Z.to_nat ki) 0 key wn tow0.

(** 363-381 verify_key_chain; [gtow] is self.gst_tow *)
Definition verify_key_chain (key : bits) (wn gtow : Z) (s : ost) : ost * option bool :=
  if negb (t_rv (o_stat s)) then (s, Some false) else
  let r :=
    if t_kc (o_stat s) then do k <- update_key_chain s key wn gtow 1; Some (beqb k (o_keyp s))
    else
      let ki := ((wn - k_wn (o_kp s)) * 86400 * 7 + (gtow - k_towh (o_kp s) * 3600)) / 30 + 1 in
      do k <- update_key_chain s key wn gtow ki; Some (beqb k (k_kroot (o_kp s))) in
  match r with
  | None => (s, None)
  | Some true => (set_stat (st_kc true (o_stat s)) s, Some true)
  | Some false => (set_stat (st_kc false (o_stat s)) s, Some false)
  end.

(** 383-416 decode_dsm_kroot *)
Definition decode_dsm_kroot (did : Z) (s : ost) : ost * option bool :=
  let d := dsm_of did s in
  let u o n := bval (slice d o n) in
  let kp := KP (u 4 4)%nat (u 8 2)%nat (u 12 2)%nat (u 14 2)%nat (u 16 4)%nat (u 20 4)%nat (u 24 8)%nat (u 36 12)%nat (u 48 8)%nat (bytes d 7 13)
               (k_ds (o_kp s)) (k_kroot (o_kp s)) in
  let s := set_kp kp s in
  let nb := (u 0 4)%nat + 6 in
  match item klen_t (k_ks kp) with
  | None => (s, None)
  | Some lk =>
    let lpdk := nb * 104 - 104 - lk - 512 in
    if lpdk <? 0 then (s, Some false) else
    let i := (13 + Z.to_nat (lk / 8))%nat in
    let s := set_kp (KP (k_pkid kp) (k_cidkr kp) (k_hf kp) (k_mf kp) (k_ks kp) (k_ts kp) (k_maclt kp) (k_wn kp) (k_towh kp) (k_alp kp)
                        (bytes d i (i + 64)) (bytes d 13 i)) s in
    match verify_pdk (bytes d (i + 64) (i + 64 + Z.to_nat ((lpdk + 7) / 8))) did s with
    | None => (s, None)
    | Some false => (s, Some false)
    | Some true => (set_did0 did (set_stat (st_ld (o_stat s)) s), Some true)
    end
  end.

(** 446-455: hashes up the Merkle tree; [itn] holds four nodes of 32 bytes *)
Fixpoint merkle_loop (hf : Z) (itn : bits) (n : nat) (k : nat) (mid : Z) (x : bits) : option bits :=
  match n with
  | O => Some x
  | S m =>
    let b := bytes itn (k * 32) ((k + 1) * 32) in
    do x' <- process_hash hf (if mid mod 2 =? 0 then x ++ b else b ++ x);
    merkle_loop hf itn m (k + 1) (Z.shiftr mid 1) x'
  end.

(** 418-466 decode_dsm_pkr (342-347 verify_pdp); [self.root_mt] = -1 until loaded (TypeError) *)
Definition decode_dsm_pkr (did : Z) (s : ost) : ost * option bool :=
  let d := dsm_of did s in
  let nb := bval (slice d 0 4) in let mid := bval (slice d 4 4) in
  if (nb <? 7) || (10 <? nb) then (s, Some false) else
  let itn := bytes d 1 129 in
  let npkt := bval (slice d 1032 4) in let npkid := bval (slice d 1036 4) in
  if (4 <? npkt) || (npkt =? 0) || (npkt =? 2) then (s, Some false) else
  let ldp := (nb + 6) * 104 in
  let lnpk := if npkt =? 4 then 104 * (nb + 6) - 1040 else nth (Z.to_nat npkt) npk_len_t 0 in
  let i0 := (130 + Z.to_nat (lnpk / 8))%nat in
  let npk := bytes d 130 i0 in
  let lpdp := ldp - 1040 - lnpk in
  if lpdp <? 0 then (s, Some false) else
  let pdp := bytes d i0 (i0 + Z.to_nat (lpdp / 8)) in
  let mi := bytes d 129 130 ++ npk in
  match o_root s with
  | None => (s, None)
  | Some root =>
    match process_hash (k_hf (o_kp s)) (root ++ mi) with
    | None => (s, None)
    | Some h =>
      if negb (beqb (firstn (length pdp) h) pdp) then (s, Some false) else
      match (do x <- process_hash (k_hf (o_kp s)) mi; merkle_loop (k_hf (o_kp s)) itn 4 0 mid x) with
      | None => (s, None)
      | Some x =>
        if negb (beqb x root) then (s, Some false) else
        match c_unz C npkt npk with
        | None => (s, None)
        | Some pk => (set_stat (st_pkr (o_stat s)) (set_pk (zset npkid pk (o_pk s)) s), Some true)
        end
      end
    end
  end.

(** 468-527 decode_hk *)
Definition decode_hk (hk : bits) (s : ost) : ost * option bool :=
  let s := set_hdr (bytes hk 0 1) s in
  let u o n := bval (slice hk o n) in
  let nmas := u 0%nat 2%nat in let cid := u 2%nat 2%nat in let cpks := u 4%nat 3%nat in
  let did := u 8%nat 4%nat in let bid := u 12%nat 4%nat in
  if negb (nmas =? 1) && negb (nmas =? 2) then (s, Some false) else
  if cpks =? 0 then (s, Some false) else
  let e := match zget did (o_dsm s) with Some e => e | None => (0, zeros 2000, 0) end in
  let cid0 := if o_cid0 s <? 0 then cid else o_cid0 s in
  let '(flg, d, nb) := e in
  let flg := if cid =? cid0 then flg else 0 in
  let s := set_cid0 cid s in
  let d := splice d (8 * 13 * Z.to_nat bid) (slice hk 16 104) in
  let flg := Z.lor flg (Z.shiftl 1 bid) in
  let nb := if bid =? 0 then u 16%nat 4%nat + 6 else nb in
  let s := set_dsm (zset did (flg, d, nb) (o_dsm s)) s in
  if (0 <? nb) && (flg =? Z.shiftl 1 nb - 1) then
    let '(s, r) := if did <=? 11 then decode_dsm_kroot did s else decode_dsm_pkr did s in
    match r with
    | Some true => (set_dsm (zset did (0, d, nb) (o_dsm s)) s, Some true)
    | _ => (s, r)
    end
  else (s, Some false).

(** 529-556 decode_tags_info (k): the tag and its two bytes of information *)
Definition tag_bytes (s : ost) : Z := nth (Z.to_nat (k_ts (o_kp s))) tag_len_t 0 / 8.
Definition tag_k (s : ost) (k : nat) : bits * bits :=
  let lb := Z.to_nat (tag_bytes s) in
  let t := bytes (o_tag s) (k * (lb + 2)) (k * (lb + 2) + lb + 2) in
  (bytes t 0 lb, bytes t lb (lb + 2)).
Definition info_prn (i : bits) : Z := bval (slice i 0 8).
Definition info_adkd (i : bits) : Z := bval (slice i 8 4).

(** 567, 596: 0 if gst_tow_p % 60 == 0 else 6 *)
Definition ofst_of (gstp : bits) : nat := if bval (slice gstp 12 20) mod 60 =? 0 then 0%nat else 6%nat.
(** 558-575 verify_maclt *)
Fixpoint maclt_loop (s : ost) (prn_a : Z) (md ad : list Z) (ofst n k : nat) : option bool :=
  match n with
  | O => Some true
  | S m =>
    let i := (k + ofst + 1)%nat in
    let info := snd (tag_k s (k + 1)) in
    do x <- nth_error md i;
    if (x =? 1) && negb (info_prn info =? prn_a) then Some false else
    do r <- (if x =? 2 then Some true else do a <- nth_error ad i; Some (info_adkd info =? a));
    if negb r then Some false else maclt_loop s prn_a md ad ofst m (k + 1)
  end.
Definition verify_maclt (prn_a : Z) (gstp : bits) (s : ost) : option bool :=
  match mode_t (k_maclt (o_kp s)), adkd_t (k_maclt (o_kp s)) with
  | Some md, Some ad =>
    if negb (o_nt s * 2 =? Z.of_nat (length ad)) then Some false else
    maclt_loop s prn_a md ad (ofst_of gstp) (Z.to_nat (o_nt s - 1)) 0
  | _, _ => Some false
  end.

(** 588-609 verify_macseq *)
Fixpoint flex_loop (s : ost) (md : list Z) (ofst n k : nat) (msg : bits) : option bits :=
  match n with
  | O => Some msg
  | S m =>
    do x <- nth_error md (k + ofst);
    flex_loop s md ofst m (k + 1) (if x =? 2 then msg ++ snd (tag_k s k) else msg)
  end.
Definition verify_macseq (prn_a : Z) (gstp : bits) (s : ost) : option bool :=
  if (prn_a <? 0) || (255 <? prn_a) then None else
  match mode_t (k_maclt (o_kp s)) with
  | None => Some false
  | Some md =>
    do msg <- flex_loop s md (ofst_of gstp) (Z.to_nat (o_nt s)) 0 (bitsof 8 prn_a ++ gstp);
    do mac <- process_mac s msg;
    do c <- getu mac 0 12;
    do q <- getu (snd (tag_k s 0)) 0 12;
    Some (q =? c)
  end.

(** 611-616 save_mack *)
Definition save_mack (prn : nat) (s : ost) : ost :=
  let b := o_buf s in
  let j := (prn - 1)%nat in
  set_buf (BUF (b_cnt b) (b_hk b) (b_mack b) (upd j (fun _ => nth j (b_mackc b) []) (b_mackp b))
               (upd j (fun _ => nth j (b_mack b) []) (b_mackc b))) s.

(** 618-634 decode_mack *)
Definition decode_mack (prn : nat) (s : ost) : ost * option bool :=
  if negb (t_ld (o_stat s)) then (s, Some false) else
  let lt := nth (Z.to_nat (k_ts (o_kp s))) tag_len_t 0 in
  match item klen_t (k_ks (o_kp s)) with
  | None => (s, None)
  | Some lk =>
    let nt := (480 - lk) / (lt + 16) in
    let i0 := Z.to_nat ((lt + 16) / 8 * nt) in
    let mp := nth (prn - 1) (b_mackp (o_buf s)) [] in
    let mc := nth (prn - 1) (b_mackc (o_buf s)) [] in
    let e := (i0 + Z.to_nat (lk / 8))%nat in
    (set_keys (bytes mp i0 e) (bytes mc i0 e) (set_tag nt (bytes mp 0 i0) s), Some true)
  end.

(** 636-656 load_gal_inav: a wrong page type is only reported on the terminal *)
Definition load_gal_inav (msg : bits) : option (bits * bits) :=
  do _ <- getu msg 120 2;
  do n <- copy_buff msg (zeros 128) 2 0 112;
  do n <- copy_buff msg n 122 112 16;
  do m <- copy_buff msg (zeros 40) 138 0 40;
  Some (n, m).

(** 658-676 save_gal_inav; keyed by prn (prn2sat is injective on 1..36) *)
Definition save_gal_inav (nav : bits) (prn tow : Z) (s : ost) : ost :=
  let e := match zget prn (o_nav s) with Some e => e | None => NAV (zeros 1280) (zeros 1280) (zeros 1280) end in
  let e := if tow mod 30 =? 1 then NAV (n_p e) (n_n e) (n_n e) else e in
  let mt := bval (slice nav 0 6) in
  let e := if (0 <? mt) && (mt <=? 10) then NAV (n_c e) (n_p e) (splice (n_n e) (128 * Z.to_nat (mt - 1)) nav) else e in
  set_nav (zset prn e (o_nav s)) s.

(** 697-704: five calls of copy_buff *)
Fixpoint copies (buf : bits) (l : list (nat * nat)) (j : nat) (msg : bits) : option bits :=
  match l with
  | [] => Some msg
  | (o, n) :: r => do m <- copy_buff buf msg o j n; copies buf r (j + n) m
  end.
(** 678-706 gen_gal_inavmsg *)
Definition gen_gal_inavmsg (prn : Z) (s : ost) : option (option bits) :=
  if (prn <? 1) || (36 <? prn) then Some None else
  match zget prn (o_nav s) with
  | None => Some None
  | Some e =>
    let buf := n_c e in
    let u o n := bval (slice buf o n) in
    if forallb (fun k => u (k * 128)%nat 6%nat =? Z.of_nat k + 1) [0; 1; 2; 3; 4]%nat
    then
      if forallb (fun k => u (6 + k * 128)%nat 10%nat =? u 6%nat 10%nat) [1; 2; 3]%nat
      then option_map Some (copies buf [(6, 120); (134, 120); (262, 122); (390, 120); (518, 67)]%nat 0 (zeros 552))
      else Some None
    else Some None
  end.
(** 708-733 gen_gal_utcmsg *)
Definition gen_gal_utcmsg (prn_a : Z) (s : ost) : option (option bits) :=
  match zget prn_a (o_nav s) with
  | None => Some None
  | Some e =>
    let mt6 := slice (n_c e) 640 128 in let mt10 := slice (n_c e) 1152 128 in
    if negb (bval (slice mt6 0 6) =? 6) || negb (bval (slice mt10 0 6) =? 10) then Some None else
    do m <- copy_buff mt6 (zeros 144) 6 0 99;
    do m <- copy_buff mt10 m 86 99 42;
    Some (Some m)
  end.

(** 742-763: pack_into at the running position *)
Definition put_raw (w : bits) (mj : bits * nat) : option (bits * nat) :=
  let '(m, j) := mj in
  if (j + length w <=? length m)%nat then Some (splice m j w, (j + length w)%nat) else None.
Definition put_u (n : nat) (v : Z) (mj : bits * nat) : option (bits * nat) :=
  do m <- putu (fst mj) (snd mj) n v; Some (m, (snd mj + n)%nat).
Fixpoint put_bytes (msg : bits) (rem : nat) (n k : nat) (mj : bits * nat) : option (bits * nat) :=
  match n with
  | O => Some mj
  | S m =>
    let b := bval (bytes msg k (k + 1)) in
    do mj <- (if negb (rem =? 0)%nat && (n =? 1)%nat then put_u rem (Z.shiftr b (Z.of_nat (8 - rem))) mj else put_u 8 b mj);
    put_bytes msg rem m (k + 1) mj
  end.
(** 735-764 gen_msg *)
Definition gen_msg (adkd prn_d prn_a : Z) (gst : bits) (ctr : Z) (msg : bits) (s : ost) : option bits :=
  let mlen := if adkd =? 4 then 141%nat else 549%nat in
  let rem := (mlen - mlen / 8 * 8)%nat in
  do mj <- (if (adkd =? 0) && (prn_a =? prn_d)
            then put_u 8 prn_a (zeros (8 * ((mlen + 50 + 7) / 8)), 0%nat)
            else do mj <- put_u 8 (if prn_d =? 255 then prn_a else prn_d) (zeros (8 * ((mlen + 58 + 7) / 8)), 0%nat);
                 put_u 8 prn_a mj);
  do mj <- put_raw gst mj;
  do mj <- put_u 8 ctr mj;
  do mj <- put_u 2 (Z.shiftr (bval (o_hdr s)) 6) mj;
  do mj <- put_bytes msg rem (length msg / 8) 0 mj;
  Some (fst mj).

(** 766-778 verify_navmsg *)
Definition verify_navmsg (adkd prn_d prn_a : Z) (gst : bits) (ctr : Z) (tag msg : bits) (s : ost) : option bool :=
  do m <- gen_msg adkd prn_d prn_a gst ctr msg s;
  do c <- process_mac s m;
  Some (beqb (firstn (8 * Z.to_nat (tag_bytes s)) c) tag).

(** 780-797 save_auth_nav for a verified tag *)
Definition vcount (s : ost) (prn iod : Z) : option Z := do d <- zget prn (o_vst s); zget iod d.
Definition mark (prn iod : Z) (s : ost) : ost * bool :=
  let d := match zget prn (o_vst s) with Some d => d | None => [] end in
  let c := match zget iod d with Some c => c + 1 | None => 1 end in
  (set_vst (zset prn (zset iod c d) (o_vst s)) s, o_vmin s <=? c).
(** 799-805 chk_nav *)
Definition chk_nav (prn iod : Z) (s : ost) : bool :=
  match vcount s prn iod with Some c => o_vmin s <=? c | None => false end.
(** 807-819 count_valid_sat *)
Definition count_valid (s : ost) : Z :=
  Z.of_nat (length (filter (fun pe => negb (fst pe =? 37) && existsb (fun ic => o_vmin s <=? snd ic) (snd pe)) (o_vst s))).
Definition set_pos (s : ost) : ost := if 4 <=? count_valid s then set_stat (st_pos (o_stat s)) s else s.

(** 924-971: one turn of the loop over the tags; returns the variable [status] *)
Definition tag_step (k : nat) (prn_a : Z) (gstp : bits) (status : bool) (s : ost) : ost * option bool :=
  let '(tag, info) := tag_k s k in
  let prn_d := if (k =? 0)%nat then prn_a else info_prn info in
  let adkd := if (k =? 0)%nat then 0 else info_adkd info in
  let nav := if adkd =? 0 then gen_gal_inavmsg prn_d s else if adkd =? 4 then gen_gal_utcmsg prn_a s else Some None in
  match nav with
  | None => (s, None)
  | Some None => (s, Some status)
  | Some (Some msg) =>
    match verify_navmsg adkd prn_d prn_a gstp (Z.of_nat k + 1) tag msg s with
    | None => (s, None)
    | Some false => (s, Some false)
    | Some true =>
      let '(s, st) := mark (if adkd =? 4 then 37 else prn_d) (if adkd =? 4 then 0 else bval (slice msg 0 10)) s in
      (if st && (adkd =? 4) then set_stat (st_utc (o_stat s)) s else s, Some st)
    end
  end.
Fixpoint tags_loop (n k : nat) (prn_a : Z) (gstp : bits) (status : bool) (s : ost) : ost * option bool :=
  match n with
  | O => (s, Some status)
  | S m =>
    match tag_step k prn_a gstp status s with
    | (s, Some st) => tags_loop m (k + 1) prn_a gstp st s
    | (s, None) => (s, None)
    end
  end.

(** 836-839: the first page of a subframe resets the buffers of its satellite *)
Definition page_no (tow : Z) : nat := Z.to_nat (tow mod 30 / 2).
Definition reset_page (tow : Z) (prn : nat) (s : ost) : ost :=
  let j := (prn - 1)%nat in
  let b := o_buf s in
  if (page_no tow =? 0)%nat
  then set_buf (BUF (upd j (fun _ => 0) (b_cnt b)) (upd j (fun _ => zeros 120) (b_hk b))
                    (upd j (fun m => splice m 0 (zeros 8)) (b_mack b)) (b_mackp b) (b_mackc b)) s
  else s.
(** 849-851 *)
Definition store_page (nma : bits) (tow : Z) (prn : nat) (s : ost) : ost :=
  let ki := page_no tow in
  let j := (prn - 1)%nat in
  let b := o_buf s in
  set_buf (BUF (upd j (fun c => Z.lor c (Z.shiftl 1 (Z.of_nat ki))) (b_cnt b))
               (upd j (fun h => splice h (8 * ki) (bytes nma 0 1)) (b_hk b))
               (upd j (fun m => splice m (32 * ki) (bytes nma 1 5)) (b_mack b)) (b_mackp b) (b_mackc b)) s.
(** 991 *)
Definition clear_cnt (prn : nat) (s : ost) : ost :=
  let b := o_buf s in
  set_buf (BUF (upd (prn - 1) (fun _ => 0) (b_cnt b)) (b_hk b) (b_mack b) (b_mackp b) (b_mackc b)) s.

(** 897-992: look-up table, MACSEQ and tags *)
Definition authenticate (prn : nat) (prn_a wn gtow : Z) (s : ost) : ost * option bool :=
  match set_gst_sf wn (gtow - 30) with
  | None => (s, None)
  | Some gstp =>
    match verify_maclt prn_a gstp s with
    | None => (s, None)
    | Some false => (s, Some false)
    | Some true =>
      match verify_macseq prn_a gstp s with
      | None => (s, None)
      | Some false => (s, Some false)
      | Some true =>
        match tags_loop (Z.to_nat (o_nt s)) 0 prn_a gstp false s with
        | (s, None) => (s, None)
        | (s, Some st) => (clear_cnt prn (set_pos s), Some st)
        end
      end
    end
  end.
(** 877-896: key chain *)
Definition chain_stage (wn gtow : Z) (gst : bits) (s : ost) : ost * option unit :=
  if t_rv (o_stat s) && negb (beqb gst (o_gstc s)) then
    match verify_key_chain (o_keyc s) wn gtow s with
    | (s, None) => (s, None)
    | (s, Some true) => (set_key (o_keyc s) (set_gstc gst s), Some tt)
    | (s, Some false) => (s, Some tt)
    end
  else (s, Some tt).
(** 854-873: MACK, HKROOT, root key *)
Definition root_stage (prn : nat) (s : ost) : ost * option unit :=
  let s := save_mack prn s in
  match decode_hk (nth (prn - 1) (b_hk (o_buf s)) []) s with
  | (s, None) => (s, None)
  | (s, Some _) =>
    if t_ld (o_stat s) && negb (t_rv (o_stat s)) then
      match verify_root_key s with
      | (s, None) => (s, None)
      | (s, Some _) => (s, Some tt)
      end
    else (s, Some tt)
  end.
Definition subframe (prn : nat) (prn_a wn gtow : Z) (gst : bits) (s : ost) : ost * option bool :=
  match root_stage prn s with
  | (s, None) => (s, None)
  | (s, Some _) =>
    match decode_mack prn s with
    | (s, None) => (s, None)
    | (s, Some false) => (s, Some false)
    | (s, Some true) =>
      match chain_stage wn gtow gst s with
      | (s, None) => (s, None)
      | (s, Some _) => if negb (t_kc (o_stat s)) then (s, Some false) else authenticate prn prn_a wn gtow s
      end
    end
  end.

(** 821-992 decode *)
Definition decode (nma : bits) (wn tow : Z) (prn : nat) (prn_a : Z) (s : ost) : ost * option bool :=
  if negb ((1 <=? prn)%nat && (prn <=? 36)%nat && (length nma =? 40)%nat) then (s, None) else
  let s := reset_page tow prn s in
  let '(gw, gt) := time2gst 1 (gpst2time 1 wn tow) in
  let gtow := gt / 30 * 30 in
  match set_gst_sf gw gtow with
  | None => (s, None)
  | Some gst =>
    let s := store_page nma tow prn s in
    if nth (prn - 1) (b_cnt (o_buf s)) 0 =? 0x7fff then subframe prn prn_a gw gtow gst s
    else (s, Some false)
  end.

(** calls made by the user: a navigation word and an OSNMA page; after an exception the object is used further *)
Inductive event := ENav (nav : bits) (prn tow : Z) | ENma (nma : bits) (wn tow : Z) (prn : nat) (prn_a : Z).
Definition step (e : event) (s : ost) : ost :=
  match e with
  | ENav nav prn tow => save_gal_inav nav prn tow s
  | ENma nma wn tow prn prn_a => fst (decode nma wn tow prn prn_a s)
  end.
Fixpoint run (h : list event) (s : ost) : ost := match h with [] => s | e :: r => run r (step e s) end.
End Osnma.
Arguments o_stat {C}.
Arguments o_cid0 {C}.
Arguments o_dsm {C}.
Arguments o_did0 {C}.
Arguments o_hdr {C}.
Arguments o_kp {C}.
Arguments o_key {C}.
Arguments o_keyp {C}.
Arguments o_keyc {C}.
Arguments o_gstc {C}.
Arguments o_buf {C}.
Arguments o_nt {C}.
Arguments o_tag {C}.
Arguments o_nav {C}.
Arguments o_vst {C}.
Arguments o_pk {C}.
Arguments o_root {C}.
Arguments o_vmin {C}.
Arguments set_stat {C}.
Arguments set_cid0 {C}.
Arguments set_dsm {C}.
Arguments set_did0 {C}.
Arguments set_hdr {C}.
Arguments set_kp {C}.
Arguments set_key {C}.
Arguments set_keys {C}.
Arguments set_gstc {C}.
Arguments set_buf {C}.
Arguments set_tag {C}.
Arguments set_nav {C}.
Arguments set_vst {C}.
Arguments set_pk {C}.
Arguments set_pos {C}.
Arguments OS {C}.
Arguments osnma_new {C}.
Arguments dsm_of {C}.
Arguments root_msg {C}.
Arguments verify_root_key {C}.
Arguments process_mac {C}.
Arguments verify_pdk {C}.
Arguments update_key_chain {C}.
Arguments verify_key_chain {C}.
Arguments decode_dsm_kroot {C}.
Arguments decode_dsm_pkr {C}.
Arguments decode_hk {C}.
Arguments tag_bytes {C}.
Arguments tag_k {C}.
Arguments maclt_loop {C}.
Arguments verify_maclt {C}.
Arguments flex_loop {C}.
Arguments verify_macseq {C}.
Arguments save_mack {C}.
Arguments decode_mack {C}.
Arguments save_gal_inav {C}.
Arguments gen_gal_inavmsg {C}.
Arguments gen_gal_utcmsg {C}.
Arguments gen_msg {C}.
Arguments verify_navmsg {C}.
Arguments vcount {C}.
Arguments mark {C}.
Arguments chk_nav {C}.
Arguments count_valid {C}.
Arguments tag_step {C}.
Arguments tags_loop {C}.
Arguments reset_page {C}.
Arguments store_page {C}.
Arguments clear_cnt {C}.
Arguments authenticate {C}.
Arguments chain_stage {C}.
Arguments root_stage {C}.
Arguments subframe {C}.
Arguments decode {C}.
Arguments step {C}.
Arguments run {C}.
