(** What OSNMA authentication means, written from the structure of the signal and independent of the decoder:
    TESLA chain, signed root key, authenticated message, Merkle path, assembly of DSM blocks, pages. *)
From Verif Require Import OsnmaModel.
Open Scope Z_scope.

(** length in bits of a key of size code [ks] *)
Definition keylen (ks : Z) : option nat :=
  match ks with
  | 0 => Some 96%nat | 1 => Some 104%nat | 2 => Some 112%nat | 3 => Some 120%nat | 4 => Some 128%nat
  | 5 => Some 160%nat | 6 => Some 192%nat | 7 => Some 224%nat | 8 => Some 256%nat | _ => None
  end.
(** time stamp of the subframe beginning at [t] seconds of Galileo system time: week and second of week *)
Definition gst (t : Z) : bits := bitsof 12 (t / 604800) ++ bitsof 20 (t mod 604800).

Section Spec.
Variable C : crypto.
Notation hash := (c_hash C).

(** hash function defined: SHA-256 or SHA3-256 *)
Definition hf_ok (hf : Z) : Prop := hf = 0 \/ hf = 2.
(** one step down the chain: the key of the subframe with time stamp [g] *)
Definition down (hf : Z) (alp : bits) (lk : nat) (k g : bits) : bits := firstn lk (hash hf (k ++ g ++ alp)).
(** the key [n] subframes before the key [k] of the subframe at [t] *)
Fixpoint tesla (hf : Z) (alp : bits) (lk n : nat) (k : bits) (t : Z) : bits :=
  match n with O => k | S m => tesla hf alp lk m (down hf alp lk k (gst (t - 30))) (t - 30) end.

(** ---- DSM-KROOT ---- *)
(** the parameters carried by a DSM-KROOT message [d] *)
Definition params_of (d : bits) : option kpar :=
  let u o n := bval (slice d o n) in
  do lk <- keylen (u 16 4)%nat;
  Some (KP (u 4 4)%nat (u 8 2)%nat (u 12 2)%nat (u 14 2)%nat (u 16 4)%nat (u 20 4)%nat (u 24 8)%nat (u 36 12)%nat (u 48 8)%nat
           (slice d 56 48) (slice d (104 + lk) 512) (slice d 104 lk)).
(** what the signature covers: header and the message from its second byte to the end of the root key *)
Definition signed_part (hdr d : bits) (lk : nat) : bits := hdr ++ slice d 8 (96 + lk).
(** padding: the rest of the message is the beginning of the hash of the signed part and the signature *)
Definition padded (hdr d : bits) : Prop :=
  exists p lk n, params_of d = Some p /\ keylen (k_ks p) = Some lk /\ hf_ok (k_hf p) /\
    n = (104 * Z.to_nat (bval (slice d 0 4) + 6) - 104 - lk - 512)%nat /\
    104 + Z.of_nat lk + 512 <= 104 * (bval (slice d 0 4) + 6) /\
    firstn (length (slice d (616 + lk) n)) (hash (k_hf p) (signed_part hdr d lk ++ k_ds p)) = slice d (616 + lk) n.

(** the signature in the parameters of [s] is right for the message stored under the identifier in use *)
Definition root_signed (s : ost C) : Prop :=
  exists lk pk, keylen (k_ks (o_kp s)) = Some lk /\ hf_ok (k_hf (o_kp s)) /\
    zget (k_pkid (o_kp s)) (o_pk s) = Some pk /\
    c_sig C (k_hf (o_kp s)) pk (k_ds (o_kp s)) (signed_part (o_hdr s) (dsm_of (o_did0 s) s) lk) = Some true.

(** ---- key acceptance as the code does it ---- *)
(** [k] leads to [k'] through keys with the time stamps [gs] *)
Definition leads (hf : Z) (alp : bits) (lk : nat) (gs : list bits) (k k' : bits) : Prop :=
  fold_left (down hf alp lk) gs k = k'.
(** the key of state [s], accepted in the subframe beginning at [t]: it leads in one step to the key that the
    same satellite sent one subframe before ([o_keyp], never verified itself), or in as many steps as there are
    subframes since the root key to the root key; the time stamps of the latter steps are right within one week *)
Definition key_checked (s : ost C) (t : Z) : Prop :=
  exists lk, keylen (k_ks (o_kp s)) = Some lk /\
    ((hf_ok (k_hf (o_kp s)) /\ tesla (k_hf (o_kp s)) (k_alp (o_kp s)) lk 1 (o_key s) t = o_keyp s) \/
     (exists gs, length gs = Z.to_nat ((t - (604800 * k_wn (o_kp s) + 3600 * k_towh (o_kp s))) / 30 + 1) /\
       (gs <> [] -> hf_ok (k_hf (o_kp s))) /\
       leads (k_hf (o_kp s)) (k_alp (o_kp s)) lk gs (o_key s) (k_kroot (o_kp s)) /\
       (30 * Z.of_nat (length gs) <= t mod 604800 + 30 ->
        tesla (k_hf (o_kp s)) (k_alp (o_kp s)) lk (length gs) (o_key s) t = k_kroot (o_kp s)))).

(** key [k] of the subframe at [t] leads to the root key of parameters [p], which lies as many subframes before *)
Definition on_chain (p : kpar) (k : bits) (t : Z) : Prop :=
  exists lk, keylen (k_ks p) = Some lk /\
    tesla (k_hf p) (k_alp p) lk (Z.to_nat ((t - (604800 * k_wn p + 3600 * k_towh p)) / 30 + 1)) k t = k_kroot p.
(** ... of a message signed by one of the public keys [pk] *)
Definition signed_params (pk : dict Z (PK C)) (p : kpar) : Prop :=
  exists d hdr lk pub, params_of d = Some p /\ length hdr = 8%nat /\ keylen (k_ks p) = Some lk /\
    zget (k_pkid p) pk = Some pub /\ c_sig C (k_hf p) pub (k_ds p) (signed_part hdr d lk) = Some true.
Definition authentic (pk : dict Z (PK C)) (k : bits) (t : Z) : Prop := exists p, signed_params pk p /\ on_chain p k t.

(** ---- navigation data ---- *)
(** words received from a satellite, most recent first, with the time of reception *)
Fixpoint words (prn : Z) (h : list event) : list (bits * Z) :=
  match h with
  | [] => []
  | ENav nav p tow :: r => if p =? prn then words prn r ++ [(nav, tow)] else words prn r
  | _ :: r => words prn r
  end.
(** those before the most recent first word of a subframe (second of week 1 modulo 30) *)
Fixpoint older (l : list (bits * Z)) : list (bits * Z) :=
  match l with [] => [] | (_, tow) :: r => if tow mod 30 =? 1 then r else older r end.
(** the most recent word of type [j] *)
Fixpoint latest (j : Z) (l : list (bits * Z)) : bits :=
  match l with [] => repeat false 128 | (w, _) :: r => if bval (slice w 0 6) =? j then w else latest j r end.
(** the word of type [j] as received before the last two beginnings of subframes *)
Definition word (h : list event) (prn j : Z) : bits := latest j (older (older (words prn h))).
(** words 1 to 5 present, with one issue of data *)
Definition words_ok (w : Z -> bits) : Prop :=
  (forall j, 1 <= j <= 5 -> bval (slice (w j) 0 6) = j) /\
  (forall j, 2 <= j <= 4 -> slice (w j) 6 10 = slice (w 1) 6 10).
(** the 549 bits of ephemeris, clock and status *)
Definition nav_data (w : Z -> bits) : bits :=
  slice (w 1) 6 120 ++ slice (w 2) 6 120 ++ slice (w 3) 6 122 ++ slice (w 4) 6 120 ++ slice (w 5) 6 67.
(** whole bytes of a tag of size code [ts] (sizes of 20 and 28 bits are cut) *)
Definition tagbytes (ts : Z) : nat :=
  match ts with 5 => 2%nat | 6 => 3%nat | 7 => 3%nat | 8 => 4%nat | 9 => 5%nat | _ => 0%nat end.
(** message of tag number [ctr] sent by satellite [a] about satellite [d] for the subframe at [t] *)
Definition auth_msg (d a t ctr : Z) (nmas data : bits) : bits :=
  (if d =? a then [] else bitsof 8 d) ++ bitsof 8 a ++ gst t ++ bitsof 8 ctr ++ nmas ++ data ++ [false].
(** a tag of the section [tag] sent by satellite [a] fits the words [w] of satellite [prn], under key [key] *)
Definition tag_ok (kp : kpar) (key hdr tag : bits) (nt a t prn iod : Z) (w : Z -> bits) : Prop :=
  words_ok w /\ bval (slice (w 1) 6 10) = iod /\
  exists k mac, let lb := tagbytes (k_ts kp) in let o := (k * (lb + 2))%nat in
    Z.of_nat k < nt /\
    (k = 0%nat /\ prn = a \/
     k <> 0%nat /\ bval (slice tag (8 * (o + lb)) 8) = prn /\ bval (slice tag (8 * (o + lb) + 8) 4) = 0) /\
    c_mac C (k_mf kp) key (auth_msg prn a t (Z.of_nat k + 1) (firstn 2 hdr) (nav_data w)) = Some mac /\
    firstn (8 * lb) mac = slice tag (8 * o) (8 * lb).

(** calls as a receiver makes them *)
Definition wf_event (e : event) : Prop :=
  match e with
  | ENav nav _ _ => length nav = 128%nat
  | ENma _ _ tow _ _ => 0 <= tow < 604800
  end.
Definition prefix (g h : list event) : Prop := exists r, h = g ++ r.
(** Galileo system time (s) of the subframe in which the page with GPS time (wn, tow) is received *)
Definition subframe_time (wn tow : Z) : Z := ((wn - 1024) * 604800 + tow) / 30 * 30.
Definition ended (e : event) (T : Z) : Prop := match e with ENma _ wn tow _ _ => subframe_time wn tow = T | _ => False end.

(** ---- DSM blocks ---- *)
(** an HKROOT section: header byte, DSM identifier and block number, 13 bytes of the block *)
Definition hk_cid (hk : bits) : Z := bval (slice hk 2 2).
Definition hk_did (hk : bits) : Z := bval (slice hk 8 4).
Definition hk_bid (hk : bits) : Z := bval (slice hk 12 4).
(** NMA status test or operational, and a current key status *)
Definition hk_live (hk : bits) : Prop := (bval (slice hk 0 2) = 1 \/ bval (slice hk 0 2) = 2) /\ bval (slice hk 4 3) <> 0.
(** most recent block [b] of the sections [l] (oldest first) *)
Definition last_block (b : Z) (l : list bits) : option bits :=
  option_map (fun hk => slice hk 16 104) (find (fun hk => hk_bid hk =? b) (rev l)).
(** number of blocks announced by the most recent block 0 *)
Definition announced (l : list bits) : Z := match last_block 0 l with Some x => bval (slice x 0 4) + 6 | None => 0 end.
Definition complete (l : list bits) : Prop := 0 < announced l /\ forall b, 0 <= b < announced l -> last_block b l <> None.
Definition joined (l : list bits) : bits :=
  concat (map (fun b => match last_block (Z.of_nat b) l with Some x => x | None => [] end) (seq 0 (Z.to_nat (announced l)))).

(** ---- DSM-PKR ---- *)
(** length in bits of a public key of type [t] in a message of [nb] blocks (type 4: alert, fills the message) *)
Definition npklen (t : Z) (nb : Z) : option Z :=
  match t with 1 => Some 264 | 3 => Some 536 | 4 => Some (104 * nb - 1040) | _ => None end.
(** up the Merkle tree of depth [n] from node [x] with number [i]: [node j] is the sibling at level [j] *)
Fixpoint climb (hf : Z) (node : nat -> bits) (n j : nat) (i : Z) (x : bits) : bits :=
  match n with
  | O => x
  | S m => climb hf node m (j + 1) (i / 2) (if Z.even i then hash hf (x ++ node j) else hash hf (node j ++ x))
  end.
(** the message [d] carries a public key that is a leaf of the tree with root [root] *)
Definition pkr_ok (hf : Z) (root : bits) (d : bits) (id : Z) (key : PK C) : Prop :=
  exists nb len, nb = bval (slice d 0 4) + 6 /\ 13 <= nb <= 16 /\ npklen (bval (slice d 1032 4)) nb = Some len /\ 0 <= len /\ 1040 + len <= 104 * nb /\
    hf_ok hf /\
    let leaf := slice d 1032 (Z.to_nat (8 + len)) in
    let pad := slice d (Z.to_nat (1040 + len)) (Z.to_nat (104 * nb - 1040 - len)) in
    firstn (length pad) (hash hf (root ++ leaf)) = pad /\
    climb hf (fun j => slice d (8 + 256 * j) 256) 4 0 (bval (slice d 4 4)) (hash hf leaf) = root /\
    id = bval (slice d 1036 4) /\ c_unz C (bval (slice d 1032 4)) (slice d 1040 (Z.to_nat len)) = Some key.

(** ---- MAC look-up tables with six tags per subframe ---- *)
(** kind of a tag: about the satellite itself, about any satellite, or free *)
Inductive kind := Self | Cross | Flex.
(** tags 1 to 5 in the first and the second subframe of a minute *)
Definition lut (m : Z) : option (list (kind * Z) * list (kind * Z)) :=
  match m with
  | 27 => Some ([(Cross, 0); (Cross, 0); (Cross, 0); (Self, 12); (Cross, 0)], [(Cross, 0); (Cross, 0); (Self, 4); (Self, 12); (Cross, 0)])
  | 33 => Some ([(Cross, 0); (Self, 4); (Cross, 0); (Self, 12); (Cross, 0)], [(Cross, 0); (Cross, 0); (Self, 12); (Cross, 0); (Cross, 12)])
  | 34 => Some ([(Flex, 0); (Self, 4); (Flex, 0); (Self, 12); (Cross, 0)], [(Flex, 0); (Cross, 0); (Self, 12); (Cross, 0); (Cross, 12)])
  | 35 => Some ([(Flex, 0); (Self, 4); (Flex, 0); (Self, 12); (Flex, 0)], [(Flex, 0); (Flex, 0); (Self, 12); (Flex, 0); (Flex, 0)])
  | _ => None
  end.
Definition fits (a : Z) (e : kind * Z) (prn adkd : Z) : Prop :=
  match fst e with Self => prn = a /\ adkd = snd e | Cross => adkd = snd e | Flex => True end.
(** satellite number and ADKD of tag [k] of a section with tags of [lb] bytes *)
Definition tag_prn (tag : bits) (lb k : nat) : Z := bval (slice tag (8 * (k * (lb + 2) + lb)) 8).
Definition tag_adkd (tag : bits) (lb k : nat) : Z := bval (slice tag (8 * (k * (lb + 2) + lb) + 8) 4).

(** message of the MACSEQ: the entries of the free tags are signed too *)
Definition macseq_msg (fl : list (kind * Z)) (a t : Z) (tag : bits) (lb : nat) : bits :=
  bitsof 8 a ++ gst t ++
  concat (map (fun k => match fst (nth (k - 1) fl (Cross, 0)) with Flex => slice tag (8 * (k * (lb + 2) + lb)) 16 | _ => [] end) (seq 1 5)).
(** the section [tag] of six tags sent by [a] in the subframe at [t] follows its look-up table and carries the right MACSEQ *)
Definition section_ok (p : kpar) (key tag : bits) (a t : Z) : Prop :=
  exists f1 f2 mac, let fl := if t mod 60 =? 0 then f1 else f2 in let lb := tagbytes (k_ts p) in
    lut (k_maclt p) = Some (f1, f2) /\
    (forall k, (1 <= k <= 5)%nat -> fits a (nth (k - 1) fl (Flex, 0)) (tag_prn tag lb k) (tag_adkd tag lb k)) /\
    c_mac C (k_mf p) key (macseq_msg fl a t tag lb) = Some mac /\ firstn 12 mac = slice tag (8 * lb) 12.

(** ---- pages ---- *)
(** pages received from satellite [p], most recent first: number in the subframe, time of the subframe, content *)
Fixpoint pages_of (p : nat) (h : list event) : list (nat * Z * bits) :=
  match h with
  | [] => []
  | ENma nma wn tow q _ :: r => if (q =? p)%nat then pages_of p r ++ [(Z.to_nat (tow mod 30 / 2), subframe_time wn tow, nma)] else pages_of p r
  | _ :: r => pages_of p r
  end.
(** those since the last first page of a subframe, including it *)
Fixpoint current (l : list (nat * Z * bits)) : list (nat * Z * bits) :=
  match l with [] => [] | x :: r => if (fst (fst x) =? 0)%nat then [x] else x :: current r end.
Definition last_page (k : nat) (l : list (nat * Z * bits)) : option (nat * Z * bits) := find (fun x => (fst (fst x) =? k)%nat) l.
(** HKROOT and MACK section made of the pages 0 to 14 of [l] *)
Definition hk_of (l : list (nat * Z * bits)) : bits :=
  concat (map (fun k => match last_page k l with Some x => slice (snd x) 0 8 | None => [] end) (seq 0 15)).
Definition mack_of (l : list (nat * Z * bits)) : bits :=
  concat (map (fun k => match last_page k l with Some x => slice (snd x) 8 32 | None => [] end) (seq 0 15)).
Definition wf_page (e : event) : Prop :=
  match e with
  | ENav _ _ _ => True
  | ENma nma wn tow p _ => length nma = 40%nat /\ (1 <= p <= 36)%nat /\ 1024 <= wn < 5120 /\ 0 <= tow < 604800
  end.

(** executions: DSM [d] on chain [c] is being received, with the HKROOT sections [l] (oldest first) since the beginning or
    since it was last reported; sections of other DSMs, and methods other than decode_hk, may come in between *)
Inductive receiving (c d : Z) : list bits -> ost C -> Prop :=
| R_new s : zget d (o_dsm s) = None -> o_cid0 s < 0 -> receiving c d [] s
| R_other l s hk s' r : receiving c d l s -> length hk = 120%nat -> decode_hk hk s = (s', r) ->
    (hk_live hk -> hk_cid hk = c /\ hk_did hk <> d) -> receiving c d l s'
| R_block l s hk s' r : receiving c d l s -> length hk = 120%nat -> hk_live hk -> hk_cid hk = c -> hk_did hk = d ->
    decode_hk hk s = (s', r) -> receiving c d (match r with Some true => [] | _ => l ++ [hk] end) s'
| R_rest l s s' : receiving c d l s -> o_dsm s' = o_dsm s -> o_cid0 s' = o_cid0 s -> receiving c d l s'.
(** what is checked of a complete DSM-KROOT (identifiers 0 to 11) or DSM-PKR *)
Definition dsm_ok (d : Z) (hdr m : bits) (s : ost C) : Prop :=
  if d <=? 11 then padded hdr m else exists root id key, o_root s = Some root /\ pkr_ok (k_hf (o_kp s)) root m id key.
End Spec.
