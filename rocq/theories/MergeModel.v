(** cssr.merge_cssr.  /repo/src/cssrlib/cssrlib.py: 219-261, 263-332, 1425-1478.

    [V] stands for the correction values, which are copied and never read.  [None] as a result = an exception; a dictionary [None] is an
    attribute that is None or missing.  Left out: gnss_n, nsat_n and nsat_g of the object, which only count; and its dictionaries dclk, dorb, iode, cbias,
    pbias, ura, which are the empty lists of lines 289-297 for ever (but for ura of cssr_bds.py), so that the tests of lines 1440-1451 fail. *)
From Verif Require Export CssrState.
Open Scope Z_scope.

Inductive fld := FClk | FIode | FOrb | FUra | FCb | FPb | FSq | FCi | FDst.
Definition fld_eqb (a b : fld) : bool :=
  match a, b with FClk, FClk | FIode, FIode | FOrb, FOrb | FUra, FUra | FCb, FCb | FPb, FPb | FSq, FSq | FCi, FCi | FDst, FDst => true | _, _ => false end.
(** the dictionaries of a local_corr object *)
Definition dicts (V : Type) : Type := fld -> option (dict Z V).
(** sat_n, nsat_n (missing until a message has set it) *)
Record loc (V : Type) := LOC { l_sats : list Z; l_nsat : option Z; l_d : dicts V }.
Arguments LOC {V}. Arguments l_sats {V}. Arguments l_nsat {V}. Arguments l_d {V}.
Definition mem (x : Z) (l : list Z) : bool := existsb (Z.eqb x) l.
(** x[sat] = o[sat] for the dictionaries [fs] *)
Fixpoint copyl {V} (o : dicts V) (sat : Z) (fs : list fld) (s : dicts V) : option (dicts V) :=
  match fs with
  | [] => Some s
  | f :: fs =>
      do d <- o f; do v <- zget sat d; do t <- s f;
      copyl o sat fs (fun g => if fld_eqb g f then Some (zset sat v t) else s g)
  end.
(** if sat in the first dictionary of the group: copy *)
Fixpoint groups {V} (o : dicts V) (sat : Z) (gs : list (fld * list fld)) (s : dicts V) : option (dicts V) :=
  match gs with
  | [] => Some s
  | (f, fs) :: gs =>
      do d <- o f;
      do s <- match zget sat d with Some _ => copyl o sat fs s | None => Some s end;
      groups o sat gs s
  end.
(** cssrlib.py:1460-1476 *)
Definition merge_groups : list (fld * list fld) :=
  [(FClk, [FClk]); (FOrb, [FIode; FOrb]); (FUra, [FUra]); (FCb, [FCb]); (FPb, [FPb]); (FSq, [FSq; FCi; FDst])].
(** cssrlib.py:1457-1476 *)
Fixpoint merge_sats {V} (o : loc V) (sats : list Z) (s : loc V) : option (loc V) :=
  match sats with
  | [] => Some s
  | sat :: sats =>
      do n <- l_nsat s;
      do d <- groups (l_d o) sat merge_groups (l_d s);
      merge_sats o sats (LOC (l_sats s ++ [sat]) (Some (n + 1)) d)
  end.
(** cssrlib.py:1454-1476 for one network *)
Definition merge_net {V} (o s : loc V) : option (loc V) := merge_sats o (filter (fun x => negb (mem x (l_sats s))) (l_sats o)) s.
(** facility, sat_n, sig_n, lc *)
Record cs (V G : Type) := CS { m_fac : Z; m_sats : list Z; m_sig : dict Z G; m_lc : list (loc V) }.
Arguments CS {V G}. Arguments m_fac {V G}. Arguments m_sats {V G}. Arguments m_sig {V G}. Arguments m_lc {V G}.
(** cssrlib.py:1431-1439 *)
Fixpoint merge_sis {G} (og : dict Z G) (sats : list Z) (l : list Z) (g : dict Z G) : option (list Z * dict Z G) :=
  match sats with [] => Some (l, g) | sat :: sats => do v <- zget sat og; merge_sis og sats (l ++ [sat]) (zset sat v g) end.
Fixpoint merge_nets {V} (os ss : list (loc V)) : option (list (loc V)) :=
  match os, ss with
  | _, [] => Some []
  | [], _ => None
  | o :: os, s :: ss => do s <- merge_net o s; do r <- merge_nets os ss; Some (s :: r)
  end.
(** cssrlib.py:1425-1478 merge_cssr: value returned, object afterwards *)
Definition merge_cssr {V G} (o s : cs V G) : option (bool * cs V G) :=
  if negb (m_fac s =? m_fac o) then Some (false, s) else
  do (l, g) <- merge_sis (m_sig o) (filter (fun x => negb (mem x (m_sats s))) (m_sats o)) (m_sats s) (m_sig s);
  do r <- merge_nets (m_lc o) (m_lc s);
  Some (true, CS (m_fac s) l g r).
