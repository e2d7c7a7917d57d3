(** State of the compact-SSR decoder: dictionaries, [local_corr] (cssrlib.py:218-260) and the
    attributes of class [cssr] (cssrlib.py:262-361) used by its decoding methods.

    Modelled per attribute; simplified:
    - physical values are integer mantissas ([None] = NaN), see Base/BitModel;
    - qualities are kept as the transmitted (class, value) pair; their value in metres is
      [QualModel.quality_idx];
    - mapping-function parameters [maph]/[mapw] (mapfParam) are not modelled, nor is logging;
    - the array [lc] has 33 entries and is only indexed with 5-bit network numbers, the arrays
      [udi], [iodssr_c], [nsat_g], [nm_idx] have 16 entries and are only indexed with 4-bit
      constellation numbers or correction types, so an index error cannot occur there: item
      assignment is the total function [upd].
    Records and field setters below are mechanical. *)
From Verif Require Export Base BitModel SatModel SigModel TimeModel.
Open Scope Z_scope.

(* ---------- Python dict: insertion ordered association list ---------- *)
Definition dict (K V : Type) := list (K * V).
Section Dict.
Context {K V : Type} (eqb : K -> K -> bool).
Fixpoint dget (k : K) (d : dict K V) : option V :=
  match d with [] => None | (a, v) :: r => if eqb a k then Some v else dget k r end.
Fixpoint dset (k : K) (v : V) (d : dict K V) : dict K V :=
  match d with
  | [] => [(k, v)]
  | (a, w) :: r => if eqb a k then (a, v) :: r else (a, w) :: dset k v r
  end.
End Dict.
Definition zget {V} := @dget Z V Z.eqb.
Definition zset {V} := @dset Z V Z.eqb.
(** rSigRnx.__eq__/__hash__ (gnss.py:417-426): same system, type and signal *)
Definition rsig_eqb (a b : rsig) : bool :=
  gnss_eqb (rsys a) (rsys b) && typ_eqb (rtyp a) (rtyp b) && (rnum a =? rnum b).
Definition rget {V} := @dget rsig V rsig_eqb.
Definition rset {V} := @dset rsig V rsig_eqb.
(** item assignment on an attribute that may still be Python's None; the decoder always assigns
    [{}] first, so the [None] case does not occur in the modelled code *)
Definition ozset {V} (k : Z) (v : V) (d : option (dict Z V)) : option (dict Z V) :=
  option_map (zset k v) d.

(** item assignment on an array, [l[n] = f(l[n])] *)
Fixpoint upd {A} (n : nat) (f : A -> A) (l : list A) : list A :=
  match l, n with
  | [], _ => []
  | a :: r, O => f a :: r
  | a :: r, S m => a :: upd m f r
  end.

Definition orb3 := (option Z * option Z * option Z)%type.
(** troposphere coefficients [ct]: [ct[0,0..3]] as mantissas (for [ct[0,0]] after subtracting the
    constant 2.3, [None] inside = NaN; outer [None] = untouched zero) and [ct[1,0]] in units of 0.02
    ([CtStd] = the constants 2.3/0.252 of cssrlib.py:943-944) *)
Inductive ctrop :=
| CtStd
| CtVal (fn : option (option Z * option Z * option Z * option Z)) (ofst : Z).

Record lcr := LC {
  l_dorb : option (dict Z orb3);
  l_iode : option (dict Z Z);
  l_dclk : option (dict Z (option Z));
  l_cbias : dict Z (dict rsig (option Z));
  l_pbias : dict Z (dict rsig (option Z));
  l_di : dict Z (dict rsig Z);
  l_ura : option (dict Z (Z * Z));
  l_sat_n : list Z;
  l_nsat_n : Z;
  l_netmask : Z;
  l_svmask : Z;
  l_stec_q : dict Z (Z * Z);
  l_ci : option (dict Z (list (option Z)));
  l_stype : dict Z Z;
  l_dstec : dict Z (dict Z (option Z));
  l_s_sz : dict Z Z;
  l_ng : Z;
  l_flg_trop : Z;
  l_flg_stec : Z;
  l_trop_q : option (Z * Z);
  l_ct : option ctrop;
  l_dth : option (list (option Z));
  l_dtw : option (list (option Z));
  l_t0 : dict Z (dict Z gtime);
  l_cstat : Z }.
Definition set_l_dorb (v : option (dict Z orb3)) (s : lcr) : lcr := LC v (l_iode s) (l_dclk s) (l_cbias s) (l_pbias s) (l_di s) (l_ura s) (l_sat_n s) (l_nsat_n s) (l_netmask s) (l_svmask s) (l_stec_q s) (l_ci s) (l_stype s) (l_dstec s) (l_s_sz s) (l_ng s) (l_flg_trop s) (l_flg_stec s) (l_trop_q s) (l_ct s) (l_dth s) (l_dtw s) (l_t0 s) (l_cstat s).
Definition set_l_iode (v : option (dict Z Z)) (s : lcr) : lcr := LC (l_dorb s) v (l_dclk s) (l_cbias s) (l_pbias s) (l_di s) (l_ura s) (l_sat_n s) (l_nsat_n s) (l_netmask s) (l_svmask s) (l_stec_q s) (l_ci s) (l_stype s) (l_dstec s) (l_s_sz s) (l_ng s) (l_flg_trop s) (l_flg_stec s) (l_trop_q s) (l_ct s) (l_dth s) (l_dtw s) (l_t0 s) (l_cstat s).
Definition set_l_dclk (v : option (dict Z (option Z))) (s : lcr) : lcr := LC (l_dorb s) (l_iode s) v (l_cbias s) (l_pbias s) (l_di s) (l_ura s) (l_sat_n s) (l_nsat_n s) (l_netmask s) (l_svmask s) (l_stec_q s) (l_ci s) (l_stype s) (l_dstec s) (l_s_sz s) (l_ng s) (l_flg_trop s) (l_flg_stec s) (l_trop_q s) (l_ct s) (l_dth s) (l_dtw s) (l_t0 s) (l_cstat s).
Definition set_l_cbias (v : dict Z (dict rsig (option Z))) (s : lcr) : lcr := LC (l_dorb s) (l_iode s) (l_dclk s) v (l_pbias s) (l_di s) (l_ura s) (l_sat_n s) (l_nsat_n s) (l_netmask s) (l_svmask s) (l_stec_q s) (l_ci s) (l_stype s) (l_dstec s) (l_s_sz s) (l_ng s) (l_flg_trop s) (l_flg_stec s) (l_trop_q s) (l_ct s) (l_dth s) (l_dtw s) (l_t0 s) (l_cstat s).
Definition set_l_pbias (v : dict Z (dict rsig (option Z))) (s : lcr) : lcr := LC (l_dorb s) (l_iode s) (l_dclk s) (l_cbias s) v (l_di s) (l_ura s) (l_sat_n s) (l_nsat_n s) (l_netmask s) (l_svmask s) (l_stec_q s) (l_ci s) (l_stype s) (l_dstec s) (l_s_sz s) (l_ng s) (l_flg_trop s) (l_flg_stec s) (l_trop_q s) (l_ct s) (l_dth s) (l_dtw s) (l_t0 s) (l_cstat s).
Definition set_l_di (v : dict Z (dict rsig Z)) (s : lcr) : lcr := LC (l_dorb s) (l_iode s) (l_dclk s) (l_cbias s) (l_pbias s) v (l_ura s) (l_sat_n s) (l_nsat_n s) (l_netmask s) (l_svmask s) (l_stec_q s) (l_ci s) (l_stype s) (l_dstec s) (l_s_sz s) (l_ng s) (l_flg_trop s) (l_flg_stec s) (l_trop_q s) (l_ct s) (l_dth s) (l_dtw s) (l_t0 s) (l_cstat s).
Definition set_l_ura (v : option (dict Z (Z * Z))) (s : lcr) : lcr := LC (l_dorb s) (l_iode s) (l_dclk s) (l_cbias s) (l_pbias s) (l_di s) v (l_sat_n s) (l_nsat_n s) (l_netmask s) (l_svmask s) (l_stec_q s) (l_ci s) (l_stype s) (l_dstec s) (l_s_sz s) (l_ng s) (l_flg_trop s) (l_flg_stec s) (l_trop_q s) (l_ct s) (l_dth s) (l_dtw s) (l_t0 s) (l_cstat s).
Definition set_l_sat_n (v : list Z) (s : lcr) : lcr := LC (l_dorb s) (l_iode s) (l_dclk s) (l_cbias s) (l_pbias s) (l_di s) (l_ura s) v (l_nsat_n s) (l_netmask s) (l_svmask s) (l_stec_q s) (l_ci s) (l_stype s) (l_dstec s) (l_s_sz s) (l_ng s) (l_flg_trop s) (l_flg_stec s) (l_trop_q s) (l_ct s) (l_dth s) (l_dtw s) (l_t0 s) (l_cstat s).
Definition set_l_nsat_n (v : Z) (s : lcr) : lcr := LC (l_dorb s) (l_iode s) (l_dclk s) (l_cbias s) (l_pbias s) (l_di s) (l_ura s) (l_sat_n s) v (l_netmask s) (l_svmask s) (l_stec_q s) (l_ci s) (l_stype s) (l_dstec s) (l_s_sz s) (l_ng s) (l_flg_trop s) (l_flg_stec s) (l_trop_q s) (l_ct s) (l_dth s) (l_dtw s) (l_t0 s) (l_cstat s).
Definition set_l_netmask (v : Z) (s : lcr) : lcr := LC (l_dorb s) (l_iode s) (l_dclk s) (l_cbias s) (l_pbias s) (l_di s) (l_ura s) (l_sat_n s) (l_nsat_n s) v (l_svmask s) (l_stec_q s) (l_ci s) (l_stype s) (l_dstec s) (l_s_sz s) (l_ng s) (l_flg_trop s) (l_flg_stec s) (l_trop_q s) (l_ct s) (l_dth s) (l_dtw s) (l_t0 s) (l_cstat s).
Definition set_l_svmask (v : Z) (s : lcr) : lcr := LC (l_dorb s) (l_iode s) (l_dclk s) (l_cbias s) (l_pbias s) (l_di s) (l_ura s) (l_sat_n s) (l_nsat_n s) (l_netmask s) v (l_stec_q s) (l_ci s) (l_stype s) (l_dstec s) (l_s_sz s) (l_ng s) (l_flg_trop s) (l_flg_stec s) (l_trop_q s) (l_ct s) (l_dth s) (l_dtw s) (l_t0 s) (l_cstat s).
Definition set_l_stec_q (v : dict Z (Z * Z)) (s : lcr) : lcr := LC (l_dorb s) (l_iode s) (l_dclk s) (l_cbias s) (l_pbias s) (l_di s) (l_ura s) (l_sat_n s) (l_nsat_n s) (l_netmask s) (l_svmask s) v (l_ci s) (l_stype s) (l_dstec s) (l_s_sz s) (l_ng s) (l_flg_trop s) (l_flg_stec s) (l_trop_q s) (l_ct s) (l_dth s) (l_dtw s) (l_t0 s) (l_cstat s).
Definition set_l_ci (v : option (dict Z (list (option Z)))) (s : lcr) : lcr := LC (l_dorb s) (l_iode s) (l_dclk s) (l_cbias s) (l_pbias s) (l_di s) (l_ura s) (l_sat_n s) (l_nsat_n s) (l_netmask s) (l_svmask s) (l_stec_q s) v (l_stype s) (l_dstec s) (l_s_sz s) (l_ng s) (l_flg_trop s) (l_flg_stec s) (l_trop_q s) (l_ct s) (l_dth s) (l_dtw s) (l_t0 s) (l_cstat s).
Definition set_l_stype (v : dict Z Z) (s : lcr) : lcr := LC (l_dorb s) (l_iode s) (l_dclk s) (l_cbias s) (l_pbias s) (l_di s) (l_ura s) (l_sat_n s) (l_nsat_n s) (l_netmask s) (l_svmask s) (l_stec_q s) (l_ci s) v (l_dstec s) (l_s_sz s) (l_ng s) (l_flg_trop s) (l_flg_stec s) (l_trop_q s) (l_ct s) (l_dth s) (l_dtw s) (l_t0 s) (l_cstat s).
Definition set_l_dstec (v : dict Z (dict Z (option Z))) (s : lcr) : lcr := LC (l_dorb s) (l_iode s) (l_dclk s) (l_cbias s) (l_pbias s) (l_di s) (l_ura s) (l_sat_n s) (l_nsat_n s) (l_netmask s) (l_svmask s) (l_stec_q s) (l_ci s) (l_stype s) v (l_s_sz s) (l_ng s) (l_flg_trop s) (l_flg_stec s) (l_trop_q s) (l_ct s) (l_dth s) (l_dtw s) (l_t0 s) (l_cstat s).
Definition set_l_s_sz (v : dict Z Z) (s : lcr) : lcr := LC (l_dorb s) (l_iode s) (l_dclk s) (l_cbias s) (l_pbias s) (l_di s) (l_ura s) (l_sat_n s) (l_nsat_n s) (l_netmask s) (l_svmask s) (l_stec_q s) (l_ci s) (l_stype s) (l_dstec s) v (l_ng s) (l_flg_trop s) (l_flg_stec s) (l_trop_q s) (l_ct s) (l_dth s) (l_dtw s) (l_t0 s) (l_cstat s).
Definition set_l_ng (v : Z) (s : lcr) : lcr := LC (l_dorb s) (l_iode s) (l_dclk s) (l_cbias s) (l_pbias s) (l_di s) (l_ura s) (l_sat_n s) (l_nsat_n s) (l_netmask s) (l_svmask s) (l_stec_q s) (l_ci s) (l_stype s) (l_dstec s) (l_s_sz s) v (l_flg_trop s) (l_flg_stec s) (l_trop_q s) (l_ct s) (l_dth s) (l_dtw s) (l_t0 s) (l_cstat s).
Definition set_l_flg_trop (v : Z) (s : lcr) : lcr := LC (l_dorb s) (l_iode s) (l_dclk s) (l_cbias s) (l_pbias s) (l_di s) (l_ura s) (l_sat_n s) (l_nsat_n s) (l_netmask s) (l_svmask s) (l_stec_q s) (l_ci s) (l_stype s) (l_dstec s) (l_s_sz s) (l_ng s) v (l_flg_stec s) (l_trop_q s) (l_ct s) (l_dth s) (l_dtw s) (l_t0 s) (l_cstat s).
Definition set_l_flg_stec (v : Z) (s : lcr) : lcr := LC (l_dorb s) (l_iode s) (l_dclk s) (l_cbias s) (l_pbias s) (l_di s) (l_ura s) (l_sat_n s) (l_nsat_n s) (l_netmask s) (l_svmask s) (l_stec_q s) (l_ci s) (l_stype s) (l_dstec s) (l_s_sz s) (l_ng s) (l_flg_trop s) v (l_trop_q s) (l_ct s) (l_dth s) (l_dtw s) (l_t0 s) (l_cstat s).
Definition set_l_trop_q (v : option (Z * Z)) (s : lcr) : lcr := LC (l_dorb s) (l_iode s) (l_dclk s) (l_cbias s) (l_pbias s) (l_di s) (l_ura s) (l_sat_n s) (l_nsat_n s) (l_netmask s) (l_svmask s) (l_stec_q s) (l_ci s) (l_stype s) (l_dstec s) (l_s_sz s) (l_ng s) (l_flg_trop s) (l_flg_stec s) v (l_ct s) (l_dth s) (l_dtw s) (l_t0 s) (l_cstat s).
Definition set_l_ct (v : option ctrop) (s : lcr) : lcr := LC (l_dorb s) (l_iode s) (l_dclk s) (l_cbias s) (l_pbias s) (l_di s) (l_ura s) (l_sat_n s) (l_nsat_n s) (l_netmask s) (l_svmask s) (l_stec_q s) (l_ci s) (l_stype s) (l_dstec s) (l_s_sz s) (l_ng s) (l_flg_trop s) (l_flg_stec s) (l_trop_q s) v (l_dth s) (l_dtw s) (l_t0 s) (l_cstat s).
Definition set_l_dth (v : option (list (option Z))) (s : lcr) : lcr := LC (l_dorb s) (l_iode s) (l_dclk s) (l_cbias s) (l_pbias s) (l_di s) (l_ura s) (l_sat_n s) (l_nsat_n s) (l_netmask s) (l_svmask s) (l_stec_q s) (l_ci s) (l_stype s) (l_dstec s) (l_s_sz s) (l_ng s) (l_flg_trop s) (l_flg_stec s) (l_trop_q s) (l_ct s) v (l_dtw s) (l_t0 s) (l_cstat s).
Definition set_l_dtw (v : option (list (option Z))) (s : lcr) : lcr := LC (l_dorb s) (l_iode s) (l_dclk s) (l_cbias s) (l_pbias s) (l_di s) (l_ura s) (l_sat_n s) (l_nsat_n s) (l_netmask s) (l_svmask s) (l_stec_q s) (l_ci s) (l_stype s) (l_dstec s) (l_s_sz s) (l_ng s) (l_flg_trop s) (l_flg_stec s) (l_trop_q s) (l_ct s) (l_dth s) v (l_t0 s) (l_cstat s).
Definition set_l_t0 (v : dict Z (dict Z gtime)) (s : lcr) : lcr := LC (l_dorb s) (l_iode s) (l_dclk s) (l_cbias s) (l_pbias s) (l_di s) (l_ura s) (l_sat_n s) (l_nsat_n s) (l_netmask s) (l_svmask s) (l_stec_q s) (l_ci s) (l_stype s) (l_dstec s) (l_s_sz s) (l_ng s) (l_flg_trop s) (l_flg_stec s) (l_trop_q s) (l_ct s) (l_dth s) (l_dtw s) v (l_cstat s).
Definition set_l_cstat (v : Z) (s : lcr) : lcr := LC (l_dorb s) (l_iode s) (l_dclk s) (l_cbias s) (l_pbias s) (l_di s) (l_ura s) (l_sat_n s) (l_nsat_n s) (l_netmask s) (l_svmask s) (l_stec_q s) (l_ci s) (l_stype s) (l_dstec s) (l_s_sz s) (l_ng s) (l_flg_trop s) (l_flg_stec s) (l_trop_q s) (l_ct s) (l_dth s) (l_dtw s) (l_t0 s) v.

Definition lc_init : lcr :=
  LC None None None [] [] [] None [] 0 0 0 [] None [] [] [] 0 0 0 None None None None [] 0.

Record cst := CS {
  s_week : Z;
  s_tow0 : Z;
  s_tow : Z;
  s_time : gtime;
  s_toh : Z;
  s_subtype : Z;
  s_iodssr : Z;
  s_iodssr_p : Z;
  s_sat_n_p : list Z;
  s_sig_n_p : dict Z (list rsig);
  s_ngnss : nat;
  s_gnss_idx : list gnss;
  s_nsat_g : list Z;
  s_nm_idx : list Z;
  s_dcm : dict gnss Z;
  s_nsat_n : nat;
  s_sys_n : list gnss;
  s_gnss_n : list Z;
  s_sat_n : list Z;
  s_nsig_n : list nat;
  s_nsig_total : Z;
  s_nsig_max : Z;
  s_sig_n : dict Z (list rsig);
  s_flg_net : bool;
  s_inet : Z;
  s_inet_ref : Z;
  s_local_pbias : bool;
  s_udi : list Z;
  s_iodssr_c : list Z;
  s_sinfo : bits;
  s_grid : option (list Z);
  s_lc : list lcr }.
Definition set_s_week (v : Z) (s : cst) : cst := CS v (s_tow0 s) (s_tow s) (s_time s) (s_toh s) (s_subtype s) (s_iodssr s) (s_iodssr_p s) (s_sat_n_p s) (s_sig_n_p s) (s_ngnss s) (s_gnss_idx s) (s_nsat_g s) (s_nm_idx s) (s_dcm s) (s_nsat_n s) (s_sys_n s) (s_gnss_n s) (s_sat_n s) (s_nsig_n s) (s_nsig_total s) (s_nsig_max s) (s_sig_n s) (s_flg_net s) (s_inet s) (s_inet_ref s) (s_local_pbias s) (s_udi s) (s_iodssr_c s) (s_sinfo s) (s_grid s) (s_lc s).
Definition set_s_tow0 (v : Z) (s : cst) : cst := CS (s_week s) v (s_tow s) (s_time s) (s_toh s) (s_subtype s) (s_iodssr s) (s_iodssr_p s) (s_sat_n_p s) (s_sig_n_p s) (s_ngnss s) (s_gnss_idx s) (s_nsat_g s) (s_nm_idx s) (s_dcm s) (s_nsat_n s) (s_sys_n s) (s_gnss_n s) (s_sat_n s) (s_nsig_n s) (s_nsig_total s) (s_nsig_max s) (s_sig_n s) (s_flg_net s) (s_inet s) (s_inet_ref s) (s_local_pbias s) (s_udi s) (s_iodssr_c s) (s_sinfo s) (s_grid s) (s_lc s).
Definition set_s_tow (v : Z) (s : cst) : cst := CS (s_week s) (s_tow0 s) v (s_time s) (s_toh s) (s_subtype s) (s_iodssr s) (s_iodssr_p s) (s_sat_n_p s) (s_sig_n_p s) (s_ngnss s) (s_gnss_idx s) (s_nsat_g s) (s_nm_idx s) (s_dcm s) (s_nsat_n s) (s_sys_n s) (s_gnss_n s) (s_sat_n s) (s_nsig_n s) (s_nsig_total s) (s_nsig_max s) (s_sig_n s) (s_flg_net s) (s_inet s) (s_inet_ref s) (s_local_pbias s) (s_udi s) (s_iodssr_c s) (s_sinfo s) (s_grid s) (s_lc s).
Definition set_s_time (v : gtime) (s : cst) : cst := CS (s_week s) (s_tow0 s) (s_tow s) v (s_toh s) (s_subtype s) (s_iodssr s) (s_iodssr_p s) (s_sat_n_p s) (s_sig_n_p s) (s_ngnss s) (s_gnss_idx s) (s_nsat_g s) (s_nm_idx s) (s_dcm s) (s_nsat_n s) (s_sys_n s) (s_gnss_n s) (s_sat_n s) (s_nsig_n s) (s_nsig_total s) (s_nsig_max s) (s_sig_n s) (s_flg_net s) (s_inet s) (s_inet_ref s) (s_local_pbias s) (s_udi s) (s_iodssr_c s) (s_sinfo s) (s_grid s) (s_lc s).
Definition set_s_toh (v : Z) (s : cst) : cst := CS (s_week s) (s_tow0 s) (s_tow s) (s_time s) v (s_subtype s) (s_iodssr s) (s_iodssr_p s) (s_sat_n_p s) (s_sig_n_p s) (s_ngnss s) (s_gnss_idx s) (s_nsat_g s) (s_nm_idx s) (s_dcm s) (s_nsat_n s) (s_sys_n s) (s_gnss_n s) (s_sat_n s) (s_nsig_n s) (s_nsig_total s) (s_nsig_max s) (s_sig_n s) (s_flg_net s) (s_inet s) (s_inet_ref s) (s_local_pbias s) (s_udi s) (s_iodssr_c s) (s_sinfo s) (s_grid s) (s_lc s).
Definition set_s_subtype (v : Z) (s : cst) : cst := CS (s_week s) (s_tow0 s) (s_tow s) (s_time s) (s_toh s) v (s_iodssr s) (s_iodssr_p s) (s_sat_n_p s) (s_sig_n_p s) (s_ngnss s) (s_gnss_idx s) (s_nsat_g s) (s_nm_idx s) (s_dcm s) (s_nsat_n s) (s_sys_n s) (s_gnss_n s) (s_sat_n s) (s_nsig_n s) (s_nsig_total s) (s_nsig_max s) (s_sig_n s) (s_flg_net s) (s_inet s) (s_inet_ref s) (s_local_pbias s) (s_udi s) (s_iodssr_c s) (s_sinfo s) (s_grid s) (s_lc s).
Definition set_s_iodssr (v : Z) (s : cst) : cst := CS (s_week s) (s_tow0 s) (s_tow s) (s_time s) (s_toh s) (s_subtype s) v (s_iodssr_p s) (s_sat_n_p s) (s_sig_n_p s) (s_ngnss s) (s_gnss_idx s) (s_nsat_g s) (s_nm_idx s) (s_dcm s) (s_nsat_n s) (s_sys_n s) (s_gnss_n s) (s_sat_n s) (s_nsig_n s) (s_nsig_total s) (s_nsig_max s) (s_sig_n s) (s_flg_net s) (s_inet s) (s_inet_ref s) (s_local_pbias s) (s_udi s) (s_iodssr_c s) (s_sinfo s) (s_grid s) (s_lc s).
Definition set_s_iodssr_p (v : Z) (s : cst) : cst := CS (s_week s) (s_tow0 s) (s_tow s) (s_time s) (s_toh s) (s_subtype s) (s_iodssr s) v (s_sat_n_p s) (s_sig_n_p s) (s_ngnss s) (s_gnss_idx s) (s_nsat_g s) (s_nm_idx s) (s_dcm s) (s_nsat_n s) (s_sys_n s) (s_gnss_n s) (s_sat_n s) (s_nsig_n s) (s_nsig_total s) (s_nsig_max s) (s_sig_n s) (s_flg_net s) (s_inet s) (s_inet_ref s) (s_local_pbias s) (s_udi s) (s_iodssr_c s) (s_sinfo s) (s_grid s) (s_lc s).
Definition set_s_sat_n_p (v : list Z) (s : cst) : cst := CS (s_week s) (s_tow0 s) (s_tow s) (s_time s) (s_toh s) (s_subtype s) (s_iodssr s) (s_iodssr_p s) v (s_sig_n_p s) (s_ngnss s) (s_gnss_idx s) (s_nsat_g s) (s_nm_idx s) (s_dcm s) (s_nsat_n s) (s_sys_n s) (s_gnss_n s) (s_sat_n s) (s_nsig_n s) (s_nsig_total s) (s_nsig_max s) (s_sig_n s) (s_flg_net s) (s_inet s) (s_inet_ref s) (s_local_pbias s) (s_udi s) (s_iodssr_c s) (s_sinfo s) (s_grid s) (s_lc s).
Definition set_s_sig_n_p (v : dict Z (list rsig)) (s : cst) : cst := CS (s_week s) (s_tow0 s) (s_tow s) (s_time s) (s_toh s) (s_subtype s) (s_iodssr s) (s_iodssr_p s) (s_sat_n_p s) v (s_ngnss s) (s_gnss_idx s) (s_nsat_g s) (s_nm_idx s) (s_dcm s) (s_nsat_n s) (s_sys_n s) (s_gnss_n s) (s_sat_n s) (s_nsig_n s) (s_nsig_total s) (s_nsig_max s) (s_sig_n s) (s_flg_net s) (s_inet s) (s_inet_ref s) (s_local_pbias s) (s_udi s) (s_iodssr_c s) (s_sinfo s) (s_grid s) (s_lc s).
Definition set_s_ngnss (v : nat) (s : cst) : cst := CS (s_week s) (s_tow0 s) (s_tow s) (s_time s) (s_toh s) (s_subtype s) (s_iodssr s) (s_iodssr_p s) (s_sat_n_p s) (s_sig_n_p s) v (s_gnss_idx s) (s_nsat_g s) (s_nm_idx s) (s_dcm s) (s_nsat_n s) (s_sys_n s) (s_gnss_n s) (s_sat_n s) (s_nsig_n s) (s_nsig_total s) (s_nsig_max s) (s_sig_n s) (s_flg_net s) (s_inet s) (s_inet_ref s) (s_local_pbias s) (s_udi s) (s_iodssr_c s) (s_sinfo s) (s_grid s) (s_lc s).
Definition set_s_gnss_idx (v : list gnss) (s : cst) : cst := CS (s_week s) (s_tow0 s) (s_tow s) (s_time s) (s_toh s) (s_subtype s) (s_iodssr s) (s_iodssr_p s) (s_sat_n_p s) (s_sig_n_p s) (s_ngnss s) v (s_nsat_g s) (s_nm_idx s) (s_dcm s) (s_nsat_n s) (s_sys_n s) (s_gnss_n s) (s_sat_n s) (s_nsig_n s) (s_nsig_total s) (s_nsig_max s) (s_sig_n s) (s_flg_net s) (s_inet s) (s_inet_ref s) (s_local_pbias s) (s_udi s) (s_iodssr_c s) (s_sinfo s) (s_grid s) (s_lc s).
Definition set_s_nsat_g (v : list Z) (s : cst) : cst := CS (s_week s) (s_tow0 s) (s_tow s) (s_time s) (s_toh s) (s_subtype s) (s_iodssr s) (s_iodssr_p s) (s_sat_n_p s) (s_sig_n_p s) (s_ngnss s) (s_gnss_idx s) v (s_nm_idx s) (s_dcm s) (s_nsat_n s) (s_sys_n s) (s_gnss_n s) (s_sat_n s) (s_nsig_n s) (s_nsig_total s) (s_nsig_max s) (s_sig_n s) (s_flg_net s) (s_inet s) (s_inet_ref s) (s_local_pbias s) (s_udi s) (s_iodssr_c s) (s_sinfo s) (s_grid s) (s_lc s).
Definition set_s_nm_idx (v : list Z) (s : cst) : cst := CS (s_week s) (s_tow0 s) (s_tow s) (s_time s) (s_toh s) (s_subtype s) (s_iodssr s) (s_iodssr_p s) (s_sat_n_p s) (s_sig_n_p s) (s_ngnss s) (s_gnss_idx s) (s_nsat_g s) v (s_dcm s) (s_nsat_n s) (s_sys_n s) (s_gnss_n s) (s_sat_n s) (s_nsig_n s) (s_nsig_total s) (s_nsig_max s) (s_sig_n s) (s_flg_net s) (s_inet s) (s_inet_ref s) (s_local_pbias s) (s_udi s) (s_iodssr_c s) (s_sinfo s) (s_grid s) (s_lc s).
Definition set_s_dcm (v : dict gnss Z) (s : cst) : cst := CS (s_week s) (s_tow0 s) (s_tow s) (s_time s) (s_toh s) (s_subtype s) (s_iodssr s) (s_iodssr_p s) (s_sat_n_p s) (s_sig_n_p s) (s_ngnss s) (s_gnss_idx s) (s_nsat_g s) (s_nm_idx s) v (s_nsat_n s) (s_sys_n s) (s_gnss_n s) (s_sat_n s) (s_nsig_n s) (s_nsig_total s) (s_nsig_max s) (s_sig_n s) (s_flg_net s) (s_inet s) (s_inet_ref s) (s_local_pbias s) (s_udi s) (s_iodssr_c s) (s_sinfo s) (s_grid s) (s_lc s).
Definition set_s_nsat_n (v : nat) (s : cst) : cst := CS (s_week s) (s_tow0 s) (s_tow s) (s_time s) (s_toh s) (s_subtype s) (s_iodssr s) (s_iodssr_p s) (s_sat_n_p s) (s_sig_n_p s) (s_ngnss s) (s_gnss_idx s) (s_nsat_g s) (s_nm_idx s) (s_dcm s) v (s_sys_n s) (s_gnss_n s) (s_sat_n s) (s_nsig_n s) (s_nsig_total s) (s_nsig_max s) (s_sig_n s) (s_flg_net s) (s_inet s) (s_inet_ref s) (s_local_pbias s) (s_udi s) (s_iodssr_c s) (s_sinfo s) (s_grid s) (s_lc s).
Definition set_s_sys_n (v : list gnss) (s : cst) : cst := CS (s_week s) (s_tow0 s) (s_tow s) (s_time s) (s_toh s) (s_subtype s) (s_iodssr s) (s_iodssr_p s) (s_sat_n_p s) (s_sig_n_p s) (s_ngnss s) (s_gnss_idx s) (s_nsat_g s) (s_nm_idx s) (s_dcm s) (s_nsat_n s) v (s_gnss_n s) (s_sat_n s) (s_nsig_n s) (s_nsig_total s) (s_nsig_max s) (s_sig_n s) (s_flg_net s) (s_inet s) (s_inet_ref s) (s_local_pbias s) (s_udi s) (s_iodssr_c s) (s_sinfo s) (s_grid s) (s_lc s).
Definition set_s_gnss_n (v : list Z) (s : cst) : cst := CS (s_week s) (s_tow0 s) (s_tow s) (s_time s) (s_toh s) (s_subtype s) (s_iodssr s) (s_iodssr_p s) (s_sat_n_p s) (s_sig_n_p s) (s_ngnss s) (s_gnss_idx s) (s_nsat_g s) (s_nm_idx s) (s_dcm s) (s_nsat_n s) (s_sys_n s) v (s_sat_n s) (s_nsig_n s) (s_nsig_total s) (s_nsig_max s) (s_sig_n s) (s_flg_net s) (s_inet s) (s_inet_ref s) (s_local_pbias s) (s_udi s) (s_iodssr_c s) (s_sinfo s) (s_grid s) (s_lc s).
Definition set_s_sat_n (v : list Z) (s : cst) : cst := CS (s_week s) (s_tow0 s) (s_tow s) (s_time s) (s_toh s) (s_subtype s) (s_iodssr s) (s_iodssr_p s) (s_sat_n_p s) (s_sig_n_p s) (s_ngnss s) (s_gnss_idx s) (s_nsat_g s) (s_nm_idx s) (s_dcm s) (s_nsat_n s) (s_sys_n s) (s_gnss_n s) v (s_nsig_n s) (s_nsig_total s) (s_nsig_max s) (s_sig_n s) (s_flg_net s) (s_inet s) (s_inet_ref s) (s_local_pbias s) (s_udi s) (s_iodssr_c s) (s_sinfo s) (s_grid s) (s_lc s).
Definition set_s_nsig_n (v : list nat) (s : cst) : cst := CS (s_week s) (s_tow0 s) (s_tow s) (s_time s) (s_toh s) (s_subtype s) (s_iodssr s) (s_iodssr_p s) (s_sat_n_p s) (s_sig_n_p s) (s_ngnss s) (s_gnss_idx s) (s_nsat_g s) (s_nm_idx s) (s_dcm s) (s_nsat_n s) (s_sys_n s) (s_gnss_n s) (s_sat_n s) v (s_nsig_total s) (s_nsig_max s) (s_sig_n s) (s_flg_net s) (s_inet s) (s_inet_ref s) (s_local_pbias s) (s_udi s) (s_iodssr_c s) (s_sinfo s) (s_grid s) (s_lc s).
Definition set_s_nsig_total (v : Z) (s : cst) : cst := CS (s_week s) (s_tow0 s) (s_tow s) (s_time s) (s_toh s) (s_subtype s) (s_iodssr s) (s_iodssr_p s) (s_sat_n_p s) (s_sig_n_p s) (s_ngnss s) (s_gnss_idx s) (s_nsat_g s) (s_nm_idx s) (s_dcm s) (s_nsat_n s) (s_sys_n s) (s_gnss_n s) (s_sat_n s) (s_nsig_n s) v (s_nsig_max s) (s_sig_n s) (s_flg_net s) (s_inet s) (s_inet_ref s) (s_local_pbias s) (s_udi s) (s_iodssr_c s) (s_sinfo s) (s_grid s) (s_lc s).
Definition set_s_nsig_max (v : Z) (s : cst) : cst := CS (s_week s) (s_tow0 s) (s_tow s) (s_time s) (s_toh s) (s_subtype s) (s_iodssr s) (s_iodssr_p s) (s_sat_n_p s) (s_sig_n_p s) (s_ngnss s) (s_gnss_idx s) (s_nsat_g s) (s_nm_idx s) (s_dcm s) (s_nsat_n s) (s_sys_n s) (s_gnss_n s) (s_sat_n s) (s_nsig_n s) (s_nsig_total s) v (s_sig_n s) (s_flg_net s) (s_inet s) (s_inet_ref s) (s_local_pbias s) (s_udi s) (s_iodssr_c s) (s_sinfo s) (s_grid s) (s_lc s).
Definition set_s_sig_n (v : dict Z (list rsig)) (s : cst) : cst := CS (s_week s) (s_tow0 s) (s_tow s) (s_time s) (s_toh s) (s_subtype s) (s_iodssr s) (s_iodssr_p s) (s_sat_n_p s) (s_sig_n_p s) (s_ngnss s) (s_gnss_idx s) (s_nsat_g s) (s_nm_idx s) (s_dcm s) (s_nsat_n s) (s_sys_n s) (s_gnss_n s) (s_sat_n s) (s_nsig_n s) (s_nsig_total s) (s_nsig_max s) v (s_flg_net s) (s_inet s) (s_inet_ref s) (s_local_pbias s) (s_udi s) (s_iodssr_c s) (s_sinfo s) (s_grid s) (s_lc s).
Definition set_s_flg_net (v : bool) (s : cst) : cst := CS (s_week s) (s_tow0 s) (s_tow s) (s_time s) (s_toh s) (s_subtype s) (s_iodssr s) (s_iodssr_p s) (s_sat_n_p s) (s_sig_n_p s) (s_ngnss s) (s_gnss_idx s) (s_nsat_g s) (s_nm_idx s) (s_dcm s) (s_nsat_n s) (s_sys_n s) (s_gnss_n s) (s_sat_n s) (s_nsig_n s) (s_nsig_total s) (s_nsig_max s) (s_sig_n s) v (s_inet s) (s_inet_ref s) (s_local_pbias s) (s_udi s) (s_iodssr_c s) (s_sinfo s) (s_grid s) (s_lc s).
Definition set_s_inet (v : Z) (s : cst) : cst := CS (s_week s) (s_tow0 s) (s_tow s) (s_time s) (s_toh s) (s_subtype s) (s_iodssr s) (s_iodssr_p s) (s_sat_n_p s) (s_sig_n_p s) (s_ngnss s) (s_gnss_idx s) (s_nsat_g s) (s_nm_idx s) (s_dcm s) (s_nsat_n s) (s_sys_n s) (s_gnss_n s) (s_sat_n s) (s_nsig_n s) (s_nsig_total s) (s_nsig_max s) (s_sig_n s) (s_flg_net s) v (s_inet_ref s) (s_local_pbias s) (s_udi s) (s_iodssr_c s) (s_sinfo s) (s_grid s) (s_lc s).
Definition set_s_inet_ref (v : Z) (s : cst) : cst := CS (s_week s) (s_tow0 s) (s_tow s) (s_time s) (s_toh s) (s_subtype s) (s_iodssr s) (s_iodssr_p s) (s_sat_n_p s) (s_sig_n_p s) (s_ngnss s) (s_gnss_idx s) (s_nsat_g s) (s_nm_idx s) (s_dcm s) (s_nsat_n s) (s_sys_n s) (s_gnss_n s) (s_sat_n s) (s_nsig_n s) (s_nsig_total s) (s_nsig_max s) (s_sig_n s) (s_flg_net s) (s_inet s) v (s_local_pbias s) (s_udi s) (s_iodssr_c s) (s_sinfo s) (s_grid s) (s_lc s).
Definition set_s_local_pbias (v : bool) (s : cst) : cst := CS (s_week s) (s_tow0 s) (s_tow s) (s_time s) (s_toh s) (s_subtype s) (s_iodssr s) (s_iodssr_p s) (s_sat_n_p s) (s_sig_n_p s) (s_ngnss s) (s_gnss_idx s) (s_nsat_g s) (s_nm_idx s) (s_dcm s) (s_nsat_n s) (s_sys_n s) (s_gnss_n s) (s_sat_n s) (s_nsig_n s) (s_nsig_total s) (s_nsig_max s) (s_sig_n s) (s_flg_net s) (s_inet s) (s_inet_ref s) v (s_udi s) (s_iodssr_c s) (s_sinfo s) (s_grid s) (s_lc s).
Definition set_s_udi (v : list Z) (s : cst) : cst := CS (s_week s) (s_tow0 s) (s_tow s) (s_time s) (s_toh s) (s_subtype s) (s_iodssr s) (s_iodssr_p s) (s_sat_n_p s) (s_sig_n_p s) (s_ngnss s) (s_gnss_idx s) (s_nsat_g s) (s_nm_idx s) (s_dcm s) (s_nsat_n s) (s_sys_n s) (s_gnss_n s) (s_sat_n s) (s_nsig_n s) (s_nsig_total s) (s_nsig_max s) (s_sig_n s) (s_flg_net s) (s_inet s) (s_inet_ref s) (s_local_pbias s) v (s_iodssr_c s) (s_sinfo s) (s_grid s) (s_lc s).
Definition set_s_iodssr_c (v : list Z) (s : cst) : cst := CS (s_week s) (s_tow0 s) (s_tow s) (s_time s) (s_toh s) (s_subtype s) (s_iodssr s) (s_iodssr_p s) (s_sat_n_p s) (s_sig_n_p s) (s_ngnss s) (s_gnss_idx s) (s_nsat_g s) (s_nm_idx s) (s_dcm s) (s_nsat_n s) (s_sys_n s) (s_gnss_n s) (s_sat_n s) (s_nsig_n s) (s_nsig_total s) (s_nsig_max s) (s_sig_n s) (s_flg_net s) (s_inet s) (s_inet_ref s) (s_local_pbias s) (s_udi s) v (s_sinfo s) (s_grid s) (s_lc s).
Definition set_s_sinfo (v : bits) (s : cst) : cst := CS (s_week s) (s_tow0 s) (s_tow s) (s_time s) (s_toh s) (s_subtype s) (s_iodssr s) (s_iodssr_p s) (s_sat_n_p s) (s_sig_n_p s) (s_ngnss s) (s_gnss_idx s) (s_nsat_g s) (s_nm_idx s) (s_dcm s) (s_nsat_n s) (s_sys_n s) (s_gnss_n s) (s_sat_n s) (s_nsig_n s) (s_nsig_total s) (s_nsig_max s) (s_sig_n s) (s_flg_net s) (s_inet s) (s_inet_ref s) (s_local_pbias s) (s_udi s) (s_iodssr_c s) v (s_grid s) (s_lc s).
Definition set_s_grid (v : option (list Z)) (s : cst) : cst := CS (s_week s) (s_tow0 s) (s_tow s) (s_time s) (s_toh s) (s_subtype s) (s_iodssr s) (s_iodssr_p s) (s_sat_n_p s) (s_sig_n_p s) (s_ngnss s) (s_gnss_idx s) (s_nsat_g s) (s_nm_idx s) (s_dcm s) (s_nsat_n s) (s_sys_n s) (s_gnss_n s) (s_sat_n s) (s_nsig_n s) (s_nsig_total s) (s_nsig_max s) (s_sig_n s) (s_flg_net s) (s_inet s) (s_inet_ref s) (s_local_pbias s) (s_udi s) (s_iodssr_c s) (s_sinfo s) v (s_lc s).
Definition set_s_lc (v : list lcr) (s : cst) : cst := CS (s_week s) (s_tow0 s) (s_tow s) (s_time s) (s_toh s) (s_subtype s) (s_iodssr s) (s_iodssr_p s) (s_sat_n_p s) (s_sig_n_p s) (s_ngnss s) (s_gnss_idx s) (s_nsat_g s) (s_nm_idx s) (s_dcm s) (s_nsat_n s) (s_sys_n s) (s_gnss_n s) (s_sat_n s) (s_nsig_n s) (s_nsig_total s) (s_nsig_max s) (s_sig_n s) (s_flg_net s) (s_inet s) (s_inet_ref s) (s_local_pbias s) (s_udi s) (s_iodssr_c s) (s_sinfo s) (s_grid s) v.

(** self.lc[inet] *)
Definition lcat (s : cst) (inet : Z) : lcr := nth (Z.to_nat inet) (s_lc s) lc_init.
Definition updlc (inet : Z) (f : lcr -> lcr) (s : cst) : cst := set_s_lc (upd (Z.to_nat inet) f (s_lc s)) s.
