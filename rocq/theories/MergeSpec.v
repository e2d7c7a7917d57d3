(** What merging two receivers of corrections should do, stated without the code. *)
From Verif Require Import CssrState MergeModel Base.
Notation length := List.length.
Open Scope Z_scope.

Definition look {V} (d : dicts V) (f : fld) (sat : Z) : option V := match d f with Some e => zget sat e | None => None end.
(** the correction that must be there for [f] to be there *)
Definition master (f : fld) : fld := match f with FIode => FOrb | FCi | FDst => FSq | f => f end.
(** satellites of the other network not in this one *)
Definition fresh_sat {V} (o s : loc V) (sat : Z) : Prop := In sat (l_sats o) /\ ~ In sat (l_sats s).
(** both networks have received corrections; what belongs together came together *)
Definition net_ready {V} (o s : loc V) : Prop :=
  NoDup (l_sats o) /\ l_nsat s <> None /\ (forall f, l_d o f <> None /\ l_d s f <> None) /\
  (forall f sat, fresh_sat o s sat -> look (l_d o) (master f) sat <> None -> look (l_d o) f sat <> None).
Definition net_merged {V} (o s s' : loc V) : Prop :=
  (exists add, l_sats s' = l_sats s ++ add /\ NoDup add /\ (forall sat, In sat add <-> fresh_sat o s sat) /\
     exists n, l_nsat s = Some n /\ l_nsat s' = Some (n + Z.of_nat (length add))) /\
  (forall f sat, fresh_sat o s sat -> look (l_d o) (master f) sat <> None -> look (l_d s') f sat = look (l_d o) f sat) /\
  (forall f sat, ~ fresh_sat o s sat \/ look (l_d o) (master f) sat = None -> look (l_d s') f sat = look (l_d s) f sat).
