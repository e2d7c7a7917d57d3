(** Binary messages as lists of fields (width, value).  A value is sent as its lowest [width] bits, most
    significant first (two's complement for negative values). *)
From Verif Require Export Base.
Notation length := List.length.
Open Scope Z_scope.

Definition field := (nat * Z)%type.
Notation "n # v" := ((n%nat, v%Z) : field) (at level 55, no associativity).
Definition enc (fl : list field) : bits := flat_map (fun f => bitsof (fst f) (snd f)) fl.
Definition U (n : Z) (v : Z) : Prop := 0 <= v < 2 ^ n.
Definition S_ (n : Z) (v : Z) : Prop := - 2 ^ (n - 1) <= v < 2 ^ (n - 1).
