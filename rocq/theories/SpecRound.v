(** How dtypes compare: the conditions of the theorems on rounding. *)
From Coq Require Import ZArith.
From Verif Require Import ModelRound.
Open Scope Z_scope.

(** The exponent of the smallest positive number. *)
Definition emin (d : dtype) : Z := 3 - emax d - prec d.

(** Every number of [d] is one of [e]. *)
Definition holds_all (d e : dtype) : Prop :=
  prec d <= prec e /\ emax d <= emax e /\ emin e <= emin d.

(** [m] has at least six bits more than [o], at both ends. *)
Definition finer (m o : dtype) : Prop :=
  prec o + 6 <= prec m /\ emax o <= emax m /\ emin m + 6 <= emin o.

(** [m] can add up [n] numbers of [o]: bits for the rounding errors, exponents for the sum. *)
Definition enough (m o : dtype) (n : nat) : Prop :=
  Z.of_nat n + 1 <= 2 ^ (prec m - prec o - 5) /\ 2 * Z.of_nat n <= 2 ^ (emax m - emax o).

(** [m] holds the exact sum of three numbers of [S]. *)
Definition wide (m S : dtype) : Prop :=
  2 * emax S + prec S - 1 <= prec m /\ emax S + 2 <= emax m /\ emin m <= emin S.
