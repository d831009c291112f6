(* Specification of the slope tools: flow paths over the D8 parents, written without the tools' own loops. *)
From Coq Require Import ZArith QArith List Bool Arith.
From Verif Require Import Base Slope_Model.
Import ListNotations.
Local Open Scope Q_scope.

(* the cell [k] steps downstream of [i], and the length of the way to it *)
Fixpoint anc (T : topo) (k i : nat) : nat := match k with O => i | S k' => par T (anc T k' i) end.
Fixpoint plen (T : topo) (k i : nat) : Q := match k with O => 0 | S k' => plen T k' i + ds T (anc T k' i) end.

(* what the D8 object guarantees: cells without a flow code have parent 0, and the corner cell 0 is one of them *)
Record d8_grid (T : topo) : Prop := {
  d8_corner : noflow T 0%nat = true;
  d8_out : forall i, noflow T i = true -> par T i = 0%nat;
  d8_range : forall i, (i < ncell T)%nat -> (par T i < ncell T)%nat;
  d8_ds : forall i, (i < ncell T)%nat -> 0 < ds T i }.

(* cell [i] finds a known, lower elevation [k] steps downstream; first such [k] *)
Definition lower_at (T : topo) (i k : nat) : Prop := nodata T < z T (anc T k i) /\ z T (anc T k i) < z T i.
Definition first_lower (T : topo) (i k : nat) : Prop :=
  (1 <= k)%nat /\ lower_at T i k /\ forall j, (1 <= j < k)%nat -> ~ lower_at T i j.
(* the mean slope from [i] to the cell [k] steps downstream *)
Definition mean_slope (T : topo) (i k : nat) : Q := (z T i - z T (anc T k i)) / plen T k i.

(* the local D8 slope: a cell is steep, flat or without flow *)
Definition known (T : topo) (i : nat) : Prop := nodata T < z T i.
Definition steep (T : topo) (i : nat) : Prop :=
  noflow T i = false /\ known T i /\ known T (par T i) /\ z T (par T i) < z T i.
Definition flat (T : topo) (i : nat) : Prop :=
  noflow T i = false /\ ~ (known T i /\ known T (par T i) /\ z T (par T i) < z T i).
(* where a chain begins: a steep cell above a flat one, or a flat cell with no contributing area but its own *)
Definition begins (T : topo) (s : nat) : Prop :=
  (s < ncell T)%nat /\ (steep T s /\ flat T (par T s) \/ head T s = true /\ flat T s).
(* the first steep cell at least two steps downstream, with only flat cells from the second step on before it *)
Definition chain_end (T : topo) (s k : nat) : Prop :=
  (2 <= k)%nat /\ steep T (anc T k s) /\ forall j, (2 <= j < k)%nat -> flat T (anc T j s).
(* the slope of the chain reaches to the cell below its last, steep one *)
Definition chain_slope (T : topo) (s k : nat) : Q := mean_slope T s (k + 1).
(* cell [i] lies on the chain from [s] to its end [k] steps downstream *)
Definition on_chain (T : topo) (s k i : nat) : Prop := begins T s /\ chain_end T s k /\ exists j, (j <= k)%nat /\ i = anc T j s.
(* elevations never rise downstream *)
Definition never_rises (T : topo) : Prop := forall i, (i < ncell T)%nat -> noflow T i = false -> z T (par T i) <= z T i.
