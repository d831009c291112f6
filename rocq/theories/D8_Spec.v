(* What a D8 flow grid means, independent of how the code computes it. *)
From Coq Require Import ZArith QArith List.
From Verif Require Import Base D8_Model.
Import ListNotations.
Local Open Scope Z_scope.

(* RiverTools flow codes: (row increment, column increment); rows grow southward. *)
Definition offset (code : Z) : option (Z * Z) :=
  match code with
  | 1   => Some (-1, 1)    (* NE *)
  | 2   => Some (0, 1)     (* E  *)
  | 4   => Some (1, 1)     (* SE *)
  | 8   => Some (1, 0)     (* S  *)
  | 16  => Some (1, -1)    (* SW *)
  | 32  => Some (0, -1)    (* W  *)
  | 64  => Some (-1, -1)   (* NW *)
  | 128 => Some (-1, 0)    (* N  *)
  | _   => None
  end.

Definition is_code (code : Z) : Prop := offset code <> None.

(* Flat index of the cell reached from cell i in direction [code] (toroidal; on a non-periodic grid
   only interior cells carry codes, for which no wrapping happens). *)
Definition target (G : geom) (i : nat) (code : Z) : option nat :=
  match offset code with
  | None => None
  | Some (dr, dc) =>
      Some (Z.to_nat (((Z.of_nat i / nx G + dr) mod ny G) * nx G + (Z.of_nat i mod nx G + dc) mod nx G))
  end.

(* one step downstream *)
Definition next (G : geom) (d : list Z) (i : nat) : option nat := target G i (get 0 d i).

(* m steps downstream *)
Fixpoint walk (G : geom) (d : list Z) (m : nat) (i : nat) : option nat :=
  match m with
  | O => Some i
  | S m' => match next G d i with None => None | Some j => walk G d m' j end
  end.

(* j drains to i (j itself included) *)
Definition drains (G : geom) (d : list Z) (j i : nat) : Prop := exists m, walk G d m j = Some i.

(* distance between the centres of a cell and its neighbour in direction [code] *)
Definition step_length (G : geom) (code : Z) : Q :=
  match offset code with
  | Some (0, _) => dx G
  | Some (_, 0) => dy G
  | _ => dd G
  end.

Definition geom_ok (G : geom) : Prop := 0 < nx G /\ 0 < ny G /\ (0 < dx G)%Q /\ (0 < dy G)%Q /\ (0 < dd G)%Q.

(* cells of the first/last column, and of the first/last row *)
Definition on_LR (G : geom) (i : nat) : Prop :=
  Z.of_nat i mod nx G = 0 \/ Z.of_nat i mod nx G = nx G - 1.
Definition on_TB (G : geom) (i : nat) : Prop :=
  Z.of_nat i / nx G = 0 \/ Z.of_nat i / nx G = ny G - 1.

(* cells that the D8 component always leaves without a flow direction: a non-periodic side *)
Definition closed_side (G : geom) (O : opts) (i : nat) : Prop :=
  (LR_PERIODIC O = false /\ on_LR G i) \/ (TB_PERIODIC O = false /\ on_TB G i).

(* every entry is 0 or one of the eight codes *)
Definition code_grid (G : geom) (d : list Z) : Prop :=
  length d = ncells G /\ forall i, (i < ncells G)%nat -> get 0 d i = 0 \/ is_code (get 0 d i).

(* no cell is revisited when the codes are followed *)
Definition acyclic (G : geom) (d : list Z) : Prop :=
  forall i m, (i < ncells G)%nat -> walk G d m i = Some i -> m = O.
