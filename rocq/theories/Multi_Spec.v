(* What is claimed of the NextGen wrapper, independently of how it computes. *)
From Coq Require Import ZArith QArith List Bool String.
From Verif Require Import Base Emeli_Model Emeli_Spec Multi_Model.
Import ListNotations.
Local Open Scope Q_scope.

Section S.
Variable V : Type.
Variable line : V -> Q -> V -> Q -> Q -> V.

(* the calls an outside program can make between initialize() and finalize() *)
Inductive call := Update | Update_frac (f : Q) | Update_until (later : Q) | Set_value (x : string) (v : V).

Definition do_call (cs : list (mcomp V)) (fdt : Q) (drv : nat) (stop : nat -> bool) (c : call) (s : mstate V)
  : option (mstate V) :=
  match c with
  | Update => mupdate V line cs fdt drv stop s
  | Update_frac f => mupdate_frac V line cs fdt drv stop f s
  | Update_until later => mupdate_until V line cs fdt drv stop later s
  | Set_value x v => mset_value V cs x v s
  end.

Fixpoint do_calls (cs : list (mcomp V)) (fdt : Q) (drv : nat) (stop : nat -> bool) (l : list call) (s : mstate V)
  : option (mstate V) :=
  match l with
  | [] => Some s
  | c :: l' => match do_call cs fdt drv stop c s with
               | Some s' => do_calls cs fdt drv stop l' s'
               | None => None
               end
  end.

(* the same program with every set_value left out *)
Definition is_set (c : call) : bool := match c with Set_value _ _ => true | _ => false end.
Definition without_sets (l : list call) : list call := filter (fun c => negb (is_set c)) l.

(* component keys are distinct (they are the keys of a dict) *)
Definition distinct_names (cs : list (mcomp V)) : Prop := NoDup (map (fun m => n_comp (mc_names V m)) cs).

(* update() of a component looks at nothing but the values of its variables *)
Definition steps_by_value (cs : list (mcomp V)) : Prop :=
  forall m, In m cs -> forall a b, (forall x, a x = b x) -> forall x, mc_step V m a x = mc_step V m b x.

(* no component lists a variable both as input and as output *)
Definition inputs_not_outputs (cs : list (mcomp V)) : Prop :=
  forall m x, In m cs -> In x (n_in (mc_names V m)) -> ~ In x (n_out (mc_names V m)).

Definition positive_dts (cs : list (mcomp V)) : Prop := forall m, In m cs -> 0 < mc_dt V m.

(* component i's clock, in seconds *)
Definition mclock_s (cs : list (mcomp V)) (s : mstate V) (i : nat) : Q :=
  s_time (get cstate0 (m_clocks V s) i) * unit_seconds (mc_units V (get (mcomp0 V) cs i)).
Definition mstep_s (cs : list (mcomp V)) (i : nat) : Q :=
  mc_dt V (get (mcomp0 V) cs i) * unit_seconds (mc_units V (get (mcomp0 V) cs i)).
Definition menabled (cs : list (mcomp V)) (i : nat) : Prop :=
  (i < List.length cs)%nat /\ mc_status V (get (mcomp0 V) cs i) = Enabled.

End S.
