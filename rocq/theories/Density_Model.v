(** Model of the start of the snow and glacier components and of the snow density
    during a run: topoflow/components/snow_base.py 375-427 (initialize_computed_vars),
    431-468 (initialize_cold_content), 611-627 (update_density_ratio), 674-701
    (update_depth); glacier_base.py 399-403, 461-515, 743-759, 834-843;
    utils/BMI_base.py 2309-2360 (initialize_var, update_var).

    Numbers are exact rationals.  A variable is a number for the whole domain or a
    grid (Field).  A variable read from a file is a 0D array, which can be refilled;
    the result of arithmetic on 0D arrays is a number object: its fill() acts on a
    copy, and it is refused as the out= argument of a ufunc.
    The water equivalents are given (Snow_Model computes them). *)

From Coq Require Import ZArith QArith Qminmax List Bool.
From Verif Require Import Base Field Time_Model.
Import ListNotations.
Local Open Scope Q_scope.

(** rho_snow_type, in lower case *)
Inductive dtype := TScalar | TGrid | TSeries | TSequence.

Section Grid.
Variable n : nat.   (* cells of the grid *)

(** snow_base.py 459-468, glacier_base.py 506-515: (rho * Cp) * h0 * (T0 - T_surf),
    then np.maximum(Ecc, 0, out=Ecc): TypeError if Ecc is a number *)
Definition cold_content (rho Cp h0 T0 T_surf : field) : res field :=
  let del_T := lift2 n Qminus T0 T_surf in
  match lift2 n Qmult (lift2 n Qmult (lift2 n Qmult rho Cp) h0) del_T with
  | Scalar _ => Err TypeError
  | Grid l => Ok (lift1 n (fun e => Qmax e 0) (Grid l))
  end.
(** glacier_base.py 403: T_surf is made a grid first *)
Definition glacier_cold_content (rho Cp h0 T0 T_surf : field) : res field :=
  cold_content rho Cp h0 T0 (Grid (tab n (fat T_surf))).

(** snow_base.py 422: the ratio of the densities of water and snow *)
Definition density_ratio (rho_w rho : field) : field := lift2 n Qdiv rho_w rho.

(** rho_snow, density_ratio and h_snow *)
Record state := mkst { rho : field; ratio : field; depth : field }.
(** snow_base.py 372-399, 422; [grids]: T_air or P_snow is a grid or the component is
    the energy balance *)
Definition start (grids : bool) (rho_w rho0 h0 : field) : state :=
  mkst rho0 (density_ratio rho_w rho0) (if grids then Grid (tab n (fat h0)) else h0).

(** BMI_base.py 2325-2360; None: the file has ended or is not a file *)
Definition update_var (x : field) (v : option field) : res field :=
  match v with
  | None => Ok x
  | Some v => match store n x v with Some y => Ok y | None => Err TypeError end
  end.

(** snow_base.py 611-627: for a number, fill() is applied to a copy of it *)
Definition update_density_ratio (t : dtype) (rho_w rho ratio : field) : res field :=
  match t with
  | TScalar | TGrid => Ok ratio
  | TSeries | TSequence =>
      match ratio with
      | Scalar r => Ok (Scalar r)
      | Grid _ => match store n ratio (density_ratio rho_w rho) with Some y => Ok y | None => Err ValueError end
      end
  end.
(** glacier_base.py 743-759: the attribute density_ratio does not exist (461 sets
    ws_density_ratio) *)
Definition glacier_update_density_ratio (t : dtype) (rho_w rho ratio : field) : res field :=
  match t with
  | TScalar | TGrid => Ok ratio
  | TSeries | TSequence => Err AttributeError
  end.

(** snow_base.py 674-701, glacier_base.py 834-843 *)
Definition update_depth (h swe ratio : field) : res field :=
  match store n h (lift2 n Qmult swe ratio) with Some y => Ok y | None => Err TypeError end.

(** one update: the density read (245-246), the ratio (260) and the depth (261); the
    water equivalent after 259 is given *)
Definition step (ratio_update : dtype -> field -> field -> field -> res field) (t : dtype) (rho_w : field)
    (s : state) (x : option field * field) : res state :=
  let! r := update_var (rho s) (fst x) in
  let! q := ratio_update t rho_w r (ratio s) in
  let! d := update_depth (depth s) (snd x) q in
  Ok (mkst r q d).
Fixpoint steps ratio_update (t : dtype) (rho_w : field) (s : state) (xs : list (option field * field)) : res state :=
  match xs with
  | [] => Ok s
  | x :: r => let! s' := step ratio_update t rho_w s x in steps ratio_update t rho_w s' r
  end.
Definition snow_steps := steps update_density_ratio.
Definition glacier_steps := steps glacier_update_density_ratio.
End Grid.
