(** Model of the diversions component: sources and canals,
    topoflow/components/diversions_fraction_method.py and diversions_base.py.

    Numbers are rationals; float32 output storage is not modelled. *)

From Coq Require Import String List ZArith QArith Qround Bool.
From Verif Require Import Base Time_Model Cfg_Model.
Import ListNotations.

(** diversions_base.py 199-201: (self.use_X == 'Yes'), for the value that the
    configuration reader stored. *)
Definition use_flag (v : option cval) : res bool :=
  match v with
  | None => Err AttributeError
  | Some (VStr s) => Ok (String.eqb s "Yes")
  | Some _ => Ok false
  end.

(** np.roll(row, 1) *)
Definition roll1 (r : list Q) : list Q :=
  match r with [] => [] | _ => last r 0%Q :: removelast r end.

(** diversions_fraction_method.py 481: np.ceil(travel_time / dt), a float *)
Definition nt_canal (dt time : Q) : Z := Qceiling (time / dt).

Record canals := mkcanals { nts : list Z; canal_Q : list (list Q) }.

(** 508-511: np.zeros([n_canals, nt_max]); no canals: max of nothing *)
Definition init_canals (dt : Q) (times : list Q) : res canals :=
  match map (nt_canal dt) times with
  | [] => Err ValueError
  | n :: ns => let nt_max := fold_left Z.max ns n in
               if (nt_max <? 0)%Z then Err ValueError
               else Ok (mkcanals (n :: ns) (repeat (repeat 0%Q (Z.to_nat nt_max)) (S (length ns))))
  end.

(** Row[index] for an index that is a float with a whole value.  numpy before
    1.12 takes it as an integer (negative: from the end); later versions raise
    IndexError. *)
Definition float_index (old_numpy : bool) (r : list Q) (i : Z) : res Q :=
  if negb old_numpy then Err IndexError
  else let n := Z.of_nat (length r) in
       let j := if (i <? 0)%Z then (i + n)%Z else i in
       if ((0 <=? j) && (j <? n))%Z then Ok (get 0%Q r (Z.to_nat j)) else Err IndexError.

Fixpoint outflows (old_numpy : bool) (l : list (Z * list Q)) : res (list Q) :=
  match l with
  | [] => Ok []
  | (nt, row) :: r => let! q := float_index old_numpy row (nt - 1) in
                      let! qs := outflows old_numpy r in Ok (q :: qs)
  end.

(** 607-725 update_canals: inflow into column 0, outflow from column nt-1, then
    shift all columns.  Returns Q_canals_out and the new state.  (The arrays
    Q_canals_in and Q_canals_out are taken to exist.) *)
Definition update_canals (old_numpy : bool) (Q_in : list Q) (c : canals) : res (list Q * canals) :=
  if negb (length Q_in =? length (canal_Q c))%nat then Err ValueError
  else if existsb (fun r => (length r =? 0)%nat) (canal_Q c) then Err IndexError
  else let rows := map (fun xr => set (snd xr) 0 (fst xr)) (combine Q_in (canal_Q c)) in
       let! out := outflows old_numpy (combine (nts c) rows) in
       Ok (out, mkcanals (nts c) (map roll1 rows)).

(** update() once per step; the outflows of all steps *)
Fixpoint canal_steps (old_numpy : bool) (ins : list (list Q)) (c : canals) : res (list (list Q)) :=
  match ins with
  | [] => Ok []
  | q :: r => let! (out, c) := update_canals old_numpy q c in
              let! outs := canal_steps old_numpy r c in Ok (out :: outs)
  end.
Definition run_canals (old_numpy : bool) (dt : Q) (times : list Q) (ins : list (list Q)) : res (list (list Q)) :=
  let! c := init_canals dt times in canal_steps old_numpy ins c.

(** ** Sources *)

(** diversions_fraction_method.py 281-303: one row of the table per source:
    np.zeros(nt_max), then [0:nt] = values.  A list of another length than nt
    is refused (a list of one number is repeated). *)
Definition source_row (nt_max nt : nat) (values : list Q) : res (list Q) :=
  let m := Nat.min nt nt_max in
  match values with
  | [x] => Ok (repeat x m ++ repeat 0%Q (nt_max - m))
  | _ => if (length values =? m)%nat then Ok (values ++ repeat 0%Q (nt_max - m)) else Err ValueError
  end.
(** 517-536 update_sources *)
Definition update_sources (nt_max : nat) (table : list (list Q)) (time_index : nat) : list Q :=
  if (time_index <? nt_max)%nat then map (fun r => get 0%Q r time_index) table
  else repeat 0%Q (length table).
(** 557-575 update_sinks: stores into the name Q_sinks, which does not exist. *)
Definition update_sinks (use_sinks : bool) : res unit :=
  if negb use_sinks then Ok tt else Err NameError.
