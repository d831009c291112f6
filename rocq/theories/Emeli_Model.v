(* Model of the EMELI coupling framework: provider bookkeeping, framework time step,
   component scheduling, and the TopoFlow driver's stop rules.
   Sources: topoflow/framework/emeli.py, topoflow/framework/time_interpolation.py,
   topoflow/components/topoflow_driver.py, topoflow/utils/BMI_base.py. *)
From Coq Require Import ZArith QArith Qminmax Qabs List Bool String.
From Verif Require Import Base.
Import ListNotations.
Local Open Scope Q_scope.

(* ------------------------------------------------------------------ names *)

(* What find_var_users_and_providers reads of one component: its key in comp_set and
   get_output_var_names() / get_input_var_names() (emeli.py 1304-1306, 1310, 1322). *)
Record names := { n_comp : string; n_out : list string; n_in : list string }.

(* Python dict of lists.  Keys are kept in insertion order. *)
Definition dict := list (string * list string).

Fixpoint dict_get (d : dict) (x : string) : option (list string) :=
  match d with
  | [] => None
  | (k, v) :: d' => if String.eqb x k then Some v else dict_get d' x
  end.

(* d[x] = v *)
Fixpoint dict_put (d : dict) (x : string) (v : list string) : dict :=
  match d with
  | [] => [(x, v)]
  | (k, w) :: d' => if String.eqb x k then (k, v) :: d' else (k, w) :: dict_put d' x v
  end.

(* d[x].append(c) (the key is always present where the code does this) *)
Definition dict_append (d : dict) (x c : string) : dict :=
  match dict_get d x with Some l => dict_put d x (l ++ [c]) | None => d end.

Definition mem (x : string) (l : list string) : bool := existsb (String.eqb x) l.

(* emeli.py 1311-1316 for one name x of component c; the input loop 1323-1329 is the same code
   with the other list and dict. State: (all_..._var_names, var_providers / var_users). *)
Definition note_name (c : string) (st : list string * dict) (x : string) : list string * dict :=
  if String.eqb x "" then st
  else
    let '(all, d) := st in
    let '(all', d') := if mem x all then (all, d) else (all ++ [x], dict_put d x []) in
    (all', dict_append d' x c).

(* emeli.py 1296-1329: (all_output_var_names, var_providers) and (all_input_var_names, var_users).
   The two sorts (1335-1336) only affect printed order and are left out. *)
Definition find_providers (cs : list names) : list string * dict :=
  fold_left (fun st c => fold_left (note_name (n_comp c)) (n_out c) st) cs ([], []).
Definition find_users (cs : list names) : list string * dict :=
  fold_left (fun st c => fold_left (note_name (n_comp c)) (n_in c) st) cs ([], []).

(* emeli.py 1355-1362: vars_provided[c] *)
Definition vars_provided (cs : list names) (c : names) : list string :=
  filter (fun x => mem x (fst (find_users cs))) (n_out c).

(* emeli.py 1366-1394 *)
Definition check_providers (cs : list names) : bool :=
  let prov := snd (find_providers cs) in
  fold_left
    (fun ok x => match dict_get prov x with
                 | Some l => if (1 <? List.length l)%nat then false else ok
                 | None => false
                 end)
    (fst (find_users cs)) true.

(* emeli.py 1459-1497: the connections made, in order, as (provider, user, name).
   provider_list is the order in which components are initialised; [pl] are its entries. *)
Definition connections (cs pl : list names) : list (string * string * string) :=
  flat_map (fun p =>
    flat_map (fun x => map (fun u => (n_comp p, u, x))
                           (match dict_get (snd (find_users cs)) x with Some l => l | None => [] end))
             (n_out p)) pl.

(* emeli.py 1398-1499: None = OK is False, nothing is initialised *)
Definition initialize_comp_set (cs pl : list names) : option (list (string * string * string)) :=
  if check_providers cs then Some (connections cs pl) else None.

(* ------------------------------------------------------------------ units *)

(* get_time_units(); anything else falls to the last branch and is taken as seconds *)
Inductive tunits := Years | Months | Days | Hours | Minutes | OtherUnits.

(* emeli.py 227-231 and 1156-1180 *)
Definition fw_secs (u : tunits) (t : Q) : Q :=
  match u with
  | Years => t * 31536000
  | Months => t * 2628000
  | Days => t * 86400
  | Hours => t * 3600
  | Minutes => t * 60
  | OtherUnits => t
  end.

(* time_interpolation.py 152-156 and 693-717; the hours branch (710) names a variable that
   does not exist and raises NameError: None *)
Definition ti_secs (u : tunits) (t : Q) : option Q :=
  match u with
  | Years => Some (t * 31536000)
  | Months => Some (t * 2628000)
  | Days => Some (t * 86400)
  | Hours => None
  | Minutes => Some (t * 60)
  | OtherUnits => Some t
  end.

(* ------------------------------------------------------------------ scheduling *)

(* comp_status.  The loop tests == 'Enabled' (emeli.py 1056); everything else tests
   .lower() == 'disabled' (emeli.py 1206, and each component's update()).  EnabledOdd is a status
   such as 'enabled' that is neither. *)
Inductive status := Enabled | EnabledOdd | Disabled.

Record comp := { c_dt : Q; c_units : tunits; c_status : status; c_needs : list nat }.
(* c_needs: for each input variable, the position in provider_list of its provider
   (var_providers[name][0], emeli.py 1515-1522). *)

Definition comp0 : comp := {| c_dt := 0; c_units := OtherUnits; c_status := Disabled; c_needs := [] |}.

(* emeli.py 1200-1236: one entry of dt_array, in seconds *)
Definition dt_entry (c : comp) : Q :=
  match c_status c with
  | Disabled => 1000000
  | _ => fw_secs (c_units c) (c_dt c)
  end.

(* emeli.py 1184-1247: dt_array.min(); ValueError on an empty list: None *)
Definition framework_dt (cs : list comp) : option Q :=
  match map dt_entry cs with
  | [] => None
  | d :: l => Some (fold_left Qmin l d)
  end.

(* Per component: its clock (own units), the number of updates made, and the interval (t1,t2)
   of its interpolation data in seconds (one per provided variable, always updated together). *)
Record cstate := { s_time : Q; s_count : nat; s_t1 : Q; s_t2 : Q; s_init : bool }.
(* s_init: get_status() is still 'initialized', i.e. update() never got past the disabled test *)
Definition cstate0 : cstate := {| s_time := 0; s_count := 0; s_t1 := 0; s_t2 := 0; s_init := true |}.

(* bmi.update(): clock and counter (BMI_base.py 1039-1041 through update_time(-1)); a disabled
   component returns at once (e.g. topoflow_driver.py 523-525).  Fixed dt. *)
Definition bmi_update (c : comp) (s : cstate) : cstate :=
  match c_status c with
  | Disabled => s
  | _ => {| s_time := s_time s + c_dt c; s_count := S (s_count s);
            s_t1 := s_t1 s; s_t2 := s_t2 s; s_init := false |}
  end.

(* time_interp_data.update: times only (time_interpolation.py 81, 97) *)
Definition shift_window (c : comp) (s : cstate) : option cstate :=
  match ti_secs (c_units c) (s_time s) with
  | Some t => Some {| s_time := s_time s; s_count := s_count s; s_t1 := s_t2 s; s_t2 := t; s_init := s_init s |}
  | None => None
  end.

(* time_interpolation.py 240-289, method 'Linear', for one component *)
Definition init_comp (c : comp) : option cstate :=
  match ti_secs (c_units c) 0 with
  | Some t =>
      let s := {| s_time := 0; s_count := 0; s_t1 := t; s_t2 := t; s_init := true |} in
      shift_window c (bmi_update c s)
  | None => None
  end.

Fixpoint init_comps (cs : list comp) : option (list cstate) :=
  match cs with
  | [] => Some []
  | c :: cs' =>
      match init_comp c, init_comps cs' with
      | Some s, Some l => Some (s :: l)
      | _, _ => None
      end
  end.

(* One request for a value during get_required_vars: user position, provider position, requested
   time, the provider's interval at that moment, whether the pointer is returned instead
   (time_interpolation.py 619-623). *)
Record request := { q_user : nat; q_prov : nat; q_time : Q; q_t1 : Q; q_t2 : Q; q_direct : bool }.

(* time_interpolation.py 479-574: update2 *)
Definition update2 (c : comp) (s : cstate) : option cstate :=
  if s_init s then Some s else shift_window c s.

(* emeli.py 1034-1064 for the component at position i, at framework time T *)
Definition visit (cs : list comp) (T : Q) (st : option (list cstate * list request)) (i : nat)
  : option (list cstate * list request) :=
  match st with
  | None => None
  | Some (ss, log) =>
      let c := get comp0 cs i in
      let s := get cstate0 ss i in
      let t := fw_secs (c_units c) (s_time s) in
      if Qltb t T then
        let reqs := map (fun p => let sp := get cstate0 ss p in
                                  {| q_user := i; q_prov := p; q_time := t;
                                     q_t1 := s_t1 sp; q_t2 := s_t2 sp; q_direct := s_init sp |})
                        (c_needs c) in
        let s1 := match c_status c with Enabled => bmi_update c s | _ => s end in
        match update2 c s1 with
        | Some s2 => Some (set ss i s2, log ++ reqs)
        | None => None
        end
      else Some (ss, log)
  end.

Definition pass (cs : list comp) (T : Q) (ss : list cstate) : option (list cstate * list request) :=
  fold_left (visit cs T) (seq 0 (List.length cs)) (Some (ss, [])).

(* The framework: time, components, DONE, and the requests made so far in the run. *)
Record fw := { f_time : Q; f_comps : list cstate; f_done : bool; f_log : list request }.

(* One iteration of the loop, emeli.py 1019-1079.  [drv] is the driver's position in
   provider_list, [stop n] its DONE flag after its n-th update (a disabled driver is DONE from the
   start, topoflow_driver.py 455-460: stop 0 = true). *)
Definition loop_body (cs : list comp) (fdt : Q) (drv : nat) (stop : nat -> bool) (f : fw) : option fw :=
  match pass cs (f_time f) (f_comps f) with
  | None => None
  | Some (ss, log) =>
      Some {| f_time := f_time f + fdt;
              f_comps := ss;
              f_done := stop (s_count (get cstate0 ss drv)) || f_done f;
              f_log := f_log f ++ log |}
  end.

(* emeli.py 998-1017 *)
Definition start_run (cs : list comp) : option (Q * fw) :=
  match framework_dt cs, init_comps cs with
  | Some fdt, Some ss => Some (fdt, {| f_time := 0; f_comps := ss; f_done := false; f_log := [] |})
  | _, _ => None
  end.

(* the while loop, cut off after at most k iterations *)
Fixpoint loop (k : nat) (cs : list comp) (fdt : Q) (drv : nat) (stop : nat -> bool) (f : fw) : option fw :=
  match k with
  | O => Some f
  | S k' => if f_done f then Some f
            else match loop_body cs fdt drv stop f with
                 | Some f' => loop k' cs fdt drv stop f'
                 | None => None
                 end
  end.

Definition run_model (k : nat) (cs : list comp) (drv : nat) (stop : nat -> bool) : option fw :=
  match start_run cs with
  | Some (fdt, f) => loop k cs fdt drv stop f
  | None => None
  end.

(* ------------------------------------------------------------------ the driver's stop rules *)

Inductive method := Q_peak_fraction (frac : Q) | Until_model_time (T_stop_min : Q) | Until_n_steps (n : Z).
(* any other stop_method raises RuntimeError at the first check (topoflow_driver.py 714) *)

Record dstate := { d_done : bool; d_index : nat; d_time : Q; d_nsame : nat; d_Qlast : Q }.

(* topoflow_driver.py 859-906 and 913: Q0 is the discharge at initialisation *)
Definition driver_init (Q0 : Q) : dstate :=
  {| d_done := false; d_index := 0; d_time := 0; d_nsame := 0; d_Qlast := Q0 |}.

Definition steady_tol : Q := 1 # 100000.
Definition nonzero_tol : Q := 1 # 100000.
Definition n_same_max : nat := 499.

(* topoflow_driver.py 653-712 *)
Definition rule_done (m : method) (index : nat) (time : Q) (Qout Qpeak Qlast : Q) (done : bool) : bool :=
  match m with
  | Q_peak_fraction frac =>
      if Qltb Qout Qlast then Qle_bool Qout (Qpeak * frac) && Qltb 0 Qout else done
  | Until_model_time ts => Qle_bool ts (time / 60)
  | Until_n_steps n => (n <=? Z.of_nat index)%Z
  end.

(* topoflow_driver.py 739-765 *)
Definition same_count (Qout Qlast : Q) (n : nat) : nat :=
  if Qle_bool (Qabs (Qout - Qlast)) steady_tol then S n else 0%nat.
Definition steady (m : method) (Qout : Q) (nsame : nat) : bool :=
  match m with
  | Q_peak_fraction _ => Qltb nonzero_tol Qout && (n_same_max <? nsame)%nat
  | _ => false
  end.

(* update(): update_time (BMI_base.py 1039-1088) then check_finished (topoflow_driver.py 642-735).
   Qout, Qpeak: discharge at the outlet and peak discharge as provided for this update. *)
Definition driver_update (m : method) (dt Qout Qpeak : Q) (s : dstate) : dstate :=
  let index := S (d_index s) in
  let time := d_time s + dt in
  let done := rule_done m index time Qout Qpeak (d_Qlast s) (d_done s) in
  let nsame := same_count Qout (d_Qlast s) (d_nsame s) in
  {| d_done := done || steady m Qout nsame; d_index := index; d_time := time;
     d_nsame := nsame; d_Qlast := Qout |}.

(* n updates; qs i / qp i are the outlet and peak discharge at update i (from 1); qs 0 at start *)
Fixpoint driver_run (m : method) (dt : Q) (qs qp : nat -> Q) (n : nat) : dstate :=
  match n with
  | O => driver_init (qs 0%nat)
  | S n' => driver_update m dt (qs n) (qp n) (driver_run m dt qs qp n')
  end.

Definition driver_stop (m : method) (dt : Q) (qs qp : nat -> Q) (n : nat) : bool :=
  d_done (driver_run m dt qs qp n).
