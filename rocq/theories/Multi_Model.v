(* Model of the NextGen wrapper: one BMI object that holds a whole TopoFlow configuration.
   Source: topoflow/framework/multi_bmi.py, with topoflow/framework/time_interpolation.py.
   Clocks, status and framework step are those of Emeli_Model (the wrapper repeats emeli.py);
   this file adds the values exchanged and the calls an outside program makes.
   Simplifications: a variable is one value of an arbitrary type V, held by value, so that sharing
   of arrays between components is left out (Interp_Model has it); exceptions are None. *)
From Coq Require Import ZArith QArith List Bool String.
From Verif Require Import Base Emeli_Model Interp_Model.
From Verif Require Bmi_Model.
Import ListNotations.
Local Open Scope Q_scope.

Section Multi.
Variable V : Type.
(* a*time + b for the data (v1,t1), (v2,t2): time_interpolation.py 63-133 and 670 *)
Variable line : V -> Q -> V -> Q -> Q -> V.

(* One component: its key in comp_set with its variable names, step, time units, comp_status, and
   what update() does to its variables (long name -> value). *)
Record mcomp := { mc_names : names; mc_dt : Q; mc_units : tunits; mc_status : status;
                  mc_step : (string -> V) -> string -> V }.

Definition names_of (cs : list mcomp) : list names := map mc_names cs.

(* the position of comp_set[c] in provider_list *)
Fixpoint position (cs : list mcomp) (c : string) : option nat :=
  match cs with
  | [] => None
  | m :: cs' => if String.eqb c (n_comp (mc_names m)) then Some 0%nat
                else match position cs' c with Some k => Some (S k) | None => None end
  end.

(* multi_bmi.py 2179-2181 and 1249-1252: comp_set[ var_providers[x][0] ]; KeyError: None *)
Definition provider_pos (cs : list mcomp) (x : string) : option nat :=
  match dict_get (snd (find_providers (names_of cs))) x with
  | Some (p :: _) => position cs p
  | _ => None
  end.

(* the clock view of the components, as in Emeli_Model *)
Definition clock_comp (cs : list mcomp) (m : mcomp) : comp :=
  {| c_dt := mc_dt m; c_units := mc_units m; c_status := mc_status m;
     c_needs := map (fun x => match provider_pos cs x with Some p => p | None => 0%nat end)
                    (n_in (mc_names m)) |}.
Definition clock_comps (cs : list mcomp) : list comp := map (clock_comp cs) cs.

Definition mcomp0 : mcomp :=
  {| mc_names := {| n_comp := ""; n_out := []; n_in := [] |}; mc_dt := 0; mc_units := OtherUnits;
     mc_status := Disabled; mc_step := fun a => a |}.

Definition values := nat -> string -> V.
Definition put_value (w : values) (i : nat) (x : string) (v : V) : values :=
  fun j y => if (j =? i)%nat && String.eqb y x then v else w j y.
Definition put_all (w : values) (i : nat) (a : string -> V) : values :=
  fun j y => if (j =? i)%nat then a y else w j y.

(* self.time, the components' clocks, their variables, time_interp_vars[x] as (v1,v2) (its times
   are s_t1, s_t2 of the provider), and self.DONE *)
Record mstate := { m_time : Q; m_clocks : list cstate; m_vals : values;
                   m_data : string -> V * V; m_done : bool }.

(* time_interpolator.get_values, time_interpolation.py 591-678, method Linear (the wrapper always
   passes 'Linear', multi_bmi.py 363) *)
Definition given (clocks : list cstate) (w : values) (data : string -> V * V)
                 (p : nat) (x : string) (t : Q) : V :=
  let cp := get cstate0 clocks p in
  if s_init cp then w p x else line (fst (data x)) (s_t1 cp) (snd (data x)) (s_t2 cp) t.

(* get_required_vars, multi_bmi.py 2160-2262 *)
Definition require_var (cs : list mcomp) (clocks : list cstate) (data : string -> V * V)
                       (i : nat) (t : Q) (st : option values) (x : string) : option values :=
  match st with
  | None => None
  | Some w => match provider_pos cs x with
              | None => None
              | Some p => Some (put_value w i x (given clocks w data p x t))
              end
  end.
Definition get_required_vars (cs : list mcomp) (clocks : list cstate) (data : string -> V * V)
                             (i : nat) (t : Q) (w : values) : option values :=
  fold_left (require_var cs clocks data i t) (n_in (mc_names (get mcomp0 cs i))) (Some w).

(* bmi.update() of component i on its variables; a disabled component returns at once *)
Definition step_vals (m : mcomp) (i : nat) (w : values) : values :=
  match mc_status m with Disabled => w | _ => put_all w i (mc_step m (w i)) end.

(* time_interp_data.update for the names in vars_provided[comp] (update2, lines 540-566) *)
Definition shift_data (cs : list mcomp) (m : mcomp) (i : nat) (w : values) (data : string -> V * V)
  : string -> V * V :=
  fun x => if mem x (vars_provided (names_of cs) (mc_names m)) then (snd (data x), w i x) else data x.

(* the body of the loop in update(), multi_bmi.py 671-695, for the component at position i *)
Definition mvisit (cs : list mcomp) (T : Q) (st : option mstate) (i : nat) : option mstate :=
  match st with
  | None => None
  | Some s =>
      let m := get mcomp0 cs i in
      let c := clock_comp cs m in
      let k := get cstate0 (m_clocks s) i in
      let t := fw_secs (mc_units m) (s_time k) in
      if Qltb t T then
        match get_required_vars cs (m_clocks s) (m_data s) i t (m_vals s) with
        | None => None
        | Some w =>
            let k1 := match mc_status m with Enabled => bmi_update c k | _ => k end in
            let w1 := match mc_status m with Enabled => step_vals m i w | _ => w end in
            match update2 c k1 with
            | None => None
            | Some k2 =>
                Some {| m_time := m_time s; m_clocks := set (m_clocks s) i k2; m_vals := w1;
                        m_data := if s_init k1 then m_data s else shift_data cs m i w1 (m_data s);
                        m_done := m_done s |}
            end
        end
      else Some s
  end.

(* update(), multi_bmi.py 655-715 with update_time 1911-1924.  fdt: self.dt; drv: the driver's
   position; stop n: the driver's DONE after its n-th update.  DONE is not tested here. *)
Definition mupdate (cs : list mcomp) (fdt : Q) (drv : nat) (stop : nat -> bool) (s : mstate) : option mstate :=
  match fold_left (mvisit cs (m_time s)) (seq 0 (List.length cs)) (Some s) with
  | None => None
  | Some s' => Some {| m_time := m_time s' + fdt; m_clocks := m_clocks s'; m_vals := m_vals s';
                       m_data := m_data s';
                       m_done := stop (s_count (get cstate0 (m_clocks s') drv)) || m_done s' |}
  end.

(* update_frac, multi_bmi.py 720-726: stores frac * time step in self.time_step, which nothing
   reads, and calls update() *)
Definition mupdate_frac (cs : list mcomp) (fdt : Q) (drv : nat) (stop : nat -> bool) (frac : Q)
                        (s : mstate) : option mstate := mupdate cs fdt drv stop s.

Fixpoint mupdates (n : nat) (cs : list mcomp) (fdt : Q) (drv : nat) (stop : nat -> bool) (s : mstate) : option mstate :=
  match n with
  | O => Some s
  | S n' => match mupdate cs fdt drv stop s with
            | Some s' => mupdates n' cs fdt drv stop s'
            | None => None
            end
  end.

(* update_until, multi_bmi.py 730-736; range(k) is empty for k <= 0; int() of the quotient of a
   zero step raises *)
Definition mupdate_until (cs : list mcomp) (fdt : Q) (drv : nat) (stop : nat -> bool) (later : Q)
                         (s : mstate) : option mstate :=
  if Qeq_bool fdt 0 then None
  else
    let n_steps := (later - m_time s) / fdt in
    match mupdates (Z.to_nat (Bmi_Model.int_of n_steps)) cs fdt drv stop s with
    | Some s' => mupdate_frac cs fdt drv stop (n_steps - inject_Z (Bmi_Model.int_of n_steps)) s'
    | None => None
    end.

(* a program that calls update_until again and again *)
Fixpoint mtargets (cs : list mcomp) (fdt : Q) (drv : nat) (stop : nat -> bool) (ts : list Q) (s : mstate) : option mstate :=
  match ts with
  | [] => Some s
  | t :: ts' => match mupdate_until cs fdt drv stop t s with
                | Some s' => mtargets cs fdt drv stop ts' s'
                | None => None
                end
  end.

(* set_value, multi_bmi.py 1018-1033: in every user of the name; KeyError without users: None *)
Definition mset_value (cs : list mcomp) (x : string) (v : V) (s : mstate) : option mstate :=
  match dict_get (snd (find_users (names_of cs))) x with
  | None => None
  | Some us =>
      Some {| m_time := m_time s; m_clocks := m_clocks s;
              m_vals := fold_left (fun w u => match position cs u with
                                              | Some i => put_value w i x v
                                              | None => w
                                              end) us (m_vals s);
              m_data := m_data s; m_done := m_done s |}
  end.

(* get_value / get_value_ptr, multi_bmi.py 941-972: from the provider *)
Definition mget_value (cs : list mcomp) (x : string) (s : mstate) : option V :=
  match provider_pos cs x with Some p => Some (m_vals s p x) | None => None end.

(* time_interpolator.initialize, time_interpolation.py 240-289, for the component at position i *)
Definition mstart_comp (cs : list mcomp) (st : option mstate) (i : nat) : option mstate :=
  match st with
  | None => None
  | Some s =>
      let m := get mcomp0 cs i in
      match init_comp (clock_comp cs m) with
      | None => None
      | Some k =>
          let w := step_vals m i (m_vals s) in
          Some {| m_time := 0; m_clocks := m_clocks s ++ [k]; m_vals := w;
                  m_data := (fun x => if mem x (vars_provided (names_of cs) (mc_names m))
                                      then (m_vals s i x, w i x) else m_data s x);
                  m_done := false |}
      end
  end.

(* What initialize() leaves behind, multi_bmi.py 594-650: a wrapper ready to run, with its step, or
   (lines 625-627, provider check failed) one without clock, interpolator and step.  The second
   case raises nothing.  w, d: the variables after the components' own initialize() and the first
   exchange (1640-1700; needs cfunits only if units differ), and arbitrary interpolation data. *)
Inductive wrapper := Ready (fdt : Q) (s : mstate) | Unready.

Definition minitialize (cs : list mcomp) (w : values) (d : string -> V * V) : option wrapper :=
  if check_providers (names_of cs) then
    match framework_dt (clock_comps cs),
          fold_left (mstart_comp cs) (seq 0 (List.length cs))
            (Some {| m_time := 0; m_clocks := []; m_vals := w; m_data := d; m_done := false |}) with
    | Some fdt, Some s => Some (Ready fdt s)
    | _, _ => None
    end
  else Some Unready.

(* update() on either; AttributeError (self.time, self.time_interpolator) on the second *)
Definition wupdate (cs : list mcomp) (drv : nat) (stop : nat -> bool) (a : wrapper) : option wrapper :=
  match a with
  | Ready fdt s => match mupdate cs fdt drv stop s with Some s' => Some (Ready fdt s') | None => None end
  | Unready => None
  end.

End Multi.

(* get_value_at_indices(long, dest, indices), multi_bmi.py 976-1013: the indices are replaced by the
   provider's outlet_flat_ID (an attribute of components that read an outlet file; AttributeError
   otherwise: None).  The result is in dest; nothing is returned. *)
Definition mget_value_at_indices (h : heap) (o : Bmi_Model.obj) (outlet_flat_ID : option Z)
                                 (long : string) (dest : nat) (indices : list Z) : option heap :=
  match outlet_flat_ID with
  | None => None
  | Some k => Bmi_Model.get_value_at_indices h o long dest [k]
  end.
