(* Model of the BMI base class: clock, update_until, stop rules, end time, and the
   get_value / set_value family.  Source: topoflow/utils/BMI_base.py. *)
From Coq Require Import ZArith QArith List Bool String.
From Verif Require Import Base Interp_Model.
Import ListNotations.
Local Open Scope Q_scope.

(* ------------------------------------------------------------------ clock and stop rules *)

(* stop_code 0, 1, 2 (lines 1113-1128); another code leaves TIMES_UP undefined and raises *)
Inductive stop_rule := StopSteps (n_steps : Z) | StopTime (stop_time : Q) | StopDz (tol : Q).

Record clk := { k_driver : bool; k_dt : Q; k_rule : stop_rule;
                k_time : Q; k_index : nat; k_done : bool }.

(* check_finished, lines 1092-1130; dz is the dz_max attribute at this moment *)
Definition check_finished (dz : Q) (c : clk) : clk :=
  if k_driver c then
    let times_up := match k_rule c with
                    | StopSteps n => (n <=? Z.of_nat (k_index c))%Z
                    | StopTime t => Qle_bool t (k_time c)
                    | StopDz tol => Qltb dz tol
                    end in
    {| k_driver := true; k_dt := k_dt c; k_rule := k_rule c; k_time := k_time c;
       k_index := k_index c; k_done := k_done c || times_up |}
  else c.

(* update(), lines 263-269: update_time() with dt = -1 (lines 1029-1088).  The derived clocks
   time_sec and time_min are not modelled. *)
Definition update (dz : Q) (c : clk) : clk :=
  check_finished dz {| k_driver := k_driver c; k_dt := k_dt c; k_rule := k_rule c;
                       k_time := k_time c + k_dt c; k_index := S (k_index c); k_done := k_done c |}.

(* update_frac, lines 273-279: stores the fraction in time_step, which update() does not read *)
Definition update_frac (dz : Q) (frac : Q) (c : clk) : clk := update dz c.

(* int(x): truncation towards zero *)
Definition int_of (q : Q) : Z := Z.quot (Qnum q) (Zpos (Qden q)).

(* update_until, lines 283-289; a zero step gives inf or nan, whose int() raises: None *)
Definition update_until (dz : Q) (later : Q) (c : clk) : option clk :=
  if Qeq_bool (k_dt c) 0 then None
  else
    let n_steps := (later - k_time c) / k_dt c in
    Some (update_frac dz (n_steps - inject_Z (int_of n_steps))
            (Nat.iter (Z.to_nat (int_of n_steps)) (update dz) c)).

(* run_model, lines 918-941, at most k iterations; the initialised component is in driver mode
   (line 893).  dzs i is dz_max during update i. *)
Fixpoint run_until_done (k : nat) (dzs : nat -> Q) (c : clk) : clk :=
  match k with
  | O => c
  | S k' => if k_done c then c
            else run_until_done k' dzs (check_finished (dzs (S (k_index c))) (update (dzs (S (k_index c))) c))
  end.

(* get_end_time, lines 500-526.  has_stop_time: the attribute stop_time, if present.  fixed: the
   time_step_type attribute is 'fixed'.  None: cannot be computed (the largest double is returned). *)
Definition get_end_time (has_stop_time : option Q) (fixed : bool) (n_steps : option Z) (stop_code : Z) (dt : Q) : option Q :=
  match has_stop_time with
  | Some t => Some t
  | None => match n_steps with
            | Some n => if fixed && (stop_code =? 0)%Z then Some (inject_Z n * dt) else None
            | None => None
            end
  end.

(* ------------------------------------------------------------------ variables *)

(* A component: the _var_name_map (long name -> attribute name) and its attributes, each bound to
   an array object in memory. *)
Record obj := { o_map : list (string * string); o_attrs : list (string * nat) }.

Fixpoint assoc {A} (l : list (string * A)) (x : string) : option A :=
  match l with
  | [] => None
  | (k, v) :: l' => if String.eqb x k then Some v else assoc l' x
  end.

(* setattr *)
Definition setattr (o : obj) (x : string) (l : nat) : obj :=
  {| o_map := o_map o; o_attrs := (x, l) :: o_attrs o |}.

(* get_value_ptr, lines 596-599: KeyError / AttributeError: None *)
Definition get_value_ptr (o : obj) (long : string) : option nat :=
  match assoc (o_map o) long with
  | None => None
  | Some v => assoc (o_attrs o) v
  end.

(* dest[:] = a, for the array object at dest; None: IndexError or ValueError *)
Definition assign_all (h : heap) (dest : nat) (a : arr) : option heap :=
  let d := load h dest in
  if a_0d d then None
  else match spread (List.length (a_vals d)) a with
       | Some vs => Some (set h dest {| a_0d := false; a_vals := vs |})
       | None => None
       end.

(* get_value(long, dest), lines 564-592.  On any exception the variable is replaced by zeros of its
   own shape (a missing attribute has shape ()), and dest[:] is tried again. *)
Definition get_value (h : heap) (o : obj) (long : string) (dest : nat) : option heap :=
  match assoc (o_map o) long with
  | None => None
  | Some v =>
      match assoc (o_attrs o) v with
      | Some l =>
          match assign_all h dest (load h l) with
          | Some h' => Some h'
          | None => assign_all h dest {| a_0d := a_0d (load h l);
                                         a_vals := map (fun _ => 0) (a_vals (load h l)) |}
          end
      | None => assign_all h dest {| a_0d := true; a_vals := [0] |}
      end
  end.

(* set_value(long, value), lines 634-652: binds the attribute to the caller's object *)
Definition set_value (o : obj) (long : string) (value : nat) : option obj :=
  match assoc (o_map o) long with
  | None => None
  | Some v => Some (setattr o v value)
  end.

(* set_value_at_indices, lines 656-669: setattr under the name  var_name + '.flat[IDs]' *)
Definition set_value_at_indices (o : obj) (long : string) (IDs : list Z) (value : nat) : option obj :=
  match assoc (o_map o) long with
  | None => None
  | Some v => Some (setattr o (v ++ ".flat[IDs]") value)
  end.

(* ndarray.take(IDs): flat indexing, negative indices count from the end; IndexError: None *)
Definition take1 (l : list Q) (i : Z) : option Q :=
  let n := Z.of_nat (List.length l) in
  if ((- n <=? i) && (i <? n))%Z
  then Some (get 0 l (Z.to_nat (if (i <? 0)%Z then i + n else i)))
  else None.
Fixpoint take (l : list Q) (IDs : list Z) : option (list Q) :=
  match IDs with
  | [] => Some []
  | i :: r => match take1 l i, take l r with Some x, Some xs => Some (x :: xs) | _, _ => None end
  end.

(* get_value_at_indices(long, dest, IDs), lines 603-611 *)
Definition get_value_at_indices (h : heap) (o : obj) (long : string) (dest : nat) (IDs : list Z) : option heap :=
  match get_value_ptr o long with
  | None => None
  | Some l =>
      match take (a_vals (load h l)) IDs with
      | None => None
      | Some vs => assign_all h dest {| a_0d := false; a_vals := vs |}
      end
  end.
