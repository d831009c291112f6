(* Model of the hydrologic indicators (/repo/topoflow/utils/indicators.py): monthly statistics (140-450), days per month with
   a condition (746-1047) and affected population (1150-1345).  All grid operations there are done cell by cell, so the model
   follows one cell.  A stack is the list of its grids in file order, each with the month and day of its datetime string.
   Numbers are real (float32 rounding is not modelled), values of grids are not nan. *)
From Coq Require Import Reals List Arith Bool.
From Verif Require Import Base.
Import ListNotations.
Local Open Scope R_scope.

(* results of numpy divisions *)
Inductive num := Fin (x : R) | PInf | NInf | NaN.
Definition ndiv (x : R) (n : nat) : num :=
  match n with
  | O => if Req_EM_T x 0 then NaN else if Rlt_dec 0 x then PInf else NInf
  | _ => Fin (x / INR n)
  end.
Definition nopp (a : num) : num := match a with Fin x => Fin (- x) | PInf => NInf | NInf => PInf | NaN => NaN end.
Definition nadd (a b : num) : num :=
  match a, b with
  | NaN, _ | _, NaN => NaN
  | Fin x, Fin y => Fin (x + y)
  | PInf, NInf | NInf, PInf => NaN
  | PInf, _ | _, PInf => PInf
  | NInf, _ | _, NInf => NInf
  end.
Definition nsub (a b : num) : num := nadd a (nopp b).
(* grid < threshold, grid > threshold *)
Definition below (x : R) (t : num) : bool :=
  match t with Fin y => if Rlt_dec x y then true else false | PInf => true | _ => false end.
Definition above (x : R) (t : num) : bool :=
  match t with Fin y => if Rlt_dec y x then true else false | NInf => true | _ => false end.

(* ---------- create_stat_grid_stacks, 304-441 ---------- *)
Definition max_num : R := 9999999.
Definition min_num : R := - max_num.
(* the twelve long-term values, 306-312 *)
Record tables := mkT { MIN : list R; MAX : list R; MEAN : list R; SDEV : list R; YEARS : list nat }.
Definition tables0 : tables :=
  mkT (repeat (0 + max_num) 12) (repeat (0 + min_num) 12) (repeat 0 12) (repeat 0 12) (repeat 0%nat 12).
(* the running month, 314-320; month_num is None while it is -1 *)
Record acc := mkA { month_num : option nat; per_month : nat; mn : R; mx : R; sm : R; sq : R }.
Definition acc0 : acc := mkA None 0 (0 + max_num) (0 + min_num) 0 0.
(* 347-363 and, without the count of years, 405-418 *)
Definition close_month (count : bool) (m1 : nat) (a : acc) (t : tables) : tables :=
  let m := (m1 - 1)%nat in
  let mean := sm a / INR (per_month a) in
  let msqr := sq a / INR (per_month a) in
  let sdev := sqrt (msqr - mean ^ 2) in
  mkT (set (MIN t) m (Rmin (mn a) (get 0 (MIN t) m)))
      (set (MAX t) m (Rmax (mx a) (get 0 (MAX t) m)))
      (set (MEAN t) m (get 0 (MEAN t) m + mean))
      (set (SDEV t) m (get 0 (SDEV t) m + sdev))
      (if count then set (YEARS t) m (get 0%nat (YEARS t) m + 1)%nat else YEARS t).
(* 331-399 *)
Definition stat_step (time_index : nat) (m1 : nat) (x : R) (s : acc * tables) : acc * tables :=
  let (a, t) := s in
  let new := match month_num a with Some m => negb (Nat.eqb m1 m) | None => true end in
  let t := if new then match month_num a with Some m => close_month true m a t | None => t end else t in
  let a := if new then mkA (Some m1) 0 (Rmax (mn a) max_num) (Rmin (mx a) min_num) 0 0 else a in
  (mkA (month_num a) (per_month a + 1)
       (if (0 <? time_index)%nat then Rmin (mn a) x else mn a) (Rmax (mx a) x) (sm a + x) (sq a + x ^ 2), t).
Fixpoint stat_loop (time_index : nat) (l : list (nat * R)) (s : acc * tables) : acc * tables :=
  match l with [] => s | (m1, x) :: r => stat_loop (S time_index) r (stat_step time_index m1 x s) end.
(* the twelve grids written per statistic, 405-438; an empty stack is a NameError (None) *)
Record stats := mkS { s_min : R; s_max : R; s_mean : num; s_sdev : num }.
Definition create_stat_grid_stacks (l : list (nat * R)) : option (list stats) :=
  let (a, t) := stat_loop 0 l (acc0, tables0) in
  match month_num a with
  | None => None
  | Some m => let t := close_month false m a t in
      Some (tab 12 (fun k => mkS (get 0 (MIN t) k) (get 0 (MAX t) k)
                                 (ndiv (get 0 (MEAN t) k) (get 0%nat (YEARS t) k)) (ndiv (get 0 (SDEV t) k) (get 0%nat (YEARS t) k))))
  end.

(* ---------- create_day_count_grid_stack, 881-1036 ---------- *)
Inductive condition := Low | High | Flooding | Incr | Decr.
(* 964-970; the other conditions have no threshold *)
Definition threshold (c : condition) (mean sdev : num) : num :=
  match c with Low => nsub mean sdev | High => nadd mean sdev | _ => NaN end.
(* 1008-1021 *)
Definition detect (c : condition) (thr : num) (last x : R) : bool :=
  match c with
  | Low => below x thr
  | High => above x thr
  | Flooding => if Rlt_dec (1 / 10) x then true else false
  | Incr => if Rlt_dec last x then true else false
  | Decr => if Rlt_dec x last then true else false
  end.
Record dstate := mkD { dmonth : option nat; dday : option nat; days : nat; hit : bool; written : list nat }.
Definition dstate0 : dstate := mkD None None 0 false [].
Definition same (o : option nat) (k : nat) : bool := match o with Some j => Nat.eqb k j | None => false end.
(* 916-995 and 1027; h tells whether the condition holds in the grid of this step *)
Definition day_step (m1 d : nat) (h : bool) (s : dstate) : dstate :=
  let s := if same (dmonth s) m1 then s
           else mkD (Some m1) (dday s) 0 (hit s) (match dmonth s with Some _ => written s ++ [days s] | None => written s end) in
  let s := if same (dday s) d then s
           else mkD (dmonth s) (Some d) (match dday s with Some _ => if hit s then S (days s) else days s | None => days s end)
                    false (written s) in
  mkD (dmonth s) (dday s) (days s) (if h then true else hit s) (written s).
(* last_grid starts as zeros (884) and follows the grid (1017, 1021) *)
Fixpoint day_loop (c : condition) (thr : nat -> num) (last : R) (l : list (nat * nat * R)) (s : dstate) : dstate :=
  match l with
  | [] => s
  | (m1, d, x) :: r => day_loop c thr x r (day_step m1 d (detect c (thr m1) last x) s)
  end.
(* the grids written to the file, 1033 *)
Definition create_day_count (c : condition) (thr : nat -> num) (l : list (nat * nat * R)) : list nat :=
  let s := day_loop c thr 0 l dstate0 in written s ++ [days s].
(* thresholds from the files of monthly statistics: mean and sdev of month_num - 1, 944-967 *)
Definition thresholds (c : condition) (st : list stats) (m1 : nat) : num :=
  let s := get (mkS 0 0 NaN NaN) st (m1 - 1) in threshold c (s_mean s) (s_sdev s).

(* ---------- create_affected_population_grid_stack, 1307-1335 ---------- *)
Definition clean_pop (p : R) : R := if Rlt_dec p 0 then 0 else p.
Definition affected (pop : R) (days_per_month : list nat) : list R :=
  map (fun n => if (0 <? n)%nat then clean_pop pop else 0) days_per_month.
