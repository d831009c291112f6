(** Model of the start and the end of a run that a provider file describes:
    topoflow/framework/emeli.py 421-456 (read_provider_file), 460-474, 487-553
    (instantiate_comp), 846-886 (finalize_all), 951-993 (run_model) and 1398-1499
    (initialize_comp_set).

    The repository maps the names of components to their input and output names
    (read_repository and the import of modules are not modelled).  A component is
    seen through the calls it gets.  Printing is left out. *)

From Coq Require Import String Ascii List Bool Arith.
From Verif Require Import Time_Model Io_Model Fmt_Model Emeli_Model.
Import ListNotations.

(** 444-456: the loop; [fuel] bounds the number of lines *)
Fixpoint provider_loop (fuel : nat) (s : string) : option (list string) :=
  match fuel with
  | O => None
  | S f =>
    let '(line, rest) := readline s in
    match line with
    | EmptyString => Some []
    | String a _ =>
      match provider_loop f rest with
      | None => None
      | Some l => if negb (Ascii.eqb a "#")
                  then match words line with _ :: w :: _ => Some (w :: l) | _ => Some l end
                  else Some l
      end
    end
  end.
Definition read_provider_file (s : string) : option (list string) := provider_loop (S (String.length s)) s.

(** What the repository knows. *)
Definition repo := string -> option names.

(** 500-501, 514-515, 553 for each name of the list: comp_set, an ordered
    dictionary.  A name that is not in the repository is passed over; a second
    instance takes the place of the first.  None: comp_set does not exist. *)
Definition add_comp (n : names) (cs : list names) : list names :=
  if existsb (fun m => String.eqb (n_comp m) (n_comp n)) cs
  then map (fun m => if String.eqb (n_comp m) (n_comp n) then n else m) cs
  else cs ++ [n].
Definition instantiate_comp (R : repo) (cs : option (list names)) (name : string) : option (list names) :=
  match R name with
  | None => cs
  | Some n => Some (add_comp n (match cs with Some l => l | None => [] end))
  end.
Definition instantiate_all (R : repo) (pl : list string) : option (list names) :=
  fold_left (instantiate_comp R) pl None.

(** self.comp_set[name] *)
Definition find_comp (cs : list names) (name : string) : option names :=
  find (fun m => String.eqb (n_comp m) name) cs.

(** Calls that components get, in order. *)
Inductive call := Initialize (name : string) (driver : bool) | SetValue (user var provider : string) | Finalize (name : string).

(** How the start ends: an exception after these calls, a return before the
    first step (OK is False), or a run. *)
Inductive ended := Raised (e : exn) (l : list call) | NotOK | Running (l : list call).

(** 1459-1497: initialise and connect *)
Fixpoint init_loop (cs : list names) (drv : string) (pl : list string) (done : list call) : ended :=
  match pl with
  | [] => Running done
  | p :: r =>
    match find_comp cs p with
    | None => Raised KeyError done
    | Some n =>
      init_loop cs drv r
        (done ++ [Initialize p (String.eqb p drv)] ++
         flat_map (fun x => map (fun u => SetValue u x p)
                                (match dict_get (snd (find_users cs)) x with Some l => l | None => [] end)) (n_out n))
    end
  end.

(** 927-993: from the provider file to the first step *)
Definition start (R : repo) (drv : string) (text : string) : option ended :=
  match read_provider_file text with
  | None => None
  | Some pl =>
    Some match instantiate_all R pl with
         | None => Raised AttributeError []
         | Some cs => match find_comp cs drv with
                      | None => Raised KeyError []
                      | Some _ => if check_providers cs then init_loop cs drv pl [] else NotOK
                      end
         end
  end.

(** 863-886: the end (the values a component asks for are left out) *)
Definition finalize_calls (pl : list string) : list call := map Finalize pl.
