(** C96: the provider file, and which components a run starts and ends. *)

From Coq Require Import String Ascii List Bool Arith Lia.
From Verif Require Import Time_Model Time_Proofs Io_Model Io_Proofs Rti_Model Rti_Proofs Fmt_Model Fmt_Proofs Divfile_Spec Divfile_Proofs Emeli_Model Provider_Model.
Import ListNotations.

(** ** Reading *)

(** What a line of a provider file says: a comment, too little, or a component. *)
Inductive line_gives : string -> option string -> Prop :=
  | gives_comment r : line_gives (String "#" r) None
  | gives_little l ws : (forall r, l <> String "#" r) -> spaced ws l -> length ws <= 1 -> line_gives l None
  | gives_component l kind name ws : (forall r, l <> String "#" r) -> spaced (kind :: name :: ws) l ->
      line_gives l (Some name).

Fixpoint given (l : list (option string)) : list string :=
  match l with [] => [] | Some x :: r => x :: given r | None :: r => given r end.

Lemma first_char (a : ascii) r : (forall x, String a r <> String "#" x) -> Ascii.eqb a "#" = false.
Proof. intro H. destruct (Ascii.eqb_spec a "#") as [->|]; [now elim (H r)|reflexivity]. Qed.

Lemma line_step l o e rest : line_gives l o -> e = EmptyString \/ e = String newline EmptyString ->
  forall a r, (l ++ e)%string = String a r ->
  (if negb (Ascii.eqb a "#") then match words (l ++ e) with _ :: w :: _ => Some (w :: rest) | _ => Some rest end else Some rest)
  = Some (given [o] ++ rest).
Proof.
  intros G E a r A.
  assert (W : words (l ++ e) = words l).
  { apply words_space_end. destruct E as [->| ->]; reflexivity. }
  assert (F : forall l', (forall x, l' <> String "#" x) -> (l' ++ e)%string = String a r -> Ascii.eqb a "#" = false).
  { intros l' N X. destruct l' as [|b l'].
    - cbn in X. destruct E as [->| ->]; [discriminate X|]. injection X as <- _. reflexivity.
    - cbn in X. injection X as <- _. now apply (first_char b l'). }
  rewrite W. destruct G as [x|l ws N S L|l k n ws N S].
  - cbn in A. injection A as <- _. reflexivity.
  - rewrite (F l N A). cbn [negb]. apply spaced_words in S. rewrite S.
    destruct ws as [|w [|w' ws]]; cbn in L; try lia; reflexivity.
  - rewrite (F l N A). cbn [negb]. apply spaced_words in S. now rewrite S.
Qed.

Lemma provider_loop_text ls t : text ls t -> forall os, Forall2 line_gives ls os ->
  forall fuel, String.length t < fuel -> provider_loop fuel t = Some (given os).
Proof.
  induction 1 as [|l N|l r t N _ IH]; intros os F fuel L; (destruct fuel as [|fuel]; [lia|]).
  - inversion F; subst. reflexivity.
  - inversion F as [|? o ? os' G F']; subst. inversion F'; subst. cbn [provider_loop].
    rewrite readline_end by exact N. destruct l as [|a l].
    + cbn. inversion G as [|? ? ? S ?|? ? ? ? ? S]; subst; [reflexivity|].
      apply spaced_words in S. discriminate S.
    + assert (X : provider_loop fuel EmptyString = Some []) by (destruct fuel as [|fuel]; [cbn in L; lia|reflexivity]).
      rewrite X. pose proof (line_step _ _ EmptyString [] G (or_introl eq_refl) a l (app_nil_s _)) as Y.
      rewrite app_nil_s in Y. rewrite Y. now rewrite app_nil_r.
  - inversion F as [|? o ? os' G F']; subst. cbn [provider_loop]. rewrite readline_line by exact N.
    rewrite length_app_s in L. cbn [String.length] in L.
    destruct (l ++ String newline EmptyString)%string as [|a x] eqn:A.
    { apply (f_equal String.length) in A. rewrite length_app_s in A. cbn in A. lia. }
    rewrite (IH _ F' fuel) by lia. rewrite <- A.
    rewrite (line_step l o (String newline EmptyString) (given os') G (or_intror eq_refl) a x A).
    destruct o; reflexivity.
Qed.

(** The second word of every line that is not a comment, in order; what follows
    it, short lines and comments are passed over. *)
Theorem C96_read (ls : list string) (os : list (option string)) (t : string) :
  text ls t -> Forall2 line_gives ls os -> read_provider_file t = Some (given os).
Proof. intros T F. unfold read_provider_file. eapply provider_loop_text; [exact T|exact F|lia]. Qed.
Print Assumptions C96_read.

(** A comment that does not start in the first column is taken for a component. *)
Theorem C96_indented_comment_refuted (g name rest : string) :
  allspace g = true -> g <> EmptyString -> nosep newline g = true -> nospace name = true -> name <> EmptyString ->
  nosep newline rest = true -> rest = EmptyString \/ (exists a r, rest = String a r /\ is_space a = true) ->
  read_provider_file (g ++ "# " ++ name ++ rest) = Some [name].
Proof.
  intros G NE NG N M NR R.
  assert (NN : nosep newline name = true) by (now apply nospace_nonl).
  set (l := (g ++ "# " ++ name ++ rest)%string).
  assert (NA : forall a b, nosep newline a = true -> nosep newline b = true -> nosep newline (a ++ b) = true)
    by (intros; now apply nosep_app_lit).
  assert (T : text [l] l) by (constructor; unfold l; repeat apply NA; auto).
  assert (F : forall r, l <> String "#" r).
  { intros r E. unfold l in E. destruct g as [|a g]; [easy|]. injection E as -> _. discriminate G. }
  destruct (words l) as [|x [|y zs]] eqn:W.
  1, 2: exfalso; unfold l in W; rewrite words_space in W by exact G;
        change ("# " ++ name ++ rest)%string with ("#" ++ String " " (name ++ rest))%string in W;
        rewrite words_word in W by (reflexivity || discriminate);
        (destruct R as [->|(a & r & -> & A)]; [rewrite app_nil_s, words_end in W by assumption|rewrite words_word in W by assumption]);
        discriminate W.
  assert (V : y = name).
  { unfold l in W. rewrite words_space in W by exact G.
    change ("# " ++ name ++ rest)%string with ("#" ++ String " " (name ++ rest))%string in W.
    rewrite words_word in W by (reflexivity || discriminate).
    destruct R as [->|(a & r & -> & A)]; [rewrite app_nil_s, words_end in W by assumption|rewrite words_word in W by assumption];
      congruence. }
  subst y. unfold read_provider_file. cbn [provider_loop]. inversion T as [|? NL|]; subst.
  2:{ match goal with H : text [] _ |- _ => inversion H; subst end.
      exfalso. match goal with H : (_ ++ _)%string = _ |- _ => apply (f_equal String.length) in H; rewrite length_app_s in H; cbn in H; lia end. }
  rewrite readline_end by exact NL. rewrite W. destruct l as [|a l'] eqn:E; [discriminate W|].
  rewrite (first_char a l' F). reflexivity.
Qed.
Print Assumptions C96_indented_comment_refuted.

(** ** Starting *)

(** The repository files each component under its name. *)
Definition well_named (R : repo) : Prop := forall name n, R name = Some n -> n_comp n = name.

(** The names of comp_set: each once, in the order of first mention. *)
Fixpoint first_mentions (seen l : list string) : list string :=
  match l with
  | [] => []
  | x :: r => if mem x seen then first_mentions seen r else x :: first_mentions (seen ++ [x]) r
  end.
Definition known (R : repo) (x : string) : bool := match R x with Some _ => true | None => false end.

Lemma mem_in x l : mem x l = true <-> In x l.
Proof.
  unfold mem. rewrite existsb_exists. split.
  - intros (y & I & E). apply String.eqb_eq in E. now subst.
  - intro I. exists x. split; [exact I|apply String.eqb_refl].
Qed.

Lemma add_comp_names n cs : map n_comp (add_comp n cs) = map n_comp cs ++ (if mem (n_comp n) (map n_comp cs) then [] else [n_comp n]).
Proof.
  unfold add_comp, mem.
  assert (X : existsb (fun m => String.eqb (n_comp m) (n_comp n)) cs = existsb (String.eqb (n_comp n)) (map n_comp cs)).
  { induction cs as [|m cs IH]; [reflexivity|]. cbn. now rewrite IH, String.eqb_sym. }
  rewrite <- X. destruct (existsb _ cs).
  - rewrite map_map, app_nil_r. apply map_ext. intro m. destruct (String.eqb_spec (n_comp m) (n_comp n)); congruence.
  - now rewrite map_app.
Qed.
Lemma add_comp_from R n cs : R (n_comp n) = Some n -> Forall (fun m => R (n_comp m) = Some m) cs ->
  Forall (fun m => R (n_comp m) = Some m) (add_comp n cs).
Proof.
  intros H F. unfold add_comp. destruct (existsb _ cs).
  - apply Forall_forall. intros m I. apply in_map_iff in I as (k & E & I). rewrite Forall_forall in F.
    destruct (String.eqb (n_comp k) (n_comp n)); subst m; auto.
  - apply Forall_app. split; [exact F|now constructor].
Qed.

Lemma instantiate_more R pl : well_named R -> forall cs0, Forall (fun m => R (n_comp m) = Some m) cs0 ->
  exists cs, fold_left (instantiate_comp R) pl (Some cs0) = Some cs /\
    map n_comp cs = map n_comp cs0 ++ first_mentions (map n_comp cs0) (filter (known R) pl) /\
    Forall (fun m => R (n_comp m) = Some m) cs.
Proof.
  intro W. induction pl as [|p pl IH]; intros cs0 F.
  - exists cs0. cbn. now rewrite app_nil_r.
  - cbn [fold_left filter]. unfold instantiate_comp at 2. unfold known at 1. destruct (R p) as [n|] eqn:P; [|now apply IH].
    pose proof (W _ _ P) as E. subst p.
    destruct (IH (add_comp n cs0)) as (cs & A & B & C); [now apply add_comp_from|].
    exists cs. split; [exact A|]. split; [|exact C]. rewrite B, add_comp_names. cbn [first_mentions].
    destruct (mem (n_comp n) (map n_comp cs0)); [now rewrite app_nil_r|]. now rewrite <- app_assoc.
Qed.

(** The components of a run: those of the file that the repository knows, each
    once.  If it knows none, there is no set of components at all. *)
Theorem C96_set (R : repo) (pl : list string) : well_named R ->
  (filter (known R) pl = [] -> instantiate_all R pl = None) /\
  (filter (known R) pl <> [] -> exists cs, instantiate_all R pl = Some cs /\
     map n_comp cs = first_mentions [] (filter (known R) pl) /\ Forall (fun m => R (n_comp m) = Some m) cs).
Proof.
  intro W. unfold instantiate_all. induction pl as [|p pl [IH1 IH2]]; [now split|].
  cbn [fold_left filter]. destruct (R p) as [n|] eqn:P.
  - assert (K : known R p = true) by (unfold known; now rewrite P).
    assert (I : instantiate_comp R None p = Some (add_comp n [])) by (unfold instantiate_comp; now rewrite P).
    rewrite K, I. split; [discriminate|]. intros _. pose proof (W _ _ P) as E. subst p.
    destruct (instantiate_more R pl W (add_comp n [])) as (cs & A & B & C); [apply add_comp_from; [exact P|constructor]|].
    exists cs. split; [exact A|]. split; [|exact C]. rewrite B. reflexivity.
  - assert (K : known R p = false) by (unfold known; now rewrite P).
    assert (I : instantiate_comp R None p = None) by (unfold instantiate_comp; now rewrite P).
    rewrite K, I. split; assumption.
Qed.
Print Assumptions C96_set.

Lemma first_mentions_in l : forall seen x, In x (first_mentions seen l) <-> In x l /\ ~ In x seen.
Proof.
  induction l as [|y l IH]; intros seen x; cbn [first_mentions].
  - cbn. tauto.
  - destruct (mem y seen) eqn:M.
    + rewrite IH. apply mem_in in M. cbn [In]. split; [tauto|]. intros [[->|I] N]; tauto.
    + assert (N : ~ In y seen) by (intro I; apply mem_in in I; congruence).
      cbn [In]. rewrite IH, in_app_iff. cbn [In]. destruct (string_dec y x) as [->|D]; [tauto|]. tauto.
Qed.

(** Exactly once each. *)
Theorem C96_set_once (R : repo) (pl : list string) (cs : list names) : well_named R -> instantiate_all R pl = Some cs ->
  NoDup (map n_comp cs) /\ (forall n, In n cs <-> exists name, In name pl /\ R name = Some n).
Proof.
  intros W E. destruct (C96_set R pl W) as [A B].
  destruct (filter (known R) pl) eqn:K; [rewrite A in E by reflexivity; discriminate E|].
  destruct B as (cs' & E' & M & F); [discriminate|]. rewrite E in E'. injection E' as <-. rewrite <- K in *. clear A K.
  split.
  - rewrite M. clear. generalize (@nil string) as seen. induction (filter (known R) pl) as [|x r IH]; intro seen; cbn [first_mentions]; [constructor|].
    destruct (mem x seen); [apply IH|]. constructor; [|apply IH]. rewrite first_mentions_in, in_app_iff. cbn. tauto.
  - intro n. split.
    + intro I. rewrite Forall_forall in F. exists (n_comp n). split; [|now apply F].
      assert (J : In (n_comp n) (map n_comp cs)) by now apply in_map.
      rewrite M, first_mentions_in in J. destruct J as [J _]. now apply filter_In in J.
    + intros (name & I & P). pose proof (W _ _ P) as N. subst name.
      assert (J : In (n_comp n) (map n_comp cs)).
      { rewrite M, first_mentions_in. split; [|easy]. apply filter_In. split; [exact I|]. unfold known. now rewrite P. }
      apply in_map_iff in J as (m & Q & J). rewrite Forall_forall in F. pose proof (F _ J) as G. rewrite Q in G. congruence.
Qed.
Print Assumptions C96_set_once.

Lemma find_comp_known R pl cs p : well_named R -> instantiate_all R pl = Some cs -> In p pl -> find_comp cs p = R p.
Proof.
  intros W E I. destruct (C96_set_once R pl cs W E) as [_ B]. unfold find_comp.
  destruct (find _ cs) as [m|] eqn:F.
  - apply find_some in F as [J Q]. apply String.eqb_eq in Q. apply B in J as (name & _ & P).
    pose proof (W _ _ P) as N. congruence.
  - destruct (R p) as [n|] eqn:P; [|reflexivity]. exfalso.
    assert (J : In n cs) by (apply B; now exists p). pose proof (find_none _ _ F _ J) as X. cbn in X.
    rewrite (W _ _ P), String.eqb_refl in X. discriminate X.
Qed.
Lemma find_comp_not R pl cs p : well_named R -> instantiate_all R pl = Some cs -> ~ In p pl -> find_comp cs p = None.
Proof.
  intros W E I. destruct (C96_set_once R pl cs W E) as [_ B]. unfold find_comp.
  destruct (find _ cs) as [m|] eqn:F; [|reflexivity]. apply find_some in F as [J Q]. apply String.eqb_eq in Q.
  apply B in J as (name & J & P). pose proof (W _ _ P). congruence.
Qed.

(** The components that were initialised, in order, and which as the driver. *)
Fixpoint initialised (l : list call) : list (string * bool) :=
  match l with [] => [] | Initialize n d :: r => (n, d) :: initialised r | _ :: r => initialised r end.
Fixpoint finalised (l : list call) : list string :=
  match l with [] => [] | Finalize n :: r => n :: finalised r | _ :: r => finalised r end.

Lemma initialised_app a b : initialised (a ++ b) = initialised a ++ initialised b.
Proof. induction a as [|[] a IH]; cbn; congruence. Qed.
Lemma initialised_set f us : initialised (flat_map (fun x : string => map (fun u => SetValue u x f) (us x)) []) = [].
Proof. reflexivity. Qed.
Lemma initialised_sets p us l : initialised (flat_map (fun x : string => map (fun u : string => SetValue u x p) (us x)) l) = [].
Proof.
  induction l as [|x l IH]; [reflexivity|]. cbn [flat_map]. rewrite initialised_app, IH, app_nil_r.
  induction (us x) as [|u r IHr]; [reflexivity|exact IHr].
Qed.

Lemma init_loop_spec cs drv a : (forall p, In p a -> find_comp cs p <> None) -> forall b done,
  exists l, init_loop cs drv (a ++ b) done = init_loop cs drv b (done ++ l) /\
            initialised l = map (fun p => (p, String.eqb p drv)) a.
Proof.
  induction a as [|p a IH]; intros K b done.
  - exists []. now rewrite app_nil_r.
  - cbn [app init_loop]. destruct (find_comp cs p) as [n|] eqn:F; [|now elim (K p (or_introl eq_refl))].
    destruct (IH (fun q I => K q (or_intror I)) b
      (done ++ [Initialize p (String.eqb p drv)] ++
         flat_map (fun x => map (fun u => SetValue u x p)
                                (match dict_get (snd (find_users cs)) x with Some l => l | None => [] end)) (n_out n))) as (l & E & M).
    eexists. split; [etransitivity; [exact E|]; rewrite <- app_assoc; reflexivity|].
    rewrite initialised_app, initialised_app, initialised_sets, M. reflexivity.
Qed.

(** A file whose names are all known starts every one of them as often as it is
    named, in the order of the file, and one of them as the driver. *)
Theorem C96_start (R : repo) (drv t : string) (pl : list string) (cs : list names) :
  well_named R -> read_provider_file t = Some pl -> (forall p, In p pl -> R p <> None) -> In drv pl ->
  instantiate_all R pl = Some cs -> check_providers cs = true ->
  exists l, start R drv t = Some (Running l) /\ initialised l = map (fun p => (p, String.eqb p drv)) pl.
Proof.
  intros W T K D E C. unfold start. rewrite T, E.
  rewrite (find_comp_known R pl cs drv W E D). destruct (R drv) as [n|] eqn:P; [|now elim (K drv D)]. rewrite C.
  destruct (init_loop_spec cs drv pl) with (b := @nil string) (done := @nil call) as (l & L & M).
  { intros p I. rewrite (find_comp_known R pl cs p W E I). now apply K. }
  rewrite app_nil_r in L. rewrite L. cbn. now exists l.
Qed.
Print Assumptions C96_start.

(** A name the repository does not know is only reported; the run then starts
    the components before it and fails. *)
Theorem C96_unknown_refuted (R : repo) (drv t p : string) (a b : list string) (cs : list names) :
  well_named R -> read_provider_file t = Some (a ++ p :: b) -> (forall q, In q a -> R q <> None) -> R p = None ->
  In drv (a ++ b) -> R drv <> None -> instantiate_all R (a ++ p :: b) = Some cs -> check_providers cs = true ->
  exists l, start R drv t = Some (Raised KeyError l) /\ map fst (initialised l) = a.
Proof.
  intros W T K P D KD E C. unfold start. rewrite T, E.
  assert (D' : In drv (a ++ p :: b)) by (rewrite in_app_iff in *; cbn; tauto).
  rewrite (find_comp_known R _ cs drv W E D'). destruct (R drv) as [n|] eqn:PD; [|easy]. rewrite C.
  destruct (init_loop_spec cs drv a) with (b := p :: b) (done := @nil call) as (l & L & M).
  { intros q I. rewrite (find_comp_known R _ cs q W E); [now apply K|]. rewrite in_app_iff. now left. }
  rewrite L. cbn [init_loop app].
  rewrite (find_comp_known R _ cs p W E), P by (rewrite in_app_iff; cbn; tauto).
  exists l. split; [reflexivity|]. rewrite M, map_map. apply map_id.
Qed.
Print Assumptions C96_unknown_refuted.

(** Without the driver nothing starts. *)
Theorem C96_no_driver (R : repo) (drv t : string) (pl : list string) :
  well_named R -> read_provider_file t = Some pl -> ~ In drv pl \/ R drv = None ->
  exists e, start R drv t = Some (Raised e []) /\ (e = KeyError \/ e = AttributeError).
Proof.
  intros W T N. unfold start. rewrite T. destruct (instantiate_all R pl) as [cs|] eqn:E.
  - assert (F : find_comp cs drv = None).
    { destruct (in_dec string_dec drv pl) as [I|I].
      - rewrite (find_comp_known R pl cs drv W E I). tauto.
      - now apply (find_comp_not R pl). }
    rewrite F. exists KeyError. auto.
  - exists AttributeError. auto.
Qed.
Print Assumptions C96_no_driver.

(** Neither does anything when an input has no provider, or more than one. *)
Theorem C96_incomplete (R : repo) (drv t : string) (pl : list string) (cs : list names) :
  well_named R -> read_provider_file t = Some pl -> instantiate_all R pl = Some cs -> In drv pl -> R drv <> None ->
  check_providers cs = false -> start R drv t = Some NotOK.
Proof.
  intros W T E D K C. unfold start. rewrite T, E, (find_comp_known R pl cs drv W E D), C.
  destruct (R drv); [reflexivity|easy].
Qed.
Print Assumptions C96_incomplete.

(** A component named twice is initialised twice and finalised twice, although
    there is one of it. *)
Theorem C96_twice_refuted (R : repo) (drv t x : string) (pl : list string) (cs : list names) (l : list call) :
  well_named R -> read_provider_file t = Some pl -> instantiate_all R pl = Some cs -> start R drv t = Some (Running l) ->
  count_occ string_dec (map fst (initialised l)) x = count_occ string_dec pl x /\
  count_occ string_dec (finalised (finalize_calls pl)) x = count_occ string_dec pl x /\
  (In x (map fst (initialised l)) -> count_occ string_dec (map n_comp cs) x = 1).
Proof.
  intros W T E S. unfold start in S. rewrite T, E in S. destruct (find_comp cs drv); [|discriminate S].
  destruct (check_providers cs); [|discriminate S].
  assert (A : forall done l, init_loop cs drv pl done = Running l -> map fst (initialised l) = map fst (initialised done) ++ pl /\ forall p, In p pl -> find_comp cs p <> None).
  { clear. induction pl as [|p pl IH]; intros done l H; cbn [init_loop] in H.
    - injection H as <-. now rewrite app_nil_r.
    - destruct (find_comp cs p) eqn:F; [|discriminate H]. apply IH in H as [H G]. rewrite H.
      rewrite initialised_app, map_app, initialised_app, initialised_sets, app_nil_r, <- app_assoc. split; [reflexivity|].
      intros q [<-|I]; [now rewrite F|now apply G]. }
  injection S as S. apply A in S as [S G]. cbn [initialised map app] in S. split; [now rewrite S|]. split.
  - unfold finalize_calls. replace (finalised (map Finalize pl)) with pl; [reflexivity|].
    clear. induction pl as [|y r IH]; [reflexivity|]. cbn. now rewrite <- IH.
  - rewrite S. intro I. destruct (C96_set_once R pl cs W E) as [ND B]. apply NoDup_count_occ'; [exact ND|].
    specialize (G x I). rewrite (find_comp_known R pl cs x W E I) in G. destruct (R x) as [m|] eqn:P; [|easy].
    apply in_map_iff. exists m. split; [now apply W|]. apply B. now exists x.
Qed.
Print Assumptions C96_twice_refuted.

Section Case.
Local Open Scope string_scope.
Local Open Scope list_scope.
Example C96_case :
  let R := fun s : string => if String.eqb s "topoflow_driver" then Some {| n_comp := s; n_out := []; n_in := ["rain"%string] |}
                    else if String.eqb s "met" then Some {| n_comp := s; n_out := ["rain"%string]; n_in := [] |} else None in
  let file := unlines ["# providers"; "meteorology  met  old"; ""; "driver"; "driver  topoflow_driver"]%string in
  read_provider_file file = Some ["met"; "topoflow_driver"]%string /\
  start R "topoflow_driver" file = Some (Running [Initialize "met" false; SetValue "topoflow_driver" "rain" "met"; Initialize "topoflow_driver" true]) /\
  start R "topoflow_driver" (unlines ["m met"; "d topoflow_driver"; "m met"]%string)
  = Some (Running [Initialize "met" false; SetValue "topoflow_driver" "rain" "met"; Initialize "topoflow_driver" true;
                   Initialize "met" false; SetValue "topoflow_driver" "rain" "met"]) /\
  start R "topoflow_driver" (unlines ["m met"; "s snow"; "d topoflow_driver"]%string)
  = Some (Raised KeyError [Initialize "met" false; SetValue "topoflow_driver" "rain" "met"]) /\
  read_provider_file "  # old snow" = Some ["old"]%string.
Proof. vm_compute. repeat split. Qed.
End Case.
