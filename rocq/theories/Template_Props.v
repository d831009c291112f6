(** C99.  Making a configuration file from a template fills in exactly the named
    holes. *)

From Coq Require Import String Ascii List Bool Arith Lia.
From Verif Require Import Time_Model Time_Proofs Io_Model Io_Proofs Rti_Model Rti_Proofs Fmt_Model Fmt_Proofs Template_Model Template_Spec Template_Proofs.
Import ListNotations.
Local Open Scope string_scope.

(** ** Templates with {{name}} *)

(** Text without opening braces around the holes, names without braces, values
    without opening braces, at least as many values as names: the new file is the
    template with the holes of the listed names filled (with the first value listed
    for a name) and the others left, and every other file is as before.  The new
    file may be the template itself. *)
Theorem C99_cfg : forall vars vals ts template cfg F,
  lookup F template = Some (written "{{" "}}" ts) ->
  (forall s, In (Lit s) ts -> without "{" s) -> (forall x, In (Hole x) ts -> without "{" x /\ without "}" x) ->
  Forall (without "}") vars -> Forall (without "{") vals -> (List.length vars <= List.length vals)%nat ->
  exists F', make_new_cfg_file vars vals template cfg F = Done F' /\
    lookup F' cfg = Some (filled "{{" "}}" (first_value vars vals) ts) /\
    forall n, n <> cfg -> lookup F' n = lookup F n.
Proof.
  intros vars vals ts template cfg F L A B V W N. unfold make_new_cfg_file. rewrite L.
  rewrite fill_in_ok; try assumption.
  - eexists. split; [reflexivity|]. unfold put. cbn [lookup]. rewrite String.eqb_refl. split; [reflexivity|].
    intros n Hn. destruct (String.eqb_spec cfg n); [congruence|reflexivity].
  - apply Forall_forall. intros [s|x] Hi; cbn; auto.
Qed.
Print Assumptions C99_cfg.

(** Fewer values than names: IndexError, and no file is written. *)
Theorem C99_cfg_few_values : forall vars vals text template cfg F,
  lookup F template = Some text -> (List.length vals < List.length vars)%nat ->
  make_new_cfg_file vars vals template cfg F = Raised IndexError.
Proof. intros. unfold make_new_cfg_file. rewrite H, fill_in_short by assumption. reflexivity. Qed.
Print Assumptions C99_cfg_few_values.

(** The template must exist: it is reported missing, and no file is written, if and only
    if it is. *)
Theorem C99_cfg_no_template : forall vars vals template cfg F,
  make_new_cfg_file vars vals template cfg F = NoTemplate <-> lookup F template = None.
Proof.
  intros. unfold make_new_cfg_file. destruct (lookup F template) as [t|]; [|split; reflexivity].
  destruct (fill_in vars vals t); split; discriminate.
Qed.
Print Assumptions C99_cfg_no_template.

(** A value that looks like a hole is filled in turn when its name is listed later,
    and not when it is listed earlier: the order of the names matters. *)
Theorem C99_cfg_order_refuted : exists ts a b va vb,
  let F := [("t", written "{{" "}}" ts)] in
  let order1 := make_new_cfg_file [a; b] [va; vb] "t" "c" F in
  let order2 := make_new_cfg_file [b; a] [vb; va] "t" "c" F in
  order1 <> order2.
Proof.
  exists [Hole "P"; Lit " | "; Hole "site"], "P", "site", "{{site}}_rain.rts", "Treynor". vm_compute. discriminate.
Qed.
Print Assumptions C99_cfg_order_refuted.

(** ** Templates with ${name} *)

Lemma clean_line ts nl_ : Forall clean1 ts -> without "$" nl_ -> Forall clean1 (ts ++ [Lit nl_])%list.
Proof. intros H N. apply Forall_app. split; [exact H|]. constructor; [exact N|constructor]. Qed.

(** The lines of the template are text without dollar signs and holes with nonempty
    names without dollar signs and closing braces; the values have no dollar signs.
    Then the new file is the template with the holes of the listed names filled (with
    the last value listed for a name) and the others left, if it is not the template
    itself; every other file is as before. *)
Theorem C99_re : forall names vals tss template cfg F, template <> cfg ->
  lookup F template = Some (unlines (map (written "${" "}") tss)) ->
  (forall ts, In ts tss -> without newline (written "${" "}" ts)) ->
  (forall ts s, In ts tss -> In (Lit s) ts -> without "$" s) ->
  (forall ts x, In ts tss -> In (Hole x) ts -> x <> "" /\ without "$" x /\ without "}" x) ->
  Forall (without "$") vals ->
  let F' := replace_file template cfg (combine (map (fun x => "${" ++ x ++ "}") names) vals) F in
  lookup F' cfg = Some (unlines (map (filled "${" "}" (last_value names vals)) tss)) /\
  forall n, n <> cfg -> lookup F' n = lookup F n.
Proof.
  intros names vals tss template cfg F N L NL A B V. cbv zeta. unfold replace_file. rewrite L.
  assert (L1 : lookup (put F cfg "") template = Some (unlines (map (written "${" "}") tss))).
  { unfold put. cbn [lookup]. destruct (String.eqb_spec cfg template); [congruence|exact L]. }
  rewrite L1. split.
  - unfold put. cbn [lookup]. rewrite String.eqb_refl. f_equal.
    rewrite readlines_text.
    2:{ apply Forall_map, Forall_forall. intros ts Hi. apply without_nosep, NL, Hi. }
    rewrite !map_map.
    transitivity (String.concat "" (map (fun l => l ++ String newline "") (map (filled "${" "}" (last_value names vals)) tss))).
    + rewrite map_map. f_equal. apply map_ext_in. intros ts Hi.
      replace (written "${" "}" ts ++ String newline "") with (written "${" "}" (ts ++ [Lit (String newline "")])%list)
        by (rewrite written_app; cbn [written write]; reflexivity).
      rewrite (do_line_ok _ (last_value names vals)).
      * rewrite filled_app. reflexivity.
      * intros y _. apply get_dict_last.
      * intros y v E. rewrite Forall_forall in V. apply V. eapply last_value_in. exact E.
      * apply clean_line; [|cbn; split; [discriminate|exact I]]. apply Forall_forall.
        intros [s|x] Hx; [exact (A ts s Hi Hx)|exact (B ts x Hi Hx)].
    + apply concat_lines.
  - intros n Hn. unfold put. cbn [lookup]. destruct (String.eqb_spec cfg n); [congruence|reflexivity].
Qed.
Print Assumptions C99_re.

(** Without the template nothing is written. *)
Theorem C99_re_no_template : forall template cfg d F, lookup F template = None -> replace_file template cfg d F = F.
Proof. intros. unfold replace_file. rewrite H. reflexivity. Qed.
Print Assumptions C99_re_no_template.

(** Filling a template in place loses it: whatever it says, the file is empty
    afterwards. *)
Theorem C99_re_in_place_refuted : forall f d F text, lookup F f = Some text -> lookup (replace_file f f d F) f = Some "".
Proof.
  intros f d F text L. unfold replace_file. rewrite L. unfold put. cbn [lookup]. rewrite String.eqb_refl.
  cbn. rewrite String.eqb_refl. reflexivity.
Qed.
Print Assumptions C99_re_in_place_refuted.

(** An opening "${" that is never closed hides the next hole of the line. *)
Theorem C99_re_hidden_refuted : exists line,
  do_line [("${dt}", "60")] line = line /\ do_line [("${dt}", "60")] ("x" ++ "${dt}") = "x60" /\
  exists a, line = a ++ "${dt}".
Proof. exists "cost in ${ of ${dt}". repeat split. exists "cost in ${ of ". reflexivity. Qed.
Print Assumptions C99_re_hidden_refuted.

(** ** A case *)
Definition t1 : list token := [Lit "dt | "; Hole "dt"; Lit " | float | "; Hole "who"; Lit "
site | "; Hole "site"].
Example C99_case :
  make_new_cfg_file ["dt"; "site"; "dt"] ["60.0"; "Treynor"; "7"; "extra"] "t" "c" [("t", written "{{" "}}" t1)] =
    Done [("c", "dt | 60.0 | float | {{who}}
site | Treynor"); ("t", written "{{" "}}" t1)]
  /\ lookup (replace_file "t" "c" [("${dt}", "60.0"); ("${site}", "Treynor"); ("${dt}", "7")] [("t", unlines ["dt | ${dt} | ${who}"; "site ${site}${site}"])]) "c" =
    Some (unlines ["dt | 7 | ${who}"; "site TreynorTreynor"]).
Proof. split; vm_compute; reflexivity. Qed.
