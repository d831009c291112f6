(** C43 (file names never collide), C44 (time series input), C56 (names and
    line counts). *)

From Coq Require Import String Ascii List ZArith NArith QArith Bool Lia.
From Verif Require Import Time_Model Time_Proofs Io_Model Io_Spec Io_Proofs.
Import ListNotations.

Lemma free_nosep c s : free_of c s -> nosep c s = true.
Proof.
  induction s as [|a s IH]; intro H; cbn; [reflexivity|].
  rewrite IH by (intro k; exact (H (S k))). rewrite andb_true_r. apply negb_true_iff.
  destruct (Ascii.eqb_spec a c) as [->|]; [|reflexivity]. exfalso. exact (H 0%nat eq_refl).
Qed.
Lemma nosep_free c s : nosep c s = true -> free_of c s.
Proof.
  induction s as [|a s IH]; cbn; intros H [|k] E; cbn in E; try discriminate.
  - injection E as ->. rewrite Ascii.eqb_refl in H. discriminate.
  - apply andb_true_iff in H as [_ B]. exact (IH B k E).
Qed.
Lemma file_of_text lines : file_of lines = text_of lines.
Proof. induction lines; cbn; [reflexivity|]. now rewrite <- IHlines. Qed.

(** ** C43 *)

(** check_overwrite always answers, and the name it returns is not in use. *)
Theorem C43_returned_name_is_free (F : fs) (name : string) :
  exists r, check_overwrite F name = Some r /\ exists_file F r = false.
Proof.
  unfold check_overwrite. destruct (exists_file F name) eqn:E; cbn [negb].
  - destruct (get_prefix_and_extension name) as [p e]. destruct (loop_total F p e 1) as [r R].
    exists r. split; [exact R|]. apply loop_result in R as (j & _ & _ & H & _). exact H.
  - exists name. auto.
Qed.

(** A free name is kept. *)
Theorem C43_free_name_kept (F : fs) (name : string) :
  exists_file F name = false -> check_overwrite F name = Some name.
Proof. unfold check_overwrite. now intros ->. Qed.

(** A name in use, stem.ext, becomes stem_k.ext with the smallest free k >= 1. *)
Theorem C43_first_free_version (F : fs) (stem ext : string) :
  free_of "." ext -> exists_file F (stem ++ "." ++ ext) = true ->
  exists k, (1 <= k)%Z /\
    check_overwrite F (stem ++ "." ++ ext) = Some (stem ++ "_" ++ py_str k ++ "." ++ ext)%string /\
    forall j, (1 <= j < k)%Z -> exists_file F (stem ++ "_" ++ py_str j ++ "." ++ ext) = true.
Proof.
  intros Hx E. unfold check_overwrite. rewrite E. cbn [negb append].
  rewrite prefix_ext_app by (now apply free_nosep).
  destruct (loop_total F stem (String "." ext) 1) as [r R]. rewrite R.
  apply loop_result in R as (k & K & -> & _ & B). exists k. split; [exact K|].
  assert (V : forall i, version_name stem (String "." ext) i
                        = (stem ++ "_" ++ py_str i ++ "." ++ ext)%string).
  { intro i. unfold version_name. cbn [append]. reflexivity. }
  split; [f_equal; apply V|]. intros j Hj. specialize (B j Hj). now rewrite V in B.
Qed.

(** Without a dot the last character counts as the extension. *)
Theorem C43_stem_kept_without_dot_refuted :
  ~ (forall (F : fs) (name r : string), free_of "." name ->
       check_overwrite F name = Some r -> exists rest, r = (name ++ rest)%string).
Proof.
  intro H. specialize (H [("flow"%string, EmptyString)] "flow"%string "flo_1w"%string).
  destruct H as [rest R]; [|vm_compute; reflexivity|discriminate R].
  apply nosep_free. reflexivity.
Qed.

Example C43_demo :
  check_overwrite [("a.rts", ""); ("a_1.rts", "x"); ("b.rts", "")]%string "a.rts" = Some "a_2.rts"%string /\
  free_of "." "rts".
Proof. split; [vm_compute; reflexivity|]. apply nosep_free. reflexivity. Qed.

(** ** C44 *)

Section TS.
  Variable float_of : string -> option Q.

  (** What a line of the file says: nothing if blank, else its first word. *)
  Definition line_says (line : string) (v : option Q) : Prop :=
    (strip line = EmptyString /\ v = None) \/
    (strip line <> EmptyString /\
     exists w rest q, split " " (strip line) = w :: rest /\ float_of w = Some q /\ v = Some q).

  Lemma read_line_says line rest v : nosep newline line = true -> line_says line v ->
    read_scalar float_of (line ++ String newline rest) 0 " " = Ok (v, rest).
  Proof.
    intros N H. unfold read_scalar. rewrite readline_line by exact N. rewrite strip_newline.
    destruct H as [[E ->]|[E (w & l & q & W & Q & ->)]].
    - now rewrite E.
    - destruct (String.eqb_spec (strip line) ""); [contradiction|]. rewrite W. cbn [item nth_error rbind].
      now rewrite Q.
  Qed.

  Lemma ts_run_ended n factor x : ts_run float_of n "" factor x = Ok (repeat x n).
  Proof. induction n as [|n IH]; cbn; [reflexivity|]. now rewrite IH. Qed.

  Lemma ts_run_spec lines vs factor : Forall (fun l => nosep newline l = true) lines ->
    Forall2 line_says lines vs -> forall n x,
    ts_run float_of n (text_of lines) factor x =
    Ok (map (fun k => latest (map (option_map (fun q => q * factor)%Q) vs) k x) (seq 0 n)).
  Proof.
    intros N H. induction H as [|l v lines vs L H IH]; intros n x.
    - cbn [text_of]. rewrite ts_run_ended. f_equal. unfold latest. cbn [map firstn fold_left].
      induction n as [|n IHn]; [reflexivity|]. cbn [repeat seq map]. f_equal.
      rewrite <- seq_shift, map_map. exact IHn.
    - inversion N; subst. destruct n as [|n]; [reflexivity|].
      cbn [text_of ts_run]. unfold read_next_ts. rewrite (read_line_says l _ v) by assumption.
      cbn [rbind]. rewrite IH by assumption. cbn [rbind seq map]. apply f_equal.
      apply f_equal2; [destruct v; reflexivity|].
      rewrite <- seq_shift, map_map. apply map_ext. intro k.
      unfold latest. cbn [firstn map fold_left]. destruct v; reflexivity.
  Qed.
End TS.

(** One line is consumed per update, in order; after update k the variable has
    the (scaled) value of the last nonblank line among the first k+1, and keeps
    the last value for ever after the end of the file. *)
Theorem C44_one_line_per_update (float_of : string -> option Q) (lines : list string)
    (vs : list (option Q)) (factor x0 : Q) (n : nat) :
  Forall (free_of (ascii_of_nat 10)) lines ->
  Forall2 (line_says float_of) lines vs ->
  exists l, ts_run float_of n (file_of lines) factor x0 = Ok l /\ List.length l = n /\
    forall k, (k < n)%nat ->
      nth k l 0 = latest (map (option_map (fun q => q * factor)%Q) vs) k x0.
Proof.
  intros N H. rewrite file_of_text.
  rewrite (ts_run_spec float_of lines vs) by
    (assumption || (eapply Forall_impl; [|exact N]; intros a Ha; now apply free_nosep)).
  eexists. split; [reflexivity|]. split; [now rewrite map_length, seq_length|].
  intros k Hk.
  set (f := fun k => latest (map (option_map (fun q => q * factor)%Q) vs) k x0).
  rewrite (nth_indep _ 0 (f 0%nat)) by (now rewrite map_length, seq_length).
  rewrite (map_nth f). now rewrite seq_nth.
Qed.

(** With no blank lines: value k of the file is the value after update k. *)
Theorem C44_values_in_order (float_of : string -> option Q) (lines : list string)
    (vs : list Q) (factor x0 : Q) (n k : nat) :
  Forall (free_of (ascii_of_nat 10)) lines ->
  Forall2 (line_says float_of) lines (map Some vs) -> (k < n)%nat -> (k < List.length vs)%nat ->
  exists l, ts_run float_of n (file_of lines) factor x0 = Ok l /\ nth k l 0 = (nth k vs 0 * factor)%Q.
Proof.
  intros N H Hk Hv. destruct (C44_one_line_per_update float_of lines (map Some vs) factor x0 n N H) as (l & R & _ & V).
  exists l. split; [exact R|]. rewrite V by exact Hk. clear - Hv. unfold latest. rewrite map_map.
  cbn [option_map]. revert k x0 Hv. induction vs as [|v vs IH]; intros k x0 Hv; [cbn in Hv; lia|].
  destruct k as [|k]; [reflexivity|]. cbn [map]. rewrite firstn_cons. cbn [fold_left].
  rewrite IH by (cbn in Hv; lia). reflexivity.
Qed.

(** Past the end the last value stays. *)
Theorem C44_last_value_held (float_of : string -> option Q) (lines : list string)
    (vs : list Q) (v factor x0 : Q) (n k : nat) :
  Forall (free_of (ascii_of_nat 10)) lines ->
  Forall2 (line_says float_of) lines (map Some (vs ++ [v])) -> (k < n)%nat -> (List.length vs <= k)%nat ->
  exists l, ts_run float_of n (file_of lines) factor x0 = Ok l /\ nth k l 0 = (v * factor)%Q.
Proof.
  intros N H Hk Hv. destruct (C44_one_line_per_update float_of lines _ factor x0 n N H) as (l & R & _ & V).
  exists l. split; [exact R|]. rewrite V by exact Hk. unfold latest. rewrite map_map. cbn [option_map].
  rewrite firstn_all2 by (rewrite map_length, app_length; cbn; lia).
  rewrite map_app, fold_left_app. reflexivity.
Qed.

(** A blank line inside the file is not skipped: it uses up one update. *)
Theorem C44_blank_lines_skipped_refuted :
  ~ (forall (float_of : string -> option Q) (lines : list string) (vs : list Q) (n k : nat),
       Forall (free_of (ascii_of_nat 10)) lines ->
       Forall2 (line_says float_of) (filter (fun l => negb (String.eqb (strip l) "")) lines) (map Some vs) ->
       (k < n)%nat -> (k < List.length vs)%nat ->
       exists l, ts_run float_of n (file_of lines) 1 0 = Ok l /\ (nth k l 0 == nth k vs 0)%Q).
Proof.
  intro H. pose (f := fun s => match py_int s with Ok z => Some (inject_Z z) | Err _ => None end).
  specialize (H f ["1"; ""; "2"]%string [1; 2]%Q 2%nat 1%nat).
  destruct H as (l & R & E).
  - repeat constructor; apply nosep_free; reflexivity.
  - change (filter _ _) with ["1"; "2"]%string.
    apply Forall2_cons; [|apply Forall2_cons; [|apply Forall2_nil]]; right; (split; [discriminate|]).
    + exists "1"%string, [], 1%Q. auto.
    + exists "2"%string, [], 2%Q. auto.
  - lia.
  - cbn. lia.
  - vm_compute in R. injection R as <-. vm_compute in E. discriminate E.
Qed.

Example C44_demo : exists f,
  Forall (free_of (ascii_of_nat 10)) ["12 a"; " 7"]%string /\
  Forall2 (line_says f) ["12 a"; " 7"]%string (map Some ([12] ++ [7])%Q) /\
  ts_run f 4 (file_of ["12 a"; " 7"]%string) (1 # 2) 0 = Ok [12 # 2; 7 # 2; 7 # 2; 7 # 2].
Proof.
  exists (fun s => match py_int s with Ok z => Some (inject_Z z) | Err _ => None end).
  split; [repeat constructor; apply nosep_free; reflexivity|]. split; [|vm_compute; reflexivity].
  apply Forall2_cons; [|apply Forall2_cons; [|apply Forall2_nil]]; right; (split; [discriminate|]).
  - exists "12"%string, ["a"%string], 12%Q. auto.
  - exists "7"%string, [], 7%Q. auto.
Qed.

(** ** C56: names and line counts *)

(** replace_extension keeps the stem and puts the new extension. *)
Theorem C56_replace_extension (stem ext new : string) :
  free_of "." ext -> replace_extension (stem ++ "." ++ ext) new = (stem ++ new)%string.
Proof.
  intro H. unfold replace_extension. cbn [append]. rewrite prefix_ext_app by (now apply free_nosep). reflexivity.
Qed.

(** Prefix and extension together are the name. *)
Theorem C56_parts_make_the_name (name : string) :
  let '(p, e) := get_prefix_and_extension name in (p ++ e = name)%string.
Proof. unfold get_prefix_and_extension. apply take_drop. Qed.

Lemma last_chars_app a b : last_chars (String.length b) (a ++ b) = b.
Proof. unfold last_chars. rewrite length_app_s. apply drop_app. lia. Qed.

(** add_extension adds the extension once: the result ends with it (up to
    case) and adding it again changes nothing. *)
Theorem C56_add_extension (name ext : string) :
  lower (last_chars (String.length ext) (add_extension name ext)) = lower ext /\
  add_extension (add_extension name ext) ext = add_extension name ext /\
  (add_extension name ext = name \/ add_extension name ext = (name ++ ext)%string).
Proof.
  assert (A : lower (last_chars (String.length ext) (add_extension name ext)) = lower ext).
  { unfold add_extension.
    destruct (String.eqb_spec (lower (last_chars (String.length ext) name)) (lower ext)) as [E|E]; [exact E|].
    now rewrite last_chars_app. }
  split; [exact A|]. split.
  - unfold add_extension at 1. now rewrite A, String.eqb_refl.
  - unfold add_extension. destruct (_ =? _)%string; auto.
Qed.

(** A name without a dot loses its last character. *)
Theorem C56_replace_without_dot_refuted :
  ~ (forall stem new, free_of "." stem -> replace_extension stem new = (stem ++ new)%string).
Proof.
  intro H. assert (E : replace_extension "flow" ".nc" = "flow.nc"%string) by (apply H, nosep_free; reflexivity).
  vm_compute in E. discriminate E.
Qed.

(** count_lines is the number of lines that are not blank. *)
Theorem C56_count_lines (lines : list string) :
  Forall (free_of (ascii_of_nat 10)) lines ->
  count_lines (file_of lines) = Some (List.length (filter (fun l => negb (String.eqb (strip l) "")) lines)).
Proof.
  intro N. rewrite file_of_text. unfold count_lines. rewrite count_loop_lines.
  - reflexivity.
  - eapply Forall_impl; [|exact N]. intros a Ha. now apply free_nosep.
  - pose proof (text_of_length lines). lia.
Qed.

Example C56_demo :
  replace_extension "a.b.rts" ".nc" = "a.b.nc"%string /\ add_extension "x.NC" ".nc" = "x.NC"%string /\
  add_extension "x.rts" ".nc" = "x.rts.nc"%string /\ count_lines (file_of ["a"; " "; "b"]%string) = Some 2%nat.
Proof. vm_compute. auto. Qed.

Print Assumptions C43_returned_name_is_free.
Print Assumptions C43_free_name_kept.
Print Assumptions C43_first_free_version.
Print Assumptions C43_stem_kept_without_dot_refuted.
Print Assumptions C44_one_line_per_update.
Print Assumptions C44_values_in_order.
Print Assumptions C44_last_value_held.
Print Assumptions C44_blank_lines_skipped_refuted.
Print Assumptions C56_replace_extension.
Print Assumptions C56_parts_make_the_name.
Print Assumptions C56_add_extension.
Print Assumptions C56_replace_without_dot_refuted.
Print Assumptions C56_count_lines.
