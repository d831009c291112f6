(** C129: the merged table of the basins of all river forecast centers, topoflow/utils/ngen/rfc_utils.py. *)

From Coq Require Import String List Bool Arith Lia.
From Verif Require Import Time_Model Io_Model Rfcmerge_Model.
Import ListNotations.

(** the cell below a heading, without blanks around it *)
Definition below (h : string) (hs vals : list string) : string :=
  match find (fun p => String.eqb (fst p) h) (combine hs vals) with Some p => strip (snd p) | None => ""%string end.
(** the heading that has the numbers of the basins: the first of these that there is *)
Definition id_heading (hs : list string) : string :=
  match find (fun h => existsb (String.eqb h) hs) ["NWS_ID"; "NWSID"; "CH5_ID"; "BASIN"]%string with
  | Some h => h | None => "NAME"%string end.
Definition line_of (num : string -> string) (f : rfc_file) (vals : list string) : list string :=
  let at_ h := below h (headings f) vals in
  [rfc f; (if String.eqb (at_ (id_heading (headings f))) "" then at_ "NAME"%string else at_ (id_heading (headings f)));
   num (at_ "MIN_X_AXIS_"%string); num (at_ "MAX_X_AXIS_"%string); num (at_ "MIN_Y_AXIS_"%string); num (at_ "MAX_Y_AXIS_"%string);
   at_ "NAME"%string].
Definition needed : list string := ["NAME"; "MIN_X_AXIS_"; "MAX_X_AXIS_"; "MIN_Y_AXIS_"; "MAX_Y_AXIS_"]%string.
Definition good (f : rfc_file) : Prop :=
  incl needed (headings f) /\ (forall v, In v (lines f) -> (length (headings f) <= length v)%nat).
Definition west_of (vals : list string) : list string :=
  "WGRFC"%string :: map (fun k => strip (nth k vals ""%string)) [1; 2; 3; 4; 5; 6]%nat.

Lemma index_ok h : forall hs, In h hs -> exists k, index h hs = Ok k /\ (k < length hs)%nat /\
  (forall vals, (length hs <= length vals)%nat -> cell vals k = Ok (below h hs vals)).
Proof.
  induction hs as [|x hs IH]; intros I; [destruct I|]. cbn [index].
  destruct (String.eqb_spec x h) as [->|N].
  - exists 0%nat. split; [reflexivity|]. split; [cbn; lia|]. intros [|v vals] L; [cbn in L; lia|].
    unfold below. cbn [combine find fst]. rewrite String.eqb_refl. reflexivity.
  - destruct I as [E|I]; [congruence|]. destruct (IH I) as (k & -> & K & C). exists (S k). split; [reflexivity|].
    split; [cbn; lia|]. intros [|v vals] L; [cbn in L; lia|]. cbn [length] in L. unfold below. cbn [combine find fst].
    destruct (String.eqb_spec x h) as [E|_]; [congruence|]. apply (C vals). lia.
Qed.
Lemma index_none h : forall hs, ~ In h hs -> index h hs = Err ValueError.
Proof.
  induction hs as [|x hs IH]; intros N; [reflexivity|]. cbn [index]. cbn [In] in N.
  destruct (String.eqb_spec x h) as [E|_]; [tauto|]. rewrite IH by tauto. reflexivity.
Qed.
Lemma has_in h hs : has h hs = true -> In h hs.
Proof. intro H. apply existsb_exists in H. destruct H as (x & I & E). apply String.eqb_eq in E. subst x. exact I. Qed.
Lemma id_ok hs : In "NAME"%string hs -> exists k, id_col hs = Ok (Some k) /\
  (forall vals, (length hs <= length vals)%nat -> cell vals k = Ok (below (id_heading hs) hs vals)).
Proof.
  intro N. unfold id_col, id_heading. cbn [find].
  assert (T : forall h, In h hs -> exists k, (let! k := index h hs in Ok (Some k)) = Ok (Some k) /\
    (forall vals, (length hs <= length vals)%nat -> cell vals k = Ok (below h hs vals))).
  { intros h I. destruct (index_ok h hs I) as (k & -> & _ & C). exists k. split; [reflexivity|exact C]. }
  assert (NA : has "NAME" hs = true) by (apply existsb_exists; exists "NAME"%string; split; [exact N|reflexivity]).
  change (existsb (String.eqb "NWS_ID") hs) with (has "NWS_ID" hs). change (existsb (String.eqb "NWSID") hs) with (has "NWSID" hs).
  change (existsb (String.eqb "CH5_ID") hs) with (has "CH5_ID" hs). change (existsb (String.eqb "BASIN") hs) with (has "BASIN" hs).
  destruct (has "NWS_ID" hs) eqn:E1; [apply T, has_in, E1|]. destruct (has "NWSID" hs) eqn:E2; [apply T, has_in, E2|].
  destruct (has "CH5_ID" hs) eqn:E3; [apply T, has_in, E3|]. destruct (has "BASIN" hs) eqn:E4; [apply T, has_in, E4|].
  rewrite NA. apply T, N.
Qed.
Lemma all_lines_ok f g : forall l, (forall v, In v l -> f v = Ok (g v)) -> all_lines f l = Ok (map g l).
Proof.
  induction l as [|v l IH]; intros H; [reflexivity|]. cbn [all_lines map]. rewrite H by (left; reflexivity).
  rewrite IH by (intros x X; apply H; right; exact X). reflexivity.
Qed.
Lemma empty_length (s : string) : (String.length s =? 0)%nat = String.eqb s "".
Proof. destruct s; reflexivity. Qed.
Lemma one_ok num f : good f -> one_file num f = Ok (Some (map (line_of num f) (lines f))).
Proof.
  intros [I L]. unfold one_file.
  assert (N : forall h, In h needed -> In h (headings f)) by exact I.
  assert (TWO : (length (headings f) <=? 1)%nat = false).
  { apply Nat.leb_gt. assert (U : incl ["NAME"; "MIN_X_AXIS_"]%string (headings f)) by (intros x [<-|[<-|[]]]; apply N; cbn; auto).
    assert (D : NoDup ["NAME"; "MIN_X_AXIS_"]%string) by (repeat constructor; cbn; intuition discriminate).
    pose proof (NoDup_incl_length D U) as P. cbn [length] in P. lia. }
  rewrite TWO.
  destruct (index_ok "NAME" (headings f)) as (k1 & -> & _ & C1); [apply N; cbn; auto|].
  destruct (index_ok "MIN_X_AXIS_" (headings f)) as (k2 & -> & _ & C2); [apply N; cbn; auto|].
  destruct (index_ok "MAX_X_AXIS_" (headings f)) as (k3 & -> & _ & C3); [apply N; cbn; auto|].
  destruct (index_ok "MIN_Y_AXIS_" (headings f)) as (k4 & -> & _ & C4); [apply N; cbn; auto|].
  destruct (index_ok "MAX_Y_AXIS_" (headings f)) as (k5 & -> & _ & C5); [apply N; cbn; auto 6|].
  destruct (id_ok (headings f)) as (k & -> & C); [apply N; cbn; auto|]. cbn [rbind].
  rewrite (all_lines_ok _ (line_of num f)); [reflexivity|]. intros v V. pose proof (L v V) as G. unfold basin_line.
  rewrite (C v G), (C1 v G), (C2 v G), (C3 v G), (C4 v G), (C5 v G). cbn [rbind]. rewrite empty_length. reflexivity.
Qed.
Lemma west_ok vals : (7 <= length vals)%nat -> west_line vals = Ok (west_of vals).
Proof. intro L. destruct vals as [|a [|b [|c [|d [|e [|g [|h t]]]]]]]; cbn in L; try lia. reflexivity. Qed.

(** All files with the needed headings: one line for each basin, in order, each with the cells below the headings. *)
Theorem C129_lines : forall num fs west, (forall f, In f fs -> good f) -> (forall v, In v west -> (7 <= length v)%nat) ->
  merge_rfc_basin_info num fs west = Ok (flat_map (fun f => map (line_of num f) (lines f)) fs ++ map west_of west).
Proof.
  intros num fs west G W. unfold merge_rfc_basin_info.
  assert (A : all_files num fs = Ok (flat_map (fun f => map (line_of num f) (lines f)) fs)).
  { induction fs as [|f fs IH]; [reflexivity|]. cbn [all_files flat_map]. rewrite one_ok by (apply G; left; reflexivity).
    cbn [rbind]. rewrite IH by (intros x X; apply G; right; exact X). reflexivity. }
  rewrite A. cbn [rbind]. rewrite (all_lines_ok _ west_of); [reflexivity|]. intros v V. apply west_ok, W, V.
Qed.
Print Assumptions C129_lines.

(** Refuted: a file without attributes leaves out its own basins only.  All later centers but the last are left out too. *)
Theorem C129_break_refuted : forall num before bad after west, (length (headings bad) <= 1)%nat ->
  merge_rfc_basin_info num (before ++ bad :: after) west = merge_rfc_basin_info num before west.
Proof.
  intros num before bad after west L. unfold merge_rfc_basin_info.
  assert (A : all_files num (before ++ bad :: after) = all_files num before).
  { induction before as [|f fs IH]; cbn [app all_files].
    - unfold one_file. apply Nat.leb_le in L. rewrite L. reflexivity.
    - rewrite IH. reflexivity. }
  rewrite A. reflexivity.
Qed.
Print Assumptions C129_break_refuted.

(** Refuted: the order of the columns does not matter.  The last heading has the newline of its line, so that a needed
    column that comes last is not found. *)
Theorem C129_last_refuted : forall num name hs nl rows fs west, In nl [String (Ascii.ascii_of_nat 10) ""; String (Ascii.ascii_of_nat 13) (String (Ascii.ascii_of_nat 10) "")] ->
  incl ["NAME"; "MIN_X_AXIS_"; "MAX_X_AXIS_"; "MIN_Y_AXIS_"]%string hs -> ~ In "MAX_Y_AXIS_"%string hs ->
  merge_rfc_basin_info num ({| rfc := name; headings := hs ++ ["MAX_Y_AXIS_" ++ nl]%string; lines := rows |} :: fs) west = Err ValueError.
Proof.
  intros num name hs nl rows fs west NL I N. unfold merge_rfc_basin_info. cbn [all_files]. unfold one_file. cbn [headings].
  set (H := hs ++ ["MAX_Y_AXIS_" ++ nl]%string).
  assert (P : forall h, In h ["NAME"; "MIN_X_AXIS_"; "MAX_X_AXIS_"; "MIN_Y_AXIS_"]%string -> In h H) by (intros h X; apply in_or_app; left; apply I, X).
  assert (M : ~ In "MAX_Y_AXIS_"%string H).
  { intro X. apply in_app_or in X. destruct X as [X|[X|[]]]; [exact (N X)|]. destruct NL as [<-|[<-|[]]]; discriminate X. }
  assert (TWO : (length H <=? 1)%nat = false).
  { apply Nat.leb_gt. unfold H. rewrite app_length. cbn [length]. destruct hs as [|x hs]; [destruct (I "NAME"%string); cbn; auto|cbn; lia]. }
  rewrite TWO.
  destruct (index_ok "NAME" H) as (k1 & -> & _); [apply P; cbn; auto|].
  destruct (index_ok "MIN_X_AXIS_" H) as (k2 & -> & _); [apply P; cbn; auto|].
  destruct (index_ok "MAX_X_AXIS_" H) as (k3 & -> & _); [apply P; cbn; auto|].
  destruct (index_ok "MIN_Y_AXIS_" H) as (k4 & -> & _); [apply P; cbn; auto 6|].
  rewrite (index_none _ _ M). reflexivity.
Qed.
Print Assumptions C129_last_refuted.

(** Non-vacuity. *)
Definition file1 : rfc_file := {| rfc := "OHRFC"; headings := ["NAME"; "BASIN"; "MAX_X_AXIS_"; "MIN_X_AXIS_"; "MIN_Y_AXIS_"; "MAX_Y_AXIS_"; "NWSID"; "Z"];
  lines := [["Ohio"; "B"; "2"; "1"; "3"; "4"; " AB "; "z"]; ["Wabash "; "B"; "2"; "1"; "3"; "4"; " "; "z"]] |}%string.
Example C129_case : good file1 /\
  merge_rfc_basin_info (fun s => s ++ ".0")%string [file1] [["0"; "a"; "b"; "c"; "d"; "e"; "f "]]%string =
  Ok [["OHRFC"; "AB"; "1.0"; "2.0"; "3.0"; "4.0"; "Ohio"]; ["OHRFC"; "Wabash"; "1.0"; "2.0"; "3.0"; "4.0"; "Wabash"];
      ["WGRFC"; "a"; "b"; "c"; "d"; "e"; "f"]]%string.
Proof.
  split; [|vm_compute; reflexivity]. split; [intros h H; cbn in *; tauto|]. intros v [<-|[<-|[]]]; cbn; lia.
Qed.
