(** Lemmas about names, lines and time series input. *)

From Coq Require Import String Ascii List ZArith NArith QArith Bool Lia FinFun.
From Verif Require Import Time_Model Time_Proofs Io_Model.
Import ListNotations.

Lemma lookup_put_same F n c : lookup (put F n c) n = Some c.
Proof. cbn. now rewrite String.eqb_refl. Qed.
Lemma lookup_put_other F n c m : n <> m -> lookup (put F n c) m = lookup F m.
Proof. intro H. cbn. destruct (String.eqb_spec n m); [congruence|reflexivity]. Qed.

Lemma exists_in F n : exists_file F n = true -> In n (map fst F).
Proof.
  unfold exists_file. induction F as [|[k c] F IH]; cbn; [discriminate|].
  destruct (String.eqb_spec k n) as [->|]; [now left|]. intro H. right. apply IH, H.
Qed.

(** ** Names *)

Lemma rfind_nosep c s : nosep c s = true -> rfind c s = None.
Proof.
  induction s as [|a s IH]; cbn; [reflexivity|]. intro H. apply andb_true_iff in H as [A B].
  apply negb_true_iff in A. now rewrite IH, A.
Qed.
Lemma rfind_app c a b : nosep c b = true -> rfind c (a ++ String c b)%string = Some (String.length a).
Proof.
  intro H. induction a as [|x a IH]; cbn.
  - now rewrite rfind_nosep, Ascii.eqb_refl.
  - now rewrite IH.
Qed.

Lemma prefix_ext_app p e : nosep "." e = true ->
  get_prefix_and_extension (p ++ String "." e) = (p, String "." e).
Proof.
  intro H. unfold get_prefix_and_extension, cut_pos. rewrite rfind_app by exact H.
  rewrite take_app, drop_app by reflexivity. reflexivity.
Qed.

Lemma app_inj_l a b c : (a ++ b = a ++ c)%string -> b = c.
Proof. induction a; cbn; [auto|]. intro H. injection H. auto. Qed.
Lemma app_inj_r a : forall b c, (a ++ c = b ++ c)%string -> a = b.
Proof.
  induction a as [|x a IH]; intros [|y b] c H.
  - reflexivity.
  - apply (f_equal String.length) in H. cbn in H. rewrite length_app_s in H. lia.
  - apply (f_equal String.length) in H. cbn in H. rewrite length_app_s in H. lia.
  - cbn in H. injection H as -> H. f_equal. eapply IH, H.
Qed.

Lemma py_str_inj a b : py_str a = py_str b -> a = b.
Proof.
  intro H. pose proof (py_int_py_str a) as A. rewrite H, py_int_py_str in A. congruence.
Qed.

Lemma version_inj p e j k : version_name p e j = version_name p e k -> j = k.
Proof.
  unfold version_name. intro H. apply app_inj_l in H. apply app_inj_r in H. apply app_inj_l in H.
  now apply py_str_inj.
Qed.

Lemma loop_result fuel F p e : forall k r, overwrite_loop fuel F p e k = Some r ->
  exists j, (k <= j)%Z /\ r = version_name p e j /\ exists_file F r = false /\
    forall i, (k <= i < j)%Z -> exists_file F (version_name p e i) = true.
Proof.
  induction fuel as [|f IH]; intros k r H; cbn in H; [discriminate|].
  destruct (exists_file F (version_name p e k)) eqn:E.
  - apply IH in H as (j & A & B & C & D). exists j. split; [lia|]. split; [exact B|]. split; [exact C|].
    intros i Hi. destruct (Z.eq_dec i k) as [->|]; [exact E|]. apply D. lia.
  - injection H as <-. exists k. split; [lia|]. split; [reflexivity|]. split; [exact E|].
    intros i Hi. lia.
Qed.

Lemma loop_none fuel F p e : forall k, overwrite_loop fuel F p e k = None ->
  forall i, (k <= i < k + Z.of_nat fuel)%Z -> exists_file F (version_name p e i) = true.
Proof.
  induction fuel as [|f IH]; intros k H i Hi; cbn in H; [lia|].
  destruct (exists_file F (version_name p e k)) eqn:E; [|discriminate].
  destruct (Z.eq_dec i k) as [->|]; [exact E|]. apply (IH (k + 1)%Z H). lia.
Qed.

Lemma loop_total F p e k : exists r, overwrite_loop (S (List.length F)) F p e k = Some r.
Proof.
  destruct (overwrite_loop (S (List.length F)) F p e k) as [r|] eqn:E; [now exists r|].
  exfalso. pose proof (loop_none _ _ _ _ _ E) as H.
  set (names := map (fun i => version_name p e (k + Z.of_nat i)) (seq 0 (S (List.length F)))).
  assert (N : NoDup names).
  { unfold names. apply Injective_map_NoDup; [|apply seq_NoDup].
    intros a b Hab. apply version_inj in Hab. lia. }
  assert (I : incl names (map fst F)).
  { intros x Hx. unfold names in Hx. apply in_map_iff in Hx as (i & <- & Hi). apply in_seq in Hi.
    apply exists_in, H. lia. }
  pose proof (NoDup_incl_length N I) as L. unfold names in L. rewrite !map_length, seq_length in L. lia.
Qed.

(** ** Lines *)

Lemma readline_line l rest : nosep newline l = true ->
  readline (l ++ String newline rest)%string = ((l ++ String newline EmptyString)%string, rest).
Proof.
  induction l as [|a l IH]; cbn [append readline]; intro H.
  - now rewrite Ascii.eqb_refl.
  - cbn [nosep] in H. apply andb_true_iff in H as [A B]. apply negb_true_iff in A.
    rewrite A, IH by exact B. reflexivity.
Qed.

Fixpoint allspace (s : string) : bool :=
  match s with EmptyString => true | String a r => is_space a && allspace r end.

Lemma rstrip_allspace s : allspace s = true -> rstrip s = EmptyString.
Proof.
  induction s as [|a s IH]; cbn; [reflexivity|]. intro H. apply andb_true_iff in H as [A B].
  now rewrite IH, A.
Qed.
Lemma rstrip_app_space s w : allspace w = true -> rstrip (s ++ w)%string = rstrip s.
Proof.
  intro H. induction s as [|a s IH]; cbn; [now apply rstrip_allspace|]. now rewrite IH.
Qed.
Lemma lstrip_space_app w s : allspace w = true -> lstrip (w ++ s)%string = lstrip s.
Proof.
  induction w as [|a w IH]; cbn; [reflexivity|]. intro H. apply andb_true_iff in H as [A B].
  now rewrite A, IH.
Qed.
(** Stripping spaces that surround a string. *)
Lemma rstrip_space_app w s : allspace w = true ->
  lstrip (rstrip (w ++ s)%string) = lstrip (rstrip s).
Proof.
  intro H. destruct (rstrip s) as [|b t] eqn:E.
  - assert (A : allspace s = true).
    { clear H. revert E. induction s as [|a s IH]; cbn; [reflexivity|].
      destruct (rstrip s) eqn:R; [|discriminate]. destruct (is_space a); [|discriminate]. intros _.
      now apply IH. }
    rewrite rstrip_allspace; [reflexivity|]. clear E. induction w as [|a w IH]; cbn in *; [exact A|].
    apply andb_true_iff in H as [H1 H2]. rewrite H1. now apply IH.
  - assert (R : rstrip (w ++ s)%string = (w ++ String b t)%string).
    { clear H. induction w as [|a w IH]; cbn; [exact E|]. rewrite IH. destruct w; reflexivity. }
    rewrite R. now apply lstrip_space_app.
Qed.
Lemma strip_around w s w' : allspace w = true -> allspace w' = true ->
  strip (w ++ s ++ w')%string = strip s.
Proof.
  intros A B. unfold strip. rewrite rstrip_space_app by exact A. now rewrite rstrip_app_space.
Qed.
Lemma strip_newline s : strip (s ++ String newline EmptyString)%string = strip s.
Proof. exact (strip_around "" s (String newline EmptyString) eq_refl eq_refl). Qed.

(** A file made of lines. *)
Fixpoint text_of (lines : list string) : string :=
  match lines with [] => EmptyString | l :: r => (l ++ String newline (text_of r))%string end.

Lemma count_loop_lines lines : Forall (fun l => nosep newline l = true) lines ->
  forall fuel n, (List.length lines < fuel)%nat ->
  count_loop fuel (text_of lines) n
  = Some (n + List.length (filter (fun l => negb (String.eqb (strip l) "")) lines))%nat.
Proof.
  induction 1 as [|l lines Hl _ IH]; intros fuel n Hf; (destruct fuel as [|f]; [cbn in Hf; lia|]).
  - cbn. f_equal. lia.
  - cbn [text_of count_loop]. rewrite readline_line by exact Hl.
    assert (Ne : String.eqb (l ++ String newline EmptyString) "" = false) by (destruct l; reflexivity).
    rewrite Ne, strip_newline. cbn [filter]. rewrite IH by (cbn in Hf; lia).
    destruct (String.eqb (strip l) ""); cbn [negb List.length]; f_equal; lia.
Qed.

Lemma text_of_length lines : (List.length lines <= String.length (text_of lines))%nat.
Proof. induction lines; cbn; [lia|]. rewrite length_app_s. cbn. lia. Qed.
