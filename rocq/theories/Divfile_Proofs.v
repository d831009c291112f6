(** Lemmas about the files of the diversions component. *)

From Coq Require Import String Ascii List ZArith NArith QArith Qround Bool Lia Lqa.
From Verif Require Import Base Time_Model Time_Proofs Io_Model Io_Proofs Rti_Model Rti_Proofs Fmt_Model Fmt_Proofs Div_Model Divfile_Model Divfile_Spec.
Import ListNotations.

(** ** Words of a line *)

Lemma words_acc_space_end s : forall w e, allspace e = true -> words_acc (s ++ e) w = words_acc s w.
Proof.
  induction s as [|a s IH]; intros w e E; cbn [append words_acc].
  - revert w. induction e as [|b e IHe]; intro w; [reflexivity|]. cbn in E. apply andb_true_iff in E as [A B].
    cbn [words_acc]. rewrite A. rewrite (IHe B). destruct w; reflexivity.
  - destruct (is_space a); [destruct w; now rewrite IH|now apply IH].
Qed.
Lemma words_space_end s e : allspace e = true -> words (s ++ e) = words s.
Proof. apply words_acc_space_end. Qed.

Lemma lstrip_split s : exists g, s = (g ++ lstrip s)%string /\ allspace g = true.
Proof.
  induction s as [|a s (g & E & G)]; [now exists EmptyString|]. cbn [lstrip]. destruct (is_space a) eqn:A.
  - exists (String a g). split; [cbn [append]; now rewrite <- E|cbn; now rewrite A].
  - now exists EmptyString.
Qed.
Lemma rstrip_split s : exists g, s = (rstrip s ++ g)%string /\ allspace g = true.
Proof.
  induction s as [|a s (g & E & G)]; [now exists EmptyString|]. cbn [rstrip]. destruct (rstrip s) as [|b r] eqn:R.
  - destruct (is_space a) eqn:A.
    + exists (String a s). split; [reflexivity|]. cbn. rewrite A, E. exact G.
    + exists s. split; [reflexivity|]. rewrite E. exact G.
  - exists g. split; [cbn [append]; now rewrite E at 1|exact G].
Qed.
Lemma words_strip s : words (strip s) = words s.
Proof.
  unfold strip. destruct (rstrip_split s) as (g & E & G). destruct (lstrip_split (rstrip s)) as (h & E' & H).
  rewrite E at 2. rewrite words_space_end by exact G. rewrite E' at 2. now rewrite words_space.
Qed.

(** ** Lines of a text *)

Definition line_words (l : string) : list string :=
  words (match after_colon l with Some v => v | None => EmptyString end).

Lemma readline_end l : nosep newline l = true -> readline l = (l, EmptyString).
Proof.
  induction l as [|a l IH]; [reflexivity|]. cbn [nosep readline]. intro H. apply andb_true_iff in H as [A B].
  apply negb_true_iff in A. now rewrite A, IH.
Qed.

Lemma read_line l r t : text (l :: r) t ->
  exists t', read_words_after_key t = (line_words l, t') /\ text r t'.
Proof.
  intro H. inversion H as [|? N|? ? t' N R]; subst; unfold read_words_after_key, line_words.
  - exists EmptyString. rewrite readline_end by exact N. split; [|constructor].
    destruct (after_colon t) as [v|]; [now rewrite words_strip|reflexivity].
  - exists t'. rewrite readline_line by exact N. split; [|exact R].
    rewrite after_colon_app by reflexivity. destruct (after_colon l) as [v|]; cbn [option_map]; [|reflexivity].
    rewrite words_strip, words_space_end by reflexivity. reflexivity.
Qed.

(** ** What a line says *)

Lemma spaced_words ws s : spaced ws s -> words s = ws.
Proof.
  induction 1 as [e E|g w ws s G W N _ IH [->|(a & s' & -> & A)]].
  - now apply words_blank.
  - rewrite words_space by exact G. rewrite app_nil_s, words_end by assumption. f_equal. exact IH.
  - rewrite words_space by exact G. rewrite words_word by assumption. f_equal.
    rewrite <- IH. symmetry. apply (words_space (String a EmptyString) s'). cbn. now rewrite A.
Qed.

Lemma says_words l ws : says l ws -> line_words l = ws.
Proof.
  intros (key & body & -> & K & B). unfold line_words.
  assert (A : after_colon (key ++ String ":" body) = Some body).
  { clear B. induction key as [|a key IH]; [reflexivity|]. cbn [nosep] in K. apply andb_true_iff in K as [K1 K2].
    apply negb_true_iff in K1. cbn [append after_colon]. rewrite K1. now apply IH. }
  rewrite A. now apply spaced_words.
Qed.

Lemma read_value_says l r t q : text (l :: r) t -> says_first l q ->
  exists t', read_value t = Ok (inr q, t') /\ text r t'.
Proof.
  intros T (w & ws & S & E). destruct (read_line _ _ _ T) as (t' & R & T'). exists t'. split; [|exact T'].
  unfold read_value. rewrite R, (says_words _ _ S). cbn. now rewrite E.
Qed.

Lemma says_nospace l ws : says l ws -> Forall (fun w => nospace w = true) ws.
Proof.
  intros (_ & body & _ & _ & B). induction B as [|g w ws s _ W _ _ IH _]; constructor; assumption.
Qed.

Lemma read_list_says l r t qs : text (l :: r) t -> says_all l qs ->
  exists t', read_list t = Ok (qs, t') /\ text r t'.
Proof.
  intros T (ws & S & F). destruct (read_line _ _ _ T) as (t' & R & T'). exists t'. split; [|exact T'].
  unfold read_list. rewrite R, (says_words _ _ S). apply says_nospace in S.
  assert (X : eval_all ws = Ok qs).
  { clear -F S. induction F as [|w q ws qs E _ IH]; [reflexivity|]. inversion S; subst. cbn [eval_all].
    rewrite nospace_strip by assumption. rewrite E, IH by assumption. reflexivity. }
  now rewrite X.
Qed.

Lemma trunc_inject z : trunc (inject_Z z) = z.
Proof.
  unfold trunc. destruct (Qlt_le_dec (inject_Z z) 0).
  - rewrite <- inject_Z_opp, Qfloor_Z. lia.
  - apply Qfloor_Z.
Qed.
Lemma trunc_comp a b : (a == b)%Q -> trunc a = trunc b.
Proof.
  intro E. unfold trunc. destruct (Qlt_le_dec a 0), (Qlt_le_dec b 0); try lra.
  - f_equal. apply Qfloor_comp. now rewrite E.
  - now apply Qfloor_comp.
Qed.

Lemma read_int_says e l r t z : text (l :: r) t -> says_int l z ->
  exists v t', read_value t = Ok (v, t') /\ as_int e v = Ok z /\ text r t'.
Proof.
  intros T (q & S & E). destruct (read_value_says _ _ _ _ T S) as (t' & R & T').
  exists (inr q), t'. split; [exact R|]. split; [|exact T']. cbn. f_equal.
  now rewrite (trunc_comp _ _ E), trunc_inject.
Qed.
