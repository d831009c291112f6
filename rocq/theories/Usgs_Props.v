(** C112: the names of stations. *)

From Coq Require Import String Ascii List Bool Arith NArith Lia.
From Verif Require Import Time_Model Time_Proofs Io_Model Template_Model Usgs_Model Usgs_Spec.
Import ListNotations.
Local Open Scope string_scope.

(** ** Text *)

Lemma app_nil_s (s : string) : s ++ "" = s.
Proof. induction s as [|c s IH]; cbn; [reflexivity|now rewrite IH]. Qed.
Lemma length_app (a b : string) : String.length (a ++ b) = String.length a + String.length b.
Proof. induction a as [|c a IH]; cbn; [reflexivity|now rewrite IH]. Qed.
Lemma prefix_split p : forall s, String.prefix p s = true -> exists r, s = p ++ r.
Proof.
  induction p as [|c p IH]; intros s H; [exists s; reflexivity|]. destruct s as [|d s]; [discriminate|].
  cbn in H. destruct (ascii_dec c d) as [->|]; [|discriminate]. destruct (IH s H) as (r & ->). now exists r.
Qed.
Lemma prefix_same p b : String.prefix p (p ++ b) = true.
Proof. induction p as [|c p IH]; [destruct b; reflexivity|]. cbn. destruct (ascii_dec c c); [exact IH|congruence]. Qed.
Lemma rep_skip p o a b : rep p o (String.length a) (a ++ b) = rep p o 0 b.
Proof. induction a as [|c a IH]; [destruct b; reflexivity|]. cbn [String.length append rep]. exact IH. Qed.
Lemma rep_found p o b : p <> "" -> rep p o 0 (p ++ b) = o ++ rep p o 0 b.
Proof.
  intros N. destruct p as [|c p]; [congruence|]. cbn [append rep].
  change (String c (p ++ b)) with (String c p ++ b). rewrite prefix_same. cbn [String.length Nat.sub].
  now rewrite Nat.sub_0_r, rep_skip.
Qed.
Lemma rep_not p o c b : String.prefix p (String c b) = false -> rep p o 0 (String c b) = String c (rep p o 0 b).
Proof. intros H. cbn [rep]. now rewrite H. Qed.

(** what a single replacement keeps, str.replace keeps *)
Lemma rep_keeps (P : string -> Prop) p o : p <> "" -> (forall a b, P (a ++ p ++ b) -> P (a ++ o ++ b)) ->
  forall n s a, String.length s <= n -> P (a ++ s) -> P (a ++ rep p o 0 s).
Proof.
  intros N H. induction n as [|n IH]; intros s a L K; [destruct s; [exact K|cbn in L; lia]|].
  destruct s as [|c s]; [exact K|].
  destruct (String.prefix p (String c s)) eqn:E.
  - destruct (prefix_split _ _ E) as (r & Er). rewrite Er in *. rewrite rep_found by exact N.
    rewrite <- app_assoc_s. apply IH.
    + rewrite length_app in L. destruct p; [congruence|]. cbn in L. lia.
    + rewrite app_assoc_s. now apply H.
  - rewrite rep_not by exact E. change (String c (rep p o 0 s)) with (String c "" ++ rep p o 0 s).
    rewrite <- app_assoc_s. apply IH; [cbn in L; lia|]. rewrite app_assoc_s. exact K.
Qed.
Lemma replace_keeps (P : string -> Prop) p o s : p <> "" -> (forall a b, P (a ++ p ++ b) -> P (a ++ o ++ b)) -> P s -> P (replace_str p o s).
Proof. intros N H K. exact (rep_keeps P p o N H (String.length s) s "" (le_n _) K). Qed.

Lemma last_but n s : but_n n s ++ last_n n s = s.
Proof. apply take_drop. Qed.

(** the texts a step puts in the place of texts *)
Definition swaps (a : step) : list (string * string) :=
  match a with
  | Repl o n | ReplIf _ o n | EqRepl _ o n => [(o, n)]
  | Tail _ x t | Head _ x t | EqSet x t => [(x, t)]
  | Ends x n t => if Nat.eqb n (String.length x) then [(x, t)] else []
  | StartSet _ _ => []
  end.
(** the texts a step puts in the place of the whole name *)
Definition sets (a : step) : list string := match a with StartSet _ t => [t] | _ => [] end.
Definition sound (a : step) : bool := match a with Ends x n _ => Nat.eqb n (String.length x) | _ => true end.

Lemma apply_keeps (P : string -> Prop) a s : sound a = true ->
  (forall o n, In (o, n) (swaps a) -> o <> "" /\ forall x y, P (x ++ o ++ y) -> P (x ++ n ++ y)) -> (forall t, In t (sets a) -> P t) ->
  P s -> P (apply s a).
Proof.
  intros D W S0 K.
  destruct a as [o n|x o n|n x t|x n t|n x t|x t|x o n|x t]; cbn [apply swaps sets sound] in *.
  - destruct (W o n (or_introl eq_refl)) as (N & H). now apply replace_keeps.
  - destruct (W o n (or_introl eq_refl)) as (N & H). destruct (occurs x s); [now apply replace_keeps|exact K].
  - destruct (W x t (or_introl eq_refl)) as (N & H). destruct (String.eqb_spec (last_n n s) x) as [E|E]; [|exact K].
    rewrite <- (app_nil_s t). apply H. rewrite app_nil_s, <- E, last_but. exact K.
  - apply Nat.eqb_eq in D. subst n. rewrite Nat.eqb_refl in W.
    destruct (W x t (or_introl eq_refl)) as (N & H). destruct (endswith x s) eqn:E; [|exact K].
    unfold endswith in E. apply andb_true_iff in E as [_ E]. apply String.eqb_eq in E.
    rewrite <- (app_nil_s t). apply H. rewrite app_nil_s. rewrite <- E at 2. rewrite last_but. exact K.
  - destruct (W x t (or_introl eq_refl)) as (N & H). destruct (String.eqb_spec (take n s) x) as [E|E]; [|exact K].
    apply (H "" (drop n s)). cbn [append]. rewrite <- E, take_drop. exact K.
  - destruct (W x t (or_introl eq_refl)) as (N & H). destruct (String.eqb_spec s x) as [->|E]; [|exact K].
    rewrite <- (app_nil_s t). apply (H "" ""). cbn [append]. rewrite app_nil_s. exact K.
  - destruct (W o n (or_introl eq_refl)) as (N & H). destruct (String.eqb s x); [now apply replace_keeps|exact K].
  - destruct (String.prefix x s); [apply S0; left; reflexivity|exact K].
Qed.

Lemma follow_keeps (P : string -> Prop) (fw : string * string -> bool) (fs : string -> bool) l s :
  (forall o n, fw (o, n) = true -> o <> "" /\ forall x y, P (x ++ o ++ y) -> P (x ++ n ++ y)) -> (forall t, fs t = true -> P t) ->
  forallb (fun a => sound a && forallb fw (swaps a) && forallb fs (sets a)) l = true -> P s -> P (follow l s).
Proof.
  intros W S0. unfold follow. revert s. induction l as [|a l IH]; intros s L K; [exact K|].
  cbn [fold_left]. cbn [forallb] in L. apply andb_true_iff in L as [A L].
  apply andb_true_iff in A as [A C]. apply andb_true_iff in A as [A B].
  apply IH; [exact L|]. apply apply_keeps; [exact A| | |exact K].
  - intros o n I. apply W. rewrite forallb_forall in B. now apply B.
  - intros t I. apply S0. rewrite forallb_forall in C. now apply C.
Qed.

(** ** Digits *)

Lemma loas_app a b : list_ascii_of_string (a ++ b) = (list_ascii_of_string a ++ list_ascii_of_string b)%list.
Proof. induction a as [|c a IH]; cbn; [reflexivity|now rewrite IH]. Qed.
Lemma digits_app a b : digits (a ++ b) = (digits a ++ digits b)%list.
Proof. unfold digits. now rewrite loas_app, filter_app. Qed.
Lemma digits_cons c s : digits (String c s) = ((if digit c then [c] else []) ++ digits s)%list.
Proof. unfold digits. cbn [list_ascii_of_string filter]. unfold digit. destruct (_ && _); reflexivity. Qed.

Definition noempty (s : string) : bool := negb (String.eqb s "").
Lemma noempty_ne s : noempty s = true -> s <> "".
Proof. unfold noempty. destruct (String.eqb_spec s ""); [discriminate|auto]. Qed.
Definition no_digits (s : string) : bool := match digits s with [] => true | _ => false end.
Lemma no_digits_nil s : no_digits s = true -> digits s = [].
Proof. unfold no_digits. now destruct (digits s). Qed.
Definition w_digits (p : string * string) : bool := noempty (fst p) && no_digits (fst p) && no_digits (snd p).

Lemma digits_follow D l s : forallb (fun a => sound a && forallb w_digits (swaps a) && forallb (fun _ => false) (sets a)) l = true ->
  digits s = D -> digits (follow l s) = D.
Proof.
  intros L K. apply (follow_keeps (fun s => digits s = D) w_digits (fun _ => false)); auto; [|discriminate].
  intros o n H. unfold w_digits in H. cbn [fst snd] in H. apply andb_true_iff in H as [H C]. apply andb_true_iff in H as [A B].
  split; [now apply noempty_ne|]. intros x y. rewrite !digits_app, (no_digits_nil o B), (no_digits_nil n C). auto.
Qed.

Lemma upper_digit c : digit (upper_char c) = digit c /\ (digit c = true -> upper_char c = c).
Proof. destruct c as [[] [] [] [] [] [] [] []]; vm_compute; split; auto; discriminate. Qed.
Lemma digits_upper s : digits (upper s) = digits s.
Proof.
  unfold upper. induction s as [|c s IH]; [reflexivity|]. cbn [smap]. rewrite !digits_cons, IH.
  destruct (upper_digit c) as [E F]. rewrite E. destruct (digit c); [now rewrite F|reflexivity].
Qed.
Lemma space_digit c : is_space c = true -> digit c = false.
Proof. destruct c as [[] [] [] [] [] [] [] []]; vm_compute; auto. Qed.
Lemma digits_lstrip s : digits (lstrip s) = digits s.
Proof.
  induction s as [|c s IH]; [reflexivity|]. cbn [lstrip]. destruct (is_space c) eqn:E; [|reflexivity].
  rewrite digits_cons, (space_digit c E). exact IH.
Qed.
Lemma digits_rstrip s : digits (rstrip s) = digits s.
Proof.
  induction s as [|c s IH]; [reflexivity|]. cbn [rstrip]. rewrite digits_cons. destruct (rstrip s) as [|d r] eqn:E.
  - rewrite <- IH. destruct (is_space c) eqn:F; [now rewrite (space_digit c F)|]. now rewrite digits_cons.
  - now rewrite digits_cons, IH.
Qed.
Lemma digits_strip s : digits (strip s) = digits s.
Proof. unfold strip. now rewrite digits_lstrip, digits_rstrip. Qed.
Lemma digits_trailing x s : String.length x = 1 -> no_digits x = true -> digits (trailing x s) = digits s.
Proof.
  intros L N. unfold trailing. destruct (endswith x s) eqn:E; [|reflexivity]. rewrite digits_strip.
  unfold endswith in E. apply andb_true_iff in E as [_ E]. apply String.eqb_eq in E. rewrite L in E.
  rewrite <- (last_but 1 s) at 2. rewrite digits_app, E, (no_digits_nil x N), app_nil_r. reflexivity.
Qed.
Lemma digits_periods s : forall l, digits (periods l s) = digits s.
Proof.
  induction s as [|c s IH]; intros l; [reflexivity|]. cbn [periods].
  destruct (Ascii.eqb_spec c ".") as [->|N]; cbn [andb].
  - destruct (negb _); rewrite ?digits_cons, IH; reflexivity.
  - now rewrite !digits_cons, IH.
Qed.
Lemma digits_ft s : digits (replace_ft s) = digits s.
Proof.
  unfold replace_ft. destruct (negb (occurs " FT " (upper s))); [apply digits_upper|].
  assert (H : forall o, no_digits o = true -> digits (replace_str " FT " o (upper s)) = digits s).
  { intros o N. apply (replace_keeps (fun x => digits x = digits s)); [discriminate| |apply digits_upper].
    intros a b. rewrite !digits_app, (no_digits_nil o N). auto. }
  destruct (isnumeric _); apply H; reflexivity.
Qed.

(** The digits of the name of a station are kept, whatever is expanded: numbers of roads, miles and
    altitudes (unless spellings are corrected, which writes whole names). *)
Theorem C112_digits : forall o name, SPELLINGS o = false -> digits (expand_usgs_site_name o name) = digits name.
Proof.
  intros o name H. unfold expand_usgs_site_name. rewrite H. cbv zeta.
  assert (A : forall b l s, forallb (fun a => sound a && forallb w_digits (swaps a) && forallb (fun _ => false) (sets a)) l = true ->
    digits (if b : bool then follow l s else s) = digits s).
  { intros [] l s L; [|reflexivity]. now apply digits_follow. }
  rewrite (A (DIRECTIONS o)) by reflexivity. rewrite (A (MISSING_STATE o)) by reflexivity.
  rewrite (A (CITY_LETTERS o)) by reflexivity. rewrite (A (STATE_LETTERS o)) by (vm_compute; reflexivity).
  assert (B : forall b s, digits (if b : bool then replace_abbreviations s else s) = digits s).
  { intros [] s; [|reflexivity]. unfold replace_abbreviations.
    apply digits_follow; [vm_compute; reflexivity|]. rewrite digits_ft. apply digits_follow; [vm_compute; reflexivity|reflexivity]. }
  rewrite B.
  assert (C : forall b s, digits (if b : bool then replace_punctuation s else s) = digits s).
  { intros [] s; [|reflexivity]. unfold replace_punctuation, replace_periods.
    apply digits_follow; [reflexivity|]. rewrite digits_periods. apply digits_follow; reflexivity. }
  rewrite C. rewrite !digits_trailing by reflexivity. destruct (UPPER o); [apply digits_upper|reflexivity].
Qed.
Print Assumptions C112_digits.

(** ** Characters *)

Section Chars.
Variable f : ascii -> bool.
Fixpoint all (s : string) : bool := match s with EmptyString => true | String c r => f c && all r end.
Lemma all_app a b : all (a ++ b) = all a && all b.
Proof. induction a as [|c a IH]; cbn [append all]; [reflexivity|]. now rewrite IH, andb_assoc. Qed.
Lemma all_has s : all s = true -> forall c, has c s -> f c = true.
Proof.
  induction s as [|d s IH]; [intros _ c []|]. cbn [all]. intros H c [->|I]; apply andb_true_iff in H as [A B]; [exact A|]. now apply IH.
Qed.
Definition w_all (p : string * string) : bool := noempty (fst p) && all (snd p).
Lemma all_swap o n : w_all (o, n) = true -> o <> "" /\ forall x y, all (x ++ o ++ y) = true -> all (x ++ n ++ y) = true.
Proof.
  unfold w_all. cbn [fst snd]. intros H. apply andb_true_iff in H as [A B]. split; [now apply noempty_ne|].
  intros x y. rewrite !all_app, B. intros K. apply andb_true_iff in K as [K1 K2]. apply andb_true_iff in K2 as [_ K2]. now rewrite K1, K2.
Qed.
Definition ok_all (a : step) : bool := sound a && forallb w_all (swaps a) && forallb all (sets a).
Lemma all_follow l s : forallb ok_all l = true -> all s = true -> all (follow l s) = true.
Proof. intros L K. apply (follow_keeps (fun s => all s = true) w_all all); auto. exact all_swap. Qed.
Lemma all_lstrip s : all s = true -> all (lstrip s) = true.
Proof. induction s as [|c s IH]; [auto|]. cbn [lstrip all]. intros H. destruct (is_space c); [|exact H]. apply andb_true_iff in H as [_ H]. auto. Qed.
Lemma all_rstrip s : all s = true -> all (rstrip s) = true.
Proof.
  induction s as [|c s IH]; [auto|]. cbn [rstrip all]. intros H. apply andb_true_iff in H as [A B]. specialize (IH B).
  destruct (rstrip s); [destruct (is_space c); cbn [all]; rewrite ?A; reflexivity|]. cbn [all] in *. now rewrite A.
Qed.
Lemma all_trailing x s : all s = true -> all (trailing x s) = true.
Proof.
  intros H. unfold trailing. destruct (endswith x s); [|exact H]. unfold strip. apply all_lstrip, all_rstrip.
  rewrite <- (last_but 1 s), all_app in H. now apply andb_true_iff in H as [H _].
Qed.
Lemma all_periods s : forall l, all s = true -> all (periods l s) = true.
Proof.
  induction s as [|c s IH]; intros l H; [reflexivity|]. cbn [periods]. cbn [all] in H. apply andb_true_iff in H as [A B].
  destruct (_ && negb _); [now apply IH|]. cbn [all]. now rewrite A, IH.
Qed.
(** after the replacement of one character it is gone *)
Lemma all_gone c o s : all o = true -> (forall d, d <> c -> f d = true) -> all (replace_str (String c "") o s) = true.
Proof.
  intros O H. unfold replace_str. induction s as [|d s IH]; [reflexivity|]. cbn [rep].
  destruct (String.prefix (String c "") (String d s)) eqn:E.
  - cbn [String.length Nat.sub]. now rewrite all_app, O, IH.
  - cbn [all]. rewrite IH, H; [reflexivity|]. intros ->. cbn in E. destruct (ascii_dec c c); [destruct s; discriminate|congruence].
Qed.
Hypothesis fup : forall c, f c = true -> f (upper_char c) = true.
Lemma all_upper s : all s = true -> all (upper s) = true.
Proof.
  unfold upper. induction s as [|c s IH]; [auto|]. cbn [all smap]. intros H. apply andb_true_iff in H as [A B].
  now rewrite (fup c A), IH.
Qed.
Lemma all_ft s : all " FEET " = true -> all " FORT " = true -> all s = true -> all (replace_ft s) = true.
Proof.
  intros E F H. apply all_upper in H. unfold replace_ft. destruct (negb (occurs " FT " (upper s))); [exact H|].
  assert (K : forall o, all o = true -> all (replace_str " FT " o (upper s)) = true).
  { intros o O. apply (replace_keeps (fun s => all s = true)); [discriminate| |exact H].
    apply all_swap. unfold w_all. cbn [fst snd]. now rewrite O. }
  destruct (isnumeric _); now apply K.
Qed.
Lemma all_abbreviations s : forallb ok_all st_steps = true -> forallb ok_all abbreviations = true -> all " FEET " = true -> all " FORT " = true ->
  all s = true -> all (replace_abbreviations s) = true.
Proof. intros A B C D H. unfold replace_abbreviations. apply all_follow; [exact B|]. apply all_ft; auto. now apply all_follow. Qed.
Definition late : list step := (state_letters ++ spellings ++ city_letters ++ missing_state ++ directions)%list.
Lemma all_late o s : forallb ok_all late = true -> all s = true ->
  all (let name := if STATE_LETTERS o then follow state_letters s else s in
       let name := if SPELLINGS o then follow spellings name else name in
       let name := if CITY_LETTERS o then follow city_letters name else name in
       let name := if MISSING_STATE o then follow missing_state name else name in
       if DIRECTIONS o then follow directions name else name) = true.
Proof.
  unfold late. rewrite !forallb_app, !andb_true_iff. intros (A & B & C & D & E) H.
  assert (K : forall (b : bool) l s, forallb ok_all l = true -> all s = true -> all (if b then follow l s else s) = true).
  { intros [] l x L X; [now apply all_follow|exact X]. }
  cbv zeta. repeat (apply K; [assumption|]). exact H.
Qed.
End Chars.

Definition not_lower (c : ascii) : bool := negb (Nat.leb 97 (nat_of_ascii c) && Nat.leb (nat_of_ascii c) 122).
Lemma not_lower_upper c : not_lower (upper_char c) = true.
Proof. destruct c as [[] [] [] [] [] [] [] []]; reflexivity. Qed.
Lemma upper_not_lower s : all not_lower (upper s) = true.
Proof. unfold upper. induction s as [|c s IH]; [reflexivity|]. cbn [smap all]. now rewrite not_lower_upper. Qed.
Lemma ft_not_lower s : all not_lower (replace_ft s) = true.
Proof.
  unfold replace_ft. destruct (negb (occurs " FT " (upper s))); [apply upper_not_lower|].
  assert (K : forall o, all not_lower o = true -> all not_lower (replace_str " FT " o (upper s)) = true).
  { intros o O. apply (replace_keeps (fun s => all not_lower s = true)); [discriminate| |apply upper_not_lower].
    apply all_swap. unfold w_all. cbn [fst snd]. now rewrite O. }
  destruct (isnumeric _); now apply K.
Qed.

(** No small letter is left in the expanded name if capitals are asked for, and also if they are not
    asked for but abbreviations are expanded. *)
Theorem C112_upper : forall o name c, UPPER o || ABBREVIATIONS o = true -> has c (expand_usgs_site_name o name) -> ~ is_lower c.
Proof.
  intros o name c H I.
  assert (A : all not_lower (expand_usgs_site_name o name) = true).
  { unfold expand_usgs_site_name. apply all_late; [vm_compute; reflexivity|].
    destruct (ABBREVIATIONS o) eqn:E.
    - unfold replace_abbreviations. apply all_follow; [vm_compute; reflexivity|apply ft_not_lower].
    - rewrite orb_false_r in H. rewrite H.
      assert (T : all not_lower (trailing "," (trailing "." (upper name))) = true) by (apply all_trailing, all_trailing, upper_not_lower).
      destruct (PUNCTUATION o); [|exact T]. unfold replace_punctuation. apply all_follow; [reflexivity|]. apply all_periods.
      apply all_follow; [reflexivity|exact T]. }
  apply (all_has _ _ A) in I. unfold not_lower in I. unfold is_lower. intros [L M].
  apply Nat.leb_le in L. apply Nat.leb_le in M. rewrite L, M in I. discriminate.
Qed.
Print Assumptions C112_upper.

Lemma gone d o name : In d [","%char; ";"%char; "@"%char] -> PUNCTUATION o = true -> ~ has d (expand_usgs_site_name o name).
Proof.
  intros D H I. set (f := fun c => negb (Ascii.eqb c d)).
  assert (F : forall c, f c = true -> f (upper_char c) = true).
  { intros c. unfold f. destruct D as [<-|[<-|[<-|[]]]]; destruct c as [[] [] [] [] [] [] [] []]; vm_compute; auto. }
  assert (G : forall c, c <> d -> f c = true). { intros c N. unfold f. destruct (Ascii.eqb_spec c d); [congruence|reflexivity]. }
  assert (A : all f (expand_usgs_site_name o name) = true).
  { unfold expand_usgs_site_name. rewrite H. generalize (trailing "," (trailing "." (if UPPER o then upper name else name))). intros s.
    apply all_late; [destruct D as [<-|[<-|[<-|[]]]]; vm_compute; reflexivity|].
    assert (P : all f (replace_punctuation s) = true).
    { unfold replace_punctuation, replace_periods. unfold commas, ats, follow. cbn [fold_left apply].
      assert (K : forall x y s, w_all f (x, y) = true -> all f s = true -> all f (replace_str x y s) = true).
      { intros x y z W Z. destruct (all_swap f x y W) as (N & S0). now apply (replace_keeps (fun s => all f s = true)). }
      destruct D as [<-|[<-|[<-|[]]]].
      - apply K; [reflexivity|]. apply K; [reflexivity|]. apply all_periods. apply K; [reflexivity|]. apply K; [reflexivity|].
        apply all_gone; [reflexivity|exact G].
      - apply K; [reflexivity|]. apply K; [reflexivity|]. apply all_periods. apply all_gone; [reflexivity|exact G].
      - apply K; [reflexivity|]. apply all_gone; [reflexivity|exact G]. }
    destruct (ABBREVIATIONS o); [|exact P].
    apply all_abbreviations; try exact P; [exact F| | | |]; destruct D as [<-|[<-|[<-|[]]]]; vm_compute; reflexivity. }
  apply (all_has _ _ A) in I. unfold f in I. rewrite Ascii.eqb_refl in I. discriminate.
Qed.

(** ** Periods *)

Definition fd (s : string) : bool := match s with String c _ => digit c | EmptyString => false end.
Fixpoint good (p : bool) (s : string) : bool :=
  match s with EmptyString => true | String c r => (if Ascii.eqb c "." then p && fd r else true) && good (digit c) r end.
Definition fdx (s : string) (k : bool) : bool := match s with String c _ => digit c | EmptyString => k end.
Fixpoint goodx (p : bool) (s : string) (k : bool) : bool :=
  match s with EmptyString => true | String c r => (if Ascii.eqb c "." then p && fdx r k else true) && goodx (digit c) r k end.
Fixpoint ld (p : bool) (s : string) : bool := match s with EmptyString => p | String c r => ld (digit c) r end.

Lemma good_app u : forall p v, good p (u ++ v) = goodx p u (fd v) && good (ld p u) v.
Proof.
  induction u as [|c u IH]; intros p v; [reflexivity|]. cbn [append good goodx ld]. rewrite IH, andb_assoc. f_equal. f_equal.
  destruct u; reflexivity.
Qed.
Lemma good_mono s p : good false s = true -> good p s = true.
Proof. destruct p; [|auto]. destruct s as [|c s]; [auto|]. cbn [good]. destruct (Ascii.eqb c "."); [discriminate|auto]. Qed.
Lemma goodx_mono u : forall p k k', (k = true -> k' = true) -> goodx p u k = true -> goodx p u k' = true.
Proof.
  induction u as [|c u IH]; intros p k k' M H; [reflexivity|]. cbn [goodx] in *. apply andb_true_iff in H as [A B].
  rewrite (IH _ _ _ M B), andb_true_r. destruct (Ascii.eqb c "."); [|reflexivity]. apply andb_true_iff in A as [A C].
  rewrite A. destruct u; [now apply M|exact C].
Qed.
Definition no_dot (s : string) : bool := all (fun c => negb (Ascii.eqb c ".")) s.
Lemma goodx_nodot u : forall p k, no_dot u = true -> goodx p u k = true.
Proof.
  unfold no_dot. induction u as [|c u IH]; intros p k H; [reflexivity|]. cbn [goodx all] in *. apply andb_true_iff in H as [A B].
  apply negb_true_iff in A. rewrite A, IH by exact B. reflexivity.
Qed.
Definition w_good (p : string * string) : bool :=
  let '(o, n) := p in noempty o && noempty n && no_dot n && (negb (fd o) || fd n) && (negb (ld false o) || ld false n).
Lemma ld_ne s p q : s <> "" -> ld p s = ld q s.
Proof. destruct s; [congruence|reflexivity]. Qed.
Lemma fd_ne s t : s <> "" -> fd (s ++ t) = fd s.
Proof. destruct s; [congruence|reflexivity]. Qed.
Lemma good_swap o n : w_good (o, n) = true -> o <> "" /\ forall x y, good false (x ++ o ++ y) = true -> good false (x ++ n ++ y) = true.
Proof.
  unfold w_good. intros H. apply andb_true_iff in H as [H E]. apply andb_true_iff in H as [H D]. apply andb_true_iff in H as [H C].
  apply andb_true_iff in H as [A B]. apply noempty_ne in A. apply noempty_ne in B. split; [exact A|]. intros x y.
  rewrite !good_app, (fd_ne o y A), (fd_ne n y B), !andb_true_iff. intros (K1 & _ & K3). refine (conj _ (conj _ _)).
  - apply (goodx_mono _ _ _ _) with (2 := K1). intros F. rewrite F in D. exact D.
  - now apply goodx_nodot.
  - rewrite (ld_ne o _ false A) in K3. rewrite (ld_ne n _ false B). destruct (ld false o); [cbn [negb orb] in E; rewrite E; exact K3|].
    now apply good_mono.
Qed.
Definition ok_good (a : step) : bool := sound a && forallb w_good (swaps a) && forallb (good false) (sets a).
Lemma good_follow l s : forallb ok_good l = true -> good false s = true -> good false (follow l s) = true.
Proof. intros L K. apply (follow_keeps (fun s => good false s = true) w_good (good false)); auto. exact good_swap. Qed.

Lemma fd_periods r : forall l, fd r = true -> fd (periods l r) = true.
Proof.
  destruct r as [|c r]; [discriminate|]. intros l H. cbn [periods]. destruct (Ascii.eqb_spec c ".") as [->|N]; [discriminate|exact H].
Qed.
Lemma good_periods s : forall l, good l (periods l s) = true.
Proof.
  induction s as [|c s IH]; intros l; [reflexivity|]. cbn [periods].
  fold (fd s). destruct (Ascii.eqb_spec c ".") as [->|N]; cbn [andb].
  - destruct (l && fd s) eqn:E; cbn [negb].
    + apply andb_true_iff in E as [-> E]. cbn [good]. rewrite Ascii.eqb_refl, (fd_periods s _ E), IH. reflexivity.
    + apply good_mono, (IH false).
  - cbn [good]. apply Ascii.eqb_neq in N. now rewrite N, IH.
Qed.
Lemma upper_dot c : Ascii.eqb (upper_char c) "." = Ascii.eqb c ".".
Proof. destruct c as [[] [] [] [] [] [] [] []]; reflexivity. Qed.
Lemma good_upper s : forall p, good p (upper s) = good p s.
Proof.
  unfold upper. induction s as [|c s IH]; intros p; [reflexivity|]. cbn [smap good]. rewrite upper_dot, (proj1 (upper_digit c)), IH.
  f_equal. destruct (Ascii.eqb c "."); [|reflexivity]. f_equal. destruct s as [|d s]; [reflexivity|]. cbn. apply upper_digit.
Qed.
Lemma good_ft s : good false s = true -> good false (replace_ft s) = true.
Proof.
  intros H. rewrite <- (good_upper s) in H. unfold replace_ft. destruct (negb (occurs " FT " (upper s))); [exact H|].
  assert (K : forall o, w_good (" FT ", o) = true -> good false (replace_str " FT " o (upper s)) = true).
  { intros o O. apply (replace_keeps (fun s => good false s = true)); [discriminate| |exact H]. apply good_swap, O. }
  destruct (isnumeric _); now apply K.
Qed.
Lemma digit_iff c : digit c = true <-> is_digit c.
Proof. unfold digit, is_digit. rewrite andb_true_iff, !Nat.leb_le. tauto. Qed.
Lemma ld_last a : forall p, ld p a = true -> (a = "" /\ p = true) \/ exists a' d, a = a' ++ String d "" /\ is_digit d.
Proof.
  induction a as [|c a IH]; intros p H; [left; auto|]. right. cbn [ld] in H. destruct (IH _ H) as [[-> E]|(a' & d & -> & E)].
  - exists "", c. split; [reflexivity|]. now apply digit_iff.
  - exists (String c a'), d. split; [reflexivity|exact E].
Qed.
Lemma good_decimal s : good false s = true -> only_decimal_points s.
Proof.
  intros H a b ->. rewrite good_app in H. apply andb_true_iff in H as [_ H]. cbn [good] in H. rewrite Ascii.eqb_refl in H.
  apply andb_true_iff in H as [H _]. apply andb_true_iff in H as [A B]. split.
  - destruct (ld_last a _ A) as [[_ E]|E]; [discriminate|exact E].
  - destruct b as [|d b]; [discriminate|]. exists d, b. split; [reflexivity|]. now apply digit_iff.
Qed.

(** Punctuation is gone from the expanded name, but decimal points are kept. *)
Theorem C112_punctuation : forall o name, PUNCTUATION o = true ->
  let s := expand_usgs_site_name o name in
  ~ has "," s /\ ~ has ";" s /\ ~ has "@" s /\ only_decimal_points s.
Proof.
  intros o name H s. refine (conj _ (conj _ (conj _ _))); try (apply gone; [cbn; tauto|exact H]).
  apply good_decimal. unfold s, expand_usgs_site_name. rewrite H.
  generalize (trailing "," (trailing "." (if UPPER o then upper name else name))). intros t.
  assert (K : forall (b : bool) l s, forallb ok_good l = true -> good false s = true -> good false (if b then follow l s else s) = true).
  { intros [] l x L X; [now apply good_follow|exact X]. }
  cbv zeta. repeat (apply K; [vm_compute; reflexivity|]).
  assert (P : good false (replace_punctuation t) = true).
  { unfold replace_punctuation. apply good_follow; [reflexivity|]. apply good_periods. }
  destruct (ABBREVIATIONS o); [|exact P]. unfold replace_abbreviations.
  apply good_follow; [vm_compute; reflexivity|]. apply good_ft. apply good_follow; [vm_compute; reflexivity|exact P].
Qed.
Print Assumptions C112_punctuation.
(** Decimal points of a name without other punctuation are all kept. *)
Theorem C112_decimals : forall name, only_decimal_points name -> replace_periods name = name.
Proof.
  assert (A : forall s l a, (l = true -> ld false a = true) -> (ld false a = true -> l = true) -> only_decimal_points (a ++ s) -> periods l s = s).
  { induction s as [|c s IH]; intros l a L L' H; [reflexivity|]. cbn [periods]. fold (fd s).
    assert (E : Ascii.eqb c "." && negb (l && fd s) = false).
    { destruct (Ascii.eqb_spec c ".") as [->|N]; [|reflexivity]. destruct (H a s eq_refl) as ((a' & d & -> & D) & (e & b' & -> & E)).
      apply digit_iff in D. apply digit_iff in E. cbn [fd]. rewrite E.
      assert (F : l = true). { apply L'. clear - D. generalize false. induction a' as [|x a' IH]; intros p; [exact D|apply IH]. }
      now rewrite F. }
    rewrite E. f_equal. apply (IH _ (a ++ String c "")).
    - intros D. clear - D. generalize false. induction a as [|x a IH]; intros p; [exact D|apply IH].
    - intros D. clear - D. revert D. generalize false. induction a as [|x a IH]; intros p D; [exact D|apply (IH _ D)].
    - rewrite app_assoc_s. exact H. }
  intros name H. apply (A name false ""); auto.
Qed.
Print Assumptions C112_decimals.

(** ** Endings *)

Lemma last_app s t : last_n (String.length t) (s ++ t) = t.
Proof. unfold last_n. rewrite length_app. replace (_ + _ - _) with (String.length s) by lia. now apply drop_app. Qed.
Lemma but_app s t : but_n (String.length t) (s ++ t) = s.
Proof. unfold but_n. rewrite length_app. replace (_ + _ - _) with (String.length s) by lia. now apply take_app. Qed.
Lemma drop_drop a : forall b s, drop a (drop b s) = drop (b + a) s.
Proof. intros b. induction b as [|b IH]; intros s; [reflexivity|]. destruct s as [|c s]; [destruct a; reflexivity|]. cbn [drop Nat.add]. apply IH. Qed.
Lemma last_last k n s : k <= n -> n <= String.length s -> last_n k (last_n n s) = last_n k s.
Proof. intros H L. unfold last_n. rewrite drop_drop, drop_length. f_equal. lia. Qed.
Lemma drop_app_le k : forall s t, k <= String.length s -> drop k (s ++ t) = drop k s ++ t.
Proof. induction k as [|k IH]; intros s t H; [destruct s; reflexivity|]. destruct s; cbn in H; [lia|]. cbn. apply IH. lia. Qed.
Lemma last_within k s t : k <= String.length t -> last_n k (s ++ t) = last_n k t.
Proof.
  intros H. unfold last_n. rewrite length_app.
  replace (String.length s + String.length t - k) with (String.length s + (String.length t - k)) by lia.
  rewrite <- drop_drop. f_equal. now apply drop_app.
Qed.
Lemma take_plus k p t : take (String.length p + k) (p ++ t) = p ++ take k t.
Proof. induction p as [|c p IH]; [reflexivity|]. cbn. now rewrite IH. Qed.
(** text ending in [t] cannot end in [x] *)
Definition clash (t x : string) : bool :=
  let k := Nat.min (String.length t) (String.length x) in negb (String.eqb (last_n k t) (last_n k x)).
Lemma clash_ends s t x n : String.length x = n -> clash t x = true -> String.eqb (last_n n (s ++ t)) x = false.
Proof.
  intros N C. apply String.eqb_neq. intros E. unfold clash in C. apply negb_true_iff, String.eqb_neq in C. apply C. clear C.
  assert (L : n <= String.length (s ++ t)).
  { rewrite <- N, <- E. unfold last_n. rewrite drop_length. lia. }
  assert (K1 : Nat.min (String.length t) (String.length x) <= String.length t) by lia.
  assert (K2 : Nat.min (String.length t) (String.length x) <= n) by lia.
  revert K1 K2. generalize (Nat.min (String.length t) (String.length x)). intros k K1 K2.
  rewrite <- E, last_last by assumption. symmetry. now apply last_within.
Qed.
Lemma clash_endswith s t x : clash t x = true -> endswith x (s ++ t) = false.
Proof. intros C. unfold endswith. rewrite (clash_ends s t x _ eq_refl C). apply andb_false_r. Qed.

(** what a list of tests of the ending makes of a name ending in [t] *)
Fixpoint ending (t : string) (l : list step) : option string :=
  match l with
  | [] => Some t
  | Tail n x r :: l => if Nat.eqb (String.length x) n && clash t x then ending t l
                       else if Nat.eqb (String.length x) n && String.eqb t x then ending r l else None
  | _ => None
  end.
Lemma ending_ok l : forall s t u, ending t l = Some u -> follow l (s ++ t) = s ++ u.
Proof.
  unfold follow. induction l as [|a l IH]; intros s t u H; [injection H as <-; reflexivity|].
  destruct a as [| |n x r| | | | |]; try discriminate. cbn [ending] in H. cbn [fold_left apply].
  destruct (Nat.eqb_spec (String.length x) n) as [N|]; [|discriminate]. cbn [andb] in H. destruct (clash t x) eqn:C.
  - rewrite (clash_ends s t x n N C). now apply IH.
  - destruct (String.eqb_spec t x) as [->|]; [|discriminate]. subst n. rewrite last_app, String.eqb_refl, but_app. now apply IH.
Qed.

(** The spelling of a state at the end of a name gives way to its postal code; the rest of the name stays. *)
Theorem C112_states : forall s spelling code, In (spelling, code) spellings_of_states ->
  follow state_letters (s ++ " " ++ spelling) = s ++ " " ++ code.
Proof.
  intros s a c I. apply ending_ok.
  assert (T : forallb (fun p => match ending (" " ++ fst p) state_letters with Some u => String.eqb u (" " ++ snd p) | None => false end)
                      spellings_of_states = true) by (vm_compute; reflexivity).
  rewrite forallb_forall in T. specialize (T _ I). cbn [fst snd] in T. destruct (ending _ _) as [u|]; [|discriminate].
  apply String.eqb_eq in T. now subst.
Qed.
Print Assumptions C112_states.
(** A name which ends in a postal code is left as it is (W VA is West Virginia). *)
Theorem C112_states_done : forall s code, In code states -> (code = "VA" -> ~ exists r, s = r ++ " W") ->
  follow state_letters (s ++ " " ++ code) = s ++ " " ++ code.
Proof.
  assert (K : forall l s, (forall a, In a l -> apply s a = s) -> follow l s = s).
  { unfold follow. induction l as [|a l IH]; intros s H; [reflexivity|]. cbn [fold_left]. rewrite (H a (or_introl eq_refl)).
    apply IH. intros e I. apply H. now right. }
  intros s c I W. apply K. intros a J.
  assert (T : forallb (fun c => forallb (fun a => match a with
      | Tail n x r => Nat.eqb (String.length x) n && (clash (" " ++ c) x || String.eqb c "VA" && String.eqb x " W VA")
      | _ => false end) state_letters) states = true) by (vm_compute; reflexivity).
  rewrite forallb_forall in T. specialize (T _ I). cbv beta in T. rewrite forallb_forall in T. specialize (T _ J). cbv beta in T.
  destruct a as [| |n x r| | | | |]; try discriminate. apply andb_true_iff in T as [N T]. apply Nat.eqb_eq in N. cbn [apply].
  apply orb_true_iff in T as [T|T]; [now rewrite (clash_ends s _ x n N T)|].
  apply andb_true_iff in T as [T1 T2]. apply String.eqb_eq in T1, T2. subst c x n. specialize (W eq_refl).
  destruct (String.eqb_spec (last_n (String.length " W VA") (s ++ " " ++ "VA")) " W VA") as [E|]; [|reflexivity].
  exfalso. apply W. exists (but_n 5 (s ++ " " ++ "VA")). pose proof (last_but 5 (s ++ " " ++ "VA")) as B.
  cbn [String.length] in E. rewrite E in B. change " W VA" with (" W" ++ " " ++ "VA") in B. rewrite <- app_assoc_s in B.
  apply (f_equal (but_n 3)) in B. change 3 with (String.length (" " ++ "VA")) in B. rewrite !but_app in B. now symmetry.
Qed.
Print Assumptions C112_states_done.

Lemma smap_app f a b : smap f (a ++ b) = smap f a ++ smap f b.
Proof. induction a as [|c a IH]; cbn; [reflexivity|now rewrite IH]. Qed.
Lemma smap_length f s : String.length (smap f s) = String.length s.
Proof. induction s as [|c s IH]; cbn; [reflexivity|now rewrite IH]. Qed.
Fixpoint endl (w : bool) (s : string) : bool := match s with EmptyString => w | String c r => endl (letter c) r end.
Lemma title_app a : forall w b, title_from w (a ++ b) = title_from w a ++ title_from (endl w a) b.
Proof. induction a as [|c a IH]; intros w b; [reflexivity|]. cbn [append title_from endl]. now rewrite IH. Qed.
Lemma fold_none {A} (g : A -> bool) (h : A -> string) l : forall c, forallb (fun e => negb (g e)) l = true ->
  fold_left (fun c e => if g e then h e else c) l c = c.
Proof.
  induction l as [|e l IH]; intros c H; [reflexivity|]. cbn [forallb] in H. apply andb_true_iff in H as [H1 H2].
  apply negb_true_iff in H1. cbn [fold_left]. rewrite H1. now apply IH.
Qed.

(** the code of a name which ends in three characters none of the listed endings has *)
Lemma code_plain s t : String.length t = 3 -> forallb (fun e => clash (lower t) (fst e)) code_list = true ->
  get_state_code (s ++ t) = Ok (if String.eqb (take 1 t) " " then upper (last_n 2 t) else "").
Proof.
  intros L H. unfold get_state_code. rewrite length_app, L. replace (Nat.ltb _ 3) with false by (symmetry; apply Nat.ltb_ge; lia).
  rewrite <- L at 1. rewrite last_app, last_within by lia. f_equal.
  unfold lower in *. rewrite smap_app. apply (fold_none (fun e => endswith (fst e) (smap lower_char s ++ smap lower_char t)) snd).
  rewrite forallb_forall in *. intros e I. rewrite clash_endswith; [reflexivity|]. now apply H.
Qed.

(** The code of the state is found in a name which ends in it, in capitals or not. *)
Theorem C112_code : forall s code, In code states ->
  get_state_code (s ++ " " ++ code) = Ok code /\ get_state_code (s ++ " " ++ title code) = Ok code.
Proof.
  intros s c I.
  assert (T : forallb (fun c => Nat.eqb (String.length (" " ++ c)) 3 && forallb (fun e => clash (lower (" " ++ c)) (fst e)) code_list
                                && String.eqb (if String.eqb (take 1 (" " ++ c)) " " then upper (last_n 2 (" " ++ c)) else "") c
                                && Nat.eqb (String.length (" " ++ title c)) 3
                                && forallb (fun e => clash (lower (" " ++ title c)) (fst e)) code_list
                                && String.eqb (if String.eqb (take 1 (" " ++ title c)) " " then upper (last_n 2 (" " ++ title c)) else "") c)
                      states = true) by (vm_compute; reflexivity).
  rewrite forallb_forall in T. specialize (T _ I). cbv beta in T. rewrite !andb_true_iff in T.
  destruct T as (((((A & B) & C) & D) & E) & F). apply Nat.eqb_eq in A, D. apply String.eqb_eq in C, F.
  split; rewrite code_plain by assumption; congruence.
Qed.
Print Assumptions C112_code.

(** The long name of a station whose expanded name ends in the code of a state ends in it in capitals, and
    the code found in the long name is that of the state. *)
Theorem C112_long_name : forall name s code, In code states -> expand_usgs_site_name default name = s ++ " " ++ code ->
  get_usgs_long_name name = title s ++ " " ++ code /\ get_state_code (get_usgs_long_name name) = Ok code.
Proof.
  intros name s c I E.
  assert (A : get_usgs_long_name name = title s ++ " " ++ c).
  { unfold get_usgs_long_name. rewrite E. unfold title. rewrite title_app.
    assert (T : forallb (fun c => forallb (fun w => let t := title_from w (" " ++ c) in
        Nat.eqb (String.length t) 3 && existsb (String.eqb (upper t)) state_list && String.eqb (but_n 2 t ++ upper (last_n 2 t)) (" " ++ c)
        && Nat.eqb (String.length (" " ++ c)) 3 && clash (upper (" " ++ c)) " YNP") [true; false]) states = true) by (vm_compute; reflexivity).
    rewrite forallb_forall in T. specialize (T _ I). cbv beta in T. rewrite forallb_forall in T.
    specialize (T (endl false s) ltac:(destruct (endl false s); cbn; tauto)). cbv zeta in T.
    set (t := title_from (endl false s) (" " ++ c)) in *. set (p := title_from false s).
    rewrite !andb_true_iff in T. destruct T as ((((L & X) & B) & L2) & Y).
    apply Nat.eqb_eq in L, L2. apply String.eqb_eq in B. cbv zeta.
    replace (last_n 3 (p ++ t)) with t by (rewrite <- L at 1; now rewrite last_app). rewrite X.
    rewrite (last_within 2 p t) by lia.
    assert (D : but_n 2 (p ++ t) = p ++ but_n 2 t).
    { unfold but_n. rewrite length_app. replace (String.length p + String.length t - 2) with (String.length p + (String.length t - 2)) by (rewrite L; lia).
      apply take_plus. }
    rewrite D, app_assoc_s, B.
    replace (String.eqb (upper (last_n 4 (p ++ " " ++ c))) " YNP") with false; [reflexivity|].
    symmetry. apply String.eqb_neq. intros F.
    assert (G : String.length (last_n 4 (p ++ " " ++ c)) = 4).
    { rewrite <- (smap_length upper_char). fold (upper (last_n 4 (p ++ " " ++ c))). now rewrite F. }
    assert (G' : 4 <= String.length (p ++ " " ++ c)). { unfold last_n in G. rewrite drop_length in G. lia. }
    pose proof (clash_ends (upper p) (upper (" " ++ c)) " YNP" 4 eq_refl Y) as Z.
    unfold upper in Z. rewrite <- smap_app in Z. apply String.eqb_neq in Z. apply Z.
    assert (M : forall k s, drop k (smap upper_char s) = smap upper_char (drop k s)).
    { clear. induction k as [|k IH]; intros [|a s]; cbn; auto. }
    unfold last_n. rewrite smap_length, M. exact F. }
  split; [exact A|]. rewrite A. now apply C112_code.
Qed.
Print Assumptions C112_long_name.
Theorem C112_short_refuted : forall long_name, String.length long_name < 3 -> get_state_code long_name = Err IndexError.
Proof. intros s H. unfold get_state_code. apply Nat.ltb_lt in H. now rewrite H. Qed.
Print Assumptions C112_short_refuted.

(** ** Words *)

Lemma prefix_other c d p r : c <> d -> String.prefix (String c p) (String d r) = false.
Proof. intros N. cbn. destruct (ascii_dec c d); [contradiction|reflexivity]. Qed.
Lemma prefix_same_char c p r : String.prefix (String c p) (String c r) = String.prefix p r.
Proof. cbn. destruct (ascii_dec c c); [reflexivity|congruence]. Qed.

Lemma word_cons c w : word (String c w) -> c <> " "%char /\ word w.
Proof. unfold word, has. cbn. intros H. split; [intros ->; tauto|tauto]. Qed.
Lemma sentence_cons a ws : ws <> [] -> sentence (a :: ws) = a ++ " " ++ sentence ws.
Proof. destruct ws; [congruence|reflexivity]. Qed.
Lemma snoc_ne {A} (l : list A) b : (l ++ [b])%list <> [].
Proof. now destruct l. Qed.
Lemma rep_word p o w z : word w -> rep (String " " p) o 0 (w ++ z) = w ++ rep (String " " p) o 0 z.
Proof.
  induction w as [|c w IH]; intros W; [reflexivity|]. apply word_cons in W as [N W]. cbn [append]. rewrite rep_not; [now rewrite IH|].
  apply prefix_other. congruence.
Qed.
Lemma rep_end p o w : word w -> rep (String " " p) o 0 w = w.
Proof. intros W. rewrite <- (app_nil_s w) at 1. rewrite rep_word by exact W. cbn. apply app_nil_s. Qed.
Lemma prefix_word w : forall x z, word w -> word x -> String.prefix (w ++ " ") (x ++ String " " z) = true -> x = w.
Proof.
  induction w as [|c w IH]; intros x z W X H.
  - destruct x as [|d x]; [reflexivity|]. apply word_cons in X as [N X]. cbn [append] in H. rewrite prefix_other in H by congruence. discriminate.
  - apply word_cons in W as [N W]. destruct x as [|d x].
    + cbn [append] in H. rewrite prefix_other in H by congruence. discriminate.
    + apply word_cons in X as [M X]. cbn [append] in H. destruct (ascii_dec c d) as [->|D]; [|rewrite prefix_other in H by exact D; discriminate].
      rewrite prefix_same_char in H. f_equal. now apply (IH x z).
Qed.
Lemma prefix_word_end w : forall x, word w -> word x -> String.prefix (w ++ " ") x = false.
Proof.
  induction w as [|c w IH]; intros x W X; destruct x as [|d x]; try reflexivity; apply word_cons in X as [M X].
  - cbn [append]. apply prefix_other. congruence.
  - apply word_cons in W as [N W]. cbn [append]. destruct (ascii_dec c d) as [->|D]; [rewrite prefix_same_char; now apply IH|now apply prefix_other].
Qed.
Lemma prefix_space p z : String.prefix (" " ++ p) (String " " z) = String.prefix p z.
Proof. apply prefix_same_char. Qed.

Lemma words_rep w v b : word w -> word b -> forall ws, Forall word ws -> no_repeat w ws ->
  let f := fun x => if String.eqb x w then v else x in
  rep (" " ++ w ++ " ") (" " ++ v ++ " ") 0 (" " ++ sentence (ws ++ [b])) = " " ++ sentence (map f ws ++ [b]) /\
  (hd_error ws <> Some w ->
   rep (" " ++ w ++ " ") (" " ++ v ++ " ") 0 (sentence (ws ++ [b])) = sentence (map f ws ++ [b])).
Proof.
  intros W B ws F NR f. change (" " ++ w ++ " ") with (String " " (w ++ " ")). induction F as [|x r X F IH].
  - cbn [app map sentence]. split; [|intros _; now apply rep_end].
    change (" " ++ b) with (String " " b). rewrite rep_not; [now rewrite rep_end|].
    rewrite (prefix_space (w ++ " ")). now apply prefix_word_end.
  - assert (NR' : no_repeat w r). { destruct r; [exact I|]. exact (proj2 NR). }
    specialize (IH NR'). destruct IH as [IA IB].
    change ((x :: r) ++ [b])%list with (x :: (r ++ [b]))%list. change (map f (x :: r) ++ [b])%list with (f x :: (map f r ++ [b]))%list.
    rewrite !sentence_cons by apply snoc_ne. change (f x) with (if String.eqb x w then v else x). destruct (String.eqb_spec x w) as [->|N].
    + split; [|intros Q; cbn in Q; congruence].
      replace (" " ++ w ++ " " ++ sentence (r ++ [b])) with (String " " (w ++ " ") ++ sentence (r ++ [b]))
        by (cbn [append]; now rewrite app_assoc_s).
      rewrite rep_found by discriminate. cbn [append]. rewrite !app_assoc_s. do 2 f_equal. cbn [append]. f_equal. apply IB.
      destruct r as [|y r]; [discriminate|]. cbn [hd_error]. intros E. injection E as ->. apply (proj1 NR). auto.
    + change (" " ++ x ++ " " ++ sentence (r ++ [b])) with (String " " (x ++ " " ++ sentence (r ++ [b]))). split.
      * rewrite rep_not; [rewrite rep_word by exact X; rewrite IA; reflexivity|].
        rewrite (prefix_space (w ++ " ")). destruct (String.prefix _ _) eqn:E; [|reflexivity].
        apply (prefix_word w x _ W X) in E. contradiction.
      * intros _. rewrite rep_word by exact X. now rewrite IA.
Qed.

(** An abbreviation written with a blank on both sides is replaced where it stands as a word, and nowhere
    else: neither in other words, nor as the first or the last word of the name. *)
Theorem C112_words : forall w v first ws last, word w -> word first -> Forall word ws -> word last -> no_repeat w ws ->
  apply (sentence (first :: ws ++ [last])) (Repl (" " ++ w ++ " ") (" " ++ v ++ " "))
  = sentence (first :: map (fun x => if String.eqb x w then v else x) ws ++ [last]).
Proof.
  intros w v a ws b W A F B N. cbn [apply]. unfold replace_str. rewrite !sentence_cons by apply snoc_ne.
  change (" " ++ w ++ " ") with (String " " (w ++ " ")) at 1. rewrite rep_word by exact A. f_equal. now apply words_rep.
Qed.
Print Assumptions C112_words.
(** The words between the first and the last are what the abbreviations stand for, if nothing else in the name is abbreviated. *)
Theorem C112_meaning : forall abbreviation meaning, In (abbreviation, meaning) meanings ->
  expand_usgs_site_name default (sentence ["SANDY"; abbreviation; "POOL"; "TX"]) = sentence ["SANDY"; meaning; "POOL"; "TX"].
Proof.
  intros a m I.
  assert (T : forallb (fun p => String.eqb (expand_usgs_site_name default (sentence ["SANDY"; fst p; "POOL"; "TX"])) (sentence ["SANDY"; snd p; "POOL"; "TX"]))
                      meanings = true) by (vm_compute; reflexivity).
  rewrite forallb_forall in T. now apply String.eqb_eq, (T (a, m)).
Qed.
Print Assumptions C112_meaning.
(** Of two abbreviations in a row only the first is replaced. *)
Theorem C112_repeat_refuted : expand_usgs_site_name default "SPRING CR CR AT X" = "SPRING CREEK CR AT X".
Proof. vm_compute. reflexivity. Qed.
Print Assumptions C112_repeat_refuted.

(** ** FT *)

Lemma has_app c a b : has c (a ++ b) <-> has c a \/ has c b.
Proof. unfold has. rewrite loas_app. apply in_app_iff. Qed.
Lemma occurs_app x s t : occurs x t = true -> occurs x (s ++ t) = true.
Proof. intros H. induction s as [|c s IH]; [exact H|]. cbn [append occurs]. rewrite IH. apply orb_true_r. Qed.
Lemma occurs_here x t : occurs x (x ++ t) = true.
Proof. destruct (x ++ t) as [|c s] eqn:E; cbn [occurs]; rewrite <- E, prefix_same; reflexivity. Qed.
Lemma before_word p w z : word w -> before (String " " p) (w ++ z) = w ++ before (String " " p) z.
Proof.
  induction w as [|c w IH]; intros W; [reflexivity|]. apply word_cons in W as [N W]. cbn [append]. 
  assert (E : String.prefix (String " " p) (String c (w ++ z)) = false) by (apply prefix_other; congruence).
  cbn [before]. rewrite E. now rewrite IH.
Qed.
Lemma before_words w z : word w -> forall ws, Forall word ws -> ~ In w ws ->
  before (" " ++ w ++ " ") (" " ++ sentence (ws ++ [w]) ++ " " ++ z) = (match ws with [] => "" | _ => " " ++ sentence ws end).
Proof.
  intros W. change (" " ++ w ++ " ") with (String " " (w ++ " ")). induction 1 as [|x r X F IH]; intros N.
  - cbn [app sentence]. replace (" " ++ w ++ " " ++ z) with (String " " (w ++ " ") ++ z) by (cbn [append]; now rewrite app_assoc_s).
    set (q := String " " (w ++ " ")). destruct (q ++ z) as [|c s] eqn:E; cbn [before]; rewrite <- E, prefix_same; reflexivity.
  - change ((x :: r) ++ [w])%list with (x :: (r ++ [w]))%list. rewrite sentence_cons by apply snoc_ne.
    replace (" " ++ (x ++ " " ++ sentence (r ++ [w])) ++ " " ++ z) with (String " " (x ++ String " " (sentence (r ++ [w]) ++ " " ++ z)))
      by (cbn [append]; rewrite !app_assoc_s; reflexivity).
    cbn [before]. rewrite (prefix_space (w ++ " ")).
    destruct (String.prefix (w ++ " ") _) eqn:E; [apply (prefix_word w x _ W X) in E; subst; exfalso; apply N; now left|].
    rewrite before_word by exact X.
    specialize (IH (fun I => N (or_intror I))).
    change (" " ++ sentence (r ++ [w]) ++ " " ++ z) with (String " " (sentence (r ++ [w]) ++ " " ++ z)) in IH. rewrite IH.
    destruct r as [|y r]; [cbn [sentence]; now rewrite app_nil_s|]. now rewrite (sentence_cons x (y :: r)) by discriminate.
Qed.
Lemma word_nosep w : word w -> nosep " " w = true.
Proof.
  induction w as [|c w IH]; intros W; [reflexivity|]. apply word_cons in W as [N W]. cbn [nosep]. rewrite IH by exact W.
  destruct (Ascii.eqb_spec c " "); [congruence|reflexivity].
Qed.
Lemma split_sentence ws : ws <> [] -> Forall word ws -> split " " (sentence ws) = ws.
Proof.
  intros N F. induction F as [|w r W F IH]; [congruence|]. destruct r as [|x r].
  - cbn [sentence]. apply split_last. now apply word_nosep.
  - rewrite sentence_cons by discriminate. cbn [append]. rewrite split_app by (now apply word_nosep). now rewrite IH.
Qed.
Lemma number_numeric w : isnumeric w = true <-> number w.
Proof.
  unfold isnumeric, number. rewrite andb_true_iff. split; intros [A B].
  - split; [intros ->; discriminate|]. clear A. induction w as [|c w IH]; [intros c []|]. cbn in B. apply andb_true_iff in B as [B C].
    intros d [->|I]; [now apply digit_iff|]. now apply IH.
  - split; [destruct (String.eqb_spec w ""); [congruence|reflexivity]|]. clear A. induction w as [|c w IH]; [reflexivity|].
    cbn [all_digits]. rewrite IH by (intros d I; apply B; now right). rewrite andb_true_r. apply digit_iff, B. now left.
Qed.
Lemma upper_id s : (forall c, has c s -> ~ is_lower c) -> upper s = s.
Proof.
  unfold upper. induction s as [|c s IH]; intros H; [reflexivity|]. cbn [smap]. rewrite IH by (intros d I; apply H; now right). f_equal.
  assert (K : ~ is_lower c) by (apply H; now left). unfold is_lower in K. unfold upper_char.
  destruct (N.leb_spec 97 (N_of_ascii c)) as [A|A]; [|reflexivity]. destruct (N.leb_spec (N_of_ascii c) 122) as [B|B]; [|reflexivity].
  exfalso. apply K. unfold nat_of_ascii. lia.
Qed.
Lemma has_sentence c ws : has c (sentence ws) -> c = " "%char \/ exists w, In w ws /\ has c w.
Proof.
  induction ws as [|w r IH]; [intros []|]. destruct r as [|x r].
  - cbn [sentence]. intros H. right. exists w. split; [now left|exact H].
  - rewrite sentence_cons by discriminate. rewrite !has_app. intros [H|[[H|[]]|H]].
    + right. exists w. split; [now left|exact H].
    + now left.
    + destruct (IH H) as [E|(y & I & K)]; [now left|]. right. exists y. split; [now right|exact K].
Qed.
Lemma sentence_app a b : a <> [] -> b <> [] -> sentence (a ++ b) = sentence a ++ " " ++ sentence b.
Proof.
  intros A B. induction a as [|x a IH]; [congruence|]. destruct a as [|y a].
  - cbn [app]. now rewrite sentence_cons.
  - change ((x :: y :: a) ++ b)%list with (x :: (y :: a ++ b))%list. rewrite (sentence_cons x (y :: a ++ b)), (sentence_cons x (y :: a)) by discriminate.
    change (y :: a ++ b)%list with ((y :: a) ++ b)%list. rewrite IH by discriminate. now rewrite !app_assoc_s.
Qed.
Lemma no_repeat_single w a b : ~ In w a -> ~ In w b -> no_repeat w (a ++ w :: b).
Proof.
  intros A B.
  assert (K : forall l, ~ In w l -> no_repeat w l).
  { induction l as [|x l IH]; intros H; [exact I|]. destruct l as [|y l]; [exact I|]. cbn [no_repeat].
    split; [intros [-> _]; apply H; now left|]. apply IH. intros J. apply H. now right. }
  induction a as [|x a IH].
  - cbn [app no_repeat]. destruct b as [|y b]; [exact I|]. split; [intros [_ ->]; apply B; now left|]. now apply K.
  - assert (A' : ~ In w a) by (intros J; apply A; now right). specialize (IH A').
    change ((x :: a) ++ w :: b)%list with (x :: (a ++ w :: b))%list. destruct a as [|y a].
    + cbn [app] in *. cbn [no_repeat]. split; [|exact IH]. intros [-> _]. apply A. now left.
    + cbn [app] in *. cbn [no_repeat]. split; [|exact IH]. intros [-> _]. apply A. now left.
Qed.

(** FT stands for feet after a number and for Fort otherwise, in a name (in capitals) which has it once,
    not as the first or the last word. *)
Theorem C112_ft : forall ws n rest, rest <> [] -> Forall word (ws ++ n :: rest) -> (forall w, In w (ws ++ n :: rest) -> forall c, has c w -> ~ is_lower c) ->
  ~ In "FT" (ws ++ n :: rest) ->
  (number n -> replace_ft (sentence (ws ++ n :: "FT" :: rest)) = sentence (ws ++ n :: "FEET" :: rest)) /\
  (~ number n -> replace_ft (sentence (ws ++ n :: "FT" :: rest)) = sentence (ws ++ n :: "FORT" :: rest)).
Proof.
  intros ws n rest R F U N.
  assert (FT : word "FT") by (unfold word, has; cbn; intuition congruence).
  apply Forall_app in F as [F1 F2]. inversion F2 as [|? ? Wn Fr]; subst.
  assert (N1 : ~ In "FT" ws) by (intros J; apply N, in_or_app; now left).
  assert (N2 : n <> "FT") by (intros ->; apply N, in_or_app; right; now left).
  assert (N3 : ~ In "FT" rest) by (intros J; apply N, in_or_app; right; now right).
  assert (UP : upper (sentence (ws ++ n :: "FT" :: rest)) = sentence (ws ++ n :: "FT" :: rest)).
  { apply upper_id. intros c H. apply has_sentence in H as [->|(w & I & H)]; [intros [A _]; apply Nat.leb_le in A; discriminate|].
    apply in_app_or in I as [I|[<-|[<-|I]]].
    - apply (U w); [apply in_or_app; now left|exact H].
    - apply (U n); [apply in_or_app; right; now left|exact H].
    - destruct H as [<-|[<-|[]]]; intros [A _]; apply Nat.leb_le in A; discriminate.
    - apply (U w); [apply in_or_app; right; now right|exact H]. }
  assert (SP : sentence (ws ++ n :: "FT" :: rest) = sentence (ws ++ [n]) ++ " FT " ++ sentence rest).
  { replace (ws ++ n :: "FT" :: rest)%list with ((ws ++ [n]) ++ "FT" :: rest)%list by (now rewrite <- app_assoc).
    rewrite sentence_app by (apply snoc_ne || discriminate). rewrite sentence_cons by exact R. reflexivity. }
  assert (OC : occurs " FT " (sentence (ws ++ n :: "FT" :: rest)) = true).
  { rewrite SP. apply occurs_app, occurs_here. }
  assert (FW : Forall word (ws ++ [n])) by (apply Forall_app; split; [exact F1|now constructor]).
  assert (BE : before " FT " (sentence (ws ++ n :: "FT" :: rest)) = sentence (ws ++ [n])).
  { destruct (ws ++ [n])%list as [|a q] eqn:E; [now destruct ws|]. inversion FW as [|? ? Wa Fq]; subst.
    replace (ws ++ n :: "FT" :: rest)%list with ((a :: q) ++ "FT" :: rest)%list by (rewrite <- E, <- app_assoc; reflexivity).
    assert (NQ : ~ In "FT" q).
    { intros J. assert (K : In "FT" (ws ++ [n])%list) by (rewrite E; now right). apply in_app_or in K as [K|[K|[]]]; congruence. }
    change ((a :: q) ++ "FT" :: rest)%list with (a :: (q ++ "FT" :: rest))%list. rewrite sentence_cons by (destruct q; discriminate).
    change " FT " with (String " " "FT "). rewrite before_word by exact Wa.
    replace (q ++ "FT" :: rest)%list with ((q ++ ["FT"]) ++ rest)%list by (now rewrite <- app_assoc).
    rewrite sentence_app by (apply snoc_ne || exact R).
    pose proof (before_words "FT" (sentence rest) FT q Fq NQ) as B. cbn [append] in B. cbn [append]. rewrite B.
    destruct q as [|q0 q]; [cbn [sentence]; apply app_nil_s|]. now rewrite (sentence_cons a (q0 :: q)) by discriminate. }
  assert (LW : List.last (split " " (before " FT " (sentence (ws ++ n :: "FT" :: rest)))) "" = n).
  { rewrite BE, split_sentence by (apply snoc_ne || exact FW). apply List.last_last. }
  assert (RP : forall v, replace_str " FT " (" " ++ v ++ " ") (sentence (ws ++ n :: "FT" :: rest)) = sentence (ws ++ n :: v :: rest)).
  { intros v. destruct (exists_last R) as (q & b & ->). apply Forall_app in Fr as [Fq Fb]. inversion Fb as [|? ? Wb _]; subst.
    assert (NQ : ~ In "FT" q) by (intros J; apply N3, in_or_app; now left).
    assert (MQ : forall l, ~ In "FT" l -> map (fun x => if String.eqb x "FT" then v else x) l = l).
    { induction l as [|x l IH]; intros H; [reflexivity|]. cbn [map]. rewrite IH by (intros J; apply H; now right).
      destruct (String.eqb_spec x "FT") as [->|]; [exfalso; apply H; now left|reflexivity]. }
    destruct ws as [|a ws].
    - pose proof (C112_words "FT" v n ("FT" :: q) b FT Wn ltac:(constructor; assumption) Wb
        (no_repeat_single "FT" [] q (fun J => J) NQ)) as H.
      cbn [apply app map] in H. rewrite String.eqb_refl, (MQ q NQ) in H. exact H.
    - inversion F1 as [|? ? Wa Fa]; subst.
      assert (NA : ~ In "FT" (ws ++ [n])%list).
      { intros J. apply in_app_or in J as [J|[J|[]]]; [apply N1; now right|congruence]. }
      assert (FA : Forall word ((ws ++ [n]) ++ "FT" :: q)%list).
      { apply Forall_app. split; [apply Forall_app; split; [exact Fa|now constructor]|now constructor]. }
      pose proof (C112_words "FT" v a ((ws ++ [n]) ++ "FT" :: q) b FT Wa FA Wb (no_repeat_single "FT" _ _ NA NQ)) as H.
      cbn [apply] in H. rewrite map_app in H. cbn [map] in H. rewrite String.eqb_refl, (MQ q NQ), (MQ _ NA) in H.
      rewrite <- !app_assoc in H. cbn [app] in H. exact H. }
  unfold replace_ft. cbv zeta. rewrite UP, OC. cbn [negb]. rewrite LW. split; intros Q.
  - apply number_numeric in Q. rewrite Q. apply (RP "FEET").
  - destruct (isnumeric n) eqn:E; [apply number_numeric in E; contradiction|]. apply (RP "FORT").
Qed.
Print Assumptions C112_ft.
(** The first FT decides for all: a fort after an altitude becomes feet. *)
Theorem C112_ft_refuted : expand_usgs_site_name default "HENDRY CR 200 FT AB RD AT FT MYERS FL" = "HENDRY CREEK 200 FEET ABOVE ROAD AT FEET MYERS FL".
Proof. vm_compute. reflexivity. Qed.
Print Assumptions C112_ft_refuted.
(** Abbreviations without a blank in front are found inside whole words. *)
Theorem C112_inside_refuted :
  expand_usgs_site_name default "CHIEF CREEK AT WEST PAUL MN" = "CHIEAST FORK CREEK AT WESAINT PAUL MN" /\
  expand_usgs_site_name default "REEF CREEK NEAR EAST JOHNSON VT" = "REEAST FORK CREEK NEAR EASAINT JOHNSON VT" /\
  expand_usgs_site_name default "NORTH EASTON BROOK AT EASTON MA" = "NORTHEASTON BROOK AT EASTON MA".
Proof. vm_compute. auto. Qed.
Print Assumptions C112_inside_refuted.
(** The rule for S L CITY compares the last eight characters with nine: it never changes a name. *)
Theorem C112_salt_lake_refuted : In (Tail 8 " S L CITY" " SALT LAKE CITY UT") city_letters /\
  (forall name, apply name (Tail 8 " S L CITY" " SALT LAKE CITY UT") = name) /\
  expand_usgs_site_name default "JORDAN RIVER AT S L CITY" = "JORDAN RIVER AT SOUTH LITTLE CITY".
Proof.
  refine (conj _ (conj _ _)); [cbn; tauto| |vm_compute; reflexivity]. intros name. cbn [apply].
  destruct (String.eqb_spec (last_n 8 name) " S L CITY") as [E|]; [|reflexivity]. exfalso.
  apply (f_equal String.length) in E. unfold last_n in E. rewrite drop_length in E. cbn in E. lia.
Qed.
Print Assumptions C112_salt_lake_refuted.
(** A correction written as a comparison is never made, and an abbreviation is expanded before the longer
    one it is part of is looked for. *)
Theorem C112_no_effect_refuted :
  expand_usgs_site_name default "LITTLE CYPRESS CREEK NEAR JEFFERSON TX" = "LITTLE CYPRESS CREEK NEAR JEFFERSON TX" /\
  expand_usgs_site_name default "THE D&R CA FEEDER AT TRENTON NJ" = "THE D&R CANAL FEEDER AT TRENTON NJ" /\
  In (Repl " D&R CA " "DELAWARE AND RARITAN CANAL") abbreviations.
Proof. refine (conj _ (conj _ _)); [vm_compute; reflexivity|vm_compute; reflexivity|]. unfold abbreviations. cbn [In]. tauto. Qed.
Print Assumptions C112_no_effect_refuted.

Lemma long_other name s t : String.length t = 3 -> expand_usgs_site_name default name = s ++ t ->
  (forall w, String.length (title_from w t) = 3 /\ existsb (String.eqb (upper (title_from w t))) state_list = false
             /\ clash (upper (title_from w t)) " YNP" = true) ->
  exists w, get_usgs_long_name name = title s ++ title_from w t.
Proof.
  intros L E H. exists (endl false s). unfold get_usgs_long_name. rewrite E. unfold title. rewrite title_app.
  destruct (H (endl false s)) as (L3 & X & Y). set (u := title_from (endl false s) t) in *. set (p := title_from false s). cbv zeta.
  replace (last_n 3 (p ++ u)) with u by (rewrite <- L3 at 1; now rewrite last_app). rewrite X.
  replace (String.eqb (upper (last_n 4 (p ++ u))) " YNP") with false; [reflexivity|].
  symmetry. apply String.eqb_neq. intros F.
  pose proof (clash_ends (upper p) (upper u) " YNP" 4 eq_refl Y) as Z.
  unfold upper in Z. rewrite <- smap_app in Z. apply String.eqb_neq in Z. apply Z.
  assert (M : forall k s, drop k (smap upper_char s) = smap upper_char (drop k s)).
  { clear. induction k as [|k IH]; intros [|a s]; cbn; auto. }
  unfold last_n. rewrite smap_length, M. exact F.
Qed.
(** The Yukon keeps its small letter. *)
Theorem C112_yukon_refuted : forall name s, expand_usgs_site_name default name = s ++ " YT" -> get_usgs_long_name name = title s ++ " Yt".
Proof.
  intros name s E. destruct (long_other name s " YT" eq_refl E) as (w & H); [intros []; vm_compute; auto|]. rewrite H. now destruct w.
Qed.
Print Assumptions C112_yukon_refuted.
(** Stations on the border of two states get no code: the name is changed into a form the search for the
    code does not know. *)
Theorem C112_border_refuted : forall name s b, In b ["AL/GA"; "AZ/CA"; "IL/KY"; "KY/TN"] -> expand_usgs_site_name default name = s ++ " " ++ b ->
  get_state_code (get_usgs_long_name name) = Ok "".
Proof.
  intros name s b I E.
  assert (K : forall q t, b = q ++ t -> String.length t = 3 -> (forall w, String.length (title_from w t) = 3
      /\ existsb (String.eqb (upper (title_from w t))) state_list = false /\ clash (upper (title_from w t)) " YNP" = true
      /\ forallb (fun e => clash (lower (title_from w t)) (fst e)) code_list = true /\ String.eqb (take 1 (title_from w t)) " " = false) ->
      get_state_code (get_usgs_long_name name) = Ok "").
  { intros q t B L H. destruct (long_other name (s ++ " " ++ q) t L) as (w & ->).
    - rewrite E, B. now rewrite !app_assoc_s.
    - intros w. destruct (H w) as (A1 & A2 & A3 & _). auto.
    - destruct (H w) as (A1 & _ & _ & A4 & A5). rewrite code_plain by assumption. now rewrite A5. }
  destruct I as [<-|[<-|[<-|[<-|[]]]]].
  - apply (K "AL" "/GA"); [reflexivity|reflexivity|]. intros []; vm_compute; auto 6.
  - apply (K "AZ" "/CA"); [reflexivity|reflexivity|]. intros []; vm_compute; auto 6.
  - apply (K "IL" "/KY"); [reflexivity|reflexivity|]. intros []; vm_compute; auto 6.
  - apply (K "KY" "/TN"); [reflexivity|reflexivity|]. intros []; vm_compute; auto 6.
Qed.
Print Assumptions C112_border_refuted.

(** ** A case *)

Example C112_case :
  get_usgs_long_name "SF L WIND RIV AB WASHAKIE RES, NR FT WASHAKIE, WYO." = "South Fork Little Wind River Above Washakie Reservoir Near Fort Washakie WY"
  /\ get_state_code (get_usgs_long_name "SF L WIND RIV AB WASHAKIE RES, NR FT WASHAKIE, WYO.") = Ok "WY"
  /\ expand_usgs_site_name default "Salt R. nr Chrysotile, Ariz. mile 34.8" = "SALT RIVER NEAR CHRYSOTILE ARIZ MILE 34.8"
  /\ expand_usgs_site_name default "COLORADO R BL LAGUNA DAM AZ-CA" = "COLORADO RIVER BELOW LAGUNA DAM" ++ " " ++ "AZ/CA"
  /\ expand_usgs_site_name default "PORCUPINE R AT BORDER, YT" = "PORCUPINE RIVER AT BORDER" ++ " YT"
  /\ digits (expand_usgs_site_name (Build_options true true true false true true true true) "Red Bluff Ck at FM 1283 nr RM 0.04, TX") = ["1"; "2"; "8"; "3"; "0"; "0"; "4"]%char
  /\ replace_ft (sentence ["MOHIHI"; "STREAM"; "AT"; "ALT"; "3420"; "FT"; "NR"; "WAIMEA"]) = sentence ["MOHIHI"; "STREAM"; "AT"; "ALT"; "3420"; "FEET"; "NR"; "WAIMEA"]
  /\ replace_ft (sentence ["CLEAR"; "FK"; "AT"; "FT"; "GRIFFIN"]) = sentence ["CLEAR"; "FK"; "AT"; "FORT"; "GRIFFIN"].
Proof. vm_compute. auto 10. Qed.
