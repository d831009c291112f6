(** Proofs about templates. *)

From Coq Require Import String Ascii List Bool Arith Lia.
From Verif Require Import Time_Model Time_Proofs Io_Model Io_Proofs Rti_Model Rti_Proofs Fmt_Model Fmt_Proofs Template_Model Template_Spec.
Import ListNotations.
Local Open Scope string_scope.

Lemma without_app c a b : without c (a ++ b) <-> without c a /\ without c b.
Proof. induction a as [|x a IH]; cbn [append without]; [tauto|]. rewrite IH. tauto. Qed.
Lemma without_nosep c s : without c s -> nosep c s = true.
Proof.
  induction s as [|a s IH]; cbn; [auto|]. intros [H K]. rewrite IH by exact K.
  destruct (Ascii.eqb_spec a c) as [E|E]; [contradiction|reflexivity].
Qed.

(** ** Replacing *)

Lemma prefix_ne c d p r : c <> d -> String.prefix (String c p) (String d r) = false.
Proof. intros N. cbn. destruct (ascii_dec c d); [contradiction|reflexivity]. Qed.
Lemma prefix_eq c p r : String.prefix (String c p) (String c r) = String.prefix p r.
Proof. cbn. destruct (ascii_dec c c); [reflexivity|congruence]. Qed.

Lemma rep_pass p o a b : rep p o (String.length a) (a ++ b) = rep p o 0 b.
Proof. induction a as [|c a IH]; [destruct b; reflexivity|]. cbn [String.length append rep]. exact IH. Qed.

Lemma prefix_self p b : String.prefix p (p ++ b) = true.
Proof. induction p as [|c p IH]; [destruct b; reflexivity|]. cbn. destruct (ascii_dec c c); [exact IH|congruence]. Qed.

Lemma rep_hit c p o b : rep (String c p) o 0 (String c p ++ b) = o ++ rep (String c p) o 0 b.
Proof.
  change (String c p ++ b) with (String c (p ++ b)). cbn [rep].
  change (String c (p ++ b)) with (String c p ++ b). rewrite prefix_self. cbn [String.length Nat.sub].
  rewrite Nat.sub_0_r, rep_pass. reflexivity.
Qed.

Lemma rep_char c p o b : String.prefix p (String c b) = false -> rep p o 0 (String c b) = String c (rep p o 0 b).
Proof. intros H. cbn [rep]. rewrite H. reflexivity. Qed.

Lemma rep_lit c p o a b : without c a -> rep (String c p) o 0 (a ++ b) = a ++ rep (String c p) o 0 b.
Proof.
  induction a as [|x a IH]; [reflexivity|]. intros [H K]. cbn [append]. rewrite rep_char.
  - rewrite IH by exact K. reflexivity.
  - cbn. destruct (ascii_dec c x); [congruence|reflexivity].
Qed.

Lemma prefix_names d k k' x y b : without d x -> without d y ->
  String.prefix (x ++ String d k) (y ++ String d k' ++ b) = true -> x = y.
Proof.
  revert y. induction x as [|a x IH]; intros [|e y] Hx Hy H; [reflexivity| | |].
  - cbn in H. destruct (ascii_dec d e); [|discriminate]. destruct Hy as [Hy _]. congruence.
  - cbn in H. destruct (ascii_dec a d); [|discriminate]. destruct Hx as [Hx _]. congruence.
  - cbn in H. destruct (ascii_dec a e) as [->|]; [|discriminate]. f_equal. apply IH; [apply Hx|apply Hy|exact H].
Qed.

Definition subst (x o : string) (t : token) : token :=
  match t with Lit s => Lit s | Hole y => if String.eqb y x then Lit o else Hole y end.

(** ** {{name}} *)

Definition clean2 (t : token) : Prop :=
  match t with Lit s => without "{" s | Hole y => without "{" y /\ without "}" y end.

Lemma rep2_hole x y o b : without "}" x -> without "{" y -> without "}" y ->
  rep ("{{" ++ x ++ "}}") o 0 (("{{" ++ y ++ "}}") ++ b) =
  (if String.eqb y x then o else "{{" ++ y ++ "}}") ++ rep ("{{" ++ x ++ "}}") o 0 b.
Proof.
  intros Hx H1 H2. destruct (String.eqb_spec y x) as [->|N].
  - change ("{{" ++ x ++ "}}") with (String "{" (String "{" (x ++ "}}"))). apply rep_hit.
  - change (("{{" ++ y ++ "}}") ++ b) with (String "{" (String "{" ((y ++ "}}") ++ b))).
    change ("{{" ++ x ++ "}}") with (String "{" (String "{" (x ++ "}}"))).
    rewrite rep_char; [rewrite rep_char; [rewrite rep_lit; [reflexivity|]|]|].
    + apply without_app. split; [exact H1|]. cbn. repeat split; discriminate.
    + destruct y as [|e y]; [reflexivity|]. destruct H1 as [H1 _].
      rewrite prefix_eq. cbn [append]. apply prefix_ne. congruence.
    + destruct (String.prefix _ _) eqn:P; [|reflexivity]. exfalso. apply N. symmetry.
      apply (prefix_names "}" "}" "}" x y b Hx H2).
      rewrite !prefix_eq, app_assoc_s in P. exact P.
Qed.

Lemma rep2_written x o ts : without "}" x -> Forall clean2 ts ->
  rep ("{{" ++ x ++ "}}") o 0 (written "{{" "}}" ts) = written "{{" "}}" (map (subst x o) ts).
Proof.
  intros Hx. induction 1 as [|t ts H _ IH]; [reflexivity|]. destruct t as [s|y].
  - cbn [written write map subst]. change ("{{" ++ x ++ "}}") with (String "{" (String "{" (x ++ "}}"))) in *.
    rewrite rep_lit by exact H. rewrite IH. reflexivity.
  - cbn [written write map subst]. rewrite rep2_hole by (tauto || apply H). rewrite IH.
    destruct (String.eqb y x); reflexivity.
Qed.

Lemma subst_clean2 x o ts : without "{" o -> Forall clean2 ts -> Forall clean2 (map (subst x o) ts).
Proof.
  intros Ho H. apply Forall_map. eapply Forall_impl; [|exact H]. intros [s|y] C; [exact C|]. cbn [subst].
  destruct (String.eqb y x); [exact Ho|exact C].
Qed.

Lemma subst_filled v w vs ws t :
  filled_token (first_value vs ws) (subst v w t) = filled_token (first_value (v :: vs) (w :: ws)) t.
Proof.
  destruct t as [s|y]; [reflexivity|]. cbn [subst filled_token first_value]. rewrite (String.eqb_sym v y).
  destruct (String.eqb y v); reflexivity.
Qed.

Lemma fill_in_ok vars : forall vals ts, Forall clean2 ts -> Forall (without "}") vars -> Forall (without "{") vals ->
  (List.length vars <= List.length vals)%nat ->
  fill_in vars vals (written "{{" "}}" ts) = Ok (filled "{{" "}}" (first_value vars vals) ts).
Proof.
  induction vars as [|v vs IH]; intros vals ts C V W L.
  - cbn [fill_in]. f_equal. unfold filled. f_equal. transitivity (map (fun t : token => t) ts); [symmetry; apply map_id|].
    apply map_ext. intros [s|y]; reflexivity.
  - destruct vals as [|w ws]; [cbn in L; lia|]. cbn [fill_in]. unfold replace_str.
    inversion V as [|? ? V1 V2]; subst. inversion W as [|? ? W1 W2]; subst.
    rewrite rep2_written by assumption. rewrite IH; [|apply subst_clean2; assumption|assumption|assumption|cbn in L; lia].
    f_equal. unfold filled. rewrite map_map. f_equal. apply map_ext. apply subst_filled.
Qed.

Lemma fill_in_short vars : forall vals text, (List.length vals < List.length vars)%nat -> fill_in vars vals text = Err IndexError.
Proof.
  induction vars as [|v vs IH]; intros [|w ws] text L; cbn in L; try lia; [reflexivity|]. cbn [fill_in]. apply IH. lia.
Qed.

(** ** ${name} *)

Definition wrap (x : string) : string := "${" ++ x ++ "}".
Definition name_ok (y : string) : Prop := y <> "" /\ without "$" y /\ without "}" y.
Definition clean1 (t : token) : Prop :=
  match t with Lit s => without "$" s | Hole y => name_ok y end.

Lemma rep1_hole x y o b : without "}" x -> without "$" y -> without "}" y ->
  rep (wrap x) o 0 (wrap y ++ b) = (if String.eqb y x then o else wrap y) ++ rep (wrap x) o 0 b.
Proof.
  intros Hx H1 H2. unfold wrap. destruct (String.eqb_spec y x) as [->|N].
  - change ("${" ++ x ++ "}") with (String "$" (String "{" (x ++ "}"))). apply rep_hit.
  - change (("${" ++ y ++ "}") ++ b) with (String "$" ((String "{" (y ++ "}")) ++ b)).
    change ("${" ++ x ++ "}") with (String "$" (String "{" (x ++ "}"))).
    rewrite rep_char; [rewrite rep_lit; [reflexivity|]|].
    + cbn [without]. split; [discriminate|]. apply without_app. split; [exact H1|]. cbn. repeat split; discriminate.
    + destruct (String.prefix _ _) eqn:P; [|reflexivity]. exfalso. apply N. symmetry.
      apply (prefix_names "}" "" "" x y b Hx H2).
      rewrite prefix_eq in P. cbn [append] in P. rewrite prefix_eq, app_assoc_s in P. exact P.
Qed.

Lemma rep1_written x o ts : without "}" x -> Forall clean1 ts ->
  rep (wrap x) o 0 (written "${" "}" ts) = written "${" "}" (map (subst x o) ts).
Proof.
  intros Hx. induction 1 as [|t ts H _ IH]; [reflexivity|]. destruct t as [s|y].
  - cbn [written write map subst]. unfold wrap in *. change ("${" ++ x ++ "}") with (String "$" (String "{" (x ++ "}"))) in *.
    rewrite rep_lit by exact H. rewrite IH. reflexivity.
  - cbn [written write map subst]. change ("${" ++ y ++ "}") with (wrap y). destruct H as (_ & H1 & H2).
    rewrite rep1_hole by assumption. rewrite IH.
    destruct (String.eqb y x); reflexivity.
Qed.

Lemma subst_clean1 x o ts : without "$" o -> Forall clean1 ts -> Forall clean1 (map (subst x o) ts).
Proof.
  intros Ho H. apply Forall_map. eapply Forall_impl; [|exact H]. intros [s|y] C; [exact C|]. cbn [subst].
  destruct (String.eqb y x); [exact Ho|exact C].
Qed.

Lemma upto_name y b : without "}" y -> upto (y ++ String "}" b) = Some y.
Proof.
  induction y as [|a y IH]; [reflexivity|]. intros [H K]. cbn [append upto].
  destruct (Ascii.eqb_spec a "}"); [contradiction|]. rewrite IH by exact K. reflexivity.
Qed.

Lemma findall_pass a b : findall (String.length a) (a ++ b) = findall 0 b.
Proof. induction a as [|c a IH]; [destruct b; reflexivity|]. cbn [String.length append findall]. exact IH. Qed.

Lemma findall_lit a b : without "$" a -> findall 0 (a ++ b) = findall 0 b.
Proof.
  induction a as [|c a IH]; [reflexivity|]. intros [H K]. cbn [append findall].
  destruct (Ascii.eqb_spec c "$"); [contradiction|]. apply IH. exact K.
Qed.

Lemma findall_hole y b : name_ok y -> findall 0 (wrap y ++ b) = wrap y :: findall 0 b.
Proof.
  intros (N & _ & H). unfold wrap. change (("${" ++ y ++ "}") ++ b) with (String "$" (String "{" ((y ++ "}") ++ b))).
  cbn [findall]. replace (Ascii.eqb "$" "$") with true by reflexivity. replace (Ascii.eqb "{" "{") with true by reflexivity.
  assert (E : (y ++ "}") ++ b = y ++ String "}" b) by (rewrite app_assoc_s; reflexivity).
  rewrite E at 1. rewrite upto_name by exact H. destruct y as [|c y]; [contradiction|].
  f_equal.
  replace (String.length (String c y) + 2)%nat with (String.length (String "{" (String c y ++ "}"))).
  - apply (findall_pass (String "{" (String c y ++ "}")) b).
  - cbn [String.length]. rewrite length_app_s. cbn [String.length]. lia.
Qed.

Fixpoint holes (ts : list token) : list string :=
  match ts with [] => [] | Lit _ :: r => holes r | Hole y :: r => y :: holes r end.

Lemma findall_written ts : Forall clean1 ts -> findall 0 (written "${" "}" ts) = map wrap (holes ts).
Proof.
  induction 1 as [|t ts H _ IH]; [reflexivity|]. destruct t as [s|y]; cbn [written write holes map].
  - rewrite findall_lit by exact H. exact IH.
  - change ("${" ++ y ++ "}") with (wrap y). rewrite findall_hole by exact H. rewrite IH. reflexivity.
Qed.

Definition partly (value : string -> option string) (ys : list string) (t : token) : token :=
  match t with
  | Lit s => Lit s
  | Hole x => if existsb (String.eqb x) ys then filled_token value (Hole x) else Hole x
  end.

Lemma partly_cons value y ys t :
  partly value ys (match value y with Some v => subst y v t | None => t end) = partly value (y :: ys) t.
Proof.
  destruct t as [s|x].
  - destruct (value y); reflexivity.
  - cbn [partly existsb]. destruct (String.eqb_spec x y) as [->|N].
    + cbn [orb]. destruct (value y) as [v|] eqn:E.
      * cbn [subst]. rewrite String.eqb_refl. cbn [partly filled_token]. rewrite E. reflexivity.
      * cbn [partly filled_token]. rewrite E. destruct (existsb _ ys); reflexivity.
    + cbn [orb]. destruct (value y) as [v|]; [|reflexivity]. cbn [subst].
      destruct (String.eqb_spec x y); [contradiction|]. reflexivity.
Qed.

Section Dict.
Variable d : dict.
Variable value : string -> option string.
Hypothesis d_value : forall y, name_ok y -> get_dict d (wrap y) = value y.
Hypothesis values_ok : forall y v, value y = Some v -> without "$" v.

Lemma fold_fill ys : forall ts, Forall name_ok ys -> Forall clean1 ts ->
  fold_left (fun l m => match get_dict d m with Some v => replace_str m v l | None => l end) (map wrap ys) (written "${" "}" ts) =
  written "${" "}" (map (partly value ys) ts).
Proof.
  induction ys as [|y ys IH]; intros ts N C.
  - cbn [map fold_left]. f_equal. transitivity (map (fun t : token => t) ts); [symmetry; apply map_id|].
    apply map_ext. intros [s|x]; reflexivity.
  - inversion N as [|? ? N1 N2]; subst. cbn [map fold_left]. rewrite d_value by exact N1.
    transitivity (written "${" "}" (map (partly value ys) (map (fun t => match value y with Some v => subst y v t | None => t end) ts))).
    + destruct (value y) as [v|] eqn:E.
      * unfold replace_str. rewrite rep1_written by (apply N1 || exact C).
        apply IH; [exact N2|]. apply subst_clean1; [eapply values_ok; exact E|exact C].
      * rewrite map_id. apply IH; assumption.
    + rewrite map_map. f_equal. apply map_ext. intros t. apply partly_cons.
Qed.

Lemma holes_ok ts : Forall clean1 ts -> Forall name_ok (holes ts).
Proof. induction 1 as [|t ts H _ IH]; [constructor|]. destruct t; cbn [holes]; [exact IH|constructor; assumption]. Qed.

Lemma do_line_ok ts : Forall clean1 ts -> do_line d (written "${" "}" ts) = filled "${" "}" value ts.
Proof.
  intros C. unfold do_line. rewrite findall_written by exact C. rewrite fold_fill; [|apply holes_ok; exact C|exact C].
  unfold filled. f_equal. apply map_ext_in. intros [s|x] Hi; [reflexivity|]. cbn [partly].
  replace (existsb (String.eqb x) (holes ts)) with true; [reflexivity|].
  symmetry. apply existsb_exists. exists x. split; [|apply String.eqb_refl].
  clear C. induction ts as [|t ts IH]; [destruct Hi|]. destruct Hi as [->|Hi]; cbn [holes]; [left; reflexivity|].
  destruct t; [apply IH; exact Hi|right; apply IH; exact Hi].
Qed.
End Dict.

Lemma written_app b a xs ys : written b a (xs ++ ys) = written b a xs ++ written b a ys.
Proof. induction xs as [|x xs IH]; [reflexivity|]. cbn [app written]. rewrite IH, app_assoc_s. reflexivity. Qed.

Lemma filled_app b a v xs ys : filled b a v (xs ++ ys) = filled b a v xs ++ filled b a v ys.
Proof. unfold filled. rewrite map_app. apply written_app. Qed.

Lemma wrap_inj x y : wrap x = wrap y -> x = y.
Proof.
  unfold wrap. cbn [append]. intros H. injection H as H. revert y H.
  induction x as [|c x IH]; intros [|e y] H; cbn [append] in H; [reflexivity| | |].
  - injection H as _ H. destruct y; discriminate.
  - injection H as _ H. destruct x; discriminate.
  - injection H as -> H. f_equal. apply IH. exact H.
Qed.

Lemma assoc_app a b k : assoc (a ++ b)%list k = match assoc a k with Some v => Some v | None => assoc b k end.
Proof. induction a as [|[x v] a IH]; [reflexivity|]. cbn [app assoc]. destruct (String.eqb x k); [reflexivity|exact IH]. Qed.

Lemma get_dict_last names : forall vals y, get_dict (combine (map wrap names) vals) (wrap y) = last_value names vals y.
Proof.
  unfold get_dict. induction names as [|n ns IH]; intros [|w ws] y; cbn [map combine last_value]; try reflexivity.
  cbn [rev]. rewrite assoc_app, IH. destruct (last_value ns ws y); [reflexivity|]. cbn [assoc].
  destruct (String.eqb_spec (wrap n) (wrap y)) as [E|E]; destruct (String.eqb_spec n y) as [E'|E']; try reflexivity.
  - apply wrap_inj in E. contradiction.
  - subst. contradiction.
Qed.

Lemma last_value_in names : forall vals y v, last_value names vals y = Some v -> In v vals.
Proof.
  induction names as [|n ns IH]; intros [|w ws] y v H; cbn [last_value] in H; try discriminate.
  destruct (last_value ns ws y) eqn:E.
  - injection H as <-. right. eapply IH. exact E.
  - destruct (String.eqb n y); [|discriminate]. injection H as <-. left. reflexivity.
Qed.

Lemma concat_lines ls : String.concat "" (map (fun l => l ++ String newline "") ls) = unlines ls.
Proof.
  induction ls as [|l ls IH]; [reflexivity|]. cbn [map unlines].
  destruct ls as [|l2 ls].
  - cbn. reflexivity.
  - cbn [map] in *. change (String.concat "" ((l ++ String newline "") :: (l2 ++ String newline "") :: map (fun l => l ++ String newline "") ls))
      with ((l ++ String newline "") ++ "" ++ String.concat "" ((l2 ++ String newline "") :: map (fun l => l ++ String newline "") ls)).
    rewrite IH. cbn [append]. rewrite app_assoc_s. reflexivity.
Qed.
