(** Lemmas on the configuration file reader. *)

From Coq Require Import String Ascii List ZArith NArith QArith Bool Lia Lqa.
From Verif Require Import Time_Model Time_Proofs Io_Model Io_Spec Io_Proofs Io_Props
  Rti_Model Rti_Proofs Fmt_Model Fmt_Proofs Cfg_Model Cfg_Spec.
Import ListNotations.

(** ** Characters *)

Lemma is_space_bool a : is_space a =
  ((9 <=? nat_of_ascii a)%nat && (nat_of_ascii a <=? 13)%nat) || ((28 <=? nat_of_ascii a)%nat && (nat_of_ascii a <=? 32)%nat).
Proof. destruct a as [[] [] [] [] [] [] [] []]; vm_compute; reflexivity. Qed.
Lemma blank_is_space a : blank a <-> is_space a = true.
Proof.
  rewrite is_space_bool, orb_true_iff, !andb_true_iff, !Nat.leb_le. reflexivity.
Qed.
Lemma blanks_allspace s : blanks s -> allspace s = true.
Proof.
  induction s as [|a s IH]; cbn [blanks allspace]; [reflexivity|]. intros [A B]. apply andb_true_iff.
  split; [now apply blank_is_space|now apply IH].
Qed.
Lemma isdigit_bool a : isdigit a = ((48 <=? nat_of_ascii a)%nat && (nat_of_ascii a <=? 57)%nat).
Proof. destruct a as [[] [] [] [] [] [] [] []]; vm_compute; reflexivity. Qed.
Lemma is_digit_iff a : is_digit a <-> isdigit a = true.
Proof. rewrite isdigit_bool, andb_true_iff, !Nat.leb_le. reflexivity. Qed.
Lemma digits_all s : digits s <-> alldigits s = true.
Proof.
  induction s as [|a s IH]; cbn; [tauto|]. rewrite andb_true_iff, <- IH, <- is_digit_iff. tauto.
Qed.

Lemma lstrip_tight a m : ~ blank a -> lstrip (String a m) = String a m.
Proof.
  intro H. cbn. destruct (is_space a) eqn:E; [|reflexivity]. exfalso. apply H. now apply blank_is_space.
Qed.
Lemma rstrip_tight m a : ~ blank a -> rstrip (m ++ String a EmptyString) = (m ++ String a EmptyString)%string.
Proof.
  intro H. induction m as [|b m IH].
  - cbn. destruct (is_space a) eqn:E; [|reflexivity]. exfalso. apply H. now apply blank_is_space.
  - cbn [append rstrip]. rewrite IH. destruct m; reflexivity.
Qed.
Lemma trimmed_strip x y : trimmed x y -> strip x = y.
Proof.
  intros [(w & w' & W & W' & ->) T].
  rewrite strip_around by (now apply blanks_allspace). unfold strip.
  destruct T as [->|[(a & m & E & A) (m' & a' & E' & A')]]; [reflexivity|].
  rewrite E' at 1. rewrite rstrip_tight by exact A'. rewrite <- E', E. now apply lstrip_tight.
Qed.

Lemma bars_nosep s : bars s = 0%nat -> nosep "|" s = true.
Proof.
  induction s as [|a s IH]; cbn [bars nosep]; [reflexivity|]. unfold bar.
  destruct (Ascii.eqb a "|"); [discriminate|]. intro H. cbn. now apply IH.
Qed.
Lemma split_length s : List.length (split "|" s) = S (bars s).
Proof.
  induction s as [|a s IH]; [reflexivity|]. cbn [split bars]. unfold bar in *.
  destruct (Ascii.eqb a "|"); cbn [List.length]; [now rewrite IH|].
  destruct (split "|" s) as [|p ps]; [discriminate IH|]. exact IH.
Qed.
Lemma bars_app a b : bars (a ++ b) = (bars a + bars b)%nat.
Proof. induction a as [|x a IH]; [reflexivity|]. cbn [append bars]. rewrite IH. lia. Qed.

Definition nl := String newline EmptyString.

Section R.
Variable init_layers : Z -> attrs -> attrs.

Definition run1 (e : entry) (st : rstate) : res rstate :=
  setting init_layers (e_name e) (e_value e) (e_type e) st.
Fixpoint run (es : list entry) (st : rstate) : res rstate :=
  match es with [] => Ok st | e :: r => let! st := run1 e st in run r st end.

Lemma do_line_is l o st : line_is l o ->
  do_line init_layers (l ++ nl)%string st = match o with Some e => run1 e st | None => Ok st end.
Proof.
  intros [_ H]. unfold do_line. destruct o as [e|].
  - destruct H as (a & b & c & d & E & A & B & C & D & NC & Ta & Tb & Tc).
    assert (S : split "|" (l ++ nl) = [a; b; c; (d ++ nl)%string]).
    { subst l. rewrite !app_assoc_s. cbn [append].
      rewrite split_app by (now apply bars_nosep). f_equal.
      rewrite ?app_assoc_s. cbn [append]. rewrite split_app by (now apply bars_nosep). f_equal.
      rewrite ?app_assoc_s. cbn [append]. rewrite split_app by (now apply bars_nosep). f_equal.
      apply split_last. rewrite nosep_app, bars_nosep by exact D. reflexivity. }
    rewrite S. rewrite (trimmed_strip _ _ Ta), (trimmed_strip _ _ Tb), (trimmed_strip _ _ Tc).
    replace (is_comment (l ++ nl)) with false; [reflexivity|].
    symmetry. destruct l as [|x l]; [reflexivity|]. cbn [append is_comment].
    destruct x as [[] [] [] [] [] [] [] []]; try reflexivity. exfalso. apply NC. now exists l.
  - destruct H as [[r ->]|H].
    + destruct (split "|" (String "#" r ++ nl)) as [|? [|? [|? [|? [|]]]]]; reflexivity.
    + pose proof (split_length (l ++ nl)) as L. rewrite bars_app in L. cbn [bars nl] in L.
      change (bars nl) with 0%nat in L. 
      destruct (split "|" (l ++ nl)) as [|? [|? [|? [|? [|]]]]]; cbn in L; try reflexivity. exfalso. lia.
Qed.

Lemma do_lines_are lines marks st : Forall2 line_is lines marks ->
  do_lines init_layers (map (fun l => l ++ nl)%string lines) st = run (settings marks) st.
Proof.
  intro H. revert st. induction H as [|l o lines marks A _ IH]; intro st; [reflexivity|].
  cbn [map do_lines]. rewrite (do_line_is l o st A). destruct o as [e|]; cbn [settings run rbind].
  - destruct (run1 e st); [apply IH|reflexivity].
  - apply IH.
Qed.

Lemma text_unlines lines : text_of_lines lines = unlines lines.
Proof.
  induction lines as [|l lines IH]; [reflexivity|]. cbn [text_of_lines unlines]. rewrite IH. reflexivity.
Qed.
Lemma readlines_cfg lines marks : Forall2 line_is lines marks ->
  readlines (text_of_lines lines) = map (fun l => l ++ nl)%string lines.
Proof.
  intro H. rewrite text_unlines. apply readlines_text.
  induction H as [|l o lines marks [A _] _ IH]; constructor; [now apply free_nosep|exact IH].
Qed.
Lemma read_cfg A text es : cfg_file text es ->
  read_config_file init_layers A text = (let! st := run es (mkst A "" (VStr "")) in Ok (at_ st)).
Proof.
  intros (lines & marks & -> & F & <-). unfold read_config_file.
  rewrite (readlines_cfg _ _ F), (do_lines_are _ _ _ F). reflexivity.
Qed.

(** ** Names *)

Lemma bf_nosep s : brackets_free s -> nosep "[" s = true /\ nosep "]" s = true.
Proof. intro H. split; apply free_nosep; intro k; apply H. Qed.
Lemma rfind_none c s : nosep c s = true -> rfind c s = None.
Proof.
  induction s as [|a s IH]; cbn; [reflexivity|]. intro H. apply andb_true_iff in H as [A B].
  apply negb_true_iff in A. now rewrite IH, A.
Qed.
Lemma file_target_proper name base file : proper name base file -> file_target name = (base, file).
Proof.
  intros [(B & -> & ->)|(k & B & NE & K & -> & ->)]; unfold file_target.
  - apply bf_nosep in B as [B1 B2]. now rewrite (rfind_none "[" name B1).
  - apply bf_nosep in B as [B1 B2]. apply bf_nosep in K as [K1 K2].
    assert (E1 : rfind "[" (base ++ "[" ++ k ++ "]") = Some (String.length base)).
    { cbn [append]. apply rfind_app. rewrite nosep_app, K1. reflexivity. }
    assert (E2 : rfind "]" (base ++ "[" ++ k ++ "]") = Some (String.length base + S (String.length k))%nat).
    { replace (base ++ "[" ++ k ++ "]")%string with ((base ++ "[" ++ k) ++ String "]" EmptyString)%string.
      - rewrite rfind_app by reflexivity. rewrite !length_app_s. reflexivity.
      - rewrite !app_assoc_s. reflexivity. }
    rewrite E1, E2. replace ((0 <? String.length base) && (String.length base <? String.length base + S (String.length k)))%nat with true.
    2: { symmetry. apply andb_true_iff. rewrite !Nat.ltb_lt. destruct base; [easy|cbn [String.length]; lia]. }
    rewrite (take_app (String.length base) base) by reflexivity. rewrite (drop_app (String.length base) base) by reflexivity.
    f_equal. f_equal. f_equal.
    replace (String.length base + S (String.length k) + 1 - String.length base)%nat
      with (String.length ("[" ++ k ++ "]")).
    + rewrite <- (app_nil_s ("[" ++ k ++ "]")) at 2. now rewrite take_app.
    + rewrite !length_app_s. cbn. lia.
Qed.

Lemma upd_same A n v : upd A n v n = Some v.
Proof. unfold upd. now rewrite String.eqb_refl. Qed.
Lemma upd_other A n v m : n <> m -> upd A n v m = A m.
Proof. intro H. unfold upd. destruct (String.eqb_spec n m); congruence. Qed.

(** ** Settings *)

Lemma run1_leaves X e st st' : leaves X e -> run1 e st = Ok st' -> at_ st' X = at_ st X.
Proof.
  intros (NL & NX & base & file & P & FX) H. unfold run1, setting in H.
  rewrite (file_target_proper _ _ _ P) in H. destruct (String.eqb_spec (e_name e) "n_layers"); [congruence|].
  cbn [rbind] in H.
  set (g := if String.prefix (base ++ "_type") (last_name st) then _ else _) in H.
  destruct g as [[A md]|] eqn:G; [|discriminate H]. cbn [rbind] in H.
  assert (AX : A X = at_ st X).
  { unfold g in G. destruct (String.prefix _ _); [|now injection G as <- <-].
    destruct (last_value st); try discriminate G.
    destruct (String.eqb _ _); injection G as <- <-; now apply upd_other. }
  clear G g. rewrite <- AX.
  destruct (mem (e_type e) ["double"; "float"]%string).
  { destruct (float_of _); [|discriminate H]. injection H as <-. now apply upd_other. }
  destruct (mem (e_type e) ["long"; "int"]%string).
  { destruct (int32_of _); [|discriminate H]. injection H as <-. now apply upd_other. }
  destruct (String.eqb (e_type e) "string").
  2: { injection H as <-. reflexivity. }
  destruct (expand A (e_value e)); [|discriminate H]. cbn [rbind] in H.
  destruct (mem _ true_list); [injection H as <-; now apply upd_other|].
  destruct (mem _ false_list); [injection H as <-; now apply upd_other|].
  destruct md; injection H as <-; now apply upd_other.
Qed.
Lemma run_leaves X es st st' : Forall (leaves X) es -> run es st = Ok st' -> at_ st' X = at_ st X.
Proof.
  intro L. revert st. induction L as [|e es A _ IH]; intros st H; cbn [run] in H.
  - now injection H as <-.
  - destruct (run1 e st) as [s1|] eqn:E; [|discriminate H]. cbn [rbind] in H.
    rewrite (IH _ H). now apply (run1_leaves X e st s1).
Qed.
Lemma run_app a b st : run (a ++ b) st = (let! s := run a st in run b s).
Proof.
  revert st. induction a as [|e a IH]; intro st; [reflexivity|]. cbn [app run].
  destruct (run1 e st); [apply IH|reflexivity].
Qed.
Lemma run1_last e st st' : run1 e st = Ok st' -> last_name st' = e_name e.
Proof.
  unfold run1, setting. intro H.
  set (g0 := if String.eqb (e_name e) "n_layers" then _ else _) in H.
  destruct g0 as [A0|]; [|discriminate H]. cbn [rbind] in H. destruct (file_target _) as [base file].
  set (g := if String.prefix (base ++ "_type") (last_name st) then _ else _) in H.
  destruct g as [[A md]|]; [|discriminate H]. cbn [rbind] in H.
  destruct (mem (e_type e) ["double"; "float"]%string).
  { destruct (float_of _); [|discriminate H]. now injection H as <-. }
  destruct (mem (e_type e) ["long"; "int"]%string).
  { destruct (int32_of _); [|discriminate H]. now injection H as <-. }
  destruct (String.eqb (e_type e) "string"); [|now injection H as <-].
  destruct (expand A (e_value e)); [|discriminate H]. cbn [rbind] in H.
  destruct (mem _ true_list); [now injection H as <-|].
  destruct (mem _ false_list); [now injection H as <-|].
  destruct md; now injection H as <-.
Qed.
Lemma run1_last_text e st st' : e_type e = "string"%string -> run1 e st = Ok st' -> last_value st' = VStr (e_value e).
Proof.
  unfold run1, setting. intros T H. rewrite T in H.
  set (g0 := if String.eqb (e_name e) "n_layers" then _ else _) in H.
  destruct g0 as [A0|]; [|discriminate H]. cbn [rbind] in H. destruct (file_target _) as [base file].
  set (g := if String.prefix (base ++ "_type") (last_name st) then _ else _) in H.
  destruct g as [[A md]|]; [|discriminate H]. cbn [rbind] in H.
  change (mem "string" ["double"; "float"]%string) with false in H.
  change (mem "string" ["long"; "int"]%string) with false in H. cbv iota in H.
  change (String.eqb "string" "string") with true in H. cbv iota in H.
  destruct (expand A (e_value e)); [|discriminate H]. cbn [rbind] in H.
  destruct (mem _ true_list); [now injection H as <-|].
  destruct (mem _ false_list); [now injection H as <-|].
  destruct md; now injection H as <-.
Qed.
End R.

Lemma prefix_iff p s : String.prefix p s = true <-> starts p s.
Proof.
  unfold starts. revert s. induction p as [|a p IH]; intro s.
  - cbn. split; [intros _; now exists s|]. destruct s; reflexivity.
  - destruct s as [|b s]; cbn [String.prefix].
    + split; [discriminate|]. intros [r E]. discriminate E.
    + destruct (ascii_dec a b) as [->|N].
      * rewrite IH. split; intros [r E]; exists r; cbn [append] in *; congruence.
      * split; [discriminate|]. intros [r E]. cbn in E. congruence.
Qed.

(** ** Numbers *)

Lemma parse_dval s acc : alldigits s = true -> parse_digits s acc = Some (Z.to_N (dval s (Z.of_N acc))) /\ (0 <= dval s (Z.of_N acc))%Z.
Proof.
  revert acc. induction s as [|a s IH]; intros acc H; cbn [parse_digits dval].
  - rewrite N2Z.id. split; [reflexivity|lia].
  - cbn in H. apply andb_true_iff in H as [A B].
    assert (D : exists v, digit_val a = Some v /\ Z.of_N v = (Z.of_nat (nat_of_ascii a) - 48)%Z).
    { clear -A. destruct a as [[] [] [] [] [] [] [] []]; vm_compute in A; try discriminate A;
        eexists; split; vm_compute; reflexivity. }
    destruct D as (v & -> & E). cbv iota.
    replace (Z.of_N acc * 10 + (Z.of_nat (nat_of_ascii a) - 48))%Z with (Z.of_N (10 * acc + v)) by lia.
    apply IH, B.
Qed.
Lemma parse_dval0 s : alldigits s = true -> parse_digits s 0 = Some (Z.to_N (dval s 0)) /\ (0 <= dval s 0)%Z.
Proof. intro H. exact (parse_dval s 0 H). Qed.
Lemma dval_app a b acc : dval (a ++ b) acc = dval b (dval a acc).
Proof. revert acc. induction a as [|x a IH]; intro acc; [reflexivity|]. cbn [append dval]. apply IH. Qed.

Lemma float_unsigned_ok s q : unsigned_decimal s q -> exists q', float_unsigned s = Ok q' /\ (q' == q)%Q.
Proof.
  intros (i & f & I & F & T & E). apply digits_all in I. apply digits_all in F.
  unfold float_unsigned. destruct T as [(-> & -> & NE)|(-> & NE)].
  - rewrite split_last by (apply nosep_digits; [reflexivity|exact I]).
    destruct (parse_dval0 i I) as [EP P]. destruct i as [|x i]; [easy|]. rewrite EP.
    eexists. split; [reflexivity|]. rewrite Z2N.id by exact P. cbn [dval String.length Z.of_nat] in E.
    change (inject_Z (10 ^ 0)) with 1%Q in E. rewrite Qmult_1_r in E. cbn [dval]. symmetry. exact E.
  - cbn [append]. rewrite split_app by (apply nosep_digits; [reflexivity|exact I]).
    rewrite split_last by (apply nosep_digits; [reflexivity|exact F]).
    destruct (parse_dval0 (i ++ f)) as [Hp P]; [now rewrite alldigits_app, I, F|].
    rewrite dval_app in P.
    assert (PP : (0 < inject_Z (10 ^ Z.of_nat (String.length f)))%Q) by apply qpow10_pos.
    assert (NZ : (~ inject_Z (10 ^ Z.of_nat (String.length f)) == 0)%Q) by (intro Z0; rewrite Z0 in PP; apply (Qlt_irrefl 0 PP)).
    assert (R : (inject_Z (Z.of_N (Z.to_N (dval (i ++ f) 0))) / inject_Z (10 ^ Z.of_nat (String.length f)) == q)%Q).
    { rewrite dval_app, Z2N.id by exact P. rewrite <- E. field. exact NZ. }
    destruct (i ++ f)%string as [|x r] eqn:EE.
    + exfalso. apply (f_equal String.length) in EE. rewrite length_app_s in EE. cbn in EE.
      destruct i, f; cbn in EE; try discriminate EE. tauto.
    + rewrite Hp. eexists. split; [reflexivity|exact R].
Qed.

Lemma unsigned_first s q : unsigned_decimal s q ->
  exists a r, s = String a r /\ a <> "-"%char /\ a <> "+"%char.
Proof.
  intros (i & f & I & F & T & _). destruct T as [(-> & _ & NE)|(-> & _)].
  - destruct i as [|a i]; [easy|]. destruct I as [A _]. exists a, i. split; [reflexivity|].
    unfold is_digit in A. split; intros ->; vm_compute in A; lia.
  - destruct i as [|a i].
    + exists "."%char, f. split; [reflexivity|]. split; discriminate.
    + exists a, (i ++ "." ++ f)%string. destruct I as [A _]. split; [reflexivity|].
      unfold is_digit in A. split; intros ->; vm_compute in A; lia.
Qed.
Lemma ascii_case_minus {T} (a : ascii) (x y z : T) : a <> "-"%char -> a <> "+"%char ->
  (match a with "-"%char => x | "+"%char => y | _ => z end) = z.
Proof. intros A B. destruct a as [[] [] [] [] [] [] [] []]; try reflexivity; congruence. Qed.

Lemma float_signed_ok s q : decimal s q -> exists q', float_signed s = Ok q' /\ (q' == q)%Q.
Proof.
  intros (u & p & U & T). destruct (float_unsigned_ok u p U) as (p' & E & P).
  destruct (unsigned_first u p U) as (a & r & -> & A1 & A2).
  destruct T as [[[->| ->] Q]|[-> Q]].
  - exists p'. split; [|rewrite Q; exact P]. unfold float_signed.
    rewrite <- E. destruct a as [[] [] [] [] [] [] [] []]; try reflexivity; congruence.
  - exists p'. split; [exact E|rewrite Q; exact P].
  - exists (- p')%Q. unfold float_signed. rewrite E. split; [reflexivity|]. rewrite P, Q. reflexivity.
Qed.

Lemma lower_app a b : lower (a ++ b) = (lower a ++ lower b)%string.
Proof. unfold lower. induction a as [|x a IH]; [reflexivity|]. cbn. now rewrite IH. Qed.
Lemma lower_digits s : alldigits s = true -> lower s = s.
Proof.
  unfold lower. induction s as [|a s IH]; [reflexivity|]. cbn. intro H. apply andb_true_iff in H as [A B].
  rewrite IH by exact B. f_equal. destruct a as [[] [] [] [] [] [] [] []]; vm_compute in A; try discriminate A; reflexivity.
Qed.
Lemma unsigned_plain s q : unsigned_decimal s q -> lower s = s /\ nosep "e" s = true.
Proof.
  intros (i & f & I & F & T & _). apply digits_all in I. apply digits_all in F.
  destruct T as [(-> & _ & _)|(-> & _)].
  - split; [now apply lower_digits|apply nosep_digits; [reflexivity|exact I]].
  - rewrite !lower_app, !nosep_app, (lower_digits i I), (lower_digits f F), (nosep_digits "e" i), (nosep_digits "e" f) by (reflexivity || assumption). split; reflexivity.
Qed.
Lemma decimal_plain s q : decimal s q -> lower s = s /\ nosep "e" s = true.
Proof.
  intros (u & p & U & T). destruct (unsigned_plain u p U) as [A B].
  destruct T as [[[->| ->] _]|[-> _]]; [split; assumption| |];
    (split; [unfold lower in *; cbn [smap]; rewrite A; reflexivity|cbn; exact B]).
Qed.
Lemma whole_int e k : whole e k -> py_int e = Ok k /\ lower e = e /\ nosep "e" e = true.
Proof.
  intros (ds & D & NE & T). apply digits_all in D.
  assert (N : nosep "e" ds = true) by (apply nosep_digits; [reflexivity|exact D]).
  assert (PU : parse_unsigned ds = Ok (dval ds 0)).
  { unfold parse_unsigned. destruct (parse_dval0 ds D) as [E P].
    destruct ds as [|a r]; [easy|]. rewrite E. now rewrite Z2N.id. }
  assert (RS : rstrip ds = ds) by now apply rstrip_digits.
  destruct T as [[[->| ->] ->]|[-> ->]].
  - split; [now rewrite py_int_digits|]. split; [now apply lower_digits|exact N].
  - split.
    + unfold py_int. cbn [rstrip]. rewrite RS. destruct ds; [easy|]. cbn [lstrip is_space]. exact PU.
    + unfold lower. cbn. rewrite (lower_digits ds D : smap lower_char ds = ds). split; [reflexivity|exact N].
  - split.
    + unfold py_int. cbn [rstrip]. rewrite RS. destruct ds as [|a ds]; [easy|].
      change ((let! z := parse_unsigned (String a ds) in Ok (- z)%Z) = Ok (- dval (String a ds) 0)%Z). now rewrite PU.
    + unfold lower. cbn. rewrite (lower_digits ds D : smap lower_char ds = ds). split; [reflexivity|exact N].
Qed.

Lemma ten_to_spec k : (ten_to k * inject_Z (10 ^ Z.max 0 (- k)) == inject_Z (10 ^ Z.max 0 k))%Q.
Proof.
  unfold ten_to. destruct (Z.ltb_spec k 0) as [L|L].
  - rewrite (Z.max_r 0 (- k)), (Z.max_l 0 k) by lia. change (inject_Z (10 ^ 0)) with 1%Q.
    field. change 0%Q with (inject_Z 0). rewrite inject_Z_injective. apply Z.pow_nonzero; lia.
  - rewrite (Z.max_l 0 (- k)), (Z.max_r 0 k) by lia. change (inject_Z (10 ^ 0)) with 1%Q. apply Qmult_1_r.
Qed.

Lemma float_of_ok s q : numeral s q -> exists q', float_of s = Ok q' /\ (q' == q)%Q.
Proof.
  unfold float_of. intros [D|(m & p & e & k & D & W & T & E)].
  - destruct (decimal_plain s q D) as [-> N]. rewrite split_last by exact N. now apply float_signed_ok.
  - destruct (decimal_plain m p D) as [L N]. destruct (whole_int e k W) as (PI & LE & NE).
    assert (SP : split "e" (lower s) = [m; e]).
    { destruct T as [-> | ->]; rewrite !lower_app, L, LE; cbn [append lower smap];
        change (split "e" (m ++ String "e" e) = [m; e]); rewrite split_app, split_last by assumption; reflexivity. }
    rewrite SP. destruct (float_signed_ok m p D) as (p' & -> & P). cbn [rbind]. rewrite PI. cbn [rbind].
    eexists. split; [reflexivity|]. pose proof (ten_to_spec k) as TS.
    assert (Z0 : (~ inject_Z (10 ^ Z.max 0 (- k)) == 0)%Q).
    { change 0%Q with (inject_Z 0). rewrite inject_Z_injective. apply Z.pow_nonzero; lia. }
    apply (Qmult_inj_r _ _ (inject_Z (10 ^ Z.max 0 (- k))) Z0). rewrite E, <- TS, P. ring.
Qed.

(** ** Words for yes and no *)

Lemma lower_char_spec a : lower_char a =
  if (65 <=? nat_of_ascii a)%nat && (nat_of_ascii a <=? 90)%nat then ascii_of_nat (nat_of_ascii a + 32) else a.
Proof. destruct a as [[] [] [] [] [] [] [] []]; vm_compute; reflexivity. Qed.
Lemma lower_case_iff s w : lower_case s w <-> w = lower s.
Proof.
  unfold lower_case, lower. revert w. induction s as [|a s IH]; intro w.
  - split; [intros [H _]; destruct w; [reflexivity|discriminate H]|intros ->; split; [reflexivity|intros k a H; destruct k; discriminate H]].
  - split.
    + intros [L H]. destruct w as [|b w]; [discriminate L|]. cbn [smap]. f_equal.
      * specialize (H 0%nat a eq_refl). cbn [String.get] in H. injection H as ->. symmetry. apply lower_char_spec.
      * apply IH. split; [now injection L|]. intros k c G. exact (H (S k) c G).
    + intros ->. cbn [smap String.length]. destruct (proj2 (IH (smap lower_char s)) eq_refl) as [L H].
      split; [now rewrite <- L|]. intros [|k] c G; cbn [String.get] in *.
      * injection G as <-. f_equal. apply lower_char_spec.
      * now apply H.
Qed.
Lemma mem_In s l : mem s l = true <-> In s l.
Proof.
  unfold mem. rewrite existsb_exists. split.
  - intros (x & I & E). apply String.eqb_eq in E. now subst.
  - intro I. exists s. split; [exact I|apply String.eqb_refl].
Qed.
Lemma yes_iff s : says_yes s <-> mem (lower s) true_list = true.
Proof.
  rewrite mem_In. unfold says_yes. split.
  - intros (w & L & I). apply lower_case_iff in L. now subst.
  - intro I. exists (lower s). split; [now apply lower_case_iff|exact I].
Qed.
Lemma no_iff s : says_no s <-> mem (lower s) false_list = true.
Proof.
  rewrite mem_In. unfold says_no. split.
  - intros (w & L & I). apply lower_case_iff in L. now subst.
  - intro I. exists (lower s). split; [now apply lower_case_iff|exact I].
Qed.
Lemma scalar_iff s : says_scalar s <-> String.eqb (lower s) "scalar" = true.
Proof. unfold says_scalar. rewrite lower_case_iff, String.eqb_eq. split; congruence. Qed.

Lemma take_lit p r : String.length p = 13%nat -> take 13 (p ++ r) = p /\ drop 13 (p ++ r) = r.
Proof. intro L. now rewrite take_app, drop_app. Qed.
Lemma take_starts p s : String.length p = 13%nat -> String.eqb (take 13 s) p = true -> starts p s.
Proof.
  intros L E. apply String.eqb_eq in E. exists (drop 13 s). rewrite <- E. symmetry. apply take_drop.
Qed.
Lemma expand_ok A s w : expands_to A s w -> expand A s = Ok w.
Proof.
  unfold expand. intros [(r & p & -> & E & ->)|[(r & p & -> & E & ->)|(N1 & N2 & ->)]].
  - destruct (take_lit "[case_prefix]" r eq_refl) as [-> ->]. cbn [String.eqb Ascii.eqb Bool.eqb].
    unfold prefixed. now rewrite E.
  - destruct (take_lit "[site_prefix]" r eq_refl) as [-> ->]. 
    change (String.eqb "[site_prefix]" "[case_prefix]") with false. cbv iota. rewrite String.eqb_refl.
    unfold prefixed. now rewrite E.
  - destruct (String.eqb (take 13 s) "[case_prefix]") eqn:E1.
    { exfalso. apply N1. now apply take_starts. }
    destruct (String.eqb (take 13 s) "[site_prefix]") eqn:E2; [|reflexivity].
    exfalso. apply N2. now apply take_starts.
Qed.
